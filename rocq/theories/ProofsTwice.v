(** Registering the same portable types a second time (ModelScaleInfo.v): the
    second run goes the way of the first, and finds its types registered. *)

From Verif Require Import GoBase ModelTools ModelVal ModelRegistry ModelDecode ModelEncode ModelRegister ModelScaleInfo ProofsBase ProofsTools ProofsRun
  ProofsApi ProofsNames ProofsTexts ProofsPortText ProofsPortReg PropDescribe ProofsFrame.

(** ** What is registered in one registry is registered in the other *)
Definition within (r r' : reg) : Prop :=
  (forall k, assoc k (r_v14 r) <> None -> assoc k (r_v14 r') <> None) /\ (forall k, assoc k (r_types r) <> None -> assoc k (r_types r') <> None).
Lemma within_refl r : within r r. Proof. now split. Qed.
Lemma within_trans r1 r2 r3 : within r1 r2 -> within r2 r3 -> within r1 r3.
Proof. intros [A B] [C D]. split; intros k H; [apply C, A, H|apply D, B, H]. Qed.
Lemma within_key key cd r : within r (regCustomKey key cd r).
Proof.
  unfold regCustomKey. assert (T : within r (with_types (upd key cd) r)).
  { split; [now intros k|]. intros k H. cbn [with_types r_types]. rewrite assoc_upd. destruct (String.eqb k key); [discriminate|exact H]. }
  destruct (split_char "#"%char key) as [|a [|b [|d t]]]; try exact T. destruct (version_range b). now split.
Qed.

(** Only the names [K] may mean something else. *)
Definition except (K : string -> Prop) (r r' : reg) : Prop :=
  r_special r' = r_special r /\ r_v14 r' = r_v14 r /\ forall k, ~ K k -> assoc k (r_types r') = assoc k (r_types r).
Lemma except_refl K r : except K r r. Proof. now split. Qed.
Lemma except_trans K r1 r2 r3 : except K r1 r2 -> except K r2 r3 -> except K r1 r3.
Proof. intros (A & B & C) (D & E & F). split; [congruence|]. split; [congruence|]. intros k N. now rewrite F, C. Qed.
Lemma except_key (K : string -> Prop) key cd r : ~ has_char "#"%char key -> K key -> except K r (regCustomKey key cd r).
Proof.
  intros N H. unfold regCustomKey. rewrite split_absent by exact N. split; [reflexivity|]. split; [reflexivity|]. intros k X. cbn [with_types r_types]. rewrite assoc_upd.
  destruct (String.eqb_spec k key) as [->|]; [contradiction|reflexivity].
Qed.

(** ** One registration *)
Lemma reg_one_grows c key t s s' : reg_one c key t s = Ok s' -> usual t -> t_spec t = 0 ->
  g_names s' = g_names s /\ g_dup s' = g_dup s /\ within (g_reg s) (g_reg s') /\ (t_v14 t = true -> assoc key (r_v14 (g_reg s')) <> None).
Proof.
  intros H U SP. unfold reg_one in H. apply bind_ok in H. destruct H as (r' & H & [= <-]). cbn [g_names g_dup g_reg]. split; [reflexivity|]. split; [reflexivity|].
  unfold RegCustomTypes in H. cbn [reg_loop] in H. apply bind_ok in H. destruct H as (o & V & H). unfold v14_step in V. rewrite SP in V.
  assert (O : forall k1 r1, o = Some (k1, r1) -> within (g_reg s) r1 /\ (t_v14 t = true -> assoc key (r_v14 r1) <> None)).
  { intros k1 r1 ->. destruct (t_v14 t); [|injection V as <- <-; split; [apply within_refl|discriminate]].
    destruct (assoc key (r_v14 (g_reg s))); [discriminate|]. injection V as <- <-. split; [split; [|now intros k]|intros _].
    - intros k X. cbn [with_v14 r_v14]. rewrite assoc_upd. destruct (String.eqb k key); [discriminate|exact X].
    - cbn [with_v14 r_v14]. rewrite assoc_upd, String.eqb_refl. discriminate. }
  destruct o as [[k1 r1]|].
  - destruct (O k1 r1 eq_refl) as [O1 O2]. apply bind_ok in H. destruct H as (r2 & H & [= <-]). apply one_reg in H; [|exact U].
    destruct H as [(cd & _ & ->)|[-> _]]; [|now split]. pose proof (within_key (to_lower k1) cd r1) as W. split; [eapply within_trans; eassumption|].
    intros X. apply W. now apply O2.
  - injection H as <-. split; [apply within_refl|]. intros X. rewrite X in V. destruct (assoc key (r_v14 (g_reg s))); [discriminate|discriminate V].
Qed.
Lemma reg_one_again c key t s : t_v14 t = true -> t_spec t = 0 -> assoc key (r_v14 (g_reg s)) <> None -> reg_one c key t s = Ok s.
Proof.
  intros V SP A. unfold reg_one, RegCustomTypes. cbn [reg_loop]. unfold v14_step. rewrite V, SP. destruct (assoc key (r_v14 (g_reg s))); [|congruence].
  cbn [Z.eqb bind]. now destruct s.
Qed.
Lemma shape_ok key ts r r1 r2 : reg_shape key ts r = Ok r1 -> exists r3, reg_shape key ts r2 = Ok r3.
Proof.
  unfold reg_shape. destruct (first_char ts); [|discriminate]. destruct (last_char ts); [|discriminate]. intros _.
  destruct (if Ascii.eqb a0 ">"%char then generic_parts ts else None) as [[n sub]|];
  repeat match goal with |- context [if ?b then _ else _] => destruct b; try (eexists; reflexivity) end;
  destruct (split_char _ _) as [|x [|y [|z l]]]; eexists; reflexivity.
Qed.
Lemma reg_alias c key n s s' s2 : reg_one c key (alias_of false 0 n) s = Ok s' -> within (g_reg s) (g_reg s2) -> ~ has_char "#"%char key ->
  exists s2', reg_one c key (alias_of false 0 n) s2 = Ok s2' /\ g_names s2' = g_names s2 /\ g_dup s2' = g_dup s2 /\ within (g_reg s2) (g_reg s2') /\
  except (eq (to_lower key)) (g_reg s2) (g_reg s2').
Proof.
  intros H W N. assert (X : exists r3, RegCustomTypes (i_fuel c) [(key, alias_of false 0 n)] (g_reg s2) = Ok r3).
  { unfold reg_one in H. apply bind_ok in H. destruct H as (r' & H & _). unfold RegCustomTypes in *. cbn [reg_loop] in *. unfold v14_step in *. unfold alias_of in *. cbn [t_v14 bind t_type String.eqb Ascii.eqb Bool.eqb] in *.
    apply bind_ok in H. destruct H as (r2 & H & _). unfold reg_string in *. cbn [t_string] in *.
    assert (Q : forall k, assoc k (r_types (g_reg s2)) = None -> assoc k (r_types (g_reg s)) = None).
    { intros k Z. destruct (assoc k (r_types (g_reg s))) eqn:Y; [|reflexivity]. exfalso. apply (proj2 W k); congruence. }
    destruct (assoc (to_lower (ConvertType n)) (r_types (g_reg s2))) eqn:A; [eexists; reflexivity|]. rewrite (Q _ A) in H. cbn [assoc] in *.
    destruct (String.eqb (ConvertType n) key).
    - cbn [t_type String.eqb Ascii.eqb Bool.eqb t_string] in *. destruct (assoc (to_lower n) (r_types (g_reg s2))) eqn:B; [eexists; reflexivity|]. rewrite (Q _ B) in H.
      destruct (shape_ok _ _ _ _ (g_reg s2) H) as [r3 ->]. eexists. reflexivity.
    - destruct (shape_ok _ _ _ _ (g_reg s2) H) as [r3 ->]. eexists. reflexivity. }
  destruct X as [r3 X]. exists (SiState (g_names s2) (g_dup s2) r3). unfold reg_one. rewrite X. split; [reflexivity|].
  assert (G : reg_one c key (alias_of false 0 n) s2 = Ok (SiState (g_names s2) (g_dup s2) r3)) by (unfold reg_one; now rewrite X).
  apply reg_one_grows in G; [|unfold usual; cbn; tauto|reflexivity]. destruct G as (A & B & G & _). split; [exact A|]. split; [exact B|]. split; [exact G|]. cbn [g_reg].
  unfold RegCustomTypes in X. cbn [reg_loop] in X. apply bind_ok in X. destruct X as (o & V & X). unfold v14_step in V. cbn [alias_of t_v14] in V. injection V as <-.
  apply bind_ok in X. destruct X as (r4 & X & [= <-]). apply one_reg in X; [|unfold usual; cbn; tauto]. destruct X as [(cd & _ & ->)|[-> _]]; [|apply except_refl].
  apply except_key; [|reflexivity]. intros Y. apply (proj1 (lower_has "#"%char key eq_refl)) in Y. contradiction.
Qed.

(** ** Two runs *)
Section Twice.
Variable c : sictx.
Notation port := (i_port c).
Hypothesis PRE : i_prefix c = "".
Hypothesis V14 : i_v14 c = true.
Hypothesis SPEC : i_spec c = 0.
Hypothesis HASH : plain_paths port.
(** What the first run has registered in the end, and the registry in which the second begins. *)
Variables first start : reg.

(** The names that are registered each time. *)
Definition call_name (k : string) : Prop :=
  exists id t, In (id, t) port /\ path_last (s_path t) = Some "RuntimeCall" /\
  (k = to_lower (join ":" (s_path t)) \/ k = to_lower (join ":" (s_path t) ++ "@" ++ itoa id)).
Definition renewed (k : string) : Prop := k = "extrinsicsignature" \/ k = "extrinsicsigner" \/ call_name k.

Record sim (s s2 : sistate) : Prop := {
  sm_names : g_names s2 = g_names s;
  sm_dup : g_dup s2 = g_dup s;
  sm_has : within first (g_reg s2);
  sm_rest : except renewed start (g_reg s2) }.
Definition runs {A} (m : sistate -> res (A * sistate)) : Prop := forall s x s', m s = Ok (x, s') ->
  within (g_reg s) (g_reg s') /\ (within (g_reg s') first -> forall s2, sim s s2 -> exists s2', m s2 = Ok (x, s2') /\ sim s' s2').
Definition goes (m : sistate -> res sistate) : Prop := forall s s', m s = Ok s' ->
  within (g_reg s) (g_reg s') /\ (within (g_reg s') first -> forall s2, sim s s2 -> exists s2', m s2 = Ok s2' /\ sim s' s2').

Lemma runs_ret {A} (x : A) : runs (fun s => Ok (x, s)).
Proof. intros s y s' [= <- <-]. split; [apply within_refl|]. intros _ s2 S. now exists s2. Qed.
Lemma goes_ret : goes (fun s => Ok s).
Proof. intros s s' [= <-]. split; [apply within_refl|]. intros _ s2 S. now exists s2. Qed.
Lemma sim_set s s2 id n : sim s s2 -> sim (set_name id n s) (set_name id n s2).
Proof. intros [A B C D]. split; cbn [set_name g_names g_dup g_reg]; congruence || assumption. Qed.
Lemma runs_set {A} (x : A) id n : runs (fun s => Ok (x, set_name id n s)).
Proof. intros s y s' [= <- <-]. split; [apply within_refl|]. intros _ s2 S. exists (set_name id n s2). split; [reflexivity|now apply sim_set]. Qed.
Lemma runs_panic {A} m : runs (fun _ => Panic m : res (A * sistate)). Proof. intros s x s'. discriminate. Qed.
Lemma goes_panic m : goes (fun _ => Panic m). Proof. intros s s'. discriminate. Qed.
Lemma runs_bind {A B} (m : sistate -> res (A * sistate)) (k : A -> sistate -> res (B * sistate)) :
  runs m -> (forall x, runs (k x)) -> runs (fun s => '(x, s) <- m s ;; k x s).
Proof.
  intros M K s y s' H. apply bind_ok in H. destruct H as ([x s1] & E & H). destruct (M _ _ _ E) as [W1 S1]. destruct (K x _ _ _ H) as [W2 S2].
  split; [eapply within_trans; eassumption|]. intros F s2 S. destruct (S1 (within_trans _ _ _ W2 F) s2 S) as (t1 & -> & T). cbn [bind]. now apply S2.
Qed.
Lemma runs_bind1 {B} (m : sistate -> res sistate) (k : sistate -> res (B * sistate)) : goes m -> runs k -> runs (fun s => s <- m s ;; k s).
Proof.
  intros M K s y s' H. apply bind_ok in H. destruct H as (s1 & E & H). destruct (M _ _ E) as [W1 S1]. destruct (K _ _ _ H) as [W2 S2].
  split; [eapply within_trans; eassumption|]. intros F s2 S. destruct (S1 (within_trans _ _ _ W2 F) s2 S) as (t1 & -> & T). cbn [bind]. now apply S2.
Qed.
Lemma goes_bind {A} (m : sistate -> res (A * sistate)) (k : A -> sistate -> res sistate) :
  runs m -> (forall x, goes (k x)) -> goes (fun s => '(x, s) <- m s ;; k x s).
Proof.
  intros M K s s' H. apply bind_ok in H. destruct H as ([x s1] & E & H). destruct (M _ _ _ E) as [W1 S1]. destruct (K x _ _ H) as [W2 S2].
  split; [eapply within_trans; eassumption|]. intros F s2 S. destruct (S1 (within_trans _ _ _ W2 F) s2 S) as (t1 & -> & T). cbn [bind]. now apply S2.
Qed.
Lemma goes_bind1 (m k : sistate -> res sistate) : goes m -> goes k -> goes (fun s => s <- m s ;; k s).
Proof.
  intros M K s s' H. apply bind_ok in H. destruct H as (s1 & E & H). destruct (M _ _ E) as [W1 S1]. destruct (K _ _ H) as [W2 S2].
  split; [eapply within_trans; eassumption|]. intros F s2 S. destruct (S1 (within_trans _ _ _ W2 F) s2 S) as (t1 & -> & T). cbn [bind]. now apply S2.
Qed.
Lemma runs_name {B} t id (k : string -> sistate -> res (B * sistate)) : (forall D n, nameSiType c D t id = Ok n -> runs (k n)) ->
  runs (fun s => n <- nameSiType c (g_dup s) t id ;; k n s).
Proof.
  intros K s y s' H. apply bind_ok in H. destruct H as (n & E & H). destruct (K _ _ E _ _ _ H) as [W S]. split; [exact W|]. intros F s2 S2.
  rewrite (sm_dup _ _ S2), E. cbn [bind]. now apply S.
Qed.
Lemma runs_names {B} (k : list (Z * string) -> sistate -> res (B * sistate)) : (forall N, runs (k N)) -> runs (fun s => k (g_names s) s).
Proof. intros K s y s' H. destruct (K _ _ _ _ H) as [W S]. split; [exact W|]. intros F s2 S2. rewrite (sm_names _ _ S2). now apply S. Qed.
Lemma goes_names (k : list (Z * string) -> sistate -> res sistate) : (forall N, goes (k N)) -> goes (fun s => k (g_names s) s).
Proof. intros K s s' H. destruct (K _ _ _ H) as [W S]. split; [exact W|]. intros F s2 S2. rewrite (sm_names _ _ S2). now apply S. Qed.
Lemma goes_set (k : sistate -> res sistate) id n : goes k -> goes (fun s => k (set_name id n s)).
Proof. intros K s s' H. destruct (K _ _ H) as [W S]. split; [exact W|]. intros F s2 S2. apply S; [exact F|]. now apply sim_set. Qed.
Lemma runs_after {B} (k : sistate -> res (B * sistate)) id n : runs k -> runs (fun s => k (set_name id n s)).
Proof. intros K s x s' H. destruct (K _ _ _ H) as [W S]. split; [exact W|]. intros F s2 S2. apply S; [exact F|]. now apply sim_set. Qed.

(** The two kinds of registrations. *)
Lemma goes_reg key t : usual t -> t_v14 t = true -> t_spec t = 0 -> goes (reg_one c key t).
Proof.
  intros U V SP s s' H. destruct (reg_one_grows c key t s s' H U SP) as (A & B & W & K). split; [exact W|]. intros F s2 S. exists s2.
  split; [|destruct S as [X Y Z T]; split; [congruence|congruence|exact Z|exact T]].
  apply reg_one_again; [exact V|exact SP|]. apply (sm_has _ _ S), F, K, V.
Qed.
Lemma goes_alias key n : ~ has_char "#"%char key -> renewed (to_lower key) -> goes (reg_one c key (alias_of false 0 n)).
Proof.
  intros N RN s s' H. destruct (reg_one_grows c key _ s s' H ltac:(unfold usual; cbn; tauto) eq_refl) as (A & B & W & _). split; [exact W|]. intros F s2 S.
  destruct (reg_alias c key n s s' s2 H) as (s2' & E & GN & GD & G & X).
  - eapply within_trans; [exact W|]. eapply within_trans; [exact F|exact (sm_has _ _ S)].
  - exact N.
  - exists s2'. split; [exact E|]. destruct S as [Q Y Z T]. split; [congruence|congruence|eapply within_trans; eassumption|].
    eapply except_trans; [exact T|]. destruct X as (X1 & X2 & X3). split; [exact X1|]. split; [exact X2|]. intros k NK. apply X3. intros <-. now apply NK.
Qed.

Section Deal.
Variable deal : Z -> sitype -> bool -> sistate -> res (string * sistate).
Hypothesis DEAL : forall id b, runs (deal id (port_get port id) b).

Lemma runs_sub id : runs (sub_name c deal id).
Proof. apply (runs_names (fun N s => match assocz id N with Some n => Ok (n, s) | None => deal id (port_get port id) true s end)). intros N. destruct (assocz id N); [apply runs_ret|apply DEAL]. Qed.
Lemma runs_subs ks : runs (sub_names c deal ks).
Proof.
  induction ks as [|i ks IH]; [apply runs_ret|]. apply (runs_bind (sub_name c deal i)); [apply runs_sub|]. intros n.
  apply (runs_bind (sub_names c deal ks)); [exact IH|]. intros l. apply runs_ret.
Qed.
Lemma runs_variant v : runs (variant_type c deal v).
Proof.
  unfold variant_type. destruct (v_fields v) as [|f [|g l]]; [apply runs_ret|apply runs_sub|].
  apply (runs_bind (sub_names c deal _)); [apply runs_subs|]. intros ns. apply runs_ret.
Qed.
Lemma runs_variants vs : runs (variant_types c deal vs).
Proof.
  induction vs as [|v vs IH]; [apply runs_ret|]. apply (runs_bind (variant_type c deal v)); [apply runs_variant|]. intros n.
  apply (runs_bind (variant_types c deal vs)); [exact IH|]. intros l. apply runs_ret.
Qed.
Ltac us := first [unfold usual; cbn; tauto | exact V14 | exact SPEC].
Lemma runs_enum id vs : runs (expandEnum c deal id (port_get port id) vs).
Proof.
  apply (runs_bind (variant_types c deal (sort_variants vs))); [apply runs_variants|]. intros vts.
  apply runs_name. intros D n _. apply (runs_bind1 (reg_one c n _)); [apply goes_reg; us|]. apply runs_set.
Qed.
Lemma goes_param key p t : ~ has_char "#"%char key -> renewed (to_lower key) -> goes (reg_param c deal key p t).
Proof.
  intros N K. unfold reg_param. destruct (FindParameter p (s_params t)) as [k|]; [|apply goes_ret].
  apply (goes_bind (deal k (port_get port k) false)); [apply DEAL|]. intros n. now apply goes_alias.
Qed.
Lemma runs_one before id t : runs (expandOne c deal before id t).
Proof. apply (runs_bind (sub_name c deal t)); [apply runs_sub|]. intros n. apply (runs_set (before ++ "<" ++ n ++ ">")). Qed.
Lemma runs_tuple id l : runs (expandTuple c deal id l).
Proof.
  unfold expandTuple. destruct l as [|i l]; [apply runs_set|]. apply (runs_bind (sub_names c deal (i :: l))); [apply runs_subs|]. intros ns.
  apply (runs_bind1 (reg_one c ("Tuple:" ++ join "" ns) _)); [apply goes_reg; us|]. apply (runs_set ("Tuple:" ++ join "" ns)).
Qed.
Lemma runs_composite id fs : runs (expandComposite c deal id (port_get port id) fs).
Proof.
  unfold expandComposite.
  apply (runs_bind1 (fun s => if is_unchecked (s_path (port_get port id)) then
          s <- reg_param c deal "ExtrinsicSignature" "Signature" (port_get port id) s ;; reg_param c deal "ExtrinsicSigner" "Address" (port_get port id) s else Ok s)).
  { destruct (is_unchecked _); [|apply goes_ret]. apply goes_bind1; apply goes_param; try (intros X; cbn in X; intuition discriminate); [left|right; left]; reflexivity. }
  destruct (is_wrapper _).
  { destruct (s_params _) as [|[? i] ?]; [apply runs_panic|]. apply (runs_bind (deal i (port_get port i) false)); [apply DEAL|]. intros n. apply (runs_set ("WrapperOpaque<" ++ n ++ ">")). }
  assert (MANY : runs (fun s => '(ns, s) <- sub_names c deal (map f_type fs) s ;; name <- nameSiType c (g_dup s) (port_get port id) id ;;
     s <- reg_one c name (TStruct "struct" "" (composite_cols 1 fs ns) [] 0 (i_v14 c) (i_spec c)) s ;; Ok (name, set_name id name s))).
  { apply (runs_bind (sub_names c deal (map f_type fs))); [apply runs_subs|]. intros ns.
    apply runs_name. intros D n _. apply (runs_bind1 (reg_one c n _)); [apply goes_reg; us|]. apply runs_set. }
  destruct fs as [|f [|g fs]]; [exact MANY| |exact MANY].
  destruct (is_str _ _); [apply runs_set|].
  apply (runs_bind (fun s => match assocz (f_type f) (g_names s) with
                     | Some n => Ok (n, s)
                     | None => if f_type f =? id then Ok ("NULL", s) else deal (f_type f) (port_get port (f_type f)) false s end)).
  { apply (runs_names (fun N s => match assocz (f_type f) N with
                     | Some n => Ok (n, s)
                     | None => if f_type f =? id then Ok ("NULL", s) else deal (f_type f) (port_get port (f_type f)) false s end)).
    intros N. destruct (assocz _ N); [apply runs_ret|]. destruct (_ =? _); [apply runs_ret|apply DEAL]. }
  intros n. apply (runs_after (fun s => name <- nameSiType c (g_dup s) (port_get port id) id ;; s <- reg_one c name (alias_of (i_v14 c) (i_spec c) n) s ;; Ok (n, s))).
  apply runs_name. intros D m _. apply (runs_bind1 (reg_one c m _)); [apply goes_reg; us|]. apply runs_ret.
Qed.
(** The name of a type called RuntimeCall. *)
Lemma call_named D id n vs : s_def (port_get port id) = DVariant vs -> is_call_event (s_path (port_get port id)) = false -> is_pallet_call (s_path (port_get port id)) = false ->
  is_str (path_last (s_path (port_get port id))) "RuntimeCall" = true ->
  (forall p l, s_path (port_get port id) = p :: l -> equal_fold p "Option" = false /\ equal_fold p "Result" = false) ->
  nameSiType c D (port_get port id) id = Ok n -> ~ has_char "#"%char n /\ renewed (to_lower n).
Proof.
  intros DF CE PC RC OR. destruct (port_get_cases c id) as [I|Z]; [|rewrite Z in DF; discriminate]. unfold nameSiType. rewrite DF, CE, PC.
  destruct (s_path (port_get port id)) as [|p l] eqn:P; [discriminate|]. destruct (OR p l eq_refl) as [-> ->]. cbn [orb].
  intros [= <-]. unfold generate_name. rewrite PRE, P. cbn [String.eqb].
  assert (NH : ~ has_char "#"%char (join ":" (p :: l))) by (apply join_nohash; intros q Iq; eapply HASH; [exact I|now rewrite P]).
  assert (PL : path_last (s_path (port_get port id)) = Some "RuntimeCall").
  { rewrite P. unfold is_str in RC. destruct (path_last (p :: l)) as [x|]; [|discriminate]. apply String.eqb_eq in RC. now subst. }
  destruct ((1 <? _) && _).
  - split; [|right; right; exists id, (port_get port id); split; [exact I|]; split; [exact PL|]; right; now rewrite P].
    intros Y. rewrite !has_char_app in Y. destruct Y as [Y|[Y|Y]]; [contradiction|destruct Y as [Y|[]]; discriminate|now apply itoa_nohash in Y].
  - split; [exact NH|]. right; right. exists id, (port_get port id). split; [exact I|]. split; [exact PL|]. left. now rewrite P.
Qed.
Lemma runs_deal_variant id vs : s_def (port_get port id) = DVariant vs -> runs (dealVariant c deal id (port_get port id) vs).
Proof.
  intros DF. unfold dealVariant. pose proof (call_named) as CN. specialize (fun D n => CN D id n vs DF). destruct (s_path (port_get port id)) as [|p l] eqn:P; [apply runs_panic|]. destruct (equal_fold p "Option") eqn:EO.
  { unfold expandOption. destruct (s_params _) as [|[? ?] ?]; [apply runs_panic|]. apply runs_one. }
  destruct (equal_fold p "Result") eqn:ER.
  { unfold expandResult. destruct (s_params _) as [|[? a] [|[? b] ?]]; [apply runs_panic|apply runs_panic|].
    apply (runs_bind (sub_name c deal a)); [apply runs_sub|]. intros n. apply (runs_bind (sub_name c deal b)); [apply runs_sub|]. intros m.
    apply (runs_set ("Result<" ++ n ++ "," ++ m ++ ">")). }
  destruct (is_pallet_call (p :: l)) eqn:PC; [apply runs_set|]. destruct (is_call_event (p :: l)) eqn:CE; [apply runs_set|]. cbn [orb].
  destruct (is_str (path_last (p :: l)) "RuntimeCall") eqn:RC; [|apply runs_enum].
  apply runs_name. intros D n E. destruct (CN D n eq_refl eq_refl eq_refl) as [N K]; [intros q l' [= <- <-]; now split|exact E|].
  apply (runs_bind1 (fun s => reg_one c n (alias_of false 0 "Call") (set_name id "Call" s))); [|apply runs_ret].
  apply (goes_set (reg_one c n (alias_of false 0 "Call"))). now apply goes_alias.
Qed.
Lemma runs_step id b : runs (deal_step c deal id (port_get port id) b).
Proof.
  unfold deal_step. cbv zeta. destruct (negb _); [apply runs_set|].
  assert (X : forall name, runs (fun s => if negb (String.eqb name "") then Ok (name, s) else match s_def (port_get port id) with
      | DComposite fs => expandComposite c deal id (port_get port id) fs s
      | DArray len k => expandArray c deal id len k s
      | DSequence k => expandOne c deal "Vec" id k s
      | DTuple l => expandTuple c deal id l s
      | DCompact k => expandOne c deal "compact" id k s
      | DBitSequence => Ok ("BitVec", set_name id "BitVec" s)
      | DRange => Ok ("", s)
      | DVariant vs => dealVariant c deal id (port_get port id) vs s
      | DPrimitive _ | DHistoric _ | DNone => Ok ("NULL", set_name id "NULL" s)
      end)).
  { intros name. destruct (negb _); [apply runs_ret|]. destruct (s_def (port_get port id)) eqn:DF; try apply runs_set; try apply runs_one.
    - apply runs_composite.
    - now apply runs_deal_variant.
    - unfold expandArray. destruct (_ =? 0); [apply runs_set|]. apply (runs_bind (sub_name c deal t)); [apply runs_sub|]. intros n. apply (runs_set ("[" ++ n ++ "; " ++ itoa len ++ "]")).
    - apply runs_tuple.
    - apply runs_ret. }
  destruct b; [apply runs_name; intros D n _; apply X|]. exact (X "").
Qed.
End Deal.
Lemma runs_deal fuel : forall id b, runs (dealOneSiType fuel c id (port_get port id) b).
Proof. induction fuel as [|f IH]; intros id b; [intros s x s'; discriminate|]. apply runs_step. exact IH. Qed.
Lemma goes_each F n : (forall i, goes (F i)) -> forall i, goes (each_id F n i).
Proof. intros H. induction n as [|n IH]; intros i; [apply goes_ret|]. apply (goes_bind1 (F i)); [apply H|apply IH]. Qed.
Lemma goes_primitive i n : goes (reg_primitive c i n).
Proof.
  intros s s' H. unfold reg_primitive in *. destruct (HasReg (g_reg s) n) eqn:HR; [|discriminate].
  destruct (goes_set (reg_one c ("primitive_types:" ++ n) (alias_of (i_v14 c) (i_spec c) n)) i n) with (s := s) (s' := s') as [W S]; [apply goes_reg; first [unfold usual; cbn; tauto | exact V14 | exact SPEC]|exact H|].
  split; [exact W|]. intros F s2 S2. replace (HasReg (g_reg s2) n) with true; [now apply S|]. symmetry. unfold HasReg in *.
  assert (X : assoc (to_lower n) (r_types (g_reg s2)) <> None); [|now destruct (assoc (to_lower n) (r_types (g_reg s2)))].
  apply (sm_has _ _ S2), F, W. now destruct (assoc (to_lower n) (r_types (g_reg s))).
Qed.
Lemma goes_count i : goes (count_name c i).
Proof.
  intros s s' H. unfold count_name in *. apply bind_ok in H. destruct H as (n & E & H). assert (G : g_reg s' = g_reg s) by (destruct (String.eqb n ""); injection H as <-; reflexivity).
  rewrite G. split; [apply within_refl|]. intros F s2 [A B C D]. rewrite B, E. cbn [bind]. destruct (String.eqb n ""); injection H as <-.
  - exists s2. split; [reflexivity|]. now split.
  - eexists. split; [reflexivity|]. split; cbn [g_names g_dup g_reg]; congruence || assumption.
Qed.
Lemma goes_process fuel : goes (fun s =>
  let n := distinct_ids [] port in
  s <- each_id (count_name c) n 0 s ;;
  s <- each_id (pass_primitive c) n 0 s ;;
  s <- each_id (pass_primitive_types c) n 0 s ;;
  s <- each_id (pass_sp_core fuel c) n 0 s ;;
  s <- each_id (pass_rest fuel c) n 0 s ;;
  Ok (SiState (g_names s) [] (g_reg s))).
Proof.
  cbv zeta. generalize (distinct_ids [] port). intros n.
  apply (goes_bind1 (each_id (count_name c) n 0)); [apply goes_each; apply goes_count|].
  apply (goes_bind1 (each_id (pass_primitive c) n 0)); [apply goes_each; intros i; unfold pass_primitive; destruct (s_def _); try apply goes_ret; apply goes_primitive|].
  apply (goes_bind1 (each_id (pass_primitive_types c) n 0)).
  { apply goes_each. intros i. unfold pass_primitive_types. cbv zeta. destruct (is_str _ _); [|apply goes_ret]. destruct (path_last _); [apply goes_primitive|apply goes_panic]. }
  apply (goes_bind1 (each_id (pass_sp_core fuel c) n 0)).
  { apply goes_each. intros i. unfold pass_sp_core. cbv zeta. destruct (is_str _ _); [|apply goes_ret].
    apply (goes_bind (dealOneSiType fuel c i (port_get port i) false)); [apply runs_deal|]. intros x. apply goes_ret. }
  apply (goes_bind1 (each_id (pass_rest fuel c) n 0)).
  { apply goes_each. intros i. unfold pass_rest.
    apply (goes_names (fun N s => match assocz i N with Some _ => Ok s | None => '(_, s) <- dealOneSiType fuel c i (port_get port i) false s ;; Ok s end)).
    intros N. destruct (assocz i N); [apply goes_ret|]. apply (goes_bind (dealOneSiType fuel c i (port_get port i) false)); [apply runs_deal|]. intros x. apply goes_ret. }
  intros s s' [= <-]. split; [apply within_refl|]. intros F s2 [A B C D]. eexists. split; [reflexivity|]. split; cbn [g_names g_dup g_reg]; congruence || assumption.
Qed.
End Twice.

Theorem process_twice fuel c r s start : i_prefix c = "" -> i_v14 c = true -> i_spec c = 0 -> plain_paths (i_port c) ->
  ProcessSiType fuel c r = Ok s -> within (g_reg s) start ->
  exists s2, ProcessSiType fuel c start = Ok s2 /\ g_names s2 = g_names s /\ except (renewed c) start (g_reg s2).
Proof.
  intros P V S H E W. unfold ProcessSiType in E. cbv zeta in E.
  destruct (goes_process c P V S H (g_reg s) start fuel (SiState [] [] r) s E) as [_ X]. destruct (X (within_refl _) (SiState [] [] start)) as (s2 & Y & [A B C D]).
  - split; cbn [g_names g_dup g_reg]; [reflexivity|reflexivity|exact W|apply except_refl].
  - exists s2. split; [exact Y|]. now split.
Qed.
