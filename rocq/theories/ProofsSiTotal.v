(** C76: registering the types of a portable registry succeeds. *)

From Verif Require Import GoBase SpecNum ProofsBase ModelTools ModelJson ModelVal ModelRegistry ModelDecode ModelRegister ModelScaleInfo
  ProofsNames ProofsTexts PropScaleInfo SpecPortable ProofsPortReg.

(** ** ConvertType does not make ordinary texts empty *)
Definition keepc (a : ascii) : bool := negb (is_space a) && negb (existsb (Ascii.eqb a) (s2b "T:<>asrit,I")).
Definition kept (s : string) : Prop := exists a, has_char a s /\ keepc a = true.
Definition dropped (s : string) : Prop := forall a, has_char a s -> keepc a = false.

Lemma prefix_split p s : prefix p s = true -> exists r, s = (p ++ r)%string.
Proof.
  revert s. induction p as [|a p IH]; intros s H; [now exists s|]. destruct s as [|b s]; [discriminate|]. cbn [prefix] in H.
  destruct (Ascii.eqb_spec a b) as [->|]; [|discriminate]. destruct (IH s H) as [r ->]. now exists r.
Qed.
Lemma repl_dropped old new : dropped old -> old <> "" -> forall s k, (forall a, In a (firstn k (s2b s)) -> keepc a = false) -> kept s -> kept (repl old new k s).
Proof.
  intros Do Ne. induction s as [|c s IH]; intros k F (a & H & K); [destruct H|]. cbn [repl].
  destruct k as [|k].
  - destruct (prefix old (String c s)) eqn:P.
    + apply prefix_split in P. destruct P as [r P].
      assert (R : kept (repl old new (String.length old - 1) s)).
      { apply IH.
        - intros x Hx. apply Do. unfold has_char. destruct old as [|o old]; [destruct Hx|]. injection P as <- ->.
          cbn [String.length] in Hx. rewrite Nat.sub_succ, Nat.sub_0_r in Hx. rewrite s2b_app in Hx.
          rewrite <- (s2b_length old), firstn_app, Nat.sub_diag, firstn_all, app_nil_r in Hx. right. exact Hx.
        - exists a. split; [|exact K]. destruct H as [<-|H]; [|exact H]. destruct old as [|o old].
          + congruence.
          + injection P as <- _. rewrite (Do c) in K; [discriminate|]. now left. }
      destruct R as (x & Hx & Kx). exists x. split; [|exact Kx]. apply has_char_app. now right.
    + destruct H as [<-|H]; [exists c; split; [now left|exact K]|].
      destruct (IH O ltac:(intros x []) ltac:(now exists a)) as (x & Hx & Kx). exists x. split; [now right|exact Kx].
  - apply IH.
    + intros x Hx. apply F. now right.
    + exists a. split; [|exact K]. destruct H as [<-|H]; [|exact H]. rewrite (F c) in K; [discriminate|now left].
Qed.
Lemma repl_new old new : kept new -> forall s, kept s -> kept (repl old new O s).
Proof.
  intros (b & Hb & Kb). induction s as [|c s IH]; intros (a & H & K); [destruct H|]. cbn [repl].
  destruct (prefix old (String c s)); [exists b; split; [apply has_char_app; now left|exact Kb]|].
  destruct H as [<-|H]; [exists c; split; [now left|exact K]|].
  destruct (IH ltac:(now exists a)) as (x & Hx & Kx). exists x. split; [now right|exact Kx].
Qed.
Lemma kept_trim s : kept s -> kept (trim_space s).
Proof.
  unfold trim_space. intros H. assert (L : kept (trim_left s)).
  { induction s as [|c s IH]; [exact H|]. cbn [trim_left]. destruct (is_space c) eqn:Sp; [|exact H]. apply IH.
    destruct H as (a & [<-|H] & K); [|now exists a]. unfold keepc in K. rewrite Sp in K. discriminate. }
  revert L. generalize (trim_left s). clear. intros s. induction s as [|c s IH]; intros (a & H & K); [destruct H|]. cbn [trim_right].
  destruct H as [<-|H].
  - destruct (trim_right s).
    + destruct (is_space c) eqn:Sp; [unfold keepc in K; rewrite Sp in K; discriminate|]. exists c. split; [now left|exact K].
    + exists c. split; [now left|exact K].
  - destruct (IH ltac:(now exists a)) as (x & Hx & Kx). destruct (trim_right s) as [|y z]; [destruct Hx|]. exists x. split; [now right|exact Kx].
Qed.
Lemma kept_chars s : existsb keepc (s2b s) = true -> kept s.
Proof. intros H. apply existsb_exists in H. destruct H as (a & H & K). now exists a. Qed.
Lemma dropped_chars s : existsb keepc (s2b s) = false -> dropped s.
Proof. intros H a Ha. destruct (keepc a) eqn:K; [|reflexivity]. assert (existsb keepc (s2b s) = true) by (apply existsb_exists; now exists a). congruence. Qed.
Lemma convert_kept s : kept s -> ConvertType s <> "".
Proof.
  intros H. unfold ConvertType. cbv zeta. apply kept_trim in H.
  assert (Rd : forall old s, existsb keepc (s2b old) = false -> old <> "" -> kept s -> kept (replace_all s old "")).
  { intros old x D N K. apply repl_dropped; [now apply dropped_chars|exact N|intros a []|exact K]. }
  assert (Rn : forall old new s, existsb keepc (s2b new) = true -> kept s -> kept (replace_all s old new)).
  { intros old new x D K. apply repl_new; [now apply kept_chars|exact K]. }
  set (n0 := trim_space s) in *. clearbody n0.
  pose proof (Rd "T::" _ eq_refl ltac:(discriminate) H) as H1. set (n1 := replace_all n0 _ _) in *. clearbody n1.
  pose proof (Rn "VecDeque<" "Vec<" _ eq_refl H1) as H2. set (n2 := replace_all n1 _ _) in *. clearbody n2.
  pose proof (Rd "<T>" _ eq_refl ltac:(discriminate) H2) as H3. set (n3 := replace_all n2 _ _) in *. clearbody n3.
  pose proof (Rd "<T as Trait>::" _ eq_refl ltac:(discriminate) H3) as H4. set (n4 := replace_all n3 _ _) in *. clearbody n4.
  pose proof (Rd "<T, I>" _ eq_refl ltac:(discriminate) H4) as H5. set (n5 := replace_all n4 _ _) in *. clearbody n5.
  assert (H6 : kept (replace_all n5 (String "010" "") " ")).
  { apply repl_dropped; [now apply dropped_chars|discriminate|intros a []|exact H5]. }
  set (n6 := replace_all n5 _ _) in *. clearbody n6.
  pose proof (Rn "&'static[u8]" "Bytes" _ eq_refl H6) as H7. set (n7 := replace_all n6 _ _) in *. clearbody n7.
  assert (H8 : kept (if has_prefix n7 "BoundedBTreeSet" then replace_all n7 "BoundedBTreeSet" "BTreeSet" else n7)).
  { destruct (has_prefix n7 _); [|exact H7]. now apply Rn. }
  set (n8 := if has_prefix n7 _ then _ else _) in *. clearbody n8.
  assert (H9 : kept (if equal_fold n8 "Vec<u8>" then "Bytes" else n8)).
  { destruct (equal_fold n8 _); [now apply kept_chars|exact H8]. }
  set (n9 := if equal_fold n8 _ then _ else _) in *. clearbody n9.
  repeat match goal with |- (if ?b then _ else _) <> "" => destruct b; [discriminate|] end.
  intros ->. destruct H9 as (a & [] & _).
Qed.
Lemma kept_app_l a b : existsb keepc (s2b a) = true -> kept (a ++ b).
Proof. intros H. apply kept_chars in H. destruct H as (x & H & K). exists x. split; [apply has_char_app; now left|exact K]. Qed.

(** ** Registries that can be registered *)
Section Shape.
Variable pfx : string.
Variable port : portable.
Variable r0 : reg.
Notation def := (def_of port).
Notation path := (path_of port).
Notation params := (params_of port).

(** The type is referred to by a name of its own: structs, and enums other
    than options, results and those called Call or Event. *)
Definition own_name (id : Z) : Prop :=
  (exists fs, def id = DComposite fs) \/ exists vs, def id = DVariant vs /\ other_path port id /\ is_call_event (path id) = false.
(** The types inside a type that has no name. *)
Inductive inside : Z -> Z -> Prop :=
| is_array id n k : def id = DArray n k -> inside id k
| is_sequence id k : def id = DSequence k -> inside id k
| is_tuple id l k : def id = DTuple l -> In k l -> inside id k
| is_compact id k : def id = DCompact k -> inside id k
| is_param id vs n k : def id = DVariant vs -> opt_path port id \/ res_path port id -> In (n, k) (params id) -> inside id k.
(** A struct that only stands for another type. *)
Inductive stands_for : Z -> Z -> Prop :=
| sf_field id f : def id = DComposite [f] -> is_wrapper (path id) = false -> f_type f <> id -> stands_for id (f_type f)
| sf_wrapper id fs n k l : def id = DComposite fs -> is_wrapper (path id) = true -> params id = (n, k) :: l -> stands_for id k
| sf_unchecked id fs p k : def id = DComposite fs -> is_unchecked (path id) = true -> In p ["Signature"; "Address"] ->
    FindParameter p (params id) = Some k -> stands_for id k.

Record registrable (rank : Z -> nat) (B : nat) : Prop := {
  (* no circle of types without names, and none of types that stand for others *)
  rg_bound : forall k, (rank k <= B)%nat;
  rg_inside : forall id k, inside id k -> ~ own_name k -> (rank k < rank id)%nat;
  rg_stands : forall id k, stands_for id k -> (rank k < rank id)%nat;
  (* parts that must be there *)
  rg_variant : forall id vs, def id = DVariant vs -> path id <> [];
  rg_option : forall id vs, def id = DVariant vs -> opt_path port id -> params id <> [];
  rg_result : forall id vs, def id = DVariant vs -> res_path port id -> exists a b l, params id = a :: b :: l;
  rg_wrapper : forall id fs, def id = DComposite fs -> is_wrapper (path id) = true -> params id <> [];
  (* names *)
  rg_prim : forall id n, def id = DPrimitive n -> HasReg r0 n = true /\ ConvertType n <> "";
  rg_prims : forall id n, prims_path port id -> path_last (path id) = Some n -> HasReg r0 n = true /\ ConvertType n <> "";
  rg_named : forall id, own_name id -> kept (pfx ++ join ":" (path id));
  (* no struct stands for a Range *)
  rg_range : forall id k, stands_for id k -> is_wrapper (path id) = false -> def k <> DRange }.

End Shape.

Section Total.
Variable c : sictx.
Variable r0 : reg.
Variable D : list (string * Z).
Notation port := (i_port c).
Notation def := (def_of port).
Notation path := (path_of port).
Notation params := (params_of port).
Notation own_name := (own_name port).
Notation inside := (inside port).
Notation stands_for := (stands_for port).
Notation registrable := (registrable (i_prefix c) port r0).
Lemma kept_app a b : kept (a ++ b) <-> kept a \/ kept b.
Proof.
  unfold kept. split.
  - intros (x & H & K). apply has_char_app in H. destruct H as [H|H]; [left|right]; now exists x.
  - intros [(x & H & K)|(x & H & K)]; exists x; (split; [apply has_char_app|exact K]); [now left|now right].
Qed.
Lemma generate_kept id k : kept (i_prefix c ++ join ":" (path id)) -> kept (generate_name c D (port_get port id) k).
Proof.
  intros H. unfold generate_name. cbv zeta. change (s_path (port_get port id)) with (path id). set (j := join ":" (path id)) in *. clearbody j.
  set (q := if String.eqb (i_prefix c) "" then j else i_prefix c ++ ":" ++ j). assert (K : kept q).
  { unfold q. destruct (String.eqb_spec (i_prefix c) "") as [Ep|]; [rewrite Ep in H; exact H|]. apply kept_app in H. apply kept_app. destruct H as [H|H]; [now left|right; apply kept_app; now right]. }
  clearbody q. destruct (_ && _); [apply kept_app; now left|exact K].
Qed.
Lemma rg_composite rank B (R : registrable rank B) id fs n : def id = DComposite fs -> nameSiType c D (port_get port id) id = Ok n -> ConvertType n <> "".
Proof.
  intros E N. apply convert_kept. unfold nameSiType in N. unfold def_of in E. rewrite E in N. injection N as <-.
  apply generate_kept, (rg_named _ _ _ _ _ R). left. now exists fs.
Qed.
Lemma rg_enum rank B (R : registrable rank B) id vs n : def id = DVariant vs -> other_path port id -> is_call_event (path id) = false ->
  nameSiType c D (port_get port id) id = Ok n -> ConvertType n <> "".
Proof.
  intros E O C N. apply convert_kept. assert (K : kept (i_prefix c ++ join ":" (path id))) by (apply (rg_named _ _ _ _ _ R); right; now exists vs).
  unfold nameSiType in N. unfold def_of in E. rewrite E in N. destruct O as (p & l & P & O1 & O2). unfold path_of in P, C. rewrite P in N, C. rewrite O1, O2 in N. cbn [orb] in N.
  assert (is_pallet_call (p :: l) = false) as X. { unfold is_pallet_call. unfold is_call_event in C. apply orb_false_elim in C. destruct C as [-> _]. apply andb_false_r. }
  rewrite X, C in N. injection N as <-. now apply generate_kept.
Qed.

Definition types_above (r r' : reg) : Prop := forall k, assoc k (r_types r) <> None -> assoc k (r_types r') <> None.
Lemma types_above_trans a b d : types_above a b -> types_above b d -> types_above a d.
Proof. unfold types_above. intuition. Qed.
Lemma key_above key cd r : types_above r (regCustomKey key cd r).
Proof.
  intros k H. unfold regCustomKey. assert (A : assoc k (r_types (with_types (upd key cd) r)) <> None).
  { cbn. unfold upd. cbn [assoc]. destruct (String.eqb k key); [discriminate|exact H]. }
  destruct (split_char "#" key) as [|a [|b [|]]]; try exact A. destruct (version_range b). exact H.
Qed.
Lemma chars_of s : s <> "" -> (exists a, first_char s = Some a) /\ exists z, last_char s = Some z.
Proof.
  destruct s as [|a s]; [congruence|]. intros _. split; [now exists a|]. revert a. induction s as [|b s IH]; intros a; [now exists a|].
  destruct (IH b) as [z E]. now exists z.
Qed.
Lemma shape_total key ts r : ts <> "" -> exists r', reg_shape key ts r = Ok r' /\ types_above r r'.
Proof.
  intros N. destruct (chars_of ts N) as [[a A] [z Z]]. unfold reg_shape. rewrite A, Z. cbv zeta.
  assert (K : forall cd, exists r', Ok (regCustomKey key cd r) = Ok r' /\ types_above r r') by (intros cd; eexists; split; [reflexivity|apply key_above]).
  assert (I : exists r', Ok r = Ok r' /\ types_above r r') by (exists r; split; [reflexivity|now intros k]).
  destruct (match (if Ascii.eqb z ">" then generic_parts ts else None) with Some _ => _ | None => _ end); [apply K|].
  destruct (_ && _); [apply K|]. destruct (_ && _); [|exact I].
  destruct (split_char ";" (strip_ends ts)) as [|x [|y [|]]]; first [apply K|exact I].
Qed.
Definition quiet (t : tstruct) : Prop := t_v14 t = false \/ t_spec t = 0.
Definition rows_ok (t : tstruct) : Prop :=
  (t_type t = "string" /\ ConvertType (t_string t) <> "") \/ ((t_type t = "struct" \/ t_type t = "enum") /\ exists m, mapping_rows (t_mapping t) = Ok m).
Lemma custom_total fuel key t r : quiet t -> rows_ok t -> exists r', RegCustomTypes fuel [(key, t)] r = Ok r' /\ types_above r r'.
Proof.
  intros Qt Ro. unfold RegCustomTypes. cbn [reg_loop].
  assert (St : v14_step fuel key t r = Ok None \/ exists r1, v14_step fuel key t r = Ok (Some (key, r1)) /\ r_types r1 = r_types r).
  { unfold v14_step. destruct (t_v14 t) eqn:V; [|right; now exists r]. destruct Qt as [Qt|Qt]; [congruence|].
    destruct (assoc key (r_v14 r)); [|right; eexists; split; reflexivity]. left. now rewrite Qt. }
  destruct St as [-> | (r1 & -> & E1)]; cbn [bind]; [exists r; split; [reflexivity|now intros k]|].
  assert (L : exists r2, (if String.eqb (t_type t) "string" then reg_string fuel [(key, t)] (to_lower key) t r1 else reg_plain (to_lower key) t r1) = Ok r2 /\ types_above r1 r2).
  { destruct Ro as [[T C]|[T [m M]]].
    - rewrite T. cbn [String.eqb Ascii.eqb Bool.eqb]. unfold reg_string. cbv zeta.
      assert (K : forall cd, exists r2, Ok (regCustomKey (to_lower key) cd r1) = Ok r2 /\ types_above r1 r2) by (intros cd; eexists; split; [reflexivity|apply key_above]).
      destruct (assoc (to_lower (ConvertType (t_string t))) (r_types r1)); [apply K|]. cbn [assoc].
      destruct (String.eqb (ConvertType (t_string t)) key); [|now apply shape_total]. rewrite T. cbn [String.eqb Ascii.eqb Bool.eqb].
      destruct (assoc (to_lower (t_string t)) (r_types r1)); [apply K|now apply shape_total].
    - assert (String.eqb (t_type t) "string" = false) as -> by (destruct T as [-> | ->]; reflexivity).
      unfold reg_plain. rewrite M. cbn [bind]. destruct T as [-> | ->]; cbn [String.eqb Ascii.eqb Bool.eqb]; eexists; split; try reflexivity; apply key_above. }
  destruct L as (r2 & -> & A). cbn [bind]. exists r2. split; [reflexivity|]. unfold types_above in *. rewrite <- E1. exact A.
Qed.

Hypothesis Vq : i_v14 c = false \/ i_spec c = 0.
Variable rank : Z -> nat.
Variable B : nat.
Hypothesis R : registrable rank B.

(** Something else that holds of all names. *)
Variable nmP : string -> Prop.
Definition fixedb (s : string) : bool := match s with String a _ => existsb (Ascii.eqb a) (s2b "[VcoRWTNBCAS") | _ => false end.
Hypothesis nm_fixed : forall s, fixedb s = true -> nmP s.
Hypothesis nm_own : forall id n, own_name id -> nameSiType c D (port_get port id) id = Ok n -> nmP n.
Hypothesis nm_prim : forall id n, def id = DPrimitive n -> nmP n.
Hypothesis nm_prims : forall id n, prims_path port id -> path_last (path id) = Some n -> nmP n.
Definition texty (n : string) : Prop := ConvertType n <> "" /\ nmP n.
Ltac fixed := split; [discriminate|apply nm_fixed; reflexivity].
Lemma rg_composite_t id fs n : def id = DComposite fs -> nameSiType c D (port_get port id) id = Ok n -> texty n.
Proof. intros E N. split; [exact (rg_composite _ _ R id fs n E N)|]. apply (nm_own id n); [left; now exists fs|exact N]. Qed.
Lemma rg_enum_t id vs n : def id = DVariant vs -> other_path port id -> is_call_event (path id) = false -> nameSiType c D (port_get port id) id = Ok n -> texty n.
Proof. intros E O C N. split; [exact (rg_enum _ _ R id vs n E O C N)|]. apply (nm_own id n); [right; now exists vs|exact N]. Qed.
Lemma fixed_app w x : fixedb w = true -> fixedb (w ++ x) = true.
Proof. destruct w; [discriminate|trivial]. Qed.

Definition good (s : sistate) : Prop :=
  g_dup s = D /\ (forall k n, assocz k (g_names s) = Some n -> texty n) /\ types_above r0 (g_reg s).
Definition more (s s' : sistate) : Prop := forall k, assocz k (g_names s) <> None -> assocz k (g_names s') <> None.
Lemma more_refl s : more s s.
Proof. now intros k. Qed.
Lemma more_trans a b d : more a b -> more b d -> more a d.
Proof. unfold more. intuition. Qed.
Lemma more_set id n s : more s (set_name id n s).
Proof. intros k H. unfold set_name. cbn. destruct (k =? id); [discriminate|exact H]. Qed.
Lemma named_set id n s : assocz id (g_names (set_name id n s)) <> None.
Proof. unfold set_name. cbn. rewrite Z.eqb_refl. discriminate. Qed.
Lemma good_set id n s : good s -> texty n -> good (set_name id n s).
Proof.
  intros (A & F & T) C. split; [exact A|]. split; [|exact T]. intros k m. unfold set_name. cbn [g_names assocz].
  destruct (k =? id); [|apply F]. intros [= <-]. exact C.
Qed.
Lemma reg_one_total key t s : good s -> quiet t -> rows_ok t -> exists s', reg_one c key t s = Ok s' /\ good s' /\ g_names s' = g_names s.
Proof.
  intros (A & F & T) Qt Ro. unfold reg_one. destruct (custom_total (i_fuel c) key t (g_reg s) Qt Ro) as (r' & -> & X). cbn [bind].
  eexists. split; [reflexivity|]. split; [|reflexivity]. split; [exact A|]. split; [exact F|]. cbn [g_reg]. eapply types_above_trans; [exact T|exact X].
Qed.
Lemma quiet_v14 ty ts m vl b : quiet (TStruct ty ts m vl b (i_v14 c) (i_spec c)).
Proof. exact Vq. Qed.

(** The call gives a text and a state; the text is only empty for a Range. *)
Definition gives (id : Z) (s : sistate) (x : res (string * sistate)) : Prop :=
  exists t s', x = Ok (t, s') /\ good s' /\ more s s' /\ (texty t \/ (t = "" /\ def id = DRange)).
Definition names_it (id : Z) (x : res (string * sistate)) : Prop :=
  forall t s', x = Ok (t, s') -> def id <> DRange -> assocz id (g_names s') <> None.

Section Step.
Variable deal : Z -> sitype -> bool -> sistate -> res (string * sistate).
Variable okT okF : Z -> Prop.
Hypothesis HT : forall k s, okT k -> good s -> gives k s (deal k (port_get port k) true s).
Hypothesis HF : forall k s, okF k -> good s -> gives k s (deal k (port_get port k) false s).

Lemma sub_total k s : okT k -> good s -> exists t s', sub_name c deal k s = Ok (t, s') /\ good s' /\ more s s'.
Proof.
  intros K G. unfold sub_name. destruct (assocz k (g_names s)) as [n|]; [exists n, s; split; [reflexivity|split; [exact G|apply more_refl]]|].
  destruct (HT k s K G) as (t & s' & -> & G' & M & _). now exists t, s'.
Qed.
Lemma subs_total ks : forall s, Forall okT ks -> good s -> exists ts s', sub_names c deal ks s = Ok (ts, s') /\ good s' /\ more s s'.
Proof.
  induction ks as [|k ks IH]; intros s F G; [exists [], s; split; [reflexivity|split; [exact G|apply more_refl]]|].
  inversion F as [|? ? K F']; subst. cbn [sub_names]. destruct (sub_total k s K G) as (t & s1 & -> & G1 & M1). cbn [bind].
  destruct (IH s1 F' G1) as (ts & s2 & -> & G2 & M2). cbn [bind]. exists (t :: ts), s2. split; [reflexivity|]. split; [exact G2|]. eapply more_trans; eassumption.
Qed.
Lemma done id s n s' : good s' -> more s s' -> texty n -> gives id s (Ok (n, set_name id n s')) /\ names_it id (Ok (n, set_name id n s')).
Proof.
  intros G M C. split.
  - exists n, (set_name id n s'). split; [reflexivity|]. split; [now apply good_set|]. split; [eapply more_trans; [exact M|apply more_set]|now left].
  - intros t x [= <- <-] _. apply named_set.
Qed.
Lemma one_total w id k s : existsb keepc (s2b w) = true -> fixedb w = true -> okT k -> good s ->
  gives id s (expandOne c deal w id k s) /\ names_it id (expandOne c deal w id k s).
Proof.
  intros W Fw K G. unfold expandOne. destruct (sub_total k s K G) as (t & s1 & -> & G1 & M1). cbn [bind]. cbv zeta.
  apply done; [exact G1|exact M1|]. split; [apply convert_kept; now apply kept_app_l|apply nm_fixed; first [reflexivity|now apply fixed_app]].
Qed.
Lemma array_total id n k s : (n <> 0 -> okT k) -> good s -> gives id s (expandArray c deal id n k s) /\ names_it id (expandArray c deal id n k s).
Proof.
  intros K G. unfold expandArray. destruct (Z.eqb_spec n 0); [apply done; [exact G|apply more_refl|fixed]|].
  destruct (sub_total k s (K n0) G) as (t & s1 & -> & G1 & M1). cbn [bind]. cbv zeta.
  apply done; [exact G1|exact M1|]. split; [apply convert_kept; now apply kept_app_l|apply nm_fixed; first [reflexivity|now apply fixed_app]].
Qed.
Lemma tuple_rows_ok k ns : exists m, mapping_rows (tuple_rows k ns) = Ok m.
Proof. revert k. induction ns as [|n ns IH]; intros k; [now exists []|]. cbn [tuple_rows mapping_rows]. destruct (IH (k + 1)) as [m ->]. cbn [bind]. eexists. reflexivity. Qed.
Lemma tuple_total id l s : Forall okT l -> good s -> gives id s (expandTuple c deal id l s) /\ names_it id (expandTuple c deal id l s).
Proof.
  intros K G. unfold expandTuple. destruct l as [|x l]; [apply done; [exact G|apply more_refl|fixed]|].
  destruct (subs_total (x :: l) s K G) as (ts & s1 & -> & G1 & M1). cbn [bind]. cbv zeta.
  destruct (reg_one_total ("Tuple:" ++ join "" ts) (TStruct "struct" "" (tuple_rows 1 ts) [] 0 (i_v14 c) (i_spec c)) s1 G1 (quiet_v14 _ _ _ _ _)) as (s2 & -> & G2 & N2).
  { right. split; [now left|]. apply tuple_rows_ok. }
  cbn [bind]. apply done; [exact G2| |split; [apply convert_kept; now apply kept_app_l|apply nm_fixed; reflexivity]]. intros k Hk. rewrite N2. now apply M1.
Qed.
Lemma composite_rows_ok k fs ns : exists m, mapping_rows (composite_cols k fs ns) = Ok m.
Proof.
  revert k ns. induction fs as [|f fs IH]; intros k ns; [now exists []|]. destruct ns as [|n ns]; [now exists []|].
  cbn [composite_cols mapping_rows]. destruct (IH (k + 1) ns) as [m ->]. cbn [bind]. eexists. reflexivity.
Qed.
Lemma rows_app a b : (exists m, mapping_rows a = Ok m) -> (exists m, mapping_rows b = Ok m) -> exists m, mapping_rows (a ++ b)%list = Ok m.
Proof.
  intros [m A] [m' Hb]. revert m A. induction a as [|x a IH]; intros m A; [exists m'; exact Hb|]. destruct x as [|n [|t x]]; try discriminate A.
  cbn [mapping_rows app] in *. destruct (mapping_rows a) as [z| |] eqn:E; try discriminate A. destruct (IH z eq_refl) as [w ->]. cbn [bind]. eexists. reflexivity.
Qed.
Lemma enum_rows_ok prev vts : exists m, mapping_rows (enum_rows prev vts) = Ok m.
Proof.
  revert prev. induction vts as [|[v t] vts IH]; intros prev; [now exists []|]. cbn [enum_rows]. apply rows_app.
  - induction (Z.to_nat _) as [|n IHn]; [now exists []|]. cbn [repeat mapping_rows]. destruct IHn as [m ->]. cbn [bind]. eexists. reflexivity.
  - cbn [mapping_rows]. destruct (IH (Some (v_index v))) as [m ->]. cbn [bind]. eexists. reflexivity.
Qed.
Lemma enum_mapping_ok vts : exists m, mapping_rows (enum_mapping vts) = Ok m.
Proof.
  unfold enum_mapping. destruct (existsb _ vts); [apply enum_rows_ok|]. unfold value_rows.
  induction (map fst vts) as [|v l IH]; [now exists []|]. cbn [flat_map]. apply rows_app; [|exact IH]. destruct (has_fields v); [now exists []|]. cbn. eexists. reflexivity.
Qed.
Lemma variants_total vs : forall s, Forall (fun v => Forall (fun f => okT (f_type f)) (v_fields v)) vs -> good s ->
  exists vts s', variant_types c deal vs s = Ok (vts, s') /\ good s' /\ more s s'.
Proof.
  induction vs as [|v vs IH]; intros s F G; [exists [], s; split; [reflexivity|split; [exact G|apply more_refl]]|].
  inversion F as [|? ? K F']; subst. cbn [variant_types].
  assert (O : exists t s', variant_type c deal v s = Ok (t, s') /\ good s' /\ more s s').
  { unfold variant_type. destruct (v_fields v) as [|f [|f2 fs]]; [exists "empty", s; split; [reflexivity|split; [exact G|apply more_refl]]|inversion K; subst; now apply sub_total|].
    destruct (subs_total (map f_type (f :: f2 :: fs)) s) as (ns & s1 & -> & G1 & M1); [now apply Forall_map|exact G|]. cbn [bind]. eexists _, _. split; [reflexivity|]. now split. }
  destruct O as (t & s1 & -> & G1 & M1). cbn [bind]. destruct (IH s1 F' G1) as (vts & s2 & -> & G2 & M2). cbn [bind].
  eexists _, s2. split; [reflexivity|]. split; [exact G2|]. eapply more_trans; eassumption.
Qed.
End Step.

(** A named type is answered by its name; everything else takes a step down. *)
Lemma name_ok id : (exists n, nameSiType c D (port_get port id) id = Ok n).
Proof.
  unfold nameSiType. destruct (s_def (port_get port id)) eqn:E; try (eexists; reflexivity).
  pose proof (rg_variant _ _ _ _ _ R id _ E) as P. unfold path_of in P. destruct (s_path (port_get port id)); [congruence|].
  repeat match goal with |- exists n, (if ?b then _ else _) = _ => destruct b; try (eexists; reflexivity) end.
Qed.

Lemma name_text_total id nm : nameSiType c D (port_get port id) id = Ok nm -> nm <> "" -> texty nm.
Proof.
  intros Nm Ne. pose proof Nm as Nm'. unfold nameSiType in Nm.
  destruct (s_def (port_get port id)) eqn:E; try (injection Nm as <-; congruence); [exact (rg_composite_t id _ _ E Nm')|].
  destruct (s_path (port_get port id)) as [|p0 pr] eqn:P; [discriminate|].
  destruct (equal_fold p0 "Option" || equal_fold p0 "Result") eqn:Or; [injection Nm as <-; congruence|].
  destruct (is_pallet_call (p0 :: pr)) eqn:Ip; [injection Nm as <-; congruence|]. destruct (is_call_event (p0 :: pr)) eqn:Ic; [injection Nm as <-; congruence|].
  apply orb_false_elim in Or. destruct Or as [Oo Orr]. apply (rg_enum_t id _ nm E); [|unfold path_of; now rewrite P|exact Nm'].
  exists p0, pr. unfold path_of. now repeat split.
Qed.

Section Step2.
Variable deal : Z -> sitype -> bool -> sistate -> res (string * sistate).
Variable okT okF : Z -> Prop.
Hypothesis HT : forall k s, okT k -> good s -> gives k s (deal k (port_get port k) true s).
Hypothesis HF : forall k s, okF k -> good s -> gives k s (deal k (port_get port k) false s).

Lemma not_both p : is_unchecked p = true -> is_wrapper p = false.
Proof.
  unfold is_unchecked, is_wrapper. intros H. apply andb_prop in H. destruct H as [H L]. apply andb_prop in H. destruct H as [-> _]. cbn [andb].
  destruct (path_last p) as [x|]; [|reflexivity]. cbn [is_str] in *. apply String.eqb_eq in L. now subst x.
Qed.
Lemma param_total key p id fs s : def id = DComposite fs -> is_unchecked (path id) = true -> In p ["Signature"; "Address"] ->
  (forall k, stands_for id k -> okF k) -> good s ->
  exists s', reg_param c deal key p (port_get port id) s = Ok s' /\ good s' /\ more s s'.
Proof.
  intros E U P KF G. unfold reg_param. change (s_params (port_get port id)) with (params id).
  destruct (FindParameter p (params id)) as [k|] eqn:Fp; [|exists s; split; [reflexivity|split; [exact G|apply more_refl]]].
  pose proof (sf_unchecked _ _ _ _ _ E U P Fp) as St.
  destruct (HF k s (KF k St) G) as (t & s1 & -> & G1 & M1 & N1). cbn [bind].
  destruct (reg_one_total key (alias_of false 0 t) s1 G1) as (s2 & E2 & G2 & N2); [now left|left; split; [reflexivity|]|].
  { destruct N1 as [[N1 _]|[_ N1]]; [exact N1|exfalso; exact (rg_range _ _ _ _ _ R id k St (not_both _ U) N1)]. }
  exists s2. split; [exact E2|]. split; [exact G2|]. intros j. rewrite N2. apply M1.
Qed.
Lemma dup_good s : good s -> g_dup s = D.
Proof. now intros []. Qed.
Lemma more_eq s s1 s2 : g_names s2 = g_names s1 -> more s s1 -> more s s2.
Proof. intros E M k H. rewrite E. now apply M. Qed.
Lemma field_types_ok (fs : list sifield) : (forall k, okT k) -> Forall okT (map f_type fs).
Proof. intros H. apply Forall_map, Forall_forall. intros x _. apply H. Qed.
Lemma composite_total id fs s : def id = DComposite fs -> (forall k, okT k) -> (forall k, stands_for id k -> okF k) -> good s ->
  gives id s (expandComposite c deal id (port_get port id) fs s) /\ names_it id (expandComposite c deal id (port_get port id) fs s).
Proof.
  intros E KT KF G. unfold expandComposite. change (s_path (port_get port id)) with (path id).
  assert (P : exists s1, (if is_unchecked (path id) then s <- reg_param c deal "ExtrinsicSignature" "Signature" (port_get port id) s ;; reg_param c deal "ExtrinsicSigner" "Address" (port_get port id) s else Ok s) = Ok s1 /\ good s1 /\ more s s1).
  { destruct (is_unchecked (path id)) eqn:U; [|exists s; split; [reflexivity|split; [exact G|apply more_refl]]].
    destruct (param_total "ExtrinsicSignature" "Signature" id fs s E U) as (s1 & -> & G1 & M1); [now left|exact KF|exact G|]. cbn [bind].
    destruct (param_total "ExtrinsicSigner" "Address" id fs s1 E U) as (s2 & -> & G2 & M2); [now right; left|exact KF|exact G1|].
    exists s2. split; [reflexivity|]. split; [exact G2|]. eapply more_trans; eassumption. }
  destruct P as (s1 & -> & G1 & M1). cbn [bind]. destruct (name_ok id) as [nm Nm]. pose proof (rg_composite_t id fs nm E Nm) as Cn.
  destruct (is_wrapper (path id)) eqn:W.
  - change (s_params (port_get port id)) with (params id). pose proof (rg_wrapper _ _ _ _ _ R id fs E W) as Pn. destruct (params id) as [|[pn k] pl] eqn:Pp; [congruence|].
    pose proof (sf_wrapper _ _ _ _ _ _ E W Pp) as St. destruct (HF k s1 (KF k St) G1) as (t & s2 & -> & G2 & M2 & _). cbn [bind]. cbv zeta.
    apply done; [exact G2|eapply more_trans; eassumption|split; [apply convert_kept; now apply kept_app_l|apply nm_fixed; reflexivity]].
  - assert (Many : forall fs', gives id s ('(ns, s) <- sub_names c deal (map f_type fs') s1 ;; name <- nameSiType c (g_dup s) (port_get port id) id ;;
        s <- reg_one c name (TStruct "struct" "" (composite_cols 1 fs' ns) [] 0 (i_v14 c) (i_spec c)) s ;; Ok (name, set_name id name s)) /\
      names_it id ('(ns, s) <- sub_names c deal (map f_type fs') s1 ;; name <- nameSiType c (g_dup s) (port_get port id) id ;;
        s <- reg_one c name (TStruct "struct" "" (composite_cols 1 fs' ns) [] 0 (i_v14 c) (i_spec c)) s ;; Ok (name, set_name id name s))).
    { intros fs'. destruct (subs_total deal okT HT (map f_type fs') s1 (field_types_ok fs' KT) G1) as (ts & s2 & -> & G2 & M2). cbn [bind].
      rewrite (dup_good _ G2), Nm. cbn [bind].
      destruct (reg_one_total nm (TStruct "struct" "" (composite_cols 1 fs' ts) [] 0 (i_v14 c) (i_spec c)) s2 G2 (quiet_v14 _ _ _ _ _)) as (s3 & -> & G3 & N3).
      { right. split; [now left|apply composite_rows_ok]. }
      cbn [bind]. apply done; [exact G3|apply (more_eq s s2 s3 N3); eapply more_trans; eassumption|exact Cn]. }
    destruct fs as [|f [|f2 fr]]; [exact (Many [])| |exact (Many (f :: f2 :: fr))]. clear Many.
    destruct (is_str _ "AccountId32"); [apply done; [exact G1|exact M1|fixed]|].
    assert (N : exists n s2, match assocz (f_type f) (g_names s1) with Some n => Ok (n, s1) | None => if f_type f =? id then Ok ("NULL", s1) else deal (f_type f) (port_get port (f_type f)) false s1 end = Ok (n, s2) /\ good s2 /\ more s1 s2 /\ texty n).
    { destruct (assocz (f_type f) (g_names s1)) as [n|] eqn:A; [exists n, s1; split; [reflexivity|split; [exact G1|split; [apply more_refl|]]]; destruct G1 as (_ & F & _); exact (F _ _ A)|].
      destruct (Z.eqb_spec (f_type f) id) as [|Ne]; [exists "NULL", s1; split; [reflexivity|split; [exact G1|split; [apply more_refl|fixed]]]|].
      pose proof (sf_field _ _ _ E W Ne) as St. destruct (HF _ s1 (KF _ St) G1) as (t & s2 & -> & G2 & M2 & N2). exists t, s2. split; [reflexivity|]. split; [exact G2|]. split; [exact M2|].
      destruct N2 as [N2|[_ N2]]; [exact N2|exfalso; exact (rg_range _ _ _ _ _ R _ _ St W N2)]. }
    destruct N as (n & s2 & -> & G2 & M2 & C2). cbn [bind]. cbv zeta. pose proof (good_set id n s2 G2 C2) as G3. rewrite (dup_good _ G3), Nm. cbn [bind].
    destruct (reg_one_total nm (alias_of (i_v14 c) (i_spec c) n) (set_name id n s2) G3 Vq) as (s4 & -> & G4 & N4); [left; split; [reflexivity|exact (proj1 C2)]|]. cbn [bind]. split.
    + exists n, s4. split; [reflexivity|]. split; [exact G4|]. split; [|now left]. apply (more_eq s _ s4 N4). eapply more_trans; [exact M1|]. eapply more_trans; [exact M2|apply more_set].
    + intros t x [= <- <-] _. rewrite N4. apply named_set.
Qed.
Lemma enum_total id vs s n : nameSiType c D (port_get port id) id = Ok n -> texty n -> (forall k, okT k) -> good s ->
  gives id s (expandEnum c deal id (port_get port id) vs s) /\ names_it id (expandEnum c deal id (port_get port id) vs s).
Proof.
  intros Nm Cn KT G. unfold expandEnum.
  destruct (variants_total deal okT HT (sort_variants vs) s) as (vts & s1 & -> & G1 & M1).
  { apply Forall_forall. intros v _. apply Forall_forall. intros f _. apply KT. } { exact G. }
  cbn [bind]. rewrite (dup_good _ G1), Nm. cbn [bind].
  destruct (reg_one_total n (TStruct "enum" "" (enum_mapping vts) [] 0 (i_v14 c) (i_spec c)) s1 G1 (quiet_v14 _ _ _ _ _)) as (s2 & -> & G2 & N2).
  { right. split; [now right|apply enum_mapping_ok]. }
  cbn [bind]. apply done; [exact G2|exact (more_eq _ _ _ N2 M1)|exact Cn].
Qed.
Lemma result_total id s a b l : params id = a :: b :: l -> okT (snd a) -> okT (snd b) -> good s ->
  gives id s (expandResult c deal id (port_get port id) s) /\ names_it id (expandResult c deal id (port_get port id) s).
Proof.
  intros P KA KB G. unfold expandResult. change (s_params (port_get port id)) with (params id). rewrite P. destruct a as [an a], b as [bn b]. cbn [snd] in *.
  destruct (sub_total deal okT HT a s KA G) as (t & s1 & -> & G1 & M1). cbn [bind].
  destruct (sub_total deal okT HT b s1 KB G1) as (u & s2 & -> & G2 & M2). cbn [bind]. cbv zeta.
  apply done; [exact G2|eapply more_trans; eassumption|split; [apply convert_kept; now apply kept_app_l|apply nm_fixed; reflexivity]].
Qed.
Lemma call_total id s s1 : good s1 -> more s s1 -> gives id s (Ok ("Call", set_name id "Call" s1)) /\ names_it id (Ok ("Call", set_name id "Call" s1)).
Proof. intros G M. apply done; [exact G|exact M|fixed]. Qed.
Lemma dealVariant_total id vs s : def id = DVariant vs -> (forall k, inside id k -> okT k) ->
  ((forall k, okT k) \/ nameSiType c D (port_get port id) id = Ok "") -> good s ->
  gives id s (dealVariant c deal id (port_get port id) vs s) /\ names_it id (dealVariant c deal id (port_get port id) vs s).
Proof.
  intros E KI KT G. unfold dealVariant. change (s_path (port_get port id)) with (path id). pose proof (rg_variant _ _ _ _ _ R id vs E) as Pn.
  destruct (path id) as [|p0 pr] eqn:Pp; [congruence|].
  destruct (equal_fold p0 "Option") eqn:Eo.
  { assert (O : opt_path port id) by (exists p0, pr; now split). unfold expandOption. change (s_params (port_get port id)) with (params id).
    pose proof (rg_option _ _ _ _ _ R id vs E O) as Po. destruct (params id) as [|[n k] l] eqn:Pl; [congruence|].
    apply one_total with (okT := okT); [exact HT|reflexivity|reflexivity| |exact G]. apply KI. eapply is_param; [exact E|now left|]. rewrite Pl. now left. }
  destruct (equal_fold p0 "Result") eqn:Er.
  { assert (O : res_path port id) by (exists p0, pr; now repeat split). destruct (rg_result _ _ _ _ _ R id vs E O) as ([an a] & [bn b] & l & Pl).
    eapply result_total; [exact Pl| | |exact G]; cbn [snd]; apply KI; eapply is_param; try exact E; try (now right); rewrite Pl; [now left|now right; left]. }
  assert (O : other_path port id) by (exists p0, pr; now repeat split).
  destruct (is_pallet_call (p0 :: pr) || is_call_event (p0 :: pr)) eqn:Ce; [apply call_total; [exact G|apply more_refl]|].
  assert (Ce2 : is_call_event (path id) = false) by (rewrite Pp; now apply orb_false_elim in Ce).
  destruct (name_ok id) as [nm Nm]. pose proof (rg_enum_t id vs nm E O Ce2 Nm) as Cn.
  destruct (is_str _ "RuntimeCall").
  - rewrite (dup_good _ G), Nm. cbn [bind].
    destruct (reg_one_total nm (alias_of false 0 "Call") (set_name id "Call" s)) as (s2 & -> & G2 & N2); [apply good_set; [exact G|fixed]|now left|left; split; [reflexivity|discriminate]|].
    cbn [bind]. split.
    + exists "Call", s2. split; [reflexivity|]. split; [exact G2|]. split; [|left; fixed]. apply (more_eq s _ s2 N2), more_set.
    + intros t x [= <- <-] _. rewrite N2. apply named_set.
  - apply (enum_total id vs s nm Nm Cn); [|exact G]. destruct KT as [KT|KT]; [exact KT|]. exfalso. rewrite KT in Nm. injection Nm as <-. now apply (proj1 Cn).
Qed.
Lemma override_text t : overriderTypesName t = "" \/ texty (overriderTypesName t).
Proof.
  unfold overriderTypesName. cbv zeta. destruct (s_def t) as [fs| | | | | | | | | |]; try (now left). destruct fs as [|f [|]]; try (now left).
  destruct (_ && _); [right; fixed|]. destruct (_ && _); [right; fixed|now left].
Qed.
Lemma step_total id rc s : good s -> (forall k, inside id k -> okT k) -> (rc = false -> (forall k, okT k) /\ forall k, stands_for id k -> okF k) ->
  gives id s (deal_step c deal id (port_get port id) rc s) /\ (rc = false -> names_it id (deal_step c deal id (port_get port id) rc s)).
Proof.
  intros G KI KF. unfold deal_step. cbv zeta. destruct (override_text (port_get port id)) as [Ov|Ov].
  2: { destruct (String.eqb_spec (overriderTypesName (port_get port id)) "") as [X|X]; [rewrite X in Ov; now destruct Ov as [Ov _]|]. cbn [negb].
       destruct (done id s _ s G (more_refl s) Ov) as [A N]. split; [exact A|intros _; exact N]. }
  rewrite Ov. cbn [String.eqb negb]. rewrite (dup_good _ G). destruct (name_ok id) as [nm Nm].
  assert (Q : rc = true /\ nm <> "" \/ (if rc then nameSiType c D (port_get port id) id else Ok "") = Ok "" /\ (rc = true -> nm = "")).
  { destruct rc; [|right; now split]. destruct (String.eqb_spec nm ""); [right; split; [congruence|now intros _]|now left]. }
  destruct Q as [[-> Ne]|[-> Nn]].
  { rewrite Nm. cbn [bind]. destruct (String.eqb_spec nm ""); [congruence|]. cbn [negb]. split; [|discriminate].
    exists nm, s. split; [reflexivity|]. split; [exact G|]. split; [apply more_refl|]. left. now apply (name_text_total id nm Nm). }
  cbn [bind String.eqb negb].
  assert (Two : forall x, gives id s x /\ names_it id x -> gives id s x /\ (rc = false -> names_it id x)) by (intros x [H1 H2]; split; [exact H1|intros _; exact H2]).
  destruct (s_def (port_get port id)) eqn:E; apply Two.
  - destruct rc.
    + exfalso. rewrite (Nn eq_refl) in Nm. now apply (proj1 (rg_composite_t id _ _ E Nm)).
    + destruct (KF eq_refl) as [K1 K2]. now apply composite_total.
  - apply dealVariant_total; [exact E|exact KI| |exact G]. destruct rc; [right; now rewrite <- (Nn eq_refl)|left; now apply KF].
  - apply one_total with (okT := okT); [exact HT|reflexivity|reflexivity|apply KI; now apply is_sequence|exact G].
  - apply array_total with (okT := okT); [exact HT|intros _; apply KI; eapply is_array; exact E|exact G].
  - apply tuple_total with (okT := okT); [exact HT|apply Forall_forall; intros k I; apply KI; eapply is_tuple; [exact E|exact I]|exact G].
  - apply done; [exact G|apply more_refl|fixed].
  - apply one_total with (okT := okT); [exact HT|reflexivity|reflexivity|apply KI; now apply is_compact|exact G].
  - apply done; [exact G|apply more_refl|fixed].
  - split; [exists "", s; split; [reflexivity|split; [exact G|split; [apply more_refl|right; now split]]]|]. intros t x _ N. now destruct N.
  - apply done; [exact G|apply more_refl|fixed].
  - apply done; [exact G|apply more_refl|fixed].
Qed.
End Step2.
Lemma own_name_dec id : own_name id \/ ~ own_name id.
Proof.
  destruct (def id) as [fs|vs| | | | | | | | |] eqn:E; try (right; intros [[x X]|(x & X & _)]; congruence); [left; left; now exists fs|].
  pose proof (rg_variant _ _ _ _ _ R id vs E) as P. destruct (path id) as [|p l] eqn:Pp; [congruence|].
  destruct (equal_fold p "Option") eqn:O1; [right; intros [[x X]|(x & _ & (q & m & Q & Q1 & _) & _)]; congruence|].
  destruct (equal_fold p "Result") eqn:O2; [right; intros [[x X]|(x & _ & (q & m & Q & _ & Q2) & _)]; congruence|].
  destruct (is_call_event (path id)) eqn:C; [right; intros [[x X]|(x & _ & _ & X)]; congruence|].
  left. right. exists vs. split; [exact E|]. split; [|exact C]. exists p, l. now repeat split.
Qed.
Lemma own_name_text id : own_name id -> exists n, nameSiType c D (port_get port id) id = Ok n /\ n <> "".
Proof.
  intros H. destruct (name_ok id) as [n N]. exists n. split; [exact N|]. intros ->. destruct H as [[fs E]|(vs & E & O & C)].
  - exact (proj1 (rg_composite_t id fs "" E N) eq_refl).
  - exact (proj1 (rg_enum_t id vs "" E O C N) eq_refl).
Qed.
Lemma named_total deal id s : own_name id -> good s -> gives id s (deal_step c deal id (port_get port id) true s).
Proof.
  intros Hn G. destruct (own_name_text id Hn) as (n & N & H). unfold deal_step. cbv zeta. destruct (override_text (port_get port id)) as [O|O].
  - rewrite O. cbn [String.eqb negb]. rewrite (dup_good _ G), N. cbn [bind]. destruct (String.eqb_spec n ""); [congruence|]. cbn [negb].
    exists n, s. split; [reflexivity|]. split; [exact G|]. split; [apply more_refl|]. left. apply (name_text_total id n N H).
  - destruct (String.eqb_spec (overriderTypesName (port_get port id)) "") as [E|E]; [rewrite E in O; now destruct O|]. cbn [negb]. now destruct (done id s _ s G (more_refl s) O).
Qed.
Definition deals (n : nat) : Prop :=
  (forall k s, (1 <= n)%nat -> (~ own_name k -> (rank k + 2 <= n)%nat) -> good s -> gives k s (dealOneSiType n c k (port_get port k) true s)) /\
  forall k s, (rank k + B + 3 <= n)%nat -> good s ->
    gives k s (dealOneSiType n c k (port_get port k) false s) /\ names_it k (dealOneSiType n c k (port_get port k) false s).
Lemma deals_all n : deals n.
Proof.
  induction n as [|m [IT IF]]; [split; intros; lia|]. split; intros k s.
  - intros _ Rk G. cbn [dealOneSiType]. destruct (own_name_dec k) as [H|H]; [now apply named_total|]. specialize (Rk H).
    apply (step_total (dealOneSiType m c) (fun j => (1 <= m)%nat /\ (~ own_name j -> (rank j + 2 <= m)%nat)) (fun _ => False)).
    + intros j x [A Hj] Gx. now apply IT.
    + intros j x [].
    + exact G.
    + intros j I. split; [lia|]. intros Nj. pose proof (rg_inside _ _ _ _ _ R k j I Nj). lia.
    + discriminate.
  - intros Rk G. cbn [dealOneSiType].
    destruct (step_total (dealOneSiType m c) (fun j => (1 <= m)%nat /\ (~ own_name j -> (rank j + 2 <= m)%nat)) (fun j => (rank j + B + 3 <= m)%nat)) with (id := k) (rc := false) (s := s) as [A N].
    + intros j x [Bj Hj] Gx. now apply IT.
    + intros j x Hj Gx. now apply IF.
    + exact G.
    + intros j _. pose proof (rg_bound _ _ _ _ _ R j). split; [lia|]. intros _. lia.
    + intros _. split; [intros j; pose proof (rg_bound _ _ _ _ _ R j); split; [lia|intros _; lia]|]. intros j St. pose proof (rg_stands _ _ _ _ _ R k j St). lia.
    + split; [exact A|now apply N].
Qed.

(** ** The passes *)
Lemma each_total f n : (forall i s, good s -> exists s', f i s = Ok s' /\ good s' /\ more s s') -> forall i s, good s -> exists s', each_id f n i s = Ok s' /\ good s' /\ more s s'.
Proof.
  intros F. induction n as [|n IH]; intros i s G; [exists s; split; [reflexivity|split; [exact G|apply more_refl]]|]. cbn [each_id].
  destruct (F i s G) as (s1 & -> & G1 & M1). cbn [bind]. destruct (IH (i + 1) s1 G1) as (s2 & -> & G2 & M2). exists s2. split; [reflexivity|]. split; [exact G2|]. eapply more_trans; eassumption.
Qed.
Lemma reg_primitive_total id n s : HasReg r0 n = true -> texty n -> good s -> exists s', reg_primitive c id n s = Ok s' /\ good s' /\ more s s'.
Proof.
  intros H C G. unfold reg_primitive. assert (HasReg (g_reg s) n = true) as ->.
  { unfold HasReg in *. destruct G as (_ & _ & T). specialize (T (to_lower n)). destruct (assoc (to_lower n) (r_types r0)); [|discriminate].
    destruct (assoc (to_lower n) (r_types (g_reg s))); [reflexivity|]. exfalso. now apply T. }
  destruct (reg_one_total ("primitive_types:" ++ n) (alias_of (i_v14 c) (i_spec c) n) (set_name id n s)) as (s1 & -> & G1 & N1); [now apply good_set|exact Vq|left; split; [reflexivity|exact (proj1 C)]|].
  exists s1. split; [reflexivity|]. split; [exact G1|]. apply (more_eq s _ s1 N1), more_set.
Qed.
Lemma same_total s : good s -> exists s', Ok s = Ok s' /\ good s' /\ more s s'.
Proof. intros G. exists s. split; [reflexivity|split; [exact G|apply more_refl]]. Qed.
Lemma rest_named fuel n : (2 * B + 3 <= fuel)%nat -> forall i s, good s -> exists s', each_id (pass_rest fuel c) n i s = Ok s' /\ good s' /\ more s s' /\
  forall k, i <= k < i + Z.of_nat n -> def k <> DRange -> assocz k (g_names s') <> None.
Proof.
  intros Fu. induction n as [|n IH]; intros i s G; [exists s; split; [reflexivity|split; [exact G|split; [apply more_refl|intros; lia]]]|]. cbn [each_id].
  assert (P : exists s1, pass_rest fuel c i s = Ok s1 /\ good s1 /\ more s s1 /\ (def i <> DRange -> assocz i (g_names s1) <> None)).
  { unfold pass_rest. destruct (assocz i (g_names s)) as [x|] eqn:A; [exists s; split; [reflexivity|split; [exact G|split; [apply more_refl|intros _; congruence]]]|].
    destruct (proj2 (deals_all fuel) i s) as [(t & s1 & E & G1 & M1 & _) N]; [pose proof (rg_bound _ _ _ _ _ R i); lia|exact G|]. pose proof (N t s1 E) as N1. rewrite E. cbn [bind].
    exists s1. split; [reflexivity|]. split; [exact G1|]. split; [exact M1|exact N1]. }
  destruct P as (s1 & -> & G1 & M1 & N1). cbn [bind]. destruct (IH (i + 1) s1 G1) as (s2 & -> & G2 & M2 & N2). exists s2. split; [reflexivity|]. split; [exact G2|].
  split; [eapply more_trans; eassumption|]. intros k L Dk. destruct (Z.eq_dec k i) as [->|]; [apply M2, N1, Dk|]. apply N2; [lia|exact Dk].
Qed.
Lemma process_total fuel : counted c D -> (2 * B + 3 <= fuel)%nat -> exists s, ProcessSiType fuel c r0 = Ok s /\
  (forall id, 0 <= id < Z.of_nat (distinct_ids [] port) -> def id <> DRange -> assocz id (g_names s) <> None) /\
  (forall id n, assocz id (g_names s) = Some n -> texty n) /\ types_above r0 (g_reg s).
Proof.
  intros (s0 & C0 & CD) Fu. unfold ProcessSiType. cbv zeta. set (n := distinct_ids [] port) in *.
  destruct (count_reg c base_reg r0 n 0 [] s0 C0) as [_ X]. rewrite X, CD. cbn [bind].
  assert (G0 : good (SiState [] D r0)) by (split; [reflexivity|split; [discriminate|now intros k]]).
  destruct (each_total (pass_primitive c) n) with (i := 0) (s := SiState [] D r0) as (s1 & -> & G1 & _); [|exact G0|].
  { intros i s G. unfold pass_primitive. destruct (s_def (port_get port i)) eqn:E; try now apply same_total. destruct (rg_prim _ _ _ _ _ R i _ E) as [A C]. apply reg_primitive_total; [exact A|split; [exact C|exact (nm_prim i _ E)]|exact G]. }
  cbn [bind]. destruct (each_total (pass_primitive_types c) n) with (i := 0) (s := s1) as (s2 & -> & G2 & _); [|exact G1|].
  { intros i s G. unfold pass_primitive_types. change (s_path (port_get port i)) with (path i). destruct (is_str (nth_error (path i) 0) "primitive_types") eqn:P; [|now apply same_total].
    assert (Pp : prims_path port i). { unfold prims_path. destruct (nth_error (path i) 0) as [x|]; [|discriminate P]. cbn in P. apply String.eqb_eq in P. now subst x. }
    destruct (path_last (path i)) as [m|] eqn:L.
    - destruct (rg_prims _ _ _ _ _ R i m Pp L) as [A C]. apply reg_primitive_total; [exact A|split; [exact C|exact (nm_prims i m Pp L)]|exact G].
    - exfalso. unfold prims_path in Pp. destruct (path i) as [|x l]; [discriminate Pp|]. unfold path_last in L. apply nth_error_None in L. rewrite rev_length in L. cbn in L. lia. }
  cbn [bind]. destruct (each_total (pass_sp_core fuel c) n) with (i := 0) (s := s2) as (s3 & -> & G3 & _); [|exact G2|].
  { intros i s G. unfold pass_sp_core. destruct (is_str _ "sp_core"); [|now apply same_total].
    destruct (proj2 (deals_all fuel) i s) as [(t & x & E & Gx & Mx & _) _]; [pose proof (rg_bound _ _ _ _ _ R i); lia|exact G|]. rewrite E. cbn [bind]. exists x. split; [reflexivity|now split]. }
  cbn [bind]. destruct (rest_named fuel n Fu 0 s3 G3) as (s4 & -> & G4 & _ & N4). cbn [bind]. eexists. split; [reflexivity|]. cbn [g_names]. split.
  - intros id L Dr. apply N4; [lia|exact Dr].
  - destruct G4 as (_ & F & T). split; [exact F|exact T].
Qed.
End Total.
