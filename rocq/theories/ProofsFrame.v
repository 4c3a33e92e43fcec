(** What registering a portable type registry leaves untouched
    (ModelScaleInfo.v): every plain name that is not a path of one part. *)

From Verif Require Import GoBase ModelTools ModelVal ModelRegistry ModelDecode ModelEncode ModelRegister ModelScaleInfo ModelMetadata ProofsBase ProofsTools ProofsRun
  ProofsApi ProofsNames ProofsTexts ProofsPortText ProofsPortReg PropDescribe.

(** The part of a key before "#". *)
Fixpoint before_hash (s : string) : string :=
  match s with
  | "" => ""
  | String a r => if Ascii.eqb a "#"%char then "" else String a (before_hash r)
  end.
Lemma before_split s : exists t, split_char "#"%char s = before_hash s :: t.
Proof.
  induction s as [|a s IH]; [now exists []|]. cbn [split_char before_hash]. destruct (Ascii.eqb a "#"%char); [eexists; reflexivity|].
  destruct IH as [t ->]. now exists t.
Qed.
Lemma before_none s : ~ has_char "#"%char s -> before_hash s = s.
Proof.
  induction s as [|a s IH]; intros N; [reflexivity|]. rewrite has_char_cons in N. cbn [before_hash]. destruct (Ascii.eqb_spec a "#"%char) as [->|]; [tauto|].
  rewrite IH; [reflexivity|tauto].
Qed.
Lemma before_app a b : before_hash (a ++ String "#" b) = before_hash a.
Proof. induction a as [|x a IH]; [reflexivity|]. cbn [String.append before_hash]. destruct (Ascii.eqb x "#"%char); [reflexivity|]. now rewrite IH. Qed.
Lemma before_char x a b : ~ has_char "#"%char a -> has_char x a -> has_char x (before_hash (a ++ b)).
Proof.
  induction a as [|y a IH]; intros N H; [destruct H|]. rewrite has_char_cons in N, H. cbn [String.append before_hash].
  destruct (Ascii.eqb_spec y "#"%char) as [->|]; [tauto|]. rewrite has_char_cons. destruct H as [->|H]; [now left|right]. apply IH; tauto.
Qed.

Definition same_at (k : string) (r r' : reg) : Prop := assoc k (r_types r') = assoc k (r_types r) /\ assoc k (r_special r') = assoc k (r_special r).
Lemma same_refl k r : same_at k r r. Proof. now split. Qed.
Lemma same_trans k r1 r2 r3 : same_at k r1 r2 -> same_at k r2 r3 -> same_at k r1 r3.
Proof. intros [A B] [C D]. split; congruence. Qed.
Lemma key_same k key cd r : ~ has_char "#"%char k -> before_hash key <> k -> same_at k r (regCustomKey key cd r).
Proof.
  intros N H. unfold regCustomKey. destruct (before_split key) as [t E]. rewrite E.
  assert (T : same_at k r (with_types (upd key cd) r)).
  { split; [|reflexivity]. cbn [with_types r_types]. rewrite assoc_upd. destruct (String.eqb_spec k key) as [->|]; [|reflexivity]. now rewrite before_none in H. }
  destruct t as [|v [|w t]]; [exact T| |exact T]. destruct (version_range v) as [lo hi]. split; [reflexivity|]. cbn [with_special r_special]. rewrite assoc_upd.
  destruct (String.eqb_spec k (before_hash key)); [congruence|reflexivity].
Qed.
Lemma reg_one_same k c key t s s' : reg_one c key t s = Ok s' -> usual t -> ~ has_char "#"%char k -> before_hash (to_lower key) <> k ->
  g_dup s' = g_dup s /\ same_at k (g_reg s) (g_reg s').
Proof.
  intros H U N B. unfold reg_one in H. apply bind_ok in H. destruct H as (r' & H & [= <-]). cbn [g_dup g_reg]. split; [reflexivity|].
  unfold RegCustomTypes in H. cbn [reg_loop] in H. apply bind_ok in H. destruct H as (o & V & H).
  assert (O : match o with None => True | Some (k1, r1) => same_at k (g_reg s) r1 /\ before_hash (to_lower k1) <> k end).
  { unfold v14_step in V. destruct (t_v14 t); [|injection V as <-; split; [apply same_refl|exact B]].
    destruct (assoc key (r_v14 (g_reg s))); [|injection V as <-; split; [now split|exact B]].
    destruct (t_spec t =? 0); [injection V as <-; exact I|]. apply bind_ok in V. destruct V as (b & _ & V). destruct b; injection V as <-; [exact I|].
    split; [apply same_refl|]. rewrite to_lower_app'. cbn [String.append]. match goal with |- context [to_lower (String "#" ?x)] => change (to_lower (String "#" x)) with (String "#" (to_lower x)) end. now rewrite before_app. }
  destruct o as [[k1 r1]|]; [|injection H as <-; apply same_refl]. destruct O as [O1 O2]. apply bind_ok in H. destruct H as (r2 & H & [= <-]).
  apply one_reg in H; [|exact U]. destruct H as [(cd & _ & ->)|[-> _]]; [|exact O1]. eapply same_trans; [exact O1|]. now apply key_same.
Qed.

(** ** The names under which types are registered *)
(** A composite, or a variant that is neither Option nor Result. *)
Definition has_name (t : sitype) : Prop :=
  match s_def t with
  | DComposite _ => True
  | DVariant _ => match s_path t with [] => False | p :: _ => equal_fold p "Option" = false /\ equal_fold p "Result" = false end
  | _ => False
  end.
(** The name [k] is free: no type goes by it alone. *)
Definition free_name (port : portable) (k : string) : Prop :=
  forall id t p, In (id, t) port -> has_name t -> s_path t = [p] -> to_lower p <> k.
Definition plain_paths (port : portable) : Prop := forall id t p, In (id, t) port -> In p (s_path t) -> ~ has_char "#"%char p.
Definition free_key (k : string) : Prop :=
  k <> "" /\ ~ has_char "#"%char k /\ ~ has_char ":"%char k /\ ~ has_char "@"%char k /\ k <> "extrinsicsignature" /\ k <> "extrinsicsigner".

Lemma join_nohash l : (forall p, In p l -> ~ has_char "#"%char p) -> ~ has_char "#"%char (join ":" l).
Proof.
  unfold join. induction l as [|a [|b l] IH]; intros H X; [destruct X|apply (H a); [now left|exact X]|]. cbn [String.concat] in X. rewrite !has_char_app in X.
  destruct X as [X|[X|X]]; [apply (H a); [now left|exact X]|destruct X as [X|[]]; discriminate|].
  revert X. apply IH. intros p I. apply H. now right.
Qed.
Lemma join_two a b l : exists r, join ":" (a :: b :: l) = a ++ ":" ++ r.
Proof. unfold join. cbn [String.concat]. eexists. reflexivity. Qed.
Lemma assocz_in {A} k (l : list (Z * A)) a : assocz k l = Some a -> In (k, a) l.
Proof.
  induction l as [|[x v] l IH]; [discriminate|]. cbn [assocz]. destruct (Z.eqb_spec k x) as [->|]; [|intros H; right; now apply IH].
  intros H. injection H as ->. now left.
Qed.
Lemma itoa_char n a : has_char a (itoa n) -> a <> "#"%char.
Proof. intros H ->. now apply itoa_nohash in H. Qed.

Section Frame.
Variable c : sictx.
Variable k : string.
Notation port := (i_port c).
Hypothesis PRE : i_prefix c = "".
Hypothesis HASH : plain_paths port.
Hypothesis FK : free_key k.
Hypothesis FREE : free_name port k.

Definition okkey (key : string) : Prop := before_hash (to_lower key) <> k.
Lemma colon_key a b : ~ has_char "#"%char a -> has_char ":"%char a -> okkey (a ++ b).
Proof.
  intros N H X. destruct FK as (_ & _ & C & _). apply C. unfold okkey in X. rewrite to_lower_app' in X. rewrite <- X. apply before_char.
  - intros Y. apply (proj1 (lower_has "#"%char a eq_refl)) in Y. contradiction.
  - now apply (lower_has ":"%char a eq_refl).
Qed.
Lemma sig_key key : key = "ExtrinsicSignature" \/ key = "ExtrinsicSigner" -> okkey key.
Proof. destruct FK as (_ & _ & _ & _ & A & B). intros [-> | ->] X; [apply A|apply B]; rewrite <- X; reflexivity. Qed.
Lemma tuple_key x : okkey ("Tuple:" ++ x).
Proof. apply colon_key; cbn; intuition discriminate. Qed.
Lemma prim_key x : okkey ("primitive_types:" ++ x).
Proof. apply colon_key; cbn; intuition discriminate. Qed.
Lemma port_get_cases id : (In (id, port_get port id) port) \/ port_get port id = zero_type.
Proof. unfold port_get. destruct (assocz id port) as [t|] eqn:A; [left; now apply assocz_in|now right]. Qed.
Lemma name_key D id n : nameSiType c D (port_get port id) id = Ok n -> okkey n.
Proof.
  assert (EMPTY : okkey "") by (intros X; destruct FK as (A & _); apply A; rewrite <- X; reflexivity).
  assert (GEN : has_name (port_get port id) -> okkey (generate_name c D (port_get port id) id)).
  { intros HN. destruct (port_get_cases id) as [I|Z]; [|rewrite Z in HN; destruct HN]. unfold generate_name. rewrite PRE. cbn [String.eqb].
    assert (NH : ~ has_char "#"%char (join ":" (s_path (port_get port id)))) by (apply join_nohash; intros p Ip; eapply HASH; eassumption).
    destruct (s_path (port_get port id)) as [|p [|q l]] eqn:P.
    - destruct ((1 <? _) && _); [|exact EMPTY]. cbn [join String.concat String.append]. intros X. destruct FK as (_ & _ & _ & A & _). apply A. rewrite <- X. left. reflexivity.
    - change (join ":" [p]) with p in *. destruct ((1 <? _) && _).
      + intros X. destruct FK as (_ & _ & _ & A & _). apply A. rewrite <- X. rewrite before_none.
        * apply (lower_has "@"%char _ eq_refl). rewrite has_char_app. right. left. reflexivity.
        * intros Y. apply (proj1 (lower_has "#"%char _ eq_refl)) in Y. rewrite !has_char_app in Y. destruct Y as [Y|[Y|Y]]; [contradiction|destruct Y as [Y|[]]; discriminate|now apply itoa_nohash in Y].
      + intros X. unfold okkey in X. rewrite before_none in X; [|intros Y; apply (proj1 (lower_has "#"%char p eq_refl)) in Y; contradiction]. revert X. eapply FREE; [exact I|exact HN|exact P].
    - destruct (join_two p q l) as [r E]. rewrite E in *. assert (C : forall y, okkey ((p ++ ":") ++ r ++ y)).
      { intros y. apply colon_key; [|rewrite has_char_app; right; now left]. intros Y. apply NH. rewrite has_char_app in *. destruct Y as [Y|Y]; [now left|]. destruct Y as [Y|[]]; discriminate. }
      destruct ((1 <? _) && _).
      + specialize (C ("@" ++ itoa id)). rewrite !app_assoc_s in *. exact C.
      + specialize (C ""). rewrite app_nil_r_s, !app_assoc_s in C. exact C. }
  unfold nameSiType, has_name in *. destruct (s_def (port_get port id)); try (intros [= <-]; exact EMPTY).
  - intros [= <-]. now apply GEN.
  - destruct (s_path (port_get port id)) as [|p l] eqn:P; [discriminate|].
    destruct (equal_fold p "Option") eqn:E1; [intros [= <-]; exact EMPTY|]. destruct (equal_fold p "Result") eqn:E2; [intros [= <-]; exact EMPTY|]. cbn [orb].
    destruct (is_pallet_call _); [intros [= <-]; exact EMPTY|]. destruct (is_call_event _); [intros [= <-]; exact EMPTY|]. intros [= <-]. apply GEN. now split.
Qed.

Definition same (s s' : sistate) : Prop := same_at k (g_reg s) (g_reg s').
Lemma srefl s : same s s. Proof. apply same_refl. Qed.
Lemma strans s1 s2 s3 : same s1 s2 -> same s2 s3 -> same s1 s3. Proof. apply same_trans. Qed.
Lemma sset s id n : same s (set_name id n s). Proof. apply same_refl. Qed.
Lemma sreg key t s s' : reg_one c key t s = Ok s' -> usual t -> okkey key -> same s s'.
Proof. intros H U O. destruct FK as (_ & N & _). now destruct (reg_one_same k c key t s s' H U N O). Qed.

Ltac inv H := match type of H with
  | Ok _ = Ok _ => injection H as <- <- || injection H as <-
  | bind _ _ = Ok _ => let x := fresh "x" in let E := fresh "E" in apply bind_ok in H; destruct H as (x & E & H); match type of x with prod _ _ => destruct x as [? ?] | _ => idtac end
  end.

Variable deal : Z -> sitype -> bool -> sistate -> res (string * sistate).
Hypothesis DEAL : forall id b s n s', deal id (port_get port id) b s = Ok (n, s') -> same s s'.

Lemma same_sub id s n s' : sub_name c deal id s = Ok (n, s') -> same s s'.
Proof. unfold sub_name. destruct (assocz id (g_names s)); [intros [= <- <-]; apply srefl|apply DEAL]. Qed.
Lemma same_subs ks : forall s n s', sub_names c deal ks s = Ok (n, s') -> same s s'.
Proof.
  induction ks as [|i ks IH]; intros s n s' H; cbn [sub_names] in H; [injection H as <- <-; apply srefl|]. inv H. inv H. inv H.
  eapply strans; [eapply same_sub; eassumption|eapply IH; eassumption].
Qed.
Lemma same_variant v s n s' : variant_type c deal v s = Ok (n, s') -> same s s'.
Proof.
  unfold variant_type. destruct (v_fields v) as [|f [|g l]]; intros H; [injection H as <- <-; apply srefl|eapply same_sub; eassumption|].
  inv H. inv H. eapply same_subs; eassumption.
Qed.
Lemma same_variants vs : forall s n s', variant_types c deal vs s = Ok (n, s') -> same s s'.
Proof.
  induction vs as [|v vs IH]; intros s n s' H; cbn [variant_types] in H; [injection H as <- <-; apply srefl|]. inv H. inv H. inv H.
  eapply strans; [eapply same_variant; eassumption|eapply IH; eassumption].
Qed.
Ltac us := unfold usual; cbn; tauto.
Lemma same_enum id vs s n s' : expandEnum c deal id (port_get port id) vs s = Ok (n, s') -> same s s'.
Proof.
  unfold expandEnum. intros H. inv H. inv H. inv H. inv H. eapply strans; [eapply same_variants; eassumption|].
  eapply strans; [eapply sreg; [eassumption|us|eapply name_key; eassumption]|apply sset].
Qed.
Lemma same_param key p t s s' : okkey key -> reg_param c deal key p t s = Ok s' -> same s s'.
Proof.
  unfold reg_param. intros O H. destruct (FindParameter p (s_params t)); [|injection H as <-; apply srefl]. inv H.
  eapply strans; [eapply DEAL; eassumption|]. eapply sreg; [eassumption|us|exact O].
Qed.
Lemma same_one before id t s n s' : expandOne c deal before id t s = Ok (n, s') -> same s s'.
Proof. unfold expandOne. intros H. inv H. inv H. eapply strans; [eapply same_sub; eassumption|apply sset]. Qed.
Lemma same_tuple id l s n s' : expandTuple c deal id l s = Ok (n, s') -> same s s'.
Proof.
  unfold expandTuple. destruct l as [|i l]; intros H; [injection H as <- <-; apply sset|]. inv H. inv H. inv H.
  eapply strans; [eapply same_subs; eassumption|]. eapply strans; [eapply sreg; [eassumption|us|apply tuple_key]|apply sset].
Qed.
Lemma same_composite id fs s n s' : expandComposite c deal id (port_get port id) fs s = Ok (n, s') -> same s s'.
Proof.
  unfold expandComposite. intros H. apply bind_ok in H. destruct H as (s1 & E & H). apply strans with (s2 := s1).
  { destruct (is_unchecked _); [|injection E as <-; apply srefl]. apply bind_ok in E. destruct E as (s0 & E1 & E2).
    eapply strans; eapply same_param; [|exact E1| |exact E2]; apply sig_key; tauto. }
  clear E s. destruct (is_wrapper _).
  { destruct (s_params _) as [|[? i] ?]; [discriminate|]. inv H. inv H. eapply strans; [eapply DEAL; eassumption|apply sset]. }
  assert (MANY : forall ns s2, sub_names c deal (map f_type fs) s1 = Ok (ns, s2) -> forall s3 name, nameSiType c (g_dup s2) (port_get port id) id = Ok name ->
    reg_one c name (TStruct "struct" "" (composite_cols 1 fs ns) [] 0 (i_v14 c) (i_spec c)) s2 = Ok s3 -> same s1 (set_name id name s3)).
  { intros ns s2 E s3 name EN ER. eapply strans; [eapply same_subs; exact E|]. eapply strans; [eapply sreg; [exact ER|us|eapply name_key; exact EN]|apply sset]. }
  destruct fs as [|f [|g fs]].
  - inv H. inv H. inv H. inv H. eapply MANY; eassumption.
  - destruct (is_str _ _); [injection H as <- <-; apply sset|]. inv H. inv H. inv H. inv H.
    eapply strans; [|eapply strans; [apply sset|eapply sreg; [eassumption|us|eapply name_key; eassumption]]].
    destruct (assocz (f_type f) (g_names s1)); [injection E as <- <-; apply srefl|]. destruct (f_type f =? id); [injection E as <- <-; apply srefl|]. eapply DEAL; eassumption.
  - inv H. inv H. inv H. inv H. eapply MANY; eassumption.
Qed.
Lemma same_deal_variant id vs s n s' : dealVariant c deal id (port_get port id) vs s = Ok (n, s') -> same s s'.
Proof.
  unfold dealVariant. intros H. destruct (s_path _) as [|p l]; [discriminate|]. destruct (equal_fold p "Option").
  { unfold expandOption in H. destruct (s_params _) as [|[? ?] ?]; [discriminate|]. eapply same_one; eassumption. }
  destruct (equal_fold p "Result").
  { unfold expandResult in H. destruct (s_params _) as [|[? ?] [|[? ?] ?]]; [discriminate|discriminate|]. inv H. inv H. inv H.
    eapply strans; [eapply same_sub; eassumption|]. eapply strans; [eapply same_sub; eassumption|apply sset]. }
  destruct (_ || _); [injection H as <- <-; apply sset|]. destruct (is_str _ _); [|eapply same_enum; eassumption].
  inv H. inv H. inv H. eapply strans; [apply sset|]. eapply sreg; [eassumption|us|eapply name_key; eassumption].
Qed.
Lemma same_step id b s n s' : deal_step c deal id (port_get port id) b s = Ok (n, s') -> same s s'.
Proof.
  unfold deal_step. intros H. destruct (negb _); [injection H as <- <-; apply sset|]. apply bind_ok in H. destruct H as (name & _ & H).
  destruct (negb _); [injection H as <- <-; apply srefl|]. destruct (s_def (port_get port id)).
  - eapply same_composite; eassumption.
  - eapply same_deal_variant; eassumption.
  - eapply same_one; eassumption.
  - unfold expandArray in H. destruct (_ =? 0); [injection H as <- <-; apply sset|]. inv H. inv H. eapply strans; [eapply same_sub; eassumption|apply sset].
  - eapply same_tuple; eassumption.
  - injection H as <- <-. apply sset.
  - eapply same_one; eassumption.
  - injection H as <- <-. apply sset.
  - injection H as <- <-. apply srefl.
  - injection H as <- <-. apply sset.
  - injection H as <- <-. apply sset.
Qed.
End Frame.

Lemma deal_frame c k : i_prefix c = "" -> plain_paths (i_port c) -> free_key k -> free_name (i_port c) k ->
  forall fuel id b s n s', dealOneSiType fuel c id (port_get (i_port c) id) b s = Ok (n, s') -> same k s s'.
Proof.
  intros P H F N. induction fuel as [|f IH]; intros id b s n s' E; [discriminate|]. cbn [dealOneSiType] in E.
  eapply (same_step c k P H F N (dealOneSiType f c)); [|exact E]. intros i b' s1 m s2. apply IH.
Qed.
Lemma each_same k f : (forall i s s', f i s = Ok s' -> same k s s') -> forall n i s s', each_id f n i s = Ok s' -> same k s s'.
Proof.
  intros F n. induction n as [|n IH]; intros i s s' H; cbn [each_id] in H; [injection H as <-; apply srefl|]. apply bind_ok in H. destruct H as (s1 & E & H).
  eapply strans; [eapply F; exact E|eapply IH; exact H].
Qed.
Theorem portable_frame fuel c r s k : ProcessSiType fuel c r = Ok s -> i_prefix c = "" -> plain_paths (i_port c) -> free_key k -> free_name (i_port c) k ->
  same_at k r (g_reg s).
Proof.
  intros H P HP FK FN. unfold ProcessSiType in H. apply bind_ok in H. destruct H as (s1 & E1 & H). apply bind_ok in H. destruct H as (s2 & E2 & H).
  apply bind_ok in H. destruct H as (s3 & E3 & H). apply bind_ok in H. destruct H as (s4 & E4 & H). apply bind_ok in H. destruct H as (s5 & E5 & H).
  injection H as <-. change (same_at k r (g_reg s5)).
  assert (PR : forall i n s s', reg_primitive c i n s = Ok s' -> same k s s').
  { intros i n s s'. unfold reg_primitive. destruct (HasReg _ _); [|discriminate]. intros X. eapply strans; [apply sset|].
    eapply sreg; [exact FK|exact X|unfold usual; cbn; tauto|now apply prim_key]. }
  assert (D : forall i b s n s', dealOneSiType fuel c i (port_get (i_port c) i) b s = Ok (n, s') -> same k s s') by (intros; eapply deal_frame; eassumption).
  assert (A : same k (SiState [] [] r) s1).
  { eapply each_same; [|exact E1]. intros i s s'. unfold count_name. intros X. apply bind_ok in X. destruct X as (n & _ & X).
    destruct (String.eqb n ""); injection X as <-; [apply srefl|apply same_refl]. }
  assert (B : same k s1 s2).
  { eapply each_same; [|exact E2]. intros i s s'. unfold pass_primitive. destruct (s_def _); try (intros [= <-]; apply srefl). apply PR. }
  assert (C : same k s2 s3).
  { eapply each_same; [|exact E3]. intros i s s'. unfold pass_primitive_types. destruct (is_str _ _); [|intros [= <-]; apply srefl].
    destruct (path_last _); [apply PR|discriminate]. }
  assert (F : same k s3 s4).
  { eapply each_same; [|exact E4]. intros i s s'. unfold pass_sp_core. destruct (is_str _ _); [|intros [= <-]; apply srefl].
    intros X. apply bind_ok in X. destruct X as ([n s0] & X & Y). injection Y as <-. eapply D; exact X. }
  assert (G : same k s4 s5).
  { eapply each_same; [|exact E5]. intros i s s'. unfold pass_rest. destruct (assocz _ _); [intros [= <-]; apply srefl|].
    intros X. apply bind_ok in X. destruct X as ([n s0] & X & Y). injection Y as <-. eapply D; exact X. }
  exact (strans k _ _ _ A (strans k _ _ _ B (strans k _ _ _ C (strans k _ _ _ F G)))).
Qed.

(** ** More fuel does not change a result *)
Section Fuel.
Variables f f' : nat.
Hypothesis LF : (f <= f')%nat.
Lemma le_says {A} (a b : res A) : (a <> OutOfFuel -> b = a) -> le_res a b.
Proof. intros H. destruct a as [x|m|]; [right; now rewrite H by discriminate|right; now rewrite H by discriminate|now left]. Qed.
Lemma le_text E t n : le_res (getTypeStructString f E t n) (getTypeStructString f' E t n).
Proof. apply le_says. intros H. apply (describe_more E f f' LF t n _ eq_refl H). Qed.
Ltac le := repeat first
  [ apply le_res_refl | apply le_text | assumption
  | apply le_res_bind; [|intros ?]
  | match goal with |- le_res (match ?x with _ => _ end) _ => destruct x end
  | match goal with |- le_res (let '(_, _) := ?x in _) _ => destruct x end ].
Lemma le_eq r key d : le_res (EqTypeStringWithTypeStruct f r key d) (EqTypeStringWithTypeStruct f' r key d).
Proof. unfold EqTypeStringWithTypeStruct. le. Qed.
Lemma le_v14 key t r : le_res (v14_step f key t r) (v14_step f' key t r).
Proof. unfold v14_step. destruct (t_v14 t); [|le]. destruct (assoc key (r_v14 r)); [|le]. destruct (t_spec t =? 0); [le|]. apply le_res_bind; [apply le_eq|intros b; le]. Qed.
Lemma le_string all key t r : le_res (reg_string f all key t r) (reg_string f' all key t r).
Proof.
  unfold reg_string. destruct (assoc _ (r_types r)); [le|]. destruct (assoc _ all) as [x|]; [|le]. destruct (String.eqb _ _); [le|].
  apply le_res_bind; [apply le_v14|intros o]. le.
Qed.
Lemma le_loop all order : forall r, le_res (reg_loop f all order r) (reg_loop f' all order r).
Proof.
  induction order as [|[key t] order IH]; intros r; cbn [reg_loop]; [le|]. apply le_res_bind; [apply le_v14|intros o]. destruct o as [[k r1]|]; [|le].
  apply le_res_bind; [destruct (String.eqb _ _); [apply le_string|le]|intros r2; apply IH].
Qed.
Variables (p : string) (v : bool) (sp : Z) (port : portable).
Notation c := (SiCtx p v sp port f).
Notation c' := (SiCtx p v sp port f').
Lemma le_reg key t s : le_res (reg_one c key t s) (reg_one c' key t s).
Proof. unfold reg_one. apply le_res_bind; [apply le_loop|intros r; le]. Qed.
Section Deal.
Variables deal deal' : Z -> sitype -> bool -> sistate -> res (string * sistate).
Hypothesis LD : forall id t b s, le_res (deal id t b s) (deal' id t b s).
Lemma le_sub k s : le_res (sub_name c deal k s) (sub_name c' deal' k s).
Proof. unfold sub_name. destruct (assocz k (g_names s)); [le|apply LD]. Qed.
Lemma le_subs ks : forall s, le_res (sub_names c deal ks s) (sub_names c' deal' ks s).
Proof.
  induction ks as [|k ks IH]; intros s; cbn [sub_names]; [le|]. apply le_res_bind; [apply le_sub|intros [n s1]]. apply le_res_bind; [apply IH|intros [l s2]; le].
Qed.
Lemma le_variant x s : le_res (variant_type c deal x s) (variant_type c' deal' x s).
Proof.
  unfold variant_type. destruct (v_fields x) as [|a [|b l]]; [le|apply le_sub|]. apply le_res_bind; [apply le_subs|intros [ns s1]; le].
Qed.
Lemma le_variants vs : forall s, le_res (variant_types c deal vs s) (variant_types c' deal' vs s).
Proof.
  induction vs as [|k ks IH]; intros s; cbn [variant_types]; [le|]. apply le_res_bind; [apply le_variant|intros [n s1]]. apply le_res_bind; [apply IH|intros [l s2]; le].
Qed.
Lemma le_name D t id : le_res (nameSiType c D t id) (nameSiType c' D t id). Proof. apply le_res_refl. Qed.
Ltac lb := apply le_res_bind; [first [apply le_name|apply le_reg|apply LD|apply le_sub|apply le_subs|apply le_variants]|].
Lemma le_enum id t vs s : le_res (expandEnum c deal id t vs s) (expandEnum c' deal' id t vs s).
Proof. unfold expandEnum. lb. intros [vts s1]. lb. intros name. lb. intros s2. le. Qed.
Lemma le_param key n t s : le_res (reg_param c deal key n t s) (reg_param c' deal' key n t s).
Proof. unfold reg_param. destruct (FindParameter n (s_params t)); [|le]. lb. intros [m s1]. apply le_reg. Qed.
Lemma le_one b id t s : le_res (expandOne c deal b id t s) (expandOne c' deal' b id t s).
Proof. unfold expandOne. lb. intros [n s1]. le. Qed.
Lemma le_composite id t fs s : le_res (expandComposite c deal id t fs s) (expandComposite c' deal' id t fs s).
Proof.
  unfold expandComposite. apply le_res_bind.
  { destruct (is_unchecked _); [|le]. apply le_res_bind; [apply le_param|intros s1; apply le_param]. }
  intros s1. destruct (is_wrapper _); [destruct (s_params t) as [|[? ?] ?]; [le|]; lb; intros [n s2]; le|].
  destruct fs as [|a [|b fs]].
  - lb. intros [ns s2]. lb. intros name. lb. intros s3. le.
  - destruct (is_str _ _); [le|]. apply le_res_bind; [destruct (assocz _ _); [le|]; destruct (_ =? _); [le|apply LD]|]. intros [n s2]. lb. intros name. lb. intros s3. le.
  - lb. intros [ns s2]. lb. intros name. lb. intros s3. le.
Qed.
Lemma le_deal_variant id t vs s : le_res (dealVariant c deal id t vs s) (dealVariant c' deal' id t vs s).
Proof.
  unfold dealVariant. destruct (s_path t) as [|a l]; [le|]. destruct (equal_fold a "Option"); [unfold expandOption; destruct (s_params t) as [|[? ?] ?]; [le|apply le_one]|].
  destruct (equal_fold a "Result"); [unfold expandResult; destruct (s_params t) as [|[? ?] [|[? ?] ?]]; [le|le|]; lb; intros [n sa]; lb; intros [m sb]; le|].
  destruct (_ || _); [le|]. destruct (is_str _ _); [|apply le_enum]. lb. intros name. lb. intros s1. le.
Qed.
Lemma le_step id t b s : le_res (deal_step c deal id t b s) (deal_step c' deal' id t b s).
Proof.
  unfold deal_step. destruct (negb _); [le|]. apply le_res_bind; [destruct b; [apply le_name|le]|]. intros name. destruct (negb _); [le|]. destruct (s_def t).
  - apply le_composite.
  - apply le_deal_variant.
  - apply le_one.
  - unfold expandArray. destruct (_ =? 0); [le|]. lb. intros [n s1]. le.
  - unfold expandTuple. destruct l; [le|]. lb. intros [ns s1]. lb. intros s2. le.
  - le.
  - apply le_one.
  - le.
  - le.
  - le.
  - le.
Qed.
End Deal.
Lemma le_deal g g' : (g <= g')%nat -> forall id t b s, le_res (dealOneSiType g c id t b s) (dealOneSiType g' c' id t b s).
Proof.
  revert g'. induction g as [|g IH]; intros g' G id t b s; [now left|]. destruct g' as [|g']; [lia|]. cbn [dealOneSiType]. apply le_step. intros. apply IH. lia.
Qed.
Lemma le_each (F F' : Z -> sistate -> res sistate) : (forall i s, le_res (F i s) (F' i s)) -> forall n i s, le_res (each_id F n i s) (each_id F' n i s).
Proof. intros H n. induction n as [|n IH]; intros i s; cbn [each_id]; [le|]. apply le_res_bind; [apply H|intros s1; apply IH]. Qed.
Lemma le_process g g' r : (g <= g')%nat -> le_res (ProcessSiType g c r) (ProcessSiType g' c' r).
Proof.
  intros G. unfold ProcessSiType. apply le_res_bind; [apply le_each; intros; apply le_res_refl|intros s1].
  assert (RP : forall i n s, le_res (reg_primitive c i n s) (reg_primitive c' i n s)) by (intros; unfold reg_primitive; destruct (HasReg _ _); [apply le_reg|le]).
  apply le_res_bind; [apply le_each; intros i s; unfold pass_primitive; cbn [i_port]; destruct (s_def _); try apply le_res_refl; apply RP|intros s2].
  apply le_res_bind; [apply le_each; intros i s; unfold pass_primitive_types; cbn [i_port]; destruct (is_str _ _); [|le]; destruct (path_last _); [apply RP|le]|intros s3].
  apply le_res_bind; [apply le_each; intros i s; unfold pass_sp_core; cbn [i_port]; destruct (is_str _ _); [|le]; apply le_res_bind; [now apply le_deal|intros [n s']; le]|intros s4].
  apply le_res_bind; [apply le_each; intros i s; unfold pass_rest; cbn [i_port]; destruct (assocz _ _); [le|]; apply le_res_bind; [now apply le_deal|intros [n s']; le]|intros s5].
  le.
Qed.
End Fuel.
(** Registering the portable types of metadata, as [process_portable] does it. *)
Lemma process_more f f' p v sp port r s : (f <= f')%nat -> ProcessSiType f (SiCtx p v sp port f) r = Ok s -> ProcessSiType f' (SiCtx p v sp port f') r = Ok s.
Proof. intros L H. destruct (le_process f f' L p v sp port f f' r L) as [X|X]; [congruence|now rewrite <- X]. Qed.
