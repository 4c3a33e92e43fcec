(** Texts of the types of a portable registry, and the decoders they stand for. *)

From Verif Require Import GoBase SpecNum ProofsBase ModelTools ModelVal ModelJson ModelRegistry ModelDecode ModelRegister ModelScaleInfo
  ProofsRun SpecScale ProofsReads ProofsScale ProofsNames ProofsTexts PropRegistry PropScaleInfo SpecPortable.

(** ** Letter case *)
Lemma lower_app_inv x : forall s y, to_lower s = x ++ y -> exists s1 s2, s = s1 ++ s2 /\ to_lower s1 = x /\ to_lower s2 = y.
Proof.
  induction x as [|a x IH]; intros s y H; [exists "", s; auto|].
  destruct s as [|b s]; [discriminate|]. change (to_lower (String b s)) with (String (lower_char b) (to_lower s)) in H. cbn [String.append] in H. injection H as H1 H2.
  destruct (IH s y H2) as (s1 & s2 & -> & E1 & E2). exists (String b s1), s2. split; [reflexivity|]. split; [|exact E2].
  change (to_lower (String b s1)) with (String (lower_char b) (to_lower s1)). now rewrite H1, E1.
Qed.
Lemma lower_const w s : forallb (fun a => negb (wrapper_char a)) (s2b w) = true -> to_lower s = w -> s = w.
Proof.
  revert s. induction w as [|a w IH]; intros s N H; [now destruct s|]. destruct s as [|b s]; [discriminate|].
  change (to_lower (String b s)) with (String (lower_char b) (to_lower s)) in H. injection H as H1 H2. cbn [s2b list_ascii_of_string forallb] in N.
  apply andb_true_iff in N. destruct N as [N1 N2]. f_equal; [|now apply IH]. apply (proj1 (lower_plain b a ltac:(now apply negb_true_iff))). exact H1.
Qed.
Lemma generic_fold t w a : to_lower t = to_lower (w ++ "<" ++ a ++ ">") -> exists w' a', t = w' ++ "<" ++ a' ++ ">" /\ to_lower w' = to_lower w /\ to_lower a' = to_lower a.
Proof.
  rewrite to_lower_app'. intros H. apply lower_app_inv in H. destruct H as (w' & r & -> & E1 & H). rewrite to_lower_app' in H.
  apply lower_app_inv in H. destruct H as (lt & r' & -> & E2 & H). rewrite to_lower_app' in H. apply lower_app_inv in H. destruct H as (a' & gt & -> & E3 & H).
  exists w', a'. rewrite (lower_const "<" lt eq_refl E2), (lower_const ">" gt eq_refl H). auto.
Qed.
Lemma digits_const n s : 0 <= n -> to_lower s = itoa n -> s = itoa n.
Proof.
  intros N. apply lower_const. pose proof (itoa_digits_only n N) as F. apply forallb_forall. intros a Ha. rewrite Forall_forall in F. specialize (F a Ha).
  apply negb_true_iff. unfold wrapper_char. lia.
Qed.
Lemma array_fold t a n : 0 <= n -> to_lower t = to_lower (array_text a n) -> exists a', t = array_text a' n /\ to_lower a' = to_lower a.
Proof.
  intros N. rewrite array_lower by exact N. unfold array_text. intros H.
  apply lower_app_inv in H. destruct H as (lt & r & -> & E1 & H). apply lower_app_inv in H. destruct H as (a' & r' & -> & E2 & H).
  apply lower_app_inv in H. destruct H as (sc & r'' & -> & E3 & H). apply lower_app_inv in H. destruct H as (d & e & -> & E4 & H).
  exists a'. split; [|exact E2]. rewrite (lower_const "[" lt eq_refl E1), (lower_const "; " sc eq_refl E3), (lower_const "]" e eq_refl H), (digits_const n d N E4). reflexivity.
Qed.
Lemma pair_fold s a b : to_lower s = to_lower (a ++ "," ++ b) -> exists a' b', s = a' ++ "," ++ b' /\ to_lower a' = to_lower a /\ to_lower b' = to_lower b.
Proof.
  rewrite to_lower_app'. intros H. apply lower_app_inv in H. destruct H as (a' & r & -> & E1 & H). rewrite to_lower_app' in H.
  apply lower_app_inv in H. destruct H as (cm & b' & -> & E2 & H). exists a', b'. rewrite (lower_const "," cm eq_refl E2). auto.
Qed.
Lemma join_char x ts : has_char x (join "" ts) -> exists t, In t ts /\ has_char x t.
Proof.
  induction ts as [|t ts IH]; [contradiction|]. rewrite join_app. intros H. apply has_char_app in H. destruct H as [H|H]; [exists t; split; [now left|exact H]|].
  destruct (IH H) as (u & I & U). exists u. split; [now right|exact U].
Qed.
Lemma lower_prefix p s : prefix (to_lower p) (to_lower s) = true -> exists a b, s = a ++ b /\ to_lower a = to_lower p.
Proof.
  revert s. induction p as [|x p IH]; intros s H; [exists "", s; auto|]. destruct s as [|y s]; [discriminate|].
  change (to_lower (String y s)) with (String (lower_char y) (to_lower s)) in H. change (to_lower (String x p)) with (String (lower_char x) (to_lower p)) in H. cbn [prefix] in H.
  destruct (Ascii.eqb_spec (lower_char x) (lower_char y)) as [E|]; [|discriminate]. destruct (IH s H) as (a & b & -> & Q). exists (String y a), b. split; [reflexivity|].
  change (to_lower (String y a)) with (String (lower_char y) (to_lower a)). change (to_lower (String x p)) with (String (lower_char x) (to_lower p)). now rewrite E, Q.
Qed.
Lemma prefix_lower p s : prefix p s = true -> prefix (to_lower p) (to_lower s) = true.
Proof.
  revert s. induction p as [|x p IH]; intros s H; [reflexivity|]. destruct s as [|y s]; [discriminate|]. cbn [prefix] in H.
  destruct (Ascii.eqb_spec x y) as [->|]; [|discriminate]. change (to_lower (String y p)) with (String (lower_char y) (to_lower p)).
  change (to_lower (String y s)) with (String (lower_char y) (to_lower s)). cbn [prefix]. destruct (Ascii.eqb_spec (lower_char y) (lower_char y)); [now apply IH|contradiction].
Qed.
Lemma prefix_app_s p s : prefix p (p ++ s) = true.
Proof. induction p as [|x p IH]; [now destruct s|]. cbn [String.append prefix]. now rewrite Ascii.eqb_refl. Qed.

Lemma nohash_lit s : existsb (Ascii.eqb "#"%char) (s2b s) = false -> ~ has_char "#"%char s.
Proof. intros H I. assert (existsb (Ascii.eqb "#"%char) (s2b s) = true); [|congruence]. apply existsb_exists. exists "#"%char. split; [exact I|reflexivity]. Qed.
Lemma itoa_nohash n : ~ has_char "#"%char (itoa n).
Proof.
  assert (P : forall m, 0 <= m -> ~ has_char "#"%char (itoa m)).
  { intros m Hm I. destruct (digits_chars m Hm) as (F & _). rewrite Forall_forall in F. specialize (F _ I). revert F. not_name. }
  destruct (Z.ltb_spec n 0) as [L|L]; [|now apply P]. intros I. apply (P (- n)); [lia|]. unfold itoa in *. replace (n <? 0) with true in I by (symmetry; lia).
  replace (- n <? 0) with false by (symmetry; lia). apply has_char_app in I. destruct I as [I|I]; [now apply nohash_lit in I|exact I].
Qed.
Lemma assoc_in {A} k (l : list (string * A)) : In k (map fst l) -> exists a, In (k, a) l.
Proof. induction l as [|[x a] l IH]; [contradiction|]. intros [<-|H]; [exists a; now left|]. destruct (IH H) as [b Hb]. exists b. now right. Qed.
Lemma assoc_some {A} k (l : list (string * A)) x : assoc k l = Some x -> In (k, x) l.
Proof. induction l as [|[y a] l IH]; [discriminate|]. cbn [assoc]. destruct (String.eqb_spec k y) as [->|]; [intros [= ->]; now left|right; now apply IH]. Qed.
Lemma positions_len {A B} k (l : list A) (m : list B) : List.length l = List.length m -> positions k l = positions k m.
Proof. revert k m. induction l as [|x l IH]; intros k [|y m] H; try discriminate; [reflexivity|]. cbn. f_equal. apply IH. now injection H. Qed.
Lemma prefix_stop p : forall s x0 b, ~ has_char x0 p -> prefix p (s ++ String x0 b) = true -> prefix p s = true.
Proof.
  induction p as [|x p IH]; intros s x0 b N P; [destruct s; reflexivity|]. destruct s as [|y s].
  - exfalso. apply N. cbn [append] in P. left. revert P. cbn [prefix]. destruct (Ascii.eqb_spec x x0) as [->|D0]; [reflexivity|intros Q; discriminate Q].
  - revert P. cbn [prefix append]. destruct (Ascii.eqb x y); [|intros Q; discriminate Q]. apply (IH s x0 b). intros X. apply N. now right.
Qed.

(** ** Decoders that decode a declared type *)
Definition prim_codecs : list (string * codec) :=
  [("bool", CBool); ("str", CString); ("u8", CU8); ("u16", CU16); ("u32", CU32); ("u64", CU64); ("u128", CU128); ("u256", CU256);
   ("i16", CIntFixed 2); ("i32", CIntFixed 4); ("i64", CIntFixed 8); ("i128", CIntFixed 16); ("i256", CIntFixed 32)].
Definition hash_codecs : list (string * codec) := [("h160", CH160); ("h256", CH256); ("h512", CH512)].

Section Texts.
Variable c : sictx.
Variable D : list (string * Z).
Variable Rg : Z -> Prop.
Notation port := (i_port c).
Notation def := (def_of port).
Notation path := (path_of port).
Notation named_as := (named_as c D).
Notation early := (early c).
Notation text := (text c D Rg).
Notation texts := (texts c D Rg).
Hypothesis REG : forall id, Rg id -> regular c D Rg id.
Hypothesis WN : well_named c D Rg.

Scheme text_ind2 := Minimality for SpecPortable.text Sort Prop with texts_ind2 := Minimality for SpecPortable.texts Sort Prop.
Combined Scheme text_mutind from text_ind2, texts_ind2.

Lemma text_mono (T T' : string -> Prop) : (forall k, T k -> T' k) ->
  (forall id t, text T id t -> text T' id t) /\ (forall ks ts, texts T ks ts -> texts T' ks ts).
Proof.
  intros I. apply (text_mutind c D Rg T (fun id t => text T' id t) (fun ks ts => texts T' ks ts)); intros; try (econstructor; eassumption).
  apply tx_tuple with (ks := ks); auto.
Qed.

(** Up to letter case. *)
Definition ftext (T : string -> Prop) (id : Z) (t : string) : Prop := exists t0, text T id t0 /\ to_lower t0 = to_lower t.
Definition ftexts (T : string -> Prop) : list Z -> list string -> Prop := Forall2 (ftext T).
Lemma texts_forall T ks ts : texts T ks ts <-> Forall2 (text T) ks ts.
Proof. split; induction 1; constructor; auto. Qed.

Definition vtext (T : string -> Prop) (v : sivariant) (tn : string) : Prop :=
  match v_fields v with
  | [] => tn = "empty"
  | [f] => ftext T (f_type f) tn
  | fs => exists ns, ftexts T (map f_type fs) ns /\ tn = json_marshal (variant_cols 0 fs ns)
  end.

Inductive M (T : string -> Prop) : Z -> codec -> Prop :=
| m_prim id p cd : prim port id p -> In (p, cd) prim_codecs -> M T id cd
| m_hash id h cd : prims_path port id -> path_last (path id) = Some h -> In (to_lower h, cd) hash_codecs -> M T id cd
| m_account id : account c id -> M T id CAccountId
| m_new id f cd : def id = DComposite [f] -> ~ early id -> M T (f_type f) cd -> M T id cd
| m_struct id fs ts : def id = DComposite fs -> List.length fs <> 1%nat -> ftexts T (map f_type fs) ts ->
    M T id (CStruct (newStruct (combine (cols 1 fs) ts)))
| m_enum id vs vts : def id = DVariant vs -> other_path port id -> map fst vts = sort_variants vs -> Forall (fun p => vtext T (fst p) (snd p)) vts ->
    M T id (CEnum (newStruct (map row_pair (enum_mapping vts))) [])
| m_seq id k sub : def id = DSequence k -> ftext T k sub -> to_lower sub <> "u8" -> M T id (CVec sub)
| m_bytes id k : def id = DSequence k -> is_like port "u8" k -> M T id CBytes
| m_array id n k sub : def id = DArray n k -> n <> 0 -> ftext T k sub -> M T id (CFixedArray n sub)
| m_array8 id n k : def id = DArray n k -> n <> 0 -> is_like port "u8" k -> M T id (CFixedU8 n)
| m_null id k : def id = DArray 0 k \/ def id = DTuple [] \/ def id = DNone -> M T id CNull
| m_tuple id ks ts : def id = DTuple ks -> ks <> [] -> ftexts T ks ts -> M T id (CStruct (Some (combine (positions 1 ks) ts)))
| m_option id vs n k r sub : def id = DVariant vs -> opt_path port id -> params_of port id = (n, k) :: r -> ftext T k sub -> M T id (COption sub)
| m_result id vs n a m b r t u : def id = DVariant vs -> res_path port id -> params_of port id = (n, a) :: (m, b) :: r -> ftext T a t -> ftext T b u ->
    M T id (CResult (t ++ "," ++ u))
| m_compact id k sub : def id = DCompact k -> ftext T k sub -> M T id (CCompact sub)
| m_compact32 id k : def id = DCompact k -> is_like port "u32" k -> M T id CCompactU32
| m_bits id : def id = DBitSequence -> M T id CBitVec.

Lemma ftext_mono (T T' : string -> Prop) id t : (forall k, T k -> T' k) -> ftext T id t -> ftext T' id t.
Proof. intros I (t0 & H & E). exists t0. split; [now apply (proj1 (text_mono T T' I))|exact E]. Qed.
Lemma ftexts_mono (T T' : string -> Prop) ks ts : (forall k, T k -> T' k) -> ftexts T ks ts -> ftexts T' ks ts.
Proof. intros I. induction 1; constructor; [now apply (ftext_mono T)|assumption]. Qed.
Lemma vtext_mono (T T' : string -> Prop) v tn : (forall k, T k -> T' k) -> vtext T v tn -> vtext T' v tn.
Proof.
  intros I. unfold vtext. destruct (v_fields v) as [|f [|g fs]]; [auto|now apply ftext_mono|]. intros (ns & H & E). exists ns. split; [now apply (ftexts_mono T)|exact E].
Qed.
Lemma M_mono (T T' : string -> Prop) id cd : (forall k, T k -> T' k) -> M T id cd -> M T' id cd.
Proof.
  intros I. induction 1;
  [econstructor 1; eassumption|econstructor 2; eassumption|econstructor 3; eassumption|econstructor 4; eassumption
  |apply m_struct; eauto using ftexts_mono
  |apply m_enum with (vs := vs); auto; eapply Forall_impl; [|eassumption]; intros; now apply (vtext_mono T)
  |apply m_seq with (k := k); eauto using ftext_mono|econstructor 8; eassumption
  |apply m_array with (k := k); eauto using ftext_mono|econstructor 10; eassumption|econstructor 11; eassumption
  |apply m_tuple; eauto using ftexts_mono|eapply m_option; eauto using ftext_mono
  |eapply m_result; eauto using ftext_mono|eapply m_compact; eauto using ftext_mono|econstructor 16; eassumption|now apply m_bits].
Qed.
Lemma M_init T id cd : M T id cd -> init_sub cd "" = cd.
Proof.
  induction 1; try reflexivity; try assumption.
  - unfold prim_codecs in *. cbn [In] in *. intuition (try congruence). all: match goal with H : (_, _) = _ |- _ => injection H as _ <- end; reflexivity.
  - unfold hash_codecs in *. cbn [In] in *. intuition (try congruence). all: match goal with H : (_, _) = _ |- _ => injection H as _ <- end; reflexivity.
  - cbn [init_sub]. now destruct (String.eqb sub "") eqn:Q; [apply String.eqb_eq in Q as ->|].
Qed.
Lemma texts_ftexts T ks ts : texts T ks ts -> ftexts T ks ts.
Proof. induction 1; constructor; [now exists t|assumption]. Qed.
Lemma text_ftext T k t : text T k t -> ftext T k t.
Proof. intros H. now exists t. Qed.

(** ** What regularity gives for components *)
Lemma not_both id : opt_path port id -> other_path port id -> False.
Proof. intros (p & r & E & H) (q & s & E' & H' & _). rewrite E in E'. injection E' as -> ->. congruence. Qed.
Lemma not_both2 id : res_path port id -> other_path port id -> False.
Proof. intros (p & r & E & _ & H) (q & s & E' & _ & H'). rewrite E in E'. injection E' as -> ->. congruence. Qed.
Lemma not_both3 id : opt_path port id -> res_path port id -> False.
Proof. intros (p & r & E & H) (q & s & E' & H' & _). rewrite E in E'. injection E' as -> ->. congruence. Qed.
Lemma opt_not_prims id : opt_path port id -> prims_path port id -> False.
Proof. intros (p & r & E & H) P. unfold prims_path in P. rewrite E in P. injection P as ->. discriminate. Qed.
Lemma res_not_prims id : res_path port id -> prims_path port id -> False.
Proof. intros (p & r & E & _ & H) P. unfold prims_path in P. rewrite E in P. injection P as ->. discriminate. Qed.
Ltac rg id H := let R := fresh "R" in pose proof (REG id H) as R; unfold regular in R; destruct R as (?OV & ?RANGE & R).
Lemma rg_prim id n : Rg id -> def id = DPrimitive n -> In (to_lower n) prim_names /\ path id = [].
Proof. intros H E. rg id H. now rewrite E in R. Qed.
Lemma rg_prims id : Rg id -> prims_path port id -> exists f h n e, def id = DComposite [f] /\ path_last (path id) = Some h /\ In (to_lower h, n) hashes
  /\ def (f_type f) = DArray n e /\ prim port e "u8".
Proof.
  intros H P. rg id H. destruct (def id) eqn:E; try (decompose [and] R; contradiction).
  - destruct R as (_ & _ & [(f & h & n & e & -> & _ & Q1 & Q2 & Q3 & Q4)|[(f & e & _ & _ & _ & _ & Q & _)|(N & _)]]).
    + now exists f, h, n, e.
    + unfold prims_path in P. congruence.
    + contradiction.
  - exfalso. destruct R as [(O & _)|[(O & _)|(_ & N & _)]]; [now apply (opt_not_prims id)|now apply (res_not_prims id)|contradiction].
  - exfalso. destruct R as (_ & Q). unfold prims_path in P. rewrite Q in P. discriminate.
Qed.
Lemma rg_account id : Rg id -> account c id -> exists f e, def id = DComposite [f] /\ def (f_type f) = DArray 32 e /\ prim port e "u8"
   /\ nth_error (path id) 0 = Some "sp_core" /\ (forall j, 0 <= j < id -> nth_error (path j) 0 <> Some "sp_core")
   \/ prims_path port id.
Proof.
  intros H (A & f & E). rg id H. rewrite E in R.
  destruct R as (_ & _ & [(f' & h & n & e & Q & P & _)|[(f' & e & Q & _ & Q1 & Q2 & Q3)|(_ & N & _)]]).
  - exists f, 0. now right.
  - injection Q as <-. exists f, e. left. now rewrite E.
  - exfalso. now apply N.
Qed.
Lemma rg_plain id fs : Rg id -> def id = DComposite fs -> ~ early id ->
  ~ prims_path port id /\ (List.length fs = 1%nat -> ~ account_path port id) /\ name_regular c D id
          /\ Forall (fun f => Rg (f_type f)) fs /\ NoDup (cols 1 fs) /\ (forall f, fs = [f] -> newtype_ok c id f).
Proof.
  intros H E N. rg id H. rewrite E in R. destruct R as (_ & _ & [(f' & h & n & e & Q & P & _)|[(f' & e & Q & P & _)|R]]); [| |exact R]; exfalso; apply N.
  - now left; right.
  - right. split; [exact P|]. exists f'. now rewrite E, Q.
Qed.
Lemma rg_new id f : Rg id -> def id = DComposite [f] -> ~ early id -> Rg (f_type f) /\ newtype_ok c id f.
Proof. intros H E N. destruct (rg_plain id [f] H E N) as (_ & _ & _ & F & _ & K). inversion F; subst. split; [assumption|now apply K]. Qed.
Lemma rg_seq id k : Rg id -> def id = DSequence k -> Rg k.
Proof. intros H E. rg id H. rewrite E in R. tauto. Qed.
Lemma rg_arr id n k : Rg id -> def id = DArray n k -> Rg k /\ 0 <= n < 2 ^ 63.
Proof. intros H E. rg id H. rewrite E in R. tauto. Qed.
Lemma rg_tuple id ks : Rg id -> def id = DTuple ks -> Forall Rg ks.
Proof. intros H E. rg id H. rewrite E in R. tauto. Qed.
Lemma rg_compact id k : Rg id -> def id = DCompact k -> Rg k /\ (is_like port "u32" k \/ is_like port "u64" k \/ is_like port "u128" k).
Proof. intros H E. rg id H. rewrite E in R. tauto. Qed.
Lemma rg_option id vs : Rg id -> def id = DVariant vs -> opt_path port id -> exists n k r, params_of port id = (n, k) :: r /\ Rg k /\ ~ is_like port "bool" k
          /\ Forall (fun v => (v_index v = 0 /\ v_fields v = []) \/ (v_index v = 1 /\ exists f, v_fields v = [f] /\ f_type f = k)) vs.
Proof.
  intros H E O. rg id H. rewrite E in R. destruct R as [(_ & R)|[(O' & _)|(O' & _)]]; [exact R| |]; exfalso; [now apply (not_both3 id)|now apply (not_both id)].
Qed.
Lemma rg_result id vs : Rg id -> def id = DVariant vs -> res_path port id -> exists n a m b r, params_of port id = (n, a) :: (m, b) :: r /\ Rg a /\ Rg b
          /\ (forall k j ws, k = a \/ k = b -> reach port k j -> def j = DVariant ws -> ~ res_path port j)
          /\ Forall (fun v => exists f, v_fields v = [f] /\ ((v_index v = 0 /\ f_type f = a) \/ (v_index v = 1 /\ f_type f = b))) vs.
Proof.
  intros H E O. rg id H. rewrite E in R. destruct R as [(O' & _)|[(_ & R)|(O' & _)]]; [|exact R|]; exfalso; [now apply (not_both3 id)|now apply (not_both2 id)].
Qed.
Lemma rg_enum id vs : Rg id -> def id = DVariant vs -> other_path port id ->
  ~ prims_path port id /\ is_call_event (path id) = false /\ is_str (path_last (path id)) "RuntimeCall" = false
          /\ name_regular c D id /\ well_indexed vs
          /\ Forall (fun v => Forall (fun f => Rg (f_type f)) (v_fields v) /\ NoDup (cols 0 (v_fields v))) vs.
Proof.
  intros H E O. rg id H. rewrite E in R. destruct R as [(O' & _)|[(O' & _)|(_ & R)]]; [| |exact R]; exfalso; [now apply (not_both id)|now apply (not_both2 id)].
Qed.
Lemma named_def id n : named_as id n -> (exists fs, def id = DComposite fs) \/ (exists vs, def id = DVariant vs /\ other_path port id).
Proof.
  intros [H N]. unfold nameSiType in H. unfold def_of. destruct (s_def (port_get port id)) as [fs|vs| | | | | | | | |]; try (injection H as <-; contradiction); [left; now exists fs|].
  right. exists vs. split; [reflexivity|]. unfold other_path, path_of. destruct (s_path (port_get port id)) as [|p r] eqn:E; [discriminate|]. exists p, r. split; [reflexivity|].
  destruct (equal_fold p "Option"); [injection H as <-; contradiction|]. destruct (equal_fold p "Result"); [injection H as <-; contradiction|]. now split.
Qed.
Lemma variant_not_early id vs : def id = DVariant vs -> ~ prims_path port id -> ~ early id.
Proof. intros E N [[[n E']|P]|(_ & f & E')]; [congruence|contradiction|congruence]. Qed.

(** ** Texts *)
Lemma name_nohash id n : named_as id n -> ~ has_char "#"%char n.
Proof. intros H. destruct (wn_name _ _ _ WN id n H) as ((N & _) & _). apply name_no; [exact N|not_name]. Qed.
Lemma override_nohash t : ~ has_char "#"%char (overriderTypesName t).
Proof.
  unfold overriderTypesName. destruct (s_def t) as [[|f [|]]| | | | | | | | | |]; try (intros []).
  destruct (_ && _); [apply nohash_lit; reflexivity|]. destruct (_ && _); [apply nohash_lit; reflexivity|intros []].
Qed.
Lemma text_nohash T : (forall id t, text T id t -> ~ has_char "#"%char t) /\ (forall ks ts, texts T ks ts -> ~ has_char "#"%char (join "" ts)).
Proof.
  apply (text_mutind c D Rg T (fun id t => ~ has_char "#"%char t) (fun ks ts => ~ has_char "#"%char (join "" ts))); intros.
  - now apply (wn_prim _ _ _ WN id).
  - now apply (wn_prims _ _ _ WN id).
  - now apply nohash_lit.
  - apply override_nohash.
  - now apply (name_nohash id).
  - now apply nohash_lit.
  - assumption.
  - rewrite !has_char_app. intros [X|[X|X]]; [now apply nohash_lit in X|contradiction|now apply nohash_lit in X].
  - unfold array_text. rewrite !has_char_app. intros [X|[X|[X|[X|X]]]]; [now apply nohash_lit in X|contradiction|now apply nohash_lit in X| |now apply nohash_lit in X].
    now apply itoa_nohash in X.
  - now apply nohash_lit.
  - rewrite !has_char_app. intros [X|[X|X]]; [now apply nohash_lit in X|contradiction|now apply nohash_lit in X].
  - now apply nohash_lit.
  - rewrite !has_char_app. intros [X|X]; [now apply nohash_lit in X|contradiction].
  - now apply nohash_lit.
  - rewrite !has_char_app. intros [X|[X|X]]; [now apply nohash_lit in X|contradiction|now apply nohash_lit in X].
  - now apply nohash_lit.
  - now apply nohash_lit.
  - now apply nohash_lit.
  - rewrite !has_char_app. intros [X|[X|X]]; [now apply nohash_lit in X|contradiction|now apply nohash_lit in X].
  - rewrite !has_char_app. intros [X|[[X|[X|X]]|X]]; [now apply nohash_lit in X|contradiction|now apply nohash_lit in X|contradiction|now apply nohash_lit in X].
  - now apply nohash_lit.
  - intros [].
  - rewrite join_app, has_char_app. intros [X|X]; contradiction.
Qed.

(** Texts of covered types. *)
Definition nice (t : string) : Prop :=
  good t /\ prefix "boundedbtreeset" (to_lower t) = false /\ exists a r, t = String a r /\ (wrapper_char a = true \/ a = "_"%char \/ a = "["%char).
Lemma nice_fold t t' : to_lower t = to_lower t' -> nice t -> nice t'.
Proof.
  intros E (G & B & a & r & -> & A). split; [now apply (good_fold (String a r))|]. split; [now rewrite <- E|].
  destruct t' as [|b t']; [discriminate|]. exists b, t'. split; [reflexivity|]. change (to_lower (String a r)) with (String (lower_char a) (to_lower r)) in E.
  change (to_lower (String b t')) with (String (lower_char b) (to_lower t')) in E. injection E as E _. destruct A as [A|[-> | ->]].
  - left. now rewrite <- lower_alpha, <- E, lower_alpha.
  - right. left. symmetry in E. now apply lower_same in E.
  - right. right. symmetry in E. now apply lower_same in E.
Qed.
Lemma nice_bounded t : nice t -> has_prefix t "BoundedBTreeSet" = false.
Proof.
  intros (_ & B & _). unfold has_prefix. destruct (prefix "BoundedBTreeSet" t) eqn:P; [|reflexivity]. apply prefix_lower in P.
  change (to_lower "BoundedBTreeSet") with "boundedbtreeset" in P. congruence.
Qed.
Lemma nice_name n : name_text_ok n -> ident_start n -> prefix "boundedbtreeset" (to_lower n) = false -> nice n.
Proof. intros N (a & r & -> & A) B. split; [now apply name_good|]. split; [exact B|]. exists a, r. split; [reflexivity|]. tauto. Qed.
Definition wraps : list string := ["vec"; "option"; "compact"; "result"].
Lemma wraps_wrapper w : In (to_lower w) wraps -> wrapper w.
Proof. unfold wrapper, wraps. cbn [In]. tauto. Qed.
Lemma bounded_generic w x : In (to_lower w) wraps -> prefix "boundedbtreeset" (to_lower (w ++ "<" ++ x)) = false.
Proof.
  intros W. rewrite to_lower_app'. unfold wraps in W. cbn [In] in W. destruct W as [W|[W|[W|[W|[]]]]]; rewrite <- W; reflexivity.
Qed.
Lemma nice_generic w a : In (to_lower w) wraps -> nice a -> nice (w ++ "<" ++ a ++ ">").
Proof.
  intros W (G & _). split; [apply good_generic; [now apply wraps_wrapper|exact G]|]. split; [now apply bounded_generic|].
  pose proof (wrapper_alpha w (wraps_wrapper w W)) as AL. destruct (wrapper_shape w (wraps_wrapper w W)) as (NE & _).
  destruct w as [|x w]; [contradiction|]. exists x. eexists. split; [reflexivity|]. left. cbn [s2b list_ascii_of_string forallb] in AL. now apply andb_true_iff in AL.
Qed.
Lemma nice_pair a b : nice a -> nice b -> nice (a ++ "," ++ b).
Proof.
  intros (G & B & x & r & -> & A) (G' & _). split; [now apply good_pair|]. split.
  - destruct (prefix "boundedbtreeset" (to_lower (String x r ++ "," ++ b))) eqn:P; [exfalso|reflexivity]. rewrite to_lower_app' in P.
    change (to_lower ("," ++ b)) with ("," ++ to_lower b) in P. apply prefix_stop in P; [congruence|]. cbn. intros X. repeat (destruct X as [X|X]; [discriminate|]). exact X.
  - exists x, (r ++ "," ++ b)%string. split; [reflexivity|exact A].
Qed.
Lemma nice_array a n : nice a -> 0 <= n -> nice (array_text a n).
Proof.
  intros (G & _) N. split; [now apply good_array|]. split; [reflexivity|]. eexists _, _. split; [reflexivity|]. tauto.
Qed.
Lemma nice_tuple ts : ts <> [] -> Forall nice ts -> nice ("Tuple:" ++ join "" ts).
Proof.
  intros NE F. split; [apply good_tuple; [exact NE|]; eapply Forall_impl; [|exact F]; now intros a (G & _)|]. split; [reflexivity|].
  eexists _, _. split; [reflexivity|]. left. reflexivity.
Qed.
Lemma prim_nice n : In (to_lower n) (reserved_names) -> nice n.
Proof.
  intros H. assert (K : forallb (fun k => (negb (prefix "boundedbtreeset" k)) && forallb wrapper_char (s2b (stake 1 k)) && (2 <=? String.length k)%nat && forallb (fun a => name_charb a && negb (Ascii.eqb a ":"%char)) (s2b k)) reserved_names = true) by reflexivity.
  rewrite forallb_forall in K. specialize (K _ H). apply andb_true_iff in K. destruct K as [K K4]. apply andb_true_iff in K. destruct K as [K K3].
  apply andb_true_iff in K. destruct K as [K1 K2]. apply negb_true_iff in K1. apply (nice_fold (to_lower n)); [apply to_lower_idem|].
  apply Nat.leb_le in K3. rewrite forallb_forall in K4.
  assert (CH : forall a, has_char a (to_lower n) -> name_charb a = true /\ a <> ":"%char).
  { intros a Ha. specialize (K4 a Ha). apply andb_true_iff in K4. destruct K4 as [Q1 Q2]. apply negb_true_iff, Ascii.eqb_neq in Q2. now split. }
  assert (NC : ~ has_char ":"%char (to_lower n)) by (intros Q; now apply CH in Q).
  destruct (to_lower n) as [|a r] eqn:E; [cbn in K3; lia|].
  apply nice_name.
  - split; [split; [discriminate|split; [|split]]|split; [|split]].
    + apply Forall_forall. intros x Hx. apply name_charb_ok. now apply CH.
    + apply (prefix_char "B"%char); [now left|]. intros Q. rewrite <- E in Q. clear - Q. unfold has_char, to_lower in Q.
      assert (Z : forall s, ~ In "B"%char (s2b (smap lower_char s))).
      { induction s as [|y s IH]; [intros []|]. cbn. intros [X|X]; [|now apply IH]. revert X. destruct y as [[] [] [] [] [] [] [] []]; discriminate. }
      now apply (Z n).
    + apply (contains_absent ":"%char); [now left|exact NC].
    + intros [= ->]. apply NC. now left.
    + intros Q. apply NC. now apply last_char_in.
    + exact K3.
  - exists a, r. split; [reflexivity|]. left. cbn in K2. now rewrite andb_true_r in K2.
  - rewrite <- E, to_lower_idem, E. exact K1.
Qed.

(** ** The shapes of the texts of covered types *)
Definition atoms : list (string * codec) := (prim_codecs ++ hash_codecs ++ [("accountid", CAccountId); ("null", CNull); ("bitvec", CBitVec); ("bytes", CBytes)])%list.
Definition below (A B : string -> Prop) : Prop := forall k, A k -> B k.
Inductive shape (T : string -> Prop) (id : Z) (t : string) : Prop :=
| s_atom cd : In (to_lower t, cd) atoms -> M T id cd -> shape T id t
| s_name k n : named_as k n -> Rg k -> ~ early k -> to_lower t = to_lower n -> (forall T' cd, below T T' -> M T' k cd -> M T' id cd) -> shape T id t
| s_gen w a : t = w ++ "<" ++ a ++ ">" -> In (to_lower w) wraps -> nice a ->
    (to_lower w = "vec" -> (to_lower a <> "u8" -> M T id (CVec a)) /\ (to_lower a = "u8" -> M T id CBytes)) ->
    (to_lower w = "option" -> M T id (COption a)) ->
    (to_lower w = "compact" -> to_lower a <> "moment" /\ M T id (CCompact a) /\ (to_lower a = "u32" -> M T id CCompactU32)) ->
    (to_lower w = "result" -> M T id (CResult a) /\ exists k vs, unwraps port id k /\ res_path port k /\ def k = DVariant vs) -> shape T id t
| s_arr a n : t = array_text a n -> nice a -> 0 < n < 2 ^ 63 -> (forall a', to_lower a' = to_lower a -> M T id (CFixedArray n a')) ->
    (to_lower a = "u8" -> M T id (CFixedU8 n)) -> (exists k e, unwraps port id k /\ def k = DArray n e /\ ftext T e a /\ Rg e) -> shape T id t
| s_tup : T (to_lower t) -> prefix "tuple:" (to_lower t) = true ->
    (forall T' j ks us, below T T' -> def j = DTuple ks -> ks <> [] -> texts T' ks us -> to_lower t = to_lower ("Tuple:" ++ join "" us) ->
       M T' id (CStruct (Some (combine (positions 1 us) us)))) -> shape T id t.

Lemma shape_new T id f t : def id = DComposite [f] -> ~ early id -> shape T (f_type f) t -> shape T id t.
Proof.
  intros E N H. assert (L : forall T' cd, M T' (f_type f) cd -> M T' id cd) by (intros; now apply m_new with (f := f)).
  destruct H as [cd I H|k n Hn Hk Ne El H|w a -> W G V O C R|a n -> G B A U (k & e & Q1 & Q2 & Q3)|I P H].
  - apply s_atom with (cd := cd); auto.
  - apply s_name with (k := k) (n := n); auto.
  - apply s_gen with (w := w) (a := a); auto.
    + intros Q. destruct (V Q). split; auto.
    + intros Q. destruct (C Q) as (Q1 & Q2 & Q3). split; [|split]; auto.
    + intros Q. destruct (R Q) as (Q1 & k & vs & Q2 & Q3). split; [auto|]. exists k, vs. split; [|exact Q3]. now apply uw_step with (f := f).
  - apply s_arr with (a := a) (n := n); auto. exists k, e. split; [now apply uw_step with (f := f)|]. now split.
  - apply s_tup; eauto.
Qed.
Lemma ftexts_len T ks ts : ftexts T ks ts -> List.length ks = List.length ts.
Proof. induction 1; cbn; congruence. Qed.
Lemma ftexts_fold T ks ts us : ftexts T ks ts -> map to_lower ts = map to_lower us -> ftexts T ks us.
Proof.
  intros F. revert us. induction F as [|k t ks ts (t0 & H & E) F IH]; intros [|u us] Q; try discriminate; constructor.
  - injection Q as Q1 Q2. exists t0. split; [exact H|congruence].
  - injection Q as Q1 Q2. now apply IH.
Qed.
Lemma ftext_fold T k t u : ftext T k t -> to_lower t = to_lower u -> ftext T k u.
Proof. intros (t0 & H & E) Q. exists t0. split; [exact H|congruence]. Qed.

(** Texts that read as the name of a primitive type. *)
Lemma text_like T p : In p prim_names -> (forall id t, text T id t -> Rg id -> to_lower t = p -> is_like port p id) /\ (forall ks ts, texts T ks ts -> True).
Proof.
  intros IP. assert (CH : forall x s, has_char x s -> wrapper_char x = false -> (forall d, x <> Ascii.ascii_of_nat d \/ True) -> ~ (48 <= bZ x <= 57) -> to_lower s <> p).
  { intros x s Hx W _ ND Q. apply (proj2 (lower_has x s W)) in Hx. rewrite Q in Hx.
    assert (K : forallb (fun p => forallb (fun a => wrapper_char a || ((48 <=? bZ a) && (bZ a <=? 57))) (s2b p)) prim_names = true) by reflexivity.
    rewrite forallb_forall in K. specialize (K p IP). rewrite forallb_forall in K. specialize (K x Hx). rewrite W in K. cbn in K. lia. }
  assert (CH' : forall x s, has_char x s -> wrapper_char x = false -> ~ (48 <= bZ x <= 57) -> to_lower s <> p) by (intros; eapply CH; eauto). clear CH.
  assert (NP : forall q, existsb (String.eqb (to_lower q)) prim_names = false -> to_lower q <> p).
  { intros q H E. rewrite E in H. assert (existsb (String.eqb p) prim_names = true) by (apply existsb_exists; exists p; split; [exact IP|apply String.eqb_refl]). congruence. }
  assert (LT : forall w a, to_lower (w ++ "<" ++ a) <> p).
  { intros w a. apply (CH' "<"%char); [|reflexivity|vm_compute; intuition congruence]. apply has_char_app. right. now left. }
  apply (text_mutind c D Rg T (fun id t => Rg id -> to_lower t = p -> is_like port p id) (fun _ _ => True)); intros; try exact I.
  - exists id. split; [constructor|]. now exists n.
  - exfalso. destruct (rg_prims id H1 H) as (f & h & m & e & _ & Hp & Hi & _). rewrite Hp in H0. injection H0 as ->. revert H2. apply NP. unfold hashes in Hi. cbn [In] in Hi.
    destruct Hi as [X|[X|[X|[]]]]; injection X as <- _; reflexivity.
  - contradiction.
  - exfalso. destruct (REG id H0) as (OV & _). contradiction.
  - exfalso. destruct (wn_name _ _ _ WN id n H) as (_ & _ & NR & _). apply NR. left. apply in_or_app. left. rewrite H2. exact IP.
  - exfalso. revert H1. now apply NP.
  - specialize (H0 H3). destruct (rg_new id f H3 H H0) as [Rf _]. destruct (H2 Rf H4) as (k & U & P). exists k. split; [now apply uw_step with (f := f)|exact P].
  - exfalso. pose proof (REG id H3) as (_ & _ & R). rewrite H in R. destruct R as (W & _). congruence.
  - exfalso. revert H4. apply (CH' "["%char); [now left|reflexivity|vm_compute; intuition congruence].
  - exfalso. revert H1. now apply NP.
  - exfalso. revert H3. apply (LT "Vec").
  - exfalso. revert H4. now apply NP.
  - exfalso. revert H5. apply (CH' ":"%char); [right; right; right; right; right; now left|reflexivity|vm_compute; intuition congruence].
  - exfalso. revert H1. now apply NP.
  - exfalso. revert H3. apply (LT "compact").
  - exfalso. revert H1. now apply NP.
  - exfalso. revert H1. now apply NP.
  - contradiction.
  - exfalso. revert H5. apply (LT "option").
  - exfalso. revert H7. apply (LT "Result").
  - exfalso. revert H3. now apply NP.
Qed.
Lemma ftext_like T p id t : In p prim_names -> ftext T id t -> Rg id -> to_lower t = p -> is_like port p id.
Proof. intros I (t0 & H & E) R Q. apply (proj1 (text_like T p I) id t0 H R). congruence. Qed.

Lemma shape_moment T id t : shape T id t -> to_lower t <> "moment".
Proof.
  intros [cd I _|k n Hn _ _ E _|w a -> _ _ _ _ _ _|a n -> _ _ _ _ _|_ P _] Q.
  - rewrite Q in I. unfold atoms, prim_codecs, hash_codecs in I. cbn [app In] in I. decompose [or] I; (contradiction || discriminate).
  - destruct (wn_name _ _ _ WN k n Hn) as (_ & _ & NR & _). apply NR. left. rewrite <- E, Q. unfold reserved_names. apply in_or_app. right. cbn. tauto.
  - assert (H : has_char "<"%char (to_lower (w ++ "<" ++ a ++ ">"))) by (apply lower_has; [reflexivity|]; apply has_char_app; right; now left). rewrite Q in H. cbn in H. decompose [or] H; (contradiction || discriminate).
  - assert (H : has_char "["%char (to_lower (array_text a n))) by (apply lower_has; [reflexivity|]; now left). rewrite Q in H. cbn in H. decompose [or] H; (contradiction || discriminate).
  - rewrite Q in P. discriminate.
Qed.
Lemma atom_nice t cd : In (to_lower t, cd) atoms -> nice t.
Proof.
  intros I. apply prim_nice. assert (K : forallb (fun p => existsb (String.eqb (fst p)) reserved_names) atoms = true) by reflexivity.
  rewrite forallb_forall in K. specialize (K _ I). cbn [fst] in K. apply existsb_exists in K. destruct K as (x & Hx & Q). apply String.eqb_eq in Q. now rewrite Q.
Qed.
Lemma sub_nice T id t : shape T id t -> (prefix "tuple:" (to_lower t) = true -> nice t) -> nice t.
Proof.
  intros [cd I _|k n Hn _ _ E _|w a -> W N _ _ _ _|a n -> N B _ _ _|_ P _] H; auto.
  - now apply atom_nice with (cd := cd).
  - destruct (wn_name _ _ _ WN k n Hn) as (Q1 & Q2 & _ & Q3). apply (nice_fold n); [now rewrite E|]. now apply nice_name.
  - now apply nice_generic.
  - apply nice_array; [exact N|lia].
Qed.

Lemma text_shape T : (forall id t0, text T id t0 -> Rg id -> forall t, to_lower t = to_lower t0 -> shape T id t /\ nice t)
  /\ (forall ks ts, texts T ks ts -> Forall Rg ks -> Forall nice ts).
Proof.
  assert (AT : forall id t cd, In (to_lower t, cd) atoms -> M T id cd -> shape T id t /\ nice t).
  { intros id t cd I H. split; [now apply s_atom with (cd := cd)|now apply atom_nice with (cd := cd)]. }
  apply (text_mutind c D Rg T (fun id t0 => Rg id -> forall t, to_lower t = to_lower t0 -> shape T id t /\ nice t) (fun ks ts => Forall Rg ks -> Forall nice ts)).
  - intros id n E R t Q. destruct (rg_prim id n R E) as [I _]. change prim_names with (map fst prim_codecs) in I. apply assoc_in in I. destruct I as [cd I].
    apply (AT id t cd); [rewrite Q; apply in_or_app; now left|]. apply m_prim with (p := to_lower n); [now exists n|exact I].
  - intros id n P L R t Q. destruct (rg_prims id R P) as (f & h & m & e & _ & L' & I & _). rewrite L in L'. injection L' as <-.
    assert (I' : In (to_lower n) (map fst hash_codecs)) by (change (map fst hash_codecs) with (map fst hashes); apply in_map_iff; now exists (to_lower n, m)).
    apply assoc_in in I'. destruct I' as [cd I']. apply (AT id t cd); [rewrite Q; apply in_or_app; right; apply in_or_app; now left|]. now apply m_hash with (h := n).
  - intros id N R. contradiction.
  - intros id N R. destruct (REG id R) as (OV & _). contradiction.
  - intros id n Hn N R t Q. specialize (N R).
    destruct (wn_name _ _ _ WN id n Hn) as (Q1 & Q2 & _ & Q3). split; [apply s_name with (k := id) (n := n); auto|]. apply (nice_fold n); [now rewrite Q|now apply nice_name].
  - intros id A R t Q. apply (AT id t CAccountId); [rewrite Q; unfold atoms; cbn; tauto|now apply m_account].
  - intros id f t E N H IH R u Q. specialize (N R). destruct (rg_new id f R E N) as [Rf _]. destruct (IH Rf u Q) as [S1 S2]. split; [now apply shape_new with (f := f)|exact S2].
  - intros id fs k t E W _ _ R. pose proof (REG id R) as (_ & _ & Q). rewrite E in Q. destruct Q as (W' & _). congruence.
  - intros id n k t E N H IH R u Q. destruct (rg_arr id n k R E) as [Rk B]. apply array_fold in Q; [|lia]. destruct Q as (a & -> & Q). destruct (IH Rk a Q) as [_ Na].
    assert (F : forall a', to_lower a' = to_lower a -> ftext T k a') by (intros a' Q'; exists t; split; [exact H|congruence]).
    split; [|apply nice_array; [exact Na|lia]]. apply s_arr with (a := a) (n := n); [reflexivity|exact Na|lia|intros a' Q'; apply m_array with (k := k); auto| |].
    + intros Q'. apply m_array8 with (k := k); auto. apply (ftext_like T "u8" k a); [cbn; tauto|now apply F|exact Rk|exact Q'].
    + exists id, k. split; [constructor|]. split; [exact E|]. split; [now apply F|exact Rk].
  - intros id k E R t Q. apply (AT id t CNull); [rewrite Q; unfold atoms; cbn; tauto|]. apply m_null with (k := k). now left.
  - intros id k t E H IH R u Q. pose proof (rg_seq id k R E) as Rk. apply (generic_fold _ "Vec") in Q. destruct Q as (w & a & -> & Qw & Qa). destruct (IH Rk a Qa) as [_ Na].
    assert (F : ftext T k a) by (exists t; split; [exact H|congruence]). change (to_lower "Vec") with "vec" in Qw.
    assert (W : In (to_lower w) wraps) by (rewrite Qw; cbn; tauto). split; [|now apply nice_generic].
    apply s_gen with (w := w) (a := a); [reflexivity|exact W|exact Na| |rewrite Qw; discriminate..]. intros _. split; intros U.
    + now apply m_seq with (k := k).
    + apply m_bytes with (k := k); [exact E|]. apply (ftext_like T "u8" k a); [cbn; tauto|exact F|exact Rk|exact U].
  - intros id k t E H IH U R u Q. apply (AT id u CBytes); [rewrite Q; unfold atoms; cbn; tauto|]. apply m_bytes with (k := k); [exact E|].
    apply (ftext_like T "u8" k t); [cbn; tauto|now apply text_ftext|now apply (rg_seq id)|exact U].
  - intros id ks ts E NE H IH HT R t Q. pose proof (IH (rg_tuple id ks R E)) as F. split.
    + apply s_tup; [now rewrite Q|rewrite Q, to_lower_app'; change (to_lower "Tuple:") with "tuple:"; apply prefix_app_s|].
      intros T' j kj us I Ej NEj Hj Qu. rewrite Q, !to_lower_app' in Qu. change (to_lower "Tuple:") with "tuple:" in Qu.
      assert (Qj : to_lower (join "" ts) = to_lower (join "" us)) by (cbn [append] in Qu; now injection Qu).
      assert (ML : map to_lower ts = map to_lower us).
      { apply (wn_tuples _ _ _ WN id j ks kj ts us R E Ej); [| |exact Qj].
        - apply (proj2 (text_mono T (fun _ => True) (fun _ _ => Logic.I))). exact H.
        - apply (proj2 (text_mono T' (fun _ => True) (fun _ _ => Logic.I))). exact Hj. }
      assert (FT : ftexts T' ks us).
      { apply (ftexts_mono T); [exact I|]. apply (ftexts_fold T ks ts); [now apply texts_ftexts|exact ML]. }
      rewrite (positions_len 1 us ks) by (symmetry; now apply ftexts_len in FT). now apply m_tuple.
    + apply (nice_fold ("Tuple:" ++ join "" ts)); [now rewrite Q|]. apply nice_tuple; [|exact F]. intros ->. inversion H; subst. contradiction.
  - intros id E R t Q. apply (AT id t CNull); [rewrite Q; unfold atoms; cbn; tauto|]. apply m_null with (k := 0). now right.
  - intros id k t E H IH R u Q. destruct (rg_compact id k R E) as [Rk _]. apply (generic_fold _ "compact") in Q. destruct Q as (w & a & -> & Qw & Qa). destruct (IH Rk a Qa) as [Sa Na].
    assert (F : ftext T k a) by (exists t; split; [exact H|congruence]). change (to_lower "compact") with "compact" in Qw.
    assert (W : In (to_lower w) wraps) by (rewrite Qw; cbn; tauto). split; [|now apply nice_generic].
    apply s_gen with (w := w) (a := a); [reflexivity|exact W|exact Na|rewrite Qw; discriminate..| |rewrite Qw; discriminate]. intros _.
    split; [now apply shape_moment in Sa|]. split; [now apply m_compact with (k := k)|]. intros U. apply m_compact32 with (k := k); [exact E|].
    apply (ftext_like T "u32" k a); [cbn; tauto|exact F|exact Rk|exact U].
  - intros id E R t Q. apply (AT id t CBitVec); [rewrite Q; unfold atoms; cbn; tauto|now apply m_bits].
  - intros id E R. pose proof (REG id R) as (_ & _ & Q). rewrite E in Q. contradiction.
  - intros id N _ _ R. contradiction.
  - intros id vs n k r t E O P H IH R u Q. destruct (rg_option id vs R E O) as (n' & k' & r' & P' & Rk & _). rewrite P in P'. injection P' as <- <- <-.
    apply (generic_fold _ "option") in Q. destruct Q as (w & a & -> & Qw & Qa). destruct (IH Rk a Qa) as [_ Na].
    assert (F : ftext T k a) by (exists t; split; [exact H|congruence]). change (to_lower "option") with "option" in Qw.
    assert (W : In (to_lower w) wraps) by (rewrite Qw; cbn; tauto). split; [|now apply nice_generic].
    apply s_gen with (w := w) (a := a); [reflexivity|exact W|exact Na|rewrite Qw; discriminate| |rewrite Qw; discriminate..]. intros _. now apply m_option with (vs := vs) (n := n) (k := k) (r := r).
  - intros id vs n a m b r t u E O P Ha IHa Hb IHb R v Q. destruct (rg_result id vs R E O) as (n' & a' & m' & b' & r' & P' & Ra & Rb & _). rewrite P in P'. injection P' as <- <- <- <- <-.
    apply (generic_fold _ "Result") in Q. destruct Q as (w & x & -> & Qw & Qx). apply pair_fold in Qx. destruct Qx as (y & z & -> & Qy & Qz).
    destruct (IHa Ra y Qy) as [_ Ny]. destruct (IHb Rb z Qz) as [_ Nz]. change (to_lower "Result") with "result" in Qw.
    assert (W : In (to_lower w) wraps) by (rewrite Qw; cbn; tauto). pose proof (nice_pair y z Ny Nz) as NP. split; [|now apply nice_generic].
    apply s_gen with (w := w) (a := (y ++ "," ++ z)); [reflexivity|exact W|exact NP|rewrite Qw; discriminate..|]. intros _. split.
    + apply m_result with (vs := vs) (n := n) (a := a) (m := m) (b := b) (r := r); auto; [exists t|exists u]; split; auto; congruence.
    + exists id, vs. split; [constructor|now split].
  - intros id vs E O C R. pose proof (rg_enum id vs R E O) as (_ & C1 & C2 & _). exfalso. destruct C; congruence.
  - constructor.
  - intros k ks t ts H IH1 Hs IH2 F. inversion F; subst. constructor; [now apply IH1|now apply IH2].
Qed.
Lemma ftext_shape T id t : Rg id -> ftext T id t -> shape T id t /\ nice t.
Proof. intros R (t0 & H & E). now apply (proj1 (text_shape T) id t0 H R). Qed.

(** ** The decoders the texts of covered types resolve to *)
Definition plain_reserved (k : string) : Prop := reserved k /\ prefix "tuple:" k = false.
Lemma base_atom k cd : In (k, cd) atoms -> assoc k base_registry = Some cd.
Proof. intros I. unfold atoms, prim_codecs, hash_codecs in I. cbn [app In] in I. repeat (destruct I as [I|I]; [injection I as <- <-; reflexivity|]). contradiction. Qed.
Lemma atom_reserved k cd : In (k, cd) atoms -> plain_reserved k /\ ~ In k overridden.
Proof.
  intros I. assert (K : forallb (fun p => existsb (String.eqb (fst p)) reserved_names && negb (prefix "tuple:" (fst p)) && negb (existsb (String.eqb (fst p)) overridden)) atoms = true) by reflexivity.
  rewrite forallb_forall in K. specialize (K _ I). cbn [fst] in K. apply andb_true_iff in K. destruct K as [K K3]. apply andb_true_iff in K. destruct K as [K1 K2].
  apply existsb_exists in K1. destruct K1 as (x & Hx & Q). apply String.eqb_eq in Q. subst x. apply negb_true_iff in K2, K3. split; [split; [now left|exact K2]|].
  intros X. assert (existsb (String.eqb k) overridden = true) by (apply existsb_exists; exists k; split; [exact X|apply String.eqb_refl]). congruence.
Qed.
Lemma gen_reserved w a : In (to_lower w) wraps -> plain_reserved (to_lower (w ++ "<" ++ a)) /\ plain_reserved (to_lower w).
Proof.
  intros W. rewrite to_lower_app'. change (to_lower ("<" ++ a)) with ("<" ++ to_lower a). unfold wraps in W. cbn [In] in W. destruct W as [W|[W|[W|[W|[]]]]]; rewrite <- W.
  all: split; [split; [right|reflexivity]|split; [left; unfold reserved_names; cbn; tauto|reflexivity]].
  all: match goal with |- exists p, _ /\ prefix p (?x ++ "<" ++ _) = true => exists (x ++ "<") end; split; [cbn; tauto|reflexivity].
Qed.
Lemma arr_reserved a n : plain_reserved (to_lower (array_text a n)).
Proof. split; [|reflexivity]. right. exists "[". split; [cbn; tauto|reflexivity]. Qed.
Lemma base_generic w a : In (to_lower w) wraps -> good a ->
  assoc (to_lower (w ++ "<" ++ a ++ ">")) base_registry = (if String.eqb (to_lower w) "compact" then if String.eqb (to_lower a) "u32" then Some CCompactU32 else if String.eqb (to_lower a) "moment" then Some CCompactMoment else None else None).
Proof.
  intros W G. assert (GP : generic_parts (to_lower (w ++ "<" ++ a ++ ">")) = Some (to_lower w, to_lower a)).
  { rewrite !to_lower_app'. apply generic_at.
    - intros X. apply (proj1 (lower_has "<"%char w eq_refl)) in X. revert X. apply wrapper_no_lt. now apply wraps_wrapper.
    - intros X. apply (good_nonempty a G). destruct a; [reflexivity|discriminate]. }
  destruct (assoc (to_lower (w ++ "<" ++ a ++ ">")) base_registry) as [cd|] eqn:A.
  - apply assoc_some in A. assert (F : In (to_lower (w ++ "<" ++ a ++ ">"), cd) (filter (fun p => existsb (Ascii.eqb "<"%char) (s2b (fst p))) base_registry)).
    { apply filter_In. split; [exact A|]. apply existsb_exists. exists "<"%char. split; [|reflexivity]. cbn [fst]. apply lower_has; [reflexivity|]. apply has_char_app. right. now left. }
    revert F GP. generalize (to_lower (w ++ "<" ++ a ++ ">")). intros t. generalize (to_lower w), (to_lower a). intros x y F GP. vm_compute in F.
    destruct F as [F|[F|[]]]; injection F as <- <-; vm_compute in GP; injection GP as <- <-; reflexivity.
  - destruct (String.eqb_spec (to_lower w) "compact") as [Q|]; [|reflexivity].
    destruct (String.eqb_spec (to_lower a) "u32") as [Q'|]; [rewrite !to_lower_app', Q, Q' in A; discriminate|].
    destruct (String.eqb_spec (to_lower a) "moment") as [Q'|]; [rewrite !to_lower_app', Q, Q' in A; discriminate|reflexivity].
Qed.
Lemma base_wrap w : In (to_lower w) wraps -> exists cd, assoc (to_lower w) base_registry = Some cd /\
  (to_lower w = "vec" -> cd = CVec "") /\ (to_lower w = "option" -> cd = COption "") /\ (to_lower w = "compact" -> cd = CCompact "") /\ (to_lower w = "result" -> cd = CResult "").
Proof.
  intros W. unfold wraps in W. cbn [In] in W. destruct W as [W|[W|[W|[W|[]]]]]; rewrite <- W; eexists; (split; [reflexivity|]); (split; [|split; [|split]]); try discriminate; reflexivity.
Qed.
Lemma base_array a n cd : good a -> 0 < n < 2 ^ 63 -> assoc (to_lower (array_text a n)) base_registry = Some cd ->
  (to_lower a = "u8" /\ cd = CFixedU8 n) \/ cd = CFixedArray n (to_lower a).
Proof.
  intros G N A. assert (GF : good (to_lower a)) by (apply (good_fold a); [now rewrite to_lower_idem|exact G]).
  pose proof (fixed_array_at (to_lower a) n GF ltac:(lia)) as FA. rewrite <- array_lower in FA by lia.
  apply assoc_some in A. assert (F : In (to_lower (array_text a n), cd) (filter (fun p => prefix "[" (fst p)) base_registry)) by (apply filter_In; split; [exact A|reflexivity]).
  rewrite array_lower in F, FA by lia. revert F FA. clear. generalize (array_text (to_lower a) n). intros t. generalize (to_lower a). intros x F FA. vm_compute in F.
  repeat (destruct F as [F|F]; [injection F as <- <-; vm_compute in FA; injection FA as <- <-; first [left; split; reflexivity|right; reflexivity]|]). contradiction.
Qed.

Section Resolve.
Variable E : env.
Variable T : string -> Prop.
Definition found (k : string) (cd : codec) : Prop := exists spec, find_key E k spec = Some cd.
Hypothesis BASE : forall k spec, plain_reserved k -> find_key E k spec = assoc k base_registry.
Hypothesis NAMES : forall k n spec, Rg k -> ~ early k -> named_as k n -> exists cd, find_key E (to_lower n) spec = Some cd /\ M T k cd.
Hypothesis TUPLES : forall k spec, T k -> prefix "tuple:" k = true -> exists j ks us, def j = DTuple ks /\ ks <> [] /\ texts T ks us /\
  k = to_lower ("Tuple:" ++ join "" us) /\ find_key E k spec = Some (CStruct (Some (combine (positions 1 us) us))).

Lemma nice_convert t : nice t -> ConvertType t = if equal_fold t "Vec<u8>" then "Bytes" else t.
Proof. intros N. apply good_convert; [apply N|now apply nice_bounded]. Qed.
Lemma nice_no_vec t : nice t -> ~ has_char "<"%char t -> ConvertType t = t.
Proof.
  intros N H. rewrite nice_convert by exact N. destruct (equal_fold t "Vec<u8>") eqn:V; [|reflexivity]. exfalso. apply H. unfold equal_fold in V. apply String.eqb_eq in V.
  apply lower_has; [reflexivity|]. rewrite V. cbn. tauto.
Qed.
Lemma name_regular_of k n : Rg k -> ~ early k -> named_as k n -> name_regular c D k.
Proof.
  intros R N H. destruct (named_def k n H) as [(fs & Q)|(vs & Q & O)].
  - now destruct (rg_plain k fs R Q N) as (_ & _ & X & _).
  - now destruct (rg_enum k vs R Q O) as (_ & _ & _ & X & _).
Qed.
Lemma key_resolves t cd : nice t -> ConvertType t = t -> ~ In (to_lower t) overridden -> forall m spec, find_key E (to_lower t) spec = Some cd -> GetCodecClass E m t spec = Ok (Some (cd, "")).
Proof. intros N C O m spec F. apply resolve_key; [apply N|exact C|exact O|exact F]. Qed.
Lemma bytes_resolves t m spec : nice t -> equal_fold t "Vec<u8>" = true -> GetCodecClass E m t spec = Ok (Some (CBytes, "")).
Proof.
  intros N V. pose proof (nice_convert t N) as CV. rewrite V in CV.
  assert (B : find_key E (to_lower "Bytes") spec = Some CBytes) by (apply BASE, (atom_reserved "bytes" CBytes); unfold atoms; cbn; tauto).
  assert (GF : getCodecInstant E m "Bytes" spec = Ok (Some CBytes)) by (apply get_found; [apply (atom_reserved "bytes" CBytes); unfold atoms; cbn; tauto|exact B]).
  unfold GetCodecClass. destruct (String.length t); cbn [GetCodecClass_fuel]; rewrite CV; change (last_char "Bytes") with (Some "s"%char); cbn [Ascii.eqb Bool.eqb bind]; rewrite GF; reflexivity.
Qed.
Lemma shape_resolves id t : shape T id t -> nice t -> forall m spec, exists cd0 sub, GetCodecClass E m t spec = Ok (Some (cd0, sub)) /\ M T id (init_sub cd0 sub).
Proof.
  intros [cd I H|k n Hn Hk Ne El H|w a -> W G V O C R|a n -> G B A U (k & e & Q1 & Q2 & Q3)|I P H] N m spec.
  - exists cd, "". rewrite (M_init T id cd H). split; [|exact H]. destruct (atom_reserved _ _ I) as [Q1 Q2]. apply key_resolves; [exact N| |exact Q2|].
    + apply nice_no_vec; [exact N|]. intros X. apply (lower_has "<"%char) in X; [|reflexivity]. clear - I X. unfold atoms, prim_codecs, hash_codecs in I. cbn [app In] in I.
      repeat (destruct I as [I|I]; [injection I as I _; rewrite <- I in X; cbn in X; decompose [or] X; (contradiction || discriminate)|]). contradiction.
    + rewrite BASE by exact Q1. now apply base_atom.
  - destruct (NAMES k n spec Hk Ne Hn) as (cd & F & HM). exists cd, "". specialize (H T cd (fun _ x => x) HM). rewrite (M_init T id cd H). split; [|exact H].
    destruct (name_regular_of k n Hk Ne Hn) as (n' & [Hn' _] & NO & _). destruct Hn as [Hn Hne]. rewrite Hn in Hn'. injection Hn' as <-.
    destruct (wn_name _ _ _ WN k n (conj Hn Hne)) as ((NOK & _) & _). apply key_resolves; [exact N| |now rewrite El|now rewrite El].
    apply nice_no_vec; [exact N|]. intros X. apply (lower_has "<"%char) in X; [|reflexivity]. rewrite El in X. revert X. apply name_lower_no; [exact NOK|not_name].
  - destruct (equal_fold (w ++ "<" ++ a ++ ">") "Vec<u8>") eqn:VU.
    + exists CBytes, "". split; [now apply bytes_resolves|]. cbn [init_sub]. unfold equal_fold in VU. apply String.eqb_eq in VU.
      apply generic_fold with (w := "Vec") (a := "u8") in VU. destruct VU as (w' & a' & Q & Qw & Qa).
      assert (GP : generic_parts (w ++ "<" ++ a ++ ">") = Some (w, a)) by (apply generic_at; [apply wrapper_no_lt; now apply wraps_wrapper|apply good_nonempty, G]).
      assert (NE' : a' <> "") by (intros ->; discriminate). assert (W' : In (to_lower w') wraps) by (rewrite Qw; cbn; tauto).
      rewrite Q, generic_at in GP; [|apply wrapper_no_lt; now apply wraps_wrapper|exact NE']. injection GP as -> ->. now apply V.
    + pose proof (base_generic w a W (proj1 G)) as BG. rewrite <- (BASE _ spec) in BG by (apply (gen_reserved w (a ++ ">") W)).
      destruct (base_wrap w W) as (cd & BW & B1 & B2 & B3 & B4). rewrite <- (BASE _ spec) in BW by (apply (gen_reserved w (a ++ ">") W)).
      assert (NOT : find_key E (to_lower (w ++ "<" ++ a ++ ">")) spec = None -> exists cd0 sub, GetCodecClass E m (w ++ "<" ++ a ++ ">") spec = Ok (Some (cd0, sub)) /\ M T id (init_sub cd0 sub)).
      { intros F. exists cd, a. split; [apply resolve_generic; auto; [now apply wraps_wrapper|apply G]|].
        assert (PS : forall x, pick_sub x a = a) by (intros x; unfold pick_sub; pose proof (good_nonempty a (proj1 G)); destruct (String.eqb_spec a ""); [contradiction|reflexivity]).
        pose proof W as W2. unfold wraps in W2. cbn [In] in W2. destruct W2 as [W2|[W2|[W2|[W2|[]]]]]; symmetry in W2.
        - rewrite (B1 W2). cbn [init_sub String.eqb]. apply (V W2). intros X. unfold equal_fold in VU. apply String.eqb_neq in VU. apply VU. rewrite !to_lower_app', W2, X. reflexivity.
        - rewrite (B2 W2). cbn [init_sub]. rewrite PS. now apply O.
        - rewrite (B3 W2). cbn [init_sub]. rewrite PS. now apply C.
        - rewrite (B4 W2). cbn [init_sub]. rewrite PS. now apply R. }
      destruct (String.eqb_spec (to_lower w) "compact") as [Qc|]; [|now apply NOT]. destruct (C Qc) as (NM & C1 & C2).
      destruct (String.eqb_spec (to_lower a) "u32") as [Qu|]; [|destruct (String.eqb_spec (to_lower a) "moment"); [contradiction|now apply NOT]].
      exists CCompactU32, "". split; [|now apply C2]. apply key_resolves; [exact N| | |exact BG].
      * rewrite nice_convert, VU by exact N. reflexivity.
      * apply (not_overridden "<"%char); [|reflexivity]. apply lower_has; [reflexivity|]. apply has_char_app. right. now left.
  - destruct (find_key E (to_lower (array_text a n)) spec) as [cd|] eqn:F.
    + pose proof F as F'. rewrite BASE in F' by apply arr_reserved. apply base_array in F'; [|apply G|exact B].
      assert (HM : M T id cd) by (destruct F' as [[Q ->]| ->]; [now apply U|apply A; apply to_lower_idem]).
      exists cd, "". rewrite (M_init T id cd HM). split; [|exact HM]. apply key_resolves; [exact N| | |exact F].
      * rewrite nice_convert by exact N. replace (equal_fold (array_text a n) "Vec<u8>") with false; [reflexivity|]. symmetry. unfold equal_fold. apply String.eqb_neq. unfold array_text, to_lower. cbn. discriminate.
      * apply (not_overridden "["%char); [|reflexivity]. apply lower_has; [reflexivity|]. now left.
    + exists (CFixedArray n (to_lower a)), "". split; [apply resolve_array; [apply G|lia|exact F]|]. cbn [init_sub]. apply A. apply to_lower_idem.
  - destruct (TUPLES _ spec I P) as (j & ks & us & Ej & NE & Hj & Q & F). specialize (H T j ks us (fun _ x => x) Ej NE Hj Q).
    exists (CStruct (Some (combine (positions 1 us) us))), "". split; [|exact H]. apply key_resolves; [exact N| | |exact F].
    + rewrite nice_convert by exact N. replace (equal_fold t "Vec<u8>") with false; [reflexivity|]. symmetry. unfold equal_fold. apply String.eqb_neq. rewrite Q. discriminate.
    + rewrite Q. apply (not_overridden ":"%char); [|reflexivity]. apply lower_has; [reflexivity|]. apply has_char_app. left. cbn. tauto.
Qed.
Lemma ftext_resolves id t cx : Rg id -> ftext T id t -> exists cd, resolves E cx t cd /\ M T id cd.
Proof.
  intros R F. destruct (ftext_shape T id t R F) as [S0 N]. destruct (shape_resolves id t S0 N (x_module cx) (x_spec cx)) as (cd0 & sub & G & H).
  exists (init_sub cd0 sub). split; [now exists cd0, sub|exact H].
Qed.
End Resolve.
End Texts.
