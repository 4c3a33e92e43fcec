(** Go maps have no order: what Encode writes for a value does not depend on the
    order of the entries of the maps inside it.  C94. *)

From Coq Require Import Permutation OrderedTypeEx.
From Verif Require Import GoBase SpecNum ProofsBase ModelTools ProofsTools ModelVal ModelJson ModelRegistry ModelDecode ModelEncode ModelBox ProofsBox
  ProofsRun SpecScale ProofsReads ProofsForms ProofsScale ProofsEncode ProofsApi PropCodec.

(** ** The same value with its maps in another order *)
Definition atom (v : val) : bool := match v with VSlice _ | VMap _ => false | _ => true end.
Inductive shuffled : val -> val -> Prop :=
| mo_atom v : atom v = true -> shuffled v v
| mo_slice l l' : Forall2 shuffled l l' -> shuffled (VSlice l) (VSlice l')
| mo_map m m1 m2 : NoDup (map fst m) -> Forall2 (fun p q => fst p = fst q /\ shuffled (snd p) (snd q)) m m1 -> Permutation m1 m2 -> shuffled (VMap m) (VMap m2).

Lemma assoc_perm {A} (m m' : list (string * A)) : Permutation m m' -> NoDup (map fst m) -> forall k, assoc k m = assoc k m'.
Proof.
  induction 1 as [|[a x] m m' P IH|[a x] [b y] m|m m1 m2 P1 IH1 P2 IH2]; intros ND k.
  - reflexivity.
  - cbn [assoc]. cbn [map fst] in ND. inversion ND; subst. destruct (String.eqb k a); [reflexivity|]. now apply IH.
  - cbn [assoc]. cbn [map fst] in ND. inversion ND as [|? ? N1 _]; subst. destruct (String.eqb_spec k a), (String.eqb_spec k b); try reflexivity. subst. exfalso. apply N1. now left.
  - rewrite IH1 by exact ND. apply IH2. apply (Permutation_NoDup (Permutation_map fst P1) ND).
Qed.
Lemma keys_same m m1 : Forall2 (fun p q : string * val => fst p = fst q /\ shuffled (snd p) (snd q)) m m1 -> map fst m1 = map fst m.
Proof. induction 1 as [|p q m m1 [H _] _ IH]; [reflexivity|]. cbn [map]. now rewrite H, IH. Qed.
(** Fields, read by their names *)
Lemma shuffled_fields ns gs v : NoDup ns -> List.length ns = List.length gs -> shuffled (VMap (combine ns gs)) v ->
  exists gs' m, v = VMap m /\ Forall2 shuffled gs gs' /\ forall k, assoc k m = assoc k (combine ns gs').
Proof.
  intros ND L H. inversion H as [? A| |m m1 m2 N F P]; subst; [discriminate A|].
  assert (X : exists gs', m1 = combine ns gs' /\ Forall2 shuffled gs gs').
  { clear - F L. revert gs m1 F L. induction ns as [|n ns IH]; intros [|g gs] m1 F L; try discriminate L; cbn [combine] in F; inversion F as [|? [n' g'] ? ? [K S] F']; subst; [exists []; split; [reflexivity|constructor]|].
    injection L as L. destruct (IH gs _ F' L) as (gs' & -> & Q). cbn [fst snd] in *. subst. exists (g' :: gs'). split; [reflexivity|now constructor]. }
  destruct X as (gs' & -> & Q). exists gs', m2. split; [reflexivity|]. split; [exact Q|]. intros k. symmetry. apply assoc_perm; [exact P|].
  rewrite (keys_same _ _ F). exact N.
Qed.
Lemma shuffled_entry k g v : shuffled (VMap [(k, g)]) v -> exists g', v = VMap [(k, g')] /\ shuffled g g'.
Proof.
  intros H. inversion H as [? A| |m m1 m2 N F P]; subst; [discriminate A|]. inversion F as [|? [k' g'] ? ? [K S] F']; subst. inversion F'; subst. cbn [fst snd] in *. subst.
  apply Permutation_length_1_inv in P. subst. now exists g'.
Qed.
Lemma shuffled_list gs v : shuffled (slice_of gs) v -> exists gs', v = slice_of gs' /\ Forall2 shuffled gs gs'.
Proof.
  destruct gs as [|g gs]; cbn [slice_of]; intros H; inversion H as [? A|l l' F|]; subst; try discriminate; [exists []; split; [reflexivity|constructor]|].
  inversion F; subst. eexists. split; [|exact F]. reflexivity.
Qed.
Lemma shuffled_atom g v : atom g = true -> shuffled g v -> v = g.
Proof. intros A H. destruct H; [reflexivity|discriminate A|discriminate A]. Qed.
Lemma shuffled_nil g g' : shuffled g g' -> nil_like g' -> nil_like g.
Proof. intros H. destruct H; [auto| |]; intros [N|[N|[N|N]]]; discriminate N. Qed.

Section Order.
Variable E : env.
Hypothesis STD : std_env E.
Lemma fields_any sub (tm : typemap) bs gs m : seqenc sub (map snd tm) bs gs -> NoDup (map fst tm) -> (forall k, assoc k m = assoc k (combine (map fst tm) gs)) ->
  concat_res (map (fun p => sub (snd p) (map_get (fst p) m)) tm) = Ok (hex_encode bs).
Proof.
  intros H ND A. rewrite <- (seqenc_fields sub tm bs gs H [] ND). f_equal. apply map_ext. intros [n t]. cbn [fst snd app]. unfold map_get. now rewrite A.
Qed.
Lemma rows_any sub m m' : (forall k, assoc k m = assoc k m') -> forall rows, encode_rows sub rows m = encode_rows sub rows m'.
Proof.
  intros A. induction rows as [|r rows IH]; [reflexivity|]. destruct r as [|n [|t r]]; try reflexivity. cbn [encode_rows]. unfold map_get. now rewrite A, IH.
Qed.
Ltac atoms := intros; match goal with S : shuffled ?g _ |- _ => apply shuffled_atom in S; [subst|try reflexivity] end;
  try (eapply (proj1 (proj2 (scale_encodes E STD))); [econstructor; eauto; fail|assumption|assumption]).
Theorem shuffled_encodes :
  (forall c ts bs g cs, scale true E c ts bs g cs -> x_module c = "" -> forall g', shuffled g g' -> EncE E c ts bs g')
  /\ (forall c cd bs g cs, scale_at true E c cd bs g cs -> x_module c = "" -> cd <> CNull -> forall g', shuffled g g' -> EncAt E c cd bs g')
  /\ (forall c ts bs gs cs, scales true E c ts bs gs cs -> x_module c = "" -> forall gs', Forall2 shuffled gs gs' -> SeqEnc E c ts bs gs').
Proof.
  apply scale_mutind; try (intros; discriminate).
  1:{ intros c ts cd bs g cs R HN SA IH M g' SH. destruct (equal_fold ts "Null") eqn:EN.
      - assert (cd = CNull) by (eapply resolves_fun; [exact R|]; now apply null_resolves). subst cd.
        inversion SA; subst. exists 1%nat. intros f' L. destruct f' as [|f']; [lia|]. cbn [encode]. rewrite EN. reflexivity.
      - assert (cd <> CNull) by (intros ->; specialize (HN eq_refl eq_refl); discriminate).
        eapply EncE_resolves; [exact R|exact M|exact EN|]. now apply IH. }
  all: try (solve [atoms]).
  - (* compact *) intros c sub cd z g Hs R Hz HR HS M N g' SH. assert (A : atom g = true).
    { destruct cd; cbn in HR; try discriminate; match type of HR with (if ?x <? ?y then _ else _) = _ => destruct (x <? y); [|discriminate] end; now injection HR as <-. }
    apply (shuffled_atom g g' A) in SH. subst. eapply (proj1 (proj2 (scale_encodes E STD))); [econstructor; eassumption|assumption|assumption].
  - (* some *)
    intros c sub bs g cs Hs Hb _ IH HN M N g' SH. specialize (HN eq_refl). assert (HN' : ~ nil_like g') by (intros Q; apply HN; now apply (shuffled_nil g g')). destruct (IH M g' SH) as [f H]. exists f. intros f' L.
    assert (G : g' <> VNil) by (intros ->; apply HN'; now left). rewrite (norm_id g' G). cbn [encode_codec].
    replace ((match g' with VStr s => String.eqb s "" | _ => false end) || is_nil g') with false.
    2:{ symmetry. apply orb_false_iff. split.
        - destruct g'; try reflexivity. apply String.eqb_neq. intros ->. apply HN'. unfold nil_like. auto.
        - destruct g'; try reflexivity; try (exfalso; apply HN'; unfold nil_like; now auto).
          match goal with |- is_nil (VStrs ?l) = _ => destruct l; [reflexivity|exfalso; apply HN'; unfold nil_like; now auto] end. }
    destruct (String.eqb_spec sub "bool"); [contradiction|]. rewrite (H f' L). cbn [bind].
    eexists. split; [reflexivity|]. change ("01" ++ hex_encode bs) with (hex_encode ([Zb 1] ++ bs)). apply trim_lower_hex.
  - (* vec *)
    intros c sub n bs gs0 cs _ IH Hn M N g' SH. destruct (shuffled_list gs0 g' SH) as (gs & -> & F2). destruct (IH M gs F2) as [f H]. exists (S f). intros f' L. destruct f' as [|f']; [lia|].
    specialize (H (S f') ltac:(lia)).
    assert (Lg : List.length gs = n) by (rewrite (seqenc_length _ _ _ _ H); apply repeat_length).
    assert (EL : elements (slice_of gs) = Some gs) by (destruct gs; reflexivity).
    assert (NG : norm (slice_of gs) = slice_of gs) by (destruct gs; reflexivity).
    rewrite NG. exists (hex_encode (compact (Z.of_nat n)) ++ hex_encode bs). split.
    + cbn [encode_codec].
      replace (match slice_of gs with VStr s => if String.eqb s "" then len_prefix (encode (S f') E) 0 else Panic "invalid vec input" | _ => _ end)
        with (match elements (slice_of gs) with
          | Some l => p <- len_prefix (encode (S f') E) (List.length l) ;;
                      r <- concat_res (map (fun x => s <- encode (S f') E (x_spec c) (x_meta c) sub x ;; Ok (TrimHex s)) l) ;; Ok (p ++ r)
          | None => Panic "invalid vec input"
          end) by (destruct gs; reflexivity).
      rewrite EL, Lg, (enc_len E STD) by lia. cbn [bind].
      rewrite (seqenc_vec (encode (S f') E (x_spec c) (x_meta c)) sub n bs gs H). reflexivity.
    + rewrite <- hex_encode_app. apply trim_lower_hex.
  - (* array *)
    intros c n sub bs gs0 cs Hs Hn _ IH M N g' SH. destruct (shuffled_list gs0 g' SH) as (gs & -> & F2). destruct (IH M gs F2) as [f H]. exists f. intros f' L.
    specialize (H f' L).
    assert (Lg : List.length gs = Z.to_nat n) by (rewrite (seqenc_length _ _ _ _ H); apply repeat_length).
    assert (EL : elements (slice_of gs) = Some gs) by (destruct gs; reflexivity).
    assert (NG : norm (slice_of gs) = slice_of gs) by (destruct gs; reflexivity).
    rewrite NG. exists (hex_encode bs). split; [|apply trim_lower_hex]. cbn [encode_codec].
    replace (match slice_of gs with VStr s => if String.eqb s "" then Ok "" else Ok (text_bytes_hex s) | _ => _ end)
      with (match elements (slice_of gs) with
          | Some l => if Z.of_nat (List.length l) =? n then concat_res (map (encode f' E (x_spec c) (x_meta c) sub) l)
                      else Panic "fixed length not match"
          | None => Panic "invalid vec input"
          end) by (destruct gs; reflexivity).
    rewrite EL, Lg. rewrite Z2Nat.id by lia. rewrite Z.eqb_refl. exact (seqenc_array _ _ _ _ _ H).
  - (* struct *)
    intros c tm bs gs cs S1 IH ND M N g' SH. destruct (shuffled_fields (map fst tm) gs g' ND) as (gs' & m & -> & F2 & A); [|exact SH|].
    { destruct (proj2 (proj2 (scale_encodes E STD)) _ _ _ _ _ S1 M) as [f H]. specialize (H f (Nat.le_refl f)). apply seqenc_length in H. now rewrite H, !map_length. }
    destruct (IH M gs' F2) as [f H]. exists f. intros f' L. specialize (H f' L).
    cbn [norm encode_codec on_map]. exists (hex_encode bs). split; [|apply trim_lower_hex].
    exact (fields_any _ tm bs gs' m H ND A).
  - (* empty struct *)
    intros c M N g' SH. inversion SH as [? A| |m m1 m2 ND F P]; subst; [discriminate A|]. inversion F; subst. apply Permutation_nil in P. subst.
    eapply (proj1 (proj2 (scale_encodes E STD))); [constructor|assumption|assumption].
  - (* variant *)
    intros c tm vl i name sub bs g cs HC Hi HN Hs HV _ IH ND M N g0 SH. destruct (shuffled_entry name g g0 SH) as (g' & -> & SG). destruct (IH M g' SG) as [f H]. exists f. intros f' L. specialize (H f' L).
    exists (hex_encode (Zb i :: bs)). split; [|apply trim_lower_hex].
    cbn [norm encode_codec encode_enum encode_enum_map]. rewrite HC, (name_index_spec tm _ name sub 0 (ND eq_refl) HN), HV, H. cbn [bind].
    rewrite Z.add_0_l, Z2Nat.id by lia. unfold U8Encode, BytesToHex. rewrite <- hex_encode_app. reflexivity.
  - (* variant with named fields *)
    intros c tm vl i name sub rows bs gs cs HC Hi HN Hs HV FR NDR S1 IH ND M N g0 SH. destruct (shuffled_entry name _ g0 SH) as (g1 & -> & SG).
    destruct (shuffled_fields (map row_name rows) gs g1 NDR) as (gs' & m & -> & F2 & A); [|exact SG|].
    { destruct (proj2 (proj2 (scale_encodes E STD)) _ _ _ _ _ S1 M) as [f H]. specialize (H f (Nat.le_refl f)). apply seqenc_length in H. now rewrite H, !map_length. }
    destruct (IH M gs' F2) as [f H]. exists f. intros f' L. specialize (H f' L).
    exists (hex_encode (Zb i :: bs)). split; [|apply trim_lower_hex].
    cbn [norm encode_codec encode_enum encode_enum_map]. rewrite HC, (name_index_spec tm _ name sub 0 (ND eq_refl) HN), HV.
    change (fun (t : string) (x : val) => encode f' E (x_spec c) (x_meta c) t x) with (encode f' E (x_spec c) (x_meta c)).
    pose proof (seqenc_rows _ rows bs gs' H FR [] NDR) as ER. cbn [app] in ER. rewrite (rows_any _ m _ A), ER. cbn [bind].
    rewrite Z.add_0_l, Z2Nat.id by lia. unfold U8Encode, BytesToHex. rewrite <- hex_encode_app. reflexivity.
  - (* Ok *)
    intros c sub t_ok t_err bs g cs HS _ IH M N g0 SH. destruct (shuffled_entry _ g g0 SH) as (g' & -> & SG). destruct (IH M g' SG) as [f H]. exists f. intros f' L. specialize (H f' L).
    exists (hex_encode (Zb 0 :: bs)). split; [|apply trim_lower_hex].
    cbn [norm encode_codec on_map]. rewrite HS. cbn [assoc]. change (String.eqb "Ok" "Ok") with true. cbv iota. rewrite H. reflexivity.
  - (* Error *)
    intros c sub t_ok t_err bs g cs HS _ IH M N g0 SH. destruct (shuffled_entry _ g g0 SH) as (g' & -> & SG). destruct (IH M g' SG) as [f H]. exists f. intros f' L. specialize (H f' L).
    exists (hex_encode (Zb 1 :: bs)). split; [|apply trim_lower_hex].
    cbn [norm encode_codec on_map]. rewrite HS. cbn [assoc]. change (String.eqb "Ok" "Error") with false.
    change (String.eqb "Error" "Error") with true. cbv iota. rewrite H. reflexivity.
  - intros c M N g0 SH. destruct (shuffled_entry _ _ g0 SH) as (g' & -> & SG). apply shuffled_atom in SG; [subst|reflexivity].
    eapply (proj1 (proj2 (scale_encodes E STD))); [constructor|assumption|assumption].
  - intros c b s n Hb Hn SN HS M N g0 SH. destruct (shuffled_entry _ _ g0 SH) as (g' & -> & SG). apply shuffled_atom in SG; [subst|reflexivity].
    eapply (proj1 (proj2 (scale_encodes E STD))); [econstructor; eauto|assumption|assumption].
  - intros c i n b I Hb R HS M N g0 SH. destruct (shuffled_entry _ _ g0 SH) as (g' & -> & SG). apply shuffled_atom in SG; [subst|reflexivity].
    eapply (proj1 (proj2 (scale_encodes E STD))); [econstructor; eassumption|assumption|assumption].
  - intros c M gs' F. inversion F; subst. exists O. intros. constructor.
  - intros c t ts b bs g gs cs1 cs2 _ IH1 _ IH2 M gs0 F. inversion F as [|? g' ? gs' SG SGS]; subst. destruct (IH1 M g' SG) as [f1 H1]. destruct (IH2 M gs' SGS) as [f2 H2].
    exists (Nat.max f1 f2). intros f' L. constructor; [apply H1; lia|apply H2; lia].
Qed.
End Order.

(** ** A call given as a map *)
Lemma leb_lt a b : String.leb a b = true -> a = b \/ String_as_OT.lt a b.
Proof. unfold String.leb. destruct (String.compare a b) eqn:C; [|right; now apply String_as_OT.cmp_lt|discriminate]. left. now apply String_as_OT.cmp_eq. Qed.
Lemma lt_leb a b : String_as_OT.lt a b -> String.leb a b = true.
Proof. intros L. apply String_as_OT.cmp_lt in L. unfold String_as_OT.cmp in L. unfold String.leb. now rewrite L. Qed.
Lemma leb_trans a b c : String.leb a b = true -> String.leb b c = true -> String.leb a c = true.
Proof.
  intros A B. apply leb_lt in A, B. destruct A as [->|A], B as [->|B].
  - destruct (String.leb_total c c); assumption.
  - now apply lt_leb.
  - now apply lt_leb.
  - apply lt_leb. eapply String_as_OT.lt_trans; eassumption.
Qed.
Lemma leb_not a b : String.leb a b = false -> String.leb b a = true.
Proof. intros H. destruct (String.leb_total a b) as [T|T]; [congruence|exact T]. Qed.
Lemma insert_comm p q l : fst p <> fst q -> insert_entry p (insert_entry q l) = insert_entry q (insert_entry p l).
Proof.
  intros N.
  assert (A : String.leb (fst p) (fst q) = true -> String.leb (fst q) (fst p) = true -> False) by (intros X Y; apply N; now apply String.leb_antisym).
  induction l as [|r l IH]; cbn [insert_entry].
  - destruct (String.leb (fst p) (fst q)) eqn:PQ, (String.leb (fst q) (fst p)) eqn:QP; try reflexivity; [destruct (A eq_refl eq_refl)|]. apply leb_not in PQ. congruence.
  - destruct (String.leb (fst p) (fst r)) eqn:PR, (String.leb (fst q) (fst r)) eqn:QR; cbn [insert_entry]; rewrite ?PR, ?QR.
    + destruct (String.leb (fst p) (fst q)) eqn:PQ, (String.leb (fst q) (fst p)) eqn:QP; cbn [insert_entry]; rewrite ?PR, ?QR; try reflexivity; [destruct (A eq_refl eq_refl)|]. apply leb_not in PQ. congruence.
    + destruct (String.leb (fst q) (fst p)) eqn:QP; [|reflexivity]. rewrite (leb_trans _ _ _ QP PR) in QR. discriminate.
    + destruct (String.leb (fst p) (fst q)) eqn:PQ; [|reflexivity]. rewrite (leb_trans _ _ _ PQ QR) in PR. discriminate.
    + now rewrite IH.
Qed.
Lemma sort_same l l' : Permutation l l' -> NoDup (map fst l) -> fold_right insert_entry [] l = fold_right insert_entry [] l'.
Proof.
  induction 1 as [|p l l' P IH|p q l|l l1 l2 P1 IH1 P2 IH2]; intros ND; cbn [fold_right].
  - reflexivity.
  - cbn [map] in ND. inversion ND; subst. now rewrite IH.
  - cbn [map] in ND. inversion ND as [|? ? N _]; subst. apply insert_comm. intros K. apply N. now left.
  - rewrite IH1 by exact ND. apply IH2. apply (Permutation_NoDup (Permutation_map fst P1) ND).
Qed.
Lemma filter_perm {A} (f : A -> bool) l l' : Permutation l l' -> Permutation (filter f l) (filter f l').
Proof.
  induction 1 as [|x l l' P IH|x y l|l l1 l2 P1 IH1 P2 IH2]; cbn [filter].
  - constructor.
  - destruct (f x); [now constructor|exact IH].
  - destruct (f x), (f y); try reflexivity. constructor.
  - now transitivity (filter f l1).
Qed.
Lemma filter_keys {A} (f : string * A -> bool) l : NoDup (map fst l) -> NoDup (map fst (filter f l)).
Proof.
  induction l as [|p l IH]; cbn [map filter]; intros ND; [constructor|]. inversion ND as [|? ? N ND']; subst. destruct (f p); [|now apply IH]. cbn [map]. constructor; [|now apply IH].
  intros I. apply N. apply in_map_iff in I. destruct I as (q & K & I). apply filter_In in I. apply in_map_iff. exists q. now split.
Qed.
Lemma entries_same f o o' : Permutation o o' -> NoDup (map fst o) -> entries_of f o = entries_of f o'.
Proof. intros P ND. unfold entries_of. f_equal. apply sort_same; [now apply filter_perm|now apply filter_keys]. Qed.
Lemma depth_same o o' : Permutation o o' -> depth (JObj o) = depth (JObj o').
Proof.
  intros P. cbn [depth]. f_equal. induction P as [|x l l' P IH|x y l|l l1 l2 P1 IH1 P2 IH2]; cbn [map fold_right]; [reflexivity|now rewrite IH|lia|congruence].
Qed.
Definition entry (p : string * val) : option (string * json) := match marshal (snd p) with Some j => Some (json_text (fst p), j) | None => None end.
Lemma all_some_perm l l' : Permutation l l' -> match all_some entry l, all_some entry l' with Some a, Some b => Permutation a b | None, None => True | _, _ => False end.
Proof.
  induction 1 as [|x l l' P IH|x y l|l l1 l2 P1 IH1 P2 IH2]; cbn [all_some].
  - constructor.
  - destruct (entry x); [|exact I]. destruct (all_some entry l), (all_some entry l'); try contradiction; [now constructor|exact I].
  - destruct (entry x), (entry y), (all_some entry l); try exact I. constructor.
  - destruct (all_some entry l), (all_some entry l1), (all_some entry l2); try contradiction; try exact I. now transitivity l3.
Qed.
Lemma entry_keys l : Forall (fun p => utf8 (s2b (fst p))) l -> forall o, all_some entry l = Some o -> map fst o = map fst l.
Proof.
  induction 1 as [|p l U F IH]; cbn [all_some]; intros o H; [now injection H as <-|]. unfold entry in H at 1. destruct (marshal (snd p)); [|discriminate]. destruct (all_some entry l); [|discriminate].
  injection H as <-. cbn [map fst]. rewrite json_text_id by exact U. f_equal. now apply IH.
Qed.
Theorem box_any_order m m' : Permutation m m' -> NoDup (map fst m) -> Forall (fun p => utf8 (s2b (fst p))) m -> json_box m = json_box m'.
Proof.
  intros P ND U. unfold json_box. change (marshal (VMap m)) with (match all_some entry m with Some js => Some (JObj js) | None => None end).
  change (marshal (VMap m')) with (match all_some entry m' with Some js => Some (JObj js) | None => None end).
  pose proof (all_some_perm m m' P) as A. pose proof (entry_keys m U) as K. destruct (all_some entry m) as [o|], (all_some entry m') as [o'|]; try contradiction; [|reflexivity].
  specialize (K o eq_refl). assert (NO : NoDup (map fst o)) by now rewrite K. rewrite (depth_same o o' A), !(fun f => entries_same f o o' A NO). reflexivity.
Qed.

(** ** C94 *)
(** The text for a value of a type is the text of its bytes, in whatever order the
    maps inside it list their entries. *)
Theorem C94_order E c ts bs g cs g' : std_env E -> x_module c = "" -> scale true E c ts bs g cs -> shuffled g g' -> Encodes E (x_spec c) (x_meta c) ts g' (BytesToHex bs).
Proof. intros STD M S SH. split; [discriminate|]. exact (proj1 (shuffled_encodes E STD) c ts bs g cs S M g' SH). Qed.
(** Encoding and decoding gives the value back, with the fields in the order of
    the declaration. *)
Theorem C94_roundtrip E c ts bs g cs g' : std_env E -> x_module c = "" -> scale true E c ts bs g cs -> shuffled g g' -> blen bs < 2 ^ 63 ->
  exists s, Encodes E (x_spec c) (x_meta c) ts g' s /\ Decodes E c (HexToBytes s) 0 ts (Ok (g, blen (HexToBytes s), cs)).
Proof.
  intros STD M S SH L. destruct (C17_roundtrip E c ts bs g cs STD M S L) as (s & H & D). exists s. split; [|exact D].
  pose proof (C94_order E c ts bs g cs g' STD M S SH) as H'. pose proof (C16_encode E c ts bs g cs STD M S) as H1.
  assert (s = BytesToHex bs) as ->; [|exact H'].
  destruct H as (_ & f1 & A1), H1 as (_ & f2 & A2). specialize (A1 (Nat.max f1 f2) (Nat.le_max_l _ _)). specialize (A2 (Nat.max f1 f2) (Nat.le_max_r _ _)). rewrite A1 in A2. now injection A2 as ->.
Qed.
(** A call given as a map, valid or not: the same outcome in every order. *)
Theorem C94_call E spec md ts m m' fuel : e_box E = json_box -> resolves E (Ctx spec "" md) ts CCall -> Permutation m m' -> NoDup (map fst m) -> Forall (fun p => utf8 (s2b (fst p))) m ->
  encode fuel E spec md ts (VMap m) = encode fuel E spec md ts (VMap m').
Proof.
  intros B (cd0 & sub & G & I) P ND U. destruct fuel as [|f]; [reflexivity|]. cbn [encode]. destruct (equal_fold ts "Null"); [reflexivity|]. cbn [x_module x_spec] in G. rewrite G. cbn [bind]. rewrite I.
  cbn [encode_codec]. unfold encode_call. destruct md as [md|]; [|reflexivity]. rewrite B, (box_any_order m m' P ND U). reflexivity.
Qed.

(** A struct inside a struct, both with the fields the other way round. *)
Definition mo_env : env := Env [("u8", CU8); ("u32", CU32); ("null", CNull); ("option", COption ""); ("compact<u32>", CCompactU32); ("data", CData);
  ("point", CStruct (Some [("x", "u8"); ("y", "u32")])); ("choice", CEnum (Some [("A", "u8"); ("B", "u8")]) []);
  ("line", CStruct (Some [("from", "Point"); ("width", "u8")]))] [] (fun _ => "") (fun b => b) json_box.
Definition mo_ctx : ctx := Ctx 5 "" None.
Lemma mo_std : std_env mo_env.
Proof. intros k cd I. cbn [In] in I. destruct I as [[= <- <-]|[[= <- <-]|[[= <- <-]|[]]]]; now split. Qed.
Definition mo_line : val := VMap [("from", VMap [("x", VInt 7); ("y", VU32 258)]); ("width", VInt 9)].
Definition mo_turned : val := VMap [("width", VInt 9); ("from", VMap [("y", VU32 258); ("x", VInt 7)])].
Example C94_example : std_env mo_env /\ scale true mo_env mo_ctx "Line" (map Zb [7; 2; 1; 0; 0; 9]) mo_line [] /\ shuffled mo_line mo_turned /\ mo_line <> mo_turned
  /\ Encodes mo_env 5 None "Line" mo_turned "070201000009".
Proof.
  assert (P : scale true mo_env mo_ctx "Point" (le_bytes 1 7 ++ le_bytes 4 258 ++ [])%list (VMap [("x", VInt 7); ("y", VU32 258)]) []).
  { econstructor; [exists (CStruct (Some [("x", "u8"); ("y", "u32")])), ""; split; vm_compute; reflexivity|discriminate|].
    apply (sc_struct true mo_env mo_ctx [("x", "u8"); ("y", "u32")] _ [VInt 7; VU32 258] []); [|repeat constructor; cbn; intuition discriminate].
    cbn [map snd]. change (@nil string) with (@nil string ++ (@nil string ++ @nil string))%list. constructor; [|constructor; [|constructor]].
    - econstructor; [exists CU8, ""; split; vm_compute; reflexivity|discriminate|]. constructor. lia.
    - econstructor; [exists CU32, ""; split; vm_compute; reflexivity|discriminate|]. constructor. lia. }
  assert (L : scale true mo_env mo_ctx "Line" (map Zb [7; 2; 1; 0; 0; 9]) mo_line []).
  { change (map Zb [7; 2; 1; 0; 0; 9]) with ((le_bytes 1 7 ++ le_bytes 4 258 ++ []) ++ le_bytes 1 9 ++ [])%list.
    econstructor; [exists (CStruct (Some [("from", "Point"); ("width", "u8")])), ""; split; vm_compute; reflexivity|discriminate|].
    apply (sc_struct true mo_env mo_ctx [("from", "Point"); ("width", "u8")] _ [VMap [("x", VInt 7); ("y", VU32 258)]; VInt 9] []); [|repeat constructor; cbn; intuition discriminate].
    cbn [map snd]. change (@nil string) with (@nil string ++ (@nil string ++ @nil string))%list. constructor; [exact P|constructor; [|constructor]].
    econstructor; [exists CU8, ""; split; vm_compute; reflexivity|discriminate|]. constructor. lia. }
  assert (S : shuffled mo_line mo_turned).
  { apply (mo_map _ [("from", VMap [("y", VU32 258); ("x", VInt 7)]); ("width", VInt 9)]); [repeat constructor; cbn; intuition discriminate| |apply perm_swap].
    constructor; [split; [reflexivity|]|constructor; [split; [reflexivity|now constructor]|constructor]]. cbn [snd].
    apply (mo_map _ [("x", VInt 7); ("y", VU32 258)]); [repeat constructor; cbn; intuition discriminate| |apply perm_swap].
    repeat constructor. }
  split; [exact mo_std|]. split; [exact L|]. split; [exact S|]. split; [discriminate|].
  exact (C94_order mo_env mo_ctx "Line" _ _ _ _ mo_std eq_refl L S).
Qed.

(** A map with two names, for an enum or for Data, is written by the name that
    happens to come first (Enum.go:98-115 and tools.go:166-171 range over it). *)
Theorem C94_enum_refuted : exists E ts g g' s s', std_env E /\ shuffled g g' /\ Encodes E 5 None ts g s /\ Encodes E 5 None ts g' s' /\ s <> s'.
Proof.
  exists mo_env, "Choice", (VMap [("A", VInt 1); ("B", VInt 2)]), (VMap [("B", VInt 2); ("A", VInt 1)]), "0001", "0102".
  split; [exact mo_std|]. split; [|split; [|split; [|discriminate]]].
  - apply (mo_map _ [("A", VInt 1); ("B", VInt 2)]); [repeat constructor; cbn; intuition discriminate|repeat constructor|apply perm_swap].
  - split; [discriminate|]. exists 5%nat. intros f Hf. do 5 (destruct f; [lia|]). vm_compute. reflexivity.
  - split; [discriminate|]. exists 5%nat. intros f Hf. do 5 (destruct f; [lia|]). vm_compute. reflexivity.
Qed.
Theorem C94_data_refuted : exists E ts g g' s s', std_env E /\ shuffled g g' /\ Encodes E 5 None ts g s /\ Encodes E 5 None ts g' s' /\ s <> s'.
Proof.
  exists mo_env, "Data", (VMap [("None", VNil); ("Raw1", VStr "a")]), (VMap [("Raw1", VStr "a"); ("None", VNil)]), "00", "0261".
  split; [exact mo_std|]. split; [|split; [|split; [|discriminate]]].
  - apply (mo_map _ [("None", VNil); ("Raw1", VStr "a")]); [repeat constructor; cbn; intuition discriminate|repeat constructor|apply perm_swap].
  - split; [discriminate|]. exists 5%nat. intros f Hf. do 5 (destruct f; [lia|]). vm_compute. reflexivity.
  - split; [discriminate|]. exists 5%nat. intros f Hf. do 5 (destruct f; [lia|]). vm_compute. reflexivity.
Qed.

Print Assumptions C94_order.
Print Assumptions C94_roundtrip.
Print Assumptions C94_call.
Print Assumptions C94_enum_refuted.
Print Assumptions C94_data_refuted.
