(** C98: decoding any bytes and encoding the value gives the bytes back. *)

From Verif Require Import GoBase SpecNum ProofsBase ModelTools ProofsTools ModelUint128 ModelJson ModelVal ModelRegistry ModelDecode ModelEncode
  ProofsRun SpecScale ProofsReads ProofsScale ProofsEncode ProofsApi PropCodec.

(** ** Types whose every encoding is the only one of its value *)
Definition exact_sizes : list (codec * nat) :=
  [(CU8, 1); (CU16, 2); (CU32, 4); (CU64, 8); (CU128, 16); (CU256, 32); (CH160, 20); (CH256, 32); (CH512, 64); (CAccountId, 32)]%nat.
Inductive faithful (E : env) (c : ctx) : string -> Prop :=
| fa_leaf ts cd n : resolves E c ts cd -> In (cd, n) exact_sizes -> faithful E c ts
| fa_era ts : resolves E c ts CEra -> faithful E c ts
| fa_array ts k t : resolves E c ts (CFixedArray k t) -> 0 < k < 2 ^ 63 -> equal_fold t "u8" = false -> faithful E c t -> faithful E c ts
| fa_struct ts tm : resolves E c ts (CStruct (Some tm)) -> NoDup (map fst tm) -> Forall (faithful E c) (map snd tm) -> faithful E c ts
| fa_names ts vl : resolves E c ts (CEnum None vl) -> NoDup vl -> ~ In "" vl -> faithful E c ts
| fa_enum ts tm vl : resolves E c ts (CEnum (Some tm) vl) -> c_like tm = false -> NoDup (map fst tm) -> Forall (fun p => faithful_variant E c (snd p)) tm -> faithful E c ts
| fa_result ts sub t1 t2 : resolves E c ts (CResult sub) -> split_char ","%char sub = [t1; t2] -> faithful E c t1 -> faithful E c t2 -> faithful E c ts
with faithful_variant (E : env) (c : ctx) : string -> Prop :=
| fv_one sub : sub <> "" -> struct_variant sub = None -> faithful E c sub -> faithful_variant E c sub
| fv_rows sub rows : sub <> "" -> struct_variant sub = Some rows -> Forall row_ok rows -> NoDup (map row_name rows) -> Forall (faithful E c) (map row_type rows) -> faithful_variant E c sub.

(** ** Parts of the buffer *)
Definition seg (d : bytes) (a b : Z) : bytes := firstn (Z.to_nat (b - a)) (skipn (Z.to_nat a) d).
Lemma seg_app d a b e : 0 <= a <= b -> b <= e -> (seg d a b ++ seg d b e)%list = seg d a e.
Proof.
  intros A B. unfold seg. replace (Z.to_nat b) with (Z.to_nat a + Z.to_nat (b - a))%nat by lia. replace (Z.to_nat (e - a)) with (Z.to_nat (b - a) + Z.to_nat (e - b))%nat by lia.
  generalize (Z.to_nat (b - a)), (Z.to_nat (e - b)), (Z.to_nat a). clear. intros m k o. revert d. induction o as [|o IH]; intros d.
  - cbn [Nat.add skipn]. revert d. induction m as [|m IH]; intros d; [reflexivity|]. destruct d as [|x d]; [now rewrite !skipn_nil, !firstn_nil|]. cbn [firstn skipn Nat.add app]. f_equal. apply IH.
  - destruct d as [|x d]; [now rewrite !skipn_nil, !firstn_nil|]. cbn [skipn Nat.add]. apply IH.
Qed.
Lemma seg_length d a b : 0 <= a <= b -> b <= blen d -> List.length (seg d a b) = Z.to_nat (b - a).
Proof. intros A B. unfold seg, blen in *. rewrite firstn_length, skipn_length. lia. Qed.
Lemma seg_nil d a : seg d a a = [].
Proof. unfold seg. now rewrite Z.sub_diag. Qed.
Lemma seg_split d a b : 0 <= a <= b -> b <= blen d -> d = (firstn (Z.to_nat a) d ++ seg d a b ++ skipn (Z.to_nat (b - a)) (skipn (Z.to_nat a) d))%list /\ blen (firstn (Z.to_nat a) d) = a.
Proof. intros A B. unfold seg. rewrite !firstn_skipn. split; [reflexivity|]. unfold blen in *. rewrite firstn_length. lia. Qed.
Lemma next_full d o n x o1 : 0 <= o <= blen d -> blen d < 2 ^ 63 -> 0 <= n < 2 ^ 63 -> next_bytes d o (i64 n) = Ok (x, o1) -> o1 < blen d -> o1 = o + n /\ x = seg d o o1.
Proof.
  intros O L N H B. destruct (next_bytes_offset d o _ x o1 O H) as [F X]. split; [|exact X]. rewrite i64_small in H by (unfold two63; lia). unfold next_bytes in H.
  destruct (blen d <? i64 (o + n)); [destruct (slice _ _ _); try discriminate H; injection H as _ <-; lia|].
  destruct (slice _ _ _); try discriminate H. injection H as _ <-. destruct (Z.lt_ge_cases (o + n) two63) as [S|S]; [apply i64_small; unfold two63 in *; lia|].
  exfalso. unfold i64, two63, two64 in *. rewrite (Z.mod_eq (o + n + 2 ^ 63) (2 ^ 64)) in F by lia. assert ((o + n + 2 ^ 63) / 2 ^ 64 = 1) as Q by (symmetry; apply (Z.div_unique _ _ _ (o + n + 2 ^ 63 - 2 ^ 64)); lia). rewrite Q in F. lia.
Qed.

(** ** Every string of the right length is an encoding *)
Lemma leaf_scale E c cd n b : In (cd, n) exact_sizes -> List.length b = n -> exists g, scale_at true E c cd b g [].
Proof.
  intros I L. pose proof (le_val_range b) as V. rewrite L in V. pose proof (le_bytes_val b) as B. rewrite L in B.
  cbn [exact_sizes In] in I. repeat match type of I with _ \/ _ => destruct I as [I|I] end; try contradiction; injection I as <- <-.
  - exists (VInt (le_val b)). rewrite <- B at 1. now apply sc_u8.
  - exists (VU16 (le_val b)). rewrite <- B at 1. now apply sc_u16.
  - exists (VU32 (le_val b)). rewrite <- B at 1. now apply sc_u32.
  - exists (VU64 (le_val b)). rewrite <- B at 1. now apply sc_u64.
  - exists (VStr (itoa (le_val b))). rewrite <- B at 1. apply sc_u128; [exact V|apply itoa_numeral; lia].
  - exists (VDec (le_val b) 0). rewrite <- B at 1. now apply sc_u256.
  - eexists. now apply sc_h160.
  - eexists. now apply sc_h256.
  - eexists. now apply sc_h512.
  - eexists. now apply sc_account.
Qed.
Lemma leaf_next E c cd n : In (cd, n) exact_sizes -> exists k, process E c cd = Next (Z.of_nat n) k.
Proof.
  intros I. cbn [exact_sizes In] in I. repeat match type of I with _ \/ _ => destruct I as [I|I] end; try contradiction; injection I as <- <-; eexists; reflexivity.
Qed.
Lemma nodup_first (l : list string) i s : NoDup l -> nth_error l i = Some s -> first_at l i.
Proof.
  intros ND H k n K HK HI. rewrite NoDup_nth_error in ND. assert (k = i) as -> by (apply ND; [now apply nth_error_Some; rewrite HK|congruence]). lia.
Qed.
Lemma one_byte d o : 0 <= o -> o + 1 <= blen d -> exists x, seg d o (o + 1) = [x].
Proof. intros O L. pose proof (seg_length d o (o + 1) ltac:(lia) L) as H. replace (Z.to_nat (o + 1 - o)) with 1%nat in H by lia. destruct (seg d o (o + 1)) as [|x [|y l]]; try discriminate H. now exists x. Qed.
Lemma head_index x : Zb (bZ x) = x.
Proof. apply Zb_bZ. Qed.

Section Step.
Variable E : env.
Variable c : ctx.
Variable rec : decoder.
Variable d : bytes.
Hypothesis L : blen d < 2 ^ 63.
Hypothesis FW : forward rec.
Hypothesis IH : forall ts, faithful E c ts -> forall o v o' cs, 0 <= o <= blen d -> rec c d o ts = Ok (v, o', cs) -> o' < blen d -> scale true E c ts (seg d o o') v cs.

Lemma step_sub start ts k o cs0 v o' cs : faithful E c ts -> 0 <= o <= blen d -> run rec start (Sub c ts k) d o cs0 = Ok (v, o', cs) -> o' < blen d ->
  exists g o1 cs1, o <= o1 <= o' /\ scale true E c ts (seg d o o1) g cs1 /\ run rec start (k g) d o1 (cs0 ++ cs1)%list = Ok (v, o', cs).
Proof.
  intros F O H B. cbn [run] in H. destruct (rec c d o ts) as [[[g o1] cs1]|?|] eqn:R; try discriminate H. cbn [bind] in H.
  pose proof (FW _ _ _ _ _ _ _ O R) as O1. pose proof (run_forward rec start (k g) d o1 _ _ _ _ FW ltac:(lia) H) as O2. exists g, o1, cs1. split; [lia|]. split; [|exact H]. apply (IH ts F o); [exact O|exact R|lia].
Qed.
Lemma step_fields start : forall tm acc k o cs0 v o' cs, Forall (faithful E c) (map snd tm) -> NoDup (map fst acc ++ map fst tm) -> 0 <= o <= blen d ->
  run rec start (fields_sub c tm acc k) d o cs0 = Ok (v, o', cs) -> o' < blen d ->
  exists gs o1 cs1, o <= o1 <= o' /\ scales true E c (map snd tm) (seg d o o1) gs cs1 /\ run rec start (k (acc ++ combine (map fst tm) gs)%list) d o1 (cs0 ++ cs1)%list = Ok (v, o', cs).
Proof.
  induction tm as [|[n t] tm IHt]; intros acc k o cs0 v o' cs F ND O H B; cbn [fields_sub map fst snd] in *.
  - exists [], o, []. rewrite !app_nil_r. rewrite seg_nil. pose proof (run_forward rec start _ d o _ _ _ _ FW O H). split; [lia|]. split; [constructor|exact H].
  - inversion F as [|? ? F1 F2]; subst. destruct (step_sub start t _ o cs0 v o' cs F1 O H B) as (g & o1 & cs1 & O1 & S & H1). cbv beta in H1.
    rewrite map_set_fresh in H1 by (intros I; apply NoDup_remove_2 in ND; apply ND, in_or_app; now left).
    destruct (IHt (acc ++ [(n, g)])%list k o1 (cs0 ++ cs1)%list v o' cs F2) as (gs & o2 & cs2 & O2 & S2 & H2); [rewrite map_app, <- app_assoc; exact ND|lia|exact H1|exact B|].
    exists (g :: gs), o2, (cs1 ++ cs2)%list. split; [lia|]. split; [|cbn [combine]; rewrite <- !app_assoc in H2; exact H2].
    rewrite <- (seg_app d o o1 o2) by lia. now constructor.
Qed.
Lemma step_rows start : forall rows acc k o cs0 v o' cs, Forall (faithful E c) (map row_type rows) -> Forall row_ok rows -> NoDup (map fst acc ++ map row_name rows) -> 0 <= o <= blen d ->
  run rec start (rows_sub c rows acc k) d o cs0 = Ok (v, o', cs) -> o' < blen d ->
  exists gs o1 cs1, o <= o1 <= o' /\ scales true E c (map row_type rows) (seg d o o1) gs cs1 /\ run rec start (k (acc ++ combine (map row_name rows) gs)%list) d o1 (cs0 ++ cs1)%list = Ok (v, o', cs).
Proof.
  induction rows as [|r rows IHt]; intros acc k o cs0 v o' cs F RO ND O H B.
  - exists [], o, []. cbn [map combine]. rewrite !app_nil_r. rewrite seg_nil. pose proof (run_forward rec start _ d o _ _ _ _ FW O H). split; [lia|]. split; [constructor|exact H].
  - inversion RO as [|? ? (n & t & rest & ->) RO2]; subst. cbn [map rows_sub] in *. change (row_type (n :: t :: rest)) with t in *. change (row_name (n :: t :: rest)) with n in *.
    inversion F as [|? ? F1 F2]; subst. destruct (step_sub start t _ o cs0 v o' cs F1 O H B) as (g & o1 & cs1 & O1 & S & H1). cbv beta in H1.
    rewrite map_set_fresh in H1 by (intros I; apply NoDup_remove_2 in ND; apply ND, in_or_app; now left).
    destruct (IHt (acc ++ [(n, g)])%list k o1 (cs0 ++ cs1)%list v o' cs F2 RO2) as (gs & o2 & cs2 & O2 & S2 & H2); [rewrite map_app, <- app_assoc; exact ND|lia|exact H1|exact B|].
    exists (g :: gs), o2, (cs1 ++ cs2)%list. split; [lia|]. split; [|cbn [combine]; rewrite <- !app_assoc in H2; exact H2].
    rewrite <- (seg_app d o o1 o2) by lia. now constructor.
Qed.
Lemma step_repeat start t : faithful E c t -> forall n acc k o cs0 v o' cs, 0 <= o <= blen d ->
  run rec start (repeat_sub c t n acc k) d o cs0 = Ok (v, o', cs) -> o' < blen d ->
  exists gs o1 cs1, o <= o1 <= o' /\ scales true E c (repeat t n) (seg d o o1) gs cs1 /\ run rec start (k (rev acc ++ gs)%list) d o1 (cs0 ++ cs1)%list = Ok (v, o', cs).
Proof.
  intros F. induction n as [|n IHt]; intros acc k o cs0 v o' cs O H B; cbn [repeat_sub repeat] in *.
  - exists [], o, []. rewrite !app_nil_r. rewrite seg_nil. pose proof (run_forward rec start _ d o _ _ _ _ FW O H). split; [lia|]. split; [constructor|exact H].
  - destruct (step_sub start t _ o cs0 v o' cs F O H B) as (g & o1 & cs1 & O1 & S & H1). cbv beta in H1.
    destruct (IHt (g :: acc) k o1 (cs0 ++ cs1)%list v o' cs ltac:(lia) H1 B) as (gs & o2 & cs2 & O2 & S2 & H2).
    exists (g :: gs), o2, (cs1 ++ cs2)%list. split; [lia|]. split; [|cbn [rev] in H2; rewrite <- !app_assoc in H2; exact H2].
    rewrite <- (seg_app d o o1 o2) by lia. now constructor.
Qed.
Lemma step_next start n k o cs0 v o' cs : 0 <= n < 2 ^ 63 -> 0 <= o <= blen d -> run rec start (Next n k) d o cs0 = Ok (v, o', cs) -> o' < blen d ->
  o + n <= o' /\ run rec start (k (seg d o (o + n))) d (o + n) cs0 = Ok (v, o', cs).
Proof.
  intros N O H B. cbn [run] in H. destruct (next_bytes d o (i64 n)) as [[x o1]|?|] eqn:Q; try discriminate H. cbn [bind] in H.
  pose proof (next_bytes_offset d o _ x o1 O Q) as [O1 _]. pose proof (run_forward rec start (k x) d o1 _ _ _ _ FW ltac:(lia) H) as O2.
  destruct (next_full d o n x o1 O L N Q ltac:(lia)) as [-> ->]. split; [lia|exact H].
Qed.
End Step.

(** What is accepted before the end of the buffer is the encoding of the value. *)
Lemma faithful_scale E c d : std_env E -> blen d < 2 ^ 63 -> forall f ts, faithful E c ts -> forall o v o' cs, 0 <= o <= blen d ->
  decode f E c d o ts = Ok (v, o', cs) -> o' < blen d -> scale true E c ts (seg d o o') v cs.
Proof.
  intros STD L. induction f as [|f IH]; intros ts F o v o' cs O H B; [discriminate H|]. pose proof (decode_forward f E) as FW.
  assert (RUN : forall cd, resolves E c ts cd -> run (decode f E) o (process E c cd) d o [] = Ok (v, o', cs)).
  { intros cd (cd0 & sub & G & I). cbn [decode] in H. rewrite G in H. cbn [bind] in H. now rewrite I in H. }
  assert (AT : forall cd, cd <> CNull -> resolves E c ts cd -> scale_at true E c cd (seg d o o') v cs -> scale true E c ts (seg d o o') v cs).
  { intros cd N R S. econstructor; [exact R|intros _ Q; contradiction|exact S]. }
  inversion F as [? cd n R I|? R|? k t R K U T|? tm R ND T|? vl R ND NE|? tm vl R CL ND T|? sub t1 t2 R SP T1 T2]; subst; apply RUN in R as H'.
  - destruct (leaf_next E c cd n I) as [k P]. rewrite P in H'.
    assert (N63 : Z.of_nat n < 2 ^ 63) by (cbn [exact_sizes In] in I; repeat match type of I with _ \/ _ => destruct I as [I|I] end; try contradiction; injection I as <- <-; reflexivity).
    destruct (step_next (decode f E) d L FW o (Z.of_nat n) k o [] v o' cs ltac:(lia) O H' B) as [O1 _].
    destruct (leaf_scale E c cd n (seg d o (o + Z.of_nat n)) I) as [g SA]; [rewrite seg_length by lia; lia|].
    assert (N : cd <> CNull) by (intros ->; cbn [exact_sizes In] in I; intuition discriminate).
    assert (SC : scale true E c ts (seg d o (o + Z.of_nat n)) g []) by (econstructor; [exact R|intros _ Q; contradiction|exact SA]).
    destruct (scale_relax E) as (RX & _ & _). destruct (seg_split d o (o + Z.of_nat n) ltac:(lia) ltac:(lia)) as [DS DL].
    pose proof (C15_decode E c ts _ g [] (firstn (Z.to_nat o) d) (skipn (Z.to_nat (o + Z.of_nat n - o)) (skipn (Z.to_nat o) d)) STD (RX _ _ _ _ _ SC)) as D. rewrite <- DS, DL in D. specialize (D L).
    assert (Q : Ok (v, o', cs) = Ok (g, o + blen (seg d o (o + Z.of_nat n)), [])) by (eapply Decodes_det; [split; [discriminate|exists (S f); exact H]|exact D]).
    injection Q as -> -> ->. unfold blen. rewrite seg_length by lia. replace (o + Z.of_nat (Z.to_nat (o + Z.of_nat n - o))) with (o + Z.of_nat n) by lia. exact SC.
  - cbn [process] in H'. destruct (step_next (decode f E) d L FW o 1 _ o [] v o' cs ltac:(lia) O H' B) as [O1 H1]. destruct (one_byte d o ltac:(lia) ltac:(lia)) as [x X]. cbv beta in H1. rewrite X in H1.
    apply (AT CEra); [discriminate|exact R|]. change (BytesToHex [x]) with (hex_encode [x]) in H1. change "00" with (hex_encode [Zb 0]) in H1. rewrite hex_byte_eq in H1.
    destruct (Ascii.eqb_spec x (Zb 0)) as [QX|N]; [rewrite QX in *; clear QX|].
    + cbn [run] in H1. injection H1 as <- <- <-. rewrite X. apply sc_era_immortal.
    + destruct (step_next (decode f E) d L FW o 1 _ (o + 1) [] v o' cs ltac:(lia) ltac:(lia) H1 B) as [O2 H2]. destruct (one_byte d (o + 1) ltac:(lia) ltac:(lia)) as [y Y]. cbv beta in H2. rewrite Y in H2. cbn [run] in H2. injection H2 as <- <- <-.
      rewrite <- (seg_app d o (o + 1)) by lia. rewrite X, Y. change (VStr (BytesToHex [x] ++ BytesToHex [y])) with (VStr (hex_encode [x; y])). now apply sc_era_mortal.
  - cbn [process] in H'. replace (0 <? k) with true in H' by lia. rewrite U in H'.
    destruct (step_repeat E c (decode f E) d FW (fun ts F => IH ts F) o t T (Z.to_nat k) [] _ o [] v o' cs O H' B) as (gs & o1 & cs1 & O1 & S & H1). cbn [rev app run] in H1. injection H1 as <- <- <-.
    apply (AT (CFixedArray k t)); [discriminate|exact R|]. now apply sc_array.
  - cbn [process] in H'. destruct (step_fields E c (decode f E) d FW (fun ts F => IH ts F) o tm [] _ o [] v o' cs T ltac:(exact ND) O H' B) as (gs & o1 & cs1 & O1 & S & H1). cbn [app run] in H1. injection H1 as <- <- <-.
    apply (AT (CStruct (Some tm))); [discriminate|exact R|]. now apply sc_struct.
  - cbn [process] in H'. unfold process_enum in H'. destruct (step_next (decode f E) d L FW o 1 _ o [] v o' cs ltac:(lia) O H' B) as [O1 H1]. destruct (one_byte d o ltac:(lia) ltac:(lia)) as [x X]. cbv beta zeta in H1. rewrite X in H1. cbn [head_u8] in H1.
    pose proof (bZ_range x) as RX. unfold nth_z in H1. replace (bZ x <? 0) with false in H1 by lia. destruct (nth_error vl (Z.to_nat (bZ x))) as [s|] eqn:NE'; [|discriminate H1].
    assert (s <> "") by (intros ->; apply NE; eapply nth_error_In; exact NE'). destruct (String.eqb_spec s ""); [contradiction|]. cbn [run] in H1. injection H1 as <- <- <-.
    apply (AT (CEnum None vl)); [discriminate|exact R|]. rewrite X, <- (head_index x). apply sc_value_list; [lia|exact NE'|assumption|intros _; eapply nodup_first; [exact ND|exact NE']].
  - cbn [process] in H'. unfold process_enum in H'. destruct (step_next (decode f E) d L FW o 1 _ o [] v o' cs ltac:(lia) O H' B) as [O1 H1]. destruct (one_byte d o ltac:(lia) ltac:(lia)) as [x X]. cbv beta zeta in H1. rewrite X in H1. cbn [head_u8] in H1. rewrite CL in H1.
    pose proof (bZ_range x) as RX. unfold nth_z in H1. replace (bZ x <? 0) with false in H1 by lia. destruct (nth_error tm (Z.to_nat (bZ x))) as [[name sub]|] eqn:NE'; [|discriminate H1].
    assert (FA : first_at (map fst tm) (Z.to_nat (bZ x))) by (eapply nodup_first; [exact ND|rewrite nth_error_map, NE'; reflexivity]).
    rewrite Forall_forall in T. specialize (T (name, sub) (nth_error_In _ _ NE')). cbn [snd] in T.
    apply (AT (CEnum (Some tm) vl)); [discriminate|exact R|]. rewrite <- (seg_app d o (o + 1)) by lia. rewrite X. rewrite <- (head_index x) at 1. cbn [app].
    inversion T as [? N1 SV TF|? rows N1 SV RO NR TF]; subst; destruct (String.eqb_spec sub ""); try contradiction; rewrite SV in H1.
    + destruct (step_sub E c (decode f E) d FW (fun ts F => IH ts F) o sub _ (o + 1) [] v o' cs TF ltac:(lia) H1 B) as (g & o1 & cs1 & O2 & S & H2). cbn [run app] in H2. injection H2 as <- <- <-. eapply sc_variant; eauto.
    + destruct (step_rows E c (decode f E) d FW (fun ts F => IH ts F) o rows [] _ (o + 1) [] v o' cs TF RO ltac:(exact NR) ltac:(lia) H1 B) as (gs & o1 & cs1 & O2 & S & H2). cbn [run app] in H2. injection H2 as <- <- <-. eapply sc_struct_variant; eauto.
  - cbn [process] in H'. destruct (step_next (decode f E) d L FW o 1 _ o [] v o' cs ltac:(lia) O H' B) as [O1 H1]. destruct (one_byte d o ltac:(lia) ltac:(lia)) as [x X]. cbv beta zeta in H1. rewrite X, SP in H1.
    apply (AT (CResult sub)); [discriminate|exact R|]. rewrite <- (seg_app d o (o + 1)) by lia. rewrite X. cbn [app].
    change (BytesToHex [x]) with (hex_encode [x]) in H1. replace (String.eqb (hex_encode [x]) "") with false in H1 by (symmetry; now apply String.eqb_neq). rewrite orb_false_r in H1.
    change "00" with (hex_encode [Zb 0]) in H1. change "01" with (hex_encode [Zb 1]) in H1. rewrite !hex_byte_eq in H1.
    destruct (Ascii.eqb_spec x (Zb 0)) as [QX|N]; [rewrite QX in *; clear QX|destruct (Ascii.eqb_spec x (Zb 1)) as [QX|N2]; [rewrite QX in *; clear QX|discriminate H1]].
    + destruct (step_sub E c (decode f E) d FW (fun ts F => IH ts F) o t1 _ (o + 1) [] v o' cs T1 ltac:(lia) H1 B) as (g & o1 & cs1 & O2 & S & H2). cbn [run app] in H2. injection H2 as <- <- <-. eapply sc_ok; eauto.
    + destruct (step_sub E c (decode f E) d FW (fun ts F => IH ts F) o t2 _ (o + 1) [] v o' cs T2 ltac:(lia) H1 B) as (g & o1 & cs1 & O2 & S & H2). cbn [run app] in H2. injection H2 as <- <- <-. eapply sc_err; eauto.
Qed.

(** ** C98 *)
(** Full claim: whatever bytes a decode accepts, encoding its value gives them
    back.  This holds for the faithful types, wherever the value stands and
    whatever follows; that something follows says that the input was not cut
    short. *)
Theorem C98_bytes_partial E c ts d o v o' cs : std_env E -> x_module c = "" -> faithful E c ts -> 0 <= o <= blen d -> blen d < 2 ^ 63 ->
  Decodes E c d o ts (Ok (v, o', cs)) -> o' < blen d -> Encodes E (x_spec c) (x_meta c) ts v (hex_encode (seg d o o')).
Proof.
  intros STD M F O L (_ & f & H) B. change (hex_encode (seg d o o')) with (BytesToHex (seg d o o')). apply (C16_encode E c ts _ v cs STD M). now apply (faithful_scale E c d STD L f).
Qed.
(** So two inputs that decode to the same value are the same bytes. *)
Theorem C98_injective_partial E c ts d1 d2 o1 o2 v e1 e2 cs1 cs2 : std_env E -> x_module c = "" -> faithful E c ts -> 0 <= o1 <= blen d1 -> blen d1 < 2 ^ 63 -> 0 <= o2 <= blen d2 -> blen d2 < 2 ^ 63 ->
  Decodes E c d1 o1 ts (Ok (v, e1, cs1)) -> e1 < blen d1 -> Decodes E c d2 o2 ts (Ok (v, e2, cs2)) -> e2 < blen d2 -> seg d1 o1 e1 = seg d2 o2 e2.
Proof.
  intros STD M F O1 L1 O2 L2 H1 B1 H2 B2. pose proof (C98_bytes_partial E c ts d1 o1 v e1 cs1 STD M F O1 L1 H1 B1) as K1. pose proof (C98_bytes_partial E c ts d2 o2 v e2 cs2 STD M F O2 L2 H2 B2) as K2.
  assert (Q : Ok (hex_encode (seg d1 o1 e1)) = Ok (hex_encode (seg d2 o2 e2))).
  { destruct K1 as (_ & f1 & K1), K2 as (_ & f2 & K2). rewrite <- (K1 (Nat.max f1 f2)), <- (K2 (Nat.max f1 f2)) by lia. reflexivity. }
  injection Q as Q. apply (f_equal HexToBytes) in Q. change (hex_encode ?x) with (BytesToHex x) in Q. rewrite !HexToBytes_hex in Q. exact Q.
Qed.

(** Other types accept several forms of one value: 02 is false, an option may
    start with 07, lengths need not be in the shortest form, a balance of all ones
    is -1 and cannot be encoded, times are cut to seconds. *)
Definition ll_env : env := Env [("u8", CU8); ("u16", CU16); ("bool", CBool); ("h160", CH160); ("option", COption ""); ("compact<u32>", CCompactU32); ("null", CNull); ("list", CVec "u8"); ("maybe", COption "u8"); ("moment", CMoment); ("balance", CBalance);
  ("kind", CEnum None ["Left"; "Right"]); ("act", CEnum (Some [("Stay", "Kind"); ("Go", "Place")]) []); ("place", CStruct (Some [("x", "u16"); ("y", "u16")])); ("path", CFixedArray 2 "Act"); ("res", CResult "Path,u8")]
  [] (fun _ => "") (fun b => b) (fun _ => None).
Lemma ll_std : std_env ll_env.
Proof. intros k cd I. cbn [In] in I. destruct I as [[= <- <-]|[[= <- <-]|[[= <- <-]|[]]]]; now split. Qed.
Ltac ll_res := eexists _, _; split; [vm_compute; reflexivity|reflexivity].
Ltac ll_dec := split; [discriminate|exists 8%nat; vm_compute; reflexivity].
Ltac ll_enc := apply (encode_enough _ _ _ _ _ 8); [vm_compute; reflexivity|discriminate].
Definition ll_ctx : ctx := Ctx 5 "" None.
Theorem C98_bytes_refuted : exists E c, std_env E /\ x_module c = "" /\
  (exists v, Decodes E c (map Zb [2; 9]) 0 "bool" (Ok (v, 1, [])) /\ Encodes E (x_spec c) (x_meta c) "bool" v "00") /\
  (exists v, Decodes E c (map Zb [7; 4; 9]) 0 "Maybe" (Ok (v, 2, [])) /\ Encodes E (x_spec c) (x_meta c) "Maybe" v "0104") /\
  (exists v, Decodes E c (map Zb [5; 0; 4; 9]) 0 "List" (Ok (v, 3, [])) /\ Encodes E (x_spec c) (x_meta c) "List" v "0404") /\
  (exists v, Decodes E c (map Zb [1; 228; 11; 84; 2; 0; 0; 0; 9]) 0 "Moment" (Ok (v, 8, [])) /\ Encodes E (x_spec c) (x_meta c) "Moment" v "8096980000000000") /\
  (exists v m, Decodes E c (repeat (Zb 255) 17) 0 "Balance" (Ok (v, 16, [])) /\ EncodesTo E (x_spec c) (x_meta c) "Balance" v (Panic m)).
Proof.
  exists ll_env, ll_ctx. split; [exact ll_std|]. split; [reflexivity|]. split; [eexists; split; [ll_dec|ll_enc]|]. split; [eexists; split; [ll_dec|ll_enc]|]. split; [eexists; split; [ll_dec|ll_enc]|].
  split; [eexists; split; [ll_dec|ll_enc]|]. eexists _, _. split; [ll_dec|ll_enc].
Qed.
(** Cut short, even a u16 is filled up with zeros. *)
Theorem C98_short_refuted : exists E c, std_env E /\ x_module c = "" /\ faithful E c "u16" /\ exists v, Decodes E c [Zb 7] 0 "u16" (Ok (v, 1, [])) /\ Encodes E (x_spec c) (x_meta c) "u16" v "0700".
Proof. exists ll_env, ll_ctx. split; [exact ll_std|]. split; [reflexivity|]. split; [apply (fa_leaf _ _ _ CU16 2); [ll_res|cbn; tauto]|]. eexists. split; [ll_dec|ll_enc]. Qed.
Example C98_example : faithful ll_env ll_ctx "Res" /\
  Decodes ll_env ll_ctx (map Zb [0; 1; 1; 2; 3; 4; 0; 1; 77]) 0 "Res" (Ok (VMap [("Ok", VSlice [VMap [("Go", VMap [("x", VU16 513); ("y", VU16 1027)])]; VMap [("Stay", VStr "Right")]])], 8, [])).
Proof.
  split; [|ll_dec]. assert (K : faithful ll_env ll_ctx "Kind") by (apply (fa_names _ _ _ ["Left"; "Right"]); [ll_res|repeat constructor; cbn; intuition discriminate|cbn; intuition discriminate]).
  assert (P : faithful ll_env ll_ctx "Place").
  { apply (fa_struct _ _ _ [("x", "u16"); ("y", "u16")]); [ll_res|repeat constructor; cbn; intuition discriminate|]. cbn [map snd]. constructor; [|constructor; [|constructor]]; (apply (fa_leaf _ _ _ CU16 2); [ll_res|cbn; tauto]). }
  assert (A : faithful ll_env ll_ctx "Act").
  { apply (fa_enum _ _ _ [("Stay", "Kind"); ("Go", "Place")] []); [ll_res|reflexivity|repeat constructor; cbn; intuition discriminate|]. constructor; [|constructor; [|constructor]]; cbn [snd]; (apply fv_one; [discriminate|reflexivity|assumption]). }
  apply (fa_result _ _ _ "Path,u8" "Path" "u8"); [ll_res|reflexivity| |apply (fa_leaf _ _ _ CU8 1); [ll_res|cbn; tauto]]. apply (fa_array _ _ _ 2 "Act"); [ll_res|lia|reflexivity|exact A].
Qed.
Print Assumptions C98_bytes_partial.
Print Assumptions C98_injective_partial.
Print Assumptions C98_bytes_refuted.
Print Assumptions C98_short_refuted.
