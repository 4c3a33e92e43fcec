(** C75: numbers given as float64, which is what JSON numbers arrive as. *)

From Verif Require Import GoBase SpecNum ProofsBase ModelTools ProofsTools ModelVal ModelFloat ModelRegistry ModelDecode ModelEncode
  ModelRegister SpecScale ProofsScale ProofsEncode ProofsApi PropInts.

(** ** IEEE 754 binary64, from the standard *)

(** The bit pattern [w] is the finite number (-1)^neg * m * 2^e. *)
Definition float_is (w : Z) (neg : bool) (m e : Z) : Prop :=
  exists x f, 0 <= f < 2 ^ 52 /\ 0 <= x < 2047 /\ w = (if neg then 2 ^ 63 else 0) + x * 2 ^ 52 + f
    /\ ((x = 0 /\ m = f /\ e = -1074) \/ (0 < x /\ m = 2 ^ 52 + f /\ e = x - 1075)).
(** [t] is the number without its fraction. *)
Definition integer_part (w t : Z) : Prop :=
  exists neg m e a, float_is w neg m e /\ 0 <= a /\ t = (if neg then - a else a)
    /\ (if 0 <=? e then a = m * 2 ^ e else a * 2 ^ (- e) <= m < (a + 1) * 2 ^ (- e)).
(** The number is the integer [t]. *)
Definition float_int (w t : Z) : Prop :=
  exists neg m e a, float_is w neg m e /\ 0 <= a /\ t = (if neg then - a else a)
    /\ (if 0 <=? e then a = m * 2 ^ e else a * 2 ^ (- e) = m).

Lemma float_int_part w t : float_int w t -> integer_part w t.
Proof.
  intros (neg & m & e & a & F & A & T & V). exists neg, m, e, a. repeat (split; [assumption|]).
  destruct (Z.leb_spec 0 e); [exact V|]. pose proof (Z.pow_pos_nonneg 2 (- e) ltac:(lia) ltac:(lia)). nia.
Qed.

(** Every integer below 2^53 is a float64: the pattern a JSON reader produces. *)
Definition float_bits (z : Z) : Z :=
  if z =? 0 then 0
  else let a := Z.abs z in
       let l := Z.log2 a in
       (if z <? 0 then 2 ^ 63 else 0) + (l + 1023) * 2 ^ 52 + (a * 2 ^ (52 - l) - 2 ^ 52).

Lemma float_bits_int z : Z.abs z < 2 ^ 53 -> float_int (float_bits z) z.
Proof.
  intros H. unfold float_bits. destruct (Z.eqb_spec z 0) as [->|Z0].
  { exists false, 0, (-1074), 0. split; [|split; [lia|split; [reflexivity|reflexivity]]].
    exists 0, 0. split; [lia|]. split; [lia|]. split; [reflexivity|]. left. repeat split. }
  cbv zeta. set (a := Z.abs z) in *. assert (A : 0 < a) by lia.
  pose proof (Z.log2_spec a A) as [L1 L2]. pose proof (Z.log2_nonneg a) as L0. set (l := Z.log2 a) in *.
  assert (L3 : l < 53) by (apply (Z.pow_lt_mono_r_iff 2); lia).
  rewrite Z.pow_succ_r in L2 by lia.
  assert (PP : 2 ^ l * 2 ^ (52 - l) = 2 ^ 52) by (rewrite <- Z.pow_add_r by lia; f_equal; lia).
  pose proof (Z.pow_pos_nonneg 2 (52 - l) ltac:(lia) ltac:(lia)) as P0.
  exists (z <? 0), (a * 2 ^ (52 - l)), (l - 52), a.
  split; [|split; [lia|split; [destruct (Z.ltb_spec z 0); lia|]]].
  - exists (l + 1023), (a * 2 ^ (52 - l) - 2 ^ 52). split; [nia|]. split; [lia|]. split; [reflexivity|]. right. lia.
  - destruct (Z.leb_spec 0 (l - 52)).
    + assert (l = 52) as -> by lia. change (2 ^ (52 - 52)) with 1. lia.
    + now replace (- (l - 52)) with (52 - l) by lia.
Qed.

(** ** The model against it *)

Lemma float_fields w neg m e : float_is w neg m e ->
  f64_of_bits w = Fin neg m e /\ 0 <= m < 2 ^ 53 /\ (2 ^ 52 <= m \/ e = -1074).
Proof.
  intros (x & f & F & X & W & C). split; [|destruct C as [(-> & -> & ->)|(P & -> & ->)]; lia].
  unfold f64_of_bits. cbv zeta.
  assert (Wf : w mod 2 ^ 52 = f).
  { replace w with (f + ((if neg then 2048 else 0) + x) * 2 ^ 52) by (destruct neg; lia).
    rewrite Z.mod_add by lia. now apply Z.mod_small. }
  assert (Wx : (w / 2 ^ 52) mod 2048 = x).
  { replace w with (f + ((if neg then 2048 else 0) + x) * 2 ^ 52) by (destruct neg; lia).
    rewrite Z.div_add by lia. rewrite Z.div_small by exact F.
    replace (0 + ((if neg then 2048 else 0) + x)) with (x + (if neg then 1 else 0) * 2048) by (destruct neg; lia).
    rewrite Z.mod_add by lia. apply Z.mod_small. lia. }
  rewrite Wf, Wx.
  replace (2 ^ 63 <=? w) with neg by (destruct neg; symmetry; [apply Z.leb_le|apply Z.leb_gt]; lia).
  replace (x =? 2047) with false by (symmetry; lia).
  destruct C as [(-> & -> & ->)|(P & -> & ->)].
  - reflexivity.
  - replace (x =? 0) with false by (symmetry; lia). f_equal. lia.
Qed.

Lemma part_trunc w t : integer_part w t -> exists neg m e,
  f64_of_bits w = Fin neg m e /\ f64_trunc neg m e = t /\ 0 <= m < 2 ^ 53 /\ (2 ^ 52 <= m \/ e = -1074).
Proof.
  intros (neg & m & e & a & F & A & -> & V). destruct (float_fields _ _ _ _ F) as (Ef & M & N).
  exists neg, m, e. split; [exact Ef|]. split; [|now split]. unfold f64_trunc.
  enough ((if 0 <=? e then m * 2 ^ e else m / 2 ^ (- e)) = a) as -> by reflexivity.
  destruct (Z.leb_spec 0 e); [now symmetry|].
  pose proof (Z.pow_pos_nonneg 2 (- e) ltac:(lia) ltac:(lia)). symmetry.
  apply (Z.div_unique m _ a (m - a * 2 ^ (- e))); [left; lia|lia].
Qed.

Lemma cvt_part bits w t : integer_part w t -> - 2 ^ (bits - 1) <= t < 2 ^ (bits - 1) -> cvt bits (f64_of_bits w) = t.
Proof.
  intros I R. destruct (part_trunc w t I) as (neg & m & e & -> & T & _). unfold cvt. cbv zeta. rewrite T.
  replace ((- 2 ^ (bits - 1) <=? t) && (t <? 2 ^ (bits - 1))) with true; [reflexivity|].
  symmetry. apply andb_true_iff. split; [apply Z.leb_le|apply Z.ltb_lt]; lia.
Qed.
Lemma u64_part w t : integer_part w t -> 0 <= t < 2 ^ 64 -> f64_u64 w = t.
Proof.
  intros I R. pose proof (cvt_part 64 w t I) as C. unfold f64_u64.
  destruct (part_trunc w t I) as (neg & m & e & Ew & T & _). rewrite Ew in *. cbv zeta. rewrite T.
  change (64 - 1) with 63 in C.
  destruct (Z.ltb_spec t (2 ^ 63)).
  - rewrite C by lia. unfold u64, two64. apply Z.mod_small. lia.
  - replace (t <? 2 ^ 64) with true by (symmetry; apply Z.ltb_lt; lia). reflexivity.
Qed.

Lemma dec_int_neg c k : dec_int (- c) k = - dec_int c k.
Proof. unfold dec_int. destruct (Z.leb_spec 0 k); [lia|]. apply Z.quot_opp_l. apply Z.pow_nonzero; lia. Qed.

(** An accepted digit string is close enough to have the same integer part. *)
Lemma accept_part m W d k : 0 < m -> 0 < W -> 0 <= d ->
  let P := 10 ^ Z.max k 0 in let Q := 10 ^ Z.max (- k) 0 in
  (d * (4 * W * P) = 4 * m * Q \/
   ((4 * m * Q) mod (4 * W * P) <> 0 /\ (4 * m - 2) * Q <= d * (4 * W * P) <= (4 * m + 2) * Q)) ->
  dec_int d k = m / W.
Proof.
  intros Hm HW Hd P Q0 H. unfold dec_int.
  pose proof (Z.div_mod m W ltac:(lia)) as DM. pose proof (Z.mod_pos_bound m W HW) as MB.
  set (f := m / W) in *. set (g := m mod W) in *.
  assert (F0 : 0 <= f) by (apply Z.div_pos; lia).
  destruct (Z.leb_spec 0 k).
  - subst P Q0. rewrite (Z.max_r (- k) 0) in H by lia. rewrite (Z.max_l k 0) in H by lia. change (10 ^ 0) with 1 in H.
    pose proof (Z.pow_pos_nonneg 10 k ltac:(lia) ltac:(lia)) as P0. set (P := 10 ^ k) in *. clearbody P.
    assert (Eq : W * (d * P) = m) by (destruct H as [H|[_ H]]; nia).
    assert (W * (d * P - f) = g) by lia. nia.
  - subst P Q0. rewrite (Z.max_l (- k) 0) in H by lia. rewrite (Z.max_r k 0) in H by lia. change (10 ^ 0) with 1 in H.
    pose proof (Z.pow_pos_nonneg 10 (- k) ltac:(lia) ltac:(lia)) as P0. set (Q := 10 ^ (- k)) in *. clearbody Q.
    rewrite Z.quot_div_nonneg by lia. symmetry.
    assert (B : f * Q <= d < (f + 1) * Q).
    { destruct H as [H|[N H]].
      - assert (D : d * W = m * Q) by lia. clear H. split; [apply (Z.mul_le_mono_pos_r _ _ W HW)|apply (Z.mul_lt_mono_pos_r W _ _ HW)]; nia.
      - assert (G : 0 < g).
        { destruct (Z.eq_dec g 0) as [G|]; [|lia]. exfalso. apply N.
          replace (4 * m * Q) with (f * Q * (4 * W * 1)) by nia. apply Z.mod_mul. lia. }
        split; [apply (Z.mul_le_mono_pos_r _ _ W HW)|apply (Z.mul_lt_mono_pos_r W _ _ HW)]; nia. }
    apply (Z.div_unique d Q f (d - f * Q)); [left; lia|lia].
Qed.

Lemma shortest_part n m e k : 0 < m -> e <= 0 ->
  dec_int (fst (shortest_at n m e k)) (snd (shortest_at n m e k)) = m / 2 ^ (- e).
Proof.
  intros Hm He. revert k. induction n as [|n IH]; intros k.
  - cbn [shortest_at]. destruct (Z.leb_spec 0 e).
    + assert (e = 0) as -> by lia. cbn [fst snd]. unfold dec_int. change (0 <=? 0) with true. cbv iota.
      change (- 0) with 0. change (2 ^ 0) with 1. change (10 ^ 0) with 1. rewrite Z.div_1_r. lia.
    + cbn [fst snd]. unfold dec_int. replace (0 <=? e) with false by (symmetry; lia).
      pose proof (Z.pow_pos_nonneg 2 (- e) ltac:(lia) ltac:(lia)). pose proof (Z.pow_pos_nonneg 5 (- e) ltac:(lia) ltac:(lia)).
      change 10 with (2 * 5). rewrite Z.pow_mul_l. rewrite Z.quot_div_nonneg by nia. rewrite Z.div_mul_cancel_r by lia. reflexivity.
  - cbn [shortest_at]. rewrite (Z.max_r e 0) by lia. rewrite (Z.max_l (- e) 0) by lia. change (2 ^ 0) with 1.
    rewrite !Z.mul_1_r. pose proof (accept_part m (2 ^ (- e))) as AP.
    pose proof (Z.pow_pos_nonneg 2 (- e) ltac:(lia) ltac:(lia)) as W0. set (W := 2 ^ (- e)) in *. clearbody W.
    pose proof (Z.pow_pos_nonneg 10 (Z.max k 0) ltac:(lia) ltac:(lia)) as P0.
    pose proof (Z.pow_pos_nonneg 10 (Z.max (- k) 0) ltac:(lia) ltac:(lia)) as Q0.
    assert (A : forall d, 0 <= d ->
      (d * (4 * W * 10 ^ Z.max k 0) = 4 * m * 10 ^ Z.max (- k) 0 \/
       ((4 * m * 10 ^ Z.max (- k) 0) mod (4 * W * 10 ^ Z.max k 0) <> 0 /\
        (4 * m - 2) * 10 ^ Z.max (- k) 0 <= d * (4 * W * 10 ^ Z.max k 0) <= (4 * m + 2) * 10 ^ Z.max (- k) 0)) ->
      dec_int d k = m / W).
    { intros d Hd H. now apply AP. }
    clear AP. set (P := 10 ^ Z.max k 0) in *. set (Q := 10 ^ Z.max (- k) 0) in *. clearbody P Q.
    assert (D0 : 0 < 4 * W * P) by nia. set (den := 4 * W * P) in *. clearbody den.
    assert (N0 : 0 < 4 * m * Q) by nia.
    pose proof (Z.div_mod (4 * m * Q) den ltac:(lia)) as DM. pose proof (Z.mod_pos_bound (4 * m * Q) den D0) as MB.
    assert (Dn : 0 <= 4 * m * Q / den) by (apply Z.div_pos; lia).
    set (down := 4 * m * Q / den) in *. set (r := (4 * m * Q) mod den) in *. clearbody down r.
    set (c := if (m =? 2 ^ 52) && (-1074 <? e) then 1 else 2). assert (C : 1 <= c <= 2) by (subst c; destruct (_ && _); lia). clearbody c.
    destruct (Z.eqb_spec r 0) as [->|R0]; [cbn [fst snd]; apply A; [exact Dn|left; lia]|].
    assert (OD : (if Z.even m then (4 * m - c) * Q <=? down * den else (4 * m - c) * Q <? down * den) = true -> dec_int down k = m / W).
    { intros O. apply A; [exact Dn|right]. split; [exact R0|]. destruct (Z.even m); [apply Z.leb_le in O|apply Z.ltb_lt in O]; nia. }
    assert (OU : (if Z.even m then (down + 1) * den <=? (4 * m + 2) * Q else (down + 1) * den <? (4 * m + 2) * Q) = true -> dec_int (down + 1) k = m / W).
    { intros O. apply A; [lia|right]. split; [exact R0|]. destruct (Z.even m); [apply Z.leb_le in O|apply Z.ltb_lt in O]; nia. }
    destruct (if Z.even m then (4 * m - c) * Q <=? down * den else (4 * m - c) * Q <? down * den);
      destruct (if Z.even m then (down + 1) * den <=? (4 * m + 2) * Q else (down + 1) * den <? (4 * m + 2) * Q); cbn [andb fst snd].
    + destruct (_ || _); auto.
    + auto.
    + auto.
    + apply IH.
Qed.

Lemma new_from_float w t : integer_part w t -> Z.abs t < 2 ^ 53 -> exists c k, NewFromFloat w = Ok (c, k) /\ dec_int c k = t.
Proof.
  intros I B. destruct (part_trunc w t I) as (neg & m & e & Ew & T & M & N). unfold NewFromFloat. rewrite Ew.
  destruct (Z.eqb_spec m 0) as [->|M0].
  { exists 0, 0. split; [reflexivity|]. rewrite <- T. unfold f64_trunc.
    destruct (Z.leb_spec 0 e); [rewrite Z.mul_0_l|rewrite Z.div_0_l by (apply Z.pow_nonzero; lia)]; now destruct neg. }
  assert (He : e <= 0).
  { destruct N as [N| ->]; [|lia]. destruct (Z.le_gt_cases e 0) as [|G]; [assumption|exfalso].
    assert (2 ^ 1 <= 2 ^ e) by (apply Z.pow_le_mono_r; lia). unfold f64_trunc in T.
    replace (0 <=? e) with true in T by (symmetry; lia). cbv zeta in T.
    assert (2 ^ 52 * 2 ^ 1 <= m * 2 ^ e) by (apply Z.mul_le_mono_nonneg; lia). destruct neg; lia. }
  pose proof (shortest_part 30 m e ((Z.log2 m + e + 1) * 30103 / 100000 + 2) ltac:(lia) He) as SP.
  destruct (shortest_at 30 m e _) as [d k]. cbn [fst snd] in SP.
  exists (if neg then - d else d), k. split; [reflexivity|]. rewrite <- T. unfold f64_trunc.
  assert (Tr : (if 0 <=? e then m * 2 ^ e else m / 2 ^ (- e)) = m / 2 ^ (- e)).
  { destruct (Z.leb_spec 0 e); [|reflexivity]. assert (e = 0) as -> by lia. change (2 ^ 0) with 1. change (2 ^ (- 0)) with 1. now rewrite Z.div_1_r, Z.mul_1_r. }
  rewrite Tr. destruct neg; [rewrite dec_int_neg|]; now rewrite SP.
Qed.

(** ** C75 *)

(** Unsigned integers: the bytes of the integer part. *)
Theorem C75_unsigned E spec meta ts cd n w t : std_env E -> resolves E (Ctx spec "" meta) ts cd ->
  In (cd, n) [(CU8, 1%nat); (CU16, 2%nat); (CU32, 4%nat); (CU64, 8%nat)] ->
  integer_part w t -> 0 <= t < 256 ^ Z.of_nat n ->
  Encodes E spec meta ts (VF64 w) (BytesToHex (le_bytes n t)).
Proof.
  intros S R I F Hz. unfold BytesToHex.
  destruct I as [[= <- <-]|[[= <- <-]|[[= <- <-]|[[= <- <-]|[]]]]];
    (eapply Encodes_hex; [exact S|exact R|discriminate|]); intros rec; cbn [norm encode_codec].
  - unfold encode_u8, f64_int. rewrite (cvt_part 64 w t F) by (change (2 ^ (64 - 1)) with 9223372036854775808; cbn in Hz; lia). reflexivity.
  - unfold encode_u16, f64_u16. rewrite (cvt_part 32 w t F) by (change (2 ^ (32 - 1)) with 2147483648; cbn in Hz; lia).
    unfold u16. rewrite Z.mod_small by (cbn in Hz; lia). reflexivity.
  - unfold encode_u32, f64_u32. rewrite (cvt_part 64 w t F) by (change (2 ^ (64 - 1)) with 9223372036854775808; cbn in Hz; lia).
    unfold u32. rewrite Z.mod_small by (cbn in Hz; lia). reflexivity.
  - unfold encode_u64. rewrite (u64_part w t F) by (cbn in Hz; lia). reflexivity.
Qed.

Lemma compact_dec_int c k t : dec_int c k = t -> compact_encode_dec c k = compact_encode_dec t 0.
Proof.
  intros H. assert (Z0 : dec_int t 0 = t) by (unfold dec_int; change (0 <=? 0) with true; cbv iota; lia).
  unfold compact_encode_dec, dec_intpart. now rewrite H, Z0.
Qed.

(** Compact<...>: the compact form of the integer part, below 2^53. *)
Theorem C75_compact E spec meta ts sub w t : std_env E -> resolves E (Ctx spec "" meta) ts (CCompact sub) ->
  integer_part w t -> 0 <= t < 2 ^ 53 -> Encodes E spec meta ts (VF64 w) (BytesToHex (compact t)).
Proof.
  intros S R F Hz. destruct (new_from_float w t F ltac:(lia)) as (c & k & NF & DI).
  eapply Encodes_hex; [exact S|exact R|discriminate|]. intros rec. cbn [norm encode_codec]. unfold encode_compact.
  rewrite NF. cbn [bind]. rewrite (compact_dec_int c k t DI). now rewrite compact_encode_spec by lia.
Qed.
Theorem C75_compact_u32 E spec meta ts w t : std_env E -> resolves E (Ctx spec "" meta) ts CCompactU32 ->
  integer_part w t -> 0 <= t < 2 ^ 30 -> Encodes E spec meta ts (VF64 w) (BytesToHex (compact t)).
Proof.
  intros S R F Hz. eapply Encodes_hex; [exact S|exact R|discriminate|]. intros rec. cbn [norm encode_codec]. unfold encode_compact_u32, f64_int.
  rewrite (cvt_part 64 w t F) by (change (2 ^ (64 - 1)) with 9223372036854775808; lia). now rewrite compact_u32_bytes_spec by lia.
Qed.

(** i128 and i256: as the same number given as *big.Int. *)
Theorem C75_wide E spec meta ts n w t : std_env E -> resolves E (Ctx spec "" meta) ts (CIntFixed n) -> In n [16; 32] ->
  integer_part w t -> Z.abs t < 2 ^ 53 ->
  Encodes E spec meta ts (VF64 w) (BytesToHex (rev (le_bytes (Z.to_nat n) t)))
  /\ Encodes E spec meta ts (VBig t) (BytesToHex (rev (le_bytes (Z.to_nat n) t))).
Proof.
  intros S R Hn F Hz. destruct (new_from_float w t F Hz) as (c & k & NF & DI).
  assert (B : - 2 ^ (8 * n - 1) <= t < 2 ^ (8 * n - 1)).
  { assert (2 ^ 53 < 2 ^ (8 * n - 1)) by (apply Z.pow_lt_mono_r; cbn in Hn; lia). lia. }
  pose proof (C06_encode_wide_big_endian E spec meta ts n t (VBig t) S R Hn ltac:(left; reflexivity) B) as Hb.
  split; [|exact Hb]. pose proof Hb as (NO & f & Hf). split; [discriminate|]. exists (Datatypes.S f). intros f' L.
  specialize (Hf f' ltac:(lia)). destruct f' as [|f']; [lia|]. cbn [encode] in Hf |- *.
  destruct (equal_fold ts "Null"); [exact Hf|].
  destruct R as (cd0 & sub & G & I). cbn in G. rewrite G in *. cbn [bind] in *. rewrite I in *. cbn [encode_codec] in *.
  unfold encode_int_fixed in *. replace (n <? 16) with false in * by (symmetry; cbn in Hn; lia). rewrite NF. cbn [bind]. now rewrite DI.
Qed.

(** So a whole JSON number below 2^53 is encoded as that number. *)
Theorem C75_integers E spec meta ts z : std_env E -> Z.abs z < 2 ^ 53 ->
  float_int (float_bits z) z
  /\ (forall cd n, resolves E (Ctx spec "" meta) ts cd -> In (cd, n) [(CU8, 1%nat); (CU16, 2%nat); (CU32, 4%nat); (CU64, 8%nat)] ->
        0 <= z < 256 ^ Z.of_nat n -> Encodes E spec meta ts (VF64 (float_bits z)) (BytesToHex (le_bytes n z)))
  /\ (forall sub, resolves E (Ctx spec "" meta) ts (CCompact sub) -> 0 <= z ->
        Encodes E spec meta ts (VF64 (float_bits z)) (BytesToHex (compact z)))
  /\ (resolves E (Ctx spec "" meta) ts CCompactU32 -> 0 <= z < 2 ^ 30 ->
        Encodes E spec meta ts (VF64 (float_bits z)) (BytesToHex (compact z))).
Proof.
  intros S B. pose proof (float_bits_int z B) as I. pose proof (float_int_part _ _ I) as F.
  split; [exact I|split; [|split]].
  - intros cd n R Hi Hz. exact (C75_unsigned E spec meta ts cd n _ z S R Hi F Hz).
  - intros sub R Hz. apply (C75_compact E spec meta ts sub _ z S R F). lia.
  - intros R Hz. exact (C75_compact_u32 E spec meta ts _ z S R F Hz).
Qed.

(** i8, i16, i32 and i64 do not convert: they write the low bytes of the bit
    pattern ... *)
Theorem C75_signed_pattern E spec meta ts n w : std_env E -> resolves E (Ctx spec "" meta) ts (CIntFixed n) -> In n [1; 2; 4; 8] ->
  Encodes E spec meta ts (VF64 w) (BytesToHex (le_bytes (Z.to_nat n) w)).
Proof.
  intros S R Hn. eapply Encodes_hex; [exact S|exact R|discriminate|]. intros rec. cbn [norm encode_codec].
  unfold encode_int_fixed. replace (n <? 16) with true by (symmetry; cbn in Hn; lia). cbn [fixed_bytes]. unfold BytesToHex. do 2 f_equal.
  destruct Hn as [<-|[<-|[<-|[<-|[]]]]]; reflexivity.
Qed.
Lemma le_bytes_zero n : le_bytes n 0 = repeat (Zb 0) n.
Proof. induction n as [|n IH]; [reflexivity|]. cbn [le_bytes repeat]. change (0 / 256) with 0. now rewrite IH. Qed.
(** ... so every number up to a million becomes 0. *)
Theorem C75_signed_refuted E spec meta ts n z : std_env E -> resolves E (Ctx spec "" meta) ts (CIntFixed n) -> In n [1; 2; 4] ->
  z <> 0 -> Z.abs z < 2 ^ 20 -> - 2 ^ (8 * n - 1) <= z < 2 ^ (8 * n - 1) ->
  float_int (float_bits z) z
  /\ Encodes E spec meta ts (VF64 (float_bits z)) (BytesToHex (le_bytes (Z.to_nat n) 0))
  /\ BytesToHex (le_bytes (Z.to_nat n) 0) <> BytesToHex (le_bytes (Z.to_nat n) z).
Proof.
  intros S R Hn Z0 B Hz. split; [apply float_bits_int; lia|]. split.
  - assert (D : exists q, float_bits z = q * 2 ^ 32).
    { unfold float_bits. replace (z =? 0) with false by (symmetry; lia). cbv zeta.
      set (a := Z.abs z) in *. assert (A : 0 < a) by lia.
      pose proof (Z.log2_spec a A) as [L1 L2]. pose proof (Z.log2_nonneg a) as L0. set (l := Z.log2 a) in *.
      assert (L3 : l < 20) by (apply (Z.pow_lt_mono_r_iff 2); lia).
      replace (2 ^ (52 - l)) with (2 ^ (20 - l) * 2 ^ 32) by (rewrite <- Z.pow_add_r by lia; f_equal; lia).
      exists ((if z <? 0 then 2 ^ 31 else 0) + (l + 1023) * 2 ^ 20 + (a * 2 ^ (20 - l) - 2 ^ 20)). destruct (z <? 0); lia. }
    destruct D as [q D].
    pose proof (C75_signed_pattern E spec meta ts n (float_bits z) S R ltac:(cbn in Hn |- *; tauto)) as P.
    replace (le_bytes (Z.to_nat n) 0) with (le_bytes (Z.to_nat n) (float_bits z)); [exact P|].
    rewrite D, <- (le_bytes_mod _ (q * 2 ^ 32)). f_equal.
    destruct Hn as [<-|[<-|[<-|[]]]]; cbn; lia.
  - unfold BytesToHex. intros H. apply hex_encode_inj in H.
    rewrite <- (le_bytes_mod _ z) in H. apply (f_equal le_val) in H.
    destruct Hn as [<-|[<-|[<-|[]]]]; rewrite !le_val_bytes_small in H by (cbn; lia); cbn in H, Hz; lia.
Qed.

(** The rest of what goes wrong.  (Results outside the target's range are those
    of amd64; the language leaves them open.) *)
Theorem C75_range_refuted :
  let E := reg_env base_reg in
  (* 2^62 as a compact number: written as 4611686018427388000 *)
  (float_int 4886405595696988160 (2 ^ 62)
    /\ Encodes E (-1) None "Compact<u64>" (VF64 4886405595696988160) (BytesToHex (compact 4611686018427388000)))
  (* 256 as u8 is 0, -1 as u32 is 4294967295 *)
  /\ (float_int 4643211215818981376 256 /\ Encodes E (-1) None "u8" (VF64 4643211215818981376) "00")
  /\ (float_int 13830554455654793216 (-1) /\ Encodes E (-1) None "u32" (VF64 13830554455654793216) "ffffffff")
  (* 2^30 as Compact<u32>: nothing is written *)
  /\ (float_int 4742290407621132288 (2 ^ 30) /\ Encodes E (-1) None "Compact<u32>" (VF64 4742290407621132288) "")
  (* u128, the type of balances, and u256 refuse every float64, also 1 *)
  /\ (float_int 4607182418800017408 1
      /\ exists m1 m2, EncodesTo E (-1) None "u128" (VF64 4607182418800017408) (Panic m1)
                       /\ EncodesTo E (-1) None "u256" (VF64 4607182418800017408) (Panic m2)).
Proof.
  assert (FI : forall (neg : bool) (x f a w : Z), (0 <= f < 2 ^ 52 /\ 0 < x < 2047 /\ w = (if neg then 2 ^ 63 else 0) + x * 2 ^ 52 + f) ->
    0 <= a -> (if 0 <=? x - 1075 then a = (2 ^ 52 + f) * 2 ^ (x - 1075) else a * 2 ^ (- (x - 1075)) = 2 ^ 52 + f) ->
    float_int w (if neg then - a else a)).
  { intros neg x f a w (F & X & W) A V. exists neg, (2 ^ 52 + f), (x - 1075), a. split; [exists x, f; split; [exact F|split; [lia|split; [exact W|right; lia]]]|split; [exact A|split; [reflexivity|exact V]]]. }
  cbv zeta. repeat match goal with |- _ /\ _ => split end.
  all: try (apply (encode_enough _ _ _ _ _ 3); [vm_compute; reflexivity|discriminate]).
  - apply (FI false 1085 0 (2 ^ 62)); vm_compute; intuition congruence.
  - apply (FI false 1031 0 256); vm_compute; intuition congruence.
  - apply (FI true 1023 0 1); vm_compute; intuition congruence.
  - apply (FI false 1053 0 (2 ^ 30)); vm_compute; intuition congruence.
  - apply (FI false 1023 0 1); vm_compute; intuition congruence.
  - do 2 eexists. split; apply (encode_enough _ _ _ _ _ 3); try (vm_compute; reflexivity); discriminate.
Qed.

(** Non-vacuity: 1.5, -7.25 and 123456789 with the types they are given to. *)
Example C75_nonvacuous :
  let E := reg_env base_reg in
  integer_part 4609434218613702656 1 /\ Encodes E (-1) None "u8" (VF64 4609434218613702656) "01"
  /\ Encodes E (-1) None "Compact<u128>" (VF64 (float_bits 123456789)) (BytesToHex (compact 123456789))
  /\ Encodes E (-1) None "Compact<u32>" (VF64 (float_bits 123456789)) (BytesToHex (compact 123456789))
  /\ Encodes E (-1) None "i128" (VF64 13843220829606772736) "fffffffffffffffffffffffffffffff9"
  /\ integer_part 13843220829606772736 (-7).
Proof.
  cbv zeta. repeat match goal with |- _ /\ _ => split end.
  all: try (apply (encode_enough _ _ _ _ _ 3); [vm_compute; reflexivity|discriminate]).
  - exists false, (3 * 2 ^ 51), (-52), 1. split; [|vm_compute; intuition congruence].
    exists 1023, (2 ^ 51). vm_compute. intuition congruence.
  - exists true, (29 * 2 ^ 48), (-50), 7. split; [|vm_compute; intuition congruence].
    exists 1025, (13 * 2 ^ 48). vm_compute. intuition congruence.
Qed.

Print Assumptions C75_unsigned.
Print Assumptions C75_compact.
Print Assumptions C75_compact_u32.
Print Assumptions C75_wide.
Print Assumptions C75_integers.
Print Assumptions C75_signed_pattern.
Print Assumptions C75_signed_refuted.
Print Assumptions C75_range_refuted.
