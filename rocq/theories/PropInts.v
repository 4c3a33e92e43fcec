(** Fixed-width integers: C04, C05, C06 and C47. *)

From Verif Require Import GoBase SpecNum ProofsBase ModelUint128 SpecUint128 ProofsUint128 ModelTools ProofsTools ModelVal ModelJson
  ModelRegistry ModelDecode ModelEncode ModelRegister ProofsRun SpecScale ProofsReads ProofsScale ProofsEncode ProofsApi.

(** ** C04: unsigned integers.
    [uint_repr cd n z v]: type [cd] is [n] bytes wide and [v] is the Go value
    that stands for [z] in a decode result. *)
Inductive uint_repr : codec -> nat -> Z -> val -> Prop :=
| ur_u8 z : uint_repr CU8 1 z (VInt z)
| ur_u16 z : uint_repr CU16 2 z (VU16 z)
| ur_u32 z : uint_repr CU32 4 z (VU32 z)
| ur_u64 z : uint_repr CU64 8 z (VU64 z)
| ur_u128 z s : is_numeral s z -> uint_repr CU128 16 z (VStr s)
| ur_u256 z : uint_repr CU256 32 z (VDec z 0).

(** [uint_input cd n z v]: the Go values Encode accepts for the number [z]. *)
Inductive uint_input : codec -> nat -> Z -> val -> Prop :=
| ui_u8 z v : In v [VInt z; VU32 z; VI64 z; VU16 z; VU8 z] -> uint_input CU8 1 z v
| ui_u16 z v : In v [VInt z; VU32 z; VI64 z; VU16 z] -> uint_input CU16 2 z v
| ui_u32 z v : In v [VInt z; VU32 z] -> uint_input CU32 4 z v
| ui_u64 z v : In v [VInt z; VU32 z; VU64 z] -> uint_input CU64 8 z v
| ui_u128 z v : In v [VInt z; VI64 z; VBig z] -> uint_input CU128 16 z v
| ui_u128_text z s : is_numeral s z -> uint_input CU128 16 z (VStr s)
| ui_u256 z : uint_input CU256 32 z (VBig z)
| ui_dec cd n z c e : In (cd, n) [(CU8, 1%nat); (CU16, 2%nat); (CU32, 4%nat); (CU64, 8%nat); (CU128, 16%nat); (CU256, 32%nat)] ->
    dec_is c e z -> uint_input cd n z (VDec c e).

Theorem C04_decode E c ts cd n z v pre tl : resolves E c ts cd -> uint_repr cd n z v -> 0 <= z < 256 ^ Z.of_nat n ->
  blen (pre ++ le_bytes n z ++ tl) < 2 ^ 63 ->
  Decodes E c (pre ++ le_bytes n z ++ tl) (blen pre) ts (Ok (v, blen pre + Z.of_nat n, [])).
Proof.
  intros R U Hz L. rewrite <- (blen_le_bytes n z).
  destruct U as [z|z|z|z|z s N|z].
  - eapply Decodes_next; [exact R|reflexivity|reflexivity| |exact L]. cbn [le_bytes head_u8]. now rewrite bZ_Zb_small by (cbn in Hz; lia).
  - eapply Decodes_next; [exact R|reflexivity|reflexivity| |exact L]. cbv beta. now rewrite le_uint_bytes by exact Hz.
  - eapply Decodes_next; [exact R|reflexivity|reflexivity| |exact L]. cbv beta. now rewrite le_uint_bytes by exact Hz.
  - eapply Decodes_next; [exact R|reflexivity|reflexivity| |exact L]. cbv beta. now rewrite le_uint_bytes by exact Hz.
  - eapply Decodes_next; [exact R|reflexivity|reflexivity| |exact L]. cbv beta.
    rewrite justify16 by (rewrite le_bytes_length; lia). rewrite le_val_bytes_small by exact Hz. cbv zeta.
    destruct (FromBytes_le z Hz) as (u & -> & W & V). rewrite String_itoa, V by exact W. now rewrite (numeral_itoa s z N).
  - eapply Decodes_next; [exact R|reflexivity|reflexivity| |exact L]. cbv beta.
    rewrite ReverseBytes_even by (now rewrite le_bytes_length). rewrite U256_hex.
    destruct (rev (le_bytes 32 z)) as [|x l] eqn:RV.
    { apply (f_equal (@List.length ascii)) in RV. rewrite rev_length, le_bytes_length in RV. discriminate. }
    rewrite <- RV, rev_involutive, le_val_bytes_small by exact Hz. reflexivity.
Qed.

Lemma le_bytes_wrap n w z : 0 < w -> w = 256 ^ Z.of_nat n -> le_bytes n (z mod w) = le_bytes n z.
Proof. intros _ ->. apply le_bytes_mod. Qed.
Lemma i64_mod w z : (two64 mod w = 0) -> 0 < w -> i64 z mod w = z mod w.
Proof.
  intros D W. apply Z.mod_divide in D; [|lia]. destruct D as [k D]. unfold i64.
  pose proof (Z.div_mod (z + two63) two64 ltac:(unfold two64; lia)) as M.
  replace ((z + two63) mod two64 - two63) with (z + (- ((z + two63) / two64) * k) * w); [now rewrite Z.mod_add by lia|].
  nia.
Qed.
Lemma le_bytes_i64 n z : (n <= 8)%nat -> le_bytes n (i64 z) = le_bytes n z.
Proof.
  intros H. rewrite <- (le_bytes_mod n (i64 z)), <- (le_bytes_mod n z). f_equal. apply i64_mod; [|apply pow256_pos].
  do 9 (destruct n as [|n]; [reflexivity|]). lia.
Qed.

Theorem C04_encode E spec meta ts cd n z v : std_env E -> resolves E (Ctx spec "" meta) ts cd -> uint_input cd n z v ->
  0 <= z < 256 ^ Z.of_nat n -> Encodes E spec meta ts v (BytesToHex (le_bytes n z)).
Proof.
  intros S R U Hz.
  assert (P : forall z, 0 <= z < 2 ^ 128 -> (u <- FromBig z ;; Ok (BytesToHex (PutBytes u))) = Ok (hex_encode (le_bytes 16 z))).
  { intros x Hx. destruct (FromBig_ok x Hx) as (u & -> & W & V). cbn [bind]. now rewrite PutBytes_spec, V by exact W. }
  assert (B : forall x, 0 <= x < 2 ^ 256 ->
    Ok (BytesToHex (ReverseBytes (HexToBytes (right_justify0 (hex_text x) 64)))) = Ok (hex_encode (le_bytes 32 x))).
  { intros x Hx. rewrite <- encode_u256_spec by exact Hx. unfold encode_u256, dec_int. change (0 <=? 0) with true. cbv iota.
    change (10 ^ 0) with 1. now rewrite Z.mul_1_r. }
  destruct U as [z v I|z v I|z v I|z v I|z v I|z s N|z|cd n z c e I D];
    [| | | | | | |apply dec_int_is in D; cbn [In] in I;
      destruct I as [I|[I|[I|[I|[I|[I|[]]]]]]]; injection I as <- <-];
    (eapply Encodes_hex; [exact S|exact R|discriminate|]); intros rec; cbn [In] in *;
    repeat match goal with H : _ \/ _ |- _ => destruct H as [<-|H] | H : False |- _ => destruct H end;
    cbn [norm encode_codec encode_u8 encode_u16 encode_u32 encode_u64 encode_u128 encode_u256];
    unfold le_hex, U8Encode, u16, u32, u64, BytesToHex, dec_intpart; rewrite ?D;
    try (rewrite le_bytes_wrap by reflexivity); rewrite ?le_bytes_i64 by lia; try reflexivity;
    try (apply P; exact Hz); try (apply B; exact Hz).
  - rewrite (dec_of_numeral s z N). rewrite (dec_int_is z 0 z) by (unfold dec_is; cbn; lia). apply P. exact Hz.
  - change [Zb (i64 z)] with (le_bytes 1 (i64 z)). now rewrite le_bytes_i64 by lia.
Qed.

(** Both directions together: every [n] bytes decode to a value that encodes to
    the same bytes. *)
Theorem C04_roundtrip E spec meta ts cd n b : std_env E -> resolves E (Ctx spec "" meta) ts cd ->
  In (cd, n) [(CU8, 1%nat); (CU16, 2%nat); (CU32, 4%nat); (CU64, 8%nat); (CU128, 16%nat); (CU256, 32%nat)] -> List.length b = n ->
  exists v, Decodes E (Ctx spec "" meta) b 0 ts (Ok (v, Z.of_nat n, [])) /\ Encodes E spec meta ts v (BytesToHex b).
Proof.
  intros S R I Hb. pose proof (le_val_range b) as V. rewrite Hb in V.
  assert (B : le_bytes n (le_val b) = b) by (rewrite <- Hb; apply le_bytes_val).
  assert (X : exists v, uint_repr cd n (le_val b) v /\ uint_input cd n (le_val b) v).
  { cbn [In] in I. destruct I as [I|[I|[I|[I|[I|[I|[]]]]]]]; injection I as <- <-.
    - eexists; split; constructor; cbn; tauto.
    - eexists; split; constructor; cbn; tauto.
    - eexists; split; constructor; cbn; tauto.
    - eexists; split; constructor; cbn; tauto.
    - exists (VStr (itoa (le_val b))). split; constructor; apply itoa_numeral; lia.
    - exists (VDec (le_val b) 0). split; [constructor|]. apply ui_dec; [cbn; tauto|]. unfold dec_is. change (0 <=? 0) with true. cbv iota. lia. }
  destruct X as (v & X1 & X2). exists v. split.
  - pose proof (C04_decode E (Ctx spec "" meta) ts cd n (le_val b) v [] [] R X1 V) as D. cbn [app] in D.
    rewrite app_nil_r, B in D. apply D. unfold blen. rewrite Hb. cbn [In] in I.
    destruct I as [I|[I|[I|[I|[I|[I|[]]]]]]]; injection I as _ <-; reflexivity.
  - rewrite <- B. now apply (C04_encode E spec meta ts cd n (le_val b) v).
Qed.

(** Non-vacuity: the built-in names resolve to these types. *)
Ltac res := eexists _, _; split; [vm_compute; reflexivity|reflexivity].
Example C04_names : forall meta, let r ts cd := resolves (reg_env base_reg) (Ctx (-1) "" meta) ts cd in
  r "u8" CU8 /\ r "U16" CU16 /\ r "u32" CU32 /\ r "u64" CU64 /\ r "u128" CU128 /\ r "U256" CU256.
Proof. intros meta. cbv zeta. repeat split; res. Qed.
Example C04_run :
  Encode 3 (reg_env base_reg) "u32" (VDec 3 2) = Ok "2c010000"
  /\ decode 3 (reg_env base_reg) (Ctx (-1) "" None) (map Zb [9; 44; 1; 0; 0; 7]) 1 "u32" = Ok (VU32 300, 5, []).
Proof. vm_compute. auto. Qed.

(** ** C05: signed integers decode as two's complement.
    False for the minimum of each width and for i8. *)

Lemma even_width n : In n [2; 4; 8; 16; 32] -> Nat.even (Z.to_nat n) = true.
Proof. cbn. intuition (subst; reflexivity). Qed.

(** The exact result for the even widths. *)
Theorem C05_decode_exact E c ts n b pre tl : resolves E c ts (CIntFixed n) -> In n [2; 4; 8; 16; 32] -> blen b = n ->
  blen (pre ++ b ++ tl) < 2 ^ 63 ->
  Decodes E c (pre ++ b ++ tl) (blen pre) ts
    (Ok (VBig (if twos_val b =? - 2 ^ (8 * n - 1) then 2 ^ (8 * n - 1) else twos_val b), blen pre + n, [])).
Proof.
  intros R Hn Hb L. replace (blen pre + n) with (blen pre + blen b) by lia.
  eapply Decodes_next; [exact R|reflexivity|now rewrite Hb| |exact L]. cbv beta.
  assert (LB : List.length b = Z.to_nat n) by (unfold blen in Hb; lia).
  rewrite ReverseBytes_even by (rewrite LB; now apply even_width). rewrite U256_hex.
  assert (Pn : 2 <= n) by (cbn in Hn; lia).
  destruct (rev b) as [|x l] eqn:RV.
  { apply (f_equal (@List.length ascii)) in RV. rewrite rev_length in RV. cbn [List.length] in RV. lia. }
  rewrite <- RV, rev_involutive. unfold twos_val. fold (blen b). rewrite Hb. cbv zeta.
  pose proof (le_val_range b) as V. rewrite LB, pow_256_nat, Z2Nat.id in V by lia.
  assert (PW : 2 ^ (8 * n) = 2 * 2 ^ (8 * n - 1)) by (rewrite <- Z.pow_succ_r by lia; f_equal; lia).
  assert (PP : 0 < 2 ^ (8 * n - 1)) by (apply Z.pow_pos_nonneg; lia).
  rewrite PW in *. set (H := 2 ^ (8 * n - 1)) in *. clearbody H.
  do 2 f_equal. destruct (Z.ltb_spec H (le_val b)), (Z.ltb_spec (le_val b) H); destruct (Z.eqb_spec (le_val b) (- H)) as [Q|Q];
    try destruct (Z.eqb_spec (le_val b - 2 * H) (- H)) as [Q2|Q2]; lia.
Qed.

Theorem C05_decode_partial E c ts n b pre tl : resolves E c ts (CIntFixed n) -> In n [2; 4; 8; 16; 32] -> blen b = n ->
  twos_val b <> - 2 ^ (8 * n - 1) -> blen (pre ++ b ++ tl) < 2 ^ 63 ->
  Decodes E c (pre ++ b ++ tl) (blen pre) ts (Ok (VBig (twos_val b), blen pre + n, [])).
Proof.
  intros R Hn Hb NM L. pose proof (C05_decode_exact E c ts n b pre tl R Hn Hb L) as D.
  destruct (Z.eqb_spec (twos_val b) (- 2 ^ (8 * n - 1))); [contradiction|exact D].
Qed.

(** i8: one byte is lost by ReverseBytes, so every i8 decodes to 0. *)
Theorem C05_i8_always_zero E c ts x pre tl : resolves E c ts (CIntFixed 1) -> blen (pre ++ [x] ++ tl) < 2 ^ 63 ->
  Decodes E c (pre ++ [x] ++ tl) (blen pre) ts (Ok (VBig 0, blen pre + 1, [])).
Proof.
  intros R L. change (blen pre + 1) with (blen pre + blen [x]). eapply Decodes_next; [exact R|reflexivity|reflexivity| |exact L]. reflexivity.
Qed.

Theorem C05_decode_refuted :
  let E := reg_env base_reg in let c := Ctx (-1) "" None in
  (* 00 80 as i16: two's complement -32768, decoded as 32768 *)
  (resolves E c "i16" (CIntFixed 2) /\ twos_val (map Zb [0; 128]) = -32768
   /\ Decodes E c (map Zb [0; 128]) 0 "i16" (Ok (VBig 32768, 2, [])))
  (* 05 as i8: decoded as 0 *)
  /\ (resolves E c "i8" (CIntFixed 1) /\ twos_val [Zb 5] = 5 /\ Decodes E c [Zb 5] 0 "i8" (Ok (VBig 0, 1, []))).
Proof.
  cbv zeta. split; (split; [res|split; [reflexivity|split; [discriminate|exists 3%nat; vm_compute; reflexivity]]]).
Qed.
Example C05_names : let r ts cd := resolves (reg_env base_reg) (Ctx (-1) "" None) ts cd in
  r "i16" (CIntFixed 2) /\ r "i32" (CIntFixed 4) /\ r "i64" (CIntFixed 8) /\ r "i128" (CIntFixed 16) /\ r "i256" (CIntFixed 32)
  /\ twos_val (map Zb [254; 255]) = -2.
Proof. cbv zeta. repeat split; try res. Qed.

(** ** C06: signed integers encode as little-endian two's complement.
    True for 2, 4 and 8 bytes when the Go value has exactly that width. *)
Inductive int_input : Z -> Z -> val -> Prop :=
| ii_16 z : int_input 2 z (VI16 z)
| ii_32 z : int_input 4 z (VI32 z)
| ii_64 z : int_input 8 z (VI64 z)
| ii_8 z : int_input 1 z (VI8 z).

Theorem C06_encode_partial E spec meta ts n z v : std_env E -> resolves E (Ctx spec "" meta) ts (CIntFixed n) -> int_input n z v ->
  - 2 ^ (8 * n - 1) <= z < 2 ^ (8 * n - 1) ->
  Encodes E spec meta ts v (BytesToHex (le_bytes (Z.to_nat n) z)) /\ twos_val (le_bytes (Z.to_nat n) z) = z.
Proof.
  intros S R I Hz. split.
  - destruct I; (eapply Encodes_hex; [exact S|exact R|discriminate|]); intros rec; reflexivity.
  - unfold twos_val. rewrite le_bytes_length, le_val_bytes.
    assert (N : 1 <= n) by (destruct I; lia). rewrite Z2Nat.id by lia.
    change 256 with (2 ^ 8). rewrite <- Z.pow_mul_r by lia.
    assert (PW : 2 ^ (8 * n) = 2 * 2 ^ (8 * n - 1)) by (rewrite <- Z.pow_succ_r by lia; f_equal; lia).
    cbv zeta. rewrite PW. set (H := 2 ^ (8 * n - 1)) in *. clearbody H.
    destruct (Z.lt_ge_cases z 0) as [Neg|Pos].
    + replace (z mod (2 * H)) with (z + 2 * H) by (apply Z.mod_unique with (-1); lia).
      destruct (Z.ltb_spec (z + 2 * H) H); lia.
    + rewrite Z.mod_small by lia. destruct (Z.ltb_spec z H); lia.
Qed.

(** The two wide types are written most significant byte first. *)
Lemma complement_le n z : 0 <= z < 256 ^ Z.of_nat n -> map (fun b => Zb (255 - bZ b)) (le_bytes n z) = le_bytes n (- z - 1).
Proof.
  revert z. induction n as [|n IH]; intros z Hz; [reflexivity|]. cbn [le_bytes map]. rewrite pow256_S in Hz.
  rewrite IH by (pose proof (pow256_pos n); split; [apply Z.div_pos; lia|apply Z.div_lt_upper_bound; lia]). f_equal.
  - rewrite bZ_Zb. rewrite <- (Zb_mod (- z - 1)), <- (Zb_mod (255 - z mod 256)). f_equal. lia.
  - f_equal. lia.
Qed.

Theorem C06_encode_wide_big_endian E spec meta ts n z v : std_env E -> resolves E (Ctx spec "" meta) ts (CIntFixed n) -> In n [16; 32] ->
  In v [VBig z; VDec z 0] -> - 2 ^ (8 * n - 1) <= z < 2 ^ (8 * n - 1) ->
  Encodes E spec meta ts v (BytesToHex (rev (le_bytes (Z.to_nat n) z))).
Proof.
  intros S R Hn Iv Hz. eapply Encodes_hex; [exact S|exact R|discriminate|]. intros rec.
  assert (Pn : 16 <= n) by (cbn in Hn; lia).
  assert (B : (b <- BigIntToIntBytes z n ;; Ok (BytesToHex b)) = Ok (hex_encode (rev (le_bytes (Z.to_nat n) z)))).
  { unfold BigIntToIntBytes. cbv zeta.
    assert (PW : 256 ^ Z.of_nat (Z.to_nat n) = 2 * 2 ^ (8 * n - 1)).
    { rewrite pow_256_nat, Z2Nat.id by lia. rewrite <- Z.pow_succ_r by lia. f_equal; lia. }
    set (H := 2 ^ (8 * n - 1)) in *. clearbody H.
    destruct (Z.leb_spec 0 z).
    - replace (H - 1 <? z) with false by (symmetry; lia). reflexivity.
    - replace (H <? - z) with false by (symmetry; lia). cbn [bind].
      rewrite map_rev, complement_le by (rewrite PW; lia). replace (- Z.abs (z + 1) - 1) with z by lia. reflexivity. }
  destruct Iv as [<-|[<-|[]]]; cbn [norm encode_codec]; unfold encode_int_fixed;
    (replace (n <? 16) with false by (symmetry; lia)).
  - exact B.
  - rewrite (dec_int_is z 0 z) by (unfold dec_is; change (0 <=? 0) with true; cbv iota; lia). exact B.
Qed.

Theorem C06_encode_refuted :
  let E := reg_env base_reg in
  (* i128 1: little-endian 01 00 .. 00 expected *)
  (Encodes E (-1) None "i128" (VBig 1) "00000000000000000000000000000001"
    /\ BytesToHex (le_bytes 16 1) = "01000000000000000000000000000000")
  (* int8 -1 as i64: not sign-extended *)
  /\ (Encodes E (-1) None "i64" (VI8 (-1)) "ff00000000000000" /\ BytesToHex (le_bytes 8 (-1)) = "ffffffffffffffff")
  (* what i32 decodes to cannot be encoded again *)
  /\ (Decodes E (Ctx (-1) "" None) (le_bytes 4 7) 0 "i32" (Ok (VBig 7, 4, []))
      /\ exists m, EncodesTo E (-1) None "i32" (VBig 7) (Panic m)).
Proof.
  cbv zeta. repeat match goal with |- _ /\ _ => split end; try reflexivity;
    try (apply (encode_enough _ _ _ _ _ 3); [vm_compute; reflexivity|discriminate]).
  - split; [discriminate|]. exists 3%nat. vm_compute. reflexivity.
  - eexists. apply (encode_enough _ _ _ _ _ 3); [vm_compute; reflexivity|discriminate].
Qed.

(** So they are right exactly for the numbers whose bytes are a palindrome. *)
Theorem C06_wide_iff E spec meta ts n z : std_env E -> resolves E (Ctx spec "" meta) ts (CIntFixed n) -> In n [16; 32] ->
  - 2 ^ (8 * n - 1) <= z < 2 ^ (8 * n - 1) ->
  (Encodes E spec meta ts (VBig z) (BytesToHex (le_bytes (Z.to_nat n) z))
   <-> rev (le_bytes (Z.to_nat n) z) = le_bytes (Z.to_nat n) z).
Proof.
  intros S R Hn Hz. pose proof (C06_encode_wide_big_endian E spec meta ts n z (VBig z) S R Hn ltac:(cbn; tauto) Hz) as D. split.
  - intros H. pose proof (EncodesTo_det _ _ _ _ _ _ _ D H) as Q. injection Q as Q. now apply hex_encode_inj in Q.
  - intros H. rewrite H in D. exact D.
Qed.

(** ** C47: a value that does not fit the type, or whose Go type the codec does
    not know, is refused.  False: it is silently encoded as something else. *)
Theorem C47_refused_partial E spec meta ts z : std_env E -> resolves E (Ctx spec "" meta) ts CU128 -> z < 0 \/ 2 ^ 128 <= z ->
  exists m, EncodesTo E spec meta ts (VBig z) (Panic m).
Proof.
  intros S R Hz. destruct (FromBig_panic z ltac:(unfold m128; lia)) as [m P]. exists m.
  apply (EncodesTo_const E spec meta ts CU128 (VBig z) (Panic m) S R); try discriminate.
  intros rec. cbn [norm encode_codec encode_u128]. now rewrite P.
Qed.
Theorem C47_refused_wide_partial E spec meta ts n z : std_env E -> resolves E (Ctx spec "" meta) ts (CIntFixed n) -> In n [16; 32] ->
  z < - 2 ^ (8 * n - 1) \/ 2 ^ (8 * n - 1) <= z -> exists m, EncodesTo E spec meta ts (VBig z) (Panic m).
Proof.
  intros S R Hn Hz. assert (Pn : 16 <= n) by (cbn in Hn; lia).
  assert (PP : 0 < 2 ^ (8 * n - 1)) by (apply Z.pow_pos_nonneg; lia).
  assert (X : exists m, BigIntToIntBytes z n = Panic m).
  { unfold BigIntToIntBytes. cbv zeta. set (H := 2 ^ (8 * n - 1)) in *. clearbody H. destruct (Z.leb_spec 0 z).
    - replace (H - 1 <? z) with true by (symmetry; lia). eauto.
    - replace (H <? - z) with true by (symmetry; lia). eauto. }
  destruct X as [m X]. exists m.
  apply (EncodesTo_const E spec meta ts (CIntFixed n) (VBig z) (Panic m) S R); try discriminate.
  intros rec. cbn [norm encode_codec]. unfold encode_int_fixed. replace (n <? 16) with false by (symmetry; lia). now rewrite X.
Qed.
Theorem C47_refused_refuted :
  let E := reg_env base_reg in
  Encodes E (-1) None "u32" (VU64 5) "00000000" /\ Encodes E (-1) None "u64" (VI64 5) "0000000000000000"
  /\ Encodes E (-1) None "u16" (VU8 5) "0000" /\ Encodes E (-1) None "u8" (VInt 256) "00"
  /\ Encodes E (-1) None "u16" (VInt (-1)) "ffff" /\ Encodes E (-1) None "Compact<u32>" (VU64 5) "00"
  /\ Encodes E (-1) None "Compact<u64>" (VU32 5) "00" /\ Encodes E (-1) None "i16" (VI32 65536) "0000".
Proof.
  cbv zeta. repeat match goal with |- _ /\ _ => split end; (apply (encode_enough _ _ _ _ _ 3); [vm_compute; reflexivity|discriminate]).
Qed.

(** What happens instead, for every value: the kinds of integers a type takes
    wrap around; nil, text, lists, maps and integers of another kind are zero. *)
Definition kinds (cd : codec) : list (Z -> val) :=
  match cd with
  | CU8 => [VInt; VU32; VI64; VU16; VU8]
  | CU16 => [VInt; VU32; VI64; VU16]
  | CU32 => [VInt; VU32]
  | CU64 => [VInt; VU32; VU64]
  | _ => []
  end.
Definition foreign (cd : codec) (v : val) : Prop :=
  (forall k z, In k (kinds cd) -> v <> k z) /\ (forall c e, v <> VDec c e) /\ (forall w, v <> VF64 w).
Theorem C47_narrow E spec meta ts cd n : std_env E -> resolves E (Ctx spec "" meta) ts cd -> In (cd, n) [(CU8, 1%nat); (CU16, 2%nat); (CU32, 4%nat); (CU64, 8%nat)] ->
  (forall k z, In k (kinds cd) -> Encodes E spec meta ts (k z) (BytesToHex (le_bytes n (z mod 256 ^ Z.of_nat n))))
  /\ (forall v, foreign cd v -> Encodes E spec meta ts v (BytesToHex (repeat (Zb 0) n))).
Proof.
  intros S R I. assert (NN : cd <> CNull) by (destruct I as [I|[I|[I|[I|[]]]]]; injection I as <- <-; discriminate).
  assert (EC : forall v b, (forall rec, encode_codec E rec spec meta cd (norm v) = Ok (hex_encode b)) -> Encodes E spec meta ts v (BytesToHex b)).
  { intros v b H. pose proof (EncodesTo_const E spec meta ts cd v _ S R NN H ltac:(discriminate)) as P. cbn [bind] in P. now rewrite trim_lower_hex in P. }
  split.
  - intros k z K. rewrite le_bytes_mod. apply EC. intros rec.
    destruct I as [I|[I|[I|[I|[]]]]]; injection I as <- <-; cbn [kinds In] in K;
      repeat (destruct K as [<-|K]; [cbn [norm encode_codec encode_u8 encode_u16 encode_u32 encode_u64]; unfold le_hex, U8Encode, u16, u32, u64; try reflexivity;
        rewrite le_bytes_wrap by reflexivity; reflexivity|]); destruct K.
  - intros v (F & D & W). apply EC. intros rec.
    destruct I as [I|[I|[I|[I|[]]]]]; injection I as <- <-; cbn [kinds] in F;
      destruct v; try reflexivity; cbn [norm]; repeat match goal with |- context[match ?x with _ => _ end] => destruct x; try reflexivity end;
      exfalso; first [now apply (D coef exp)|now apply (W bits)|match goal with z : Z |- _ => eapply (F _ z); [|reflexivity]; cbn [In]; tauto end].
Qed.
Example C47_narrow_case : let E := reg_env base_reg in
  resolves E (Ctx (-1) "" None) "u16" CU16 /\ foreign CU16 (VU64 7) /\ foreign CU16 VNil /\ In VInt (kinds CU16)
  /\ encode 3 E (-1) None "u16" (VInt (65536 + 7)) = Ok "0700" /\ encode 3 E (-1) None "u16" (VU64 7) = Ok "0000".
Proof.
  cbv zeta. split; [res|]. split; [split; [intros k z K; cbn in K; intuition (subst; discriminate)|split; discriminate]|].
  split; [split; [intros k z K; cbn in K; intuition (subst; discriminate)|split; discriminate]|]. split; [cbn; tauto|]. split; vm_compute; reflexivity.
Qed.

Print Assumptions C47_narrow.
Print Assumptions C04_decode.
Print Assumptions C04_encode.
Print Assumptions C04_roundtrip.
Print Assumptions C05_decode_exact.
Print Assumptions C05_decode_partial.
Print Assumptions C05_i8_always_zero.
Print Assumptions C05_decode_refuted.
Print Assumptions C06_encode_partial.
Print Assumptions C06_encode_wide_big_endian.
Print Assumptions C06_encode_refuted.
Print Assumptions C06_wide_iff.
Print Assumptions C47_refused_partial.
Print Assumptions C47_refused_wide_partial.
Print Assumptions C47_refused_refuted.
