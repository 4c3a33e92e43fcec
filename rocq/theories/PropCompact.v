(** Compact integers: C11, C12, C13, C14. *)

From Verif Require Import GoBase SpecNum ProofsBase ModelUint128 SpecUint128 ProofsUint128 ModelTools ProofsTools ModelVal ModelJson
  ModelRegistry ModelDecode ModelEncode ModelRegister ProofsRun SpecScale ProofsReads ProofsScale ProofsEncode ProofsApi.

Ltac res := eexists _, _; split; [vm_compute; reflexivity|reflexivity].
Ltac enc := apply (encode_enough _ _ _ _ _ 3); [vm_compute; reflexivity|discriminate].
Ltac dec := split; [discriminate|exists 3%nat; vm_compute; reflexivity].

(** ** The canonical form is what the SCALE document says. *)
Example compact_examples :
  map (fun n => BytesToHex (compact n)) [0; 1; 42; 63; 64; 69; 16383; 16384; 65535; 1073741823; 1073741824; 100000000000000; 2 ^ 536 - 1]
  = ["00"; "04"; "a8"; "fc"; "0101"; "1501"; "fdff"; "02000100"; "feff0300"; "feffffff"; "0300000040"; "0b00407a10f35a";
     "ff" ++ hex_encode (repeat (Zb 255) 67)].
Proof. vm_compute. reflexivity. Qed.

(** ** C11 *)
Theorem C11_decode E c ts z pre tl : resolves E c ts CCompactU32 -> 0 <= z < 2 ^ 32 -> blen (pre ++ compact z ++ tl) < 2 ^ 63 ->
  Decodes E c (pre ++ compact z ++ tl) (blen pre) ts (Ok (VInt z, blen pre + blen (compact z), [])).
Proof.
  intros R Hz L. eapply (Decodes_reads E c ts CCompactU32 O); [exact R| |exact L]. cbn [process].
  rewrite <- (app_nil_r (compact z)). apply reads_compact; [lia|].
  intros len b P. rewrite (compact_u32_int_spec z) by (assumption || lia). apply reads_ret.
Qed.
Definition c32_input (z : Z) (v : val) : Prop := In v [VInt z; VU32 z; VI64 z; VU16 z] \/ exists c e, v = VDec c e /\ dec_is c e z.
Lemma c32_input_bytes rec E spec meta z v : 0 <= z < 2 ^ 32 -> c32_input z v ->
  encode_codec E rec spec meta CCompactU32 (norm v) = Ok (BytesToHex (compact_u32_bytes z)).
Proof.
  intros Hz [I|(c & e & -> & D)].
  - cbn [In] in I. repeat destruct I as [<-|I]; try contradiction; reflexivity.
  - cbn [norm encode_codec encode_compact_u32]. unfold dec_intpart. rewrite (dec_int_is _ _ _ D), i64_small by (unfold two63; lia). reflexivity.
Qed.
Theorem C11_encode_partial E spec meta ts z v : std_env E -> resolves E (Ctx spec "" meta) ts CCompactU32 -> c32_input z v -> 0 <= z < 2 ^ 30 ->
  Encodes E spec meta ts v (BytesToHex (compact z)).
Proof.
  intros S R I Hz. eapply Encodes_hex; [exact S|exact R|discriminate|]. intros rec.
  rewrite (c32_input_bytes rec E spec meta z v) by (assumption || lia). now rewrite compact_u32_bytes_spec.
Qed.
(** From 2^30 on the text is empty. *)
Theorem C11_encode_large E spec meta ts z v : std_env E -> resolves E (Ctx spec "" meta) ts CCompactU32 -> c32_input z v -> 2 ^ 30 <= z < 2 ^ 32 ->
  Encodes E spec meta ts v "".
Proof.
  intros S R I Hz. change "" with (hex_encode []). eapply Encodes_hex; [exact S|exact R|discriminate|]. intros rec.
  rewrite (c32_input_bytes rec E spec meta z v) by (assumption || lia). unfold compact_u32_bytes. cbv zeta.
  replace (z <=? 63) with false by (symmetry; lia). replace (z <=? 16383) with false by (symmetry; lia).
  replace (z <=? 1073741823) with false by (symmetry; lia). reflexivity.
Qed.
Theorem C11_encode_refuted :
  Encodes (reg_env base_reg) (-1) None "Compact<u32>" (VInt 1073741824) "" /\ BytesToHex (compact 1073741824) = "0300000040".
Proof. split; [enc|reflexivity]. Qed.
Example C11_name : resolves (reg_env base_reg) (Ctx (-1) "" None) "Compact<u32>" CCompactU32
  /\ Encode 2 (reg_env base_reg) "Compact<u32>" (VInt 16384) = Ok "02000100".
Proof. split; [res|vm_compute; reflexivity]. Qed.

(** ** C12 *)
Definition compact_wide (cd : codec) (z : Z) (v : val) : Prop :=
  (cd = CU64 /\ z < 2 ^ 64 /\ v = VU64 z) \/ (cd = CU128 /\ z < 2 ^ 128 /\ v = VDec z 0).
Theorem C12_decode_partial E c ts sub cd z v pre tl : resolves E c ts (CCompact sub) -> sub <> "" ->
  resolves E (Ctx 0 "" None) sub cd -> compact_wide cd z v \/ (cd = CBalance /\ z < 2 ^ 128 - 1 /\ v = VDec z 0) -> 0 <= z ->
  blen (pre ++ compact z ++ tl) < 2 ^ 63 ->
  Decodes E c (pre ++ compact z ++ tl) (blen pre) ts (Ok (v, blen pre + blen (compact z), [])).
Proof.
  intros R Hs RS W Hz L.
  assert (B : 0 <= z < 2 ^ 536 /\ compact_repr cd z = Some v).
  { assert (P : 2 ^ 128 < 2 ^ 536) by (apply Z.pow_lt_mono_r; lia).
    destruct W as [[(-> & U & ->)|(-> & U & ->)]|(-> & U & ->)]; cbn [compact_repr];
      (split; [|match goal with |- (if ?b then _ else _) = _ => replace b with true by (symmetry; lia) end; reflexivity]);
      lia. }
  eapply (Decodes_reads E c ts (CCompact sub) 1); [exact R| |exact L]. cbn [process].
  rewrite <- (app_nil_r (compact z)). apply reads_compact; [apply B|].
  intros len b P. destruct (String.eqb_spec sub "") as [|_]; [contradiction|]. eapply compact_inner; try eassumption. apply B.
Qed.
(** The largest balance is read as -1. *)
Theorem C12_balance_refuted :
  Decodes (reg_env base_reg) (Ctx (-1) "" None) (compact (2 ^ 128 - 1)) 0 "Compact<Balance>" (Ok (VDec (-1) 0, 17, [])).
Proof. dec. Qed.
Example C12_names : let r ts cd := resolves (reg_env base_reg) (Ctx 0 "" None) ts cd in
  r "Compact<u64>" (CCompact "u64") /\ r "Compact<u128>" (CCompact "u128") /\ r "Compact<Balance>" (CCompact "Balance")
  /\ r "u64" CU64 /\ r "u128" CU128 /\ r "Balance" CBalance.
Proof. cbv zeta. repeat split; res. Qed.
Example C12_run : decode 3 (reg_env base_reg) (Ctx (-1) "" None) (compact (2 ^ 64 + 5)) 0 "Compact<u128>" = Ok (VDec (2 ^ 64 + 5) 0, 10, []).
Proof. vm_compute. reflexivity. Qed.

(** ** C13.  The code picks the mode by the low 64 bits read as an int64, so
    the text is canonical exactly when these do not look small. *)
Definition picks_right (z : Z) : Prop := z < 2 ^ 63 \/ 2 ^ 30 <= z mod 2 ^ 64 < 2 ^ 63.

Lemma i64_high z : 2 ^ 63 <= z -> (2 ^ 30 <= z mod 2 ^ 64 < 2 ^ 63 <-> 1073741823 < i64 z).
Proof.
  intros H. unfold i64, two63, two64.
  pose proof (Z.mod_pos_bound z 18446744073709551616 ltac:(lia)) as M.
  change (2 ^ 64) with 18446744073709551616. change (2 ^ 63) with 9223372036854775808. change (2 ^ 30) with 1073741824.
  assert (E : (z + 9223372036854775808) mod 18446744073709551616 = (z mod 18446744073709551616 + 9223372036854775808) mod 18446744073709551616)
    by (rewrite Zplus_mod_idemp_l; reflexivity).
  rewrite E. clear E H. set (m := z mod 18446744073709551616) in *. clearbody m.
  destruct (Z.lt_ge_cases m 9223372036854775808).
  - rewrite Z.mod_small by lia. lia.
  - replace ((m + 9223372036854775808) mod 18446744073709551616) with (m - 9223372036854775808)
      by (apply Z.mod_unique with 1; lia). lia.
Qed.

Lemma compact_large z : 2 ^ 30 <= z -> compact z = (Zb (4 * (byte_count z - 4) + 3) :: le_bytes (Z.to_nat (byte_count z)) z)%list.
Proof.
  intros H. unfold compact. change (2 ^ 6) with 64. change (2 ^ 14) with 16384. change (2 ^ 30) with 1073741824 in *.
  replace (z <? 64) with false by (symmetry; lia). replace (z <? 16384) with false by (symmetry; lia).
  replace (z <? 1073741824) with false by (symmetry; lia). reflexivity.
Qed.
Lemma compact_encode_high z : 2 ^ 63 <= z < 2 ^ 536 -> 1073741823 < i64 z -> compact_encode_dec z 0 = hex_encode (compact z).
Proof.
  intros Hz Hi. unfold compact_encode_dec, dec_intpart. rewrite (dec_int_is z 0 z) by (unfold dec_is; change (0 <=? 0) with true; cbv iota; lia).
  cbv zeta. replace (i64 z <=? 63) with false by (symmetry; lia). replace (i64 z <=? 16383) with false by (symmetry; lia).
  replace (i64 z <=? 1073741823) with false by (symmetry; lia).
  rewrite num_bytes_count by lia. rewrite compact_large by lia.
  pose proof (byte_count_range z 8 67 ltac:(lia) ltac:(split; [change (256 ^ (8 - 1)) with (2 ^ 56)|change (256 ^ 67) with (2 ^ 536)]; lia)) as B.
  rewrite (Z.mod_small (byte_count z - 4)) by lia.
  replace ((255 <? byte_count z) || (63 <? byte_count z - 4)) with false by (symmetry; lia). cbv iota.
  rewrite Z.abs_eq by lia. unfold BytesToHex. do 3 f_equal. lia.
Qed.
(** Otherwise at most four bytes come out. *)
Lemma compact_encode_wrong z : 2 ^ 63 <= z -> i64 z <= 1073741823 -> exists b, compact_encode_dec z 0 = hex_encode b /\ (List.length b <= 4)%nat.
Proof.
  intros Hz Hi. unfold compact_encode_dec, dec_intpart. rewrite (dec_int_is z 0 z) by (unfold dec_is; change (0 <=? 0) with true; cbv iota; lia).
  cbv zeta. unfold BytesToHex. destruct (i64 z <=? 63); [eexists; split; [reflexivity|]; rewrite firstn_length, le_bytes_length; lia|].
  destruct (i64 z <=? 16383); [eexists; split; [reflexivity|]; rewrite firstn_length, le_bytes_length; lia|].
  replace (i64 z <=? 1073741823) with true by (symmetry; lia). eexists; split; [reflexivity|]. rewrite le_bytes_length. lia.
Qed.
Lemma compact_high_length z : 2 ^ 63 <= z -> (9 <= List.length (compact z))%nat.
Proof.
  intros H. rewrite compact_large by lia. cbn [List.length]. rewrite le_bytes_length.
  assert (8 <= byte_count z); [|lia]. unfold byte_count.
  assert (63 <= Z.log2 z) by (rewrite <- (Z.log2_pow2 63) by lia; now apply Z.log2_le_mono). lia.
Qed.

Definition compact_input (z : Z) (v : val) : Prop :=
  v = VDec z 0 \/ (exists s, is_numeral s z /\ v = VStr s) \/ (z < 2 ^ 63 /\ In v [VInt z; VI64 z; VU64 z]).
Lemma compact_input_dec rec E spec meta sub z v : 0 <= z -> compact_input z v ->
  encode_codec E rec spec meta (CCompact sub) (norm v) = Ok (compact_encode_dec z 0).
Proof.
  intros Hz [->|[(s & N & ->)|(H & I)]].
  - reflexivity.
  - cbn [norm encode_codec encode_compact]. now rewrite (dec_of_numeral s z N).
  - cbn [In] in I. repeat destruct I as [<-|I]; try contradiction; try reflexivity.
    cbn [norm encode_codec encode_compact]. now rewrite i64_small by (unfold two63; lia).
Qed.

Theorem C13_encode_iff E spec meta ts sub z v : std_env E -> resolves E (Ctx spec "" meta) ts (CCompact sub) -> compact_input z v ->
  0 <= z < 2 ^ 536 -> (Encodes E spec meta ts v (BytesToHex (compact z)) <-> picks_right z).
Proof.
  intros S R I Hz. unfold picks_right.
  assert (A : forall b, compact_encode_dec z 0 = hex_encode b -> Encodes E spec meta ts v (hex_encode b)).
  { intros b Hb. eapply Encodes_hex; [exact S|exact R|discriminate|]. intros rec. rewrite (compact_input_dec rec E spec meta sub z v) by (assumption || lia). now rewrite Hb. }
  destruct (Z.lt_ge_cases z (2 ^ 63)) as [L|L].
  - split; [now left|]. intros _. apply A. now apply compact_encode_spec.
  - rewrite (i64_high z L). split.
    + intros H. destruct (Z.lt_ge_cases 1073741823 (i64 z)) as [W|W]; [now right|].
      destruct (compact_encode_wrong z L W) as (b & Hb & Lb). pose proof (A b Hb) as H2.
      pose proof (EncodesTo_det _ _ _ _ _ _ _ H H2) as Q. injection Q as Q. apply hex_encode_inj in Q.
      pose proof (compact_high_length z L). rewrite Q in *. lia.
    + intros [H|H]; [lia|]. apply A. apply compact_encode_high; lia.
Qed.
Theorem C13_encode_partial E spec meta ts sub z v : std_env E -> resolves E (Ctx spec "" meta) ts (CCompact sub) -> compact_input z v ->
  0 <= z < 2 ^ 63 -> Encodes E spec meta ts v (BytesToHex (compact z)).
Proof.
  intros S R I Hz. apply (C13_encode_iff E spec meta ts sub z v S R I); [|left; lia].
  assert (2 ^ 63 < 2 ^ 536) by (apply Z.pow_lt_mono_r; lia). lia.
Qed.
(** 2^64 - 1 given as uint64, 2^64 and 2^80 - 1 given as decimals. *)
Theorem C13_encode_refuted :
  let E := reg_env base_reg in
  (Encodes E (-1) None "Compact<u64>" (VU64 (2 ^ 64 - 1)) "fc" /\ BytesToHex (compact (2 ^ 64 - 1)) = "13ffffffffffffffff")
  /\ (Encodes E (-1) None "Compact<u128>" (VDec (2 ^ 64) 0) "00" /\ BytesToHex (compact (2 ^ 64)) = "17000000000000000001")
  /\ Encodes E (-1) None "Compact<u128>" (VDec (2 ^ 80 - 1) 0) "fc".
Proof.
  cbv zeta. repeat match goal with |- _ /\ _ => split end; try enc; vm_compute; reflexivity.
Qed.
Example C13_case : picks_right (2 ^ 100 + 2 ^ 40) /\ ~ picks_right (2 ^ 100 + 7) /\ compact_input 7 (VStr "7").
Proof.
  unfold picks_right. change ((2 ^ 100 + 2 ^ 40) mod 2 ^ 64) with (2 ^ 40). change ((2 ^ 100 + 7) mod 2 ^ 64) with 7.
  split; [right; lia|]. split; [lia|]. right. left. exists "7". split; [|reflexivity].
  repeat split; try discriminate; repeat constructor; cbv; discriminate.
Qed.

(** ** C14 *)

(** One to four bytes hold the shifted value, more the value itself. *)
Lemma run_other_once E f sub cd done b g o (k : val -> prog) v : resolves E (Ctx 0 "" None) sub cd ->
  run (decode f E) 0 (process E (Ctx 0 "" None) cd) b 0 [] = Ok (g, o, []) ->
  reads (decode (S f) E) done (k g) [] v [] ->
  reads (decode (S f) E) done (Other b (Ctx 0 "" None) false sub k) [] v [].
Proof.
  intros (cd0 & t & G & I) H K. change (@nil string) with ((if false then [] else []) ++ @nil string)%list.
  eapply reads_other; [|exact K]. cbn [decode]. rewrite G. cbn [bind]. rewrite I. exact H.
Qed.

Lemma compact_case z : 0 <= z < 2 ^ 536 -> forall len b, compact_part z len b -> blen b < 2 ^ 62.
Proof.
  intros Hz len b [(_ & _ & _ & _ & L)|(_ & S & -> & _)]; [unfold blen; lia|]. rewrite blen_le_bytes.
  pose proof (byte_count_range z 4 67 ltac:(lia) ltac:(split; [change (256 ^ (4 - 1)) with (2 ^ 24)|change (256 ^ 67) with (2 ^ 536)]; lia)). lia.
Qed.

Lemma pow536 n : 0 <= n < 536 -> 2 ^ n < 2 ^ 536.
Proof. intros H. apply Z.pow_lt_mono_r; lia. Qed.

(** Compact<u8> sees only the first byte of the shifted value, Compact<u16> the
    first two: [z mod 64] and [z mod 2^14] below 2^30. *)
Theorem C14_narrow_exact E c ts sub cd w z pre tl : resolves E c ts (CCompact sub) -> sub <> "" ->
  resolves E (Ctx 0 "" None) sub cd -> (cd = CU8 /\ w = 8 \/ cd = CU16 /\ w = 16) -> 0 <= z < 2 ^ w ->
  blen (pre ++ compact z ++ tl) < 2 ^ 63 ->
  Decodes E c (pre ++ compact z ++ tl) (blen pre) ts (Ok (VU64 (z mod 2 ^ (w - 2)), blen pre + blen (compact z), [])).
Proof.
  intros R Hs RS W Hz L.
  assert (Z30 : z < 2 ^ 30) by (destruct W as [(_ & ->)|(_ & ->)]; lia).
  pose proof (pow536 30 ltac:(lia)) as P30.
  eapply (Decodes_reads E c ts (CCompact sub) 1); [exact R| |exact L]. cbn [process].
  rewrite <- (app_nil_r (compact z)). apply reads_compact; [lia|].
  intros len b P. destruct (String.eqb_spec sub "") as [|_]; [contradiction|].
  pose proof (compact_case z ltac:(lia) len b P) as Bb.
  destruct P as [(P1 & _ & Q & U & Lb)|(_ & S & _)]; [|lia].
  assert (NE : b = [] -> le_val b = 0) by (intros ->; reflexivity).
  pose proof (le_val_range b) as V.
  assert (M : forall k, (0 < k)%nat -> le_val b mod 256 ^ Z.of_nat k / 4 = z mod 2 ^ (8 * Z.of_nat k - 2)).
  { intros k Hk. rewrite pow_256_nat.
    replace (2 ^ (8 * Z.of_nat k)) with (4 * 2 ^ (8 * Z.of_nat k - 2)).
    2:{ change 4 with (2 ^ 2). rewrite <- Z.pow_add_r by lia. f_equal. lia. }
    assert (PK : 0 < 2 ^ (8 * Z.of_nat k - 2)) by (apply Z.pow_pos_nonneg; lia).
    rewrite Z.rem_mul_r by lia. rewrite Z.mul_comm, Z.div_add by lia. rewrite Q.
    rewrite Z.div_small by (apply Z.mod_pos_bound; lia). lia. }
  destruct W as [(-> & ->)|(-> & ->)].
  - eapply run_other_once; [exact RS| |].
    { cbn [process run]. rewrite next_short by (exact Bb || lia). cbn [bind run]. reflexivity. }
    unfold compact_value. replace (len <=? 4) with true by (symmetry; lia). cbv zeta iota.
    assert (HB : head_u8 (firstn (Z.to_nat 1) b) = le_val b mod 256 ^ Z.of_nat 1).
    { rewrite <- le_val_firstn. change (Z.to_nat 1) with 1%nat. destruct b as [|x b]; [reflexivity|]. cbn. lia. }
    rewrite HB. unfold u64. rewrite Z.mod_small.
    2:{ pose proof (Z.mod_pos_bound (le_val b) (256 ^ Z.of_nat 1) ltac:(reflexivity)). change (256 ^ Z.of_nat 1) with 256 in *. unfold two64. lia. }
    rewrite (M 1%nat) by lia. apply reads_ret.
  - eapply run_other_once; [exact RS| |].
    { cbn [process run]. rewrite next_short by (exact Bb || lia). cbn [bind run]. reflexivity. }
    rewrite le_uint_firstn, le_uint_val. unfold compact_value. replace (len <=? 4) with true by (symmetry; lia). cbv zeta iota.
    change (Z.to_nat 2) with 2%nat. rewrite (M 2%nat) by lia. apply reads_ret.
Qed.
Theorem C14_narrow_partial E c ts sub cd w z pre tl : resolves E c ts (CCompact sub) -> sub <> "" ->
  resolves E (Ctx 0 "" None) sub cd -> (cd = CU8 /\ w = 8 \/ cd = CU16 /\ w = 16) -> 0 <= z < 2 ^ (w - 2) ->
  blen (pre ++ compact z ++ tl) < 2 ^ 63 ->
  Decodes E c (pre ++ compact z ++ tl) (blen pre) ts (Ok (VU64 z, blen pre + blen (compact z), [])).
Proof.
  intros R Hs RS W Hz L.
  assert (Hw : 0 <= z < 2 ^ w) by (destruct W as [(_ & ->)|(_ & ->)]; lia).
  pose proof (C14_narrow_exact E c ts sub cd w z pre tl R Hs RS W Hw L) as D. now rewrite Z.mod_small in D by lia.
Qed.

(** Compact<u256>: right whenever the bytes are even in number. *)
Definition even_form (z : Z) : Prop := 2 ^ 6 <= z < 2 ^ 30 \/ (2 ^ 30 <= z /\ Z.even (byte_count z) = true).
Theorem C14_u256_partial E c ts sub z pre tl : resolves E c ts (CCompact sub) -> sub <> "" ->
  resolves E (Ctx 0 "" None) sub CU256 -> 0 <= z < 2 ^ 256 -> even_form z ->
  blen (pre ++ compact z ++ tl) < 2 ^ 63 ->
  Decodes E c (pre ++ compact z ++ tl) (blen pre) ts (Ok (VDec z 0, blen pre + blen (compact z), [])).
Proof.
  intros R Hs RS Hz EF L. pose proof (pow536 256 ltac:(lia)) as P256.
  eapply (Decodes_reads E c ts (CCompact sub) 1); [exact R| |exact L]. cbn [process].
  (* the two- and four-byte modes keep an even number of bytes *)
  assert (X : forall len b, compact_part z len b -> Nat.even (List.length b) = true -> b <> [] ->
    reads (decode 1 E) ([] ++ compact z) (Other b (Ctx 0 "" None) false sub (compact_value len)) [] (VDec z 0) []).
  { intros len b P EV NE. pose proof (compact_case z ltac:(lia) len b P) as Bb.
    assert (LB : (List.length b <= 32)%nat).
    { destruct P as [(_ & _ & _ & _ & Lb)|(_ & S & -> & _)]; [lia|]. rewrite le_bytes_length.
      pose proof (byte_count_range z 4 32 ltac:(lia) ltac:(split; [change (256 ^ (4 - 1)) with (2 ^ 24)|change (256 ^ 32) with (2 ^ 256)]; lia)). lia. }
    eapply run_other_once; [exact RS| |].
    { cbn [process run]. rewrite next_short by (exact Bb || lia). cbn [bind]. rewrite (firstn_all2 b) by lia.
      rewrite ReverseBytes_even by exact EV. rewrite U256_hex.
      destruct (rev b) as [|x l] eqn:RV; [exfalso; apply NE; rewrite <- (rev_involutive b), RV; reflexivity|].
      rewrite <- RV, rev_involutive. cbn [run]. reflexivity. }
    unfold compact_value. pose proof (le_val_range b) as V.
    destruct P as [(P1 & _ & Q & U & _)|(P1 & _ & _ & Q)].
    - replace (len <=? 4) with true by (symmetry; lia). cbv zeta iota. rewrite dec_div_floor_4, Q by lia. apply reads_ret.
    - replace (len <=? 4) with false by (symmetry; lia). cbv zeta iota. rewrite dec_div_floor_1, Q by lia. apply reads_ret. }
  unfold even_form in EF. change (2 ^ 6) with 64 in EF. change (2 ^ 30) with 1073741824 in EF.
  unfold compact_bytes, compact. change (2 ^ 6) with 64. change (2 ^ 14) with 16384. change (2 ^ 30) with 1073741824.
  assert (SE : String.eqb sub "" = false) by now apply String.eqb_neq.
  assert (CP : (z < 1073741824 -> forall n, (n = 2 /\ z < 16384 \/ n = 4) -> compact_part z n (le_bytes (Z.to_nat n) (4 * z + n / 2)))).
  { intros Hs30 n Hn. left. rewrite le_val_bytes_small, le_bytes_length.
    - destruct Hn as [(-> & ?)| ->]; [change (2 / 2) with 1|change (4 / 2) with 2]; change (2 ^ 30) with 1073741824; change (2 ^ 32) with 4294967296; lia.
    - destruct Hn as [(-> & ?)| ->]; [change (2 / 2) with 1; change (256 ^ Z.of_nat (Z.to_nat 2)) with 65536
        |change (4 / 2) with 2; change (256 ^ Z.of_nat (Z.to_nat 4)) with 4294967296]; lia. }
  replace (z <? 64) with false by (symmetry; lia).
  destruct (Z.ltb_spec z 16384) as [S14|S14]; [|destruct (Z.ltb_spec z 1073741824) as [S30|S30]].
  - change (le_bytes 2 (4 * z + 1)) with ([Zb (4 * z + 1)] ++ le_bytes 1 ((4 * z + 1) / 256))%list.
    apply reads_next; [reflexivity|].
    replace (bZ (Zb (4 * z + 1)) mod 4) with 1 by (rewrite bZ_Zb; clear - S14; lia). cbv iota.
    apply reads_next_last; [reflexivity|]. rewrite SE.
    pose proof (CP ltac:(lia) 2 ltac:(auto)) as P2. change (2 / 2) with 1 in P2.
    specialize (X 2 _ P2 eq_refl ltac:(discriminate)). unfold compact in X. change (2 ^ 6) with 64 in X. change (2 ^ 14) with 16384 in X.
    replace (z <? 64) with false in X by (symmetry; lia). replace (z <? 16384) with true in X by (symmetry; lia). exact X.
  - change (le_bytes 4 (4 * z + 2)) with ([Zb (4 * z + 2)] ++ le_bytes 3 ((4 * z + 2) / 256))%list.
    apply reads_next; [reflexivity|].
    replace (bZ (Zb (4 * z + 2)) mod 4) with 2 by (rewrite bZ_Zb; clear - S14; lia). cbv iota.
    apply reads_next_last; [reflexivity|]. rewrite SE.
    pose proof (CP S30 4 ltac:(auto)) as P2. change (4 / 2) with 2 in P2.
    specialize (X 4 _ P2 eq_refl ltac:(discriminate)). unfold compact in X. change (2 ^ 6) with 64 in X. change (2 ^ 14) with 16384 in X. change (2 ^ 30) with 1073741824 in X.
    replace (z <? 64) with false in X by (symmetry; lia). replace (z <? 16384) with false in X by (symmetry; lia).
    replace (z <? 1073741824) with true in X by (symmetry; lia). exact X.
  - destruct EF as [EF|(_ & EV)]; [lia|].
    change (Zb (4 * (byte_count z - 4) + 3) :: le_bytes (Z.to_nat (byte_count z)) z)%list
      with ([Zb (4 * (byte_count z - 4) + 3)] ++ le_bytes (Z.to_nat (byte_count z)) z)%list.
    rewrite (compact_large z) in X by (change (2 ^ 30) with 1073741824; lia).
    pose proof (byte_count_range z 4 32 ltac:(lia) ltac:(split; [change (256 ^ (4 - 1)) with 16777216|change (256 ^ 32) with (2 ^ 256)]; lia)) as BC.
    assert (BZ : bZ (Zb (4 * (byte_count z - 4) + 3)) = 4 * (byte_count z - 4) + 3) by (apply bZ_Zb_small; lia).
    apply reads_next; [reflexivity|]. rewrite BZ.
    replace ((4 * (byte_count z - 4) + 3) mod 4) with 3 by (clear; lia). cbv iota zeta. cbn [head_u8]. rewrite BZ.
    replace (5 + (4 * (byte_count z - 4) + 3 - 3) / 4) with (byte_count z + 1) by (clear; lia).
    apply reads_next_last; [rewrite blen_le_bytes; lia|]. rewrite SE.
    assert (P2 : compact_part z (byte_count z + 1) (le_bytes (Z.to_nat (byte_count z)) z)).
    { right. change (2 ^ 30) with 1073741824. split; [lia|]. split; [lia|]. split; [reflexivity|]. apply le_val_bytes_small.
      rewrite Z2Nat.id by lia. pose proof (byte_count_spec z ltac:(lia)). lia. }
    specialize (X _ _ P2). rewrite le_bytes_length in X. apply X.
    + apply Nat.even_spec. apply Z.even_spec in EV. destruct EV as [k EV]. exists (Z.to_nat k). lia.
    + intros H. apply (f_equal (@List.length ascii)) in H. rewrite le_bytes_length in H. cbn [List.length] in H. lia.
Qed.
Theorem C14_narrow_refuted :
  let E := reg_env base_reg in let c := Ctx (-1) "" None in
  Decodes E c (compact 64) 0 "Compact<u8>" (Ok (VU64 0, 2, []))
  /\ Decodes E c (compact 16384) 0 "Compact<u16>" (Ok (VU64 0, 4, []))
  /\ Decodes E c (compact 5) 0 "Compact<u256>" (Ok (VDec 0 0, 1, []))
  /\ Decodes E c (compact (2 ^ 32 + 2 ^ 16)) 0 "Compact<u256>" (Ok (VDec (2 ^ 32) 0, 6, [])).
Proof. cbv zeta. repeat match goal with |- _ /\ _ => split end; dec. Qed.
Example C14_names : let r ts cd := resolves (reg_env base_reg) (Ctx 0 "" None) ts cd in
  r "Compact<u8>" (CCompact "u8") /\ r "Compact<u16>" (CCompact "u16") /\ r "Compact<u256>" (CCompact "u256")
  /\ r "u8" CU8 /\ r "u16" CU16 /\ r "u256" CU256 /\ even_form (2 ^ 63) /\ even_form 100.
Proof. cbv zeta. repeat match goal with |- _ /\ _ => split end; try res; [right|left]; vm_compute; intuition discriminate. Qed.

Print Assumptions C11_decode.
Print Assumptions C11_encode_partial.
Print Assumptions C11_encode_large.
Print Assumptions C11_encode_refuted.
Print Assumptions C12_decode_partial.
Print Assumptions C12_balance_refuted.
Print Assumptions C13_encode_iff.
Print Assumptions C13_encode_partial.
Print Assumptions C13_encode_refuted.
Print Assumptions C14_narrow_exact.
Print Assumptions C14_narrow_partial.
Print Assumptions C14_u256_partial.
Print Assumptions C14_narrow_refuted.
