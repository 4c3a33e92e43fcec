(** Every strict SCALE value encodes to its bytes. *)

From Verif Require Import GoBase SpecNum ProofsBase ModelTools ProofsTools ModelUint128 SpecUint128 ProofsUint128 ModelVal
  ModelJson ModelRegistry ModelDecode ModelEncode ProofsRun SpecScale ProofsReads ProofsForms ProofsScale.

(** ** Hex text *)
Lemma lower_char_hex c : lower_hex c -> lower_char c = c.
Proof. unfold lower_hex, lower_char. intros H. destruct (Z.leb_spec 65 (bZ c)), (Z.leb_spec (bZ c) 90); cbn [andb]; try reflexivity; lia. Qed.
Lemma smap_lower s : Forall lower_hex (s2b s) -> to_lower s = s.
Proof.
  unfold to_lower. induction s as [|c s IH]; cbn [s2b smap]; intros F; [reflexivity|]. inversion F; subst.
  rewrite IH by assumption. now rewrite lower_char_hex.
Qed.
Lemma to_lower_hex b : to_lower (hex_encode b) = hex_encode b.
Proof. apply smap_lower, hex_encode_lower. Qed.
Lemma to_lower_app a b : to_lower (a ++ b) = to_lower a ++ to_lower b.
Proof. unfold to_lower. induction a as [|c a IH]; [reflexivity|]. cbn. now rewrite IH. Qed.
Lemma to_lower_0x b : to_lower ("0x" ++ hex_encode b) = "0x" ++ hex_encode b.
Proof. rewrite to_lower_app, to_lower_hex. reflexivity. Qed.
Lemma AddHex_0x s : AddHex ("0x" ++ s) = "0x" ++ s.
Proof. reflexivity. Qed.
Lemma trim_lower_hex b : TrimHex (to_lower (hex_encode b)) = hex_encode b.
Proof. now rewrite to_lower_hex, TrimHex_hex. Qed.
Lemma trim_lower_0x b : TrimHex (to_lower ("0x" ++ hex_encode b)) = hex_encode b.
Proof. now rewrite to_lower_0x, TrimHex_0x. Qed.

(** ** Compact integers *)
Lemma lor_low w k : 0 <= w -> 0 <= k < 4 -> Z.lor (w * 4) k = w * 4 + k.
Proof. intros H K. change 4 with (2 ^ 2) at 1 2. apply lor_add; lia. Qed.

Lemma le_bytes_firstn n m z : (n <= m)%nat -> firstn n (le_bytes m z) = le_bytes n z.
Proof.
  intros H. replace m with (n + (m - n))%nat by lia. rewrite le_bytes_app, firstn_app, le_bytes_length, Nat.sub_diag.
  cbn [firstn]. rewrite app_nil_r. apply firstn_all2. rewrite le_bytes_length. lia.
Qed.

Lemma num_bytes_count z : 0 < z -> num_bytes z = byte_count z.
Proof.
  intros H. unfold num_bytes, bit_len, byte_count. destruct (Z.eqb_spec z 0); [lia|]. rewrite Z.abs_eq by lia.
  replace (Z.log2 z + 1 + 7) with (Z.log2 z + 1 * 8) by lia. rewrite Z.div_add by lia. reflexivity.
Qed.

Lemma compact_encode_spec z : 0 <= z < 2 ^ 63 -> compact_encode_dec z 0 = hex_encode (compact z).
Proof.
  intros H. unfold compact_encode_dec, dec_intpart, dec_int. change (0 <=? 0) with true. cbv iota.
  change (10 ^ 0) with 1. rewrite Z.mul_1_r. rewrite (i64_small z) by (unfold two63; lia).
  unfold compact. unfold BytesToHex. cbv zeta.
  change (2 ^ 6) with 64. change (2 ^ 14) with 16384. change (2 ^ 30) with 1073741824.
  destruct (Z.leb_spec z 63); [|destruct (Z.leb_spec z 16383); [|destruct (Z.leb_spec z 1073741823)]].
  1-3: rewrite i64_small by (unfold two63; lia); unfold u32; rewrite Z.mod_small by lia.
  - replace (z <? 64) with true by (symmetry; lia). rewrite le_bytes_firstn by lia. do 2 f_equal. lia.
  - replace (z <? 64) with false by (symmetry; lia). replace (z <? 16384) with true by (symmetry; lia).
    rewrite lor_low by lia. rewrite le_bytes_firstn by lia. do 2 f_equal. lia.
  - replace (z <? 64) with false by (symmetry; lia). replace (z <? 16384) with false by (symmetry; lia).
    replace (z <? 1073741824) with true by (symmetry; lia). rewrite lor_low by lia. do 2 f_equal. lia.
  - replace (z <? 64) with false by (symmetry; lia). replace (z <? 16384) with false by (symmetry; lia).
    replace (z <? 1073741824) with false by (symmetry; lia).
    rewrite num_bytes_count by lia.
    pose proof (byte_count_range z 4 8 ltac:(lia) ltac:(split; [|change (256 ^ 8) with (2 ^ 64)]; lia)) as BC.
    rewrite (Z.mod_small (byte_count z - 4)) by lia.
    replace (255 <? byte_count z) with false by (symmetry; lia). replace (63 <? byte_count z - 4) with false by (symmetry; lia).
    cbn [orb]. rewrite Z.abs_eq by lia. do 3 f_equal. lia.
Qed.

Lemma compact_u32_bytes_spec z : 0 <= z < 2 ^ 30 -> compact_u32_bytes z = compact z.
Proof.
  intros H. unfold compact_u32_bytes, compact. cbv zeta.
  change (2 ^ 6) with 64. change (2 ^ 14) with 16384. change (2 ^ 30) with 1073741824 in *.
  rewrite i64_small by (unfold two63; lia). unfold u32. rewrite Z.mod_small by lia.
  destruct (Z.leb_spec z 63); [|destruct (Z.leb_spec z 16383)].
  - replace (z <? 64) with true by (symmetry; lia). rewrite le_bytes_firstn by lia. f_equal. lia.
  - replace (z <? 64) with false by (symmetry; lia). replace (z <? 16384) with true by (symmetry; lia).
    rewrite lor_low by lia. rewrite le_bytes_firstn by lia. f_equal. lia.
  - replace (z <? 64) with false by (symmetry; lia). replace (z <? 16384) with false by (symmetry; lia).
    replace (z <? 1073741824) with true by (symmetry; lia). replace (z <=? 1073741823) with true by (symmetry; lia).
    rewrite lor_low by lia. f_equal. lia.
Qed.

(** ** u256 text *)
Fixpoint hexpad (n : nat) (z : Z) : string :=
  match n with O => "" | S n' => hexpad n' (z / 16) ++ String (hex_digit (z mod 16)) "" end.
Lemma hex_loop_acc f z acc : hex_loop f z acc = hex_loop f z "" ++ acc.
Proof.
  revert z acc. induction f as [|f IH]; intros z acc; [reflexivity|]. cbn [hex_loop].
  destruct (z <? 16); [reflexivity|]. rewrite (IH _ (String _ acc)), (IH _ (String _ "")). now rewrite app_assoc_s.
Qed.
Lemma hexpad_length n z : String.length (hexpad n z) = n.
Proof. revert z. induction n as [|n IH]; intros z; [reflexivity|]. cbn [hexpad]. rewrite length_app_s, IH. cbn. lia. Qed.
Lemma hexpad_zero n : hexpad n 0 = srepeat "0"%char n.
Proof.
  induction n as [|n IH]; [reflexivity|]. cbn [hexpad srepeat]. change (0 / 16) with 0. change (hex_digit (0 mod 16)) with "0"%char.
  rewrite IH. clear IH. induction n as [|n IH]; [reflexivity|]. cbn [srepeat String.append]. now rewrite IH.
Qed.
Lemma srepeat_length c n : String.length (srepeat c n) = n.
Proof. induction n; cbn; congruence. Qed.

Lemma hex_loop_pad f z n : 0 <= z < 16 ^ Z.of_nat (S f) -> z < 16 ^ Z.of_nat n -> (0 < n)%nat ->
  right_justify0 (hex_loop (S f) z "") n = hexpad n z.
Proof.
  unfold right_justify0. revert z n. induction f as [|f IH]; intros z n Hz Hn Pn.
  - cbn [hex_loop]. change (16 ^ Z.of_nat 1) with 16 in Hz. replace (z <? 16) with true by (symmetry; lia).
    destruct n as [|n]; [lia|]. cbn [hexpad String.length].
    replace (z / 16) with 0 by lia. rewrite hexpad_zero, Z.mod_small by lia. f_equal. f_equal. lia.
  - cbn [hex_loop]. destruct (Z.ltb_spec z 16) as [L|L].
    + destruct n as [|n]; [lia|]. cbn [hexpad String.length].
      replace (z / 16) with 0 by lia. rewrite hexpad_zero, Z.mod_small by lia. f_equal. f_equal. lia.
    + change (if z / 16 <? 16 then String (hex_digit (z / 16)) (String (hex_digit (z mod 16)) "")
              else hex_loop f (z / 16 / 16) (String (hex_digit ((z / 16) mod 16)) (String (hex_digit (z mod 16)) "")))
        with (hex_loop (S f) (z / 16) (String (hex_digit (z mod 16)) "")).
      rewrite hex_loop_acc. rewrite length_app_s. cbn [String.length].
      assert (P16 : forall k, 16 ^ Z.of_nat (S k) = 16 * 16 ^ Z.of_nat k) by (intros k; rewrite Nat2Z.inj_succ, Z.pow_succ_r by lia; reflexivity).
      destruct n as [|[|n]]; [lia| |].
      { rewrite P16 in Hn. change (16 ^ Z.of_nat 0) with 1 in Hn. lia. }
      rewrite P16 in Hz, Hn.
      specialize (IH (z / 16) (S n)).
      assert (A1 : 0 <= z / 16 < 16 ^ Z.of_nat (S f)).
      { split; [apply Z.div_pos; lia|]. apply Z.div_lt_upper_bound; lia. }
      assert (A2 : z / 16 < 16 ^ Z.of_nat (S n)) by (apply Z.div_lt_upper_bound; lia).
      specialize (IH A1 A2 ltac:(lia)).
      change (hexpad (S (S n)) z) with (hexpad (S n) (z / 16) ++ String (hex_digit (z mod 16)) "").
      rewrite <- IH. rewrite app_assoc_s. f_equal. f_equal. lia.
Qed.

Lemma le_bytes_snoc n z : rev (le_bytes (S n) z) = (rev (le_bytes n (z / 256)) ++ [Zb z])%list.
Proof. reflexivity. Qed.

Lemma hex_rev_le n z : 0 <= z -> hex_encode (rev (le_bytes n z)) = hexpad (2 * n) z.
Proof.
  revert z. induction n as [|n IH]; intros z Hz; [reflexivity|].
  rewrite le_bytes_snoc, hex_encode_app, IH by (apply Z.div_pos; lia).
  replace (2 * S n)%nat with (S (S (2 * n))) by lia. cbn [hexpad].
  rewrite Z.div_div by lia. change (16 * 16) with 256. rewrite app_assoc_s. f_equal. cbn [hex_encode String.append].
  rewrite bZ_Zb.
  replace (z mod 256 / 16) with ((z / 16) mod 16) by (clear; lia). replace (z mod 256 mod 16) with (z mod 16) by (clear; lia).
  reflexivity.
Qed.

Lemma encode_u256_spec z : 0 <= z < 2 ^ 256 -> encode_u256 (VDec z 0) = Ok (hex_encode (le_bytes 32 z)).
Proof.
  intros H. unfold encode_u256, dec_int. change (0 <=? 0) with true. cbv iota. change (10 ^ 0) with 1. rewrite Z.mul_1_r.
  unfold hex_text. replace (z <? 0) with false by (symmetry; lia).
  rewrite hex_loop_pad.
  - change 64%nat with (2 * 32)%nat. rewrite <- hex_rev_le by lia.
    change (hex_encode (rev (le_bytes 32 z))) with (BytesToHex (rev (le_bytes 32 z))). rewrite HexToBytes_hex.
    rewrite ReverseBytes_even by (rewrite rev_length, le_bytes_length; reflexivity). now rewrite rev_involutive.
  - split; [lia|]. rewrite Nat2Z.inj_succ, Z2Nat.id by apply Z.log2_nonneg.
    destruct (Z.eq_dec z 0) as [->|N]; [cbn; lia|].
    apply Z.lt_le_trans with (2 ^ Z.succ (Z.log2 z)); [apply Z.log2_spec; lia|].
    apply Z.pow_le_mono_l. lia.
  - change (16 ^ Z.of_nat 64) with (2 ^ 256). lia.
  - lia.
Qed.

(** ** Ethereum addresses *)
Lemma lower_upper c : lower_char (upper_char c) = lower_char c.
Proof.
  unfold lower_char, upper_char. pose proof (bZ_range c).
  destruct (Z.leb_spec 97 (bZ c)), (Z.leb_spec (bZ c) 122); cbn [andb]; try reflexivity.
  rewrite bZ_Zb_small by lia.
  destruct (Z.leb_spec 65 (bZ c - 32)), (Z.leb_spec (bZ c - 32) 90); cbn [andb]; try lia.
  replace (bZ c - 32 + 32) with (bZ c) by lia. rewrite Zb_bZ.
  destruct (Z.leb_spec 65 (bZ c)), (Z.leb_spec (bZ c) 90); cbn [andb]; try reflexivity; lia.
Qed.
Lemma checksum_lower a h n : String.length a = n -> (n <= String.length h)%nat -> to_lower (checksum a h n) = to_lower a.
Proof.
  unfold to_lower. revert h n. induction a as [|c a IH]; intros [|x h] [|n] Ha Hh; cbn [String.length] in *; try lia; try reflexivity.
  cbn [checksum smap]. rewrite IH by lia. destruct (7 <? hex_nibble x); now rewrite ?lower_upper.
Qed.
Lemma EthEncode_lower k b : List.length b = 20%nat -> (20 <= List.length (k (s2b (hex_encode b))))%nat ->
  to_lower (EthEncode k (hex_encode b)) = "0x" ++ hex_encode b.
Proof.
  intros Hb Hk. unfold EthEncode. change (hex_encode b) with (BytesToHex b) at 1. rewrite HexToBytes_hex, Hb. cbn [Nat.eqb].
  rewrite TrimHex_hex.
  assert (L : to_lower (checksum (hex_encode b) (BytesToHex (k (s2b (hex_encode b)))) 40) = hex_encode b).
  { rewrite checksum_lower; [apply to_lower_hex| |]; unfold BytesToHex; rewrite hex_encode_length; lia. }
  unfold AddHex. set (s := checksum _ _ _) in *.
  destruct (has_prefix s "0x") eqn:P.
  - exfalso. assert (P2 : has_prefix (to_lower s) "0x" = true).
    { clear - P. unfold has_prefix in *. destruct s as [|a [|x s]]; try discriminate; [now destruct a as [[] [] [] [] [] [] [] []]|].
      cbn [prefix] in P. apply andb_prop in P as [A P]. apply andb_prop in P as [X _].
      apply Ascii.eqb_eq in A, X. subst. reflexivity. }
    rewrite L in P2. rewrite no_prefix_lower_hex in P2 by apply hex_encode_lower. discriminate.
  - rewrite to_lower_app, L. reflexivity.
Qed.

(** ** Maps and tables *)
Lemma assoc_app_fresh {A} k (m1 m2 : list (string * A)) : ~ In k (map fst m1) -> assoc k (m1 ++ m2) = assoc k m2.
Proof.
  induction m1 as [|[k' v] m1 IH]; cbn; intros N; [reflexivity|].
  destruct (String.eqb_spec k k') as [->|]; [tauto|]. apply IH. tauto.
Qed.

Lemma first_at_tail x l n : first_at (x :: l) (S n) -> nth_error l n <> Some x /\ first_at l n.
Proof.
  intros F. split; [now apply (F 0%nat x); [lia|]|]. intros k m L H. apply (F (S k) m); [lia|exact H].
Qed.
Lemma nodup_first_at l : NoDup l -> forall i, first_at l i.
Proof. intros ND i k n L H H2. pose proof (proj1 (NoDup_nth_error l) ND k i) as Q. rewrite H, H2 in Q. assert (k < List.length l)%nat by (apply nth_error_Some; congruence). specialize (Q ltac:(assumption) eq_refl). lia. Qed.
Lemma name_index_spec tm : forall n name sub k, first_at (map fst tm) n -> nth_error tm n = Some (name, sub) ->
  name_index name k tm = Some (k + Z.of_nat n, sub).
Proof.
  induction tm as [|[x y] tm IH]; intros n name sub k F H; [destruct n; discriminate|].
  destruct n as [|n]; cbn [nth_error name_index] in *.
  - injection H as -> ->. rewrite String.eqb_refl, Z.add_0_r. reflexivity.
  - cbn [map fst] in F. apply first_at_tail in F. destruct F as [NE F]. destruct (String.eqb_spec x name) as [->|_].
    + exfalso. apply NE. now rewrite nth_error_map, H.
    + rewrite (IH n name sub (k + 1) F H). do 2 f_equal. lia.
Qed.

Lemma value_list_index_spec E vl : forall n s k, first_at vl n -> nth_error vl n = Some s ->
  value_list_index E (VStr s) k vl = Ok (U8Encode (k + Z.of_nat n)).
Proof.
  induction vl as [|x vl IH]; intros n s k F H; [destruct n; discriminate|].
  destruct n as [|n]; cbn [nth_error value_list_index ToString] in *.
  - injection H as ->. rewrite String.eqb_refl, Z.add_0_r. reflexivity.
  - apply first_at_tail in F. destruct F as [NE F]. destruct (String.eqb_spec s x) as [->|_]; [contradiction|].
    rewrite (IH n s (k + 1) F H). do 2 f_equal. lia.
Qed.

Lemma c_like_index_spec E tm name t : (forall t', In (name, t') tm -> t' = t) -> In (name, t) tm ->
  c_like_index E (VStr name) tm = Some (U8Encode (StringToInt t)).
Proof.
  induction tm as [|[x y] tm IH]; intros U I; [contradiction|].
  cbn [c_like_index ToString]. destruct (String.eqb_spec x name) as [->|NE].
  - now rewrite (U y (or_introl eq_refl)).
  - destruct I as [I|I]; [congruence|]. apply IH; [|exact I]. intros t' H. apply U. now right.
Qed.

(** ** The encoder *)
Definition norm (v : val) : val := match v with VNil => VStr "" | _ => v end.

Inductive seqenc (sub : string -> val -> res string) : list string -> bytes -> list val -> Prop :=
| se_nil : seqenc sub [] [] []
| se_cons t ts b bs g gs : sub t g = Ok (hex_encode b) -> seqenc sub ts bs gs -> seqenc sub (t :: ts) (b ++ bs) (g :: gs).

Lemma seqenc_length sub ts bs gs : seqenc sub ts bs gs -> List.length gs = List.length ts.
Proof. induction 1; cbn; congruence. Qed.

Lemma seqenc_vec sub t n bs gs : seqenc sub (repeat t n) bs gs ->
  concat_res (map (fun x => s <- sub t x ;; Ok (TrimHex s)) gs) = Ok (hex_encode bs).
Proof.
  revert bs gs. induction n as [|n IH]; cbn [repeat]; intros bs gs H; inversion H as [|t' ts' b bs' g gs' S R]; subst; [reflexivity|].
  cbn [map concat_res]. rewrite S. cbn [bind]. rewrite TrimHex_hex, (IH _ _ R). cbn [bind]. now rewrite hex_encode_app.
Qed.
Lemma seqenc_array sub t n bs gs : seqenc sub (repeat t n) bs gs -> concat_res (map (sub t) gs) = Ok (hex_encode bs).
Proof.
  revert bs gs. induction n as [|n IH]; cbn [repeat]; intros bs gs H; inversion H as [|t' ts' b bs' g gs' S R]; subst; [reflexivity|].
  cbn [map concat_res]. rewrite S. cbn [bind]. rewrite (IH _ _ R). cbn [bind]. now rewrite hex_encode_app.
Qed.

Lemma seqenc_fields sub (tm : typemap) bs gs : seqenc sub (map snd tm) bs gs ->
  forall acc, NoDup (map fst acc ++ map fst tm) ->
  concat_res (map (fun p => sub (snd p) (map_get (fst p) (acc ++ combine (map fst tm) gs))) tm) = Ok (hex_encode bs).
Proof.
  revert bs gs. induction tm as [|[n t] tm IH]; cbn [map fst snd]; intros bs gs H acc ND;
    inversion H as [|t' ts' b bs' g gs' S R]; subst; [reflexivity|].
  cbn [map concat_res fst snd combine]. unfold map_get at 1.
  rewrite assoc_app_fresh by (intros I; apply NoDup_remove_2 in ND; apply ND, in_or_app; now left).
  cbn [assoc]. rewrite String.eqb_refl, S. cbn [bind].
  specialize (IH _ _ R (acc ++ [(n, g)])%list). rewrite <- app_assoc in IH. cbn [app] in IH.
  rewrite IH; [cbn [bind]; now rewrite hex_encode_app|].
  rewrite map_app, <- app_assoc. exact ND.
Qed.

Lemma seqenc_rows sub rows bs gs : seqenc sub (map row_type rows) bs gs -> Forall row_ok rows ->
  forall acc, NoDup (map fst acc ++ map row_name rows) ->
  encode_rows sub rows (acc ++ combine (map row_name rows) gs) = Ok (hex_encode bs).
Proof.
  revert bs gs. induction rows as [|r rows IH]; cbn [map]; intros bs gs H F acc ND;
    inversion H as [|t' ts' b bs' g gs' S R]; subst; [reflexivity|].
  inversion F as [|r' rows' (n & t & rest & ->) F']; subst.
  change (row_name (n :: t :: rest)) with n in *. change (row_type (n :: t :: rest)) with t in *.
  cbn [encode_rows combine]. unfold map_get at 1.
  rewrite assoc_app_fresh by (intros I; apply NoDup_remove_2 in ND; apply ND, in_or_app; now left).
  cbn [assoc]. rewrite String.eqb_refl, S. cbn [bind].
  specialize (IH _ _ R F' (acc ++ [(n, g)])%list). rewrite <- app_assoc in IH. cbn [app] in IH.
  rewrite IH; [cbn [bind]; now rewrite hex_encode_app|].
  rewrite map_app, <- app_assoc. exact ND.
Qed.

Lemma null_cases ts : equal_fold ts "Null" = true -> ConvertType ts = ts /\ to_lower ts = "null" /\ generic_parts ts = None
  /\ exists z, last_char ts = Some z.
Proof.
  unfold equal_fold. change (to_lower "Null") with "null". intros H. apply String.eqb_eq in H.
  assert (LC : forall c x, lower_char c = x -> In x ["n"; "u"; "l"]%char -> c = x \/ c = upper_char x).
  { clear. intros c x <-. unfold lower_char. pose proof (bZ_range c).
    destruct (Z.leb_spec 65 (bZ c)), (Z.leb_spec (bZ c) 90); cbn [andb]; intros I; try (left; reflexivity).
    right. apply bZ_inj. unfold upper_char. rewrite bZ_Zb_small by lia.
    destruct (Z.leb_spec 97 (bZ c + 32)), (Z.leb_spec (bZ c + 32) 122); cbn [andb]; try lia. rewrite bZ_Zb_small; lia. }
  unfold to_lower in H. destruct ts as [|a [|b [|c [|d [|]]]]]; cbn [smap] in H; try discriminate.
  injection H as A B C D.
  apply LC in A; [|cbn; tauto]. apply LC in B; [|cbn; tauto]. apply LC in C; [|cbn; tauto]. apply LC in D; [|cbn; tauto].
  destruct A as [->| ->], B as [->| ->], C as [->| ->], D as [->| ->];
    (split; [vm_compute; reflexivity|split; [vm_compute; reflexivity|split; [vm_compute; reflexivity|eexists; reflexivity]]]).
Qed.

Lemma resolves_fun E c ts cd1 cd2 : resolves E c ts cd1 -> resolves E c ts cd2 -> cd1 = cd2.
Proof. intros (a1 & b1 & G1 & <-) (a2 & b2 & G2 & <-). rewrite G1 in G2. injection G2 as <- <-. reflexivity. Qed.

Lemma null_resolves E c ts : std_env E -> equal_fold ts "Null" = true -> resolves E c ts CNull.
Proof.
  intros S H. destruct (null_cases ts H) as (C & L & G & z & Z).
  destruct (S "null" CNull ltac:(cbn; tauto)) as [R Sp].
  apply (builtin_resolves E c ts "null" CNull R Sp); rewrite ?C; try assumption; try reflexivity.
  - intros m. apply module_type_other. intros md l I. cbn in I.
    repeat (destruct I as [I|I]; [injection I as <- <-; reflexivity|]). contradiction.
  - eauto.
Qed.

Section Enc.
Variable E : env.
Hypothesis STD : std_env E.

Definition EncAt (c : ctx) (cd : codec) (bs : bytes) (g : val) : Prop :=
  exists f, forall f', (f <= f')%nat -> exists s,
    encode_codec E (encode f' E) (x_spec c) (x_meta c) cd (norm g) = Ok s /\ TrimHex (to_lower s) = hex_encode bs.
Definition EncE (c : ctx) (ts : string) (bs : bytes) (g : val) : Prop :=
  exists f, forall f', (f <= f')%nat -> encode f' E (x_spec c) (x_meta c) ts g = Ok (hex_encode bs).
Definition SeqEnc (c : ctx) (ts : list string) (bs : bytes) (gs : list val) : Prop :=
  exists f, forall f', (f <= f')%nat -> seqenc (encode f' E (x_spec c) (x_meta c)) ts bs gs.

Lemma EncE_resolves c ts cd bs g : resolves E c ts cd -> x_module c = "" -> equal_fold ts "Null" = false ->
  EncAt c cd bs g -> EncE c ts bs g.
Proof.
  intros (cd0 & sub & G & I) M N [f H]. exists (S f). intros f' L. destruct f' as [|f']; [lia|].
  destruct (H f' ltac:(lia)) as (s & ES & TS). cbn [encode]. rewrite N. rewrite M in G. rewrite G. cbn [bind].
  rewrite I. unfold norm in ES. rewrite ES. cbn [bind]. now rewrite TS.
Qed.

Lemma EncAt_const c cd bs g s : (forall rec, encode_codec E rec (x_spec c) (x_meta c) cd (norm g) = Ok s) ->
  TrimHex (to_lower s) = hex_encode bs -> EncAt c cd bs g.
Proof. intros H T. exists O. intros f' _. exists s. split; [apply H|exact T]. Qed.

(** The length prefix. *)
Lemma enc_len n f : Z.of_nat n < 2 ^ 30 -> len_prefix (encode (S f) E) n = Ok (hex_encode (compact (Z.of_nat n))).
Proof.
  intros H. unfold len_prefix. destruct (std_compact_u32 E (Ctx (-1) "" None) STD) as (cd0 & sub & G & I).
  cbn [x_module x_spec] in G. cbn [encode]. change (equal_fold "Compact<u32>" "Null") with false. cbv iota.
  rewrite G. cbn [bind]. rewrite I. cbn [encode_codec encode_compact_u32 bind].
  rewrite compact_u32_bytes_spec by lia. unfold BytesToHex. now rewrite trim_lower_hex.
Qed.

Ltac const x := eapply (EncAt_const _ _ _ _ x); [intros rec; cbn [norm encode_codec on_string]|].

Lemma text_bytes_text b : ~ looks_hex b -> text_bytes_hex (text_of b) = hex_encode b.
Proof.
  intros N. unfold text_of, text_bytes_hex. destruct (forallb printable b) eqn:P.
  - destruct (has_prefix (b2s b) "0x") eqn:H; [exfalso; apply N; now split|]. now rewrite s2b_b2s.
  - change (has_prefix ("0x" ++ hex_encode b) "0x") with true. cbv iota. apply TrimHex_0x.
Qed.
Lemma text_of_nonempty b : b <> [] -> String.eqb (text_of b) "" = false.
Proof. intros N. unfold text_of. destruct (forallb printable b); [destruct b; [contradiction|reflexivity]|reflexivity]. Qed.
Lemma pad_even_hex b : pad_even (hex_encode b) = hex_encode b.
Proof. unfold pad_even. rewrite hex_encode_length. now rewrite Nat.even_mul. Qed.
Lemma HexToBytes_hex' b : HexToBytes (hex_encode b) = b.
Proof. exact (HexToBytes_hex b). Qed.
Lemma norm_id v : v <> VNil -> norm v = v.
Proof. destruct v; cbn; congruence. Qed.

(** A value with a length prefix of the given bytes. *)
Lemma EncAt_len c cd (b bs : bytes) g : Z.of_nat (List.length b) < 2 ^ 30 ->
  (forall rec, encode_codec E rec (x_spec c) (x_meta c) cd (norm g) =
     (p <- len_prefix rec (List.length b) ;; Ok (p ++ hex_encode bs))) ->
  EncAt c cd (len_of b ++ bs) g.
Proof.
  intros L H. exists 1%nat. intros f' Hf. destruct f' as [|f']; [lia|]. rewrite H, enc_len by exact L. cbn [bind].
  eexists. split; [reflexivity|]. unfold len_of. rewrite <- hex_encode_app. apply trim_lower_hex.
Qed.

Lemma std_u8 c : resolves E c "U8" CU8.
Proof.
  destruct (STD "u8" CU8 ltac:(cbn; tauto)) as [R Sp].
  apply (builtin_resolves E c "U8" "u8" CU8 R Sp); try reflexivity.
  - intros m. apply module_type_other. intros md l I. cbn in I.
    repeat (destruct I as [I|I]; [injection I as <- <-; reflexivity|]). contradiction.
  - exists "8"%char. split; [reflexivity|now right].
Qed.
Lemma enc_u8 z f : encode (S f) E (-1) None "U8" (VInt z) = Ok (hex_encode [Zb z]).
Proof.
  destruct (std_u8 (Ctx (-1) "" None)) as (cd0 & sub & G & I). cbn [x_module x_spec] in G. cbn [encode].
  change (equal_fold "U8" "Null") with false. cbv iota. rewrite G. cbn [bind]. rewrite I.
  change (encode_codec E (encode f E) (-1) None CU8 (VInt z)) with (Ok (hex_encode [Zb z])). cbn [bind]. now rewrite trim_lower_hex.
Qed.
Lemma raw_key n : 0 <= n <= 32 -> SliceIndex ("Raw" ++ itoa n) data_names = -1 /\ has_prefix ("Raw" ++ itoa n) "Raw" = true
  /\ scan_raw ("Raw" ++ itoa n) = Some n.
Proof.
  intros H. assert (I : In n (map Z.of_nat (seq 0 33))) by (apply in_map_iff; exists (Z.to_nat n); split; [lia|apply in_seq; lia]).
  assert (A : forallb (fun n => (SliceIndex ("Raw" ++ itoa n) data_names =? -1) && has_prefix ("Raw" ++ itoa n) "Raw"
     && (match scan_raw ("Raw" ++ itoa n) with Some m => m =? n | None => false end)) (map Z.of_nat (seq 0 33)) = true) by (vm_compute; reflexivity).
  rewrite forallb_forall in A. specialize (A n I). apply andb_true_iff in A as [A A3]. apply andb_true_iff in A as [A1 A2].
  apply Z.eqb_eq in A1. split; [exact A1|]. split; [exact A2|]. destruct (scan_raw _) as [m|]; [|discriminate]. apply Z.eqb_eq in A3. now subst.
Qed.

Theorem scale_encodes :
  (forall c ts bs g cs, scale true E c ts bs g cs -> x_module c = "" -> EncE c ts bs g)
  /\ (forall c cd bs g cs, scale_at true E c cd bs g cs -> x_module c = "" -> cd <> CNull -> EncAt c cd bs g)
  /\ (forall c ts bs gs cs, scales true E c ts bs gs cs -> x_module c = "" -> SeqEnc c ts bs gs).
Proof.
  apply scale_mutind; try (intros; discriminate).
  - (* type string *)
    intros c ts cd bs g cs R HN SA IH M. destruct (equal_fold ts "Null") eqn:EN.
    + assert (cd = CNull) by (eapply resolves_fun; [exact R|]; now apply null_resolves). subst cd.
      inversion SA; subst. exists 1%nat. intros f' L. destruct f' as [|f']; [lia|]. cbn [encode]. rewrite EN. reflexivity.
    + assert (cd <> CNull) by (intros ->; specialize (HN eq_refl eq_refl); discriminate).
      eapply EncE_resolves; [exact R|exact M|exact EN|]. now apply IH.
  - intros c M N. congruence.
  - intros c M N. const "". all: reflexivity.
  - intros c b M N. const (if b then "01" else "00"); destruct b; reflexivity.
  - intros c z Hz M N. const (hex_encode [Zb z]). { reflexivity. } apply trim_lower_hex.
  - intros c z Hz M N. const (hex_encode (le_bytes 2 z)); [|apply trim_lower_hex].
    cbn [encode_u16]. unfold le_hex, u16. rewrite Z.mod_small by exact Hz. reflexivity.
  - intros c z Hz M N. const (hex_encode (le_bytes 4 z)); [|apply trim_lower_hex].
    cbn [encode_u32]. unfold le_hex, u32. rewrite Z.mod_small by exact Hz. reflexivity.
  - intros c z Hz M N. const (hex_encode (le_bytes 8 z)); [|apply trim_lower_hex].
    cbn [encode_u64]. unfold le_hex, u64. rewrite Z.mod_small by exact Hz. reflexivity.
  - (* u128 *)
    intros c z s Hz NU M N. const (hex_encode (le_bytes 16 z)); [|apply trim_lower_hex].
    cbn [encode_u128]. rewrite (dec_of_numeral s z NU). unfold dec_int. change (0 <=? 0) with true. cbv iota.
    change (10 ^ 0) with 1. rewrite Z.mul_1_r. destruct (FromBig_ok z Hz) as (u & -> & W & V). cbn [bind].
    rewrite PutBytes_spec, V by exact W. reflexivity.
  - intros c z Hz M N. const (hex_encode (le_bytes 32 z)); [|apply trim_lower_hex]. now apply encode_u256_spec.
  - intros c z Hz M N. const (hex_encode (le_bytes 16 z)); [|apply trim_lower_hex].
    cbn [encode_u128]. unfold dec_int. change (0 <=? 0) with true. cbv iota.
    change (10 ^ 0) with 1. rewrite Z.mul_1_r. destruct (FromBig_ok z ltac:(unfold m128; lia)) as (u & -> & W & V). cbn [bind].
    rewrite PutBytes_spec, V by exact W. reflexivity.
  - intros c z Hz M N. const (hex_encode (le_bytes 8 z)); [|apply trim_lower_hex].
    cbn [encode_u64]. unfold le_hex, u64. rewrite Z.mod_small by (unfold two64; lia). reflexivity.
  - intros c b Hb M N. const ("0x" ++ hex_encode b); [|apply trim_lower_0x]. now rewrite to_lower_0x, AddHex_0x.
  - intros c b Hb M N. const ("0x" ++ hex_encode b); [|apply trim_lower_0x]. now rewrite to_lower_0x, AddHex_0x.
  - intros c b Hb M N. const ("0x" ++ hex_encode b); [|apply trim_lower_0x]. now rewrite to_lower_0x, AddHex_0x.
  - intros c b Hb M N. const ("0x" ++ hex_encode b); [|apply trim_lower_0x]. reflexivity.
  - intros c b Hb HK M N. const ("0x" ++ hex_encode b); [|apply trim_lower_0x]. now rewrite EthEncode_lower by assumption.
  - intros c M N. const "00"; reflexivity.
  - intros c x y Hx M N. const (hex_encode [x; y]); [|apply trim_lower_hex]. reflexivity.
  - intros c n b Hb Hn HL M N. const (hex_encode b); [|apply trim_lower_hex]. now rewrite text_bytes_text by auto.
  - intros c n sub b Hs Hb Hn HL M N. const (hex_encode b); [|apply trim_lower_hex].
    rewrite text_of_nonempty by (intros ->; cbn in Hb; lia). now rewrite text_bytes_text by auto.
  - intros c z Hz HS M N. const (hex_encode (compact z)); [|apply trim_lower_hex].
    cbn [encode_compact_u32]. now rewrite compact_u32_bytes_spec by (split; [lia|auto]).
  - intros c z Hz HS M N. const (hex_encode (compact z)); [|apply trim_lower_hex].
    cbn [encode_compact_u32]. now rewrite compact_u32_bytes_spec by (split; [lia|auto]).
  - intros c sub cd z g Hs R Hz HR HS M N. specialize (HS eq_refl). const (hex_encode (compact z)); [|apply trim_lower_hex].
    rewrite <- compact_encode_spec by lia.
    destruct cd; cbn in HR; try discriminate; match type of HR with (if ?x <? ?y then _ else _) = _ =>
        destruct (Z.ltb_spec x y); [|discriminate] end; injection HR as <-; cbn [norm encode_compact]; rewrite ?i64_small by (unfold two63; lia); reflexivity.
  - (* bytes *)
    intros c b Hb HS M N. destruct (HS eq_refl) as [HL HX]. apply EncAt_len; [exact HL|]. intros rec.
    cbn [norm encode_codec on_string]. unfold encode_bytes. cbv zeta.
    unfold text_of. destruct (forallb printable b) eqn:P.
    + destruct (has_prefix (b2s b) "0x") eqn:H; [exfalso; apply HX; now split|].
      rewrite s2b_b2s. unfold BytesToHex. now rewrite HexToBytes_hex'.
    + change (has_prefix ("0x" ++ hex_encode b) "0x") with true. cbv iota.
      now rewrite TrimHex_0x, pad_even_hex, HexToBytes_hex'.
  - (* string *)
    intros c b Hb HS M N. destruct (HS eq_refl) as [HL HX]. apply EncAt_len; [exact HL|]. intros rec.
    cbn [norm encode_codec on_string]. unfold encode_string, text_of. rewrite HX, b2s_length, s2b_b2s. reflexivity.
  - intros c b Hb HS M N. apply EncAt_len; [auto|]. intros rec. cbn [norm encode_codec on_string]. unfold encode_hex_bytes. cbv zeta.
    now rewrite TrimHex_0x, pad_even_hex, HexToBytes_hex'.
  - intros c sub Hs M N. const "00"; reflexivity.
  - (* some *)
    intros c sub bs g cs Hs Hb _ IH HN M N. specialize (HN eq_refl). destruct (IH M) as [f H]. exists f. intros f' L.
    assert (G : g <> VNil) by (intros ->; apply HN; now left). rewrite (norm_id g G). cbn [encode_codec].
    replace ((match g with VStr s => String.eqb s "" | _ => false end) || is_nil g) with false.
    2:{ symmetry. apply orb_false_iff. split.
        - destruct g; try reflexivity. apply String.eqb_neq. intros ->. apply HN. unfold nil_like. auto.
        - destruct g; try reflexivity; try (exfalso; apply HN; unfold nil_like; now auto).
          match goal with |- is_nil (VStrs ?l) = _ => destruct l; [reflexivity|exfalso; apply HN; unfold nil_like; now auto] end. }
    destruct (String.eqb_spec sub "bool"); [contradiction|]. rewrite (H f' L). cbn [bind].
    eexists. split; [reflexivity|]. change ("01" ++ hex_encode bs) with (hex_encode ([Zb 1] ++ bs)). apply trim_lower_hex.
  - intros c b M N. const (if b then "01" else "02"); destruct b; reflexivity.
  - (* vec *)
    intros c sub n bs gs cs _ IH Hn M N. destruct (IH M) as [f H]. exists (S f). intros f' L. destruct f' as [|f']; [lia|].
    specialize (H (S f') ltac:(lia)).
    assert (Lg : List.length gs = n) by (rewrite (seqenc_length _ _ _ _ H); apply repeat_length).
    assert (EL : elements (slice_of gs) = Some gs) by (destruct gs; reflexivity).
    assert (NG : norm (slice_of gs) = slice_of gs) by (destruct gs; reflexivity).
    rewrite NG. exists (hex_encode (compact (Z.of_nat n)) ++ hex_encode bs). split.
    + cbn [encode_codec].
      replace (match slice_of gs with VStr s => if String.eqb s "" then len_prefix (encode (S f') E) 0 else Panic "invalid vec input" | _ => _ end)
        with (match elements (slice_of gs) with
          | Some l => p <- len_prefix (encode (S f') E) (List.length l) ;;
                      r <- concat_res (map (fun x => s <- encode (S f') E (x_spec c) (x_meta c) sub x ;; Ok (TrimHex s)) l) ;; Ok (p ++ r)
          | None => Panic "invalid vec input"
          end) by (destruct gs; reflexivity).
      rewrite EL, Lg, enc_len by lia. cbn [bind].
      rewrite (seqenc_vec (encode (S f') E (x_spec c) (x_meta c)) sub n bs gs H). reflexivity.
    + rewrite <- hex_encode_app. apply trim_lower_hex.
  - (* array *)
    intros c n sub bs gs cs Hs Hn _ IH M N. destruct (IH M) as [f H]. exists f. intros f' L.
    specialize (H f' L).
    assert (Lg : List.length gs = Z.to_nat n) by (rewrite (seqenc_length _ _ _ _ H); apply repeat_length).
    assert (EL : elements (slice_of gs) = Some gs) by (destruct gs; reflexivity).
    assert (NG : norm (slice_of gs) = slice_of gs) by (destruct gs; reflexivity).
    rewrite NG. exists (hex_encode bs). split; [|apply trim_lower_hex]. cbn [encode_codec].
    replace (match slice_of gs with VStr s => if String.eqb s "" then Ok "" else Ok (text_bytes_hex s) | _ => _ end)
      with (match elements (slice_of gs) with
          | Some l => if Z.of_nat (List.length l) =? n then concat_res (map (encode f' E (x_spec c) (x_meta c) sub) l)
                      else Panic "fixed length not match"
          | None => Panic "invalid vec input"
          end) by (destruct gs; reflexivity).
    rewrite EL, Lg. rewrite Z2Nat.id by lia. rewrite Z.eqb_refl. exact (seqenc_array _ _ _ _ _ H).
  - (* struct *)
    intros c tm bs gs cs _ IH ND M N. destruct (IH M) as [f H]. exists f. intros f' L. specialize (H f' L).
    cbn [norm encode_codec on_map]. exists (hex_encode bs). split; [|apply trim_lower_hex].
    exact (seqenc_fields _ tm bs gs H [] ND).
  - intros c M N. const ""; reflexivity.
  - (* value list *)
    intros c vl i s Hi HN Hs ND M N. const (U8Encode i); [|unfold U8Encode; apply trim_lower_hex].
    cbn [encode_enum]. rewrite (value_list_index_spec E vl _ s 0 (ND eq_refl) HN). rewrite Z.add_0_l, Z2Nat.id by lia. reflexivity.
  - intros c tm vl i name t HC I HT Hi U ND M N. const (U8Encode i); [|unfold U8Encode; apply trim_lower_hex].
    cbn [encode_enum]. rewrite HC, (c_like_index_spec E tm name t (ND eq_refl) I). now rewrite HT.
  - intros c tm vl i name sub bs g cs HC Hi HN Hs HV _ IH ND M N. destruct (IH M) as [f H]. exists f. intros f' L. specialize (H f' L).
    exists (hex_encode (Zb i :: bs)). split; [|apply trim_lower_hex].
    cbn [norm encode_codec encode_enum encode_enum_map]. rewrite HC, (name_index_spec tm _ name sub 0 (ND eq_refl) HN), HV, H. cbn [bind].
    rewrite Z.add_0_l, Z2Nat.id by lia. unfold U8Encode, BytesToHex. rewrite <- hex_encode_app. reflexivity.
  - intros c tm vl i name sub rows bs gs cs HC Hi HN Hs HV FR NDR _ IH ND M N. destruct (IH M) as [f H]. exists f. intros f' L. specialize (H f' L).
    exists (hex_encode (Zb i :: bs)). split; [|apply trim_lower_hex].
    cbn [norm encode_codec encode_enum encode_enum_map]. rewrite HC, (name_index_spec tm _ name sub 0 (ND eq_refl) HN), HV.
    change (fun (t : string) (x : val) => encode f' E (x_spec c) (x_meta c) t x) with (encode f' E (x_spec c) (x_meta c)).
    pose proof (seqenc_rows _ rows bs gs H FR [] NDR) as ER. cbn [app] in ER. rewrite ER. cbn [bind].
    rewrite Z.add_0_l, Z2Nat.id by lia. unfold U8Encode, BytesToHex. rewrite <- hex_encode_app. reflexivity.
  - intros c sub t_ok t_err bs g cs HS _ IH M N. destruct (IH M) as [f H]. exists f. intros f' L. specialize (H f' L).
    exists (hex_encode (Zb 0 :: bs)). split; [|apply trim_lower_hex].
    cbn [norm encode_codec on_map]. rewrite HS. cbn [assoc]. change (String.eqb "Ok" "Ok") with true. cbv iota. rewrite H. reflexivity.
  - intros c sub t_ok t_err bs g cs HS _ IH M N. destruct (IH M) as [f H]. exists f. intros f' L. specialize (H f' L).
    exists (hex_encode (Zb 1 :: bs)). split; [|apply trim_lower_hex].
    cbn [norm encode_codec on_map]. rewrite HS. cbn [assoc]. change (String.eqb "Ok" "Error") with false.
    change (String.eqb "Error" "Error") with true. cbv iota. rewrite H. reflexivity.
  - intros c M N. exists 1%nat. intros f' L. destruct f' as [|f']; [lia|]. exists "00". split; [|reflexivity].
    cbn [norm encode_codec on_map encode_data]. exact (enc_u8 0 f').
  - (* raw identity data *)
    intros c b s n Hb Hn SH HS M N. exists 1%nat. intros f' L. destruct f' as [|f']; [lia|].
    destruct (raw_key n ltac:(lia)) as (K1 & K2 & K3). exists (hex_encode (Zb (n + 1) :: b)). split; [|apply trim_lower_hex].
    cbn [norm encode_codec on_map encode_data]. cbv zeta. rewrite K1. change (-1 <? -1) with false. cbv iota. rewrite K2, K3.
    rewrite i64_small by (unfold two63; lia). rewrite enc_u8. cbn [bind].
    change (Zb (n + 1) :: b) with ([Zb (n + 1)] ++ b)%list. rewrite hex_encode_app.
    destruct SH as [b U|b U].
    + rewrite b2s_length. replace (n + 1 =? Z.of_nat (List.length b)) with false by lia. now rewrite s2b_b2s.
    + destruct (HS eq_refl) as [V|N1]; [contradiction|]. rewrite hex_encode_length.
      replace (n + 1 =? Z.of_nat (2 * List.length b)) with true by lia. reflexivity.
  - (* hashed identity data *)
    intros c i n b I Hb _ HS M N. destruct (HS eq_refl) as (cd0 & sub & G & IS). cbn [x_module x_spec] in G.
    exists 1%nat. intros f' L. destruct f' as [|f']; [lia|]. exists (hex_encode (Zb i :: b)). split; [|apply trim_lower_hex].
    assert (EH : encode (S f') E (-1) None "H256" (VStr ("0x" ++ hex_encode b)) = Ok (hex_encode b)).
    { cbn [encode]. change (equal_fold "H256" "Null") with false. cbv iota. rewrite G. cbn [bind]. rewrite IS. cbn [encode_codec on_string bind].
      now rewrite to_lower_0x, AddHex_0x, trim_lower_0x. }
    change (Zb i :: b) with ([Zb i] ++ b)%list. rewrite hex_encode_app.
    cbn [norm encode_codec on_map]. unfold encode_data.
    destruct I as [I|[I|[I|[I|[]]]]]; injection I as <- <-.
    all: match goal with |- context [SliceIndex ?k data_names] => let v := eval vm_compute in (SliceIndex k data_names) in change (SliceIndex k data_names) with v end.
    all: cbv zeta; match goal with |- context [-1 <? ?k] => change (-1 <? k) with true end; cbv iota.
    all: match goal with |- context [String.eqb ?a "None"] => change (String.eqb a "None") with false end; cbv iota.
    all: rewrite enc_u8; cbn [bind]; match goal with |- context [nth ?k data_types ""] => change (nth k data_types "") with "H256" end.
    all: rewrite EH; reflexivity.
  - intros c M. exists O. intros. constructor.
  - intros c t ts b bs g gs cs1 cs2 _ IH1 _ IH2 M. destruct (IH1 M) as [f1 H1]. destruct (IH2 M) as [f2 H2].
    exists (Nat.max f1 f2). intros f' L. constructor; [apply H1; lia|apply H2; lia].
Qed.
End Enc.
