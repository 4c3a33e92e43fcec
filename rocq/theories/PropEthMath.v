(** C57 to C59: the integer helpers of utiles/crypto/ethereum/common/math. *)

From Verif Require Import GoBase SpecNum ProofsBase ModelTools ProofsTools ModelUint128 ModelEncode ModelEthMath.

(** ** C57: checked 64-bit arithmetic *)
Theorem C57_safe x y : 0 <= x < 2 ^ 64 -> 0 <= y < 2 ^ 64 ->
  SafeAdd x y = ((x + y) mod 2 ^ 64, 2 ^ 64 <=? x + y) /\
  SafeSub x y = ((x - y) mod 2 ^ 64, x <? y) /\
  SafeMul x y = ((x * y) mod 2 ^ 64, 2 ^ 64 <=? x * y).
Proof.
  intros X Y. unfold SafeAdd, SafeSub, SafeMul, add64, sub64, mul64, u64, two64.
  assert (N : 0 <= x * y) by (apply Z.mul_nonneg_nonneg; lia).
  generalize dependent (x * y). intros p N.
  rewrite Z.add_0_r, Z.sub_0_r. split; [|split]; f_equal.
  - destruct (Z.leb_spec (2 ^ 64) (x + y)).
    + replace ((x + y) / 2 ^ 64) with 1; [reflexivity|]. apply (Z.div_unique _ _ _ (x + y - 2 ^ 64)); lia.
    + now rewrite Z.div_small by lia.
  - destruct (Z.ltb_spec (x - y) 0), (Z.ltb_spec x y); try lia; reflexivity.
  - destruct (Z.leb_spec (2 ^ 64) p).
    + assert (1 <= p / 2 ^ 64) by (apply Z.div_le_lower_bound; lia). destruct (Z.eqb_spec (p / 2 ^ 64) 0); [lia|reflexivity].
    + now rewrite Z.div_small by lia.
Qed.
Print Assumptions C57_safe.
Example C57_case : SafeMul (2 ^ 33) (2 ^ 31 + 1) = (2 ^ 33, true) /\ SafeSub 1 2 = (2 ^ 64 - 1, true) /\ SafeAdd 1 2 = (3, false).
Proof. repeat split. Qed.

(** ** C58: 256-bit numbers *)
Theorem C58_u256 x : ModelEthMath.U256 x = x mod 2 ^ 256.
Proof. unfold ModelEthMath.U256, tt256m1, tt256. rewrite Z.sub_1_r, <- Z.ones_equiv. now apply Z.land_ones. Qed.
Theorem C58_s256 x : 0 <= x < 2 ^ 256 ->
  - 2 ^ 255 <= S256 x < 2 ^ 255 /\ S256 x mod 2 ^ 256 = x.
Proof.
  intros H. unfold S256, tt255, tt256. change (2 ^ 256) with (2 * 2 ^ 255) in *. destruct (Z.ltb_spec x (2 ^ 255)).
  - split; [lia|]. now apply Z.mod_small.
  - split; [lia|]. symmetry. apply (Z.mod_unique _ _ (-1)); lia.
Qed.
(** The two are inverse to each other. *)
Theorem C58_signed x : - 2 ^ 255 <= x < 2 ^ 255 -> S256 (ModelEthMath.U256 x) = x.
Proof.
  intros H. rewrite C58_u256. unfold S256, tt255, tt256. change (2 ^ 256) with (2 * 2 ^ 255). destruct (Z.leb_spec 0 x).
  - rewrite Z.mod_small by lia. destruct (Z.ltb_spec x (2 ^ 255)); [reflexivity|lia].
  - replace (x mod (2 * 2 ^ 255)) with (x + 2 * 2 ^ 255) by (apply (Z.mod_unique _ _ (-1)); lia).
    destruct (Z.ltb_spec (x + 2 * 2 ^ 255) (2 ^ 255)); lia.
Qed.

(** *** Words *)
Fixpoint words_val (ws : list Z) : Z := match ws with [] => 0 | w :: r => w + 2 ^ 64 * words_val r end.
Lemma word_list_val n z : words_val (word_list n z) = z mod 2 ^ (64 * Z.of_nat n).
Proof.
  revert z. induction n as [|n IH]; intros z; [now rewrite Z.mul_0_r, Z.mod_1_r|].
  cbn [word_list words_val]. rewrite IH. unfold u64, two64.
  replace (64 * Z.of_nat (S n)) with (64 + 64 * Z.of_nat n) by lia. rewrite Z.pow_add_r by lia.
  now rewrite Z.rem_mul_r by lia.
Qed.
Lemma bit_len_bound z : 0 <= bit_len z /\ Z.abs z < 2 ^ bit_len z.
Proof.
  unfold bit_len. destruct (Z.eqb_spec z 0) as [->|N]; [split; [lia|cbn; lia]|].
  pose proof (Z.log2_nonneg (Z.abs z)). split; [lia|]. rewrite Z.add_1_r. apply Z.log2_spec. lia.
Qed.
Lemma bit_len_least z k : 0 <= k -> Z.abs z < 2 ^ k -> bit_len z <= k.
Proof.
  intros K H. unfold bit_len. destruct (Z.eqb_spec z 0); [lia|].
  assert (Z.log2 (Z.abs z) < k) by (apply Z.log2_lt_pow2; lia). lia.
Qed.
Lemma Bits_val z : words_val (Bits z) = Z.abs z.
Proof.
  unfold Bits. rewrite word_list_val. destruct (bit_len_bound z) as [B L].
  assert (0 <= (bit_len z + 63) / 64) by (apply Z.div_pos; lia).
  rewrite Z2Nat.id by lia. apply Z.mod_small. split; [lia|].
  eapply Z.lt_le_trans; [exact L|]. apply Z.pow_le_mono_r; [lia|].
  pose proof (Z.mul_succ_div_gt (bit_len z + 63) 64). lia.
Qed.
Lemma word_list_range n z : Forall (fun w => 0 <= w < 2 ^ 64) (word_list n z).
Proof.
  revert z. induction n as [|n IH]; intros z; constructor; [|apply IH]. unfold u64, two64. apply Z.mod_pos_bound. lia.
Qed.

(** *** Powers *)
Lemma mod_mul_l a b m : m <> 0 -> (a mod m * b) mod m = (a * b) mod m.
Proof. intros. apply Z.mul_mod_idemp_l; assumption. Qed.
Lemma pow_mod a n m : 0 < m -> 0 <= n -> ((a mod m) ^ n) mod m = (a ^ n) mod m.
Proof.
  intros M N. revert n N. apply natlike_ind; [reflexivity|]. intros n N IH.
  rewrite !Z.pow_succ_r by assumption. rewrite Z.mul_mod_idemp_l by lia.
  rewrite <- (Z.mul_mod_idemp_r a), IH by lia. apply Z.mul_mod_idemp_r. lia.
Qed.
Lemma exp_bits_spec k w r b : 0 <= w < 2 ^ Z.of_nat k -> 0 <= r < 2 ^ 256 ->
  exists b', exp_bits k w r b = ((r * b ^ w) mod 2 ^ 256, b') /\ b' mod 2 ^ 256 = (b ^ (2 ^ Z.of_nat k)) mod 2 ^ 256.
Proof.
  revert w r b. induction k as [|k IH]; intros w r b W R.
  - cbn [exp_bits]. exists b. replace w with 0 by (cbn in W; lia). rewrite Z.pow_0_r, Z.mul_1_r. rewrite (Z.mod_small r) by assumption.
    split; [reflexivity|]. now rewrite Z.pow_0_r, Z.pow_1_r.
  - cbn [exp_bits]. rewrite Nat2Z.inj_succ, Z.pow_succ_r in W by lia. rewrite !C58_u256.
    set (r' := if Z.odd w then (r * b) mod 2 ^ 256 else r).
    assert (R' : 0 <= r' < 2 ^ 256) by (unfold r'; destruct (Z.odd w); [apply Z.mod_pos_bound; lia|assumption]).
    assert (W' : 0 <= w / 2 < 2 ^ Z.of_nat k) by (split; [apply Z.div_pos; lia|apply Z.div_lt_upper_bound; lia]).
    destruct (IH (w / 2) r' ((b * b) mod 2 ^ 256) W' R') as (b' & E & B). exists b'. rewrite E. split.
    + f_equal. rewrite <- (Z.mul_mod_idemp_r r'), pow_mod by lia. rewrite Z.mul_mod_idemp_r by lia.
      rewrite <- (Z.pow_2_r b), <- Z.pow_mul_r by lia.
      pose proof (Z.div_mod w 2 ltac:(lia)) as D. rewrite Zmod_odd in D. unfold r'. destruct (Z.odd w).
      * rewrite Z.mul_mod_idemp_l by lia. f_equal. rewrite <- Z.mul_assoc. f_equal. rewrite D at 2. rewrite Z.add_1_r, Z.pow_succ_r by lia. reflexivity.
      * f_equal. f_equal. f_equal. lia.
    + rewrite B, pow_mod by lia. f_equal. rewrite <- (Z.pow_2_r b), <- Z.pow_mul_r by lia. f_equal.
      now rewrite Nat2Z.inj_succ, Z.pow_succ_r by lia.
Qed.
Lemma exp_words_spec ws r b : Forall (fun w => 0 <= w < 2 ^ 64) ws -> 0 <= r < 2 ^ 256 ->
  fst (exp_words ws r b) = (r * b ^ words_val ws) mod 2 ^ 256.
Proof.
  revert r b. induction ws as [|w ws IH]; intros r b F R.
  - cbn [exp_words words_val fst]. now rewrite Z.pow_0_r, Z.mul_1_r, Z.mod_small.
  - inversion F; subst. cbn [exp_words words_val].
    destruct (exp_bits_spec 64 w r b H1 R) as (b' & -> & B).
    cbv beta iota.
    assert (R' : 0 <= (r * b ^ w) mod 2 ^ 256 < 2 ^ 256) by (apply Z.mod_pos_bound; reflexivity).
    rewrite (IH _ b' H2 R').
    assert (0 <= words_val ws) by (clear -H2; induction H2; cbn [words_val]; lia).
    assert (M0 : 2 ^ 256 <> 0) by discriminate. assert (M1 : 0 < 2 ^ 256) by reflexivity.
    clear R' IH. generalize dependent (2 ^ 256). intros M R B M0 M1.
    rewrite Z.mul_mod_idemp_l by exact M0. rewrite <- (Z.mul_mod_idemp_r _ (b' ^ _)) by exact M0.
    rewrite <- (pow_mod b') by assumption. rewrite B, pow_mod by assumption.
    rewrite Z.mul_mod_idemp_r by exact M0. f_equal. rewrite <- Z.mul_assoc. f_equal.
    change (Z.of_nat 64) with 64. rewrite <- Z.pow_mul_r by (assumption || discriminate).
    rewrite <- Z.pow_add_r; [reflexivity|apply H1|].
    apply Z.mul_nonneg_nonneg; [discriminate|assumption].
Qed.
Theorem C58_exp base exponent : 0 <= exponent -> fst (Exp base exponent) = (base ^ exponent) mod 2 ^ 256.
Proof.
  intros H. unfold Exp. rewrite exp_words_spec; [|apply word_list_range|lia]. rewrite Bits_val, Z.abs_eq, Z.mul_1_l by assumption. reflexivity.
Qed.
(** Exp "does not change base or exponent" (big.go:242-243). *)
Theorem C58_exp_base_refuted : exists base exponent, 0 <= base < 2 ^ 256 /\ 0 < exponent /\ fst (Exp base exponent) = base /\ snd (Exp base exponent) <> base.
Proof. exists 3, 1. split; [lia|]. split; [lia|]. split; [reflexivity|]. vm_compute. discriminate. Qed.

(** *** Bytes *)
(** The byte of weight 256^k. *)
Definition byte_of (z : Z) (k : nat) : ascii := Zb (Z.abs z / 256 ^ Z.of_nat k).
Lemma be_bytes_rev n z acc : be_bytes n z acc = (rev (le_bytes n z) ++ acc)%list.
Proof. revert z acc. induction n as [|n IH]; intros z acc; [reflexivity|]. cbn [be_bytes le_bytes rev]. rewrite IH, <- app_assoc. reflexivity. Qed.
Lemma le_bytes_nth n z k : (k < n)%nat -> nth k (le_bytes n z) "000"%char = Zb (z / 256 ^ Z.of_nat k).
Proof.
  revert z k. induction n as [|n IH]; intros z k H; [lia|]. destruct k; cbn [le_bytes nth]; [now rewrite Z.pow_0_r, Z.div_1_r|].
  rewrite IH by lia. f_equal. rewrite pow256_S, Z.div_div by (try apply pow256_pos; lia). reflexivity.
Qed.
Lemma rev_nth_le n z k : (k < n)%nat -> nth k (rev (le_bytes n z)) "000"%char = Zb (z / 256 ^ Z.of_nat (n - 1 - k)).
Proof.
  intros H. rewrite rev_nth; rewrite le_bytes_length; [|assumption]. rewrite le_bytes_nth by lia. do 3 f_equal. lia.
Qed.
Lemma byte_zero z k : Z.abs z < 256 ^ Z.of_nat k -> byte_of z k = "000"%char.
Proof. intros H. unfold byte_of. rewrite Z.div_small by lia. reflexivity. Qed.

Lemma Zb_mod_pow z j n : (j < n)%nat -> Zb (z mod 256 ^ Z.of_nat n / 256 ^ Z.of_nat j) = Zb (z / 256 ^ Z.of_nat j).
Proof.
  intros H. pose proof (pow256_pos j). replace n with (j + (n - j))%nat by lia. rewrite Nat2Z.inj_add, Z.pow_add_r by lia.
  rewrite Z.rem_mul_r by (try apply Z.pow_pos_nonneg; lia).
  rewrite (Z.mul_comm (256 ^ Z.of_nat j)), Z.div_add by lia. rewrite Z.div_small by (apply Z.mod_pos_bound; lia). rewrite Z.add_0_l.
  rewrite <- Zb_mod. rewrite <- (Zb_mod (z / _)). f_equal.
  replace (n - j)%nat with (S (n - j - 1)) by lia. rewrite pow256_S.
  rewrite Z.rem_mul_r by (try apply Z.pow_pos_nonneg; lia). rewrite Z.mul_comm, Z.mod_add by lia. apply Z.mod_mod. lia.
Qed.
(** Words hold the bytes. *)
Lemma word_list_nth n z i : (i < n)%nat -> nth_error (word_list n z) i = Some ((z / 2 ^ (64 * Z.of_nat i)) mod 2 ^ 64).
Proof.
  revert z i. induction n as [|n IH]; intros z i H; [lia|]. destruct i; cbn [word_list nth_error].
  - rewrite Z.mul_0_r, Z.pow_0_r, Z.div_1_r. reflexivity.
  - rewrite IH by lia. do 2 f_equal. unfold two64. rewrite Z.div_div by (try apply Z.pow_pos_nonneg; lia).
    f_equal. rewrite <- Z.pow_add_r by lia. f_equal. lia.
Qed.
Lemma word_list_length n z : List.length (word_list n z) = n.
Proof. revert z. induction n; intros z; cbn [word_list List.length]; [reflexivity|]. now rewrite IHn. Qed.
Lemma byte_at z n : bigEndianByteAt z n = byte_of z n.
Proof.
  unfold bigEndianByteAt, Bits. set (m := Z.to_nat ((bit_len z + 63) / 64)).
  pose proof (Nat.div_mod n 8 ltac:(lia)) as D. pose proof (Nat.mod_upper_bound n 8 ltac:(lia)) as U.
  destruct (Nat.lt_ge_cases (n / 8) m) as [L|L].
  - rewrite word_list_nth by assumption. unfold byte_of.
    change (2 ^ 64) with (256 ^ Z.of_nat 8). replace (2 ^ (8 * Z.of_nat (n mod 8))) with (256 ^ Z.of_nat (n mod 8)) by (change 256 with (2 ^ 8); rewrite <- Z.pow_mul_r by lia; reflexivity).
    rewrite Zb_mod_pow by assumption. f_equal. rewrite Z.div_div by (try apply Z.pow_pos_nonneg; lia). f_equal.
    rewrite D at 3. change 256 with (2 ^ 8). rewrite <- !Z.pow_mul_r by lia. rewrite <- Z.pow_add_r by lia. f_equal. lia.
  - rewrite (proj2 (nth_error_None _ _)) by (rewrite word_list_length; assumption). symmetry. apply byte_zero.
    destruct (bit_len_bound z) as [B H]. eapply Z.lt_le_trans; [exact H|].
    change 256 with (2 ^ 8). rewrite <- Z.pow_mul_r by lia. apply Z.pow_le_mono_r; [lia|].
    assert (0 <= (bit_len z + 63) / 64) by (apply Z.div_pos; lia).
    assert ((bit_len z + 63) / 64 <= Z.of_nat (n / 8)) by lia.
    pose proof (Z.mul_succ_div_gt (bit_len z + 63) 64 ltac:(lia)). lia.
Qed.

(** [Byte z p n]: position [n] of the [p] low-order bytes, most significant first. *)
Theorem C58_byte z p n : Byte z p n = if (n <? p)%nat then byte_of z (p - 1 - n) else "000"%char.
Proof. unfold Byte. destruct (Nat.leb_spec p n), (Nat.ltb_spec n p); try lia; [reflexivity|]. apply byte_at. Qed.

(** BigMax and BigMin give one of their arguments, on the right side of both. *)
Theorem C58_max_min x y :
  (BigMax x y = x \/ BigMax x y = y) /\ x <= BigMax x y /\ y <= BigMax x y /\
  (BigMin x y = x \/ BigMin x y = y) /\ BigMin x y <= x /\ BigMin x y <= y.
Proof. unfold BigMax, BigMin. destruct (Z.ltb_spec x y), (Z.ltb_spec y x); lia. Qed.
Print Assumptions C58_max_min.
Example C58_max_min_case : BigMax (-3) 2 = 2 /\ BigMin (-3) 2 = -3.
Proof. split; reflexivity. Qed.

Lemma set_nth_split i c (b : bytes) : (i < List.length b)%nat -> set_nth i c b = (firstn i b ++ c :: skipn (S i) b)%list.
Proof.
  revert b. induction i as [|i IH]; intros [|x b] H; cbn [List.length] in H; try lia; [reflexivity|].
  cbn [set_nth firstn skipn app]. rewrite IH by lia. reflexivity.
Qed.
Lemma firstn_mid {A} n (a b : list A) : (n <= List.length a)%nat -> firstn n (a ++ b) = firstn n a.
Proof. intros H. rewrite firstn_app. replace (n - List.length a)%nat with 0%nat by lia. now rewrite firstn_O, app_nil_r. Qed.
Lemma skipn_exact {A} n (a b : list A) : n = List.length a -> skipn n (a ++ b) = b.
Proof. intros ->. rewrite skipn_app, skipn_all, Nat.sub_diag. reflexivity. Qed.
Lemma read_word_spec j d i buf : (i <= List.length buf)%nat ->
  let m := Nat.min j i in
  read_word j d i buf = ((i - m)%nat, (firstn (i - m) buf ++ rev (le_bytes m d) ++ skipn i buf)%list).
Proof.
  revert d i buf. induction j as [|j IH]; intros d i buf H.
  - cbn [read_word Nat.min le_bytes rev app]. rewrite Nat.sub_0_r, firstn_skipn. now destruct i.
  - destruct i as [|i]; [reflexivity|]. cbn [read_word Nat.min le_bytes rev]. rewrite IH by (rewrite set_nth_length; lia).
    cbv zeta. rewrite set_nth_split by lia. set (m := Nat.min j i).
    replace (S i - S m)%nat with (i - m)%nat by lia. f_equal.
    rewrite firstn_mid by (rewrite firstn_length; lia). rewrite firstn_firstn, Nat.min_l by lia. f_equal.
    rewrite skipn_exact by (rewrite firstn_length; lia). rewrite <- app_assoc. reflexivity.
Qed.
Lemma div_pow_small a b k : 0 <= a < 256 ^ Z.of_nat k -> (a + 256 ^ Z.of_nat k * b) / 256 ^ Z.of_nat k = b.
Proof. intros H. rewrite Z.mul_comm, Z.div_add by lia. rewrite Z.div_small by assumption. lia. Qed.
Lemma read_words_spec ws i buf : Forall (fun w => 0 <= w < 2 ^ 64) ws -> (i <= List.length buf)%nat ->
  let m := Nat.min (8 * List.length ws) i in
  read_words ws i buf = (firstn (i - m) buf ++ rev (le_bytes m (words_val ws)) ++ skipn i buf)%list.
Proof.
  revert i buf. induction ws as [|w ws IH]; intros i buf F H.
  - cbn [read_words List.length Nat.mul Nat.min le_bytes rev app]. cbv zeta. now rewrite Nat.sub_0_r, firstn_skipn.
  - inversion F as [|? ? W F']; subst. cbn [read_words List.length words_val]. rewrite read_word_spec by assumption. cbv zeta iota beta.
    set (a := Nat.min 8 i). assert (La : List.length (firstn (i - a) buf) = (i - a)%nat) by (rewrite firstn_length; lia).
    rewrite IH; [|assumption|rewrite app_length; lia]. cbv zeta.
    set (b := Nat.min (8 * List.length ws) (i - a)).
    replace (Nat.min (8 * S (List.length ws)) i) with (a + b)%nat by lia.
    rewrite firstn_mid by lia. rewrite firstn_firstn, Nat.min_l by lia. rewrite (skipn_exact (i - a)) by congruence.
    replace (i - (a + b))%nat with (i - a - b)%nat by lia. f_equal.
    rewrite le_bytes_app, rev_app_distr, <- app_assoc.
    assert (E : a = 8%nat \/ b = 0%nat) by lia. destruct E as [E|E].
    + rewrite E. change (2 ^ 64) with (256 ^ Z.of_nat 8). rewrite div_pow_small by exact W. f_equal. f_equal. f_equal.
      rewrite <- (le_bytes_mod 8 (w + _)). rewrite Z.mul_comm, Z.mod_add by discriminate. now rewrite le_bytes_mod.
    + rewrite E. cbn [le_bytes rev app]. f_equal. f_equal.
      rewrite <- (le_bytes_mod a (w + _)). rewrite <- (le_bytes_mod a w). f_equal.
      change (2 ^ 64) with (256 ^ Z.of_nat 8). replace 8%nat with (a + (8 - a))%nat by lia.
      rewrite Nat2Z.inj_add, Z.pow_add_r by lia. rewrite <- Z.mul_assoc, (Z.mul_comm (256 ^ Z.of_nat a)), Z.mod_add by (pose proof (pow256_pos a); lia).
      reflexivity.
Qed.

Definition be_val (b : bytes) : Z := fold_left (fun a c => 256 * a + bZ c) b 0.
Lemma be_val_rev b : be_val (rev b) = le_val b.
Proof.
  unfold be_val. induction b as [|c b IH]; [reflexivity|]. cbn [rev le_val]. rewrite fold_left_app, IH. cbn [fold_left]. lia.
Qed.
(** The bytes of ReadBits: as many low-order bytes as there is room for,
    right-aligned, the rest of the buffer as it was where the number has no
    more words. *)
Theorem C58_read_bits z buf : (List.length buf <= 8 * List.length (Bits z))%nat ->
  ReadBits z buf = rev (le_bytes (List.length buf) (Z.abs z)).
Proof.
  intros H. unfold ReadBits. rewrite read_words_spec by (apply word_list_range || lia). rewrite Nat.min_r by assumption.
  rewrite Nat.sub_diag, skipn_all, app_nil_r, Bits_val. reflexivity.
Qed.
Lemma read_bits_zero z n : ReadBits z (repeat "000"%char n) = rev (le_bytes n (Z.abs z)).
Proof.
  unfold ReadBits. rewrite repeat_length, read_words_spec by (apply word_list_range || (rewrite repeat_length; lia)).
  rewrite Bits_val. cbv zeta. set (m := Nat.min (8 * List.length (Bits z)) n).
  rewrite (skipn_all2 (n:=n)), app_nil_r by (rewrite repeat_length; lia).
  replace n with (m + (n - m))%nat at 3 by lia. rewrite le_bytes_app, rev_app_distr. f_equal.
  assert (E : n = m \/ Z.abs z < 256 ^ Z.of_nat m).
  { destruct (Nat.le_gt_cases n (8 * List.length (Bits z))); [left; lia|right].
    replace m with (8 * List.length (Bits z))%nat by lia. unfold Bits. rewrite word_list_length. destruct (bit_len_bound z) as [B L].
    eapply Z.lt_le_trans; [exact L|]. change 256 with (2 ^ 8). rewrite <- Z.pow_mul_r by lia. apply Z.pow_le_mono_r; [lia|].
    assert (0 <= (bit_len z + 63) / 64) by (apply Z.div_pos; lia).
    pose proof (Z.mul_succ_div_gt (bit_len z + 63) 64 ltac:(lia)). lia. }
  destruct E as [E|E].
  - replace (n - m)%nat with 0%nat by lia. reflexivity.
  - rewrite Z.div_small by lia.
    assert (R : forall k, le_bytes k 0 = repeat "000"%char k) by (induction k as [|k IHk]; [reflexivity|cbn [le_bytes repeat]; rewrite Z.div_0_l, IHk by lia; reflexivity]).
    rewrite R. clear. assert (G : forall k n, (k <= n)%nat -> firstn k (repeat "000"%char n) = repeat "000"%char k).
    { induction k; intros [|n'] H; try lia; [reflexivity..|]. cbn [repeat firstn]. rewrite IHk by lia. reflexivity. }
    rewrite G by lia. generalize (n - m)%nat. intros k. induction k as [|k IHk]; [reflexivity|]. cbn [repeat rev]. rewrite <- IHk. apply repeat_cons.
Qed.
(** PaddedBigBytes: at least n bytes, no more than needed, big-endian. *)
Theorem C58_padded z n :
  be_val (PaddedBigBytes z n) = Z.abs z /\
  (n <= List.length (PaddedBigBytes z n))%nat /\
  forall k, (n <= k)%nat -> Z.abs z < 256 ^ Z.of_nat k -> (List.length (PaddedBigBytes z n) <= k)%nat.
Proof.
  unfold PaddedBigBytes. destruct (bit_len_bound z) as [B L].
  destruct (Z.leb_spec (Z.of_nat n) (bit_len z / 8)) as [P|P].
  - unfold Bytes. rewrite be_bytes_rev, app_nil_r, be_val_rev, rev_length, le_bytes_length.
    assert (Q : bit_len z / 8 <= (bit_len z + 7) / 8) by (apply Z.div_le_mono; lia).
    assert (0 <= bit_len z / 8) by (apply Z.div_pos; lia). split; [|split].
    + apply le_val_bytes_small. split; [lia|]. eapply Z.lt_le_trans; [exact L|]. change 256 with (2 ^ 8). rewrite <- Z.pow_mul_r by lia.
      apply Z.pow_le_mono_r; [lia|]. pose proof (Z.mul_succ_div_gt (bit_len z + 7) 8 ltac:(lia)). lia.
    + lia.
    + intros k K H'. assert (bit_len z <= 8 * Z.of_nat k).
      { apply bit_len_least; [lia|]. rewrite Z.pow_mul_r by lia. exact H'. }
      assert ((bit_len z + 7) / 8 <= Z.of_nat k) by (apply Z.lt_succ_r, Z.div_lt_upper_bound; lia). lia.
  - rewrite read_bits_zero, be_val_rev, rev_length, le_bytes_length. split; [|split; [lia|auto]].
    apply le_val_bytes_small. split; [lia|]. eapply Z.lt_le_trans; [exact L|]. change 256 with (2 ^ 8). rewrite <- Z.pow_mul_r by lia.
    apply Z.pow_le_mono_r; [lia|]. pose proof (Z.mul_succ_div_gt (bit_len z) 8 ltac:(lia)). lia.
Qed.
(** U256Bytes: 32 bytes of two's complement. *)
Theorem C58_u256_bytes x : List.length (U256Bytes x) = 32%nat /\ be_val (U256Bytes x) = x mod 2 ^ 256.
Proof.
  unfold U256Bytes. rewrite C58_u256. assert (R : 0 <= x mod 2 ^ 256 < 2 ^ 256) by (apply Z.mod_pos_bound; reflexivity).
  destruct (C58_padded (x mod 2 ^ 256) 32) as (V & A & C). split; [|rewrite V; apply Z.abs_eq; lia].
  apply Nat.le_antisymm; [|exact A]. apply C; [lia|]. rewrite Z.abs_eq by lia. apply R.
Qed.
(** FirstBitSet: the number of times two divides. *)
Theorem C58_first_bit v : v <> 0 -> 0 <= FirstBitSet v /\ (2 ^ FirstBitSet v | v) /\ ~ (2 ^ (FirstBitSet v + 1) | v).
Proof.
  intros N. unfold FirstBitSet.
  assert (G : forall fuel i, 0 <= i -> i + Z.of_nat fuel = bit_len v -> (2 ^ i | v) ->
    0 <= first_bit fuel i v /\ (2 ^ first_bit fuel i v | v) /\ ~ (2 ^ (first_bit fuel i v + 1) | v)).
  { induction fuel as [|f IH]; intros i I E D.
    - exfalso. destruct (bit_len_bound v) as [B L]. apply N. destruct D as [q D]. subst v.
      replace (bit_len (q * 2 ^ i)) with i in L by lia. rewrite Z.abs_mul, (Z.abs_eq (2 ^ i)) in L by (apply Z.pow_nonneg; lia).
      pose proof (Z.pow_pos_nonneg 2 i ltac:(lia) I). assert (Z.abs q < 1) by (apply (Z.mul_lt_mono_pos_r (2 ^ i)); lia).
      replace q with 0 by lia. reflexivity.
    - cbn [first_bit]. destruct D as [q D]. rewrite D. rewrite (Z.mul_pow2_bits_add q i 0 I) || idtac.
      replace (Z.testbit (q * 2 ^ i) i) with (Z.odd q).
      2:{ rewrite <- Z.bit0_odd. rewrite <- (Z.mul_pow2_bits q i i) || idtac. rewrite Z.mul_pow2_bits by assumption. now rewrite Z.sub_diag. }
      rewrite <- D. destruct (Z.odd q) eqn:O.
      + split; [assumption|]. split; [now exists q|]. intros [p P]. rewrite Z.pow_add_r, Z.pow_1_r in P by lia.
        assert (q = p * 2).
        { apply (Z.mul_reg_r _ _ (2 ^ i)); [pose proof (Z.pow_pos_nonneg 2 i ltac:(lia) I); lia|]. rewrite <- D, P. ring. }
        subst q. rewrite Z.odd_mul, andb_false_r in O. discriminate.
      + apply IH; [lia|lia|]. exists (q / 2). rewrite Z.pow_add_r, Z.pow_1_r by lia.
        rewrite <- Z.negb_even, negb_false_iff in O. apply Z.even_spec in O. destruct O as [p P]. rewrite P in D |- *.
        rewrite (Z.mul_comm 2 p), Z.div_mul by lia. rewrite D. ring. }
  apply G; [lia| |]. { destruct (bit_len_bound v). rewrite Z2Nat.id by assumption. lia. } { rewrite Z.pow_0_r. apply Z.divide_1_l. }
Qed.
Example C58_case : ModelEthMath.U256 (-1) = 2 ^ 256 - 1 /\ S256 (2 ^ 256 - 5) = - 5 /\ fst (Exp 3 200) = 3 ^ 200 mod 2 ^ 256 /\
  PaddedBigBytes 258 4 = ["000"; "000"; "001"; "002"]%char /\ PaddedBigBytes (2 ^ 16) 2 = ["001"; "000"; "000"]%char /\
  Byte (2 ^ 70) 32 23 = "064"%char /\ FirstBitSet (5 * 2 ^ 70) = 70.
Proof. vm_compute. repeat split. Qed.

(** ** C59: numbers as text *)
Lemma hex_loop_parse fuel n acc : 0 <= n < 16 ^ Z.of_nat fuel -> (0 < fuel)%nat -> hex_acc 0 (hex_loop fuel n acc) = hex_acc n acc.
Proof.
  revert n acc. induction fuel as [|f IH]; intros n acc H P; [lia|]. cbn [hex_loop]. destruct (Z.ltb_spec n 16).
  - cbn [hex_acc]. rewrite hex_val_digit by lia. reflexivity.
  - rewrite Nat2Z.inj_succ, Z.pow_succ_r in H by lia.
    assert (M : 0 <= n mod 16 < 16) by (apply Z.mod_pos_bound; lia).
    assert (1 <= n / 16) by (apply Z.div_le_lower_bound; lia).
    assert (n / 16 < 16 ^ Z.of_nat f) by (apply Z.div_lt_upper_bound; lia).
    destruct f as [|f]; [cbn in *; lia|].
    rewrite IH by lia. cbn [hex_acc]. rewrite hex_val_digit by assumption. f_equal. pose proof (Z.div_mod n 16). lia.
Qed.
Lemma hex_loop_nonempty fuel n acc : (0 < fuel)%nat -> hex_loop fuel n acc <> "".
Proof.
  revert n acc. induction fuel as [|f IH]; intros n acc P; [lia|]. cbn [hex_loop]. destruct (n <? 16); [discriminate|].
  destruct f; [discriminate|]. apply IH. lia.
Qed.
Lemma parse_hex_text z : 0 <= z -> parse_hex (hex_text z) = Some z.
Proof.
  intros Z0. unfold hex_text. replace (z <? 0) with false by (symmetry; lia).
  set (f := S (Z.to_nat (Z.log2 z))).
  assert (H : 0 <= z < 16 ^ Z.of_nat f).
  { split; [lia|]. unfold f. rewrite Nat2Z.inj_succ, Z2Nat.id by apply Z.log2_nonneg.
    destruct (Z.eq_dec z 0) as [->|N]; [reflexivity|].
    apply Z.lt_le_trans with (2 ^ Z.succ (Z.log2 z)); [apply Z.log2_spec; lia|]. apply Z.pow_le_mono_l. lia. }
  unfold parse_hex. pose proof (hex_loop_nonempty f z "" ltac:(lia)). destruct (hex_loop f z "") eqn:E; [congruence|].
  rewrite <- E, hex_loop_parse by (assumption || lia). reflexivity.
Qed.
Lemma set_string16_text z : 0 <= z -> set_string16 (hex_text z) = Some z.
Proof.
  intros H. pose proof (parse_hex_text z H) as P. unfold set_string16. destruct (hex_text z) as [|c r]; [discriminate|].
  destruct (Ascii.eqb_spec c "-"%char) as [->|_]; [discriminate|]. destruct (Ascii.eqb_spec c "+"%char) as [->|_]; [discriminate|]. exact P.
Qed.
Lemma bit_len_256 z : Z.abs z < 2 ^ 256 -> (256 <? bit_len z) = false.
Proof. intros H. apply Z.ltb_ge. apply bit_len_least; [discriminate|assumption]. Qed.
Lemma itoa_not_0x z : is_0x (itoa z) = false.
Proof.
  destruct (is_0x (itoa z)) eqn:E; [exfalso|reflexivity].
  assert (P := parse_int_itoa z). unfold is_0x in E. destruct (itoa z) as [|a [|b s]]; cbn [stake] in E;
    apply orb_true_iff in E; destruct E as [E|E]; apply String.eqb_eq in E; (discriminate || (injection E as -> ->; discriminate)).
Qed.
Theorem C59_text z :
  (0 <= z < 2 ^ 256 -> ParseBig256 (HexOrDecimal256_text z) = Some z) /\
  (Z.abs z < 2 ^ 256 -> ParseBig256 (Decimal256_text z) = Some z) /\
  (0 <= z < 2 ^ 64 -> ParseUint64 (HexOrDecimal64_text z) = Some z).
Proof.
  split; [|split]; intros H.
  - unfold ParseBig256, HexOrDecimal256_text, fmt_0x. replace (z <? 0) with false by (symmetry; apply Z.ltb_ge; apply H).
    change (is_0x ("0x" ++ hex_text z)) with true. change (sdrop 2 ("0x" ++ hex_text z)) with (hex_text z).
    change (String.eqb ("0x" ++ hex_text z) "") with false. cbv iota. rewrite set_string16_text by apply H. rewrite bit_len_256; [reflexivity|].
    rewrite Z.abs_eq by apply H. apply H.
  - unfold ParseBig256, Decimal256_text. rewrite itoa_not_0x, parse_int_itoa, bit_len_256 by assumption.
    destruct (String.eqb_spec (itoa z) "") as [E|_]; [|reflexivity]. pose proof (parse_int_itoa z) as P. rewrite E in P. discriminate.
  - unfold ParseUint64, HexOrDecimal64_text. change (is_0x ("0x" ++ hex_text z)) with true.
    change (sdrop 2 ("0x" ++ hex_text z)) with (hex_text z). change (String.eqb ("0x" ++ hex_text z) "") with false. cbv iota.
    rewrite parse_hex_text by apply H. cbn [parse_uint]. unfold two64. replace (z <? 2 ^ 64) with true; [reflexivity|]. symmetry. apply Z.ltb_lt. apply H.
Qed.
(** What is read is in range, whatever the text. *)
Theorem C59_range s : (forall z, ParseBig256 s = Some z -> Z.abs z < 2 ^ 256) /\ (forall z, ParseUint64 s = Some z -> 0 <= z < 2 ^ 64).
Proof.
  split; intros z H.
  - unfold ParseBig256 in H. destruct (String.eqb s ""); [injection H as <-; reflexivity|].
    destruct (if is_0x s then _ else _); [|discriminate]. destruct (Z.ltb_spec 256 (bit_len z0)); [discriminate|]. injection H as <-.
    destruct (bit_len_bound z0) as [_ L]. eapply Z.lt_le_trans; [exact L|]. apply Z.pow_le_mono_r; [reflexivity|assumption].
  - unfold ParseUint64 in H. destruct (String.eqb s ""); [injection H as <-; split; [discriminate|reflexivity]|].
    assert (P : forall o, (forall x, o = Some x -> 0 <= x) -> parse_uint o = Some z -> 0 <= z < 2 ^ 64).
    { intros [x|] N Q; [|discriminate]. cbn [parse_uint] in Q. unfold two64 in Q. destruct (Z.ltb_spec x (2 ^ 64)); [|discriminate]. injection Q as <-. split; auto. }
    assert (A : forall t a x, 0 <= a -> hex_acc a t = Some x -> 0 <= x).
    { induction t as [|c t IH]; intros a x A Q; cbn [hex_acc] in Q; [now injection Q as <-|].
      destruct (hex_val c) eqn:C; [|discriminate]. apply hex_val_range in C. eapply IH; [|exact Q]. lia. }
    assert (D : forall t a, 0 <= a -> all_digits t = true -> 0 <= dec_val a t).
    { induction t as [|c t IH]; intros a I Q; cbn [dec_val all_digits] in *; [assumption|]. apply andb_true_iff in Q. destruct Q as [Q1 Q2].
      apply IH; [|assumption]. unfold is_digit, digit_val in *. pose proof (bZ_range c). lia. }
    destruct (is_0x s); (eapply P; [|exact H]); intros x Q.
    + unfold parse_hex in Q. destruct (sdrop 2 s); [discriminate|]. eapply A; [|exact Q]. lia.
    + unfold parse_digits in Q. destruct s as [|a s]; [discriminate|]. destruct (all_digits _) eqn:G in Q; [|discriminate]. injection Q as <-.
      refine (D (String a s) 0 _ G). lia.
Qed.
(** HexOrDecimal256 writes a negative number as text that it refuses to read. *)
Theorem C59_negative_refuted : exists z, Z.abs z < 2 ^ 256 /\ ParseBig256 (HexOrDecimal256_text z) = None /\ ParseBig256 (Decimal256_text z) = Some z.
Proof. exists (- 5). repeat split. Qed.
Example C59_case : HexOrDecimal256_text 258 = "0x102" /\ Decimal256_text (-258) = "-258" /\ ParseBig256 "0x-5" = Some (-5) /\ ParseUint64 "18446744073709551616" = None.
Proof. vm_compute. repeat split. Qed.
Print Assumptions C58_exp.
Print Assumptions C58_padded.
Print Assumptions C59_text.
Print Assumptions C59_range.

(** Text of digits only, with any number of leading zeros, is read as the number
    it writes, and refused exactly when that is too large. *)
Theorem C59_digits s : s <> "" -> Forall (fun c => 48 <= bZ c <= 57) (s2b s) ->
  ParseBig256 s = (if positional s <? 2 ^ 256 then Some (positional s) else None) /\ ParseUint64 s = (if positional s <? 2 ^ 64 then Some (positional s) else None).
Proof.
  intros NE D. assert (X : is_0x s = false).
  { destruct s as [|a [|b s]]; [congruence|unfold is_0x; cbn; now destruct (Ascii.eqb a "0"%char)|]. cbn in D. inversion D as [|? ? _ D2]; subst. inversion D2; subst.
    unfold is_0x. cbn. destruct (Ascii.eqb_spec a "0"%char) as [->|_]; [|reflexivity]. cbn.
    destruct (Ascii.eqb_spec b "x"%char) as [->|_]; [exfalso; revert H1; vm_compute; intuition congruence|].
    destruct (Ascii.eqb_spec b "X"%char) as [->|_]; [exfalso; revert H1; vm_compute; intuition congruence|reflexivity]. }
  assert (P : parse_digits s = Some (positional s)).
  { unfold parse_digits. destruct s as [|a s]; [congruence|]. rewrite (proj2 (all_digits_Forall _) D). f_equal. apply dec_val_positional. }
  assert (N : 0 <= positional s) by apply (pos_acc_range _ D).
  assert (E : String.eqb s "" = false) by (destruct (String.eqb_spec s ""); congruence).
  unfold ParseBig256, ParseUint64. rewrite E, X, P. split; [|reflexivity].
  assert (Q : parse_int s = Some (positional s)).
  { rewrite <- P. destruct s as [|a s]; [congruence|]. unfold parse_int. cbn in D. inversion D as [|? ? D1 _]; subst.
    destruct (Ascii.eqb_spec a "-"%char) as [->|_]; [exfalso; revert D1; vm_compute; intuition congruence|].
    destruct (Ascii.eqb_spec a "+"%char) as [->|_]; [exfalso; revert D1; vm_compute; intuition congruence|reflexivity]. }
  rewrite Q. destruct (Z.ltb_spec (positional s) (2 ^ 256)) as [L|G].
  - assert (B : bit_len (positional s) <= 256) by (apply bit_len_least; [lia|rewrite Z.abs_eq by exact N; exact L]). destruct (Z.ltb_spec 256 (bit_len (positional s))); [lia|reflexivity].
  - destruct (Z.ltb_spec 256 (bit_len (positional s))) as [_|B]; [reflexivity|]. exfalso. destruct (bit_len_bound (positional s)) as [B0 L]. rewrite Z.abs_eq in L by exact N.
    apply (Z.lt_irrefl (2 ^ 256)). eapply Z.le_lt_trans; [exact G|]. eapply Z.lt_le_trans; [exact L|]. apply Z.pow_le_mono_r; [reflexivity|exact B].
Qed.
(** UnmarshalText changes the number only when it succeeds, and what MarshalText
    wrote is restored; the Must functions panic exactly on the texts refused. *)
Theorem C59_unmarshal held s :
  (forall z, UnmarshalText256 held s = (z, true) <-> ParseBig256 s = Some z) /\ (forall z, UnmarshalText64 held s = (z, true) <-> ParseUint64 s = Some z)
  /\ (snd (UnmarshalText256 held s) = false -> fst (UnmarshalText256 held s) = held) /\ (snd (UnmarshalText64 held s) = false -> fst (UnmarshalText64 held s) = held)
  /\ (forall z, Z.abs z < 2 ^ 256 -> UnmarshalText256 held (Decimal256_text z) = (z, true)) /\ (forall z, 0 <= z < 2 ^ 256 -> UnmarshalText256 held (HexOrDecimal256_text z) = (z, true))
  /\ (forall z, 0 <= z < 2 ^ 64 -> UnmarshalText64 held (HexOrDecimal64_text z) = (z, true)).
Proof.
  unfold UnmarshalText256, UnmarshalText64. repeat split; intros; repeat match goal with
    | H : context [match ?o with Some _ => _ | None => _ end] |- _ => destruct o; cbn [fst snd] in H
    | |- context [match ParseBig256 s with Some _ => _ | None => _ end] => destruct (ParseBig256 s)
    | |- context [match ParseUint64 s with Some _ => _ | None => _ end] => destruct (ParseUint64 s) end; cbn [fst snd] in *; try congruence.
  - now rewrite (proj1 (proj2 (C59_text z)) H).
  - now rewrite (proj1 (C59_text z) H).
  - now rewrite (proj2 (proj2 (C59_text z)) H).
Qed.
Theorem C59_must s :
  (forall z, MustParseBig256 s = Ok z <-> ParseBig256 s = Some z) /\ (forall z, MustParseUint64 s = Ok z <-> ParseUint64 s = Some z)
  /\ ((exists e, MustParseBig256 s = Panic e) <-> ParseBig256 s = None) /\ ((exists e, MustParseUint64 s = Panic e) <-> ParseUint64 s = None).
Proof.
  unfold MustParseBig256, MustParseUint64. destruct (ParseBig256 s), (ParseUint64 s); repeat split; intros; try congruence;
    try match goal with H : exists _, _ |- _ => destruct H; discriminate end; eexists; reflexivity.
Qed.
Example C59_digits_case : ParseBig256 "000258" = Some 258 /\ ParseUint64 "0000000000000000000000007" = Some 7 /\ UnmarshalText64 3 "1e5" = (3, false) /\ MustParseUint64 "12x" = Panic "invalid unsigned 64 bit integer: 12x".
Proof. vm_compute. repeat split. Qed.
Print Assumptions C59_digits.
Print Assumptions C59_unmarshal.
Print Assumptions C59_must.
