(** Proofs about the Uint128 model. *)

From Verif Require Import GoBase SpecNum ModelUint128 SpecUint128 ProofsBase.
Ltac Zify.zify_post_hook ::= Z.div_mod_to_equations.


Lemma two64_eq : two64 = 2 ^ 64. Proof. reflexivity. Qed.
Lemma m128_eq : m128 = 2 ^ 64 * 2 ^ 64. Proof. reflexivity. Qed.

Ltac unf := unfold wf, value, u64, two64, m128 in *; cbn [lo hi fst snd] in *.
Ltac pw := change (2 ^ 128) with 340282366920938463463374607431768211456 in *;
           change (2 ^ 64) with 18446744073709551616 in *.

Lemma value_range u : wf u -> 0 <= value u < m128.
Proof. unf. pw. lia. Qed.

Lemma value_inj a b : wf a -> wf b -> value a = value b -> a = b.
Proof. destruct a as [la ha], b as [lb hb]. unf. pw. intros. f_equal; lia. Qed.

Lemma of_value v : 0 <= v < m128 -> wf (U (v mod 2 ^ 64) (v / 2 ^ 64)) /\ value (U (v mod 2 ^ 64) (v / 2 ^ 64)) = v.
Proof. unf. pw. lia. Qed.

(** ** Comparison *)
Lemma Equals_spec a b : wf a -> wf b -> Equals a b = (value a =? value b).
Proof.
  unfold Equals. unf. pw. intros.
  destruct (Z.eqb_spec (lo a) (lo b)), (Z.eqb_spec (hi a) (hi b)); cbn [andb]; lia.
Qed.
Lemma IsZero_spec a : wf a -> IsZero a = (value a =? 0).
Proof. intros H. unfold IsZero. rewrite Equals_spec; [reflexivity|exact H|]. unfold Zero. unf. pw. lia. Qed.
Lemma Equals64_spec a v : wf a -> 0 <= v < 2 ^ 64 -> Equals64 a v = (value a =? v).
Proof.
  unfold Equals64. unf. pw. intros.
  destruct (Z.eqb_spec (lo a) v), (Z.eqb_spec (hi a) 0); cbn [andb]; lia.
Qed.
Lemma Cmp_spec a b : wf a -> wf b ->
  Cmp a b = if value a <? value b then -1 else if value a =? value b then 0 else 1.
Proof.
  intros Ha Hb. unfold Cmp. rewrite Equals_spec by assumption.
  destruct (Z.eqb_spec (value a) (value b)) as [E|E].
  - rewrite E, Z.ltb_irrefl. reflexivity.
  - unf. pw. destruct (Z.ltb_spec (hi a) (hi b)), (Z.eqb_spec (hi a) (hi b)), (Z.ltb_spec (lo a) (lo b)); cbn [andb orb];
      destruct (Z.ltb_spec (lo a + 18446744073709551616 * hi a) (lo b + 18446744073709551616 * hi b)); lia.
Qed.
Lemma Cmp64_spec a v : wf a -> 0 <= v < 2 ^ 64 ->
  Cmp64 a v = if value a <? v then -1 else if value a =? v then 0 else 1.
Proof.
  intros Ha Hb. unfold Cmp64. unf. pw.
  destruct (Z.ltb_spec 0 (hi a)), (Z.ltb_spec v (lo a)), (Z.eqb_spec (lo a) v); cbn [andb orb];
    destruct (Z.ltb_spec (lo a + 18446744073709551616 * hi a) v), (Z.eqb_spec (lo a + 18446744073709551616 * hi a) v); lia.
Qed.

(** ** Addition, subtraction, multiplication *)
Lemma Add_spec a b : wf a -> wf b -> wf (Add a b) /\ value (Add a b) = (value a + value b) mod m128.
Proof. unfold Add, add64. unf. pw. lia. Qed.
Lemma Add64_spec a v : wf a -> 0 <= v < 2 ^ 64 -> wf (Add64 a v) /\ value (Add64 a v) = (value a + v) mod m128.
Proof. unfold Add64, add64. unf. pw. lia. Qed.
Lemma Sub_spec a b : wf a -> wf b -> wf (Sub a b) /\ value (Sub a b) = (value a - value b) mod m128.
Proof.
  unfold Sub, sub64. unf. pw. intros Ha Hb.
  destruct (Z.ltb_spec (lo a - lo b - 0) 0); lia.
Qed.
Lemma Sub64_spec a v : wf a -> 0 <= v < 2 ^ 64 -> wf (Sub64 a v) /\ value (Sub64 a v) = (value a - v) mod m128.
Proof.
  unfold Sub64, sub64. unf. pw. intros Ha Hb.
  destruct (Z.ltb_spec (lo a - v - 0) 0); lia.
Qed.

Lemma mod_hi l h h' : 0 <= l < 2 ^ 64 -> h mod 2 ^ 64 = h' mod 2 ^ 64 ->
  l + 2 ^ 64 * (h mod 2 ^ 64) = (l + 2 ^ 64 * h') mod m128.
Proof. unf. pw. intros. lia. Qed.

Lemma Mul64_spec a v : wf a -> 0 <= v < 2 ^ 64 -> wf (Mul64 a v) /\ value (Mul64 a v) = (value a * v) mod m128.
Proof.
  intros Ha Hv. unfold Mul64, mul64. cbn [fst snd]. split.
  - unf. pw. lia.
  - unfold value. cbn [lo hi]. unfold u64. rewrite two64_eq.
    rewrite (mod_hi _ _ ((lo a * v) / 2 ^ 64 + hi a * v)).
    + f_equal. pose proof (Z.div_mod (lo a * v) (2 ^ 64) ltac:(lia)) as E.
      set (q := lo a * v / 2 ^ 64) in *. set (r := (lo a * v) mod 2 ^ 64) in *.
      replace ((lo a + 2 ^ 64 * hi a) * v) with (lo a * v + 2 ^ 64 * (hi a * v)) by ring.
      rewrite E. ring.
    + apply Z.mod_pos_bound. lia.
    + rewrite Z.add_mod_idemp_r by lia. reflexivity.
Qed.

Lemma Mul_spec a b : wf a -> wf b -> wf (Mul a b) /\ value (Mul a b) = (value a * value b) mod m128.
Proof.
  intros Ha Hb. unfold Mul, mul64. cbn [fst snd]. split.
  - unf. pw. lia.
  - unfold value. cbn [lo hi]. unfold u64. rewrite two64_eq.
    rewrite (mod_hi _ _ ((lo a * lo b) / 2 ^ 64 + (hi a * lo b + lo a * hi b))).
    + pose proof (Z.div_mod (lo a * lo b) (2 ^ 64) ltac:(lia)) as E.
      set (q := lo a * lo b / 2 ^ 64) in *. set (r := (lo a * lo b) mod 2 ^ 64) in *.
      replace ((lo a + 2 ^ 64 * hi a) * (lo b + 2 ^ 64 * hi b)) with
        (lo a * lo b + 2 ^ 64 * (hi a * lo b + lo a * hi b) + (hi a * hi b) * (2 ^ 64 * 2 ^ 64)) by ring.
      rewrite E. rewrite m128_eq.
      replace (2 ^ 64 * q + r + 2 ^ 64 * (hi a * lo b + lo a * hi b) + hi a * hi b * (2 ^ 64 * 2 ^ 64))
        with ((r + 2 ^ 64 * (q + (hi a * lo b + lo a * hi b))) + (hi a * hi b) * (2 ^ 64 * 2 ^ 64)) by ring.
      rewrite Z.mod_add by lia. reflexivity.
    + apply Z.mod_pos_bound. lia.
    + rewrite Z.add_mod_idemp_r by lia.
      rewrite <- (Z.add_mod_idemp_r _ (_ + _)) by lia.
      rewrite <- (Z.add_mod (hi a * lo b)) by lia.
      rewrite Z.add_mod_idemp_r by lia. reflexivity.
Qed.

(** ** Bitwise operations and shifts *)
Lemma testbit_value u i : wf u -> 0 <= i ->
  Z.testbit (value u) i = if i <? 64 then Z.testbit (lo u) i else Z.testbit (hi u) (i - 64).
Proof.
  intros H Hi. unfold value. destruct H as [Hl Hh].
  destruct (Z.ltb_spec i 64) as [L|L].
  - rewrite <- (Z.mod_pow2_bits_low (lo u + 2 ^ 64 * hi u) 64) by lia.
    rewrite <- Z.add_mod_idemp_r, Z.mul_comm, Z.mod_mul, Z.add_0_r by lia.
    rewrite Z.mod_small by lia. reflexivity.
  - replace i with ((i - 64) + 64) at 1 by lia.
    rewrite <- Z.div_pow2_bits by lia.
    rewrite (Z.mul_comm (2 ^ 64)), Z.div_add by lia. rewrite Z.div_small by lia. reflexivity.
Qed.

Lemma bits_bound x n : 0 <= n -> 0 <= x -> (forall i, n <= i -> Z.testbit x i = false) -> x < 2 ^ n.
Proof.
  intros Hn Hx H. destruct (Z.eq_dec x 0) as [->|Hne]; [apply Z.pow_pos_nonneg; lia|].
  destruct (Z.lt_ge_cases x (2 ^ n)) as [|G]; [assumption|].
  exfalso. assert (Hl : n <= Z.log2 x) by (apply Z.log2_le_pow2; lia).
  specialize (H _ Hl). rewrite Z.bit_log2 in H by lia. discriminate.
Qed.

Lemma high_bits x n i : 0 <= x < 2 ^ n -> n <= i -> Z.testbit x i = false.
Proof.
  intros H Hi. destruct (Z.eq_dec x 0) as [->|Hne]; [apply Z.bits_0|].
  apply Z.bits_above_log2; [lia|]. apply Z.lt_le_trans with n; [|lia].
  apply Z.log2_lt_pow2; lia.
Qed.

Lemma wf_bitop (op : Z -> Z -> Z) (f : bool -> bool -> bool) x y :
  (forall a b i, Z.testbit (op a b) i = f (Z.testbit a i) (Z.testbit b i)) -> f false false = false ->
  (forall a b, 0 <= a -> 0 <= b -> 0 <= op a b) ->
  0 <= x < 2 ^ 64 -> 0 <= y < 2 ^ 64 -> 0 <= op x y < 2 ^ 64.
Proof.
  intros Hop Hf Hn Hx Hy. split; [apply Hn; lia|].
  apply bits_bound; [lia|apply Hn; lia|]. intros i Hi.
  rewrite Hop, (high_bits x 64), (high_bits y 64) by assumption. exact Hf.
Qed.

Lemma bitop_spec (op : Z -> Z -> Z) (f : bool -> bool -> bool) a b :
  (forall a b i, Z.testbit (op a b) i = f (Z.testbit a i) (Z.testbit b i)) -> f false false = false ->
  (forall a b, 0 <= a -> 0 <= b -> 0 <= op a b) ->
  wf a -> wf b ->
  wf (U (op (lo a) (lo b)) (op (hi a) (hi b))) /\
  value (U (op (lo a) (lo b)) (op (hi a) (hi b))) = op (value a) (value b).
Proof.
  intros Hop Hf Hn Ha Hb.
  assert (W : wf (U (op (lo a) (lo b)) (op (hi a) (hi b)))).
  { destruct Ha, Hb. split; cbn [lo hi]; apply (wf_bitop op f); assumption. }
  split; [exact W|]. apply Z.bits_inj'. intros i Hi.
  rewrite testbit_value, Hop, !testbit_value by assumption. cbn [lo hi].
  destruct (i <? 64); rewrite Hop; reflexivity.
Qed.

Lemma And_spec a b : wf a -> wf b -> wf (And a b) /\ value (And a b) = Z.land (value a) (value b).
Proof. intros. apply (bitop_spec Z.land andb); auto. apply Z.land_spec. intros; apply Z.land_nonneg; auto. Qed.
Lemma Or_spec a b : wf a -> wf b -> wf (Or a b) /\ value (Or a b) = Z.lor (value a) (value b).
Proof. intros. apply (bitop_spec Z.lor orb); auto. apply Z.lor_spec. intros; apply Z.lor_nonneg; auto. Qed.
Lemma Xor_spec a b : wf a -> wf b -> wf (Xor a b) /\ value (Xor a b) = Z.lxor (value a) (value b).
Proof. intros. apply (bitop_spec Z.lxor xorb); auto. apply Z.lxor_spec. intros; apply Z.lxor_nonneg; tauto. Qed.

Lemma wf_from64 v : 0 <= v < 2 ^ 64 -> wf (U v 0) /\ value (U v 0) = v.
Proof. unf. pw. lia. Qed.
Lemma And64_spec a v : wf a -> 0 <= v < 2 ^ 64 -> wf (And64 a v) /\ value (And64 a v) = Z.land (value a) v.
Proof. intros Ha Hv. destruct (wf_from64 v Hv) as [W V]. rewrite <- V at 3. apply (And_spec a (U v 0)); assumption. Qed.
Lemma Or64_spec a v : wf a -> 0 <= v < 2 ^ 64 -> wf (Or64 a v) /\ value (Or64 a v) = Z.lor (value a) v.
Proof. intros Ha Hv. destruct (wf_from64 v Hv) as [W V]. rewrite <- V at 3. apply (Or_spec a (U v 0)); assumption. Qed.
Lemma Xor64_spec a v : wf a -> 0 <= v < 2 ^ 64 -> wf (Xor64 a v) /\ value (Xor64 a v) = Z.lxor (value a) v.
Proof. intros Ha Hv. destruct (wf_from64 v Hv) as [W V]. rewrite <- V at 3. apply (Xor_spec a (U v 0)); assumption. Qed.

Lemma lor_add a b n : 0 <= n -> 0 <= b < 2 ^ n -> Z.lor (a * 2 ^ n) b = a * 2 ^ n + b.
Proof.
  intros Hn Hb.
  assert (L : Z.land (a * 2 ^ n) b = 0).
  { apply Z.bits_inj'. intros i Hi. rewrite Z.land_spec, Z.bits_0.
    destruct (Z.lt_ge_cases i n) as [Hlt|Hge].
    - rewrite Z.mul_pow2_bits_low by lia. reflexivity.
    - rewrite (high_bits b n i) by lia. apply andb_false_r. }
  rewrite <- Z.lxor_lor, <- Z.add_nocarry_lxor by exact L. reflexivity.
Qed.

Lemma Lsh_spec u n : wf u -> 0 <= n -> wf (Lsh u n) /\ value (Lsh u n) = (value u * 2 ^ n) mod m128.
Proof.
  intros Hu Hn. unfold Lsh, shl64, shr64. unfold u64. rewrite two64_eq.
  destruct Hu as [Hl Hh].
  destruct (Z.ltb_spec 64 n) as [H|H].
  - split.
    + split; cbn [lo hi]; [lia|]. apply Z.mod_pos_bound. lia.
    + unfold value. cbn [lo hi]. rewrite (mod_hi 0 _ (lo u * 2 ^ (n - 64))) by (reflexivity || lia).
      unfold m128. replace (2 ^ n) with (2 ^ (n - 64) * 2 ^ 64) by (rewrite <- Z.pow_add_r by lia; f_equal; lia).
      rewrite Z.mul_add_distr_r.
      replace (2 ^ 64 * hi u * (2 ^ (n - 64) * 2 ^ 64)) with (hi u * 2 ^ (n - 64) * (2 ^ 64 * 2 ^ 64)) by ring.
      change (2 ^ 128) with (2 ^ 64 * 2 ^ 64). rewrite Z.mod_add by lia. f_equal. ring.
  - assert (E64 : 2 ^ 64 = 2 ^ n * 2 ^ (64 - n)) by (rewrite <- Z.pow_add_r by lia; f_equal; lia).
    assert (Pn : 0 < 2 ^ n) by (apply Z.pow_pos_nonneg; lia).
    assert (Pm : 0 < 2 ^ (64 - n)) by (apply Z.pow_pos_nonneg; lia).
    assert (Hsr : 0 <= lo u / 2 ^ (64 - n) < 2 ^ n).
    { split; [apply Z.div_pos; lia|]. apply Z.div_lt_upper_bound; lia. }
    assert (Hmul : (hi u * 2 ^ n) mod 2 ^ 64 = (hi u mod 2 ^ (64 - n)) * 2 ^ n).
    { rewrite E64, (Z.mul_comm (2 ^ n)), Z.mul_mod_distr_r by lia. reflexivity. }
    rewrite Hmul, lor_add by lia.
    pose proof (Z.mod_pos_bound (hi u) (2 ^ (64 - n)) Pm) as Hm.
    assert (Hhi : 0 <= hi u mod 2 ^ (64 - n) * 2 ^ n + lo u / 2 ^ (64 - n) < 2 ^ 64) by nia.
    split.
    + split; cbn [lo hi]; [apply Z.mod_pos_bound; lia|exact Hhi].
    + unfold value. cbn [lo hi].
      rewrite <- (Z.mod_small (hi u mod 2 ^ (64 - n) * 2 ^ n + lo u / 2 ^ (64 - n)) (2 ^ 64)) by exact Hhi.
      rewrite (mod_hi _ _ (hi u * 2 ^ n + lo u / 2 ^ (64 - n))).
      * f_equal.
        assert (Hlo : (lo u * 2 ^ n) mod 2 ^ 64 = lo u mod 2 ^ (64 - n) * 2 ^ n).
        { rewrite E64, (Z.mul_comm (2 ^ n)), Z.mul_mod_distr_r by lia. reflexivity. }
        rewrite Hlo.
        pose proof (Z.div_mod (lo u) (2 ^ (64 - n)) ltac:(lia)) as D.
        set (q := lo u / 2 ^ (64 - n)) in *. set (r := lo u mod 2 ^ (64 - n)) in *.
        rewrite D. rewrite E64. ring.
      * apply Z.mod_pos_bound. lia.
      * rewrite <- Hmul. rewrite Z.add_mod_idemp_l by lia. reflexivity.
Qed.

Lemma Rsh_spec u n : wf u -> 0 <= n -> wf (Rsh u n) /\ value (Rsh u n) = value u / 2 ^ n.
Proof.
  intros Hu Hn. unfold Rsh, shl64, shr64. unfold u64. rewrite two64_eq.
  destruct Hu as [Hl Hh].
  destruct (Z.ltb_spec 64 n) as [H|H].
  - assert (P : 0 < 2 ^ (n - 64)) by (apply Z.pow_pos_nonneg; lia).
    split.
    + split; cbn [lo hi]; [|lia]. split; [apply Z.div_pos; lia|].
      apply Z.le_lt_trans with (hi u); [|lia]. apply Z.div_le_upper_bound; nia.
    + unfold value. cbn [lo hi].
      replace (2 ^ n) with (2 ^ 64 * 2 ^ (n - 64)) by (rewrite <- Z.pow_add_r by lia; f_equal; lia).
      rewrite <- Z.div_div by lia. rewrite (Z.mul_comm (2 ^ 64) (hi u)), Z.div_add by lia.
      rewrite (Z.div_small (lo u)) by lia. rewrite Z.mul_0_r, Z.add_0_r, Z.add_0_l. reflexivity.
  - assert (E64 : 2 ^ 64 = 2 ^ n * 2 ^ (64 - n)) by (rewrite <- Z.pow_add_r by lia; f_equal; lia).
    assert (Pn : 0 < 2 ^ n) by (apply Z.pow_pos_nonneg; lia).
    assert (Pm : 0 < 2 ^ (64 - n)) by (apply Z.pow_pos_nonneg; lia).
    assert (Hsr : 0 <= lo u / 2 ^ n < 2 ^ (64 - n)).
    { split; [apply Z.div_pos; lia|]. apply Z.div_lt_upper_bound; lia. }
    assert (Hmul : (hi u * 2 ^ (64 - n)) mod 2 ^ 64 = (hi u mod 2 ^ n) * 2 ^ (64 - n)).
    { rewrite E64, Z.mul_mod_distr_r by lia. reflexivity. }
    rewrite Hmul, Z.lor_comm, lor_add by lia.
    pose proof (Z.mod_pos_bound (hi u) (2 ^ n) Pn) as Hm.
    assert (Hlo : 0 <= hi u mod 2 ^ n * 2 ^ (64 - n) + lo u / 2 ^ n < 2 ^ 64) by nia.
    split.
    + split; cbn [lo hi]; [exact Hlo|]. split; [apply Z.div_pos; lia|].
      apply Z.le_lt_trans with (hi u); [|lia]. apply Z.div_le_upper_bound; nia.
    + unfold value. cbn [lo hi].
      pose proof (Z.div_mod (hi u) (2 ^ n) ltac:(lia)) as D.
      set (q := hi u / 2 ^ n) in *. set (r := hi u mod 2 ^ n) in *.
      rewrite D.
      replace (lo u + 2 ^ 64 * (2 ^ n * q + r)) with (lo u + (2 ^ 64 * q + 2 ^ (64 - n) * r) * 2 ^ n) by (rewrite E64; ring).
      rewrite Z.div_add by lia. ring.
Qed.

(** ** Division *)
Lemma div64_ok h l y : 0 <= h < y -> 0 <= l < 2 ^ 64 -> y < 2 ^ 64 ->
  exists q r, div64 h l y = Ok (q, r) /\ 0 <= q < 2 ^ 64 /\ 0 <= r < y /\ h * 2 ^ 64 + l = q * y + r.
Proof.
  intros Hh Hl Hy. unfold div64. rewrite two64_eq.
  destruct (Z.eqb_spec y 0) as [E|_]; [lia|].
  destruct (Z.leb_spec y h) as [E|_]; [lia|].
  eexists _, _. split; [reflexivity|].
  pose proof (Z.mod_pos_bound (h * 2 ^ 64 + l) y ltac:(lia)) as R.
  pose proof (Z.div_mod (h * 2 ^ 64 + l) y ltac:(lia)) as D.
  split; [|split; [exact R|lia]].
  split; [apply Z.div_pos; lia|]. apply Z.div_lt_upper_bound; [lia|]. nia.
Qed.

Lemma QuoRem64_ok u v : wf u -> 0 < v < 2 ^ 64 ->
  exists q r, QuoRem64 u v = Ok (q, r) /\ wf q /\ 0 <= r < v /\ value u = value q * v + r.
Proof.
  intros Hu Hv. unfold QuoRem64. destruct Hu as [Hl Hh].
  destruct (Z.ltb_spec (hi u) v) as [H|H].
  - destruct (div64_ok (hi u) (lo u) v ltac:(lia) Hl ltac:(lia)) as (q & r & E & Q & R & D).
    rewrite E. cbn [bind]. eexists _, _. split; [reflexivity|].
    unfold wf, value. cbn [lo hi]. repeat split; try lia.
  - destruct (div64_ok 0 (hi u) v ltac:(lia) Hh ltac:(lia)) as (q & r & E & Q & R & D).
    rewrite E. cbn [bind].
    destruct (div64_ok r (lo u) v ltac:(lia) Hl ltac:(lia)) as (q' & r' & E' & Q' & R' & D').
    rewrite E'. cbn [bind]. eexists _, _. split; [reflexivity|].
    unfold wf, value. cbn [lo hi]. repeat split; try lia; nia.
Qed.

Lemma QuoRem64_zero u : wf u -> exists m, QuoRem64 u 0 = Panic m.
Proof.
  intros [Hl Hh]. unfold QuoRem64. destruct (Z.ltb_spec (hi u) 0) as [H|H]; [lia|].
  unfold div64. cbn. eauto.
Qed.

(** The trial quotient is within one of the true quotient. *)
Lemma trial_quotient u V n :
  0 <= u < 2 ^ 128 -> 0 <= n <= 63 -> 2 ^ (127 - n) <= V < 2 ^ (128 - n) ->
  let W := (V * 2 ^ n / 2 ^ 64) * 2 ^ (64 - n) in
  u / V <= u / W <= u / V + 1.
Proof.
  intros Hu Hn HV W.
  assert (P : 0 < 2 ^ (64 - n)) by (apply Z.pow_pos_nonneg; lia).
  assert (Pn : 0 < 2 ^ n) by (apply Z.pow_pos_nonneg; lia).
  assert (E64 : 2 ^ 64 = 2 ^ n * 2 ^ (64 - n)) by (rewrite <- Z.pow_add_r by lia; f_equal; lia).
  assert (HW : V * 2 ^ n / 2 ^ 64 = V / 2 ^ (64 - n)).
  { rewrite E64, (Z.mul_comm (2 ^ n)), Z.div_mul_cancel_r by lia. reflexivity. }
  unfold W. rewrite HW. clear W HW.
  pose proof (Z.div_mod V (2 ^ (64 - n)) ltac:(lia)) as D.
  pose proof (Z.mod_pos_bound V (2 ^ (64 - n)) P) as M.
  assert (E127 : 2 ^ (127 - n) = 2 ^ (64 - n) * 2 ^ 63) by (rewrite <- Z.pow_add_r by lia; f_equal; lia).
  assert (Hq : 2 ^ 63 <= V / 2 ^ (64 - n)).
  { apply Z.div_le_lower_bound; lia. }
  set (k := V / 2 ^ (64 - n)) in *. set (d := V mod 2 ^ (64 - n)) in *.
  assert (PW : 0 < k * 2 ^ (64 - n)) by nia.
  assert (WV : k * 2 ^ (64 - n) <= V) by nia.
  split; [apply Z.div_le_compat_l; lia|].
  set (W := k * 2 ^ (64 - n)) in *.
  assert (PV : 0 < V) by lia.
  set (t := u / W).
  assert (Ht : 0 <= t) by (apply Z.div_pos; lia).
  assert (HtW : t * W <= u).
  { unfold t. rewrite Z.mul_comm. apply Z.mul_div_le. lia. }
  assert (HWlow : 2 ^ (127 - n) <= W) by (rewrite E127; unfold W; nia).
  assert (E128 : 2 ^ 128 = 2 ^ (127 - n) * 2 ^ (n + 1)) by (rewrite <- Z.pow_add_r by lia; f_equal; lia).
  assert (P127 : 0 < 2 ^ (127 - n)) by (apply Z.pow_pos_nonneg; lia).
  assert (Htu : t <= 2 ^ (n + 1) - 1).
  { assert (t < 2 ^ (n + 1)); [|lia]. apply Z.mul_lt_mono_pos_r with (2 ^ (127 - n)); [lia|]. nia. }
  assert (Htd : t * d <= V).
  { assert (t * d <= (2 ^ (n + 1) - 1) * (2 ^ (64 - n) - 1)) by nia.
    assert (E65 : 2 ^ (n + 1) * 2 ^ (64 - n) = 2 ^ 65) by (rewrite <- Z.pow_add_r by lia; f_equal; lia).
    assert ((2 ^ (n + 1) - 1) * (2 ^ (64 - n) - 1) = 2 ^ 65 - 2 ^ (n + 1) - 2 ^ (64 - n) + 1) by nia.
    destruct (Z.eq_dec n 63) as [->|Hne].
    - change (2 ^ (127 - 63)) with (2 ^ 64) in *. change (2 ^ (63 + 1)) with (2 ^ 64) in *.
      change (2 ^ (64 - 63)) with 2 in *. change (2 ^ 65) with (2 * 2 ^ 64) in *. lia.
    - assert (2 ^ 65 <= 2 ^ (127 - n)) by (apply Z.pow_le_mono_r; lia).
      assert (0 < 2 ^ (n + 1)) by (apply Z.pow_pos_nonneg; lia). lia. }
  assert (Hk : (t - 1) * V <= u).
  { replace V with (W + d) in * by (unfold W; lia). nia. }
  assert (t - 1 <= u / V); [|lia].
  apply Z.div_le_lower_bound; lia.
Qed.

Lemma lzcnt_spec x : 0 < x < 2 ^ 64 ->
  0 <= lzcnt64 x <= 63 /\ 2 ^ (63 - lzcnt64 x) <= x < 2 ^ (64 - lzcnt64 x).
Proof.
  intros H. unfold lzcnt64. destruct (Z.eqb_spec x 0) as [E|_]; [lia|].
  pose proof (Z.log2_spec x ltac:(lia)) as [A B].
  pose proof (Z.log2_nonneg x). assert (Z.log2 x < 64) by (apply Z.log2_lt_pow2; lia).
  split; [lia|]. replace (63 - (63 - Z.log2 x)) with (Z.log2 x) by lia.
  replace (64 - (63 - Z.log2 x)) with (Z.succ (Z.log2 x)) by lia. lia.
Qed.

Lemma adjust_quotient Vu Vv tq Q R :
  0 < Vv -> Vu = Vv * Q + R -> 0 <= R < Vv -> Q - 1 <= tq <= Q -> 0 <= tq ->
  0 <= Vv * tq <= Vu /\ (Vv <= Vu - Vv * tq -> tq = Q - 1) /\ (Vu - Vv * tq < Vv -> tq = Q).
Proof.
  intros H1 H2 H3 H4 H5. assert (C : tq = Q \/ tq = Q - 1) by lia.
  destruct C as [-> | ->]; nia.
Qed.

Theorem QuoRem_ok u v : wf u -> wf v -> value v <> 0 ->
  exists q r, QuoRem u v = Ok (q, r) /\ wf q /\ wf r /\
    value u = value q * value v + value r /\ 0 <= value r < value v.
Proof.
  intros Hu Hv Hne. unfold QuoRem.
  destruct (Z.eqb_spec (hi v) 0) as [H0|H0].
  - destruct Hv as [Hvl Hvh].
    assert (Hpos : 0 < lo v < 2 ^ 64) by (unfold value in Hne; rewrite H0 in Hne; lia).
    destruct (QuoRem64_ok u (lo v) Hu Hpos) as (q & r & E & Q & R & D).
    rewrite E. cbn [bind]. eexists _, _. split; [reflexivity|].
    unfold From64, New. unfold value at 2 3 4. unfold value at 3. cbn [lo hi]. rewrite H0.
    split; [exact Q|]. split; [split; cbn [lo hi]; lia|]. unfold value in *. cbn [lo hi]. rewrite H0. lia.
  - destruct Hv as [Hvl Hvh].
    assert (Hpos : 0 < hi v < 2 ^ 64) by lia.
    destruct (lzcnt_spec (hi v) Hpos) as (Hn & Hhv).
    set (n := lzcnt64 (hi v)) in *.
    assert (Pn : 0 < 2 ^ n) by (apply Z.pow_pos_nonneg; lia).
    assert (HV : 2 ^ (127 - n) <= value v < 2 ^ (128 - n)).
    { unfold value.
      replace (2 ^ (127 - n)) with (2 ^ 64 * 2 ^ (63 - n)) by (rewrite <- Z.pow_add_r by lia; f_equal; lia).
      replace (2 ^ (128 - n)) with (2 ^ 64 * 2 ^ (64 - n)) by (rewrite <- Z.pow_add_r by lia; f_equal; lia).
      nia. }
    destruct (Lsh_spec v n ltac:(split; assumption) ltac:(lia)) as [Wv1 Vv1].
    destruct (Rsh_spec u 1 Hu ltac:(lia)) as [Wu1 Vu1].
    pose proof (value_range u Hu) as Ru. unfold m128 in *.
    assert (HV1 : value (Lsh v n) = value v * 2 ^ n).
    { rewrite Vv1. apply Z.mod_small.
      replace (2 ^ 128) with (2 ^ (128 - n) * 2 ^ n) by (rewrite <- Z.pow_add_r by lia; f_equal; lia). nia. }
    assert (Hhi1 : hi (Lsh v n) = value v * 2 ^ n / 2 ^ 64).
    { rewrite <- HV1. unfold value. destruct Wv1 as [A B].
      rewrite (Z.mul_comm (2 ^ 64)), Z.div_add, Z.div_small by lia. lia. }
    assert (Hhi1b : 2 ^ 63 <= hi (Lsh v n)).
    { rewrite Hhi1. apply Z.div_le_lower_bound; [lia|].
      replace (2 ^ 64 * 2 ^ 63) with (2 ^ (127 - n) * 2 ^ n) by (rewrite <- !Z.pow_add_r by lia; f_equal; lia). nia. }
    assert (Hu1 : hi (Rsh u 1) < 2 ^ 63).
    { destruct Wu1 as [A B]. unfold value at 1 in Vu1.
      assert (value u / 2 ^ 1 < 2 ^ 127) by (apply Z.div_lt_upper_bound; lia).
      change (2 ^ 127) with (2 ^ 64 * 2 ^ 63) in *. nia. }
    destruct Wv1 as [Wv1l Wv1h]. destruct Wu1 as [Wu1l Wu1h].
    unfold div64. rewrite two64_eq.
    destruct (Z.eqb_spec (hi (Lsh v n)) 0) as [E|_]; [lia|].
    destruct (Z.leb_spec (hi (Lsh v n)) (hi (Rsh u 1))) as [E|_]; [lia|].
    cbn [bind].
    replace (hi (Rsh u 1) * 2 ^ 64 + lo (Rsh u 1)) with (value u / 2) by (rewrite <- (Z.pow_1_r 2) at 1; rewrite <- Vu1; unfold value; lia).
    set (tq1 := shr64 (value u / 2 / hi (Lsh v n)) (63 - n)).
    assert (Etq : tq1 = value u / ((value v * 2 ^ n / 2 ^ 64) * 2 ^ (64 - n))).
    { unfold tq1, shr64. rewrite <- Hhi1.
      assert (0 < 2 ^ (63 - n)) by (apply Z.pow_pos_nonneg; lia).
      rewrite Z.div_div by lia. rewrite Z.div_div by nia. f_equal.
      replace (2 ^ (64 - n)) with (2 * 2 ^ (63 - n)) by (rewrite <- Z.pow_succ_r by lia; f_equal; lia). ring. }
    pose proof (trial_quotient (value u) (value v) n Ru Hn HV) as T. cbv zeta in T.
    rewrite <- Etq in T.
    assert (PV : 0 < value v) by (assert (0 < 2 ^ (127 - n)) by (apply Z.pow_pos_nonneg; lia); lia).
    set (Q := value u / value v) in *.
    assert (HQ : 0 <= Q) by (apply Z.div_pos; lia).
    pose proof (Z.div_mod (value u) (value v) ltac:(lia)) as DQ.
    pose proof (Z.mod_pos_bound (value u) (value v) PV) as MQ.
    fold Q in DQ. set (R := value u mod value v) in *.
    assert (QB : Q < 2 ^ 64).
    { apply Z.div_lt_upper_bound; [lia|].
      assert (2 ^ 64 <= value v); [|nia].
      assert (2 ^ 64 <= 2 ^ (127 - n)) by (apply Z.pow_le_mono_r; lia). lia. }
    set (tq := if tq1 =? 0 then tq1 else u64 (tq1 - 1)).
    assert (Htq : Q - 1 <= tq <= Q /\ 0 <= tq).
    { unfold tq. destruct (Z.eqb_spec tq1 0) as [E|E]; [lia|].
      unfold u64. rewrite two64_eq, Z.mod_small by lia. lia. }
    assert (Ht64 : 0 <= tq < 2 ^ 64) by (clear - Htq QB; lia).
    destruct (adjust_quotient (value u) (value v) tq Q R PV DQ MQ (proj1 Htq) (proj2 Htq)) as (A1 & A2 & A3).
    destruct (Mul64_spec v tq ltac:(split; assumption) Ht64) as [Wm Vm].
    assert (HMV : value (Mul64 v tq) = value v * tq).
    { rewrite Vm. apply Z.mod_small. unfold m128. clear - A1 Ru. lia. }
    destruct (Sub_spec u (Mul64 v tq) Hu Wm) as [Ws Vs].
    assert (HS : value (Sub u (Mul64 v tq)) = value u - value v * tq).
    { rewrite Vs, HMV. apply Z.mod_small. unfold m128. clear - A1 Ru. lia. }
    rewrite (Cmp_spec _ v Ws ltac:(split; assumption)), HS.
    destruct (wf_from64 tq Ht64) as [Wq Vq].
    destruct (Z.leb_spec 0 (if value u - value v * tq <? value v then -1
       else if value u - value v * tq =? value v then 0 else 1)) as [C|C].
    + assert (Hge : value v <= value u - value v * tq)
        by (clear - C; destruct (Z.ltb_spec (value u - value v * tq) (value v)); lia).
      eexists _, _. split; [reflexivity|].
      destruct (Add64_spec (From64 tq) 1 Wq ltac:(clear; lia)) as [Wa Va].
      destruct (Sub_spec _ v Ws ltac:(split; assumption)) as [Wr Vr].
      unfold From64, New in *.
      rewrite HS in Vr. rewrite Vq in Va.
      assert (ER : (value u - value v * tq - value v) mod m128 = value u - value v * tq - value v)
        by (apply Z.mod_small; unfold m128; clear - A1 Ru Hge PV; lia).
      assert (EA : (tq + 1) mod m128 = tq + 1) by (apply Z.mod_small; unfold m128; clear - Ht64; lia).
      rewrite ER in Vr. rewrite EA in Va.
      split; [exact Wa|]. split; [exact Wr|]. rewrite Va, Vr. split; [ring|].
      pose proof (A2 Hge) as Et. clearbody tq Q R. clear - DQ MQ Et. subst tq. rewrite DQ. lia.
    + assert (Hlt : value u - value v * tq < value v)
        by (clear - C; destruct (Z.ltb_spec (value u - value v * tq) (value v)); [lia|destruct (value u - value v * tq =? value v); lia]).
      eexists _, _. split; [reflexivity|]. unfold From64, New in *.
      split; [exact Wq|]. split; [exact Ws|]. rewrite Vq, HS. split; [ring|].
      pose proof (A3 Hlt) as Et. clearbody tq Q R. clear - DQ MQ Et. subst tq. rewrite DQ. lia.
Qed.

Lemma QuoRem_zero u : wf u -> exists m, QuoRem u Zero = Panic m.
Proof.
  intros Hu. unfold QuoRem, Zero. cbn [hi lo]. change (0 =? 0) with true. cbv iota.
  destruct (QuoRem64_zero u Hu) as [m E]. rewrite E. cbn. eauto.
Qed.

(** ** Decimal printing *)
Lemma chunk_digits_spec fuel r : 0 <= r < 10 ^ Z.of_nat fuel ->
  Forall (fun c => 48 <= bZ c <= 57) (chunk_digits fuel r) /\
  pos_acc (rev (chunk_digits fuel r)) 0 = r /\
  (forall c l, rev (chunk_digits fuel r) = c :: l -> bZ c <> 48) /\
  (r < 10 ^ Z.of_nat (List.length (chunk_digits fuel r))) /\
  (0 < r -> (0 < List.length (chunk_digits fuel r))%nat /\
     10 ^ Z.of_nat (List.length (chunk_digits fuel r) - 1) <= r).
Proof.
  revert r; induction fuel as [|fuel IH]; intros r Hr.
  - cbn in Hr. cbn. repeat split; try lia; try constructor. discriminate.
  - cbn [chunk_digits]. destruct (Z.eqb_spec r 0) as [->|Hne].
    + cbn. repeat split; try lia; try constructor. discriminate.
    + rewrite Nat2Z.inj_succ, Z.pow_succ_r in Hr by lia.
      destruct (IH (r / 10) ltac:(lia)) as (F & V & H & B & L).
      assert (Hd : bZ (Zb (48 + r mod 10)) = 48 + r mod 10) by (apply bZ_Zb_small; lia).
      split; [constructor; [lia|exact F]|].
      cbn [rev List.length]. split.
      { rewrite pos_acc_app, V. unfold pos_acc. cbn [fold_left]. lia. }
      split.
      { intros c l E. destruct (rev (chunk_digits fuel (r / 10))) as [|c' l'] eqn:Er.
        - cbn [List.app] in E. assert (Ec : c = Zb (48 + r mod 10)) by congruence. rewrite Ec.
          assert (r / 10 = 0) by (rewrite <- V; reflexivity). rewrite Hd. lia.
        - cbn [List.app] in E. injection E as <- <-. eapply H. reflexivity. }
      split.
      { rewrite Nat2Z.inj_succ, Z.pow_succ_r by lia. lia. }
      intros _. split; [lia|].
      replace (S (List.length (chunk_digits fuel (r / 10))) - 1)%nat
        with (List.length (chunk_digits fuel (r / 10))) by lia.
      destruct (Z.eq_dec (r / 10) 0) as [Ez|Ez].
      * assert (Hnil : chunk_digits fuel (r / 10) = []) by (rewrite Ez; destruct fuel; reflexivity).
        rewrite Hnil. cbn. lia.
      * destruct (L ltac:(lia)) as [L1 L2].
        replace (List.length (chunk_digits fuel (r / 10))) with
          (S (List.length (chunk_digits fuel (r / 10)) - 1))%nat at 1 by lia.
        rewrite Nat2Z.inj_succ, Z.pow_succ_r by lia. lia.
Qed.

Lemma chunk_digits_length r : 0 <= r < p1e19 -> (List.length (chunk_digits 20 r) <= 19)%nat.
Proof.
  intros Hr. destruct (Z.eq_dec r 0) as [->|Hne]; [cbn; lia|].
  destruct (chunk_digits_spec 20 r ltac:(unfold p1e19 in Hr; change (Z.of_nat 20) with 20; lia)) as (_ & _ & _ & _ & L).
  destruct (L ltac:(lia)) as [L1 L2].
  destruct (Compare_dec.le_gt_dec (List.length (chunk_digits 20 r)) 19) as [|G]; [assumption|].
  exfalso. assert (10 ^ 19 <= 10 ^ Z.of_nat (List.length (chunk_digits 20 r) - 1)) by (apply Z.pow_le_mono_r; lia).
  unfold p1e19 in Hr. lia.
Qed.

Lemma pos_acc_zeros n a : pos_acc (repeat "0"%char n) a = a * 10 ^ Z.of_nat n.
Proof.
  revert a; induction n as [|n IH]; intros a.
  - cbn. lia.
  - cbn [repeat]. change (pos_acc ("0"%char :: repeat "0"%char n) a) with (pos_acc (repeat "0"%char n) (10 * a + 0)).
    rewrite IH, Nat2Z.inj_succ, Z.pow_succ_r by lia. ring.
Qed.

Lemma string_loop_spec fuel u acc k :
  wf u -> 0 < value u -> Forall (fun c => 48 <= bZ c <= 57) acc ->
  List.length acc = (19 * k)%nat -> (k <= 2)%nat ->
  value u < p1e19 ^ Z.of_nat fuel ->
  value u * 10 ^ Z.of_nat (19 * k) < 10 ^ 40 ->
  exists s, string_loop fuel u acc = Ok s /\
    is_numeral s (value u * 10 ^ Z.of_nat (List.length acc) + pos_acc acc 0).
Proof.
  revert u acc k; induction fuel as [|fuel IH]; intros u acc k Hu Hpos Hacc Hlen Hk Hf Hb.
  - cbn in Hf. lia.
  - cbn [string_loop].
    destruct (QuoRem64_ok u p1e19 Hu ltac:(unfold p1e19; lia)) as (q & r & E & Q & R & D).
    rewrite E. cbn [bind].
    destruct (chunk_digits_spec 20 r ltac:(unfold p1e19 in R; change (Z.of_nat 20) with 20; lia)) as (F & V & H & B & L).
    pose proof (chunk_digits_length r R) as CL.
    pose proof (value_range q Q) as RQ.
    set (ds := chunk_digits 20 r) in *.
    assert (Hbuf : (List.length ds + List.length acc <= 40)%nat).
    { destruct (le_lt_dec k 1) as [Hk1|Hk1]; [lia|].
      assert (k = 2%nat) by lia. subst k. rewrite Hlen.
      change (Z.of_nat (19 * 2)) with 38 in Hb.
      assert (value u < 100) by lia.
      assert (r < 100) by nia.
      destruct (Z.eq_dec r 0) as [->|Hr0]; [cbn; lia|].
      destruct (L ltac:(lia)) as [L1 L2].
      destruct (le_lt_dec (List.length ds) 2) as [|G]; [lia|].
      exfalso. assert (10 ^ 2 <= 10 ^ Z.of_nat (List.length ds - 1)) by (apply Z.pow_le_mono_r; lia). lia. }
    rewrite (proj2 (Nat.ltb_ge 40 (List.length ds + List.length acc)) Hbuf).
    rewrite (IsZero_spec q Q).
    destruct (Z.eqb_spec (value q) 0) as [E0|E0].
    + exists (b2s (rev ds ++ acc)). split; [reflexivity|].
      assert (Hr : 0 < r) by nia.
      assert (HV : value u = r) by nia. rewrite HV.
      destruct (rev ds) as [|c l] eqn:Erev.
      { assert (r = 0) by (rewrite <- V; reflexivity). lia. }
      repeat split.
      * rewrite s2b_b2s. apply Forall_app. split; [|exact Hacc].
        rewrite <- Erev. apply Forall_rev. exact F.
      * cbn. discriminate.
      * cbn. intros Heq. injection Heq as Heq. exfalso.
        apply (H c l eq_refl). rewrite Heq. reflexivity.
      * unfold positional. rewrite s2b_b2s.
        change (pos_acc ((c :: l) ++ acc) 0 = r * 10 ^ Z.of_nat (List.length acc) + pos_acc acc 0).
        rewrite pos_acc_app, V, pos_acc_lin. reflexivity.
    + set (acc' := (repeat "0"%char (19 - List.length ds) ++ rev ds ++ acc)%list).
      assert (Hlen' : List.length acc' = (19 * S k)%nat).
      { unfold acc'. rewrite !app_length, repeat_length, rev_length. lia. }
      assert (Hval' : pos_acc acc' 0 = r * 10 ^ Z.of_nat (List.length acc) + pos_acc acc 0).
      { unfold acc'. rewrite pos_acc_app, pos_acc_zeros, Z.mul_0_l, pos_acc_app, V, pos_acc_lin. reflexivity. }
      assert (Hacc' : Forall (fun c => 48 <= bZ c <= 57) acc').
      { unfold acc'. apply Forall_app. split.
        - apply Forall_forall. intros x Hx. apply repeat_spec in Hx. subst x. cbn. lia.
        - apply Forall_app. split; [apply Forall_rev; exact F|exact Hacc]. }
      assert (Hk' : (S k <= 2)%nat).
      { destruct (le_lt_dec k 1) as [|Hk1]; [lia|]. exfalso.
        assert (k = 2%nat) by lia. subst k. change (Z.of_nat (19 * 2)) with 38 in Hb.
        unfold p1e19 in D. nia. }
      destruct (IH q acc' (S k) Q ltac:(lia) Hacc' Hlen' Hk') as (s & Es & Ns).
      * rewrite Nat2Z.inj_succ, Z.pow_succ_r in Hf by lia. unfold p1e19 in *. nia.
      * replace (19 * S k)%nat with (19 * k + 19)%nat by lia.
        rewrite Nat2Z.inj_add, Z.pow_add_r by lia.
        change (10 ^ Z.of_nat 19) with p1e19.
        assert (0 < 10 ^ Z.of_nat (19 * k)) by (apply Z.pow_pos_nonneg; lia). nia.
      * exists s. split; [exact Es|].
        replace (value u * 10 ^ Z.of_nat (List.length acc) + pos_acc acc 0)
          with (value q * 10 ^ Z.of_nat (List.length acc') + pos_acc acc' 0); [exact Ns|].
        rewrite Hval', Hlen', Hlen.
        replace (19 * S k)%nat with (19 * k + 19)%nat by lia.
        rewrite Nat2Z.inj_add, Z.pow_add_r by lia.
        change (10 ^ Z.of_nat 19) with p1e19. rewrite D. ring.
Qed.

Theorem String_numeral u : wf u -> exists s, String_ u = Ok s /\ is_numeral s (value u).
Proof.
  intros Hu. unfold String_. rewrite (IsZero_spec u Hu).
  pose proof (value_range u Hu) as R. unfold m128 in R.
  destruct (Z.eqb_spec (value u) 0) as [E|E].
  - exists "0". split; [reflexivity|]. rewrite E. apply (itoa_numeral 0). lia.
  - destruct (string_loop_spec 4 u [] 0 Hu ltac:(lia) ltac:(constructor) eq_refl ltac:(lia)) as (s & Es & Ns).
    + assert (2 ^ 128 < p1e19 ^ Z.of_nat 4) by (vm_compute; reflexivity). lia.
    + change (10 ^ Z.of_nat (19 * 0)) with 1. change (10 ^ 40) with 10000000000000000000000000000000000000000.
      change (2 ^ 128) with 340282366920938463463374607431768211456 in R. lia.
    + exists s. split; [exact Es|]. cbn [List.length] in Ns. change (10 ^ Z.of_nat 0) with 1 in Ns.
      change (pos_acc [] 0) with 0 in Ns. rewrite Z.mul_1_r, Z.add_0_r in Ns. exact Ns.
Qed.

Lemma String_itoa u : wf u -> String_ u = Ok (itoa (value u)).
Proof.
  intros Hu. destruct (String_numeral u Hu) as (s & E & N). rewrite E. f_equal.
  now apply numeral_itoa.
Qed.

(** ** Bytes and big integers *)
Lemma PutBytes_spec u : wf u -> PutBytes u = le_bytes 16 (value u).
Proof.
  intros [Hl Hh]. unfold PutBytes, value. change 16%nat with (8 + 8)%nat.
  rewrite le_bytes_app. change (256 ^ Z.of_nat 8) with (2 ^ 64).
  rewrite (Z.mul_comm (2 ^ 64)), Z.div_add, (Z.div_small (lo u)), Z.add_0_l by lia.
  f_equal. rewrite <- (le_bytes_mod 8 (lo u + hi u * 2 ^ 64)).
  change (256 ^ Z.of_nat 8) with (2 ^ 64). rewrite Z.mod_add, Z.mod_small by lia. reflexivity.
Qed.

Lemma FromBytes_spec b : List.length b = 16%nat ->
  exists u, FromBytes b = Ok u /\ wf u /\ value u = le_val b.
Proof.
  intros H. unfold FromBytes. rewrite H. cbn [Nat.ltb Nat.leb].
  eexists. split; [reflexivity|].
  pose proof (le_val_range (firstn 8 b)) as R1. pose proof (le_val_range (firstn 8 (skipn 8 b))) as R2.
  rewrite firstn_length in R1. rewrite firstn_length, skipn_length in R2. rewrite H in *.
  change (256 ^ Z.of_nat (Nat.min 8 16)) with (2 ^ 64) in R1.
  change (256 ^ Z.of_nat (Nat.min 8 (16 - 8))) with (2 ^ 64) in R2.
  unfold New, wf, value. cbn [lo hi]. split; [split; assumption|].
  assert (E : firstn 8 (skipn 8 b) = skipn 8 b) by (apply firstn_all2; rewrite skipn_length; lia).
  rewrite E in *. rewrite <- (firstn_skipn 8 b) at 3. rewrite le_val_app, firstn_length, H.
  change (256 ^ Z.of_nat (Nat.min 8 16)) with (2 ^ 64). reflexivity.
Qed.

Lemma Big_spec u : wf u -> Big u = value u.
Proof.
  intros [Hl Hh]. unfold Big, value. rewrite Z.shiftl_mul_pow2 by lia.
  assert (L : Z.land (hi u * 2 ^ 64) (lo u) = 0).
  { apply Z.bits_inj'. intros i Hi. rewrite Z.land_spec, Z.bits_0.
    destruct (Z.lt_ge_cases i 64).
    - rewrite Z.mul_pow2_bits_low by lia. reflexivity.
    - rewrite (high_bits (lo u) 64 i) by lia. apply andb_false_r. }
  rewrite <- Z.add_nocarry_lxor by exact L. lia.
Qed.

Lemma FromBig_ok i : 0 <= i < m128 -> exists u, FromBig i = Ok u /\ wf u /\ value u = i.
Proof.
  intros H. unfold FromBig. destruct (Z.ltb_spec i 0) as [L|_]; [lia|].
  assert (bit_len i <= 128).
  { unfold bit_len. destruct (Z.eqb_spec i 0) as [->|Hne]; [lia|].
    rewrite Z.abs_eq by lia. assert (Z.log2 i < 128) by (apply Z.log2_lt_pow2; unfold m128 in H; lia). lia. }
  destruct (Z.ltb_spec 128 (bit_len i)) as [L|_]; [lia|].
  eexists. split; [reflexivity|]. unfold u64. rewrite two64_eq, Z.shiftr_div_pow2 by lia.
  unf. pw. lia.
Qed.

Lemma FromBig_panic i : ~ (0 <= i < m128) -> exists m, FromBig i = Panic m.
Proof.
  intros H. unfold FromBig. destruct (Z.ltb_spec i 0) as [L|L]; [eauto|].
  assert (128 < bit_len i).
  { unfold bit_len. destruct (Z.eqb_spec i 0) as [->|Hne]; [unfold m128 in H; lia|].
    rewrite Z.abs_eq by lia. assert (128 <= Z.log2 i); [|lia].
    apply Z.log2_le_pow2; unfold m128 in H; lia. }
  destruct (Z.ltb_spec 128 (bit_len i)); [eauto|lia].
Qed.
