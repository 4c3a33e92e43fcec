(** Properties C07-C10: the 128-bit integer type.

    [value u] is the number lo + 2^64*hi, [wf u] says both halves are uint64
    (true of every Go value of the type). *)

From Verif Require Import GoBase SpecNum ModelUint128 SpecUint128 ProofsBase ProofsUint128.

(** ** C07: arithmetic and comparison agree with the integers *)

Theorem C07_add : forall a b, wf a -> wf b ->
  wf (Add a b) /\ value (Add a b) = (value a + value b) mod 2 ^ 128.
Proof. exact Add_spec. Qed.
Theorem C07_sub : forall a b, wf a -> wf b ->
  wf (Sub a b) /\ value (Sub a b) = (value a - value b) mod 2 ^ 128.
Proof. exact Sub_spec. Qed.
Theorem C07_mul : forall a b, wf a -> wf b ->
  wf (Mul a b) /\ value (Mul a b) = (value a * value b) mod 2 ^ 128.
Proof. exact Mul_spec. Qed.
(** The variants taking a uint64 operand. *)
Theorem C07_ops64 : forall a v, wf a -> 0 <= v < 2 ^ 64 ->
  (wf (Add64 a v) /\ value (Add64 a v) = (value a + v) mod 2 ^ 128) /\
  (wf (Sub64 a v) /\ value (Sub64 a v) = (value a - v) mod 2 ^ 128) /\
  (wf (Mul64 a v) /\ value (Mul64 a v) = (value a * v) mod 2 ^ 128).
Proof. intros a v Ha Hv. exact (conj (Add64_spec a v Ha Hv) (conj (Sub64_spec a v Ha Hv) (Mul64_spec a v Ha Hv))). Qed.

Theorem C07_cmp : forall a b, wf a -> wf b ->
  (Cmp a b = -1 <-> value a < value b) /\
  (Cmp a b = 0 <-> value a = value b) /\
  (Cmp a b = 1 <-> value a > value b).
Proof.
  intros a b Ha Hb. rewrite (Cmp_spec a b Ha Hb).
  destruct (Z.ltb_spec (value a) (value b)), (Z.eqb_spec (value a) (value b)); lia.
Qed.
Theorem C07_cmp64 : forall a v, wf a -> 0 <= v < 2 ^ 64 ->
  (Cmp64 a v = -1 <-> value a < v) /\
  (Cmp64 a v = 0 <-> value a = v) /\
  (Cmp64 a v = 1 <-> value a > v).
Proof.
  intros a v Ha Hv. rewrite (Cmp64_spec a v Ha Hv).
  destruct (Z.ltb_spec (value a) v), (Z.eqb_spec (value a) v); lia.
Qed.
Theorem C07_equality : forall a b v, wf a -> wf b -> 0 <= v < 2 ^ 64 ->
  (Equals a b = true <-> value a = value b) /\
  (Equals64 a v = true <-> value a = v) /\
  (IsZero a = true <-> value a = 0) /\
  (value a = value b -> a = b).
Proof.
  intros a b v Ha Hb Hv.
  rewrite (Equals_spec a b Ha Hb), (Equals64_spec a v Ha Hv), (IsZero_spec a Ha), !Z.eqb_eq.
  repeat split; auto. apply value_inj; assumption.
Qed.

Theorem C07_bitwise : forall a b, wf a -> wf b ->
  (wf (And a b) /\ value (And a b) = Z.land (value a) (value b)) /\
  (wf (Or a b) /\ value (Or a b) = Z.lor (value a) (value b)) /\
  (wf (Xor a b) /\ value (Xor a b) = Z.lxor (value a) (value b)).
Proof. intros a b Ha Hb. exact (conj (And_spec a b Ha Hb) (conj (Or_spec a b Ha Hb) (Xor_spec a b Ha Hb))). Qed.
Theorem C07_bitwise64 : forall a v, wf a -> 0 <= v < 2 ^ 64 ->
  (wf (And64 a v) /\ value (And64 a v) = Z.land (value a) v) /\
  (wf (Or64 a v) /\ value (Or64 a v) = Z.lor (value a) v) /\
  (wf (Xor64 a v) /\ value (Xor64 a v) = Z.lxor (value a) v).
Proof. intros a v Ha Hv. exact (conj (And64_spec a v Ha Hv) (conj (Or64_spec a v Ha Hv) (Xor64_spec a v Ha Hv))). Qed.

Theorem C07_shifts : forall a n, wf a -> 0 <= n ->
  (wf (Lsh a n) /\ value (Lsh a n) = (value a * 2 ^ n) mod 2 ^ 128) /\
  (wf (Rsh a n) /\ value (Rsh a n) = value a / 2 ^ n).
Proof. intros a n Ha Hn. exact (conj (Lsh_spec a n Ha Hn) (Rsh_spec a n Ha Hn)). Qed.

Definition ex_a : uint128 := U 5 18446744073709551615.
Definition ex_b : uint128 := U 18446744073709551615 3.
Example C07_hyps_met : wf ex_a /\ wf ex_b /\ value (Add ex_a ex_b) <> value ex_a + value ex_b.
Proof. vm_compute. intuition discriminate. Qed.

(** ** C08: division *)

(** For every dividend and every non-zero divisor the call returns (no panic)
    and the result is the Euclidean quotient and remainder. *)
Theorem C08_quorem : forall a b, wf a -> wf b -> value b <> 0 ->
  exists q r, QuoRem a b = Ok (q, r) /\ wf q /\ wf r /\
    value a = value q * value b + value r /\ 0 <= value r < value b.
Proof. exact QuoRem_ok. Qed.
Theorem C08_quorem64 : forall a v, wf a -> 0 < v < 2 ^ 64 ->
  exists q r, QuoRem64 a v = Ok (q, r) /\ wf q /\ 0 <= r < v /\ value a = value q * v + r.
Proof. exact QuoRem64_ok. Qed.
Theorem C08_div : forall a b, wf a -> wf b -> value b <> 0 ->
  exists q, Div a b = Ok q /\ wf q /\ value q = value a / value b.
Proof.
  intros a b Ha Hb Hne. destruct (QuoRem_ok a b Ha Hb Hne) as (q & r & E & Q & R & D & B).
  exists q. unfold Div. rewrite E. repeat split; try apply Q.
  apply Z.div_unique with (value r); lia.
Qed.
Theorem C08_div64 : forall a v, wf a -> 0 < v < 2 ^ 64 ->
  exists q, Div64 a v = Ok q /\ wf q /\ value q = value a / v.
Proof.
  intros a v Ha Hv. destruct (QuoRem64_ok a v Ha Hv) as (q & r & E & Q & B & D).
  exists q. unfold Div64. rewrite E. repeat split; try apply Q.
  apply Z.div_unique with r; lia.
Qed.
(** Division by zero is the only input on which the call panics. *)
Theorem C08_by_zero_panics : forall a, wf a ->
  (exists m, QuoRem a Zero = Panic m) /\ (exists m, QuoRem64 a 0 = Panic m).
Proof. intros a Ha. exact (conj (QuoRem_zero a Ha) (QuoRem64_zero a Ha)). Qed.
Example C08_hyps_met : wf ex_a /\ wf ex_b /\ value ex_b <> 0 /\
  QuoRem ex_a ex_b = Ok (U 4611686018427387903 0, U 4611686018427387908 3).
Proof. vm_compute. intuition discriminate. Qed.

(** ** C09: decimal text *)
Theorem C09_string : forall a, wf a -> exists s, String_ a = Ok s /\ is_numeral s (value a).
Proof. exact String_numeral. Qed.
Theorem C09_string_injective : forall a b s, wf a -> wf b ->
  String_ a = Ok s -> String_ b = Ok s -> a = b.
Proof.
  intros a b s Ha Hb Ea Eb.
  rewrite (String_itoa a Ha) in Ea. rewrite (String_itoa b Hb) in Eb.
  apply value_inj; try assumption.
  pose proof (value_range a Ha) as Ra. pose proof (value_range b Hb) as Rb.
  apply itoa_inj. congruence.
Qed.
Example C09_hyps_met : wf ex_a /\ String_ ex_a = Ok "340282366920938463444927863358058659845"
  /\ String_ (U 10000000000000000000 0) = Ok "10000000000000000000".
Proof. vm_compute. intuition discriminate. Qed.

(** ** C10: bytes and big integers *)
Theorem C10_bytes : forall a, wf a ->
  PutBytes a = le_bytes 16 (value a) /\ FromBytes (PutBytes a) = Ok a.
Proof.
  intros a Ha. split; [exact (PutBytes_spec a Ha)|].
  rewrite (PutBytes_spec a Ha).
  destruct (FromBytes_spec (le_bytes 16 (value a)) (le_bytes_length _ _)) as (u & E & W & V).
  rewrite E. f_equal. apply value_inj; try assumption. rewrite V.
  apply le_val_bytes_small. exact (value_range a Ha).
Qed.
Theorem C10_from_bytes : forall b, List.length b = 16%nat ->
  exists u, FromBytes b = Ok u /\ wf u /\ value u = le_val b /\ PutBytes u = b.
Proof.
  intros b Hb. destruct (FromBytes_spec b Hb) as (u & E & W & V).
  exists u. repeat split; try apply W; auto.
  rewrite (PutBytes_spec u W), V, <- Hb. apply le_bytes_val.
Qed.
Theorem C10_big : forall a, wf a -> Big a = value a /\ FromBig (Big a) = Ok a.
Proof.
  intros a Ha. rewrite (Big_spec a Ha). split; [reflexivity|].
  destruct (FromBig_ok (value a) (value_range a Ha)) as (u & E & W & V).
  rewrite E. f_equal. apply value_inj; assumption.
Qed.
(** Out-of-range integers are rejected, in-range ones are represented exactly. *)
Theorem C10_from_big : forall i,
  (0 <= i < 2 ^ 128 -> exists u, FromBig i = Ok u /\ wf u /\ value u = i) /\
  (~ 0 <= i < 2 ^ 128 -> exists m, FromBig i = Panic m).
Proof. intros i. exact (conj (FromBig_ok i) (FromBig_panic i)). Qed.
Example C10_hyps_met : wf ex_a /\ FromBytes (PutBytes ex_a) = Ok ex_a /\
  FromBig (2 ^ 128 - 1) = Ok (U (2 ^ 64 - 1) (2 ^ 64 - 1)) /\ FromBig (2 ^ 128) = Panic "value overflows Uint128".
Proof. vm_compute. intuition discriminate. Qed.

Print Assumptions C07_mul.
Print Assumptions C08_quorem.
Print Assumptions C09_string.
Print Assumptions C10_from_big.
