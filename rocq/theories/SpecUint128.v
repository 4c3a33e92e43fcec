(** What a Uint128 means: the number lo + 2^64 * hi. *)

From Verif Require Import GoBase ModelUint128.

(** Both halves are Go [uint64] values.  Every Go Uint128 satisfies this. *)
Definition wf (u : uint128) : Prop := 0 <= lo u < 2 ^ 64 /\ 0 <= hi u < 2 ^ 64.
(** The number a Uint128 stands for. *)
Definition value (u : uint128) : Z := lo u + 2 ^ 64 * hi u.
(** The modulus of 128-bit arithmetic. *)
Definition m128 : Z := 2 ^ 128.
