(** Model of utiles/uint128/uint128.go.  Every definition is the Go method of
    the same name, with 64-bit wrap-around written out. *)

From Verif Require Import GoBase SpecNum.

(** uint128.go:13-15.  The fields are Go [uint64]. *)
Record uint128 := U { lo : Z; hi : Z }.

(** math/bits primitives (Go standard library). *)
(** bits.Add64: sum modulo 2^64 and carry out. *)
Definition add64 (x y c : Z) : Z * Z := (u64 (x + y + c), (x + y + c) / two64).
(** bits.Sub64: difference modulo 2^64 and borrow out. *)
Definition sub64 (x y b : Z) : Z * Z :=
  (u64 (x - y - b), if x - y - b <? 0 then 1 else 0).
(** bits.Mul64: high and low halves of the product. *)
Definition mul64 (x y : Z) : Z * Z := ((x * y) / two64, u64 (x * y)).
(** bits.Div64(hi, lo, y): panics when y = 0 or y <= hi. *)
Definition div64 (h l y : Z) : res (Z * Z) :=
  if y =? 0 then Panic "runtime error: integer divide by zero"
  else if y <=? h then Panic "runtime error: integer overflow"
  else Ok ((h * two64 + l) / y, (h * two64 + l) mod y).
(** bits.LeadingZeros64 *)
Definition lzcnt64 (x : Z) : Z := if x =? 0 then 64 else 63 - Z.log2 x.
(** Go [x << n] and [x >> n] on uint64, n an unsigned shift count: counts of
    64 or more give 0. *)
Definition shl64 (x n : Z) : Z := u64 (x * 2 ^ n).
Definition shr64 (x n : Z) : Z := x / 2 ^ n.

(** uint128.go:10 *)
Definition Zero : uint128 := U 0 0.
(** uint128.go:250-252 *)
Definition New (l h : Z) : uint128 := U l h.
(** uint128.go:255-257 *)
Definition From64 (v : Z) : uint128 := New v 0.

(** uint128.go:26-28 (struct equality) *)
Definition Equals (a b : uint128) : bool := (lo a =? lo b) && (hi a =? hi b).
(** uint128.go:18-20 *)
Definition IsZero (a : uint128) : bool := Equals a Zero.
(** uint128.go:31-33 *)
Definition Equals64 (a : uint128) (v : Z) : bool := (lo a =? v) && (hi a =? 0).

(** uint128.go:41-49 *)
Definition Cmp (a b : uint128) : Z :=
  if Equals a b then 0
  else if (hi a <? hi b) || ((hi a =? hi b) && (lo a <? lo b)) then -1
  else 1.
(** uint128.go:57-65 *)
Definition Cmp64 (a : uint128) (v : Z) : Z :=
  if (0 <? hi a) || (v <? lo a) then 1
  else if lo a =? v then 0
  else -1.

(** uint128.go:68-95 *)
Definition And (a b : uint128) : uint128 := U (Z.land (lo a) (lo b)) (Z.land (hi a) (hi b)).
Definition And64 (a : uint128) (v : Z) : uint128 := U (Z.land (lo a) v) (Z.land (hi a) 0).
Definition Or (a b : uint128) : uint128 := U (Z.lor (lo a) (lo b)) (Z.lor (hi a) (hi b)).
Definition Or64 (a : uint128) (v : Z) : uint128 := U (Z.lor (lo a) v) (Z.lor (hi a) 0).
Definition Xor (a b : uint128) : uint128 := U (Z.lxor (lo a) (lo b)) (Z.lxor (hi a) (hi b)).
Definition Xor64 (a : uint128) (v : Z) : uint128 := U (Z.lxor (lo a) v) (Z.lxor (hi a) 0).

(** uint128.go:98-102 *)
Definition Add (a b : uint128) : uint128 :=
  let '(l, carry) := add64 (lo a) (lo b) 0 in
  let '(h, _) := add64 (hi a) (hi b) carry in
  U l h.
(** uint128.go:105-109 *)
Definition Add64 (a : uint128) (v : Z) : uint128 :=
  let '(l, carry) := add64 (lo a) v 0 in
  U l (u64 (hi a + carry)).
(** uint128.go:112-116 *)
Definition Sub (a b : uint128) : uint128 :=
  let '(l, borrow) := sub64 (lo a) (lo b) 0 in
  let '(h, _) := sub64 (hi a) (hi b) borrow in
  U l h.
(** uint128.go:119-123 *)
Definition Sub64 (a : uint128) (v : Z) : uint128 :=
  let '(l, borrow) := sub64 (lo a) v 0 in
  U l (u64 (hi a - borrow)).
(** uint128.go:126-130 *)
Definition Mul (a b : uint128) : uint128 :=
  let '(h, l) := mul64 (lo a) (lo b) in
  U l (u64 (h + u64 (u64 (hi a * lo b) + u64 (lo a * hi b)))).
(** uint128.go:133-137 *)
Definition Mul64 (a : uint128) (v : Z) : uint128 :=
  let '(h, l) := mul64 (lo a) v in
  U l (u64 (h + u64 (hi a * v))).

(** uint128.go:192-201.  [n] is a Go [uint]; [64-n] wraps only in the branch
    that is not taken. *)
Definition Lsh (a : uint128) (n : Z) : uint128 :=
  if 64 <? n then U 0 (shl64 (lo a) (n - 64))
  else U (shl64 (lo a) n) (Z.lor (shl64 (hi a) n) (shr64 (lo a) (64 - n))).
(** uint128.go:204-213 *)
Definition Rsh (a : uint128) (n : Z) : uint128 :=
  if 64 <? n then U (shr64 (hi a) (n - 64)) 0
  else U (Z.lor (shr64 (lo a) n) (shl64 (hi a) (64 - n))) (shr64 (hi a) n).

(** uint128.go:181-189 *)
Definition QuoRem64 (a : uint128) (v : Z) : res (uint128 * Z) :=
  if hi a <? v then
    '(q, r) <- div64 (hi a) (lo a) v ;; Ok (U q 0, r)
  else
    '(qh, r) <- div64 0 (hi a) v ;;
    '(ql, r') <- div64 r (lo a) v ;;
    Ok (U ql qh, r').

(** uint128.go:152-178 *)
Definition QuoRem (a b : uint128) : res (uint128 * uint128) :=
  if hi b =? 0 then
    '(q, r64) <- QuoRem64 a (lo b) ;; Ok (q, From64 r64)
  else
    let n := lzcnt64 (hi b) in
    let v1 := Lsh b n in
    let u1 := Rsh a 1 in
    '(tq0, _) <- div64 (hi u1) (lo u1) (hi v1) ;;
    let tq1 := shr64 tq0 (63 - n) in
    let tq := if tq1 =? 0 then tq1 else u64 (tq1 - 1) in
    let q := From64 tq in
    let r := Sub a (Mul64 b tq) in
    if 0 <=? Cmp r b then Ok (Add64 q 1, Sub r b) else Ok (q, r).

(** uint128.go:140-149 *)
Definition Div (a b : uint128) : res uint128 := '(q, _) <- QuoRem a b ;; Ok q.
Definition Div64 (a : uint128) (v : Z) : res uint128 := '(q, _) <- QuoRem64 a v ;; Ok q.

(** uint128.go:224-227: the digits of [r], least significant first (no digit
    at all for 0); the Go loop writes them right to left into the buffer. *)
Fixpoint chunk_digits (fuel : nat) (r : Z) : list ascii :=
  match fuel with
  | O => []
  | S f => if r =? 0 then [] else Zb (48 + r mod 10) :: chunk_digits f (r / 10)
  end.

Definition p1e19 : Z := 10 ^ 19.

(** uint128.go:221-232.  [acc] is the already written tail of the buffer
    ([buf[i:]]); moving [i] down by 19 keeps the '0' bytes the buffer was
    initialised with, written here as padding.  Writing before the start of
    the 40-byte buffer would be an index panic.  At most three iterations are
    possible for 128 bits; fuel 4. *)
Fixpoint string_loop (fuel : nat) (u : uint128) (acc : list ascii) : res string :=
  match fuel with
  | O => OutOfFuel
  | S f =>
      '(q, r) <- QuoRem64 u p1e19 ;;
      let ds := chunk_digits 20 r in
      if Nat.ltb 40 (List.length ds + List.length acc) then
        Panic "runtime error: index out of range"
      else if IsZero q then Ok (b2s (rev ds ++ acc)%list)
      else string_loop f q (repeat "0"%char (19 - List.length ds) ++ rev ds ++ acc)%list
  end.
(** uint128.go:216-233 *)
Definition String_ (u : uint128) : res string :=
  if IsZero u then Ok "0" else string_loop 4 u [].

(** encoding/binary LittleEndian.Uint64/PutUint64 are [le_val] and [le_bytes 8]. *)

(** uint128.go:236-239 *)
Definition PutBytes (u : uint128) : bytes := (le_bytes 8 (lo u) ++ le_bytes 8 (hi u))%list.

(** uint128.go:242-247 *)
Definition Big (u : uint128) : Z := Z.lxor (Z.shiftl (hi u) 64) (lo u).

(** uint128.go:260-265; fewer than 16 bytes panic (slice or index bounds). *)
Definition FromBytes (b : bytes) : res uint128 :=
  if Nat.ltb (List.length b) 16 then Panic "runtime error: index out of range"
  else Ok (New (le_val (firstn 8 b)) (le_val (firstn 8 (skipn 8 b)))).

(** math/big BitLen of a non-negative integer. *)
Definition bit_len (z : Z) : Z := if z =? 0 then 0 else Z.log2 (Z.abs z) + 1.

(** uint128.go:269-278.  [i.Uint64()] is the low 64 bits. *)
Definition FromBig (i : Z) : res uint128 :=
  if i <? 0 then Panic "value cannot be negative"
  else if 128 <? bit_len i then Panic "value overflows Uint128"
  else Ok (U (u64 i) (u64 (Z.shiftr i 64))).
