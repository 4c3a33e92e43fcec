(** float64 arguments: conversions to integers (Go on amd64) and
    decimal.NewFromFloat (shopspring/decimal 1.2.0, from its documentation). *)

From Verif Require Import GoBase SpecNum ModelTools ModelVal.

(** The parts of a float64: (-1)^neg * m * 2^e. *)
Inductive f64 := Fin (neg : bool) (m e : Z) | FInf (neg : bool) | FNaN.
Definition f64_of_bits (w : Z) : f64 :=
  let s := 2 ^ 63 <=? w in
  let x := (w / 2 ^ 52) mod 2048 in
  let f := w mod 2 ^ 52 in
  if x =? 2047 then if f =? 0 then FInf s else FNaN
  else if x =? 0 then Fin s f (-1074)
  else Fin s (f + 2 ^ 52) (x - 1075).
Definition f64_trunc (neg : bool) (m e : Z) : Z :=
  let a := if 0 <=? e then m * 2 ^ e else m / 2 ^ (- e) in
  if neg then - a else a.

(** CVTTSD2SQ and CVTTSD2SL: the smallest integer when the result does not fit. *)
Definition cvt (bits : Z) (v : f64) : Z :=
  match v with
  | Fin s m e => let t := f64_trunc s m e in if (- 2 ^ (bits - 1) <=? t) && (t <? 2 ^ (bits - 1)) then t else - 2 ^ (bits - 1)
  | _ => - 2 ^ (bits - 1)
  end.
(** int(v), uint16(v), uint32(v), uint64(v) as the compiler translates them. *)
Definition f64_int (w : Z) : Z := cvt 64 (f64_of_bits w).
Definition f64_u16 (w : Z) : Z := u16 (cvt 32 (f64_of_bits w)).
Definition f64_u32 (w : Z) : Z := u32 (cvt 64 (f64_of_bits w)).
Definition f64_u64 (w : Z) : Z :=
  match f64_of_bits w with
  | Fin s m e =>
      let t := f64_trunc s m e in
      if t <? 2 ^ 63 then u64 (cvt 64 (Fin s m e)) else if t <? 2 ^ 64 then t else 0
  | FInf true => 2 ^ 63
  | _ => 0
  end.

(** The decimal with the fewest digits between the neighbours' midpoints of
    m * 2^e (m > 0), the nearest one if there are two: the last digit is tried at
    10^k, 10^(k-1), ... *)
Fixpoint shortest_at (fuel : nat) (m e k : Z) : Z * Z :=
  match fuel with
  | O => if 0 <=? e then (m * 2 ^ e, 0) else (m * 5 ^ (- e), e)
  | S n =>
      let M := 2 ^ Z.max e 0 in
      let D := 4 * 2 ^ Z.max (- e) 0 in
      let P := 10 ^ Z.max k 0 in
      let Q := 10 ^ Z.max (- k) 0 in
      let num := 4 * m * M * Q in
      let den := D * P in
      let down := num / den in
      let r := num mod den in
      let low := (4 * m - (if (m =? 2 ^ 52) && (- 1074 <? e) then 1 else 2)) * M * Q in
      let high := (4 * m + 2) * M * Q in
      let ok_down := if Z.even m then low <=? down * den else low <? down * den in
      let ok_up := if Z.even m then (down + 1) * den <=? high else (down + 1) * den <? high in
      if r =? 0 then (down, k)
      else if ok_down && ok_up then (if (den <? 2 * r) || ((2 * r =? den) && Z.odd down) then down + 1 else down, k)
      else if ok_down then (down, k)
      else if ok_up then (down + 1, k)
      else shortest_at n m e (k - 1)
  end.
Definition NewFromFloat (w : Z) : res (Z * Z) :=
  match f64_of_bits w with
  | Fin s m e =>
      if m =? 0 then Ok (0, 0)
      else
        let '(d, k) := shortest_at 30 m e ((Z.log2 m + e + 1) * 30103 / 100000 + 2) in
        Ok (if s then - d else d, k)
  | FInf _ => Panic "Cannot create a Decimal from Inf"
  | FNaN => Panic "Cannot create a Decimal from NaN"
  end.
