(** utiles/encointer/parserFixPoint.go: fixed-point numbers to decimals. *)

From Verif Require Import GoBase ModelTools ModelVal.

(** Binary digits of [n >= 0], most significant first ("0" for zero); fmt "%b". *)
Fixpoint bin_loop (fuel : nat) (n : Z) (acc : string) : string :=
  match fuel with
  | O => acc
  | S f => if n <? 2 then String (digit_char n) acc
           else bin_loop f (n / 2) (String (digit_char (n mod 2)) acc)
  end.
Definition bin_digits (n : Z) : string := bin_loop (S (Z.to_nat (Z.log2 n))) n "".
Definition fmt_b (z : Z) : string := if z <? 0 then "-" ++ bin_digits (- z) else bin_digits z.
(** big.Int.SetString(s, 2) on a string of binary digits. *)
Fixpoint bin_val (acc : Z) (s : string) : Z :=
  match s with
  | EmptyString => acc
  | String c s' => bin_val (2 * acc + digit_val c) s'
  end.

(** parserFixPoint.go:40-49 *)
Definition assertLength (upper lower : Z) : option Z :=
  let length := upper + lower in
  if (length <? 8) || (128 <? length) then None
  else if negb (Z.land length (length - 1) =? 0) then None
  else Some length.

(** big.Float values (53 bits of precision, big.NewFloat) that occur here are
    integer multiples of 2^-64 below 2: represented by that integer, or
    infinity.  [round53] rounds to nearest even at 53 significant bits. *)
Definition round53 (z : Z) : Z := f64_of_int z.
Inductive bigfloat := BF (z : Z) | BFInf.

(** parserFixPoint.go:74-78.  1/2^(k+1), where 2^(k+1) goes through int64:
    2^63 wraps to -2^63 and larger powers to 0, whose reciprocal is +Inf. *)
Definition recip_pow2 (k1 : Z) : bigfloat :=
  if k1 <=? 62 then BF (2 ^ (64 - k1)) else if k1 =? 63 then BF (- 2) else BFInf.
Definition bf_add (a b : bigfloat) : bigfloat :=
  match a, b with
  | BF x, BF y => BF (round53 (x + y))
  | _, _ => BFInf
  end.
Fixpoint float_part (k1 : Z) (acc : bigfloat) (bits : string) : bigfloat :=
  match bits with
  | EmptyString => acc
  | String c r =>
      float_part (k1 + 1) (if Ascii.eqb c "1"%char then bf_add acc (recip_pow2 k1) else acc) r
  end.

(** decimal.NewFromFloat of z / 2^64: the shortest decimal that rounds to the
    same float64 (documented behaviour of the library), found by trying 0, 1,
    2, ... fractional digits; infinity panics.  Only |value| < 2 occurs. *)
Definition nearest_dec (z : Z) (p : Z) : Z := (z * 10 ^ p * 2 + 2 ^ 64) / 2 ^ 65.
(** d / 10^p (d >= 0) rounded to 53 significant bits, to nearest, ties to even,
    in units of 2^-320. *)
Definition float_of_dec (d p : Z) : Z :=
  let num := d * 2 ^ 320 in
  let s := Z.log2 (num / 10 ^ p) - 52 in
  let den := 10 ^ p * 2 ^ s in
  let q := num / den in
  let r := num mod den in
  (if (den <? 2 * r) || ((2 * r =? den) && Z.odd q) then q + 1 else q) * 2 ^ s.
Fixpoint shortest (fuel : nat) (z p : Z) : Z * Z :=
  match fuel with
  | O => (z * 10 ^ 64 / 2 ^ 64, -64)
  | S f => let d := nearest_dec z p in
           if float_of_dec d p =? z * 2 ^ 256 then (d, - p) else shortest f z (p + 1)
  end.
Definition dec_of_float (b : bigfloat) : res (Z * Z) :=
  match b with
  | BFInf => Panic "Cannot create a Decimal from Inf"
  | BF z => Ok (if z =? 0 then (0, 0) else let '(d, e) := shortest 64 (Z.abs z) 0 in (Z.sgn z * d, e))
  end.

(** decimal.Add *)
Definition dec_add (a b : Z * Z) : Z * Z :=
  let '(c1, e1) := a in let '(c2, e2) := b in
  let e := Z.min e1 e2 in
  (c1 * 10 ^ (e1 - e) + c2 * 10 ^ (e2 - e), e).
Definition dec_neg (a : Z * Z) : Z * Z := let '(c, e) := a in (- c, e).

(** parserFixPoint.go:92-98; a slice with the bounds reversed panics. *)
Definition substr (input : string) (length endIndex : Z) : res string :=
  let n := Z.of_nat (String.length input) in
  let lo := n - length in
  let hi := if 0 <? endIndex then n - endIndex else n in
  if (0 <=? lo) && (lo <=? hi) && (hi <=? n)
  then Ok (stake (Z.to_nat (hi - lo)) (sdrop (Z.to_nat lo) input))
  else Panic "runtime error: slice bounds out of range".

(** parserFixPoint.go:51-90; [c * 10^e] is the argument decimal. *)
Definition parserFixPoint (c e precision upper lower : Z) : res (Z * Z) :=
  let bn := dec_int c e in
  match assertLength upper lower with
  | None => Ok (c, e)
  | Some length =>
      if length <? Z.of_nat (String.length (fmt_b bn)) then Ok (c, e)
      else
        let bits := if c <? 0 then right_justify0 (sdrop 1 (fmt_b bn)) (Z.to_nat length)
                    else right_justify0 (fmt_b bn) (Z.to_nat length) in
        lowerBits <- (if Z.of_nat (String.length bits) <? lower
                      then Ok (right_justify0 bits (Z.to_nat lower))
                      else substr bits lower (lower - precision)) ;;
        f <- dec_of_float (float_part 1 (BF 0) lowerBits) ;;
        let upperBits := stake (String.length bits - Z.to_nat lower) bits in
        let decimalPart := bin_val 0 upperBits in
        if 0 <? bn then Ok (dec_add (decimalPart, 0) f)
        else Ok (dec_add (- decimalPart, 0) (dec_neg f))
  end.

(** parserFixPoint.go:28-38 *)
Definition ParseI32F32 (c e precision : Z) := parserFixPoint c e precision 32 32.
Definition ParseI16F16 (c e precision : Z) := parserFixPoint c e precision 16 16.
Definition ParseI64F64 (c e precision : Z) := parserFixPoint c e precision 64 64.
