(** Go dynamic values that cross the codec API, and the arithmetic of
    github.com/shopspring/decimal v1.2.0 that the code uses on them
    (third-party library, modelled from its documented behaviour). *)

From Verif Require Import GoBase ModelTools.

(** ** Values held in an [interface{}].
    A Go map is a list of key/value pairs; where Go ranges over a map, the
    list order stands for the iteration order of that run.
    [VNilSlice] is a nil [[]interface{}] stored in an interface (the result of
    decoding an empty vector): it is not the nil interface [VNil]. *)
Inductive val : Type :=
| VNil
| VBool (b : bool)
| VInt (z : Z)            (* int *)
| VI64 (z : Z) | VI32 (z : Z) | VI16 (z : Z) | VI8 (z : Z)
| VU64 (z : Z) | VU32 (z : Z) | VU16 (z : Z) | VU8 (z : Z)
| VF64 (bits : Z) | VF32 (bits : Z)   (* floats by their bit pattern *)
| VBig (z : Z)            (* non-nil *big.Int *)
| VDec (coef exp : Z)     (* decimal.Decimal: coef * 10^exp *)
| VStr (s : string)
| VBytes (b : bytes)      (* []byte *)
| VNilSlice
| VSlice (l : list val)   (* non-nil []interface{} *)
| VStrs (l : option (list string))  (* []string, possibly nil *)
| VMap (m : list (string * val))
| VParams (l : list (string * string * val))   (* []ExtrinsicParam: name, type, value *)
| VBox (call_index : string) (params call_args : list val). (* BoxCall; the Value fields *)

(** ** Decimals *)

(** decimal.NewFromString / RequireFromString: optional exponent after e/E
    (an int32), at most one point, then an optionally signed integer.  The
    library's trimming of trailing fractional zeros does not change the value
    and is not modelled. *)
Fixpoint index_any_e (s : string) : option (string * string) :=
  match s with
  | EmptyString => None
  | String c s' =>
      if Ascii.eqb c "e"%char || Ascii.eqb c "E"%char then Some ("", s')
      else match index_any_e s' with Some (a, b) => Some (String c a, b) | None => None end
  end.
Definition int32_ok (z : Z) : bool := (- 2 ^ 31 <=? z) && (z <? 2 ^ 31).
Definition dec_mantissa (s : string) (e : Z) : option (Z * Z) :=
  match split_char "."%char s with
  | [i] => match parse_int i with Some c => if int32_ok e then Some (c, e) else None | None => None end
  | [i; f] =>
      match parse_int (i ++ f) with
      | Some c =>
          let e' := e - Z.of_nat (String.length f) in
          if int32_ok e' then Some (c, e') else None
      | None => None
      end
  | _ => None
  end.
Definition dec_of_string (s : string) : option (Z * Z) :=
  match index_any_e s with
  | None => dec_mantissa s 0
  | Some (m, x) =>
      match parse_int x with
      | Some e => if int32_ok e then dec_mantissa m e else None
      | None => None
      end
  end.

(** Decimal.BigInt: truncation toward zero. *)
Definition dec_int (c e : Z) : Z :=
  if 0 <=? e then c * 10 ^ e else Z.quot c (10 ^ (- e)).
(** Decimal.IntPart: the int64 of the truncation (low 64 bits). *)
Definition dec_intpart (c e : Z) : Z := i64 (dec_int c e).

(** Decimal.Div (16 digits, round half away from zero) then Floor, for an
    integer divisor [d > 0]. *)
Definition dec_div_floor (c e d : Z) : Z * Z :=
  let x := e + 16 in
  let '(q, r, rexp) :=
    if x <? 0 then (Z.quot c (d * 10 ^ (- x)), Z.rem c (d * 10 ^ (- x)), e)
    else (Z.quot (c * 10 ^ x) d, Z.rem (c * 10 ^ x) d, -16) in
  (* compare 2|r| * 10^(rexp+16) with d *)
  let r2 := 2 * Z.abs r in
  let k := rexp + 16 in
  let lt := if k <? 0 then r2 <? d * 10 ^ (- k) else r2 * 10 ^ k <? d in
  let q' := if lt then q else if c <? 0 then q - 1 else q + 1 in
  (q' / 10 ^ 16, 0).

(** float64(z) for an int z: round to nearest, ties to even, 53 bits. *)
Definition f64_of_int (z : Z) : Z :=
  let a := Z.abs z in
  if a <? 2 ^ 53 then z
  else
    let s := Z.log2 a - 52 in
    let q := a / 2 ^ s in
    let r := a mod 2 ^ s in
    let h := 2 ^ (s - 1) in
    let q' := if (h <? r) || ((r =? h) && Z.odd q) then q + 1 else q in
    Z.sgn z * (q' * 2 ^ s).

(** unicode/utf8.Valid *)
Fixpoint utf8_conts (n : nat) (lo hi : Z) (b : bytes) : option bytes :=
  match n with
  | O => Some b
  | S n' =>
      match b with
      | [] => None
      | c :: r => if (lo <=? bZ c) && (bZ c <=? hi) then utf8_conts n' 128 191 r else None
      end
  end.
Fixpoint utf8_valid_fuel (fuel : nat) (b : bytes) : bool :=
  match fuel with
  | O => match b with [] => true | _ => false end
  | S f =>
      match b with
      | [] => true
      | c :: r =>
          let z := bZ c in
          let go n lo hi := match utf8_conts n lo hi r with Some r' => utf8_valid_fuel f r' | None => false end in
          if z <? 128 then utf8_valid_fuel f r
          else if (194 <=? z) && (z <=? 223) then go 1%nat 128 191
          else if z =? 224 then go 2%nat 160 191
          else if z =? 237 then go 2%nat 128 159
          else if (225 <=? z) && (z <=? 239) then go 2%nat 128 191
          else if z =? 240 then go 3%nat 144 191
          else if (241 <=? z) && (z <=? 243) then go 3%nat 128 191
          else if z =? 244 then go 3%nat 128 143
          else false
      end
  end.
Definition utf8_valid (b : bytes) : bool := utf8_valid_fuel (List.length b) b.

(** xstrings.LeftJustify / RightJustify with pad "0" (ASCII text). *)
Fixpoint srepeat (c : ascii) (n : nat) : string :=
  match n with O => "" | S n' => String c (srepeat c n') end.
Definition left_justify0 (s : string) (n : nat) : string := s ++ srepeat "0"%char (n - String.length s).
Definition right_justify0 (s : string) (n : nat) : string := srepeat "0"%char (n - String.length s) ++ s.

(** ** Checked map reads *)
Definition map_get (k : string) (m : list (string * val)) : val :=
  match assoc k m with Some v => v | None => VNil end.
