(** utiles/crypto/ethereum/common/math: big.go and integer.go. *)

From Verif Require Import GoBase ModelTools ModelUint128 ModelEncode.

(** ** big.Int of the standard library, as an integer *)
(** Bits: the words of the absolute value, least significant first, on a
    64-bit machine (big.go:36-39). *)
Fixpoint word_list (n : nat) (z : Z) : list Z :=
  match n with
  | O => []
  | S n' => u64 z :: word_list n' (z / two64)
  end.
Definition Bits (z : Z) : list Z := word_list (Z.to_nat ((bit_len z + 63) / 64)) (Z.abs z).
(** Bytes: the absolute value, big-endian, without leading zeros. *)
Fixpoint be_bytes (n : nat) (z : Z) (acc : bytes) : bytes :=
  match n with
  | O => acc
  | S n' => be_bytes n' (z / 256) (Zb z :: acc)
  end.
Definition Bytes (z : Z) : bytes := be_bytes (Z.to_nat ((bit_len z + 7) / 8)) (Z.abs z) [].
(** SetString(s, 10) is parse_int; SetString(s, 16): optional sign, digits. *)
Definition set_string16 (s : string) : option Z :=
  match s with
  | EmptyString => None
  | String c r =>
      if Ascii.eqb c "-"%char then option_map Z.opp (parse_hex r)
      else if Ascii.eqb c "+"%char then parse_hex r
      else parse_hex s
  end.
(** fmt "%#x" *)
Definition fmt_0x (z : Z) : string := if z <? 0 then "-0x" ++ hex_text (- z) else "0x" ++ hex_text z.

(** ** big.go *)
(** big.go:26-33 *)
Definition tt255 : Z := 2 ^ 255.
Definition tt256 : Z := 2 ^ 256.
Definition tt256m1 : Z := tt256 - 1.

Definition is_0x (s : string) : bool := String.eqb (stake 2 s) "0x" || String.eqb (stake 2 s) "0X".
(** big.go:106-121; None is a false second result. *)
Definition ParseBig256 (s : string) : option Z :=
  if String.eqb s "" then Some 0
  else
    match (if is_0x s then set_string16 (sdrop 2 s) else parse_int s) with
    | Some z => if 256 <? bit_len z then None else Some z
    | None => None
    end.
(** big.go:124-130 *)
Definition MustParseBig256 (s : string) : res Z :=
  match ParseBig256 s with Some z => Ok z | None => Panic ("invalid 256 bit integer: " ++ s) end.
(** big.go:63-68 and 92-102, for a non-nil number *)
Definition HexOrDecimal256_text (z : Z) : string := fmt_0x z.
Definition Decimal256_text (z : Z) : string := itoa z.

(** big.go:139-152 *)
Definition BigMax (x y : Z) : Z := if x <? y then y else x.
Definition BigMin (x y : Z) : Z := if y <? x then y else x.

(** big.go:155-162; Bit of a negative number is that of its two's complement. *)
Fixpoint first_bit (fuel : nat) (i : Z) (v : Z) : Z :=
  match fuel with
  | O => bit_len v
  | S f => if Z.testbit v i then i else first_bit f (i + 1) v
  end.
Definition FirstBitSet (v : Z) : Z := first_bit (Z.to_nat (bit_len v)) 0 v.

(** big.go:205-214: [i] is the index before the next write. *)
Fixpoint read_word (j : nat) (d : Z) (i : nat) (buf : bytes) : nat * bytes :=
  match j, i with
  | S j', S i' => read_word j' (d / 256) i' (set_nth i' (Zb d) buf)
  | _, _ => (i, buf)
  end.
Fixpoint read_words (ws : list Z) (i : nat) (buf : bytes) : bytes :=
  match ws with
  | [] => buf
  | d :: r => let '(i', buf') := read_word 8 d i buf in read_words r i' buf'
  end.
Definition ReadBits (z : Z) (buf : bytes) : bytes := read_words (Bits z) (List.length buf) buf.
(** big.go:166-173; [n] >= 0. *)
Definition PaddedBigBytes (z : Z) (n : nat) : bytes :=
  if Z.of_nat n <=? bit_len z / 8 then Bytes z else ReadBits z (repeat "000"%char n).
(** big.go:178-190 *)
Definition bigEndianByteAt (z : Z) (n : nat) : ascii :=
  match nth_error (Bits z) (n / 8) with
  | None => "000"%char
  | Some w => Zb (w / 2 ^ (8 * Z.of_nat (n mod 8)))
  end.
(** big.go:196-201; [n] >= 0. *)
Definition Byte (z : Z) (padlength n : nat) : ascii :=
  if Nat.leb padlength n then "000"%char else bigEndianByteAt z (padlength - 1 - n).

(** big.go:217-219: the result, which is also the new value of the argument. *)
Definition U256 (x : Z) : Z := Z.land x tt256m1.
(** big.go:223-225 *)
Definition U256Bytes (x : Z) : bytes := PaddedBigBytes (U256 x) 32.
(** big.go:234-239 *)
Definition S256 (x : Z) : Z := if x <? tt255 then x else x - tt256.
(** big.go:246-259: the result and the new value of base.  base and exponent
    are different variables. *)
Fixpoint exp_bits (k : nat) (word result base : Z) : Z * Z :=
  match k with
  | O => (result, base)
  | S k' =>
      let result := if Z.odd word then U256 (result * base) else result in
      exp_bits k' (word / 2) result (U256 (base * base))
  end.
Fixpoint exp_words (ws : list Z) (result base : Z) : Z * Z :=
  match ws with
  | [] => (result, base)
  | w :: r => let '(result, base) := exp_bits 64 w result base in exp_words r result base
  end.
Definition Exp (base exponent : Z) : Z * Z := exp_words (Bits exponent) 1 base.

(** ** integer.go *)
(** strconv.ParseUint in base 16 and 10 with 64 bits; None is an error. *)
Definition parse_uint (o : option Z) : option Z :=
  match o with Some z => if z <? two64 then Some z else None | None => None end.
(** integer.go:61-71 *)
Definition ParseUint64 (s : string) : option Z :=
  if String.eqb s "" then Some 0
  else if is_0x s then parse_uint (parse_hex (sdrop 2 s)) else parse_uint (parse_digits s).
(** integer.go:55-57 *)
Definition HexOrDecimal64_text (z : Z) : string := "0x" ++ hex_text z.
(** integer.go:83-98 *)
Definition SafeSub (x y : Z) : Z * bool := let '(d, b) := sub64 x y 0 in (d, negb (b =? 0)).
Definition SafeAdd (x y : Z) : Z * bool := let '(d, b) := add64 x y 0 in (d, negb (b =? 0)).
Definition SafeMul (x y : Z) : Z * bool := let '(h, l) := mul64 x y in (l, negb (h =? 0)).
(** integer.go:74-80 *)
Definition MustParseUint64 (s : string) : res Z :=
  match ParseUint64 s with Some z => Ok z | None => Panic ("invalid unsigned 64 bit integer: " ++ s) end.
(** UnmarshalText of HexOrDecimal256 and Decimal256 (big.go:53-60, 83-90) and of
    HexOrDecimal64 (integer.go:45-52): the number held afterwards and whether
    there is no error. *)
Definition UnmarshalText256 (held : Z) (input : string) : Z * bool :=
  match ParseBig256 input with Some z => (z, true) | None => (held, false) end.
Definition UnmarshalText64 (held : Z) (input : string) : Z * bool :=
  match ParseUint64 input with Some z => (z, true) | None => (held, false) end.
