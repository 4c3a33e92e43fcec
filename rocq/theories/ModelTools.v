(** Model of utiles/tools.go and types/scaleBytes/scaleBytes.go. *)

From Verif Require Import GoBase SpecNum.

(** ** encoding/hex (Go standard library) *)

(** hextable: lower-case digits. *)
Definition hex_digit (d : Z) : ascii := if d <? 10 then Zb (48 + d) else Zb (87 + d).
(** reverseHexTable: both cases are accepted. *)
Definition hex_val (c : ascii) : option Z :=
  let z := bZ c in
  if (48 <=? z) && (z <=? 57) then Some (z - 48)
  else if (97 <=? z) && (z <=? 102) then Some (z - 87)
  else if (65 <=? z) && (z <=? 70) then Some (z - 55)
  else None.

(** hex.Encode *)
Fixpoint hex_encode (b : bytes) : string :=
  match b with
  | [] => EmptyString
  | a :: r => String (hex_digit (bZ a / 16)) (String (hex_digit (bZ a mod 16)) (hex_encode r))
  end.

(** hex.Decode into a zeroed buffer of len/2 bytes, error ignored: pairs are
    decoded up to the first pair holding a non-hex byte, and the rest of the
    buffer stays zero; a last unpaired byte is ignored. *)
Fixpoint hex_decode (s : string) : bytes :=
  match s with
  | String p (String q r) =>
      match hex_val p, hex_val q with
      | Some a, Some b => Zb (16 * a + b) :: hex_decode r
      | _, _ => repeat "000"%char (S (Nat.div2 (String.length r)))
      end
  | _ => []
  end.

(** ** utiles/tools.go *)

(** tools.go:52-56 *)
Definition BytesToHex (b : bytes) : string := hex_encode b.
(** tools.go:95-97 *)
Definition TrimHex (s : string) : string := trim_prefix s "0x".
(** tools.go:45-50 *)
Definition HexToBytes (s : string) : bytes := hex_decode (TrimHex s).
(** tools.go:31-36 *)
Definition AddHex (s : string) : string := if has_prefix s "0x" then s else "0x" ++ s.

(** Digits of a base-16 big.Int.SetString: at least one digit, nothing else. *)
Fixpoint hex_acc (acc : Z) (s : string) : option Z :=
  match s with
  | EmptyString => Some acc
  | String c r => match hex_val c with
                  | Some d => hex_acc (16 * acc + d) r
                  | None => None
                  end
  end.
Definition parse_hex (s : string) : option Z :=
  match s with EmptyString => None | _ => hex_acc 0 s end.
(** tools.go:38-43; [None] is the nil *big.Int.  big.Int.SetString accepts a
    leading sign. *)
Definition U256 (s : string) : option Z :=
  match TrimHex s with
  | EmptyString => None
  | String c r =>
      if Ascii.eqb c "-"%char then option_map Z.opp (parse_hex r)
      else if Ascii.eqb c "+"%char then parse_hex r
      else parse_hex (String c r)
  end.

(** tools.go:15-21; strconv.Atoi fails outside int64, giving 0. *)
Definition StringToInt (s : string) : Z :=
  match parse_int s with
  | Some z => if (- two63 <=? z) && (z <? two63) then z else 0
  | None => 0
  end.

(** tools.go:62-71; [seen] is the [keys] map. *)
Fixpoint unique_loop (seen s : list string) : list string :=
  match s with
  | [] => []
  | e :: r => if existsb (String.eqb e) seen then unique_loop seen r
              else e :: unique_loop (e :: seen) r
  end.
Definition UniqueSlice (s : list string) : list string := unique_loop [] s.

(** Slice write [a[i] = v]; out of range never happens in the callers. *)
Fixpoint set_nth (i : nat) (v : ascii) (a : bytes) : bytes :=
  match a, i with
  | [], _ => []
  | _ :: r, O => v :: r
  | x :: r, S k => x :: set_nth k v r
  end.
(** tools.go:73-79, the loop on i and j: [a] is the zeroed destination. *)
Fixpoint reverse_loop (fuel : nat) (i j : Z) (a b : bytes) : bytes :=
  match fuel with
  | O => a
  | S f =>
      if i <? j then
        let bi := nth (Z.to_nat i) b "000"%char in
        let bj := nth (Z.to_nat j) b "000"%char in
        reverse_loop f (i + 1) (j - 1) (set_nth (Z.to_nat j) bi (set_nth (Z.to_nat i) bj a)) b
      else a
  end.
Definition ReverseBytes (b : bytes) : bytes :=
  reverse_loop (List.length b) 0 (Z.of_nat (List.length b) - 1) (repeat "000"%char (List.length b)) b.

(** tools.go:123-130 *)
Definition ascii_ok (c : ascii) : bool :=
  let z := bZ c in
  negb ((127 <? z) || ((z <? 32) && negb ((z =? 9) || (z =? 10) || (z =? 13)))).
Definition IsASCII (b : bytes) : bool := forallb ascii_ok b.

(** tools.go:132-139 *)
Fixpoint slice_index (k : Z) (a : string) (l : list string) : Z :=
  match l with
  | [] => -1
  | b :: r => if String.eqb b a then k else slice_index (k + 1) a r
  end.
Definition SliceIndex (a : string) (l : list string) : Z := slice_index 0 a l.

(** tools.go:148-152 *)
Definition U8Encode (i : Z) : string := BytesToHex [Zb i].

(** tools.go:215-218 *)
Definition U256DecoderToBigInt (s : string) : option Z :=
  U256 (BytesToHex (ReverseBytes (HexToBytes s))).

(** ** The cursor, types/scaleBytes/scaleBytes.go *)

(** scaleBytes.go:7-10 *)
Record cursor := Cursor { c_data : bytes; c_off : Z }.

Definition blen (b : bytes) : Z := Z.of_nat (List.length b).

(** Go slice expression [b[lo:hi]]; panics outside 0 <= lo <= hi <= len.
    (Go allows hi up to the capacity; the code never goes past the length.) *)
Definition slice (b : bytes) (lo hi : Z) : res bytes :=
  if (0 <=? lo) && (lo <=? hi) && (hi <=? blen b)
  then Ok (firstn (Z.to_nat (hi - lo)) (skipn (Z.to_nat lo) b))
  else Panic "runtime error: slice bounds out of range".

(** scaleBytes.go:19-28; int addition wraps. *)
Definition next_bytes (b : bytes) (off len : Z) : res (bytes * Z) :=
  if blen b <? i64 (off + len) then
    d <- slice b off (blen b) ;; Ok (d, blen b)
  else
    d <- slice b off (i64 (off + len)) ;; Ok (d, i64 (off + len)).
Definition GetNextBytes (s : cursor) (len : Z) : res (bytes * cursor) :=
  '(d, off) <- next_bytes (c_data s) (c_off s) len ;; Ok (d, Cursor (c_data s) off).
(** scaleBytes.go:30-32 *)
Definition GetRemainingLength (s : cursor) : Z := blen (c_data s) - c_off s.
(** scaleBytes.go:34-36 *)
Definition CursorString (s : cursor) : string := AddHex (BytesToHex (c_data s)).
(** scaleBytes.go:38-40 *)
Definition Reset (s : cursor) : cursor := Cursor (c_data s) 0.
