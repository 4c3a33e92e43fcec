(** Calls given as a map: the JSON round trip of types/Call.go:48-51 into the
    struct of types/Call.go:33-37, whose elements are types/metadata.go:167-171.

    The trip is modelled on JSON values, not on their text; the standard library
    and decimal 1.2.0 are modelled from their documentation.  Simplifications:
    letter case is compared in ASCII (Go also folds U+017F to s); when two keys of
    one map name the same list field, parts of the first that the second leaves
    out would stay.  A BoxCall keeps no names and types of its arguments, so one
    inside a map is written with empty ones, which are not read back. *)

From Verif Require Import GoBase ModelTools ModelVal ModelFloat.

Inductive json : Type :=
| JNull
| JBool (b : bool)
| JInt (z : Z)             (* the text of an integer *)
| JFloat (w : Z)           (* the text strconv writes for a finite float64 *)
| JDec (c e : Z)           (* c * 10^e: the text of a finite float32 *)
| JStr (s : string)
| JArr (l : list json)
| JObj (m : list (string * json)).

(** ** json.Marshal *)

(** Invalid UTF-8: every byte that starts no character becomes U+FFFD. *)
Fixpoint valid_text (fuel : nat) (b : bytes) : bytes :=
  match fuel with
  | O => []
  | S f =>
      match b with
      | [] => []
      | c :: r =>
          let z := bZ c in
          let bad (_ : unit) := (map Zb [239; 191; 189] ++ valid_text f r)%list in
          let go n lo hi := match utf8_conts n lo hi r with
                            | Some r' => (c :: firstn n r ++ valid_text f r')%list
                            | None => bad tt
                            end in
          if z <? 128 then c :: valid_text f r
          else if (194 <=? z) && (z <=? 223) then go 1%nat 128 191
          else if z =? 224 then go 2%nat 160 191
          else if z =? 237 then go 2%nat 128 159
          else if (225 <=? z) && (z <=? 239) then go 2%nat 128 191
          else if z =? 240 then go 3%nat 144 191
          else if (241 <=? z) && (z <=? 243) then go 3%nat 128 191
          else if z =? 244 then go 3%nat 128 143
          else bad tt
      end
  end.
Definition json_text (s : string) : string := b2s (valid_text (String.length s) (s2b s)).

(** Decimal.String: no exponent, no trailing zeros after the point. *)
Fixpoint trim_zeros (s : string) : string :=
  match s with
  | EmptyString => ""
  | String c s' => match trim_zeros s' with
                   | EmptyString => if Ascii.eqb c "0"%char then "" else String c ""
                   | t => String c t
                   end
  end.
Definition dec_text (c e : Z) : string :=
  if 0 <=? e then itoa (c * 10 ^ e)
  else
    let n := Z.to_nat (- e) in
    let s := right_justify0 (itoa (Z.abs c)) (S n) in
    let k := (String.length s - n)%nat in
    let f := trim_zeros (sdrop k s) in
    (if c <? 0 then "-" else "") ++ stake k s ++ (match f with EmptyString => "" | _ => String "."%char f end).

(** A []byte: standard base64 with padding. *)
Definition b64 (z : Z) : ascii :=
  Zb (if z <? 26 then 65 + z else if z <? 52 then 71 + z else if z <? 62 then z - 4 else if z =? 62 then 43 else 47).
Fixpoint base64 (b : bytes) : string :=
  match b with
  | [] => ""
  | [x] => String (b64 (bZ x / 4)) (String (b64 (bZ x mod 4 * 16)) "==")
  | [x; y] => String (b64 (bZ x / 4)) (String (b64 (bZ x mod 4 * 16 + bZ y / 16)) (String (b64 (bZ y mod 16 * 4)) "="))
  | x :: y :: z :: r =>
      String (b64 (bZ x / 4)) (String (b64 (bZ x mod 4 * 16 + bZ y / 16))
        (String (b64 (bZ y mod 16 * 4 + bZ z / 64)) (String (b64 (bZ z mod 64)) (base64 r))))
  end.

(** The shortest decimal that names a float32 (ModelFloat.shortest_at with 24
    bits). *)
Fixpoint shortest32_at (fuel : nat) (m e k : Z) : Z * Z :=
  match fuel with
  | O => if 0 <=? e then (m * 2 ^ e, 0) else (m * 5 ^ (- e), e)
  | S n =>
      let M := 2 ^ Z.max e 0 in
      let D := 4 * 2 ^ Z.max (- e) 0 in
      let P := 10 ^ Z.max k 0 in
      let Q := 10 ^ Z.max (- k) 0 in
      let num := 4 * m * M * Q in
      let den := D * P in
      let down := num / den in
      let r := num mod den in
      let low := (4 * m - (if (m =? 2 ^ 23) && (- 149 <? e) then 1 else 2)) * M * Q in
      let high := (4 * m + 2) * M * Q in
      let ok_down := if Z.even m then low <=? down * den else low <? down * den in
      let ok_up := if Z.even m then (down + 1) * den <=? high else (down + 1) * den <? high in
      if r =? 0 then (down, k)
      else if ok_down && ok_up then (if (den <? 2 * r) || ((2 * r =? den) && Z.odd down) then down + 1 else down, k)
      else if ok_down then (down, k)
      else if ok_up then (down + 1, k)
      else shortest32_at n m e (k - 1)
  end.
Definition json_f32 (w : Z) : option json :=
  let s := 2 ^ 31 <=? w in
  let x := (w / 2 ^ 23) mod 256 in
  let f := w mod 2 ^ 23 in
  if x =? 255 then None
  else
    let '(m, e) := if x =? 0 then (f, -149) else (f + 2 ^ 23, x - 150) in
    if m =? 0 then Some (if s then JFloat (2 ^ 63) else JInt 0)
    else let '(d, k) := shortest32_at 30 m e ((Z.log2 m + e + 1) * 30103 / 100000 + 2) in
         Some (JDec (if s then - d else d) k).

Section Entries.
Context {A B : Type}.
Variable f : A -> option B.
Fixpoint all_some (l : list A) : option (list B) :=
  match l with
  | [] => Some []
  | a :: r => match f a, all_some r with Some b, Some bs => Some (b :: bs) | _, _ => None end
  end.
End Entries.
Definition json_arg (n t : string) (j : json) : json := JObj [("name", JStr (json_text n)); ("type", JStr (json_text t)); ("value", j)].

(** NaN and the infinities have no JSON: an error, which leaves no text.  A nil
    slice is null; so is a []ExtrinsicParam without elements, which is nil
    wherever the decoder makes one (Call.go:24). *)
Fixpoint marshal (v : val) : option json :=
  match v with
  | VNil => Some JNull
  | VBool b => Some (JBool b)
  | VInt z | VI64 z | VI32 z | VI16 z | VI8 z | VU64 z | VU32 z | VU16 z | VU8 z | VBig z => Some (JInt z)
  | VF64 w => match f64_of_bits w with Fin _ _ _ => Some (JFloat w) | _ => None end
  | VF32 w => json_f32 w
  | VDec c e => Some (JStr (dec_text c e))
  | VStr s => Some (JStr (json_text s))
  | VBytes b => Some (JStr (base64 b))
  | VNilSlice => Some JNull
  | VSlice l => match all_some marshal l with Some js => Some (JArr js) | None => None end
  | VStrs None => Some JNull
  | VStrs (Some l) => Some (JArr (map (fun s => JStr (json_text s)) l))
  | VMap m =>
      match all_some (fun p => match marshal (snd p) with Some j => Some (json_text (fst p), j) | None => None end) m with
      | Some js => Some (JObj js)
      | None => None
      end
  | VParams [] => Some JNull
  | VParams l =>
      match all_some (fun p => match marshal (snd p) with Some j => Some (json_arg (fst (fst p)) (snd (fst p)) j) | None => None end) l with
      | Some js => Some (JArr js)
      | None => None
      end
  | VBox i ps cs =>
      let args l := match l with
                    | [] => Some JNull
                    | _ => match all_some (fun x => match marshal x with Some j => Some (json_arg "" "" j) | None => None end) l with
                           | Some js => Some (JArr js)
                           | None => None
                           end
                    end in
      match args ps, args cs with
      | Some p, Some c => Some (JObj [("call_Index", JStr (json_text i)); ("params", p); ("call_args", c)])
      | _, _ => None
      end
  end.

(** ** json.Unmarshal *)

(** strconv.ParseFloat: the nearest float64 (ties to even) of +-n/d, n > 0. *)
Definition rat_f64 (neg : bool) (n d : Z) : option Z :=
  let at_exp e := (n * 2 ^ Z.max (- e) 0) / (d * 2 ^ Z.max e 0) in
  let e := Z.max (-1074) (Z.log2 n - Z.log2 d - 53) in
  let e := if 2 ^ 53 <=? at_exp e then e + 1 else e in
  let den := d * 2 ^ Z.max e 0 in
  let q := at_exp e in
  let r := (n * 2 ^ Z.max (- e) 0) mod den in
  let q := if (den <? 2 * r) || ((2 * r =? den) && Z.odd q) then q + 1 else q in
  let w := if q <? 2 ^ 52 then q else (e + 1075) * 2 ^ 52 + (q - 2 ^ 52) in
  if w <? 2047 * 2 ^ 52 then Some ((if neg then 2 ^ 63 else 0) + w) else None.
Definition int_f64 (z : Z) : option Z := if z =? 0 then Some 0 else rat_f64 (z <? 0) (Z.abs z) 1.
Definition dec_f64 (c e : Z) : option Z :=
  if c =? 0 then Some 0 else rat_f64 (c <? 0) (Z.abs c * 10 ^ Z.max e 0) (10 ^ Z.max (- e) 0).

(** Into an interface{}; a number beyond float64 is an error. *)
Fixpoint unmarshal (j : json) : option val :=
  match j with
  | JNull => Some VNil
  | JBool b => Some (VBool b)
  | JInt z => match int_f64 z with Some w => Some (VF64 w) | None => None end
  | JFloat w => Some (VF64 w)
  | JDec c e => match dec_f64 c e with Some w => Some (VF64 w) | None => None end
  | JStr s => Some (VStr s)
  | JArr l => match all_some unmarshal l with Some vs => Some (VSlice vs) | None => None end
  | JObj m =>
      match all_some (fun p => match unmarshal (snd p) with Some v => Some (fst p, v) | None => None end) m with
      | Some vs => Some (VMap vs)
      | None => None
      end
  end.

(** The entries of an object for one field of a struct, in the order they are
    written: sorted by key. *)
Fixpoint insert_entry (p : string * json) (l : list (string * json)) : list (string * json) :=
  match l with
  | [] => [p]
  | q :: r => if String.leb (fst p) (fst q) then p :: l else q :: insert_entry p r
  end.
Definition entries_of (f : string) (m : list (string * json)) : list json :=
  map snd (fold_right insert_entry [] (filter (fun p => equal_fold (fst p) f) m)).
(** A string field: null changes nothing, another kind is an error. *)
Fixpoint string_field (acc : string) (l : list json) : option string :=
  match l with
  | [] => Some acc
  | JNull :: r => string_field acc r
  | JStr s :: r => string_field s r
  | _ => None
  end.
Fixpoint value_field (acc : val) (l : list json) : option val :=
  match l with
  | [] => Some acc
  | j :: r => match unmarshal j with Some v => value_field v r | None => None end
  end.
(** metadata.go:167-171; only the value is kept. *)
Definition arg_of (j : json) : option val :=
  match j with
  | JNull => Some VNil
  | JObj m =>
      match string_field "" (entries_of "name" m), string_field "" (entries_of "type" m), value_field VNil (entries_of "value" m) with
      | Some _, Some _, Some v => Some v
      | _, _, _ => None
      end
  | _ => None
  end.
Fixpoint args_field (acc : list val) (l : list json) : option (list val) :=
  match l with
  | [] => Some acc
  | JNull :: r => args_field [] r
  | JArr js :: r => match all_some arg_of js with Some vs => args_field vs r | None => None end
  | _ => None
  end.

(** encoding/json refuses texts nested deeper than 10000. *)
Fixpoint depth (j : json) : Z :=
  match j with
  | JArr l => 1 + fold_right Z.max 0 (map depth l)
  | JObj m => 1 + fold_right Z.max 0 (map (fun p => depth (snd p)) m)
  | _ => 0
  end.

(** Call.go:47-51: [None] is the panic "input value is not valid boxCall". *)
Definition json_box (m : list (string * val)) : option (string * list val * list val) :=
  match marshal (VMap m) with
  | Some (JObj o) =>
      if depth (JObj o) <=? 10000 then
        match string_field "" (entries_of "call_Index" o), args_field [] (entries_of "params" o), args_field [] (entries_of "call_args" o) with
        | Some i, Some ps, Some cs => Some (i, ps, cs)
        | _, _, _ => None
        end
      else None
  | _ => None
  end.
