(** The two JSON operations the codec relies on: [json.Marshal] of a
    [[][]string] (types/scaleInfo.go:393-401 via utiles.ToString) and
    [json.Unmarshal] of a string into a [[][]string] (types/Enum.go:59-60,
    101-102).  Standard-library behaviour modelled from its documentation.
    Simplifications: text is treated byte by byte, so bytes >= 0x80 are copied
    unchanged (Go replaces invalid UTF-8 and escapes U+2028/U+2029), and a
    \u escape of a surrogate gives U+FFFD (Go joins valid pairs). *)

From Verif Require Import GoBase ModelTools.

Definition hex4 (z : Z) : string :=
  String (hex_digit (z / 4096 mod 16)) (String (hex_digit (z / 256 mod 16))
    (String (hex_digit (z / 16 mod 16)) (String (hex_digit (z mod 16)) ""))).

(** encoding/json string escaping with HTML escaping on. *)
Definition esc_char (c : ascii) : string :=
  let z := bZ c in
  if z =? 34 then "\""" else if z =? 92 then "\\"
  else if z =? 10 then "\n" else if z =? 13 then "\r" else if z =? 9 then "\t"
  else if (z <? 32) || (z =? 60) || (z =? 62) || (z =? 38) then "\u" ++ hex4 z
  else String c "".
Fixpoint escape (s : string) : string :=
  match s with
  | EmptyString => ""
  | String c s' => esc_char c ++ escape s'
  end.
Definition quote (s : string) : string := String """"%char (escape s ++ """").

Definition json_list (l : list string) : string := "[" ++ join "," l ++ "]".
(** json.Marshal([][]string) of a non-nil slice of non-nil slices. *)
Definition json_marshal (l : list (list string)) : string :=
  json_list (map (fun r => json_list (map quote r)) l).

(** ** Parsing *)

Fixpoint skip_ws (s : string) : string :=
  match s with
  | String c s' =>
      let z := bZ c in
      if (z =? 32) || (z =? 9) || (z =? 10) || (z =? 13) then skip_ws s' else s
  | EmptyString => ""
  end.

(** UTF-8 encoding of a basic-plane code point; surrogates become U+FFFD. *)
Definition utf8_of (z : Z) : string :=
  let z := if (55296 <=? z) && (z <=? 57343) then 65533 else z in
  if z <? 128 then String (Zb z) ""
  else if z <? 2048 then String (Zb (192 + z / 64)) (String (Zb (128 + z mod 64)) "")
  else String (Zb (224 + z / 4096)) (String (Zb (128 + z / 64 mod 64)) (String (Zb (128 + z mod 64)) "")).

Definition is_u (c : ascii) : bool := Ascii.eqb c "u"%char.

(** The rest of a JSON string literal after its opening quote: its value and
    the text after the closing quote. *)
Fixpoint parse_str (s : string) : option (string * string) :=
  match s with
  | EmptyString => None
  | String c s1 =>
      let z := bZ c in
      if z =? 34 then Some ("", s1)
      else if z <? 32 then None
      else if negb (z =? 92) then
        match parse_str s1 with Some (v, r) => Some (String c v, r) | None => None end
      else
        match s1 with
        | EmptyString => None
        | String e s2 =>
            let ez := bZ e in
            if ez =? 117 then
              match s2 with
              | String a (String b (String d (String f s3))) =>
                  match hex_val a, hex_val b, hex_val d, hex_val f with
                  | Some a', Some b', Some d', Some f' =>
                      match parse_str s3 with
                      | Some (v, r) => Some (utf8_of (4096 * a' + 256 * b' + 16 * d' + f') ++ v, r)
                      | None => None
                      end
                  | _, _, _, _ => None
                  end
              | _ => None
              end
            else
              let out :=
                if (ez =? 34) || (ez =? 92) || (ez =? 47) then Some e
                else if ez =? 98 then Some (Zb 8) else if ez =? 102 then Some (Zb 12)
                else if ez =? 110 then Some (Zb 10) else if ez =? 114 then Some (Zb 13)
                else if ez =? 116 then Some (Zb 9) else None in
              match out with
              | None => None
              | Some c' => match parse_str s2 with Some (v, r) => Some (String c' v, r) | None => None end
              end
        end
  end.

(** A string element; [null] leaves the zero value "". *)
Definition parse_elem (s : string) : option (string * string) :=
  let s := skip_ws s in
  match s with
  | String c s1 =>
      if bZ c =? 34 then parse_str s1
      else if prefix "null" s then Some ("", sdrop 4 s) else None
  | EmptyString => None
  end.

(** A JSON array of things parsed by [elem]; [null] gives the nil slice. *)
Fixpoint parse_items {A} (elem : string -> option (A * string)) (fuel : nat) (s : string) : option (list A * string) :=
  match fuel with
  | O => None
  | S f =>
      match elem s with
      | None => None
      | Some (v, r) =>
          match skip_ws r with
          | String c r1 =>
              if bZ c =? 44 then
                match parse_items elem f r1 with Some (l, r2) => Some (v :: l, r2) | None => None end
              else if bZ c =? 93 then Some ([v], r1) else None
          | EmptyString => None
          end
      end
  end.
Definition parse_array {A} (elem : string -> option (A * string)) (s : string) : option (list A * string) :=
  let s := skip_ws s in
  match s with
  | String c s1 =>
      if bZ c =? 91 then
        match skip_ws s1 with
        | String c2 s2 => if bZ c2 =? 93 then Some ([], s2) else parse_items elem (String.length s1) s1
        | EmptyString => None
        end
      else if prefix "null" s then Some ([], sdrop 4 s) else None
  | EmptyString => None
  end.
(** json.Unmarshal into [[][]string]: the whole text must be one value. *)
Definition json_unmarshal (s : string) : option (list (list string)) :=
  match parse_array (parse_array parse_elem) s with
  | Some (l, r) => if String.eqb (skip_ws r) "" then Some l else None
  | None => None
  end.

(** Enum.go:60 and 102: the struct-variant test on a variant's type text. *)
Definition struct_variant (sub : string) : option (list (list string)) :=
  if (4 <? Z.of_nat (String.length sub)) && String.eqb (stake 2 sub) "[[" then
    match json_unmarshal sub with
    | Some (r :: l) => if Nat.eqb (List.length r) 2 then Some (r :: l) else None
    | _ => None
    end
  else None.
