(** tools/merge.go, the program that writes source/base.go, and the two
    functions of utiles and common/math no other function calls:
    utiles.BytesToBnHex (utiles/tools.go:99-105) and math.BigPow
    (utiles/crypto/ethereum/common/math/big.go:132-136). *)
From Coq Require Import ZArith String Ascii List Bool.
From Verif Require Import GoBase ModelTools.
Import ListNotations.
Open Scope string_scope. Open Scope Z_scope.

(** One file filepath.Walk visits. The entries are what the loop of line 34
    ranges over, in any order: no two have one key. They are empty when the file
    cannot be read or does not hold a JSON object (lines 31-33 drop both errors). *)
Record src_file (V : Type) := SrcFile { f_path : string; f_entries : list (string * V) }.
Arguments SrcFile {V} _ _. Arguments f_path {V} _. Arguments f_entries {V} _.

Section Merge.
Context {V : Type}.
(** merge.go:29: the text after the last dot is "json". *)
Definition is_json (p : string) : bool := String.eqb (last (split_char "."%char p) "") "json".
(** merge.go:34-36 *)
Definition merge_one (source : list (string * V)) (f : src_file V) : list (string * V) :=
  if is_json (f_path f) then fold_left (fun m e => map_set (fst e) (snd e) m) (f_entries f) source else source.
(** merge.go:26-38 *)
Definition merge_all (files : list (src_file V)) : list (string * V) := fold_left merge_one files [].
(** merge.go:27, 30 *)
Definition merged_paths (files : list (src_file V)) : list string := filter is_json (map f_path files).
(** merge.go:12-19 and 39-41; [marshal] is json.Marshal of the map. *)
Definition nl : string := String "010"%char "".
Definition bq : string := String "096"%char "".
Definition base_head (paths : list string) : string :=
  nl ++ "// Code generated by type.sh. DO NOT EDIT." ++ nl ++ "// source: " ++ join " " paths ++ nl ++ nl ++ "package source" ++ nl ++ nl ++ "var BaseType = ".
Definition base_file (marshal : list (string * V) -> string) (files : list (src_file V)) : string :=
  base_head (merged_paths files) ++ (bq ++ marshal (merge_all files) ++ bq) ++ nl.
End Merge.

(** tools.go:99-105: "%d" of each byte. *)
Definition BytesToBnHex (value : bytes) : string := fold_left (fun h b => h ++ itoa (bZ b)) value "".

(** big.go:133-136: big.Int.Exp without a modulus gives 1 when the exponent is
    negative. *)
Definition BigPow (a b : Z) : Z := if b <? 0 then 1 else a ^ b.
(** big.go:30, 32 *)
Definition tt63 : Z := BigPow 2 63.
Definition MaxBig63 : Z := tt63 - 1.
