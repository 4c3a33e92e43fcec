(** The text of a key of a decoded BTreeMap: utiles/tools.go:81-93 with the text
    that json.Marshal writes (types/BTreeMap.go:20-23).  Standard-library
    behaviour modelled from its documentation: no spaces, the keys of a map in
    order, HTML escaping as in ModelJson.v.  The texts of floats are not
    modelled (see ModelBox.v for their values); structs keep the order of their
    fields, which only for a BoxCall is not the order of the names, and no decoder
    makes one. *)

From Verif Require Import GoBase ModelTools ModelJson ModelVal ModelRegistry ModelBox.

(** Keys in order *)
Fixpoint in_order (j : json) : json :=
  match j with
  | JArr l => JArr (map in_order l)
  | JObj m => JObj (fold_right insert_entry [] (map (fun p => (fst p, in_order (snd p))) m))
  | j => j
  end.
Fixpoint tail_text (close : ascii) (l : list string) : string :=
  match l with
  | [] => String close ""
  | s :: r => String ","%char (s ++ tail_text close r)
  end.
Definition list_text (op close : ascii) (l : list string) : string :=
  String op (match l with [] => String close "" | s :: r => s ++ tail_text close r end).
Fixpoint render (j : json) : string :=
  match j with
  | JNull => "null"
  | JBool b => if b then "true" else "false"
  | JInt z => itoa z
  | JStr s => quote s
  | JArr l => list_text "["%char "]"%char (map render l)
  | JObj m => list_text "{"%char "}"%char (map (fun p => quote (fst p) ++ String ":"%char (render (snd p))) m)
  | JFloat _ | JDec _ _ => ""
  end.
Definition json_key (v : val) : string := match marshal v with Some j => render (in_order j) | None => "" end.
