(** Comparing two metadata: Compare (types/compare.go) and Eq (types/base.go). *)

From Verif Require Import GoBase ModelVal ModelRegistry ModelRegister.

(** What Compare reads of MetadataTag (types/metadata.go:12-24, 69-85,
    155-157): module names, calls and events.  A call is its name and the
    types of its arguments, an event its name and its argument types. *)
Definition item := (string * list string)%type.
Record cmodule := CModule { mod_name : string; mod_calls : list item; mod_events : list item }.

(** compare.go:11-29 *)
Record changes := Changes { ch_new : list string; ch_changes : list (string * string) }.
Record mchanges := MChanges { mc_calls : option changes; mc_events : option changes }.
Record compared := Compared { new_modules : list string; module_changes : list (string * mchanges) }.

(** base.go:267-269; the fuel bounds the depth of the two descriptions. *)
Definition Eq (fuel : nat) (E : env) (a b : string) : res bool :=
  s <- getTypeStructString fuel E a 0 ;; t <- getTypeStructString fuel E b 0 ;; Ok (equal_fold s t).

(** compare.go:41-57: the first one of that name. *)
Fixpoint by_name (n : string) (l : list item) : option item :=
  match l with
  | [] => None
  | x :: r => if String.eqb (fst x) n then Some x else by_name n r
  end.
Fixpoint module_by_name (n : string) (l : list cmodule) : option cmodule :=   (* compare.go:32-39 *)
  match l with
  | [] => None
  | x :: r => if String.eqb (mod_name x) n then Some x else module_by_name n r
  end.
(** compare.go:59-69 *)
Definition show (x : item) : string := fst x ++ "(" ++ join "," (snd x) ++ ")".

(** compare.go:98-108 and 130-139: one change per differing argument. *)
Fixpoint arg_changes (eq : string -> string -> res bool) (change : string * string) (a b : list string) : res (list (string * string)) :=
  match a, b with
  | x :: a', y :: b' =>
      e <- eq x y ;; r <- arg_changes eq change a' b' ;; Ok (if e then r else change :: r)
  | _, _ => Ok []
  end.
(** compare.go:84-109 and 116-140 *)
Fixpoint compare_items (eq : string -> string -> res bool) (dest : list item) (l : list item) : res changes :=
  match l with
  | [] => Ok (Changes [] [])
  | x :: r =>
      match by_name (fst x) dest with
      | None => c <- compare_items eq dest r ;; Ok (Changes (show x :: ch_new c) (ch_changes c))
      | Some y =>
          ds <- (if Nat.eqb (List.length (snd x)) (List.length (snd y)) then arg_changes eq (show y, show x) (snd x) (snd y)
                 else Ok [(show y, show x)]) ;;
          c <- compare_items eq dest r ;; Ok (Changes (ch_new c) (ds ++ ch_changes c)%list)
      end
  end.
(** compare.go:110-112, 141-143: nil slices give no list; with 144 such a module is
    not listed. *)
Definition listed (c : changes) : option changes := match c with Changes [] [] => None | _ => Some c end.

(** compare.go:31-150.  The map of module changes is a list; a later module of
    the same name replaces the earlier one. *)
Fixpoint compare_modules (eq : string -> string -> res bool) (dest l : list cmodule) (acc : compared) : res compared :=
  match l with
  | [] => Ok acc
  | m :: r =>
      match module_by_name (mod_name m) dest with
      | None => compare_modules eq dest r (Compared (new_modules acc ++ [mod_name m])%list (module_changes acc))
      | Some d =>
          calls <- compare_items eq (mod_calls d) (mod_calls m) ;;
          events <- compare_items eq (mod_events d) (mod_events m) ;;
          match listed calls, listed events with
          | None, None => compare_modules eq dest r acc
          | a, b => compare_modules eq dest r (Compared (new_modules acc) (upd (mod_name m) (MChanges a b) (module_changes acc)))
          end
      end
  end.
Definition Compare (fuel : nat) (E : env) (m dest : list cmodule) : res compared :=
  compare_modules (Eq fuel E) dest m (Compared [] []).
Definition Compares (E : env) (m dest : list cmodule) (r : res compared) : Prop :=
  r <> OutOfFuel /\ exists fuel, Compare fuel E m dest = r.
