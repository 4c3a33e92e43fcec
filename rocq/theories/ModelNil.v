(** utiles.IsNil (utiles/tools.go:154-163) for a value of any Go type, and what
    Option.Encode (types/Option.go:24-38) does with it. The model of Encode
    (ModelEncode.v) has only the types of values the codec itself makes. *)
From Coq Require Import ZArith String List Bool.
From Verif Require Import GoBase.
Open Scope string_scope. Open Scope Z_scope.

(** reflect.Kind; the numbers, strings and booleans are [KBasic]. TypeOf never
    gives reflect.Interface. *)
Inductive kind := KBasic | KStruct | KArray | KChan | KFunc | KMap | KPtr | KSlice | KUnsafePointer.
(** A value of type interface{}: nil, or a value of some kind with whether it is
    the nil of that kind. *)
Inductive any := NilAny | SomeAny (k : kind) (zero : bool).
(** reflect.Value.IsNil: panics for kinds that have no nil. *)
Definition reflect_is_nil (k : kind) (zero : bool) : res bool :=
  match k with
  | KChan | KFunc | KMap | KPtr | KSlice | KUnsafePointer => Ok zero
  | _ => Panic "reflect: call of reflect.Value.IsNil on a value without nil"
  end.
(** tools.go:154-163 *)
Definition IsNil (a : any) : res bool :=
  match a with
  | NilAny => Ok true
  | SomeAny k zero =>
      match k with
      | KPtr | KMap | KArray | KChan | KSlice | KFunc => reflect_is_nil k zero
      | _ => Ok false
      end
  end.
(** Option.go:24-38 for a value other than the empty string and a sub-type other
    than bool; [enc] is what EncodeWithOpt of the sub-type gives. *)
Definition option_encode (enc : any -> res string) (a : any) : res string :=
  n <- IsNil a ;;
  if n then Ok "00" else s <- enc a ;; Ok ("01" ++ s).
