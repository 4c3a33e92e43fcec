(** C101: IsNil tells nil from other values. *)
From Coq Require Import ZArith String List Bool.
From Verif Require Import GoBase ModelNil.
Open Scope string_scope. Open Scope Z_scope.

(** The Go language: comparing with nil is possible for these kinds. *)
Definition has_nil (k : kind) : Prop := match k with KBasic | KStruct | KArray => False | _ => True end.
(** A value is nil: the nil interface, or the nil of its kind. *)
Definition is_none (a : any) : Prop := match a with NilAny => True | SomeAny k zero => has_nil k /\ zero = true end.
Definition of_kind (k : kind) (a : any) : Prop := match a with NilAny => False | SomeAny k' _ => k' = k end.

(** Exact for all values but arrays and unsafe pointers. *)
Theorem C101_nil_partial a : ~ of_kind KArray a -> ~ of_kind KUnsafePointer a -> exists b, IsNil a = Ok b /\ (b = true <-> is_none a).
Proof.
  destruct a as [|k z]; intros NA NU; [exists true; cbn; tauto|].
  destruct k; cbn in *; try (now destruct NA); try (now destruct NU); (exists false + exists z); (split; [reflexivity|]); intuition congruence.
Qed.
(** Nil is never reported for something that is not. *)
Theorem C101_sound a : IsNil a = Ok true -> is_none a.
Proof. destruct a as [|[] z]; cbn; intros H; try discriminate; try injection H as ->; auto. Qed.
(** Every array panics, and so does encoding one as an option. *)
Theorem C101_array_refuted : (forall a, of_kind KArray a -> ~ is_none a /\ exists e, IsNil a = Panic e /\ forall enc, option_encode enc a = Panic e)
  /\ exists a, is_none a /\ IsNil a = Ok false.
Proof.
  split; [|exists (SomeAny KUnsafePointer true); cbn; auto]. intros [|k z] H; [destruct H|]. cbn in H. subst k. split; [cbn; tauto|]. eexists. split; reflexivity.
Qed.
(** For the other values the option is the byte 00 exactly for nil, and otherwise
    01 and the encoding of the value. *)
Theorem C101_option enc a : ~ of_kind KArray a -> ~ of_kind KUnsafePointer a ->
  (is_none a -> option_encode enc a = Ok "00") /\ (~ is_none a -> forall s, enc a = Ok s -> option_encode enc a = Ok ("01" ++ s)).
Proof.
  intros NA NU. destruct (C101_nil_partial a NA NU) as (b & E & I). unfold option_encode. rewrite E. cbn [bind]. split; intros H.
  - now rewrite (proj2 I H).
  - intros s S. destruct b; [now destruct H; apply I|]. now rewrite S.
Qed.
Example C101_case : IsNil (SomeAny KPtr true) = Ok true /\ IsNil (SomeAny KMap false) = Ok false /\ IsNil (SomeAny KBasic true) = Ok false
  /\ option_encode (fun _ => Ok "2a") (SomeAny KBasic false) = Ok "012a".
Proof. repeat split. Qed.
Print Assumptions C101_nil_partial.
Print Assumptions C101_sound.
Print Assumptions C101_array_refuted.
Print Assumptions C101_option.
