(** Specification: little-endian numbers, two's complement and decimal
    numerals.  Nothing here mentions the model. *)

From Verif Require Import GoBase.

(** The number denoted by bytes, least significant first. *)
Fixpoint le_val (l : bytes) : Z :=
  match l with
  | [] => 0
  | a :: r => bZ a + 256 * le_val r
  end.

(** The [n] low-order bytes of [z], least significant first. *)
Fixpoint le_bytes (n : nat) (z : Z) : bytes :=
  match n with
  | O => []
  | S n' => Zb z :: le_bytes n' (z / 256)
  end.

(** Two's complement reading of an [n]-byte string. *)
Definition twos_val (l : bytes) : Z :=
  let v := le_val l in
  let w := 8 * Z.of_nat (List.length l) in
  if v <? 2 ^ (w - 1) then v else v - 2 ^ w.

(** [is_numeral s n]: [s] is the base-10 numeral of [n >= 0] as people write
    it: only digits, no leading zero unless the number is zero, and the usual
    positional value. *)
Definition positional (s : string) : Z := fold_left (fun acc c => 10 * acc + (bZ c - 48)) (s2b s) 0.
Definition is_numeral (s : string) (n : Z) : Prop :=
  Forall (fun c => 48 <= bZ c <= 57) (s2b s)
  /\ s <> EmptyString
  /\ (first_char s = Some "0"%char -> s = "0"%string)
  /\ positional s = n.
