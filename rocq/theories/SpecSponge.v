(** The sponge construction of FIPS 202, section 4, on bytes: padding, absorbing
    block by block, and the bytes squeezed out. *)

From Verif Require Import GoBase.

Local Open Scope nat_scope.

Definition xor_byte (a b : ascii) : ascii := ascii_of_N (N.lxor (N_of_ascii a) (N_of_ascii b)).
(** The state with a shorter string added to its front. *)
Fixpoint xor_into (s b : bytes) : bytes :=
  match s, b with
  | x :: s', y :: b' => xor_byte x y :: xor_into s' b'
  | _, _ => s
  end.
(** Cut into pieces of [r] bytes. *)
Fixpoint cut (fuel r : nat) (l : bytes) : list bytes :=
  match fuel, l with
  | O, _ | _, [] => []
  | S f, _ => firstn r l :: cut f r (skipn r l)
  end.
(** From the separator bits and the first padding bit in [ds] to the last one. *)
Definition padding (r : nat) (ds : ascii) (len : nat) : bytes :=
  let q := r - len mod r in
  if Nat.eqb q 1 then [xor_byte ds "128"%char] else ds :: (repeat "000"%char (q - 2) ++ ["128"%char])%list.

Section Construction.
(** The permutation of a string of 200 bytes, and the rate. *)
Variable F : bytes -> bytes.
Variable r : nat.
Definition absorb (S : bytes) (b : bytes) : bytes := F (xor_into S b).
Definition absorbed (ds : ascii) (m : bytes) : bytes :=
  let p := (m ++ padding r ds (List.length m))%list in
  fold_left absorb (cut (List.length p) r p) (repeat "000"%char 200).
(** Output byte [i]. *)
Definition squeezed (S : bytes) (i : nat) : ascii := nth (i mod r) (Nat.iter (i / r) F S) "000"%char.
Definition digest (ds : ascii) (m : bytes) (i n : nat) : bytes := map (squeezed (absorbed ds m)) (seq i n).
End Construction.

(** ** Keccak-f[1600] on 200 bytes: section 3.1.2 and B.1, bit z of lane (x, y)
    is bit 64 (5 y + x) + z of the string, the lowest bit of a byte first. *)
From Verif Require Import SpecKeccak.
Definition state_of_bytes (S : bytes) : state := fun x y z => N.testbit (N_of_ascii (nth (8 * (x + 5 * y) + z / 8) S "000"%char)) (N.of_nat (z mod 8)).
Definition byte_of_state (A : state) (i : nat) : ascii :=
  let x := i / 8 mod 5 in let y := i / 8 / 5 in let z := 8 * (i mod 8) in
  Ascii (A x y z) (A x y (z + 1)) (A x y (z + 2)) (A x y (z + 3)) (A x y (z + 4)) (A x y (z + 5)) (A x y (z + 6)) (A x y (z + 7)).
Definition keccak_bytes (S : bytes) : bytes := map (byte_of_state (keccak_f (state_of_bytes S))) (seq 0 200).
(** Keccak with rate [r] bytes, separator [ds] and [n] bytes of output. *)
Definition keccak (r : nat) (ds : ascii) (n : nat) (m : bytes) : bytes := digest keccak_bytes r ds m 0 n.
