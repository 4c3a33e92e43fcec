(** Keccak-f[1600] as FIPS 202 defines it: step mappings on the bits
    A[x, y, z], section 3.2, and rounds, section 3.3. *)

From Verif Require Import GoBase.

Local Open Scope nat_scope.

Definition state := nat -> nat -> nat -> bool.   (* meaningful for x, y < 5 and z < 64 *)

(** Algorithm 1 *)
Definition column (A : state) (x z : nat) : bool := xorb (xorb (xorb (xorb (A x 0 z) (A x 1 z)) (A x 2 z)) (A x 3 z)) (A x 4 z).
Definition theta (A : state) : state := fun x y z =>
  xorb (A x y z) (xorb (column A ((x + 4) mod 5) z) (column A ((x + 1) mod 5) ((z + 63) mod 64))).
(** Algorithm 2: lane (1, 0) turns by 1, the next one of the walk by 3, 6, ... *)
Fixpoint rho_walk (n t px py x y : nat) : nat :=
  match n with
  | O => 0
  | S n' => if Nat.eqb px x && Nat.eqb py y then Nat.div2 ((t + 1) * (t + 2)) mod 64
            else rho_walk n' (t + 1) py ((2 * px + 3 * py) mod 5) x y
  end.
Definition rho_offset (x y : nat) : nat := rho_walk 24 0 1 0 x y.
Definition rho (A : state) : state := fun x y z => A x y ((z + (64 - rho_offset x y)) mod 64).
(** Algorithm 3 *)
Definition pi (A : state) : state := fun x y z => A ((x + 3 * y) mod 5) x z.
(** Algorithm 4 *)
Definition chi (A : state) : state := fun x y z => xorb (A x y z) (xorb (A ((x + 1) mod 5) y z) true && A ((x + 2) mod 5) y z).
(** Algorithm 5: the register R, as the list R[0] ... R[7]. *)
Fixpoint lfsr (t : nat) : list bool :=
  match t with
  | O => [true; false; false; false; false; false; false; false]
  | S t' =>
      match lfsr t' with
      | [r0; r1; r2; r3; r4; r5; r6; r7] => [xorb false r7; r0; r1; r2; xorb r3 r7; xorb r4 r7; xorb r5 r7; r6]
      | l => l
      end
  end.
Definition rc_bit (t : nat) : bool := hd false (lfsr (t mod 255)).
(** Algorithm 6: bit 2^j - 1 of the constant of round i is rc(j + 7 i). *)
Definition round_constant (i z : nat) : bool :=
  existsb (fun j => Nat.eqb z (2 ^ j - 1) && rc_bit (j + 7 * i)) [0; 1; 2; 3; 4; 5; 6]%nat.
Definition iota (i : nat) (A : state) : state := fun x y z =>
  if Nat.eqb x 0 && Nat.eqb y 0 then xorb (A x y z) (round_constant i z) else A x y z.
Definition Rnd (i : nat) (A : state) : state := iota i (chi (pi (rho (theta A)))).
(** Algorithm 7 with 24 rounds. *)
Fixpoint rounds (n i : nat) (A : state) : state := match n with O => A | S n' => rounds n' (S i) (Rnd i A) end.
Definition keccak_f (A : state) : state := rounds 24 0 A.
