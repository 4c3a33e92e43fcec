(** C77: the permutation that runs on amd64, written in assembly, is the portable
    one and the one of FIPS 202, and touches nothing but the state and its frame. *)

From Verif Require Import GoBase ProofsBase SpecKeccak ModelKeccak PropKeccak ModelKeccakAsm ProofsKeccakAsm.

Local Open Scope N_scope.

(** The 25 words at an address. *)
Definition words_at (m : machine) (p : N) : list N := map (fun k => mem m (p + 8 * N.of_nat k)) (seq 0 25).
(** A call: the argument is the address of the state; the state and the frame lie
    in memory, apart from each other. *)
Record called (m : machine) (p s : N) : Prop := mkCalled {
  call_state : args m 0 = p;
  call_frame : regs m SP = s;
  call_p : p + 200 <= 2 ^ 64;
  call_s : s + frame_size <= 2 ^ 64;
  call_apart : p + 200 <= s \/ s + frame_size <= p;
  call_words : forall k, k < 25 -> mem m (p + 8 * k) < 2 ^ 64 }.

Lemma nth_words m p k : k < 25 -> nth (N.to_nat k) (words_at m p) 0 = mem m (p + 8 * k).
Proof.
  intros K. unfold words_at. rewrite (nth_indep _ 0 (mem m (p + 8 * N.of_nat 0))) by (rewrite map_length, seq_length; lia).
  rewrite (map_nth (fun k => mem m (p + 8 * N.of_nat k))). rewrite seq_nth by lia. now rewrite Nat.add_0_l, N2Nat.id.
Qed.
Lemma words_length m p : List.length (words_at m p) = 25%nat.
Proof. unfold words_at. now rewrite map_length, seq_length. Qed.
Lemma words_good m p s : called m p s -> Forall (fun x => x < 2 ^ 64) (words_at m p).
Proof.
  intros C. apply Forall_forall. intros x X. unfold words_at in X. apply in_map_iff in X. destruct X as (k & <- & K). apply in_seq in K.
  apply (call_words _ _ _ C). lia.
Qed.
Definition file (m : machine) : list N := map (regs m) [AX; BX; CX; DX; SI; DI; BP; SP; R8; R9; R10; R11; R12; R13; R14; R15].
Lemma code_head : keccakF1600_amd64 = MOVQ (Arg 0) (Reg DI) :: tl keccakF1600_amd64.
Proof. reflexivity. Qed.
Lemma code_fits : forallb fits_instr (tl keccakF1600_amd64) = true.
Proof. vm_compute. reflexivity. Qed.
#[local] Opaque keccakF1600_amd64.
Lemma start_sim m p s : called m p s ->
  sim p s (mem m) (args m) (step (MOVQ (Arg 0) (Reg DI)) m) (mkSlots (file m) (words_at m p) (words_at m s)).
Proof.
  intros C. constructor; cbn [step read write regs mem args sr ss sk].
  - split; [reflexivity|]. split; apply words_length.
  - intros r A B. destruct r; try reflexivity; congruence.
  - apply C.
  - apply C.
  - intros k K. symmetry. now apply nth_words.
  - intros k K. symmetry. now apply nth_words.
  - reflexivity.
  - reflexivity.
Qed.

(** ** C77 *)
Theorem C77_amd64 m p s : called m p s ->
  words_at (run keccakF1600_amd64 m) p = keccakF1600 (words_at m p).
Proof.
  intros C. rewrite code_head. change (run (MOVQ (Arg 0) (Reg DI) :: tl keccakF1600_amd64) m) with (run (tl keccakF1600_amd64) (step (MOVQ (Arg 0) (Reg DI)) m)).
  pose proof (sim_run p s (mem m) (args m) (call_p _ _ _ C) (call_s _ _ _ C) (call_apart _ _ _ C) _ _ _ code_fits (start_sim m p s C)) as H.
  pose proof (slots_run (file m) (words_at m p) (words_at m s) eq_refl (words_length _ _) (words_length _ _)) as R.
  rewrite <- R.
  - generalize dependent (run (tl keccakF1600_amd64) (step (MOVQ (Arg 0) (Reg DI)) m)). intros m' H.
    apply (nth_ext _ _ 0 0); [rewrite words_length; symmetry; apply H|]. intros n L. rewrite words_length in L.
    rewrite <- (Nat2N.id n). rewrite nth_words by lia. apply (sim_state _ _ _ _ _ _ H). lia.
  - eapply Forall_impl; [|apply (words_good m p s C)]. intros x. apply word_lt.
Qed.
Theorem C77_touches m p s : called m p s ->
  regs (run keccakF1600_amd64 m) SP = s /\ args (run keccakF1600_amd64 m) = args m /\
  forall x, (x < p \/ p + 200 <= x) -> (x < s \/ s + 200 <= x) -> mem (run keccakF1600_amd64 m) x = mem m x.
Proof.
  intros C. rewrite code_head. change (run (MOVQ (Arg 0) (Reg DI) :: tl keccakF1600_amd64) m) with (run (tl keccakF1600_amd64) (step (MOVQ (Arg 0) (Reg DI)) m)).
  pose proof (sim_run p s (mem m) (args m) (call_p _ _ _ C) (call_s _ _ _ C) (call_apart _ _ _ C) _ _ _ code_fits (start_sim m p s C)) as H.
  split; [apply H|]. split; [apply (sim_args _ _ _ _ _ _ H)|]. intros x A B. apply (sim_rest _ _ _ _ _ _ H). split; assumption.
Qed.
(** The specification, bit by bit. *)
Theorem C77_permutation m p s : called m p s ->
  (forall k, k < 25 -> mem (run keccakF1600_amd64 m) (p + 8 * k) < 2 ^ 64) /\
  forall x y z, (x < 5)%nat -> (y < 5)%nat -> (z < 64)%nat ->
    N.testbit (mem (run keccakF1600_amd64 m) (p + 8 * N.of_nat (x + 5 * y))) (N.of_nat z)
    = keccak_f (fun x y z => N.testbit (nth (x + 5 * y) (words_at m p) 0) (N.of_nat z)) x y z.
Proof.
  intros C. pose proof (C77_amd64 m p s C) as E. destruct (C49_permutation (words_at m p) (words_length _ _) (words_good _ _ _ C)) as (_ & F & B).
  rewrite <- E in F, B. split.
  - intros k K. rewrite <- nth_words by exact K. rewrite Forall_forall in F. apply F, nth_In. rewrite words_length. lia.
  - intros x y z X Y Z. rewrite <- (B x y z X Y Z). f_equal. rewrite <- (nth_words _ p) by lia. now rewrite Nat2N.id.
Qed.

(** A call on a zero state at address 0x1000 with the frame at 0x2000. *)
Definition machine0 : machine := mkMachine (fun r => match r with SP => 0x2000 | _ => 77 end) (fun a => if a <? 0x1100 then 0 else a) (fun _ => 0x1000).
Example C77_called : called machine0 0x1000 0x2000.
Proof.
  constructor; try reflexivity; [now vm_compute|now vm_compute|left; now vm_compute|]. intros k K. cbn [machine0 mem].
  replace (0x1000 + 8 * k <? 0x1100) with true; [reflexivity|]. symmetry. apply N.ltb_lt. lia.
Qed.
Example C77_case : mem (run keccakF1600_amd64 machine0) 0x1000 = 0xF1258F7940E1DDE7 /\ mem (run keccakF1600_amd64 machine0) 0x10C8 = 0 /\ mem (run keccakF1600_amd64 machine0) 0x20C8 = 0x20C8.
Proof. vm_compute. auto. Qed.

(** ** The frame has to lie apart from the state.  With the two at the same
    address the result is another one: the code is not meant to permute its frame. *)
Definition machine1 : machine := mkMachine (fun _ => 0x1000) (fun _ => 0) (fun _ => 0x1000).
Theorem C77_apart_refuted : exists m, args m 0 = regs m SP /\ regs m SP + 200 <= 2 ^ 64 /\ (forall k, mem m k < 2 ^ 64) /\
  words_at (run keccakF1600_amd64 m) (args m 0) <> keccakF1600 (words_at m (args m 0)).
Proof.
  exists machine1. split; [reflexivity|]. split; [now vm_compute|]. split; [intros k; reflexivity|]. vm_compute. discriminate.
Qed.

Print Assumptions C77_amd64.
Print Assumptions C77_touches.
Print Assumptions C77_permutation.
Print Assumptions C77_apart_refuted.
