(** C49: the Keccak permutation of the code is the one of FIPS 202. *)

From Verif Require Import GoBase ProofsBase SpecKeccak ModelKeccak.

Local Open Scope N_scope.

(** ** Words of 64 bits *)
Definition word (x : N) : Prop := forall i, 64 <= i -> N.testbit x i = false.
Lemma word_lt x : word x <-> x < 2 ^ 64.
Proof.
  split; intros H.
  - destruct (N.eq_dec x 0) as [->|Z]; [reflexivity|]. apply N.log2_lt_pow2; [lia|]. destruct (N.lt_ge_cases (N.log2 x) 64) as [L|L]; [exact L|].
    pose proof (N.bit_log2 x Z) as B. rewrite (H _ L) in B. discriminate.
  - intros i Hi. destruct (N.eq_dec x 0) as [->|Z]; [apply N.bits_0|]. apply N.bits_above_log2. apply N.log2_lt_pow2 in H; lia.
Qed.
Lemma word_lxor a b : word a -> word b -> word (N.lxor a b).
Proof. intros A B i Hi. now rewrite N.lxor_spec, A, B. Qed.
Lemma word_ldiff a b : word a -> word (N.ldiff a b).
Proof. intros A i Hi. now rewrite N.ldiff_spec, A. Qed.
Lemma word_0 : word 0.
Proof. intros i _. apply N.bits_0. Qed.

(** A rotation as the code writes it. *)
Definition rol (x k : N) : N := N.lor (shl64 x k) (N.shiftr x (64 - k)).
Lemma word_rol x k : word x -> word (rol x k).
Proof.
  intros W i Hi. unfold rol, shl64. rewrite N.lor_spec, N.mod_pow2_bits_high by exact Hi. cbn [orb]. rewrite N.shiftr_spec by lia. apply W. lia.
Qed.
Lemma rol_bits x k z : word x -> 1 <= k < 64 -> z < 64 -> N.testbit (rol x k) z = N.testbit x ((z + (64 - k)) mod 64).
Proof.
  intros W Hk Hz. unfold rol, shl64. rewrite N.lor_spec, N.mod_pow2_bits_low by exact Hz. rewrite N.shiftr_spec by lia.
  destruct (N.lt_ge_cases z k) as [L|L].
  - rewrite N.shiftl_spec_low by exact L. cbn [orb]. rewrite N.mod_small by lia. reflexivity.
  - rewrite N.shiftl_spec_high by lia. rewrite (W (z + (64 - k))) by lia. rewrite orb_false_r. f_equal.
    replace (z + (64 - k)) with (z - k + 1 * 64) by lia. rewrite N.mod_add, N.mod_small by lia. reflexivity.
Qed.

(** ** The step mappings on words *)
Definition lane (a : list N) (x y : nat) : N := nth (x + 5 * y) a 0.
Definition lanes := nat -> nat -> N.
Definition columnL (A : lanes) (x : nat) : N := N.lxor (N.lxor (N.lxor (N.lxor (A x 0%nat) (A x 1%nat)) (A x 2%nat)) (A x 3%nat)) (A x 4%nat).
Definition rotl (x : N) (k : nat) : N := match k with O => x | _ => rol x (N.of_nat k) end.
Definition thetaL (A : lanes) : lanes := fun x y => N.lxor (A x y) (N.lxor (columnL A ((x + 4) mod 5)%nat) (rol (columnL A ((x + 1) mod 5)%nat) 1)).
Definition rhoL (A : lanes) : lanes := fun x y => rotl (A x y) (rho_offset x y).
Definition piL (A : lanes) : lanes := fun x y => A ((x + 3 * y) mod 5)%nat x.
Definition chiL (A : lanes) : lanes := fun x y => N.lxor (A x y) (N.ldiff (A ((x + 2) mod 5)%nat y) (A ((x + 1) mod 5)%nat y)).
Definition iotaL (rc : N) (A : lanes) : lanes := fun x y => if (Nat.eqb x 0 && Nat.eqb y 0)%bool then N.lxor (A x y) rc else A x y.
Definition RndL (rc : N) (A : lanes) : lanes := iotaL rc (chiL (piL (rhoL (thetaL A)))).
Definition round_lanes (rc : N) (a : list N) : list N := map (fun p => RndL rc (lane a) (p mod 5)%nat (p / 5)%nat) (seq 0 25).

(** ** The unrolled rounds keep the words in permuted positions: position [p] of
    the array holds lane [nth p layout] after each round. *)
Definition arrange (layout : list nat) (a : list N) : list N := map (fun i => nth i a 0) layout.

Definition layout1 : list nat := [0; 11; 22; 8; 19; 15; 1; 12; 23; 9; 5; 16; 2; 13; 24; 20; 6; 17; 3; 14; 10; 21; 7; 18; 4]%nat.
Definition layout2 : list nat := [0; 16; 7; 23; 14; 20; 11; 2; 18; 9; 15; 6; 22; 13; 4; 10; 1; 17; 8; 24; 5; 21; 12; 3; 19]%nat.
Definition layout3 : list nat := [0; 6; 12; 18; 24; 10; 16; 22; 3; 9; 20; 1; 7; 13; 19; 5; 11; 17; 23; 4; 15; 21; 2; 8; 14]%nat.
Definition layout4 : list nat := [0; 1; 2; 3; 4; 5; 6; 7; 8; 9; 10; 11; 12; 13; 14; 15; 16; 17; 18; 19; 20; 21; 22; 23; 24]%nat.
Definition layout0 : list nat := seq 0 25.

Ltac xor_ac := apply N.bits_inj; intros ?i; rewrite !N.lxor_spec; repeat match goal with |- context [N.testbit ?x i] => destruct (N.testbit x i) end; reflexivity.
Lemma xor4 a b c d e a' b' c' d' e' :
  (forall (f : N -> bool), xorb (xorb (xorb (xorb (f a) (f b)) (f c)) (f d)) (f e) = xorb (xorb (xorb (xorb (f a') (f b')) (f c')) (f d')) (f e')) ->
  N.lxor (N.lxor (N.lxor (N.lxor a b) c) d) e = N.lxor (N.lxor (N.lxor (N.lxor a' b') c') d') e'.
Proof. intros H. apply N.bits_inj. intros i. rewrite !N.lxor_spec. exact (H (fun x => N.testbit x i)). Qed.
Ltac columns := apply xor4; let f := fresh in intros f; repeat match goal with |- context [f ?x] => destruct (f x) end; reflexivity.

Lemma round1_ok rc x0 x1 x2 x3 x4 x5 x6 x7 x8 x9 x10 x11 x12 x13 x14 x15 x16 x17 x18 x19 x20 x21 x22 x23 x24 : let a := [x0; x1; x2; x3; x4; x5; x6; x7; x8; x9; x10; x11; x12; x13; x14; x15; x16; x17; x18; x19; x20; x21; x22; x23; x24] in keccak_round1 rc (arrange layout0 a) = arrange layout1 (round_lanes rc a).
Proof.
  cbv zeta.
  change (arrange layout0 [x0; x1; x2; x3; x4; x5; x6; x7; x8; x9; x10; x11; x12; x13; x14; x15; x16; x17; x18; x19; x20; x21; x22; x23; x24]) with [x0; x1; x2; x3; x4; x5; x6; x7; x8; x9; x10; x11; x12; x13; x14; x15; x16; x17; x18; x19; x20; x21; x22; x23; x24].
  cbv [keccak_round1 arrange layout0 layout1 map nth round_lanes seq lane RndL iotaL chiL piL rhoL thetaL columnL Nat.eqb andb Nat.add Nat.mul Nat.modulo Nat.divmod Nat.div Nat.sub fst snd rho_offset rho_walk Nat.div2 rotl N.of_nat Pos.of_succ_nat Pos.succ].
  unfold rol. reflexivity.
Qed.
Lemma round2_ok rc x0 x1 x2 x3 x4 x5 x6 x7 x8 x9 x10 x11 x12 x13 x14 x15 x16 x17 x18 x19 x20 x21 x22 x23 x24 : let a := [x0; x1; x2; x3; x4; x5; x6; x7; x8; x9; x10; x11; x12; x13; x14; x15; x16; x17; x18; x19; x20; x21; x22; x23; x24] in keccak_round2 rc (arrange layout1 a) = arrange layout2 (round_lanes rc a).
Proof.
  cbv zeta.
  cbv [keccak_round2 arrange layout1 layout2 map nth round_lanes seq lane RndL iotaL chiL piL rhoL thetaL columnL Nat.eqb andb Nat.add Nat.mul Nat.modulo Nat.divmod Nat.div Nat.sub fst snd rho_offset rho_walk Nat.div2 rotl N.of_nat Pos.of_succ_nat Pos.succ].
  replace (N.lxor (N.lxor (N.lxor (N.lxor x0 x15) x5) x20) x10) with (N.lxor (N.lxor (N.lxor (N.lxor x0 x5) x10) x15) x20) by columns.
  replace (N.lxor (N.lxor (N.lxor (N.lxor x11 x1) x16) x6) x21) with (N.lxor (N.lxor (N.lxor (N.lxor x1 x6) x11) x16) x21) by columns.
  replace (N.lxor (N.lxor (N.lxor (N.lxor x22 x12) x2) x17) x7) with (N.lxor (N.lxor (N.lxor (N.lxor x2 x7) x12) x17) x22) by columns.
  replace (N.lxor (N.lxor (N.lxor (N.lxor x8 x23) x13) x3) x18) with (N.lxor (N.lxor (N.lxor (N.lxor x3 x8) x13) x18) x23) by columns.
  replace (N.lxor (N.lxor (N.lxor (N.lxor x19 x9) x24) x14) x4) with (N.lxor (N.lxor (N.lxor (N.lxor x4 x9) x14) x19) x24) by columns.
  unfold rol. reflexivity.
Qed.
Lemma round3_ok rc x0 x1 x2 x3 x4 x5 x6 x7 x8 x9 x10 x11 x12 x13 x14 x15 x16 x17 x18 x19 x20 x21 x22 x23 x24 : let a := [x0; x1; x2; x3; x4; x5; x6; x7; x8; x9; x10; x11; x12; x13; x14; x15; x16; x17; x18; x19; x20; x21; x22; x23; x24] in keccak_round3 rc (arrange layout2 a) = arrange layout3 (round_lanes rc a).
Proof.
  cbv zeta.
  cbv [keccak_round3 arrange layout2 layout3 map nth round_lanes seq lane RndL iotaL chiL piL rhoL thetaL columnL Nat.eqb andb Nat.add Nat.mul Nat.modulo Nat.divmod Nat.div Nat.sub fst snd rho_offset rho_walk Nat.div2 rotl N.of_nat Pos.of_succ_nat Pos.succ].
  replace (N.lxor (N.lxor (N.lxor (N.lxor x0 x20) x15) x10) x5) with (N.lxor (N.lxor (N.lxor (N.lxor x0 x5) x10) x15) x20) by columns.
  replace (N.lxor (N.lxor (N.lxor (N.lxor x16 x11) x6) x1) x21) with (N.lxor (N.lxor (N.lxor (N.lxor x1 x6) x11) x16) x21) by columns.
  replace (N.lxor (N.lxor (N.lxor (N.lxor x7 x2) x22) x17) x12) with (N.lxor (N.lxor (N.lxor (N.lxor x2 x7) x12) x17) x22) by columns.
  replace (N.lxor (N.lxor (N.lxor (N.lxor x23 x18) x13) x8) x3) with (N.lxor (N.lxor (N.lxor (N.lxor x3 x8) x13) x18) x23) by columns.
  replace (N.lxor (N.lxor (N.lxor (N.lxor x14 x9) x4) x24) x19) with (N.lxor (N.lxor (N.lxor (N.lxor x4 x9) x14) x19) x24) by columns.
  unfold rol. reflexivity.
Qed.
Lemma round4_ok rc x0 x1 x2 x3 x4 x5 x6 x7 x8 x9 x10 x11 x12 x13 x14 x15 x16 x17 x18 x19 x20 x21 x22 x23 x24 : let a := [x0; x1; x2; x3; x4; x5; x6; x7; x8; x9; x10; x11; x12; x13; x14; x15; x16; x17; x18; x19; x20; x21; x22; x23; x24] in keccak_round4 rc (arrange layout3 a) = arrange layout4 (round_lanes rc a).
Proof.
  cbv zeta.
  cbv [keccak_round4 arrange layout3 layout4 map nth round_lanes seq lane RndL iotaL chiL piL rhoL thetaL columnL Nat.eqb andb Nat.add Nat.mul Nat.modulo Nat.divmod Nat.div Nat.sub fst snd rho_offset rho_walk Nat.div2 rotl N.of_nat Pos.of_succ_nat Pos.succ].
  replace (N.lxor (N.lxor (N.lxor (N.lxor x0 x10) x20) x5) x15) with (N.lxor (N.lxor (N.lxor (N.lxor x0 x5) x10) x15) x20) by columns.
  replace (N.lxor (N.lxor (N.lxor (N.lxor x6 x16) x1) x11) x21) with (N.lxor (N.lxor (N.lxor (N.lxor x1 x6) x11) x16) x21) by columns.
  replace (N.lxor (N.lxor (N.lxor (N.lxor x12 x22) x7) x17) x2) with (N.lxor (N.lxor (N.lxor (N.lxor x2 x7) x12) x17) x22) by columns.
  replace (N.lxor (N.lxor (N.lxor (N.lxor x18 x3) x13) x23) x8) with (N.lxor (N.lxor (N.lxor (N.lxor x3 x8) x13) x18) x23) by columns.
  replace (N.lxor (N.lxor (N.lxor (N.lxor x24 x9) x19) x4) x14) with (N.lxor (N.lxor (N.lxor (N.lxor x4 x9) x14) x19) x24) by columns.
  unfold rol. reflexivity.
Qed.

Lemma list25 (a : list N) : List.length a = 25%nat -> exists x0 x1 x2 x3 x4 x5 x6 x7 x8 x9 x10 x11 x12 x13 x14 x15 x16 x17 x18 x19 x20 x21 x22 x23 x24,
  a = [x0; x1; x2; x3; x4; x5; x6; x7; x8; x9; x10; x11; x12; x13; x14; x15; x16; x17; x18; x19; x20; x21; x22; x23; x24].
Proof.
  intros H. do 25 (destruct a as [|? a]; [discriminate H|]). destruct a; [|discriminate H]. repeat eexists.
Qed.
Lemma arrange0 a : List.length a = 25%nat -> arrange layout0 a = a.
Proof. intros H. apply list25 in H. do 25 destruct H as [? H]. now subst a. Qed.
Lemma round_length rc a : List.length (round_lanes rc a) = 25%nat.
Proof. unfold round_lanes. now rewrite map_length, seq_length. Qed.
Lemma four_rounds r1 r2 r3 r4 a : List.length a = 25%nat ->
  keccak_round4 r4 (keccak_round3 r3 (keccak_round2 r2 (keccak_round1 r1 a))) = round_lanes r4 (round_lanes r3 (round_lanes r2 (round_lanes r1 a))).
Proof.
  assert (K1 : forall r a, List.length a = 25%nat -> keccak_round1 r (arrange layout0 a) = arrange layout1 (round_lanes r a)) by (intros r b H; apply list25 in H; do 25 destruct H as [? H]; subst b; apply round1_ok).
  assert (K2 : forall r a, List.length a = 25%nat -> keccak_round2 r (arrange layout1 a) = arrange layout2 (round_lanes r a)) by (intros r b H; apply list25 in H; do 25 destruct H as [? H]; subst b; apply round2_ok).
  assert (K3 : forall r a, List.length a = 25%nat -> keccak_round3 r (arrange layout2 a) = arrange layout3 (round_lanes r a)) by (intros r b H; apply list25 in H; do 25 destruct H as [? H]; subst b; apply round3_ok).
  assert (K4 : forall r a, List.length a = 25%nat -> keccak_round4 r (arrange layout3 a) = arrange layout4 (round_lanes r a)) by (intros r b H; apply list25 in H; do 25 destruct H as [? H]; subst b; apply round4_ok).
  intros H. rewrite <- (arrange0 a H) at 1. rewrite K1 by exact H. rewrite K2, K3, K4 by apply round_length. change layout4 with layout0. apply arrange0, round_length.
Qed.
Fixpoint lane_rounds (rcs : list N) (a : list N) : list N := match rcs with [] => a | r :: rcs' => lane_rounds rcs' (round_lanes r a) end.
Lemma loop_lanes a : List.length a = 25%nat -> keccakF1600 a = lane_rounds rc_table a.
Proof.
  intros H. assert (ST : forall r1 r2 r3 r4 rcs b, List.length b = 25%nat ->
    keccak_loop (r1 :: r2 :: r3 :: r4 :: rcs) b = keccak_loop rcs (round_lanes r4 (round_lanes r3 (round_lanes r2 (round_lanes r1 b))))).
  { intros r1 r2 r3 r4 rcs b L. cbn [keccak_loop]. now rewrite four_rounds. }
  unfold keccakF1600, rc_table. rewrite ST by exact H. rewrite !ST by apply round_length. reflexivity.
Qed.

(** ** Words to bits *)
Definition bits_of (A : lanes) : state := fun x y z => N.testbit (A x y) (N.of_nat z).
Definition good (A : lanes) : Prop := forall x y, word (A x y).
(** Agreement on the bits that exist. *)
Definition agree (A B : state) : Prop := forall x y z, (x < 5)%nat -> (y < 5)%nat -> (z < 64)%nat -> A x y z = B x y z.
Lemma mod5 n : (n mod 5 < 5)%nat.
Proof. apply Nat.mod_upper_bound. discriminate. Qed.
Lemma mod64 n : (n mod 64 < 64)%nat.
Proof. apply Nat.mod_upper_bound. discriminate. Qed.
Lemma good_column A x : good A -> word (columnL A x).
Proof. intros G. unfold columnL. repeat apply word_lxor; apply G. Qed.
Lemma good_theta A : good A -> good (thetaL A).
Proof. intros G x y. unfold thetaL. apply word_lxor; [apply G|]. apply word_lxor; [now apply good_column|]. apply word_rol. now apply good_column. Qed.
Lemma good_rho A : good A -> good (rhoL A).
Proof. intros G x y. unfold rhoL, rotl. destruct (rho_offset x y); [apply G|]. apply word_rol, G. Qed.
Lemma good_pi A : good A -> good (piL A).
Proof. intros G x y. apply G. Qed.
Lemma good_chi A : good A -> good (chiL A).
Proof. intros G x y. unfold chiL. apply word_lxor; [apply G|]. apply word_ldiff, G. Qed.
Lemma good_iota rc A : word rc -> good A -> good (iotaL rc A).
Proof. intros W G x y. unfold iotaL. destruct (_ && _)%bool; [apply word_lxor; [apply G|exact W]|apply G]. Qed.
Lemma of_mod z k : (k <= 64)%nat -> N.of_nat ((z + k) mod 64) = (N.of_nat z + N.of_nat k) mod 64.
Proof. intros _. rewrite Nat2N.inj_mod, Nat2N.inj_add. reflexivity. Qed.
Lemma column_bits A x z : N.testbit (columnL A x) (N.of_nat z) = column (bits_of A) x z.
Proof. unfold columnL, column, bits_of. now rewrite !N.lxor_spec. Qed.
Lemma theta_bits A : good A -> agree (bits_of (thetaL A)) (theta (bits_of A)).
Proof.
  intros G x y z Hx Hy Hz. unfold bits_of at 1, thetaL, theta. rewrite !N.lxor_spec. f_equal. f_equal; [apply column_bits|].
  rewrite rol_bits; [|now apply good_column|lia|lia]. rewrite <- column_bits. f_equal. change (64 - 1) with (N.of_nat 63). symmetry. apply of_mod. lia.
Qed.
Lemma walk_lt x y n : forall t px py, (rho_walk n t px py x y < 64)%nat.
Proof.
  induction n as [|n IH]; intros t px py; cbn [rho_walk]; [apply Nat.lt_0_succ|]. destruct (_ && _)%bool; [apply mod64|apply IH].
Qed.
Lemma offset_lt x y : (rho_offset x y < 64)%nat.
Proof. apply walk_lt. Qed.
Lemma rho_bits A : good A -> agree (bits_of (rhoL A)) (rho (bits_of A)).
Proof.
  intros G x y z Hx Hy Hz. unfold bits_of, rhoL, rho, rotl. pose proof (offset_lt x y) as L. destruct (rho_offset x y) as [|k].
  - f_equal. f_equal. replace (z + (64 - 0))%nat with (z + 1 * 64)%nat by lia. now rewrite Nat.mod_add, Nat.mod_small by lia.
  - rewrite rol_bits by (trivial; lia). f_equal. replace (64 - N.of_nat (S k)) with (N.of_nat (64 - S k)) by lia. symmetry. apply of_mod. lia.
Qed.
Lemma pi_bits A : bits_of (piL A) = pi (bits_of A).
Proof. reflexivity. Qed.
Lemma chi_bits A : agree (bits_of (chiL A)) (chi (bits_of A)).
Proof. intros x y z _ _ _. unfold bits_of, chiL, chi. rewrite N.lxor_spec, N.ldiff_spec, xorb_true_r. now rewrite andb_comm. Qed.
Lemma iota_bits i rc A : (forall z, (z < 64)%nat -> N.testbit rc (N.of_nat z) = round_constant i z) -> agree (bits_of (iotaL rc A)) (iota i (bits_of A)).
Proof. intros R x y z _ _ Hz. unfold bits_of, iotaL, iota. destruct (_ && _)%bool; [|reflexivity]. rewrite N.lxor_spec. f_equal. now apply R. Qed.
(** The step mappings only look at bits that exist. *)
Lemma theta_agree A B : agree A B -> agree (theta A) (theta B).
Proof. intros H x y z Hx Hy Hz. unfold theta, column. rewrite !H; trivial; try apply mod5; try apply mod64; lia. Qed.
Lemma rho_agree A B : agree A B -> agree (rho A) (rho B).
Proof. intros H x y z Hx Hy Hz. apply H; trivial. apply mod64. Qed.
Lemma pi_agree A B : agree A B -> agree (pi A) (pi B).
Proof. intros H x y z Hx Hy Hz. apply H; trivial. apply mod5. Qed.
Lemma chi_agree A B : agree A B -> agree (chi A) (chi B).
Proof. intros H x y z Hx Hy Hz. unfold chi. rewrite !H; trivial; apply mod5. Qed.
Lemma iota_agree i A B : agree A B -> agree (iota i A) (iota i B).
Proof. intros H x y z Hx Hy Hz. unfold iota. now rewrite H. Qed.
Lemma agree_trans A B C : agree A B -> agree B C -> agree A C.
Proof. intros H K x y z Hx Hy Hz. rewrite H by assumption. now apply K. Qed.
Definition is_constant (i : nat) (rc : N) : Prop := word rc /\ forall z, (z < 64)%nat -> N.testbit rc (N.of_nat z) = round_constant i z.
Lemma Rnd_bits i rc A : good A -> is_constant i rc -> good (RndL rc A) /\ agree (bits_of (RndL rc A)) (Rnd i (bits_of A)).
Proof.
  intros G [W R]. pose proof (good_theta A G) as G1. pose proof (good_rho _ G1) as G2. pose proof (good_pi _ G2) as G3. pose proof (good_chi _ G3) as G4.
  split; [now apply good_iota|]. unfold RndL, Rnd.
  eapply agree_trans; [apply iota_bits; exact R|]. apply iota_agree. eapply agree_trans; [apply chi_bits|]. apply chi_agree.
  rewrite pi_bits. apply pi_agree. eapply agree_trans; [apply rho_bits; exact G1|]. apply rho_agree. now apply theta_bits.
Qed.
Lemma lane_round rc a x y : (x < 5)%nat -> (y < 5)%nat -> lane (round_lanes rc a) x y = RndL rc (lane a) x y.
Proof.
  intros Hx Hy. unfold lane at 1, round_lanes. rewrite (nth_indep _ 0 (RndL rc (lane a) (0 mod 5)%nat (0 / 5)%nat)) by (rewrite map_length, seq_length; lia).
  rewrite (map_nth (fun p => RndL rc (lane a) (p mod 5)%nat (p / 5)%nat)), seq_nth by lia. cbn [Nat.add].
  replace ((x + 5 * y) mod 5)%nat with x by (rewrite Nat.mul_comm, Nat.mod_add, Nat.mod_small; lia).
  replace ((x + 5 * y) / 5)%nat with y by (rewrite Nat.mul_comm, Nat.div_add, Nat.div_small; lia). reflexivity.
Qed.
Definition good_list (a : list N) : Prop := List.length a = 25%nat /\ Forall (fun x => x < 2 ^ 64) a.
Lemma good_lane a : good_list a -> good (lane a).
Proof.
  intros [L F] x y. unfold lane. destruct (Nat.lt_ge_cases (x + 5 * y) 25) as [H|H]; [|rewrite nth_overflow by lia; apply word_0].
  apply word_lt. rewrite Forall_forall in F. apply F. apply nth_In. lia.
Qed.
Lemma round_good i rc a : good_list a -> is_constant i rc -> good_list (round_lanes rc a).
Proof.
  intros G R. split; [apply round_length|]. apply Forall_forall. intros w H. apply in_map_iff in H as (p & <- & _). apply word_lt. destruct (Rnd_bits i rc (lane a) (good_lane a G) R) as [G' _]. apply G'.
Qed.
Lemma round_bits i rc a : good_list a -> is_constant i rc -> agree (bits_of (lane (round_lanes rc a))) (Rnd i (bits_of (lane a))).
Proof.
  intros G R x y z Hx Hy Hz. unfold bits_of at 1. rewrite lane_round by assumption. now apply (Rnd_bits i rc (lane a) (good_lane a G) R).
Qed.
Lemma rounds_agree n : forall i A B, agree A B -> agree (rounds n i A) (rounds n i B).
Proof. induction n as [|n IH]; intros i A B H; [exact H|]. cbn [rounds]. apply IH. apply iota_agree, chi_agree, pi_agree, rho_agree, theta_agree, H. Qed.
Fixpoint constants (i : nat) (rcs : list N) : Prop := match rcs with [] => True | r :: rcs' => is_constant i r /\ constants (S i) rcs' end.
Lemma lane_rounds_bits rcs : forall i a, good_list a -> constants i rcs ->
  good_list (lane_rounds rcs a) /\ agree (bits_of (lane (lane_rounds rcs a))) (rounds (List.length rcs) i (bits_of (lane a))).
Proof.
  induction rcs as [|r rcs IH]; intros i a G C; cbn [lane_rounds rounds List.length]; [split; [exact G|intros x y z _ _ _; reflexivity]|].
  destruct C as [R C]. destruct (IH (S i) (round_lanes r a) (round_good i r a G R) C) as [G' A']. split; [exact G'|].
  eapply agree_trans; [exact A'|]. apply rounds_agree. now apply round_bits.
Qed.
Definition constant_ok (i : nat) (rc : N) : bool := (rc <? 2 ^ 64) && forallb (fun z => Bool.eqb (N.testbit rc (N.of_nat z)) (round_constant i z)) (seq 0 64).
Lemma constant_sound i rc : constant_ok i rc = true -> is_constant i rc.
Proof.
  intros H. apply andb_prop in H as [L H]. split; [apply word_lt; now apply N.ltb_lt|]. intros z Hz. rewrite forallb_forall in H.
  apply Bool.eqb_prop, H, in_seq. lia.
Qed.
Lemma table_ok : constants 0 rc_table.
Proof. unfold rc_table. cbn [constants]. repeat (split; [apply constant_sound; vm_compute; reflexivity|]). exact Logic.I. Qed.

(** ** C49.  On every state of 25 words the code computes Keccak-f[1600]. *)
Theorem C49_permutation a : List.length a = 25%nat -> Forall (fun x => x < 2 ^ 64) a ->
  List.length (keccakF1600 a) = 25%nat /\ Forall (fun x => x < 2 ^ 64) (keccakF1600 a) /\
  forall x y z, (x < 5)%nat -> (y < 5)%nat -> (z < 64)%nat ->
    N.testbit (nth (x + 5 * y) (keccakF1600 a) 0) (N.of_nat z)
    = keccak_f (fun x y z => N.testbit (nth (x + 5 * y) a 0) (N.of_nat z)) x y z.
Proof.
  intros L F. rewrite loop_lanes by exact L. destruct (lane_rounds_bits rc_table 0 a (conj L F) table_ok) as [[L' F'] A].
  split; [exact L'|split; [exact F'|]]. intros x y z Hx Hy Hz. exact (A x y z Hx Hy Hz).
Qed.
(** The permutation of the zero state, first word. *)
Example C49_case : nth 0 (keccakF1600 (repeat 0 25)) 0 = 0xF1258F7940E1DDE7.
Proof. vm_compute. reflexivity. Qed.

Print Assumptions C49_permutation.
