(** The permutation written for amd64: the machine of ModelKeccakAsm.v, with its
    memory, follows a simpler one that keeps the 25 words of the state and the 25
    words of the frame in two lists. *)

From Verif Require Import GoBase ProofsBase SpecKeccak ModelKeccak PropKeccak ModelKeccakAsm.

Local Open Scope N_scope.

(** ** Registers and two lists of words *)
Record slots := mkSlots { sr : list N; ss : list N; sk : list N }.
Fixpoint put (n : nat) (v : N) (l : list N) : list N :=
  match l with [] => [] | x :: l' => match n with O => v :: l' | S n' => x :: put n' v l' end end.
Definition index (off : N) : nat := N.to_nat (off / 8).
Definition sread (a : slots) (o : operand) : N :=
  match o with
  | Reg r => nth (reg_id r) (sr a) 0
  | Mem off DI => nth (index off) (ss a) 0
  | Mem off SP => nth (index off) (sk a) 0
  | Imm v => v
  | _ => 0
  end.
Definition swrite (a : slots) (o : operand) (v : N) : slots :=
  match o with
  | Reg r => mkSlots (put (reg_id r) v (sr a)) (ss a) (sk a)
  | Mem off DI => mkSlots (sr a) (put (index off) v (ss a)) (sk a)
  | Mem off SP => mkSlots (sr a) (ss a) (put (index off) v (sk a))
  | _ => a
  end.
Definition sstep (i : instr) (a : slots) : slots :=
  match i with
  | MOVQ s d => swrite a d (sread a s)
  | XORQ s d => swrite a d (N.lxor (sread a d) (sread a s))
  | ORQ s d => swrite a d (N.lor (sread a d) (sread a s))
  | ANDQ s d => swrite a d (N.land (sread a d) (sread a s))
  | NOTQ d => swrite a d (not64 (sread a d))
  | ROLQ k d => swrite a d (rol64 (sread a d) k)
  | NOP | RET => a
  end.
Fixpoint srun (code : list instr) (a : slots) : slots :=
  match code with [] => a | RET :: _ => a | i :: code' => srun code' (sstep i a) end.

(** What the code may name: words of the state and of the frame, constants, and
    registers other than the two that hold the addresses. *)
Definition fits_off (off : N) : bool := (off mod 8 =? 0) && (off / 8 <? 25).
Definition fits (o : operand) : bool :=
  match o with
  | Reg DI | Reg SP | Arg _ => false
  | Reg _ | Imm _ => true
  | Mem off DI => fits_off off
  | Mem off SP => fits_off off && (off + 8 <=? frame_size)
  | Mem _ _ => false
  end.
Definition fits_instr (i : instr) : bool :=
  match i with
  | MOVQ s d | XORQ s d | ORQ s d | ANDQ s d => fits s && fits d
  | NOTQ d => fits d | ROLQ _ d => fits d
  | NOP | RET => true
  end.

Lemma nth_put n m v l : (n < List.length l)%nat -> nth m (put n v l) 0 = if Nat.eqb m n then v else nth m l 0.
Proof.
  revert n m. induction l as [|x l IH]; intros n m H; [cbn in H; lia|].
  destruct n, m; cbn [put nth Nat.eqb]; try reflexivity. apply IH. cbn in H. lia.
Qed.
Lemma put_length n v l : List.length (put n v l) = List.length l.
Proof. revert n. induction l as [|x l IH]; intros [|n]; cbn; auto. Qed.

Section Simulation.
  Variables p s : N.
  Variable mem0 : N -> N.
  Variable args0 : N -> N.
  Hypothesis Hp : p + 200 <= 2 ^ 64.
  Hypothesis Hs : s + frame_size <= 2 ^ 64.
  Hypothesis Hps : p + 200 <= s \/ s + frame_size <= p.

  Definition outside (a : N) : Prop := (a < p \/ p + 200 <= a) /\ (a < s \/ s + frame_size <= a).
  Record sim (m : machine) (a : slots) : Prop := mkSim {
    sim_len : List.length (sr a) = 16%nat /\ List.length (ss a) = 25%nat /\ List.length (sk a) = 25%nat;
    sim_reg : forall r, r <> DI -> r <> SP -> regs m r = nth (reg_id r) (sr a) 0;
    sim_di : regs m DI = p;
    sim_sp : regs m SP = s;
    sim_state : forall k, k < 25 -> mem m (p + 8 * k) = nth (N.to_nat k) (ss a) 0;
    sim_stack : forall k, k < 25 -> mem m (s + 8 * k) = nth (N.to_nat k) (sk a) 0;
    sim_rest : forall x, outside x -> mem m x = mem0 x;
    sim_args : args m = args0 }.

  Lemma reg_id_inj r r' : Nat.eqb (reg_id r) (reg_id r') = true <-> r = r'.
  Proof. destruct r, r'; cbn; split; intros H; congruence || reflexivity. Qed.
  Lemma fits_mem off : fits_off off = true -> exists k, off = 8 * k /\ k < 25 /\ index off = N.to_nat k.
  Proof.
    unfold fits_off, index. rewrite andb_true_iff, N.eqb_eq, N.ltb_lt. intros [A B]. exists (off / 8). split; [|tauto].
    pose proof (N.div_mod off 8). lia.
  Qed.
  Lemma address_di m a off : sim m a -> off < 200 -> address m off DI = p + off.
  Proof. intros H L. unfold address. rewrite (sim_di _ _ H). apply N.mod_small. unfold frame_size in *. lia. Qed.
  Lemma address_sp m a off : sim m a -> off < 200 -> address m off SP = s + off.
  Proof. intros H L. unfold address. rewrite (sim_sp _ _ H). apply N.mod_small. unfold frame_size in *. lia. Qed.

  Lemma sim_read m a o : sim m a -> fits o = true -> read m o = sread a o.
  Proof.
    intros H F. destruct o as [r|off b|v|off]; cbn [read sread] in *.
    - apply (sim_reg _ _ H); intros ->; discriminate F.
    - destruct b; try discriminate F.
      + destruct (fits_mem off F) as (k & -> & K & I). rewrite (address_di m a) by (auto; lia). rewrite I. apply (sim_state _ _ H). exact K.
      + cbn [fits] in F. apply andb_true_iff in F. destruct F as [F _]. destruct (fits_mem off F) as (k & -> & K & I).
        rewrite (address_sp m a) by (auto; lia). rewrite I. apply (sim_stack _ _ H). exact K.
    - reflexivity.
    - discriminate F.
  Qed.
  Lemma sim_write m a o v : sim m a -> fits o = true -> sim (write m o v) (swrite a o v).
  Proof.
    intros H F. pose proof (sim_len _ _ H) as (L1 & L2 & L3). destruct o as [r|off b|w|off]; cbn [write swrite].
    - constructor; cbn [regs mem args sr ss sk]; try apply H.
      + now rewrite put_length.
      + intros r' A B. assert (reg_id r < 16)%nat by (destruct r; cbn; lia). rewrite nth_put by lia.
        destruct (Nat.eqb _ _); [reflexivity|]. now apply (sim_reg _ _ H).
      + destruct (Nat.eqb (reg_id DI) (reg_id r)) eqn:E; [|apply H]. apply (proj1 (reg_id_inj _ _)) in E. subst r. discriminate F.
      + destruct (Nat.eqb (reg_id SP) (reg_id r)) eqn:E; [|apply H]. apply (proj1 (reg_id_inj _ _)) in E. subst r. discriminate F.
    - destruct b; try discriminate F.
      + destruct (fits_mem off F) as (k & -> & K & I). rewrite I. constructor; cbn [regs mem args sr ss sk]; try apply H.
        * now rewrite put_length.
        * intros j J. rewrite (address_di m a) by (auto; lia). rewrite nth_put by lia.
          destruct (p + 8 * j =? p + 8 * k) eqn:E; [apply N.eqb_eq in E|apply N.eqb_neq in E]; destruct (Nat.eqb (N.to_nat j) (N.to_nat k)) eqn:E2;
            [reflexivity|apply Nat.eqb_neq in E2; lia|apply Nat.eqb_eq in E2; lia|apply (sim_state _ _ H); exact J].
        * intros j J. rewrite (address_di m a) by (auto; lia). destruct (s + 8 * j =? p + 8 * k) eqn:E; [apply N.eqb_eq in E; unfold frame_size in *; lia|].
          apply (sim_stack _ _ H). exact J.
        * intros x X. rewrite (address_di m a) by (auto; lia). destruct (x =? p + 8 * k) eqn:E; [apply N.eqb_eq in E; unfold outside, frame_size in *; lia|].
          apply (sim_rest _ _ H). exact X.
      + cbn [fits] in F. apply andb_true_iff in F. destruct F as [F _]. destruct (fits_mem off F) as (k & -> & K & I). rewrite I.
        constructor; cbn [regs mem args sr ss sk]; try apply H.
        * now rewrite put_length.
        * intros j J. rewrite (address_sp m a) by (auto; lia). destruct (p + 8 * j =? s + 8 * k) eqn:E; [apply N.eqb_eq in E; unfold frame_size in *; lia|].
          apply (sim_state _ _ H). exact J.
        * intros j J. rewrite (address_sp m a) by (auto; lia). rewrite nth_put by lia.
          destruct (s + 8 * j =? s + 8 * k) eqn:E; [apply N.eqb_eq in E|apply N.eqb_neq in E]; destruct (Nat.eqb (N.to_nat j) (N.to_nat k)) eqn:E2;
            [reflexivity|apply Nat.eqb_neq in E2; lia|apply Nat.eqb_eq in E2; lia|apply (sim_stack _ _ H); exact J].
        * intros x X. rewrite (address_sp m a) by (auto; lia). destruct (x =? s + 8 * k) eqn:E; [apply N.eqb_eq in E; unfold outside, frame_size in *; lia|].
          apply (sim_rest _ _ H). exact X.
    - exact H.
    - exact H.
  Qed.
  Lemma sim_step m a i : sim m a -> fits_instr i = true -> sim (step i m) (sstep i a).
  Proof.
    intros H F. destruct i as [o d|o d|o d|o d|d|k d| |]; cbn [step sstep fits_instr] in *;
      try (apply andb_true_iff in F; destruct F as [F1 F2]; rewrite ?(sim_read m a o H F1), ?(sim_read m a d H F2); now apply sim_write);
      try (rewrite (sim_read m a d H F); now apply sim_write); exact H.
  Qed.
  Lemma sim_run code m a : forallb fits_instr code = true -> sim m a -> sim (run code m) (srun code a).
  Proof.
    revert m a. induction code as [|i code IH]; intros m a F H; [exact H|]. cbn [forallb] in F. apply andb_true_iff in F. destruct F as [F1 F2].
    destruct i; try exact H; apply (IH _ _ F2); exact (sim_step m a _ H F1).
  Qed.
End Simulation.

Lemma srun_app c1 c2 a : forallb (fun i => match i with RET => false | _ => true end) c1 = true -> srun (c1 ++ c2)%list a = srun c2 (srun c1 a).
Proof.
  revert a. induction c1 as [|i c1 IH]; intros a H; [reflexivity|]. cbn [forallb] in H. apply andb_true_iff in H. destruct H as [H1 H2].
  destruct i; try discriminate H1; exact (IH _ H2).
Qed.

(** ** One round *)
(** The lanes be, bi, go, ki, mi and sa are kept complemented. *)
Definition flip (a : list N) : list N := map (fun k => if existsb (Nat.eqb k) [1; 2; 8; 12; 17; 20]%nat then not64 (nth k a 0) else nth k a 0) (seq 0 25).
Definition effect (a : list N) (x : nat) : N := N.lxor (columnL (lane a) ((x + 4) mod 5)%nat) (rol (columnL (lane a) ((x + 1) mod 5)%nat) 1).

Lemma word_ext a b : word a -> word b -> (forall z, z < 64 -> N.testbit a z = N.testbit b z) -> a = b.
Proof. intros A B H. apply N.bits_inj. intros z. destruct (N.lt_ge_cases z 64) as [L|L]; [now apply H|]. now rewrite A, B. Qed.
Lemma ones_bits z : N.testbit (2 ^ 64 - 1) z = (z <? 64).
Proof.
  change (2 ^ 64 - 1) with (N.ones 64). destruct (z <? 64) eqn:E; [apply N.ltb_lt in E; now apply N.ones_spec_low|apply N.ltb_ge in E; now apply N.ones_spec_high].
Qed.
Lemma not64_bits a z : z < 64 -> N.testbit (not64 a) z = negb (N.testbit a z).
Proof. intros H. unfold not64. rewrite N.lxor_spec, ones_bits. apply N.ltb_lt in H. rewrite H. now destruct (N.testbit a z). Qed.
Lemma word_not a : word a -> word (not64 a).
Proof. intros H i Hi. unfold not64. rewrite N.lxor_spec, ones_bits, H by exact Hi. apply N.ltb_ge in Hi. now rewrite Hi. Qed.
Lemma word_lor a b : word a -> word b -> word (N.lor a b).
Proof. intros A B i Hi. now rewrite N.lor_spec, A, B. Qed.
Lemma word_land a b : word a -> word b -> word (N.land a b).
Proof. intros A B i Hi. now rewrite N.land_spec, A, B. Qed.
Lemma rol64_rol x k : k < 64 -> rol64 x k = rol x k.
Proof. intros H. unfold rol64, rol. now rewrite N.mod_small. Qed.
Lemma not_not a : not64 (not64 a) = a.
Proof. unfold not64. now rewrite N.lxor_assoc, N.lxor_nilpotent, N.lxor_0_r. Qed.
Lemma rol_not a k : word a -> 1 <= k < 64 -> rol (not64 a) k = not64 (rol a k).
Proof.
  intros A K. apply word_ext; [now apply word_rol, word_not|now apply word_not, word_rol|]. intros z Z.
  assert ((z + (64 - k)) mod 64 < 64) by (apply N.mod_lt; discriminate).
  rewrite rol_bits by (auto; now apply word_not). rewrite !not64_bits by assumption. now rewrite rol_bits.
Qed.
Lemma not_xor_l a b : N.lxor (not64 a) b = not64 (N.lxor a b).
Proof. unfold not64. rewrite !N.lxor_assoc. f_equal. apply N.lxor_comm. Qed.
Lemma not_xor_r a b : N.lxor a (not64 b) = not64 (N.lxor a b).
Proof. unfold not64. now rewrite N.lxor_assoc. Qed.

Ltac words := repeat match goal with
  | |- word (N.lxor _ _) => apply word_lxor | |- word (rol _ _) => apply word_rol | |- word (not64 _) => apply word_not
  | |- word (N.lor _ _) => apply word_lor | |- word (N.land _ _) => apply word_land | |- word (N.ldiff _ _) => apply word_ldiff
  | |- word _ => assumption end.
Ltac bits := let z := fresh "z" in let Hz := fresh "Hz" in apply word_ext; [words|words|]; intros z Hz;
  repeat first [rewrite N.lxor_spec | rewrite N.lor_spec | rewrite N.land_spec | rewrite N.ldiff_spec | rewrite not64_bits by exact Hz];
  repeat match goal with |- context [N.testbit ?x z] => destruct (N.testbit x z) end; reflexivity.
Ltac outer := repeat first [rewrite not_xor_l | rewrite not_xor_r | rewrite rol_not by (words; lia) | rewrite not_not].
Ltac machine := cbv [srun app firstn skipn round_prepare round_b round_g round_k round_m round_s mKeccakRound sstep sread swrite nth put reg_id
    rT1 rpState rpStack rDa rDe rDi rDo rDu rBa rBe rBi rBo rBu rCa rCe rCi rCo rCu
    _ba _be _bi _bo _bu _ga _ge _gi _go _gu _ka _ke _ki _ko _ku _ma _me _mi _mo _mu _sa _se _si _so _su
    index N.to_nat N.div N.div_eucl N.mul Pos.mul Pos.add Pos.succ N.pos_div_eucl N.compare Pos.compare Pos.compare_cont N.leb N.sub N.add N.double N.succ_double Pos.sub Pos.sub_mask Pos.double_mask Pos.succ_double_mask Pos.pred_double Pos.double_pred_mask fst snd Pos.to_nat Pos.iter_op Nat.add
    MOVQ_RBI_RCE XORQ_RT1_RCA XORQ_RT1_RCE XORQ_RBA_RCU XORQ_RBE_RCU XORQ_RDU_RCU XORQ_RDA_RCA XORQ_RDE_RCE sr ss sk].

Lemma prepare_ok iS oS rc I t u1 u2 u5 u7 u9 u10 u11 u12 u13 u14 b k y0 y1 y2 y3 y4 y5 y6 y7 y8 y9 y10 y11 y12 y13 y14 y15 y16 y17 y18 y19 y20 y21 y22 y23 y24 :
  let y := [y0; y1; y2; y3; y4; y5; y6; y7; y8; y9; y10; y11; y12; y13; y14; y15; y16; y17; y18; y19; y20; y21; y22; y23; y24] in
  Forall word y -> (iS = DI /\ k = y \/ iS = SP /\ b = y) ->
  exists ci co,
  srun (round_prepare iS ++ firstn 3 (round_b iS oS rc I))%list
    (mkSlots [t; u1; u2; y22; columnL (lane y) 0; u5; columnL (lane y) 1; u7; y23; u9; u10; u11; u12; u13; u14; columnL (lane y) 4] k b)
  = mkSlots [t; not64 (effect (flip y) 0); effect (flip y) 1; effect (flip y) 2; columnL (lane y) 0; u5; columnL (lane y) 1; u7; not64 (effect (flip y) 3); effect (flip y) 4; y0; y6; ci; co; u14; columnL (lane y) 4] k b.
Proof.
  intros y F H. unfold y in *. clear y. repeat match goal with H : Forall _ (_ :: _) |- _ => apply Forall_cons_iff in H; destruct H end.

  destruct H as [[-> ->] | [-> ->]]; machine; do 2 eexists.
  all: match goal with |- context [N.lxor (N.lxor ?a ?b) (N.lxor (N.lxor ?c ?d) ?e)] => replace (N.lxor (N.lxor a b) (N.lxor (N.lxor c d) e)) with (N.lxor (N.lxor (N.lxor (N.lxor a d) b) e) c) by bits end.
  all: try match goal with |- context [N.lxor (N.lxor ?a ?b) (N.lxor (N.lxor ?c ?d) ?e)] => replace (N.lxor (N.lxor a b) (N.lxor (N.lxor c d) e)) with (N.lxor (N.lxor (N.lxor (N.lxor a d) b) e) c) by bits end.
  all: cbv [effect columnL lane flip map seq existsb Nat.eqb orb nth Nat.add Nat.mul Nat.modulo Nat.divmod Nat.sub snd].
  all: rewrite !rol64_rol by reflexivity; outer.
  all: match goal with |- mkSlots [_; ?a1; ?a2; ?a3; _; _; _; _; ?a8; ?a9; _; _; _; _; _; _] _ _ = mkSlots [_; ?b1; ?b2; ?b3; _; _; _; _; ?b8; ?b9; _; _; _; _; _; _] _ _ =>
     replace b1 with a1 by bits; replace b2 with a2 by bits; replace b3 with a3 by bits; replace b8 with a8 by bits; replace b9 with a9 by bits end; reflexivity.
Qed.

(** The round with the values the columns contribute as a parameter. *)
Definition round_with (rc : N) (a : list N) (e : nat -> N) : list N :=
  map (fun p => iotaL rc (chiL (piL (rhoL (fun x y => N.lxor (lane a x y) (e x))))) (p mod 5)%nat (p / 5)%nat) (seq 0 25).
Lemma round_with_ok rc a : round_lanes rc a = round_with rc a (effect a).
Proof. reflexivity. Qed.

Definition tail iS oS rc (o : nat -> instr) : list instr :=
  (skipn 3 (round_b iS oS rc (o 0%nat)) ++ round_g iS oS (o 1%nat) (o 2%nat) (o 3%nat) ++ round_k iS oS (o 4%nat) (o 5%nat) (o 6%nat) ++ round_m iS oS (o 7%nat) (o 8%nat) (o 9%nat) ++ round_s iS oS (o 10%nat) (o 11%nat) (o 12%nat))%list.
Definition usual (n : nat) : instr := nth n [MOVQ_RBI_RCE; XORQ_RT1_RCA; XORQ_RT1_RCE; XORQ_RBA_RCU; XORQ_RT1_RCA; XORQ_RT1_RCE; XORQ_RBA_RCU; XORQ_RT1_RCA; XORQ_RT1_RCE; XORQ_RBE_RCU; XORQ_RDU_RCU; XORQ_RDA_RCA; XORQ_RDE_RCE] NOP.
Definition none (n : nat) : instr := NOP.
Definition keccak_round iS oS rc (o : nat -> instr) : list instr :=
  mKeccakRound iS oS rc (o 0%nat) (o 1%nat) (o 2%nat) (o 3%nat) (o 4%nat) (o 5%nat) (o 6%nat) (o 7%nat) (o 8%nat) (o 9%nat) (o 10%nat) (o 11%nat) (o 12%nat).
Lemma keccak_round_split iS oS rc o : keccak_round iS oS rc o = ((round_prepare iS ++ firstn 3 (round_b iS oS rc (o 0%nat))) ++ tail iS oS rc o)%list.
Proof. reflexivity. Qed.

Lemma cons_eq (a b : N) l l' : a = b -> l = l' -> a :: l = b :: l'.
Proof. congruence. Qed.
Lemma tail_ok iS oS rc o e0 e1 e2 e3 e4 t u5 u7 ca ce ci co u14 cu k0 k1 k2 k3 k4 k5 k6 k7 k8 k9 k10 k11 k12 k13 k14 k15 k16 k17 k18 k19 k20 k21 k22 k23 k24 y0 y1 y2 y3 y4 y5 y6 y7 y8 y9 y10 y11 y12 y13 y14 y15 y16 y17 y18 y19 y20 y21 y22 y23 y24 k b :
  let y := [y0; y1; y2; y3; y4; y5; y6; y7; y8; y9; y10; y11; y12; y13; y14; y15; y16; y17; y18; y19; y20; y21; y22; y23; y24] in
  let e n := nth n [e0; e1; e2; e3; e4] 0 in
  let out := flip (round_with rc (flip y) e) in
  word rc -> Forall word [e0; e1; e2; e3; e4] -> Forall word y ->
  (iS = DI /\ oS = SP /\ k = y /\ b = [k0; k1; k2; k3; k4; k5; k6; k7; k8; k9; k10; k11; k12; k13; k14; k15; k16; k17; k18; k19; k20; k21; k22; k23; k24] \/ iS = SP /\ oS = DI /\ b = y /\ k = [k0; k1; k2; k3; k4; k5; k6; k7; k8; k9; k10; k11; k12; k13; k14; k15; k16; k17; k18; k19; k20; k21; k22; k23; k24]) ->
  o = usual \/ o = none ->
  let m := srun (tail iS oS rc o) (mkSlots [t; not64 e0; e1; e2; ca; u5; ce; u7; not64 e3; e4; y0; y6; ci; co; u14; cu] k b) in
  List.length (sr m) = 16%nat /\
  (iS = DI -> ss m = y /\ sk m = out) /\ (iS = SP -> sk m = y /\ ss m = out) /\
  (o = usual -> nth 3 (sr m) 0 = nth 22 out 0 /\ nth 8 (sr m) 0 = nth 23 out 0 /\ nth 4 (sr m) 0 = columnL (lane out) 0 /\ nth 6 (sr m) 0 = columnL (lane out) 1 /\ nth 15 (sr m) 0 = columnL (lane out) 4).
Proof.
  intros y e out Hrc He F H Ho m. unfold y in F, H. repeat match goal with H : Forall _ (_ :: _) |- _ => apply Forall_cons_iff in H; destruct H end.
  assert (E : out = sk (srun (tail DI SP rc none) (mkSlots [t; not64 e0; e1; e2; ca; u5; ce; u7; not64 e3; e4; y0; y6; ci; co; u14; cu] y [k0; k1; k2; k3; k4; k5; k6; k7; k8; k9; k10; k11; k12; k13; k14; k15; k16; k17; k18; k19; k20; k21; k22; k23; k24]))).
  { unfold out, y, e, none. clear H Ho m. cbv [tail usual none srun app firstn skipn round_prepare round_b round_g round_k round_m round_s mKeccakRound sstep sread swrite nth put reg_id     rT1 rpState rpStack rDa rDe rDi rDo rDu rBa rBe rBi rBo rBu rCa rCe rCi rCo rCu     _ba _be _bi _bo _bu _ga _ge _gi _go _gu _ka _ke _ki _ko _ku _ma _me _mi _mo _mu _sa _se _si _so _su     index N.to_nat N.div N.div_eucl N.mul Pos.mul Pos.add Pos.succ N.pos_div_eucl N.compare Pos.compare Pos.compare_cont N.leb N.sub N.add N.double N.succ_double Pos.sub Pos.sub_mask Pos.double_mask Pos.succ_double_mask Pos.pred_double Pos.double_pred_mask fst snd Pos.to_nat Pos.iter_op Nat.add     MOVQ_RBI_RCE XORQ_RT1_RCA XORQ_RT1_RCE XORQ_RBA_RCU XORQ_RBE_RCU XORQ_RDU_RCU XORQ_RDA_RCA XORQ_RDE_RCE sr ss sk].
    cbv [round_with flip map seq lane iotaL chiL piL rhoL existsb Nat.eqb orb andb nth Nat.add Nat.mul Nat.modulo Nat.divmod Nat.div Nat.sub fst snd rho_offset rho_walk Nat.div2 rotl N.of_nat Pos.of_succ_nat Pos.succ].
    rewrite !rol64_rol by reflexivity.
    repeat (apply cons_eq; [|]); [..|reflexivity]; outer; bits. }
  unfold y, none in E. cbv [tail usual none srun app firstn skipn round_prepare round_b round_g round_k round_m round_s mKeccakRound sstep sread swrite nth put reg_id     rT1 rpState rpStack rDa rDe rDi rDo rDu rBa rBe rBi rBo rBu rCa rCe rCi rCo rCu     _ba _be _bi _bo _bu _ga _ge _gi _go _gu _ka _ke _ki _ko _ku _ma _me _mi _mo _mu _sa _se _si _so _su     index N.to_nat N.div N.div_eucl N.mul Pos.mul Pos.add Pos.succ N.pos_div_eucl N.compare Pos.compare Pos.compare_cont N.leb N.sub N.add N.double N.succ_double Pos.sub Pos.sub_mask Pos.double_mask Pos.succ_double_mask Pos.pred_double Pos.double_pred_mask fst snd Pos.to_nat Pos.iter_op Nat.add     MOVQ_RBI_RCE XORQ_RT1_RCA XORQ_RT1_RCE XORQ_RBA_RCU XORQ_RBE_RCU XORQ_RDU_RCU XORQ_RDA_RCA XORQ_RDE_RCE sr ss sk] in E.
  rewrite E. clear E out. subst y.
  destruct H as [(-> & -> & -> & ->) | (-> & -> & -> & ->)]; destruct Ho as [-> | ->]; unfold m; clear m;
    cbv [tail usual none srun app firstn skipn round_prepare round_b round_g round_k round_m round_s mKeccakRound sstep sread swrite nth put reg_id     rT1 rpState rpStack rDa rDe rDi rDo rDu rBa rBe rBi rBo rBu rCa rCe rCi rCo rCu     _ba _be _bi _bo _bu _ga _ge _gi _go _gu _ka _ke _ki _ko _ku _ma _me _mi _mo _mu _sa _se _si _so _su     index N.to_nat N.div N.div_eucl N.mul Pos.mul Pos.add Pos.succ N.pos_div_eucl N.compare Pos.compare Pos.compare_cont N.leb N.sub N.add N.double N.succ_double Pos.sub Pos.sub_mask Pos.double_mask Pos.succ_double_mask Pos.pred_double Pos.double_pred_mask fst snd Pos.to_nat Pos.iter_op Nat.add     MOVQ_RBI_RCE XORQ_RT1_RCA XORQ_RT1_RCE XORQ_RBA_RCU XORQ_RBE_RCU XORQ_RDU_RCU XORQ_RDA_RCA XORQ_RDE_RCE sr ss sk List.length columnL lane Nat.mul]; (split; [reflexivity|]); (split; [intros Q; first [discriminate Q|split; reflexivity]|]);
    (split; [intros Q; first [discriminate Q|split; reflexivity]|]); intros Q; first [repeat split; reflexivity | exfalso; apply (f_equal (fun f => f 0%nat)) in Q; discriminate Q].
Qed.

(** ** All rounds *)
Definition area (r : reg) (a : slots) : list N := match r with SP => sk a | _ => ss a end.
Definition other (r : reg) : reg := match r with SP => DI | _ => SP end.
Record ready (i : reg) (a : slots) (y : list N) : Prop := mkReady {
  rd_where : i = DI \/ i = SP;
  rd_regs : List.length (sr a) = 16%nat;
  rd_other : List.length (area (other i) a) = 25%nat;
  rd_area : area i a = y;
  rd_length : List.length y = 25%nat;
  rd_words : Forall word y;
  rd_si : nth 3 (sr a) 0 = nth 22 y 0;
  rd_so : nth 8 (sr a) 0 = nth 23 y 0;
  rd_ca : nth 4 (sr a) 0 = columnL (lane y) 0;
  rd_ce : nth 6 (sr a) 0 = columnL (lane y) 1;
  rd_cu : nth 15 (sr a) 0 = columnL (lane y) 4 }.

Lemma flip_length a : List.length (flip a) = 25%nat.
Proof. unfold flip. now rewrite map_length, seq_length. Qed.
Lemma flip_flip a : List.length a = 25%nat -> flip (flip a) = a.
Proof.
  intros H. apply list25 in H. do 25 destruct H as [? H]. subst a. cbv [flip map seq existsb Nat.eqb orb nth]. now rewrite !not_not.
Qed.
Lemma nth_word a k : Forall word a -> word (nth k a 0).
Proof. intros H. destruct (Nat.lt_ge_cases k (List.length a)) as [L|L]; [|rewrite nth_overflow by exact L; apply word_0]. rewrite Forall_forall in H. now apply H, nth_In. Qed.
Lemma flip_words a : Forall word a -> Forall word (flip a).
Proof.
  intros H. apply Forall_forall. intros x X. unfold flip in X. apply in_map_iff in X. destruct X as (k & <- & _).
  destruct (existsb _ _); [apply word_not|]; now apply nth_word.
Qed.
Lemma lane_word a x y : Forall word a -> word (lane a x y).
Proof. intros H. now apply nth_word. Qed.
Lemma column_word a x : Forall word a -> word (columnL (lane a) x).
Proof. intros H. unfold columnL. words; now apply lane_word. Qed.
Lemma effect_word a x : Forall word a -> word (effect a x).
Proof. intros H. unfold effect. words; now apply column_word. Qed.
Lemma good_words a : Forall word a -> good (lane a).
Proof. intros H x y. now apply lane_word. Qed.
Lemma round_words rc a : word rc -> Forall word a -> Forall word (round_lanes rc a).
Proof.
  intros R H. apply Forall_forall. intros x X. unfold round_lanes in X. apply in_map_iff in X. destruct X as (k & <- & _).
  unfold RndL. apply good_iota; [exact R|]. now apply good_chi, good_pi, good_rho, good_theta, good_words.
Qed.
Lemma round_with_ext rc a e e' : (forall x, (x < 5)%nat -> e x = e' x) -> round_with rc a e = round_with rc a e'.
Proof.
  intros H. unfold round_with. apply map_ext. intros p. unfold iotaL, chiL, piL, rhoL. rewrite !H by (apply Nat.mod_upper_bound; discriminate). reflexivity.
Qed.

Lemma list16 (a : list N) : List.length a = 16%nat -> exists x0 x1 x2 x3 x4 x5 x6 x7 x8 x9 x10 x11 x12 x13 x14 x15,
  a = [x0; x1; x2; x3; x4; x5; x6; x7; x8; x9; x10; x11; x12; x13; x14; x15].
Proof. intros H. do 16 (destruct a as [|? a]; [discriminate H|]). destruct a; [|discriminate H]. repeat eexists. Qed.

Lemma round_step i rc o a y : word rc -> o = usual \/ o = none -> ready i a y ->
  let a' := srun (keccak_round i (other i) rc o) a in
  let y' := flip (round_lanes rc (flip y)) in
  area (other i) a' = y' /\ (o = usual -> ready (other i) a' y').
Proof.
  intros Hrc Ho R a' y'.
  assert (W' : Forall word y') by (apply flip_words, round_words; [exact Hrc|]; apply flip_words, R).
  assert (L' : List.length y' = 25%nat) by apply flip_length.
  destruct R as [Hi Lr Lo Ar Ly Wy R3 R8 R4 R6 R15].
  destruct a as [r st sk']. destruct (list16 _ Lr) as (t & u1 & u2 & u3 & u4 & u5 & u6 & u7 & u8 & u9 & u10 & u11 & u12 & u13 & u14 & u15 & E). cbn [sr] in E. subst r.
  cbn [sr nth] in R3, R8, R4, R6, R15. subst u3 u8 u4 u6 u15.
  destruct (list25 _ Ly) as (w0 & w1 & w2 & w3 & w4 & w5 & w6 & w7 & w8 & w9 & w10 & w11 & w12 & w13 & w14 & w15 & w16 & w17 & w18 & w19 & w20 & w21 & w22 & w23 & w24 & Ey).
  destruct (list25 _ Lo) as (q0 & q1 & q2 & q3 & q4 & q5 & q6 & q7 & q8 & q9 & q10 & q11 & q12 & q13 & q14 & q15 & q16 & q17 & q18 & q19 & q20 & q21 & q22 & q23 & q24 & Ek).
  assert (M : exists ci co, srun (round_prepare i ++ firstn 3 (round_b i (other i) rc (o 0%nat)))%list
     (mkSlots [t; u1; u2; nth 22 y 0; columnL (lane y) 0; u5; columnL (lane y) 1; u7; nth 23 y 0; u9; u10; u11; u12; u13; u14; columnL (lane y) 4] st sk')
     = mkSlots [t; not64 (effect (flip y) 0); effect (flip y) 1; effect (flip y) 2; columnL (lane y) 0; u5; columnL (lane y) 1; u7; not64 (effect (flip y) 3); effect (flip y) 4; nth 0 y 0; nth 6 y 0; ci; co; u14; columnL (lane y) 4] st sk').
  { rewrite Ey in *. cbn [nth]. apply prepare_ok; [exact Wy|]. destruct Hi as [-> | ->]; cbn [area ss sk] in Ar; auto. }
  destruct M as (ci & co & M).
  pose proof (tail_ok i (other i) rc o (effect (flip y) 0) (effect (flip y) 1) (effect (flip y) 2) (effect (flip y) 3) (effect (flip y) 4)
    t u5 u7 (columnL (lane y) 0) (columnL (lane y) 1) ci co u14 (columnL (lane y) 4) q0 q1 q2 q3 q4 q5 q6 q7 q8 q9 q10 q11 q12 q13 q14 q15 q16 q17 q18 q19 q20 q21 q22 q23 q24 w0 w1 w2 w3 w4 w5 w6 w7 w8 w9 w10 w11 w12 w13 w14 w15 w16 w17 w18 w19 w20 w21 w22 w23 w24 st sk') as T. cbv zeta in T. rewrite <- Ey in T.
  assert (Ey' : flip (round_with rc (flip y) (fun n => nth n [effect (flip y) 0; effect (flip y) 1; effect (flip y) 2; effect (flip y) 3; effect (flip y) 4] 0)) = y').
  { unfold y'. rewrite round_with_ok. apply (f_equal flip). apply round_with_ext. intros x X. do 5 (destruct x as [|x]; [reflexivity|]). lia. }
  rewrite Ey' in T.
  assert (X0 : w0 = nth 0 y 0) by (now rewrite Ey). assert (X6 : w6 = nth 6 y 0) by (now rewrite Ey). rewrite X0, X6 in T.
  assert (SPL : a' = srun (tail i (other i) rc o) (mkSlots [t; not64 (effect (flip y) 0); effect (flip y) 1; effect (flip y) 2; columnL (lane y) 0; u5; columnL (lane y) 1; u7; not64 (effect (flip y) 3); effect (flip y) 4; nth 0 y 0; nth 6 y 0; ci; co; u14; columnL (lane y) 4] st sk')).
  { unfold a'. rewrite keccak_round_split, srun_app by (destruct Hi as [-> | ->]; destruct Ho as [-> | ->]; reflexivity). now rewrite M. }
  rewrite <- SPL in T. clearbody a'. clear SPL M.
  destruct T as (T1 & T2 & T3 & T4); [exact Hrc| |exact Wy| |exact Ho|].
  { repeat constructor; apply effect_word, flip_words, Wy. }
  { destruct Hi as [-> | ->]; cbn [area other ss sk] in *; [left|right]; now rewrite <- Ey || auto. }
  destruct Hi as [-> | ->]; cbn [area other ss sk] in *.
  - destruct (T2 eq_refl) as [A B]. split; [exact B|]. intros U. destruct (T4 U) as (N3 & N8 & N4 & N6 & N15).
    constructor; cbn [area other]; auto. now rewrite A.
  - destruct (T3 eq_refl) as [A B]. split; [exact B|]. intros U. destruct (T4 U) as (N3 & N8 & N4 & N6 & N15).
    constructor; cbn [area other]; auto. now rewrite A.
Qed.

Fixpoint rounds_code (i : reg) (rcs : list N) : list instr :=
  match rcs with
  | [] => []
  | [r] => keccak_round i (other i) r none
  | r :: rcs' => (keccak_round i (other i) r usual ++ rounds_code (other i) rcs')%list
  end.
Fixpoint turns (i : reg) (rcs : list N) : reg := match rcs with [] => i | _ :: rcs' => turns (other i) rcs' end.
Lemma asm_rounds_code : asm_rounds = rounds_code DI rc_table.
Proof. reflexivity. Qed.
Lemma rounds_step rcs : forall i a u, rcs <> [] -> Forall word rcs -> List.length u = 25%nat -> ready i a (flip u) ->
  area (turns i rcs) (srun (rounds_code i rcs) a) = flip (lane_rounds rcs u).
Proof.
  induction rcs as [|r rcs IH]; intros i a u NE F L R; [congruence|]. apply Forall_cons_iff in F. destruct F as [Fr F].
  destruct rcs as [|r2 rcs].
  - destruct (round_step i r none a (flip u) Fr (or_intror eq_refl) R) as [A _]. rewrite flip_flip in A by exact L. exact A.
  - destruct (round_step i r usual a (flip u) Fr (or_introl eq_refl) R) as [_ A]. rewrite flip_flip in A by exact L. specialize (A eq_refl).
    change (rounds_code i (r :: r2 :: rcs)) with (keccak_round i (other i) r usual ++ rounds_code (other i) (r2 :: rcs))%list.
    rewrite srun_app by (destruct (rd_where _ _ _ R) as [-> | ->]; reflexivity).
    change (lane_rounds (r :: r2 :: rcs) u) with (lane_rounds (r2 :: rcs) (round_lanes r u)).
    change (turns i (r :: r2 :: rcs)) with (turns (other i) (r2 :: rcs)).
    apply IH; [discriminate|exact F|apply round_length|exact A].
Qed.

(** ** Before and after the rounds *)
Lemma prologue_ready r u k : List.length r = 16%nat -> List.length u = 25%nat -> List.length k = 25%nat -> Forall word u ->
  ready DI (srun (tl asm_prologue) (mkSlots r u k)) (flip u).
Proof.
  intros Lr Lu Lk W. destruct (list16 _ Lr) as (t & u1 & u2 & u3 & u4 & u5 & u6 & u7 & u8 & u9 & u10 & u11 & u12 & u13 & u14 & u15 & ->).
  pose proof (flip_words u W) as Fw. pose proof (flip_length u) as Fl. destruct (list25 _ Lu) as (w0 & w1 & w2 & w3 & w4 & w5 & w6 & w7 & w8 & w9 & w10 & w11 & w12 & w13 & w14 & w15 & w16 & w17 & w18 & w19 & w20 & w21 & w22 & w23 & w24 & ->). 
  constructor; [now left|reflexivity|exact Lk|reflexivity|exact Fl|exact Fw|reflexivity|reflexivity|reflexivity|reflexivity|reflexivity].
Qed.
Lemma epilogue_flip a : List.length (ss a) = 25%nat -> ss (srun asm_epilogue a) = flip (ss a).
Proof. intros L. destruct a as [r y k]. cbn [ss] in *. destruct (list25 _ L) as (w0 & w1 & w2 & w3 & w4 & w5 & w6 & w7 & w8 & w9 & w10 & w11 & w12 & w13 & w14 & w15 & w16 & w17 & w18 & w19 & w20 & w21 & w22 & w23 & w24 & ->). reflexivity. Qed.
Lemma lane_rounds_length rcs : forall u, List.length u = 25%nat -> List.length (lane_rounds rcs u) = 25%nat.
Proof. induction rcs as [|r rcs IH]; intros u L; [exact L|]. apply IH, round_length. Qed.
Lemma rc_words : Forall word rc_table.
Proof. unfold rc_table. repeat (apply Forall_cons; [apply word_lt; reflexivity|]). constructor. Qed.
Definition stops_not (code : list instr) : bool := forallb (fun i => match i with RET => false | _ => true end) code.
Lemma code_split : tl keccakF1600_amd64 = (tl asm_prologue ++ rounds_code DI rc_table ++ asm_epilogue)%list.
Proof. reflexivity. Qed.
Lemma prologue_goes_on : stops_not (tl asm_prologue) = true.
Proof. reflexivity. Qed.
Lemma rounds_go_on : stops_not (rounds_code DI rc_table) = true.
Proof. vm_compute. reflexivity. Qed.
Lemma turns_table : turns DI rc_table = DI.
Proof. reflexivity. Qed.
Lemma table_some : rc_table <> [].
Proof. discriminate. Qed.
#[local] Opaque rounds_code rc_table asm_prologue asm_epilogue keccakF1600_amd64.
Lemma slots_run r u k : List.length r = 16%nat -> List.length u = 25%nat -> List.length k = 25%nat -> Forall word u ->
  ss (srun (tl keccakF1600_amd64) (mkSlots r u k)) = keccakF1600 u.
Proof.
  intros Lr Lu Lk W. rewrite code_split.
  rewrite (srun_app _ _ _ prologue_goes_on). rewrite (srun_app _ _ _ rounds_go_on).
  pose proof (rounds_step rc_table DI _ u table_some rc_words Lu (prologue_ready r u k Lr Lu Lk W)) as R.
  rewrite turns_table in R. unfold area in R.
  rewrite epilogue_flip by (rewrite R; apply flip_length). rewrite R. rewrite flip_flip by (apply lane_rounds_length; exact Lu).
  symmetry. apply loop_lanes. exact Lu.
Qed.
