(** pkg/go-ethereum/crypto/sha3/keccakf_amd64.s: the permutation as it is written
    for amd64, which keccakf_amd64.go declares in place of keccakf.go on those
    machines.  The program is kept as it is written, instruction by instruction,
    and run on a small machine. *)

From Verif Require Import GoBase ModelKeccak.

Local Open Scope N_scope.

(** ** The machine.  Go's assembler writes the source first and the destination
    last.  Memory is a map from the address of an aligned word of eight bytes to
    the word: the code reads and writes nothing else.  [args] is the part of the
    stack the pseudo-register FP addresses. *)
Inductive reg := AX | BX | CX | DX | SI | DI | BP | SP | R8 | R9 | R10 | R11 | R12 | R13 | R14 | R15.
Definition reg_id (r : reg) : nat :=
  match r with AX => 0 | BX => 1 | CX => 2 | DX => 3 | SI => 4 | DI => 5 | BP => 6 | SP => 7 | R8 => 8 | R9 => 9 | R10 => 10 | R11 => 11 | R12 => 12 | R13 => 13 | R14 => 14 | R15 => 15 end%nat.
Inductive operand := Reg (r : reg) | Mem (off : N) (base : reg) | Imm (v : N) | Arg (off : N).
Inductive instr := MOVQ (src dst : operand) | XORQ (src dst : operand) | ORQ (src dst : operand) | ANDQ (src dst : operand)
  | NOTQ (dst : operand) | ROLQ (k : N) (dst : operand) | NOP | RET.
Record machine := mkMachine { regs : reg -> N; mem : N -> N; args : N -> N }.

Definition address (m : machine) (off : N) (base : reg) : N := (regs m base + off) mod 2 ^ 64.
Definition read (m : machine) (o : operand) : N :=
  match o with Reg r => regs m r | Mem off b => mem m (address m off b) | Imm v => v | Arg off => args m off end.
(** Nothing is written to a constant or to the arguments. *)
Definition write (m : machine) (o : operand) (v : N) : machine :=
  match o with
  | Reg r => mkMachine (fun r' => if Nat.eqb (reg_id r') (reg_id r) then v else regs m r') (mem m) (args m)
  | Mem off b => mkMachine (regs m) (fun a => if a =? address m off b then v else mem m a) (args m)
  | Imm _ | Arg _ => m
  end.
(** Words have 64 bits: the complement, and the rotation by the low six bits of the count. *)
Definition not64 (x : N) : N := N.lxor x (2 ^ 64 - 1).
Definition rol64 (x k : N) : N := N.lor (shl64 x (k mod 64)) (N.shiftr x (64 - k mod 64)).
Definition step (i : instr) (m : machine) : machine :=
  match i with
  | MOVQ s d => write m d (read m s)
  | XORQ s d => write m d (N.lxor (read m d) (read m s))
  | ORQ s d => write m d (N.lor (read m d) (read m s))
  | ANDQ s d => write m d (N.land (read m d) (read m s))
  | NOTQ d => write m d (not64 (read m d))
  | ROLQ k d => write m d (rol64 (read m d) k)
  | NOP | RET => m
  end.
Fixpoint run (code : list instr) (m : machine) : machine :=
  match code with [] => m | RET :: _ => m | i :: code' => run code' (step i m) end.

(** keccakf_amd64.s:11-35: the offsets of the lanes. *)
Definition _ba : N := 0 * 8.
Definition _be : N := 1 * 8.
Definition _bi : N := 2 * 8.
Definition _bo : N := 3 * 8.
Definition _bu : N := 4 * 8.
Definition _ga : N := 5 * 8.
Definition _ge : N := 6 * 8.
Definition _gi : N := 7 * 8.
Definition _go : N := 8 * 8.
Definition _gu : N := 9 * 8.
Definition _ka : N := 10 * 8.
Definition _ke : N := 11 * 8.
Definition _ki : N := 12 * 8.
Definition _ko : N := 13 * 8.
Definition _ku : N := 14 * 8.
Definition _ma : N := 15 * 8.
Definition _me : N := 16 * 8.
Definition _mi : N := 17 * 8.
Definition _mo : N := 18 * 8.
Definition _mu : N := 19 * 8.
Definition _sa : N := 20 * 8.
Definition _se : N := 21 * 8.
Definition _si : N := 22 * 8.
Definition _so : N := 23 * 8.
Definition _su : N := 24 * 8.

(** keccakf_amd64.s:38-60: the names of the registers. *)
Definition rT1 : reg := AX.
Definition rpState : reg := DI.
Definition rpStack : reg := SP.
Definition rDa : reg := BX.
Definition rDe : reg := CX.
Definition rDi : reg := DX.
Definition rDo : reg := R8.
Definition rDu : reg := R9.
Definition rBa : reg := R10.
Definition rBe : reg := R11.
Definition rBi : reg := R12.
Definition rBo : reg := R13.
Definition rBu : reg := R14.
Definition rCa : reg := SI.
Definition rCe : reg := BP.
Definition rCi : reg := rBi.
Definition rCo : reg := rBo.
Definition rCu : reg := R15.

(** keccakf_amd64.s:62-69 *)
Definition MOVQ_RBI_RCE : instr := MOVQ (Reg rBi) (Reg rCe).
Definition XORQ_RT1_RCA : instr := XORQ (Reg rT1) (Reg rCa).
Definition XORQ_RT1_RCE : instr := XORQ (Reg rT1) (Reg rCe).
Definition XORQ_RBA_RCU : instr := XORQ (Reg rBa) (Reg rCu).
Definition XORQ_RBE_RCU : instr := XORQ (Reg rBe) (Reg rCu).
Definition XORQ_RDU_RCU : instr := XORQ (Reg rDu) (Reg rCu).
Definition XORQ_RDA_RCA : instr := XORQ (Reg rDa) (Reg rCa).
Definition XORQ_RDE_RCE : instr := XORQ (Reg rDe) (Reg rCe).

(** keccakf_amd64.s:71-320: the macro, one definition for each of the parts its comments name. *)
(** keccakf_amd64.s:72-102 *)
Definition round_prepare (iState : reg) : list instr :=
  [MOVQ (Reg rCe) (Reg rDa); ROLQ 1 (Reg rDa); MOVQ (Mem _bi iState) (Reg rCi); XORQ (Mem _gi iState) (Reg rDi); XORQ (Reg rCu) (Reg rDa);
   XORQ (Mem _ki iState) (Reg rCi); XORQ (Mem _mi iState) (Reg rDi); XORQ (Reg rDi) (Reg rCi); MOVQ (Reg rCi) (Reg rDe); ROLQ 1 (Reg rDe);
   MOVQ (Mem _bo iState) (Reg rCo); XORQ (Mem _go iState) (Reg rDo); XORQ (Reg rCa) (Reg rDe); XORQ (Mem _ko iState) (Reg rCo);
   XORQ (Mem _mo iState) (Reg rDo); XORQ (Reg rDo) (Reg rCo); MOVQ (Reg rCo) (Reg rDi); ROLQ 1 (Reg rDi); MOVQ (Reg rCu) (Reg rDo);
   XORQ (Reg rCe) (Reg rDi); ROLQ 1 (Reg rDo); MOVQ (Reg rCa) (Reg rDu); XORQ (Reg rCi) (Reg rDo); ROLQ 1 (Reg rDu)].
(** keccakf_amd64.s:104-145 *)
Definition round_b (iState : reg) (oState : reg) (rc : N) (B_RBI_RCE : instr) : list instr :=
  [MOVQ (Mem _ba iState) (Reg rBa); MOVQ (Mem _ge iState) (Reg rBe); XORQ (Reg rCo) (Reg rDu); MOVQ (Mem _ki iState) (Reg rBi);
   MOVQ (Mem _mo iState) (Reg rBo); MOVQ (Mem _su iState) (Reg rBu); XORQ (Reg rDe) (Reg rBe); ROLQ 44 (Reg rBe); XORQ (Reg rDi) (Reg rBi);
   XORQ (Reg rDa) (Reg rBa); ROLQ 43 (Reg rBi); MOVQ (Reg rBe) (Reg rCa); MOVQ (Imm rc) (Reg rT1); ORQ (Reg rBi) (Reg rCa); XORQ (Reg rBa) (Reg rT1);
   XORQ (Reg rT1) (Reg rCa); MOVQ (Reg rCa) (Mem _ba oState); XORQ (Reg rDu) (Reg rBu); ROLQ 14 (Reg rBu); MOVQ (Reg rBa) (Reg rCu);
   ANDQ (Reg rBe) (Reg rCu); XORQ (Reg rBu) (Reg rCu); MOVQ (Reg rCu) (Mem _bu oState); XORQ (Reg rDo) (Reg rBo); ROLQ 21 (Reg rBo);
   MOVQ (Reg rBo) (Reg rT1); ANDQ (Reg rBu) (Reg rT1); XORQ (Reg rBi) (Reg rT1); MOVQ (Reg rT1) (Mem _bi oState); NOTQ (Reg rBi);
   ORQ (Reg rBa) (Reg rBu); ORQ (Reg rBo) (Reg rBi); XORQ (Reg rBo) (Reg rBu); XORQ (Reg rBe) (Reg rBi); MOVQ (Reg rBu) (Mem _bo oState);
   MOVQ (Reg rBi) (Mem _be oState); B_RBI_RCE].
(** keccakf_amd64.s:147-188 *)
Definition round_g (iState : reg) (oState : reg) (G_RT1_RCA : instr) (G_RT1_RCE : instr) (G_RBA_RCU : instr) : list instr :=
  [MOVQ (Mem _gu iState) (Reg rBe); XORQ (Reg rDu) (Reg rBe); MOVQ (Mem _ka iState) (Reg rBi); ROLQ 20 (Reg rBe); XORQ (Reg rDa) (Reg rBi);
   ROLQ 3 (Reg rBi); MOVQ (Mem _bo iState) (Reg rBa); MOVQ (Reg rBe) (Reg rT1); ORQ (Reg rBi) (Reg rT1); XORQ (Reg rDo) (Reg rBa);
   MOVQ (Mem _me iState) (Reg rBo); MOVQ (Mem _si iState) (Reg rBu); ROLQ 28 (Reg rBa); XORQ (Reg rBa) (Reg rT1); MOVQ (Reg rT1) (Mem _ga oState);
   G_RT1_RCA; XORQ (Reg rDe) (Reg rBo); ROLQ 45 (Reg rBo); MOVQ (Reg rBi) (Reg rT1); ANDQ (Reg rBo) (Reg rT1); XORQ (Reg rBe) (Reg rT1);
   MOVQ (Reg rT1) (Mem _ge oState); G_RT1_RCE; XORQ (Reg rDi) (Reg rBu); ROLQ 61 (Reg rBu); MOVQ (Reg rBu) (Reg rT1); ORQ (Reg rBa) (Reg rT1);
   XORQ (Reg rBo) (Reg rT1); MOVQ (Reg rT1) (Mem _go oState); ANDQ (Reg rBe) (Reg rBa); XORQ (Reg rBu) (Reg rBa); MOVQ (Reg rBa) (Mem _gu oState);
   NOTQ (Reg rBu); G_RBA_RCU; ORQ (Reg rBu) (Reg rBo); XORQ (Reg rBi) (Reg rBo); MOVQ (Reg rBo) (Mem _gi oState)].
(** keccakf_amd64.s:190-232 *)
Definition round_k (iState : reg) (oState : reg) (K_RT1_RCA : instr) (K_RT1_RCE : instr) (K_RBA_RCU : instr) : list instr :=
  [MOVQ (Mem _be iState) (Reg rBa); MOVQ (Mem _gi iState) (Reg rBe); MOVQ (Mem _ko iState) (Reg rBi); MOVQ (Mem _mu iState) (Reg rBo);
   MOVQ (Mem _sa iState) (Reg rBu); XORQ (Reg rDi) (Reg rBe); ROLQ 6 (Reg rBe); XORQ (Reg rDo) (Reg rBi); ROLQ 25 (Reg rBi);
   MOVQ (Reg rBe) (Reg rT1); ORQ (Reg rBi) (Reg rT1); XORQ (Reg rDe) (Reg rBa); ROLQ 1 (Reg rBa); XORQ (Reg rBa) (Reg rT1);
   MOVQ (Reg rT1) (Mem _ka oState); K_RT1_RCA; XORQ (Reg rDu) (Reg rBo); ROLQ 8 (Reg rBo); MOVQ (Reg rBi) (Reg rT1); ANDQ (Reg rBo) (Reg rT1);
   XORQ (Reg rBe) (Reg rT1); MOVQ (Reg rT1) (Mem _ke oState); K_RT1_RCE; XORQ (Reg rDa) (Reg rBu); ROLQ 18 (Reg rBu); NOTQ (Reg rBo);
   MOVQ (Reg rBo) (Reg rT1); ANDQ (Reg rBu) (Reg rT1); XORQ (Reg rBi) (Reg rT1); MOVQ (Reg rT1) (Mem _ki oState); MOVQ (Reg rBu) (Reg rT1);
   ORQ (Reg rBa) (Reg rT1); XORQ (Reg rBo) (Reg rT1); MOVQ (Reg rT1) (Mem _ko oState); ANDQ (Reg rBe) (Reg rBa); XORQ (Reg rBu) (Reg rBa);
   MOVQ (Reg rBa) (Mem _ku oState); K_RBA_RCU].
(** keccakf_amd64.s:234-275 *)
Definition round_m (iState : reg) (oState : reg) (M_RT1_RCA : instr) (M_RT1_RCE : instr) (M_RBE_RCU : instr) : list instr :=
  [MOVQ (Mem _ga iState) (Reg rBe); XORQ (Reg rDa) (Reg rBe); MOVQ (Mem _ke iState) (Reg rBi); ROLQ 36 (Reg rBe); XORQ (Reg rDe) (Reg rBi);
   MOVQ (Mem _bu iState) (Reg rBa); ROLQ 10 (Reg rBi); MOVQ (Reg rBe) (Reg rT1); MOVQ (Mem _mi iState) (Reg rBo); ANDQ (Reg rBi) (Reg rT1);
   XORQ (Reg rDu) (Reg rBa); MOVQ (Mem _so iState) (Reg rBu); ROLQ 27 (Reg rBa); XORQ (Reg rBa) (Reg rT1); MOVQ (Reg rT1) (Mem _ma oState);
   M_RT1_RCA; XORQ (Reg rDi) (Reg rBo); ROLQ 15 (Reg rBo); MOVQ (Reg rBi) (Reg rT1); ORQ (Reg rBo) (Reg rT1); XORQ (Reg rBe) (Reg rT1);
   MOVQ (Reg rT1) (Mem _me oState); M_RT1_RCE; XORQ (Reg rDo) (Reg rBu); ROLQ 56 (Reg rBu); NOTQ (Reg rBo); MOVQ (Reg rBo) (Reg rT1);
   ORQ (Reg rBu) (Reg rT1); XORQ (Reg rBi) (Reg rT1); MOVQ (Reg rT1) (Mem _mi oState); ORQ (Reg rBa) (Reg rBe); XORQ (Reg rBu) (Reg rBe);
   MOVQ (Reg rBe) (Mem _mu oState); ANDQ (Reg rBa) (Reg rBu); XORQ (Reg rBo) (Reg rBu); MOVQ (Reg rBu) (Mem _mo oState); M_RBE_RCU].
(** keccakf_amd64.s:277-320 *)
Definition round_s (iState : reg) (oState : reg) (S_RDU_RCU : instr) (S_RDA_RCA : instr) (S_RDE_RCE : instr) : list instr :=
  [MOVQ (Mem _bi iState) (Reg rBa); MOVQ (Mem _go iState) (Reg rBe); MOVQ (Mem _ku iState) (Reg rBi); XORQ (Reg rDi) (Reg rBa);
   MOVQ (Mem _ma iState) (Reg rBo); ROLQ 62 (Reg rBa); XORQ (Reg rDo) (Reg rBe); MOVQ (Mem _se iState) (Reg rBu); ROLQ 55 (Reg rBe);
   XORQ (Reg rDu) (Reg rBi); MOVQ (Reg rBa) (Reg rDu); XORQ (Reg rDe) (Reg rBu); ROLQ 2 (Reg rBu); ANDQ (Reg rBe) (Reg rDu);
   XORQ (Reg rBu) (Reg rDu); MOVQ (Reg rDu) (Mem _su oState); ROLQ 39 (Reg rBi); S_RDU_RCU; NOTQ (Reg rBe); XORQ (Reg rDa) (Reg rBo);
   MOVQ (Reg rBe) (Reg rDa); ANDQ (Reg rBi) (Reg rDa); XORQ (Reg rBa) (Reg rDa); MOVQ (Reg rDa) (Mem _sa oState); S_RDA_RCA; ROLQ 41 (Reg rBo);
   MOVQ (Reg rBi) (Reg rDe); ORQ (Reg rBo) (Reg rDe); XORQ (Reg rBe) (Reg rDe); MOVQ (Reg rDe) (Mem _se oState); S_RDE_RCE; MOVQ (Reg rBo) (Reg rDi);
   MOVQ (Reg rBu) (Reg rDo); ANDQ (Reg rBu) (Reg rDi); ORQ (Reg rBa) (Reg rDo); XORQ (Reg rBi) (Reg rDi); XORQ (Reg rBo) (Reg rDo);
   MOVQ (Reg rDi) (Mem _si oState); MOVQ (Reg rDo) (Mem _so oState)].
Definition mKeccakRound (iState oState : reg) (rc : N) (B_RBI_RCE G_RT1_RCA G_RT1_RCE G_RBA_RCU K_RT1_RCA K_RT1_RCE K_RBA_RCU M_RT1_RCA M_RT1_RCE M_RBE_RCU S_RDU_RCU S_RDA_RCA S_RDE_RCE : instr) : list instr :=
  (round_prepare iState ++ round_b iState oState rc B_RBI_RCE ++ round_g iState oState G_RT1_RCA G_RT1_RCE G_RBA_RCU ++ round_k iState oState K_RT1_RCA K_RT1_RCE K_RBA_RCU ++ round_m iState oState M_RT1_RCA M_RT1_RCE M_RBE_RCU ++ round_s iState oState S_RDU_RCU S_RDA_RCA S_RDE_RCE)%list.

(** keccakf_amd64.s:323: [TEXT keccakF1600, $200-8]: a frame of 200 bytes and an argument of 8. *)
Definition frame_size : N := 200.
(** keccakf_amd64.s:324-355 *)
Definition asm_prologue : list instr :=
  [MOVQ (Arg 0) (Reg rpState); NOTQ (Mem _be rpState); NOTQ (Mem _bi rpState); NOTQ (Mem _go rpState); NOTQ (Mem _ki rpState);
   NOTQ (Mem _mi rpState); NOTQ (Mem _sa rpState); MOVQ (Mem _ba rpState) (Reg rCa); MOVQ (Mem _be rpState) (Reg rCe);
   MOVQ (Mem _bu rpState) (Reg rCu); XORQ (Mem _ga rpState) (Reg rCa); XORQ (Mem _ge rpState) (Reg rCe); XORQ (Mem _gu rpState) (Reg rCu);
   XORQ (Mem _ka rpState) (Reg rCa); XORQ (Mem _ke rpState) (Reg rCe); XORQ (Mem _ku rpState) (Reg rCu); XORQ (Mem _ma rpState) (Reg rCa);
   XORQ (Mem _me rpState) (Reg rCe); XORQ (Mem _mu rpState) (Reg rCu); XORQ (Mem _sa rpState) (Reg rCa); XORQ (Mem _se rpState) (Reg rCe);
   MOVQ (Mem _si rpState) (Reg rDi); MOVQ (Mem _so rpState) (Reg rDo); XORQ (Mem _su rpState) (Reg rCu)].
(** keccakf_amd64.s:357-380 *)
Definition asm_rounds : list instr :=
  (mKeccakRound rpState rpStack 0x0000000000000001 MOVQ_RBI_RCE XORQ_RT1_RCA XORQ_RT1_RCE XORQ_RBA_RCU XORQ_RT1_RCA XORQ_RT1_RCE XORQ_RBA_RCU XORQ_RT1_RCA XORQ_RT1_RCE XORQ_RBE_RCU XORQ_RDU_RCU XORQ_RDA_RCA XORQ_RDE_RCE ++
   mKeccakRound rpStack rpState 0x0000000000008082 MOVQ_RBI_RCE XORQ_RT1_RCA XORQ_RT1_RCE XORQ_RBA_RCU XORQ_RT1_RCA XORQ_RT1_RCE XORQ_RBA_RCU XORQ_RT1_RCA XORQ_RT1_RCE XORQ_RBE_RCU XORQ_RDU_RCU XORQ_RDA_RCA XORQ_RDE_RCE ++
   mKeccakRound rpState rpStack 0x800000000000808a MOVQ_RBI_RCE XORQ_RT1_RCA XORQ_RT1_RCE XORQ_RBA_RCU XORQ_RT1_RCA XORQ_RT1_RCE XORQ_RBA_RCU XORQ_RT1_RCA XORQ_RT1_RCE XORQ_RBE_RCU XORQ_RDU_RCU XORQ_RDA_RCA XORQ_RDE_RCE ++
   mKeccakRound rpStack rpState 0x8000000080008000 MOVQ_RBI_RCE XORQ_RT1_RCA XORQ_RT1_RCE XORQ_RBA_RCU XORQ_RT1_RCA XORQ_RT1_RCE XORQ_RBA_RCU XORQ_RT1_RCA XORQ_RT1_RCE XORQ_RBE_RCU XORQ_RDU_RCU XORQ_RDA_RCA XORQ_RDE_RCE ++
   mKeccakRound rpState rpStack 0x000000000000808b MOVQ_RBI_RCE XORQ_RT1_RCA XORQ_RT1_RCE XORQ_RBA_RCU XORQ_RT1_RCA XORQ_RT1_RCE XORQ_RBA_RCU XORQ_RT1_RCA XORQ_RT1_RCE XORQ_RBE_RCU XORQ_RDU_RCU XORQ_RDA_RCA XORQ_RDE_RCE ++
   mKeccakRound rpStack rpState 0x0000000080000001 MOVQ_RBI_RCE XORQ_RT1_RCA XORQ_RT1_RCE XORQ_RBA_RCU XORQ_RT1_RCA XORQ_RT1_RCE XORQ_RBA_RCU XORQ_RT1_RCA XORQ_RT1_RCE XORQ_RBE_RCU XORQ_RDU_RCU XORQ_RDA_RCA XORQ_RDE_RCE ++
   mKeccakRound rpState rpStack 0x8000000080008081 MOVQ_RBI_RCE XORQ_RT1_RCA XORQ_RT1_RCE XORQ_RBA_RCU XORQ_RT1_RCA XORQ_RT1_RCE XORQ_RBA_RCU XORQ_RT1_RCA XORQ_RT1_RCE XORQ_RBE_RCU XORQ_RDU_RCU XORQ_RDA_RCA XORQ_RDE_RCE ++
   mKeccakRound rpStack rpState 0x8000000000008009 MOVQ_RBI_RCE XORQ_RT1_RCA XORQ_RT1_RCE XORQ_RBA_RCU XORQ_RT1_RCA XORQ_RT1_RCE XORQ_RBA_RCU XORQ_RT1_RCA XORQ_RT1_RCE XORQ_RBE_RCU XORQ_RDU_RCU XORQ_RDA_RCA XORQ_RDE_RCE ++
   mKeccakRound rpState rpStack 0x000000000000008a MOVQ_RBI_RCE XORQ_RT1_RCA XORQ_RT1_RCE XORQ_RBA_RCU XORQ_RT1_RCA XORQ_RT1_RCE XORQ_RBA_RCU XORQ_RT1_RCA XORQ_RT1_RCE XORQ_RBE_RCU XORQ_RDU_RCU XORQ_RDA_RCA XORQ_RDE_RCE ++
   mKeccakRound rpStack rpState 0x0000000000000088 MOVQ_RBI_RCE XORQ_RT1_RCA XORQ_RT1_RCE XORQ_RBA_RCU XORQ_RT1_RCA XORQ_RT1_RCE XORQ_RBA_RCU XORQ_RT1_RCA XORQ_RT1_RCE XORQ_RBE_RCU XORQ_RDU_RCU XORQ_RDA_RCA XORQ_RDE_RCE ++
   mKeccakRound rpState rpStack 0x0000000080008009 MOVQ_RBI_RCE XORQ_RT1_RCA XORQ_RT1_RCE XORQ_RBA_RCU XORQ_RT1_RCA XORQ_RT1_RCE XORQ_RBA_RCU XORQ_RT1_RCA XORQ_RT1_RCE XORQ_RBE_RCU XORQ_RDU_RCU XORQ_RDA_RCA XORQ_RDE_RCE ++
   mKeccakRound rpStack rpState 0x000000008000000a MOVQ_RBI_RCE XORQ_RT1_RCA XORQ_RT1_RCE XORQ_RBA_RCU XORQ_RT1_RCA XORQ_RT1_RCE XORQ_RBA_RCU XORQ_RT1_RCA XORQ_RT1_RCE XORQ_RBE_RCU XORQ_RDU_RCU XORQ_RDA_RCA XORQ_RDE_RCE ++
   mKeccakRound rpState rpStack 0x000000008000808b MOVQ_RBI_RCE XORQ_RT1_RCA XORQ_RT1_RCE XORQ_RBA_RCU XORQ_RT1_RCA XORQ_RT1_RCE XORQ_RBA_RCU XORQ_RT1_RCA XORQ_RT1_RCE XORQ_RBE_RCU XORQ_RDU_RCU XORQ_RDA_RCA XORQ_RDE_RCE ++
   mKeccakRound rpStack rpState 0x800000000000008b MOVQ_RBI_RCE XORQ_RT1_RCA XORQ_RT1_RCE XORQ_RBA_RCU XORQ_RT1_RCA XORQ_RT1_RCE XORQ_RBA_RCU XORQ_RT1_RCA XORQ_RT1_RCE XORQ_RBE_RCU XORQ_RDU_RCU XORQ_RDA_RCA XORQ_RDE_RCE ++
   mKeccakRound rpState rpStack 0x8000000000008089 MOVQ_RBI_RCE XORQ_RT1_RCA XORQ_RT1_RCE XORQ_RBA_RCU XORQ_RT1_RCA XORQ_RT1_RCE XORQ_RBA_RCU XORQ_RT1_RCA XORQ_RT1_RCE XORQ_RBE_RCU XORQ_RDU_RCU XORQ_RDA_RCA XORQ_RDE_RCE ++
   mKeccakRound rpStack rpState 0x8000000000008003 MOVQ_RBI_RCE XORQ_RT1_RCA XORQ_RT1_RCE XORQ_RBA_RCU XORQ_RT1_RCA XORQ_RT1_RCE XORQ_RBA_RCU XORQ_RT1_RCA XORQ_RT1_RCE XORQ_RBE_RCU XORQ_RDU_RCU XORQ_RDA_RCA XORQ_RDE_RCE ++
   mKeccakRound rpState rpStack 0x8000000000008002 MOVQ_RBI_RCE XORQ_RT1_RCA XORQ_RT1_RCE XORQ_RBA_RCU XORQ_RT1_RCA XORQ_RT1_RCE XORQ_RBA_RCU XORQ_RT1_RCA XORQ_RT1_RCE XORQ_RBE_RCU XORQ_RDU_RCU XORQ_RDA_RCA XORQ_RDE_RCE ++
   mKeccakRound rpStack rpState 0x8000000000000080 MOVQ_RBI_RCE XORQ_RT1_RCA XORQ_RT1_RCE XORQ_RBA_RCU XORQ_RT1_RCA XORQ_RT1_RCE XORQ_RBA_RCU XORQ_RT1_RCA XORQ_RT1_RCE XORQ_RBE_RCU XORQ_RDU_RCU XORQ_RDA_RCA XORQ_RDE_RCE ++
   mKeccakRound rpState rpStack 0x000000000000800a MOVQ_RBI_RCE XORQ_RT1_RCA XORQ_RT1_RCE XORQ_RBA_RCU XORQ_RT1_RCA XORQ_RT1_RCE XORQ_RBA_RCU XORQ_RT1_RCA XORQ_RT1_RCE XORQ_RBE_RCU XORQ_RDU_RCU XORQ_RDA_RCA XORQ_RDE_RCE ++
   mKeccakRound rpStack rpState 0x800000008000000a MOVQ_RBI_RCE XORQ_RT1_RCA XORQ_RT1_RCE XORQ_RBA_RCU XORQ_RT1_RCA XORQ_RT1_RCE XORQ_RBA_RCU XORQ_RT1_RCA XORQ_RT1_RCE XORQ_RBE_RCU XORQ_RDU_RCU XORQ_RDA_RCA XORQ_RDE_RCE ++
   mKeccakRound rpState rpStack 0x8000000080008081 MOVQ_RBI_RCE XORQ_RT1_RCA XORQ_RT1_RCE XORQ_RBA_RCU XORQ_RT1_RCA XORQ_RT1_RCE XORQ_RBA_RCU XORQ_RT1_RCA XORQ_RT1_RCE XORQ_RBE_RCU XORQ_RDU_RCU XORQ_RDA_RCA XORQ_RDE_RCE ++
   mKeccakRound rpStack rpState 0x8000000000008080 MOVQ_RBI_RCE XORQ_RT1_RCA XORQ_RT1_RCE XORQ_RBA_RCU XORQ_RT1_RCA XORQ_RT1_RCE XORQ_RBA_RCU XORQ_RT1_RCA XORQ_RT1_RCE XORQ_RBE_RCU XORQ_RDU_RCU XORQ_RDA_RCA XORQ_RDE_RCE ++
   mKeccakRound rpState rpStack 0x0000000080000001 MOVQ_RBI_RCE XORQ_RT1_RCA XORQ_RT1_RCE XORQ_RBA_RCU XORQ_RT1_RCA XORQ_RT1_RCE XORQ_RBA_RCU XORQ_RT1_RCA XORQ_RT1_RCE XORQ_RBE_RCU XORQ_RDU_RCU XORQ_RDA_RCA XORQ_RDE_RCE ++
   mKeccakRound rpStack rpState 0x8000000080008008 NOP NOP NOP NOP NOP NOP NOP NOP NOP NOP NOP NOP NOP)%list.
(** keccakf_amd64.s:383-390 *)
Definition asm_epilogue : list instr :=
  [NOTQ (Mem _be rpState); NOTQ (Mem _bi rpState); NOTQ (Mem _go rpState); NOTQ (Mem _ki rpState); NOTQ (Mem _mi rpState); NOTQ (Mem _sa rpState);
   RET].
Definition keccakF1600_amd64 : list instr := (asm_prologue ++ asm_rounds ++ asm_epilogue)%list.
