(** C42, the exported functions: each has the halves its name says. *)
From Verif Require Import GoBase SpecNum ProofsBase ModelTools ModelVal ModelFixPoint PropFixPoint.

(** [v / 2^n] cut to [precision] binary places, for every number of the width. *)
Theorem C42_named c e precision : 0 <= precision <= 16 -> let v := dec_int c e in
  (- 2 ^ 31 < v < 2 ^ 32 -> exists c' q, ParseI16F16 c e precision = Ok (c', - q) /\ 0 <= q /\ c' * 2 ^ precision = cut v 16 precision * 10 ^ q)
  /\ (- 2 ^ 63 < v < 2 ^ 64 -> exists c' q, ParseI32F32 c e precision = Ok (c', - q) /\ 0 <= q /\ c' * 2 ^ precision = cut v 32 precision * 10 ^ q)
  /\ (- 2 ^ 127 < v < 2 ^ 128 -> exists c' q, ParseI64F64 c e precision = Ok (c', - q) /\ 0 <= q /\ c' * 2 ^ precision = cut v 64 precision * 10 ^ q).
Proof.
  intros P v. assert (M : forall l, 16 <= l -> Z.min precision l = precision) by (intros l H; lia). split; [|split]; intros V.
  - pose proof (C42_sixteen c e precision 16 16) as S. cbv zeta in S. rewrite (M 16) in S by lia. change (16 + 16) with 32 in S. change (32 - 1) with 31 in S. apply S; first [lia|exact V|cbn; tauto].
  - pose proof (C42_sixteen c e precision 32 32) as S. cbv zeta in S. rewrite (M 32) in S by lia. change (32 + 32) with 64 in S. change (64 - 1) with 63 in S. apply S; first [lia|exact V|cbn; tauto].
  - pose proof (C42_sixteen c e precision 64 64) as S. cbv zeta in S. rewrite (M 64) in S by lia. change (64 + 64) with 128 in S. change (128 - 1) with 127 in S. apply S; first [lia|exact V|cbn; tauto].
Qed.
(** Numbers too wide for the function are given back as they are. *)
Theorem C42_named_outside c e precision :
  (2 ^ 32 <= dec_int c e \/ dec_int c e <= - 2 ^ 31 -> ParseI16F16 c e precision = Ok (c, e))
  /\ (2 ^ 64 <= dec_int c e \/ dec_int c e <= - 2 ^ 63 -> ParseI32F32 c e precision = Ok (c, e))
  /\ (2 ^ 128 <= dec_int c e \/ dec_int c e <= - 2 ^ 127 -> ParseI64F64 c e precision = Ok (c, e)).
Proof.
  split; [|split]; intros H; [apply (C42_outside c e precision 16 16)|apply (C42_outside c e precision 32 32)|apply (C42_outside c e precision 64 64)]; (exact H || (cbn; tauto)).
Qed.
Example C42_named_case : ParseI16F16 98304 0 9 = Ok (15, -1) /\ ParseI32F32 98304 0 16 = Ok (152587890625, -16) /\ ParseI16F16 (2 ^ 40) 0 9 = Ok (2 ^ 40, 0).
Proof. repeat split; vm_compute; reflexivity. Qed.
Print Assumptions C42_named.
Print Assumptions C42_named_outside.
