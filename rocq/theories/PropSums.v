(** The hash functions in one call, and Reset.  C92. *)

From Verif Require Import GoBase ProofsBase ModelTools SpecKeccak ModelKeccak ModelSponge SpecSponge PropKeccak PropSponge ModelSums.

Local Open Scope nat_scope.

(** ** FIPS 202, section 6 *)
(** SHA3 with a digest of [n] bytes has a capacity of twice that; SHAKE of
    strength [s] bits has a capacity of 2s bits.  The suffixes 01 and 1111 with the
    first bit of the padding are the bytes 06 and 1f. *)
Definition sha3 (n : nat) (m : bytes) : bytes := keccak (200 - 2 * n) "006" n m.
Definition shake (s : nat) (n : nat) (m : bytes) : bytes := keccak (200 - 2 * s / 8) "031" n m.

Lemma keccak_length r ds n m : List.length (keccak r ds n m) = n.
Proof. unfold keccak, digest. now rewrite map_length, seq_length. Qed.
Lemma sum_into_keccak k n ds m : 1 <= k <= 21 -> sum_into n (new_sponge (8 * k) n ds) m = Ok (keccak (8 * k) ds n m).
Proof.
  intros K. assert (R : 8 * k = 8 * k /\ 1 <= k <= 21) by now split.
  destruct (write_fed keccakF1600 keccak_bytes keccak_bytes_flat k _ n ds R _ [] m (fed_new keccak_bytes k _ n ds R)) as (d & W & F). unfold sum_into. rewrite W. cbn [bind].
  rewrite (sum_fed keccakF1600 keccak_bytes keccak_bytes_flat k _ n ds R d _ [] F). cbn [bind app]. fold (keccak (8 * k) ds n m). unfold append_into.
  rewrite keccak_length, Nat.leb_refl, Nat.sub_diag. cbn [repeat]. now rewrite app_nil_r.
Qed.
Theorem C92_sums m : Sum224 m = Ok (sha3 28 m) /\ Sum256 m = Ok (sha3 32 m) /\ Sum384 m = Ok (sha3 48 m) /\ Sum512 m = Ok (sha3 64 m).
Proof.
  split; [exact (sum_into_keccak 18 28 "006" m ltac:(lia))|]. split; [exact (sum_into_keccak 17 32 "006" m ltac:(lia))|].
  split; [exact (sum_into_keccak 13 48 "006" m ltac:(lia))|]. exact (sum_into_keccak 9 64 "006" m ltac:(lia)).
Qed.
(** The hash functions fed in pieces: every Sum is the digest of what was
    written since the start or the last Reset.  Keccak as Ethereum uses it has no
    suffix, so the byte is 01.  For SHAKE Sum has no bytes: outputLen is not set. *)
Fixpoint answers (h : bytes -> bytes) (m : bytes) (l : list op) : list bytes :=
  match l with
  | [] => []
  | OWrite b :: l' => answers h (m ++ b)%list l'
  | OSum pre :: l' => (pre ++ h m)%list :: answers h m l'
  | OReset :: l' => answers h [] l'
  end.
Definition plain_keccak (n : nat) (m : bytes) : bytes := keccak (200 - 2 * n) "001" n m.
Theorem C92_streams d h l :
  In (d, h) [(NewKeccak256, plain_keccak 32); (NewKeccak512, plain_keccak 64); (New224, sha3 28); (New256, sha3 32); (New384, sha3 48); (New512, sha3 64); (NewShake128, shake 128 0); (NewShake256, shake 256 0)] ->
  run_ops keccakF1600 d l = Ok (answers h [] l).
Proof.
  assert (A : forall r n ds l m, spec_ops keccak_bytes r n ds m l = answers (fun m => keccak r ds n m) m l).
  { clear. intros r n ds l. induction l as [|[b|pre|] l IH]; intros m; cbn [spec_ops answers]; [reflexivity|apply IH| |apply IH]. rewrite IH. reflexivity. }
  intros I. rewrite (C44_history d l).
  - rewrite A. cbn [In] in I. repeat match type of I with _ \/ _ => destruct I as [I|I] end; try contradiction; injection I as <- <-; reflexivity.
  - cbn [In] in I |- *. repeat match type of I with _ \/ _ => destruct I as [I|I] end; try contradiction; injection I as <- _; tauto.
Qed.
Example C92_streams_case : run_ops keccakF1600 NewKeccak512 [OWrite (s2b "a"); OReset; OSum (s2b "x")] =
  Ok [(s2b "x" ++ HexToBytes "0eab42de4c3ceb9235fc91acffe746b29c29a8c366b7c60e4e67c466f36a4304c00fa9caf9d87976ba469bcbe06713b435f091ef2769fb160cdab33d3670680e")%list].
Proof. vm_compute. reflexivity. Qed.
Theorem C92_shake n m : ShakeSum128 n m = Ok (shake 128 n m) /\ ShakeSum256 n m = Ok (shake 256 n m).
Proof.
  split.
  - destruct (C50_reads NewShake128 [m] n [] ltac:(cbn; tauto)) as (d1 & bs & d2 & W & R & C & _). cbn [write_all] in W. unfold ShakeSum128.
    destruct (Write keccakF1600 NewShake128 m) as [d| |]; try discriminate W. cbn [bind write_all] in *. injection W as ->. cbn [read_all] in R. destruct (Read keccakF1600 d1 n) as [b d3]. injection R as <- <-.
    cbn [List.concat fst] in *. rewrite !app_nil_r in C. rewrite C. change (list_sum [n]) with (n + 0). now rewrite Nat.add_0_r.
  - destruct (C50_reads NewShake256 [m] n [] ltac:(cbn; tauto)) as (d1 & bs & d2 & W & R & C & _). cbn [write_all] in W. unfold ShakeSum256.
    destruct (Write keccakF1600 NewShake256 m) as [d| |]; try discriminate W. cbn [bind write_all] in *. injection W as ->. cbn [read_all] in R. destruct (Read keccakF1600 d1 n) as [b d3]. injection R as <- <-.
    cbn [List.concat fst] in *. rewrite !app_nil_r in C. rewrite C. change (list_sum [n]) with (n + 0). now rewrite Nat.add_0_r.
Qed.
(** The digests of "abc" published with the standard. *)
Example C92_case : Sum256 (s2b "abc") = Ok (HexToBytes "3a985da74fe225b2045c172d6bd390bd855f086e3e9d525b46bfe24511431532")
  /\ ShakeSum128 4 (s2b "abc") = Ok (HexToBytes "5881092d").
Proof. split; vm_compute; reflexivity. Qed.

(** ** Reset *)
Lemma read_loop_keeps f : forall d q, let d' := snd (read_loop keccakF1600 f d q) in sp_rate d' = sp_rate d /\ sp_ds d' = sp_ds d /\ sp_outlen d' = sp_outlen d.
Proof.
  induction f as [|f IH]; intros d q; cbn [read_loop]; [repeat split|]. destruct q as [|q]; [repeat split|].
  set (k := Nat.min (S q) (sp_hi d - sp_lo d)). set (d1 := Sponge _ _ _ _ _ _ _ _). cbv zeta.
  set (d2 := if Nat.eqb (sp_hi d1 - sp_lo d1) 0 then permute keccakF1600 d1 else d1).
  assert (X : sp_rate d2 = sp_rate d /\ sp_ds d2 = sp_ds d /\ sp_outlen d2 = sp_outlen d).
  { unfold d2. destruct (Nat.eqb _ 0); [|repeat split]. unfold permute. destruct (sp_squeezing d1); repeat split. }
  specialize (IH d2 (S q - k)). cbv zeta in IH. destruct (read_loop keccakF1600 f d2 (S q - k)) as [b d3]. cbn [snd] in *. destruct IH as (-> & -> & ->). exact X.
Qed.
Lemma read_keeps d q : let d' := snd (Read keccakF1600 d q) in sp_rate d' = sp_rate d /\ sp_ds d' = sp_ds d /\ sp_outlen d' = sp_outlen d.
Proof.
  unfold Read. cbv zeta. pose proof (read_loop_keeps q (if sp_squeezing d then d else padAndPermute keccakF1600 d) q) as K. cbv zeta in K. destruct K as (-> & -> & ->).
  destruct (sp_squeezing d); [repeat split|]. unfold padAndPermute. repeat split.
Qed.
(** Whatever was written and read before, after Reset the hash is as new. *)
Theorem C92_reset d ws q l : In d [NewKeccak256; NewKeccak512; New224; New256; New384; New512; NewShake128; NewShake256] ->
  exists d1 b d2, write_all keccakF1600 d ws = Ok d1 /\ Read keccakF1600 d1 q = (b, d2) /\ run_ops keccakF1600 (Reset d2) l = run_ops keccakF1600 d l.
Proof.
  intros H. rewrite (C44_history d l H). assert (X : exists k r n ds, d = new_sponge r n ds /\ r = 8 * k /\ 1 <= k <= 21).
  { repeat destruct H as [<-|H]; try contradiction; [exists 17|exists 9|exists 18|exists 17|exists 13|exists 9|exists 21|exists 17]; eexists _, _, _; (split; [reflexivity|]); lia. }
  destruct X as (k & r & n & ds & -> & R). cbn [sp_rate sp_ds sp_outlen new_sponge].
  destruct (write_all_fed keccakF1600 keccak_bytes keccak_bytes_flat k r n ds R ws _ [] (fed_new keccak_bytes k r n ds R)) as (d1 & E1 & H1). cbn [app] in H1.
  destruct (read_fed keccakF1600 keccak_bytes keccak_bytes_flat k r n ds R d1 _ q H1) as (d2 & E2 & D2).
  eexists d1, _, d2. split; [exact E1|]. split; [exact E2|]. apply (history keccakF1600 keccak_bytes k r n ds keccak_bytes_flat R).
  pose proof (read_keeps d1 q) as K. cbv zeta in K. rewrite E2 in K. cbn [snd] in K. destruct K as (K1 & K2 & K3).
  destruct H1 as (bs & rest & _ & _ & _ & _ & _ & _ & HR & HD & HN & _). destruct D2 as (_ & _ & _ & _ & HS & _).
  destruct (fed_new keccak_bytes k r n ds R) as (bs0 & rest0 & A1 & A2 & A3 & A4 & A5 & A6 & A7 & A8 & A9 & A10 & A11 & A12 & A13).
  exists [], []. cbn [List.concat app List.length Reset sp_squeezing sp_lo sp_hi sp_rate sp_ds sp_outlen sp_storage sp_a].
  repeat split; trivial; try congruence; try (destruct R; lia).
  apply Forall_forall. intros x I. apply repeat_spec in I. now subst.
Qed.
Example C92_reset_case : exists d1 b d2, write_all keccakF1600 New256 [s2b "xyz"] = Ok d1 /\ Read keccakF1600 d1 7 = (b, d2)
  /\ run_ops keccakF1600 (Reset d2) [OWrite (s2b "abc"); OSum []] = Ok [HexToBytes "3a985da74fe225b2045c172d6bd390bd855f086e3e9d525b46bfe24511431532"].
Proof. eexists _, _, _. split; [reflexivity|]. split; [reflexivity|]. vm_compute. reflexivity. Qed.
Print Assumptions C92_sums.
Print Assumptions C92_shake.
Print Assumptions C92_reset.
Print Assumptions C92_streams.
