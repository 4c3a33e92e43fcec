(** Maps whose keys are signed integers.  C90. *)

From Verif Require Import GoBase SpecNum ProofsBase ModelTools ProofsTools ModelVal ModelJson ModelRegistry ModelDecode ModelEncode ModelBox ModelKey
  ProofsRun SpecScale ProofsReads ProofsScale ProofsEncode ProofsApi PropInts PropSignedKeys.

(** The number a key is shown as: two's complement, but the least number without its sign. *)
Definition seen (n : Z) (b : bytes) : Z := if twos_val b =? - 2 ^ (8 * n - 1) then 2 ^ (8 * n - 1) else twos_val b.
Lemma reads_signed E c n b : In n [2; 4; 8; 16; 32] -> blen b = n -> ReadE E c (CIntFixed n) b (VBig (seen n b)) [].
Proof.
  intros Hn Hb. eapply ReadE_next; [reflexivity|now rewrite Hb|]. cbv beta. unfold seen.
  assert (LB : List.length b = Z.to_nat n) by (unfold blen in Hb; lia).
  rewrite ReverseBytes_even by (rewrite LB; now apply even_width). rewrite U256_hex.
  assert (Pn : 2 <= n) by (cbn in Hn; lia).
  destruct (rev b) as [|x l] eqn:RV.
  { apply (f_equal (@List.length ascii)) in RV. rewrite rev_length in RV. cbn [List.length] in RV. lia. }
  rewrite <- RV, rev_involutive. unfold twos_val. fold (blen b). rewrite Hb. cbv zeta.
  pose proof (le_val_range b) as V. rewrite LB, pow_256_nat, Z2Nat.id in V by lia.
  assert (PW : 2 ^ (8 * n) = 2 * 2 ^ (8 * n - 1)) by (rewrite <- Z.pow_succ_r by lia; f_equal; lia).
  assert (PP : 0 < 2 ^ (8 * n - 1)) by (apply Z.pow_pos_nonneg; lia).
  rewrite PW in *. set (H := 2 ^ (8 * n - 1)) in *. clearbody H.
  do 2 f_equal. destruct (Z.ltb_spec H (le_val b)), (Z.ltb_spec (le_val b) H); destruct (Z.eqb_spec (le_val b) (- H)) as [Q|Q];
    try destruct (Z.eqb_spec (le_val b - 2 * H) (- H)) as [Q2|Q2]; lia.
Qed.
Lemma seen_inj n b1 b2 : 2 <= n -> blen b1 = n -> blen b2 = n -> seen n b1 = seen n b2 -> b1 = b2.
Proof.
  intros Pn L1 L2 H.
  assert (N1 : List.length b1 = Z.to_nat n) by (unfold blen in L1; lia). assert (N2 : List.length b2 = Z.to_nat n) by (unfold blen in L2; lia).
  apply le_val_inj; [congruence|]. unfold seen, twos_val in H. fold (blen b1) (blen b2) in H. rewrite L1, L2 in H. cbv zeta in H.
  pose proof (le_val_range b1) as V1. pose proof (le_val_range b2) as V2. rewrite N1, pow_256_nat, Z2Nat.id in V1 by lia. rewrite N2, pow_256_nat, Z2Nat.id in V2 by lia.
  assert (PW : 2 ^ (8 * n) = 2 * 2 ^ (8 * n - 1)) by (rewrite <- Z.pow_succ_r by lia; f_equal; lia).
  set (p := 2 ^ (8 * n - 1)) in *. rewrite PW in *. clearbody p. clear PW.
  destruct (Z.ltb_spec (le_val b1) p), (Z.ltb_spec (le_val b2) p); cbv iota in H;
  repeat match type of H with context [if ?a =? ?b then _ else _] => destruct (Z.eqb_spec a b) end; lia.
Qed.

Record srow := SRow { s_key : bytes; s_bytes : bytes; s_val : val }.
Definition srows_ok (E : env) (c : ctx) (n : Z) (tv : string) (l : list srow) : Prop :=
  Forall (fun r => blen (s_key r) = n /\ exists cs, scale false E c tv (s_bytes r) (s_val r) cs) l.
Definition srows_bytes (l : list srow) : bytes := (compact (Z.of_nat (List.length l)) ++ List.concat (map (fun r => s_key r ++ s_bytes r) l))%list.
Definition srows_val (n : Z) (l : list srow) : list val := map (fun r => VMap [(itoa (seen n (s_key r)), s_val r)]) l.
Lemma srows_seq E c tk tv n l : std_env E -> writes_big E -> resolves E c tk (CIntFixed n) -> In n [2; 4; 8; 16; 32] -> srows_ok E c n tv l ->
  exists gs cs, SeqE E c (List.concat (repeat [tk; tv] (List.length l))) (List.concat (map (fun r => s_key r ++ s_bytes r)%list l)) gs cs /\ entries E gs (srows_val n l).
Proof.
  intros STD W R I. destruct (scale_decodes false E STD) as (D & _). induction 1 as [|r l (K & cv & V) _ (gs & cs & Sq & N)]; [exists [], []; split; [apply SeqE_nil|constructor]|].
  exists (VBig (seen n (s_key r)) :: s_val r :: gs), ([] ++ (cv ++ cs))%list. cbn [List.length repeat List.concat map app]. split.
  - rewrite <- app_assoc. change (cv ++ cs)%list with ([] ++ (cv ++ cs))%list. apply SeqE_cons; [eapply DecE_reads; [exact R|now apply reads_signed]|]. apply SeqE_cons; [now apply D|exact Sq].
  - unfold srows_val. cbn [map]. rewrite <- (W (seen n (s_key r))). now constructor.
Qed.
(** A map from signed integers decodes to its entries in order, each under the
    numeral of its key, and no two key bytes have one numeral. *)
Theorem C90_signed_map E c ts sub tk tv n : std_env E -> writes_big E -> resolves E c ts (CBTreeMap sub) -> split_char ","%char sub = [tk; tv] ->
  resolves E c tk (CIntFixed n) -> In n [2; 4; 8; 16; 32] -> forall l, srows_ok E c n tv l -> Z.of_nat (List.length l) <= 1000 ->
  (forall pre tl, blen (pre ++ srows_bytes l ++ tl) < 2 ^ 63 ->
    exists cs, Decodes E c (pre ++ srows_bytes l ++ tl) (blen pre) ts (Ok (slice_of (srows_val n l), blen pre + blen (srows_bytes l), cs)))
  /\ (forall l2, srows_ok E c n tv l2 -> srows_val n l = srows_val n l2 -> map s_key l = map s_key l2)
  /\ (NoDup (map s_key l) -> NoDup (map (fun r => itoa (seen n (s_key r))) l)).
Proof.
  intros STD W R SP RK I l O L. assert (Pn : 2 <= n) by (cbn in I; lia). split; [|split].
  - intros pre tl B. destruct (srows_seq E c tk tv n l STD W RK I O) as (gs & cs & [f Sq] & N). exists cs. eapply (Decodes_reads E c ts _ (S f)); [exact R| |exact B].
    cbn [process]. apply reads_len; [exact STD|lia|]. replace (1000 <? Z.of_nat (List.length l)) with false by (symmetry; lia). rewrite Nat2Z.id. cbv zeta.
    eapply (reads_btreemap E (S f) c sub tk tv (List.length l) SP _ gs cs (srows_val n l)) with (acc := []); [|exact N]. eapply seqdec_mono; [apply decode_mono_S|exact Sq].
  - clear L. induction O as [|r l (K & _) _ IH]; intros [|r2 l2] O2 H; try discriminate H; [reflexivity|]. unfold srows_val in H. cbn [map] in H |- *.
    inversion O2 as [|? ? (K2 & _) O2']; subst. assert (H1 : itoa (seen (blen (s_key r)) (s_key r)) = itoa (seen (blen (s_key r)) (s_key r2))) by congruence.
    assert (H2 : srows_val (blen (s_key r)) l = srows_val (blen (s_key r)) l2) by (unfold srows_val; congruence).
    f_equal; [|now apply IH]. apply (seen_inj (blen (s_key r))); [assumption|reflexivity|assumption|]. now apply itoa_inj.
  - clear L. induction O as [|r l (K & _) O IH]; intros ND; [constructor|]. cbn [map] in *. inversion ND as [|? ? NI ND']; subst. constructor; [|now apply IH].
    intros X. apply NI. apply in_map_iff in X. destruct X as (r2 & Q & I2). apply itoa_inj in Q. unfold srows_ok in O. rewrite Forall_forall in O. destruct (O r2 I2) as (K2 & _).
    apply seen_inj in Q; [|assumption|assumption|reflexivity]. rewrite <- Q. now apply in_map.
Qed.
(** -2 and -32768 as keys. *)
Definition sint_env : env := Env [("btreemap", CBTreeMap ""); ("bytes", CBytes); ("null", CNull); ("u8", CU8); ("i16", CIntFixed 2); ("compact<u32>", CCompactU32)] [] json_key (fun b => b) json_box.
Definition int_rows : list srow := [SRow (map Zb [254; 255]) [Zb 1] (VInt 1); SRow (map Zb [0; 128]) [Zb 2] (VInt 2)].
Example C90_signed_map_case : let c := Ctx 5 "" None in std_env sint_env /\ writes_big sint_env /\ resolves sint_env c "BTreeMap<i16,u8>" (CBTreeMap "i16,u8") /\ split_char ","%char "i16,u8" = ["i16"; "u8"]
  /\ resolves sint_env c "i16" (CIntFixed 2) /\ srows_ok sint_env c 2 "u8" int_rows /\ srows_bytes int_rows = map Zb [8; 254; 255; 1; 0; 128; 2]
  /\ slice_of (srows_val 2 int_rows) = VSlice [VMap [("-2", VInt 1)]; VMap [("32768", VInt 2)]] /\ NoDup (map s_key int_rows).
Proof.
  cbv zeta. split; [intros k cd H; cbn [In] in H; destruct H as [[= <- <-]|[[= <- <-]|[[= <- <-]|[]]]]; now split|].
  split; [intros z; reflexivity|]. split; [eexists; exists "i16,u8"; split; vm_compute; reflexivity|]. split; [reflexivity|]. split; [eexists; exists ""; split; vm_compute; reflexivity|].
  split; [|split; [vm_compute; reflexivity|split; [vm_compute; reflexivity|]]].
  - assert (U : forall z, 0 <= z < 2 ^ 8 -> scale false sint_env (Ctx 5 "" None) "u8" (le_bytes 1 z) (VInt z) []).
    { intros z Hz. econstructor; [exists CU8, ""; split; vm_compute; reflexivity|discriminate|]. now constructor. }
    constructor; [|constructor; [|constructor]]; (split; [reflexivity|exists []]); [apply (U 1)|apply (U 2)]; lia.
  - repeat constructor; cbn [In]; intros H; [destruct H as [H|[]]; discriminate H|exact H].
Qed.
Print Assumptions C90_signed_map.
