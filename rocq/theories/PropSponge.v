(** C44 and C50: writing and reading in pieces. *)

From Verif Require Import GoBase ProofsBase ModelTools SpecKeccak ModelKeccak ModelSponge SpecSponge PropKeccak.

Local Open Scope nat_scope.

(** ** Words and bytes *)
Definition flat (a : list N) : bytes := List.concat (map put64 a).
Lemma put64_length n : List.length (put64 n) = 8.
Proof. reflexivity. Qed.
Lemma flat_length a : List.length (flat a) = 8 * List.length a.
Proof. unfold flat. induction a as [|x a IH]; [reflexivity|]. cbn [map List.concat]. rewrite app_length, IH, put64_length. cbn [List.length]. lia. Qed.
Lemma byte_bits c i : (8 <= i)%N -> N.testbit (N_of_ascii c) i = false.
Proof. intros H. destruct (N.eq_dec (N_of_ascii c) 0) as [E|E]; [rewrite E; apply N.bits_0|]. apply N.bits_above_log2. pose proof (N_ascii_bounded c) as B.
  assert (N.log2 (N_of_ascii c) < 8)%N; [|lia]. apply N.log2_lt_pow2; [lia|exact B]. Qed.
Lemma le64_cons c b : (List.length b < 8)%nat -> le64 (c :: b) = (N_of_ascii c + 256 * le64 b)%N.
Proof. intros H. unfold le64. rewrite !firstn_all2 by (cbn [List.length]; lia). reflexivity. Qed.
(** Byte [i] of a word read from bytes. *)
Lemma le64_byte b i : (List.length b <= 8)%nat -> (N.shiftr (le64 b) (8 * N.of_nat i) mod 256)%N = N_of_ascii (nth i b "000"%char).
Proof.
  revert i. induction b as [|c b IH]; intros i H; [rewrite N.shiftr_0_l; destruct i; reflexivity|]. cbn [List.length] in H. rewrite le64_cons by lia.
  pose proof (N_ascii_bounded c) as B. destruct i as [|i].
  - rewrite N.shiftr_0_r. cbn [nth]. rewrite N.add_comm, N.mul_comm, N.add_comm, N.mod_add, N.mod_small by lia. reflexivity.
  - replace (8 * N.of_nat (S i))%N with (8 + 8 * N.of_nat i)%N by lia. rewrite <- N.shiftr_shiftr. rewrite (N.shiftr_div_pow2 _ 8). change (2 ^ 8)%N with 256%N.
    rewrite (N.mul_comm 256), N.div_add, (N.div_small (N_of_ascii c)) by lia. cbn [nth]. apply IH. lia.
Qed.
Lemma shiftr_mod_lxor x y k : (N.shiftr (N.lxor x y) k mod 256 = N.lxor (N.shiftr x k mod 256) (N.shiftr y k mod 256))%N.
Proof.
  apply N.bits_inj. intros i. rewrite N.lxor_spec. change 256%N with (2 ^ 8)%N. destruct (N.lt_ge_cases i 8) as [H|H].
  - rewrite !N.mod_pow2_bits_low by exact H. now rewrite N.shiftr_lxor, N.lxor_spec.
  - now rewrite !N.mod_pow2_bits_high by exact H.
Qed.
Lemma put_xor x b : List.length b = 8 -> put64 (N.lxor x (le64 b)) = xor_into (put64 x) b.
Proof.
  intros H. destruct b as [|b0 [|b1 [|b2 [|b3 [|b4 [|b5 [|b6 [|b7 [|? ?]]]]]]]]]; try discriminate H.
  set (b := [b0; b1; b2; b3; b4; b5; b6; b7]) in *.
  assert (P : forall i, ascii_of_N (N.shiftr (N.lxor x (le64 b)) (8 * N.of_nat i) mod 256) = xor_byte (ascii_of_N (N.shiftr x (8 * N.of_nat i) mod 256)) (nth i b "000"%char)).
  { intros i. rewrite shiftr_mod_lxor, le64_byte by (rewrite H; lia). unfold xor_byte. rewrite N_ascii_embedding; [reflexivity|]. apply N.mod_lt. discriminate. }
  unfold put64. cbn [map]. 
  change 0%N with (N.of_nat 0). change 1%N with (N.of_nat 1). change 2%N with (N.of_nat 2). change 3%N with (N.of_nat 3). change 4%N with (N.of_nat 4).
  change 5%N with (N.of_nat 5). change 6%N with (N.of_nat 6). change 7%N with (N.of_nat 7). rewrite !P. reflexivity.
Qed.
Lemma le64_firstn b : le64 (firstn 8 b) = le64 b.
Proof. unfold le64. rewrite firstn_firstn. reflexivity. Qed.
Lemma xor_into_nil s : xor_into s [] = s.
Proof. destruct s; reflexivity. Qed.
Lemma xor_into_app s1 : forall b1 s2 b2, List.length s1 = List.length b1 -> xor_into (s1 ++ s2) (b1 ++ b2) = (xor_into s1 b1 ++ xor_into s2 b2)%list.
Proof. induction s1 as [|x s1 IH]; intros [|y b1] s2 b2 H; try discriminate H; [reflexivity|]. cbn [app xor_into]. f_equal. apply IH. now injection H. Qed.
Lemma xor_into_length s : forall b, List.length (xor_into s b) = List.length s.
Proof. induction s as [|x s IH]; intros [|y b]; cbn [xor_into List.length]; trivial. now rewrite IH. Qed.
(** xorIn adds the block to the bytes of the state. *)
Lemma xorIn_flat a : forall k b, List.length b = 8 * k -> k <= List.length a -> flat (xorInGeneric a b) = xor_into (flat a) b.
Proof.
  induction a as [|x a IH]; intros k b H K; cbn [xorInGeneric]; [reflexivity|]. destruct k as [|k].
  - destruct b; [|discriminate H]. cbn. reflexivity.
  - rewrite (proj2 (Nat.leb_le 8 (List.length b))) by lia. unfold flat. cbn [map List.concat]. fold (flat (xorInGeneric a (skipn 8 b))). fold (flat a).
    rewrite (IH k) by (rewrite ?skipn_length; cbn [List.length] in K; lia). rewrite <- (le64_firstn b), put_xor by (rewrite firstn_length; lia).
    rewrite <- (firstn_skipn 8 b) at 3. rewrite xor_into_app by (rewrite put64_length, firstn_length; lia). reflexivity.
Qed.
Lemma xorIn_length a : forall b, List.length (xorInGeneric a b) = List.length a.
Proof. induction a as [|x a IH]; intros b; cbn [xorInGeneric]; [reflexivity|]. destruct (Nat.leb 8 (List.length b)); [cbn [List.length]; now rewrite IH|reflexivity]. Qed.
Lemma word_le64 b : word (le64 b).
Proof.
  apply word_lt. assert (B : forall l, (List.length l <= 8)%nat -> (fold_right (fun c n => N_of_ascii c + 256 * n) 0 l < 256 ^ N.of_nat (List.length l))%N).
  { induction l as [|c l IH]; intros H; [reflexivity|]. cbn [fold_right List.length] in *. specialize (IH ltac:(lia)). pose proof (N_ascii_bounded c).
    rewrite Nat2N.inj_succ, N.pow_succ_r'. lia. }
  unfold le64. eapply N.lt_le_trans; [apply B; rewrite firstn_length; lia|]. change (2 ^ 64)%N with (256 ^ 8)%N. apply N.pow_le_mono_r; [discriminate|]. rewrite firstn_length. lia.
Qed.
Lemma xorIn_good a b : good_list a -> good_list (xorInGeneric a b).
Proof.
  intros [L G]. split; [now rewrite xorIn_length|]. clear L. revert b. induction G as [|x a W _ IH]; intros b; cbn [xorInGeneric]; [constructor|].
  destruct (Nat.leb 8 (List.length b)); constructor; trivial; [|apply Forall_forall; intros y Hy]. 
  - apply word_lt, word_lxor; [now apply word_lt|apply word_le64].
  - specialize (IH []). assert (X : xorInGeneric a [] = a) by (destruct a; reflexivity). rewrite X, Forall_forall in IH. now apply IH.
Qed.
Lemma copyOut_flat a : forall k b, List.length b = 8 * k -> k <= List.length a -> copyOutGeneric a b = firstn (8 * k) (flat a).
Proof.
  induction a as [|x a IH]; intros k b H K; cbn [copyOutGeneric].
  - assert (k = 0) by (cbn in K; lia). subst k. destruct b; [reflexivity|discriminate H].
  - destruct k as [|k]; [destruct b; [reflexivity|discriminate H]|]. rewrite (proj2 (Nat.leb_le 8 (List.length b))) by lia.
    rewrite (IH k) by (rewrite ?skipn_length; cbn [List.length] in K; lia). unfold flat. cbn [map List.concat]. fold (flat a).
    replace (8 * S k) with (List.length (put64 x) + 8 * k) by (rewrite put64_length; lia). now rewrite firstn_app_2.
Qed.

(** ** Cutting *)
Lemma cut_concat r : 0 < r -> forall bs fuel, Forall (fun b => List.length b = r) bs -> List.length (List.concat bs) <= fuel -> cut fuel r (List.concat bs) = bs.
Proof.
  intros R. induction bs as [|b bs IH]; intros fuel A L; [destruct fuel; reflexivity|]. inversion A as [|? ? H A']; subst.
  cbn [List.concat] in *. rewrite app_length in L. destruct fuel as [|fuel]; [lia|]. cbn [cut].
  destruct (b ++ List.concat bs)%list as [|y l] eqn:Y; [destruct b; [cbn in R; lia|discriminate Y]|]. rewrite <- Y.
  rewrite firstn_app, Nat.sub_diag, firstn_all, firstn_O, app_nil_r. rewrite skipn_app, Nat.sub_diag, skipn_all. cbn [app skipn]. f_equal. apply IH; [exact A'|lia].
Qed.
Lemma concat_length (bs : list bytes) r : Forall (fun b => List.length b = r) bs -> List.length (List.concat bs) = r * List.length bs.
Proof. induction 1 as [|b bs H _ IH]; [cbn; lia|]. cbn [List.concat List.length]. rewrite app_length, IH, H. lia. Qed.

Section Pieces.
Variable perm : list N -> list N.
Variable F : bytes -> bytes.
Hypothesis perm_F : forall a, good_list a -> good_list (perm a) /\ F (flat a) = flat (perm a).
Variables (k r n : nat) (ds : ascii).
Hypothesis rate : r = 8 * k /\ 1 <= k <= 21.

Notation zero := (repeat "000"%char 200).
(** [d] has been given [m] and nothing has been read. *)
Definition fed (d : sponge) (m : bytes) : Prop :=
  exists bs rest, m = (List.concat bs ++ rest)%list /\ Forall (fun b => List.length b = r) bs /\ List.length rest < r
  /\ sp_squeezing d = false /\ sp_lo d = 0 /\ sp_hi d = List.length rest /\ sp_rate d = r /\ sp_ds d = ds /\ sp_outlen d = n
  /\ List.length (sp_storage d) = 168 /\ firstn (List.length rest) (sp_storage d) = rest
  /\ good_list (sp_a d) /\ flat (sp_a d) = fold_left (absorb F) bs zero.
(** The state squeezed has given up [i] bytes. *)
Definition drained (d : sponge) (S0 : bytes) (i : nat) : Prop :=
  sp_squeezing d = true /\ sp_lo d = i mod r /\ sp_hi d = r /\ sp_rate d = r /\ List.length (sp_storage d) = 168
  /\ firstn r (sp_storage d) = firstn r (flat (sp_a d)) /\ good_list (sp_a d) /\ flat (sp_a d) = Nat.iter (i / r) F S0.

Lemma fed_new : fed (new_sponge r n ds) [].
Proof.
  exists [], []. cbn [List.concat app List.length]. repeat split; trivial; try (destruct rate; cbn; lia). apply Forall_forall. intros x H. apply repeat_spec in H. now subst.
Qed.
Lemma fed_reset d m : fed d m -> fed (Reset d) [].
Proof.
  intros (bs & rest & _ & _ & _ & _ & _ & _ & HR & HD & HN & HS & _). exists [], []. cbn [List.concat app List.length Reset sp_squeezing sp_lo sp_hi sp_rate sp_ds sp_outlen sp_storage sp_a].
  repeat split; trivial; try (destruct rate; cbn; lia). apply Forall_forall. intros x H. apply repeat_spec in H. now subst.
Qed.
Lemma set_length st i b : i + List.length b <= List.length st -> List.length (set_bytes st i b) = List.length st.
Proof. intros H. unfold set_bytes. rewrite !app_length, firstn_length, skipn_length. lia. Qed.
Lemma set_prefix st i b : i + List.length b <= List.length st -> firstn (i + List.length b) (set_bytes st i b) = (firstn i st ++ b)%list.
Proof.
  intros H. unfold set_bytes. rewrite app_assoc. rewrite firstn_app. rewrite app_length, firstn_length. replace (i + List.length b - (Nat.min i (List.length st) + List.length b)) with 0 by lia.
  rewrite firstn_O, app_nil_r. apply firstn_all2. rewrite app_length, firstn_length. lia.
Qed.
Lemma fed_block a bs b : good_list a -> flat a = fold_left (absorb F) bs zero -> List.length b = r ->
  good_list (perm (xorInGeneric a b)) /\ flat (perm (xorInGeneric a b)) = fold_left (absorb F) (bs ++ [b])%list zero.
Proof.
  intros G E L. destruct (perm_F _ (xorIn_good a b G)) as [G' E']. split; [exact G'|]. rewrite <- E', (xorIn_flat a k) by (destruct rate, G; lia).
  rewrite fold_left_app. cbn [fold_left]. rewrite <- E. reflexivity.
Qed.
Lemma fed_write p : forall fuel d m, List.length p <= fuel -> fed d m -> fed (write_loop perm fuel d p) (m ++ p)%list.
Proof.
  assert (G : forall fuel p d m, List.length p <= fuel -> fed d m -> fed (write_loop perm fuel d p) (m ++ p)%list); [|intros; now apply G]. clear p.
  induction fuel as [|fuel IH]; intros p d m L H; [destruct p; [rewrite app_nil_r; exact H|cbn in L; lia]|].
  destruct p as [|c p]; [rewrite app_nil_r; exact H|]. cbn [write_loop]. set (q := c :: p) in *. assert (Q : 0 < List.length q) by (cbn; lia). clearbody q. clear c p.
  destruct H as (bs & rest & -> & HB & HL & SQ & LO & HI & HR & HD & HN & HS & HF & HG & HA). rewrite LO, HI, HR, Nat.sub_0_r.
  destruct (Nat.eqb (List.length rest) 0 && Nat.leb r (List.length q))%bool eqn:Fast.
  - apply andb_prop in Fast as [Z Lq]. apply Nat.eqb_eq in Z. apply Nat.leb_le in Lq. destruct rest; [|discriminate Z]. rewrite app_nil_r.
    replace (List.concat bs ++ q)%list with ((List.concat bs ++ firstn r q) ++ skipn r q)%list by (now rewrite <- app_assoc, firstn_skipn). apply IH; [rewrite skipn_length; destruct rate; lia|].
    assert (L1 : List.length (firstn r q) = r) by (rewrite firstn_length; lia).
    destruct (fed_block (sp_a d) bs (firstn r q) HG HA L1) as [G1 E1].
    exists (bs ++ [firstn r q])%list, []. cbn [sp_squeezing sp_lo sp_hi sp_rate sp_ds sp_outlen sp_storage sp_a]. rewrite concat_app. cbn [List.concat]. rewrite !app_nil_r.
    split; [reflexivity|]. split; [apply Forall_app; split; [exact HB|now constructor]|]. repeat (split; [first [assumption|reflexivity|destruct rate; cbn; lia]|]). exact E1.
  - set (todo := Nat.min (r - List.length rest) (List.length q)). assert (T : 0 < todo) by (unfold todo; lia). assert (T1 : todo <= List.length q) by (unfold todo; lia).
    assert (T2 : List.length rest + todo <= r) by (unfold todo; lia).
    replace ((List.concat bs ++ rest) ++ q)%list with (((List.concat bs ++ rest) ++ firstn todo q) ++ skipn todo q)%list by (now rewrite <- app_assoc, firstn_skipn). apply IH; [rewrite skipn_length; lia|].
    assert (LT : List.length (firstn todo q) = todo) by (rewrite firstn_length; lia).
    assert (R168 : r <= 168) by (destruct rate; lia).
    set (st := set_bytes (sp_storage d) (List.length rest) (firstn todo q)).
    assert (LS : List.length st = 168) by (unfold st; rewrite set_length; lia).
    assert (PS : firstn (List.length rest + todo) st = (rest ++ firstn todo q)%list).
    { unfold st. rewrite <- LT at 1. rewrite set_prefix by lia. now rewrite HF. }
    cbn [sp_hi sp_lo]. rewrite Nat.sub_0_r. destruct (Nat.eqb_spec (List.length rest + todo) r) as [Full|Part].
    + unfold permute. cbn [sp_squeezing sp_a sp_rate sp_ds sp_storage sp_outlen]. rewrite SQ. unfold sp_buf. cbn [sp_lo sp_hi sp_storage skipn]. rewrite Nat.sub_0_r, PS.
      assert (L1 : List.length (rest ++ firstn todo q)%list = r) by (rewrite app_length; lia).
      destruct (fed_block (sp_a d) bs _ HG HA L1) as [G1 E1].
      exists (bs ++ [rest ++ firstn todo q])%list, []. cbn [sp_squeezing sp_lo sp_hi sp_rate sp_ds sp_outlen sp_storage sp_a]. rewrite concat_app. cbn [List.concat]. rewrite !app_nil_r, app_assoc.
      split; [reflexivity|]. split; [apply Forall_app; split; [exact HB|now constructor]|]. repeat (split; [first [assumption|reflexivity|destruct rate; cbn; lia]|]). exact E1.
    + exists bs, (rest ++ firstn todo q)%list. cbn [sp_squeezing sp_lo sp_hi sp_rate sp_ds sp_outlen sp_storage sp_a]. rewrite app_length, LT. rewrite app_assoc.
      repeat (split; [first [assumption|reflexivity|lia]|]). exact HA.
Qed.
Lemma write_fed d m p : fed d m -> exists d', Write perm d p = Ok d' /\ fed d' (m ++ p)%list.
Proof.
  intros H. assert (SQ : sp_squeezing d = false) by (destruct H as (bs & rest & _ & _ & _ & SQ & _); exact SQ).
  unfold Write. rewrite SQ. eexists. split; [reflexivity|]. now apply fed_write.
Qed.

(** *** Padding *)
Lemma copy_out_ok d a : sp_rate d = r -> List.length (sp_storage d) = 168 -> List.length a = 25 ->
  List.length (copy_out d a) = 168 /\ firstn r (copy_out d a) = firstn r (flat a).
Proof.
  intros HR HS L. destruct rate as [R K]. unfold copy_out. rewrite HR, (copyOut_flat a k) by (rewrite ?firstn_length; lia). rewrite <- R.
  assert (X : List.length (firstn r (flat a)) = r) by (rewrite firstn_length, flat_length; lia). split.
  - rewrite set_length; rewrite ?X; lia.
  - rewrite <- X at 1. change (List.length (firstn r (flat a))) with (0 + List.length (firstn r (flat a))). rewrite set_prefix; [reflexivity|]. rewrite X. lia.
Qed.
Lemma firstn_shorter {A} i j (l m : list A) : i <= j -> firstn j l = m -> firstn i l = firstn i m.
Proof. intros H <-. rewrite firstn_firstn. f_equal. lia. Qed.
Lemma pad_storage st rest : List.length st = 168 -> List.length rest < r -> firstn (List.length rest) st = rest ->
  let L := List.length rest in
  let st := set_bytes st L [ds] in
  let st := set_bytes st (S L) (repeat "000"%char (r - S L)) in
  let st := set_bytes st (r - 1) [xor80 (nth (r - 1) st "000"%char)] in
  List.length st = 168 /\ firstn r st = (rest ++ padding r ds L)%list.
Proof.
  intros HS HL HF. cbv zeta. destruct rate as [R K]. set (L := List.length rest) in *.
  set (st1 := set_bytes st L [ds]). assert (L1 : List.length st1 = 168) by (unfold st1; rewrite set_length; cbn; lia).
  assert (P1 : firstn (S L) st1 = (rest ++ [ds])%list).
  { replace (S L) with (L + List.length [ds]) by (cbn; lia). unfold st1. rewrite set_prefix by (cbn; lia). now rewrite HF. }
  set (z := repeat "000"%char (r - S L)). assert (LZ : List.length z = r - S L) by apply repeat_length.
  set (st2 := set_bytes st1 (S L) z). assert (L2 : List.length st2 = 168) by (unfold st2; rewrite set_length; lia).
  assert (P2 : firstn r st2 = (rest ++ ds :: z)%list).
  { replace r with (S L + List.length z) by lia. unfold st2. rewrite set_prefix by lia. rewrite P1, <- app_assoc. reflexivity. }
  assert (N2 : nth (r - 1) st2 "000"%char = nth (r - 1 - L) (ds :: z) "000"%char).
  { rewrite <- (firstn_skipn r st2), app_nth1 by (rewrite firstn_length; lia). rewrite P2, app_nth2 by lia. reflexivity. }
  split; [rewrite set_length; cbn [List.length]; lia|].
  replace r with (r - 1 + List.length [xor80 (nth (r - 1) st2 "000"%char)]) at 1 by (cbn [List.length]; lia). rewrite set_prefix by (cbn [List.length]; lia).
  rewrite (firstn_shorter (r - 1) r _ _ ltac:(lia) P2), N2. unfold padding. rewrite (Nat.mod_small L r HL).
  destruct (Nat.eqb_spec (r - L) 1) as [Q|Q].
  - replace (r - 1) with (List.length rest) by (fold L; lia). rewrite firstn_app, Nat.sub_diag, firstn_all, firstn_O, app_nil_r. fold L. rewrite Nat.sub_diag. reflexivity.
  - assert (Z2 : z = (repeat "000"%char (r - L - 2) ++ ["000"%char])%list).
    { unfold z. replace (r - S L) with (r - L - 2 + 1) by lia. now rewrite repeat_app. }
    rewrite Z2. replace (r - 1) with (List.length rest + S (List.length (repeat "000"%char (r - L - 2)))) at 1 by (rewrite repeat_length; fold L; lia).
    rewrite firstn_app_2. change (ds :: (repeat "000"%char (r - L - 2) ++ ["000"%char])%list) with ((ds :: repeat "000"%char (r - L - 2)) ++ ["000"%char])%list.
    change (S (List.length (repeat "000"%char (r - L - 2)))) with (List.length (ds :: repeat "000"%char (r - L - 2))). rewrite firstn_app, Nat.sub_diag, firstn_all, firstn_O, app_nil_r.
    rewrite app_nth2 by (cbn [List.length]; rewrite repeat_length; lia). cbn [List.length]. rewrite repeat_length. replace (r - 1 - L - S (r - L - 2)) with 0 by lia. cbn [nth].
    rewrite <- app_assoc. reflexivity.
Qed.
Lemma padding_length L : L < r -> List.length (padding r ds L) = r - L.
Proof.
  intros H. unfold padding. rewrite Nat.mod_small by exact H. destruct (Nat.eqb_spec (r - L) 1) as [->|]; [reflexivity|]. cbn [List.length]. rewrite app_length, repeat_length. cbn [List.length]. lia.
Qed.
Lemma padding_mod j L : L < r -> padding r ds (r * j + L) = padding r ds L.
Proof. intros H. unfold padding. rewrite (Nat.add_comm (r * j)), (Nat.mul_comm r), Nat.mod_add by lia. reflexivity. Qed.
Lemma pad_drained d m : fed d m -> drained (padAndPermute perm d) (absorbed F r ds m) 0 /\ sp_outlen (padAndPermute perm d) = n.
Proof.
  intros (bs & rest & -> & HB & HL & SQ & LO & HI & HR & HD & HN & HS & HF & HG & HA).
  pose proof (pad_storage (sp_storage d) rest HS HL HF) as P. cbv zeta in P. destruct P as [PL PP].
  unfold padAndPermute. cbv zeta. rewrite LO, HI, HR, HD, HN, Nat.sub_0_r. revert PL PP. generalize (set_bytes (set_bytes (set_bytes (sp_storage d) (List.length rest) [ds]) (S (List.length rest)) (repeat "000"%char (r - S (List.length rest)))) (r - 1)
    [xor80 (nth (r - 1) (set_bytes (set_bytes (sp_storage d) (List.length rest) [ds]) (S (List.length rest)) (repeat "000"%char (r - S (List.length rest)))) "000"%char)]).
  intros st PL PP. unfold permute. cbn [sp_squeezing sp_a sp_rate sp_ds sp_storage sp_outlen]. rewrite SQ. cbn [sp_a]. unfold sp_buf. cbn [sp_lo sp_hi sp_storage skipn]. rewrite Nat.sub_0_r, PP.
  set (b := (rest ++ padding r ds (List.length rest))%list). assert (LB : List.length b = r) by (unfold b; rewrite app_length, padding_length; lia).
  destruct (fed_block (sp_a d) bs b HG HA LB) as [G1 E1]. split; [|reflexivity].
  assert (R0 : 0 < r) by (destruct rate; lia). unfold drained. cbn [sp_squeezing sp_lo sp_hi sp_rate sp_a sp_storage].
  set (d1 := Sponge (perm (xorInGeneric (sp_a d) b)) 0 0 r ds st n false).
  destruct (copy_out_ok d1 (perm (xorInGeneric (sp_a d) b)) eq_refl PL (proj1 G1)) as [C1 C2].
  rewrite Nat.mod_0_l, Nat.div_0_l by lia. repeat (split; [first [reflexivity|assumption]|]). rewrite E1. cbn [Nat.iter]. unfold absorbed.
  cbv zeta. rewrite (app_length (List.concat bs) rest), (concat_length bs r HB), padding_mod by exact HL.
  replace ((List.concat bs ++ rest) ++ padding r ds (List.length rest))%list with (List.concat (bs ++ [b])%list) by (rewrite concat_app; cbn [List.concat]; unfold b; now rewrite app_nil_r, <- !app_assoc).
  change (fold_left (absorb F) (bs ++ [b])%list zero = fold_left (absorb F) (cut (List.length (List.concat (bs ++ [b])%list)) r (List.concat (bs ++ [b])%list)) zero).
  f_equal. symmetry. apply cut_concat; [exact R0|apply Forall_app; split; [exact HB|now constructor]|lia].
Qed.

(** *** Reading *)
Lemma step_div i j : i mod r + j < r -> (i + j) / r = i / r /\ (i + j) mod r = i mod r + j.
Proof.
  intros H. assert (R0 : r <> 0) by (destruct rate; lia). pose proof (Nat.div_mod i r R0) as D. split; symmetry.
  - apply (Nat.div_unique (i + j) r (i / r) (i mod r + j)); [exact H|lia].
  - apply (Nat.mod_unique (i + j) r (i / r) (i mod r + j)); [exact H|lia].
Qed.
Lemma wrap_div i j : i mod r + j = r -> (i + j) / r = S (i / r) /\ (i + j) mod r = 0.
Proof.
  intros H. assert (R0 : r <> 0) by (destruct rate; lia). pose proof (Nat.div_mod i r R0) as D. split; symmetry.
  - apply (Nat.div_unique (i + j) r (S (i / r)) 0); lia.
  - apply (Nat.mod_unique (i + j) r (S (i / r)) 0); lia.
Qed.
Lemma nth_ext_bytes (a b : bytes) : List.length a = List.length b -> (forall j, j < List.length a -> nth j a "000"%char = nth j b "000"%char) -> a = b.
Proof. intros L H. apply (nth_ext a b "000"%char "000"%char L H). Qed.
Lemma nth_firstn (l : bytes) j m : j < m -> nth j (firstn m l) "000"%char = nth j l "000"%char.
Proof. revert l m. induction j as [|j IH]; intros [|x l] [|m] H; try lia; try reflexivity. cbn. apply IH. lia. Qed.
Lemma nth_skipn (l : bytes) j m : nth j (skipn m l) "000"%char = nth (m + j) l "000"%char.
Proof. revert m. induction l as [|x l IH]; intros [|m]; try reflexivity; [destruct j; reflexivity|]. cbn. apply IH. Qed.
Lemma read_drained S0 : forall fuel q d i, q <= fuel -> drained d S0 i -> exists d', read_loop perm fuel d q = (map (squeezed F r S0) (seq i q), d') /\ drained d' S0 (i + q).
Proof.
  assert (R0 : r <> 0) by (destruct rate; lia). assert (R1 : r <= 168) by (destruct rate; lia). induction fuel as [|fuel IH]; intros q d i L H.
  { assert (q = 0) by lia. subst q. exists d. rewrite Nat.add_0_r. now split. }
  destruct q as [|q]; [exists d; rewrite Nat.add_0_r; now split|]. cbn [read_loop]. set (w := S q) in *. assert (W : 0 < w) by (unfold w; lia). clearbody w. clear q.
  destruct H as (SQ & LO & HI & HR & HS & HP & HG & HE). pose proof (Nat.mod_upper_bound i r R0) as M. rewrite HI, LO.
  set (j := Nat.min w (r - i mod r)). assert (J : 0 < j) by (unfold j; lia). assert (J1 : j <= w) by (unfold j; lia). assert (J2 : i mod r + j <= r) by (unfold j; lia).
  assert (B : firstn j (sp_buf d) = map (squeezed F r S0) (seq i j)).
  { unfold sp_buf. rewrite HI, LO. apply nth_ext_bytes; [rewrite map_length, seq_length, !firstn_length, skipn_length; lia|]. intros u Hu.
    rewrite firstn_length in Hu. assert (U : u < j) by lia. rewrite nth_firstn by exact U. rewrite nth_firstn, nth_skipn by lia.
    rewrite (nth_indep (map (squeezed F r S0) (seq i j)) "000"%char (squeezed F r S0 0)) by (rewrite map_length, seq_length; exact U). rewrite map_nth, seq_nth by exact U. unfold squeezed.
    destruct (step_div i u ltac:(lia)) as [-> ->]. rewrite <- HE. rewrite <- (nth_firstn (sp_storage d) _ r) by lia. rewrite HP. apply nth_firstn. lia. }
  rewrite B. cbn [sp_hi sp_lo].
  assert (D : drained (if Nat.eqb (r - (i mod r + j)) 0 then permute perm (Sponge (sp_a d) (i mod r + j) r (sp_rate d) (sp_ds d) (sp_storage d) (sp_outlen d) (sp_squeezing d))
                       else Sponge (sp_a d) (i mod r + j) r (sp_rate d) (sp_ds d) (sp_storage d) (sp_outlen d) (sp_squeezing d)) S0 (i + j)).
  { destruct (Nat.eqb_spec (r - (i mod r + j)) 0) as [Z|Z].
    - destruct (wrap_div i j ltac:(lia)) as [Q1 Q2]. unfold permute. cbn [sp_squeezing sp_a sp_rate sp_ds sp_outlen]. rewrite SQ. destruct (perm_F _ HG) as [G1 E1].
      destruct (copy_out_ok (Sponge (sp_a d) (i mod r + j) r (sp_rate d) (sp_ds d) (sp_storage d) (sp_outlen d) true) (perm (sp_a d)) HR HS (proj1 G1)) as [C1 C2].
      unfold drained. cbn [sp_squeezing sp_lo sp_hi sp_rate sp_a sp_storage]. rewrite Q1, Q2, HR. rewrite HR in C1, C2. repeat (split; [first [reflexivity|assumption]|]). cbn [Nat.iter]. now rewrite <- E1, HE.
    - destruct (step_div i j ltac:(lia)) as [Q1 Q2]. unfold drained. cbn [sp_squeezing sp_lo sp_hi sp_rate sp_a sp_storage]. rewrite Q1, Q2. repeat (split; [first [reflexivity|assumption]|]). exact HE. }
  destruct (IH (w - j) _ (i + j) ltac:(lia) D) as (d' & E & D'). exists d'. rewrite E. split.
  - rewrite <- map_app, <- seq_app. replace (j + (w - j)) with w by lia. reflexivity.
  - now replace (i + w) with (i + j + (w - j)) by lia.
Qed.
Lemma clone_fed d m : fed d m -> exists d', clone d = Ok d' /\ fed d' m.
Proof.
  intros (bs & rest & H0 & HB & HL & SQ & LO & HI & HR & HD & HN & HS & HF & HG & HA). unfold clone. rewrite SQ, LO, HI, Nat.sub_0_r. eexists. split; [reflexivity|].
  exists bs, rest. cbn [sp_squeezing sp_lo sp_hi sp_rate sp_ds sp_outlen sp_storage sp_a]. repeat (split; [first [reflexivity|assumption]|]). exact HA.
Qed.
Lemma read_fed d m q : fed d m -> exists d', Read perm d q = (digest F r ds m 0 q, d') /\ drained d' (absorbed F r ds m) q.
Proof.
  intros H. unfold Read. assert (SQ : sp_squeezing d = false) by (destruct H as (bs & rest & _ & _ & _ & SQ & _); exact SQ). rewrite SQ.
  destruct (pad_drained d m H) as [D _]. exact (read_drained _ q q _ 0 (le_n q) D).
Qed.
Lemma sum_fed d m pre : fed d m -> Sum perm d pre = Ok (pre ++ digest F r ds m 0 n)%list.
Proof.
  intros H. unfold Sum. destruct (clone_fed d m H) as (d' & -> & H'). cbn [bind]. assert (HN : sp_outlen d' = n) by (destruct H' as (bs & rest & H'); tauto). rewrite HN.
  destruct (read_fed d' m n H') as (d2 & -> & _). reflexivity.
Qed.
Lemma write_all_fed l : forall d m, fed d m -> exists d', write_all perm d l = Ok d' /\ fed d' (m ++ List.concat l)%list.
Proof.
  induction l as [|b l IH]; intros d m H; cbn [write_all List.concat]; [exists d; rewrite app_nil_r; now split|].
  destruct (write_fed d m b H) as (d1 & -> & H1). cbn [bind]. destruct (IH d1 _ H1) as (d2 & E & H2). exists d2. rewrite app_assoc. now split.
Qed.
End Pieces.

(** ** The permutation on bytes *)
Lemma ascii_bits a b : (forall j, (j < 8)%N -> N.testbit (N_of_ascii a) j = N.testbit (N_of_ascii b) j) -> a = b.
Proof.
  intros H. rewrite <- (ascii_N_embedding a), <- (ascii_N_embedding b). f_equal. apply N.bits_inj. intros j.
  destruct (N.lt_ge_cases j 8) as [L|L]; [now apply H|]. now rewrite !byte_bits.
Qed.
Lemma ascii_testbit b0 b1 b2 b3 b4 b5 b6 b7 j : (j < 8)%N -> N.testbit (N_of_ascii (Ascii b0 b1 b2 b3 b4 b5 b6 b7)) j = nth (N.to_nat j) [b0; b1; b2; b3; b4; b5; b6; b7] false.
Proof.
  intros H. assert (C : (j = 0 \/ j = 1 \/ j = 2 \/ j = 3 \/ j = 4 \/ j = 5 \/ j = 6 \/ j = 7)%N) by lia.
  destruct C as [->|[->|[->|[->|[->|[->|[->| ->]]]]]]]; destruct b0, b1, b2, b3, b4, b5, b6, b7; reflexivity.
Qed.
Lemma nth_flat a : forall p q, q < 8 -> nth (8 * p + q) (flat a) "000"%char = ascii_of_N (N.shiftr (nth p a 0%N) (8 * N.of_nat q) mod 256).
Proof.
  assert (Z : forall q, "000"%char = ascii_of_N (N.shiftr 0 (8 * N.of_nat q) mod 256)) by (intros q; now rewrite N.shiftr_0_l).
  induction a as [|x a IH]; intros p q Q.
  - replace (nth p [] 0%N) with 0%N by (destruct p; reflexivity). rewrite <- Z. destruct (8 * p + q); reflexivity.
  - unfold flat. cbn [map List.concat]. fold (flat a). destruct p as [|p].
    + rewrite app_nth1 by (rewrite put64_length; lia). cbn [nth Nat.mul Nat.add]. do 8 (destruct q as [|q]; [reflexivity|]). lia.
    + rewrite app_nth2 by (rewrite put64_length; lia). rewrite put64_length. replace (8 * S p + q - 8) with (8 * p + q) by lia. now apply IH.
Qed.
Lemma state_flat a x y z : z < 64 -> state_of_bytes (flat a) x y z = N.testbit (nth (x + 5 * y) a 0%N) (N.of_nat z).
Proof.
  intros H. unfold state_of_bytes. assert (D : z / 8 < 8) by (apply Nat.div_lt_upper_bound; lia). rewrite nth_flat by exact D.
  rewrite N_ascii_embedding by (apply N.mod_lt; discriminate). change 256%N with (2 ^ 8)%N. pose proof (Nat.mod_upper_bound z 8 ltac:(lia)) as M.
  rewrite N.mod_pow2_bits_low by lia. rewrite N.shiftr_spec by lia. f_equal. pose proof (Nat.div_mod z 8 ltac:(lia)). lia.
Qed.
Lemma keccak_bytes_flat a : good_list a -> good_list (keccakF1600 a) /\ keccak_bytes (flat a) = flat (keccakF1600 a).
Proof.
  intros [L G]. destruct (C49_permutation a L G) as (L' & G' & B). split; [now split|].
  assert (A : forall x y z, x < 5 -> y < 5 -> z < 64 -> keccak_f (state_of_bytes (flat a)) x y z = N.testbit (nth (x + 5 * y) (keccakF1600 a) 0%N) (N.of_nat z)).
  { intros x y z Hx Hy Hz. rewrite B by assumption. unfold keccak_f. apply rounds_agree; trivial. intros x' y' z' _ _ Hz'. now apply state_flat. }
  apply nth_ext_bytes; [unfold keccak_bytes; rewrite map_length, seq_length, flat_length; lia|]. unfold keccak_bytes at 1. rewrite map_length, seq_length. intros i Hi.
  unfold keccak_bytes. rewrite (nth_indep _ "000"%char (byte_of_state (keccak_f (state_of_bytes (flat a))) 0)) by (rewrite map_length, seq_length; exact Hi).
  rewrite map_nth, seq_nth by exact Hi. cbn [Nat.add]. unfold byte_of_state. cbv zeta.
  pose proof (Nat.mod_upper_bound i 8 ltac:(lia)) as M. pose proof (Nat.div_mod i 8 ltac:(lia)) as D. pose proof (Nat.mod_upper_bound (i / 8) 5 ltac:(lia)) as M2. pose proof (Nat.div_mod (i / 8) 5 ltac:(lia)) as D2.
  assert (Y : i / 8 / 5 < 5) by (apply Nat.div_lt_upper_bound; [lia|]; apply Nat.div_lt_upper_bound; lia).
  rewrite !A by lia. replace (i / 8 mod 5 + 5 * (i / 8 / 5)) with (i / 8) by lia. replace (nth i (flat (keccakF1600 a)) "000"%char) with (nth (8 * (i / 8) + i mod 8) (flat (keccakF1600 a)) "000"%char) by now rewrite <- D. rewrite nth_flat by exact M.
  apply ascii_bits. intros j Hj. rewrite ascii_testbit by exact Hj. rewrite N_ascii_embedding by (apply N.mod_lt; discriminate). change 256%N with (2 ^ 8)%N. rewrite N.mod_pow2_bits_low by exact Hj.
  rewrite N.shiftr_spec by lia. set (w := nth (i / 8) (keccakF1600 a) 0%N). clearbody w.
  assert (C : (j = 0 \/ j = 1 \/ j = 2 \/ j = 3 \/ j = 4 \/ j = 5 \/ j = 6 \/ j = 7)%N) by lia.
  destruct C as [->|[->|[->|[->|[->|[->|[->| ->]]]]]]]; (match goal with |- nth ?e _ _ = _ => let v := eval vm_compute in e in change e with v end); cbn [nth]; apply (f_equal (N.testbit w)); clear; generalize (i mod 8); intros v; lia.
Qed.

(** ** C44 *)
Inductive op := OWrite (b : bytes) | OSum (pre : bytes) | OReset.
(** The digests a sequence of calls on one hash object returns: by the code, *)
Fixpoint run_ops (perm : list N -> list N) (d : sponge) (l : list op) : res (list bytes) :=
  match l with
  | [] => Ok []
  | OWrite b :: l' => d' <- Write perm d b ;; run_ops perm d' l'
  | OSum pre :: l' => h <- Sum perm d pre ;; t <- run_ops perm d l' ;; Ok (h :: t)
  | OReset :: l' => run_ops perm (Reset d) l'
  end.
(** and by the construction, given the message so far. *)
Fixpoint spec_ops (F : bytes -> bytes) (r n : nat) (ds : ascii) (m : bytes) (l : list op) : list bytes :=
  match l with
  | [] => []
  | OWrite b :: l' => spec_ops F r n ds (m ++ b)%list l'
  | OSum pre :: l' => (pre ++ digest F r ds m 0 n)%list :: spec_ops F r n ds m l'
  | OReset :: l' => spec_ops F r n ds [] l'
  end.
Lemma history perm F k r n ds : (forall a, good_list a -> good_list (perm a) /\ F (flat a) = flat (perm a)) -> r = 8 * k /\ 1 <= k <= 21 ->
  forall l d m, fed F r n ds d m -> run_ops perm d l = Ok (spec_ops F r n ds m l).
Proof.
  intros P R. induction l as [|[b|pre|] l IH]; intros d m H; cbn [run_ops spec_ops]; [reflexivity| | |].
  - destruct (write_fed perm F P k r n ds R d m b H) as (d' & -> & H'). cbn [bind]. now apply IH.
  - rewrite (sum_fed perm F P k r n ds R d m pre H). cbn [bind]. rewrite (IH d m H). reflexivity.
  - apply IH. apply (fed_reset F k r n ds R d m H).
Qed.
(** For every permutation: [F] is what it does to the state seen as bytes. *)
Theorem C44_any_permutation perm F k n ds l : (forall a, good_list a -> good_list (perm a) /\ F (flat a) = flat (perm a)) -> 1 <= k <= 21 ->
  run_ops perm (new_sponge (8 * k) n ds) l = Ok (spec_ops F (8 * k) n ds [] l).
Proof. intros P K. apply (history perm F k); trivial; [now split|]. apply (fed_new F k); now split. Qed.
(** For the hash functions of the package. *)
Theorem C44_history d l : In d [NewKeccak256; NewKeccak512; New224; New256; New384; New512; NewShake128; NewShake256] ->
  run_ops keccakF1600 d l = Ok (spec_ops keccak_bytes (sp_rate d) (sp_outlen d) (sp_ds d) [] l).
Proof.
  intros H. repeat destruct H as [<-|H]; try contradiction;
    [apply (C44_any_permutation keccakF1600 keccak_bytes 17)|apply (C44_any_permutation keccakF1600 keccak_bytes 9)|apply (C44_any_permutation keccakF1600 keccak_bytes 18)
    |apply (C44_any_permutation keccakF1600 keccak_bytes 17)|apply (C44_any_permutation keccakF1600 keccak_bytes 13)|apply (C44_any_permutation keccakF1600 keccak_bytes 9)
    |apply (C44_any_permutation keccakF1600 keccak_bytes 21)|apply (C44_any_permutation keccakF1600 keccak_bytes 17)]; try exact keccak_bytes_flat; lia.
Qed.
(** Keccak256 of any pieces is the digest of their concatenation. *)
Theorem C44_pieces l : Keccak256 l = Ok (keccak 136 "001" 32 (List.concat l)).
Proof.
  unfold Keccak256. assert (R : 136 = 8 * 17 /\ 1 <= 17 <= 21) by lia.
  destruct (write_all_fed keccakF1600 keccak_bytes keccak_bytes_flat 17 136 32 "001" R l NewKeccak256 [] (fed_new keccak_bytes 17 136 32 "001" R)) as (d & -> & H).
  cbn [bind]. exact (sum_fed keccakF1600 keccak_bytes keccak_bytes_flat 17 136 32 "001" R d _ [] H).
Qed.
Example C44_case : Keccak256 [s2b "test "; []; s2b "value"] = Keccak256 [s2b "test value"] /\
  Keccak256 [s2b "test value"] = Ok (HexToBytes "2d07364b5c231c56ce63d49430e085ea3033c750688ba532b24029124c26ca5e").
Proof. split; vm_compute; reflexivity. Qed.
Example C44_case_blocks : exists h, Keccak256 [repeat "a"%char 100; repeat "b"%char 300; repeat "c"%char 8] = Ok h /\ Keccak256 [(repeat "a"%char 100 ++ repeat "b"%char 300 ++ repeat "c"%char 8)%list] = Ok h.
Proof. eexists. split; vm_compute; reflexivity. Qed.

(** The routines for little-endian machines do the same as the portable ones. *)
Lemma xor_words_none b u : forall a i, u <= i -> xor_words a b 0 u i = a.
Proof. induction a as [|x a IH]; intros i H; [reflexivity|]. cbn [xor_words]. rewrite (proj2 (Nat.ltb_ge i u) H), andb_false_r. f_equal. apply IH. lia. Qed.
Lemma skipn_add (l : bytes) : forall i j, skipn i (skipn j l) = skipn (i + j) l.
Proof. induction l as [|x l IH]; intros i j; [now rewrite !skipn_nil|]. destruct j as [|j]; [now rewrite Nat.add_0_r|]. rewrite Nat.add_succ_r. cbn [skipn]. apply IH. Qed.
Lemma xor_words_generic b u : forall a i, 8 * u <= List.length b < 8 * u + 8 -> xor_words a b 0 u i = xorInGeneric a (skipn (8 * i) b).
Proof.
  induction a as [|x a IH]; intros i H; [reflexivity|]. cbn [xor_words xorInGeneric]. change (Nat.leb 0 i) with true. cbn [andb]. rewrite skipn_length. destruct (Nat.ltb_spec i u) as [L|L].
  - rewrite (proj2 (Nat.leb_le 8 (List.length b - 8 * i))) by lia. unfold word_at. f_equal. rewrite IH by exact H. f_equal. rewrite skipn_add. f_equal. lia.
  - rewrite (proj2 (Nat.leb_gt 8 (List.length b - 8 * i))) by lia. f_equal. apply xor_words_none. lia.
Qed.
Lemma xor_words_join b f m u : f <= m <= u -> forall a i, xor_words (xor_words a b f m i) b m u i = xor_words a b f u i.
Proof.
  intros H. induction a as [|x a IH]; intros i; [reflexivity|]. cbn [xor_words]. rewrite IH. f_equal.
  destruct (Nat.leb_spec f i), (Nat.ltb_spec i m), (Nat.leb_spec m i), (Nat.ltb_spec i u); cbn [andb]; try reflexivity; lia.
Qed.
Theorem C44_unaligned a b : List.length a = 25 -> In (List.length b) [72; 104; 136; 144; 168] ->
  xorInUnaligned a b = xorInGeneric a b /\ copyOutUnaligned a b = copyOutGeneric a b.
Proof.
  intros L H. assert (K : exists k, List.length b = 8 * k /\ k <= 21).
  { cbn [In] in H. destruct H as [H|[H|[H|[H|[H|[]]]]]]; rewrite <- H; [exists 9|exists 13|exists 17|exists 18|exists 21]; lia. }
  split.
  - unfold xorInUnaligned. cbv zeta. destruct H as [H|[H|[H|[H|[H|[]]]]]]; rewrite <- H; cbn [Nat.leb];
      rewrite ?xor_words_join by lia; rewrite xor_words_generic by lia; reflexivity.
  - destruct K as (k & K & K21). rewrite (copyOut_flat a k) by lia. unfold copyOutUnaligned. cbv zeta. fold (flat a).
    rewrite skipn_all2 by (rewrite firstn_length, flat_length; lia). rewrite app_nil_r, firstn_firstn, K. f_equal. lia.
Qed.
Example C44_unaligned_case : let a := map N.of_nat (seq 0 25) in let b := repeat "A"%char 136 in xorInUnaligned a b = xorInGeneric a b /\ nth 16 (xorInGeneric a b) 0%N = 0x4141414141414151%N.
Proof. split; vm_compute; reflexivity. Qed.

(** ** C50: reading the output in pieces. *)
Fixpoint read_all (perm : list N -> list N) (d : sponge) (l : list nat) : list bytes * sponge :=
  match l with
  | [] => ([], d)
  | q :: l' => let '(b, d1) := Read perm d q in let '(t, d2) := read_all perm d1 l' in (b :: t, d2)
  end.
Lemma read_all_drained F k r S0 l : (forall a, good_list a -> good_list (keccakF1600 a) /\ F (flat a) = flat (keccakF1600 a)) -> r = 8 * k /\ 1 <= k <= 21 ->
  forall d i, drained F r d S0 i -> exists bs d', read_all keccakF1600 d l = (bs, d') /\ List.concat bs = map (squeezed F r S0) (seq i (list_sum l)) /\ drained F r d' S0 (i + list_sum l).
Proof.
  intros P R. induction l as [|q l IH]; intros d i D; cbn [read_all]; [exists [], d; change (list_sum []) with 0; rewrite Nat.add_0_r; split; [reflexivity|split; [reflexivity|exact D]]|].
  assert (SQ : sp_squeezing d = true) by apply D. unfold Read. rewrite SQ.
  destruct (read_drained keccakF1600 F P k r R S0 q q d i (le_n q) D) as (d1 & E1 & D1). rewrite E1.
  destruct (IH d1 (i + q) D1) as (bs & d2 & E2 & C2 & D2). rewrite E2. eexists _, d2. split; [reflexivity|]. change (list_sum (q :: l)) with (q + list_sum l). split.
  - cbn [List.concat]. rewrite C2, <- map_app, <- seq_app. reflexivity.
  - now replace (i + (q + list_sum l)) with (i + q + list_sum l) by lia.
Qed.
(** Whatever the writes and however many bytes each read asks for, the reads
    return consecutive pieces of the output; afterwards a write is refused. *)
Theorem C50_reads d ws q l : In d [NewKeccak256; NewKeccak512; New224; New256; New384; New512; NewShake128; NewShake256] ->
  exists d1 bs d2, write_all keccakF1600 d ws = Ok d1 /\ read_all keccakF1600 d1 (q :: l) = (bs, d2)
  /\ List.concat bs = keccak (sp_rate d) (sp_ds d) (list_sum (q :: l)) (List.concat ws)
  /\ forall b, Write keccakF1600 d2 b = Panic "sha3: write to sponge after read".
Proof.
  intros H. assert (X : exists k r n ds, d = new_sponge r n ds /\ r = 8 * k /\ 1 <= k <= 21).
  { repeat destruct H as [<-|H]; try contradiction; [exists 17|exists 9|exists 18|exists 17|exists 13|exists 9|exists 21|exists 17]; eexists _, _, _; (split; [reflexivity|]); lia. }
  destruct X as (k & r & n & ds & -> & R). cbn [sp_rate sp_ds new_sponge].
  destruct (write_all_fed keccakF1600 keccak_bytes keccak_bytes_flat k r n ds R ws _ [] (fed_new keccak_bytes k r n ds R)) as (d1 & E1 & H1). cbn [app] in H1.
  destruct (read_fed keccakF1600 keccak_bytes keccak_bytes_flat k r n ds R d1 _ q H1) as (d2 & E2 & D2).
  destruct (read_all_drained keccak_bytes k r (absorbed keccak_bytes r ds (List.concat ws)) l keccak_bytes_flat R d2 q D2) as (bs & d3 & E3 & C3 & D3).
  exists d1, (digest keccak_bytes r ds (List.concat ws) 0 q :: bs), d3. split; [exact E1|]. split; [cbn [read_all]; now rewrite E2, E3|]. split.
  - cbn [List.concat]. rewrite C3. unfold keccak, digest. rewrite <- map_app. change (list_sum (q :: l)) with (q + list_sum l). now rewrite seq_app.
  - intros b. unfold Write. assert (SQ : sp_squeezing d3 = true) by apply D3. now rewrite SQ.
Qed.
Example C50_case : match write_all keccakF1600 NewShake128 [s2b "abc"] with
  | Ok d => List.concat (fst (read_all keccakF1600 d [1; 0; 200; 3])) = fst (Read keccakF1600 d 204) /\ firstn 4 (fst (Read keccakF1600 d 204)) = HexToBytes "5881092d"
  | _ => False end.
Proof. vm_compute. split; reflexivity. Qed.

(** A copy of a sponge being read does not go on where the original is: it
    panics, or repeats output, unless the rate is 168. *)
Theorem C50_clone_partial d ws q l : d = NewShake128 -> exists d1 b1 d2 d3, write_all keccakF1600 d ws = Ok d1 /\ Read keccakF1600 d1 q = (b1, d2) /\ clone d2 = Ok d3
  /\ List.concat (fst (read_all keccakF1600 d3 l)) = List.concat (fst (read_all keccakF1600 d2 l))
  /\ List.concat (fst (read_all keccakF1600 d3 l)) = digest keccak_bytes 168 "031" (List.concat ws) q (list_sum l).
Proof.
  intros ->. assert (R : 168 = 8 * 21 /\ 1 <= 21 <= 21) by lia.
  destruct (write_all_fed keccakF1600 keccak_bytes keccak_bytes_flat 21 168 0 "031" R ws _ [] (fed_new keccak_bytes 21 168 0 "031" R)) as (d1 & E1 & H1). cbn [app] in H1.
  destruct (read_fed keccakF1600 keccak_bytes keccak_bytes_flat 21 168 0 "031" R d1 _ q H1) as (d2 & E2 & D2).
  assert (C : exists d3, clone d2 = Ok d3 /\ drained keccak_bytes 168 d3 (absorbed keccak_bytes 168 "031" (List.concat ws)) q).
  { destruct D2 as (SQ & LO & HI & HR & HS & HP & HG & HE). unfold clone, maxRate. rewrite SQ, HR, LO. pose proof (Nat.mod_upper_bound q 168 ltac:(lia)) as M.
    replace (Z.of_nat 168 - (Z.of_nat 168 - Z.of_nat (q mod 168)))%Z with (Z.of_nat (q mod 168)) by lia. rewrite (proj2 (Z.leb_le _ _) (Zle_0_nat _)), (proj2 (Z.leb_le (Z.of_nat (q mod 168)) (Z.of_nat 168))) by lia. cbn [andb].
    eexists. split; [reflexivity|]. rewrite Nat2Z.id. unfold drained. cbn [sp_squeezing sp_lo sp_hi sp_rate sp_a sp_storage]. repeat (split; [first [reflexivity|assumption]|]). exact HE. }
  destruct C as (d3 & E3 & D3). exists d1, (digest keccak_bytes 168 "031" (List.concat ws) 0 q), d2, d3. repeat (split; [assumption|]).
  destruct (read_all_drained keccak_bytes 21 168 _ l keccak_bytes_flat R d2 q D2) as (b2 & d4 & E4 & C4 & _).
  destruct (read_all_drained keccak_bytes 21 168 _ l keccak_bytes_flat R d3 q D3) as (b3 & d5 & E5 & C5 & _).
  rewrite E4, E5. cbn [fst]. split; [now rewrite C4, C5|exact C5].
Qed.
Theorem C50_clone_refuted : exists d1 d2 d4 d5 : sponge, write_all keccakF1600 NewShake256 [s2b "abc"] = Ok d1
  /\ d2 = snd (Read keccakF1600 d1 10) /\ clone d2 = Panic "runtime error: slice bounds out of range"
  /\ d4 = snd (Read keccakF1600 d1 40) /\ clone d4 = Ok d5 /\ fst (Read keccakF1600 d5 8) <> fst (Read keccakF1600 d4 8)
  /\ fst (Read keccakF1600 d5 8) = firstn 8 (skipn 8 (fst (Read keccakF1600 d1 40))).
Proof.
  do 4 eexists. split; [vm_compute; reflexivity|]. split; [vm_compute; reflexivity|]. split; [vm_compute; reflexivity|]. split; [vm_compute; reflexivity|].
  split; [vm_compute; reflexivity|]. split; [vm_compute; discriminate|]. vm_compute; reflexivity.
Qed.

Print Assumptions C44_any_permutation.
Print Assumptions C44_history.
Print Assumptions C44_pieces.
Print Assumptions C44_unaligned.
Print Assumptions C50_reads.
Print Assumptions C50_clone_partial.
Print Assumptions C50_clone_refuted.
