(** Lemmas about bytes, little-endian numbers and decimal numerals. *)

From Verif Require Import GoBase SpecNum.
Ltac Zify.zify_post_hook ::= Z.div_mod_to_equations.

Lemma bZ_range a : 0 <= bZ a < 256.
Proof.
  unfold bZ. pose proof (N_ascii_bounded a). lia.
Qed.

Lemma bZ_Zb z : bZ (Zb z) = z mod 256.
Proof.
  unfold bZ, Zb. rewrite N_ascii_embedding; lia.
Qed.

Lemma bZ_Zb_small z : 0 <= z < 256 -> bZ (Zb z) = z.
Proof. intros H. rewrite bZ_Zb. lia. Qed.

Lemma Zb_bZ a : Zb (bZ a) = a.
Proof.
  unfold Zb. pose proof (bZ_range a) as H.
  rewrite Z.mod_small by lia. unfold bZ. rewrite N2Z.id. apply ascii_N_embedding.
Qed.

Lemma bZ_inj a b : bZ a = bZ b -> a = b.
Proof. intros H. rewrite <- (Zb_bZ a), <- (Zb_bZ b), H. reflexivity. Qed.

Lemma Zb_mod z : Zb (z mod 256) = Zb z.
Proof. unfold Zb. rewrite Z.mod_mod by lia. reflexivity. Qed.

(** ** Little-endian *)

Lemma pow256_S n : 256 ^ Z.of_nat (S n) = 256 * 256 ^ Z.of_nat n.
Proof. rewrite Nat2Z.inj_succ, Z.pow_succ_r by lia. reflexivity. Qed.

Lemma pow256_pos n : 0 < 256 ^ Z.of_nat n.
Proof. apply Z.pow_pos_nonneg; lia. Qed.

Lemma le_val_range l : 0 <= le_val l < 256 ^ Z.of_nat (List.length l).
Proof.
  induction l as [|a l IH]; cbn [le_val List.length].
  - cbn. lia.
  - rewrite pow256_S. pose proof (bZ_range a). lia.
Qed.

Lemma le_bytes_length n z : List.length (le_bytes n z) = n.
Proof. revert z; induction n as [|n IH]; intros z; cbn [le_bytes List.length]; [reflexivity|]. now rewrite IH. Qed.

Lemma le_val_bytes n z : le_val (le_bytes n z) = z mod 256 ^ Z.of_nat n.
Proof.
  revert z; induction n as [|n IH]; intros z; cbn [le_bytes le_val].
  - cbn. now rewrite Z.mod_1_r.
  - rewrite IH, bZ_Zb, pow256_S.
    pose proof (pow256_pos n) as Hp.
    rewrite Z.rem_mul_r by lia. lia.
Qed.

Lemma le_val_bytes_small n z : 0 <= z < 256 ^ Z.of_nat n -> le_val (le_bytes n z) = z.
Proof. intros H. rewrite le_val_bytes. now apply Z.mod_small. Qed.

Lemma le_bytes_val l : le_bytes (List.length l) (le_val l) = l.
Proof.
  induction l as [|a l IH]; cbn [List.length le_val le_bytes]; [reflexivity|].
  pose proof (bZ_range a) as Ha.
  f_equal.
  - rewrite <- Zb_mod. replace ((bZ a + 256 * le_val l) mod 256) with (bZ a) by lia. apply Zb_bZ.
  - replace ((bZ a + 256 * le_val l) / 256) with (le_val l) by lia. exact IH.
Qed.

Lemma le_val_app a b : le_val (a ++ b) = le_val a + 256 ^ Z.of_nat (List.length a) * le_val b.
Proof.
  induction a as [|x a IH]; cbn [le_val List.length app].
  - cbn [Z.of_nat]. rewrite Z.pow_0_r. lia.
  - rewrite IH, pow256_S. ring.
Qed.

Lemma le_bytes_app n m z :
  le_bytes (n + m) z = (le_bytes n z ++ le_bytes m (z / 256 ^ Z.of_nat n))%list.
Proof.
  revert z; induction n as [|n IH]; intros z; cbn [le_bytes plus app].
  - cbn [Z.of_nat]. now rewrite Z.pow_0_r, Z.div_1_r.
  - rewrite IH, pow256_S. f_equal. f_equal. f_equal.
    pose proof (pow256_pos n). rewrite Z.div_div by lia. reflexivity.
Qed.

Lemma le_bytes_mod n z : le_bytes n (z mod 256 ^ Z.of_nat n) = le_bytes n z.
Proof.
  rewrite <- le_val_bytes.
  rewrite <- (le_bytes_length n z) at 1. apply le_bytes_val.
Qed.

Lemma le_val_inj a b : List.length a = List.length b -> le_val a = le_val b -> a = b.
Proof.
  intros Hl Hv. rewrite <- (le_bytes_val a), <- (le_bytes_val b), Hl, Hv. reflexivity.
Qed.

Lemma le_val_zeros n : le_val (repeat "000"%char n) = 0.
Proof. induction n as [|n IH]; cbn [repeat le_val]; [reflexivity|]. rewrite IH. reflexivity. Qed.

Lemma le_val_pad l n : le_val (l ++ repeat "000"%char n) = le_val l.
Proof. rewrite le_val_app, le_val_zeros. lia. Qed.

(** ** Strings and lists *)

Lemma s2b_b2s l : s2b (b2s l) = l.
Proof. apply list_ascii_of_string_of_list_ascii. Qed.
Lemma b2s_s2b s : b2s (s2b s) = s.
Proof. apply string_of_list_ascii_of_string. Qed.
Lemma s2b_app a b : s2b (a ++ b) = (s2b a ++ s2b b)%list.
Proof. unfold s2b. induction a as [|c a IH]; cbn; [reflexivity|]. now rewrite IH. Qed.
Lemma b2s_app a b : b2s (a ++ b) = b2s a ++ b2s b.
Proof. unfold b2s. induction a as [|c a IH]; cbn; [reflexivity|]. now rewrite IH. Qed.
Lemma s2b_length s : List.length (s2b s) = String.length s.
Proof. unfold s2b. induction s as [|c s IH]; cbn; [reflexivity|]. now rewrite IH. Qed.
Lemma b2s_length b : String.length (b2s b) = List.length b.
Proof. rewrite <- s2b_length, s2b_b2s. reflexivity. Qed.
Lemma s2b_inj a b : s2b a = s2b b -> a = b.
Proof. intros H. rewrite <- (b2s_s2b a), <- (b2s_s2b b), H. reflexivity. Qed.
Lemma b2s_inj a b : b2s a = b2s b -> a = b.
Proof. intros H. rewrite <- (s2b_b2s a), <- (s2b_b2s b), H. reflexivity. Qed.

Lemma app_assoc_s a b c : (a ++ b) ++ c = a ++ (b ++ c).
Proof. induction a as [|x a IH]; cbn; [reflexivity|]. now rewrite IH. Qed.
Lemma app_nil_r_s a : a ++ "" = a.
Proof. induction a as [|x a IH]; cbn; [reflexivity|]. now rewrite IH. Qed.
Lemma length_app_s a b : String.length (a ++ b) = (String.length a + String.length b)%nat.
Proof. induction a as [|x a IH]; cbn; [reflexivity|]. now rewrite IH. Qed.
Lemma app_inv_head_s a b c : a ++ b = a ++ c -> b = c.
Proof. induction a as [|x a IH]; cbn; intros H; [exact H|]. injection H as H. auto. Qed.

(** ** Decimal numerals *)

Lemma positional_app l c :
  fold_left (fun acc c => 10 * acc + (bZ c - 48)) (l ++ [c])%list 0
  = 10 * fold_left (fun acc c => 10 * acc + (bZ c - 48)) l 0 + (bZ c - 48).
Proof. rewrite fold_left_app. reflexivity. Qed.

Definition pos_acc (l : list ascii) (a : Z) : Z :=
  fold_left (fun acc c => 10 * acc + (bZ c - 48)) l a.

Lemma pos_acc_app l1 l2 a : pos_acc (l1 ++ l2) a = pos_acc l2 (pos_acc l1 a).
Proof. unfold pos_acc. apply fold_left_app. Qed.

Lemma pos_acc_lin l a : pos_acc l a = a * 10 ^ Z.of_nat (List.length l) + pos_acc l 0.
Proof.
  revert a; induction l as [|c l IH]; intros a.
  - cbn. lia.
  - unfold pos_acc in *. cbn [fold_left List.length].
    rewrite (IH (10 * a + (bZ c - 48))), (IH (10 * 0 + (bZ c - 48))).
    rewrite Nat2Z.inj_succ, Z.pow_succ_r by lia. ring.
Qed.

Lemma pos_acc_range l : Forall (fun c => 48 <= bZ c <= 57) l ->
  0 <= pos_acc l 0 < 10 ^ Z.of_nat (List.length l).
Proof.
  induction 1 as [|c l Hc Hl IH].
  - cbn. lia.
  - change (pos_acc (c :: l) 0) with (pos_acc l (10 * 0 + (bZ c - 48))).
    rewrite pos_acc_lin. cbn [List.length].
    rewrite Nat2Z.inj_succ, Z.pow_succ_r by lia.
    assert (0 < 10 ^ Z.of_nat (List.length l)) by (apply Z.pow_pos_nonneg; lia).
    nia.
Qed.

(** Numerals of the same length with the same value are equal. *)
Lemma pos_acc_inj l1 l2 :
  Forall (fun c => 48 <= bZ c <= 57) l1 -> Forall (fun c => 48 <= bZ c <= 57) l2 ->
  List.length l1 = List.length l2 -> pos_acc l1 0 = pos_acc l2 0 -> l1 = l2.
Proof.
  intros H1; revert l2; induction H1 as [|c l Hc Hl IH]; intros l2 H2 Hlen Hv.
  - destruct l2; [reflexivity|discriminate].
  - destruct H2 as [|c2 l2 Hc2 Hl2]; [discriminate|].
    injection Hlen as Hlen.
    change (pos_acc (c :: l) 0) with (pos_acc l (10 * 0 + (bZ c - 48))) in Hv.
    change (pos_acc (c2 :: l2) 0) with (pos_acc l2 (10 * 0 + (bZ c2 - 48))) in Hv.
    rewrite (pos_acc_lin l), (pos_acc_lin l2), <- Hlen in Hv.
    pose proof (pos_acc_range l Hl) as R1.
    pose proof (pos_acc_range l2 Hl2) as R2. rewrite <- Hlen in R2.
    set (p := 10 ^ Z.of_nat (List.length l)) in *.
    assert (bZ c = bZ c2) by nia.
    assert (pos_acc l 0 = pos_acc l2 0) by nia.
    f_equal; [now apply bZ_inj|]. apply IH; auto.
Qed.

Lemma numeral_lower_bound l c :
  Forall (fun c => 48 <= bZ c <= 57) l -> 49 <= bZ c <= 57 ->
  10 ^ Z.of_nat (List.length l) <= pos_acc (c :: l) 0.
Proof.
  intros Hl Hc. change (pos_acc (c :: l) 0) with (pos_acc l (10 * 0 + (bZ c - 48))).
  rewrite pos_acc_lin. pose proof (pos_acc_range l Hl).
  assert (0 < 10 ^ Z.of_nat (List.length l)) by (apply Z.pow_pos_nonneg; lia). nia.
Qed.

(** The base-10 numeral of a number is unique. *)
Lemma is_numeral_unique s1 s2 n : is_numeral s1 n -> is_numeral s2 n -> s1 = s2.
Proof.
  intros (D1 & N1 & Z1 & V1) (D2 & N2 & Z2 & V2).
  apply s2b_inj.
  unfold positional in *. fold (pos_acc (s2b s1) 0) in V1. fold (pos_acc (s2b s2) 0) in V2.
  assert (Hlen : List.length (s2b s1) = List.length (s2b s2)).
  { destruct s1 as [|c1 s1]; [congruence|]. destruct s2 as [|c2 s2]; [congruence|].
    cbn [s2b list_ascii_of_string first_char] in *.
    fold (s2b s1) in *. fold (s2b s2) in *.
    inversion D1 as [|? ? A1 B1]; inversion D2 as [|? ? A2 B2]; subst.
    destruct (Z.eq_dec (bZ c1) 48) as [E1|E1]; destruct (Z.eq_dec (bZ c2) 48) as [E2|E2].
    - assert (c1 = "0"%char) by (apply bZ_inj; exact E1).
      assert (c2 = "0"%char) by (apply bZ_inj; exact E2). subst.
      specialize (Z1 eq_refl). specialize (Z2 eq_refl). congruence.
    - assert (c1 = "0"%char) by (apply bZ_inj; exact E1). subst.
      specialize (Z1 eq_refl). injection Z1 as Z1. subst.
      pose proof (numeral_lower_bound (s2b s2) c2 B2 ltac:(lia)) as P.
      rewrite V2 in P. cbn in P.
      assert (0 < 10 ^ Z.of_nat (List.length (s2b s2))) by (apply Z.pow_pos_nonneg; lia). lia.
    - assert (c2 = "0"%char) by (apply bZ_inj; exact E2). subst.
      specialize (Z2 eq_refl). injection Z2 as Z2. subst.
      pose proof (numeral_lower_bound (s2b s1) c1 B1 ltac:(lia)) as P.
      rewrite <- V2 in P. cbn in P.
      assert (0 < 10 ^ Z.of_nat (List.length (s2b s1))) by (apply Z.pow_pos_nonneg; lia). lia.
    - pose proof (numeral_lower_bound (s2b s1) c1 B1 ltac:(lia)) as P1.
      pose proof (numeral_lower_bound (s2b s2) c2 B2 ltac:(lia)) as P2.
      pose proof (pos_acc_range _ D1) as R1. pose proof (pos_acc_range _ D2) as R2.
      cbn [List.length] in *. rewrite V2 in *. 
      f_equal.
      destruct (lt_eq_lt_dec (List.length (s2b s1)) (List.length (s2b s2))) as [[L|L]|L]; [|exact L|].
      + exfalso. assert (10 ^ Z.of_nat (S (List.length (s2b s1))) <= 10 ^ Z.of_nat (List.length (s2b s2)))
          by (apply Z.pow_le_mono_r; lia). lia.
      + exfalso. assert (10 ^ Z.of_nat (S (List.length (s2b s2))) <= 10 ^ Z.of_nat (List.length (s2b s1)))
          by (apply Z.pow_le_mono_r; lia). lia. }
  apply pos_acc_inj; auto. congruence.
Qed.

(** [itoa] of a non-negative number is its numeral. *)
Lemma digit_char_val d : 0 <= d < 10 -> bZ (digit_char d) = 48 + d.
Proof. intros H. unfold digit_char. apply bZ_Zb_small. lia. Qed.

Lemma dec_loop_spec fuel n acc :
  0 <= n -> n < 10 ^ Z.of_nat fuel -> (0 < fuel)%nat ->
  exists d, dec_loop fuel n acc = d ++ acc /\ is_numeral d n.
Proof.
  revert n acc; induction fuel as [|fuel IH]; intros n acc Hn Hb Hf; [lia|].
  cbn [dec_loop]. destruct (Z.ltb_spec n 10) as [H|H].
  - exists (String (digit_char n) ""). split; [reflexivity|].
    pose proof (digit_char_val n ltac:(lia)) as Hd.
    repeat split.
    + cbn. constructor; [|constructor]. lia.
    + discriminate.
    + cbn [first_char]. intros Heq. injection Heq as Heq. rewrite Heq in Hd |- *. reflexivity.
    + unfold positional. cbn [s2b list_ascii_of_string fold_left]. lia.
  - assert (Hq : n / 10 < 10 ^ Z.of_nat fuel).
    { rewrite Nat2Z.inj_succ, Z.pow_succ_r in Hb by lia. lia. }
    assert (Hfu : (0 < fuel)%nat).
    { destruct fuel; [|lia]. cbn in Hq. lia. }
    destruct (IH (n / 10) (String (digit_char (n mod 10)) acc) ltac:(lia) Hq Hfu) as (d & Ed & Nd).
    exists (d ++ String (digit_char (n mod 10)) ""). split.
    { rewrite Ed, app_assoc_s. reflexivity. }
    destruct Nd as (D & Ne & Zr & V).
    pose proof (digit_char_val (n mod 10) ltac:(lia)) as Hd.
    repeat split.
    + rewrite s2b_app. apply Forall_app. split; [exact D|]. cbn. constructor; [lia|constructor].
    + destruct d; [congruence|discriminate].
    + destruct d as [|c d]; [congruence|]. cbn [append first_char]. intros Heq.
      cbn [first_char] in Zr. specialize (Zr Heq). rewrite Zr in V. cbn in V.
      exfalso. lia.
    + unfold positional in *. rewrite s2b_app. cbn [s2b list_ascii_of_string].
      rewrite fold_left_app. fold (s2b d). rewrite V. cbn [fold_left]. lia.
Qed.

Lemma log2_fuel n : 0 <= n -> n < 10 ^ Z.of_nat (S (Z.to_nat (Z.log2 n))).
Proof.
  intros H. destruct (Z.eq_dec n 0) as [->|Hn]; [cbn; lia|].
  rewrite Nat2Z.inj_succ, Z2Nat.id by apply Z.log2_nonneg.
  pose proof (Z.log2_spec n ltac:(lia)) as [_ Hl].
  eapply Z.lt_le_trans; [exact Hl|]. apply Z.pow_le_mono_l.
  pose proof (Z.log2_nonneg n). lia.
Qed.

Lemma itoa_numeral n : 0 <= n -> is_numeral (itoa n) n.
Proof.
  intros H. unfold itoa. destruct (Z.ltb_spec n 0) as [L|L]; [lia|].
  destruct (dec_loop_spec (S (Z.to_nat (Z.log2 n))) n "" H (log2_fuel n H) ltac:(lia)) as (d & E & N).
  rewrite E, app_nil_r_s. exact N.
Qed.

Lemma numeral_itoa s n : is_numeral s n -> s = itoa n.
Proof.
  intros H. apply is_numeral_unique with n; [exact H|]. apply itoa_numeral.
  destruct H as (D & _ & _ & V). rewrite <- V. apply (pos_acc_range _ D).
Qed.

Lemma dec_val_positional s acc : dec_val acc s = pos_acc (s2b s) acc.
Proof. revert acc; induction s as [|c s IH]; intros acc; cbn; [reflexivity|]. apply IH. Qed.

Lemma all_digits_Forall s : all_digits s = true <-> Forall (fun c => 48 <= bZ c <= 57) (s2b s).
Proof.
  induction s as [|c s IH]; cbn [all_digits s2b list_ascii_of_string].
  - split; constructor.
  - rewrite andb_true_iff, IH. unfold is_digit. split.
    + intros [H1 H2]. constructor; [lia|exact H2].
    + intros H. inversion H; subst. split; [lia|assumption].
Qed.

Lemma parse_digits_numeral s n : is_numeral s n -> parse_digits s = Some n.
Proof.
  intros (D & Ne & _ & V). unfold parse_digits. destruct s as [|c s]; [congruence|].
  rewrite (proj2 (all_digits_Forall _) D). f_equal. rewrite dec_val_positional. exact V.
Qed.

Lemma parse_int_numeral s n : is_numeral s n -> parse_int s = Some n.
Proof.
  intros H. pose proof (parse_digits_numeral s n H) as P.
  destruct H as (D & Ne & _ & V). unfold parse_int. destruct s as [|c s]; [congruence|].
  inversion D as [|? ? Hc Hs]; subst.
  destruct (Ascii.eqb_spec c "-"%char) as [->|E1]; [cbn in Hc; lia|].
  destruct (Ascii.eqb_spec c "+"%char) as [->|E2]; [cbn in Hc; lia|].
  exact P.
Qed.

Lemma parse_int_itoa n : parse_int (itoa n) = Some n.
Proof.
  destruct (Z.ltb_spec n 0) as [L|L].
  - unfold itoa. rewrite (proj2 (Z.ltb_lt n 0) L). cbn [append parse_int].
    change (Ascii.eqb "-" "-") with true. cbv iota.
    destruct (dec_loop_spec (S (Z.to_nat (Z.log2 (- n)))) (- n) "" ltac:(lia) (log2_fuel (- n) ltac:(lia)) ltac:(lia)) as (d & E & N).
    rewrite E, app_nil_r_s, (parse_digits_numeral d (- n) N). cbn. f_equal. lia.
  - apply parse_int_numeral, itoa_numeral. exact L.
Qed.

Lemma itoa_inj a b : itoa a = itoa b -> a = b.
Proof.
  intros H. pose proof (parse_int_itoa a) as A. rewrite H, parse_int_itoa in A. congruence.
Qed.
