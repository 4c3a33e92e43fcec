(** C42: fixed-point numbers as decimals. *)

From Verif Require Import GoBase SpecNum ProofsBase ModelTools ProofsTools ModelVal ModelFixPoint ModelRegistry ModelDecode ModelRegister ProofsRun SpecScale ProofsReads ProofsScale ProofsEncode ProofsApi PropInts.

(** ** Strings of binary digits *)
Fixpoint is_bits (s : string) : Prop :=
  match s with EmptyString => True | String c r => (c = "0"%char \/ c = "1"%char) /\ is_bits r end.
Definition slen (s : string) : Z := Z.of_nat (String.length s).
Lemma is_bits_app s t : is_bits (s ++ t) <-> is_bits s /\ is_bits t.
Proof. induction s as [|c s IH]; cbn [append is_bits]; [tauto|]. rewrite IH. tauto. Qed.
Lemma slen_app s t : slen (s ++ t) = slen s + slen t.
Proof. unfold slen. rewrite length_app_s. lia. Qed.
Lemma slen_cons c s : slen (String c s) = slen s + 1.
Proof. unfold slen. cbn [String.length]. lia. Qed.
Lemma slen_pos s : 0 <= slen s.
Proof. unfold slen. lia. Qed.
Lemma bin_val_app a s t : bin_val a (s ++ t) = bin_val (bin_val a s) t.
Proof. revert a. induction s as [|c s IH]; intros a; [reflexivity|]. cbn [append bin_val]. apply IH. Qed.
Lemma bin_val_acc s : forall a, bin_val a s = a * 2 ^ slen s + bin_val 0 s.
Proof.
  induction s as [|c s IH]; intros a; [cbn [bin_val]; change (slen "") with 0; lia|]. cbn [bin_val]. rewrite IH, (IH (2 * 0 + _)), slen_cons.
  rewrite Z.pow_add_r by (try apply slen_pos; lia). lia.
Qed.
Lemma digit_val_bit c : c = "0"%char \/ c = "1"%char -> digit_val c = 0 /\ c = "0"%char \/ digit_val c = 1 /\ c = "1"%char.
Proof. intros [->| ->]; [left|right]; split; reflexivity. Qed.
Lemma bin_val_range s : is_bits s -> 0 <= bin_val 0 s < 2 ^ slen s.
Proof.
  induction s as [|c s IH]; intros B; [cbn; lia|]. destruct B as [C B]. specialize (IH B). cbn [bin_val]. rewrite bin_val_acc, slen_cons.
  rewrite Z.pow_add_r by (try apply slen_pos; lia). destruct (digit_val_bit c C) as [[D _]|[D _]]; rewrite D; lia.
Qed.
Lemma bin_val_app0 s t : bin_val 0 (s ++ t) = bin_val 0 s * 2 ^ slen t + bin_val 0 t.
Proof. rewrite bin_val_app. apply bin_val_acc. Qed.
Lemma bin_parts s t V : is_bits (s ++ t) -> bin_val 0 (s ++ t) = V -> bin_val 0 s = V / 2 ^ slen t /\ bin_val 0 t = V mod 2 ^ slen t.
Proof.
  intros B <-. apply is_bits_app in B. destruct B as [_ B]. rewrite bin_val_app0. pose proof (bin_val_range t B) as R.
  assert (0 < 2 ^ slen t) by lia. rewrite Z.div_add_l by lia. rewrite (Z.add_comm (_ * _)), Z.mod_add by lia.
  rewrite Z.div_small, Z.mod_small by lia. lia.
Qed.

Lemma bin_loop_ok fuel : forall n acc, 0 <= n < 2 ^ Z.of_nat fuel -> (0 < fuel)%nat ->
  exists s, bin_loop fuel n acc = s ++ acc /\ is_bits s /\ bin_val 0 s = n /\ slen s = Z.log2 n + 1.
Proof.
  induction fuel as [|f IH]; intros n acc Hn Hf; [lia|]. cbn [bin_loop]. destruct (Z.ltb_spec n 2) as [S|S].
  - exists (String (digit_char n) ""). assert (n = 0 \/ n = 1) as [->| ->] by lia; repeat split; auto.
  - assert (Hf' : (0 < f)%nat). { destruct f; [cbn in Hn; lia|lia]. }
    destruct (IH (n / 2) (String (digit_char (n mod 2)) acc)) as (s & E & B & V & L); [|exact Hf'|].
    { rewrite Nat2Z.inj_succ, Z.pow_succ_r in Hn by lia. split; [apply Z.div_pos; lia|apply Z.div_lt_upper_bound; lia]. }
    exists (s ++ String (digit_char (n mod 2)) ""). rewrite E.
    assert (M : n mod 2 = 0 \/ n mod 2 = 1) by (pose proof (Z.mod_pos_bound n 2 ltac:(lia)); lia).
    split; [rewrite app_assoc_s; reflexivity|]. split; [apply is_bits_app; split; [exact B|]; destruct M as [-> | ->]; cbn; auto|].
    split; [rewrite bin_val_app0, V; change (slen (String _ "")) with 1; pose proof (Z.div_mod n 2 ltac:(lia)); destruct M as [M|M]; rewrite M in *; cbn [bin_val]; [change (digit_val (digit_char 0)) with 0|change (digit_val (digit_char 1)) with 1]; lia|].
    rewrite slen_app, L. change (slen (String _ "")) with 1.
    assert (LG : Z.log2 n = Z.log2 (n / 2) + 1).
    { assert (H0 : 0 < n / 2) by (apply Z.div_str_pos; lia). pose proof (Z.log2_spec _ H0) as [A C]. pose proof (Z.log2_nonneg (n / 2)) as G.
      apply Z.log2_unique; [lia|]. set (k := Z.log2 (n / 2)) in *. clearbody k. rewrite Z.pow_succ_r in C by lia.
      replace (Z.succ (k + 1)) with (k + 2) by lia. rewrite !Z.pow_add_r by lia. change (2 ^ 1) with 2. change (2 ^ 2) with 4.
      pose proof (Z.div_mod n 2 ltac:(lia)). pose proof (Z.mod_pos_bound n 2 ltac:(lia)). set (q := n / 2) in *. set (r := n mod 2) in *. clearbody q r. lia. }
    lia.
Qed.
Lemma bin_digits_ok n : 0 <= n -> is_bits (bin_digits n) /\ bin_val 0 (bin_digits n) = n /\ slen (bin_digits n) = Z.log2 n + 1.
Proof.
  intros H. unfold bin_digits. destruct (bin_loop_ok (S (Z.to_nat (Z.log2 n))) n "") as (s & E & B & V & L); [|lia|].
  - rewrite Nat2Z.inj_succ, Z2Nat.id by apply Z.log2_nonneg. destruct (Z.eq_dec n 0) as [->|N]; [cbn; lia|]. pose proof (Z.log2_spec n ltac:(lia)). lia.
  - rewrite E. assert (X : s ++ "" = s) by (clear; induction s; cbn; congruence). rewrite X. auto.
Qed.
Lemma zeros_bits n : is_bits (srepeat "0"%char n) /\ bin_val 0 (srepeat "0"%char n) = 0.
Proof. induction n as [|n [A B]]; [now split|]. cbn [srepeat is_bits bin_val]. change (2 * 0 + digit_val "0") with 0. auto. Qed.
Lemma justify_ok s n : is_bits s -> slen s <= Z.of_nat n ->
  is_bits (right_justify0 s n) /\ bin_val 0 (right_justify0 s n) = bin_val 0 s /\ slen (right_justify0 s n) = Z.of_nat n.
Proof.
  intros B L. unfold right_justify0. destruct (zeros_bits (n - String.length s)) as [Z1 Z2]. split; [now apply is_bits_app|].
  rewrite bin_val_app0, Z2, slen_app. unfold slen in *. rewrite srepeat_length. lia.
Qed.
Lemma stake_drop k : forall s, stake k s ++ sdrop k s = s.
Proof. induction k as [|k IH]; intros [|c s]; try reflexivity. cbn [stake sdrop append]. now rewrite IH. Qed.
Lemma slen_sdrop k : forall s, (k <= String.length s)%nat -> slen (sdrop k s) = slen s - Z.of_nat k.
Proof. induction k as [|k IH]; intros [|c s] H; cbn [sdrop String.length] in *; unfold slen in *; cbn [String.length] in *; try lia. rewrite IH by lia. lia. Qed.
Lemma slen_stake k : forall s, (k <= String.length s)%nat -> slen (stake k s) = Z.of_nat k.
Proof. induction k as [|k IH]; intros [|c s] H; cbn [stake String.length] in *; unfold slen in *; cbn [String.length] in *; try lia. specialize (IH s). lia. Qed.

(** ** The sum of powers of two *)
Lemma round53_small m j : 0 <= m < 2 ^ 53 -> 0 <= j -> round53 (m * 2 ^ j) = m * 2 ^ j.
Proof.
  intros Hm Hj. unfold round53, f64_of_int. assert (P : 0 < 2 ^ j) by (apply Z.pow_pos_nonneg; lia).
  rewrite Z.abs_eq by lia. destruct (Z.ltb_spec (m * 2 ^ j) (2 ^ 53)) as [L|L]; [reflexivity|]. cbv zeta.
  assert (M : 0 < m) by nia.
  assert (G : 52 < Z.log2 (m * 2 ^ j)). { apply Z.lt_le_trans with 53; [lia|]. now apply Z.log2_le_pow2; [lia|]. }
  assert (U : Z.log2 (m * 2 ^ j) <= j + 52). { rewrite Z.log2_mul_pow2 by lia. assert (Z.log2 m < 53) by (apply Z.log2_lt_pow2; lia). lia. }
  set (s := Z.log2 (m * 2 ^ j) - 52) in *. assert (D : m * 2 ^ j = (m * 2 ^ (j - s)) * 2 ^ s).
  { rewrite <- Z.mul_assoc, <- Z.pow_add_r by lia. do 2 f_equal. lia. }
  assert (Ps : 0 < 2 ^ s) by (apply Z.pow_pos_nonneg; lia). assert (Ph : 0 < 2 ^ (s - 1)) by (apply Z.pow_pos_nonneg; lia).
  clearbody s. rewrite D. rewrite Z.mod_mul, Z.div_mul by lia. rewrite (proj2 (Z.ltb_ge _ _)) by lia. rewrite (proj2 (Z.eqb_neq _ _)) by lia. cbn [orb andb].
  rewrite Z.sgn_pos by (rewrite <- D; lia). lia.
Qed.
Lemma float_part_sum s : forall k A, is_bits s -> 0 <= k -> 0 <= A < 2 ^ k -> k + slen s <= 53 ->
  float_part (k + 1) (BF (A * 2 ^ (64 - k))) s = BF ((A * 2 ^ slen s + bin_val 0 s) * 2 ^ (64 - (k + slen s))).
Proof.
  induction s as [|c s IH]; intros k A B Hk HA HL; [cbn [float_part bin_val]; change (slen "") with 0; do 2 f_equal; [lia|f_equal; lia]|].
  destruct B as [C B]. rewrite slen_cons in *. pose proof (slen_pos s) as SP. cbn [float_part].
  assert (N : (if Ascii.eqb c "1" then bf_add (BF (A * 2 ^ (64 - k))) (recip_pow2 (k + 1)) else BF (A * 2 ^ (64 - k))) = BF ((2 * A + digit_val c) * 2 ^ (64 - (k + 1)))).
  { assert (E : 2 ^ (64 - k) = 2 * 2 ^ (64 - (k + 1))) by (rewrite <- Z.pow_succ_r by lia; f_equal; lia).
    destruct (digit_val_bit c C) as [[D ->]|[D ->]]; rewrite D; cbn [Ascii.eqb Bool.eqb andb]; cbv iota; [rewrite E; f_equal; lia|].
    unfold recip_pow2. rewrite (proj2 (Z.leb_le _ _)) by lia. unfold bf_add.
    replace (A * 2 ^ (64 - k) + 2 ^ (64 - (k + 1))) with ((2 * A + 1) * 2 ^ (64 - (k + 1))) by (rewrite E; lia).
    rewrite round53_small; [reflexivity| |lia]. assert (X : 2 ^ (k + 1) <= 2 ^ 53) by (apply Z.pow_le_mono_r; lia). rewrite Z.pow_add_r in X by lia. change (2 ^ 1) with 2 in X. lia. }
  rewrite N, IH; [|exact B|lia| |lia].
  - cbn [bin_val]. rewrite (bin_val_acc s (2 * 0 + digit_val c)). f_equal. rewrite (Z.pow_add_r 2 (slen s) 1) by lia. change (2 ^ 1) with 2.
    replace (64 - (k + 1 + slen s)) with (64 - (k + (slen s + 1))) by lia. f_equal. lia.
  - rewrite Z.pow_add_r by lia. change (2 ^ 1) with 2. destruct (digit_val_bit c C) as [[D _]|[D _]]; rewrite D; lia.
Qed.

(** ** Decimals nearest to a float *)
(** The float read back from [d / 10^p] is within 2^-54 of it. *)
Lemma float_of_dec_step d p s : 0 <= p -> s = Z.log2 (d * 2 ^ 320 / 10 ^ p) - 52 -> 0 <= s ->
  exists k, float_of_dec d p = k * 2 ^ s /\ 2 * Z.abs (k * (10 ^ p * 2 ^ s) - d * 2 ^ 320) <= 10 ^ p * 2 ^ s.
Proof.
  intros Hp Es Hs. unfold float_of_dec. cbv zeta. rewrite <- Es. set (num := d * 2 ^ 320). set (den := 10 ^ p * 2 ^ s).
  assert (D : 0 < den) by (apply Z.mul_pos_pos; apply Z.pow_pos_nonneg; lia). eexists. split; [reflexivity|]. clearbody num den. clear Es.
  pose proof (Z.div_mod num den ltac:(lia)) as DM. pose proof (Z.mod_pos_bound num den ltac:(lia)) as R. set (q := num / den) in *. set (r := num mod den) in *. clearbody q r.
  destruct (Z.ltb_spec den (2 * r)), (Z.eqb_spec (2 * r) den); cbn [orb andb]; try (destruct (Z.odd q)); lia.
Qed.
Lemma float_of_dec_near d p z : 0 <= p <= 64 -> 0 <= d <= 10 ^ p -> 0 < z < 2 ^ 64 -> float_of_dec d p = z * 2 ^ 256 ->
  Z.abs (z * 10 ^ p - d * 2 ^ 64) * 2 ^ 54 <= 10 ^ p * 2 ^ 64.
Proof.
  intros Hp Hd Hz F. assert (P : 0 < 10 ^ p) by (apply Z.pow_pos_nonneg; lia). assert (P64 : 10 ^ p <= 10 ^ 64) by (apply Z.pow_le_mono_r; lia).
  destruct (Z.eq_dec d 0) as [D0|D0].
  { exfalso. rewrite D0 in F. unfold float_of_dec in F. cbv zeta in F. rewrite Z.mul_0_l, Z.div_0_l in F by lia. change (2 ^ (Z.log2 0 - 52)) with 0 in F. rewrite !Z.mul_0_r in F. lia. }
  assert (N0 : 2 ^ 100 <= d * 2 ^ 320 / 10 ^ p).
  { apply Z.div_le_lower_bound; [lia|]. assert (2 ^ 100 * 10 ^ 64 <= 2 ^ 320) by (vm_compute; discriminate). nia. }
  assert (N1 : d * 2 ^ 320 / 10 ^ p <= 2 ^ 320) by (apply Z.div_le_upper_bound; nia).
  assert (N2 : d * 2 ^ 320 / 10 ^ p <> 2 ^ 320).
  { intros Q. assert (d = 10 ^ p). { pose proof (Z.mul_div_le (d * 2 ^ 320) (10 ^ p) P) as M. rewrite Q in M. nia. } subst d.
    unfold float_of_dec in F. cbv zeta in F. rewrite Q in F. change (Z.log2 (2 ^ 320) - 52) with 268 in F.
    replace (10 ^ p * 2 ^ 320) with (2 ^ 52 * (10 ^ p * 2 ^ 268)) in F by (change (2 ^ 320) with (2 ^ 52 * 2 ^ 268); ring).
    assert (0 < 10 ^ p * 2 ^ 268) by (apply Z.mul_pos_pos; lia). rewrite Z.div_mul, Z.mod_mul in F by lia. rewrite (proj2 (Z.ltb_ge _ _)), (proj2 (Z.eqb_neq _ _)) in F by lia. cbn [orb andb] in F.
    change (2 ^ 52 * 2 ^ 268) with (2 ^ 64 * 2 ^ 256) in F. lia. }
  remember (Z.log2 (d * 2 ^ 320 / 10 ^ p) - 52) as s eqn:Es.
  assert (S0 : 48 <= s <= 267).
  { assert (100 <= Z.log2 (d * 2 ^ 320 / 10 ^ p)) by (apply Z.log2_le_pow2; lia). assert (Z.log2 (d * 2 ^ 320 / 10 ^ p) < 320) by (apply Z.log2_lt_pow2; lia). lia. }
  destruct (float_of_dec_step d p s ltac:(lia) Es ltac:(lia)) as (k & K1 & K2). rewrite F in K1.
  replace (k * (10 ^ p * 2 ^ s)) with (k * 2 ^ s * 10 ^ p) in K2 by ring. rewrite <- K1 in K2.
  assert (2 ^ s <= 2 ^ 267) by (apply Z.pow_le_mono_r; lia). assert (K3 : 10 ^ p * 2 ^ s <= 10 ^ p * 2 ^ 267) by nia.
  replace (z * 2 ^ 256 * 10 ^ p - d * 2 ^ 320) with ((z * 10 ^ p - d * 2 ^ 64) * 2 ^ 256) in K2 by (change (2 ^ 320) with (2 ^ 64 * 2 ^ 256); ring).
  rewrite Z.abs_mul in K2. change (Z.abs (2 ^ 256)) with (2 ^ 256) in K2. set (w := Z.abs (z * 10 ^ p - d * 2 ^ 64)) in *. set (t := 10 ^ p) in *. set (y := 2 ^ s) in *. clearbody w t y.
  assert (X : 2 * (w * 2 ^ 256) <= t * 2 ^ 267) by lia. change (2 ^ 267) with (2 ^ 256 * 2 ^ 11) in X. set (a := 2 ^ 256) in *. assert (0 < a) by (vm_compute; reflexivity). clearbody a.
  assert (w * 2 <= t * 2 ^ 11) by nia. change (2 ^ 64) with (2 ^ 11 * 2 ^ 53). change (2 ^ 54) with (2 * 2 ^ 53). lia.
Qed.
Definition short (z : Z) : Prop := exists m j, z = m * 2 ^ j /\ 0 < m < 2 ^ 53 /\ 0 <= j.
Lemma float_of_dec_hits d p z : 0 <= p -> short z -> Z.abs (z * 10 ^ p - d * 2 ^ 64) * 2 ^ 60 < 10 ^ p -> 0 <= d -> float_of_dec d p = z * 2 ^ 256.
Proof.
  intros Hp (m & j & -> & Hm & Hj) A Hd. set (z := m * 2 ^ j) in *. assert (Z1 : 1 <= z) by (unfold z; assert (0 < 2 ^ j) by (apply Z.pow_pos_nonneg; lia); nia).
  assert (P : 0 < 10 ^ p) by (apply Z.pow_pos_nonneg; lia).
  remember (d * 2 ^ 320 / 10 ^ p) as n eqn:En.
  pose proof (Z.div_mod (d * 2 ^ 320) (10 ^ p) ltac:(lia)) as D. pose proof (Z.mod_pos_bound (d * 2 ^ 320) (10 ^ p) ltac:(lia)) as R. rewrite <- En in D.
  assert (N : z * 2 ^ 256 - 2 ^ 196 - 1 <= n < z * 2 ^ 256 + 2 ^ 196).
  { set (r := (d * 2 ^ 320) mod 10 ^ p) in *. clearbody r. set (t := 10 ^ p) in *. clearbody t. clear En Hm Hj. change (2 ^ 320) with (2 ^ 64 * 2 ^ 60 * 2 ^ 196) in D. change (2 ^ 256) with (2 ^ 60 * 2 ^ 196).
    set (x := z * t - d * 2 ^ 64) in *. assert (DX : d * 2 ^ 64 = z * t - x) by lia.
    assert (DM : (z * t - x) * 2 ^ 60 * 2 ^ 196 = t * n + r) by (rewrite <- DX; lia). clearbody x z. clear D DX.
    set (u := x * 2 ^ 60) in *. assert (AU : - t < u < t) by (unfold u in *; change (2 ^ 60) with 1152921504606846976 in *; lia).
    set (w := 2 ^ 196) in *. assert (W : 0 < w) by (vm_compute; reflexivity). clearbody w.
    set (y := 2 ^ 60) in *. assert (DN : t * n + r = t * (z * (y * w)) - u * w) by (unfold u; rewrite <- DM; ring). clearbody u y. clear DM.
    set (k := z * (y * w)) in *. clearbody k. nia. }
  assert (NN : 2 ^ 255 <= n).
  { change (2 ^ 256) with (2 * 2 ^ 255) in N. change (2 ^ 255) with (2 ^ 59 * 2 ^ 196) in *. change (2 ^ 59) with 576460752303423488 in *. set (w := 2 ^ 196) in *. assert (1 < w) by (vm_compute; reflexivity). clearbody w. nia. }
  assert (LN : Z.log2 n <= Z.log2 z + 256).
  { assert (Z.log2 n < Z.log2 z + 257); [|lia]. apply Z.log2_lt_pow2; [lia|]. pose proof (Z.log2_spec z ltac:(lia)) as [_ LS]. pose proof (Z.log2_nonneg z).
    replace (Z.log2 z + 257) with (Z.succ (Z.log2 z) + 256) by lia. rewrite Z.pow_add_r by lia. set (g := 2 ^ Z.succ (Z.log2 z)) in *. clearbody g. assert (z + 1 <= g) by lia. change (2 ^ 256) with (2 ^ 60 * 2 ^ 196) in *. set (w := 2 ^ 196) in *. assert (0 < w) by (vm_compute; reflexivity).
    clearbody w. change (2 ^ 60) with 1152921504606846976 in *. clearbody z. nia. }
  assert (LZ : Z.log2 z <= j + 52). { unfold z. rewrite Z.log2_mul_pow2 by lia. assert (Z.log2 m < 53) by (apply Z.log2_lt_pow2; lia). lia. }
  remember (Z.log2 n - 52) as s eqn:Es. assert (S1 : 203 <= s) by (assert (255 <= Z.log2 n) by (apply Z.log2_le_pow2; lia); lia). assert (S2 : s <= j + 256) by lia.
  rewrite En in Es. destruct (float_of_dec_step d p s Hp Es ltac:(lia)) as (k & -> & K).
  assert (ZM : z * 2 ^ 256 = m * 2 ^ (j + 256 - s) * 2 ^ s) by (unfold z; rewrite <- !Z.mul_assoc, <- !Z.pow_add_r by lia; do 2 f_equal; lia).
  rewrite ZM. f_equal. set (i := m * 2 ^ (j + 256 - s)) in *.
  assert (A2 : 2 * Z.abs (i * (10 ^ p * 2 ^ s) - d * 2 ^ 320) < 10 ^ p * 2 ^ s).
  { replace (i * (10 ^ p * 2 ^ s) - d * 2 ^ 320) with ((z * 10 ^ p - d * 2 ^ 64) * 2 ^ 256) by (replace (i * (10 ^ p * 2 ^ s)) with (i * 2 ^ s * 10 ^ p) by ring; rewrite <- ZM; change (2 ^ 320) with (2 ^ 64 * 2 ^ 256); ring).
    rewrite Z.abs_mul. change (Z.abs (2 ^ 256)) with (2 ^ 60 * 2 ^ 196). set (x := Z.abs (z * 10 ^ p - d * 2 ^ 64)) in *. assert (2 ^ 203 <= 2 ^ s) by (apply Z.pow_le_mono_r; lia). change (2 ^ 203) with (128 * 2 ^ 196) in *.
    set (t := 10 ^ p) in *. set (y := 2 ^ s) in *. set (w := 2 ^ 196) in *. assert (0 < w) by (vm_compute; reflexivity). set (b := 2 ^ 60) in *. clear - A H H0 P. clearbody x t y w b.
    assert (x * b * w < t * w) by nia. assert (t * (128 * w) <= t * y) by nia. lia. }
  assert (0 < 10 ^ p * 2 ^ s) by (apply Z.mul_pos_pos; [lia|apply Z.pow_pos_nonneg; lia]). set (den := 10 ^ p * 2 ^ s) in *. clear - K A2 H. clearbody den i. set (num := d * 2 ^ 320) in *. clearbody num. nia.
Qed.
Lemma nearest_ok z p : 0 <= z < 2 ^ 64 -> 0 <= p -> 0 <= nearest_dec z p <= 10 ^ p /\ 2 * Z.abs (z * 10 ^ p - nearest_dec z p * 2 ^ 64) <= 2 ^ 64.
Proof.
  intros Hz Hp. assert (P : 0 < 10 ^ p) by (apply Z.pow_pos_nonneg; lia). unfold nearest_dec. set (t := 10 ^ p) in *. clearbody t. change (2 ^ 65) with (2 * 2 ^ 64). set (y := 2 ^ 64) in *.
  assert (Y : 0 < y) by (vm_compute; reflexivity). clearbody y.
  pose proof (Z.div_mod (z * t * 2 + y) (2 * y) ltac:(lia)) as D. pose proof (Z.mod_pos_bound (z * t * 2 + y) (2 * y) ltac:(lia)) as R.
  set (q := (z * t * 2 + y) / (2 * y)) in *. set (r := (z * t * 2 + y) mod (2 * y)) in *. clearbody q r. split; [|lia]. nia.
Qed.
Lemma shortest_spec z : forall k fuel p0, (k < fuel)%nat -> float_of_dec (nearest_dec z (p0 + Z.of_nat k)) (p0 + Z.of_nat k) = z * 2 ^ 256 ->
  exists j, (j <= k)%nat /\ shortest fuel z p0 = (nearest_dec z (p0 + Z.of_nat j), - (p0 + Z.of_nat j)) /\ float_of_dec (nearest_dec z (p0 + Z.of_nat j)) (p0 + Z.of_nat j) = z * 2 ^ 256.
Proof.
  induction k as [|k IH]; intros [|f] p0 K H; try lia; cbn [shortest]; cbv zeta.
  - exists O. rewrite Z.add_0_r in *. rewrite H, Z.eqb_refl. auto.
  - destruct (Z.eqb_spec (float_of_dec (nearest_dec z p0) p0) (z * 2 ^ 256)) as [E|E].
    + exists O. rewrite Z.add_0_r. rewrite E. repeat split; auto; lia.
    + replace (p0 + Z.of_nat (S k)) with (p0 + 1 + Z.of_nat k) in H by lia. destruct (IH f (p0 + 1) ltac:(lia) H) as (j & J & SS & F).
      exists (S j). replace (p0 + Z.of_nat (Datatypes.S j)) with (p0 + 1 + Z.of_nat j) by lia. repeat split; trivial; lia.
Qed.
(** The decimal of a float in (0, 1). *)
Lemma dec_of_float_pos z d e : 0 < z -> shortest 64 z 0 = (d, e) -> dec_of_float (BF z) = Ok (d, e).
Proof. intros H S. cbn [dec_of_float]. rewrite (proj2 (Z.eqb_neq z 0)) by lia. rewrite Z.abs_eq, S, Z.sgn_pos by lia. now rewrite Z.mul_1_l. Qed.
Lemma dec_of_float_close z : short z -> z < 2 ^ 64 ->
  exists d q, dec_of_float (BF z) = Ok (d, - q) /\ 0 <= q /\ Z.abs (z * 10 ^ q - d * 2 ^ 64) * 2 ^ 54 <= 2 ^ 64 * 10 ^ q.
Proof.
  intros Sh L. assert (Z1 : 0 < z) by (destruct Sh as (m & j & -> & Hm & Hj); assert (0 < 2 ^ j) by (apply Z.pow_pos_nonneg; lia); nia).
  assert (F : float_of_dec (nearest_dec z (0 + Z.of_nat 40)) (0 + Z.of_nat 40) = z * 2 ^ 256).
  { destruct (nearest_ok z 40 ltac:(lia) ltac:(lia)) as [A B]. change (0 + Z.of_nat 40) with 40. apply float_of_dec_hits; [lia|exact Sh| |lia].
    set (w := Z.abs (z * 10 ^ 40 - nearest_dec z 40 * 2 ^ 64)) in *. clearbody w. assert (2 ^ 64 * 2 ^ 60 < 10 ^ 40) by (vm_compute; reflexivity). clear - H B. nia. }
  destruct (shortest_spec z 40 64 0 ltac:(lia) F) as (j & J & S & FJ). rewrite Z.add_0_l in *. exists (nearest_dec z (Z.of_nat j)), (Z.of_nat j).
  split; [now apply dec_of_float_pos|]. split; [lia|].
  destruct (nearest_ok z (Z.of_nat j) ltac:(lia) ltac:(lia)) as [A _]. rewrite (Z.mul_comm (2 ^ 64)).
  exact (float_of_dec_near (nearest_dec z (Z.of_nat j)) (Z.of_nat j) z ltac:(lia) A ltac:(lia) FJ).
Qed.
Lemma dec_of_float_exact z : short z -> z < 2 ^ 64 -> (2 ^ 64 | z * 10 ^ 16) ->
  exists d q, dec_of_float (BF z) = Ok (d, - q) /\ 0 <= q /\ z * 10 ^ q = d * 2 ^ 64.
Proof.
  intros Sh L [m M]. assert (Z1 : 0 < z) by (destruct Sh as (m' & j & -> & Hm & Hj); assert (0 < 2 ^ j) by (apply Z.pow_pos_nonneg; lia); nia).
  assert (F : float_of_dec (nearest_dec z (0 + Z.of_nat 16)) (0 + Z.of_nat 16) = z * 2 ^ 256).
  { change (0 + Z.of_nat 16) with 16. destruct (nearest_ok z 16 ltac:(lia) ltac:(lia)) as [A B]. apply float_of_dec_hits; [lia|exact Sh| |lia].
    assert (nearest_dec z 16 = m) as -> by (rewrite M in B; lia). rewrite M, Z.sub_diag. vm_compute. reflexivity. }
  destruct (shortest_spec z 16 64 0 ltac:(lia) F) as (j & J & S & FJ). rewrite Z.add_0_l in *. exists (nearest_dec z (Z.of_nat j)), (Z.of_nat j).
  split; [now apply dec_of_float_pos|]. split; [lia|].
  destruct (nearest_ok z (Z.of_nat j) ltac:(lia) ltac:(lia)) as [A _].
  pose proof (float_of_dec_near (nearest_dec z (Z.of_nat j)) (Z.of_nat j) z ltac:(lia) A ltac:(lia) FJ) as N. set (t := 10 ^ Z.of_nat j) in *. set (d := nearest_dec z (Z.of_nat j)) in *. clear Sh F S FJ.
  assert (T : 0 < t) by (apply Z.pow_pos_nonneg; lia). 
  assert (E : 10 ^ 16 = 10 ^ (16 - Z.of_nat j) * t) by (unfold t; rewrite <- Z.pow_add_r by lia; f_equal; lia). set (u := 10 ^ (16 - Z.of_nat j)) in *.
  assert (U : 0 < u) by (apply Z.pow_pos_nonneg; lia). clearbody t d u.
  assert (Q : Z.abs (z * t - d * 2 ^ 64) * u = Z.abs (m - d * u) * 2 ^ 64).
  { rewrite <- (Z.abs_eq u) at 1 by lia. rewrite <- Z.abs_mul. change (2 ^ 64) with (Z.abs (2 ^ 64)) at 2. rewrite <- Z.abs_mul. f_equal. rewrite E in M. lia. }
  set (w := Z.abs (z * t - d * 2 ^ 64)) in *. assert (W : w = 0); [|unfold w in W; lia].
  assert (K : m - d * u = 0 \/ 1 <= Z.abs (m - d * u)) by lia. destruct K as [K|K]; [rewrite K in Q; cbn in Q; nia|]. exfalso.
  set (k := Z.abs (m - d * u)) in *. clearbody w k. clear M Z1 L A.
  assert (N' : w * 2 ^ 54 * u <= 2 ^ 64 * 10 ^ 16) by (rewrite E; nia). assert (2 ^ 54 * 2 ^ 64 <= w * 2 ^ 54 * u) by nia.
  assert (2 ^ 64 * 10 ^ 16 < 2 ^ 54 * 2 ^ 64) by (vm_compute; reflexivity). lia.
Qed.

(** ** The digits taken apart *)
Lemma dec_int_sign c e : (c < 0 -> dec_int c e <= 0) /\ (0 <= c -> 0 <= dec_int c e).
Proof.
  unfold dec_int. destruct (Z.leb_spec 0 e) as [H|H].
  - assert (0 < 10 ^ e) by (apply Z.pow_pos_nonneg; lia). split; intros; nia.
  - assert (0 < 10 ^ (- e)) by (apply Z.pow_pos_nonneg; lia). split; intros; [|now apply Z.quot_pos].
    rewrite <- (Z.opp_involutive c), Z.quot_opp_l by lia. assert (0 <= Z.quot (- c) (10 ^ (- e))) by (apply Z.quot_pos; lia). lia.
Qed.
Lemma log2_width V L : 0 <= V < 2 ^ L -> 0 < L -> Z.log2 V + 1 <= L.
Proof. intros H G. destruct (Z.eq_dec V 0) as [->|N]; [cbn; lia|]. assert (Z.log2 V < L) by (apply Z.log2_lt_pow2; lia). lia. Qed.
Lemma log2_too_wide V L : 2 ^ L <= V -> 0 <= L -> L < Z.log2 V + 1.
Proof. intros H G. assert (0 < 2 ^ L) by (apply Z.pow_pos_nonneg; lia). assert (L <= Z.log2 V) by (apply Z.log2_le_pow2; lia). lia. Qed.
Lemma fmt_b_length v : slen (fmt_b v) = if v <? 0 then Z.log2 (- v) + 2 else Z.log2 v + 1.
Proof.
  unfold fmt_b. destruct (Z.ltb_spec v 0) as [H|H].
  - destruct (bin_digits_ok (- v) ltac:(lia)) as (_ & _ & L). rewrite slen_app, L. change (slen "-") with 1. lia.
  - now destruct (bin_digits_ok v ltac:(lia)) as (_ & _ & L).
Qed.
Definition widths : list Z := [8; 16; 32; 64; 128].
Lemma assertLength_ok upper lower : In (upper + lower) widths -> assertLength upper lower = Some (upper + lower).
Proof. unfold assertLength. cbv zeta. generalize (upper + lower). intros n H. cbn in H. intuition (subst; reflexivity). Qed.

Lemma parts c e precision upper lower : In (upper + lower) widths -> 0 <= upper -> 0 <= lower -> 0 <= precision ->
  let v := dec_int c e in let P := Z.min precision lower in let L := upper + lower in
  P <= 53 -> - 2 ^ (L - 1) < v < 2 ^ L ->
  parserFixPoint c e precision upper lower =
    bind (dec_of_float (BF ((Z.abs v mod 2 ^ lower / 2 ^ (lower - P)) * 2 ^ (64 - P))))
         (fun f => if 0 <? v then Ok (dec_add (Z.abs v / 2 ^ lower, 0) f) else Ok (dec_add (- (Z.abs v / 2 ^ lower), 0) (dec_neg f))).
Proof.
  intros W Hu Hl Hp v P L HP Hv. assert (L8 : 8 <= L) by (unfold L; cbn in W; lia).
  unfold parserFixPoint. cbv zeta. rewrite assertLength_ok by exact W. fold v L.
  assert (FL : slen (fmt_b v) <= L).
  { rewrite fmt_b_length. destruct (Z.ltb_spec v 0) as [N|N]; [pose proof (log2_width (- v) (L - 1) ltac:(lia) ltac:(lia)); lia|pose proof (log2_width v L ltac:(lia) ltac:(lia)); lia]. }
  change (Z.of_nat (String.length (fmt_b v))) with (slen (fmt_b v)). rewrite (proj2 (Z.ltb_ge _ _)) by exact FL.
  set (bits := if c <? 0 then _ else _).
  assert (B : is_bits bits /\ bin_val 0 bits = Z.abs v /\ slen bits = L).
  { destruct (dec_int_sign c e) as [Neg Pos]. fold v in Neg, Pos. unfold bits.
    assert (J : forall s, is_bits s -> slen s <= L -> bin_val 0 s = Z.abs v -> is_bits (right_justify0 s (Z.to_nat L)) /\ bin_val 0 (right_justify0 s (Z.to_nat L)) = Z.abs v /\ slen (right_justify0 s (Z.to_nat L)) = L).
    { intros s S1 S2 S3. destruct (justify_ok s (Z.to_nat L) S1 ltac:(lia)) as (J1 & J2 & J3). rewrite J2, J3, Z2Nat.id by lia. auto. }
    destruct (Z.ltb_spec c 0) as [N|N].
    - unfold fmt_b in *. destruct (Z.ltb_spec v 0) as [Q|Q].
      + cbn [append sdrop]. destruct (bin_digits_ok (- v) ltac:(lia)) as (D1 & D2 & D3). apply J; [exact D1| |rewrite D2; lia].
        rewrite slen_app in FL. change (slen "-") with 1 in FL. lia.
      + assert (v = 0) as -> by lia. apply J; cbn; trivial; lia.
    - unfold fmt_b in *. rewrite (proj2 (Z.ltb_ge v 0)) in * by lia. destruct (bin_digits_ok v ltac:(lia)) as (D1 & D2 & D3). apply J; [exact D1|exact FL|rewrite D2; lia]. }
  destruct B as (B1 & B2 & B3). clearbody bits.
  change (Z.of_nat (String.length bits)) with (slen bits). rewrite B3, (proj2 (Z.ltb_ge L lower)) by lia.
  assert (LN : String.length bits = Z.to_nat L) by (unfold slen in B3; lia).
  set (a := Z.to_nat (L - lower)). replace (String.length bits - Z.to_nat lower)%nat with a by (unfold a; lia).
  pose proof (stake_drop a bits) as SD. set (U := stake a bits) in *. set (R := sdrop a bits) in *.
  assert (LR : slen R = lower) by (unfold R; rewrite slen_sdrop by (unfold a; lia); rewrite B3; unfold a; lia).
  rewrite <- SD in B1, B2. destruct (bin_parts U R (Z.abs v) B1 B2) as [VU VR]. rewrite LR in VU, VR. apply is_bits_app in B1. destruct B1 as [_ BR].
  assert (LR' : String.length R = Z.to_nat lower) by (unfold slen in LR; lia).
  pose proof (stake_drop (Z.to_nat P) R) as SR. set (F := stake (Z.to_nat P) R) in *. set (D := sdrop (Z.to_nat P) R) in *.
  assert (LD : slen D = lower - P) by (unfold D; rewrite slen_sdrop by (unfold P; lia); unfold P; lia).
  assert (LF : slen F = P) by (unfold F; rewrite slen_stake by (unfold P; lia); unfold P; lia).
  rewrite <- SR in BR, VR. destruct (bin_parts F D _ BR VR) as [VF _]. rewrite LD in VF. apply is_bits_app in BR. destruct BR as [BF0 _].
  assert (SUB : substr bits lower (lower - precision) = Ok F).
  { unfold substr. cbv zeta. change (Z.of_nat (String.length bits)) with (slen bits). rewrite B3.
    replace (if 0 <? lower - precision then L - (lower - precision) else L) with (L - lower + P) by (unfold P; destruct (Z.ltb_spec 0 (lower - precision)); lia).
    rewrite (proj2 (Z.leb_le 0 _)), (proj2 (Z.leb_le (L - lower) _)), (proj2 (Z.leb_le _ L)) by (unfold P; lia). cbn [andb].
    replace (L - lower + P - (L - lower)) with P by lia. reflexivity. }
  rewrite SUB. cbn [bind].
  pose proof (float_part_sum F 0 0 BF0 ltac:(lia) ltac:(lia) ltac:(lia)) as FP. rewrite Z.mul_0_l, Z.add_0_l, Z.mul_0_l in FP. change (0 + 1) with 1 in FP. rewrite Z.add_0_l in FP.
  rewrite LF, VF in FP. rewrite FP, VU. reflexivity.
Qed.
Lemma dec_add_int u d q : 0 <= q -> dec_add (u, 0) (d, - q) = (u * 10 ^ q + d, - q).
Proof.
  intros H. unfold dec_add. rewrite Z.min_r by lia. replace (0 - - q) with q by lia. rewrite Z.sub_diag. f_equal. change (10 ^ 0) with 1. lia.
Qed.
Lemma cut_split V lower P : 0 <= V -> 0 <= P <= lower ->
  V / 2 ^ (lower - P) = V / 2 ^ lower * 2 ^ P + V mod 2 ^ lower / 2 ^ (lower - P) /\ 0 <= V mod 2 ^ lower / 2 ^ (lower - P) < 2 ^ P.
Proof.
  intros HV HP. assert (E : 2 ^ lower = 2 ^ P * 2 ^ (lower - P)) by (rewrite <- Z.pow_add_r by lia; f_equal; lia).
  assert (A : 0 < 2 ^ P) by (apply Z.pow_pos_nonneg; lia). assert (B : 0 < 2 ^ (lower - P)) by (apply Z.pow_pos_nonneg; lia).
  set (a := 2 ^ P) in *. set (b := 2 ^ (lower - P)) in *. set (l := 2 ^ lower) in *. clearbody a b l. subst l.
  pose proof (Z.div_mod V (a * b) ltac:(nia)) as D. pose proof (Z.mod_pos_bound V (a * b) ltac:(nia)) as R. set (u := V / (a * b)) in *. set (w := V mod (a * b)) in *. clearbody u w.
  split.
  - subst V. replace (a * b * u + w) with (u * a * b + w) by ring. rewrite Z.div_add_l by lia. reflexivity.
  - split; [apply Z.div_pos; lia|apply Z.div_lt_upper_bound; nia].
Qed.

(** ** C42 *)
(** The number printed: [t] is |v| cut to [P] fraction digits. *)
Definition cut (v lower P : Z) : Z := Z.sgn v * (Z.abs v / 2 ^ (lower - P)).

(** For numbers of the width and up to 53 fraction digits the result is within
    2^-54 of the cut number. *)
Theorem C42_close_partial c e precision upper lower : In (upper + lower) widths -> 0 <= upper -> 0 <= lower -> 0 <= precision ->
  let v := dec_int c e in let P := Z.min precision lower in
  P <= 53 -> - 2 ^ (upper + lower - 1) < v < 2 ^ (upper + lower) ->
  exists c' q, parserFixPoint c e precision upper lower = Ok (c', - q) /\ 0 <= q /\
    Z.abs (c' * 2 ^ P - cut v lower P * 10 ^ q) * 2 ^ 54 <= 2 ^ P * 10 ^ q.
Proof.
  intros W Hu Hl Hp v P HP Hv. pose proof (parts c e precision upper lower W Hu Hl Hp HP Hv) as E. fold v P in E. unfold cut.
  destruct (cut_split (Z.abs v) lower P ltac:(lia) ltac:(lia)) as [TS TR]. rewrite TS. set (U := Z.abs v / 2 ^ lower) in *. set (F := Z.abs v mod 2 ^ lower / 2 ^ (lower - P)) in *.
  assert (P0 : 0 <= P) by lia. assert (PP : 0 < 2 ^ P) by (apply Z.pow_pos_nonneg; lia).
  assert (HF : exists d q, dec_of_float (BF (F * 2 ^ (64 - P))) = Ok (d, - q) /\ 0 <= q /\ Z.abs (F * 10 ^ q - d * 2 ^ P) * 2 ^ 54 <= 2 ^ P * 10 ^ q).
  { destruct (Z.eq_dec F 0) as [F0|F0]; [exists 0, 0; rewrite F0; cbn [Z.mul]; split; [reflexivity|split; [lia|]]; rewrite Z.mul_1_r; change (Z.abs (0 * 10 ^ 0 - 0)) with 0; lia|].
    assert (PX : 0 < 2 ^ (64 - P)) by (apply Z.pow_pos_nonneg; lia).
    assert (E64 : 2 ^ 64 = 2 ^ P * 2 ^ (64 - P)) by (rewrite <- Z.pow_add_r by lia; f_equal; lia).
    destruct (dec_of_float_close (F * 2 ^ (64 - P))) as (d & q & D1 & D2 & D3).
    - exists F, (64 - P). assert (2 ^ P <= 2 ^ 53) by (apply Z.pow_le_mono_r; lia). repeat split; lia.
    - rewrite E64. apply Z.mul_lt_mono_pos_r; [exact PX|apply TR].
    - exists d, q. split; [exact D1|]. split; [exact D2|]. rewrite E64 in D3. set (x := 2 ^ (64 - P)) in *. set (t := 10 ^ q) in *.
      replace (F * x * t - d * (2 ^ P * x)) with ((F * t - d * 2 ^ P) * x) in D3 by ring. rewrite Z.abs_mul, (Z.abs_eq x) in D3 by lia. set (w := Z.abs (F * t - d * 2 ^ P)) in *. set (y := 2 ^ 54) in *. set (pp := 2 ^ P) in *. clearbody x t w y pp. apply (Z.mul_le_mono_pos_r _ _ x); [exact PX|]. lia. }
  destruct HF as (d & q & D1 & D2 & D3). rewrite E, D1. cbn [bind dec_neg]. rewrite !dec_add_int by exact D2.
  destruct (Z.ltb_spec 0 v) as [V|V].
  - exists (U * 10 ^ q + d), q. split; [reflexivity|split; [exact D2|]]. rewrite Z.sgn_pos by exact V.
    replace ((U * 10 ^ q + d) * 2 ^ P - 1 * (U * 2 ^ P + F) * 10 ^ q) with (- (F * 10 ^ q - d * 2 ^ P)) by ring. now rewrite Z.abs_opp.
  - exists (- U * 10 ^ q + - d), q. split; [reflexivity|split; [exact D2|]].
    replace ((- U * 10 ^ q + - d) * 2 ^ P - Z.sgn v * (U * 2 ^ P + F) * 10 ^ q) with (F * 10 ^ q - d * 2 ^ P); [exact D3|].
    destruct (Z.eq_dec v 0) as [V0|V0]; [|rewrite Z.sgn_neg by lia; ring].
    assert (U = 0 /\ F = 0) as [-> ->] by (unfold U, F; rewrite V0; cbn [Z.abs]; rewrite Z.div_0_l, Z.mod_0_l, Z.div_0_l by (apply Z.pow_nonzero; lia); auto). ring.
Qed.
(** It is exact when the cut number has at most sixteen decimals. *)
Theorem C42_exact_partial c e precision upper lower : In (upper + lower) widths -> 0 <= upper -> 0 <= lower -> 0 <= precision ->
  let v := dec_int c e in let P := Z.min precision lower in
  P <= 53 -> - 2 ^ (upper + lower - 1) < v < 2 ^ (upper + lower) -> (2 ^ P | cut v lower P * 10 ^ 16) ->
  exists c' q, parserFixPoint c e precision upper lower = Ok (c', - q) /\ 0 <= q /\ c' * 2 ^ P = cut v lower P * 10 ^ q.
Proof.
  intros W Hu Hl Hp v P HP Hv [m M]. pose proof (parts c e precision upper lower W Hu Hl Hp HP Hv) as E. fold v P in E. unfold cut in *.
  destruct (cut_split (Z.abs v) lower P ltac:(lia) ltac:(lia)) as [TS TR]. rewrite TS in *. set (U := Z.abs v / 2 ^ lower) in *. set (F := Z.abs v mod 2 ^ lower / 2 ^ (lower - P)) in *.
  assert (P0 : 0 <= P) by lia. assert (PP : 0 < 2 ^ P) by (apply Z.pow_pos_nonneg; lia).
  assert (V0 : v = 0 -> U = 0 /\ F = 0).
  { intros V0. unfold U, F; rewrite V0; cbn [Z.abs]; rewrite Z.div_0_l, Z.mod_0_l, Z.div_0_l by (apply Z.pow_nonzero; lia); auto. }
  assert (HF : exists d q, dec_of_float (BF (F * 2 ^ (64 - P))) = Ok (d, - q) /\ 0 <= q /\ F * 10 ^ q = d * 2 ^ P).
  { destruct (Z.eq_dec F 0) as [F0|F0]; [exists 0, 0; rewrite F0; cbn [Z.mul]; split; [reflexivity|split; [lia|reflexivity]]|].
    assert (PX : 0 < 2 ^ (64 - P)) by (apply Z.pow_pos_nonneg; lia).
    assert (E64 : 2 ^ 64 = 2 ^ P * 2 ^ (64 - P)) by (rewrite <- Z.pow_add_r by lia; f_equal; lia).
    destruct (dec_of_float_exact (F * 2 ^ (64 - P))) as (d & q & D1 & D2 & D3).
    - exists F, (64 - P). assert (2 ^ P <= 2 ^ 53) by (apply Z.pow_le_mono_r; lia). repeat split; lia.
    - rewrite E64. apply Z.mul_lt_mono_pos_r; [exact PX|apply TR].
    - exists (Z.sgn v * m - U * 10 ^ 16). rewrite E64. assert (SG : Z.sgn v * Z.sgn v = 1 \/ v = 0) by (destruct v; auto).
      destruct SG as [SG|SG]; [|destruct (V0 SG); contradiction]. set (x := 2 ^ (64 - P)) in *. set (t := 10 ^ 16) in *. set (pp := 2 ^ P) in *. set (g := Z.sgn v) in *.
      assert (M2 : (U * pp + F) * t = g * m * pp) by (rewrite <- Z.mul_assoc, <- M; replace (g * (g * (U * pp + F) * t)) with ((g * g) * ((U * pp + F) * t)) by ring; rewrite SG; ring).
      replace (F * x * t) with ((U * pp + F) * t * x - U * pp * t * x) by ring. rewrite M2. ring.
    - exists d, q. split; [exact D1|]. split; [exact D2|]. rewrite E64 in D3. set (x := 2 ^ (64 - P)) in *. set (t := 10 ^ q) in *. set (pp := 2 ^ P) in *. apply (Z.mul_reg_r _ _ x); [lia|]. lia. }
  destruct HF as (d & q & D1 & D2 & D3). rewrite E, D1. cbn [bind dec_neg]. rewrite !dec_add_int by exact D2.
  destruct (Z.ltb_spec 0 v) as [V|V].
  - exists (U * 10 ^ q + d), q. split; [reflexivity|split; [exact D2|]]. rewrite Z.sgn_pos by exact V. lia.
  - exists (- U * 10 ^ q + - d), q. split; [reflexivity|split; [exact D2|]].
    destruct (Z.eq_dec v 0) as [V1|V1]; [|rewrite Z.sgn_neg by lia; lia]. destruct (V0 V1) as [-> F0]. rewrite F0 in *. rewrite V1. cbn [Z.sgn]. lia.
Qed.
(** So it is exact for every number of the width up to precision 16. *)
Corollary C42_sixteen c e precision upper lower : In (upper + lower) widths -> 0 <= upper -> 0 <= lower -> 0 <= precision <= 16 ->
  let v := dec_int c e in let P := Z.min precision lower in
  - 2 ^ (upper + lower - 1) < v < 2 ^ (upper + lower) ->
  exists c' q, parserFixPoint c e precision upper lower = Ok (c', - q) /\ 0 <= q /\ c' * 2 ^ P = cut v lower P * 10 ^ q.
Proof.
  intros W Hu Hl Hp v P Hv. apply C42_exact_partial; try assumption; try lia. apply Z.divide_mul_r. exists (2 ^ (16 - Z.min precision lower) * 5 ^ 16).
  change (10 ^ 16) with (5 ^ 16 * 2 ^ 16). replace 16 with (16 - Z.min precision lower + Z.min precision lower) at 2 by lia. rewrite Z.pow_add_r by lia. ring.
Qed.
(** Numbers outside the width come back as they are. *)
Theorem C42_outside c e precision upper lower : In (upper + lower) widths ->
  2 ^ (upper + lower) <= dec_int c e \/ dec_int c e <= - 2 ^ (upper + lower - 1) -> parserFixPoint c e precision upper lower = Ok (c, e).
Proof.
  intros W H. unfold parserFixPoint. cbv zeta. rewrite assertLength_ok by exact W. set (L := upper + lower) in *. set (v := dec_int c e) in *.
  assert (L8 : 8 <= L) by (cbn in W; lia). change (Z.of_nat (String.length (fmt_b v))) with (slen (fmt_b v)). rewrite fmt_b_length.
  assert (0 < 2 ^ (L - 1) /\ 0 < 2 ^ L) as [A B] by (split; apply Z.pow_pos_nonneg; lia).
  destruct (Z.ltb_spec v 0) as [N|N].
  - rewrite (proj2 (Z.ltb_lt _ _)); [reflexivity|]. pose proof (log2_too_wide (- v) (L - 1) ltac:(lia) ltac:(lia)). lia.
  - rewrite (proj2 (Z.ltb_lt _ _)); [reflexivity|]. apply log2_too_wide; lia.
Qed.
(** The decoded types: nine fraction digits. *)
Theorem C42_fixed_u64_partial E c ts u pre tl : resolves E c ts CSubstrateFixedU64 -> 0 <= u < 2 ^ 63 -> blen (pre ++ le_bytes 8 u ++ tl) < 2 ^ 63 ->
  exists n q, Decodes E c (pre ++ le_bytes 8 u ++ tl) (blen pre) ts (Ok (VDec n (- q), blen pre + 8, [])) /\ 0 <= q /\ n * 2 ^ 9 = u / 2 ^ 23 * 10 ^ q.
Proof.
  intros R Hu L. destruct (C42_sixteen u 0 9 32 32) as (n & q & P & Q & X); [cbn; auto|lia|lia|lia| |].
  { unfold dec_int. change (0 <=? 0) with true. cbv iota. change (10 ^ 0) with 1. change (2 ^ (32 + 32)) with (2 * 2 ^ 63). change (2 ^ (32 + 32 - 1)) with (2 ^ 63). lia. }
  exists n, q. split; [|split; [exact Q|]].
  - change 8 with (Z.of_nat 8). rewrite <- (blen_le_bytes 8 u). eapply Decodes_next; [exact R|reflexivity|reflexivity| |exact L]. cbv beta.
    rewrite le_uint_bytes by (change (256 ^ Z.of_nat 8) with (2 * 2 ^ 63); lia). rewrite (i64_small u) by (unfold two63; lia). unfold ParseI32F32. now rewrite P.
  - unfold dec_int, cut in X. change (Z.min 9 32) with 9 in X. change (0 <=? 0) with true in X. cbv iota in X. change (10 ^ 0) with 1 in X. rewrite Z.mul_1_r, Z.abs_eq in X by lia.
    destruct (Z.eq_dec u 0) as [->|N]; [cbn [Z.sgn] in X; change (0 / 2 ^ 23) with 0; lia|]. rewrite Z.sgn_pos in X by lia. change (32 - 9) with 23 in X. lia.
Qed.
Theorem C42_fixed_i128_partial E c ts b pre tl : resolves E c ts CSubstrateFixedI128 -> resolves E c "i128" (CIntFixed 16) -> blen b = 16 ->
  twos_val b <> - 2 ^ 127 -> blen (pre ++ b ++ tl) < 2 ^ 63 ->
  exists n q, Decodes E c (pre ++ b ++ tl) (blen pre) ts (Ok (VDec n (- q), blen pre + 16, [])) /\ 0 <= q /\ n * 2 ^ 9 = cut (twos_val b) 64 9 * 10 ^ q.
Proof.
  intros (cd & sub & G & I) RI B NM L. set (v := twos_val b) in *.
  assert (Rv : - 2 ^ 127 < v < 2 ^ 127).
  { pose proof (le_val_range b) as V. assert (LB : List.length b = 16%nat) by (unfold blen in B; lia). unfold v, twos_val in *. cbv zeta in *. rewrite LB in *. change (256 ^ Z.of_nat 16) with (2 * 2 ^ 127) in *. change (8 * Z.of_nat 16) with 128 in *. change (2 ^ 128) with (2 * 2 ^ 127) in *. change (2 ^ (128 - 1)) with (2 ^ 127) in *.
    destruct (Z.ltb_spec (le_val b) (2 ^ 127)); lia. }
  destruct (C42_sixteen v 0 9 64 64) as (n & q & P & Q & X); [cbn; auto 6|lia|lia|lia| |].
  { unfold dec_int. change (0 <=? 0) with true. cbv iota. change (10 ^ 0) with 1. change (2 ^ (64 + 64)) with (2 * 2 ^ 127). change (2 ^ (64 + 64 - 1)) with (2 ^ 127). lia. }
  exists n, q. split; [|split; [exact Q|]].
  - destruct (C05_decode_partial E c "i128" 16 b pre tl RI ltac:(cbn; auto 6) B NM L) as [_ [f F]]. split; [discriminate|]. exists (S f). cbn [decode]. rewrite G. cbn [bind]. rewrite I. cbn [process run]. rewrite F. cbn [bind].
    unfold ParseI64F64. fold v. rewrite P. reflexivity.
  - unfold dec_int in X. change (Z.min 9 64) with 9 in X. change (0 <=? 0) with true in X. cbv iota in X. change (10 ^ 0) with 1 in X. now rewrite Z.mul_1_r in X.
Qed.
Example C42_names : let r ts cd := resolves (reg_env base_reg) (Ctx (-1) "" None) ts cd in
  r "SubstrateFixedU64" CSubstrateFixedU64 /\ r "SubstrateFixedI128" CSubstrateFixedI128 /\ r "i128" (CIntFixed 16) /\ twos_val (map Zb [255;255;255;255;255;255;255;255;255;255;255;255;255;255;255;255]) = -1.
Proof. cbv zeta. repeat split; res. Qed.
(** The cases of the project's own tests, and one with the condition of
    C42_exact_partial beyond sixteen digits. *)
Example C42_case : parserFixPoint 79643934720 0 18 32 32 = Ok (18543548583984375, -15) /\ (2 ^ 18 | cut 79643934720 32 18 * 10 ^ 16)
  /\ parserFixPoint 8246337024 0 18 32 32 = Ok (19199981689453125, -16) /\ parserFixPoint (-334317721545467687680) 0 18 64 64 = Ok (-181233978271484375, -16).
Proof. repeat split; try (vm_compute; reflexivity). exists 185435485839843750. vm_compute. reflexivity. Qed.

(** The full statement is false. *)
Theorem C42_refuted :
  (* 17 digits: the decimal is the shortest for the float, not the number *)
  (exists c' q, parserFixPoint 131071 0 17 111 17 = Ok (c', - q) /\ c' * 2 ^ 17 <> cut 131071 17 17 * 10 ^ q)
  (* 63 digits: 2^63 wraps, so the last digit counts as minus 2^-63 *)
  /\ (exists c' q, parserFixPoint 3 0 63 64 64 = Ok (c', - q) /\ c' <= 0 /\ 0 < cut 3 64 63)
  (* 64 digits: division by zero gives infinity, which panics *)
  /\ (exists m, parserFixPoint 1 0 64 64 64 = Panic m)
  (* the least number of the width is not converted *)
  /\ parserFixPoint (- 2 ^ 127) 0 9 64 64 = Ok (- 2 ^ 127, 0) /\ cut (- 2 ^ 127) 64 9 = - 2 ^ 63 * 2 ^ 9.
Proof.
  split; [eexists _, 16; split; [vm_compute; reflexivity|vm_compute; discriminate]|].
  split; [eexists _, 35; split; [vm_compute; reflexivity|split; vm_compute; [discriminate|reflexivity]]|].
  split; [eexists; vm_compute; reflexivity|]. split; vm_compute; reflexivity.
Qed.
(** SubstrateFixedU64 of 2^63: the text is the negative integer itself. *)
Theorem C42_fixed_u64_refuted : exists b, let E := reg_env base_reg in let c := Ctx (-1) "" None in
  resolves E c "SubstrateFixedU64" CSubstrateFixedU64 /\ le_val b = 2 ^ 63 /\ Decodes E c b 0 "SubstrateFixedU64" (Ok (VDec (- 2 ^ 63) 0, 8, [])).
Proof. exists (map Zb [0; 0; 0; 0; 0; 0; 0; 128]). cbv zeta. split; [res|]. split; [reflexivity|]. split; [discriminate|exists 3%nat; vm_compute; reflexivity]. Qed.

Print Assumptions C42_close_partial.
Print Assumptions C42_exact_partial.
Print Assumptions C42_sixteen.
Print Assumptions C42_outside.
Print Assumptions C42_fixed_u64_partial.
Print Assumptions C42_fixed_i128_partial.
Print Assumptions C42_refuted.
Print Assumptions C42_fixed_u64_refuted.
