(** Proofs about the helpers of utiles/tools.go and about the cursor. *)

From Verif Require Import GoBase SpecNum ModelTools ProofsBase.
Ltac Zify.zify_post_hook ::= Z.div_mod_to_equations.

(** ** Hex *)

Lemma hex_digit_cases d : 0 <= d < 16 ->
  (d < 10 /\ bZ (hex_digit d) = 48 + d) \/ (10 <= d /\ bZ (hex_digit d) = 87 + d).
Proof.
  intros H. unfold hex_digit. destruct (Z.ltb_spec d 10); [left|right]; (split; [lia|]); apply bZ_Zb_small; lia.
Qed.

Lemma hex_val_digit d : 0 <= d < 16 -> hex_val (hex_digit d) = Some d.
Proof.
  intros H. unfold hex_val. destruct (hex_digit_cases d H) as [[L ->]|[L ->]].
  - destruct (Z.leb_spec 48 (48 + d)), (Z.leb_spec (48 + d) 57); cbn [andb]; try lia. f_equal; lia.
  - destruct (Z.leb_spec 48 (87 + d)), (Z.leb_spec (87 + d) 57); cbn [andb]; try lia.
    destruct (Z.leb_spec 97 (87 + d)), (Z.leb_spec (87 + d) 102); cbn [andb]; try lia. f_equal; lia.
Qed.

Lemma hex_val_upper d : 0 <= d < 16 -> hex_val (upper_char (hex_digit d)) = Some d.
Proof.
  intros H. assert (d = 0 \/ d = 1 \/ d = 2 \/ d = 3 \/ d = 4 \/ d = 5 \/ d = 6 \/ d = 7 \/ d = 8 \/ d = 9 \/
    d = 10 \/ d = 11 \/ d = 12 \/ d = 13 \/ d = 14 \/ d = 15) as C by lia.
  intuition subst; reflexivity.
Qed.

Lemma hex_val_range c d : hex_val c = Some d -> 0 <= d < 16.
Proof.
  unfold hex_val. intros H.
  destruct (Z.leb_spec 48 (bZ c)), (Z.leb_spec (bZ c) 57); cbn [andb] in H; [injection H; lia| | |];
  (destruct (Z.leb_spec 97 (bZ c)), (Z.leb_spec (bZ c) 102); cbn [andb] in H; [injection H; lia| | |]);
  (destruct (Z.leb_spec 65 (bZ c)), (Z.leb_spec (bZ c) 70); cbn [andb] in H; [injection H; lia| | |]); discriminate.
Qed.

Lemma bZ_split a : 0 <= bZ a / 16 < 16 /\ 0 <= bZ a mod 16 < 16 /\ Zb (16 * (bZ a / 16) + bZ a mod 16) = a.
Proof.
  pose proof (bZ_range a). repeat split; try lia.
  rewrite <- (Zb_bZ a) at 3. f_equal. lia.
Qed.

Lemma hex_decode_encode b : hex_decode (hex_encode b) = b.
Proof.
  induction b as [|a b IH]; [reflexivity|]. cbn [hex_encode hex_decode].
  destruct (bZ_split a) as (H1 & H2 & H3).
  rewrite !hex_val_digit by assumption. rewrite H3, IH. reflexivity.
Qed.

Lemma hex_decode_upper b : hex_decode (to_upper (hex_encode b)) = b.
Proof.
  unfold to_upper. induction b as [|a b IH]; [reflexivity|]. cbn [hex_encode smap hex_decode].
  destruct (bZ_split a) as (H1 & H2 & H3).
  rewrite !hex_val_upper by assumption. rewrite H3, IH. reflexivity.
Qed.

Lemma hex_encode_length b : String.length (hex_encode b) = (2 * List.length b)%nat.
Proof. induction b as [|a b IH]; [reflexivity|]. cbn [hex_encode String.length List.length]. rewrite IH. lia. Qed.

Lemma hex_encode_app a b : hex_encode (a ++ b) = hex_encode a ++ hex_encode b.
Proof. induction a as [|x a IH]; [reflexivity|]. cbn. now rewrite IH. Qed.

Lemma hex_encode_inj a b : hex_encode a = hex_encode b -> a = b.
Proof. intros H. rewrite <- (hex_decode_encode a), <- (hex_decode_encode b). now rewrite H. Qed.

(** Lower-case hex characters. *)
Definition lower_hex (c : ascii) : Prop := 48 <= bZ c <= 57 \/ 97 <= bZ c <= 102.

Lemma hex_encode_lower b : Forall lower_hex (s2b (hex_encode b)).
Proof.
  unfold s2b. induction b as [|a b IH]; [constructor|]. cbn.
  destruct (bZ_split a) as (H1 & H2 & _).
  constructor; [|constructor; [|exact IH]]; unfold lower_hex;
    [destruct (hex_digit_cases _ H1)|destruct (hex_digit_cases _ H2)]; lia.
Qed.

Lemma lower_hex_not_x c : lower_hex c -> c <> "x"%char.
Proof. intros [H|H] ->; cbn in H; lia. Qed.

(** A string of lower-case hex digits has no 0x prefix. *)
Lemma no_prefix_lower_hex s : Forall lower_hex (s2b s) -> has_prefix s "0x" = false.
Proof.
  unfold has_prefix. destruct s as [|c [|d s]]; intros H; [reflexivity| |]; cbn [prefix].
  - destruct (Ascii.eqb "0" c); reflexivity.
  - destruct (Ascii.eqb_spec "0" c) as [<-|]; [|reflexivity].
    destruct (Ascii.eqb_spec "x" d) as [<-|]; [|reflexivity].
    unfold s2b in H. cbn in H. inversion H as [|? ? _ H1]; subst. inversion H1 as [|? ? H2]; subst.
    now apply lower_hex_not_x in H2.
Qed.

Lemma TrimHex_lower s : Forall lower_hex (s2b s) -> TrimHex s = s.
Proof. intros H. unfold TrimHex, trim_prefix. rewrite no_prefix_lower_hex by exact H. reflexivity. Qed.
Lemma TrimHex_hex b : TrimHex (hex_encode b) = hex_encode b.
Proof. apply TrimHex_lower, hex_encode_lower. Qed.
Lemma TrimHex_0x s : TrimHex ("0x" ++ s) = s.
Proof. reflexivity. Qed.
Lemma AddHex_hex b : AddHex (hex_encode b) = "0x" ++ hex_encode b.
Proof. unfold AddHex. rewrite no_prefix_lower_hex by apply hex_encode_lower. reflexivity. Qed.
Lemma TrimHex_AddHex b : TrimHex (AddHex (hex_encode b)) = hex_encode b.
Proof. rewrite AddHex_hex. apply TrimHex_0x. Qed.

Lemma HexToBytes_hex b : HexToBytes (BytesToHex b) = b.
Proof. unfold HexToBytes, BytesToHex. rewrite TrimHex_hex. apply hex_decode_encode. Qed.
Lemma HexToBytes_0xhex b : HexToBytes ("0x" ++ BytesToHex b) = b.
Proof. unfold HexToBytes. rewrite TrimHex_0x. apply hex_decode_encode. Qed.

Lemma upper_no_prefix b : has_prefix (to_upper (hex_encode b)) "0x" = false.
Proof.
  destruct b as [|a b]; [reflexivity|]. unfold has_prefix, to_upper. cbn [hex_encode smap prefix].
  destruct (Ascii.eqb "0" (upper_char (hex_digit (bZ a / 16)))); [|reflexivity].
  destruct (Ascii.eqb_spec "x" (upper_char (hex_digit (bZ a mod 16)))) as [E|]; [|reflexivity].
  exfalso. destruct (bZ_split a) as (_ & H & _). pose proof (hex_val_upper _ H) as V. rewrite <- E in V. discriminate.
Qed.
Lemma HexToBytes_upper b : HexToBytes (to_upper (BytesToHex b)) = b.
Proof.
  unfold HexToBytes, TrimHex, trim_prefix, BytesToHex. rewrite upper_no_prefix. apply hex_decode_upper.
Qed.

Lemma hex_decode_length s : List.length (hex_decode s) = Nat.div2 (String.length s).
Proof.
  assert (G : forall n s, (String.length s <= n)%nat -> List.length (hex_decode s) = Nat.div2 (String.length s)).
  { induction n as [|n IH]; intros s' H.
    - destruct s'; [reflexivity|cbn in H; lia].
    - destruct s' as [|p [|q r]]; try reflexivity. cbn in H. cbn [hex_decode String.length Nat.div2].
      destruct (hex_val p), (hex_val q); cbn [List.length]; try (rewrite repeat_length; reflexivity).
      rewrite IH by lia. reflexivity. }
  apply (G (String.length s)). lia.
Qed.

(** Decoding well-formed even-length text and encoding it again gives the
    lower-case text. *)
Lemma lower_hex_digit c d : hex_val c = Some d -> hex_digit d = lower_char c.
Proof.
  intros H. pose proof (hex_val_range _ _ H) as R. pose proof (bZ_range c) as RC.
  apply bZ_inj. unfold lower_char. unfold hex_val in H.
  destruct (hex_digit_cases d R) as [[L E]|[L E]]; rewrite E;
  destruct (Z.leb_spec 48 (bZ c)), (Z.leb_spec (bZ c) 57), (Z.leb_spec 97 (bZ c)), (Z.leb_spec (bZ c) 102),
    (Z.leb_spec 65 (bZ c)), (Z.leb_spec (bZ c) 70), (Z.leb_spec (bZ c) 90); cbn [andb] in H |- *; try discriminate;
    injection H as H; try lia; rewrite ?bZ_Zb_small by lia; lia.
Qed.

Fixpoint all_hex (s : string) : bool :=
  match s with EmptyString => true | String c r => match hex_val c with Some _ => all_hex r | None => false end end.

Lemma hex_encode_decode s : all_hex s = true -> Nat.even (String.length s) = true ->
  hex_encode (hex_decode s) = to_lower s.
Proof.
  assert (G : forall n s, (String.length s <= n)%nat -> all_hex s = true -> Nat.even (String.length s) = true ->
    hex_encode (hex_decode s) = to_lower s).
  { induction n as [|n IH]; intros s' Hn Ha He.
    - destruct s'; [reflexivity|cbn in Hn; lia].
    - destruct s' as [|p [|q r]]; [reflexivity|discriminate|]. cbn in Hn, He. cbn [all_hex] in Ha.
      cbn [hex_decode]. destruct (hex_val p) as [a|] eqn:Ep; [|discriminate].
      destruct (hex_val q) as [b|] eqn:Eq; [|discriminate].
      pose proof (hex_val_range _ _ Ep). pose proof (hex_val_range _ _ Eq).
      cbn [hex_encode]. rewrite bZ_Zb_small by lia.
      replace ((16 * a + b) / 16) with a by lia. replace ((16 * a + b) mod 16) with b by lia.
      rewrite (lower_hex_digit _ _ Ep), (lower_hex_digit _ _ Eq), IH; try assumption; try lia. reflexivity. }
  apply (G (String.length s)). lia.
Qed.

(** Big-endian reading of hex text. *)
Lemma hex_acc_encode b acc : hex_acc acc (hex_encode b) = Some (acc * 256 ^ Z.of_nat (List.length b) + le_val (rev b)).
Proof.
  revert acc; induction b as [|a b IH]; intros acc.
  - cbn. f_equal. lia.
  - cbn [hex_encode hex_acc]. destruct (bZ_split a) as (H1 & H2 & _).
    rewrite !hex_val_digit by assumption. rewrite IH. f_equal.
    cbn [rev List.length]. rewrite le_val_app, rev_length, pow256_S. cbn [le_val].
    pose proof (bZ_range a).
    replace (16 * (16 * acc + bZ a / 16) + bZ a mod 16) with (256 * acc + bZ a) by lia. ring.
Qed.

Lemma U256_hex b : U256 (BytesToHex b) = match b with [] => None | _ => Some (le_val (rev b)) end.
Proof.
  unfold U256, BytesToHex. rewrite TrimHex_hex. destruct b as [|a b]; [reflexivity|].
  cbn [hex_encode]. destruct (bZ_split a) as (H1 & H2 & _).
  assert (N : forall z, 0 <= z < 16 -> Ascii.eqb (hex_digit z) "-" = false /\ Ascii.eqb (hex_digit z) "+" = false).
  { assert (Cm : bZ "-"%char = 45) by reflexivity. assert (Cp : bZ "+"%char = 43) by reflexivity.
    intros z Hz. split; apply Ascii.eqb_neq; intros E;
      destruct (hex_digit_cases z Hz) as [[_ V]|[_ V]]; rewrite E in V; lia. }
  destruct (N _ H1) as [-> ->].
  unfold parse_hex. change (String (hex_digit (bZ a / 16)) (String (hex_digit (bZ a mod 16)) (hex_encode b))) with (hex_encode (a :: b)).
  rewrite hex_acc_encode. reflexivity.
Qed.

(** ** ReverseBytes *)

Lemma set_nth_length i v a : List.length (set_nth i v a) = List.length a.
Proof. revert i; induction a as [|x a IH]; intros [|i]; cbn; auto. Qed.
Lemma nth_set_nth i v a k d : (i < List.length a)%nat -> nth k (set_nth i v a) d = if Nat.eqb k i then v else nth k a d.
Proof.
  revert i k; induction a as [|x a IH]; intros i k H; [cbn in H; lia|].
  destruct i as [|i], k as [|k]; cbn; try reflexivity. apply IH. cbn in H. lia.
Qed.

Lemma reverse_loop_spec fuel i j a b :
  (0 <= i)%Z -> (i + j = blen b - 1)%Z -> List.length a = List.length b -> Z.of_nat fuel >= j - i ->
  List.length (reverse_loop fuel i j a b) = List.length b /\
  forall k, (k < List.length b)%nat ->
    nth k (reverse_loop fuel i j a b) "000"%char =
      if (i <=? Z.of_nat k) && (Z.of_nat k <=? j) && negb (2 * Z.of_nat k + 1 =? blen b)
      then nth (List.length b - 1 - k) b "000"%char else nth k a "000"%char.
Proof.
  unfold blen. revert i j a; induction fuel as [|fuel IH]; intros i j a Hi Hij Hl Hf; cbn [reverse_loop].
  - split; [exact Hl|]. intros k Hk.
    destruct (Z.leb_spec i (Z.of_nat k)), (Z.leb_spec (Z.of_nat k) j), (Z.eqb_spec (2 * Z.of_nat k + 1) (Z.of_nat (List.length b)));
      cbn [andb negb]; try reflexivity; lia.
  - destruct (Z.ltb_spec i j) as [L|L].
    + set (a' := set_nth (Z.to_nat j) (nth (Z.to_nat i) b "000"%char) (set_nth (Z.to_nat i) (nth (Z.to_nat j) b "000"%char) a)).
      assert (La : List.length a' = List.length b) by (unfold a'; rewrite !set_nth_length; exact Hl).
      destruct (IH (i + 1) (j - 1) a' ltac:(lia) ltac:(lia) La ltac:(lia)) as [IL IN].
      split; [exact IL|]. intros k Hk. rewrite (IN k Hk).
      unfold a'. rewrite !nth_set_nth by (rewrite ?set_nth_length; lia).
      destruct (Nat.eqb_spec k (Z.to_nat j)) as [Ej|Ej].
      { replace (Z.to_nat i) with (List.length b - 1 - k)%nat by lia.
        destruct (Z.leb_spec i (Z.of_nat k)), (Z.leb_spec (i + 1) (Z.of_nat k)), (Z.leb_spec (Z.of_nat k) j), (Z.leb_spec (Z.of_nat k) (j - 1)),
          (Z.eqb_spec (2 * Z.of_nat k + 1) (Z.of_nat (List.length b))); cbn [andb negb]; try reflexivity; lia. }
      destruct (Nat.eqb_spec k (Z.to_nat i)) as [Ei|Ei].
      { replace (Z.to_nat j) with (List.length b - 1 - k)%nat by lia.
        destruct (Z.leb_spec i (Z.of_nat k)), (Z.leb_spec (i + 1) (Z.of_nat k)), (Z.leb_spec (Z.of_nat k) j), (Z.leb_spec (Z.of_nat k) (j - 1)),
          (Z.eqb_spec (2 * Z.of_nat k + 1) (Z.of_nat (List.length b))); cbn [andb negb]; try reflexivity; lia. }
      destruct (Z.leb_spec i (Z.of_nat k)), (Z.leb_spec (i + 1) (Z.of_nat k)), (Z.leb_spec (Z.of_nat k) j), (Z.leb_spec (Z.of_nat k) (j - 1)),
        (Z.eqb_spec (2 * Z.of_nat k + 1) (Z.of_nat (List.length b))); cbn [andb negb]; try reflexivity; lia.
    + split; [exact Hl|]. intros k Hk.
      destruct (Z.leb_spec i (Z.of_nat k)), (Z.leb_spec (Z.of_nat k) j), (Z.eqb_spec (2 * Z.of_nat k + 1) (Z.of_nat (List.length b)));
        cbn [andb negb]; try reflexivity; lia.
Qed.

Lemma ReverseBytes_nth b : List.length (ReverseBytes b) = List.length b /\
  forall k, (k < List.length b)%nat ->
    nth k (ReverseBytes b) "000"%char =
      if Nat.eqb (2 * k + 1) (List.length b) then "000"%char else nth (List.length b - 1 - k) b "000"%char.
Proof.
  unfold ReverseBytes.
  destruct (reverse_loop_spec (List.length b) 0 (Z.of_nat (List.length b) - 1) (repeat "000"%char (List.length b)) b
    ltac:(lia) ltac:(unfold blen; lia) (repeat_length _ _) ltac:(lia)) as [L N].
  split; [exact L|]. intros k Hk. rewrite (N k Hk).
  assert (R : nth k (repeat "000"%char (List.length b)) "000"%char = "000"%char).
  { apply nth_repeat. }
  rewrite R. unfold blen.
  destruct (Nat.eqb_spec (2 * k + 1) (List.length b)),
    (Z.leb_spec 0 (Z.of_nat k)), (Z.leb_spec (Z.of_nat k) (Z.of_nat (List.length b) - 1)),
    (Z.eqb_spec (2 * Z.of_nat k + 1) (Z.of_nat (List.length b))); cbn [andb negb]; try reflexivity; lia.
Qed.

Lemma ReverseBytes_even b : Nat.even (List.length b) = true -> ReverseBytes b = rev b.
Proof.
  intros He. destruct (ReverseBytes_nth b) as [L N].
  apply nth_ext with (d := "000"%char) (d' := "000"%char); [now rewrite rev_length|].
  intros k Hk. rewrite L in Hk. rewrite (N k Hk), rev_nth by exact Hk.
  destruct (Nat.eqb_spec (2 * k + 1) (List.length b)) as [E|E].
  - exfalso. rewrite <- E, Nat.even_add, Nat.even_mul in He. discriminate.
  - f_equal. lia.
Qed.

(** For an odd length the middle byte is lost. *)
Lemma ReverseBytes_odd l m r : List.length l = List.length r ->
  ReverseBytes (l ++ m :: r) = (rev r ++ "000"%char :: rev l)%list.
Proof.
  intros Hl. destruct (ReverseBytes_nth (l ++ m :: r)) as [L N].
  apply nth_ext with (d := "000"%char) (d' := "000"%char).
  - rewrite L, !app_length. cbn [List.length]. rewrite !rev_length. lia.
  - intros k Hk. rewrite L in Hk. rewrite (N k Hk).
    rewrite app_length in *. cbn [List.length] in *.
    destruct (Nat.eqb_spec (2 * k + 1) (List.length l + S (List.length r))) as [E|E].
    + replace k with (List.length (rev r)) by (rewrite rev_length; lia).
      rewrite app_nth2 by lia. rewrite Nat.sub_diag. reflexivity.
    + destruct (Compare_dec.lt_dec k (List.length r)) as [Lt|Ge].
      * rewrite (app_nth1 (rev r)) by (rewrite rev_length; lia).
        rewrite rev_nth by lia.
        rewrite app_nth2 by lia.
        replace (List.length l + S (List.length r) - 1 - k - List.length l)%nat with (S (List.length r - S k)) by lia.
        reflexivity.
      * rewrite (app_nth2 (rev r)) by (rewrite rev_length; lia). rewrite rev_length.
        rewrite app_nth1 by lia.
        replace (k - List.length r)%nat with (S (k - List.length r - 1)) by lia.
        cbn [nth]. rewrite rev_nth by lia. f_equal. lia.
Qed.

(** ** UniqueSlice *)
Lemma existsb_eqb e l : existsb (String.eqb e) l = true <-> In e l.
Proof.
  rewrite existsb_exists. split.
  - intros (x & Hx & E). apply String.eqb_eq in E. now subst.
  - intros H. exists e. split; [exact H|apply String.eqb_refl].
Qed.

Lemma unique_loop_spec seen s :
  NoDup (unique_loop seen s) /\
  (forall x, In x (unique_loop seen s) <-> In x s /\ ~ In x seen).
Proof.
  revert seen; induction s as [|e s IH]; intros seen.
  - cbn. split; [constructor|]. tauto.
  - cbn [unique_loop]. destruct (existsb (String.eqb e) seen) eqn:E.
    + apply existsb_eqb in E. destruct (IH seen) as [N M]. split; [exact N|].
      intros x. rewrite M. cbn [In]. intuition (subst; tauto).
    + assert (NE : ~ In e seen) by (intros C; apply existsb_eqb in C; congruence).
      destruct (IH (e :: seen)) as [N M]. split.
      * constructor; [|exact N]. rewrite M. cbn [In]. tauto.
      * intros x. cbn [In]. rewrite M. cbn [In].
        destruct (string_dec e x) as [->|D]; intuition (subst; tauto).
Qed.

(** ** The cursor *)

Lemma i64_small z : - two63 <= z < two63 -> i64 z = z.
Proof. unfold i64, two63, two64. intros H. rewrite Z.mod_small by lia. lia. Qed.

Lemma slice_ok b lo hi : 0 <= lo <= hi -> hi <= blen b ->
  slice b lo hi = Ok (firstn (Z.to_nat (hi - lo)) (skipn (Z.to_nat lo) b)).
Proof.
  intros H1 H2. unfold slice.
  destruct (Z.leb_spec 0 lo), (Z.leb_spec lo hi), (Z.leb_spec hi (blen b)); cbn [andb]; try lia. reflexivity.
Qed.

Lemma skipn_skipn {A} n m (l : list A) : skipn n (skipn m l) = skipn (n + m) l.
Proof. revert l; induction m as [|m IH]; intros l; [now rewrite Nat.add_0_r|].
  rewrite Nat.add_succ_r. destruct l as [|x l]; [now rewrite !skipn_nil|]. exact (IH l). Qed.

(** The bytes still to be read from offset [off]. *)
Definition rest (b : bytes) (off : Z) : bytes := skipn (Z.to_nat off) b.

Lemma rest_length b off : 0 <= off <= blen b -> blen (rest b off) = blen b - off.
Proof. unfold blen, rest. intros H. rewrite skipn_length. lia. Qed.

(** Every read: the bytes are the front of what is left, and the offset moves
    by exactly their number. *)
Lemma next_bytes_ok b off n : 0 <= off <= blen b -> 0 <= n -> off + n < two63 ->
  next_bytes b off n = Ok (firstn (Z.to_nat n) (rest b off), Z.min (off + n) (blen b)).
Proof.
  intros Ho Hn Hb. unfold next_bytes. rewrite i64_small by (unfold two63 in *; lia).
  destruct (Z.ltb_spec (blen b) (off + n)) as [L|L].
  - rewrite slice_ok by lia. cbn [bind]. f_equal. f_equal; [|lia].
    change (skipn (Z.to_nat off) b) with (rest b off).
    pose proof (rest_length b off Ho) as R. unfold blen in R, L, Ho |- *.
    rewrite !firstn_all2 by lia. reflexivity.
  - rewrite slice_ok by lia. cbn [bind]. f_equal. f_equal; [|lia].
    f_equal. lia.
Qed.

Lemma next_bytes_negative b off n : 0 <= off <= blen b -> blen b < two63 -> - two63 <= n < 0 ->
  exists m, next_bytes b off n = Panic m.
Proof.
  intros Ho Hl Hn. unfold next_bytes. rewrite i64_small by (unfold two63 in *; lia).
  destruct (Z.ltb_spec (blen b) (off + n)) as [L|L]; [lia|].
  unfold slice. destruct (Z.leb_spec off (off + n)); [lia|].
  rewrite andb_false_r. cbn. eauto.
Qed.

(** What any call of next_bytes can do, whatever the length argument. *)
Lemma next_bytes_inv b off n d off' : 0 <= off <= blen b -> blen b < two63 -> - two63 <= n < two63 ->
  next_bytes b off n = Ok (d, off') ->
  0 <= n /\ off + n < two63 /\ d = firstn (Z.to_nat n) (rest b off) /\ off' = Z.min (off + n) (blen b).
Proof.
  intros Ho Hl Hn H.
  destruct (Z.lt_ge_cases n 0) as [Neg|Pos].
  - destruct (next_bytes_negative b off n Ho Hl ltac:(lia)) as [m E]. congruence.
  - destruct (Z.lt_ge_cases (off + n) two63) as [Lt|Ge].
    + rewrite next_bytes_ok in H by (assumption || lia). injection H as <- <-. auto.
    + exfalso. unfold next_bytes in H.
      assert (W : i64 (off + n) = off + n - two64).
      { unfold i64. replace (off + n + two63) with ((off + n + two63 - two64) + 1 * two64) by ring.
        rewrite Z.mod_add by (unfold two64; lia). rewrite Z.mod_small by (unfold two64, two63 in *; lia). lia. }
      rewrite W in H. destruct (Z.ltb_spec (blen b) (off + n - two64)) as [L|L].
      * unfold two63, two64 in *. lia.
      * unfold slice in H. destruct (Z.leb_spec off (off + n - two64)); [unfold two63, two64 in *; lia|].
        rewrite andb_false_r in H. discriminate.
Qed.
