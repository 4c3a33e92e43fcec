(** C43: ethereum.Encode and EIP-55. *)

From Verif Require Import GoBase SpecNum ProofsBase ModelTools ProofsTools ModelVal ModelRegistry ModelDecode ModelRegister ModelKeccak ModelSponge ProofsRun SpecScale SpecSponge PropSponge.

(** ** EIP-55.  The address is written with lower-case hex digits and hashed;
    a letter becomes a capital when the hex digit of the hash at its place is
    8 or more. *)
Definition nibble (b : bytes) (i : nat) : Z :=
  let x := bZ (nth (Nat.div2 i) b "000"%char) in if Nat.even i then x / 16 else x mod 16.
Definition digit_of (big : bool) (d : Z) : ascii := if d <? 10 then Zb (48 + d) else if big then Zb (65 + (d - 10)) else Zb (97 + (d - 10)).
Definition written (b : bytes) (big : nat -> bool) : bytes := map (fun i => digit_of (big i) (nibble b i)) (seq 0 (2 * List.length b)).
Definition eip55 (K : bytes -> bytes) (b : bytes) : string :=
  let h := K (written b (fun _ => false)) in "0x" ++ b2s (written b (fun i => 8 <=? nibble h i)).

(** ** Lemmas *)
Lemma digit_small d : 0 <= d < 16 -> digit_of false d = hex_digit d.
Proof. intros H. unfold digit_of, hex_digit. destruct (d <? 10); [reflexivity|]. f_equal. lia. Qed.
Lemma digit_big d : 0 <= d < 16 -> digit_of true d = upper_char (hex_digit d).
Proof.
  intros H. assert (d = 0 \/ d = 1 \/ d = 2 \/ d = 3 \/ d = 4 \/ d = 5 \/ d = 6 \/ d = 7 \/ d = 8 \/ d = 9 \/
    d = 10 \/ d = 11 \/ d = 12 \/ d = 13 \/ d = 14 \/ d = 15) as C by lia.
  intuition subst; reflexivity.
Qed.
Lemma nibble_range b i : 0 <= nibble b i < 16.
Proof. unfold nibble. cbv zeta. pose proof (bZ_range (nth (Nat.div2 i) b "000"%char)). destruct (Nat.even i); lia. Qed.
Lemma written_cons a b f : written (a :: b) f = digit_of (f 0%nat) (bZ a / 16) :: digit_of (f 1%nat) (bZ a mod 16) :: written b (fun i => f (S (S i))).
Proof.
  unfold written. replace (2 * List.length (a :: b))%nat with (S (S (2 * List.length b))) by (cbn [List.length]; lia).
  rewrite <- cons_seq, <- cons_seq. cbn [map]. f_equal. f_equal. rewrite <- seq_shift, map_map, <- seq_shift, map_map. reflexivity.
Qed.
Lemma written_small b : written b (fun _ => false) = s2b (hex_encode b).
Proof.
  induction b as [|a b IH]; [reflexivity|]. rewrite written_cons, IH. cbn [hex_encode]. unfold s2b. cbn [list_ascii_of_string].
  rewrite !digit_small by (pose proof (bZ_range a); lia). reflexivity.
Qed.
Lemma nibble_digit d : 0 <= d < 16 -> hex_nibble (hex_digit d) = d.
Proof. intros H. unfold hex_nibble. now rewrite hex_val_digit. Qed.
Lemma checksum_written b : forall h, (List.length b <= List.length h)%nat ->
  checksum (hex_encode b) (hex_encode h) (2 * List.length b) = b2s (written b (fun i => 8 <=? nibble h i)).
Proof.
  induction b as [|a b IH]; intros h H; [reflexivity|]. destruct h as [|c h]; [cbn in H; lia|]. rewrite written_cons.
  replace (2 * List.length (a :: b))%nat with (S (S (2 * List.length b))) by (cbn [List.length]; lia). cbn [hex_encode checksum].
  pose proof (bZ_range a) as Ra. pose proof (bZ_range c) as Rc. rewrite !nibble_digit by lia. rewrite IH by (cbn [List.length] in H; lia).
  unfold b2s. cbn [string_of_list_ascii].
  assert (D : forall n d, 0 <= d < 16 -> (if 7 <? n then upper_char (hex_digit d) else hex_digit d) = digit_of (8 <=? n) d).
  { intros n d Hd. destruct (Z.ltb_spec 7 n), (Z.leb_spec 8 n); try lia; [now rewrite digit_big|now rewrite digit_small]. }
  rewrite !D by lia. reflexivity.
Qed.
Lemma written_no_prefix b f : has_prefix (b2s (written b f)) "0x" = false.
Proof.
  destruct b as [|a b]; [reflexivity|]. rewrite written_cons. unfold b2s. cbn [string_of_list_ascii]. unfold has_prefix. cbn [prefix].
  assert (X : forall g d, 0 <= d < 16 -> Ascii.eqb "x" (digit_of g d) = false).
  { intros g d H. destruct g; [rewrite digit_big by exact H|rewrite digit_small by exact H];
    (assert (d = 0 \/ d = 1 \/ d = 2 \/ d = 3 \/ d = 4 \/ d = 5 \/ d = 6 \/ d = 7 \/ d = 8 \/ d = 9 \/ d = 10 \/ d = 11 \/ d = 12 \/ d = 13 \/ d = 14 \/ d = 15) as C by lia);
    intuition subst; reflexivity. }
  rewrite X by (pose proof (bZ_range a); lia). now destruct (Ascii.eqb "0" _).
Qed.

(** ** C43 *)
(** Lower-case addresses, with and without "0x": the checksum of EIP-55. *)
Theorem C43_checksum K b : List.length b = 20%nat -> (forall x, List.length (K x) = 32%nat) ->
  EthEncode K (BytesToHex b) = eip55 K b /\ EthEncode K ("0x" ++ BytesToHex b) = eip55 K b.
Proof.
  intros L H. assert (E : AddHex (checksum (hex_encode b) (BytesToHex (K (s2b (hex_encode b)))) 40) = eip55 K b).
  { unfold eip55, BytesToHex. cbv zeta. rewrite written_small. change 40%nat with (2 * 20)%nat. rewrite <- L, checksum_written by (rewrite H, L; lia).
    unfold AddHex. now rewrite written_no_prefix. }
  unfold EthEncode. rewrite HexToBytes_hex, HexToBytes_0xhex, L. cbv zeta. change (Nat.eqb 20 20) with true. cbv iota. rewrite TrimHex_0x. unfold BytesToHex in *. rewrite TrimHex_hex. now split.
Qed.
(** The decoded EthereumAddress is that text. *)
Theorem C43_decoded E c ts b rest : resolves E c ts CEthereumAddress -> List.length b = 20%nat -> (forall x, List.length (e_keccak E x) = 32%nat) ->
  Decodes E c (b ++ rest)%list 0 ts (Ok (VStr (eip55 (e_keccak E) b), 20, [])).
Proof.
  intros (cd & sub & G & I) L H. split; [discriminate|]. exists 1%nat. cbn [decode]. rewrite G. cbn [bind]. rewrite I. cbn [process run].
  assert (N : next_bytes (b ++ rest)%list 0 (i64 20) = Ok (b, 20)).
  { change (i64 20) with 20. unfold next_bytes, blen. rewrite app_length, L. destruct (Z.ltb_spec (Z.of_nat (20 + List.length rest)) (i64 (0 + 20))) as [X|X]; [change (i64 (0 + 20)) with 20 in X; lia|].
    change (i64 (0 + 20)) with 20. unfold slice, blen. rewrite app_length, L. rewrite (proj2 (Z.leb_le 0 0)) by lia. cbn [andb]. rewrite (proj2 (Z.leb_le 0 20)) by lia. cbn [andb].
    rewrite (proj2 (Z.leb_le 20 (Z.of_nat (20 + List.length rest)))) by lia. cbn [bind]. change (Z.to_nat (20 - 0)) with 20%nat. change (Z.to_nat 0) with 0%nat. cbn [skipn].
    rewrite <- L at 1. now rewrite firstn_app, Nat.sub_diag, firstn_all, firstn_O, app_nil_r. }
  rewrite N. cbn [bind]. destruct (C43_checksum (e_keccak E) b L H) as [-> _]. reflexivity.
Qed.

(** Any text of 40 hex digits, in whatever case, keeps its digits: only the case
    of letters may change, and the address read back is the same. *)
Lemma lower_upper c : lower_char (upper_char c) = lower_char c.
Proof. destruct c as [[] [] [] [] [] [] [] []]; vm_compute; reflexivity. Qed.
Lemma hex_upper c : hex_val (upper_char c) = hex_val c \/ hex_val c = None.
Proof. destruct c as [[] [] [] [] [] [] [] []]; vm_compute; auto. Qed.
Lemma checksum_keeps h n : forall a, String.length a = n -> (n <= String.length h)%nat -> to_lower (checksum a h n) = to_lower a.
Proof.
  revert h. induction n as [|n IH]; intros h [|x a] L H; try discriminate L; [reflexivity|]. destruct h as [|y h]; [cbn in H; lia|]. cbn [checksum].
  unfold to_lower. cbn [smap]. f_equal; [destruct (_ <? _); [apply lower_upper|reflexivity]|]. apply IH; [now injection L|cbn in H; lia].
Qed.
Lemma checksum_bytes h : forall a n, String.length a = n -> (n <= String.length h)%nat -> all_hex a = true -> hex_decode (checksum a h n) = hex_decode a.
Proof.
  intros a n. revert a h. assert (G : forall m n a h, (n <= m)%nat -> String.length a = n -> (n <= String.length h)%nat -> all_hex a = true -> hex_decode (checksum a h n) = hex_decode a).
  { induction m as [|m IH]; intros k a h Lm L H A; [assert (k = O) by lia; subst k; destruct a; [reflexivity|discriminate]|].
    destruct a as [|x [|y a]]; cbn [String.length] in L; subst k; [reflexivity|destruct h; [cbn in H; lia|]; reflexivity|].
    destruct h as [|p [|q h]]; try (cbn [String.length] in H; lia). cbn [checksum hex_decode all_hex] in *.
    destruct (hex_val x) as [vx|] eqn:X; [|discriminate]. destruct (hex_val y) as [vy|] eqn:Y; [|discriminate].
    assert (V : forall z v (g : bool), hex_val z = Some v -> hex_val (if g then upper_char z else z) = Some v).
    { intros z v g Hz. destruct g; [|exact Hz]. destruct (hex_upper z) as [U|U]; [now rewrite U|congruence]. }
    rewrite (V x vx _ X), (V y vy _ Y). f_equal. apply (IH (String.length a)); [lia|reflexivity|cbn [String.length] in H; lia|exact A]. }
  intros a h L H A. now apply (G n n a h).
Qed.
Lemma hex_no_prefix a : all_hex a = true -> has_prefix a "0x" = false.
Proof.
  destruct a as [|x [|y a]]; [reflexivity|unfold has_prefix; cbn [prefix]; now destruct (Ascii.eqb "0" x)|]. cbn [all_hex]. destruct (hex_val x); [|discriminate]. destruct (hex_val y) eqn:Y; [|discriminate].
  intros _. unfold has_prefix. cbn [prefix]. destruct (Ascii.eqb_spec "x" y) as [<-|]; [discriminate Y|]. now destruct (Ascii.eqb "0" x).
Qed.
Theorem C43_keeps K s : all_hex (TrimHex s) = true -> String.length (TrimHex s) = 40%nat -> (forall x, List.length (K x) = 32%nat) ->
  to_lower (EthEncode K s) = "0x" ++ to_lower (TrimHex s) /\ HexToBytes (EthEncode K s) = HexToBytes s.
Proof.
  intros A L H. set (a := TrimHex s) in *. assert (N : Nat.eqb (List.length (HexToBytes s)) 20 = true) by (unfold HexToBytes; fold a; now rewrite hex_decode_length, L).
  unfold EthEncode. rewrite N. cbv iota zeta. fold a.
  set (h := BytesToHex (K (s2b a))). assert (LH : (40 <= String.length h)%nat) by (unfold h, BytesToHex; rewrite hex_encode_length, H; lia).
  set (r := checksum a h 40). assert (R1 : to_lower r = to_lower a) by now apply checksum_keeps. assert (R2 : hex_decode r = hex_decode a) by (apply checksum_bytes; trivial).
  assert (R3 : has_prefix r "0x" = false).
  { apply hex_no_prefix in A. unfold r. destruct a as [|x [|y a']]; try discriminate L. destruct h as [|p [|q h']]; try (cbn in LH; lia). cbn [checksum]. unfold has_prefix in *. cbn [prefix] in *.
    assert (U : forall c d (g : bool), (c = "0"%char \/ c = "x"%char) -> Ascii.eqb c (if g then upper_char d else d) = true -> Ascii.eqb c d = true).
    { intros c d [|] C X; [|exact X]. apply Ascii.eqb_eq in X. subst c. destruct d as [[] [] [] [] [] [] [] []]; vm_compute in C |- *; trivial; destruct C; discriminate. }
    destruct (Ascii.eqb "0" (if 7 <? hex_nibble p then upper_char x else x)) eqn:E1; [|reflexivity]. destruct (Ascii.eqb "x" (if 7 <? hex_nibble q then upper_char y else y)) eqn:E2; [|reflexivity].
    apply U in E1; [|now left]. apply U in E2; [|now right]. rewrite E1, E2 in A. destruct a'; discriminate A. }
  unfold AddHex. rewrite R3. split.
  - change (to_lower ("0x" ++ r)) with ("0x" ++ to_lower r). now rewrite R1.
  - unfold HexToBytes. rewrite TrimHex_0x. fold a. exact R2.
Qed.

(** With the package's own Keccak-256. *)
Definition keccak256 (x : bytes) : bytes := match Keccak256 [x] with Ok h => h | _ => [] end.
Lemma keccak256_is x : keccak256 x = keccak 136 "001" 32 x.
Proof. unfold keccak256. rewrite C44_pieces. cbn [List.concat]. now rewrite app_nil_r. Qed.
Theorem C43_keccak b : List.length b = 20%nat -> EthEncode keccak256 (BytesToHex b) = eip55 (keccak 136 "001" 32) b.
Proof.
  intros L. destruct (C43_checksum keccak256 b L) as [-> _]; [intros x; rewrite keccak256_is; unfold keccak, digest; now rewrite map_length, seq_length|].
  unfold eip55. cbv zeta. now rewrite keccak256_is.
Qed.
(** The first test vector of EIP-55. *)
Example C43_case : EthEncode keccak256 "0x5aaeb6053f3e94c9b9a09f33669435e7ef1beaed" = "0x5aAeb6053F3E94C9b9A09f33669435E7Ef1BeAed".
Proof. vm_compute. reflexivity. Qed.
Example C43_case_keeps : all_hex (TrimHex "0x5aAeb6053F3E94C9b9A09f33669435E7Ef1BeAed") = true /\ String.length (TrimHex "0x5aAeb6053F3E94C9b9A09f33669435E7Ef1BeAed") = 40%nat.
Proof. split; vm_compute; reflexivity. Qed.
(** The full statement is false: capitals in the input are hashed and kept, so
    an address already checksummed gets another checksum. *)
Theorem C43_case_refuted : exists s, HexToBytes s = HexToBytes (EthEncode keccak256 s) /\ EthEncode keccak256 (to_lower s) = s /\ EthEncode keccak256 s <> s.
Proof. exists "0x5aAeb6053F3E94C9b9A09f33669435E7Ef1BeAed". repeat split; vm_compute; trivial; discriminate. Qed.

Print Assumptions C43_checksum.
Print Assumptions C43_decoded.
Print Assumptions C43_keeps.
Print Assumptions C43_keccak.
Print Assumptions C43_case_refuted.
