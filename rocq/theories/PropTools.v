(** Properties C01 (cursor), C02 (hex), C03 (ReverseBytes), C46 (UniqueSlice). *)

From Verif Require Import GoBase SpecNum ModelTools ProofsBase ProofsTools.

(** ** C01: the cursor *)

(** A sequence of GetNextBytes calls on one cursor, collecting the results. *)
Fixpoint reads (s : cursor) (lens : list Z) : res (list bytes * cursor) :=
  match lens with
  | [] => Ok ([], s)
  | n :: r =>
      '(d, s1) <- GetNextBytes s n ;;
      '(ds, s2) <- reads s1 r ;;
      Ok (d :: ds, s2)
  end.

(** [segment b i j]: the bytes of [b] from position [i] up to [j]. *)
Definition segment (b : bytes) (i j : Z) : bytes := firstn (Z.to_nat (j - i)) (skipn (Z.to_nat i) b).

Theorem C01_reads : forall lens data off,
  0 <= off <= blen data ->
  Forall (fun n => 0 <= n /\ blen data + n < 2 ^ 63) lens ->
  exists ds s', reads (Cursor data off) lens = Ok (ds, s') /\
    c_data s' = data /\
    off <= c_off s' <= blen data /\
    c_off s' = Z.min (off + fold_right Z.add 0 lens) (blen data) /\
    List.concat ds = segment data off (c_off s') /\
    Forall2 (fun n d => blen d <= n) lens ds.
Proof.
  induction lens as [|n lens IH]; intros data off Ho Hl.
  - exists [], (Cursor data off). cbn [reads c_data c_off fold_right List.concat]. unfold segment. rewrite Z.sub_diag.
    cbn. repeat split; try lia. constructor.
  - inversion Hl as [|? ? [Hn Hb] Hl']; subst.
    cbn [reads]. unfold GetNextBytes at 1. cbn [c_data c_off].
    rewrite next_bytes_ok by (unfold two63; lia). cbn [bind].
    destruct (IH data (Z.min (off + n) (blen data)) ltac:(lia) Hl') as (ds & s' & E & D & B & O & C & F).
    rewrite E. cbn [bind]. eexists _, s'. split; [reflexivity|].
    assert (Sum : 0 <= fold_right Z.add 0 lens).
    { clear - Hl'. induction Hl' as [|? ? [H _]]; cbn [fold_right]; lia. }
    split; [exact D|]. split; [lia|]. cbn [fold_right]. split; [lia|]. split.
    + cbn [List.concat]. rewrite C. unfold segment, rest, blen in *.
      set (k := c_off s') in *.
      destruct (Z.le_gt_cases (off + n) (Z.of_nat (List.length data))) as [Le|Gt].
      * rewrite (Z.min_l _ _ Le) in *.
        replace (Z.to_nat (k - off)) with (Z.to_nat n + Z.to_nat (k - (off + n)))%nat by lia.
        replace (Z.to_nat (off + n)) with (Z.to_nat n + Z.to_nat off)%nat by lia.
        rewrite <- skipn_skipn.
        set (l := skipn (Z.to_nat off) data).
        rewrite <- (firstn_skipn (Z.to_nat n) l) at 3.
        rewrite firstn_app.
        assert (Len : List.length (firstn (Z.to_nat n) l) = Z.to_nat n).
        { rewrite firstn_length. unfold l. rewrite skipn_length. lia. }
        rewrite Len. rewrite firstn_all2 with (n := (Z.to_nat n + Z.to_nat (k - (off + n)))%nat) by lia.
        f_equal. f_equal. lia.
      * assert (k = Z.of_nat (List.length data)) by lia.
        rewrite Z.min_r by lia.
        rewrite (skipn_all2 (n := Z.to_nat (Z.of_nat (List.length data))) data) by lia. rewrite firstn_nil, app_nil_r.
        rewrite !firstn_all2; [reflexivity| |]; rewrite skipn_length; lia.
    + constructor; [|exact F]. unfold blen. rewrite firstn_length. lia.
Qed.

(** A request for more than what is left returns exactly the remainder. *)
Theorem C01_short_read : forall data off n,
  0 <= off <= blen data -> blen data < off + n -> off + n < 2 ^ 63 ->
  GetNextBytes (Cursor data off) n = Ok (segment data off (blen data), Cursor data (blen data)).
Proof.
  intros data off n Ho Hn Hb. unfold GetNextBytes. cbn [c_data c_off].
  rewrite next_bytes_ok by (unfold two63; lia). cbn [bind]. f_equal. f_equal; [|f_equal; lia].
  unfold segment, rest, blen in *. rewrite !firstn_all2; [reflexivity| |]; rewrite skipn_length; lia.
Qed.

(** A negative length is the one way to make a read fail. *)
Theorem C01_negative_panics : forall data off n,
  0 <= off <= blen data -> blen data < 2 ^ 63 -> - 2 ^ 63 <= n < 0 ->
  exists m, GetNextBytes (Cursor data off) n = Panic m.
Proof.
  intros data off n Ho Hl Hn. unfold GetNextBytes. cbn [c_data c_off].
  destruct (next_bytes_negative data off n Ho Hl Hn) as [m ->]. cbn. eauto.
Qed.

Example C01_hyps_met :
  exists ds s', reads (Cursor (s2b "abcdefg") 1) [2; 0; 3; 9] = Ok (ds, s') /\
    ds = [s2b "bc"; s2b ""; s2b "def"; s2b "g"] /\ c_off s' = 7.
Proof. eexists _, _. split; [vm_compute; reflexivity|]. auto. Qed.

(** What is left, the text and the start again of a cursor, after any reads: the
    rest is what has not been read, and reading that many bytes gives it. *)
Theorem C01_left : forall lens data off, 0 <= off <= blen data -> Forall (fun n => 0 <= n /\ blen data + n < 2 ^ 63) lens -> blen data < 2 ^ 62 ->
  exists ds s', reads (Cursor data off) lens = Ok (ds, s') /\
    blen (List.concat ds) + GetRemainingLength s' = blen data - off /\
    GetNextBytes s' (GetRemainingLength s') = Ok (segment data (off + blen (List.concat ds)) (blen data), Cursor data (blen data)) /\
    CursorString s' = "0x" ++ hex_encode data /\ Reset s' = Cursor data 0.
Proof.
  intros lens data off Ho Hl Hs. destruct (C01_reads lens data off Ho Hl) as (ds & [d o] & R & D & B & O & C & _).
  cbn [c_data c_off] in *. subst d. exists ds, (Cursor data o). split; [exact R|].
  assert (L : blen (List.concat ds) = o - off).
  { rewrite C. unfold segment, blen in *. rewrite firstn_length, skipn_length. lia. }
  unfold GetRemainingLength, CursorString, Reset. cbn [c_data c_off]. split; [lia|]. split.
  - unfold GetNextBytes. cbn [c_data c_off]. rewrite next_bytes_ok by (unfold two63; lia). cbn [bind]. rewrite L.
    replace (off + (o - off)) with o by lia. replace (Z.min (o + (blen data - o)) (blen data)) with (blen data) by lia. reflexivity.
  - split; [|reflexivity]. now rewrite AddHex_hex.
Qed.

(** ** C02: hex *)

Theorem C02_roundtrip : forall b,
  HexToBytes (BytesToHex b) = b /\ HexToBytes ("0x" ++ BytesToHex b) = b /\
  HexToBytes (to_upper (BytesToHex b)) = b /\ HexToBytes ("0x" ++ to_upper (BytesToHex b)) = b /\
  HexToBytes (AddHex (BytesToHex b)) = b.
Proof.
  intros b. split; [apply HexToBytes_hex|]. split; [apply HexToBytes_0xhex|].
  split; [apply HexToBytes_upper|]. split.
  - unfold HexToBytes. rewrite TrimHex_0x. apply hex_decode_upper.
  - unfold BytesToHex. rewrite AddHex_hex. apply HexToBytes_0xhex.
Qed.
Theorem C02_shape : forall b,
  String.length (BytesToHex b) = (2 * List.length b)%nat /\
  Forall (fun c => 48 <= bZ c <= 57 \/ 97 <= bZ c <= 102) (s2b (BytesToHex b)).
Proof. intros b. exact (conj (hex_encode_length b) (hex_encode_lower b)). Qed.
Theorem C02_injective : forall a b, BytesToHex a = BytesToHex b -> a = b.
Proof. exact hex_encode_inj. Qed.
(** Whatever the text (after an optional 0x), n characters give n/2 bytes. *)
Theorem C02_malformed_length : forall s, has_prefix s "0x" = false ->
  List.length (HexToBytes s) = Nat.div2 (String.length s) /\
  List.length (HexToBytes ("0x" ++ s)) = Nat.div2 (String.length s).
Proof.
  intros s H. unfold HexToBytes. rewrite TrimHex_0x, !hex_decode_length. split; [|reflexivity].
  unfold TrimHex, trim_prefix. now rewrite H.
Qed.
(** Well-formed text of even length survives the other way round, up to case. *)
Theorem C02_text_roundtrip : forall s, all_hex s = true -> Nat.even (String.length s) = true ->
  BytesToHex (HexToBytes ("0x" ++ s)) = to_lower s.
Proof. intros s H E. unfold BytesToHex, HexToBytes. rewrite TrimHex_0x. now apply hex_encode_decode. Qed.
Example C02_hyps_met : BytesToHex (s2b "Az") = "417a" /\ HexToBytes "0x417A" = s2b "Az" /\
  HexToBytes "41zz7a1" = [Zb 65; Zb 0; Zb 0] /\ all_hex "09aFfA" = true.
Proof. repeat split. Qed.

(** ** C03: ReverseBytes.  Full statement: [forall b, ReverseBytes b = rev b].
    It holds for every even length and fails for every odd one, where the
    middle byte is replaced by zero. *)
Theorem C03_reverse_partial : forall b, Nat.even (List.length b) = true -> ReverseBytes b = rev b.
Proof. exact ReverseBytes_even. Qed.
Theorem C03_odd_length : forall l m r, List.length l = List.length r ->
  ReverseBytes (l ++ m :: r) = (rev r ++ Zb 0 :: rev l)%list.
Proof. exact ReverseBytes_odd. Qed.
(** Hence it is wrong exactly when the length is odd and the middle byte is
    not zero. *)
Theorem C03_wrong_iff : forall b, ReverseBytes b <> rev b <->
  exists l m r, b = (l ++ m :: r)%list /\ List.length l = List.length r /\ m <> Zb 0.
Proof.
  intros b. split.
  - intros H. destruct (Nat.even (List.length b)) eqn:E.
    + exfalso. apply H. now apply ReverseBytes_even.
    + assert (Hodd : exists k, List.length b = (k + S k)%nat).
      { exists (Nat.div2 (List.length b)). pose proof (Nat.div2_odd (List.length b)) as D.
        rewrite <- Nat.negb_even, E in D. cbn in D. lia. }
      destruct Hodd as [k Hk].
      destruct (skipn k b) as [|m r] eqn:Es.
      { exfalso. assert (L : List.length (skipn k b) = 0%nat) by now rewrite Es. rewrite skipn_length in L. lia. }
      exists (firstn k b), m, r.
      assert (L : List.length (skipn k b) = S (List.length r)) by now rewrite Es.
      rewrite skipn_length in L.
      assert (F : List.length (firstn k b) = List.length r) by (rewrite firstn_length; lia).
      assert (Eb : b = (firstn k b ++ m :: r)%list) by (rewrite <- Es; symmetry; apply firstn_skipn).
      split; [exact Eb|]. split; [exact F|]. intros ->. apply H.
      revert F Eb. generalize (firstn k b) as l. intros l F ->.
      rewrite ReverseBytes_odd by exact F.
      rewrite rev_app_distr. cbn [rev]. rewrite <- app_assoc. reflexivity.
  - intros (l & m & r & -> & Hl & Hm) E. rewrite ReverseBytes_odd, rev_app_distr in E by exact Hl.
    cbn [rev] in E. rewrite <- app_assoc in E. apply app_inv_head in E. cbn [List.app] in E. injection E as E. apply Hm. symmetry. exact E.
Qed.
Theorem C03_reverse_refuted : exists b, ReverseBytes b <> rev b.
Proof. exists (s2b "abc"). discriminate. Qed.
Example C03_hyps_met : ReverseBytes (s2b "abcd") = s2b "dcba" /\ ReverseBytes (s2b "abc") = [Zb 99; Zb 0; Zb 97].
Proof. split; reflexivity. Qed.

(** ** C46: UniqueSlice *)

(** [first_occurrences l]: the entries not seen earlier, in order. *)
Definition first_occurrences (l : list string) : list string :=
  map snd (filter (fun p => negb (existsb (String.eqb (snd p)) (firstn (fst p) l)))
                  (combine (seq 0 (List.length l)) l)).

Lemma unique_loop_first pre s : forall seen, (forall x, In x seen <-> In x pre) ->
  unique_loop seen s =
  map snd (filter (fun p => negb (existsb (String.eqb (snd p)) (firstn (fst p) (pre ++ s)%list)))
                  (combine (seq (List.length pre) (List.length s)) s)).
Proof.
  revert pre; induction s as [|e s IH]; intros pre seen Hs; [reflexivity|].
  cbn [unique_loop List.length seq combine filter map fst snd].
  assert (F : firstn (List.length pre) (pre ++ e :: s)%list = pre).
  { rewrite firstn_app, Nat.sub_diag, firstn_all. cbn. apply app_nil_r. }
  rewrite F.
  assert (Ex : existsb (String.eqb e) seen = existsb (String.eqb e) pre).
  { apply Bool.eq_iff_eq_true. rewrite !existsb_eqb. apply Hs. }
  rewrite Ex.
  assert (Eapp : (pre ++ e :: s)%list = ((pre ++ [e]) ++ s)%list) by (rewrite <- app_assoc; reflexivity).
  assert (Len : S (List.length pre) = List.length (pre ++ [e])) by (rewrite app_length; cbn; lia).
  destruct (existsb (String.eqb e) pre) eqn:E; cbn [negb].
  - apply existsb_eqb in E. rewrite Eapp, Len. apply IH.
    intros x. rewrite Hs, in_app_iff. cbn. intuition (subst; assumption).
  - cbn [map snd]. f_equal. rewrite Eapp, Len. apply IH.
    intros x. cbn [In]. rewrite Hs, in_app_iff. cbn. tauto.
Qed.

Theorem C46_unique : forall l,
  UniqueSlice l = first_occurrences l /\
  NoDup (UniqueSlice l) /\
  (forall x, In x (UniqueSlice l) <-> In x l).
Proof.
  intros l. split; [|split].
  - exact (unique_loop_first [] l [] (fun x => iff_refl _)).
  - exact (proj1 (unique_loop_spec [] l)).
  - intros x. rewrite (proj2 (unique_loop_spec [] l)). cbn. tauto.
Qed.
Example C46_hyps_met : UniqueSlice ["b"; "a"; "b"; "c"; "a"] = ["b"; "a"; "c"].
Proof. reflexivity. Qed.

Print Assumptions C01_reads.
Print Assumptions C01_left.
Print Assumptions C02_roundtrip.
Print Assumptions C03_wrong_iff.
Print Assumptions C46_unique.

(** ** C63: decimal texts *)

(** A decimal text and its value: an optional sign, then one or more digits
    read positionally. *)
Definition digits (s : string) : Prop := s <> "" /\ Forall (fun c => 48 <= bZ c <= 57) (s2b s).
Inductive decimal : string -> Z -> Prop :=
| dec_plain s : digits s -> decimal s (positional s)
| dec_plus s : digits s -> decimal (String "+" s) (positional s)
| dec_minus s : digits s -> decimal (String "-" s) (- positional s).

Lemma parse_digits_iff s z : parse_digits s = Some z <-> digits s /\ positional s = z.
Proof.
  unfold parse_digits, digits. destruct s as [|c s]; [split; [discriminate|intros [[H _] _]; now elim H]|].
  destruct (all_digits (String c s)) eqn:A.
  - apply all_digits_Forall in A. split.
    + intros H. assert (V : dec_val 0 (String c s) = z) by congruence. split; [split; [discriminate|assumption]|]. rewrite <- V. symmetry. apply (dec_val_positional (String c s) 0).
    + intros [_ <-]. f_equal. apply (dec_val_positional (String c s) 0).
  - split; [discriminate|]. intros [[_ H] _]. apply all_digits_Forall in H. congruence.
Qed.
Lemma parse_int_iff s z : parse_int s = Some z <-> decimal s z.
Proof.
  unfold parse_int. destruct s as [|c s].
  { split; [discriminate|]. intros H. inversion H; subst. match goal with H : digits "" |- _ => destruct H as [H _]; now elim H end. }
  destruct (Ascii.eqb_spec c "-"%char) as [->|M].
  { split.
    - destruct (parse_digits s) eqn:E; [|discriminate]. cbn. intros H. inversion H; subst. apply parse_digits_iff in E as [D <-]. now constructor.
    - intros H. inversion H as [? D|? D|? D]; subst.
      + destruct D as [_ D]. inversion D as [|? ? X]; subst. vm_compute in X. destruct X as [X _]. now elim X.
      + assert (E : parse_digits s = Some (positional s)) by (apply parse_digits_iff; auto). now rewrite E. }
  destruct (Ascii.eqb_spec c "+"%char) as [->|P].
  { rewrite parse_digits_iff. split.
    - intros [D <-]. now constructor.
    - intros H. inversion H as [? D|? D|? D]; subst; auto.
      destruct D as [_ D]. inversion D as [|? ? X]; subst. vm_compute in X. destruct X as [X _]. now elim X. }
  rewrite parse_digits_iff. split.
  - intros [D <-]. now constructor.
  - intros H. inversion H as [? D|? D|? D]; subst; auto; congruence.
Qed.

(** C63.  Every text: a decimal text in the range of int64 is read exactly;
    a decimal text outside it, and everything else, is read as 0. *)
Theorem C63_string_to_int : forall s,
  (forall z, decimal s z -> - 2 ^ 63 <= z < 2 ^ 63 -> StringToInt s = z)
  /\ (forall z, decimal s z -> ~ - 2 ^ 63 <= z < 2 ^ 63 -> StringToInt s = 0)
  /\ ((forall z, ~ decimal s z) -> StringToInt s = 0).
Proof.
  intros s. unfold StringToInt, two63. split; [|split].
  - intros z H R. apply parse_int_iff in H. rewrite H. now replace ((- 2 ^ 63 <=? z) && (z <? 2 ^ 63)) with true by (symmetry; lia).
  - intros z H R. apply parse_int_iff in H. rewrite H. destruct ((- 2 ^ 63 <=? z) && (z <? 2 ^ 63)) eqn:E; [exfalso; lia|reflexivity].
  - intros H. destruct (parse_int s) as [z|] eqn:E; [|reflexivity]. apply parse_int_iff in E. now elim (H z).
Qed.

Example C63_hyps_met :
  decimal "-007" (-7) /\ StringToInt "-007" = -7
  /\ StringToInt "9223372036854775807" = 9223372036854775807 /\ StringToInt "9223372036854775808" = 0
  /\ StringToInt "-9223372036854775808" = -9223372036854775808 /\ StringToInt " 7" = 0 /\ StringToInt "" = 0.
Proof.
  split; [|vm_compute; auto 10]. apply (dec_minus "007"). split; [discriminate|]. repeat constructor; vm_compute; discriminate.
Qed.
Print Assumptions C63_string_to_int.
