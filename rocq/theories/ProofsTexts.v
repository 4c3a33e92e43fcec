(** Type texts built from names with < > [ ; ] and commas: how ConvertType
    leaves them, and how GetCodecClass resolves them. *)

From Verif Require Import GoBase SpecNum ProofsBase ModelTools ModelVal ModelRegistry ModelDecode ModelRegister ProofsRun SpecScale ProofsReads ProofsScale ProofsNames.

(** ** Regular texts.  [okc p2 p1 c]: [c] may follow [p2] [p1]. *)
Definition is_e (c : ascii) : bool := Ascii.eqb c "e"%char || Ascii.eqb c "E"%char.
Definition name_charb (c : ascii) : bool :=
  let z := bZ c in ((48 <=? z) && (z <=? 58)) || ((64 <=? z) && (z <=? 90)) || ((97 <=? z) && (z <=? 122)) || (z =? 95).
Definition text_char (c : ascii) : bool :=
  name_charb c || existsb (Ascii.eqb c) ["<"; ">"; "["; "]"; ";"; ","; " "]%char.
Definition okc (p2 p1 c : ascii) : bool :=
  text_char c
  && negb (Ascii.eqb c ":"%char && Ascii.eqb p1 ":"%char)
  && negb (Ascii.eqb c "<"%char && is_e p1)
  && negb (Ascii.eqb c ">"%char && Ascii.eqb p2 "<"%char)
  && negb (Ascii.eqb c " "%char && negb (Ascii.eqb p1 ";"%char)).
Fixpoint scan (p2 p1 : ascii) (s : string) : bool :=
  match s with
  | EmptyString => true
  | String c s' => okc p2 p1 c && scan p1 c s'
  end.
(** The last two characters seen. *)
Fixpoint after (p2 p1 : ascii) (s : string) : ascii * ascii :=
  match s with
  | EmptyString => (p2, p1)
  | String c s' => after p1 c s'
  end.
Lemma scan_app a : forall b p2 p1, scan p2 p1 (a ++ b) = scan p2 p1 a && scan (fst (after p2 p1 a)) (snd (after p2 p1 a)) b.
Proof. induction a as [|c a IH]; intros b p2 p1; [reflexivity|]. cbn [String.append scan after]. now rewrite IH, andb_assoc. Qed.
Lemma after_app a : forall b p2 p1, after p2 p1 (a ++ b) = after (fst (after p2 p1 a)) (snd (after p2 p1 a)) b.
Proof. induction a as [|c a IH]; intros b p2 p1; [reflexivity|]. cbn [String.append after]. now rewrite IH. Qed.

Record good (t : string) : Prop := {
  good_scan : forall p2 p1, scan p2 p1 t = true;
  good_first : exists c0 c1 r, t = String c0 (String c1 r) /\ (name_charb c0 = true /\ c0 <> ":"%char \/ c0 = "["%char) /\ c1 <> ">"%char;
  good_last : forall p2 p1, fst (after p2 p1 t) <> "<"%char
     /\ (name_charb (snd (after p2 p1 t)) = true /\ snd (after p2 p1 t) <> ":"%char \/ snd (after p2 p1 t) = ">"%char \/ snd (after p2 p1 t) = "]"%char) }.

(** A pattern that cannot occur. *)
Definition never (p : string) : Prop := forall p2 p1, scan p2 p1 p = false.
Lemma scan_prefix p s p2 p1 : scan p2 p1 s = true -> prefix p s = true -> scan p2 p1 p = true.
Proof.
  revert s p2 p1. induction p as [|a p IH]; intros s p2 p1 K P; [reflexivity|]. destruct s as [|b s]; [discriminate|].
  cbn [prefix] in P. destruct (Ascii.eqb_spec a b) as [->|]; [|discriminate]. cbn [scan] in *. apply andb_true_iff in K. destruct K as [K1 K2].
  rewrite K1. cbn [andb]. now apply (IH s).
Qed.
Lemma never_prefix p s p2 p1 : never p -> scan p2 p1 s = true -> prefix p s = false.
Proof. intros N K. destruct (prefix p s) eqn:P; [|reflexivity]. apply (scan_prefix p s p2 p1 K) in P. now rewrite N in P. Qed.
Lemma never_replace p new s p2 p1 : never p -> scan p2 p1 s = true -> replace_all s p new = s.
Proof.
  intros N. unfold replace_all. revert p2 p1. induction s as [|c s IH]; intros p2 p1 K; [reflexivity|]. cbn [repl].
  rewrite (never_prefix p _ p2 p1 N K). cbn [scan] in K. apply andb_true_iff in K. f_equal. now apply (IH p1 c).
Qed.
Lemma never_contains p s p2 p1 : p <> "" -> never p -> scan p2 p1 s = true -> contains s p = false.
Proof.
  intros NE N. revert p2 p1. induction s as [|c s IH]; intros p2 p1 K; cbn [contains]; rewrite (never_prefix p _ p2 p1 N K); [reflexivity|].
  cbn [scan] in K. apply andb_true_iff in K. now apply (IH p1 c).
Qed.
Lemma never_eq p s p2 p1 : never p -> scan p2 p1 s = true -> String.eqb s p = false.
Proof. intros N K. apply String.eqb_neq. intros ->. now rewrite N in K. Qed.
Ltac never := intros p2 p1; cbn; rewrite ?andb_false_r; reflexivity.

Lemma lower_textish c : text_char (lower_char c) = text_char c.
Proof. destruct c as [[] [] [] [] [] [] [] []]; reflexivity. Qed.
Lemma lower_okc p2 p1 c : okc (lower_char p2) (lower_char p1) (lower_char c) = okc p2 p1 c.
Proof.
  unfold okc. rewrite lower_textish.
  assert (L : forall x y, In x [":"; "<"; ">"; " "; ";"]%char -> Ascii.eqb (lower_char y) x = Ascii.eqb y x).
  { intros x y H. repeat (destruct H as [<-|H]; [destruct y as [[] [] [] [] [] [] [] []]; reflexivity|]). contradiction. }
  rewrite !L by (cbn; tauto). replace (is_e (lower_char p1)) with (is_e p1); [reflexivity|].
  destruct p1 as [[] [] [] [] [] [] [] []]; reflexivity.
Qed.

Lemma good_nonempty t : good t -> t <> "".
Proof. intros [_ (c0 & c1 & r & -> & _) _]. discriminate. Qed.
Lemma after_last s p2 p1 c : last_char s = Some c -> snd (after p2 p1 s) = c.
Proof.
  revert p2 p1. induction s as [|a s IH]; intros p2 p1 H; [discriminate|]. destruct s as [|b s]; [now injection H|].
  cbn [after]. now apply (IH p1 a).
Qed.
Lemma name_not_space c : name_charb c = true -> is_space c = false.
Proof. destruct c as [[] [] [] [] [] [] [] []]; (discriminate || reflexivity). Qed.
Lemma good_trim t : good t -> trim_space t = t.
Proof.
  intros [_ (c0 & c1 & r & E & F & _) L]. unfold trim_space. rewrite E. cbn [trim_left].
  replace (is_space c0) with false by (symmetry; destruct F as [[F _]| ->]; [now apply name_not_space|reflexivity]).
  rewrite <- E. apply trim_right_id. intros c Hc. destruct (L "a"%char "a"%char) as [_ K]. rewrite (after_last _ _ _ _ Hc) in K.
  destruct K as [[K _]|[-> | ->]]; [now apply name_not_space|reflexivity..].
Qed.

(** ConvertType only knows Vec<u8> among them. *)
Lemma good_convert t : good t -> has_prefix t "BoundedBTreeSet" = false ->
  ConvertType t = if equal_fold t "Vec<u8>" then "Bytes" else t.
Proof.
  intros G B. unfold ConvertType. cbv zeta. rewrite good_trim by exact G. pose proof (good_scan t G "a"%char "a"%char) as K.
  rewrite (never_replace "T::" "" t _ _ ltac:(never) K), (never_replace "VecDeque<" _ t _ _ ltac:(never) K),
    (never_replace "<T>" _ t _ _ ltac:(never) K), (never_replace "<T as Trait>::" _ t _ _ ltac:(never) K),
    (never_replace "<T, I>" _ t _ _ ltac:(never) K), (never_replace (String "010" "") _ t _ _ ltac:(never) K),
    (never_replace "&'static[u8]" _ t _ _ ltac:(never) K).
  rewrite B. destruct (equal_fold t "Vec<u8>"); [reflexivity|].
  rewrite (never_eq "()" t _ _ ltac:(never) K), (never_eq "<InherentOfflineReport as InherentOfflineReport>::Inherent" t _ _ ltac:(never) K),
    (never_eq "<Lookup as StaticLookup>::Source" t _ _ ltac:(never) K), (never_eq "<Balance as HasCompact>::Type" t _ _ ltac:(never) K),
    (never_eq "<BlockNumber as HasCompact>::Type" t _ _ ltac:(never) K), (never_eq "<Moment as HasCompact>::Type" t _ _ ltac:(never) K),
    (never_eq "<T as Trait<I>>::Proposal" t _ _ ltac:(never) K), (never_eq "wasm::PrefabWasmModule" t _ _ ltac:(never) K).
  reflexivity.
Qed.

(** ** Building regular texts *)
Lemma name_charb_ok c : name_charb c = true <-> name_char c.
Proof. unfold name_charb, name_char. lia. Qed.
Lemma name_text c : name_charb c = true -> text_char c = true.
Proof. unfold text_char. now intros ->. Qed.
Lemma name_distinct c x : name_charb c = true -> name_charb x = false -> Ascii.eqb c x = false.
Proof. intros H N. apply Ascii.eqb_neq. intros ->. congruence. Qed.
Lemma name_scan s p2 p1 : Forall name_char (s2b s) -> contains s "::" = false -> (first_char s <> Some ":"%char) -> scan p2 p1 s = true.
Proof.
  intros F. assert (G : forall s p2 p1, Forall name_char (s2b s) -> contains s "::" = false -> (first_char s <> Some ":"%char \/ p1 <> ":"%char) -> scan p2 p1 s = true).
  { clear. induction s as [|c s IH]; intros p2 p1 F D H; [reflexivity|]. cbn [scan]. inversion F as [|? ? F1 F2]; subst. apply name_charb_ok in F1.
    apply contains_cons in D. destruct D as [D1 D2]. rewrite IH; [|exact F2|exact D2|].
    - unfold okc. rewrite (name_text _ F1), (name_distinct _ "<"%char F1), (name_distinct _ ">"%char F1), (name_distinct _ " "%char F1) by reflexivity.
      destruct (Ascii.eqb_spec c ":"%char) as [->|]; [|reflexivity]. destruct (Ascii.eqb_spec p1 ":"%char) as [->|]; [|reflexivity].
      cbn [first_char] in H. destruct H; congruence.
    - destruct (Ascii.eqb_spec c ":"%char) as [->|]; [left|now right]. destruct s as [|d s]; [discriminate|]. intros [= ->]. discriminate D1. }
  intros D H. apply G; auto.
Qed.
Definition name_text_ok (n : string) : Prop :=
  name_ok n /\ first_char n <> Some ":"%char /\ last_char n <> Some ":"%char /\ (2 <= String.length n)%nat.
Lemma last_two s p2 p1 : (2 <= String.length s)%nat -> has_char (fst (after p2 p1 s)) s.
Proof.
  revert p2 p1. induction s as [|a s IH]; intros p2 p1 L; [cbn in L; lia|]. destruct s as [|b s]; [cbn in L; lia|].
  destruct s as [|d s]; [now left|]. cbn [after]. right. apply (IH p1 a). cbn. lia.
Qed.
Lemma name_good n : name_text_ok n -> good n.
Proof.
  intros (N & F & L & LEN). split.
  - intros p2 p1. apply name_scan; [apply N|apply N|exact F].
  - destruct n as [|c0 [|c1 r]]; [cbn in LEN; lia..|]. exists c0, c1, r. split; [reflexivity|].
    destruct N as (_ & NC & _). cbn [s2b list_ascii_of_string] in NC. inversion NC as [|? ? N0 N1]; subst. inversion N1 as [|? ? N2 _]; subst. split.
    + left. split; [now apply name_charb_ok|]. intros ->. now apply F.
    + intros ->. apply name_charb_ok in N2. discriminate.
  - intros p2 p1. split.
    + intros E. pose proof (last_two n p2 p1 LEN) as H. rewrite E in H. revert H. apply name_no; [exact N|not_name].
    + left. destruct (last_char_some n (proj1 N)) as [z Hz]. rewrite (after_last _ _ _ _ Hz). split.
      * apply name_charb_ok. destruct N as (_ & NC & _). rewrite Forall_forall in NC. apply NC. now apply last_char_in.
      * intros ->. now apply L.
Qed.

Lemma good_okc t p2 p1 c : good t -> c = ">"%char \/ c = ";"%char \/ c = ","%char ->
  okc (fst (after p2 p1 t)) (snd (after p2 p1 t)) c = true.
Proof.
  intros [_ _ L] H. destruct (L p2 p1) as [A B]. destruct H as [-> |[-> | ->]]; unfold okc; cbn -[Ascii.eqb after]; try reflexivity.
  destruct (Ascii.eqb_spec (fst (after p2 p1 t)) "<"%char); [contradiction|]. reflexivity.
Qed.
Lemma good_second t x p2 p1 : good t -> fst (after p2 p1 (t ++ String x "")) <> "<"%char.
Proof.
  intros [_ _ L]. rewrite after_app. cbn [after fst]. destruct (L p2 p1) as [_ [[B _]|[B|B]]]; intros E; rewrite E in B; discriminate.
Qed.

(** The wrappers of the portable registry. *)
Definition wrapper (w : string) : Prop := In (to_lower w) ["vec"; "option"; "compact"; "result"; "btreeset"; "btreemap"].
Definition wrapper_char (c : ascii) : bool := ((65 <=? bZ c) && (bZ c <=? 90)) || ((97 <=? bZ c) && (bZ c <=? 122)).
Lemma lower_alpha c : wrapper_char (lower_char c) = wrapper_char c.
Proof. destruct c as [[] [] [] [] [] [] [] []]; reflexivity. Qed.
Lemma wrapper_alpha w : wrapper w -> forallb wrapper_char (s2b w) = true.
Proof.
  intros H. assert (K : forallb wrapper_char (s2b (to_lower w)) = true) by (cbn [wrapper In] in H; decompose [or] H; try contradiction; subst;
    match goal with H : _ = to_lower w |- _ => rewrite <- H; reflexivity end).
  clear H. unfold to_lower, s2b in *. induction w as [|c w IH]; [reflexivity|]. cbn [smap list_ascii_of_string forallb] in *. apply andb_true_iff in K.
  destruct K as [K1 K2]. rewrite lower_alpha in K1. rewrite K1. now apply IH.
Qed.
Lemma alpha_name c : wrapper_char c = true -> name_charb c = true /\ c <> ":"%char.
Proof. destruct c as [[] [] [] [] [] [] [] []]; intros H; (discriminate H || (split; [reflexivity|discriminate])). Qed.
Lemma alpha_scan w p2 p1 : forallb wrapper_char (s2b w) = true -> scan p2 p1 w = true.
Proof.
  revert p2 p1. induction w as [|c w IH]; intros p2 p1 H; [reflexivity|]. cbn [s2b list_ascii_of_string forallb] in H. apply andb_true_iff in H. destruct H as [H1 H2].
  cbn [scan]. rewrite IH by exact H2. destruct (alpha_name c H1) as [N D]. unfold okc. rewrite (name_text _ N), (name_distinct _ "<"%char N), (name_distinct _ ">"%char N), (name_distinct _ " "%char N) by reflexivity.
  destruct (Ascii.eqb_spec c ":"%char); [contradiction|]. reflexivity.
Qed.
Lemma lower_last s : last_char (to_lower s) = option_map lower_char (last_char s).
Proof. apply last_char_lower. Qed.
Lemma lower_length s : String.length (to_lower s) = String.length s.
Proof. unfold to_lower. induction s as [|c s IH]; [reflexivity|]. cbn [smap String.length]. now rewrite IH. Qed.
Lemma after_some s p2 p1 : s <> "" -> exists c, last_char s = Some c /\ snd (after p2 p1 s) = c.
Proof. intros N. destruct (last_char_some s N) as [c H]. exists c. split; [exact H|now apply after_last]. Qed.
Lemma wrapper_shape w : wrapper w -> w <> "" /\ (2 <= String.length w)%nat /\ (forall p2 p1, is_e (snd (after p2 p1 w)) = false).
Proof.
  intros H. assert (K : (2 <= String.length (to_lower w))%nat /\ exists z, last_char (to_lower w) = Some z /\ is_e z = false).
  { cbn [wrapper In] in H. unfold wrapper in H. cbn [In] in H. decompose [or] H; try contradiction;
    match goal with H : _ = to_lower w |- _ => rewrite <- H end; (split; [cbn; lia|eexists; split; reflexivity]). }
  destruct K as [K1 (z & K2 & K3)]. rewrite lower_length in K1. split; [intros ->; cbn in K1; lia|]. split; [exact K1|]. intros p2 p1.
  assert (N : w <> "") by (intros ->; cbn in K1; lia). destruct (after_some w p2 p1 N) as (c & L & ->).
  rewrite lower_last, L in K2. injection K2 as <-. destruct c as [[] [] [] [] [] [] [] []]; (reflexivity || discriminate K3).
Qed.
Lemma wrapper_no_lt w : wrapper w -> ~ has_char "<"%char w.
Proof.
  intros H I. apply wrapper_alpha in H. unfold has_char in I. rewrite forallb_forall in H. apply H in I. discriminate.
Qed.

Lemma scan_cons p2 p1 c s : scan p2 p1 (String c s) = okc p2 p1 c && scan p1 c s.
Proof. reflexivity. Qed.
Lemma two_first (P : ascii -> Prop) w s : (2 <= String.length w)%nat -> (exists c0 c1 r, w = String c0 (String c1 r) /\ P c1) -> exists c0 c1 r, (w ++ s)%string = String c0 (String c1 r) /\ P c1.
Proof. intros _ (c0 & c1 & r & -> & H). exists c0, c1, (r ++ s)%string. now split. Qed.

Lemma good_generic w a : wrapper w -> good a -> good (w ++ "<" ++ a ++ ">").
Proof.
  intros W G. destruct (wrapper_shape w W) as (NE & LEN & LAST). pose proof (wrapper_alpha w W) as AL. split.
  - intros p2 p1. rewrite scan_app, (alpha_scan w p2 p1 AL). cbn [andb String.append]. rewrite scan_cons.
    assert (X : okc (fst (after p2 p1 w)) (snd (after p2 p1 w)) "<"%char = true).
    { unfold okc. rewrite (LAST p2 p1). cbn -[after]. rewrite ?andb_false_r. reflexivity. }
    rewrite X. cbn [andb]. rewrite scan_app, (good_scan a G). cbn [andb]. rewrite scan_cons, good_okc by auto. reflexivity.
  - destruct w as [|c0 [|c1 r]]; [cbn in LEN; lia..|]. exists c0, c1, (r ++ "<" ++ a ++ ">")%string. split; [reflexivity|].
    cbn [s2b list_ascii_of_string forallb] in AL. apply andb_true_iff in AL. destruct AL as [A0 AL]. apply andb_true_iff in AL. destruct AL as [A1 _]. split.
    + left. now apply alpha_name.
    + intros ->. discriminate.
  - intros p2 p1. rewrite after_app. cbn [String.append after]. split; [now apply good_second|]. right. left. rewrite after_app. reflexivity.
Qed.
Lemma good_pair a b : good a -> good b -> good (a ++ "," ++ b).
Proof.
  intros A B. split.
  - intros p2 p1. rewrite scan_app, (good_scan a A). cbn [andb String.append]. rewrite scan_cons, good_okc by auto. cbn [andb]. apply (good_scan b B).
  - destruct (good_first a A) as (c0 & c1 & r & -> & F1 & F2). exists c0, c1, (r ++ "," ++ b)%string. now split.
  - intros p2 p1. rewrite after_app. cbn [String.append after]. apply (good_last b B).
Qed.
Lemma itoa_digits_only n : 0 <= n -> Forall (fun c => 48 <= bZ c <= 57) (s2b (itoa n)).
Proof. intros H. apply (itoa_numeral n H). Qed.
Lemma digits_chars n : 0 <= n -> Forall name_char (s2b (itoa n)) /\ itoa n <> "" /\ ~ has_char ":"%char (itoa n).
Proof.
  intros H. pose proof (itoa_digits_only n H) as F. destruct (itoa_numeral n H) as (_ & N & _). rewrite Forall_forall in F. split; [|split].
  - apply Forall_forall. intros c Hc. specialize (F c Hc). unfold name_char. lia.
  - intros E. rewrite E in N. contradiction.
  - intros I. specialize (F _ I). revert F. vm_compute. intuition congruence.
Qed.
Lemma name_noprefix s p2 p1 : Forall name_char (s2b s) -> ~ has_char ":"%char s -> scan p2 p1 s = true.
Proof.
  intros F N. apply name_scan; [exact F| |].
  - apply (contains_absent ":"%char); [now left|exact N].
  - destruct s as [|c s]; [discriminate|]. intros [= ->]. apply N. now left.
Qed.
Lemma good_array a n : good a -> 0 <= n -> good ("[" ++ a ++ "; " ++ itoa n ++ "]").
Proof.
  intros G N. destruct (digits_chars n N) as (D1 & D2 & D3). split.
  - intros p2 p1. cbn [String.append]. rewrite scan_cons. cbn [okc]. change (okc p2 p1 "["%char) with true. cbn [andb].
    rewrite scan_app, (good_scan a G). cbn [andb String.append]. rewrite scan_cons, good_okc by auto. cbn [andb]. rewrite scan_cons.
    match goal with |- context [okc ?x ";"%char " "%char] => change (okc x ";"%char " "%char) with true end. cbn [andb].
    rewrite scan_app, name_noprefix by assumption. cbn [andb]. rewrite scan_cons. unfold okc. cbn -[after]. reflexivity.
  - destruct (good_first a G) as (c0 & c1 & r & -> & F1 & F2). eexists _, _, _. split; [reflexivity|]. split; [now right|].
    intros ->. destruct F1 as [[F1 _]|F1]; discriminate.
  - intros p2 p1. replace ("[" ++ a ++ "; " ++ itoa n ++ "]") with (("[" ++ a ++ "; " ++ itoa n) ++ "]") by (rewrite !app_assoc_s; reflexivity).
    rewrite after_app. cbn [after fst snd]. split; [|right; now right].
    replace ("[" ++ a ++ "; " ++ itoa n) with (("[" ++ a ++ "; ") ++ itoa n) by (rewrite !app_assoc_s; reflexivity). rewrite after_app.
    destruct (after_some (itoa n) (fst (after p2 p1 ("[" ++ a ++ "; "))) (snd (after p2 p1 ("[" ++ a ++ "; "))) D2) as (z & L & ->).
    intros ->. apply last_char_in in L. rewrite Forall_forall in D1. specialize (D1 _ L). revert D1. not_name.
Qed.
Lemma good_app a b : good a -> good b -> good (a ++ b).
Proof.
  intros A B. split.
  - intros p2 p1. rewrite scan_app, (good_scan a A). cbn [andb]. apply (good_scan b B).
  - destruct (good_first a A) as (c0 & c1 & r & -> & F1 & F2). exists c0, c1, (r ++ b)%string. now split.
  - intros p2 p1. rewrite after_app. apply (good_last b B).
Qed.
Lemma join_app ts : forall t, join "" (t :: ts) = t ++ join "" ts.
Proof. intros t. destruct ts; cbn [join]; [now rewrite app_nil_r_s|reflexivity]. Qed.
Lemma good_join ts : ts <> [] -> Forall good ts -> good (join "" ts).
Proof.
  intros NE F. induction F as [|t ts G F IH]; [contradiction|]. rewrite join_app. destruct ts as [|u ts]; [cbn [join]; now rewrite app_nil_r_s|].
  apply good_app; [exact G|]. now apply IH.
Qed.
Lemma good_tuple ts : ts <> [] -> Forall good ts -> good ("Tuple:" ++ join "" ts).
Proof.
  intros NE F. pose proof (good_join ts NE F) as G. split.
  - intros p2 p1. rewrite scan_app. cbn [andb]. rewrite (good_scan _ G). cbn. reflexivity.
  - eexists _, _, _. split; [reflexivity|]. split; [left; split; [reflexivity|discriminate]|discriminate].
  - intros p2 p1. rewrite after_app. apply (good_last _ G).
Qed.

(** Letter case does not matter. *)
Lemma scan_lower s p2 p1 : scan p2 p1 (to_lower s) = scan p2 p1 s.
Proof.
  assert (L : forall s p2 p1, scan (lower_char p2) (lower_char p1) (to_lower s) = scan p2 p1 s).
  { clear. unfold to_lower. induction s as [|c s IH]; intros p2 p1; [reflexivity|]. cbn [smap scan]. now rewrite lower_okc, IH. }
  rewrite <- (L (to_lower s)), to_lower_idem. apply L.
Qed.
Lemma after_lower s p2 p1 : s <> "" -> snd (after p2 p1 (to_lower s)) = lower_char (snd (after p2 p1 s)).
Proof.
  intros N. destruct (after_some s p2 p1 N) as (c & L & ->). apply after_last. rewrite lower_last, L. reflexivity.
Qed.
Lemma after_lower2 s : forall p2 p1, (2 <= String.length s)%nat -> fst (after p2 p1 (to_lower s)) = lower_char (fst (after p2 p1 s)).
Proof.
  unfold to_lower. induction s as [|a s IH]; intros p2 p1 L; [cbn in L; lia|]. destruct s as [|b s]; [cbn in L; lia|]. cbn [smap after].
  destruct s as [|d s]; [reflexivity|]. specialize (IH p1 a). cbn [smap after] in *. rewrite <- IH by (cbn; lia). reflexivity.
Qed.
Lemma lower_name_charb c : name_charb (lower_char c) = name_charb c.
Proof. destruct c as [[] [] [] [] [] [] [] []]; reflexivity. Qed.
Lemma lower_plain c x : wrapper_char x = false -> (lower_char c = x <-> c = x).
Proof.
  intros W. split; intros H.
  - unfold lower_char in H. destruct ((65 <=? bZ c) && (bZ c <=? 90)) eqn:Q; [|exact H]. exfalso. subst x. unfold wrapper_char in W.
    rewrite bZ_Zb_small in W by lia. lia.
  - subst x. unfold lower_char. unfold wrapper_char in W. destruct ((65 <=? bZ c) && (bZ c <=? 90)); [discriminate|reflexivity].
Qed.
Lemma lower_same c x : wrapper_char x = false -> lower_char c = lower_char x -> c = x.
Proof. intros W H. apply (lower_plain c x W). rewrite H. now apply lower_plain. Qed.
Lemma good_len t : good t -> (2 <= String.length t)%nat.
Proof. intros [_ (c0 & c1 & r & -> & _) _]. cbn. lia. Qed.
Lemma good_fold t t' : to_lower t = to_lower t' -> good t -> good t'.
Proof.
  intros Q G. pose proof (good_len t G) as LT. assert (LT' : (2 <= String.length t')%nat) by (rewrite <- lower_length, <- Q, lower_length; exact LT).
  assert (NE : t <> "") by (intros ->; cbn in LT; lia). assert (NE' : t' <> "") by (intros ->; cbn in LT'; lia). split.
  - intros p2 p1. rewrite <- scan_lower, <- Q, scan_lower. apply (good_scan t G).
  - destruct (good_first t G) as (c0 & c1 & r & -> & F & N). destruct t' as [|d0 [|d1 r']]; [cbn in LT'; lia..|]. exists d0, d1, r'. split; [reflexivity|].
    unfold to_lower in Q. cbn [smap] in Q. injection Q as Q0 Q1 _. split.
    + destruct F as [[F1 F2]| ->].
      * left. split; [now rewrite <- lower_name_charb, <- Q0, lower_name_charb|]. intros ->. apply F2. now apply lower_same in Q0.
      * right. symmetry in Q0. now apply lower_same in Q0.
    + intros ->. apply N. now apply lower_same in Q1.
  - intros p2 p1. destruct (good_last t G p2 p1) as [A B].
    assert (Q1 : lower_char (fst (after p2 p1 t)) = lower_char (fst (after p2 p1 t'))) by (rewrite <- !after_lower2 by assumption; now rewrite Q).
    assert (Q2 : lower_char (snd (after p2 p1 t)) = lower_char (snd (after p2 p1 t'))) by (rewrite <- !after_lower by assumption; now rewrite Q).
    split; [intros X; apply A; rewrite X in Q1; now apply lower_same in Q1|].
    destruct B as [[B1 B2]|[B|B]].
    + left. split; [now rewrite <- lower_name_charb, <- Q2, lower_name_charb|]. intros X. apply B2. rewrite X in Q2. now apply lower_same in Q2.
    + right. left. rewrite B in Q2. symmetry in Q2. now apply lower_same in Q2.
    + right. right. rewrite B in Q2. symmetry in Q2. now apply lower_same in Q2.
Qed.

(** ** Lookup *)
(** What a lower-case key finds for a runtime version. *)
Definition find_key (E : env) (k : string) (spec : Z) : option codec :=
  match specialVersionCodec E k spec with Some cd => Some cd | None => assoc k (e_reg E) end.
Definition overridden : list string := flat_map (fun p => map fst (snd p)) typesModules.
Lemma module_id t m : ~ In t overridden -> ModuleType t m = t.
Proof.
  intros N. unfold ModuleType. destruct (String.eqb m ""); [reflexivity|]. destruct (assoc (to_lower m) typesModules) as [l|] eqn:A; [|reflexivity].
  destruct (assoc t l) as [o|] eqn:B; [|reflexivity]. exfalso. apply N. unfold overridden. apply in_flat_map.
  assert (I : exists k, In (k, l) typesModules).
  { clear - A. induction typesModules as [|[k l'] r IH]; [discriminate|]. cbn [assoc] in A. destruct (String.eqb (to_lower m) k); [injection A as ->; exists k; now left|].
    destruct (IH A) as [k' H]. exists k'. now right. }
  destruct I as [k I]. exists (k, l). split; [exact I|]. cbn [snd]. clear - B. induction l as [|[k' v] l IH]; [discriminate|]. cbn [assoc] in B.
  destruct (String.eqb_spec t k') as [->|]; [now left|right; now apply IH].
Qed.
Lemma overridden_alpha t : In t overridden -> forallb wrapper_char (s2b t) = true.
Proof. intros H. assert (K : forallb (fun t => forallb wrapper_char (s2b t)) overridden = true) by reflexivity. rewrite forallb_forall in K. now apply K. Qed.
Lemma not_overridden x t : has_char x t -> wrapper_char x = false -> ~ In t overridden.
Proof. intros H W I. apply overridden_alpha in I. rewrite forallb_forall in I. apply I in H. congruence. Qed.
Lemma get_found E m t spec cd : ~ In (to_lower t) overridden -> find_key E (to_lower t) spec = Some cd -> getCodecInstant E m t spec = Ok (Some cd).
Proof.
  intros N F. unfold getCodecInstant. rewrite module_id by exact N. unfold find_key in F. destruct (specialVersionCodec E (to_lower t) spec); [now injection F as ->|].
  rewrite to_lower_idem, F. reflexivity.
Qed.
Lemma get_missing E m t spec : t <> "" -> first_char t <> Some "["%char -> ~ In (to_lower t) overridden -> find_key E (to_lower t) spec = None -> getCodecInstant E m t spec = Ok None.
Proof.
  intros NE NB N F. unfold getCodecInstant. rewrite module_id by exact N. unfold find_key in F. destruct (specialVersionCodec E (to_lower t) spec); [discriminate|].
  rewrite to_lower_idem, F. destruct t as [|a t]; [contradiction|]. destruct (String.eqb (to_lower (String a t)) "[]"); [reflexivity|].
  unfold to_lower. cbn [smap first_char]. destruct (last_char_some (String (lower_char a) (smap lower_char t)) ltac:(discriminate)) as [z ->].
  destruct (Ascii.eqb_spec (lower_char a) "["%char) as [Q|]; [|reflexivity]. apply (proj1 (lower_plain a "["%char eq_refl)) in Q. subst a. now exfalso; apply NB.
Qed.
Lemma lower_has x t : wrapper_char x = false -> (has_char x (to_lower t) <-> has_char x t).
Proof.
  intros W. unfold to_lower. induction t as [|c t IH]; [reflexivity|]. cbn [smap]. rewrite !has_char_cons, IH, (lower_plain c x W). reflexivity.
Qed.

(** A text that is a key. *)
Lemma resolve_key E m t spec cd : good t -> ConvertType t = t -> ~ In (to_lower t) overridden -> find_key E (to_lower t) spec = Some cd ->
  GetCodecClass E m t spec = Ok (Some (cd, "")).
Proof.
  intros G C N F. pose proof (get_found E m t spec cd N F) as GF. destruct (last_char_some t (good_nonempty t G)) as [z Hz].
  unfold GetCodecClass. destruct (String.length t); cbn [GetCodecClass_fuel]; rewrite C, Hz; destruct (Ascii.eqb z ">"%char); cbn [bind]; rewrite GF; reflexivity.
Qed.
(** W<A> where W<A> itself is no key. *)
Lemma split_lt_at w r : ~ has_char "<"%char w -> split_lt (w ++ "<" ++ r) = Some (w, r).
Proof.
  induction w as [|c w IH]; intros N; [reflexivity|]. cbn [String.append split_lt]. rewrite has_char_cons in N.
  destruct (Ascii.eqb_spec c "<"%char) as [->|]; [tauto|]. cbn [String.append] in IH. rewrite IH by tauto. reflexivity.
Qed.
Lemma stake_app a b : stake (String.length a) (a ++ b) = a.
Proof. induction a as [|c a IH]; [now destruct b|]. cbn [String.length String.append stake]. now rewrite IH. Qed.
Lemma last_app a c : last_char (a ++ String c "") = Some c.
Proof. induction a as [|x a IH]; [reflexivity|]. cbn [String.append]. destruct (a ++ String c "")%string eqn:Q; [destruct a; discriminate|]. exact IH. Qed.
Lemma generic_at w a : ~ has_char "<"%char w -> a <> "" -> generic_parts (w ++ "<" ++ a ++ ">") = Some (w, a).
Proof.
  intros N NE. unfold generic_parts. rewrite split_lt_at by exact N. rewrite length_app_s. cbn [String.length].
  replace (String.length a + 1 - 1)%nat with (String.length a) by lia. rewrite stake_app, last_app. cbn [Ascii.eqb Bool.eqb andb].
  destruct (String.eqb_spec a ""); [contradiction|]. reflexivity.
Qed.
Lemma last_generic w a : last_char (w ++ "<" ++ a ++ ">") = Some ">"%char.
Proof. replace (w ++ "<" ++ a ++ ">") with ((w ++ "<" ++ a) ++ ">") by (now rewrite !app_assoc_s). apply last_app. Qed.
Lemma wrapper_not_overridden w : wrapper w -> ~ In (to_lower w) overridden.
Proof.
  intros W I. assert (K : forallb (fun k => negb (existsb (String.eqb k) overridden)) ["vec"; "option"; "compact"; "result"; "btreeset"; "btreemap"] = true) by reflexivity.
  rewrite forallb_forall in K. specialize (K _ W). apply negb_true_iff in K.
  assert (X : existsb (String.eqb (to_lower w)) overridden = true) by (apply existsb_exists; exists (to_lower w); split; [exact I|apply String.eqb_refl]). congruence.
Qed.
Lemma resolve_generic E m w a spec cd : wrapper w -> good a -> equal_fold (w ++ "<" ++ a ++ ">") "Vec<u8>" = false ->
  find_key E (to_lower (w ++ "<" ++ a ++ ">")) spec = None -> find_key E (to_lower w) spec = Some cd ->
  GetCodecClass E m (w ++ "<" ++ a ++ ">") spec = Ok (Some (cd, a)).
Proof.
  intros W G V F1 F2. pose proof (good_generic w a W G) as GT. set (t := w ++ "<" ++ a ++ ">") in *.
  assert (B : has_prefix t "BoundedBTreeSet" = false).
  { unfold t, has_prefix. destruct (wrapper_shape w W) as (_ & LEN & _). unfold wrapper in W. cbn [In] in W.
    destruct w as [|c0 [|c1 r]]; [cbn in LEN; lia..|]. cbn [String.append prefix].
    destruct (Ascii.eqb_spec "B"%char c0) as [<-|]; [|reflexivity]. destruct (Ascii.eqb_spec "o"%char c1) as [<-|]; [|reflexivity].
    exfalso. unfold to_lower in W. cbn in W. decompose [or] W; try contradiction; discriminate. }
  assert (C : ConvertType t = t) by (rewrite good_convert, V by assumption; reflexivity).
  assert (NB : first_char t <> Some "["%char).
  { unfold t. destruct (wrapper_shape w W) as (_ & LEN & _). pose proof (wrapper_alpha w W) as AL. destruct w as [|c0 w]; [cbn in LEN; lia|].
    cbn [String.append first_char]. intros [= ->]. discriminate AL. }
  assert (N : ~ In (to_lower t) overridden).
  { apply (not_overridden "<"%char); [|reflexivity]. apply lower_has; [reflexivity|]. unfold t. apply has_char_app. right. now left. }
  assert (X1 : getCodecInstant E m t spec = Ok None) by (apply get_missing; try assumption; now apply good_nonempty).
  assert (X2 : getCodecInstant E m w spec = Ok (Some cd)) by (apply get_found; [now apply wrapper_not_overridden|exact F2]).
  assert (P : generic_parts t = Some (w, a)) by (apply generic_at; [now apply wrapper_no_lt|now apply good_nonempty]).
  unfold GetCodecClass. destruct (String.length t); cbn [GetCodecClass_fuel]; rewrite C; unfold t at 1; rewrite last_generic; cbn [Ascii.eqb Bool.eqb];
    rewrite X1; cbn [bind]; rewrite P; rewrite X2; reflexivity.
Qed.
(** [A; n] where that text is no key. *)
Lemma lower_digits n : 0 <= n -> to_lower (itoa n) = itoa n.
Proof.
  intros H. pose proof (itoa_digits_only n H) as F. unfold to_lower, s2b in *. induction (itoa n) as [|c s IH]; [reflexivity|]. cbn [list_ascii_of_string smap] in *.
  inversion F; subst. rewrite IH by assumption. f_equal. unfold lower_char. replace ((65 <=? bZ c) && (bZ c <=? 90)) with false by (symmetry; lia). reflexivity.
Qed.
Lemma strip_array x : strip_ends ("[" ++ x ++ "]") = x.
Proof. cbn [String.append strip_ends]. rewrite length_app_s. cbn [String.length]. replace (String.length x + 1 - 1)%nat with (String.length x) by lia. apply stake_app. Qed.
Lemma split_semi a : forall n, ~ has_char ";"%char n -> exists h l, split_char ";"%char (a ++ ";" ++ n) = (h :: l ++ [n])%list /\ join ";" (h :: l) = a.
Proof.
  induction a as [|c a IH]; intros n N.
  - exists "", []. cbn [String.append split_char Ascii.eqb Bool.eqb]. rewrite split_absent by exact N. now split.
  - destruct (IH n N) as (h & l & E & J). cbn [String.append split_char]. cbn [String.append] in E. rewrite E. destruct (Ascii.eqb_spec c ";"%char) as [->|].
    + exists "", (h :: l). split; [reflexivity|]. rewrite <- J. reflexivity.
    + exists (String c h), l. split; [reflexivity|]. rewrite <- J. destruct l; reflexivity.
Qed.
Lemma digits_no_semi n : 0 <= n -> ~ has_char ";"%char (itoa n) /\ ~ has_char " "%char (itoa n).
Proof.
  intros H. destruct (digits_chars n H) as (D & _). rewrite Forall_forall in D. split; intros I; specialize (D _ I); revert D; not_name.
Qed.
Lemma trim_digits n : 0 <= n -> trim_space (" " ++ itoa n) = itoa n.
Proof.
  intros H. destruct (digits_chars n H) as (D & NE & _). unfold trim_space. cbn [String.append trim_left]. change (is_space " "%char) with true. cbv iota.
  rewrite Forall_forall in D. assert (SP : forall c, has_char c (itoa n) -> is_space c = false) by (intros c Hc; apply name_not_space, name_charb_ok, D; exact Hc).
  destruct (itoa n) as [|c s]; [contradiction|]. cbn [trim_left]. rewrite (SP c) by now left. apply trim_right_id. intros x Hx. now apply SP, last_char_in.
Qed.
Lemma StringToInt_itoa n : 0 <= n < 2 ^ 63 -> StringToInt (itoa n) = n.
Proof. intros H. unfold StringToInt. rewrite parse_int_itoa. unfold two63. replace ((- 2 ^ 63 <=? n) && (n <? 2 ^ 63)) with true by (symmetry; lia). reflexivity. Qed.
Definition array_text (a : string) (n : Z) : string := "[" ++ a ++ "; " ++ itoa n ++ "]".
Lemma array_lower a n : 0 <= n -> to_lower (array_text a n) = array_text (to_lower a) n.
Proof. intros H. unfold array_text. rewrite !to_lower_app', lower_digits by exact H. reflexivity. Qed.
Lemma fixed_array_at a n : good a -> 0 <= n < 2 ^ 63 -> fixed_array (array_text a n) = Some (CFixedArray n a).
Proof.
  intros G N. unfold fixed_array, array_text. replace ("[" ++ a ++ "; " ++ itoa n ++ "]") with ("[" ++ (a ++ ";" ++ (" " ++ itoa n)) ++ "]") by (cbn [String.append]; rewrite !app_assoc_s; reflexivity).
  rewrite strip_array. destruct (digits_no_semi n (proj1 N)) as [D _].
  destruct (split_semi a (" " ++ itoa n)) as (h & l & -> & J); [cbn [String.append]; rewrite has_char_cons; intros [X|X]; [discriminate|now apply D]|].
  cbn [rev]. rewrite rev_app_distr. cbn [rev app]. rewrite trim_digits, StringToInt_itoa by lia.
  destruct (rev l ++ [h])%list eqn:Q; [now destruct (rev l)|]. rewrite <- Q.
  rewrite rev_app_distr, rev_involutive. cbn [rev app]. rewrite J, good_trim by exact G. reflexivity.
Qed.
Lemma resolve_array E m a n spec : good a -> 0 <= n < 2 ^ 63 -> find_key E (to_lower (array_text a n)) spec = None ->
  GetCodecClass E m (array_text a n) spec = Ok (Some (CFixedArray n (to_lower a), "")).
Proof.
  intros G N F. pose proof (good_array a n G (proj1 N)) as GT. fold (array_text a n) in GT. set (t := array_text a n) in *.
  assert (V : equal_fold t "Vec<u8>" = false) by (unfold equal_fold; apply String.eqb_neq; unfold t, array_text, to_lower; cbn; discriminate).
  assert (C : ConvertType t = t) by (rewrite good_convert, V by (assumption || reflexivity); reflexivity).
  assert (NO : ~ In (to_lower t) overridden).
  { apply (not_overridden "["%char); [|reflexivity]. apply lower_has; [reflexivity|]. now left. }
  assert (LA : last_char t = Some "]"%char).
  { unfold t, array_text. replace ("[" ++ a ++ "; " ++ itoa n ++ "]") with (("[" ++ a ++ "; " ++ itoa n) ++ "]") by (rewrite !app_assoc_s; reflexivity). apply last_app. }
  assert (X : getCodecInstant E m t spec = Ok (Some (CFixedArray n (to_lower a)))).
  { unfold getCodecInstant. rewrite module_id by exact NO. unfold find_key in F. destruct (specialVersionCodec E (to_lower t) spec); [discriminate|].
    rewrite to_lower_idem, F. unfold t. rewrite array_lower by lia. destruct (String.eqb_spec (array_text (to_lower a) n) "[]") as [Q|_].
    - exfalso. destruct (good_first a G) as (c0 & c1 & r & -> & _). unfold array_text, to_lower in Q. cbn in Q. discriminate.
    - assert (LL : last_char (array_text (to_lower a) n) = Some "]"%char).
      { rewrite <- array_lower by lia. rewrite lower_last. fold t. rewrite LA. reflexivity. }
      rewrite LL. cbn [array_text String.append first_char Ascii.eqb Bool.eqb andb]. f_equal. change (String "[" (to_lower a ++ String ";" (String " " (itoa n ++ "]")))) with (array_text (to_lower a) n).
      apply fixed_array_at; [|exact N]. apply (good_fold a); [now rewrite to_lower_idem|exact G]. }
  unfold GetCodecClass. destruct (String.length t); cbn [GetCodecClass_fuel]; rewrite C, LA; cbn [Ascii.eqb Bool.eqb bind]; rewrite X; reflexivity.
Qed.
