(** C99: the merged source types (tools/merge.go). C100: utiles.BytesToBnHex.
    C58_pow: math.BigPow. *)
From Coq Require Import ZArith String Ascii List Bool Lia Permutation.
From Coq Require Import ZifyBool ZifyNat ZifyN.
From Verif Require Import GoBase SpecNum ProofsBase ModelTools ProofsNames ProofsLoad ModelEthMath ModelMerge.
Import ListNotations.
Open Scope string_scope. Open Scope Z_scope.

(** ** C99 *)
(** The specification: the files that count, and the file that decides a name. *)
Definition json_path (p : string) : Prop := p = "json" \/ exists q, p = q ++ ".json".
Definition holds {V} (k : string) (f : src_file V) : Prop := json_path (f_path f) /\ exists v, In (k, v) (f_entries f).
Definition decides {V} (files : list (src_file V)) (k : string) (v : V) : Prop :=
  exists before f after, files = (before ++ f :: after)%list /\ json_path (f_path f) /\ In (k, v) (f_entries f) /\ Forall (fun g => ~ holds k g) after.
(** No two entries of one file have one name. *)
Definition proper {V} (f : src_file V) : Prop := NoDup (map fst (f_entries f)).

Lemma last_cons {A} (a : A) l d : l <> [] -> last (a :: l) d = last l d.
Proof. now destruct l. Qed.
Lemma split_nonempty x s : split_char x s <> [].
Proof. destruct s as [|c s]; cbn; [discriminate|]. destruct (Ascii.eqb c x); [discriminate|]. now destruct (split_char x s). Qed.
Lemma two_parts q s : exists h h2 t, split_char "."%char (q ++ "." ++ s) = (h :: h2 :: t)%list.
Proof.
  induction q as [|c q (h & h2 & t & IH)].
  - cbn. destruct (split_char "."%char s) as [|h t] eqn:Q; [now apply split_nonempty in Q|]. now exists "", h, t.
  - change (String c q ++ "." ++ s) with (String c (q ++ "." ++ s)). cbn [split_char]. rewrite IH. destruct (Ascii.eqb c "."%char); [now exists "", h, (h2 :: t)|now exists (String c h), h2, t].
Qed.
Lemma last_split_dot q s : ~ has_char "."%char s -> last (split_char "."%char (q ++ "." ++ s)) "" = s.
Proof.
  intros N. induction q as [|c q IH].
  - cbn. rewrite (split_absent "."%char s N). reflexivity.
  - destruct (two_parts q s) as (h & h2 & t & Q). rewrite Q in IH. change (String c q ++ "." ++ s) with (String c (q ++ "." ++ s)). cbn [split_char]. rewrite Q.
    destruct (Ascii.eqb c "."%char); exact IH.
Qed.
Lemma no_dot_single s : forall h, split_char "."%char s = [h] -> s = h.
Proof.
  induction s as [|c s IH]; intros h Q; cbn in Q; [congruence|]. destruct (Ascii.eqb c "."%char); [injection Q as _ Q; now apply split_nonempty in Q|].
  destruct (split_char "."%char s) as [|x y] eqn:E; [now apply split_nonempty in E|]. injection Q as <- ->. f_equal. now apply IH.
Qed.
Lemma last_split_inv s t : last (split_char "."%char s) "" = t -> s = t \/ exists q, s = q ++ "." ++ t.
Proof.
  assert (M : forall s h h2 r t, split_char "."%char s = (h :: h2 :: r)%list -> last (h2 :: r) "" = t -> exists q, s = q ++ "." ++ t).
  { clear. induction s as [|c s IH]; intros h h2 r t S0 L; cbn in S0; [discriminate|]. destruct (Ascii.eqb_spec c "."%char) as [->|D].
    - injection S0 as _ S0. destruct r as [|h3 r].
      + apply no_dot_single in S0. cbn in L. subst. now exists "".
      + destruct (IH h2 h3 r t S0 L) as [q ->]. now exists (String "." q).
    - destruct (split_char "."%char s) as [|x y] eqn:E; [now apply split_nonempty in E|]. injection S0 as _ ->. destruct (IH x h2 r t eq_refl L) as [q ->]. now exists (String c q). }
  intros L. destruct (split_char "."%char s) as [|h [|h2 r]] eqn:Q; [now apply split_nonempty in Q| |].
  - apply no_dot_single in Q. cbn in L. subst. now left.
  - right. now apply (M s h h2 r t).
Qed.
(** Which files are merged: those whose name ends in .json. *)
Theorem C99_files p : is_json p = true <-> json_path p.
Proof.
  unfold is_json, json_path. rewrite String.eqb_eq. split.
  - intros Q. apply last_split_inv in Q. exact Q.
  - intros [->|[q ->]]; [reflexivity|]. apply (last_split_dot q "json"). unfold has_char. cbn. intuition discriminate.
Qed.

Lemma assoc_set_all {V} k (l : list (string * V)) m : NoDup (map fst l) ->
  assoc k (fold_left (fun m e => map_set (fst e) (snd e) m) l m) = match assoc k l with Some v => Some v | None => assoc k m end.
Proof.
  revert m. induction l as [|[a v] l IH]; intros m N; [reflexivity|]. cbn in N. inversion N; subst. cbn [fold_left fst snd assoc]. rewrite IH by assumption. rewrite assoc_map_set.
  destruct (String.eqb_spec k a) as [->|D]; [|reflexivity]. destruct (assoc a l) eqn:Q; [|reflexivity]. exfalso. apply H1.
  clear -Q. induction l as [|[b w] l IH]; [discriminate|]. cbn in Q |- *. destruct (String.eqb_spec a b); [now left|right; auto].
Qed.
Lemma assoc_iff {V} k v (l : list (string * V)) : NoDup (map fst l) -> (assoc k l = Some v <-> In (k, v) l).
Proof.
  induction l as [|[a w] l IH]; intros N; cbn; [split; [discriminate|tauto]|]. cbn in N. inversion N; subst. destruct (String.eqb_spec k a) as [->|D].
  - split; [intros [= ->]; now left|]. intros [[= ->]|I]; [reflexivity|]. exfalso. apply H1. now apply (in_map fst) in I.
  - rewrite IH by assumption. split; [now right|]. intros [[= -> ->]|I]; [congruence|assumption].
Qed.
Lemma assoc_no {V} k (l : list (string * V)) : assoc k l = None <-> ~ exists v, In (k, v) l.
Proof.
  induction l as [|[a w] l IH]; cbn; [split; [now intros _ [v []]|reflexivity]|]. destruct (String.eqb_spec k a) as [->|D].
  - split; [discriminate|]. intros H. exfalso. apply H. exists w. now left.
  - rewrite IH. split; intros H [v I]; apply H; exists v; [destruct I as [[= -> ->]|I]; [congruence|exact I]|now right].
Qed.
Lemma merge_step {V} k (files : list (src_file V)) m : Forall proper files ->
  assoc k (fold_left merge_one files m) = match assoc k (fold_left merge_one files []) with Some v => Some v | None => assoc k m end.
Proof.
  revert m. induction files as [|f files IH]; intros m N; [reflexivity|]. inversion N; subst. cbn [fold_left]. rewrite (IH (merge_one m f)), (IH (merge_one [] f)) by assumption.
  destruct (assoc k (fold_left merge_one files [])); [reflexivity|]. unfold merge_one. destruct (is_json (f_path f)); [|reflexivity].
  rewrite !assoc_set_all by assumption. now destruct (assoc k (f_entries f)).
Qed.
(** A name has the value of the last file that has the name, and only those
    names are there. *)
Theorem C99_last {V} (files : list (src_file V)) k v : Forall proper files -> (assoc k (merge_all files) = Some v <-> decides files k v).
Proof.
  unfold merge_all. induction files as [|f files IH]; intros N.
  - cbn. split; [discriminate|]. intros (b & f & a & Q & _). now destruct b.
  - inversion N; subst. specialize (IH H2). cbn [fold_left]. rewrite merge_step by assumption. split.
    + destruct (assoc k (fold_left merge_one files [])) as [w|] eqn:Q.
      * intros [= ->]. destruct (proj1 IH eq_refl) as (b & g & a & -> & J & I & L). now exists (f :: b), g, a.
      * intros A. exists [], f, files. split; [reflexivity|]. unfold merge_one in A. destruct (is_json (f_path f)) eqn:J; [|discriminate]. apply C99_files in J.
        rewrite assoc_set_all in A by assumption. destruct (assoc k (f_entries f)) eqn:E; [|discriminate]. injection A as ->. apply assoc_iff in E; [|assumption].
        split; [exact J|]. split; [exact E|]. clear -Q H2. apply Forall_forall. intros g G [Jg [w Iw]].
        revert Q. induction files as [|f fs IH]; [contradiction|]. inversion H2; subst. cbn [fold_left]. rewrite merge_step by assumption.
        destruct (assoc k (fold_left merge_one fs [])) as [x|] eqn:Q; [discriminate|]. destruct G as [->|G]; [|now specialize (IH H3 G eq_refl)].
        unfold merge_one. rewrite (proj2 (C99_files _) Jg). rewrite assoc_set_all by assumption. rewrite (proj2 (assoc_iff k w _ H1) Iw). discriminate.
    + intros (b & g & a & Q & J & I & L). destruct b as [|b0 b].
      * injection Q as <- <-. assert (Z0 : assoc k (fold_left merge_one files []) = None).
        { clear -L H2. induction files as [|g fs IH]; [reflexivity|]. inversion L; subst. inversion H2; subst. cbn [fold_left]. rewrite merge_step by assumption. rewrite IH by assumption.
          unfold merge_one. destruct (is_json (f_path g)) eqn:J; [|reflexivity]. rewrite assoc_set_all by assumption. destruct (assoc k (f_entries g)) eqn:E; [|reflexivity].
          exfalso. apply H1. split; [now apply C99_files|]. apply assoc_iff in E; [|assumption]. now exists v. }
        rewrite Z0. unfold merge_one. rewrite (proj2 (C99_files _) J). rewrite assoc_set_all by assumption. now rewrite (proj2 (assoc_iff k v _ H1) I).
      * injection Q as <- ->. rewrite (proj2 IH); [reflexivity|]. now exists b, g, a.
Qed.
(** The order in which the entries of a file are visited does not matter. *)
Theorem C99_order {V} (files files' : list (src_file V)) : Forall proper files ->
  Forall2 (fun f g => f_path f = f_path g /\ Permutation (f_entries f) (f_entries g)) files files' ->
  forall k, assoc k (merge_all files) = assoc k (merge_all files').
Proof.
  intros N F k. unfold merge_all. induction F as [|f g fs gs [P Q] F IH]; [reflexivity|]. inversion N; subst.
  assert (N' : Forall proper gs).
  { clear -F H2. induction F as [|x y xs ys [_ Q] F IH]; [constructor|]. inversion H2; subst. constructor; [|now apply IH].
    unfold proper in *. eapply Permutation_NoDup; [apply Permutation_map; exact Q|assumption]. }
  cbn [fold_left]. rewrite (merge_step k fs), (merge_step k gs) by assumption. rewrite (IH H2). destruct (assoc k (fold_left merge_one gs [])); [reflexivity|].
  unfold merge_one. rewrite P. destruct (is_json (f_path g)); [|reflexivity].
  assert (Ng : NoDup (map fst (f_entries g))) by (eapply Permutation_NoDup; [apply Permutation_map; exact Q|assumption]).
  rewrite !assoc_set_all by assumption. assert (E : assoc k (f_entries f) = assoc k (f_entries g)); [|now rewrite E].
  destruct (assoc k (f_entries g)) as [v|] eqn:E.
  - apply assoc_iff in E; [|assumption]. apply assoc_iff; [assumption|]. eapply Permutation_in; [apply Permutation_sym; exact Q|exact E].
  - apply assoc_no in E. apply assoc_no. intros [v I]. apply E. exists v. eapply Permutation_in; [exact Q|exact I].
Qed.

(** The Go language: a raw string literal is what stands between two back quotes,
    without the carriage returns. *)
Definition raw_literal (src text rest : string) : Prop :=
  exists t, src = bq ++ t ++ bq ++ rest /\ ~ has_char "`"%char t /\ s2b text = filter (fun c => negb (Ascii.eqb c "013"%char)) (s2b t).
Lemma to_quote t1 r1 : forall t2 r2, ~ has_char "`"%char t1 -> ~ has_char "`"%char t2 -> t1 ++ bq ++ r1 = t2 ++ bq ++ r2 -> t1 = t2 /\ r1 = r2.
Proof.
  induction t1 as [|c t IH]; intros [|d t2] r2 N1 N2 Q.
  - now injection Q as ->.
  - exfalso. injection Q as <- _. apply N2. now left.
  - exfalso. injection Q as -> _. apply N1. now left.
  - injection Q as -> Q. rewrite has_char_cons in N1, N2. destruct (IH t2 r2) as [-> ->]; tauto.
Qed.
Lemma keep_all l : ~ In "013"%char l -> filter (fun c => negb (Ascii.eqb c "013"%char)) l = l.
Proof.
  induction l as [|c l IH]; intros N; [reflexivity|]. cbn [In] in N. cbn [filter]. destruct (Ascii.eqb_spec c "013"%char) as [->|_]; [tauto|].
  cbn [negb]. f_equal. apply IH. tauto.
Qed.
Lemma s2b_inj a b : s2b a = s2b b -> a = b.
Proof. intros H. rewrite <- (string_of_list_ascii_of_string a), <- (string_of_list_ascii_of_string b). exact (f_equal string_of_list_ascii H). Qed.
(** The program that is written gives BaseType the JSON text, provided that the
    text has no back quote and, as is the case for what json.Marshal writes, no
    carriage return. *)
Theorem C99_literal_partial {V} marshal (files : list (src_file V)) : ~ has_char "`"%char (marshal (merge_all files)) -> ~ has_char "013"%char (marshal (merge_all files)) ->
  exists lit, base_file marshal files = base_head (merged_paths files) ++ lit
  /\ forall text rest, raw_literal lit text rest <-> text = marshal (merge_all files) /\ rest = nl.
Proof.
  intros N C. set (j := marshal (merge_all files)) in *. exists ((bq ++ j ++ bq) ++ nl). split; [reflexivity|]. intros text rest. rewrite !app_assoc_s. split.
  - intros (t & Q & NT & F). cbn [bq append] in Q. injection Q as Q. destruct (to_quote j nl t rest N NT Q) as [<- <-]. split; [|reflexivity].
    rewrite keep_all in F by exact C. now apply s2b_inj.
  - intros [-> ->]. exists j. split; [reflexivity|]. split; [exact N|]. symmetry. now apply keep_all.
Qed.
(** json.Marshal does not escape a back quote, and a type text with one ends the
    literal. *)
Theorem C99_literal_refuted : exists (marshal : list (string * string) -> string) files lit text rest,
  base_file marshal files = base_head (merged_paths files) ++ lit /\ raw_literal lit text rest
  /\ marshal (merge_all files) = "{""A"":""a`b""}" /\ text = "{""A"":""a" /\ rest = "b""}`" ++ nl.
Proof.
  exists (fun m => match m with [(k, v)] => "{""" ++ k ++ """:""" ++ v ++ """}" | _ => "" end), [SrcFile "../source/a.json" [("A", "a`b")]].
  exists (bq ++ "{""A"":""a`b""}" ++ bq ++ nl), "{""A"":""a", ("b""}`" ++ nl). split; [vm_compute; reflexivity|]. split; [|repeat split].
  exists "{""A"":""a". split; [reflexivity|]. split; [|reflexivity]. unfold has_char. cbn. intuition discriminate.
Qed.
(** Two files that both have a name, and two that do not count. *)
Definition mx_files : list (src_file Z) :=
  [SrcFile "../source/a.json" [("A", 1); ("B", 2)]; SrcFile "../source/base.go" [("A", 7)]; SrcFile "../source/b.json" [("C", 4); ("B", 3)]; SrcFile "../source/json" [("C", 9)]].
Example C99_case : Forall proper mx_files /\ decides mx_files "B" 3 /\ merge_all mx_files = [("A", 1); ("B", 3); ("C", 4)] /\ ~ json_path "../source/json".
Proof.
  assert (N : Forall proper mx_files).
  { repeat constructor; cbn; intuition discriminate. }
  split; [exact N|]. split; [apply C99_last; [exact N|vm_compute; reflexivity]|]. split; [vm_compute; reflexivity|]. rewrite <- C99_files. vm_compute. discriminate.
Qed.

(** ** C100 *)
(** The numbers the bytes stand for, one after the other. *)
Fixpoint numerals (l : bytes) (s : string) : Prop :=
  match l with [] => s = "" | b :: r => exists a t, s = a ++ t /\ is_numeral a (bZ b) /\ numerals r t end.
Lemma bn_acc l : forall h, fold_left (fun h b => h ++ itoa (bZ b)) l h = h ++ BytesToBnHex l.
Proof.
  unfold BytesToBnHex. induction l as [|b l IH]; intros h; cbn [fold_left]; [now rewrite app_nil_r_s|]. rewrite IH, (IH ("" ++ itoa (bZ b))). cbn [append]. now rewrite app_assoc_s.
Qed.
Lemma bn_cons b l : BytesToBnHex (b :: l) = itoa (bZ b) ++ BytesToBnHex l.
Proof. unfold BytesToBnHex at 1. cbn [fold_left append]. apply bn_acc. Qed.
(** The text is the decimal numbers of the bytes, in order, and nothing else. *)
Theorem C100_text l s : BytesToBnHex l = s <-> numerals l s.
Proof.
  revert s. induction l as [|b l IH]; intros s; [cbn; split; congruence|]. rewrite bn_cons. cbn [numerals]. split.
  - intros <-. exists (itoa (bZ b)), (BytesToBnHex l). split; [reflexivity|]. split; [apply itoa_numeral; pose proof (bZ_range b); lia|]. now apply IH.
  - intros (a & t & -> & A & T). apply numeral_itoa in A. apply IH in T. congruence.
Qed.
Lemma three c : 100 <= bZ c -> String.length (itoa (bZ c)) = 3%nat.
Proof. destruct c as [b0 b1 b2 b3 b4 b5 b6 b7]. destruct b0, b1, b2, b3, b4, b5, b6, b7; intros H; first [reflexivity|exfalso; revert H; vm_compute; congruence]. Qed.
Lemma same_front a : forall b s t, String.length a = String.length b -> a ++ s = b ++ t -> a = b /\ s = t.
Proof. induction a as [|c a IH]; intros [|d b] s t L Q; cbn in *; try discriminate; [auto|]. injection Q as -> Q. injection L as L. destruct (IH b s t L Q) as [-> ->]. auto. Qed.
(** The bytes can be read back when each has three digits, *)
Theorem C100_back_partial l : forall m, Forall (fun c => 100 <= bZ c) l -> Forall (fun c => 100 <= bZ c) m -> BytesToBnHex l = BytesToBnHex m -> l = m.
Proof.
  induction l as [|a l IH]; intros [|b m] L M Q; [reflexivity| | |].
  - rewrite bn_cons in Q. inversion M; subst. apply (f_equal String.length) in Q. rewrite length_app_s, three in Q by assumption. discriminate.
  - rewrite bn_cons in Q. inversion L; subst. apply (f_equal String.length) in Q. rewrite length_app_s, three in Q by assumption. discriminate.
  - rewrite !bn_cons in Q. inversion L; subst. inversion M; subst. apply same_front in Q; [|now rewrite !three by assumption]. destruct Q as [E Q].
    apply itoa_inj in E. rewrite (IH m) by assumption. f_equal. now apply bZ_inj.
Qed.
(** but not in general, and the text is neither the hexadecimal text nor the number. *)
Theorem C100_back_refuted : (exists l m, l <> m /\ BytesToBnHex l = BytesToBnHex m) /\ exists l, BytesToBnHex l <> BytesToHex l /\ BytesToBnHex l <> itoa (le_val l) /\ BytesToBnHex l <> itoa (le_val (rev l)).
Proof.
  split; [exists (map Zb [1; 2]), (map Zb [12]); split; [discriminate|reflexivity]|].
  exists (map Zb [16; 1]). repeat split; vm_compute; discriminate.
Qed.
Example C100_case : BytesToBnHex (map Zb [200; 0; 17]) = "200017" /\ BytesToBnHex [] = "".
Proof. split; reflexivity. Qed.

(** ** C58: BigPow *)
Theorem C58_pow a b : (0 <= b -> BigPow a b = a ^ b) /\ (b < 0 -> BigPow a b = 1)
  /\ BigPow 2 255 = tt255 /\ BigPow 2 256 = tt256 /\ MaxBig63 = 2 ^ 63 - 1.
Proof. unfold BigPow, MaxBig63, tt63, BigPow. repeat split; intros H; destruct (Z.ltb_spec b 0); lia || reflexivity. Qed.
Example C58_pow_case : BigPow 10 18 = 1000000000000000000 /\ BigPow (-3) 3 = -27 /\ BigPow 5 (-1) = 1.
Proof. repeat split. Qed.
Print Assumptions C99_files.
Print Assumptions C99_last.
Print Assumptions C99_order.
Print Assumptions C99_literal_partial.
Print Assumptions C99_literal_refuted.
Print Assumptions C100_text.
Print Assumptions C100_back_partial.
Print Assumptions C100_back_refuted.
Print Assumptions C58_pow.
