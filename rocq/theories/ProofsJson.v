(** json.Unmarshal gives back what json.Marshal wrote, for [][]string. *)

From Verif Require Import GoBase ProofsBase ModelTools ModelJson.

Lemma app_nil_s s : s ++ "" = s.
Proof. induction s as [|c s IH]; [reflexivity|]. cbn [String.append]. now rewrite IH. Qed.
Lemma parse_esc c t : parse_str (esc_char c ++ t) = match parse_str t with Some (v, r) => Some (String c v, r) | None => None end.
Proof. destruct c as [[] [] [] [] [] [] [] []]; reflexivity. Qed.
Lemma parse_escape s r : parse_str (escape s ++ String """"%char r) = Some (s, r).
Proof.
  induction s as [|c s IH]; [reflexivity|]. cbn [escape]. rewrite app_assoc_s, parse_esc, IH. reflexivity.
Qed.
Lemma parse_quote s r : parse_elem (quote s ++ r) = Some (s, r).
Proof.
  unfold quote, parse_elem. cbn [String.append]. rewrite app_assoc_s. cbn [String.append]. change (skip_ws (String """"%char ?t)) with (String """"%char t).
  change (bZ """"%char =? 34) with true. cbn iota. apply parse_escape.
Qed.

Section Arr.
Context {A : Type}.
Variable f : A -> string.
Variable elem : string -> option (A * string).
Hypothesis elem_f : forall x r, elem (f x ++ r) = Some (x, r).

Lemma items_ok l x fuel r : (List.length l < fuel)%nat ->
  parse_items elem fuel (join "," (map f (x :: l)) ++ String "]"%char r) = Some (x :: l, r).
Proof.
  revert x fuel. induction l as [|y l IH]; intros x [|fuel] L; try (cbn in L; lia); cbn [parse_items].
  - cbn [map join]. rewrite elem_f. reflexivity.
  - change (join "," (map f (x :: y :: l))) with (f x ++ "," ++ join "," (map f (y :: l))).
    rewrite !app_assoc_s, elem_f. cbn [String.append].
    change (skip_ws (String "," ?t)) with (String "," t). change (bZ "," =? 44) with true. cbn iota.
    rewrite IH by (cbn in L; lia). reflexivity.
Qed.

Hypothesis f_head : forall x, exists c t, f x = String c t /\ skip_ws (f x) = f x /\ bZ c <> 93.
Lemma join_length x l : (List.length (x :: l) <= String.length (join "," (map f (x :: l))))%nat.
Proof.
  revert x. induction l as [|y l IH]; intros x; destruct (f_head x) as (c & t & E & _).
  - cbn [map join]. rewrite E. cbn. lia.
  - change (join "," (map f (x :: y :: l))) with (f x ++ "," ++ join "," (map f (y :: l))). rewrite E. specialize (IH y).
    cbn [String.append String.length]. rewrite length_app_s. cbn [String.append String.length List.length] in *. lia.
Qed.
Lemma skip_head s r : (exists c t, s = String c t /\ skip_ws s = s) -> skip_ws (s ++ r) = s ++ r.
Proof.
  intros (c & t & -> & E). cbn [String.append skip_ws] in *.
  destruct ((bZ c =? 32) || (bZ c =? 9) || (bZ c =? 10) || (bZ c =? 13)); [|reflexivity].
  exfalso. assert (L : forall u, (String.length (skip_ws u) <= String.length u)%nat).
  { induction u as [|d u IH]; [reflexivity|]. cbn [skip_ws]. destruct (_ || _); cbn [String.length]; lia. }
  specialize (L t). rewrite E in L. cbn in L. lia.
Qed.
Lemma array_ok l r : parse_array elem (json_list (map f l) ++ r) = Some (l, r).
Proof.
  unfold json_list, parse_array. cbn [String.append]. rewrite app_assoc_s. cbn [String.append].
  change (skip_ws (String "[" ?t)) with (String "[" t). change (bZ "[" =? 91) with true. cbn iota.
  destruct l as [|x l]; [reflexivity|]. set (body := join "," (map f (x :: l)) ++ String "]"%char r).
  assert (H : exists c t, body = String c t /\ skip_ws body = body /\ bZ c <> 93).
  { destruct (f_head x) as (c & t & E & W & N). unfold body. destruct l as [|y l].
    - cbn [map join]. exists c, (t ++ String "]"%char r). rewrite skip_head by eauto. rewrite E. auto.
    - change (join "," (map f (x :: y :: l))) with (f x ++ "," ++ join "," (map f (y :: l))).
      rewrite app_assoc_s, skip_head by eauto. rewrite E. eexists _, _. split; [reflexivity|auto]. }
  destruct H as (c & t & E & W & N). rewrite W. rewrite E at 1. destruct (Z.eqb_spec (bZ c) 93); [contradiction|].
  apply items_ok. unfold body. rewrite length_app_s. pose proof (join_length x l) as J. cbn [List.length String.length] in *. lia.
Qed.
End Arr.

Lemma row_ok (row : list string) r : parse_array parse_elem (json_list (map quote row) ++ r) = Some (row, r).
Proof. apply array_ok; [exact parse_quote|]. intros s. unfold quote. eexists _, _. split; [reflexivity|]. split; [reflexivity|discriminate]. Qed.
Theorem json_roundtrip l : json_unmarshal (json_marshal l) = Some l.
Proof.
  unfold json_unmarshal, json_marshal. pose proof (array_ok (fun row => json_list (map quote row)) (parse_array parse_elem) row_ok) as H.
  specialize (H ltac:(intros row; unfold json_list; eexists _, _; split; [reflexivity|split; [reflexivity|discriminate]]) l "").
  rewrite app_nil_s in H. now rewrite H.
Qed.
Lemma struct_variant_marshal row rows : List.length row = 2%nat -> struct_variant (json_marshal (row :: rows)) = Some (row :: rows).
Proof.
  intros L. unfold struct_variant. rewrite json_roundtrip, L. cbn [Nat.eqb].
  assert (H : exists t, json_marshal (row :: rows) = String "[" (String "[" t) /\ (3 <= String.length t)%nat).
  { unfold json_marshal, json_list at 1. destruct row as [|a [|b [|]]]; try discriminate. destruct rows as [|y rows];
    cbn [map join]; unfold json_list at 1, quote at 1; cbn [map join String.append]; eexists; (split; [reflexivity|]).
    all: unfold quote; repeat (rewrite length_app_s || cbn [String.append String.length]); lia. }
  destruct H as (t & -> & H). cbn [String.length stake]. destruct (Z.ltb_spec 4 (Z.of_nat (S (S (String.length t))))); [reflexivity|lia].
Qed.
