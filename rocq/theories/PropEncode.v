(** C45: what Encode returns is bare lower-case hex. *)

From Verif Require Import GoBase SpecNum ProofsBase ModelTools ModelUint128 ProofsTools ModelVal ModelFloat ModelJson
  ModelRegistry ModelFixPoint ModelDecode ModelEncode ModelRegister ProofsRun SpecScale ProofsReads ProofsScale ProofsEncode ProofsApi PropForms.

(** Never an upper-case letter, whatever the type and the value. *)
Theorem C45_lower E spec meta ts v s : Encodes E spec meta ts v s -> forall c, In c (s2b s) -> ~ (65 <= bZ c <= 90).
Proof.
  intros (_ & f & H) c I R. pose proof (encode_lower E f spec meta ts v s (H f (le_n f))) as L. clear H.
  unfold to_lower in L. induction s as [|a s IH]; [contradiction|]. cbn [smap] in L. injection L as L1 L2.
  destruct I as [<-|I]; [|now apply IH]. unfold lower_char in L1.
  replace ((65 <=? bZ a) && (bZ a <=? 90)) with true in L1 by (symmetry; lia).
  apply (f_equal bZ) in L1. rewrite bZ_Zb_small in L1 by lia. lia.
Qed.

(** Hex digits of either case; the same with an optional 0x. *)
Definition hex_char (c : ascii) : Prop := 48 <= bZ c <= 57 \/ 65 <= bZ c <= 70 \/ 97 <= bZ c <= 102.
Definition all_hex_text (s : string) : Prop := Forall hex_char (s2b s).
Definition hexish (s : string) : Prop := all_hex_text s \/ exists t, s = "0x" ++ t /\ all_hex_text t.
Definition bare_hex (s : string) : Prop := Forall lower_hex (s2b s).

(** A value all of whose strings are hex text, with or without 0x, and whose
    Raw data is given without 0x. *)
Inductive clean : val -> Prop :=
| cl_str s : hexish s -> clean (VStr s)
| cl_slice l : Forall clean l -> clean (VSlice l)
| cl_strs l : Forall hexish l -> clean (VStrs (Some l))
| cl_map m : Forall clean_entry m -> clean (VMap m)
| cl_box i ps cs : hexish i -> Forall clean ps -> Forall clean cs -> clean (VBox i ps cs)
| cl_other v : match v with VStr _ | VSlice _ | VStrs (Some _) | VMap _ | VBox _ _ _ => False | _ => True end -> clean v
with clean_entry : string * val -> Prop :=
| ce k v : clean v -> (has_prefix k "Raw" = true -> match v with VStr s => has_prefix s "0x" = false | _ => True end) -> clean_entry (k, v).

(** The call a map stands for (an uninterpreted JSON conversion) is as clean as
    the map. *)
Definition clean_boxes (E : env) : Prop := forall m i ps cs, clean (VMap m) -> e_box E m = Some (i, ps, cs) ->
  hexish i /\ Forall clean ps /\ Forall clean cs.

Lemma hex_app a b : all_hex_text a -> all_hex_text b -> all_hex_text (a ++ b).
Proof. unfold all_hex_text. intros A B. induction a as [|x a IH]; [exact B|]. cbn [s2b String.append] in *. inversion A; subst. constructor; auto. Qed.
Lemma bare_all s : bare_hex s -> all_hex_text s.
Proof. apply Forall_impl. unfold lower_hex, hex_char. intros a. tauto. Qed.
Lemma hex_bytes b : all_hex_text (hex_encode b).
Proof. apply bare_all, hex_encode_lower. Qed.
Lemma no_0x s : all_hex_text s -> has_prefix s "0x" = false.
Proof.
  unfold all_hex_text, has_prefix. intros H. destruct s as [|a [|b s]]; [reflexivity| |]; cbn [prefix].
  - now destruct (Ascii.eqb "0" a).
  - destruct (Ascii.eqb_spec "0" a); [|reflexivity]. destruct (Ascii.eqb_spec "x" b) as [<-|]; [|reflexivity].
    exfalso. inversion H as [|? ? _ H2]; subst. inversion H2 as [|? ? H3 _]; subst. revert H3. unfold hex_char.
    change (bZ "x") with 120. lia.
Qed.
Lemma trim_all s : all_hex_text s -> TrimHex s = s.
Proof. intros H. unfold TrimHex, trim_prefix. now rewrite no_0x. Qed.
Lemma trim_0x s : TrimHex ("0x" ++ s) = s.
Proof. reflexivity. Qed.
Lemma trim_hexish s : hexish s -> all_hex_text (TrimHex s).
Proof. intros [H|(t & -> & H)]; [now rewrite trim_all|now rewrite trim_0x]. Qed.
Lemma lower_hex_all s : all_hex_text s -> bare_hex (to_lower s).
Proof.
  unfold all_hex_text, bare_hex, to_lower. induction s as [|c s IH]; [constructor|]. cbn [s2b smap]. intros H. inversion H as [|? ? H1 H2]; subst.
  constructor; [|now apply IH]. unfold lower_char. destruct ((65 <=? bZ c) && (bZ c <=? 90)) eqn:X.
  - unfold lower_hex. unfold hex_char in H1. rewrite bZ_Zb_small by lia. lia.
  - unfold hex_char in H1. unfold lower_hex. lia.
Qed.
Lemma lower_0x s : to_lower ("0x" ++ s) = "0x" ++ to_lower s.
Proof. now rewrite to_lower_app. Qed.
Lemma finish_hex o : hexish o -> bare_hex (TrimHex (to_lower o)).
Proof.
  intros [H|(t & -> & H)].
  - rewrite trim_all; [now apply lower_hex_all|]. now apply bare_all, lower_hex_all.
  - rewrite lower_0x, trim_0x. now apply lower_hex_all.
Qed.
Lemma hexish_nil : hexish "".
Proof. left. constructor. Qed.

Definition ok_res (P : string -> Prop) (r : res string) : Prop := match r with Ok s => P s | _ => True end.
Definition rec_hex (rec : encoder) : Prop := forall sp m t v, clean v -> ok_res bare_hex (rec sp m t v).

Lemma concat_hex l : Forall (ok_res all_hex_text) l -> ok_res all_hex_text (concat_res l).
Proof.
  induction 1 as [|r l H _ IH]; cbn [concat_res]; [constructor|]. destruct r; cbn [bind]; try exact I.
  destruct (concat_res l); cbn [bind]; try exact I. now apply hex_app.
Qed.
Lemma pad_hex s : all_hex_text s -> all_hex_text (pad_even s).
Proof. intros H. unfold pad_even. destruct (Nat.even _); [exact H|]. apply hex_app; [exact H|]. constructor; [|constructor]. left. vm_compute. intuition congruence. Qed.
Lemma text_hex s : hexish s -> all_hex_text (text_bytes_hex s).
Proof. intros H. unfold text_bytes_hex. destruct (has_prefix s "0x"); [now apply trim_hexish|apply hex_bytes]. Qed.
Lemma u8_hex z : all_hex_text (U8Encode z).
Proof. apply hex_bytes. Qed.
Lemma compact_hex c e : all_hex_text (compact_encode_dec c e).
Proof. unfold compact_encode_dec. cbv zeta. repeat match goal with |- context [if ?b then _ else _] => destruct b end; try apply hex_bytes. constructor. Qed.

Lemma clean_get m k : Forall clean_entry m -> clean (map_get k m).
Proof.
  unfold map_get. induction 1 as [|[k' v] m H _ IH]; cbn [assoc]; [now apply cl_other|].
  destruct (String.eqb k k'); [|exact IH]. now inversion H.
Qed.
Lemma clean_assoc m k x : Forall clean_entry m -> assoc k m = Some x -> clean x.
Proof. intros H A. pose proof (clean_get m k H) as C. unfold map_get in C. now rewrite A in C. Qed.
Lemma clean_elements v l : clean v -> elements v = Some l -> Forall clean l.
Proof.
  intros C X. destruct C as [s H|l' H|l' H|m H|i ps cs H1 H2 H3|v H]; cbn [elements] in X; try discriminate.
  - now injection X as <-.
  - injection X as <-. rewrite Forall_map. eapply Forall_impl; [|exact H]. intros s. apply cl_str.
  - destruct v as [| | | | | | | | | | | | | | | |b| |l'|[l'|]|m'|ps|i ps cs]; try contradiction; try discriminate.
    + injection X as <-. rewrite Forall_map. apply Forall_forall. intros c _. now apply cl_other.
    + injection X as <-. constructor.
    + injection X as <-. constructor.
Qed.

Section Step.
Variable E : env.
Variable rec : encoder.
Hypothesis R : rec_hex rec.
Hypothesis CB : clean_boxes E.

Lemma rec_all sp m t v : clean v -> ok_res all_hex_text (rec sp m t v).
Proof. intros C. pose proof (R sp m t v C). destruct (rec sp m t v); try exact I. now apply bare_all. Qed.
Lemma len_hex n : ok_res all_hex_text (len_prefix rec n).
Proof. apply rec_all. now apply cl_other. Qed.
Lemma bind_hex (r : res string) (f : string -> res string) P : ok_res all_hex_text r -> (forall s, all_hex_text s -> ok_res P (f s)) -> ok_res P (bind r f).
Proof. intros H K. destruct r; cbn [bind]; try exact I. now apply K. Qed.
Lemma rows_hex sp m rows fm : Forall clean_entry fm -> ok_res all_hex_text (encode_rows (fun t x => rec sp m t x) rows fm).
Proof.
  intros H. induction rows as [|[|n [|t rest]] rows IH]; cbn [encode_rows]; try exact I; [constructor|].
  apply bind_hex; [apply rec_all, clean_get, H|]. intros a A. apply bind_hex; [exact IH|]. intros b B. now apply hex_app.
Qed.
Lemma args_hex sp m args ps : Forall clean ps -> ok_res all_hex_text (encode_args (fun t x => rec sp m t x) args ps).
Proof.
  revert ps. induction args as [|[n t] args IH]; intros ps H; cbn [encode_args]; [constructor|].
  destruct ps as [|v ps]; [exact I|]. inversion H; subst.
  apply bind_hex; [now apply rec_all|]. intros a A. apply bind_hex; [now apply IH|]. intros b B. now apply hex_app.
Qed.
Lemma value_list_hex v i vl : ok_res all_hex_text (value_list_index E v i vl).
Proof. revert i. induction vl as [|s vl IH]; intros i; cbn [value_list_index]; [constructor|]. destruct (String.eqb _ _); [apply u8_hex|apply IH]. Qed.
Lemma enum_map_hex sp m tm mm r : Forall clean_entry mm -> encode_enum_map (fun t x => rec sp m t x) tm mm = Some r -> ok_res all_hex_text r.
Proof.
  induction 1 as [|[k v] mm H _ IH]; cbn [encode_enum_map]; [discriminate|].
  destruct (name_index k 0 tm) as [[i sub]|]; [|exact IH]. intros X. injection X as <-. inversion H as [? ? C _]; subst.
  destruct (struct_variant sub) as [rows|].
  - destruct v; try exact I. inversion C as [| | |? CM| |? F]; subst; [|contradiction].
    apply bind_hex; [now apply rows_hex|]. intros a A. apply (hex_app (U8Encode i) a); [apply u8_hex|exact A].
  - apply bind_hex; [now apply rec_all|]. intros a A. apply (hex_app (U8Encode i) a); [apply u8_hex|exact A].
Qed.
Lemma enum_hex sp m tm vl v : clean v -> ok_res all_hex_text (encode_enum E (fun t x => rec sp m t x) tm vl v).
Proof.
  intros C. unfold encode_enum. destruct tm as [tm|]; [|apply value_list_hex].
  destruct (if c_like tm then c_like_index E v tm else None) as [s|] eqn:CL.
  - destruct (c_like tm); [|discriminate]. clear - CL. revert CL. induction tm as [|[n t] tm IH]; cbn [c_like_index]; [discriminate|].
    destruct (String.eqb _ _); [|exact IH]. intros X. injection X as <-. apply u8_hex.
  - destruct v; try apply value_list_hex.
    + destruct (name_index s 0 tm) as [[i t]|]; [apply u8_hex|apply value_list_hex].
    + inversion C as [| | |? CM| |? F]; subst; [|contradiction]. destruct (encode_enum_map _ tm m0) as [r|] eqn:X; [|apply value_list_hex].
      exact (enum_map_hex sp m tm m0 r CM X).
Qed.
Lemma data_hex m : Forall clean_entry m -> ok_res all_hex_text (encode_data rec m).
Proof.
  intros H. destruct m as [|[key v] m]; cbn [encode_data]; [exact I|]. inversion H as [|? ? C _]; subst. inversion C as [? ? CV RAW]; subst.
  destruct (-1 <? _).
  - destruct (String.eqb key "None"); [apply rec_all; now apply cl_other|].
    apply bind_hex; [apply rec_all; now apply cl_other|]. intros a A. destruct v; try exact I.
    apply bind_hex; [now apply rec_all|]. intros b B. now apply hex_app.
  - destruct (has_prefix key "Raw") eqn:PK; [|exact I]. destruct (scan_raw key); [|exact I].
    apply bind_hex; [apply rec_all; now apply cl_other|]. intros a A. destruct v; try exact I.
    specialize (RAW eq_refl). cbv beta iota in RAW. destruct (_ =? _); [|apply hex_app; [exact A|apply hex_bytes]].
    apply hex_app; [exact A|]. inversion CV as [? HS| | | | |? F]; subst; [|contradiction].
    destruct HS as [HS|(t & -> & HS)]; [exact HS|]. discriminate RAW.
Qed.
Lemma call_hex sp m meta v : clean v -> ok_res all_hex_text (encode_call E (fun t x => rec sp m t x) meta v).
Proof.
  intros C. unfold encode_call. destruct meta as [md|]; [|exact I].
  assert (G : forall i ps cs, hexish i -> Forall clean ps -> Forall clean cs ->
    ok_res all_hex_text (match assoc (TrimHex i) md with
      | None => Panic "Not find Extrinsic Lookup"
      | Some cm => a <- encode_args (fun t x => rec sp m t x) (cm_args cm) (match cs with [] => ps | _ => cs end) ;; Ok (TrimHex i ++ a) end)).
  { intros i ps cs Hi Hp Hc. destruct (assoc _ md) as [cm|]; [|exact I].
    apply bind_hex; [apply args_hex; now destruct cs|]. intros a A. apply hex_app; [now apply trim_hexish|exact A]. }
  destruct v; try exact I.
  - destruct (e_box E m0) as [[[i ps] cs]|] eqn:B; [|exact I]. destruct (CB _ _ _ _ C B) as (Hi & Hp & Hc). now apply G.
  - inversion C as [| | | |? ? ? Hi Hp Hc|? F]; subst; [|contradiction]. now apply G.
Qed.
Lemma vec_hex sp m t l : Forall clean l -> ok_res all_hex_text (concat_res (map (fun x => s <- rec sp m t x ;; Ok (TrimHex s)) l)).
Proof.
  intros H. apply concat_hex. rewrite Forall_map. eapply Forall_impl; [|exact H]. intros x Cx.
  apply bind_hex; [now apply rec_all|]. intros s Hs. cbn. now rewrite trim_all.
Qed.
Lemma all_hexish r : ok_res all_hex_text r -> ok_res hexish r.
Proof. destruct r; try easy. intros H. now left. Qed.

Lemma codec_hex spec meta cd v : clean v -> ok_res hexish (encode_codec E rec spec meta cd v).
Proof.
  intros C.
  assert (STR : forall f, (forall s, hexish s -> ok_res hexish (f s)) -> ok_res hexish (on_string v f)).
  { intros f H. destruct v; try exact I. apply H. inversion C as [? HS| | | | |? F]; subst; [exact HS|contradiction]. }
  assert (MAP : forall f, (forall m, Forall clean_entry m -> ok_res hexish (f m)) -> ok_res hexish (on_map v f)).
  { intros f H. destruct v; try exact I. apply H. inversion C as [| | |? CM| |? F]; subst; [exact CM|contradiction]. }
  assert (VEC : forall t, ok_res hexish (match v with
    | VStr s => if String.eqb s "" then len_prefix rec 0 else Panic "invalid vec input"
    | _ => match elements v with
           | Some l => p <- len_prefix rec (List.length l) ;;
                       r <- concat_res (map (fun x => s <- rec spec meta t x ;; Ok (TrimHex s)) l) ;; Ok (p ++ r)
           | None => Panic "invalid vec input" end end)).
  { intros t. assert (G : forall l, Forall clean l -> ok_res hexish (p <- len_prefix rec (List.length l) ;;
                       r <- concat_res (map (fun x => s <- rec spec meta t x ;; Ok (TrimHex s)) l) ;; Ok (p ++ r))).
    { intros l Hl. apply bind_hex; [apply len_hex|]. intros p P. apply bind_hex; [now apply vec_hex|]. intros r Hr. left. now apply hex_app. }
    pose proof (clean_elements v) as CE. destruct v; try exact I; try (apply G; now apply CE).
    - destruct (String.eqb s ""); [|exact I]. apply all_hexish, len_hex.
    - destruct l; apply G; now apply CE. }
  destruct cd; cbn [encode_codec]; try exact I; try apply VEC.
  all: try (left; now constructor).
  all: try (apply STR; intros s H; unfold encode_bytes, encode_hex_bytes, encode_string, encode_bitvec;
            first [exact H
                  | apply bind_hex; [apply len_hex|]; intros p P; left; apply hex_app; [exact P|];
                    first [apply hex_bytes | apply pad_hex, trim_hexish, H
                          | destruct (has_prefix s "0x"); [apply pad_hex, trim_hexish, H|apply hex_bytes]]]).
  all: try (destruct v; try exact I; try (left; apply hex_bytes); fail).
  all: try (apply STR; intros s H; cbn [ok_res]; unfold AddHex;
            destruct H as [H|(t & -> & H)];
            [rewrite no_0x by (now apply bare_all, lower_hex_all); right; eexists; split; [reflexivity|now apply bare_all, lower_hex_all]
            |rewrite lower_0x; right; exists (to_lower t); split; [reflexivity|now apply bare_all, lower_hex_all]]).
  all: try (apply all_hexish, enum_hex, C).
  all: try (apply all_hexish, call_hex, C).
  all: try (apply MAP; intros m Hm; apply all_hexish, data_hex, Hm).
  all: try (unfold encode_u128; destruct v; try exact I;
            repeat match goal with |- context [dec_of_string ?s] => destruct (dec_of_string s) as [[? ?]|]; try exact I end;
            match goal with |- context [FromBig ?z] => destruct (FromBig z); [left; apply hex_bytes|exact I|exact I] end).
  all: try (unfold encode_compact; destruct v; try exact I; try (left; apply compact_hex);
            try (destruct (NewFromFloat bits) as [[? ?]| |]; [left; apply compact_hex|exact I|exact I]);
            destruct (dec_of_string s) as [[? ?]|]; [left; apply compact_hex|exact I]).
  all: try (unfold encode_int_fixed; match goal with |- context [?n <? 16] => destruct (n <? 16) end;
            [destruct (fixed_bytes v); [left; apply hex_bytes|exact I]|];
            destruct v; try exact I;
            try (destruct (NewFromFloat bits) as [[? ?]| |]; try exact I; cbn [bind]);
            repeat match goal with |- context [dec_of_string ?s] => destruct (dec_of_string s) as [[? ?]|]; try exact I end;
            match goal with |- context [BigIntToIntBytes ?a ?b] => destruct (BigIntToIntBytes a b); [left; apply hex_bytes|exact I|exact I] end).
  - (* u256 *)
    unfold encode_u256. destruct v; try exact I; try (left; apply hex_bytes). inversion C as [? HS| | | | |? F]; subst; [|contradiction].
    destruct (String.eqb s ""); [apply hexish_nil|left; now apply text_hex].
  - (* bool *)
    destruct v; try exact I. left. destruct b; [apply (u8_hex 1)|apply (u8_hex 0)].
  - (* option *)
    destruct (_ || _); [left; apply (u8_hex 0)|]. destruct (String.eqb sub "bool").
    + destruct v; try exact I. left. destruct b; [apply (u8_hex 1)|apply (u8_hex 2)].
    + apply bind_hex; [now apply rec_all|]. intros a A. left. apply (hex_app "01" a); [apply (u8_hex 1)|exact A].
  - (* struct *)
    apply MAP. intros m Hm. destruct tm as [tm|]; [|apply hexish_nil]. apply all_hexish, concat_hex. rewrite Forall_map.
    apply Forall_forall. intros p _. now apply rec_all, clean_get.
  - (* result *)
    apply MAP. intros m Hm. destruct (split_char _ _) as [|a [|b [|c l]]]; try exact I.
    destruct (assoc "Ok" m) as [x|] eqn:A1; [|destruct (assoc "Error" m) as [x|] eqn:A2; [|exact I]].
    + apply bind_hex; [apply rec_all; eapply clean_assoc; eassumption|]. intros a' A. left. apply (hex_app "00" a'); [apply (u8_hex 0)|exact A].
    + apply bind_hex; [apply rec_all; eapply clean_assoc; eassumption|]. intros a' A. left. apply (hex_app "01" a'); [apply (u8_hex 1)|exact A].
  - (* byte array *)
    destruct v; try exact I.
    + inversion C as [? HS| | | | |? F]; subst; [|contradiction]. left. now apply text_hex.
    + left. rewrite trim_all; apply hex_bytes.
  - (* array *)
    assert (G : forall l, Forall clean l -> ok_res hexish
      (if Z.of_nat (List.length l) =? n then concat_res (map (fun x => rec spec meta sub x) l) else Panic "fixed length not match")).
    { intros l Hl. destruct (_ =? n); [|exact I]. apply all_hexish, concat_hex. rewrite Forall_map. eapply Forall_impl; [|exact Hl].
      intros x. apply rec_all. }
    pose proof (clean_elements v) as CE. destruct v; try exact I; try (apply G; now apply CE).
    + inversion C as [? HS| | | | |? F]; subst; [|contradiction]. destruct (String.eqb s ""); [apply hexish_nil|left; now apply text_hex].
    + destruct l; apply G; now apply CE.
Qed.
End Step.

Lemma encode_hex E f : clean_boxes E -> rec_hex (encode f E).
Proof.
  intros CB. induction f as [|f IH]; intros sp m t v C; [exact I|]. cbn [encode].
  destruct (equal_fold t "Null"); [constructor|]. destruct (GetCodecClass E "" t sp) as [[[cd sub]|]|x|]; cbn [bind]; try exact I.
  assert (CN : clean (match v with VNil => VStr "" | _ => v end)) by (destruct v; try exact C; apply cl_str, hexish_nil).
  pose proof (codec_hex E (encode f E) IH CB sp m (init_sub cd sub) _ CN) as H.
  destruct (encode_codec _ _ _ _ _ _); cbn [bind]; try exact I. now apply finish_hex.
Qed.

(** Every type, every value whose own strings are hex text. *)
Theorem C45_hex_partial E spec meta ts v s : clean_boxes E -> clean v -> Encodes E spec meta ts v s ->
  forall c, In c (s2b s) -> 48 <= bZ c <= 57 \/ 97 <= bZ c <= 102.
Proof.
  intros CB C (_ & f & H) c Hc. pose proof (encode_hex E f CB spec meta ts v C) as B. rewrite (H f (le_n f)) in B.
  cbn [ok_res] in B. unfold bare_hex in B. rewrite Forall_forall in B. exact (B c Hc).
Qed.
(** Text that is not hex passes through; so does 0x inside Raw data. *)
Theorem C45_hex_refuted :
  let E := reg_env base_reg in
  Encodes E (-1) None "AccountId" (VStr "not hex") "not hex"
  /\ Encodes E (-1) None "H256" (VStr "0x0xab") "0xab"
  /\ Encodes E (-1) None "Data" (VMap [("Raw3", VStr "0xab")]) "040xab".
Proof. cbv zeta. repeat match goal with |- _ /\ _ => split end; enc 4%nat. Qed.
Example C45_case : clean (VMap [("a", VStr "0xAB"); ("b", VSlice [VU16 7; VStr "cd"])])
  /\ clean_boxes (reg_env base_reg).
Proof.
  split.
  - apply cl_map. constructor; [|constructor; [|constructor]]; apply ce; try discriminate.
    + apply cl_str. right. exists "AB". split; [reflexivity|]. unfold all_hex_text, hex_char. repeat constructor; vm_compute; intuition congruence.
    + apply cl_slice. constructor; [now apply cl_other|]. constructor; [|constructor]. apply cl_str. left. unfold all_hex_text, hex_char. repeat constructor; vm_compute; intuition congruence.
  - intros m i ps cs _ H. discriminate.
Qed.

Print Assumptions C45_lower.
Print Assumptions C45_hex_partial.
Print Assumptions C45_hex_refuted.
