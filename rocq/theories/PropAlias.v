(** C60: an alias of a type text resolves like the text it stands for. *)

From Verif Require Import GoBase SpecNum ProofsBase ModelTools ModelVal ModelRegistry ModelDecode ModelRegister ProofsRun SpecScale ProofsReads ProofsScale ProofsNames ProofsTexts PropRegistry.

(** Type texts: names, wrappers of one or two types, arrays. *)
Inductive type_text : string -> Prop :=
| tt_name n : name_text_ok n -> type_text n
| tt_generic w t : wrapper w -> type_text t -> type_text (w ++ "<" ++ t ++ ">")
| tt_generic2 w t u : wrapper w -> type_text t -> type_text u -> type_text (w ++ "<" ++ (t ++ "," ++ u) ++ ">")
| tt_array t n : type_text t -> 0 <= n -> type_text (array_text t n).
Lemma type_text_good t : type_text t -> good t.
Proof.
  induction 1; [now apply name_good|now apply good_generic| |now apply good_array].
  apply good_generic; [assumption|]. now apply good_pair.
Qed.

(** The texts an alias may stand for besides registered names. *)
Definition alias_wrapper (w : string) : Prop := In (to_lower w) ["vec"; "option"; "compact"; "btreeset"; "btreemap"].
Inductive alias_form : string -> Prop :=
| af_generic w x : alias_wrapper w -> type_text x -> alias_form (w ++ "<" ++ x ++ ">")
| af_generic2 w x y : alias_wrapper w -> type_text x -> type_text y -> alias_form (w ++ "<" ++ (x ++ "," ++ y) ++ ">")
| af_array x n : type_text x -> ~ has_char ";"%char x -> 0 <= n < 2 ^ 63 -> alias_form (array_text x n).

(** Wrappers and Bytes have only their built-in meaning, and nothing about
    the text or the alias is tied to a range of versions. *)
Definition builtin_names : list string := ["vec"; "option"; "compact"; "btreeset"; "btreemap"].
Definition builtin (r : reg) : Prop :=
  (forall k, In k builtin_names -> assoc k (r_types r) = assoc k base_registry /\ assoc k (r_special r) = None)
  /\ assoc "bytes" (r_special r) = None.

(** Decoders that only differ in the letter case of an element type. *)
Definition same_but_case (a b : codec) : Prop :=
  a = b \/ exists n x y, a = CFixedArray n x /\ b = CFixedArray n y /\ to_lower x = to_lower y.

Lemma find_plain r k spec : assoc k (r_special r) = None -> find_key (reg_env r) k spec = assoc k (r_types r).
Proof. intros H. unfold find_key, specialVersionCodec. cbn [e_special reg_env e_reg]. now rewrite H. Qed.
Lemma resolves_key r c t cd0 : good t -> ConvertType t = t -> ~ In (to_lower t) overridden -> assoc (to_lower t) (r_special r) = None ->
  assoc (to_lower t) (r_types r) = Some cd0 -> forall cd, resolves (reg_env r) c t cd <-> cd = init_sub cd0 "".
Proof.
  intros G C N S T cd. assert (F : find_key (reg_env r) (to_lower t) (x_spec c) = Some cd0) by now rewrite find_plain.
  pose proof (resolve_key (reg_env r) (x_module c) t (x_spec c) cd0 G C N F) as K. split.
  - intros (x & sub & X & <-). rewrite K in X. now injection X as -> ->.
  - intros ->. now exists cd0, "".
Qed.
Lemma alias_resolves r c a cd0 : name_ok a -> x_module c = "" -> assoc (to_lower a) (r_special r) = None ->
  resolves (reg_env (with_types (upd (to_lower a) cd0) r)) c a (init_sub cd0 "").
Proof.
  intros N M S. apply name_resolves; [exact N|]. unfold lookup. rewrite M, module_type_empty, to_lower_idem. unfold specialVersionCodec.
  cbn [reg_env e_special with_types r_special e_reg r_types]. rewrite S. unfold upd. cbn [assoc]. now rewrite String.eqb_refl.
Qed.
Lemma register_alias fuel a t r : name_ok a ->
  RegCustomTypes fuel [(a, alias_entry t)] r = (r' <- reg_string fuel [(a, alias_entry t)] (to_lower a) (alias_entry t) r ;; Ok r').
Proof. reflexivity. Qed.
Lemma key_plain a cd r : name_ok a -> regCustomKey (to_lower a) cd r = with_types (upd (to_lower a) cd) r.
Proof. intros N. unfold regCustomKey. rewrite split_absent; [reflexivity|]. apply name_lower_no; [exact N|not_name]. Qed.

Lemma alias_is_wrapper w : alias_wrapper w -> wrapper w.
Proof. unfold alias_wrapper, wrapper. cbn [In]. tauto. Qed.
Lemma fold_self a b : equal_fold a b = true <-> to_lower a = to_lower b.
Proof. unfold equal_fold. apply String.eqb_eq. Qed.

(** W<X>, a key or not, gives the alias the decoder the text has. *)
Lemma alias_generic fuel r c a w x cd : name_ok a -> x_module c = "" -> alias_wrapper w -> good x -> builtin r ->
  assoc (to_lower a) (r_special r) = None -> assoc (to_lower (w ++ "<" ++ x ++ ">")) (r_special r) = None ->
  resolves (reg_env r) c (w ++ "<" ++ x ++ ">") cd ->
  exists r', RegCustomTypes fuel [(a, alias_entry (w ++ "<" ++ x ++ ">"))] r = Ok r' /\ resolves (reg_env r') c a cd.
Proof.
  intros N M W G [B BB] SA ST R. pose proof (alias_is_wrapper w W) as W'. pose proof (good_generic w x W' G) as GT. set (t := w ++ "<" ++ x ++ ">") in *.
  rewrite register_alias by exact N. unfold reg_string. cbn [alias_entry t_string].
  assert (PB : has_prefix t "BoundedBTreeSet" = false).
  { unfold t, has_prefix. destruct (wrapper_shape w W') as (_ & LEN & _). unfold alias_wrapper in W. cbn [In] in W.
    destruct w as [|c0 [|c1 r0]]; [cbn in LEN; lia..|]. cbn [String.append prefix].
    destruct (Ascii.eqb_spec "B"%char c0) as [<-|]; [|reflexivity]. destruct (Ascii.eqb_spec "o"%char c1) as [<-|]; [|reflexivity].
    exfalso. unfold to_lower in W. cbn in W. decompose [or] W; try contradiction; discriminate. }
  pose proof (good_convert t GT PB) as CV. destruct (equal_fold t "Vec<u8>") eqn:V.
  - (* Vec<u8> is Bytes *)
    rewrite CV. destruct (assoc (to_lower "Bytes") (r_types r)) as [cb|] eqn:AB.
    + cbn [bind]. rewrite key_plain by exact N. eexists. split; [reflexivity|].
      assert (Q : forall d, resolves (reg_env r) c "Bytes" d <-> d = init_sub cb "") by (apply resolves_key; [apply name_good; repeat split; try discriminate; [|cbn; lia]; repeat constructor; not_name || (unfold name_char; vm_compute; intuition congruence)|reflexivity|vm_compute; intuition congruence|exact BB|exact AB]).
      assert (GF : getCodecInstant (reg_env r) (x_module c) "Bytes" (x_spec c) = Ok (Some cb)).
      { apply get_found; [vm_compute; intuition congruence|]. rewrite find_plain by exact BB. exact AB. }
      assert (RB : resolves (reg_env r) c "Bytes" cd).
      { destruct R as (x0 & s0 & X & I). exists x0, s0. split; [|exact I]. rewrite <- X. unfold GetCodecClass.
        transitivity (GetCodecClass_fuel (String.length t) (reg_env r) (x_module c) "Bytes" (x_spec c)).
        - destruct (String.length t); cbn [GetCodecClass_fuel String.length]; change (ConvertType "Bytes") with "Bytes"; change (last_char "Bytes") with (Some "s"%char); cbn [Ascii.eqb Bool.eqb bind];
            rewrite GF; reflexivity.
        - destruct (String.length t); cbn [GetCodecClass_fuel]; rewrite CV; reflexivity. }
      apply Q in RB. subst cd. now apply alias_resolves.
    + exfalso. destruct R as (x0 & s0 & X & I). clear - X CV AB BB. unfold GetCodecClass in X.
      assert (GM : getCodecInstant (reg_env r) (x_module c) "Bytes" (x_spec c) = Ok None).
      { apply get_missing; [discriminate|discriminate|vm_compute; intuition congruence|rewrite find_plain by exact BB; exact AB]. }
      destruct (String.length t); cbn [GetCodecClass_fuel] in X; rewrite CV in X; change (last_char "Bytes") with (Some "s"%char) in X; cbn [Ascii.eqb Bool.eqb bind] in X; rewrite GM in X; discriminate.
  - rewrite CV. assert (NO : ~ In (to_lower t) overridden).
    { apply (not_overridden "<"%char); [|reflexivity]. apply lower_has; [reflexivity|]. unfold t. apply has_char_app. right. now left. }
    destruct (assoc (to_lower t) (r_types r)) as [ct|] eqn:AT.
    + cbn [bind]. rewrite key_plain by exact N. eexists. split; [reflexivity|].
      apply (resolves_key r c t ct GT CV NO ST AT) in R. subst cd. now apply alias_resolves.
    + assert (NS : assoc t [(a, alias_entry t)] = None).
      { cbn [assoc]. destruct (String.eqb_spec t a) as [Q|_]; [|reflexivity]. exfalso. rewrite <- Q in N.
        apply (name_no "<"%char t N); [not_name|]. unfold t. apply has_char_app. right. now left. }
      rewrite NS. unfold reg_shape. destruct (wrapper_shape w W') as (WNE & _ & _).
      assert (FC : exists z, first_char t = Some z) by (unfold t; destruct w; [contradiction|eexists; reflexivity]). destruct FC as [z FC]. rewrite FC.
      assert (LC : last_char t = Some ">"%char) by apply last_generic. rewrite LC. cbn [Ascii.eqb Bool.eqb].
      assert (GP : generic_parts t = Some (w, x)) by (apply generic_at; [now apply wrapper_no_lt|now apply good_nonempty]). rewrite GP.
      assert (IW : forall l, (equal_fold w l = true <-> to_lower w = to_lower l)) by (intros; apply fold_self).
      destruct (B (to_lower w) W) as [B1 B2].
      assert (RG : forall c0, assoc (to_lower w) base_registry = Some c0 -> cd = init_sub c0 x).
      { intros c0 H0. rewrite H0 in B1. destruct R as (x0 & s0 & X & <-). unfold t in X.
        rewrite (resolve_generic (reg_env r) (x_module c) w x (x_spec c) c0 W' G V) in X; [injection X as -> ->; reflexivity| |]; rewrite find_plain by assumption; assumption. }
      unfold alias_wrapper in W. cbn [In] in W.
      assert (EV : forall l, equal_fold w l = String.eqb (to_lower w) (to_lower l)) by reflexivity. rewrite !EV.
      destruct W as [W|[W|[W|[W|[W|[]]]]]]; rewrite <- W in RG |- *; specialize (RG _ eq_refl); subst cd;
        repeat match goal with |- context [String.eqb ?p (to_lower ?q)] => let v := eval vm_compute in (String.eqb p (to_lower q)) in change (String.eqb p (to_lower q)) with v end;
        cbv iota; cbn [bind]; rewrite key_plain by exact N; (eexists; split; [reflexivity|]); cbn [bind];
        match goal with |- resolves (reg_env (with_types (upd _ ?k) r)) _ _ ?g =>
          replace g with (init_sub k "") by (cbn [init_sub]; unfold pick_sub; pose proof (good_nonempty x G); destruct (String.eqb_spec x ""); [contradiction|]; reflexivity) end;
        now apply alias_resolves.
Qed.
Lemma alias_array fuel r c a x n cd : name_ok a -> x_module c = "" -> good x -> ~ has_char ";"%char x -> 0 <= n < 2 ^ 63 ->
  assoc (to_lower a) (r_special r) = None -> assoc (to_lower (array_text x n)) (r_special r) = None ->
  resolves (reg_env r) c (array_text x n) cd ->
  exists r' cd', RegCustomTypes fuel [(a, alias_entry (array_text x n))] r = Ok r' /\ resolves (reg_env r') c a cd' /\ same_but_case cd cd'.
Proof.
  intros N M G NS Hn SA ST R. pose proof (good_array x n G (proj1 Hn)) as GT. fold (array_text x n) in GT. set (t := array_text x n) in *.
  rewrite register_alias by exact N. unfold reg_string. cbn [alias_entry t_string].
  assert (V : equal_fold t "Vec<u8>" = false) by (unfold equal_fold; apply String.eqb_neq; unfold t, array_text, to_lower; cbn; discriminate).
  assert (CV : ConvertType t = t) by (rewrite good_convert, V by (assumption || reflexivity); reflexivity). rewrite CV.
  assert (NO : ~ In (to_lower t) overridden).
  { apply (not_overridden "["%char); [|reflexivity]. apply lower_has; [reflexivity|]. now left. }
  destruct (assoc (to_lower t) (r_types r)) as [ct|] eqn:AT.
  - cbn [bind]. rewrite key_plain by exact N. eexists _, _. split; [reflexivity|].
    apply (resolves_key r c t ct GT CV NO ST AT) in R. subst cd. split; [now apply alias_resolves|now left].
  - assert (NK : assoc t [(a, alias_entry t)] = None).
    { cbn [assoc]. destruct (String.eqb_spec t a) as [Q|_]; [|reflexivity]. exfalso. rewrite <- Q in N. apply (name_no "["%char t N); [not_name|now left]. }
    rewrite NK. unfold reg_shape. assert (LA : last_char t = Some "]"%char).
    { unfold t, array_text. replace ("[" ++ x ++ "; " ++ itoa n ++ "]") with (("[" ++ x ++ "; " ++ itoa n) ++ "]") by (rewrite !app_assoc_s; reflexivity). apply last_app. }
    rewrite LA. change (first_char t) with (Some "["%char). cbv iota. change (Ascii.eqb "]"%char ">"%char) with false. cbv iota.
    change (Ascii.eqb "["%char "("%char) with false. rewrite andb_false_r. cbn [andb]. cbn [Ascii.eqb Bool.eqb andb].
    replace (negb (String.eqb t "[]")) with true.
    2:{ symmetry. apply negb_true_iff, String.eqb_neq. unfold t, array_text. destruct (good_first x G) as (c0 & c1 & r0 & -> & _). cbn. discriminate. }
    cbn [andb]. assert (SP : split_char ";"%char (strip_ends t) = [x; " " ++ itoa n]).
    { unfold t, array_text. replace ("[" ++ x ++ "; " ++ itoa n ++ "]") with ("[" ++ (x ++ ";" ++ (" " ++ itoa n)) ++ "]") by (cbn [String.append]; rewrite !app_assoc_s; reflexivity).
      rewrite strip_array. cbn [String.append]. rewrite split_at by exact NS. f_equal. apply split_absent. rewrite has_char_cons. intros [X|X]; [discriminate|].
      exact (proj1 (digits_no_semi n (proj1 Hn)) X). }
    rewrite SP. cbn [bind]. rewrite trim_digits, StringToInt_itoa, good_trim by (assumption || lia). rewrite key_plain by exact N.
    eexists _, _. split; [reflexivity|]. split; [apply alias_resolves; assumption|]. right.
    destruct R as (x0 & s0 & X & <-). unfold t in X. rewrite resolve_array in X by (assumption || (rewrite find_plain by assumption; assumption)). injection X as <- <-.
    exists n, (to_lower x), x. cbn [init_sub]. split; [reflexivity|]. split; [reflexivity|apply to_lower_idem].
Qed.

(** Whatever decoder a text of these forms has, its alias gets it. *)
Theorem C60_alias_partial fuel r c a t cd : name_ok a -> x_module c = "" -> alias_form t -> builtin r ->
  assoc (to_lower a) (r_special r) = None -> assoc (to_lower t) (r_special r) = None -> resolves (reg_env r) c t cd ->
  exists r' cd', RegCustomTypes fuel [(a, alias_entry t)] r = Ok r' /\ resolves (reg_env r') c a cd' /\ same_but_case cd cd'.
Proof.
  intros N M F B SA ST R. destruct F as [w x W X|w x y W X Y|x n X NS Hn].
  - apply type_text_good in X. destruct (alias_generic fuel r c a w x cd) as (r' & E & Q); try assumption. exists r', cd. split; [exact E|]. split; [exact Q|now left].
  - apply type_text_good in X, Y. destruct (alias_generic fuel r c a w (x ++ "," ++ y) cd) as (r' & E & Q); try assumption; [now apply good_pair|].
    exists r', cd. split; [exact E|]. split; [exact Q|now left].
  - apply type_text_good in X. now apply alias_array.
Qed.
(** These texts do have decoders: the wrapper's, applied to the inner text. *)
Theorem C60_meaning r c w x : alias_wrapper w -> type_text x -> builtin r -> equal_fold (w ++ "<" ++ x ++ ">") "Vec<u8>" = false ->
  assoc (to_lower (w ++ "<" ++ x ++ ">")) (r_types r) = None -> assoc (to_lower (w ++ "<" ++ x ++ ">")) (r_special r) = None ->
  resolves (reg_env r) c (w ++ "<" ++ x ++ ">")
    (match to_lower w with
     | "vec" | "btreeset" => CVec x
     | "option" => COption x
     | "compact" => CCompact x
     | _ => CBTreeMap x
     end).
Proof.
  intros W X B V T S. apply type_text_good in X. destruct B as [B _]. destruct (B (to_lower w) W) as [B1 B2].
  assert (K : exists c0, assoc (to_lower w) base_registry = Some c0) by (unfold alias_wrapper in W; cbn [In] in W; destruct W as [W|[W|[W|[W|[W|[]]]]]]; rewrite <- W; eexists; reflexivity).
  destruct K as [c0 K]. exists c0, x. split.
  - apply resolve_generic; [now apply alias_is_wrapper|exact X|exact V| |]; rewrite find_plain by assumption; [exact T|now rewrite B1].
  - pose proof (good_nonempty x X). unfold alias_wrapper in W. cbn [In] in W.
    destruct W as [W|[W|[W|[W|[W|[]]]]]]; rewrite <- W in K |- *; injection K as <-; cbn [init_sub]; unfold pick_sub; destruct (String.eqb_spec x ""); try contradiction; reflexivity.
Qed.
(** Where the claim fails: an alias of an array of arrays, of a Result, of a
    Box or of a Range registers nothing, although the text has a decoder. *)
Theorem C60_alias_refuted :
  Forall (fun t => (exists cd, resolves (reg_env base_reg) (Ctx 0 "" None) t cd)
     /\ exists r', RegCustomTypes 5 [("A", alias_entry t)] base_reg = Ok r' /\ GetCodecClass (reg_env r') "" "A" 0 = Ok None)
    ["[[u8; 2]; 3]"; "Result<u8,u16>"; "Box<u8>"; "Range<u8>"].
Proof. repeat constructor; try (eexists; split; vm_compute; reflexivity); (eexists; eexists _, _; split; vm_compute; reflexivity). Qed.

Lemma base_builtin : builtin base_reg.
Proof. split; [|reflexivity]. intros k H. split; reflexivity. Qed.
Example C60_case : exists r', RegCustomTypes 5 [("Votes", alias_entry "BTreeSet<option<[AccountId; 3]>>")] base_reg = Ok r'
  /\ resolves (reg_env r') (Ctx 0 "" None) "votes" (CVec "option<[AccountId; 3]>").
Proof. eexists. split; [vm_compute; reflexivity|]. eexists _, _. split; vm_compute; reflexivity. Qed.
Example C60_form : alias_form "BTreeSet<option<[AccountId; 3]>>" /\ alias_form "Vec<u8>" /\ alias_form "BTreeMap<u32,Vec<u8>>" /\ alias_form "[Balance; 4]".
Proof.
  assert (NT : forall n, In n ["AccountId"; "u8"; "u32"; "Balance"] -> name_text_ok n).
  { intros n H. cbn [In] in H. destruct H as [<-|[<-|[<-|[<-|[]]]]]; (split; [split; [discriminate|split; [repeat (constructor; [unfold name_char; vm_compute; intuition congruence|]); constructor|split; reflexivity]]|split; [discriminate|split; [discriminate|cbn; lia]]]). }
  split; [|split; [|split]].
  - apply (af_generic "BTreeSet" "option<[AccountId; 3]>"); [cbn; auto 10|]. apply (tt_generic "option" "[AccountId; 3]"); [cbn; auto 10|].
    apply (tt_array "AccountId" 3); [|lia]. apply tt_name, NT. now left.
  - apply (af_generic "Vec" "u8"); [cbn; auto 10|]. apply tt_name, NT. cbn; auto 10.
  - apply (af_generic2 "BTreeMap" "u32" "Vec<u8>"); [cbn; auto 10|apply tt_name, NT; cbn; auto 10|]. apply (tt_generic "Vec" "u8"); [cbn; auto 10|apply tt_name, NT; cbn; auto 10].
  - apply (af_array "Balance" 4); [apply tt_name, NT; cbn; auto 10| |lia]. cbn. intuition congruence.
Qed.
Print Assumptions C60_alias_partial.
Print Assumptions C60_meaning.
Print Assumptions C60_alias_refuted.
