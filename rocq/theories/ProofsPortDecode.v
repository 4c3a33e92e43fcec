(** Decoding with the decoders that ProcessSiType registers. *)

From Coq Require Import Sorting.Permutation.
From Verif Require Import GoBase SpecNum ProofsBase ModelTools ModelVal ModelJson ProofsJson ModelRegistry ModelDecode ModelRegister ModelScaleInfo
  ProofsRun SpecScale ProofsReads ProofsScale ProofsNames ProofsTexts PropRegistry PropScaleInfo SpecPortable ProofsPortText ProofsPortReg.

(** ** Field names *)
Lemma col_inj a b : "col" ++ itoa a = "col" ++ itoa b -> a = b.
Proof. intros H. injection H as H. now apply itoa_inj. Qed.
Lemma positions_in {A} (l : list A) : forall k x, In x (positions k l) -> exists j, k <= j /\ x = "col" ++ itoa j.
Proof.
  induction l as [|a l IH]; intros k x; [contradiction|]. cbn [positions]. intros [<-|I]; [exists k; split; [lia|reflexivity]|].
  destruct (IH (k + 1) x I) as (j & L & E). exists j. split; [lia|exact E].
Qed.
Lemma positions_nodup {A} (l : list A) : forall k, NoDup (positions k l).
Proof.
  induction l as [|a l IH]; intros k; [constructor|]. cbn [positions]. constructor; [|apply IH]. intros I. apply positions_in in I. destruct I as (j & L & E). apply col_inj in E. lia.
Qed.
Lemma positions_length {A} (l : list A) : forall k, List.length (positions k l) = List.length l.
Proof. induction l as [|a l IH]; intros k; [reflexivity|]. cbn [positions List.length]. now rewrite IH. Qed.
Lemma cols_length fs : forall k, List.length (cols k fs) = List.length fs.
Proof. induction fs as [|a l IH]; intros k; [reflexivity|]. cbn [cols List.length]. now rewrite IH. Qed.
Lemma fst_combine {A B} (l : list A) (m : list B) : List.length l = List.length m -> map fst (combine l m) = l.
Proof. revert m. induction l as [|a l IH]; intros [|b m] E; try discriminate; [reflexivity|]. cbn. rewrite IH; [reflexivity|]. now injection E. Qed.
Lemma snd_combine {A B} (l : list A) (m : list B) : List.length l = List.length m -> map snd (combine l m) = m.
Proof. revert m. induction l as [|a l IH]; intros [|b m] E; try discriminate; [reflexivity|]. cbn. rewrite IH; [reflexivity|]. now injection E. Qed.
Lemma scales_one st E cx t bs g cs : scales st E cx [t] bs [g] cs -> scale st E cx t bs g cs.
Proof.
  intros H. inversion H as [|? ? ? b bs' ? ? cs1 cs2 H1 H2]; subst. inversion H2; subst. now rewrite !app_nil_r.
Qed.
Lemma bZ_Zb_le z : 0 <= z < 2 ^ 8 -> le_bytes 1 z = [Zb z].
Proof. intros H. reflexivity. Qed.

Lemma app_tail_inj x : forall s t, s ++ String x "" = t ++ String x "" -> s = t.
Proof.
  induction s as [|a s IH]; intros [|b t] H; cbn [String.append] in H; [reflexivity| | |].
  - injection H as _ H. destruct t; discriminate.
  - injection H as _ H. destruct s; discriminate.
  - injection H as -> H. f_equal. now apply IH.
Qed.

Section Decode.
(** Whether the values are those Encode writes. *)
Variable st : bool.
Variable c : sictx.
Variable D : list (string * Z).
Variable Rg : Z -> Prop.
Notation port := (i_port c).
Notation def := (def_of port).
Notation path := (path_of port).
Notation named_as := (named_as c D).
Notation early := (early c).
Notation text := (text c D Rg).
Notation texts := (texts c D Rg).
Notation ftext := (ftext c D Rg).
Notation ftexts := (ftexts c D Rg).
Notation vtext := (vtext c D Rg).
Notation M := (M c D Rg).
Hypothesis REG : forall id, Rg id -> regular c D Rg id.
Hypothesis WN : well_named c D Rg.
Variable E : env.
Variable T : string -> Prop.
Hypothesis BASE : forall k spec, plain_reserved k -> find_key E k spec = assoc k base_registry.
Hypothesis NAMES : forall k n spec, Rg k -> ~ early k -> named_as k n -> exists cd, find_key E (to_lower n) spec = Some cd /\ M T k cd.
Hypothesis TUPLES : forall k spec, T k -> prefix "tuple:" k = true -> exists j ks us, def j = DTuple ks /\ ks <> [] /\ texts T ks us /\
  k = to_lower ("Tuple:" ++ join "" us) /\ find_key E k spec = Some (CStruct (Some (combine (positions 1 us) us))).

(** ** Texts as types of variants *)
Lemma nice_not_numeric t : nice t -> numeric t = false.
Proof.
  intros (_ & _ & a & r & -> & A). unfold numeric. cbn [all_digits]. replace (is_digit a) with false; [now rewrite andb_false_r|]. symmetry. unfold is_digit.
  destruct A as [A|[-> | ->]]; [|reflexivity..]. unfold wrapper_char in A. lia.
Qed.
Lemma nice_nonempty t : nice t -> t <> "".
Proof. intros (_ & _ & a & r & -> & _). discriminate. Qed.
Definition is_ws (a : ascii) : bool := (bZ a =? 32) || (bZ a =? 9) || (bZ a =? 10) || (bZ a =? 13).
Lemma skip_ws_cons a r : skip_ws (String a r) = if is_ws a then skip_ws r else String a r.
Proof. reflexivity. Qed.
Lemma nice_ws x y : nice x -> exists a r, x = String a r /\ skip_ws (x ++ y) = x ++ y /\ (bZ a =? 34) = false /\ (bZ a =? 93) = false.
Proof.
  intros (_ & _ & a & r & -> & A). exists a, r. split; [reflexivity|]. cbn [String.append]. rewrite skip_ws_cons.
  destruct A as [A|[-> | ->]]; [|now repeat split..]. unfold wrapper_char in A. replace (is_ws a) with false by (symmetry; unfold is_ws; lia). split; [reflexivity|]. lia.
Qed.
Definition bracket (t : string) : Prop := exists r, t = String "["%char r.
Lemma bracket_lower t : bracket t -> bracket (to_lower t).
Proof. intros (r & ->). now exists (to_lower r). Qed.
Lemma shape_bracket id t : shape c D Rg T id t -> bracket t -> exists a n e, t = array_text a n /\ Rg e /\ ftext T e a.
Proof.
  intros [cd I _|k n Hn _ _ El _|w a -> W _ _ _ _ _|a n -> _ _ _ _ (k & e & _ & _ & Q & R)|_ P _] B.
  - exfalso. apply bracket_lower in B. destruct B as (r & B). rewrite B in I. unfold atoms, prim_codecs, hash_codecs in I. cbn [app In] in I. decompose [or] I; (contradiction || discriminate).
  - exfalso. apply bracket_lower in B. destruct B as (r & B). rewrite El in B. destruct (wn_name _ _ _ WN k n Hn) as (_ & (a & r' & -> & A) & _).
    change (to_lower (String a r')) with (String (lower_char a) (to_lower r')) in B. injection B as B _. change "["%char with (lower_char "["%char) in B. apply lower_same in B; [|reflexivity]. subst a. destruct A; discriminate.
  - exfalso. apply bracket_lower in B. destruct B as (r & B). rewrite to_lower_app' in B. unfold wraps in W. cbn [In] in W. destruct W as [W|[W|[W|[W|[]]]]]; rewrite <- W in B; discriminate.
  - exists a, n, e. auto.
  - exfalso. apply bracket_lower in B. destruct B as (r & B). rewrite B in P. discriminate.
Qed.
Lemma no_elem e x r fuel : Rg e -> ftext T e x -> parse_items parse_elem fuel (x ++ ";" ++ r) = None.
Proof.
  intros R F. destruct (ftext_shape c D Rg REG WN T e x R F) as [SH NI]. destruct fuel as [|fuel]; [reflexivity|]. cbn [parse_items].
  destruct (nice_ws x (";" ++ r) NI) as (x0 & xr & -> & WS & NQ & _). unfold parse_elem. rewrite WS.
  cbn [String.append]. rewrite NQ. destruct (prefix "null" (String x0 (xr ++ String ";" r))) eqn:P; [|reflexivity].
  assert (P' : prefix "null" (String x0 xr) = true) by (apply (prefix_stop "null" (String x0 xr) ";"%char r); [now apply no_sep; [left|]|exact P]).
  assert (X : exists y, String x0 xr = "null" ++ y).
  { clear - P'. cbn [prefix] in P'. destruct (Ascii.eqb_spec "n"%char x0) as [<-|]; [|discriminate]. destruct xr as [|x1 xr]; [discriminate|]. destruct (Ascii.eqb_spec "u"%char x1) as [<-|]; [|discriminate].
    destruct xr as [|x2 xr]; [discriminate|]. destruct (Ascii.eqb_spec "l"%char x2) as [<-|]; [|discriminate]. destruct xr as [|x3 xr]; [discriminate|]. destruct (Ascii.eqb_spec "l"%char x3) as [<-|]; [|discriminate]. now exists xr. }
  destruct X as (y & X). change (String x0 (xr ++ String ";" r)) with (String x0 xr ++ String ";" r). rewrite X in *.
  change (sdrop 4 (("null" ++ y) ++ String ";" r)) with (y ++ String ";" r).
  destruct SH as [cd I _|k n Hn _ _ El _|w a Q W _ _ _ _ _|a n Q _ _ _ _ _|_ PT _].
  - change (to_lower ("null" ++ y)) with ("null" ++ to_lower y) in I. unfold atoms, prim_codecs, hash_codecs in I. cbn [app In] in I.
    decompose [or] I; try contradiction; try discriminate. match goal with Z : (_, _) = _ |- _ => injection Z as Z _ end. destruct y; [reflexivity|discriminate].
  - destruct y as [|y0 y]; [reflexivity|]. assert (NC : ~ name_char y0 -> wrapper_char y0 = false -> False).
    { intros NC W. destruct (wn_name _ _ _ WN k n Hn) as ((N & _) & _). apply (name_lower_no y0 n N NC). rewrite <- El. apply lower_has; [exact W|]. cbn. tauto. }
    cbn [String.append]. rewrite skip_ws_cons. destruct (is_ws y0) eqn:W.
    + exfalso. unfold is_ws in W. apply NC; [|unfold wrapper_char; lia]. intros C. apply name_charb_ok in C. unfold name_charb in C. lia.
    + destruct (Z.eqb_spec (bZ y0) 44) as [Q|_]; [|destruct (Z.eqb_spec (bZ y0) 93) as [Q|_]; [|reflexivity]]; exfalso.
      * assert (y0 = ","%char) as -> by (apply bZ_inj; exact Q). apply NC; [not_name|reflexivity].
      * assert (y0 = "]"%char) as -> by (apply bZ_inj; exact Q). apply NC; [not_name|reflexivity].
  - exfalso. apply (f_equal to_lower) in Q. rewrite !to_lower_app' in Q. unfold wraps in W. cbn [In] in W. destruct W as [W|[W|[W|[W|[]]]]]; rewrite <- W in Q; discriminate.
  - discriminate.
  - discriminate.
Qed.
Lemma array_open {A} (elem : string -> option (A * string)) s : parse_array elem (String "[" s) =
  match skip_ws s with String c2 s2 => if bZ c2 =? 93 then Some ([], s2) else parse_items elem (String.length s) s | EmptyString => None end.
Proof. reflexivity. Qed.
Lemma not_fields id t : Rg id -> ftext T id t -> struct_variant t = None.
Proof.
  intros R F. unfold struct_variant. destruct (4 <? Z.of_nat (String.length t)); [cbn [andb]|reflexivity]. destruct (String.eqb_spec (stake 2 t) "[[") as [Q|]; [|reflexivity].
  destruct (ftext_shape c D Rg REG WN T id t R F) as [SH NI].
  assert (B : bracket t) by (destruct t as [|a [|b r]]; try discriminate; injection Q as -> _; now exists (String b r)).
  destruct (shape_bracket id t SH B) as (a & n & e & -> & Re & Fe). destruct (ftext_shape c D Rg REG WN T e a Re Fe) as [SE NE].
  assert (Ba : bracket a).
  { destruct NE as (_ & _ & x & r & -> & _). unfold array_text in Q. cbn in Q. injection Q as ->. now exists r. }
  destruct (shape_bracket e a SE Ba) as (x & m & e' & -> & Re' & Fe'). destruct (ftext_shape c D Rg REG WN T e' x Re' Fe') as [SX NX].
  assert (JU : json_unmarshal (array_text (array_text x m) n) = None); [|now rewrite JU].
  unfold json_unmarshal. set (tl := "; " ++ itoa n ++ "]"). change (array_text (array_text x m) n) with (String "[" (String "[" (x ++ "; " ++ itoa m ++ "]") ++ tl)).
  rewrite array_open. cbn [String.append]. rewrite skip_ws_cons. change (is_ws "["%char) with false. cbv iota. change (bZ "["%char =? 93) with false. cbv iota.
  match goal with |- match parse_items ?e ?f ?s with _ => _ end = _ => assert (PI : forall fuel, parse_items e fuel s = None) end; [|now rewrite PI].
  intros [|fuel]; [reflexivity|]. cbn [parse_items]. rewrite array_open. rewrite app_assoc_s.
  change ((String ";" (String " " (itoa m ++ "]"))) ++ tl) with (";" ++ (" " ++ itoa m ++ "]") ++ tl). rewrite (no_elem e' x _ _ Re' Fe').
  destruct (nice_ws x (";" ++ (" " ++ itoa m ++ "]") ++ tl) NX) as (x0 & xr & -> & WS & _ & NB). rewrite WS. cbn [String.append]. now rewrite NB.
Qed.
(** ** Byte vectors by their other text *)
Lemma text_bytes : (forall id t, text T id t -> Rg id -> to_lower t = "vec<u8>" -> text T id "Bytes") /\ (forall ks ts, texts T ks ts -> True).
Proof.
  assert (NP : forall q, In (to_lower q) (reserved_names) -> to_lower q <> "vec<u8>") by (intros q I0 Q; rewrite Q in I0; unfold reserved_names, prim_names in I0; cbn [app In] in I0; decompose [or] I0; (contradiction || discriminate)).
  apply (text_mutind c D Rg T (fun id t => Rg id -> to_lower t = "vec<u8>" -> text T id "Bytes") (fun _ _ => True)); intros; try exact I.
  - exfalso. revert H1. apply NP. apply in_or_app. left. now apply (rg_prim c D Rg REG id n).
  - exfalso. destruct (rg_prims c D Rg REG id H1 H) as (f & h & m & e & _ & Hp & Hi & _). rewrite Hp in H0. injection H0 as ->. revert H2. apply NP. unfold hashes in Hi. cbn [In] in Hi.
    destruct Hi as [X|[X|[X|[]]]]; injection X as <- _; cbn; tauto.
  - contradiction.
  - exfalso. destruct (REG id H0) as (OV & _). contradiction.
  - exfalso. destruct (wn_name _ _ _ WN id n H) as (_ & _ & NR & _). apply NR. right. exists "vec<". rewrite H2. split; [cbn; tauto|reflexivity].
  - exfalso. revert H1. apply NP. cbn. tauto.
  - specialize (H0 H3). destruct (rg_new c D Rg REG id f H3 H H0) as [Rf _]. now apply (tx_newtype c D Rg T id f); [|intros _|apply H2].
  - exfalso. pose proof (REG id H3) as (_ & _ & R). rewrite H in R. destruct R as (W & _). congruence.
  - discriminate.
  - discriminate.
  - apply (tx_bytes c D Rg T id k t H H0). rewrite !to_lower_app' in H3. change (to_lower "Vec<") with "vec<" in H3. change (to_lower ">") with ">" in H3. cbn [String.append] in H3.
    injection H3 as H3. now apply (app_tail_inj ">"%char (to_lower t) "u8").
  - discriminate.
  - discriminate.
  - discriminate.
  - discriminate.
  - discriminate.
  - discriminate.
  - contradiction.
  - discriminate.
  - discriminate.
  - discriminate.
Qed.
Lemma ftext_convert id t : Rg id -> ftext T id t -> ftext T id (ConvertType t).
Proof.
  intros R F. destruct (ftext_shape c D Rg REG WN T id t R F) as [_ NI]. rewrite nice_convert by exact NI. destruct (equal_fold t "Vec<u8>") eqn:V; [|exact F].
  unfold equal_fold in V. apply String.eqb_eq in V. destruct F as (t0 & X & Q). exists "Bytes". split; [|reflexivity]. apply (proj1 text_bytes id t0 X R). now rewrite Q, V.
Qed.
Lemma ftexts_convert ks ts : Forall Rg ks -> ftexts T ks ts -> ftexts T ks (map ConvertType ts).
Proof. intros F H. revert F. induction H as [|k t ks ts H1 H IH]; intros F; [constructor|]. inversion F; subst. constructor; [now apply ftext_convert|now apply IH]. Qed.

(** ** Primitive types *)
Lemma prim_fun id p q : prim port id p -> prim port id q -> p = q.
Proof. intros (n & A & <-) (m & B & <-). congruence. Qed.
Lemma prim_text id p t : Rg id -> prim port id p -> ftext T id t -> to_lower t = p.
Proof.
  intros R (n & EN & <-) (t0 & X & <-). assert (NP : path id = []) by now apply (rg_prim c D Rg REG id n R). inversion X; subst; try congruence; try contradiction.
  - unfold prims_path in *. rewrite NP in *. discriminate.
  - match goal with H : overriderTypesName _ <> "" |- _ => destruct (REG id R) as (OV & _); contradiction end.
  - exfalso. match goal with H : SpecPortable.named_as _ _ _ _ |- _ => destruct (named_def c D _ _ H) as [(fs & Q)|(vs & Q & _)]; congruence end.
  - exfalso. match goal with H : account _ _ |- _ => destruct H as (_ & f & Q); congruence end.
  - exfalso. match goal with H : _ \/ _ |- _ => decompose [or] H; congruence end.
Qed.
Lemma unwraps_end id k : (forall f, def id <> DComposite [f]) -> unwraps port id k -> k = id.
Proof. intros N U. inversion U; subst; [reflexivity|exfalso; now apply (N f)]. Qed.
Lemma like_fun id p q : is_like port p id -> is_like port q id -> p = q.
Proof.
  intros (k & U & P) (j & V & Q). revert j V Q. induction U as [id|id f k E0 U IH]; intros j V Q.
  - destruct P as (n & EN & <-). apply unwraps_end in V; [|congruence]. subst j. destruct Q as (m & EM & <-). congruence.
  - inversion V as [|? f' ? E' V']; subst.
    + destruct Q as (m & EM & <-). congruence.
    + rewrite E0 in E'. injection E' as <-. now apply (IH P j).
Qed.
Lemma M_like id p cd : Rg id -> is_like port p id -> M T id cd -> In (p, cd) prim_codecs.
Proof.
  intros R (k & U & P) HM. revert cd HM R. induction U as [id|id f k E0 U IH]; intros cd HM R.
  - pose proof P as (n & EN & _). assert (NP : path id = []) by now apply (rg_prim c D Rg REG id n R).
    inversion HM; subst; try congruence; try (match goal with H : _ \/ _ |- _ => decompose [or] H; congruence end).
    + match goal with H : prim _ _ ?q |- In (p, _) _ => now rewrite (prim_fun id p q P H) end.
    + unfold prims_path in *. rewrite NP in *. discriminate.
    + match goal with H : account _ _ |- _ => destruct H as (_ & f & Q); congruence end.
  - assert (NA : forall n e, def (f_type f) = DArray n e -> False).
    { intros n e Q. apply unwraps_end in U; [|congruence]. subst k. destruct P as (m & EM & _). congruence. }
    assert (NP : ~ prims_path port id).
    { intros PP. destruct (rg_prims c D Rg REG id R PP) as (f' & h & n & e & Q1 & _ & _ & Q2 & _). rewrite E0 in Q1. injection Q1 as <-. now apply (NA n e). }
    inversion HM; subst; try congruence; try (match goal with H : _ \/ _ |- _ => decompose [or] H; congruence end).
    + match goal with H : prim _ _ _ |- _ => destruct H as (m & Q & _); congruence end.
    + exfalso. match goal with H : account _ _ |- _ => destruct (rg_account c D Rg REG id R H) as (f' & e & [(Q1 & Q2 & _)|Q]); [|contradiction] end. rewrite E0 in Q1. injection Q1 as <-. now apply (NA 32 e).
    + match goal with H : def id = DComposite [?g] |- _ => rewrite E0 in H; injection H as <- end. apply (IH P); [assumption|]. now destruct (rg_new c D Rg REG id f R E0).
    + exfalso. match goal with H : List.length ?l <> 1%nat, Q : def id = DComposite ?l |- _ => rewrite E0 in Q; injection Q as <-; now apply H end.
Qed.
Lemma enc_u8 id x bs : is_like port "u8" id -> enc port id x bs -> exists a, innermost x (bZ a) /\ bs = [a].
Proof.
  intros (k & U & P). revert x bs. induction U as [id|id f k E0 U IH]; intros x bs H.
  - pose proof P as (n & EN & _). inversion H; subst; try congruence.
    + match goal with Q : prim _ _ ?q |- _ => pose proof (prim_fun id "u8" q P Q) as <- end. match goal with Q : In ("u8", _) unsigned |- _ => unfold unsigned in Q; cbn [In] in Q; decompose [or] Q; try discriminate; try contradiction end.
      match goal with Q : (_, _) = ("u8", _) |- _ => injection Q as <- end. exists (Zb z). split; [|reflexivity]. rewrite bZ_Zb_small by lia. constructor.
    + match goal with Q : prim _ _ ?q |- _ => pose proof (prim_fun id "u8" q P Q) as <- end. match goal with Q : In ("u8", _) signed |- _ => unfold signed in Q; cbn [In] in Q; decompose [or] Q; (discriminate || contradiction) end.
    + match goal with Q : prim _ _ ?q |- _ => pose proof (prim_fun id "u8" q P Q); discriminate end.
    + match goal with Q : prim _ _ ?q |- _ => pose proof (prim_fun id "u8" q P Q); discriminate end.
  - inversion H; subst; try congruence.
    + match goal with Q : prim _ _ ?q |- _ => destruct Q as (m & Q & _); congruence end.
    + match goal with Q : prim _ _ ?q |- _ => destruct Q as (m & Q & _); congruence end.
    + match goal with Q : prim _ _ ?q |- _ => destruct Q as (m & Q & _); congruence end.
    + match goal with Q : prim _ _ ?q |- _ => destruct Q as (m & Q & _); congruence end.
    + match goal with Q : def id = DComposite ?l |- _ => rewrite E0 in Q; injection Q as <- end. match goal with Q : encs _ (map f_type [f]) _ _ |- _ => cbn [map] in Q; inversion Q as [|? ? y l' b bs' Q1 Q2]; subst end.
      inversion Q2; subst. destruct (IH P y b Q1) as (a & I1 & ->). exists a. split; [now constructor|reflexivity].
Qed.
Lemma encs_u8 k n l bs : is_like port "u8" k -> encs port (repeat k n) l bs -> bytes_in l bs /\ List.length l = n /\ List.length bs = n.
Proof.
  intros L. revert l bs. induction n as [|n IH]; intros l bs H; cbn [repeat] in H; inversion H as [|? ? x l' b bs' H1 H2]; subst; [now split; [constructor|]|].
  destruct (enc_u8 k x b L H1) as (a & I1 & ->). destruct (IH l' bs' H2) as (B & Q1 & Q2). cbn [app List.length]. split; [now constructor|]. split; congruence.
Qed.
Definition W (id : Z) (x : pval) : Prop := st = true -> writable port id x.
Definition Ws (ks : list Z) (l : list pval) : Prop := st = true -> writables port ks l.
Definition P (id : Z) (x : pval) (bs : bytes) : Prop := W id x -> Rg id -> forall cx cd, M T id cd -> exists g, scale_at st E cx cd bs g [] /\ shows port id x g.
Definition Q (ks : list Z) (l : list pval) (bs : bytes) : Prop :=
  (Ws ks l -> Forall Rg ks -> forall cx ts, ftexts T ks ts -> exists gs, scales st E cx ts bs gs [] /\ shows_all port ks l gs) /\ (forall k x, ks = [k] -> l = [x] -> P k x bs).

Lemma no_prims id : Rg id -> (forall fs, def id <> DComposite fs) -> ~ prims_path port id.
Proof. intros R N PP. destruct (rg_prims c D Rg REG id R PP) as (f & _ & _ & _ & H & _). now apply (N [f]). Qed.
(** The types that are decoded from no bytes. *)
Lemma M_null id : M T id CNull -> exists k, unwraps port id k /\ nothing port k.
Proof.
  intros H. remember CNull as cd eqn:Q0. induction H; try discriminate; subst.
  - exfalso. unfold prim_codecs in *. cbn [In] in *. intuition discriminate.
  - exfalso. unfold hash_codecs in *. cbn [In] in *. intuition discriminate.
  - destruct (IHM eq_refl) as (k & U & N). exists k. split; [now apply (uw_step port id f)|exact N].
  - exists id. split; [constructor|]. unfold nothing. destruct H as [H|[H|H]]; [left; now exists k|tauto|tauto].
Qed.
Lemma nothing_text id t : Rg id -> nothing port id -> ftext T id t -> equal_fold t "Null" = true.
Proof.
  intros R N (t0 & X & L). assert (Q0 : to_lower t0 = "null").
  { unfold nothing in N. inversion X; subst; try (exfalso; destruct N as [(k0 & N)|[N|N]]; congruence); try reflexivity.
    all: match goal with
    | H : ~ Rg _ |- _ => contradiction
    | H : prims_path _ _ |- _ => exfalso; apply (no_prims id R); [|exact H]; intros fs Q0; destruct N as [(k0 & N)|[N|N]]; congruence
    | H : overriderTypesName _ <> "" |- _ => exfalso; destruct (REG id R) as (OV & _); contradiction
    | H : SpecPortable.named_as _ _ _ _ |- _ => exfalso; destruct (named_def c D _ _ H) as [(fs & Q0)|(vs & Q0 & _)]; destruct N as [(k0 & N)|[N|N]]; congruence
    | H : account _ _ |- _ => exfalso; destruct H as (_ & f & Q0); destruct N as [(k0 & N)|[N|N]]; congruence
    | _ => idtac
    end. }
  unfold equal_fold. rewrite <- L, Q0. reflexivity.
Qed.
Lemma early_newtype id f : M T id CNull -> def id = DComposite [f] -> ~ early id /\ True.
Proof.
  intros HM E0. split; [|exact I]. inversion HM; subst; try assumption; exfalso; match goal with
  | H : In (_, CNull) prim_codecs |- _ => unfold prim_codecs in H; cbn [In] in H; intuition discriminate
  | H : In (_, CNull) hash_codecs |- _ => unfold hash_codecs in H; cbn [In] in H; intuition discriminate
  | H : _ \/ _ |- _ => decompose [or] H; congruence
  end.
Qed.
Lemma null_text id t x : Rg id -> writable port id x -> ftext T id t -> M T id CNull -> equal_fold t "Null" = true.
Proof.
  intros R WR F HM. destruct (M_null id HM) as (k & U & N). inversion U as [|? f ? E0 U']; subst; [now apply (nothing_text k)|].
  exfalso. inversion WR; subst; try congruence; try (match goal with H : prim _ _ _ |- _ => destruct H as (? & H & _); congruence end).
  - apply (proj1 (early_newtype id f0 HM ltac:(assumption))); destruct H0 as [PP|AP]; [left; now right|right; split; [exact AP|now exists f0]].
  - match goal with H : def_of _ id = DComposite ?l |- _ => rewrite E0 in H; injection H as <- end. now apply (H0 f k).
  - match goal with H : _ \/ _ |- _ => destruct H as [H|(? & H)]; congruence end.
Qed.
Lemma text_scale id t x bs cx : W id x -> Rg id -> ftext T id t -> P id x bs -> exists g, scale st E cx t bs g [] /\ shows port id x g.
Proof.
  intros WR R F H. destruct (ftext_resolves c D Rg REG WN E T BASE NAMES TUPLES id t cx R F) as (cd & RS & HM). destruct (H WR R cx cd HM) as (g & S1 & S2).
  exists g. split; [|exact S2]. apply (sc_type st E cx t cd); [exact RS| |exact S1]. intros S -> . now apply (null_text id t x R (WR S) F).
Qed.
Lemma atom_scale t cd cx bs g : In (to_lower t) reserved_names -> ~ In (to_lower t) overridden -> ConvertType t = t -> assoc (to_lower t) base_registry = Some cd -> init_sub cd "" = cd -> cd <> CNull -> scale_at st E cx cd bs g [] -> scale st E cx t bs g [].
Proof.
  intros R NO C A IS NN S0. apply (sc_type st E cx t cd); [|intros _ X; contradiction|exact S0]. exists cd, "". split; [|exact IS]. apply resolve_key; [apply (prim_nice t R)|exact C|exact NO|].
  rewrite BASE; [exact A|]. split; [now left|]. clear - R. unfold reserved_names, prim_names in R. cbn [app In] in R. decompose [or] R; try contradiction; match goal with H : _ = to_lower t |- _ => now rewrite <- H end.
Qed.
Lemma hash_bytes k n e x bs : def k = DArray n e -> prim port e "u8" -> enc port k x bs -> exists l, x = PSeq l /\ bytes_in l bs /\ Z.of_nat (List.length bs) = n.
Proof.
  intros DK PE H. inversion H; subst; try congruence; try (match goal with X : prim _ k _ |- _ => destruct X as (m & X & _); congruence end).
  match goal with X : def k = DArray ?a ?b, Y : encs _ _ _ _ |- _ => rewrite DK in X; injection X as Xn <-; rename Y into HE end.
  destruct (encs_u8 e _ l bs (ex_intro _ e (conj (uw_here _ e) PE)) HE) as (B & L1 & L2). exists l. split; [reflexivity|]. split; [exact B|]. lia.
Qed.
Lemma one_enc k l bs : encs port [k] l bs -> exists x, l = [x] /\ enc port k x bs.
Proof. intros H. inversion H as [|? ? x l' b bs' H1 H2]; subst. inversion H2; subst. exists x. rewrite app_nil_r. now split. Qed.

Lemma ws_one k x : writables port [k] [x] -> writable port k x.
Proof. intros H. now inversion H. Qed.
Lemma w_one k x : Ws [k] [x] -> W k x.
Proof. intros H S. specialize (H S). now inversion H. Qed.
Ltac wno := match goal with
  | H : prim _ ?id _, E0 : def_of _ ?id = _ |- _ => destruct H as (? & H & _); congruence
  | H : _ \/ (exists _, def_of _ _ = _) |- _ => destruct H as [H|(? & H)]; congruence
  end.
Lemma w_composite id fs l : writable port id (PSeq l) -> def id = DComposite fs -> ~ early id -> writables port (map f_type fs) l.
Proof.
  intros H E0 NE. inversion H; subst; try congruence; try (exfalso; wno).
  - exfalso. apply NE. destruct H3 as [PP|AP]; [left; now right|right; split; [exact AP|now exists f]].
Qed.
Lemma w_list id k l : writable port id (PSeq l) -> def id = DSequence k \/ (exists n, def id = DArray n k) ->
  writables port (repeat k (List.length l)) l /\ (def id = DSequence k -> Z.of_nat (List.length l) < 2 ^ 30) /\ (forall b, is_like port "u8" k -> bytes_in l b -> ~ looks_hex b).
Proof.
  intros H E0. inversion H; subst; try (exfalso; destruct E0 as [E0|(n & E0)]; congruence).
  assert (k0 = k) as -> by (destruct E0 as [E0|(n & E0)], H1 as [H1|(m & H1)]; congruence). auto.
Qed.
Lemma w_tuple id ks l : writable port id (PSeq l) -> def id = DTuple ks -> writables port ks l.
Proof. intros H E0. inversion H; subst; try congruence; try (exfalso; wno). Qed.
Lemma w_compact id k z : writable port id (PNum z) -> def id = DCompact k -> z < 2 ^ 63 /\ (is_like port "u32" k -> z < 2 ^ 30).
Proof. intros H E0. inversion H; subst; try (exfalso; wno). rewrite E0 in H1. injection H1 as <-. auto. Qed.
Lemma w_variant id vs i l : writable port id (PVar i l) -> def id = DVariant vs -> exists v, In v vs /\ v_index v = i /\ v_name v <> "empty"
  /\ (forall w, In w vs -> v_name w = v_name v -> w = v) /\ writables port (map f_type (v_fields v)) l
  /\ (forall f x g, opt_path port id -> v_fields v = [f] -> l = [x] -> shows port (f_type f) x g -> ~ nil_like g).
Proof. intros H E0. inversion H; subst. match goal with X : def_of _ id = DVariant _ |- _ => rewrite E0 in X; injection X as <- end. exists v. auto 10. Qed.
(** ** Enums *)
Lemma declared_in vs v : well_indexed vs -> In v vs -> declared vs (v_index v) = Some v.
Proof.
  intros [ND _] I0. unfold declared. induction vs as [|w vs IH]; [contradiction|]. cbn [map find] in *. inversion ND; subst. destruct I0 as [->|I0]; [now rewrite Z.eqb_refl|].
  destruct (Z.eqb_spec (v_index w) (v_index v)) as [Q0|_]; [|now apply IH]. exfalso. apply H1. rewrite Q0. now apply in_map.
Qed.
Lemma variant_cols_names fs : forall k ns, List.length ns = List.length fs -> map row_name (variant_cols k fs ns) = cols k fs /\ map row_type (variant_cols k fs ns) = map ConvertType ns /\ Forall row_ok (variant_cols k fs ns).
Proof.
  induction fs as [|f fs IH]; intros k [|n ns] L; try discriminate; [repeat split; constructor|]. cbn [variant_cols map cols]. destruct (IH (k + 1) ns) as (A & B & C); [cbn in L; lia|].
  rewrite A, B. split; [reflexivity|]. split; [reflexivity|]. constructor; [|exact C]. now eexists _, _, [].
Qed.
Lemma vtext_text v tn : Forall (fun f => Rg (f_type f)) (v_fields v) -> vtext T v tn -> tn <> "" /\ numeric tn = false.
Proof.
  intros F V. unfold ProofsPortText.vtext in V. destruct (v_fields v) as [|f [|g fs]].
  - subst tn. split; [discriminate|reflexivity].
  - inversion F; subst. destruct (ftext_shape c D Rg REG WN T _ tn H1 V) as [_ NI]. split; [now apply nice_nonempty|now apply nice_not_numeric].
  - destruct V as (ns & H & ->). apply ftexts_len in H. rewrite map_length in H. destruct (cols_cons 0 (f :: g :: fs) ns) as (row & rows & -> & _); [cbn; lia|now symmetry|]. apply marshal_text.
Qed.
Lemma enum_scale id vs vts v l bs cx : Rg id -> def id = DVariant vs -> other_path port id -> map fst vts = sort_variants vs -> Forall (fun p => vtext T (fst p) (snd p)) vts ->
  In v vs -> encs port (map f_type (v_fields v)) l bs -> Q (map f_type (v_fields v)) l bs -> Ws (map f_type (v_fields v)) l ->
  (st = true -> v_name v <> "empty" /\ forall w, In w vs -> v_name w = v_name v -> w = v) ->
  exists g, scale_at st E cx (CEnum (newStruct (map row_pair (enum_mapping vts))) []) (Zb (v_index v) :: bs) g [] /\ shows port id (PVar (v_index v) l) g.
Proof.
  intros R ED O SO VT IV HE HQ HW NM. destruct (rg_enum c D Rg REG id vs R ED O) as (_ & _ & _ & _ & WI & FV). pose proof (declared_in vs v WI IV) as DV.
  assert (HI : 0 <= v_index v < 256) by (destruct WI as [_ F]; rewrite Forall_forall in F; now apply F).
  assert (PS : forall w, In w (sort_variants vs) <-> In w vs) by (intros w; split; apply Permutation_in; [|symmetry]; apply sort_perm).
  destruct (carries vs) eqn:C.
  - pose proof (table_at vs vts WI SO (v_index v) (proj1 HI)) as TA. pose proof (declared_vts vs vts WI SO (v_index v)) as DC. rewrite DV in DC.
    destruct (vts_at vts (v_index v)) as [[v' tn]|] eqn:VA; [|discriminate]. cbn [option_map fst] in DC. injection DC as ->. assert (I2 : In (v, tn) vts) by (apply (find_some _ _ VA)).
    assert (EM : newStruct (map row_pair (enum_mapping vts)) = Some (map row_pair (enum_rows None vts))).
    { unfold enum_mapping. rewrite (carries_vts vs vts SO), C. destruct (enum_rows None vts); [destruct (Z.to_nat (v_index v)); discriminate|reflexivity]. }
    rewrite EM. clear EM. set (tm := map row_pair (enum_rows None vts)).
    assert (NT : nth_error tm (Z.to_nat (v_index v)) = Some (v_name v, tn)) by (unfold tm; rewrite nth_error_map, TA; reflexivity).
    rewrite Forall_forall in FV, VT. pose proof (VT _ I2) as Vt. cbn [fst snd] in Vt. destruct (FV v IV) as [FR ND].
    destruct (vtext_text v tn FR Vt) as [NE NN].
    assert (CL : c_like tm = false).
    { unfold c_like. destruct (forallb _ tm) eqn:X; [|reflexivity]. rewrite forallb_forall in X. specialize (X (v_name v, tn)). cbn [snd] in X. rewrite X in NN; [discriminate|].
      apply nth_error_In in NT. exact NT. }
    assert (FA : st = true -> first_at (map fst tm) (Z.to_nat (v_index v))).
    { intros S k n Lk Hk Hv. destruct (NM S) as [N1 N2]. rewrite nth_error_map, NT in Hv. injection Hv as <-. pose proof (table_at vs vts WI SO (Z.of_nat k) ltac:(lia)) as TK. rewrite Nat2Z.id in TK.
      unfold tm in Hk. rewrite map_map, nth_error_map, TK in Hk. pose proof (declared_vts vs vts WI SO (Z.of_nat k)) as DK. destruct (vts_at vts (Z.of_nat k)) as [[v' tn']|] eqn:VK.
      - injection Hk as Hk. cbn [option_map fst] in DK. unfold declared in DK. destruct (find_some _ _ (eq_sym DK)) as [I3 E3]. rewrite (N2 v' I3 Hk) in E3. apply Z.eqb_eq in E3. lia.
      - destruct (existsb _ _); [|discriminate]. injection Hk as Hk. now apply N1. }
    unfold ProofsPortText.vtext in Vt. destruct (v_fields v) as [|f [|g0 fs]] eqn:FS.
    + subst tn. cbn [map] in HE. inversion HE; subst. exists (VMap [(v_name v, VStr "NULL")]). split.
      * apply (sc_variant st E cx tm [] (v_index v) (v_name v) "empty"); try assumption; [reflexivity|].
        apply (atom_scale "empty" CEmpty); [cbn; tauto|vm_compute; intuition discriminate|reflexivity|reflexivity|reflexivity|discriminate|constructor].
      * apply (sh_unit_variant port id vs v ED O IV FS). unfold carries in C. apply existsb_exists in C. destruct C as (w & I3 & C). exists w. split; [exact I3|]. destruct (v_fields w); discriminate.
    + cbn [map] in HE, HQ, HW. destruct (one_enc _ _ _ HE) as (x & -> & _). inversion FR; subst.
      destruct (text_scale (f_type f) tn x bs cx (w_one _ _ HW) H1 Vt (proj2 HQ _ x eq_refl eq_refl)) as (g & S1 & S2). exists (VMap [(v_name v, g)]). split.
      * apply (sc_variant st E cx tm [] (v_index v) (v_name v) tn); try assumption; [now apply (not_fields (f_type f))].
      * now apply (sh_one_variant port id vs v f x g ED O IV FS).
    + assert (FR' : Forall Rg (map f_type (f :: g0 :: fs))) by (rewrite Forall_forall in *; intros k K; apply in_map_iff in K; destruct K as (f' & <- & K); now apply FR).
      rewrite <- FS in *. assert (L2 : (2 <= List.length (v_fields v))%nat) by (rewrite FS; cbn; lia). destruct Vt as (ns & H & ->). pose proof (ftexts_len _ _ _ _ _ _ H) as LN. rewrite map_length in LN.
      destruct (proj1 HQ HW FR' cx (map ConvertType ns)) as (gs & S1 & S2); [now apply ftexts_convert|].
      destruct (variant_cols_names (v_fields v) 0 ns (eq_sym LN)) as (Q1 & Q2 & Q3).
      exists (VMap [(v_name v, VMap (combine (cols 0 (v_fields v)) gs))]). split.
      * rewrite <- Q1. eapply (sc_struct_variant st E cx tm [] (v_index v) (v_name v)); try eassumption; [|now rewrite Q1|now rewrite Q2].
        destruct (cols_cons 0 (v_fields v) ns L2 (eq_sym LN)) as (row & rows & -> & H2). now apply struct_variant_marshal.
      * now apply (sh_variant port id vs v l gs ED O IV L2).
  - assert (NF : forall w, In w vs -> v_fields w = []).
    { intros w I0. unfold carries in C. destruct (v_fields w) eqn:Fw; [reflexivity|]. exfalso. assert (X : existsb (fun v => match v_fields v with [] => false | _ => true end) vs = true); [|congruence].
      apply existsb_exists. exists w. split; [exact I0|]. now rewrite Fw. }
    rewrite (NF v IV) in *. cbn [map] in HE. inversion HE; subst. rewrite (plain_table vs vts SO C). set (tm := map (fun v => (v_name v, itoa (v_index v))) (sort_variants vs)).
    assert (IN : In (v_name v, itoa (v_index v)) tm) by (unfold tm; apply in_map_iff; exists v; split; [reflexivity|now apply PS]).
    assert (NS : newStruct tm = Some tm) by (destruct tm; [contradiction|reflexivity]). rewrite NS.
    exists (VStr (v_name v)). split; [|now apply (sh_plain port id vs v ED O IV)].
    apply (sc_c_like st E cx tm [] (v_index v) (v_name v) (itoa (v_index v))); [| exact IN|apply string_to_itoa; lia|exact HI| |].
    + unfold c_like. apply forallb_forall. intros p Hp. unfold tm in Hp. apply in_map_iff in Hp. destruct Hp as (w & <- & I0). cbn [snd]. apply itoa_numeric. apply PS in I0. destruct WI as [_ F]. rewrite Forall_forall in F. specialize (F w I0). lia.
    + intros n' t' I0 Q0. unfold tm in I0. apply in_map_iff in I0. destruct I0 as (w & [= <- <-] & I0). apply PS in I0.
      assert (HWI : 0 <= v_index w < 256) by (destruct WI as [_ F]; rewrite Forall_forall in F; now apply F). rewrite string_to_itoa in Q0 by lia.
      pose proof (declared_in vs w WI I0) as DW. rewrite Q0, DV in DW. now injection DW as ->.
    + intros S t' I0. unfold tm in I0. apply in_map_iff in I0. destruct I0 as (w & [= E1 <-] & I0). apply PS in I0. destruct (NM S) as [_ N2]. now rewrite (N2 w I0 E1).
Qed.

(** ** Reading *)
Lemma repeat_texts (T0 : string -> Prop) k t n : ftext T0 k t -> ftexts T0 (repeat k n) (repeat t n).
Proof. intros F. induction n; constructor; auto. Qed.
Lemma prim_cases id p cd : Rg id -> prim port id p -> M T id cd -> In (p, cd) prim_codecs.
Proof. intros R H. apply (M_like id p cd R). exists id. split; [constructor|exact H]. Qed.
Ltac table := match goal with H : In (_, _) _ |- _ => cbn [In] in H end;
  repeat match goal with H : _ \/ _ |- _ => destruct H as [H|H] end; try contradiction;
  match goal with H : (_, _) = (_, _) |- _ => injection H as ? ? end; subst.

Lemma p_unsigned id n w z : prim port id n -> In (n, w) unsigned -> 0 <= z < 2 ^ (8 * w) -> P id (PNum z) (le_bytes (Z.to_nat w) z).
Proof.
  intros PR I0 HZ HW R cx cd HM. pose proof (prim_cases id n cd R PR HM) as I1. unfold unsigned in I0. cbn [In] in I0.
  destruct I0 as [[= <- <-]|[[= <- <-]|[[= <- <-]|[[= <- <-]|[[= <- <-]|[[= <- <-]|[]]]]]]]; unfold prim_codecs in I1; cbn [In] in I1;
  repeat (destruct I1 as [I1|I1]; [try discriminate I1|]); try contradiction; injection I1 as <-.
  - exists (VInt z). split; [now constructor|]. apply (sh_num port id "u8" z _ PR). left. cbn. tauto.
  - exists (VU16 z). split; [now constructor|]. apply (sh_num port id "u16" z _ PR). left. cbn. tauto.
  - exists (VU32 z). split; [now constructor|]. apply (sh_num port id "u32" z _ PR). left. cbn. tauto.
  - exists (VU64 z). split; [now constructor|]. apply (sh_num port id "u64" z _ PR). left. cbn. tauto.
  - exists (VStr (itoa z)). split; [constructor; [exact HZ|now apply itoa_numeral]|]. apply (sh_num port id "u128" z _ PR). right. split; [reflexivity|]. exists (itoa z). split; [now apply itoa_numeral|reflexivity].
  - exists (VDec z 0). split; [now constructor|]. apply (sh_num port id "u256" z _ PR). left. cbn. tauto.
Qed.
Lemma p_signed id n w z : prim port id n -> In (n, w) signed -> - 2 ^ (8 * w - 1) < z < 2 ^ (8 * w - 1) -> P id (PNum z) (le_bytes (Z.to_nat w) z).
Proof.
  intros PR I0 HZ HW R cx cd HM. pose proof (prim_cases id n cd R PR HM) as I1. unfold signed in I0. cbn [In] in I0.
  exists (VBig z). split.
  - assert (C : cd = CIntFixed w /\ In w [2; 4; 8; 16; 32]).
    { destruct I0 as [[= <- <-]|[[= <- <-]|[[= <- <-]|[[= <- <-]|[[= <- <-]|[]]]]]]; unfold prim_codecs in I1; cbn [In] in I1;
      repeat (destruct I1 as [I1|I1]; [try discriminate I1|]); try contradiction; injection I1 as <-; (split; [reflexivity|cbn; tauto]). }
    destruct C as [-> IW]. constructor; [|exact IW|exact HZ]. apply Bool.not_true_is_false. intros ST. specialize (HW ST). inversion HW; subst.
    + pose proof (prim_fun id _ _ PR ltac:(eassumption)) as <-. match goal with X : In (n, _) unsigned |- _ => unfold unsigned in X; cbn [In] in X; decompose [or] X; decompose [or] I0; congruence end.
    + destruct PR as (m & PR & _). congruence.
  - apply (sh_num port id n z _ PR). left. cbn [In]. destruct I0 as [[= <- _]|[[= <- _]|[[= <- _]|[[= <- _]|[[= <- _]|[]]]]]]; tauto.
Qed.
Lemma p_bool id b : prim port id "bool" -> P id (PBool b) [if b : bool then Zb 1 else Zb 0].
Proof.
  intros PR HW R cx cd HM. pose proof (prim_cases id _ cd R PR HM) as I1. unfold prim_codecs in I1; cbn [In] in I1. repeat (destruct I1 as [I1|I1]; [try discriminate I1|]); try contradiction; injection I1 as <-.
  exists (VBool b). split; constructor. exact PR.
Qed.
Lemma p_str id b : prim port id "str" -> Z.of_nat (List.length b) < 2 ^ 32 -> P id (PText b) (len_of b ++ b).
Proof.
  intros PR L HW R cx cd HM. pose proof (prim_cases id _ cd R PR HM) as I1. unfold prim_codecs in I1; cbn [In] in I1. repeat (destruct I1 as [I1|I1]; [try discriminate I1|]); try contradiction; injection I1 as <-.
  exists (VStr (text_of b)). split; constructor; [exact L| |exact PR]. intros S. specialize (HW S). inversion HW; subst. auto.
Qed.

Ltac nope := exfalso; match goal with
  | R : Rg ?id, H : prims_path _ ?id, E0 : def_of _ ?id = _ |- _ => apply (no_prims id R); [intros ?; rewrite E0; discriminate|exact H]
  | H : account _ ?id, E0 : def_of _ ?id = _ |- _ => destruct H as (_ & ? & H); congruence
  | H : prim _ ?id _, E0 : def_of _ ?id = _ |- _ => destruct H as (? & H & _); congruence
  | H1 : _ \/ _ |- _ => decompose [or] H1; congruence
  end.

Lemma hash_length h n cd b cx : In (to_lower h, n) hashes -> In (to_lower h, cd) hash_codecs -> Z.of_nat (List.length b) = n -> scale_at st E cx cd b (VStr ("0x" ++ hex_encode b)) [].
Proof.
  intros I1 I2 L. unfold hashes, hash_codecs in *. cbn [In] in *. destruct I1 as [[= Q1 <-]|[[= Q1 <-]|[[= Q1 <-]|[]]]]; rewrite <- Q1 in I2;
  (destruct I2 as [[= <-]|[[= <-]|[[= <-]|[]]]] || (repeat (destruct I2 as [I2|I2]; [try discriminate I2|]); try contradiction; injection I2 as <-)); constructor; lia.
Qed.

Lemma p_composite id fs l bs : def id = DComposite fs -> encs port (map f_type fs) l bs -> Q (map f_type fs) l bs -> P id (PSeq l) bs.
Proof.
  intros ED HE HQ HW R cx cd HM. inversion HM; subst; try congruence; try nope.
  - (* hash *) destruct (rg_prims c D Rg REG id R H) as (f & h' & n & e & E1 & PL & IH & E2 & PE). rewrite ED in E1. injection E1 as ->. rewrite H0 in PL. injection PL as <-.
    cbn [map] in HE. destruct (one_enc _ _ _ HE) as (x & -> & HX). destruct (hash_bytes _ n e x bs E2 PE HX) as (b & -> & B & L).
    exists (VStr ("0x" ++ hex_encode bs)). split; [now apply (hash_length h n)|]. apply (sh_hash port id f b bs ED); [now left|exact B].
  - (* account *) destruct (rg_account c D Rg REG id R H) as (f & e & [(E1 & E2 & PE & _)|PP]).
    + rewrite ED in E1. injection E1 as ->. cbn [map] in HE. destruct (one_enc _ _ _ HE) as (x & -> & HX). destruct (hash_bytes _ 32 e x bs E2 PE HX) as (b & -> & B & L).
      exists (VStr ("0x" ++ hex_encode bs)). split; [constructor; lia|]. apply (sh_hash port id f b bs ED); [right; apply H|exact B].
    + exfalso. destruct (rg_prims c D Rg REG id R PP) as (f' & h & n & e' & E1 & PL & IH & _). destruct H as [AP _]. unfold account_path in AP. rewrite AP in PL. injection PL as <-.
      unfold hashes in IH. cbn [In] in IH. destruct IH as [X|[X|[X|[]]]]; discriminate X.
  - (* newtype *) rewrite ED in H. injection H as ->. cbn [map] in HE, HQ. destruct (one_enc _ _ _ HE) as (x & -> & HX).
    destruct (rg_plain c D Rg REG id [f] R ED H0) as (_ & _ & _ & FR & _). inversion FR; subst. destruct (proj2 HQ _ x eq_refl eq_refl (w_one _ _ (fun S => w_composite id [f] [x] (HW S) ED H0)) H3 cx cd H1) as (g & S1 & S2). exists g. split; [exact S1|].
    apply (sh_newtype port id f x g ED); [| |exact S2]; intros X; apply H0; [left; now right|right; split; [exact X|now exists f]].
  - (* struct *) rewrite ED in H. injection H as <-. assert (NE : ~ early id).
    { intros [[(n & X)|PP]|(_ & f & X)]; [congruence| |rewrite ED in X; injection X as ->; now apply H0]. destruct (rg_prims c D Rg REG id R PP) as (f' & _ & _ & _ & E1 & _). rewrite ED in E1. injection E1 as ->. now apply H0. }
    destruct (rg_plain c D Rg REG id fs R ED NE) as (_ & _ & _ & FR & ND & _). assert (FR' : Forall Rg (map f_type fs)) by (rewrite Forall_forall in *; intros k K; apply in_map_iff in K; destruct K as (f' & <- & K); now apply FR).
    destruct (proj1 HQ (fun S => w_composite id fs l (HW S) ED NE) FR' cx ts H1) as (gs & S1 & S2). pose proof (ftexts_len _ _ _ _ _ _ H1) as LN. rewrite map_length in LN.
    exists (VMap (combine (cols 1 fs) gs)). split; [|now apply (sh_struct port id fs l gs ED)].
    destruct fs as [|f fs].
    + cbn [map] in *. inversion H1; subst. inversion S1; subst. constructor.
    + assert (NS : newStruct (combine (cols 1 (f :: fs)) ts) = Some (combine (cols 1 (f :: fs)) ts)) by (destruct ts; [discriminate LN|reflexivity]). rewrite NS.
      assert (LC : List.length (cols 1 (f :: fs)) = List.length ts) by (rewrite cols_length; exact LN).
      pose proof (sc_struct st E cx (combine (cols 1 (f :: fs)) ts) bs gs []) as SC. rewrite (fst_combine _ _ LC), (snd_combine _ _ LC) in SC. now apply SC.
Qed.

Lemma p_sequence id k l bs : def id = DSequence k -> encs port (repeat k (List.length l)) l bs -> Q (repeat k (List.length l)) l bs ->
  Z.of_nat (List.length l) <= 512 * 1024 \/ (prim port k "u8" /\ Z.of_nat (List.length l) < 2 ^ 32) -> P id (PSeq l) (len_of l ++ bs).
Proof.
  intros ED HE HQ L HW R cx cd HM. pose proof (rg_seq c D Rg REG id k R ED) as RK. inversion HM; subst; try congruence; try nope.
  - rewrite ED in H. injection H as <-. assert (NP : ~ prim port k "u8") by (intros X; apply H1; now apply (prim_text k)). destruct L as [L|[L _]]; [|contradiction].
    assert (FR : Forall Rg (repeat k (List.length l))) by (apply Forall_forall; intros y Y; apply repeat_spec in Y; now subst).
    destruct (proj1 HQ (fun S => proj1 (w_list id k l (HW S) (or_introl ED))) FR cx (repeat sub (List.length l)) (repeat_texts T k sub _ H0)) as (gs & S1 & S2). exists (slice_of gs). split; [now apply sc_vec|]. apply (sh_list port id k l gs); auto.
  - rewrite ED in H. injection H as <-. destruct (encs_u8 k _ l bs H0 HE) as (B & L1 & L2). exists (VStr (text_of bs)). split; [|apply (sh_bytes port id k l bs); auto].
    unfold len_of. rewrite <- L2. apply sc_bytes; [rewrite L2; destruct L as [L|[_ L]]; lia|]. intros S. destruct (w_list id k l (HW S) (or_introl ED)) as (_ & W2 & W3). split; [rewrite L2; now apply W2|now apply W3].
Qed.
Lemma p_array id n k l bs : def id = DArray n k -> Z.of_nat (List.length l) = n -> encs port (repeat k (List.length l)) l bs -> Q (repeat k (List.length l)) l bs -> P id (PSeq l) bs.
Proof.
  intros ED L HE HQ HW R cx cd HM. destruct (rg_arr c D Rg REG id n k R ED) as [RK HN]. inversion HM; subst; try congruence; try nope.
  - rewrite ED in H. injection H as <- <-. destruct (equal_fold sub "u8") eqn:EF.
    + assert (LK : is_like port "u8" k). { apply (ftext_like c D Rg REG WN T "u8" k sub); auto; [cbn; tauto|]. unfold equal_fold in EF. apply String.eqb_eq in EF. exact EF. }
      destruct (encs_u8 k _ l bs LK HE) as (B & L1 & L2). exists (VStr (text_of bs)). split; [apply sc_array_u8; [exact EF|now rewrite L2|lia|intros S; now apply (proj2 (proj2 (w_list id k l (HW S) (or_intror (ex_intro _ _ ED)))))]|]. apply (sh_bytes port id k l bs); auto. right. eexists. split; [|exact ED]. lia.
    + assert (NP : ~ prim port k "u8") by (intros X; pose proof (prim_text k _ sub RK X H1) as Y; unfold equal_fold in EF; rewrite Y in EF; discriminate EF).
      assert (FR : Forall Rg (repeat k (List.length l))) by (apply Forall_forall; intros y Y; apply repeat_spec in Y; now subst).
      destruct (proj1 HQ (fun S => proj1 (w_list id k l (HW S) (or_intror (ex_intro _ _ ED)))) FR cx (repeat sub (List.length l)) (repeat_texts T k sub _ H1)) as (gs & S1 & S2). exists (slice_of gs). split; [apply sc_array; [exact EF|lia|now rewrite Nat2Z.id]|].
      apply (sh_list port id k l gs); auto. right. eexists. split; [|exact ED]. lia.
  - rewrite ED in H. injection H as <- <-. destruct (encs_u8 k _ l bs H1 HE) as (B & L1 & L2). exists (VStr (text_of bs)).
    split; [apply sc_fixed_u8; [now rewrite L2|lia|intros S; now apply (proj2 (proj2 (w_list id k l (HW S) (or_intror (ex_intro _ _ ED)))))]|]. apply (sh_bytes port id k l bs); auto. right. eexists. split; [|exact ED]. lia.
  - destruct H as [H|[H|H]]; [|congruence|congruence]. rewrite ED in H. injection H as H <-. destruct l; [|cbn in H; lia]. cbn [repeat List.length] in HE. inversion HE; subst. exists VNil. split; [constructor|]. apply (sh_nothing port id k). left. exact ED.
Qed.
Lemma p_tuple id ks l bs : def id = DTuple ks -> encs port ks l bs -> Q ks l bs -> P id (PSeq l) bs.
Proof.
  intros ED HE HQ HW R cx cd HM. pose proof (rg_tuple c D Rg REG id ks R ED) as FR. inversion HM; subst; try congruence; try nope.
  - destruct H as [H|[H|H]]; [congruence| |congruence]. rewrite ED in H. injection H as ->. inversion HE; subst. exists VNil. split; [constructor|]. apply (sh_nothing port id 0). right. now left.
  - rewrite ED in H. injection H as <-. destruct (proj1 HQ (fun S => w_tuple id ks l (HW S) ED) FR cx ts H1) as (gs & S1 & S2). pose proof (ftexts_len _ _ _ _ _ _ H1) as LN.
    exists (VMap (combine (positions 1 ks) gs)). split; [|now apply (sh_tuple port id ks l gs)].
    assert (LC : List.length (positions 1 ks) = List.length ts) by (rewrite positions_length; exact LN).
    pose proof (sc_struct st E cx (combine (positions 1 ks) ts) bs gs []) as SC. rewrite (fst_combine _ _ LC), (snd_combine _ _ LC) in SC. apply SC; [exact S1|apply positions_nodup].
Qed.
Lemma p_unit id : def id = DNone -> P id (PSeq []) [].
Proof.
  intros ED HW R cx cd HM. inversion HM; subst; try congruence; try nope. exists VNil. split; [constructor|]. apply (sh_nothing port id 0). right. now right.
Qed.
Lemma p_compact id k n w z : def id = DCompact k -> is_like port n k -> In (n, w) unsigned -> 0 <= z < 2 ^ (8 * w) -> P id (PNum z) (compact z).
Proof.
  intros ED LK I0 HZ HW R cx cd HM. destruct (rg_compact c D Rg REG id k R ED) as [RK LS]. inversion HM; subst; try congruence; try nope.
  - rewrite ED in H. injection H as <-. destruct (ftext_resolves c D Rg REG WN E T BASE NAMES TUPLES k sub (Ctx 0 "" None) RK H0) as (cd' & RS & HM').
    pose proof (M_like k n cd' RK LK HM') as I1. assert (NE : sub <> "") by (apply nice_nonempty; apply (ftext_shape c D Rg REG WN T k sub RK H0)).
    destruct LS as [LS|[LS|LS]]; pose proof (like_fun k _ _ LK LS) as ->; unfold unsigned, prim_codecs in *; cbn [In] in *;
    repeat (destruct I0 as [I0|I0]; [try discriminate I0|]); try contradiction; injection I0 as <-;
    repeat (destruct I1 as [I1|I1]; [try discriminate I1|]); try contradiction; injection I1 as <-.
    + exists (VU64 z). split; [|apply (sh_compact port id k "u32" z _ ED LK); cbn; tauto]. apply (sc_compact st E cx sub CU32); auto; [lia| |intros S; now apply (w_compact id k z (HW S) ED)]. cbn [compact_repr]. now rewrite (proj2 (Z.ltb_lt z (2 ^ 32)) (proj2 HZ)).
    + exists (VU64 z). split; [|apply (sh_compact port id k "u64" z _ ED LK); cbn; tauto]. apply (sc_compact st E cx sub CU64); auto; [lia| |intros S; now apply (w_compact id k z (HW S) ED)]. cbn [compact_repr]. now rewrite (proj2 (Z.ltb_lt z (2 ^ 64)) (proj2 HZ)).
    + exists (VDec z 0). split; [|apply (sh_compact port id k "u128" z _ ED LK); cbn; tauto]. apply (sc_compact st E cx sub CU128); auto; [lia| |intros S; now apply (w_compact id k z (HW S) ED)]. cbn [compact_repr]. now rewrite (proj2 (Z.ltb_lt z (2 ^ 128)) (proj2 HZ)).
  - rewrite ED in H. injection H as <-. pose proof (like_fun k _ _ LK H0) as ->. unfold unsigned in I0. cbn [In] in I0. repeat (destruct I0 as [I0|I0]; [try discriminate I0|]); try contradiction; injection I0 as <-.
    exists (VInt z). split; [apply sc_compact_u32; [lia|intros S; now apply (w_compact id k z (HW S) ED)]|]. apply (sh_compact port id k "u32" z _ ED LK). cbn. tauto.
Qed.
Lemma p_bits id n b : def id = DBitSequence -> 0 <= n < 2 ^ 53 -> Z.of_nat (List.length b) = (n + 7) / 8 -> P id (PBits n b) (compact n ++ b).
Proof.
  intros ED HN L HW R cx cd HM. inversion HM; subst; try congruence; try nope. exists (VStr (bits_text b)). split; [apply sc_bitvec; try assumption|now apply sh_bits]. apply Bool.not_true_is_false. intros ST. specialize (HW ST). inversion HW.
Qed.
Lemma result_split id vs n a m b r t u : Rg id -> def id = DVariant vs -> res_path port id -> params_of port id = (n, a) :: (m, b) :: r -> ftext T a t -> ftext T b u -> split_char ","%char (t ++ "," ++ u) = [t; u].
Proof.
  intros R ED RP PA Ft Fu. destruct (rg_result c D Rg REG id vs R ED RP) as (n' & a' & m' & b' & r' & PA' & Ra & Rb & NR & _). rewrite PA in PA'. injection PA' as <- <- <- <- <-.
  assert (NC : forall k s, k = a \/ k = b -> Rg k -> ftext T k s -> ~ has_char ","%char s).
  { intros k s K Rk F X. destruct (ftext_sep c D Rg REG WN ","%char T k s (or_intror eq_refl) F Rk X) as (j & RJ & SJ). unfold sep_at in SJ. cbn in SJ. destruct SJ as [(X1 & _)|(_ & ws & EJ & RP')]; [discriminate X1|]. now apply (NR k j ws K RJ EJ). }
  change (t ++ "," ++ u) with (t ++ String "," u). rewrite split_at by (apply (NC a); auto). rewrite split_absent by (apply (NC b); auto). reflexivity.
Qed.
Lemma p_variant id vs v l bs : def id = DVariant vs -> In v vs -> encs port (map f_type (v_fields v)) l bs -> Q (map f_type (v_fields v)) l bs -> P id (PVar (v_index v) l) (Zb (v_index v) :: bs).
Proof.
  intros ED IV HE HQ HW R cx cd HM. inversion HM; subst; try congruence; try nope.
  - rewrite ED in H. injection H as <-. assert (WV : st = true -> writables port (map f_type (v_fields v)) l /\ v_name v <> "empty" /\ forall w, In w vs -> v_name w = v_name v -> w = v).
    { intros S. destruct (w_variant id vs _ l (HW S) ED) as (v' & I' & E' & N1 & N2 & N3 & _). destruct (rg_enum c D Rg REG id vs R ED H0) as (_ & _ & _ & _ & WI & _).
      pose proof (declared_in vs v WI IV) as D1. pose proof (declared_in vs v' WI I') as D2. rewrite E', D1 in D2. injection D2 as <-. auto. }
    apply (enum_scale id vs vts v l bs cx); try assumption; intros S; now apply WV.
  - destruct (rg_option c D Rg REG id vs R ED H0) as (n' & k' & r' & PA & RK & NB & FV). rewrite H1 in PA. injection PA as <- <- <-. rewrite Forall_forall in FV.
    assert (NE : sub <> "") by (apply nice_nonempty; apply (ftext_shape c D Rg REG WN T k sub RK H2)).
    assert (NB' : sub <> "bool") by (intros ->; apply NB; apply (ftext_like c D Rg REG WN T "bool" k "bool"); auto; cbn; tauto).
    destruct (FV v IV) as [(VI & VF)|(VI & f & VF & FT)]; rewrite VI, VF in *; cbn [map] in *.
    + inversion HE; subst. exists VNil. split; [now constructor|]. now apply (sh_none port id vs).
    + destruct (one_enc _ _ _ HE) as (x & -> & HX). rewrite FT in *. assert (WV : st = true -> writable port k x /\ forall g, shows port k x g -> ~ nil_like g).
      { intros S. destruct (w_variant id vs _ [x] (HW S) ED) as (v' & I' & E' & _ & _ & N3 & N4). destruct (FV v' I') as [(VI' & _)|(VI' & f' & VF' & FT')]; [congruence|].
        rewrite VF' in N3. cbn [map] in N3. rewrite FT' in N3. split; [now apply ws_one|]. intros g. rewrite <- FT'. now apply (N4 f' x g). }
      destruct (text_scale k sub x bs cx (fun S => proj1 (WV S)) RK H2 (proj2 HQ _ x eq_refl eq_refl)) as (g & S1 & S2). exists g. split; [apply sc_some; auto; intros S; now apply (proj2 (WV S))|].
      apply (sh_some port id vs v f x g); auto. now rewrite FT.
  - pose proof (result_split id vs n a m b r t u R ED H0 H1 H2 H3) as SP.
    destruct (rg_result c D Rg REG id vs R ED H0) as (n' & a' & m' & b' & r' & PA' & Ra & Rb & NR & FV). rewrite H1 in PA'. injection PA' as <- <- <- <- <-. rewrite Forall_forall in FV.
    destruct (FV v IV) as (f & VF & [(VI & FT)|(VI & FT)]); rewrite VI, VF in *; cbn [map] in *; destruct (one_enc _ _ _ HE) as (x & -> & HX); rewrite FT in *.
    + assert (WV : W a x).
      { intros S. destruct (w_variant id vs _ [x] (HW S) ED) as (v' & I' & E' & _ & _ & N3 & _). destruct (FV v' I') as (f' & VF' & [(VI' & FT')|(VI' & FT')]); try congruence; rewrite VF' in N3; cbn [map] in N3; rewrite FT' in N3; now apply ws_one. }
      destruct (text_scale a t x bs cx WV Ra H2 (proj2 HQ _ x eq_refl eq_refl)) as (g & S1 & S2). exists (VMap [("Ok", g)]). split; [now apply (sc_ok st E cx _ t u)|]. apply (sh_ok port id vs v f x g); auto. now rewrite FT.
    + assert (WV : W b x).
      { intros S. destruct (w_variant id vs _ [x] (HW S) ED) as (v' & I' & E' & _ & _ & N3 & _). destruct (FV v' I') as (f' & VF' & [(VI' & FT')|(VI' & FT')]); try congruence; rewrite VF' in N3; cbn [map] in N3; rewrite FT' in N3; now apply ws_one. }
      destruct (text_scale b u x bs cx WV Rb H3 (proj2 HQ _ x eq_refl eq_refl)) as (g & S1 & S2). exists (VMap [("Error", g)]). split; [now apply (sc_err st E cx _ t u)|]. apply (sh_err port id vs v f x g); auto. now rewrite FT.
Qed.

Theorem enc_scales : (forall id x bs, enc port id x bs -> P id x bs) /\ (forall ks l bs, encs port ks l bs -> Q ks l bs).
Proof.
  apply enc_mutind; intros.
  - now apply (p_unsigned id n).
  - now apply (p_signed id n).
  - now apply p_bool.
  - now apply p_str.
  - now apply (p_composite id fs).
  - now apply (p_variant id vs).
  - now apply (p_sequence id k).
  - now apply (p_array id n k).
  - now apply (p_tuple id ks).
  - now apply p_unit.
  - now apply (p_compact id k n w).
  - now apply p_bits.
  - split; [|discriminate]. intros _ _ cx ts F. inversion F; subst. exists []. split; constructor.
  - destruct H2 as [H2 _]. split.
    + intros HW FR cx ts F. inversion FR; subst. inversion F; subst. assert (W1 : W k x) by (intros S; specialize (HW S); now inversion HW). assert (W2 : Ws ks l) by (intros S; specialize (HW S); now inversion HW).
      destruct (text_scale k y x b cx W1 H5 H7 H0) as (g & S1 & S2). destruct (H2 W2 H6 cx l' H9) as (gs & S3 & S4).
      exists (g :: gs). split; [|now constructor]. change (@nil string) with (@nil string ++ @nil string)%list. now constructor.
    + intros k' x' [= -> ->] [= -> ->]. inversion H1; subst. now rewrite app_nil_r.
Qed.
End Decode.
