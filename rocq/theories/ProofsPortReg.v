(** What ProcessSiType registers for the types of a portable registry. *)

From Verif Require Import GoBase SpecNum ProofsBase ModelTools ModelVal ModelJson ModelRegistry ModelDecode ModelRegister ModelScaleInfo
  ProofsRun SpecScale ProofsReads ProofsScale ProofsNames ProofsTexts PropRegistry PropScaleInfo SpecPortable ProofsPortText.

Lemma bind_ok {A B} (x : res A) (f : A -> res B) y : (z <- x ;; f z) = Ok y -> exists z, x = Ok z /\ f z = Ok y.
Proof. destruct x; try discriminate. cbn. eauto. Qed.
Lemma bind_ok2 {A B C} (x : res (A * B)) (f : A -> B -> res C) y : ('(a, b) <- x ;; f a b) = Ok y -> exists a b, x = Ok (a, b) /\ f a b = Ok y.
Proof. destruct x as [[a b]| |]; try discriminate. cbn. eauto. Qed.

(** ** One registration *)
Definition shape_codec (ts : string) : option codec :=
  match first_char ts, last_char ts with
  | Some a, Some z =>
      let generic :=
        match (if Ascii.eqb z ">"%char then generic_parts ts else None) with
        | Some (n, sub) =>
            if equal_fold n "vec" then Some (CVec sub)
            else if equal_fold n "option" then Some (COption sub)
            else if equal_fold n "compact" then Some (CCompact sub)
            else if equal_fold n "BTreeMap" then Some (CBTreeMap sub)
            else if equal_fold n "BTreeSet" then Some (CVec sub)
            else None
        | None => None
        end in
      match generic with
      | Some c => Some c
      | None =>
          if negb (String.eqb ts "()") && Ascii.eqb a "("%char && Ascii.eqb z ")"%char then Some (CStruct (buildStruct ts))
          else if negb (String.eqb ts "[]") && Ascii.eqb a "["%char && Ascii.eqb z "]"%char then
            match split_char ";"%char (strip_ends ts) with
            | [t; n] => Some (CFixedArray (StringToInt (trim_space n)) (trim_space t))
            | _ => None
            end
          else None
      end
  | _, _ => None
  end.
Lemma shape_codec_ok key ts r r' : reg_shape key ts r = Ok r' -> match shape_codec ts with Some cd => r' = regCustomKey key cd r | None => r' = r end.
Proof.
  unfold reg_shape, shape_codec. destruct (first_char ts) as [a|]; [|discriminate]. destruct (last_char ts) as [z|]; [|discriminate].
  set (g := match (if Ascii.eqb z ">"%char then generic_parts ts else None) with Some _ => _ | None => _ end). cbv zeta. fold g. destruct g as [cd|]; [now intros [= <-]|].
  destruct (_ && _); [now intros [= <-]|]. destruct (_ && _); [|now intros [= <-]]. destruct (split_char _ _) as [|x [|y [|]]]; now intros [= <-].
Qed.
Definition alias_codec (key text : string) (types : list (string * codec)) : option codec :=
  let ts := ConvertType text in
  match assoc (to_lower ts) types with
  | Some cd => Some cd
  | None =>
      match (if String.eqb ts key then assoc (to_lower text) types else None) with
      | Some cd => Some cd
      | None => shape_codec ts
      end
  end.
Definition yields (key : string) (t : tstruct) (types : list (string * codec)) (cd : codec) : Prop :=
  if String.eqb (t_type t) "string" then alias_codec key (t_string t) types = Some cd
  else if String.eqb (t_type t) "struct" then exists m, mapping_rows (t_mapping t) = Ok m /\ cd = CStruct (newStruct m)
  else if String.eqb (t_type t) "enum" then exists m, mapping_rows (t_mapping t) = Ok m /\ cd = CEnum (newStruct m) (t_values t)
  else False.
Definition usual (t : tstruct) : Prop := In (t_type t) ["string"; "struct"; "enum"].

Lemma alias_reg fuel key0 key t r r' : t_type t = "string" -> reg_string fuel [(key0, t)] key t r = Ok r' ->
  match alias_codec key0 (t_string t) (r_types r) with Some cd => r' = regCustomKey key cd r | None => r' = r end.
Proof.
  intros TT. unfold reg_string, alias_codec. destruct (assoc (to_lower (ConvertType (t_string t))) (r_types r)) as [cd|]; [now intros [= <-]|].
  cbn [assoc]. destruct (String.eqb (ConvertType (t_string t)) key0); [|now intros H; apply shape_codec_ok in H].
  rewrite TT. cbn [String.eqb Ascii.eqb Bool.eqb]. destruct (assoc (to_lower (t_string t)) (r_types r)) as [cd|]; [now intros [= <-]|].
  now intros H; apply shape_codec_ok in H.
Qed.
Lemma one_reg fuel key0 key t r r2 : usual t ->
  (if String.eqb (t_type t) "string" then reg_string fuel [(key0, t)] key t r else reg_plain key t r) = Ok r2 ->
  (exists cd, yields key0 t (r_types r) cd /\ r2 = regCustomKey key cd r) \/ (r2 = r /\ forall cd, ~ yields key0 t (r_types r) cd).
Proof.
  unfold usual, yields. cbn [In]. intros [U|[U|[U|[]]]]; rewrite <- U; cbn [String.eqb Ascii.eqb Bool.eqb].
  - intros H. apply alias_reg in H; [|now symmetry]. destruct (alias_codec key0 (t_string t) (r_types r)) as [cd|]; [left; now exists cd|right]. split; [exact H|discriminate].
  - unfold reg_plain. rewrite <- U. cbn [String.eqb Ascii.eqb Bool.eqb]. intros H. apply bind_ok in H. destruct H as (m & H & [= <-]). left. eexists. split; [|reflexivity]. now exists m.
  - unfold reg_plain. rewrite <- U. cbn [String.eqb Ascii.eqb Bool.eqb]. intros H. apply bind_ok in H. destruct H as (m & H & [= <-]). left. eexists. split; [|reflexivity]. now exists m.
Qed.
Lemma key_nohash key cd r : ~ has_char "#"%char key -> regCustomKey (to_lower key) cd r = with_types (upd (to_lower key) cd) r.
Proof. intros N. unfold regCustomKey. rewrite split_absent; [reflexivity|]. intros X. apply (proj1 (lower_has "#"%char key eq_refl)) in X. contradiction. Qed.
Lemma key_hash key a b cd r : ~ has_char "#"%char key -> exists lo hi, regCustomKey (to_lower (key ++ "#" ++ itoa a ++ "-" ++ itoa b)) cd r =
  with_special (fun m => upd (to_lower key) (match assoc (to_lower key) m with Some l => l ++ [(lo, hi, cd)] | None => [(lo, hi, cd)] end)%list m) r.
Proof.
  intros N. unfold regCustomKey. rewrite to_lower_app'. change (to_lower ("#" ++ itoa a ++ "-" ++ itoa b)) with (String "#" (to_lower (itoa a ++ "-" ++ itoa b))).
  assert (N' : ~ has_char "#"%char (to_lower key)) by (intros X; apply (proj1 (lower_has "#"%char key eq_refl)) in X; contradiction).
  rewrite split_at by exact N'. rewrite split_absent.
  - destruct (version_range _) as [lo hi]. now exists lo, hi.
  - intros X. apply (proj1 (lower_has "#"%char _ eq_refl)) in X. rewrite !has_char_app in X. destruct X as [X|[X|X]]; [now apply itoa_nohash in X| |now apply itoa_nohash in X].
    cbn in X. destruct X as [X|[]]. discriminate.
Qed.

Definition same_reg (r r' : reg) : Prop := r_types r' = r_types r /\ r_special r' = r_special r.
Lemma reg_one_cases c key t s s' : reg_one c key t s = Ok s' -> usual t -> ~ has_char "#"%char key ->
  g_names s' = g_names s /\ g_dup s' = g_dup s /\
  let r := g_reg s in let r' := g_reg s' in
  (r' = r /\ assoc key (r_v14 r) <> None /\ t_v14 t = true)
  \/ (exists cd, yields key t (r_types r) cd /\ r_types r' = upd (to_lower key) cd (r_types r) /\ r_special r' = r_special r
        /\ (r_v14 r' = r_v14 r \/ r_v14 r' = upd key t (r_v14 r)))
  \/ (exists cd lo hi, yields key t (r_types r) cd /\ r_types r' = r_types r /\ r_v14 r' = r_v14 r /\ assoc key (r_v14 r) <> None /\ t_v14 t = true
        /\ r_special r' = upd (to_lower key) (match assoc (to_lower key) (r_special r) with Some l => l ++ [(lo, hi, cd)] | None => [(lo, hi, cd)] end)%list (r_special r))
  \/ ((forall cd, ~ yields key t (r_types r) cd) /\ r_types r' = r_types r /\ r_special r' = r_special r /\ (r_v14 r' = r_v14 r \/ r_v14 r' = upd key t (r_v14 r))).
Proof.
  intros H U N. unfold reg_one in H. apply bind_ok in H. destruct H as (r' & H & [= <-]). cbn [g_names g_dup g_reg]. split; [reflexivity|]. split; [reflexivity|].
  set (r := g_reg s) in *. unfold RegCustomTypes in H. cbn [reg_loop] in H. apply bind_ok in H. destruct H as (o & V & H). unfold v14_step in V.
  assert (PL : forall r1, r_types r1 = r_types r -> r_special r1 = r_special r -> (r_v14 r1 = r_v14 r \/ r_v14 r1 = upd key t (r_v14 r)) -> forall r2,
    (if String.eqb (t_type t) "string" then reg_string (i_fuel c) [(key, t)] (to_lower key) t r1 else reg_plain (to_lower key) t r1) = Ok r2 -> r' = r2 ->
    (exists cd, yields key t (r_types r) cd /\ r_types r' = upd (to_lower key) cd (r_types r) /\ r_special r' = r_special r
        /\ (r_v14 r' = r_v14 r \/ r_v14 r' = upd key t (r_v14 r)))
    \/ ((forall cd, ~ yields key t (r_types r) cd) /\ r_types r' = r_types r /\ r_special r' = r_special r /\ (r_v14 r' = r_v14 r \/ r_v14 r' = upd key t (r_v14 r)))).
  { intros r1 E1 E2 E3 r2 Q ->. apply one_reg in Q; [|exact U]. rewrite E1 in Q. destruct Q as [(cd & Y & ->)|(-> & Y)].
    - left. exists cd. rewrite key_nohash by exact N. unfold with_types. cbn. rewrite E1, E2. auto.
    - right. auto. }
  destruct (t_v14 t) eqn:V14.
  - destruct (assoc key (r_v14 r)) as [old|] eqn:A.
    + destruct (t_spec t =? 0); [injection V as <-; injection H as <-; left; split; [reflexivity|split; [discriminate|reflexivity]]|].
      apply bind_ok in V. destruct V as (b & _ & V). destruct b; injection V as <-; [injection H as <-; left; split; [reflexivity|split; [discriminate|reflexivity]]|].
      apply bind_ok in H. destruct H as (r2 & H & [= <-]). apply one_reg in H; [|exact U]. destruct H as [(cd & Y & ->)|(-> & Y)].
      * right. right. left. destruct (key_hash key (t_spec t) (t_spec t) cd r N) as (lo & hi & Q). exists cd, lo, hi. cbn [String.append] in Q |- *. rewrite Q. split; [exact Y|]. split; [reflexivity|]. split; [reflexivity|].
        split; [discriminate|split; reflexivity].
      * right. right. right. auto.
    + injection V as <-. apply bind_ok in H. destruct H as (r2 & H & Q). injection Q as Q.
      destruct (PL (with_v14 (upd key t) r) eq_refl eq_refl (or_intror eq_refl) r2 H (eq_sym Q)) as [X|X]; auto.
  - injection V as <-. apply bind_ok in H. destruct H as (r2 & H & Q). injection Q as Q. destruct (PL r eq_refl eq_refl (or_introl eq_refl) r2 H (eq_sym Q)) as [X|X]; auto.
Qed.
Lemma reg_one_plain c key t s s' : reg_one c key t s = Ok s' -> usual t -> ~ has_char "#"%char key -> t_v14 t = false ->
  (exists cd, yields key t (r_types (g_reg s)) cd /\ g_reg s' = with_types (upd (to_lower key) cd) (g_reg s)) \/ g_reg s' = g_reg s.
Proof.
  intros H U N V. unfold reg_one in H. apply bind_ok in H. destruct H as (r' & H & [= <-]). cbn [g_reg]. unfold RegCustomTypes in H. cbn [reg_loop] in H.
  unfold v14_step in H. rewrite V in H. cbn [bind] in H. apply bind_ok in H. destruct H as (r2 & H & [= <-]). apply one_reg in H; [|exact U].
  destruct H as [(cd & Y & ->)|[-> _]]; [|now right]. left. exists cd. split; [exact Y|now apply key_nohash].
Qed.
Lemma reg_set c key t id n s : reg_one c key t (set_name id n s) = (s1 <- reg_one c key t s ;; Ok (set_name id n s1)).
Proof. unfold reg_one, set_name. cbn [g_names g_dup g_reg]. destruct (RegCustomTypes (i_fuel c) [(key, t)] (g_reg s)); reflexivity. Qed.

Lemma assoc_upd {A} k k' (a : A) m : assoc k (upd k' a m) = if String.eqb k k' then Some a else assoc k m.
Proof. reflexivity. Qed.

Section Reg.
Variable c : sictx.
Variable D : list (string * Z).
Variable Rg : Z -> Prop.
Notation port := (i_port c).
Notation def := (def_of port).
Notation path := (path_of port).
Notation named_as := (named_as c D).
Notation early := (early c).
Notation text := (text c D Rg).
Notation texts := (texts c D Rg).
Notation ftext := (ftext c D Rg).
Notation ftexts := (ftexts c D Rg).
Notation vtext := (vtext c D Rg).
Notation M := (M c D Rg).
Hypothesis REG : forall id, Rg id -> regular c D Rg id.
Hypothesis WN : well_named c D Rg.
(** Something else that registering the types keeps. *)
Variable Keep : reg -> Prop.

(** The decoders that may stand at a registered key. *)
Definition tuple_codec (T : string -> Prop) (k : string) (cd : codec) : Prop :=
  exists j ks us, def j = DTuple ks /\ ks <> [] /\ texts T ks us /\ k = to_lower ("Tuple:" ++ join "" us) /\ cd = CStruct (Some (combine (positions 1 us) us)).
Definition codec_ok (T : string -> Prop) (k : string) (cd : codec) : Prop :=
  (forall id n, Rg id -> ~ early id -> named_as id n -> k = to_lower n -> M T id cd) /\ (prefix "tuple:" k = true -> tuple_codec T k cd).
Definition tracked (key : string) : Prop := (exists id, Rg id /\ ~ early id /\ named_as id key) \/ prefix "Tuple:" key = true.
(** A text that is the name of a type is registered. *)
Definition headok (T : string -> Prop) (t : string) : Prop := forall id n, named_as id n -> to_lower t = to_lower n -> T (to_lower n).

Record Inv (T : string -> Prop) (s : sistate) : Prop := {
  i_dup : g_dup s = D;
  i_names : forall id t, assocz id (g_names s) = Some t -> text T id t /\ (Rg id -> headok T t);
  i_named : forall id t n, assocz id (g_names s) = Some t -> Rg id -> ~ early id -> named_as id n -> T (to_lower n);
  i_base : forall k, plain_reserved k -> assoc k (r_types (g_reg s)) = assoc k base_registry /\ assoc k (r_special (g_reg s)) = None;
  i_types : forall k, T k -> exists cd, assoc k (r_types (g_reg s)) = Some cd /\ codec_ok T k cd;
  i_special : forall k l e, assoc k (r_special (g_reg s)) = Some l -> In e l -> codec_ok T k (snd e);
  i_other : Keep (g_reg s);
  i_keys : i_v14 c = true -> forall key, tracked key -> assoc key (r_v14 (g_reg s)) <> None -> T (to_lower key) }.
Definition grows (s s' : sistate) : Prop := forall id t, assocz id (g_names s) = Some t -> exists t', assocz id (g_names s') = Some t'.
Definition ready (s : sistate) : Prop := forall id, Rg id -> early id -> exists t, assocz id (g_names s) = Some t.

Lemma grows_refl s : grows s s.
Proof. intros id t H. now exists t. Qed.
Lemma grows_trans s1 s2 s3 : grows s1 s2 -> grows s2 s3 -> grows s1 s3.
Proof. intros A B id t H. destruct (A id t H) as [t' H']. now apply (B id t'). Qed.
Lemma grows_set s id n : grows s (set_name id n s).
Proof. intros k t H. cbn [set_name g_names assocz]. destruct (k =? id); eauto. Qed.
Lemma grows_names s s' : g_names s' = g_names s -> grows s s'.
Proof. intros E id t H. exists t. now rewrite E. Qed.
Lemma ready_grows s s' : ready s -> grows s s' -> ready s'.
Proof. intros R G id H E. destruct (R id H E) as [t Ht]. now apply (G id t). Qed.
Lemma below_refl T : below T T. Proof. intros k H. exact H. Qed.
Lemma below_trans T1 T2 T3 : below T1 T2 -> below T2 T3 -> below T1 T3. Proof. intros A B k H. now apply B, A. Qed.
Lemma text_up T T' id t : below T T' -> text T id t -> text T' id t. Proof. intros B. now apply text_mono. Qed.
Lemma texts_up T T' id t : below T T' -> texts T id t -> texts T' id t. Proof. intros B. now apply text_mono. Qed.
Lemma headok_up T T' t : below T T' -> headok T t -> headok T' t. Proof. intros B H id n N E. apply B. now apply (H id n). Qed.
Lemma codec_up T T' k cd : below T T' -> codec_ok T k cd -> codec_ok T' k cd.
Proof.
  intros B [H1 H2]. split.
  - intros id n R N A E. apply (M_mono c D Rg T); [exact B|]. now apply (H1 id n).
  - intros P. destruct (H2 P) as (j & ks & us & Q1 & Q2 & Q3 & Q4 & Q5). exists j, ks, us. split; [exact Q1|]. split; [exact Q2|]. split; [now apply (texts_up T)|now split].
Qed.

Lemma set_inv T s id t : Inv T s -> text T id t -> (Rg id -> headok T t) -> (forall n, Rg id -> ~ early id -> named_as id n -> T (to_lower n)) -> Inv T (set_name id t s).
Proof.
  intros I H1 H2 H3. constructor; cbn [set_name g_dup g_names g_reg]; try apply I.
  - intros k u. cbn [assocz]. destruct (k =? id) eqn:E; [|apply I]. intros [= <-]. apply Z.eqb_eq in E as ->. now split.
  - intros k u n. cbn [assocz]. destruct (k =? id) eqn:E; [|apply I]. intros [= <-]. apply Z.eqb_eq in E as ->. auto.
Qed.
Definition usual_in (t : tstruct) : Prop := usual t /\ (t_v14 t = true -> i_v14 c = true).
Lemma reg_inv T key t s s' : Inv T s -> Keep (g_reg s') -> reg_one c key t s = Ok s' -> usual_in t -> ~ has_char "#"%char key -> ~ plain_reserved (to_lower key) ->
  (forall cd, yields key t (r_types (g_reg s)) cd -> codec_ok T (to_lower key) cd) ->
  (tracked key -> exists cd, yields key t (r_types (g_reg s)) cd) ->
  exists T', below T T' /\ Inv T' s' /\ g_names s' = g_names s /\ (tracked key -> T' (to_lower key)).
Proof.
  intros I KP H U N NR OK Y. apply reg_one_cases in H; [|exact (proj1 U)|exact N]. destruct H as (G & GD & H). cbv zeta in H.
  destruct H as [(R & V & V14)|[(cd & C & TY & SP & V)|[(cd & lo & hi & C & TY & V & A & V14 & SP)|(C & TY & SP & V)]]].
  - exists T. split; [apply below_refl|]. split; [|split; [exact G|]].
    + constructor; rewrite ?G, ?GD, ?R; apply I.
    + intros Tr. now apply (i_keys T s I (proj2 U V14)).
  - set (T' := fun k => T k \/ k = to_lower key). assert (B : below T T') by (intros k X; now left). exists T'. split; [exact B|]. split; [|split; [exact G|intros _; now right]].
    constructor; rewrite ?G, ?GD, ?TY, ?SP.
    + apply I.
    + intros id u Hu. destruct (i_names T s I id u Hu) as [Q1 Q2]. split; [now apply (text_up T)|]. intros R. now apply (headok_up T), Q2.
    + intros id u n Hu R E A. left. now apply (i_named T s I id u n).
    + intros k K. rewrite assoc_upd. destruct (String.eqb_spec k (to_lower key)) as [->|]; [contradiction|now apply I].
    + intros k K. rewrite assoc_upd. destruct (String.eqb_spec k (to_lower key)) as [->|NE].
      * exists cd. split; [reflexivity|]. apply (codec_up T); [exact B|now apply OK].
      * destruct K as [K|K]; [|contradiction]. destruct (i_types T s I k K) as (cd' & Q1 & Q2). exists cd'. split; [exact Q1|now apply (codec_up T)].
    + intros k l e K E. apply (codec_up T); [exact B|]. now apply (i_special T s I k l).
    + exact KP.
    + intros VV key' Tr A. destruct (String.eqb_spec key' key) as [->|NE]; [now right|]. left. apply (i_keys T s I VV key' Tr). destruct V as [-> | ->] in A; [exact A|].
      rewrite assoc_upd in A. destruct (String.eqb_spec key' key); [contradiction|exact A].
  - exists T. split; [apply below_refl|]. split; [|split; [exact G|intros Tr; now apply (i_keys T s I (proj2 U V14))]].
    constructor; rewrite ?G, ?GD, ?TY, ?SP, ?V; try apply I; try exact KP.
    + intros k K. split; [now apply I|]. rewrite assoc_upd. destruct (String.eqb_spec k (to_lower key)) as [->|]; [contradiction|now apply I].
    + intros k l e. rewrite assoc_upd. destruct (String.eqb_spec k (to_lower key)) as [->|NE]; [|apply I]. intros [= <-] E.
      destruct (assoc (to_lower key) (r_special (g_reg s))) as [old|] eqn:AO.
      * apply in_app_or in E. destruct E as [E|[<-|[]]]; [now apply (i_special T s I _ old)|now apply OK].
      * destruct E as [<-|[]]. now apply OK.
  - exists T. split; [apply below_refl|]. assert (NT : ~ tracked key) by (intros Tr; destruct (Y Tr) as [cd Q]; now apply (C cd)). split; [|split; [exact G|contradiction]].
    constructor; rewrite ?G, ?GD, ?TY, ?SP; try apply I; try exact KP. intros VV key' Tr A. apply (i_keys T s I VV key' Tr). destruct V as [-> | ->] in A; [exact A|].
    rewrite assoc_upd in A. destruct (String.eqb_spec key' key) as [->|]; [contradiction|exact A].
Qed.

(** ** Separators inside a text *)
Definition sep_at (x : ascii) (j : Z) : Prop :=
  (x = ";"%char /\ exists m e, def j = DArray m e) \/ (x = ","%char /\ exists vs, def j = DVariant vs /\ res_path port j).
Lemma no_sep x s : x = ";"%char \/ x = ","%char -> existsb (fun a => Ascii.eqb ";"%char a || Ascii.eqb ","%char a) (s2b s) = false -> ~ has_char x s.
Proof.
  intros X H I. assert (existsb (fun a => Ascii.eqb ";"%char a || Ascii.eqb ","%char a) (s2b s) = true); [|congruence]. apply existsb_exists. exists x. split; [exact I|].
  now destruct X as [-> | ->].
Qed.
Lemma text_sep x T : x = ";"%char \/ x = ","%char ->
  (forall id t, text T id t -> Rg id -> has_char x t -> exists j, reach port id j /\ sep_at x j)
  /\ (forall ks ts, texts T ks ts -> Forall Rg ks -> has_char x (join "" ts) -> exists k, In k ks /\ exists j, reach port k j /\ sep_at x j).
Proof.
  intros X. assert (LIT : forall s, existsb (fun a => Ascii.eqb ";"%char a || Ascii.eqb ","%char a) (s2b s) = false -> ~ has_char x s) by (intros; now apply no_sep).
  assert (W : wrapper_char x = false) by (destruct X as [-> | ->]; reflexivity).
  assert (NC : ~ name_char x) by (destruct X as [-> | ->]; not_name).
  assert (NN : forall id n, named_as id n -> ~ has_char x n).
  { intros id n H. destruct (wn_name _ _ _ WN id n H) as ((N & _) & _). now apply name_no. }
  assert (LOW : forall s l, In (to_lower s) l -> forallb (fun s => negb (existsb (fun a => Ascii.eqb ";"%char a || Ascii.eqb ","%char a) (s2b s))) l = true -> ~ has_char x s).
  { intros s l I F H. rewrite forallb_forall in F. specialize (F _ I). apply negb_true_iff in F. apply (LIT _ F). now apply (proj2 (lower_has x s W)). }
  assert (ST : forall id k, (exists j, reach port k j /\ sep_at x j) -> _ -> exists j, reach port id j /\ sep_at x j) by (intros id k (j & R & S0) H; exists j; split; [apply rc_step with (k := k); [exact H|exact R]|exact S0]).
  apply (text_mutind c D Rg T (fun id t => Rg id -> has_char x t -> exists j, reach port id j /\ sep_at x j)
    (fun ks ts => Forall Rg ks -> has_char x (join "" ts) -> exists k, In k ks /\ exists j, reach port k j /\ sep_at x j)).
  - intros id n E R H. exfalso. revert H. apply (LOW n prim_names); [now apply (rg_prim c D Rg REG id)|reflexivity].
  - intros id n P L R H. exfalso. revert H. destruct (rg_prims c D Rg REG id R P) as (f & h & m & e & _ & L' & I & _). rewrite L in L'. injection L' as <-.
    apply (LOW n (map fst hashes)); [apply in_map_iff; now exists (to_lower n, m)|reflexivity].
  - intros id N R. contradiction.
  - intros id N R. destruct (REG id R) as (OV & _). contradiction.
  - intros id n Hn N R H. exfalso. now apply (NN id n).
  - intros id A R H. exfalso. revert H. now apply LIT.
  - intros id f t E N H IH R X1. specialize (N R). destruct (rg_new c D Rg REG id f R E N) as [Rf _]. apply (ST id (f_type f)); [now apply IH|]. right. right. right. right. left. now exists f.
  - intros id fs k t E W1 _ _ R. pose proof (REG id R) as (_ & _ & Q). rewrite E in Q. destruct Q as (W' & _). congruence.
  - intros id n k t E N H IH R X1. destruct (rg_arr c D Rg REG id n k R E) as [Rk B]. unfold array_text in X1. rewrite !has_char_app in X1.
    destruct X1 as [X1|[X1|[X1|[X1|X1]]]].
    + exfalso. revert X1. now apply LIT.
    + apply (ST id k); [now apply IH|]. right. left. now exists n.
    + exists id. split; [constructor|]. left. split; [|now exists n, k]. destruct X as [X|X]; [exact X|]. exfalso. subst x. cbn in X1. decompose [or] X1; (discriminate || contradiction).
    + exfalso. destruct (digits_chars n (proj1 B)) as (F & _). rewrite Forall_forall in F. now apply NC, F.
    + exfalso. revert X1. now apply LIT.
  - intros id k E R H. exfalso. revert H. now apply LIT.
  - intros id k t E H IH R X1. pose proof (rg_seq c D Rg REG id k R E) as Rk. rewrite !has_char_app in X1. destruct X1 as [X1|[X1|X1]]; [exfalso; revert X1; now apply LIT| |exfalso; revert X1; now apply LIT].
    apply (ST id k); [now apply IH|]. now left.
  - intros id k t E H IH U R X1. exfalso. revert X1. now apply LIT.
  - intros id ks ts E NE H IH HT R X1. rewrite has_char_app in X1. destruct X1 as [X1|X1]; [exfalso; revert X1; now apply LIT|].
    destruct (IH (rg_tuple c D Rg REG id ks R E) X1) as (k & I & J). apply (ST id k); [exact J|]. right. right. right. left. now exists ks.
  - intros id E R X1. exfalso. revert X1. now apply LIT.
  - intros id k t E H IH R X1. destruct (rg_compact c D Rg REG id k R E) as [Rk _]. rewrite !has_char_app in X1. destruct X1 as [X1|[X1|X1]]; [exfalso; revert X1; now apply LIT| |exfalso; revert X1; now apply LIT].
    apply (ST id k); [now apply IH|]. right. right. now left.
  - intros id E R X1. exfalso. revert X1. now apply LIT.
  - intros id E R []. 
  - intros id N _ _ R. contradiction.
  - intros id vs n k r t E O P H IH R X1. destruct (rg_option c D Rg REG id vs R E O) as (n' & k' & r' & P' & Rk & _). rewrite P in P'. injection P' as <- <- <-.
    rewrite !has_char_app in X1. destruct X1 as [X1|[X1|X1]]; [exfalso; revert X1; now apply LIT| |exfalso; revert X1; now apply LIT].
    apply (ST id k); [now apply IH|]. right. right. right. right. right. exists vs, n. split; [exact E|]. split; [now left|]. rewrite P. now left.
  - intros id vs n a m b r t u E O P Ha IHa Hb IHb R X1. destruct (rg_result c D Rg REG id vs R E O) as (n' & a' & m' & b' & r' & P' & Ra & Rb & _). rewrite P in P'. injection P' as <- <- <- <- <-.
    rewrite !has_char_app in X1. destruct X1 as [X1|[[X1|[X1|X1]]|X1]]; [exfalso; revert X1; now apply LIT| | | |exfalso; revert X1; now apply LIT].
    + apply (ST id a); [now apply IHa|]. right. right. right. right. right. exists vs, n. split; [exact E|]. split; [now right|]. rewrite P. now left.
    + exists id. split; [constructor|]. right. split; [|now exists vs]. destruct X as [X|X]; [|exact X]. exfalso. subst x. cbn in X1. decompose [or] X1; (discriminate || contradiction).
    + apply (ST id b); [now apply IHb|]. right. right. right. right. right. exists vs, m. split; [exact E|]. split; [now right|]. rewrite P. right. now left.
  - intros id vs E O C R. pose proof (rg_enum c D Rg REG id vs R E O) as (_ & C1 & C2 & _). exfalso. destruct C; congruence.
  - intros _ [].
  - intros k ks t ts H IH1 Hs IH2 F X1. inversion F; subst. rewrite join_app, has_char_app in X1. destruct X1 as [X1|X1]; [exists k; split; [now left|now apply IH1]|].
    destruct (IH2 H3 X1) as (k' & I & J). exists k'. split; [now right|exact J].
Qed.
Lemma ftext_sep x T id t : x = ";"%char \/ x = ","%char -> ftext T id t -> Rg id -> has_char x t -> exists j, reach port id j /\ sep_at x j.
Proof.
  intros X (t0 & H & E) R Hx. apply (proj1 (text_sep x T X) id t0 H R). assert (W : wrapper_char x = false) by (destruct X as [-> | ->]; reflexivity).
  apply (proj1 (lower_has x t0 W)). rewrite E. now apply lower_has.
Qed.

(** ** Names of one-field structs *)
Lemma shape_generic w a : In (to_lower w) wraps -> a <> "" -> shape_codec (w ++ "<" ++ a ++ ">") =
  if String.eqb (to_lower w) "vec" then Some (CVec a) else if String.eqb (to_lower w) "option" then Some (COption a) else if String.eqb (to_lower w) "compact" then Some (CCompact a) else None.
Proof.
  intros W NE. pose proof (wraps_wrapper w W) as W'. destruct (wrapper_shape w W') as (WNE & _ & _). unfold shape_codec.
  assert (FC : exists z, first_char (w ++ "<" ++ a ++ ">") = Some z /\ wrapper_char z = true).
  { pose proof (wrapper_alpha w W') as AL. destruct w as [|z w]; [contradiction|]. exists z. split; [reflexivity|]. cbn [s2b list_ascii_of_string forallb] in AL. now apply andb_true_iff in AL. }
  destruct FC as (z & -> & AZ). rewrite last_generic. cbn [Ascii.eqb Bool.eqb]. rewrite generic_at; [|now apply wrapper_no_lt|exact NE].
  assert (EV : forall l, equal_fold w l = String.eqb (to_lower w) (to_lower l)) by reflexivity. rewrite !EV. unfold wraps in W. cbn [In] in W.
  destruct W as [W|[W|[W|[W|[]]]]]; rewrite <- W; try reflexivity.
  repeat match goal with |- context [String.eqb ?p (to_lower ?q)] => let v := eval vm_compute in (String.eqb p (to_lower q)) in change (String.eqb p (to_lower q)) with v end. cbv iota.
  rewrite andb_false_r. assert (Ascii.eqb z "["%char = false) by (apply Ascii.eqb_neq; intros ->; discriminate). rewrite H, andb_false_r. reflexivity.
Qed.
Lemma shape_array a n : good a -> ~ has_char ";"%char a -> 0 <= n < 2 ^ 63 -> shape_codec (array_text a n) = Some (CFixedArray n a).
Proof.
  intros G NS Hn. unfold shape_codec. set (t := array_text a n).
  assert (LA : last_char t = Some "]"%char).
  { unfold t, array_text. replace ("[" ++ a ++ "; " ++ itoa n ++ "]") with (("[" ++ a ++ "; " ++ itoa n) ++ "]") by (rewrite !app_assoc_s; reflexivity). apply last_app. }
  rewrite LA. change (first_char t) with (Some "["%char). cbv iota. change (Ascii.eqb "]"%char ">"%char) with false. cbv iota zeta.
  change (Ascii.eqb "["%char "("%char) with false. rewrite andb_false_r. cbn [andb]. cbn [Ascii.eqb Bool.eqb andb].
  replace (negb (String.eqb t "[]")) with true.
  2:{ symmetry. apply negb_true_iff, String.eqb_neq. unfold t, array_text. destruct (good_first a G) as (c0 & c1 & r0 & -> & _). cbn. discriminate. }
  cbn [andb]. assert (SP : split_char ";"%char (strip_ends t) = [a; " " ++ itoa n]).
  { unfold t, array_text. replace ("[" ++ a ++ "; " ++ itoa n ++ "]") with ("[" ++ (a ++ ";" ++ (" " ++ itoa n)) ++ "]") by (cbn [String.append]; rewrite !app_assoc_s; reflexivity).
    rewrite strip_array. cbn [String.append]. rewrite split_at by exact NS. f_equal. apply split_absent. rewrite has_char_cons. intros [X|X]; [discriminate|].
    exact (proj1 (digits_no_semi n (proj1 Hn)) X). }
  rewrite SP. rewrite trim_digits, StringToInt_itoa, good_trim by (assumption || lia). reflexivity.
Qed.
Lemma alias_found T s id f name n : Inv T s -> Rg id -> def id = DComposite [f] -> ~ early id -> named_as id name -> text T (f_type f) n -> headok T n ->
  exists cd, alias_codec name n (r_types (g_reg s)) = Some cd /\ M T id cd.
Proof.
  intros I R E N Hname Hn HO. destruct (rg_new c D Rg REG id f R E N) as [Rf NO]. set (types := r_types (g_reg s)).
  assert (L : forall cd, M T (f_type f) cd -> M T id cd) by (intros; now apply m_new with (f := f)).
  destruct (ftext_shape c D Rg REG WN T (f_type f) n Rf (text_ftext c D Rg T _ _ Hn)) as [SH NI]. destruct (wn_name _ _ _ WN id name Hname) as ((NK & _) & _).
  assert (BASE : forall k, plain_reserved k -> assoc k types = assoc k base_registry) by (intros k K; now apply (i_base T s I)).
  unfold alias_codec. destruct SH as [cd A H|k m Hm Hk Ne El H|w a -> W G V O C Rs|a m -> G B A U (k & e & Q1 & Q2 & Q3 & Re)|P1 P2 H].
  - exists cd. rewrite nice_no_vec; [|exact NI|]. 2:{ intros X. apply (lower_has "<"%char) in X; [|reflexivity]. clear - A X. unfold atoms, prim_codecs, hash_codecs in A. cbn [app In] in A.
      repeat (destruct A as [A|A]; [injection A as A _; rewrite <- A in X; cbn in X; decompose [or] X; (contradiction || discriminate)|]). contradiction. }
    rewrite BASE by (apply (atom_reserved _ _ A)). rewrite (base_atom _ _ A). split; [reflexivity|now apply L].
  - assert (TM : T (to_lower m)) by now apply (HO k m). destruct (i_types T s I _ TM) as (cd & AS & [OK _]). exists cd. rewrite nice_no_vec; [|exact NI|].
    2:{ intros X. apply (lower_has "<"%char) in X; [|reflexivity]. rewrite El in X. revert X. destruct (wn_name _ _ _ WN k m Hm) as ((NM & _) & _). apply name_lower_no; [exact NM|not_name]. }
    rewrite El. fold types in AS. rewrite AS. split; [reflexivity|]. apply L, H; [apply below_refl|]. now apply (OK k m).
  - assert (NKEY : String.eqb (w ++ "<" ++ a ++ ">") name = false).
    { apply String.eqb_neq. intros <-. revert NK. intros NK. apply (name_no "<"%char _ NK); [not_name|]. apply has_char_app. right. now left. }
    rewrite nice_convert by exact NI. destruct (equal_fold (w ++ "<" ++ a ++ ">") "Vec<u8>") eqn:VU.
    + exists CBytes. rewrite BASE by (apply (atom_reserved "bytes" CBytes); unfold atoms; cbn; tauto). split; [reflexivity|]. apply L.
      unfold equal_fold in VU. apply String.eqb_eq in VU. apply (generic_fold _ "Vec" "u8") in VU. destruct VU as (w' & a' & Q & Qw & Qa).
      assert (GP : generic_parts (w ++ "<" ++ a ++ ">") = Some (w, a)) by (apply generic_at; [apply wrapper_no_lt; now apply wraps_wrapper|apply good_nonempty, G]).
      assert (NE' : a' <> "") by (intros ->; discriminate). assert (W' : In (to_lower w') wraps) by (rewrite Qw; cbn; tauto).
      rewrite Q, generic_at in GP; [|apply wrapper_no_lt; now apply wraps_wrapper|exact NE']. injection GP as -> ->. now apply V.
    + rewrite NKEY, BASE by (apply (gen_reserved w (a ++ ">") W)). rewrite base_generic by (assumption || apply G).
      rewrite shape_generic; [|exact W|apply good_nonempty, G]. pose proof W as W2. unfold wraps in W2. cbn [In] in W2. destruct W2 as [W2|[W2|[W2|[W2|[]]]]]; rewrite <- W2; symmetry in W2.
      * cbn [String.eqb Ascii.eqb Bool.eqb]. eexists. split; [reflexivity|]. apply L, (V W2). intros X. unfold equal_fold in VU. apply String.eqb_neq in VU. apply VU. rewrite !to_lower_app', W2, X. reflexivity.
      * cbn [String.eqb Ascii.eqb Bool.eqb]. eexists. split; [reflexivity|]. apply L, (O W2).
      * destruct (C W2) as (NM & C1 & C2). cbn [String.eqb Ascii.eqb Bool.eqb]. destruct (String.eqb_spec (to_lower a) "u32") as [Qu|]; [exists CCompactU32; split; [reflexivity|apply L; now apply C2]|].
        destruct (String.eqb_spec (to_lower a) "moment"); [contradiction|]. eexists. split; [reflexivity|]. now apply L.
      * exfalso. destruct (Rs W2) as (_ & k & vs & U1 & U2 & U3). destruct (proj2 NO k U1) as [X _]. apply X. split; [exact U2|now exists vs].
  - assert (NKEY : String.eqb (array_text a m) name = false).
    { apply String.eqb_neq. intros <-. revert NK. intros NK. apply (name_no "["%char _ NK); [not_name|]. now left. }
    rewrite nice_convert by exact NI. replace (equal_fold (array_text a m) "Vec<u8>") with false by (symmetry; unfold equal_fold; apply String.eqb_neq; unfold array_text, to_lower; cbn; discriminate).
    rewrite NKEY, BASE by apply arr_reserved. destruct (assoc (to_lower (array_text a m)) base_registry) as [cd|] eqn:F.
    + exists cd. split; [reflexivity|]. apply L. apply (base_array c D Rg REG) in F; [|apply G|exact B]. destruct F as [[Q ->]| ->]; [now apply U|apply A; apply to_lower_idem].
    + rewrite shape_array; [eexists; split; [reflexivity|]; apply L; now apply A|apply G| |lia]. intros X.
      destruct (ftext_sep ";"%char T e a (or_introl eq_refl) Q3 Re X) as (j & RJ & [[_ (m' & e' & DJ)]|[X' _]]); [|discriminate].
      destruct (proj2 NO k Q1) as [_ Y]. now apply (Y m e Q2 j m' e').
  - destruct (i_types T s I _ P1) as (cd & AS & [_ OK]). destruct (OK P2) as (j & ks & us & Ej & NE & Hj & Q & ->). eexists. rewrite nice_convert by exact NI.
    replace (equal_fold n "Vec<u8>") with false by (symmetry; unfold equal_fold; apply String.eqb_neq; rewrite Q; discriminate). fold types in AS. rewrite AS. split; [reflexivity|].
    apply L. now apply (H T j ks us (below_refl T)).
Qed.

(** ** dealOneSiType *)
Lemma text_key_nohash T id t : text T id t -> ~ has_char "#"%char t.
Proof. intros H. now apply (proj1 (text_nohash c D Rg WN T) id). Qed.
Lemma name_unreserved id n : named_as id n -> ~ plain_reserved (to_lower n).
Proof. intros H [R _]. now destruct (wn_name _ _ _ WN id n H) as (_ & _ & NR & _). Qed.
Lemma name_not_tuple id n : named_as id n -> prefix "tuple:" (to_lower n) = false.
Proof.
  intros H. destruct (prefix "tuple:" (to_lower n)) eqn:P; [exfalso|reflexivity]. destruct (wn_name _ _ _ WN id n H) as (_ & _ & NR & _). apply NR. right. exists "tuple:". split; [cbn; tauto|exact P].
Qed.
Lemma tuple_prefix key : prefix "Tuple:" key = true -> prefix "tuple:" (to_lower key) = true.
Proof. intros P. now apply prefix_lower in P. Qed.
(** The key of a type that is not covered. *)
Lemma codec_name T id n cd : named_as id n -> (Rg id -> ~ early id -> M T id cd) -> codec_ok T (to_lower n) cd.
Proof.
  intros H K. split.
  - intros j m R N Hm Q. pose proof (wn_distinct _ _ _ WN id j n m H Hm Q) as <-. now apply K.
  - intros P. rewrite (name_not_tuple id n H) in P. discriminate.
Qed.
Lemma tracked_name id n : named_as id n -> tracked n -> Rg id /\ ~ early id.
Proof.
  intros H [(j & R & N & Hj)|P]; [|apply tuple_prefix in P; rewrite (name_not_tuple id n H) in P; discriminate].
  pose proof (wn_distinct _ _ _ WN id j n n H Hj eq_refl) as <-. now split.
Qed.
Definition foreign (key : string) : Prop :=
  key = "" \/ In (to_lower key) ["extrinsicsignature"; "extrinsicsigner"] \/ prefix "primitive_types:" (to_lower key) = true.
Lemma foreign_no key : foreign key -> ~ tracked key /\ ~ plain_reserved (to_lower key) /\ forall T cd, codec_ok T (to_lower key) cd.
Proof.
  intros F.
  assert (NR : forall p, In p reserved_starts -> prefix p (to_lower key) = false).
  { intros p Hp. unfold foreign in F. cbn [In] in F. destruct F as [->|[[F|[F|[]]]|F]].
    - unfold reserved_starts in Hp. cbn [In] in Hp. decompose [or] Hp; subst; (reflexivity || contradiction).
    - rewrite <- F. unfold reserved_starts in Hp. cbn [In] in Hp. decompose [or] Hp; subst; (reflexivity || contradiction).
    - rewrite <- F. unfold reserved_starts in Hp. cbn [In] in Hp. decompose [or] Hp; subst; (reflexivity || contradiction).
    - destruct (to_lower key) as [|a [|b r]]; [discriminate|destruct a as [[] [] [] [] [] [] [] []]; discriminate|]. cbn [prefix] in F. destruct (Ascii.eqb_spec "p"%char a) as [<-|]; [|discriminate].
      unfold reserved_starts in Hp. cbn [In] in Hp. decompose [or] Hp; subst; (reflexivity || contradiction). }
  assert (NN : forall id n, Rg id -> ~ early id -> named_as id n -> to_lower key = to_lower n -> False).
  { intros id n R N H Q. destruct (name_regular_of c D Rg REG id n R N H) as (m & [Hm _] & _ & P1 & P2). destruct H as [H HN]. rewrite H in Hm. injection Hm as <-. rewrite <- Q in P1, P2.
    destruct F as [->|[F|F]]; [destruct n; [contradiction|discriminate]|contradiction|congruence]. }
  assert (NT : prefix "tuple:" (to_lower key) = false) by (apply NR; cbn; tauto).
  split; [|split].
  - intros [(id & R & N & H)|P]; [now apply (NN id key)|]. apply tuple_prefix in P. congruence.
  - intros [[I|(p & Hp & P)] _]; [|rewrite NR in P by exact Hp; discriminate]. unfold foreign in F. cbn [In] in F. destruct F as [->|[[F|[F|[]]]|F]].
    + cbn in I. decompose [or] I; (discriminate || contradiction).
    + rewrite <- F in I. cbn in I. decompose [or] I; (discriminate || contradiction).
    + rewrite <- F in I. cbn in I. decompose [or] I; (discriminate || contradiction).
    + unfold reserved_names, prim_names in I. cbn [app In] in I. decompose [or] I; try contradiction; match goal with Q : _ = to_lower key |- _ => rewrite <- Q in F; discriminate end.
  - intros T cd. split; [intros; exfalso; now apply (NN id n)|congruence].
Qed.
Lemma name_cases id : forall n, nameSiType c D (port_get port id) id = Ok n -> n = "" \/ named_as id n.
Proof. intros n H. destruct (String.eqb_spec n "") as [->|N]; [now left|right; now split]. Qed.

Hypothesis KEEP_NAME : forall id n t s s', nameSiType c D (port_get port id) id = Ok n -> reg_one c n t s = Ok s' -> usual_in t -> Keep (g_reg s) -> Keep (g_reg s').
Hypothesis KEEP_FOREIGN : forall key t s s', foreign key -> ~ has_char "#"%char key -> reg_one c key t s = Ok s' -> usual_in t -> Keep (g_reg s) -> Keep (g_reg s').
Hypothesis KEEP_TUPLE : forall T id ks ns s s', def id = DTuple ks -> ks <> [] -> texts T ks ns ->
  reg_one c ("Tuple:" ++ join "" ns) (TStruct "struct" "" (tuple_rows 1 ns) [] 0 (i_v14 c) (i_spec c)) s = Ok s' -> Keep (g_reg s) -> Keep (g_reg s').
Ltac usual := split; [unfold usual; cbn; tauto|cbn; intros; (assumption || discriminate)].
(** Registering the declaration of type [id] under its name. *)
Lemma reg_name T id n t s s' : Inv T s -> nameSiType c D (port_get port id) id = Ok n -> reg_one c n t s = Ok s' -> usual_in t ->
  (Rg id -> ~ early id -> named_as id n -> (forall cd, yields n t (r_types (g_reg s)) cd -> M T id cd) /\ exists cd, yields n t (r_types (g_reg s)) cd) ->
  exists T', below T T' /\ Inv T' s' /\ g_names s' = g_names s /\ (Rg id -> ~ early id -> named_as id n -> T' (to_lower n)).
Proof.
  intros I H Hr U K. destruct (name_cases id n H) as [-> |Hn].
  - destruct (foreign_no "" (or_introl eq_refl)) as (F1 & F2 & F3). assert (KP : Keep (g_reg s')) by (eapply KEEP_NAME; [exact H|exact Hr|exact U|exact (i_other _ _ I)]).
    destruct (reg_inv T "" t s s' I KP Hr U) as (T' & B & I' & G & _); [intros []|exact F2|intros; apply F3|contradiction|].
    exists T'. split; [exact B|]. split; [exact I'|]. split; [exact G|]. intros _ _ [_ X]. contradiction.
  - assert (KP : Keep (g_reg s')) by (eapply KEEP_NAME; [exact H|exact Hr|exact U|exact (i_other _ _ I)]).
    destruct (reg_inv T n t s s' I KP Hr U) as (T' & B & I' & G & TR).
    + now apply (name_nohash c D Rg WN id).
    + now apply (name_unreserved id).
    + intros cd Y. apply (codec_name T id n); [exact Hn|]. intros R N. now apply (K R N Hn).
    + intros Tr. destruct (tracked_name id n Hn Tr) as [R N]. now apply K.
    + exists T'. split; [exact B|]. split; [exact I'|]. split; [exact G|]. intros R N _. apply TR. left. now exists id.
Qed.
Lemma reg_foreign T key t s s' : Inv T s -> foreign key -> ~ has_char "#"%char key -> reg_one c key t s = Ok s' -> usual_in t ->
  exists T', below T T' /\ Inv T' s' /\ g_names s' = g_names s.
Proof.
  intros I F N H U. destruct (foreign_no key F) as (F1 & F2 & F3). assert (KP : Keep (g_reg s')) by (eapply KEEP_FOREIGN; [exact F|exact N|exact H|exact U|exact (i_other _ _ I)]).
  destruct (reg_inv T key t s s' I KP H U N F2) as (T' & B & I' & G & _); [intros; apply F3|contradiction|].
  now exists T'.
Qed.
Lemma named_headok (T : string -> Prop) n id : named_as id n -> T (to_lower n) -> headok T n.
Proof. intros H K j m Hm Q. now rewrite <- Q. Qed.
Lemma char_headok T x t : has_char x t -> wrapper_char x = false -> ~ name_char x -> headok T t.
Proof.
  intros H W NC id n Hn Q. exfalso. destruct (wn_name _ _ _ WN id n Hn) as ((N & _) & _). apply (name_lower_no x n N NC). rewrite <- Q. now apply lower_has.
Qed.
Lemma reserved_headok T t : In (to_lower t) reserved_names -> headok T t.
Proof. intros H id n Hn Q. exfalso. destruct (wn_name _ _ _ WN id n Hn) as (_ & _ & NR & _). apply NR. left. now rewrite <- Q. Qed.
Lemma tuple_headok T x : headok T ("Tuple:" ++ x).
Proof.
  intros id n Hn Q. exfalso. pose proof (name_not_tuple id n Hn) as P. rewrite <- Q, to_lower_app' in P. change (to_lower "Tuple:") with "tuple:" in P. now rewrite prefix_app_s in P.
Qed.

Definition Deals (deal : Z -> sitype -> bool -> sistate -> res (string * sistate)) : Prop :=
  forall id b s n s' T, deal id (port_get port id) b s = Ok (n, s') -> Inv T s -> ready s -> (Rg id -> ~ prim_like c id) -> (b = true -> Rg id -> ~ early id) ->
  exists T', below T T' /\ Inv T' s' /\ grows s s' /\ text T' id n /\ (b = false -> Rg id -> headok T' n /\ exists t, assocz id (g_names s') = Some t).

Section Step.
Variable deal : Z -> sitype -> bool -> sistate -> res (string * sistate).
Hypothesis DEAL : Deals deal.

Lemma unnamed_late s k : ready s -> assocz k (g_names s) = None -> Rg k -> ~ early k.
Proof. intros RD A R E. destruct (RD k R E) as [t H]. congruence. Qed.
Lemma late_not_prim k : ~ early k -> ~ prim_like c k.
Proof. intros N P. apply N. now left. Qed.
Lemma sub_name_ok T k s n s' : sub_name c deal k s = Ok (n, s') -> Inv T s -> ready s -> exists T', below T T' /\ Inv T' s' /\ grows s s' /\ text T' k n.
Proof.
  unfold sub_name. intros H I RD. destruct (assocz k (g_names s)) as [t|] eqn:A.
  - injection H as <- <-. exists T. split; [apply below_refl|]. split; [exact I|]. split; [apply grows_refl|]. now apply (i_names T s I).
  - destruct (DEAL k true s n s' T H I RD) as (T' & B & I' & G & X & _); [intros R; now apply late_not_prim, (unnamed_late s)|intros _; now apply (unnamed_late s)|].
    now exists T'.
Qed.
Lemma sub_names_ok ks : forall T s ns s', sub_names c deal ks s = Ok (ns, s') -> Inv T s -> ready s -> exists T', below T T' /\ Inv T' s' /\ grows s s' /\ texts T' ks ns.
Proof.
  induction ks as [|k ks IH]; intros T s ns s' H I RD; cbn [sub_names] in H.
  - injection H as <- <-. exists T. split; [apply below_refl|]. split; [exact I|]. split; [apply grows_refl|constructor].
  - apply bind_ok2 in H. destruct H as (n & s1 & H1 & H). apply bind_ok2 in H. destruct H as (l & s2 & H2 & H). injection H as <- <-.
    destruct (sub_name_ok T k s n s1 H1 I RD) as (T1 & B1 & I1 & G1 & X1). destruct (IH T1 s1 l s2 H2 I1 (ready_grows _ _ RD G1)) as (T2 & B2 & I2 & G2 & X2).
    exists T2. split; [now apply (below_trans T T1)|]. split; [exact I2|]. split; [now apply (grows_trans s s1)|]. constructor; [now apply (text_up T1)|exact X2].
Qed.
Lemma variant_type_ok T v s tn s' : variant_type c deal v s = Ok (tn, s') -> Inv T s -> ready s -> exists T', below T T' /\ Inv T' s' /\ grows s s' /\ vtext T' v tn.
Proof.
  unfold variant_type, ProofsPortText.vtext. intros H I RD. destruct (v_fields v) as [|f [|g fs]].
  - injection H as <- <-. exists T. split; [apply below_refl|]. split; [exact I|]. split; [apply grows_refl|reflexivity].
  - destruct (sub_name_ok T _ s tn s' H I RD) as (T1 & B1 & I1 & G1 & X1). exists T1. split; [exact B1|]. split; [exact I1|]. split; [exact G1|now apply text_ftext].
  - apply bind_ok2 in H. destruct H as (ns & s1 & H & [= <- <-]). destruct (sub_names_ok _ T s ns s1 H I RD) as (T1 & B1 & I1 & G1 & X1).
    exists T1. split; [exact B1|]. split; [exact I1|]. split; [exact G1|]. exists ns. split; [now apply texts_ftexts|reflexivity].
Qed.
Lemma variant_types_ok vs : forall T s vts s', variant_types c deal vs s = Ok (vts, s') -> Inv T s -> ready s ->
  exists T', below T T' /\ Inv T' s' /\ grows s s' /\ map fst vts = vs /\ Forall (fun p => vtext T' (fst p) (snd p)) vts.
Proof.
  induction vs as [|v vs IH]; intros T s vts s' H I RD; cbn [variant_types] in H.
  - injection H as <- <-. exists T. split; [apply below_refl|]. split; [exact I|]. split; [apply grows_refl|]. split; [reflexivity|constructor].
  - apply bind_ok2 in H. destruct H as (n & s1 & H1 & H). apply bind_ok2 in H. destruct H as (l & s2 & H2 & H). injection H as <- <-.
    destruct (variant_type_ok T v s n s1 H1 I RD) as (T1 & B1 & I1 & G1 & X1). destruct (IH T1 s1 l s2 H2 I1 (ready_grows _ _ RD G1)) as (T2 & B2 & I2 & G2 & Q & X2).
    exists T2. split; [now apply (below_trans T T1)|]. split; [exact I2|]. split; [now apply (grows_trans s s1)|]. split; [cbn; now rewrite Q|]. constructor; [cbn; now apply (vtext_mono c D Rg T1)|exact X2].
Qed.
Lemma names_set s id n : assocz id (g_names (set_name id n s)) = Some n.
Proof. cbn. now rewrite Z.eqb_refl. Qed.

(** The common end: the text is stored. *)
Definition Post (T : string -> Prop) (s : sistate) (id : Z) (n : string) (s' : sistate) : Prop :=
  exists T', below T T' /\ Inv T' s' /\ grows s s' /\ text T' id n /\ (Rg id -> headok T' n /\ exists t, assocz id (g_names s') = Some t).
Lemma finish T T' s s1 id n : below T T' -> Inv T' s1 -> grows s s1 -> text T' id n -> (Rg id -> headok T' n) -> (forall m, Rg id -> ~ early id -> named_as id m -> T' (to_lower m)) ->
  Post T s id n (set_name id n s1).
Proof.
  intros B I G X H1 H2. exists T'. split; [exact B|]. split; [now apply set_inv|]. split; [apply (grows_trans s s1); [exact G|apply grows_set]|]. split; [exact X|].
  intros R. split; [now apply H1|]. exists n. apply names_set.
Qed.
Lemma unnamed id : (forall fs, def id <> DComposite fs) -> (forall vs, def id <> DVariant vs) -> forall m, ~ named_as id m.
Proof. intros A B m H. destruct (named_def c D id m H) as [(fs & E)|(vs & E & _)]; [now apply (A fs)|now apply (B vs)]. Qed.
Lemma array_ok T id len k s n s' : def id = DArray len k -> expandArray c deal id len k s = Ok (n, s') -> Inv T s -> ready s -> Post T s id n s'.
Proof.
  intros E H I RD. unfold expandArray in H. assert (U : forall m, ~ named_as id m) by (apply unnamed; intros; congruence). destruct (Z.eqb_spec len 0) as [->|N].
  - injection H as <- <-. apply (finish T T); [apply below_refl|exact I|apply grows_refl|now apply tx_array0 with (k := k)|intros _; apply reserved_headok; cbn; tauto|].
    intros m _ _ X. now apply U in X.
  - apply bind_ok2 in H. destruct H as (t & s1 & H & [= <- <-]). destruct (sub_name_ok T k s t s1 H I RD) as (T1 & B & I1 & G & X).
    apply (finish T T1); [exact B|exact I1|exact G|now apply (tx_array c D Rg T1 id len k t)| |intros m _ _ Y; now apply U in Y].
    intros _. apply (char_headok T1 "["%char); [now left|reflexivity|not_name].
Qed.
Lemma gen_headok T w a : headok T (w ++ "<" ++ a ++ ">").
Proof. apply (char_headok T "<"%char); [apply has_char_app; right; now left|reflexivity|not_name]. Qed.
Lemma one_ok w T id k s n s' : expandOne c deal w id k s = Ok (n, s') -> Inv T s -> ready s -> (forall m, ~ named_as id m) ->
  (forall T' t, text T' k t -> text T' id (w ++ "<" ++ t ++ ">")) -> Post T s id n s'.
Proof.
  intros H I RD U K. unfold expandOne in H. apply bind_ok2 in H. destruct H as (t & s1 & H & [= <- <-]). destruct (sub_name_ok T k s t s1 H I RD) as (T1 & B & I1 & G & X).
  apply (finish T T1); [exact B|exact I1|exact G|now apply K|intros _; apply gen_headok|intros m _ _ Y; now apply U in Y].
Qed.
Lemma result_ok T id s n s' : expandResult c deal id (port_get port id) s = Ok (n, s') -> Inv T s -> ready s -> (exists vs, def id = DVariant vs) -> res_path port id -> Post T s id n s'.
Proof.
  intros H I RD (vs & E) O. unfold expandResult in H. change (s_params (port_get port id)) with (params_of port id) in H.
  destruct (params_of port id) as [|(pn & a) [|(pm & b) r]] eqn:P; try discriminate.
  apply bind_ok2 in H. destruct H as (t & s1 & H1 & H). apply bind_ok2 in H. destruct H as (u & s2 & H2 & [= <- <-]).
  destruct (sub_name_ok T a s t s1 H1 I RD) as (T1 & B1 & I1 & G1 & X1). destruct (sub_name_ok T1 b s1 u s2 H2 I1 (ready_grows _ _ RD G1)) as (T2 & B2 & I2 & G2 & X2).
  match goal with |- Post _ _ _ ?x _ => replace x with ("Result<" ++ (t ++ "," ++ u) ++ ">") by (cbn [String.append]; rewrite app_assoc_s; reflexivity) end.
  apply (finish T T2); [now apply (below_trans T T1)|exact I2|now apply (grows_trans s s1)| | |].
  - apply (tx_result c D Rg T2 id vs pn a pm b r t u E O P); [now apply (text_up T1)|exact X2].
  - intros _. apply (gen_headok T2 "Result").
  - intros m _ _ Y. exfalso. destruct (named_def c D id m Y) as [(fs & E')|(ws & _ & O')]; [congruence|now apply (not_both2 c id)].
Qed.
Lemma tuple_rows_map ns : forall k, mapping_rows (tuple_rows k ns) = Ok (combine (positions k ns) ns).
Proof. induction ns as [|n ns IH]; intros k; [reflexivity|]. cbn [tuple_rows mapping_rows]. now rewrite IH. Qed.
Lemma cols_map fs : forall k ns, List.length ns = List.length fs -> mapping_rows (composite_cols k fs ns) = Ok (combine (cols k fs) ns).
Proof. induction fs as [|f fs IH]; intros k [|n ns] L; try discriminate; [reflexivity|]. cbn [composite_cols mapping_rows]. rewrite IH by (cbn in L; lia). reflexivity. Qed.
Lemma texts_len T ks ts : texts T ks ts -> List.length ts = List.length ks.
Proof. induction 1; cbn; congruence. Qed.
Lemma tuple_ok T id l s n s' : def id = DTuple l -> expandTuple c deal id l s = Ok (n, s') -> Inv T s -> ready s -> Post T s id n s'.
Proof.
  intros E H I RD. unfold expandTuple in H. assert (U : forall m, ~ named_as id m) by (apply unnamed; intros; congruence). destruct l as [|k0 l0].
  - injection H as <- <-. apply (finish T T); [apply below_refl|exact I|apply grows_refl|apply tx_unit; now left|intros _; apply reserved_headok; cbn; tauto|].
    intros m _ _ X. now apply U in X.
  - set (l := k0 :: l0) in *. assert (NE : l <> []) by discriminate. apply bind_ok2 in H. destruct H as (ns & s1 & H & H2). apply bind_ok in H2. destruct H2 as (s2 & H2 & [= <- <-]).
    destruct (sub_names_ok l T s ns s1 H I RD) as (T1 & B & I1 & G & X).
    change (String "T" (String "u" (String "p" (String "l" (String "e" (String ":" (join "" ns))))))) with ("Tuple:" ++ join "" ns) in *. set (name := "Tuple:" ++ join "" ns) in *.
    assert (PR : prefix "tuple:" (to_lower name) = true) by (apply tuple_prefix; reflexivity). assert (Tr : tracked name) by (right; reflexivity).
    assert (Y : forall cd, yields name (TStruct "struct" "" (tuple_rows 1 ns) [] 0 (i_v14 c) (i_spec c)) (r_types (g_reg s1)) cd <-> cd = CStruct (Some (combine (positions 1 ns) ns))).
    { intros cd. unfold yields. cbn [t_type t_mapping String.eqb Ascii.eqb Bool.eqb]. rewrite tuple_rows_map. apply texts_len in X. destruct ns as [|x ns]; [discriminate|].
      split; [intros (m & [= <-] & ->); reflexivity|intros ->; eexists; now split]. }
    assert (KP : Keep (g_reg s2)) by exact (KEEP_TUPLE T1 id l ns s1 s2 E NE X H2 (i_other _ _ I1)).
    destruct (reg_inv T1 name _ s1 s2 I1 KP H2) as (T2 & B2 & I2 & G2 & TT).
    + usual.
    + unfold name. rewrite has_char_app. intros [Q|Q]; [revert Q; now apply nohash_lit|]. revert Q. now apply (proj2 (text_nohash c D Rg WN T1) l).
    + intros [_ Q]. congruence.
    + intros cd Q. apply Y in Q as ->. split.
      * intros j m R N Hm Q. exfalso. pose proof (name_not_tuple j m Hm) as Q2. congruence.
      * intros _. exists id, l, ns. auto.
    + intros _. eexists. now apply Y.
    + apply (finish T T2); [now apply (below_trans T T1)|exact I2|apply (grows_trans s s1); [exact G|now apply grows_names]| |intros _; apply tuple_headok|intros m _ _ Z0; now apply U in Z0].
      apply tx_tuple with (ks := l); [exact E|exact NE|now apply (texts_up T1)|now apply TT].
Qed.
Lemma enum_ok T id vs s n s' : def id = DVariant vs -> other_path port id -> is_call_event (path id) = false -> is_str (path_last (path id)) "RuntimeCall" = false ->
  expandEnum c deal id (port_get port id) vs s = Ok (n, s') -> Inv T s -> ready s -> Post T s id n s'.
Proof.
  intros E O CE RC H I RD. unfold expandEnum in H. apply bind_ok2 in H. destruct H as (vts & s1 & H1 & H). apply bind_ok in H. destruct H as (name & H2 & H). apply bind_ok in H. destruct H as (s2 & H3 & [= <- <-]).
  destruct (variant_types_ok _ T s vts s1 H1 I RD) as (T1 & B1 & I1 & G1 & Q & X). rewrite (i_dup _ _ I1) in H2.
  destruct (reg_name T1 id name _ s1 s2 I1 H2 H3) as (T2 & B2 & I2 & G2 & TT).
  - usual.
  - intros R N Hn. assert (MM : M T1 id (CEnum (newStruct (map row_pair (enum_mapping vts))) [])) by now apply m_enum with (vs := vs).
    split; [|eexists; unfold yields; cbn [t_type t_mapping t_values String.eqb Ascii.eqb Bool.eqb]; exists (map row_pair (enum_mapping vts)); split; [apply enum_mapping_two|reflexivity]].
    intros cd. unfold yields. cbn [t_type t_mapping t_values String.eqb Ascii.eqb Bool.eqb]. intros (m & F & ->). rewrite enum_mapping_two in F. now injection F as <-.
  - assert (K : Rg id -> ~ early id /\ named_as id name).
    { intros R. destruct (rg_enum c D Rg REG id vs R E O) as (NP & _ & _ & (m & Hm & _) & _). split; [now apply (variant_not_early c id vs)|]. destruct Hm as [Hm NE]. split; [exact H2|congruence]. }
    apply (finish T T2); [now apply (below_trans T T1)|exact I2|apply (grows_trans s s1); [exact G1|now apply grows_names]| | |].
    + destruct (name_cases id name H2) as [-> |Hn].
      * apply tx_unnamed; [intros R; now destruct (K R) as [_ [_ []]]|exact H2|]. right. exists vs. auto.
      * apply tx_name; [exact Hn|]. intros R. apply (K R).
    + intros R. destruct (K R) as [N Hn]. apply (named_headok T2 name id); [exact Hn|now apply TT].
    + intros m R N [Hm NE]. rewrite H2 in Hm. injection Hm as <-. apply TT; [exact R|exact N|now split].
Qed.
Lemma variant_ok T id vs s n s' : def id = DVariant vs -> dealVariant c deal id (port_get port id) vs s = Ok (n, s') -> Inv T s -> ready s -> Post T s id n s'.
Proof.
  intros E H I RD. unfold dealVariant in H. change (s_path (port_get port id)) with (path id) in H. destruct (path id) as [|p0 r] eqn:P; [discriminate|].
  destruct (equal_fold p0 "Option") eqn:O1.
  { assert (O : opt_path port id) by now exists p0, r. unfold expandOption in H. change (s_params (port_get port id)) with (params_of port id) in H. destruct (params_of port id) as [|(pn & k) q] eqn:PP; [discriminate|].
    apply (one_ok "option" T id k s n s' H I RD).
    - intros m Y. destruct (named_def c D id m Y) as [(fs & E')|(ws & _ & O')]; [congruence|now apply (not_both c id)].
    - intros T' t X. now apply (tx_option c D Rg T' id vs pn k q). }
  destruct (equal_fold p0 "Result") eqn:O2.
  { apply result_ok; [exact H|exact I|exact RD|now exists vs|now exists p0, r]. }
  assert (O : other_path port id) by now exists p0, r. rewrite <- P in H. destruct (is_pallet_call (path id) || is_call_event (path id)) eqn:CE.
  { assert (CE' : is_call_event (path id) = true).
    { apply orb_true_iff in CE. destruct CE as [CE|CE]; [|exact CE]. unfold is_pallet_call in CE. unfold is_call_event. apply andb_true_iff in CE. destruct CE as [_ ->]. reflexivity. }
    injection H as <- <-. apply (finish T T); [apply below_refl|exact I|apply grows_refl| | |].
    - apply (tx_call c D Rg T id vs); auto.
    - intros R. destruct (rg_enum c D Rg REG id vs R E O) as (_ & C1 & _). congruence.
    - intros m R. destruct (rg_enum c D Rg REG id vs R E O) as (_ & C1 & _). congruence. }
  apply orb_false_iff in CE. destruct CE as [_ CE]. destruct (is_str (path_last (path id)) "RuntimeCall") eqn:RC.
  { apply bind_ok in H. destruct H as (name & H2 & H). apply bind_ok in H. destruct H as (s1 & H3 & [= <- <-]). rewrite (i_dup _ _ I) in H2.
    rewrite reg_set in H3. apply bind_ok in H3. destruct H3 as (s2 & H3 & [= <-]). assert (NR : ~ Rg id) by (intros R; destruct (rg_enum c D Rg REG id vs R E O) as (_ & _ & C1 & _); congruence).
    destruct (reg_name T id name _ s s2 I H2 H3) as (T2 & B2 & I2 & G2 & TT); [usual|contradiction|].
    apply (finish T T2); [exact B2|exact I2|now apply grows_names| |contradiction|contradiction]. apply (tx_call c D Rg T2 id vs); auto. }
  now apply (enum_ok T id vs).
Qed.
Lemma param_ok T key p id fs s s' : def id = DComposite fs -> is_unchecked (path id) = true -> In p ["Signature"; "Address"] -> In (to_lower key) ["extrinsicsignature"; "extrinsicsigner"] ->
  ~ has_char "#"%char key -> reg_param c deal key p (port_get port id) s = Ok s' -> Inv T s -> ready s -> exists T', below T T' /\ Inv T' s' /\ grows s s'.
Proof.
  intros E U P K NH H I RD. unfold reg_param in H. destruct (FindParameter p (s_params (port_get port id))) as [k|] eqn:F.
  - apply bind_ok2 in H. destruct H as (t & s1 & H & H2).
    destruct (DEAL k false s t s1 T H I RD) as (T1 & B1 & I1 & G1 & _); [now apply (wn_unchecked _ _ _ WN id fs p k)|discriminate|].
    destruct (reg_foreign T1 key _ s1 s' I1 (or_intror (or_introl K)) NH H2) as (T2 & B2 & I2 & G2); [usual|].
    exists T2. split; [now apply (below_trans T T1)|]. split; [exact I2|]. apply (grows_trans s s1); [exact G1|now apply grows_names].
  - injection H as <-. exists T. split; [apply below_refl|]. split; [exact I|apply grows_refl].
Qed.
Lemma composite_ok T id fs s n s' : def id = DComposite fs -> expandComposite c deal id (port_get port id) fs s = Ok (n, s') -> Inv T s -> ready s -> (Rg id -> ~ prim_like c id) -> Post T s id n s'.
Proof.
  intros E H I RD NP. unfold expandComposite in H. change (s_path (port_get port id)) with (path id) in H.
  assert (RW : Rg id -> is_wrapper (path id) = false /\ is_unchecked (path id) = false).
  { intros R. pose proof (REG id R) as (_ & _ & Q). rewrite E in Q. tauto. }
  apply bind_ok in H. destruct H as (s0 & H0 & H).
  assert (X0 : exists T0, below T T0 /\ Inv T0 s0 /\ grows s s0).
  { destruct (is_unchecked (path id)) eqn:U.
    - apply bind_ok in H0. destruct H0 as (s1 & H1 & H2).
      destruct (param_ok T "ExtrinsicSignature" "Signature" id fs s s1 E U) as (T1 & B1 & I1 & G1); [cbn; tauto|cbn; tauto|now apply nohash_lit|exact H1|exact I|exact RD|].
      destruct (param_ok T1 "ExtrinsicSigner" "Address" id fs s1 s0 E U) as (T2 & B2 & I2 & G2); [cbn; tauto|cbn; tauto|now apply nohash_lit|exact H2|exact I1|now apply (ready_grows s)|].
      exists T2. split; [now apply (below_trans T T1)|]. split; [exact I2|now apply (grows_trans s s1)].
    - injection H0 as <-. exists T. split; [apply below_refl|]. split; [exact I|apply grows_refl]. }
  clear H0. destruct X0 as (T0 & B0 & I0 & G0). pose proof (ready_grows _ _ RD G0) as RD0.
  assert (LIFT : Post T0 s0 id n s' -> Post T s id n s').
  { intros (T' & Q1 & Q2 & Q3 & Q4). exists T'. split; [now apply (below_trans T T0)|]. split; [exact Q2|]. split; [now apply (grows_trans s s0)|exact Q4]. }
  apply LIFT. clear LIFT I B0 G0 RD T s. rename T0 into T, s0 into s, I0 into I, RD0 into RD.
  destruct (is_wrapper (path id)) eqn:W.
  { assert (NR : ~ Rg id) by (intros R; destruct (RW R); congruence). destruct (s_params (port_get port id)) as [|(pn & k) q] eqn:PP; [discriminate|].
    apply bind_ok2 in H. destruct H as (t & s1 & H & [= <- <-]).
    destruct (DEAL k false s t s1 T H I RD) as (T1 & B1 & I1 & G1 & X1 & _); [now apply (wn_wrapper _ _ _ WN id fs pn k q)|discriminate|].
    apply (finish T T1); [exact B1|exact I1|exact G1|now apply (tx_wrapper c D Rg T1 id fs k t)|contradiction|contradiction]. }
  assert (ONE : forall f, fs = [f] -> (if is_str (path_last (path id)) "AccountId32" then Ok ("AccountId", set_name id "AccountId" s)
        else
          '(n, s) <- match assocz (f_type f) (g_names s) with
                     | Some n => Ok (n, s)
                     | None => if f_type f =? id then Ok ("NULL", s)
                               else deal (f_type f) (port_get (i_port c) (f_type f)) false s
                     end ;;
          let s := set_name id n s in
          name <- nameSiType c (g_dup s) (port_get port id) id ;;
          s <- reg_one c name (alias_of (i_v14 c) (i_spec c) n) s ;;
          Ok (n, s)) = Ok (n, s') -> Post T s id n s').
  { clear H. intros f -> H. destruct (is_str (path_last (path id)) "AccountId32") eqn:AC.
    - injection H as <- <-. assert (A : account c id).
      { split; [|now exists f]. unfold account_path. destruct (path_last (path id)) as [x|]; [|discriminate]. cbn in AC. now apply String.eqb_eq in AC as ->. }
      apply (finish T T); [apply below_refl|exact I|apply grows_refl|now apply tx_account|intros _; apply reserved_headok; cbn; tauto|]. intros m _ N _. exfalso. apply N. now right.
    - assert (NE : Rg id -> ~ early id).
      { intros R [P|[A _]]; [now apply NP|]. unfold account_path in A. rewrite A in AC. discriminate. }
      apply bind_ok2 in H. destruct H as (t & s1 & H1 & H). cbv zeta in H. apply bind_ok in H. destruct H as (name & H2 & H). apply bind_ok in H. destruct H as (s2 & H3 & [= <- <-]).
      cbn [set_name g_dup] in H2.
      assert (SUB : exists T1, below T T1 /\ Inv T1 s1 /\ grows s s1 /\ text T1 id t /\ (Rg id -> text T1 (f_type f) t /\ headok T1 t)).
      { destruct (assocz (f_type f) (g_names s)) as [u|] eqn:A.
        - injection H1 as <- <-. destruct (i_names T s I _ _ A) as [X HO]. exists T. split; [apply below_refl|]. split; [exact I|]. split; [apply grows_refl|].
          split; [now apply (tx_newtype c D Rg T id f)|]. intros R. split; [exact X|]. apply HO. now destruct (rg_new c D Rg REG id f R E (NE R)).
        - destruct (Z.eqb_spec (f_type f) id) as [Q|Q].
          + injection H1 as <- <-. assert (NR : ~ Rg id) by (intros R; destruct (rg_new c D Rg REG id f R E (NE R)) as [_ [X _]]; contradiction).
            exists T. split; [apply below_refl|]. split; [exact I|]. split; [apply grows_refl|]. split; [now apply tx_null|contradiction].
          + destruct (DEAL (f_type f) false s t s1 T H1 I RD) as (T1 & B1 & I1 & G1 & X1 & Y1); [intros R; now apply late_not_prim, (unnamed_late s)|discriminate|].
            exists T1. split; [exact B1|]. split; [exact I1|]. split; [exact G1|]. split; [now apply (tx_newtype c D Rg T1 id f)|]. intros R. split; [exact X1|].
            apply Y1; [reflexivity|]. now destruct (rg_new c D Rg REG id f R E (NE R)). }
      destruct SUB as (T1 & B1 & I1 & G1 & X1 & Y1). rewrite (i_dup _ _ I1) in H2. rewrite reg_set in H3. apply bind_ok in H3. destruct H3 as (s3 & H3 & [= <-]).
      destruct (reg_name T1 id name _ s1 s3 I1 H2 H3) as (T2 & B2 & I2 & G2 & TT).
      + usual.
      + intros R N Hn. destruct (Y1 R) as [Xf HO]. destruct (alias_found T1 s1 id f name t I1 R E N Hn Xf HO) as (cd & AL & MM).
        unfold yields, alias_of. cbn [t_type t_string String.eqb Ascii.eqb Bool.eqb]. split; [intros cd' Y; congruence|now exists cd].
      + apply (finish T T2); [now apply (below_trans T T1)|exact I2|apply (grows_trans s s1); [exact G1|now apply grows_names]|now apply (text_up T1)| |].
        * intros R. apply (headok_up T1); [exact B2|]. now apply Y1.
        * intros m R N [Hm NEm]. rewrite H2 in Hm. injection Hm as <-. apply TT; [exact R|exact N|now split]. }
  destruct fs as [|f [|g fs0]]; [|now apply (ONE f)|]; clear ONE;
  match goal with E : _ = DComposite ?l |- _ => set (fs := l) in * end; assert (LN : List.length fs <> 1%nat) by discriminate; clearbody fs.
  all: apply bind_ok2 in H; destruct H as (ns & s1 & H1 & H); apply bind_ok in H; destruct H as (name & H2 & H); apply bind_ok in H; destruct H as (s2 & H3 & [= <- <-]);
    destruct (sub_names_ok _ T s ns s1 H1 I RD) as (T1 & B1 & I1 & G1 & X); rewrite (i_dup _ _ I1) in H2.
  all: assert (CM : mapping_rows (composite_cols 1 fs ns) = Ok (combine (cols 1 fs) ns)) by (apply cols_map; rewrite (texts_len _ _ _ X); apply map_length).
  all: destruct (reg_name T1 id name _ s1 s2 I1 H2 H3) as (T2 & B2 & I2 & G2 & TT);
  [usual
  |intros R N Hn; assert (MM : M T1 id (CStruct (newStruct (combine (cols 1 fs) ns)))) by (apply m_struct; [exact E|exact LN|now apply texts_ftexts]);
   unfold yields; cbn [t_type t_mapping String.eqb Ascii.eqb Bool.eqb]; rewrite CM;
   split; [intros cd (m & [= <-] & ->); exact MM|eexists; eexists; split; reflexivity]|].
  all: assert (K : Rg id -> ~ early id /\ named_as id name) by
    (intros R; assert (N : ~ early id) by (intros [P|[_ (f' & E')]]; [now apply NP|rewrite E in E'; injection E' as ->; now apply LN]);
     split; [exact N|]; destruct (rg_plain c D Rg REG id fs R E N) as (_ & _ & (m & [Hm NEm] & _) & _); split; [exact H2|congruence]).
  all: apply (finish T T2); [now apply (below_trans T T1)|exact I2|apply (grows_trans s s1); [exact G1|now apply grows_names]| | |].
  1,4: destruct (name_cases id name H2) as [-> |Hn]; [apply tx_unnamed; [intros R; now destruct (K R) as [_ [_ []]]|exact H2|left; now exists fs]|apply tx_name; [exact Hn|intros R; apply (K R)]].
  1,3: intros R; destruct (K R) as [N Hn]; apply (named_headok T2 name id); [exact Hn|now apply TT].
  all: intros m R N [Hm NEm]; rewrite H2 in Hm; injection Hm as <-; apply TT; [exact R|exact N|now split].
Qed.
Lemma step_ok : Deals (deal_step c deal).
Proof.
  intros id b s n s' T H I RD NP NE.
  assert (P : Post T s id n s' -> exists T', below T T' /\ Inv T' s' /\ grows s s' /\ text T' id n /\ (b = false -> Rg id -> headok T' n /\ exists t, assocz id (g_names s') = Some t)).
  { intros (T' & Q1 & Q2 & Q3 & Q4 & Q5). exists T'. auto. }
  unfold deal_step in H. cbv zeta in H. destruct (String.eqb_spec (overriderTypesName (port_get port id)) "") as [OV|OV]; cbn [negb] in H.
  2:{ injection H as <- <-. apply P. assert (NR : ~ Rg id) by (intros R; destruct (REG id R); contradiction).
      apply (finish T T); [apply below_refl|exact I|apply grows_refl|now apply tx_override|contradiction|contradiction]. }
  apply bind_ok in H. destruct H as (name & H2 & H). destruct (String.eqb_spec name "") as [->|NN]; cbn [negb] in H.
  2:{ injection H as <- <-. destruct b; [|congruence]. rewrite (i_dup _ _ I) in H2. exists T. split; [apply below_refl|]. split; [exact I|]. split; [apply grows_refl|].
      split; [apply tx_name; [now split|now apply NE]|discriminate]. }
  clear H2. apply P. clear P. change (s_def (port_get port id)) with (def id) in H.
  assert (U : (forall fs, def id <> DComposite fs) -> (forall vs, def id <> DVariant vs) -> forall m, ~ named_as id m) by apply unnamed.
  destruct (def id) eqn:E.
  - now apply composite_ok with (fs := fields).
  - now apply variant_ok with (vs := variants).
  - apply (one_ok "Vec" T id t s n s' H I RD); [apply U; intros; discriminate|]. intros T' x X. now apply (tx_sequence c D Rg T' id t x).
  - now apply (array_ok T id len t).
  - now apply (tuple_ok T id l).
  - injection H as <- <-. assert (NR : ~ Rg id) by (intros R; apply (NP R); left; now exists name).
    apply (finish T T); [apply below_refl|exact I|apply grows_refl|now apply tx_null|contradiction|contradiction].
  - apply (one_ok "compact" T id t s n s' H I RD); [apply U; intros; discriminate|]. intros T' x X. now apply (tx_compact c D Rg T' id t x).
  - injection H as <- <-. apply (finish T T); [apply below_refl|exact I|apply grows_refl|now apply tx_bits|intros _; apply reserved_headok; cbn; tauto|].
    intros m _ _ Y. exfalso. revert Y. apply U; intros; discriminate.
  - injection H as <- <-. assert (NR : ~ Rg id) by (intros R; pose proof (REG id R) as (_ & _ & Q); now rewrite E in Q).
    exists T. split; [apply below_refl|]. split; [exact I|]. split; [apply grows_refl|]. split; [now apply tx_range|contradiction].
  - injection H as <- <-. assert (NR : ~ Rg id) by (intros R; pose proof (REG id R) as (_ & _ & Q); now rewrite E in Q).
    apply (finish T T); [apply below_refl|exact I|apply grows_refl|now apply tx_null|contradiction|contradiction].
  - injection H as <- <-. apply (finish T T); [apply below_refl|exact I|apply grows_refl|apply tx_unit; now right|intros _; apply reserved_headok; cbn; tauto|].
    intros m _ _ Y. exfalso. revert Y. apply U; intros; discriminate.
Qed.
End Step.
Lemma deal_ok fuel : Deals (dealOneSiType fuel c).
Proof. induction fuel as [|fuel IH]; [intros id b s n s' T H; discriminate|]. now apply step_ok. Qed.
(** ** The passes of ProcessSiType *)
Lemma each_ind (f : Z -> sistate -> res sistate) (P : Z -> sistate -> Prop) : (forall i s s', 0 <= i -> P i s -> f i s = Ok s' -> P (i + 1) s') ->
  forall n i s s', 0 <= i -> P i s -> each_id f n i s = Ok s' -> P (i + Z.of_nat n) s'.
Proof.
  intros ST. induction n as [|n IH]; intros i s s' B H E; cbn [each_id] in E.
  - injection E as <-. now replace (i + Z.of_nat 0) with i by lia.
  - apply bind_ok in E. destruct E as (s1 & E1 & E). replace (i + Z.of_nat (S n)) with (i + 1 + Z.of_nat n) by lia. apply (IH (i + 1) s1); [lia|now apply (ST i s)|exact E].
Qed.
Lemma count_reg r r' n : forall i d s, each_id (count_name c) n i (SiState [] d r) = Ok s ->
  s = SiState [] (g_dup s) r /\ each_id (count_name c) n i (SiState [] d r') = Ok (SiState [] (g_dup s) r').
Proof.
  induction n as [|n IH]; intros i d s H; cbn [each_id] in *; [injection H as <-; now split|].
  apply bind_ok in H. destruct H as (s1 & H1 & H). unfold count_name in *. cbn [g_dup g_names g_reg] in *. destruct (nameSiType c d (port_get port i) (-1)) as [m| |]; try discriminate. cbn [bind] in *.
  destruct (String.eqb m ""); injection H1 as <-; now apply IH.
Qed.
Definition Pass (s : sistate) : Prop := exists T, Inv T s.
Lemma start r : standard c D r -> Keep r -> Pass (SiState [] D r).
Proof.
  intros S0 KP. exists (fun _ => False). constructor; cbn [g_names g_dup g_reg assocz]; try discriminate.
  - reflexivity.
  - intros k [K P]. split; [now apply (st_types _ _ _ S0)|now apply (st_special _ _ _ S0)].
  - intros k [].
  - intros k l e A _. split.
    + intros id n R N Hn ->. destruct (name_regular_of c D Rg REG id n R N Hn) as (m & [Hm _] & _ & OR). destruct Hn as [Hn HN]. rewrite Hn in Hm. injection Hm as <-.
      rewrite (st_special_named _ _ _ S0 id n (conj Hn HN) OR) in A. discriminate.
    + intros P. rewrite (st_special _ _ _ S0) in A; [discriminate|]. right. exists "tuple:". split; [cbn; tauto|exact P].
  - exact KP.
  - intros VV key Tr A. apply A. apply (st_v14 _ _ _ S0 VV). destruct Tr as [(id & _ & _ & H)|P]; [left; now exists id|now right].
Qed.
Lemma primitive_ok i n s s' : Pass s -> reg_primitive c i n s = Ok s' -> ~ has_char "#"%char n -> (forall T, text T i n) -> (Rg i -> In (to_lower n) reserved_names) ->
  (Rg i -> early i) -> Pass s' /\ grows s s' /\ assocz i (g_names s') = Some n.
Proof.
  intros (T & I) H N X R EA. unfold reg_primitive in H. destruct (HasReg (g_reg s) n); [|discriminate]. rewrite reg_set in H. apply bind_ok in H. destruct H as (s1 & H & [= <-]).
  assert (F : foreign ("primitive_types:" ++ n)) by (right; right; rewrite to_lower_app'; change (to_lower "primitive_types:") with "primitive_types:"; apply prefix_app_s).
  assert (NH : ~ has_char "#"%char ("primitive_types:" ++ n)) by (rewrite has_char_app; intros [Q|Q]; [revert Q; now apply nohash_lit|now apply N]).
  destruct (reg_foreign T _ _ s s1 I F NH H) as (T1 & B1 & I1 & G1).
  - usual.
  - split; [|split; [apply (grows_trans s s1); [now apply grows_names|apply grows_set]|apply names_set]]. exists T1. apply set_inv; [exact I1|apply X|intros Q; now apply reserved_headok, R|].
    intros m Q NE. now apply EA in Q.
Qed.
Lemma pass1 n s s' : Pass s -> each_id (pass_primitive c) n 0 s = Ok s' -> Pass s' /\ forall i, Rg i -> 0 <= i < Z.of_nat n -> (exists p, def i = DPrimitive p) -> exists t, assocz i (g_names s') = Some t.
Proof.
  intros H E. assert (Q : Pass s' /\ forall i, Rg i -> 0 <= i < 0 + Z.of_nat n -> (exists p, def i = DPrimitive p) -> exists t, assocz i (g_names s') = Some t); [|exact Q].
  revert E. apply (each_ind (pass_primitive c) (fun k s => Pass s /\ forall i, Rg i -> 0 <= i < k -> (exists p, def i = DPrimitive p) -> exists t, assocz i (g_names s) = Some t)); [|lia|split; [exact H|intros; lia]].
  clear H s s'. intros k s s' B [H K] E. unfold pass_primitive in E. change (s_def (port_get port k)) with (def k) in E.
  destruct (def k) eqn:Q; try (injection E as <-; split; [exact H|]; intros i R L P; destruct (Z.eq_dec i k) as [->|]; [destruct P; congruence|apply K; [exact R|lia|exact P]]).
  destruct (primitive_ok k name s s' H E) as (H' & G & A).
  - now apply (wn_prim _ _ _ WN k).
  - intros T. now apply tx_prim.
  - intros R. unfold reserved_names. apply in_or_app. left. now apply (rg_prim c D Rg REG k name R).
  - intros _. left. left. now exists name.
  - split; [exact H'|]. intros i R L P. destruct (Z.eq_dec i k) as [->|]; [now exists name|]. destruct (K i R) as [t Ht]; [lia|exact P|]. now apply (G i t).
Qed.
Lemma pass2 n s s' : Pass s -> each_id (pass_primitive_types c) n 0 s = Ok s' -> Pass s' /\ grows s s' /\ forall i, Rg i -> 0 <= i < Z.of_nat n -> prims_path port i -> exists t, assocz i (g_names s') = Some t.
Proof.
  intros H E. assert (Q : Pass s' /\ grows s s' /\ forall i, Rg i -> 0 <= i < 0 + Z.of_nat n -> prims_path port i -> exists t, assocz i (g_names s') = Some t); [|exact Q].
  revert E. apply (each_ind (pass_primitive_types c) (fun k s' => Pass s' /\ grows s s' /\ forall i, Rg i -> 0 <= i < k -> prims_path port i -> exists t, assocz i (g_names s') = Some t)); [|lia|split; [exact H|split; [apply grows_refl|intros; lia]]].
  clear H s'. intros k s1 s' B (H & G0 & K) E. unfold pass_primitive_types in E. cbv zeta in E. change (s_path (port_get port k)) with (path k) in E.
  destruct (is_str (nth_error (path k) 0) "primitive_types") eqn:Q.
  - destruct (path_last (path k)) as [name|] eqn:PL; [|discriminate]. assert (P : prims_path port k).
    { unfold prims_path. destruct (nth_error (path k) 0) as [x|]; [|discriminate]. cbn in Q. now apply String.eqb_eq in Q as ->. }
    destruct (primitive_ok k name s1 s' H E) as (H' & G & A).
    + now apply (wn_prims _ _ _ WN k).
    + intros T. now apply tx_prims.
    + intros R. destruct (rg_prims c D Rg REG k R P) as (f & h & m & e & _ & L' & I & _). rewrite PL in L'. injection L' as <-. cbn in I. decompose [or] I;
      (contradiction || match goal with X : (_, _) = _ |- _ => injection X as X _; rewrite <- X; cbn; tauto end).
    + intros _. left. now right.
    + split; [exact H'|]. split; [now apply (grows_trans s s1)|]. intros i R L P'. destruct (Z.eq_dec i k) as [->|]; [now exists name|]. destruct (K i R) as [t Ht]; [lia|exact P'|]. now apply (G i t).
  - injection E as <-. split; [exact H|]. split; [exact G0|]. intros i R L P. destruct (Z.eq_dec i k) as [->|]; [|apply K; [exact R|lia|exact P]]. unfold prims_path in P. rewrite P in Q. discriminate.
Qed.
Lemma account_step fuel f i s n s' : def i = DComposite [f] -> nth_error (path i) 0 = Some "sp_core" -> path_last (path i) = Some "AccountId32" -> overriderTypesName (port_get port i) = "" ->
  dealOneSiType fuel c i (port_get port i) false s = Ok (n, s') -> s' = set_name i "AccountId" s.
Proof.
  intros E P0 PL OV H. destruct fuel as [|fuel]; [discriminate|]. cbn [dealOneSiType] in H. unfold deal_step in H. rewrite OV in H. cbn [String.eqb negb bind] in H.
  change (s_def (port_get port i)) with (def i) in H. rewrite E in H. unfold expandComposite in H. change (s_path (port_get port i)) with (path i) in H.
  unfold is_unchecked, is_wrapper in H. rewrite P0, PL in H. cbn [is_str String.eqb Ascii.eqb Bool.eqb orb] in H. rewrite !andb_false_r in H. cbn [andb bind] in H. now injection H as _ <-.
Qed.
Lemma pass3 fuel n s s' : Pass s -> (forall i, Rg i -> prim_like c i -> exists t, assocz i (g_names s) = Some t) -> each_id (pass_sp_core fuel c) n 0 s = Ok s' -> n = distinct_ids [] port -> Pass s' /\ ready s'.
Proof.
  intros H PR E ->. set (n := distinct_ids [] port) in *.
  assert (Q : Pass s' /\ grows s s' /\ forall i, Rg i -> 0 <= i < 0 + Z.of_nat n -> account c i -> exists t, assocz i (g_names s') = Some t).
  - revert E. apply (each_ind (pass_sp_core fuel c) (fun k s' => Pass s' /\ grows s s' /\ forall i, Rg i -> 0 <= i < k -> account c i -> exists t, assocz i (g_names s') = Some t)); [|lia|split; [exact H|split; [apply grows_refl|intros; lia]]].
    clear H s'. intros k s1 s' B (H & G0 & K) E. unfold pass_sp_core in E. cbv zeta in E. change (s_path (port_get port k)) with (path k) in E.
    assert (KK : (account c k -> Rg k -> exists t, assocz k (g_names s') = Some t) -> grows s1 s' -> forall i, Rg i -> 0 <= i < k + 1 -> account c i -> exists t, assocz i (g_names s') = Some t).
    { intros X G i R L A. destruct (Z.eq_dec i k) as [->|]; [now apply X|]. destruct (K i R) as [t Ht]; [lia|exact A|]. now apply (G i t). }
    assert (P1 : forall i, Rg i -> prim_like c i -> exists t, assocz i (g_names s1) = Some t) by (intros i R P; destruct (PR i R P) as [t Ht]; now apply (G0 i t)).
    destruct (is_str (nth_error (path k) 0) "sp_core") eqn:Q.
    + assert (P0 : nth_error (path k) 0 = Some "sp_core") by (destruct (nth_error (path k) 0) as [x|]; [|discriminate]; cbn in Q; now apply String.eqb_eq in Q as ->).
      apply bind_ok2 in E. destruct E as (nm & s2 & E & [= <-]).
      assert (DEC : (account c k /\ overriderTypesName (port_get port k) = "") \/ ~ (account c k /\ overriderTypesName (port_get port k) = "")).
      { unfold account, account_path. destruct (path_last (path k)) as [x|]; [|right; intros [[X _] _]; discriminate]. destruct (String.eqb_spec x "AccountId32") as [->|NX]; [|right; intros [[X _] _]; congruence].
        destruct (String.eqb_spec (overriderTypesName (port_get port k)) "") as [OV|OV]; [|right; intros [_ X]; contradiction].
        destruct (def k) as [[|f [|g fs]]| | | | | | | | | |]; try (right; intros [[_ (f' & X)] _]; discriminate). left. split; [split; [reflexivity|now exists f]|exact OV]. }
      destruct DEC as [[[AP (f & EF)] OV]|NA].
      * apply (account_step fuel f k s1 nm s2 EF P0 AP OV) in E as ->. destruct H as (T & I). split; [|split; [apply (grows_trans s s1); [exact G0|apply grows_set]|apply KK; [|apply grows_set]]].
        -- exists T. apply set_inv; [exact I|apply tx_account; split; [exact AP|now exists f]|intros _; apply reserved_headok; cbn; tauto|]. intros m _ N _. exfalso. apply N. right. split; [exact AP|now exists f].
        -- intros _ _. exists "AccountId". apply names_set.
      * destruct H as (T & I).
        assert (NRK : Rg k -> ~ account c k) by (intros R A; apply NA; split; [exact A|]; now destruct (REG k R)).
        assert (RD : ready s1).
        { intros i R [P|A]; [now apply P1|]. pose proof (REG i R) as (_ & RANGE & _). destruct (rg_account c D Rg REG i R A) as (f & e & [(_ & _ & _ & _ & FIRST)|P]); [|apply P1; [exact R|now right]].
          destruct (Z.lt_trichotomy i k) as [L|[->|L]]; [apply K; [exact R|lia|exact A]|exfalso; now apply (NRK R)|]. exfalso. apply (FIRST k); [lia|exact P0]. }
        destruct (deal_ok fuel k false s1 nm s2 T E I RD) as (T1 & B1 & I1 & G1 & _ & NM).
        -- intros R [(p & EP)|P]; [|unfold prims_path in P; congruence]. destruct (rg_prim c D Rg REG k p R EP) as [_ X]. rewrite X in P0. discriminate.
        -- discriminate.
        -- split; [now exists T1|]. split; [now apply (grows_trans s s1)|]. apply KK; [|exact G1]. intros _ R. now apply NM.
    + injection E as <-. split; [exact H|]. split; [exact G0|]. apply KK; [|apply grows_refl]. intros A R.
      destruct (rg_account c D Rg REG k R A) as (f & e & [(_ & _ & _ & X & _)|P]); [rewrite X in Q; discriminate|apply P1; [exact R|now right]].
  - destruct Q as (H' & G & K). split; [exact H'|]. intros i R [P|A].
    + destruct (PR i R P) as [t Ht]. now apply (G i t).
    + pose proof (REG i R) as (_ & RANGE & _). apply K; [exact R|fold n in RANGE; lia|exact A].
Qed.
Lemma pass4 fuel n s s' : Pass s -> ready s -> each_id (pass_rest fuel c) n 0 s = Ok s' -> n = distinct_ids [] port -> Pass s' /\ forall i, Rg i -> exists t, assocz i (g_names s') = Some t.
Proof.
  intros H RD E ->. set (n := distinct_ids [] port) in *.
  assert (Q : Pass s' /\ grows s s' /\ forall i, Rg i -> 0 <= i < 0 + Z.of_nat n -> exists t, assocz i (g_names s') = Some t).
  - revert E. apply (each_ind (pass_rest fuel c) (fun k s' => Pass s' /\ grows s s' /\ forall i, Rg i -> 0 <= i < k -> exists t, assocz i (g_names s') = Some t)); [|lia|split; [exact H|split; [apply grows_refl|intros; lia]]].
    clear H s'. intros k s1 s' B (H & G0 & K) E. unfold pass_rest in E.
    assert (KK : (Rg k -> exists t, assocz k (g_names s') = Some t) -> grows s1 s' -> forall i, Rg i -> 0 <= i < k + 1 -> exists t, assocz i (g_names s') = Some t).
    { intros X G i R L. destruct (Z.eq_dec i k) as [->|]; [now apply X|]. destruct (K i R) as [t Ht]; [lia|]. now apply (G i t). }
    destruct (assocz k (g_names s1)) as [t|] eqn:A.
    + injection E as <-. split; [exact H|]. split; [exact G0|]. apply KK; [|apply grows_refl]. intros _. now exists t.
    + apply bind_ok2 in E. destruct E as (nm & s2 & E & [= <-]). destruct H as (T & I). pose proof (ready_grows _ _ RD G0) as RD1.
      destruct (deal_ok fuel k false s1 nm s2 T E I RD1) as (T1 & B1 & I1 & G1 & _ & NM).
      * intros R. now apply late_not_prim, (unnamed_late s1).
      * discriminate.
      * split; [now exists T1|]. split; [now apply (grows_trans s s1)|]. apply KK; [|exact G1]. intros R. now apply NM.
  - destruct Q as (H' & G & K). split; [exact H'|]. intros i R. pose proof (REG i R) as (_ & RANGE & _). apply K; [exact R|fold n in RANGE; lia].
Qed.
Theorem process_keeps fuel r s : standard c D r -> Keep r -> counted c D -> ProcessSiType fuel c r = Ok s ->
  (exists T, Inv T (SiState (g_names s) D (g_reg s))) /\ forall i, Rg i -> exists t, assocz i (g_names s) = Some t.
Proof.
  intros ST KP (s0 & C0 & CD) H. unfold ProcessSiType in H. cbv zeta in H. set (n := distinct_ids [] port) in *.
  apply bind_ok in H. destruct H as (s1 & H1 & H). apply bind_ok in H. destruct H as (s2 & H2 & H). apply bind_ok in H. destruct H as (s3 & H3 & H).
  apply bind_ok in H. destruct H as (s4 & H4 & H). apply bind_ok in H. destruct H as (s5 & H5 & [= <-]). cbn [g_names g_reg].
  destruct (count_reg base_reg r n 0 [] s0 C0) as [_ X]. rewrite X in H1. injection H1 as <-. rewrite CD in H2.
  destruct (pass1 n _ s2 (start r ST KP) H2) as [P2 N2]. destruct (pass2 n s2 s3 P2 H3) as (P3 & G3 & N3).
  destruct (pass3 fuel n s3 s4 P3) as [P4 RD]; [|exact H4|reflexivity|].
  { intros i R [P|P]; pose proof (REG i R) as (_ & RANGE & _); fold n in RANGE; [|now apply N3]. destruct (N2 i R RANGE P) as [t Ht]. now apply (G3 i t). }
  destruct (pass4 fuel n s4 s5 P4 RD H5 eq_refl) as [(T & I) N5]. split; [|exact N5]. exists T. replace (SiState (g_names s5) D (g_reg s5)) with s5; [exact I|]. pose proof (i_dup _ _ I) as Q.
  destruct s5 as [a b d]. cbn in *. now rewrite Q.
Qed.
End Reg.
(** Without anything else to keep. *)
Definition Inv0 c D (Rg : Z -> Prop) T s : Prop := Inv c D Rg (fun _ => True) T s.
Theorem process_ok c D (Rg : Z -> Prop) (REG : forall id, Rg id -> regular c D Rg id) (WN : well_named c D Rg) fuel r s : standard c D r -> counted c D -> ProcessSiType fuel c r = Ok s ->
  (exists T, Inv0 c D Rg T (SiState (g_names s) D (g_reg s))) /\ forall i, Rg i -> exists t, assocz i (g_names s) = Some t.
Proof. intros ST C H. now apply (process_keeps c D Rg REG WN (fun _ => True)) with (fuel := fuel) (r := r). Qed.
