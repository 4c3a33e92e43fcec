(** C61: types declared by a portable type registry decode as declared. *)

From Verif Require Import GoBase SpecNum ModelTools ModelVal ModelRegistry ModelDecode ModelRegister ModelScaleInfo SpecScale ProofsNames ProofsTexts PropCodec PropScaleInfo
  SpecPortable ProofsPortText ProofsPortReg ProofsPortDecode.

(** Decoding looks types up in the registry [r]. *)
Definition uses (E : env) (r : reg) : Prop := e_reg E = r_types r /\ e_special E = r_special r.

Lemma in_range_in l spec cd : in_range l spec = Some cd -> exists e, In e l /\ snd e = cd.
Proof.
  induction l as [|[[a b] cd'] l IH]; [discriminate|]. cbn [in_range]. destruct (_ && _).
  - intros [= ->]. exists (a, b, cd). split; [now left|reflexivity].
  - intros H. destruct (IH H) as (e & I & Q). exists e. split; [now right|exact Q].
Qed.

Section C61.
Variables (c : sictx) (D : list (string * Z)) (Rg : Z -> Prop).
Notation port := (i_port c).
Hypothesis counts : counted c D.
Hypothesis names : well_named c D Rg.
Hypothesis declarations : forall id, Rg id -> regular c D Rg id.
Variables (r : reg) (fuel : nat) (s : sistate).
Hypothesis before : standard c D r.
Hypothesis registered : ProcessSiType fuel c r = Ok s.

(** The invariant of the registration is all that decoding needs. *)
Lemma scales_by_inv_st st T ns rg E cx id x bs : Inv0 c D Rg T (SiState ns D rg) -> uses E rg -> (forall i, Rg i -> exists t, assocz i ns = Some t) ->
  (st = true -> writable port id x) -> Rg id -> enc port id x bs ->
  exists t g, assocz id ns = Some t /\ shows port id x g /\ std_env E /\ scale st E cx t bs g [].
Proof.
  intros INV [ER ES] ALL WR R HE. destruct (ALL id R) as [t Ht]. exists t.
  assert (FK : forall k spec cd, (exists l, assoc k (r_special rg) = Some l /\ in_range l spec = Some cd) \/ ((forall l, assoc k (r_special rg) = Some l -> in_range l spec = None) /\ assoc k (r_types rg) = Some cd) -> find_key E k spec = Some cd).
  { intros k spec cd H. unfold find_key, specialVersionCodec. rewrite ES, ER. destruct H as [(l & -> & ->)|(H & ->)]; [reflexivity|]. destruct (assoc k (r_special rg)) as [l|]; [rewrite (H l eq_refl)|]; reflexivity. }
  assert (OK : forall k spec, T k -> exists cd, find_key E k spec = Some cd /\ codec_ok c D Rg T k cd).
  { intros k spec K. destruct (i_types _ _ _ _ _ _ INV k K) as (cd & A & C). destruct (assoc k (r_special rg)) as [l|] eqn:SP.
    - destruct (in_range l spec) as [cd'|] eqn:IR.
      + exists cd'. split; [apply FK; left; now exists l|]. destruct (in_range_in l spec cd' IR) as (e & I & <-). now apply (i_special _ _ _ _ _ _ INV k l e SP).
      + exists cd. split; [|exact C]. apply FK. right. split; [|exact A]. intros l' H. rewrite SP in H. now injection H as <-.
    - exists cd. split; [|exact C]. apply FK. right. split; [|exact A]. intros l' H. congruence. }
  assert (BASE : forall k spec, plain_reserved k -> find_key E k spec = assoc k base_registry).
  { intros k spec K. destruct (i_base _ _ _ _ _ _ INV k K) as [A B]. cbn [g_reg] in A, B. unfold find_key, specialVersionCodec. now rewrite ES, ER, A, B. }
  assert (NAMES : forall k n spec, Rg k -> ~ early c k -> named_as c D k n -> exists cd, find_key E (to_lower n) spec = Some cd /\ M c D Rg T k cd).
  { intros k n spec RK EK NK. destruct (ALL k RK) as [t' Ht']. destruct (OK (to_lower n) spec (i_named _ _ _ _ _ _ INV k t' n Ht' RK EK NK)) as (cd & F & C). exists cd. split; [exact F|]. now apply (proj1 C k n). }
  assert (TUPLES : forall k spec, T k -> prefix "tuple:" k = true -> exists j ks us, def_of port j = DTuple ks /\ ks <> [] /\ texts c D Rg T ks us /\ k = to_lower ("Tuple:" ++ join "" us)
    /\ find_key E k spec = Some (CStruct (Some (combine (positions 1 us) us)))).
  { intros k spec K PK. destruct (OK k spec K) as (cd & F & C). destruct (proj2 C PK) as (j & ks & us & H1 & H2 & H3 & H4 & ->). exists j, ks, us. auto. }
  assert (STD : std_env E).
  { intros k cd I. assert (K : plain_reserved k /\ assoc k base_registry = Some cd).
    { cbn [In] in I. destruct I as [[= <- <-]|[[= <- <-]|[[= <- <-]|[]]]]; (split; [|reflexivity]); (split; [|reflexivity]).
      - right. exists "compact<". split; [cbn; tauto|reflexivity].
      - left. cbn. tauto.
      - left. cbn. tauto. }
    destruct K as [K A]. destruct (i_base _ _ _ _ _ _ INV k K) as [B C]. cbn [g_reg] in B, C. now rewrite ER, ES, B, C. }
  destruct (i_names _ _ _ _ _ _ INV id t Ht) as [TX _].
  assert (F : ftext c D Rg T id t) by now exists t.
  pose proof (proj1 (enc_scales st c D Rg declarations names E T BASE NAMES TUPLES) id x bs HE) as HP.
  destruct (text_scale st c D Rg declarations names E T BASE NAMES TUPLES id t x bs cx WR R F HP) as (g & S1 & S2).
  exists g. split; [exact Ht|]. split; [exact S2|]. now split.
Qed.
Lemma scales_by_inv T ns rg E cx id x bs : Inv0 c D Rg T (SiState ns D rg) -> uses E rg -> (forall i, Rg i -> exists t, assocz i ns = Some t) ->
  Rg id -> enc port id x bs ->
  exists t g, assocz id ns = Some t /\ shows port id x g /\ std_env E /\ scale false E cx t bs g [].
Proof. intros INV U ALL. apply (scales_by_inv_st false T ns rg E cx id x bs INV U ALL). discriminate. Qed.
Lemma decodes_by_inv T ns rg E cx id x bs pre tl : Inv0 c D Rg T (SiState ns D rg) -> uses E rg -> (forall i, Rg i -> exists t, assocz i ns = Some t) ->
  Rg id -> enc port id x bs -> blen (pre ++ bs ++ tl) < 2 ^ 63 ->
  exists t g, assocz id ns = Some t /\ shows port id x g
    /\ Decodes E cx (pre ++ bs ++ tl) (blen pre) t (Ok (g, blen pre + blen bs, [])).
Proof.
  intros INV U ALL R HE L. destruct (scales_by_inv T ns rg E cx id x bs INV U ALL R HE) as (t & g & H1 & H2 & H3 & H4). exists t, g. split; [exact H1|]. split; [exact H2|]. now apply C15_decode.
Qed.

Theorem C61_portable_types_decode_partial E cx id x bs pre tl : uses E (g_reg s) -> Rg id -> enc port id x bs -> blen (pre ++ bs ++ tl) < 2 ^ 63 ->
  exists t g, assocz id (g_names s) = Some t /\ shows port id x g
    /\ Decodes E cx (pre ++ bs ++ tl) (blen pre) t (Ok (g, blen pre + blen bs, [])).
Proof.
  intros U R HE L. destruct (process_ok c D Rg declarations names fuel r s before counts registered) as ((T & INV) & ALL).
  exact (decodes_by_inv T _ _ E cx id x bs pre tl INV U ALL R HE L).
Qed.
(** The same after another name has been registered. *)
Definition unrelated (key : string) : Prop :=
  (forall i n, Rg i -> ~ early c i -> named_as c D i n -> to_lower n <> key) /\ prefix "tuple:" key = false /\ ~ plain_reserved key.
Lemma inv_later T ns rg key cd : unrelated key -> Inv0 c D Rg T (SiState ns D rg) -> Inv0 c D Rg T (SiState ns D (with_types (upd key cd) rg)).
Proof.
  intros (N & PT & NR) [I1 I2 I3 I4 I5 I6 I7 I8]. cbn [g_reg g_names g_dup] in *.
  constructor; cbn [g_reg g_names g_dup with_types r_types r_special r_v14]; try assumption.
  - intros k K. rewrite assoc_upd. destruct (String.eqb_spec k key) as [->|]; [contradiction|]. now apply I4.
  - intros k K. destruct (I5 k K) as (cd' & A & B). rewrite assoc_upd. destruct (String.eqb_spec k key) as [->|]; [|now exists cd'].
    exists cd. split; [reflexivity|]. split; [|congruence]. intros i n Ri Ei Ni Q. exfalso. now apply (N i n).
Qed.
Lemma later_scales st E cx id x bs key cd : uses E (with_types (upd key cd) (g_reg s)) -> unrelated key -> (st = true -> writable port id x) -> Rg id -> enc port id x bs ->
  exists t g, assocz id (g_names s) = Some t /\ shows port id x g /\ std_env E /\ scale st E cx t bs g [].
Proof.
  intros U N WR R HE. destruct (process_ok c D Rg declarations names fuel r s before counts registered) as ((T & INV) & ALL).
  exact (scales_by_inv_st st T _ _ E cx id x bs (inv_later T _ _ key cd N INV) U ALL WR R HE).
Qed.
Theorem C61_later_registration E cx id x bs key cd : uses E (with_types (upd key cd) (g_reg s)) -> unrelated key -> Rg id -> enc port id x bs ->
  exists t g, assocz id (g_names s) = Some t /\ shows port id x g /\ std_env E /\ scale false E cx t bs g [].
Proof. intros U N. apply (later_scales false E cx id x bs key cd U N). discriminate. Qed.
End C61.
Print Assumptions C61_portable_types_decode_partial.
Print Assumptions C61_later_registration.

(** ** A registry that meets the hypotheses *)
Definition fld (n : string) (t : Z) : sifield := SiField n t "".
Definition px_enum : list sivariant :=
  [SiVariant "Pair" [fld "x" 4; fld "" 6] 5; SiVariant "Nothing" [] 0; SiVariant "Boxed" [fld "" 3] 2].
Definition px_port : portable :=
  [(0, SiType ["sp_core"; "crypto"; "AccountId32"] [] (DComposite [fld "" 1])); (1, SiType [] [] (DArray 32 2)); (2, SiType [] [] (DPrimitive "u8"));
   (3, SiType ["m"; "Foo"] [] (DComposite [fld "a" 4; fld "" 5])); (4, SiType [] [] (DPrimitive "u32")); (5, SiType [] [] (DSequence 4));
   (6, SiType ["Option"] [("T", 3)] (DVariant [SiVariant "None" [] 0; SiVariant "Some" [fld "" 3] 1]));
   (7, SiType ["m"; "E"] [] (DVariant px_enum)); (8, SiType [] [] (DTuple [4; 7])); (9, SiType [] [] (DCompact 4)); (10, SiType [] [] (DArray 2 5));
   (11, SiType ["Result"] [("T", 4); ("E", 7)] (DVariant [SiVariant "Ok" [fld "" 4] 0; SiVariant "Err" [fld "" 7] 1]));
   (12, SiType ["primitive_types"; "H256"] [] (DComposite [fld "" 1])); (13, SiType ["m"; "N"] [] (DComposite [fld "" 8])); (14, SiType [] [] DBitSequence);
   (15, SiType ["n"; "Foo"] [] (DComposite [])); (16, SiType ["m"; "Foo"] [] (DComposite [fld "p" 2; fld "q" 0]))].
Definition px : sictx := SiCtx "" true 100 px_port 20.
Definition px_ids : list Z := map fst px_port.
Definition px_rg (id : Z) : Prop := In id px_ids.
Definition px_dup : list (string * Z) :=
  match each_id (count_name px) (distinct_ids [] px_port) 0 (SiState [] [] base_reg) with Ok s => g_dup s | _ => [] end.
Definition px_state : sistate := match ProcessSiType 10 px base_reg with Ok s => s | _ => SiState [] [] base_reg end.

Lemma px_else id : ~ In id px_ids -> port_get px_port id = zero_type.
Proof.
  intros N. unfold port_get. assert (H : forall p : portable, ~ In id (map fst p) -> assocz id p = None).
  { clear N. induction p as [|[k t] p IH]; [reflexivity|]. cbn [map fst In assocz]. intros N. destruct (Z.eqb_spec id k); [subst; tauto|]. apply IH. tauto. }
  now rewrite H.
Qed.
Ltac px_cases id := destruct (in_dec Z.eq_dec id px_ids) as [PX|PX];
  [cbn in PX; repeat (destruct PX as [PX|PX]; [subst id|]); [..|contradiction]|].
Definition px_named : list (Z * string) :=
  [(0, "sp_core:crypto:AccountId32"); (3, "m:Foo@3"); (7, "m:E"); (12, "primitive_types:H256"); (13, "m:N"); (15, "n:Foo"); (16, "m:Foo@16")].
Lemma px_names id n : named_as px px_dup id n <-> In (id, n) px_named.
Proof.
  split.
  - intros [H NE]. px_cases id; [vm_compute in H; try discriminate H; injection H as <-; try congruence; cbn; tauto ..|]. cbn [i_port px] in H. rewrite (px_else id PX) in H. injection H as <-. congruence.
  - intros H. unfold named_as. cbn in H. repeat (destruct H as [[= <- <-]|H]; [split; [vm_compute; reflexivity|discriminate]|]). contradiction.
Qed.
Lemma px_counted : counted px px_dup.
Proof. eexists. split; vm_compute; reflexivity. Qed.
Lemma px_standard : standard px px_dup base_reg.
Proof. split; intros; reflexivity. Qed.
Definition reservedb (k : string) : bool := existsb (String.eqb k) reserved_names || existsb (fun p => prefix p k) reserved_starts.
Lemma reserved_dec k : reservedb k = false -> ~ reserved k.
Proof.
  unfold reservedb. intros H [I|(p & I & P)]; apply orb_false_iff in H; destruct H as [A B].
  - assert (X : existsb (String.eqb k) reserved_names = true) by (apply existsb_exists; exists k; split; [exact I|apply String.eqb_refl]). congruence.
  - assert (X : existsb (fun p => prefix p k) reserved_starts = true) by (apply existsb_exists; now exists p). congruence.
Qed.
Lemma px_text_ok n : In n (map snd px_named) -> name_text_ok n.
Proof.
  intros H. cbn in H. repeat (destruct H as [<-|H]; [split; [split; [discriminate|]; split; [|split; reflexivity]; cbn [s2b list_ascii_of_string]; repeat (constructor; [unfold name_char; vm_compute; intuition congruence|]); constructor
    |split; [discriminate|split; [discriminate|cbn; lia]]]|]). contradiction.
Qed.
Lemma px_text4 t : text px px_dup px_rg (fun _ => True) 4 t -> t = "u32".
Proof.
  intros H. inversion H; subst; try (match goal with X : def_of _ 4 = _ |- _ => vm_compute in X; congruence end); try (exfalso; match goal with X : ~ px_rg 4 |- _ => apply X; cbn; tauto end);
    try (exfalso; match goal with X : def_of _ 4 = _ \/ def_of _ 4 = _ |- _ => destruct X as [X|X]; vm_compute in X; discriminate X end).
  - vm_compute in H0. discriminate H0.
  - exfalso. apply H0. reflexivity.
  - apply px_names in H0. cbn in H0. intuition congruence.
  - destruct H0 as [_ [f H0]]. vm_compute in H0. discriminate H0.
Qed.
Lemma px_text7 t : text px px_dup px_rg (fun _ => True) 7 t -> t = "m:E".
Proof.
  intros H. inversion H; subst; try (match goal with X : def_of _ 7 = _ |- _ => vm_compute in X; congruence end); try (exfalso; match goal with X : ~ px_rg 7 |- _ => apply X; cbn; tauto end);
    try (exfalso; match goal with X : def_of _ 7 = _ \/ def_of _ 7 = _ |- _ => destruct X as [X|X]; vm_compute in X; discriminate X end).
  - vm_compute in H0. discriminate H0.
  - exfalso. apply H0. reflexivity.
  - apply px_names in H0. cbn in H0. intuition congruence.
  - destruct H0 as [_ [f H0]]. vm_compute in H0. discriminate H0.
  - exfalso. destruct H1 as (p0 & r0 & H1 & H4). vm_compute in H1. injection H1 as <- <-. vm_compute in H4. discriminate H4.
  - exfalso. destruct H1 as (p0 & r0 & H1 & _ & H5). vm_compute in H1. injection H1 as <- <-. vm_compute in H5. discriminate H5.
  - exfalso. destruct H2 as [H2|H2]; vm_compute in H2; discriminate H2.
Qed.
Lemma px_well_named : well_named px px_dup px_rg.
Proof.
  split.
  - intros id n H. apply px_names in H. split; [apply px_text_ok; now apply (in_map snd) in H|]. cbn in H.
    repeat (destruct H as [[= <- <-]|H]; [split; [eexists _, _; split; [reflexivity|left; reflexivity]|split; [now apply reserved_dec|reflexivity]]|]). contradiction.
  - intros i j n m H1 H2. apply px_names in H1. apply px_names in H2. cbn in H1, H2.
    repeat (destruct H1 as [[= <- <-]|H1]; [repeat (destruct H2 as [[= <- <-]|H2]; [vm_compute; congruence|]); contradiction|]). contradiction.
  - intros id n H. px_cases id; try (vm_compute in H; congruence); try (vm_compute in H; injection H as <-; vm_compute; intuition congruence).
    unfold def_of in H. cbn [i_port px] in H. rewrite (px_else id PX) in H. discriminate H.
  - intros id n H P. px_cases id; try (vm_compute in H; congruence); [vm_compute in P; injection P as <-; vm_compute; intuition congruence|].
    unfold prims_path, path_of in H. cbn [i_port px] in H. rewrite (px_else id PX) in H. discriminate H.
  - intros id fs n k r H W. exfalso. px_cases id; try (vm_compute in W; congruence). unfold def_of in H. cbn [i_port px] in H. rewrite (px_else id PX) in H. discriminate H.
  - intros id fs p k H W. exfalso. px_cases id; try (vm_compute in W; congruence). unfold def_of in H. cbn [i_port px] in H. rewrite (px_else id PX) in H. discriminate H.
  - assert (T8 : forall i ks, def_of (i_port px) i = DTuple ks -> ks = [4; 7]).
    { intros i ks H. px_cases i; try (vm_compute in H; congruence). unfold def_of in H. cbn [i_port px] in H. rewrite (px_else i PX) in H. discriminate H. }
    assert (TS : forall ts, texts px px_dup px_rg (fun _ => True) [4; 7] ts -> ts = ["u32"; "m:E"]).
    { intros ts H. inversion H; subst. inversion H4; subst. inversion H6; subst. now rewrite (px_text4 t H2), (px_text7 t0 H3). }
    intros i j ki kj ts us _ Hi Hj Ht Hu _. apply T8 in Hi, Hj. subst. now rewrite (TS ts Ht), (TS us Hu).
Qed.
Ltac px_in := cbn; tauto.
Ltac px_named n := exists n; split; [apply px_names; cbn; tauto|];
  split; [vm_compute; intuition discriminate|]; split; [reflexivity|]; vm_compute; intuition discriminate.
Lemma px_nodup l : (if list_eq_dec string_dec (nodup string_dec l) l then true else false) = true -> NoDup l.
Proof. destruct (list_eq_dec _ _ _) as [Q|]; [|discriminate]. intros _. rewrite <- Q. apply NoDup_nodup. Qed.
Lemma px_reach4 j : reach px_port 4 j -> j = 4.
Proof.
  intros H. inversion H; subst; [reflexivity|]. exfalso. decompose [or ex and] H0; match goal with X : def_of _ 4 = _ |- _ => vm_compute in X; discriminate X end.
Qed.
Lemma px_reach7 j : reach px_port 7 j -> j = 7.
Proof.
  intros H. inversion H; subst; [reflexivity|]. exfalso. decompose [or ex and] H0; try (match goal with X : def_of _ 7 = _ |- _ => vm_compute in X; discriminate X end).
  - destruct H4 as (p & r & Hp & Q). vm_compute in Hp. injection Hp as <- <-. vm_compute in Q. discriminate Q.
  - destruct H4 as (p & r & Hp & _ & Q). vm_compute in Hp. injection Hp as <- <-. vm_compute in Q. discriminate Q.
Qed.
Lemma px_regular id : px_rg id -> regular px px_dup px_rg id.
Proof.
  intros H. unfold px_rg in H. cbn in H. unfold regular.
  repeat (destruct H as [<-|H]; [split; [reflexivity|]; split; [vm_compute; intuition congruence|]; cbn [def_of port_get assocz px px_port i_port Z.eqb Pos.eqb s_def]|]); [..|contradiction].
  - split; [reflexivity|]. split; [reflexivity|]. right. left. exists (fld "" 1), 2. split; [reflexivity|]. split; [reflexivity|]. split; [reflexivity|].
    split; [exists "u8"; now split|]. split; [reflexivity|]. intros j Hj. lia.
  - split; [px_in|]. split; [lia|]. discriminate.
  - split; [px_in|reflexivity].
  - split; [reflexivity|]. split; [reflexivity|]. right. right. split; [discriminate|]. split; [discriminate|]. split; [px_named "m:Foo@3"|].
    split; [repeat constructor; px_in|]. split; [now apply px_nodup|]. discriminate.
  - split; [px_in|reflexivity].
  - split; [px_in|discriminate].
  - left. split; [now exists "Option", []|]. exists "T", 3, []. split; [reflexivity|]. split; [px_in|]. split.
    + intros (k & U & (n & P & Q)). inversion U; subst; [vm_compute in P; discriminate P|]. match goal with X : def_of _ _ = _ |- _ => vm_compute in X; discriminate X end.
    + constructor; [left; now split|]. constructor; [right|constructor]. split; [reflexivity|]. now exists (fld "" 3).
  - right. right. split; [now exists "m", ["E"]|]. split; [discriminate|]. split; [reflexivity|]. split; [reflexivity|]. split; [px_named "m:E"|].
    split; [split; [repeat constructor; cbn; intuition congruence|repeat (constructor; [cbn; lia|]); constructor]|].
    repeat (constructor; [split; [repeat constructor; px_in|now apply px_nodup]|]). constructor.
  - split; [repeat constructor; px_in|discriminate].
  - split; [px_in|]. split; [|discriminate]. left. exists 4. split; [constructor|]. now exists "u32".
  - split; [px_in|]. split; [lia|discriminate].
  - right. left. split; [now exists "Result", []|]. exists "T", 4, "E", 7, []. split; [reflexivity|]. split; [px_in|]. split; [px_in|]. split.
    + intros k j ws [-> | ->] RC W RP; [apply px_reach4 in RC|apply px_reach7 in RC]; subst j; destruct RP as (p & r & Hp & _ & Q); vm_compute in Hp; [discriminate Hp|]. injection Hp as <- <-. vm_compute in Q. discriminate Q.
    + constructor; [exists (fld "" 4); split; [reflexivity|left; now split]|]. constructor; [exists (fld "" 7); split; [reflexivity|right; now split]|constructor].
  - split; [reflexivity|]. split; [reflexivity|]. left. exists (fld "" 1), "H256", 32, 2. split; [reflexivity|]. split; [reflexivity|]. split; [reflexivity|]. split; [px_in|]. split; [reflexivity|]. exists "u8". now split.
  - split; [reflexivity|]. split; [reflexivity|]. right. right. split; [discriminate|]. split; [discriminate|]. split; [px_named "m:N"|].
    split; [repeat constructor; px_in|]. split; [now apply px_nodup|]. intros f [= <-]. split; [discriminate|]. intros k U. cbn [f_type fld] in U.
    assert (K : k = 8) by (inversion U; subst; [reflexivity|match goal with X : def_of _ _ = _ |- _ => vm_compute in X; discriminate X end]). subst k. split; [intros (_ & vs & X); vm_compute in X; discriminate X|]. intros n e X. vm_compute in X. discriminate X.
  - discriminate.
  - split; [reflexivity|]. split; [reflexivity|]. right. right. split; [discriminate|]. split; [discriminate|]. split; [px_named "n:Foo"|].
    split; [constructor|]. split; [constructor|]. discriminate.
  - split; [reflexivity|]. split; [reflexivity|]. right. right. split; [discriminate|]. split; [discriminate|]. split; [px_named "m:Foo@16"|].
    split; [repeat constructor; px_in|]. split; [now apply px_nodup|]. discriminate.
Qed.
Lemma px_registered : ProcessSiType 10 px base_reg = Ok px_state.
Proof. vm_compute. reflexivity. Qed.
Ltac run n := split; [discriminate|exists n; vm_compute; reflexivity].
Definition px_value : pval := PSeq [PSeq [PNum 5; PVar 5 [PNum 1; PVar 1 [PSeq [PNum 2; PSeq [PNum 3]]]]]].
Definition px_bytes : bytes := map Zb [5; 0; 0; 0; 5; 1; 0; 0; 0; 1; 2; 0; 0; 0; 4; 3; 0; 0; 0].
Lemma px_u32 z : 0 <= z < 2 ^ 32 -> enc px_port 4 (PNum z) (le_bytes 4 z).
Proof. intros H. apply (enc_unsigned px_port 4 "u32" 4 z); [now exists "u32"|cbn; tauto|exact H]. Qed.
Lemma encs_step port k ks x l b bs bs' : enc port k x b -> encs port ks l bs' -> bs = (b ++ bs')%list -> encs port (k :: ks) (x :: l) bs.
Proof. intros A B ->. now constructor. Qed.
Lemma px_enc : enc px_port 13 px_value px_bytes.
Proof.
  apply (enc_composite px_port 13 [fld "" 8] _ px_bytes eq_refl). eapply encs_step with (b := px_bytes); [|constructor|reflexivity].
  apply (enc_tuple px_port 8 [4; 7] _ px_bytes eq_refl).
  eapply encs_step; [now apply px_u32| |reflexivity]. eapply encs_step; [|constructor|].
  - apply (enc_variant px_port 7 px_enum (SiVariant "Pair" [fld "x" 4; fld "" 6] 5) _ (map Zb [1; 0; 0; 0; 1; 2; 0; 0; 0; 4; 3; 0; 0; 0]) eq_refl); [cbn; tauto|].
    eapply encs_step; [now apply px_u32| |reflexivity]. eapply encs_step; [|constructor|].
    + apply (enc_variant px_port 6 _ (SiVariant "Some" [fld "" 3] 1) _ (map Zb [2; 0; 0; 0; 4; 3; 0; 0; 0]) eq_refl); [cbn; tauto|].
      eapply encs_step; [|constructor|].
      * apply (enc_composite px_port 3 [fld "a" 4; fld "" 5] _ (map Zb [2; 0; 0; 0; 4; 3; 0; 0; 0]) eq_refl). eapply encs_step; [now apply px_u32| |reflexivity].
        eapply encs_step; [|constructor|].
        -- apply (enc_sequence px_port 5 4 _ (map Zb [3; 0; 0; 0]) eq_refl); [|left; cbn; lia]. eapply encs_step; [now apply px_u32|constructor|reflexivity].
        -- vm_compute. reflexivity.
      * reflexivity.
    + reflexivity.
  - reflexivity.
Qed.
(** All hypotheses of C61 hold here, for all 17 types. *)
Example C61_example cx pre tl : blen (pre ++ px_bytes ++ tl) < 2 ^ 63 ->
  exists t g, assocz 13 (g_names px_state) = Some t /\ shows px_port 13 px_value g
    /\ Decodes (reg_env (g_reg px_state)) cx (pre ++ px_bytes ++ tl) (blen pre) t (Ok (g, blen pre + blen px_bytes, [])).
Proof.
  apply (C61_portable_types_decode_partial px px_dup px_rg px_counted px_well_named px_regular base_reg 10 px_state px_standard px_registered);
  [split; reflexivity|px_in|exact px_enc].
Qed.
Example C61_example_names : map (fun k => assocz k (g_names px_state)) px_ids =
  [Some "AccountId"; Some "[u8; 32]"; Some "u8"; Some "m:Foo@3"; Some "u32"; Some "Vec<u32>"; Some "option<m:Foo@3>"; Some "m:E"; Some "Tuple:u32m:E";
   Some "compact<u32>"; Some "[Vec<u32>; 2]"; Some "Result<u32,m:E>"; Some "H256"; Some "Tuple:u32m:E"; Some "BitVec"; Some "n:Foo"; Some "m:Foo@16"].
Proof. vm_compute. reflexivity. Qed.
Example C61_example_value : Decodes (reg_env (g_reg px_state)) (Ctx 100 "" None) px_bytes 0 "Tuple:u32m:E"
  (Ok (VMap [("col1", VU32 5); ("col2", VMap [("Pair", VMap [("x", VU32 1); ("col1", VMap [("a", VU32 2); ("col2", VSlice [VU32 3])])])])], 19, [])).
Proof. run 12%nat. Qed.

(** ** Declarations the claim has to leave out *)
Definition run_of (p : portable) : sistate :=
  match ProcessSiType 10 (SiCtx "" true 100 p 20) base_reg with Ok s => s | _ => SiState [] [] base_reg end.
Definition reads_as (p : portable) (id : Z) (bs : list Z) (o : outcome) : Prop :=
  exists t, ProcessSiType 10 (SiCtx "" true 100 p 20) base_reg = Ok (run_of p) /\ assocz id (g_names (run_of p)) = Some t /\
    Decodes (reg_env (g_reg (run_of p))) (Ctx 100 "" None) (map Zb bs) 0 t o.
Ltac reads t := exists t; split; [vm_compute; reflexivity|]; split; [vm_compute; reflexivity|run 12%nat].
Definition u8t : sitype := SiType [] [] (DPrimitive "u8").

(** Some(false) of a declared Option<bool> is shown as true, and its second
    byte is left for the next value. *)
Definition rf_bool : portable :=
  [(0, SiType [] [] (DPrimitive "bool")); (1, SiType ["Option"] [("T", 0)] (DVariant [SiVariant "None" [] 0; SiVariant "Some" [fld "" 0] 1]))].
Theorem C61_option_bool_refuted : enc rf_bool 1 (PVar 1 [PBool false]) (map Zb [1; 0]) /\ reads_as rf_bool 1 [1; 0] (Ok (VBool true, 1, [])).
Proof.
  split; [|reads "option<bool>"]. apply (enc_variant rf_bool 1 _ (SiVariant "Some" [fld "" 0] 1) [PBool false] [Zb 0] eq_refl); [cbn; tauto|].
  eapply encs_step; [apply (enc_bool rf_bool 0 false); now exists "bool"|constructor|reflexivity].
Qed.
(** A struct with a field whose type is a one-field struct over a Result (or
    over an array of arrays) declared later: the name of the field's type is
    never registered. *)
Definition rf_result : portable :=
  [(0, u8t); (1, SiType ["m"; "S"] [] (DComposite [fld "a" 2; fld "b" 0])); (2, SiType ["m"; "W"] [] (DComposite [fld "" 3]));
   (3, SiType ["Result"] [("T", 0); ("E", 0)] (DVariant [SiVariant "Ok" [fld "" 0] 0; SiVariant "Err" [fld "" 0] 1]))].
Lemma rf_u8 p z : def_of p 0 = DPrimitive "u8" -> 0 <= z < 2 ^ 8 -> enc p 0 (PNum z) (le_bytes 1 z).
Proof. intros Q H. apply (enc_unsigned p 0 "u8" 1 z); [now exists "u8"|cbn; tauto|exact H]. Qed.
Theorem C61_newtype_refuted : enc rf_result 1 (PSeq [PSeq [PVar 0 [PNum 7]]; PNum 8]) (map Zb [0; 7; 8])
  /\ reads_as rf_result 1 [0; 7; 8] (Panic "Not found decoder class m:W").
Proof.
  split; [|reads "m:S"]. apply (enc_composite rf_result 1 [fld "a" 2; fld "b" 0] _ _ eq_refl). eapply encs_step with (b := map Zb [0; 7]); [| |reflexivity].
  - apply (enc_composite rf_result 2 [fld "" 3] _ _ eq_refl). eapply encs_step; [|constructor|].
    + apply (enc_variant rf_result 3 _ (SiVariant "Ok" [fld "" 0] 0) [PNum 7] [Zb 7] eq_refl); [cbn; tauto|]. eapply encs_step; [now apply rf_u8|constructor|reflexivity].
    + reflexivity.
  - eapply encs_step; [now apply rf_u8|constructor|reflexivity].
Qed.
(** An opaque wrapper around a primitive type takes the name of that type
    away: fields of type u8 are then shown as nil and no byte is read. *)
Definition rf_wrapper : portable :=
  [(0, u8t); (1, SiType ["frame_support"; "WrapperOpaque"] [("T", 0)] (DComposite [fld "" 0; fld "" 0])); (2, SiType ["m"; "S"] [] (DComposite [fld "a" 0; fld "b" 0]))].
Theorem C61_wrapper_refuted : enc rf_wrapper 2 (PSeq [PNum 7; PNum 8]) (map Zb [7; 8])
  /\ reads_as rf_wrapper 2 [7; 8] (Ok (VMap [("a", VNil); ("b", VNil)], 0, [])).
Proof.
  split; [|reads "m:S"]. apply (enc_composite rf_wrapper 2 [fld "a" 0; fld "b" 0] _ _ eq_refl).
  eapply encs_step; [now apply (rf_u8 rf_wrapper 7)|eapply encs_step; [now apply (rf_u8 rf_wrapper 8)|constructor|reflexivity]|reflexivity].
Qed.
(** An enum called Event is taken for a call. *)
Definition rf_event : portable := [(0, u8t); (1, SiType ["m"; "Event"] [] (DVariant [SiVariant "A" [fld "" 0] 0]))].
Theorem C61_event_refuted : enc rf_event 1 (PVar 0 [PNum 5]) (map Zb [0; 5])
  /\ reads_as rf_event 1 [0; 5] (Panic "runtime error: invalid memory address or nil pointer dereference").
Proof.
  split; [|reads "Call"]. apply (enc_variant rf_event 1 _ (SiVariant "A" [fld "" 0] 0) [PNum 5] [Zb 5] eq_refl); [cbn; tauto|].
  eapply encs_step; [now apply rf_u8|constructor|reflexivity].
Qed.
(** Tuples of different types may share one name: that of type 3 is registered
    with the field of type 4. *)
Definition rf_tuples : portable :=
  [(0, u8t); (1, SiType ["a"] [] (DComposite [fld "x" 0; fld "y" 0])); (2, SiType ["au8"] [] (DComposite [fld "z" 0; fld "t" 0]));
   (3, SiType [] [] (DTuple [1; 0])); (4, SiType [] [] (DTuple [2]))].
Theorem C61_tuples_refuted : enc rf_tuples 3 (PSeq [PSeq [PNum 1; PNum 2]; PNum 3]) (map Zb [1; 2; 3])
  /\ reads_as rf_tuples 3 [1; 2; 3] (Ok (VMap [("col1", VMap [("z", VInt 1); ("t", VInt 2)])], 2, [])).
Proof.
  split; [|reads "Tuple:au8"]. apply (enc_tuple rf_tuples 3 [1; 0] _ _ eq_refl). eapply encs_step with (b := map Zb [1; 2]); [| |reflexivity].
  - apply (enc_composite rf_tuples 1 [fld "x" 0; fld "y" 0] _ _ eq_refl). eapply encs_step; [now apply (rf_u8 rf_tuples 1)|eapply encs_step; [now apply (rf_u8 rf_tuples 2)|constructor|reflexivity]|reflexivity].
  - eapply encs_step; [now apply (rf_u8 rf_tuples 3)|constructor|reflexivity].
Qed.

Print Assumptions C61_option_bool_refuted.
Print Assumptions C61_newtype_refuted.
Print Assumptions C61_wrapper_refuted.
Print Assumptions C61_event_refuted.
Print Assumptions C61_tuples_refuted.
