(** C74: contracts registered under different prefixes decode side by side. *)

From Verif Require Import GoBase SpecNum ModelTools ModelVal ModelRegistry ModelDecode ModelRegister ModelScaleInfo ModelContract SpecScale ProofsBase ProofsTools ProofsNames ProofsTexts
  PropCodec PropScaleInfo SpecPortable ProofsPortText ProofsPortReg ProofsPortDecode PropPortable.

(** ** What is claimed *)
(** The types of one set of declarations, with the counts of its paths and the
    ids of the types the claim is about. *)
Record party := Party { p_ctx : sictx; p_counts : list (string * Z); p_ids : Z -> Prop }.
Definition p_port (a : party) : portable := i_port (p_ctx a).
(** The declarations meet the conditions of C61. *)
Definition sound (a : party) : Prop :=
  counted (p_ctx a) (p_counts a) /\ well_named (p_ctx a) (p_counts a) (p_ids a) /\ forall id, p_ids a id -> regular (p_ctx a) (p_counts a) (p_ids a) id.
Definition ready_for (a : party) (r : reg) : Prop := sound a /\ standard (p_ctx a) (p_counts a) r.
(** No name of one is a name of the other, letter case aside. *)
Definition names_apart (a b : party) : Prop :=
  forall i j n m, named_as (p_ctx a) (p_counts a) i n -> named_as (p_ctx b) (p_counts b) j m -> to_lower n <> to_lower m.
(** Tuples with the same text have the same components. *)
Definition tuples_apart (a b : party) : Prop :=
  forall i j ki kj ts us, def_of (p_port a) i = DTuple ki -> def_of (p_port b) j = DTuple kj ->
    texts (p_ctx a) (p_counts a) (p_ids a) (fun _ => True) ki ts -> texts (p_ctx b) (p_counts b) (p_ids b) (fun _ => True) kj us ->
    to_lower (join "" ts) = to_lower (join "" us) -> ts = us.
Definition apart (a b : party) : Prop := names_apart a b /\ tuples_apart a b.
(** A contract as it is registered. *)
Record contract := Contract { k_prefix : string; k_spec : Z; k_types : list abi_type; k_fuel : nat; k_counts : list (string * Z); k_ids : Z -> Prop }.
Definition of_contract (k : contract) : party := Party (abi_ctx (k_fuel k) (k_prefix k) (k_spec k) (k_types k)) (k_counts k) (k_ids k).
(** Contracts registered one after the other, each with a decoder that has been
    initialised; with each contract the names GetTypeNames then gives. *)
Inductive loads : reg -> list (contract * list (Z * string)) -> reg -> Prop :=
| ld_nil r : loads r [] r
| ld_cons r k old d' r1 l r2 : Register (k_fuel k) (k_prefix k) (k_types k) (AbiDecoder (Some []) (k_spec k) old) r = Ok (d', r1) -> loads r1 l r2 ->
    loads r ((k, b_names d') :: l) r2.

(** ** One registration *)
Lemma register_process f p l sp old r d' r' : Register f p l (AbiDecoder (Some []) sp old) r = Ok (d', r') ->
  exists s, ProcessSiType f (abi_ctx f p sp l) r = Ok s /\ b_names d' = g_names s /\ r' = g_reg s.
Proof.
  unfold Register. cbn [b_dup b_spec]. intros H. apply bind_ok in H. destruct H as (s & H & Q). injection Q as <- <-. exists s. split; [exact H|]. now split.
Qed.

Definition invariant (k : party) (T : string -> Prop) (ns : list (Z * string)) (r : reg) : Prop := Inv0 (p_ctx k) (p_counts k) (p_ids k) T (SiState ns (p_counts k) r).

Lemma unrelated_name a b j m : sound b -> names_apart a b -> nameSiType (p_ctx b) (p_counts b) (port_get (p_port b) j) j = Ok m ->
  unrelated (p_ctx a) (p_counts a) (p_ids a) (to_lower m).
Proof.
  intros (_ & WN & _) N H. destruct (String.eqb_spec m "") as [->|NE].
  - split; [intros i n _ _ [_ X] Q; destruct n; [contradiction|discriminate]|]. split; [reflexivity|]. intros [[I|(p & I & P)] _].
    + vm_compute in I. repeat (destruct I as [I|I]; [discriminate I|]). exact I.
    + vm_compute in I. repeat (destruct I as [<-|I]; [discriminate P|]). exact I.
  - assert (A : named_as (p_ctx b) (p_counts b) j m) by now split. split; [intros i n _ _ X; exact (N i j n m X A)|].
    split; [exact (name_not_tuple _ _ _ WN j m A)|exact (name_unreserved _ _ _ WN j m A)].
Qed.
Lemma unrelated_foreign a key : sound a -> foreign key -> unrelated (p_ctx a) (p_counts a) (p_ids a) (to_lower key).
Proof.
  intros (_ & WN & REG) F. destruct (foreign_no (p_ctx a) (p_counts a) (p_ids a) REG key F) as (F1 & F2 & F3). split; [|split; [|exact F2]].
  - intros i n R E Hn Q. destruct (name_regular_of _ _ _ REG i n R E Hn) as (m & [Hm _] & _ & P1 & P2). destruct Hn as [Hn HN]. rewrite Hn in Hm. injection Hm as <-.
    destruct F as [->|[F|F]]; [destruct n; [contradiction|discriminate]|rewrite Q in P2; contradiction|rewrite Q in P1; congruence].
  - destruct (prefix "tuple:" (to_lower key)) eqn:P; [|reflexivity]. exfalso. destruct F as [->|[F|F]].
    + discriminate P.
    + cbn [In] in F. destruct F as [F|[F|[]]]; rewrite <- F in P; discriminate P.
    + destruct (to_lower key) as [|x y]; [discriminate|]. cbn [prefix] in F, P. destruct (Ascii.eqb_spec "p"%char x) as [<-|]; [|discriminate]. discriminate P.
Qed.
(** Registering a tuple that another contract may have registered. *)
Lemma inv_tuple a T ns r k us : sound a -> prefix "tuple:" k = true ->
  (forall j ks vs, def_of (p_port a) j = DTuple ks -> texts (p_ctx a) (p_counts a) (p_ids a) T ks vs -> k = to_lower ("Tuple:" ++ join "" vs) -> vs = us) ->
  invariant a T ns r -> invariant a T ns (with_types (upd k (CStruct (Some (combine (positions 1 us) us)))) r).
Proof.
  intros (_ & WN & _) P S [I1 I2 I3 I4 I5 I6 I7 I8]. cbn [g_reg g_names g_dup] in *.
  constructor; cbn [g_reg g_names g_dup with_types r_types r_special r_v14]; try assumption.
  - intros k' K. rewrite assoc_upd. destruct (String.eqb_spec k' k) as [->|]; [destruct K as [_ K]; congruence|]. now apply I4.
  - intros k' K. destruct (I5 k' K) as (cd' & A & B). rewrite assoc_upd. destruct (String.eqb_spec k' k) as [->|]; [|now exists cd'].
    eexists. split; [reflexivity|]. split.
    + intros i n _ _ Hn Q. rewrite Q, (name_not_tuple _ _ _ WN i n Hn) in P. discriminate P.
    + intros _. destruct (proj2 B P) as (j & ks & vs & Q1 & Q2 & Q3 & Q4 & _). pose proof (S j ks vs Q1 Q3 Q4) as <-. exists j, ks, vs. auto.
Qed.
Lemma tuple_text_eq vs us : to_lower ("Tuple:" ++ join "" us) = to_lower ("Tuple:" ++ join "" vs) -> to_lower (join "" vs) = to_lower (join "" us).
Proof. rewrite !to_lower_app'. change (to_lower "Tuple:") with "tuple:". cbn [String.append]. congruence. Qed.

(** A registration keeps the invariant of another contract, and the ranges of
    versions and V14 declarations of all names. *)
Definition keeps (a : party) (T : string -> Prop) (ns : list (Z * string)) (r0 r : reg) : Prop :=
  r_special r = r_special r0 /\ r_v14 r = r_v14 r0 /\ (invariant a T ns r0 -> invariant a T ns r).
Lemma keeps_upd a T ns r0 r key cd : keeps a T ns r0 r -> (invariant a T ns r -> invariant a T ns (with_types (upd key cd) r)) -> keeps a T ns r0 (with_types (upd key cd) r).
Proof. intros (A & B & C) H. split; [exact A|]. split; [exact B|]. intros I. now apply H, C. Qed.
Lemma plain_in k t : i_v14 (p_ctx k) = false -> usual_in (p_ctx k) t -> t_v14 t = false.
Proof. intros V [_ U]. destruct (t_v14 t); [|reflexivity]. specialize (U eq_refl). congruence. Qed.

Lemma run_keeps a b T ns fuel r s : i_v14 (p_ctx b) = false -> sound a -> sound b -> names_apart a b -> tuples_apart a b -> standard (p_ctx b) (p_counts b) r ->
  ProcessSiType fuel (p_ctx b) r = Ok s ->
  keeps a T ns r (g_reg s) /\ (exists T', invariant b T' (g_names s) (g_reg s)) /\ forall i, p_ids b i -> exists t, assocz i (g_names s) = Some t.
Proof.
  intros V14 SA SB NA TA ST H. destruct SB as (CB & WB & RB). pose proof (conj CB (conj WB RB)) as SB.
  assert (X : (exists T', Inv (p_ctx b) (p_counts b) (p_ids b) (keeps a T ns r) T' (SiState (g_names s) (p_counts b) (g_reg s))) /\ forall i, p_ids b i -> exists t, assocz i (g_names s) = Some t).
  { apply (process_keeps (p_ctx b) (p_counts b) (p_ids b) RB WB (keeps a T ns r)) with (fuel := fuel) (r := r); [| | |exact ST|split; [reflexivity|split; [reflexivity|trivial]]|exact CB|exact H].
    - intros id n t s1 s2 Hn Hr U KP. pose proof (plain_in b t V14 U) as V. destruct U as [U _].
      assert (NH : ~ has_char "#"%char n).
      { destruct (name_cases (p_ctx b) (p_counts b) id n Hn) as [->|A]; [intros []|]. exact (name_nohash (p_ctx b) (p_counts b) (p_ids b) WB id n A). }
      destruct (reg_one_plain _ _ _ _ _ Hr U NH V) as [(cd & _ & ->)|Q]; [|congruence]. apply keeps_upd; [exact KP|]. apply inv_later. exact (unrelated_name a b id n SB NA Hn).
    - intros key t s1 s2 F NH Hr U KP. pose proof (plain_in b t V14 U) as V. destruct U as [U _].
      destruct (reg_one_plain _ _ _ _ _ Hr U NH V) as [(cd & _ & ->)|Q]; [|congruence]. apply keeps_upd; [exact KP|]. apply inv_later. exact (unrelated_foreign a key SA F).
    - intros T2 id ks us s1 s2 DT NE X Hr KP.
      assert (NH : ~ has_char "#"%char ("Tuple:" ++ join "" us)).
      { rewrite has_char_app. intros [Y|Y]; [revert Y; now apply nohash_lit|]. revert Y. now apply (proj2 (text_nohash (p_ctx b) (p_counts b) (p_ids b) WB T2) ks). }
      destruct (reg_one_plain _ _ _ _ _ Hr) as [(cd & Y & ->)|Q]; [unfold usual; cbn; tauto|exact NH|exact V14| |congruence]. apply keeps_upd; [exact KP|].
      assert (CD : cd = CStruct (Some (combine (positions 1 us) us))).
      { unfold yields in Y. cbn [t_type t_mapping String.eqb Ascii.eqb Bool.eqb] in Y. rewrite tuple_rows_map in Y. apply texts_len in X. destruct us as [|x us]; [destruct ks; [contradiction|discriminate]|].
        destruct Y as (m & [= <-] & ->). reflexivity. }
      rewrite CD. apply inv_tuple; [exact SA|apply tuple_prefix; reflexivity|]. intros j ks' vs D1 X1 Q. apply (TA j id ks' ks vs us D1 DT).
      + revert X1. apply texts_up. intros k _. exact I.
      + revert X. apply texts_up. intros k _. exact I.
      + now apply tuple_text_eq. }
  destruct X as [(T' & INV) ALL]. split; [exact (i_other _ _ _ _ _ _ INV)|]. split; [|exact ALL]. exists T'. destruct INV as [I1 I2 I3 I4 I5 I6 I7 I8]. now constructor.
Qed.
(** The registry stays standard for every other contract. *)
Lemma standard_kept c D b T' ns r r' : i_v14 c = false -> r_special r' = r_special r -> invariant b T' ns r' -> standard c D r -> standard c D r'.
Proof.
  intros V A I [S1 S2 S3 S4]. split.
  - intros k K P. exact (proj1 (i_base _ _ _ _ _ _ I k (conj K P))).
  - intros k K. rewrite A. now apply S2.
  - intros i n H. rewrite A. now apply (S3 i).
  - intros X. congruence.
Qed.
(** The same for no other contract. *)
Lemma run_alone b fuel r s : i_v14 (p_ctx b) = false -> sound b -> standard (p_ctx b) (p_counts b) r -> ProcessSiType fuel (p_ctx b) r = Ok s ->
  r_special (g_reg s) = r_special r /\ (exists T', invariant b T' (g_names s) (g_reg s)) /\ forall i, p_ids b i -> exists t, assocz i (g_names s) = Some t.
Proof.
  intros V14 SB ST H. pose (nobody := Party (SiCtx "" false 0 [] 0) [] (fun _ => False)).
  assert (SN : sound nobody).
  { split; [eexists; split; reflexivity|]. split; [|intros id []].
    assert (N : forall i n, ~ named_as (p_ctx nobody) (p_counts nobody) i n) by (intros i n [X Y]; injection X as <-; congruence).
    split; try (intros; exfalso; eapply N; eassumption); try (intros; discriminate). }
  destruct (run_keeps nobody b (fun _ => True) [] fuel r s V14 SN SB) as ((A & _) & B); [| |exact ST|exact H|now split].
  - intros i j n m [X Y] _. injection X as <-. congruence.
  - intros i j ki kj ts us X. discriminate X.
Qed.
Definition plain_tuples (r : reg) : Prop := forall k, prefix "tuple:" k = true -> assoc k (r_special r) = None.
(** What another registration leaves as it was: the ranges of versions of the
    names of [b]. *)
Lemma ready_after a b fuel r s : i_v14 (p_ctx b) = false -> sound a -> sound b -> names_apart a b -> standard (p_ctx a) (p_counts a) r -> standard (p_ctx b) (p_counts b) r ->
  ProcessSiType fuel (p_ctx a) r = Ok s -> plain_tuples (g_reg s) -> standard (p_ctx b) (p_counts b) (g_reg s).
Proof.
  intros V14 SA SB NA STA STB H TUPLES. pose proof SA as (CA & WA & RA). pose proof SB as (CB & WB & RB).
  pose (Keep := fun r' : reg => forall i n, named_as (p_ctx b) (p_counts b) i n -> ordinary n -> assoc (to_lower n) (r_special r') = None).
  assert (ONE : forall key t s1 s2, reg_one (p_ctx a) key t s1 = Ok s2 -> usual t -> ~ has_char "#"%char key -> (forall j m, named_as (p_ctx b) (p_counts b) j m -> ordinary m -> to_lower m <> to_lower key) ->
    Keep (g_reg s1) -> Keep (g_reg s2)).
  { intros key t s1 s2 HR U NH D K i n N O. specialize (K i n N O). destruct (reg_one_cases _ _ _ _ _ HR U NH) as (_ & _ & [(Q & _)|[(cd & _ & _ & Q & _)|[(cd & lo & hi & _ & _ & _ & _ & _ & Q)|(_ & _ & Q & _)]]]).
    - now rewrite Q.
    - now rewrite Q.
    - rewrite Q, assoc_upd. destruct (String.eqb_spec (to_lower n) (to_lower key)) as [X|]; [exfalso; exact (D i n N O X)|exact K].
    - now rewrite Q. }
  assert (X : (exists T', Inv (p_ctx a) (p_counts a) (p_ids a) Keep T' (SiState (g_names s) (p_counts a) (g_reg s))) /\ forall i, p_ids a i -> exists t, assocz i (g_names s) = Some t).
  { apply (process_keeps (p_ctx a) (p_counts a) (p_ids a) RA WA Keep) with (fuel := fuel) (r := r); [| | |exact STA|exact (st_special_named _ _ _ STB)|exact CA|exact H].
    - intros id n t s1 s2 Hn HR [U _]. destruct (name_cases (p_ctx a) (p_counts a) id n Hn) as [->|A].
      + apply (ONE "" t s1 s2 HR U); [intros []|]. intros j m [_ Y] _ Q. destruct m; [congruence|discriminate].
      + apply (ONE n t s1 s2 HR U (name_nohash (p_ctx a) (p_counts a) (p_ids a) WA id n A)). intros j m B _ Q. exact (NA id j n m A B (eq_sym Q)).
    - intros key t s1 s2 F NH HR [U _]. apply (ONE key t s1 s2 HR U NH). intros j m [_ Y] [O1 O2] Q. destruct F as [->|[F|F]]; [destruct m; [congruence|discriminate]|rewrite Q in O2; contradiction|congruence].
    - intros T2 id ks us s1 s2 DT NE X HR. apply (ONE _ _ s1 s2 HR).
      + unfold usual. cbn. tauto.
      + rewrite has_char_app. intros [Y|Y]; [revert Y; now apply nohash_lit|]. revert Y. now apply (proj2 (text_nohash (p_ctx a) (p_counts a) (p_ids a) WA T2) ks).
      + intros j m B _ Q. pose proof (name_not_tuple _ _ _ WB j m B) as Y. rewrite Q, tuple_prefix in Y; [discriminate Y|reflexivity]. }
  destruct X as [(T' & INV) _]. split.
  - intros k K P. exact (proj1 (i_base _ _ _ _ _ _ INV k (conj K P))).
  - intros k K. destruct (prefix "tuple:" k) eqn:P; [|exact (proj2 (i_base _ _ _ _ _ _ INV k (conj K P)))]. exact (TUPLES k P).
  - exact (i_other _ _ _ _ _ _ INV).
  - intros X. congruence.
Qed.
(** ** Histories *)
Definition histories_apart : list (contract * list (Z * string)) -> Prop := ForallOrdPairs (fun p q => apart (of_contract (fst p)) (of_contract (fst q))).
Definition all_ready (l : list (contract * list (Z * string))) (r : reg) : Prop := Forall (fun p => ready_for (of_contract (fst p)) r) l.
Lemma survives a T ns r l r' : sound a -> loads r l r' -> all_ready l r -> Forall (fun p => apart a (of_contract (fst p))) l -> invariant a T ns r -> invariant a T ns r'.
Proof.
  intros SA L. induction L as [r|r k old d' r1 l r2 H L IH]; intros ST AP INV; [exact INV|].
  inversion ST as [|? ? [SK STK] ST']; subst. inversion AP as [|? ? [NA TA] AP']; subst. cbn [fst] in *.
  destruct (register_process _ _ _ _ _ _ _ _ H) as (s & P & _ & ->). destruct (run_keeps a (of_contract k) T ns _ r s eq_refl SA SK NA TA STK P) as ((SP & _ & KI) & (T' & IK) & _).
  apply IH; [|exact AP'|now apply KI]. eapply Forall_impl; [|exact ST']. intros p [S1 S2]. split; [exact S1|]. exact (standard_kept (p_ctx (of_contract (fst p))) (p_counts (of_contract (fst p))) (of_contract k) T' _ r _ eq_refl SP IK S2).
Qed.
(** Registered when others have been, and after that others again. *)
Lemma decodes_among a T ns r l r' E cx id x bs pre tl : sound a -> loads r l r' -> all_ready l r -> Forall (fun p => apart a (of_contract (fst p))) l ->
  invariant a T ns r -> (forall i, p_ids a i -> exists t, assocz i ns = Some t) -> uses E r' -> p_ids a id -> enc (p_port a) id x bs -> blen (pre ++ bs ++ tl) < 2 ^ 63 ->
  exists g, shows (p_port a) id x g /\ Decodes E cx (pre ++ bs ++ tl) (blen pre) (GetTypeNames ns id) (Ok (g, blen pre + blen bs, [])).
Proof.
  intros SA L AR AP INV ALL U R HE LEN. pose proof (survives a T ns r l r' SA L AR AP INV) as INV'. destruct SA as (CA & WA & RA).
  destruct (decodes_by_inv (p_ctx a) (p_counts a) (p_ids a) WA RA T _ _ E cx id x bs pre tl INV' U ALL R HE LEN) as (t & g & H1 & H2 & H3).
  exists g. split; [exact H2|]. unfold GetTypeNames. now rewrite H1.
Qed.

Theorem C74_contracts r0 l r' : loads r0 l r' -> all_ready l r0 -> histories_apart l ->
  forall k names E cx id x bs pre tl, In (k, names) l -> uses E r' -> k_ids k id -> enc (abi_portable (k_types k)) id x bs -> blen (pre ++ bs ++ tl) < 2 ^ 63 ->
  exists g, shows (abi_portable (k_types k)) id x g /\ Decodes E cx (pre ++ bs ++ tl) (blen pre) (GetTypeNames names id) (Ok (g, blen pre + blen bs, [])).
Proof.
  intros L. induction L as [r|r k old d' r1 l r2 H L IH]; intros ST AP k0 names E cx id x bs pre tl I U R HE LEN; [destruct I|].
  inversion ST as [|? ? [SK STK] ST']; subst. inversion AP as [|? ? AP1 AP2]; subst. cbn [fst] in *.
  destruct (register_process _ _ _ _ _ _ _ _ H) as (s & P & N & Q). subst r1.
  destruct (run_alone (of_contract k) _ r s eq_refl SK STK P) as (SP & (T' & INV) & ALL).
  assert (ST2 : all_ready l (g_reg s)).
  { eapply Forall_impl; [|exact ST']. intros p [S1 S2]. split; [exact S1|]. exact (standard_kept (p_ctx (of_contract (fst p))) (p_counts (of_contract (fst p))) (of_contract k) T' _ r _ eq_refl SP INV S2). }
  destruct I as [I|I]; [|exact (IH ST2 AP2 k0 names E cx id x bs pre tl I U R HE LEN)]. injection I as <- <-. rewrite N.
  exact (decodes_among (of_contract k) T' _ _ _ _ E cx id x bs pre tl SK L ST2 AP1 INV ALL U R HE LEN).
Qed.
Print Assumptions C74_contracts.

(** What the JSON of a type says, when it names one kind of definition. *)
Inductive declares : abi_def -> sidef -> Prop :=
| dc_composite fs : declares (AbiDef (Some fs) None None None None None None false false) (DComposite fs)
| dc_variant vs : declares (AbiDef None (Some vs) None None None None None false false) (DVariant vs)
| dc_sequence t : declares (AbiDef None None (Some t) None None None None false false) (DSequence t)
| dc_array n t : declares (AbiDef None None None (Some (n, t)) None None None false false) (DArray n t)
| dc_tuple l : declares (AbiDef None None None None (Some l) None None false false) (DTuple l)
| dc_primitive n : declares (AbiDef None None None None None (Some n) None false false) (DPrimitive n)
| dc_compact t : declares (AbiDef None None None None None None (Some t) false false) (DCompact t)
| dc_bits : declares (AbiDef None None None None None None None true false) DBitSequence
| dc_range : declares (AbiDef None None None None None None None false true) DRange.
Lemma assocz_rev {A} k (v : A) l1 l2 : ~ In k (map fst l2) -> assocz k (rev (l1 ++ (k, v) :: l2)) = Some v.
Proof.
  intros N. rewrite rev_app_distr. cbn [rev]. rewrite <- app_assoc. cbn [app].
  assert (N' : ~ In k (map fst (rev l2))) by (now rewrite map_rev, <- in_rev).
  revert N'. generalize (rev l2). clear N. induction l as [|[j w] l IH]; cbn [app assocz map fst In]; intros N.
  - now rewrite Z.eqb_refl.
  - destruct (Z.eqb_spec k j); [subst; tauto|]. apply IH. tauto.
Qed.
(** The types the claims above speak of are those of the contract: an id stands
    for the last type that has it. *)
Theorem C74_declared l1 id path params d def l2 : declares d def -> (forall a, In a l2 -> at_id a <> id) ->
  port_get (abi_portable (l1 ++ AbiType id path params d :: l2)) id = SiType path params def.
Proof.
  intros D N. unfold port_get, abi_portable. rewrite map_app. cbn [map]. unfold ToScalePortableType at 2. cbn [at_id at_path at_params at_def].
  rewrite assocz_rev.
  - destruct D; reflexivity.
  - rewrite map_map. cbn [ToScalePortableType fst]. intros I. apply in_map_iff in I. destruct I as (a & E & I). exact (N a I E).
Qed.
Print Assumptions C74_declared.
Example C74_declared_case : port_get (abi_portable [AbiType 3 [] [] (AbiDef None None (Some 1) None None None None false false);
    AbiType 3 ["p"] [] (AbiDef None None None None None None (Some 2) false false)]) 3 = SiType ["p"] [] (DCompact 2).
Proof. exact (C74_declared [AbiType 3 [] [] (AbiDef None None (Some 1) None None None None false false)] 3 ["p"] [] _ _ [] (dc_compact 2) ltac:(intros a [])). Qed.

(** The types of a runtime (V14 declarations included), registered before the
    contracts, and the contracts: none of the tuples of the runtime has got
    ranges of versions. *)
Theorem C74_runtime a fuel r0 s l r' : ready_for a r0 -> ProcessSiType fuel (p_ctx a) r0 = Ok s -> plain_tuples (g_reg s) -> loads (g_reg s) l r' -> all_ready l r0 ->
  Forall (fun p => apart a (of_contract (fst p))) l -> histories_apart l ->
  (forall E cx id x bs pre tl, uses E r' -> p_ids a id -> enc (p_port a) id x bs -> blen (pre ++ bs ++ tl) < 2 ^ 63 ->
     exists g, shows (p_port a) id x g /\ Decodes E cx (pre ++ bs ++ tl) (blen pre) (GetTypeNames (g_names s) id) (Ok (g, blen pre + blen bs, [])))
  /\ (forall k names E cx id x bs pre tl, In (k, names) l -> uses E r' -> k_ids k id -> enc (abi_portable (k_types k)) id x bs -> blen (pre ++ bs ++ tl) < 2 ^ 63 ->
     exists g, shows (abi_portable (k_types k)) id x g /\ Decodes E cx (pre ++ bs ++ tl) (blen pre) (GetTypeNames names id) (Ok (g, blen pre + blen bs, []))).
Proof.
  intros [SA STA] P PT L ST AP AL. pose proof SA as (CA & WA & RA).
  destruct (process_ok (p_ctx a) (p_counts a) (p_ids a) RA WA fuel r0 s STA CA P) as ((T & INV) & ALL).
  assert (ST2 : all_ready l (g_reg s)).
  { clear L AL. induction l as [|p l IH]; [constructor|]. inversion ST as [|? ? [SP SS] ST']; subst. inversion AP as [|? ? [NA _] AP']; subst.
    constructor; [|now apply IH]. split; [exact SP|]. exact (ready_after a (of_contract (fst p)) fuel r0 s eq_refl SA SP NA STA SS P PT). }
  split; [|exact (C74_contracts _ _ _ L ST2 AL)]. intros E cx id x bs pre tl. exact (decodes_among a T _ _ _ _ E cx id x bs pre tl SA L ST2 AP INV ALL).
Qed.
Print Assumptions C74_runtime.

(** ** Prefixes that keep names apart *)
Fixpoint no_colon (s : string) : Prop := match s with EmptyString => True | String a r => a <> ":"%char /\ no_colon r end.
Lemma prefixed a i n : named_as (p_ctx a) (p_counts a) i n -> i_prefix (p_ctx a) <> "" -> exists rest, n = (i_prefix (p_ctx a) ++ ":") ++ rest.
Proof.
  intros [H NE] P. unfold nameSiType in H.
  assert (G : forall t, exists rest, generate_name (p_ctx a) (p_counts a) t i = (i_prefix (p_ctx a) ++ ":") ++ rest).
  { intros t. unfold generate_name. destruct (String.eqb_spec (i_prefix (p_ctx a)) "") as [|_]; [contradiction|].
    destruct (_ && _); [exists (join ":" (s_path t) ++ "@" ++ itoa i)|exists (join ":" (s_path t))]; rewrite ?app_assoc_s; reflexivity. }
  destruct (s_def (port_get (i_port (p_ctx a)) i)); try (injection H as <-; congruence).
  - injection H as <-. apply G.
  - destruct (s_path _); [discriminate H|]. destruct (_ || _); [injection H as <-; congruence|]. destruct (is_pallet_call _); [injection H as <-; congruence|].
    destruct (is_call_event _); [injection H as <-; congruence|]. injection H as <-. apply G.
Qed.
Lemma colon_lower a : lower_char a = ":"%char -> a = ":"%char.
Proof. destruct a as [[] [] [] [] [] [] [] []]; vm_compute; congruence. Qed.
Lemma first_colon p q x y : no_colon p -> no_colon q -> to_lower ((p ++ ":") ++ x) = to_lower ((q ++ ":") ++ y) -> to_lower p = to_lower q.
Proof.
  rewrite !to_lower_app'. change (to_lower ":") with ":". revert q. induction p as [|a p IH]; intros [|b q] NP NQ H.
  - reflexivity.
  - cbn [to_lower smap String.append] in H. injection H as H _. symmetry in H. apply colon_lower in H. destruct NQ. contradiction.
  - cbn [to_lower smap String.append] in H. injection H as H _. apply colon_lower in H. destruct NP. contradiction.
  - cbn [to_lower smap String.append] in H |- *. injection H as H1 H2. rewrite H1. f_equal. apply (IH q); [apply NP|apply NQ|exact H2].
Qed.
Theorem C74_prefixes a b : i_prefix (p_ctx a) <> "" -> i_prefix (p_ctx b) <> "" -> no_colon (i_prefix (p_ctx a)) -> no_colon (i_prefix (p_ctx b)) ->
  to_lower (i_prefix (p_ctx a)) <> to_lower (i_prefix (p_ctx b)) -> names_apart a b.
Proof.
  intros PA PB CA CB D i j n m HN HM Q. destruct (prefixed a i n HN PA) as [x ->]. destruct (prefixed b j m HM PB) as [y ->]. now apply D, (first_colon _ _ x y).
Qed.
Print Assumptions C74_prefixes.

(** ** One decoder, two contracts *)
Lemma count_nil_panics c n k s : (exists i m, k <= i < k + Z.of_nat n /\ nameSiType c [] (port_get (i_port c) i) (-1) = Ok m /\ m <> "") ->
  exists e, each_id (count_nil c) n k s = Panic e.
Proof.
  revert k s. induction n as [|n IH]; intros k s (i & m & B & H & NE); [lia|]. cbn [each_id]. unfold count_nil at 1. destruct (Z.eq_dec i k) as [->|D].
  - rewrite H. cbn [bind]. destruct (String.eqb_spec m "") as [->|_]; [congruence|]. now eexists.
  - assert (NF : nameSiType c [] (port_get (i_port c) k) (-1) <> OutOfFuel).
    { unfold nameSiType. destruct (s_def _); try discriminate. destruct (s_path _); [discriminate|]. destruct (_ || _); [discriminate|]. destruct (is_pallet_call _); [discriminate|]. destruct (is_call_event _); discriminate. }
    destruct (nameSiType c [] (port_get (i_port c) k) (-1)) as [x|e|]; [|now exists e|contradiction]. cbn [bind].
    destruct (String.eqb x ""); [|now eexists]. cbn [bind]. apply IH. exists i, m. split; [lia|]. now split.
Qed.
(** A decoder that has registered a contract cannot register another one with
    any named type, until it is initialised again. *)
Theorem C74_reuse f p l d r d1 r1 : Register f p l d r = Ok (d1, r1) ->
  (forall f2 p2 l2 i m, 0 <= i < Z.of_nat (distinct_ids [] (abi_portable l2)) -> nameSiType (abi_ctx f2 p2 (b_spec d1) l2) [] (port_get (abi_portable l2) i) (-1) = Ok m -> m <> "" ->
     exists e, Register f2 p2 l2 d1 r1 = Panic e)
  /\ forall f2 p2 l2, Register f2 p2 l2 (init_decoder d1) r1 = Register f2 p2 l2 (AbiDecoder (Some []) (b_spec d) (b_names d1)) r1.
Proof.
  intros H. unfold Register in H. apply bind_ok in H. destruct H as (s & _ & Q). injection Q as <- <-. split; [|reflexivity].
  intros f2 p2 l2 i m B H NE. destruct (count_nil_panics (abi_ctx f2 p2 (b_spec d) l2) (distinct_ids [] (abi_portable l2)) 0 (SiState [] [] (g_reg s))) as [e E].
  - exists i, m. split; [lia|]. now split.
  - exists e. unfold Register, ProcessSiTypeFrom. cbn [b_dup b_spec]. change (i_port (abi_ctx f2 p2 (b_spec d) l2)) with (abi_portable l2). rewrite E. reflexivity.
Qed.
Print Assumptions C74_reuse.

(** ** Two contracts that meet the hypotheses *)
Definition no_def : abi_def := AbiDef None None None None None None None false false.
Definition a_prim (id : Z) (n : string) : abi_type := AbiType id [] [] (AbiDef None None None None None (Some n) None false false).
Definition a_struct (id : Z) (p : list string) (fs : list sifield) : abi_type := AbiType id p [] (AbiDef (Some fs) None None None None None None false false).
Definition a_enum (id : Z) (p : list string) (vs : list sivariant) : abi_type := AbiType id p [] (AbiDef None (Some vs) None None None None None false false).
Definition a_vec (id k : Z) : abi_type := AbiType id [] [] (AbiDef None None (Some k) None None None None false false).
Definition a_tuple (id : Z) (ks : list Z) : abi_type := AbiType id [] [] (AbiDef None None None None (Some ks) None None false false).
(** Both declare a struct and an enum of the same paths, with different fields,
    and tuples: one that both share. *)
Definition kx_types (b : bool) : list abi_type :=
  [a_prim 0 "u8"; a_prim 1 "u32"; a_struct 2 ["m"; "Foo"] [fld "a" (if b then 0 else 1); fld "b" 0]; a_vec 3 2; a_tuple 4 [0; 1];
   a_enum 5 ["m"; "E"] [SiVariant "A" [fld "" (if b then 3 else 4)] 0; SiVariant "B" [] 1]; a_tuple 6 [2; 5]].
Definition kx_prefix (b : bool) : string := if b then "alpha" else "beta".
Definition kx_ids : list Z := [0; 1; 2; 3; 4; 5; 6].
Definition kx_ctx (b : bool) : sictx := abi_ctx 20 (kx_prefix b) 7 (kx_types b).
Definition kx_counts (b : bool) : list (string * Z) :=
  match each_id (count_name (kx_ctx b)) 7 0 (SiState [] [] base_reg) with Ok s => g_dup s | _ => [] end.
Definition kx (b : bool) : contract := Contract (kx_prefix b) 7 (kx_types b) 20 (kx_counts b) (fun id => In id kx_ids).
Notation kp b := (of_contract (kx b)).

Lemma kx_else b id : ~ In id kx_ids -> port_get (abi_portable (kx_types b)) id = zero_type.
Proof.
  intros N. unfold port_get. assert (H : forall p : portable, ~ In id (map fst p) -> assocz id p = None).
  { clear N. induction p as [|[k t] p IH]; [reflexivity|]. cbn [map fst In assocz]. intros N. destruct (Z.eqb_spec id k); [subst; tauto|]. apply IH. tauto. }
  rewrite H; [reflexivity|]. intros I. apply N. destruct b; cbn in I |- *; tauto.
Qed.
Ltac kx_cases b id := destruct (in_dec Z.eq_dec id kx_ids) as [KX|KX];
  [cbn in KX; repeat (destruct KX as [KX|KX]; [subst id|]); [..|contradiction]|].
Definition kx_named (b : bool) : list (Z * string) := [(2, kx_prefix b ++ ":m:Foo"); (5, kx_prefix b ++ ":m:E")].
Lemma kx_names b id n : named_as (kx_ctx b) (kx_counts b) id n <-> In (id, n) (kx_named b).
Proof.
  split.
  - intros [H NE]. kx_cases b id; [destruct b; vm_compute in H; try discriminate H; injection H as <-; try congruence; cbn; tauto ..|]. change (i_port (kx_ctx b)) with (abi_portable (kx_types b)) in H. rewrite (kx_else b id KX) in H. injection H as <-. congruence.
  - intros H. unfold named_as. cbn in H. destruct b; repeat (destruct H as [[= <- <-]|H]; [split; [vm_compute; reflexivity|discriminate]|]); contradiction.
Qed.
Lemma kx_text_ok b n : In n (map snd (kx_named b)) -> name_text_ok n.
Proof.
  intros H. cbn in H. destruct b; repeat (destruct H as [<-|H]; [split; [split; [discriminate|]; split; [|split; reflexivity]; cbn [s2b list_ascii_of_string]; repeat (constructor; [unfold name_char; vm_compute; intuition congruence|]); constructor
    |split; [discriminate|split; [discriminate|cbn; lia]]]|]); contradiction.
Qed.
Notation ktext b := (text (kx_ctx b) (kx_counts b) (fun id => In id kx_ids) (fun _ => True)).
Notation ktexts b := (texts (kx_ctx b) (kx_counts b) (fun id => In id kx_ids) (fun _ => True)).
Lemma kx_text b i t : In i [0; 1; 2; 5] -> ktext b i t -> t = if i =? 0 then "u8" else if i =? 1 then "u32" else if i =? 2 then kx_prefix b ++ ":m:Foo" else kx_prefix b ++ ":m:E".
Proof.
  intros I H. cbn in I. repeat (destruct I as [<-|I]; [|]); [..|contradiction];
  (inversion H; subst; try (exfalso; match goal with X : ~ In _ kx_ids |- _ => apply X; cbn; tauto end);
   try (match goal with X : def_of _ _ = _ |- _ => destruct b; vm_compute in X; (discriminate X || (injection X as <-; reflexivity)) end);
   try (exfalso; match goal with X : def_of _ _ = _ \/ def_of _ _ = _ |- _ => destruct X as [X|X]; destruct b; vm_compute in X; discriminate X end);
   try (exfalso; match goal with X : overriderTypesName _ <> "" |- _ => apply X; destruct b; reflexivity end);
   try (exfalso; match goal with X : prims_path _ _ |- _ => destruct b; vm_compute in X; discriminate X end);
   try (match goal with X : named_as _ _ _ _ |- _ => apply (proj1 (kx_names b _ _)) in X; destruct b; vm_compute in X; vm_compute; intuition congruence end);
   try (exfalso; match goal with X : account _ _ |- _ => destruct X as [_ [f X]]; destruct b; vm_compute in X; discriminate X end);
   try (exfalso; match goal with X : is_wrapper _ = true |- _ => destruct b; vm_compute in X; discriminate X end);
   try (exfalso; match goal with X : opt_path _ _ |- _ => destruct X as (p0 & r0 & X & Y); destruct b; vm_compute in X; injection X as <- <-; vm_compute in Y; discriminate Y end);
   try (exfalso; match goal with X : res_path _ _ |- _ => destruct X as (p0 & r0 & X & _ & Y); destruct b; vm_compute in X; injection X as <- <-; vm_compute in Y; discriminate Y end);
   try (exfalso; match goal with X : is_call_event _ = true \/ _ |- _ => destruct X as [X|X]; destruct b; vm_compute in X; discriminate X end)).
Qed.
Lemma kx_tuples b i ks ts : def_of (abi_portable (kx_types b)) i = DTuple ks -> ktexts b ks ts ->
  (ks = [0; 1] /\ ts = ["u8"; "u32"]) \/ (ks = [2; 5] /\ ts = [kx_prefix b ++ ":m:Foo"; kx_prefix b ++ ":m:E"]).
Proof.
  intros H X. assert (K : ks = [0; 1] \/ ks = [2; 5]).
  { kx_cases b i; try (destruct b; vm_compute in H; (discriminate H || (injection H as <-; tauto))). unfold def_of in H. rewrite (kx_else b i KX) in H. discriminate H. }
  destruct K as [-> | ->]; [left|right]; (split; [reflexivity|]); inversion X as [|? ? ? ? X1 X2]; subst; inversion X2 as [|? ? ? ? X3 X4]; subst; inversion X4; subst;
  apply kx_text in X1; try (cbn; tauto); apply kx_text in X3; try (cbn; tauto); cbn in X1, X3; now subst.
Qed.
Lemma kx_well_named b : well_named (kx_ctx b) (kx_counts b) (fun id => In id kx_ids).
Proof.
  split.
  - intros id n H. apply kx_names in H. split; [apply (kx_text_ok b); now apply (in_map snd) in H|]. cbn in H.
    destruct b; repeat (destruct H as [[= <- <-]|H]; [split; [eexists _, _; split; [reflexivity|left; reflexivity]|split; [now apply reserved_dec|reflexivity]]|]); contradiction.
  - intros i j n m H1 H2. apply kx_names in H1. apply kx_names in H2. cbn in H1, H2.
    destruct b; repeat (destruct H1 as [[= <- <-]|H1]; [repeat (destruct H2 as [[= <- <-]|H2]; [vm_compute; congruence|]); contradiction|]); contradiction.
  - intros id n H. kx_cases b id; try (destruct b; vm_compute in H; congruence); try (destruct b; vm_compute in H; injection H as <-; vm_compute; intuition congruence).
    unfold def_of in H. change (i_port (kx_ctx b)) with (abi_portable (kx_types b)) in H. rewrite (kx_else b id KX) in H. discriminate H.
  - intros id n H P. kx_cases b id; try (destruct b; vm_compute in H; congruence).
    unfold prims_path, path_of in H. change (i_port (kx_ctx b)) with (abi_portable (kx_types b)) in H. rewrite (kx_else b id KX) in H. discriminate H.
  - intros id fs n k r H W. exfalso. kx_cases b id; try (destruct b; vm_compute in W; congruence). unfold def_of in H. change (i_port (kx_ctx b)) with (abi_portable (kx_types b)) in H. rewrite (kx_else b id KX) in H. discriminate H.
  - intros id fs p k H W. exfalso. kx_cases b id; try (destruct b; vm_compute in W; congruence). unfold def_of in H. change (i_port (kx_ctx b)) with (abi_portable (kx_types b)) in H. rewrite (kx_else b id KX) in H. discriminate H.
  - intros i j ki kj ts us _ Hi Hj Ht Hu. destruct (kx_tuples b i ki ts Hi Ht) as [[-> ->]|[-> ->]], (kx_tuples b j kj us Hj Hu) as [[-> ->]|[-> ->]]; destruct b; vm_compute; congruence.
Qed.
Ltac kx_name b n := exists n; split; [apply kx_names; destruct b; cbn; tauto|]; split; [destruct b; vm_compute; intuition discriminate|]; split; [destruct b; reflexivity|]; destruct b; vm_compute; intuition discriminate.
Lemma kx_regular b id : In id kx_ids -> regular (kx_ctx b) (kx_counts b) (fun id => In id kx_ids) id.
Proof.
  intros H. cbn in H. unfold regular.
  repeat (destruct H as [<-|H]; [split; [destruct b; reflexivity|]; split; [destruct b; vm_compute; intuition congruence|]|]); [..|contradiction].
  - change (def_of (i_port (kx_ctx b)) 0) with (DPrimitive "u8"). split; [px_in|destruct b; reflexivity].
  - change (def_of (i_port (kx_ctx b)) 1) with (DPrimitive "u32"). split; [px_in|destruct b; reflexivity].
  - change (def_of (i_port (kx_ctx b)) 2) with (DComposite [fld "a" (if b then 0 else 1); fld "b" 0]). split; [destruct b; reflexivity|]. split; [destruct b; reflexivity|].
    right. right. split; [destruct b; discriminate|]. split; [discriminate|]. split; [kx_name b (kx_prefix b ++ ":m:Foo")|].
    split; [destruct b; repeat constructor; px_in|]. split; [now apply px_nodup|]. discriminate.
  - change (def_of (i_port (kx_ctx b)) 3) with (DSequence 2). split; [px_in|destruct b; discriminate].
  - change (def_of (i_port (kx_ctx b)) 4) with (DTuple [0; 1]). split; [repeat constructor; px_in|destruct b; discriminate].
  - change (def_of (i_port (kx_ctx b)) 5) with (DVariant [SiVariant "A" [fld "" (if b then 3 else 4)] 0; SiVariant "B" [] 1]).
    right. right. split; [exists "m", ["E"]; destruct b; now split|]. split; [destruct b; discriminate|]. split; [destruct b; reflexivity|]. split; [destruct b; reflexivity|]. split; [kx_name b (kx_prefix b ++ ":m:E")|].
    split; [split; [repeat constructor; cbn; intuition congruence|repeat (constructor; [cbn; lia|]); constructor]|].
    repeat (constructor; [split; [destruct b; repeat constructor; px_in|now apply px_nodup]|]). constructor.
  - change (def_of (i_port (kx_ctx b)) 6) with (DTuple [2; 5]). split; [repeat constructor; px_in|destruct b; discriminate].
Qed.
Lemma kx_sound b : sound (kp b).
Proof. split; [destruct b; eexists; split; vm_compute; reflexivity|]. split; [exact (kx_well_named b)|exact (kx_regular b)]. Qed.
Lemma kx_apart : apart (kp true) (kp false).
Proof.
  split; [apply C74_prefixes; cbn; intuition discriminate|]. intros i j ki kj ts us Hi Hj Ht Hu.
  destruct (kx_tuples true i ki ts Hi Ht) as [[-> ->]|[-> ->]], (kx_tuples false j kj us Hj Hu) as [[-> ->]|[-> ->]]; vm_compute; congruence.
Qed.
Definition kx_run (b : bool) (r : reg) : abi_decoder * reg :=
  match Register 20 (kx_prefix b) (kx_types b) (AbiDecoder (Some []) 7 []) r with Ok p => p | _ => (AbiDecoder None 0 [], r) end.
Definition kx_one : abi_decoder * reg := kx_run true base_reg.
Definition kx_two : abi_decoder * reg := kx_run false (snd kx_one).
Definition kx_history : list (contract * list (Z * string)) := [(kx true, b_names (fst kx_one)); (kx false, b_names (fst kx_two))].
Lemma kx_loads : loads base_reg kx_history (snd kx_two).
Proof.
  apply (ld_cons base_reg (kx true) [] (fst kx_one) (snd kx_one)); [vm_compute; reflexivity|].
  apply (ld_cons (snd kx_one) (kx false) [] (fst kx_two) (snd kx_two)); [vm_compute; reflexivity|constructor].
Qed.
Lemma kx_ready : all_ready kx_history base_reg.
Proof.
  assert (H : forall b, ready_for (kp b) base_reg) by (intros b; split; [apply kx_sound|]; split; intros; (reflexivity || discriminate)).
  constructor; [exact (H true)|]. constructor; [exact (H false)|constructor].
Qed.
Lemma kx_histories : histories_apart kx_history.
Proof. constructor; [constructor; [exact kx_apart|constructor]|]. constructor; [constructor|constructor]. Qed.
(** The claim for all types of both, with both registered. *)
Example C74_example k names E cx id x bs pre tl : In (k, names) kx_history -> uses E (snd kx_two) -> k_ids k id -> enc (abi_portable (k_types k)) id x bs -> blen (pre ++ bs ++ tl) < 2 ^ 63 ->
  exists g, shows (abi_portable (k_types k)) id x g /\ Decodes E cx (pre ++ bs ++ tl) (blen pre) (GetTypeNames names id) (Ok (g, blen pre + blen bs, [])).
Proof. exact (C74_contracts _ _ _ kx_loads kx_ready kx_histories k names E cx id x bs pre tl). Qed.
Example C74_example_names : map (GetTypeNames (b_names (fst kx_one))) kx_ids = ["u8"; "u32"; "alpha:m:Foo"; "Vec<alpha:m:Foo>"; "Tuple:u8u32"; "alpha:m:E"; "Tuple:alpha:m:Fooalpha:m:E"]
  /\ map (GetTypeNames (b_names (fst kx_two))) kx_ids = ["u8"; "u32"; "beta:m:Foo"; "Vec<beta:m:Foo>"; "Tuple:u8u32"; "beta:m:E"; "Tuple:beta:m:Foobeta:m:E"].
Proof. split; vm_compute; reflexivity. Qed.
Example C74_example_value : Decodes (reg_env (snd kx_two)) (Ctx 7 "" None) (map Zb [1; 2]) 0 "alpha:m:Foo" (Ok (VMap [("a", VInt 1); ("b", VInt 2)], 2, []))
  /\ Decodes (reg_env (snd kx_two)) (Ctx 7 "" None) (map Zb [1; 0; 0; 0; 2]) 0 "beta:m:Foo" (Ok (VMap [("a", VU32 1); ("b", VInt 2)], 5, [])).
Proof. split; run 12%nat. Qed.

(** ** What the hypotheses leave out *)
Definition rg2 (p1 : string) (l1 : list abi_type) (p2 : string) (l2 : list abi_type) : option (abi_decoder * reg) :=
  match Register 20 p1 l1 (AbiDecoder (Some []) 7 []) base_reg with
  | Ok (d1, r1) => match Register 20 p2 l2 (AbiDecoder (Some []) 7 []) r1 with Ok (_, r2) => Some (d1, r2) | _ => None end
  | _ => None
  end.
(** Prefixes that differ in letter case only: the structs of the first contract
    are decoded as those of the second one. *)
Theorem C74_case_refuted : exists d r, rg2 "Pre" (kx_types true) "pre" (kx_types false) = Some (d, r)
  /\ enc (abi_portable (kx_types true)) 2 (PSeq [PNum 1; PNum 2]) (map Zb [1; 2])
  /\ Decodes (reg_env r) (Ctx 7 "" None) (map Zb [1; 2; 0; 0; 9]) 0 (GetTypeNames (b_names d) 2) (Ok (VMap [("a", VU32 513); ("b", VInt 9)], 5, [])).
Proof.
  eexists _, _. split; [vm_compute; reflexivity|]. split; [|run 12%nat].
  apply (enc_composite (abi_portable (kx_types true)) 2 [fld "a" 0; fld "b" 0] _ _ eq_refl).
  eapply encs_step; [now apply (rf_u8 (abi_portable (kx_types true)) 1)|eapply encs_step; [now apply (rf_u8 (abi_portable (kx_types true)) 2)|constructor|reflexivity]|reflexivity].
Qed.
(** Different prefixes are not enough for tuples: (u8, b:X) and (u8b:X) share
    one name, and the tuple of the first contract is decoded as the other one. *)
Definition kt_one : list abi_type := [a_prim 0 "u8"; a_struct 1 ["X"] [fld "x" 0; fld "y" 0]; a_tuple 2 [0; 1]].
Definition kt_two : list abi_type := [a_prim 0 "u8"; a_struct 1 ["X"] [fld "p" 0; fld "q" 0]; a_tuple 2 [1]].
Theorem C74_tuple_refuted : exists d r, rg2 "b" kt_one "u8b" kt_two = Some (d, r) /\ GetTypeNames (b_names d) 2 = "Tuple:u8b:X"
  /\ enc (abi_portable kt_one) 2 (PSeq [PNum 1; PSeq [PNum 2; PNum 3]]) (map Zb [1; 2; 3])
  /\ Decodes (reg_env r) (Ctx 7 "" None) (map Zb [1; 2; 3]) 0 "Tuple:u8b:X" (Ok (VMap [("col1", VMap [("p", VInt 1); ("q", VInt 2)])], 2, [])).
Proof.
  eexists _, _. split; [vm_compute; reflexivity|]. split; [vm_compute; reflexivity|]. split; [|run 12%nat].
  apply (enc_tuple (abi_portable kt_one) 2 [0; 1] _ _ eq_refl). eapply encs_step; [now apply (rf_u8 (abi_portable kt_one) 1)| |reflexivity]. eapply encs_step with (b := map Zb [2; 3]); [|constructor|reflexivity].
  apply (enc_composite (abi_portable kt_one) 1 [fld "x" 0; fld "y" 0] _ _ eq_refl).
  eapply encs_step; [now apply (rf_u8 (abi_portable kt_one) 2)|eapply encs_step; [now apply (rf_u8 (abi_portable kt_one) 3)|constructor|reflexivity]|reflexivity].
Qed.
Example C74_reuse_example : Register 20 "alpha" (kx_types true) (AbiDecoder (Some []) 7 []) base_reg = Ok kx_one
  /\ Register 20 "beta" (kx_types false) (fst kx_one) (snd kx_one) = Panic "assignment to entry in nil map".
Proof. split; vm_compute; reflexivity. Qed.
Print Assumptions C74_case_refuted.
Print Assumptions C74_tuple_refuted.

(** An id the contract gave no name to has the empty name. *)
Theorem C74_unnamed names id : ~ In id (map fst names) -> GetTypeNames names id = "".
Proof.
  unfold GetTypeNames. induction names as [|[k n] t IH]; intros H; [reflexivity|].
  cbn in H |- *. destruct (Z.eqb_spec id k) as [->|_]; [tauto|]. apply IH. tauto.
Qed.
Example C74_unnamed_case : ~ In 99 (map fst (b_names (fst kx_one))) /\ GetTypeNames (b_names (fst kx_one)) 99 = "" /\ GetTypeNames (b_names (fst kx_one)) 2 = "alpha:m:Foo".
Proof. split; [|split; vm_compute; reflexivity]. vm_compute. intuition discriminate. Qed.
(** The names also depend on the counts the decoder already holds, as after a
    registration given up half way: a name counted before is taken to be used
    twice, and its only type is named after its id. *)
Theorem C74_counts_refuted : exists d1 r1 d2 r2,
  Register 20 "alpha" (kx_types true) (AbiDecoder (Some []) 7 []) base_reg = Ok (d1, r1)
  /\ Register 20 "alpha" (kx_types true) (init_decoder (AbiDecoder (Some [("alpha:m:Foo", 1)]) 7 [])) base_reg = Ok (d2, r2)
  /\ GetTypeNames (b_names d1) 2 = "alpha:m:Foo" /\ GetTypeNames (b_names d2) 2 = "alpha:m:Foo@2"
  /\ GetTypeNames (b_names d1) 5 = "alpha:m:E" /\ GetTypeNames (b_names d2) 5 = "alpha:m:E".
Proof. do 4 eexists. repeat (split; [vm_compute; reflexivity|]). vm_compute; reflexivity. Qed.
Print Assumptions C74_unnamed.
Print Assumptions C74_counts_refuted.

(** The runtime of C61_example, then both contracts. *)
Definition kr : party := Party px px_dup px_rg.
Lemma kr_apart b : apart kr (kp b).
Proof.
  split.
  - intros i j n m H1 H2. apply px_names in H1. apply (proj1 (kx_names b j m)) in H2. cbn in H1.
    repeat (destruct H1 as [[= <- <-]|H1]; [destruct b; (destruct H2 as [[= <- <-]|[[= <- <-]|[]]]); vm_compute; congruence|]). contradiction.
  - intros i j ki kj ts us Hi Hj Ht Hu.
    assert (K : ki = [4; 7]).
    { change (def_of px_port i = DTuple ki) in Hi. px_cases i; try (vm_compute in Hi; congruence). unfold def_of in Hi. rewrite (px_else i PX) in Hi. discriminate Hi. }
    subst ki. inversion Ht as [|? ? ? ? X1 X2]; subst. inversion X2 as [|? ? ? ? X3 X4]; subst. inversion X4; subst. apply px_text4 in X1. apply px_text7 in X3. subst.
    destruct (kx_tuples b j kj us Hj Hu) as [[-> ->]|[-> ->]]; destruct b; vm_compute; congruence.
Qed.
Definition kr_one : abi_decoder * reg := kx_run true (g_reg px_state).
Definition kr_two : abi_decoder * reg := kx_run false (snd kr_one).
Definition kr_history : list (contract * list (Z * string)) := [(kx true, b_names (fst kr_one)); (kx false, b_names (fst kr_two))].
Example C74_runtime_example E cx pre tl : uses E (snd kr_two) -> blen (pre ++ px_bytes ++ tl) < 2 ^ 63 ->
  exists g, shows px_port 13 px_value g /\ Decodes E cx (pre ++ px_bytes ++ tl) (blen pre) (GetTypeNames (g_names px_state) 13) (Ok (g, blen pre + blen px_bytes, [])).
Proof.
  intros U L. assert (H : ready_for kr base_reg) by (split; [split; [exact px_counted|split; [exact px_well_named|exact px_regular]]|exact px_standard]).
  refine (proj1 (C74_runtime kr 10 base_reg px_state kr_history (snd kr_two) H px_registered _ _ _ _ _) E cx 13 px_value px_bytes pre tl U _ px_enc L).
  - intros k _. vm_compute. reflexivity.
  - apply (ld_cons (g_reg px_state) (kx true) [] (fst kr_one) (snd kr_one)); [vm_compute; reflexivity|].
    apply (ld_cons (snd kr_one) (kx false) [] (fst kr_two) (snd kr_two)); [vm_compute; reflexivity|constructor].
  - assert (K : forall b, ready_for (kp b) base_reg) by (intros b; split; [apply kx_sound|]; split; intros; (reflexivity || discriminate)).
    constructor; [exact (K true)|]. constructor; [exact (K false)|constructor].
  - constructor; [apply kr_apart|]. constructor; [apply kr_apart|constructor].
  - constructor; [constructor; [exact kx_apart|constructor]|]. constructor; [constructor|constructor].
  - cbn. tauto.
Qed.
