(** Property C65: whole metadata V14, read from its bytes. *)

From Verif Require Import GoBase SpecNum ModelTools ModelVal ModelRegistry ModelDecode ModelEncode ModelRegister SpecScale ModelScaleInfo ModelMetadata
  PropScaleInfo PropMetadata ModelMeta SpecMeta
  ProofsBase ProofsTools ProofsRun ProofsReads ProofsScale ProofsApi PropCodec ProofsNames ProofsTexts ProofsPortReg ProofsFrame ProofsMeta PropMeta.

Lemma assocz_app {A} k (a b : list (Z * A)) : assocz k (a ++ b)%list = match assocz k a with Some x => Some x | None => assocz k b end.
Proof. induction a as [|[i x] a IH]; [reflexivity|]. cbn [app assocz]. destruct (k =? i); [reflexivity|exact IH]. Qed.
Lemma find_declared l k : assocz k (SpecMeta.declared l) = option_map declared_type (wfind l k).
Proof.
  unfold SpecMeta.declared. induction l as [|[i t] l IH]; [reflexivity|]. cbn [map rev fst snd wfind]. rewrite assocz_app, IH. destruct (wfind l k); [reflexivity|]. cbn [option_map assocz].
  now destruct (k =? i).
Qed.
Lemma get_declared l k : port_get (SpecMeta.declared l) k = match wfind l k with Some t => declared_type t | None => zero_type end.
Proof. unfold port_get. rewrite find_declared. now destruct (wfind l k). Qed.
Lemma items_shown {A} (of : sivariant -> A) l o : enum_id l o -> items_of (SpecMeta.declared l) of o = Ok (map (fun v => of (declared_variant v)) (wvariants l o)).
Proof.
  destruct o as [k|]; [|reflexivity]. intros (t & vs & F & D). cbn [items_of wvariants]. unfold variants_of. rewrite get_declared, F. unfold declared_type. cbn [s_def]. rewrite D. cbn [declared_def bind].
  now rewrite map_map.
Qed.
Lemma call_shown names v : call_of names (declared_variant v) = shown_call (si_name names) v.
Proof. unfold call_of, declared_variant, shown_call. cbn [v_name v_fields v_index]. now rewrite map_map. Qed.
Lemma event_shown names v : event_of names (declared_variant v) = shown_event (si_name names) v.
Proof. unfold event_of, declared_variant, shown_event. cbn [v_name v_fields v_index]. now rewrite !map_map. Qed.
Lemma storage_shown v15 l names s : storage_keyed l (si_name names) s -> (v15 = true -> one_per_hasher l s) -> resolve_storage v15 (SpecMeta.declared l) names (described_storage s) = Ok (shown_storage l (si_name names) s).
Proof.
  destruct s as [t|hs k v]; [reflexivity|]. intros H V. cbn [described_storage resolve_storage shown_storage]. rewrite get_declared.
  destruct H as [(t & a & r & F & D & H)|(H1 & N & a & r & Q & P)].
  - rewrite F. unfold declared_type. cbn [s_def]. rewrite D. cbn [declared_def negb andb]. rewrite map_length.
    destruct (Nat.eqb_spec (List.length (a :: r)) (List.length hs)) as [E|E].
    + rewrite <- E, Z.ltb_irrefl. now rewrite andb_false_r.
    + destruct H as [H|H]; [congruence|]. destruct v15; [destruct E; symmetry; now apply (V eq_refl t)|]. rewrite H in *. cbn [List.length] in *. replace (Z.of_nat 1 <? Z.of_nat (S (List.length r))) with true by lia. reflexivity.
  - assert (S : match s_def (match wfind l k with Some t => declared_type t | None => zero_type end) with DTuple _ => False | _ => True end).
    { destruct (wfind l k) as [t|] eqn:F; [|exact I]. unfold declared_type. cbn [s_def]. specialize (N t). destruct (wt_def t) as [| | | |[|b q]| | | | |[]] eqn:D; cbn [declared_def]; try exact I.
      now destruct (N b q eq_refl). }
    assert (X : match s_def (match wfind l k with Some t => declared_type t | None => zero_type end) with
      | DTuple l0 => if negb v15 && (Z.of_nat (List.length (map hasher_name hs)) <? Z.of_nat (List.length l0)) then Ok [si_name names k] else Ok (map (si_name names) l0)
      | _ => TupleDisassemble (si_name names k) end = Ok [si_name names k]).
    { rewrite Q, (tuple_disassemble_plain a r P). revert S. destruct (s_def _); tauto || reflexivity. }
    rewrite X. cbn [bind]. f_equal. f_equal. destruct (wfind l k) as [t|] eqn:F; [|reflexivity]. specialize (N t). destruct (wt_def t) as [| | | |[|b q]| | | | |] eqn:D; try reflexivity.
    now destruct (N b q eq_refl).
Qed.

(** ** A pallet, shown *)
Definition shown_const (names : Z -> string) (k : wconst) : mconst := MConst (text_of (wc_name k)) (names (wc_type k)) (hex_encode (wc_value k)).
Definition wentries (p : wpallet) : list wentry := match wp_storage p with None => [] | Some s => snd s end.
Definition shown_module (l : wregistry) (names : Z -> string) (p : wpallet) : mmodule :=
  MModule (text_of (wp_name p)) (match wp_storage p with Some s => text_of (fst s) | None => "" end) (wp_index p)
    (map (shown_call names) (wvariants l (wp_calls p)))
    (map (shown_event names) (wvariants l (wp_events p)))
    (map (fun e => (text_of (we_name e), shown_storage l names (we_type e))) (wentries p))
    (map (shown_const names) (wp_constants p))
    (map (fun v => text_of (wv_name v)) (wvariants l (wp_errors p)))
    (about_pallet p).
(** The calls, events and errors of the pallet are enums of the registry, the
    types of its constants have names, its storage keys match their hashers. *)
Definition pallet_described (l : wregistry) (names : Z -> string) (p : wpallet) : Prop :=
  enum_id l (wp_calls p) /\ enum_id l (wp_events p) /\ enum_id l (wp_errors p) /\
  Forall (fun k => names (wc_type k) <> "") (wp_constants p) /\ Forall (fun e => storage_keyed l names (we_type e)) (wentries p).
(** Every storage map has one hasher per part of a tuple key. *)
Definition one_key_each (l : wregistry) (p : wpallet) : Prop := Forall (fun e => one_per_hasher l (we_type e)) (wentries p).

Lemma constants_shown names l : Forall (fun k => si_name names (wc_type k) <> "") l ->
  constants_of names (map raw_const_of l) = Ok (map (shown_const (si_name names)) l).
Proof.
  induction 1 as [|k l N F IH]; [reflexivity|]. cbn [map]. change (raw_const_of k) with (text_of (wc_name k), wc_type k, hex_encode (wc_value k)). cbn [constants_of].
  destruct (String.eqb_spec (si_name names (wc_type k)) ""); [contradiction|]. rewrite IH. reflexivity.
Qed.
Lemma storages_shown v15 l names es : Forall (fun e => storage_keyed l (si_name names) (we_type e)) es -> (v15 = true -> Forall (fun e => one_per_hasher l (we_type e)) es) ->
  resolve_all v15 (SpecMeta.declared l) names (map (fun e => (text_of (we_name e), described_storage (we_type e))) es) =
  Ok (map (fun e => (text_of (we_name e), shown_storage l (si_name names) (we_type e))) es).
Proof.
  induction 1 as [|e es H F IH]; intros V; [reflexivity|]. cbn [map resolve_all]. rewrite (storage_shown v15 l names _ H) by (intros X; specialize (V X); now inversion V). cbn [bind].
  rewrite IH by (intros X; specialize (V X); now inversion V). reflexivity.
Qed.
Lemma entries_described p : p_storage (described p) = map (fun e => (text_of (we_name e), described_storage (we_type e))) (wentries p).
Proof. unfold described, wentries. cbn [p_storage]. now destruct (wp_storage p). Qed.
Lemma module_shown v15 l names p : pallet_described l (si_name names) p -> (v15 = true -> one_key_each l p) -> module_of v15 (SpecMeta.declared l) names (raw_of p) = Ok (shown_module l (si_name names) p).
Proof.
  intros (C & V & X & K & S) O. unfold module_of, raw_of. cbn [r_pallet r_errors r_constants r_prefix]. change (p_calls (described p)) with (wp_calls p). change (p_events (described p)) with (wp_events p).
  rewrite (items_shown _ l _ C), (items_shown _ l _ V). cbn [bind]. unfold errors_of. rewrite (items_shown _ l _ X). cbn [bind].
  rewrite constants_shown by exact K. cbn [bind]. rewrite entries_described, (storages_shown v15 l names _ S O). cbn [bind].
  unfold shown_module. f_equal. f_equal.
  - apply map_ext. apply call_shown.
  - apply map_ext. apply event_shown.
Qed.
Lemma modules_shown v15 l names ps : Forall (pallet_described l (si_name names)) ps -> (v15 = true -> Forall (one_key_each l) ps) ->
  modules_of v15 (SpecMeta.declared l) names (map raw_of ps) = Ok (map (shown_module l (si_name names)) ps).
Proof.
  induction 1 as [|p ps H F IH]; intros O; [reflexivity|]. cbn [map modules_of]. rewrite (module_shown v15 l names p H) by (intros X; specialize (O X); now inversion O). cbn [bind].
  rewrite IH by (intros X; specialize (O X); now inversion O). reflexivity.
Qed.
Lemma tables_exist v15 l names ps : Forall (pallet_described l (si_name names)) ps -> (v15 = true -> Forall (one_key_each l) ps) -> exists t, pallet_tables v15 (SpecMeta.declared l) names (map described ps) = Ok t.
Proof.
  intros F O. unfold pallet_tables. generalize (Tables [] [] []). induction F as [|p ps (C & V & _ & _ & S) F IH]; intros t; [now exists t|]. cbn [map pallets_loop].
  change (p_calls (described p)) with (wp_calls p). change (p_events (described p)) with (wp_events p). rewrite (items_shown _ l _ C), (items_shown _ l _ V). cbn [bind].
  rewrite entries_described, (storages_shown v15 l names _ S) by (intros X; specialize (O X); now inversion O). cbn [bind]. apply IH. intros X. specialize (O X). now inversion O.
Qed.

(** ** The lookup tables *)
(** The pallet with index [i] and the variant with index [j] of the type [of] it. *)
Definition wat (l : wregistry) (of : wpallet -> option Z) (ps : list wpallet) (i j : Z) : option (wpallet * wvariant) :=
  match find (fun p => wp_index p =? i) ps with
  | Some p => match find (fun v => wv_index v =? j) (wvariants l (of p)) with Some v => Some (p, v) | None => None end
  | None => None
  end.
Definition distinct_indices (l : wregistry) (ps : list wpallet) : Prop :=
  NoDup (map wp_index ps) /\ forall p, In p ps -> NoDup (map wv_index (wvariants l (wp_calls p))) /\ NoDup (map wv_index (wvariants l (wp_events p))).
Definition is_table {A} (shown : wvariant -> A) (l : wregistry) (of : wpallet -> option Z) (ps : list wpallet) (t : table A) : Prop :=
  forall i j, 0 <= i < 256 -> 0 <= j < 256 ->
  assoc (on_chain i j) t = match wat l of ps i j with Some (p, v) => Some (Entry (text_of (wp_name p)) (shown v)) | None => None end.

Lemma wfind_in l k t : wfind l k = Some t -> exists i, In (i, t) l.
Proof.
  induction l as [|[i u] l IH]; [discriminate|]. cbn [wfind]. destruct (wfind l k) as [u'|].
  - intros [= ->]. destruct (IH eq_refl) as [j J]. exists j. now right.
  - destruct (k =? i); [|discriminate]. intros [= ->]. exists i. now left.
Qed.
Lemma variants_sized l o : registry_ok l -> Forall (fun v => 0 <= wv_index v < 256) (wvariants l o).
Proof.
  intros [_ F]. destruct o as [k|]; [|constructor]. cbn [wvariants]. destruct (wfind l k) as [t|] eqn:Q; [|constructor]. destruct (wt_def t) as [|vs| | | | | | | |] eqn:D; try constructor.
  destruct (wfind_in l k t Q) as [i I]. rewrite Forall_forall in F. destruct (F _ I) as [_ (_ & _ & K & _)]. cbn [snd] in K. rewrite D in K. destruct K as [_ K].
  eapply Forall_impl; [|exact K]. intros v (_ & _ & B & _). exact B.
Qed.
Lemma variant_found l of of' ps i j : (forall p, of' (described p) = of p) ->
  variant_at (SpecMeta.declared l) of' (map described ps) i j =
  match wat l of ps i j with Some (p, v) => Some (text_of (wp_name p), declared_variant v) | None => None end.
Proof.
  intros O. unfold variant_at, wat. rewrite find_map. change (fun x => p_index (described x) =? i) with (fun x => wp_index x =? i). destruct (find (fun x => wp_index x =? i) ps) as [p|]; [|reflexivity]. cbn [option_map]. rewrite O.
  destruct (of p) as [k|]; [|reflexivity]. cbn [wvariants]. rewrite get_declared. destruct (wfind l k) as [t|]; [|reflexivity]. unfold declared_type. cbn [s_def].
  destruct (wt_def t) as [|vs| | |[]| | | | |[]]; cbn [declared_def]; try reflexivity.
  unfold PropScaleInfo.declared. rewrite find_map. change (fun x => v_index (declared_variant x) =? j) with (fun x => wv_index x =? j). now destruct (find (fun x => wv_index x =? j) vs).
Qed.
Lemma declared_variants l k vs : s_def (port_get (SpecMeta.declared l) k) = DVariant vs -> vs = map declared_variant (wvariants l (Some k)).
Proof.
  rewrite get_declared. cbn [wvariants]. destruct (wfind l k) as [t|]; [|discriminate]. unfold declared_type. cbn [s_def]. destruct (wt_def t) as [|ws| | |[]| | | | |[]]; cbn [declared_def]; try discriminate.
  now intros [= ->].
Qed.
Lemma tables_shown v15 l names ps t : registry_ok l -> Forall pallet_ok ps -> distinct_indices l ps -> pallet_tables v15 (SpecMeta.declared l) names (map described ps) = Ok t ->
  is_table (shown_call (si_name names)) l wp_calls ps (tb_calls t) /\ is_table (shown_event (si_name names)) l wp_events ps (tb_events t).
Proof.
  intros R P [ND DV] T. assert (G : forall i j, 0 <= i < 256 -> 0 <= j < 256 ->
    assoc (on_chain i j) (tb_calls t) = match wat l wp_calls ps i j with Some (p, v) => Some (Entry (text_of (wp_name p)) (shown_call (si_name names) v)) | None => None end /\
    assoc (on_chain i j) (tb_events t) = match wat l wp_events ps i j with Some (p, v) => Some (Entry (text_of (wp_name p)) (shown_event (si_name names) v)) | None => None end).
  { intros i j I J. destruct (pallets_assoc v15 (SpecMeta.declared l) names (map described ps) (Tables [] [] []) t) with (a := i) (b := j) as [X Y]; [| | |exact T|exact I|exact J|].
    - now rewrite map_map.
    - apply Forall_map. eapply Forall_impl; [|exact P]. intros p (_ & _ & _ & _ & _ & _ & B). exact B.
    - intros p k vs IN O D. apply in_map_iff in IN. destruct IN as (w & <- & IN). apply declared_variants in D. subst vs. destruct (DV w IN) as [A B].
      assert (N : NoDup (map wv_index (wvariants l (Some k)))).
      { change (p_calls (described w)) with (wp_calls w) in O. change (p_events (described w)) with (wp_events w) in O. destruct O as [O|O]; rewrite O in *; assumption. }
      split; [now rewrite map_map|]. apply Forall_map. exact (variants_sized l (Some k) R).
    - rewrite X, Y, (variant_found l wp_calls p_calls), (variant_found l wp_events p_events) by reflexivity. cbn [tb_calls tb_events assoc]. split.
      + destruct (wat l wp_calls ps i j) as [[p v]|]; [|reflexivity]. cbn [to_entry]. now rewrite call_shown.
      + destruct (wat l wp_events ps i j) as [[p v]|]; [|reflexivity]. cbn [to_entry]. now rewrite event_shown. }
  split; intros i j I J; now apply G.
Qed.

(** ** C65 *)
Definition shown_extensions (names : Z -> string) (x : wextrinsic) : list (string * string) := map (fun x => (text_of (wx_name x), names (wx_type x))) (we_extensions x).
Lemma v14_exact r c m pre tl f1 s :
  let l := wm_types m in let ps := wm_pallets m in let port := SpecMeta.declared l in let names := si_name (g_names s) in
  meta_registry r -> meta14_ok m -> blen (pre ++ meta14_enc m ++ tl) < 2 ^ 63 ->
  ProcessSiType f1 (SiCtx "" true (x_spec c) port f1) r = Ok s -> plain_paths port -> (forall k, In k meta_names -> free_name port k) ->
  Forall (pallet_described l names) ps -> distinct_indices l ps ->
  exists f0 calls events, (exists t, pallet_tables false port (g_names s) (map described ps) = Ok t /\ calls = tb_calls t /\ events = tb_events t) /\ is_table (shown_call names) l wp_calls ps calls /\ is_table (shown_event names) l wp_events ps events /\
  forall f, (f0 <= f)%nat ->
  process_portable f c false r (pre ++ meta14_enc m ++ tl) (blen pre) =
  Ok (MData (map (shown_module l names) ps) calls events (shown_extensions names (wm_extrinsic m)) (map (fun x => text_of (wx_name x)) (we_extensions (wm_extrinsic m))) [] None [],
      blen pre + blen (meta14_enc m),
      registerOriginCaller (map (fun p => (text_of (wp_name p), wp_index p)) ps) (g_reg s)).
Proof.
  intros l ps port names M (KR & KP & KX) L P PP FN PD DI. destruct m as [ml mp mx]. cbn [wm_types wm_pallets wm_extrinsic] in *. fold l ps in KR, KP. unfold meta14_enc in *. cbn [wm_types wm_pallets wm_extrinsic] in *. fold l ps in L |- *.
  destruct (tables_exist false l (g_names s) ps PD ltac:(discriminate)) as [t T].
  destruct (tables_shown false l (g_names s) ps t KR (proj2 KP) DI T) as [TC TE].
  set (e1 := registry_enc l) in *. set (e2 := list_enc pallet_enc ps) in *. set (e3 := extrinsic_enc mx) in *.
  assert (A1 : (pre ++ (e1 ++ e2 ++ e3) ++ tl = pre ++ e1 ++ (e2 ++ e3 ++ tl))%list) by now rewrite <- !app_assoc.
  assert (A2 : (pre ++ (e1 ++ e2 ++ e3) ++ tl = (pre ++ e1) ++ e2 ++ (e3 ++ tl))%list) by now rewrite <- !app_assoc.
  assert (A3 : (pre ++ (e1 ++ e2 ++ e3) ++ tl = (pre ++ e1 ++ e2) ++ e3 ++ tl)%list) by now rewrite <- !app_assoc.
  assert (M2 : meta_registry (g_reg s)) by (eapply registry_kept; [exact M|exact P|reflexivity|exact PP|exact FN]).
  destruct (C64_registry r c l pre (e2 ++ e3 ++ tl) M KR ltac:(fold e1; now rewrite <- A1)) as [g1 G1]. fold e1 in G1.
  destruct (reads (g_reg s) c _ _ _ M2 (sc0_pallets (reg_env (g_reg s)) c (registry_env _ _ M2) ps KP) (pre ++ e1) (e3 ++ tl) ltac:(fold e2; now rewrite <- A2)) as [g2 G2]. fold e2 in G2.
  destruct (reads (g_reg s) c _ _ _ M2 (sc0_extrinsic (reg_env (g_reg s)) c (registry_env _ _ M2) mx KX) (pre ++ e1 ++ e2) tl ltac:(fold e3; now rewrite <- A3)) as [g3 G3]. fold e3 in G3.
  exists (Nat.max (Nat.max f1 g1) (Nat.max g2 g3)), (tb_calls t), (tb_events t). split; [now exists t|]. split; [exact TC|]. split; [exact TE|]. intros f F.
  unfold process_portable. destruct (G1 f ltac:(lia)) as (x & R & I). rewrite A1, R, <- A1. cbn [bind]. rewrite slice_val_of. cbn [bind]. rewrite I. cbn [bind].
  fold port. rewrite (process_more f1 f "" true (x_spec c) port r s ltac:(lia) P). cbn [bind].
  assert (B1 : blen pre + blen e1 = blen (pre ++ e1)) by (unfold blen; rewrite app_length; lia).
  assert (B2 : blen (pre ++ e1) + blen e2 = blen (pre ++ e1 ++ e2)) by (unfold blen; rewrite !app_length; lia).
  assert (B3 : blen (pre ++ e1 ++ e2) + blen e3 = blen pre + blen (e1 ++ e2 ++ e3)) by (unfold blen; rewrite !app_length; lia).
  rewrite B1, A2, (G2 f ltac:(lia)), <- A2. cbn [bind].
  unfold records. rewrite slice_val_of. cbn [bind]. rewrite raw_modules_ok. cbn [bind]. unfold port. rewrite (modules_shown false l (g_names s) ps PD) by discriminate. cbn [bind].
  replace (map r_pallet (map raw_of ps)) with (map described ps) by now rewrite map_map. rewrite T. cbn [bind].
  rewrite B2, A3, (G3 f ltac:(lia)). cbn [bind]. rewrite (extensions_ok (g_names s) _ (we_extensions mx)) by reflexivity. cbn [bind]. rewrite B3.
  rewrite !map_map. reflexivity.
Qed.
Theorem C65_v14 r c m pre tl f1 s :
  let l := wm_types m in let ps := wm_pallets m in let port := SpecMeta.declared l in let names := si_name (g_names s) in
  meta_registry r -> meta14_ok m -> blen (pre ++ meta14_enc m ++ tl) < 2 ^ 63 ->
  ProcessSiType f1 (SiCtx "" true (x_spec c) port f1) r = Ok s -> plain_paths port -> (forall k, In k meta_names -> free_name port k) ->
  Forall (pallet_described l names) ps -> distinct_indices l ps ->
  exists f0 calls events, is_table (shown_call names) l wp_calls ps calls /\ is_table (shown_event names) l wp_events ps events /\
  forall f, (f0 <= f)%nat ->
  process_portable f c false r (pre ++ meta14_enc m ++ tl) (blen pre) =
  Ok (MData (map (shown_module l names) ps) calls events (shown_extensions names (wm_extrinsic m)) (map (fun x => text_of (wx_name x)) (we_extensions (wm_extrinsic m))) [] None [],
      blen pre + blen (meta14_enc m),
      registerOriginCaller (map (fun p => (text_of (wp_name p), wp_index p)) ps) (g_reg s)).
Proof.
  intros l ps port names H0 H1 H2 H3 H4 H5 H6 H7.
  destruct (v14_exact r c m pre tl f1 s H0 H1 H2 H3 H4 H5 H6 H7) as (f0 & calls & events & _ & X). now exists f0, calls, events.
Qed.

(** From the whole bytes: header, version 14, metadata; what follows is ignored. *)
Lemma v14_metadata r h m tl f1 s :
  let l := wm_types m in let ps := wm_pallets m in let port := SpecMeta.declared l in let names := si_name (g_names s) in
  let data := (h ++ magic ++ [Zb 14] ++ meta14_enc m ++ tl)%list in
  meta_registry r -> lead h -> meta14_ok m -> blen data < 2 ^ 63 ->
  ProcessSiType f1 (SiCtx "" true 0 port f1) r = Ok s -> plain_paths port -> (forall k, In k meta_names -> free_name port k) ->
  Forall (pallet_described l names) ps -> distinct_indices l ps ->
  exists f0 calls events, (exists t, pallet_tables false port (g_names s) (map described ps) = Ok t /\ calls = tb_calls t /\ events = tb_events t) /\ is_table (shown_call names) l wp_calls ps calls /\ is_table (shown_event names) l wp_events ps events /\
  forall f, (f0 <= f)%nat ->
  ProcessMetadata f r data =
  Ok (Some (14, MData (map (shown_module l names) ps) calls events (shown_extensions names (wm_extrinsic m)) (map (fun x => text_of (wx_name x)) (we_extensions (wm_extrinsic m))) [] None []),
      registerOriginCaller (map (fun p => (text_of (wp_name p), wp_index p)) ps) (g_reg s)).
Proof.
  intros l ps port names data M H K L P PP FN PD DI.
  assert (A : data = ((h ++ magic ++ [Zb 14]) ++ meta14_enc m ++ tl)%list) by (unfold data; now rewrite <- !app_assoc).
  assert (B : blen (h ++ magic ++ [Zb 14]) = blen h + 5) by (unfold blen; rewrite !app_length; change (List.length magic) with 4%nat; cbn [List.length]; lia).
  destruct (v14_exact r (Ctx 0 "" None) m (h ++ magic ++ [Zb 14]) tl f1 s M K) as (g1 & calls & events & EX & TC & TE & G1); [now rewrite <- A|exact P|exact PP|exact FN|exact PD|exact DI|].
  destruct (C66_header r (Ctx 0 "" None) h 14 (meta14_enc m ++ tl) M H ltac:(lia) L) as [g2 G2]. fold data in G2.
  exists (Nat.max g1 g2), calls, events. split; [exact EX|]. split; [exact TC|]. split; [exact TE|]. intros f F. unfold ProcessMetadata. rewrite (G2 f ltac:(lia)). cbn [bind].
  unfold process_version. change (nth (Z.to_nat 14) versions "") with "MetadataV14Decoder".
  destruct (key_look (reg_env r) (Ctx 0 "" None) (registry_env r _ M) "MetadataV14Decoder" (COpaque "MetadataV14Decoder") (COpaque "MetadataV14Decoder")) as (cd & sub & G & J); [reflexivity..|].
  change (x_module (Ctx 0 "" None)) with "" in *. change (x_spec (Ctx 0 "" None)) with 0 in *. rewrite G. cbn [bind].
  destruct cd; try discriminate J. cbn [init_sub] in J. injection J as ->. cbn [String.eqb Ascii.eqb Bool.eqb].
  rewrite A, <- B, (G1 f ltac:(lia)). reflexivity.
Qed.
Theorem C65_metadata r h m tl f1 s :
  let l := wm_types m in let ps := wm_pallets m in let port := SpecMeta.declared l in let names := si_name (g_names s) in
  let data := (h ++ magic ++ [Zb 14] ++ meta14_enc m ++ tl)%list in
  meta_registry r -> lead h -> meta14_ok m -> blen data < 2 ^ 63 ->
  ProcessSiType f1 (SiCtx "" true 0 port f1) r = Ok s -> plain_paths port -> (forall k, In k meta_names -> free_name port k) ->
  Forall (pallet_described l names) ps -> distinct_indices l ps ->
  exists f0 calls events, is_table (shown_call names) l wp_calls ps calls /\ is_table (shown_event names) l wp_events ps events /\
  forall f, (f0 <= f)%nat ->
  ProcessMetadata f r data =
  Ok (Some (14, MData (map (shown_module l names) ps) calls events (shown_extensions names (wm_extrinsic m)) (map (fun x => text_of (wx_name x)) (we_extensions (wm_extrinsic m))) [] None []),
      registerOriginCaller (map (fun p => (text_of (wp_name p), wp_index p)) ps) (g_reg s)).
Proof.
  intros l ps port names data H0 H1 H2 H3 H4 H5 H6 H7 H8.
  destruct (v14_metadata r h m tl f1 s H0 H1 H2 H3 H4 H5 H6 H7 H8) as (f0 & calls & events & _ & X). now exists f0, calls, events.
Qed.
