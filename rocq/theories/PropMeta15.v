(** Property C68: whole metadata V15, read from its bytes. *)

From Verif Require Import GoBase SpecNum ModelTools ModelVal ModelRegistry ModelDecode ModelEncode ModelRegister SpecScale ModelScaleInfo ModelMetadata
  PropScaleInfo PropMetadata ModelMeta SpecMeta
  ProofsBase ProofsTools ProofsRun ProofsReads ProofsScale ProofsApi PropCodec ProofsNames ProofsTexts ProofsPortReg ProofsFrame ProofsMeta ProofsMeta15 PropMeta PropMeta14.

(** ** Reading parts one after the other *)
Definition at_ (data : bytes) (o : Z) (rest : bytes) : Prop := exists pre, data = (pre ++ rest)%list /\ o = blen pre.
Lemma at_next data o b rest : at_ data o (b ++ rest)%list -> at_ data (o + blen b) rest.
Proof. intros (pre & -> & ->). exists (pre ++ b)%list. split; [now rewrite <- app_assoc|]. unfold blen. rewrite app_length. lia. Qed.
Lemma reads_at r c t b g data o rest : meta_registry r -> sc0 (reg_env r) c t b g -> blen data < 2 ^ 63 -> at_ data o (b ++ rest)%list ->
  exists f0, forall f, (f0 <= f)%nat -> read f c r data o t = Ok (g, o + blen b).
Proof. intros M S L (pre & -> & ->). exact (reads r c t b g M S pre rest L). Qed.

Definition names15 : list string := (meta_names ++ map fst custom_keys)%list.
Lemma custom_same r r' : (forall k, In k (map fst custom_keys) -> same_at k r r') -> custom_registry r -> custom_registry r'.
Proof. intros H C k o I. destruct (H k) as [-> ->]; [apply in_map_iff; now exists (k, o)|]. now apply C. Qed.
Lemma custom_env r spec : custom_registry r -> forall k o, In (k, o) custom_keys -> find_key (reg_env r) k spec = o.
Proof. intros C k o I. destruct (C k o I) as [A B]. unfold find_key, specialVersionCodec. cbn [reg_env e_special e_reg]. now rewrite B. Qed.
Lemma custom_kept f c r s : custom_registry r -> ProcessSiType f c r = Ok s -> i_prefix c = "" -> plain_paths (i_port c) ->
  (forall k, In k names15 -> free_name (i_port c) k) -> custom_registry (g_reg s).
Proof.
  intros M P X H F. eapply custom_same; [|exact M]. intros k I. eapply portable_frame; [exact P|exact X|exact H| |apply F; unfold names15; apply in_or_app; now right].
  apply free_keyb_ok. revert k I. apply forallb_forall. vm_compute. reflexivity.
Qed.
Lemma origin_same l r k : In k names15 -> same_at k r (registerOriginCaller l r).
Proof.
  intros I. unfold registerOriginCaller. change (to_lower "OriginCaller") with "origincaller". unfold regCustomKey. cbn [split_char Ascii.eqb Bool.eqb].
  split; [|reflexivity]. cbn [with_types r_types]. rewrite assoc_upd. destruct (String.eqb_spec k "origincaller") as [->|]; [|reflexivity]. exfalso. revert I. vm_compute. intuition discriminate.
Qed.

(** ** C68 *)
Definition pallets15 (m : wmeta15) : list wpallet := map fst (w5_pallets m).
Definition shown15 (l : wregistry) (names : Z -> string) (m : wmeta15) (calls : table mcall) (events : table mevent) : mdata :=
  MData (map (shown_module l names) (pallets15 m)) calls events
    (map (fun x => (text_of (wx_name x), names (wx_type x))) (x5_extensions (w5_extrinsic m)))
    (map (fun x => text_of (wx_name x)) (x5_extensions (w5_extrinsic m)))
    (map (shown_api names) (w5_apis m)) (Some (shown_outer (w5_outer m))) (map shown_custom (w5_custom m)).
(** Not provable without [one_key_each]: see C51_v15_refuted; nor without the
    names being free: see C68_custom_refuted. *)
Lemma v15_exact r c m pre tl f1 s :
  let l := w5_types m in let ps := pallets15 m in let port := SpecMeta.declared l in let names := si_name (g_names s) in
  meta_registry r -> custom_registry r -> meta15_ok m -> blen (pre ++ meta15_enc m ++ tl) < 2 ^ 63 ->
  ProcessSiType f1 (SiCtx "" true (x_spec c) port f1) r = Ok s -> plain_paths port -> (forall k, In k names15 -> free_name port k) ->
  Forall (pallet_described l names) ps -> Forall (one_key_each l) ps -> distinct_indices l ps ->
  exists f0 calls events, (exists t, pallet_tables true port (g_names s) (map described ps) = Ok t /\ calls = tb_calls t /\ events = tb_events t) /\ is_table (shown_call names) l wp_calls ps calls /\ is_table (shown_event names) l wp_events ps events /\
  forall f, (f0 <= f)%nat ->
  process_portable f c true r (pre ++ meta15_enc m ++ tl) (blen pre) =
  Ok (shown15 l names m calls events, blen pre + blen (meta15_enc m),
      registerOriginCaller (map (fun p => (text_of (wp_name p), wp_index p)) ps) (g_reg s)).
Proof.
  intros l ps port names M CR K L P PP FN PD OK DI. destruct K as (KR & KP & KX & KT & KA & KO & KC & KF).
  set (r2 := registerOriginCaller (map (fun p => (text_of (wp_name p), wp_index p)) ps) (g_reg s)).
  assert (PK : Forall pallet_ok ps) by (unfold ps, pallets15; apply Forall_map; eapply Forall_impl; [|exact (proj2 KP)]; intros p [A _]; exact A).
  destruct (tables_exist true l (g_names s) ps PD (fun _ => OK)) as [t T].
  destruct (tables_shown true l (g_names s) ps t KR PK DI T) as [TC TE].
  assert (FM : forall k, In k meta_names -> free_name port k) by (intros k I; apply FN; unfold names15; apply in_or_app; now left).
  assert (M1 : meta_registry (g_reg s)) by (eapply registry_kept; [exact M|exact P|reflexivity|exact PP|exact FM]).
  assert (C1 : custom_registry (g_reg s)) by (eapply custom_kept; [exact CR|exact P|reflexivity|exact PP|exact FN]).
  assert (M2 : meta_registry r2) by (apply (registry_same (g_reg s)); [|exact M1]; intros k I; apply origin_same; unfold names15; apply in_or_app; now left).
  assert (C2 : custom_registry r2) by (apply (custom_same (g_reg s)); [|exact C1]; intros k I; apply origin_same; unfold names15; apply in_or_app; now right).
  set (data := (pre ++ meta15_enc m ++ tl)%list) in *.
  assert (A0 : at_ data (blen pre) (meta15_enc m ++ tl)%list) by (exists pre; now split).
  set (en := meta15_enc m) in A0 |- *. 
  assert (EN : en = meta15_enc m) by reflexivity. unfold meta15_enc in EN. rewrite EN in A0. rewrite <- !app_assoc in A0.
  pose proof (at_next _ _ _ _ A0) as A1. pose proof (at_next _ _ _ _ A1) as A2. pose proof (at_next _ _ _ _ A2) as A3. pose proof (at_next _ _ _ _ A3) as A4.
  pose proof (at_next _ _ _ _ A4) as A5. pose proof (at_next _ _ _ _ A5) as A6.
  destruct (reads_at r c _ _ _ _ _ _ M (sc0_registry (reg_env r) c (registry_env r _ M) _ KR) L A0) as [g0 G0].
  destruct (reads_at (g_reg s) c _ _ _ _ _ _ M1 (sc0_pallets15 (reg_env (g_reg s)) c (registry_env _ _ M1) _ KP) L A1) as [g1 G1].
  destruct (reads_at (g_reg s) c _ _ _ _ _ _ M1 (sc0_extrinsic15 (reg_env (g_reg s)) c (registry_env _ _ M1) _ KX) L A2) as [g2 G2].
  destruct (reads_at r2 c _ _ _ _ _ _ M2 (sc0_id (reg_env r2) c (registry_env _ _ M2) _ KT) L A3) as [g3 G3].
  destruct (reads_at r2 c _ _ _ _ _ _ M2 (sc0_apis (reg_env r2) c (registry_env _ _ M2) _ KA) L A4) as [g4 G4].
  destruct (reads_at r2 c _ _ _ _ _ _ M2 (sc0_outer (reg_env r2) c (registry_env _ _ M2) _ KO) L A5) as [g5 G5].
  destruct (reads_at r2 c _ _ _ _ _ _ M2 (sc0_custom (reg_env r2) c (registry_env _ _ M2) (custom_env _ _ C2) _ KC KF) L A6) as [g6 G6].
  exists (Nat.max (Nat.max (Nat.max f1 g0) (Nat.max g1 g2)) (Nat.max (Nat.max g3 g4) (Nat.max g5 g6))), (tb_calls t), (tb_events t). split; [now exists t|]. split; [exact TC|]. split; [exact TE|]. intros f F.
  unfold process_portable. rewrite (G0 f ltac:(lia)). cbn [bind]. unfold registry_val. rewrite slice_val_of. cbn [bind]. rewrite init_portable. cbn [bind]. change (w5_types m) with l. change (SpecMeta.declared l) with port.
  rewrite (process_more f1 f "" true (x_spec c) port r s ltac:(lia) P). cbn [bind]. fold l in G1, G2, G3, G4, G5, G6.
  rewrite (G1 f ltac:(lia)). cbn [bind]. unfold records at 1. rewrite slice_val_of. cbn [bind]. rewrite raw_modules15_ok. cbn [bind]. change (map fst (w5_pallets m)) with ps. unfold port.
  rewrite (modules_shown true l (g_names s) ps PD (fun _ => OK)). cbn [bind].
  replace (map r_pallet (map raw_of ps)) with (map described ps) by now rewrite map_map. rewrite T. cbn [bind].
  rewrite (G2 f ltac:(lia)). cbn [bind]. rewrite (extensions_ok (g_names s) _ (x5_extensions (w5_extrinsic m))) by reflexivity. cbn [bind].
  replace (registerOriginCaller (map (fun m0 => (m_name m0, m_index m0)) (map (shown_module l (si_name (g_names s))) ps)) (g_reg s)) with r2 by (unfold r2; now rewrite map_map).
  rewrite (G3 f ltac:(lia)). cbn [bind]. rewrite (G4 f ltac:(lia)). cbn [bind]. unfold records at 1. rewrite slice_val_of. cbn [bind]. rewrite raw_apis_ok. cbn [bind].
  rewrite (G5 f ltac:(lia)). cbn [bind]. rewrite raw_outer_ok. cbn [bind]. rewrite (G6 f ltac:(lia)). cbn [bind]. rewrite raw_customs_ok. cbn [bind].
  f_equal. f_equal. f_equal.
  - unfold shown15. fold ps. fold names. f_equal. now rewrite map_map.
  - rewrite EN. fold l. unfold blen. rewrite !app_length. lia.
Qed.
Theorem C68_v15_partial r c m pre tl f1 s :
  let l := w5_types m in let ps := pallets15 m in let port := SpecMeta.declared l in let names := si_name (g_names s) in
  meta_registry r -> custom_registry r -> meta15_ok m -> blen (pre ++ meta15_enc m ++ tl) < 2 ^ 63 ->
  ProcessSiType f1 (SiCtx "" true (x_spec c) port f1) r = Ok s -> plain_paths port -> (forall k, In k names15 -> free_name port k) ->
  Forall (pallet_described l names) ps -> Forall (one_key_each l) ps -> distinct_indices l ps ->
  exists f0 calls events, is_table (shown_call names) l wp_calls ps calls /\ is_table (shown_event names) l wp_events ps events /\
  forall f, (f0 <= f)%nat ->
  process_portable f c true r (pre ++ meta15_enc m ++ tl) (blen pre) =
  Ok (shown15 l names m calls events, blen pre + blen (meta15_enc m),
      registerOriginCaller (map (fun p => (text_of (wp_name p), wp_index p)) ps) (g_reg s)).
Proof.
  intros l ps port names H0 H1 H2 H3 H4 H5 H6 H7 H8 H9.
  destruct (v15_exact r c m pre tl f1 s H0 H1 H2 H3 H4 H5 H6 H7 H8 H9) as (f0 & calls & events & _ & X). now exists f0, calls, events.
Qed.

Lemma v15_metadata r h m tl f1 s :
  let l := w5_types m in let ps := pallets15 m in let port := SpecMeta.declared l in let names := si_name (g_names s) in
  let data := (h ++ magic ++ [Zb 15] ++ meta15_enc m ++ tl)%list in
  meta_registry r -> custom_registry r -> lead h -> meta15_ok m -> blen data < 2 ^ 63 ->
  ProcessSiType f1 (SiCtx "" true 0 port f1) r = Ok s -> plain_paths port -> (forall k, In k names15 -> free_name port k) ->
  Forall (pallet_described l names) ps -> Forall (one_key_each l) ps -> distinct_indices l ps ->
  exists f0 calls events, (exists t, pallet_tables true port (g_names s) (map described ps) = Ok t /\ calls = tb_calls t /\ events = tb_events t) /\ is_table (shown_call names) l wp_calls ps calls /\ is_table (shown_event names) l wp_events ps events /\
  forall f, (f0 <= f)%nat ->
  ProcessMetadata f r data =
  Ok (Some (15, shown15 l names m calls events), registerOriginCaller (map (fun p => (text_of (wp_name p), wp_index p)) ps) (g_reg s)).
Proof.
  intros l ps port names data M CR H K L P PP FN PD OK DI.
  assert (A : data = ((h ++ magic ++ [Zb 15]) ++ meta15_enc m ++ tl)%list) by (unfold data; now rewrite <- !app_assoc).
  assert (B : blen (h ++ magic ++ [Zb 15]) = blen h + 5) by (unfold blen; rewrite !app_length; change (List.length magic) with 4%nat; cbn [List.length]; lia).
  destruct (v15_exact r (Ctx 0 "" None) m (h ++ magic ++ [Zb 15]) tl f1 s M CR K) as (g1 & calls & events & EX & TC & TE & G1); [now rewrite <- A|exact P|exact PP|exact FN|exact PD|exact OK|exact DI|].
  destruct (C66_header r (Ctx 0 "" None) h 15 (meta15_enc m ++ tl) M H ltac:(lia) L) as [g2 G2]. fold data in G2.
  exists (Nat.max g1 g2), calls, events. split; [exact EX|]. split; [exact TC|]. split; [exact TE|]. intros f F. unfold ProcessMetadata. rewrite (G2 f ltac:(lia)). cbn [bind].
  unfold process_version. change (nth (Z.to_nat 15) versions "") with "MetadataV15Decoder".
  destruct (key_look (reg_env r) (Ctx 0 "" None) (registry_env r _ M) "MetadataV15Decoder" (COpaque "MetadataV15Decoder") (COpaque "MetadataV15Decoder")) as (cd & sub & G & J); [reflexivity..|].
  change (x_module (Ctx 0 "" None)) with "" in *. change (x_spec (Ctx 0 "" None)) with 0 in *. rewrite G. cbn [bind].
  destruct cd; try discriminate J. cbn [init_sub] in J. injection J as ->. cbn [String.eqb Ascii.eqb Bool.eqb].
  rewrite A, <- B, (G1 f ltac:(lia)). reflexivity.
Qed.
Theorem C68_metadata_partial r h m tl f1 s :
  let l := w5_types m in let ps := pallets15 m in let port := SpecMeta.declared l in let names := si_name (g_names s) in
  let data := (h ++ magic ++ [Zb 15] ++ meta15_enc m ++ tl)%list in
  meta_registry r -> custom_registry r -> lead h -> meta15_ok m -> blen data < 2 ^ 63 ->
  ProcessSiType f1 (SiCtx "" true 0 port f1) r = Ok s -> plain_paths port -> (forall k, In k names15 -> free_name port k) ->
  Forall (pallet_described l names) ps -> Forall (one_key_each l) ps -> distinct_indices l ps ->
  exists f0 calls events, is_table (shown_call names) l wp_calls ps calls /\ is_table (shown_event names) l wp_events ps events /\
  forall f, (f0 <= f)%nat ->
  ProcessMetadata f r data =
  Ok (Some (15, shown15 l names m calls events), registerOriginCaller (map (fun p => (text_of (wp_name p), wp_index p)) ps) (g_reg s)).
Proof.
  intros l ps port names data H0 H1 H2 H3 H4 H5 H6 H7 H8 H9 H10.
  destruct (v15_metadata r h m tl f1 s H0 H1 H2 H3 H4 H5 H6 H7 H8 H9 H10) as (f0 & calls & events & _ & X). now exists f0, calls, events.
Qed.
