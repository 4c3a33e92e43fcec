(** Properties C67 and C68 for metadata V15: a runtime described by it, its
    calls and events, a concrete one; and what goes wrong when a type goes by a
    name the library itself uses. *)

From Verif Require Import GoBase SpecNum ModelTools ModelVal ModelRegistry ModelDecode ModelEncode ModelRegister SpecScale ModelScaleInfo ModelMetadata ModelEvents
  ProofsBase ProofsTools ProofsRun ProofsReads ProofsScale ProofsApi PropForms PropCodec ProofsNames ProofsTexts PropScaleInfo
  SpecPortable ProofsPortText ProofsPortReg ProofsPortDecode PropPortable ProofsFrame
  PropMetadata PropEvents ModelMeta SpecMeta ProofsMeta ProofsMeta15 PropMeta PropMeta14 PropMeta15 PropRuntime PropRuntimeEx.

(** The types and pallets of a runtime, without what only V15 has. *)
Definition as14 (m : wmeta15) : wmeta14 := WMeta14 (w5_types m) (pallets15 m) (WExtrinsic 0 0 (x5_extensions (w5_extrinsic m))).

Section Runtime15.
Variables (r : reg) (m : wmeta15) (Rg : Z -> Prop) (D : list (string * Z)) (f1 : nat) (s : sistate).
Hypothesis rt : runtime r (as14 m) Rg D f1 s.
Hypothesis custom : custom_registry r.
Hypothesis meta : meta15_ok m.
Hypothesis free : forall k, In k (map fst custom_keys) -> free_name (SpecMeta.declared (w5_types m)) k.
Hypothesis keys : Forall (one_key_each (w5_types m)) (pallets15 m).
Notation name := (si_name (g_names s)).

Lemma read15 h tl0 : lead h -> blen (h ++ magic ++ [Zb 15] ++ meta15_enc m ++ tl0) < 2 ^ 63 ->
  exists f0 calls events, is_table (shown_call name) (w5_types m) wp_calls (pallets15 m) calls /\ is_table (shown_event name) (w5_types m) wp_events (pallets15 m) events /\
  forall f, (f0 <= f)%nat -> ProcessMetadata f r (h ++ magic ++ [Zb 15] ++ meta15_enc m ++ tl0) =
  Ok (Some (15, shown15 (w5_types m) name m calls events), left_registry (as14 m) s).
Proof.
  intros H L. destruct rt.
  refine (C68_metadata_partial r h m tl0 f1 s rt_reg custom H meta L rt_done rt_paths _ rt_pallets keys rt_indices).
  intros k I. unfold names15 in I. apply in_app_or in I. destruct I as [I|I]; [|now apply free]. apply rt_free. right. right. now right.
Qed.

Theorem C67_call_v15 h tl0 p v i j xs bs : lead h -> blen (h ++ magic ++ [Zb 15] ++ meta15_enc m ++ tl0) < 2 ^ 63 ->
  wat (w5_types m) wp_calls (pallets15 m) i j = Some (p, v) -> Forall Rg (map wf_type (wv_fields v)) ->
  encs (SpecMeta.declared (w5_types m)) (map wf_type (wv_fields v)) xs bs ->
  exists d r', (exists f0, forall f, (f0 <= f)%nat -> ProcessMetadata f r (h ++ magic ++ [Zb 15] ++ meta15_enc m ++ tl0) = Ok (Some (15, d), r')) /\
  forall spec module pre tl, blen (pre ++ (Zb i :: Zb j :: bs) ++ tl) < 2 ^ 63 ->
  exists gs, shows_all (SpecMeta.declared (w5_types m)) (map wf_type (wv_fields v)) xs gs /\
  Decodes (reg_env r') (Ctx spec module (Some (codec_calls (md_calls d)))) (pre ++ (Zb i :: Zb j :: bs) ++ tl) (blen pre) "Call"
    (Ok (VMap [("call_index", VStr (on_chain i j)); ("call_name", VStr (text_of (wv_name v))); ("call_module", VStr (text_of (wp_name p)));
               ("params", VParams (shown_params s (wv_fields v) gs))], blen pre + 2 + blen bs, [hex_encode (Zb i :: Zb j :: bs)])).
Proof.
  intros H L W F HE. destruct (read15 h tl0 H L) as (f0 & calls & events & TC & TE & P).
  eexists _, _. split; [exists f0; exact P|]. cbn [md_calls shown15]. intros spec module pre tl LD.
  exact (call_decodes r (as14 m) Rg D f1 s rt calls p v i j xs bs spec module pre tl TC W F HE LD).
Qed.
Theorem C67_events_v15 h tl0 : lead h -> blen (h ++ magic ++ [Zb 15] ++ meta15_enc m ++ tl0) < 2 ^ 63 ->
  exists d r', (exists f0, forall f, (f0 <= f)%nat -> ProcessMetadata f r (h ++ magic ++ [Zb 15] ++ meta15_enc m ++ tl0) = Ok (Some (15, d), r')) /\
  forall spec module l tl, Forall (wevent_ok (as14 m) Rg) l -> blen (wevents_enc l ++ tl) < 2 ^ 63 ->
  exists f0, forall f, (f0 <= f)%nat -> exists es,
  events_process f (reg_env r') (EvCtx spec 15 (md_events d) (codec_calls (md_calls d))) (wevents_enc l ++ tl) module = Ok es /\ wevents_shown (as14 m) s 0 l es.
Proof.
  intros H L. destruct (read15 h tl0 H L) as (f0 & calls & events & TC & TE & P).
  eexists _, _. split; [exists f0; exact P|]. cbn [md_calls md_events shown15]. intros spec module l tl F LD.
  exact (events_decode r (as14 m) Rg D f1 s rt (EvCtx spec 15 events (codec_calls calls)) eq_refl TE module l tl F LD).
Qed.
End Runtime15.

(** ** A runtime *)
Definition mx15 : wmeta15 := WMeta15 mx_types (map (fun p => (p, [txt "About."])) mx_pallets) (WExtrinsic15 4 0 6 1 2 [WExtension (txt "CheckNonce") 5 0]) 6
  [WApi (txt "Core") [WMethod (txt "version") [] 5 [txt "The version."]; WMethod (txt "run") [(txt "block", 2); (txt "n", 1)] 0 []] []]
  (WOuter 4 7 8) [WCustom (txt "answer") 1 [Zb 42; Zb 0; Zb 0; Zb 0]; WCustom (txt "motto") 2 (txt "festina lente")].
Definition mx15_bytes : bytes := Eval vm_compute in (magic ++ [Zb 15] ++ meta15_enc mx15)%list.
Lemma mx15_ok : meta15_ok mx15.
Proof.
  destruct mx_ok as (KR & KP & KX & KV & KE). unfold meta15_ok, mx15. cbn [w5_types w5_pallets w5_extrinsic w5_type w5_apis w5_outer w5_custom].
  split; [exact KR|]. split; [|split; [|split; [|split; [|split; [|split]]]]].
  - split; [rewrite map_length; exact (proj1 KP)|]. apply Forall_map. eapply Forall_impl; [|exact (proj2 KP)]. intros p Q. split; [exact Q|]. cbn [snd]. sized.
  - unfold extrinsic15_ok. cbn [x5_version x5_address x5_call x5_signature x5_extra x5_extensions]. sized.
  - unfold id_ok. lia.
  - unfold api_ok, method_ok, input_ok. cbn [wi_name wi_methods wi_docs]. sized; cbn [wi_name wi_methods wi_docs]; sized; cbn [wd_name wd_inputs wd_output wd_docs]; sized.
  - unfold outer_ok. cbn [wo_call wo_event wo_error]. sized.
  - cbn [List.length]. lia.
  - unfold custom_ok. repeat constructor; cbn [wk_name wk_type wk_value]; sized.
Qed.
Lemma mx_custom : custom_registry mx_reg.
Proof. intros k o I. cbn [custom_keys In] in I. destruct I as [[= <- <-]|[[= <- <-]|[[= <- <-]|[]]]]; split; reflexivity. Qed.
Example C67_runtime_v15 : runtime mx_reg (as14 mx15) mx_rg mx_dup 20 mx_state.
Proof.
  destruct C67_runtime. constructor; try assumption. destruct mx_ok as (KR & KP & KX & KV & KE). split; [exact KR|]. split; [exact KP|]. split; [unfold id_ok; cbn; lia|]. split; [cbn; lia|exact KE].
Qed.
Example C67_v15_free : forall k, In k (map fst custom_keys) -> free_name (SpecMeta.declared (w5_types mx15)) k.
Proof. intros k _. change (SpecMeta.declared (w5_types mx15)) with mx_port. intros id t p I _ Q. exfalso. cbn in I. repeat (destruct I as [[= <- <-]|I]; [discriminate Q|]). destruct I. Qed.
Example C67_v15_keys : Forall (one_key_each (w5_types mx15)) (pallets15 mx15).
Proof.
  unfold pallets15, mx15, mx_pallets. cbn [w5_types w5_pallets map fst]. constructor; [|constructor; [constructor|constructor]].
  unfold one_key_each, wentries. cbn [wp_storage snd]. constructor; [|constructor; [exact I|constructor; [|constructor]]]; cbn [we_type one_per_hasher].
  - intros t a r [= <-] Q. discriminate Q.
  - intros t a r [= <-] [= <- <-]. reflexivity.
Qed.
(** All together: the metadata is read as described. *)
Example C68_example : exists f0 calls events, is_table (shown_call (si_name (g_names mx_state))) mx_types wp_calls mx_pallets calls /\
  forall f, (f0 <= f)%nat -> ProcessMetadata f mx_reg mx15_bytes = Ok (Some (15, shown15 mx_types (si_name (g_names mx_state)) mx15 calls events), left_registry (as14 mx15) mx_state).
Proof.
  assert (B : mx15_bytes = ([] ++ magic ++ [Zb 15] ++ meta15_enc mx15 ++ [])%list) by (vm_compute; reflexivity).
  destruct (read15 mx_reg mx15 mx_rg mx_dup 20 mx_state C67_runtime_v15 mx_custom mx15_ok C67_v15_free C67_v15_keys [] []) as (f0 & calls & events & TC & TE & P); [constructor|rewrite <- B; vm_compute; reflexivity|].
  exists f0, calls, events. split; [exact TC|]. intros f F. rewrite B. now apply P.
Qed.
Example C68_read : match ProcessMetadata 60 mx_reg mx15_bytes with
  | Ok (Some (v, d), _) => v = 15 /\ map m_name (md_modules d) = ["Coin"; "Idle"] /\
      md_apis d = [MApi "Core" [("version", ([], "compact<U32>")); ("run", ([("block", "[U8; 32]"); ("n", "AccountId")], "U32"))]] /\
      md_outer d = Some (4, 7, 8) /\ md_custom d = [[("answer", (1, "0x2a000000"))]; [("motto", (2, "festina lente"))]]
  | _ => False end.
Proof. vm_compute. repeat split. Qed.

(** ** Names taken by a runtime *)
(** A runtime that uses one type of maps declares a type of path BTreeMap (this
    is how scale-info describes the Rust type); it takes the place of the
    library's own maps, and the custom values are not read as declared. *)
Definition mb_types : wregistry :=
  (mx_types ++ [(11, WType [txt "BTreeMap"] [(txt "K", Some 1); (txt "V", Some 0)] (WComposite [WField None 12 None []]) []); (12, WType [] [] (WSequence 10) [])])%list.
Definition mb : wmeta15 := WMeta15 mb_types [] (WExtrinsic15 4 0 6 1 2 []) 6 [] (WOuter 4 7 8) [WCustom (txt "answer") 1 [Zb 42; Zb 0; Zb 0; Zb 0]].
Definition mb_state : sistate := Eval vm_compute in match ProcessSiType 20 (SiCtx "" true 0 (SpecMeta.declared mb_types) 20) mx_reg with Ok s => s | _ => SiState [] [] mx_reg end.
Lemma mb_ok : meta15_ok mb.
Proof.
  unfold meta15_ok, mb. cbn [w5_types w5_pallets w5_extrinsic w5_type w5_apis w5_outer w5_custom]. split; [|split; [|split; [|split; [|split; [|split; [|split]]]]]].
  - destruct mx_ok as ([_ KR] & _). split; [vm_compute; discriminate|]. unfold mb_types. apply Forall_app. split; [exact KR|]. sized.
  - sized.
  - unfold extrinsic15_ok. cbn [x5_version x5_address x5_call x5_signature x5_extra x5_extensions]. sized.
  - unfold id_ok. lia.
  - sized.
  - unfold outer_ok. cbn [wo_call wo_event wo_error]. sized.
  - cbn [List.length]. lia.
  - unfold custom_ok. repeat constructor; cbn [wk_name wk_type wk_value]; sized.
Qed.
Theorem C68_custom_refuted : meta_registry mx_reg /\ custom_registry mx_reg /\ meta15_ok mb /\
  ProcessSiType 20 (SiCtx "" true 0 (SpecMeta.declared mb_types) 20) mx_reg = Ok mb_state /\ plain_paths (SpecMeta.declared mb_types) /\
  (forall k, In k names15 -> k <> "btreemap" -> free_name (SpecMeta.declared mb_types) k) /\
  exists d r', ProcessMetadata 60 mx_reg (magic ++ [Zb 15] ++ meta15_enc mb) = Ok (Some (15, d), r') /\
  map shown_custom (w5_custom mb) = [[("answer", (1, "0x2a000000"))]] /\ md_custom d = [[("col1", (0, "")); ("col2", (0, ""))]].
Proof.
  split; [exact mx_registry|]. split; [exact mx_custom|]. split; [exact mb_ok|]. split; [vm_compute; reflexivity|]. split; [|split].
  - intros id t p I J. cbn in I. repeat (destruct I as [[= <- <-]|I]; [cbn in J; repeat (destruct J as [<-|J]; [vm_compute; intuition discriminate|]); destruct J|]). destruct I.
  - intros k _ N id t p I _ Q. cbn in I. repeat (destruct I as [[= <- <-]|I]; [try discriminate Q; injection Q as <-; exact (fun e => N (eq_sym e))|]). destruct I.
  - eexists _, _. split; [vm_compute; reflexivity|]. split; reflexivity.
Qed.
(** The same for V14: a type called HexBytes, and the pallets cannot be read. *)
Definition ma : wmeta14 := WMeta14 (mx_types ++ [(11, WType [txt "HexBytes"] [] (WComposite [wfld "x" 3 "u8"; wfld "y" 3 "u8"]) [])])%list mx_pallets (WExtrinsic 6 4 []).
Definition ma_state : sistate := Eval vm_compute in match ProcessSiType 20 (SiCtx "" true 0 (SpecMeta.declared (wm_types ma)) 20) mx_reg with Ok s => s | _ => SiState [] [] mx_reg end.
Theorem C65_free_refuted : meta_registry mx_reg /\ meta14_ok ma /\
  ProcessSiType 20 (SiCtx "" true 0 (SpecMeta.declared (wm_types ma)) 20) mx_reg = Ok ma_state /\ plain_paths (SpecMeta.declared (wm_types ma)) /\
  Forall (pallet_described (wm_types ma) (si_name (g_names ma_state))) (wm_pallets ma) /\ distinct_indices (wm_types ma) (wm_pallets ma) /\
  (forall k, In k meta_names -> k <> "hexbytes" -> free_name (SpecMeta.declared (wm_types ma)) k) /\
  ProcessMetadata 60 mx_reg (magic ++ [Zb 14] ++ meta14_enc ma) = Panic "interface conversion: interface {} is not string".
Proof.
  split; [exact mx_registry|]. split; [|split; [vm_compute; reflexivity|]; split; [|split; [|split; [|split]]]].
  - destruct mx_ok as ([_ KR] & KP & KX & KV & KE). split; [split; [vm_compute; discriminate|]|split; [exact KP|split; [exact KX|split; [exact KV|split; [vm_compute; discriminate|constructor]]]]].
    cbn [ma wm_types]. apply Forall_app. split; [exact KR|]. unfold wfld. sized.
  - intros id t p I J. cbn in I. repeat (destruct I as [[= <- <-]|I]; [cbn in J; repeat (destruct J as [<-|J]; [vm_compute; intuition discriminate|]); destruct J|]). destruct I.
  - cbn [wm_pallets ma mx_pallets]. constructor; [|constructor; [|constructor]]; unfold pallet_described; cbn [wp_calls wp_events wp_errors wp_constants wentries wp_storage].
    + split; [eexists _, _; split; reflexivity|]. split; [eexists _, _; split; reflexivity|]. split; [eexists _, _; split; reflexivity|].
      split; [constructor; [discriminate|constructor]|]. cbn [snd]. constructor; [|constructor; [exact I|constructor; [|constructor]]]; cbn [we_type storage_keyed].
      * right. split; [reflexivity|]. split; [|eexists _, _; split; [vm_compute; reflexivity|discriminate]]. intros t a r [= <-]. discriminate.
      * left. eexists _, _, _. split; [reflexivity|]. split; [reflexivity|]. left. reflexivity.
    + repeat split; constructor.
  - split; [nodup_z|]. intros p I. cbn in I. destruct I as [<-|[<-|[]]]; split; cbn; nodup_z.
  - intros k _ N id t p I _ Q. cbn in I. repeat (destruct I as [[= <- <-]|I]; [try discriminate Q; injection Q as <-; exact (fun e => N (eq_sym e))|]). destruct I.
  - vm_compute. reflexivity.
Qed.

Print Assumptions C67_call_v15.
Print Assumptions C67_events_v15.
Print Assumptions C68_v15_partial.
Print Assumptions C68_metadata_partial.
Print Assumptions C68_custom_refuted.
Print Assumptions C65_free_refuted.
