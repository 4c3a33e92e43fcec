(** A registry and a runtime that meet the hypotheses of C64 to C67. *)

From Verif Require Import GoBase SpecNum ModelTools ModelVal ModelRegistry ModelDecode ModelEncode ModelRegister SpecScale ModelScaleInfo ModelMetadata ModelEvents
  ProofsBase ProofsTools ProofsRun ProofsReads ProofsScale ProofsApi PropForms PropCodec ProofsNames ProofsTexts PropScaleInfo
  SpecPortable ProofsPortText ProofsPortReg ProofsPortDecode PropPortable ProofsFrame
  PropMetadata PropEvents ModelMeta SpecMeta ProofsMeta PropMeta PropMeta14 PropRuntime.

(** ** The registry with the library's own definitions *)
Definition mx_reg : reg := Eval vm_compute in match RegCustomTypes 50 meta_definitions base_reg with Ok r => r | _ => base_reg end.
Lemma mx_loaded : RegCustomTypes 50 meta_definitions base_reg = Ok mx_reg.
Proof. vm_compute. reflexivity. Qed.
Lemma mx_registry : meta_registry mx_reg.
Proof.
  split; [|split; [|split]].
  - intros k cd I. repeat (destruct I as [[= <- <-]|I]; [vm_compute; reflexivity|]). destruct I.
  - intros t I. repeat (destruct I as [<-|I]; [vm_compute; reflexivity|]). destruct I.
  - intros t I. repeat (destruct I as [<-|I]; [vm_compute; reflexivity|]). destruct I.
  - intros k _. reflexivity.
Qed.
Lemma mx_no_decoder : no_decoder mx_reg.
Proof. intros n I. repeat (destruct I as [<-|I]; [split; vm_compute; reflexivity|]). destruct I. Qed.
Lemma mx_base k : reserved k -> assoc k (r_types mx_reg) = assoc k base_registry.
Proof.
  intros R. assert (X : r_types mx_reg = (firstn 33 (r_types mx_reg) ++ base_registry)%list) by (vm_compute; reflexivity).
  rewrite X. assert (N : ~ In k (map fst (firstn 33 (r_types mx_reg)))).
  { intros I. assert (F : Forall (fun k => reservedb k = false) (map fst (firstn 33 (r_types mx_reg)))) by (vm_compute; repeat constructor).
    rewrite Forall_forall in F. now apply (reserved_dec k (F k I)). }
  clear X. revert N. generalize (firstn 33 (r_types mx_reg)) as l. induction l as [|[a b] l IH]; intros N; [reflexivity|].
  cbn [app assoc map fst In] in *. destruct (String.eqb_spec k a); [exfalso; apply N; now left|]. apply IH. tauto.
Qed.

(** ** A runtime *)
Definition txt (s : string) : bytes := s2b s.
Definition wfld (n : string) (t : Z) (ty : string) : wfield := WField (Some (txt n)) t (Some (txt ty)) [].
Definition mx_call : list wvariant :=
  [WVariant (txt "transfer") [wfld "dest" 1 "AccountId"; wfld "value" 5 "Balance"] 0 [txt "Move funds."; txt ""]; WVariant (txt "note") [wfld "data" 6 "Vec<u8>"] 7 []].
Definition mx_event : list wvariant :=
  [WVariant (txt "Transfer") [wfld "from" 1 "AccountId"; wfld "to" 1 "AccountId"; wfld "amount" 0 "u32"] 2 []; WVariant (txt "Kept") [wfld "data" 9 "Data"] 3 []].
Definition mx_types : wregistry :=
  [(0, WType [] [] (WPrimitive 5) []);
   (1, WType [txt "sp_core"; txt "crypto"; txt "AccountId32"] [] (WComposite [WField None 2 (Some (txt "[u8; 32]")) []]) []);
   (2, WType [] [] (WArray 32 3) []);
   (3, WType [] [] (WPrimitive 3) []);
   (4, WType [txt "pallet_coin"; txt "pallet"; txt "Call"] [(txt "T", None)] (WEnum mx_call) [txt "The calls."]);
   (5, WType [] [] (WCompact 0) []);
   (6, WType [] [] (WSequence 3) []);
   (7, WType [txt "pallet_coin"; txt "pallet"; txt "Event"] [(txt "T", None)] (WEnum mx_event) []);
   (8, WType [txt "pallet_coin"; txt "pallet"; txt "Error"] [] (WEnum [WVariant (txt "Poor") [] 0 [txt "Not enough."]]) []);
   (9, WType [txt "pallet_coin"; txt "Data"] [] (WComposite [wfld "free" 0 "u32"; wfld "note" 6 "Vec<u8>"]) []);
   (10, WType [] [] (WTuple [1; 0]) [])].
Definition mx_pallets : list wpallet :=
  [WPallet (txt "Coin") (Some (txt "Coin", [WEntry (txt "Account") true (WMap [2] 1 9) (map Zb [0; 0; 0; 0; 0]) [txt "Who has what."]; WEntry (txt "Total") false (WPlain 0) [] [];
                                            WEntry (txt "Notes") true (WMap [2; 5] 10 6) (map Zb [0]) []]))
     (Some 4) (Some 7) [WConst (txt "Least") 0 (map Zb [1; 0; 0; 0]) [txt "The least."]] (Some 8) 5;
   WPallet (txt "Idle") None None None [] None 9].
Definition mx : wmeta14 := WMeta14 mx_types mx_pallets (WExtrinsic 6 4 [WExtension (txt "CheckNonce") 5 0]).
Definition mx_ctx : sictx := sictx_of mx 20.
Definition mx_state : sistate := Eval vm_compute in match ProcessSiType 20 mx_ctx mx_reg with Ok s => s | _ => SiState [] [] mx_reg end.
Definition mx_port : portable := Eval vm_compute in port_of mx.
Definition mx_ids : list Z := [0; 1; 2; 3; 4; 5; 6; 7; 8; 9; 10].
Definition mx_rg (id : Z) : Prop := In id [0; 1; 2; 3; 5; 6; 9].
Definition mx_dup : list (string * Z) := Eval vm_compute in
  match each_id (count_name mx_ctx) (distinct_ids [] mx_port) 0 (SiState [] [] base_reg) with Ok s => g_dup s | _ => [] end.
Definition mx_named : list (Z * string) :=
  [(1, "sp_core:crypto:AccountId32"); (8, "pallet_coin:pallet:Error"); (9, "pallet_coin:Data")].
Lemma mx_else id : ~ In id mx_ids -> port_get (port_of mx) id = zero_type.
Proof.
  intros N. change (port_of mx) with mx_port. unfold port_get, mx_port. cbn [assocz]. cbn [mx_ids In] in N.
  repeat match goal with |- context [Z.eqb id ?k] => destruct (Z.eqb_spec id k); [exfalso; subst; tauto|] end. reflexivity.
Qed.
Ltac mx_cases id := destruct (in_dec Z.eq_dec id mx_ids) as [PX|PX];
  [cbn in PX; repeat (destruct PX as [PX|PX]; [subst id|]); [..|contradiction]|].
Ltac mx_out id H PX := unfold def_of, prims_path, path_of in H; cbn [i_port mx_ctx sictx_of] in H; rewrite (mx_else id PX) in H; discriminate H.
Lemma mx_names id n : named_as mx_ctx mx_dup id n <-> In (id, n) mx_named.
Proof.
  split.
  - intros [H NE]. mx_cases id; [vm_compute in H; try discriminate H; injection H as <-; try congruence; cbn; tauto ..|]. cbn [i_port mx_ctx sictx_of] in H. rewrite (mx_else id PX) in H. injection H as <-. congruence.
  - intros H. unfold named_as. cbn in H. repeat (destruct H as [[= <- <-]|H]; [split; [vm_compute; reflexivity|discriminate]|]). contradiction.
Qed.
Lemma mx_counted : counted mx_ctx mx_dup.
Proof. eexists. split; vm_compute; reflexivity. Qed.
Lemma mx_standard : standard mx_ctx mx_dup mx_reg.
Proof. split; [intros k K _; exact (mx_base k K)|intros; reflexivity..]. Qed.
Lemma mx_text_ok n : In n (map snd mx_named) -> name_text_ok n.
Proof.
  intros H. cbn in H. repeat (destruct H as [<-|H]; [split; [split; [discriminate|]; split; [|split; reflexivity]; cbn [s2b list_ascii_of_string]; repeat (constructor; [unfold name_char; vm_compute; intuition congruence|]); constructor
    |split; [discriminate|split; [discriminate|cbn; lia]]]|]). contradiction.
Qed.
Lemma mx_well_named : well_named mx_ctx mx_dup mx_rg.
Proof.
  split.
  - intros id n H. apply mx_names in H. split; [apply mx_text_ok; now apply (in_map snd) in H|]. cbn in H.
    repeat (destruct H as [[= <- <-]|H]; [split; [eexists _, _; split; [reflexivity|left; reflexivity]|split; [now apply reserved_dec|reflexivity]]|]). contradiction.
  - intros i j n m H1 H2. apply mx_names in H1. apply mx_names in H2. cbn in H1, H2.
    repeat (destruct H1 as [[= <- <-]|H1]; [repeat (destruct H2 as [[= <- <-]|H2]; [vm_compute; congruence|]); contradiction|]). contradiction.
  - intros id n H. mx_cases id; try (vm_compute in H; congruence); try (vm_compute in H; injection H as <-; vm_compute; intuition congruence). mx_out id H PX.
  - intros id n H P. mx_cases id; try (vm_compute in H; congruence). mx_out id H PX.
  - intros id fs n k r H W. exfalso. mx_cases id; try (vm_compute in W; congruence). mx_out id H PX.
  - intros id fs p k H W. exfalso. mx_cases id; try (vm_compute in W; congruence). mx_out id H PX.
  - intros i j ki kj ts us R D _ _ _ _. exfalso. cbn in R. repeat (destruct R as [<-|R]; [vm_compute in D; discriminate D|]). contradiction.
Qed.
Ltac mx_in := cbn; tauto.
Lemma mx_regular id : mx_rg id -> regular mx_ctx mx_dup mx_rg id.
Proof.
  intros H. unfold mx_rg in H. cbn in H. unfold regular. change (i_port mx_ctx) with mx_port.
  repeat (destruct H as [<-|H]; [split; [reflexivity|]; split; [vm_compute; intuition congruence|]; cbn [def_of port_get assocz mx_port Z.eqb Pos.eqb s_def]|]); [..|contradiction].
  - split; [mx_in|reflexivity].
  - split; [reflexivity|]. split; [reflexivity|]. right. left. eexists _, 3. split; [reflexivity|]. split; [reflexivity|]. split; [reflexivity|].
    split; [exists "U8"; now split|]. split; [reflexivity|]. intros j Hj. replace j with 0 by lia. discriminate.
  - split; [mx_in|]. split; [lia|]. discriminate.
  - split; [mx_in|reflexivity].
  - split; [mx_in|]. split; [|discriminate]. left. exists 0. split; [constructor|]. now exists "U32".
  - split; [mx_in|discriminate].
  - split; [reflexivity|]. split; [reflexivity|]. right. right. split; [discriminate|]. split; [discriminate|].
    split; [exists "pallet_coin:Data"; split; [apply mx_names; cbn; tauto|]; split; [vm_compute; intuition discriminate|]; split; [reflexivity|]; vm_compute; intuition discriminate|].
    split; [repeat constructor; mx_in|]. split; [now apply px_nodup|]. discriminate.
Qed.
Lemma text_short s : (Z.of_nat (List.length s) <? 2 ^ 32) = true -> text_ok s.
Proof. intros Q. unfold text_ok. now apply Z.ltb_lt. Qed.
Ltac sized := repeat match goal with
  | |- _ /\ _ => split
  | |- text_ok _ => apply text_short; vm_compute; reflexivity
  | |- list_ok _ _ => unfold list_ok
  | |- Forall _ [] => constructor
  | |- Forall _ (_ :: _) => constructor
  | |- id_ok _ => unfold id_ok
  | |- field_ok _ => unfold field_ok
  | |- variant_ok _ => unfold variant_ok
  | |- type_ok _ => unfold type_ok
  | |- pallet_ok _ => unfold pallet_ok
  | |- wentry_ok _ => unfold wentry_ok
  | |- const_ok _ => unfold const_ok
  | |- extension_ok _ => unfold extension_ok
  | |- True => exact I
  | |- _ => progress cbn [fst snd wt_path wt_params wt_def wt_docs wf_name wf_type wf_tyname wf_docs wv_name wv_fields wv_index wv_docs wp_name wp_storage wp_calls wp_events wp_constants wp_errors wp_index we_name we_type we_fallback we_docs wc_name wc_type wc_value wc_docs wx_name wx_type wx_additional def_ok opt_ok storage_ok]
  | |- Z.of_nat (List.length _) <= _ => cbn [List.length]; lia
  | |- _ <= _ => lia
  | |- _ < _ => lia
  end.
Lemma mx_ok : meta14_ok mx.
Proof.
  unfold meta14_ok, registry_ok, extrinsic_ok, mx, mx_types, mx_pallets, mx_call, mx_event, wfld. cbn [wm_types wm_pallets wm_extrinsic we_id we_version we_extensions]. sized.
Qed.
Lemma mx_registered : ProcessSiType 20 mx_ctx mx_reg = Ok mx_state.
Proof. vm_compute. reflexivity. Qed.
Lemma mx_described : Forall (pallet_described (wm_types mx) (si_name (g_names mx_state))) (wm_pallets mx).
Proof.
  cbn [wm_pallets mx mx_pallets]. constructor; [|constructor; [|constructor]]; unfold pallet_described; cbn [wp_calls wp_events wp_errors wp_constants wentries wp_storage].
  - split; [eexists _, _; split; reflexivity|]. split; [eexists _, _; split; reflexivity|]. split; [eexists _, _; split; reflexivity|].
    split; [constructor; [discriminate|constructor]|]. cbn [snd]. constructor; [|constructor; [exact I|constructor; [|constructor]]]; cbn [we_type storage_keyed].
    + right. split; [reflexivity|]. split; [|eexists _, _; split; [vm_compute; reflexivity|discriminate]]. intros t a r [= <-]. discriminate.
    + left. eexists _, _, _. split; [reflexivity|]. split; [reflexivity|]. left. reflexivity.
  - repeat split; constructor.
Qed.
Ltac nodup_z := repeat constructor; cbn; intuition congruence.
Lemma mx_distinct : distinct_indices (wm_types mx) (wm_pallets mx).
Proof. split; [nodup_z|]. intros p I. cbn in I. destruct I as [<-|[<-|[]]]; split; cbn; nodup_z. Qed.
Lemma mx_paths : plain_paths (port_of mx).
Proof.
  change (port_of mx) with mx_port. intros id t p I J. cbn in I. repeat (destruct I as [[= <- <-]|I]; [cbn in J; repeat (destruct J as [<-|J]; [vm_compute; intuition discriminate|]); destruct J|]). destruct I.
Qed.
Lemma mx_free k : In k ("call" :: "hash" :: "vec<hash>" :: meta_names) -> free_name (port_of mx) k.
Proof.
  intros _. change (port_of mx) with mx_port. intros id t p I _ Q. exfalso. cbn in I. repeat (destruct I as [[= <- <-]|I]; [discriminate Q|]). destruct I.
Qed.
Example C67_runtime : runtime mx_reg mx mx_rg mx_dup 20 mx_state.
Proof.
  constructor.
  - exact mx_registry.
  - exact mx_ok.
  - exact mx_registered.
  - exact mx_paths.
  - exact mx_free.
  - exact mx_described.
  - exact mx_distinct.
  - split; reflexivity.
  - split; reflexivity.
  - split; reflexivity.
  - exact mx_counted.
  - exact mx_well_named.
  - exact mx_regular.
  - exact mx_standard.
  - split; [|split; [reflexivity|]].
    + intros i n _ _ N. apply mx_names in N. cbn in N. repeat (destruct N as [[= <- <-]|N]; [discriminate|]). destruct N.
    + intros [R _]. revert R. now apply reserved_dec.
Qed.

(** ** Metadata, a call and an event of that runtime *)
Definition who (z : Z) : bytes := repeat (Zb z) 32.
Definition mx_args : list pval := [PSeq [PSeq (repeat (PNum 7) 32)]; PNum 300].
Definition mx_arg_bytes : bytes := (who 7 ++ compact 300)%list.
Lemma mx_account z : 0 <= z < 256 -> enc (port_of mx) 1 (PSeq [PSeq (repeat (PNum z) 32)]) (who z).
Proof.
  intros B. apply (enc_composite (port_of mx) 1 _ _ _ eq_refl). eapply encs_step with (b := who z); [|constructor|now rewrite app_nil_r].
  apply (enc_array (port_of mx) 2 32 3 (repeat (PNum z) 32) (who z) eq_refl); [reflexivity|]. cbn [repeat List.length who].
  assert (U : enc (port_of mx) 3 (PNum z) [Zb z]).
  { apply (enc_unsigned (port_of mx) 3 "u8" 1 z); [now exists "U8"|cbn; tauto|exact B]. }
  repeat (eapply encs_step; [exact U| |reflexivity]). constructor.
Qed.
Lemma mx_args_enc : encs (port_of mx) [1; 5] mx_args mx_arg_bytes.
Proof.
  eapply encs_step; [apply mx_account; lia| |reflexivity]. eapply encs_step; [|constructor|now rewrite app_nil_r].
  apply (enc_compact (port_of mx) 5 0 "u32" 4 300 eq_refl); [|cbn; tauto|lia]. exists 0. split; [constructor|]. now exists "U32".
Qed.
Definition mx_bytes : bytes := (magic ++ [Zb 14] ++ meta14_enc mx)%list.
Definition mx_read : option (Z * mdata) * reg := Eval vm_compute in match ProcessMetadata 40 mx_reg mx_bytes with Ok x => x | _ => (None, mx_reg) end.
Lemma mx_read_ok : ProcessMetadata 40 mx_reg mx_bytes = Ok mx_read.
Proof. vm_compute. reflexivity. Qed.
(** The pallets as read: names, indices, entries of storage, constants, errors. *)
Example C65_example : match fst mx_read with
  | Some (v, d) => v = 14 /\ map (fun m => (m_name m, m_index m, m_errors m)) (md_modules d) = [("Coin", 5, ["Poor"]); ("Idle", 9, [])] /\
      map m_storage (md_modules d) = [[("Account", SMap ["Blake2_128Concat"] ["AccountId"] "pallet_coin:Data"); ("Total", SPlain "U32");
                                       ("Notes", SMap ["Blake2_128Concat"; "Twox64Concat"] ["AccountId"; "U32"] "Vec<U8>")]; []] /\
      map (fun m => ab_storage (m_about m)) (md_modules d) = [[("Default", "0x0000000000", ["Who has what."]); ("Optional", "0x", []); ("Default", "0x00", [])]; []] /\
      map m_constants (md_modules d) = [[MConst "Least" "U32" "01000000"]; []] /\ md_extensions d = [("CheckNonce", "compact<U32>")] /\
      map fst (md_calls d) = ["0507"; "0500"] /\ map fst (md_events d) = ["0503"; "0502"]
  | None => False
  end.
Proof. vm_compute. repeat split. Qed.
(** The hypotheses of C67 hold for a call and for an event. *)
Example C67_call_example : exists d r', (exists f0, forall f, (f0 <= f)%nat -> ProcessMetadata f mx_reg (magic ++ [Zb 14] ++ meta14_enc mx ++ []) = Ok (Some (14, d), r')) /\
  exists gs, shows_all (port_of mx) [1; 5] mx_args gs /\
  Decodes (reg_env r') (Ctx 100 "" (Some (codec_calls (md_calls d)))) ((Zb 5 :: Zb 0 :: mx_arg_bytes) ++ []) 0 "Call"
    (Ok (VMap [("call_index", VStr "0500"); ("call_name", VStr "transfer"); ("call_module", VStr "Coin");
               ("params", VParams (shown_params mx_state [wfld "dest" 1 "AccountId"; wfld "value" 5 "Balance"] gs))], 36, ["0500" ++ hex_encode mx_arg_bytes])).
Proof.
  destruct (C67_call mx_reg mx mx_rg mx_dup 20 mx_state C67_runtime [] [] (nth 0 mx_pallets (WPallet [] None None None [] None 0)) (nth 0 mx_call (WVariant [] [] 0 [])) 5 0 mx_args mx_arg_bytes) as (d & r' & P & C).
  - constructor.
  - vm_compute. reflexivity.
  - reflexivity.
  - repeat constructor; cbn; tauto.
  - exact mx_args_enc.
  - exists d, r'. split; [exact P|]. destruct (C 100 "" [] []) as (gs & SH & DC); [vm_compute; reflexivity|]. exists gs. split; [exact SH|]. exact DC.
Qed.
Definition mx_wevent : wevent := WEvent 0 3 5 2 [PSeq [PSeq (repeat (PNum 7) 32)]; PSeq [PSeq (repeat (PNum 9) 32)]; PNum 300] (who 7 ++ who 9 ++ le_bytes 4 300) [who 1].
Example C67_event_example : wevent_ok mx mx_rg mx_wevent.
Proof.
  unfold wevent_ok, mx_wevent. cbn [wn_phase wn_ext wn_topics wn_pallet wn_variant wn_values wn_bytes].
  split; [lia|]. split; [lia|]. split; [repeat constructor|]. split; [cbn; lia|].
  exists (nth 0 mx_pallets (WPallet [] None None None [] None 0)), (nth 0 mx_event (WVariant [] [] 0 [])).
  split; [reflexivity|]. split; [repeat constructor; cbn; tauto|]. cbn [nth mx_event wv_fields map wf_type wfld].
  eapply encs_step; [apply mx_account; lia| |reflexivity]. eapply encs_step; [apply mx_account; lia| |reflexivity]. eapply encs_step; [|constructor|now rewrite app_nil_r].
  apply (enc_unsigned (port_of mx) 0 "u32" 4 300); [now exists "U32"|cbn; tauto|lia].
Qed.
Example C67_events_read : match fst mx_read with
  | Some (_, d) => match events_process 40 (reg_env (snd mx_read)) (EvCtx 100 14 (md_events d) (codec_calls (md_calls d))) (wevents_enc [mx_wevent]) "" with
      | Ok [e] => er_module e = "Coin" /\ er_event e = "Transfer" /\ map (fun p => (ep_name p, ep_type p, ep_tyname p)) (er_params e) =
          [("from", "AccountId", "AccountId"); ("to", "AccountId", "AccountId"); ("amount", "U32", "u32")] /\ er_extrinsic e = 3 /\ er_topic e = ["0x" ++ hex_encode (who 1)]
      | _ => False end
  | None => False end.
Proof. vm_compute. repeat split. Qed.
Print Assumptions C64_registry.
Print Assumptions C64_from_metadata.
Print Assumptions C65_metadata.
Print Assumptions C66_header.
Print Assumptions C66_sound.
Print Assumptions C66_not_metadata.
Print Assumptions C66_old_versions.
Print Assumptions C67_call.
Print Assumptions C67_events.
