(** Proofs about reading what metadata V15 has beyond V14. *)

From Verif Require Import GoBase SpecNum ModelTools ModelVal ModelRegistry ModelDecode ModelEncode ModelRegister SpecScale ModelScaleInfo ModelMetadata
  ProofsBase ProofsTools ProofsRun ProofsReads ProofsScale ProofsApi PropCodec ProofsNames ProofsTexts ModelMeta SpecMeta ProofsMeta.

Section Read.
Variable E : env.
Variable c : ctx.
Hypothesis ENV : meta_env E (x_spec c).
Hypothesis CUSTOM : forall k o, In (k, o) custom_keys -> find_key E k (x_spec c) = o.
Notation sc0 := (sc0 E c).
Notation ss0 := (ss0 E c).

Ltac key := eapply (key_look E c ENV); [vm_compute; reflexivity|lazy; reflexivity|reflexivity].
Ltac nodup := repeat constructor; cbn [In map fst]; intuition discriminate.

Definition pallet15_rec (p : wpallet * list bytes) : list (string * val) := (pallet_rec (fst p) ++ [("docs", strings_val (texts_of (snd p)))])%list.
Lemma sc0_pallets15 l : list_ok pallet15_ok l -> sc0 "Vec<MetadataV15Module>" (list_enc pallet15_enc l) (records (map pallet15_rec l)).
Proof.
  intros L. apply (sc0_records E c ENV "MetadataV15Module" pallet15_enc pallet15_rec pallet15_ok); [vm_compute; tauto|exact L|].
  intros [p d] [K D]. cbn [fst snd] in *. eapply sc0_meta; [key| |apply ml_module15]. unfold pallet15_enc. cbn [fst snd].
  apply ss0_app; [apply ss0_pallet; assumption|]. apply ss0_one. now apply sc0_texts'.
Qed.
Definition extrinsic15_rec (x : wextrinsic15) : list (string * val) :=
  [("version", VInt (x5_version x)); ("addressType", VInt (x5_address x)); ("callType", VInt (x5_call x)); ("signatureType", VInt (x5_signature x));
   ("extraType", VInt (x5_extra x)); ("signedExtensions", records (map extension_rec (x5_extensions x)))].
Lemma sc0_extrinsic15 x : extrinsic15_ok x -> sc0 "ExtrinsicMetadataV15" (extrinsic15_enc x) (VMap (extrinsic15_rec x)).
Proof.
  intros (A & B & C & D & F & G).
  refine (sc0_struct E c "ExtrinsicMetadataV15" [("version", "u8"); ("addressType", "SiLookupTypeId"); ("callType", "SiLookupTypeId"); ("signatureType", "SiLookupTypeId"); ("extraType", "SiLookupTypeId"); ("signedExtensions", "Vec<SignedExtensionMetadataV14>")] _ [_; _; _; _; _; _] _ _ _);
    [key| |nodup]. cbn [map snd]. unfold extrinsic15_enc.
  apply ss0_cons; [apply (sc0_u8 E c ENV); [now left|exact A]|].
  do 4 (apply ss0_cons; [now apply (sc0_id E c ENV)|]). now apply ss0_one, sc0_extensions.
Qed.
Definition input_rec (p : bytes * Z) : list (string * val) := [("name", VStr (text_of (fst p))); ("typeId", VInt (snd p))].
Definition method_rec (d : wmethod) : list (string * val) :=
  [("name", VStr (text_of (wd_name d))); ("inputs", records (map input_rec (wd_inputs d))); ("outputsId", VInt (wd_output d)); ("docs", strings_val (texts_of (wd_docs d)))].
Definition api_rec (a : wapi) : list (string * val) :=
  [("name", VStr (text_of (wi_name a))); ("methods", records (map method_rec (wi_methods a))); ("docs", strings_val (texts_of (wi_docs a)))].
Lemma sc0_inputs l : list_ok input_ok l -> sc0 "Vec<RuntimeApiMethodParamMetadataV15>" (list_enc input_enc l) (records (map input_rec l)).
Proof.
  intros L. apply (sc0_records E c ENV "RuntimeApiMethodParamMetadataV15" input_enc input_rec input_ok); [vm_compute; tauto|exact L|].
  intros p [A B]. eapply sc0_meta; [key| |apply ml_param]. unfold input_enc. apply ss0_cons; [now apply sc0_text|]. now apply ss0_one, sc0_id.
Qed.
Lemma sc0_methods l : list_ok method_ok l -> sc0 "Vec<RuntimeApiMethodMetadataV15>" (list_enc method_enc l) (records (map method_rec l)).
Proof.
  intros L. apply (sc0_records E c ENV "RuntimeApiMethodMetadataV15" method_enc method_rec method_ok); [vm_compute; tauto|exact L|].
  intros d (A & B & C & D). eapply sc0_meta; [key| |apply ml_method]. unfold method_enc. apply ss0_cons; [now apply sc0_text|]. apply ss0_cons; [now apply sc0_inputs|].
  apply ss0_cons; [now apply sc0_id|]. now apply ss0_one, sc0_texts'.
Qed.
Lemma sc0_apis l : list_ok api_ok l -> sc0 "Vec<RuntimeApiMetadataV15>" (list_enc api_enc l) (records (map api_rec l)).
Proof.
  intros L. apply (sc0_records E c ENV "RuntimeApiMetadataV15" api_enc api_rec api_ok); [vm_compute; tauto|exact L|].
  intros a (A & B & C). eapply sc0_meta; [key| |apply ml_api]. unfold api_enc. apply ss0_cons; [now apply sc0_text|]. apply ss0_cons; [now apply sc0_methods|].
  now apply ss0_one, sc0_texts'.
Qed.
Definition outer_rec (x : wouter) : list (string * val) := [("callType", VInt (wo_call x)); ("eventType", VInt (wo_event x)); ("errorType", VInt (wo_error x))].
Lemma sc0_outer x : outer_ok x -> sc0 "OuterEnumsMetadataV15" (outer_enc x) (VMap (outer_rec x)).
Proof.
  intros (A & B & C). eapply sc0_meta; [key| |apply ml_outer]. unfold outer_enc. apply ss0_cons; [now apply sc0_id|]. apply ss0_cons; [now apply sc0_id|]. now apply ss0_one, sc0_id.
Qed.

(** The custom values: a map whose value type has a space in front. *)
Lemma map_resolves : resolves E c "BTreeMap<Text, CustomValueMetadata15>" (CBTreeMap "Text, CustomValueMetadata15").
Proof.
  exists (CBTreeMap ""), "Text, CustomValueMetadata15". split; [|reflexivity].
  assert (F1 : find_key E "btreemap<text, customvaluemetadata15>" (x_spec c) = None) by (apply CUSTOM; cbn; tauto).
  assert (F2 : find_key E "btreemap" (x_spec c) = Some (CBTreeMap "")) by (apply CUSTOM; cbn; tauto).
  assert (NO : forall k, existsb (String.eqb k) overridden = false -> ~ In k overridden).
  { intros k X I. rewrite <- not_true_iff_false in X. apply X, existsb_exists. exists k. split; [exact I|apply String.eqb_refl]. }
  set (t := "BTreeMap<Text, CustomValueMetadata15>").
  assert (X1 : getCodecInstant E (x_module c) t (x_spec c) = Ok None) by (apply get_missing; [discriminate|discriminate|apply NO; reflexivity|exact F1]).
  assert (X2 : getCodecInstant E (x_module c) "BTreeMap" (x_spec c) = Ok (Some (CBTreeMap ""))) by (apply get_found; [apply NO; reflexivity|exact F2]).
  unfold GetCodecClass. generalize (String.length t) as n. intros n. assert (C : ConvertType t = t) by (vm_compute; reflexivity).
  assert (P : generic_parts t = Some ("BTreeMap", "Text, CustomValueMetadata15")) by (vm_compute; reflexivity). assert (LC : last_char t = Some ">"%char) by (vm_compute; reflexivity).
  destruct n; cbn [GetCodecClass_fuel]; rewrite C, LC; cbn [Ascii.eqb Bool.eqb]; rewrite X1; cbn [bind]; rewrite P, X2; reflexivity.
Qed.
Lemma value_resolves : resolves E c " CustomValueMetadata15" (CStruct (Some [("type", "SiLookupTypeId"); ("value", "Bytes")])).
Proof.
  exists (CStruct (Some [("type", "SiLookupTypeId"); ("value", "Bytes")])), "". split; [|reflexivity].
  assert (X : getCodecInstant E (x_module c) "CustomValueMetadata15" (x_spec c) = Ok (Some (CStruct (Some [("type", "SiLookupTypeId"); ("value", "Bytes")])))).
  { apply get_found; [vm_compute; intuition discriminate|]. apply CUSTOM. cbn; tauto. }
  unfold GetCodecClass. set (t := " CustomValueMetadata15"). generalize (String.length t) as n. intros n.
  assert (C : ConvertType t = "CustomValueMetadata15") by (vm_compute; reflexivity). assert (LC : last_char "CustomValueMetadata15" = Some "5"%char) by reflexivity.
  destruct n; cbn [GetCodecClass_fuel]; rewrite C, LC; cbn [Ascii.eqb Bool.eqb bind]; rewrite X; reflexivity.
Qed.
Definition custom_val (k : wcustom) : val := VMap [("type", VInt (wk_type k)); ("value", VStr (text_of (wk_value k)))].
Definition custom_rec (k : wcustom) : list (string * val) := [(text_of (wk_name k), custom_val k)].
Lemma ss0_customs l : Forall custom_ok l ->
  ss0 (List.concat (repeat ["Text"; " CustomValueMetadata15"] (List.length l))) (flat_map custom_enc l) (flat_map (fun k => [text_val (wk_name k); custom_val k]) l).
Proof.
  induction 1 as [|k l (A & B & C) F IH]; [apply ss0_nil|]. cbn [List.length repeat List.concat flat_map app]. unfold custom_enc at 1. rewrite <- !app_assoc.
  apply ss0_cons; [now apply sc0_text|]. rewrite (app_assoc (id_enc _)). apply ss0_cons; [|exact IH].
  refine (sc0_struct E c " CustomValueMetadata15" [("type", "SiLookupTypeId"); ("value", "Bytes")] _ [_; _] value_resolves _ _); [|nodup].
  cbn [map snd]. apply ss0_cons; [now apply sc0_id|]. apply ss0_one. eapply sc0_at; [key|]. apply sc_bytes; [exact C|discriminate].
Qed.
Lemma customs_entries l : entries E (flat_map (fun k => [text_val (wk_name k); custom_val k]) l) (map VMap (map custom_rec l)).
Proof. induction l as [|k l IH]; [constructor|]. cbn [flat_map app map]. exact (en_cons E (text_val (wk_name k)) (custom_val k) _ _ IH). Qed.
Lemma sc0_custom l : Z.of_nat (List.length l) <= 1000 -> Forall custom_ok l -> sc0 "CustomMetadataV15" (list_enc custom_enc l) (VMap [("map", records (map custom_rec l))]).
Proof.
  intros L F. eapply sc0_meta; [key| |apply ml_custom]. apply ss0_one. eapply sc0_at; [exact map_resolves|]. unfold list_enc, len_of, records.
  eapply sc_map; [reflexivity|reflexivity|exact L|exact (ss0_customs l F)|apply customs_entries].
Qed.
End Read.

(** ** The values read as JSON *)
Lemma raw_modules15_ok l : jall raw_module (map VMap (map pallet15_rec l)) = Ok (map raw_of (map fst l)).
Proof.
  rewrite !map_map. apply (jall_map raw_module (fun p => VMap (pallet15_rec p)) (fun p => raw_of (fst p))). apply Forall_forall. intros p _. apply raw_module_ok.
Qed.
(** Interfaces and custom values, shown. *)
Definition shown_method (names : Z -> string) (d : wmethod) : string * (list (string * string) * string) :=
  (text_of (wd_name d), (map (fun p => (text_of (fst p), names (snd p))) (wd_inputs d), names (wd_output d))).
Definition shown_api (names : Z -> string) (a : wapi) : mapi := MApi (text_of (wi_name a)) (map (shown_method names) (wi_methods a)).
Definition shown_outer (x : wouter) : Z * Z * Z := (wo_call x, wo_event x, wo_error x).
Definition shown_custom (k : wcustom) : list (string * (Z * string)) := [(text_of (wk_name k), (wk_type k, text_of (wk_value k)))].
Lemma raw_apis_ok names l : jall (raw_api names) (map VMap (map api_rec l)) = Ok (map (shown_api (si_name names)) l).
Proof.
  rewrite map_map. apply (jall_map (raw_api names) (fun a => VMap (api_rec a)) (shown_api (si_name names))). apply Forall_forall. intros a _.
  unfold raw_api, api_rec. cbn -[records zlist_of text_of]. rewrite <- slice_records.
  rewrite (zlist_of_map (raw_method names) (fun d => VMap (method_rec d)) (shown_method (si_name names))); [reflexivity|]. intros d.
  unfold raw_method, method_rec. cbn -[records zlist_of text_of]. rewrite <- slice_records.
  rewrite (zlist_of_map (raw_input names) (fun p => VMap (input_rec p)) (fun p => (text_of (fst p), si_name names (snd p)))); reflexivity.
Qed.
Lemma raw_outer_ok x : raw_outer (VMap (outer_rec x)) = Ok (shown_outer x).
Proof. reflexivity. Qed.
Lemma raw_customs_ok l : raw_customs (VMap [("map", records (map custom_rec l))]) = Ok (map shown_custom l).
Proof.
  unfold raw_customs. cbn -[records zlist_of]. rewrite <- slice_records. now apply (zlist_of_map _ (fun k => VMap (custom_rec k)) shown_custom).
Qed.
