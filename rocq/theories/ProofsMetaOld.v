(** Proofs about reading metadata V9 to V13 from its bytes. *)

From Verif Require Import GoBase SpecNum ModelTools ProofsBase ProofsTools ModelVal ModelJson ModelRegistry ModelDecode ModelEncode ModelRegister ProofsRun SpecScale
  ProofsReads ProofsScale ProofsApi PropCodec ProofsNames ProofsTexts ModelScaleInfo ModelMetadata ModelMeta SpecMeta SpecMetaOld ProofsMeta.

Lemma ohasher_name v h : 10 <= v -> ohasher_ok v h -> ohasher v h = hasher_name h /\ 0 <= h < 7.
Proof.
  unfold ohasher_ok, ohasher, hashers_of, hasher_name. intros V. replace (v <=? 9) with false by lia. destruct (v =? 10); cbn [List.length]; intros H.
  - split; [|lia]. assert (D : h = 0 \/ h = 1 \/ h = 2 \/ h = 3 \/ h = 4 \/ h = 5) by lia. clear - D. decompose [or] D; subst h; reflexivity.
  - split; [reflexivity|lia].
Qed.
(** The hashers the library knows, whatever the version. *)
Definition known_store (v : Z) (s : ostore) : Prop :=
  match s with
  | OPlain t => text_ok t
  | OMap h k x _ => 0 <= h < 7 /\ text_ok k /\ text_ok x
  | ODouble h k1 k2 x h2 => 0 <= h < 7 /\ text_ok k1 /\ text_ok k2 /\ text_ok x /\ 0 <= h2 < 7
  | ONMap ks hs x => v = 13 /\ list_ok text_ok ks /\ list_ok (fun h => 0 <= h < 7) hs /\ text_ok x
  end.
Lemma known_ok v s : ostore_ok v s -> known_store v s.
Proof.
  assert (H : forall h, ohasher_ok v h -> 0 <= h < 7).
  { intros h. unfold ohasher_ok, hashers_of. destruct (v <=? 9); [|destruct (v =? 10)]; cbn [List.length]; lia. }
  destruct s as [t|h k x l|h k1 k2 x h2|ks hs x]; cbn; [tauto| | |].
  - intros (A & B). split; [now apply H|exact B].
  - intros (A & B & C & D & F). repeat (split; [first [assumption|now apply H]|]). now apply H.
  - intros (A & B & [C1 C2] & D). split; [exact A|]. split; [exact B|]. split; [|exact D]. split; [exact C1|]. eapply Forall_impl; [|exact C2]. exact H.
Qed.
Definition known_entry (v : Z) (e : oentry) : Prop :=
  text_ok (on_name e) /\ known_store v (on_type e) /\ text_ok (on_fallback e) /\ list_ok text_ok (on_docs e).
Definition known_module (v : Z) (m : wmodule) : Prop :=
  text_ok (om_name m) /\ opt_ok (fun s => text_ok (fst s) /\ list_ok (known_entry v) (snd s)) (om_storage m) /\
  opt_ok (list_ok ocall_ok) (om_calls m) /\ opt_ok (list_ok oevent_ok) (om_events m) /\
  list_ok oconst_ok (om_constants m) /\ list_ok oerror_ok (om_errors m) /\ 0 <= om_index m < 256.
Lemma known_module_ok v m : module_ok v m -> known_module v m.
Proof.
  intros (A & B & C). split; [exact A|]. split; [|exact C]. destruct (om_storage m) as [[n l]|]; [|exact I]. destruct B as [B1 [B2 B3]]. split; [exact B1|]. split; [exact B2|].
  eapply Forall_impl; [|exact B3]. intros e (E1 & E2 & E3). split; [exact E1|]. split; [now apply known_ok|exact E3].
Qed.

Section Read.
Variable E : env.
Variable c : ctx.
Hypothesis ENV : meta_env E (x_spec c).
Ltac key := eapply (key_look E c ENV); [vm_compute; reflexivity|lazy; reflexivity|reflexivity].

Definition oarg_rec (a : bytes * bytes) : list (string * val) := arg_rec (text_of (fst a), type_text (snd a)).
Definition ocall_rec (x : ocall) : list (string * val) :=
  [("name", VStr (text_of (oc_name x))); ("args", records (map oarg_rec (oc_args x))); ("docs", strings_val (texts_of (oc_docs x)))].
Lemma sc0_ocall x : ocall_ok x -> sc0 E c "MetadataModuleCall" (ocall_enc x) (VMap (ocall_rec x)).
Proof.
  intros (A & B & D).
  assert (L : meta_layout "MetadataModuleCall" ["String"; "Vec<MetadataModuleCallArgument>"; "Vec<String>"]
    [VStr (text_of (oc_name x)); records (map oarg_rec (oc_args x)); texts (texts_of (oc_docs x))] (ocall_rec x)).
  { unfold ocall_rec. replace (map oarg_rec (oc_args x)) with (map arg_rec (map (fun a => (text_of (fst a), type_text (snd a))) (oc_args x))) by now rewrite map_map. apply ml_call. }
  assert (R : resolves E c "MetadataModuleCall" (COpaque "MetadataModuleCall")) by key.
  refine (sc0_meta E c _ _ _ _ _ _ R _ L). unfold ocall_enc. apply ss0_cons; [now apply sc0_str|]. apply ss0_cons; [|now apply ss0_one, sc0_strs'].
  apply (sc0_records E c ENV "MetadataModuleCallArgument" oarg_enc oarg_rec oarg_ok); [vm_compute; tauto|exact B|]. intros a [X Y].
  assert (R2 : resolves E c "MetadataModuleCallArgument" (COpaque "MetadataModuleCallArgument")) by key.
  refine (sc0_meta E c _ _ _ _ _ _ R2 _ (ml_argument (text_of (fst a)) (text_of (snd a)))). apply ss0_cons; [now apply sc0_str|]. now apply ss0_one, sc0_str.
Qed.
Definition oevent_rec (x : oevent) : list (string * val) :=
  [("name", VStr (text_of (oe_name x))); ("args", strings_val (texts_of (oe_args x))); ("docs", strings_val (texts_of (oe_docs x)))].
Lemma sc0_oevent x : oevent_ok x -> sc0 E c "MetadataModuleEvent" (oevent_enc x) (VMap (oevent_rec x)).
Proof.
  intros (A & B & D). eapply sc0_meta; [key| |apply ml_event]. apply ss0_cons; [now apply sc0_str|]. apply ss0_cons; [now apply sc0_strs'|]. now apply ss0_one, sc0_strs'.
Qed.
Definition oconst_rec (k : oconst) : list (string * val) :=
  [("name", VStr (text_of (ok_name k))); ("type", VStr (type_text (ok_type k))); ("constants_value", VStr ("0x" ++ hex_encode (ok_value k)));
   ("docs", strings_val (texts_of (ok_docs k)))].
Lemma sc0_oconst k : oconst_ok k -> sc0 E c "MetadataV7ModuleConstants" (oconst_enc k) (VMap (oconst_rec k)).
Proof.
  intros (A & B & D & F). eapply sc0_meta; [key| |apply ml_constant]. apply ss0_cons; [now apply sc0_str|]. apply ss0_cons; [now apply sc0_str|].
  apply ss0_cons; [now apply sc0_hexbytes|]. now apply ss0_one, sc0_strs'.
Qed.
Definition oerror_rec (x : oerror) : list (string * val) := [("name", VStr (text_of (ox_name x))); ("doc", strings_val (texts_of (ox_docs x)))].
Lemma sc0_oerror x : oerror_ok x -> sc0 E c "MetadataModuleError" (oerror_enc x) (VMap (oerror_rec x)).
Proof. intros (A & B). eapply sc0_meta; [key| |apply ml_error]. apply ss0_cons; [now apply sc0_str|]. now apply ss0_one, sc0_strs'. Qed.

Definition ostore_rec (s : ostore) : list (string * val) :=
  match s with
  | OPlain t => [("origin", VStr "PlainType"); ("plain_type", VStr (type_text t))]
  | OMap h k x l => [("origin", VStr "MapType");
      ("map_type", VMap [("hasher", VStr (hasher_name h)); ("key", VStr (type_text k)); ("value", VStr (type_text x)); ("isLinked", VBool l)])]
  | ODouble h k1 k2 x h2 => [("origin", VStr "DoubleMapType");
      ("double_map_type", VMap [("hasher", VStr (hasher_name h)); ("key", VStr (type_text k1)); ("key2", VStr (type_text k2)); ("value", VStr (type_text x));
                                ("key2Hasher", VStr (hasher_name h2))])]
  | ONMap ks hs x => [("origin", VStr "NMapType");
      ("n_map_type", VMap [("hashers", strings_val (map ConvertType (map hasher_name hs))); ("key_vec", strings_val (map ConvertType (texts_of ks))); ("value", VStr (type_text x))])]
  end.
Lemma sc0_hasher h : 0 <= h < 7 -> sc0 E c "StorageHasher" (hasher_enc h) (VStr (hasher_name h)).
Proof. intros H. destruct (nth_listed hashers h) as [N Q]; [exact H|reflexivity|]. eapply sc0_value; [key|lia|exact N|exact Q]. Qed.
Lemma sc0_kind i s : 0 <= i < 4 -> nth_error ["PlainType"; "MapType"; "DoubleMapType"; "NMap"] (Z.to_nat i) = Some s -> s <> "" -> sc0 E c "StorageFunctionType" [Zb i] (VStr s).
Proof. intros I N Q. eapply sc0_value; [key|lia|exact N|exact Q]. Qed.
Lemma sc0_ostore v s : known_store v s -> exists kind ts gs kb sb, ostore_enc s = (kb ++ sb)%list /\ store_layout (v =? 13) kind ts gs (ostore_rec s) /\
  sc0 E c "StorageFunctionType" kb (VStr kind) /\ ss0 E c ts sb gs.
Proof.
  destruct s as [t|h k x l|h k1 k2 x h2|ks hs x]; cbn [known_store ostore_rec ostore_enc]; intros K.
  - exists "PlainType", ["String"], [VStr (text_of t)], [Zb 0], (text_enc t). split; [reflexivity|]. split; [apply sl_plain|]. split; [now apply sc0_kind|now apply ss0_one, sc0_str].
  - destruct K as (A & B & D). exists "MapType", ["StorageHasher"; "String"; "String"; "bool"], [VStr (hasher_name h); VStr (text_of k); VStr (text_of x); VBool l], [Zb 1],
      (hasher_enc h ++ text_enc k ++ text_enc x ++ bool_enc l)%list. split; [reflexivity|]. split; [apply sl_map|]. split; [apply sc0_kind; [lia|reflexivity|discriminate]|].
    apply ss0_cons; [now apply sc0_hasher|]. apply ss0_cons; [now apply sc0_str|]. apply ss0_cons; [now apply sc0_str|]. apply ss0_one. now apply sc0_bool.
  - destruct K as (A & B & D & F & G). exists "DoubleMapType", ["StorageHasher"; "String"; "String"; "String"; "StorageHasher"],
      [VStr (hasher_name h); VStr (text_of k1); VStr (text_of k2); VStr (text_of x); VStr (hasher_name h2)], [Zb 2],
      (hasher_enc h ++ text_enc k1 ++ text_enc k2 ++ text_enc x ++ hasher_enc h2)%list. split; [reflexivity|]. split; [apply sl_double|]. split; [apply sc0_kind; [lia|reflexivity|discriminate]|].
    apply ss0_cons; [now apply sc0_hasher|]. apply ss0_cons; [now apply sc0_str|]. apply ss0_cons; [now apply sc0_str|]. apply ss0_cons; [now apply sc0_str|]. now apply ss0_one, sc0_hasher.
  - destruct K as (-> & A & B & D). exists "NMap", ["Vec<String>"; "Vec<StorageHasher>"; "String"], [texts (texts_of ks); texts (map hasher_name hs); VStr (text_of x)], [Zb 3],
      (list_enc text_enc ks ++ list_enc hasher_enc hs ++ text_enc x)%list. split; [reflexivity|]. split; [now apply sl_nmap|]. split; [apply sc0_kind; [lia|reflexivity|discriminate]|].
    apply ss0_cons; [now apply sc0_strs'|]. apply ss0_cons; [now apply sc0_hashers|]. now apply ss0_one, sc0_str.
Qed.
Definition oentry_rec (e : oentry) : list (string * val) :=
  [("name", VStr (text_of (on_name e))); ("modifier", VStr (if on_default e then "Default" else "Optional")); ("type", VMap (ostore_rec (on_type e)));
   ("fallback", VStr ("0x" ++ hex_encode (on_fallback e))); ("docs", strings_val (texts_of (on_docs e)))].
Definition store_name (v : Z) : string := if v =? 13 then "MetadataV13ModuleStorage" else "MetadataV7ModuleStorage".
Lemma sc0_oentry v e : known_entry v e -> sc0 E c (store_name v ++ "Entry") (oentry_enc e) (VMap (oentry_rec e)).
Proof.
  intros (A & B & D & F).
  assert (R : resolves E c (store_name v ++ "Entry") (COpaque (store_name v ++ "Entry"))) by (unfold store_name; destruct (v =? 13); key).
  destruct (sc0_ostore v (on_type e) B) as (kind & ts & gs & kb & sb & X & LY & SK & SS).
  assert (I : In (store_name v ++ "Entry", v =? 13) [("MetadataV7ModuleStorageEntry", false); ("MetadataV13ModuleStorageEntry", true)]) by (unfold store_name; destruct (v =? 13); vm_compute; tauto).
  pose proof (ml_entry (store_name v ++ "Entry") (v =? 13) (text_of (on_name e)) (if on_default e then "Default" else "Optional") kind ts gs _ ("0x" ++ hex_encode (on_fallback e)) (texts_of (on_docs e)) I LY) as M.
  refine (sc0_meta E c _ _ _ _ _ _ R _ M). unfold oentry_enc. rewrite X, <- app_assoc. cbn [app].
  apply ss0_cons; [now apply sc0_str|]. apply ss0_cons; [now apply sc0_modify|]. apply ss0_cons; [exact SK|]. apply ss0_app; [exact SS|].
  apply ss0_cons; [now apply sc0_hexbytes|]. now apply ss0_one, sc0_strs'.
Qed.

Definition ostore_of (s : bytes * list oentry) : string * list (list (string * val)) := (text_of (fst s), map oentry_rec (snd s)).
Definition module_name (v : Z) : string := if v =? 13 then "MetadataV13Module" else if v =? 12 then "MetadataV12Module" else "MetadataV8Module".
Definition omodule_rec (v : Z) (m : wmodule) : list (string * val) :=
  (module_rec (if has_index v then VNilSlice else VSlice []) (text_of (om_name m)) (option_map ostore_of (om_storage m)) (option_map (map ocall_rec) (om_calls m))
    (option_map (map oevent_rec) (om_events m)) (map oconst_rec (om_constants m)) (map oerror_rec (om_errors m)) ++
   if has_index v then [("index", VInt (om_index m))] else [])%list.
Definition old_version (v : Z) : Prop := 9 <= v <= 13.
Lemma version_cases v : old_version v -> (has_index v = false /\ (v =? 13) = false /\ (v =? 12) = false) \/ (has_index v = true /\ (v =? 13) = false /\ (v =? 12) = true)
  \/ (has_index v = true /\ (v =? 13) = true).
Proof. unfold old_version, has_index. intros V. destruct (Z.eq_dec v 13) as [->|]; [now right; right|]. destruct (Z.eq_dec v 12) as [->|]; [right; left; repeat split|]. left. split; [|split]; lia. Qed.
Lemma ss0_module v m : known_module v m -> ss0 E c
  (module_types (store_name v) (option_map ostore_of (om_storage m)) (option_map (map ocall_rec) (om_calls m)) (option_map (map oevent_rec) (om_events m)) ++ if has_index v then ["U8"] else [])%list (module_enc v m)
  (module_vals (text_of (om_name m)) (option_map ostore_of (om_storage m)) (option_map (map ocall_rec) (om_calls m))
    (option_map (map oevent_rec) (om_events m)) (map oconst_rec (om_constants m)) (map oerror_rec (om_errors m)) ++ if has_index v then [VInt (om_index m)] else [])%list.
Proof.
  intros (A & B & D & F & G & H & J). unfold module_types, module_vals, module_enc. cbn [app]. rewrite <- !app_assoc.
  apply ss0_cons; [now apply sc0_str|]. apply ss0_app.
  { apply (ss0_opt E c ENV (store_name v) (fun s => text_enc (fst s) ++ list_enc oentry_enc (snd s))%list store_rec ostore_of _ _ B).
    intros s [S1 S2]. unfold store_rec, ostore_of; cbn [fst snd].
    assert (R : resolves E c (store_name v) (COpaque (store_name v))) by (unfold store_name; destruct (v =? 13); key).
    refine (sc0_meta E c _ _ _ _ _ _ R _ (ml_storage (store_name v) (text_of (fst s)) (map oentry_rec (snd s)) _)); [|unfold store_name; destruct (v =? 13); vm_compute; tauto].
    apply ss0_cons; [now apply sc0_str|]. apply ss0_one.
    replace ("Vec<" ++ store_name v ++ "Entry>") with ("Vec<" ++ (store_name v ++ "Entry") ++ ">") by (unfold store_name; destruct (v =? 13); reflexivity).
    apply (sc0_records E c ENV (store_name v ++ "Entry") oentry_enc oentry_rec (known_entry v)); [unfold store_name; destruct (v =? 13); vm_compute; tauto|exact S2|apply sc0_oentry]. }
  apply ss0_app.
  { apply (ss0_opt E c ENV "Vec<MetadataModuleCall>" (list_enc ocall_enc) records (map ocall_rec) _ _ D). intros l L.
    apply (sc0_records E c ENV "MetadataModuleCall" ocall_enc ocall_rec ocall_ok); [vm_compute; tauto|exact L|apply sc0_ocall]. }
  apply ss0_app.
  { apply (ss0_opt E c ENV "Vec<MetadataModuleEvent>" (list_enc oevent_enc) records (map oevent_rec) _ _ F). intros l L.
    apply (sc0_records E c ENV "MetadataModuleEvent" oevent_enc oevent_rec oevent_ok); [vm_compute; tauto|exact L|apply sc0_oevent]. }
  cbn [app]. apply ss0_cons.
  { apply (sc0_records E c ENV "MetadataV7ModuleConstants" oconst_enc oconst_rec oconst_ok); [vm_compute; tauto|exact G|apply sc0_oconst]. }
  apply ss0_cons.
  { apply (sc0_records E c ENV "MetadataModuleError" oerror_enc oerror_rec oerror_ok); [vm_compute; tauto|exact H|apply sc0_oerror]. }
  destruct (has_index v); [|apply ss0_nil]. apply ss0_one. apply sc0_u8; [exact ENV|now right|exact J].
Qed.
Lemma sc0_module v m : old_version v -> known_module v m -> sc0 E c (module_name v) (module_enc v m) (VMap (omodule_rec v m)).
Proof.
  intros V K. pose proof (ss0_module v m K) as S. unfold module_name, omodule_rec in *. destruct (version_cases v V) as [(A & B & D)|[(A & B & D)|(A & B)]].
  - rewrite A in *. unfold store_name in *. rewrite B, D in *. rewrite !app_nil_r in *.
    assert (R : resolves E c "MetadataV8Module" (COpaque "MetadataV8Module")) by key.
    refine (sc0_meta E c _ _ _ _ _ _ R S _). apply (ml_module8 (text_of (om_name m)) (option_map ostore_of (om_storage m))).
  - rewrite A in *. unfold store_name in *. rewrite B, D in *.
    assert (R : resolves E c "MetadataV12Module" (COpaque "MetadataV12Module")) by key.
    refine (sc0_meta E c _ _ _ _ _ _ R S _). apply ml_module. vm_compute; tauto.
  - rewrite A in *. unfold store_name in *. rewrite B in *.
    assert (R : resolves E c "MetadataV13Module" (COpaque "MetadataV13Module")) by key.
    refine (sc0_meta E c _ _ _ _ _ _ R S _). apply ml_module. vm_compute; tauto.
Qed.
Lemma sc0_modules v l : old_version v -> list_ok (known_module v) l -> sc0 E c ("Vec<" ++ module_name v ++ ">") (list_enc (module_enc v) l) (records (map (omodule_rec v) l)).
Proof.
  intros V L. apply (sc0_records E c ENV (module_name v) (module_enc v) (omodule_rec v) (known_module v)); [|exact L|intros m; now apply sc0_module].
  unfold module_name. destruct (v =? 13); [|destruct (v =? 12)]; vm_compute; tauto.
Qed.
Lemma sc0_ext m : 0 <= wl_version m < 256 -> list_ok text_ok (wl_extensions m) ->
  sc0 E c "ExtrinsicMetadata" (ext_enc m) (VMap [("version", VInt (wl_version m)); ("signedExtensions", texts (texts_of (wl_extensions m)))]).
Proof.
  intros A B. refine (sc0_struct E c "ExtrinsicMetadata" [("version", "u8"); ("signedExtensions", "Vec<Bytes>")] _ [_; _] _ _ _); [key| |repeat constructor; cbn [In map fst]; intuition discriminate].
  cbn [map snd]. apply ss0_cons; [apply sc0_u8; [exact ENV|now left|exact A]|]. apply ss0_one. unfold texts_of. rewrite <- slice_texts.
  apply (sc0_vec E c ENV "Bytes" text_enc (fun b => VStr (text_of b)) text_ok); [vm_compute; tauto|exact B|]. intros b T. eapply sc0_at; [key|]. apply sc_bytes; [exact T|discriminate].
Qed.
End Read.

(** ** The values read as JSON *)
Lemma arg_ok a : arg_of (VMap (oarg_rec a)) = Ok (MArg (text_of (fst a)) (type_text (snd a)) "").
Proof. reflexivity. Qed.
Lemma old_call_ok x : old_call (VMap (ocall_rec x)) = Ok (shown_ocall x).
Proof.
  unfold old_call, ocall_rec. cbn -[text_of records strings_val oarg_rec]. rewrite <- slice_records.
  rewrite (zlist_of_map arg_of (fun a => VMap (oarg_rec a)) (fun a => MArg (text_of (fst a)) (type_text (snd a)) "")) by apply arg_ok. reflexivity.
Qed.
Lemma old_event_ok x : old_event (VMap (oevent_rec x)) = Ok (shown_oevent x).
Proof. unfold old_event, oevent_rec. cbn -[text_of strings_val zlist_of]. rewrite jlist_of_strs. reflexivity. Qed.
Lemma old_const_ok k : old_const (VMap (oconst_rec k)) = Ok (shown_oconst k).
Proof. reflexivity. Qed.
Lemma old_error_ok x : name_of (VMap (oerror_rec x)) = Ok (text_of (ox_name x)).
Proof. reflexivity. Qed.
Lemma hasher_converts h : 0 <= h < 7 -> ConvertType (hasher_name h) = hasher_name h.
Proof. intros H. assert (D : h = 0 \/ h = 1 \/ h = 2 \/ h = 3 \/ h = 4 \/ h = 5 \/ h = 6) by lia. clear - D. decompose [or] D; subst h; vm_compute; reflexivity. Qed.
(** The storage as the library shows it: its own list of hashers. *)
Definition read_ostore (s : ostore) : storage :=
  match s with
  | OPlain t => SPlain (type_text t)
  | OMap h k x _ => SMap [hasher_name h] [type_text k] (type_text x)
  | ODouble h k1 k2 x h2 => SMap [hasher_name h; hasher_name h2] [type_text k1; type_text k2] (type_text x)
  | ONMap ks hs x => SMap (map hasher_name hs) (map type_text ks) (type_text x)
  end.
Lemma old_storage_ok v e : known_entry v e -> old_storage (VMap (oentry_rec e)) = Ok (text_of (on_name e), read_ostore (on_type e)).
Proof.
  intros (_ & K & _). unfold old_storage, oentry_rec. destruct (on_type e) as [t|h k x l|h k1 k2 x h2|ks hs x]; cbn [known_store] in K.
  - reflexivity.
  - reflexivity.
  - reflexivity.
  - cbn -[text_of strings_val zlist_of hasher_name map texts_of]. rewrite !jlist_of_strs. cbn [bind]. destruct K as (_ & _ & [_ H] & _). unfold texts_of. rewrite !map_map. f_equal. f_equal. f_equal.
    clear - H. induction H as [|h hs K H IH]; [reflexivity|]. cbn [map]. now rewrite IH, hasher_converts.
Qed.
Definition read_omodule (v : Z) (m : wmodule) : mmodule :=
  MModule (text_of (om_name m)) (match om_storage m with Some s => text_of (fst s) | None => "" end) (if has_index v then om_index m else 0)
    (map shown_ocall (listed (om_calls m))) (map shown_oevent (listed (om_events m)))
    (match om_storage m with Some s => map (fun e => (text_of (on_name e), read_ostore (on_type e))) (snd s) | None => [] end)
    (map shown_oconst (om_constants m)) (map (fun x => text_of (ox_name x)) (om_errors m)) (about_module m).
Definition read_items {A B} (v : Z) (f : A -> B) (o : option (list A)) : option (list B) :=
  match o with Some [] => if has_index v then None else Some [] | Some l => Some (map f l) | None => None end.
Lemma items_ok {A B} v (f : val -> res B) (g : A -> list (string * val)) (h : A -> B) o : (forall x, f (VMap (g x)) = Ok (h x)) ->
  jopt (zlist_of f) (items_val (if has_index v then VNilSlice else VSlice []) (option_map (map g) o)) = Ok (read_items v h o).
Proof.
  intros H. destruct o as [[|a l]|]; [unfold read_items; destruct (has_index v); reflexivity| |reflexivity]. cbn [option_map]. unfold items_val. cbn [map].
  change (records (g a :: map g l)) with (records (map g (a :: l))). rewrite <- slice_records. unfold read_items.
  transitivity (x <- zlist_of f (slice_of (map (fun x => VMap (g x)) (a :: l))) ;; Ok (Some x)); [reflexivity|]. now rewrite (zlist_of_map f (fun x => VMap (g x)) h).
Qed.
Lemma items_listed {A B} v (f : A -> B) o : opt_list (read_items v f o) = map f (listed o).
Proof. destruct o as [[|a l]|]; [|reflexivity|reflexivity]. unfold read_items. now destruct (has_index v). Qed.
Definition read_pair (v : Z) (m : wmodule) : mmodule * omodule :=
  (read_omodule v m, OModule (text_of (om_name m)) (read_items v shown_ocall (om_calls m)) (read_items v shown_oevent (om_events m))).
Lemma zint_index v m : zint (field_of "index" (omodule_rec v m)) = Ok (if has_index v then om_index m else 0).
Proof. unfold omodule_rec, module_rec. destruct (has_index v); reflexivity. Qed.
Lemma oentry_about_ok e : entry_about (VMap (oentry_rec e)) = Ok (modifier_name (on_default e), "0x" ++ hex_encode (on_fallback e), map text_of (on_docs e)).
Proof. unfold entry_about, oentry_rec. cbn -[text_of strings_val zlist_of texts_of append hex_encode ostore_rec]. rewrite jlist_of_strs. reflexivity. Qed.
Lemma oconst_docs_ok k : docs_of (VMap (oconst_rec k)) = Ok (map text_of (ok_docs k)).
Proof. unfold docs_of, oconst_rec. cbn -[text_of strings_val zlist_of texts_of]. now rewrite jlist_of_strs. Qed.
Lemma oabout_ok v m : about_of (omodule_rec v m) = Ok (about_module m).
Proof.
  unfold about_of. change (field_of "storage" (omodule_rec v m)) with (store_items (option_map ostore_of (om_storage m))).
  change (field_of "constants" (omodule_rec v m)) with (records (map oconst_rec (om_constants m))).
  replace (zlist_of entry_about (store_items (option_map ostore_of (om_storage m)))) with (Ok (ab_storage (about_module m))).
  2:{ unfold about_module. cbn [ab_storage]. unfold store_items, ostore_of. destruct (om_storage m) as [[n l]|]; [|reflexivity]. cbn [option_map snd]. symmetry.
      rewrite <- slice_records. apply (zlist_of_map entry_about (fun e => VMap (oentry_rec e)) (fun e => (modifier_name (on_default e), "0x" ++ hex_encode (on_fallback e), map text_of (on_docs e)))). apply oentry_about_ok. }
  cbn [bind]. rewrite <- slice_records. rewrite (zlist_of_map docs_of (fun k => VMap (oconst_rec k)) (fun k => map text_of (ok_docs k))) by apply oconst_docs_ok. reflexivity.
Qed.
Lemma old_module_ok v m : known_module v m -> old_module (VMap (omodule_rec v m)) = Ok (read_pair v m).
Proof.
  intros (_ & K & _). unfold old_module. cbn [zobj jobj bind]. rewrite oabout_ok.
  change (field_of "name" (omodule_rec v m)) with (VStr (text_of (om_name m))).
  change (field_of "prefix" (omodule_rec v m)) with (store_prefix (option_map ostore_of (om_storage m))).
  change (field_of "storage" (omodule_rec v m)) with (store_items (option_map ostore_of (om_storage m))).
  change (field_of "calls" (omodule_rec v m)) with (items_val (if has_index v then VNilSlice else VSlice []) (option_map (map ocall_rec) (om_calls m))).
  change (field_of "events" (omodule_rec v m)) with (items_val (if has_index v then VNilSlice else VSlice []) (option_map (map oevent_rec) (om_events m))).
  change (field_of "constants" (omodule_rec v m)) with (records (map oconst_rec (om_constants m))).
  change (field_of "errors" (omodule_rec v m)) with (records (map oerror_rec (om_errors m))).
  rewrite zint_index. rewrite (items_ok v old_call ocall_rec shown_ocall) by apply old_call_ok. rewrite (items_ok v old_event oevent_rec shown_oevent) by apply old_event_ok.
  rewrite <- !slice_records. rewrite (zlist_of_map old_const (fun k => VMap (oconst_rec k)) shown_oconst) by apply old_const_ok.
  rewrite (zlist_of_map name_of (fun x => VMap (oerror_rec x)) (fun x => text_of (ox_name x))) by apply old_error_ok.
  assert (S : zlist_of old_storage (store_items (option_map ostore_of (om_storage m))) =
    Ok (match om_storage m with Some s => map (fun e => (text_of (on_name e), read_ostore (on_type e))) (snd s) | None => [] end)).
  { destruct (om_storage m) as [[n l]|]; [|reflexivity]. destruct K as [_ [_ K]]. cbn [option_map store_items ostore_of snd fst] in *. rewrite <- slice_records. unfold zlist_of. rewrite jlist_slice.
    apply (jall_map old_storage (fun e => VMap (oentry_rec e)) (fun e => (text_of (on_name e), read_ostore (on_type e)))). eapply Forall_impl; [|exact K]. intros e. apply old_storage_ok. }
  rewrite S. assert (P : zstr (store_prefix (option_map ostore_of (om_storage m))) = Ok (match om_storage m with Some s => text_of (fst s) | None => "" end)) by now destruct (om_storage m) as [[n l]|].
  rewrite P. cbn [zstr jstr bind]. unfold read_pair, read_omodule. rewrite !items_listed. reflexivity.
Qed.
Lemma old_modules_ok v l : Forall (known_module v) l -> jall old_module (map VMap (map (omodule_rec v) l)) = Ok (map (read_pair v) l).
Proof. intros F. rewrite map_map. apply jall_map. eapply Forall_impl; [|exact F]. intros m. apply old_module_ok. Qed.
Lemma old_extensions_ok m : old_extensions (VMap [("version", VInt (wl_version m)); ("signedExtensions", texts (texts_of (wl_extensions m)))]) = Ok (map text_of (wl_extensions m)).
Proof.
  unfold old_extensions. cbn [map_val bind]. change (field_of "signedExtensions" _) with (texts (texts_of (wl_extensions m))). unfold texts.
  rewrite (zlist_of_map zstr VStr (fun s => s)) by reflexivity. now rewrite map_id.
Qed.
