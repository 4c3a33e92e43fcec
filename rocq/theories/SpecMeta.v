(** Specification of the wire format of runtime metadata: the portable type
    registry (scale-info) and the pallets of metadata V14 and V15.  Texts are
    byte strings here; [text_of] (SpecScale.v) is how the library shows them. *)

From Verif Require Import GoBase SpecNum ModelTools ModelVal ModelRegistry ModelDecode ModelRegister SpecScale ModelScaleInfo ModelMetadata ModelMeta ProofsTexts.

(** ** Building blocks *)
Definition text_enc (b : bytes) : bytes := (len_of b ++ b)%list.
Definition opt_enc {A} (e : A -> bytes) (o : option A) : bytes := match o with None => [Zb 0] | Some a => Zb 1 :: e a end.
Definition list_enc {A} (e : A -> bytes) (l : list A) : bytes := (len_of l ++ flat_map e l)%list.
Definition id_enc (z : Z) : bytes := compact z.
Definition bool_enc (b : bool) : bytes := [if b then Zb 1 else Zb 0].
(** Sizes: what is announced by a number is not longer than the library reads. *)
Definition id_ok (z : Z) : Prop := 0 <= z < 2 ^ 32.
Definition text_ok (b : bytes) : Prop := Z.of_nat (List.length b) < 2 ^ 32.
Definition list_ok {A} (P : A -> Prop) (l : list A) : Prop := Z.of_nat (List.length l) <= 512 * 1024 /\ Forall P l.
Definition opt_ok {A} (P : A -> Prop) (o : option A) : Prop := match o with None => True | Some a => P a end.
Definition opt_text (o : option bytes) : string := match o with None => "" | Some b => text_of b end.

(** ** The portable type registry *)
Record wfield := WField { wf_name : option bytes; wf_type : Z; wf_tyname : option bytes; wf_docs : list bytes }.
Record wvariant := WVariant { wv_name : bytes; wv_fields : list wfield; wv_index : Z; wv_docs : list bytes }.
Inductive wdef : Type :=
| WComposite (fields : list wfield)
| WEnum (variants : list wvariant)
| WSequence (t : Z)
| WArray (len t : Z)
| WTuple (l : list Z)
| WPrimitive (i : Z)
| WCompact (t : Z)
| WBitSequence (store order : Z)
| WRange (a b : Z) (inclusive : bool)
| WHistoric (s : bytes).
Record wtype := WType { wt_path : list bytes; wt_params : list (bytes * option Z); wt_def : wdef; wt_docs : list bytes }.
Definition wregistry := list (Z * wtype).

Definition primitives : list string :=
  ["Bool"; "Char"; "Str"; "U8"; "U16"; "U32"; "U64"; "U128"; "U256"; "I8"; "I16"; "I32"; "I64"; "I128"; "I256"].

Definition field_enc (f : wfield) : bytes :=
  (opt_enc text_enc (wf_name f) ++ id_enc (wf_type f) ++ opt_enc text_enc (wf_tyname f) ++ list_enc text_enc (wf_docs f))%list.
Definition variant_enc (v : wvariant) : bytes :=
  (text_enc (wv_name v) ++ list_enc field_enc (wv_fields v) ++ le_bytes 1 (wv_index v) ++ list_enc text_enc (wv_docs v))%list.
Definition def_enc (d : wdef) : bytes :=
  match d with
  | WComposite fs => Zb 0 :: list_enc field_enc fs
  | WEnum vs => Zb 1 :: list_enc variant_enc vs
  | WSequence t => Zb 2 :: id_enc t
  | WArray n t => Zb 3 :: le_bytes 4 n ++ id_enc t
  | WTuple l => Zb 4 :: list_enc id_enc l
  | WPrimitive i => [Zb 5; Zb i]
  | WCompact t => Zb 6 :: id_enc t
  | WBitSequence a b => Zb 7 :: id_enc a ++ id_enc b
  | WRange a b i => Zb 8 :: id_enc a ++ id_enc b ++ bool_enc i
  | WHistoric s => Zb 9 :: text_enc s
  end%list.
Definition param_enc (p : bytes * option Z) : bytes := (text_enc (fst p) ++ opt_enc id_enc (snd p))%list.
Definition type_enc (t : wtype) : bytes :=
  (list_enc text_enc (wt_path t) ++ list_enc param_enc (wt_params t) ++ def_enc (wt_def t) ++ list_enc text_enc (wt_docs t))%list.
Definition entry_enc (p : Z * wtype) : bytes := (id_enc (fst p) ++ type_enc (snd p))%list.
Definition registry_enc (l : wregistry) : bytes := list_enc entry_enc l.

Definition field_ok (f : wfield) : Prop :=
  opt_ok text_ok (wf_name f) /\ id_ok (wf_type f) /\ opt_ok text_ok (wf_tyname f) /\ list_ok text_ok (wf_docs f).
Definition variant_ok (v : wvariant) : Prop :=
  text_ok (wv_name v) /\ list_ok field_ok (wv_fields v) /\ 0 <= wv_index v < 256 /\ list_ok text_ok (wv_docs v).
Definition def_ok (d : wdef) : Prop :=
  match d with
  | WComposite fs => list_ok field_ok fs
  | WEnum vs => list_ok variant_ok vs
  | WSequence t | WCompact t => id_ok t
  | WArray n t => 0 <= n < 2 ^ 32 /\ id_ok t
  | WTuple l => list_ok id_ok l
  | WPrimitive i => 0 <= i < 15
  | WBitSequence a b | WRange a b _ => id_ok a /\ id_ok b
  | WHistoric s => text_ok s
  end.
Definition type_ok (t : wtype) : Prop :=
  list_ok text_ok (wt_path t) /\ list_ok (fun p => text_ok (fst p) /\ opt_ok id_ok (snd p)) (wt_params t) /\ def_ok (wt_def t)
  /\ list_ok text_ok (wt_docs t).
Definition registry_ok (l : wregistry) : Prop := list_ok (fun p => id_ok (fst p) /\ type_ok (snd p)) l.

(** What the library keeps of a declaration: a parameter without a type has
    type 0, an absent name is empty, an empty tuple is no definition at all. *)
Definition declared_field (f : wfield) : sifield := SiField (opt_text (wf_name f)) (wf_type f) (opt_text (wf_tyname f)).
Definition declared_variant (v : wvariant) : sivariant := SiVariant (text_of (wv_name v)) (map declared_field (wv_fields v)) (wv_index v).
Definition declared_def (d : wdef) : sidef :=
  match d with
  | WComposite fs => DComposite (map declared_field fs)
  | WEnum vs => DVariant (map declared_variant vs)
  | WSequence t => DSequence t
  | WArray n t => DArray n t
  | WTuple [] => DNone
  | WTuple l => DTuple l
  | WPrimitive i => DPrimitive (nth (Z.to_nat i) primitives "")
  | WCompact t => DCompact t
  | WBitSequence _ _ => DBitSequence
  | WRange _ _ _ => DRange
  | WHistoric [] => DNone
  | WHistoric s => DHistoric (text_of s)
  end.
Definition declared_type (t : wtype) : sitype :=
  SiType (map text_of (wt_path t)) (map (fun p => (text_of (fst p), match snd p with Some k => k | None => 0 end)) (wt_params t))
    (declared_def (wt_def t)).
(** The types by id; of two entries with the same id the later one counts. *)
Definition declared (l : wregistry) : portable := rev (map (fun p => (fst p, declared_type (snd p))) l).

(** ** Pallets *)
Definition hashers : list string := ["Blake2_128"; "Blake2_256"; "Blake2_128Concat"; "Twox128"; "Twox256"; "Twox64Concat"; "Identity"].
Inductive wstorage : Type :=
| WPlain (t : Z)
| WMap (hs : list Z) (key value : Z).
Record wentry := WEntry { we_name : bytes; we_default : bool; we_type : wstorage; we_fallback : bytes; we_docs : list bytes }.
Record wconst := WConst { wc_name : bytes; wc_type : Z; wc_value : bytes; wc_docs : list bytes }.
Record wpallet := WPallet {
  wp_name : bytes; wp_storage : option (bytes * list wentry); wp_calls : option Z; wp_events : option Z;
  wp_constants : list wconst; wp_errors : option Z; wp_index : Z }.

Definition storage_enc (s : wstorage) : bytes :=
  match s with
  | WPlain t => Zb 0 :: id_enc t
  | WMap hs k v => Zb 1 :: list_enc (fun h => [Zb h]) hs ++ id_enc k ++ id_enc v
  end%list.
Definition wentry_enc (e : wentry) : bytes :=
  (text_enc (we_name e) ++ bool_enc (we_default e) ++ storage_enc (we_type e) ++ text_enc (we_fallback e) ++ list_enc text_enc (we_docs e))%list.
Definition const_enc (k : wconst) : bytes :=
  (text_enc (wc_name k) ++ id_enc (wc_type k) ++ text_enc (wc_value k) ++ list_enc text_enc (wc_docs k))%list.
Definition pallet_enc (p : wpallet) : bytes :=
  (text_enc (wp_name p) ++ opt_enc (fun s => text_enc (fst s) ++ list_enc wentry_enc (snd s))%list (wp_storage p) ++
   opt_enc id_enc (wp_calls p) ++ opt_enc id_enc (wp_events p) ++ list_enc const_enc (wp_constants p) ++
   opt_enc id_enc (wp_errors p) ++ le_bytes 1 (wp_index p))%list.

Definition storage_ok (s : wstorage) : Prop :=
  match s with
  | WPlain t => id_ok t
  | WMap hs k v => list_ok (fun h => 0 <= h < 7) hs /\ id_ok k /\ id_ok v
  end.
Definition wentry_ok (e : wentry) : Prop :=
  text_ok (we_name e) /\ storage_ok (we_type e) /\ text_ok (we_fallback e) /\ list_ok text_ok (we_docs e).
Definition const_ok (k : wconst) : Prop := text_ok (wc_name k) /\ id_ok (wc_type k) /\ text_ok (wc_value k) /\ list_ok text_ok (wc_docs k).
Definition pallet_ok (p : wpallet) : Prop :=
  text_ok (wp_name p) /\ opt_ok (fun s => text_ok (fst s) /\ list_ok wentry_ok (snd s)) (wp_storage p) /\
  opt_ok id_ok (wp_calls p) /\ opt_ok id_ok (wp_events p) /\ list_ok const_ok (wp_constants p) /\ opt_ok id_ok (wp_errors p) /\
  0 <= wp_index p < 256.

Definition hasher_name (h : Z) : string := nth (Z.to_nat h) hashers "".
Definition described_storage (s : wstorage) : storage14 :=
  match s with WPlain t => Plain14 t | WMap hs k v => Map14 (map hasher_name hs) k v end.
Definition described (p : wpallet) : pallet :=
  Pallet (text_of (wp_name p)) (wp_index p) (wp_calls p) (wp_events p)
    (match wp_storage p with None => [] | Some s => map (fun e => (text_of (we_name e), described_storage (we_type e))) (snd s) end).

(** ** Extrinsic format *)
Record wextension := WExtension { wx_name : bytes; wx_type : Z; wx_additional : Z }.
Definition extension_enc (x : wextension) : bytes := (text_enc (wx_name x) ++ id_enc (wx_type x) ++ id_enc (wx_additional x))%list.
Definition extension_ok (x : wextension) : Prop := text_ok (wx_name x) /\ id_ok (wx_type x) /\ id_ok (wx_additional x).
Record wextrinsic := WExtrinsic { we_id : Z; we_version : Z; we_extensions : list wextension }.
Definition extrinsic_enc (x : wextrinsic) : bytes := (id_enc (we_id x) ++ le_bytes 1 (we_version x) ++ list_enc extension_enc (we_extensions x))%list.
Definition extrinsic_ok (x : wextrinsic) : Prop := id_ok (we_id x) /\ 0 <= we_version x < 256 /\ list_ok extension_ok (we_extensions x).

(** ** Metadata V14 *)
Record wmeta14 := WMeta14 { wm_types : wregistry; wm_pallets : list wpallet; wm_extrinsic : wextrinsic }.
Definition meta14_enc (m : wmeta14) : bytes :=
  (registry_enc (wm_types m) ++ list_enc pallet_enc (wm_pallets m) ++ extrinsic_enc (wm_extrinsic m))%list.
Definition meta14_ok (m : wmeta14) : Prop := registry_ok (wm_types m) /\ list_ok pallet_ok (wm_pallets m) /\ extrinsic_ok (wm_extrinsic m).

(** ** Metadata V15 *)
(** The format of extrinsics. *)
Record wextrinsic15 := WExtrinsic15 { x5_version : Z; x5_address : Z; x5_call : Z; x5_signature : Z; x5_extra : Z; x5_extensions : list wextension }.
Definition extrinsic15_enc (x : wextrinsic15) : bytes :=
  (le_bytes 1 (x5_version x) ++ id_enc (x5_address x) ++ id_enc (x5_call x) ++ id_enc (x5_signature x) ++ id_enc (x5_extra x) ++ list_enc extension_enc (x5_extensions x))%list.
Definition extrinsic15_ok (x : wextrinsic15) : Prop :=
  0 <= x5_version x < 256 /\ id_ok (x5_address x) /\ id_ok (x5_call x) /\ id_ok (x5_signature x) /\ id_ok (x5_extra x) /\ list_ok extension_ok (x5_extensions x).
(** Runtime interfaces: their methods, with inputs and output. *)
Record wmethod := WMethod { wd_name : bytes; wd_inputs : list (bytes * Z); wd_output : Z; wd_docs : list bytes }.
Record wapi := WApi { wi_name : bytes; wi_methods : list wmethod; wi_docs : list bytes }.
Definition input_enc (p : bytes * Z) : bytes := (text_enc (fst p) ++ id_enc (snd p))%list.
Definition method_enc (d : wmethod) : bytes := (text_enc (wd_name d) ++ list_enc input_enc (wd_inputs d) ++ id_enc (wd_output d) ++ list_enc text_enc (wd_docs d))%list.
Definition api_enc (a : wapi) : bytes := (text_enc (wi_name a) ++ list_enc method_enc (wi_methods a) ++ list_enc text_enc (wi_docs a))%list.
Definition input_ok (p : bytes * Z) : Prop := text_ok (fst p) /\ id_ok (snd p).
Definition method_ok (d : wmethod) : Prop := text_ok (wd_name d) /\ list_ok input_ok (wd_inputs d) /\ id_ok (wd_output d) /\ list_ok text_ok (wd_docs d).
Definition api_ok (a : wapi) : Prop := text_ok (wi_name a) /\ list_ok method_ok (wi_methods a) /\ list_ok text_ok (wi_docs a).
(** The types of calls, events and errors of the whole runtime. *)
Record wouter := WOuter { wo_call : Z; wo_event : Z; wo_error : Z }.
Definition outer_enc (x : wouter) : bytes := (id_enc (wo_call x) ++ id_enc (wo_event x) ++ id_enc (wo_error x))%list.
Definition outer_ok (x : wouter) : Prop := id_ok (wo_call x) /\ id_ok (wo_event x) /\ id_ok (wo_error x).
(** Values by name, each with its type. *)
Record wcustom := WCustom { wk_name : bytes; wk_type : Z; wk_value : bytes }.
Definition custom_enc (k : wcustom) : bytes := (text_enc (wk_name k) ++ id_enc (wk_type k) ++ text_enc (wk_value k))%list.
Definition custom_ok (k : wcustom) : Prop := text_ok (wk_name k) /\ id_ok (wk_type k) /\ text_ok (wk_value k).
(** A pallet of V15 has docs. *)
Definition pallet15_enc (p : wpallet * list bytes) : bytes := (pallet_enc (fst p) ++ list_enc text_enc (snd p))%list.
Definition pallet15_ok (p : wpallet * list bytes) : Prop := pallet_ok (fst p) /\ list_ok text_ok (snd p).
Record wmeta15 := WMeta15 {
  w5_types : wregistry; w5_pallets : list (wpallet * list bytes); w5_extrinsic : wextrinsic15; w5_type : Z;
  w5_apis : list wapi; w5_outer : wouter; w5_custom : list wcustom }.
Definition meta15_enc (m : wmeta15) : bytes :=
  (registry_enc (w5_types m) ++ list_enc pallet15_enc (w5_pallets m) ++ extrinsic15_enc (w5_extrinsic m) ++ id_enc (w5_type m) ++
   list_enc api_enc (w5_apis m) ++ outer_enc (w5_outer m) ++ list_enc custom_enc (w5_custom m))%list.
Definition meta15_ok (m : wmeta15) : Prop :=
  registry_ok (w5_types m) /\ list_ok pallet15_ok (w5_pallets m) /\ extrinsic15_ok (w5_extrinsic m) /\ id_ok (w5_type m) /\
  list_ok api_ok (w5_apis m) /\ outer_ok (w5_outer m) /\ Z.of_nat (List.length (w5_custom m)) <= 1000 /\ Forall custom_ok (w5_custom m).

(** ** The names metadata is read with
    mean what the library defines them to mean (types/registry.go:56-185,
    source/base.go), for the spec version at hand; and no sequence or option of
    them is a name of its own. *)
Definition meta_keys : list (string * codec) :=
  [ ("u8", CU8);
    ("u32", CU32);
    ("bool", CBool);
    ("bytes", CBytes);
    ("hexbytes", CHexBytes);
    ("string", CString);
    ("null", CNull);
    ("vec", CVec "");
    ("option", COption "");
    ("compact<u32>", CCompactU32);
    ("text", CString);
    ("portableregistry", CVec "PortableType");
    ("portabletype", CStruct (Some [("id", "SiLookupTypeId"); ("type", "SiType")]));
    ("silookuptypeid", CCompactU32);
    ("sitype", CStruct (Some [("path", "SiPath"); ("params", "Vec<SiTypeParameter>"); ("def", "SiTypeDef"); ("docs", "Vec<Text>")]));
    ("sipath", CVec "Text");
    ("sitypeparameter", CStruct (Some [("name", "Text"); ("type", "Option<SiLookupTypeId>")]));
    ("sitypedef", CEnum (Some [("Composite", "SiTypeDefComposite"); ("Variant", "SiTypeDefVariant"); ("Sequence", "SiTypeDefSequence"); ("Array", "SiTypeDefArray"); ("Tuple", "SiTypeDefTuple"); ("Primitive", "SiTypeDefPrimitive"); ("Compact", "SiTypeDefCompact"); ("BitSequence", "SiTypeDefBitSequence"); ("Range", "SiTypeDefRange"); ("HistoricMetaCompat", "String")]) []);
    ("sitypedefcomposite", CStruct (Some [("fields", "Vec<SiField>")]));
    ("sifield", CStruct (Some [("name", "Option<Text>"); ("type", "SiLookupTypeId"); ("typeName", "Option<Text>"); ("docs", "Vec<Text>")]));
    ("sitypedefvariant", CStruct (Some [("variants", "Vec<SiVariant>")]));
    ("sivariant", CStruct (Some [("name", "Text"); ("fields", "Vec<SiField>"); ("index", "u8"); ("docs", "Vec<Text>")]));
    ("sitypedefsequence", CStruct (Some [("type", "SiLookupTypeId")]));
    ("sitypedefarray", CStruct (Some [("len", "u32"); ("type", "SiLookupTypeId")]));
    ("sitypedeftuple", CVec "SiLookupTypeId");
    ("sitypedefprimitive", CEnum None primitives);
    ("sitypedefcompact", CStruct (Some [("type", "SiLookupTypeId")]));
    ("sitypedefbitsequence", CStruct (Some [("bitStoreType", "SiLookupTypeId"); ("bitOrderType", "SiLookupTypeId")]));
    ("sitypedefrange", CStruct (Some [("start", "SiLookupTypeId"); ("end", "SiLookupTypeId"); ("inclusive", "bool")]));
    ("metadataversion", CEnum None ["MetadataV0Decoder"; "MetadataV1Decoder"; "MetadataV2Decoder"; "MetadataV3Decoder"; "MetadataV4Decoder"; "MetadataV5Decoder"; "MetadataV6Decoder"; "MetadataV7Decoder"; "MetadataV8Decoder"; "MetadataV9Decoder"; "MetadataV10Decoder"; "MetadataV11Decoder"; "MetadataV12Decoder"; "MetadataV13Decoder"; "MetadataV14Decoder"; "MetadataV15Decoder"]);
    ("extrinsicmetadata", CStruct (Some [("version", "u8"); ("signedExtensions", "Vec<Bytes>")]));
    ("extrinsicmetadatav14", CStruct (Some [("type", "SiLookupTypeId"); ("version", "u8"); ("signedExtensions", "Vec<SignedExtensionMetadataV14>")]));
    ("extrinsicmetadatav15", CStruct (Some [("version", "u8"); ("addressType", "SiLookupTypeId"); ("callType", "SiLookupTypeId"); ("signatureType", "SiLookupTypeId"); ("extraType", "SiLookupTypeId"); ("signedExtensions", "Vec<SignedExtensionMetadataV14>")]));
    ("signedextensionmetadatav14", CStruct (Some [("identifier", "Text"); ("type", "SiLookupTypeId"); ("additionalSigned", "SiLookupTypeId")]));
    ("storagehasher", CEnum None hashers);
    ("storagemodify", CEnum None ["Optional"; "Default"]);
    ("storagefunctiontype", CEnum None ["PlainType"; "MapType"; "DoubleMapType"; "NMap"]);
    ("storagefunctiontypev14", CEnum None ["PlainType"; "Map"]);
    ("palletcallmetadatav14", CStruct (Some [("type", "SiLookupTypeId")]));
    ("palleteventmetadatav14", CStruct (Some [("type", "SiLookupTypeId")]));
    ("palleterrormetadatav14", CStruct (Some [("type", "SiLookupTypeId")]));
    ("metadatamoduleevent", COpaque "MetadataModuleEvent");
    ("metadatamodulecallargument", COpaque "MetadataModuleCallArgument");
    ("metadatamodulecall", COpaque "MetadataModuleCall");
    ("metadatamoduleerror", COpaque "MetadataModuleError");
    ("metadatav7moduleconstants", COpaque "MetadataV7ModuleConstants");
    ("metadatav7modulestorageentry", COpaque "MetadataV7ModuleStorageEntry");
    ("metadatav13modulestorageentry", COpaque "MetadataV13ModuleStorageEntry");
    ("metadatav7modulestorage", COpaque "MetadataV7ModuleStorage");
    ("metadatav13modulestorage", COpaque "MetadataV13ModuleStorage");
    ("metadatav8module", COpaque "MetadataV8Module");
    ("metadatav12module", COpaque "MetadataV12Module");
    ("metadatav13module", COpaque "MetadataV13Module");
    ("palletconstantmetadatav14", COpaque "PalletConstantMetadataV14");
    ("metadatav14modulestorageentry", COpaque "MetadataV14ModuleStorageEntry");
    ("metadatav14modulestorage", COpaque "MetadataV14ModuleStorage");
    ("metadatav14module", COpaque "MetadataV14Module");
    ("metadatav15module", COpaque "MetadataV15Module");
    ("runtimeapimetadatav15", COpaque "RuntimeApiMetadataV15");
    ("runtimeapimethodmetadatav15", COpaque "RuntimeApiMethodMetadataV15");
    ("runtimeapimethodparammetadatav15", COpaque "RuntimeApiMethodParamMetadataV15");
    ("outerenumsmetadatav15", COpaque "OuterEnumsMetadataV15");
    ("custommetadatav15", COpaque "CustomMetadataV15");
    ("metadatav9decoder", COpaque "MetadataV9Decoder");
    ("metadatav10decoder", COpaque "MetadataV10Decoder");
    ("metadatav11decoder", COpaque "MetadataV11Decoder");
    ("metadatav12decoder", COpaque "MetadataV12Decoder");
    ("metadatav13decoder", COpaque "MetadataV13Decoder");
    ("metadatav14decoder", COpaque "MetadataV14Decoder");
    ("metadatav15decoder", COpaque "MetadataV15Decoder") ].
Definition meta_vecs : list string :=
  [ "Text"; "SiTypeParameter"; "SiField"; "SiVariant"; "MetadataV14Module"; "MetadataV14ModuleStorageEntry"; "StorageHasher"; "String"; "PalletConstantMetadataV14"; "SignedExtensionMetadataV14"; "MetadataV15Module"; "RuntimeApiMetadataV15"; "RuntimeApiMethodMetadataV15"; "RuntimeApiMethodParamMetadataV15"; "Bytes"; "MetadataV8Module"; "MetadataV12Module"; "MetadataV13Module"; "MetadataModuleCall"; "MetadataModuleEvent"; "MetadataModuleCallArgument"; "MetadataV7ModuleConstants"; "MetadataModuleError"; "MetadataV7ModuleStorageEntry"; "MetadataV13ModuleStorageEntry" ].
Definition meta_opts : list string := [ "SiLookupTypeId"; "Text"; "Compact<u32>" ].
Definition meta_env (E : env) (spec : Z) : Prop :=
  (forall k cd, In (k, cd) meta_keys -> find_key E k spec = Some cd) /\
  (forall t, In t meta_vecs -> find_key E (to_lower ("Vec<" ++ t ++ ">")) spec = None) /\
  (forall t, In t meta_opts -> find_key E (to_lower ("Option<" ++ t ++ ">")) spec = None).
(** The names with a fixed meaning in a registry, whatever the spec version;
    metadata of versions 0 to 8 has no decoder. *)
Definition meta_names : list string :=
  (map fst meta_keys ++ map (fun t => to_lower ("Vec<" ++ t ++ ">")) meta_vecs ++ map (fun t => to_lower ("Option<" ++ t ++ ">")) meta_opts)%list.
Definition meta_registry (r : reg) : Prop :=
  (forall k cd, In (k, cd) meta_keys -> assoc k (r_types r) = Some cd) /\
  (forall t, In t meta_vecs -> assoc (to_lower ("Vec<" ++ t ++ ">")) (r_types r) = None) /\
  (forall t, In t meta_opts -> assoc (to_lower ("Option<" ++ t ++ ">")) (r_types r) = None) /\
  (forall k, In k meta_names -> assoc k (r_special r) = None).

(** What V15 needs besides. *)
Definition custom_keys : list (string * option codec) :=
  [ ("btreemap", Some (CBTreeMap ""));
    ("customvaluemetadata15", Some (CStruct (Some [("type", "SiLookupTypeId"); ("value", "Bytes")])));
    ("btreemap<text, customvaluemetadata15>", None) ].
Definition custom_registry (r : reg) : Prop := forall k o, In (k, o) custom_keys -> assoc k (r_types r) = o /\ assoc k (r_special r) = None.

(** ** What is to be shown of metadata V14 and V15
    [names] gives every type id the name under which the type is registered. *)
Fixpoint wfind (l : wregistry) (k : Z) : option wtype :=
  match l with
  | [] => None
  | (i, t) :: r => match wfind r k with Some t' => Some t' | None => if k =? i then Some t else None end
  end.
(** The variants of an enum given by its id. *)
Definition wvariants (l : wregistry) (o : option Z) : list wvariant :=
  match o with
  | None => []
  | Some k => match wfind l k with Some t => match wt_def t with WEnum vs => vs | _ => [] end | None => [] end
  end.
Definition enum_id (l : wregistry) (o : option Z) : Prop :=
  match o with None => True | Some k => exists t vs, wfind l k = Some t /\ wt_def t = WEnum vs end.
Definition shown_call (names : Z -> string) (v : wvariant) : mcall :=
  MCall (text_of (wv_name v))
    (map (fun f => MArg (opt_text (wf_name f)) (names (wf_type f)) (ConvertType (opt_text (wf_tyname f)))) (wv_fields v)) (wv_index v).
Definition shown_event (names : Z -> string) (v : wvariant) : mevent :=
  MEvent (text_of (wv_name v)) (map (fun f => names (wf_type f)) (wv_fields v)) (map (fun f => opt_text (wf_name f)) (wv_fields v))
    (map (fun f => ConvertType (opt_text (wf_tyname f))) (wv_fields v)) (wv_index v).
(** A map whose key is a tuple with as many parts as there are hashers has one
    key per hasher. *)
Definition shown_storage (l : wregistry) (names : Z -> string) (s : wstorage) : storage :=
  match s with
  | WPlain t => SPlain (names t)
  | WMap hs k v =>
      SMap (map hasher_name hs)
        (match wfind l k with
         | Some t => match wt_def t with
                     | WTuple (a :: r) => if Nat.eqb (List.length (a :: r)) (List.length hs) then map names (a :: r) else [names k]
                     | _ => [names k]
                     end
         | None => [names k]
         end) (names v)
  end.
(** The key is one key with one hasher, or as above; and it has a name, which is not a
    parenthesised text. *)
Definition storage_keyed (l : wregistry) (names : Z -> string) (s : wstorage) : Prop :=
  match s with
  | WPlain _ => True
  | WMap hs k _ =>
      (exists t a r, wfind l k = Some t /\ wt_def t = WTuple (a :: r) /\ (List.length hs = List.length (a :: r) \/ List.length hs = 1%nat)) \/
      (List.length hs = 1%nat /\ (forall t a r, wfind l k = Some t -> wt_def t <> WTuple (a :: r)) /\ exists a r, names k = String a r /\ a <> "("%char)
  end.
(** A tuple key has one hasher for each of its parts. *)
Definition one_per_hasher (l : wregistry) (s : wstorage) : Prop :=
  match s with
  | WPlain _ => True
  | WMap hs k _ => forall t a r, wfind l k = Some t -> wt_def t = WTuple (a :: r) -> List.length hs = List.length (a :: r)
  end.
(** The other things said of storage entries and constants. *)
Definition modifier_name (default : bool) : string := if default then "Default" else "Optional".
Definition about_pallet (p : wpallet) : mabout :=
  MAbout (match wp_storage p with Some s => map (fun e => (modifier_name (we_default e), "0x" ++ hex_encode (we_fallback e), map text_of (we_docs e))) (snd s) | None => [] end)
    (map (fun k => map text_of (wc_docs k)) (wp_constants p)).
