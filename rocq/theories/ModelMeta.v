(** Reading runtime metadata from its bytes: metadata.go, the Process methods
    of the decoders of whole metadata (types/metadata.go, v13.go, v14.go,
    v15.go) and InitPortableRaw (types/scaleInfo.go).

    json.Marshal followed by json.Unmarshal into a struct reads the fields of
    the value by their JSON names.  Of the docs only those of
    storage entries and constants are kept. *)

From Verif Require Import GoBase ModelTools ModelVal ModelRegistry ModelDecode ModelEncode ModelRegister ModelScaleInfo ModelMetadata.

(** ** JSON values read into Go types; null leaves the zero value. *)
Definition jerr {A} : res A := Panic "json: cannot unmarshal".
Definition jstr (v : val) : res string := match v with VStr s => Ok s | VNil => Ok "" | _ => jerr end.
Definition jint (v : val) : res Z := match v with VInt z => Ok z | VU32 z => Ok z | VNil => Ok 0 | _ => jerr end.
Definition jlist (v : val) : res (list val) :=
  match v with VSlice l => Ok l | VNilSlice => Ok [] | VNil => Ok [] | VStrs None => Ok [] | VStrs (Some l) => Ok (map VStr l) | _ => jerr end.
Definition jobj (v : val) : res (list (string * val)) := match v with VMap m => Ok m | VNil => Ok [] | _ => jerr end.
Fixpoint jall {A} (f : val -> res A) (l : list val) : res (list A) :=
  match l with
  | [] => Ok []
  | v :: r => a <- f v ;; t <- jall f r ;; Ok (a :: t)
  end.
Definition jlist_of {A} (f : val -> res A) (v : val) : res (list A) := l <- jlist v ;; jall f l.

(** ** InitPortableRaw, scaleInfo.go:14-118 and 120-131 *)
Definition raw_field (v : val) : res sifield :=
  m <- jobj v ;;
  n <- jstr (field_of "name" m) ;;
  t <- jint (field_of "type" m) ;;
  tn <- jstr (field_of "typeName" m) ;;
  Ok (SiField n t tn).
Definition raw_variant (v : val) : res sivariant :=
  m <- jobj v ;;
  n <- jstr (field_of "name" m) ;;
  fs <- jlist_of raw_field (field_of "fields" m) ;;
  i <- jint (field_of "index" m) ;;
  Ok (SiVariant n fs i).
Definition raw_param (v : val) : res (string * Z) :=
  m <- jobj v ;;
  n <- jstr (field_of "name" m) ;;
  t <- jint (field_of "type" m) ;;
  Ok (n, t).
(** A pointer field is set unless the value is null; a nil slice is null. *)
Definition is_null (v : val) : bool := match v with VNil | VNilSlice => true | _ => false end.
(** The definition is a map with one entry, the name of the variant. *)
Definition raw_def (v : val) : res sidef :=
  m <- jobj v ;;
  match m with
  | [(k, x)] =>
      if is_null x then Ok DNone
      else if String.eqb k "Composite" then o <- jobj x ;; fs <- jlist_of raw_field (field_of "fields" o) ;; Ok (DComposite fs)
      else if String.eqb k "Variant" then o <- jobj x ;; vs <- jlist_of raw_variant (field_of "variants" o) ;; Ok (DVariant vs)
      else if String.eqb k "Sequence" then o <- jobj x ;; t <- jint (field_of "type" o) ;; Ok (DSequence t)
      else if String.eqb k "Array" then o <- jobj x ;; n <- jint (field_of "len" o) ;; t <- jint (field_of "type" o) ;; Ok (DArray n t)
      else if String.eqb k "Tuple" then l <- jlist_of jint x ;; Ok (DTuple l)
      else if String.eqb k "Primitive" then s <- jstr x ;; Ok (DPrimitive s)
      else if String.eqb k "Compact" then o <- jobj x ;; t <- jint (field_of "type" o) ;; Ok (DCompact t)
      else if String.eqb k "BitSequence" then Ok DBitSequence
      else if String.eqb k "Range" then Ok DRange
      else if String.eqb k "HistoricMetaCompat" then s <- jstr x ;; Ok (if String.eqb s "" then DNone else DHistoric s)
      else Ok DNone
  | _ => Ok DNone
  end.
Definition raw_type (v : val) : res sitype :=
  m <- jobj v ;;
  p <- jlist_of jstr (field_of "path" m) ;;
  ps <- jlist_of raw_param (field_of "params" m) ;;
  d <- raw_def (field_of "def" m) ;;
  Ok (SiType p ps d).
Definition raw_portable (v : val) : res (Z * sitype) :=
  m <- jobj v ;;
  i <- jint (field_of "id" m) ;;
  t <- raw_type (field_of "type" m) ;;
  Ok (i, t).
(** The map is written in order, so a later entry hides an earlier one with the
    same id: it comes first here. *)
Definition InitPortableRaw (v : val) : res portable := l <- jlist_of raw_portable v ;; Ok (rev l).

(** ** Decoding with a registry that changes: ProcessAndUpdateData of the
    decoder itself, base.go:158-187. *)
Definition read (fuel : nat) (c : ctx) (r : reg) (b : bytes) (o : Z) (ts : string) : res (val * Z) :=
  '(v, o, _) <- decode fuel (reg_env r) c b o ts ;; Ok (v, o).
(** x.([]interface{}) *)
Definition slice_val (v : val) : res (list val) :=
  match v with VSlice l => Ok l | VNilSlice => Ok [] | _ => Panic "interface conversion: interface {} is not []interface {}" end.
Definition map_val (v : val) : res (list (string * val)) :=
  match v with VMap m => Ok m | _ => Panic "interface conversion: interface {} is not map[string]interface {}" end.

(** ** What is kept of types.MetadataStruct (types/metadata.go:87-97). *)
Record mconst := MConst { c_name : string; c_type : string; c_value : string }.
(** Of each storage entry its modifier, its fallback and its docs; of each
    constant its docs. *)
Record mabout := MAbout { ab_storage : list (string * string * list string); ab_constants : list (list string) }.
Record mmodule := MModule {
  m_name : string; m_prefix : string; m_index : Z; m_calls : list mcall; m_events : list mevent;
  m_storage : list (string * storage); m_constants : list mconst; m_errors : list string; m_about : mabout }.
Record mapi := MApi { api_name : string; api_methods : list (string * (list (string * string) * string)) }.
Record mdata := MData {
  md_modules : list mmodule; md_calls : table mcall; md_events : table mevent;
  md_extensions : list (string * string);   (* Identifier and TypeString *)
  md_identifiers : list string;             (* SignedIdentifier *)
  md_apis : list mapi; md_outer : option (Z * Z * Z);
  md_custom : list (list (string * (Z * string)))   (* Customer: maps from names to Type and Value *) }.

(** The errors of json.Unmarshal are ignored from here on: a value of another
    kind leaves the zero value. *)
Definition zstr (v : val) : res string := Ok (match jstr v with Ok s => s | _ => "" end).
Definition zint (v : val) : res Z := Ok (match jint v with Ok z => z | _ => 0 end).
Definition zobj (v : val) : res (list (string * val)) := Ok (match jobj v with Ok m => m | _ => [] end).
Definition zlist_of {A} (f : val -> res A) (v : val) : res (list A) := match jlist v with Ok l => jall f l | _ => Ok [] end.

(** MetadataStorage and MetadataConstants, metadata.go:26-33 and 159-165. *)
Definition entry_about (v : val) : res (string * string * list string) :=
  m <- zobj v ;; a <- zstr (field_of "modifier" m) ;; f <- zstr (field_of "fallback" m) ;; d <- zlist_of zstr (field_of "docs" m) ;; Ok (a, f, d).
Definition docs_of (v : val) : res (list string) := m <- zobj v ;; zlist_of zstr (field_of "docs" m).
Definition about_of (m : list (string * val)) : res mabout :=
  s <- zlist_of entry_about (field_of "storage" m) ;; k <- zlist_of docs_of (field_of "constants" m) ;; Ok (MAbout s k).

(** *** V9 to V13 *)
Definition jopt {A} (f : val -> res A) (v : val) : res (option A) :=
  match v with VNil | VNilSlice => Ok None | _ => a <- f v ;; Ok (Some a) end.
Definition arg_of (v : val) : res marg :=
  m <- zobj v ;; n <- zstr (field_of "name" m) ;; t <- zstr (field_of "type" m) ;; Ok (MArg n t "").
Definition old_call (v : val) : res mcall :=
  m <- zobj v ;; n <- zstr (field_of "name" m) ;; l <- zlist_of arg_of (field_of "args" m) ;; Ok (MCall n l 0).
Definition old_event (v : val) : res mevent :=
  m <- zobj v ;; n <- zstr (field_of "name" m) ;; l <- zlist_of zstr (field_of "args" m) ;; Ok (MEvent n l [] [] 0).
Definition old_const (v : val) : res mconst :=
  m <- zobj v ;; n <- zstr (field_of "name" m) ;; t <- zstr (field_of "type" m) ;; x <- zstr (field_of "constants_value" m) ;; Ok (MConst n t x).
Definition name_of (v : val) : res string := m <- zobj v ;; zstr (field_of "name" m).
(** StorageType: plain_type, map_type, double_map_type, n_map_type; the maps
    are shown as lists of hashers and keys. *)
Definition old_storage (v : val) : res (string * storage) :=
  m <- zobj v ;; n <- zstr (field_of "name" m) ;; t <- zobj (field_of "type" m) ;;
  origin <- zstr (field_of "origin" t) ;;
  if String.eqb origin "PlainType" then p <- zstr (field_of "plain_type" t) ;; Ok (n, SPlain p)
  else if String.eqb origin "MapType" then
    o <- zobj (field_of "map_type" t) ;; h <- zstr (field_of "hasher" o) ;; k <- zstr (field_of "key" o) ;; x <- zstr (field_of "value" o) ;;
    Ok (n, SMap [h] [k] x)
  else if String.eqb origin "DoubleMapType" then
    o <- zobj (field_of "double_map_type" t) ;; h <- zstr (field_of "hasher" o) ;; k <- zstr (field_of "key" o) ;; k2 <- zstr (field_of "key2" o) ;;
    x <- zstr (field_of "value" o) ;; h2 <- zstr (field_of "key2Hasher" o) ;;
    Ok (n, SMap [h; h2] [k; k2] x)
  else
    o <- zobj (field_of "n_map_type" t) ;; hs <- zlist_of zstr (field_of "hashers" o) ;; ks <- zlist_of zstr (field_of "key_vec" o) ;;
    x <- zstr (field_of "value" o) ;;
    Ok (n, SMap hs ks x).
(** A module, and which of its call and event slices are not nil. *)
Definition opt_list {A} (o : option (list A)) : list A := match o with Some l => l | None => [] end.
Definition old_module (v : val) : res (mmodule * omodule) :=
  m <- zobj v ;;
  n <- zstr (field_of "name" m) ;;
  p <- zstr (field_of "prefix" m) ;;
  st <- zlist_of old_storage (field_of "storage" m) ;;
  cs <- jopt (zlist_of old_call) (field_of "calls" m) ;;
  es <- jopt (zlist_of old_event) (field_of "events" m) ;;
  ks <- zlist_of old_const (field_of "constants" m) ;;
  xs <- zlist_of name_of (field_of "errors" m) ;;
  i <- zint (field_of "index" m) ;;
  ab <- about_of m ;;
  Ok (MModule n p i (opt_list cs) (opt_list es) st ks xs ab, OModule n cs es).
Definition as_imodule (m : mmodule) : imodule := IModule (m_name m) (m_index m) (m_calls m) (m_events m).
(** SignedExtensions []string (metadata.go:911-913) *)
Definition old_extensions (v : val) : res (list string) := m <- map_val v ;; zlist_of zstr (field_of "signedExtensions" m).

(** metadata.go:777-808 (V9), 818-852 (V10), 862-896 (V11): the modules counted;
    what follows the modules is not read.  metadata.go:919-959 (V12), v13.go:40-81. *)
Definition process_counted (fuel : nat) (c : ctx) (r : reg) (b : bytes) (o : Z) : res (mdata * Z * reg) :=
  '(v, o) <- read fuel c r b o "Vec<MetadataV8Module>" ;;
  l <- slice_val v ;;
  ms <- jall old_module l ;;
  Ok (MData (map fst ms) (old_calls true (map snd ms)) (old_events true (map snd ms)) [] [] [] None [], o, r).
Definition process_indexed (fuel : nat) (c : ctx) (v13 : bool) (r : reg) (b : bytes) (o : Z) : res (mdata * Z * reg) :=
  '(v, o) <- read fuel c r b o (if v13 then "Vec<MetadataV13Module>" else "Vec<MetadataV12Module>") ;;
  l <- slice_val v ;;
  ms <- jall old_module l ;;
  let ms := map fst ms in
  '(v, o) <- read fuel c r b o "ExtrinsicMetadata" ;;
  ids <- old_extensions v ;;
  Ok (MData ms (indexed_calls (map as_imodule ms)) (indexed_events (map as_imodule ms)) [] ids [] None [], o,
      if v13 then registerOriginCaller (map (fun m => (m_name m, m_index m)) ms) r else r).

(** *** V14 and V15 *)
Definition raw_lookup (v : val) : res (option Z) :=
  match v with VNil => Ok None | _ => m <- zobj v ;; t <- zint (field_of "type" m) ;; Ok (Some t) end.
(** An entry of unknown kind, which is left as it is, is not modelled. *)
Definition raw_storage (v : val) : res (string * storage14) :=
  m <- zobj v ;; n <- zstr (field_of "name" m) ;; t <- zobj (field_of "type" m) ;;
  origin <- zstr (field_of "origin" t) ;;
  if String.eqb origin "PlainType" then p <- zint (field_of "PlainTypeValue" t) ;; Ok (n, Plain14 p)
  else if negb (String.eqb origin "Map") then Panic "not modelled"
  else
    o <- zobj (field_of "n_map_type" t) ;; hs <- zlist_of zstr (field_of "hashers" o) ;;
    k <- zint (field_of "keys_id" o) ;; x <- zint (field_of "value_id" o) ;; Ok (n, Map14 hs k x).
Definition raw_const (v : val) : res (string * Z * string) :=
  m <- zobj v ;; n <- zstr (field_of "name" m) ;; t <- zint (field_of "type_value" m) ;; x <- zstr (field_of "constants_value" m) ;; Ok (n, t, x).
Record rawmodule := RawModule {
  r_pallet : pallet; r_prefix : string; r_constants : list (string * Z * string); r_errors : option Z; r_about : mabout }.
Definition raw_module (v : val) : res rawmodule :=
  m <- zobj v ;;
  n <- zstr (field_of "name" m) ;;
  p <- zstr (field_of "prefix" m) ;;
  st <- zlist_of raw_storage (field_of "storage" m) ;;
  cs <- raw_lookup (field_of "calls_value" m) ;;
  es <- raw_lookup (field_of "events_value" m) ;;
  ks <- zlist_of raw_const (field_of "constants" m) ;;
  xs <- raw_lookup (field_of "errors_value" m) ;;
  i <- zint (field_of "index" m) ;;
  ab <- about_of m ;;
  Ok (RawModule (Pallet n i cs es st) p ks xs ab).

(** v14.go:105-119: the names of the errors. *)
Definition errors_of (port : portable) (o : option Z) : res (list string) := items_of port v_name o.
(** v14.go:122-128 *)
Fixpoint constants_of (names : list (Z * string)) (l : list (string * Z * string)) : res (list mconst) :=
  match l with
  | [] => Ok []
  | (n, t, x) :: r =>
      let ty := si_name names t in
      if String.eqb ty "" then Panic "constant value not variant"
      else k <- constants_of names r ;; Ok (MConst n ty x :: k)
  end.
(** v14.go:51-158, v15.go:47-150: one pallet.  [pallets_loop] (ModelMetadata.v)
    builds the tables; this is what is left in the module. *)
Definition module_of (v15 : bool) (port : portable) (names : list (Z * string)) (m : rawmodule) : res mmodule :=
  let p := r_pallet m in
  cs <- items_of port (call_of names) (p_calls p) ;;
  es <- items_of port (event_of names) (p_events p) ;;
  xs <- errors_of port (r_errors m) ;;
  ks <- constants_of names (r_constants m) ;;
  st <- resolve_all v15 port names (p_storage p) ;;
  Ok (MModule (p_name p) (r_prefix m) (p_index p) cs es st ks xs (r_about m)).
Fixpoint modules_of (v15 : bool) (port : portable) (names : list (Z * string)) (l : list rawmodule) : res (list mmodule) :=
  match l with
  | [] => Ok []
  | m :: r => a <- module_of v15 port names m ;; t <- modules_of v15 port names r ;; Ok (a :: t)
  end.
(** v14.go:160-167 *)
Definition raw_extension (v : val) : res (string * Z) :=
  m <- zobj v ;; n <- zstr (field_of "identifier" m) ;; t <- zint (field_of "type" m) ;; Ok (n, t).
Definition extensions_of (names : list (Z * string)) (v : val) : res (list (string * string)) :=
  m <- map_val v ;; l <- zlist_of raw_extension (field_of "signedExtensions" m) ;;
  Ok (map (fun p => (fst p, si_name names (snd p))) l).
(** v15.go:168-177 *)
Definition raw_input (names : list (Z * string)) (v : val) : res (string * string) :=
  m <- zobj v ;; n <- zstr (field_of "name" m) ;; t <- zint (field_of "typeId" m) ;; Ok (n, si_name names t).
Definition raw_method (names : list (Z * string)) (v : val) : res (string * (list (string * string) * string)) :=
  m <- zobj v ;; n <- zstr (field_of "name" m) ;; l <- zlist_of (raw_input names) (field_of "inputs" m) ;; t <- zint (field_of "outputsId" m) ;;
  Ok (n, (l, si_name names t)).
Definition raw_api (names : list (Z * string)) (v : val) : res mapi :=
  m <- zobj v ;; n <- zstr (field_of "name" m) ;; l <- zlist_of (raw_method names) (field_of "methods" m) ;; Ok (MApi n l).
Definition raw_outer (v : val) : res (Z * Z * Z) :=
  m <- zobj v ;; a <- zint (field_of "callType" m) ;; b <- zint (field_of "eventType" m) ;; e <- zint (field_of "errorType" m) ;; Ok (a, b, e).

(** v15.go:179, 259-263: the maps of a BTreeMap, with the rows "type" and "value". *)
Definition raw_custom (p : string * val) : res (string * (Z * string)) :=
  let (k, v) := p in m <- zobj v ;; t <- zint (field_of "type" m) ;; x <- zstr (field_of "value" m) ;; Ok (k, (t, x)).
Fixpoint raw_custom_map (l : list (string * val)) : res (list (string * (Z * string))) :=
  match l with
  | [] => Ok []
  | p :: r => a <- raw_custom p ;; t <- raw_custom_map r ;; Ok (a :: t)
  end.
Definition raw_customs (v : val) : res (list (list (string * (Z * string)))) :=
  m <- zobj v ;; zlist_of (fun v => l <- zobj v ;; raw_custom_map l) (field_of "map" m).

(** v14.go:28-170 and v15.go:26-184 *)
Definition process_portable (fuel : nat) (c : ctx) (v15 : bool) (r : reg) (b : bytes) (o : Z) : res (mdata * Z * reg) :=
  '(v, o) <- read fuel c r b o "PortableRegistry" ;;
  l <- slice_val v ;;
  port <- InitPortableRaw (VSlice l) ;;
  s <- ProcessSiType fuel (SiCtx "" true (x_spec c) port fuel) r ;;
  let names := g_names s in
  let r := g_reg s in
  '(v, o) <- read fuel c r b o (if v15 then "Vec<MetadataV15Module>" else "Vec<MetadataV14Module>") ;;
  l <- slice_val v ;;
  raws <- jall raw_module l ;;
  ms <- modules_of v15 port names raws ;;
  t <- pallet_tables v15 port names (map r_pallet raws) ;;
  '(v, o) <- read fuel c r b o (if v15 then "ExtrinsicMetadataV15" else "ExtrinsicMetadataV14") ;;
  exts <- extensions_of names v ;;
  let r := registerOriginCaller (map (fun m => (m_name m, m_index m)) ms) r in
  if v15 then
    '(_, o) <- read fuel c r b o "SiLookupTypeId" ;;
    '(v, o) <- read fuel c r b o "Vec<RuntimeApiMetadataV15>" ;;
    l <- slice_val v ;;
    apis <- jall (raw_api names) l ;;
    '(v, o) <- read fuel c r b o "OuterEnumsMetadataV15" ;;
    outer <- raw_outer v ;;
    '(v, o) <- read fuel c r b o "CustomMetadataV15" ;;
    custom <- raw_customs v ;;
    Ok (MData ms (tb_calls t) (tb_events t) exts (map fst exts) apis (Some outer) custom, o, r)
  else Ok (MData ms (tb_calls t) (tb_events t) exts (map fst exts) [] None [], o, r).

(** ** metadata.go:22-38 and 40-63 *)
Definition is_magic (b : bytes) : bool := String.eqb (b2s b) "meta".
(** The version byte, the text MetadataVersion decodes to, and the offset;
    [None]: the error "not metadata". *)
Definition metadata_header (fuel : nat) (c : ctx) (r : reg) (b : bytes) : res (option (Z * string * Z)) :=
  '(m, o) <- next_bytes b 0 4 ;;
  '(m, o) <- (if is_magic m then Ok (m, o)
              else '(_, o) <- read fuel c r b 0 "Option<Compact<u32>>" ;; next_bytes b o 4) ;;
  if is_magic m then
    d <- slice b o (o + 1) ;;
    '(v, o) <- read fuel c r b o "MetadataVersion" ;;
    match v with
    | VStr n => Ok (Some (head_u8 d, n, o))
    | _ => Panic "interface conversion: interface {} is not string"
    end
  else Ok None.
(** ProcessAndUpdateData(m.Version).(types.MetadataStruct) *)
Definition process_version (fuel : nat) (c : ctx) (name : string) (r : reg) (b : bytes) (o : Z) : res (mdata * Z * reg) :=
  cl <- GetCodecClass (reg_env r) (x_module c) name (x_spec c) ;;
  match cl with
  | None => Panic ("Not found decoder class " ++ name)
  | Some (COpaque n, _) =>
      if String.eqb n "MetadataV9Decoder" then process_counted fuel c r b o
      else if String.eqb n "MetadataV10Decoder" then process_counted fuel c r b o
      else if String.eqb n "MetadataV11Decoder" then process_counted fuel c r b o
      else if String.eqb n "MetadataV12Decoder" then process_indexed fuel c false r b o
      else if String.eqb n "MetadataV13Decoder" then process_indexed fuel c true r b o
      else if String.eqb n "MetadataV14Decoder" then process_portable fuel c false r b o
      else if String.eqb n "MetadataV15Decoder" then process_portable fuel c true r b o
      else Panic "interface conversion: interface {} is not types.MetadataStruct"
  | Some _ => Panic "interface conversion: interface {} is not types.MetadataStruct"
  end.
(** The version number, the metadata and the registry it leaves behind; [None]
    is an error.  The decoder was initialised without options: spec version 0. *)
Definition ProcessMetadata (fuel : nat) (r : reg) (b : bytes) : res (option (Z * mdata) * reg) :=
  let c := Ctx 0 "" None in
  h <- metadata_header fuel c r b ;;
  match h with
  | None => Ok (None, r)
  | Some (v, n, o) => '(d, _, r) <- process_version fuel c n r b o ;; Ok (Some (v, d), r)
  end.
(** metadata.go:40-63; [None] is either error. *)
Definition ReadPortableRegistry (fuel : nat) (r : reg) (b : bytes) : res (option portable) :=
  let c := Ctx 0 "" None in
  h <- metadata_header fuel c r b ;;
  match h with
  | None => Ok None
  | Some (v, _, o) =>
      if v <? 14 then Ok None
      else '(x, _) <- read fuel c r b o "PortableRegistry" ;; l <- slice_val x ;; p <- InitPortableRaw (VSlice l) ;; Ok (Some p)
  end.

(** ** Definitions of source/base.go (BaseType) that describe metadata, as
    LoadTypeRegistry leaves them (source/source.go:19-46): an alias of another
    entry has been replaced by that entry (PortableRegistry names
    GenericPortableRegistry). *)
Definition def_alias (s : string) : tstruct := TStruct "string" s [] [] 0 false 0.
Definition def_struct (m : list (list string)) : tstruct := TStruct "struct" "" m [] 0 false 0.
Definition def_enum (m : list (list string)) (vl : list string) : tstruct := TStruct "enum" "" m vl 0 false 0.
Definition meta_definitions : list (string * tstruct) :=
  [
   ("Text", def_alias "String");
   ("PortableRegistry", def_alias "Vec<PortableType>");
   ("GenericPortableRegistry", def_alias "Vec<PortableType>");
   ("PortableType", def_struct [["id"; "SiLookupTypeId"]; ["type"; "SiType"]]);
   ("SiLookupTypeId", def_alias "Compact<u32>");
   ("SiType", def_struct [["path"; "SiPath"]; ["params"; "Vec<SiTypeParameter>"]; ["def"; "SiTypeDef"]; ["docs"; "Vec<Text>"]]);
   ("SiPath", def_alias "Vec<Text>");
   ("SiTypeParameter", def_struct [["name"; "Text"]; ["type"; "Option<SiLookupTypeId>"]]);
   ("SiTypeDef", def_enum [["Composite"; "SiTypeDefComposite"]; ["Variant"; "SiTypeDefVariant"]; ["Sequence"; "SiTypeDefSequence"]; ["Array"; "SiTypeDefArray"]; ["Tuple"; "SiTypeDefTuple"]; ["Primitive"; "SiTypeDefPrimitive"]; ["Compact"; "SiTypeDefCompact"]; ["BitSequence"; "SiTypeDefBitSequence"]; ["Range"; "SiTypeDefRange"]; ["HistoricMetaCompat"; "String"]] []);
   ("SiTypeDefComposite", def_struct [["fields"; "Vec<SiField>"]]);
   ("SiField", def_struct [["name"; "Option<Text>"]; ["type"; "SiLookupTypeId"]; ["typeName"; "Option<Text>"]; ["docs"; "Vec<Text>"]]);
   ("SiTypeDefVariant", def_struct [["variants"; "Vec<SiVariant>"]]);
   ("SiVariant", def_struct [["name"; "Text"]; ["fields"; "Vec<SiField>"]; ["index"; "u8"]; ["docs"; "Vec<Text>"]]);
   ("SiTypeDefSequence", def_struct [["type"; "SiLookupTypeId"]]);
   ("SiTypeDefArray", def_struct [["len"; "u32"]; ["type"; "SiLookupTypeId"]]);
   ("SiTypeDefTuple", def_alias "Vec<SiLookupTypeId>");
   ("SiTypeDefPrimitive", def_enum [] ["Bool"; "Char"; "Str"; "U8"; "U16"; "U32"; "U64"; "U128"; "U256"; "I8"; "I16"; "I32"; "I64"; "I128"; "I256"]);
   ("SiTypeDefCompact", def_struct [["type"; "SiLookupTypeId"]]);
   ("SiTypeDefBitSequence", def_struct [["bitStoreType"; "SiLookupTypeId"]; ["bitOrderType"; "SiLookupTypeId"]]);
   ("SiTypeDefRange", def_struct [["start"; "SiLookupTypeId"]; ["end"; "SiLookupTypeId"]; ["inclusive"; "bool"]]);
   ("MetadataVersion", def_enum [] ["MetadataV0Decoder"; "MetadataV1Decoder"; "MetadataV2Decoder"; "MetadataV3Decoder"; "MetadataV4Decoder"; "MetadataV5Decoder"; "MetadataV6Decoder"; "MetadataV7Decoder"; "MetadataV8Decoder"; "MetadataV9Decoder"; "MetadataV10Decoder"; "MetadataV11Decoder"; "MetadataV12Decoder"; "MetadataV13Decoder"; "MetadataV14Decoder"; "MetadataV15Decoder"]);
   ("ExtrinsicMetadata", def_struct [["version"; "u8"]; ["signedExtensions"; "Vec<Bytes>"]]);
   ("ExtrinsicMetadataV14", def_struct [["type"; "SiLookupTypeId"]; ["version"; "u8"]; ["signedExtensions"; "Vec<SignedExtensionMetadataV14>"]]);
   ("ExtrinsicMetadataV15", def_struct [["version"; "u8"]; ["addressType"; "SiLookupTypeId"]; ["callType"; "SiLookupTypeId"]; ["signatureType"; "SiLookupTypeId"]; ["extraType"; "SiLookupTypeId"]; ["signedExtensions"; "Vec<SignedExtensionMetadataV14>"]]);
   ("SignedExtensionMetadataV14", def_struct [["identifier"; "Text"]; ["type"; "SiLookupTypeId"]; ["additionalSigned"; "SiLookupTypeId"]]);
   ("StorageHasher", def_enum [] ["Blake2_128"; "Blake2_256"; "Blake2_128Concat"; "Twox128"; "Twox256"; "Twox64Concat"; "Identity"]);
   ("StorageModify", def_enum [] ["Optional"; "Default"]);
   ("StorageFunctionType", def_enum [] ["PlainType"; "MapType"; "DoubleMapType"; "NMap"]);
   ("StorageFunctionTypeV14", def_enum [] ["PlainType"; "Map"]);
   ("PalletCallMetadataV14", def_struct [["type"; "SiLookupTypeId"]]);
   ("PalletEventMetadataV14", def_struct [["type"; "SiLookupTypeId"]]);
   ("PalletErrorMetadataV14", def_struct [["type"; "SiLookupTypeId"]]);
   ("CustomValueMetadata15", def_struct [["type"; "SiLookupTypeId"]; ["value"; "Bytes"]]) ].
