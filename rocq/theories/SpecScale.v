(** Specification of SCALE: which byte strings encode which values, for every
    type string that the registry resolves.

    [scale st E c ts bs g cs]: in registry [E] and context [c], the bytes [bs]
    are the SCALE encoding of the value whose Go representation is [g], at type
    [ts]; [cs] are the hex texts of the calls nested in it.  The relation is
    inductive over the value, so recursive types need no special treatment.

    [st = true] (strict) restricts it to what Encode supports: decode-only
    types are left out, and so are the values for which Encode is known to
    deviate (the [st = true -> _] premises). *)

From Verif Require Import GoBase SpecNum ModelTools ModelVal ModelJson ModelRegistry ModelDecode.

(** ** Compact integers, canonical form *)

(** Number of bytes of a positive number. *)
Definition byte_count (n : Z) : Z := Z.log2 n / 8 + 1.
Definition compact (n : Z) : bytes :=
  if n <? 2 ^ 6 then le_bytes 1 (4 * n)
  else if n <? 2 ^ 14 then le_bytes 2 (4 * n + 1)
  else if n <? 2 ^ 30 then le_bytes 4 (4 * n + 2)
  else Zb (4 * (byte_count n - 4) + 3) :: le_bytes (Z.to_nat (byte_count n)) n.

(** The length prefix of a sequence. *)
Definition len_of {A} (l : list A) : bytes := compact (Z.of_nat (List.length l)).

(** ** Text of a byte string: itself when printable, else 0x and hex. *)
Definition printable (c : ascii) : bool :=
  let z := bZ c in (z =? 9) || (z =? 10) || (z =? 13) || ((32 <=? z) && (z <=? 127)).
Definition text_of (b : bytes) : string :=
  if forallb printable b then b2s b else "0x" ++ hex_encode b.
(** Printable bytes that would be read back as hex text. *)
Definition looks_hex (b : bytes) : Prop := forallb printable b = true /\ has_prefix (b2s b) "0x" = true.

(** ** Resolution of a type string *)
Definition resolves (E : env) (c : ctx) (ts : string) (cd : codec) : Prop :=
  exists cd0 sub, GetCodecClass E (x_module c) ts (x_spec c) = Ok (Some (cd0, sub)) /\ init_sub cd0 sub = cd.

(** The built-in names the decoders use internally are the built-in ones. *)
Definition std_env (E : env) : Prop :=
  forall k cd, In (k, cd) [("compact<u32>", CCompactU32); ("u8", CU8); ("null", CNull)] ->
    assoc k (e_reg E) = Some cd /\ assoc k (e_special E) = None.

(** A compact integer over an unsigned type: its range and representation. *)
Definition compact_repr (cd : codec) (z : Z) : option val :=
  match cd with
  | CU32 => if z <? 2 ^ 32 then Some (VU64 z) else None
  | CU64 => if z <? 2 ^ 64 then Some (VU64 z) else None
  | CU128 => if z <? 2 ^ 128 then Some (VDec z 0) else None
  | CBalance => if z <? 2 ^ 128 - 1 then Some (VDec z 0) else None
  | _ => None
  end.

Definition nil_like (g : val) : Prop := g = VNil \/ g = VStr "" \/ g = VNilSlice \/ g = VStrs None.

(** No earlier name equals the one at position i. *)
Definition first_at (names : list string) (i : nat) : Prop :=
  forall k n, (k < i)%nat -> nth_error names k = Some n -> nth_error names i <> Some n.

(** Struct variants of an enum: a JSON list of [name, type] rows. *)
Definition row_ok (r : list string) : Prop := exists n t rest, r = n :: t :: rest.
Definition row_name (r : list string) : string := nth 0 r "".
Definition row_type (r : list string) : string := nth 1 r "".

(** Alternating keys and values, as one-entry maps (BTreeMap.go:21-24). *)
Inductive entries (E : env) : list val -> list val -> Prop :=
| en_nil : entries E [] []
| en_cons k v gs ps : entries E gs ps -> entries E (k :: v :: gs) (VMap [(ToString E k, v)] :: ps).

(** ** Text forms *)
(** UTF-8 (RFC 3629): the bytes of a code point. *)
Definition scalar (c : Z) : Prop := 0 <= c < 0xd800 \/ 0xe000 <= c < 0x110000.
Definition utf8_char (c : Z) : bytes :=
  map Zb (if c <? 0x80 then [c]
          else if c <? 0x800 then [0xc0 + c / 64; 0x80 + c mod 64]
          else if c <? 0x10000 then [0xe0 + c / 4096; 0x80 + c / 64 mod 64; 0x80 + c mod 64]
          else [0xf0 + c / 262144; 0x80 + c / 4096 mod 64; 0x80 + c / 64 mod 64; 0x80 + c mod 64]).
Definition utf8 (b : bytes) : Prop := exists l, Forall scalar l /\ b = List.concat (map utf8_char l).

(** Bytes of the identity pallet: text as it is, other bytes as hex. *)
Inductive shown : bytes -> string -> Prop :=
| shown_text b : utf8 b -> shown b (b2s b)
| shown_hex b : ~ utf8 b -> shown b (hex_encode b).
Definition hash_names : list (Z * string) := [(34, "BlakeTwo256"); (35, "Sha256"); (36, "Keccak256"); (37, "ShaThree256")].

(** Whole bytes as binary text, most significant bit first. *)
Definition byte_bits (x : ascii) : string :=
  b2s (map (fun i => if Z.testbit (bZ x) i then "1"%char else "0"%char) [7; 6; 5; 4; 3; 2; 1; 0]).
Fixpoint underscored (l : list string) : string :=
  match l with [] => "" | [s] => s | s :: r => s ++ String "_" (underscored r) end.
Definition bits_text (b : bytes) : string := "0b" ++ underscored (map byte_bits b).

(** The flags of an integer, by the position of their bit. *)
Fixpoint flags (z : Z) (i : Z) (names : list string) : list string :=
  match names with
  | [] => []
  | n :: r => if Z.testbit z i then n :: flags z (i + 1) r else flags z (i + 1) r
  end.
Definition flag_width (bits : Z) (cd : codec) : Prop := In (bits, cd) [(16, CU16); (32, CU32); (64, CU64)].

(** ** Records of runtime metadata: the types on the wire in order, their
    values, and the record (by its JSON names) they make up.  Optional parts
    are announced by a bool. *)
Definition texts (l : list string) : val := slice_of (map VStr l).
Definition records (l : list (list (string * val))) : val := slice_of (map VMap l).
Definition opt_types {A} (o : option A) (t : string) : list string := "bool" :: match o with Some _ => [t] | None => [] end.
Definition opt_vals {A} (of : A -> val) (o : option A) : list val :=
  VBool (match o with Some _ => true | None => false end) :: match o with Some a => [of a] | None => [] end.
Definition strings_val (l : list string) : val := VStrs (match l with [] => None | _ => Some l end).
(** A call's argument: a name and a type, whose text is simplified. *)
Definition arg_rec (a : string * string) : list (string * val) := [("name", VStr (fst a)); ("type", VStr (snd a))].
(** The storage of a pallet: prefix and entries. *)
Definition store_rec (s : string * list (list (string * val))) : val := VMap [("prefix", VStr (fst s)); ("items", records (snd s))].
Definition store_prefix (o : option (string * list (list (string * val)))) : val := VStr (match o with Some s => fst s | None => "" end).
Definition store_items (o : option (string * list (list (string * val)))) : val := match o with Some s => records (snd s) | None => VNilSlice end.
(** How an entry is stored, before V14. *)
Inductive store_layout (nmap : bool) : string -> list string -> list val -> list (string * val) -> Prop :=
| sl_plain t : store_layout nmap "PlainType" ["String"] [VStr t] [("origin", VStr "PlainType"); ("plain_type", VStr (ConvertType t))]
| sl_map h k v b : store_layout nmap "MapType" ["StorageHasher"; "String"; "String"; "bool"] [VStr h; VStr k; VStr v; VBool b]
    [("origin", VStr "MapType");
     ("map_type", VMap [("hasher", VStr h); ("key", VStr (ConvertType k)); ("value", VStr (ConvertType v)); ("isLinked", VBool b)])]
| sl_double h k1 k2 v h2 : store_layout nmap "DoubleMapType" ["StorageHasher"; "String"; "String"; "String"; "StorageHasher"]
    [VStr h; VStr k1; VStr k2; VStr v; VStr h2]
    [("origin", VStr "DoubleMapType");
     ("double_map_type", VMap [("hasher", VStr h); ("key", VStr (ConvertType k1)); ("key2", VStr (ConvertType k2)); ("value", VStr (ConvertType v));
                               ("key2Hasher", VStr h2)])]
| sl_nmap ks hs v : nmap = true -> store_layout nmap "NMap" ["Vec<String>"; "Vec<StorageHasher>"; "String"] [texts ks; texts hs; VStr v]
    [("origin", VStr "NMapType");
     ("n_map_type", VMap [("hashers", strings_val (map ConvertType hs)); ("key_vec", strings_val (map ConvertType ks)); ("value", VStr (ConvertType v))])].
(** And from V14 on. *)
Inductive store_layout14 : string -> list string -> list val -> list (string * val) -> Prop :=
| sl_plain14 t : store_layout14 "PlainType" ["SiLookupTypeId"] [VInt t] [("origin", VStr "PlainType"); ("PlainTypeValue", VInt t)]
| sl_map14 hs k v : store_layout14 "Map" ["Vec<StorageHasher>"; "SiLookupTypeId"; "SiLookupTypeId"] [texts hs; VInt k; VInt v]
    [("origin", VStr "Map"); ("n_map_type", VMap [("hashers", strings_val hs); ("keys_id", VInt k); ("value_id", VInt v)])].
(** The modules of metadata V8 to V13 ([storage] is the type of their storage,
    [empty] what an empty list of calls or events is) and V14. *)
Definition items_val (empty : val) (o : option (list (list (string * val)))) : val :=
  match o with None => VNilSlice | Some [] => empty | Some l => records l end.
Definition module_types {A B C} (storage : string) (st : option A) (cs : option B) (es : option C) : list string :=
  ("String" :: opt_types st storage ++ opt_types cs "Vec<MetadataModuleCall>" ++ opt_types es "Vec<MetadataModuleEvent>" ++
  ["Vec<MetadataV7ModuleConstants>"; "Vec<MetadataModuleError>"])%list.
Definition module_vals (n : string) st cs es ks xs : list val :=
  (VStr n :: opt_vals store_rec st ++ opt_vals records cs ++ opt_vals records es ++ [records ks; records xs])%list.
Definition module_rec (empty : val) (n : string) st cs es ks xs : list (string * val) :=
  [("name", VStr n); ("prefix", store_prefix st); ("storage", store_items st); ("calls", items_val empty cs);
   ("events", items_val empty es); ("constants", records ks); ("errors", records xs)].
Definition module14_types {A B C D} (st : option A) (cs : option B) (es : option C) (xs : option D) : list string :=
  ("String" :: opt_types st "MetadataV14ModuleStorage" ++ opt_types cs "PalletCallMetadataV14" ++ opt_types es "PalletEventMetadataV14" ++
  "Vec<PalletConstantMetadataV14>" :: opt_types xs "PalletErrorMetadataV14" ++ ["U8"])%list.
Definition module14_vals (n : string) st cs es ks xs (i : Z) : list val :=
  (VStr n :: opt_vals store_rec st ++ opt_vals VMap cs ++ opt_vals VMap es ++ records ks :: opt_vals VMap xs ++ [VInt i])%list.
Definition lookup_val (o : option (list (string * val))) : val := match o with Some m => VMap m | None => VNil end.
Definition module14_rec (n : string) st cs es ks xs (i : Z) : list (string * val) :=
  [("name", VStr n); ("prefix", store_prefix st); ("storage", store_items st); ("calls_value", lookup_val cs); ("events_value", lookup_val es);
   ("constants", records ks); ("errors_value", lookup_val xs); ("index", VInt i)].

Inductive meta_layout : string -> list string -> list val -> list (string * val) -> Prop :=
| ml_event n args docs : meta_layout "MetadataModuleEvent" ["String"; "Vec<String>"; "Vec<String>"] [VStr n; texts args; texts docs]
    [("name", VStr n); ("args", strings_val args); ("docs", strings_val docs)]
| ml_argument n t : meta_layout "MetadataModuleCallArgument" ["String"; "String"] [VStr n; VStr t] (arg_rec (n, ConvertType t))
| ml_call n args docs : meta_layout "MetadataModuleCall" ["String"; "Vec<MetadataModuleCallArgument>"; "Vec<String>"]
    [VStr n; records (map arg_rec args); texts docs] [("name", VStr n); ("args", records (map arg_rec args)); ("docs", strings_val docs)]
| ml_error n docs : meta_layout "MetadataModuleError" ["String"; "Vec<String>"] [VStr n; texts docs] [("name", VStr n); ("doc", strings_val docs)]
| ml_constant n t v docs : meta_layout "MetadataV7ModuleConstants" ["String"; "String"; "HexBytes"; "Vec<String>"] [VStr n; VStr t; VStr v; texts docs]
    [("name", VStr n); ("type", VStr (ConvertType t)); ("constants_value", VStr v); ("docs", strings_val docs)]
| ml_entry name nmap n m kind ts gs r f docs : In (name, nmap) [("MetadataV7ModuleStorageEntry", false); ("MetadataV13ModuleStorageEntry", true)] ->
    store_layout nmap kind ts gs r ->
    meta_layout name (["String"; "StorageModify"; "StorageFunctionType"] ++ ts ++ ["HexBytes"; "Vec<String>"])%list
      ([VStr n; VStr m; VStr kind] ++ gs ++ [VStr f; texts docs])%list
      [("name", VStr n); ("modifier", VStr m); ("type", VMap r); ("fallback", VStr f); ("docs", strings_val docs)]
| ml_entry14 n m kind ts gs r f docs : store_layout14 kind ts gs r ->
    meta_layout "MetadataV14ModuleStorageEntry" (["String"; "StorageModify"; "StorageFunctionTypeV14"] ++ ts ++ ["HexBytes"; "Vec<String>"])%list
      ([VStr n; VStr m; VStr kind] ++ gs ++ [VStr f; texts docs])%list
      [("name", VStr n); ("modifier", VStr m); ("type", VMap r); ("fallback", VStr f); ("docs", strings_val docs)]
| ml_storage name p items : In name ["MetadataV7ModuleStorage"; "MetadataV13ModuleStorage"; "MetadataV14ModuleStorage"] ->
    meta_layout name ["String"; "Vec<" ++ name ++ "Entry>"] [VStr p; records items] [("prefix", VStr p); ("items", records items)]
| ml_module8 n st cs es ks xs :
    meta_layout "MetadataV8Module" (module_types "MetadataV7ModuleStorage" st cs es) (module_vals n st cs es ks xs) (module_rec (VSlice []) n st cs es ks xs)
| ml_module name storage n st cs es ks xs i : In (name, storage) [("MetadataV12Module", "MetadataV7ModuleStorage"); ("MetadataV13Module", "MetadataV13ModuleStorage")] ->
    meta_layout name (module_types storage st cs es ++ ["U8"])%list (module_vals n st cs es ks xs ++ [VInt i])%list
      (module_rec VNilSlice n st cs es ks xs ++ [("index", VInt i)])%list
| ml_constant14 n t b docs : meta_layout "PalletConstantMetadataV14" ["String"; "SiLookupTypeId"; "HexBytes"; "Vec<String>"]
    [VStr n; VInt t; VStr ("0x" ++ hex_encode b); texts docs]
    [("name", VStr n); ("type_value", VInt t); ("constants_value", VStr (hex_encode b)); ("docs", strings_val docs)]
| ml_module14 n st cs es ks xs i :
    meta_layout "MetadataV14Module" (module14_types st cs es xs) (module14_vals n st cs es ks xs i) (module14_rec n st cs es ks xs i)
| ml_module15 n st cs es ks xs i docs :
    meta_layout "MetadataV15Module" (module14_types st cs es xs ++ ["Vec<Text>"])%list (module14_vals n st cs es ks xs i ++ [texts docs])%list
      (module14_rec n st cs es ks xs i ++ [("docs", strings_val docs)])%list
| ml_api n ms docs : meta_layout "RuntimeApiMetadataV15" ["Text"; "Vec<RuntimeApiMethodMetadataV15>"; "Vec<Text>"] [VStr n; records ms; texts docs]
    [("name", VStr n); ("methods", records ms); ("docs", strings_val docs)]
| ml_method n ps t docs : meta_layout "RuntimeApiMethodMetadataV15" ["Text"; "Vec<RuntimeApiMethodParamMetadataV15>"; "SiLookupTypeId"; "Vec<Text>"]
    [VStr n; records ps; VInt t; texts docs] [("name", VStr n); ("inputs", records ps); ("outputsId", VInt t); ("docs", strings_val docs)]
| ml_param n t : meta_layout "RuntimeApiMethodParamMetadataV15" ["Text"; "SiLookupTypeId"] [VStr n; VInt t] [("name", VStr n); ("typeId", VInt t)]
| ml_outer a b e : meta_layout "OuterEnumsMetadataV15" ["SiLookupTypeId"; "SiLookupTypeId"; "SiLookupTypeId"] [VInt a; VInt b; VInt e]
    [("callType", VInt a); ("eventType", VInt b); ("errorType", VInt e)]
| ml_custom l : meta_layout "CustomMetadataV15" ["BTreeMap<Text, CustomValueMetadata15>"] [records l] [("map", records l)].

Section Scale.
Variable st : bool.
Variable E : env.

Inductive scale : ctx -> string -> bytes -> val -> list string -> Prop :=
| sc_type c ts cd bs g cs : resolves E c ts cd -> (st = true -> cd = CNull -> equal_fold ts "Null" = true) ->
    scale_at c cd bs g cs -> scale c ts bs g cs

with scale_at : ctx -> codec -> bytes -> val -> list string -> Prop :=
(* fixed-width values *)
| sc_null c : scale_at c CNull [] VNil []
| sc_empty c : scale_at c CEmpty [] (VStr "NULL") []
| sc_bool c b : scale_at c CBool [if b : bool then Zb 1 else Zb 0] (VBool b) []
| sc_u8 c z : 0 <= z < 2 ^ 8 -> scale_at c CU8 (le_bytes 1 z) (VInt z) []
| sc_u16 c z : 0 <= z < 2 ^ 16 -> scale_at c CU16 (le_bytes 2 z) (VU16 z) []
| sc_u32 c z : 0 <= z < 2 ^ 32 -> scale_at c CU32 (le_bytes 4 z) (VU32 z) []
| sc_u64 c z : 0 <= z < 2 ^ 64 -> scale_at c CU64 (le_bytes 8 z) (VU64 z) []
| sc_u128 c z s : 0 <= z < 2 ^ 128 -> is_numeral s z -> scale_at c CU128 (le_bytes 16 z) (VStr s) []
| sc_u256 c z : 0 <= z < 2 ^ 256 -> scale_at c CU256 (le_bytes 32 z) (VDec z 0) []
| sc_balance c z : 0 <= z < 2 ^ 128 - 1 -> scale_at c CBalance (le_bytes 16 z) (VDec z 0) []
| sc_moment c z : 0 <= z <= 10000000000 -> scale_at c CMoment (le_bytes 8 z) (VU64 z) []
| sc_int c n z : st = false -> In n [2; 4; 8; 16; 32] -> - 2 ^ (8 * n - 1) < z < 2 ^ (8 * n - 1) ->
    scale_at c (CIntFixed n) (le_bytes (Z.to_nat n) z) (VBig z) []
| sc_h160 c b : List.length b = 20%nat -> scale_at c CH160 b (VStr ("0x" ++ hex_encode b)) []
| sc_h256 c b : List.length b = 32%nat -> scale_at c CH256 b (VStr ("0x" ++ hex_encode b)) []
| sc_h512 c b : List.length b = 64%nat -> scale_at c CH512 b (VStr ("0x" ++ hex_encode b)) []
| sc_account c b : List.length b = 32%nat -> scale_at c CAccountId b (VStr ("0x" ++ hex_encode b)) []
| sc_lock c b : st = false -> List.length b = 8%nat -> scale_at c CLockIdentifier b (VStr ("0x" ++ hex_encode b)) []
| sc_ecdsa c b : st = false -> List.length b = 65%nat -> scale_at c CEcdsaSignature b (VStr ("0x" ++ hex_encode b)) []
| sc_eth c b : List.length b = 20%nat -> (20 <= List.length (e_keccak E (s2b (hex_encode b))))%nat ->
    scale_at c CEthereumAddress b (VStr (EthEncode (e_keccak E) (hex_encode b))) []
| sc_era_immortal c : scale_at c CEra [Zb 0] (VStr "00") []
| sc_era_mortal c x y : x <> Zb 0 -> scale_at c CEra [x; y] (VStr (hex_encode [x; y])) []
| sc_address c b : st = false -> List.length b = 32%nat -> scale_at c CAddress (Zb 255 :: b) (VStr (hex_encode b)) []
| sc_fixed_u8 c n b : Z.of_nat (List.length b) = n -> n < 2 ^ 63 -> (st = true -> ~ looks_hex b) ->
    scale_at c (CFixedU8 n) b (VStr (text_of b)) []
| sc_array_u8 c n sub b : equal_fold sub "u8" = true -> Z.of_nat (List.length b) = n -> 0 < n < 2 ^ 63 ->
    (st = true -> ~ looks_hex b) -> scale_at c (CFixedArray n sub) b (VStr (text_of b)) []
(* compact integers *)
| sc_compact_u32 c z : 0 <= z < 2 ^ 63 -> (st = true -> z < 2 ^ 30) -> scale_at c CCompactU32 (compact z) (VInt z) []
| sc_compact_moment c z : 0 <= z <= 10000000000 -> (st = true -> z < 2 ^ 30) ->
    scale_at c CCompactMoment (compact z) (VInt z) []
| sc_compact c sub cd z g : sub <> "" -> resolves E (Ctx 0 "" None) sub cd -> 0 <= z -> compact_repr cd z = Some g ->
    (st = true -> z < 2 ^ 63) -> scale_at c (CCompact sub) (compact z) g []
(* byte strings *)
| sc_bytes c b : Z.of_nat (List.length b) < 2 ^ 32 -> (st = true -> Z.of_nat (List.length b) < 2 ^ 30 /\ ~ looks_hex b) ->
    scale_at c CBytes (len_of b ++ b) (VStr (text_of b)) []
| sc_string c b : Z.of_nat (List.length b) < 2 ^ 32 ->
    (st = true -> Z.of_nat (List.length b) < 2 ^ 30 /\ forallb printable b = true) ->
    scale_at c CString (len_of b ++ b) (VStr (text_of b)) []
| sc_hexbytes c b : Z.of_nat (List.length b) < 2 ^ 32 -> (st = true -> Z.of_nat (List.length b) < 2 ^ 30) ->
    scale_at c CHexBytes (len_of b ++ b) (VStr ("0x" ++ hex_encode b)) []
(* options *)
| sc_none c sub : sub <> "" -> scale_at c (COption sub) [Zb 0] VNil []
| sc_some c sub bs g cs : sub <> "" -> sub <> "bool" -> scale c sub bs g cs -> (st = true -> ~ nil_like g) ->
    scale_at c (COption sub) (Zb 1 :: bs) g cs
| sc_some_bool c b : scale_at c (COption "bool") [if b : bool then Zb 1 else Zb 2] (VBool b) []
(* sequences *)
| sc_vec c sub n bs gs cs : scales c (repeat sub n) bs gs cs -> Z.of_nat n <= 512 * 1024 ->
    scale_at c (CVec sub) (compact (Z.of_nat n) ++ bs) (slice_of gs) cs
| sc_array c n sub bs gs cs : equal_fold sub "u8" = false -> 0 < n < 2 ^ 63 ->
    scales c (repeat sub (Z.to_nat n)) bs gs cs -> scale_at c (CFixedArray n sub) bs (slice_of gs) cs
| sc_struct c tm bs gs cs : scales c (map snd tm) bs gs cs -> NoDup (map fst tm) ->
    scale_at c (CStruct (Some tm)) bs (VMap (combine (map fst tm) gs)) cs
| sc_struct_none c : scale_at c (CStruct None) [] (VMap []) []
| sc_map c sub tk tv n bs gs cs ps : st = false -> split_char ","%char sub = [tk; tv] -> Z.of_nat n <= 1000 ->
    scales c (List.concat (repeat [tk; tv] n)) bs gs cs -> entries E gs ps ->
    scale_at c (CBTreeMap sub) (compact (Z.of_nat n) ++ bs) (slice_of ps) cs
(* variants *)
| sc_value_list c vl i s : 0 <= i < 256 -> nth_error vl (Z.to_nat i) = Some s -> s <> "" ->
    (st = true -> first_at vl (Z.to_nat i)) ->
    scale_at c (CEnum None vl) [Zb i] (VStr s) []
| sc_c_like c tm vl i name t : c_like tm = true -> In (name, t) tm -> StringToInt t = i -> 0 <= i < 256 ->
    (forall n' t', In (n', t') tm -> StringToInt t' = i -> n' = name) ->
    (st = true -> forall t', In (name, t') tm -> t' = t) ->
    scale_at c (CEnum (Some tm) vl) [Zb i] (VStr name) []
| sc_variant c tm vl i name sub bs g cs : c_like tm = false -> 0 <= i < 256 ->
    nth_error tm (Z.to_nat i) = Some (name, sub) -> sub <> "" -> struct_variant sub = None ->
    scale c sub bs g cs -> (st = true -> first_at (map fst tm) (Z.to_nat i)) ->
    scale_at c (CEnum (Some tm) vl) (Zb i :: bs) (VMap [(name, g)]) cs
| sc_struct_variant c tm vl i name sub rows bs gs cs : c_like tm = false -> 0 <= i < 256 ->
    nth_error tm (Z.to_nat i) = Some (name, sub) -> sub <> "" -> struct_variant sub = Some rows ->
    Forall row_ok rows -> NoDup (map row_name rows) -> scales c (map row_type rows) bs gs cs ->
    (st = true -> first_at (map fst tm) (Z.to_nat i)) ->
    scale_at c (CEnum (Some tm) vl) (Zb i :: bs) (VMap [(name, VMap (combine (map row_name rows) gs))]) cs
| sc_ok c sub t_ok t_err bs g cs : split_char ","%char sub = [t_ok; t_err] -> scale c t_ok bs g cs ->
    scale_at c (CResult sub) (Zb 0 :: bs) (VMap [("Ok", g)]) cs
| sc_err c sub t_ok t_err bs g cs : split_char ","%char sub = [t_ok; t_err] -> scale c t_err bs g cs ->
    scale_at c (CResult sub) (Zb 1 :: bs) (VMap [("Error", g)]) cs
| sc_digest c i t bs g cs : st = false -> 0 <= i < 256 -> nth_error log_digest_list (Z.to_nat i) = Some t ->
    scale c t bs g cs -> scale_at c CLogDigest (Zb i :: bs) (VMap [("type", VStr t); ("value", g)]) cs
(* wrappers *)
| sc_box c sub bs g cs : st = false -> scale c sub bs g cs -> scale_at c (CBox sub) bs g cs
| sc_opaque c sub bs g cs : st = false -> Z.of_nat (List.length bs) < 2 ^ 32 -> scale c sub bs g cs ->
    scale_at c (CWrapperOpaque sub) (len_of bs ++ bs) g cs
| sc_range c sub t1 t2 b1 b2 g1 g2 cs1 cs2 : st = false -> split_char ","%char sub = [t1; t2] ->
    scale c t1 b1 g1 cs1 -> scale c t2 b2 g2 cs2 ->
    scale_at c (CRange sub) (b1 ++ b2) (VMap [("start", g1); ("end", g2)]) (cs1 ++ cs2)
| sc_range1 c sub b1 b2 g1 g2 cs1 cs2 : st = false -> split_char ","%char sub = [sub] ->
    scale c sub b1 g1 cs1 -> scale c sub b2 g2 cs2 ->
    scale_at c (CRange sub) (b1 ++ b2) (VMap [("start", g1); ("end", g2)]) (cs1 ++ cs2)
(* calls: pallet and call index, then the arguments in the pallet's module *)
| sc_call c md i j cm bs gs cs : st = false -> x_meta c = Some md -> assoc (hex_encode [i; j]) md = Some cm ->
    scales (Ctx (x_spec c) (cm_module cm) (x_meta c)) (map snd (cm_args cm)) bs gs cs ->
    scale_at c CCall (i :: j :: bs)
      (VMap [("call_index", VStr (hex_encode [i; j])); ("call_name", VStr (cm_name cm));
             ("call_module", VStr (cm_module cm)); ("params", VParams (combine (cm_args cm) gs))])
      (cs ++ [hex_encode (i :: j :: bs)])
| sc_opaque_call c bs g cs : st = false -> forallb printable bs = false -> Z.of_nat (List.length bs) < 2 ^ 32 ->
    scale (Ctx (x_spec c) "" (x_meta c)) "Call" bs g cs ->
    scale_at c COpaqueCall (len_of bs ++ bs) g cs
(* flags, bit vectors, old account addresses, identity data *)
| sc_set c vl bits cd z : st = false -> flag_width bits cd -> resolves E c ("U" ++ itoa bits) cd -> 0 <= z < 2 ^ bits -> z < 2 ^ 63 ->
    scale_at c (CSet vl bits) (le_bytes (Z.to_nat (bits / 8)) z) (strings_val (flags z 0 vl)) []
| sc_bitvec c n b : st = false -> 0 <= n < 2 ^ 53 -> Z.of_nat (List.length b) = (n + 7) / 8 ->
    scale_at c CBitVec (compact n ++ b) (VStr (bits_text b)) []
| sc_generic_address c b : st = false -> List.length b = 32%nat -> scale_at c CGenericAddress (Zb 255 :: b) (VStr (hex_encode b)) []
| sc_data_none c : scale_at c CData [Zb 0] (VMap [("None", VNil)]) []
| sc_data_raw c b s n : Z.of_nat (List.length b) = n -> n <= 32 -> shown b s -> (st = true -> utf8 b \/ n = 1) ->
    scale_at c CData (Zb (n + 1) :: b) (VMap [("Raw" ++ itoa n, VStr s)]) []
| sc_data_hash c i n b : In (i, n) hash_names -> List.length b = 32%nat -> resolves E c "H256" CH256 ->
    (st = true -> resolves E (Ctx (-1) "" None) "H256" CH256) ->
    scale_at c CData (Zb i :: b) (VMap [(n, VStr ("0x" ++ hex_encode b))]) []
(* records of runtime metadata *)
| sc_meta c name ts bs gs cs m : st = false -> scales c ts bs gs cs -> meta_layout name ts gs m -> scale_at c (COpaque name) bs (VMap m) cs

with scales : ctx -> list string -> bytes -> list val -> list string -> Prop :=
| ss_nil c : scales c [] [] [] []
| ss_cons c t ts b bs g gs cs1 cs2 : scale c t b g cs1 -> scales c ts bs gs cs2 ->
    scales c (t :: ts) (b ++ bs) (g :: gs) (cs1 ++ cs2).
End Scale.

Scheme scale_ind2 := Minimality for scale Sort Prop
with scale_at_ind2 := Minimality for scale_at Sort Prop
with scales_ind2 := Minimality for scales Sort Prop.
Combined Scheme scale_mutind from scale_ind2, scale_at_ind2, scales_ind2.

