(** Decoding: ScaleDecoder.ProcessAndUpdateData (types/base.go) and the Process
    method of every decoder (types/*.go). *)

From Verif Require Import GoBase SpecNum ModelTools ModelUint128 ModelJson ModelVal ModelRegistry ModelFixPoint.

(** ** Metadata as seen by the codec: the call table (types/metadata.go,
    MetadataStruct.CallIndex).  A missing key reads as the zero value. *)
Record callmod := CallMod { cm_module : string; cm_name : string; cm_args : list (string * string) }.
Definition metadata := list (string * callmod).
Definition zero_call : callmod := CallMod "" "" [].

(** The fields of ScaleDecoder that flow into nested decodes (base.go:173). *)
Record ctx := Ctx { x_spec : Z; x_module : string; x_meta : option metadata }.

(** ** Decoder programs.
    A Process method is a sequence of the following steps; each continuation
    receives the step's result.  The interpreter [run] below gives them their
    meaning on the decoder's cursor.

    - [Next n k]: NextBytes(n); [n] is a Go int, so it is taken modulo 2^64;
    - [Sub c ts k]: ProcessAndUpdateData(ts) with context [c];
    - [Other b c keep ts k]: a fresh ScaleDecoder over the bytes [b] decodes
      [ts]; its InternalCall list is kept or dropped;
    - [Whole k]: direct access to the whole buffer Data.Data;
    - [LogSpan k]: append the hex of the bytes consumed since Process started
      to InternalCall (Call.go:29). *)
Inductive prog : Type :=
| Ret (v : val)
| Fail (m : string)
| Next (n : Z) (k : bytes -> prog)
| Sub (c : ctx) (ts : string) (k : val -> prog)
| Other (b : bytes) (c : ctx) (keep : bool) (ts : string) (k : val -> prog)
| Whole (k : bytes -> prog)
| LogSpan (k : prog).

(** A decode's outcome: the value, the new offset, the internal calls. *)
Definition outcome := res (val * Z * list string).
Definition decoder := ctx -> bytes -> Z -> string -> outcome.

(** [rec] decodes nested types; [start] is the offset at which Process began. *)
Fixpoint run (rec : decoder) (start : Z) (p : prog) (data : bytes) (off : Z) (calls : list string) : outcome :=
  match p with
  | Ret v => Ok (v, off, calls)
  | Fail m => Panic m
  | Next n k =>
      '(d, off') <- next_bytes data off (i64 n) ;;
      run rec start (k d) data off' calls
  | Sub c ts k =>
      '(v, off', cs) <- rec c data off ts ;;
      run rec start (k v) data off' (calls ++ cs)%list
  | Other b c keep ts k =>
      '(v, _, cs) <- rec c b 0 ts ;;
      run rec start (k v) data off (if keep then calls ++ cs else calls)%list
  | Whole k => run rec start (k data) data off calls
  | LogSpan k =>
      raw <- slice data start off ;;
      run rec start k data off (calls ++ [BytesToHex raw])%list
  end.

(** ** Building blocks *)

Notation "x <~ 'next' n ; k" := (Next n (fun x => k)) (at level 61, n at level 59, right associativity).
Notation "x <~ 'sub' c , ts ; k" := (Sub c ts (fun x => k)) (at level 61, c at level 59, ts at level 59, right associativity).

(** base.go:116-122: 0 at the end of the buffer. *)
Definition head_u8 (b : bytes) : Z := match b with [] => 0 | c :: _ => bZ c end.

(** A type assertion x.(int). *)
Definition as_int (v : val) (k : Z -> prog) : prog :=
  match v with VInt n => k n | _ => Fail "interface conversion: interface {} is not int" end.

(** ProcessAndUpdateData("Compact<u32>").(int) *)
Definition compact_u32 (c : ctx) (k : Z -> prog) : prog :=
  v <~ sub c, "Compact<u32>" ; as_int v k.

(** [n] successive ProcessAndUpdateData(ts), results in order. *)
Fixpoint repeat_sub (c : ctx) (ts : string) (n : nat) (acc : list val) (k : list val -> prog) : prog :=
  match n with
  | O => k (rev acc)
  | S n' => v <~ sub c, ts ; repeat_sub c ts n' (v :: acc) k
  end.
(** Go appends to a nil slice: no element leaves it nil. *)
Definition slice_of (l : list val) : val := match l with [] => VNilSlice | _ => VSlice l end.

(** result[name] = ProcessAndUpdateData(type) for each field in turn. *)
Fixpoint fields_sub (c : ctx) (tm : typemap) (acc : list (string * val)) (k : list (string * val) -> prog) : prog :=
  match tm with
  | [] => k acc
  | (n, t) :: r => v <~ sub c, t ; fields_sub c r (map_set n v acc) k
  end.

(** The same for the rows of a struct variant (Enum.go:61-64); a row with
    fewer than two cells is an index panic when it is reached. *)
Fixpoint rows_sub (c : ctx) (rows : list (list string)) (acc : list (string * val)) (k : list (string * val) -> prog) : prog :=
  match rows with
  | [] => k acc
  | (n :: t :: _) :: r => v <~ sub c, t ; rows_sub c r (map_set n v acc) k
  | _ => Fail "runtime error: index out of range"
  end.

(** binary.LittleEndian.UintN of a zeroed n-byte buffer filled from [b]. *)
Definition le_uint (n : nat) (b : bytes) : Z := le_val (firstn n (b ++ repeat "000"%char n)).

(** IsASCII ? string(b) : AddHex(BytesToHex(b)) *)
Definition ascii_or_hex (b : bytes) : string :=
  if IsASCII b then b2s b else AddHex (BytesToHex b).

(** regexp [^[0-9]+$] on every type (Enum.go:39-45). *)
Definition numeric (s : string) : bool := negb (String.eqb s "") && all_digits s.
Definition c_like (tm : typemap) : bool := forallb (fun p => numeric (snd p)) tm.
(** Enum.go:47-51: last registration of an index wins; "" when absent. *)
Definition c_like_value (tm : typemap) (i : Z) : string :=
  fold_left (fun acc p => if StringToInt (snd p) =? i then fst p else acc) tm "".

Definition nth_z {A} (l : list A) (i : Z) : option A := if i <? 0 then None else nth_error l (Z.to_nat i).

(** utiles/crypto/ethereum/encode.go:10-28, for ASCII text (a byte >= 128
    would be re-encoded as two bytes by Go). *)
Definition hex_nibble (c : ascii) : Z := match hex_val c with Some d => d | None => 0 end.
Fixpoint checksum (addr hash : string) (n : nat) : string :=
  match n, addr, hash with
  | S n', String a addr', String h hash' =>
      String (if 7 <? hex_nibble h then upper_char a else a) (checksum addr' hash' n')
  | _, _, _ => ""
  end.
Definition EthEncode (keccak : bytes -> bytes) (address : string) : string :=
  if Nat.eqb (List.length (HexToBytes address)) 20 then
    let a := TrimHex address in
    AddHex (checksum a (BytesToHex (keccak (s2b a))) 40)
  else "".

(** utiles/tools.go:81-93 *)
Definition ToString (E : env) (v : val) : string :=
  match v with
  | VStr s => s
  | VBytes b => b2s b
  | _ => e_json E v
  end.

(** types.go:498-499 "%08b" of a byte. *)
Definition bits8 (c : ascii) : string := right_justify0 (bin_digits (bZ c)) 8.

(** ** Compact.go:20-40.  The continuation gets CompactLength and
    CompactBytes. *)
Definition compact_bytes (k : Z -> bytes -> prog) : prog :=
  b <~ next 1 ;
  match (match b with [] => 0 | c :: _ => bZ c mod 4 end) with
  | 0 => k 1 b
  | 1 => r <~ next 1 ; k 2 (b ++ r)%list
  | 2 => r <~ next 3 ; k 4 (b ++ r)%list
  | _ => let n := 5 + (head_u8 b - 3) / 4 in
         r <~ next (n - 1) ; k n r
  end.

(** Compact.go:54-69 *)
Definition compact_value (len : Z) (v : val) : prog :=
  let d := if len <=? 4 then 4 else 1 in
  match v with
  | VU64 z | VU32 z | VU16 z => Ret (VU64 (z / d))
  | VInt z => Ret (VU64 (u64 z / d))
  | VDec c e => let '(c', e') := dec_div_floor c e d in Ret (VDec c' e')
  | VStr s =>
      match dec_of_string s with
      | Some (c, e) => let '(c', e') := dec_div_floor c e d in Ret (VDec c' e')
      | None => Fail "can't convert to decimal"
      end
  | v => Ret v
  end.

(** Compact.go:131-143: eight bytes are read into an int. *)
Definition compact_u32_int (len : Z) (b : bytes) : Z :=
  let v := i64 (le_uint 8 b) in
  if len <=? 4 then Z.quot v 4 else v.

(** types.go:215 *)
Definition log_digest_list : list string :=
  ["Other"; "AuthoritiesChange"; "ChangesTrieRoot"; "SealV0"; "Consensus"; "Seal"; "PreRuntime";
   "ChangesTrieSignal"; "RuntimeEnvironmentUpdated"].
(** types.go:343-346 *)
Definition data_names : list string := ["None"; "Raw"; "BlakeTwo256"; "Sha256"; "Keccak256"; "ShaThree256"].
Definition data_types : list string := ["Null"; "String"; "H256"; "H256"; "H256"; "H256"].

(** Enum.go:32-75 *)
Definition process_enum (c : ctx) (tm : option typemap) (vl : list string) : prog :=
  b <~ next 1 ;
  let i := head_u8 b in
  let value_list :=
    match nth_z vl i with
    | None => Fail "runtime error: index out of range"
    | Some s => Ret (if String.eqb s "" then VNil else VStr s)
    end in
  match tm with
  | None => value_list
  | Some tm =>
      if c_like tm then Ret (VStr (c_like_value tm i))
      else match nth_z tm i with
           | None => Fail "type index out of range"
           | Some (name, sub) =>
               if String.eqb sub "" then value_list
               else match struct_variant sub with
                    | Some rows => rows_sub c rows [] (fun m => Ret (VMap [(name, VMap m)]))
                    | None => v <~ sub c, sub ; Ret (VMap [(name, v)])
                    end
           end
  end.

(** Set.go:25-46.  int(math.Pow(2, k)) for k >= 63 is the minimum int on
    amd64 (the result of an out-of-range conversion is platform defined). *)
Definition pow2_int (k : Z) : Z := if k <? 63 then 2 ^ k else - two63.
Fixpoint set_names (v k : Z) (vl : list string) : list string :=
  match vl with
  | [] => []
  | s :: r => if 0 <? Z.land v (pow2_int k) then s :: set_names v (k + 1) r else set_names v (k + 1) r
  end.
Definition set_value (v : val) : Z :=
  match v with
  | VU64 z => i64 z
  | VU8 z | VU32 z | VU16 z => z
  | _ => 0
  end.
Definition set_result (v : Z) (vl : list string) : val :=
  let l := if 0 <? v then set_names v 0 vl else [] in
  VStrs (match l with [] => None | _ => Some l end).

(** types.go:484-485: int(math.Ceil(float64(length) / 8)). *)
Definition bitvec_bytes (length : Z) : Z := - ((- f64_of_int length) / 8).

(** The Call result (Call.go:18-30). *)
Fixpoint call_params (c : ctx) (args : list (string * string)) (acc : list (string * string * val))
  (k : list (string * string * val) -> prog) : prog :=
  match args with
  | [] => k (rev acc)
  | (n, t) :: r => v <~ sub c, t ; call_params c r ((n, t, v) :: acc) k
  end.
Definition process_call (c : ctx) : prog :=
  b <~ next 2 ;
  match x_meta c with
  | None => Fail "runtime error: invalid memory address or nil pointer dereference"
  | Some md =>
      let idx := BytesToHex b in
      let cm := match assoc idx md with Some cm => cm | None => zero_call end in
      call_params (Ctx (x_spec c) (cm_module cm) (x_meta c)) (cm_args cm) []
        (fun ps => LogSpan (Ret (VMap [("call_index", VStr idx); ("call_name", VStr (cm_name cm));
                                       ("call_module", VStr (cm_module cm)); ("params", VParams ps)])))
  end.

(** Bytes.go:11-18 *)
Definition process_bytes (c : ctx) (k : string -> prog) : prog :=
  compact_u32 c (fun n => b <~ next n ; k (ascii_or_hex b)).

(** ** Records of runtime metadata (types/metadata.go, v13.go, v14.go, v15.go).
    A Go struct (and a map[string]string) is a [VMap] from JSON names to
    values; the fields has_storage, has_calls, has_events, which only tell nil
    from empty, are left out, and so are fields that are always empty.  A type
    assertion to a struct type only checks for some struct here. *)

(** Type assertions x.(string), x.(bool), x.([]interface{}), x.(struct). *)
Definition as_str (v : val) (k : string -> prog) : prog :=
  match v with VStr s => k s | _ => Fail "interface conversion: interface {} is not string" end.
Definition as_bool (v : val) (k : bool -> prog) : prog :=
  match v with VBool b => k b | _ => Fail "interface conversion: interface {} is not bool" end.
Definition as_list (v : val) (k : list val -> prog) : prog :=
  match v with
  | VNilSlice => k []
  | VSlice l => k l
  | _ => Fail "interface conversion: interface {} is not []interface {}"
  end.
Definition as_struct (v : val) (k : list (string * val) -> prog) : prog :=
  match v with VMap m => k m | _ => Fail "interface conversion: interface {} is not a struct" end.
(** for _, v := range l { r = append(r, v.(string)) } *)
Fixpoint as_strs (l : list val) (k : list string -> prog) : prog :=
  match l with
  | [] => k []
  | VStr s :: r => as_strs r (fun t => k (s :: t))
  | _ => Fail "interface conversion: interface {} is not string"
  end.
(** for _, v := range l { r = append(r, v.(struct)) } *)
Fixpoint as_structs (l : list val) (k : list val -> prog) : prog :=
  match l with
  | [] => k []
  | VMap m :: r => as_structs r (fun t => k (VMap m :: t))
  | _ => Fail "interface conversion: interface {} is not a struct"
  end.
(** A []string that was appended to a nil slice. *)
Definition strs_of (l : list string) : val := VStrs (match l with [] => None | _ => Some l end).
Definition field_of (k : string) (m : list (string * val)) : val := match assoc k m with Some v => v | None => VNil end.

Definition sub_str (c : ctx) (ts : string) (k : string -> prog) : prog := v <~ sub c, ts ; as_str v k.
Definition sub_int (c : ctx) (ts : string) (k : Z -> prog) : prog := v <~ sub c, ts ; as_int v k.
(** convert.ConvertType(m.ProcessAndUpdateData("String").(string)) *)
Definition sub_type (c : ctx) (k : string -> prog) : prog := sub_str c "String" (fun s => k (ConvertType s)).
Definition sub_strs (c : ctx) (ts : string) (k : list string -> prog) : prog := v <~ sub c, ts ; as_list v (fun l => as_strs l k).
Definition sub_structs (c : ctx) (ts : string) (k : list val -> prog) : prog := v <~ sub c, ts ; as_list v (fun l => as_structs l k).
(** A bool, and when it is true a value. *)
Definition sub_flag (c : ctx) (yes : (val -> prog) -> prog) (no : val) (k : val -> prog) : prog :=
  b <~ sub c, "bool" ; as_bool b (fun b : bool => if b then yes k else k no).

(** metadata.go:207-214 *)
Definition meta_argument (c : ctx) : prog :=
  sub_str c "String" (fun n => sub_type c (fun t => Ret (VMap [("name", VStr n); ("type", VStr t)]))).
(** metadata.go:180-199: the arguments' two entries are copied. *)
Definition copy_arg (v : val) : val :=
  match v with VMap m => VMap [("name", field_of "name" m); ("type", field_of "type" m)] | _ => v end.
Definition meta_call (c : ctx) : prog :=
  sub_str c "String" (fun n => sub_structs c "Vec<MetadataModuleCallArgument>" (fun args =>
  sub_strs c "Vec<String>" (fun docs =>
  Ret (VMap [("name", VStr n); ("args", slice_of (map copy_arg args)); ("docs", strs_of docs)])))).
(** metadata.go:223-238 *)
Definition meta_event (c : ctx) : prog :=
  sub_str c "String" (fun n => sub_strs c "Vec<String>" (fun args => sub_strs c "Vec<String>" (fun docs =>
  Ret (VMap [("name", VStr n); ("args", strs_of args); ("docs", strs_of docs)])))).
(** metadata.go:357-374 and 532-534 *)
Definition meta_constant (c : ctx) : prog :=
  sub_str c "String" (fun n => sub_type c (fun t => sub_str c "HexBytes" (fun v => sub_strs c "Vec<String>" (fun docs =>
  Ret (VMap [("name", VStr n); ("type", VStr t); ("constants_value", VStr v); ("docs", strs_of docs)]))))).
(** metadata.go:757-767 *)
Definition meta_error (c : ctx) : prog :=
  sub_str c "String" (fun n => sub_strs c "Vec<String>" (fun docs => Ret (VMap [("name", VStr n); ("doc", strs_of docs)]))).
(** metadata.go:569-617 ([nmap] = false) and v13.go:203-276 ([nmap] = true): an
    unknown kind leaves the zero value. *)
Definition meta_storage_type (c : ctx) (nmap : bool) (kind : string) (k : val -> prog) : prog :=
  if String.eqb kind "MapType" then
    sub_str c "StorageHasher" (fun h => sub_type c (fun key => sub_type c (fun value =>
    b <~ sub c, "bool" ; as_bool b (fun linked =>
    k (VMap [("origin", VStr "MapType");
             ("map_type", VMap [("hasher", VStr h); ("key", VStr key); ("value", VStr value); ("isLinked", VBool linked)])])))))
  else if String.eqb kind "DoubleMapType" then
    sub_str c "StorageHasher" (fun h => sub_type c (fun key1 => sub_type c (fun key2 => sub_type c (fun value =>
    sub_str c "StorageHasher" (fun h2 =>
    k (VMap [("origin", VStr "DoubleMapType");
             ("double_map_type", VMap [("hasher", VStr h); ("key", VStr key1); ("key2", VStr key2); ("value", VStr value);
                                       ("key2Hasher", VStr h2)])]))))))
  else if String.eqb kind "PlainType" then
    sub_type c (fun t => k (VMap [("origin", VStr "PlainType"); ("plain_type", VStr t)]))
  else if nmap && String.eqb kind "NMap" then
    sub_strs c "Vec<String>" (fun keys => sub_strs c "Vec<StorageHasher>" (fun hs => sub_type c (fun value =>
    k (VMap [("origin", VStr "NMapType");
             ("n_map_type", VMap [("hashers", strs_of (map ConvertType hs)); ("key_vec", strs_of (map ConvertType keys)); ("value", VStr value)])]))))
  else k (VMap [("origin", VStr "")]).
Definition meta_storage_end (c : ctx) (n m : string) (t : val) : prog :=
  sub_str c "HexBytes" (fun f => sub_strs c "Vec<String>" (fun docs =>
  Ret (VMap [("name", VStr n); ("modifier", VStr m); ("type", t); ("fallback", VStr f); ("docs", strs_of docs)]))).
Definition meta_storage_entry (c : ctx) (nmap : bool) : prog :=
  sub_str c "String" (fun n => sub_str c "StorageModify" (fun m => sub_str c "StorageFunctionType" (fun kind =>
  meta_storage_type c nmap kind (meta_storage_end c n m)))).
(** v14.go:260-298 *)
Definition meta_storage_entry14 (c : ctx) : prog :=
  sub_str c "String" (fun n => sub_str c "StorageModify" (fun m => sub_str c "StorageFunctionTypeV14" (fun kind =>
  if String.eqb kind "PlainType" then
    sub_int c "SiLookupTypeId" (fun t =>
    meta_storage_end c n m (VMap [("origin", VStr "PlainType"); ("PlainTypeValue", VInt t)]))
  else if String.eqb kind "Map" then
    sub_strs c "Vec<StorageHasher>" (fun hs => sub_int c "SiLookupTypeId" (fun key => sub_int c "SiLookupTypeId" (fun value =>
    meta_storage_end c n m
      (VMap [("origin", VStr "Map");
             ("n_map_type", VMap [("hashers", strs_of hs); ("keys_id", VInt key); ("value_id", VInt value)])]))))
  else meta_storage_end c n m (VMap [("origin", VStr "")])))).
(** metadata.go:543-554, v13.go:177-187, v14.go:238-248 *)
Definition meta_storage (c : ctx) (entry : string) : prog :=
  sub_str c "String" (fun p => sub_structs c ("Vec<" ++ entry ++ ">") (fun items =>
  Ret (VMap [("prefix", VStr p); ("items", slice_of items)]))).
(** metadata.go:687-736 (V8), 974-1024 (V12), v13.go:119-169 (V13).  A V8 module
    keeps an empty list of calls or events as a non-nil slice. *)
Definition meta_items (c : ctx) (keep_empty : bool) (ts : string) (k : val -> prog) : prog :=
  sub_flag c (fun k => sub_structs c ts (fun l => k (if keep_empty then VSlice l else slice_of l))) VNilSlice k.
Definition meta_module (c : ctx) (storage : string) (keep_empty index : bool) : prog :=
  sub_str c "String" (fun n =>
  sub_flag c (fun k => v <~ sub c, storage ; as_struct v (fun m => k (VMap m))) (VMap [("prefix", VStr ""); ("items", VNilSlice)]) (fun st =>
  as_struct st (fun st =>
  meta_items c keep_empty "Vec<MetadataModuleCall>" (fun calls =>
  meta_items c keep_empty "Vec<MetadataModuleEvent>" (fun events =>
  sub_structs c "Vec<MetadataV7ModuleConstants>" (fun consts =>
  sub_structs c "Vec<MetadataModuleError>" (fun errs =>
  let r := [("name", VStr n); ("prefix", field_of "prefix" st); ("storage", field_of "items" st); ("calls", calls);
            ("events", events); ("constants", slice_of consts); ("errors", slice_of errs)] in
  if index then sub_int c "U8" (fun i => Ret (VMap (r ++ [("index", VInt i)])%list)) else Ret (VMap r)))))))).
(** v14.go:308-323 *)
Definition meta_constant14 (c : ctx) : prog :=
  sub_str c "String" (fun n => sub_int c "SiLookupTypeId" (fun t => sub_str c "HexBytes" (fun v => sub_strs c "Vec<String>" (fun docs =>
  Ret (VMap [("name", VStr n); ("type_value", VInt t); ("constants_value", VStr (TrimHex v)); ("docs", strs_of docs)]))))).
(** v14.go:192-230 *)
Definition sub_lookup (c : ctx) (ts : string) (k : val -> prog) : prog :=
  sub_flag c (fun k => v <~ sub c, ts ; as_struct v (fun m => k (VMap m))) VNil k.
Definition meta_module14 (c : ctx) (k : list (string * val) -> prog) : prog :=
  sub_str c "String" (fun n =>
  sub_flag c (fun k => v <~ sub c, "MetadataV14ModuleStorage" ; as_struct v (fun m => k (VMap m))) (VMap [("prefix", VStr ""); ("items", VNilSlice)]) (fun st =>
  as_struct st (fun st =>
  sub_lookup c "PalletCallMetadataV14" (fun calls =>
  sub_lookup c "PalletEventMetadataV14" (fun events =>
  sub_structs c "Vec<PalletConstantMetadataV14>" (fun consts =>
  sub_lookup c "PalletErrorMetadataV14" (fun errs =>
  sub_int c "U8" (fun i =>
  k [("name", VStr n); ("prefix", field_of "prefix" st); ("storage", field_of "items" st); ("calls_value", calls);
     ("events_value", events); ("constants", slice_of consts); ("errors_value", errs); ("index", VInt i)])))))))).
(** v15.go:188-194: the JSON round trip keeps these fields. *)
Definition meta_module15 (c : ctx) : prog :=
  meta_module14 c (fun r => sub_strs c "Vec<Text>" (fun docs => Ret (VMap (r ++ [("docs", strs_of docs)])%list))).
(** v15.go:207-213, 226-231, 237-245, 249-256, 260-265 *)
Definition meta_api (c : ctx) : prog :=
  sub_str c "Text" (fun n => sub_structs c "Vec<RuntimeApiMethodMetadataV15>" (fun ms => sub_strs c "Vec<Text>" (fun docs =>
  Ret (VMap [("name", VStr n); ("methods", slice_of ms); ("docs", strs_of docs)])))).
Definition meta_param (c : ctx) : prog :=
  sub_str c "Text" (fun n => sub_int c "SiLookupTypeId" (fun t => Ret (VMap [("name", VStr n); ("typeId", VInt t)]))).
Definition meta_method (c : ctx) : prog :=
  sub_str c "Text" (fun n => sub_structs c "Vec<RuntimeApiMethodParamMetadataV15>" (fun ps => sub_int c "SiLookupTypeId" (fun t =>
  sub_strs c "Vec<Text>" (fun docs =>
  Ret (VMap [("name", VStr n); ("inputs", slice_of ps); ("outputsId", VInt t); ("docs", strs_of docs)]))))).
Definition meta_outer (c : ctx) : prog :=
  sub_int c "SiLookupTypeId" (fun a => sub_int c "SiLookupTypeId" (fun b => sub_int c "SiLookupTypeId" (fun e =>
  Ret (VMap [("callType", VInt a); ("eventType", VInt b); ("errorType", VInt e)])))).
Definition meta_custom (c : ctx) : prog :=
  sub_structs c "BTreeMap<Text, CustomValueMetadata15>" (fun l => Ret (VMap [("map", slice_of l)])).

(** The decoders of whole metadata are not run as nested types here. *)
Definition process_meta (c : ctx) (name : string) : prog :=
  if String.eqb name "MetadataModuleEvent" then meta_event c
  else if String.eqb name "MetadataModuleCallArgument" then meta_argument c
  else if String.eqb name "MetadataModuleCall" then meta_call c
  else if String.eqb name "MetadataModuleError" then meta_error c
  else if String.eqb name "MetadataV7ModuleConstants" then meta_constant c
  else if String.eqb name "MetadataV7ModuleStorageEntry" then meta_storage_entry c false
  else if String.eqb name "MetadataV13ModuleStorageEntry" then meta_storage_entry c true
  else if String.eqb name "MetadataV7ModuleStorage" then meta_storage c "MetadataV7ModuleStorageEntry"
  else if String.eqb name "MetadataV13ModuleStorage" then meta_storage c "MetadataV13ModuleStorageEntry"
  else if String.eqb name "MetadataV8Module" then meta_module c "MetadataV7ModuleStorage" true false
  else if String.eqb name "MetadataV12Module" then meta_module c "MetadataV7ModuleStorage" false true
  else if String.eqb name "MetadataV13Module" then meta_module c "MetadataV13ModuleStorage" false true
  else if String.eqb name "PalletConstantMetadataV14" then meta_constant14 c
  else if String.eqb name "MetadataV14ModuleStorageEntry" then meta_storage_entry14 c
  else if String.eqb name "MetadataV14ModuleStorage" then meta_storage c "MetadataV14ModuleStorageEntry"
  else if String.eqb name "MetadataV14Module" then meta_module14 c (fun r => Ret (VMap r))
  else if String.eqb name "MetadataV15Module" then meta_module15 c
  else if String.eqb name "RuntimeApiMetadataV15" then meta_api c
  else if String.eqb name "RuntimeApiMethodMetadataV15" then meta_method c
  else if String.eqb name "RuntimeApiMethodParamMetadataV15" then meta_param c
  else if String.eqb name "OuterEnumsMetadataV15" then meta_outer c
  else if String.eqb name "CustomMetadataV15" then meta_custom c
  else Fail "not modelled".

(** ** Process of every decoder; the codec has been through [init_sub]. *)
Definition process (E : env) (c : ctx) (cd : codec) : prog :=
  match cd with
  | CNull => Ret VNil                                   (* base.go:99 *)
  | CEmpty => Ret (VStr "NULL")                         (* types.go:40-42 *)
  | CU8 => b <~ next 1 ; Ret (VInt (head_u8 b))          (* Uint.go:22-24 *)
  | CU16 => b <~ next 2 ; Ret (VU16 (le_uint 2 b))       (* Uint.go:56-63 *)
  | CU32 => b <~ next 4 ; Ret (VU32 (le_uint 4 b))       (* Uint.go:95-102 *)
  | CU64 => b <~ next 8 ; Ret (VU64 (le_uint 8 b))       (* Uint.go:130-137 *)
  | CU128 =>                                            (* Uint.go:166-172 *)
      b <~ next 16 ;
      let b := if Nat.ltb (List.length b) 16 then HexToBytes (left_justify0 (BytesToHex b) 32) else b in
      match FromBytes b with
      | Ok u => match String_ u with
                | Ok s => Ret (VStr s)
                | _ => Fail "runtime error: index out of range"
                end
      | _ => Fail "runtime error: index out of range"
      end
  | CU256 =>                                            (* Uint.go:204-207 *)
      b <~ next 32 ;
      match ModelTools.U256 (BytesToHex (ReverseBytes b)) with
      | Some z => Ret (VDec z 0)
      | None => Fail "runtime error: invalid memory address or nil pointer dereference"
      end
  | CFloat64 =>                                         (* Float.go:26-34: reads from the start of the buffer *)
      Whole (fun d => if Nat.ltb (List.length d) 8 then Fail "unexpected EOF" else Ret (VF64 (le_val (firstn 8 d))))
  | CFloat32 =>                                         (* Float.go:50-58 *)
      Whole (fun d => if Nat.ltb (List.length d) 4 then Fail "unexpected EOF" else Ret (VF32 (le_val (firstn 4 d))))
  | CBool => b <~ next 1 ; Ret (VBool (String.eqb (BytesToHex b) "01"))  (* Bool.go:7-9, base.go:124-127 *)
  | CH160 => b <~ next 20 ; Ret (VStr (AddHex (BytesToHex b)))           (* types.go:46-48 *)
  | CH256 => b <~ next 32 ; Ret (VStr (AddHex (BytesToHex b)))           (* types.go:62-64 *)
  | CH512 => b <~ next 64 ; Ret (VStr (AddHex (BytesToHex b)))           (* types.go:78-80 *)
  | CAddress =>                                         (* types.go:140-148 *)
      a <~ next 1 ;
      if String.eqb (BytesToHex a) "ff" then b <~ next 32 ; Ret (VStr (BytesToHex b))
      else b <~ next 31 ; Ret (VStr (BytesToHex (a ++ b)%list))
  | CGenericAddress =>                                  (* types.go:155-172 *)
      a <~ next 1 ;
      let h := BytesToHex a in
      if String.eqb h "ff" then b <~ next 32 ; Ret (VStr (BytesToHex b))
      else if String.eqb h "fc" then _b <~ next 2 ; Ret VNil
      else if String.eqb h "fd" then _b <~ next 4 ; Ret VNil
      else if String.eqb h "fe" then _b <~ next 8 ; Ret VNil
      else b <~ next 31 ; Ret (VStr (BytesToHex (a ++ b)%list))
  | CGenericLookupSource =>                             (* types.go:422-447 *)
      let tail :=
        a <~ next 1 ;
        if String.eqb (BytesToHex a) "ff" then b <~ next 32 ; Ret (VStr (BytesToHex b))
        else match a with
             | [] => Fail "runtime error: index out of range"
             | f :: _ =>
                 let '(o, l) := if bZ f =? 252 then (1, 2) else if bZ f =? 253 then (1, 4)
                                else if bZ f =? 254 then (1, 8) else (0, 1) in
                 Whole (fun d =>
                   match slice d o (o + l) with
                   | Ok b => Other b (Ctx 0 "" None) false "U32"
                               (fun v => match v with
                                         | VU32 z => Ret (VStr (itoa z))
                                         | _ => Fail "interface conversion: interface {} is not uint32"
                                         end)
                   | _ => Fail "runtime error: slice bounds out of range"
                   end)
             end in
      Whole (fun d => if Nat.eqb (List.length d) 32 then _b <~ next 32 ; tail else tail)
  | COption sub =>                                      (* Option.go:13-22 *)
      b <~ next 1 ;
      let flag := BytesToHex b in
      if negb (String.eqb sub "") && negb (String.eqb flag "00") then
        if String.eqb sub "bool" then Ret (VBool (String.eqb flag "01"))
        else v <~ sub c, sub ; Ret v
      else Ret VNil
  | CStruct tm =>                                       (* Struct.go:17-25 *)
      match tm with
      | None => Ret (VMap [])
      | Some tm => fields_sub c tm [] (fun m => Ret (VMap m))
      end
  | CEnum tm vl => process_enum c tm vl
  | CBytes | CString => process_bytes c (fun s => Ret (VStr s))  (* Bytes.go:11-18, 57 *)
  | CHexBytes =>                                        (* Bytes.go:40-42 *)
      compact_u32 c (fun n => b <~ next n ; Ret (VStr (AddHex (BytesToHex b))))
  | COpaqueCall =>                                      (* types.go:408-416 *)
      process_bytes c (fun s =>
        Other (HexToBytes s) (Ctx (x_spec c) "" (x_meta c)) true "Call" (fun v => Ret v))
  | CVec sub | CBoundedVec sub =>                       (* Vectors.go:25-36 *)
      compact_u32 c (fun n =>
        if 512 * 1024 <? n then Fail "Vec length exceeds"
        else repeat_sub c sub (Z.to_nat n) [] (fun l => Ret (slice_of l)))
  | CAuthoritiesChange => Fail "initialised as CVec"
  | CSet vl bits =>                                     (* Set.go:25-46 *)
      v <~ sub c, ("U" ++ itoa bits) ; Ret (set_result (set_value v) vl)
  | CCompact sub =>                                     (* Compact.go:42-70 *)
      compact_bytes (fun len b =>
        if String.eqb sub "" then Ret (VBytes b)
        else Other b (Ctx 0 "" None) false sub (compact_value len))
  | CCompactU32 =>                                      (* Compact.go:131-143 *)
      compact_bytes (fun len b => Ret (VInt (compact_u32_int len b)))
  | CCompactMoment =>                                   (* types.go:113-118 *)
      compact_bytes (fun len b =>
        let v := compact_u32_int len b in
        Ret (VInt (if 10000000000 <? v then Z.quot v 1000 else v)))
  | CMoment =>                                          (* types.go:124-129 *)
      b <~ next 8 ;
      let v := le_uint 8 b in
      Ret (VU64 (if 10000000000 <? v then v / 1000 else v))
  | CAccountId =>                                       (* types.go:182-184 *)
      b <~ next 32 ; Ret (VStr (AddHex (right_justify0 (BytesToHex b) 64)))
  | CEra =>                                             (* types.go:94-101 *)
      b <~ next 1 ;
      if String.eqb (BytesToHex b) "00" then Ret (VStr (BytesToHex b))
      else r <~ next 1 ; Ret (VStr (BytesToHex b ++ BytesToHex r))
  | CBalance =>                                         (* types.go:199-210 *)
      b <~ next 16 ;
      let b := firstn 16 (b ++ repeat "000"%char 16)%list in
      if String.eqb (BytesToHex b) "ffffffffffffffffffffffffffffffff" then Ret (VDec (-1) 0)
      else match FromBytes b with
           | Ok u => Ret (VDec (Big u) 0)
           | _ => Fail "runtime error: index out of range"
           end
  | CLogDigest =>                                       (* types.go:219-232 *)
      b <~ next 1 ;
      match nth_z log_digest_list (head_u8 b) with
      | None => Fail "runtime error: index out of range"
      | Some t => v <~ sub c, t ; Ret (VMap [("type", VStr t); ("value", v)])
      end
  | CLockIdentifier => b <~ next 8 ; Ret (VStr (AddHex (BytesToHex b)))   (* types.go:318-320 *)
  | CCall => process_call c
  | CEcdsaSignature => b <~ next 65 ; Ret (VStr (AddHex (BytesToHex b)))  (* types.go:326-328 *)
  | CEthereumAddress =>                                 (* types.go:334-336 *)
      b <~ next 20 ; Ret (VStr (EthEncode (e_keccak E) (BytesToHex b)))
  | CData =>                                            (* types.go:350-372 *)
      b <~ next 1 ;
      let i := head_u8 b in
      if i =? 0 then Ret (VMap [("None", VNil)])
      else if i <=? 33 then
        d <~ next (i - 1) ;
        Ret (VMap [("Raw" ++ itoa (i - 1), VStr (if utf8_valid d then b2s d else BytesToHex d))])
      else if i <=? 37 then
        let n := Z.to_nat (i - 32) in
        v <~ sub c, (nth n data_types "") ; Ret (VMap [(nth n data_names "", v)])
      else Ret VNil
  | CBitVec =>                                          (* types.go:483-491 *)
      compact_u32 c (fun n =>
        b <~ next (bitvec_bytes n) ; Ret (VStr ("0b" ++ join "_" (map bits8 b))))
  | CBTreeMap sub =>                                    (* BTreeMap.go:12-26 *)
      compact_u32 c (fun n =>
        if 1000 <? n then Fail "BTreeMap length exceeds"
        else
          let sub_k := nth 0 (split_char ","%char sub) "" in
          (fix loop (n : nat) (acc : list val) : prog :=
             match n with
             | O => Ret (slice_of (rev acc))
             | S n' =>
                 kv <~ sub c, sub_k ;
                 match nth_error (split_char ","%char sub) 1 with
                 | None => Fail "runtime error: index out of range"
                 | Some sub_v => v <~ sub c, sub_v ; loop n' (VMap [(ToString E kv, v)] :: acc)
                 end
             end) (Z.to_nat n) [])
  | CBox sub => v <~ sub c, sub ; Ret v                 (* types.go:451-453 *)
  | CResult sub =>                                      (* Results.go:14-27 *)
      b <~ next 1 ;
      match split_char ","%char sub with
      | [t_ok; t_err] =>
          let h := BytesToHex b in
          if String.eqb h "00" || String.eqb h "" then v <~ sub c, t_ok ; Ret (VMap [("Ok", v)])
          else if String.eqb h "01" then v <~ sub c, t_err ; Ret (VMap [("Error", v)])
          else Fail "illegal Result data"
      | _ => Fail "Result subType not illegal"
      end
  | CWrapperOpaque sub =>                               (* types.go:457-460 *)
      _n <~ sub c, "Compact<u32>" ; v <~ sub c, sub ; Ret v
  | CRange sub =>                                       (* types.go:465-477 *)
      let '(a, b) := match split_char ","%char sub with [a; b] => (a, b) | _ => (sub, sub) end in
      v <~ sub c, a ; w <~ sub c, b ; Ret (VMap [("start", v); ("end", w)])
  | CFixedU8 n => b <~ next n ; Ret (VStr (ascii_or_hex b))   (* FixedU8.go:15-22 *)
  | CFixedArray n sub =>                                (* FixedArray.go:25-44 *)
      if 0 <? n then
        if equal_fold sub "u8" then b <~ next n ; Ret (VStr (ascii_or_hex b))
        else repeat_sub c sub (Z.to_nat n) [] (fun l => Ret (slice_of l))
      else _b <~ next 1 ; Ret VNil
  | CIntFixed n =>                                      (* Int.go:28-38 *)
      b <~ next n ;
      match ModelTools.U256 (BytesToHex (ReverseBytes b)) with
      | None => Fail "runtime error: invalid memory address or nil pointer dereference"
      | Some z => Ret (VBig (if 2 ^ (8 * n - 1) <? z then z - 2 ^ (8 * n) else z))
      end
  | CSubstrateFixedU64 =>                               (* specType.go:17-21 *)
      b <~ next 8 ;
      match ParseI32F32 (i64 (le_uint 8 b)) 0 9 with
      | Ok (cf, e) => Ret (VDec cf e)
      | _ => Fail "fixed point"
      end
  | CSubstrateFixedI128 =>                              (* specType.go:27-30 *)
      v <~ sub c, "i128" ;
      match v with
      | VBig z => match ParseI64F64 z 0 9 with Ok (cf, e) => Ret (VDec cf e) | _ => Fail "fixed point" end
      | _ => Fail "interface conversion: interface {} is not *big.Int"
      end
  | COpaque name => process_meta c name
  end.

(** ** base.go:158-187.  [Ok None] of the lookup is the "Not found decoder
    class" panic. *)
Fixpoint decode (fuel : nat) (E : env) (c : ctx) (data : bytes) (off : Z) (ts : string) : outcome :=
  match fuel with
  | O => OutOfFuel
  | S f =>
      r <- GetCodecClass E (x_module c) ts (x_spec c) ;;
      match r with
      | None => Panic ("Not found decoder class " ++ ts)
      | Some (cd, sub) =>
          run (decode f E) off (process E c (init_sub cd sub)) data off []
      end
  end.

(** The API call: a decoder initialised with the buffer at offset 0. *)
Definition decode_top (fuel : nat) (E : env) (c : ctx) (data : bytes) (ts : string) : outcome :=
  decode fuel E c data 0 ts.

(** A decode that finishes: with enough stack the call returns [r] (a value
    or a panic). *)
Definition Decodes (E : env) (c : ctx) (data : bytes) (off : Z) (ts : string) (r : outcome) : Prop :=
  r <> OutOfFuel /\ exists fuel, decode fuel E c data off ts = r.
