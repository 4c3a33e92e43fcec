(** Building the registry: regBaseType (types/registry.go:54-190), custom type
    registration (types/customType.go), and the structural description of a
    type used to detect redefinitions (TypeStructString of every decoder,
    types/base.go:222-269). *)

From Verif Require Import GoBase ModelTools ModelVal ModelRegistry ModelDecode.

(** ** The built-in decoders, registry.go:56-185.
    A type that only embeds another decoder is that decoder: BTreeSet = Vec,
    BlockNumber = U32, SlotNumber = U64, Signature = H512, VoteOutcome = H256,
    BoxProposal = Call, EraExtrinsic = Era, RuntimeEnvironmentUpdated = Null,
    Other = ChangesTrieRoot = HexBytes, WeakBoundedVec = BoundedVec,
    RangeInclusive = Range.  SealV0 ... RawBabePreDigestSecondaryVRF set their
    type mapping in Init (types.go:241-310).  The metadata decoders are listed
    by name only. *)
Definition preset (l : typemap) : codec := CStruct (Some l).
Definition base_registry : list (string * codec) :=
  [ ("null", CNull); ("u8", CU8); ("u16", CU16); ("u32", CU32); ("u64", CU64); ("u256", CU256);
    ("float64", CFloat64); ("float32", CFloat32); ("u128", CU128);
    ("h160", CH160); ("h256", CH256); ("h512", CH512); ("address", CAddress);
    ("option", COption ""); ("struct", CStruct None); ("enum", CEnum None []);
    ("bytes", CBytes); ("vec", CVec ""); ("boundedvec", CBoundedVec ""); ("weakboundedvec", CBoundedVec "");
    ("set", CSet [] 0); ("compact", CCompact ""); ("compactu32", CCompactU32); ("bool", CBool);
    ("hexbytes", CHexBytes); ("moment", CMoment); ("blocknumber", CU32); ("accountid", CAccountId);
    ("boxproposal", CCall); ("signature", CH512); ("era", CEra); ("eraextrinsic", CEra);
    ("balance", CBalance); ("logdigest", CLogDigest); ("other", CHexBytes); ("changestrieroot", CHexBytes);
    ("authoritieschange", CAuthoritiesChange);
    ("sealv0", preset [("slot", "u64"); ("signature", "Signature")]);
    ("consensus", preset [("engine", "u32"); ("data", "Vec<u8>")]);
    ("seal", preset [("engine", "u32"); ("data", "HexBytes")]);
    ("preruntime", preset [("engine", "u32"); ("data", "HexBytes")]);
    ("exposure", preset [("total", "Compact<Balance>"); ("own", "Compact<Balance>");
                         ("others", "Vec<IndividualExposure<AccountId, Balance>>")]);
    ("rawaurapredigest", preset [("slotNumber", "u64")]);
    ("rawbabepredigestprimary", preset [("authorityIndex", "u32"); ("slotNumber", "SlotNumber");
       ("weight", "BabeBlockWeight"); ("vrfOutput", "H256"); ("vrfProof", "H256")]);
    ("rawbabepredigestsecondary", preset [("authorityIndex", "u32"); ("slotNumber", "SlotNumber");
       ("weight", "BabeBlockWeight")]);
    ("rawbabepredigestsecondaryvrf", preset [("authorityIndex", "u32"); ("slotNumber", "SlotNumber");
       ("vrfOutput", "VrfData"); ("vrfProof", "VrfProof")]);
    ("slotnumber", CU64); ("lockidentifier", CLockIdentifier); ("call", CCall);
    ("ecdsasignature", CEcdsaSignature); ("ethereumaddress", CEthereumAddress); ("data", CData);
    ("voteoutcome", CH256); ("string", CString); ("genericaddress", CGenericAddress);
    ("opaquecall", COpaqueCall); ("bitvec", CBitVec);
    ("metadatamoduleevent", COpaque "MetadataModuleEvent");
    ("metadatamodulecallargument", COpaque "MetadataModuleCallArgument");
    ("metadatamodulecall", COpaque "MetadataModuleCall");
    ("metadatav13modulestorage", COpaque "MetadataV13ModuleStorage");
    ("metadatav7moduleconstants", COpaque "MetadataV7ModuleConstants");
    ("metadatav7modulestorageentry", COpaque "MetadataV7ModuleStorageEntry");
    ("metadatav13modulestorageentry", COpaque "MetadataV13ModuleStorageEntry");
    ("metadatav8module", COpaque "MetadataV8Module");
    ("metadatav7modulestorage", COpaque "MetadataV7ModuleStorage");
    ("metadatav9decoder", COpaque "MetadataV9Decoder");
    ("metadatav10decoder", COpaque "MetadataV10Decoder");
    ("metadatav11decoder", COpaque "MetadataV11Decoder");
    ("metadatav12decoder", COpaque "MetadataV12Decoder");
    ("metadatav13decoder", COpaque "MetadataV13Decoder");
    ("metadatav14decoder", COpaque "MetadataV14Decoder");
    ("metadatav15decoder", COpaque "MetadataV15Decoder");
    ("metadatav12module", COpaque "MetadataV12Module");
    ("metadatav13module", COpaque "MetadataV13Module");
    ("metadatav14module", COpaque "MetadataV14Module");
    ("metadatav15module", COpaque "MetadataV15Module");
    ("runtimeapimetadatav15", COpaque "RuntimeApiMetadataV15");
    ("runtimeapimethodmetadatav15", COpaque "RuntimeApiMethodMetadataV15");
    ("runtimeapimethodparammetadatav15", COpaque "RuntimeApiMethodParamMetadataV15");
    ("metadatav14modulestorage", COpaque "MetadataV14ModuleStorage");
    ("metadatav14modulestorageentry", COpaque "MetadataV14ModuleStorageEntry");
    ("palletconstantmetadatav14", COpaque "PalletConstantMetadataV14");
    ("metadatamoduleerror", COpaque "MetadataModuleError");
    ("genericlookupsource", CGenericLookupSource); ("btreemap", CBTreeMap ""); ("btreeset", CVec "");
    ("box", CBox ""); ("result", CResult ""); ("runtimeenvironmentupdated", CNull);
    ("wrapperopaque", CWrapperOpaque ""); ("range", CRange ""); ("rangeinclusive", CRange "");
    ("substratefixedu64", CSubstrateFixedU64); ("substratefixedi128", CSubstrateFixedI128); ("empty", CEmpty);
    ("outerenumsmetadatav15", COpaque "OuterEnumsMetadataV15");
    ("custommetadatav15", COpaque "CustomMetadataV15");
    ("compact<u32>", CCompactU32); ("compact<moment>", CCompactMoment); ("str", CString); ("hash", CH256);
    ("blockhash", CH256); ("i8", CIntFixed 1); ("i16", CIntFixed 2); ("i32", CIntFixed 4); ("i64", CIntFixed 8);
    ("i128", CIntFixed 16); ("i256", CIntFixed 32); ("h128", CFixedU8 16); ("[u8; 32]", CFixedU8 32);
    ("[u8; 64]", CFixedU8 64); ("[u8; 65]", CFixedU8 65); ("[u8; 16]", CFixedU8 16); ("[u8; 20]", CFixedU8 20);
    ("[u8; 8]", CFixedU8 8); ("[u8; 4]", CFixedU8 4); ("[u8; 2]", CFixedU8 2); ("[u8; 256]", CFixedU8 256);
    ("[u128; 3]", CFixedArray 3 "u128") ].

(** ** Structural description.  [rt] is RecursiveTime; [ts] is the TypeName the
    instance was initialised with (the base method returns it). *)
Fixpoint concat_sep (sep : string) (l : list (res string)) (acc : list string) : res string :=
  match l with
  | [] => Ok (join sep (rev acc))
  | r :: l' => s <- r ;; concat_sep sep l' (s :: acc)
  end.
Definition limitRecursiveTime : Z := 5.   (* base.go:14 *)
Definition struct_string (name : string) (rec : string -> Z -> res string) (rt : Z) (tm : typemap) : res string :=
  let rt := rt + 1 in
  match tm with
  | [] => Ok (name ++ "()")
  | _ => if limitRecursiveTime <? rt then Ok (name ++ "(...)")
         else s <- concat_sep "," (map (fun p => rec (snd p) rt) tm) [] ;; Ok (name ++ "(" ++ s ++ ")")
  end.
Definition pair_string (name : string) (rec : string -> Z -> res string) (sub : string) : res string :=
  match split_char ","%char sub with
  | a :: b :: _ => s <- rec a 0 ;; t <- rec b 0 ;; Ok (name ++ "<" ++ s ++ "," ++ t ++ ">")
  | [a] => s <- rec a 0 ;; idx_panic
  | [] => idx_panic
  end.
Definition codec_string (rec : string -> Z -> res string) (rt : Z) (ts : string) (c : codec) : res string :=
  match c with
  | CNull => Ok "NULL"                                        (* types.go:34-36 *)
  | CU8 => Ok "U8" | CU16 => Ok "U16" | CU32 => Ok "U32"      (* Uint.go:47,86,121 *)
  | CU64 | CMoment | CSubstrateFixedU64 => Ok "U64"           (* Uint.go:158 *)
  | CU128 | CBalance => Ok "U128"                             (* Uint.go:196 *)
  | CFloat64 => Ok "Float64" | CFloat32 => Ok "Float32"       (* Float.go:36,60 *)
  | CBool => Ok "Bool"                                        (* Bool.go:18 *)
  | CH160 | CEthereumAddress => Ok "H160"                     (* types.go:54 *)
  | CH256 => Ok "H256" | CH512 => Ok "H512"                   (* types.go:70,86 *)
  | CAccountId => Ok "AccountId"                              (* types.go:190 *)
  | CBitVec => Ok "BitVec"                                    (* types.go:493 *)
  | CBytes | COpaqueCall | CHexBytes => Ok "Bytes"            (* Bytes.go:34,53 *)
  | CString => Ok "String"                                    (* Bytes.go:64 *)
  | CCall => Ok "Call"                                        (* Call.go:70 *)
  | CCompact sub => Ok ("Compact<" ++ sub ++ ">")             (* Compact.go:72-74 *)
  | CCompactU32 | CCompactMoment => Ok ""                     (* Compact.go:145-147: TypeString is never set *)
  | COption sub => s <- rec sub rt ;; Ok ("Option<" ++ s ++ ">")   (* Option.go:40-42 *)
  | CVec sub | CBoundedVec sub => s <- rec sub rt ;; Ok ("Vec<" ++ s ++ ">")   (* Vectors.go:56-58 *)
  | CBTreeMap sub => pair_string "BTreeMap" rec sub           (* BTreeMap.go:28-33 *)
  | CResult sub => pair_string "Results" rec sub              (* Results.go:43-46 *)
  | CFixedArray n sub => s <- rec sub 0 ;; Ok ("[" ++ itoa n ++ ";" ++ s ++ "]")   (* FixedArray.go:46-48 *)
  | CFixedU8 n => Ok ("[" ++ itoa n ++ ";U8]")                (* FixedU8.go:40-42 *)
  | CIntFixed n => Ok ("Int<" ++ itoa (n * 8) ++ ">")         (* Int.go:71-73 *)
  | CStruct None => Ok ""                                     (* Struct.go:49 *)
  | CStruct (Some tm) => struct_string "Struct" rec rt tm     (* Struct.go:37-50 *)
  | CEnum (Some tm) _ => struct_string "Enum" rec rt tm       (* Enum.go:131-142 *)
  | CEnum None vl => Ok (match vl with [] => "" | _ => "Enum(" ++ join "," vl ++ ")" end)  (* Enum.go:143-146 *)
  | CLogDigest => Ok ("Enum(" ++ join "," log_digest_list ++ ")")
  | CAuthoritiesChange => Panic "initialised as CVec"
  | CEmpty | CU256 | CAddress | CGenericAddress | CGenericLookupSource | CSet _ _ | CEra | CLockIdentifier
  | CEcdsaSignature | CData | CBox _ | CWrapperOpaque _ | CRange _ | CSubstrateFixedI128 | COpaque _ => Ok ts   (* base.go:106-108 *)
  end.
(** base.go:250-264 *)
Fixpoint getTypeStructString (fuel : nat) (E : env) (ts : string) (rt : Z) : res string :=
  match fuel with
  | O => OutOfFuel
  | S f =>
      r <- GetCodecClass E "" ts 0 ;;
      match r with
      | None => Ok ""
      | Some (c, sub) => codec_string (getTypeStructString f E) rt ts (init_sub c sub)
      end
  end.

(** ** Custom types.  source/source.go:7-15 *)
Record tstruct := TStruct {
  t_type : string; t_string : string; t_mapping : list (list string);
  t_values : list string; t_bits : Z; t_v14 : bool; t_spec : Z }.

(** The three global maps (registry.go:24-33). *)
Record reg := Reg {
  r_types : list (string * codec);
  r_special : list (string * list (Z * Z * codec));
  r_v14 : list (string * tstruct) }.
Definition with_types f (r : reg) := Reg (f (r_types r)) (r_special r) (r_v14 r).
Definition with_special f (r : reg) := Reg (r_types r) (f (r_special r)) (r_v14 r).
Definition with_v14 f (r : reg) := Reg (r_types r) (r_special r) (f (r_v14 r)).
(** The registry as read by GetCodecClass; externals are irrelevant here. *)
Definition reg_env (r : reg) : env := Env (r_types r) (r_special r) (fun _ => "") (fun b => b) (fun _ => None).

(** registry.go:35-40 *)
Definition HasReg (r : reg) (name : string) : bool :=
  match assoc (to_lower name) (r_types r) with Some _ => true | None => false end.

(** customType.go:152-179, as one uninterrupted step. *)
Definition version_range (v : string) : Z * Z :=
  match split_char "-"%char v with
  | [a; b] => (StringToInt a, if String.eqb b "?" then 99999999 else StringToInt b)
  | _ => (0, 99999999)
  end.
Definition regCustomKey (key : string) (c : codec) (r : reg) : reg :=
  match split_char "#"%char key with
  | [name; v] =>
      let '(lo, hi) := version_range v in
      with_special (fun m => upd name (match assoc name m with
                                       | Some l => l ++ [(lo, hi, c)]
                                       | None => [(lo, hi, c)]
                                       end)%list m) r
  | _ => with_types (upd key c) r
  end.

(** customType.go:13-21 with the loops 122-126 / 132-136: rows need two cells. *)
Fixpoint mapping_rows (l : list (list string)) : res typemap :=
  match l with
  | [] => Ok []
  | (n :: t :: _) :: r => m <- mapping_rows r ;; Ok ((n, t) :: m)
  | _ => idx_panic
  end.
Definition newStruct (m : typemap) : option typemap := match m with [] => None | _ => Some m end.

(** base.go:222-247 *)
Definition mapping_types (l : list (list string)) : res string :=
  m <- mapping_rows l ;; Ok (String.concat "" (map snd m)).
Definition EqTypeStringWithTypeStruct (fuel : nat) (r : reg) (key : string) (d : tstruct) : res bool :=
  n <- getTypeStructString fuel (reg_env r) key 0 ;;
  if String.eqb n "" then Ok true
  else if String.eqb (t_type d) "struct" then s <- mapping_types (t_mapping d) ;; Ok (String.eqb n s)
  else if String.eqb (t_type d) "enum" then
    match t_values d with
    | [] => s <- mapping_types (t_mapping d) ;; Ok (String.eqb n s)
    | vl => Ok (String.eqb n (String.concat "" vl))
    end
  else if String.eqb (t_type d) "string" then
    s <- getTypeStructString fuel (reg_env r) (t_string d) 0 ;; Ok (String.eqb n s)
  else Ok true.

(** customType.go:26-40: [None] is the early return of the whole call. *)
Definition v14_step (fuel : nat) (key : string) (t : tstruct) (r : reg) : res (option (string * reg)) :=
  if t_v14 t then
    match assoc key (r_v14 r) with
    | None => Ok (Some (key, with_v14 (upd key t) r))
    | Some _ =>
        if t_spec t =? 0 then Ok None
        else b <- EqTypeStringWithTypeStruct fuel r key t ;;
             if b then Ok None
             else Ok (Some (key ++ "#" ++ itoa (t_spec t) ++ "-" ++ itoa (t_spec t), r))
    end
  else Ok (Some (key, r)).

(** customType.go:119-149: the cases other than "string"; an unknown Type
    registers nothing. *)
Definition reg_plain (key : string) (t : tstruct) (r : reg) : res reg :=
  if String.eqb (t_type t) "struct" then
    m <- mapping_rows (t_mapping t) ;; Ok (regCustomKey key (CStruct (newStruct m)) r)
  else if String.eqb (t_type t) "enum" then
    m <- mapping_rows (t_mapping t) ;; Ok (regCustomKey key (CEnum (newStruct m) (t_values t)) r)
  else if String.eqb (t_type t) "set" then Ok (regCustomKey key (CSet (t_values t) (t_bits t)) r)
  else Ok r.

(** customType.go:68-117: a type string that is neither registered nor (fully)
    explained by another entry. *)
Definition reg_shape (key ts : string) (r : reg) : res reg :=
  match first_char ts, last_char ts with
  | Some a, Some z =>
      let generic :=
        match (if Ascii.eqb z ">"%char then generic_parts ts else None) with
        | Some (n, sub) =>
            if equal_fold n "vec" then Some (CVec sub)
            else if equal_fold n "option" then Some (COption sub)
            else if equal_fold n "compact" then Some (CCompact sub)
            else if equal_fold n "BTreeMap" then Some (CBTreeMap sub)
            else if equal_fold n "BTreeSet" then Some (CVec sub)
            else None
        | None => None
        end in
      match generic with
      | Some c => Ok (regCustomKey key c r)
      | None =>
          if negb (String.eqb ts "()") && Ascii.eqb a "("%char && Ascii.eqb z ")"%char then
            Ok (regCustomKey key (CStruct (buildStruct ts)) r)
          else if negb (String.eqb ts "[]") && Ascii.eqb a "["%char && Ascii.eqb z "]"%char then
            match split_char ";"%char (strip_ends ts) with
            | [t; n] => Ok (regCustomKey key (CFixedArray (StringToInt (trim_space n)) (trim_space t)) r)
            | _ => Ok r
            end
          else Ok r
      end
  | _, _ => Panic "runtime error: slice bounds out of range"
  end.

(** customType.go:42-118, one entry of the map [all]; the key is lower case. *)
Definition reg_string (fuel : nat) (all : list (string * tstruct)) (key : string) (t : tstruct) (r : reg) : res reg :=
  let ts := ConvertType (t_string t) in
  match assoc (to_lower ts) (r_types r) with
  | Some c => Ok (regCustomKey key c r)
  | None =>
      match assoc ts all with
      | Some x =>
          if String.eqb (t_type x) "string" then
            match assoc (to_lower (t_string x)) (r_types r) with
            | Some c => Ok (regCustomKey key c r)
            | None => reg_shape key ts r
            end
          else
            o <- v14_step fuel key x r ;;
            r' <- match o with
                  | None => Ok r
                  | Some (k, r1) => reg_plain (to_lower k) x r1
                  end ;;
            reg_shape key ts r'
      | None => reg_shape key ts r
      end
  end.

(** customType.go:23-150.  [order] is the order in which Go's map iteration
    visits the entries of [all]. *)
Fixpoint reg_loop (fuel : nat) (all order : list (string * tstruct)) (r : reg) : res reg :=
  match order with
  | [] => Ok r
  | (key, t) :: rest =>
      o <- v14_step fuel key t r ;;
      match o with
      | None => Ok r
      | Some (k, r1) =>
          let key := to_lower k in
          r2 <- (if String.eqb (t_type t) "string" then reg_string fuel all key t r1 else reg_plain key t r1) ;;
          reg_loop fuel all rest r2
      end
  end.
Definition RegCustomTypes (fuel : nat) (types : list (string * tstruct)) (r : reg) : res reg :=
  reg_loop fuel types types r.

(** registry.go:43-52 and 182-190 before the definitions of source.BaseType. *)
Definition base_reg : reg := Reg base_registry [] [].
