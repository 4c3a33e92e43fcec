(** Type names and their resolution: types/convert/convert.go,
    types/override/override.go, types/registry.go and ScaleDecoder.buildStruct
    of types/base.go. *)

From Verif Require Import GoBase ModelTools ModelVal.

(** ** Decoder instances.
    One constructor per decoder struct, with the fields that registration can
    set.  Types that only embed another one and override nothing are the same
    constructor (comment at [base_registry]).  Instances in the registry are
    never mutated: getCodecInstant copies them (registry.go:217-222). *)
Definition typemap := list (string * string).   (* base.go:29-32, Names and Types zipped *)

Inductive codec : Type :=
| CNull | CEmpty
| CU8 | CU16 | CU32 | CU64 | CU128 | CU256
| CFloat64 | CFloat32 | CBool
| CH160 | CH256 | CH512
| CAddress | CGenericAddress | CGenericLookupSource
| COption (sub : string)
| CStruct (tm : option typemap)
| CEnum (tm : option typemap) (vl : list string)
| CBytes | CHexBytes | CString | COpaqueCall
| CVec (sub : string) | CBoundedVec (sub : string) | CAuthoritiesChange
| CSet (vl : list string) (bits : Z)
| CCompact (sub : string) | CCompactU32 | CCompactMoment
| CMoment | CAccountId | CEra | CBalance | CLogDigest | CLockIdentifier
| CCall | CEcdsaSignature | CEthereumAddress | CData | CBitVec
| CBTreeMap (sub : string) | CBox (sub : string) | CResult (sub : string)
| CWrapperOpaque (sub : string) | CRange (sub : string)
| CFixedU8 (n : Z) | CFixedArray (n : Z) (sub : string) | CIntFixed (n : Z)
| CSubstrateFixedU64 | CSubstrateFixedI128
| COpaque (name : string).  (* metadata records and decoders: ModelDecode.process_meta *)

(** registry.go:21-33: the two global maps.  External functions the decoders
    call are fields too: [e_json] is json.Marshal of a value that is neither a
    string nor a byte slice (utiles/tools.go:88-90), [e_keccak] is
    keccak.Keccak256, [e_box] is the JSON round trip of types/Call.go:48-49. *)
Record env := Env {
  e_reg : list (string * codec);
  e_special : list (string * list (Z * Z * codec));
  e_json : val -> string;
  e_keccak : bytes -> bytes;
  e_box : list (string * val) -> option (string * list val * list val)
}.

(** ** convert.go:5-37 *)
Definition ConvertType (name : string) : string :=
  let name := trim_space name in
  let name := replace_all name "T::" "" in
  let name := replace_all name "VecDeque<" "Vec<" in
  let name := replace_all name "<T>" "" in
  let name := replace_all name "<T as Trait>::" "" in
  let name := replace_all name "<T, I>" "" in
  let name := replace_all name (String "010" "") " " in
  let name := replace_all name "&'static[u8]" "Bytes" in
  let name := if has_prefix name "BoundedBTreeSet" then replace_all name "BoundedBTreeSet" "BTreeSet" else name in
  let name := if equal_fold name "Vec<u8>" then "Bytes" else name in
  if String.eqb name "()" then "Null"
  else if String.eqb name "<InherentOfflineReport as InherentOfflineReport>::Inherent" then "Null"
  else if String.eqb name "<Lookup as StaticLookup>::Source" then "Address"
  else if String.eqb name "<Balance as HasCompact>::Type" then "Compact<Balance>"
  else if String.eqb name "<BlockNumber as HasCompact>::Type" then "Compact<BlockNumber>"
  else if String.eqb name "<Moment as HasCompact>::Type" then "Compact<Moment>"
  else if String.eqb name "<T as Trait<I>>::Proposal" then "Proposal"
  else if String.eqb name "wasm::PrefabWasmModule" then "PrefabWasmModule"
  else name.

(** ** override.go:7-52 *)
Definition typesModules : list (string * list (string * string)) :=
  [ ("parasInclusion", [("validatorindex", "ParaValidatorIndex")]);
    ("inclusion", [("validatorindex", "ParaValidatorIndex")]);
    ("parasScheduler", [("validatorindex", "ParaValidatorIndex")]);
    ("parasShared", [("validatorindex", "ParaValidatorIndex")]);
    ("scheduler", [("validatorindex", "ParaValidatorIndex")]);
    ("paraDisputes", [("validatorindex", "ParaValidatorIndex")]);
    ("parasDisputes", [("validatorindex", "ParaValidatorIndex")]);
    ("shared", [("validatorindex", "ParaValidatorIndex")]);
    ("assets", [("approval", "AssetApproval"); ("approvalkey", "AssetApprovalKey");
                ("balance", "TAssetBalance"); ("destroywitness", "AssetDestroyWitness")]);
    ("beefy", [("authorityid", "BeefyId")]);
    ("ethereum", [("block", "EthBlock"); ("header", "EthHeader"); ("receipt", "EthReceipt");
                  ("transaction", "EthTransaction"); ("transactionstatus", "EthTransactionStatus")]);
    ("bridgemultisig", [("timepoint", "BridgeTimepoint")]) ].
(** override.go:54-66 *)
Definition ModuleType (t module : string) : string :=
  if String.eqb module "" then t
  else match assoc (to_lower module) typesModules with
       | None => t
       | Some m => match assoc t m with Some o => o | None => t end
       end.

(** ** base.go:134-156, buildStruct on a tuple type string *)

(** The first '>' or ')' after position 0: the text up to and including it,
    and what follows (regexp [(.*?)[\>\)]]; type strings have no newline). *)
Definition is_open (c : ascii) : bool := Ascii.eqb c "<"%char || Ascii.eqb c "("%char.
Definition is_close (c : ascii) : bool := Ascii.eqb c ">"%char || Ascii.eqb c ")"%char.
Fixpoint to_close (s : string) : option (string * string) :=
  match s with
  | EmptyString => None
  | String c s' =>
      if is_close c then Some (String c "", s')
      else match to_close s' with Some (a, b) => Some (String c a, b) | None => None end
  end.
(** regexp FindAllString(s, -1) for [[\<\(](.*?)[\>\)]]. *)
Fixpoint find_parts (fuel : nat) (s : string) : list string :=
  match fuel with
  | O => []
  | S f =>
      match s with
      | EmptyString => []
      | String c s' =>
          if is_open c then
            match to_close s' with
            | Some (a, r) => String c a :: find_parts f r
            | None => []
            end
          else find_parts f s'
      end
  end.
Fixpoint tuple_cols (k : Z) (l : list string) : typemap :=
  match l with
  | [] => []
  | v :: r =>
      let v := trim_space v in
      if String.eqb v "" then tuple_cols (k + 1) r
      else ("col" ++ itoa (k + 1), replace_all v "#" ",") :: tuple_cols (k + 1) r
  end.
Definition buildStruct (ts : string) : option typemap :=
  match first_char ts, last_char ts with
  | Some a, Some z =>
      if Ascii.eqb a "("%char && Ascii.eqb z ")"%char then
        let inner := strip_ends ts in
        let parts := find_parts (S (String.length inner)) inner in
        let marked := fold_left (fun s p => replace_all s p (replace_all p "," "#")) parts inner in
        Some (tuple_cols 0 (split_char ","%char marked))
      else None
  | _, _ => None
  end.

(** ** registry.go:270-284 *)
Fixpoint in_range (l : list (Z * Z * codec)) (spec : Z) : option codec :=
  match l with
  | [] => None
  | (lo, hi, c) :: r => if (lo <=? spec) && (spec <=? hi) then Some c else in_range r spec
  end.
Definition specialVersionCodec (E : env) (t : string) (spec : Z) : option codec :=
  match assoc t (e_special E) with
  | Some l => in_range l spec
  | None => None
  end.

(** ** registry.go:193-224.  [None] is the returned error. *)
Definition idx_panic {A} : res A := Panic "runtime error: index out of range".
Definition fixed_array (t : string) : option codec :=
  match rev (split_char ";"%char (strip_ends t)) with
  | n :: ((_ :: _) as l) =>
      Some (CFixedArray (StringToInt (trim_space n)) (trim_space (join ";" (rev l))))
  | _ => None
  end.
Definition getCodecInstant (E : env) (module : string) (t : string) (spec : Z) : res (option codec) :=
  let t := ModuleType (to_lower t) module in
  match specialVersionCodec E t spec with
  | Some c => Ok (Some c)
  | None =>
      match assoc (to_lower t) (e_reg E) with
      | Some c => Ok (Some c)
      | None =>
          if String.eqb t "[]" then Ok None
          else match first_char t, last_char t with
               | Some a, Some z =>
                   if Ascii.eqb a "["%char && Ascii.eqb z "]"%char then Ok (fixed_array t) else Ok None
               | _, _ => idx_panic
               end
      end
  end.

(** registry.go:236: the regular expression splitting "Name<Args>" at its
    first '<' and its final '>', Args non-empty. *)
Fixpoint split_lt (s : string) : option (string * string) :=
  match s with
  | EmptyString => None
  | String c s' =>
      if Ascii.eqb c "<"%char then Some ("", s')
      else match split_lt s' with Some (a, b) => Some (String c a, b) | None => None end
  end.
Definition generic_parts (ts : string) : option (string * string) :=
  match split_lt ts with
  | Some (name, r) =>
      let sub := stake (String.length r - 1) r in
      match last_char r with
      | Some c => if Ascii.eqb c ">"%char && negb (String.eqb sub "") then Some (name, sub) else None
      | None => None
      end
  | None => None
  end.

(** The last element of strings.Split(s, "::"). *)
Fixpoint last_seg (best : string) (skip : nat) (s : string) : string :=
  match s with
  | EmptyString => best
  | String _ s' =>
      match skip with
      | S k => last_seg best k s'
      | O => if prefix "::" s then last_seg (sdrop 2 s) 1 s' else last_seg best O s'
      end
  end.

(** registry.go:226-268.  [Ok None] is "not found"; the second component is
    the sub type text.  The namespace rule recurses on a shorter string: the
    fuel is the length. *)
Fixpoint GetCodecClass_fuel (fuel : nat) (E : env) (module : string) (typeString : string) (spec : Z)
  : res (option (codec * string)) :=
  let ts := ConvertType typeString in
  match last_char ts with
  | None => Panic "runtime error: slice bounds out of range"
  | Some z =>
      let complex := Ascii.eqb z ">"%char in
      full <- (if complex then getCodecInstant E module ts spec else Ok None) ;;
      match full with
      | Some c => Ok (Some (c, ""))
      | None =>
          let parts := if complex then generic_parts ts else None in
          found <- match parts with
                   | Some (name, sub) =>
                       r <- getCodecInstant E module name spec ;;
                       Ok (match r with Some c => Some (c, sub) | None => None end)
                   | None =>
                       r <- getCodecInstant E module ts spec ;;
                       Ok (match r with Some c => Some (c, "") | None => None end)
                   end ;;
          match found with
          | Some p => Ok (Some p)
          | None =>
              if negb (String.eqb ts "()") && prefix "(" ts && Ascii.eqb z ")"%char then
                r <- getCodecInstant E module "Struct" spec ;;
                match r with
                | Some (CStruct _) => Ok (Some (CStruct (buildStruct ts), ""))
                | _ => Panic "interface conversion: not *types.Struct"
                end
              else if contains ts "::" && negb (String.eqb ts "::") then
                match fuel with
                | O => OutOfFuel
                | S f => GetCodecClass_fuel f E module (last_seg ts O ts) spec
                end
              else Ok None
          end
      end
  end.
Definition GetCodecClass (E : env) (module ts : string) (spec : Z) : res (option (codec * string)) :=
  GetCodecClass_fuel (String.length ts) E module ts spec.

(** ** The effect of Init on the sub type.
    base.go:74-76 (a non-empty option wins), Vectors.go:18-23 (Vec keeps its
    own), Vectors.go:66-75 (BoundedVec drops the size), types.go:236-239. *)
Definition pick_sub (own sub : string) : string := if String.eqb sub "" then own else sub.
Definition bounded_sub (own sub : string) : string :=
  match rev (split_char ","%char sub) with
  | size :: _ :: _ => replace_first sub ("," ++ size) ""
  | _ => pick_sub own sub
  end.
Definition init_sub (c : codec) (sub : string) : codec :=
  match c with
  | COption own => COption (pick_sub own sub)
  | CVec own => CVec (if String.eqb own "" then sub else own)
  | CBoundedVec own => CVec (bounded_sub own sub)
  | CAuthoritiesChange => CVec "AccountId"
  | CCompact own => CCompact (pick_sub own sub)
  | CBTreeMap own => CBTreeMap (pick_sub own sub)
  | CBox own => CBox (pick_sub own sub)
  | CResult own => CResult (pick_sub own sub)
  | CWrapperOpaque own => CWrapperOpaque (pick_sub own sub)
  | CRange own => CRange (pick_sub own sub)
  | c => c
  end.
