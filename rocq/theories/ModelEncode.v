(** Encoding: EncodeWithOpt (types/base.go:189-220) and the Encode method of
    every decoder (types/*.go). *)

From Verif Require Import GoBase SpecNum ModelTools ModelUint128 ModelJson ModelVal ModelFloat ModelRegistry ModelFixPoint ModelDecode.

(** Nested encodes pass on Spec and Metadata (never the module). *)
Definition encoder := Z -> option metadata -> string -> val -> res string.

(** reflect.Value.Call with an argument of the wrong type. *)
Definition bad_arg : res string := Panic "reflect: Call using wrong argument type".

(** ** Numbers *)

(** The int64 a number argument converts to, by the switch of the codec;
    [Some 0] in the callers is Go's zero value for a type not listed. *)
Definition le_hex (n : nat) (z : Z) : string := BytesToHex (le_bytes n z).

(** len(big.Int.Bytes()) *)
Definition num_bytes (z : Z) : Z := (bit_len z + 7) / 8.

(** Compact.go:76-113 *)
Definition compact_encode_dec (c e : Z) : string :=
  let ip := dec_intpart c e in
  let w := u32 (i64 (ip * 4)) in
  if ip <=? 63 then BytesToHex (firstn 1 (le_bytes 4 w))
  else if ip <=? 16383 then BytesToHex (firstn 2 (le_bytes 4 (Z.lor w 1)))
  else if ip <=? 1073741823 then BytesToHex (le_bytes 4 (Z.lor w 2))
  else
    let v := dec_int c e in
    let n := num_bytes v in
    if (255 <? n) || (63 <? (n - 4) mod 256) then ""
    else BytesToHex (Zb ((n - 4) mod 256 * 4 + 3) :: le_bytes (Z.to_nat n) (Z.abs v)).
Definition encode_compact (v : val) : res string :=
  match v with
  | VU64 z => Ok (compact_encode_dec (i64 z) 0)
  | VI64 z | VInt z => Ok (compact_encode_dec z 0)
  | VDec c e => Ok (compact_encode_dec c e)
  | VF64 w => '(c, e) <- NewFromFloat w ;; Ok (compact_encode_dec c e)
  | VStr s => match dec_of_string s with
              | Some (c, e) => Ok (compact_encode_dec c e)
              | None => Panic "can't convert to decimal"
              end
  | _ => Ok (compact_encode_dec 0 0)
  end.

(** Compact.go:149-179.  An int above 2^30-1 leaves the (empty) data. *)
Definition compact_u32_bytes (i : Z) : bytes :=
  let w := u32 (i64 (i * 4)) in
  if i <=? 63 then firstn 1 (le_bytes 4 w)
  else if i <=? 16383 then firstn 2 (le_bytes 4 (Z.lor w 1))
  else if i <=? 1073741823 then le_bytes 4 (Z.lor w 2)
  else [].
Definition encode_compact_u32 (v : val) : res string :=
  match v with
  | VInt z | VU32 z | VI64 z | VU16 z => Ok (BytesToHex (compact_u32_bytes z))
  | VDec c e => Ok (BytesToHex (compact_u32_bytes (dec_intpart c e)))
  | VF64 w => Ok (BytesToHex (compact_u32_bytes (f64_int w)))
  | _ => Ok (BytesToHex (compact_u32_bytes 0))
  end.

(** Uint.go:26-45 *)
Definition encode_u8 (v : val) : res string :=
  match v with
  | VInt z | VU32 z | VI64 z | VU16 z | VU8 z => Ok (U8Encode z)
  | VDec c e => Ok (U8Encode (dec_intpart c e))
  | VF64 w => Ok (U8Encode (f64_int w))
  | _ => Ok (U8Encode 0)
  end.
(** Uint.go:65-84 *)
Definition encode_u16 (v : val) : res string :=
  match v with
  | VInt z | VU32 z | VI64 z | VU16 z => Ok (le_hex 2 (u16 z))
  | VDec c e => Ok (le_hex 2 (u16 (dec_intpart c e)))
  | VF64 w => Ok (le_hex 2 (f64_u16 w))
  | _ => Ok (le_hex 2 0)
  end.
(** Uint.go:104-119 *)
Definition encode_u32 (v : val) : res string :=
  match v with
  | VInt z | VU32 z => Ok (le_hex 4 (u32 z))
  | VDec c e => Ok (le_hex 4 (u32 (dec_intpart c e)))
  | VF64 w => Ok (le_hex 4 (f64_u32 w))
  | _ => Ok (le_hex 4 0)
  end.
(** Uint.go:139-156 *)
Definition encode_u64 (v : val) : res string :=
  match v with
  | VInt z | VU32 z | VU64 z => Ok (le_hex 8 (u64 z))
  | VDec c e => Ok (le_hex 8 (u64 (dec_intpart c e)))
  | VF64 w => Ok (le_hex 8 (f64_u64 w))
  | _ => Ok (le_hex 8 0)
  end.
(** Uint.go:174-194 *)
Definition encode_u128 (v : val) : res string :=
  let put z := u <- FromBig z ;; Ok (BytesToHex (PutBytes u)) in
  match v with
  | VBig z | VI64 z | VInt z => put z
  | VDec c e => put (dec_int c e)
  | VStr s => match dec_of_string s with
              | Some (c, e) => put (dec_int c e)
              | None => Panic "can't convert to decimal"
              end
  | _ => Panic "U128 value not decimal or big int"
  end.
(** big.Int.Text(16) *)
Fixpoint hex_loop (fuel : nat) (n : Z) (acc : string) : string :=
  match fuel with
  | O => acc
  | S f => if n <? 16 then String (hex_digit n) acc
           else hex_loop f (n / 16) (String (hex_digit (n mod 16)) acc)
  end.
Definition hex_text (z : Z) : string :=
  if z <? 0 then "-" ++ hex_loop (S (Z.to_nat (Z.log2 (- z)))) (- z) ""
  else hex_loop (S (Z.to_nat (Z.log2 z))) z "".
(** Uint.go:209-240.  The slice case is unreachable: the switch is on the
    printed type name, which is never "slice".  "%064s" pads with zeros. *)
Definition text_bytes_hex (s : string) : string :=
  if has_prefix s "0x" then TrimHex s else BytesToHex (s2b s).
Definition encode_u256 (v : val) : res string :=
  let big z := Ok (BytesToHex (ReverseBytes (HexToBytes (right_justify0 (hex_text z) 64)))) in
  match v with
  | VStr s => if String.eqb s "" then Ok "" else Ok (text_bytes_hex s)
  | VDec c e => big (dec_int c e)
  | VBig z => big z
  | _ => Panic "invalid vec input"
  end.

(** binary.Write(buffer, LittleEndian, value): only values of fixed size. *)
Definition fixed_bytes (v : val) : option bytes :=
  match v with
  | VI64 z | VU64 z => Some (le_bytes 8 z)
  | VI32 z | VU32 z => Some (le_bytes 4 z)
  | VI16 z | VU16 z => Some (le_bytes 2 z)
  | VI8 z | VU8 z => Some (le_bytes 1 z)
  | VBool b => Some [Zb (if b then 1 else 0)]
  | VF64 w => Some (le_bytes 8 w)
  | VF32 w => Some (le_bytes 4 w)
  | VBytes b => Some b
  | _ => None
  end.
(** Int.go:76-110; big-endian as in the code. *)
Definition BigIntToIntBytes (i : Z) (n : Z) : res bytes :=
  let maxNeg := 2 ^ (8 * n - 1) in
  if 0 <=? i then
    if maxNeg - 1 <? i then Panic "cannot encode big.Int to []byte: exceeds highest positive number"
    else Ok (rev (le_bytes (Z.to_nat n) i))
  else if maxNeg <? - i then Panic "cannot encode big.Int to []byte: exceeds highest negative number"
  else Ok (map (fun b => Zb (255 - bZ b)) (rev (le_bytes (Z.to_nat n) (Z.abs (i + 1))))).
(** Int.go:40-69 *)
Definition encode_int_fixed (n : Z) (v : val) : res string :=
  if n <? 16 then
    match fixed_bytes v with
    | None => Panic "fixed write raise err"
    | Some b => Ok (BytesToHex (firstn (Z.to_nat n) (b ++ repeat "000"%char (Z.to_nat n))%list))
    end
  else
    let put z := b <- BigIntToIntBytes z n ;; Ok (BytesToHex b) in
    match v with
    | VF64 w => '(c, e) <- NewFromFloat w ;; put (dec_int c e)
    | VDec c e => put (dec_int c e)
    | VBig z => put z
    | VStr s => match dec_of_string s with
                | Some (c, e) => put (dec_int c e)
                | None => Panic "can't convert to decimal"
                end
    | _ => Panic "invalid intFixed value type"
    end.

(** ** Containers *)

(** reflect Kind Slice: the elements as interface values.  A []ExtrinsicParam
    (VParams) is not a supported input. *)
Definition elements (v : val) : option (list val) :=
  match v with
  | VNilSlice => Some []
  | VSlice l => Some l
  | VStrs None => Some []
  | VStrs (Some l) => Some (map VStr l)
  | VBytes b => Some (map (fun c => VU8 (bZ c)) b)
  | _ => None
  end.

(** utiles/tools.go:154-163, for a non-nil interface. *)
Definition is_nil (v : val) : bool :=
  match v with VNil | VNilSlice | VStrs None => true | _ => false end.

Fixpoint concat_res (l : list (res string)) : res string :=
  match l with
  | [] => Ok ""
  | r :: l' => s <- r ;; t <- concat_res l' ;; Ok (s ++ t)
  end.

(** len in hex of a Compact<u32> prefix: Encode("Compact<u32>", n). *)
Definition len_prefix (rec : encoder) (n : nat) : res string :=
  rec (-1) None "Compact<u32>" (VInt (Z.of_nat n)).

(** Bytes.go:20-32 *)
Definition pad_even (s : string) : string := if Nat.even (String.length s) then s else s ++ "0".
Definition encode_bytes (rec : encoder) (s : string) : res string :=
  let value := if has_prefix s "0x" then pad_even (TrimHex s) else BytesToHex (s2b s) in
  p <- len_prefix rec (List.length (HexToBytes value)) ;; Ok (p ++ value).
(** Bytes.go:44-51 *)
Definition encode_hex_bytes (rec : encoder) (s : string) : res string :=
  let value := pad_even (TrimHex s) in
  p <- len_prefix rec (List.length (HexToBytes value)) ;; Ok (p ++ value).
(** Bytes.go:59-62 *)
Definition encode_string (rec : encoder) (s : string) : res string :=
  p <- len_prefix rec (String.length s) ;; Ok (p ++ BytesToHex (s2b s)).

(** types.go:497-506; strconv.ParseUint(v, 2, 8): 0 on a syntax error, 255 on
    overflow (its documented result). *)
Definition parse_bin8 (s : string) : Z :=
  if negb (String.eqb s "") && forallb (fun c => Ascii.eqb c "0"%char || Ascii.eqb c "1"%char) (s2b s)
  then Z.min 255 (bin_val 0 s) else 0.
Definition encode_bitvec (rec : encoder) (s : string) : res string :=
  let b := map (fun v => Zb (parse_bin8 v)) (split_char "_"%char (trim_prefix s "0b")) in
  p <- len_prefix rec (List.length b) ;; Ok (p ++ BytesToHex b).

(** fmt.Sscanf(key, "Raw%d", &l) *)
Fixpoint digit_run (s : string) : string :=
  match s with
  | String c s' => if is_digit c then String c (digit_run s') else ""
  | EmptyString => ""
  end.
Definition scan_raw (key : string) : option Z :=
  let s := trim_left (sdrop 3 key) in
  let '(sg, s) := match s with
                  | String c s' => if Ascii.eqb c "-"%char then (-1, s') else if Ascii.eqb c "+"%char then (1, s') else (1, s)
                  | EmptyString => (1, s)
                  end in
  match parse_digits (digit_run s) with
  | Some n => if (- two63 <=? sg * n) && (sg * n <? two63) then Some (sg * n) else None
  | None => None
  end.
(** types.go:374-400 *)
Definition encode_data (rec : encoder) (m : list (string * val)) : res string :=
  match m with
  | [] => Panic "empty enum"
  | (key, v) :: _ =>
      let i := SliceIndex key data_names in
      if -1 <? i then
        if String.eqb key "None" then rec (-1) None "U8" (VInt 0)
        else a <- rec (-1) None "U8" (VInt (i + 32)) ;;
             match v with
             | VStr _ => b <- rec (-1) None (nth (Z.to_nat i) data_types "") v ;; Ok (a ++ b)
             | _ => Panic "interface conversion: interface {} is not string"
             end
      else if has_prefix key "Raw" then
        match scan_raw key with
        | None => Panic "invalid data Raw data key"
        | Some l =>
            a <- rec (-1) None "U8" (VInt (i64 (l + 1))) ;;
            match v with
            | VStr s => if i64 (l + 1) =? Z.of_nat (String.length s) then Ok (a ++ s) else Ok (a ++ BytesToHex (s2b s))
            | _ => Panic "interface conversion: interface {} is not string"
            end
        end
      else Panic "invalid enum key"
  end.

(** Enum.go:77-129 *)
Fixpoint value_list_index (E : env) (v : val) (i : Z) (vl : list string) : res string :=
  match vl with
  | [] => Ok ""
  | s :: r => if String.eqb (ToString E v) s then Ok (U8Encode i) else value_list_index E v (i + 1) r
  end.
Fixpoint name_index (k : string) (i : Z) (tm : typemap) : option (Z * string) :=
  match tm with
  | [] => None
  | (n, t) :: r => if String.eqb n k then Some (i, t) else name_index k (i + 1) r
  end.
Fixpoint encode_rows (rec : string -> val -> res string) (rows : list (list string)) (m : list (string * val)) : res string :=
  match rows with
  | [] => Ok ""
  | (n :: t :: _) :: r => a <- rec t (map_get n m) ;; b <- encode_rows rec r m ;; Ok (a ++ b)
  | _ => Panic "runtime error: index out of range"
  end.
Fixpoint encode_enum_map (rec : string -> val -> res string) (tm : typemap) (m : list (string * val)) : option (res string) :=
  match m with
  | [] => None
  | (k, v) :: r =>
      match name_index k 0 tm with
      | None => encode_enum_map rec tm r
      | Some (i, sub) =>
          Some (match struct_variant sub with
                | Some rows =>
                    match v with
                    | VMap fm => a <- encode_rows rec rows fm ;; Ok (U8Encode i ++ a)
                    | _ => Panic "interface conversion: interface {} is not map[string]interface {}"
                    end
                | None => a <- rec sub v ;; Ok (U8Encode i ++ a)
                end)
      end
  end.
Fixpoint c_like_index (E : env) (v : val) (tm : typemap) : option string :=
  match tm with
  | [] => None
  | (n, t) :: r => if String.eqb n (ToString E v) then Some (U8Encode (StringToInt t)) else c_like_index E v r
  end.
Definition encode_enum (E : env) (rec : string -> val -> res string) (tm : option typemap) (vl : list string) (v : val) : res string :=
  let by_value := value_list_index E v 0 vl in
  match tm with
  | None => by_value
  | Some tm =>
      match (if c_like tm then c_like_index E v tm else None) with
      | Some s => Ok s
      | None =>
          match v with
          | VMap m => match encode_enum_map rec tm m with Some r => r | None => by_value end
          | VStr s => match name_index s 0 tm with Some (i, _) => Ok (U8Encode i) | None => by_value end
          | _ => by_value
          end
      end
  end.

(** Call.go:39-68 *)
Fixpoint encode_args (rec : string -> val -> res string) (args : list (string * string)) (ps : list val) : res string :=
  match args with
  | [] => Ok ""
  | (_, t) :: r =>
      match ps with
      | [] => Panic "runtime error: index out of range"
      | v :: ps' => a <- rec t v ;; b <- encode_args rec r ps' ;; Ok (a ++ b)
      end
  end.
Definition encode_call (E : env) (rec : string -> val -> res string) (meta : option metadata) (v : val) : res string :=
  match meta with
  | None => Panic "nil metadata"
  | Some md =>
      let box := match v with
                 | VBox i ps cs => Some (i, ps, cs)
                 | VMap m => e_box E m
                 | _ => None
                 end in
      match box with
      | None => Panic "input value is not valid boxCall"
      | Some (i, ps, cs) =>
          let ps := match cs with [] => ps | _ => cs end in
          let idx := TrimHex i in
          match assoc idx md with
          | None => Panic "Not find Extrinsic Lookup"
          | Some cm => a <- encode_args rec (cm_args cm) ps ;; Ok (idx ++ a)
          end
      end
  end.

(** ** The Encode method found by reflection for each decoder.  Embedding:
    Moment, SubstrateFixedU64 -> U64; Balance -> U128; CompactMoment ->
    CompactU32; OpaqueCall -> Bytes; EthereumAddress -> H160; LogDigest ->
    Enum.  Decoders without Encode panic (base.go:101-103). *)
Definition no_encode : res string := Panic "not found base type".
Definition on_string (v : val) (f : string -> res string) : res string :=
  match v with VStr s => f s | _ => bad_arg end.
Definition on_map (v : val) (f : list (string * val) -> res string) : res string :=
  match v with VMap m => f m | _ => bad_arg end.

Definition encode_codec (E : env) (rec : encoder) (spec : Z) (meta : option metadata) (cd : codec) (v : val) : res string :=
  let sub t x := rec spec meta t x in
  match cd with
  | CEmpty => Ok ""                                             (* types.go:44 *)
  | CU8 => encode_u8 v
  | CU16 => encode_u16 v
  | CU32 => encode_u32 v
  | CU64 | CMoment | CSubstrateFixedU64 => encode_u64 v
  | CU128 | CBalance => encode_u128 v
  | CU256 => encode_u256 v
  | CIntFixed n => encode_int_fixed n v
  | CBool => match v with VBool b => Ok (if b then "01" else "00") | _ => bad_arg end   (* Bool.go:11-16 *)
  | CH160 | CH256 | CH512 | CEthereumAddress => on_string v (fun s => Ok (AddHex (to_lower s)))  (* types.go:50-84 *)
  | CAccountId | CEra => on_string v (fun s => Ok s)            (* types.go:103-105, 186-188 *)
  | CBytes | COpaqueCall => on_string v (encode_bytes rec)
  | CHexBytes => on_string v (encode_hex_bytes rec)
  | CString => on_string v (encode_string rec)
  | CBitVec => on_string v (encode_bitvec rec)
  | CCompact _ => encode_compact v
  | CCompactU32 | CCompactMoment => encode_compact_u32 v
  | COption t =>                                                (* Option.go:24-38 *)
      if (match v with VStr s => String.eqb s "" | _ => false end) || is_nil v then Ok "00"
      else if String.eqb t "bool" then
        match v with VBool b => Ok (if b then "01" else "02") | _ => Panic "interface conversion: interface {} is not bool" end
      else a <- sub t v ;; Ok ("01" ++ a)
  | CResult t =>                                                (* Results.go:29-41 *)
      on_map v (fun m =>
        match split_char ","%char t with
        | [t_ok; t_err] =>
            match assoc "Ok" m with
            | Some x => a <- sub t_ok x ;; Ok ("00" ++ a)
            | None => match assoc "Error" m with
                      | Some x => a <- sub t_err x ;; Ok ("01" ++ a)
                      | None => Panic "illegal Result data"
                      end
            end
        | _ => Panic "Result subType not illegal"
        end)
  | CStruct tm =>                                               (* Struct.go:27-35 *)
      on_map v (fun m =>
        match tm with
        | None => Ok ""
        | Some tm => concat_res (map (fun p => sub (snd p) (map_get (fst p) m)) tm)
        end)
  | CVec t | CBoundedVec t =>                                   (* Vectors.go:38-54 *)
      match v with
      | VStr s => if String.eqb s "" then len_prefix rec 0 else Panic "invalid vec input"
      | _ =>
          match elements v with
          | Some l => p <- len_prefix rec (List.length l) ;;
                      r <- concat_res (map (fun x => s <- sub t x ;; Ok (TrimHex s)) l) ;; Ok (p ++ r)
          | None => Panic "invalid vec input"
          end
      end
  | CFixedU8 _ =>                                               (* FixedU8.go:24-38 *)
      match v with
      | VStr s => Ok (text_bytes_hex s)
      | VBytes b => Ok (TrimHex (BytesToHex b))
      | _ => Panic "type error,only support string or []byte"
      end
  | CFixedArray n t =>                                          (* FixedArray.go:50-76 *)
      match v with
      | VStr s => if String.eqb s "" then Ok "" else Ok (text_bytes_hex s)
      | _ =>
          match elements v with
          | Some l => if Z.of_nat (List.length l) =? n then concat_res (map (sub t) l)
                      else Panic "fixed length not match"
          | None => Panic "invalid vec input"
          end
      end
  | CEnum tm vl => encode_enum E sub tm vl v
  | CLogDigest => encode_enum E sub None log_digest_list v
  | CData => on_map v (encode_data rec)
  | CCall => encode_call E sub meta v
  | CAuthoritiesChange => Panic "initialised as CVec"
  | CNull | CFloat64 | CFloat32 | CAddress | CGenericAddress | CGenericLookupSource | CSet _ _
  | CLockIdentifier | CEcdsaSignature | CBTreeMap _ | CBox _ | CWrapperOpaque _ | CRange _
  | CSubstrateFixedI128 | COpaque _ => no_encode
  end.

(** base.go:193-220 *)
Fixpoint encode (fuel : nat) (E : env) (spec : Z) (meta : option metadata) (ts : string) (v : val) : res string :=
  match fuel with
  | O => OutOfFuel
  | S f =>
      if equal_fold ts "Null" then Ok ""
      else
        r <- GetCodecClass E "" ts spec ;;
        match r with
        | None => Panic ("Not found decoder class " ++ ts)
        | Some (cd, sub) =>
            out <- encode_codec E (encode f E) spec meta (init_sub cd sub)
                     (match v with VNil => VStr "" | _ => v end) ;;
            Ok (TrimHex (to_lower out))
        end
  end.

(** base.go:189-191: Encode(typeString, data). *)
Definition Encode (fuel : nat) (E : env) (ts : string) (v : val) : res string := encode fuel E (-1) None ts v.

(** An encode that finishes: with enough stack the call gives [r] (text or a
    panic). *)
Definition EncodesTo (E : env) (spec : Z) (meta : option metadata) (ts : string) (v : val) (r : res string) : Prop :=
  r <> OutOfFuel /\ exists fuel, forall fuel', (fuel <= fuel')%nat -> encode fuel' E spec meta ts v = r.
Definition Encodes (E : env) (spec : Z) (meta : option metadata) (ts : string) (v : val) (s : string) : Prop :=
  EncodesTo E spec meta ts v (Ok s).
