(** Encoding while other goroutines register types: types/base.go:193-220 and
    the Encode methods, with the registry read anew at every lock operation.
    An Encode method is written as a plan: the nested Encode calls it makes, in
    order, and what it does with their results. *)

From Verif Require Import GoBase ModelTools ModelJson ModelVal ModelRegistry ModelDecode ModelEncode ModelRegister ModelLive.

Inductive plan :=
| Done (r : res string)
| Ask (spec : Z) (meta : option metadata) (t : string) (v : val) (k : string -> plan).
Fixpoint andthen (p : plan) (f : string -> plan) : plan :=
  match p with
  | Done (Ok s) => f s
  | Done r => Done r
  | Ask spec meta t v k => Ask spec meta t v (fun s => andthen (k s) f)
  end.
Definition ask (spec : Z) (meta : option metadata) (t : string) (v : val) : plan := Ask spec meta t v (fun s => Done (Ok s)).
(** Encode called without options: Encode("Compact<u32>", n) *)
Definition plan_len (n : nat) : plan := ask (-1) None "Compact<u32>" (VInt (Z.of_nat n)).

(** Bytes.go:20-62, types.go:497-506 *)
Definition plan_bytes (s : string) : plan :=
  let value := if has_prefix s "0x" then pad_even (TrimHex s) else BytesToHex (s2b s) in
  andthen (plan_len (List.length (HexToBytes value))) (fun p => Done (Ok (p ++ value))).
Definition plan_hex_bytes (s : string) : plan :=
  let value := pad_even (TrimHex s) in
  andthen (plan_len (List.length (HexToBytes value))) (fun p => Done (Ok (p ++ value))).
Definition plan_string (s : string) : plan := andthen (plan_len (String.length s)) (fun p => Done (Ok (p ++ BytesToHex (s2b s)))).
Definition plan_bitvec (s : string) : plan :=
  let b := map (fun v => Zb (parse_bin8 v)) (split_char "_"%char (trim_prefix s "0b")) in
  andthen (plan_len (List.length b)) (fun p => Done (Ok (p ++ BytesToHex b))).
(** types.go:374-400 *)
Definition plan_data (m : list (string * val)) : plan :=
  match m with
  | [] => Done (Panic "empty enum")
  | (key, v) :: _ =>
      let i := SliceIndex key data_names in
      if -1 <? i then
        if String.eqb key "None" then ask (-1) None "U8" (VInt 0)
        else andthen (ask (-1) None "U8" (VInt (i + 32))) (fun a =>
             match v with
             | VStr _ => andthen (ask (-1) None (nth (Z.to_nat i) data_types "") v) (fun b => Done (Ok (a ++ b)))
             | _ => Done (Panic "interface conversion: interface {} is not string")
             end)
      else if has_prefix key "Raw" then
        match scan_raw key with
        | None => Done (Panic "invalid data Raw data key")
        | Some l =>
            andthen (ask (-1) None "U8" (VInt (i64 (l + 1)))) (fun a =>
            match v with
            | VStr s => Done (if i64 (l + 1) =? Z.of_nat (String.length s) then Ok (a ++ s) else Ok (a ++ BytesToHex (s2b s)))
            | _ => Done (Panic "interface conversion: interface {} is not string")
            end)
        end
      else Done (Panic "invalid enum key")
  end.
(** A list of elements, one after the other: Struct.go:27-35, Vectors.go:38-54,
    FixedArray.go:50-76 *)
Fixpoint plan_all (spec : Z) (meta : option metadata) (l : list (string * val)) (each : string -> string) : plan :=
  match l with
  | [] => Done (Ok "")
  | (t, v) :: r => andthen (ask spec meta t v) (fun a => andthen (plan_all spec meta r each) (fun b => Done (Ok (each a ++ b))))
  end.
(** Enum.go:77-129 *)
Fixpoint plan_rows (spec : Z) (meta : option metadata) (rows : list (list string)) (m : list (string * val)) : plan :=
  match rows with
  | [] => Done (Ok "")
  | (n :: t :: _) :: r => andthen (ask spec meta t (map_get n m)) (fun a => andthen (plan_rows spec meta r m) (fun b => Done (Ok (a ++ b))))
  | _ => Done (Panic "runtime error: index out of range")
  end.
Fixpoint plan_enum_map (spec : Z) (meta : option metadata) (tm : typemap) (m : list (string * val)) : option plan :=
  match m with
  | [] => None
  | (k, v) :: r =>
      match name_index k 0 tm with
      | None => plan_enum_map spec meta tm r
      | Some (i, sub) =>
          Some (match struct_variant sub with
                | Some rows =>
                    match v with
                    | VMap fm => andthen (plan_rows spec meta rows fm) (fun a => Done (Ok (U8Encode i ++ a)))
                    | _ => Done (Panic "interface conversion: interface {} is not map[string]interface {}")
                    end
                | None => andthen (ask spec meta sub v) (fun a => Done (Ok (U8Encode i ++ a)))
                end)
      end
  end.
Definition plan_enum (E : env) (spec : Z) (meta : option metadata) (tm : option typemap) (vl : list string) (v : val) : plan :=
  let by_value := Done (value_list_index E v 0 vl) in
  match tm with
  | None => by_value
  | Some tm =>
      match (if c_like tm then c_like_index E v tm else None) with
      | Some s => Done (Ok s)
      | None =>
          match v with
          | VMap m => match plan_enum_map spec meta tm m with Some r => r | None => by_value end
          | VStr s => match name_index s 0 tm with Some (i, _) => Done (Ok (U8Encode i)) | None => by_value end
          | _ => by_value
          end
      end
  end.
(** Call.go:39-68 *)
Fixpoint plan_args (spec : Z) (meta : option metadata) (args : list (string * string)) (ps : list val) : plan :=
  match args with
  | [] => Done (Ok "")
  | (_, t) :: r =>
      match ps with
      | [] => Done (Panic "runtime error: index out of range")
      | v :: ps' => andthen (ask spec meta t v) (fun a => andthen (plan_args spec meta r ps') (fun b => Done (Ok (a ++ b))))
      end
  end.
Definition plan_call (E : env) (spec : Z) (meta : option metadata) (v : val) : plan :=
  match meta with
  | None => Done (Panic "nil metadata")
  | Some md =>
      let box := match v with VBox i ps cs => Some (i, ps, cs) | VMap m => e_box E m | _ => None end in
      match box with
      | None => Done (Panic "input value is not valid boxCall")
      | Some (i, ps, cs) =>
          let ps := match cs with [] => ps | _ => cs end in
          let idx := TrimHex i in
          match assoc idx md with
          | None => Done (Panic "Not find Extrinsic Lookup")
          | Some cm => andthen (plan_args spec meta (cm_args cm) ps) (fun a => Done (Ok (idx ++ a)))
          end
      end
  end.

(** The Encode method of each decoder (see ModelEncode.encode_codec for the
    lines); those that call no Encode are taken from there. *)
Definition on_text (v : val) (f : string -> plan) : plan := match v with VStr s => f s | _ => Done bad_arg end.
Definition plan_codec (E : env) (spec : Z) (meta : option metadata) (cd : codec) (v : val) : plan :=
  match cd with
  | CBytes | COpaqueCall => on_text v plan_bytes
  | CHexBytes => on_text v plan_hex_bytes
  | CString => on_text v plan_string
  | CBitVec => on_text v plan_bitvec
  | COption t =>
      if (match v with VStr s => String.eqb s "" | _ => false end) || is_nil v then Done (Ok "00")
      else if String.eqb t "bool" then
        match v with VBool b => Done (Ok (if b then "01" else "02")) | _ => Done (Panic "interface conversion: interface {} is not bool") end
      else andthen (ask spec meta t v) (fun a => Done (Ok ("01" ++ a)))
  | CResult t =>
      match v with
      | VMap m =>
        match split_char ","%char t with
        | [t_ok; t_err] =>
            match assoc "Ok" m with
            | Some x => andthen (ask spec meta t_ok x) (fun a => Done (Ok ("00" ++ a)))
            | None => match assoc "Error" m with
                      | Some x => andthen (ask spec meta t_err x) (fun a => Done (Ok ("01" ++ a)))
                      | None => Done (Panic "illegal Result data")
                      end
            end
        | _ => Done (Panic "Result subType not illegal")
        end
      | _ => Done bad_arg
      end
  | CStruct tm =>
      match v with
      | VMap m => match tm with None => Done (Ok "") | Some tm => plan_all spec meta (map (fun p => (snd p, map_get (fst p) m)) tm) (fun s => s) end
      | _ => Done bad_arg
      end
  | CVec t | CBoundedVec t =>
      match v with
      | VStr s => if String.eqb s "" then plan_len 0 else Done (Panic "invalid vec input")
      | _ =>
          match elements v with
          | Some l => andthen (plan_len (List.length l)) (fun p => andthen (plan_all spec meta (map (fun x => (t, x)) l) TrimHex) (fun r => Done (Ok (p ++ r))))
          | None => Done (Panic "invalid vec input")
          end
      end
  | CFixedArray n t =>
      match v with
      | VStr s => Done (if String.eqb s "" then Ok "" else Ok (text_bytes_hex s))
      | _ =>
          match elements v with
          | Some l => if Z.of_nat (List.length l) =? n then plan_all spec meta (map (fun x => (t, x)) l) (fun s => s)
                      else Done (Panic "fixed length not match")
          | None => Done (Panic "invalid vec input")
          end
      end
  | CEnum tm vl => plan_enum E spec meta tm vl v
  | CLogDigest => plan_enum E spec meta None log_digest_list v
  | CData => match v with VMap m => plan_data m | _ => Done bad_arg end
  | CCall => plan_call E spec meta v
  | cd => Done (encode_codec E (fun _ _ _ _ => OutOfFuel) spec meta cd v)
  end.

(** A plan carried out by one goroutine alone *)
Fixpoint run_plan (rec : encoder) (p : plan) : res string :=
  match p with
  | Done r => r
  | Ask spec meta t v k => s <- rec spec meta t v ;; run_plan rec (k s)
  end.
(** and with the reads of the registry counted *)
Definition live_text := res (string * nat).
Fixpoint run_plan_live (rec : nat -> Z -> option metadata -> string -> val -> live_text) (p : plan) (n : nat) : live_text :=
  match p with
  | Done (Ok s) => Ok (s, n)
  | Done (Panic m) => Panic m
  | Done OutOfFuel => OutOfFuel
  | Ask spec meta t v k => '(s, n) <- rec n spec meta t v ;; run_plan_live rec (k s) n
  end.
(** base.go:193-220 *)
Fixpoint encode_live (w : world) (like : env) (fuel n : nat) (spec : Z) (meta : option metadata) (ts : string) (v : val) : live_text :=
  match fuel with
  | O => OutOfFuel
  | S f =>
      if equal_fold ts "Null" then Ok ("", n)
      else
        '(r, n) <- class_live w (String.length ts) n "" ts spec ;;
        match r with
        | None => Panic ("Not found decoder class " ++ ts)
        | Some (cd, sub) =>
            '(out, n) <- run_plan_live (encode_live w like f) (plan_codec like spec meta (init_sub cd sub) (match v with VNil => VStr "" | _ => v end)) n ;;
            Ok (TrimHex (to_lower out), n)
        end
  end.
