(** Extrinsics: extrinsic.go.  [decode] is ProcessAndUpdateData and [encode]
    EncodeWithOpt; the blake2b-256 digest is a parameter. *)

From Verif Require Import GoBase ModelTools ModelVal ModelFloat ModelRegistry ModelDecode ModelEncode ModelScaleInfo ModelMetadata.

(** metadata.go:119-128: the identifiers and the extensions (identifier and
    TypeString); None is a nil ExtrinsicMetadata. *)
Record xextra := XExtra { xe_ids : list string; xe_exts : list (string * string) }.
(** base.go:16-27, the part of the option that is read: the metadata's version,
    extrinsic part and call table, the spec version, Option.SignedExtensions
    (name, then name and type of each value) and Option.AdditionalCheck. *)
Record xopt := XOpt { xo_spec : Z; xo_module : string; xo_version : Z; xo_extra : option xextra; xo_calls : table mcall;
                      xo_signed : list (string * list (string * string)); xo_check : list string }.

(** extrinsic.go:15-20 *)
Record xparam := XParam { xp_name : string; xp_type : string; xp_tyname : string; xp_value : val }.
(** extrinsic.go:83-102.  [g_tip] is coefficient and exponent. *)
Record generic := Generic {
  g_version : string; g_length : Z; g_address_type : string; g_tip : Z * Z; g_exts : list (string * val); g_account : val; g_signer : val;
  g_signature : string; g_signature_raw : val; g_nonce : Z; g_era : string; g_hash : string; g_function : string; g_code : string; g_module : string;
  g_params : list xparam; g_raw : string; g_ext_version : Z }.

(** extrinsic.go:41-52; a missing key is false *)
Definition signedExts : list (string * bool) :=
  [("CheckSpecVersion", false); ("CheckTxVersion", false); ("CheckGenesis", false); ("CheckMortality", false); ("CheckNonce", false);
   ("CheckWeight", false); ("ChargeTransactionPayment", true); ("CheckBlockGasLimit", false); ("ChargeAssetTxPayment", true); ("CheckMetadataHash", true)].
Definition sent (check : list string) (id : string) : bool :=
  match assoc id signedExts with Some b => b | None => false end || (0 <=? SliceIndex id check).

(** utiles/tools.go:194-213 *)
Definition DecimalFromInterface (v : val) : res (Z * Z) :=
  match v with
  | VInt z | VI64 z => Ok (z, 0)
  | VU64 z => Ok (i64 z, 0)
  | VF64 w => NewFromFloat w
  | VStr s => Ok (match dec_of_string s with Some d => d | None => (0, 0) end)
  | VDec c e => Ok (c, e)
  | VBig z => Ok (z, 0)
  | _ => Ok (0, 0)
  end.

Definition nil_extra {A} : res A := Panic "runtime error: invalid memory address or nil pointer dereference".
(** registry.go:35-40 *)
Definition has_reg (E : env) (name : string) : bool := match assoc (to_lower name) (e_reg E) with Some _ => true | None => false end.
(** extrinsic.go:122, 181 *)
Definition signer_type (E : env) (version : Z) (other : string) : string :=
  if (14 <=? version) && has_reg E "ExtrinsicSigner" then "ExtrinsicSigner" else other.

Section Process.
Variable fuel : nat.
Variable E : env.
Variable blake2b_256 : bytes -> bytes.
Variable opt : xopt.
Variable data : bytes.

Definition x_ctx (module : string) : ctx := Ctx (xo_spec opt) module (Some (codec_calls (xo_calls opt))).
Definition xpud (module : string) (off : Z) (ts : string) : res (val * Z) :=
  '(v, o, _) <- decode fuel E (x_ctx module) data off ts ;; Ok (v, o).

(** extrinsic.go:65-81.  Compact.go:149-179 leaves no bytes for a length of
    2^30 or more. *)
Definition generate_hash (signed : bool) (length : Z) : string :=
  if signed then BytesToHex (blake2b_256 (if 0 <? length then data else (compact_u32_bytes (blen data) ++ data)%list)) else "".

(** extrinsic.go:123-132: account and address type; a map is left with its
    last entry. *)
Definition address_of (v : val) : val * string :=
  match v with
  | VStr s => (VStr s, "AccountId")
  | VMap m => fold_left (fun _ p => (snd p, fst p)) m (VNil, "")
  | _ => (VNil, "")
  end.
(** extrinsic.go:135-142 *)
Definition signature_of (v : val) : res string :=
  match v with
  | VStr s => Ok s
  | VMap m => fold_left (fun a p => _ <- a ;; match snd p with VStr s => Ok s | _ => Panic "interface conversion: interface {} is not string" end) m (Ok "")
  | _ => Ok ""
  end.
Definition as_string (v : val) : res string :=
  match v with VStr s => Ok s | _ => Panic "interface conversion: interface {} is not string" end.
Definition as_nonce (v : val) : res Z :=
  match v with VU64 z => Ok (i64 z) | _ => Panic "interface conversion: interface {} is not uint64" end.

Definition read_tip (module : string) (off : Z) : res (Z * Z * Z) :=
  '(v, o) <- xpud module off "Compact<Balance>" ;; t <- DecimalFromInterface v ;; Ok (t, o).
(** extrinsic.go:156-160 *)
Fixpoint option_values (module : string) (l : list (string * string)) (acc : list (string * val)) (off : Z) : res (list (string * val) * Z) :=
  match l with
  | [] => Ok (acc, off)
  | (n, t) :: r => '(v, o) <- xpud module off t ;; option_values module r (map_set n v acc) o
  end.
Fixpoint option_exts (module : string) (ids : list string) (l : list (string * list (string * string))) (acc : list (string * val)) (off : Z) : res (list (string * val) * Z) :=
  match l with
  | [] => Ok (acc, off)
  | (n, vs) :: r =>
      '(acc, o) <- (if negb (SliceIndex n ids =? -1) then option_values module vs acc off else Ok (acc, off)) ;;
      option_exts module ids r acc o
  end.
(** extrinsic.go:164-172, 207-215 *)
Fixpoint meta_exts (module : string) (l : list (string * string)) (tip : Z * Z) (acc : list (string * val)) (off : Z) : res (Z * Z * list (string * val) * Z) :=
  match l with
  | [] => Ok (tip, acc, off)
  | (id, ts) :: r =>
      if sent (xo_check opt) id then
        if String.eqb id "ChargeTransactionPayment" then
          '(tip, o) <- read_tip module off ;; meta_exts module r tip acc o
        else
          '(v, o) <- xpud module off ts ;; meta_exts module r tip (map_set id v acc) o
      else meta_exts module r tip acc off
  end.

(** extrinsic.go:145-175: tip and extensions of a version 4 extrinsic *)
Definition extra_v4 (module : string) (off : Z) : res (Z * Z * list (string * val) * Z) :=
  '(tip, o) <- match xo_extra opt with
               | Some x => if (xo_version opt <? 14) && negb (SliceIndex "ChargeTransactionPayment" (xe_ids x) =? -1)
                           then read_tip module off else Ok ((0, 0), off)
               | None => read_tip module off
               end ;;
  match xo_signed opt with
  | _ :: _ =>
      match xo_extra opt with
      | Some x => '(acc, o) <- option_exts module (xe_ids x) (xo_signed opt) [] o ;; Ok (tip, acc, o)
      | None => nil_extra
      end
  | [] =>
      if 14 <=? xo_version opt then
        match xo_extra opt with Some x => meta_exts module (xe_exts x) tip [] o | None => nil_extra end
      else Ok (tip, [], o)
  end.
(** extrinsic.go:205-215 *)
Definition extra_v5 (module : string) (off : Z) : res (Z * Z * list (string * val) * Z) :=
  match xo_extra opt with Some x => meta_exts module (xe_exts x) (0, 0) [] off | None => nil_extra end.

(** extrinsic.go:120-177 and 179-219: signer, signature, extension version,
    era, nonce, tip, extensions *)
Record sigpart := SigPart { sp_signer : val; sp_sig : val; sp_sigtext : string; sp_extver : Z; sp_era : string; sp_nonce : Z; sp_tip : Z * Z; sp_exts : list (string * val) }.
Definition signed_part (v5 : bool) (module : string) (off : Z) : res (sigpart * Z) :=
  '(signer, o) <- xpud module off (signer_type E (xo_version opt) "Address") ;;
  '(sig, o) <- xpud module o "ExtrinsicSignature" ;;
  '(xv, o) <- (if v5 : bool then
                 '(v, o) <- xpud module o "U8" ;;
                 match v with VInt z => Ok (z, o) | _ => Panic "interface conversion: interface {} is not int" end
               else Ok (0, o)) ;;
  st <- signature_of sig ;;
  '(v, o) <- xpud module o "EraExtrinsic" ;;
  era <- as_string v ;;
  '(v, o) <- xpud module o "Compact<U64>" ;;
  nonce <- as_nonce v ;;
  '(tip, exts, o) <- (if v5 then extra_v5 module o else extra_v4 module o) ;;
  Ok (SigPart signer sig st xv era nonce tip exts, o).

(** extrinsic.go:237-239 *)
Fixpoint args_loop (module : string) (l : list marg) (off : Z) : res (list xparam * Z) :=
  match l with
  | [] => Ok ([], off)
  | a :: r =>
      '(v, o) <- xpud module off (a_type a) ;;
      '(ps, o2) <- args_loop module r o ;;
      Ok (XParam (a_name a) (a_type a) (a_tyname a) v :: ps, o2)
  end.

(** extrinsic.go:111-250, from the version byte; [length] is e.ExtrinsicLength.
    A decoder is used once after Init: the fields kept in the decoder start
    empty. *)
Definition extrinsic_body (length o : Z) : res generic :=
  let module := xo_module opt in
  '(b, o) <- next_bytes data o 1 ;;
  let version := BytesToHex b in
  signed <- match ModelTools.U256 version with
            | Some z => Ok (80 <=? i64 z)
            | None => nil_extra
            end ;;
  let v4 := String.eqb version "04" || String.eqb version "84" in
  let v5 := String.eqb version "05" || String.eqb version "85" in
  if negb (v4 || v5) then Panic ("Extrinsics version " ++ version ++ " is not support") else
  '(sp, o) <- (if signed : bool then '(sp, o) <- signed_part (negb v4) module o ;; Ok (Some sp, o) else Ok (None, o)) ;;
  '(b, o) <- next_bytes data o 2 ;;
  let code := BytesToHex b in
  if String.eqb code "" then Panic "Not find Extrinsic Lookup, please check type registry" else
  match assoc code (xo_calls opt) with
  | None => Panic ("Not find Extrinsic Lookup " ++ code ++ ", please check metadata info")
  | Some en =>
      '(ps, o2) <- args_loop (en_module en) (k_args (en_item en)) o ;;
      raw <- slice data o o2 ;;
      let fn := k_name (en_item en) in
      Ok (match sp with
          | None => Generic version length "" (0, 0) [] VNil VNil "" VNil 0 "" "" fn code (en_module en) ps (BytesToHex raw) 0
          | Some s =>
              let '(acc, at_) := address_of (sp_signer s) in
              Generic version length at_ (sp_tip s) (sp_exts s) acc (sp_signer s) (sp_sigtext s) (sp_sig s) (sp_nonce s) (sp_era s)
                (generate_hash signed length) fn code (en_module en) ps (BytesToHex raw) (sp_extver s)
          end)
  end.
(** extrinsic.go:104-109: without a matching length prefix the reading starts
    again at the beginning. *)
Definition extrinsic_process : res generic :=
  '(v, o) <- xpud (xo_module opt) 0 "Compact<u32>" ;;
  n <- match v with VInt n => Ok n | _ => Panic "interface conversion: interface {} is not int" end ;;
  let '(length, o) := if n =? blen data - o then (n, o) else (0, 0) in
  extrinsic_body length o.
End Process.

(** ** extrinsic.go:276-314 *)
Section Encode.
Variable fuel : nat.
Variable E : env.
Variable opt : xopt.

(** extrinsic.go:289-295: for each entry of the map, in iteration order, every
    extension of that identifier *)
Fixpoint ext_matches (l : list (string * string)) (id : string) (v : val) : res string :=
  match l with
  | [] => Ok ""
  | (id', ts) :: r =>
      a <- (if String.eqb id' id then Encode fuel E ts v else Ok "") ;;
      b <- ext_matches r id v ;; Ok (a ++ b)
  end.
Fixpoint ext_values (exts : list (string * string)) (l : list (string * val)) : res string :=
  match l with
  | [] => Ok ""
  | (id, v) :: r => a <- ext_matches exts id v ;; b <- ext_values exts r ;; Ok (a ++ b)
  end.
(** extrinsic.go:309-311 *)
Fixpoint args_text (l : list marg) (ps : list xparam) : res string :=
  match l, ps with
  | a :: r, p :: ps' =>
      s <- encode fuel E (xo_spec opt) (Some (codec_calls (xo_calls opt))) (a_type a) (xp_value p) ;;
      t <- args_text r ps' ;; Ok (TrimHex s ++ t)
  | _, _ => Ok ""
  end.
Definition signed_text (g : generic) : res string :=
  a <- Encode fuel E (signer_type E (xo_version opt) "AccountId") (g_signer g) ;;
  b <- Encode fuel E "ExtrinsicSignature" (g_signature_raw g) ;;
  c <- Encode fuel E "EraExtrinsic" (VStr (g_era g)) ;;
  d <- Encode fuel E "Compact<U64>" (VInt (g_nonce g)) ;;
  match xo_extra opt with
  | None => nil_extra
  | Some x =>
      e <- (if -1 <? SliceIndex "ChargeTransactionPayment" (xe_ids x)
            then Encode fuel E "Compact<Balance>" (VDec (fst (g_tip g)) (snd (g_tip g))) else Ok "") ;;
      f <- ext_values (xe_exts x) (g_exts g) ;;
      Ok (a ++ b ++ c ++ d ++ e ++ f)
  end.
(** [Ok None] is a returned error. *)
Definition extrinsic_encode (g : generic) : res (option string) :=
  s <- (if String.eqb (g_version g) "84" then signed_text g else Ok "") ;;
  match assoc (g_code g) (xo_calls opt) with
  | None => Ok None
  | Some en =>
      if negb (Nat.eqb (List.length (g_params g)) (List.length (k_args (en_item en)))) then Ok None
      else
        a <- args_text (k_args (en_item en)) (g_params g) ;;
        let text := g_version g ++ s ++ g_code g ++ a in
        p <- Encode fuel E "Compact<u32>" (VInt (Z.of_nat (List.length (HexToBytes text)))) ;;
        Ok (Some (p ++ text))
  end.
End Encode.
