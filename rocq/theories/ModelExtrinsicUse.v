(** An ExtrinsicDecoder as an object that is initialised and run any number of
    times: extrinsic.go:54-63 and 104-267 with the fields it keeps between
    runs.  ModelExtrinsic.v is one run of a new decoder. *)

From Verif Require Import GoBase ModelTools ModelVal ModelFloat ModelRegistry ModelDecode ModelEncode ModelScaleInfo ModelMetadata ModelExtrinsic.

(** extrinsic.go:22-39 and types/base.go:50-66: the fields that a run may read
    before it has written them.  [d_opt] stands for Metadata, SignedExtensions
    and AdditionalCheck (its spec and module are those given to Init, not the
    decoder's).  The others (ExtrinsicLength, VersionInfo, Nonce, Era,
    ExtrinsicHash, CallIndex, ParamsRaw, ContainsTransaction) are written
    first; DuplicateName, RegisteredSiType, SubType, TypeName and RawValue are
    not used here. *)
Record xdec := XDec { d_data : bytes; d_off : Z; d_spec : Z; d_module : string; d_address : val; d_signature : string;
                      d_params : list xparam; d_calls : list string; d_opt : xopt }.
Definition with_off (o : Z) (d : xdec) : xdec :=
  XDec (d_data d) o (d_spec d) (d_module d) (d_address d) (d_signature d) (d_params d) (d_calls d) (d_opt d).
Definition with_calls (cs : list string) (d : xdec) : xdec :=
  XDec (d_data d) (d_off d) (d_spec d) (d_module d) (d_address d) (d_signature d) (d_params d) (d_calls d ++ cs)%list (d_opt d).
Definition with_module (m : string) (d : xdec) : xdec :=
  XDec (d_data d) (d_off d) (d_spec d) m (d_address d) (d_signature d) (d_params d) (d_calls d) (d_opt d).
Definition with_address (v : val) (d : xdec) : xdec :=
  XDec (d_data d) (d_off d) (d_spec d) (d_module d) v (d_signature d) (d_params d) (d_calls d) (d_opt d).
Definition with_signature (s : string) (d : xdec) : xdec :=
  XDec (d_data d) (d_off d) (d_spec d) (d_module d) (d_address d) s (d_params d) (d_calls d) (d_opt d).
Definition with_param (p : xparam) (d : xdec) : xdec :=
  XDec (d_data d) (d_off d) (d_spec d) (d_module d) (d_address d) (d_signature d) (d_params d ++ [p])%list (d_calls d) (d_opt d).

(** ExtrinsicDecoder{} *)
Definition new_xdec : xdec := XDec [] 0 0 "" VNil "" [] [] (XOpt 0 "" 0 None [] [] []).
(** extrinsic.go:54-63 and types/base.go:68-96, with non-nil Metadata. *)
Definition x_init (opt : xopt) (data : bytes) (d : xdec) : xdec :=
  XDec data 0 (if xo_spec opt =? 0 then d_spec d else xo_spec opt) (if String.eqb (xo_module opt) "" then d_module d else xo_module opt)
    (d_address d) (d_signature d) [] (d_calls d) opt.

(** Statements that use the decoder: a panic leaves what was written so far. *)
Definition act (A : Type) : Type := xdec -> res A * xdec.
Definition done {A} (a : A) : act A := fun d => (Ok a, d).
Definition lift {A} (r : res A) : act A := fun d => (r, d).
Definition write (f : xdec -> xdec) : act unit := fun d => (Ok tt, f d).
Definition get {A} (f : xdec -> A) : act A := fun d => (Ok (f d), d).
Definition andthen {A B} (a : act A) (k : A -> act B) : act B := fun d =>
  match a d with
  | (Ok x, d') => k x d'
  | (Panic m, d') => (Panic m, d')
  | (OutOfFuel, d') => (OutOfFuel, d')
  end.
Notation "x <| a ; k" := (andthen a (fun x => k)) (at level 61, a at next level, right associativity).

Section Run.
Variable fuel : nat.
Variable E : env.
Variable blake2b_256 : bytes -> bytes.

(** types/base.go:158-187: ProcessAndUpdateData; a nested decoder that panics
    has changed nothing here. *)
Definition pud (ts : string) : act val := fun d =>
  match decode fuel E (Ctx (d_spec d) (d_module d) (Some (codec_calls (xo_calls (d_opt d))))) (d_data d) (d_off d) ts with
  | Ok (v, o, cs) => (Ok v, with_off o (with_calls cs d))
  | Panic m => (Panic m, d)
  | OutOfFuel => (OutOfFuel, d)
  end.
(** types/base.go:111-115 *)
Definition take (n : Z) : act bytes := fun d =>
  match next_bytes (d_data d) (d_off d) n with
  | Ok (b, o) => (Ok b, with_off o d)
  | Panic m => (Panic m, d)
  | OutOfFuel => (OutOfFuel, d)
  end.

(** extrinsic.go:123-132, 182-191: the address type; e.Address is left alone
    unless the signer is a string or a map with an entry. *)
Definition u_address (v : val) : act string :=
  match v with
  | VStr s => _ <| write (with_address (VStr s)) ; done "AccountId"
  | VMap m => (fix loop (m : list (string * val)) (t : string) : act string :=
                 match m with
                 | [] => done t
                 | (n, x) :: r => _ <| write (with_address x) ; loop r n
                 end) m ""
  | _ => done ""
  end.
(** extrinsic.go:135-142, 195-202 *)
Definition u_signature (v : val) : act unit :=
  match v with
  | VStr s => write (with_signature s)
  | VMap m => (fix loop (m : list (string * val)) : act unit :=
                 match m with
                 | [] => done tt
                 | (_, VStr s) :: r => _ <| write (with_signature s) ; loop r
                 | _ => lift (Panic "interface conversion: interface {} is not string")
                 end) m
  | _ => done tt
  end.
Definition u_tip : act (Z * Z) := v <| pud "Compact<Balance>" ; lift (DecimalFromInterface v).
(** extrinsic.go:156-160 *)
Fixpoint u_values (l : list (string * string)) (acc : list (string * val)) : act (list (string * val)) :=
  match l with
  | [] => done acc
  | (n, t) :: r => v <| pud t ; u_values r (map_set n v acc)
  end.
Fixpoint u_option_exts (ids : list string) (l : list (string * list (string * string))) (acc : list (string * val)) : act (list (string * val)) :=
  match l with
  | [] => done acc
  | (n, vs) :: r => acc <| (if negb (SliceIndex n ids =? -1) then u_values vs acc else done acc) ; u_option_exts ids r acc
  end.
(** extrinsic.go:164-172, 207-215 *)
Fixpoint u_meta_exts (check : list string) (l : list (string * string)) (tip : Z * Z) (acc : list (string * val)) : act (Z * Z * list (string * val)) :=
  match l with
  | [] => done (tip, acc)
  | (id, ts) :: r =>
      if sent check id then
        if String.eqb id "ChargeTransactionPayment" then t <| u_tip ; u_meta_exts check r t acc
        else v <| pud ts ; u_meta_exts check r tip (map_set id v acc)
      else u_meta_exts check r tip acc
  end.
(** extrinsic.go:145-175 *)
Definition u_extra_v4 : act (Z * Z * list (string * val)) :=
  opt <| get d_opt ;
  tip <| match xo_extra opt with
         | Some x => if (xo_version opt <? 14) && negb (SliceIndex "ChargeTransactionPayment" (xe_ids x) =? -1) then u_tip else done (0, 0)
         | None => u_tip
         end ;
  match xo_signed opt with
  | _ :: _ =>
      match xo_extra opt with
      | Some x => acc <| u_option_exts (xe_ids x) (xo_signed opt) [] ; done (tip, acc)
      | None => lift nil_extra
      end
  | [] =>
      if 14 <=? xo_version opt then
        match xo_extra opt with Some x => u_meta_exts (xo_check opt) (xe_exts x) tip [] | None => lift nil_extra end
      else done (tip, [])
  end.
(** extrinsic.go:205-215 *)
Definition u_extra_v5 : act (Z * Z * list (string * val)) :=
  opt <| get d_opt ;
  match xo_extra opt with Some x => u_meta_exts (xo_check opt) (xe_exts x) (0, 0) [] | None => lift nil_extra end.

(** extrinsic.go:120-177 and 179-219.  The result: address type, signer,
    signature, extension version, era, nonce, tip and extensions. *)
Definition u_signed (v5 : bool) : act (string * sigpart) :=
  opt <| get d_opt ;
  signer <| pud (signer_type E (xo_version opt) "Address") ;
  at_ <| u_address signer ;
  sig <| pud "ExtrinsicSignature" ;
  xv <| (if v5 : bool then
           v <| pud "U8" ;
           match v with VInt z => done z | _ => lift (Panic "interface conversion: interface {} is not int") end
         else done 0) ;
  _ <| u_signature sig ;
  v <| pud "EraExtrinsic" ;
  era <| lift (as_string v) ;
  v <| pud "Compact<U64>" ;
  nonce <| lift (as_nonce v) ;
  te <| (if v5 then u_extra_v5 else u_extra_v4) ;
  done (at_, SigPart signer sig "" xv era nonce (fst te) (snd te)).

(** extrinsic.go:237-239 *)
Fixpoint u_args (l : list marg) : act unit :=
  match l with
  | [] => done tt
  | a :: r => v <| pud (a_type a) ; _ <| write (with_param (XParam (a_name a) (a_type a) (a_tyname a) v)) ; u_args r
  end.

(** extrinsic.go:111-267, from the version byte. *)
Definition u_body (length : Z) : act generic :=
  b <| take 1 ;
  let version := BytesToHex b in
  signed <| match ModelTools.U256 version with
            | Some z => done (80 <=? i64 z)
            | None => lift nil_extra
            end ;
  let v4 := String.eqb version "04" || String.eqb version "84" in
  let v5 := String.eqb version "05" || String.eqb version "85" in
  if negb (v4 || v5) then lift (Panic ("Extrinsics version " ++ version ++ " is not support")) else
  sp <| (if signed : bool then sp <| u_signed (negb v4) ; done (Some sp) else done None) ;
  b <| take 2 ;
  let code := BytesToHex b in
  if String.eqb code "" then lift (Panic "Not find Extrinsic Lookup, please check type registry") else
  opt <| get d_opt ;
  match assoc code (xo_calls opt) with
  | None => lift (Panic ("Not find Extrinsic Lookup " ++ code ++ ", please check metadata info"))
  | Some en =>
      _ <| write (with_module (en_module en)) ;
      o <| get d_off ;
      _ <| u_args (k_args (en_item en)) ;
      o2 <| get d_off ;
      data <| get d_data ;
      raw <| lift (slice data o o2) ;
      ps <| get d_params ;
      addr <| get d_address ;
      st <| get d_signature ;
      let fn := k_name (en_item en) in
      done (match sp with
            | None => Generic version length "" (0, 0) [] VNil VNil "" VNil 0 "" "" fn code (en_module en) ps (BytesToHex raw) 0
            | Some (at_, s) =>
                Generic version length at_ (sp_tip s) (sp_exts s) addr (sp_signer s) st (sp_sig s) (sp_nonce s) (sp_era s)
                  (generate_hash blake2b_256 data signed length) fn code (en_module en) ps (BytesToHex raw) (sp_extver s)
            end)
  end.
(** extrinsic.go:104-109 *)
Definition u_process : act generic :=
  v <| pud "Compact<u32>" ;
  n <| match v with VInt n => done n | _ => lift (Panic "interface conversion: interface {} is not int") end ;
  data <| get d_data ;
  o <| get d_off ;
  if n =? blen data - o then u_body n else _ <| write (with_off 0) ; u_body 0.

(** Init and Process, a number of times: what each run returned, and the
    decoder afterwards.  A caller may recover from a panic and go on. *)
Fixpoint u_runs (l : list (xopt * bytes)) (d : xdec) : list (res generic) * xdec :=
  match l with
  | [] => ([], d)
  | (opt, data) :: r =>
      let '(x, d') := u_process (x_init opt data d) in
      let '(xs, d'') := u_runs r d' in (x :: xs, d'')
  end.
End Run.
