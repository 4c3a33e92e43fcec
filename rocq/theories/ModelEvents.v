(** Decoding a block's events: event.go.  The records are the maps the library
    returns, as Gallina records.  [decode] is ProcessAndUpdateData; the calls
    nested in event arguments (InternalCall) are not part of the result. *)

From Verif Require Import GoBase ModelTools ModelVal ModelRegistry ModelDecode ModelScaleInfo ModelMetadata.

(** What the decoder takes from the option: the metadata's event table, call
    table and version, and the spec version (event.go:16-23, 35-38). *)
Record evctx := EvCtx { v_spec : Z; v_version : Z; v_events : table mevent; v_calls : metadata }.

(** event.go:25-30 *)
Record eparam := EParam { ep_type : string; ep_name : string; ep_tyname : string; ep_value : val }.
(** event.go:107-116 and 42 *)
Record erecord := ERecord {
  er_phase : Z; er_extrinsic : Z; er_type : string; er_module : string; er_event : string;
  er_params : list eparam; er_topic : list string; er_raw : string; er_idx : Z }.

Section Events.
Variable fuel : nat.
Variable E : env.
Variable cx : evctx.
Variable data : bytes.

Definition ev_ctx (module : string) : ctx := Ctx (v_spec cx) module (Some (v_calls cx)).
Definition pud (module : string) (off : Z) (ts : string) : res (val * Z) :=
  '(v, o, _) <- decode fuel E (ev_ctx module) data off ts ;; Ok (v, o).

(** event.go:85-95: [k] is the position; the names are used only when there is
    one for every argument. *)
Fixpoint params_loop (e : mevent) (module : string) (k : nat) (args : list string) (off : Z) : res (list eparam * Z) :=
  match args with
  | [] => Ok ([], off)
  | t :: r =>
      '(v, o) <- pud module off t ;;
      let n := List.length (w_args e) in
      let tn := if Nat.eqb (List.length (w_tynames e)) n then nth k (w_tynames e) "" else "" in
      let nm := if Nat.eqb (List.length (w_argnames e)) n then nth k (w_argnames e) "" else "" in
      '(ps, o2) <- params_loop e module (S k) r o ;;
      Ok (EParam t nm tn v :: ps, o2)
  end.
(** v.(string) over topic.([]interface{}), event.go:99-104 *)
Fixpoint strings_of (l : list val) : res (list string) :=
  match l with
  | [] => Ok []
  | VStr s :: r => ss <- strings_of r ;; Ok (s :: ss)
  | _ => Panic "interface conversion: interface {} is not string"
  end.
Definition topics_of (v : val) : res (list string) :=
  match v with
  | VNil => Ok []
  | VNilSlice => Ok []
  | VSlice l => strings_of l
  | _ => Panic "interface conversion: interface {} is not []interface {}"
  end.

(** event.go:60-118.  [module] is e.Module as the record before left it; the
    second component of the result is the new one. *)
Definition record_process (module : string) (off : Z) : res (erecord * string * Z) :=
  '(b, o) <- next_bytes data off 1 ;;
  let phase := head_u8 b in
  '(ext, o) <- (if phase =? 0
                then '(v, o) <- pud module o "U32" ;;
                     match v with VU32 z => Ok (z, o) | _ => Panic "interface conversion: interface {} is not uint32" end
                else Ok (0, o)) ;;
  '(b, o) <- next_bytes data o 2 ;;
  let ty := BytesToHex b in
  match assoc ty (v_events cx) with
  | None => Panic ("Not find Event Lookup " ++ ty ++ ", please check metadata info")
  | Some en =>
      let m := en_module en in
      let e := en_item en in
      '(ps, o2) <- params_loop e m 0 (w_args e) o ;;
      raw <- slice data o o2 ;;
      '(tp, o3) <- (if 5 <=? v_version cx
                    then '(v, o3) <- pud m o2 "Vec<Hash>" ;; tp <- topics_of v ;; Ok (tp, o3)
                    else Ok ([], o2)) ;;
      Ok (ERecord phase ext ty m (w_name e) ps tp (BytesToHex raw) 0, m, o3)
  end.

(** event.go:40-44 *)
Definition with_idx (i : Z) (r : erecord) : erecord :=
  ERecord (er_phase r) (er_extrinsic r) (er_type r) (er_module r) (er_event r) (er_params r) (er_topic r) (er_raw r) i.
Fixpoint records_loop (n : nat) (i : Z) (module : string) (off : Z) : res (list erecord) :=
  match n with
  | O => Ok []
  | S n' =>
      '(r, m, o) <- record_process module off ;;
      rs <- records_loop n' (i + 1) m o ;;
      Ok (with_idx i r :: rs)
  end.
(** event.go:32-46.  [module0] is the module of the option, usually "". *)
Definition events_process (module0 : string) : res (list erecord) :=
  '(v, o) <- pud module0 0 "Compact<u32>" ;;
  match v with
  | VInt n => records_loop (Z.to_nat n) 0 "" o
  | _ => Panic "interface conversion: interface {} is not int"
  end.
End Events.
