(** The metadata of ink! contracts: contract/ABI.go.  Parsing the JSON text
    (InitAbi) is not modelled: the model starts from the parsed types. *)

From Verif Require Import GoBase ModelTools ModelVal ModelRegistry ModelDecode ModelRegister ModelScaleInfo.

(** ABI.go:67-77: every pointer may be set or nil.  The two types of a bit
    sequence and the bounds of a range are not used by anything. *)
Record abi_def := AbiDef {
  ad_composite : option (list sifield); ad_variant : option (list sivariant); ad_sequence : option Z; ad_array : option (Z * Z);
  ad_tuple : option (list Z); ad_primitive : option string; ad_compact : option Z; ad_bits : bool; ad_range : bool }.
(** ABI.go:55-65 *)
Record abi_type := AbiType { at_id : Z; at_path : list string; at_params : list (string * Z); at_def : abi_def }.

(** ABI.go:91-112: the first pointer that is set. *)
Definition abi_sidef (d : abi_def) : sidef :=
  match ad_array d with Some (n, t) => DArray n t | None =>
  match ad_composite d with Some fs => DComposite fs | None =>
  match ad_variant d with Some vs => DVariant vs | None =>
  match ad_sequence d with Some t => DSequence t | None =>
  match ad_tuple d with Some l => DTuple l | None =>
  match ad_primitive d with Some n => DPrimitive n | None =>
  match ad_compact d with Some t => DCompact t | None =>
  if ad_bits d then DBitSequence else if ad_range d then DRange else DNone
  end end end end end end end.
(** ABI.go:88-121 *)
Definition ToScalePortableType (a : abi_type) : Z * sitype := (at_id a, SiType (at_path a) (at_params a) (abi_sidef (at_def a))).
(** ABI.go:124-127: a later type replaces an earlier one with the same id. *)
Definition abi_portable (l : list abi_type) : portable := rev (map ToScalePortableType l).

(** What Register uses of a types.ScaleDecoder (base.go:47-67); a nil map is [None]. *)
Record abi_decoder := AbiDecoder { b_dup : option (list (string * Z)); b_spec : Z; b_names : list (Z * string) }.
(** base.go:88-90, the part of Init that matters here. *)
Definition init_decoder (d : abi_decoder) : abi_decoder :=
  match b_dup d with Some (_ :: _) => d | _ => AbiDecoder (Some []) (b_spec d) (b_names d) end.

(** scaleInfo.go:145-151 with a nil DuplicateName: reading it gives 0, writing to
    it panics. *)
Definition count_nil (c : sictx) (i : Z) (s : sistate) : res sistate :=
  n <- nameSiType c [] (port_get (i_port c) i) (-1) ;;
  if String.eqb n "" then Ok s else Panic "assignment to entry in nil map".
(** scaleInfo.go:145-179, for any DuplicateName. *)
Definition ProcessSiTypeFrom (fuel : nat) (c : sictx) (dup : option (list (string * Z))) (r : reg) : res sistate :=
  let n := distinct_ids [] (i_port c) in
  s <- match dup with
       | Some d => each_id (count_name c) n 0 (SiState [] d r)
       | None => each_id (count_nil c) n 0 (SiState [] [] r)
       end ;;
  s <- each_id (pass_primitive c) n 0 s ;;
  s <- each_id (pass_primitive_types c) n 0 s ;;
  s <- each_id (pass_sp_core fuel c) n 0 s ;;
  s <- each_id (pass_rest fuel c) n 0 s ;;
  Ok (SiState (g_names s) [] (g_reg s)).
(** ABI.go:123-134: V14 is not set; DuplicateName is nil afterwards. *)
Definition abi_ctx (fuel : nat) (prefix : string) (spec : Z) (l : list abi_type) : sictx := SiCtx prefix false spec (abi_portable l) fuel.
Definition Register (fuel : nat) (prefix : string) (l : list abi_type) (d : abi_decoder) (r : reg) : res (abi_decoder * reg) :=
  s <- ProcessSiTypeFrom fuel (abi_ctx fuel prefix (b_spec d) l) (b_dup d) r ;;
  Ok (AbiDecoder None (b_spec d) (g_names s), g_reg s).
(** ABI.go:136-138 *)
Definition GetTypeNames (names : list (Z * string)) (id : Z) : string := match assocz id names with Some n => n | None => "" end.
