(** The portable type registry of runtime metadata V14/V15 (and of contract
    metadata) turned into registered types: types/scaleInfo.go.

    A Go pointer field of SiTypeDef that is set is a constructor of [sidef];
    the model keeps the case that dealOneSiType would look at first, so a
    definition with two pointers set (which no decoder produces) is not
    represented.  A Go map[int]SiType is an association list; reading an absent
    id gives the zero value [zero_type].  Docs are left out. *)

From Verif Require Import GoBase ModelTools ModelJson ModelVal ModelRegistry ModelDecode ModelRegister.

(** scaleInfo.go:73-78 *)
Record sifield := SiField { f_name : string; f_type : Z; f_tyname : string }.
(** scaleInfo.go:90-95 *)
Record sivariant := SiVariant { v_name : string; v_fields : list sifield; v_index : Z }.
(** scaleInfo.go:56-69 and 71-118 *)
Inductive sidef : Type :=
| DComposite (fields : list sifield)
| DVariant (variants : list sivariant)
| DSequence (t : Z)
| DArray (len t : Z)
| DTuple (l : list Z)
| DPrimitive (name : string)
| DCompact (t : Z)
| DBitSequence
| DRange
| DHistoric (s : string)
| DNone.                          (* no pointer set: the zero value, or an empty tuple (JSON null) *)
(** scaleInfo.go:19-24 and 51-54 *)
Record sitype := SiType { s_path : list string; s_params : list (string * Z); s_def : sidef }.
Definition zero_type : sitype := SiType [] [] DNone.
Definition portable := list (Z * sitype).

Fixpoint assocz {A} (k : Z) (m : list (Z * A)) : option A :=
  match m with
  | [] => None
  | (k', a) :: m' => if k =? k' then Some a else assocz k m'
  end.
Definition port_get (p : portable) (k : Z) : sitype :=
  match assocz k p with Some t => t | None => zero_type end.

(** scaleInfo.go:26-33 *)
Fixpoint FindParameter (name : string) (l : list (string * Z)) : option Z :=
  match l with
  | [] => None
  | (n, t) :: r => if equal_fold n name then Some t else FindParameter name r
  end.

(** What does not change during ProcessSiType: PathPrefix, V14, Spec
    (scaleInfo.go:139-143, base.go) and the portable types; [i_fuel] bounds the
    type descriptions computed by RegCustomTypes. *)
Record sictx := SiCtx {
  i_prefix : string; i_v14 : bool; i_spec : Z; i_port : portable; i_fuel : nat }.
(** What changes: RegisteredSiType, DuplicateName and the global registry. *)
Record sistate := SiState { g_names : list (Z * string); g_dup : list (string * Z); g_reg : reg }.
Definition set_name (id : Z) (n : string) (s : sistate) : sistate :=
  SiState ((id, n) :: g_names s) (g_dup s) (g_reg s).
Definition dup_count (d : list (string * Z)) (n : string) : Z :=
  match assoc n d with Some k => k | None => 0 end.

(** The last and the last but one element of a path. *)
Definition path_last (p : list string) : option string := nth_error (rev p) 0.
Definition path_last2 (p : list string) : option string := nth_error (rev p) 1.
Definition is_str (o : option string) (s : string) : bool :=
  match o with Some x => String.eqb x s | None => false end.

(** scaleInfo.go:182-191 *)
Definition generate_name (c : sictx) (dup : list (string * Z)) (t : sitype) (id : Z) : string :=
  let p := join ":" (s_path t) in
  let p := if String.eqb (i_prefix c) "" then p else i_prefix c ++ ":" ++ p in
  if (1 <? dup_count dup p) && (0 <=? id) then p ++ "@" ++ itoa id else p.
(** scaleInfo.go:201-203: pallet::Call, or a path ending in Call or Event. *)
Definition is_pallet_call (p : list string) : bool := is_str (path_last2 p) "pallet" && is_str (path_last p) "Call".
Definition is_call_event (p : list string) : bool := is_str (path_last p) "Call" || is_str (path_last p) "Event".
(** scaleInfo.go:181-209; Path[0] of an empty path panics. *)
Definition nameSiType (c : sictx) (dup : list (string * Z)) (t : sitype) (id : Z) : res string :=
  match s_def t with
  | DComposite _ => Ok (generate_name c dup t id)
  | DVariant _ =>
      match s_path t with
      | [] => idx_panic
      | p0 :: _ =>
          if equal_fold p0 "Option" || equal_fold p0 "Result" then Ok ""
          else if is_pallet_call (s_path t) then Ok ""
          else if is_call_event (s_path t) then Ok ""
          else Ok (generate_name c dup t id)
      end
  | _ => Ok ""
  end.

(** specType.go:31-45 *)
Definition overriderTypesName (t : sitype) : string :=
  let n := join ":" (s_path t) in
  match s_def t with
  | DComposite [f] =>
      if String.eqb n "substrate_fixed:FixedU64" && String.eqb (f_tyname f) "u64" then "SubstrateFixedU64"
      else if String.eqb n "substrate_fixed:FixedI128" && String.eqb (f_tyname f) "i128" then "SubstrateFixedI128"
      else ""
  | _ => ""
  end.

(** RegCustomTypes of a map with one entry. *)
Definition reg_one (c : sictx) (key : string) (t : tstruct) (s : sistate) : res sistate :=
  r <- RegCustomTypes (i_fuel c) [(key, t)] (g_reg s) ;; Ok (SiState (g_names s) (g_dup s) r).
Definition alias_of (v14 : bool) (spec : Z) (ts : string) : tstruct := TStruct "string" ts [] [] 0 v14 spec.

(** scaleInfo.go:374-380: sort.Slice by Index.  sort.Slice is not stable; with
    distinct indices there is only one sorted order. *)
Fixpoint insert_variant (v : sivariant) (l : list sivariant) : list sivariant :=
  match l with
  | [] => [v]
  | w :: r => if v_index v <=? v_index w then v :: l else w :: insert_variant v r
  end.
Fixpoint sort_variants (l : list sivariant) : list sivariant :=
  match l with
  | [] => []
  | v :: r => insert_variant v (sort_variants r)
  end.

(** The pure part of expandEnum, scaleInfo.go:382-432: [vts] are the sorted
    variants with their type texts.  [prev] is the index of the variant before. *)
Definition interval (prev : option Z) (i : Z) : Z :=
  match prev with None => i | Some p => i - p - 1 end.
Fixpoint enum_rows (prev : option Z) (vts : list (sivariant * string)) : list (list string) :=
  match vts with
  | [] => []
  | (v, tn) :: r =>
      (repeat ["empty"; "NULL"] (Z.to_nat (interval prev (v_index v))) ++
       [v_name v; tn] :: enum_rows (Some (v_index v)) r)%list
  end.
Definition has_fields (v : sivariant) : bool := match v_fields v with [] => false | _ => true end.
Definition value_rows (vs : list sivariant) : list (list string) :=
  flat_map (fun v => if has_fields v then [] else [[v_name v; itoa (v_index v)]]) vs.
Definition enum_mapping (vts : list (sivariant * string)) : list (list string) :=
  if existsb (fun p => has_fields (fst p)) vts then enum_rows None vts else value_rows (map fst vts).

(** Field names of a struct variant (scaleInfo.go:403-406) and of a composite
    (scaleInfo.go:280-283). *)
Definition col_name (n : string) (k : Z) : string := if String.eqb n "" then "col" ++ itoa k else n.

Section Deal.
Variable c : sictx.
(** dealOneSiType *)
Variable deal : Z -> sitype -> bool -> sistate -> res (string * sistate).

(** RegisteredSiType[k], or dealOneSiType with RecursiveOption. *)
Definition sub_name (k : Z) (s : sistate) : res (string * sistate) :=
  match assocz k (g_names s) with
  | Some n => Ok (n, s)
  | None => deal k (port_get (i_port c) k) true s
  end.
Fixpoint sub_names (ks : list Z) (s : sistate) : res (list string * sistate) :=
  match ks with
  | [] => Ok ([], s)
  | k :: r =>
      '(n, s) <- sub_name k s ;;
      '(l, s) <- sub_names r s ;;
      Ok (n :: l, s)
  end.

(** scaleInfo.go:384-412 *)
Fixpoint variant_cols (k : Z) (fs : list sifield) (ns : list string) : list (list string) :=
  match fs, ns with
  | f :: fs', n :: ns' => [col_name (f_name f) k; ConvertType n] :: variant_cols (k + 1) fs' ns'
  | _, _ => []
  end.
Definition variant_type (v : sivariant) (s : sistate) : res (string * sistate) :=
  match v_fields v with
  | [] => Ok ("empty", s)
  | [f] => sub_name (f_type f) s
  | fs =>
      '(ns, s) <- sub_names (map f_type fs) s ;;
      Ok (json_marshal (variant_cols 0 fs ns), s)
  end.
Fixpoint variant_types (vs : list sivariant) (s : sistate) : res (list (sivariant * string) * sistate) :=
  match vs with
  | [] => Ok ([], s)
  | v :: r =>
      '(n, s) <- variant_type v s ;;
      '(l, s) <- variant_types r s ;;
      Ok ((v, n) :: l, s)
  end.
(** scaleInfo.go:374-436 *)
Definition expandEnum (id : Z) (t : sitype) (vs : list sivariant) (s : sistate) : res (string * sistate) :=
  '(vts, s) <- variant_types (sort_variants vs) s ;;
  name <- nameSiType c (g_dup s) t id ;;
  s <- reg_one c name (TStruct "enum" "" (enum_mapping vts) [] 0 (i_v14 c) (i_spec c)) s ;;
  Ok (name, set_name id name s).

(** scaleInfo.go:239-249 *)
Definition reg_param (key pname : string) (t : sitype) (s : sistate) : res sistate :=
  match FindParameter pname (s_params t) with
  | None => Ok s
  | Some k =>
      '(n, s) <- deal k (port_get (i_port c) k) false s ;;
      reg_one c key (alias_of false 0 n) s
  end.
(** scaleInfo.go:251-256: the wrapped type is looked up again without asking
    RegisteredSiType. *)
Definition is_wrapper (p : list string) : bool :=
  (2 <=? Z.of_nat (List.length p)) && (is_str (path_last p) "WrapperKeepOpaque" || is_str (path_last p) "WrapperOpaque").
Definition is_unchecked (p : list string) : bool :=
  (2 <=? Z.of_nat (List.length p)) && is_str (nth_error p 0) "sp_runtime" && is_str (path_last p) "UncheckedExtrinsic".
Fixpoint composite_cols (k : Z) (fs : list sifield) (ns : list string) : list (list string) :=
  match fs, ns with
  | f :: fs', n :: ns' => [col_name (f_name f) k; n] :: composite_cols (k + 1) fs' ns'
  | _, _ => []
  end.
Definition expandComposite (id : Z) (t : sitype) (fs : list sifield) (s : sistate) : res (string * sistate) :=
  s <- (if is_unchecked (s_path t) then
          s <- reg_param "ExtrinsicSignature" "Signature" t s ;;
          reg_param "ExtrinsicSigner" "Address" t s
        else Ok s) ;;
  if is_wrapper (s_path t) then
    match s_params t with
    | [] => idx_panic
    | (_, k) :: _ =>
        '(n, s) <- deal k (port_get (i_port c) k) false s ;;
        let n := "WrapperOpaque<" ++ n ++ ">" in
        Ok (n, set_name id n s)
    end
  else
    match fs with
    | [f] =>
        (* scaleInfo.go:258-277 *)
        if is_str (path_last (s_path t)) "AccountId32" then Ok ("AccountId", set_name id "AccountId" s)
        else
          '(n, s) <- match assocz (f_type f) (g_names s) with
                     | Some n => Ok (n, s)
                     | None => if f_type f =? id then Ok ("NULL", s)
                               else deal (f_type f) (port_get (i_port c) (f_type f)) false s
                     end ;;
          let s := set_name id n s in
          name <- nameSiType c (g_dup s) t id ;;
          s <- reg_one c name (alias_of (i_v14 c) (i_spec c) n) s ;;
          Ok (n, s)
    | _ =>
        (* scaleInfo.go:278-290 *)
        '(ns, s) <- sub_names (map f_type fs) s ;;
        name <- nameSiType c (g_dup s) t id ;;
        s <- reg_one c name (TStruct "struct" "" (composite_cols 1 fs ns) [] 0 (i_v14 c) (i_spec c)) s ;;
        Ok (name, set_name id name s)
    end.

(** scaleInfo.go:293-305 *)
Definition expandArray (id len t : Z) (s : sistate) : res (string * sistate) :=
  if len =? 0 then Ok ("NULL", set_name id "NULL" s)
  else
    '(n, s) <- sub_name t s ;;
    let n := "[" ++ n ++ "; " ++ itoa len ++ "]" in
    Ok (n, set_name id n s).
(** scaleInfo.go:307-315, 338-346, 348-356 *)
Definition expandOne (before : string) (id t : Z) (s : sistate) : res (string * sistate) :=
  '(n, s) <- sub_name t s ;;
  let n := before ++ "<" ++ n ++ ">" in
  Ok (n, set_name id n s).
(** scaleInfo.go:317-336 *)
Fixpoint tuple_rows (k : Z) (ns : list string) : list (list string) :=
  match ns with
  | [] => []
  | n :: r => ["col" ++ itoa k; n] :: tuple_rows (k + 1) r
  end.
Definition expandTuple (id : Z) (l : list Z) (s : sistate) : res (string * sistate) :=
  match l with
  | [] => Ok ("NULL", set_name id "NULL" s)
  | _ =>
      '(ns, s) <- sub_names l s ;;
      let name := "Tuple:" ++ join "" ns in
      s <- reg_one c name (TStruct "struct" "" (tuple_rows 1 ns) [] 0 (i_v14 c) (i_spec c)) s ;;
      Ok (name, set_name id name s)
  end.
(** scaleInfo.go:348-356 *)
Definition expandOption (id : Z) (t : sitype) (s : sistate) : res (string * sistate) :=
  match s_params t with
  | [] => idx_panic
  | (_, k) :: _ => expandOne "option" id k s
  end.
(** scaleInfo.go:358-372 *)
Definition expandResult (id : Z) (t : sitype) (s : sistate) : res (string * sistate) :=
  match s_params t with
  | (_, a) :: (_, b) :: _ =>
      '(n, s) <- sub_name a s ;;
      '(m, s) <- sub_name b s ;;
      let n := "Result<" ++ n ++ "," ++ m ++ ">" in
      Ok (n, set_name id n s)
  | _ => idx_panic
  end.

(** scaleInfo.go:484-505 *)
Definition dealVariant (id : Z) (t : sitype) (vs : list sivariant) (s : sistate) : res (string * sistate) :=
  match s_path t with
  | [] => idx_panic
  | p0 :: _ =>
      if equal_fold p0 "Option" then expandOption id t s
      else if equal_fold p0 "Result" then expandResult id t s
      else if is_pallet_call (s_path t) || is_call_event (s_path t) then Ok ("Call", set_name id "Call" s)
      else if is_str (path_last (s_path t)) "RuntimeCall" then
        name <- nameSiType c (g_dup s) t id ;;
        s <- reg_one c name (alias_of false 0 "Call") (set_name id "Call" s) ;;
        Ok ("Call", s)
      else expandEnum id t vs s
  end.
(** scaleInfo.go:446-509 *)
Definition deal_step (id : Z) (t : sitype) (recursive : bool) (s : sistate) : res (string * sistate) :=
  let o := overriderTypesName t in
  if negb (String.eqb o "") then Ok (o, set_name id o s)
  else
    name <- (if recursive then nameSiType c (g_dup s) t id else Ok "") ;;
    if negb (String.eqb name "") then Ok (name, s)
    else
      match s_def t with
      | DComposite fs => expandComposite id t fs s
      | DArray len k => expandArray id len k s
      | DSequence k => expandOne "Vec" id k s
      | DTuple l => expandTuple id l s
      | DCompact k => expandOne "compact" id k s
      | DBitSequence => Ok ("BitVec", set_name id "BitVec" s)
      | DRange => Ok ("", s)
      | DVariant vs => dealVariant id t vs s
      | DPrimitive _ | DHistoric _ | DNone => Ok ("NULL", set_name id "NULL" s)
      end.
End Deal.

(** Recursion of dealOneSiType through types that have no name of their own. *)
Fixpoint dealOneSiType (fuel : nat) (c : sictx) (id : Z) (t : sitype) (recursive : bool) (s : sistate)
  : res (string * sistate) :=
  match fuel with
  | O => OutOfFuel
  | S f => deal_step c (dealOneSiType f c) id t recursive s
  end.

(** scaleInfo.go:225-237 and 211-223 *)
Definition reg_primitive (c : sictx) (id : Z) (name : string) (s : sistate) : res sistate :=
  if HasReg (g_reg s) name then
    reg_one c ("primitive_types:" ++ name) (alias_of (i_v14 c) (i_spec c) name) (set_name id name s)
  else Panic ("lack Primitive type " ++ name).

(** scaleInfo.go:145-179: one pass over the ids 0 .. n-1. *)
Fixpoint each_id (f : Z -> sistate -> res sistate) (n : nat) (i : Z) (s : sistate) : res sistate :=
  match n with
  | O => Ok s
  | S n' => s <- f i s ;; each_id f n' (i + 1) s
  end.
Definition count_name (c : sictx) (i : Z) (s : sistate) : res sistate :=
  n <- nameSiType c (g_dup s) (port_get (i_port c) i) (-1) ;;
  if String.eqb n "" then Ok s
  else Ok (SiState (g_names s) (upd n (dup_count (g_dup s) n + 1) (g_dup s)) (g_reg s)).
Definition pass_primitive (c : sictx) (i : Z) (s : sistate) : res sistate :=
  match s_def (port_get (i_port c) i) with
  | DPrimitive n => reg_primitive c i n s
  | _ => Ok s
  end.
Definition pass_primitive_types (c : sictx) (i : Z) (s : sistate) : res sistate :=
  let p := s_path (port_get (i_port c) i) in
  if is_str (nth_error p 0) "primitive_types" then
    match path_last p with Some n => reg_primitive c i n s | None => idx_panic end
  else Ok s.
Definition pass_sp_core (fuel : nat) (c : sictx) (i : Z) (s : sistate) : res sistate :=
  let t := port_get (i_port c) i in
  if is_str (nth_error (s_path t) 0) "sp_core" then
    '(_, s) <- dealOneSiType fuel c i t false s ;; Ok s
  else Ok s.
Definition pass_rest (fuel : nat) (c : sictx) (i : Z) (s : sistate) : res sistate :=
  match assocz i (g_names s) with
  | Some _ => Ok s
  | None => '(_, s) <- dealOneSiType fuel c i (port_get (i_port c) i) false s ;; Ok s
  end.
(** len of the map: the number of distinct ids. *)
Fixpoint distinct_ids (seen : list Z) (p : portable) : nat :=
  match p with
  | [] => O
  | (k, _) :: r => if existsb (Z.eqb k) seen then distinct_ids seen r else S (distinct_ids (k :: seen) r)
  end.
(** The result is RegisteredSiType and the registry. *)
Definition ProcessSiType (fuel : nat) (c : sictx) (r : reg) : res sistate :=
  let n := distinct_ids [] (i_port c) in
  s <- each_id (count_name c) n 0 (SiState [] [] r) ;;
  s <- each_id (pass_primitive c) n 0 s ;;
  s <- each_id (pass_primitive_types c) n 0 s ;;
  s <- each_id (pass_sp_core fuel c) n 0 s ;;
  s <- each_id (pass_rest fuel c) n 0 s ;;
  Ok (SiState (g_names s) [] (g_reg s)).
