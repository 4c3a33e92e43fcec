(** The tables a metadata decoder builds from the modules it has read:
    types/metadata.go (V6 to V12), types/v13.go, types/v14.go, types/v15.go.

    The modules are the Go values after json.Marshal/json.Unmarshal into
    []MetadataModules; docs, storage fallbacks, constants and errors are left
    out, except for the resolution of storage types.  A Go map written by key
    is an association list with the newest entry first. *)

From Verif Require Import GoBase ModelTools ModelVal ModelRegistry ModelDecode ModelEncode ModelRegister ModelScaleInfo.

(** types/metadata.go: MetadataModuleCallArgument, MetadataCalls, MetadataEvents.
    [k_index] and [w_index] are LookupIndex. *)
Record marg := MArg { a_name : string; a_type : string; a_tyname : string }.
Record mcall := MCall { k_name : string; k_args : list marg; k_index : Z }.
Record mevent := MEvent {
  w_name : string; w_args : list string; w_argnames : list string; w_tynames : list string; w_index : Z }.
(** types/metadata.go: CallIndex and EventIndex; of the module only its name is read. *)
Record entry (A : Type) := Entry { en_module : string; en_item : A }.
Arguments Entry {A}. Arguments en_module {A}. Arguments en_item {A}.
Definition table (A : Type) := list (string * entry A).

(** utiles/tools.go:58-60 for an int: fmt "%x". *)
Definition IntToHex (i : Z) : string := hex_text i.
(** v13.go:60, v14.go:75, metadata.go:266: xstrings.RightJustify leaves longer text alone. *)
Definition lookup_key (i j : Z) : string := right_justify0 (IntToHex i) 2 ++ right_justify0 (IntToHex j) 2.

(** The loop over the calls (events) of one module when the second half of the
    key is the position: metadata.go:265-271, v13.go:59-62 and 65-68. *)
Fixpoint by_position {A} (mi : Z) (mname : string) (j : Z) (l : list A) (t : table A) : table A :=
  match l with
  | [] => t
  | a :: r => by_position mi mname (j + 1) r (upd (lookup_key mi j) (Entry mname a) t)
  end.
(** The same when the second half is LookupIndex: v14.go:74-77 and 98-101. *)
Fixpoint by_index {A} (index : A -> Z) (mi : Z) (mname : string) (l : list A) (t : table A) : table A :=
  match l with
  | [] => t
  | a :: r => by_index index mi mname r (upd (lookup_key mi (index a)) (Entry mname a) t)
  end.

(** *** V6 to V11.  A module as it was read: [None] when the has_calls
    (has_events) byte is false. *)
Record omodule := OModule { o_name : string; o_calls : option (list mcall); o_events : option (list mevent) }.
(** metadata.go:325 and 509 (V6, V7): an empty list is a nil slice, which JSON
    writes as null and reads back as nil.  metadata.go:703 and 714 (V8 to V11):
    an empty list stays a list. *)
Definition as_slice {A} (keep_empty : bool) (o : option (list A)) : option (list A) :=
  match o with
  | Some [] => if keep_empty then Some [] else None
  | _ => o
  end.
(** metadata.go:263-284 (V6), 455-475 (V7), 641-661 (V8), 791-805 (V9),
    834-849 (V10), 879-893 (V11): the first half of the key counts the modules
    whose slice is not nil. *)
Fixpoint counted {A} (sel : omodule -> option (list A)) (mi : Z) (l : list omodule) (t : table A) : table A :=
  match l with
  | [] => t
  | m :: r =>
      match sel m with
      | Some items => counted sel (mi + 1) r (by_position mi (o_name m) 0 items t)
      | None => counted sel mi r t
      end
  end.
Definition old_calls (keep_empty : bool) (l : list omodule) : table mcall :=
  counted (fun m => as_slice keep_empty (o_calls m)) 0 l [].
Definition old_events (keep_empty : bool) (l : list omodule) : table mevent :=
  counted (fun m => as_slice keep_empty (o_events m)) 0 l [].

(** *** V12 and V13: every module has its own index (metadata.go:937-951, v13.go:56-70). *)
Record imodule := IModule { i_name : string; i_index : Z; i_calls : list mcall; i_events : list mevent }.
Definition indexed_calls (l : list imodule) : table mcall :=
  fold_left (fun t m => by_position (i_index m) (i_name m) 0 (i_calls m) t) l [].
Definition indexed_events (l : list imodule) : table mevent :=
  fold_left (fun t m => by_position (i_index m) (i_name m) 0 (i_events m) t) l [].

(** *** V14 and V15: calls and events are the variants of a portable type. *)
Inductive storage14 : Type :=
| Plain14 (t : Z)
| Map14 (hashers : list string) (key value : Z).
Record pallet := Pallet {
  p_name : string; p_index : Z; p_calls : option Z; p_events : option Z; p_storage : list (string * storage14) }.
Definition si_name (names : list (Z * string)) (k : Z) : string := match assocz k names with Some n => n | None => "" end.
(** v14.go:56-59 and 81-84 *)
Definition variants_of (p : portable) (k : Z) : res (list sivariant) :=
  match s_def (port_get p k) with
  | DVariant vs => Ok vs
  | _ => Panic "value not variant"
  end.
(** v14.go:61-69 *)
Definition call_of (names : list (Z * string)) (v : sivariant) : mcall :=
  MCall (v_name v) (map (fun f => MArg (f_name f) (si_name names (f_type f)) (ConvertType (f_tyname f))) (v_fields v)) (v_index v).
(** v14.go:86-92 *)
Definition event_of (names : list (Z * string)) (v : sivariant) : mevent :=
  MEvent (v_name v) (map (fun f => si_name names (f_type f)) (v_fields v)) (map f_name (v_fields v))
    (map (fun f => ConvertType (f_tyname f)) (v_fields v)) (v_index v).
(** v14.go:55-73 and 80-96 *)
Definition items_of {A} (port : portable) (of : sivariant -> A) (o : option Z) : res (list A) :=
  match o with
  | None => Ok []
  | Some k => vs <- variants_of port k ;; Ok (map of vs)
  end.

(** v14.go:325-344; the same splitting as ScaleDecoder.buildStruct, without
    dropping empty parts. *)
Definition TupleDisassemble (ts : string) : res (list string) :=
  match first_char ts, last_char ts with
  | Some a, Some z =>
      if Ascii.eqb a "("%char && Ascii.eqb z ")"%char then
        let inner := strip_ends ts in
        let parts := find_parts (S (String.length inner)) inner in
        let inner := fold_left (fun s p => replace_all s p (replace_all p "," "#")) parts inner in
        Ok (map (fun v => replace_all (trim_space v) "#" ",") (split_char ","%char inner))
      else Ok [ts]
  | _, _ => Panic "nil typeString"
  end.
(** The resolved storage entry: Origin with the value's type, or the hashers,
    key types and value type. *)
Inductive storage : Type :=
| SPlain (t : string)
| SMap (hashers keys : list string) (value : string).
(** v14.go:131-157 ([v15] = false) and v15.go:127-149 ([v15] = true). *)
Definition resolve_storage (v15 : bool) (port : portable) (names : list (Z * string)) (s : storage14) : res storage :=
  match s with
  | Plain14 t => Ok (SPlain (si_name names t))
  | Map14 hs key value =>
      keys <- match s_def (port_get port key) with
              | DTuple l =>
                  if negb v15 && (Z.of_nat (List.length hs) <? Z.of_nat (List.length l)) then Ok [si_name names key]
                  else Ok (map (si_name names) l)
              | _ => TupleDisassemble (si_name names key)
              end ;;
      Ok (SMap hs keys (si_name names value))
  end.
Fixpoint resolve_all (v15 : bool) (port : portable) (names : list (Z * string)) (l : list (string * storage14)) : res (list (string * storage)) :=
  match l with
  | [] => Ok []
  | (n, s) :: r => x <- resolve_storage v15 port names s ;; y <- resolve_all v15 port names r ;; Ok ((n, x) :: y)
  end.

(** What the loop over the pallets leaves behind: the two tables and the
    resolved storage of every pallet (v14.go:51-158, v15.go:47-150). *)
Record tables := Tables { tb_calls : table mcall; tb_events : table mevent; tb_storage : list (string * list (string * storage)) }.
Fixpoint pallets_loop (v15 : bool) (port : portable) (names : list (Z * string)) (l : list pallet) (t : tables) : res tables :=
  match l with
  | [] => Ok t
  | p :: r =>
      cs <- items_of port (call_of names) (p_calls p) ;;
      let calls := by_index k_index (p_index p) (p_name p) cs (tb_calls t) in
      es <- items_of port (event_of names) (p_events p) ;;
      let events := by_index w_index (p_index p) (p_name p) es (tb_events t) in
      st <- resolve_all v15 port names (p_storage p) ;;
      pallets_loop v15 port names r (Tables calls events ((tb_storage t) ++ [(p_name p, st)])%list)
  end.
Definition pallet_tables (v15 : bool) (port : portable) (names : list (Z * string)) (l : list pallet) : res tables :=
  pallets_loop v15 port names l (Tables [] [] []).

(** The call table as the codec reads it (types.go, Call.Process): module
    name, call name, argument names and types. *)
Definition to_callmod (e : entry mcall) : callmod :=
  CallMod (en_module e) (k_name (en_item e)) (map (fun a => (a_name a, a_type a)) (k_args (en_item e))).
Definition codec_calls (t : table mcall) : metadata := map (fun p => (fst p, to_callmod (snd p))) t.

(** *** v13.go:24-34 and 84-101.  sort.Slice as insertion: with distinct
    indices there is one sorted order. *)
Definition KnownOrigins : list (string * string) :=
  [("Council", "CollectiveOrigin"); ("System", "SystemOrigin"); ("TechnicalCommittee", "CollectiveOrigin");
   ("Xcm", "XcmOrigin"); ("XcmPallet", "XcmOrigin"); ("Authority", "AuthorityOrigin"); ("GeneralCouncil", "CollectiveOrigin")].
Definition origin_type (name : string) : string := match assoc name KnownOrigins with Some t => t | None => "NULL" end.
Fixpoint insert_origin (v : string * Z) (l : list (string * Z)) : list (string * Z) :=
  match l with
  | [] => [v]
  | w :: r => if snd v <=? snd w then v :: l else w :: insert_origin v r
  end.
Fixpoint sort_origins (l : list (string * Z)) : list (string * Z) :=
  match l with
  | [] => []
  | v :: r => insert_origin v (sort_origins r)
  end.
(** v13.go:89-92: from the current length up to the index. *)
Fixpoint pad_origins (n : nat) (k : Z) : typemap :=
  match n with
  | O => []
  | S n' => ("EMPTY" ++ itoa k, "NULL") :: pad_origins n' (k + 1)
  end.
Fixpoint origin_rows (tm : typemap) (l : list (string * Z)) : typemap :=
  match l with
  | [] => tm
  | (name, index) :: r =>
      let len := Z.of_nat (List.length tm) in
      origin_rows (tm ++ pad_origins (Z.to_nat (index - len)) len ++ [(name, origin_type name)])%list r
  end.
Definition registerOriginCaller (l : list (string * Z)) (r : reg) : reg :=
  regCustomKey (to_lower "OriginCaller") (CEnum (Some (origin_rows [] (sort_origins l))) []) r.
