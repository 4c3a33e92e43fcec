(** Specification of the wire format of runtime metadata V9 to V13: modules
    whose types are texts. *)

From Verif Require Import GoBase SpecNum ModelTools ModelVal ModelRegistry ModelDecode ModelRegister SpecScale ModelScaleInfo ModelMetadata ModelMeta ProofsTexts SpecMeta.

(** ** Modules *)
Record ocall := OCall { oc_name : bytes; oc_args : list (bytes * bytes); oc_docs : list bytes }.
Record oevent := OEvent { oe_name : bytes; oe_args : list bytes; oe_docs : list bytes }.
Record oconst := OConst { ok_name : bytes; ok_type : bytes; ok_value : bytes; ok_docs : list bytes }.
Record oerror := OError { ox_name : bytes; ox_docs : list bytes }.
(** How an entry is stored; a hasher is a number. *)
Inductive ostore : Type :=
| OPlain (t : bytes)
| OMap (h : Z) (key value : bytes) (linked : bool)
| ODouble (h : Z) (key1 key2 value : bytes) (h2 : Z)
| ONMap (keys : list bytes) (hs : list Z) (value : bytes).
Record oentry := OEntry { on_name : bytes; on_default : bool; on_type : ostore; on_fallback : bytes; on_docs : list bytes }.
Record wmodule := WModule {
  om_name : bytes; om_storage : option (bytes * list oentry); om_calls : option (list ocall); om_events : option (list oevent);
  om_constants : list oconst; om_errors : list oerror; om_index : Z }.

Definition oarg_enc (a : bytes * bytes) : bytes := (text_enc (fst a) ++ text_enc (snd a))%list.
Definition ocall_enc (c : ocall) : bytes := (text_enc (oc_name c) ++ list_enc oarg_enc (oc_args c) ++ list_enc text_enc (oc_docs c))%list.
Definition oevent_enc (e : oevent) : bytes := (text_enc (oe_name e) ++ list_enc text_enc (oe_args e) ++ list_enc text_enc (oe_docs e))%list.
Definition oconst_enc (k : oconst) : bytes := (text_enc (ok_name k) ++ text_enc (ok_type k) ++ text_enc (ok_value k) ++ list_enc text_enc (ok_docs k))%list.
Definition oerror_enc (x : oerror) : bytes := (text_enc (ox_name x) ++ list_enc text_enc (ox_docs x))%list.
Definition hasher_enc (h : Z) : bytes := [Zb h].
Definition ostore_enc (s : ostore) : bytes :=
  match s with
  | OPlain t => Zb 0 :: text_enc t
  | OMap h k v l => Zb 1 :: hasher_enc h ++ text_enc k ++ text_enc v ++ bool_enc l
  | ODouble h k1 k2 v h2 => Zb 2 :: hasher_enc h ++ text_enc k1 ++ text_enc k2 ++ text_enc v ++ hasher_enc h2
  | ONMap ks hs v => Zb 3 :: list_enc text_enc ks ++ list_enc hasher_enc hs ++ text_enc v
  end%list.
Definition oentry_enc (e : oentry) : bytes :=
  (text_enc (on_name e) ++ bool_enc (on_default e) ++ ostore_enc (on_type e) ++ text_enc (on_fallback e) ++ list_enc text_enc (on_docs e))%list.
(** The modules of V12 and V13 end in an index. *)
Definition has_index (v : Z) : bool := 12 <=? v.
Definition module_enc (v : Z) (m : wmodule) : bytes :=
  (text_enc (om_name m) ++ opt_enc (fun s => text_enc (fst s) ++ list_enc oentry_enc (snd s))%list (om_storage m) ++
   opt_enc (list_enc ocall_enc) (om_calls m) ++ opt_enc (list_enc oevent_enc) (om_events m) ++
   list_enc oconst_enc (om_constants m) ++ list_enc oerror_enc (om_errors m) ++ if has_index v then le_bytes 1 (om_index m) else [])%list.

(** The hashers of each version, by their numbers: Blake2_128Concat came
    with V10, Identity with V11. *)
Definition hashers_of (v : Z) : list string :=
  if v <=? 9 then ["Blake2_128"; "Blake2_256"; "Twox128"; "Twox256"; "Twox64Concat"]
  else if v =? 10 then ["Blake2_128"; "Blake2_256"; "Blake2_128Concat"; "Twox128"; "Twox256"; "Twox64Concat"]
  else ["Blake2_128"; "Blake2_256"; "Blake2_128Concat"; "Twox128"; "Twox256"; "Twox64Concat"; "Identity"].
Definition ohasher (v h : Z) : string := nth (Z.to_nat h) (hashers_of v) "".
Definition ohasher_ok (v h : Z) : Prop := 0 <= h < Z.of_nat (List.length (hashers_of v)).

(** Sizes, and what a version knows: maps with many keys came with V13. *)
Definition oarg_ok (a : bytes * bytes) : Prop := text_ok (fst a) /\ text_ok (snd a).
Definition ocall_ok (c : ocall) : Prop := text_ok (oc_name c) /\ list_ok oarg_ok (oc_args c) /\ list_ok text_ok (oc_docs c).
Definition oevent_ok (e : oevent) : Prop := text_ok (oe_name e) /\ list_ok text_ok (oe_args e) /\ list_ok text_ok (oe_docs e).
Definition oconst_ok (k : oconst) : Prop := text_ok (ok_name k) /\ text_ok (ok_type k) /\ text_ok (ok_value k) /\ list_ok text_ok (ok_docs k).
Definition oerror_ok (x : oerror) : Prop := text_ok (ox_name x) /\ list_ok text_ok (ox_docs x).
Definition ostore_ok (v : Z) (s : ostore) : Prop :=
  match s with
  | OPlain t => text_ok t
  | OMap h k x _ => ohasher_ok v h /\ text_ok k /\ text_ok x
  | ODouble h k1 k2 x h2 => ohasher_ok v h /\ text_ok k1 /\ text_ok k2 /\ text_ok x /\ ohasher_ok v h2
  | ONMap ks hs x => v = 13 /\ list_ok text_ok ks /\ list_ok (ohasher_ok v) hs /\ text_ok x
  end.
Definition oentry_ok (v : Z) (e : oentry) : Prop :=
  text_ok (on_name e) /\ ostore_ok v (on_type e) /\ text_ok (on_fallback e) /\ list_ok text_ok (on_docs e).
Definition module_ok (v : Z) (m : wmodule) : Prop :=
  text_ok (om_name m) /\ opt_ok (fun s => text_ok (fst s) /\ list_ok (oentry_ok v) (snd s)) (om_storage m) /\
  opt_ok (list_ok ocall_ok) (om_calls m) /\ opt_ok (list_ok oevent_ok) (om_events m) /\
  list_ok oconst_ok (om_constants m) /\ list_ok oerror_ok (om_errors m) /\ 0 <= om_index m < 256.

(** ** Metadata: the modules, and from V11 on the extrinsic's version and its
    signed extensions. *)
Record wold := WOld { wl_modules : list wmodule; wl_version : Z; wl_extensions : list bytes }.
Definition ext_enc (m : wold) : bytes := (le_bytes 1 (wl_version m) ++ list_enc text_enc (wl_extensions m))%list.
Definition old_enc (v : Z) (m : wold) : bytes := (list_enc (module_enc v) (wl_modules m) ++ if 11 <=? v then ext_enc m else [])%list.
Definition old_ok (v : Z) (m : wold) : Prop :=
  list_ok (module_ok v) (wl_modules m) /\ 0 <= wl_version m < 256 /\ list_ok text_ok (wl_extensions m).

(** ** What is to be shown *)
Definition type_text (b : bytes) : string := ConvertType (text_of b).
Definition shown_ostore (v : Z) (s : ostore) : storage :=
  match s with
  | OPlain t => SPlain (type_text t)
  | OMap h k x _ => SMap [ohasher v h] [type_text k] (type_text x)
  | ODouble h k1 k2 x h2 => SMap [ohasher v h; ohasher v h2] [type_text k1; type_text k2] (type_text x)
  | ONMap ks hs x => SMap (map (ohasher v) hs) (map type_text ks) (type_text x)
  end.
Definition shown_ocall (c : ocall) : mcall := MCall (text_of (oc_name c)) (map (fun a => MArg (text_of (fst a)) (type_text (snd a)) "") (oc_args c)) 0.
Definition shown_oevent (e : oevent) : mevent := MEvent (text_of (oe_name e)) (map text_of (oe_args e)) [] [] 0.
Definition shown_oconst (k : oconst) : mconst := MConst (text_of (ok_name k)) (type_text (ok_type k)) ("0x" ++ hex_encode (ok_value k)).
Definition listed {A} (o : option (list A)) : list A := match o with Some l => l | None => [] end.
Definition about_module (m : wmodule) : mabout :=
  MAbout (match om_storage m with Some s => map (fun e => (modifier_name (on_default e), "0x" ++ hex_encode (on_fallback e), map text_of (on_docs e))) (snd s) | None => [] end)
    (map (fun k => map text_of (ok_docs k)) (om_constants m)).
Definition shown_omodule (v : Z) (m : wmodule) : mmodule :=
  MModule (text_of (om_name m)) (match om_storage m with Some s => text_of (fst s) | None => "" end) (if has_index v then om_index m else 0)
    (map shown_ocall (listed (om_calls m))) (map shown_oevent (listed (om_events m)))
    (match om_storage m with Some s => map (fun e => (text_of (on_name e), shown_ostore v (on_type e))) (snd s) | None => [] end)
    (map shown_oconst (om_constants m)) (map (fun x => text_of (ox_name x)) (om_errors m)) (about_module m).
(** The item with the number [j] of the module with the number [i]: the module
    of that index, or up to V11 the [i]-th of the modules that have such items. *)
Definition oat {A} (v : Z) (of : wmodule -> option (list A)) (l : list wmodule) (i j : Z) : option (wmodule * A) :=
  match (if has_index v then find (fun m => om_index m =? i) l
         else nth_error (filter (fun m => match of m with Some _ => true | None => false end) l) (Z.to_nat i)) with
  | Some m => match nth_error (listed (of m)) (Z.to_nat j) with Some a => Some (m, a) | None => None end
  | None => None
  end.
