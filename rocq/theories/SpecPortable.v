(** Specification of portable type registries (metadata V14 and later): which
    bytes encode which values of a declared type, which Go value the library
    shows for them, and which declarations the claim covers. *)

From Verif Require Import GoBase SpecNum ModelTools ModelVal ModelRegistry ModelDecode ModelRegister ModelScaleInfo SpecScale ProofsNames ProofsTexts PropScaleInfo.

(** ** Values *)
Inductive pval : Type :=
| PNum (z : Z) | PBool (b : bool) | PText (b : bytes)
| PSeq (l : list pval)            (* composite, sequence, array, tuple *)
| PVar (i : Z) (l : list pval)    (* variant with index i *)
| PBits (n : Z) (b : bytes).

Definition unsigned : list (string * Z) := [("u8", 1); ("u16", 2); ("u32", 4); ("u64", 8); ("u128", 16); ("u256", 32)].
Definition signed : list (string * Z) := [("i16", 2); ("i32", 4); ("i64", 8); ("i128", 16); ("i256", 32)].
(** The Go value of an integer of a primitive type. *)
Definition num_go (n : string) (z : Z) (g : val) : Prop :=
  In (n, g) [("u8", VInt z); ("u16", VU16 z); ("u32", VU32 z); ("u64", VU64 z); ("u256", VDec z 0);
             ("i16", VBig z); ("i32", VBig z); ("i64", VBig z); ("i128", VBig z); ("i256", VBig z)]
  \/ (n = "u128" /\ exists s, is_numeral s z /\ g = VStr s).
(** The Go value of a compact integer. *)
Definition compact_go (n : string) (z : Z) (g : val) : Prop :=
  In (n, g) [("u32", VInt z); ("u32", VU64 z); ("u64", VU64 z); ("u128", VDec z 0)].
(** Names of fields: their own, or their position counted from k. *)
Fixpoint cols (k : Z) (fs : list sifield) : list string :=
  match fs with
  | [] => []
  | f :: r => (if String.eqb (f_name f) "" then "col" ++ itoa k else f_name f) :: cols (k + 1) r
  end.
Fixpoint positions (k : Z) {A} (l : list A) : list string :=
  match l with [] => [] | _ :: r => ("col" ++ itoa k) :: positions (k + 1) r end.
(** The number inside any number of one-field wrappers. *)
Inductive innermost : pval -> Z -> Prop :=
| in_num z : innermost (PNum z) z
| in_wrap x z : innermost x z -> innermost (PSeq [x]) z.
Definition bytes_in (l : list pval) (b : bytes) : Prop := Forall2 (fun x a => innermost x (bZ a)) l b.

Section Types.
Variable port : portable.
Definition def_of (id : Z) : sidef := s_def (port_get port id).
Definition path_of (id : Z) : list string := s_path (port_get port id).
Definition params_of (id : Z) : list (string * Z) := s_params (port_get port id).

Definition prim (id : Z) (p : string) : Prop := exists n, def_of id = DPrimitive n /\ to_lower n = p.
(** One-field structs are transparent. *)
Inductive unwraps : Z -> Z -> Prop :=
| uw_here id : unwraps id id
| uw_step id f k : def_of id = DComposite [f] -> unwraps (f_type f) k -> unwraps id k.
Definition is_like (p : string) (id : Z) : Prop := exists k, unwraps id k /\ prim k p.

Definition opt_path (id : Z) : Prop := exists p r, path_of id = p :: r /\ equal_fold p "Option" = true.
Definition res_path (id : Z) : Prop := exists p r, path_of id = p :: r /\ equal_fold p "Option" = false /\ equal_fold p "Result" = true.
Definition prims_path (id : Z) : Prop := nth_error (path_of id) 0 = Some "primitive_types".
Definition account_path (id : Z) : Prop := path_last (path_of id) = Some "AccountId32".
Definition other_path (id : Z) : Prop := exists p r, path_of id = p :: r /\ equal_fold p "Option" = false /\ equal_fold p "Result" = false.

(** ** The wire format of a declared type *)
Inductive enc : Z -> pval -> bytes -> Prop :=
| enc_unsigned id n w z : prim id n -> In (n, w) unsigned -> 0 <= z < 2 ^ (8 * w) -> enc id (PNum z) (le_bytes (Z.to_nat w) z)
| enc_signed id n w z : prim id n -> In (n, w) signed -> - 2 ^ (8 * w - 1) < z < 2 ^ (8 * w - 1) -> enc id (PNum z) (le_bytes (Z.to_nat w) z)
| enc_bool id b : prim id "bool" -> enc id (PBool b) [if b : bool then Zb 1 else Zb 0]
| enc_str id b : prim id "str" -> Z.of_nat (List.length b) < 2 ^ 32 -> enc id (PText b) (len_of b ++ b)
| enc_composite id fs l bs : def_of id = DComposite fs -> encs (map f_type fs) l bs -> enc id (PSeq l) bs
| enc_variant id vs v l bs : def_of id = DVariant vs -> In v vs -> encs (map f_type (v_fields v)) l bs ->
    enc id (PVar (v_index v) l) (Zb (v_index v) :: bs)
| enc_sequence id k l bs : def_of id = DSequence k -> encs (repeat k (List.length l)) l bs ->
    Z.of_nat (List.length l) <= 512 * 1024 \/ (prim k "u8" /\ Z.of_nat (List.length l) < 2 ^ 32) -> enc id (PSeq l) (len_of l ++ bs)
| enc_array id n k l bs : def_of id = DArray n k -> Z.of_nat (List.length l) = n -> encs (repeat k (List.length l)) l bs -> enc id (PSeq l) bs
| enc_tuple id ks l bs : def_of id = DTuple ks -> encs ks l bs -> enc id (PSeq l) bs
| enc_unit id : def_of id = DNone -> enc id (PSeq []) []
| enc_compact id k n w z : def_of id = DCompact k -> is_like n k -> In (n, w) unsigned -> 0 <= z < 2 ^ (8 * w) -> enc id (PNum z) (compact z)
| enc_bits id n b : def_of id = DBitSequence -> 0 <= n < 2 ^ 53 -> Z.of_nat (List.length b) = (n + 7) / 8 -> enc id (PBits n b) (compact n ++ b)
with encs : list Z -> list pval -> bytes -> Prop :=
| encs_nil : encs [] [] []
| encs_cons k ks x l b bs : enc k x b -> encs ks l bs -> encs (k :: ks) (x :: l) (b ++ bs).

(** ** The Go value shown for a value of a declared type *)
Inductive shows : Z -> pval -> val -> Prop :=
| sh_num id n z g : prim id n -> num_go n z g -> shows id (PNum z) g
| sh_bool id b : prim id "bool" -> shows id (PBool b) (VBool b)
| sh_text id b : prim id "str" -> shows id (PText b) (VStr (text_of b))
| sh_newtype id f x g : def_of id = DComposite [f] -> ~ prims_path id -> ~ account_path id -> shows (f_type f) x g -> shows id (PSeq [x]) g
| sh_hash id f l b : def_of id = DComposite [f] -> prims_path id \/ account_path id -> bytes_in l b ->
    shows id (PSeq [PSeq l]) (VStr ("0x" ++ hex_encode b))
| sh_struct id fs l gs : def_of id = DComposite fs -> List.length fs <> 1%nat -> shows_all (map f_type fs) l gs ->
    shows id (PSeq l) (VMap (combine (cols 1 fs) gs))
| sh_list id k l gs : def_of id = DSequence k \/ (exists n, 0 < n /\ def_of id = DArray n k) -> ~ prim k "u8" ->
    shows_all (repeat k (List.length l)) l gs -> shows id (PSeq l) (slice_of gs)
| sh_bytes id k l b : def_of id = DSequence k \/ (exists n, 0 < n /\ def_of id = DArray n k) -> is_like "u8" k ->
    bytes_in l b -> shows id (PSeq l) (VStr (text_of b))
| sh_nothing id k : def_of id = DArray 0 k \/ def_of id = DTuple [] \/ def_of id = DNone -> shows id (PSeq []) VNil
| sh_tuple id ks l gs : def_of id = DTuple ks -> ks <> [] -> shows_all ks l gs -> shows id (PSeq l) (VMap (combine (positions 1 ks) gs))
| sh_none id vs : def_of id = DVariant vs -> opt_path id -> shows id (PVar 0 []) VNil
| sh_some id vs v f x g : def_of id = DVariant vs -> opt_path id -> In v vs -> v_index v = 1 -> v_fields v = [f] ->
    shows (f_type f) x g -> shows id (PVar 1 [x]) g
| sh_ok id vs v f x g : def_of id = DVariant vs -> res_path id -> In v vs -> v_index v = 0 -> v_fields v = [f] ->
    shows (f_type f) x g -> shows id (PVar 0 [x]) (VMap [("Ok", g)])
| sh_err id vs v f x g : def_of id = DVariant vs -> res_path id -> In v vs -> v_index v = 1 -> v_fields v = [f] ->
    shows (f_type f) x g -> shows id (PVar 1 [x]) (VMap [("Error", g)])
| sh_plain id vs v : def_of id = DVariant vs -> other_path id -> In v vs -> (forall w, In w vs -> v_fields w = []) ->
    shows id (PVar (v_index v) []) (VStr (v_name v))
| sh_unit_variant id vs v : def_of id = DVariant vs -> other_path id -> In v vs -> v_fields v = [] -> (exists w, In w vs /\ v_fields w <> []) ->
    shows id (PVar (v_index v) []) (VMap [(v_name v, VStr "NULL")])
| sh_one_variant id vs v f x g : def_of id = DVariant vs -> other_path id -> In v vs -> v_fields v = [f] ->
    shows (f_type f) x g -> shows id (PVar (v_index v) [x]) (VMap [(v_name v, g)])
| sh_variant id vs v l gs : def_of id = DVariant vs -> other_path id -> In v vs -> (2 <= List.length (v_fields v))%nat ->
    shows_all (map f_type (v_fields v)) l gs -> shows id (PVar (v_index v) l) (VMap [(v_name v, VMap (combine (cols 0 (v_fields v)) gs))])
| sh_compact id k n z g : def_of id = DCompact k -> is_like n k -> compact_go n z g -> shows id (PNum z) g
| sh_bits id n b : def_of id = DBitSequence -> shows id (PBits n b) (VStr (bits_text b))
with shows_all : list Z -> list pval -> list val -> Prop :=
| sa_nil : shows_all [] [] []
| sa_cons k ks x l g gs : shows k x g -> shows_all ks l gs -> shows_all (k :: ks) (x :: l) (g :: gs).

(** ** The values Encode writes as declared *)
Definition nothing (id : Z) : Prop := (exists k, def_of id = DArray 0 k) \/ def_of id = DTuple [] \/ def_of id = DNone.
Inductive writable : Z -> pval -> Prop :=
| wr_unsigned id n w z : prim id n -> In (n, w) unsigned -> writable id (PNum z)
| wr_bool id b : prim id "bool" -> writable id (PBool b)
| wr_text id b : prim id "str" -> forallb printable b = true -> Z.of_nat (List.length b) < 2 ^ 30 -> writable id (PText b)
| wr_hash id f x : def_of id = DComposite [f] -> prims_path id \/ account_path id -> writable id (PSeq [x])
  (* a one-field struct around a type without bytes has a name under which it cannot be written *)
| wr_composite id fs l : def_of id = DComposite fs -> (forall f k, fs = [f] -> unwraps (f_type f) k -> ~ nothing k) ->
    writables (map f_type fs) l -> writable id (PSeq l)
  (* the name of the variant is its own; a present optional value does not look like nil *)
| wr_variant id vs v l : def_of id = DVariant vs -> In v vs -> v_name v <> "empty" -> (forall w, In w vs -> v_name w = v_name v -> w = v) ->
    writables (map f_type (v_fields v)) l ->
    (forall f x g, opt_path id -> v_fields v = [f] -> l = [x] -> shows (f_type f) x g -> ~ nil_like g) -> writable id (PVar (v_index v) l)
| wr_list id k l : def_of id = DSequence k \/ (exists n, def_of id = DArray n k) -> writables (repeat k (List.length l)) l ->
    (def_of id = DSequence k -> Z.of_nat (List.length l) < 2 ^ 30) ->
    (forall b, is_like "u8" k -> bytes_in l b -> ~ looks_hex b) -> writable id (PSeq l)
| wr_tuple id ks l : def_of id = DTuple ks -> writables ks l -> writable id (PSeq l)
| wr_unit id : def_of id = DNone -> writable id (PSeq [])
| wr_compact id k z : def_of id = DCompact k -> z < 2 ^ 63 -> (is_like "u32" k -> z < 2 ^ 30) -> writable id (PNum z)
with writables : list Z -> list pval -> Prop :=
| wrs_nil : writables [] []
| wrs_cons k ks x l : writable k x -> writables ks l -> writables (k :: ks) (x :: l).

(** Types whose text may be part of the text of a type without a name. *)
Inductive reach : Z -> Z -> Prop :=
| rc_here id : reach id id
| rc_step id k j : (def_of id = DSequence k \/ (exists n, def_of id = DArray n k) \/ def_of id = DCompact k
      \/ (exists ks, def_of id = DTuple ks /\ In k ks) \/ (exists f, def_of id = DComposite [f] /\ k = f_type f)
      \/ (exists vs n, def_of id = DVariant vs /\ (opt_path id \/ res_path id) /\ In (n, k) (params_of id))) -> reach k j -> reach id j.
End Types.

Scheme enc_ind2 := Minimality for enc Sort Prop with encs_ind2 := Minimality for encs Sort Prop.
Combined Scheme enc_mutind from enc_ind2, encs_ind2.

(** ** Which declarations the claim covers *)
Definition prim_names : list string :=
  ["bool"; "str"; "u8"; "u16"; "u32"; "u64"; "u128"; "u256"; "i16"; "i32"; "i64"; "i128"; "i256"].
(** Names and shapes of text with a built-in meaning. *)
Definition reserved_names : list string :=
  (prim_names ++ ["null"; "empty"; "bytes"; "accountid"; "h160"; "h256"; "h512"; "bitvec"; "vec"; "option"; "compact"; "result"; "moment"])%list.
Definition reserved_starts : list string := ["vec<"; "option<"; "compact<"; "result<"; "["; "tuple:"].
Definition reserved (k : string) : Prop := In k reserved_names \/ exists p, In p reserved_starts /\ prefix p k = true.
Definition hashes : list (string * Z) := [("h160", 20); ("h256", 32); ("h512", 64)].

Section Regular.
Variable c : sictx.
(** How often each path occurs (as counted by the library). *)
Variable D : list (string * Z).
(** A set of type ids. *)
Variable Rg : Z -> Prop.
Notation port := (i_port c).
Notation def := (def_of port).
Notation path := (path_of port).

(** The type has a name of its own. *)
Definition named_as (id : Z) (n : string) : Prop := nameSiType c D (port_get port id) id = Ok n /\ n <> "".
Definition prim_like (id : Z) : Prop := (exists n, def id = DPrimitive n) \/ prims_path port id.
Definition account (id : Z) : Prop := account_path port id /\ exists f, def id = DComposite [f].
(** Types the library names before all others. *)
Definition early (id : Z) : Prop := prim_like id \/ account id.

(** The texts by which the library may refer to a type; [T]: the tuples
    registered.  A type outside of [Rg] may also get other texts. *)
Inductive text (T : string -> Prop) : Z -> string -> Prop :=
| tx_prim id n : def id = DPrimitive n -> text T id n
| tx_prims id n : prims_path port id -> path_last (path id) = Some n -> text T id n
| tx_null id : ~ Rg id -> text T id "NULL"
| tx_override id : overriderTypesName (port_get port id) <> "" -> text T id (overriderTypesName (port_get port id))
| tx_name id n : named_as id n -> (Rg id -> ~ early id) -> text T id n
| tx_account id : account id -> text T id "AccountId"
| tx_newtype id f t : def id = DComposite [f] -> (Rg id -> ~ early id) -> text T (f_type f) t -> text T id t
| tx_wrapper id fs k t : def id = DComposite fs -> is_wrapper (path id) = true -> text T k t -> text T id ("WrapperOpaque<" ++ t ++ ">")
| tx_array id n k t : def id = DArray n k -> n <> 0 -> text T k t -> text T id (array_text t n)
| tx_array0 id k : def id = DArray 0 k -> text T id "NULL"
| tx_sequence id k t : def id = DSequence k -> text T k t -> text T id ("Vec<" ++ t ++ ">")
| tx_bytes id k t : def id = DSequence k -> text T k t -> to_lower t = "u8" -> text T id "Bytes"
| tx_tuple id ks ts : def id = DTuple ks -> ks <> [] -> texts T ks ts -> T (to_lower ("Tuple:" ++ join "" ts)) -> text T id ("Tuple:" ++ join "" ts)
| tx_unit id : def id = DTuple [] \/ def id = DNone -> text T id "NULL"
| tx_compact id k t : def id = DCompact k -> text T k t -> text T id ("compact<" ++ t ++ ">")
| tx_bits id : def id = DBitSequence -> text T id "BitVec"
| tx_range id : def id = DRange -> text T id ""
| tx_unnamed id : ~ Rg id -> nameSiType c D (port_get port id) id = Ok "" ->
    (exists fs, def id = DComposite fs) \/ (exists vs, def id = DVariant vs /\ other_path port id /\ is_call_event (path id) = false) -> text T id ""
| tx_option id vs n k r t : def id = DVariant vs -> opt_path port id -> params_of port id = (n, k) :: r -> text T k t -> text T id ("option<" ++ t ++ ">")
| tx_result id vs n a m b r t u : def id = DVariant vs -> res_path port id -> params_of port id = (n, a) :: (m, b) :: r -> text T a t -> text T b u ->
    text T id ("Result<" ++ (t ++ "," ++ u) ++ ">")
| tx_call id vs : def id = DVariant vs -> other_path port id -> is_call_event (path id) = true \/ is_str (path_last (path id)) "RuntimeCall" = true -> text T id "Call"
with texts (T : string -> Prop) : list Z -> list string -> Prop :=
| txs_nil : texts T [] []
| txs_cons k ks t ts : text T k t -> texts T ks ts -> texts T (k :: ks) (t :: ts).

(** Conditions on one type. *)
Definition name_regular (id : Z) : Prop :=
  exists n, named_as id n /\ ~ In (to_lower n) overridden /\ prefix "primitive_types:" (to_lower n) = false
    /\ ~ In (to_lower n) ["extrinsicsignature"; "extrinsicsigner"].
(** A one-field struct the library can register under its name. *)
Definition newtype_ok (id : Z) (f : sifield) : Prop :=
  f_type f <> id /\ forall k, unwraps port (f_type f) k ->
    ~ (res_path port k /\ exists vs, def k = DVariant vs) /\ (forall n e, def k = DArray n e -> forall j m e', reach port e j -> def j <> DArray m e').
Definition regular (id : Z) : Prop :=
  overriderTypesName (port_get port id) = "" /\ 0 <= id < Z.of_nat (distinct_ids [] port) /\
  match def id with
  | DPrimitive n => In (to_lower n) prim_names /\ path id = []
  | DComposite fs =>
      is_wrapper (path id) = false /\ is_unchecked (path id) = false /\
      ((exists f h n e, fs = [f] /\ prims_path port id /\ path_last (path id) = Some h /\ In (to_lower h, n) hashes
          /\ def (f_type f) = DArray n e /\ prim port e "u8")
       \/ (exists f e, fs = [f] /\ account_path port id /\ def (f_type f) = DArray 32 e /\ prim port e "u8"
          /\ nth_error (path id) 0 = Some "sp_core" /\ forall j, 0 <= j < id -> nth_error (path j) 0 <> Some "sp_core")
       \/ (~ prims_path port id /\ (List.length fs = 1%nat -> ~ account_path port id) /\ name_regular id
          /\ Forall (fun f => Rg (f_type f)) fs /\ NoDup (cols 1 fs) /\ (forall f, fs = [f] -> newtype_ok id f)))
  | DVariant vs =>
      (opt_path port id /\ exists n k r, params_of port id = (n, k) :: r /\ Rg k /\ ~ is_like port "bool" k
          /\ Forall (fun v => (v_index v = 0 /\ v_fields v = []) \/ (v_index v = 1 /\ exists f, v_fields v = [f] /\ f_type f = k)) vs)
      \/ (res_path port id /\ exists n a m b r, params_of port id = (n, a) :: (m, b) :: r /\ Rg a /\ Rg b
          /\ (forall k j ws, k = a \/ k = b -> reach port k j -> def j = DVariant ws -> ~ res_path port j)
          /\ Forall (fun v => exists f, v_fields v = [f] /\ ((v_index v = 0 /\ f_type f = a) \/ (v_index v = 1 /\ f_type f = b))) vs)
      \/ (other_path port id /\ ~ prims_path port id /\ is_call_event (path id) = false /\ is_str (path_last (path id)) "RuntimeCall" = false
          /\ name_regular id /\ well_indexed vs
          /\ Forall (fun v => Forall (fun f => Rg (f_type f)) (v_fields v) /\ NoDup (cols 0 (v_fields v))) vs)
  | DSequence k => Rg k /\ ~ prims_path port id
  | DArray n k => Rg k /\ 0 <= n < 2 ^ 63 /\ ~ prims_path port id
  | DTuple ks => Forall Rg ks /\ ~ prims_path port id
  | DCompact k => Rg k /\ (is_like port "u32" k \/ is_like port "u64" k \/ is_like port "u128" k) /\ ~ prims_path port id
  | DBitSequence => ~ prims_path port id
  (* an empty tuple of runtime metadata *)
  | DNone => assocz id port <> None /\ ~ prims_path port id
  | DRange | DHistoric _ => False
  end.

(** Conditions on all types of the registry, covered or not. *)
Definition ident_start (s : string) : Prop := exists a r, s = String a r /\ (wrapper_char a = true \/ a = "_"%char).
Record well_named : Prop := {
  wn_name : forall id n, named_as id n -> name_text_ok n /\ ident_start n /\ ~ reserved (to_lower n) /\ prefix "boundedbtreeset" (to_lower n) = false;
  wn_distinct : forall i j n m, named_as i n -> named_as j m -> to_lower n = to_lower m -> i = j;
  wn_prim : forall id n, def id = DPrimitive n -> ~ has_char "#"%char n;
  wn_prims : forall id n, prims_path port id -> path_last (path id) = Some n -> ~ has_char "#"%char n;
  wn_wrapper : forall id fs n k r, def id = DComposite fs -> is_wrapper (path id) = true -> params_of port id = (n, k) :: r -> Rg k -> ~ prim_like k;
  wn_unchecked : forall id fs p k, def id = DComposite fs -> is_unchecked (path id) = true -> In p ["Signature"; "Address"] ->
    FindParameter p (params_of port id) = Some k -> Rg k -> ~ prim_like k;
  (** Different tuples have different texts. *)
  wn_tuples : forall i j ki kj ts us, Rg i -> def i = DTuple ki -> def j = DTuple kj -> texts (fun _ => True) ki ts -> texts (fun _ => True) kj us ->
    to_lower (join "" ts) = to_lower (join "" us) -> map to_lower ts = map to_lower us }.
End Regular.

(** The counts the library makes of its paths. *)
Definition counted (c : sictx) (D : list (string * Z)) : Prop :=
  exists s, each_id (count_name c) (distinct_ids [] (i_port c)) 0 (SiState [] [] base_reg) = Ok s /\ g_dup s = D.
(** Not a name the library registers by itself. *)
Definition ordinary (n : string) : Prop := prefix "primitive_types:" (to_lower n) = false /\ ~ In (to_lower n) ["extrinsicsignature"; "extrinsicsigner"].
(** A registry in which built-in names and shapes have their built-in meaning
    and no ordinary name to be registered has ranges of versions or, when the types to be
    registered are those of V14 metadata, a V14 declaration. *)
Record standard (c : sictx) (D : list (string * Z)) (r : reg) : Prop := {
  st_types : forall k, reserved k -> prefix "tuple:" k = false -> assoc k (r_types r) = assoc k base_registry;
  st_special : forall k, reserved k -> assoc k (r_special r) = None;
  st_special_named : forall id n, named_as c D id n -> ordinary n -> assoc (to_lower n) (r_special r) = None;
  st_v14 : i_v14 c = true -> forall key, (exists id, named_as c D id key) \/ prefix "Tuple:" key = true -> assoc key (r_v14 r) = None }.
