(** Which type names a decoder looks up, and decoding with all of them known:
    lemmas behind C72. *)

From Verif Require Import GoBase SpecNum ModelTools ModelUint128 ModelJson ModelVal ModelRegistry ModelFixPoint ModelDecode.

(** The names the records of runtime metadata ask for. *)
Definition meta_texts : list string :=
  [ "String"; "Vec<String>"; "HexBytes"; "bool"; "U8"; "Text"; "Vec<Text>"; "SiLookupTypeId"; "StorageHasher"; "Vec<StorageHasher>"; "StorageModify";
    "StorageFunctionType"; "StorageFunctionTypeV14"; "Vec<MetadataModuleCallArgument>"; "Vec<MetadataV7ModuleStorageEntry>";
    "Vec<MetadataV13ModuleStorageEntry>"; "Vec<MetadataV14ModuleStorageEntry>"; "MetadataV7ModuleStorage"; "MetadataV13ModuleStorage";
    "MetadataV14ModuleStorage"; "Vec<MetadataModuleCall>"; "Vec<MetadataModuleEvent>"; "Vec<MetadataV7ModuleConstants>"; "Vec<MetadataModuleError>";
    "PalletCallMetadataV14"; "PalletEventMetadataV14"; "PalletErrorMetadataV14"; "Vec<PalletConstantMetadataV14>";
    "Vec<RuntimeApiMethodMetadataV15>"; "Vec<RuntimeApiMethodParamMetadataV15>"; "BTreeMap<Text, CustomValueMetadata15>" ].
(** The type texts a decoder may look up, besides the arguments of calls. *)
Definition second (row : list string) : list string := match row with _ :: t :: _ => [t] | _ => [] end.
Definition variant_asks (sub : string) : list string :=
  if String.eqb sub "" then [] else match struct_variant sub with Some rows => flat_map second rows | None => [sub] end.
Definition asks (cd : codec) : list string :=
  match cd with
  | CBytes | CString | CHexBytes | CBitVec => ["Compact<u32>"]
  | COpaqueCall => ["Compact<u32>"; "Call"]
  | CVec sub | CBoundedVec sub | CWrapperOpaque sub => ["Compact<u32>"; sub]
  | COption sub | CCompact sub => if String.eqb sub "" then [] else [sub]
  | CStruct (Some tm) => map snd tm
  | CEnum (Some tm) _ => if c_like tm then [] else flat_map (fun p => variant_asks (snd p)) tm
  | CSet _ bits => ["U" ++ itoa bits]
  | CLogDigest => log_digest_list
  | CData => data_types
  | CBTreeMap sub => "Compact<u32>" :: nth 0 (split_char ","%char sub) "" :: match nth_error (split_char ","%char sub) 1 with Some t => [t] | None => [] end
  | CBox sub => [sub]
  | CResult sub => match split_char ","%char sub with [a; b] => [a; b] | _ => [] end
  | CRange sub => match split_char ","%char sub with [a; b] => [a; b] | _ => [sub] end
  | CFixedArray n sub => if (0 <? n) && negb (equal_fold sub "u8") then [sub] else []
  | CGenericLookupSource => ["U32"]
  | CSubstrateFixedI128 => ["i128"]
  | COpaque _ => meta_texts
  | _ => []
  end.

(** The panic of base.go:166 *)
Definition unknown_type (m : string) : bool := prefix "Not found decoder class" m.
Definition reports_unknown (o : outcome) : Prop := exists m, o = Panic m /\ unknown_type m = true.

Section Closed.
(** The names that are known, in the pallets that are considered (a pallet may
    override type names: override.go). *)
Variable L Pallet : string -> Prop.
Hypothesis P0 : Pallet "".
(** A context whose call arguments are known. *)
Definition fine (c : ctx) : Prop := Pallet (x_module c) /\
  match x_meta c with
  | None => True
  | Some md => forall i cm, assoc i md = Some cm -> Pallet (cm_module cm) /\ forall n t, In (n, t) (cm_args cm) -> L t
  end.

Inductive closed : prog -> Prop :=
| cl_ret v : closed (Ret v)
| cl_fail m : unknown_type m = false -> closed (Fail m)
| cl_next n k : (forall b, closed (k b)) -> closed (Next n k)
| cl_sub c ts k : fine c -> L ts -> (forall v, closed (k v)) -> closed (Sub c ts k)
| cl_other b c keep ts k : fine c -> L ts -> (forall v, closed (k v)) -> closed (Other b c keep ts k)
| cl_whole k : (forall b, closed (k b)) -> closed (Whole k)
| cl_log k : closed k -> closed (LogSpan k).

Lemma closed_int v k : (forall n, closed (k n)) -> closed (as_int v k).
Proof. intros H. destruct v; try (apply cl_fail; reflexivity). apply H. Qed.
Lemma closed_str v k : (forall n, closed (k n)) -> closed (as_str v k).
Proof. intros H. destruct v; try (apply cl_fail; reflexivity). apply H. Qed.
Lemma closed_bool v k : (forall n, closed (k n)) -> closed (as_bool v k).
Proof. intros H. destruct v; try (apply cl_fail; reflexivity). apply H. Qed.
Lemma closed_list v k : (forall n, closed (k n)) -> closed (as_list v k).
Proof. intros H. destruct v; try (apply cl_fail; reflexivity); apply H. Qed.
Lemma closed_struct v k : (forall n, closed (k n)) -> closed (as_struct v k).
Proof. intros H. destruct v; try (apply cl_fail; reflexivity). apply H. Qed.
Lemma closed_strs l : forall k, (forall n, closed (k n)) -> closed (as_strs l k).
Proof. induction l as [|v l IH]; intros k H; [apply H|]. cbn [as_strs]. destruct v; try (apply cl_fail; reflexivity). apply IH. intros. apply H. Qed.
Lemma closed_structs l : forall k, (forall n, closed (k n)) -> closed (as_structs l k).
Proof. induction l as [|v l IH]; intros k H; [apply H|]. cbn [as_structs]. destruct v; try (apply cl_fail; reflexivity). apply IH. intros. apply H. Qed.

Variable c : ctx.
Hypothesis FC : fine c.
Lemma closed_repeat ts k : L ts -> (forall l, closed (k l)) -> forall n acc, closed (repeat_sub c ts n acc k).
Proof. intros T H. induction n as [|n IH]; intros acc; [apply H|]. cbn [repeat_sub]. apply cl_sub; [exact FC|exact T|]. intros v. apply IH. Qed.
Lemma closed_fields tm : forall acc k, (forall t, In t (map snd tm) -> L t) -> (forall m, closed (k m)) -> closed (fields_sub c tm acc k).
Proof.
  induction tm as [|[n t] tm IH]; intros acc k A H; [apply H|]. cbn [fields_sub]. apply cl_sub; [exact FC|apply A; now left|].
  intros v. apply IH; [intros t' I; apply A; now right|exact H].
Qed.
Lemma closed_rows rows : forall acc k, (forall t, In t (flat_map second rows) -> L t) -> (forall m, closed (k m)) -> closed (rows_sub c rows acc k).
Proof.
  induction rows as [|row rows IH]; intros acc k A H; [apply H|]. cbn [rows_sub]. destruct row as [|n [|t tl]]; try (apply cl_fail; reflexivity).
  apply cl_sub; [exact FC|apply A; now left|]. intros v. apply IH; [intros t' I; apply A; cbn [flat_map]; apply in_or_app; now right|exact H].
Qed.
Lemma closed_params c' args : fine c' -> forall acc k, (forall n t, In (n, t) args -> L t) -> (forall m, closed (k m)) -> closed (call_params c' args acc k).
Proof.
  intros F'. induction args as [|[n t] args IH]; intros acc k A H; [apply H|]. cbn [call_params]. apply cl_sub; [exact F'|apply (A n); now left|].
  intros v. apply IH; [intros n' t' I; apply (A n'); now right|exact H].
Qed.
Lemma closed_compact k : (forall n b, closed (k n b)) -> closed (compact_bytes k).
Proof.
  intros H. unfold compact_bytes. apply cl_next. intros b. generalize (match b with [] => 0 | x :: _ => bZ x mod 4 end). intros z.
  destruct z as [|[p|[p|p|]|]|p]; try (apply cl_next; intros); apply H.
Qed.
Lemma closed_compact_value n v : closed (compact_value n v).
Proof.
  unfold compact_value. cbv zeta. destruct v; try apply cl_ret;
    try (match goal with |- closed (match dec_of_string ?s with _ => _ end) => destruct (dec_of_string s) as [[? ?]|]; [|apply cl_fail; reflexivity] end);
    match goal with |- closed (let '(_, _) := ?x in _) => destruct x; apply cl_ret end.
Qed.
Lemma closed_u32 k : L "Compact<u32>" -> (forall n, closed (k n)) -> closed (compact_u32 c k).
Proof. intros A H. apply cl_sub; [exact FC|exact A|]. intros v. now apply closed_int. Qed.

Lemma closed_enum tm vl : (forall t, In t (asks (CEnum tm vl)) -> L t) -> closed (process_enum c tm vl).
Proof.
  intros A. unfold process_enum. apply cl_next. intros b.
  assert (V : closed (match nth_z vl (head_u8 b) with None => Fail "runtime error: index out of range" | Some s => Ret (if String.eqb s "" then VNil else VStr s) end)).
  { destruct (nth_z vl (head_u8 b)); [apply cl_ret|apply cl_fail; reflexivity]. }
  destruct tm as [tm|]; [|exact V]. cbn [asks] in A. destruct (c_like tm); [apply cl_ret|].
  destruct (nth_z tm (head_u8 b)) as [[name sub]|] eqn:E; [|apply cl_fail; reflexivity]. unfold nth_z in E. destruct (head_u8 b <? 0); [discriminate|].
  assert (I : forall t, In t (variant_asks sub) -> L t).
  { intros t It. apply A. apply in_flat_map. exists (name, sub). split; [now apply nth_error_In in E|exact It]. }
  unfold variant_asks in I. destruct (String.eqb sub ""); [exact V|]. destruct (struct_variant sub) as [rows|].
  - apply closed_rows; [exact I|]. intros m. apply cl_ret.
  - apply cl_sub; [exact FC|apply I; now left|]. intros v. apply cl_ret.
Qed.
Lemma closed_call : closed (process_call c).
Proof.
  unfold process_call. apply cl_next. intros b. destruct FC as [P M]. destruct (x_meta c) as [md|] eqn:X; [|apply cl_fail; reflexivity].
  cbv zeta. destruct (assoc (BytesToHex b) md) as [cm|] eqn:A.
  - destruct (M _ _ A) as [P' A']. apply closed_params; [split; [exact P'|exact M]|exact A'|]. intros m. apply cl_log, cl_ret.
  - apply closed_params; [split; [exact P0|exact M]|intros n t []|]. intros m. apply cl_log, cl_ret.
Qed.
Lemma closed_bytes k : L "Compact<u32>" -> (forall s, closed (k s)) -> closed (process_bytes c k).
Proof. intros A H. apply closed_u32; [exact A|]. intros n. apply cl_next. intros b. apply H. Qed.

(** ** Records of metadata *)
Section Meta.
Hypothesis MT : forall t, In t meta_texts -> L t.
Lemma closed_sub_str ts k : In ts meta_texts -> (forall s, closed (k s)) -> closed (sub_str c ts k).
Proof. intros I H. apply cl_sub; [exact FC|now apply MT|]. intros v. now apply closed_str. Qed.
Lemma closed_sub_int ts k : In ts meta_texts -> (forall s, closed (k s)) -> closed (sub_int c ts k).
Proof. intros I H. apply cl_sub; [exact FC|now apply MT|]. intros v. now apply closed_int. Qed.
Lemma closed_sub_type k : (forall s, closed (k s)) -> closed (sub_type c k).
Proof. intros H. apply closed_sub_str; [cbn; tauto|]. intros s. apply H. Qed.
Lemma closed_sub_strs ts k : In ts meta_texts -> (forall s, closed (k s)) -> closed (sub_strs c ts k).
Proof. intros I H. apply cl_sub; [exact FC|now apply MT|]. intros v. apply closed_list. intros l. now apply closed_strs. Qed.
Lemma closed_sub_structs ts k : In ts meta_texts -> (forall s, closed (k s)) -> closed (sub_structs c ts k).
Proof. intros I H. apply cl_sub; [exact FC|now apply MT|]. intros v. apply closed_list. intros l. now apply closed_structs. Qed.
Lemma closed_sub_flag yes no k : (forall k', (forall v, closed (k' v)) -> closed (yes k')) -> (forall v, closed (k v)) -> closed (sub_flag c yes no k).
Proof. intros Y H. apply cl_sub; [exact FC|apply MT; cbn; tauto|]. intros v. apply closed_bool. intros [|]; [now apply Y|apply H]. Qed.
Lemma closed_some ts k : In ts meta_texts -> (forall v, closed (k v)) -> closed (v <~ sub c, ts ; as_struct v (fun m => k (VMap m))).
Proof. intros I H. apply cl_sub; [exact FC|now apply MT|]. intros v. apply closed_struct. intros m. apply H. Qed.

Ltac texts := cbn; tauto.
Ltac walk :=
  repeat first
   [ apply cl_ret | apply cl_fail; reflexivity
   | apply closed_sub_type; intros ? | apply closed_sub_str; [texts|intros ?] | apply closed_sub_int; [texts|intros ?]
   | apply closed_sub_strs; [texts|intros ?] | apply closed_sub_structs; [texts|intros ?]
   | apply closed_sub_flag; [intros ? ?|intros ?] | apply closed_some; [texts|intros ?]
   | apply closed_struct; intros ? | apply closed_bool; intros ?
   | match goal with |- closed (Sub c ?t _) => apply cl_sub; [exact FC|apply MT; texts|intros ?] end
   | match goal with H : forall v, closed (?k v) |- closed (?k _) => apply H end
   | match goal with |- closed (if ?b then _ else _) => destruct b end ].
Lemma closed_storage_end n m t : closed (meta_storage_end c n m t).
Proof. unfold meta_storage_end. walk. Qed.
Lemma closed_storage_type nmap kind k : (forall v, closed (k v)) -> closed (meta_storage_type c nmap kind k).
Proof. intros H. unfold meta_storage_type. walk. Qed.
Lemma closed_items ke ts k : In ts meta_texts -> (forall v, closed (k v)) -> closed (meta_items c ke ts k).
Proof. intros I H. unfold meta_items. apply closed_sub_flag; [|exact H]. intros k' H'. apply closed_sub_structs; [exact I|]. intros l. apply H'. Qed.
Lemma closed_lookup ts k : In ts meta_texts -> (forall v, closed (k v)) -> closed (sub_lookup c ts k).
Proof. intros I H. unfold sub_lookup. apply closed_sub_flag; [|exact H]. intros k' H'. now apply closed_some. Qed.
Lemma closed_module storage ke ix : In storage meta_texts -> closed (meta_module c storage ke ix).
Proof.
  intros I. unfold meta_module. apply closed_sub_str; [texts|]. intros n. apply closed_sub_flag; [intros k' H'; now apply closed_some|]. intros st. apply closed_struct. intros sm.
  apply closed_items; [texts|]. intros calls. apply closed_items; [texts|]. intros events. apply closed_sub_structs; [texts|]. intros consts.
  apply closed_sub_structs; [texts|]. intros errs. cbv zeta. walk.
Qed.
Lemma closed_module14 k : (forall r, closed (k r)) -> closed (meta_module14 c k).
Proof.
  intros H. unfold meta_module14. apply closed_sub_str; [texts|]. intros n. apply closed_sub_flag; [intros k' H'; apply closed_some; [texts|exact H']|]. intros st. apply closed_struct. intros sm.
  apply closed_lookup; [texts|]. intros calls. apply closed_lookup; [texts|]. intros events. apply closed_sub_structs; [texts|]. intros consts.
  apply closed_lookup; [texts|]. intros errs. apply closed_sub_int; [texts|]. intros i. apply H.
Qed.
Lemma closed_meta name : closed (process_meta c name).
Proof.
  unfold process_meta.
  repeat match goal with |- closed (if String.eqb name ?x then _ else _) => destruct (String.eqb name x) end.
  all: unfold meta_event, meta_argument, meta_call, meta_error, meta_constant, meta_storage_entry, meta_storage, meta_constant14, meta_storage_entry14, meta_module15, meta_api, meta_method, meta_param, meta_outer, meta_custom.
  all: try (walk; fail).
  all: try (apply closed_module; texts).
  all: try (apply closed_sub_str; [texts|]; intros n; apply closed_sub_str; [texts|]; intros m; apply closed_sub_str; [texts|]; intros kind; apply closed_storage_type; intros v; apply closed_storage_end).
Qed.
End Meta.

Lemma closed_process E cd : (forall t, In t (asks cd) -> L t) -> closed (process E c cd).
Proof.
  intros A.
  assert (F0 : fine (Ctx 0 "" None)) by (split; [exact P0|exact I]).
  assert (FM : fine (Ctx (x_spec c) "" (x_meta c))) by (split; [exact P0|exact (proj2 FC)]).
  destruct cd; unfold process.
  all: try (apply cl_ret).
  all: try (apply cl_next; intros b; apply cl_ret).
  all: try (apply cl_fail; reflexivity).
  - (* U128 *) apply cl_next. intros b. cbv zeta. destruct (FromBytes _) as [u|m|]; [|apply cl_fail; reflexivity..].
    destruct (String_ u); [apply cl_ret|apply cl_fail; reflexivity..].
  - (* U256 *) apply cl_next. intros b. destruct (ModelTools.U256 _); [apply cl_ret|apply cl_fail; reflexivity].
  - (* f64 *) apply cl_whole. intros d. destruct (Nat.ltb _ _); [apply cl_fail; reflexivity|apply cl_ret].
  - (* f32 *) apply cl_whole. intros d. destruct (Nat.ltb _ _); [apply cl_fail; reflexivity|apply cl_ret].
  - (* Address *) apply cl_next. intros a. destruct (String.eqb _ _); apply cl_next; intros b; apply cl_ret.
  - (* GenericAddress *) apply cl_next. intros a. cbv zeta. repeat (match goal with |- closed (if ?x then _ else _) => destruct x end); apply cl_next; intros b; apply cl_ret.
  - (* GenericLookupSource *)
    assert (T : closed (a <~ next 1 ;
        if String.eqb (BytesToHex a) "ff" then b <~ next 32 ; Ret (VStr (BytesToHex b))
        else match a with
             | [] => Fail "runtime error: index out of range"
             | f :: _ =>
                 let '(o, l) := if bZ f =? 252 then (1, 2) else if bZ f =? 253 then (1, 4)
                                else if bZ f =? 254 then (1, 8) else (0, 1) in
                 Whole (fun d =>
                   match slice d o (o + l) with
                   | Ok b => Other b (Ctx 0 "" None) false "U32"
                               (fun v => match v with
                                         | VU32 z => Ret (VStr (itoa z))
                                         | _ => Fail "interface conversion: interface {} is not uint32"
                                         end)
                   | _ => Fail "runtime error: slice bounds out of range"
                   end)
             end)).
    { apply cl_next. intros a. destruct (String.eqb _ _); [apply cl_next; intros b; apply cl_ret|]. destruct a as [|f a]; [apply cl_fail; reflexivity|].
      destruct (if bZ f =? 252 then _ else _) as [o l]. apply cl_whole. intros d. destruct (slice d o (o + l)); [|apply cl_fail; reflexivity..].
      apply cl_other; [exact F0|apply A; now left|]. intros v. destruct v; try (apply cl_fail; reflexivity). apply cl_ret. }
    cbv zeta. apply cl_whole. intros d. destruct (Nat.eqb _ _); [apply cl_next; intros _; exact T|exact T].
  - (* Option *) apply cl_next. intros b. cbv zeta. cbn [asks] in A. destruct (String.eqb sub ""); [apply cl_ret|]. cbn [negb andb]. destruct (negb _); [|apply cl_ret].
    destruct (String.eqb sub "bool"); [apply cl_ret|]. apply cl_sub; [exact FC|apply A; now left|]. intros v. apply cl_ret.
  - (* Struct *) destruct tm as [tm|]; [|apply cl_ret]. apply closed_fields; [exact A|]. intros m. apply cl_ret.
  - apply closed_enum. exact A.
  - apply closed_bytes; [apply A; now left|]. intros s. apply cl_ret.
  - apply closed_u32; [apply A; now left|]. intros n. apply cl_next. intros b. apply cl_ret.
  - apply closed_bytes; [apply A; now left|]. intros s. apply cl_ret.
  - apply closed_bytes; [apply A; now left|]. intros s. apply cl_other; [exact FM|apply A; right; now left|]. intros v. apply cl_ret.
  - apply closed_u32; [apply A; now left|]. intros n. destruct (_ <? n); [apply cl_fail; reflexivity|]. apply closed_repeat; [apply A; right; now left|]. intros l. apply cl_ret.
  - apply closed_u32; [apply A; now left|]. intros n. destruct (_ <? n); [apply cl_fail; reflexivity|]. apply closed_repeat; [apply A; right; now left|]. intros l. apply cl_ret.
  - (* Set *) apply cl_sub; [exact FC|apply A; now left|]. intros v. apply cl_ret.
  - (* Compact *) apply closed_compact. intros n b. cbn [asks] in A. destruct (String.eqb sub ""); [apply cl_ret|]. apply cl_other; [exact F0|apply A; now left|]. intros v. apply closed_compact_value.
  - apply closed_compact. intros n b. apply cl_ret.
  - apply closed_compact. intros n b. apply cl_ret.
  - (* Era *) apply cl_next. intros b. destruct (String.eqb _ _); [apply cl_ret|]. apply cl_next. intros r. apply cl_ret.
  - (* Balance *) apply cl_next. intros b. cbv zeta. destruct (String.eqb _ _); [apply cl_ret|]. destruct (FromBytes _); [apply cl_ret|apply cl_fail; reflexivity..].
  - (* LogDigest *) apply cl_next. intros b. destruct (nth_z log_digest_list (head_u8 b)) as [t|] eqn:N; [|apply cl_fail; reflexivity].
    apply cl_sub; [exact FC| |intros v; apply cl_ret]. apply A. unfold nth_z in N. destruct (head_u8 b <? 0); [discriminate|]. now apply nth_error_In in N.
  - apply closed_call.
  - (* Data *) apply cl_next. intros b. cbv zeta. destruct (_ =? 0) eqn:B0; [apply cl_ret|]. destruct (_ <=? 33) eqn:B1; [apply cl_next; intros d; apply cl_ret|]. destruct (_ <=? 37) eqn:B2; [|apply cl_ret].
    apply cl_sub; [exact FC| |intros v; apply cl_ret]. apply A. cbn [asks]. apply nth_In. cbn [data_types List.length]. lia.
  - (* BitVec *) apply closed_u32; [apply A; now left|]. intros n. apply cl_next. intros b. apply cl_ret.
  - (* BTreeMap *) apply closed_u32; [apply A; now left|]. intros n. destruct (_ <? n); [apply cl_fail; reflexivity|]. cbv zeta.
    generalize (Z.to_nat n) ([] : list val). clear n. intros n. induction n as [|n IH]; intros acc; [apply cl_ret|].
    apply cl_sub; [exact FC|apply A; right; now left|]. intros kv. cbn [asks] in A. destruct (nth_error (split_char ","%char sub) 1) as [sv|]; [|apply cl_fail; reflexivity].
    apply cl_sub; [exact FC|apply A; right; right; now left|]. intros v. apply IH.
  - apply cl_sub; [exact FC|apply A; now left|]. intros v. apply cl_ret.
  - (* Result *) apply cl_next. intros b. cbn [asks] in A. destruct (split_char ","%char sub) as [|x [|y [|z l]]]; try (apply cl_fail; reflexivity). cbv zeta.
    destruct (_ || _)%bool; [apply cl_sub; [exact FC|apply A; now left|]; intros v; apply cl_ret|].
    destruct (String.eqb _ _); [apply cl_sub; [exact FC|apply A; right; now left|]; intros v; apply cl_ret|apply cl_fail; reflexivity].
  - (* WrapperOpaque *) apply cl_sub; [exact FC|apply A; now left|]. intros n. apply cl_sub; [exact FC|apply A; right; now left|]. intros v. apply cl_ret.
  - (* Range *) cbn [asks] in A. assert (T : exists a b, (match split_char ","%char sub with [a; b] => (a, b) | _ => (sub, sub) end) = (a, b) /\ L a /\ L b).
    { destruct (split_char ","%char sub) as [|x [|y [|z l]]]; eexists _, _; (split; [reflexivity|]); split; apply A; cbn [In]; tauto. }
    destruct T as (x & y & -> & TX & TY). apply cl_sub; [exact FC|exact TX|]. intros v. apply cl_sub; [exact FC|exact TY|]. intros w. apply cl_ret.
  - (* FixedArray *) cbn [asks] in A. destruct (0 <? n); [|apply cl_next; intros b; apply cl_ret]. cbn [andb] in A. destruct (equal_fold sub "u8"); [apply cl_next; intros b; apply cl_ret|].
    apply closed_repeat; [apply A; now left|]. intros l. apply cl_ret.
  - (* IntFixed *) apply cl_next. intros b. destruct (ModelTools.U256 _); [apply cl_ret|apply cl_fail; reflexivity].
  - apply cl_next. intros b. destruct (ParseI32F32 _ _ _) as [[cf e]| |]; [apply cl_ret|apply cl_fail; reflexivity..].
  - apply cl_sub; [exact FC|apply A; now left|]. intros v. destruct v; try (apply cl_fail; reflexivity). destruct (ParseI64F64 _ _ _) as [[cf e]| |]; [apply cl_ret|apply cl_fail; reflexivity..].
  - apply closed_meta. exact A.
Qed.
End Closed.

(** ** Running such a program *)
Section Run.
Variable E : env.
Variable L Pallet : string -> Prop.
Hypothesis P0 : Pallet "".
Lemma next_known b off n : match next_bytes b off n with Panic m => unknown_type m = false | _ => True end.
Proof. unfold next_bytes. destruct (_ <? _); [destruct (slice b off (blen b)) eqn:S0|destruct (slice b off (i64 (off + n))) eqn:S0]; cbn [bind]; try exact I; unfold slice in S0; destruct (_ && _)%bool; try discriminate; injection S0 as <-; reflexivity. Qed.
Definition known_outcome (o : outcome) : Prop := match o with Panic m => unknown_type m = false | _ => True end.
Lemma run_known rec start p : (forall c data off t, fine L Pallet c -> L t -> known_outcome (rec c data off t)) ->
  closed L Pallet p -> forall data off calls, known_outcome (run rec start p data off calls).
Proof.
  intros REC C. induction C as [v|m M|n k _ IH|c ts k F T _ IH|b c keep ts k F T _ IH|k _ IH|k _ IH]; intros data off calls; cbn [run].
  - exact I.
  - exact M.
  - assert (N := next_known data off (i64 n)). destruct (next_bytes data off (i64 n)) as [[d o]|m|]; cbn [bind]; [apply IH|exact N|exact I].
  - assert (N := REC c data off ts F T). destruct (rec c data off ts) as [[[v o] cs]|m|]; cbn [bind]; [apply IH|exact N|exact I].
  - assert (N := REC c b 0 ts F T). destruct (rec c b 0 ts) as [[[v o] cs]|m|]; cbn [bind]; [apply IH|exact N|exact I].
  - apply IH.
  - unfold slice. destruct (_ && _)%bool; cbn [bind]; [apply IH|reflexivity].
Qed.
Hypothesis RES : forall t m spec, L t -> Pallet m -> exists cd sub, GetCodecClass E m t spec = Ok (Some (cd, sub)) /\ forall t', In t' (asks (init_sub cd sub)) -> L t'.
Lemma decode_known fuel : forall c data off t, fine L Pallet c -> L t -> known_outcome (decode fuel E c data off t).
Proof.
  induction fuel as [|f IH]; intros c data off t F T; [exact I|]. cbn [decode]. destruct (RES t (x_module c) (x_spec c) T (proj1 F)) as (cd & sub & G & A). rewrite G. cbn [bind].
  apply run_known; [exact IH|]. apply closed_process; assumption.
Qed.
End Run.
