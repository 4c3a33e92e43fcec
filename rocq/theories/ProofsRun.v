(** Facts about the interpreter of decoder programs, for all programs: fuel
    only matters when it runs out; offsets move forward inside the buffer;
    results do not depend on what precedes the value nor on what is not read. *)

From Verif Require Import GoBase SpecNum ProofsBase ModelTools ProofsTools ModelVal ModelRegistry ModelDecode.

(** ** Fuel *)

Definition more_defined (rec1 rec2 : decoder) : Prop :=
  forall c d o t r, rec1 c d o t = r -> r <> OutOfFuel -> rec2 c d o t = r.

Lemma run_mono rec1 rec2 start p d o cs r :
  more_defined rec1 rec2 -> run rec1 start p d o cs = r -> r <> OutOfFuel -> run rec2 start p d o cs = r.
Proof.
  intros M. revert o cs r. induction p as [v|m|n k IH|c ts k IH|b c keep ts k IH|k IH|k IH]; intros o cs r H N; cbn [run] in *.
  - exact H.
  - exact H.
  - destruct (next_bytes d o (i64 n)) as [[x o']|m|]; cbn [bind] in *; try congruence. now apply IH.
  - destruct (rec1 c d o ts) as [[[v o'] cs']|m|] eqn:E; cbn [bind] in *; try congruence.
    + rewrite (M _ _ _ _ _ E ltac:(discriminate)). cbn [bind]. now apply IH.
    + now rewrite (M _ _ _ _ _ E ltac:(discriminate)).
  - destruct (rec1 c b 0 ts) as [[[v o'] cs']|m|] eqn:E; cbn [bind] in *; try congruence.
    + rewrite (M _ _ _ _ _ E ltac:(discriminate)). cbn [bind]. now apply IH.
    + now rewrite (M _ _ _ _ _ E ltac:(discriminate)).
  - now apply IH.
  - destruct (slice d start o) as [x|m|]; cbn [bind] in *; try congruence. now apply IH.
Qed.

Lemma decode_mono_S f E : more_defined (decode f E) (decode (S f) E).
Proof.
  induction f as [|f IH]; intros c d o t r H N; [cbn in H; congruence|].
  change (decode (S (S f)) E c d o t) with
    (r <- GetCodecClass E (x_module c) t (x_spec c) ;;
     match r with
     | None => Panic ("Not found decoder class " ++ t)
     | Some (cd, sub) => run (decode (S f) E) o (process E c (init_sub cd sub)) d o []
     end).
  cbn [decode] in H.
  destruct (GetCodecClass E (x_module c) t (x_spec c)) as [[[cd sub]|]|m|]; cbn [bind] in *; try congruence.
  eapply run_mono; [exact IH|exact H|exact N].
Qed.

Lemma decode_mono f f' E : (f <= f')%nat -> more_defined (decode f E) (decode f' E).
Proof.
  induction 1 as [|f' _ IH]; intros c d o t r H N; [exact H|].
  apply decode_mono_S; [|exact N]. now apply IH.
Qed.

(** Any two runs that do not run out of fuel agree. *)
Lemma decode_det f1 f2 E c d o t r1 r2 :
  decode f1 E c d o t = r1 -> r1 <> OutOfFuel -> decode f2 E c d o t = r2 -> r2 <> OutOfFuel -> r1 = r2.
Proof.
  intros H1 N1 H2 N2.
  pose proof (decode_mono f1 (Nat.max f1 f2) E ltac:(lia) _ _ _ _ _ H1 N1) as G1.
  pose proof (decode_mono f2 (Nat.max f1 f2) E ltac:(lia) _ _ _ _ _ H2 N2) as G2.
  congruence.
Qed.

(** ** Offsets *)

Lemma next_bytes_offset d o n x o' :
  0 <= o <= blen d -> next_bytes d o n = Ok (x, o') ->
  o <= o' <= blen d /\ x = firstn (Z.to_nat (o' - o)) (skipn (Z.to_nat o) d).
Proof.
  intros Ho H. unfold next_bytes in H.
  destruct (Z.ltb_spec (blen d) (i64 (o + n))) as [L|L];
    unfold slice in H;
    match type of H with context [if ?b then _ else _] => destruct b eqn:B end;
    cbn [bind] in H; try discriminate; injection H as <- <-; (split; [lia|reflexivity]).
Qed.

Definition forward (rec : decoder) : Prop :=
  forall c d o t v o' cs, 0 <= o <= blen d -> rec c d o t = Ok (v, o', cs) -> o <= o' <= blen d.

Lemma run_forward rec start p d o cs v o' cs' :
  forward rec -> 0 <= o <= blen d -> run rec start p d o cs = Ok (v, o', cs') -> o <= o' <= blen d.
Proof.
  intros F. revert o cs. induction p as [v0|m|n k IH|c ts k IH|b c keep ts k IH|k IH|k IH]; intros o cs Ho H; cbn [run] in *.
  - injection H as <- <- <-. lia.
  - discriminate.
  - destruct (next_bytes d o (i64 n)) as [[x o1]|m|] eqn:E; cbn [bind] in H; try discriminate.
    apply next_bytes_offset in E; [|exact Ho]. destruct E as [E _].
    apply IH in H; lia.
  - destruct (rec c d o ts) as [[[v1 o1] cs1]|m|] eqn:E; cbn [bind] in H; try discriminate.
    apply F in E; [|exact Ho]. apply IH in H; lia.
  - destruct (rec c b 0 ts) as [[[v1 o1] cs1]|m|] eqn:E; cbn [bind] in H; try discriminate.
    apply IH in H; lia.
  - apply IH in H; lia.
  - destruct (slice d start o) as [x|m|]; cbn [bind] in H; try discriminate. apply IH in H; lia.
Qed.

Lemma decode_forward f E : forward (decode f E).
Proof.
  induction f as [|f IH]; intros c d o t v o' cs Ho H; [discriminate|].
  cbn [decode] in H.
  destruct (GetCodecClass E (x_module c) t (x_spec c)) as [[[cd sub]|]|m|]; cbn [bind] in *; try discriminate.
  eapply run_forward; [exact IH|exact Ho|exact H].
Qed.

(** ** Decoders that look at the whole buffer *)

Inductive local : prog -> Prop :=
| l_ret v : local (Ret v)
| l_fail m : local (Fail m)
| l_next n k : (forall b, local (k b)) -> local (Next n k)
| l_sub c ts k : (forall v, local (k v)) -> local (Sub c ts k)
| l_other b c keep ts k : (forall v, local (k v)) -> local (Other b c keep ts k)
| l_log k : local k -> local (LogSpan k).

(** Float.go and GenericLookupSource read from the start of the buffer. *)
Definition global_codec (c : codec) : bool :=
  match c with CFloat64 | CFloat32 | CGenericLookupSource => true | _ => false end.

Lemma local_repeat c ts n acc k : (forall l, local (k l)) -> local (repeat_sub c ts n acc k).
Proof. intros Hk. revert acc. induction n as [|n IH]; intros acc; cbn [repeat_sub]; [apply Hk|]. constructor. intros v. apply IH. Qed.
Lemma local_fields c tm acc k : (forall l, local (k l)) -> local (fields_sub c tm acc k).
Proof. intros Hk. revert acc. induction tm as [|[n t] tm IH]; intros acc; cbn [fields_sub]; [apply Hk|]. constructor. intros v. apply IH. Qed.
Lemma local_rows c rows acc k : (forall l, local (k l)) -> local (rows_sub c rows acc k).
Proof.
  intros Hk. revert acc. induction rows as [|[|n [|t r]] rows IH]; intros acc; cbn [rows_sub]; try constructor; auto.
Qed.
Lemma local_as_int v k : (forall z, local (k z)) -> local (as_int v k).
Proof. intros Hk. destruct v; cbn [as_int]; try constructor; auto. Qed.
Lemma local_compact_u32 c k : (forall z, local (k z)) -> local (compact_u32 c k).
Proof. intros Hk. constructor. intros v. now apply local_as_int. Qed.
Lemma local_compact_bytes k : (forall n b, local (k n b)) -> local (compact_bytes k).
Proof.
  intros Hk. constructor. intros b. cbv zeta.
  destruct (match b with [] => 0 | c :: _ => bZ c mod 4 end) as [|[p|p|]|p]; auto; try (constructor; auto).
  destruct p; constructor; auto.
Qed.
Lemma local_params c args acc k : (forall l, local (k l)) -> local (call_params c args acc k).
Proof. intros Hk. revert acc. induction args as [|[n t] args IH]; intros acc; cbn [call_params]; [apply Hk|]. constructor. intros v. apply IH. Qed.
Lemma local_process_bytes c k : (forall s, local (k s)) -> local (process_bytes c k).
Proof. intros Hk. apply local_compact_u32. intros z. constructor. auto. Qed.
Lemma local_compact_value len v : local (compact_value len v).
Proof.
  unfold compact_value. destruct v; try constructor.
  - destruct (dec_div_floor coef exp _). constructor.
  - destruct (dec_of_string s) as [[c e]|]; [|constructor]. destruct (dec_div_floor c e _). constructor.
Qed.

(** The metadata records only read nested types, in their own context: these. *)
Definition module_refs : list string :=
  ["String"; "bool"; "Vec<MetadataModuleCall>"; "Vec<MetadataModuleEvent>"; "Vec<MetadataV7ModuleConstants>"; "Vec<MetadataModuleError>"].
Definition module14_refs : list string :=
  ["String"; "bool"; "MetadataV14ModuleStorage"; "PalletCallMetadataV14"; "PalletEventMetadataV14"; "Vec<PalletConstantMetadataV14>";
   "PalletErrorMetadataV14"; "U8"].
Definition meta_table : list (string * list string) :=
  [("MetadataModuleEvent", ["String"; "Vec<String>"]); ("MetadataModuleCallArgument", ["String"]);
   ("MetadataModuleCall", ["String"; "Vec<MetadataModuleCallArgument>"; "Vec<String>"]); ("MetadataModuleError", ["String"; "Vec<String>"]);
   ("MetadataV7ModuleConstants", ["String"; "HexBytes"; "Vec<String>"]);
   ("MetadataV7ModuleStorageEntry", ["String"; "StorageModify"; "StorageFunctionType"; "StorageHasher"; "bool"; "HexBytes"; "Vec<String>"; "Vec<StorageHasher>"]);
   ("MetadataV13ModuleStorageEntry", ["String"; "StorageModify"; "StorageFunctionType"; "StorageHasher"; "bool"; "HexBytes"; "Vec<String>"; "Vec<StorageHasher>"]);
   ("MetadataV7ModuleStorage", ["String"; "Vec<MetadataV7ModuleStorageEntry>"]);
   ("MetadataV13ModuleStorage", ["String"; "Vec<MetadataV13ModuleStorageEntry>"]);
   ("MetadataV8Module", "MetadataV7ModuleStorage" :: module_refs);
   ("MetadataV12Module", "MetadataV7ModuleStorage" :: "U8" :: module_refs);
   ("MetadataV13Module", "MetadataV13ModuleStorage" :: "U8" :: module_refs);
   ("PalletConstantMetadataV14", ["String"; "SiLookupTypeId"; "HexBytes"; "Vec<String>"]);
   ("MetadataV14ModuleStorageEntry", ["String"; "StorageModify"; "StorageFunctionTypeV14"; "SiLookupTypeId"; "Vec<StorageHasher>"; "HexBytes"; "Vec<String>"]);
   ("MetadataV14ModuleStorage", ["String"; "Vec<MetadataV14ModuleStorageEntry>"]);
   ("MetadataV14Module", module14_refs); ("MetadataV15Module", "Vec<Text>" :: module14_refs);
   ("RuntimeApiMetadataV15", ["Text"; "Vec<RuntimeApiMethodMetadataV15>"; "Vec<Text>"]);
   ("RuntimeApiMethodMetadataV15", ["Text"; "Vec<RuntimeApiMethodParamMetadataV15>"; "SiLookupTypeId"; "Vec<Text>"]);
   ("RuntimeApiMethodParamMetadataV15", ["Text"; "SiLookupTypeId"]); ("OuterEnumsMetadataV15", ["SiLookupTypeId"]);
   ("CustomMetadataV15", ["BTreeMap<Text, CustomValueMetadata15>"])].
Definition meta_refs (name : string) : list string := match assoc name meta_table with Some l => l | None => [] end.

Section SubsOnly.
Variables (c : ctx) (ok : string -> Prop).
Inductive subs_only : prog -> Prop :=
| so_ret v : subs_only (Ret v)
| so_fail m : subs_only (Fail m)
| so_sub ts k : ok ts -> (forall v, subs_only (k v)) -> subs_only (Sub c ts k).
Lemma so_as_str v k : (forall s, subs_only (k s)) -> subs_only (as_str v k).
Proof. intros H. destruct v; cbn [as_str]; try constructor; auto. Qed.
Lemma so_as_bool v k : (forall s, subs_only (k s)) -> subs_only (as_bool v k).
Proof. intros H. destruct v; cbn [as_bool]; try constructor; auto. Qed.
Lemma so_as_int v k : (forall s, subs_only (k s)) -> subs_only (as_int v k).
Proof. intros H. destruct v; cbn [as_int]; try constructor; auto. Qed.
Lemma so_as_list v k : (forall s, subs_only (k s)) -> subs_only (as_list v k).
Proof. intros H. destruct v; cbn [as_list]; try constructor; auto. Qed.
Lemma so_as_struct v k : (forall s, subs_only (k s)) -> subs_only (as_struct v k).
Proof. intros H. destruct v; cbn [as_struct]; try constructor; auto. Qed.
Lemma so_as_strs l : forall k, (forall s, subs_only (k s)) -> subs_only (as_strs l k).
Proof. induction l as [|v l IH]; intros k H; cbn [as_strs]; [auto|]. destruct v; try constructor. apply IH. auto. Qed.
Lemma so_as_structs l : forall k, (forall s, subs_only (k s)) -> subs_only (as_structs l k).
Proof. induction l as [|v l IH]; intros k H; cbn [as_structs]; [auto|]. destruct v; try constructor. apply IH. auto. Qed.
Lemma so_flag yes no k : ok "bool" -> (forall k, (forall v, subs_only (k v)) -> subs_only (yes k)) -> (forall v, subs_only (k v)) -> subs_only (sub_flag c yes no k).
Proof. intros B Y H. constructor; [exact B|]. intros v. apply so_as_bool. intros []; auto. Qed.
End SubsOnly.
Ltac so_steps := repeat match goal with
  | |- subs_only _ _ (Ret _) => constructor
  | |- subs_only _ _ (Fail _) => constructor
  | |- subs_only _ _ (Sub _ _ _) => constructor; [|intros ?]
  | |- subs_only _ _ (as_str _ _) => apply so_as_str; intros ?
  | |- subs_only _ _ (as_bool _ _) => apply so_as_bool; intros ?
  | |- subs_only _ _ (as_int _ _) => apply so_as_int; intros ?
  | |- subs_only _ _ (as_list _ _) => apply so_as_list; intros ?
  | |- subs_only _ _ (as_struct _ _) => apply so_as_struct; intros ?
  | |- subs_only _ _ (as_strs _ _) => apply so_as_strs; intros ?
  | |- subs_only _ _ (as_structs _ _) => apply so_as_structs; intros ?
  | |- subs_only _ _ (sub_flag _ _ _ _) => apply so_flag; [|intros ? ?|intros ?]
  | |- subs_only _ _ (sub_str _ _ _) => unfold sub_str
  | |- subs_only _ _ (sub_int _ _ _) => unfold sub_int
  | |- subs_only _ _ (sub_type _ _) => unfold sub_type
  | |- subs_only _ _ (sub_strs _ _ _) => unfold sub_strs
  | |- subs_only _ _ (sub_structs _ _ _) => unfold sub_structs
  | |- subs_only _ _ (sub_lookup _ _ _) => unfold sub_lookup
  | |- subs_only _ _ (meta_items _ _ _ _) => unfold meta_items
  | |- subs_only _ _ (if ?b then _ else _) => destruct b
  | |- subs_only _ _ (let _ := _ in _) => cbv zeta
  | H : forall v, subs_only _ _ (?k v) |- subs_only _ _ (?k _) => apply H
  end.
Lemma meta_storage_type_subs c (ok : string -> Prop) nmap kind k :
  (forall t, In t ["String"; "StorageHasher"; "bool"; "Vec<String>"; "Vec<StorageHasher>"] -> ok t) ->
  (forall v, subs_only c ok (k v)) -> subs_only c ok (meta_storage_type c nmap kind k).
Proof. intros K H. unfold meta_storage_type. so_steps; apply K; cbn; tauto. Qed.
Lemma process_meta_subs c name : subs_only c (fun t => In t (meta_refs name)) (process_meta c name).
Proof.
  unfold process_meta.
  repeat match goal with |- subs_only _ _ (if String.eqb ?a ?b then _ else _) => destruct (String.eqb_spec a b) as [->|] end; try solve [apply so_fail];
    match goal with |- subs_only _ (fun t => In t (meta_refs ?n)) _ => let l := eval vm_compute in (meta_refs n) in change (meta_refs n) with l end;
    unfold meta_event, meta_argument, meta_call, meta_error, meta_constant, meta_storage_entry, meta_storage, meta_module, meta_constant14,
      meta_storage_entry14, meta_module15, meta_module14, meta_api, meta_method, meta_param, meta_outer, meta_custom; so_steps;
    try (apply meta_storage_type_subs; [cbn; tauto|intros ?]); unfold meta_storage_end; so_steps; cbn; tauto.
Qed.
Lemma subs_local c ok p : subs_only c ok p -> local p.
Proof. intros H. induction H; constructor; auto. Qed.

Lemma process_local E c cd : global_codec cd = false -> local (process E c cd).
Proof.
  intros G. destruct cd; cbn [global_codec] in G; try discriminate; cbn [process];
    repeat match goal with
    | |- local (Ret _) => constructor
    | |- local (Fail _) => constructor
    | |- local (Next _ _) => constructor; intros ?
    | |- local (Sub _ _ _) => constructor; intros ?
    | |- local (Other _ _ _ _ _) => constructor; intros ?
    | |- local (LogSpan _) => constructor
    | |- local (compact_u32 _ _) => apply local_compact_u32; intros ?
    | |- local (compact_bytes _) => apply local_compact_bytes; intros ? ?
    | |- local (process_bytes _ _) => apply local_process_bytes; intros ?
    | |- local (repeat_sub _ _ _ _ _) => apply local_repeat; intros ?
    | |- local (fields_sub _ _ _ _) => apply local_fields; intros ?
    | |- local (rows_sub _ _ _ _) => apply local_rows; intros ?
    | |- local (call_params _ _ _ _) => apply local_params; intros ?
    | |- local (compact_value _ _) => apply local_compact_value
    | |- local (process_enum _ _ _) => unfold process_enum
    | |- local (process_meta _ _) => apply (subs_local c _ _ (process_meta_subs c _))
    | |- local (process_call _) => unfold process_call
    | |- local (let _ := _ in _) => cbv zeta
    | |- local (match ?x with _ => _ end) => destruct x
    end.
  (* BTreeMap loop *)
  match goal with |- local (?loop ?n []) => generalize (@nil val), n end.
  intros acc n. revert acc. induction n as [|n IH]; intros acc; [constructor|].
  constructor. intros v. destruct (nth_error (split_char "," sub) 1); constructor. intros w. apply IH.
Qed.

(** ** What precedes the value does not matter *)

Definition shift (k : Z) (r : outcome) : outcome :=
  match r with Ok (v, o, cs) => Ok (v, k + o, cs) | Panic m => Panic m | OutOfFuel => OutOfFuel end.
(** The shifted run gives the shifted result, or panics. *)
Definition shifted (k : Z) (r0 rk : outcome) : Prop := rk = shift k r0 \/ exists m, rk = Panic m.

Lemma blen_app a b : blen (a ++ b) = blen a + blen b.
Proof. unfold blen. rewrite app_length. lia. Qed.
Lemma blen_nonneg a : 0 <= blen a.
Proof. unfold blen. lia. Qed.

Lemma skipn_app_ge {A} (a b : list A) n : skipn (List.length a + n) (a ++ b) = skipn n b.
Proof. induction a as [|x a IH]; [reflexivity|exact IH]. Qed.

Lemma slice_shift pre d lo hi : 0 <= lo ->
  slice (pre ++ d) (blen pre + lo) (blen pre + hi) = slice d lo hi.
Proof.
  intros H. unfold slice. rewrite blen_app. pose proof (blen_nonneg pre).
  replace (0 <=? blen pre + lo) with (0 <=? lo) by lia.
  replace (blen pre + lo <=? blen pre + hi) with (lo <=? hi) by lia.
  replace (blen pre + hi <=? blen pre + blen d) with (hi <=? blen d) by lia.
  destruct ((0 <=? lo) && (lo <=? hi) && (hi <=? blen d)) eqn:E; [|reflexivity].
  f_equal. replace (blen pre + hi - (blen pre + lo)) with (hi - lo) by lia. f_equal.
  replace (Z.to_nat (blen pre + lo)) with (List.length pre + Z.to_nat lo)%nat by (unfold blen; lia).
  apply skipn_app_ge.
Qed.

Lemma i64_range z : - two63 <= i64 z < two63.
Proof. unfold i64. assert (0 <= (z + two63) mod two64 < two64) by (apply Z.mod_pos_bound; reflexivity). unfold two63, two64 in *. lia. Qed.

Lemma next_bytes_shift pre d o n :
  0 <= o <= blen d -> blen (pre ++ d) < two63 -> - two63 <= n < two63 ->
  (exists m, next_bytes (pre ++ d) (blen pre + o) n = Panic m) \/
  next_bytes (pre ++ d) (blen pre + o) n =
    match next_bytes d o n with Ok (x, o') => Ok (x, blen pre + o') | Panic m => Panic m | OutOfFuel => OutOfFuel end.
Proof.
  intros Ho Hl Hn. pose proof (blen_nonneg pre). rewrite blen_app in Hl.
  destruct (Z.ltb_spec (blen pre + o + n) two63) as [B|B].
  - right. unfold next_bytes. rewrite !i64_small by (unfold two63 in *; lia). rewrite blen_app.
    replace (blen pre + blen d <? blen pre + o + n) with (blen d <? o + n) by lia.
    destruct (blen d <? o + n).
    + rewrite slice_shift by lia. destruct (slice d o (blen d)); reflexivity.
    + rewrite <- Z.add_assoc. rewrite slice_shift by lia. destruct (slice d o (o + n)); reflexivity.
  - left. unfold next_bytes.
    assert (Ei : i64 (blen pre + o + n) = blen pre + o + n - two64).
    { unfold i64. replace (blen pre + o + n + two63) with (blen pre + o + n - two63 + 1 * two64) by (unfold two63, two64; lia).
      rewrite Z.mod_add by discriminate. rewrite Z.mod_small by (unfold two63, two64 in *; lia). unfold two63, two64; lia. }
    rewrite Ei, blen_app. assert (X : blen pre + o + n - two64 < 0) by (unfold two63, two64 in *; lia).
    destruct (Z.ltb_spec (blen pre + blen d) (blen pre + o + n - two64)) as [L|L]; [lia|].
    unfold slice. destruct (Z.leb_spec (blen pre + o) (blen pre + o + n - two64)) as [L2|L2]; [lia|].
    rewrite andb_false_r. cbn. eauto.
Qed.

Definition slides (rec : decoder) : Prop :=
  forall c pre d o t, 0 <= o <= blen d -> blen (pre ++ d) < two63 ->
    shifted (blen pre) (rec c d o t) (rec c (pre ++ d)%list (blen pre + o) t).

Lemma run_slides rec start p pre d o cs :
  forward rec -> slides rec -> local p -> 0 <= start <= o -> o <= blen d -> blen (pre ++ d) < two63 ->
  shifted (blen pre) (run rec start p d o cs) (run rec (blen pre + start) p (pre ++ d) (blen pre + o) cs).
Proof.
  intros F SL HL. revert o cs. induction HL as [v|m|n k HL IH|c ts k HL IH|b c keep ts k HL IH|k HL IH];
    intros o cs Hs Ho Hb; cbn [run].
  - left. reflexivity.
  - left. reflexivity.
  - destruct (next_bytes_shift pre d o (i64 n) ltac:(lia) Hb (i64_range n)) as [[m Em]|Em]; rewrite Em.
    + right. cbn [bind]. eauto.
    + destruct (next_bytes d o (i64 n)) as [[x o1]|m|] eqn:E; cbn [bind]; try (left; reflexivity).
      apply next_bytes_offset in E; [|lia]. apply IH; lia.
  - destruct (SL c pre d o ts ltac:(lia) Hb) as [E|[m E]]; rewrite E.
    + destruct (rec c d o ts) as [[[v1 o1] cs1]|m|] eqn:E1; cbn [bind shift]; try (left; reflexivity).
      apply F in E1; [|lia]. apply IH; lia.
    + right. cbn [bind]. eauto.
  - destruct (rec c b 0 ts) as [[[v1 o1] cs1]|m|] eqn:E1; cbn [bind]; try (left; reflexivity).
    apply IH; lia.
  - rewrite slice_shift by lia. destruct (slice d start o) as [x|m|]; cbn [bind]; try (left; reflexivity).
    apply IH; lia.
Qed.

(** A registry without whole-buffer decoders. *)
Definition local_env (E : env) : Prop :=
  (forall k cd, assoc k (e_reg E) = Some cd -> global_codec cd = false) /\
  (forall k l lo hi cd, assoc k (e_special E) = Some l -> In (lo, hi, cd) l -> global_codec cd = false).

Lemma in_range_In l spec cd : in_range l spec = Some cd -> exists lo hi, In (lo, hi, cd) l /\ lo <= spec <= hi.
Proof.
  induction l as [|[[lo hi] c] l IH]; cbn [in_range]; [discriminate|].
  destruct ((lo <=? spec) && (spec <=? hi)) eqn:B.
  - intros [= ->]. exists lo, hi. split; [now left|lia].
  - intros H. destruct (IH H) as (lo' & hi' & H1 & H2). exists lo', hi'. split; [now right|exact H2].
Qed.

(** A property of every codec that a lookup can return. *)
Lemma getCodecInstant_P (P : codec -> Prop) E m t spec cd :
  (forall k cd, assoc k (e_reg E) = Some cd -> P cd) ->
  (forall k l lo hi cd, assoc k (e_special E) = Some l -> In (lo, hi, cd) l -> P cd) ->
  (forall n s, P (CFixedArray n s)) ->
  getCodecInstant E m t spec = Ok (Some cd) -> P cd.
Proof.
  intros H1 H2 H3 H. unfold getCodecInstant in H. cbv zeta in H.
  set (t' := ModuleType (to_lower t) m) in *.
  destruct (specialVersionCodec E t' spec) as [c|] eqn:ES.
  - injection H as <-. unfold specialVersionCodec in ES.
    destruct (assoc t' (e_special E)) as [l|] eqn:EA; [|discriminate].
    apply in_range_In in ES. destruct ES as (lo & hi & HI & _). eapply H2; eauto.
  - destruct (assoc (to_lower t') (e_reg E)) as [c|] eqn:EA.
    + injection H as <-. eapply H1; eauto.
    + destruct (String.eqb t' "[]"); [discriminate|].
      destruct (first_char t') as [a|]; [|discriminate]. destruct (last_char t') as [z|]; [|discriminate].
      destruct (Ascii.eqb a "[" && Ascii.eqb z "]"); [|discriminate].
      injection H as H. unfold fixed_array in H.
      destruct (rev (split_char ";" (strip_ends t'))) as [|n [|x l]]; try discriminate.
      injection H as <-. apply H3.
Qed.

Lemma GetCodecClass_P (P : codec -> Prop) E m spec :
  (forall k cd, assoc k (e_reg E) = Some cd -> P cd) ->
  (forall k l lo hi cd, assoc k (e_special E) = Some l -> In (lo, hi, cd) l -> P cd) ->
  (forall n s, P (CFixedArray n s)) -> (forall tm, P (CStruct tm)) ->
  forall fuel t cd sub, GetCodecClass_fuel fuel E m t spec = Ok (Some (cd, sub)) -> P cd.
Proof.
  intros H1 H2 H3 H4. pose proof (fun t cd => getCodecInstant_P P E m t spec cd H1 H2 H3) as G.
  induction fuel as [|fuel IH]; intros t cd sub H; cbn [GetCodecClass_fuel] in H;
  (destruct (last_char (ConvertType t)) as [z|]; [|discriminate]);
  destruct (if Ascii.eqb z ">" then getCodecInstant E m (ConvertType t) spec else Ok None) as [[c|]|e|] eqn:E1;
    cbn [bind] in H; try discriminate;
  (* full name *)
  try (injection H as <- <-; destruct (Ascii.eqb z ">"); [now apply G in E1|discriminate]);
  (match type of H with
   | bind ?x _ = _ => destruct x as [[[c s]|]|e|] eqn:E2
   end; cbn [bind] in H; try discriminate);
  try (injection H as <- <-;
       destruct (if Ascii.eqb z ">" then generic_parts (ConvertType t) else None) as [[nm sb]|];
       match type of E2 with bind ?x _ = _ => destruct x as [[c'|]|e|] eqn:E3 end; cbn [bind] in E2; try discriminate;
       injection E2 as <- <-; now apply G in E3);
  (match type of H with (if ?b then _ else _) = _ => destruct b end;
   [ destruct (getCodecInstant E m "Struct" spec) as [[c|]|e|]; cbn [bind] in H; try discriminate;
     destruct c; try discriminate; injection H as <- <-; apply H4 |]);
  (match type of H with (if ?b then _ else _) = _ => destruct b end; [|discriminate]).
  - discriminate.
  - eapply IH; exact H.
Qed.

Lemma init_sub_global c s : global_codec (init_sub c s) = global_codec c.
Proof. destruct c; reflexivity. Qed.

Lemma decode_slides f E : local_env E -> slides (decode f E).
Proof.
  intros [L1 L2]. induction f as [|f IH]; intros c pre d o t Ho Hb; [left; reflexivity|].
  cbn [decode].
  destruct (GetCodecClass E (x_module c) t (x_spec c)) as [[[cd sub]|]|m|] eqn:EG; cbn [bind]; try (left; reflexivity).
  apply run_slides; try assumption; try lia; [apply decode_forward|].
  apply process_local. rewrite init_sub_global.
  eapply (GetCodecClass_P (fun c => global_codec c = false)); try exact EG; eauto.
Qed.

(** ** What is not read does not matter *)

(** A run that stops before the end of the buffer made no short read. *)
Lemma next_bytes_full d o n x o' : 0 <= o <= blen d -> next_bytes d o n = Ok (x, o') -> o' < blen d ->
  i64 (o + n) = o'.
Proof.
  intros Ho H Hlt. unfold next_bytes in H.
  destruct (Z.ltb_spec (blen d) (i64 (o + n))) as [L|L].
  - destruct (slice d o (blen d)); cbn [bind] in H; try discriminate. injection H as _ <-. lia.
  - destruct (slice d o (i64 (o + n))); cbn [bind] in H; try discriminate. now injection H as _ <-.
Qed.

Definition prefix_only (rec : decoder) : Prop :=
  forall c d o t v o' cs, 0 <= o <= blen d -> rec c d o t = Ok (v, o', cs) -> o' < blen d ->
    forall pre tl, blen (pre ++ d) < two63 -> blen (pre ++ firstn (Z.to_nat o') d ++ tl) < two63 ->
      rec c (pre ++ firstn (Z.to_nat o') d ++ tl)%list (blen pre + o) t = Ok (v, blen pre + o', cs).

Lemma firstn_split {A} (d : list A) i j : (i <= j)%nat ->
  firstn j d = (firstn i d ++ firstn (j - i) (skipn i d))%list.
Proof.
  intros H. rewrite <- (firstn_skipn i (firstn j d)). f_equal.
  - rewrite firstn_firstn. f_equal. lia.
  - rewrite skipn_firstn_comm. reflexivity.
Qed.

Lemma slice_prefix d tl lo hi o : 0 <= lo <= hi -> hi <= o -> o <= blen d ->
  slice (firstn (Z.to_nat o) d ++ tl) lo hi = slice d lo hi.
Proof.
  intros H1 H2 H3. pose proof (blen_nonneg tl).
  assert (L : blen (firstn (Z.to_nat o) d) = o) by (unfold blen in *; rewrite firstn_length; lia).
  rewrite !slice_ok; rewrite ?blen_app, ?L; try lia. f_equal.
  rewrite skipn_app, firstn_app.
  assert (L' : List.length (firstn (Z.to_nat o) d) = Z.to_nat o) by (rewrite firstn_length; unfold blen in *; lia).
  rewrite skipn_length, L'.
  replace (Z.to_nat (hi - lo) - (Z.to_nat o - Z.to_nat lo))%nat with 0%nat by lia.
  rewrite firstn_O, app_nil_r. rewrite skipn_firstn_comm, firstn_firstn. f_equal. lia.
Qed.

Lemma next_bytes_prefix d o n x o' pre tl of :
  0 <= o <= blen d -> - two63 <= n < two63 -> next_bytes d o n = Ok (x, o') -> o' <= of -> of < blen d ->
  blen (pre ++ d) < two63 ->
  next_bytes (pre ++ firstn (Z.to_nat of) d ++ tl) (blen pre + o) n = Ok (x, blen pre + o').
Proof.
  intros Ho Hn H Hof Hlt Hb. pose proof (next_bytes_full _ _ _ _ _ Ho H ltac:(lia)) as Ei.
  destruct (next_bytes_offset _ _ _ _ _ Ho H) as [Hf Hx]. rewrite blen_app in Hb.
  pose proof (blen_nonneg pre). pose proof (blen_nonneg tl).
  assert (Hn' : n = o' - o).
  { unfold i64 in Ei. unfold two63, two64 in *.
    assert (o + n < 2 ^ 63 \/ o + n >= 2 ^ 63) as [C|C] by lia.
    - rewrite Z.mod_small in Ei by lia. lia.
    - replace (o + n + 2 ^ 63) with (o + n - 2 ^ 63 + 1 * 2 ^ 64) in Ei by lia.
      rewrite Z.mod_add in Ei by discriminate. rewrite Z.mod_small in Ei by lia. lia. }
  assert (Lf : blen (firstn (Z.to_nat of) d) = of) by (unfold blen in *; rewrite firstn_length; lia).
  unfold next_bytes. replace (blen pre + o + n) with (blen pre + o') by lia.
  rewrite i64_small by (unfold two63 in *; lia). rewrite !blen_app, Lf.
  destruct (Z.ltb_spec (blen pre + (of + blen tl)) (blen pre + o')) as [L|L]; [lia|].
  rewrite slice_shift by lia. rewrite slice_prefix by lia.
  rewrite slice_ok by lia. cbn [bind]. rewrite Hx. reflexivity.
Qed.

Lemma run_prefix_only rec start p d o cs v o' cs' :
  forward rec -> prefix_only rec -> local p -> 0 <= start <= o -> o <= blen d ->
  run rec start p d o cs = Ok (v, o', cs') -> o' < blen d ->
  forall pre tl, blen (pre ++ d) < two63 -> blen (pre ++ firstn (Z.to_nat o') d ++ tl) < two63 ->
    run rec (blen pre + start) p (pre ++ firstn (Z.to_nat o') d ++ tl) (blen pre + o) cs = Ok (v, blen pre + o', cs').
Proof.
  intros F PO HL Hs Ho H Hlt pre tl Hb Hb'. revert o cs Hs Ho H.
  induction HL as [v0|m|n k HL IH|c ts k HL IH|b c keep ts k HL IH|k HL IH]; intros o cs Hs Ho H; cbn [run] in *.
  - injection H as <- <- <-. reflexivity.
  - discriminate.
  - destruct (next_bytes d o (i64 n)) as [[x o1]|m|] eqn:E; cbn [bind] in H; try discriminate.
    destruct (next_bytes_offset d o (i64 n) x o1 ltac:(lia) E) as [Hf _].
    pose proof (fun X => run_forward _ _ _ _ _ _ _ _ _ F X H) as Hf2; specialize (Hf2 ltac:(lia)).
    rewrite (next_bytes_prefix d o (i64 n) x o1 pre tl o') by (try lia; try assumption; apply i64_range).
    cbn [bind]. apply IH; try lia. exact H.
  - destruct (rec c d o ts) as [[[v1 o1] cs1]|m|] eqn:E; cbn [bind] in H; try discriminate.
    pose proof (F c d o ts v1 o1 cs1 ltac:(lia) E) as Hf.
    pose proof (fun X => run_forward _ _ _ _ _ _ _ _ _ F X H) as Hf2; specialize (Hf2 ltac:(lia)).
    assert (Split : (firstn (Z.to_nat o') d ++ tl)%list =
                    (firstn (Z.to_nat o1) d ++ (firstn (Z.to_nat o' - Z.to_nat o1) (skipn (Z.to_nat o1) d) ++ tl))%list).
    { rewrite app_assoc. f_equal. apply firstn_split. lia. }
    rewrite Split.
    rewrite (PO c d o ts v1 o1 cs1 ltac:(lia) E ltac:(lia) pre (firstn (Z.to_nat o' - Z.to_nat o1) (skipn (Z.to_nat o1) d) ++ tl)%list Hb)
      by (rewrite <- Split; exact Hb').
    cbn [bind]. rewrite <- Split. apply IH; try lia. exact H.
  - destruct (rec c b 0 ts) as [[[v1 o1] cs1]|m|] eqn:E; cbn [bind] in *; try discriminate.
    apply IH; try lia. exact H.
  - destruct (slice d start o) as [x|m|] eqn:E; cbn [bind] in H; try discriminate.
    pose proof (fun X => run_forward _ _ _ _ _ _ _ _ _ F X H) as Hf2; specialize (Hf2 ltac:(lia)).
    rewrite slice_shift by lia. rewrite slice_prefix by lia. rewrite E. cbn [bind].
    apply IH; try lia. exact H.
Qed.

Lemma decode_prefix_only f E : local_env E -> prefix_only (decode f E).
Proof.
  intros [L1 L2]. induction f as [|f IH]; intros c d o t v o' cs Ho H Hlt pre tl Hb Hb'; [discriminate|].
  cbn [decode] in *.
  destruct (GetCodecClass E (x_module c) t (x_spec c)) as [[[cd sub]|]|m|] eqn:EG; cbn [bind] in *; try discriminate.
  apply run_prefix_only; try assumption; try lia; [apply decode_forward|].
  apply process_local. rewrite init_sub_global.
  eapply (GetCodecClass_P (fun c => global_codec c = false)); try exact EG; eauto.
Qed.

(** ** Runs that never reach a whole-buffer decoder.
    [blocked E] is [E] with those decoders made to fail; a run that succeeds
    there is a run of [E]. *)
Definition block (c : codec) : codec := if global_codec c then COpaque "blocked" else c.
Definition blocked (E : env) : env :=
  Env (map (fun p => (fst p, block (snd p))) (e_reg E))
      (map (fun p => (fst p, map (fun s => (fst s, block (snd s))) (snd p))) (e_special E))
      (e_json E) (e_keccak E) (e_box E).

Lemma assoc_map {A B} (f : A -> B) k (l : list (string * A)) :
  assoc k (map (fun p => (fst p, f (snd p))) l) = option_map f (assoc k l).
Proof. induction l as [|[k' a] l IH]; cbn; [reflexivity|]. destruct (String.eqb k k'); [reflexivity|exact IH]. Qed.

Lemma in_range_map f l spec :
  in_range (map (fun s => (fst s, f (snd s))) l) spec = option_map f (in_range l spec).
Proof.
  induction l as [|[[lo hi] c] l IH]; cbn [map in_range fst snd option_map]; [reflexivity|].
  destruct ((lo <=? spec) && (spec <=? hi)); [reflexivity|exact IH].
Qed.

Lemma getCodecInstant_block E m t spec :
  getCodecInstant (blocked E) m t spec =
  match getCodecInstant E m t spec with Ok (Some c) => Ok (Some (block c)) | r => r end.
Proof.
  unfold getCodecInstant. cbv zeta. set (t' := ModuleType (to_lower t) m).
  unfold specialVersionCodec, blocked. cbn [e_special e_reg].
  rewrite (assoc_map (fun l => map (fun s => (fst s, block (snd s))) l)).
  rewrite (assoc_map block).
  assert (T : forall o : option codec, option_map block o = None <-> o = None) by (intros [c|]; cbn; split; congruence).
  destruct (assoc t' (e_special E)) as [l|]; cbn [option_map].
  - rewrite in_range_map. destruct (in_range l spec) as [c|]; cbn [option_map]; [reflexivity|].
    destruct (assoc (to_lower t') (e_reg E)) as [c|]; cbn [option_map]; [reflexivity|].
    destruct (String.eqb t' "[]"); [reflexivity|].
    destruct (first_char t') as [a|]; [|reflexivity]. destruct (last_char t') as [z|]; [|reflexivity].
    destruct (Ascii.eqb a "[" && Ascii.eqb z "]"); [|reflexivity].
    unfold fixed_array. destruct (rev (split_char ";" (strip_ends t'))) as [|n [|x l']]; reflexivity.
  - destruct (assoc (to_lower t') (e_reg E)) as [c|]; cbn [option_map]; [reflexivity|].
    destruct (String.eqb t' "[]"); [reflexivity|].
    destruct (first_char t') as [a|]; [|reflexivity]. destruct (last_char t') as [z|]; [|reflexivity].
    destruct (Ascii.eqb a "[" && Ascii.eqb z "]"); [|reflexivity].
    unfold fixed_array. destruct (rev (split_char ";" (strip_ends t'))) as [|n [|x l']]; reflexivity.
Qed.

Lemma GetCodecClass_block E m spec fuel t :
  GetCodecClass_fuel fuel (blocked E) m t spec =
  match GetCodecClass_fuel fuel E m t spec with Ok (Some (c, s)) => Ok (Some (block c, s)) | r => r end.
Proof.
  revert t. induction fuel as [|fuel IH]; intros t; cbn [GetCodecClass_fuel];
  (destruct (last_char (ConvertType t)) as [z|]; [|reflexivity]);
  (assert (T : (if Ascii.eqb z ">" then getCodecInstant (blocked E) m (ConvertType t) spec else Ok None) =
               match (if Ascii.eqb z ">" then getCodecInstant E m (ConvertType t) spec else Ok None) with
               | Ok (Some c) => Ok (Some (block c)) | r => r end)
     by (destruct (Ascii.eqb z ">"); [apply getCodecInstant_block|reflexivity]));
  rewrite T; clear T;
  (destruct (if Ascii.eqb z ">" then getCodecInstant E m (ConvertType t) spec else Ok None) as [[c|]|e|];
     cbn [bind]; try reflexivity);
  rewrite !getCodecInstant_block;
  (destruct (if Ascii.eqb z ">" then generic_parts (ConvertType t) else None) as [[nm sb]|];
   [ rewrite getCodecInstant_block; destruct (getCodecInstant E m nm spec) as [[c|]|e|]
   | destruct (getCodecInstant E m (ConvertType t) spec) as [[c|]|e|] ]; cbn [bind]; try reflexivity);
  (match goal with |- (if ?b then _ else _) = _ => destruct b end;
   [ destruct (getCodecInstant E m "Struct" spec) as [[c|]|e|]; cbn [bind]; try reflexivity; destruct c; reflexivity |]);
  (match goal with |- (if ?b then _ else _) = _ => destruct b end; [|reflexivity]); try reflexivity; apply IH.
Qed.

Lemma init_sub_block c s : init_sub (block c) s = block (init_sub c s).
Proof. unfold block. rewrite init_sub_global. destruct (global_codec c) eqn:G; [destruct c; try discriminate; reflexivity|reflexivity]. Qed.

Lemma process_blocked E c cd : process (blocked E) c cd = process E c cd.
Proof. reflexivity. Qed.

Lemma run_ok_mono (rec1 rec2 : decoder) start p d o cs x :
  (forall c d o t x, rec1 c d o t = Ok x -> rec2 c d o t = Ok x) ->
  run rec1 start p d o cs = Ok x -> run rec2 start p d o cs = Ok x.
Proof.
  intros M. revert o cs. induction p as [v|m|n k IH|c ts k IH|b c keep ts k IH|k IH|k IH]; intros o cs H; cbn [run] in *; try exact H.
  - destruct (next_bytes d o (i64 n)) as [[y o']|m|]; cbn [bind] in *; try discriminate. now apply IH.
  - destruct (rec1 c d o ts) as [[[v o'] cs']|m|] eqn:E; cbn [bind] in *; try discriminate.
    rewrite (M _ _ _ _ _ E). cbn [bind]. now apply IH.
  - destruct (rec1 c b 0 ts) as [[[v o'] cs']|m|] eqn:E; cbn [bind] in *; try discriminate.
    rewrite (M _ _ _ _ _ E). cbn [bind]. now apply IH.
  - now apply IH.
  - destruct (slice d start o) as [y|m|]; cbn [bind] in *; try discriminate. now apply IH.
Qed.

Lemma decode_blocked f E c d o t x : decode f (blocked E) c d o t = Ok x -> decode f E c d o t = Ok x.
Proof.
  revert c d o t x. induction f as [|f IH]; intros c d o t x H; [discriminate|]. cbn [decode] in *.
  unfold GetCodecClass in *. rewrite GetCodecClass_block in H.
  destruct (GetCodecClass_fuel (String.length t) E (x_module c) t (x_spec c)) as [[[cd sub]|]|m|]; cbn [bind] in *; try discriminate.
  rewrite init_sub_block, process_blocked in H. unfold block in H.
  destruct (global_codec (init_sub cd sub)); [discriminate|].
  eapply run_ok_mono; [exact IH|exact H].
Qed.

Lemma blocked_local E : local_env (blocked E).
Proof.
  assert (B : forall c, global_codec (block c) = false) by (intros c; unfold block; destruct (global_codec c) eqn:G; auto).
  split.
  - intros k cd H. unfold blocked in H. cbn [e_reg] in H. rewrite (assoc_map block) in H.
    destruct (assoc k (e_reg E)); [injection H as <-; apply B|discriminate].
  - intros k l lo hi cd H HI. unfold blocked in H. cbn [e_special] in H.
    rewrite (assoc_map (fun l => map (fun s => (fst s, block (snd s))) l)) in H.
    destruct (assoc k (e_special E)) as [l0|]; [injection H as <-|discriminate].
    apply in_map_iff in HI. destruct HI as ([r c] & X & _). cbn in X. injection X as _ <-. apply B.
Qed.

(** ** [Decodes] *)
Lemma Decodes_det E c d o t r1 r2 : Decodes E c d o t r1 -> Decodes E c d o t r2 -> r1 = r2.
Proof. intros (N1 & f1 & H1) (N2 & f2 & H2). exact (decode_det f1 f2 E c d o t r1 r2 H1 N1 H2 N2). Qed.
