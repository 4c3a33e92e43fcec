(** Decoding under two pallets for which the same types are replaced. *)

From Verif Require Import GoBase ProofsBase ModelTools ModelVal ModelRegistry ModelDecode ProofsRun.

(** The two pallets replace the same types. *)
Definition same_overrides (m m' : string) : Prop := forall t, ModuleType t m = ModuleType t m'.

Lemma GetCodecClass_pallet E m m' ts spec : same_overrides m m' -> GetCodecClass E m ts spec = GetCodecClass E m' ts spec.
Proof.
  intros S. assert (I : forall t, getCodecInstant E m t spec = getCodecInstant E m' t spec) by (intros t; unfold getCodecInstant; now rewrite S).
  unfold GetCodecClass. generalize (String.length ts) as f. intros f. revert ts.
  induction f as [|f IH]; intros ts; cbn [GetCodecClass_fuel]; rewrite ?I;
    (destruct (last_char (ConvertType ts)); [|reflexivity]); cbv zeta;
    repeat match goal with
    | |- bind ?a _ = bind ?b _ => unify a b; destruct a; cbn [bind]; try reflexivity
    | |- bind ?a _ = bind ?b _ => replace b with a; [destruct a; cbn [bind]; try reflexivity|]
    | |- (match ?x with _ => _ end) = _ => destruct x; try reflexivity
    end; rewrite ?I; try reflexivity; try apply IH.
Qed.

Section Twins.
Variables (s : Z) (md : option metadata) (m m' : string).
Notation c := (Ctx s m md).
Notation c' := (Ctx s m' md).
Inductive twin : prog -> prog -> Prop :=
| tw_ret v : twin (Ret v) (Ret v)
| tw_fail e : twin (Fail e) (Fail e)
| tw_next n k k' : (forall b, twin (k b) (k' b)) -> twin (Next n k) (Next n k')
| tw_sub ts k k' : (forall v, twin (k v) (k' v)) -> twin (Sub c ts k) (Sub c' ts k')
| tw_sub_other d ts k k' : (forall v, twin (k v) (k' v)) -> twin (Sub d ts k) (Sub d ts k')
| tw_other b d keep ts k k' : (forall v, twin (k v) (k' v)) -> twin (Other b d keep ts k) (Other b d keep ts k')
| tw_whole k k' : (forall b, twin (k b) (k' b)) -> twin (Whole k) (Whole k')
| tw_log k k' : twin k k' -> twin (LogSpan k) (LogSpan k').

Lemma twin_run rec start p p' : twin p p' -> (forall data off ts, rec c data off ts = rec c' data off ts) ->
  forall data off calls, run rec start p data off calls = run rec start p' data off calls.
Proof.
  intros T R. induction T as [v|e|n k k' H IH|ts k k' H IH|d ts k k' H IH|b d keep ts k k' H IH|k k' H IH|k k' H IH]; intros data off calls; cbn [run]; try reflexivity.
  - destruct (next_bytes data off (i64 n)) as [[b o]|e|]; cbn [bind]; auto.
  - rewrite R. destruct (rec c' data off ts) as [[[v o] cs]|e|]; cbn [bind]; auto.
  - destruct (rec d data off ts) as [[[v o] cs]|e|]; cbn [bind]; auto.
  - destruct (rec d b 0 ts) as [[[v o] cs]|e|]; cbn [bind]; auto.
  - auto.
  - destruct (slice data start off); cbn [bind]; auto.
Qed.

Lemma twin_repeat ts n acc k k' : (forall l, twin (k l) (k' l)) -> twin (repeat_sub c ts n acc k) (repeat_sub c' ts n acc k').
Proof. intros Hk. revert acc. induction n as [|n IH]; intros acc; cbn [repeat_sub]; [apply Hk|]. constructor. auto. Qed.
Lemma twin_fields tm acc k k' : (forall l, twin (k l) (k' l)) -> twin (fields_sub c tm acc k) (fields_sub c' tm acc k').
Proof. intros Hk. revert acc. induction tm as [|[n t] tm IH]; intros acc; cbn [fields_sub]; [apply Hk|]. constructor. auto. Qed.
Lemma twin_rows rows acc k k' : (forall l, twin (k l) (k' l)) -> twin (rows_sub c rows acc k) (rows_sub c' rows acc k').
Proof. intros Hk. revert acc. induction rows as [|[|n [|t r]] rows IH]; intros acc; cbn [rows_sub]; try constructor; auto. Qed.
Lemma twin_params d args acc k k' : (forall l, twin (k l) (k' l)) -> twin (call_params d args acc k) (call_params d args acc k').
Proof. intros Hk. revert acc. induction args as [|[n t] args IH]; intros acc; cbn [call_params]; [apply Hk|]. apply tw_sub_other. auto. Qed.
Lemma twin_as_int v k k' : (forall z, twin (k z) (k' z)) -> twin (as_int v k) (as_int v k').
Proof. intros Hk. destruct v; cbn [as_int]; try constructor; auto. Qed.
Lemma twin_as_str v k k' : (forall z, twin (k z) (k' z)) -> twin (as_str v k) (as_str v k').
Proof. intros Hk. destruct v; cbn [as_str]; try constructor; auto. Qed.
Lemma twin_as_bool v k k' : (forall z, twin (k z) (k' z)) -> twin (as_bool v k) (as_bool v k').
Proof. intros Hk. destruct v; cbn [as_bool]; try constructor; auto. Qed.
Lemma twin_as_list v k k' : (forall z, twin (k z) (k' z)) -> twin (as_list v k) (as_list v k').
Proof. intros Hk. destruct v; cbn [as_list]; try constructor; auto. Qed.
Lemma twin_as_struct v k k' : (forall z, twin (k z) (k' z)) -> twin (as_struct v k) (as_struct v k').
Proof. intros Hk. destruct v; cbn [as_struct]; try constructor; auto. Qed.
Lemma twin_as_strs l : forall k k', (forall z, twin (k z) (k' z)) -> twin (as_strs l k) (as_strs l k').
Proof. induction l as [|v l IH]; intros k k' H; cbn [as_strs]; [auto|]. destruct v; try constructor. apply IH. auto. Qed.
Lemma twin_as_structs l : forall k k', (forall z, twin (k z) (k' z)) -> twin (as_structs l k) (as_structs l k').
Proof. induction l as [|v l IH]; intros k k' H; cbn [as_structs]; [auto|]. destruct v; try constructor. apply IH. auto. Qed.
Lemma twin_flag yes yes' no k k' : (forall k k', (forall v, twin (k v) (k' v)) -> twin (yes k) (yes' k')) -> (forall v, twin (k v) (k' v)) ->
  twin (sub_flag c yes no k) (sub_flag c' yes' no k').
Proof. intros Y H. constructor. intros v. apply twin_as_bool. intros []; auto. Qed.
Lemma twin_compact_u32 k k' : (forall z, twin (k z) (k' z)) -> twin (compact_u32 c k) (compact_u32 c' k').
Proof. intros Hk. constructor. intros v. now apply twin_as_int. Qed.
Lemma twin_compact_bytes k k' : (forall n b, twin (k n b) (k' n b)) -> twin (compact_bytes k) (compact_bytes k').
Proof.
  intros Hk. constructor. intros b. cbv zeta.
  destruct (match b with [] => 0 | x :: _ => bZ x mod 4 end) as [|[p|p|]|p]; auto; try (constructor; auto).
  destruct p; constructor; auto.
Qed.
Lemma twin_process_bytes k k' : (forall z, twin (k z) (k' z)) -> twin (process_bytes c k) (process_bytes c' k').
Proof. intros Hk. apply twin_compact_u32. intros z. constructor. auto. Qed.
Lemma twin_compact_value len v : twin (compact_value len v) (compact_value len v).
Proof.
  unfold compact_value. destruct v; try constructor.
  - destruct (dec_div_floor coef exp _). constructor.
  - destruct (dec_of_string s0) as [[cf e]|]; [|constructor]. destruct (dec_div_floor cf e _). constructor.
Qed.
End Twins.
Ltac tw_steps := repeat match goal with
  | |- twin _ _ _ _ (Ret _) _ => constructor
  | |- twin _ _ _ _ (Fail _) _ => constructor
  | |- twin _ _ _ _ (Next _ _) _ => constructor; intros ?
  | |- twin _ _ _ _ (Whole _) _ => constructor; intros ?
  | |- twin _ _ _ _ (Sub _ _ _) _ => apply tw_sub; intros ?
  | |- twin _ _ _ _ (Other _ _ _ _ _) _ => constructor; intros ?
  | |- twin _ _ _ _ (LogSpan _) _ => constructor
  | |- twin _ _ _ _ (as_str _ _) _ => apply twin_as_str; intros ?
  | |- twin _ _ _ _ (as_bool _ _) _ => apply twin_as_bool; intros ?
  | |- twin _ _ _ _ (as_int _ _) _ => apply twin_as_int; intros ?
  | |- twin _ _ _ _ (as_list _ _) _ => apply twin_as_list; intros ?
  | |- twin _ _ _ _ (as_struct _ _) _ => apply twin_as_struct; intros ?
  | |- twin _ _ _ _ (as_strs _ _) _ => apply twin_as_strs; intros ?
  | |- twin _ _ _ _ (as_structs _ _) _ => apply twin_as_structs; intros ?
  | |- twin _ _ _ _ (sub_flag _ _ _ _) _ => apply twin_flag; [intros ? ? ?|intros ?]
  | |- twin _ _ _ _ (sub_str _ _ _) _ => unfold sub_str
  | |- twin _ _ _ _ (sub_int _ _ _) _ => unfold sub_int
  | |- twin _ _ _ _ (sub_type _ _) _ => unfold sub_type
  | |- twin _ _ _ _ (sub_strs _ _ _) _ => unfold sub_strs
  | |- twin _ _ _ _ (sub_structs _ _ _) _ => unfold sub_structs
  | |- twin _ _ _ _ (sub_lookup _ _ _) _ => unfold sub_lookup
  | |- twin _ _ _ _ (meta_items _ _ _ _) _ => unfold meta_items
  | |- twin _ _ _ _ (compact_u32 _ _) _ => apply twin_compact_u32; intros ?
  | |- twin _ _ _ _ (compact_bytes _) _ => apply twin_compact_bytes; intros ? ?
  | |- twin _ _ _ _ (process_bytes _ _) _ => apply twin_process_bytes; intros ?
  | |- twin _ _ _ _ (repeat_sub _ _ _ _ _) _ => apply twin_repeat; intros ?
  | |- twin _ _ _ _ (fields_sub _ _ _ _) _ => apply twin_fields; intros ?
  | |- twin _ _ _ _ (rows_sub _ _ _ _) _ => apply twin_rows; intros ?
  | |- twin _ _ _ _ (call_params _ _ _ _) _ => apply twin_params; intros ?
  | |- twin _ _ _ _ (compact_value _ _) _ => apply twin_compact_value
  | |- twin _ _ _ _ (process_enum _ _ _) _ => unfold process_enum
  | |- twin _ _ _ _ (process_call _) _ => unfold process_call; cbn [x_meta x_spec]
  | |- twin _ _ _ _ (let _ := _ in _) _ => cbv zeta
  | |- twin _ _ _ _ (match ?x with _ => _ end) _ => destruct x
  | H : forall v, twin _ _ _ _ (?k v) _ |- twin _ _ _ _ (?k _) _ => apply H
  end.
Lemma twin_meta s md m m' name : twin s md m m' (process_meta (Ctx s m md) name) (process_meta (Ctx s m' md) name).
Proof.
  unfold process_meta, meta_event, meta_argument, meta_call, meta_error, meta_constant, meta_storage_entry, meta_storage, meta_module, meta_constant14,
    meta_storage_entry14, meta_module15, meta_module14, meta_api, meta_method, meta_param, meta_outer, meta_custom, meta_storage_type, meta_storage_end.
  repeat match goal with |- twin _ _ _ _ (if String.eqb ?a ?b then _ else _) _ => destruct (String.eqb a b) end; tw_steps.
Qed.
Lemma process_twin E s md m m' cd : twin s md m m' (process E (Ctx s m md) cd) (process E (Ctx s m' md) cd).
Proof.
  destruct cd; cbn [process x_spec x_meta]; try apply twin_meta; tw_steps.
  match goal with |- twin _ _ _ _ (?loop ?n []) _ => generalize (@nil val), n end.
  intros acc n. revert acc. induction n as [|n IH]; intros acc; [constructor|].
  apply tw_sub. intros v. destruct (nth_error (split_char "," sub) 1); [|constructor]. apply tw_sub. intros w. apply IH.
Qed.

(** Under two such pallets every type is decoded alike. *)
Lemma decode_pallet fuel E s md m m' data off ts : same_overrides m m' ->
  decode fuel E (Ctx s m md) data off ts = decode fuel E (Ctx s m' md) data off ts.
Proof.
  intros S. revert data off ts. induction fuel as [|f IH]; intros data off ts; [reflexivity|]. cbn [decode x_module x_spec].
  rewrite (GetCodecClass_pallet E m m' ts s S). destruct (GetCodecClass E m' ts s) as [[[cd sub]|]|e|]; cbn [bind]; [|reflexivity..].
  apply (twin_run s md m m'); [apply process_twin|exact IH].
Qed.
