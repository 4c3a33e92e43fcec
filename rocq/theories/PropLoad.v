(** C70: the registry of a fresh process.  Go visits the shipped definitions in
    a random order, twice; the result is the same for every pair of orders. *)

From Verif Require Import GoBase ModelTools ModelVal ModelRegistry ModelDecode ModelRegister ModelBaseTypes SpecPortable SpecMeta ProofsLoad ProofsTrie ProofsFast PropRuntimeOld.
From Coq Require Import Permutation.

(** ** What each definition becomes, as a yardstick *)
Definition file_order : list string := map fst base_definitions.
Definition yardstick : list (string * codec) := guesses false (tbuild base_registry) base_definitions.
Definition either (a b : list (string * codec)) (k : string) : option codec := match assoc k a with Some c => Some c | None => assoc k b end.
Definition last_value : string -> option codec := either yardstick base_registry.

Lemma yardstick_fast : fast_loads base_definitions base_reg yardstick 6 = true.
Proof. vm_compute. reflexivity. Qed.
Lemma yardstick_loads : loads base_definitions base_reg yardstick 6 = true.
Proof. exact (fast_loads_ok _ _ _ _ yardstick_fast). Qed.
Lemma base_keys_distinct : NoDup (map fst base_definitions).
Proof. apply distinct_names_ok. vm_compute. reflexivity. Qed.

(** An order in which Go may visit the definitions. *)
Definition visiting_order (o : list string) : Prop := Permutation o (map fst base_definitions).

Lemma started o1 o2 : visiting_order o1 -> visiting_order o2 ->
  exists r, start_registry o1 o2 = Ok r /\ r_special r = [] /\ r_v14 r = [] /\ forall k, assoc k (r_types r) = last_value k.
Proof. intros A B. exact (any_order base_definitions base_reg yardstick 6 base_keys_distinct yardstick_loads o1 o2 A B). Qed.

Theorem C70_start_registry o1 o2 p1 p2 : visiting_order o1 -> visiting_order o2 -> visiting_order p1 -> visiting_order p2 ->
  exists r s, start_registry o1 o2 = Ok r /\ start_registry p1 p2 = Ok s /\
    (forall k, assoc k (r_types r) = assoc k (r_types s)) /\ r_special r = r_special s /\ r_v14 r = r_v14 s.
Proof.
  intros A B C D. destruct (started o1 o2 A B) as (r & R1 & R2 & R3 & R4). destruct (started p1 p2 C D) as (s & S1 & S2 & S3 & S4).
  exists r, s. split; [exact R1|]. split; [exact S1|]. split; [intros k; exact (eq_trans (R4 k) (eq_sym (S4 k)))|].
  split; [exact (eq_trans R2 (eq_sym S2))|exact (eq_trans R3 (eq_sym S3))].
Qed.

(** What the file says about a key. *)
Fixpoint rows_of (l : list (list string)) : list (string * string) :=
  match l with
  | (n :: t :: _) :: r => (n, t) :: rows_of r
  | _ => []
  end.
Definition described (t : tstruct) : option codec :=
  let rows := match rows_of (t_mapping t) with [] => None | l => Some l end in
  if String.eqb (t_type t) "struct" then Some (CStruct rows)
  else if String.eqb (t_type t) "enum" then Some (CEnum rows (t_values t))
  else if String.eqb (t_type t) "set" then Some (CSet (t_values t) (t_bits t))
  else None.
Definition describes (value : string -> option codec) (p : string * tstruct) : bool :=
  String.eqb (t_type (snd p)) "string" || same_codec (value (to_lower (fst p))) (described (snd p)).
Lemma all_described : forallb (describes last_value) base_definitions = true.
Proof. vm_compute. reflexivity. Qed.
(** An alias of a known name is that name. *)
Definition same_if_known (v w : option codec) : bool := match w with Some c => same_codec v (Some c) | None => true end.
Definition stands (value : string -> option codec) (p : string * tstruct) : bool :=
  negb (String.eqb (t_type (snd p)) "string") || same_if_known (value (to_lower (fst p))) (value (to_lower (ConvertType (t_string (snd p))))).
Lemma all_stand : forallb (stands last_value) base_definitions = true.
Proof. vm_compute. reflexivity. Qed.

(** Structs, enums and sets of the file are registered as described, aliases of
    registered names as those names, and other keys keep their built-in
    decoder. *)
Definition registered_as_described (r : reg) : Prop :=
  (forall k t c, In (k, t) base_definitions -> described t = Some c -> assoc (to_lower k) (r_types r) = Some c) /\
  (forall k s c, In (k, alias s) base_definitions -> assoc (to_lower (ConvertType s)) (r_types r) = Some c -> assoc (to_lower k) (r_types r) = Some c) /\
  (forall k, (forall d, In d base_definitions -> to_lower (fst d) <> k) -> assoc k (r_types r) = assoc k base_registry).
Lemma value_described value defs k t c : forallb (describes value) defs = true -> In (k, t) defs -> described t = Some c -> value (to_lower k) = Some c.
Proof.
  intros A I D. assert (H := proj1 (forallb_forall _ _) A _ I). unfold describes in H. cbn [fst snd] in H.
  destruct (String.eqb_spec (t_type t) "string") as [T|T].
  - unfold described in D. rewrite T in D. discriminate.
  - cbn [orb] in H. apply same_codec_eq in H. rewrite H. exact D.
Qed.
Lemma value_alias value defs k s c : forallb (stands value) defs = true -> In (k, alias s) defs -> value (to_lower (ConvertType s)) = Some c -> value (to_lower k) = Some c.
Proof.
  intros A I H. assert (Q := proj1 (forallb_forall _ _) A _ I). unfold stands in Q. cbn [fst snd] in Q.
  change (t_type (alias s)) with "string" in Q. change (t_string (alias s)) with s in Q. rewrite String.eqb_refl in Q. cbn [negb orb] in Q. rewrite H in Q.
  cbn [same_if_known] in Q. apply same_codec_eq. exact Q.
Qed.
Lemma either_other a b k : assoc k a = None -> either a b k = assoc k b.
Proof. intros H. unfold either. rewrite H. reflexivity. Qed.
Lemma value_other k : (forall d, In d base_definitions -> to_lower (fst d) <> k) -> last_value k = assoc k base_registry.
Proof.
  intros N. apply either_other. destruct (assoc k yardstick) as [c|] eqn:E; [|reflexivity]. exfalso.
  destruct (loads_keys _ _ _ _ _ _ yardstick_loads E) as (d & Id & Q). exact (N d Id Q).
Qed.
Theorem C70_as_described o1 o2 : visiting_order o1 -> visiting_order o2 -> exists r, start_registry o1 o2 = Ok r /\ registered_as_described r.
Proof.
  intros A B. destruct (started o1 o2 A B) as (r & R1 & _ & _ & R4). exists r. split; [exact R1|]. split; [|split].
  - intros k t c I D. rewrite R4. exact (value_described last_value base_definitions k t c all_described I D).
  - intros k s c I H. rewrite R4. rewrite R4 in H. exact (value_alias last_value base_definitions k s c all_stand I H).
  - intros k N. rewrite R4. exact (value_other k N).
Qed.

(** ** The registry of a fresh process meets what C61 and C64 to C69 ask of the
    registry they start from *)
#[local] Opaque yardstick base_definitions base_registry start_registry.
Definition keyed (value : string -> option codec) (l : list (string * option codec)) : bool := forallb (fun p => same_codec (value (fst p)) (snd p)) l.
Definition reserved_key (k : string) : bool := existsb (String.eqb k) reserved_names || existsb (fun p => prefix p k) reserved_starts.
Lemma keyed_in value l k o : keyed value l = true -> In (k, o) l -> value k = o.
Proof. intros H I. assert (Q := proj1 (forallb_forall _ _) H _ I). apply same_codec_eq in Q. exact Q. Qed.
Lemma keyed_map {A} value (f : A -> string * option codec) l a : keyed value (map f l) = true -> In a l -> value (fst (f a)) = snd (f a).
Proof. intros H I. apply (keyed_in value (map f l)); [exact H|]. rewrite <- surjective_pairing. exact (in_map f l a I). Qed.
Lemma meta_values : keyed last_value (map (fun p => (fst p, Some (snd p))) meta_keys) = true /\
  keyed last_value (map (fun t => (to_lower ("Vec<" ++ t ++ ">"), None)) meta_vecs) = true /\
  keyed last_value (map (fun t => (to_lower ("Option<" ++ t ++ ">"), None)) meta_opts) = true /\
  keyed last_value custom_keys = true /\ keyed last_value [("call", Some CCall); ("hash", Some CH256); ("vec<hash>", None)] = true.
Proof. vm_compute. repeat split. Qed.
Lemma none_reserved : forallb (fun d => negb (reserved_key (to_lower (fst d)))) base_definitions = true.
Proof. vm_compute. reflexivity. Qed.
Lemma not_reserved defs d : forallb (fun d => negb (reserved_key (to_lower (@fst string tstruct d)))) defs = true -> In d defs -> ~ reserved (to_lower (fst d)).
Proof.
  intros H I K. rewrite forallb_forall in H. specialize (H d I). apply negb_true_iff in H. unfold reserved_key in H. apply orb_false_iff in H. destruct H as [H1 H2].
  destruct K as [K|(p & K & P)].
  - assert (X : existsb (String.eqb (to_lower (fst d))) reserved_names = true) by (apply existsb_exists; eexists; split; [exact K|apply String.eqb_refl]). congruence.
  - assert (X : existsb (fun p => prefix p (to_lower (fst d))) reserved_starts = true) by (apply existsb_exists; now exists p). congruence.
Qed.
Theorem C70_ready o1 o2 : visiting_order o1 -> visiting_order o2 -> exists r, start_registry o1 o2 = Ok r /\
  meta_registry r /\ custom_registry r /\ basic r /\ forall c D, standard c D r.
Proof.
  intros A B. destruct (started o1 o2 A B) as (r & R1 & R2 & R3 & R4). exists r. split; [exact R1|].
  destruct meta_values as (V1 & V2 & V3 & V4 & V5).
  assert (M : meta_registry r).
  { split; [|split; [|split]].
    - intros k cd I. rewrite R4. exact (keyed_map last_value (fun p => (fst p, Some (snd p))) meta_keys (k, cd) V1 I).
    - intros t I. rewrite R4. exact (keyed_map last_value (fun t => (to_lower ("Vec<" ++ t ++ ">"), None)) meta_vecs t V2 I).
    - intros t I. rewrite R4. exact (keyed_map last_value (fun t => (to_lower ("Option<" ++ t ++ ">"), None)) meta_opts t V3 I).
    - intros k _. rewrite R2. reflexivity. }
  split; [exact M|]. split; [|split].
  - intros k o I. rewrite R4, R2. split; [exact (keyed_in _ _ _ _ V4 I)|reflexivity].
  - split; [exact M|]. rewrite R2, !R4.
    rewrite (keyed_in _ _ "call" (Some CCall) V5), (keyed_in _ _ "hash" (Some CH256) V5), (keyed_in _ _ "vec<hash>" None V5) by (cbn [In]; tauto). now repeat split.
  - intros c D. split.
    + intros k K _. rewrite R4. apply value_other. intros d I Q. apply (not_reserved base_definitions d none_reserved I). rewrite Q. exact K.
    + intros k _. rewrite R2. reflexivity.
    + intros id n _. rewrite R2. reflexivity.
    + intros _ key _. rewrite R3. reflexivity.
Qed.

(** ** Examples.  A chain of four aliases: visited from either end,
    MessageQueueChain becomes a hash. *)
Example C70_orders : visiting_order file_order /\ visiting_order (rev file_order).
Proof. split; [apply Permutation_refl|exact (Permutation_sym (Permutation_rev file_order))]. Qed.
Example C70_chain :
  In ("MessageQueueChain", alias "RelayChainHash") base_definitions /\ In ("RelayChainHash", alias "RelayHash") base_definitions /\
  In ("RelayHash", alias "Hash") base_definitions /\ last_value "messagequeuechain" = Some CH256.
Proof.
  assert (H : forall k s, existsb (fun p => String.eqb k (fst p) && String.eqb s (t_string (snd p)) && String.eqb (t_type (snd p)) "string" && (t_bits (snd p) =? 0) && negb (t_v14 (snd p)) && (t_spec (snd p) =? 0) && match t_mapping (snd p), t_values (snd p) with [], [] => true | _, _ => false end) base_definitions = true -> In (k, alias s) base_definitions).
  { intros k s H. apply existsb_exists in H. destruct H as ([k' [ty st mp vl b v sp]] & I & H). cbn [fst snd t_type t_string t_mapping t_values t_bits t_v14 t_spec] in H.
    repeat (apply andb_prop in H; let H' := fresh in destruct H as [H H']). apply String.eqb_eq in H. subst k'.
    destruct mp, vl, v; try discriminate. repeat match goal with X : String.eqb _ _ = true |- _ => apply String.eqb_eq in X | X : (_ =? _) = true |- _ => apply Z.eqb_eq in X end. subst. exact I. }
  split; [apply H; vm_compute; reflexivity|]. split; [apply H; vm_compute; reflexivity|]. split; [apply H; vm_compute; reflexivity|]. vm_compute. reflexivity.
Qed.
Print Assumptions C70_start_registry.
Print Assumptions C70_as_described.
Print Assumptions C70_ready.
