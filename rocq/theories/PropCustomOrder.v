(** C71: custom definitions and the order in which Go visits them.
    RegCustomTypes(LoadTypeRegistry(text)) is how users add definitions of
    their own (types/customType.go, source/source.go). *)

From Verif Require Import GoBase ModelTools ModelVal ModelRegistry ModelDecode ModelRegister ModelBaseTypes ProofsNames ProofsTexts ProofsFrame ProofsPortReg ProofsLoad.
From Coq Require Import Permutation.

(** Definitions in which no alias stands for another alias.  An alias either
    names a struct, enum or set of the same file, or a text none of whose
    spellings is defined in the file. *)
Record orderly (defs : list (string * tstruct)) : Prop := {
  od_keys : NoDup (map (fun d => to_lower (fst d)) defs);
  od_key : forall k t, In (k, t) defs -> ~ has_char "#"%char k;
  od_entry : forall k t, In (k, t) defs -> t_v14 t = false /\ Forall (fun row => exists n ty tl, row = n :: ty :: tl) (t_mapping t);
  od_alias : forall k t, In (k, t) defs -> t_type t = "string" ->
    (exists x, In (t_string t, x) defs /\ t_type x <> "string") \/
    (ConvertType (t_string t) <> "" /\ forall d, In d defs -> fst d <> t_string t /\ to_lower (fst d) <> to_lower (ConvertType (t_string t))) }.

Lemma mapping_ok l : Forall (fun row : list string => exists n ty tl, row = n :: ty :: tl) l -> exists m, mapping_rows l = Ok m.
Proof. induction 1 as [|row l (n & ty & tl & ->) _ [m IH]]; [now exists []|]. cbn [mapping_rows]. rewrite IH. eexists. reflexivity. Qed.
Lemma plain_ok t : Forall (fun row => exists n ty tl, row = n :: ty :: tl) (t_mapping t) -> exists o, plain_of t = Ok o.
Proof.
  intros H. destruct (mapping_ok _ H) as [m E]. unfold plain_of, reg_plain. rewrite E. cbn [bind].
  destruct (String.eqb (t_type t) "struct"); [eexists; reflexivity|]. destruct (String.eqb (t_type t) "enum"); [eexists; reflexivity|].
  destruct (String.eqb (t_type t) "set"); eexists; reflexivity.
Qed.
Lemma last_some s : s <> "" -> exists z, last_char s = Some z.
Proof.
  induction s as [|a s IH]; intros N; [contradiction|]. destruct s as [|b s]; [eexists; reflexivity|]. destruct IH as [z E]; [discriminate|].
  exists z. exact E.
Qed.
Lemma shape_ok ts : ts <> "" -> exists o, shape_of ts = Ok o.
Proof.
  intros N. unfold shape_of, reg_shape. destruct (last_some ts N) as [z ->]. destruct ts as [|a ts]; [contradiction|]. cbn [first_char].
  match goal with |- context [match ?g with Some c => Ok (regCustomKey _ c _) | None => _ end] => destruct g as [c|] end; [eexists; reflexivity|].
  destruct (negb (String.eqb (String a ts) "()") && Ascii.eqb a "(" && Ascii.eqb z ")"); [eexists; reflexivity|].
  destruct (negb (String.eqb (String a ts) "[]") && Ascii.eqb a "[" && Ascii.eqb z "]"); [|eexists; reflexivity].
  destruct (split_char ";"%char (strip_ends (String a ts))) as [|t [|n [|]]]; eexists; reflexivity.
Qed.

Section Orderly.
Variable B : reg.
Variable defs : list (string * tstruct).
Hypothesis OD : orderly defs.

Definition value_of (o : res (option codec)) : option codec := match o with Ok c => c | _ => None end.
Definition meaning (t : tstruct) : option codec :=
  if String.eqb (t_type t) "string" then
    match assoc (t_string t) defs with
    | Some x => value_of (plain_of x)
    | None => match assoc (to_lower (ConvertType (t_string t))) (r_types B) with Some c => Some c | None => value_of (shape_of (ConvertType (t_string t))) end
    end
  else value_of (plain_of t).
Definition target : list (string * codec) := flat_map (fun d => match meaning (snd d) with Some c => [(to_lower (fst d), c)] | None => [] end) defs.

Lemma assoc_in {A} k (a : A) l : assoc k l = Some a -> In (k, a) l.
Proof. induction l as [|[k' a'] l IH]; [discriminate|]. cbn [assoc]. destruct (String.eqb_spec k k') as [->|]; [intros [= ->]; now left|right; auto]. Qed.
Lemma in_assoc {A} k (a : A) l : NoDup (map fst l) -> In (k, a) l -> assoc k l = Some a.
Proof.
  induction l as [|[k' a'] l IH]; [intros _ []|]. cbn [map fst assoc]. intros N [E|I].
  - injection E as -> ->. now rewrite String.eqb_refl.
  - apply NoDup_cons_iff in N. destruct N as [N1 N2]. destruct (String.eqb_spec k k') as [->|]; [|now apply IH]. exfalso. apply N1. exact (in_map fst l (k', a) I).
Qed.
Lemma keys_nodup : NoDup (map fst defs).
Proof.
  assert (H := od_keys _ OD). revert H. generalize defs. intros l. induction l as [|[k t] l IH]; [constructor|]. cbn [map fst]. intros H. apply NoDup_cons_iff in H.
  destruct H as [A H]. constructor; [|now apply IH]. intros I. apply A. apply in_map_iff in I. destruct I as ([k' t'] & E & I). cbn [fst] in E. subst k'.
  exact (in_map (fun d => to_lower (fst d)) l (k, t') I).
Qed.
Lemma target_at : forall l, NoDup (map (fun d : string * tstruct => to_lower (fst d)) l) -> forall k t, In (k, t) l ->
  assoc (to_lower k) (flat_map (fun d => match meaning (snd d) with Some c => [(to_lower (fst d), c)] | None => [] end) l) = meaning t.
Proof.
  induction l as [|[k' t'] l IH]; [intros _ k t []|]. cbn [map fst flat_map snd]. intros N k t I. apply NoDup_cons_iff in N. destruct N as [N1 N2].
  destruct I as [E|I].
  - injection E as -> ->. destruct (meaning t) as [c|] eqn:M; cbn [List.app assoc]; [now rewrite String.eqb_refl|].
    match goal with |- assoc ?a ?m = None => destruct (assoc a m) as [c|] eqn:X; [|reflexivity] end. exfalso. apply N1. apply assoc_in in X. apply in_flat_map in X.
    destruct X as ([k2 t2] & I2 & X). cbn [fst snd] in X. destruct (meaning t2); [|destruct X]. destruct X as [X|[]]. injection X as X _. rewrite <- X.
    exact (in_map (fun d => to_lower (fst d)) l (k2, t2) I2).
  - assert (D : to_lower k <> to_lower k') by (intros E; apply N1; rewrite <- E; exact (in_map (fun d => to_lower (fst d)) l (k, t) I)).
    destruct (meaning t'); cbn [List.app assoc]; [|now apply IH]. destruct (String.eqb_spec (to_lower k) (to_lower k')); [contradiction|now apply IH].
Qed.
Lemma target_other q : (forall d, In d defs -> to_lower (fst d) <> q) -> assoc q target = None.
Proof.
  intros N. destruct (assoc q target) as [c|] eqn:E; [|reflexivity]. exfalso. apply assoc_in in E. apply in_flat_map in E. destruct E as ([k t] & I & X). cbn [fst snd] in X.
  destruct (meaning t); [|destruct X]. destruct X as [X|[]]. injection X as X _. exact (N _ I X).
Qed.
Lemma same_refl_codec o : same_codec o o = true.
Proof. destruct o as [c|]; [|reflexivity]. cbn [same_codec]. destruct (codec_eq_dec c c); [reflexivity|contradiction]. Qed.
Lemma is_value o e : (exists x, o = Ok x) -> e = value_of o -> is_ok o e = true.
Proof. intros [x ->] ->. cbn [is_ok value_of]. apply same_refl_codec. Qed.

Lemma orderly_loads : loads defs B target 3 = true.
Proof.
  unfold loads. apply andb_true_intro. split.
  - apply forallb_forall. intros [k t] I. cbn [fst]. unfold check_entry. cbv zeta.
    assert (A := in_assoc k t defs keys_nodup I). assert (TA : assoc (to_lower k) target = meaning t) by exact (target_at defs (od_keys _ OD) k t I). rewrite TA.
    destruct (od_entry _ OD k t I) as [V R].
    assert (NV : no_version (to_lower k) = true).
    { unfold no_version. rewrite split_absent; [reflexivity|]. intros X. apply (proj1 (lower_has "#"%char k eq_refl)) in X. exact (od_key _ OD k t I X). }
    cbn [finals]. rewrite A. destruct (String.eqb_spec (t_type t) "string") as [T|T].
    + destruct (od_alias _ OD k t I T) as [(x & Ix & Tx)|(NE & FREE)].
      * assert (Ax := in_assoc _ x defs keys_nodup Ix). rewrite Ax. destruct (String.eqb_spec (t_type x) "string"); [contradiction|]. cbn [negb].
        rewrite NV. destruct (od_entry _ OD _ x Ix) as [Vx Rx].
        assert (E : is_ok (plain_of x) (meaning t) = true).
        { apply is_value; [now apply plain_ok|]. unfold meaning. rewrite T, String.eqb_refl, Ax. reflexivity. }
        cbn [forallb andb]. rewrite Vx. destruct (String.eqb_spec (t_type x) "string"); [contradiction|]. cbn [negb]. rewrite E. reflexivity.
      * assert (NA : assoc (t_string t) defs = None).
        { destruct (assoc (t_string t) defs) as [x|] eqn:X; [|reflexivity]. exfalso. apply assoc_in in X. destruct (FREE _ X) as [Q _]; apply Q; reflexivity. }
        rewrite NA, NV. cbn [forallb andb]. rewrite V. rewrite T, String.eqb_refl. cbn [negb]. rewrite !andb_true_r. cbn [andb].
        unfold check_string, look. set (ts := ConvertType (t_string t)) in *.
        assert (AF : after B target (to_lower ts) = assoc (to_lower ts) (r_types B)).
        { unfold after. rewrite target_other; [reflexivity|]. intros d Id. exact (proj2 (FREE d Id)). }
        assert (NT : assoc ts defs = None).
        { destruct (assoc ts defs) as [x|] eqn:X; [|reflexivity]. exfalso. apply assoc_in in X. destruct (FREE _ X) as [_ Q]; apply Q; reflexivity. }
        assert (Mn : meaning t = match assoc (to_lower ts) (r_types B) with Some c => Some c | None => value_of (shape_of ts) end).
        { unfold meaning. now rewrite T, String.eqb_refl, NA. }
        rewrite AF, Mn. cbn [forallb finals]. rewrite NT.
        assert (Q : match assoc (to_lower ts) (r_types B) with
                    | Some c1 => same_codec (Some c1) (match assoc (to_lower ts) (r_types B) with Some c => Some c | None => value_of (shape_of ts) end)
                    | None => is_ok (shape_of ts) (match assoc (to_lower ts) (r_types B) with Some c => Some c | None => value_of (shape_of ts) end) end = true).
        { destruct (assoc (to_lower ts) (r_types B)); [apply same_refl_codec|]. apply is_value; [now apply shape_ok|reflexivity]. }
        rewrite Q. reflexivity.
    + rewrite NV. cbn [forallb andb]. rewrite V. destruct (String.eqb_spec (t_type t) "string"); [contradiction|]. cbn [negb]. rewrite andb_true_r. cbn [andb].
      apply is_value; [now apply plain_ok|]. unfold meaning. destruct (String.eqb_spec (t_type t) "string"); [contradiction|reflexivity].
  - cbv zeta. apply forallb_forall. intros [q c] I. cbn [fst]. unfold target in I. apply in_flat_map in I. destruct I as ([k t] & I & X). cbn [fst snd] in X.
    destruct (meaning t); [|destruct X]. destruct X as [X|[]]. injection X as <- _. apply existsb_exists. exists (to_lower k). split; [|apply String.eqb_refl].
    exact (in_map (fun d => to_lower (fst d)) defs (k, t) I).
Qed.
End Orderly.

(** Orderly definitions: loading succeeds in every order and the registry is
    the same. *)
Theorem C71_custom_partial B defs o1 o2 p1 p2 : orderly defs ->
  Permutation o1 (map fst defs) -> Permutation o2 (map fst defs) -> Permutation p1 (map fst defs) -> Permutation p2 (map fst defs) ->
  exists r s, load_definitions defs o1 o2 B = Ok r /\ load_definitions defs p1 p2 B = Ok s /\
    (forall k, assoc k (r_types r) = assoc k (r_types s)) /\ r_special r = r_special s /\ r_v14 r = r_v14 s.
Proof.
  intros OD P1 P2 Q1 Q2. assert (L := orderly_loads B defs OD). assert (N := keys_nodup defs OD).
  destruct (any_order defs B _ 3 N L o1 o2 P1 P2) as (r & R1 & R2 & R3 & R4). destruct (any_order defs B _ 3 N L p1 p2 Q1 Q2) as (s & S1 & S2 & S3 & S4).
  exists r, s. split; [exact R1|]. split; [exact S1|]. split; [intros k; now rewrite R4, S4|]. now rewrite R2, S2, R3, S3.
Qed.

(** Without that the order matters: "Foo" stands for "Mid", "Mid" for "Hash" and
    "Hash", built in as 32 bytes, is redefined as one byte. *)
Definition chain : list (string * tstruct) := [("Hash", alias "u8"); ("Mid", alias "Hash"); ("Foo", alias "Mid")].
Theorem C71_order_refuted : exists defs o1 o2 p1 p2 r s, NoDup (map (fun d => to_lower (fst d)) defs) /\
  Permutation o1 (map fst defs) /\ Permutation o2 (map fst defs) /\ Permutation p1 (map fst defs) /\ Permutation p2 (map fst defs) /\
  load_definitions defs o1 o2 base_reg = Ok r /\ load_definitions defs p1 p2 base_reg = Ok s /\
  assoc "foo" (r_types r) = Some CH256 /\ assoc "foo" (r_types s) = Some CU8.
Proof.
  exists chain, ["Foo"; "Mid"; "Hash"], ["Foo"; "Mid"; "Hash"], ["Hash"; "Mid"; "Foo"], ["Hash"; "Mid"; "Foo"].
  eexists. eexists.
  assert (P : Permutation ["Foo"; "Mid"; "Hash"] (map fst chain)).
  { change (map fst chain) with (rev ["Foo"; "Mid"; "Hash"]). apply Permutation_rev. }
  split; [cbn [chain map fst]; repeat constructor; cbn; intuition discriminate|]. split; [exact P|]. split; [exact P|]. split; [apply Permutation_refl|]. split; [apply Permutation_refl|].
  split; [vm_compute; reflexivity|]. split; [vm_compute; reflexivity|]. split; reflexivity.
Qed.
(** The same text, the same order of registration, and an alias that is lost:
    visited in this order "A" stands for nothing. *)
Definition long_chain : list (string * tstruct) := [("A", alias "B"); ("B", alias "C"); ("C", alias "D"); ("D", alias "E"); ("E", alias "u8")].
Theorem C71_lost_refuted : exists o1 o2 r s,
  Permutation o1 (map fst long_chain) /\ Permutation o2 (map fst long_chain) /\
  load_definitions long_chain o1 o2 base_reg = Ok r /\ load_definitions long_chain (rev o1) o2 base_reg = Ok s /\
  assoc "a" (r_types r) = None /\ assoc "a" (r_types s) = Some CU8.
Proof.
  exists ["A"; "B"; "C"; "D"; "E"], ["A"; "B"; "C"; "D"; "E"]. eexists. eexists. split; [apply Permutation_refl|]. split; [apply Permutation_refl|].
  split; [vm_compute; reflexivity|]. split; [vm_compute; reflexivity|]. split; reflexivity.
Qed.

(** ** Orderly definitions exist *)
Definition sample : list (string * tstruct) :=
  [("Weight", alias "u64"); ("Point", TStruct "struct" "" [["x"; "u32"]; ["y"; "Weight"]] [] 0 false 0); ("Where", alias "Point"); ("Path", alias "Vec<Point>")].
Example C71_sample : orderly sample /\ exists r, load_definitions sample (map fst sample) (rev (map fst sample)) base_reg = Ok r /\
  assoc "where" (r_types r) = Some (CStruct (Some [("x", "u32"); ("y", "Weight")])) /\ assoc "path" (r_types r) = Some (CVec "Point").
Proof.
  split.
  - split.
    + cbn. repeat constructor; cbn; intuition discriminate.
    + intros k t I. cbn in I. repeat (destruct I as [[= <- <-]|I]; [cbn; intuition discriminate|]). destruct I.
    + intros k t I. cbn in I. repeat (destruct I as [[= <- <-]|I]; [split; [reflexivity|]; cbn; repeat constructor; repeat eexists|]). destruct I.
    + intros k t I T. cbn in I. destruct I as [[= <- <-]|[[= <- <-]|[[= <- <-]|[[= <- <-]|[]]]]]; cbn [t_type alias] in T; try discriminate.
      * right. split; [discriminate|]. intros d I. cbn in I. repeat (destruct I as [<-|I]; [split; discriminate|]). destruct I.
      * left. eexists. split; [cbn; right; left; reflexivity|discriminate].
      * right. split; [discriminate|]. intros d I. cbn in I. repeat (destruct I as [<-|I]; [split; discriminate|]). destruct I.
  - eexists. split; [vm_compute; reflexivity|]. split; reflexivity.
Qed.
Print Assumptions C71_custom_partial.
