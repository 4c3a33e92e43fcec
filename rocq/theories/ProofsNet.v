(** Loading a file of definitions with versioned names in any order, on top of
    any registry that answers like [B]: lemmas behind C80. *)

From Verif Require Import GoBase ModelTools ModelVal ModelRegistry ModelDecode ModelEncode ModelRegister ModelBaseTypes ProofsNames ProofsApi ProofsPortReg ProofsMeta ProofsLoad.
From Coq Require Import Permutation.

(** ** Versioned names *)
Definition version_of (k : string) : option (string * (Z * Z)) :=
  match split_char "#"%char k with [name; v] => Some (name, version_range v) | _ => None end.
Lemma version_none k : version_of k = None <-> no_version k = true.
Proof. unfold version_of, no_version. destruct (split_char "#"%char k) as [|? [|? [|]]]; split; intros; congruence. Qed.
Definition add_range (name : string) (x : Z * Z * codec) (r : reg) : reg :=
  with_special (fun m => upd name (match assoc name m with Some l => l ++ [x] | None => [x] end)%list m) r.
Lemma version_key k c r name lo hi : version_of k = Some (name, (lo, hi)) -> regCustomKey k c r = add_range name (lo, hi, c) r.
Proof.
  unfold version_of, regCustomKey, add_range. destruct (split_char "#"%char k) as [|n [|v [|]]]; try discriminate. intros H. injection H as -> H. rewrite H. reflexivity.
Qed.
Definition register_at (o : option codec) (k : string) (r : reg) : reg :=
  match o with
  | Some c => match version_of k with Some (name, (lo, hi)) => add_range name (lo, hi, c) r | None => with_types (upd k c) r end
  | None => r
  end.
Lemma key_at k c r : regCustomKey k c r = register_at (Some c) k r.
Proof. cbn [register_at]. destruct (version_of k) as [[name [lo hi]]|] eqn:V; [now apply version_key|]. apply plain_key. now apply version_none. Qed.
Lemma shape_reg_at k ts r :
  reg_shape k ts r = match shape_of ts with Ok o => Ok (register_at o k r) | Panic m => Panic m | OutOfFuel => OutOfFuel end.
Proof.
  unfold shape_of, reg_shape. destruct (first_char ts) as [a|]; [|reflexivity]. destruct (last_char ts) as [z|]; [|reflexivity].
  match goal with |- context [match ?g with Some c => Ok (regCustomKey k c r) | None => _ end] => destruct g as [c|] end.
  - rewrite key_at. reflexivity.
  - destruct (negb (String.eqb ts "()") && Ascii.eqb a "(" && Ascii.eqb z ")"); [rewrite key_at; reflexivity|].
    destruct (negb (String.eqb ts "[]") && Ascii.eqb a "[" && Ascii.eqb z "]"); [|reflexivity].
    destruct (split_char ";"%char (strip_ends ts)) as [|t [|n [|]]]; [reflexivity|reflexivity| |reflexivity]. rewrite key_at. reflexivity.
Qed.
Lemma plain_reg_at k t r :
  reg_plain k t r = match plain_of t with Ok o => Ok (register_at o k r) | Panic m => Panic m | OutOfFuel => OutOfFuel end.
Proof.
  unfold plain_of, reg_plain. destruct (String.eqb (t_type t) "struct"); [destruct (mapping_rows (t_mapping t)); cbn [bind]; [rewrite key_at|..]; reflexivity|].
  destruct (String.eqb (t_type t) "enum"); [destruct (mapping_rows (t_mapping t)); cbn [bind]; [rewrite key_at|..]; reflexivity|].
  destruct (String.eqb (t_type t) "set"); [rewrite key_at; reflexivity|reflexivity].
Qed.

(** ** The check *)
Section Net.
Variable defs : list (string * tstruct).
Variable B : reg.
(** The values of the plain keys and of the versioned keys, in lower case. *)
Variable F V : list (string * codec).
Variable depth : nat.
Notation look := (look B F).
Notation after := (after B F).
Definition value_of (k : string) : option codec := match version_of k with Some _ => assoc k V | None => assoc k F end.
Definition check_net (k : string) : bool :=
  let c := value_of (to_lower k) in
  match finals defs depth k with
  | Some ts => forallb (fun t => negb (t_v14 t) && if String.eqb (t_type t) "string" then check_string defs B F depth c (ConvertType (t_string t)) else is_ok (plain_of t) c) ts
  | None => false
  end.
(** The ranges the versioned keys [ks] add to [name]. *)
Definition ranges_of (name : string) (ks : list string) : list (Z * Z * codec) :=
  flat_map (fun k => match version_of (to_lower k) with
                     | Some (n, (lo, hi)) => if String.eqb n name then match assoc (to_lower k) V with Some c => [(lo, hi, c)] | None => [] end else []
                     | None => [] end) ks.
(** Ranges that meet say the same. *)
Definition agree (a b : Z * Z * codec) : bool :=
  let '(l1, h1, c1) := a in let '(l2, h2, c2) := b in (h1 <? l2) || (h2 <? l1) || same_codec (Some c1) (Some c2).
Definition coherent (l : list (Z * Z * codec)) : bool := forallb (fun a => forallb (agree a) l) l.
Definition names_of (ks : list string) : list string := flat_map (fun k => match version_of (to_lower k) with Some (n, _) => [n] | None => [] end) ks.
Definition net_loads : bool :=
  let ks := map fst defs in
  forallb check_net ks && forallb (fun p => existsb (String.eqb (fst p)) (map to_lower ks)) F &&
  forallb (fun p => match version_of (fst p) with None => true | Some _ => false end) F &&
  forallb (fun n => coherent (ranges_of n ks)) (names_of ks).

Hypothesis OK : net_loads = true.
Variable all : list (string * tstruct).
Hypothesis ALL : forall k, match assoc k defs with Some _ => exists t, assoc k all = Some t /\ final defs k t | None => assoc k all = None end.

Lemma net_parts : forallb check_net (map fst defs) = true /\ forallb (fun p => existsb (String.eqb (fst p)) (map to_lower (map fst defs))) F = true /\
  forallb (fun p => match version_of (@fst string codec p) with None => true | Some _ => false end) F = true /\ forallb (fun n => coherent (ranges_of n (map fst defs))) (names_of (map fst defs)) = true.
Proof. pose proof OK as H. unfold net_loads in H. cbv zeta in H. apply andb_prop in H. destruct H as [H ?]. apply andb_prop in H. destruct H as [H ?]. apply andb_prop in H. tauto. Qed.
Lemma net_entry k : In k (map fst defs) -> check_net k = true.
Proof. intros I. destruct net_parts as (A & _). exact (proj1 (forallb_forall _ _) A k I). Qed.
Lemma F_plain q c : assoc q F = Some c -> version_of q = None.
Proof.
  intros H. destruct net_parts as (_ & _ & A & _). apply assoc_in in H. assert (X := proj1 (forallb_forall _ _) A _ H). cbn [fst] in X. destruct (version_of q); [discriminate|reflexivity].
Qed.

Definition listed (l : option (list (Z * Z * codec))) (m : list (Z * Z * codec)) : Prop :=
  match l with Some l => Permutation l m | None => m = [] end.
Definition net_ok (visited : list string) (r : reg) : Prop :=
  r_v14 r = r_v14 B /\
  (forall name, listed (assoc name (r_special r)) (ranges_of name visited)) /\
  forall q, (exists k, In k visited /\ to_lower k = q) /\ assoc q (r_types r) = after q \/
            ~ (exists k, In k visited /\ to_lower k = q) /\ assoc q (r_types r) = assoc q (r_types B).
Lemma net_look visited r q : net_ok visited r -> In (assoc q (r_types r)) (look q).
Proof. intros (_ & _ & H). destruct (H q) as [[_ E]|[_ E]]; rewrite E; [right; now left|now left]. Qed.

Lemma ranges_cons name k ks : ranges_of name (k :: ks) =
  ((match version_of (to_lower k) with
   | Some (n, (lo, hi)) => if String.eqb n name then match assoc (to_lower k) V with Some c => [(lo, hi, c)] | None => [] end else []
   | None => [] end) ++ ranges_of name ks)%list.
Proof. reflexivity. Qed.
Lemma net_register visited r k c : net_ok visited r -> value_of (to_lower k) = c -> net_ok (k :: visited) (register_at c (to_lower k) r).
Proof.
  intros (S1 & S2 & S3) Fk. unfold value_of in Fk.
  (* a key that registers no plain type *)
  assert (keep : forall r', r_types r' = r_types r -> (version_of (to_lower k) <> None \/ assoc (to_lower k) F = None) ->
    forall q, (exists k', In k' (k :: visited) /\ to_lower k' = q) /\ assoc q (r_types r') = after q \/
              ~ (exists k', In k' (k :: visited) /\ to_lower k' = q) /\ assoc q (r_types r') = assoc q (r_types B)).
  { intros r' -> N q. destruct (S3 q) as [[(k' & I' & L) E]|[NV E]].
    - left. split; [exists k'; split; [now right|exact L]|exact E].
    - destruct (string_dec (to_lower k) q) as [<-|D].
      + left. split; [exists k; split; [now left|reflexivity]|]. unfold ProofsLoad.after.
        destruct (assoc (to_lower k) F) as [c'|] eqn:A; [|exact E]. destruct N as [N|N]; [|discriminate]. exfalso. apply N. exact (F_plain _ _ A).
      + right. split; [|exact E]. intros (k' & [->|I'] & L); [congruence|]. apply NV. now exists k'. }
  destruct (version_of (to_lower k)) as [[n [lo hi]]|] eqn:Vk.
  - destruct c as [c|].
    + cbn [register_at]. rewrite Vk. split; [exact S1|]. split.
      * intros name. rewrite ranges_cons, Vk, Fk. unfold add_range, with_special. cbn [r_special]. rewrite assoc_upd. rewrite String.eqb_sym.
        specialize (S2 name). destruct (String.eqb_spec n name) as [->|D]; [|exact S2].
        cbn [listed]. destruct (assoc name (r_special r)) as [l|]; cbn [listed] in S2.
        -- rewrite S2. rewrite Permutation_app_comm. reflexivity.
        -- rewrite S2. reflexivity.
      * apply keep; [reflexivity|]. left. discriminate.
    + cbn [register_at]. split; [exact S1|]. split; [|apply keep; [reflexivity|left; discriminate]].
      intros name. rewrite ranges_cons, Vk, Fk. specialize (S2 name). now destruct (String.eqb n name).
  - assert (SP : forall name, listed (assoc name (r_special r)) (ranges_of name (k :: visited))) by (intros name; rewrite ranges_cons, Vk; exact (S2 name)).
    destruct c as [c|]; cbn [register_at]; [rewrite Vk|].
    + split; [exact S1|]. split; [exact SP|]. intros q. cbn [with_types r_types]. rewrite assoc_upd.
      destruct (String.eqb_spec q (to_lower k)) as [->|D].
      * left. split; [exists k; split; [now left|reflexivity]|]. unfold ProofsLoad.after. now rewrite Fk.
      * destruct (S3 q) as [[(k' & I' & L) E]|[NV E]].
        -- left. split; [exists k'; split; [now right|exact L]|exact E].
        -- right. split; [|exact E]. intros (k' & [->|I'] & L); [congruence|]. apply NV. now exists k'.
    + split; [exact S1|]. split; [exact SP|]. apply keep; [reflexivity|now right].
Qed.

Lemma net_string visited r k t c : net_ok visited r -> value_of (to_lower k) = c ->
  check_string defs B F depth c (ConvertType (t_string t)) = true ->
  exists r', reg_string 0 all (to_lower k) t r = Ok r' /\ net_ok (k :: visited) r'.
Proof.
  intros St Fk C. assert (DONE := net_register visited r k c St Fk).
  enough (Q : reg_string 0 all (to_lower k) t r = Ok (register_at c (to_lower k) r)) by (eexists; split; [exact Q|exact DONE]).
  unfold reg_string, check_string in *. set (ts := ConvertType (t_string t)) in *. clearbody ts.
  rewrite forallb_forall in C. specialize (C _ (net_look visited r (to_lower ts) St)).
  assert (found : forall c1, same_codec (Some c1) c = true -> Ok (regCustomKey (to_lower k) c1 r) = Ok (register_at c (to_lower k) r)).
  { intros c1 H. apply same_codec_eq in H. rewrite <- H. now rewrite key_at. }
  destruct (assoc (to_lower ts) (r_types r)) as [c1|]; [now apply found|].
  assert (shp : is_ok (shape_of ts) c = true -> reg_shape (to_lower k) ts r = Ok (register_at c (to_lower k) r)).
  { intros H. rewrite shape_reg_at. destruct (shape_of ts) as [c'| |]; try discriminate. cbn [is_ok] in H. apply same_codec_eq in H. now rewrite H. }
  destruct (finals defs depth ts) as [xs|] eqn:E; [|discriminate]. specialize (ALL ts).
  destruct (assoc ts defs) as [v|] eqn:Ev.
  - destruct ALL as (x & Ax & Fx). rewrite Ax. assert (I := finals_all _ _ _ _ _ E Fx). destruct xs as [|x0 xs]; [destruct I|].
    rewrite forallb_forall in C. specialize (C x I). destruct (String.eqb_spec (t_type x) "string") as [Tx|Tx].
    + rewrite forallb_forall in C. specialize (C _ (net_look visited r (to_lower (t_string x)) St)).
      destruct (assoc (to_lower (t_string x)) (r_types r)) as [c2|]; [now apply found|now apply shp].
    + apply andb_prop in C. destruct C as [C C3]. apply andb_prop in C. destruct C as [C1 C2].
      unfold v14_step. apply negb_true_iff in C1. rewrite C1. cbn [bind].
      rewrite to_lower_idem, plain_reg_at. destruct (plain_of x) as [c'| |]; try discriminate. cbn [is_ok] in C3. apply same_codec_eq in C3. rewrite C3.
      cbn [bind]. rewrite shape_reg_at. destruct (shape_of ts) as [[|]| |]; try discriminate. reflexivity.
  - rewrite ALL. destruct xs as [|x0 xs]; [now apply shp|].
    exfalso. destruct depth as [|n]; [discriminate|]. cbn [finals] in E. rewrite Ev in E. discriminate.
Qed.

Lemma net_step visited r k t : net_ok visited r -> assoc k all = Some t -> In k (map fst defs) ->
  forall rest, exists r', reg_loop 0 all ((k, t) :: rest) r = reg_loop 0 all rest r' /\ net_ok (k :: visited) r'.
Proof.
  intros St A I rest. assert (C := net_entry k I). unfold check_net in C. cbv zeta in C.
  destruct (finals defs depth k) as [ts|] eqn:E; [|discriminate]. rewrite forallb_forall in C.
  assert (Ft : final defs k t).
  { specialize (ALL k). destruct (assoc_in_some _ _ I) as [v Ev]. rewrite Ev in ALL. destruct ALL as (t' & A' & Ft). congruence. }
  specialize (C t (finals_all _ _ _ _ _ E Ft)). apply andb_prop in C. destruct C as [C1 C2]. apply negb_true_iff in C1.
  cbn [reg_loop]. unfold v14_step. rewrite C1. cbn [bind]. destruct (String.eqb_spec (t_type t) "string") as [T|T].
  - destruct (net_string visited r k t _ St eq_refl C2) as (r' & -> & S'). exists r'. now split.
  - rewrite plain_reg_at. destruct (plain_of t) as [c'| |]; try discriminate. cbn [is_ok] in C2. apply same_codec_eq in C2.
    cbn [bind]. eexists. split; [reflexivity|]. apply net_register; [exact St|now symmetry].
Qed.
Lemma net_entries : forall order visited r, (forall k, In k order -> In k (map fst defs)) -> net_ok visited r ->
  exists r', reg_loop 0 all (entries order all) r = Ok r' /\ net_ok (rev order ++ visited)%list r'.
Proof.
  induction order as [|k order IH]; intros visited r I St; [now exists r|].
  assert (Ik := I k (or_introl eq_refl)). assert (H := ALL k). destruct (assoc_in_some _ _ Ik) as [v Ev]. rewrite Ev in H. destruct H as (t & A & _).
  assert (E : entries (k :: order) all = (k, t) :: entries order all) by (unfold entries; cbn [flat_map]; now rewrite A).
  rewrite E. destruct (net_step visited r k t St A Ik (entries order all)) as (r' & -> & St').
  destruct (IH (k :: visited) r' ltac:(intros q Q; apply I; now right) St') as (r2 & R2 & S2).
  exists r2. split; [exact R2|]. cbn [rev]. now rewrite <- app_assoc.
Qed.
End Net.

(** ** Answers *)
Definition answers (types : string -> option codec) (special : string -> Z -> option codec) (r : reg) : Prop :=
  (forall q, assoc q (r_types r) = types q) /\ (forall t spec, specialVersionCodec (reg_env r) t spec = special t spec).

Lemma in_range_in l spec c : in_range l spec = Some c -> exists lo hi, In (lo, hi, c) l /\ lo <= spec <= hi.
Proof.
  induction l as [|[[lo hi] c'] l IH]; [discriminate|]. cbn [in_range]. destruct ((lo <=? spec) && (spec <=? hi)) eqn:R.
  - intros [= <-]. exists lo, hi. split; [now left|]. lia.
  - intros H. destruct (IH H) as (lo' & hi' & I & J). exists lo', hi'. split; [now right|exact J].
Qed.
Lemma in_range_none l spec : in_range l spec = None -> forall lo hi c, In (lo, hi, c) l -> ~ lo <= spec <= hi.
Proof.
  induction l as [|[[lo hi] c'] l IH]; [intros _ ? ? ? []|]. cbn [in_range]. destruct ((lo <=? spec) && (spec <=? hi)) eqn:R; [discriminate|].
  intros H lo' hi' c [E|I]; [injection E as <- <- <-; lia|now apply IH with (1 := H) in I].
Qed.
Lemma in_range_perm l m spec : Permutation l m -> coherent m = true -> in_range l spec = in_range m spec.
Proof.
  intros P C. destruct (in_range l spec) as [c|] eqn:L.
  - apply in_range_in in L. destruct L as (lo & hi & I & J). apply (Permutation_in _ P) in I.
    destruct (in_range m spec) as [c'|] eqn:M.
    + apply in_range_in in M. destruct M as (lo' & hi' & I' & J'). unfold coherent in C. rewrite forallb_forall in C. specialize (C _ I). rewrite forallb_forall in C. specialize (C _ I').
      cbn [agree] in C. apply orb_prop in C. destruct C as [C|C]; [lia|]. apply same_codec_eq in C. exact C.
    + exfalso. exact (in_range_none _ _ M _ _ _ I J).
  - destruct (in_range m spec) as [c'|] eqn:M; [|reflexivity]. exfalso. apply in_range_in in M. destruct M as (lo & hi & I & J).
    exact (in_range_none _ _ L _ _ _ (Permutation_in _ (Permutation_sym P) I) J).
Qed.

Definition net_types (B : reg) (F : list (string * codec)) (q : string) : option codec := match assoc q F with Some c => Some c | None => assoc q (r_types B) end.
Definition net_special (defs : list (string * tstruct)) (V : list (string * codec)) (t : string) (spec : Z) : option codec := in_range (ranges_of V t (map fst defs)) spec.

Lemma ranges_names V name ks : ranges_of V name ks <> [] -> In name (names_of ks).
Proof.
  unfold ranges_of, names_of. intros H. destruct (flat_map _ ks) as [|x l] eqn:E in H; [congruence|]. 
  assert (I : In x (x :: l)) by now left. rewrite <- E in I. apply in_flat_map in I. destruct I as (k & Ik & I). apply in_flat_map. exists k. split; [exact Ik|].
  destruct (version_of (to_lower k)) as [[n [lo hi]]|]; [|destruct I]. destruct (String.eqb_spec n name) as [->|]; [now left|destruct I].
Qed.
Theorem net_any_order defs B F V depth : NoDup (map fst defs) -> net_loads defs B F V depth = true ->
  forall r0 o1 o2, (forall q, assoc q (r_types r0) = assoc q (r_types B)) -> r_special r0 = [] -> r_v14 r0 = r_v14 B ->
  Permutation o1 (map fst defs) -> Permutation o2 (map fst defs) ->
  exists r, load_definitions defs o1 o2 r0 = Ok r /\ answers (net_types B F) (net_special defs V) r /\ r_v14 r = r_v14 B.
Proof.
  intros ND OK r0 o1 o2 T0 S0 V0 P1 P2. unfold load_definitions. assert (ALL := loaded defs o1 P1 ND).
  destruct (net_entries defs B F V depth OK (LoadTypeRegistry o1 defs) ALL o2 [] r0) as (r & R & S1 & S2 & S3).
  - intros k I. eapply Permutation_in; [exact P2|exact I].
  - split; [exact V0|]. split; [intros name; rewrite S0; reflexivity|]. intros q. right. split; [|apply T0]. intros (k & [] & _).
  - exists r. split; [exact R|]. split; [|exact S1]. rewrite app_nil_r in S2, S3. destruct (net_parts _ _ _ _ _ OK) as (_ & KF & _ & CO). split.
    + intros q. destruct (S3 q) as [[_ E]|[N E]]; [exact E|]. rewrite E. unfold net_types. destruct (assoc q F) as [c|] eqn:Fq; [|reflexivity]. exfalso. apply N.
      apply assoc_in in Fq. assert (X := proj1 (forallb_forall _ _) KF _ Fq). cbn [fst] in X. apply existsb_exists in X. destruct X as (q0 & I & L). apply String.eqb_eq in L. subst q0.
      apply in_map_iff in I. destruct I as (k & L & I). exists k. split; [|exact L]. rewrite <- in_rev. eapply Permutation_in; [symmetry; exact P2|exact I].
    + intros t spec. specialize (S2 t). unfold specialVersionCodec, net_special. cbn [reg_env e_special].
      assert (PR : Permutation (ranges_of V t (rev o2)) (ranges_of V t (map fst defs))).
      { unfold ranges_of. apply Permutation_flat_map. rewrite <- (Permutation_rev o2). exact P2. }
      assert (CT : coherent (ranges_of V t (map fst defs)) = true).
      { destruct (ranges_of V t (map fst defs)) as [|x l] eqn:E; [reflexivity|]. rewrite <- E. apply (proj1 (forallb_forall _ _) CO). apply (ranges_names V). rewrite E. discriminate. }
      destruct (assoc t (r_special r)) as [l|]; cbn [listed] in S2.
      * apply in_range_perm; [|exact CT]. eapply perm_trans; [exact S2|exact PR].
      * rewrite S2 in PR. apply Permutation_nil in PR. rewrite PR. reflexivity.
Qed.

(** ** Decoding and encoding only ask the registry *)
Definition env_of (r : reg) (like : env) : env := Env (r_types r) (r_special r) (e_json like) (e_keccak like) (e_box like).
Definition alike (r s : reg) : Prop :=
  (forall q, assoc q (r_types r) = assoc q (r_types s)) /\ (forall t spec, specialVersionCodec (reg_env r) t spec = specialVersionCodec (reg_env s) t spec).
Lemma answers_alike t sp r s : answers t sp r -> answers t sp s -> alike r s.
Proof. intros [A1 A2] [B1 B2]. split; [intros q; now rewrite A1, B1|intros n v; now rewrite A2, B2]. Qed.

Section Alike.
Variables r s : reg.
Variable like : env.
Hypothesis AL : alike r s.
Notation E := (env_of r like).
Notation E' := (env_of s like).
Lemma alike_instant m t spec : getCodecInstant E m t spec = getCodecInstant E' m t spec.
Proof.
  destruct AL as [A1 A2]. unfold getCodecInstant. cbv zeta.
  replace (specialVersionCodec E (ModuleType (to_lower t) m) spec) with (specialVersionCodec E' (ModuleType (to_lower t) m) spec) by (symmetry; apply A2).
  destruct (specialVersionCodec E' _ _); [reflexivity|]. cbn [env_of e_reg]. rewrite A1. reflexivity.
Qed.
Lemma alike_class_fuel : forall f m t spec, GetCodecClass_fuel f E m t spec = GetCodecClass_fuel f E' m t spec.
Proof.
  induction f as [|f IH]; intros m t spec; cbn [GetCodecClass_fuel]; cbv zeta; destruct (last_char (ConvertType t)) as [z|]; try reflexivity; rewrite !alike_instant.
  all: match goal with |- bind ?e _ = bind ?e _ => destruct e as [[c|]|x|]; cbn [bind]; try reflexivity end.
  all: match goal with |- bind (match ?p with _ => _ end) _ = _ => destruct p as [[n sub]|]; rewrite ?alike_instant end.
  all: match goal with |- bind ?e _ = bind ?e _ => destruct e as [[c|]|x|]; cbn [bind]; try reflexivity end.
  all: try (destruct (negb _ && _ && _); [reflexivity|]); try (destruct (contains _ _ && _); [|reflexivity]); try reflexivity; apply IH.
Qed.
Lemma alike_class m t spec : GetCodecClass E m t spec = GetCodecClass E' m t spec.
Proof. apply alike_class_fuel. Qed.
Lemma run_same (d d' : decoder) : (forall c b o t, d c b o t = d' c b o t) -> forall p start data off calls, run d start p data off calls = run d' start p data off calls.
Proof.
  intros H. induction p as [v|m|n k IH|c ts k IH|b c keep ts k IH|k IH|k IH]; intros start data off calls; cbn [run]; try reflexivity.
  - destruct (next_bytes data off (i64 n)) as [[b o]| |]; cbn [bind]; [apply IH|reflexivity|reflexivity].
  - rewrite H. destruct (d' c data off ts) as [[[v o] cs]| |]; cbn [bind]; [apply IH|reflexivity|reflexivity].
  - rewrite H. destruct (d' c b 0 ts) as [[[v o] cs]| |]; cbn [bind]; [apply IH|reflexivity|reflexivity].
  - apply IH.
  - destruct (slice data start off); cbn [bind]; [apply IH|reflexivity|reflexivity].
Qed.
Lemma alike_decode : forall f c data off t, decode f E c data off t = decode f E' c data off t.
Proof.
  induction f as [|f IH]; intros c data off t; [reflexivity|]. cbn [decode]. rewrite alike_class.
  destruct (GetCodecClass E' (x_module c) t (x_spec c)) as [[[cd sub]|]| |]; cbn [bind]; try reflexivity. apply run_same. exact IH.
Qed.
Lemma alike_value_list v : forall vl i, value_list_index E v i vl = value_list_index E' v i vl.
Proof. induction vl as [|x vl IH]; intros i; cbn [value_list_index]; [reflexivity|]. rewrite IH. reflexivity. Qed.
Lemma alike_c_like v : forall tm, c_like_index E v tm = c_like_index E' v tm.
Proof. induction tm as [|[n t] tm IH]; cbn [c_like_index]; [reflexivity|]. rewrite IH. reflexivity. Qed.
Lemma alike_codec rec spec meta cd v : encode_codec E rec spec meta cd v = encode_codec E' rec spec meta cd v.
Proof. destruct cd; try reflexivity; cbn [encode_codec]; unfold encode_enum; rewrite alike_value_list; try (destruct tm as [tm|]; [rewrite alike_c_like|]); reflexivity. Qed.
Lemma alike_encode : forall f spec meta t v, encode f E spec meta t v = encode f E' spec meta t v.
Proof.
  induction f as [|f IH]; intros spec meta t v; [reflexivity|]. cbn [encode]. destruct (equal_fold t "Null"); [reflexivity|]. rewrite alike_class.
  destruct (GetCodecClass E' "" t spec) as [[[cd sub]|]| |]; cbn [bind]; try reflexivity.
  assert (L1 : le_enc (encode f E) (encode f E')) by (intros a b x y; right; apply IH).
  assert (L2 : le_enc (encode f E') (encode f E)) by (intros a b x y; right; symmetry; apply IH).
  set (w := match v with VNil => VStr "" | _ => v end). clearbody w.
  rewrite <- (alike_codec (encode f E')).
  destruct (encode_codec_mono (encode f E) (encode f E') L1 E spec meta (init_sub cd sub) w) as [O1|Q]; [|now rewrite Q].
  destruct (encode_codec_mono (encode f E') (encode f E) L2 E spec meta (init_sub cd sub) w) as [O2|Q]; [now rewrite O1, O2|now rewrite Q].
Qed.
End Alike.
