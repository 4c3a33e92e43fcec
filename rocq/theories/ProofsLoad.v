(** Loading definitions in any order: lemmas behind C70.  [loads] checks a list
    of definitions; if it accepts, the registry does not depend on the order. *)

From Verif Require Import GoBase ModelTools ModelVal ModelRegistry ModelDecode ModelRegister ModelBaseTypes ProofsNames ProofsPortReg.
From Coq Require Import Permutation.

Definition codec_eq_dec (a b : codec) : {a = b} + {a <> b}.
Proof.
  assert (L : forall x y : list string, {x = y} + {x <> y}) by (apply list_eq_dec, string_dec).
  assert (M : forall x y : option typemap, {x = y} + {x <> y}).
  { decide equality. apply list_eq_dec. decide equality; apply string_dec. }
  decide equality; try apply string_dec; try apply L; try apply M; apply Z.eq_dec.
Defined.
Definition same_codec (a b : option codec) : bool :=
  match a, b with
  | Some a, Some b => if codec_eq_dec a b then true else false
  | None, None => true
  | _, _ => false
  end.
Lemma same_codec_eq a b : same_codec a b = true -> a = b.
Proof. destruct a as [a|], b as [b|]; cbn [same_codec]; try discriminate; [|reflexivity]. destruct (codec_eq_dec a b); [congruence|discriminate]. Qed.

Lemma assoc_map_set {A} k k' (a : A) m : assoc k (map_set k' a m) = if String.eqb k k' then Some a else assoc k m.
Proof.
  induction m as [|[k1 a1] m IH]; [reflexivity|]. cbn [map_set]. destruct (String.eqb_spec k' k1) as [->|N]; cbn [assoc].
  - now destruct (String.eqb k k1).
  - rewrite IH. destruct (String.eqb_spec k k1) as [->|]; [|reflexivity]. destruct (String.eqb_spec k1 k'); [congruence|reflexivity].
Qed.
Lemma assoc_some_in {A} k (a : A) m : assoc k m = Some a -> In k (map fst m).
Proof. induction m as [|[k1 a1] m IH]; [discriminate|]. cbn [assoc map fst]. destruct (String.eqb_spec k k1); [now left|right; auto]. Qed.
Lemma assoc_in_some {A} k (m : list (string * A)) : In k (map fst m) -> exists a, assoc k m = Some a.
Proof. induction m as [|[k1 a1] m IH]; [intros []|]. cbn [assoc map fst]. destruct (String.eqb_spec k k1); [eauto|]. intros [E|I]; [congruence|auto]. Qed.

(** ** The inheritance pass *)
Section Inherit.
Variable defs : list (string * tstruct).
(** What an entry may be once visited. *)
Inductive final : string -> tstruct -> Prop :=
| fin_plain k v : assoc k defs = Some v -> t_type v <> "string" -> final k v
| fin_free k v : assoc k defs = Some v -> t_type v = "string" -> assoc (t_string v) defs = None -> final k v
| fin_orig k v x : assoc k defs = Some v -> t_type v = "string" -> assoc (t_string v) defs = Some x -> final k x
| fin_later k v x y : assoc k defs = Some v -> t_type v = "string" -> assoc (t_string v) defs = Some x -> final (t_string v) y -> final k y.

Definition pass_inv (visited : string -> Prop) (m : list (string * tstruct)) : Prop :=
  (forall k, visited k -> match assoc k defs with Some _ => exists t, assoc k m = Some t /\ final k t | None => assoc k m = None end) /\
  (forall k, ~ visited k -> assoc k m = assoc k defs).
Lemma inherit_inv (visited : string -> Prop) m k (V : forall q, visited q \/ ~ visited q) :
  pass_inv visited m -> ~ visited k -> pass_inv (fun q => q = k \/ visited q) (inherit_step k m).
Proof.
  intros [P1 P2] NV.
  assert (same_keys : forall q, assoc q m = None <-> assoc q defs = None).
  { intros q. destruct (V q) as [Y|N].
    - specialize (P1 q Y). destruct (assoc q defs).
      + destruct P1 as (t' & E & _). rewrite E. split; discriminate.
      + now rewrite P1.
    - now rewrite P2. }
  assert (step : match assoc k defs with
                 | None => inherit_step k m = m
                 | Some v => exists t, final k t /\ (forall q, assoc q (inherit_step k m) = if String.eqb q k then Some t else assoc q m) end).
  { unfold inherit_step. rewrite (P2 k NV). destruct (assoc k defs) as [v|] eqn:Ev; [|reflexivity].
    assert (stay : forall q, assoc q m = if String.eqb q k then Some v else assoc q m).
    { intros q. destruct (String.eqb_spec q k) as [->|]; [|reflexivity]. now rewrite P2. }
    destruct (String.eqb_spec (t_type v) "string") as [T|T]; [|exists v; split; [now apply fin_plain|exact stay]].
    destruct (assoc (t_string v) m) as [x|] eqn:Ex.
    - exists x. split; [|intros q; apply assoc_map_set].
      destruct (V (t_string v)) as [Y|N].
      + specialize (P1 _ Y). destruct (assoc (t_string v) defs) as [x0|] eqn:E0; [|congruence].
        destruct P1 as (t0 & E & Ft). replace x with t0 by congruence. eapply fin_later; eauto.
      + rewrite (P2 _ N) in Ex. eapply fin_orig; eauto.
    - exists v. split; [|exact stay]. apply (proj1 (same_keys _)) in Ex. now apply fin_free. }
  split.
  - intros q [->|Y].
    + destruct (assoc k defs) as [v|] eqn:Ev.
      * destruct step as (t & Ft & A). exists t. split; [|exact Ft]. now rewrite A, String.eqb_refl.
      * rewrite step. now rewrite P2.
    + specialize (P1 q Y). assert (q <> k) by (intros ->; contradiction).
      assert (S : assoc q (inherit_step k m) = assoc q m).
      { destruct (assoc k defs); [destruct step as (t0 & _ & A); rewrite A; now destruct (String.eqb_spec q k)|now rewrite step]. }
      now rewrite S.
  - intros q N. assert (q <> k /\ ~ visited q) as [N1 N2] by tauto. rewrite <- (P2 q N2).
    destruct (assoc k defs); [destruct step as (t0 & _ & A); rewrite A; now destruct (String.eqb_spec q k)|now rewrite step].
Qed.
Lemma load_inv : forall order (visited : string -> Prop) m, (forall q, visited q \/ ~ visited q) -> NoDup order -> (forall k, In k order -> ~ visited k) ->
  pass_inv visited m -> pass_inv (fun q => visited q \/ In q order) (LoadTypeRegistry order m).
Proof.
  induction order as [|k order IH]; intros visited m V ND NV P.
  - cbn [LoadTypeRegistry fold_left]. destruct P as [P1 P2]. split; [intros q [Y|[]]; exact (P1 q Y)|intros q N; apply P2; tauto].
  - apply NoDup_cons_iff in ND. destruct ND as [NI ND].
    assert (Q := IH (fun q => q = k \/ visited q) (inherit_step k m)). cbn [LoadTypeRegistry fold_left] in *.
    assert (R : pass_inv (fun q => (q = k \/ visited q) \/ In q order) (LoadTypeRegistry order (inherit_step k m))).
    { apply Q; [| exact ND | | ].
      - intros q. destruct (string_dec q k); [now left; left|]. destruct (V q); [now left; right|right; tauto].
      - intros q I [->|Y]; [contradiction|]. now apply (NV q (or_intror I)).
      - apply inherit_inv; [exact V|exact P|]. apply NV. now left. }
    destruct R as [R1 R2]. split; intros q H; [apply R1|apply R2]; cbn [In] in H; intuition.
Qed.
(** After the pass, every key has one of its possible values. *)
Lemma loaded order : Permutation order (map fst defs) -> NoDup (map fst defs) ->
  forall k, match assoc k defs with Some _ => exists t, assoc k (LoadTypeRegistry order defs) = Some t /\ final k t | None => assoc k (LoadTypeRegistry order defs) = None end.
Proof.
  intros P ND k. assert (NDo : NoDup order) by (eapply Permutation_NoDup; [symmetry; exact P|exact ND]).
  destruct (load_inv order (fun _ => False) defs ltac:(now right) NDo ltac:(tauto) ltac:(split; [intros q []|reflexivity])) as [R1 R2].
  destruct (in_dec string_dec k order) as [I|N]; [apply R1; now right|]. rewrite R2 by tauto.
  destruct (assoc k defs) eqn:E; [|reflexivity]. apply assoc_some_in in E. contradict N. eapply Permutation_in; [symmetry; exact P|exact E].
Qed.

(** The possible values, listed. *)
Fixpoint finals (n : nat) (k : string) : option (list tstruct) :=
  match n with
  | O => None
  | S n =>
      match assoc k defs with
      | None => Some []
      | Some v =>
          if String.eqb (t_type v) "string" then
            match assoc (t_string v) defs with
            | None => Some [v]
            | Some x => match finals n (t_string v) with Some l => Some (x :: l) | None => None end
            end
          else Some [v]
      end
  end.
Lemma finals_all : forall n k l t, finals n k = Some l -> final k t -> In t l.
Proof.
  induction n as [|n IH]; intros k l t E Ft; [discriminate|]. cbn [finals] in E.
  destruct Ft as [k v A T|k v A T B|k v x A T B|k v x y A T B Fy]; rewrite A in E.
  - destruct (String.eqb_spec (t_type v) "string"); [contradiction|]. injection E as <-. now left.
  - rewrite T, B in E. cbn in E. injection E as <-. now left.
  - rewrite T, B in E. cbn in E. destruct (finals n (t_string v)); [|discriminate]. injection E as <-. now left.
  - rewrite T, B in E. cbn in E. destruct (finals n (t_string v)) eqn:G; [|discriminate]. injection E as <-. right. eapply IH; eauto.
Qed.

(** ** Registration *)
Variable B : reg.
Variable F : list (string * codec).
Variable depth : nat.
(** The value of a key at the end. *)
Definition after (q : string) : option codec := match assoc q F with Some c => Some c | None => assoc q (r_types B) end.
(** What a lookup may find on the way. *)
Definition look (q : string) : list (option codec) := [assoc q (r_types B); after q].

(** The shape and plain cases without a registry. *)
Definition shape_of (ts : string) : res (option codec) :=
  match reg_shape "" ts (Reg [] [] []) with
  | Ok r => Ok (assoc "" (r_types r))
  | Panic m => Panic m
  | OutOfFuel => OutOfFuel
  end.
Definition plain_of (t : tstruct) : res (option codec) :=
  match reg_plain "" t (Reg [] [] []) with
  | Ok r => Ok (assoc "" (r_types r))
  | Panic m => Panic m
  | OutOfFuel => OutOfFuel
  end.
Definition is_ok (o : res (option codec)) (c : option codec) : bool := match o with Ok c' => same_codec c' c | _ => false end.
Definition check_string (c : option codec) (ts : string) : bool :=
  forallb (fun l1 => match l1 with
    | Some c1 => same_codec (Some c1) c
    | None =>
        match finals depth ts with
        | None => false
        | Some [] => is_ok (shape_of ts) c
        | Some xs =>
            forallb (fun x =>
              if String.eqb (t_type x) "string" then
                forallb (fun l2 => match l2 with Some c2 => same_codec (Some c2) c | None => is_ok (shape_of ts) c end) (look (to_lower (t_string x)))
              else negb (t_v14 x) && match shape_of ts with Ok None => true | _ => false end && is_ok (plain_of x) c) xs
        end
    end) (look (to_lower ts)).
Definition no_version (k : string) : bool := match split_char "#"%char k with [_; _] => false | _ => true end.
Definition check_entry (k : string) : bool :=
  let c := assoc (to_lower k) F in
  match finals depth k with
  | Some ts =>
      no_version (to_lower k) &&
      forallb (fun t => negb (t_v14 t) && if String.eqb (t_type t) "string" then check_string c (ConvertType (t_string t)) else is_ok (plain_of t) c) ts
  | None => false
  end.
Definition loads : bool := forallb (fun p => check_entry (fst p)) defs && 
  let keys := map (fun d => to_lower (fst d)) defs in forallb (fun p => existsb (String.eqb (fst p)) keys) F.

(** Registering under a key without version. *)
Lemma plain_key k c r : no_version k = true -> regCustomKey k c r = with_types (upd k c) r.
Proof. unfold no_version, regCustomKey. destruct (split_char "#"%char k) as [|? [|? [|]]]; [reflexivity|reflexivity|discriminate|reflexivity]. Qed.
Definition register (o : option codec) k r := match o with Some c => with_types (upd k c) r | None => r end.
Lemma shape_reg k ts r : no_version k = true ->
  reg_shape k ts r = match shape_of ts with Ok o => Ok (register o k r) | Panic m => Panic m | OutOfFuel => OutOfFuel end.
Proof.
  intros N. unfold shape_of, reg_shape. destruct (first_char ts) as [a|]; [|reflexivity]. destruct (last_char ts) as [z|]; [|reflexivity].
  match goal with |- context [match ?g with Some c => Ok (regCustomKey k c r) | None => _ end] => destruct g as [c|] end.
  - rewrite plain_key by exact N. reflexivity.
  - destruct (negb (String.eqb ts "()") && Ascii.eqb a "(" && Ascii.eqb z ")"); [rewrite plain_key by exact N; reflexivity|].
    destruct (negb (String.eqb ts "[]") && Ascii.eqb a "[" && Ascii.eqb z "]"); [|reflexivity].
    destruct (split_char ";"%char (strip_ends ts)) as [|t [|n [|]]]; [reflexivity|reflexivity| |reflexivity]. rewrite plain_key by exact N. reflexivity.
Qed.
Lemma plain_reg k t r : no_version k = true ->
  reg_plain k t r = match plain_of t with Ok o => Ok (register o k r) | Panic m => Panic m | OutOfFuel => OutOfFuel end.
Proof.
  intros N. unfold plain_of, reg_plain. destruct (String.eqb (t_type t) "struct"); [destruct (mapping_rows (t_mapping t)); cbn [bind]; [rewrite plain_key by exact N|..]; reflexivity|].
  destruct (String.eqb (t_type t) "enum"); [destruct (mapping_rows (t_mapping t)); cbn [bind]; [rewrite plain_key by exact N|..]; reflexivity|].
  destruct (String.eqb (t_type t) "set"); [rewrite plain_key by exact N; reflexivity|reflexivity].
Qed.

Hypothesis ND : NoDup (map fst defs).
Hypothesis OK : loads = true.
Variable all : list (string * tstruct).
Hypothesis ALL : forall k, match assoc k defs with Some _ => exists t, assoc k all = Some t /\ final k t | None => assoc k all = None end.

Lemma entry_ok k : In k (map fst defs) -> check_entry k = true.
Proof.
  unfold loads in OK. apply andb_prop in OK. destruct OK as [A _]. rewrite forallb_forall in A. intros I. apply in_map_iff in I.
  destruct I as ([k' t] & <- & I). exact (A _ I).
Qed.

Definition state_ok (visited : list string) (r : reg) : Prop :=
  r_special r = r_special B /\ r_v14 r = r_v14 B /\
  forall q, (exists k, In k visited /\ to_lower k = q) /\ assoc q (r_types r) = after q \/
            ~ (exists k, In k visited /\ to_lower k = q) /\ assoc q (r_types r) = assoc q (r_types B).
Lemma state_look visited r q : state_ok visited r -> In (assoc q (r_types r)) (look q).
Proof. intros (_ & _ & H). destruct (H q) as [[_ E]|[_ E]]; rewrite E; [right; now left|now left]. Qed.

Lemma state_register visited r k c : state_ok visited r -> assoc (to_lower k) F = c -> state_ok (k :: visited) (register c (to_lower k) r).
Proof.
  intros (S1 & S2 & S3) Fk. destruct c as [c|]; cbn [register].
  2:{ split; [exact S1|]. split; [exact S2|]. intros q. destruct (S3 q) as [[(k' & I' & L) E]|[NV E]].
      - left. split; [exists k'; split; [now right|exact L]|exact E].
      - destruct (string_dec (to_lower k) q) as [<-|N].
        + left. split; [exists k; split; [now left|reflexivity]|]. unfold after. now rewrite Fk.
        + right. split; [|exact E]. intros (k' & [->|I'] & L); [congruence|]. apply NV. now exists k'. }
  split; [exact S1|]. split; [exact S2|]. intros q. cbn [with_types r_types]. rewrite assoc_upd.
  destruct (String.eqb_spec q (to_lower k)) as [->|N].
  - left. split; [exists k; split; [now left|reflexivity]|]. unfold after. now rewrite Fk.
  - destruct (S3 q) as [[(k' & I' & L) E]|[NV E]].
    + left. split; [exists k'; split; [now right|exact L]|exact E].
    + right. split; [|exact E]. intros (k' & [->|I'] & L); [congruence|]. apply NV. now exists k'.
Qed.

Lemma string_step visited r k t c : state_ok visited r -> no_version (to_lower k) = true -> assoc (to_lower k) F = c ->
  check_string c (ConvertType (t_string t)) = true ->
  exists r', reg_string 0 all (to_lower k) t r = Ok r' /\ state_ok (k :: visited) r'.
Proof.
  intros St N Fk C. assert (DONE := state_register visited r k c St Fk).
  enough (Q : reg_string 0 all (to_lower k) t r = Ok (register c (to_lower k) r)) by (eexists; split; [exact Q|exact DONE]).
  unfold reg_string, check_string in *. set (ts := ConvertType (t_string t)) in *. clearbody ts.
  rewrite forallb_forall in C. specialize (C _ (state_look visited r (to_lower ts) St)).
  assert (found : forall c1, same_codec (Some c1) c = true -> Ok (regCustomKey (to_lower k) c1 r) = Ok (register c (to_lower k) r)).
  { intros c1 H. apply same_codec_eq in H. rewrite <- H. now rewrite plain_key. }
  destruct (assoc (to_lower ts) (r_types r)) as [c1|]; [now apply found|].
  assert (shp : is_ok (shape_of ts) c = true -> reg_shape (to_lower k) ts r = Ok (register c (to_lower k) r)).
  { intros H. rewrite shape_reg by exact N. destruct (shape_of ts) as [c'| |]; try discriminate. cbn [is_ok] in H. apply same_codec_eq in H. now rewrite H. }
  destruct (finals depth ts) as [xs|] eqn:E; [|discriminate]. specialize (ALL ts).
  destruct (assoc ts defs) as [v|] eqn:Ev.
  - destruct ALL as (x & Ax & Fx). rewrite Ax. assert (I := finals_all _ _ _ _ E Fx). destruct xs as [|x0 xs]; [destruct I|].
    rewrite forallb_forall in C. specialize (C x I). destruct (String.eqb_spec (t_type x) "string") as [Tx|Tx].
    + rewrite forallb_forall in C. specialize (C _ (state_look visited r (to_lower (t_string x)) St)).
      destruct (assoc (to_lower (t_string x)) (r_types r)) as [c2|]; [now apply found|now apply shp].
    + apply andb_prop in C. destruct C as [C C3]. apply andb_prop in C. destruct C as [C1 C2].
      unfold v14_step. apply negb_true_iff in C1. rewrite C1. cbn [bind].
      rewrite to_lower_idem, plain_reg by exact N. destruct (plain_of x) as [c'| |]; try discriminate. cbn [is_ok] in C3. apply same_codec_eq in C3. rewrite C3.
      cbn [bind]. rewrite shape_reg by exact N. destruct (shape_of ts) as [[|]| |]; try discriminate. reflexivity.
  - rewrite ALL. destruct xs as [|x0 xs]; [now apply shp|].
    exfalso. destruct depth as [|n]; [discriminate|]. cbn [finals] in E. rewrite Ev in E. discriminate.
Qed.

Lemma entry_step visited r k t : state_ok visited r -> assoc k all = Some t -> In k (map fst defs) ->
  forall rest, exists r', reg_loop 0 all ((k, t) :: rest) r = reg_loop 0 all rest r' /\ state_ok (k :: visited) r'.
Proof.
  intros St A I rest. assert (C := entry_ok k I). unfold check_entry in C. cbv zeta in C.
  destruct (finals depth k) as [ts|] eqn:E; [|discriminate]. apply andb_prop in C. destruct C as [N C]. rewrite forallb_forall in C.
  assert (Ft : final k t).
  { specialize (ALL k). destruct (assoc_in_some _ _ I) as [v Ev]. rewrite Ev in ALL. destruct ALL as (t' & A' & Ft). congruence. }
  specialize (C t (finals_all _ _ _ _ E Ft)). apply andb_prop in C. destruct C as [C1 C2]. apply negb_true_iff in C1.
  cbn [reg_loop]. unfold v14_step. rewrite C1. cbn [bind]. destruct (String.eqb_spec (t_type t) "string") as [T|T].
  - destruct (string_step visited r k t _ St N eq_refl C2) as (r' & -> & S'). exists r'. now split.
  - rewrite plain_reg by exact N. destruct (plain_of t) as [c'| |]; try discriminate. cbn [is_ok] in C2. apply same_codec_eq in C2.
    cbn [bind]. eexists. split; [reflexivity|]. apply state_register; [exact St|now symmetry].
Qed.
Lemma entries_ok : forall order visited r, (forall k, In k order -> In k (map fst defs)) -> state_ok visited r ->
  exists r', reg_loop 0 all (entries order all) r = Ok r' /\ state_ok (rev order ++ visited)%list r'.
Proof.
  induction order as [|k order IH]; intros visited r I St; [now exists r|].
  assert (Ik := I k (or_introl eq_refl)). assert (H := ALL k). destruct (assoc_in_some _ _ Ik) as [v Ev]. rewrite Ev in H. destruct H as (t & A & _).
  assert (E : entries (k :: order) all = (k, t) :: entries order all) by (unfold entries; cbn [flat_map]; now rewrite A).
  rewrite E. destruct (entry_step visited r k t St A Ik (entries order all)) as (r' & -> & St').
  destruct (IH (k :: visited) r' ltac:(intros q Q; apply I; now right) St') as (r2 & R2 & S2).
  exists r2. split; [exact R2|]. cbn [rev]. now rewrite <- app_assoc.
Qed.
End Inherit.

Lemma loads_keys defs B F depth k c : loads defs B F depth = true -> assoc k F = Some c -> exists d, In d defs /\ to_lower (fst d) = k.
Proof.
  intros OK Fq. unfold loads in OK. apply andb_prop in OK. destruct OK as [_ K]. cbv zeta in K. rewrite forallb_forall in K. apply assoc_some_in in Fq. apply in_map_iff in Fq.
  destruct Fq as ([q' c'] & <- & Fq). specialize (K _ Fq). apply existsb_exists in K. destruct K as (q0 & Ik & L). apply String.eqb_eq in L. subst q0.
  apply in_map_iff in Ik. destruct Ik as (d & L & Ik). now exists d.
Qed.
Theorem any_order defs B F depth : NoDup (map fst defs) -> loads defs B F depth = true ->
  forall o1 o2, Permutation o1 (map fst defs) -> Permutation o2 (map fst defs) ->
  exists r, load_definitions defs o1 o2 B = Ok r /\ r_special r = r_special B /\ r_v14 r = r_v14 B /\
    forall q, assoc q (r_types r) = match assoc q F with Some c => Some c | None => assoc q (r_types B) end.
Proof.
  intros ND OK o1 o2 P1 P2. unfold load_definitions.
  assert (ALL := loaded defs o1 P1 ND).
  destruct (entries_ok defs B F depth OK (LoadTypeRegistry o1 defs) ALL o2 [] B) as (r & R & S1 & S2 & S3).
  - intros k I. eapply Permutation_in; [exact P2|exact I].
  - split; [reflexivity|]. split; [reflexivity|]. intros q. right. split; [|reflexivity]. intros (k & [] & _).
  - exists r. split; [exact R|]. split; [exact S1|]. split; [exact S2|]. intros q. destruct (S3 q) as [[_ E]|[N E]]; [exact E|].
    rewrite E. destruct (assoc q F) as [c|] eqn:Fq; [|reflexivity]. exfalso. apply N. rewrite app_nil_r.
    destruct (loads_keys _ _ _ _ _ _ OK Fq) as ([k t] & Ik & L). cbn [fst] in L.
    exists k. split; [|exact L]. rewrite <- in_rev. eapply Permutation_in; [symmetry; exact P2|]. now apply (in_map fst) in Ik.
Qed.
