(** Metadata read in several goroutines at once.  C85. *)

From Verif Require Import GoBase SpecNum ProofsBase ModelTools ModelVal ModelRegistry ModelDecode ModelEncode ModelRegister ModelConcurrent ModelConcurrentV14 ProofsRun
  SpecScale ProofsReads ProofsScale ProofsNames PropRegistry PropV14 PropConcurrent ProofsLoad.

(** ** What metadata declares: composites, and other names for a type *)
Inductive mdecl := MDecl (d : decl) | MAlias (ts : string).
Definition entry (spec : Z) (x : string * mdecl) : string * tstruct :=
  (fst x, match snd x with MDecl d => v14_entry d spec | MAlias ts => TStruct "string" ts [] [] 0 true spec end).
Definition prog : Type := list (string * mdecl).
(** The codec a declaration stands for, in a given registry. *)
Definition stands (r : reg) (m : mdecl) (c : codec) : Prop :=
  match m with
  | MDecl d => c = decl_codec d
  | MAlias ts => match assoc (to_lower (ConvertType ts)) (r_types r) with
                 | Some c' => c = c'
                 | None => shape_codec (ConvertType ts) = Ok (Some c)
                 end
  end.
Definition in_some (progs : list prog) (x : string * mdecl) : Prop := exists p, In p progs /\ In x p.
(** The goroutines agree on every name, and no alias is for a name that is
    only being declared. *)
Definition agreed (r0 : reg) (progs : list prog) : Prop :=
  (forall n m, in_some progs (n, m) -> no_version (to_lower n) = true /\ exists c, stands r0 m c)
  /\ (forall n m n' m', in_some progs (n, m) -> in_some progs (n', m') -> to_lower n = to_lower n' -> (n, m) = (n', m'))
  /\ (forall n ts n' m', in_some progs (n, MAlias ts) -> in_some progs (n', m') -> to_lower n' <> to_lower (ConvertType ts)).
Definition threads (spec : Z) (progs : list prog) : list vthread := map (fun p : prog => vstart (map (entry spec) p)) progs.

(** ** One goroutine by itself does what RegCustomTypes does *)
Lemma shape_reg' k ts r : reg_shape k ts r = match shape_codec ts with
    Ok (Some c) => Ok (regCustomKey k c r) | Ok None => Ok r | Panic m => Panic m | OutOfFuel => OutOfFuel end.
Proof.
  unfold shape_codec, reg_shape. destruct (first_char ts) as [a|]; [|reflexivity]. destruct (last_char ts) as [z|]; [|reflexivity].
  match goal with |- context [match ?g with Some c => Ok (regCustomKey k c r) | None => _ end] => destruct g as [c'|] end.
  - reflexivity.
  - destruct (negb (String.eqb ts "()") && Ascii.eqb a "(" && Ascii.eqb z ")"); [reflexivity|].
    destruct (negb (String.eqb ts "[]") && Ascii.eqb a "[" && Ascii.eqb z "]"); [|reflexivity].
    destruct (split_char ";"%char (strip_ends ts)) as [|t [|n [|]]]; reflexivity.
Qed.
Lemma plain_reg' k t r : reg_plain k t r = match plain_codec t with
    Ok (Some c) => Ok (regCustomKey k c r) | Ok None => Ok r | Panic m => Panic m | OutOfFuel => OutOfFuel end.
Proof.
  unfold plain_codec, reg_plain. destruct (String.eqb (t_type t) "struct"); [destruct (mapping_rows (t_mapping t)); reflexivity|].
  destruct (String.eqb (t_type t) "enum"); [destruct (mapping_rows (t_mapping t)); reflexivity|].
  destruct (String.eqb (t_type t) "set"); reflexivity.
Qed.
Lemma reg_resolve fuel key k t r : (if String.eqb (t_type t) "string" then reg_string fuel [(key, t)] k t r else reg_plain k t r)
  = match resolve r key t with Ok (Some c) => Ok (regCustomKey k c r) | Ok None => Ok r | Panic m => Panic m | OutOfFuel => OutOfFuel end.
Proof.
  unfold resolve. destruct (String.eqb (t_type t) "string") eqn:T; [|apply plain_reg'].
  unfold reg_string. cbn [assoc]. destruct (assoc (to_lower (ConvertType (t_string t))) (r_types r)) as [c|]; [reflexivity|].
  destruct (String.eqb (ConvertType (t_string t)) key) eqn:E.
  - rewrite T. destruct (assoc (to_lower (t_string t)) (r_types r)) as [c|]; [reflexivity|]. apply shape_reg'.
  - apply shape_reg'.
Qed.
Lemma reg_target k c r : regCustomKey k c r = match target k c with
  | None => with_types (upd k c) r
  | Some (name, sp) => with_special (upd name (match assoc name (r_special r) with Some l => l ++ [sp] | None => [sp] end)%list) r end.
Proof.
  unfold regCustomKey, target. destruct (split_char "#"%char k) as [|a [|b [|]]]; try reflexivity. destruct (version_range b) as [lo hi]. reflexivity.
Qed.
Fixpoint steps (fuel n : nat) (r : reg) (th : vthread) : reg * vthread :=
  match n with O => (r, th) | S n => let '(r', th') := vstep fuel r th in steps fuel n r' th' end.

Lemma steps_app fuel a b r th : steps fuel (a + b) r th = let '(r', th') := steps fuel a r th in steps fuel b r' th'.
Proof. revert r th. induction a as [|a IH]; intros r th; [reflexivity|]. cbn [Nat.add steps]. destruct (vstep fuel r th) as [r' th']. apply IH. Qed.
Lemma steps_one fuel r th r' th' n : vstep fuel r th = (r', th') -> steps fuel (S n) r th = steps fuel n r' th'.
Proof. intros H. cbn [steps]. now rewrite H. Qed.

Lemma write_steps fuel key t rest k r r' :
  (match resolve r key t with Ok (Some c) => Ok (regCustomKey (to_lower k) c r) | Ok None => Ok r | Panic m => Panic m | OutOfFuel => OutOfFuel end) = Ok r' ->
  exists n, steps fuel n r (VThread ((key, t) :: rest) (VWrite k)) = (r', VThread rest VReady).
Proof.
  intros H. destruct (resolve r key t) as [[c|]| |] eqn:E; try discriminate.
  - injection H as <-. rewrite reg_target. destruct (target (to_lower k) c) as [[name sp]|] eqn:T.
    + exists 3%nat. cbn [steps vstep v_todo v_pc]. rewrite E. cbn [steps vstep v_todo v_pc]. rewrite T. reflexivity.
    + exists 2%nat. cbn [steps vstep v_todo v_pc]. rewrite E. cbn [steps vstep v_todo v_pc]. rewrite T. reflexivity.
  - injection H as <-. exists 1%nat. cbn [steps vstep v_todo v_pc]. now rewrite E.
Qed.
Lemma alone_one fuel key t rest r r' : RegCustomTypes fuel [(key, t)] r = Ok r' ->
  exists n, steps fuel n r (VThread ((key, t) :: rest) VReady) = (r', VThread rest VReady).
Proof.
  unfold RegCustomTypes. cbn [reg_loop]. unfold v14_step. intros H. destruct (t_v14 t) eqn:V.
  - destruct (assoc key (r_v14 r)) as [x|] eqn:A.
    + destruct (t_spec t =? 0) eqn:Z0.
      * cbn [bind] in H. injection H as <-. exists 1%nat. cbn [steps vstep v_todo v_pc]. now rewrite V, A, Z0.
      * destruct (EqTypeStringWithTypeStruct fuel r key t) as [b| |] eqn:Q; cbn [bind] in H; try discriminate. destruct b; cbn [bind] in H.
        -- injection H as <-. exists 2%nat. cbn [steps vstep v_todo v_pc]. rewrite V, A, Z0. cbn [steps vstep v_todo v_pc]. now rewrite Q.
        -- rewrite reg_resolve in H. destruct (write_steps fuel key t rest (key ++ "#" ++ itoa (t_spec t) ++ "-" ++ itoa (t_spec t)) r r') as [n E].
           { destruct (resolve r key t) as [[c|]| |]; exact H. }
           exists (2 + n)%nat. cbn [Nat.add steps vstep v_todo v_pc]. rewrite V, A, Z0. cbn [steps vstep v_todo v_pc]. now rewrite Q.
    + cbn [bind] in H. rewrite reg_resolve in H. destruct (write_steps fuel key t rest key (with_v14 (upd key t) r) r') as [n E].
      { destruct (resolve _ key t) as [[c|]| |]; exact H. }
      exists (2 + n)%nat. cbn [Nat.add steps vstep v_todo v_pc]. rewrite V, A. cbn [steps vstep v_todo v_pc]. exact E.
  - cbn [bind] in H. rewrite reg_resolve in H. destruct (write_steps fuel key t rest key r r') as [n E].
    { destruct (resolve r key t) as [[c|]| |]; exact H. }
    exists (1 + n)%nat. cbn [Nat.add steps vstep v_todo v_pc]. rewrite V. exact E.
Qed.
(** The calls of one goroutine, one after the other. *)
Fixpoint calls (fuel : nat) (l : list (string * tstruct)) (r : reg) : res reg :=
  match l with [] => Ok r | x :: l' => r' <- RegCustomTypes fuel [x] r ;; calls fuel l' r' end.
Lemma alone fuel l : forall r r', calls fuel l r = Ok r' -> exists n, steps fuel n r (vstart l) = (r', vstart []).
Proof.
  induction l as [|[key t] l IH]; intros r r' H; cbn [calls] in H; [injection H as <-; now exists 0%nat|].
  destruct (RegCustomTypes fuel [(key, t)] r) as [r1| |] eqn:E; cbn [bind] in H; try discriminate.
  destruct (alone_one fuel key t l r r1 E) as [a A]. destruct (IH r1 r' H) as [b B]. exists (a + b)%nat. now rewrite steps_app, (A : steps fuel a r (vstart _) = _).
Qed.
Lemma vexec_alone fuel n : forall r th, vexec fuel (repeat 0%nat n) r [th] = let '(r', th') := steps fuel n r th in (r', [th']).
Proof. induction n as [|n IH]; intros r th; [reflexivity|]. cbn [repeat vexec nth_error steps]. destruct (vstep fuel r th) as [r' th']. cbn [set_nth]. apply IH. Qed.

(** ** Many goroutines *)
Section Agreed.
Variable fuel : nat.
Variable r0 : reg.
Variable progs : list prog.
Hypothesis AG : agreed r0 progs.

Definition rest_of (th : vthread) (l : prog) : Prop := v_todo th = map (entry 0) l /\ forall x, In x l -> in_some progs x.
Definition fits (th : vthread) : Prop :=
  exists l, rest_of th l /\
  match v_pc th, l with
  | VReady, _ => True
  | _, [] => False
  | VAbsent, (n, m) :: _ => assoc n (r_v14 r0) = None
  | VWrite k, (n, m) :: _ => k = n /\ assoc n (r_v14 r0) = None
  | VReg k c, (n, m) :: _ => k = to_lower n /\ stands r0 m c /\ assoc n (r_v14 r0) = None
  | _, _ => False
  end.
(** a goroutine that has recorded a name and is about to register it *)
Definition about (th : vthread) (n : string) : Prop :=
  exists t rest, v_todo th = (n, t) :: rest /\ match v_pc th with VWrite _ | VReg _ _ => True | _ => False end.
Definition pending (ts : list vthread) (n : string) : Prop := exists i th, nth_error ts i = Some th /\ about th n.
Definition fresh_name (n : string) : Prop := assoc n (r_v14 r0) = None.
Definition settled (r : reg) (n : string) (m : mdecl) : Prop := exists c, stands r0 m c /\ assoc (to_lower n) (r_types r) = Some c.
Definition holds (r : reg) (ts : list vthread) : Prop :=
  r_special r = r_special r0
  /\ (forall q, assoc q (r_types r) = assoc q (r_types r0) \/ exists n m, in_some progs (n, m) /\ to_lower n = q /\ fresh_name n /\ settled r n m)
  /\ (forall n, ~ fresh_name n -> assoc n (r_v14 r) <> None)
  /\ (forall n, assoc n (r_v14 r) <> None -> ~ fresh_name n \/ exists m, in_some progs (n, m))
  /\ (forall n m, in_some progs (n, m) -> fresh_name n -> assoc n (r_v14 r) <> None -> settled r n m \/ pending ts n)
  /\ (forall n m, in_some progs (n, m) -> assoc n (r_v14 r) <> None \/ exists i th, nth_error ts i = Some th /\ In (entry 0 (n, m)) (v_todo th))
  /\ (forall i th, nth_error ts i = Some th -> fits th)
  /\ (forall n, pending ts n -> assoc n (r_v14 r) <> None).

Lemma stands_unique m c c' : stands r0 m c -> stands r0 m c' -> c = c'.
Proof. destruct m as [d|ts]; cbn [stands]; [congruence|]. destruct (assoc _ (r_types r0)); congruence. Qed.
Lemma resolves_to r n m c : in_some progs (n, m) -> stands r0 m c ->
  (forall q, assoc q (r_types r) = assoc q (r_types r0) \/ exists n m, in_some progs (n, m) /\ to_lower n = q /\ fresh_name n /\ settled r n m) ->
  resolve r n (snd (entry 0 (n, m))) = Ok (Some c).
Proof.
  intros I ST T. destruct m as [d|ts]; cbn [entry snd stands fst] in *.
  - subst c. destruct d as [f|v l|l b]; unfold resolve, plain_codec; rewrite v14_plain; reflexivity.
  - unfold resolve. cbn [t_type t_string]. rewrite String.eqb_refl. destruct AG as (_ & _ & AL).
    destruct (T (to_lower (ConvertType ts))) as [E|(n' & m' & I' & L & _)]; [|now destruct (AL n ts n' m' I I')].
    rewrite E. destruct (assoc (to_lower (ConvertType ts)) (r_types r0)) as [c'|]; [now subst c'|].
    destruct (String.eqb (ConvertType ts) n) eqn:Q; [|exact ST]. apply String.eqb_eq in Q. now destruct (AL n ts n (MAlias ts) I I (f_equal to_lower (eq_sym Q))).
Qed.

Definition types_fit (r : reg) : Prop := forall q, assoc q (r_types r) = assoc q (r_types r0)
  \/ exists n m, in_some progs (n, m) /\ to_lower n = q /\ fresh_name n /\ settled r n m.
Lemma nth_error_set {A} i j (x y : A) l : nth_error l i = Some y -> nth_error (set_nth i x l) j = if Nat.eqb i j then Some x else nth_error l j.
Proof.
  intros H. destruct (Nat.eqb_spec i j) as [<-|N]; [|now apply nth_error_set_other]. apply nth_error_set_same. apply nth_error_Some. congruence.
Qed.
Lemma holds_step r r' ts i th th' : holds r ts -> nth_error ts i = Some th ->
  r_special r' = r_special r -> types_fit r' ->
  (forall n, assoc n (r_v14 r) <> None -> assoc n (r_v14 r') <> None) ->
  (forall n, assoc n (r_v14 r') <> None -> assoc n (r_v14 r) <> None \/ about th' n /\ exists m, in_some progs (n, m)) ->
  (forall n m, in_some progs (n, m) -> settled r n m -> settled r' n m) ->
  (forall n m, in_some progs (n, m) -> about th n -> about th' n \/ settled r' n m) ->
  (forall n m, In (entry 0 (n, m)) (v_todo th) -> In (entry 0 (n, m)) (v_todo th') \/ assoc n (r_v14 r') <> None) ->
  fits th' -> (forall n, about th' n -> assoc n (r_v14 r') <> None) -> holds r' (set_nth i th' ts).
Proof.
  intros (H1 & H2 & H3 & H4 & H5 & H6 & H7 & H8) NI SP TF VM VN SM AB TD FI PN. split; [congruence|]. split; [exact TF|]. split; [auto|].
  split; [|split; [|split; [|split]]].
  - intros n N. destruct (VN n N) as [O|[_ E]]; auto.
  - intros n m I F N. destruct (VN n N) as [O|[A _]].
    + destruct (H5 n m I F O) as [D|(j & tj & J & A)]; [left; now apply SM|]. destruct (Nat.eqb_spec i j) as [<-|NE].
      * rewrite NI in J. injection J as <-. destruct (AB n m I A) as [A'|D]; [right|now left].
        exists i, th'. split; [|exact A']. rewrite (nth_error_set i i th' th ts NI). now rewrite Nat.eqb_refl.
      * right. exists j, tj. split; [|exact A]. rewrite (nth_error_set i j th' th ts NI). now destruct (Nat.eqb_spec i j).
    + right. exists i, th'. split; [|exact A]. rewrite (nth_error_set i i th' th ts NI). now rewrite Nat.eqb_refl.
  - intros n m I. destruct (H6 n m I) as [O|(j & tj & J & A)]; [left; auto|]. destruct (Nat.eqb_spec i j) as [<-|NE].
    + rewrite NI in J. injection J as <-. destruct (TD n m A) as [A'|D]; [right|now left].
      exists i, th'. split; [|exact A']. rewrite (nth_error_set i i th' th ts NI). now rewrite Nat.eqb_refl.
    + right. exists j, tj. split; [|exact A]. rewrite (nth_error_set i j th' th ts NI). now destruct (Nat.eqb_spec i j).
  - intros j tj J. rewrite (nth_error_set i j th' th ts NI) in J. destruct (Nat.eqb i j); [now injection J as <-|now apply (H7 j)].
  - intros n (j & tj & J & A). rewrite (nth_error_set i j th' th ts NI) in J. destruct (Nat.eqb i j); [injection J as <-; now apply PN|].
    apply VM, H8. now exists j, tj.
Qed.
Lemma entry_v14 n m : t_v14 (snd (entry 0 (n, m))) = true /\ t_spec (snd (entry 0 (n, m))) = 0.
Proof. destruct m as [[]|]; split; reflexivity. Qed.
Lemma entry_inj n m n' m' : to_lower n = to_lower n' -> in_some progs (n, m) -> in_some progs (n', m') -> (n, m) = (n', m').
Proof. intros L I I'. destruct AG as (_ & C & _). now apply C. Qed.
Lemma plain_target n m c : in_some progs (n, m) -> target (to_lower n) c = None.
Proof.
  intros I. destruct AG as (N & _). destruct (N n m I) as [V _]. unfold no_version in V. unfold target. now destruct (split_char "#"%char (to_lower n)) as [|a [|b [|]]].
Qed.
Lemma step_holds r ts i th r' th' : holds r ts -> nth_error ts i = Some th -> vstep fuel r th = (r', th') -> holds r' (set_nth i th' ts).
Proof.
  intros H NI ST. pose proof H as (H1 & H2 & H3 & H4 & H5 & H6 & H7 & H8). destruct (H7 i th NI) as ([|[n m] l] & [TD IN] & PC).
  - (* nothing left *)
    unfold vstep in ST. rewrite TD in ST. injection ST as <- <-. apply (holds_step r r ts i th th); try exact H2; auto.
    + exists []. split; [split; assumption|exact PC].
    + intros n A. apply H8. now exists i, th.
  - assert (I : in_some progs (n, m)) by (apply IN; now left).
    assert (IN' : forall x, In x l -> in_some progs x) by (intros x X; apply IN; now right).
    destruct (entry_v14 n m) as [V Z0]. destruct th as [todo pc]. cbn [v_todo v_pc] in *. subst todo.
    unfold vstep in ST. cbn [v_todo v_pc map] in ST. change (entry 0 (n, m)) with (n, snd (entry 0 (n, m))) in ST at 1. cbn beta iota in ST.
    destruct pc as [| | |k|k c|name o sp|]; try contradiction.
    + rewrite V in ST. destruct (assoc n (r_v14 r)) as [x|] eqn:A.
      * rewrite Z0 in ST. cbn [Z.eqb] in ST. injection ST as <- <-. apply (holds_step r r ts i _ _ H NI); try exact H2; auto.
        -- intros n' m' _ (t & rest & _ & []).
        -- intros n' m' [E|X]; [|now left]. right. injection E as E _. congruence.
        -- exists l. split; [split; [reflexivity|exact IN']|exact Logic.I].
        -- intros n' (t & rest & _ & []).
      * injection ST as <- <-. apply (holds_step r r ts i _ _ H NI); try exact H2; auto.
        -- exists ((n, m) :: l). split; [split; [reflexivity|exact IN]|]. cbn [v_pc]. destruct (assoc n (r_v14 r0)) eqn:F; [|reflexivity].
           destruct (H3 n); [unfold fresh_name; congruence|exact A].
        -- intros n' (t & rest & _ & []).
    + injection ST as <- <-. apply (holds_step r _ ts i _ _ H NI); try exact H2; auto.
      * intros n' N'. cbn [r_v14 with_v14 upd assoc]. now destruct (String.eqb n' n).
      * intros n' N'. cbn [r_v14 with_v14 upd assoc] in N'. destruct (String.eqb_spec n' n) as [EQ|NE]; [right; subst n'|now left].
        split; [|now exists m]. exists (snd (entry 0 (n, m))), (map (entry 0) l). split; [reflexivity|exact Logic.I].
      * intros n' m' _ (t & rest & _ & []).
      * exists ((n, m) :: l). split; [split; [reflexivity|exact IN]|]. now split.
      * intros n' (t & rest & E & _). injection E as <- _ _. cbn [r_v14 with_v14 upd assoc]. now rewrite String.eqb_refl.
    + destruct PC as [-> F]. destruct AG as (N & _). destruct (N n m I) as [_ [c SC]]. rewrite (resolves_to r n m c I SC H2) in ST. injection ST as <- <-.
      apply (holds_step r r ts i _ _ H NI); try exact H2; auto.
      * exists ((n, m) :: l). split; [split; [reflexivity|exact IN]|]. now repeat split.
      * intros n' (t & rest & E & _). apply H8. exists i. eexists. split; [exact NI|]. exists t, rest. split; [exact E|exact Logic.I].
    + destruct PC as (-> & SC & F). rewrite (plain_target n m c I) in ST. injection ST as <- <-.
      assert (SE : settled (with_types (upd (to_lower n) c) r) n m).
      { exists c. split; [exact SC|]. cbn [r_types with_types upd assoc]. now rewrite String.eqb_refl. }
      assert (SM : forall n' m', in_some progs (n', m') -> settled r n' m' -> settled (with_types (upd (to_lower n) c) r) n' m').
      { intros n' m' I' (c' & S' & A'). destruct (String.eqb_spec (to_lower n') (to_lower n)) as [E|NE].
        - pose proof (entry_inj _ _ _ _ E I' I) as X. injection X as -> ->. exact SE.
        - exists c'. split; [exact S'|]. cbn [r_types with_types upd assoc]. now destruct (String.eqb_spec (to_lower n') (to_lower n)). }
      apply (holds_step r _ ts i _ _ H NI); try exact H2; auto.
      * intros q. cbn [r_types with_types upd assoc]. destruct (String.eqb_spec q (to_lower n)) as [->|NE].
        -- right. exists n, m. now repeat split.
        -- destruct (H2 q) as [E|(n' & m' & I' & L' & F' & S')]; [now left|]. right. exists n', m'. repeat split; auto.
      * intros n' m' I' (t & rest & E & _). right. injection E as E _ _. subst n'. pose proof (entry_inj n m n m' eq_refl I I') as X. injection X as <-. exact SE.
      * intros n' m' [E|X]; [|now left]. right. injection E as <- _. cbn [r_v14 with_types]. apply H8. exists i. eexists. split; [exact NI|].
        exists (snd (entry 0 (n, m))), (map (entry 0) l). split; [reflexivity|exact Logic.I].
      * exists l. split; [split; [reflexivity|exact IN']|exact Logic.I].
      * intros n' (t & rest & _ & []).
Qed.
Lemma exec_holds sched : forall r ts r' ts', holds r ts -> vexec fuel sched r ts = (r', ts') -> holds r' ts'.
Proof.
  induction sched as [|i s IH]; intros r ts r' ts' H E; cbn [vexec] in E; [now injection E as <- <-|].
  destruct (nth_error ts i) as [th|] eqn:N; [|now apply (IH r ts)]. destruct (vstep fuel r th) as [r1 th1] eqn:ST.
  apply (IH r1 (set_nth i th1 ts)); [|exact E]. now apply (step_holds r ts i th).
Qed.
Lemma start_holds : holds r0 (threads 0 progs).
Proof.
  split; [reflexivity|]. split; [now left|]. split; [intros n F A; now apply F|]. split; [intros n F; left; exact F|]. split; [|split; [|split]].
  - intros n m _ F N. now destruct N.
  - intros n m (p & P & X). right. apply In_nth_error in P. destruct P as [i P]. exists i, (vstart (map (entry 0) p)). split.
    + unfold threads. now rewrite List.nth_error_map, P.
    + apply (in_map (entry 0) _ _ X).
  - intros i th N. unfold threads in N. rewrite List.nth_error_map in N. destruct (nth_error progs i) as [p|] eqn:P; [|discriminate]. injection N as <-.
    exists p. split; [|exact Logic.I]. split; [reflexivity|]. intros x X. exists p. split; [now apply nth_error_In in P|exact X].
  - intros n (i & th & N & t & rest & _ & PC). unfold threads in N. rewrite List.nth_error_map in N. destruct (nth_error progs i); [|discriminate]. now injection N as <-.
Qed.
End Agreed.

(** ** Reading the same metadata, or metadata without a name in common, from
    several goroutines: whatever the schedule, every name that was not known
    before stands for what is declared, and nothing else changes. *)
Theorem C85_agree_partial fuel r0 progs sched r ts : agreed r0 progs -> vexec fuel sched r0 (threads 0 progs) = (r, ts) -> Forall vfinished ts ->
  (forall n m, in_some progs (n, m) -> assoc n (r_v14 r0) = None -> exists c, stands r0 m c /\ assoc (to_lower n) (r_types r) = Some c)
  /\ (forall q, (forall n m, in_some progs (n, m) -> to_lower n = q -> assoc n (r_v14 r0) <> None) -> assoc q (r_types r) = assoc q (r_types r0))
  /\ r_special r = r_special r0
  /\ (forall n, assoc n (r_v14 r) <> None <-> assoc n (r_v14 r0) <> None \/ exists m, in_some progs (n, m)).
Proof.
  intros AG E F. destruct (exec_holds fuel r0 progs AG sched _ _ _ _ (start_holds r0 progs) E) as (H1 & H2 & H3 & H4 & H5 & H6 & H7 & H8).
  assert (DONE : forall i th, nth_error ts i = Some th -> v_todo th = []) by (rewrite Forall_forall in F; intros i th N; now apply F, (nth_error_In _ i)).
  assert (NP : forall n, ~ pending ts n) by (intros n (i & th & N & t & rest & TD & _); rewrite (DONE i th N) in TD; discriminate).
  assert (REC : forall n m, in_some progs (n, m) -> assoc n (r_v14 r) <> None).
  { intros n m I. destruct (H6 n m I) as [R|(i & th & N & X)]; [exact R|]. now rewrite (DONE i th N) in X. }
  split; [|split; [|split; [exact H1|]]].
  - intros n m I FR. destruct (H5 n m I FR (REC n m I)) as [S'|P]; [exact S'|]. now destruct (NP n).
  - intros q Q. destruct (H2 q) as [E'|(n & m & I & L & FR & _)]; [exact E'|]. now destruct (Q n m I L).
  - intros n. split.
    + intros A. destruct (H4 n A) as [O|M]; [left; exact O|now right].
    + intros [O|[m I]]; [now apply H3|now apply (REC n m)].
Qed.

(** The outcome is that of any other set of goroutines with the same
    declarations, in particular of one that makes the calls one by one. *)
Theorem C85_serial_partial fuel r0 progs sched r ts l rs : agreed r0 progs -> vexec fuel sched r0 (threads 0 progs) = (r, ts) -> Forall vfinished ts ->
  (forall x, In x l <-> in_some progs x) -> calls fuel (map (entry 0) l) r0 = Ok rs ->
  (forall q, assoc q (r_types r) = assoc q (r_types rs)) /\ r_special r = r_special rs.
Proof.
  intros AG E F L C.
  assert (SAME : forall x, in_some [l] x <-> in_some progs x).
  { intros x. rewrite <- L. split; [intros (p & [<-|[]] & X); exact X|]. intros X. exists l. split; [now left|exact X]. }
  assert (AG' : agreed r0 [l]).
  { destruct AG as (A1 & A2 & A3). split; [|split].
    - intros n m I. apply A1. now apply SAME.
    - intros n m n' m' I I'. apply A2; now apply SAME.
    - intros n t n' m' I I'. apply (A3 n t n' m'); now apply SAME. }
  destruct (alone fuel _ _ _ C) as [k K]. pose proof (vexec_alone fuel k r0 (vstart (map (entry 0) l))) as V. rewrite K in V.
  destruct (C85_agree_partial fuel r0 progs sched r ts AG E F) as (P1 & P2 & P3 & P4).
  destruct (C85_agree_partial fuel r0 [l] _ rs _ AG' V) as (Q1 & Q2 & Q3 & Q4); [now repeat constructor|].
  split; [|congruence]. intros q.
  destruct (existsb (fun x => String.eqb (to_lower (fst x)) q && match assoc (fst x) (r_v14 r0) with None => true | _ => false end) l) eqn:X.
  - apply existsb_exists in X. destruct X as ([n m] & X & Y). apply Bool.andb_true_iff in Y. destruct Y as [Y FR]. apply String.eqb_eq in Y. cbn [fst] in *. subst q.
    assert (FR' : assoc n (r_v14 r0) = None) by now destruct (assoc n (r_v14 r0)).
    apply L in X. destruct (P1 n m X FR') as (c & S1 & ->). apply SAME in X. destruct (Q1 n m X FR') as (c' & S2 & ->).
    now rewrite (stands_unique r0 m c c' S1 S2).
  - assert (NO : forall n m, in_some progs (n, m) -> to_lower n = q -> assoc n (r_v14 r0) <> None).
    { intros n m I TL A. apply L in I. apply Bool.not_true_iff_false in X. apply X. apply existsb_exists. exists (n, m). split; [exact I|].
      cbn [fst]. now rewrite TL, String.eqb_refl, A. }
    rewrite (P2 q NO). symmetry. apply Q2. intros n m I. apply SAME in I. now apply (NO n m).
Qed.

(** ** Every goroutine comes to its end: five steps for each declaration *)
Definition weight (p : vpc) : nat := match p with VReady => 5 | VAbsent | VCheck => 4 | VWrite _ => 3 | VReg _ _ => 2 | VApp _ _ _ => 1 | VDead => 0 end.
Definition measure (th : vthread) : nat := match v_todo th, v_pc th with [], _ | _, VDead => 0 | _ :: l, p => (5 * List.length l + weight p)%nat end.
Lemma next_measure l : measure (VThread l VReady) = (5 * List.length l)%nat.
Proof. destruct l; unfold measure; cbn [v_todo v_pc weight List.length]; lia. Qed.
Lemma step_measure fuel r th r' th' : vstep fuel r th = (r', th') -> (measure th' <= measure th - 1)%nat.
Proof.
  destruct th as [[|[key t] rest] pc]; unfold vstep; cbn [v_todo v_pc]; intros ST; [injection ST as <- <-; unfold measure; cbn [v_todo]; lia|].
  assert (D : forall p, (weight p <= weight pc - 1)%nat -> (1 <= weight pc)%nat -> (measure (VThread ((key, t) :: rest) p) <= measure (VThread ((key, t) :: rest) pc) - 1)%nat)
    by (intros p W W'; unfold measure; cbn [v_todo v_pc]; destruct p, pc; cbn [weight] in *; lia).
  assert (N : (1 <= weight pc)%nat -> (measure (VThread rest VReady) <= measure (VThread ((key, t) :: rest) pc) - 1)%nat)
    by (intros W; rewrite next_measure; unfold measure; cbn [v_todo v_pc]; destruct pc; cbn [weight] in *; lia).
  destruct pc as [| | |k|k c|name o sp|]; cbn [weight] in D, N.
  - destruct (t_v14 t); [destruct (assoc key (r_v14 r)); [destruct (t_spec t =? 0)|]|]; injection ST as <- <-; (apply N + apply D; cbn [weight]; lia).
  - injection ST as <- <-. apply D; cbn [weight]; lia.
  - destruct (EqTypeStringWithTypeStruct fuel r key t) as [[]| |]; injection ST as <- <-; (apply N + apply D; cbn [weight]; lia).
  - destruct (resolve r key t) as [[c|]| |]; injection ST as <- <-; (apply N + apply D; cbn [weight]; lia).
  - destruct (target k c) as [[name sp]|]; injection ST as <- <-; (apply N + apply D; cbn [weight]; lia).
  - injection ST as <- <-. apply N. lia.
  - injection ST as <- <-. unfold measure. cbn [v_todo v_pc weight]. lia.
Qed.
Fixpoint times (i : nat) (sched : list nat) : nat :=
  match sched with [] => 0 | j :: s => if Nat.eqb i j then S (times i s) else times i s end.
Lemma exec_measure fuel sched : forall r ts r' ts' i th, nth_error ts i = Some th -> vexec fuel sched r ts = (r', ts') ->
  exists th', nth_error ts' i = Some th' /\ (measure th' <= measure th - times i sched)%nat.
Proof.
  induction sched as [|j s IH]; intros r ts r' ts' i th N E; cbn [vexec times] in *.
  - injection E as <- <-. exists th. split; [exact N|lia].
  - destruct (nth_error ts j) as [tj|] eqn:J.
    + destruct (vstep fuel r tj) as [r1 t1] eqn:ST. destruct (Nat.eqb_spec i j) as [<-|NE].
      * rewrite J in N. injection N as ->. destruct (IH r1 (set_nth i t1 ts) r' ts' i t1) as (th' & N' & M); [|exact E|].
        -- rewrite (nth_error_set i i t1 th ts J). now rewrite Nat.eqb_refl.
        -- exists th'. split; [exact N'|]. pose proof (step_measure _ _ _ _ _ ST). lia.
      * apply (IH r1 (set_nth j t1 ts) r' ts' i th); [|exact E]. rewrite (nth_error_set j i t1 tj ts J). destruct (Nat.eqb_spec j i); [congruence|exact N].
    + destruct (Nat.eqb_spec i j) as [<-|NE]; [congruence|]. now apply (IH r ts r' ts').
Qed.
Lemma exec_length fuel sched : forall r ts r' ts', vexec fuel sched r ts = (r', ts') -> List.length ts' = List.length ts.
Proof.
  induction sched as [|j s IH]; intros r ts r' ts' E; cbn [vexec] in E; [now injection E as <- <-|].
  destruct (nth_error ts j) as [tj|]; [|now apply (IH r _ r')]. destruct (vstep fuel r tj) as [r1 t1]. rewrite (IH _ _ _ _ E). apply set_nth_length.
Qed.
Theorem C85_finishes fuel r0 progs sched r ts : agreed r0 progs -> vexec fuel sched r0 (threads 0 progs) = (r, ts) ->
  (forall i p, nth_error progs i = Some p -> (5 * List.length p <= times i sched)%nat) -> Forall vfinished ts.
Proof.
  intros AG E T. destruct (exec_holds fuel r0 progs AG sched _ _ _ _ (start_holds r0 progs) E) as (_ & _ & _ & _ & _ & _ & H7 & _).
  apply Forall_forall. intros th I. apply In_nth_error in I. destruct I as [i I].
  assert (L : (i < List.length progs)%nat).
  { pose proof (exec_length _ _ _ _ _ _ E) as L. unfold threads in L. rewrite map_length in L. rewrite <- L. apply nth_error_Some. congruence. }
  destruct (nth_error progs i) as [p|] eqn:P; [|apply nth_error_None in P; lia].
  assert (N : nth_error (threads 0 progs) i = Some (vstart (map (entry 0) p))) by (apply (map_nth_error (fun p : prog => vstart (map (entry 0) p))); exact P).
  destruct (exec_measure fuel sched _ _ _ _ i _ N E) as (th' & N' & M). rewrite I in N'. injection N' as <-.
  unfold vstart in M. rewrite next_measure, map_length in M. specialize (T i p P). assert (Z : measure th = 0%nat) by lia. clear - Z H7 I.
  destruct (H7 i th I) as (l & [TD _] & PC). unfold vfinished. destruct th as [todo pc]. cbn [v_todo v_pc] in *. subst todo. destruct l as [|[n m] l]; [reflexivity|].
  unfold measure in Z. cbn [v_todo map v_pc] in Z. destruct pc; cbn [weight] in Z; try lia; contradiction.
Qed.

(** Two goroutines reading the same metadata, at odds with each other in every
    step; one of its types was known before. *)
Definition ex_decls : prog := [("a:Inner", MDecl (DStruct [("x", "u8"); ("y", "a:Kind")])); ("a:Kind", MDecl (DEnum [("On", "NULL"); ("Off", "u16")] []));
                               ("a:Bytes", MAlias "Vec<u16>"); ("a:Amount", MAlias "u128"); ("a:Known", MDecl (DStruct [("z", "u32")]))].
Definition ex_reg : reg := with_v14 (upd "a:Known" (v14_entry (DStruct [("old", "u8")]) 0)) (with_types (upd "a:known" (CStruct (Some [("old", "u8")]))) base_reg).
Definition ex_both : list prog := [ex_decls; ex_decls].
Definition ex_end : reg * list vthread := vexec 9 (List.concat (repeat [0; 1]%nat 25)) ex_reg (threads 0 ex_both).
Example C85_case : agreed ex_reg ex_both /\ Forall vfinished (snd ex_end) /\ assoc "a:bytes" (r_types (fst ex_end)) = Some (CVec "u16")
  /\ assoc "a:known" (r_types (fst ex_end)) = Some (CStruct (Some [("old", "u8")])).
Proof.
  assert (IN : forall x, in_some ex_both x -> In x ex_decls) by (intros x (p & [<-|[<-|[]]] & X); exact X).
  split; [split; [|split]|].
  - intros n m I. apply IN in I. destruct I as [E|[E|[E|[E|[E|[]]]]]]; injection E as <- <-; (split; [vm_compute; reflexivity|]).
    + now exists (CStruct (Some [("x", "u8"); ("y", "a:Kind")])).
    + now exists (CEnum (Some [("On", "NULL"); ("Off", "u16")]) []).
    + exists (CVec "u16"). vm_compute. reflexivity.
    + exists CU128. vm_compute. reflexivity.
    + now exists (CStruct (Some [("z", "u32")])).
  - intros n m n' m' I I'. apply IN in I, I'.
    destruct I as [E|[E|[E|[E|[E|[]]]]]]; injection E as <- <-; destruct I' as [E|[E|[E|[E|[E|[]]]]]]; injection E as <- <-; intros L; try reflexivity; vm_compute in L; discriminate.
  - intros n ts n' m' I I'. apply IN in I, I'.
    destruct I as [E|[E|[E|[E|[E|[]]]]]]; try discriminate E; injection E as <- <-; destruct I' as [E|[E|[E|[E|[E|[]]]]]]; injection E as <- <-; intros L; vm_compute in L; discriminate.
  - split; [|split; vm_compute; reflexivity]. replace (snd ex_end) with [vstart []; vstart []] by (vm_compute; reflexivity). repeat constructor.
Qed.

(** ** The conditions are needed *)
(** The same metadata in two goroutines, where one type is another name for a
    type it declares: the name can be lost, for good, because the goroutine that
    finds the type recorded does not wait for it to be registered. *)
Definition lost_decls : prog := [("a:Inner", MDecl (DStruct [("x", "u8"); ("y", "u16")])); ("a:Outer", MAlias "a:Inner")].
Definition lost_end (sched : list nat) : reg * list vthread := vexec 9 sched base_reg (threads 0 [lost_decls; lost_decls]).
Definition outer_after (l : prog) (r : reg) : res (option codec) := r' <- calls 9 (map (entry 0) l) r ;; Ok (lookup (reg_env r') "" "a:Outer" 0).
Theorem C85_alias_refuted : exists sched, Forall vfinished (snd (lost_end sched)) /\ lookup (reg_env (fst (lost_end sched))) "" "a:Outer" 0 = None
  /\ outer_after lost_decls (fst (lost_end sched)) = Ok None
  /\ outer_after (lost_decls ++ lost_decls)%list base_reg = Ok (Some (CStruct (Some [("x", "u8"); ("y", "u16")]))).
Proof.
  exists [0; 0; 1; 1; 1; 1; 0; 0; 0]%nat. split; [|split; [|split]; vm_compute; reflexivity].
  replace (snd (lost_end _)) with [vstart []; vstart []] by (vm_compute; reflexivity). repeat constructor.
Qed.
(** Metadata of two runtimes in two goroutines: one of two types of the same
    name is lost, and its runtime is decoded with the layout of the other.  One
    after the other, in either order, each runtime keeps its own. *)
Definition old_type : prog := [("a:Info", MDecl (DStruct [("x", "u8"); ("y", "u16")]))].
Definition new_type : prog := [("a:Info", MDecl (DStruct [("z", "u64")]))].
Definition mixed_end (sched : list nat) : reg * list vthread := vexec 9 sched base_reg [vstart (map (entry 1) old_type); vstart (map (entry 2) new_type)].
Definition seen_by (r : reg) (spec : Z) : option codec := lookup (reg_env r) "" "a:Info" spec.
Definition seen_after (l : list (string * tstruct)) (spec : Z) : res (option codec) := r <- calls 9 l base_reg ;; Ok (seen_by r spec).
Theorem C85_versions_refuted : exists sched, Forall vfinished (snd (mixed_end sched))
  /\ seen_by (fst (mixed_end sched)) 1 = Some (CStruct (Some [("z", "u64")])) /\ seen_by (fst (mixed_end sched)) 2 = Some (CStruct (Some [("z", "u64")]))
  /\ forall l, l = (map (entry 1) old_type ++ map (entry 2) new_type)%list \/ l = (map (entry 2) new_type ++ map (entry 1) old_type)%list ->
     seen_after l 1 = Ok (Some (CStruct (Some [("x", "u8"); ("y", "u16")]))) /\ seen_after l 2 = Ok (Some (CStruct (Some [("z", "u64")]))).
Proof.
  exists [0; 1; 0; 0; 0; 1; 1; 1]%nat. split; [|split; [vm_compute; reflexivity|split; [vm_compute; reflexivity|]]].
  - replace (snd (mixed_end _)) with [vstart []; vstart []] by (vm_compute; reflexivity). repeat constructor.
  - intros l [->| ->]; split; vm_compute; reflexivity.
Qed.
Print Assumptions C85_agree_partial.
Print Assumptions C85_serial_partial.
Print Assumptions C85_finishes.
Print Assumptions C85_alias_refuted.
Print Assumptions C85_versions_refuted.
