(** C40: comparing metadata. *)

From Verif Require Import GoBase ProofsBase ModelVal ModelRegistry ModelRegister ModelCompare SpecScale PropTerm PropDescribe.

(** ** Specification.  Two argument types differ when their descriptions do,
    letter case aside. *)
Definition differ (E : env) (a b : string) : Prop :=
  exists s t, Describes E a 0 (Ok s) /\ Describes E b 0 (Ok t) /\ to_lower s <> to_lower t.
(** Two calls (or events) of one name differ in their number of arguments or in
    the type of one of them. *)
Definition item_differs (E : env) (x y : item) : Prop :=
  List.length (snd x) <> List.length (snd y) \/ exists i a b, nth_error (snd x) i = Some a /\ nth_error (snd y) i = Some b /\ differ E a b.
Definition absent {A} (name : A -> string) (n : string) (l : list A) : Prop := forall y, In y l -> name y <> n.
(** One name, one module, call or event. *)
Definition distinct (m : list cmodule) : Prop :=
  NoDup (map mod_name m) /\ forall x, In x m -> NoDup (map fst (mod_calls x)) /\ NoDup (map fst (mod_events x)).
Definition types_of (m : list cmodule) : list string := flat_map (fun x => flat_map snd (mod_calls x ++ mod_events x)%list) m.

(** ** Lemmas *)
Lemma eq_describes E f a b e : Eq f E a b = Ok e -> exists s t, Describes E a 0 (Ok s) /\ Describes E b 0 (Ok t) /\ e = equal_fold s t.
Proof.
  unfold Eq. destruct (getTypeStructString f E a 0) as [s|m|] eqn:A; cbn [bind]; try discriminate.
  destruct (getTypeStructString f E b 0) as [t|m|] eqn:B; cbn [bind]; try discriminate. intros [= <-].
  exists s, t. repeat (split; [first [discriminate|now exists f|split; [discriminate|now exists f]]|]). reflexivity.
Qed.
Lemma fold_lower s t : equal_fold s t = true <-> to_lower s = to_lower t.
Proof. unfold equal_fold. apply String.eqb_eq. Qed.
Lemma eq_false E f a b : Eq f E a b = Ok false -> differ E a b.
Proof.
  intros H. apply eq_describes in H as (s & t & A & B & H). exists s, t. split; [exact A|split; [exact B|]]. intros X. apply fold_lower in X. congruence.
Qed.
Lemma eq_true E f a b : Eq f E a b = Ok true -> ~ differ E a b.
Proof.
  intros H (s & t & A & B & D). apply eq_describes in H as (s' & t' & A' & B' & H). pose proof (Describes_fun _ _ _ _ _ A A') as [= <-].
  pose proof (Describes_fun _ _ _ _ _ B B') as [= <-]. symmetry in H. apply fold_lower in H. contradiction.
Qed.
Lemma by_name_in n l x : by_name n l = Some x -> In x l /\ fst x = n.
Proof. induction l as [|y l IH]; cbn [by_name]; [discriminate|]. destruct (String.eqb_spec (fst y) n) as [H|]; [intros [= <-]; split; [now left|exact H]|intros H; apply IH in H as [? ?]; split; [now right|assumption]]. Qed.
Lemma by_name_none n l : by_name n l = None <-> absent fst n l.
Proof.
  induction l as [|y l IH]; cbn [by_name]; [split; [intros _ y []|reflexivity]|]. destruct (String.eqb_spec (fst y) n) as [H|H].
  - split; [discriminate|]. intros A. exfalso. now apply (A y (or_introl eq_refl)).
  - rewrite IH. split; [intros A z [<-|Hz]; [exact H|now apply A]|intros A z Hz; apply A; now right].
Qed.
Lemma by_name_nodup l x : NoDup (map fst l) -> In x l -> by_name (fst x) l = Some x.
Proof.
  induction l as [|y l IH]; intros N I; [contradiction|]. cbn [map] in N. inversion N as [|? ? NI N']; subst. cbn [by_name]. destruct I as [-> |I]; [now rewrite String.eqb_refl|].
  destruct (String.eqb_spec (fst y) (fst x)) as [H|]; [exfalso; apply NI; rewrite H; now apply in_map|now apply IH].
Qed.
Lemma mod_in n l x : module_by_name n l = Some x -> In x l /\ mod_name x = n.
Proof. induction l as [|y l IH]; cbn [module_by_name]; [discriminate|]. destruct (String.eqb_spec (mod_name y) n) as [H|]; [intros [= <-]; split; [now left|exact H]|intros H; apply IH in H as [? ?]; split; [now right|assumption]]. Qed.
Lemma mod_none n l : module_by_name n l = None <-> absent mod_name n l.
Proof.
  induction l as [|y l IH]; cbn [module_by_name]; [split; [intros _ y []|reflexivity]|]. destruct (String.eqb_spec (mod_name y) n) as [H|H].
  - split; [discriminate|]. intros A. exfalso. now apply (A y (or_introl eq_refl)).
  - rewrite IH. split; [intros A z [<-|Hz]; [exact H|now apply A]|intros A z Hz; apply A; now right].
Qed.
Lemma mod_nodup l x : NoDup (map mod_name l) -> In x l -> module_by_name (mod_name x) l = Some x.
Proof.
  induction l as [|y l IH]; intros N I; [contradiction|]. cbn [map] in N. inversion N as [|? ? NI N']; subst. cbn [module_by_name]. destruct I as [-> |I]; [now rewrite String.eqb_refl|].
  destruct (String.eqb_spec (mod_name y) (mod_name x)) as [H|]; [exfalso; apply NI; rewrite H; now apply in_map|now apply IH].
Qed.

(** *** Arguments *)
Lemma args_changes E f ch a : forall b l, arg_changes (Eq f E) ch a b = Ok l ->
  (forall c, In c l -> c = ch /\ exists i x y, nth_error a i = Some x /\ nth_error b i = Some y /\ differ E x y) /\
  ((exists i x y, nth_error a i = Some x /\ nth_error b i = Some y /\ differ E x y) -> In ch l).
Proof.
  induction a as [|x a IH]; intros [|y b] l; cbn [arg_changes];
    try (intros [= <-]; split; [intros c []|intros ([|i] & x' & y' & A & B & _); discriminate]).
  destruct (Eq f E x y) as [e|m|] eqn:X; cbn [bind]; try discriminate. destruct (arg_changes (Eq f E) ch a b) as [r|m|] eqn:R; cbn [bind]; try discriminate.
  intros [= <-]. apply IH in R as [R1 R2]. split.
  - intros c Hc. assert (C : c = ch /\ e = false \/ In c r) by (destruct e; [now right|destruct Hc as [<-|Hc]; [left; now split|now right]]).
    destruct C as [[-> ->]|C].
    + split; [reflexivity|]. exists O, x, y. split; [reflexivity|split; [reflexivity|]]. now apply (eq_false E f).
    + destruct (R1 c C) as (-> & i & x' & y' & H). split; [reflexivity|]. now exists (S i), x', y'.
  - intros ([|i] & x' & y' & A & B & D).
    + injection A as <-. injection B as <-. destruct e; [|now left]. now apply eq_true in X.
    + assert (C : In ch r) by (apply R2; now exists i, x', y'). destruct e; [exact C|now right].
Qed.
(** *** Calls, or events, of a module *)
Definition items_spec (E : env) (l dest : list item) (c : changes) : Prop :=
  (forall s, In s (ch_new c) <-> exists x, In x l /\ s = show x /\ absent fst (fst x) dest) /\
  (forall p q, In (p, q) (ch_changes c) <->
     exists x y, In x l /\ by_name (fst x) dest = Some y /\ p = show y /\ q = show x /\ item_differs E x y).
Lemma items_ok E f dest l : forall c, compare_items (Eq f E) dest l = Ok c -> items_spec E l dest c.
Proof.
  induction l as [|x l IH]; intros c; cbn [compare_items].
  { intros [= <-]. split; [intros s; split; [intros []|intros (x & [] & _)]|intros p q; split; [intros []|intros (x & y & [] & _)]]. }
  destruct (by_name (fst x) dest) as [y|] eqn:B.
  - destruct (if Nat.eqb _ _ then _ else _) as [ds|m|] eqn:D; cbn [bind]; try discriminate.
    destruct (compare_items (Eq f E) dest l) as [c'|m|] eqn:C; cbn [bind]; try discriminate. intros [= <-]. destruct (IH c' eq_refl) as [S1 S2].
    assert (DS : (forall d, In d ds -> d = (show y, show x) /\ item_differs E x y) /\ (item_differs E x y -> In (show y, show x) ds)).
    { destruct (Nat.eqb_spec (List.length (snd x)) (List.length (snd y))) as [L|L].
      - apply args_changes in D as [D1 D2]. split; [intros d Hd; apply D1 in Hd as [-> H]; split; [reflexivity|now right]|intros [H|H]; [contradiction|now apply D2]].
      - injection D as <-. split; [intros d [<-|[]]; split; [reflexivity|now left]|intros _; now left]. }
    destruct DS as [D1 D2]. split; cbn [ch_new ch_changes].
    + intros s. rewrite S1. split; [intros (z & Hz & H); exists z; split; [now right|exact H]|].
      intros (z & [<-|Hz] & H1 & H2); [|now exists z]. apply by_name_none in H2. congruence.
    + intros p q. rewrite in_app_iff, S2. split.
      * intros [H|(z & w & Hz & H)]; [|exists z, w; split; [now right|exact H]]. apply D1 in H as [[= -> ->] H]. exists x, y. repeat split; trivial; now left.
      * intros (z & w & [<-|Hz] & H1 & -> & -> & H4); [left; rewrite H1 in B; injection B as ->; now apply D2|right; now exists z, w].
  - destruct (compare_items (Eq f E) dest l) as [c'|m|] eqn:C; cbn [bind]; try discriminate. intros [= <-]. destruct (IH c' eq_refl) as [S1 S2].
    split; cbn [ch_new ch_changes].
    + intros s. cbn [In]. rewrite S1. split.
      * intros [<-|(z & Hz & H)]; [exists x; split; [now left|split; [reflexivity|now apply by_name_none]]|exists z; split; [now right|exact H]].
      * intros (z & [<-|Hz] & H1 & H2); [now left|right; now exists z].
    + intros p q. rewrite S2. split.
      * intros (z & w & Hz & H). exists z, w. split; [now right|exact H].
      * intros (z & w & [<-|Hz] & H1 & H); [congruence|now exists z, w].
Qed.
Lemma listed_some c : listed c = Some c \/ listed c = None /\ c = Changes [] [].
Proof. destruct c as [[|] [|]]; cbn; auto. Qed.

(** *** Modules *)
Definition none : changes := Changes [] [].
(** What the result lists for a module. *)
Definition calls_of (r : compared) (n : string) : changes :=
  match assoc n (module_changes r) with Some mc => match mc_calls mc with Some c => c | None => none end | None => none end.
Definition events_of (r : compared) (n : string) : changes :=
  match assoc n (module_changes r) with Some mc => match mc_events mc with Some c => c | None => none end | None => none end.
Lemma modules_ok E f dest l : forall acc r, compare_modules (Eq f E) dest l acc = Ok r -> NoDup (map mod_name l) ->
  (forall n, In n (new_modules r) <-> In n (new_modules acc) \/ exists a, In a l /\ mod_name a = n /\ absent mod_name n dest) /\
  (forall n, absent mod_name n l -> assoc n (module_changes r) = assoc n (module_changes acc)) /\
  (forall a, In a l -> absent mod_name (mod_name a) dest -> assoc (mod_name a) (module_changes r) = assoc (mod_name a) (module_changes acc)) /\
  (forall a d, In a l -> module_by_name (mod_name a) dest = Some d -> assoc (mod_name a) (module_changes acc) = None ->
     items_spec E (mod_calls a) (mod_calls d) (calls_of r (mod_name a)) /\ items_spec E (mod_events a) (mod_events d) (events_of r (mod_name a))).
Proof.
  induction l as [|m l IH]; intros acc r; cbn [compare_modules].
  { intros [= <-] _. split; [intros n; split; [now left|intros [H|(a & [] & _)]; exact H]|]. split; [reflexivity|]. split; [intros a []|intros a d []]. }
  intros H N. cbn [map] in N. inversion N as [|? ? NI N']; subst.
  assert (AB : absent mod_name (mod_name m) l) by (intros y Hy X; apply NI; rewrite <- X; now apply in_map).
  destruct (module_by_name (mod_name m) dest) as [d|] eqn:D.
  - destruct (compare_items (Eq f E) (mod_calls d) (mod_calls m)) as [cc|e|] eqn:C; cbn [bind] in H; try discriminate.
    destruct (compare_items (Eq f E) (mod_events d) (mod_events m)) as [ce|e|] eqn:V; cbn [bind] in H; try discriminate.
    apply items_ok in C, V.
    assert (X : exists acc', compare_modules (Eq f E) dest l acc' = Ok r /\ new_modules acc' = new_modules acc /\
      (forall n, n <> mod_name m -> assoc n (module_changes acc') = assoc n (module_changes acc)) /\
      (assoc (mod_name m) (module_changes acc) = None -> calls_of acc' (mod_name m) = cc /\ events_of acc' (mod_name m) = ce)).
    { assert (O : forall a b n, n <> mod_name m -> assoc n (upd (mod_name m) (MChanges a b) (module_changes acc)) = assoc n (module_changes acc)).
      { intros a b n Hn. unfold upd. cbn [assoc]. destruct (String.eqb_spec n (mod_name m)); [contradiction|reflexivity]. }
      destruct (listed_some cc) as [Lc|[Lc ->]], (listed_some ce) as [Le|[Le ->]]; rewrite ?Lc, ?Le in H.
      4: { exists acc. repeat split; trivial; intros; unfold calls_of, events_of; rewrite H0; reflexivity. }
      all: eexists; split; [exact H|]; cbn [new_modules module_changes]; split; [reflexivity|split; [intros n Hn; now apply O|]];
        intros _; unfold calls_of, events_of; cbn [module_changes]; unfold upd; cbn [assoc]; rewrite String.eqb_refl; now split. }
    destruct X as (acc' & H' & A1 & A2 & A3). destruct (IH acc' r H' N') as (I1 & I2 & I3 & I4).
    split; [intros n; split|split; [|split; [|intros a d0 H0 H1 H2; split]]].
    + intros Hn. apply I1 in Hn as [Hn|(a & Ha & Hn)]; [left; now rewrite <- A1|right; exists a; split; [now right|exact Hn]].
    + intros [Hn|(a & [<-|Ha] & <- & Hn)]; apply I1; [left; now rewrite A1|apply mod_none in Hn; congruence|right; now exists a].
    + intros n Hn. rewrite I2 by (intros y Hy; apply Hn; now right). apply A2. intros ->. now apply (Hn m (or_introl eq_refl)).
    + intros a [<-|Ha] Hn; [apply mod_none in Hn; congruence|]. rewrite (I3 a Ha Hn). apply A2. now apply AB.
    + destruct H0 as [<-|Ha].
      * rewrite D in H1. injection H1 as <-. destruct (A3 H2) as [A3' _]. unfold calls_of in *. now rewrite (I2 _ AB), A3'.
      * apply (I4 a d0 Ha H1). rewrite A2; [exact H2|]. now apply AB.
    + destruct H0 as [<-|Ha].
      * rewrite D in H1. injection H1 as <-. destruct (A3 H2) as [_ A3']. unfold events_of in *. now rewrite (I2 _ AB), A3'.
      * apply (I4 a d0 Ha H1). rewrite A2; [exact H2|]. now apply AB.
  - destruct (IH _ r H N') as (I1 & I2 & I3 & I4). cbn [new_modules module_changes] in *.
    split; [intros n; split|split; [|split; [|intros a d H0 H1 H2; split]]].
    + intros Hn. apply I1 in Hn as [Hn|(a & Ha & Hn)]; [|right; exists a; split; [now right|exact Hn]].
      apply in_app_or in Hn as [Hn|[<-|[]]]; [now left|]. right. exists m. split; [now left|split; [reflexivity|now apply mod_none]].
    + intros [Hn|(a & [<-|Ha] & <- & Hn)]; apply I1; [left; apply in_or_app; now left|left; apply in_or_app; right; now left|right; now exists a].
    + intros n Hn. apply I2. intros y Hy. apply Hn. now right.
    + intros a [<-|Ha] Hn; [now apply I2|now apply I3].
    + destruct H0 as [<-|Ha]; [congruence|now apply (I4 a d Ha)].
    + destruct H0 as [<-|Ha]; [congruence|now apply (I4 a d Ha)].
Qed.

(** ** C40, changes.  Exactly the modules, calls and events that are missing from
    the older metadata are reported as new, and exactly the calls and events
    present in both that differ are reported as changed. *)
Definition reported (E : env) (l dest : list item) (c : changes) : Prop :=
  (forall s, In s (ch_new c) <-> exists x, In x l /\ s = show x /\ absent fst (fst x) dest) /\
  (forall p q, In (p, q) (ch_changes c) <->
     exists x y, In x l /\ In y dest /\ fst x = fst y /\ p = show y /\ q = show x /\ item_differs E x y).
Theorem C40_changes E m dest r : distinct m -> distinct dest -> Compares E m dest (Ok r) ->
  (forall n, In n (new_modules r) <-> exists a, In a m /\ mod_name a = n /\ absent mod_name n dest) /\
  (forall n, (forall a d, In a m -> In d dest -> mod_name a = n -> mod_name d <> n) -> assoc n (module_changes r) = None) /\
  (forall a d, In a m -> In d dest -> mod_name a = mod_name d ->
     reported E (mod_calls a) (mod_calls d) (calls_of r (mod_name a)) /\ reported E (mod_events a) (mod_events d) (events_of r (mod_name a))).
Proof.
  intros [N1 N2] [D1 D2] [_ [f H]]. apply modules_ok in H as (I1 & I2 & I3 & I4); [|exact N1]. cbn [new_modules module_changes In] in *.
  split; [|split].
  - intros n. rewrite I1. tauto.
  - intros n Hn. destruct (module_by_name n m) as [a|] eqn:M.
    + apply mod_in in M as [Ha <-]. apply I3; [exact Ha|]. intros d Hd. exact (Hn a d Ha Hd eq_refl).
    + apply I2. now apply mod_none.
  - intros a d Ha Hd X. assert (S : forall l dl c, NoDup (map fst dl) -> items_spec E l dl c -> reported E l dl c).
    { intros l dl c ND [S1 S2]. split; [exact S1|]. intros p q. rewrite S2. split.
      - intros (x & y & Hx & B & -> & -> & D). apply by_name_in in B as [B1 B2]. exists x, y. repeat split; trivial. now symmetry.
      - intros (x & y & Hx & Hy & Hn & -> & -> & D). exists x, y. repeat split; trivial. rewrite Hn. now apply by_name_nodup. }
    destruct (I4 a d Ha) as [C V]; [rewrite X; now apply mod_nodup|reflexivity|].
    split; apply S; [apply (D2 d Hd)|exact C|apply (D2 d Hd)|exact V].
Qed.

(** ** C40, self *)
Lemma eq_refl_ok E f a s : getTypeStructString f E a 0 = Ok s -> Eq f E a a = Ok true.
Proof. intros H. unfold Eq. rewrite H. cbn [bind]. unfold equal_fold. now rewrite String.eqb_refl. Qed.
Lemma args_self E f ch a : (forall t, In t a -> exists s, getTypeStructString f E t 0 = Ok s) -> arg_changes (Eq f E) ch a a = Ok [].
Proof.
  induction a as [|x a IH]; intros H; cbn [arg_changes]; [reflexivity|]. destruct (H x (or_introl eq_refl)) as [s Hs].
  rewrite (eq_refl_ok E f x s Hs). cbn [bind]. rewrite IH by (intros t Ht; apply H; now right). reflexivity.
Qed.
Lemma items_self E f dest : NoDup (map fst dest) -> (forall x t, In x dest -> In t (snd x) -> exists s, getTypeStructString f E t 0 = Ok s) ->
  forall l, (forall x, In x l -> In x dest) -> compare_items (Eq f E) dest l = Ok none.
Proof.
  intros N T. induction l as [|x l IH]; intros H; cbn [compare_items]; [reflexivity|]. rewrite (by_name_nodup dest x N (H x (or_introl eq_refl))).
  rewrite Nat.eqb_refl, args_self by (intros t Ht; apply (T x); [apply H; now left|exact Ht]). cbn [bind]. rewrite IH by (intros y Hy; apply H; now right). reflexivity.
Qed.
Lemma modules_self E f dest : distinct dest -> (forall t, In t (types_of dest) -> exists s, getTypeStructString f E t 0 = Ok s) ->
  forall l, (forall x, In x l -> In x dest) -> compare_modules (Eq f E) dest l (Compared [] []) = Ok (Compared [] []).
Proof.
  intros [N1 N2] T. induction l as [|m l IH]; intros H; cbn [compare_modules]; [reflexivity|].
  pose proof (H m (or_introl eq_refl)) as Hm. rewrite (mod_nodup dest m N1 Hm). destruct (N2 m Hm) as [NC NE].
  assert (TM : forall x t, In x (mod_calls m ++ mod_events m)%list -> In t (snd x) -> exists s, getTypeStructString f E t 0 = Ok s).
  { intros x t Hx Ht. apply T. apply in_flat_map. exists m. split; [exact Hm|]. apply in_flat_map. now exists x. }
  rewrite (items_self E f (mod_calls m) NC), (items_self E f (mod_events m) NE); trivial.
  - cbn [bind listed none]. apply IH. intros y Hy. apply H. now right.
  - intros x t Hx. apply TM. apply in_or_app. now right.
  - intros x t Hx. apply TM. apply in_or_app. now left.
Qed.
Lemma describes_all E l : (forall t, In t l -> exists s, Describes E t 0 (Ok s)) -> exists f, forall t, In t l -> exists s, getTypeStructString f E t 0 = Ok s.
Proof.
  induction l as [|x l IH]; intros H; [exists O; intros t []|]. destruct (H x (or_introl eq_refl)) as (s & _ & f & F).
  destruct IH as [f' F']; [intros t Ht; apply H; now right|]. exists (Nat.max f f'). intros t [<-|Ht].
  - exists s. apply (describe_more E f); [lia|exact F|discriminate].
  - destruct (F' t Ht) as [s' F'']. exists s'. apply (describe_more E f'); [lia|exact F''|discriminate].
Qed.
(** Metadata compared with itself: nothing new, nothing changed. *)
Theorem C40_self_partial E m : distinct m -> (forall t, In t (types_of m) -> exists s, Describes E t 0 (Ok s)) -> Compares E m m (Ok (Compared [] [])).
Proof. intros D T. apply describes_all in T as [f T]. split; [discriminate|]. exists f. apply modules_self; trivial. Qed.

(** A concrete comparison: one module, a changed call, a new one, and an event
    whose argument only changed its name. *)
Definition older := [CModule "Balances" [("transfer", ["Address"; "Compact<u128>"]); ("set", ["u8"])] [("Moved", ["H256"; "u32"])]].
Definition newer := [CModule "Balances" [("transfer", ["AccountId"; "Compact<u128>"]); ("set", ["u8"]); ("burn", [])] [("Moved", ["Hash"; "u32"])]; CModule "Nfts" [] []].
Example C40_case_distinct : distinct newer /\ distinct older.
Proof.
  split; (split; [cbn; repeat (constructor; [cbn; intuition discriminate|]); constructor|]); intros x Hx; repeat destruct Hx as [<-|Hx]; try contradiction; cbn; split;
    repeat (constructor; [cbn; intuition discriminate|]); constructor.
Qed.
Example C40_case : Compares (reg_env base_reg) newer older
  (Ok (Compared ["Nfts"] [("Balances", MChanges (Some (Changes ["burn()"] [("transfer(Address,Compact<u128>)", "transfer(AccountId,Compact<u128>)")])) None)])).
Proof. split; [discriminate|]. exists 5%nat. vm_compute. reflexivity. Qed.
Example C40_case_self : Compares (reg_env base_reg) newer newer (Ok (Compared [] [])).
Proof.
  apply C40_self_partial; [apply C40_case_distinct|]. intros t Ht. vm_compute in Ht. repeat destruct Ht as [<-|Ht]; try contradiction;
    (eexists; split; [|exists 5%nat; vm_compute; reflexivity]; discriminate).
Qed.

(** Without the condition on types it is false: a call taking a type whose
    description never returns makes the comparison run for ever, and one taking
    a map without its value type makes it panic. *)
Theorem C40_self_refuted :
  (let m := [CModule "Trees" [("grow", ["Nest"])] []] in distinct m /\ forall r, ~ Compares (reg_env loop_reg) m m r) /\
  (let m := [CModule "Trees" [("grow", ["BTreeMap<u8>"])] []] in distinct m /\ exists e, Compares (reg_env base_reg) m m (Panic e)).
Proof.
  assert (D : forall t, distinct [CModule "Trees" [("grow", [t])] []]).
  { intros t. split; cbn; [repeat constructor; intros []|]. intros x [<-|[]]. cbn. split; repeat constructor. intros []. }
  split; (split; [apply D|]).
  - intros r [NR [f H]]. apply NR. rewrite <- H. assert (O : getTypeStructString f (reg_env loop_reg) "Nest" 0 = OutOfFuel).
    { destruct (C41_returns_refuted "Nest") as [_ X]; [do 3 right; now left|]. destruct (getTypeStructString f (reg_env loop_reg) "Nest" 0) as [s|e|] eqn:Y; [| |reflexivity];
        exfalso; apply (X 0 ltac:(lia)); eexists; (split; [|exists f; exact Y]; discriminate). }
    unfold Compare. cbn [compare_modules module_by_name mod_name mod_calls String.eqb Ascii.eqb Bool.eqb compare_items by_name fst snd List.length Nat.eqb arg_changes].
    unfold Eq. rewrite O. reflexivity.
  - eexists. split; [|exists 5%nat; vm_compute; reflexivity]. discriminate.
Qed.

Print Assumptions C40_changes.
Print Assumptions C40_self_partial.
Print Assumptions C40_self_refuted.
