(** C29: how a tuple type string is taken apart. *)

From Verif Require Import GoBase SpecNum ProofsBase ModelTools ModelVal ModelRegistry ModelDecode ModelRegister ProofsRun SpecScale ProofsReads ProofsNames ProofsScale ProofsEncode ProofsApi PropCodec PropInts PropForms.

(** ** Which components the code handles *)
Definition opens (c : ascii) : bool := Ascii.eqb c "<"%char || Ascii.eqb c "("%char.
Definition closes (c : ascii) : bool := Ascii.eqb c ">"%char || Ascii.eqb c ")"%char.
(** Balanced, no '#', every comma inside brackets, and between an opening
    bracket and the next closing one ([fresh]). *)
Fixpoint tidy (depth : nat) (fresh : bool) (s : string) : bool :=
  match s with
  | EmptyString => negb fresh && Nat.eqb depth 0
  | String c r =>
      if opens c then tidy (S depth) true r
      else if closes c then match depth with O => false | S d => tidy d false r end
      else if Ascii.eqb c ","%char then fresh && tidy depth fresh r
      else negb (Ascii.eqb c "#"%char) && tidy depth fresh r
  end.
(** The texts from an opening bracket to the next closing one. *)
Fixpoint groups (cur : option string) (s : string) : list string :=
  match s with
  | EmptyString => []
  | String c r =>
      match cur with
      | None => if opens c then groups (Some (String c "")) r else groups None r
      | Some g => if closes c then (g ++ String c "") :: groups None r else groups (Some (g ++ String c "")) r
      end
  end.
(** No group with a comma is the tail of a longer group. *)
Definition separate (l : list string) : Prop :=
  forall p q y, In p l -> In q l -> has_char ","%char p -> q = y ++ p -> y = "".
Fixpoint cols (k : Z) (l : list string) : typemap :=
  match l with
  | [] => []
  | v :: r => ("col" ++ itoa k, trim_space v) :: cols (k + 1) r
  end.

(** ** Tokens *)
Inductive tok := Out (c : ascii) | Reg (p : string).
Definition tok_text (t : tok) : string := match t with Out c => String c "" | Reg p => p end.
Fixpoint text (l : list tok) : string := match l with [] => "" | t :: r => tok_text t ++ text r end.
Definition no_close (s : string) : Prop := forall c, has_char c s -> closes c = false.
Definition tail_of_region (x : string) : Prop := exists b c, x = b ++ String c "" /\ closes c = true /\ no_close b.
Definition region (x : string) : Prop := (exists c r, x = String c r /\ opens c = true) /\ tail_of_region x.
Definition tok_ok (t : tok) : Prop := match t with Out c => opens c = false | Reg p => region p end.

Lemma text_app a b : text (a ++ b) = text a ++ text b.
Proof. induction a as [|t a IH]; [reflexivity|]. cbn [app text]. now rewrite IH, app_assoc_s. Qed.
Lemma open_not_close c : opens c = true -> closes c = false.
Proof. unfold opens, closes. intros H. apply orb_prop in H as [H|H]; apply Ascii.eqb_eq in H; subst; reflexivity. Qed.

Lemma to_close_region b c r : no_close b -> closes c = true -> to_close (b ++ String c r) = Some (b ++ String c "", r).
Proof.
  intros N H. induction b as [|a b IH]; cbn [String.append to_close]; change is_close with closes.
  - now rewrite H.
  - rewrite (N a) by now left. rewrite IH; [reflexivity|]. intros x Hx. apply N. now right.
Qed.
Lemma region_parts p : region p -> exists o b c, p = String o (b ++ String c "") /\ opens o = true /\ closes c = true /\ no_close b.
Proof.
  intros ((o & r & -> & Ho) & b & c & E & Hc & N). destruct b as [|a b].
  - cbn in E. injection E as -> ->. rewrite open_not_close in Hc by exact Ho. discriminate.
  - injection E as <- ->. exists o, b, c. repeat split; try assumption. intros x Hx. apply N. now right.
Qed.
Lemma find_parts_toks l : Forall tok_ok l -> forall fuel, (String.length (text l) < fuel)%nat ->
  find_parts fuel (text l) = flat_map (fun t => match t with Reg p => [p] | _ => [] end) l.
Proof.
  induction 1 as [|t l H _ IH]; intros fuel L; [destruct fuel; reflexivity|]. destruct fuel as [|fuel]; [lia|].
  cbn [text flat_map]. cbn [text] in L. rewrite length_app_s in L. destruct t as [c|p].
  - cbn [tok_text String.append find_parts tok_ok] in *. change is_open with opens. rewrite H. apply IH. cbn in L. lia.
  - cbn [tok_text tok_ok app] in *. destruct (region_parts p H) as (o & b & c & -> & Ho & Hc & N).
    cbn [String.append find_parts]. change is_open with opens. rewrite Ho, app_assoc_s. cbn [String.append].
    rewrite to_close_region by assumption. f_equal. apply IH. cbn [String.length] in L. lia.
Qed.

(** ** Replacing a region in a token text *)
Lemma prefix_app p s : prefix p (p ++ s) = true.
Proof. induction p as [|c p IH]; [reflexivity|]. cbn [String.append prefix]. now rewrite Ascii.eqb_refl. Qed.
Lemma prefix_split p s : prefix p s = true -> exists r, s = p ++ r.
Proof.
  revert s. induction p as [|c p IH]; intros s H; [now exists s|]. destruct s as [|d s]; [discriminate|]. cbn [prefix] in H.
  destruct (Ascii.eqb_spec c d) as [->|]; [|discriminate]. destruct (IH s H) as [r ->]. now exists r.
Qed.
Lemma repl_skip old new p s : repl old new (String.length p) (p ++ s) = repl old new 0 s.
Proof. induction p as [|c p IH]; [reflexivity|]. exact IH. Qed.
Lemma repl_end old new p : repl old new (String.length p) p = "".
Proof. induction p as [|c p IH]; [reflexivity|]. exact IH. Qed.
(** A text with a single closing bracket at its end that starts another text
    whose first closing bracket ends [t] is [t]. *)
Lemma aligned P t rest r : tail_of_region P -> tail_of_region t -> t ++ rest = P ++ r -> P = t /\ rest = r.
Proof.
  intros (b & c & -> & Hc & N) (b' & c' & -> & Hc' & N') E. rewrite !app_assoc_s in E. cbn [String.append] in E.
  revert b' N' E. induction b as [|a b IH]; intros [|a' b'] N' E; cbn [String.append] in *; injection E as E1 E2; subst.
  - split; reflexivity.
  - exfalso. pose proof (N' _ (or_introl eq_refl)). congruence.
  - exfalso. pose proof (N _ (or_introl eq_refl)). congruence.
  - destruct (IH (fun x Hx => N x (or_intror Hx)) b' (fun x Hx => N' x (or_intror Hx)) E2) as [I1 I2]. split; [|exact I2].
    now rewrite I1.
Qed.
Lemma tail_drop a x : tail_of_region (String a x) -> x <> "" -> tail_of_region x.
Proof.
  intros ([|a' b] & c & E & Hc & N) H; injection E as -> ->; [contradiction|]. exists b, c. repeat split; try assumption. intros y Hy. apply N. now right.
Qed.
Lemma tail_prefix P t rest : tail_of_region P -> tail_of_region t -> prefix P (t ++ rest) = prefix P t.
Proof.
  intros HP Ht. destruct (prefix P (t ++ rest)) eqn:X.
  - apply prefix_split in X as [r X]. destruct (aligned P t rest r HP Ht X) as [-> _]. symmetry. rewrite <- (app_nil_r_s t) at 2. apply prefix_app.
  - destruct (prefix P t) eqn:Y; [|reflexivity]. apply prefix_split in Y as [r ->]. rewrite app_assoc_s, prefix_app in X. discriminate.
Qed.
Lemma rep_tail P Q t rest : tail_of_region P -> tail_of_region t ->
  repl P Q 0 (t ++ rest) = repl P Q 0 t ++ repl P Q 0 rest.
Proof.
  intros HP. induction t as [|a t IH]; intros Ht; [destruct Ht as ([|? ?] & ? & E & _); discriminate|].
  cbn [String.append repl]. change (String a (t ++ rest)) with (String a t ++ rest). rewrite tail_prefix by assumption.
  destruct (prefix P (String a t)) eqn:X.
  - apply prefix_split in X as [r X]. rewrite <- (app_nil_r_s (String a t)) in X.
    destruct (aligned P (String a t) "" r HP Ht X) as [-> _]. cbn [String.length]. rewrite Nat.sub_1_r, Nat.pred_succ.
    rewrite repl_skip, repl_end. now rewrite app_nil_r_s.
  - cbn [String.append]. f_equal. destruct t as [|b t]; [reflexivity|]. apply IH. eapply tail_drop; [exact Ht|discriminate].
Qed.
Lemma prefix_first P s c : region P -> opens c = false -> prefix P (String c s) = false.
Proof.
  intros ((o & r & -> & Ho) & _) N. cbn [prefix]. destruct (Ascii.eqb_spec o c) as [->|]; [congruence|reflexivity].
Qed.
Lemma rep_toks P Q l : region P -> Forall tok_ok l ->
  replace_all (text l) P Q = text (map (fun t => match t with Reg p => Reg (replace_all p P Q) | t => t end) l).
Proof.
  intros HP. unfold replace_all. induction 1 as [|t l H _ IH]; [reflexivity|]. cbn [text map]. destruct t as [c|p]; cbn [tok_text tok_ok] in *.
  - cbn [String.append repl]. rewrite prefix_first by assumption. now rewrite IH.
  - rewrite rep_tail by (apply HP || apply H). now rewrite IH.
Qed.
Lemma rep_same P Q : region P -> replace_all P P Q = Q.
Proof.
  intros ((o & r & -> & _) & _). unfold replace_all. cbn [repl]. rewrite <- (app_nil_r_s (String o r)) at 2. rewrite prefix_app.
  cbn [String.length]. rewrite Nat.sub_1_r, Nat.pred_succ, repl_end. apply app_nil_r_s.
Qed.
Lemma rep_none P Q x : tail_of_region P -> tail_of_region x -> (forall y, x <> y ++ P) -> replace_all x P Q = x.
Proof.
  intros HP. unfold replace_all. induction x as [|a x IH]; intros Hx N; [reflexivity|]. cbn [repl].
  destruct (prefix P (String a x)) eqn:X.
  - apply prefix_split in X as [r X]. rewrite <- (app_nil_r_s (String a x)) in X. destruct (aligned P (String a x) "" r HP Hx X) as [-> _].
    exfalso. now apply (N "").
  - f_equal. destruct x as [|b x]; [reflexivity|]. apply IH; [eapply tail_drop; [exact Hx|discriminate]|]. intros y E. apply (N (String a y)). now rewrite E.
Qed.

(** ** Marking *)
Definition mk (c : ascii) : ascii := if Ascii.eqb c ","%char then "#"%char else c.
Definition unmk (c : ascii) : ascii := if Ascii.eqb c "#"%char then ","%char else c.
Definition mark (s : string) : string := smap mk s.
Lemma replace_comma s : replace_all s "," "#" = mark s.
Proof.
  unfold replace_all, mark. induction s as [|c s IH]; [reflexivity|]. cbn [repl prefix smap String.length Nat.sub]. unfold mk at 1.
  rewrite Ascii.eqb_sym. destruct (Ascii.eqb c ",") eqn:X.
  - destruct s; cbn [String.append repl]; now rewrite <- IH.
  - now rewrite IH.
Qed.
Lemma replace_hash s : replace_all s "#" "," = smap unmk s.
Proof.
  unfold replace_all. induction s as [|c s IH]; [reflexivity|]. cbn [repl prefix smap String.length Nat.sub]. unfold unmk at 1.
  rewrite Ascii.eqb_sym. destruct (Ascii.eqb c "#") eqn:X.
  - destruct s; cbn [String.append repl]; now rewrite <- IH.
  - now rewrite IH.
Qed.
Lemma unmark s : ~ has_char "#"%char s -> smap unmk (mark s) = s.
Proof.
  unfold mark. induction s as [|c s IH]; intros N; [reflexivity|]. cbn [smap]. rewrite has_char_cons in N. rewrite IH by tauto. f_equal.
  unfold mk, unmk. destruct (Ascii.eqb_spec c ","%char) as [->|]; [reflexivity|]. destruct (Ascii.eqb_spec c "#"%char); [tauto|reflexivity].
Qed.
Lemma mark_app a b : mark (a ++ b) = mark a ++ mark b.
Proof. unfold mark. induction a as [|c a IH]; [reflexivity|]. cbn [String.append smap]. now rewrite IH. Qed.
Lemma mark_no_comma s : ~ has_char ","%char (mark s).
Proof.
  unfold mark. induction s as [|c s IH]; [easy|]. cbn [smap]. rewrite has_char_cons. intros [H|H]; [|tauto].
  unfold mk in H. destruct (Ascii.eqb_spec c ","%char); congruence.
Qed.
Lemma mark_id s : ~ has_char ","%char s -> mark s = s.
Proof.
  unfold mark. induction s as [|c s IH]; intros N; [reflexivity|]. cbn [smap]. rewrite has_char_cons in N. rewrite IH by tauto. f_equal.
  unfold mk. destruct (Ascii.eqb_spec c ","%char); [tauto|reflexivity].
Qed.
Lemma mk_kind c : opens (mk c) = opens c /\ closes (mk c) = closes c /\ is_space (mk c) = is_space c.
Proof. unfold mk. destruct (Ascii.eqb_spec c ","%char) as [->|]; repeat split. Qed.
Lemma mark_tail p : tail_of_region p -> tail_of_region (mark p).
Proof.
  intros (b & c & -> & Hc & N). exists (mark b), (mk c). rewrite mark_app. split; [reflexivity|]. split; [now rewrite (proj1 (proj2 (mk_kind c)))|].
  intros x Hx. clear - N Hx. induction b as [|a b IH]; [contradiction|]. unfold mark in Hx. cbn [smap] in Hx. rewrite has_char_cons in Hx. destruct Hx as [<-|Hx].
  - rewrite (proj1 (proj2 (mk_kind a))). apply N. now left.
  - apply IH; [|exact Hx]. intros y Hy. apply N. now right.
Qed.
Lemma mark_region p : region p -> region (mark p).
Proof.
  intros [(o & r & -> & Ho) T]. split; [|now apply mark_tail]. exists (mk o), (mark r). split; [reflexivity|]. now rewrite (proj1 (mk_kind o)).
Qed.

Lemma rep_self P s : P <> "" -> replace_all s P P = s.
Proof.
  intros NP. unfold replace_all. assert (G : forall n s, (String.length s <= n)%nat -> repl P P 0 s = s); [|now apply (G (String.length s))].
  intros n. induction n as [|n IH]; intros t L; (destruct t as [|c t]; [reflexivity|]); [cbn in L; lia|]. cbn [repl].
  destruct (prefix P (String c t)) eqn:X.
  - apply prefix_split in X as [r X]. destruct P as [|a P]; [contradiction|]. cbn [String.append] in X. injection X as -> ->.
    cbn [String.length]. rewrite Nat.sub_1_r, Nat.pred_succ, repl_skip. cbn [String.append]. do 2 f_equal. apply IH.
    cbn [String.length] in L. rewrite length_app_s in L. lia.
  - f_equal. apply IH. cbn [String.length] in L. lia.
Qed.
Lemma region_nonempty p : region p -> p <> "".
Proof. intros ((o & r & -> & _) & _). discriminate. Qed.

(** All the replacements, on one region. *)
Lemma mark_stays parts p : Forall region parts -> tail_of_region p ->
  fold_left (fun s P => replace_all s P (mark P)) parts (mark p) = mark p.
Proof.
  intros F Hp. induction F as [|P parts HP _ IH]; [reflexivity|]. cbn [fold_left].
  replace (replace_all (mark p) P (mark P)) with (mark p); [exact IH|].
  symmetry. destruct (in_dec Ascii.ascii_dec ","%char (s2b P)) as [HC|NC]; [|change (~ has_char ","%char P) in NC].
  - apply rep_none; [apply HP|now apply mark_tail|]. intros y E. apply (mark_no_comma p). rewrite E, has_char_app. now right.
  - rewrite (mark_id P) by exact NC. now apply rep_self, region_nonempty.
Qed.
Lemma mark_fold parts p : Forall region parts -> region p -> (forall P y, In P parts -> has_char ","%char P -> p = y ++ P -> y = "") ->
  In p parts -> fold_left (fun s P => replace_all s P (mark P)) parts p = mark p.
Proof.
  intros F Hp S I. induction F as [|P parts HP F IH]; [contradiction|]. cbn [fold_left].
  destruct (string_dec P p) as [->|NE].
  - rewrite rep_same by exact Hp. apply mark_stays; [exact F|apply Hp].
  - destruct I as [I|I]; [congruence|].
    replace (replace_all p P (mark P)) with p; [apply IH; [intros P' y I'; apply S; now right|exact I]|].
    symmetry. destruct (in_dec Ascii.ascii_dec ","%char (s2b P)) as [HC|NC]; [|change (~ has_char ","%char P) in NC].
    + apply rep_none; [apply HP|apply Hp|]. intros y E. assert (y = "") by (apply (S P y); [now left|exact HC|exact E]). subst y. now apply NE.
    + rewrite (mark_id P) by exact NC. now apply rep_self, region_nonempty.
Qed.
Definition mark_tok (t : tok) : tok := match t with Reg p => Reg (mark p) | t => t end.
Definition regs (l : list tok) : list string := flat_map (fun t => match t with Reg p => [p] | _ => [] end) l.
Lemma regs_region l : Forall tok_ok l -> Forall region (regs l).
Proof. induction 1 as [|[c|p] l H _ IH]; cbn [regs flat_map app]; [constructor|exact IH|]. now constructor. Qed.
Lemma regs_app a b : regs (a ++ b) = (regs a ++ regs b)%list.
Proof. unfold regs. apply flat_map_app. Qed.

Lemma snoc_inj s t a b : s ++ String a "" = t ++ String b "" -> s = t.
Proof.
  revert t. induction s as [|d s IH]; intros [|e t] E; cbn [String.append] in E.
  - reflexivity.
  - injection E as _ E. destruct t; discriminate.
  - injection E as _ E. destruct s; discriminate.
  - injection E as -> E. f_equal. now apply IH.
Qed.
Lemma rep_keeps P Q p : region P -> region Q -> region p -> region (replace_all p P Q).
Proof.
  intros HP HQ Hp. destruct (string_dec P p) as [->|NE]; [now rewrite rep_same|].
  assert (X : (forall y, p <> y ++ P) \/ exists y, p = y ++ P).
  { clear. induction p as [|c p [IH|[y IH]]].
    - destruct P as [|a P]; [right; now exists ""|]. left. intros [|? ?]; discriminate.
    - destruct (string_dec (String c p) P) as [<-|N]; [right; now exists ""|]. left. intros [|d y] E; [now apply N|]. injection E as <- E. now apply (IH y).
    - right. exists (String c y). now rewrite IH. }
  destruct X as [N|[y ->]]; [rewrite rep_none; [exact Hp|apply HP|apply Hp|exact N]|].
  assert (R : replace_all (y ++ P) P Q = y ++ Q).
  { clear NE. unfold replace_all. destruct Hp as [_ Tp]. induction y as [|a y IH]; [now apply rep_same|]. cbn [String.append repl].
    destruct (prefix P (String a (y ++ P))) eqn:X.
    - apply prefix_split in X as [r X]. rewrite <- (app_nil_r_s (String a (y ++ P))) in X.
      destruct (aligned P (String a (y ++ P)) "" r (proj2 HP) Tp X) as [E _]. apply (f_equal String.length) in E. cbn in E. rewrite length_app_s in E. lia.
    - f_equal. apply IH. eapply tail_drop; [exact Tp|]. intros E. apply (f_equal String.length) in E. rewrite length_app_s in E. cbn in E.
      apply region_nonempty in HP. destruct P; [contradiction|cbn in E; lia]. }
  rewrite R. destruct y as [|a y]; [exact HQ|]. destruct Hp as [(o & r & E & Ho) (b & c & E2 & Hc & N)]. split.
  - exists o, (y ++ Q). cbn [String.append] in E |- *. injection E as -> _. now split.
  - destruct HQ as [_ (b' & c' & -> & Hc' & N')]. exists (String a y ++ b'), c'. split; [now rewrite app_assoc_s|]. split; [exact Hc'|].
    intros x Hx. apply has_char_app in Hx as [Hx|Hx]; [|now apply N']. apply N.
    destruct HP as [_ (bp & cp & -> & Hcp & Np)].
    assert (B : b = String a y ++ bp) by (rewrite <- app_assoc_s in E2; symmetry; exact (snoc_inj _ _ _ _ E2)).
    rewrite B, has_char_app. now left.
Qed.
Definition step_tok (P : string) (t : tok) : tok := match t with Reg p => Reg (replace_all p P (mark P)) | t => t end.
Lemma fold_toks parts l : Forall region parts -> Forall tok_ok l ->
  fold_left (fun s P => replace_all s P (mark P)) parts (text l)
  = text (map (fun t => match t with Reg p => Reg (fold_left (fun s P => replace_all s P (mark P)) parts p) | t => t end) l).
Proof.
  intros F. revert l. induction F as [|P parts HP F IH]; intros l Hl; cbn [fold_left].
  - f_equal. symmetry. rewrite <- (map_id l) at 2. apply map_ext. now intros [c|p].
  - rewrite rep_toks by assumption. rewrite IH.
    + rewrite map_map. f_equal. apply map_ext. now intros [c|p].
    + rewrite Forall_map. eapply Forall_impl; [|exact Hl]. intros [c|p] H; [exact H|]. cbn [tok_ok] in *.
      apply rep_keeps; [exact HP|now apply mark_region|exact H].
Qed.
Lemma mark_toks l : Forall tok_ok l -> separate (regs l) ->
  fold_left (fun s P => replace_all s P (mark P)) (regs l) (text l) = text (map mark_tok l).
Proof.
  intros Hl S. rewrite fold_toks; [|now apply regs_region|exact Hl]. f_equal. apply map_ext_in. intros [c|p] I; [reflexivity|]. cbn [mark_tok].
  assert (IP : In p (regs l)) by (apply in_flat_map; exists (Reg p); split; [exact I|now left]).
  rewrite Forall_forall in Hl. rewrite mark_fold; [reflexivity| |apply (Hl _ I)| |exact IP].
  - apply regs_region. now apply Forall_forall.
  - intros P y I' HC E. exact (S P p y I' IP HC E).
Qed.

(** ** Components as tokens *)
Definition comp_tok (t : tok) : Prop := tok_ok t /\ t <> Out ","%char.
Definition opened (g : string) : Prop := (exists o r, g = String o r /\ opens o = true) /\ no_close g.
Lemma opened_start c : opens c = true -> opened (String c "").
Proof. intros H. split; [now exists c, ""|]. intros x [<-|[]]. now apply open_not_close. Qed.
Lemma opened_snoc g c : opened g -> closes c = false -> opened (g ++ String c "").
Proof.
  intros [(o & r & -> & Ho) N] H. split; [now exists o, (r ++ String c "")|]. intros x Hx. apply has_char_app in Hx as [Hx|[<-|[]]]; [now apply N|exact H].
Qed.
Lemma opened_close g c : opened g -> closes c = true -> region (g ++ String c "").
Proof. intros [(o & r & E & Ho) N] H. split; [exists o, (r ++ String c ""); now subst|]. now exists g, c. Qed.
Lemma tidy_toks s :
  (forall d, tidy d false s = true -> exists l, Forall comp_tok l /\ text l = s /\ regs l = groups None s) /\
  (forall d g, opened g -> tidy d true s = true -> exists l, Forall comp_tok l /\ text l = g ++ s /\ regs l = groups (Some g) s).
Proof.
  induction s as [|c s [IO II]]; split.
  - intros d _. exists []. now repeat constructor.
  - discriminate.
  - intros d H. cbn [tidy groups] in *. destruct (opens c) eqn:HO; [exact (II _ _ (opened_start c HO) H)|].
    assert (X : exists d', tidy d' false s = true /\ c <> ","%char).
    { destruct (closes c) eqn:HC; [destruct d; [discriminate|]; exists d; split; [exact H|intros ->; discriminate]|].
      destruct (Ascii.eqb_spec c ","%char); [discriminate|]. exists d. split; [now apply andb_prop in H as [_ H]|assumption]. }
    destruct X as (d' & X & NC). destruct (IO d' X) as (l & F & E1 & E2). exists (Out c :: l). split; [|split].
    + constructor; [|exact F]. split; [exact HO|congruence].
    + cbn [text tok_text String.append]. now rewrite E1.
    + exact E2.
  - intros d g Hg H. cbn [tidy groups] in *. destruct (closes c) eqn:HC.
    + assert (HO : opens c = false) by (destruct (opens c) eqn:Y; [apply open_not_close in Y; congruence|reflexivity]). rewrite HO in H.
      destruct d as [|d]; [discriminate|]. destruct (IO d H) as (l & F & E1 & E2). exists (Reg (g ++ String c "") :: l). split; [|split].
      * constructor; [|exact F]. split; [now apply opened_close|discriminate].
      * cbn [text tok_text]. now rewrite E1, app_assoc_s.
      * cbn [regs flat_map app]. unfold regs in E2. now rewrite E2.
    + assert (X : exists d', tidy d' true s = true).
      { destruct (opens c); [now exists (S d)|]. destruct (Ascii.eqb c ","%char); [now exists d|]. exists d. now apply andb_prop in H as [_ H]. }
      destruct X as (d' & X). destruct (II d' _ (opened_snoc g c Hg HC) X) as (l & F & E1 & E2). exists l. split; [exact F|]. split; [|exact E2].
      now rewrite E1, app_assoc_s.
Qed.
Lemma tidy_no_hash s : forall d f, tidy d f s = true -> ~ has_char "#"%char s.
Proof.
  induction s as [|c s IH]; intros d f H; [easy|]. rewrite has_char_cons. cbn [tidy] in H.
  destruct (opens c) eqn:HO; [intros [->|X]; [discriminate|exact (IH _ _ H X)]|].
  destruct (closes c) eqn:HC; [destruct d; [discriminate|]; intros [->|X]; [discriminate|exact (IH _ _ H X)]|].
  destruct (Ascii.eqb_spec c ","%char) as [->|]; apply andb_prop in H as [H1 H2].
  - intros [X|X]; [discriminate|exact (IH _ _ H2 X)].
  - intros [->|X]; [discriminate|exact (IH _ _ H2 X)].
Qed.
Lemma mark_comp l : Forall comp_tok l -> text (map mark_tok l) = mark (text l).
Proof.
  induction 1 as [|t l [H N] _ IH]; [reflexivity|]. cbn [map text]. rewrite mark_app, IH. f_equal. destruct t as [c|p]; [|reflexivity].
  cbn [mark_tok tok_text]. symmetry. apply mark_id. intros [E|[]]. congruence.
Qed.

(** ** The whole tuple *)
Fixpoint toks_of (ls : list (list tok)) : list tok :=
  match ls with
  | [] => []
  | [l] => l
  | l :: r => (l ++ Out ","%char :: toks_of r)%list
  end.
Lemma toks_text ls : text (toks_of ls) = join "," (map text ls).
Proof.
  induction ls as [|l [|l' r] IH]; [reflexivity|reflexivity|].
  change (toks_of (l :: l' :: r)) with (l ++ Out ","%char :: toks_of (l' :: r))%list. rewrite text_app. cbn [text tok_text]. rewrite IH. reflexivity.
Qed.
Lemma toks_ok ls : Forall (Forall comp_tok) ls -> Forall tok_ok (toks_of ls).
Proof.
  assert (C : forall l, Forall comp_tok l -> Forall tok_ok l) by (intros l; apply Forall_impl; now intros t [H _]).
  induction 1 as [|l ls H F IH]; [constructor|]. destruct ls as [|l' r]; [now apply C|].
  change (toks_of (l :: l' :: r)) with (l ++ Out ","%char :: toks_of (l' :: r))%list. apply Forall_app. split; [now apply C|]. constructor; [reflexivity|exact IH].
Qed.
Lemma toks_regs ls : regs (toks_of ls) = flat_map regs ls.
Proof.
  induction ls as [|l [|l' r] IH]; [reflexivity|cbn [toks_of flat_map]; now rewrite app_nil_r|].
  change (toks_of (l :: l' :: r)) with (l ++ Out ","%char :: toks_of (l' :: r))%list. rewrite regs_app. cbn [flat_map]. f_equal. exact IH.
Qed.
Lemma toks_map ls : map mark_tok (toks_of ls) = toks_of (map (map mark_tok) ls).
Proof.
  induction ls as [|l [|l' r] IH]; [reflexivity|reflexivity|].
  change (toks_of (l :: l' :: r)) with (l ++ Out ","%char :: toks_of (l' :: r))%list. rewrite map_app. cbn [map]. cbn [map] in IH. rewrite IH. reflexivity.
Qed.

Lemma split_comps l : l <> [] -> Forall (fun s => ~ has_char ","%char s) l -> split_char ","%char (join "," l) = l.
Proof.
  intros NE F. destruct F as [|s l Hs F]; [contradiction|]. clear NE. revert s Hs. induction F as [|s' l Hs' F IH]; intros s Hs.
  - now apply split_absent.
  - change (join "," (s :: s' :: l)) with (s ++ String ","%char (join "," (s' :: l))). rewrite split_at by exact Hs. f_equal. now apply IH.
Qed.
Lemma trim_mark s : trim_space (mark s) = mark (trim_space s).
Proof.
  unfold trim_space, mark.
  assert (L : trim_left (smap mk s) = smap mk (trim_left s)).
  { induction s as [|c s IH]; [reflexivity|]. cbn [smap trim_left]. rewrite (proj2 (proj2 (mk_kind c))). destruct (is_space c); [exact IH|reflexivity]. }
  rewrite L. generalize (trim_left s). intros t. induction t as [|c t IH]; [reflexivity|]. cbn [smap trim_right]. rewrite IH.
  destruct (trim_right t); cbn [smap]; [|reflexivity]. rewrite (proj2 (proj2 (mk_kind c))). now destruct (is_space c).
Qed.
Lemma trim_incl x s : has_char x (trim_space s) -> has_char x s.
Proof.
  unfold trim_space. assert (R : forall t, has_char x (trim_right t) -> has_char x t).
  { induction t as [|c t IH]; [easy|]. cbn [trim_right]. rewrite has_char_cons. destruct (trim_right t) as [|d r].
    - destruct (is_space c); [easy|]. rewrite has_char_cons. intros [->|[]]. now left.
    - rewrite has_char_cons. intros [->|H]; [now left|right; now apply IH]. }
  intros H. apply R in H. induction s as [|c s IH]; [easy|]. cbn [trim_left] in H. rewrite has_char_cons. destruct (is_space c); [right; now apply IH|exact H].
Qed.
Lemma cols_marked comps : Forall (fun s => ~ has_char "#"%char s /\ trim_space s <> "") comps -> forall k, tuple_cols k (map mark comps) = cols (k + 1) comps.
Proof.
  induction 1 as [|s l [H1 H2] _ IH]; intros k; [reflexivity|]. cbn [map tuple_cols cols]. rewrite trim_mark, IH.
  assert (N : mark (trim_space s) <> "") by (destruct (trim_space s); [contradiction|discriminate]).
  destruct (String.eqb_spec (mark (trim_space s)) ""); [contradiction|]. rewrite replace_hash, unmark; [reflexivity|].
  intros X. now apply H1, trim_incl.
Qed.

Definition good_comps (comps : list string) : Prop :=
  comps <> [] /\ Forall (fun s => tidy 0 false s = true /\ trim_space s <> "") comps /\ separate (flat_map (groups None) comps).
Lemma strip_tuple s : strip_ends ("(" ++ s ++ ")") = s.
Proof.
  unfold strip_ends. cbn [String.append]. rewrite length_app_s. cbn [String.length]. replace (String.length s + 1 - 1)%nat with (String.length s) by lia.
  induction s as [|c s IH]; [reflexivity|]. cbn [String.length stake String.append]. now rewrite IH.
Qed.
Lemma last_tuple s : last_char (s ++ ")") = Some ")"%char.
Proof. induction s as [|c s IH]; [reflexivity|]. cbn [String.append last_char]. destruct (s ++ ")") eqn:X; [destruct s; discriminate|exact IH]. Qed.
Lemma build_tuple comps : good_comps comps -> buildStruct ("(" ++ join "," comps ++ ")") = Some (cols 1 comps).
Proof.
  intros (NE & F & S).
  assert (T : exists ls, Forall (Forall comp_tok) ls /\ map text ls = comps /\ flat_map regs ls = flat_map (groups None) comps).
  { clear NE S. induction F as [|s l [Hs _] _ (ls & F1 & E1 & E2)]; [now exists []|].
    destruct (proj1 (tidy_toks s) 0%nat Hs) as (t & G1 & G2 & G3). exists (t :: ls). split; [now constructor|]. cbn [map flat_map]. now rewrite G2, G3, E1, E2. }
  destruct T as (ls & F1 & E1 & E2).
  unfold buildStruct. rewrite strip_tuple. change (last_char ("(" ++ join "," comps ++ ")")) with (last_char (String "("%char (join "," comps ++ ")"))).
  change (String "("%char (join "," comps ++ ")")) with (("(" ++ join "," comps) ++ ")"). rewrite last_tuple. cbn [first_char String.append]. cbn [Ascii.eqb Bool.eqb andb].
  rewrite <- E1, <- toks_text. rewrite find_parts_toks by (lia || now apply toks_ok).
  change (flat_map _ (toks_of ls)) with (regs (toks_of ls)).
  assert (M : fold_left (fun s p => replace_all s p (replace_all p "," "#")) (regs (toks_of ls)) (text (toks_of ls)) = text (map mark_tok (toks_of ls))).
  { rewrite <- mark_toks; [|now apply toks_ok|rewrite toks_regs, E2; exact S].
    generalize (text (toks_of ls)). induction (regs (toks_of ls)) as [|p r IH]; intros t; [reflexivity|]. cbn [fold_left]. rewrite replace_comma. apply IH. }
  rewrite M, toks_map, toks_text.
  assert (K : map text (map (map mark_tok) ls) = map mark comps).
  { rewrite <- E1, !map_map. apply map_ext_in. intros l I. apply mark_comp. rewrite Forall_forall in F1. now apply F1. }
  rewrite K, split_comps.
  - f_equal. rewrite E1. apply (cols_marked comps) with (k := 0). eapply Forall_impl; [|exact F]. intros s [H1 H2]. split; [now apply (tidy_no_hash s 0%nat false)|exact H2].
  - destruct comps; [contradiction|discriminate].
  - rewrite Forall_map. apply Forall_forall. intros s _. apply mark_no_comma.
Qed.

Lemma not_overridden t m : (prefix "(" t = true \/ t = "struct") -> ModuleType t m = t.
Proof.
  intros H. unfold ModuleType. destruct (String.eqb m ""); [reflexivity|].
  assert (A : forall k l, assoc k typesModules = Some l -> Forall (fun p => prefix "(" (fst p) = false /\ fst p <> "struct") l).
  { intros k l. unfold typesModules. cbn [assoc].
    repeat match goal with |- context [String.eqb k ?x] => destruct (String.eqb k x); [intros [= <-]; repeat (constructor; [split; [reflexivity|discriminate]|]); constructor|] end.
    discriminate. }
  destruct (assoc (to_lower m) typesModules) as [l|] eqn:X; [|reflexivity]. specialize (A _ _ X). clear X.
  induction l as [|[k o] l IH]; [reflexivity|]. inversion A as [|? ? [N1 N2] A']; subst. cbn [assoc fst] in *.
  destruct (String.eqb_spec t k) as [->|]; [destruct H; congruence|]. now apply IH.
Qed.

(** [ts] is not a registered name itself. *)
Definition unregistered (E : env) (spec : Z) (t : string) : Prop :=
  specialVersionCodec E (to_lower t) spec = None /\ assoc (to_lower t) (e_reg E) = None.
Definition struct_builtin (E : env) : Prop := (exists tm, assoc "struct" (e_reg E) = Some (CStruct tm)) /\ assoc "struct" (e_special E) = None.

Lemma tuple_resolves E c ts comps : struct_builtin E -> good_comps comps ->
  ConvertType ts = "(" ++ join "," comps ++ ")" -> unregistered E (x_spec c) (ConvertType ts) ->
  resolves E c ts (CStruct (Some (cols 1 comps))).
Proof.
  intros [[tm S1] S2] G C [U1 U2]. exists (CStruct (Some (cols 1 comps))), "". split; [|reflexivity]. unfold GetCodecClass.
  set (t := "(" ++ join "," comps ++ ")") in *.
  assert (LC : last_char t = Some ")"%char) by (change t with (("(" ++ join "," comps) ++ ")"); apply last_tuple).
  assert (N : t <> "()").
  { unfold t. intros X. injection X as X. destruct G as (NE & F & _). destruct F as [|s l [_ Hs] _]; [contradiction|].
    apply Hs. destruct s as [|a s]; [reflexivity|]. apply (f_equal String.length) in X. rewrite length_app_s in X.
    destruct l; cbn [join String.append String.length] in X; lia. }
  assert (GI : getCodecInstant E (x_module c) t (x_spec c) = Ok None).
  { unfold getCodecInstant. rewrite not_overridden by now left. rewrite C in U1, U2. rewrite U1, to_lower_idem, U2.
    change (to_lower t) with (String "("%char (to_lower (join "," comps ++ ")"))). change (String.eqb (String "("%char (to_lower (join "," comps ++ ")"))) "[]") with false. cbv iota.
    destruct (last_char_some (String "("%char (to_lower (join "," comps ++ ")"))) ltac:(discriminate)) as [z ->]. reflexivity. }
  assert (GS : getCodecInstant E (x_module c) "Struct" (x_spec c) = Ok (Some (CStruct tm))).
  { unfold getCodecInstant. change (to_lower "Struct") with "struct". rewrite not_overridden by now right. unfold specialVersionCodec. rewrite S2.
    change (to_lower "struct") with "struct". now rewrite S1. }
  assert (R : forall fuel, GetCodecClass_fuel fuel E (x_module c) ts (x_spec c) = Ok (Some (CStruct (buildStruct t), ""))).
  { intros fuel. destruct fuel; cbn [GetCodecClass_fuel]; rewrite C, LC; change (Ascii.eqb ")" ">") with false; cbn [bind]; rewrite GI; cbn [bind];
      (destruct (String.eqb_spec t "()"); [contradiction|]); change (prefix "(" t) with true; change (Ascii.eqb ")" ")") with true; cbn [negb andb]; rewrite GS; reflexivity. }
  rewrite R. unfold t. now rewrite build_tuple.
Qed.

Lemma cols_names l : forall k, map snd (cols k l) = map trim_space l /\ NoDup (map fst (cols k l))
  /\ (forall n, In n (map fst (cols k l)) -> exists j, k <= j /\ n = "col" ++ itoa j).
Proof.
  induction l as [|s l IH]; intros k; cbn [cols map fst snd]; [repeat split; [constructor|contradiction]|].
  destruct (IH (k + 1)) as (A & B & C). split; [now rewrite A|]. split.
  - constructor; [|exact B]. intros I. apply C in I as (j & J & E). injection E as E. apply itoa_inj in E. lia.
  - intros n [<-|I]; [exists k; split; [lia|reflexivity]|]. apply C in I as (j & J & ->). exists j. split; [lia|reflexivity].
Qed.

(** ** C29
    A tuple type string whose components are [tidy] and whose bracket groups
    are [separate] is the structure of exactly its components, named col1,
    col2, ...; decoding it decodes the components one after the other. *)
Theorem C29_fields_partial E c ts comps bs gs cs pre tl : std_env E -> struct_builtin E -> good_comps comps ->
  ConvertType ts = "(" ++ join "," comps ++ ")" -> unregistered E (x_spec c) (ConvertType ts) ->
  scales false E c (map trim_space comps) bs gs cs -> blen (pre ++ bs ++ tl) < 2 ^ 63 ->
  Decodes E c (pre ++ bs ++ tl) (blen pre) ts (Ok (VMap (combine (map fst (cols 1 comps)) gs), blen pre + blen bs, cs)).
Proof.
  intros S SB G C U H L. destruct (cols_names comps 1) as (A & B & _). apply C15_decode; [exact S| |exact L].
  apply (sc_type false E c ts (CStruct (Some (cols 1 comps)))); [now apply tuple_resolves|discriminate|].
  constructor; [now rewrite A|exact B].
Qed.

(** In particular every tuple of components without nested brackets. *)
Fixpoint flat (inside : bool) (s : string) : bool :=
  match s with
  | EmptyString => negb inside
  | String c r =>
      if opens c then negb inside && flat true r
      else if closes c then inside && flat false r
      else if Ascii.eqb c ","%char then inside && flat inside r
      else negb (Ascii.eqb c "#"%char) && flat inside r
  end.
Lemma flat_tidy s : forall i, flat i s = true -> tidy (if i then 1 else 0) i s = true.
Proof.
  induction s as [|c s IH]; intros i H; [destruct i; [discriminate|reflexivity]|]. cbn [flat tidy] in *.
  destruct (opens c); [apply andb_prop in H as [H1 H2]; destruct i; [discriminate|]; exact (IH true H2)|].
  destruct (closes c); [apply andb_prop in H as [H1 H2]; destruct i; [|discriminate]; exact (IH false H2)|].
  destruct (Ascii.eqb c ","%char); [apply andb_prop in H as [H1 H2]; destruct i; [|discriminate]; exact (IH true H2)|].
  apply andb_prop in H as [H1 H2]. rewrite H1. exact (IH i H2).
Qed.
Definition one_open (g : string) : Prop := exists o r, g = String o r /\ opens o = true /\ forall x, has_char x r -> opens x = false.
Lemma flat_groups s : (flat false s = true -> Forall one_open (groups None s)) /\
  (forall g, one_open g -> flat true s = true -> Forall one_open (groups (Some g) s)).
Proof.
  induction s as [|c s [I1 I2]]; split; [constructor|constructor| |].
  - intros H. cbn [flat groups] in *. destruct (opens c) eqn:O.
    + apply I2; [|now apply andb_prop in H as [_ H]]. exists c, "". repeat split; [exact O|contradiction].
    + apply I1. destruct (closes c); [discriminate|]. destruct (Ascii.eqb c ","%char); [discriminate|]. now apply andb_prop in H as [_ H].
  - intros g G H. cbn [flat groups] in *. destruct (opens c) eqn:O; [discriminate|].
    assert (G' : one_open (g ++ String c "")).
    { destruct G as (o & r & -> & Ho & N). exists o, (r ++ String c ""). repeat split; [exact Ho|]. intros x Hx. apply has_char_app in Hx as [Hx|[<-|[]]]; [now apply N|exact O]. }
    destruct (closes c).
    + constructor; [exact G'|]. apply I1. exact H.
    + apply I2; [exact G'|]. destruct (Ascii.eqb c ","%char); [exact H|]. now apply andb_prop in H as [_ H].
Qed.
Theorem C29_flat E c ts comps bs gs cs pre tl : std_env E -> struct_builtin E ->
  comps <> [] -> Forall (fun s => flat false s = true /\ trim_space s <> "") comps ->
  ConvertType ts = "(" ++ join "," comps ++ ")" -> unregistered E (x_spec c) (ConvertType ts) ->
  scales false E c (map trim_space comps) bs gs cs -> blen (pre ++ bs ++ tl) < 2 ^ 63 ->
  Decodes E c (pre ++ bs ++ tl) (blen pre) ts (Ok (VMap (combine (map fst (cols 1 comps)) gs), blen pre + blen bs, cs)).
Proof.
  intros S SB NE F. apply C29_fields_partial; [exact S|exact SB|]. split; [exact NE|]. split.
  - eapply Forall_impl; [|exact F]. intros s [H1 H2]. split; [exact (flat_tidy s false H1)|exact H2].
  - assert (O : Forall one_open (flat_map (groups None) comps)).
    { apply Forall_forall. intros g I. apply in_flat_map in I as (s & I1 & I2). rewrite Forall_forall in F.
      pose proof (proj1 (flat_groups s) (proj1 (F s I1))) as O. rewrite Forall_forall in O. now apply O. }
    rewrite Forall_forall in O. intros p q y Ip Iq _ ->. destruct y as [|a y]; [reflexivity|]. exfalso.
    destruct (O p Ip) as (o & r & -> & Ho & _). destruct (O _ Iq) as (o' & r' & E2 & _ & N). cbn [String.append] in E2. injection E2 as _ <-.
    rewrite N in Ho; [discriminate|]. apply has_char_app. right. now left.
Qed.

(** With nested brackets components are cut in the wrong place: a comma after a
    nested closing bracket, and a group that is the tail of another one. *)
Fixpoint balanced (depth : nat) (s : string) : bool :=
  match s with
  | EmptyString => Nat.eqb depth 0
  | String c r =>
      if opens c then balanced (S depth) r
      else if closes c then match depth with O => false | S d => balanced d r end
      else negb (Nat.eqb depth 0 && Ascii.eqb c ","%char) && balanced depth r
  end.
Theorem C29_fields_refuted :
  let E := reg_env base_reg in let c := Ctx (-1) "" None in
  let refutes comps got := Forall (fun s => balanced 0 s = true) comps
    /\ resolves E c ("(" ++ join "," comps ++ ")") (CStruct (Some got)) /\ got <> cols 1 comps in
  refutes ["(u8,(u8,u8),u8)"; "u8"] [("col1", "(u8,(u8,u8)"); ("col2", "u8)"); ("col3", "u8")]
  /\ refutes ["(u8,u8)"; "BTreeMap<u8,(u8,u8)>"] [("col1", "(u8,u8)"); ("col2", "BTreeMap<u8"); ("col3", "(u8,u8)>")].
Proof.
  cbv zeta beta. split; (split; [repeat constructor|]); (split; [|discriminate]); eexists; eexists; (split; [vm_compute; reflexivity|reflexivity]).
Qed.

Example C29_case :
  let E := reg_env base_reg in let c := Ctx (-1) "" None in
  Decodes E c [Zb 1; Zb 7; Zb 9; Zb 1] 0 "(bool, (u8,u8), Option<u8>)"
    (Ok (VMap [("col1", VBool true); ("col2", VMap [("col1", VInt 7); ("col2", VInt 9)]); ("col3", VInt 0)], 4, [])).
Proof. cbv zeta. split; [discriminate|]. exists 20%nat. vm_compute. reflexivity. Qed.
Example C29_flat_case :
  struct_builtin (reg_env base_reg) /\ unregistered (reg_env base_reg) (-1) "(bool, (u8,u8), Option<u8>)" /\
  Forall (fun s => flat false s = true /\ trim_space s <> "") ["bool"; " (u8,u8)"; " Option<u8>"] /\
  "(" ++ join "," ["bool"; " (u8,u8)"; " Option<u8>"] ++ ")" = "(bool, (u8,u8), Option<u8>)".
Proof.
  split; [split; [eexists; vm_compute; reflexivity|reflexivity]|]. split; [split; reflexivity|]. split; [repeat constructor; discriminate|reflexivity].
Qed.
Example C29_nested_case : good_comps ["Vec<(u8,Option<u8>)>"; "(u8,Vec<u16>)"].
Proof.
  split; [discriminate|]. split; [repeat constructor; discriminate|]. cbn. intros p q y Ip Iq _ E.
  destruct Ip as [<-|[<-|[]]], Iq as [<-|[<-|[]]];
    repeat (destruct y as [|? y]; [reflexivity || discriminate|cbn [String.append] in E; first [discriminate|injection E as _ E]]).
Qed.

Print Assumptions C29_fields_partial.
Print Assumptions C29_flat.
Print Assumptions C29_fields_refuted.
