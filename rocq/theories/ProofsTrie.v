(** Finding names quickly: tries in place of association lists, so that checks
    of large tables run in reasonable time. *)

From Verif Require Import GoBase ModelTools.

Inductive trie (A : Type) := Trie (here : option A) (kids : list (ascii * trie A)).
Arguments Trie {A} _ _.
Section Trie.
Context {A : Type}.
Fixpoint kid_of (c : ascii) (l : list (ascii * trie A)) : option (trie A) :=
  match l with [] => None | (a, t) :: r => if Ascii.eqb c a then Some t else kid_of c r end.
Fixpoint with_kid (c : ascii) (t : trie A) (l : list (ascii * trie A)) : list (ascii * trie A) :=
  match l with [] => [(c, t)] | (a, u) :: r => if Ascii.eqb c a then (a, t) :: r else (a, u) :: with_kid c t r end.
Definition bare_trie : trie A := Trie None [].
Fixpoint tfind (s : string) (t : trie A) : option A :=
  match s with
  | EmptyString => let 'Trie h _ := t in h
  | String c s => let 'Trie _ l := t in match kid_of c l with Some u => tfind s u | None => None end
  end.
Fixpoint tput (s : string) (x : A) (t : trie A) : trie A :=
  match s with
  | EmptyString => let 'Trie _ l := t in Trie (Some x) l
  | String c s => let 'Trie h l := t in Trie h (with_kid c (tput s x (match kid_of c l with Some u => u | None => bare_trie end)) l)
  end.
Definition tbuild (l : list (string * A)) : trie A := fold_right (fun p t => tput (fst p) (snd p) t) bare_trie l.

Lemma kid_with c d t l : kid_of c (with_kid d t l) = if Ascii.eqb c d then Some t else kid_of c l.
Proof.
  induction l as [|[a u] l IH]; cbn [with_kid kid_of]; [reflexivity|]. destruct (Ascii.eqb_spec d a) as [->|N]; cbn [kid_of].
  - destruct (Ascii.eqb c a); reflexivity.
  - rewrite IH. destruct (Ascii.eqb_spec c a) as [->|]; [|reflexivity]. destruct (Ascii.eqb_spec a d) as [->|]; [congruence|reflexivity].
Qed.
Lemma tfind_bare s : tfind s bare_trie = None.
Proof. destruct s; reflexivity. Qed.
Lemma tfind_put s x : forall t k, tfind k (tput s x t) = if String.eqb k s then Some x else tfind k t.
Proof.
  induction s as [|c s IH]; intros [h l] k; destruct k as [|d k]; cbn [tput tfind String.eqb]; try reflexivity.
  rewrite kid_with. destruct (Ascii.eqb_spec d c) as [->|N]; [|reflexivity]. rewrite IH. destruct (String.eqb k s); [reflexivity|].
  destruct (kid_of c l); [reflexivity|apply tfind_bare].
Qed.
Lemma tfind_build k l : tfind k (tbuild l) = assoc k l.
Proof. induction l as [|[s x] l IH]; [apply tfind_bare|]. cbn [tbuild fold_right fst snd assoc]. rewrite tfind_put. fold (tbuild l). now rewrite IH. Qed.
End Trie.

Definition found {A} (o : option A) : bool := match o with Some _ => true | None => false end.
(** Each name once. *)
Fixpoint fresh_names (l : list string) (t : trie unit) : bool :=
  match l with
  | [] => true
  | k :: r => negb (found (tfind k t)) && fresh_names r (tput k tt t)
  end.
Lemma fresh_names_ok : forall l t, fresh_names l t = true -> NoDup l /\ forall k, In k l -> tfind k t = None.
Proof.
  induction l as [|k l IH]; intros t H; [split; [constructor|intros k []]|]. cbn [fresh_names] in H. apply andb_prop in H. destruct H as [N H].
  apply IH in H. destruct H as [ND F]. assert (NI : ~ In k l) by (intros I; specialize (F k I); rewrite tfind_put, String.eqb_refl in F; discriminate).
  split; [now constructor|]. intros q [<-|I]; [destruct (tfind k t); [discriminate|reflexivity]|].
  specialize (F q I). rewrite tfind_put in F. destruct (String.eqb q k); [discriminate|exact F].
Qed.
Definition distinct_names (l : list string) : bool := fresh_names l bare_trie.
Lemma distinct_names_ok l : distinct_names l = true -> NoDup l.
Proof. intros H. exact (proj1 (fresh_names_ok _ _ H)). Qed.
(** Membership. *)
Definition names_trie (l : list string) : trie unit := tbuild (map (fun k => (k, tt)) l).
Lemma names_trie_in l k : found (tfind k (names_trie l)) = true -> In k l.
Proof.
  unfold names_trie. rewrite tfind_build. induction l as [|s l IH]; [discriminate|]. cbn [map assoc]. destruct (String.eqb_spec k s) as [->|]; [now left|]. intros H. right. now apply IH.
Qed.
