(** Concurrent registrations.  C32. *)

From Verif Require Import GoBase ProofsBase ModelTools ModelVal ModelRegistry ModelRegister ModelConcurrent.

(** ** What it should be equivalent to *)
(** The registry that readers see, name by name. *)
Definition types_of (s : shared) (k : string) : option codec := assoc k (sh_types s).
Definition special_of (s : shared) (k : string) : option (list special) := option_map (content (sh_heap s)) (assoc k (sh_special s)).
(** [l] runs through the registrations of all goroutines, those of each
    goroutine in its order. *)
Inductive interleaving {A} : list A -> list (list A) -> Prop :=
| il_nil ps : Forall (fun p => p = []) ps -> interleaving [] ps
| il_cons i x p l ps : nth_error ps i = Some (x :: p) -> interleaving l (set_nth i p ps) -> interleaving (x :: l) ps.
(** The registry [s] is what the registrations [l] make of [r0] one by one. *)
Definition run_one (r : reg) (kc : string * codec) : reg := regCustomKey (fst kc) (snd kc) r.
Definition result_of (l : list (string * codec)) (r0 : reg) (s : shared) : Prop :=
  let r := fold_left run_one l r0 in
  (forall k, types_of s k = assoc k (r_types r)) /\ (forall k, special_of s k = assoc k (r_special r)).
(** No name has version ranges registered from two goroutines. *)
Definition versioned (p : list (string * codec)) (n : string) : Prop := exists key c sp, In (key, c) p /\ target key c = Some (n, sp).
Definition separate (ps : list (list (string * codec))) : Prop :=
  forall i j p q n, i <> j -> nth_error ps i = Some p -> nth_error ps j = Some q -> versioned p n -> versioned q n -> False.
(** Slices of different names share no backing array and lie within theirs. *)
Definition wf (owner : nat -> string) (s : shared) : Prop :=
  forall n h, assoc n (sh_special s) = Some h -> owner (h_arr h) = n /\ (h_arr h < List.length (sh_heap s))%nat /\ (h_len h <= List.length (cells (sh_heap s) (h_arr h)))%nat.

(** ** Lists and arrays *)
Lemma set_nth_length {A} i (x : A) l : List.length (set_nth i x l) = List.length l.
Proof. revert i. induction l as [|y l IH]; intros [|i]; cbn [set_nth List.length]; [reflexivity..|]. now rewrite IH. Qed.
Lemma nth_set_same {A} i (x d : A) l : (i < List.length l)%nat -> nth i (set_nth i x l) d = x.
Proof. revert i. induction l as [|y l IH]; intros [|i] L; cbn [List.length] in L; try lia; [reflexivity|]. cbn [set_nth nth]. apply IH. lia. Qed.
Lemma nth_set_other {A} i j (x d : A) l : i <> j -> nth j (set_nth i x l) d = nth j l d.
Proof. revert i j. induction l as [|y l IH]; intros [|i] [|j] N; try reflexivity; [lia|]. cbn [set_nth nth]. apply IH. lia. Qed.
Lemma nth_error_set_same {A} i (x : A) l : (i < List.length l)%nat -> nth_error (set_nth i x l) i = Some x.
Proof. revert i. induction l as [|y l IH]; intros [|i] L; cbn [List.length] in L; try lia; [reflexivity|]. cbn [set_nth nth_error]. apply IH. lia. Qed.
Lemma nth_error_set_other {A} i j (x : A) l : i <> j -> nth_error (set_nth i x l) j = nth_error l j.
Proof. revert i j. induction l as [|y l IH]; intros [|i] [|j] N; try reflexivity; [lia|]. cbn [set_nth nth_error]. apply IH. lia. Qed.
Lemma map_set_nth {A B} (f : A -> B) i x l : map f (set_nth i x l) = set_nth i (f x) (map f l).
Proof. revert i. induction l as [|y l IH]; intros [|i]; cbn [set_nth map]; [reflexivity..|]. now rewrite IH. Qed.

Definition in_heap (hp : heap) (h : header) : Prop := (h_arr h < List.length hp)%nat /\ (h_len h <= List.length (cells hp (h_arr h)))%nat.
Lemma content_new hp x h : in_heap hp h -> content (hp ++ [x])%list h = content hp h /\ in_heap (hp ++ [x])%list h.
Proof.
  intros [L1 L2]. unfold in_heap, content, cells in *. rewrite app_length, app_nth1 by exact L1. split; [reflexivity|]. split; [lia|exact L2].
Qed.
Lemma content_at_new hp cap l : content (hp ++ [(cap, l)])%list (Header (List.length hp) (List.length l)) = l /\ in_heap (hp ++ [(cap, l)])%list (Header (List.length hp) (List.length l)).
Proof.
  unfold in_heap, content, cells. cbn [h_arr h_len]. rewrite app_length, app_nth2, Nat.sub_diag by lia. cbn [nth snd List.length]. split; [apply firstn_all|lia].
Qed.
Lemma append_new hp h sp extra hp' h' : in_heap hp h -> append extra hp h sp = (hp', h') ->
  content hp' h' = (content hp h ++ [sp])%list /\ in_heap hp' h' /\ content hp' h = content hp h /\ in_heap hp' h /\
  (h_arr h' = h_arr h \/ h_arr h' = List.length hp) /\ (forall x, in_heap hp x -> h_arr x <> h_arr h -> content hp' x = content hp x /\ in_heap hp' x).
Proof.
  intros [L1 L2] X. unfold append in X. destruct (nth (h_arr h) hp (0%nat, [])) as [cap l] eqn:N.
  assert (CL : cells hp (h_arr h) = l) by (unfold cells; now rewrite N). assert (CT : content hp h = firstn (h_len h) l) by (unfold content; now rewrite CL).
  assert (IH : in_heap hp h) by now split. rewrite CL in L2. rewrite CT.
  assert (LF : List.length (firstn (h_len h) l) = h_len h) by (apply firstn_length_le; exact L2).
  destruct (Nat.ltb (h_len h) cap).
  - injection X as <- <-. set (l' := (firstn (h_len h) l ++ [sp] ++ skipn (S (h_len h)) l)%list).
    assert (C : forall k, cells (set_nth (h_arr h) (cap, l') hp) k = if Nat.eqb k (h_arr h) then l' else cells hp k).
    { intros k. unfold cells. destruct (Nat.eqb_spec k (h_arr h)) as [->|Q]; [now rewrite nth_set_same|]. now rewrite nth_set_other by auto. }
    assert (LL : (S (h_len h) <= List.length l')%nat) by (unfold l'; rewrite !app_length, LF; cbn [List.length]; lia).
    unfold content, in_heap. cbn [h_arr h_len]. rewrite !C, Nat.eqb_refl, set_nth_length.
    split; [unfold l'; rewrite firstn_app, LF, firstn_all2 by (rewrite LF; lia); replace (S (h_len h) - h_len h)%nat with 1%nat by lia; reflexivity|].
    split; [split; lia|]. split; [unfold l'; rewrite firstn_app, LF, Nat.sub_diag, firstn_O, app_nil_r; rewrite firstn_all2 by lia; reflexivity|]. split; [split; lia|]. split; [now left|].
    intros x [X1 X2] D. rewrite C. destruct (Nat.eqb_spec (h_arr x) (h_arr h)) as [Q|_]; [contradiction|]. split; [reflexivity|]. split; [lia|exact X2].
  - injection X as <- <-. set (l' := (firstn (h_len h) l ++ [sp])%list). assert (LL : List.length l' = S (h_len h)) by (unfold l'; rewrite app_length, LF; cbn [List.length]; lia).
    destruct (content_at_new hp (S (h_len h) + extra)%nat l') as [C1 C2]. rewrite LL in C1, C2. split; [exact C1|]. split; [exact C2|].
    destruct (content_new hp ((S (h_len h) + extra)%nat, l') h IH) as [D1 D2].
    split; [exact (eq_trans D1 CT)|]. split; [exact D2|]. split; [now right|]. intros x I' _. now apply content_new.
Qed.

(** ** The invariant *)
Definition current (s : shared) (n : string) : list special := match special_of s n with Some l => l | None => [] end.
Definition at_point (owner : nat -> string) (s : shared) (t : thread) : Prop :=
  match th_pc t with
  | Ready => True
  | Found o => exists key c rest name sp, th_todo t = (key, c) :: rest /\ target key c = Some (name, sp) /\ assoc name (sh_special s) = o
  | Built h => exists key c rest name sp, th_todo t = (key, c) :: rest /\ target key c = Some (name, sp) /\
      owner (h_arr h) = name /\ in_heap (sh_heap s) h /\ content (sh_heap s) h = (current s name ++ [sp])%list
  end.
(** The steps of a goroutine that works on [name] leave the others alone. *)
Lemma at_point_other owner owner' s s' name t :
  (forall n, n <> name -> assoc n (sh_special s') = assoc n (sh_special s) /\ special_of s' n = special_of s n) ->
  (forall h, owner (h_arr h) <> name -> in_heap (sh_heap s) h -> owner' (h_arr h) = owner (h_arr h) /\ content (sh_heap s') h = content (sh_heap s) h /\ in_heap (sh_heap s') h) ->
  ~ versioned (th_todo t) name -> at_point owner s t -> at_point owner' s' t.
Proof.
  intros A B V. unfold at_point. destruct (th_pc t) as [|o|h]; [trivial|..].
  - intros (key & c & rest & n & sp & T & G & O). exists key, c, rest, n, sp. split; [exact T|]. split; [exact G|]. rewrite <- O. apply A.
    intros ->. apply V. exists key, c, sp. rewrite T. split; [now left|exact G].
  - intros (key & c & rest & n & sp & T & G & O & I & C). exists key, c, rest, n, sp. split; [exact T|]. split; [exact G|].
    assert (N : n <> name). { intros ->. apply V. exists key, c, sp. rewrite T. split; [now left|exact G]. }
    destruct (B h ltac:(congruence) I) as (B1 & B2 & B3). split; [congruence|]. split; [exact B3|]. rewrite B2, C. unfold current. now rewrite (proj2 (A n N)).
Qed.

Definition all_points (owner : nat -> string) (s : shared) (ts : list thread) : Prop := forall i t, nth_error ts i = Some t -> at_point owner s t.

Lemma assoc_upd_same {A} k (x : A) m : assoc k (upd k x m) = Some x.
Proof. unfold upd. cbn [assoc]. now rewrite String.eqb_refl. Qed.
Lemma assoc_upd_other {A} k k' (x : A) m : k' <> k -> assoc k' (upd k x m) = assoc k' m.
Proof. intros N. unfold upd. cbn [assoc]. destruct (String.eqb_spec k' k); [contradiction|reflexivity]. Qed.

Definition own (owner : nat -> string) (a : nat) (n : string) (x : nat) : string := if Nat.eqb x a then n else owner x.

(** One step of one goroutine: it is silent, or it is its registration. *)
Lemma one_step owner s ts i t extra s' t' : wf owner s -> all_points owner s ts -> nth_error ts i = Some t -> separate (map th_todo ts) -> step extra s t = (s', t') ->
  (exists owner', wf owner' s' /\ all_points owner' s' (set_nth i t' ts)) /\
  ((th_todo t' = th_todo t /\ (forall k, types_of s' k = types_of s k) /\ (forall k, special_of s' k = special_of s k)) \/
   exists kc, th_todo t = kc :: th_todo t' /\ forall r, (forall k, types_of s k = assoc k (r_types r)) -> (forall k, special_of s k = assoc k (r_special r)) ->
     (forall k, types_of s' k = assoc k (r_types (run_one r kc))) /\ (forall k, special_of s' k = assoc k (r_special (run_one r kc)))).
Proof.
  intros W P NT SEP X. pose proof (P i t NT) as PT. unfold step in X.
  assert (LI : (i < List.length ts)%nat) by (apply nth_error_Some; congruence).
  destruct (th_todo t) as [|[key c] rest] eqn:TD.
  { injection X as <- <-. split; [|left; now rewrite TD]. exists owner. split; [exact W|]. intros j u NU. destruct (Nat.eq_dec i j) as [<-|N].
    - rewrite nth_error_set_same in NU by exact LI. injection NU as <-. now apply (P i).
    - rewrite nth_error_set_other in NU by exact N. now apply (P j). }
  destruct (target key c) as [[name sp]|] eqn:TG.
  2:{ injection X as <- <-. split.
    - exists owner. split; [exact W|]. intros j u NU. destruct (Nat.eq_dec i j) as [<-|N].
      + rewrite nth_error_set_same in NU by exact LI. injection NU as <-. exact I.
      + rewrite nth_error_set_other in NU by exact N. exact (P j u NU).
    - right. exists (key, c). split; [reflexivity|]. intros r RT RS. unfold target in TG. unfold run_one, regCustomKey. cbn [fst snd].
      assert (Q : match split_char "#"%char key with [name; v] => let '(lo, hi) := version_range v in with_special (fun m => upd name (match assoc name m with Some l => l ++ [(lo, hi, c)] | None => [(lo, hi, c)] end)%list m) r | _ => with_types (upd key c) r end = with_types (upd key c) r).
      { destruct (split_char "#"%char key) as [|a [|b [|]]]; try reflexivity. destruct (version_range b). discriminate TG. }
      rewrite Q. split; [|exact RS]. intros k. unfold types_of. cbn [sh_types with_types r_types]. unfold upd. cbn [assoc]. destruct (String.eqb k key); [reflexivity|apply RT]. }
  assert (OTHER : forall j u, nth_error ts j = Some u -> i <> j -> ~ versioned (th_todo u) name).
  { intros j u NU N V. apply (SEP i j (th_todo t) (th_todo u) name N); [now apply map_nth_error|now apply map_nth_error| |exact V].
    rewrite TD. exists key, c, sp. split; [now left|exact TG]. }
  destruct (th_pc t) as [|o|h] eqn:PC.
  - (* the read *)
    injection X as <- <-. split; [|left; now cbn [th_todo]]. exists owner. split; [exact W|]. intros j u NU. destruct (Nat.eq_dec i j) as [<-|N].
    + rewrite nth_error_set_same in NU by exact LI. injection NU as <-. unfold at_point. cbn [th_pc th_todo]. now exists key, c, rest, name, sp.
    + rewrite nth_error_set_other in NU by exact N. exact (P j u NU).
  - (* the append *)
    unfold at_point in PT. rewrite PC in PT. destruct PT as (key' & c' & rest' & name' & sp' & T' & G' & O). rewrite TD in T'. injection T' as <- <- <-. rewrite TG in G'. injection G' as <- <-.
    destruct o as [h|].
    + destruct (append extra (sh_heap s) h sp) as [hp h'] eqn:AP. injection X as <- <-.
      destruct (W name h O) as (W1 & W2 & W3). destruct (append_new _ _ _ _ _ _ (conj W2 W3) AP) as (A1 & A2 & A3 & A4 & A5 & A6).
      assert (OK : forall x n, owner (h_arr x) = n -> in_heap (sh_heap s) x -> (n <> name \/ x = h) ->
        own owner (h_arr h') name (h_arr x) = n /\ content hp x = content (sh_heap s) x /\ in_heap hp x).
      { intros x n OX IX C. unfold own. destruct C as [C| ->].
        - assert (D : h_arr x <> h_arr h) by congruence. destruct (A6 x IX D) as [D1 D2]. split; [|now split].
          destruct (Nat.eqb_spec (h_arr x) (h_arr h')) as [Q|_]; [|exact OX]. destruct A5 as [A5|A5]; [congruence|]. destruct IX as [IX _]. lia.
        - split; [|now split]. destruct (Nat.eqb_spec (h_arr h) (h_arr h')); congruence. }
      assert (V : forall k, special_of (Shared (sh_types s) (sh_special s) hp) k = special_of s k).
      { intros k. unfold special_of. cbn [sh_special sh_heap]. destruct (assoc k (sh_special s)) as [x|] eqn:K; [|reflexivity]. cbn [option_map]. f_equal.
        destruct (W k x K) as (K1 & K2 & K3). apply (OK x k K1 (conj K2 K3)). destruct (string_dec k name) as [->|]; [right; congruence|now left]. }
      split; [|left; cbn [th_todo]; split; [reflexivity|split; [reflexivity|exact V]]]. exists (own owner (h_arr h') name). split.
      * intros n x K. cbn [sh_special sh_heap] in *. destruct (W n x K) as (K1 & K2 & K3).
        assert (Q : n <> name \/ x = h) by (destruct (string_dec n name) as [->|]; [right; congruence|now left]). destruct (OK x n K1 (conj K2 K3) Q) as (Q1 & _ & Q2). now split.
      * intros j u NU. destruct (Nat.eq_dec i j) as [<-|N].
        -- rewrite nth_error_set_same in NU by exact LI. injection NU as <-. unfold at_point. cbn [th_pc th_todo]. exists key, c, rest, name, sp. split; [reflexivity|]. split; [exact TG|].
           split; [unfold own; now rewrite Nat.eqb_refl|]. split; [exact A2|]. cbn [sh_heap]. rewrite A1. unfold current. rewrite V. unfold special_of. now rewrite O.
        -- rewrite nth_error_set_other in NU by exact N. eapply (at_point_other owner _ s _ name); [..|exact (OTHER j u NU N)|exact (P j u NU)].
           ++ intros n _. split; [reflexivity|apply V].
           ++ intros x OX IX. cbn [sh_heap]. apply (OK x _ eq_refl IX). now left.
    + injection X as <- <-. set (hp := (sh_heap s ++ [(1%nat, [sp])])%list).
      destruct (content_at_new (sh_heap s) 1 [sp]) as [C1 C2]. cbn [List.length] in C1, C2.
      assert (OK : forall x n, owner (h_arr x) = n -> in_heap (sh_heap s) x -> own owner (List.length (sh_heap s)) name (h_arr x) = n /\ content hp x = content (sh_heap s) x /\ in_heap hp x).
      { intros x n OX IX. destruct (content_new (sh_heap s) (1%nat, [sp]) x IX) as [D1 D2]. split; [|now split]. unfold own. destruct IX as [IX _].
        destruct (Nat.eqb_spec (h_arr x) (List.length (sh_heap s))); [lia|exact OX]. }
      assert (V : forall k, special_of (Shared (sh_types s) (sh_special s) hp) k = special_of s k).
      { intros k. unfold special_of. cbn [sh_special sh_heap]. destruct (assoc k (sh_special s)) as [x|] eqn:K; [|reflexivity]. cbn [option_map]. f_equal.
        destruct (W k x K) as (K1 & K2 & K3). apply (OK x k K1 (conj K2 K3)). }
      split; [|left; cbn [th_todo]; split; [reflexivity|split; [reflexivity|exact V]]]. exists (own owner (List.length (sh_heap s)) name). split.
      * intros n x K. cbn [sh_special sh_heap] in *. destruct (W n x K) as (K1 & K2 & K3). destruct (OK x n K1 (conj K2 K3)) as (Q1 & _ & Q2). now split.
      * intros j u NU. destruct (Nat.eq_dec i j) as [<-|N].
        -- rewrite nth_error_set_same in NU by exact LI. injection NU as <-. unfold at_point. cbn [th_pc th_todo]. exists key, c, rest, name, sp. split; [reflexivity|]. split; [exact TG|].
           split; [unfold own; cbn [h_arr]; now rewrite Nat.eqb_refl|]. split; [exact C2|]. cbn [sh_heap]. fold hp in C1. rewrite C1. unfold current. rewrite V. unfold special_of. now rewrite O.
        -- rewrite nth_error_set_other in NU by exact N. eapply (at_point_other owner _ s _ name); [..|exact (OTHER j u NU N)|exact (P j u NU)].
           ++ intros n _. split; [reflexivity|apply V].
           ++ intros x OX IX. cbn [sh_heap]. now apply (OK x _ eq_refl IX).
  - (* the store *)
    injection X as <- <-. unfold at_point in PT. rewrite PC in PT. destruct PT as (key' & c' & rest' & name' & sp' & T' & G' & O & IH & C).
    rewrite TD in T'. injection T' as <- <- <-. rewrite TG in G'. injection G' as <- <-. split.
    + exists owner. split.
      * intros n x K. cbn [sh_special sh_heap] in *. destruct (string_dec n name) as [->|N]; [rewrite assoc_upd_same in K; injection K as <-; now split|]. rewrite assoc_upd_other in K by exact N. now apply W.
      * intros j u NU. destruct (Nat.eq_dec i j) as [<-|N].
        -- rewrite nth_error_set_same in NU by exact LI. injection NU as <-. exact I.
        -- rewrite nth_error_set_other in NU by exact N. eapply (at_point_other owner _ s _ name); [..|exact (OTHER j u NU N)|exact (P j u NU)].
           ++ intros n Q. unfold special_of. cbn [sh_special sh_heap]. rewrite assoc_upd_other by exact Q. now split.
           ++ intros x OX IX. cbn [sh_heap]. split; [reflexivity|]. split; [reflexivity|exact IX].
    + right. exists (key, c). split; [reflexivity|]. intros r RT RS. unfold run_one, regCustomKey. cbn [fst snd]. unfold target in TG.
      destruct (split_char "#"%char key) as [|a [|b [|]]]; try discriminate TG. destruct (version_range b) as [lo hi]. injection TG as -> <-. split; [exact RT|].
      intros k. cbn [with_special r_special]. unfold special_of. cbn [sh_special sh_heap]. destruct (string_dec k name) as [->|N].
      * rewrite !assoc_upd_same. cbn [option_map]. f_equal. rewrite C. unfold current. rewrite RS. destruct (assoc name (r_special r)); reflexivity.
      * rewrite !assoc_upd_other by exact N. apply RS.
Qed.

Lemma set_nth_same {A} i (x : A) l : nth_error l i = Some x -> set_nth i x l = l.
Proof. revert i. induction l as [|y l IH]; intros [|i] N; try discriminate N; cbn [set_nth nth_error] in *; [now injection N as ->|]. now rewrite IH. Qed.
Lemma separate_step ps i x p : separate ps -> nth_error ps i = Some (x :: p) -> separate (set_nth i p ps).
Proof.
  intros SEP N j k q r n D NJ NK VJ VK.
  assert (B : forall a q', nth_error (set_nth i p ps) a = Some q' -> versioned q' n -> exists q2, nth_error ps a = Some q2 /\ versioned q2 n).
  { intros a q' NA V. destruct (Nat.eq_dec i a) as [<-|DA].
    - rewrite nth_error_set_same in NA by (apply nth_error_Some; congruence). injection NA as <-. exists (x :: p). split; [exact N|].
      destruct V as (key & c & sp & I & T). exists key, c, sp. split; [now right|exact T].
    - rewrite nth_error_set_other in NA by exact DA. now exists q'. }
  destruct (B j q NJ VJ) as (q1 & B1 & B2). destruct (B k r NK VK) as (q2 & B3 & B4). exact (SEP j k q1 q2 n D B1 B3 B2 B4).
Qed.

Lemma serial sched : forall owner s ts r s' ts', wf owner s -> all_points owner s ts -> separate (map th_todo ts) ->
  (forall k, types_of s k = assoc k (r_types r)) -> (forall k, special_of s k = assoc k (r_special r)) ->
  exec sched s ts = (s', ts') -> Forall finished ts' ->
  (exists l, interleaving l (map th_todo ts) /\ result_of l r s') /\ exists owner', wf owner' s'.
Proof.
  induction sched as [|[i extra] sched IH]; intros owner s ts r s' ts' W P SEP RT RS X F.
  - cbn [exec] in X. injection X as <- <-. split; [|now exists owner]. exists []. split; [constructor|now split]. apply Forall_map. exact F.
  - cbn [exec] in X. destruct (nth_error ts i) as [t|] eqn:NT; [|now apply (IH owner s ts r s' ts')].
    destruct (step extra s t) as [s1 t1] eqn:ST. destruct (one_step _ _ _ _ _ _ _ _ W P NT SEP ST) as [(owner1 & W1 & P1) [(T & V1 & V2)|(kc & T & V)]].
    + assert (Q : map th_todo (set_nth i t1 ts) = map th_todo ts).
      { rewrite map_set_nth. apply set_nth_same. rewrite T. now apply map_nth_error. }
      rewrite <- Q. apply (IH owner1 s1 _ r s' ts' W1 P1); [now rewrite Q|..|exact X|exact F]; intros k; [now rewrite V1|now rewrite V2].
    + destruct (V r RT RS) as [V1 V2]. assert (Q : map th_todo (set_nth i t1 ts) = set_nth i (th_todo t1) (map th_todo ts)) by apply map_set_nth.
      assert (N : nth_error (map th_todo ts) i = Some (kc :: th_todo t1)) by (rewrite <- T; now apply map_nth_error).
      destruct (IH owner1 s1 (set_nth i t1 ts) (run_one r kc) s' ts' W1 P1) as [(l & L1 & L2) O]; [rewrite Q; now apply (separate_step _ _ kc)|exact V1|exact V2|exact X|exact F|].
      split; [|exact O]. exists (kc :: l). split; [|exact L2]. apply (il_cons i kc (th_todo t1)); [exact N|]. now rewrite <- Q.
Qed.

(** For every number of goroutines and every schedule: once all have finished,
    the registry is what some order of all their registrations makes of it,
    provided no name has version ranges registered from two of them. *)
Theorem C32_serial_partial owner s r progs sched s' ts' : wf owner s -> result_of [] r s -> separate progs ->
  exec sched s (map start progs) = (s', ts') -> Forall finished ts' ->
  (exists l, interleaving l progs /\ result_of l r s') /\ exists owner', wf owner' s'.
Proof.
  intros W [RT RS] SEP X F. assert (Q : map th_todo (map start progs) = progs) by (rewrite map_map; apply map_id).
  pose proof (serial sched owner s (map start progs) r s' ts' W) as G. rewrite Q in G. apply G; try assumption.
  intros i t N. apply nth_error_In in N. apply in_map_iff in N. destruct N as (p & <- & _). exact I.
Qed.
(** Plain names alone: always. *)
Theorem C32_plain owner s r progs sched s' ts' : wf owner s -> result_of [] r s -> (forall p n, In p progs -> ~ versioned p n) ->
  exec sched s (map start progs) = (s', ts') -> Forall finished ts' -> exists l, interleaving l progs /\ result_of l r s'.
Proof.
  intros W R V X F. refine (proj1 (C32_serial_partial owner s r progs sched s' ts' W R _ X F)).
  intros i j p q n _ NI _ VI _. exact (V p n (nth_error_In _ _ NI) VI).
Qed.

(** What such an order means for one registration: a version range is in the
    list of its name, and a plain name has one of the codecs given for it. *)
Lemma interleaving_in {A} (l : list A) ps : interleaving l ps -> forall p x, In p ps -> In x p -> In x l.
Proof.
  induction 1 as [ps F|i y q l ps N _ IH]; intros p x IP IX.
  - rewrite Forall_forall in F. rewrite (F p IP) in IX. contradiction.
  - apply In_nth_error in IP. destruct IP as [j NJ]. destruct (Nat.eq_dec i j) as [<-|D].
    + rewrite N in NJ. injection NJ as <-. destruct IX as [->|IX]; [now left|]. right. apply (IH q x); [|exact IX]. apply (nth_error_In _ i). apply nth_error_set_same. apply nth_error_Some. congruence.
    + right. apply (IH p x); [|exact IX]. apply (nth_error_In _ j). now rewrite nth_error_set_other.
Qed.
Lemma interleaving_from {A} (l : list A) ps : interleaving l ps -> forall x, In x l -> exists p, In p ps /\ In x p.
Proof.
  induction 1 as [ps F|i y q l ps N _ IH]; intros x IX; [contradiction|]. destruct IX as [<-|IX].
  - exists (y :: q). split; [exact (nth_error_In _ _ N)|now left].
  - destruct (IH x IX) as (p & IP & IX'). apply In_nth_error in IP. destruct IP as [j NJ]. destruct (Nat.eq_dec i j) as [<-|D].
    + rewrite nth_error_set_same in NJ by (apply nth_error_Some; congruence). injection NJ as <-. exists (y :: q). split; [exact (nth_error_In _ _ N)|now right].
    + rewrite nth_error_set_other in NJ by exact D. exists p. split; [exact (nth_error_In _ _ NJ)|exact IX'].
Qed.
Lemma run_plain r key c : target key c = None -> run_one r (key, c) = with_types (upd key c) r.
Proof.
  intros T. unfold run_one, regCustomKey. cbn [fst snd]. unfold target in T. destruct (split_char "#"%char key) as [|a [|b [|]]]; try reflexivity. destruct (version_range b). discriminate T.
Qed.
Lemma run_versioned r key c n sp : target key c = Some (n, sp) ->
  run_one r (key, c) = with_special (fun m => upd n (match assoc n m with Some l => l ++ [sp] | None => [sp] end)%list m) r.
Proof.
  intros T. unfold run_one, regCustomKey. cbn [fst snd]. unfold target in T. destruct (split_char "#"%char key) as [|a [|b [|]]]; try discriminate T.
  destruct (version_range b) as [lo hi]. now injection T as -> <-.
Qed.
Lemma run_keeps l : forall r n sp ls, assoc n (r_special r) = Some ls -> In sp ls -> exists ls', assoc n (r_special (fold_left run_one l r)) = Some ls' /\ In sp ls'.
Proof.
  induction l as [|[key c] l IH]; intros r n sp ls A I; [now exists ls|]. cbn [fold_left]. destruct (target key c) as [[n' sp']|] eqn:T.
  - rewrite (run_versioned r key c n' sp' T). destruct (string_dec n n') as [->|D].
    + apply (IH _ n' sp (ls ++ [sp'])%list); [|apply in_or_app; now left]. cbn [with_special r_special]. now rewrite assoc_upd_same, A.
    + apply (IH _ n sp ls); [|exact I]. cbn [with_special r_special]. now rewrite assoc_upd_other.
  - rewrite (run_plain r key c T). now apply (IH _ n sp ls).
Qed.
Lemma run_present l : forall r key c n sp, In (key, c) l -> target key c = Some (n, sp) -> exists ls, assoc n (r_special (fold_left run_one l r)) = Some ls /\ In sp ls.
Proof.
  induction l as [|[key' c'] l IH]; intros r key c n sp I T; [contradiction|]. destruct I as [I|I]; cbn [fold_left]; [|now apply (IH _ key c)].
  injection I as -> ->. rewrite (run_versioned r key c n sp T). destruct (assoc n (r_special r)) as [ls|] eqn:A.
  - apply (run_keeps l _ n sp (ls ++ [sp])%list); [|apply in_or_app; right; now left]. cbn [with_special r_special]. now rewrite assoc_upd_same, A.
  - apply (run_keeps l _ n sp [sp]); [|now left]. cbn [with_special r_special]. now rewrite assoc_upd_same, A.
Qed.
Lemma run_type l : forall r key c, assoc key (r_types r) = Some c -> exists c', assoc key (r_types (fold_left run_one l r)) = Some c' /\ (c' = c \/ In (key, c') l).
Proof.
  induction l as [|[key' c'] l IH]; intros r key c A; [exists c; auto|]. cbn [fold_left]. destruct (target key' c') as [[n' sp']|] eqn:T.
  - rewrite (run_versioned r key' c' n' sp' T). destruct (IH (with_special (fun m => upd n' (match assoc n' m with Some l0 => l0 ++ [sp'] | None => [sp'] end)%list m) r) key c A) as (x & X1 & X2).
    exists x. split; [exact X1|]. cbn [In]. tauto.
  - rewrite (run_plain r key' c' T). destruct (string_dec key key') as [<-|D].
    + destruct (IH (with_types (upd key c') r) key c' (assoc_upd_same _ _ _)) as (x & X1 & X2). exists x. split; [exact X1|]. cbn [In]. destruct X2 as [->|X2]; tauto.
    + destruct (IH (with_types (upd key' c') r) key c) as (x & X1 & X2); [cbn [with_types r_types]; now rewrite assoc_upd_other|]. exists x. split; [exact X1|]. cbn [In]. tauto.
Qed.
Lemma run_typed l : forall r key c, In (key, c) l -> target key c = None -> exists c', assoc key (r_types (fold_left run_one l r)) = Some c' /\ In (key, c') l.
Proof.
  induction l as [|[key' c'] l IH]; intros r key c I T; [contradiction|]. destruct I as [I|I]; cbn [fold_left].
  - injection I as -> ->. rewrite (run_plain r key c T). destruct (run_type l (with_types (upd key c) r) key c (assoc_upd_same _ _ _)) as (x & X1 & X2).
    exists x. split; [exact X1|]. destruct X2 as [->|X2]; [now left|now right].
  - destruct (IH (run_one r (key', c')) key c I T) as (x & X1 & X2). exists x. split; [exact X1|now right].
Qed.
Theorem C32_present_partial owner s r progs sched s' ts' : wf owner s -> result_of [] r s -> separate progs ->
  exec sched s (map start progs) = (s', ts') -> Forall finished ts' -> forall p key c, In p progs -> In (key, c) p ->
  match target key c with
  | Some (n, sp) => exists ls, special_of s' n = Some ls /\ In sp ls
  | None => exists c' q, types_of s' key = Some c' /\ In q progs /\ In (key, c') q
  end.
Proof.
  intros W R SEP X F p key c IP IK. destruct (proj1 (C32_serial_partial owner s r progs sched s' ts' W R SEP X F)) as (l & IL & RT & RS).
  pose proof (interleaving_in l progs IL p (key, c) IP IK) as I. destruct (target key c) as [[n sp]|] eqn:T.
  - rewrite RS. now apply (run_present l r key c).
  - destruct (run_typed l r key c I T) as (c' & A & I'). destruct (interleaving_from l progs IL _ I') as (q & IQ & IX). exists c', q. rewrite RT. now repeat split.
Qed.

(** ** Cases *)
Definition empty_shared : shared := Shared base_registry [] [].
Lemma empty_wf : wf (fun _ => "") empty_shared.
Proof. intros n h A. discriminate A. Qed.
Lemma empty_result : result_of [] base_reg empty_shared.
Proof. split; reflexivity. Qed.
(** Two goroutines, steps alternating: each with its own versioned name, and
    both with the plain name "price". *)
Definition ex_progs : list (list (string * codec)) :=
  [[("fee#1-5", CU8); ("price", CU16); ("fee#6-?", CU32)]; [("weight#0-9", CU64); ("price", CU128)]].
Definition alternate : list (nat * nat) := List.concat (repeat [(0, 0); (1, 2)]%nat 9).
Example C32_hyps : separate ex_progs.
Proof.
  intros i j p q n D NI NJ (k1 & c1 & s1 & I1 & T1) (k2 & c2 & s2 & I2 & T2).
  destruct i as [|[|[|]]]; try discriminate NI; destruct j as [|[|[|]]]; try discriminate NJ; try congruence; injection NI as <-; injection NJ as <-; cbn [In] in I1, I2;
    repeat match goal with H : _ \/ _ |- _ => destruct H | H : (_, _) = (_, _) |- _ => injection H as <- <- | H : False |- _ => contradiction end;
    vm_compute in T1, T2; try discriminate; injection T1 as <- _; discriminate T2.
Qed.
Example C32_example : let '(s, ts) := exec alternate empty_shared (map start ex_progs) in
  Forall finished ts /\ special_of s "fee" = Some [(1, 5, CU8); (6, 99999999, CU32)] /\ special_of s "weight" = Some [(0, 9, CU64)] /\ types_of s "price" = Some CU128.
Proof. vm_compute. repeat constructor. Qed.

(** Two goroutines give the same name different ranges, and both read before
    either writes: one range is lost. *)
Theorem C32_lost_refuted : exists progs sched s ts, exec sched empty_shared (map start progs) = (s, ts) /\ Forall finished ts /\
  In [("fee#1-5", CU8)] progs /\ special_of s "fee" = Some [(6, 9, CU16)].
Proof.
  exists [[("fee#1-5", CU8)]; [("fee#6-9", CU16)]], [(0, 0); (1, 0); (0, 0); (1, 0); (0, 0); (1, 0)]%nat. eexists _, _. split; [vm_compute; reflexivity|].
  split; [repeat constructor|]. split; [now left|vm_compute; reflexivity].
Qed.
(** With room left in the array they also write the same cell: what the last
    writer stores has the other's range in place of its own, so that neither
    order of the stores keeps its own entry. *)
Theorem C32_overwritten_refuted : exists s0 progs sched s ts, exec sched s0 (map start progs) = (s, ts) /\ wf (fun _ => "fee") s0 /\ Forall finished ts /\
  progs = [[("fee#1-5", CU8)]; [("fee#6-9", CU16)]] /\ special_of s0 "fee" = Some [(0, 0, CU32)] /\
  (* the first stores last, and its range is not there *)
  last sched (0, 0)%nat = (0, 0)%nat /\ special_of s "fee" = Some [(0, 0, CU32); (6, 9, CU16)].
Proof.
  exists (Shared [] [("fee", Header 0 1)] [(4%nat, [(0, 0, CU32)])]), [[("fee#1-5", CU8)]; [("fee#6-9", CU16)]], [(0, 0); (1, 0); (0, 0); (1, 0); (1, 0); (0, 0)]%nat.
  eexists _, _. split; [vm_compute; reflexivity|]. split.
  { intros n h A. cbn [sh_special assoc] in A. destruct (String.eqb_spec n "fee") as [->|]; [|discriminate A]. injection A as <-. cbn. repeat split; lia. }
  split; [repeat constructor|]. repeat split; vm_compute; reflexivity.
Qed.

Print Assumptions C32_serial_partial.
Print Assumptions C32_plain.
Print Assumptions C32_present_partial.
