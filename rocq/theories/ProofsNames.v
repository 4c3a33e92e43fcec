(** Type names made of letters, digits and underscores, and their resolution. *)

From Verif Require Import GoBase SpecNum ProofsBase ModelTools ModelVal ModelRegistry ModelDecode ModelRegister ProofsRun SpecScale ProofsReads ProofsScale.

Lemma lower_idem c : lower_char (lower_char c) = lower_char c.
Proof.
  unfold lower_char. destruct ((65 <=? bZ c) && (bZ c <=? 90)) eqn:H; [|now rewrite H].
  rewrite bZ_Zb_small by lia. now replace ((65 <=? bZ c + 32) && (bZ c + 32 <=? 90)) with false by (symmetry; lia).
Qed.
Lemma to_lower_idem s : to_lower (to_lower s) = to_lower s.
Proof. unfold to_lower. induction s as [|c s IH]; [reflexivity|]. cbn [smap]. now rewrite IH, lower_idem. Qed.
Lemma to_lower_app' a b : to_lower (a ++ b) = to_lower a ++ to_lower b.
Proof. unfold to_lower. induction a as [|c a IH]; [reflexivity|]. cbn [String.append smap]. now rewrite IH. Qed.

Definition has_char (x : ascii) (s : string) : Prop := In x (s2b s).
Lemma has_char_cons x c s : has_char x (String c s) <-> c = x \/ has_char x s.
Proof. reflexivity. Qed.
Lemma has_char_app x a b : has_char x (a ++ b) <-> has_char x a \/ has_char x b.
Proof. unfold has_char. rewrite s2b_app. apply in_app_iff. Qed.

Lemma prefix_char x p s : has_char x p -> ~ has_char x s -> prefix p s = false.
Proof.
  revert s. induction p as [|a p IH]; intros s H N; [contradiction|]. destruct s as [|b s]; [reflexivity|]. cbn [prefix].
  destruct (Ascii.eqb_spec a b) as [->|]; [|reflexivity]. rewrite has_char_cons in H, N. apply IH; tauto.
Qed.
Lemma replace_absent x old new s : has_char x old -> ~ has_char x s -> replace_all s old new = s.
Proof.
  intros H. unfold replace_all. induction s as [|c s IH]; intros N; [reflexivity|]. cbn [repl].
  rewrite (prefix_char x) by assumption. f_equal. apply IH. rewrite has_char_cons in N. tauto.
Qed.
Lemma contains_absent x s sub : has_char x sub -> ~ has_char x s -> contains s sub = false.
Proof.
  intros H. induction s as [|c s IH]; intros N; cbn [contains]; rewrite (prefix_char x) by assumption; [reflexivity|].
  apply IH. rewrite has_char_cons in N. tauto.
Qed.
Lemma split_absent x s : ~ has_char x s -> split_char x s = [s].
Proof.
  induction s as [|c s IH]; intros N; [reflexivity|]. cbn [split_char]. rewrite has_char_cons in N.
  destruct (Ascii.eqb_spec c x) as [->|]; [tauto|]. rewrite IH by tauto. reflexivity.
Qed.
Lemma split_at x s t : ~ has_char x s -> split_char x (s ++ String x t) = s :: split_char x t.
Proof.
  induction s as [|c s IH]; intros N; cbn [split_char String.append]; [now rewrite Ascii.eqb_refl|]. rewrite has_char_cons in N.
  destruct (Ascii.eqb_spec c x) as [->|]; [tauto|]. rewrite IH by tauto. reflexivity.
Qed.
Lemma trim_right_id s : (forall c, last_char s = Some c -> is_space c = false) -> trim_right s = s.
Proof.
  induction s as [|c s IH]; intros H; [reflexivity|]. cbn [trim_right]. destruct s as [|d s].
  - cbn [trim_right]. now rewrite (H c eq_refl).
  - rewrite IH; [reflexivity|]. intros x Hx. apply H. exact Hx.
Qed.
Lemma last_char_in s c : last_char s = Some c -> has_char c s.
Proof.
  induction s as [|a s IH]; [discriminate|]. destruct s as [|b s]; [intros [= <-]; now left|]. intros H. right. now apply IH.
Qed.
Lemma last_char_some s : s <> "" -> exists c, last_char s = Some c.
Proof.
  induction s as [|a s IH]; [contradiction|]. intros _. destruct s as [|b s]; [now exists a|].
  destruct IH as [c H]; [discriminate|]. now exists c.
Qed.
Lemma split_lt_absent s : ~ has_char "<"%char s -> split_lt s = None.
Proof.
  induction s as [|c s IH]; intros N; [reflexivity|]. cbn [split_lt]. rewrite has_char_cons in N.
  destruct (Ascii.eqb_spec c "<"%char) as [->|]; [tauto|]. now rewrite IH by tauto.
Qed.

(** A name: letters, digits, underscore, and the separators [:] and [@] of the
    names made from metadata paths; no [::]. *)
Definition name_char (c : ascii) : Prop := 48 <= bZ c <= 58 \/ 64 <= bZ c <= 90 \/ 97 <= bZ c <= 122 \/ bZ c = 95.
Definition name_ok (s : string) : Prop := s <> "" /\ Forall name_char (s2b s) /\ has_prefix s "BoundedBTreeSet" = false /\ contains s "::" = false.

Lemma contains_cons c s sub : contains (String c s) sub = false -> prefix sub (String c s) = false /\ contains s sub = false.
Proof. cbn [contains]. intros H. now apply orb_false_elim in H. Qed.
Lemma no_double s x r : contains s "::" = false -> s = x ++ "::" ++ r -> False.
Proof.
  revert s. induction x as [|a x IH]; intros s H ->; [discriminate H|].
  cbn [String.append] in H. apply contains_cons in H. now apply (IH _ (proj2 H)).
Qed.

Lemma name_no x s : name_ok s -> ~ name_char x -> ~ has_char x s.
Proof. intros (_ & F & _) N H. rewrite Forall_forall in F. now apply N, F. Qed.
Ltac not_name := unfold name_char; vm_compute; intuition congruence.
Lemma name_char_lower c : name_char c -> name_char (lower_char c).
Proof.
  unfold lower_char, name_char. intros H. destruct ((65 <=? bZ c) && (bZ c <=? 90)) eqn:X; [|exact H].
  rewrite bZ_Zb_small by lia. lia.
Qed.
Lemma name_lower_chars s : Forall name_char (s2b s) -> Forall name_char (s2b (to_lower s)).
Proof.
  unfold to_lower. induction s as [|c s IH]; intros H; [constructor|]. cbn [smap s2b] in *. inversion H; subst.
  constructor; [now apply name_char_lower|now apply IH].
Qed.
Lemma name_lower_no x s : name_ok s -> ~ name_char x -> ~ has_char x (to_lower s).
Proof. intros (_ & F & _) N H. apply name_lower_chars in F. rewrite Forall_forall in F. now apply N, F. Qed.

Lemma name_trim s : name_ok s -> trim_space s = s.
Proof.
  intros (N & F & _). assert (SP : forall c, has_char c s -> is_space c = false).
  { intros c Hc. rewrite Forall_forall in F. specialize (F c Hc). unfold name_char in F. unfold is_space. lia. }
  unfold trim_space. destruct s as [|c s]; [contradiction|]. cbn [trim_left]. rewrite (SP c) by now left.
  apply trim_right_id. intros x Hx. now apply SP, last_char_in.
Qed.
Lemma fold_lit s t : has_char "<"%char t -> name_ok s -> equal_fold s t = false.
Proof.
  intros H N. unfold equal_fold. apply String.eqb_neq. intros X.
  assert (K : has_char "<"%char (to_lower t)).
  { clear - H. unfold to_lower. induction t as [|c t IH]; [contradiction|]. cbn [smap]. rewrite has_char_cons in *.
    destruct H as [->|H]; [left; reflexivity|right; auto]. }
  rewrite <- X in K. revert K. apply name_lower_no; [exact N|not_name].
Qed.
Lemma eqb_lit x s t : has_char x t -> ~ name_char x -> name_ok s -> String.eqb s t = false.
Proof. intros H X N. apply String.eqb_neq. intros ->. revert H. now apply name_no. Qed.

Lemma no_prefix_t s : contains s "::" = false -> replace_all s "T::" "" = s.
Proof.
  unfold replace_all. induction s as [|c s IH]; intros H; [reflexivity|].
  destruct (contains_cons _ _ _ H) as [_ H2]. cbn [repl].
  destruct (prefix "T::" (String c s)) eqn:P.
  - exfalso. cbn [prefix] in P. destruct (Ascii.eqb "T"%char c); [|discriminate].
    destruct s as [|a [|b s]]; cbn [prefix andb] in P; try discriminate; [destruct (Ascii.eqb ":"%char a); discriminate|].
    destruct (Ascii.eqb_spec ":"%char a); [|discriminate]. destruct (Ascii.eqb_spec ":"%char b); [|discriminate]. subst.
    now apply (no_double (String ":" (String ":" s)) "" s).
  - now rewrite IH.
Qed.
Lemma name_convert s : name_ok s -> ConvertType s = s.
Proof.
  intros N. unfold ConvertType. cbv zeta. rewrite name_trim by exact N.
  assert (R : forall x old new, has_char x old -> ~ name_char x -> replace_all s old new = s).
  { intros x old new H X. apply (replace_absent x); [exact H|now apply name_no]. }
  rewrite (no_prefix_t s) by apply N.
  rewrite (R "<"%char) by (cbn; tauto || not_name).
  rewrite (R "<"%char) by (cbn; tauto || not_name).
  rewrite (R "<"%char) by (cbn; tauto || not_name).
  rewrite (R "<"%char) by (cbn; tauto || not_name).
  rewrite (R "010"%char) by (cbn; tauto || not_name).
  rewrite (R "&"%char) by (cbn; tauto || not_name).
  rewrite (proj1 (proj2 (proj2 N))). rewrite (fold_lit s "Vec<u8>") by (cbn; tauto || exact N).
  rewrite (eqb_lit "("%char s "()") by (cbn; tauto || not_name || exact N).
  rewrite (eqb_lit "<"%char s "<InherentOfflineReport as InherentOfflineReport>::Inherent") by (cbn; tauto || not_name || exact N).
  rewrite (eqb_lit "<"%char s "<Lookup as StaticLookup>::Source") by (cbn; tauto || not_name || exact N).
  rewrite (eqb_lit "<"%char s "<Balance as HasCompact>::Type") by (cbn; tauto || not_name || exact N).
  rewrite (eqb_lit "<"%char s "<BlockNumber as HasCompact>::Type") by (cbn; tauto || not_name || exact N).
  rewrite (eqb_lit "<"%char s "<Moment as HasCompact>::Type") by (cbn; tauto || not_name || exact N).
  rewrite (eqb_lit "<"%char s "<T as Trait<I>>::Proposal") by (cbn; tauto || not_name || exact N).
  destruct (String.eqb_spec s "wasm::PrefabWasmModule") as [X|_]; [exfalso; apply (no_double s "wasm" "PrefabWasmModule"); [apply N|exact X]|].
  reflexivity.
Qed.

(** How a name is looked up. *)
Definition lookup (E : env) (module n : string) (spec : Z) : option codec :=
  let k := ModuleType (to_lower n) module in
  match specialVersionCodec E k spec with
  | Some c => Some c
  | None => assoc (to_lower k) (e_reg E)
  end.
Lemma module_type_empty t : ModuleType t "" = t.
Proof. reflexivity. Qed.

Lemma last_char_lower s : last_char (to_lower s) = option_map lower_char (last_char s).
Proof.
  unfold to_lower. induction s as [|a s IH]; [reflexivity|]. destruct s as [|b s]; [reflexivity|]. cbn [smap] in *.
  change (last_char (String a (String b s))) with (last_char (String b s)). rewrite <- IH. reflexivity.
Qed.

Lemma override_names t m : ModuleType t m = t \/ name_ok (ModuleType t m).
Proof.
  unfold ModuleType. destruct (String.eqb m ""); [now left|].
  assert (A : forall k l, assoc k typesModules = Some l -> Forall (fun p => name_ok (snd p)) l).
  { intros k l. unfold typesModules. cbn [assoc].
    repeat match goal with |- context [String.eqb k ?x] => destruct (String.eqb k x);
      [intros [= <-]; repeat (constructor; [repeat split; [discriminate|cbn [s2b list_ascii_of_string snd]; repeat (constructor; [unfold name_char; vm_compute; intuition congruence|])]|]); constructor|] end.
    discriminate. }
  destruct (assoc (to_lower m) typesModules) as [l|] eqn:X; [|now left]. specialize (A _ _ X). clear X.
  destruct (assoc t l) as [o|] eqn:Y; [right|now left].
  induction l as [|[k o'] l IH]; [discriminate|]. cbn [assoc] in Y. inversion A; subst. destruct (String.eqb t k); [now injection Y as <-|now apply IH].
Qed.

Lemma name_found E m n spec : name_ok n ->
  GetCodecClass E m n spec = Ok (option_map (fun c => (c, "")) (lookup E m n spec)).
Proof.
  intros N. destruct (last_char_some n (proj1 N)) as [z Hz].
  assert (NG : Ascii.eqb z ">"%char = false).
  { apply Ascii.eqb_neq. intros ->. apply last_char_in in Hz. revert Hz. apply name_no; [exact N|not_name]. }
  assert (G : getCodecInstant E m n spec = Ok (lookup E m n spec)).
  { unfold getCodecInstant, lookup. set (k := ModuleType (to_lower n) m). destruct (specialVersionCodec E k spec); [reflexivity|].
    destruct (assoc (to_lower k) (e_reg E)); [reflexivity|].
    assert (K : k <> "" /\ ~ has_char "["%char k).
    { destruct (override_names (to_lower n) m) as [X|X]; fold k in X.
      - rewrite X. split; [destruct n; [now destruct N|discriminate]|]. apply name_lower_no; [exact N|not_name].
      - split; [apply X|]. apply name_no; [exact X|not_name]. }
    destruct K as [K1 K2]. destruct (last_char_some k K1) as [y Hy].
    destruct (String.eqb_spec k "[]") as [Q|_]; [exfalso; apply K2; rewrite Q; now left|].
    rewrite Hy. destruct k as [|a k']; [contradiction|]. cbn [first_char].
    destruct (Ascii.eqb_spec a "["%char) as [->|]; [exfalso; apply K2; now left|]. reflexivity. }
  unfold GetCodecClass. assert (F : forall fuel, GetCodecClass_fuel fuel E m n spec = Ok (option_map (fun c => (c, "")) (lookup E m n spec))); [|apply F].
  intros fuel. destruct fuel; cbn [GetCodecClass_fuel]; rewrite name_convert, Hz, NG by exact N; cbn [bind]; rewrite G; cbn [bind].
  all: destruct (lookup E m n spec) as [c|]; cbn [option_map]; [reflexivity|].
  all: replace (prefix "(" n) with false by (symmetry; apply (prefix_char "("%char); [now left|apply name_no; [exact N|not_name]]).
  all: rewrite andb_false_r; cbn [andb].
  all: now rewrite (proj2 (proj2 (proj2 N))).
Qed.
