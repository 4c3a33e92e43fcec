(** C62: different types of a portable registry are registered under different names. *)

From Verif Require Import GoBase SpecNum ModelTools ModelVal ModelRegistry ModelDecode ModelRegister ModelScaleInfo SpecScale ProofsBase ProofsNames ProofsTexts PropCodec PropScaleInfo
  SpecPortable ProofsPortText ProofsPortReg ProofsPortDecode PropPortable.

Section Names.
Variables (c : sictx) (D : list (string * Z)).
Notation port := (i_port c).
Notation total := (Z.of_nat (distinct_ids [] port)).

(** The path of a type as one text. *)
Definition path_text (id : Z) : string :=
  (if String.eqb (i_prefix c) "" then "" else i_prefix c ++ ":") ++ join ":" (path_of port id).
Lemma generate_path dup id k : generate_name c dup (port_get port id) k =
  if (1 <? dup_count dup (path_text id)) && (0 <=? k) then path_text id ++ "@" ++ itoa k else path_text id.
Proof. unfold generate_name, path_text, path_of. destruct (String.eqb (i_prefix c) ""); [reflexivity|]. replace ((i_prefix c ++ ":") ++ join ":" (s_path (port_get port id))) with (i_prefix c ++ ":" ++ join ":" (s_path (port_get port id))) by (rewrite app_assoc_s; reflexivity). reflexivity. Qed.
(** Types that are named after their path. *)
Definition by_path (id : Z) : bool :=
  match s_def (port_get port id) with
  | DComposite _ => true
  | DVariant _ => match s_path (port_get port id) with
                  | [] => false
                  | p0 :: _ => negb (equal_fold p0 "Option" || equal_fold p0 "Result") && negb (is_pallet_call (path_of port id)) && negb (is_call_event (path_of port id))
                  end
  | _ => false
  end.
Lemma name_by_path dup id k n : nameSiType c dup (port_get port id) k = Ok n -> n = if by_path id then generate_name c dup (port_get port id) k else "".
Proof.
  unfold nameSiType, by_path, path_of. destruct (s_def (port_get port id)); try (intros [= <-]; reflexivity). destruct (s_path (port_get port id)) as [|p r]; [discriminate|].
  destruct (_ || _); [now intros [= <-]|]. destruct (is_pallet_call _); [now intros [= <-]|]. destruct (is_call_event _); now intros [= <-].
Qed.

(** How many of the n ids from i on are named after the path p. *)
Fixpoint times (p : string) (n : nat) (i : Z) : Z :=
  match n with O => 0 | S n' => (if by_path i && String.eqb (path_text i) p then 1 else 0) + times p n' (i + 1) end.
Lemma times_nonneg p n : forall i, 0 <= times p n i.
Proof. induction n as [|n IH]; intros i; cbn [times]; [lia|]. specialize (IH (i + 1)). destruct (_ && _); lia. Qed.
Lemma times_one p n : forall i k, i <= k < i + Z.of_nat n -> by_path k = true -> path_text k = p -> 1 <= times p n i.
Proof.
  induction n as [|n IH]; intros i k H B Q; [lia|]. cbn [times]. pose proof (times_nonneg p n (i + 1)) as NN. destruct (Z.eq_dec k i) as [->|].
  - rewrite B, Q, String.eqb_refl. cbn [andb]. lia.
  - assert (1 <= times p n (i + 1)) by (apply (IH (i + 1) k); (lia || assumption)). destruct (_ && _); lia.
Qed.
Lemma times_two p n : forall i k l, i <= k -> k < l -> l < i + Z.of_nat n -> by_path k = true -> by_path l = true -> path_text k = p -> path_text l = p -> 2 <= times p n i.
Proof.
  induction n as [|n IH]; intros i k l H1 H2 H3 B1 B2 Q1 Q2; [lia|]. cbn [times]. destruct (Z.eq_dec k i) as [->|].
  - rewrite B1, Q1, String.eqb_refl. cbn [andb]. assert (1 <= times p n (i + 1)) by (apply (times_one p n (i + 1) l); (lia || assumption)). lia.
  - assert (2 <= times p n (i + 1)) by (apply (IH (i + 1) k l); (lia || assumption)). destruct (_ && _); lia.
Qed.
Lemma dup_upd d p q k : dup_count (upd p k d) q = if String.eqb q p then k else dup_count d q.
Proof. unfold dup_count, upd. cbn [assoc]. now destruct (String.eqb q p). Qed.
Lemma count_times n : forall i s s', each_id (count_name c) n i s = Ok s' -> forall p, dup_count (g_dup s') p = dup_count (g_dup s) p + if String.eqb p "" then 0 else times p n i.
Proof.
  induction n as [|n IH]; intros i s s' H p; cbn [each_id times] in *; [injection H as <-; destruct (String.eqb p ""); lia|].
  apply bind_ok in H. destruct H as (s1 & H1 & H). rewrite (IH _ _ _ H p). clear IH H. unfold count_name in H1. apply bind_ok in H1. destruct H1 as (m & N & H1).
  apply name_by_path in N. rewrite generate_path in N. change (0 <=? -1) with false in N. rewrite andb_false_r in N.
  destruct (String.eqb_spec m "") as [E|E].
  - injection H1 as <-. destruct (String.eqb_spec p ""); [lia|]. destruct (by_path i); cbn [andb]; [|lia]. destruct (String.eqb_spec (path_text i) p); [congruence|lia].
  - injection H1 as <-. cbn [g_dup]. rewrite dup_upd. destruct (by_path i); [|contradiction]. cbn [andb]. subst m. destruct (String.eqb_spec p (path_text i)) as [->|].
    + rewrite String.eqb_refl. destruct (String.eqb_spec (path_text i) ""); [contradiction|lia].
    + destruct (String.eqb_spec (path_text i) p); [congruence|]. destruct (String.eqb p ""); lia.
Qed.
Hypothesis counts : counted c D.
Lemma counted_times p : dup_count D p = if String.eqb p "" then 0 else times p (distinct_ids [] port) 0.
Proof. destruct counts as (s & H & <-). now rewrite (count_times _ _ _ _ H p). Qed.
Lemma named_path id n : named_as c D id n -> by_path id = true /\ path_text id <> "" /\
  n = if 1 <? dup_count D (path_text id) then (if 0 <=? id then path_text id ++ "@" ++ itoa id else path_text id) else path_text id.
Proof.
  intros [H NE]. apply name_by_path in H. destruct (by_path id); [|contradiction]. rewrite generate_path in H. split; [reflexivity|]. split.
  - intros Q. rewrite Q, counted_times in H. now apply NE.
  - subst n. now destruct (1 <? _), (0 <=? id).
Qed.

(** No path contains the separator of the ids, and paths that differ only in
    the case of their letters are equal. *)
Definition paths_plain : Prop := forall id n, named_as c D id n -> ~ has_char "@"%char (path_text id).
Definition paths_cased : Prop := forall i j n m, named_as c D i n -> named_as c D j m -> to_lower (path_text i) = to_lower (path_text j) -> path_text i = path_text j.
(** The ids are 0, 1, 2, ... *)
Definition ids_dense : Prop := forall id t, In (id, t) port -> 0 <= id < total.

Lemma lower_at p k : 0 <= k -> to_lower (p ++ "@" ++ itoa k) = to_lower p ++ "@" ++ itoa k.
Proof.
  intros H. rewrite !to_lower_app'. f_equal. change (to_lower "@") with "@". f_equal. pose proof (itoa_digits_only k H) as F. induction (itoa k) as [|a s IH]; [reflexivity|].
  cbn [s2b list_ascii_of_string] in F. inversion F; subst. change (to_lower (String a s)) with (String (lower_char a) (to_lower s)). rewrite IH by assumption. f_equal.
  unfold lower_char. destruct ((65 <=? bZ a) && (bZ a <=? 90)) eqn:X; [lia|reflexivity].
Qed.
Lemma at_split p q x y : ~ has_char "@"%char p -> ~ has_char "@"%char q -> p ++ "@" ++ x = q ++ "@" ++ y -> p = q /\ x = y.
Proof.
  revert q. induction p as [|a p IH]; intros [|b q] NP NQ H; cbn [String.append] in *.
  - injection H as ->. now split.
  - injection H as <- _. exfalso. apply NQ. now left.
  - injection H as -> _. exfalso. apply NP. now left.
  - injection H as -> H. destruct (IH q) as [-> ->]; [intros X; apply NP; now right|intros X; apply NQ; now right|exact H|now split].
Qed.
Lemma at_has p k : has_char "@"%char (p ++ "@" ++ itoa k).
Proof. apply has_char_app. right. now left. Qed.

Theorem C62_names_differ_partial : paths_plain -> paths_cased -> forall i j n m,
  0 <= i < total -> 0 <= j < total -> i <> j -> named_as c D i n -> named_as c D j m -> to_lower n <> to_lower m.
Proof.
  intros PL PC i j n m Hi Hj NE Ni Nj E. pose proof (PL i n Ni) as Ai. pose proof (PL j m Nj) as Aj. pose proof (PC i j n m Ni Nj) as C.
  destruct (named_path i n Ni) as (Bi & Ei & ->). destruct (named_path j m Nj) as (Bj & Ej & ->).
  assert (Li : ~ has_char "@"%char (to_lower (path_text i))) by (intros X; apply Ai; now apply (proj1 (lower_has "@"%char _ eq_refl))).
  assert (Lj : ~ has_char "@"%char (to_lower (path_text j))) by (intros X; apply Aj; now apply (proj1 (lower_has "@"%char _ eq_refl))).
  rewrite (proj2 (Z.leb_le 0 i)), (proj2 (Z.leb_le 0 j)) in E by lia.
  assert (SAME : path_text i = path_text j -> 2 <= dup_count D (path_text i)).
  { intros Q. rewrite counted_times. destruct (String.eqb_spec (path_text i) ""); [contradiction|].
    destruct (Z.lt_total i j) as [X|[X|X]]; [apply (times_two _ _ 0 i j)|contradiction|apply (times_two _ _ 0 j i)]; (lia || congruence). }
  destruct (1 <? dup_count D (path_text i)) eqn:Ci, (1 <? dup_count D (path_text j)) eqn:Cj.
  - rewrite !lower_at in E by lia. apply at_split in E; [|assumption|assumption]. destruct E as [_ E]. apply itoa_inj in E. contradiction.
  - rewrite lower_at in E by lia. apply Lj. rewrite <- E. apply at_has.
  - rewrite lower_at in E by lia. apply Li. rewrite E. apply at_has.
  - specialize (SAME (C E)). lia.
Qed.
(** So the names need not be assumed to be different in C61. *)
Theorem C62_distinct_partial : paths_plain -> paths_cased -> ids_dense -> forall i j n m, named_as c D i n -> named_as c D j m -> to_lower n = to_lower m -> i = j.
Proof.
  intros PL PC DE i j n m Ni Nj E.
  assert (RG : forall k l, named_as c D k l -> 0 <= k < total).
  { intros k l N. destruct (named_path k l N) as (B & _). unfold by_path, port_get in B. destruct (assocz k port) as [t|] eqn:A; [|discriminate B]. apply (DE k t).
    clear - A. induction port as [|[k' t'] p IH]; [discriminate|]. cbn [assocz] in A. destruct (Z.eqb_spec k k') as [->|]; [injection A as ->; now left|right; now apply IH]. }
  destruct (Z.eq_dec i j) as [|NE]; [assumption|]. exfalso. exact (C62_names_differ_partial PL PC i j n m (RG i n Ni) (RG j m Nj) NE Ni Nj E).
Qed.
End Names.

(** ** The names recorded for structs and enums *)
Section Registered.
Variables (c : sictx) (D : list (string * Z)) (Rg : Z -> Prop).
Notation port := (i_port c).
Hypothesis counts : counted c D.
Hypothesis names : well_named c D Rg.
Hypothesis declarations : forall id, Rg id -> regular c D Rg id.
Variables (r : reg) (fuel : nat) (s : sistate).
Hypothesis before : standard c D r.
Hypothesis registered : ProcessSiType fuel c r = Ok s.

(** Structs (other than one-field wrappers) and enums. *)
Definition own (id : Z) : Prop :=
  (exists fs, def_of port id = DComposite fs /\ List.length fs <> 1%nat) \/ (exists vs, def_of port id = DVariant vs /\ other_path port id).
Lemma own_text T id t : Rg id -> own id -> text c D Rg T id t -> named_as c D id t.
Proof.
  intros R O H. pose proof (declarations id R) as (OV & _ & RR). pose proof (fun P => rg_prims c D Rg declarations id R P) as NP.
  inversion H; subst; try contradiction; try assumption; try congruence; destruct O as [(fs0 & E0 & L)|(vs0 & E0 & OP)]; try congruence;
  try (destruct (NP H0) as (f & h & n & e & E1 & _); rewrite E0 in E1; injection E1 as ->; now contradiction L); try (destruct (NP H0) as (f & h & n & e & E1 & _); congruence);
  try (exfalso; match goal with X : def_of _ _ = DTuple [] \/ _ |- _ => destruct X; congruence end).
  - destruct H0 as (_ & f & E1). rewrite E0 in E1. injection E1 as ->. now contradiction L.
  - destruct H0 as (_ & f & E1). congruence.
  - rewrite E0 in H0. injection H0 as ->. now contradiction L.
  - rewrite H0 in RR. destruct RR as (W & _). congruence.
  - exfalso. destruct OP as (p & q & P1 & P2 & P3), H1 as (p' & q' & P1' & P2'). congruence.
  - exfalso. destruct OP as (p & q & P1 & P2 & P3), H1 as (p' & q' & P1' & P2' & P3'). congruence.
  - exfalso. destruct (rg_enum c D Rg declarations id vs0 R E0 OP) as (_ & C1 & C2 & _). destruct H2; congruence.
Qed.
Theorem C62_registered_names_differ_partial i j t u : Rg i -> Rg j -> own i -> own j -> i <> j ->
  assocz i (g_names s) = Some t -> assocz j (g_names s) = Some u -> to_lower t <> to_lower u.
Proof.
  intros Ri Rj Oi Oj NE Ht Hu E. destruct (process_ok c D Rg declarations names fuel r s before counts registered) as ((T & INV) & _).
  destruct (i_names _ _ _ _ _ _ INV i t Ht) as [Ti _]. destruct (i_names _ _ _ _ _ _ INV j u Hu) as [Tj _].
  apply NE. apply (wn_distinct c D Rg names i j t u); [now apply (own_text T i t)|now apply (own_text T j u)|exact E].
Qed.
End Registered.

(** Both types m::Foo of the example of C61 keep a name of their own. *)
Example C62_example : paths_plain px px_dup /\ paths_cased px px_dup /\ ids_dense px /\
  named_as px px_dup 3 "m:Foo@3" /\ named_as px px_dup 16 "m:Foo@16" /\ path_text px 3 = path_text px 16 /\ own px 3 /\ own px 16.
Proof.
  split. { intros id n H. apply px_names in H. cbn in H. repeat (destruct H as [[= <- <-]|H]; [vm_compute; intuition congruence|]). contradiction. }
  split. { intros i j n m H1 H2. apply px_names in H1. apply px_names in H2. cbn in H1, H2.
    repeat (destruct H1 as [[= <- <-]|H1]; [repeat (destruct H2 as [[= <- <-]|H2]; [vm_compute; congruence|]); contradiction|]). contradiction. }
  split. { intros id t H. cbn in H. repeat (destruct H as [[= <- <-]|H]; [vm_compute; intuition congruence|]). contradiction. }
  split; [apply px_names; cbn; tauto|]. split; [apply px_names; cbn; tauto|]. split; [reflexivity|]. split; left; eexists; (split; [reflexivity|discriminate]).
Qed.
(** Paths that differ only in the case of a letter share one registered type:
    the struct m::Foo {a: u8, b: u8} is read as the struct m::FOO {c: u8, d: u8}. *)
Definition rf_case : portable :=
  [(0, u8t); (1, SiType ["m"; "Foo"] [] (DComposite [fld "a" 0; fld "b" 0])); (2, SiType ["m"; "FOO"] [] (DComposite [fld "c" 0; fld "d" 0]))].
Theorem C62_case_refuted : map (fun k => assocz k (g_names (run_of rf_case))) [1; 2] = [Some "m:Foo"; Some "m:FOO"]
  /\ reads_as rf_case 1 [7; 8] (Ok (VMap [("c", VInt 7); ("d", VInt 8)], 2, [])).
Proof. split; [vm_compute; reflexivity|]. reads "m:Foo". Qed.
(** Ids with a gap: the second m::Foo is not counted and takes over the name of the first. *)
Definition rf_gap : portable :=
  [(0, u8t); (1, SiType ["m"; "Foo"] [] (DComposite [fld "a" 0; fld "b" 0])); (7, SiType ["m"; "Foo"] [] (DComposite [fld "c" 0; fld "d" 0]));
   (2, SiType ["m"; "Bar"] [] (DComposite [fld "x" 7; fld "y" 0]))].
Theorem C62_gap_refuted : reads_as rf_gap 2 [7; 8; 9] (Ok (VMap [("x", VMap [("a", VInt 7); ("b", VInt 8)]); ("y", VInt 9)], 3, [])).
Proof. reads "m:Bar". Qed.

Print Assumptions C62_names_differ_partial.
Print Assumptions C62_distinct_partial.
Print Assumptions C62_registered_names_differ_partial.
Print Assumptions C62_case_refuted.
Print Assumptions C62_gap_refuted.
