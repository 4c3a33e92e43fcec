(** C88: a container applied to an argument, as written in a type text. *)

From Verif Require Import GoBase SpecNum ProofsBase ModelTools ModelVal ModelRegistry ModelDecode ModelEncode ModelRegister SpecScale ProofsApi ProofsNames ProofsTexts PropForms.

(** The built-in containers and what they are applied to an argument text. *)
Definition containers : list (string * (string -> codec)) :=
  [("vec", CVec); ("btreeset", CVec); ("option", COption); ("compact", CCompact); ("btreemap", CBTreeMap); ("box", CBox);
   ("result", CResult); ("wrapperopaque", CWrapperOpaque); ("range", CRange); ("rangeinclusive", CRange)].
Definition bounded : list string := ["boundedvec"; "weakboundedvec"].
Definition applied (w x : string) : string := w ++ "<" ++ x ++ ">".
(** The container has not been registered anew. *)
Definition stock (r : reg) (k : string) : Prop := assoc k (r_types r) = assoc k base_registry /\ assoc k (r_special r) = None.
(** The text is taken as it is: it contains nothing that is rewritten, and is
    no registered name itself. *)
Definition as_written (r : reg) (t : string) : Prop :=
  ConvertType t = t /\ assoc (to_lower t) (r_types r) = None /\ assoc (to_lower t) (r_special r) = None.

Definition container_names : list string := (map fst containers ++ bounded)%list.
Lemma lower_alpha_all w : forallb wrapper_char (s2b (to_lower w)) = true -> forallb wrapper_char (s2b w) = true.
Proof.
  unfold to_lower, s2b. induction w as [|c w IH]; [reflexivity|]. cbn [smap list_ascii_of_string forallb]. intros K. apply andb_true_iff in K.
  destruct K as [K1 K2]. rewrite lower_alpha in K1. rewrite K1. now apply IH.
Qed.
Lemma names_alpha w : In (to_lower w) container_names -> forallb wrapper_char (s2b w) = true /\ w <> "" /\ ~ In (to_lower w) overridden.
Proof.
  intros I. assert (K : forallb (fun k => forallb wrapper_char (s2b k) && negb (String.eqb k "") && negb (existsb (String.eqb k) overridden)) container_names = true) by reflexivity.
  rewrite forallb_forall in K. specialize (K _ I). apply andb_true_iff in K. destruct K as [K K3]. apply andb_true_iff in K. destruct K as [K1 K2].
  split; [now apply lower_alpha_all|]. split; [intros ->; discriminate|]. intros J. apply negb_true_iff in K3.
  assert (X : existsb (String.eqb (to_lower w)) overridden = true) by (apply existsb_exists; exists (to_lower w); split; [exact J|apply String.eqb_refl]). congruence.
Qed.
Lemma plain_key r k spec : assoc k (r_special r) = None -> find_key (reg_env r) k spec = assoc k (r_types r).
Proof. intros H. unfold find_key, specialVersionCodec. cbn [e_special reg_env e_reg]. now rewrite H. Qed.
Lemma applied_resolves r c w x cd : In (to_lower w) container_names -> x <> "" -> as_written r (applied w x) -> stock r (to_lower w) ->
  assoc (to_lower w) base_registry = Some cd -> resolves (reg_env r) c (applied w x) (init_sub cd x).
Proof.
  intros I NX (C & T & S) (B1 & B2) K. destruct (names_alpha w I) as (AL & NE & NO). exists cd, x. split; [|reflexivity].
  assert (LT : ~ has_char "<"%char w).
  { intros H. rewrite forallb_forall in AL. specialize (AL "<"%char H). discriminate AL. }
  set (t := applied w x) in *.
  assert (NB : first_char t <> Some "["%char).
  { unfold t, applied. destruct w as [|c0 w]; [contradiction|]. cbn [String.append first_char]. intros [= ->]. discriminate AL. }
  assert (N : ~ In (to_lower t) overridden).
  { apply (not_overridden "<"%char); [|reflexivity]. apply lower_has; [reflexivity|]. unfold t, applied. apply has_char_app. right. now left. }
  assert (X1 : getCodecInstant (reg_env r) (x_module c) t (x_spec c) = Ok None).
  { apply get_missing; [|exact NB|exact N|now rewrite plain_key]. unfold t, applied. destruct w; [contradiction|discriminate]. }
  assert (X2 : getCodecInstant (reg_env r) (x_module c) w (x_spec c) = Ok (Some cd)) by (apply get_found; [exact NO|rewrite plain_key by exact B2; now rewrite B1]).
  assert (P : generic_parts t = Some (w, x)) by (now apply generic_at).
  assert (L : last_char t = Some ">"%char) by apply last_generic.
  unfold GetCodecClass. destruct (String.length t); cbn [GetCodecClass_fuel]; rewrite C, L; cbn [Ascii.eqb Bool.eqb]; rewrite X1; cbn [bind]; rewrite P, X2; reflexivity.
Qed.

(** A built-in container, in any letter case, applied to any argument. *)
Theorem C88_container r c w x mk : In (to_lower w, mk) containers -> x <> "" -> as_written r (applied w x) -> stock r (to_lower w) ->
  resolves (reg_env r) c (applied w x) (mk x).
Proof.
  intros I NX AW ST. assert (IN : In (to_lower w) container_names) by (unfold container_names; apply in_or_app; left; now apply (in_map fst) in I).
  assert (K : exists cd, assoc (to_lower w) base_registry = Some cd /\ init_sub cd x = mk x).
  { clear AW ST IN. unfold containers in I. cbn [In] in I. repeat (destruct I as [I|I]; [injection I as <- <-; eexists; split; [reflexivity|]; cbn [init_sub]; unfold pick_sub; cbn [String.eqb]; destruct (String.eqb_spec x ""); (contradiction || reflexivity)|]). destruct I. }
  destruct K as (cd & K1 & K2). rewrite <- K2. now apply applied_resolves.
Qed.

(** Bounded lists: the size is dropped. *)
Definition sized (x size : string) : string := x ++ "," ++ size.
(** The size stands nowhere else after a comma. *)
Definition own_size (x size : string) : Prop := ~ has_char ","%char size /\ forall p q, sized x size = p ++ "," ++ size ++ q -> p = x.
Lemma sdrop_all a : forall n, (String.length a <= n)%nat -> sdrop n a = "".
Proof. induction a as [|c a IH]; intros [|n] L; try reflexivity; cbn in *; [lia|]. apply IH. lia. Qed.
Lemma prefix_parts a : forall s, prefix a s = true -> exists q, s = a ++ q.
Proof.
  induction a as [|c a IH]; intros s H; [now exists s|]. destruct s as [|d s]; [discriminate|]. cbn [prefix] in H. destruct (Ascii.eqb_spec c d) as [->|]; [|discriminate].
  destruct (IH s H) as [q ->]. now exists q.
Qed.
Lemma prefix_refl a : prefix a a = true.
Proof. induction a as [|c a IH]; [reflexivity|]. cbn [prefix]. now rewrite Ascii.eqb_refl. Qed.
Lemma replace_last x old : old <> "" -> (forall p q, x ++ old = p ++ old ++ q -> p = x) -> replace_first (x ++ old) old "" = x.
Proof.
  intros NE. induction x as [|c x IH]; intros U.
  - cbn [String.append]. destruct old as [|d old]; [contradiction|]. cbn [replace_first]. rewrite prefix_refl. cbn [String.append]. apply sdrop_all. lia.
  - cbn [String.append replace_first]. destruct (prefix old (String c (x ++ old))) eqn:P.
    + exfalso. destruct (prefix_parts _ _ P) as [q Q]. specialize (U "" q Q). discriminate U.
    + f_equal. apply IH. intros p q Q. assert (X : String c p = String c x) by (apply (U (String c p) q); cbn [String.append]; now rewrite Q). now injection X.
Qed.
Lemma split_size x : forall size, ~ has_char ","%char size -> exists h l, split_char ","%char (sized x size) = (h :: l ++ [size])%list.
Proof.
  unfold sized. induction x as [|c x IH]; intros size N.
  - exists "", []. cbn [String.append split_char Ascii.eqb Bool.eqb]. now rewrite split_absent by exact N.
  - destruct (IH size N) as (h & l & E). cbn [String.append split_char]. cbn [String.append] in E. rewrite E. destruct (Ascii.eqb_spec c ","%char) as [->|].
    + now exists "", (h :: l).
    + now exists (String c h), l.
Qed.
Lemma bounded_argument x size own : own_size x size -> bounded_sub own (sized x size) = x.
Proof.
  intros [N U]. unfold bounded_sub. destruct (split_size x size N) as (h & l & ->). cbn [rev]. rewrite rev_app_distr. cbn [rev app].
  assert (R : replace_first (sized x size) ("," ++ size) "" = x).
  { apply replace_last; [discriminate|]. intros p q Q. apply (U p q). unfold sized. rewrite Q. cbn [String.append]. reflexivity. }
  destruct (rev l ++ [h])%list eqn:Q; [now destruct (rev l)|]. exact R.
Qed.
(** Full claim: without [own_size]. *)
Theorem C88_bounded_partial r c w x size : In (to_lower w) bounded -> own_size x size -> as_written r (applied w (sized x size)) -> stock r (to_lower w) ->
  resolves (reg_env r) c (applied w (sized x size)) (CVec x).
Proof.
  intros I O AW ST. assert (NX : sized x size <> "") by (unfold sized; destruct x; discriminate).
  assert (IN : In (to_lower w) container_names) by (unfold container_names; apply in_or_app; now right).
  assert (K : assoc (to_lower w) base_registry = Some (CBoundedVec "")) by (unfold bounded in I; cbn [In] in I; destruct I as [<-|[<-|[]]]; reflexivity).
  pose proof (applied_resolves r c w _ _ IN NX AW ST K) as R. cbn [init_sub] in R. now rewrite bounded_argument in R.
Qed.
(** So it is read as the plain list is, whatever the bytes. *)
Lemma same_decoder E c t t' cd : resolves E c t cd -> resolves E c t' cd -> forall f data off, decode f E c data off t = decode f E c data off t'.
Proof. intros (c1 & s1 & G1 & I1) (c2 & s2 & G2 & I2) [|f] data off; [reflexivity|]. cbn [decode]. rewrite G1, G2. cbn [bind]. now rewrite I1, I2. Qed.
Theorem C88_bounded_decode r c w x size data off o : In (to_lower w) bounded -> x <> "" -> own_size x size -> as_written r (applied w (sized x size)) -> stock r (to_lower w) ->
  as_written r (applied "Vec" x) -> stock r "vec" ->
  (Decodes (reg_env r) c data off (applied w (sized x size)) o <-> Decodes (reg_env r) c data off (applied "Vec" x) o).
Proof.
  intros I NX O AW ST AV SV. pose proof (C88_bounded_partial r c w x size I O AW ST) as R1.
  pose proof (C88_container r c "Vec" x CVec (or_introl eq_refl) NX AV SV) as R2. pose proof (same_decoder _ _ _ _ _ R1 R2) as EQ.
  split; intros [N [f H]]; (split; [exact N|]); exists f; [now rewrite <- EQ|now rewrite EQ].
Qed.
(** A box is read as what is in it. *)
Theorem C88_box r c w x data off o : to_lower w = "box" -> x <> "" -> as_written r (applied w x) -> stock r "box" ->
  Decodes (reg_env r) c data off x o -> Decodes (reg_env r) c data off (applied w x) o.
Proof.
  intros W NX AW ST [N [f H]]. rewrite <- W in ST. pose proof (C88_container r c w x CBox ltac:(rewrite W; cbn; auto 12) NX AW ST) as R.
  apply (Decodes_run _ _ _ _ f _ _ _ R); [|exact N]. cbn [process run]. rewrite H. destruct o as [[[v o1] cs1]| |]; reflexivity.
Qed.
Print Assumptions C88_container.
Print Assumptions C88_bounded_partial.
Print Assumptions C88_bounded_decode.
Print Assumptions C88_box.

(** The size is searched from the left, so a size that also stands inside the
    element type, or begins what stands there, cuts the text in the wrong place:
    the type is unknown, where writing the inner size differently reads on. *)
Theorem C88_bounded_refuted : let E := reg_env base_reg in let c := Ctx (-1) "" None in let d := map Zb [4; 4; 7] in
  Decodes E c d 0 "BoundedVec<BoundedVec<u8, A>, S>" (Ok (VSlice [VSlice [VInt 7]], 3, []))
  /\ Decodes E c d 0 "BoundedVec<BoundedVec<u8, S>, S>" (Panic "Not found decoder class BoundedVec<u8>, S")
  /\ Decodes E c d 0 "BoundedVec<BoundedVec<u8, MaxLength>, Max>" (Panic "Not found decoder class BoundedVec<u8Length>, Max").
Proof. cbv zeta. repeat split; try discriminate; exists 6%nat; vm_compute; reflexivity. Qed.
Print Assumptions C88_bounded_refuted.

Lemma base_stock k : In k container_names -> stock base_reg k.
Proof. intros _. now split. Qed.
Ltac written := split; [reflexivity|split; reflexivity].
Example C88_example : resolves (reg_env base_reg) (Ctx 0 "staking" None) "WrapperOpaque<Vec<(u32,Balance)>>" (CWrapperOpaque "Vec<(u32,Balance)>")
  /\ resolves (reg_env base_reg) (Ctx 0 "" None) "BTREEMAP<u8,Option<u16>>" (CBTreeMap "u8,Option<u16>")
  /\ resolves (reg_env base_reg) (Ctx 0 "" None) "RangeInclusive<BlockNumber>" (CRange "BlockNumber").
Proof.
  split; [|split].
  - apply (C88_container base_reg _ "WrapperOpaque" "Vec<(u32,Balance)>"); [cbn; auto 12|discriminate|written|apply base_stock; cbn; auto 14].
  - apply (C88_container base_reg _ "BTREEMAP" "u8,Option<u16>"); [cbn; auto 12|discriminate|written|apply base_stock; cbn; auto 14].
  - apply (C88_container base_reg _ "RangeInclusive" "BlockNumber"); [cbn; auto 12|discriminate|written|apply base_stock; cbn; auto 14].
Qed.
Example C88_example_bounded : own_size "BTreeMap<u8, Price>" " Limit" /\
  (forall c data off o, Decodes (reg_env base_reg) c data off "WeakBoundedVec<BTreeMap<u8, Price>, Limit>" o <-> Decodes (reg_env base_reg) c data off "Vec<BTreeMap<u8, Price>>" o).
Proof.
  assert (O : own_size "BTreeMap<u8, Price>" " Limit").
  { split; [cbn; intuition discriminate|]. intros p q H. unfold sized in H. cbn [String.append] in H.
    repeat (destruct p as [|a p]; [first [reflexivity|discriminate H]|cbn [String.append] in H; injection H as <- H]); destruct p; discriminate H. }
  split; [exact O|]. intros c data off o. apply (C88_bounded_decode base_reg c "WeakBoundedVec" "BTreeMap<u8, Price>" " Limit"); [cbn; auto|discriminate|exact O|written|apply base_stock; cbn; auto 14|written|apply base_stock; cbn; auto 14].
Qed.
