(** C84: the types of a network's definition file (network/*.json) never ask for
    a type name nobody registers, but for fifteen definitions in seven files. *)

From Verif Require Import GoBase ModelTools ModelVal ModelRegistry ModelDecode ModelRegister ModelBaseTypes ModelNetworks ProofsMeta ProofsNames ProofsLoad ProofsNet ProofsTrie ProofsFast ProofsKnown PropLoad PropEthereum PropKnown PropNetworks.
From Coq Require Import Permutation.

(** ** What is claimed *)
(** The type an entry "Name" or "Name#lo-hi" of a file is about. *)
Definition type_name (k : string) : string := match split_char "#"%char k with [n; _] => n | _ => k end.
(** The definitions that need a name nobody registers: file, type, a spec
    version and an input that shows it. *)
Definition lacking : list (string * string * Z * list Z) :=
  [ ("edgeware", "VoteData", 0, []); ("edgeware", "VoteRecord", 0, []);
    ("gateway-test", "Ethereum__Chain__EventId", 0, []); ("gateway-test", "eth__EventId", 0, []);
    ("gateway-test", "Solana__Chain__Event", 0, []); ("gateway-test", "Tezos__Chain__Event", 0, []);
    ("karura", "CandidateInfoOf", 0, []); ("karura", "PoolInfo", 2000, repeat 0 16%nat ++ [4])%list;
    ("kilt", "DelegationNode", 0, []); ("kilt", "DidUpdateDetails", 0, []);
    ("laminar-test", "SyntheticPoolState", 0, repeat 0 16%nat);
    ("moonbase", "TxPoolResultContent", 0, []); ("moonbase", "TxPoolResultInspect", 0, []);
    ("moonriver", "TxPoolResultContent", 0, []); ("moonriver", "TxPoolResultInspect", 0, []) ].
Definition lacks (file t : string) : Prop := exists spec data, In (file, t, spec, data) lacking.

(** ** Lookups outside pallets, for registries with version ranges *)
Section Class.
Variable E : env.
Variable spec : Z.
Variable find : string -> option codec.
Hypothesis FIND : forall k, find k = match specialVersionCodec E k spec with Some c => Some c | None => assoc k (e_reg E) end.
Lemma instant_found t : instant_by find "" t = getCodecInstant E "" t spec.
Proof.
  unfold instant_by, getCodecInstant. cbv zeta. change (ModuleType (to_lower t) "") with (to_lower t). rewrite to_lower_idem, FIND.
  destruct (specialVersionCodec E (to_lower t) spec); reflexivity.
Qed.
Lemma class_found : forall f t, class_by find f "" t = GetCodecClass_fuel f E "" t spec.
Proof.
  induction f as [|f IH]; intros t; cbn [class_by GetCodecClass_fuel]; cbv zeta; destruct (last_char (ConvertType t)) as [z|]; try reflexivity; rewrite !instant_found.
  all: match goal with |- bind ?e _ = bind ?e _ => destruct e as [[c|]|x|]; cbn [bind]; try reflexivity end.
  all: match goal with |- bind (match ?p with _ => _ end) _ = _ => destruct p as [[n sub]|]; rewrite ?instant_found end.
  all: match goal with |- bind ?e _ = bind ?e _ => destruct e as [[c|]|x|]; cbn [bind]; try reflexivity end.
  all: try (destruct (negb _ && _ && _); [reflexivity|]); try (destruct (contains _ _ && _); [|reflexivity]); try reflexivity; apply IH.
Qed.
End Class.

(** ** Finitely many spec versions *)
(** Where some range of a file begins or has ended. *)
Definition turns (defs : list (string * tstruct)) : list Z :=
  flat_map (fun p => match version_of (to_lower (fst p)) with Some (_, (lo, hi)) => [lo; hi + 1] | None => [] end) defs.
Lemma stands_for pts low s : (forall p, In p pts -> low < p) -> exists m, In m (low :: pts) /\ (m = low \/ m <= s) /\ forall p, In p pts -> (p <= s <-> p <= m).
Proof.
  induction pts as [|q pts IH]; intros L; [exists low; split; [now left|]; split; [now left|intros p []]|].
  destruct IH as (m & I & B & H); [intros p I; apply L; now right|]. assert (LQ := L q (or_introl eq_refl)).
  destruct (Z.leb_spec q s) as [Q|Q]; [destruct (Z.leb_spec q m) as [M|M]|].
  - exists m. split; [destruct I; [now left|right; now right]|]. split; [exact B|]. intros p [<-|P]; [tauto|now apply H].
  - exists q. split; [right; now left|]. split; [now right|]. intros p [<-|P]; [lia|]. specialize (H p P). lia.
  - exists m. split; [destruct I; [now left|right; now right]|]. split; [exact B|]. intros p [<-|P]; [|now apply H]. destruct B; lia.
Qed.
Lemma in_range_same l s m : (forall lo hi c, In (lo, hi, c) l -> (lo <= s <-> lo <= m) /\ (hi + 1 <= s <-> hi + 1 <= m)) -> in_range l s = in_range l m.
Proof.
  induction l as [|[[lo hi] c] l IH]; intros H; [reflexivity|]. cbn [in_range]. rewrite IH by (intros a b d I; apply (H a b d); now right).
  destruct (H lo hi c (or_introl eq_refl)) as [A B].
  replace ((lo <=? m) && (m <=? hi)) with ((lo <=? s) && (s <=? hi)); [reflexivity|].
  destruct (Z.leb_spec lo s), (Z.leb_spec lo m), (Z.leb_spec s hi), (Z.leb_spec m hi); cbn [andb]; try reflexivity; lia.
Qed.
Lemma ranges_turn V name defs lo hi c : In (lo, hi, c) (ranges_of V name (map fst defs)) -> In lo (turns defs) /\ In (hi + 1) (turns defs).
Proof.
  unfold ranges_of. intros I. apply in_flat_map in I. destruct I as (k & K & I). apply in_map_iff in K. destruct K as (p & <- & K).
  destruct (version_of (to_lower (fst p))) as [[n [l h]]|] eqn:E; [|destruct I]. destruct (String.eqb n name); [|destruct I]. destruct (assoc _ V); [|destruct I]. destruct I as [[= -> -> ->]|[]].
  split; apply in_flat_map; exists p; (split; [exact K|]); rewrite E; [now left|right; now left].
Qed.

(** ** All names that are asked for *)
Section Reach.
Variable needs : string -> option (list string).
Fixpoint reach (fuel : nat) (todo : list string) (seen : trie unit) : option (trie unit) :=
  match fuel with
  | O => None
  | S f =>
      match todo with
      | [] => Some seen
      | t :: r =>
          if found (tfind t seen) then reach f r seen
          else match needs t with Some l => reach f (l ++ r)%list (tput t tt seen) | None => None end
      end
  end.
Definition seen_in (T : trie unit) (t : string) : Prop := found (tfind t T) = true.
Lemma seen_put t T u : seen_in (tput t tt T) u <-> u = t \/ seen_in T u.
Proof.
  unfold seen_in. rewrite tfind_put. destruct (String.eqb_spec u t) as [->|N]; [split; [now left|reflexivity]|]. split; [now right|]. intros [X|X]; [congruence|exact X].
Qed.
Lemma reach_closed fuel : forall todo seen T, reach fuel todo seen = Some T ->
  (forall t, seen_in seen t -> exists l, needs t = Some l /\ forall u, In u l -> seen_in seen u \/ In u todo) ->
  (forall t, seen_in seen t \/ In t todo -> seen_in T t) /\ (forall t, seen_in T t -> exists l, needs t = Some l /\ forall u, In u l -> seen_in T u).
Proof.
  induction fuel as [|f IH]; intros todo seen T H INV; cbn [reach] in H; [discriminate|]. destruct todo as [|t r].
  - injection H as <-. split; [intros t [X|[]]; exact X|]. intros t X. destruct (INV t X) as (l & N & A). exists l. split; [exact N|]. intros u U. now destruct (A u U) as [Y|[]].
  - destruct (found (tfind t seen)) eqn:S0.
    + destruct (IH r seen T H) as [A B].
      * intros u U. destruct (INV u U) as (l & N & A). exists l. split; [exact N|]. intros w W. destruct (A w W) as [Y|[<-|Y]]; [now left|now left|now right].
      * split; [|exact B]. intros u [U|[<-|U]]; apply A; [now left|now left|now right].
    + destruct (needs t) as [l|] eqn:N; [|discriminate]. destruct (IH (l ++ r)%list (tput t tt seen) T H) as [A B].
      * intros u U. apply seen_put in U. destruct U as [->|U].
        -- exists l. split; [exact N|]. intros w W. right. apply in_or_app. now left.
        -- destruct (INV u U) as (l' & N' & A'). exists l'. split; [exact N'|]. intros w W. destruct (A' w W) as [Y|[<-|Y]]; [left; apply seen_put; now right|left; apply seen_put; now left|right; apply in_or_app; now right].
      * split; [|exact B]. intros u [U|[<-|U]]; apply A; [left; apply seen_put; now right|left; apply seen_put; now left|right; apply in_or_app; now right].
Qed.
End Reach.

(** ** The check of the files *)
(** The decoders found for [specs], each looked at once while it stays the same. *)
Definition same_class (prev : option (codec * string)) (cd : codec) (sub : string) : bool :=
  match prev with Some (c, s) => String.eqb s sub && same_codec (Some c) (Some cd) | None => false end.
Fixpoint all_asked (class : Z -> string -> res (option (codec * string))) (t : string) (prev : option (codec * string)) (specs : list Z) : option (list string) :=
  match specs with
  | [] => Some []
  | s :: r =>
      match class s t with
      | Ok (Some (cd, sub)) =>
          match all_asked class t (Some (cd, sub)) r with
          | Some l => Some (if same_class prev cd sub then l else asks (init_sub cd sub) ++ l)%list
          | None => None
          end
      | _ => None
      end
  end.
Lemma all_asked_prev class t specs : forall prev l s, all_asked class t prev specs = Some l -> In s specs ->
  exists cd sub, class s t = Ok (Some (cd, sub)) /\ forall u, In u (asks (init_sub cd sub)) -> In u l \/ exists c s', prev = Some (c, s') /\ In u (asks (init_sub c s')).
Proof.
  induction specs as [|a r IH]; intros prev l s H I; [destruct I|]. cbn [all_asked] in H.
  destruct (class a t) as [[[cd sub]|]| |] eqn:C; try discriminate H. destruct (all_asked class t (Some (cd, sub)) r) as [l'|] eqn:R; [|discriminate H]. injection H as <-.
  assert (HERE : forall u, In u (asks (init_sub cd sub)) -> In u (if same_class prev cd sub then l' else asks (init_sub cd sub) ++ l')%list \/ exists c s', prev = Some (c, s') /\ In u (asks (init_sub c s'))).
  { intros u U. destruct prev as [[c s']|]; cbn [same_class].
    - destruct (String.eqb_spec s' sub) as [->|]; cbn [andb]; [destruct (same_codec (Some c) (Some cd)) eqn:Q|]; [|left; apply in_or_app; now left..].
      apply same_codec_eq in Q. injection Q as ->. right. now exists cd, sub.
    - left. apply in_or_app. now left. }
  destruct I as [->|I]; [now exists cd, sub|].
  destruct (IH (Some (cd, sub)) l' s R I) as (cd' & sub' & C' & A). exists cd', sub'. split; [exact C'|]. intros u U.
  destruct (A u U) as [X|(c & s' & [= <- <-] & X)]; [|now apply HERE]. left. destruct (same_class prev cd sub); [exact X|]. apply in_or_app. now right.
Qed.
Lemma all_asked_in class t specs l s : all_asked class t None specs = Some l -> In s specs ->
  exists cd sub, class s t = Ok (Some (cd, sub)) /\ forall u, In u (asks (init_sub cd sub)) -> In u l.
Proof.
  intros H I. destruct (all_asked_prev class t specs None l s H I) as (cd & sub & C & A). exists cd, sub. split; [exact C|]. intros u U. destruct (A u U) as [X|(c & s' & X & _)]; [exact X|discriminate X].
Qed.
Definition find_in (b f : trie codec) (rg : trie (list (Z * Z * codec))) (s : Z) (k : string) : option codec :=
  match (match tfind k rg with Some l => in_range l s | None => None end) with
  | Some c => Some c
  | None => match tfind k f with Some c => Some c | None => tfind k b end
  end.
Definition ranges_trie (V : list (string * codec)) (ks : list string) : trie (list (Z * Z * codec)) := tbuild (map (fun n => (n, ranges_of V n ks)) (names_of ks)).
(** The types the claim is about: those of the file that lack nothing, alone and
    in a vector or an option. *)
Definition forms (k : string) : list string := [k; "Vec<" ++ k ++ ">"; "Option<" ++ k ++ ">"].
Definition lacks_b (file t : string) : bool := existsb (fun p => let '(n, k, _, _) := p in String.eqb n file && String.eqb k t) lacking.
Definition begin_with (file : string) (defs : list (string * tstruct)) : list string :=
  flat_map (fun p => if lacks_b file (type_name (fst p)) then [] else forms (type_name (fst p))) defs.
Definition steps : nat := (250 * 250)%nat.
Definition file_reach (b : trie codec) (file : string) (defs : list (string * tstruct)) : option (trie unit) :=
  let f := tbuild (guesses false b defs) in let rg := ranges_trie (guesses true b defs) (map fst defs) in let specs := -1 :: nodup Z.eq_dec (turns defs) in
  reach (fun t => all_asked (fun s t => class_by (find_in b f rg s) (String.length t) "" t) t None specs) steps (begin_with file defs) bare_trie.
Definition file_known (b : trie codec) (p : string * list (string * tstruct)) : bool :=
  forallb (fun q => -1 <? q) (turns (snd p)) && match file_reach b (fst p) (snd p) with Some _ => true | None => false end.
Definition all_known (b : trie codec) (nets : list (string * list (string * tstruct))) : bool :=
  forallb (fun p => existsb (String.eqb (fst p)) fickle || file_known b p) nets.
Lemma files_known : all_known fresh_trie networks = true.
Proof. vm_cast_no_check (eq_refl true). Qed.

#[local] Opaque yardstick base_definitions base_registry start_registry networks file_order fresh fresh_trie steps.
Lemma lacks_b_no file t : ~ lacks file t -> lacks_b file t = false.
Proof.
  intros N. unfold lacks_b. destruct (existsb _ lacking) eqn:X; [|reflexivity]. exfalso. apply N. apply existsb_exists in X. destruct X as ([[[n k] s] d] & I & Q).
  apply andb_prop in Q. destruct Q as [Q1 Q2]. apply String.eqb_eq in Q1, Q2. subst. now exists s, d.
Qed.
Lemma file_reaches name defs : In (name, defs) networks -> ~ In name fickle -> (forall q, In q (turns defs) -> -1 < q) /\ exists T, file_reach fresh_trie name defs = Some T.
Proof.
  intros I N. assert (H := proj1 (forallb_forall _ _) files_known _ I). cbn [fst] in H. apply orb_prop in H. destruct H as [H|H].
  - exfalso. apply N. apply existsb_exists in H. destruct H as (x & Ix & Q). apply String.eqb_eq in Q. now rewrite Q.
  - unfold file_known in H. cbn [fst snd] in H. apply andb_prop in H. destruct H as [H1 H2]. split.
    + intros q Q. assert (X := proj1 (forallb_forall _ _) H1 q Q). lia.
    + destruct (file_reach fresh_trie name defs) as [T|]; [now exists T|discriminate].
Qed.
Lemma find_ranges V ks k s : (match tfind k (ranges_trie V ks) with Some l => in_range l s | None => None end) = in_range (ranges_of V k ks) s.
Proof.
  unfold ranges_trie. rewrite tfind_build. assert (IN : forall l, assoc k (map (fun n => (n, ranges_of V n ks)) l) = if existsb (String.eqb k) l then Some (ranges_of V k ks) else None).
  { induction l as [|n l IH]; [reflexivity|]. cbn [map assoc existsb]. destruct (String.eqb_spec k n) as [->|]; [reflexivity|exact IH]. }
  rewrite IN. destruct (existsb (String.eqb k) (names_of ks)) eqn:X; [reflexivity|].
  destruct (ranges_of V k ks) as [|p l] eqn:R; [reflexivity|]. exfalso.
  assert (Y : In k (names_of ks)) by (apply (ranges_names V); rewrite R; discriminate).
  assert (Z0 : existsb (String.eqb k) (names_of ks) = true) by (apply existsb_exists; exists k; split; [exact Y|apply String.eqb_refl]). congruence.
Qed.

(** Outside pallets (a pallet may override names: C33) and without calls. *)
Theorem C84_known_partial name defs : In (name, defs) networks -> ~ In name fickle ->
  forall a b o1 o2, orders defs a b o1 o2 -> exists r, process_with defs a b o1 o2 = Ok r /\
  forall k d t, In (k, d) defs -> ~ lacks name (type_name k) -> In t (forms (type_name k)) ->
  forall like fuel spec data off, ~ reports_unknown (decode fuel (env_of r like) (Ctx spec "" None) data off t).
Proof.
  intros I N a b o1 o2 O. assert (ST := file_steady name defs I N). destruct (loaded_file defs ST a b o1 o2 O) as (r & R & A1 & A2).
  exists r. split; [exact R|]. intros k d t IK NL IT like fuel spec data off. destruct (file_reaches name defs I N) as (LOW & T & RT).
  unfold file_reach in RT. cbv zeta in RT. apply reach_closed in RT.
  2:{ intros u U. destruct u; discriminate U. }
  destruct RT as [START CLOSED].
  apply (C72_known (env_of r like) (fun m => m = "") (seen_in T)); [reflexivity| |split; [reflexivity|exact Logic.I]|].
  - intros u m s U ->. destruct (CLOSED u U) as (l & NE & AL).
    destruct (stands_for (turns defs) (-1) s LOW) as (p & IP & _ & EQ).
    assert (IP' : In p (-1 :: nodup Z.eq_dec (turns defs))) by (destruct IP as [IP|IP]; [now left|right; now apply nodup_In]).
    destruct (all_asked_in _ _ _ _ p NE IP') as (cd & sub & C & A). exists cd, sub. split.
    + unfold GetCodecClass. rewrite <- (class_found (env_of r like) s (find_in fresh_trie (tbuild (guesses false fresh_trie defs)) (ranges_trie (guesses true fresh_trie defs) (map fst defs)) p)); [exact C|].
      intros q. unfold find_in. rewrite find_ranges, tfind_build, fresh_found.
      change (specialVersionCodec (env_of r like) q s) with (specialVersionCodec (reg_env r) q s). change (e_reg (env_of r like)) with (r_types r). rewrite A1, A2. unfold net_special, net_types, F, V.
      rewrite (in_range_same _ s p); [reflexivity|]. intros lo hi c IR. destruct (ranges_turn _ _ _ _ _ _ IR) as [X Y]. split; now apply EQ.
    + intros w W. apply AL. now apply A.
  - apply START. right. unfold begin_with. apply in_flat_map. exists (k, d). split; [exact IK|]. cbn [fst]. rewrite (lacks_b_no _ _ NL). exact IT.
Qed.
Print Assumptions C84_known_partial.

(** ** The definitions that lack a name *)
(** A registry that answers as the process does. *)
Definition as_loaded (b : trie codec) (base : reg) (defs : list (string * tstruct)) : reg :=
  let V := guesses true b defs in
  Reg (guesses false b defs ++ r_types base)%list (map (fun n => (n, ranges_of V n (map fst defs))) (names_of (map fst defs))) [].
Definition unknown_b (o : outcome) : bool := match o with Panic m => unknown_type m | _ => false end.
Definition shows_lack (b : trie codec) (base : reg) (nets : list (string * list (string * tstruct))) (p : string * string * Z * list Z) : bool :=
  let '(n, k, spec, data) := p in
  negb (existsb (String.eqb n) fickle) &&
  match assoc n nets with
  | Some defs => existsb (fun q => String.eqb (type_name (fst q)) k) defs && unknown_b (decode 30 (env_of (as_loaded b base defs) usual_world) (Ctx spec "" None) (map Zb data) 0 k)
  | None => false
  end.
Definition all_lack (b : trie codec) (base : reg) (nets : list (string * list (string * tstruct))) : bool := forallb (shows_lack b base nets) lacking.
#[local] Transparent yardstick base_definitions base_registry start_registry networks file_order fresh fresh_trie steps.
Lemma files_lack : all_lack fresh_trie fresh networks = true.
Proof. vm_cast_no_check (eq_refl true). Qed.
#[local] Opaque yardstick base_definitions base_registry start_registry networks file_order fresh fresh_trie steps.

Lemma as_loaded_answers defs : answers (net_types fresh (F defs)) (net_special defs (V defs)) (as_loaded fresh_trie fresh defs).
Proof.
  split.
  - intros q. unfold as_loaded. cbv zeta. cbn [r_types]. rewrite either_app. unfold either, net_types, F. reflexivity.
  - intros t spec. unfold as_loaded, net_special, specialVersionCodec, reg_env. cbv zeta. cbn [e_special r_special].
    rewrite <- (find_ranges (V defs) (map fst defs) t spec). unfold ranges_trie. rewrite tfind_build. reflexivity.
Qed.
(** Each of them is a type of its file, and on the input given it ends with an
    unknown name, in whatever order the file is read. *)
Theorem C84_known_refuted name k spec data : In (name, k, spec, data) lacking ->
  exists defs, In (name, defs) networks /\ (exists key d, In (key, d) defs /\ type_name key = k) /\
  forall a b o1 o2, orders defs a b o1 o2 -> exists r, process_with defs a b o1 o2 = Ok r /\
    reports_unknown (decode 30 (env_of r usual_world) (Ctx spec "" None) (map Zb data) 0 k).
Proof.
  intros I. assert (H := proj1 (forallb_forall _ _) files_lack _ I). unfold shows_lack in H. apply andb_prop in H. destruct H as [NF H].
  destruct (assoc name networks) as [defs|] eqn:A; [|discriminate]. apply assoc_in in A. apply andb_prop in H. destruct H as [K D].
  exists defs. split; [exact A|]. split.
  - apply existsb_exists in K. destruct K as ([key d] & IK & Q). exists key, d. split; [exact IK|]. now apply String.eqb_eq in Q.
  - intros a b o1 o2 O. assert (N : ~ In name fickle).
    { intros X. apply negb_true_iff in NF. assert (Y : existsb (String.eqb name) fickle = true) by (apply existsb_exists; exists name; split; [exact X|apply String.eqb_refl]). congruence. }
    destruct (loaded_file defs (file_steady name defs A N) a b o1 o2 O) as (r & R & AN). exists r. split; [exact R|].
    rewrite (alike_decode r _ usual_world (answers_alike _ _ _ _ AN (as_loaded_answers defs))).
    unfold unknown_b in D. destruct (decode 30 _ _ _ _ _) as [x|m|]; try discriminate D. now exists m.
Qed.
Print Assumptions C84_known_refuted.

(** ** The case of Kusama: nothing is lacking, and there are ranges. *)
Example C84_kusama : In ("kusama", net_kusama) networks /\ ~ In "kusama" fickle /\ (forall t, ~ lacks "kusama" t) /\ List.length (nodup Z.eq_dec (turns net_kusama)) = 15%nat.
Proof.
  split; [|split; [|split]].
  - apply (assoc_in "kusama"). vm_compute. reflexivity.
  - intros X. cbn in X. repeat (destruct X as [X|X]; [discriminate X|]). exact X.
  - intros t (s & d & X). unfold lacking in X. cbn [In] in X. repeat (destruct X as [X|X]; [discriminate X|]). exact X.
  - vm_compute. reflexivity.
Qed.
