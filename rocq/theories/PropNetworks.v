(** C80: the definition files of single networks.  A fresh process loads one of
    them; Go visits its entries in a random order, twice.  For fifty of the
    fifty-four files every type decodes and encodes the same whatever the
    orders; for the other four it does not. *)

From Verif Require Import GoBase ModelTools ModelVal ModelRegistry ModelDecode ModelEncode ModelRegister ModelBaseTypes ModelNetworks ProofsMeta ProofsLoad ProofsNet ProofsTrie ProofsFast PropLoad PropEthereum.
From Coq Require Import Permutation.

(** ** What the claim speaks of *)
(** A fresh process (its definitions visited in the orders [a] and [b]) that
    loads the definitions [defs] (visited in the orders [o1] and [o2]). *)
Definition process_with (defs : list (string * tstruct)) (a b o1 o2 : list string) : res reg :=
  r <- start_registry a b ;; load_definitions defs o1 o2 r.
Definition orders (defs : list (string * tstruct)) (a b o1 o2 : list string) : Prop :=
  visiting_order a /\ visiting_order b /\ Permutation o1 (map fst defs) /\ Permutation o2 (map fst defs).
(** The files whose meaning depends on the order. *)
Definition fickle : list string := ["crab"; "darwinia"; "pangolin"; "sora"].

(** Two registries no decoding and no encoding tells apart.  [like] is the
    world outside the registry. *)
Definition indistinguishable (r s : reg) : Prop :=
  (forall like fuel c data off ts, decode fuel (env_of r like) c data off ts = decode fuel (env_of s like) c data off ts) /\
  (forall like fuel spec meta ts v, encode fuel (env_of r like) spec meta ts v = encode fuel (env_of s like) spec meta ts v).

(** What a file says: structs, enums and sets are what they are described to
    be, for all versions or for those of the name "Name#lo-hi"; an alias of a
    registered name is that name, for all versions or for some; a name no entry
    has keeps the decoder of the fresh process. *)
Definition network_as_described (defs : list (string * tstruct)) (r : reg) : Prop :=
  (forall k t c, In (k, t) defs -> no_version (to_lower k) = true -> described t = Some c -> assoc (to_lower k) (r_types r) = Some c) /\
  (forall k t c name v, In (k, t) defs -> split_char "#"%char (to_lower k) = [name; v] -> described t = Some c ->
     forall spec like, fst (version_range v) <= spec <= snd (version_range v) -> specialVersionCodec (env_of r like) name spec = Some c) /\
  (forall k s c, In (k, alias s) defs -> no_version (to_lower k) = true -> assoc (to_lower (ConvertType s)) (r_types r) = Some c -> assoc (to_lower k) (r_types r) = Some c) /\
  (forall k s c name v, In (k, alias s) defs -> split_char "#"%char (to_lower k) = [name; v] -> assoc (to_lower (ConvertType s)) (r_types r) = Some c ->
     forall spec like, fst (version_range v) <= spec <= snd (version_range v) -> specialVersionCodec (env_of r like) name spec = Some c) /\
  (forall k, (forall d, In d defs -> to_lower (fst d) <> k) -> assoc k (r_types r) = last_value k) /\
  (forall name spec like, (forall k t v, In (k, t) defs -> split_char "#"%char (to_lower k) <> [name; v]) -> specialVersionCodec (env_of r like) name spec = None).

(** ** The check of the files *)
(** The fresh process, as a list. *)
Definition fresh : reg := Reg (yardstick ++ base_registry)%list [] [].
Definition fresh_trie : trie codec := tbuild (r_types fresh).
Definition says (types : string -> option codec) (V : list (string * codec)) (p : string * tstruct) : bool :=
  match version_of (to_lower (fst p)) with
  | None => describes types p && stands types p
  | Some _ =>
      if String.eqb (t_type (snd p)) "string" then same_if_known (assoc (to_lower (fst p)) V) (types (to_lower (ConvertType (t_string (snd p)))))
      else same_codec (assoc (to_lower (fst p)) V) (described (snd p))
  end.
Definition steady (b : trie codec) (defs : list (string * tstruct)) : bool :=
  let F := guesses false b defs in let V := guesses true b defs in let f := tbuild F in
  distinct_names (map fst defs) && fast_net b defs F V 8 && forallb (says (fun k => match tfind k f with Some c => Some c | None => tfind k b end) V) defs.
Definition all_steady (b : trie codec) (nets : list (string * list (string * tstruct))) : bool :=
  forallb (fun p => existsb (String.eqb (fst p)) fickle || steady b (snd p)) nets.
Lemma files_steady : all_steady fresh_trie networks = true.
Proof. vm_compute. reflexivity. Qed.

#[local] Opaque yardstick base_definitions base_registry start_registry networks file_order.
Lemma file_steady name defs : In (name, defs) networks -> ~ In name fickle -> steady fresh_trie defs = true.
Proof.
  intros I N. assert (H := proj1 (forallb_forall _ _) files_steady _ I). cbn [fst snd] in H. apply orb_prop in H. destruct H as [H|H]; [|exact H].
  exfalso. apply N. apply existsb_exists in H. destruct H as (x & Ix & E). apply String.eqb_eq in E. now rewrite E.
Qed.
Lemma either_app (a b : list (string * codec)) k : assoc k (a ++ b)%list = either a b k.
Proof. unfold either. induction a as [|[k' c] a IH]; [reflexivity|]. cbn [app assoc]. destruct (String.eqb k k'); [reflexivity|exact IH]. Qed.
Lemma fresh_value k : assoc k (r_types fresh) = last_value k.
Proof. exact (either_app yardstick base_registry k). Qed.
Lemma fresh_found k : tfind k fresh_trie = assoc k (r_types fresh).
Proof. exact (tfind_build k (r_types fresh)). Qed.
#[local] Opaque fresh fresh_trie.

(** ** Loading *)
Section File.
Variable defs : list (string * tstruct).
Hypothesis ST : steady fresh_trie defs = true.
Definition F := guesses false fresh_trie defs.
Definition V := guesses true fresh_trie defs.
Lemma says_same types types' p : (forall k, types k = types' k) -> says types V p = says types' V p.
Proof.
  intros H. unfold says, describes, stands. rewrite !H. reflexivity.
Qed.
Lemma steady_parts : NoDup (map fst defs) /\ net_loads defs fresh F V 8 = true /\ forallb (says (net_types fresh F) V) defs = true.
Proof.
  pose proof ST as H. unfold steady in H. cbv zeta in H. fold F V in H. apply andb_prop in H. destruct H as [A S']. apply andb_prop in A. destruct A as [D L]. split; [exact (distinct_names_ok _ D)|]. split.
  - exact (fast_net_ok fresh_trie defs fresh F V 8 fresh_found L).
  - apply forallb_forall. intros p I. assert (X := proj1 (forallb_forall _ _) S' p I). rewrite <- X. apply says_same. intros k. unfold net_types. rewrite tfind_build, fresh_found. reflexivity.
Qed.
Lemma loaded_file a b o1 o2 : orders defs a b o1 o2 -> exists r, process_with defs a b o1 o2 = Ok r /\ answers (net_types fresh F) (net_special defs V) r.
Proof.
  intros (A & B & P1 & P2). destruct (started a b A B) as (r0 & R0 & S0 & V0 & T0). unfold process_with. rewrite R0. cbn [bind].
  destruct steady_parts as (ND & L & _).
  destruct (net_any_order defs fresh F V 8 ND L r0 o1 o2) as (r & R & AN & _); [intros q; rewrite fresh_value; apply T0|exact S0|exact V0|exact P1|exact P2|].
  exists r. now split.
Qed.
End File.

Theorem C80_same_partial name defs : In (name, defs) networks -> ~ In name fickle ->
  forall a b o1 o2 a' b' o1' o2', orders defs a b o1 o2 -> orders defs a' b' o1' o2' ->
  exists r s, process_with defs a b o1 o2 = Ok r /\ process_with defs a' b' o1' o2' = Ok s /\ indistinguishable r s.
Proof.
  intros I N a b o1 o2 a' b' o1' o2' O O'. assert (ST := file_steady name defs I N).
  destruct (loaded_file defs ST a b o1 o2 O) as (r & R & AR). destruct (loaded_file defs ST a' b' o1' o2' O') as (s & S' & AS).
  exists r, s. split; [exact R|]. split; [exact S'|]. assert (AL := answers_alike _ _ _ _ AR AS). split.
  - intros like fuel c data off ts. exact (alike_decode r s like AL fuel c data off ts).
  - intros like fuel spec meta ts v. exact (alike_encode r s like AL fuel spec meta ts v).
Qed.

Lemma version_split k name v : split_char "#"%char k = [name; v] -> version_of k = Some (name, version_range v).
Proof. intros H. unfold version_of. now rewrite H. Qed.
Lemma split_version k name r : version_of k = Some (name, r) -> exists v, split_char "#"%char k = [name; v].
Proof. unfold version_of. destruct (split_char "#"%char k) as [|n [|v [|]]]; try discriminate. intros [= -> _]. now exists v. Qed.
Lemma coherent_value l lo hi c spec : coherent l = true -> In (lo, hi, c) l -> lo <= spec <= hi -> in_range l spec = Some c.
Proof.
  intros C I J. destruct (in_range l spec) as [c'|] eqn:E.
  - apply in_range_in in E. destruct E as (lo' & hi' & I' & J'). unfold coherent in C. rewrite forallb_forall in C. specialize (C _ I'). rewrite forallb_forall in C. specialize (C _ I).
    cbn [agree] in C. apply orb_prop in C. destruct C as [C|C]; [lia|]. now apply same_codec_eq in C.
  - exfalso. exact (in_range_none _ _ E _ _ _ I J).
Qed.
Theorem C80_as_described name defs : In (name, defs) networks -> ~ In name fickle ->
  forall a b o1 o2, orders defs a b o1 o2 -> exists r, process_with defs a b o1 o2 = Ok r /\ network_as_described defs r.
Proof.
  intros I N a b o1 o2 O. assert (ST := file_steady name defs I N). destruct (loaded_file defs ST a b o1 o2 O) as (r & R & A1 & A2).
  exists r. split; [exact R|]. destruct (steady_parts defs ST) as (_ & L & SY). rewrite forallb_forall in SY. destruct (net_parts _ _ _ _ _ L) as (_ & KF & _ & CO).
  assert (plain : forall k, no_version k = true -> version_of k = None) by (intros k H; now apply version_none).
  assert (ranged_as : forall k t c nm v, In (k, t) defs -> split_char "#"%char (to_lower k) = [nm; v] -> assoc (to_lower k) (V defs) = Some c ->
    forall spec like, fst (version_range v) <= spec <= snd (version_range v) -> specialVersionCodec (env_of r like) nm spec = Some c).
  { intros k t c nm v Ik SP SV spec like J. change (specialVersionCodec (reg_env r) nm spec = Some c). rewrite A2. unfold net_special.
    assert (VK := version_split _ _ _ SP). destruct (version_range v) as [lo hi] eqn:VR. cbn [fst snd] in J.
    assert (IR : In (lo, hi, c) (ranges_of (V defs) nm (map fst defs))).
    { unfold ranges_of. apply in_flat_map. exists k. split; [exact (in_map fst _ _ Ik)|]. rewrite VK, String.eqb_refl, SV. now left. }
    apply coherent_value with (lo := lo) (hi := hi); [|exact IR|exact J].
    apply (proj1 (forallb_forall _ _) CO). apply (ranges_names (V defs)). intros X. rewrite X in IR. destruct IR. }
  split; [|split; [|split; [|split; [|split]]]].
  - intros k t c Ik NV D. rewrite A1. specialize (SY _ Ik). unfold says in SY. cbn [fst] in SY. rewrite (plain _ NV) in SY. apply andb_prop in SY. destruct SY as [SY _].
    apply (value_described (net_types fresh (F defs)) [(k, t)] k t c); [cbn [forallb]; now rewrite SY|now left|exact D].
  - intros k t c nm v Ik SP D. apply (ranged_as k t c nm v Ik SP).
    specialize (SY _ Ik). unfold says in SY. cbn [fst snd] in SY. rewrite (version_split _ _ _ SP) in SY.
    assert (NS : String.eqb (t_type t) "string" = false) by (unfold described in D; destruct (String.eqb_spec (t_type t) "string") as [T|]; [rewrite T in D; discriminate|reflexivity]).
    rewrite NS, D in SY. now apply same_codec_eq in SY.
  - intros k s c Ik NV H. rewrite A1 in H |- *. specialize (SY _ Ik). unfold says in SY. cbn [fst] in SY. rewrite (plain _ NV) in SY. apply andb_prop in SY. destruct SY as [_ SY].
    apply (value_alias (net_types fresh (F defs)) [(k, alias s)] k s c); [cbn [forallb]; now rewrite SY|now left|exact H].
  - intros k s c nm v Ik SP H. apply (ranged_as k _ c nm v Ik SP). rewrite A1 in H.
    specialize (SY _ Ik). unfold says in SY. cbn [fst snd] in SY. rewrite (version_split _ _ _ SP) in SY.
    change (t_type (alias s)) with "string" in SY. change (t_string (alias s)) with s in SY. rewrite String.eqb_refl, H in SY. cbn [same_if_known] in SY. now apply same_codec_eq in SY.
  - intros k NK. rewrite A1. unfold net_types. rewrite fresh_value. destruct (assoc k (F defs)) as [c|] eqn:E; [|reflexivity]. exfalso.
    apply assoc_in in E. assert (X := proj1 (forallb_forall _ _) KF _ E). cbn [fst] in X. apply existsb_exists in X. destruct X as (q & Iq & Q). apply String.eqb_eq in Q. subst q.
    rewrite map_map in Iq. apply in_map_iff in Iq. destruct Iq as (d & Q & Id). exact (NK d Id Q).
  - intros nm spec like NK. change (specialVersionCodec (reg_env r) nm spec = None). rewrite A2. unfold net_special.
    destruct (ranges_of (V defs) nm (map fst defs)) as [|x l] eqn:E; [reflexivity|]. exfalso.
    assert (X : In nm (names_of (map fst defs))) by (apply (ranges_names (V defs)); rewrite E; discriminate).
    unfold names_of in X. apply in_flat_map in X. destruct X as (k & Ik & X). apply in_map_iff in Ik. destruct Ik as ([k' t] & <- & Ik). cbn [fst] in X.
    destruct (version_of (to_lower k')) as [[n rg]|] eqn:VK; [|destruct X]. destruct X as [->|[]]. destruct (split_version _ _ _ VK) as (v & SP). exact (NK k' t v Ik SP).
Qed.

(** ** The four files that do not *)
Definition shown_by (p : res reg) (like : env) (spec : Z) (ts : string) (data : bytes) : option val :=
  match p with
  | Ok r => match decode 30 (env_of r like) (Ctx spec "" None) data 0 ts with Ok (v, _, _) => Some v | _ => None end
  | _ => None
  end.
Definition forth (defs : list (string * tstruct)) : list string := map fst defs.
Definition back (defs : list (string * tstruct)) : list string := rev (map fst defs).
(** A world in which Keccak is Keccak. *)
Definition usual_world : env := Env [] [] (fun _ => "") keccak256 (fun _ => None).
Definition fickle_cases : list (string * string * bytes * val * val) :=
  let a := repeat (Zb 171) 20 in
  let l := "0xabababababababababababababababababababab" in let m := "0xABaBaBaBABabABabAbAbABAbABabababaBaBABaB" in
  [("crab", "RelayAuthoritySigner", a, VStr l, VStr m);
   ("darwinia", "RelayAuthoritySigner", a, VStr l, VStr m);
   ("pangolin", "RelayAuthoritySigner", a, VStr l, VStr m);
   ("sora", "MultiCurrencyBalanceOf", Zb 5 :: repeat (Zb 0) 15, VStr "5", VDec 5 0)].
Definition val_eqb (v w : val) : bool :=
  match v, w with
  | VStr a, VStr b => String.eqb a b
  | VDec a x, VDec b y => (a =? b) && (x =? y)
  | _, _ => false
  end.
Lemma val_eqb_eq v w : val_eqb v w = true -> v = w.
Proof.
  destruct v, w; cbn [val_eqb]; try discriminate; intros H; [|apply String.eqb_eq in H; now rewrite H].
  apply andb_prop in H. destruct H as [A B]. apply Z.eqb_eq in A, B. now rewrite A, B.
Qed.
Definition shows (o : option val) (v : val) : bool := match o with Some w => val_eqb w v | None => false end.
Lemma val_neq o v w : negb (val_eqb v w) = true -> shows o v = true -> v <> w.
Proof.
  intros N S' <-. destruct o as [x|]; [|discriminate]. cbn [shows] in S'. destruct v; try (destruct x; discriminate); cbn [val_eqb] in N; rewrite ?String.eqb_refl, ?Z.eqb_refl in N; discriminate.
Qed.
(** [begin] is the registry of a fresh process. *)
Section Differ.
Variable begin : res reg.
Definition start (d : list (string * tstruct)) (o1 o2 : list string) : res reg := r <- begin ;; load_definitions d o1 o2 r.
Variable nets : list (string * list (string * tstruct)).
Definition differs (p : string * string * bytes * val * val) : bool :=
  let '(n, t, b, v, w) := p in
  negb (val_eqb v w) &&
  match assoc n nets with
  | Some d => shows (shown_by (start d (forth d) (forth d)) usual_world 0 t b) v && shows (shown_by (start d (back d) (back d)) usual_world 0 t b) w
  | None => false
  end.
Lemma shown_decodes p like spec ts data v : shows (shown_by p like spec ts data) v = true ->
  exists r off cs, p = Ok r /\ decode 30 (env_of r like) (Ctx spec "" None) data 0 ts = Ok (v, off, cs).
Proof.
  unfold shown_by. destruct p as [r| |]; try discriminate.
  destruct (decode 30 (env_of r like) (Ctx spec "" None) data 0 ts) as [[[w off] cs]| |] eqn:D; try discriminate. cbn [shows]. intros H. apply val_eqb_eq in H. subst w. exists r, off, cs. now split.
Qed.
Lemma differ_case cases name : forallb differs cases = true -> In name (map (fun p => let '(n, _, _, _, _) := p in n) cases) ->
  exists d r s, In (name, d) nets /\ start d (forth d) (forth d) = Ok r /\ start d (back d) (back d) = Ok s /\
    exists ts data v off cs v' off' cs', v <> v' /\
      decode 30 (env_of r usual_world) (Ctx 0 "" None) data 0 ts = Ok (v, off, cs) /\ decode 30 (env_of s usual_world) (Ctx 0 "" None) data 0 ts = Ok (v', off', cs').
Proof.
  intros A I. apply in_map_iff in I. destruct I as ([[[[n t] b] v] w] & <- & I).
  assert (H := proj1 (forallb_forall _ _) A _ I). unfold differs in H. apply andb_prop in H. destruct H as [NE H].
  destruct (assoc n nets) as [d|] eqn:IN; [|discriminate]. apply assoc_in in IN. apply andb_prop in H. destruct H as [H1 H2].
  destruct (shown_decodes _ _ _ _ _ _ H1) as (r & off & cs & R & D). destruct (shown_decodes _ _ _ _ _ _ H2) as (s & off' & cs' & S' & D').
  exists d, r, s. split; [exact IN|]. split; [exact R|]. split; [exact S'|]. exists t, b, v, off, cs, w, off', cs'. split; [exact (val_neq _ v w NE H1)|now split].
Qed.
End Differ.
Lemma both_orders d : visiting_order file_order -> orders d file_order file_order (forth d) (forth d) /\ orders d file_order file_order (back d) (back d).
Proof.
  intros VO. split; (split; [exact VO|]; split; [exact VO|]).
  - split; apply Permutation_refl.
  - split; exact (Permutation_sym (Permutation_rev (map fst d))).
Qed.

#[local] Transparent yardstick base_definitions base_registry start_registry networks fresh file_order.
Definition usual_begin : res reg := start_registry file_order file_order.
Definition usual_start : list (string * tstruct) -> list string -> list string -> res reg := start usual_begin.
Definition all_differ (begin : res reg) : bool := forallb (differs begin networks) fickle_cases.
Lemma fickle_differ : all_differ usual_begin = true.
Proof. vm_compute. reflexivity. Qed.
Lemma fickle_listed : map (fun p => let '(n, _, _, _, _) := p in n) fickle_cases = fickle.
Proof. reflexivity. Qed.
#[local] Opaque yardstick base_definitions base_registry start_registry networks fickle_cases fresh file_order.
Lemma fickle_case name : In name fickle -> In name (map (fun p => let '(n, _, _, _, _) := p in n) fickle_cases).
Proof. rewrite fickle_listed. exact (fun H => H). Qed.
Theorem C80_order_refuted name : In name fickle ->
  exists defs o1 o2 o1' o2' r s, In (name, defs) networks /\ orders defs file_order file_order o1 o2 /\ orders defs file_order file_order o1' o2' /\
    process_with defs file_order file_order o1 o2 = Ok r /\ process_with defs file_order file_order o1' o2' = Ok s /\
    exists ts data v off cs v' off' cs', v <> v' /\
      decode 30 (env_of r usual_world) (Ctx 0 "" None) data 0 ts = Ok (v, off, cs) /\ decode 30 (env_of s usual_world) (Ctx 0 "" None) data 0 ts = Ok (v', off', cs').
Proof.
  intros I. destruct (differ_case usual_begin networks fickle_cases name fickle_differ (fickle_case name I)) as (d & r & s & IN & R & S' & X).
  destruct (both_orders d (proj1 C70_orders)) as [O1 O2].
  exists d, (forth d), (forth d), (back d), (back d), r, s. split; [exact IN|]. split; [exact O1|]. split; [exact O2|]. split; [exact R|]. split; [exact S'|exact X].
Qed.

(** ** Examples.  Kusama: the same bytes are another weight before and after
    version 1058, in whatever order the file is read. *)
#[local] Transparent yardstick base_definitions base_registry start_registry networks fickle_cases fresh file_order.
Definition weights (begin : res reg) : option val * option val :=
  let b := (Zb 5 :: repeat (Zb 0) 3 ++ [Zb 1; Zb 0; Zb 0; Zb 0])%list in
  (shown_by (start begin net_kusama (forth net_kusama) (back net_kusama)) usual_world 1057 "Weight" b,
   shown_by (start begin net_kusama (back net_kusama) (forth net_kusama)) usual_world 1058 "Weight" b).
Example C80_kusama : weights usual_begin = (Some (VU32 5), Some (VU64 4294967301)).
Proof. vm_compute. reflexivity. Qed.
Example C80_count : List.length networks = 54%nat /\ List.length (List.concat (map (fun p => map fst (snd p)) networks)) = 2812%nat.
Proof. vm_compute. split; reflexivity. Qed.
Print Assumptions C80_same_partial.
Print Assumptions C80_as_described.
Print Assumptions C80_order_refuted.
