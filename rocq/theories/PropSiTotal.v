(** C76: registering the types of a portable registry succeeds, for runtime
    metadata and for contracts. *)

From Verif Require Import GoBase SpecNum ModelTools ModelVal ModelRegistry ModelDecode ModelEncode ModelRegister SpecScale ModelScaleInfo ModelMetadata ModelEvents
  ProofsBase ProofsNames ProofsTexts PropScaleInfo SpecPortable ProofsPortText ProofsPortReg PropPortable ProofsFrame
  PropMetadata PropEvents ModelMeta SpecMeta ProofsMeta PropMeta PropMeta14 PropMeta15 PropRuntime PropRuntimeEx ModelContract PropContract ProofsSiTotal ModelBaseTypes PropLoad.

Notation ids port := (Z.of_nat (distinct_ids [] port)).

(** ** Counting the paths *)
Lemma count_total c : (forall id vs, def_of (i_port c) id = DVariant vs -> path_of (i_port c) id <> []) -> forall n i s, exists s', each_id (count_name c) n i s = Ok s'.
Proof.
  intros V. induction n as [|n IH]; intros i s; [now exists s|]. cbn [each_id]. unfold count_name at 1.
  assert (N : exists m, nameSiType c (g_dup s) (port_get (i_port c) i) (-1) = Ok m).
  { unfold nameSiType. destruct (s_def (port_get (i_port c) i)) eqn:E; try (eexists; reflexivity). pose proof (V i _ E) as P. unfold path_of in P.
    destruct (s_path (port_get (i_port c) i)); [congruence|]. repeat match goal with |- exists m, (if ?b then _ else _) = _ => destruct b; try (eexists; reflexivity) end. }
  destruct N as [m ->]. cbn [bind]. destruct (String.eqb m ""); cbn [bind]; apply IH.
Qed.
Lemma counts_exist c : (forall id vs, def_of (i_port c) id = DVariant vs -> path_of (i_port c) id <> []) -> exists D, counted c D.
Proof. intros V. destruct (count_total c V (distinct_ids [] (i_port c)) 0 (SiState [] [] base_reg)) as [s E]. exists (g_dup s), s. now split. Qed.

(** ** Any portable registry *)
Theorem C76_registers c r rank B fuel : i_v14 c = false \/ i_spec c = 0 -> registrable (i_prefix c) (i_port c) r rank B -> (2 * B + 3 <= fuel)%nat ->
  exists s, ProcessSiType fuel c r = Ok s /\
  (forall id, 0 <= id < ids (i_port c) -> def_of (i_port c) id <> DRange -> exists n, assocz id (g_names s) = Some n /\ n <> "") /\
  forall n, HasReg r n = true -> HasReg (g_reg s) n = true.
Proof.
  intros V R Fu. destruct (counts_exist c (rg_variant _ _ _ _ _ R)) as [D C].
  destruct (process_total c r D V rank B R (fun _ => True)) with (fuel := fuel) as (s & P & N & T & A); try easy.
  exists s. split; [exact P|]. split.
  - intros id L X. specialize (N id L X). destruct (assocz id (g_names s)) as [n|] eqn:E; [|congruence]. exists n. split; [reflexivity|]. intros ->. destruct (T id "" E) as [Q _]. now apply Q.
  - intros n H. unfold HasReg in *. specialize (A (to_lower n)). destruct (assoc (to_lower n) (r_types r)); [|discriminate H]. destruct (assoc (to_lower n) (r_types (g_reg s))); [reflexivity|]. exfalso. now apply A.
Qed.
Print Assumptions C76_registers.

(** ** Contracts *)
Theorem C76_contract p l d r rank B fuel : registrable p (abi_portable l) r rank B -> b_dup d = None \/ b_dup d = Some [] -> (2 * B + 3 <= fuel)%nat ->
  exists d' r', Register fuel p l (init_decoder d) r = Ok (d', r') /\
  forall id, 0 <= id < ids (abi_portable l) -> def_of (abi_portable l) id <> DRange -> GetTypeNames (b_names d') id <> "".
Proof.
  intros R Dp Fu.
  destruct (C76_registers (abi_ctx fuel p (b_spec d) l) r rank B fuel (or_introl eq_refl) R Fu) as (s & P & N & _).
  exists (AbiDecoder None (b_spec d) (g_names s)), (g_reg s). split.
  - unfold Register. assert (init_decoder d = AbiDecoder (Some []) (b_spec d) (b_names d)) as -> by (unfold init_decoder; destruct Dp as [-> | ->]; reflexivity).
    cbn [b_spec b_dup]. change (ProcessSiTypeFrom fuel (abi_ctx fuel p (b_spec d) l) (Some []) r) with (ProcessSiType fuel (abi_ctx fuel p (b_spec d) l) r). rewrite P. reflexivity.
  - intros id L X. destruct (N id L X) as (n & E & Ne). cbn [b_names]. unfold GetTypeNames. rewrite E. exact Ne.
Qed.
Print Assumptions C76_contract.

(** ** Runtime metadata: everything is read off the bytes *)
(** The types are numbered 0, 1, 2, ... *)
Definition numbered (l : wregistry) : Prop := map fst l = map Z.of_nat (seq 0 (List.length l)).
(** The id belongs to a type that is not a Range. *)
Definition has_type (l : wregistry) (k : Z) : Prop := exists t, wfind l k = Some t /\ forall a b i, wt_def t <> WRange a b i.
Definition storage_sound (l : wregistry) (s : wstorage) : Prop :=
  match s with
  | WPlain _ => True
  | WMap hs k _ =>
      (exists t a r, wfind l k = Some t /\ wt_def t = WTuple (a :: r) /\ (List.length hs = List.length (a :: r) \/ List.length hs = 1%nat)) \/
      (List.length hs = 1%nat /\ (forall t a r, wfind l k = Some t -> wt_def t <> WTuple (a :: r)) /\ has_type l k)
  end.
Definition pallet_sound (l : wregistry) (p : wpallet) : Prop :=
  enum_id l (wp_calls p) /\ enum_id l (wp_events p) /\ enum_id l (wp_errors p) /\
  Forall (fun k => has_type l (wc_type k)) (wp_constants p) /\ Forall (fun e => storage_sound l (we_type e)) (wentries p).
(** No opening parenthesis in a path. *)
Definition unbraced (port : portable) : Prop := forall id p, In p (path_of port id) -> ~ has_char "("%char p.

Lemma distinct_length : forall (p : portable) seen, NoDup (map fst p) -> (forall k, In k seen -> ~ In k (map fst p)) -> distinct_ids seen p = List.length p.
Proof.
  induction p as [|[k t] p IH]; intros seen N S0; [reflexivity|]. cbn [map fst] in *. inversion N as [|? ? Nk N']; subst. cbn [distinct_ids List.length].
  assert (existsb (Z.eqb k) seen = false) as ->.
  { apply not_true_is_false. intros E. apply existsb_exists in E. destruct E as (j & J & E). apply Z.eqb_eq in E. subst j. apply (S0 k J). now left. }
  f_equal. apply IH; [exact N'|]. intros j [<-|J]; [exact Nk|]. intros I. apply (S0 j J). now right.
Qed.
Lemma seq_nodup n : forall m, NoDup (map Z.of_nat (seq m n)).
Proof.
  induction n as [|n IH]; intros m; [constructor|]. cbn [seq map]. constructor; [|apply IH]. intros I. apply in_map_iff in I. destruct I as (x & E & I). apply in_seq in I. lia.
Qed.
Lemma numbered_ids l : numbered l -> ids (SpecMeta.declared l) = Z.of_nat (List.length l).
Proof.
  intros N. f_equal. unfold SpecMeta.declared. rewrite distinct_length; [now rewrite rev_length, map_length| |intros k []].
  rewrite map_rev, map_map. cbn [fst]. apply NoDup_rev. fold (map (@fst Z wtype) l). change (map (fun x : Z * wtype => fst x) l) with (map fst l). rewrite N. apply seq_nodup.
Qed.
Lemma wfind_key l k t : wfind l k = Some t -> In k (map fst l).
Proof.
  induction l as [|[i u] l IH]; [discriminate|]. cbn [wfind map fst]. destruct (wfind l k); [intros [= ->]; right; now apply IH|]. destruct (Z.eqb_spec k i); [left; congruence|discriminate].
Qed.
Lemma has_type_named l k : numbered l -> has_type l k -> 0 <= k < ids (SpecMeta.declared l) /\ def_of (SpecMeta.declared l) k <> DRange.
Proof.
  intros N (t & F & W). split.
  - rewrite (numbered_ids l N). apply wfind_key in F. rewrite N in F. apply in_map_iff in F. destruct F as (x & <- & F). apply in_seq in F. lia.
  - unfold def_of. rewrite get_declared, F. unfold declared_type. cbn [s_def]. destruct (wt_def t) as [| | | |[|]| | | |a b i|[]]; try discriminate. now destruct (W a b i).
Qed.
Definition plain_start (n : string) : Prop := exists a r, n = String a r /\ a <> "("%char.
Lemma join_no x l : x <> ":"%char -> (forall p, In p l -> ~ has_char x p) -> ~ has_char x (join ":" l).
Proof.
  intros Nx. unfold join. induction l as [|a [|b l] IH]; intros H X; [destruct X|apply (H a); [now left|exact X]|]. cbn [String.concat] in X. rewrite !has_char_app in X.
  destruct X as [X|[X|X]]; [apply (H a); [now left|exact X]|destruct X as [X|[]]; congruence|]. revert X. apply IH. intros p I. apply H. now right.
Qed.
Lemma own_start c D id n : i_prefix c = "" -> kept (join ":" (path_of (i_port c) id)) -> unbraced (i_port c) -> own_name (i_port c) id ->
  nameSiType c D (port_get (i_port c) id) id = Ok n -> plain_start n.
Proof.
  intros X K U H N. assert (G : n = generate_name c D (port_get (i_port c) id) id \/ n = "").
  { unfold nameSiType in N. destruct (s_def _); try (injection N as <-; tauto). destruct (s_path _); [discriminate|].
    repeat match type of N with (if ?b then _ else _) = _ => destruct b end; injection N as <-; tauto. }
  assert (G2 : exists y, n = join ":" (path_of (i_port c) id) ++ y).
  { destruct G as [-> | ->].
    - unfold generate_name. cbv zeta. rewrite X. cbn [String.eqb]. change (s_path (port_get (i_port c) id)) with (path_of (i_port c) id). destruct (_ && _); [eexists; reflexivity|]. exists "". now rewrite app_nil_r_s.
    - exfalso. destruct H as [[fs E]|(vs & E & (p & q & P & O1 & O2) & C)]; unfold nameSiType in N; unfold def_of in E; rewrite E in N.
      + injection N as N. pose proof (generate_kept c D id id) as Q. rewrite X in Q. specialize (Q K). rewrite N in Q. destruct Q as (a & [] & _).
      + unfold path_of in P, C. rewrite P in N, C. rewrite O1, O2, C in N. cbn [orb] in N. unfold is_pallet_call in N. unfold is_call_event in C. apply orb_false_elim in C. destruct C as [C _]. rewrite C, andb_false_r in N.
        injection N as N. pose proof (generate_kept c D id id) as Q. rewrite X in Q. specialize (Q K). rewrite N in Q. destruct Q as (a & [] & _). }
  destruct G2 as [y ->]. pose proof (join_no "("%char (path_of (i_port c) id) ltac:(discriminate) (U id)) as NB. destruct (join ":" (path_of (i_port c) id)) as [|a j]; [destruct K as (a & [] & _)|].
  exists a, (j ++ y). split; [reflexivity|]. intros ->. apply NB. now left.
Qed.
Lemma fixed_start s : fixedb s = true -> plain_start s.
Proof. destruct s as [|a s]; [discriminate|]. intros H. exists a, s. split; [reflexivity|]. intros ->. discriminate H. Qed.
Lemma prim_start l id n : registry_ok l -> def_of (SpecMeta.declared l) id = DPrimitive n -> plain_start n.
Proof.
  intros K E. unfold def_of in E. rewrite get_declared in E. destruct (wfind l id) as [t|] eqn:F; [|discriminate]. destruct (wfind_in l id t F) as [i I].
  destruct K as [_ K]. rewrite Forall_forall in K. destruct (K _ I) as [_ (_ & _ & D & _)]. cbn [snd] in D. unfold declared_type in E. cbn [s_def] in E.
  destruct (wt_def t) as [| | | |[|]|j| | | |[]]; try discriminate E. injection E as <-. cbn [def_ok] in D.
  assert (J : In j [0; 1; 2; 3; 4; 5; 6; 7; 8; 9; 10; 11; 12; 13; 14]) by (cbn [In]; lia).
  cbn [In] in J. repeat (destruct J as [<-|J]; [eexists _, _; split; [reflexivity|discriminate]|]). destruct J.
Qed.
(** The names the registration gives, seen through the registry alone. *)
Lemma runtime_named l r rank B : let port := SpecMeta.declared l in
  registry_ok l -> registrable "" port r rank B -> unbraced port ->
  exists s, ProcessSiType (2 * B + 3) (SiCtx "" true 0 port (2 * B + 3)) r = Ok s /\
  forall id, 0 <= id < ids port -> def_of port id <> DRange -> plain_start (si_name (g_names s) id).
Proof.
  intros port K R U. set (c := SiCtx "" true 0 port (2 * B + 3)). destruct (counts_exist c (rg_variant _ _ _ _ _ R)) as [D C].
  destruct (process_total c r D (or_intror eq_refl) rank B R plain_start) with (fuel := (2 * B + 3)%nat) as (s & P & N & T & _).
  - exact fixed_start.
  - intros id n H. apply own_start; [reflexivity| |exact U|exact H]. exact (rg_named _ _ _ _ _ R id H).
  - intros id n. apply (prim_start l id n K).
  - intros id n Pp L. destruct (rg_prims _ _ _ _ _ R id n Pp L) as [_ Cn]. unfold path_last in L. apply nth_error_In, in_rev in L. pose proof (U id n L) as NB.
    destruct n as [|a n]; [now destruct Cn|]. exists a, n. split; [reflexivity|]. intros ->. apply NB. now left.
  - exact C.
  - lia.
  - exists s. split; [exact P|]. intros id L X. specialize (N id L X). unfold si_name. destruct (assocz id (g_names s)) as [n|] eqn:E; [|congruence]. exact (proj2 (T id n E)).
Qed.
Lemma sound_described l s p : numbered l -> (forall id, 0 <= id < ids (SpecMeta.declared l) -> def_of (SpecMeta.declared l) id <> DRange -> plain_start (si_name (g_names s) id)) ->
  pallet_sound l p -> pallet_described l (si_name (g_names s)) p.
Proof.
  intros N H (A & B & C & K & S0). assert (HT : forall k, has_type l k -> plain_start (si_name (g_names s) k)) by (intros k Hk; destruct (has_type_named l k N Hk); now apply H).
  split; [exact A|]. split; [exact B|]. split; [exact C|]. split.
  - eapply Forall_impl; [|exact K]. intros k Hk E. destruct (HT _ Hk) as (a & r & Q & _). cbn beta in *. congruence.
  - eapply Forall_impl; [|exact S0]. intros e He. unfold storage_sound in He. unfold storage_keyed. destruct (we_type e) as [|hs k v]; [exact I|].
    destruct He as [He|(H1 & H2 & H3)]; [now left|right]. split; [exact H1|]. split; [exact H2|]. exact (HT k H3).
Qed.

Theorem C76_metadata14 r h m tl rank B :
  let l := wm_types m in let ps := wm_pallets m in let port := SpecMeta.declared l in let data := (h ++ magic ++ [Zb 14] ++ meta14_enc m ++ tl)%list in
  meta_registry r -> lead h -> meta14_ok m -> blen data < 2 ^ 63 ->
  numbered l -> registrable "" port r rank B -> plain_paths port -> unbraced port -> (forall k, In k meta_names -> free_name port k) ->
  Forall (pallet_sound l) ps -> distinct_indices l ps ->
  exists f0 names calls events r', is_table (shown_call names) l wp_calls ps calls /\ is_table (shown_event names) l wp_events ps events /\
  (forall id, has_type l id -> names id <> "") /\
  forall f, (f0 <= f)%nat -> ProcessMetadata f r data =
  Ok (Some (14, MData (map (shown_module l names) ps) calls events (shown_extensions names (wm_extrinsic m)) (map (fun x => text_of (wx_name x)) (we_extensions (wm_extrinsic m))) [] None []), r').
Proof.
  intros l ps port data M H K L N R PP U FN PS DI. destruct (runtime_named l r rank B (proj1 K) R U) as (s & P & Ns).
  destruct (C65_metadata r h m tl (2 * B + 3) s M H K L P PP FN) as (f0 & calls & events & TC & TE & G).
  - eapply Forall_impl; [|exact PS]. intros p. now apply sound_described.
  - exact DI.
  - exists f0, (si_name (g_names s)), calls, events. eexists. split; [exact TC|]. split; [exact TE|]. split; [|exact G].
    intros id Hd. destruct (has_type_named l id N Hd) as [L1 X]. destruct (Ns id L1 X) as (a & y & -> & _). discriminate.
Qed.
Print Assumptions C76_metadata14.

Theorem C76_metadata15_partial r h m tl rank B :
  let l := w5_types m in let ps := pallets15 m in let port := SpecMeta.declared l in let data := (h ++ magic ++ [Zb 15] ++ meta15_enc m ++ tl)%list in
  meta_registry r -> custom_registry r -> lead h -> meta15_ok m -> blen data < 2 ^ 63 ->
  numbered l -> registrable "" port r rank B -> plain_paths port -> unbraced port -> (forall k, In k names15 -> free_name port k) ->
  Forall (pallet_sound l) ps -> Forall (one_key_each l) ps -> distinct_indices l ps ->
  exists f0 names calls events r', is_table (shown_call names) l wp_calls ps calls /\ is_table (shown_event names) l wp_events ps events /\
  (forall id, has_type l id -> names id <> "") /\
  forall f, (f0 <= f)%nat -> ProcessMetadata f r data = Ok (Some (15, shown15 l names m calls events), r').
Proof.
  intros l ps port data M CR H K L N R PP U FN PS OK DI. destruct (runtime_named l r rank B (proj1 K) R U) as (s & P & Ns).
  destruct (C68_metadata_partial r h m tl (2 * B + 3) s M CR H K L P PP FN) as (f0 & calls & events & TC & TE & G).
  - eapply Forall_impl; [|exact PS]. intros p. now apply sound_described.
  - exact OK.
  - exact DI.
  - exists f0, (si_name (g_names s)), calls, events. eexists. split; [exact TC|]. split; [exact TE|]. split; [|exact G].
    intros id Hd. destruct (has_type_named l id N Hd) as [L1 X]. destruct (Ns id L1 X) as (a & y & -> & _). discriminate.
Qed.
Print Assumptions C76_metadata15_partial.

(** The runtimes of C67: that their types can be registered need not be assumed. *)
Theorem C76_runtime14 r m Rg D rank B : let f := (2 * B + 3)%nat in let l := wm_types m in let port := port_of m in
  meta_registry r -> meta14_ok m -> numbered l -> registrable "" port r rank B -> plain_paths port -> unbraced port ->
  (forall k, In k ("call" :: "hash" :: "vec<hash>" :: meta_names) -> free_name port k) ->
  Forall (pallet_sound l) (wm_pallets m) -> distinct_indices l (wm_pallets m) ->
  assoc "call" (r_types r) = Some CCall /\ assoc "call" (r_special r) = None -> assoc "hash" (r_types r) = Some CH256 /\ assoc "hash" (r_special r) = None ->
  assoc "vec<hash>" (r_types r) = None /\ assoc "vec<hash>" (r_special r) = None ->
  counted (sictx_of m f) D -> well_named (sictx_of m f) D Rg -> (forall id, Rg id -> regular (sictx_of m f) D Rg id) -> standard (sictx_of m f) D r -> unrelated (sictx_of m f) D Rg "origincaller" ->
  exists s, runtime r m Rg D f s.
Proof.
  intros f l port M K N R PP U FN PS DI H1 H2 H3 C WN RG ST OC. destruct (runtime_named l r rank B (proj1 K) R U) as (s & P & Ns). exists s. constructor; try assumption.
  eapply Forall_impl; [|exact PS]. intros p. now apply sound_described.
Qed.
Print Assumptions C76_runtime14.

(** ** A runtime and a contract that meet the hypotheses *)
Definition mx_rank (k : Z) : nat := if k =? 1 then 2 else if existsb (Z.eqb k) [2; 5; 6; 10] then 1 else 0.
Lemma mx_registrable : registrable "" (port_of mx) mx_reg mx_rank 2.
Proof.
  assert (OUT : forall id, ~ In id mx_ids -> def_of (port_of mx) id = DNone /\ path_of (port_of mx) id = []) by (intros id N; unfold def_of, path_of; now rewrite (mx_else id N)).
  Ltac known id OUT := destruct (in_dec Z.eq_dec id mx_ids) as [PX|PX]; [cbn in PX; repeat (destruct PX as [PX|PX]; [subst id|]); [..|contradiction]|destruct (OUT id PX) as [OD OP]].
  split.
  - intros k. unfold mx_rank. destruct (k =? 1); [lia|]. destruct (existsb _ _); lia.
  - intros id k H N. destruct H as [id n k E|id k E|id l k E I|id k E|id vs n k E O I].
    + known id OUT; try (vm_compute in E; discriminate E); [|congruence]. vm_compute in E. injection E as <- <-. vm_compute. lia.
    + known id OUT; try (vm_compute in E; discriminate E); [|congruence]. vm_compute in E. injection E as <-. vm_compute. lia.
    + known id OUT; try (vm_compute in E; discriminate E); [|congruence]. vm_compute in E. injection E as <-. destruct I as [<-|[<-|[]]]; [exfalso; apply N; left; eexists; vm_compute; reflexivity|vm_compute; lia].
    + known id OUT; try (vm_compute in E; discriminate E); [|congruence]. vm_compute in E. injection E as <-. vm_compute. lia.
    + exfalso. known id OUT; try (vm_compute in E; discriminate E); [..|congruence]; destruct O as [(p & q & P & O)|(p & q & P & _ & O)]; vm_compute in P; injection P as <- <-; vm_compute in O; discriminate O.
  - intros id k H. destruct H as [id f E W Ne|id fs n k l E W P|id fs p k E W I P].
    + known id OUT; try (vm_compute in E; discriminate E); [|congruence]. vm_compute in E. injection E as <-. vm_compute. lia.
    + exfalso. known id OUT; try (vm_compute in W; discriminate W). rewrite OP in W. discriminate W.
    + exfalso. known id OUT; try (vm_compute in W; discriminate W). rewrite OP in W. discriminate W.
  - intros id vs E. known id OUT; try (vm_compute in E; discriminate E); try congruence; vm_compute; discriminate.
  - intros id vs E (p & q & P & O). exfalso. known id OUT; try congruence; vm_compute in P; try discriminate P; injection P as <- <-; vm_compute in O; discriminate O.
  - intros id vs E (p & q & P & _ & O). exfalso. known id OUT; try congruence; vm_compute in P; try discriminate P; injection P as <- <-; vm_compute in O; discriminate O.
  - intros id fs E W. exfalso. known id OUT; try (vm_compute in W; discriminate W). rewrite OP in W. discriminate W.
  - intros id n E. known id OUT; try congruence; vm_compute in E; try discriminate E; injection E as <-; split; [vm_compute; reflexivity|discriminate|vm_compute; reflexivity|discriminate].
  - intros id n P. exfalso. unfold prims_path in P. known id OUT; [..|rewrite OP in P; discriminate P]; vm_compute in P; discriminate P.
  - intros id H. known id OUT; [..|exfalso; destruct H as [[fs E]|(vs & E & _)]; congruence];
      try (exfalso; destruct H as [[fs E]|(vs & E & _)]; vm_compute in E; discriminate E); exists "c"%char; (split; [vm_compute; tauto|reflexivity]).
  - intros id k H W. destruct H as [id f E _ Ne|id fs n k l E W' P|id fs p k E W' I P].
    + known id OUT; try (vm_compute in E; discriminate E); [|congruence]. vm_compute in E. injection E as <-. vm_compute. discriminate.
    + congruence.
    + exfalso. known id OUT; try (vm_compute in W'; discriminate W'). rewrite OP in W'. discriminate W'.
Qed.
Lemma mx_unbraced : unbraced (port_of mx).
Proof.
  intros id p I. mx_cases id; [cbn in I; repeat (destruct I as [<-|I]; [vm_compute; intuition discriminate|]); destruct I ..|]. unfold path_of in I. rewrite (mx_else id PX) in I. destruct I.
Qed.
Lemma mx_sound : Forall (pallet_sound (wm_types mx)) (wm_pallets mx).
Proof.
  cbn [wm_pallets mx mx_pallets]. constructor; [|constructor; [|constructor]]; unfold pallet_sound; cbn [wp_calls wp_events wp_errors wp_constants wentries wp_storage].
  - split; [eexists _, _; split; reflexivity|]. split; [eexists _, _; split; reflexivity|]. split; [eexists _, _; split; reflexivity|].
    split; [constructor; [eexists; split; [reflexivity|discriminate]|constructor]|]. cbn [snd]. constructor; [|constructor; [exact I|constructor; [|constructor]]]; cbn [we_type storage_sound].
    + right. split; [reflexivity|]. split; [intros t a r [= <-]; discriminate|]. eexists. split; [reflexivity|discriminate].
    + left. eexists _, _, _. split; [reflexivity|]. split; [reflexivity|]. left. reflexivity.
  - repeat split; constructor.
Qed.
(** The metadata of the runtime is read, whatever follows it. *)
Example C76_runtime tl : blen (magic ++ [Zb 14] ++ meta14_enc mx ++ tl) < 2 ^ 63 ->
  exists f0 d r', forall f, (f0 <= f)%nat -> ProcessMetadata f mx_reg (magic ++ [Zb 14] ++ meta14_enc mx ++ tl) = Ok (Some (14, d), r').
Proof.
  intros L. destruct (C76_metadata14 mx_reg [] mx tl mx_rank 2) as (f0 & names & calls & events & r' & _ & _ & _ & G).
  - exact mx_registry.
  - constructor.
  - exact mx_ok.
  - exact L.
  - reflexivity.
  - exact mx_registrable.
  - exact mx_paths.
  - exact mx_unbraced.
  - intros k I. apply mx_free. now right; right; right.
  - exact mx_sound.
  - exact mx_distinct.
  - exists f0. eexists _, r'. exact G.
Qed.

(** A contract: a struct, an enum, a sequence and two tuples. *)
Definition kx_rank (k : Z) : nat := if k =? 4 then 1 else 0.
Lemma kx_registrable b : registrable (kx_prefix b) (abi_portable (kx_types b)) base_reg kx_rank 1.
Proof.
  assert (OUT : forall id, ~ In id kx_ids -> def_of (abi_portable (kx_types b)) id = DNone /\ path_of (abi_portable (kx_types b)) id = []) by (intros id N; unfold def_of, path_of; now rewrite (kx_else b id N)).
  Ltac knownk id OUT := destruct (in_dec Z.eq_dec id kx_ids) as [PX|PX]; [cbn in PX; repeat (destruct PX as [PX|PX]; [subst id|]); [..|contradiction]|destruct (OUT id PX) as [OD OP]].
  destruct b; split.
  1, 12: intros k; unfold kx_rank; destruct (k =? 4); lia.
  1, 11: intros id k H N; destruct H as [id n k E|id k E|id l k E I|id k E|id vs n k E O I];
    [knownk id OUT; try congruence; vm_compute in E; discriminate E
    |knownk id OUT; try congruence; vm_compute in E; try discriminate E; injection E as <-; exfalso; apply N; left; eexists; vm_compute; reflexivity
    |knownk id OUT; try congruence; vm_compute in E; try discriminate E; injection E as <-; destruct I as [<-|[<-|[]]]; try (vm_compute; lia); exfalso; apply N;
       [left; eexists; vm_compute; reflexivity|right; eexists; split; [vm_compute; reflexivity|split; [|reflexivity]]; eexists _, _; split; [vm_compute; reflexivity|split; reflexivity]]
    |knownk id OUT; try congruence; vm_compute in E; discriminate E
    |exfalso; knownk id OUT; try (vm_compute in E; discriminate E); [..|congruence]; destruct O as [(p & q & P & O)|(p & q & P & _ & O)]; vm_compute in P; injection P as <- <-; vm_compute in O; discriminate O].
  1, 10: intros id k H; exfalso; destruct H as [id f E W Ne|id fs n k l E W P|id fs p k E W I P];
    [knownk id OUT; try congruence; vm_compute in E; discriminate E|knownk id OUT; try (vm_compute in W; discriminate W); rewrite OP in W; discriminate W|knownk id OUT; try (vm_compute in W; discriminate W); rewrite OP in W; discriminate W].
  1, 9: intros id vs E; knownk id OUT; try congruence; vm_compute in E; try discriminate E; vm_compute; discriminate.
  1, 8: intros id vs E (p & q & P & O); exfalso; knownk id OUT; try congruence; vm_compute in P; try discriminate P; injection P as <- <-; vm_compute in O; discriminate O.
  1, 7: intros id vs E (p & q & P & _ & O); exfalso; knownk id OUT; try congruence; vm_compute in P; try discriminate P; injection P as <- <-; vm_compute in O; discriminate O.
  1, 6: intros id fs E W; exfalso; knownk id OUT; try (vm_compute in W; discriminate W); rewrite OP in W; discriminate W.
  1, 5: intros id n E; knownk id OUT; try congruence; vm_compute in E; try discriminate E; injection E as <-; (split; [vm_compute; reflexivity|discriminate]).
  1, 4: intros id n P; exfalso; unfold prims_path in P; knownk id OUT; [..|rewrite OP in P; discriminate P]; vm_compute in P; discriminate P.
  1, 3: intros id _; apply kept_app; left; apply kept_chars; reflexivity.
  1, 2: intros id k H; exfalso; destruct H as [id f E W Ne|id fs n k l E W P|id fs p k E W I P];
    [knownk id OUT; try congruence; vm_compute in E; discriminate E|knownk id OUT; try (vm_compute in W; discriminate W); rewrite OP in W; discriminate W|knownk id OUT; try (vm_compute in W; discriminate W); rewrite OP in W; discriminate W].
Qed.
Example C76_contracts b : exists d r, Register 5 (kx_prefix b) (kx_types b) (init_decoder (AbiDecoder None 7 [])) base_reg = Ok (d, r) /\
  forall id, 0 <= id < 7 -> GetTypeNames (b_names d) id <> "".
Proof.
  destruct (C76_contract (kx_prefix b) (kx_types b) (AbiDecoder None 7 []) base_reg kx_rank 1 5 (kx_registrable b) (or_introl eq_refl) ltac:(lia)) as (d & r & E & N).
  exists d, r. split; [exact E|]. intros id L. apply N; [destruct b; exact L|]. destruct (in_dec Z.eq_dec id kx_ids) as [PX|PX].
  - destruct b; cbn in PX; repeat (destruct PX as [<-|PX]; [discriminate|]); destruct PX.
  - unfold def_of. rewrite (kx_else b id PX). discriminate.
Qed.

(** ** Registries that cannot be registered *)
(** An enum without a path. *)
Theorem C76_variant_refuted c r id vs : 0 <= id < ids (i_port c) -> def_of (i_port c) id = DVariant vs -> path_of (i_port c) id = [] ->
  forall fuel, ProcessSiType fuel c r = idx_panic.
Proof.
  intros L E P fuel. unfold ProcessSiType. cbv zeta.
  assert (X : forall n i s, i <= id < i + Z.of_nat n -> each_id (count_name c) n i s = idx_panic).
  { induction n as [|n IH]; intros i s Li; [lia|]. cbn [each_id]. unfold count_name at 1. unfold nameSiType at 1.
    destruct (Z.eq_dec i id) as [->|Ne].
    - unfold def_of in E. unfold path_of in P. rewrite E, P. reflexivity.
    - destruct (s_def (port_get (i_port c) i)); cbn [bind String.eqb]; try (apply IH; lia).
      + destruct (String.eqb _ ""); cbn [bind]; apply IH; lia.
      + destruct (s_path (port_get (i_port c) i)); [reflexivity|].
        repeat match goal with |- context [if ?b then Ok _ else _] => destruct b end; cbn [bind String.eqb]; try (apply IH; lia); destruct (String.eqb _ ""); cbn [bind]; apply IH; lia. }
  rewrite X by lia. reflexivity.
Qed.
Print Assumptions C76_variant_refuted.
(** A runtime that uses the primitive type char: the library reads the type
    (scale-info lists it) but knows no decoder of that name, whatever order the
    shipped definitions were loaded in. *)
Definition char_types : wregistry := [(0, WType [] [] (WPrimitive 1) [])].
Theorem C76_char_refuted o1 o2 : visiting_order o1 -> visiting_order o2 -> exists r, start_registry o1 o2 = Ok r /\ registry_ok char_types /\ numbered char_types /\
  forall fuel f, ProcessSiType fuel (SiCtx "" true 0 (SpecMeta.declared char_types) f) r = Panic "lack Primitive type Char".
Proof.
  intros A B. destruct (started o1 o2 A B) as (r & R1 & _ & _ & R4). exists r. split; [exact R1|]. split; [|split; [reflexivity|]].
  - split; [cbn; lia|]. constructor; [|constructor]. cbn. repeat split; try constructor; cbn; lia.
  - intros fuel f. assert (H : HasReg r "Char" = false).
    { unfold HasReg. change (to_lower "Char") with "char". replace (assoc "char" (r_types r)) with (@None codec); [reflexivity|]. rewrite (R4 "char"). vm_compute. reflexivity. }
    set (c := SiCtx "" true 0 (SpecMeta.declared char_types) f). unfold ProcessSiType. cbv zeta. change (distinct_ids [] (i_port c)) with 1%nat.
    change (each_id (count_name c) 1 0 (SiState [] [] r)) with (Ok (SiState [] [] r)). cbn [bind].
    change (each_id (pass_primitive c) 1 0 (SiState [] [] r)) with (s <- reg_primitive c 0 "Char" (SiState [] [] r) ;; Ok s). unfold reg_primitive. cbn [g_reg]. rewrite H. reflexivity.
Qed.
Print Assumptions C76_char_refuted.
(** Structs that stand for each other in a circle: the registration never ends,
    with however much fuel. *)
Definition circle : portable := [(0, SiType ["m"; "A"] [] (DComposite [SiField "" 1 ""])); (1, SiType ["m"; "B"] [] (DComposite [SiField "" 0 ""]))].
Theorem C76_circle_refuted r fuel f v sp : ProcessSiType fuel (SiCtx "" v sp circle f) r = OutOfFuel.
Proof.
  set (c := SiCtx "" v sp circle f). unfold ProcessSiType. cbv zeta. change (distinct_ids [] (i_port c)) with 2%nat.
  assert (X : forall n s, g_names s = [] -> dealOneSiType n c 0 (port_get circle 0) false s = OutOfFuel /\ dealOneSiType n c 1 (port_get circle 1) false s = OutOfFuel).
  { induction n as [|n IH]; intros s N; [now split|]. destruct (IH s N) as [I0 I1]. split.
    - change (dealOneSiType (S n) c 0 (port_get circle 0) false s) with ('(n0, s0) <- match assocz 1 (g_names s) with Some n0 => Ok (n0, s) | None => dealOneSiType n c 1 (port_get circle 1) false s end ;;
        let s0 := set_name 0 n0 s0 in name <- nameSiType c (g_dup s0) (port_get circle 0) 0 ;; s0 <- reg_one c name (alias_of (i_v14 c) (i_spec c) n0) s0 ;; Ok (n0, s0)).
      rewrite N. cbn [assocz]. rewrite I1. reflexivity.
    - change (dealOneSiType (S n) c 1 (port_get circle 1) false s) with ('(n0, s0) <- match assocz 0 (g_names s) with Some n0 => Ok (n0, s) | None => dealOneSiType n c 0 (port_get circle 0) false s end ;;
        let s0 := set_name 1 n0 s0 in name <- nameSiType c (g_dup s0) (port_get circle 1) 1 ;; s0 <- reg_one c name (alias_of (i_v14 c) (i_spec c) n0) s0 ;; Ok (n0, s0)).
      rewrite N. cbn [assocz]. rewrite I0. reflexivity. }
  assert (C : exists s1, each_id (count_name c) 2 0 (SiState [] [] r) = Ok s1 /\ g_names s1 = []) by (eexists; split; reflexivity).
  destruct C as (s1 & -> & N). cbn [bind]. change (each_id (pass_primitive c) 2 0 s1) with (Ok s1). cbn [bind]. change (each_id (pass_primitive_types c) 2 0 s1) with (Ok s1). cbn [bind].
  change (each_id (pass_sp_core fuel c) 2 0 s1) with (Ok s1). cbn [bind]. cbn [each_id]. unfold pass_rest at 1. rewrite N. cbn [assocz]. change (port_get (i_port c) 0) with (port_get circle 0).
  destruct (X fuel s1 N) as [-> _]. reflexivity.
Qed.
Print Assumptions C76_circle_refuted.
(** An option without a type parameter, and a struct that stands for a Range. *)
Definition bare_option : portable := [(0, SiType ["Option"] [] (DVariant [SiVariant "None" [] 0; SiVariant "Some" [SiField "" 1 ""] 1])); (1, SiType [] [] (DPrimitive "U8"))].
Theorem C76_option_refuted : ProcessSiType 100 (SiCtx "" true 0 bare_option 100) mx_reg = idx_panic.
Proof. vm_compute. reflexivity. Qed.
Definition span : portable := [(0, SiType ["m"; "Span"] [] (DComposite [SiField "" 1 ""])); (1, SiType [] [] DRange); (2, SiType [] [] (DPrimitive "U8"))].
Theorem C76_range_refuted : exists e, ProcessSiType 100 (SiCtx "" true 0 span 100) mx_reg = Panic e.
Proof. eexists. vm_compute. reflexivity. Qed.
