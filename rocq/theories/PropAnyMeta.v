(** C73: the tables of decoded metadata agree with its modules, whatever the
    bytes were. *)

From Verif Require Import GoBase ModelTools ModelVal ModelRegistry ModelDecode ModelEncode ModelRegister ModelScaleInfo ModelMetadata ModelMeta
  SpecMeta ProofsTools ProofsTexts ProofsRun ProofsReads PropMetadata ProofsMeta PropMeta PropRuntimeEx.

(** ** What is claimed *)
(** The items of a module, each with its key.  The second half of the key is the
    position of the item up to version 13, its own index from version 14 on. *)
Fixpoint keyed_from {A} (index : A -> Z) (by_own : bool) (number : Z) (name : string) (j : Z) (l : list A) : list (string * entry A) :=
  match l with
  | [] => []
  | a :: r => (lookup_key number (if by_own then index a else j), Entry name a) :: keyed_from index by_own number name (j + 1) r
  end.
Fixpoint slots {A} (items : mmodule -> list A) (index : A -> Z) (by_own : bool) (numbers : list Z) (ms : list mmodule) : list (string * entry A) :=
  match numbers, ms with
  | n :: ns, m :: r => (keyed_from index by_own n (m_name m) 0 (items m) ++ slots items index by_own ns r)%list
  | _, _ => []
  end.
(** Up to version 11 the modules with items are counted; a module without items
    may be counted or not. *)
Inductive counts {A} (items : mmodule -> list A) : Z -> list Z -> list mmodule -> Prop :=
| ct_nil n : counts items n [] []
| ct_full n m ns ms : counts items (n + 1) ns ms -> counts items n (n :: ns) (m :: ms)
| ct_skip n m ns ms : items m = [] -> counts items n ns ms -> counts items n (n :: ns) (m :: ms).
Definition numbered {A} (items : mmodule -> list A) (v : Z) (ns : list Z) (ms : list mmodule) : Prop :=
  if v <? 12 then counts items 0 ns ms else ns = map m_index ms.
(** The table holds, under each key, the last item with this key. *)
Definition agrees {A} (items : mmodule -> list A) (index : A -> Z) (v : Z) (ms : list mmodule) (t : table A) : Prop :=
  exists ns, numbered items v ns ms /\ forall k, assoc k t = assoc k (rev (slots items index (14 <=? v) ns ms)).
Definition consistent (v : Z) (d : mdata) : Prop :=
  agrees m_calls k_index v (md_modules d) (md_calls d) /\
  agrees m_events w_index v (md_modules d) (md_events d) /\
  (14 <= v -> (forall m k, In m (md_modules d) -> In k (m_constants m) -> c_type k <> "") /\ md_identifiers d = map fst (md_extensions d)) /\
  (v < 14 -> md_extensions d = []) /\ (v < 12 -> md_identifiers d = []) /\
  (v < 15 -> md_apis d = [] /\ md_outer d = None /\ md_custom d = []) /\ (v = 15 -> md_outer d <> None).

(** ** Tables *)
Lemma by_position_slots {A} index mi n (l : list A) : forall j t, by_position mi n j l t = (rev (keyed_from index false mi n j l) ++ t)%list.
Proof. induction l as [|a l IH]; intros j t; [reflexivity|]. cbn [by_position keyed_from rev]. rewrite IH, <- app_assoc. reflexivity. Qed.
Lemma by_index_slots {A} index mi n (l : list A) : forall j t, by_index index mi n l t = (rev (keyed_from index true mi n j l) ++ t)%list.
Proof. induction l as [|a l IH]; intros j t; [reflexivity|]. cbn [by_index keyed_from rev]. rewrite (IH (j + 1)), <- app_assoc. reflexivity. Qed.
Lemma counted_slots {A} (sel : omodule -> option (list A)) items index (l : list (mmodule * omodule)) :
  Forall (fun p => o_name (snd p) = m_name (fst p) /\ items (fst p) = opt_list (sel (snd p))) l ->
  forall mi t, exists ns, counts items mi ns (map fst l) /\ counted sel mi (map snd l) t = (rev (slots items index false ns (map fst l)) ++ t)%list.
Proof.
  induction 1 as [|[m o] l [N I] F IH]; intros mi t; cbn [fst snd map counted] in *.
  - exists []. split; [constructor|reflexivity].
  - destruct (sel o) as [x|].
    + destruct (IH (mi + 1) (by_position mi (o_name o) 0 x t)) as (ns & C & Q). exists (mi :: ns). split; [now apply ct_full|]. rewrite Q, (by_position_slots index), N.
      cbn [slots]. cbn [opt_list] in I. rewrite I, rev_app_distr, app_assoc. reflexivity.
    + destruct (IH mi t) as (ns & C & Q). exists (mi :: ns). cbn [opt_list] in I. split; [now apply ct_skip|]. rewrite Q. cbn [slots]. rewrite I. reflexivity.
Qed.
Lemma indexed_slots {A} (items : mmodule -> list A) index (of : imodule -> list A) (ms : list mmodule) : (forall m, of (as_imodule m) = items m) ->
  forall t, fold_left (fun t m => by_position (i_index m) (i_name m) 0 (of m) t) (map as_imodule ms) t = (rev (slots items index false (map m_index ms) ms) ++ t)%list.
Proof.
  intros O. induction ms as [|m ms IH]; intros t; [reflexivity|]. cbn [map fold_left slots]. rewrite IH, (by_position_slots index), O.
  cbn [as_imodule i_index i_name]. rewrite rev_app_distr, app_assoc. reflexivity.
Qed.
Lemma pallets_slots v15 port names raws : forall ms t t', modules_of v15 port names raws = Ok ms -> pallets_loop v15 port names (map r_pallet raws) t = Ok t' ->
  tb_calls t' = (rev (slots m_calls k_index true (map m_index ms) ms) ++ tb_calls t)%list /\
  tb_events t' = (rev (slots m_events w_index true (map m_index ms) ms) ++ tb_events t)%list.
Proof.
  induction raws as [|m raws IH]; intros ms t t' M P.
  - injection M as <-. injection P as <-. split; reflexivity.
  - cbn [modules_of] in M. destruct (module_of v15 port names m) as [a| |] eqn:A; [|discriminate..]. cbn [bind] in M.
    destruct (modules_of v15 port names raws) as [r| |]; [|discriminate..]. cbn [bind] in M. injection M as <-.
    unfold module_of in A. cbn [map pallets_loop] in P.
    destruct (items_of port (call_of names) (p_calls (r_pallet m))) as [cs| |]; [|discriminate..]. cbn [bind] in A, P.
    destruct (items_of port (event_of names) (p_events (r_pallet m))) as [es| |]; [|discriminate..]. cbn [bind] in A, P.
    destruct (errors_of port (r_errors m)) as [xs| |]; [|discriminate..]. cbn [bind] in A. destruct (constants_of names (r_constants m)) as [ks| |]; [|discriminate..]. cbn [bind] in A.
    destruct (resolve_all v15 port names (p_storage (r_pallet m))) as [st| |]; [|discriminate..]. cbn [bind] in A, P. injection A as <-.
    destruct (IH _ _ _ eq_refl P) as [C E]. cbn [tb_calls tb_events] in C, E. cbn [map slots m_index m_calls m_events m_name]. rewrite C, E, !rev_app_distr, <- !app_assoc.
    rewrite <- !(by_index_slots _ _ _ _ 0). split; reflexivity.
Qed.
Lemma constants_typed names l : forall ks, constants_of names l = Ok ks -> forall k, In k ks -> c_type k <> "".
Proof.
  induction l as [|[[n t] x] l IH]; intros ks H k I; cbn [constants_of] in H; [injection H as <-; destruct I|]. cbv zeta in H.
  destruct (String.eqb_spec (si_name names t) "") as [E|E]; [discriminate|]. destruct (constants_of names l) as [r| |]; [|discriminate..]. cbn [bind] in H. injection H as <-.
  destruct I as [<-|I]; [exact E|]. exact (IH r eq_refl k I).
Qed.
Lemma modules_typed v15 port names raws : forall ms, modules_of v15 port names raws = Ok ms -> forall m k, In m ms -> In k (m_constants m) -> c_type k <> "".
Proof.
  induction raws as [|w raws IH]; intros ms M m k I K; cbn [modules_of] in M; [injection M as <-; destruct I|].
  destruct (module_of v15 port names w) as [a| |] eqn:A; [|discriminate..]. cbn [bind] in M.
  destruct (modules_of v15 port names raws) as [r| |]; [|discriminate..]. cbn [bind] in M. injection M as <-. destruct I as [<-|I]; [|exact (IH r eq_refl m k I K)].
  unfold module_of in A. cbv zeta in A.
  destruct (items_of port (call_of names) _) as [cs| |]; [|discriminate..]. cbn [bind] in A. destruct (items_of port (event_of names) _) as [es| |]; [|discriminate..]. cbn [bind] in A.
  destruct (errors_of port _) as [xs| |]; [|discriminate..]. cbn [bind] in A. destruct (constants_of names (r_constants w)) as [ks| |] eqn:C; [|discriminate..]. cbn [bind] in A.
  destruct (resolve_all v15 port names _) as [st| |]; [|discriminate..]. cbn [bind] in A. injection A as <-. exact (constants_typed _ _ _ C k K).
Qed.
Lemma old_module_names v m o : old_module v = Ok (m, o) -> o_name o = m_name m /\ m_calls m = opt_list (as_slice true (o_calls o)) /\ m_events m = opt_list (as_slice true (o_events o)).
Proof.
  unfold old_module. intros H.
  repeat match goal with H : (x <- ?e ;; _) = Ok _ |- _ => destruct e as [?| |]; [|discriminate H..]; cbn [bind] in H end.
  injection H as <- <-. cbn [o_name m_name m_calls m_events o_calls o_events]. split; [reflexivity|]. split; match goal with |- opt_list ?o = _ => destruct o as [[|]|]; reflexivity end.
Qed.
Lemma jall_in {A} (f : val -> res A) l : forall r, jall f l = Ok r -> forall a, In a r -> exists v, f v = Ok a.
Proof.
  induction l as [|v l IH]; intros r H a I; cbn [jall] in H; [injection H as <-; destruct I|]. destruct (f v) as [x| |] eqn:F; [|discriminate..]. cbn [bind] in H.
  destruct (jall f l) as [t| |]; [|discriminate..]. cbn [bind] in H. injection H as <-. destruct I as [<-|I]; [now exists v|exact (IH t eq_refl a I)].
Qed.

(** ** The decoders *)
Lemma app_nil {A} (l : list A) : (l ++ [])%list = l. Proof. apply app_nil_r. Qed.
Lemma counted_consistent f c r b o d o' r' v : v < 12 -> process_counted f c r b o = Ok (d, o', r') -> consistent v d.
Proof.
  intros V H. unfold process_counted in H. destruct (read f c r b o "Vec<MetadataV8Module>") as [[x o1]| |]; [|discriminate..]. cbn [bind] in H.
  destruct (slice_val x) as [l| |]; [|discriminate..]. cbn [bind] in H. destruct (jall old_module l) as [ms| |] eqn:J; [|discriminate..]. cbn [bind] in H. injection H as <- <- <-.
  assert (F : Forall (fun p => o_name (snd p) = m_name (fst p) /\ m_calls (fst p) = opt_list (as_slice true (o_calls (snd p))) /\ m_events (fst p) = opt_list (as_slice true (o_events (snd p)))) ms).
  { apply Forall_forall. intros [m q] I. destruct (jall_in _ _ _ J _ I) as [w W]. exact (old_module_names w m q W). }
  assert (V12 : (v <? 12) = true) by lia. assert (V14 : (14 <=? v) = false) by lia.
  unfold consistent, agrees, numbered. cbn [md_modules md_calls md_events md_extensions md_identifiers md_apis md_outer md_custom]. rewrite V12, V14. split; [|split; [|split; [|split; [|split; [|split]]]]].
  - destruct (counted_slots (fun m => as_slice true (o_calls m)) m_calls k_index ms) with (mi := 0) (t := @nil (string * entry mcall)) as (ns & C & Q); [eapply Forall_impl; [|exact F]; cbv beta; tauto|].
    exists ns. split; [exact C|]. intros k. unfold old_calls. rewrite Q, app_nil. reflexivity.
  - destruct (counted_slots (fun m => as_slice true (o_events m)) m_events w_index ms) with (mi := 0) (t := @nil (string * entry mevent)) as (ns & C & Q); [eapply Forall_impl; [|exact F]; cbv beta; tauto|].
    exists ns. split; [exact C|]. intros k. unfold old_events. rewrite Q, app_nil. reflexivity.
  - lia.
  - reflexivity.
  - reflexivity.
  - now repeat split.
  - lia.
Qed.
Lemma indexed_consistent f c v13 r b o d o' r' v : 12 <= v < 14 -> process_indexed f c v13 r b o = Ok (d, o', r') -> consistent v d.
Proof.
  intros V H. unfold process_indexed in H. destruct (read f c r b o _) as [[x o1]| |]; [|discriminate..]. cbn [bind] in H.
  destruct (slice_val x) as [l| |]; [|discriminate..]. cbn [bind] in H. destruct (jall old_module l) as [ms| |] eqn:J; [|discriminate..]. cbn [bind] in H.
  destruct (read f c r b o1 "ExtrinsicMetadata") as [[y o2]| |]; [|discriminate..]. cbn [bind] in H. destruct (old_extensions y) as [ids| |]; [|discriminate..]. cbn [bind] in H. injection H as <- <- <-.
  assert (V12 : (v <? 12) = false) by lia. assert (V14 : (14 <=? v) = false) by lia.
  unfold consistent, agrees, numbered. cbn [md_modules md_calls md_events md_extensions md_identifiers md_apis md_outer md_custom]. rewrite V12, V14. split; [|split; [|split; [|split; [|split; [|split]]]]].
  - eexists. split; [reflexivity|]. intros k. unfold indexed_calls. rewrite (indexed_slots m_calls k_index i_calls), app_nil by reflexivity. reflexivity.
  - eexists. split; [reflexivity|]. intros k. unfold indexed_events. rewrite (indexed_slots m_events w_index i_events), app_nil by reflexivity. reflexivity.
  - lia.
  - reflexivity.
  - lia.
  - now repeat split.
  - lia.
Qed.
Lemma portable_consistent f c (v15 : bool) r b o d o' r' v : v = (if v15 then 15 else 14) -> process_portable f c v15 r b o = Ok (d, o', r') -> consistent v d.
Proof.
  intros V H. unfold process_portable in H. cbv zeta in H. destruct (read f c r b o "PortableRegistry") as [[x o1]| |]; [|discriminate..]. cbn [bind] in H.
  destruct (slice_val x) as [l| |]; [|discriminate..]. cbn [bind] in H. destruct (InitPortableRaw (VSlice l)) as [port| |]; [|discriminate..]. cbn [bind] in H.
  destruct (ProcessSiType f _ r) as [s| |]; [|discriminate..]. cbn [bind] in H. destruct (read f c (g_reg s) b o1 _) as [[y o2]| |]; [|discriminate..]. cbn [bind] in H.
  destruct (slice_val y) as [l2| |]; [|discriminate..]. cbn [bind] in H. destruct (jall raw_module l2) as [raws| |]; [|discriminate..]. cbn [bind] in H.
  destruct (modules_of v15 port (g_names s) raws) as [ms| |] eqn:MS; [|discriminate..]. cbn [bind] in H. unfold pallet_tables in H.
  destruct (pallets_loop v15 port (g_names s) (map r_pallet raws) (Tables [] [] [])) as [t| |] eqn:PT; [|discriminate..]. cbn [bind] in H.
  destruct (read f c (g_reg s) b o2 _) as [[z o3]| |]; [|discriminate..]. cbn [bind] in H. destruct (extensions_of (g_names s) z) as [exts| |]; [|discriminate..]. cbn [bind] in H.
  destruct (pallets_slots _ _ _ _ _ _ _ MS PT) as [C E]. cbn [tb_calls tb_events] in C, E. rewrite app_nil in C. rewrite app_nil in E. assert (K := modules_typed _ _ _ _ _ MS).
  assert (V12 : (v <? 12) = false) by (destruct v15; lia). assert (V14 : (14 <=? v) = true) by (destruct v15; lia).
  assert (G : forall apis outer custom, (v15 = false -> apis = [] /\ outer = None /\ custom = []) -> (v15 = true -> outer <> None) ->
    consistent v (MData ms (tb_calls t) (tb_events t) exts (map fst exts) apis outer custom)).
  { intros apis outer custom N Y. unfold consistent, agrees, numbered. cbn [md_modules md_calls md_events md_extensions md_identifiers md_apis md_outer md_custom]. rewrite V12, V14.
    split; [|split; [|split; [|split; [|split; [|split]]]]].
    - eexists. split; [reflexivity|]. intros k. now rewrite C.
    - eexists. split; [reflexivity|]. intros k. now rewrite E.
    - intros _. split; [exact K|reflexivity].
    - destruct v15; lia.
    - destruct v15; lia.
    - intros L. apply N. destruct v15; [lia|reflexivity].
    - intros L. apply Y. destruct v15; [reflexivity|lia]. }
  destruct v15.
  - repeat match goal with H : bind ?e _ = Ok _ |- _ =>
      let x := fresh "x" in destruct e as [x| |]; [|discriminate H..]; cbn [bind] in H; match type of x with (_ * _)%type => destruct x | _ => idtac end end.
    injection H as <- _ _. apply G; [discriminate|]. intros _. discriminate.
  - injection H as <- _ _. apply G; [|discriminate]. intros _. now repeat split.
Qed.

(** ** The header *)
Lemma header_version f c r b v n o : meta_registry r -> blen b < 2 ^ 60 -> metadata_header f c r b = Ok (Some (v, n, o)) -> 0 <= v < 16 /\ n = nth (Z.to_nat v) versions "".
Proof.
  intros M L H. unfold metadata_header in H. destruct (next_bytes b 0 4) as [[d0 o0]| |]; [|discriminate..]. cbn [bind] in H.
  destruct (if is_magic d0 then _ else _) as [[m1 o1]| |]; [|discriminate..]. cbn [bind] in H. destruct (is_magic m1); [|discriminate].
  destruct (slice b o1 (o1 + 1)) as [d| |] eqn:SL; [|discriminate..]. cbn [bind] in H.
  destruct (read f c r b o1 "MetadataVersion") as [[w o2]| |] eqn:R; [|discriminate..]. cbn [bind] in H. destruct w; try discriminate H. injection H as <- <- <-.
  unfold read in R. destruct f as [|f]; [discriminate R|]. cbn [decode] in R.
  destruct (key_look (reg_env r) c (registry_env r _ M) "MetadataVersion" (CEnum None versions) (CEnum None versions) eq_refl eq_refl eq_refl) as (cd & sub & G & I).
  rewrite G in R. cbn [bind] in R. rewrite I in R. cbn [process] in R. unfold process_enum in R. cbn [run] in R. change (i64 1) with 1 in R.
  assert (SB := SL). unfold slice in SB. destruct (_ && _)%bool eqn:B in SB; [|discriminate]. clear SB.
  unfold next_bytes in R. rewrite i64_small in R by (unfold two63; lia). replace (blen b <? o1 + 1) with false in R by lia. rewrite SL in R. cbn [bind] in R.
  destruct (nth_z versions (head_u8 d)) as [s0|] eqn:N; [|discriminate R]. cbn [run bind] in R. destruct (String.eqb s0 ""); [discriminate R|]. injection R as <- _.
  unfold nth_z in N. destruct (head_u8 d <? 0) eqn:B0; [discriminate|]. assert (X : (Z.to_nat (head_u8 d) < List.length versions)%nat) by (apply nth_error_Some; rewrite N; discriminate).
  change (List.length versions) with 16%nat in X. split; [lia|]. symmetry. exact (nth_error_nth _ _ _ N).
Qed.
Lemma old_refused f r v b o x : meta_registry r -> no_decoder r -> 0 <= v < 9 -> process_version f (Ctx 0 "" None) (nth (Z.to_nat v) versions "") r b o <> Ok x.
Proof.
  intros M N V.
  assert (I : In (nth (Z.to_nat v) versions "") (firstn 9 versions)).
  { assert (D : v = 0 \/ v = 1 \/ v = 2 \/ v = 3 \/ v = 4 \/ v = 5 \/ v = 6 \/ v = 7 \/ v = 8) by lia. clear - D. decompose [or] D; subst v; vm_compute; tauto. }
  revert I. generalize (nth (Z.to_nat v) versions ""). intros n I. unfold process_version. cbn [x_module x_spec].
  assert (C : GetCodecClass (reg_env r) "" n 0 = Ok None); [|rewrite C; discriminate].
  assert (GM : getCodecInstant (reg_env r) "" n 0 = Ok None).
  { apply get_missing.
    - intros ->. vm_compute in I. intuition discriminate.
    - intros Q. clear - I Q. vm_compute in I. decompose [or] I; try contradiction; subst; discriminate Q.
    - clear - I. vm_compute in I. decompose [or] I; try contradiction; subst; vm_compute; intuition discriminate.
    - unfold find_key, specialVersionCodec. cbn [e_special reg_env e_reg]. destruct (N n I) as [-> ->]. reflexivity. }
  clear - I GM. apply missing_name; [|exact GM]. vm_compute in I. decompose [or] I; try contradiction; subst n; vm_compute; repeat split; discriminate.
Qed.

(** Whatever bytes are given: what comes out has a version from 9 to 15 and
    tables that agree with the modules. *)
Theorem C73_consistent f r b v d r' : meta_registry r -> no_decoder r -> blen b < 2 ^ 60 ->
  ProcessMetadata f r b = Ok (Some (v, d), r') -> 9 <= v <= 15 /\ consistent v d.
Proof.
  intros M ND L H. unfold ProcessMetadata in H. cbv zeta in H. destruct (metadata_header f (Ctx 0 "" None) r b) as [[[[v0 n] o]|]| |] eqn:HD; [|discriminate..]. cbn [bind] in H.
  destruct (header_version f _ r b v0 n o M L HD) as [V ->].
  destruct (process_version f (Ctx 0 "" None) (nth (Z.to_nat v0) versions "") r b o) as [[[d0 o'] r0]| |] eqn:P; [|discriminate..]. cbn [bind] in H. injection H as <- <- <-.
  destruct (Z.ltb_spec v0 9) as [Lo|Hi]; [exfalso; refine (old_refused f r v0 b o _ M ND _ P); lia|]. split; [lia|].
  assert (D : v0 = 9 \/ v0 = 10 \/ v0 = 11 \/ v0 = 12 \/ v0 = 13 \/ v0 = 14 \/ v0 = 15) by lia. clear HD V Hi L.
  assert (Q : forall n, plainb n = true -> assoc (to_lower n) meta_keys = Some (COpaque n) -> exists s, GetCodecClass (reg_env r) "" n 0 = Ok (Some (COpaque n, s))).
  { intros n A B. destruct (key_look (reg_env r) (Ctx 0 "" None) (registry_env r _ M) n (COpaque n) (COpaque n) A B eq_refl) as (cd & sub & G & J). destruct cd; try discriminate J. cbn [init_sub] in J.
    injection J as ->. exists sub. exact G. }
  revert P. decompose [or] D; subst v0; cbv [Z.to_nat Pos.to_nat Pos.iter_op Nat.add nth versions]; unfold process_version; cbn [x_module x_spec];
    match goal with |- context [GetCodecClass _ _ ?n _] => destruct (Q n) as [s G]; [reflexivity|reflexivity|]; rewrite G; cbn [bind String.eqb Ascii.eqb Bool.eqb]; intros P end.
  1-3: eapply counted_consistent; [|exact P]; lia.
  1-2: eapply indexed_consistent; [|exact P]; lia.
  1-2: eapply portable_consistent; [|exact P]; reflexivity.
Qed.

(** ** What this means for a lookup *)
Lemma keyed_in {A} (index : A -> Z) own number name l : forall j k e, In (k, e) (keyed_from index own number name j l) -> en_module e = name /\ In (en_item e) l.
Proof.
  induction l as [|a l IH]; intros j k e H; [destruct H|]. cbn [keyed_from] in H. destruct H as [H|H].
  - injection H as _ <-. split; [reflexivity|now left].
  - destruct (IH _ _ _ H) as [X Y]. split; [exact X|now right].
Qed.
Lemma slots_in {A} items (index : A -> Z) own : forall ns ms k e, In (k, e) (slots items index own ns ms) -> exists m, In m ms /\ m_name m = en_module e /\ In (en_item e) (items m).
Proof.
  induction ns as [|n ns IH]; intros ms k e H; [destruct H|]. destruct ms as [|m ms]; [destruct H|]. cbn [slots] in H. apply in_app_or in H. destruct H as [H|H].
  - destruct (keyed_in _ _ _ _ _ _ _ _ H) as [X Y]. exists m. split; [now left|]. split; [now symmetry|exact Y].
  - destruct (IH _ _ _ H) as (m' & I & X). exists m'. split; [now right|exact X].
Qed.
Lemma agrees_in {A} items (index : A -> Z) v ms t k e : agrees items index v ms t -> assoc k t = Some e -> exists m, In m ms /\ m_name m = en_module e /\ In (en_item e) (items m).
Proof.
  intros (ns & _ & Q) H. rewrite Q in H. apply ProofsMeta.assoc_in in H. apply in_rev in H. exact (slots_in _ _ _ _ _ _ _ H).
Qed.

Lemma keyed_has {A} (index : A -> Z) (own : bool) number name : forall l j n a, nth_error l n = Some a ->
  In (lookup_key number (if own then index a else j + Z.of_nat n), Entry name a) (keyed_from index own number name j l).
Proof.
  induction l as [|b l IH]; intros j n a H; [destruct n; discriminate|]. cbn [keyed_from]. destruct n as [|n]; cbn [nth_error] in H.
  - injection H as ->. left. now rewrite Z.add_0_r.
  - right. specialize (IH (j + 1) n a H). replace (j + Z.of_nat (S n)) with (j + 1 + Z.of_nat n) by lia. exact IH.
Qed.
Lemma slots_has {A} items (index : A -> Z) (own : bool) m n a : forall ms, In m ms -> nth_error (items m) n = Some a ->
  In (lookup_key (m_index m) (if own then index a else Z.of_nat n), Entry (m_name m) a) (slots items index own (map m_index ms) ms).
Proof.
  induction ms as [|x ms IH]; intros I H; [destruct I|]. cbn [map slots]. apply in_or_app. destruct I as [-> | I]; [left|right; now apply IH].
  exact (keyed_has index own (m_index m) (m_name m) (items m) 0 n a H).
Qed.
Lemma in_assoc_some {A} k (e : A) l : In (k, e) l -> exists e', assoc k l = Some e'.
Proof.
  induction l as [|[k' x] l IH]; intros I; [destruct I|]. cbn [assoc]. destruct (String.eqb_spec k k') as [Q|Q]; [now exists x|].
  destruct I as [[= <- _]|I]; [now destruct Q|exact (IH I)].
Qed.
Definition item_number {A} (index : A -> Z) (v : Z) (n : nat) (a : A) : Z := if 14 <=? v then index a else Z.of_nat n.
Lemma agrees_has {A} items (index : A -> Z) v ms t m n a : agrees items index v ms t -> 12 <= v -> In m ms -> nth_error (items m) n = Some a ->
  0 <= m_index m < 256 -> 0 <= item_number index v n a < 256 -> exists e, assoc (on_chain (m_index m) (item_number index v n a)) t = Some e.
Proof.
  intros (ns & N & Q) V I H B B'. unfold numbered in N. replace (v <? 12) with false in N by (symmetry; apply Z.ltb_ge; lia). subst ns.
  rewrite Q, <- key_on_chain by assumption. eapply in_assoc_some. apply -> in_rev. exact (slots_has items index (14 <=? v) m n a ms I H).
Qed.

(** What a lookup finds is a call, or event, of one of the modules, under this
    module's name: never a mixture of two modules. *)
Theorem C73_lookup f r b v d r' : meta_registry r -> no_decoder r -> blen b < 2 ^ 60 -> ProcessMetadata f r b = Ok (Some (v, d), r') ->
  (forall k e, assoc k (md_calls d) = Some e -> exists m, In m (md_modules d) /\ m_name m = en_module e /\ In (en_item e) (m_calls m)) /\
  (forall k e, assoc k (md_events d) = Some e -> exists m, In m (md_modules d) /\ m_name m = en_module e /\ In (en_item e) (m_events m)).
Proof.
  intros M N L H. destruct (C73_consistent f r b v d r' M N L H) as (_ & C & E & _). split; intros k e K; [exact (agrees_in _ _ _ _ _ _ _ C K)|exact (agrees_in _ _ _ _ _ _ _ E K)].
Qed.
(** From version 12 on, the pair of bytes that a listed call, or event, has on
    chain is never unknown. *)
Theorem C73_listed f r b v d r' : meta_registry r -> no_decoder r -> blen b < 2 ^ 60 -> ProcessMetadata f r b = Ok (Some (v, d), r') -> 12 <= v ->
  forall m, In m (md_modules d) -> 0 <= m_index m < 256 ->
  (forall n c, nth_error (m_calls m) n = Some c -> 0 <= item_number k_index v n c < 256 -> exists e, assoc (on_chain (m_index m) (item_number k_index v n c)) (md_calls d) = Some e) /\
  (forall n c, nth_error (m_events m) n = Some c -> 0 <= item_number w_index v n c < 256 -> exists e, assoc (on_chain (m_index m) (item_number w_index v n c)) (md_events d) = Some e).
Proof.
  intros M N L H V m I B. destruct (C73_consistent f r b v d r' M N L H) as (_ & C & E & _).
  split; intros n c K X; [exact (agrees_has _ _ _ _ _ _ _ _ C V I K B X)|exact (agrees_has _ _ _ _ _ _ _ _ E V I K B X)].
Qed.

(** Metadata no runtime produces: version 12, two modules with the same index,
    each with a call.  It is decoded, and the later module has the key. *)
Definition odd_meta : bytes :=
  hex_decode "6d6574610c0804410001040478000000000007044200010804790000047a0000000000070400".
Definition odd_run := ProcessMetadata 300 mx_reg odd_meta.
Example odd_case : exists d r', odd_run = Ok (Some (12, d), r') /\ map m_name (md_modules d) = ["A"; "B"] /\
  option_map (fun e => (en_module e, k_name (en_item e))) (assoc (on_chain 7 0) (md_calls d)) = Some ("B", "y") /\
  option_map (fun e => (en_module e, k_name (en_item e))) (assoc (on_chain 7 1) (md_calls d)) = Some ("B", "z").
Proof.
  destruct odd_run as [[[[v d]|] r']| |] eqn:Q; [|vm_compute in Q; discriminate Q ..].
  vm_compute in Q. injection Q as <- <- <-. do 2 eexists. repeat split; vm_compute; reflexivity.
Qed.
Example odd_meets : meta_registry mx_reg /\ no_decoder mx_reg /\ blen odd_meta < 2 ^ 60.
Proof. split; [exact mx_registry|]. split; [exact mx_no_decoder|]. vm_compute. reflexivity. Qed.

Print Assumptions C73_consistent.
Print Assumptions C73_lookup.
Print Assumptions C73_listed.
