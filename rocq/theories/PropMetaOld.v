(** Property C69: whole metadata of versions 9 to 13, read from its bytes. *)

From Verif Require Import GoBase SpecNum ModelTools ModelVal ModelRegistry ModelDecode ModelEncode ModelRegister SpecScale ModelScaleInfo ModelMetadata
  PropScaleInfo PropMetadata ModelMeta SpecMeta SpecMetaOld
  ProofsBase ProofsTools ProofsRun ProofsReads ProofsScale ProofsApi PropCodec ProofsNames ProofsTexts ProofsPortReg ProofsFrame ProofsMeta ProofsMeta15 ProofsMetaOld PropMeta PropMeta14 PropMeta15.

(** ** The claim's own notions *)
Definition store_hashers (s : ostore) : list Z :=
  match s with OPlain _ => [] | OMap h _ _ _ => [h] | ODouble h _ _ _ h2 => [h; h2] | ONMap _ hs _ => hs end.
Definition oentries (m : wmodule) : list oentry := match om_storage m with Some s => snd s | None => [] end.
(** V9 numbers all but the first two hashers differently from the library. *)
Definition hashers_known (v : Z) (m : wmodule) : Prop := 10 <= v \/ Forall (fun e => Forall (fun h => h < 2) (store_hashers (on_type e))) (oentries m).
Definition is_otable {A B} (v : Z) (shown : A -> B) (of : wmodule -> option (list A)) (ms : list wmodule) (t : table B) : Prop :=
  forall i j, 0 <= i < 256 -> 0 <= j < 256 ->
  assoc (on_chain i j) t = match oat v of ms i j with Some (m, a) => Some (Entry (text_of (om_name m)) (shown a)) | None => None end.
Definition shown_old (v : Z) (m : wold) (calls : table mcall) (events : table mevent) : mdata :=
  MData (map (shown_omodule v) (wl_modules m)) calls events [] (if 11 <=? v then map text_of (wl_extensions m) else []) [] None [].

(** ** Proofs *)
Lemma store_same v e : hashers_known v (WModule [] (Some ([], [e])) None None [] [] 0) -> ostore_ok v (on_type e) -> read_ostore (on_type e) = shown_ostore v (on_type e).
Proof.
  intros H K. assert (N : forall h, In h (store_hashers (on_type e)) -> ohasher_ok v h -> hasher_name h = ohasher v h).
  { intros h I O. destruct (Z.le_gt_cases 10 v) as [V|V]; [symmetry; now apply ohasher_name|]. destruct H as [H|H]; [lia|]. cbn in H. inversion H as [|? ? H1 _]. subst. rewrite Forall_forall in H1.
    specialize (H1 h I). unfold ohasher_ok in O. unfold ohasher, hashers_of, hasher_name. replace (v <=? 9) with true by lia. assert (D : h = 0 \/ h = 1) by lia. destruct D as [-> | ->]; reflexivity. }
  destruct (on_type e) as [t|h k x l|h k1 k2 x h2|ks hs x]; cbn [store_hashers ostore_ok read_ostore shown_ostore In] in *.
  - reflexivity.
  - destruct K as (A & _). now rewrite (N h) by tauto.
  - destruct K as (A & _ & _ & _ & B). now rewrite (N h), (N h2) by tauto.
  - destruct K as (_ & _ & [_ F] & _). f_equal. apply map_ext_in. intros h I. rewrite Forall_forall in F. now apply N, F.
Qed.
Lemma module_same v m : hashers_known v m -> module_ok v m -> read_omodule v m = shown_omodule v m.
Proof.
  intros H (_ & B & _). unfold read_omodule, shown_omodule. f_equal. unfold hashers_known, oentries in H. destruct (om_storage m) as [[n l]|]; [|reflexivity]. destruct B as [_ [_ B]]. cbn [snd] in *.
  apply map_ext_in. intros e I. f_equal. apply store_same; [|rewrite Forall_forall in B; apply (B e I)].
  destruct H as [H|H]; [now left|right]. cbn. constructor; [|constructor]. rewrite Forall_forall in H. now apply H.
Qed.
Lemma having_filter {A B} (of : wmodule -> option (list A)) (f : A -> B) (sel : omodule -> option (list B)) (g : wmodule -> omodule) l :
  (forall m, sel (g m) = option_map (map f) (of m)) -> (forall m, o_name (g m) = text_of (om_name m)) ->
  having sel (map g l) = map (fun m => (text_of (om_name m), map f (listed (of m)))) (filter (fun m => match of m with Some _ => true | None => false end) l).
Proof.
  intros S N. induction l as [|m l IH]; [reflexivity|]. cbn [map]. unfold having in *. cbn [flat_map filter]. rewrite S, N, IH. destruct (of m) as [x|] eqn:Q; cbn [option_map app map]; [|reflexivity]. rewrite Q. reflexivity.
Qed.
Lemma read_items_map {A B} v (f : A -> B) o : has_index v = false -> read_items v f o = option_map (map f) o.
Proof. intros H. unfold read_items. rewrite H. destruct o as [[|a l]|]; reflexivity. Qed.
Lemma counted_found {A B} v (of : wmodule -> option (list A)) (f : A -> B) (sel : omodule -> option (list B)) (g : wmodule -> omodule) l i j : has_index v = false ->
  (forall m, sel (g m) = option_map (map f) (of m)) -> (forall m, o_name (g m) = text_of (om_name m)) ->
  to_entry (fun x => x) (counted_at sel (map g l) i j) = match oat v of l i j with Some (m, a) => Some (Entry (text_of (om_name m)) (f a)) | None => None end.
Proof.
  intros H S N. unfold counted_at, oat. rewrite H, (having_filter of f sel g l S N), nth_error_map. destruct (nth_error (filter _ l) (Z.to_nat i)) as [m|]; [|reflexivity]. cbn [option_map].
  rewrite nth_error_map. now destruct (nth_error (listed (of m)) (Z.to_nat j)).
Qed.
Lemma counted_tables v l : has_index v = false -> let ms := map snd (map (read_pair v) l) in
  is_otable v shown_ocall om_calls l (old_calls true ms) /\ is_otable v shown_oevent om_events l (old_events true ms).
Proof.
  intros H ms. assert (M : ms = map (fun m => snd (read_pair v m)) l) by (unfold ms; now rewrite map_map). split; intros i j I J.
  - destruct (C36_counted_partial true ms i j (or_introl eq_refl) I J) as [-> _]. rewrite M. apply counted_found; [exact H| |reflexivity]. intros m. cbn. now apply read_items_map.
  - destruct (C36_counted_partial true ms i j (or_introl eq_refl) I J) as [_ ->]. rewrite M. apply counted_found; [exact H| |reflexivity]. intros m. cbn. now apply read_items_map.
Qed.
Lemma indexed_found {A B} v (of : wmodule -> option (list A)) (f : A -> B) (sel : imodule -> list B) (g : wmodule -> imodule) l i j : has_index v = true ->
  (forall m, sel (g m) = map f (listed (of m))) -> (forall m, i_name (g m) = text_of (om_name m) /\ i_index (g m) = om_index m) ->
  to_entry (fun x => x) (item_at sel (map g l) i j) = match oat v of l i j with Some (m, a) => Some (Entry (text_of (om_name m)) (f a)) | None => None end.
Proof.
  intros H S N. unfold item_at, oat. rewrite H, find_map.
  assert (F : find (fun m => i_index (g m) =? i) l = find (fun m => om_index m =? i) l).
  { clear - N. induction l as [|m l IH]; [reflexivity|]. cbn [find]. destruct (N m) as [_ ->]. now rewrite IH. }
  rewrite F. clear F. destruct (find (fun m => om_index m =? i) l) as [m|]; [|reflexivity]. cbn [option_map]. rewrite S, nth_error_map. destruct (N m) as [-> _]. now destruct (nth_error (listed (of m)) (Z.to_nat j)).
Qed.
Lemma indexed_tables v l : has_index v = true -> NoDup (map om_index l) -> Forall (module_ok v) l -> let ms := map as_imodule (map fst (map (read_pair v) l)) in
  is_otable v shown_ocall om_calls l (indexed_calls ms) /\ is_otable v shown_oevent om_events l (indexed_events ms).
Proof.
  intros H ND K ms. assert (M : ms = map (fun m => as_imodule (read_omodule v m)) l) by (unfold ms; now rewrite !map_map).
  assert (X : forall m, i_index (as_imodule (read_omodule v m)) = om_index m) by (intros m; cbn; now rewrite H).
  assert (N1 : NoDup (map i_index ms)) by (rewrite M, map_map; replace (map (fun x => i_index (as_imodule (read_omodule v x))) l) with (map om_index l) by (apply map_ext; intros m; now rewrite X); exact ND).
  assert (N2 : Forall (fun m => 0 <= i_index m < 256) ms).
  { rewrite M. apply Forall_map. eapply Forall_impl; [|exact K]. intros m (_ & _ & _ & _ & _ & _ & B). now rewrite X. }
  split; intros i j I J.
  - destruct (C36_v13 ms i j N1 N2 I J) as [-> _]. rewrite M. apply indexed_found; [exact H|reflexivity|]. intros m. split; [reflexivity|apply X].
  - destruct (C36_v13 ms i j N1 N2 I J) as [_ ->]. rewrite M. apply indexed_found; [exact H|reflexivity|]. intros m. split; [reflexivity|apply X].
Qed.
Lemma modules_same v l : Forall (hashers_known v) l -> Forall (module_ok v) l -> map fst (map (read_pair v) l) = map (shown_omodule v) l.
Proof.
  intros H K. rewrite map_map. apply map_ext_in. intros m I. cbn [fst read_pair]. rewrite Forall_forall in H, K. apply module_same; [now apply H|now apply K].
Qed.

(** The decoder of a version. *)
Definition process_old (fuel : nat) (c : ctx) (v : Z) (r : reg) (b : bytes) (o : Z) : res (mdata * Z * reg) :=
  if has_index v then process_indexed fuel c (v =? 13) r b o else process_counted fuel c r b o.
(** What is read, with the hashers' names as the library numbers them. *)
Definition read_old (v : Z) (m : wold) (calls : table mcall) (events : table mevent) : mdata :=
  MData (map (read_omodule v) (wl_modules m)) calls events [] (if 12 <=? v then map text_of (wl_extensions m) else []) [] None [].
Definition left_old (v : Z) (m : wold) (r : reg) : reg := if v =? 13 then registerOriginCaller (map (fun m => (text_of (om_name m), om_index m)) (wl_modules m)) r else r.
(** The tables are made of the modules alone: they are the same whatever else is registered. *)
Lemma old_reads c v m pre tl : let ms := wl_modules m in
  9 <= v <= 13 -> old_ok v m -> (has_index v = true -> NoDup (map om_index ms)) ->
  blen (pre ++ old_enc v m ++ tl) < 2 ^ 63 ->
  exists calls events, is_otable v shown_ocall om_calls ms calls /\ is_otable v shown_oevent om_events ms events /\
  forall r, meta_registry r -> exists f0, forall f, (f0 <= f)%nat ->
  process_old f c v r (pre ++ old_enc v m ++ tl) (blen pre) =
  Ok (read_old v m calls events, blen pre + blen (if v =? 11 then list_enc (module_enc v) ms else old_enc v m), left_old v m r).
Proof.
  intros ms V (K & KV & KE) ND L. assert (KM : list_ok (known_module v) ms) by (split; [exact (proj1 K)|]; eapply Forall_impl; [|exact (proj2 K)]; apply known_module_ok).
  set (data := (pre ++ old_enc v m ++ tl)%list) in *. assert (A0 : at_ data (blen pre) (old_enc v m ++ tl)%list) by (exists pre; now split).
  unfold old_enc in A0 at 1. rewrite <- app_assoc in A0. fold ms in A0.
  pose proof (fun r M => reads_at r c _ _ _ _ _ _ M (sc0_modules (reg_env r) c (registry_env r _ M) v ms V KM) L A0) as G.
  assert (MS : map fst (map (read_pair v) ms) = map (read_omodule v) ms) by (now rewrite map_map). unfold process_old, left_old, read_old. fold ms.
  destruct (version_cases v V) as [(A & B & D)|CC].
  - destruct (counted_tables v ms A) as [TC TE]. eexists _, _. split; [exact TC|]. split; [exact TE|]. intros r M. destruct (G r M) as [g0 G0]. unfold module_name in G0. rewrite B, D in G0. exists g0. intros f F. rewrite A, B. unfold process_counted.
    change "Vec<MetadataV8Module>" with ("Vec<" ++ "MetadataV8Module" ++ ">"). rewrite (G0 f F). cbn [bind]. unfold records. rewrite slice_val_of. cbn [bind]. rewrite old_modules_ok by exact (proj2 KM). cbn [bind].
    rewrite MS. unfold has_index in A. rewrite A. f_equal. f_equal. f_equal. f_equal. destruct (Z.eqb_spec v 11) as [E|E]; [reflexivity|].
    unfold old_enc. replace (11 <=? v) with false by lia. now rewrite app_nil_r.
  - assert (A : has_index v = true) by tauto. assert (V11 : (11 <=? v) = true /\ (v =? 11) = false) by (unfold has_index in A; split; lia). destruct V11 as [V11 V11'].
    rewrite V11 in A0. pose proof (at_next _ _ _ _ A0) as A1.
    destruct (indexed_tables v ms A (ND A) (proj2 K)) as [TC TE]. eexists _, _. split; [exact TC|]. split; [exact TE|]. intros r M. destruct (G r M) as [g0 G0].
    destruct (reads_at r c _ _ _ _ _ _ M (sc0_ext (reg_env r) c (registry_env r _ M) m KV KE) L A1) as [g1 G1].
    exists (Nat.max g0 g1). intros f F. rewrite A, V11'. unfold process_indexed.
    assert (TN : (if v =? 13 then "Vec<MetadataV13Module>" else "Vec<MetadataV12Module>") = "Vec<" ++ module_name v ++ ">").
    { unfold module_name. destruct CC as [(_ & B & D)|(_ & B)]; rewrite B; [now rewrite D|reflexivity]. }
    rewrite TN, (G0 f ltac:(lia)). cbn [bind]. unfold records. rewrite slice_val_of. cbn [bind]. rewrite old_modules_ok by exact (proj2 KM). cbn [bind].
    rewrite (G1 f ltac:(lia)). cbn [bind]. rewrite old_extensions_ok. cbn [bind]. rewrite MS. unfold has_index in A. rewrite A.
    assert (OFF : blen pre + blen (list_enc (module_enc v) ms) + blen (ext_enc m) = blen pre + blen (old_enc v m)) by (unfold old_enc; fold ms; rewrite V11; unfold blen; rewrite app_length; lia).
    rewrite OFF. rewrite !map_map. cbn [m_name m_index read_omodule]. unfold has_index. rewrite A. reflexivity.
Qed.
Lemma metadata_reads_all h v m tl : let ms := wl_modules m in let data := (h ++ magic ++ [Zb v] ++ old_enc v m ++ tl)%list in
  lead h -> 9 <= v <= 13 -> old_ok v m -> (has_index v = true -> NoDup (map om_index ms)) -> blen data < 2 ^ 63 ->
  exists calls events, is_otable v shown_ocall om_calls ms calls /\ is_otable v shown_oevent om_events ms events /\
  forall r, meta_registry r -> exists f0, forall f, (f0 <= f)%nat -> ProcessMetadata f r data = Ok (Some (v, read_old v m calls events), left_old v m r).
Proof.
  intros ms data H V K ND L.
  assert (A : data = ((h ++ magic ++ [Zb v]) ++ old_enc v m ++ tl)%list) by (unfold data; now rewrite <- !app_assoc).
  assert (B : blen (h ++ magic ++ [Zb v]) = blen h + 5) by (unfold blen; rewrite !app_length; change (List.length magic) with 4%nat; cbn [List.length]; lia).
  destruct (old_reads (Ctx 0 "" None) v m (h ++ magic ++ [Zb v]) tl V K ND) as (calls & events & TC & TE & G); [now rewrite <- A|].
  exists calls, events. split; [exact TC|]. split; [exact TE|]. intros r M. destruct (G r M) as [g1 G1].
  destruct (C66_header r (Ctx 0 "" None) h v (old_enc v m ++ tl) M H ltac:(lia) L) as [g2 G2]. fold data in G2.
  exists (Nat.max g1 g2). intros f F. unfold ProcessMetadata. rewrite (G2 f ltac:(lia)). cbn [bind].
  assert (R : process_version f (Ctx 0 "" None) (nth (Z.to_nat v) versions "") r data (blen h + 5) = process_old f (Ctx 0 "" None) v r data (blen h + 5)).
  { assert (D : v = 9 \/ v = 10 \/ v = 11 \/ v = 12 \/ v = 13) by lia. clear - D M. generalize (blen h + 5). intros o.
    assert (Q : forall n, plainb n = true -> assoc (to_lower n) meta_keys = Some (COpaque n) -> GetCodecClass (reg_env r) "" n 0 = Ok (Some (COpaque n, "")) \/ exists s, GetCodecClass (reg_env r) "" n 0 = Ok (Some (COpaque n, s))).
    { intros n P Q. right. destruct (key_look (reg_env r) (Ctx 0 "" None) (registry_env r _ M) n (COpaque n) (COpaque n) P Q eq_refl) as (cd & sub & G & J). destruct cd; try discriminate J. cbn [init_sub] in J.
      injection J as ->. exists sub. exact G. }
    decompose [or] D; subst v; cbv [Z.to_nat Pos.to_nat Pos.iter_op Nat.add nth versions]; unfold process_version;
    match goal with |- context [GetCodecClass _ _ ?n _] => destruct (Q n) as [G|[s G]]; [reflexivity|reflexivity| |]; cbn [x_module x_spec]; rewrite G; reflexivity end. }
  rewrite R. rewrite A, <- B, (G1 f ltac:(lia)). reflexivity.
Qed.
Lemma metadata_reads r h v m tl : let ms := wl_modules m in let data := (h ++ magic ++ [Zb v] ++ old_enc v m ++ tl)%list in
  meta_registry r -> lead h -> 9 <= v <= 13 -> old_ok v m -> (has_index v = true -> NoDup (map om_index ms)) -> blen data < 2 ^ 63 ->
  exists f0 calls events, is_otable v shown_ocall om_calls ms calls /\ is_otable v shown_oevent om_events ms events /\
  forall f, (f0 <= f)%nat -> ProcessMetadata f r data = Ok (Some (v, read_old v m calls events), left_old v m r).
Proof.
  intros ms data M H V K ND L. destruct (metadata_reads_all h v m tl H V K ND L) as (calls & events & TC & TE & G). destruct (G r M) as [f0 G0].
  exists f0, calls, events. split; [exact TC|]. split; [exact TE|]. exact G0.
Qed.

(** All that the metadata says is shown. This leaves out the numbering of hashers
    of V9 (see C69_v9_refuted) and the signed extensions of V11 (see
    C69_v11_refuted). *)
Theorem C69_metadata_partial r h v m tl : let ms := wl_modules m in let data := (h ++ magic ++ [Zb v] ++ old_enc v m ++ tl)%list in
  meta_registry r -> lead h -> 9 <= v <= 13 -> old_ok v m -> (has_index v = true -> NoDup (map om_index ms)) -> blen data < 2 ^ 63 ->
  Forall (hashers_known v) ms -> (v = 11 -> wl_extensions m = []) ->
  exists f0 calls events, is_otable v shown_ocall om_calls ms calls /\ is_otable v shown_oevent om_events ms events /\
  forall f, (f0 <= f)%nat -> ProcessMetadata f r data = Ok (Some (v, shown_old v m calls events), left_old v m r).
Proof.
  intros ms data M H V K ND L HK X. destruct (metadata_reads r h v m tl M H V K ND L) as (f0 & calls & events & TC & TE & P). exists f0, calls, events. split; [exact TC|]. split; [exact TE|]. intros f F.
  fold data in P. rewrite (P f F). unfold read_old, shown_old. f_equal. f_equal. f_equal. f_equal. fold ms. f_equal.
  - pose proof (modules_same v ms HK (proj2 (proj1 K))) as Q. rewrite map_map in Q. exact Q.
  - destruct (Z.leb_spec 12 v), (Z.leb_spec 11 v); try lia; try reflexivity. now rewrite X by lia.
Qed.
