(** Decoding a block's events.  C39. *)

From Verif Require Import GoBase SpecNum ProofsBase ModelTools ProofsTools ModelVal ModelJson ModelRegistry ModelDecode ModelEncode ModelRegister ModelScaleInfo ModelMetadata ModelEvents
  ProofsRun SpecScale ProofsReads ProofsScale ProofsApi ProofsEncode ProofsNames PropForms PropRegistry PropScaleInfo PropMetadata.

(** ** What is on the chain *)
(** A record: the phase byte (0 is ApplyExtrinsic with the extrinsic's index),
    the two index bytes, the arguments as SCALE bytes with their values, the
    topics. *)
Record chain_event := ChainEvent {
  ce_phase : Z; ce_ext : Z; ce_pallet : Z; ce_variant : Z; ce_bytes : bytes; ce_values : list val; ce_topics : list bytes }.
Definition event_bytes (version : Z) (c : chain_event) : bytes :=
  ([Zb (ce_phase c)] ++ (if ce_phase c =? 0 then le_bytes 4 (ce_ext c) else []) ++ [Zb (ce_pallet c); Zb (ce_variant c)]
   ++ ce_bytes c ++ (if 5 <=? version then len_of (ce_topics c) ++ List.concat (ce_topics c) else []))%list.
Definition blob (version : Z) (l : list chain_event) : bytes :=
  (len_of l ++ List.concat (map (event_bytes version) l))%list.

(** The registry has the built-in U32, Hash and Vec<Hash>, whatever the module. *)
Definition event_env (E : env) (cx : evctx) : Prop := std_env E /\
  forall m, resolves E (ev_ctx cx m) "U32" CU32 /\ resolves E (ev_ctx cx m) "Vec<Hash>" (CVec "Hash") /\ resolves E (ev_ctx cx m) "Hash" CH256.
(** A record that the metadata describes: the event of its index bytes is in
    the table, the argument bytes are the SCALE encoding of the values at the
    event's argument types, inside the event's module. *)
Definition well_formed (E : env) (cx : evctx) (c : chain_event) (en : entry mevent) : Prop :=
  0 <= ce_phase c < 256 /\ 0 <= ce_ext c < 2 ^ 32 /\ 0 <= ce_pallet c < 256 /\ 0 <= ce_variant c < 256 /\
  assoc (on_chain (ce_pallet c) (ce_variant c)) (v_events cx) = Some en /\
  (exists cs, scales false E (ev_ctx cx (en_module en)) (w_args (en_item en)) (ce_bytes c) (ce_values c) cs) /\
  Forall (fun t => List.length t = 32%nat) (ce_topics c) /\ Z.of_nat (List.length (ce_topics c)) <= 512 * 1024.
(** The record the library should return. *)
Fixpoint params_are (args names tynames : list string) (vs : list val) (ps : list eparam) : Prop :=
  match args, names, tynames, vs, ps with
  | [], _, _, [], [] => True
  | t :: args', n :: names', tn :: tynames', v :: vs', p :: ps' => p = EParam t n tn v /\ params_are args' names' tynames' vs' ps'
  | _, _, _, _, _ => False
  end.
Definition names_of (l : list string) (n : nat) : list string := if Nat.eqb (List.length l) n then l else repeat "" n.
Definition returned (version : Z) (i : Z) (c : chain_event) (en : entry mevent) (r : erecord) : Prop :=
  er_idx r = i /\ er_phase r = ce_phase c /\ er_extrinsic r = (if ce_phase c =? 0 then ce_ext c else 0) /\
  er_type r = on_chain (ce_pallet c) (ce_variant c) /\ er_module r = en_module en /\ er_event r = w_name (en_item en) /\
  params_are (w_args (en_item en)) (names_of (w_argnames (en_item en)) (List.length (w_args (en_item en))))
    (names_of (w_tynames (en_item en)) (List.length (w_args (en_item en)))) (ce_values c) (er_params r) /\
  er_raw r = hex_encode (ce_bytes c) /\
  er_topic r = (if 5 <=? version then map (fun t => "0x" ++ hex_encode t) (ce_topics c) else []).
Inductive all_returned (E : env) (cx : evctx) : Z -> list chain_event -> list erecord -> Prop :=
| ar_nil i : all_returned E cx i [] []
| ar_cons i c en r l rs : assoc (on_chain (ce_pallet c) (ce_variant c)) (v_events cx) = Some en -> returned (v_version cx) i c en r ->
    all_returned E cx (i + 1) l rs -> all_returned E cx i (c :: l) (r :: rs).

(** ** One record *)
Section One.
Variable E : env.
Variable cx : evctx.
Hypothesis std : event_env E cx.

Lemma ok_pair {A} (x : A) (a b : Z) : a = b -> Ok (x, a) = Ok (x, b).
Proof. now intros ->. Qed.
Lemma pud_dec f f' data module ts bs g cs pre tl : Dec (decode f E) (ev_ctx cx module) ts bs g cs -> (f <= f')%nat -> data = (pre ++ bs ++ tl)%list ->
  blen data < 2 ^ 63 -> pud f' E cx data module (blen pre) ts = Ok (g, blen pre + blen bs).
Proof.
  intros D L -> B. unfold pud. rewrite (decode_mono f f' E L _ _ _ _ _ (D pre tl B)) by discriminate. reflexivity.
Qed.

Lemma names_nth l n k d t : (k < n)%nat -> nth k (names_of l n) d = t -> (if Nat.eqb (List.length l) n then nth k l "" else "") = t \/ d <> "".
Proof.
  intros K. unfold names_of. destruct (Nat.eqb_spec (List.length l) n) as [Q|Q]; intros H.
  - destruct (String.eqb_spec d ""); [subst; now left|now right].
  - left. rewrite <- H. symmetry. clear -K. revert k K. induction n as [|n IH]; intros k K; [lia|]. destruct k; [reflexivity|]. cbn [repeat nth]. apply IH. lia.
Qed.
Lemma names_nth' l n k : (k < n)%nat -> (if Nat.eqb (List.length l) n then nth k l "" else "") = nth k (names_of l n) "".
Proof. intros K. destruct (names_nth l n k "" _ K eq_refl) as [H|H]; [exact H|contradiction]. Qed.
Lemma names_length l n : List.length (names_of l n) = n.
Proof. unfold names_of. destruct (Nat.eqb_spec (List.length l) n); [assumption|apply repeat_length]. Qed.
Lemma skipn_nth {A} k (l : list A) d : (k < List.length l)%nat -> skipn k l = nth k l d :: skipn (S k) l.
Proof. revert k. induction l as [|x l IH]; intros k H; [cbn in H; lia|]. destruct k; [reflexivity|]. cbn in H. cbn [skipn nth]. apply IH. lia. Qed.

Lemma params_run_ok f m e args bs gs cs : seqdec (decode f E) (ev_ctx cx m) args bs gs cs ->
  forall f' data k pre tl, (f <= f')%nat -> (k + List.length args = List.length (w_args e))%nat -> data = (pre ++ bs ++ tl)%list -> blen data < 2 ^ 63 ->
  exists ps, params_loop f' E cx data e m k args (blen pre) = Ok (ps, blen pre + blen bs) /\
    params_are args (skipn k (names_of (w_argnames e) (List.length (w_args e)))) (skipn k (names_of (w_tynames e) (List.length (w_args e)))) gs ps.
Proof.
  intros H. induction H as [|t ts b bs g gs cs1 cs2 D H' IH]; intros f' data k pre tl L K -> B.
  - exists []. cbn [params_loop params_are]. split; [|exact I]. f_equal. f_equal. change (blen []) with 0. lia.
  - cbn [params_loop]. cbn [List.length] in K.
    rewrite (pud_dec f f' _ m t b g cs1 pre (bs ++ tl) D L) by (assumption || now rewrite <- app_assoc). cbn [bind].
    destruct (IH f' ((pre ++ b) ++ bs ++ tl)%list (S k) (pre ++ b)%list tl L ltac:(lia) eq_refl) as (ps & X & Y).
    { now rewrite <- !app_assoc in *. }
    rewrite blen_app in X. replace (pre ++ (b ++ bs) ++ tl)%list with ((pre ++ b) ++ bs ++ tl)%list by now rewrite <- !app_assoc.
    rewrite X. cbn [bind]. eexists. split; [f_equal; f_equal; rewrite blen_app; lia|].
    rewrite !names_nth' by lia.
    rewrite (skipn_nth k (names_of (w_argnames e) _) "") by (rewrite names_length; lia).
    rewrite (skipn_nth k (names_of (w_tynames e) _) "") by (rewrite names_length; lia). cbn [params_are]. split; [reflexivity|exact Y].
Qed.

Lemma topics_scales m ts : Forall (fun t => List.length t = 32%nat) ts ->
  scales false E (ev_ctx cx m) (repeat "Hash" (List.length ts)) (List.concat ts) (map (fun t => VStr ("0x" ++ hex_encode t)) ts) [].
Proof.
  induction 1 as [|t ts T F IH]; [constructor|]. cbn [List.length repeat List.concat map]. change (@nil string) with ([] ++ [] : list string)%list. constructor; [|exact IH].
  econstructor; [apply (proj2 std)|discriminate|]. now constructor.
Qed.
Lemma strings_topics ts : strings_of (map (fun t => VStr ("0x" ++ hex_encode t)) ts) = Ok (map (fun t => "0x" ++ hex_encode t) ts).
Proof. induction ts as [|t ts IH]; [reflexivity|]. cbn [map strings_of]. now rewrite IH. Qed.
Lemma topics_slice ts : topics_of (slice_of (map (fun t => VStr ("0x" ++ hex_encode t)) ts)) = Ok (map (fun t => "0x" ++ hex_encode t) ts).
Proof. destruct ts as [|t ts]; [reflexivity|]. cbn [map slice_of topics_of]. exact (strings_topics (t :: ts)). Qed.

Lemma record_ok c en : well_formed E cx c en -> exists f, forall f' module pre tl data, (f <= f')%nat ->
  data = (pre ++ event_bytes (v_version cx) c ++ tl)%list -> blen data < 2 ^ 63 ->
  exists r, record_process f' E cx data module (blen pre) = Ok (r, en_module en, blen pre + blen (event_bytes (v_version cx) c)) /\
    forall i, returned (v_version cx) i c en (with_idx i r).
Proof.
  intros (P & X & I & J & A & (cs & SC) & T & NT).
  destruct (proj2 (proj2 (scale_decodes false E (proj1 std))) _ _ _ _ _ SC) as [f1 S1].
  assert (U : exists f2, forall m, Dec (decode f2 E) (ev_ctx cx m) "U32" (le_bytes 4 (ce_ext c)) (VU32 (ce_ext c)) []).
  { exists 1%nat. intros m. eapply (Dec_resolves 0); [apply (proj2 std)|]. apply reads_next_ret; [reflexivity|]. cbv beta. now rewrite le_uint_bytes by exact X. }
  destruct U as [f2 U].
  assert (V : exists f3, Dec (decode f3 E) (ev_ctx cx (en_module en)) "Vec<Hash>" (len_of (ce_topics c) ++ List.concat (ce_topics c)) (slice_of (map (fun t => VStr ("0x" ++ hex_encode t)) (ce_topics c))) []).
  { apply (proj1 (scale_decodes false E (proj1 std))). econstructor; [apply (proj2 std)|discriminate|]. apply sc_vec; [|exact NT]. now apply topics_scales. }
  destruct V as [f3 V]. exists (Nat.max f1 (Nat.max f2 f3)). intros f' module pre tl data L -> B.
  set (data := (pre ++ event_bytes (v_version cx) c ++ tl)%list) in *.
  unfold record_process. unfold event_bytes in data.
  set (phaseb := [Zb (ce_phase c)]) in *. set (extb := if ce_phase c =? 0 then le_bytes 4 (ce_ext c) else []) in *.
  set (idx := [Zb (ce_pallet c); Zb (ce_variant c)]) in *.
  set (topb := if 5 <=? v_version cx then (len_of (ce_topics c) ++ List.concat (ce_topics c))%list else []) in *.
  assert (N1 : next_bytes data (blen pre) 1 = Ok (phaseb, blen pre + 1)).
  { assert (Q : data = (pre ++ phaseb ++ (extb ++ idx ++ ce_bytes c ++ topb ++ tl))%list) by (unfold data; now rewrite <- !app_assoc).
    rewrite Q. apply (next_at pre phaseb _ 1); [now rewrite <- Q|reflexivity]. }
  rewrite N1. cbn [bind]. unfold phaseb at 1. cbn [head_u8]. rewrite bZ_Zb_small by exact P.
  assert (N2 : (if ce_phase c =? 0
     then '(v, o) <- pud f' E cx data module (blen pre + 1) "U32" ;; match v with VU32 z => Ok (z, o) | _ => Panic "interface conversion: interface {} is not uint32" end
     else Ok (0, blen pre + 1)) = Ok (if ce_phase c =? 0 then ce_ext c else 0, blen (pre ++ phaseb ++ extb))).
  { rewrite !blen_app. unfold extb. destruct (ce_phase c =? 0).
    - assert (Q : data = ((pre ++ phaseb) ++ le_bytes 4 (ce_ext c) ++ (idx ++ ce_bytes c ++ topb ++ tl))%list) by (unfold data, extb; now rewrite <- !app_assoc).
      replace (blen pre + 1) with (blen (pre ++ phaseb)%list) by (rewrite blen_app; reflexivity).
      rewrite (pud_dec f2 f' data module "U32" _ _ _ _ _ (U module) ltac:(lia) Q B). cbn [bind]. rewrite blen_app. apply ok_pair. lia.
    - apply ok_pair. change (blen phaseb) with 1. change (blen []) with 0. lia. }
  rewrite N2. cbn [bind].
  assert (N3 : next_bytes data (blen (pre ++ phaseb ++ extb)) 2 = Ok (idx, blen (pre ++ phaseb ++ extb ++ idx))).
  { assert (Q : data = ((pre ++ phaseb ++ extb) ++ idx ++ (ce_bytes c ++ topb ++ tl))%list) by (unfold data; now rewrite <- !app_assoc).
    rewrite Q. replace (blen (pre ++ phaseb ++ extb ++ idx)) with (blen (pre ++ phaseb ++ extb) + blen idx) by (rewrite !blen_app; lia).
    apply (next_at (pre ++ phaseb ++ extb) idx _ 2); [now rewrite <- Q|reflexivity]. }
  rewrite N3. cbn [bind]. rewrite BytesToHex_eq. unfold idx at 1. fold (on_chain (ce_pallet c) (ce_variant c)). rewrite A.
  destruct (params_run_ok f1 (en_module en) (en_item en) _ _ _ _ S1 f' data 0 (pre ++ phaseb ++ extb ++ idx) (topb ++ tl) ltac:(lia) eq_refl) as (ps & PL & PA).
  { unfold data. now rewrite <- !app_assoc. }
  { exact B. }
  rewrite PL. cbn [bind].
  assert (SL : slice data (blen (pre ++ phaseb ++ extb ++ idx)) (blen (pre ++ phaseb ++ extb ++ idx) + blen (ce_bytes c)) = Ok (ce_bytes c)).
  { assert (Q : data = ((pre ++ phaseb ++ extb ++ idx) ++ ce_bytes c ++ (topb ++ tl))%list) by (unfold data; now rewrite <- !app_assoc). rewrite Q. apply slice_middle. }
  rewrite SL. cbn [bind].
  assert (N4 : (if 5 <=? v_version cx
     then '(v, o3) <- pud f' E cx data (en_module en) (blen (pre ++ phaseb ++ extb ++ idx) + blen (ce_bytes c)) "Vec<Hash>" ;; tp <- topics_of v ;; Ok (tp, o3)
     else Ok ([], blen (pre ++ phaseb ++ extb ++ idx) + blen (ce_bytes c)))
     = Ok (if 5 <=? v_version cx then map (fun t => "0x" ++ hex_encode t) (ce_topics c) else [], blen (pre ++ phaseb ++ extb ++ idx) + blen (ce_bytes c) + blen topb)).
  { unfold topb in *. destruct (5 <=? v_version cx).
    - assert (Q : data = ((pre ++ phaseb ++ extb ++ idx ++ ce_bytes c) ++ (len_of (ce_topics c) ++ List.concat (ce_topics c)) ++ tl)%list) by (unfold data; now rewrite <- !app_assoc).
      replace (blen (pre ++ phaseb ++ extb ++ idx) + blen (ce_bytes c)) with (blen (pre ++ phaseb ++ extb ++ idx ++ ce_bytes c)) by (rewrite !blen_app; lia).
      rewrite (pud_dec f3 f' data (en_module en) "Vec<Hash>" _ _ _ _ _ V ltac:(lia) Q B). cbn [bind]. rewrite topics_slice. reflexivity.
    - apply ok_pair. change (blen []) with 0. lia. }
  rewrite N4. cbn [bind]. eexists. split.
  - apply ok_pair. change (event_bytes (v_version cx) c) with (phaseb ++ extb ++ idx ++ ce_bytes c ++ topb)%list. rewrite !blen_app. lia.
  - intros i. unfold returned, with_idx. cbn [er_idx er_phase er_extrinsic er_type er_module er_event er_params er_raw er_topic].
    repeat split; try exact PA; try apply BytesToHex_eq. now apply bZ_Zb_small.
Qed.

(** Every record of a block's events comes back, in order and numbered from
    zero, with its phase, extrinsic index, event, parameters, raw parameter
    bytes and topics. *)
Theorem C39_events l module0 tl : Forall (fun c => exists en, well_formed E cx c en) l -> blen (blob (v_version cx) l ++ tl) < 2 ^ 63 ->
  exists f, forall f', (f <= f')%nat -> exists rs, events_process f' E cx (blob (v_version cx) l ++ tl) module0 = Ok rs /\
    List.length rs = List.length l /\ all_returned E cx 0 l rs.
Proof.
  intros F B.
  assert (R : exists f, forall f', (f <= f')%nat -> forall data pre i module, data = (pre ++ List.concat (map (event_bytes (v_version cx)) l) ++ tl)%list -> blen data < 2 ^ 63 ->
    exists rs, records_loop f' E cx data (List.length l) i module (blen pre) = Ok rs /\ List.length rs = List.length l /\ all_returned E cx i l rs).
  { clear B. induction F as [|c l (en & W) F IH].
    - exists O. intros f' _ data pre i module _ _. exists []. cbn [List.length records_loop]. repeat split. constructor.
    - destruct IH as [f1 IH]. destruct (record_ok c en W) as [f2 RO]. exists (Nat.max f1 f2). intros f' L data pre i module D B.
      cbn [map List.concat] in D. rewrite <- app_assoc in D.
      destruct (RO f' module pre _ data ltac:(lia) D B) as (r & X & Y). cbn [List.length records_loop]. rewrite X. cbn [bind].
      destruct (IH f' ltac:(lia) data (pre ++ event_bytes (v_version cx) c)%list (i + 1) (en_module en)) as (rs & X2 & LN & Y2).
      { rewrite D. now rewrite <- app_assoc. }
      { exact B. }
      rewrite blen_app in X2. rewrite X2. cbn [bind]. eexists. split; [reflexivity|]. split; [cbn [List.length]; now rewrite LN|].
      econstructor; [|apply Y|exact Y2]. apply W. }
  destruct R as [f1 R].
  assert (C : exists f2, Dec (decode f2 E) (ev_ctx cx module0) "Compact<u32>" (len_of l) (VInt (Z.of_nat (List.length l))) []).
  { exists 1%nat. apply Dec_compact_u32; [apply std|]. assert (Z.of_nat (List.length l) <= blen (List.concat (map (event_bytes (v_version cx)) l))).
    { clear. induction l as [|c l IH]; [reflexivity|]. cbn [map List.concat List.length]. rewrite blen_app. unfold event_bytes at 1. rewrite blen_app. change (blen [Zb (ce_phase c)]) with 1.
      match goal with |- _ <= 1 + blen ?x + _ => pose proof (blen_nonneg x) end. lia. }
    unfold blob in B. rewrite !blen_app in B. pose proof (blen_nonneg (len_of l)). pose proof (blen_nonneg tl). lia. }
  destruct C as [f2 C]. exists (Nat.max f1 f2). intros f' L. unfold events_process.
  rewrite (pud_dec f2 f' _ module0 _ _ _ _ [] (List.concat (map (event_bytes (v_version cx)) l) ++ tl)%list C ltac:(lia)) by (assumption || (unfold blob; now rewrite <- app_assoc)).
  cbn [bind]. rewrite Nat2Z.id. destruct (R f' ltac:(lia) (blob (v_version cx) l ++ tl)%list (len_of l) 0 "") as (rs & X & Y).
  - unfold blob. now rewrite <- app_assoc.
  - exact B.
  - exists rs. split; [|exact Y]. change (blen []) with 0. exact X.
Qed.
End One.

(** An index that the metadata does not have is not skipped: it panics. *)
Theorem C39_unknown E cx f data module off b o b2 o2 : next_bytes data off 1 = Ok (b, o) -> head_u8 b <> 0 -> next_bytes data o 2 = Ok (b2, o2) ->
  assoc (hex_encode b2) (v_events cx) = None -> exists m, record_process f E cx data module off = Panic m.
Proof.
  intros N1 P N2 A. unfold record_process. rewrite N1. cbn [bind]. replace (head_u8 b =? 0) with false by lia. cbn [bind]. rewrite N2. cbn [bind].
  rewrite BytesToHex_eq, A. eauto.
Qed.

(** The built-in registry meets [event_env] for every table and module. *)
Lemma base_event_env cx : event_env (reg_env base_reg) cx.
Proof.
  split; [exact base_std|]. intros m.
  assert (G : forall n k cd, to_lower n = k -> name_ok n -> override_free k = true -> assoc k base_registry = Some cd -> to_lower k = k ->
    resolves (reg_env base_reg) (ev_ctx cx m) n (init_sub cd "")).
  { intros n k cd Q N O A Q2. apply name_resolves; [exact N|]. unfold lookup. cbn [ev_ctx x_module x_spec]. cbv zeta. rewrite Q, (override_none k m O).
    unfold specialVersionCodec. cbn [reg_env base_reg e_special e_reg r_types r_special assoc]. rewrite Q2, A. reflexivity. }
  repeat split.
  - apply (G "U32" "u32" CU32); try reflexivity. name_ok_text.
  - exists (CVec ""), "Hash". split; [|reflexivity]. cbn [ev_ctx x_module x_spec].
    assert (I : forall n k r, to_lower n = k -> override_free k = true -> to_lower k = k -> assoc k base_registry = r -> (r = None -> first_char k = Some "v"%char /\ last_char k <> None /\ k <> "[]") ->
      getCodecInstant (reg_env base_reg) m n (v_spec cx) = Ok r).
    { intros n k r Q O Q2 A B. unfold getCodecInstant. rewrite Q, (override_none k m O). cbv zeta. unfold specialVersionCodec.
      cbn [reg_env base_reg e_special e_reg r_types r_special assoc]. rewrite Q2, A. destruct r; [reflexivity|]. destruct (B eq_refl) as (F & LC & NB).
      destruct (String.eqb_spec k "[]"); [contradiction|]. rewrite F. destruct (last_char k); [reflexivity|contradiction]. }
    unfold GetCodecClass. generalize (String.length "Vec<Hash>"). intros [|k]; cbn [GetCodecClass_fuel];
    change (ConvertType "Vec<Hash>") with "Vec<Hash>"; change (last_char "Vec<Hash>") with (Some ">"%char); cbv beta iota zeta;
    rewrite Ascii.eqb_refl; cbv iota; change (generic_parts "Vec<Hash>") with (Some ("Vec", "Hash")); cbn [bind];
    (rewrite (I "Vec<Hash>" "vec<hash>" None); [|reflexivity|reflexivity|reflexivity|reflexivity|now repeat split]); cbn [bind];
    (rewrite (I "Vec" "vec" (Some (CVec ""))); [|reflexivity|reflexivity|reflexivity|reflexivity|discriminate]); reflexivity.
  - apply (G "Hash" "hash" CH256); try reflexivity. name_ok_text.
Qed.

(** A transfer in extrinsic 2 with one topic, then an event of the finalization
    phase without arguments. *)
Definition ex_evctx : evctx := EvCtx 100 14
  [("0602", Entry "Balances" (MEvent "Deposit" ["u8"; "u32"] ["who"; "amount"] [] 2)); ("0001", Entry "System" (MEvent "CodeUpdated" [] [] [] 1))] [].
Definition ex_chain : list chain_event :=
  [ChainEvent 0 2 6 2 (map Zb [7; 1; 0; 0; 0]) [VInt 7; VU32 1] [repeat (Zb 17) 32]; ChainEvent 1 0 0 1 [] [] []].
Example C39_hyps : Forall (fun c => exists en, well_formed (reg_env base_reg) ex_evctx c en) ex_chain.
Proof.
  assert (RU : resolves (reg_env base_reg) (ev_ctx ex_evctx "Balances") "u8" CU8) by res.
  assert (RU2 : resolves (reg_env base_reg) (ev_ctx ex_evctx "Balances") "u32" CU32) by res.
  repeat constructor.
  - eexists. unfold well_formed, ex_chain. cbn [ce_phase ce_ext ce_pallet ce_variant ce_bytes ce_values ce_topics]. repeat match goal with |- _ /\ _ => split end; try lia; try (vm_compute; reflexivity).
    + exists ([] ++ ([] ++ []))%list. change (map Zb [7; 1; 0; 0; 0]) with (le_bytes 1 7 ++ (le_bytes 4 1 ++ []))%list. cbn [en_module en_item w_args]. 
      constructor; [econstructor; [exact RU|discriminate|now constructor]|]. constructor; [econstructor; [exact RU2|discriminate|now constructor]|constructor].
    + now repeat constructor.
    + cbn. lia.
  - eexists. unfold well_formed. cbn [ce_phase ce_ext ce_pallet ce_variant ce_bytes ce_values ce_topics]. repeat match goal with |- _ /\ _ => split end; try lia; try (vm_compute; reflexivity).
    + exists []. constructor.
    + constructor.
    + cbn. lia.
Qed.
Example C39_example : events_process 6 (reg_env base_reg) ex_evctx (blob 14 ex_chain) "" = Ok
  [ERecord 0 2 "0602" "Balances" "Deposit" [EParam "u8" "who" "" (VInt 7); EParam "u32" "amount" "" (VU32 1)] ["0x1111111111111111111111111111111111111111111111111111111111111111"] "0701000000" 0;
   ERecord 1 0 "0001" "System" "CodeUpdated" [] [] "" 1].
Proof. vm_compute. reflexivity. Qed.

Print Assumptions C39_events.
Print Assumptions C39_unknown.
