(** Property C69, continued: the calls and events of a runtime described by
    metadata V9 to V13; concrete ones; and what the library shows wrongly. *)

From Verif Require Import GoBase SpecNum ModelTools ModelVal ModelRegistry ModelDecode ModelEncode ModelRegister SpecScale ModelScaleInfo ModelMetadata ModelEvents
  ProofsBase ProofsTools ProofsRun ProofsReads ProofsScale ProofsApi PropForms PropCodec ProofsNames ProofsTexts PropScaleInfo
  SpecPortable ProofsPortText ProofsPortReg ProofsPortDecode PropPortable ProofsFrame
  PropMetadata PropEvents ModelMeta SpecMeta SpecMetaOld ProofsMeta ProofsMeta15 ProofsMetaOld PropMeta PropMeta14 PropMeta15 PropMetaOld PropRuntime PropRuntimeEx.

(** A registry with the library's own definitions and its Call and Hash. *)
Definition basic (r : reg) : Prop := meta_registry r /\
  (assoc "call" (r_types r) = Some CCall /\ assoc "call" (r_special r) = None) /\
  (assoc "hash" (r_types r) = Some CH256 /\ assoc "hash" (r_special r) = None) /\
  (assoc "vec<hash>" (r_types r) = None /\ assoc "vec<hash>" (r_special r) = None).
Lemma basic_left v m r : basic r -> basic (left_old v m r).
Proof.
  intros (A & B & C & D). unfold left_old. destruct (v =? 13); [|exact (conj A (conj B (conj C D)))].
  split; [|unfold registerOriginCaller; change (to_lower "OriginCaller") with "origincaller"; unfold regCustomKey; cbn [split_char Ascii.eqb Bool.eqb];
    unfold with_types; cbn [r_types r_special]; rewrite !assoc_upd; cbn [String.eqb Ascii.eqb Bool.eqb]; now split].
  apply (registry_same r); [|exact A]. intros k I. apply origin_same. unfold names15. apply in_or_app. now left.
Qed.
Lemma basic_call r cx : basic r -> resolves (reg_env r) cx "Call" CCall.
Proof.
  intros (_ & [A B] & _). exists CCall, "". split; [|reflexivity]. apply resolve_key.
  - apply name_good, nameb_ok. reflexivity.
  - reflexivity.
  - vm_compute. intuition discriminate.
  - unfold find_key, specialVersionCodec. cbn [reg_env e_special e_reg]. change (to_lower "Call") with "call". now rewrite A, B.
Qed.
Lemma basic_events r cx : basic r -> event_env (reg_env r) cx.
Proof.
  intros (M & _ & [HA HB] & [VA VB]). split; [apply registry_std, M|]. intros n.
  assert (K : forall t cd, plainb t = true -> find_key (reg_env r) (to_lower t) (v_spec cx) = Some cd -> init_sub cd "" = cd -> resolves (reg_env r) (ev_ctx cx n) t cd).
  { intros t cd B FK I. unfold plainb in B. apply andb_true_iff in B. destruct B as [B O]. apply andb_true_iff in B. destruct B as [B C].
    exists cd, "". split; [|now symmetry]. apply resolve_key; [apply name_good, nameb_ok, B|now apply String.eqb_eq| |exact FK].
    intros X. apply negb_true_iff in O. rewrite <- not_true_iff_false in O. apply O. apply existsb_exists. eexists. split; [exact X|apply String.eqb_refl]. }
  assert (FH : find_key (reg_env r) "hash" (v_spec cx) = Some CH256) by (unfold find_key, specialVersionCodec; cbn [reg_env e_special e_reg]; now rewrite HA, HB).
  split; [|split].
  - apply K; [reflexivity| |reflexivity]. apply (registry_env _ _ M). vm_compute; tauto.
  - exists (CVec ""), "Hash". split; [|reflexivity]. change "Vec<Hash>" with ("Vec" ++ "<" ++ "Hash" ++ ">"). apply resolve_generic.
    + vm_compute; tauto.
    + apply name_good, nameb_ok. reflexivity.
    + reflexivity.
    + unfold find_key, specialVersionCodec. cbn [reg_env e_special e_reg ev_ctx x_spec]. change (to_lower ("Vec" ++ "<" ++ "Hash" ++ ">")) with "vec<hash>". now rewrite VA, VB.
    + apply (registry_env _ _ M). vm_compute; tauto.
  - apply K; [reflexivity|exact FH|reflexivity].
Qed.

Section RuntimeOld.
Variables (r : reg) (v : Z) (m : wold).
Hypothesis reg_basic : basic r.
Hypothesis version : 9 <= v <= 13.
Hypothesis meta : old_ok v m.
Hypothesis indices : has_index v = true -> NoDup (map om_index (wl_modules m)).
Notation ms := (wl_modules m).
Notation bytes_of h tl := (h ++ magic ++ [Zb v] ++ old_enc v m ++ tl)%list.

(** The bytes of a call: the number of the module, that of the call, and the
    arguments at the types the metadata names. *)
Theorem C69_call h tl0 : lead h -> blen (bytes_of h tl0) < 2 ^ 63 ->
  exists d r', (exists f0, forall f, (f0 <= f)%nat -> ProcessMetadata f r (bytes_of h tl0) = Ok (Some (v, d), r')) /\
  forall i j w k spec module pre bs gs cs tl, 0 <= i < 256 -> 0 <= j < 256 -> oat v om_calls ms i j = Some (w, k) ->
  blen (pre ++ (Zb i :: Zb j :: bs) ++ tl) < 2 ^ 63 ->
  let md := Some (codec_calls (md_calls d)) in
  scales false (reg_env r') (Ctx spec (text_of (om_name w)) md) (map (fun a => type_text (snd a)) (oc_args k)) bs gs cs ->
  Decodes (reg_env r') (Ctx spec module md) (pre ++ (Zb i :: Zb j :: bs) ++ tl) (blen pre) "Call"
    (Ok (VMap [("call_index", VStr (on_chain i j)); ("call_name", VStr (text_of (oc_name k))); ("call_module", VStr (text_of (om_name w)));
               ("params", VParams (map (fun p => (text_of (fst (fst p)), type_text (snd (fst p)), snd p)) (combine (oc_args k) gs)))],
         blen pre + 2 + blen bs, (cs ++ [hex_encode (Zb i :: Zb j :: bs)])%list)).
Proof.
  intros H L. destruct (metadata_reads r h v m tl0 (proj1 reg_basic) H version meta indices L) as (f0 & calls & events & TC & TE & P).
  eexists _, _. split; [exists f0; exact P|]. cbn [md_calls read_old]. intros i j w k spec module pre bs gs cs tl Hi Hj W LD SC.
  pose proof (TC i j Hi Hj) as X. rewrite W in X. unfold shown_ocall in X. pose proof (basic_left v m r reg_basic) as BL.
  pose proof (table_call (reg_env (left_old v m r)) spec "Call" i j _ _ _ _ bs pre tl (combine (map fst (map (fun a => (text_of (fst a), type_text (snd a))) (oc_args k))) gs) cs calls X module) as TB. cbv zeta in TB.
  rewrite map_map in TB. cbn [a_name a_type] in TB.
  assert (GL : List.length gs = List.length (oc_args k)) by (rewrite (scales_length _ _ _ _ _ _ _ SC), map_length; reflexivity).
  assert (PS : PropMetadata.params_of (map (fun a => (text_of (fst a), type_text (snd a))) (oc_args k)) (combine (map fst (map (fun a => (text_of (fst a), type_text (snd a))) (oc_args k))) gs) =
    map (fun p => (text_of (fst (fst p)), type_text (snd (fst p)), snd p)) (combine (oc_args k) gs)).
  { clear - GL. revert gs GL. unfold PropMetadata.params_of. induction (oc_args k) as [|a l IH]; intros [|g gs] GL; try discriminate GL; [reflexivity|]. cbn [map combine fst snd]. f_equal. apply IH. now injection GL. }
  rewrite PS in TB. apply TB.
  - now apply basic_call.
  - exact LD.
  - assert (A : (pre ++ (Zb i :: Zb j :: bs) ++ tl = (pre ++ [Zb i; Zb j]) ++ bs ++ tl)%list) by (now rewrite <- !app_assoc).
    replace (blen pre + 2) with (blen (pre ++ [Zb i; Zb j])) by (rewrite blen_app; reflexivity). eapply fields_scale; [|rewrite map_map; cbn [snd]; exact SC|exact A|exact LD].
    apply registry_std, BL.
Qed.

(** An event on the chain, and how it is shown. *)
Definition oevent_formed (E : env) (cx : evctx) (c : chain_event) : Prop :=
  0 <= ce_phase c < 256 /\ 0 <= ce_ext c < 2 ^ 32 /\ 0 <= ce_pallet c < 256 /\ 0 <= ce_variant c < 256 /\
  Forall (fun t => List.length t = 32%nat) (ce_topics c) /\ Z.of_nat (List.length (ce_topics c)) <= 512 * 1024 /\
  exists w e cs, oat v om_events ms (ce_pallet c) (ce_variant c) = Some (w, e) /\
  scales false E (ev_ctx cx (text_of (om_name w))) (map text_of (oe_args e)) (ce_bytes c) (ce_values c) cs.
Definition oevent_shown (i : Z) (c : chain_event) (x : erecord) : Prop :=
  exists w e, oat v om_events ms (ce_pallet c) (ce_variant c) = Some (w, e) /\
  x = ERecord (ce_phase c) (if ce_phase c =? 0 then ce_ext c else 0) (on_chain (ce_pallet c) (ce_variant c)) (text_of (om_name w)) (text_of (oe_name e))
        (map (fun q => EParam (text_of (fst q)) "" "" (snd q)) (combine (oe_args e) (ce_values c)))
        (map (fun t => "0x" ++ hex_encode t) (ce_topics c)) (hex_encode (ce_bytes c)) i.
Fixpoint oevents_shown (i : Z) (l : list chain_event) (xs : list erecord) : Prop :=
  match l, xs with [], [] => True | c :: l', x :: xs' => oevent_shown i c x /\ oevents_shown (i + 1) l' xs' | _, _ => False end.

Lemma nameless args : forall gs ps, params_are (map text_of args) (names_of [] (List.length (map text_of args))) (names_of [] (List.length (map text_of args))) gs ps ->
  ps = map (fun q => EParam (text_of (fst q)) "" "" (snd q)) (combine args gs).
Proof.
  assert (N : forall (n : nat), names_of [] n = repeat "" n) by (intros [|n]; reflexivity).
  induction args as [|a args IH]; intros [|g gs] [|p ps] H; rewrite !N in *; cbn [map List.length repeat params_are] in H; try contradiction; [reflexivity|]. destruct H as [-> H]. cbn [combine map fst snd]. f_equal. apply IH. exact H.
Qed.
Theorem C69_events h tl0 : lead h -> blen (bytes_of h tl0) < 2 ^ 63 ->
  exists d r', (exists f0, forall f, (f0 <= f)%nat -> ProcessMetadata f r (bytes_of h tl0) = Ok (Some (v, d), r')) /\
  forall spec module l tl, let cx := EvCtx spec v (md_events d) (codec_calls (md_calls d)) in
  Forall (oevent_formed (reg_env r') cx) l -> blen (blob v l ++ tl) < 2 ^ 63 ->
  exists f0, forall f, (f0 <= f)%nat -> exists xs, events_process f (reg_env r') cx (blob v l ++ tl) module = Ok xs /\ oevents_shown 0 l xs.
Proof.
  intros H L. destruct (metadata_reads r h v m tl0 (proj1 reg_basic) H version meta indices L) as (f0 & calls & events & TC & TE & P).
  eexists _, _. split; [exists f0; exact P|]. cbn [md_calls md_events read_old]. intros spec module l tl F LD. set (cx := EvCtx spec v events (codec_calls calls)) in *. pose proof (basic_left v m r reg_basic) as BL.
  assert (WF : Forall (fun c => exists en, well_formed (reg_env (left_old v m r)) cx c en) l).
  { eapply Forall_impl; [|exact F]. intros c (A1 & A2 & A3 & A4 & A5 & A6 & w & e & cs & W & SC). exists (Entry (text_of (om_name w)) (shown_oevent e)). unfold well_formed. cbn [en_module en_item shown_oevent w_args].
    repeat (split; [assumption|]). split; [|split; [now exists cs|now split]]. cbn [v_events cx]. rewrite (TE _ _ A3 A4), W. reflexivity. }
  destruct (C39_events (reg_env (left_old v m r)) cx (basic_events _ _ BL) l module tl WF LD) as [f2 X]. exists f2. intros f HF. destruct (X f HF) as (es & X1 & _ & X2). exists es. split; [exact X1|].
  clear X X1 HF f f2 LD WF P. revert X2. generalize 0. revert es F. induction l as [|c l IH]; intros es F i X2; inversion X2; subst; [exact I|]. inversion F; subst. cbn [oevents_shown]. split; [|now apply IH].
  match goal with Y : oevent_formed _ _ c |- _ => destruct Y as (A1 & A2 & A3 & A4 & A5 & A6 & w & e & cs & W & SC) end. exists w, e. split; [exact W|].
  match goal with Y : assoc _ _ = Some en |- _ => cbn [v_events cx] in Y; rewrite (TE _ _ A3 A4), W in Y; injection Y as <- end.
  match goal with Y : returned _ _ _ _ ?e |- _ => destruct Y as (E1 & E2 & E3 & E4 & E5 & E6 & E7 & E8 & E9); destruct e as [z1 z2 z3 z4 z5 z6 z7 z8 z9] end.
  cbn [v_version cx] in E9. replace (5 <=? v) with true in E9 by (clear - version; lia).
  cbn [er_idx er_phase er_extrinsic er_type er_module er_event er_params er_raw er_topic en_module en_item shown_oevent w_name w_args w_argnames w_tynames] in *.
  apply nameless in E7. now subst.
Qed.
End RuntimeOld.

(** ** A runtime *)
Definition mo_coin : wmodule := WModule (txt "Coin")
  (Some (txt "Coin", [OEntry (txt "Account") true (OMap 1 (txt "T::AccountId") (txt "u64") false) (map Zb [0]) [txt "Who has what."];
                      OEntry (txt "Total") false (OPlain (txt "Vec<u8>")) [] []; OEntry (txt "Notes") true (ODouble 0 (txt "u32") (txt "Hash") (txt "(u8, u32)") 1) [] []]))
  (Some [OCall (txt "transfer") [(txt "dest", txt "Hash"); (txt "value", txt "Compact<u32>")] [txt "Move funds."]; OCall (txt "note") [] []])
  (Some [OEvent (txt "Transfer") [txt "Hash"; txt "u32"] []]) [OConst (txt "Least") (txt "u32") (map Zb [1; 0; 0; 0]) []] [OError (txt "Poor") [txt "Not enough."]] 5.
Definition mo_idle : wmodule := WModule (txt "Idle") None None None [] [] 9.
Definition mo_log : wmodule := WModule (txt "Log") None None (Some [OEvent (txt "Wrote") [] []; OEvent (txt "Lost") [txt "u8"] []]) [] [] 2.
Definition mo : wold := WOld [mo_idle; mo_log; mo_coin] 4 [].
Ltac osized := repeat match goal with
  | |- module_ok _ _ => unfold module_ok
  | |- oentry_ok _ _ => unfold oentry_ok
  | |- oconst_ok _ => unfold oconst_ok
  | |- oerror_ok _ => unfold oerror_ok
  | |- ocall_ok _ => unfold ocall_ok
  | |- oevent_ok _ => unfold oevent_ok
  | |- oarg_ok _ => unfold oarg_ok
  | |- ohasher_ok _ _ => unfold ohasher_ok
  | |- _ => progress cbn [om_name om_storage om_calls om_events om_constants om_errors om_index on_name on_type on_fallback on_docs ostore_ok ok_name ok_type ok_value ok_docs ox_name ox_docs oc_name oc_args oc_docs oe_name oe_args oe_docs]
  | |- _ => progress sized
  end.
Lemma hashers_two v : 2 <= Z.of_nat (List.length (hashers_of v)).
Proof. unfold hashers_of. destruct (v <=? 9); [|destruct (v =? 10)]; cbn [List.length]; lia. Qed.
Lemma mo_ok v : old_ok v mo.
Proof. pose proof (hashers_two v). unfold old_ok, mo, mo_idle, mo_log, mo_coin. cbn [wl_modules wl_version wl_extensions]. osized. Qed.
Lemma mo_indices : NoDup (map om_index (wl_modules mo)).
Proof. cbn. nodup_z. Qed.
Lemma mo_basic : basic mx_reg.
Proof. split; [exact mx_registry|]. repeat split. Qed.
Lemma mo_hashers v : Forall (hashers_known v) (wl_modules mo).
Proof. unfold mo. cbn [wl_modules]. repeat constructor; right; cbn; repeat constructor; cbn; lia. Qed.
Definition mo_bytes (v : Z) : bytes := (magic ++ [Zb v] ++ old_enc v mo ++ [])%list.
Lemma old_app v m : old_enc v m = (list_enc (module_enc v) (wl_modules m) ++ if 11 <=? v then ext_enc m else [])%list.
Proof. reflexivity. Qed.
Lemma mo_size v : 9 <= v <= 13 -> blen (mo_bytes v) < 2 ^ 63.
Proof. intros V. assert (D : v = 9 \/ v = 10 \/ v = 11 \/ v = 12 \/ v = 13) by lia. decompose [or] D; subst v; vm_compute; reflexivity. Qed.
(** All versions show this runtime as described. *)
Example C69_example v : 9 <= v <= 13 -> exists f0 calls events, is_otable v shown_ocall om_calls (wl_modules mo) calls /\ is_otable v shown_oevent om_events (wl_modules mo) events /\
  forall f, (f0 <= f)%nat -> ProcessMetadata f mx_reg (mo_bytes v) = Ok (Some (v, shown_old v mo calls events), left_old v mo mx_reg).
Proof.
  intros V. apply (C69_metadata_partial mx_reg [] v mo []); [exact mx_registry|constructor|exact V|apply mo_ok|intros _; exact mo_indices|exact (mo_size v V)|apply mo_hashers|reflexivity].
Qed.
Example C69_read_v9 : match ProcessMetadata 60 mx_reg (mo_bytes 9) with
  | Ok (Some (v, d), _) => v = 9 /\ map m_name (md_modules d) = ["Idle"; "Log"; "Coin"] /\
      map fst (md_calls d) = ["0001"; "0000"] /\ map fst (md_events d) = ["0100"; "0001"; "0000"] /\
      option_map (fun e => (en_module e, w_name (en_item e), w_args (en_item e))) (assoc "0100" (md_events d)) = Some ("Coin", "Transfer", ["Hash"; "u32"])
  | _ => False end.
Proof. vm_compute. repeat split. Qed.
Example C69_read_v13 : match ProcessMetadata 60 mx_reg (mo_bytes 13) with
  | Ok (Some (v, d), _) => v = 13 /\ map fst (md_calls d) = ["0501"; "0500"] /\ map fst (md_events d) = ["0500"; "0201"; "0200"] /\
      option_map (fun m => map snd (m_storage m)) (nth_error (md_modules d) 2) =
      Some [SMap ["Blake2_256"] ["AccountId"] "u64"; SPlain "Bytes"; SMap ["Blake2_128"; "Blake2_256"] ["u32"; "Hash"] "(u8, u32)"]
  | _ => False end.
Proof. vm_compute. repeat split. Qed.
(** A call and events of it, on the wire of V9 and of V13. *)
Definition mo_hash : bytes := repeat (Zb 7) 32.
Example C69_call_hyps md : oat 9 om_calls (wl_modules mo) 0 0 = Some (mo_coin, OCall (txt "transfer") [(txt "dest", txt "Hash"); (txt "value", txt "Compact<u32>")] [txt "Move funds."]) /\
  scales false (reg_env mx_reg) (Ctx 100 "Coin" md) (map type_text [txt "Hash"; txt "Compact<u32>"]) (mo_hash ++ compact 5000) [VStr ("0x" ++ hex_encode mo_hash); VInt 5000] [].
Proof.
  split; [reflexivity|]. change (map type_text [txt "Hash"; txt "Compact<u32>"]) with ["Hash"; "Compact<u32>"].
  replace (mo_hash ++ compact 5000)%list with (mo_hash ++ compact 5000 ++ [])%list by (now rewrite app_nil_r). change (@nil string) with ([] ++ [] ++ [] : list string)%list.
  constructor; [|constructor; [|constructor]].
  - econstructor; [|discriminate|now constructor]. exists CH256, "". now split.
  - econstructor; [|discriminate|apply sc_compact_u32; [lia|discriminate]]. exists CCompactU32, "". split; vm_compute; reflexivity.
Qed.
Example C69_call_read : match ProcessMetadata 60 mx_reg (mo_bytes 9) with
  | Ok (Some (_, d), r') => decode 40 (reg_env r') (Ctx 100 "" (Some (codec_calls (md_calls d)))) (Zb 0 :: Zb 0 :: mo_hash ++ compact 5000) 0 "Call" =
      Ok (VMap [("call_index", VStr "0000"); ("call_name", VStr "transfer"); ("call_module", VStr "Coin");
                  ("params", VParams [("dest", "Hash", VStr ("0x" ++ hex_encode mo_hash)); ("value", "Compact<u32>", VInt 5000)])], 36, [hex_encode (Zb 0 :: Zb 0 :: mo_hash ++ compact 5000)])
  | _ => False end.
Proof. vm_compute. reflexivity. Qed.
Definition mo_events : list chain_event := [ChainEvent 0 2 5 0 (mo_hash ++ le_bytes 4 9)%list [VStr ("0x" ++ hex_encode mo_hash); VU32 9] [mo_hash]; ChainEvent 1 0 2 0 [] [] []].
Example C69_events_hyps t c : Forall (oevent_formed 13 mo (reg_env mx_reg) (EvCtx 100 13 t c)) mo_events.
Proof.
  unfold mo_events. constructor; [|constructor; [|constructor]]; unfold oevent_formed; cbn [ce_phase ce_ext ce_pallet ce_variant ce_bytes ce_values ce_topics List.length].
  - split; [lia|]. split; [lia|]. split; [lia|]. split; [lia|]. split; [now repeat constructor|]. split; [lia|].
    exists mo_coin, (OEvent (txt "Transfer") [txt "Hash"; txt "u32"] []), ([] ++ [] ++ [])%list. split; [reflexivity|]. cbn [oe_args]. change (map text_of [txt "Hash"; txt "u32"]) with ["Hash"; "u32"].
    replace (mo_hash ++ le_bytes 4 9)%list with (mo_hash ++ le_bytes 4 9 ++ [])%list by (now rewrite app_nil_r).
    constructor; [|constructor; [|constructor]]; (econstructor; [|discriminate|]).
    + exists CH256, "". split; vm_compute; reflexivity.
    + now constructor.
    + exists CU32, "". split; vm_compute; reflexivity.
    + constructor. lia.
  - split; [lia|]. split; [lia|]. split; [lia|]. split; [lia|]. split; [constructor|]. split; [lia|].
    exists mo_log, (OEvent (txt "Wrote") [] []), []. split; [reflexivity|]. constructor.
Qed.
Example C69_events_read : match ProcessMetadata 60 mx_reg (mo_bytes 13) with
  | Ok (Some (_, d), r') => events_process 40 (reg_env r') (EvCtx 100 13 (md_events d) (codec_calls (md_calls d))) (blob 13 mo_events) "" = Ok
      [ERecord 0 2 "0500" "Coin" "Transfer" [EParam "Hash" "" "" (VStr ("0x" ++ hex_encode mo_hash)); EParam "u32" "" "" (VU32 9)] ["0x" ++ hex_encode mo_hash] (hex_encode (mo_hash ++ le_bytes 4 9)) 0;
       ERecord 1 0 "0200" "Log" "Wrote" [] [] "" 1]
  | _ => False end.
Proof. vm_compute. reflexivity. Qed.

(** ** What is shown wrongly *)
(** V9 numbers the hashers differently: an entry hashed with Twox128 is shown
    as hashed with Blake2_128Concat. *)
Definition mo_twox : wold := WOld [WModule (txt "Coin") (Some (txt "Coin", [OEntry (txt "Account") true (OMap 2 (txt "u32") (txt "u64") false) [] []])) None None [] [] 0] 4 [].
Theorem C69_v9_refuted : exists m, meta_registry mx_reg /\ old_ok 9 m /\ exists d r', ProcessMetadata 60 mx_reg (magic ++ [Zb 9] ++ old_enc 9 m) = Ok (Some (9, d), r') /\
  map (fun m => map snd (m_storage m)) (map (shown_omodule 9) (wl_modules m)) = [[SMap ["Twox128"] ["u32"] "u64"]] /\
  map (fun m => map snd (m_storage m)) (md_modules d) = [[SMap ["Blake2_128Concat"] ["u32"] "u64"]].
Proof.
  exists mo_twox. split; [exact mx_registry|]. split; [|eexists _, _; split; [vm_compute; reflexivity|split; reflexivity]].
  unfold old_ok, mo_twox. cbn [wl_modules wl_version wl_extensions]. osized; cbn; lia.
Qed.
(** The signed extensions that V11 metadata announces are not shown. *)
Definition mo_ext : wold := WOld [mo_idle] 4 [txt "CheckNonce"].
Theorem C69_v11_refuted : exists m, meta_registry mx_reg /\ old_ok 11 m /\ exists d r', ProcessMetadata 60 mx_reg (magic ++ [Zb 11] ++ old_enc 11 m) = Ok (Some (11, d), r') /\
  map text_of (wl_extensions m) = ["CheckNonce"] /\ md_identifiers d = [].
Proof.
  exists mo_ext. split; [exact mx_registry|]. split; [|eexists _, _; split; [vm_compute; reflexivity|split; reflexivity]].
  unfold old_ok, mo_ext, mo_idle. cbn [wl_modules wl_version wl_extensions]. osized.
Qed.

Print Assumptions C69_metadata_partial.
Print Assumptions C69_call.
Print Assumptions C69_events.
Print Assumptions C69_v9_refuted.
Print Assumptions C69_v11_refuted.
