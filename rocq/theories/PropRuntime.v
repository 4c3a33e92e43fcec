(** Property C67: from the bytes of metadata V14 to the calls and events of
    that runtime. *)

From Verif Require Import GoBase SpecNum ModelTools ModelVal ModelRegistry ModelDecode ModelEncode ModelRegister SpecScale ModelScaleInfo ModelMetadata ModelEvents
  ProofsBase ProofsTools ProofsRun ProofsReads ProofsScale ProofsApi PropForms PropCodec ProofsNames ProofsTexts PropScaleInfo
  SpecPortable ProofsPortText ProofsPortReg ProofsPortDecode PropPortable ProofsFrame
  PropMetadata PropEvents ModelMeta SpecMeta ProofsMeta PropMeta PropMeta14.

(** What a runtime's metadata [m] has to satisfy for a registry [r]: it can be
    registered, its pallets refer to enums of it, and its types are regular
    (SpecPortable.v) as far as the claim is about them ([Rg]). *)
Definition port_of (m : wmeta14) : portable := SpecMeta.declared (wm_types m).
Definition sictx_of (m : wmeta14) (f : nat) : sictx := SiCtx "" true 0 (port_of m) f.
Record runtime (r : reg) (m : wmeta14) (Rg : Z -> Prop) (D : list (string * Z)) (f1 : nat) (s : sistate) : Prop := {
  rt_reg : meta_registry r;
  rt_meta : meta14_ok m;
  rt_done : ProcessSiType f1 (sictx_of m f1) r = Ok s;
  rt_paths : plain_paths (port_of m);
  rt_free : forall k, In k ("call" :: "hash" :: "vec<hash>" :: meta_names) -> free_name (port_of m) k;
  rt_pallets : Forall (pallet_described (wm_types m) (si_name (g_names s))) (wm_pallets m);
  rt_indices : distinct_indices (wm_types m) (wm_pallets m);
  rt_call : assoc "call" (r_types r) = Some CCall /\ assoc "call" (r_special r) = None;
  rt_hash : assoc "hash" (r_types r) = Some CH256 /\ assoc "hash" (r_special r) = None;
  rt_hashes : assoc "vec<hash>" (r_types r) = None /\ assoc "vec<hash>" (r_special r) = None;
  rt_counted : counted (sictx_of m f1) D;
  rt_names : well_named (sictx_of m f1) D Rg;
  rt_regular : forall id, Rg id -> regular (sictx_of m f1) D Rg id;
  rt_standard : standard (sictx_of m f1) D r;
  rt_origin : unrelated (sictx_of m f1) D Rg "origincaller" }.

Lemma fields_scale E cx data pre tl : forall (fs : list (string * string)) bs gs cs, std_env E -> scales false E cx (map snd fs) bs gs cs ->
  data = (pre ++ bs ++ tl)%list -> blen data < 2 ^ 63 -> fields_at E cx data (blen pre) fs (combine (map fst fs) gs) (blen pre + blen bs) cs.
Proof.
  intros fs. revert pre data. induction fs as [|[n t] fs IH]; intros pre data bs gs cs SE H DT L; cbn [map fst snd] in *; inversion H; subst.
  - cbn [combine]. change (blen []) with 0. rewrite Z.add_0_r. constructor.
  - cbn [combine]. rewrite <- app_assoc in L |- *.
    match goal with X : scale _ _ _ t ?b ?g ?c, Y : scales _ _ _ (map snd fs) ?b2 ?g2 ?c2 |- _ =>
      apply (fa_cons E cx _ (blen pre) n t fs g (blen pre + blen b) c (combine (map fst fs) g2) _ c2);
      [apply (C15_decode E cx t b g c pre (b2 ++ tl)%list SE X L)
      |replace (blen pre + blen b) with (blen (pre ++ b)%list) by (rewrite blen_app; lia); replace (blen pre + blen (b ++ b2)) with (blen (pre ++ b)%list + blen b2) by (rewrite !blen_app; lia);
       apply IH; [exact SE|exact Y|now rewrite <- app_assoc|exact L]] end.
Qed.

(** A call found in the table decodes as the table says. *)
Lemma table_call E spec ts i j n nm args ix b pre tl m cs t : assoc (on_chain i j) t = Some (Entry n (MCall nm args ix)) ->
  let md := Some (codec_calls t) in let cols := map (fun a => (a_name a, a_type a)) args in
  let data := (pre ++ (Zb i :: Zb j :: b) ++ tl)%list in
  forall module, resolves E (Ctx spec module md) ts CCall -> blen data < 2 ^ 63 ->
  fields_at E (Ctx spec n md) data (blen pre + 2) cols m (blen pre + 2 + blen b) cs ->
  Decodes E (Ctx spec module md) data (blen pre) ts
    (Ok (VMap [("call_index", VStr (on_chain i j)); ("call_name", VStr nm); ("call_module", VStr n); ("params", VParams (PropMetadata.params_of cols m))],
         blen pre + 2 + blen b, (cs ++ [hex_encode (Zb i :: Zb j :: b)])%list)).
Proof.
  intros X md cols data module R L FA.
  destruct (params_run _ _ _ _ _ _ _ _ FA) as [f P]. eapply (Decodes_run E _ ts CCall f); [exact R| |discriminate].
  cbn [process]. unfold process_call. cbn [run].
  assert (N : next_bytes data (blen pre) (i64 2) = Ok ([Zb i; Zb j], blen pre + 2)).
  { unfold data. change ((Zb i :: Zb j :: b) ++ tl)%list with ([Zb i; Zb j] ++ (b ++ tl))%list. now apply PropMeta.next_at. }
  rewrite N. cbn [bind x_meta x_spec]. unfold md at 1. cbn [x_meta]. rewrite BytesToHex_eq. fold (on_chain i j).
  rewrite codec_assoc, X. cbn [option_map to_callmod en_module en_item k_name k_args cm_module cm_name cm_args]. fold cols.
  fold md. rewrite P by lia. cbn [run rev app].
  assert (SL : slice data (blen pre) (blen pre + 2 + blen b) = Ok (Zb i :: Zb j :: b)).
  { unfold data. replace (blen pre + 2 + blen b) with (blen pre + blen (Zb i :: Zb j :: b)) by (unfold blen; cbn [List.length]; lia). apply slice_middle. }
  rewrite SL. cbn [bind]. reflexivity.
Qed.

Section Runtime.
Variables (r : reg) (m : wmeta14) (Rg : Z -> Prop) (D : list (string * Z)) (f1 : nat) (s : sistate).
Hypothesis rt : runtime r m Rg D f1 s.
Notation types := (wm_types m).
Notation pallets := (wm_pallets m).
Notation port := (port_of m).
Notation name := (si_name (g_names s)).
Definition left_registry : reg := registerOriginCaller (map (fun p => (text_of (wp_name p), wp_index p)) pallets) (g_reg s).

Lemma left_types : exists cd, left_registry = with_types (upd "origincaller" cd) (g_reg s).
Proof. eexists. unfold left_registry, registerOriginCaller. change (to_lower "OriginCaller") with "origincaller". unfold regCustomKey. cbn [split_char Ascii.eqb Bool.eqb]. reflexivity. Qed.
(** Values of regular types on the wire are values at the registered names. *)
Lemma one_scales cx id x bs : Rg id -> enc port id x bs -> exists g, shows port id x g /\ std_env (reg_env left_registry) /\ scale false (reg_env left_registry) cx (name id) bs g [].
Proof.
  intros R HE. destruct left_types as [cd LT]. destruct rt.
  destruct (C61_later_registration (sictx_of m f1) D Rg rt_counted0 rt_names0 rt_regular0 r f1 s rt_standard0 rt_done0 (reg_env left_registry) cx id x bs "origincaller" cd) as (t & g & H1 & H2 & H3 & H4);
    [rewrite LT; now split|exact rt_origin0|exact R|exact HE|].
  exists g. split; [exact H2|]. split; [exact H3|]. unfold si_name. now rewrite H1.
Qed.
Lemma all_scale cx : forall ids xs bs, Forall Rg ids -> encs port ids xs bs -> exists gs, shows_all port ids xs gs /\ scales false (reg_env left_registry) cx (map name ids) bs gs [].
Proof.
  intros ids. induction ids as [|id ids IH]; intros xs bs F H; inversion H; subst.
  - exists []. split; constructor.
  - inversion F; subst. match goal with X : enc port id _ _, Y : encs port ids _ _ |- _ => destruct (one_scales cx id _ _ ltac:(assumption) X) as (g & S1 & _ & S2); destruct (IH _ _ ltac:(assumption) Y) as (gs & S3 & S4) end.
    exists (g :: gs). split; [now constructor|]. cbn [map]. change (@nil string) with ([] ++ [] : list string)%list. now constructor.
Qed.
Lemma left_other k : free_keyb k = true -> String.eqb k "origincaller" = false -> In k ["call"; "hash"; "vec<hash>"] -> forall o, assoc k (r_types r) = o /\ assoc k (r_special r) = None ->
  assoc k (r_types left_registry) = o /\ assoc k (r_special left_registry) = None.
Proof.
  intros FK NO I o [A B]. destruct left_types as [cd ->]. cbn [with_types r_types r_special]. rewrite assoc_upd, NO.
  destruct (portable_frame f1 (sictx_of m f1) r s k (rt_done _ _ _ _ _ _ rt) eq_refl (rt_paths _ _ _ _ _ _ rt)) as [X Y].
  - now apply free_keyb_ok.
  - apply (rt_free _ _ _ _ _ _ rt). cbn [In] in I |- *. tauto.
  - now rewrite X, Y, A, B.
Qed.
Lemma left_call : assoc "call" (r_types left_registry) = Some CCall /\ assoc "call" (r_special left_registry) = None.
Proof. apply left_other; [reflexivity..|cbn; tauto|apply (rt_call _ _ _ _ _ _ rt)]. Qed.
Lemma left_hash : assoc "hash" (r_types left_registry) = Some CH256 /\ assoc "hash" (r_special left_registry) = None.
Proof. apply left_other; [reflexivity..|cbn; tauto|apply (rt_hash _ _ _ _ _ _ rt)]. Qed.
Lemma left_hashes : assoc "vec<hash>" (r_types left_registry) = None /\ assoc "vec<hash>" (r_special left_registry) = None.
Proof. apply left_other; [reflexivity..|cbn; tauto|apply (rt_hashes _ _ _ _ _ _ rt)]. Qed.
Lemma left_meta : meta_registry left_registry.
Proof.
  destruct left_types as [cd LT]. rewrite LT. apply (registry_same (g_reg s)).
  - intros k I. split; [|reflexivity]. cbn [with_types r_types]. rewrite assoc_upd. destruct (String.eqb_spec k "origincaller") as [->|]; [|reflexivity]. exfalso. revert I. vm_compute. intuition discriminate.
  - destruct rt. eapply registry_kept; [exact rt_reg0|exact rt_done0|reflexivity|exact rt_paths0|]. intros k I. apply rt_free0. right. right. now right.
Qed.
Lemma call_resolves cx : resolves (reg_env left_registry) cx "Call" CCall.
Proof.
  exists CCall, "". split; [|reflexivity]. apply resolve_key.
  - apply name_good, nameb_ok. reflexivity.
  - reflexivity.
  - vm_compute. intuition discriminate.
  - destruct left_call as [A B]. unfold find_key, specialVersionCodec. cbn [reg_env e_special e_reg]. change (to_lower "Call") with "call". now rewrite A, B.
Qed.
Lemma wat_index of i j p v : wat types of pallets i j = Some (p, v) -> 0 <= i < 256 /\ 0 <= j < 256.
Proof.
  unfold wat. destruct (find (fun p => wp_index p =? i) pallets) as [q|] eqn:Q; [|discriminate]. destruct (find (fun v => wv_index v =? j) (wvariants types (of q))) as [w|] eqn:W; [|discriminate]. intros [= -> ->].
  apply find_some in Q, W. destruct Q as [IQ Q], W as [IW W]. destruct (rt_meta _ _ _ _ _ _ rt) as (KR & [_ KP] & _). rewrite Forall_forall in KP. destruct (KP _ IQ) as (_ & _ & _ & _ & _ & _ & B).
  pose proof (variants_sized types (of p) KR) as V. rewrite Forall_forall in V. pose proof (V _ IW). lia.
Qed.

(** The metadata is read; afterwards a call of the runtime is shown with the
    names of its pallet, of itself and of its arguments, and with the values of
    its arguments. *)
Definition shown_params (fs : list wfield) (gs : list val) : list (string * string * val) :=
  map (fun p => (opt_text (wf_name (fst p)), name (wf_type (fst p)), snd p)) (combine fs gs).
Lemma params_shown fs : forall gs, List.length gs = List.length fs ->
  PropMetadata.params_of (map (fun f => (opt_text (wf_name f), name (wf_type f))) fs) (combine (map fst (map (fun f => (opt_text (wf_name f), name (wf_type f))) fs)) gs) = shown_params fs gs.
Proof.
  unfold PropMetadata.params_of, shown_params. induction fs as [|f fs IH]; intros [|g gs] L; try discriminate L; [reflexivity|]. cbn [map combine fst snd]. f_equal. apply IH. now injection L.
Qed.
Lemma scales_length b E cx ts bs gs cs : scales b E cx ts bs gs cs -> List.length gs = List.length ts.
Proof. revert bs gs cs. induction ts as [|t ts IH]; intros bs gs cs H; inversion H; subst; [reflexivity|]. cbn [List.length]. f_equal. eapply IH. eassumption. Qed.

Definition decodes_call (calls : table mcall) (p : wpallet) (v : wvariant) (i j : Z) (xs : list pval) (bs : bytes) (spec : Z) (module : string) (pre tl : bytes) : Prop :=
  exists gs, shows_all port (map wf_type (wv_fields v)) xs gs /\
  Decodes (reg_env left_registry) (Ctx spec module (Some (codec_calls calls))) (pre ++ (Zb i :: Zb j :: bs) ++ tl) (blen pre) "Call"
    (Ok (VMap [("call_index", VStr (on_chain i j)); ("call_name", VStr (text_of (wv_name v))); ("call_module", VStr (text_of (wp_name p)));
               ("params", VParams (shown_params (wv_fields v) gs))], blen pre + 2 + blen bs, [hex_encode (Zb i :: Zb j :: bs)])).
Lemma call_decodes calls p v i j xs bs spec module pre tl : is_table (shown_call name) types wp_calls pallets calls ->
  wat types wp_calls pallets i j = Some (p, v) -> Forall Rg (map wf_type (wv_fields v)) -> encs port (map wf_type (wv_fields v)) xs bs ->
  blen (pre ++ (Zb i :: Zb j :: bs) ++ tl) < 2 ^ 63 -> decodes_call calls p v i j xs bs spec module pre tl.
Proof.
  intros TC W F HE LD.
  destruct (wat_index _ _ _ _ _ W) as [Hi Hj]. pose proof (TC i j Hi Hj) as X. rewrite W in X.
  set (cx := Ctx spec (text_of (wp_name p)) (Some (codec_calls calls))). destruct (all_scale cx (map wf_type (wv_fields v)) xs bs F HE) as (gs & SH & SC). exists gs. split; [exact SH|].
  assert (GL : List.length gs = List.length (wv_fields v)) by (rewrite (scales_length _ _ _ _ _ _ _ SC), !map_length; reflexivity).
  set (cols := map (fun f => (opt_text (wf_name f), name (wf_type f))) (wv_fields v)).
  assert (CO : map (fun a => (a_name a, a_type a)) (map (fun f => MArg (opt_text (wf_name f)) (name (wf_type f)) (ConvertType (opt_text (wf_tyname f)))) (wv_fields v)) = cols) by (unfold cols; now rewrite map_map).
  pose proof (table_call (reg_env left_registry) spec "Call" i j _ _ _ _ bs pre tl (combine (map fst cols) gs) [] calls X module) as TB. cbv zeta in TB. rewrite CO in TB.
  assert (PS : PropMetadata.params_of cols (combine (map fst cols) gs) = shown_params (wv_fields v) gs) by (apply params_shown; exact GL).
  rewrite PS in TB. cbn [app] in TB. apply TB.
  - apply call_resolves.
  - exact LD.
  - assert (A : (pre ++ (Zb i :: Zb j :: bs) ++ tl = (pre ++ [Zb i; Zb j]) ++ bs ++ tl)%list) by (now rewrite <- !app_assoc).
    replace (blen pre + 2) with (blen (pre ++ [Zb i; Zb j])) by (rewrite blen_app; reflexivity). fold cx. eapply fields_scale; [|unfold cols; rewrite map_map; cbn [snd]; rewrite map_map in SC; exact SC|exact A|exact LD].
    apply registry_std, left_meta.
Qed.

Theorem C67_call h tl0 p v i j xs bs : lead h -> blen (h ++ magic ++ [Zb 14] ++ meta14_enc m ++ tl0) < 2 ^ 63 ->
  wat types wp_calls pallets i j = Some (p, v) -> Forall Rg (map wf_type (wv_fields v)) -> encs port (map wf_type (wv_fields v)) xs bs ->
  exists d r', (exists f0, forall f, (f0 <= f)%nat -> ProcessMetadata f r (h ++ magic ++ [Zb 14] ++ meta14_enc m ++ tl0) = Ok (Some (14, d), r')) /\
  forall spec module pre tl, blen (pre ++ (Zb i :: Zb j :: bs) ++ tl) < 2 ^ 63 ->
  exists gs, shows_all port (map wf_type (wv_fields v)) xs gs /\
  Decodes (reg_env r') (Ctx spec module (Some (codec_calls (md_calls d)))) (pre ++ (Zb i :: Zb j :: bs) ++ tl) (blen pre) "Call"
    (Ok (VMap [("call_index", VStr (on_chain i j)); ("call_name", VStr (text_of (wv_name v))); ("call_module", VStr (text_of (wp_name p)));
               ("params", VParams (shown_params (wv_fields v) gs))], blen pre + 2 + blen bs, [hex_encode (Zb i :: Zb j :: bs)])).
Proof.
  intros H L W F HE. destruct rt.
  destruct (C65_metadata r h m tl0 f1 s rt_reg0 H rt_meta0 L rt_done0 rt_paths0 (fun k I => rt_free0 k (or_intror (or_intror (or_intror I)))) rt_pallets0 rt_indices0) as (f0 & calls & events & TC & TE & P).
  eexists _, _. split; [exists f0; exact P|]. cbn [md_calls]. fold left_registry. intros spec module pre tl LD.
  now apply call_decodes.
Qed.

(** ** Events *)
(** An event on the chain: its phase, its extrinsic, the index bytes, the
    values with their encoding, its topics. *)
Record wevent := WEvent { wn_phase : Z; wn_ext : Z; wn_pallet : Z; wn_variant : Z; wn_values : list pval; wn_bytes : bytes; wn_topics : list bytes }.
Definition on_wire (w : wevent) (gs : list val) : chain_event := ChainEvent (wn_phase w) (wn_ext w) (wn_pallet w) (wn_variant w) (wn_bytes w) gs (wn_topics w).
Definition wevent_ok (w : wevent) : Prop :=
  0 <= wn_phase w < 256 /\ 0 <= wn_ext w < 2 ^ 32 /\ Forall (fun t => List.length t = 32%nat) (wn_topics w) /\ Z.of_nat (List.length (wn_topics w)) <= 512 * 1024 /\
  exists p v, wat types wp_events pallets (wn_pallet w) (wn_variant w) = Some (p, v) /\ Forall Rg (map wf_type (wv_fields v)) /\ encs port (map wf_type (wv_fields v)) (wn_values w) (wn_bytes w).
Definition wevent_shown (i : Z) (w : wevent) (e : erecord) : Prop :=
  exists p v gs, wat types wp_events pallets (wn_pallet w) (wn_variant w) = Some (p, v) /\ shows_all port (map wf_type (wv_fields v)) (wn_values w) gs /\
  e = ERecord (wn_phase w) (if wn_phase w =? 0 then wn_ext w else 0) (on_chain (wn_pallet w) (wn_variant w)) (text_of (wp_name p)) (text_of (wv_name v))
        (map (fun q => EParam (name (wf_type (fst q))) (opt_text (wf_name (fst q))) (ConvertType (opt_text (wf_tyname (fst q)))) (snd q)) (combine (wv_fields v) gs))
        (map (fun t => "0x" ++ hex_encode t) (wn_topics w)) (hex_encode (wn_bytes w)) i.
Fixpoint wevents_shown (i : Z) (l : list wevent) (es : list erecord) : Prop :=
  match l, es with
  | [], [] => True
  | w :: l', e :: es' => wevent_shown i w e /\ wevents_shown (i + 1) l' es'
  | _, _ => False
  end.
Definition wevents_enc (l : list wevent) : bytes := (len_of l ++ List.concat (map (fun w => event_bytes 14 (on_wire w [])) l))%list.

Lemma left_events cx : event_env (reg_env left_registry) cx.
Proof.
  split; [apply registry_std, left_meta|]. intros n.
  assert (K : forall t cd, plainb t = true -> find_key (reg_env left_registry) (to_lower t) (v_spec cx) = Some cd -> init_sub cd "" = cd -> resolves (reg_env left_registry) (ev_ctx cx n) t cd).
  { intros t cd B FK I. unfold plainb in B. apply andb_true_iff in B. destruct B as [B O]. apply andb_true_iff in B. destruct B as [B C].
    exists cd, "". split; [|now symmetry]. apply resolve_key; [apply name_good, nameb_ok, B|now apply String.eqb_eq| |exact FK].
    intros X. apply negb_true_iff in O. rewrite <- not_true_iff_false in O. apply O. apply existsb_exists. eexists. split; [exact X|apply String.eqb_refl]. }
  assert (FH : find_key (reg_env left_registry) "hash" (v_spec cx) = Some CH256).
  { destruct left_hash as [A B]. unfold find_key, specialVersionCodec. cbn [reg_env e_special e_reg]. now rewrite A, B. }
  split; [|split].
  - apply K; [reflexivity| |reflexivity]. apply (registry_env _ _ left_meta). vm_compute; tauto.
  - exists (CVec ""), "Hash". split; [|reflexivity]. change "Vec<Hash>" with ("Vec" ++ "<" ++ "Hash" ++ ">"). apply resolve_generic.
    + vm_compute; tauto.
    + apply name_good, nameb_ok. reflexivity.
    + reflexivity.
    + destruct left_hashes as [A B]. unfold find_key, specialVersionCodec. cbn [reg_env e_special e_reg ev_ctx x_spec]. change (to_lower ("Vec" ++ "<" ++ "Hash" ++ ">")) with "vec<hash>". now rewrite A, B.
    + apply (registry_env _ _ left_meta). vm_compute; tauto.
  - apply K; [reflexivity|exact FH|reflexivity].
Qed.

Lemma params_exact fs : forall gs ps, params_are (map (fun f => name (wf_type f)) fs) (map (fun f => opt_text (wf_name f)) fs) (map (fun f => ConvertType (opt_text (wf_tyname f))) fs) gs ps ->
  ps = map (fun q => EParam (name (wf_type (fst q))) (opt_text (wf_name (fst q))) (ConvertType (opt_text (wf_tyname (fst q)))) (snd q)) (combine fs gs).
Proof.
  induction fs as [|f fs IH]; intros [|g gs] [|q ps] H; try contradiction; [reflexivity|]. cbn [map params_are] in H. destruct H as [-> H]. cbn [combine map fst snd]. f_equal. now apply IH.
Qed.
Lemma names_all {A} (g : A -> string) (l : list A) n : List.length l = n -> names_of (map g l) n = map g l.
Proof. intros <-. unfold names_of. now rewrite map_length, Nat.eqb_refl. Qed.

Section Table.
Variable cx : evctx.
Hypothesis version : (5 <=? v_version cx) = true.
Hypothesis table : is_table (shown_event name) types wp_events pallets (v_events cx).

Lemma event_found i j p v : wat types wp_events pallets i j = Some (p, v) -> assoc (on_chain i j) (v_events cx) = Some (Entry (text_of (wp_name p)) (shown_event name v)).
Proof. intros W. destruct (wat_index _ _ _ _ _ W) as [I J]. rewrite (table i j I J), W. reflexivity. Qed.

Definition values_of (w : wevent) (gs : list val) : Prop :=
  exists p v, wat types wp_events pallets (wn_pallet w) (wn_variant w) = Some (p, v) /\ shows_all port (map wf_type (wv_fields v)) (wn_values w) gs.
Lemma event_formed w : wevent_ok w -> exists gs, values_of w gs /\ exists en, well_formed (reg_env left_registry) cx (on_wire w gs) en.
Proof.
  intros (A1 & A2 & A3 & A4 & p & v & W & F & HE). destruct (wat_index _ _ _ _ _ W) as [I J].
  destruct (all_scale (ev_ctx cx (text_of (wp_name p))) _ _ _ F HE) as (gs & SH & SC). exists gs. split; [exists p, v; now split|].
  exists (Entry (text_of (wp_name p)) (shown_event name v)). unfold well_formed, on_wire. cbn [ce_phase ce_ext ce_pallet ce_variant ce_bytes ce_values ce_topics en_module en_item].
  split; [exact A1|]. split; [exact A2|]. split; [exact I|]. split; [exact J|]. split; [now apply event_found|]. split; [|now split].
  exists []. rewrite map_map in SC. exact SC.
Qed.
Lemma events_formed l : Forall wevent_ok l -> exists gss, Forall2 values_of l gss /\ Forall (fun c => exists en, well_formed (reg_env left_registry) cx c en) (map (fun p => on_wire (fst p) (snd p)) (combine l gss)).
Proof.
  induction 1 as [|w l H F IH]; [exists []; split; constructor|]. destruct IH as (gss & A & B). destruct (event_formed w H) as (gs & C & K).
  exists (gs :: gss). split; [now constructor|]. cbn [combine map fst snd]. now constructor.
Qed.
Lemma events_shown : forall l gss i rs, Forall2 values_of l gss -> all_returned (reg_env left_registry) cx i (map (fun p => on_wire (fst p) (snd p)) (combine l gss)) rs -> wevents_shown i l rs.
Proof.
  induction l as [|w l IH]; intros gss i rs F H; inversion F; subst; cbn [combine map fst snd] in H; inversion H; subst; [exact I|]. cbn [wevents_shown].
  match goal with X : values_of w _ |- _ => destruct X as (p & v & W & SH) end. split; [|eapply IH; eassumption].
  match goal with X : assoc _ _ = Some en |- _ => cbn [on_wire ce_pallet ce_variant] in X; rewrite (event_found _ _ _ _ W) in X; injection X as <- end.
  exists p, v. match goal with X : shows_all _ _ _ ?g |- _ => exists g end. split; [exact W|]. split; [exact SH|].
  match goal with X : returned _ _ _ _ ?e |- _ => destruct X as (E1 & E2 & E3 & E4 & E5 & E6 & E7 & E8 & E9); destruct e as [z1 z2 z3 z4 z5 z6 z7 z8 z9] end.
  rewrite version in E9. cbn [er_idx er_phase er_extrinsic er_type er_module er_event er_params er_raw er_topic on_wire ce_phase ce_ext ce_pallet ce_variant ce_bytes ce_values ce_topics en_module en_item] in *.
  unfold shown_event in E6, E7. cbn [w_name w_args w_argnames w_tynames] in E6, E7. rewrite !names_all in E7 by (now rewrite map_length). apply params_exact in E7.
  now subst.
Qed.
Lemma blob_wire l gss : Forall2 values_of l gss -> blob (v_version cx) (map (fun p => on_wire (fst p) (snd p)) (combine l gss)) = wevents_enc l.
Proof.
  intros F. unfold blob, wevents_enc. assert (L : List.length (combine l gss) = List.length l) by (rewrite combine_length; induction F; cbn [List.length]; lia). f_equal.
  - unfold len_of. now rewrite map_length, L.
  - f_equal. clear L. induction F as [|w gs l gss _ F IH]; [reflexivity|]. cbn [combine map fst snd]. f_equal; [|exact IH]. unfold event_bytes. rewrite version. reflexivity.
Qed.
Lemma events_decode module l tl : Forall wevent_ok l -> blen (wevents_enc l ++ tl) < 2 ^ 63 ->
  exists f0, forall f, (f0 <= f)%nat -> exists es, events_process f (reg_env left_registry) cx (wevents_enc l ++ tl) module = Ok es /\ wevents_shown 0 l es.
Proof.
  intros F LD. destruct (events_formed l F) as (gss & V & WF).
  pose proof (blob_wire l gss V) as BW. rewrite <- BW in LD |- *.
  destruct (C39_events (reg_env left_registry) cx (left_events cx) _ module tl WF LD) as [f2 X]. exists f2. intros f HF. destruct (X f HF) as (es & X1 & _ & X2). exists es. split; [exact X1|].
  exact (events_shown l gss 0 es V X2).
Qed.
End Table.

(** The metadata is read; afterwards any list of events of the runtime is shown,
    in order, with the names of the pallet, of the event and of its arguments,
    with the values of its arguments, with its phase and its topics. *)
Theorem C67_events h tl0 : lead h -> blen (h ++ magic ++ [Zb 14] ++ meta14_enc m ++ tl0) < 2 ^ 63 ->
  exists d r', (exists f0, forall f, (f0 <= f)%nat -> ProcessMetadata f r (h ++ magic ++ [Zb 14] ++ meta14_enc m ++ tl0) = Ok (Some (14, d), r')) /\
  forall spec module l tl, Forall wevent_ok l -> blen (wevents_enc l ++ tl) < 2 ^ 63 ->
  exists f0, forall f, (f0 <= f)%nat -> exists es,
  events_process f (reg_env r') (EvCtx spec 14 (md_events d) (codec_calls (md_calls d))) (wevents_enc l ++ tl) module = Ok es /\ wevents_shown 0 l es.
Proof.
  intros H L. destruct rt.
  destruct (C65_metadata r h m tl0 f1 s rt_reg0 H rt_meta0 L rt_done0 rt_paths0 (fun k I => rt_free0 k (or_intror (or_intror (or_intror I)))) rt_pallets0 rt_indices0) as (f0 & calls & events & TC & TE & P).
  eexists _, _. split; [exists f0; exact P|]. cbn [md_calls md_events]. fold left_registry. intros spec module l tl F LD.
  exact (events_decode (EvCtx spec 14 events (codec_calls calls)) eq_refl TE module l tl F LD).
Qed.
End Runtime.
