(** C94 for the types and calls that a runtime declares: the values may list the
    fields of their maps in any order. *)

From Verif Require Import GoBase SpecNum ProofsBase ModelTools ProofsTools ModelVal ModelRegistry ModelDecode ModelEncode ModelRegister ModelScaleInfo ModelMetadata
  SpecScale ProofsNames ProofsTexts ProofsEncode ProofsApi PropCodec PropData PropScaleInfo SpecPortable ProofsPortText ProofsPortReg ProofsPortDecode PropPortable
  PropMetadata ModelMeta SpecMeta ProofsMeta PropMeta PropMeta14 PropRuntime PropRuntimeEx PropPortableEncode PropMapOrder.

(** A call, its arguments in another order inside. *)
Theorem C94_arguments E spec md ts i j txt cm ps cs gs gs' extra bs is : std_env E -> resolves E (Ctx spec "" (Some md)) ts CCall ->
  index_text i j txt -> assoc (hex_encode [i; j]) md = Some cm -> given ps cs = (gs' ++ extra)%list ->
  scales true E (Ctx spec "" (Some md)) (map snd (cm_args cm)) bs gs is -> Forall2 shuffled gs gs' ->
  Encodes E spec (Some md) ts (VBox txt ps cs) (BytesToHex (i :: j :: bs)).
Proof.
  intros S R IT A G SC SH. destruct (shuffled_encodes E S) as (_ & _ & D). destruct (D _ _ _ _ _ SC eq_refl gs' SH) as [f H]. cbn [x_spec x_meta] in H.
  assert (K : forall f', (f <= f')%nat -> encode_codec E (encode f' E) spec (Some md) CCall (norm (VBox txt ps cs)) = Ok (hex_encode (i :: j :: bs))).
  { intros f' L. cbn [norm encode_codec encode_call].
    assert (TX : TrimHex txt = hex_encode [i; j]) by (destruct IT; [apply TrimHex_hex|apply TrimHex_0x]). rewrite TX, A.
    change (match cs with [] => ps | _ => cs end) with (given ps cs).
    change (fun (t : string) (x : val) => encode f' E spec (Some md) t x) with (encode f' E spec (Some md)). rewrite G.
    rewrite (seqenc_args _ (cm_args cm) bs gs' extra (H f' L)). cbn [bind]. now rewrite <- hex_encode_app. }
  pose proof (EncodesTo_fuel E spec (Some md) ts CCall _ f _ S R ltac:(discriminate) K ltac:(discriminate)) as P.
  cbn [bind] in P. now rewrite trim_lower_hex in P.
Qed.

(** ** Declared types *)
Section Types.
Variables (c : sictx) (D : list (string * Z)) (Rg : Z -> Prop).
Notation port := (i_port c).
Hypothesis counts : counted c D.
Hypothesis names : well_named c D Rg.
Hypothesis declarations : forall id, Rg id -> regular c D Rg id.
Variables (r : reg) (fuel : nat) (s : sistate).
Hypothesis before : standard c D r.
Hypothesis registered : ProcessSiType fuel c r = Ok s.
Theorem C94_declared E spec md id x bs : uses E (g_reg s) -> Rg id -> enc port id x bs -> writable port id x -> blen bs < 2 ^ 63 ->
  exists t g, assocz id (g_names s) = Some t /\ shows port id x g /\ Decodes E (Ctx spec "" md) bs 0 t (Ok (g, blen bs, [])) /\ forall g', shuffled g g' -> Encodes E spec md t g' (hex_encode bs).
Proof.
  intros U R HE WR L. destruct (process_ok c D Rg declarations names fuel r s before counts registered) as ((T & INV) & ALL).
  destruct (scales_by_inv_st c D Rg names declarations true T _ _ E (Ctx spec "" md) id x bs INV U ALL (fun _ => WR) R HE) as (t & g & H1 & H2 & H3 & H4).
  exists t, g. split; [exact H1|]. split; [exact H2|]. split; [|intros g' SH; exact (C94_order E (Ctx spec "" md) t bs g [] g' H3 eq_refl H4 SH)].
  pose proof (C15_decode E (Ctx spec "" md) t bs g [] [] [] H3 (proj1 (scale_relax E) _ _ _ _ _ H4)) as DC. cbn [app] in DC. rewrite app_nil_r in DC. now apply DC.
Qed.
End Types.

(** ** The calls of a runtime, from the bytes of its metadata *)
Section Runtime.
Variables (r : reg) (m : wmeta14) (Rg : Z -> Prop) (D : list (string * Z)) (f1 : nat) (s : sistate).
Hypothesis rt : runtime r m Rg D f1 s.
Notation types := (wm_types m).
Notation pallets := (wm_pallets m).
Notation port := (port_of m).
Notation left := (left_registry m s).
Theorem C94_runtime h tl0 p v i j xs bs : lead h -> blen (h ++ magic ++ [Zb 14] ++ meta14_enc m ++ tl0) < 2 ^ 63 ->
  wat types wp_calls pallets i j = Some (p, v) -> Forall Rg (map wf_type (wv_fields v)) -> encs port (map wf_type (wv_fields v)) xs bs ->
  writables port (map wf_type (wv_fields v)) xs ->
  exists d r', (exists f0, forall f, (f0 <= f)%nat -> ProcessMetadata f r (h ++ magic ++ [Zb 14] ++ meta14_enc m ++ tl0) = Ok (Some (14, d), r')) /\
  forall spec txt, index_text (Zb i) (Zb j) txt ->
  exists gs, shows_all port (map wf_type (wv_fields v)) xs gs /\ forall gs', Forall2 shuffled gs gs' ->
  Encodes (reg_env r') spec (Some (codec_calls (md_calls d))) "Call" (VBox txt gs' []) (hex_encode (Zb i :: Zb j :: bs)).
Proof.
  intros H L W F HE WR. pose proof rt as rt'. destruct rt'.
  destruct (C65_metadata r h m tl0 f1 s rt_reg H rt_meta L rt_done rt_paths (fun k I => rt_free k (or_intror (or_intror (or_intror I)))) rt_pallets rt_indices) as (f0 & calls & events & TC & TE & P).
  eexists _, _. split; [exists f0; exact P|]. cbn [md_calls]. fold left. intros spec txt IT.
  destruct (wat_index r m Rg D f1 s rt _ _ _ _ _ W) as [Hi Hj]. pose proof (TC i j Hi Hj) as X. rewrite W in X.
  destruct (all_write r m Rg D f1 s rt (Ctx spec "" (Some (codec_calls calls))) (map wf_type (wv_fields v)) xs bs F HE WR) as (gs & SH & SC). exists gs. split; [exact SH|].
  intros gs' SF. set (md := codec_calls calls). assert (A : assoc (hex_encode [Zb i; Zb j]) md = option_map to_callmod (assoc (on_chain i j) calls)) by (unfold md; now rewrite codec_assoc).
  rewrite X in A. cbn [option_map] in A.
  eapply (C94_arguments (reg_env left) spec md "Call" (Zb i) (Zb j) txt _ gs' [] gs gs' [] bs []); [apply registry_std, (left_meta r m Rg D f1 s rt)|apply (call_resolves r m Rg D f1 s rt)|exact IT|exact A|now rewrite app_nil_r| |exact SF].
  cbn [to_callmod shown_call en_module en_item k_name k_args cm_module cm_name cm_args]. rewrite !map_map. cbn [a_name a_type snd]. rewrite map_map in SC. exact SC.
Qed.
End Runtime.


(** The registry of C87's example: a value with maps inside maps, all of them
    the other way round. *)
Definition px_plain : val := VMap [("col1", VU32 5); ("col2", VMap [("Pair", VMap [("x", VU32 1); ("col1", VMap [("a", VU32 2); ("col2", VSlice [VU32 3])])])])].
Definition px_turned : val := VMap [("col2", VMap [("Pair", VMap [("col1", VMap [("col2", VSlice [VU32 3]); ("a", VU32 2)]); ("x", VU32 1)])]); ("col1", VU32 5)].
Lemma swap2 a b x x' y y' : a <> b -> shuffled x x' -> shuffled y y' -> shuffled (VMap [(a, x); (b, y)]) (VMap [(b, y'); (a, x')]).
Proof.
  intros N X Y. apply (mo_map _ [(a, x'); (b, y')]); [|now repeat constructor|apply Permutation.perm_swap].
  repeat constructor; cbn; intuition congruence.
Qed.
Lemma px_shuffled : shuffled px_plain px_turned.
Proof.
  apply swap2; [discriminate|now constructor|].
  eapply mo_map; [repeat constructor; cbn; tauto| |apply Permutation.Permutation_refl]. constructor; [split; [reflexivity|]|constructor]. cbn [snd].
  apply swap2; [discriminate|now constructor|]. apply swap2; [discriminate|now constructor|]. apply mo_slice. constructor; [now constructor|constructor].
Qed.
Example C94_declared_example : exists t, assocz 13 (g_names px_state) = Some t /\ shows px_port 13 px_value px_plain /\
  Encodes (reg_env (g_reg px_state)) 100 None t px_turned "05000000050100000001020000000403000000".
Proof.
  destruct (C94_declared px px_dup px_rg px_counted px_well_named px_regular base_reg 10 px_state px_standard px_registered (reg_env (g_reg px_state)) 100 None 13 px_value px_bytes) as (t & g & H1 & H2 & H3 & H4);
  [split; reflexivity|px_in|exact px_enc|exact px_writable|vm_compute; reflexivity|]. exists t. split; [exact H1|].
  assert (g = px_plain).
  { assert (Q : Decodes (reg_env (g_reg px_state)) (Ctx 100 "" None) px_bytes 0 t (Ok (px_plain, 19, []))).
    { split; [discriminate|]. exists 20%nat. replace t with (match assocz 13 (g_names px_state) with Some u => u | None => "" end) by now rewrite H1. vm_compute. reflexivity. }
    pose proof (ProofsRun.Decodes_det _ _ _ _ _ _ _ H3 Q) as EQ. now injection EQ. }
  subst g. split; [exact H2|]. exact (H4 px_turned px_shuffled).
Qed.
Print Assumptions C94_arguments.
Print Assumptions C94_declared.
Print Assumptions C94_runtime.
