(** C87: values of the types a portable type registry declares are encoded as
    declared. *)

From Verif Require Import GoBase SpecNum ProofsBase ModelTools ModelVal ModelRegistry ModelDecode ModelEncode ModelRegister ModelScaleInfo ModelMetadata
  SpecScale ProofsNames ProofsTexts ProofsEncode ProofsApi PropCodec PropData PropScaleInfo SpecPortable ProofsPortText ProofsPortReg ProofsPortDecode PropPortable
  PropMetadata ModelMeta SpecMeta ProofsMeta PropMeta PropMeta14 PropRuntime PropRuntimeEx.

(** ** One type *)
Section C87.
Variables (c : sictx) (D : list (string * Z)) (Rg : Z -> Prop).
Notation port := (i_port c).
Hypothesis counts : counted c D.
Hypothesis names : well_named c D Rg.
Hypothesis declarations : forall id, Rg id -> regular c D Rg id.
Variables (r : reg) (fuel : nat) (s : sistate).
Hypothesis before : standard c D r.
Hypothesis registered : ProcessSiType fuel c r = Ok s.

(** Full claim: without [writable].  Its conditions are needed (refutations
    below, and those of C06, C11, C13, C18, C24 and C25). *)
Theorem C87_encode_partial E spec md id x bs : uses E (g_reg s) -> Rg id -> enc port id x bs -> writable port id x -> blen bs < 2 ^ 63 ->
  exists t g, assocz id (g_names s) = Some t /\ shows port id x g
    /\ Encodes E spec md t g (hex_encode bs) /\ Decodes E (Ctx spec "" md) bs 0 t (Ok (g, blen bs, [])).
Proof.
  intros U R HE WR L. destruct (process_ok c D Rg declarations names fuel r s before counts registered) as ((T & INV) & ALL).
  destruct (scales_by_inv_st c D Rg names declarations true T _ _ E (Ctx spec "" md) id x bs INV U ALL (fun _ => WR) R HE) as (t & g & H1 & H2 & H3 & H4).
  exists t, g. split; [exact H1|]. split; [exact H2|]. split; [exact (C16_encode E (Ctx spec "" md) t bs g [] H3 eq_refl H4)|].
  pose proof (C15_decode E (Ctx spec "" md) t bs g [] [] [] H3 (proj1 (scale_relax E) _ _ _ _ _ H4)) as DC. cbn [app] in DC. rewrite app_nil_r in DC. now apply DC.
Qed.
End C87.
Print Assumptions C87_encode_partial.

(** ** The calls of a runtime, from the bytes of its metadata *)
Section Runtime.
Variables (r : reg) (m : wmeta14) (Rg : Z -> Prop) (D : list (string * Z)) (f1 : nat) (s : sistate).
Hypothesis rt : runtime r m Rg D f1 s.
Notation types := (wm_types m).
Notation pallets := (wm_pallets m).
Notation port := (port_of m).
Notation name := (si_name (g_names s)).
Notation left := (left_registry m s).

Lemma one_writes cx id x bs : Rg id -> enc port id x bs -> writable port id x ->
  exists g, shows port id x g /\ scale true (reg_env left) cx (name id) bs g [].
Proof.
  intros R HE WR. destruct (left_types m s) as [cd LT]. destruct rt.
  destruct (later_scales (sictx_of m f1) D Rg rt_counted rt_names rt_regular r f1 s rt_standard rt_done true (reg_env left) cx id x bs "origincaller" cd) as (t & g & H1 & H2 & H3 & H4);
    [rewrite LT; now split|exact rt_origin|intros _; exact WR|exact R|exact HE|].
  exists g. split; [exact H2|]. unfold si_name. now rewrite H1.
Qed.
Lemma all_write cx : forall ids xs bs, Forall Rg ids -> encs port ids xs bs -> writables port ids xs ->
  exists gs, shows_all port ids xs gs /\ scales true (reg_env left) cx (map name ids) bs gs [].
Proof.
  intros ids. induction ids as [|id ids IH]; intros xs bs F H WR; inversion H; subst.
  - exists []. split; constructor.
  - inversion F; subst. inversion WR; subst.
    match goal with X : enc port id _ _, Y : encs port ids _ _ |- _ => destruct (one_writes cx id _ _ ltac:(assumption) X ltac:(assumption)) as (g & S1 & S2); destruct (IH _ _ ltac:(assumption) Y ltac:(assumption)) as (gs & S3 & S4) end.
    exists (g :: gs). split; [now constructor|]. cbn [map]. change (@nil string) with ([] ++ [] : list string)%list. now constructor.
Qed.
(** The metadata is read; afterwards a call of the runtime, given by its index
    and the values of its arguments, is written as the runtime reads it. *)
Theorem C87_call_partial h tl0 p v i j xs bs : lead h -> blen (h ++ magic ++ [Zb 14] ++ meta14_enc m ++ tl0) < 2 ^ 63 ->
  wat types wp_calls pallets i j = Some (p, v) -> Forall Rg (map wf_type (wv_fields v)) -> encs port (map wf_type (wv_fields v)) xs bs ->
  writables port (map wf_type (wv_fields v)) xs ->
  exists d r', (exists f0, forall f, (f0 <= f)%nat -> ProcessMetadata f r (h ++ magic ++ [Zb 14] ++ meta14_enc m ++ tl0) = Ok (Some (14, d), r')) /\
  forall spec txt, index_text (Zb i) (Zb j) txt ->
  exists gs, shows_all port (map wf_type (wv_fields v)) xs gs /\
  Encodes (reg_env r') spec (Some (codec_calls (md_calls d))) "Call" (VBox txt gs []) (hex_encode (Zb i :: Zb j :: bs)).
Proof.
  intros H L W F HE WR. pose proof rt as rt'. destruct rt'.
  destruct (C65_metadata r h m tl0 f1 s rt_reg H rt_meta L rt_done rt_paths (fun k I => rt_free k (or_intror (or_intror (or_intror I)))) rt_pallets rt_indices) as (f0 & calls & events & TC & TE & P).
  eexists _, _. split; [exists f0; exact P|]. cbn [md_calls]. fold left. intros spec txt IT.
  destruct (wat_index r m Rg D f1 s rt _ _ _ _ _ W) as [Hi Hj]. pose proof (TC i j Hi Hj) as X. rewrite W in X.
  destruct (all_write (Ctx spec "" (Some (codec_calls calls))) (map wf_type (wv_fields v)) xs bs F HE WR) as (gs & SH & SC). exists gs. split; [exact SH|].
  set (md := codec_calls calls). assert (A : assoc (hex_encode [Zb i; Zb j]) md = option_map to_callmod (assoc (on_chain i j) calls)) by (unfold md; now rewrite codec_assoc).
  rewrite X in A. cbn [option_map] in A.
  eapply (C55_encode (reg_env left) spec md "Call" (Zb i) (Zb j) txt _ gs [] gs [] bs []); [apply registry_std, (left_meta r m Rg D f1 s rt)|apply (call_resolves r m Rg D f1 s rt)|exact IT|exact A|now rewrite app_nil_r|].
  cbn [to_callmod shown_call en_module en_item k_name k_args cm_module cm_name cm_args]. rewrite !map_map. cbn [a_name a_type snd]. rewrite map_map in SC. exact SC.
Qed.
End Runtime.
Print Assumptions C87_call_partial.

(** ** Registries that meet the hypotheses *)
Lemma px_w32 z : writable px_port 4 (PNum z).
Proof. apply (wr_unsigned px_port 4 "u32" 4 z); [now exists "u32"|cbn; tauto]. Qed.
Ltac no_unwrap := intros f k; discriminate.
Lemma px_writable : writable px_port 13 px_value.
Proof.
  apply (SpecPortable.wr_composite px_port 13 [fld "" 8] _ eq_refl).
  - intros f k [= <-] U. cbn [f_type fld] in U.
    assert (K : k = 8) by (inversion U; subst; [reflexivity|match goal with X : def_of _ _ = _ |- _ => vm_compute in X; discriminate X end]). subst k.
    intros [[k X]|[X|X]]; vm_compute in X; discriminate X.
  - constructor; [|constructor]. apply (SpecPortable.wr_tuple px_port 8 [4; 7] _ eq_refl). constructor; [apply px_w32|]. constructor; [|constructor].
    apply (SpecPortable.wr_variant px_port 7 px_enum (SiVariant "Pair" [fld "x" 4; fld "" 6] 5) _ eq_refl); [cbn; tauto|discriminate| | |].
    + intros w I N. cbn in I. destruct I as [<-|[<-|[<-|[]]]]; [reflexivity|discriminate N|discriminate N].
    + constructor; [apply px_w32|]. constructor; [|constructor].
      apply (SpecPortable.wr_variant px_port 6 [SiVariant "None" [] 0; SiVariant "Some" [fld "" 3] 1] (SiVariant "Some" [fld "" 3] 1) _ eq_refl); [cbn; tauto|discriminate| | |].
      * intros w I N. cbn in I. destruct I as [<-|[<-|[]]]; [discriminate N|reflexivity].
      * constructor; [|constructor]. apply (SpecPortable.wr_composite px_port 3 [fld "a" 4; fld "" 5] _ eq_refl); [no_unwrap|].
        constructor; [apply px_w32|]. constructor; [|constructor]. apply (SpecPortable.wr_list px_port 5 4 _ (or_introl eq_refl)).
        -- constructor; [apply px_w32|constructor].
        -- intros _. cbn. lia.
        -- intros b (k & U & n & P & Q). assert (K : k = 4) by (inversion U; subst; [reflexivity|match goal with X : def_of _ _ = _ |- _ => vm_compute in X; discriminate X end]). subst k.
           vm_compute in P. injection P as <-. vm_compute in Q. discriminate Q.
      * intros f x g _ [= <-] [= <-] SH. inversion SH; subst; repeat match goal with
          | X : prim _ _ _ |- _ => destruct X as (? & X & _)
          | X : _ \/ _ |- _ => destruct X as [X|X]
          | X : exists _, _ |- _ => destruct X as [? X]
          | X : _ /\ _ |- _ => destruct X as [? X]
          end; try (match goal with X : def_of _ _ = _ |- _ => vm_compute in X; discriminate X end).
        unfold nil_like. intuition discriminate.
    + discriminate.
Qed.
Example C87_example : exists t g, assocz 13 (g_names px_state) = Some t /\ shows px_port 13 px_value g /\
  Encodes (reg_env (g_reg px_state)) 100 None t g "05000000050100000001020000000403000000".
Proof.
  destruct (C87_encode_partial px px_dup px_rg px_counted px_well_named px_regular base_reg 10 px_state px_standard px_registered (reg_env (g_reg px_state)) 100 None 13 px_value px_bytes) as (t & g & H1 & H2 & H3 & _);
  [split; reflexivity|px_in|exact px_enc|exact px_writable|vm_compute; reflexivity|]. exists t, g. split; [exact H1|]. split; [exact H2|]. exact H3.
Qed.
Lemma mx_writables : writables (port_of mx) [1; 5] mx_args.
Proof.
  constructor; [|constructor; [|constructor]].
  - eapply SpecPortable.wr_hash; [reflexivity|]. right. vm_compute. tauto.
  - apply (SpecPortable.wr_compact (port_of mx) 5 0 300 eq_refl); [lia|lia].
Qed.
Example C87_call_example : exists d r', (exists f0, forall f, (f0 <= f)%nat -> ProcessMetadata f mx_reg (magic ++ [Zb 14] ++ meta14_enc mx ++ []) = Ok (Some (14, d), r')) /\
  exists gs, shows_all (port_of mx) [1; 5] mx_args gs /\
  Encodes (reg_env r') 100 (Some (codec_calls (md_calls d))) "Call" (VBox "0x0500" gs []) ("0500" ++ hex_encode (who 7) ++ "b104").
Proof.
  destruct (C87_call_partial mx_reg mx mx_rg mx_dup 20 mx_state C67_runtime [] [] (nth 0 mx_pallets (WPallet [] None None None [] None 0)) (nth 0 mx_call (WVariant [] [] 0 [])) 5 0 mx_args mx_arg_bytes) as (d & r' & P & C).
  - constructor.
  - vm_compute. reflexivity.
  - reflexivity.
  - repeat constructor; cbn; tauto.
  - exact mx_args_enc.
  - exact mx_writables.
  - exists d, r'. split; [exact P|]. destruct (C 100 "0x0500") as (gs & SH & EC); [apply it_0x|]. exists gs. split; [exact SH|]. exact EC.
Qed.

(** ** Values the claim has to leave out *)
Definition writes_as (p : portable) (id : Z) (g : val) (o : res string) : Prop :=
  exists t, ProcessSiType 10 (SiCtx "" true 100 p 20) base_reg = Ok (run_of p) /\ assocz id (g_names (run_of p)) = Some t /\
    EncodesTo (reg_env (g_reg (run_of p))) 100 None t g o.
Ltac writes t := exists t; split; [vm_compute; reflexivity|]; split; [vm_compute; reflexivity|apply (encode_enough _ _ _ _ _ 12); [vm_compute; reflexivity|discriminate]].
(** A struct around the unit type has no bytes and cannot be written inside
    another type. *)
Definition rf_unit : portable :=
  [(0, SiType ["m"; "S"] [] (DComposite [fld "a" 1; fld "b" 3])); (1, SiType ["m"; "N"] [] (DComposite [fld "" 2])); (2, SiType [] [] (DTuple [])); (3, u8t)].
Theorem C87_unit_refuted : enc rf_unit 0 (PSeq [PSeq [PSeq []]; PNum 7]) [Zb 7] /\ shows rf_unit 0 (PSeq [PSeq [PSeq []]; PNum 7]) (VMap [("a", VNil); ("b", VInt 7)]) /\
  writes_as rf_unit 0 (VMap [("a", VNil); ("b", VInt 7)]) (Panic "not found base type").
Proof.
  split; [|split; [|writes "m:S"]].
  - apply (enc_composite rf_unit 0 [fld "a" 1; fld "b" 3] _ _ eq_refl). eapply encs_step with (b := []); [| |reflexivity].
    + apply (enc_composite rf_unit 1 [fld "" 2] _ _ eq_refl). eapply encs_step with (b := []); [|constructor|reflexivity]. apply (enc_tuple rf_unit 2 [] [] [] eq_refl). constructor.
    + apply (encs_step rf_unit 3 [] (PNum 7) [] [Zb 7] [Zb 7] []); [|apply encs_nil|reflexivity]. apply (enc_unsigned rf_unit 3 "u8" 1 7); [now exists "u8"|cbn; tauto|lia].
  - apply (sh_struct rf_unit 0 [fld "a" 1; fld "b" 3] _ [VNil; VInt 7] eq_refl); [discriminate|]. constructor; [|constructor; [|constructor]].
    + apply (sh_newtype rf_unit 1 (fld "" 2) _ _ eq_refl); [discriminate|discriminate|]. apply (sh_nothing rf_unit 2 0). right. now left.
    + apply (sh_num rf_unit 3 "u8"); [now exists "u8"|left; now left].
Qed.
(** A variant named "empty" is written as the first variant. *)
Definition rf_empty : portable := [(0, SiType ["m"; "E"] [] (DVariant [SiVariant "A" [fld "" 1] 3; SiVariant "empty" [] 5])); (1, u8t)].
Theorem C87_empty_refuted : enc rf_empty 0 (PVar 5 []) [Zb 5] /\ shows rf_empty 0 (PVar 5 []) (VMap [("empty", VStr "NULL")]) /\
  writes_as rf_empty 0 (VMap [("empty", VStr "NULL")]) (Ok "00").
Proof.
  split; [|split; [|writes "m:E"]].
  - apply (enc_variant rf_empty 0 [SiVariant "A" [fld "" 1] 3; SiVariant "empty" [] 5] (SiVariant "empty" [] 5) [] [] eq_refl); [cbn; tauto|constructor].
  - apply (sh_unit_variant rf_empty 0 [SiVariant "A" [fld "" 1] 3; SiVariant "empty" [] 5] (SiVariant "empty" [] 5) eq_refl); [now exists "m", ["E"]|cbn; tauto|reflexivity|].
    exists (SiVariant "A" [fld "" 1] 3). split; [cbn; tauto|discriminate].
Qed.
(** A present empty text of an optional type is written as an absent one. *)
Definition rf_some : portable :=
  [(0, SiType ["Option"] [("T", 1)] (DVariant [SiVariant "None" [] 0; SiVariant "Some" [fld "" 1] 1])); (1, SiType [] [] (DPrimitive "str"))].
Theorem C87_some_refuted : enc rf_some 0 (PVar 1 [PText []]) [Zb 1; Zb 0] /\ shows rf_some 0 (PVar 1 [PText []]) (VStr "") /\
  writes_as rf_some 0 (VStr "") (Ok "00").
Proof.
  split; [|split; [|writes "option<str>"]].
  - apply (enc_variant rf_some 0 _ (SiVariant "Some" [fld "" 1] 1) [PText []] [Zb 0] eq_refl); [cbn; tauto|].
    eapply encs_step with (b := [Zb 0]); [|constructor|reflexivity]. apply (enc_str rf_some 1 []); [now exists "str"|reflexivity].
  - apply (sh_some rf_some 0 _ (SiVariant "Some" [fld "" 1] 1) (fld "" 1) _ _ eq_refl); [now exists "Option", []|cbn; tauto|reflexivity|reflexivity|].
    apply (sh_text rf_some 1 []). now exists "str".
Qed.
(** A byte list whose text is a hexadecimal number is written as that number. *)
Definition rf_hex : portable := [(0, SiType [] [] (DSequence 1)); (1, u8t)].
Theorem C87_hex_refuted : let x := PSeq (map PNum [48; 120; 52; 49]) in
  enc rf_hex 0 x (map Zb [16; 48; 120; 52; 49]) /\ shows rf_hex 0 x (VStr "0x41") /\ writes_as rf_hex 0 (VStr "0x41") (Ok "0441").
Proof.
  cbv zeta. assert (U : forall z, 0 <= z < 256 -> enc rf_hex 1 (PNum z) [Zb z]).
  { intros z Z. apply (enc_unsigned rf_hex 1 "u8" 1 z); [now exists "u8"|cbn; tauto|exact Z]. }
  split; [|split; [|writes "Vec<u8>"]].
  - change (map Zb [16; 48; 120; 52; 49]) with (len_of (map PNum [48; 120; 52; 49]) ++ map Zb [48; 120; 52; 49])%list.
    apply (enc_sequence rf_hex 0 1 _ (map Zb [48; 120; 52; 49]) eq_refl); [|left; cbn; lia].
    repeat (eapply encs_step; [apply U; lia| |reflexivity]). constructor.
  - apply (sh_bytes rf_hex 0 1 _ (map Zb [48; 120; 52; 49])); [now left|exists 1; split; [constructor|now exists "u8"]|repeat constructor].
Qed.
Print Assumptions C87_unit_refuted.
Print Assumptions C87_empty_refuted.
Print Assumptions C87_some_refuted.
Print Assumptions C87_hex_refuted.
