(** Property C82: reading metadata that was read before. *)

From Verif Require Import GoBase SpecNum ModelTools ModelVal ModelRegistry ModelDecode ModelEncode ModelRegister SpecScale ModelScaleInfo ModelMetadata
  PropScaleInfo PropMetadata ModelMeta SpecMeta
  ProofsBase ProofsTools ProofsRun ProofsReads ProofsScale ProofsApi PropCodec ProofsNames ProofsTexts ProofsPortReg ProofsFrame ProofsMeta ProofsMeta15 PropMeta PropMeta14 PropMeta15
  ProofsLoad ProofsNet ProofsTwice PropRuntime PropRuntimeEx PropRuntime15.

(** ** What a later registry still has *)
(** Registrations are never taken back: [later r r'] says that every name and
    every key of the V14 types of [r] is there in [r'], with whatever meaning. *)
Definition later (r r' : reg) : Prop :=
  (forall k, assoc k (r_v14 r) <> None -> assoc k (r_v14 r') <> None) /\ (forall k, assoc k (r_types r) <> None -> assoc k (r_types r') <> None).
(** The names that each reading registers anew: those of the signature and the
    signer of extrinsics, those of types called RuntimeCall, and OriginCaller. *)
Definition anew (port : portable) (k : string) : Prop :=
  k = "extrinsicsignature" \/ k = "extrinsicsigner" \/ k = "origincaller" \/
  exists id t, In (id, t) port /\ path_last (s_path t) = Some "RuntimeCall" /\
  (k = to_lower (join ":" (s_path t)) \/ k = to_lower (join ":" (s_path t) ++ "@" ++ itoa id)).
(** Nothing else means anything else. *)
Definition kept_but (K : string -> Prop) (r r' : reg) : Prop :=
  r_special r' = r_special r /\ r_v14 r' = r_v14 r /\ forall k, ~ K k -> assoc k (r_types r') = assoc k (r_types r).

Lemma origin_types l : exists cd, forall r, registerOriginCaller l r = with_types (upd "origincaller" cd) r.
Proof. eexists. intros r'. unfold registerOriginCaller, regCustomKey. change (to_lower "OriginCaller") with "origincaller". cbn [split_char Ascii.eqb Bool.eqb]. reflexivity. Qed.
Lemma later_origin l r : later r (registerOriginCaller l r).
Proof. exact (within_key _ _ _). Qed.

Section Again.
Variable port : portable.
Variables r start : reg.
Variable f1 : nat.
Variable s : sistate.
Variable l : list (string * Z).
Hypothesis P : ProcessSiType f1 (SiCtx "" true 0 port f1) r = Ok s.
Hypothesis PP : plain_paths port.
Hypothesis LT : later (registerOriginCaller l (g_reg s)) start.
Lemma again : exists s2, ProcessSiType f1 (SiCtx "" true 0 port f1) start = Ok s2 /\ g_names s2 = g_names s /\ kept_but (anew port) start (registerOriginCaller l (g_reg s2)).
Proof.
  destruct (process_twice f1 (SiCtx "" true 0 port f1) r s start eq_refl eq_refl eq_refl PP P) as (s2 & E & N & (A & B & C)).
  { eapply within_trans; [apply (later_origin l)|exact LT]. }
  exists s2. split; [exact E|]. split; [exact N|]. destruct (origin_types l) as [cd O]. rewrite O. split; [exact A|]. split; [exact B|].
  intros k K. cbn [with_types r_types]. rewrite assoc_upd. destruct (String.eqb_spec k "origincaller") as [->|NO]; [exfalso; apply K; unfold anew; tauto|].
  apply C. intros R. apply K. unfold anew, renewed, call_name in *. cbn [i_port] in R. tauto.
Qed.
End Again.

(** ** C82 *)
Theorem C82_v14 r h m tl f1 s start :
  let l := wm_types m in let ps := wm_pallets m in let port := SpecMeta.declared l in let names := si_name (g_names s) in
  let data := (h ++ magic ++ [Zb 14] ++ meta14_enc m ++ tl)%list in
  let left := registerOriginCaller (map (fun p => (text_of (wp_name p), wp_index p)) ps) (g_reg s) in
  meta_registry r -> lead h -> meta14_ok m -> blen data < 2 ^ 63 ->
  ProcessSiType f1 (SiCtx "" true 0 port f1) r = Ok s -> plain_paths port -> (forall k, In k meta_names -> free_name port k) ->
  Forall (pallet_described l names) ps -> distinct_indices l ps ->
  meta_registry start -> later left start ->
  exists f0 d after, kept_but (anew port) start after /\
  forall f, (f0 <= f)%nat -> ProcessMetadata f r data = Ok (Some (14, d), left) /\ ProcessMetadata f start data = Ok (Some (14, d), after).
Proof.
  intros l ps port names data left M H K L P PP FN PD DI MS LT.
  destruct (again port r start f1 s _ P PP LT) as (s2 & E & N & KB).
  destruct (v14_metadata r h m tl f1 s M H K L P PP FN PD DI) as (g1 & c1 & e1 & (t1 & T1 & -> & ->) & _ & _ & G1).
  assert (PD2 : Forall (pallet_described l (si_name (g_names s2))) ps) by (rewrite N; exact PD).
  destruct (v14_metadata start h m tl f1 s2 MS H K L E PP FN PD2 DI) as (g2 & c2 & e2 & (t2 & T2 & -> & ->) & _ & _ & G2).
  rewrite N in T2. assert (t2 = t1) by (rewrite T1 in T2; now injection T2). subst t2.
  eexists (Nat.max g1 g2), _, _. split; [exact KB|]. intros f F. split; [apply G1; lia|]. pose proof (G2 f ltac:(lia)) as X. rewrite N in X. exact X.
Qed.
Theorem C82_v15 r h m tl f1 s start :
  let l := w5_types m in let ps := pallets15 m in let port := SpecMeta.declared l in let names := si_name (g_names s) in
  let data := (h ++ magic ++ [Zb 15] ++ meta15_enc m ++ tl)%list in
  let left := registerOriginCaller (map (fun p => (text_of (wp_name p), wp_index p)) ps) (g_reg s) in
  meta_registry r -> custom_registry r -> lead h -> meta15_ok m -> blen data < 2 ^ 63 ->
  ProcessSiType f1 (SiCtx "" true 0 port f1) r = Ok s -> plain_paths port -> (forall k, In k names15 -> free_name port k) ->
  Forall (pallet_described l names) ps -> Forall (one_key_each l) ps -> distinct_indices l ps ->
  meta_registry start -> custom_registry start -> later left start ->
  exists f0 d after, kept_but (anew port) start after /\
  forall f, (f0 <= f)%nat -> ProcessMetadata f r data = Ok (Some (15, d), left) /\ ProcessMetadata f start data = Ok (Some (15, d), after).
Proof.
  intros l ps port names data left M CR H K L P PP FN PD OK DI MS CS LT.
  destruct (again port r start f1 s _ P PP LT) as (s2 & E & N & KB).
  destruct (v15_metadata r h m tl f1 s M CR H K L P PP FN PD OK DI) as (g1 & c1 & e1 & (t1 & T1 & -> & ->) & _ & _ & G1).
  assert (PD2 : Forall (pallet_described l (si_name (g_names s2))) ps) by (rewrite N; exact PD).
  destruct (v15_metadata start h m tl f1 s2 MS CS H K L E PP FN PD2 OK DI) as (g2 & c2 & e2 & (t2 & T2 & -> & ->) & _ & _ & G2).
  rewrite N in T2. assert (t2 = t1) by (rewrite T1 in T2; now injection T2). subst t2.
  eexists (Nat.max g1 g2), _, _. split; [exact KB|]. intros f F. split; [apply G1; lia|]. pose proof (G2 f ltac:(lia)) as X. rewrite N in X. exact X.
Qed.

(** At once: the registry needs no conditions, and OriginCaller stays as it is. *)
Definition anew_at_once (port : portable) (k : string) : Prop := anew port k /\ k <> "origincaller".
Theorem C82_at_once r h m tl f1 s :
  let l := wm_types m in let ps := wm_pallets m in let port := SpecMeta.declared l in let names := si_name (g_names s) in
  let data := (h ++ magic ++ [Zb 14] ++ meta14_enc m ++ tl)%list in
  meta_registry r -> lead h -> meta14_ok m -> blen data < 2 ^ 63 ->
  ProcessSiType f1 (SiCtx "" true 0 port f1) r = Ok s -> plain_paths port -> (forall k, In k meta_names -> free_name port k) ->
  Forall (pallet_described l names) ps -> distinct_indices l ps ->
  exists f0 d left after, kept_but (anew_at_once port) left after /\
  forall f, (f0 <= f)%nat -> ProcessMetadata f r data = Ok (Some (14, d), left) /\ ProcessMetadata f left data = Ok (Some (14, d), after).
Proof.
  intros l ps port names data M H K L P PP FN PD DI. set (origins := map (fun p => (text_of (wp_name p), wp_index p)) ps). set (left := registerOriginCaller origins (g_reg s)).
  assert (ML : meta_registry left).
  { apply (registry_same (g_reg s)); [intros k I; apply origin_same; unfold names15; apply in_or_app; now left|]. eapply registry_kept; [exact M|exact P|reflexivity|exact PP|exact FN]. }
  assert (LT : later left left) by now split.
  destruct (again port r left f1 s origins P PP LT) as (s2 & E & N & KB).
  destruct (v14_metadata r h m tl f1 s M H K L P PP FN PD DI) as (g1 & c1 & e1 & (t1 & T1 & -> & ->) & _ & _ & G1).
  assert (PD2 : Forall (pallet_described l (si_name (g_names s2))) ps) by (rewrite N; exact PD).
  destruct (v14_metadata left h m tl f1 s2 ML H K L E PP FN PD2 DI) as (g2 & c2 & e2 & (t2 & T2 & -> & ->) & _ & _ & G2).
  rewrite N in T2. assert (t2 = t1) by (rewrite T1 in T2; now injection T2). subst t2.
  eexists (Nat.max g1 g2), _, left, _. split; [|intros f F; split; [apply G1; lia|]; pose proof (G2 f ltac:(lia)) as X; rewrite N in X; exact X].
  fold ps origins. destruct KB as (A & B & C). split; [exact A|]. split; [exact B|]. intros k NK. destruct (String.eqb_spec k "origincaller") as [->|NO].
  - destruct (origin_types origins) as [cd O]. unfold left. rewrite !O. cbn [with_types r_types]. now rewrite !assoc_upd.
  - apply C. intros X. apply NK. now split.
Qed.

(** When those names mean what they meant, everything decodes and encodes as before. *)
Theorem C82_same_decoding K r r' like : kept_but K r r' -> (forall k, K k -> assoc k (r_types r') = assoc k (r_types r)) ->
  (forall f c data off t, decode f (env_of r' like) c data off t = decode f (env_of r like) c data off t) /\
  (forall f spec meta t v, encode f (env_of r' like) spec meta t v = encode f (env_of r like) spec meta t v).
Proof.
  intros (A & B & C) H. assert (AL : alike r' r).
  { split; [|intros t spec; unfold specialVersionCodec; cbn [reg_env e_special]; now rewrite A].
    intros q. assert (X : ~ ~ (assoc q (r_types r') = assoc q (r_types r))) by (intros NE; apply NE, C; intros KQ; apply NE, H, KQ).
    destruct (assoc q (r_types r')) as [a|], (assoc q (r_types r)) as [b|]; [|exfalso; apply X; discriminate|exfalso; apply X; discriminate|reflexivity].
    destruct (codec_eq_dec a b) as [->|NE]; [reflexivity|]. exfalso. apply X. congruence. }
  split; intros.
  - exact (alike_decode r' r like AL f c data off t).
  - exact (alike_encode r' r like AL f spec meta t v).
Qed.

(** ** Examples *)
(** A runtime with an extrinsic type and a RuntimeCall, besides the types of PropRuntimeEx.v. *)
Definition tw_types : wregistry :=
  (mx_types ++ [(11, WType [txt "runtime"; txt "RuntimeCall"] [] (WEnum [WVariant (txt "Coin") [wfld "call" 4 "Call"] 5 []]) []);
    (12, WType [txt "sp_runtime"; txt "generic"; txt "UncheckedExtrinsic"] [(txt "Address", Some 1); (txt "Call", Some 11); (txt "Signature", Some 9); (txt "Extra", Some 0)]
       (WComposite [WField None 6 None []]) [])])%list.
Definition tw : wmeta14 := WMeta14 tw_types [] (WExtrinsic 12 4 []).
Definition tw_state : sistate := Eval vm_compute in match ProcessSiType 20 (SiCtx "" true 0 (SpecMeta.declared tw_types) 20) mx_reg with Ok s => s | _ => SiState [] [] mx_reg end.
Example C82_case : meta_registry mx_reg /\ meta14_ok tw /\ ProcessSiType 20 (SiCtx "" true 0 (SpecMeta.declared tw_types) 20) mx_reg = Ok tw_state /\
  plain_paths (SpecMeta.declared tw_types) /\ (forall k, In k meta_names -> free_name (SpecMeta.declared tw_types) k) /\
  (anew (SpecMeta.declared tw_types) "runtime:runtimecall" /\ anew (SpecMeta.declared tw_types) "extrinsicsigner") /\
  assoc "extrinsicsignature" (r_types (g_reg tw_state)) = assoc "pallet_coin:data" (r_types (g_reg tw_state)) /\
  exists d left after, ProcessMetadata 60 mx_reg (magic ++ [Zb 14] ++ meta14_enc tw) = Ok (Some (14, d), left) /\ ProcessMetadata 60 left (magic ++ [Zb 14] ++ meta14_enc tw) = Ok (Some (14, d), after) /\
  map (fun k => assoc k (r_types after)) ["runtime:runtimecall"; "extrinsicsigner"; "extrinsicsignature"; "pallet_coin:data"] =
  map (fun k => assoc k (r_types left)) ["runtime:runtimecall"; "extrinsicsigner"; "extrinsicsignature"; "pallet_coin:data"].
Proof.
  split; [exact mx_registry|]. split; [|split; [vm_compute; reflexivity|]; split; [|split; [|split; [|split; [vm_compute; reflexivity|]]]]].
  - destruct mx_ok as ([_ KR] & KP & KX & KV & KE). split; [split; [vm_compute; discriminate|]|].
    + cbn [tw wm_types]. unfold tw_types. apply Forall_app. split; [exact KR|]. unfold wfld. sized.
    + cbn [tw wm_pallets wm_extrinsic]. unfold extrinsic_ok. cbn [we_id we_version we_extensions]. sized.
  - intros id t p I J. cbn in I. repeat (destruct I as [[= <- <-]|I]; [cbn in J; repeat (destruct J as [<-|J]; [vm_compute; intuition discriminate|]); destruct J|]). destruct I.
  - intros k _ id t p I _ Q. cbn in I. repeat (destruct I as [[= <- <-]|I]; [discriminate Q|]). destruct I.
  - split; [|right; left; reflexivity]. right. right. right. eexists 11, _. split; [apply assocz_in; vm_compute; reflexivity|]. split; [reflexivity|]. left. reflexivity.
  - eexists _, _, _. split; [vm_compute; reflexivity|]. split; [vm_compute; reflexivity|]. vm_compute. reflexivity.
Qed.

(** Not everything stays: a runtime that declares a type whose path is "call"
    takes the name of the library's calls, after RuntimeCall has been made to
    stand for them; read again, RuntimeCall stands for the new type. *)
Definition tc_types : wregistry := (tw_types ++ [(13, WType [txt "call"] [] (WComposite [wfld "x" 3 "u8"; wfld "y" 3 "u8"]) [])])%list.
Definition tc : wmeta14 := WMeta14 tc_types [] (WExtrinsic 12 4 []).
Definition tc_state : sistate := Eval vm_compute in match ProcessSiType 20 (SiCtx "" true 0 (SpecMeta.declared tc_types) 20) mx_reg with Ok s => s | _ => SiState [] [] mx_reg end.
Theorem C82_unchanged_refuted : meta_registry mx_reg /\ meta14_ok tc /\ ProcessSiType 20 (SiCtx "" true 0 (SpecMeta.declared tc_types) 20) mx_reg = Ok tc_state /\
  plain_paths (SpecMeta.declared tc_types) /\ (forall k, In k meta_names -> free_name (SpecMeta.declared tc_types) k) /\
  exists d left after, ProcessMetadata 60 mx_reg (magic ++ [Zb 14] ++ meta14_enc tc) = Ok (Some (14, d), left) /\ ProcessMetadata 60 left (magic ++ [Zb 14] ++ meta14_enc tc) = Ok (Some (14, d), after) /\
  decode 9 (reg_env left) (Ctx 0 "" (Some [])) (map Zb [7; 8]) 0 "runtime:RuntimeCall" =
    Ok (VMap [("call_index", VStr "0708"); ("call_name", VStr ""); ("call_module", VStr ""); ("params", VParams [])], 2, ["0708"]) /\
  decode 9 (reg_env after) (Ctx 0 "" (Some [])) (map Zb [7; 8]) 0 "runtime:RuntimeCall" = Ok (VMap [("x", VInt 7); ("y", VInt 8)], 2, []).
Proof.
  split; [exact mx_registry|]. split; [|split; [vm_compute; reflexivity|]; split; [|split]].
  - destruct mx_ok as ([_ KR] & KP & KX & KV & KE). split; [split; [vm_compute; discriminate|]|].
    + cbn [tc wm_types]. unfold tc_types, tw_types. apply Forall_app. split; [apply Forall_app; split; [exact KR|]|]; unfold wfld; sized.
    + cbn [tc wm_pallets wm_extrinsic]. unfold extrinsic_ok. cbn [we_id we_version we_extensions]. sized.
  - intros id t p I J. cbn in I. repeat (destruct I as [[= <- <-]|I]; [cbn in J; repeat (destruct J as [<-|J]; [vm_compute; intuition discriminate|]); destruct J|]). destruct I.
  - intros k K id t p I _ Q. cbn in I. repeat (destruct I as [[= <- <-]|I]; [try discriminate Q|]); [|destruct I]. injection Q as <-. intros <-. revert K. vm_compute. intuition discriminate.
  - eexists _, _, _. split; [vm_compute; reflexivity|]. split; [vm_compute; reflexivity|]. split; vm_compute; reflexivity.
Qed.

Print Assumptions C82_v14.
Print Assumptions C82_v15.
Print Assumptions C82_at_once.
Print Assumptions C82_same_decoding.
Print Assumptions C82_unchanged_refuted.
