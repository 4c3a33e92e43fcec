(** Property C82 for metadata of versions 9 to 13. *)

From Verif Require Import GoBase SpecNum ModelTools ModelVal ModelRegistry ModelDecode ModelEncode ModelRegister SpecScale ModelScaleInfo ModelMetadata
  PropScaleInfo PropMetadata ModelMeta SpecMeta SpecMetaOld
  ProofsBase ProofsTools ProofsRun ProofsReads ProofsScale ProofsApi PropCodec ProofsNames ProofsTexts ProofsPortReg ProofsFrame ProofsMeta ProofsMeta15 ProofsMetaOld PropMeta PropMeta14 PropMeta15 PropMetaOld ProofsLoad ProofsNet ProofsTwice PropRuntime PropRuntimeEx PropRuntimeOld PropTwice.

(** The only name these versions register: V13 declares OriginCaller. *)
Definition anew_old (v : Z) (k : string) : Prop := v = 13 /\ k = "origincaller".

Lemma left_registry v m r : meta_registry r -> meta_registry (left_old v m r).
Proof.
  intros M. unfold left_old. destruct (v =? 13); [|exact M]. apply (registry_same r); [|exact M].
  intros k I. apply origin_same. unfold names15. apply in_or_app. now left.
Qed.
Lemma left_kept v m r : kept_but (anew_old v) r (left_old v m r).
Proof.
  unfold left_old. destruct (Z.eqb_spec v 13) as [E|E]; [|repeat split].
  destruct (origin_types (map (fun m => (text_of (om_name m), om_index m)) (wl_modules m))) as [cd O]. rewrite O. split; [reflexivity|]. split; [reflexivity|].
  intros k K. cbn [with_types r_types]. rewrite assoc_upd. destruct (String.eqb_spec k "origincaller") as [->|NO]; [|reflexivity]. exfalso. now apply K.
Qed.
Lemma left_twice v m r : kept_but (fun _ => False) (left_old v m r) (left_old v m (left_old v m r)).
Proof.
  unfold left_old. destruct (Z.eqb_spec v 13) as [E|E]; [|repeat split].
  destruct (origin_types (map (fun m => (text_of (om_name m), om_index m)) (wl_modules m))) as [cd O]. rewrite !O. split; [reflexivity|]. split; [reflexivity|].
  intros k _. cbn [with_types r_types]. rewrite !assoc_upd. now destruct (k =? "origincaller")%string.
Qed.

(** The metadata returned is the same in every registry it can be read in, and
    each reading leaves everything but OriginCaller as it found it. *)
Theorem C82_old h v m tl : let ms := wl_modules m in let data := (h ++ magic ++ [Zb v] ++ old_enc v m ++ tl)%list in
  lead h -> 9 <= v <= 13 -> old_ok v m -> (has_index v = true -> NoDup (map om_index ms)) -> blen data < 2 ^ 63 ->
  exists d, forall start, meta_registry start ->
  exists f0 after, kept_but (anew_old v) start after /\ meta_registry after /\
  forall f, (f0 <= f)%nat -> ProcessMetadata f start data = Ok (Some (v, d), after).
Proof.
  intros ms data H V K ND L. destruct (metadata_reads_all h v m tl H V K ND L) as (calls & events & _ & _ & G).
  eexists. intros start M. destruct (G start M) as [f0 G0]. exists f0, (left_old v m start).
  split; [apply left_kept|]. split; [now apply left_registry|]. exact G0.
Qed.
(** Read again at once, nothing at all changes. *)
Theorem C82_old_at_once r h v m tl : let ms := wl_modules m in let data := (h ++ magic ++ [Zb v] ++ old_enc v m ++ tl)%list in
  meta_registry r -> lead h -> 9 <= v <= 13 -> old_ok v m -> (has_index v = true -> NoDup (map om_index ms)) -> blen data < 2 ^ 63 ->
  exists f0 d left after, kept_but (fun _ => False) left after /\
  forall f, (f0 <= f)%nat -> ProcessMetadata f r data = Ok (Some (v, d), left) /\ ProcessMetadata f left data = Ok (Some (v, d), after).
Proof.
  intros ms data M H V K ND L. destruct (metadata_reads_all h v m tl H V K ND L) as (calls & events & _ & _ & G).
  destruct (G r M) as [f1 G1]. destruct (G (left_old v m r) (left_registry v m r M)) as [f2 G2].
  exists (Nat.max f1 f2), (read_old v m calls events), (left_old v m r), (left_old v m (left_old v m r)). split; [apply left_twice|].
  intros f F. split; [apply G1; lia|apply G2; lia].
Qed.

(** ** Examples *)
(** The runtime of PropRuntimeOld.v, and a registry left by quite another one (tw of PropTwice.v). *)
Example C82_old_case v : 9 <= v <= 13 -> exists f0 d left after, kept_but (fun _ => False) left after /\
  forall f, (f0 <= f)%nat -> ProcessMetadata f mx_reg (mo_bytes v) = Ok (Some (v, d), left) /\ ProcessMetadata f left (mo_bytes v) = Ok (Some (v, d), after).
Proof. intros V. apply (C82_old_at_once mx_reg [] v mo []); [exact mx_registry|constructor|exact V|apply mo_ok|intros _; exact mo_indices|exact (mo_size v V)]. Qed.
(** V13 does bind OriginCaller anew: what another runtime said of it is gone. *)
Definition mo_other : wold := WOld [mo_coin] 4 [].
Definition other_bytes : bytes := (magic ++ [Zb 13] ++ old_enc 13 mo_other)%list.
Example C82_old_origin : exists d1 left d2 after, ProcessMetadata 60 mx_reg (mo_bytes 13) = Ok (Some (13, d1), left) /\
  ProcessMetadata 60 left other_bytes = Ok (Some (13, d2), after) /\
  decode 9 (reg_env left) (Ctx 0 "" None) (map Zb [2; 0]) 0 "OriginCaller" <> decode 9 (reg_env after) (Ctx 0 "" None) (map Zb [2; 0]) 0 "OriginCaller".
Proof. eexists _, _, _, _. split; [vm_compute; reflexivity|]. split; [vm_compute; reflexivity|]. vm_compute. discriminate. Qed.

Print Assumptions C82_old.
Print Assumptions C82_old_at_once.
