(** Property C83: an EventsDecoder may be used again. *)

From Verif Require Import GoBase SpecNum ModelTools ModelVal ModelRegistry ModelDecode ModelEncode ModelRegister SpecScale ModelScaleInfo ModelMetadata ModelEvents ModelEventsUse
  ProofsBase ProofsTools ProofsRun ProofsReads PropCodec.

(** One run of a new decoder. *)
Definition once (fuel : nat) (E : env) (opt : eopt) (data : bytes) : res (list erecord) := e_process fuel E opt data (e_init opt new_edec).
(** The last spec version given, or 0. *)
Fixpoint last_spec (before : Z) (l : list (eopt * bytes)) : Z :=
  match l with
  | [] => before
  | (opt, _) :: r => last_spec (if eo_spec opt =? 0 then before else eo_spec opt) r
  end.
Definition with_spec (sp : Z) (opt : eopt) : eopt := EOpt sp (eo_module opt) (eo_version opt) (eo_events opt) (eo_calls opt).

(** The pallet only plays a role while the number of events is read, and the
    library's own Compact<u32> is the same in every pallet. *)
Lemma count_same fuel E cx data m m' : std_env E -> events_process fuel E cx data m = events_process fuel E cx data m'.
Proof.
  intros S. unfold events_process. assert (X : pud fuel E cx data m 0 "Compact<u32>" = pud fuel E cx data m' 0 "Compact<u32>"); [|now rewrite X].
  unfold pud. destruct fuel as [|f]; [reflexivity|]. cbn [decode].
  destruct (std_compact_u32 E (ev_ctx cx m) S) as (cd & sub & -> & I). destruct (std_compact_u32 E (ev_ctx cx m') S) as (cd' & sub' & -> & I'). cbn [bind].
  rewrite I, I'. reflexivity.
Qed.

(** A run of a used decoder is the run of a new one, with the spec version of
    before if none is given. *)
Theorem C83_reuse fuel E d opt data : std_env E ->
  e_process fuel E opt data (e_init opt d) = once fuel E (with_spec (if eo_spec opt =? 0 then e_spec d else eo_spec opt) opt) data.
Proof.
  intros S. unfold once, e_process. cbn [with_spec eo_version eo_events eo_calls].
  assert (SP : e_spec (e_init opt d) = e_spec (e_init (with_spec (if eo_spec opt =? 0 then e_spec d else eo_spec opt) opt) new_edec)).
  { cbn [e_init e_spec with_spec eo_spec new_edec]. now destruct (Z.eqb_spec (if eo_spec opt =? 0 then e_spec d else eo_spec opt) 0). }
  rewrite SP. now apply count_same.
Qed.
(** Any number of runs, whether they end or panic. *)
Theorem C83_history fuel E l d opt data : std_env E ->
  fst (e_runs fuel E (l ++ [(opt, data)]) d) =
  (fst (e_runs fuel E l d) ++ [once fuel E (with_spec (if eo_spec opt =? 0 then last_spec (e_spec d) l else eo_spec opt) opt) data])%list.
Proof.
  intros S. revert d. induction l as [|[o b] l IH]; intros d.
  - cbn [app e_runs fst last_spec]. now rewrite C83_reuse.
  - cbn [app e_runs last_spec]. specialize (IH (e_init o d)). destruct (e_runs fuel E (l ++ [(opt, data)]) (e_init o d)). destruct (e_runs fuel E l (e_init o d)). cbn [fst] in *. now rewrite IH.
Qed.
(** When every option names its spec version, the past leaves no trace. *)
Theorem C83_runs fuel E l d : std_env E -> Forall (fun r => eo_spec (fst r) <> 0) l ->
  fst (e_runs fuel E l d) = map (fun r => once fuel E (fst r) (snd r)) l.
Proof.
  intros S F. revert d. induction F as [|[opt data] l N F IH]; intros d; [reflexivity|]. cbn [e_runs map fst snd] in *. specialize (IH (e_init opt d)).
  destruct (e_runs fuel E l (e_init opt d)) as [xs d']. cbn [fst] in *. rewrite IH, C83_reuse by exact S. f_equal. f_equal.
  destruct opt as [sp m v ev cs]. unfold with_spec. cbn [eo_spec eo_module eo_version eo_events eo_calls] in *. destruct (Z.eqb_spec sp 0); [contradiction|reflexivity].
Qed.

(** ** Examples *)
(** A type that is a u8 in the runtimes 1 to 10, and a u32 in the others. *)
Definition eu_reg : reg := Eval vm_compute in
  match RegCustomTypes 9 [("Widget", TStruct "string" "u32" [] [] 0 false 0)] base_reg with
  | Ok r => match RegCustomTypes 9 [("Widget#1-10", TStruct "string" "u8" [] [] 0 false 0)] r with Ok r => r | _ => base_reg end
  | _ => base_reg end.
Definition eu_env : env := reg_env eu_reg.
Definition eu_events : table mevent := [("0500", Entry "Coin" (MEvent "Made" ["Widget"] [] [] 0))].
Definition eu_opt (sp : Z) : eopt := EOpt sp "" 4 eu_events [].
Definition eu_new : bytes := map Zb [4; 1; 5; 0; 7; 0; 0; 0].
Definition eu_old : bytes := map Zb [4; 1; 5; 0; 7].
Lemma eu_std : std_env eu_env.
Proof. intros k cd I. cbn [In] in I. destruct I as [I|[I|[I|[]]]]; injection I as <- <-; split; vm_compute; reflexivity. Qed.
Definition made (v : val) (raw : string) : erecord := ERecord 1 0 "0500" "Coin" "Made" [EParam "Widget" "" "" v] [] raw 0.
(** A run of each runtime, and a run that panics in between. *)
Example C83_case : std_env eu_env /\
  fst (e_runs 9 eu_env [(eu_opt 20, eu_new); (eu_opt 20, map Zb [4; 1; 6; 0]); (eu_opt 5, eu_old)] new_edec) =
  [Ok [made (VU32 7) "07000000"]; Panic "Not find Event Lookup 0600, please check metadata info"; Ok [made (VInt 7) "07"]].
Proof. split; [exact eu_std|vm_compute; reflexivity]. Qed.
(** An option without a spec version: a new decoder reads the u32, one that was
    used for runtime 5 still reads the u8. *)
Theorem C83_spec_refuted : std_env eu_env /\ once 9 eu_env (eu_opt 0) eu_new = Ok [made (VU32 7) "07000000"] /\
  fst (e_runs 9 eu_env [(eu_opt 5, eu_old); (eu_opt 0, eu_new)] new_edec) = [Ok [made (VInt 7) "07"]; Ok [made (VInt 7) "07"]].
Proof. split; [exact eu_std|]. split; vm_compute; reflexivity. Qed.

Print Assumptions C83_reuse.
Print Assumptions C83_history.
Print Assumptions C83_runs.
Print Assumptions C83_spec_refuted.
