(** An EventsDecoder as an object that is initialised and run any number of
    times: event.go:11-23 and 32-46 with the fields it keeps between runs.
    ModelEvents.v is one run. *)

From Verif Require Import GoBase ModelTools ModelVal ModelRegistry ModelDecode ModelScaleInfo ModelMetadata ModelEvents.

(** types/base.go:50-66: the fields Init does not always write and Process
    reads.  The records are read by a new EventRecord (event.go:34-38), which
    takes Data and Spec, so that nothing is left in the decoder itself but the
    position and Value; Init writes both. *)
Record edec := EDec { e_spec : Z; e_module : string }.
(** EventsDecoder{} *)
Definition new_edec : edec := EDec 0 "".
(** What is given to Init: the option, with the metadata, and the bytes
    (types/base.go:16-27). *)
Record eopt := EOpt { eo_spec : Z; eo_module : string; eo_version : Z; eo_events : table mevent; eo_calls : metadata }.
(** event.go:16-23 and types/base.go:68-96: an option with spec 0 or without
    a module leaves those of before; the metadata is always replaced. *)
Definition e_init (opt : eopt) (d : edec) : edec :=
  EDec (if eo_spec opt =? 0 then e_spec d else eo_spec opt) (if String.eqb (eo_module opt) "" then e_module d else eo_module opt).
(** event.go:32-46 *)
Definition e_process (fuel : nat) (E : env) (opt : eopt) (data : bytes) (d : edec) : res (list erecord) :=
  events_process fuel E (EvCtx (e_spec d) (eo_version opt) (eo_events opt) (eo_calls opt)) data (e_module d).
(** Init and Process, a number of times; a run that panics leaves the fields as
    Init has set them. *)
Fixpoint e_runs (fuel : nat) (E : env) (l : list (eopt * bytes)) (d : edec) : list (res (list erecord)) * edec :=
  match l with
  | [] => ([], d)
  | (opt, data) :: r =>
      let d' := e_init opt d in
      let '(xs, d'') := e_runs fuel E r d' in (e_process fuel E opt data d' :: xs, d'')
  end.
