(** Registrations from several goroutines: types/customType.go:152-179 cut at
    its lock operations. *)

From Verif Require Import GoBase ModelTools ModelVal ModelRegistry ModelRegister.

(** registry.go:22-25: version range and codec *)
Definition special : Type := (Z * Z * codec)%type.
(** A Go slice: backing array and length; arrays have a capacity and the cells
    written so far. *)
Record header := Header { h_arr : nat; h_len : nat }.
Definition heap : Type := list (nat * list special).
(** registry.go:28-31 *)
Record shared := Shared { sh_types : list (string * codec); sh_special : list (string * header); sh_heap : heap }.

Definition cells (hp : heap) (a : nat) : list special := snd (nth a hp (0%nat, [])).
Definition content (hp : heap) (h : header) : list special := firstn (h_len h) (cells hp (h_arr h)).

Fixpoint set_nth {A} (i : nat) (x : A) (l : list A) : list A :=
  match i, l with
  | _, [] => []
  | O, _ :: r => x :: r
  | S i, y :: r => y :: set_nth i x r
  end.

(** The append of Go: in place below the capacity, else into a new array with
    some room to spare. *)
Definition append (extra : nat) (hp : heap) (h : header) (sp : special) : heap * header :=
  let '(cap, l) := nth (h_arr h) hp (0%nat, []) in
  if Nat.ltb (h_len h) cap
  then (set_nth (h_arr h) (cap, firstn (h_len h) l ++ [sp] ++ skipn (S (h_len h)) l)%list hp, Header (h_arr h) (S (h_len h)))
  else ((hp ++ [((S (h_len h) + extra)%nat, firstn (h_len h) l ++ [sp])])%list, Header (List.length hp) (S (h_len h))).

(** customType.go:153-161: the entry a versioned key makes; None for a plain one *)
Definition target (key : string) (c : codec) : option (string * special) :=
  match split_char "#"%char key with
  | [name; v] => let '(lo, hi) := version_range v in Some (name, (lo, hi, c))
  | _ => None
  end.

(** Where a goroutine is within its first outstanding registration: before it,
    after the read (162-164), after the append (165-169). *)
Inductive pc := Ready | Found (o : option header) | Built (h : header).
Record thread := Thread { th_todo : list (string * codec); th_pc : pc }.

(** One step of a goroutine.  What happens under the write lock is one step;
    so is an append, which holds no lock: goroutines that write the same cell
    at once are taken to write one after the other. *)
Definition step (extra : nat) (s : shared) (t : thread) : shared * thread :=
  match th_todo t with
  | [] => (s, t)
  | (key, c) :: rest =>
      match target key c with
      | None => (Shared (upd key c (sh_types s)) (sh_special s) (sh_heap s), Thread rest Ready)
      | Some (name, sp) =>
          match th_pc t with
          | Ready => (s, Thread (th_todo t) (Found (assoc name (sh_special s))))
          | Found (Some h) =>
              let '(hp, h') := append extra (sh_heap s) h sp in
              (Shared (sh_types s) (sh_special s) hp, Thread (th_todo t) (Built h'))
          | Found None =>
              (Shared (sh_types s) (sh_special s) (sh_heap s ++ [(1%nat, [sp])])%list, Thread (th_todo t) (Built (Header (List.length (sh_heap s)) 1)))
          | Built h => (Shared (sh_types s) (upd name h (sh_special s)) (sh_heap s), Thread rest Ready)
          end
      end
  end.

(** A schedule names the goroutine of each step, and the spare room of its
    append. *)
Fixpoint exec (sched : list (nat * nat)) (s : shared) (ts : list thread) : shared * list thread :=
  match sched with
  | [] => (s, ts)
  | (i, extra) :: r =>
      match nth_error ts i with
      | None => exec r s ts
      | Some t => let '(s', t') := step extra s t in exec r s' (set_nth i t' ts)
      end
  end.
Definition start (p : list (string * codec)) : thread := Thread p Ready.
Definition finished (t : thread) : Prop := th_todo t = [].
