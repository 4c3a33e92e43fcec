(** The types of runtime metadata registered from several goroutines:
    types/customType.go:23-179 cut at its lock operations, for maps of one
    entry, which is how scaleInfo.go calls it. *)

From Verif Require Import GoBase ModelTools ModelVal ModelRegistry ModelRegister ModelConcurrent.

(** customType.go:68-117: the codec a type string stands for by its shape *)
Definition shape_codec (ts : string) : res (option codec) :=
  r <- reg_shape "" ts (Reg [] [] []) ;; Ok (assoc "" (r_types r)).
(** customType.go:119-149: the codec of a struct, an enum or a set *)
Definition plain_codec (t : tstruct) : res (option codec) :=
  r <- reg_plain "" t (Reg [] [] []) ;; Ok (assoc "" (r_types r)).
(** customType.go:43-149: the codec to be registered.  What an alias reads of
    TypeRegistry (46-48, and 57-59 for an alias of itself) is one step. *)
Definition resolve (r : reg) (key : string) (t : tstruct) : res (option codec) :=
  if String.eqb (t_type t) "string" then
    let ts := ConvertType (t_string t) in
    match assoc (to_lower ts) (r_types r) with
    | Some c => Ok (Some c)
    | None =>
        if String.eqb ts key then
          match assoc (to_lower (t_string t)) (r_types r) with Some c => Ok (Some c) | None => shape_codec ts end
        else shape_codec ts
    end
  else plain_codec t.

(** Where a goroutine is within its first outstanding call: before it; after
    28-30 found the name missing, or there (34); with the key of line 41; with
    the codec; after 162-164.  A goroutine that panics ends the program. *)
Inductive vpc := VReady | VAbsent | VCheck | VWrite (k : string) | VReg (k : string) (c : codec)
               | VApp (name : string) (l : option (list special)) (sp : special) | VDead.
Record vthread := VThread { v_todo : list (string * tstruct); v_pc : vpc }.

(** One step of a goroutine.  The comparison of line 34 reads the registry in
    several steps of the code and in one here; the list of versions is a value
    here (ModelConcurrent has its slices). *)
Definition vstep (fuel : nat) (r : reg) (th : vthread) : reg * vthread :=
  match v_todo th with
  | [] => (r, th)
  | (key, t) :: rest =>
      let at_ p := VThread (v_todo th) p in
      let next := VThread rest VReady in
      match v_pc th with
      | VReady =>
          if t_v14 t then
            match assoc key (r_v14 r) with
            | None => (r, at_ VAbsent)
            | Some _ => (r, if t_spec t =? 0 then next else at_ VCheck)
            end
          else (r, at_ (VWrite key))
      | VAbsent => (with_v14 (upd key t) r, at_ (VWrite key))
      | VCheck =>
          match EqTypeStringWithTypeStruct fuel r key t with
          | Ok true => (r, next)
          | Ok false => (r, at_ (VWrite (key ++ "#" ++ itoa (t_spec t) ++ "-" ++ itoa (t_spec t))))
          | _ => (r, at_ VDead)
          end
      | VWrite k =>
          match resolve r key t with
          | Ok (Some c) => (r, at_ (VReg (to_lower k) c))
          | Ok None => (r, next)
          | _ => (r, at_ VDead)
          end
      | VReg k c =>
          match target k c with
          | None => (with_types (upd k c) r, next)
          | Some (name, sp) => (r, at_ (VApp name (assoc name (r_special r)) sp))
          end
      | VApp name l sp => (with_special (upd name (match l with Some l => l ++ [sp] | None => [sp] end)%list) r, next)
      | VDead => (r, th)
      end
  end.

(** A schedule names the goroutine of each step. *)
Fixpoint vexec (fuel : nat) (sched : list nat) (r : reg) (ts : list vthread) : reg * list vthread :=
  match sched with
  | [] => (r, ts)
  | i :: s =>
      match nth_error ts i with
      | None => vexec fuel s r ts
      | Some th => let '(r', th') := vstep fuel r th in vexec fuel s r' (set_nth i th' ts)
      end
  end.
Definition vstart (p : list (string * tstruct)) : vthread := VThread p VReady.
Definition vfinished (th : vthread) : Prop := v_todo th = [].
