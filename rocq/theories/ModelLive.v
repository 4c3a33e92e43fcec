(** Decoding while other goroutines register types: registry.go:193-290 and
    types/base.go:158-187 with the registry read anew at every lock operation. *)

From Verif Require Import GoBase ModelTools ModelVal ModelRegistry ModelDecode ModelRegister.

(** The registry as it is at the n-th read of the decoding goroutine; others may
    change it between any two reads. *)
Definition world := nat -> reg.

Section Live.
Variable w : world.
Variable like : env.   (* the parts of an environment that are no registry *)

(** registry.go:270-290: one read of specialRegistry *)
Definition special_live (n : nat) (t : string) (spec : Z) : option codec := specialVersionCodec (reg_env (w n)) t spec.
(** registry.go:193-224: and, if that gives nothing, one of TypeRegistry (198-200) *)
Definition instant_live (n : nat) (module t : string) (spec : Z) : res (option codec * nat) :=
  let t := ModuleType (to_lower t) module in
  match special_live n t spec with
  | Some c => Ok (Some c, S n)
  | None =>
      match assoc (to_lower t) (r_types (w (S n))) with
      | Some c => Ok (Some c, S (S n))
      | None =>
          if String.eqb t "[]" then Ok (None, S (S n))
          else match first_char t, last_char t with
               | Some a, Some z =>
                   Ok (if Ascii.eqb a "["%char && Ascii.eqb z "]"%char then fixed_array t else None, S (S n))
               | _, _ => idx_panic
               end
      end
  end.
(** registry.go:226-268 *)
Fixpoint class_live (fuel n : nat) (module typeString : string) (spec : Z) : res (option (codec * string) * nat) :=
  let ts := ConvertType typeString in
  match last_char ts with
  | None => Panic "runtime error: slice bounds out of range"
  | Some z =>
      let complex := Ascii.eqb z ">"%char in
      '(full, n) <- (if complex then instant_live n module ts spec else Ok (None, n)) ;;
      match full with
      | Some c => Ok (Some (c, ""), n)
      | None =>
          let parts := if complex then generic_parts ts else None in
          '(found, n) <- match parts with
                         | Some (name, sub) =>
                             '(r, n) <- instant_live n module name spec ;;
                             Ok (match r with Some c => Some (c, sub) | None => None end, n)
                         | None =>
                             '(r, n) <- instant_live n module ts spec ;;
                             Ok (match r with Some c => Some (c, "") | None => None end, n)
                         end ;;
          match found with
          | Some p => Ok (Some p, n)
          | None =>
              if negb (String.eqb ts "()") && prefix "(" ts && Ascii.eqb z ")"%char then
                '(r, n) <- instant_live n module "Struct" spec ;;
                match r with
                | Some (CStruct _) => Ok (Some (CStruct (buildStruct ts), ""), n)
                | _ => Panic "interface conversion: not *types.Struct"
                end
              else if contains ts "::" && negb (String.eqb ts "::") then
                match fuel with
                | O => OutOfFuel
                | S f => class_live f n module (last_seg ts O ts) spec
                end
              else Ok (None, n)
          end
      end
  end.

(** The outcome of a decode and the number of reads so far *)
Definition live_outcome := res (val * Z * list string * nat).
(** ModelDecode.run with the reads counted *)
Fixpoint run_live (rec : nat -> ctx -> bytes -> Z -> string -> live_outcome) (start : Z) (p : prog) (n : nat) (data : bytes) (off : Z) (calls : list string)
  : live_outcome :=
  match p with
  | Ret v => Ok (v, off, calls, n)
  | Fail m => Panic m
  | Next k f =>
      '(d, off') <- next_bytes data off (i64 k) ;;
      run_live rec start (f d) n data off' calls
  | Sub c ts k =>
      '(v, off', cs, n) <- rec n c data off ts ;;
      run_live rec start (k v) n data off' (calls ++ cs)%list
  | Other b c keep ts k =>
      '(v, _, cs, n) <- rec n c b 0 ts ;;
      run_live rec start (k v) n data off (if keep then calls ++ cs else calls)%list
  | Whole k => run_live rec start (k data) n data off calls
  | LogSpan k =>
      raw <- slice data start off ;;
      run_live rec start k n data off (calls ++ [BytesToHex raw])%list
  end.
(** types/base.go:158-187 *)
Fixpoint decode_live (fuel n : nat) (c : ctx) (data : bytes) (off : Z) (ts : string) : live_outcome :=
  match fuel with
  | O => OutOfFuel
  | S f =>
      '(r, n) <- class_live (String.length ts) n (x_module c) ts (x_spec c) ;;
      match r with
      | None => Panic ("Not found decoder class " ++ ts)
      | Some (cd, sub) => run_live (decode_live f) off (process like c (init_sub cd sub)) n data off []
      end
  end.
End Live.
