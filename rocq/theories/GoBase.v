(** Go run-time notions shared by the whole model: bytes, machine integers,
    panics, and the string functions of Go's standard library that the code
    calls.  Standard-library functions are modelled from their documentation;
    everything from the repository itself is in the Model files. *)

From Coq Require Export List ZArith NArith Ascii String Bool Lia.
From Coq Require Export ZifyBool ZifyNat ZifyN.
Export ListNotations.
Global Open Scope string_scope.
Global Open Scope Z_scope.

(** ** Bytes.  Go [byte]/[uint8] is [ascii] (eight bits). *)

Definition bytes := list ascii.
Bind Scope list_scope with bytes.

Definition bZ (a : ascii) : Z := Z.of_N (N_of_ascii a).
(** Go conversion [byte(z)]: keeps the low eight bits. *)
Definition Zb (z : Z) : ascii := ascii_of_N (Z.to_N (z mod 256)).

(** ** Machine integers (64-bit platform). *)

Definition two64 : Z := 2 ^ 64.
Definition two63 : Z := 2 ^ 63.
Definition u64 (z : Z) : Z := z mod two64.
Definition u32 (z : Z) : Z := z mod 2 ^ 32.
Definition u16 (z : Z) : Z := z mod 2 ^ 16.
(** Go conversion to [int]/[int64]: two's complement wrap. *)
Definition i64 (z : Z) : Z := (z + two63) mod two64 - two63.

(** ** Outcomes.  [Panic] is a Go panic, [OutOfFuel] stands for a Go call stack
    deeper than the given fuel; [Ok] is a normal return. *)

Inductive res (A : Type) : Type :=
| Ok (a : A)
| Panic (msg : string)
| OutOfFuel.
Arguments Ok {A} a.
Arguments Panic {A} msg.
Arguments OutOfFuel {A}.

Definition bind {A B} (r : res A) (f : A -> res B) : res B :=
  match r with
  | Ok a => f a
  | Panic m => Panic m
  | OutOfFuel => OutOfFuel
  end.

Notation "x <- r ;; k" := (bind r (fun x => k))
  (at level 61, r at next level, right associativity).
Notation "' p <- r ;; k" := (bind r (fun p => k))
  (at level 61, p pattern, r at next level, right associativity).

Definition is_ok {A} (r : res A) : Prop := exists a, r = Ok a.

(** ** Strings.  A Go [string] is a byte sequence: Coq's [string]. *)

Definition s2b (s : string) : bytes := list_ascii_of_string s.
Definition b2s (b : bytes) : string := string_of_list_ascii b.


(** strings.ToLower, ASCII letters only (other code points are left alone:
    simplification, type names in the code base are ASCII). *)
Definition lower_char (c : ascii) : ascii :=
  let z := bZ c in if (65 <=? z) && (z <=? 90) then Zb (z + 32) else c.
Definition upper_char (c : ascii) : ascii :=
  let z := bZ c in if (97 <=? z) && (z <=? 122) then Zb (z - 32) else c.
Fixpoint smap (f : ascii -> ascii) (s : string) : string :=
  match s with
  | EmptyString => EmptyString
  | String c s' => String (f c) (smap f s')
  end.
Definition to_lower (s : string) : string := smap lower_char s.
Definition to_upper (s : string) : string := smap upper_char s.

(** strings.EqualFold, ASCII letters only. *)
Definition equal_fold (a b : string) : bool := String.eqb (to_lower a) (to_lower b).

(** [prefix p s]: [s] starts with [p]. *)
Fixpoint prefix (p s : string) : bool :=
  match p with
  | EmptyString => true
  | String a p' =>
      match s with
      | EmptyString => false
      | String b s' => if Ascii.eqb a b then prefix p' s' else false
      end
  end.

(** strings.HasPrefix *)
Definition has_prefix (s p : string) : bool := prefix p s.

Fixpoint sdrop (n : nat) (s : string) : string :=
  match n, s with
  | O, _ => s
  | S n', String _ s' => sdrop n' s'
  | S _, EmptyString => EmptyString
  end.
Fixpoint stake (n : nat) (s : string) : string :=
  match n, s with
  | O, _ => EmptyString
  | S n', String c s' => String c (stake n' s')
  | S _, EmptyString => EmptyString
  end.

(** strings.TrimPrefix *)
Definition trim_prefix (s p : string) : string :=
  if has_prefix s p then sdrop (String.length p) s else s.

(** The last byte of a string, [s[len(s)-1:]]. *)
Fixpoint last_char (s : string) : option ascii :=
  match s with
  | EmptyString => None
  | String c EmptyString => Some c
  | String _ s' => last_char s'
  end.
Definition first_char (s : string) : option ascii :=
  match s with EmptyString => None | String c _ => Some c end.

(** [s[1:len(s)-1]] *)
Definition strip_ends (s : string) : string :=
  match s with
  | EmptyString => EmptyString
  | String _ s' => stake (String.length s' - 1) s'
  end.

(** strings.Split(s, sep) for a one-byte separator. *)
Fixpoint split_char (sep : ascii) (s : string) : list string :=
  match s with
  | EmptyString => [EmptyString]
  | String c s' =>
      if Ascii.eqb c sep then EmptyString :: split_char sep s'
      else match split_char sep s' with
           | [] => [String c EmptyString]
           | h :: t => String c h :: t
           end
  end.

(** strings.Join *)
Fixpoint join (sep : string) (l : list string) : string :=
  match l with
  | [] => ""
  | [x] => x
  | x :: xs => x ++ sep ++ join sep xs
  end.

(** strings.ReplaceAll(s, old, new) for a non-empty [old]; [skip] counts the
    bytes of a match still to be dropped. *)
Fixpoint repl (old new : string) (skip : nat) (s : string) : string :=
  match s with
  | EmptyString => EmptyString
  | String c s' =>
      match skip with
      | S k => repl old new k s'
      | O => if prefix old s then new ++ repl old new (String.length old - 1) s'
             else String c (repl old new O s')
      end
  end.
Definition replace_all (s old new : string) : string := repl old new O s.

(** strings.Replace(s, old, new, 1) for a non-empty [old]. *)
Fixpoint replace_first (s old new : string) : string :=
  match s with
  | EmptyString => EmptyString
  | String c s' =>
      if prefix old s then new ++ sdrop (String.length old) s
      else String c (replace_first s' old new)
  end.

(** strings.Contains *)
Fixpoint contains (s sub : string) : bool :=
  prefix sub s ||
  match s with
  | EmptyString => false
  | String _ s' => contains s' sub
  end.

(** The part after the last occurrence of [sub]; the whole string if there is
    none.  For a two-byte separator such as "::" (whose only self-overlap is on
    a run of colons) see [Split] in the namespace rule of GetCodecClass. *)

(** strings.TrimSpace, ASCII white space. *)
Definition is_space (c : ascii) : bool :=
  let z := bZ c in ((9 <=? z) && (z <=? 13)) || (z =? 32).
Fixpoint trim_left (s : string) : string :=
  match s with
  | EmptyString => EmptyString
  | String c s' => if is_space c then trim_left s' else s
  end.
Fixpoint trim_right (s : string) : string :=
  match s with
  | EmptyString => EmptyString
  | String c s' =>
      match trim_right s' with
      | EmptyString => if is_space c then EmptyString else String c EmptyString
      | r => String c r
      end
  end.
Definition trim_space (s : string) : string := trim_right (trim_left s).

(** ** Decimal numerals *)

Definition digit_char (d : Z) : ascii := Zb (48 + d).
Definition is_digit (c : ascii) : bool := let z := bZ c in (48 <=? z) && (z <=? 57).
Definition digit_val (c : ascii) : Z := bZ c - 48.

Fixpoint dec_loop (fuel : nat) (n : Z) (acc : string) : string :=
  match fuel with
  | O => acc
  | S f => if n <? 10 then String (digit_char n) acc
           else dec_loop f (n / 10) (String (digit_char (n mod 10)) acc)
  end.
(** strconv.Itoa / big.Int.String / fmt "%d". *)
Definition itoa (n : Z) : string :=
  if n <? 0 then "-" ++ dec_loop (S (Z.to_nat (Z.log2 (- n)))) (- n) ""
  else dec_loop (S (Z.to_nat (Z.log2 n))) n "".

(** Value of a digit string, accumulating from the left. *)
Fixpoint dec_val (acc : Z) (s : string) : Z :=
  match s with
  | EmptyString => acc
  | String c s' => dec_val (10 * acc + digit_val c) s'
  end.
Fixpoint all_digits (s : string) : bool :=
  match s with
  | EmptyString => true
  | String c s' => is_digit c && all_digits s'
  end.
(** Unsigned digits: at least one. *)
Definition parse_digits (s : string) : option Z :=
  match s with
  | EmptyString => None
  | _ => if all_digits s then Some (dec_val 0 s) else None
  end.
(** Optional sign then digits (big.Int.SetString base 10; strconv.ParseInt). *)
Definition parse_int (s : string) : option Z :=
  match s with
  | EmptyString => None
  | String c s' =>
      if Ascii.eqb c "-"%char then option_map Z.opp (parse_digits s')
      else if Ascii.eqb c "+"%char then parse_digits s'
      else parse_digits s
  end.

(** ** Association lists as Go maps.  Writing a key puts it in front; reading
    takes the first hit, so a write replaces the previous value of the key. *)

Fixpoint assoc {A} (k : string) (m : list (string * A)) : option A :=
  match m with
  | [] => None
  | (k', a) :: m' => if String.eqb k k' then Some a else assoc k m'
  end.
Definition upd {A} (k : string) (a : A) (m : list (string * A)) := (k, a) :: m.

(** Go map literal / assignment that keeps insertion order for the printed
    representation: replaces in place or appends. *)
Fixpoint map_set {A} (k : string) (a : A) (m : list (string * A)) : list (string * A) :=
  match m with
  | [] => [(k, a)]
  | (k', a') :: m' => if String.eqb k k' then (k, a) :: m' else (k', a') :: map_set k a m'
  end.
