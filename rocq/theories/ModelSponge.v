(** pkg/go-ethereum/crypto/sha3: the sponge (sha3.go, xor_generic.go,
    xor_unaligned.go, hashes.go, shake.go) and utiles/crypto/keccak/hash.go. *)

From Verif Require Import GoBase ModelKeccak.

(** binary.LittleEndian.Uint64 and PutUint64. *)
Definition le64 (b : bytes) : N := fold_right (fun c n => (N_of_ascii c + 256 * n)%N) 0%N (firstn 8 b).
Definition put64 (n : N) : bytes := map (fun i => ascii_of_N (N.shiftr n (8 * i) mod 256)) [0; 1; 2; 3; 4; 5; 6; 7]%N.

(** xor_generic.go:12-20.  The rate is at most 168, so the 25 words suffice. *)
Fixpoint xorInGeneric (a : list N) (buf : bytes) : list N :=
  match a with
  | [] => []
  | x :: a' => if Nat.leb 8 (List.length buf) then N.lxor x (le64 buf) :: xorInGeneric a' (skipn 8 buf) else a
  end.
(** xor_generic.go:23-28: the new contents of [b]. *)
Fixpoint copyOutGeneric (a : list N) (b : bytes) : bytes :=
  match a with
  | [] => b
  | x :: a' => if Nat.leb 8 (List.length b) then (put64 x ++ copyOutGeneric a' (skipn 8 b))%list else b
  end.

(** xor_unaligned.go:12-46: the versions for little-endian machines, which read
    and write the words in memory. *)
Definition word_at (buf : bytes) (i : nat) : N := le64 (skipn (8 * i) buf).
Fixpoint xor_words (a : list N) (buf : bytes) (from upto i : nat) : list N :=
  match a with
  | [] => []
  | x :: a' => (if Nat.leb from i && Nat.ltb i upto then N.lxor x (word_at buf i) else x) :: xor_words a' buf from upto (S i)
  end.
Definition xorInUnaligned (a : list N) (buf : bytes) : list N :=
  let n := List.length buf in
  let a := if Nat.leb 72 n then xor_words a buf 0 9 0 else a in
  let a := if Nat.leb 104 n then xor_words a buf 9 13 0 else a in
  let a := if Nat.leb 136 n then xor_words a buf 13 17 0 else a in
  let a := if Nat.leb 144 n then xor_words a buf 17 18 0 else a in
  if Nat.leb 168 n then xor_words a buf 18 21 0 else a.
(** xor_unaligned.go:48-51 *)
Definition copyOutUnaligned (a : list N) (buf : bytes) : bytes :=
  let ab := firstn 168 (List.concat (map put64 a)) in
  (firstn (List.length buf) ab ++ skipn (List.length ab) buf)%list.

Section Sponge.
(** The permutation, keccakF1600. *)
Variable perm : list N -> list N.

Definition maxRate : nat := 168.   (* sha3.go:20 *)
(** sha3.go:23-47.  [buf] is storage[lo:hi]; a nil buf is storage[0:0]. *)
Record sponge := Sponge {
  sp_a : list N; sp_lo : nat; sp_hi : nat; sp_rate : nat; sp_ds : ascii;
  sp_storage : bytes; sp_outlen : nat; sp_squeezing : bool }.
Definition sp_buf (d : sponge) : bytes := firstn (sp_hi d - sp_lo d) (skipn (sp_lo d) (sp_storage d)).
Definition set_bytes (st : bytes) (i : nat) (b : bytes) : bytes := (firstn i st ++ b ++ skipn (i + List.length b) st)%list.

(** sha3.go:57-64 *)
Definition Reset (d : sponge) : sponge :=
  Sponge (repeat 0%N 25) 0 0 (sp_rate d) (sp_ds d) (sp_storage d) (sp_outlen d) false.
(** sha3.go:66-75.  The array is copied with the struct.  cap(d.buf) reaches to
    the end of the storage, not to the rate. *)
Definition clone (d : sponge) : res sponge :=
  if sp_squeezing d then
    let lo := Z.of_nat (sp_rate d) - (Z.of_nat maxRate - Z.of_nat (sp_lo d)) in
    if (0 <=? lo) && (lo <=? Z.of_nat (sp_rate d))
    then Ok (Sponge (sp_a d) (Z.to_nat lo) (sp_rate d) (sp_rate d) (sp_ds d) (sp_storage d) (sp_outlen d) true)
    else Panic "runtime error: slice bounds out of range"
  else Ok (Sponge (sp_a d) 0 (sp_hi d - sp_lo d) (sp_rate d) (sp_ds d) (sp_storage d) (sp_outlen d) false).
(** sha3.go:79-94 *)
Definition copy_out (d : sponge) (a : list N) : bytes := set_bytes (sp_storage d) 0 (copyOutGeneric a (firstn (sp_rate d) (sp_storage d))).
Definition permute (d : sponge) : sponge :=
  if sp_squeezing d then
    let a := perm (sp_a d) in
    Sponge a 0 (sp_rate d) (sp_rate d) (sp_ds d) (copy_out d a) (sp_outlen d) true
  else
    Sponge (perm (xorInGeneric (sp_a d) (sp_buf d))) 0 0 (sp_rate d) (sp_ds d) (sp_storage d) (sp_outlen d) false.
(** sha3.go:98-121.  The appended byte fits: a full buffer has been permuted. *)
Definition xor80 (c : ascii) : ascii := ascii_of_N (N.lxor (N_of_ascii c) 128).
Definition padAndPermute (d : sponge) : sponge :=
  let r := sp_rate d in
  let st := set_bytes (sp_storage d) (sp_hi d) [sp_ds d] in
  let zerosStart := S (sp_hi d - sp_lo d) in
  let st := set_bytes st zerosStart (repeat "000"%char (r - zerosStart)) in
  let st := set_bytes st (r - 1) [xor80 (nth (r - 1) st "000"%char)] in
  let d1 := permute (Sponge (sp_a d) 0 r r (sp_ds d) st (sp_outlen d) (sp_squeezing d)) in
  Sponge (sp_a d1) 0 r r (sp_ds d) (copy_out d1 (sp_a d1)) (sp_outlen d) true.
(** sha3.go:134-154 *)
Fixpoint write_loop (fuel : nat) (d : sponge) (p : bytes) : sponge :=
  match fuel, p with
  | O, _ | _, [] => d
  | S f, _ =>
      let r := sp_rate d in
      if Nat.eqb (sp_hi d - sp_lo d) 0 && Nat.leb r (List.length p) then
        write_loop f (Sponge (perm (xorInGeneric (sp_a d) (firstn r p))) (sp_lo d) (sp_hi d) r (sp_ds d) (sp_storage d) (sp_outlen d) (sp_squeezing d)) (skipn r p)
      else
        let todo := Nat.min (r - (sp_hi d - sp_lo d)) (List.length p) in
        let d1 := Sponge (sp_a d) (sp_lo d) (sp_hi d + todo) r (sp_ds d) (set_bytes (sp_storage d) (sp_hi d) (firstn todo p)) (sp_outlen d) (sp_squeezing d) in
        write_loop f (if Nat.eqb (sp_hi d1 - sp_lo d1) r then permute d1 else d1) (skipn todo p)
  end.
(** sha3.go:125-157 *)
Definition Write (d : sponge) (p : bytes) : res sponge :=
  if sp_squeezing d then Panic "sha3: write to sponge after read" else Ok (write_loop (List.length p) d p).
(** sha3.go:169-178 *)
Fixpoint read_loop (fuel : nat) (d : sponge) (n : nat) : bytes * sponge :=
  match fuel, n with
  | O, _ | _, O => ([], d)
  | S f, _ =>
      let k := Nat.min n (sp_hi d - sp_lo d) in
      let d1 := Sponge (sp_a d) (sp_lo d + k) (sp_hi d) (sp_rate d) (sp_ds d) (sp_storage d) (sp_outlen d) (sp_squeezing d) in
      let '(b, d2) := read_loop f (if Nat.eqb (sp_hi d1 - sp_lo d1) 0 then permute d1 else d1) (n - k) in
      (firstn k (sp_buf d) ++ b, d2)%list
  end.
(** sha3.go:160-181 *)
Definition Read (d : sponge) (n : nat) : bytes * sponge :=
  read_loop n (if sp_squeezing d then d else padAndPermute d) n.
(** sha3.go:185-192 *)
Definition Sum (d : sponge) (pre : bytes) : res bytes :=
  dup <- clone d ;; Ok (pre ++ fst (Read dup (sp_outlen dup)))%list.

Definition new_sponge (rate outlen : nat) (ds : ascii) : sponge :=
  Sponge (repeat 0%N 25) 0 0 rate ds (repeat "000"%char 168) outlen false.
Fixpoint write_all (d : sponge) (l : list bytes) : res sponge :=
  match l with
  | [] => Ok d
  | b :: l' => d' <- Write d b ;; write_all d' l'
  end.
End Sponge.

(** hashes.go:16-39 and shake.go:41-46: rate, output length, separator. *)
Definition NewKeccak256 := new_sponge 136 32 "001".
Definition NewKeccak512 := new_sponge 72 64 "001".
Definition New224 := new_sponge 144 28 "006".
Definition New256 := new_sponge 136 32 "006".
Definition New384 := new_sponge 104 48 "006".
Definition New512 := new_sponge 72 64 "006".
Definition NewShake128 := new_sponge 168 0 "031".
Definition NewShake256 := new_sponge 136 0 "031".
(** utiles/crypto/keccak/hash.go:5-11 *)
Definition Keccak256 (data : list bytes) : res bytes :=
  d <- write_all keccakF1600 NewKeccak256 data ;; Sum keccakF1600 d [].
