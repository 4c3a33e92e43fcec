(** The hash functions in one call: sha3/hashes.go:41-71, sha3/shake.go:48-60.
    [h.Sum(digest[:0])] appends to an empty slice of the array's memory: the
    array has the digest only if it fits. *)

From Verif Require Import GoBase ModelTools ModelKeccak ModelSponge.

Definition append_into (size : nat) (b : bytes) : bytes :=
  if Nat.leb (List.length b) size then (b ++ repeat "000"%char (size - List.length b))%list else repeat "000"%char size.
Definition sum_into (size : nat) (h : sponge) (data : bytes) : res bytes :=
  d <- Write keccakF1600 h data ;; b <- Sum keccakF1600 d [] ;; Ok (append_into size b).
(** hashes.go:42-47, 50-55, 58-63, 66-71 *)
Definition Sum224 (data : bytes) : res bytes := sum_into 28 New224 data.
Definition Sum256 (data : bytes) : res bytes := sum_into 32 New256 data.
Definition Sum384 (data : bytes) : res bytes := sum_into 48 New384 data.
Definition Sum512 (data : bytes) : res bytes := sum_into 64 New512 data.
(** shake.go:49-53, 56-60: [n] is len(hash). *)
Definition ShakeSum128 (n : nat) (data : bytes) : res bytes := d <- Write keccakF1600 NewShake128 data ;; Ok (fst (Read keccakF1600 d n)).
Definition ShakeSum256 (n : nat) (data : bytes) : res bytes := d <- Write keccakF1600 NewShake256 data ;; Ok (fst (Read keccakF1600 d n)).
