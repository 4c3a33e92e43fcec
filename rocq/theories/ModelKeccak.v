(** pkg/go-ethereum/crypto/sha3: the Keccak permutation (portable version) and
    the sponge built on it. *)

From Verif Require Import GoBase.

Local Open Scope N_scope.

(** uint64 shift left. *)
Definition shl64 (x k : N) : N := (N.shiftl x k) mod 2 ^ 64.
(** keccakf.go:10-35 *)
Definition rc_table : list N :=
  [1; 32898; 9223372036854808714; 9223372039002292224;
   32907; 2147483649; 9223372039002292353; 9223372036854808585;
   138; 136; 2147516425; 2147483658;
   2147516555; 9223372036854775947; 9223372036854808713; 9223372036854808579;
   9223372036854808578; 9223372036854775936; 32778; 9223372039002259466;
   9223372039002292353; 9223372036854808704; 2147483649; 9223372039002292232].

(** keccakF1600, keccakf.go:39-410: the body of the loop, one definition per
    round, statement by statement; [a] is the array of 25 words. *)
(** keccakf.go:48-138 *)
Definition keccak_round1 (rc : N) (a : list N) : list N :=
  match a with
  | [a0; a1; a2; a3; a4; a5; a6; a7; a8; a9; a10; a11; a12; a13; a14; a15; a16; a17; a18; a19; a20; a21; a22; a23; a24] =>
      let bc0 := N.lxor (N.lxor (N.lxor (N.lxor a0 a5) a10) a15) a20 in
      let bc1 := N.lxor (N.lxor (N.lxor (N.lxor a1 a6) a11) a16) a21 in
      let bc2 := N.lxor (N.lxor (N.lxor (N.lxor a2 a7) a12) a17) a22 in
      let bc3 := N.lxor (N.lxor (N.lxor (N.lxor a3 a8) a13) a18) a23 in
      let bc4 := N.lxor (N.lxor (N.lxor (N.lxor a4 a9) a14) a19) a24 in
      let d0 := N.lxor bc4 (N.lor (shl64 bc1 1) (N.shiftr bc1 63)) in
      let d1 := N.lxor bc0 (N.lor (shl64 bc2 1) (N.shiftr bc2 63)) in
      let d2 := N.lxor bc1 (N.lor (shl64 bc3 1) (N.shiftr bc3 63)) in
      let d3 := N.lxor bc2 (N.lor (shl64 bc4 1) (N.shiftr bc4 63)) in
      let d4 := N.lxor bc3 (N.lor (shl64 bc0 1) (N.shiftr bc0 63)) in
      let bc0 := N.lxor a0 d0 in
      let t := N.lxor a6 d1 in
      let bc1 := N.lor (shl64 t 44) (N.shiftr t (64 - 44)) in
      let t := N.lxor a12 d2 in
      let bc2 := N.lor (shl64 t 43) (N.shiftr t (64 - 43)) in
      let t := N.lxor a18 d3 in
      let bc3 := N.lor (shl64 t 21) (N.shiftr t (64 - 21)) in
      let t := N.lxor a24 d4 in
      let bc4 := N.lor (shl64 t 14) (N.shiftr t (64 - 14)) in
      let a0 := N.lxor (N.lxor bc0 (N.ldiff bc2 bc1)) rc in
      let a6 := N.lxor bc1 (N.ldiff bc3 bc2) in
      let a12 := N.lxor bc2 (N.ldiff bc4 bc3) in
      let a18 := N.lxor bc3 (N.ldiff bc0 bc4) in
      let a24 := N.lxor bc4 (N.ldiff bc1 bc0) in
      let t := N.lxor a10 d0 in
      let bc2 := N.lor (shl64 t 3) (N.shiftr t (64 - 3)) in
      let t := N.lxor a16 d1 in
      let bc3 := N.lor (shl64 t 45) (N.shiftr t (64 - 45)) in
      let t := N.lxor a22 d2 in
      let bc4 := N.lor (shl64 t 61) (N.shiftr t (64 - 61)) in
      let t := N.lxor a3 d3 in
      let bc0 := N.lor (shl64 t 28) (N.shiftr t (64 - 28)) in
      let t := N.lxor a9 d4 in
      let bc1 := N.lor (shl64 t 20) (N.shiftr t (64 - 20)) in
      let a10 := N.lxor bc0 (N.ldiff bc2 bc1) in
      let a16 := N.lxor bc1 (N.ldiff bc3 bc2) in
      let a22 := N.lxor bc2 (N.ldiff bc4 bc3) in
      let a3 := N.lxor bc3 (N.ldiff bc0 bc4) in
      let a9 := N.lxor bc4 (N.ldiff bc1 bc0) in
      let t := N.lxor a20 d0 in
      let bc4 := N.lor (shl64 t 18) (N.shiftr t (64 - 18)) in
      let t := N.lxor a1 d1 in
      let bc0 := N.lor (shl64 t 1) (N.shiftr t (64 - 1)) in
      let t := N.lxor a7 d2 in
      let bc1 := N.lor (shl64 t 6) (N.shiftr t (64 - 6)) in
      let t := N.lxor a13 d3 in
      let bc2 := N.lor (shl64 t 25) (N.shiftr t (64 - 25)) in
      let t := N.lxor a19 d4 in
      let bc3 := N.lor (shl64 t 8) (N.shiftr t (64 - 8)) in
      let a20 := N.lxor bc0 (N.ldiff bc2 bc1) in
      let a1 := N.lxor bc1 (N.ldiff bc3 bc2) in
      let a7 := N.lxor bc2 (N.ldiff bc4 bc3) in
      let a13 := N.lxor bc3 (N.ldiff bc0 bc4) in
      let a19 := N.lxor bc4 (N.ldiff bc1 bc0) in
      let t := N.lxor a5 d0 in
      let bc1 := N.lor (shl64 t 36) (N.shiftr t (64 - 36)) in
      let t := N.lxor a11 d1 in
      let bc2 := N.lor (shl64 t 10) (N.shiftr t (64 - 10)) in
      let t := N.lxor a17 d2 in
      let bc3 := N.lor (shl64 t 15) (N.shiftr t (64 - 15)) in
      let t := N.lxor a23 d3 in
      let bc4 := N.lor (shl64 t 56) (N.shiftr t (64 - 56)) in
      let t := N.lxor a4 d4 in
      let bc0 := N.lor (shl64 t 27) (N.shiftr t (64 - 27)) in
      let a5 := N.lxor bc0 (N.ldiff bc2 bc1) in
      let a11 := N.lxor bc1 (N.ldiff bc3 bc2) in
      let a17 := N.lxor bc2 (N.ldiff bc4 bc3) in
      let a23 := N.lxor bc3 (N.ldiff bc0 bc4) in
      let a4 := N.lxor bc4 (N.ldiff bc1 bc0) in
      let t := N.lxor a15 d0 in
      let bc3 := N.lor (shl64 t 41) (N.shiftr t (64 - 41)) in
      let t := N.lxor a21 d1 in
      let bc4 := N.lor (shl64 t 2) (N.shiftr t (64 - 2)) in
      let t := N.lxor a2 d2 in
      let bc0 := N.lor (shl64 t 62) (N.shiftr t (64 - 62)) in
      let t := N.lxor a8 d3 in
      let bc1 := N.lor (shl64 t 55) (N.shiftr t (64 - 55)) in
      let t := N.lxor a14 d4 in
      let bc2 := N.lor (shl64 t 39) (N.shiftr t (64 - 39)) in
      let a15 := N.lxor bc0 (N.ldiff bc2 bc1) in
      let a21 := N.lxor bc1 (N.ldiff bc3 bc2) in
      let a2 := N.lxor bc2 (N.ldiff bc4 bc3) in
      let a8 := N.lxor bc3 (N.ldiff bc0 bc4) in
      let a14 := N.lxor bc4 (N.ldiff bc1 bc0) in
      [a0; a1; a2; a3; a4; a5; a6; a7; a8; a9; a10; a11; a12; a13; a14; a15; a16; a17; a18; a19; a20; a21; a22; a23; a24]
  | _ => a
  end.
(** keccakf.go:139-229 *)
Definition keccak_round2 (rc : N) (a : list N) : list N :=
  match a with
  | [a0; a1; a2; a3; a4; a5; a6; a7; a8; a9; a10; a11; a12; a13; a14; a15; a16; a17; a18; a19; a20; a21; a22; a23; a24] =>
      let bc0 := N.lxor (N.lxor (N.lxor (N.lxor a0 a5) a10) a15) a20 in
      let bc1 := N.lxor (N.lxor (N.lxor (N.lxor a1 a6) a11) a16) a21 in
      let bc2 := N.lxor (N.lxor (N.lxor (N.lxor a2 a7) a12) a17) a22 in
      let bc3 := N.lxor (N.lxor (N.lxor (N.lxor a3 a8) a13) a18) a23 in
      let bc4 := N.lxor (N.lxor (N.lxor (N.lxor a4 a9) a14) a19) a24 in
      let d0 := N.lxor bc4 (N.lor (shl64 bc1 1) (N.shiftr bc1 63)) in
      let d1 := N.lxor bc0 (N.lor (shl64 bc2 1) (N.shiftr bc2 63)) in
      let d2 := N.lxor bc1 (N.lor (shl64 bc3 1) (N.shiftr bc3 63)) in
      let d3 := N.lxor bc2 (N.lor (shl64 bc4 1) (N.shiftr bc4 63)) in
      let d4 := N.lxor bc3 (N.lor (shl64 bc0 1) (N.shiftr bc0 63)) in
      let bc0 := N.lxor a0 d0 in
      let t := N.lxor a16 d1 in
      let bc1 := N.lor (shl64 t 44) (N.shiftr t (64 - 44)) in
      let t := N.lxor a7 d2 in
      let bc2 := N.lor (shl64 t 43) (N.shiftr t (64 - 43)) in
      let t := N.lxor a23 d3 in
      let bc3 := N.lor (shl64 t 21) (N.shiftr t (64 - 21)) in
      let t := N.lxor a14 d4 in
      let bc4 := N.lor (shl64 t 14) (N.shiftr t (64 - 14)) in
      let a0 := N.lxor (N.lxor bc0 (N.ldiff bc2 bc1)) rc in
      let a16 := N.lxor bc1 (N.ldiff bc3 bc2) in
      let a7 := N.lxor bc2 (N.ldiff bc4 bc3) in
      let a23 := N.lxor bc3 (N.ldiff bc0 bc4) in
      let a14 := N.lxor bc4 (N.ldiff bc1 bc0) in
      let t := N.lxor a20 d0 in
      let bc2 := N.lor (shl64 t 3) (N.shiftr t (64 - 3)) in
      let t := N.lxor a11 d1 in
      let bc3 := N.lor (shl64 t 45) (N.shiftr t (64 - 45)) in
      let t := N.lxor a2 d2 in
      let bc4 := N.lor (shl64 t 61) (N.shiftr t (64 - 61)) in
      let t := N.lxor a18 d3 in
      let bc0 := N.lor (shl64 t 28) (N.shiftr t (64 - 28)) in
      let t := N.lxor a9 d4 in
      let bc1 := N.lor (shl64 t 20) (N.shiftr t (64 - 20)) in
      let a20 := N.lxor bc0 (N.ldiff bc2 bc1) in
      let a11 := N.lxor bc1 (N.ldiff bc3 bc2) in
      let a2 := N.lxor bc2 (N.ldiff bc4 bc3) in
      let a18 := N.lxor bc3 (N.ldiff bc0 bc4) in
      let a9 := N.lxor bc4 (N.ldiff bc1 bc0) in
      let t := N.lxor a15 d0 in
      let bc4 := N.lor (shl64 t 18) (N.shiftr t (64 - 18)) in
      let t := N.lxor a6 d1 in
      let bc0 := N.lor (shl64 t 1) (N.shiftr t (64 - 1)) in
      let t := N.lxor a22 d2 in
      let bc1 := N.lor (shl64 t 6) (N.shiftr t (64 - 6)) in
      let t := N.lxor a13 d3 in
      let bc2 := N.lor (shl64 t 25) (N.shiftr t (64 - 25)) in
      let t := N.lxor a4 d4 in
      let bc3 := N.lor (shl64 t 8) (N.shiftr t (64 - 8)) in
      let a15 := N.lxor bc0 (N.ldiff bc2 bc1) in
      let a6 := N.lxor bc1 (N.ldiff bc3 bc2) in
      let a22 := N.lxor bc2 (N.ldiff bc4 bc3) in
      let a13 := N.lxor bc3 (N.ldiff bc0 bc4) in
      let a4 := N.lxor bc4 (N.ldiff bc1 bc0) in
      let t := N.lxor a10 d0 in
      let bc1 := N.lor (shl64 t 36) (N.shiftr t (64 - 36)) in
      let t := N.lxor a1 d1 in
      let bc2 := N.lor (shl64 t 10) (N.shiftr t (64 - 10)) in
      let t := N.lxor a17 d2 in
      let bc3 := N.lor (shl64 t 15) (N.shiftr t (64 - 15)) in
      let t := N.lxor a8 d3 in
      let bc4 := N.lor (shl64 t 56) (N.shiftr t (64 - 56)) in
      let t := N.lxor a24 d4 in
      let bc0 := N.lor (shl64 t 27) (N.shiftr t (64 - 27)) in
      let a10 := N.lxor bc0 (N.ldiff bc2 bc1) in
      let a1 := N.lxor bc1 (N.ldiff bc3 bc2) in
      let a17 := N.lxor bc2 (N.ldiff bc4 bc3) in
      let a8 := N.lxor bc3 (N.ldiff bc0 bc4) in
      let a24 := N.lxor bc4 (N.ldiff bc1 bc0) in
      let t := N.lxor a5 d0 in
      let bc3 := N.lor (shl64 t 41) (N.shiftr t (64 - 41)) in
      let t := N.lxor a21 d1 in
      let bc4 := N.lor (shl64 t 2) (N.shiftr t (64 - 2)) in
      let t := N.lxor a12 d2 in
      let bc0 := N.lor (shl64 t 62) (N.shiftr t (64 - 62)) in
      let t := N.lxor a3 d3 in
      let bc1 := N.lor (shl64 t 55) (N.shiftr t (64 - 55)) in
      let t := N.lxor a19 d4 in
      let bc2 := N.lor (shl64 t 39) (N.shiftr t (64 - 39)) in
      let a5 := N.lxor bc0 (N.ldiff bc2 bc1) in
      let a21 := N.lxor bc1 (N.ldiff bc3 bc2) in
      let a12 := N.lxor bc2 (N.ldiff bc4 bc3) in
      let a3 := N.lxor bc3 (N.ldiff bc0 bc4) in
      let a19 := N.lxor bc4 (N.ldiff bc1 bc0) in
      [a0; a1; a2; a3; a4; a5; a6; a7; a8; a9; a10; a11; a12; a13; a14; a15; a16; a17; a18; a19; a20; a21; a22; a23; a24]
  | _ => a
  end.
(** keccakf.go:230-320 *)
Definition keccak_round3 (rc : N) (a : list N) : list N :=
  match a with
  | [a0; a1; a2; a3; a4; a5; a6; a7; a8; a9; a10; a11; a12; a13; a14; a15; a16; a17; a18; a19; a20; a21; a22; a23; a24] =>
      let bc0 := N.lxor (N.lxor (N.lxor (N.lxor a0 a5) a10) a15) a20 in
      let bc1 := N.lxor (N.lxor (N.lxor (N.lxor a1 a6) a11) a16) a21 in
      let bc2 := N.lxor (N.lxor (N.lxor (N.lxor a2 a7) a12) a17) a22 in
      let bc3 := N.lxor (N.lxor (N.lxor (N.lxor a3 a8) a13) a18) a23 in
      let bc4 := N.lxor (N.lxor (N.lxor (N.lxor a4 a9) a14) a19) a24 in
      let d0 := N.lxor bc4 (N.lor (shl64 bc1 1) (N.shiftr bc1 63)) in
      let d1 := N.lxor bc0 (N.lor (shl64 bc2 1) (N.shiftr bc2 63)) in
      let d2 := N.lxor bc1 (N.lor (shl64 bc3 1) (N.shiftr bc3 63)) in
      let d3 := N.lxor bc2 (N.lor (shl64 bc4 1) (N.shiftr bc4 63)) in
      let d4 := N.lxor bc3 (N.lor (shl64 bc0 1) (N.shiftr bc0 63)) in
      let bc0 := N.lxor a0 d0 in
      let t := N.lxor a11 d1 in
      let bc1 := N.lor (shl64 t 44) (N.shiftr t (64 - 44)) in
      let t := N.lxor a22 d2 in
      let bc2 := N.lor (shl64 t 43) (N.shiftr t (64 - 43)) in
      let t := N.lxor a8 d3 in
      let bc3 := N.lor (shl64 t 21) (N.shiftr t (64 - 21)) in
      let t := N.lxor a19 d4 in
      let bc4 := N.lor (shl64 t 14) (N.shiftr t (64 - 14)) in
      let a0 := N.lxor (N.lxor bc0 (N.ldiff bc2 bc1)) rc in
      let a11 := N.lxor bc1 (N.ldiff bc3 bc2) in
      let a22 := N.lxor bc2 (N.ldiff bc4 bc3) in
      let a8 := N.lxor bc3 (N.ldiff bc0 bc4) in
      let a19 := N.lxor bc4 (N.ldiff bc1 bc0) in
      let t := N.lxor a15 d0 in
      let bc2 := N.lor (shl64 t 3) (N.shiftr t (64 - 3)) in
      let t := N.lxor a1 d1 in
      let bc3 := N.lor (shl64 t 45) (N.shiftr t (64 - 45)) in
      let t := N.lxor a12 d2 in
      let bc4 := N.lor (shl64 t 61) (N.shiftr t (64 - 61)) in
      let t := N.lxor a23 d3 in
      let bc0 := N.lor (shl64 t 28) (N.shiftr t (64 - 28)) in
      let t := N.lxor a9 d4 in
      let bc1 := N.lor (shl64 t 20) (N.shiftr t (64 - 20)) in
      let a15 := N.lxor bc0 (N.ldiff bc2 bc1) in
      let a1 := N.lxor bc1 (N.ldiff bc3 bc2) in
      let a12 := N.lxor bc2 (N.ldiff bc4 bc3) in
      let a23 := N.lxor bc3 (N.ldiff bc0 bc4) in
      let a9 := N.lxor bc4 (N.ldiff bc1 bc0) in
      let t := N.lxor a5 d0 in
      let bc4 := N.lor (shl64 t 18) (N.shiftr t (64 - 18)) in
      let t := N.lxor a16 d1 in
      let bc0 := N.lor (shl64 t 1) (N.shiftr t (64 - 1)) in
      let t := N.lxor a2 d2 in
      let bc1 := N.lor (shl64 t 6) (N.shiftr t (64 - 6)) in
      let t := N.lxor a13 d3 in
      let bc2 := N.lor (shl64 t 25) (N.shiftr t (64 - 25)) in
      let t := N.lxor a24 d4 in
      let bc3 := N.lor (shl64 t 8) (N.shiftr t (64 - 8)) in
      let a5 := N.lxor bc0 (N.ldiff bc2 bc1) in
      let a16 := N.lxor bc1 (N.ldiff bc3 bc2) in
      let a2 := N.lxor bc2 (N.ldiff bc4 bc3) in
      let a13 := N.lxor bc3 (N.ldiff bc0 bc4) in
      let a24 := N.lxor bc4 (N.ldiff bc1 bc0) in
      let t := N.lxor a20 d0 in
      let bc1 := N.lor (shl64 t 36) (N.shiftr t (64 - 36)) in
      let t := N.lxor a6 d1 in
      let bc2 := N.lor (shl64 t 10) (N.shiftr t (64 - 10)) in
      let t := N.lxor a17 d2 in
      let bc3 := N.lor (shl64 t 15) (N.shiftr t (64 - 15)) in
      let t := N.lxor a3 d3 in
      let bc4 := N.lor (shl64 t 56) (N.shiftr t (64 - 56)) in
      let t := N.lxor a14 d4 in
      let bc0 := N.lor (shl64 t 27) (N.shiftr t (64 - 27)) in
      let a20 := N.lxor bc0 (N.ldiff bc2 bc1) in
      let a6 := N.lxor bc1 (N.ldiff bc3 bc2) in
      let a17 := N.lxor bc2 (N.ldiff bc4 bc3) in
      let a3 := N.lxor bc3 (N.ldiff bc0 bc4) in
      let a14 := N.lxor bc4 (N.ldiff bc1 bc0) in
      let t := N.lxor a10 d0 in
      let bc3 := N.lor (shl64 t 41) (N.shiftr t (64 - 41)) in
      let t := N.lxor a21 d1 in
      let bc4 := N.lor (shl64 t 2) (N.shiftr t (64 - 2)) in
      let t := N.lxor a7 d2 in
      let bc0 := N.lor (shl64 t 62) (N.shiftr t (64 - 62)) in
      let t := N.lxor a18 d3 in
      let bc1 := N.lor (shl64 t 55) (N.shiftr t (64 - 55)) in
      let t := N.lxor a4 d4 in
      let bc2 := N.lor (shl64 t 39) (N.shiftr t (64 - 39)) in
      let a10 := N.lxor bc0 (N.ldiff bc2 bc1) in
      let a21 := N.lxor bc1 (N.ldiff bc3 bc2) in
      let a7 := N.lxor bc2 (N.ldiff bc4 bc3) in
      let a18 := N.lxor bc3 (N.ldiff bc0 bc4) in
      let a4 := N.lxor bc4 (N.ldiff bc1 bc0) in
      [a0; a1; a2; a3; a4; a5; a6; a7; a8; a9; a10; a11; a12; a13; a14; a15; a16; a17; a18; a19; a20; a21; a22; a23; a24]
  | _ => a
  end.
(** keccakf.go:321-410 *)
Definition keccak_round4 (rc : N) (a : list N) : list N :=
  match a with
  | [a0; a1; a2; a3; a4; a5; a6; a7; a8; a9; a10; a11; a12; a13; a14; a15; a16; a17; a18; a19; a20; a21; a22; a23; a24] =>
      let bc0 := N.lxor (N.lxor (N.lxor (N.lxor a0 a5) a10) a15) a20 in
      let bc1 := N.lxor (N.lxor (N.lxor (N.lxor a1 a6) a11) a16) a21 in
      let bc2 := N.lxor (N.lxor (N.lxor (N.lxor a2 a7) a12) a17) a22 in
      let bc3 := N.lxor (N.lxor (N.lxor (N.lxor a3 a8) a13) a18) a23 in
      let bc4 := N.lxor (N.lxor (N.lxor (N.lxor a4 a9) a14) a19) a24 in
      let d0 := N.lxor bc4 (N.lor (shl64 bc1 1) (N.shiftr bc1 63)) in
      let d1 := N.lxor bc0 (N.lor (shl64 bc2 1) (N.shiftr bc2 63)) in
      let d2 := N.lxor bc1 (N.lor (shl64 bc3 1) (N.shiftr bc3 63)) in
      let d3 := N.lxor bc2 (N.lor (shl64 bc4 1) (N.shiftr bc4 63)) in
      let d4 := N.lxor bc3 (N.lor (shl64 bc0 1) (N.shiftr bc0 63)) in
      let bc0 := N.lxor a0 d0 in
      let t := N.lxor a1 d1 in
      let bc1 := N.lor (shl64 t 44) (N.shiftr t (64 - 44)) in
      let t := N.lxor a2 d2 in
      let bc2 := N.lor (shl64 t 43) (N.shiftr t (64 - 43)) in
      let t := N.lxor a3 d3 in
      let bc3 := N.lor (shl64 t 21) (N.shiftr t (64 - 21)) in
      let t := N.lxor a4 d4 in
      let bc4 := N.lor (shl64 t 14) (N.shiftr t (64 - 14)) in
      let a0 := N.lxor (N.lxor bc0 (N.ldiff bc2 bc1)) rc in
      let a1 := N.lxor bc1 (N.ldiff bc3 bc2) in
      let a2 := N.lxor bc2 (N.ldiff bc4 bc3) in
      let a3 := N.lxor bc3 (N.ldiff bc0 bc4) in
      let a4 := N.lxor bc4 (N.ldiff bc1 bc0) in
      let t := N.lxor a5 d0 in
      let bc2 := N.lor (shl64 t 3) (N.shiftr t (64 - 3)) in
      let t := N.lxor a6 d1 in
      let bc3 := N.lor (shl64 t 45) (N.shiftr t (64 - 45)) in
      let t := N.lxor a7 d2 in
      let bc4 := N.lor (shl64 t 61) (N.shiftr t (64 - 61)) in
      let t := N.lxor a8 d3 in
      let bc0 := N.lor (shl64 t 28) (N.shiftr t (64 - 28)) in
      let t := N.lxor a9 d4 in
      let bc1 := N.lor (shl64 t 20) (N.shiftr t (64 - 20)) in
      let a5 := N.lxor bc0 (N.ldiff bc2 bc1) in
      let a6 := N.lxor bc1 (N.ldiff bc3 bc2) in
      let a7 := N.lxor bc2 (N.ldiff bc4 bc3) in
      let a8 := N.lxor bc3 (N.ldiff bc0 bc4) in
      let a9 := N.lxor bc4 (N.ldiff bc1 bc0) in
      let t := N.lxor a10 d0 in
      let bc4 := N.lor (shl64 t 18) (N.shiftr t (64 - 18)) in
      let t := N.lxor a11 d1 in
      let bc0 := N.lor (shl64 t 1) (N.shiftr t (64 - 1)) in
      let t := N.lxor a12 d2 in
      let bc1 := N.lor (shl64 t 6) (N.shiftr t (64 - 6)) in
      let t := N.lxor a13 d3 in
      let bc2 := N.lor (shl64 t 25) (N.shiftr t (64 - 25)) in
      let t := N.lxor a14 d4 in
      let bc3 := N.lor (shl64 t 8) (N.shiftr t (64 - 8)) in
      let a10 := N.lxor bc0 (N.ldiff bc2 bc1) in
      let a11 := N.lxor bc1 (N.ldiff bc3 bc2) in
      let a12 := N.lxor bc2 (N.ldiff bc4 bc3) in
      let a13 := N.lxor bc3 (N.ldiff bc0 bc4) in
      let a14 := N.lxor bc4 (N.ldiff bc1 bc0) in
      let t := N.lxor a15 d0 in
      let bc1 := N.lor (shl64 t 36) (N.shiftr t (64 - 36)) in
      let t := N.lxor a16 d1 in
      let bc2 := N.lor (shl64 t 10) (N.shiftr t (64 - 10)) in
      let t := N.lxor a17 d2 in
      let bc3 := N.lor (shl64 t 15) (N.shiftr t (64 - 15)) in
      let t := N.lxor a18 d3 in
      let bc4 := N.lor (shl64 t 56) (N.shiftr t (64 - 56)) in
      let t := N.lxor a19 d4 in
      let bc0 := N.lor (shl64 t 27) (N.shiftr t (64 - 27)) in
      let a15 := N.lxor bc0 (N.ldiff bc2 bc1) in
      let a16 := N.lxor bc1 (N.ldiff bc3 bc2) in
      let a17 := N.lxor bc2 (N.ldiff bc4 bc3) in
      let a18 := N.lxor bc3 (N.ldiff bc0 bc4) in
      let a19 := N.lxor bc4 (N.ldiff bc1 bc0) in
      let t := N.lxor a20 d0 in
      let bc3 := N.lor (shl64 t 41) (N.shiftr t (64 - 41)) in
      let t := N.lxor a21 d1 in
      let bc4 := N.lor (shl64 t 2) (N.shiftr t (64 - 2)) in
      let t := N.lxor a22 d2 in
      let bc0 := N.lor (shl64 t 62) (N.shiftr t (64 - 62)) in
      let t := N.lxor a23 d3 in
      let bc1 := N.lor (shl64 t 55) (N.shiftr t (64 - 55)) in
      let t := N.lxor a24 d4 in
      let bc2 := N.lor (shl64 t 39) (N.shiftr t (64 - 39)) in
      let a20 := N.lxor bc0 (N.ldiff bc2 bc1) in
      let a21 := N.lxor bc1 (N.ldiff bc3 bc2) in
      let a22 := N.lxor bc2 (N.ldiff bc4 bc3) in
      let a23 := N.lxor bc3 (N.ldiff bc0 bc4) in
      let a24 := N.lxor bc4 (N.ldiff bc1 bc0) in
      [a0; a1; a2; a3; a4; a5; a6; a7; a8; a9; a10; a11; a12; a13; a14; a15; a16; a17; a18; a19; a20; a21; a22; a23; a24]
  | _ => a
  end.

(** keccakf.go:44, 412: six times four rounds. *)
Fixpoint keccak_loop (rcs : list N) (a : list N) : list N :=
  match rcs with
  | r1 :: r2 :: r3 :: r4 :: rcs' => keccak_loop rcs' (keccak_round4 r4 (keccak_round3 r3 (keccak_round2 r2 (keccak_round1 r1 a))))
  | _ => a
  end.
Definition keccakF1600 (a : list N) : list N := keccak_loop rc_table a.
