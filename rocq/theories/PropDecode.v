(** Properties of every decode: position independence (C20) and independence
    of unread bytes (C21). *)

From Verif Require Import GoBase SpecNum ProofsBase ModelTools ProofsTools ModelVal ModelRegistry ModelDecode ModelRegister ProofsRun.

(** ** C20.  Decoding [ts] at offset [k + o] of [pre ++ d], [k] the length of
    [pre], against decoding it at offset [o] of [d].

    Full claim: the two always agree.  It fails in two ways (below): decoders
    that read the start of the buffer, and length prefixes so large that
    offset + length overflows an int.  What holds:
    - success at [k + o] implies the same value and consumption at [o];
    - success at [o] with a byte left over implies the same at [k + o];
    - in every other case the decode at [k + o] gives the same result or
      panics: it never returns a different value. *)
Theorem C20_position_partial E c pre d o ts :
  local_env E -> 0 <= o <= blen d -> blen (pre ++ d) < 2 ^ 63 ->
  let k := blen pre in
  (forall v o' cs, Decodes E c (pre ++ d) (k + o) ts (Ok (v, o', cs)) -> Decodes E c d o ts (Ok (v, o' - k, cs)))
  /\ (forall v o' cs, Decodes E c d o ts (Ok (v, o', cs)) -> o' < blen d ->
        Decodes E c (pre ++ d) (k + o) ts (Ok (v, k + o', cs)))
  /\ (forall r, Decodes E c d o ts r ->
        Decodes E c (pre ++ d) (k + o) ts (shift k r) \/ exists m, Decodes E c (pre ++ d) (k + o) ts (Panic m)).
Proof.
  intros HE Ho Hb k. change (2 ^ 63) with two63 in Hb. repeat split.
  - discriminate.
  - destruct H as (_ & f & H). exists f.
    destruct (decode_slides f E HE c pre d o ts Ho Hb) as [S|[m S]]; fold k in S; rewrite H in S; [|discriminate].
    destruct (decode f E c d o ts) as [[[v1 o1] cs1]|m|]; cbn [shift] in S; try discriminate.
    injection S as -> -> ->. repeat f_equal. lia.
  - discriminate.
  - destruct H as (_ & f & H). exists f.
    pose proof (decode_forward f E c d o ts v o' cs Ho H) as F.
    pose proof (decode_prefix_only f E HE c d o ts v o' cs Ho H H0 pre (skipn (Z.to_nat o') d) Hb) as P.
    rewrite firstn_skipn in P. exact (P Hb).
  - intros r (N & f & H).
    destruct (decode_slides f E HE c pre d o ts Ho Hb) as [S|[m S]]; fold k in S; rewrite ?H in S.
    + left. split; [destruct r as [[[v1 o1] cs1]|m|]; cbn [shift]; congruence|]. exists f. exact S.
    + right. exists m. split; [discriminate|]. exists f. exact S.
Qed.

(** The same for any registry, for runs in which the whole-buffer decoders
    (Float32, Float64, GenericLookupSource) are not reached: [blocked E] is [E]
    with those three failing. *)
Theorem C20_position_any_registry_partial E c pre d o ts v o' cs :
  0 <= o <= blen d -> blen (pre ++ d) < 2 ^ 63 -> o' < blen d ->
  Decodes (blocked E) c d o ts (Ok (v, o', cs)) ->
  Decodes E c d o ts (Ok (v, o', cs)) /\ Decodes E c (pre ++ d) (blen pre + o) ts (Ok (v, blen pre + o', cs)).
Proof.
  intros Ho Hb Hlt H.
  destruct (C20_position_partial (blocked E) c pre d o ts (blocked_local E) Ho Hb) as (_ & P & _).
  pose proof (P v o' cs H Hlt) as (N2 & f2 & H2). destruct H as (N & f & H).
  split; (split; [discriminate|]); [exists f|exists f2]; now apply decode_blocked.
Qed.

(** Non-vacuity: a vector behind three other bytes. *)
Example C20_example :
  let E := blocked (reg_env base_reg) in
  let c := Ctx 0 "" None in
  decode 9 E c (map Zb [8; 1; 0; 2; 0; 9]) 0 "Vec<u16>" = Ok (VSlice [VU16 1; VU16 2], 5, []) /\
  decode 9 E c (map Zb [7; 7; 7; 8; 1; 0; 2; 0; 9]) 3 "Vec<u16>" = Ok (VSlice [VU16 1; VU16 2], 8, []).
Proof. vm_compute. auto. Qed.

(** A Bytes value whose length prefix says 2^63-20 is decoded (as what is left
    of the buffer) at offset 0 and panics at offset 100; and a Float64 behind
    one byte has a different value. *)
Theorem C20_position_refuted :
  (exists pre d v o', 
     Decodes (reg_env base_reg) (Ctx 0 "" None) d 0 "Bytes" (Ok (v, o', [])) /\
     exists m, Decodes (reg_env base_reg) (Ctx 0 "" None) (pre ++ d) (blen pre) "Bytes" (Panic m)) /\
  (exists pre d v v' o', v <> v' /\
     Decodes (reg_env base_reg) (Ctx 0 "" None) d 0 "Float64" (Ok (v, o', [])) /\
     Decodes (reg_env base_reg) (Ctx 0 "" None) (pre ++ d) (blen pre) "Float64" (Ok (v', blen pre + o', []))).
Proof.
  split.
  - exists (repeat "000"%char 100), (map Zb [19; 236; 255; 255; 255; 255; 255; 255; 127; 65]), (VStr "A"), 10.
    split; [split; [discriminate|]; exists 5%nat; vm_compute; reflexivity|].
    eexists. split; [discriminate|]. exists 5%nat. vm_compute. reflexivity.
  - exists [Zb 1], (map Zb [0; 0; 0; 0; 0; 0; 240; 63]), (VF64 4607182418800017408), (VF64 17293822569102704641), 0.
    split; [discriminate|].
    split; (split; [discriminate|]; exists 5%nat; vm_compute; reflexivity).
Qed.

(** ** C21.  A decode that leaves a byte unread depends only on the bytes it
    consumed: replace everything after them by any tail.  Missing from the full
    claim: the decoders that read the start of the buffer, for which it fails
    (below). *)
Theorem C21_unread_bytes_partial E c d o ts v o' cs :
  local_env E -> 0 <= o <= blen d -> Decodes E c d o ts (Ok (v, o', cs)) -> o' < blen d ->
  o <= o' /\ forall tl, blen d < 2 ^ 63 -> blen (firstn (Z.to_nat o') d ++ tl) < 2 ^ 63 ->
    Decodes E c (firstn (Z.to_nat o') d ++ tl) o ts (Ok (v, o', cs)).
Proof.
  intros HE Ho (N & f & H) Hlt.
  split; [exact (proj1 (decode_forward f E c d o ts v o' cs Ho H))|].
  intros tl Hb Hb'. split; [exact N|]. exists f.
  exact (decode_prefix_only f E HE c d o ts v o' cs Ho H Hlt [] tl Hb Hb').
Qed.

(** For any registry, for runs that do not reach the whole-buffer decoders. *)
Theorem C21_unread_bytes_any_registry_partial E c d o ts v o' cs tl :
  0 <= o <= blen d -> Decodes (blocked E) c d o ts (Ok (v, o', cs)) -> o' < blen d ->
  blen d < 2 ^ 63 -> blen (firstn (Z.to_nat o') d ++ tl) < 2 ^ 63 ->
  Decodes E c (firstn (Z.to_nat o') d ++ tl) o ts (Ok (v, o', cs)).
Proof.
  intros Ho H Hlt Hb Hb'.
  destruct (C21_unread_bytes_partial (blocked E) c d o ts v o' cs (blocked_local E) Ho H Hlt) as [_ P].
  destruct (P tl Hb Hb') as (N & f & D). split; [discriminate|]. exists f. now apply decode_blocked.
Qed.

Example C21_example :
  let E := blocked (reg_env base_reg) in
  let c := Ctx 0 "" None in
  decode 9 E c (map Zb [1; 5; 9; 9]) 0 "Option<u8>" = Ok (VInt 5, 2, []) /\
  decode 9 E c (map Zb [1; 5]) 0 "Option<u8>" = Ok (VInt 5, 2, []).
Proof. vm_compute. auto. Qed.

(** The condition matters: after a short read, appended bytes are read. *)
Theorem C21_short_read_refuted :
  exists d tl v v' o', v <> v' /\
    Decodes (reg_env base_reg) (Ctx 0 "" None) d 0 "u16" (Ok (v, blen d, [])) /\
    Decodes (reg_env base_reg) (Ctx 0 "" None) (d ++ tl) 0 "u16" (Ok (v', o', [])).
Proof.
  exists [Zb 1], [Zb 1], (VU16 1), (VU16 257), 2.
  split; [discriminate|]. split; (split; [discriminate|]; exists 3%nat; vm_compute; reflexivity).
Qed.

(** A Float64 consumes nothing and depends on bytes it leaves unread. *)
Theorem C21_unread_bytes_refuted :
  exists d d' v v', v <> v' /\
    Decodes (reg_env base_reg) (Ctx 0 "" None) d 0 "Float64" (Ok (v, 0, [])) /\
    Decodes (reg_env base_reg) (Ctx 0 "" None) d' 0 "Float64" (Ok (v', 0, [])).
Proof.
  exists (map Zb [0; 0; 0; 0; 0; 0; 240; 63]), (map Zb [0; 0; 0; 0; 0; 0; 240; 64]),
    (VF64 4607182418800017408), (VF64 4679240012837945344).
  split; [discriminate|]. split; (split; [discriminate|]; exists 3%nat; vm_compute; reflexivity).
Qed.

Print Assumptions C21_unread_bytes_refuted.
Print Assumptions C20_position_partial.
Print Assumptions C20_position_any_registry_partial.
Print Assumptions C20_position_refuted.
Print Assumptions C21_unread_bytes_partial.
Print Assumptions C21_unread_bytes_any_registry_partial.
Print Assumptions C21_short_read_refuted.
