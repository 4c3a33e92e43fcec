(** Signed keys of a decoded BTreeMap.  C90. *)

From Verif Require Import GoBase SpecNum ProofsBase ModelTools ModelVal ModelJson ModelRegistry ModelDecode ModelEncode ModelBox ModelKey
  ProofsRun SpecScale ProofsReads ProofsScale ProofsEncode ProofsApi PropInts.

(** json.Marshal of a *big.Int is its decimal text (math/big, MarshalJSON). *)
Definition writes_big (E : env) : Prop := forall z, e_json E (VBig z) = itoa z.
Lemma ok_fst {A B C} (a a' : A) (b b' : B) (c c' : C) : Ok (a, b, c) = Ok (a', b', c') -> a = a'.
Proof. now intros [= -> _ _]. Qed.
(** What a signed integer of [n] bytes is shown as decides its bytes, although
    the least number is shown as a positive one (C05).  The key may stand
    anywhere in the data. *)
Theorem C90_signed E c ts n : writes_big E -> resolves E c ts (CIntFixed n) -> In n [2; 4; 8; 16; 32] ->
  forall b1 pre1 tl1 g1 o1 cs1 b2 pre2 tl2 g2 o2 cs2, blen b1 = n -> blen b2 = n ->
  blen (pre1 ++ b1 ++ tl1) < 2 ^ 63 -> blen (pre2 ++ b2 ++ tl2) < 2 ^ 63 ->
  Decodes E c (pre1 ++ b1 ++ tl1) (blen pre1) ts (Ok (g1, o1, cs1)) -> Decodes E c (pre2 ++ b2 ++ tl2) (blen pre2) ts (Ok (g2, o2, cs2)) ->
  ToString E g1 = ToString E g2 -> b1 = b2.
Proof.
  intros W R I b1 pre1 tl1 g1 o1 cs1 b2 pre2 tl2 g2 o2 cs2 L1 L2 B1 B2 D1 D2 H.
  pose proof (Decodes_det _ _ _ _ _ _ _ D1 (C05_decode_exact E c ts n b1 pre1 tl1 R I L1 B1)) as E1. apply ok_fst in E1. subst g1.
  pose proof (Decodes_det _ _ _ _ _ _ _ D2 (C05_decode_exact E c ts n b2 pre2 tl2 R I L2 B2)) as E2. apply ok_fst in E2. subst g2.
  cbn [ToString] in H. rewrite !W in H. apply itoa_inj in H.
  assert (N1 : List.length b1 = Z.to_nat n) by (unfold blen in L1; lia). assert (N2 : List.length b2 = Z.to_nat n) by (unfold blen in L2; lia).
  assert (Pn : 2 <= n) by (cbn in I; lia).
  apply le_val_inj; [congruence|]. unfold twos_val in H. fold (blen b1) (blen b2) in H. rewrite L1, L2 in H. cbv zeta in H.
  pose proof (le_val_range b1) as V1. pose proof (le_val_range b2) as V2. rewrite N1, pow_256_nat, Z2Nat.id in V1 by lia. rewrite N2, pow_256_nat, Z2Nat.id in V2 by lia.
  assert (PW : 2 ^ (8 * n) = 2 * 2 ^ (8 * n - 1)) by (rewrite <- Z.pow_succ_r by lia; f_equal; lia).
  set (p := 2 ^ (8 * n - 1)) in *. rewrite PW in *. clearbody p. clear PW.
  destruct (Z.ltb_spec (le_val b1) p), (Z.ltb_spec (le_val b2) p); cbv iota in H;
  repeat match type of H with context [if ?a =? ?b then _ else _] => destruct (Z.eqb_spec a b) end; lia.
Qed.
Definition int_env : env := Env [("btreemap", CBTreeMap ""); ("u8", CU8); ("i8", CIntFixed 1); ("i16", CIntFixed 2); ("compact<u32>", CCompactU32)] [] json_key (fun b => b) json_box.
Example C90_signed_case : let c := Ctx 5 "" None in writes_big int_env /\ resolves int_env c "i16" (CIntFixed 2) /\ In 2 [2; 4; 8; 16; 32]
  /\ Decodes int_env c (map Zb [8; 254; 255; 1; 0; 128; 2]) 1 "i16" (Ok (VBig (-2), 3, [])) /\ Decodes int_env c (map Zb [8; 254; 255; 1; 0; 128; 2]) 4 "i16" (Ok (VBig 32768, 6, []))
  /\ Decodes int_env c (map Zb [8; 254; 255; 1; 0; 128; 2]) 0 "BTreeMap<i16,u8>" (Ok (VSlice [VMap [("-2", VInt 1)]; VMap [("32768", VInt 2)]], 7, [])).
Proof.
  cbv zeta. split; [intros z; reflexivity|]. split; [eexists; exists ""; split; vm_compute; reflexivity|]. split; [now left|].
  repeat split; try discriminate; exists 9%nat; vm_compute; reflexivity.
Qed.
(** Every i8 is shown as 0, so all keys of such a map look alike. *)
Theorem C90_i8_refuted : writes_big int_env /\ forall x y,
  Decodes int_env (Ctx 5 "" None) [Zb 8; x; Zb 1; y; Zb 2] 0 "BTreeMap<i8,u8>" (Ok (VSlice [VMap [("0", VInt 1)]; VMap [("0", VInt 2)]], 5, [])).
Proof. split; [intros z; reflexivity|]. intros x y. split; [discriminate|]. exists 9%nat. vm_compute. reflexivity. Qed.
Print Assumptions C90_signed.
Print Assumptions C90_i8_refuted.
