(** C102: bytes missing at the end of the buffer count as zeros for numbers. *)

From Verif Require Import GoBase SpecNum ProofsBase ModelTools ProofsTools ModelUint128 ModelJson ModelVal ModelRegistry ModelDecode
  ProofsRun SpecScale ProofsReads ProofsScale ModelRegister.

Definition zeros (k : nat) : bytes := repeat "000"%char k.
(** ** The types made of numbers *)
Definition number_codecs : list codec := [CU8; CU16; CU32; CU64; CU128; CMoment; CBalance; CBool; CCompactU32; CEmpty; CNull].
Inductive numbers (E : env) : ctx -> string -> Prop :=
| nu_leaf c ts cd : resolves E c ts cd -> In cd number_codecs -> numbers E c ts
| nu_compact c ts t : resolves E c ts (CCompact t) -> t <> "" -> numbers E (Ctx 0 "" None) t -> numbers E c ts
| nu_array c ts k t : resolves E c ts (CFixedArray k t) -> 0 < k -> equal_fold t "u8" = false -> numbers E c t -> numbers E c ts
| nu_vec c ts t : resolves E c ts (CVec t) -> numbers E c "Compact<u32>" -> numbers E c t -> numbers E c ts
| nu_struct c ts tm : resolves E c ts (CStruct (Some tm)) -> Forall (fun p => numbers E c (snd p)) tm -> numbers E c ts
| nu_numbered c ts tm vl : resolves E c ts (CEnum (Some tm) vl) -> c_like tm = true -> numbers E c ts
| nu_plain c ts vl : resolves E c ts (CEnum None vl) -> numbers E c ts
| nu_enum c ts tm vl : resolves E c ts (CEnum (Some tm) vl) -> c_like tm = false ->
    Forall (fun p => struct_variant (snd p) = None /\ (snd p = "" \/ numbers E c (snd p))) tm -> numbers E c ts
| nu_set c ts vl bits : resolves E c ts (CSet vl bits) -> numbers E c ("U" ++ itoa bits) -> numbers E c ts
| nu_box c ts t : resolves E c ts (CBox t) -> numbers E c t -> numbers E c ts
| nu_range c ts t : resolves E c ts (CRange t) -> List.length (split_char ","%char t) = 1%nat -> numbers E c t -> numbers E c ts.

(** ** Two runs, one over the buffer and one over the buffer with zeros *)
Definition near (L K o o' : Z) : Prop := 0 <= o' <= L + K /\ o = Z.min o' L.
Definition sim (L K : Z) (r r' : outcome) : Prop :=
  match r, r' with
  | Ok (v, o, cs), Ok (v', o', cs') => v = v' /\ cs = cs' /\ near L K o o'
  | Panic m, Panic m' => m = m'
  | OutOfFuel, OutOfFuel => True
  | _, _ => False
  end.
Inductive twin (P : ctx -> string -> Prop) : prog -> prog -> Prop :=
| tw_ret v : twin P (Ret v) (Ret v)
| tw_fail m : twin P (Fail m) (Fail m)
| tw_next n k k' : 0 <= n < 2 ^ 62 -> (forall b z, Z.of_nat (List.length b + z) <= n -> twin P (k b) (k' (b ++ zeros z)%list)) -> twin P (Next n k) (Next n k')
| tw_sub c ts k k' : P c ts -> (forall v, twin P (k v) (k' v)) -> twin P (Sub c ts k) (Sub c ts k')
| tw_other b z c keep ts k k' : P c ts -> Z.of_nat (List.length b + z) < 2 ^ 62 -> (forall v, twin P (k v) (k' v)) -> twin P (Other b c keep ts k) (Other (b ++ zeros z)%list c keep ts k').
#[local] Hint Constructors twin : core.

Lemma skip_zeros {A} (x : A) n k : skipn n (repeat x k) = repeat x (k - n).
Proof. revert k. induction n as [|n IH]; intros [|k]; [reflexivity|reflexivity|reflexivity|]. apply IH. Qed.
Lemma first_of_zeros {A} (x : A) n k : firstn n (repeat x k) = repeat x (Nat.min n k).
Proof. revert k. induction n as [|n IH]; intros [|k]; [reflexivity|reflexivity|reflexivity|]. cbn. now rewrite IH. Qed.
Lemma next_near d K o o' n : near (blen d) (Z.of_nat K) o o' -> 0 <= n < 2 ^ 62 -> blen d + Z.of_nat K < 2 ^ 62 ->
  exists b z q q', next_bytes d o (i64 n) = Ok (b, q) /\ next_bytes (d ++ zeros K) o' (i64 n) = Ok ((b ++ zeros z)%list, q')
    /\ Z.of_nat (List.length b + z) <= n /\ near (blen d) (Z.of_nat K) q q'.
Proof.
  intros [R ->] N B. assert (BD : blen (d ++ zeros K) = blen d + Z.of_nat K) by (unfold blen, zeros; rewrite app_length, repeat_length; lia).
  rewrite (i64_small n) by (unfold two63; lia). assert (B0 : 0 <= blen d) by (unfold blen; lia).
  assert (NB : forall e x, 0 <= x <= blen e -> blen e < 2 ^ 62 -> next_bytes e x n = Ok (firstn (Z.to_nat n) (skipn (Z.to_nat x) e), Z.min (blen e) (x + n))).
  { intros e x X Y. unfold next_bytes. rewrite (i64_small (x + n)) by (unfold two63; lia). destruct (Z.ltb_spec (blen e) (x + n)).
    - rewrite slice_ok by lia. cbn [bind]. f_equal. f_equal; [|lia]. rewrite !firstn_all2; [reflexivity| |]; rewrite skipn_length; unfold blen in *; lia.
    - rewrite slice_ok by lia. cbn [bind]. f_equal. f_equal; [|lia]. f_equal. lia. }
  rewrite (NB d) by lia. rewrite (NB (d ++ zeros K)%list) by lia.
  assert (Q : firstn (Z.to_nat n) (skipn (Z.to_nat o') (d ++ zeros K)) =
    (firstn (Z.to_nat n) (skipn (Z.to_nat (Z.min o' (blen d))) d) ++ zeros (Nat.min (Z.to_nat n - (List.length d - Z.to_nat o')) (K - (Z.to_nat o' - List.length d))))%list).
  { rewrite skipn_app, firstn_app, skipn_length. unfold zeros. rewrite skip_zeros, first_of_zeros. f_equal.
    destruct (Z.le_gt_cases o' (blen d)); [now rewrite Z.min_l by lia|]. rewrite Z.min_r by lia. rewrite !skipn_all2; [reflexivity| |]; unfold blen in *; lia. }
  eexists _, _, _, _. split; [reflexivity|]. split; [rewrite Q; reflexivity|]. split; [|unfold near; rewrite BD; lia].
  rewrite firstn_length, skipn_length. unfold blen in *. lia.
Qed.
Lemma run_twin (P : ctx -> string -> Prop) rec d K s s' : blen d + Z.of_nat K < 2 ^ 62 ->
  (forall c ts e J o o', P c ts -> blen e + Z.of_nat J < 2 ^ 62 -> near (blen e) (Z.of_nat J) o o' -> sim (blen e) (Z.of_nat J) (rec c e o ts) (rec c (e ++ zeros J)%list o' ts)) ->
  forall p p', twin P p p' -> forall o o' cs, near (blen d) (Z.of_nat K) o o' -> sim (blen d) (Z.of_nat K) (run rec s p d o cs) (run rec s' p' (d ++ zeros K)%list o' cs).
Proof.
  intros B H. induction 1 as [v|m|n k k' N _ IH|c ts k k' PT _ IH|b z c keep ts k k' PT LB _ IH]; intros o o' cs R; cbn [run].
  - cbn. auto.
  - reflexivity.
  - destruct (next_near d K o o' n R N B) as (b & z & q & q' & E1 & E2 & LE & R2). rewrite E1, E2. cbn [bind]. now apply IH.
  - specialize (H c ts d K o o' PT B R). destruct (rec c d o ts) as [[[v q] c1]|m|], (rec c (d ++ zeros K)%list o' ts) as [[[v' q'] c1']|m'|]; cbn in H; try contradiction; cbn [bind].
    + destruct H as (<- & <- & R2). now apply IH.
    + exact H.
    + exact I.
  - assert (R0 : near (blen b) (Z.of_nat z) 0 0) by (unfold near, blen; lia).
    assert (LB' : blen b + Z.of_nat z < 2 ^ 62) by (unfold blen; lia).
    specialize (H c ts b z 0 0 PT LB' R0). destruct (rec c b 0 ts) as [[[v q] c1]|m|], (rec c (b ++ zeros z)%list 0 ts) as [[[v' q'] c1']|m'|]; cbn in H; try contradiction; cbn [bind].
    + destruct H as (<- & <- & _). now apply IH.
    + exact H.
    + exact I.
Qed.

(** ** The decoders *)
Lemma le_uint_zeros n b z : le_uint n (b ++ zeros z) = le_uint n b.
Proof. unfold zeros. now rewrite !le_uint_val, le_val_pad. Qed.
Lemma head_zeros b z : head_u8 (b ++ zeros z) = head_u8 b.
Proof. destruct b as [|c b]; [now destruct z|reflexivity]. Qed.
Lemma bool_zeros b z : Z.of_nat (List.length b + z) <= 1 -> String.eqb (BytesToHex (b ++ zeros z)) "01" = String.eqb (BytesToHex b) "01".
Proof. destruct b as [|c [|d b]]; cbn [List.length]; intros H; [|assert (z = 0)%nat by lia; subst; reflexivity|lia]. destruct z as [|[|z]]; [reflexivity|reflexivity|lia]. Qed.
Lemma first_zeros n b z : firstn n ((b ++ zeros z) ++ repeat "000"%char n) = firstn n (b ++ repeat "000"%char n).
Proof.
  unfold zeros. rewrite <- app_assoc, <- repeat_app, !firstn_app, !first_of_zeros. f_equal. f_equal. lia.
Qed.
Lemma hex_zeros b z : BytesToHex (b ++ zeros z) = BytesToHex b ++ srepeat "0"%char (2 * z).
Proof.
  induction b as [|c b IH].
  - cbn [app]. change (BytesToHex [] ++ srepeat "0" (2 * z)) with (srepeat "0" (2 * z)). induction z as [|z IH]; [reflexivity|].
    replace (2 * S z)%nat with (S (S (2 * z))) by lia. cbn [zeros repeat]. fold (zeros z). unfold BytesToHex in *. cbn [hex_encode srepeat]. rewrite IH. reflexivity.
  - unfold BytesToHex in *. cbn [app hex_encode append]. now rewrite IH.
Qed.
Lemma hex_len b : String.length (BytesToHex b) = (2 * List.length b)%nat.
Proof. unfold BytesToHex. induction b as [|c b IH]; [reflexivity|]. cbn [hex_encode String.length List.length]. rewrite IH. lia. Qed.
Lemma u128_zeros b z : (List.length b + z <= 16)%nat ->
  (if Nat.ltb (List.length (b ++ zeros z)) 16 then HexToBytes (left_justify0 (BytesToHex (b ++ zeros z)) 32) else (b ++ zeros z)%list) =
  (if Nat.ltb (List.length b) 16 then HexToBytes (left_justify0 (BytesToHex b) 32) else b).
Proof.
  assert (X : forall e, (List.length e <= 16)%nat -> (if Nat.ltb (List.length e) 16 then HexToBytes (left_justify0 (BytesToHex e) 32) else e) = (e ++ zeros (16 - List.length e))%list).
  { intros e L. destruct (Nat.ltb_spec (List.length e) 16) as [M|M].
    - unfold left_justify0. replace (32 - String.length (BytesToHex e))%nat with (2 * (16 - List.length e))%nat by (rewrite hex_len; lia). rewrite <- hex_zeros. apply HexToBytes_hex.
    - replace (16 - List.length e)%nat with 0%nat by lia. symmetry. apply app_nil_r. }
  intros L. assert (LZ : List.length (b ++ zeros z) = (List.length b + z)%nat) by (unfold zeros; now rewrite app_length, repeat_length).
  rewrite !X by lia. rewrite LZ, <- app_assoc. f_equal. unfold zeros. rewrite <- repeat_app. f_equal. lia.
Qed.
Section Codecs.
Variables (E : env) (P : ctx -> string -> Prop).
Lemma compact_twin k k' : (forall n b z, Z.of_nat (List.length b + z) < 2 ^ 62 -> twin P (k n b) (k' n (b ++ zeros z)%list)) -> twin P (compact_bytes k) (compact_bytes k').
Proof.
  intros H. unfold compact_bytes. constructor; [lia|]. intros b z L. destruct b as [|c b].
  - cbn [List.length app] in *. replace (match zeros z with [] => 0 | c :: _ => bZ c mod 4 end) with 0 by (destruct z; reflexivity). apply (H 1 [] z). cbn [List.length]. lia.
  - destruct b; [|cbn [List.length] in L; lia]. assert (z = 0)%nat by (cbn [List.length] in L; lia). subst z. cbn [zeros repeat app]. pose proof (bZ_range c) as RC.
    assert (C1 : forall y r n, Z.of_nat (List.length r + y) <= 3 -> twin P (k n (c :: r)) (k' n (c :: r ++ zeros y)%list)).
    { intros y r n L2. change (c :: r ++ zeros y)%list with ((c :: r) ++ zeros y)%list. apply H. cbn [List.length]. lia. }
    pose proof (Z.mod_pos_bound (bZ c) 4 ltac:(lia)) as MB.
    destruct (bZ c mod 4) as [|[p|[p|p|]|]|p]; try lia.
    + pose proof (C1 0%nat [] 1 ltac:(cbn; lia)) as C0. exact C0.
    + cbv zeta. cbn [head_u8]. constructor; [lia|]. intros r y L2. apply H. lia.
    + constructor; [lia|]. intros r y L2. apply C1. lia.
    + constructor; [lia|]. intros r y L2. apply C1. lia.
Qed.
Lemma leaf_twin c cd : In cd number_codecs -> twin P (process E c cd) (process E c cd).
Proof.
  intros I. cbn [number_codecs In] in I. repeat match type of I with _ \/ _ => destruct I as [I|I] end; try contradiction; subst cd; cbn [process].
  - constructor; [lia|]. intros b z L. rewrite head_zeros. constructor.
  - constructor; [lia|]. intros b z L. rewrite le_uint_zeros. constructor.
  - constructor; [lia|]. intros b z L. rewrite le_uint_zeros. constructor.
  - constructor; [lia|]. intros b z L. rewrite le_uint_zeros. constructor.
  - constructor; [lia|]. intros b z L. cbv zeta. rewrite u128_zeros by lia.
    destruct (FromBytes _) as [u| |]; [|constructor|constructor]. destruct (String_ u); constructor.
  - constructor; [lia|]. intros b z L. cbv zeta. rewrite le_uint_zeros. constructor.
  - constructor; [lia|]. intros b z L. cbv zeta. rewrite first_zeros. destruct (String.eqb _ _); [constructor|]. destruct (FromBytes _); constructor.
  - constructor; [lia|]. intros b z L. rewrite bool_zeros by exact L. constructor.
  - apply compact_twin. intros n b z _. unfold compact_u32_int. rewrite le_uint_zeros. constructor.
  - constructor.
  - constructor.
Qed.
Lemma repeat_twin c t k n : P c t -> (forall l, twin P (k l) (k l)) -> forall acc, twin P (repeat_sub c t n acc k) (repeat_sub c t n acc k).
Proof. intros H K. induction n as [|n IH]; intros acc; cbn [repeat_sub]; [apply K|]. constructor; [exact H|]. intros v. apply IH. Qed.
Lemma fields_twin c tm : Forall (fun p => P c (snd p)) tm -> forall acc, twin P (fields_sub c tm acc (fun m => Ret (VMap m))) (fields_sub c tm acc (fun m => Ret (VMap m))).
Proof. induction 1 as [|[n t] tm H _ IH]; intros acc; cbn [fields_sub]; [constructor|]. constructor; [exact H|]. intros v. apply IH. Qed.
Lemma value_twin len v : twin P (compact_value len v) (compact_value len v).
Proof.
  unfold compact_value. destruct v; try constructor.
  - destruct (dec_div_floor _ _ _). constructor.
  - destruct (dec_of_string s) as [[a b]|]; [|constructor]. destruct (dec_div_floor _ _ _). constructor.
Qed.
Lemma enum_twin c tm vl : (forall l, tm = Some l -> c_like l = false -> Forall (fun p => struct_variant (snd p) = None /\ (snd p = "" \/ P c (snd p))) l) -> twin P (process_enum c tm vl) (process_enum c tm vl).
Proof.
  intros H. unfold process_enum. constructor; [lia|]. intros b z _. cbv zeta. rewrite head_zeros.
  assert (V : twin P (match nth_z vl (head_u8 b) with None => Fail "runtime error: index out of range" | Some s => Ret (if String.eqb s "" then VNil else VStr s) end)
    (match nth_z vl (head_u8 b) with None => Fail "runtime error: index out of range" | Some s => Ret (if String.eqb s "" then VNil else VStr s) end)) by (destruct (nth_z vl (head_u8 b)); constructor).
  destruct tm as [tm|]; [|exact V]. destruct (c_like tm) eqn:CL; [constructor|]. specialize (H tm eq_refl CL).
  destruct (nth_z tm (head_u8 b)) as [[name t]|] eqn:NT; [|constructor].
  assert (IT : In (name, t) tm) by (unfold nth_z in NT; destruct (head_u8 b <? 0); [discriminate|]; now apply nth_error_In in NT).
  rewrite Forall_forall in H. destruct (H _ IT) as [SV O]. cbn [snd] in *. rewrite SV. destruct (String.eqb_spec t "") as [->|NE]; [exact V|].
  destruct O as [->|O]; [congruence|]. constructor; [exact O|]. intros v. constructor.
Qed.
End Codecs.

Lemma numbers_twin E c ts : numbers E c ts -> exists cd, resolves E c ts cd /\ twin (numbers E) (process E c cd) (process E c cd).
Proof.
  intros H. destruct H as [c ts cd R I|c ts t R NE N|c ts k t R K U N|c ts t R NC N|c ts tm R A|c ts tm vl R CL|c ts vl R|c ts tm vl R CL A|c ts vl bits R N|c ts t R N|c ts t R SP N]; eexists; (split; [exact R|]); cbn [process].
  - now apply leaf_twin.
  - apply compact_twin. intros n b z L. destruct (String.eqb_spec t "") as [->|_]; [congruence|]. apply tw_other; [exact N|exact L|]. intros v. apply value_twin.
  - replace (0 <? k) with true by lia. rewrite U. apply repeat_twin; [exact N|]. intros l. constructor.
  - unfold compact_u32. constructor; [exact NC|]. intros v. unfold as_int. destruct v; try constructor. destruct (512 * 1024 <? z); [constructor|].
    apply repeat_twin; [exact N|]. intros l. constructor.
  - now apply fields_twin.
  - apply enum_twin. intros l [= <-] X. congruence.
  - apply enum_twin. intros l X. discriminate X.
  - apply enum_twin. intros l [= <-] _. exact A.
  - constructor; [exact N|]. intros v. constructor.
  - constructor; [exact N|]. intros v. constructor.
  - destruct (split_char ","%char t) as [|x [|y l]]; try discriminate SP. constructor; [exact N|]. intros v. constructor; [exact N|]. intros w. constructor.
Qed.
Lemma decode_twin E : forall f c ts e J o o', numbers E c ts -> blen e + Z.of_nat J < 2 ^ 62 -> near (blen e) (Z.of_nat J) o o' ->
  sim (blen e) (Z.of_nat J) (decode f E c e o ts) (decode f E c (e ++ zeros J)%list o' ts).
Proof.
  induction f as [|f IH]; intros c ts e J o o' N B R; [exact I|]. destruct (numbers_twin E c ts N) as (cd & (cd0 & sub & G & <-) & T). cbn [decode]. rewrite G. cbn [bind].
  eapply run_twin; [exact B|exact IH|exact T|exact R].
Qed.
(** ** The theorem *)
(** Zeros at the end of the buffer change nothing but how far the decoder gets. *)
Theorem C102_zeros_partial E c ts data k o : numbers E c ts -> 0 <= o <= blen data -> blen data + Z.of_nat k < 2 ^ 62 ->
  (forall v o1 cs, Decodes E c data o ts (Ok (v, o1, cs)) -> exists o2, Decodes E c (data ++ zeros k)%list o ts (Ok (v, o2, cs)) /\ o1 = Z.min o2 (blen data))
  /\ (forall v o2 cs, Decodes E c (data ++ zeros k)%list o ts (Ok (v, o2, cs)) -> Decodes E c data o ts (Ok (v, Z.min o2 (blen data), cs)))
  /\ (forall m, Decodes E c data o ts (Panic m) <-> Decodes E c (data ++ zeros k)%list o ts (Panic m)).
Proof.
  intros N O B. assert (R : near (blen data) (Z.of_nat k) o o) by (unfold near; lia).
  assert (S : forall f, sim (blen data) (Z.of_nat k) (decode f E c data o ts) (decode f E c (data ++ zeros k)%list o ts)) by (intros f; now apply decode_twin).
  split; [|split].
  - intros v o1 cs (_ & f & Q). specialize (S f). rewrite Q in S. destruct (decode f E c (data ++ zeros k)%list o ts) as [[[v' q] cs']|m|] eqn:Q2; cbn in S; try contradiction.
    destruct S as (<- & <- & _ & ->). exists q. split; [|reflexivity]. split; [discriminate|]. now exists f.
  - intros v o2 cs (_ & f & Q). specialize (S f). rewrite Q in S. destruct (decode f E c data o ts) as [[[v' q] cs']|m|] eqn:Q2; cbn in S; try contradiction.
    destruct S as (-> & -> & _ & ->). split; [discriminate|]. now exists f.
  - intros m. split; intros (_ & f & Q); specialize (S f); rewrite Q in S.
    + destruct (decode f E c (data ++ zeros k)%list o ts) as [[[v' q] cs']|m'|] eqn:Q2; cbn in S; try contradiction. subst m'. split; [discriminate|]. now exists f.
    + destruct (decode f E c data o ts) as [[[v' q] cs']|m'|] eqn:Q2; cbn in S; try contradiction. subst m'. split; [discriminate|]. now exists f.
Qed.
(** Other types tell missing bytes from zeros: a hash is shown shorter, an option
    whose first byte is missing is present, a signed number and a U256 lose the
    byte that is there, and bytes are fewer than their length says. *)
Theorem C102_zeros_refuted : let E := reg_env base_reg in let c := Ctx (-1) "" None in
  (Decodes E c [Zb 1] 0 "H256" (Ok (VStr "0x01", 1, [])) /\ Decodes E c ([Zb 1] ++ zeros 31)%list 0 "H256" (Ok (VStr ("0x01" ++ srepeat "0"%char 62), 32, [])))
  /\ (Decodes E c [] 0 "Option<u16>" (Ok (VU16 0, 0, [])) /\ Decodes E c (zeros 3) 0 "Option<u16>" (Ok (VNil, 1, [])))
  /\ (Decodes E c [Zb 5] 0 "i16" (Ok (VBig 0, 1, [])) /\ Decodes E c ([Zb 5] ++ zeros 1)%list 0 "i16" (Ok (VBig 5, 2, [])))
  /\ (Decodes E c [Zb 1] 0 "U256" (Ok (VDec 0 0, 1, [])) /\ Decodes E c ([Zb 1] ++ zeros 31)%list 0 "U256" (Ok (VDec 1 0, 32, [])))
  /\ (Decodes E c [Zb 8; Zb 104] 0 "HexBytes" (Ok (VStr "0x68", 2, [])) /\ Decodes E c ([Zb 8; Zb 104] ++ zeros 1)%list 0 "HexBytes" (Ok (VStr "0x6800", 3, []))).
Proof. cbv zeta. repeat split; try discriminate; exists 6%nat; vm_compute; reflexivity. Qed.
(** A tuple of a byte, a number and a vector, cut in the middle of an element. *)
Example C102_case : let E := reg_env base_reg in let c := Ctx (-1) "" None in
  numbers E c "(u8,Compact<u64>,Vec<u16>)"
  /\ Decodes E c (map Zb [7; 1; 1; 12; 1; 0; 2]) 0 "(u8,Compact<u64>,Vec<u16>)" (Ok (VMap [("col1", VInt 7); ("col2", VU64 64); ("col3", VSlice [VU16 1; VU16 2; VU16 0])], 7, []))
  /\ Decodes E c (map Zb [7; 1; 1; 12; 1; 0; 2] ++ zeros 9)%list 0 "(u8,Compact<u64>,Vec<u16>)" (Ok (VMap [("col1", VInt 7); ("col2", VU64 64); ("col3", VSlice [VU16 1; VU16 2; VU16 0])], 10, [])).
Proof.
  cbv zeta. split; [|split; (split; [discriminate|exists 6%nat; vm_compute; reflexivity])].
  eapply nu_struct; [eexists _, _; split; [vm_compute; reflexivity|reflexivity]|]. repeat constructor; cbn [snd].
  - eapply nu_leaf; [eexists _, _; split; [vm_compute; reflexivity|reflexivity]|cbn; auto].
  - eapply (nu_compact _ _ _ "u64"); [eexists _, _; split; [vm_compute; reflexivity|reflexivity]|discriminate|].
    eapply nu_leaf; [eexists _, _; split; [vm_compute; reflexivity|reflexivity]|cbn; auto].
  - eapply (nu_vec _ _ _ "u16"); [eexists _, _; split; [vm_compute; reflexivity|reflexivity]| |].
    + eapply nu_leaf; [eexists _, _; split; [vm_compute; reflexivity|reflexivity]|cbn; tauto].
    + eapply nu_leaf; [eexists _, _; split; [vm_compute; reflexivity|reflexivity]|cbn; auto].
Qed.
Print Assumptions C102_zeros_partial.
Print Assumptions C102_zeros_refuted.
