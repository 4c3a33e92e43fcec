(** Decoding and encoding agree with SCALE for every type the registry
    resolves (C15, C16, C17), and what truncation does (C22). *)

From Verif Require Import GoBase SpecNum ProofsBase ModelTools ProofsTools ModelVal ModelJson ModelRegistry ModelDecode ModelEncode
  ModelRegister ProofsRun SpecScale ProofsReads ProofsScale ProofsEncode ProofsApi.

(** ** C15.  [scale] (SpecScale.v) says which bytes encode which value; the
    decoder returns that value, wherever the bytes stand and whatever follows,
    and consumes exactly them. *)
Theorem C15_decode E c ts bs g cs pre tl : std_env E -> scale false E c ts bs g cs ->
  blen (pre ++ bs ++ tl) < 2 ^ 63 ->
  Decodes E c (pre ++ bs ++ tl) (blen pre) ts (Ok (g, blen pre + blen bs, cs)).
Proof.
  intros S H L. destruct (scale_decodes false E S) as (D & _ & _). destruct (D _ _ _ _ _ H) as [f F].
  split; [discriminate|]. exists f. now apply F.
Qed.

(** Hence SCALE encodings are uniquely readable: no encoding is a proper prefix
    of another one of the same type, and equal bytes mean equal values. *)
Theorem C15_unique_reading E c ts bs1 g1 cs1 bs2 g2 cs2 tl1 tl2 : std_env E ->
  scale false E c ts bs1 g1 cs1 -> scale false E c ts bs2 g2 cs2 ->
  (bs1 ++ tl1 = bs2 ++ tl2)%list -> blen (bs1 ++ tl1) < 2 ^ 63 -> bs1 = bs2 /\ g1 = g2 /\ tl1 = tl2.
Proof.
  intros S H1 H2 HE L.
  pose proof (C15_decode E c ts bs1 g1 cs1 [] tl1 S H1 L) as D1. cbn [app] in D1.
  assert (L2 : blen ([] ++ bs2 ++ tl2) < 2 ^ 63) by (cbn [app]; rewrite <- HE; exact L).
  pose proof (C15_decode E c ts bs2 g2 cs2 [] tl2 S H2 L2) as D2. cbn [app] in D2. rewrite <- HE in D2.
  pose proof (Decodes_det _ _ _ _ _ _ _ D1 D2) as EQ. injection EQ as -> EL _.
  assert (LL : List.length bs1 = List.length bs2) by (unfold blen in EL; cbn in EL; lia).
  assert (B : bs1 = bs2).
  { apply (f_equal (firstn (List.length bs1))) in HE. rewrite firstn_app, Nat.sub_diag, firstn_all in HE.
    rewrite LL, firstn_app, Nat.sub_diag, firstn_all in HE. cbn [firstn] in HE. now rewrite !app_nil_r in HE. }
  subst bs2. apply app_inv_head in HE. auto.
Qed.

(** ** C16.  For values without an empty optional payload (and the other side
    conditions marked [st = true] in SpecScale.v) Encode writes the SCALE bytes. *)
Theorem C16_encode E c ts bs g cs : std_env E -> x_module c = "" -> scale true E c ts bs g cs ->
  Encodes E (x_spec c) (x_meta c) ts g (BytesToHex bs).
Proof.
  intros S M H. destruct (scale_encodes E S) as (D & _ & _). split; [discriminate|]. exact (D _ _ _ _ _ H M).
Qed.

(** A strict value is a value. *)
Lemma scale_relax E :
  (forall c ts bs g cs, scale true E c ts bs g cs -> scale false E c ts bs g cs)
  /\ (forall c cd bs g cs, scale_at true E c cd bs g cs -> scale_at false E c cd bs g cs)
  /\ (forall c ts bs gs cs, scales true E c ts bs gs cs -> scales false E c ts bs gs cs).
Proof.
  apply scale_mutind; intros; try discriminate; try (econstructor; eauto; intros; discriminate).
Qed.

(** ** C17.  Decoding what Encode wrote gives the value back and leaves nothing. *)
Theorem C17_roundtrip E c ts bs g cs : std_env E -> x_module c = "" -> scale true E c ts bs g cs -> blen bs < 2 ^ 63 ->
  exists s, Encodes E (x_spec c) (x_meta c) ts g s /\
    Decodes E c (HexToBytes s) 0 ts (Ok (g, blen (HexToBytes s), cs)).
Proof.
  intros S M H L. exists (BytesToHex bs). split; [now apply (C16_encode E c ts bs g cs)|].
  rewrite HexToBytes_hex.
  destruct (scale_relax E) as (R & _ & _).
  pose proof (C15_decode E c ts bs g cs [] [] S (R _ _ _ _ _ H)) as D. cbn [app] in D. rewrite app_nil_r in D. now apply D.
Qed.

(** Non-vacuity: nested containers. *)
Ltac res := eexists _, _; split; [vm_compute; reflexivity|reflexivity].
Example C16_example :
  scale true (reg_env base_reg) (Ctx (-1) "" None) "Vec<(u8,Option<Compact<Balance>>)>"
    (map Zb [8; 7; 0; 9; 1; 21; 1])
    (VSlice [VMap [("col1", VInt 7); ("col2", VNil)]; VMap [("col1", VInt 9); ("col2", VDec 69 0)]]) [].
Proof.
  set (E := reg_env base_reg). set (c := Ctx (-1) "" None).
  assert (U8 : forall z, 0 <= z < 2 ^ 8 -> scale true E c "u8" (le_bytes 1 z) (VInt z) []).
  { intros z Hz. eapply (sc_type _ _ _ _ CU8); [res|discriminate|now constructor]. }
  assert (CB : scale true E c "Compact<Balance>" (compact 69) (VDec 69 0) []).
  { eapply (sc_type _ _ _ _ (CCompact "Balance")); [res|discriminate|].
    eapply (sc_compact _ _ _ _ CBalance); [discriminate|res|lia|reflexivity|lia]. }
  assert (OPT : resolves E c "Option<Compact<Balance>>" (COption "Compact<Balance>")) by res.
  assert (TUP : resolves E c "(u8,Option<Compact<Balance>>)" (CStruct (Some [("col1", "u8"); ("col2", "Option<Compact<Balance>>")]))) by res.
  assert (ND : NoDup ["col1"; "col2"]).
  { constructor; [cbn; intuition discriminate|]. constructor; [cbn; tauto|constructor]. }
  assert (R1 : scale true E c "(u8,Option<Compact<Balance>>)" [Zb 7; Zb 0] (VMap [("col1", VInt 7); ("col2", VNil)]) []).
  { eapply sc_type; [exact TUP|discriminate|].
    apply (sc_struct true E c [("col1", "u8"); ("col2", "Option<Compact<Balance>>")] [Zb 7; Zb 0] [VInt 7; VNil] []); [|exact ND].
    apply (ss_cons true E c "u8" ["Option<Compact<Balance>>"] [Zb 7] [Zb 0] (VInt 7) [VNil] [] []); [apply (U8 7); lia|].
    apply (ss_cons true E c _ [] [Zb 0] [] VNil [] [] []); [|constructor].
    eapply sc_type; [exact OPT|discriminate|]. now constructor. }
  assert (R2 : scale true E c "(u8,Option<Compact<Balance>>)" [Zb 9; Zb 1; Zb 21; Zb 1] (VMap [("col1", VInt 9); ("col2", VDec 69 0)]) []).
  { eapply sc_type; [exact TUP|discriminate|].
    apply (sc_struct true E c [("col1", "u8"); ("col2", "Option<Compact<Balance>>")] [Zb 9; Zb 1; Zb 21; Zb 1] [VInt 9; VDec 69 0] []); [|exact ND].
    apply (ss_cons true E c "u8" ["Option<Compact<Balance>>"] [Zb 9] [Zb 1; Zb 21; Zb 1] (VInt 9) [VDec 69 0] [] []); [apply (U8 9); lia|].
    apply (ss_cons true E c _ [] [Zb 1; Zb 21; Zb 1] [] (VDec 69 0) [] [] []); [|constructor].
    eapply sc_type; [exact OPT|discriminate|].
    apply (sc_some true E c "Compact<Balance>" (compact 69) (VDec 69 0) []); try discriminate; [exact CB|].
    intros _ [X|[X|[X|X]]]; discriminate. }
  eapply (sc_type _ _ _ _ (CVec "(u8,Option<Compact<Balance>>)")); [res|discriminate|].
  apply (sc_vec true E c "(u8,Option<Compact<Balance>>)" 2 (map Zb [7; 0; 9; 1; 21; 1])
    [VMap [("col1", VInt 7); ("col2", VNil)]; VMap [("col1", VInt 9); ("col2", VDec 69 0)]] []); [|lia].
  cbn [repeat].
  apply (ss_cons true E c _ _ [Zb 7; Zb 0] (map Zb [9; 1; 21; 1]) _ [VMap [("col1", VInt 9); ("col2", VDec 69 0)]] [] []); [exact R1|].
  apply (ss_cons true E c _ _ (map Zb [9; 1; 21; 1]) [] _ [] [] []); [exact R2|constructor].
Qed.
(** The same values by running the model. *)
Example C16_example_run :
  decode 9 (reg_env base_reg) (Ctx (-1) "" None) (map Zb [8; 7; 0; 9; 1; 21; 1]) 0 "Vec<(u8,Option<Compact<Balance>>)>"
  = Ok (VSlice [VMap [("col1", VInt 7); ("col2", VNil)]; VMap [("col1", VInt 9); ("col2", VDec 69 0)]], 7, [])
  /\ encode 9 (reg_env base_reg) (-1) None "Vec<(u8,Option<Compact<Balance>>)>"
       (VSlice [VMap [("col1", VInt 7); ("col2", VNil)]; VMap [("col1", VInt 9); ("col2", VDec 69 0)]]) = Ok "08070009011501".
Proof. vm_compute. auto. Qed.

(** ** C22.  Full claim: decoding a strict prefix of an encoding panics.  It is
    false (below).  What holds: such a decode never stops early; if it returns a
    value at all it has eaten the whole prefix. *)
Theorem C22_truncated_partial E c ts p q g cs v o' cs' : std_env E -> local_env E ->
  scale false E c ts (p ++ q) g cs -> q <> [] -> blen (p ++ q) < 2 ^ 63 ->
  Decodes E c p 0 ts (Ok (v, o', cs')) -> o' = blen p.
Proof.
  intros S LE H Q L (_ & f & D).
  assert (L1 : blen ([] ++ (p ++ q) ++ []) < 2 ^ 63) by (cbn [app]; now rewrite app_nil_r).
  pose proof (C15_decode E c ts (p ++ q) g cs [] [] S H L1) as DF. cbn [app] in DF. rewrite app_nil_r in DF.
  pose proof (blen_nonneg p) as P0. rewrite blen_app in L. pose proof (blen_nonneg q) as Q0.
  pose proof (decode_forward f E c p 0 ts v o' cs' ltac:(lia) D) as [F1 F2].
  destruct (Z.eq_dec o' (blen p)) as [|N]; [assumption|exfalso].
  assert (LT : o' < blen p) by lia.
  pose proof (decode_prefix_only f E LE c p 0 ts v o' cs' ltac:(lia) D LT [] (skipn (Z.to_nat o') p ++ q)%list) as PO.
  cbn [app] in PO. rewrite app_assoc, firstn_skipn in PO. rewrite (blen_app p q) in PO.
  specialize (PO ltac:(change two63 with (2^63); lia) ltac:(change two63 with (2^63); lia)).
  assert (D2 : Decodes E c (p ++ q) 0 ts (Ok (v, blen [] + o', cs'))) by (split; [discriminate|exists f; exact PO]).
  pose proof (Decodes_det _ _ _ _ _ _ _ DF D2) as EQ. injection EQ as _ EL _.
  rewrite blen_app in EL. change (blen []) with 0 in EL.
  destruct q as [|b q]; [contradiction|]. unfold blen in EL, LT. cbn [List.length] in EL. lia.
Qed.

(** One byte of a u16, an empty Vec<u8> body, an empty input for an Option. *)
Theorem C22_truncated_refuted :
  let E := reg_env base_reg in let c := Ctx (-1) "" None in
  (scale false E c "u16" ([Zb 5] ++ [Zb 1])%list (VU16 261) [] /\ Decodes E c [Zb 5] 0 "u16" (Ok (VU16 5, 1, [])))
  /\ (scale false E c "HexBytes" ([Zb 8] ++ [Zb 1; Zb 2])%list (VStr "0x0102") [] /\ Decodes E c [Zb 8] 0 "HexBytes" (Ok (VStr "0x", 1, [])))
  /\ (scale false E c "Option<u16>" ([] ++ [Zb 1; Zb 2; Zb 3])%list (VU16 770) [] /\ Decodes E c [] 0 "Option<u16>" (Ok (VU16 0, 0, []))).
Proof.
  cbv zeta. assert (U : forall z, 0 <= z < 2 ^ 16 -> scale false (reg_env base_reg) (Ctx (-1) "" None) "u16" (le_bytes 2 z) (VU16 z) []).
  { intros z Hz. eapply (sc_type _ _ _ _ CU16); [res|discriminate|now constructor]. }
  split; [|split].
  - split; [apply (U 261); lia|]. split; [discriminate|]. exists 3%nat. vm_compute. reflexivity.
  - split; [|split; [discriminate|]; exists 3%nat; vm_compute; reflexivity].
    eapply (sc_type _ _ _ _ CHexBytes); [res|discriminate|]. apply (sc_hexbytes false _ _ [Zb 1; Zb 2]); [cbn; lia|discriminate].
  - split; [|split; [discriminate|]; exists 3%nat; vm_compute; reflexivity].
    eapply (sc_type _ _ _ _ (COption "u16")); [res|discriminate|].
    apply (sc_some false _ _ "u16" [Zb 2; Zb 3]); try discriminate. apply (U 770); lia.
Qed.

Print Assumptions C15_decode.
Print Assumptions C15_unique_reading.
Print Assumptions C16_encode.
Print Assumptions C17_roundtrip.
Print Assumptions C22_truncated_partial.
Print Assumptions C22_truncated_refuted.
