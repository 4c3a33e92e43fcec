(** Identity data, the limits on lengths, and encoding a call.  C53, C54, C55. *)

From Verif Require Import GoBase SpecNum ProofsBase ModelTools ProofsTools ModelVal ModelRegistry ModelDecode ModelEncode ModelRegister
  ProofsRun SpecScale ProofsReads ProofsForms ProofsScale ProofsEncode ProofsApi PropForms PropCodec.

(** ** C53: lengths that are refused *)
(** A vector that announces more than 524288 elements, or a map of more than
    1000, panics, whatever follows. *)
Theorem C53_vec E c ts sub n pre tl : std_env E -> resolves E c ts (CVec sub) -> 512 * 1024 < n < 2 ^ 63 -> blen (pre ++ compact n ++ tl) < 2 ^ 63 ->
  exists m, Decodes E c (pre ++ compact n ++ tl) (blen pre) ts (Panic m).
Proof.
  intros S R N L. eexists. eapply (Decodes_run E c ts _ 1); [exact R| |discriminate]. cbn [process]. unfold compact_u32. cbn [run].
  rewrite (Dec_compact_u32 E 0 _ n S ltac:(lia) pre tl L). cbn [bind as_int]. replace (512 * 1024 <? n) with true by lia. reflexivity.
Qed.
Theorem C53_map E c ts sub n pre tl : std_env E -> resolves E c ts (CBTreeMap sub) -> 1000 < n < 2 ^ 63 -> blen (pre ++ compact n ++ tl) < 2 ^ 63 ->
  exists m, Decodes E c (pre ++ compact n ++ tl) (blen pre) ts (Panic m).
Proof.
  intros S R N L. eexists. eapply (Decodes_run E c ts _ 1); [exact R| |discriminate]. cbn [process]. unfold compact_u32. cbn [run].
  rewrite (Dec_compact_u32 E 0 _ n S ltac:(lia) pre tl L). cbn [bind as_int]. replace (1000 <? n) with true by lia. reflexivity.
Qed.

(** A list one shorter than the limit is not refused: the limit itself. *)
Example C53_limit : let E := reg_env base_reg in let c := Ctx (-1) "" None in
  resolves E c "Vec<u16>" (CVec "u16") /\ resolves E c "BTreeMap<u8,u8>" (CBTreeMap "u8,u8")
  /\ decode 4 E c (compact 524289) 0 "Vec<u16>" = Panic "Vec length exceeds"
  /\ decode 4 E c (compact 1001) 0 "BTreeMap<u8,u8>" = Panic "BTreeMap length exceeds"
  /\ match decode 4 E c (compact 1000) 0 "BTreeMap<u8,u8>" with Panic m => m <> "BTreeMap length exceeds" | _ => True end.
Proof.
  cbv zeta. split; [res|]. split; [res|]. split; [vm_compute; reflexivity|]. split; [vm_compute; reflexivity|]. vm_compute. exact I.
Qed.

(** ** C54: identity data *)
(** The forms of the identity pallet: nothing, up to 32 raw bytes, or a hash. *)
Inductive data_wire : bytes -> val -> Prop :=
| dw_none : data_wire [Zb 0] (VMap [("None", VNil)])
| dw_raw b s : (List.length b <= 32)%nat -> shown b s -> data_wire (Zb (blen b + 1) :: b) (VMap [("Raw" ++ itoa (blen b), VStr s)])
| dw_hash i n b : In (i, n) hash_names -> List.length b = 32%nat -> data_wire (Zb i :: b) (VMap [(n, VStr ("0x" ++ hex_encode b))]).

Lemma data_scale st E c ts b v : resolves E c ts CData -> resolves E c "H256" CH256 -> (st = true -> resolves E (Ctx (-1) "" None) "H256" CH256) ->
  data_wire b v -> (st = true -> forall r s, b = Zb (blen r + 1) :: r -> v = VMap [("Raw" ++ itoa (blen r), VStr s)] -> utf8 r \/ blen r = 1) ->
  scale st E c ts b v [].
Proof.
  intros R H H' W T. eapply sc_type; [exact R|discriminate|]. destruct W as [|r s L SH|i n r I L].
  - apply sc_data_none.
  - apply sc_data_raw; [reflexivity|unfold blen; lia|exact SH|]. intros ST. exact (T ST r s eq_refl eq_refl).
  - now apply sc_data_hash.
Qed.
(** Decoding: at any position, consuming exactly the form. *)
Theorem C54_decode E c ts b v pre tl : std_env E -> resolves E c ts CData -> resolves E c "H256" CH256 -> data_wire b v ->
  blen (pre ++ b ++ tl) < 2 ^ 63 -> Decodes E c (pre ++ b ++ tl) (blen pre) ts (Ok (v, blen pre + blen b, [])).
Proof.
  intros S R H W L. apply C15_decode; [exact S| |exact L]. apply data_scale; try assumption; discriminate.
Qed.
(** The same bytes come back from the value, for text and for a single byte. *)
Theorem C54_roundtrip_partial E spec meta ts b v : std_env E -> resolves E (Ctx spec "" meta) ts CData ->
  resolves E (Ctx spec "" meta) "H256" CH256 -> resolves E (Ctx (-1) "" None) "H256" CH256 -> data_wire b v ->
  (forall r s, b = Zb (blen r + 1) :: r -> v = VMap [("Raw" ++ itoa (blen r), VStr s)] -> utf8 r \/ blen r = 1) ->
  Encodes E spec meta ts v (BytesToHex b) /\ Decodes E (Ctx spec "" meta) b 0 ts (Ok (v, blen b, [])).
Proof.
  intros S R H H' W T. split.
  - apply (C16_encode E (Ctx spec "" meta) ts b v []); [exact S|reflexivity|]. apply data_scale; auto.
  - pose proof (C54_decode E (Ctx spec "" meta) ts b v [] [] S R H W) as D. cbn [app] in D. rewrite app_nil_r in D. apply D.
    destruct W as [|r s L _|i n r _ L]; unfold blen; cbn [List.length]; lia.
Qed.
(** Other bytes are written back as the text of their hex form; an index that
    means nothing gives a nil value and no error. *)
Theorem C54_refuted : let E := reg_env base_reg in let c := Ctx (-1) "" None in
  (Decodes E c (map Zb [3; 255; 254]) 0 "Data" (Ok (VMap [("Raw2", VStr "fffe")], 3, []))
   /\ Encodes E (-1) None "Data" (VMap [("Raw2", VStr "fffe")]) "0366666665")
  /\ Decodes E c (map Zb [38; 1; 2]) 0 "Data" (Ok (VNil, 1, [])).
Proof. cbv zeta. repeat match goal with |- _ /\ _ => split end; try enc 4%nat; dec 4%nat. Qed.
(** Nothing beyond 37 is ever refused. *)
Theorem C54_unknown E c ts i pre tl : resolves E c ts CData -> 37 < i < 256 -> blen (pre ++ Zb i :: tl) < 2 ^ 63 ->
  Decodes E c (pre ++ Zb i :: tl) (blen pre) ts (Ok (VNil, blen pre + 1, [])).
Proof.
  intros R I L. eapply (Decodes_run E c ts _ O); [exact R| |discriminate]. cbn [process run]. rewrite next_one by exact L. cbn [bind head_u8].
  rewrite bZ_Zb_small by lia. replace (i =? 0) with false by lia. replace (i <=? 33) with false by lia. replace (i <=? 37) with false by lia. reflexivity.
Qed.
Example C54_case : let E := reg_env base_reg in let c := Ctx (-1) "" None in
  resolves E c "Data" CData /\ resolves E c "H256" CH256
  /\ data_wire (map Zb [6; 104; 195; 169; 33; 10]) (VMap [("Raw5", VStr (b2s (map Zb [104; 195; 169; 33; 10])))])
  /\ utf8 (map Zb [104; 195; 169; 33; 10]) /\ ~ utf8 [Zb 195]
  /\ decode 4 E c (map Zb [6; 104; 195; 169; 33; 10]) 0 "Data" = Ok (VMap [("Raw5", VStr (b2s (map Zb [104; 195; 169; 33; 10])))], 6, []).
Proof.
  cbv zeta. assert (U : utf8 (map Zb [104; 195; 169; 33; 10])) by (apply utf8_valid_spec; reflexivity).
  split; [res|]. split; [res|]. split.
  { apply (dw_raw (map Zb [104; 195; 169; 33; 10])); [cbn; lia|now apply shown_text]. }
  split; [exact U|]. split; [|vm_compute; reflexivity].
  intros H. apply utf8_valid_spec in H. discriminate H.
Qed.

(** ** C55: a call is encoded as its index and its arguments *)
(** The arguments given: [call_args] when there are any, else [params]. *)
Definition given (ps cs : list val) : list val := match cs with [] => ps | _ => cs end.
(** The call index, with or without 0x. *)
Inductive index_text (i j : ascii) : string -> Prop :=
| it_plain : index_text i j (hex_encode [i; j])
| it_0x : index_text i j ("0x" ++ hex_encode [i; j]).

Lemma seqenc_args sub (args : list (string * string)) : forall bs gs extra, seqenc sub (map snd args) bs gs ->
  encode_args sub args (gs ++ extra) = Ok (hex_encode bs).
Proof.
  induction args as [|[n t] args IH]; intros bs gs extra H; cbn [map snd] in H; inversion H; subst; [reflexivity|].
  cbn [encode_args app]. match goal with HH : sub t _ = Ok _ |- _ => rewrite HH end. cbn [bind]. erewrite IH by eassumption. cbn [bind]. now rewrite hex_encode_app.
Qed.
Theorem C55_encode E spec md ts i j txt cm ps cs gs extra bs is : std_env E -> resolves E (Ctx spec "" (Some md)) ts CCall ->
  index_text i j txt -> assoc (hex_encode [i; j]) md = Some cm -> given ps cs = (gs ++ extra)%list ->
  scales true E (Ctx spec "" (Some md)) (map snd (cm_args cm)) bs gs is ->
  Encodes E spec (Some md) ts (VBox txt ps cs) (BytesToHex (i :: j :: bs)).
Proof.
  intros S R IT A G SC. destruct (scale_encodes E S) as (_ & _ & D). destruct (D _ _ _ _ _ SC eq_refl) as [f H]. cbn [x_spec x_meta] in H.
  assert (K : forall f', (f <= f')%nat -> encode_codec E (encode f' E) spec (Some md) CCall (norm (VBox txt ps cs)) = Ok (hex_encode (i :: j :: bs))).
  { intros f' L. cbn [norm encode_codec encode_call].
    assert (TX : TrimHex txt = hex_encode [i; j]) by (destruct IT; [apply TrimHex_hex|apply TrimHex_0x]). rewrite TX, A.
    change (match cs with [] => ps | _ => cs end) with (given ps cs).
    change (fun (t : string) (x : val) => encode f' E spec (Some md) t x) with (encode f' E spec (Some md)). rewrite G.
    rewrite (seqenc_args _ (cm_args cm) bs gs extra (H f' L)). cbn [bind]. now rewrite <- hex_encode_app. }
  pose proof (EncodesTo_fuel E spec (Some md) ts CCall _ f _ S R ltac:(discriminate) K ltac:(discriminate)) as P.
  cbn [bind] in P. now rewrite trim_lower_hex in P.
Qed.
(** Decoding what was written gives the call back, with every argument, when
    the arguments mean the same inside the pallet as outside. *)
Theorem C55_roundtrip_partial E spec md ts i j txt cm ps cs gs extra bs is : std_env E -> resolves E (Ctx spec "" (Some md)) ts CCall ->
  index_text i j txt -> assoc (hex_encode [i; j]) md = Some cm -> given ps cs = (gs ++ extra)%list ->
  scales true E (Ctx spec "" (Some md)) (map snd (cm_args cm)) bs gs is ->
  scales false E (Ctx spec (cm_module cm) (Some md)) (map snd (cm_args cm)) bs gs is -> blen bs < 2 ^ 62 ->
  exists s, Encodes E spec (Some md) ts (VBox txt ps cs) s /\
    Decodes E (Ctx spec "" (Some md)) (HexToBytes s) 0 ts
      (Ok (VMap [("call_index", VStr (hex_encode [i; j])); ("call_name", VStr (cm_name cm)); ("call_module", VStr (cm_module cm));
                 ("params", VParams (combine (cm_args cm) gs))],
           blen bs + 2, (is ++ [hex_encode (i :: j :: bs)])%list)).
Proof.
  intros S R IT A G SC SD L. exists (BytesToHex (i :: j :: bs)). split; [eapply C55_encode; eassumption|]. rewrite HexToBytes_hex.
  assert (SF : scale false E (Ctx spec "" (Some md)) ts (i :: j :: bs)
    (VMap [("call_index", VStr (hex_encode [i; j])); ("call_name", VStr (cm_name cm)); ("call_module", VStr (cm_module cm)); ("params", VParams (combine (cm_args cm) gs))])
    (is ++ [hex_encode (i :: j :: bs)])).
  { eapply sc_type; [exact R|discriminate|]. eapply sc_call; [reflexivity|reflexivity|exact A|exact SD]. }
  pose proof (C15_decode E _ ts _ _ _ [] [] S SF) as D. cbn [app] in D. rewrite app_nil_r in D.
  replace (blen bs + 2) with (0 + blen (i :: j :: bs)) by (unfold blen; cbn [List.length]; lia). apply D. unfold blen in *; cbn [List.length]; lia.
Qed.
(** Too few arguments, an unknown call and missing metadata panic. *)
Theorem C55_too_few E spec md ts i j txt cm ps cs t2 rest bs is : std_env E -> resolves E (Ctx spec "" (Some md)) ts CCall ->
  index_text i j txt -> assoc (hex_encode [i; j]) md = Some cm -> map snd (cm_args cm) = (t2 ++ rest)%list -> rest <> [] ->
  scales true E (Ctx spec "" (Some md)) t2 bs (given ps cs) is -> exists m, EncodesTo E spec (Some md) ts (VBox txt ps cs) (Panic m).
Proof.
  intros S R IT A Q NE SC. destruct (scale_encodes E S) as (_ & _ & D). destruct (D _ _ _ _ _ SC eq_refl) as [f H]. cbn [x_spec x_meta] in H.
  exists "runtime error: index out of range".
  assert (K : forall f', (f <= f')%nat -> encode_codec E (encode f' E) spec (Some md) CCall (norm (VBox txt ps cs)) = Panic "runtime error: index out of range").
  { intros f' L. cbn [norm encode_codec encode_call].
    assert (TX : TrimHex txt = hex_encode [i; j]) by (destruct IT; [apply TrimHex_hex|apply TrimHex_0x]). rewrite TX, A.
    change (match cs with [] => ps | _ => cs end) with (given ps cs).
    change (fun (t : string) (x : val) => encode f' E spec (Some md) t x) with (encode f' E spec (Some md)).
    assert (P : encode_args (encode f' E spec (Some md)) (cm_args cm) (given ps cs) = Panic "runtime error: index out of range").
    { specialize (H f' L). clear - Q NE H. revert bs Q H. generalize (given ps cs) as gs. revert t2. induction (cm_args cm) as [|[n t] args IH]; intros t2 gs bs Q H; cbn [map snd] in Q.
      - destruct t2, rest; try discriminate. contradiction.
      - destruct t2 as [|t' t2]; [inversion H; subst; reflexivity|]. injection Q as <- Q. inversion H; subst. cbn [encode_args].
        match goal with HH : encode f' E spec (Some md) t _ = Ok _ |- _ => rewrite HH end. cbn [bind]. erewrite IH by eassumption. reflexivity. }
    now rewrite P. }
  exact (EncodesTo_fuel E spec (Some md) ts CCall _ f _ S R ltac:(discriminate) K ltac:(discriminate)).
Qed.
Theorem C55_unknown E spec meta ts i j txt ps cs : std_env E -> resolves E (Ctx spec "" meta) ts CCall -> index_text i j txt ->
  (forall md, meta = Some md -> assoc (hex_encode [i; j]) md = None) -> exists m, EncodesTo E spec meta ts (VBox txt ps cs) (Panic m).
Proof.
  intros S R IT A.
  assert (K : exists m, forall rec, encode_codec E rec spec meta CCall (norm (VBox txt ps cs)) = Panic m).
  { destruct meta as [md|]; [|now exists "nil metadata"]. exists "Not find Extrinsic Lookup". intros rec. cbn [norm encode_codec encode_call].
    assert (TX : TrimHex txt = hex_encode [i; j]) by (destruct IT; [apply TrimHex_hex|apply TrimHex_0x]). now rewrite TX, (A md eq_refl). }
  destruct K as [m K]. exists m. exact (EncodesTo_const E spec meta ts CCall _ (Panic m) S R ltac:(discriminate) K ltac:(discriminate)).
Qed.
Definition ex_call : callmod := CallMod "Balances" "transfer" [("dest", "u16"); ("value", "u8")].
Example C55_case : let E := reg_env base_reg in let md := [("0600", ex_call)] in let c := Ctx (-1) "" (Some md) in
  resolves E c "Call" CCall /\ scales true E c ["u16"; "u8"] (map Zb [1; 2; 3]) [VU16 513; VInt 3] []
  /\ scales false E (Ctx (-1) "Balances" (Some md)) ["u16"; "u8"] (map Zb [1; 2; 3]) [VU16 513; VInt 3] []
  /\ encode 4 E (-1) (Some md) "Call" (VBox "0x0600" [] [VU16 513; VInt 3]) = Ok "0600010203"
  /\ encode 4 E (-1) (Some md) "Call" (VBox "0600" [VU16 513; VInt 3; VNil] []) = Ok "0600010203"
  /\ encode 4 E (-1) (Some md) "Call" (VBox "0600" [VU16 7; VInt 7] [VU16 513; VInt 3]) = Ok "0600010203"
  /\ encode 4 E (-1) (Some md) "Call" (VBox "0600" [VU16 513] []) = Panic "runtime error: index out of range"
  /\ encode 4 E (-1) (Some md) "Call" (VBox "0601" [] []) = Panic "Not find Extrinsic Lookup".
Proof.
  cbv zeta. split; [res|].
  assert (X : forall st m, scales st (reg_env base_reg) (Ctx (-1) m (Some [("0600", ex_call)])) ["u16"; "u8"] (map Zb [1; 2; 3]) [VU16 513; VInt 3] [] \/ (m <> "" /\ m <> "Balances")).
  { intros st m. destruct (String.eqb_spec m "") as [->|N1]; [left|destruct (String.eqb_spec m "Balances") as [->|N2]; [left|right; auto]].
    all: apply (ss_cons st _ _ "u16" ["u8"] (le_bytes 2 513) (le_bytes 1 3) (VU16 513) [VInt 3] [] []); [eapply (sc_type _ _ _ _ CU16); [res|discriminate|constructor; lia]|].
    all: apply (ss_cons st _ _ "u8" [] (le_bytes 1 3) [] (VInt 3) [] [] []); [eapply (sc_type _ _ _ _ CU8); [res|discriminate|constructor; lia]|constructor]. }
  split; [destruct (X true "") as [Y|[Y _]]; [exact Y|contradiction]|].
  split; [destruct (X false "Balances") as [Y|[_ Y]]; [exact Y|contradiction]|].
  repeat match goal with |- _ /\ _ => split end; vm_compute; reflexivity.
Qed.

Print Assumptions C53_vec.
Print Assumptions C53_map.
Print Assumptions C54_decode.
Print Assumptions C54_roundtrip_partial.
Print Assumptions C54_refuted.
Print Assumptions C54_unknown.
Print Assumptions C55_encode.
Print Assumptions C55_roundtrip_partial.
Print Assumptions C55_too_few.
Print Assumptions C55_unknown.
