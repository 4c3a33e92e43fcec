(** Options, byte strings, bit vectors, flag sets, enums and empty arrays:
    C18, C19, C24, C25, C26, C27, C28. *)

From Verif Require Import GoBase SpecNum ProofsBase ModelTools ProofsTools ModelVal ModelJson
  ModelRegistry ModelFixPoint ModelDecode ModelEncode ModelRegister ProofsRun SpecScale ProofsReads ProofsForms ProofsScale ProofsEncode ProofsApi.

Ltac res := eexists _, _; split; [vm_compute; reflexivity|reflexivity].
Ltac enc n := apply (encode_enough _ _ _ _ _ n); [vm_compute; reflexivity|discriminate].
Ltac dec n := split; [discriminate|exists n; vm_compute; reflexivity].

(** ** C18 *)
Lemma lower_idem c : lower_char (lower_char c) = lower_char c.
Proof.
  unfold lower_char. destruct ((65 <=? bZ c) && (bZ c <=? 90)) eqn:H; [|now rewrite H].
  rewrite bZ_Zb_small by lia. now replace ((65 <=? bZ c + 32) && (bZ c + 32 <=? 90)) with false by (symmetry; lia).
Qed.
Lemma to_lower_idem s : to_lower (to_lower s) = to_lower s.
Proof. unfold to_lower. induction s as [|c s IH]; [reflexivity|]. cbn [smap]. now rewrite IH, lower_idem. Qed.
Lemma to_lower_TrimHex s : to_lower s = s -> to_lower (TrimHex s) = TrimHex s.
Proof.
  intros H. unfold TrimHex, trim_prefix. destruct (has_prefix s "0x"); [|exact H].
  destruct s as [|a [|b s]]; [exact H|reflexivity|]. unfold to_lower in *. cbn [smap] in H. injection H as _ _ H. exact H.
Qed.

(** Encode's text is its own lower case. *)
Lemma encode_lower E f spec meta ts v s : encode f E spec meta ts v = Ok s -> to_lower s = s.
Proof.
  destruct f as [|f]; [discriminate|]. cbn [encode]. destruct (equal_fold ts "Null"); [now intros [= <-]|].
  destruct (GetCodecClass E "" ts spec) as [[[cd sub]|]|m|]; cbn [bind]; try discriminate.
  destruct (encode_codec E (encode f E) spec meta (init_sub cd sub) _) as [o|m|]; cbn [bind]; try discriminate.
  intros [= <-]. apply to_lower_TrimHex, to_lower_idem.
Qed.
Lemma TrimHex_digit s : TrimHex ("01" ++ s) = "01" ++ s.
Proof. reflexivity. Qed.

(** A present value other than an empty string, a nil slice or a nested nil is
    written as 01 and its own encoding. *)
Theorem C18_some_partial E spec meta ts sub v s : std_env E -> resolves E (Ctx spec "" meta) ts (COption sub) -> sub <> "bool" ->
  ~ nil_like v -> Encodes E spec meta sub v s -> Encodes E spec meta ts v ("01" ++ s).
Proof.
  intros S R NB NN (_ & f & H).
  assert (LS : to_lower s = s) by (apply (encode_lower E f spec meta sub v); apply H; lia).
  assert (NV : norm v = v) by (apply norm_id; intros ->; apply NN; now left).
  assert (K : forall f', (f <= f')%nat -> encode_codec E (encode f' E) spec meta (COption sub) (norm v) = Ok ("01" ++ s)).
  { intros f' L. rewrite NV. cbn [encode_codec].
    replace ((match v with VStr s0 => String.eqb s0 "" | _ => false end) || is_nil v) with false.
    2:{ symmetry. apply orb_false_iff. split.
        - destruct v; try reflexivity. apply String.eqb_neq. intros ->. apply NN. right. now left.
        - destruct v; try reflexivity; try (exfalso; apply NN; unfold nil_like; tauto).
          destruct l; [reflexivity|]. exfalso. apply NN. unfold nil_like. tauto. }
    destruct (String.eqb_spec sub "bool"); [contradiction|]. rewrite (H f' L). reflexivity. }
  pose proof (EncodesTo_fuel E spec meta ts (COption sub) v f (Ok ("01" ++ s)) S R ltac:(discriminate) K ltac:(discriminate)) as P.
  cbn [bind] in P. rewrite to_lower_app, LS in P. exact P.
Qed.
(** The empty ones are written as 00, which reads back as nil. *)
Theorem C18_empty E spec meta ts sub v : std_env E -> resolves E (Ctx spec "" meta) ts (COption sub) -> nil_like v ->
  Encodes E spec meta ts v "00".
Proof.
  intros S R N. change "00" with (hex_encode [Zb 0]). eapply Encodes_hex; [exact S|exact R|discriminate|]. intros rec.
  destruct N as [->|[->|[->| ->]]]; reflexivity.
Qed.
Theorem C18_some_refuted :
  let E := reg_env base_reg in let c := Ctx (-1) "" None in
  (* an empty string, an empty vector and Some(None) *)
  (Encodes E (-1) None "Option<String>" (VStr "") "00" /\ Decodes E c (map Zb [1; 0]) 0 "Option<String>" (Ok (VStr "", 2, [])))
  /\ (Encodes E (-1) None "Option<Vec<u16>>" VNilSlice "00" /\ Decodes E c (map Zb [1; 0]) 0 "Option<Vec<u16>>" (Ok (VNilSlice, 2, [])))
  /\ Decodes E c [Zb 0] 0 "Option<Vec<u16>>" (Ok (VNil, 1, []))
  /\ Decodes E c (map Zb [1; 0]) 0 "Option<Option<u16>>" (Ok (VNil, 2, [])).
Proof. cbv zeta. repeat match goal with |- _ /\ _ => split end; try enc 4%nat; dec 5%nat. Qed.
Example C18_case : let E := reg_env base_reg in
  resolves E (Ctx (-1) "" None) "Option<u16>" (COption "u16") /\ Encodes E (-1) None "u16" (VU16 258) "0201" /\ ~ nil_like (VU16 258).
Proof. cbv zeta. split; [res|]. split; [enc 3%nat|]. intros [H|[H|[H|H]]]; discriminate. Qed.

(** ** C19 *)
Theorem C19_option_bool_partial E spec meta ts pre tl : std_env E -> resolves E (Ctx spec "" meta) ts (COption "bool") ->
  Encodes E spec meta ts VNil "00" /\ Encodes E spec meta ts (VBool true) "01" /\ Encodes E spec meta ts (VBool false) "02"
  /\ forall c, resolves E c ts (COption "bool") -> forall x v, In (x, v) [(0, VNil); (1, VBool true); (2, VBool false)] ->
     blen (pre ++ [Zb x] ++ tl) < 2 ^ 63 -> Decodes E c (pre ++ [Zb x] ++ tl) (blen pre) ts (Ok (v, blen pre + 1, [])).
Proof.
  intros S R. repeat match goal with |- _ /\ _ => split end.
  - change "00" with (hex_encode [Zb 0]). eapply Encodes_hex; [exact S|exact R|discriminate|]. reflexivity.
  - change "01" with (hex_encode [Zb 1]). eapply Encodes_hex; [exact S|exact R|discriminate|]. reflexivity.
  - change "02" with (hex_encode [Zb 2]). eapply Encodes_hex; [exact S|exact R|discriminate|]. reflexivity.
  - intros c Rc x v I L. cbn [In] in I.
    repeat (destruct I as [[= <- <-]|I]; [eapply Decodes_next; [exact Rc|reflexivity|reflexivity|reflexivity|exact L]|]). contradiction.
Qed.
(** Spelled Option<Bool> the same type takes two bytes. *)
Theorem C19_spelling_refuted :
  let E := reg_env base_reg in
  Encodes E (-1) None "Option<bool>" (VBool false) "02" /\ Encodes E (-1) None "Option<Bool>" (VBool false) "0100".
Proof. cbv zeta. split; enc 4%nat. Qed.
Example C19_name : resolves (reg_env base_reg) (Ctx (-1) "" None) "Option<bool>" (COption "bool").
Proof. res. Qed.

(** ** C24: decoding a byte string and encoding the result. *)
Definition byte_string (cd : codec) (b : bytes) (bs : bytes) : Prop :=
  match cd with
  | CBytes => Z.of_nat (List.length b) < 2 ^ 30 /\ ~ looks_hex b /\ bs = (len_of b ++ b)%list
  | CString => Z.of_nat (List.length b) < 2 ^ 30 /\ forallb printable b = true /\ bs = (len_of b ++ b)%list
  | CHexBytes => Z.of_nat (List.length b) < 2 ^ 30 /\ bs = (len_of b ++ b)%list
  | CFixedU8 n => blen b = n /\ n < 2 ^ 62 /\ ~ looks_hex b /\ bs = b
  | CFixedArray n sub => equal_fold sub "u8" = true /\ blen b = n /\ 0 < n < 2 ^ 62 /\ ~ looks_hex b /\ bs = b
  | _ => False
  end.
Theorem C24_bytes_partial E spec meta ts cd b bs : std_env E -> resolves E (Ctx spec "" meta) ts cd -> byte_string cd b bs ->
  exists v, Decodes E (Ctx spec "" meta) bs 0 ts (Ok (v, blen bs, [])) /\ Encodes E spec meta ts v (BytesToHex bs).
Proof.
  intros S R B.
  assert (X : exists g, scale_at true E (Ctx spec "" meta) cd bs g [] /\ cd <> CNull /\ blen bs < 2 ^ 63).
  { assert (LL : Z.of_nat (List.length b) < 2 ^ 30 -> blen (len_of b ++ b) < 2 ^ 63).
    { intros H. rewrite blen_app. unfold len_of, compact. change (2 ^ 6) with 64. change (2 ^ 14) with 16384.
      destruct (_ <? 64); [rewrite blen_le_bytes; unfold blen; lia|]. destruct (_ <? 16384); [rewrite blen_le_bytes; unfold blen; lia|].
      replace (Z.of_nat (List.length b) <? 2 ^ 30) with true by (symmetry; lia). rewrite blen_le_bytes. unfold blen. lia. }
    destruct cd; cbn [byte_string] in B; try contradiction.
    - destruct B as (L & N & ->). eexists. split; [|split; [discriminate|auto]]. apply (sc_bytes true); [lia|auto].
    - destruct B as (L & ->). eexists. split; [|split; [discriminate|auto]]. apply (sc_hexbytes true); [lia|auto].
    - destruct B as (L & N & ->). eexists. split; [|split; [discriminate|auto]]. apply (sc_string true); [lia|auto].
    - destruct B as (L & N & NH & ->). eexists. split; [|split; [discriminate|lia]]. apply (sc_fixed_u8 true); [exact L|lia|auto].
    - destruct B as (Hs & L & N & NH & ->). eexists. split; [|split; [discriminate|lia]]. apply (sc_array_u8 true); [exact Hs|exact L|lia|auto]. }
  destruct X as (g & SA & NN & L). exists g.
  assert (SC : scale true E (Ctx spec "" meta) ts bs g []) by (eapply sc_type; [exact R|congruence|exact SA]). split.
  - destruct (scale_decodes true E S) as (D & _ & _). destruct (D _ _ _ _ _ SC) as [f F].
    split; [discriminate|]. exists f. specialize (F [] []). cbn [app] in F. rewrite app_nil_r in F. now apply F.
  - destruct (scale_encodes E S) as (D & _ & _). split; [discriminate|]. exact (D _ _ _ _ _ SC eq_refl).
Qed.
(** Bytes that print as "0x.." are read as hex text; a String that is not
    printable decodes to hex text and encodes as that text. *)
Theorem C24_bytes_refuted :
  let E := reg_env base_reg in let c := Ctx (-1) "" None in
  (Decodes E c (map Zb [16; 48; 120; 97; 98]) 0 "Bytes" (Ok (VStr "0xab", 5, [])) /\ Encodes E (-1) None "Bytes" (VStr "0xab") "04ab")
  /\ (Decodes E c (map Zb [8; 195; 169]) 0 "String" (Ok (VStr "0xc3a9", 3, [])) /\ Encodes E (-1) None "String" (VStr "0xc3a9") "18307863336139")
  /\ (Decodes E c (map Zb [48; 120; 97; 98]) 0 "[u8; 4]" (Ok (VStr "0xab", 4, [])) /\ Encodes E (-1) None "[u8; 4]" (VStr "0xab") "ab").
Proof. cbv zeta. repeat match goal with |- _ /\ _ => split end; try enc 4%nat; dec 4%nat. Qed.
Example C24_cases : let E := reg_env base_reg in let r ts cd := resolves E (Ctx (-1) "" None) ts cd in
  r "Bytes" CBytes /\ r "String" CString /\ r "HexBytes" CHexBytes /\ r "[u8; 7]" (CFixedArray 7 "u8") /\ r "[u8; 16]" (CFixedU8 16)
  /\ byte_string CBytes (map Zb [104; 105]) (map Zb [8; 104; 105]).
Proof.
  cbv zeta. repeat match goal with |- _ /\ _ => split end; try res. split; [vm_compute; reflexivity|]. split; [|reflexivity].
  intros [_ H]. discriminate.
Qed.

(** ** C25: bit vectors.  The text of whole bytes, most significant bit first. *)
(** Decoding the SCALE form (the number of bits, then the bytes) is right. *)
Theorem C25_decode E c ts b pre tl : std_env E -> resolves E c ts CBitVec -> blen b < 2 ^ 50 ->
  blen (pre ++ (compact (8 * blen b) ++ b) ++ tl) < 2 ^ 63 ->
  Decodes E c (pre ++ (compact (8 * blen b) ++ b) ++ tl) (blen pre) ts
    (Ok (VStr (bits_text b), blen pre + blen (compact (8 * blen b) ++ b), [])).
Proof.
  intros S R B L. pose proof (blen_nonneg b). eapply (Decodes_reads E c ts CBitVec 1); [exact R| |exact L].
  apply reads_bitvec; [exact S|lia|]. clear. lia.
Qed.

(** Encode writes the number of bytes where the number of bits belongs. *)
Theorem C25_encode E spec meta ts b : std_env E -> resolves E (Ctx spec "" meta) ts CBitVec -> b <> [] -> blen b < 2 ^ 30 ->
  Encodes E spec meta ts (VStr (bits_text b)) (BytesToHex (compact (blen b) ++ b)).
Proof.
  intros S R N L.
  assert (K : forall f', (1 <= f')%nat -> encode_codec E (encode f' E) spec meta CBitVec (norm (VStr (bits_text b))) = Ok (hex_encode (compact (blen b) ++ b))).
  { intros f' Hf. destruct f' as [|f']; [lia|]. cbn [norm encode_codec on_string]. unfold encode_bitvec.
    rewrite <- bits_text_eq. change (trim_prefix ("0b" ++ join "_" (map bits8 b)) "0b") with (join "_" (map bits8 b)). rewrite split_bits by exact N. rewrite map_map.
    replace (map (fun x => Zb (parse_bin8 (bits8 x))) b) with b.
    2:{ rewrite <- (map_id b) at 1. apply map_ext. intros x. rewrite (proj1 (bits8_facts x)). symmetry. apply Zb_bZ. }
    rewrite (enc_len E S) by exact L. cbn [bind]. unfold blen, BytesToHex. now rewrite hex_encode_app. }
  pose proof (EncodesTo_fuel E spec meta ts CBitVec _ 1 _ S R ltac:(discriminate) K ltac:(discriminate)) as P.
  cbn [bind] in P. now rewrite trim_lower_hex in P.
Qed.
(** So the round trip gives back only the first eighth of the vector. *)
Theorem C25_roundtrip_exact E c ts b : std_env E -> resolves E c ts CBitVec -> b <> [] -> blen b < 2 ^ 30 ->
  Decodes E c (compact (blen b) ++ b) 0 ts
    (Ok (VStr (bits_text (firstn (Z.to_nat ((blen b + 7) / 8)) b)), blen (compact (blen b)) + (blen b + 7) / 8, [])).
Proof.
  intros S R N L. pose proof (blen_nonneg b). set (k := Z.to_nat ((blen b + 7) / 8)).
  assert (K : Z.of_nat k = (blen b + 7) / 8) by (unfold k; rewrite Z2Nat.id; [reflexivity|apply Z.div_pos; lia]).
  assert (KB : (k <= List.length b)%nat).
  { destruct b as [|x b]; [contradiction|]. unfold blen in K. cbn [List.length] in *. lia. }
  assert (LF : blen (firstn k b) = (blen b + 7) / 8) by (unfold blen at 1; rewrite firstn_length_le by exact KB; exact K).
  pose proof (Decodes_reads E c ts CBitVec 1 (compact (blen b) ++ firstn k b) (VStr (bits_text (firstn k b))) [] [] (skipn k b) R) as D.
  cbn [app] in D. rewrite <- app_assoc, firstn_skipn in D. rewrite (blen_app (compact _) (firstn k b)), LF in D. apply D.
  - apply reads_bitvec; [exact S|lia|exact LF].
  - rewrite blen_app. assert (blen (compact (blen b)) < 2 ^ 32); [|lia].
    unfold compact. change (2 ^ 6) with 64. change (2 ^ 14) with 16384.
    destruct (blen b <? 64); [rewrite blen_le_bytes; lia|]. destruct (blen b <? 16384); [rewrite blen_le_bytes; lia|].
    replace (blen b <? 2 ^ 30) with true by (symmetry; lia). rewrite blen_le_bytes. lia.
Qed.
Theorem C25_roundtrip_partial E spec meta ts x : std_env E -> resolves E (Ctx spec "" meta) ts CBitVec ->
  exists s, Encodes E spec meta ts (VStr (bits_text [x])) s /\
    Decodes E (Ctx spec "" meta) (HexToBytes s) 0 ts (Ok (VStr (bits_text [x]), 2, [])).
Proof.
  intros S R. eexists. split; [apply C25_encode; [exact S|exact R|discriminate|reflexivity]|].
  rewrite HexToBytes_hex. apply (C25_roundtrip_exact E (Ctx spec "" meta) ts [x] S R); [discriminate|reflexivity].
Qed.
Theorem C25_roundtrip_refuted :
  let E := reg_env base_reg in let c := Ctx (-1) "" None in
  (Encodes E (-1) None "BitVec" (VStr "0b00000001_00000010") "080102" /\ Decodes E c (map Zb [8; 1; 2]) 0 "BitVec" (Ok (VStr "0b00000001", 2, [])))
  /\ (Encodes E (-1) None "BitVec" (VStr "0b") "0400" /\ Decodes E c (map Zb [4; 0]) 0 "BitVec" (Ok (VStr "0b00000000", 2, []))).
Proof. cbv zeta. repeat match goal with |- _ /\ _ => split end; try enc 4%nat; dec 4%nat. Qed.
Example C25_name : resolves (reg_env base_reg) (Ctx (-1) "" None) "BitVec" CBitVec /\ bits_text (map Zb [5; 255]) = "0b00000101_11111111".
Proof. split; [res|reflexivity]. Qed.

(** ** C26: the flags of an integer, by the position of their bit. *)
(** Widths 16, 32 and 64, except the top bit of 64. *)
Theorem C26_flags_partial E c ts vl bits cd z pre tl : resolves E c ts (CSet vl bits) -> resolves E c ("U" ++ itoa bits) cd ->
  (cd, bits) = (CU16, 16) \/ (cd, bits) = (CU32, 32) \/ (cd, bits) = (CU64, 64) -> 0 <= z < 2 ^ bits -> z < 2 ^ 63 ->
  blen (pre ++ le_bytes (Z.to_nat (bits / 8)) z ++ tl) < 2 ^ 63 ->
  Decodes E c (pre ++ le_bytes (Z.to_nat (bits / 8)) z ++ tl) (blen pre) ts
    (Ok (strings_val (flags z 0 vl), blen pre + bits / 8, [])).
Proof.
  intros R RU W Hz H63 L.
  assert (X : exists g, reads (decode 0 E) [] (process E c cd) (le_bytes (Z.to_nat (bits / 8)) z) g [] /\ set_value g = z /\ 0 <= bits / 8).
  { destruct W as [W|[W|W]]; injection W as -> ->.
    - exists (VU16 z). split; [|split; [reflexivity|vm_compute; discriminate]]. apply reads_next_ret; [reflexivity|]. cbv beta. now rewrite le_uint_bytes by exact Hz.
    - exists (VU32 z). split; [|split; [reflexivity|vm_compute; discriminate]]. apply reads_next_ret; [reflexivity|]. cbv beta. now rewrite le_uint_bytes by exact Hz.
    - exists (VU64 z). split; [|split; [apply i64_small; unfold two63; lia|vm_compute; discriminate]]. apply reads_next_ret; [reflexivity|]. cbv beta. now rewrite le_uint_bytes by exact Hz. }
  destruct X as (g & Rg & V & NB).
  replace (blen pre + bits / 8) with (blen pre + blen (le_bytes (Z.to_nat (bits / 8)) z)) by (rewrite blen_le_bytes; lia).
  eapply (Decodes_reads E c ts (CSet vl bits) 1); [exact R| |exact L]. cbn [process].
  eapply reads_sub_ret; [eapply Dec_resolves; [exact RU|exact Rg]|]. cbv beta. rewrite V. unfold set_result, strings_val.
  destruct (Z.ltb_spec 0 z).
  - now rewrite set_names_flags by lia.
  - replace z with 0 by lia. now rewrite flags_0.
Qed.
(** The flag list a decoder without custom types sees, over u8: empty. *)
Definition set8 : reg := regCustomKey "flags8" (CSet ["A"; "B"] 8) base_reg.
Definition set64 : reg := regCustomKey "flags64" (CSet (repeat "x" 63 ++ ["top"]) 64) base_reg.
Theorem C26_flags_refuted :
  let c := Ctx (-1) "" None in
  (resolves (reg_env set8) c "flags8" (CSet ["A"; "B"] 8) /\ flags 3 0 ["A"; "B"] = ["A"; "B"]
   /\ Decodes (reg_env set8) c [Zb 3] 0 "flags8" (Ok (VStrs None, 1, [])))
  /\ (flags (2 ^ 63) 0 (repeat "x" 63 ++ ["top"]) = ["top"]
      /\ Decodes (reg_env set64) c (le_bytes 8 (2 ^ 63)) 0 "flags64" (Ok (VStrs None, 8, []))).
Proof. cbv zeta. repeat match goal with |- _ /\ _ => split end; try res; try reflexivity; dec 4%nat. Qed.
Example C26_case :
  let E := reg_env (regCustomKey "flags16" (CSet ["A"; "B"; "C"] 16) base_reg) in let c := Ctx (-1) "" None in
  resolves E c "flags16" (CSet ["A"; "B"; "C"] 16) /\ resolves E c ("U" ++ itoa 16) CU16 /\ flags 5 0 ["A"; "B"; "C"] = ["A"; "C"].
Proof. cbv zeta. repeat match goal with |- _ /\ _ => split end; try res; reflexivity. Qed.

(** ** C27 *)
Lemma next_one pre x tl : blen (pre ++ x :: tl) < 2 ^ 63 ->
  next_bytes (pre ++ x :: tl) (blen pre) (i64 1) = Ok ([x], blen pre + 1).
Proof. intros L. apply (next_at pre [x] tl 1 L). reflexivity. Qed.

Lemma Decodes_run E c ts cd f data off r : resolves E c ts cd -> run (decode f E) off (process E c cd) data off [] = r -> r <> OutOfFuel ->
  Decodes E c data off ts r.
Proof.
  intros (cd0 & sub & G & I) H N. split; [exact N|]. exists (S f). cbn [decode]. rewrite G. cbn [bind]. now rewrite I.
Qed.

(** The first byte picks the variant by its position; the payload is decoded at
    the variant's type, and its failure is the failure of the whole. *)
Theorem C27_variant E c ts tm vl i name sub pre tl : resolves E c ts (CEnum (Some tm) vl) -> c_like tm = false ->
  0 <= i < 256 -> nth_error tm (Z.to_nat i) = Some (name, sub) -> sub <> "" -> struct_variant sub = None ->
  blen (pre ++ Zb i :: tl) < 2 ^ 63 ->
  (forall v o cs, Decodes E c (pre ++ Zb i :: tl) (blen pre + 1) sub (Ok (v, o, cs)) ->
     Decodes E c (pre ++ Zb i :: tl) (blen pre) ts (Ok (VMap [(name, v)], o, cs)))
  /\ (forall m, Decodes E c (pre ++ Zb i :: tl) (blen pre + 1) sub (Panic m) ->
     Decodes E c (pre ++ Zb i :: tl) (blen pre) ts (Panic m)).
Proof.
  intros R CL Hi N NS SV L.
  assert (X : forall f, run (decode f E) (blen pre) (process E c (CEnum (Some tm) vl)) (pre ++ Zb i :: tl) (blen pre) []
    = ('(v, o, cs) <- decode f E c (pre ++ Zb i :: tl) (blen pre + 1) sub ;; Ok (VMap [(name, v)], o, cs))).
  { intros f. cbn [process]. unfold process_enum. cbn [run]. rewrite next_one by exact L. cbn [bind head_u8].
    rewrite CL, bZ_Zb_small by exact Hi. rewrite (nth_z_nat tm i (name, sub)) by (assumption || lia).
    destruct (String.eqb_spec sub ""); [contradiction|]. rewrite SV. cbn [run].
    destruct (decode f E c _ _ sub) as [[[v o] cs]|m|]; reflexivity. }
  split.
  - intros v o cs (_ & f & D). eapply (Decodes_run E c ts _ f); [exact R|now rewrite X, D|discriminate].
  - intros m (_ & f & D). eapply (Decodes_run E c ts _ f); [exact R|now rewrite X, D|discriminate].
Qed.
(** A variant list without payloads. *)
Theorem C27_value_list E c ts vl i s pre tl : resolves E c ts (CEnum None vl) -> 0 <= i < 256 ->
  nth_error vl (Z.to_nat i) = Some s -> s <> "" -> blen (pre ++ Zb i :: tl) < 2 ^ 63 ->
  Decodes E c (pre ++ Zb i :: tl) (blen pre) ts (Ok (VStr s, blen pre + 1, [])).
Proof.
  intros R Hi N NS L. eapply (Decodes_run E c ts _ O); [exact R| |discriminate].
  cbn [process]. unfold process_enum. cbn [run]. rewrite next_one by exact L. cbn [bind head_u8]. rewrite bZ_Zb_small by exact Hi.
  rewrite (nth_z_nat vl i s) by (assumption || lia). destruct (String.eqb_spec s ""); [contradiction|]. reflexivity.
Qed.
(** No variant at that position: a panic, for both forms. *)
Theorem C27_unknown_panics E c ts tm vl i pre tl : resolves E c ts (CEnum tm vl) -> 0 <= i < 256 ->
  (match tm with None => Z.of_nat (List.length vl) <= i | Some tm => c_like tm = false /\ Z.of_nat (List.length tm) <= i end) ->
  blen (pre ++ Zb i :: tl) < 2 ^ 63 ->
  exists m, Decodes E c (pre ++ Zb i :: tl) (blen pre) ts (Panic m).
Proof.
  intros R Hi U L.
  assert (NZ : forall A (l : list A), Z.of_nat (List.length l) <= i -> nth_z l i = None).
  { intros A l Hl. unfold nth_z. replace (i <? 0) with false by (symmetry; lia). apply nth_error_None. lia. }
  destruct tm as [tm|].
  - destruct U as [CL U]. eexists. eapply (Decodes_run E c ts _ O); [exact R| |discriminate].
    cbn [process]. unfold process_enum. cbn [run]. rewrite next_one by exact L. cbn [bind head_u8]. rewrite bZ_Zb_small by exact Hi.
    rewrite CL, (NZ _ tm) by exact U. reflexivity.
  - eexists. eapply (Decodes_run E c ts _ O); [exact R| |discriminate].
    cbn [process]. unfold process_enum. cbn [run]. rewrite next_one by exact L. cbn [bind head_u8]. rewrite bZ_Zb_small by exact Hi.
    rewrite (NZ _ vl) by exact U. reflexivity.
Qed.
(** Enums with explicit numbers: the name carrying the number. *)
Theorem C27_numbered_partial E c ts tm vl i name t pre tl : resolves E c ts (CEnum (Some tm) vl) -> c_like tm = true ->
  In (name, t) tm -> StringToInt t = i -> 0 <= i < 256 -> (forall n' t', In (n', t') tm -> StringToInt t' = i -> n' = name) ->
  blen (pre ++ Zb i :: tl) < 2 ^ 63 ->
  Decodes E c (pre ++ Zb i :: tl) (blen pre) ts (Ok (VStr name, blen pre + 1, [])).
Proof.
  intros R CL I T Hi U L. eapply (Decodes_run E c ts _ O); [exact R| |discriminate].
  cbn [process]. unfold process_enum. cbn [run]. rewrite next_one by exact L. cbn [bind head_u8]. rewrite bZ_Zb_small by exact Hi.
  rewrite CL. rewrite (c_like_value_spec tm i name t) by assumption. reflexivity.
Qed.
(** For these an unknown index is the empty name. *)
Definition numbered : reg := regCustomKey "numbered" (CEnum (Some [("A", "1"); ("B", "5")]) []) base_reg.
Theorem C27_unknown_refuted :
  Decodes (reg_env numbered) (Ctx (-1) "" None) [Zb 5] 0 "numbered" (Ok (VStr "B", 1, []))
  /\ Decodes (reg_env numbered) (Ctx (-1) "" None) [Zb 3] 0 "numbered" (Ok (VStr "", 1, [])).
Proof. split; dec 4%nat. Qed.
Example C27_case : let E := reg_env (regCustomKey "e" (CEnum (Some [("A", "u8"); ("B", "u16")]) []) base_reg) in
  resolves E (Ctx (-1) "" None) "e" (CEnum (Some [("A", "u8"); ("B", "u16")]) []) /\ c_like [("A", "u8"); ("B", "u16")] = false
  /\ struct_variant "u16" = None /\ decode 4 E (Ctx (-1) "" None) (map Zb [1; 7; 0]) 0 "e" = Ok (VMap [("B", VU16 7)], 3, []).
Proof. cbv zeta. repeat match goal with |- _ /\ _ => split end; try res; vm_compute; reflexivity. Qed.

(** ** C28: [T; 0] eats a byte whenever there is one. *)
Theorem C28_zero_exact E c ts n sub data off : resolves E c ts (CFixedArray n sub) -> n <= 0 -> 0 <= off <= blen data -> blen data < 2 ^ 62 ->
  Decodes E c data off ts (Ok (VNil, Z.min (off + 1) (blen data), [])).
Proof.
  intros R Hn Ho L. eapply (Decodes_run E c ts _ O); [exact R| |discriminate]. cbn [process].
  replace (0 <? n) with false by (symmetry; lia). cbn [run]. rewrite i64_small by (unfold two63; lia).
  rewrite next_bytes_ok by (unfold two63; lia). reflexivity.
Qed.
(** Right only at the end of the buffer. *)
Theorem C28_zero_partial E c ts n sub data : resolves E c ts (CFixedArray n sub) -> n <= 0 -> blen data < 2 ^ 62 ->
  Decodes E c data (blen data) ts (Ok (VNil, blen data, [])).
Proof.
  intros R Hn L. pose proof (C28_zero_exact E c ts n sub data (blen data) R Hn) as D. pose proof (blen_nonneg data).
  rewrite Z.min_r in D by lia. apply D; lia.
Qed.
Theorem C28_encode E spec meta ts sub v : std_env E -> resolves E (Ctx spec "" meta) ts (CFixedArray 0 sub) ->
  In v [VNilSlice; VSlice []; VStr ""; VNil] -> Encodes E spec meta ts v "".
Proof.
  intros S R I. change "" with (hex_encode []). eapply Encodes_hex; [exact S|exact R|discriminate|]. intros rec.
  cbn [In] in I. repeat destruct I as [<-|I]; try contradiction; reflexivity.
Qed.
Theorem C28_zero_refuted :
  let E := reg_env base_reg in let c := Ctx (-1) "" None in
  resolves E c "[u16; 0]" (CFixedArray 0 "u16") /\ Decodes E c [Zb 7] 0 "[u16; 0]" (Ok (VNil, 1, []))
  /\ Decodes E c (map Zb [7; 1; 0]) 0 "([u16; 0],u16)" (Ok (VMap [("col1", VNil); ("col2", VU16 1)], 3, [])).
Proof. cbv zeta. repeat match goal with |- _ /\ _ => split end; try res; dec 4%nat. Qed.

Print Assumptions C18_some_partial.
Print Assumptions C18_empty.
Print Assumptions C18_some_refuted.
Print Assumptions C19_option_bool_partial.
Print Assumptions C19_spelling_refuted.
Print Assumptions C24_bytes_partial.
Print Assumptions C24_bytes_refuted.
Print Assumptions C25_decode.
Print Assumptions C25_encode.
Print Assumptions C25_roundtrip_exact.
Print Assumptions C25_roundtrip_partial.
Print Assumptions C25_roundtrip_refuted.
Print Assumptions C26_flags_partial.
Print Assumptions C26_flags_refuted.
Print Assumptions C27_variant.
Print Assumptions C27_value_list.
Print Assumptions C27_unknown_panics.
Print Assumptions C27_numbered_partial.
Print Assumptions C27_unknown_refuted.
Print Assumptions C28_zero_exact.
Print Assumptions C28_zero_partial.
Print Assumptions C28_encode.
Print Assumptions C28_zero_refuted.
