(** C81: a decoded call can be encoded again; calls given as maps.  C55, C81. *)

From Verif Require Import GoBase SpecNum ProofsBase ModelTools ProofsTools ModelUint128 SpecUint128 ProofsUint128 ModelVal ModelFloat ModelJson ModelRegistry ModelDecode ModelEncode
  ModelRegister ModelBox ProofsRun SpecScale ProofsReads ProofsForms ProofsScale ProofsEncode ProofsApi ProofsPallet ProofsMeta PropInts PropFloat PropCodec PropData ProofsBox.

(** ** Values that survive JSON *)
(** Text (UTF-8), truth values and nothing stay as they are, also under a key. *)
Inductive same_in_json : val -> Prop :=
| sj_nil : same_in_json VNil
| sj_bool b : same_in_json (VBool b)
| sj_str s : utf8 (s2b s) -> same_in_json (VStr s)
| sj_empty : same_in_json (VMap [])
| sj_none k : utf8 (s2b k) -> same_in_json (VMap [(k, VNil)])
| sj_text k s : utf8 (s2b k) -> utf8 (s2b s) -> same_in_json (VMap [(k, VStr s)]).
(** Types whose Encode takes a JSON number, and a decimal written as text. *)
Definition takes_number (cd : codec) : Prop :=
  In cd [CU8; CU16; CU32; CU64; CMoment; CCompactU32; CCompactMoment] \/ exists sub, cd = CCompact sub.
Definition takes_text (cd : codec) : Prop := cd = CBalance \/ exists sub, cd = CCompact sub.
Definition utf8_texts (l : list string) : Prop := Forall (fun s => utf8 (s2b s)) l.

Section Wire.
Variables (E : env) (spec : Z) (md : metadata).
Notation c0 := (Ctx spec "" (Some md)).

(** [wire ts bs g cs]: at type [ts] the bytes [bs] mean the value [g], in which
    every number is below 2^53, no signed and no 256-bit integer occurs, names are
    UTF-8, and calls nest less than JSON allows. *)
Inductive wire : string -> bytes -> val -> list string -> Prop :=
| wr_type ts cd bs g cs : resolves E c0 ts cd -> (cd = CNull -> equal_fold ts "Null" = true) -> wire_at cd bs g cs -> wire ts bs g cs
with wire_at : codec -> bytes -> val -> list string -> Prop :=
| wr_same cd bs g : scale_at true E c0 cd bs g [] -> same_in_json g -> wire_at cd bs g []
| wr_number cd bs g z : scale_at true E c0 cd bs g [] -> takes_number cd -> In g [VInt z; VU16 z; VU32 z; VU64 z] -> 0 <= z < 2 ^ 53 -> wire_at cd bs g []
| wr_decimal cd bs z : scale_at true E c0 cd bs (VDec z 0) [] -> takes_text cd -> wire_at cd bs (VDec z 0) []
| wr_some sub bs g cs : sub <> "" -> sub <> "bool" -> wire sub bs g cs -> ~ nil_like g -> wire_at (COption sub) (Zb 1 :: bs) g cs
| wr_vec sub n bs gs cs : wires (repeat sub n) bs gs cs -> Z.of_nat n <= 512 * 1024 -> wire_at (CVec sub) (compact (Z.of_nat n) ++ bs) (slice_of gs) cs
| wr_array n sub bs gs cs : equal_fold sub "u8" = false -> 0 < n < 2 ^ 63 -> wires (repeat sub (Z.to_nat n)) bs gs cs ->
    wire_at (CFixedArray n sub) bs (slice_of gs) cs
| wr_struct tm bs gs cs : wires (map snd tm) bs gs cs -> NoDup (map fst tm) -> utf8_texts (map fst tm) ->
    wire_at (CStruct (Some tm)) bs (VMap (combine (map fst tm) gs)) cs
| wr_variant tm vl i name sub bs g cs : c_like tm = false -> 0 <= i < 256 -> nth_error tm (Z.to_nat i) = Some (name, sub) -> sub <> "" ->
    struct_variant sub = None -> wire sub bs g cs -> first_at (map fst tm) (Z.to_nat i) -> utf8 (s2b name) ->
    wire_at (CEnum (Some tm) vl) (Zb i :: bs) (VMap [(name, g)]) cs
| wr_struct_variant tm vl i name sub rows bs gs cs : c_like tm = false -> 0 <= i < 256 -> nth_error tm (Z.to_nat i) = Some (name, sub) -> sub <> "" ->
    struct_variant sub = Some rows -> Forall row_ok rows -> NoDup (map row_name rows) -> wires (map row_type rows) bs gs cs ->
    first_at (map fst tm) (Z.to_nat i) -> utf8 (s2b name) -> utf8_texts (map row_name rows) ->
    wire_at (CEnum (Some tm) vl) (Zb i :: bs) (VMap [(name, VMap (combine (map row_name rows) gs))]) cs
| wr_ok sub t_ok t_err bs g cs : split_char ","%char sub = [t_ok; t_err] -> wire t_ok bs g cs -> wire_at (CResult sub) (Zb 0 :: bs) (VMap [("Ok", g)]) cs
| wr_err sub t_ok t_err bs g cs : split_char ","%char sub = [t_ok; t_err] -> wire t_err bs g cs -> wire_at (CResult sub) (Zb 1 :: bs) (VMap [("Error", g)]) cs
| wr_call i j cm bs gs cs : assoc (hex_encode [i; j]) md = Some cm -> wires (map snd (cm_args cm)) bs gs cs ->
    utf8 (s2b (cm_name cm)) -> utf8 (s2b (cm_module cm)) -> arg_texts (cm_args cm) ->
    nesting (VMap (call_fields (hex_encode [i; j]) (cm_name cm) (cm_module cm) (VParams (combine (cm_args cm) gs)))) <= 10000 ->
    wire_at CCall (i :: j :: bs)
      (VMap (call_fields (hex_encode [i; j]) (cm_name cm) (cm_module cm) (VParams (combine (cm_args cm) gs)))) (cs ++ [hex_encode (i :: j :: bs)])
with wires : list string -> bytes -> list val -> list string -> Prop :=
| ws_nil : wires [] [] [] []
| ws_cons t ts b bs g gs cs1 cs2 : wire t b g cs1 -> wires ts bs gs cs2 -> wires (t :: ts) (b ++ bs) (g :: gs) (cs1 ++ cs2).
Scheme wire_ind2 := Minimality for wire Sort Prop
with wire_at_ind2 := Minimality for wire_at Sort Prop
with wires_ind2 := Minimality for wires Sort Prop.
Combined Scheme wire_mutind from wire_ind2, wire_at_ind2, wires_ind2.

(** ** Such bytes decode to the value, in every pallet that replaces no types *)
Definition plain_pallet (m : string) : Prop := same_overrides m "".
Lemma resolves_pallet c m ts cd : same_overrides m (x_module c) -> resolves E c ts cd -> resolves E (Ctx (x_spec c) m (x_meta c)) ts cd.
Proof. intros S (a & b & G & I). exists a, b. split; [|exact I]. cbn [x_module x_spec]. now rewrite (GetCodecClass_pallet E m (x_module c) ts (x_spec c) S). Qed.
Lemma scale_pallet st :
  (forall c ts bs g cs, scale st E c ts bs g cs -> forall m, same_overrides m (x_module c) -> scale st E (Ctx (x_spec c) m (x_meta c)) ts bs g cs)
  /\ (forall c cd bs g cs, scale_at st E c cd bs g cs -> forall m, same_overrides m (x_module c) -> scale_at st E (Ctx (x_spec c) m (x_meta c)) cd bs g cs)
  /\ (forall c ts bs gs cs, scales st E c ts bs gs cs -> forall m, same_overrides m (x_module c) -> scales st E (Ctx (x_spec c) m (x_meta c)) ts bs gs cs).
Proof.
  apply scale_mutind; intros; try (econstructor; cbn [x_spec x_meta x_module]; eauto using resolves_pallet; fail).
Qed.

Hypothesis PLAIN : forall k cm, In (k, cm) md -> plain_pallet (cm_module cm).
Lemma wire_scale :
  (forall ts bs g cs, wire ts bs g cs -> forall m, plain_pallet m -> scale false E (Ctx spec m (Some md)) ts bs g cs)
  /\ (forall cd bs g cs, wire_at cd bs g cs -> forall m, plain_pallet m -> scale_at false E (Ctx spec m (Some md)) cd bs g cs)
  /\ (forall ts bs gs cs, wires ts bs gs cs -> forall m, plain_pallet m -> scales false E (Ctx spec m (Some md)) ts bs gs cs).
Proof.
  assert (LEAF : forall cd bs g cs m, scale_at true E c0 cd bs g cs -> plain_pallet m -> scale_at false E (Ctx spec m (Some md)) cd bs g cs).
  { intros cd bs g cs m H P. destruct (scale_relax E) as (_ & R & _). apply R in H. destruct (scale_pallet false) as (_ & Q & _).
    exact (Q _ _ _ _ _ H m P). }
  apply wire_mutind; intros; try (now apply LEAF); try (econstructor; eauto; try discriminate; fail).
  - econstructor; [|discriminate|eauto]. apply (resolves_pallet c0 m ts cd); assumption.
  - eapply sc_call; [reflexivity|reflexivity|eassumption|]. match goal with H : forall m, _ -> scales _ _ _ _ _ _ _ |- _ => apply H end.
    eapply PLAIN. eapply assoc_in. eassumption.
Qed.

(** ** They are encoded again, from the value itself and from what JSON makes of it *)
Hypothesis STD : std_env E.
Hypothesis BOX : e_box E = json_box.

Lemma enc_some sub bs g : sub <> "bool" -> ~ nil_like g -> EncE E c0 sub bs g -> EncAt E c0 (COption sub) (Zb 1 :: bs) g.
Proof.
  intros Hb HN [f H]. exists f. intros f' L.
  assert (G : g <> VNil) by (intros ->; apply HN; now left). rewrite (norm_id g G). cbn [encode_codec].
  replace ((match g with VStr s => String.eqb s "" | _ => false end) || is_nil g) with false.
  2:{ symmetry. apply orb_false_iff. split.
      - destruct g; try reflexivity. apply String.eqb_neq. intros ->. apply HN. unfold nil_like. auto.
      - destruct g; try reflexivity; try (exfalso; apply HN; unfold nil_like; now auto).
        match goal with |- is_nil (VStrs ?l) = _ => destruct l; [reflexivity|exfalso; apply HN; unfold nil_like; now auto] end. }
  destruct (String.eqb_spec sub "bool"); [contradiction|]. rewrite (H f' L). cbn [bind].
  eexists. split; [reflexivity|]. change ("01" ++ hex_encode bs) with (hex_encode ([Zb 1] ++ bs)). apply trim_lower_hex.
Qed.
Lemma enc_vec sub n bs gs v : Z.of_nat n <= 512 * 1024 -> In v [slice_of gs; null_of gs] -> SeqEnc E c0 (repeat sub n) bs gs ->
  EncAt E c0 (CVec sub) (compact (Z.of_nat n) ++ bs) v.
Proof.
  intros Hn I [f H]. exists (S f). intros f' L. destruct f' as [|f']; [lia|]. specialize (H (S f') ltac:(lia)).
  assert (Lg : List.length gs = n) by (rewrite (seqenc_length _ _ _ _ H); apply repeat_length).
  exists (hex_encode (compact (Z.of_nat n)) ++ hex_encode bs). split; [|rewrite <- hex_encode_app; apply trim_lower_hex].
  destruct gs as [|g gs].
  - cbn in Lg. subst n. cbn [repeat] in H. inversion H; subst.
    pose proof (enc_len E STD O f' ltac:(cbn; lia)) as EL. change (hex_encode (compact (Z.of_nat 0)) ++ hex_encode []) with (hex_encode (compact (Z.of_nat 0)) ++ "").
    destruct I as [<-|[<-|[]]]; cbn [slice_of null_of norm encode_codec elements List.length map concat_res].
    + rewrite EL. reflexivity.
    + change (String.eqb "" "") with true. cbv iota. rewrite EL. f_equal.
  - assert (v = VSlice (g :: gs)) as -> by (destruct I as [<-|[<-|[]]]; reflexivity). cbn [norm encode_codec elements].
    rewrite Lg, enc_len by (try exact STD; lia). cbn [bind].
    rewrite (seqenc_vec (encode (S f') E (x_spec c0) (x_meta c0)) sub n bs (g :: gs) H). reflexivity.
Qed.
Lemma enc_array n sub bs gs v : 0 < n < 2 ^ 63 -> In v [slice_of gs; null_of gs] -> SeqEnc E c0 (repeat sub (Z.to_nat n)) bs gs ->
  EncAt E c0 (CFixedArray n sub) bs v.
Proof.
  intros Hn I [f H]. exists f. intros f' L. specialize (H f' L).
  assert (Lg : List.length gs = Z.to_nat n) by (rewrite (seqenc_length _ _ _ _ H); apply repeat_length).
  destruct gs as [|g gs]; [cbn in Lg; lia|]. assert (v = VSlice (g :: gs)) as -> by (destruct I as [<-|[<-|[]]]; reflexivity).
  exists (hex_encode bs). split; [|apply trim_lower_hex]. cbn [norm encode_codec elements]. rewrite Lg, Z2Nat.id by lia. rewrite Z.eqb_refl.
  exact (seqenc_array _ _ _ _ _ H).
Qed.
Lemma enc_struct (tm : typemap) bs gs : NoDup (map fst tm) -> SeqEnc E c0 (map snd tm) bs gs ->
  EncAt E c0 (CStruct (Some tm)) bs (VMap (combine (map fst tm) gs)).
Proof.
  intros ND [f H]. exists f. intros f' L. specialize (H f' L). cbn [norm encode_codec on_map]. exists (hex_encode bs). split; [|apply trim_lower_hex].
  exact (seqenc_fields _ tm bs gs H [] ND).
Qed.
Lemma enc_variant (tm : typemap) vl i name sub bs g : c_like tm = false -> 0 <= i < 256 -> nth_error tm (Z.to_nat i) = Some (name, sub) ->
  struct_variant sub = None -> first_at (map fst tm) (Z.to_nat i) -> EncE E c0 sub bs g -> EncAt E c0 (CEnum (Some tm) vl) (Zb i :: bs) (VMap [(name, g)]).
Proof.
  intros HC Hi HN HV ND [f H]. exists f. intros f' L. specialize (H f' L). exists (hex_encode (Zb i :: bs)). split; [|apply trim_lower_hex].
  cbn [norm encode_codec encode_enum encode_enum_map]. rewrite HC, (name_index_spec tm _ name sub 0 ND HN), HV, H. cbn [bind].
  rewrite Z.add_0_l, Z2Nat.id by lia. unfold U8Encode, BytesToHex. rewrite <- hex_encode_app. reflexivity.
Qed.
Lemma enc_struct_variant (tm : typemap) vl i name sub rows bs gs : c_like tm = false -> 0 <= i < 256 -> nth_error tm (Z.to_nat i) = Some (name, sub) ->
  struct_variant sub = Some rows -> Forall row_ok rows -> NoDup (map row_name rows) -> first_at (map fst tm) (Z.to_nat i) -> SeqEnc E c0 (map row_type rows) bs gs ->
  EncAt E c0 (CEnum (Some tm) vl) (Zb i :: bs) (VMap [(name, VMap (combine (map row_name rows) gs))]).
Proof.
  intros HC Hi HN HV FR NDR ND [f H]. exists f. intros f' L. specialize (H f' L). exists (hex_encode (Zb i :: bs)). split; [|apply trim_lower_hex].
  cbn [norm encode_codec encode_enum encode_enum_map]. rewrite HC, (name_index_spec tm _ name sub 0 ND HN), HV.
  change (fun (t : string) (x : val) => encode f' E (x_spec c0) (x_meta c0) t x) with (encode f' E (x_spec c0) (x_meta c0)).
  pose proof (seqenc_rows _ rows bs gs H FR [] NDR) as ER. cbn [app] in ER. rewrite ER. cbn [bind].
  rewrite Z.add_0_l, Z2Nat.id by lia. unfold U8Encode, BytesToHex. rewrite <- hex_encode_app. reflexivity.
Qed.
Lemma enc_ok sub t_ok t_err bs g : split_char ","%char sub = [t_ok; t_err] -> EncE E c0 t_ok bs g -> EncAt E c0 (CResult sub) (Zb 0 :: bs) (VMap [("Ok", g)]).
Proof.
  intros HS [f H]. exists f. intros f' L. specialize (H f' L). exists (hex_encode (Zb 0 :: bs)). split; [|apply trim_lower_hex].
  cbn [norm encode_codec on_map]. rewrite HS. cbn [assoc]. change (String.eqb "Ok" "Ok") with true. cbv iota. rewrite H. reflexivity.
Qed.
Lemma enc_err sub t_ok t_err bs g : split_char ","%char sub = [t_ok; t_err] -> EncE E c0 t_err bs g -> EncAt E c0 (CResult sub) (Zb 1 :: bs) (VMap [("Error", g)]).
Proof.
  intros HS [f H]. exists f. intros f' L. specialize (H f' L). exists (hex_encode (Zb 1 :: bs)). split; [|apply trim_lower_hex].
  cbn [norm encode_codec on_map]. rewrite HS. cbn [assoc]. change (String.eqb "Ok" "Error") with false.
  change (String.eqb "Error" "Error") with true. cbv iota. rewrite H. reflexivity.
Qed.
Lemma enc_call i j cm bs gs m : assoc (hex_encode [i; j]) md = Some cm -> SeqEnc E c0 (map snd (cm_args cm)) bs gs ->
  json_box m = Some (hex_encode [i; j], gs, []) -> EncAt E c0 CCall (i :: j :: bs) (VMap m).
Proof.
  intros A [f H] B. exists f. intros f' L. specialize (H f' L). exists (hex_encode (i :: j :: bs)). split; [|apply trim_lower_hex].
  cbn [norm encode_codec encode_call x_spec x_meta]. rewrite BOX, B. cbv zeta iota. rewrite TrimHex_hex, A.
  change (fun (t : string) (x : val) => encode f' E spec (Some md) t x) with (encode f' E spec (Some md)).
  pose proof (seqenc_args _ (cm_args cm) bs gs [] H) as X. rewrite app_nil_r in X. cbn [x_spec x_meta] in X. rewrite X. cbn [bind]. now rewrite <- hex_encode_app.
Qed.

(** Numbers. *)
Lemma compact_inv sub bs g : scale_at true E c0 (CCompact sub) bs g [] ->
  exists cd z, 0 <= z /\ compact_repr cd z = Some g /\ (true = true -> z < 2 ^ 63) /\ bs = compact z.
Proof. intros H. inversion H; subst. eauto 10. Qed.
Lemma enc_number cd bs g z : scale_at true E c0 cd bs g [] -> takes_number cd -> In g [VInt z; VU16 z; VU32 z; VU64 z] -> 0 <= z < 2 ^ 53 ->
  EncAt E c0 cd bs (VF64 (float_bits z)).
Proof.
  intros SA T I Hz. pose proof (float_int_part _ _ (float_bits_int z ltac:(lia))) as F.
  assert (K : forall b, (forall rec, encode_codec E rec spec (Some md) cd (VF64 (float_bits z)) = Ok (hex_encode b)) -> b = bs -> EncAt E c0 cd bs (VF64 (float_bits z))).
  { intros b H <-. apply (EncAt_const E c0 cd b (VF64 (float_bits z)) (hex_encode b)); [exact H|apply trim_lower_hex]. }
  destruct T as [T|[sub ->]].
  - destruct T as [<-|[<-|[<-|[<-|[<-|[<-|[<-|[]]]]]]]]; inversion SA; subst; try discriminate.
    all: repeat match goal with H : In _ [] |- _ => destruct H | H : In _ _ |- _ => destruct H as [H|H]; [try discriminate H; injection H as <-|] | H : False |- _ => destruct H end.
    + eapply K; [|reflexivity]. intros rec. cbn [encode_codec]. unfold encode_u8, f64_int. rewrite (cvt_part 64 _ z F) by (cbn; lia). reflexivity.
    + eapply K; [|reflexivity]. intros rec. cbn [encode_codec]. unfold encode_u16, f64_u16. rewrite (cvt_part 32 _ z F) by (cbn; lia).
      unfold u16. rewrite Z.mod_small by lia. reflexivity.
    + eapply K; [|reflexivity]. intros rec. cbn [encode_codec]. unfold encode_u32, f64_u32. rewrite (cvt_part 64 _ z F) by (cbn; lia).
      unfold u32. rewrite Z.mod_small by lia. reflexivity.
    + eapply K; [|reflexivity]. intros rec. cbn [encode_codec]. unfold encode_u64. rewrite (u64_part _ z F) by lia. reflexivity.
    + eapply K; [|reflexivity]. intros rec. cbn [encode_codec]. unfold encode_u64. rewrite (u64_part _ z F) by lia. reflexivity.
    + eapply K; [|reflexivity]. intros rec. cbn [encode_codec]. unfold encode_compact_u32, f64_int. rewrite (cvt_part 64 _ z F) by (cbn; lia).
      rewrite compact_u32_bytes_spec by (split; [lia|auto]). reflexivity.
    + eapply K; [|reflexivity]. intros rec. cbn [encode_codec]. unfold encode_compact_u32, f64_int. rewrite (cvt_part 64 _ z F) by (cbn; lia).
      rewrite compact_u32_bytes_spec by (split; [lia|auto]). reflexivity.
  - destruct (compact_inv _ _ _ SA) as (cd & z' & Hz' & HR & HS & ->).
    assert (z' = z) as ->.
    { destruct cd; cbn in HR; try discriminate; match type of HR with (if ?x <? ?y then _ else _) = _ => destruct (Z.ltb_spec x y); [|discriminate] end; injection HR as <-.
      all: repeat match goal with H : In _ [] |- _ => destruct H | H : In _ _ |- _ => destruct H as [H|H]; [try discriminate H; try (injection H as ->; reflexivity)|] | H : False |- _ => destruct H end. }
    destruct (new_from_float _ z F ltac:(lia)) as (c & k & NF & DI).
    eapply K; [|reflexivity]. intros rec. cbn [encode_codec]. unfold encode_compact. rewrite NF. cbn [bind].
    rewrite (compact_dec_int c k z DI), compact_encode_spec by lia. reflexivity.
Qed.
Lemma enc_decimal cd bs z : scale_at true E c0 cd bs (VDec z 0) [] -> takes_text cd -> 0 <= z /\ EncAt E c0 cd bs (VStr (itoa z)).
Proof.
  intros SA T.
  assert (K : forall b, (forall rec, encode_codec E rec spec (Some md) cd (VStr (itoa z)) = Ok (hex_encode b)) -> b = bs -> EncAt E c0 cd bs (VStr (itoa z))).
  { intros b H <-. apply (EncAt_const E c0 cd b (VStr (itoa z)) (hex_encode b)); [exact H|apply trim_lower_hex]. }
  destruct T as [->|[sub ->]].
  - inversion SA; subst. split; [lia|]. eapply K; [|reflexivity]. intros rec. cbn [encode_codec]. unfold encode_u128.
    rewrite (dec_of_numeral (itoa z) z (itoa_numeral z ltac:(lia))). unfold dec_int. change (0 <=? 0) with true. cbv iota.
    change (10 ^ 0) with 1. rewrite Z.mul_1_r. destruct (FromBig_ok z ltac:(unfold m128; lia)) as (u & -> & W & V). cbn [bind].
    rewrite PutBytes_spec, V by exact W. reflexivity.
  - destruct (compact_inv _ _ _ SA) as (cd & z' & Hz' & HR & HS & ->).
    assert (z' = z) as ->.
    { destruct cd; cbn in HR; try discriminate; match type of HR with (if ?x <? ?y then _ else _) = _ => destruct (Z.ltb_spec x y); [|discriminate] end; congruence. }
    split; [exact Hz'|]. specialize (HS eq_refl). eapply K; [|reflexivity]. intros rec. cbn [encode_codec]. unfold encode_compact.
    rewrite (dec_of_numeral (itoa z) z (itoa_numeral z ltac:(lia))), compact_encode_spec by lia. reflexivity.
Qed.

Definition Both (ts : string) (bs : bytes) (g : val) : Prop :=
  EncE E c0 ts bs g /\ exists g', image g g' /\ (nil_like g' -> nil_like g) /\ EncE E c0 ts bs g'.
Definition BothAt (cd : codec) (bs : bytes) (g : val) : Prop :=
  EncAt E c0 cd bs g /\ exists g', image g g' /\ (nil_like g' -> nil_like g) /\ EncAt E c0 cd bs g'.
Definition BothSeq (ts : list string) (bs : bytes) (gs : list val) : Prop :=
  SeqEnc E c0 ts bs gs /\ exists gs', Forall2 image gs gs' /\ SeqEnc E c0 ts bs gs'.

Lemma image_same g : same_in_json g -> image g g.
Proof.
  intros [|b|s U| |k U|k s U U2]; auto using image_nil, image_bool, image_str, image_entry.
  apply (image_map [] [] []); [constructor|reflexivity|constructor].
Qed.
Lemma not_nil_map m : nil_like (VMap m) -> False.
Proof. intros [H|[H|[H|H]]]; discriminate. Qed.

Theorem wire_encodes :
  (forall ts bs g cs, wire ts bs g cs -> Both ts bs g)
  /\ (forall cd bs g cs, wire_at cd bs g cs -> cd <> CNull -> BothAt cd bs g)
  /\ (forall ts bs gs cs, wires ts bs gs cs -> BothSeq ts bs gs).
Proof.
  destruct (scale_encodes E STD) as (_ & LEAF & _).
  apply wire_mutind.
  - intros ts cd bs g cs R HN SA IH. destruct (equal_fold ts "Null") eqn:EN.
    + assert (cd = CNull) as -> by (eapply resolves_fun; [exact R|]; now apply null_resolves).
      inversion SA as [? ? ? S0 _|? ? ? ? S0|? ? ? S0 | | | | | | | | |]; subst; inversion S0; subst;
        try match goal with H : In _ [_; _; _; _] |- _ => cbn in H; repeat (destruct H as [H|H]; [discriminate H|]); contradiction end.
      assert (EncE E c0 ts [] VNil) by (exists 1%nat; intros f' L; destruct f' as [|f']; [lia|]; cbn [encode]; rewrite EN; reflexivity).
      split; [assumption|]. exists VNil. split; [apply image_nil|]. split; [auto|assumption].
    + assert (NC : cd <> CNull) by (intros ->; specialize (HN eq_refl); congruence). destruct (IH NC) as (A & g' & I & NL & B).
      split; [eapply EncE_resolves; [exact R|reflexivity|exact EN|exact A]|].
      exists g'. split; [exact I|]. split; [exact NL|]. eapply EncE_resolves; [exact R|reflexivity|exact EN|exact B].
  - intros cd bs g SA SJ NC. pose proof (LEAF _ _ _ _ _ SA eq_refl NC) as A. split; [exact A|].
    exists g. split; [now apply image_same|]. split; [auto|exact A].
  - intros cd bs g z SA T I Hz NC. split; [exact (LEAF _ _ _ _ _ SA eq_refl NC)|]. exists (VF64 (float_bits z)).
    split; [now apply image_number|]. split; [intros [H|[H|[H|H]]]; discriminate|]. eapply enc_number; eassumption.
  - intros cd bs z SA T NC. split; [exact (LEAF _ _ _ _ _ SA eq_refl NC)|]. destruct (enc_decimal cd bs z SA T) as [Hz A]. exists (VStr (itoa z)).
    split; [now apply image_dec|]. split; [|exact A]. intros [H|[H|[H|H]]]; try discriminate. injection H as H.
    destruct (itoa_numeral z Hz) as (_ & N & _). contradiction.
  - intros sub bs g cs Hs Hb _ (A & g' & I & NL & B) HN _. split; [now apply enc_some|]. exists g'. split; [exact I|]. split; [exact NL|].
    apply enc_some; auto.
  - intros sub n bs gs cs _ (A & gs' & I & B) Hn _. split; [apply (enc_vec sub n bs gs); [exact Hn|now left|exact A]|].
    exists (null_of gs'). split; [now apply image_slice|]. split; [|apply (enc_vec sub n bs gs'); [exact Hn|right; now left|exact B]].
    destruct I as [|g g' gs gs' I F]; [unfold nil_like; cbn; auto|]. intros [H|[H|[H|H]]]; discriminate H.
  - intros n sub bs gs cs Hu Hn _ (A & gs' & I & B) _. split; [apply (enc_array n sub bs gs); [exact Hn|now left|exact A]|].
    exists (null_of gs'). split; [now apply image_slice|]. split; [|apply (enc_array n sub bs gs'); [exact Hn|right; now left|exact B]].
    destruct I as [|g g' gs gs' I F]; [unfold nil_like; cbn; auto|]. intros [H|[H|[H|H]]]; discriminate H.
  - intros tm bs gs cs _ (A & gs' & I & B) ND U _. split; [now apply enc_struct|]. exists (VMap (combine (map fst tm) gs')).
    split; [|split; [intros H; destruct (not_nil_map _ H)|now apply enc_struct]].
    apply image_map; [exact U| |exact I]. destruct A as [f A]. rewrite (seqenc_length _ _ _ _ (A f (le_n _))), !map_length. reflexivity.
  - intros tm vl i name sub bs g cs HC Hi HN Hs HV _ (A & g' & I & NL & B) ND U _. split; [eapply enc_variant; eassumption|].
    exists (VMap [(name, g')]). split; [now apply image_entry|]. split; [intros H; destruct (not_nil_map _ H)|eapply enc_variant; eassumption].
  - intros tm vl i name sub rows bs gs cs HC Hi HN Hs HV FR NDR _ (A & gs' & I & B) ND U UR _. split; [eapply enc_struct_variant; eassumption|].
    exists (VMap [(name, VMap (combine (map row_name rows) gs'))]). split; [|split; [intros H; destruct (not_nil_map _ H)|eapply enc_struct_variant; eassumption]].
    apply image_entry; [exact U|]. apply image_map; [exact UR| |exact I]. destruct A as [f A]. rewrite (seqenc_length _ _ _ _ (A f (le_n _))), !map_length. reflexivity.
  - intros sub t_ok t_err bs g cs HS _ (A & g' & I & NL & B) _. split; [eapply enc_ok; eassumption|].
    exists (VMap [("Ok", g')]). split; [apply image_entry; [apply utf8_valid_spec; reflexivity|exact I]|].
    split; [intros H; destruct (not_nil_map _ H)|eapply enc_ok; eassumption].
  - intros sub t_ok t_err bs g cs HS _ (A & g' & I & NL & B) _. split; [eapply enc_err; eassumption|].
    exists (VMap [("Error", g')]). split; [apply image_entry; [apply utf8_valid_spec; reflexivity|exact I]|].
    split; [intros H; destruct (not_nil_map _ H)|eapply enc_err; eassumption].
  - intros i j cm bs gs cs A _ (A1 & gs' & I & B) Un Um T N _.
    assert (Ui : utf8 (s2b (hex_encode [i; j]))).
    { apply ascii_utf8. eapply Forall_impl; [|apply (hex_encode_lower [i; j])]. intros x Hx. unfold lower_hex in Hx. cbv beta. lia. }
    assert (L : List.length (cm_args cm) = List.length gs) by (destruct A1 as [f A1]; rewrite (seqenc_length _ _ _ _ (A1 f (le_n _))), map_length; reflexivity).
    destruct (call_image (hex_encode [i; j]) (cm_name cm) (cm_module cm) (cm_args cm) gs gs' Ui Un Um T L I) as [IM BX]. destruct (BX N) as [B1 B2].
    split; [eapply enc_call; eassumption|]. eexists. split; [exact IM|]. split; [intros H; destruct (not_nil_map _ H)|eapply enc_call; eassumption].
  - split; [exists O; intros; constructor|]. exists []. split; [constructor|exists O; intros; constructor].
  - intros t ts b bs g gs cs1 cs2 _ ([f1 A1] & g' & I & NL & [f2 A2]) _ ([f3 A3] & gs' & Is & [f4 A4]). split.
    + exists (Nat.max f1 f3). intros f' L. constructor; [apply A1; lia|apply A3; lia].
    + exists (g' :: gs'). split; [now constructor|]. exists (Nat.max f2 f4). intros f' L. constructor; [apply A2; lia|apply A4; lia].
Qed.

(** ** C81 *)
(** The bytes of a call (or of any value) decode to a value that encodes to the
    same bytes. *)
Theorem C81_again_partial ts bs g cs : wire ts bs g cs -> blen bs < 2 ^ 63 ->
  Decodes E c0 bs 0 ts (Ok (g, blen bs, cs)) /\ Encodes E spec (Some md) ts g (BytesToHex bs).
Proof.
  intros W L. split.
  - pose proof (proj1 wire_scale ts bs g cs W "" (fun t => eq_refl)) as SF.
    pose proof (C15_decode E _ ts bs g cs [] [] STD SF) as D. cbn [app] in D. rewrite app_nil_r in D. exact (D L).
  - destruct (proj1 wire_encodes ts bs g cs W) as (A & _). split; [discriminate|]. exact A.
Qed.
(** And so does what a JSON writer and reader make of the value. *)
Theorem C81_through_json_partial ts bs g cs : wire ts bs g cs ->
  exists j g', marshal g = Some j /\ unmarshal j = Some g' /\ Encodes E spec (Some md) ts g' (BytesToHex bs).
Proof.
  intros W. destruct (proj1 wire_encodes ts bs g cs W) as (_ & g' & ((j & M & U & _) & _) & _ & A). exists j, g'.
  split; [exact M|]. split; [exact U|]. split; [discriminate|]. exact A.
Qed.
End Wire.

(** A pallet without a table of replaced types is plain. *)
Lemma plain_unlisted m : assoc (to_lower m) typesModules = None -> plain_pallet m.
Proof. intros A t. unfold ModuleType. rewrite A. now destruct (String.eqb m ""). Qed.

(** ** C55: a map is as good as a BoxCall with the values JSON makes of its own *)
Lemma args_shape args gs gs' : arg_texts args -> List.length args = List.length gs -> Forall2 becomes gs gs' ->
  exists js, marshal (VSlice (map arg_map (combine args gs))) = Some (JArr (map arg_obj (combine args js))) /\ all_some arg_of (map arg_obj (combine args js)) = Some gs'
    /\ depth (JArr (map arg_obj (combine args js))) <= nesting (VSlice (map arg_map (combine args gs))).
Proof.
  intros T L F. destruct (becomes_list _ _ F) as (js & M & U & D). exists js. pose proof (same_length _ _ M) as L2. split; [|split].
  - assert (X : all_some marshal (map arg_map (combine args gs)) = Some (map arg_obj (combine args js))).
    { clear - T L M. revert gs js L M. induction T as [|[n t] args [Tn Tt] T IH]; intros [|g gs] js L F; try discriminate; inversion F as [|g' j gs' js' M Ms]; subst; [reflexivity|].
      cbn [combine map all_some]. unfold arg_map at 1. cbn [fst snd marshal all_some]. rewrite M. injection L as L. rewrite (IH gs js' L Ms). reflexivity. }
    cbn [marshal]. now rewrite X.
  - clear - L L2 U. assert (L3 : List.length args = List.length js) by congruence. clear L L2. revert js gs' L3 U.
    induction args as [|[n t] args IH]; intros [|j js] gs' L F; try discriminate; inversion F as [|j' v js' gs2 U Us]; subst; [reflexivity|].
    cbn [combine map all_some]. unfold arg_obj at 1. cbn [fst snd]. rewrite (arg_read n t j v U). injection L as L. now rewrite (IH js gs2 L Us).
  - cbn [depth nesting]. apply Z.add_le_mono_l, max_le. clear - L L2 D. assert (L3 : List.length args = List.length js) by congruence. revert args L js D L2 L3.
    induction gs as [|g gs IH]; intros [|a args] L [|j js] D L2 L3; try discriminate; [constructor|]. cbn [map] in D. inversion D; subst.
    cbn [combine map]. constructor; [cbn [arg_obj json_arg depth arg_map nesting map fst snd fold_right]; lia|].
    injection L as L. injection L3 as L3. injection L2 as L2. now apply IH.
Qed.
Theorem C55_map E spec md ts idx args gs gs' key box : e_box E = json_box -> resolves E (Ctx spec "" (Some md)) ts CCall ->
  In (key, box) [("params", VBox idx gs' []); ("call_args", VBox idx [] gs')] ->
  utf8 (s2b idx) -> arg_texts args -> List.length args = List.length gs -> Forall2 becomes gs gs' ->
  let m := [("call_index", VStr idx); (key, VSlice (map arg_map (combine args gs)))] in nesting (VMap m) <= 10000 ->
  forall fuel, encode fuel E spec (Some md) ts (VMap m) = encode fuel E spec (Some md) ts box.
Proof.
  intros BX R I Ui T L F m N fuel. destruct fuel as [|f]; [reflexivity|]. cbn [encode]. destruct (equal_fold ts "Null"); [reflexivity|].
  destruct R as (cd0 & sub & G & IS). cbn [x_module x_spec] in G. rewrite G. cbn [bind]. rewrite IS.
  destruct (args_shape args gs gs' T L F) as (js & M & A & D).
  set (aj := JArr (map arg_obj (combine args js))) in *.
  assert (RD : args_field [] [aj] = Some gs') by (unfold aj; cbn [args_field]; now rewrite A).
  assert (DP : depth aj <= 9999).
  { unfold m in N. assert (nesting (VSlice (map arg_map (combine args gs))) <= 9999); [|lia].
    cbn [nesting map snd fold_right] in N. cbn [nesting]. lia. }
  assert (KB : forall ps cs, In (key, ps, cs) [("params", gs', []); ("call_args", [], gs')] -> json_box m = Some (idx, ps, cs)).
  { intros ps cs K. unfold json_box, m. cbn [marshal all_some snd fst] in M |- *. rewrite M.
    assert (DO : forall k, depth (JObj [(json_text "call_index", JStr (json_text idx)); (json_text k, aj)]) <=? 10000 = true).
    { intros k. apply Z.leb_le. cbn [map snd fold_right]. change (depth (JObj ?x)) with (1 + fold_right Z.max 0 (map (fun p => depth (snd p)) x)). cbn [map snd fold_right]. change (depth (JStr (json_text idx))) with 0. lia. }
    rewrite DO. destruct K as [K|[K|[]]]; injection K as <- <- <-.
    - change (entries_of "call_Index" _) with [JStr (json_text idx)]. change (entries_of "params" _) with [aj]. change (entries_of "call_args" _) with (@nil json).
      cbn [string_field]. rewrite RD, (json_text_id idx Ui). reflexivity.
    - change (entries_of "call_Index" _) with [JStr (json_text idx)]. change (entries_of "params" _) with (@nil json). change (entries_of "call_args" _) with [aj].
      cbn [string_field]. rewrite RD, (json_text_id idx Ui). reflexivity. }
  destruct I as [I|[I|[]]]; injection I as <- <-; cbn [encode_codec encode_call]; rewrite BX; rewrite (KB _ _ ltac:(cbn; auto)); reflexivity.
Qed.

(** A BoxCall inside a map: written with empty names and types, read as a map
    that is as good as the BoxCall. *)
Definition blank (l : list val) : list (string * string) := map (fun _ => ("", "")) l.
Lemma blank_texts l : arg_texts (blank l).
Proof. unfold blank. induction l as [|v l IH]; constructor; [split; apply ascii_utf8; constructor|exact IH]. Qed.
Lemma blank_length l : List.length (blank l) = List.length l.
Proof. apply map_length. Qed.
Lemma blank_json l js : Forall2 (fun a b => marshal a = Some b) l js ->
  match l with [] => Some JNull
  | _ => match all_some (fun x => match marshal x with Some j => Some (json_arg "" "" j) | None => None end) l with Some js => Some (JArr js) | None => None end end
  = Some (args_json (blank l) js).
Proof.
  intros F. assert (X : all_some (fun x => match marshal x with Some j => Some (json_arg "" "" j) | None => None end) l = Some (map arg_obj (combine (blank l) js))).
  { induction F as [|g j gs js M F IH]; [reflexivity|]. cbn [blank map combine all_some] in *. rewrite M. unfold blank in IH. now rewrite IH. }
  rewrite X. destruct F as [|g j gs js M F]; reflexivity.
Qed.
Theorem C55_box_inside idx ps ps' cs cs' : utf8 (s2b idx) -> Forall2 image ps ps' -> Forall2 image cs cs' ->
  exists m, becomes (VBox idx ps cs) (VMap m) /\ (nesting (VMap m) <= 10000 -> json_box m = Some (idx, ps', cs')).
Proof.
  intros U FP FC. exists [("call_Index", VStr idx); ("params", args_val (blank ps) ps'); ("call_args", args_val (blank cs) cs')].
  destruct (image_split _ _ FP) as (AP & BP & DP). destruct (image_split _ _ FC) as (AC & BC & DC).
  pose proof (same_length _ _ FP) as LP. pose proof (same_length _ _ FC) as LC. split.
  - destruct (becomes_list _ _ AP) as (jp & Mp & Up & Dp). destruct (becomes_list _ _ AC) as (jc & Mc & Uc & Dc).
    pose proof (same_length _ _ Mp) as L2. pose proof (same_length _ _ Mc) as L3.
    exists (JObj [("call_Index", JStr idx); ("params", args_json (blank ps) jp); ("call_args", args_json (blank cs) jc)]). split; [|split].
    + cbn [marshal]. rewrite (blank_json ps jp Mp), (blank_json cs jc Mc), (json_text_id idx U). reflexivity.
    + change (unmarshal (JObj ?o)) with (match all_some (fun p : string * json => match unmarshal (snd p) with Some v => Some (fst p, v) | None => None end) o with Some vs => Some (VMap vs) | None => None end).
      cbn [all_some fst snd]. rewrite (unmarshal_args (blank ps) jp ps' (blank_texts ps)), (unmarshal_args (blank cs) jc cs' (blank_texts cs)); try assumption; try (rewrite blank_length; congruence).
      reflexivity.
    + pose proof (depth_args (blank ps) jp _ ltac:(rewrite blank_length; congruence) Dp) as X. pose proof (depth_args (blank cs) jc _ ltac:(rewrite blank_length; congruence) Dc) as Y.
      change (depth (JObj ?o)) with (1 + fold_right Z.max 0 (map (fun p : string * json => depth (snd p)) o)). cbn [map snd fold_right nesting]. change (depth (JStr idx)) with 0.
      assert (P : forall l : list Z, 0 <= fold_right Z.max 0 l) by (induction l; cbn; lia). pose proof (P (map nesting ps)). pose proof (P (map nesting cs)).
      destruct jp, jc; lia.
  - intros N. destruct (becomes_list _ _ BP) as (jp & Mp & Up & Dp). destruct (becomes_list _ _ BC) as (jc & Mc & Uc & Dc).
    pose proof (same_length _ _ Mp) as L2. pose proof (same_length _ _ Mc) as L3.
    assert (Lp : List.length (blank ps) = List.length jp) by (rewrite blank_length; congruence). assert (Lc : List.length (blank cs) = List.length jc) by (rewrite blank_length; congruence).
    pose proof (depth_args (blank ps) jp _ Lp Dp) as X. pose proof (depth_args (blank cs) jc _ Lc Dc) as Y.
    cbn [nesting map snd fold_right] in N. rewrite (nesting_args_val (blank ps) ps'), (nesting_args_val (blank cs) cs') in N by (rewrite blank_length; congruence).
    unfold json_box. cbn [marshal all_some snd fst].
    rewrite (marshal_args_val (blank ps) ps' jp (blank_texts ps)), (marshal_args_val (blank cs) cs' jc (blank_texts cs)); try assumption; try (rewrite blank_length; congruence).
    set (o := [(json_text "call_Index", JStr (json_text idx)); (json_text "params", args_json (blank ps) jp); (json_text "call_args", args_json (blank cs) jc)]).
    assert (DO : depth (JObj o) <=? 10000 = true).
    { apply Z.leb_le. unfold o. change (depth (JObj ?o)) with (1 + fold_right Z.max 0 (map (fun p : string * json => depth (snd p)) o)). cbn [map snd fold_right]. change (depth (JStr (json_text idx))) with 0.
      destruct jp, ps', jc, cs'; try discriminate; lia. }
    rewrite DO. change (entries_of "call_Index" o) with [JStr (json_text idx)]. change (entries_of "params" o) with [args_json (blank ps) jp].
    change (entries_of "call_args" o) with [args_json (blank cs) jc]. cbn [string_field].
    rewrite (args_read _ jp ps' Lp Up), (args_read _ jc cs' Lc Uc), (json_text_id idx U). reflexivity.
Qed.
Example C55_box_inside_case : Forall2 image [VU16 513; VBool true] [VF64 (float_bits 513); VBool true] /\ utf8 (s2b "0x0600").
Proof.
  split; [|apply ascii_utf8; repeat constructor]. constructor; [apply (image_number 513); cbn; auto; lia|]. constructor; [apply image_bool|constructor].
Qed.
(** Keys that differ in letter case only: the last one in the order of the text
    is taken, and null takes the arguments away. *)
Theorem C55_map_last idx idx' args gs gs' : utf8 (s2b idx) -> utf8 (s2b idx') -> arg_texts args -> List.length args = List.length gs -> Forall2 becomes gs gs' ->
  nesting (VSlice (map arg_map (combine args gs))) <= 9999 ->
  json_box [("call_index", VStr idx); ("CALL_INDEX", VStr idx'); ("params", VNil); ("Params", VSlice (map arg_map (combine args gs)))] = Some (idx, [], []).
Proof.
  intros U U' T L F N. destruct (args_shape args gs gs' T L F) as (js & M & A & D). unfold json_box. cbn [marshal all_some snd fst] in M |- *. rewrite M.
  set (aj := JArr (map arg_obj (combine args js))) in *.
  assert (RD : args_field [] [aj; JNull] = Some []) by (unfold aj; cbn [args_field]; now rewrite A).
  set (o := [(json_text "call_index", JStr (json_text idx)); (json_text "CALL_INDEX", JStr (json_text idx')); (json_text "params", JNull); (json_text "Params", aj)]).
  assert (DO : depth (JObj o) <=? 10000 = true).
  { apply Z.leb_le. unfold o. change (depth (JObj ?o)) with (1 + fold_right Z.max 0 (map (fun p : string * json => depth (snd p)) o)). cbn [map snd fold_right].
    change (depth (JStr (json_text idx))) with 0. change (depth (JStr (json_text idx'))) with 0. change (depth JNull) with 0. lia. }
  rewrite DO. change (entries_of "call_Index" o) with [JStr (json_text idx'); JStr (json_text idx)]. change (entries_of "params" o) with [aj; JNull].
  change (entries_of "call_args" o) with (@nil json). cbn [string_field]. rewrite RD, (json_text_id idx U). reflexivity.
Qed.

(** ** C81: numbers that JSON or Encode does not carry over *)
Definition json_env (r : reg) : env := Env (r_types r) (r_special r) (fun _ => "") (fun b => b) json_box.
Definition one_call (t : string) : metadata := [("0600", CallMod "Pallet" "call" [("a", t)])].
(** The call decodes completely, and what comes out encodes to other bytes. *)
Theorem C81_again_refuted : exists E, std_env E /\ e_box E = json_box /\
  forall t bs other, In (t, bs, other)
    [("u64", "06000100000000002000", "06000000000000002000");
     ("i32", "060005000000", "060000000000");
     ("u256", "0600" ++ "01" ++ hex_encode (repeat (Zb 0) 31), "060031");
     ("i128", "0600" ++ "05" ++ hex_encode (repeat (Zb 0) 15), "0600" ++ hex_encode (repeat (Zb 0) 15) ++ "05")] ->
  exists g cs, Decodes E (Ctx (-1) "" (Some (one_call t))) (hex_decode bs) 0 "Call" (Ok (g, blen (hex_decode bs), cs))
    /\ Encodes E (-1) (Some (one_call t)) "Call" g other /\ other <> bs.
Proof.
  exists (json_env base_reg). split; [exact base_std|]. split; [reflexivity|]. intros t bs other I. unfold Decodes.
  repeat (destruct I as [I|I]; [injection I as <- <- <-; eexists _, _; split;
    [split; [|exists 5%nat; vm_compute; reflexivity]; discriminate|split; [apply (encode_enough _ _ _ _ _ 5); [vm_compute; reflexivity|discriminate]|vm_compute; discriminate]]|]).
  destruct I.
Qed.

(** ** Cases *)
Definition ex_calls : metadata :=
  [("0500", CallMod "Currencies" "transfer" [("dest", "H256"); ("value", "Compact<Balance>")]);
   ("0100", CallMod "Utility" "batch" [("calls", "Vec<Call>")])].
Definition ex_account : bytes := map Zb [7; 7; 7; 7; 7; 7; 7; 7; 7; 7; 7; 7; 7; 7; 7; 7; 7; 7; 7; 7; 7; 7; 7; 7; 7; 7; 7; 7; 7; 7; 7; 7].
Definition ex_transfer : bytes := Zb 5 :: Zb 0 :: (ex_account ++ compact 69 ++ [])%list.
Definition ex_batch : bytes := Zb 1 :: Zb 0 :: ((compact 1 ++ (ex_transfer ++ [])) ++ [])%list.
Definition ex_batch_value : val :=
  VMap (call_fields "0100" "batch" "Utility" (VParams [("calls", "Vec<Call>", VSlice
    [VMap (call_fields "0500" "transfer" "Currencies" (VParams [("dest", "H256", VStr ("0x" ++ hex_encode ex_account)); ("value", "Compact<Balance>", VDec 69 0)]))])])).
Lemma ascii_text s : forallb (fun c => bZ c <? 128) (s2b s) = true -> utf8 (s2b s).
Proof. intros H. apply ascii_utf8, Forall_forall. intros c I. rewrite forallb_forall in H. now apply Z.ltb_lt, H. Qed.
Ltac ascii := apply ascii_text; vm_compute; reflexivity.
(** A batch around a transfer. *)
Example C81_case : let E := json_env base_reg in
  std_env E /\ e_box E = json_box /\ (forall k cm, In (k, cm) ex_calls -> plain_pallet (cm_module cm))
  /\ wire E (-1) ex_calls "Call" ex_batch ex_batch_value [hex_encode ex_transfer; hex_encode ex_batch]
  /\ encode 9 E (-1) (Some ex_calls) "Call" ex_batch_value = Ok (hex_encode ex_batch).
Proof.
  cbv zeta. split; [exact base_std|]. split; [reflexivity|]. split.
  { intros k cm [I|[I|[]]]; injection I as <- <-; apply plain_unlisted; vm_compute; reflexivity. }
  split; [|vm_compute; reflexivity].
  assert (H : wire (json_env base_reg) (-1) ex_calls "H256" ex_account (VStr ("0x" ++ hex_encode ex_account)) []).
  { eapply (wr_type _ _ _ _ CH256). { res. } { discriminate. } apply wr_same; [apply sc_h256; reflexivity|constructor; ascii]. }
  assert (B : wire (json_env base_reg) (-1) ex_calls "Compact<Balance>" (compact 69) (VDec 69 0) []).
  { eapply (wr_type _ _ _ _ (CCompact "Balance")); [res|discriminate|]. apply wr_decimal; [|right; now eexists].
    eapply (sc_compact _ _ _ _ CBalance); [discriminate|res|lia|reflexivity|lia]. }
  assert (T : wire (json_env base_reg) (-1) ex_calls "Call" ex_transfer
    (VMap (call_fields "0500" "transfer" "Currencies" (VParams [("dest", "H256", VStr ("0x" ++ hex_encode ex_account)); ("value", "Compact<Balance>", VDec 69 0)]))) [hex_encode ex_transfer]).
  { eapply (wr_type _ _ _ _ CCall); [res|discriminate|].
    apply (wr_call (json_env base_reg) (-1) ex_calls (Zb 5) (Zb 0) (CallMod "Currencies" "transfer" [("dest", "H256"); ("value", "Compact<Balance>")])
             _ [VStr ("0x" ++ hex_encode ex_account); VDec 69 0] []); [reflexivity| |ascii|ascii| |vm_compute; discriminate].
    - apply (ws_cons (json_env base_reg) (-1) ex_calls "H256" ["Compact<Balance>"] ex_account (compact 69 ++ []) _ [VDec 69 0] [] []); [exact H|].
      apply (ws_cons (json_env base_reg) (-1) ex_calls "Compact<Balance>" [] (compact 69) [] _ [] [] []); [exact B|constructor].
    - repeat (constructor; [split; ascii|]). constructor. }
  eapply (wr_type _ _ _ _ CCall); [res|discriminate|].
  apply (wr_call (json_env base_reg) (-1) ex_calls (Zb 1) (Zb 0) (CallMod "Utility" "batch" [("calls", "Vec<Call>")]) _
           [VSlice [VMap (call_fields "0500" "transfer" "Currencies" (VParams [("dest", "H256", VStr ("0x" ++ hex_encode ex_account)); ("value", "Compact<Balance>", VDec 69 0)]))]] [hex_encode ex_transfer]);
    [reflexivity| |ascii|ascii| |vm_compute; discriminate].
  - apply (ws_cons (json_env base_reg) (-1) ex_calls "Vec<Call>" [] (compact 1 ++ (ex_transfer ++ [])) [] _ [] [hex_encode ex_transfer] []); [|constructor].
    eapply (wr_type _ _ _ _ (CVec "Call")); [res|discriminate|].
    apply (wr_vec (json_env base_reg) (-1) ex_calls "Call" 1 _ [VMap (call_fields "0500" "transfer" "Currencies" (VParams [("dest", "H256", VStr ("0x" ++ hex_encode ex_account)); ("value", "Compact<Balance>", VDec 69 0)]))]);
      [|lia].
    apply (ws_cons (json_env base_reg) (-1) ex_calls "Call" [] ex_transfer [] _ [] [hex_encode ex_transfer] []); [exact T|constructor].
  - repeat (constructor; [split; ascii|]). constructor.
Qed.
(** Numbers in a map arrive as float64. *)
Example C55_map_case : let E := json_env base_reg in let md := [("0600", ex_call)] in
  resolves E (Ctx (-1) "" (Some md)) "Call" CCall /\ arg_texts (cm_args ex_call)
  /\ Forall2 becomes [VU16 513; VInt 3] [VF64 (float_bits 513); VF64 (float_bits 3)]
  /\ nesting (VMap [("call_index", VStr "0600"); ("call_args", VSlice (map arg_map (combine (cm_args ex_call) [VU16 513; VInt 3])))]) <= 10000
  /\ encode 4 E (-1) (Some md) "Call" (VMap [("call_index", VStr "0x0600"); ("call_args", VSlice (map arg_map (combine (cm_args ex_call) [VU16 513; VInt 3])))]) = Ok "0600010203".
Proof.
  cbv zeta. split; [res|]. split; [repeat (constructor; [split; ascii|]); constructor|]. split.
  { constructor; [apply (image_number 513); cbn; auto; lia|]. constructor; [apply (image_number 3); cbn; auto; lia|constructor]. }
  split; [vm_compute; discriminate|vm_compute; reflexivity].
Qed.

Print Assumptions C55_map.
Print Assumptions C81_again_partial.
Print Assumptions C81_through_json_partial.
Print Assumptions C81_again_refuted.
Print Assumptions C55_box_inside.
Print Assumptions C55_map_last.
