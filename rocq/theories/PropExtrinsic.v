(** Extrinsics.  C37, C38, C52. *)

From Verif Require Import GoBase SpecNum ProofsBase ModelTools ProofsTools ModelVal ModelJson ModelRegistry ModelDecode ModelEncode ModelRegister ModelScaleInfo ModelMetadata ModelEvents ModelExtrinsic
  ProofsRun SpecScale ProofsReads ProofsScale ProofsApi ProofsEncode ProofsNames PropForms PropRegistry PropScaleInfo PropMetadata PropEvents.

Ltac bindinv H :=
  match type of H with
  | bind ?a _ = Ok _ => let X := fresh "X" in destruct a eqn:X; cbn [bind] in H; [|discriminate H|discriminate H]
  end.

(** ** The length prefix *)
(** The bytes read as a one or two byte compact number followed by that many
    bytes.  The version bytes 04, 84 and 05, 85 are of these two forms. *)
Definition own_length (body : bytes) : Prop :=
  match body with
  | [] => False
  | b0 :: r =>
      if bZ b0 mod 4 =? 0 then blen r = bZ b0 / 4
      else match r with [] => False | b1 :: r' => blen r' = (bZ b0 + 256 * bZ b1) / 4 end
  end.

Section Hash.
Variable E : env.
Hypothesis std : std_env E.
Variable H : bytes -> bytes.
Variable opt : xopt.

Lemma prefixed f body : 0 < blen body -> blen (compact (blen body) ++ body) < 2 ^ 63 ->
  extrinsic_process (S f) E H opt (compact (blen body) ++ body) =
  extrinsic_body (S f) E H opt (compact (blen body) ++ body) (blen body) (blen (compact (blen body))).
Proof.
  intros P B. unfold extrinsic_process, xpud. rewrite blen_app in B. pose proof (blen_nonneg (compact (blen body))).
  pose proof (Dec_compact_u32 E f (x_ctx opt (xo_module opt)) (blen body) std ltac:(lia) [] body) as D. cbn [app] in D.
  change (blen []) with 0 in D. rewrite D by (rewrite blen_app; unfold two63; exact B). cbn [bind]. rewrite blen_app.
  replace (blen body =? blen (compact (blen body)) + blen body - (0 + blen (compact (blen body)))) with true by lia. now rewrite Z.add_0_l.
Qed.
Lemma bare_u32 f data b0 r : data = b0 :: r -> blen data < 2 ^ 63 -> 4 <= bZ b0 -> bZ b0 mod 4 = 0 \/ bZ b0 mod 4 = 1 -> ~ own_length data ->
  exists n o, xpud (S f) E opt data (xo_module opt) 0 "Compact<u32>" = Ok (VInt n, o) /\ n <> blen data - o.
Proof.
  intros -> B B4 M N. unfold xpud. cbn [decode]. destruct (std_compact_u32 E (x_ctx opt (xo_module opt)) std) as (cd0 & sub & G & I).
  rewrite G. cbn [bind]. rewrite I. cbn [process compact_bytes run].
  pose proof (next_one [] b0 r B) as X0. cbn [app] in X0. change (blen []) with 0 in X0. rewrite X0. cbn [bind]. change (0 + 1) with 1. pose proof (bZ_range b0) as R0.
  assert (L : blen (b0 :: r) = 1 + blen r) by (unfold blen; cbn [List.length]; lia).
  destruct M as [M|M]; rewrite M.
  - cbn [run bind]. eexists _, _. split; [reflexivity|]. unfold compact_u32_int. rewrite le_uint_val. cbn [le_val]. rewrite Z.mul_0_r, Z.add_0_r.
    rewrite Z.mod_small by (change (256 ^ Z.of_nat 8) with (2 ^ 64); lia). rewrite i64_small by (unfold two63; lia). change (1 <=? 4) with true. cbv iota.
    rewrite Z.quot_div_nonneg by lia. unfold own_length in N. rewrite M in N. change (0 =? 0) with true in N. cbv iota in N. rewrite L. intros Q. apply N. lia.
  - cbn [run bind]. unfold own_length in N. rewrite M in N. change (1 =? 0) with false in N. cbv iota in N. destruct r as [|b1 r'].
    + change (next_bytes [b0] 1 (i64 1)) with (Ok (@nil ascii, 1)). cbn [bind app]. eexists _, _. split; [reflexivity|].
      unfold compact_u32_int. rewrite le_uint_val. cbn [le_val]. rewrite Z.mul_0_r, Z.add_0_r.
      rewrite Z.mod_small by (change (256 ^ Z.of_nat 8) with (2 ^ 64); lia). rewrite i64_small by (unfold two63; lia). change (2 <=? 4) with true. cbv iota.
      rewrite Z.quot_div_nonneg by lia. change (blen [b0]) with 1. lia.
    + pose proof (next_one [b0] b1 r') as X. cbn [app] in X. change (blen [b0]) with 1 in X. rewrite X by exact B. cbn [bind app]. eexists _, _. split; [reflexivity|].
      pose proof (bZ_range b1). unfold compact_u32_int. rewrite le_uint_val. cbn [le_val]. rewrite Z.mul_0_r, Z.add_0_r.
      rewrite Z.mod_small by (change (256 ^ Z.of_nat 8) with (2 ^ 64); lia). rewrite i64_small by (unfold two63; lia). change (2 <=? 4) with true. cbv iota.
      rewrite Z.quot_div_nonneg by lia. change (1 + 1) with 2. intros Q. apply N. rewrite Q. unfold blen. cbn [List.length]. lia.
Qed.
Lemma unprefixed f data b0 r : data = b0 :: r -> blen data < 2 ^ 63 -> 4 <= bZ b0 -> bZ b0 mod 4 = 0 \/ bZ b0 mod 4 = 1 -> ~ own_length data ->
  extrinsic_process (S f) E H opt data = extrinsic_body (S f) E H opt data 0 0.
Proof.
  intros D B B4 M N. destruct (bare_u32 f data b0 r D B B4 M N) as (n & o & X & Y). unfold extrinsic_process. rewrite X. cbn [bind].
  now replace (n =? blen data - o) with false by lia.
Qed.

Lemma version_value b0 : ModelTools.U256 (BytesToHex [b0]) = Some (bZ b0).
Proof. destruct b0 as [[] [] [] [] [] [] [] []]; reflexivity. Qed.
Lemma version_is b0 t z : BytesToHex [b0] = t -> ModelTools.U256 t = Some z -> bZ b0 = z.
Proof. intros <-. rewrite version_value. now intros [= ->]. Qed.

Lemma body_hash f data len o r b0 o' : extrinsic_body f E H opt data len o = Ok r -> next_bytes data o 1 = Ok ([b0], o') ->
  In (bZ b0) [4; 5; 132; 133] /\ g_version r = hex_encode [b0] /\ g_length r = len /\
  g_hash r = (if 80 <=? bZ b0 then hex_encode (H (if 0 <? len then data else compact_u32_bytes (blen data) ++ data)) else "").
Proof.
  intros X N. unfold extrinsic_body in X. rewrite N in X. cbn [bind] in X. rewrite version_value in X. cbn [bind] in X.
  pose proof (bZ_range b0). rewrite i64_small in X by (unfold two63; lia). cbv zeta in X.
  assert (V : In (bZ b0) [4; 5; 132; 133]).
  { destruct (String.eqb_spec (BytesToHex [b0]) "04") as [Q|_]; [rewrite (version_is _ _ 4 Q eq_refl); cbn; tauto|].
    destruct (String.eqb_spec (BytesToHex [b0]) "84") as [Q|_]; [rewrite (version_is _ _ 132 Q eq_refl); cbn; tauto|].
    destruct (String.eqb_spec (BytesToHex [b0]) "05") as [Q|_]; [rewrite (version_is _ _ 5 Q eq_refl); cbn; tauto|].
    destruct (String.eqb_spec (BytesToHex [b0]) "85") as [Q|_]; [rewrite (version_is _ _ 133 Q eq_refl); cbn; tauto|]. discriminate X. }
  split; [exact V|].
  set (v4 := String.eqb (BytesToHex [b0]) "04" || String.eqb (BytesToHex [b0]) "84") in X.
  destruct (negb (v4 || _)) in X; [discriminate X|].
  bindinv X. destruct a as [sp o1]. bindinv X. destruct a as [b o2].
  destruct (String.eqb (BytesToHex b) ""); [discriminate X|]. destruct (assoc (BytesToHex b) (xo_calls opt)) as [en|]; [|discriminate X].
  bindinv X. destruct a as [ps o3]. bindinv X. injection X as <-.
  destruct (80 <=? bZ b0) eqn:SG.
  - bindinv X0. destruct a0 as [sp' o4]. injection X0 as <- <-. destruct (address_of (sp_signer sp')) as [acc at_]. cbn [g_version g_length g_hash].
    now repeat split.
  - injection X0 as <- <-. now repeat split.
Qed.

(** The hash of an extrinsic is the digest of its bytes with their length
    prefix, whether they were given with it or without. *)
Theorem C38_hash f1 f2 body r1 r2 : 0 < blen body < 2 ^ 30 -> ~ own_length body ->
  extrinsic_process f1 E H opt (compact (blen body) ++ body) = Ok r1 -> extrinsic_process f2 E H opt body = Ok r2 ->
  g_hash r1 = g_hash r2 /\ g_version r1 = g_version r2 /\ g_length r1 = blen body /\ g_length r2 = 0 /\
  g_hash r1 = match body with b0 :: _ => if 80 <=? bZ b0 then hex_encode (H (compact (blen body) ++ body)) else "" | [] => "" end.
Proof.
  intros L N X1 X2. destruct f1 as [|f1]; [discriminate X1|]. destruct f2 as [|f2]; [discriminate X2|].
  assert (C4 : blen (compact (blen body)) <= 4).
  { unfold compact. destruct (_ <? _); [rewrite blen_le_bytes; lia|]. destruct (_ <? _); [rewrite blen_le_bytes; lia|].
    replace (blen body <? 2 ^ 30) with true by lia. rewrite blen_le_bytes. lia. }
  rewrite prefixed in X1 by (rewrite ?blen_app; lia).
  destruct body as [|b0 r]; [change (blen []) with 0 in L; lia|].
  pose proof (next_one (compact (blen (b0 :: r))) b0 r ltac:(rewrite blen_app; lia)) as N1.
  destruct (body_hash _ _ _ _ _ _ _ X1 N1) as (V & V1 & L1 & H1).
  assert (B4 : 4 <= bZ b0 /\ (bZ b0 mod 4 = 0 \/ bZ b0 mod 4 = 1)).
  { cbn [In] in V. destruct V as [V|[V|[V|[V|[]]]]]; rewrite <- V; (split; [lia|]); [left|right|left|right]; reflexivity. }
  rewrite (unprefixed f2 (b0 :: r) b0 r eq_refl) in X2 by (tauto || lia).
  pose proof (next_one [] b0 r ltac:(cbn [app]; lia)) as N2. cbn [app] in N2. change (blen []) with 0 in N2.
  destruct (body_hash _ _ _ _ _ _ _ X2 N2) as (_ & V2 & L2 & H2).
  replace (0 <? blen (b0 :: r)) with true in H1 by lia. change (0 <? 0) with false in H2. cbv iota in H1, H2.
  rewrite compact_u32_bytes_spec in H2 by lia. repeat split; congruence.
Qed.
End Hash.

(** ** What is on the wire *)
(** After the nonce come the tip and the values of signed extensions. *)
Inductive item := Tip | Ext (id ts : string).
Definition item_type (x : item) : string := match x with Tip => "Compact<Balance>" | Ext _ ts => ts end.
Record ival := IVal { iv_item : item; iv_bytes : bytes; iv_value : val }.
(** The extensions of the metadata whose value is sent: those known to send
    one and those the caller adds. *)
Definition sends (check : list string) (id : string) : bool :=
  existsb (String.eqb id) (["ChargeTransactionPayment"; "ChargeAssetTxPayment"; "CheckMetadataHash"] ++ check).
Definition ext_items (check : list string) (l : list (string * string)) : list item :=
  map (fun p => if String.eqb (fst p) "ChargeTransactionPayment" then Tip else Ext (fst p) (snd p)) (filter (fun p => sends check (fst p)) l).
(** The values of a version 4 extrinsic: before metadata 14 the tip, if the
    runtime charges payment, and what the caller says; then what the metadata
    says, unless the caller does. *)
Definition items_v4 (opt : xopt) : option (list item) :=
  match xo_extra opt with
  | None => match xo_signed opt with [] => if xo_version opt <? 14 then Some [Tip] else None | _ => None end
  | Some x =>
      let tip := if (xo_version opt <? 14) && existsb (String.eqb "ChargeTransactionPayment") (xe_ids x) then [Tip] else [] in
      Some (tip ++ match xo_signed opt with
                   | [] => if xo_version opt <? 14 then [] else ext_items (xo_check opt) (xe_exts x)
                   | l => flat_map (fun p => if existsb (String.eqb (fst p)) (xe_ids x) then map (fun q => Ext (fst q) (snd q)) (snd p) else []) l
                   end)%list
  end.
Definition items_v5 (opt : xopt) : option (list item) :=
  option_map (fun x => ext_items (xo_check opt) (xe_exts x)) (xo_extra opt).

(** A signature part: signer and signature are a text or a variant. *)
Record sigwire := SigWire {
  sw_signer : bytes; sw_signer_v : val; sw_account : val; sw_kind : string; sw_sig : bytes; sw_sig_v : val; sw_sigtext : string;
  sw_extver : Z; sw_era : bytes; sw_era_v : string; sw_nonce : bytes; sw_nonce_v : Z; sw_items : list ival }.
(** The whole extrinsic, and bytes after it. *)
Record wire := Wire { wi_version : Z; wi_signed : option sigwire; wi_pallet : Z; wi_variant : Z; wi_args : bytes; wi_values : list val; wi_rest : bytes }.

Definition is_v5 (w : wire) : bool := (wi_version w =? 5) || (wi_version w =? 133).
Definition sig_bytes (v5 : bool) (s : sigwire) : bytes :=
  (sw_signer s ++ sw_sig s ++ (if v5 then le_bytes 1 (sw_extver s) else []) ++ sw_era s ++ sw_nonce s ++ List.concat (map iv_bytes (sw_items s)))%list.
Definition body_of (w : wire) : bytes :=
  ([Zb (wi_version w)] ++ match wi_signed w with Some s => sig_bytes (is_v5 w) s | None => [] end ++ [Zb (wi_pallet w); Zb (wi_variant w)]
   ++ wi_args w ++ wi_rest w)%list.

Inductive address_is : val -> val -> string -> Prop :=
| ad_text s : address_is (VStr s) (VStr s) "AccountId"
| ad_variant n v : address_is (VMap [(n, v)]) v n.
Inductive signature_is : val -> string -> Prop :=
| si_text s : signature_is (VStr s) s
| si_variant n s : signature_is (VMap [(n, VStr s)]) s.

Definition ext_pairs (l : list ival) : list (string * val) :=
  flat_map (fun iv => match iv_item iv with Tip => [] | Ext id _ => [(id, iv_value iv)] end) l.
Definition tip_of (l : list ival) : Z * Z :=
  fold_left (fun t iv => match iv_item iv, iv_value iv with Tip, VDec c e => (c, e) | _, _ => t end) l (0, 0).

Section Wire.
Variable E : env.
Variable opt : xopt.
(** [b] is the SCALE encoding of [v], as the decoder sees the type. *)
Definition shows (module ts : string) (b : bytes) (v : val) : Prop := exists cs, scale false E (x_ctx opt module) ts b v cs.
Definition sig_wf (v5 : bool) (s : sigwire) : Prop :=
  let m := xo_module opt in
  shows m (signer_type E (xo_version opt) "Address") (sw_signer s) (sw_signer_v s) /\ address_is (sw_signer_v s) (sw_account s) (sw_kind s) /\
  shows m "ExtrinsicSignature" (sw_sig s) (sw_sig_v s) /\ signature_is (sw_sig_v s) (sw_sigtext s) /\
  (if v5 then shows m "U8" (le_bytes 1 (sw_extver s)) (VInt (sw_extver s)) else sw_extver s = 0) /\
  shows m "EraExtrinsic" (sw_era s) (VStr (sw_era_v s)) /\
  0 <= sw_nonce_v s < 2 ^ 63 /\ shows m "Compact<U64>" (sw_nonce s) (VU64 (sw_nonce_v s)) /\
  (if v5 then items_v5 opt else items_v4 opt) = Some (map iv_item (sw_items s)) /\
  Forall (fun iv => shows m (item_type (iv_item iv)) (iv_bytes iv) (iv_value iv) /\ (iv_item iv = Tip -> exists z, iv_value iv = VDec z 0)) (sw_items s) /\
  NoDup (map fst (ext_pairs (sw_items s))).
Definition wire_wf (w : wire) (en : entry mcall) : Prop :=
  match wi_signed w with
  | Some s => (wi_version w = 132 \/ wi_version w = 133) /\ sig_wf (is_v5 w) s
  | None => wi_version w = 4 \/ wi_version w = 5
  end /\
  0 <= wi_pallet w < 256 /\ 0 <= wi_variant w < 256 /\ assoc (on_chain (wi_pallet w) (wi_variant w)) (xo_calls opt) = Some en /\
  exists cs, scales false E (x_ctx opt (en_module en)) (map a_type (k_args (en_item en))) (wi_args w) (wi_values w) cs.

(** The result for [w]: [len] is the length prefix it came with, 0 without. *)
Definition args_of (l : list marg) (vs : list val) : list xparam :=
  map (fun p => XParam (a_name (fst p)) (a_type (fst p)) (a_tyname (fst p)) (snd p)) (combine l vs).
Definition result (H : bytes -> bytes) (w : wire) (en : entry mcall) (len : Z) : generic :=
  let version := hex_encode [Zb (wi_version w)] in
  let fn := k_name (en_item en) in
  let code := on_chain (wi_pallet w) (wi_variant w) in
  let ps := args_of (k_args (en_item en)) (wi_values w) in
  match wi_signed w with
  | None => Generic version len "" (0, 0) [] VNil VNil "" VNil 0 "" "" fn code (en_module en) ps (hex_encode (wi_args w)) 0
  | Some s => Generic version len (sw_kind s) (tip_of (sw_items s)) (ext_pairs (sw_items s)) (sw_account s) (sw_signer_v s) (sw_sigtext s) (sw_sig_v s)
                (sw_nonce_v s) (sw_era_v s) (hex_encode (H (compact (blen (body_of w)) ++ body_of w)%list)) fn code (en_module en) ps (hex_encode (wi_args w)) (sw_extver s)
  end.
End Wire.

(** ** Reading it *)
Section Read.
Variable E : env.
Hypothesis std : std_env E.
Variable opt : xopt.
Variable H : bytes -> bytes.

Lemma Dec_mono f f' c ts bs g cs : (f <= f')%nat -> Dec (decode f E) c ts bs g cs -> Dec (decode f' E) c ts bs g cs.
Proof. intros L D pre tl B. apply (decode_mono f f' E L); [now apply D|discriminate]. Qed.
Lemma seqdec_mono f f' c ts bs g cs : (f <= f')%nat -> seqdec (decode f E) c ts bs g cs -> seqdec (decode f' E) c ts bs g cs.
Proof. intros L D. induction D; constructor; [eapply Dec_mono; eassumption|assumption]. Qed.
Definition DecF (f : nat) (module ts : string) (b : bytes) (v : val) : Prop := forall f', (f <= f')%nat -> exists cs, Dec (decode f' E) (x_ctx opt module) ts b v cs.
Lemma shows_dec module ts b v : shows E opt module ts b v -> exists f, DecF f module ts b v.
Proof.
  intros [cs S]. destruct (proj1 (scale_decodes false E std) _ _ _ _ _ S) as [f D]. exists f. intros f' L. exists cs. eapply Dec_mono; eassumption.
Qed.
Lemma DecF_mono f f' module ts b v : (f <= f')%nat -> DecF f module ts b v -> DecF f' module ts b v.
Proof. intros L D f2 L2. apply D. lia. Qed.

Section At.
Variable f : nat.
Variable data : bytes.
Hypothesis B : blen data < 2 ^ 63.
Lemma xpud_at module ts b v pre tl : DecF f module ts b v -> data = (pre ++ b ++ tl)%list -> xpud f E opt data module (blen pre) ts = Ok (v, blen (pre ++ b)).
Proof.
  intros D Q. destruct (D f (le_n f)) as [cs X]. unfold xpud. rewrite Q. rewrite X by now rewrite <- Q. cbn [bind]. now rewrite blen_app.
Qed.
Definition iv_dec (m : string) (iv : ival) : Prop :=
  DecF f m (item_type (iv_item iv)) (iv_bytes iv) (iv_value iv) /\ (iv_item iv = Tip -> exists z, iv_value iv = VDec z 0).
Definition tip_after (t : Z * Z) (iv : ival) : Z * Z := match iv_item iv, iv_value iv with Tip, VDec c e => (c, e) | _, _ => t end.
Definition set_all (l : list (string * val)) (acc : list (string * val)) := fold_left (fun a p => map_set (fst p) (snd p) a) l acc.

Lemma tip_after_tip t iv z : iv_item iv = Tip -> iv_value iv = VDec z 0 -> tip_after t iv = (z, 0).
Proof. unfold tip_after. now intros -> ->. Qed.
Lemma tip_after_ext t iv id ts : iv_item iv = Ext id ts -> tip_after t iv = t.
Proof. unfold tip_after. now intros ->. Qed.
Lemma ext_pairs_tip iv ivs : iv_item iv = Tip -> ext_pairs (iv :: ivs) = ext_pairs ivs.
Proof. unfold ext_pairs. cbn [flat_map]. now intros ->. Qed.
Lemma ext_pairs_ext iv ivs id ts : iv_item iv = Ext id ts -> ext_pairs (iv :: ivs) = (id, iv_value iv) :: ext_pairs ivs.
Proof. unfold ext_pairs. cbn [flat_map]. now intros ->. Qed.

Lemma slice_index_in a l k : (0 <= k) -> (slice_index k a l =? -1) = negb (existsb (String.eqb a) l) /\ (0 <=? slice_index k a l) = existsb (String.eqb a) l.
Proof.
  clear. revert k. induction l as [|b l IH]; intros k K; [split; reflexivity|]. cbn [slice_index existsb].
  rewrite (String.eqb_sym a b). destruct (String.eqb b a); cbn [orb negb]; [lia|]. apply IH. lia.
Qed.
Lemma sent_sends check id : sent check id = sends check id.
Proof.
  unfold sent, sends. rewrite existsb_app. unfold SliceIndex. rewrite (proj2 (slice_index_in id check 0 ltac:(lia))). f_equal.
  unfold signedExts. cbn [assoc existsb]. repeat match goal with |- context [String.eqb id ?x] => destruct (String.eqb_spec id x) as [->|?]; [reflexivity|] end. reflexivity.
Qed.

Lemma read_tip_at m iv pre tl : iv_dec m iv -> iv_item iv = Tip -> data = (pre ++ iv_bytes iv ++ tl)%list ->
  exists z, iv_value iv = VDec z 0 /\ read_tip f E opt data m (blen pre) = Ok ((z, 0), blen (pre ++ iv_bytes iv)).
Proof.
  intros [D T] I Q. destruct (T I) as [z Z]. exists z. split; [exact Z|]. unfold read_tip. rewrite I in D. cbn [item_type] in D.
  rewrite (xpud_at m _ _ _ pre tl D Q). cbn [bind]. now rewrite Z.
Qed.
Lemma meta_at m l : forall ivs tip acc pre tl, map iv_item ivs = ext_items (xo_check opt) l -> Forall (iv_dec m) ivs ->
  data = (pre ++ List.concat (map iv_bytes ivs) ++ tl)%list ->
  meta_exts f E opt data m l tip acc (blen pre) = Ok (fold_left tip_after ivs tip, set_all (ext_pairs ivs) acc, blen (pre ++ List.concat (map iv_bytes ivs))).
Proof.
  induction l as [|[id ts] l IH]; intros ivs tip acc pre tl M F Q.
  - destruct ivs; [|discriminate M]. cbn [meta_exts map List.concat fold_left ext_pairs flat_map set_all]. now rewrite app_nil_r.
  - cbn [meta_exts]. rewrite sent_sends. unfold ext_items in M. cbn [filter fst] in M. destruct (sends (xo_check opt) id); [|now apply (IH ivs tip acc pre tl)].
    destruct ivs as [|iv ivs]; [discriminate M|]. cbn [map fst snd] in M. injection M as MI M. inversion F as [|x0 l0 F1 F2]; subst x0 l0.
    cbn [map List.concat] in Q. rewrite <- app_assoc in Q. cbn [fold_left map List.concat]. rewrite app_assoc.
    destruct (String.eqb id "ChargeTransactionPayment").
    + destruct (read_tip_at m iv pre _ F1 MI Q) as (z & Z & X). rewrite X. cbn [bind].
      rewrite (IH ivs (z, 0) acc (pre ++ iv_bytes iv)%list tl M F2) by now rewrite <- !app_assoc.
      now rewrite (tip_after_tip tip iv z MI Z), (ext_pairs_tip iv ivs MI).
    + destruct F1 as [D _]. rewrite MI in D. cbn [item_type] in D. rewrite (xpud_at m ts _ _ pre _ D Q). cbn [bind].
      rewrite (IH ivs tip (map_set id (iv_value iv) acc) (pre ++ iv_bytes iv)%list tl M F2) by now rewrite <- !app_assoc.
      now rewrite (tip_after_ext tip iv _ _ MI), (ext_pairs_ext iv ivs _ _ MI).
Qed.

Lemma values_at m l : forall ivs acc pre tl, map iv_item ivs = map (fun q => Ext (fst q) (snd q)) l -> Forall (iv_dec m) ivs ->
  data = (pre ++ List.concat (map iv_bytes ivs) ++ tl)%list ->
  option_values f E opt data m l acc (blen pre) = Ok (set_all (ext_pairs ivs) acc, blen (pre ++ List.concat (map iv_bytes ivs))).
Proof.
  induction l as [|[n t] l IH]; intros ivs acc pre tl M F Q.
  - destruct ivs; [|discriminate M]. cbn [option_values map List.concat ext_pairs flat_map set_all fold_left]. now rewrite app_nil_r.
  - destruct ivs as [|iv ivs]; [discriminate M|]. cbn [map fst snd] in M. injection M as MI M. inversion F as [|x0 l0 F1 F2]; subst x0 l0.
    cbn [map List.concat] in Q. rewrite <- app_assoc in Q. cbn [option_values map List.concat]. rewrite app_assoc.
    destruct F1 as [D _]. rewrite MI in D. cbn [item_type] in D. rewrite (xpud_at m t _ _ pre _ D Q). cbn [bind].
    rewrite (IH ivs (map_set n (iv_value iv) acc) (pre ++ iv_bytes iv)%list tl M F2) by now rewrite <- !app_assoc.
    now rewrite (ext_pairs_ext iv ivs _ _ MI).
Qed.
Lemma map_app_inv {A C} (g : A -> C) l l1 l2 : map g l = (l1 ++ l2)%list -> exists a b, l = (a ++ b)%list /\ map g a = l1 /\ map g b = l2.
Proof.
  revert l. induction l1 as [|x l1 IH]; intros l M; [now exists [], l|]. destruct l as [|y l]; [discriminate M|]. cbn [map app] in M. injection M as <- M.
  destruct (IH l M) as (a & b & -> & <- & <-). now exists (y :: a), b.
Qed.
Lemma set_all_app a b acc : set_all (a ++ b) acc = set_all b (set_all a acc).
Proof. apply fold_left_app. Qed.
Lemma ext_pairs_app a b : ext_pairs (a ++ b) = (ext_pairs a ++ ext_pairs b)%list.
Proof. apply flat_map_app. Qed.
Lemma options_at m ids l : forall ivs acc pre tl,
  map iv_item ivs = flat_map (fun p => if existsb (String.eqb (fst p)) ids then map (fun q => Ext (fst q) (snd q)) (snd p) else []) l -> Forall (iv_dec m) ivs ->
  data = (pre ++ List.concat (map iv_bytes ivs) ++ tl)%list ->
  option_exts f E opt data m ids l acc (blen pre) = Ok (set_all (ext_pairs ivs) acc, blen (pre ++ List.concat (map iv_bytes ivs))).
Proof.
  induction l as [|[n vs] l IH]; intros ivs acc pre tl M F Q.
  - destruct ivs; [|discriminate M]. cbn [option_exts map List.concat ext_pairs flat_map set_all fold_left]. now rewrite app_nil_r.
  - cbn [flat_map fst snd] in M. apply map_app_inv in M. destruct M as (a & b & -> & M1 & M2). apply Forall_app in F. destruct F as [F1 F2].
    rewrite map_app, concat_app in *. rewrite <- app_assoc in Q. cbn [option_exts]. unfold SliceIndex. rewrite (proj1 (slice_index_in n ids 0 ltac:(lia))), negb_involutive.
    assert (X : (if existsb (String.eqb n) ids then option_values f E opt data m vs acc (blen pre) else Ok (acc, blen pre)) =
      Ok (set_all (ext_pairs a) acc, blen (pre ++ List.concat (map iv_bytes a)))).
    { destruct (existsb (String.eqb n) ids); [now apply (values_at m vs a acc pre _ M1 F1 Q)|]. destruct a; [|discriminate M1].
      cbn [map List.concat ext_pairs flat_map set_all fold_left]. now rewrite app_nil_r. }
    rewrite X. cbn [bind]. rewrite (IH b _ _ tl M2 F2) by (rewrite Q; now rewrite <- !app_assoc).
    rewrite ext_pairs_app, set_all_app, <- app_assoc. reflexivity.
Qed.
Lemma tips_none ivs t : Forall (fun x => x <> Tip) (map iv_item ivs) -> fold_left tip_after ivs t = t.
Proof.
  clear. revert t. induction ivs as [|iv ivs IH]; intros t F; [reflexivity|]. cbn [map] in F. inversion F as [|? ? N F']; subst. cbn [fold_left].
  destruct (iv_item iv) eqn:I; [contradiction|]. rewrite (tip_after_ext t iv _ _ I). now apply IH.
Qed.
Lemma option_items_no_tip (ids : list string) (l : list (string * list (string * string))) :
  Forall (fun x => x <> Tip) (flat_map (fun p => if existsb (String.eqb (fst p)) ids then map (fun q => Ext (fst q) (snd q)) (snd p) else []) l).
Proof.
  induction l as [|[n vs] l IH]; [constructor|]. cbn [flat_map]. apply Forall_app. split; [|exact IH]. cbn [fst snd]. destruct (existsb _ ids); [|constructor].
  apply Forall_forall. intros x I. apply in_map_iff in I. destruct I as (q & <- & _). discriminate.
Qed.

Lemma some_eq {A} (a b : A) : Some a = Some b -> a = b.
Proof. now intros [= ->]. Qed.
Lemma v4_at m ivs pre tl : items_v4 opt = Some (map iv_item ivs) -> Forall (iv_dec m) ivs -> data = (pre ++ List.concat (map iv_bytes ivs) ++ tl)%list ->
  extra_v4 f E opt data m (blen pre) = Ok (fold_left tip_after ivs (0, 0), set_all (ext_pairs ivs) [], blen (pre ++ List.concat (map iv_bytes ivs))).
Proof.
  intros I F Q. unfold items_v4 in I. unfold extra_v4. destruct (xo_extra opt) as [x|].
  - apply some_eq in I. symmetry in I. apply map_app_inv in I. destruct I as (a & b & -> & M1 & M2). apply Forall_app in F. destruct F as [F1 F2].
    rewrite map_app, concat_app in *. rewrite <- app_assoc in Q.
    unfold SliceIndex. rewrite (proj1 (slice_index_in "ChargeTransactionPayment" (xe_ids x) 0 ltac:(lia))), negb_involutive.
    assert (X : (if (xo_version opt <? 14) && existsb (String.eqb "ChargeTransactionPayment") (xe_ids x) then read_tip f E opt data m (blen pre) else Ok ((0, 0), blen pre))
      = Ok (fold_left tip_after a (0, 0), blen (pre ++ List.concat (map iv_bytes a))) /\ ext_pairs a = []).
    { destruct (_ && _).
      - destruct a as [|iv [|? ?]]; try discriminate M1. cbn [map] in M1. injection M1 as MI. inversion F1 as [|x0 l0 D _]; subst x0 l0.
        cbn [map List.concat] in *. rewrite app_nil_r in *. destruct (read_tip_at m iv pre _ D MI Q) as (z & Z & X). rewrite X.
        cbn [fold_left]. unfold tip_after, ext_pairs. cbn [flat_map]. rewrite MI, Z. now split.
      - destruct a; [|discriminate M1]. cbn [map List.concat fold_left]. now rewrite app_nil_r. }
    destruct X as [X EP]. rewrite X. cbn [bind]. rewrite ext_pairs_app, EP, app_assoc, fold_left_app. cbn [app].
    destruct (xo_signed opt) as [|s l].
    + destruct (Z.ltb_spec (xo_version opt) 14) as [V|V].
      * replace (14 <=? xo_version opt) with false by lia. destruct b; [|discriminate M2]. cbn [map List.concat fold_left ext_pairs flat_map set_all]. now rewrite app_nil_r.
      * replace (14 <=? xo_version opt) with true by lia. apply (meta_at m _ b _ _ _ tl M2 F2). rewrite Q. now rewrite <- !app_assoc.
    + rewrite (options_at m _ _ b [] _ tl M2 F2) by (rewrite Q; now rewrite <- !app_assoc). cbn [bind].
      rewrite (tips_none b) by (rewrite M2; apply option_items_no_tip). reflexivity.
  - destruct (xo_signed opt); [|discriminate I]. destruct (Z.ltb_spec (xo_version opt) 14) as [V|V]; [|discriminate I]. injection I as I.
    destruct ivs as [|iv [|? ?]]; try discriminate I. cbn [map] in I. injection I as MI. inversion F as [|x0 l0 D _]; subst x0 l0.
    cbn [map List.concat] in *. rewrite app_nil_r in *. destruct (read_tip_at m iv pre _ D (eq_sym MI) Q) as (z & Z & X). rewrite X. cbn [bind].
    replace (14 <=? xo_version opt) with false by lia. cbn [fold_left]. unfold tip_after, ext_pairs. cbn [flat_map]. now rewrite <- MI, Z.
Qed.
Lemma v5_at m ivs pre tl : items_v5 opt = Some (map iv_item ivs) -> Forall (iv_dec m) ivs -> data = (pre ++ List.concat (map iv_bytes ivs) ++ tl)%list ->
  extra_v5 f E opt data m (blen pre) = Ok (fold_left tip_after ivs (0, 0), set_all (ext_pairs ivs) [], blen (pre ++ List.concat (map iv_bytes ivs))).
Proof.
  intros I F Q. unfold items_v5 in I. unfold extra_v5. destruct (xo_extra opt) as [x|]; [|discriminate I]. cbn [option_map] in I. injection I as I.
  now apply (meta_at m _ ivs _ _ _ tl (eq_sym I) F).
Qed.
Lemma set_all_fresh l : forall acc, NoDup (map fst (acc ++ l)) -> set_all l acc = (acc ++ l)%list.
Proof.
  induction l as [|[k v] l IH]; intros acc ND; [now rewrite app_nil_r|]. unfold set_all. cbn [fold_left fst snd]. rewrite map_set_fresh.
  - fold (set_all l (acc ++ [(k, v)])). rewrite IH; rewrite <- app_assoc; [reflexivity|exact ND].
  - rewrite map_app in ND. cbn [map fst] in ND. apply NoDup_remove_2 in ND. intros X. apply ND, in_or_app. now left.
Qed.

Lemma signed_at (v5 : bool) s pre tl : let m := xo_module opt in
  DecF f m (signer_type E (xo_version opt) "Address") (sw_signer s) (sw_signer_v s) -> DecF f m "ExtrinsicSignature" (sw_sig s) (sw_sig_v s) ->
  signature_is (sw_sig_v s) (sw_sigtext s) -> (if v5 then DecF f m "U8" (le_bytes 1 (sw_extver s)) (VInt (sw_extver s)) else sw_extver s = 0) ->
  DecF f m "EraExtrinsic" (sw_era s) (VStr (sw_era_v s)) -> 0 <= sw_nonce_v s < 2 ^ 63 -> DecF f m "Compact<U64>" (sw_nonce s) (VU64 (sw_nonce_v s)) ->
  (if v5 then items_v5 opt else items_v4 opt) = Some (map iv_item (sw_items s)) -> Forall (iv_dec m) (sw_items s) -> NoDup (map fst (ext_pairs (sw_items s))) ->
  data = (pre ++ sig_bytes v5 s ++ tl)%list ->
  signed_part f E opt data v5 m (blen pre) = Ok (SigPart (sw_signer_v s) (sw_sig_v s) (sw_sigtext s) (sw_extver s) (sw_era_v s) (sw_nonce_v s) (tip_of (sw_items s)) (ext_pairs (sw_items s)),
    blen (pre ++ sig_bytes v5 s)).
Proof.
  intros m D1 D2 SI D3 D4 NR D5 IT F ND Q. unfold sig_bytes in *. set (xb := if v5 then le_bytes 1 (sw_extver s) else ([] : bytes)) in *. set (ib := List.concat (map iv_bytes (sw_items s))) in *.
  unfold signed_part.
  rewrite (xpud_at m _ _ _ pre (sw_sig s ++ xb ++ sw_era s ++ sw_nonce s ++ ib ++ tl) D1) by (rewrite Q; now rewrite <- !app_assoc). cbn [bind].
  rewrite (xpud_at m _ _ _ _ (xb ++ sw_era s ++ sw_nonce s ++ ib ++ tl) D2) by (rewrite Q; now rewrite <- !app_assoc). cbn [bind].
  set (p2 := ((pre ++ sw_signer s) ++ sw_sig s)%list).
  assert (X3 : (if v5 then '(v, o) <- xpud f E opt data m (blen p2) "U8" ;; match v with VInt z => Ok (z, o) | _ => Panic "interface conversion: interface {} is not int" end
     else Ok (0, blen p2)) = Ok (sw_extver s, blen (p2 ++ xb))).
  { unfold xb in *. destruct v5.
    - rewrite (xpud_at m _ _ _ _ (sw_era s ++ sw_nonce s ++ ib ++ tl) D3) by (unfold p2; rewrite Q; now rewrite <- !app_assoc). reflexivity.
    - rewrite D3, app_nil_r. reflexivity. }
  rewrite X3. cbn [bind].
  assert (X4 : signature_of (sw_sig_v s) = Ok (sw_sigtext s)) by now destruct SI.
  rewrite X4. cbn [bind].
  rewrite (xpud_at m _ _ _ _ (sw_nonce s ++ ib ++ tl) D4) by (unfold p2; rewrite Q; now rewrite <- !app_assoc). cbn [bind as_string].
  rewrite (xpud_at m _ _ _ _ (ib ++ tl) D5) by (unfold p2; rewrite Q; now rewrite <- !app_assoc). cbn [bind as_nonce].
  rewrite i64_small by (unfold two63; lia).
  set (p5 := (((p2 ++ xb) ++ sw_era s) ++ sw_nonce s)%list).
  assert (X6 : (if v5 then extra_v5 f E opt data m (blen p5) else extra_v4 f E opt data m (blen p5)) = Ok (tip_of (sw_items s), ext_pairs (sw_items s), blen (p5 ++ ib))).
  { assert (Q5 : data = (p5 ++ ib ++ tl)%list) by (unfold p5, p2; rewrite Q; now rewrite <- !app_assoc).
    assert (SA : set_all (ext_pairs (sw_items s)) [] = ext_pairs (sw_items s)) by now apply (set_all_fresh _ []).
    destruct v5; [rewrite (v5_at m _ _ _ IT F Q5)|rewrite (v4_at m _ _ _ IT F Q5)]; now rewrite SA. }
  rewrite X6. cbn [bind]. unfold p5, p2. now rewrite <- !app_assoc.
Qed.

Lemma args_at m l : forall bs vs pre tl cs, seqdec (decode f E) (x_ctx opt m) (map a_type l) bs vs cs -> data = (pre ++ bs ++ tl)%list ->
  args_loop f E opt data m l (blen pre) = Ok (args_of l vs, blen (pre ++ bs)).
Proof.
  induction l as [|a l IH]; intros bs vs pre tl cs S Q; cbn [map] in S; inversion S as [|t ts b bs' g gs cs1 cs2 D S'].
  - subst bs vs cs. cbn [args_loop]. now rewrite app_nil_r.
  - subst t ts bs vs cs. cbn [args_loop]. rewrite <- app_assoc in Q.
    assert (X : xpud f E opt data m (blen pre) (a_type a) = Ok (g, blen (pre ++ b))).
    { unfold xpud. rewrite Q. rewrite D by now rewrite <- Q. cbn [bind]. now rewrite blen_app. }
    rewrite X. cbn [bind]. rewrite (IH bs' gs (pre ++ b)%list tl cs2 S') by now rewrite <- app_assoc. cbn [bind]. now rewrite <- app_assoc.
Qed.
End At.

Lemma items_dec m l : Forall (fun iv => shows E opt m (item_type (iv_item iv)) (iv_bytes iv) (iv_value iv) /\ (iv_item iv = Tip -> exists z, iv_value iv = VDec z 0)) l ->
  exists f, forall f', (f <= f')%nat -> Forall (iv_dec f' m) l.
Proof.
  induction 1 as [|iv l [S T] F [f IH]]; [exists O; constructor|]. destruct (shows_dec _ _ _ _ S) as [f1 D]. exists (Nat.max f f1). intros f' L.
  constructor; [|apply IH; lia]. split; [|exact T]. eapply DecF_mono; [|exact D]. lia.
Qed.

(** Everything after the length, wherever it starts in the data. *)
Lemma body_at w en : wire_wf E opt w en -> exists f, forall f' data pre len, (f <= f')%nat -> data = (pre ++ body_of w)%list -> blen data < 2 ^ 63 ->
  (if 0 <? len then data else compact_u32_bytes (blen data) ++ data)%list = (compact (blen (body_of w)) ++ body_of w)%list ->
  extrinsic_body f' E H opt data len (blen pre) = Ok (result H w en len).
Proof.
  intros (W & PI & PJ & A & cs & SC).
  destruct (proj2 (proj2 (scale_decodes false E std)) _ _ _ _ _ SC) as [f1 SD].
  assert (SG : exists f2, forall f' data p tl, (f2 <= f')%nat -> data = (p ++ match wi_signed w with Some s => sig_bytes (is_v5 w) s | None => [] end ++ tl)%list -> blen data < 2 ^ 63 ->
    match wi_signed w with
    | Some s => signed_part f' E opt data (is_v5 w) (xo_module opt) (blen p) = Ok (SigPart (sw_signer_v s) (sw_sig_v s) (sw_sigtext s) (sw_extver s) (sw_era_v s) (sw_nonce_v s) (tip_of (sw_items s)) (ext_pairs (sw_items s)),
        blen (p ++ sig_bytes (is_v5 w) s)) /\ address_is (sw_signer_v s) (sw_account s) (sw_kind s)
    | None => True
    end).
  { destruct (wi_signed w) as [s|]; [|exists O; auto]. destruct W as (_ & S1 & AD & S2 & SI & S3 & S4 & NR & S5 & IT & FI & ND).
    destruct (shows_dec _ _ _ _ S1) as [a1 D1]. destruct (shows_dec _ _ _ _ S2) as [a2 D2]. destruct (shows_dec _ _ _ _ S4) as [a4 D4]. destruct (shows_dec _ _ _ _ S5) as [a5 D5].
    destruct (items_dec _ _ FI) as [a6 D6].
    assert (S3' : exists a3, forall f', (a3 <= f')%nat -> if is_v5 w then DecF f' (xo_module opt) "U8" (le_bytes 1 (sw_extver s)) (VInt (sw_extver s)) else sw_extver s = 0).
    { destruct (is_v5 w); [|now exists O]. destruct (shows_dec _ _ _ _ S3) as [a3 D3]. exists a3. intros f' L. eapply DecF_mono; eassumption. }
    destruct S3' as [a3 D3]. exists (Nat.max a1 (Nat.max a2 (Nat.max a3 (Nat.max a4 (Nat.max a5 a6))))). intros f' data p tl L Q B. split; [|exact AD].
    apply (signed_at f' data B (is_v5 w) s p tl); try assumption.
    - eapply DecF_mono; [|exact D1]. lia.
    - eapply DecF_mono; [|exact D2]. lia.
    - apply D3. lia.
    - eapply DecF_mono; [|exact D4]. lia.
    - eapply DecF_mono; [|exact D5]. lia.
    - apply D6. lia. }
  destruct SG as [f2 SG]. exists (Nat.max f1 f2). intros f' data pre len L Q B HB.
  unfold body_of in Q. set (sb := match wi_signed w with Some s => sig_bytes (is_v5 w) s | None => [] end) in *.
  assert (V : (wi_version w = 4 /\ wi_signed w = None) \/ (wi_version w = 5 /\ wi_signed w = None) \/ (wi_version w = 132 /\ wi_signed w <> None) \/ (wi_version w = 133 /\ wi_signed w <> None)).
  { destruct (wi_signed w); [destruct W as [[V|V] _]; rewrite V; [right; right; left|right; right; right]; split; congruence|destruct W as [V|V]; rewrite V; auto]. }
  unfold extrinsic_body.
  assert (N1 : next_bytes data (blen pre) 1 = Ok ([Zb (wi_version w)], blen (pre ++ [Zb (wi_version w)]))).
  { rewrite Q, blen_app. apply (next_at pre [Zb (wi_version w)] _ 1); [now rewrite <- Q|reflexivity]. }
  rewrite N1. cbn [bind]. rewrite version_value. cbn [bind]. rewrite bZ_Zb_small by (clear - V; lia). rewrite i64_small by (clear - V; unfold two63; lia).
  set (p1 := (pre ++ [Zb (wi_version w)])%list) in *.
  specialize (SG f' data p1 ([Zb (wi_pallet w); Zb (wi_variant w)] ++ wi_args w ++ wi_rest w)%list ltac:(lia)). unfold p1 in SG at 1. rewrite <- app_assoc in SG.
  specialize (SG Q B). fold sb in SG.
  assert (N2 : next_bytes data (blen (p1 ++ sb)) 2 = Ok ([Zb (wi_pallet w); Zb (wi_variant w)], blen ((p1 ++ sb) ++ [Zb (wi_pallet w); Zb (wi_variant w)]))).
  { assert (Q2 : data = ((p1 ++ sb) ++ [Zb (wi_pallet w); Zb (wi_variant w)] ++ (wi_args w ++ wi_rest w))%list) by (rewrite Q; unfold p1; now rewrite <- !app_assoc).
    rewrite Q2 at 1. rewrite (blen_app (p1 ++ sb)). apply (next_at (p1 ++ sb) [Zb (wi_pallet w); Zb (wi_variant w)] _ 2); [now rewrite <- Q2|reflexivity]. }
  set (p3 := ((p1 ++ sb) ++ [Zb (wi_pallet w); Zb (wi_variant w)])%list) in *.
  assert (Q3 : data = (p3 ++ wi_args w ++ wi_rest w)%list) by (rewrite Q; unfold p3, p1; now rewrite <- !app_assoc).
  assert (AR : args_loop f' E opt data (en_module en) (k_args (en_item en)) (blen p3) = Ok (args_of (k_args (en_item en)) (wi_values w), blen (p3 ++ wi_args w))).
  { eapply (args_at f' data B); [|exact Q3]. eapply seqdec_mono; [|exact SD]. lia. }
  assert (SL : slice data (blen p3) (blen (p3 ++ wi_args w)) = Ok (wi_args w)).
  { rewrite Q3 at 1. rewrite blen_app. apply slice_middle. }
  assert (GH : wi_signed w <> None -> generate_hash H data true len = hex_encode (H (compact (blen (body_of w)) ++ body_of w)%list)).
  { intros _. unfold generate_hash. rewrite BytesToHex_eq. apply (f_equal hex_encode), (f_equal H). exact HB. }
  unfold result. 
  destruct V as [[V SN]|[[V SN]|[[V SN]|[V SN]]]]; unfold p1, sb, is_v5 in *; rewrite V in *; clear V.
  1,2: rewrite SN in *; cbn [bind app] in *; rewrite app_nil_r in N2;
    match goal with |- context [negb ?b] => change b with true end; cbn [negb]; cbv iota; change (80 <=? 4) with false; change (80 <=? 5) with false; cbn [bind]; rewrite N2; cbn [bind];
    rewrite BytesToHex_eq; fold (on_chain (wi_pallet w) (wi_variant w)); rewrite A; 
    change (String.eqb (on_chain (wi_pallet w) (wi_variant w)) "") with false; cbv iota; rewrite AR; cbn [bind]; rewrite SL; reflexivity.
  all: destruct (wi_signed w) as [s|]; [|contradiction]; destruct SG as [SG AD].
  all: change (80 <=? 132) with true; change (80 <=? 133) with true; cbv iota zeta.
  - change (negb (String.eqb (BytesToHex [Zb 132]) "04" || String.eqb (BytesToHex [Zb 132]) "84" || (String.eqb (BytesToHex [Zb 132]) "05" || String.eqb (BytesToHex [Zb 132]) "85"))) with false.
    change (negb (String.eqb (BytesToHex [Zb 132]) "04" || String.eqb (BytesToHex [Zb 132]) "84")) with false. cbv iota.
    change ((132 =? 5) || (132 =? 133)) with false in *. rewrite SG. cbn [bind]. rewrite N2. cbn [bind]. rewrite BytesToHex_eq. fold (on_chain (wi_pallet w) (wi_variant w)). rewrite A.
    change (String.eqb (on_chain (wi_pallet w) (wi_variant w)) "") with false. cbv iota. rewrite AR. cbn [bind]. rewrite SL. cbn [bind].
    cbn [sp_signer sp_sig sp_sigtext sp_extver sp_era sp_nonce sp_tip sp_exts]. rewrite GH by discriminate. now destruct AD.
  - change (negb (String.eqb (BytesToHex [Zb 133]) "04" || String.eqb (BytesToHex [Zb 133]) "84" || (String.eqb (BytesToHex [Zb 133]) "05" || String.eqb (BytesToHex [Zb 133]) "85"))) with false.
    change (negb (String.eqb (BytesToHex [Zb 133]) "04" || String.eqb (BytesToHex [Zb 133]) "84")) with true. cbv iota.
    change ((133 =? 5) || (133 =? 133)) with true in *. rewrite SG. cbn [bind]. rewrite N2. cbn [bind]. rewrite BytesToHex_eq. fold (on_chain (wi_pallet w) (wi_variant w)). rewrite A.
    change (String.eqb (on_chain (wi_pallet w) (wi_variant w)) "") with false. cbv iota. rewrite AR. cbn [bind]. rewrite SL. cbn [bind].
    cbn [sp_signer sp_sig sp_sigtext sp_extver sp_era sp_nonce sp_tip sp_exts]. rewrite GH by discriminate. now destruct AD.
Qed.

(** An extrinsic of version 4 or 5, signed or not, is decoded part by part,
    with or without its length prefix. *)
Theorem C52_decoded w en : wire_wf E opt w en -> blen (body_of w) < 2 ^ 30 -> exists f, forall f', (f <= f')%nat ->
  extrinsic_process f' E H opt (compact (blen (body_of w)) ++ body_of w) = Ok (result H w en (blen (body_of w))) /\
  (~ own_length (body_of w) -> extrinsic_process f' E H opt (body_of w) = Ok (result H w en 0)).
Proof.
  intros W L. destruct (body_at w en W) as [f BA]. exists (S f). intros f' LF. destruct f' as [|f']; [lia|].
  assert (P : exists r, body_of w = Zb (wi_version w) :: r) by (eexists; reflexivity). destruct P as [r P].
  assert (PL : 0 < blen (body_of w)) by (rewrite P; unfold blen; cbn [List.length]; lia).
  assert (C4 : blen (compact (blen (body_of w))) <= 4).
  { unfold compact. destruct (_ <? _); [rewrite blen_le_bytes; lia|]. destruct (_ <? _); [rewrite blen_le_bytes; lia|].
    replace (blen (body_of w) <? 2 ^ 30) with true by lia. rewrite blen_le_bytes. lia. }
  split.
  - rewrite prefixed by (assumption || (rewrite blen_app; lia)). apply BA; [lia|reflexivity|rewrite blen_app; lia|].
    now replace (0 <? blen (body_of w)) with true by lia.
  - intros N. assert (V : In (wi_version w) [4; 5; 132; 133]).
    { destruct W as (W & _). cbn [In]. destruct (wi_signed w); [destruct W as [W _]|]; lia. }
    assert (B4 : bZ (Zb (wi_version w)) = wi_version w) by (apply bZ_Zb_small; cbn [In] in V; lia).
    assert (M : 4 <= wi_version w /\ (wi_version w mod 4 = 0 \/ wi_version w mod 4 = 1)).
    { cbn [In] in V. destruct V as [V|[V|[V|[V|[]]]]]; rewrite <- V; (split; [lia|]); [left|right|left|right]; reflexivity. }
    rewrite (unprefixed E std H opt f' (body_of w) _ r P) by (rewrite ?B4; tauto || lia). change 0 with (blen []) at 2. apply BA; [lia|reflexivity|lia|].
    change (0 <? 0) with false. cbv iota. now rewrite compact_u32_bytes_spec by lia.
Qed.
End Read.

(** ** Encoding, then decoding *)
(** The parts of an extrinsic that the caller gives to Encode. *)
Definition same_call (g r : generic) : Prop :=
  g_version r = g_version g /\ g_code r = g_code g /\ map xp_value (g_params r) = map xp_value (g_params g).
Definition same_content (g r : generic) : Prop :=
  same_call g r /\ g_signer r = g_signer g /\ g_signature_raw r = g_signature_raw g /\ g_era r = g_era g /\ g_nonce r = g_nonce g /\ g_tip r = g_tip g /\ g_exts r = g_exts g.
Section RoundTrip.
Variable E : env.
Hypothesis std : std_env E.
Variable opt : xopt.
Variable H : bytes -> bytes.
(** [b] is the SCALE encoding of [v], as Encode sees the type. *)
Definition writes (ts : string) (b : bytes) (v : val) : Prop := exists cs, scale true E (Ctx (-1) "" None) ts b v cs.
Definition writes_args (en : entry mcall) (b : bytes) (vs : list val) : Prop :=
  exists cs, scales true E (Ctx (xo_spec opt) "" (Some (codec_calls (xo_calls opt)))) (map a_type (k_args (en_item en))) b vs cs.
(** The values that Encode sends come in the order of the metadata: the tip
    first, then the extensions in the order in which their map is walked. *)
Definition writes_items (x : xextra) (l : list ival) : Prop :=
  NoDup (map fst (xe_exts x)) /\
  exists tips rest, l = (tips ++ rest)%list /\
    map iv_item tips = (if existsb (String.eqb "ChargeTransactionPayment") (xe_ids x) then [Tip] else []) /\
    Forall (fun iv => exists z, iv_value iv = VDec z 0 /\ writes "Compact<Balance>" (iv_bytes iv) (VDec z 0)) tips /\
    Forall (fun iv => exists id ts, iv_item iv = Ext id ts /\ assoc id (xe_exts x) = Some ts /\ writes ts (iv_bytes iv) (iv_value iv)) rest.
Definition sig_writes (s : sigwire) : Prop :=
  writes (signer_type E (xo_version opt) "AccountId") (sw_signer s) (sw_signer_v s) /\ writes "ExtrinsicSignature" (sw_sig s) (sw_sig_v s) /\
  writes "EraExtrinsic" (sw_era s) (VStr (sw_era_v s)) /\
  (exists sub, resolves E (Ctx (-1) "" None) "Compact<U64>" (CCompact sub)) /\ sw_nonce s = compact (sw_nonce_v s) /\
  exists x, xo_extra opt = Some x /\ writes_items x (sw_items s).
(** An extrinsic value with the content of [w]. *)
Definition describes (g : generic) (w : wire) : Prop :=
  g_version g = hex_encode [Zb (wi_version w)] /\ g_code g = on_chain (wi_pallet w) (wi_variant w) /\ map xp_value (g_params g) = wi_values w /\
  match wi_signed w with
  | Some s => g_signer g = sw_signer_v s /\ g_signature_raw g = sw_sig_v s /\ g_era g = sw_era_v s /\ g_nonce g = sw_nonce_v s /\ g_tip g = tip_of (sw_items s) /\ g_exts g = ext_pairs (sw_items s)
  | None => True
  end.

Definition EncF (f : nat) (ts : string) (b : bytes) (v : val) : Prop := forall f', (f <= f')%nat -> Encode f' E ts v = Ok (hex_encode b).
Lemma writes_enc ts b v : writes ts b v -> exists f, EncF f ts b v.
Proof. intros [cs S]. destruct (proj1 (scale_encodes E std) _ _ _ _ _ S eq_refl) as [f X]. exists f. exact X. Qed.

Lemma nonce_enc sub f n : resolves E (Ctx (-1) "" None) "Compact<U64>" (CCompact sub) -> 0 <= n < 2 ^ 63 -> Encode (S f) E "Compact<U64>" (VInt n) = Ok (hex_encode (compact n)).
Proof.
  intros (cd0 & sb & G & I) R. unfold Encode. cbn [encode]. change (equal_fold "Compact<U64>" "Null") with false. cbv iota. cbn [x_module x_spec] in G. rewrite G. cbn [bind]. rewrite I.
  cbn [encode_codec encode_compact bind]. rewrite compact_encode_spec by exact R. now rewrite trim_lower_hex.
Qed.
Lemma ext_matches_at f l id v : NoDup (map fst l) -> ext_matches f E l id v = match assoc id l with Some ts => (a <- Encode f E ts v ;; Ok a) | None => Ok "" end.
Proof.
  induction l as [|[id' ts] l IH]; intros ND; [reflexivity|]. cbn [map fst] in ND. inversion ND as [|? ? NI ND']; subst. cbn [ext_matches assoc].
  rewrite (String.eqb_sym id id'). destruct (String.eqb_spec id' id) as [->|Q].
  - destruct (Encode f E ts v) as [a| |]; cbn [bind]; [|reflexivity|reflexivity]. rewrite (IH ND').
    assert (N : assoc id l = None).
    { clear - NI. induction l as [|[k t] l IH]; [reflexivity|]. cbn [map fst In] in NI. cbn [assoc]. destruct (String.eqb_spec id k) as [->|]; [tauto|]. apply IH. tauto. }
    rewrite N. cbn [bind]. now rewrite app_nil_r_s.
  - rewrite (IH ND'). cbn [bind]. destruct (assoc id l) as [t|]; [|reflexivity]. destruct (Encode f E t v); reflexivity.
Qed.
Lemma exts_enc x l : NoDup (map fst (xe_exts x)) ->
  Forall (fun iv => exists id ts, iv_item iv = Ext id ts /\ assoc id (xe_exts x) = Some ts /\ writes ts (iv_bytes iv) (iv_value iv)) l ->
  exists f, forall f', (f <= f')%nat -> ext_values f' E (xe_exts x) (ext_pairs l) = Ok (hex_encode (List.concat (map iv_bytes l))).
Proof.
  intros ND F. induction F as [|iv l (id & ts & I & A & W) F (f & IH)]; [now exists O|]. destruct (writes_enc _ _ _ W) as [f1 X]. exists (Nat.max f f1). intros f' L.
  rewrite (ext_pairs_ext iv l id ts I). cbn [ext_values]. rewrite (ext_matches_at f' _ _ _ ND), A, (X f' ltac:(lia)). cbn [bind]. rewrite (IH f' ltac:(lia)). cbn [bind map List.concat].
  now rewrite hex_encode_app.
Qed.
Lemma ext_pairs_tips tips : Forall (fun x => x = Tip) (map iv_item tips) -> ext_pairs tips = [].
Proof. induction tips as [|iv l IH]; intros F; [reflexivity|]. cbn [map] in F. inversion F; subst. rewrite (ext_pairs_tip iv l) by assumption. now apply IH. Qed.

Lemma args_enc en b vs : writes_args en b vs -> exists f, forall f' ps, (f <= f')%nat -> map xp_value ps = vs ->
  args_text f' E opt (k_args (en_item en)) ps = Ok (hex_encode b) /\ List.length ps = List.length (k_args (en_item en)).
Proof.
  intros [cs S]. destruct (proj2 (proj2 (scale_encodes E std)) _ _ _ _ _ S eq_refl) as [f X]. exists f. intros f' ps L M. specialize (X f' L). clear S L. cbn [x_spec x_meta] in X. subst vs.
  remember (map xp_value ps) as vs eqn:EV. remember (map a_type (k_args (en_item en))) as ts eqn:ET. revert ps EV ET. generalize (k_args (en_item en)) as l.
  induction X; intros l ps EV ET.
  - destruct ps; [|discriminate EV]. destruct l; [|discriminate ET]. now split.
  - destruct ps as [|p ps]; [discriminate EV|]. destruct l as [|a l]; [discriminate ET|]. cbn [map] in EV, ET. injection EV as -> ->. injection ET as -> ->.
    destruct (IHX l ps eq_refl eq_refl) as [Y Z]. cbn [args_text List.length]. split; [|now rewrite Z].
    match goal with EE : encode _ _ _ _ _ _ = _ |- _ => rewrite EE end. cbn [bind]. rewrite Y. cbn [bind]. rewrite TrimHex_hex. now rewrite hex_encode_app.
Qed.

Lemma args_values st c ts b vs cs : scales st E c ts b vs cs -> List.length vs = List.length ts.
Proof. intros S. induction S as [|? ? ? ? ? ? ? ? ? ? ? IH]; [reflexivity|]. cbn [List.length]. now rewrite IH. Qed.
Lemma map_snd_combine (l : list marg) (vs : list val) : List.length vs = List.length (map a_type l) -> map (fun p => snd p) (combine l vs) = vs.
Proof.
  rewrite map_length. revert vs. induction l as [|a l IH]; intros [|v vs] Q; try discriminate Q; [reflexivity|]. cbn [combine map snd]. f_equal. apply IH. cbn [List.length] in Q. lia.
Qed.
Lemma encode_at g w en : describes g w -> assoc (on_chain (wi_pallet w) (wi_variant w)) (xo_calls opt) = Some en -> writes_args en (wi_args w) (wi_values w) -> wi_rest w = [] ->
  match wi_signed w with Some s => wi_version w = 132 /\ sig_writes s /\ 0 <= sw_nonce_v s < 2 ^ 63 | None => wi_version w = 4 \/ wi_version w = 5 end ->
  blen (body_of w) < 2 ^ 30 ->
  exists f, forall f', (f <= f')%nat -> extrinsic_encode f' E opt g = Ok (Some (hex_encode (compact (blen (body_of w)) ++ body_of w))).
Proof.
  intros (GV & GC & GP & GS) A WA WR V L. destruct (args_enc en _ _ WA) as [f1 X1].
  assert (SG : exists f2, forall f', (f2 <= f')%nat -> (if String.eqb (g_version g) "84" then signed_text f' E opt g else Ok "") =
    Ok (hex_encode (match wi_signed w with Some s => sig_bytes (is_v5 w) s | None => [] end))).
  { rewrite GV. destruct (wi_signed w) as [s|].
    - destruct V as (V & (W1 & W2 & W3 & (sub & RN) & NB & x & EX & NDX & tips & rest & SI & MT & WT & WX) & NR). unfold is_v5. rewrite V.
      change (String.eqb (hex_encode [Zb 132]) "84") with true. change ((132 =? 5) || (132 =? 133)) with false. cbv iota.
      destruct GS as (G1 & G2 & G3 & G4 & G5 & G6).
      destruct (writes_enc _ _ _ W1) as [a1 Y1]. destruct (writes_enc _ _ _ W2) as [a2 Y2]. destruct (writes_enc _ _ _ W3) as [a3 Y3].
      destruct (exts_enc x rest NDX WX) as [a5 Y5].
      assert (T : exists a4, forall f', (a4 <= f')%nat -> (if -1 <? SliceIndex "ChargeTransactionPayment" (xe_ids x)
            then Encode f' E "Compact<Balance>" (VDec (fst (g_tip g)) (snd (g_tip g))) else Ok "") = Ok (hex_encode (List.concat (map iv_bytes tips)))).
      { unfold SliceIndex. replace (-1 <? slice_index 0 "ChargeTransactionPayment" (xe_ids x)) with (0 <=? slice_index 0 "ChargeTransactionPayment" (xe_ids x)) by lia.
        rewrite (proj2 (slice_index_in _ (xe_ids x) 0 ltac:(lia))). destruct (existsb _ (xe_ids x)).
        - destruct tips as [|iv [|? ?]]; try discriminate MT. cbn [map] in MT. injection MT as MI. inversion WT as [|? ? (z & Z & W) _]; subst. destruct (writes_enc _ _ _ W) as [a4 Y4].
          exists a4. intros f' LF. cbn [map List.concat]. rewrite app_nil_r. specialize (Y4 f' LF).
          rewrite G5, SI. cbn [app]. unfold tip_of. cbn [fold_left]. rewrite MI, Z.
          assert (TN : forall t, fold_left tip_after rest t = t).
          { intros t. apply tips_none. apply Forall_forall. intros y I. apply in_map_iff in I. destruct I as (iv' & <- & I). rewrite Forall_forall in WX. destruct (WX iv' I) as (id & ts & -> & _). discriminate. }
          unfold tip_after in TN. rewrite TN. cbn [fst snd]. exact Y4.
        - destruct tips; [|discriminate MT]. now exists O. }
      destruct T as [a4 Y4]. exists (S (Nat.max a1 (Nat.max a2 (Nat.max a3 (Nat.max a4 a5))))). intros f' LF. destruct f' as [|f']; [lia|].
      unfold signed_text. rewrite G1, (Y1 (S f') ltac:(lia)). cbn [bind]. rewrite G2, (Y2 (S f') ltac:(lia)). cbn [bind]. rewrite G3, (Y3 (S f') ltac:(lia)). cbn [bind].
      rewrite G4, (nonce_enc sub f' _ RN NR). cbn [bind]. rewrite EX, (Y4 (S f') ltac:(lia)). cbn [bind]. rewrite G6.
      assert (EP : ext_pairs (sw_items s) = ext_pairs rest).
      { rewrite SI, ext_pairs_app, (ext_pairs_tips tips); [reflexivity|]. rewrite MT. destruct (existsb _ _); repeat constructor. }
      rewrite EP, (Y5 (S f') ltac:(lia)). cbn [bind]. unfold sig_bytes. rewrite NB. cbn [app]. rewrite SI, map_app, concat_app, !hex_encode_app. reflexivity.
    - exists O. intros f' _. destruct V as [V|V]; rewrite V; reflexivity. }
  destruct SG as [f2 SG]. exists (S (Nat.max f1 f2)). intros f' LF. destruct f' as [|f']; [lia|].
  unfold extrinsic_encode. rewrite (SG (S f') ltac:(lia)). cbn [bind]. rewrite GC, A. destruct (X1 (S f') (g_params g) ltac:(lia) GP) as [Y LN]. rewrite LN, Nat.eqb_refl. cbn [negb]. rewrite Y. cbn [bind].
  rewrite GV. unfold on_chain.
  assert (TX : hex_encode [Zb (wi_version w)] ++ hex_encode (match wi_signed w with Some s => sig_bytes (is_v5 w) s | None => [] end) ++ hex_encode [Zb (wi_pallet w); Zb (wi_variant w)] ++ hex_encode (wi_args w)
    = hex_encode (body_of w)).
  { unfold body_of. rewrite WR, app_nil_r, !hex_encode_app. reflexivity. }
  rewrite TX, HexToBytes_hex'. pose proof (enc_len E std (List.length (body_of w)) f') as EL. unfold len_prefix in EL.
  unfold Encode. fold (blen (body_of w)). unfold blen in L |- *. rewrite EL by exact L. cbn [bind]. now rewrite hex_encode_app.
Qed.

(** What Encode writes for a bare extrinsic of version 4 or 5 decodes to the
    same version, call and parameters. *)
Theorem C37_bare g w en : describes g w -> wire_wf E opt w en -> wi_signed w = None -> writes_args en (wi_args w) (wi_values w) -> wi_rest w = [] -> blen (body_of w) < 2 ^ 30 ->
  exists f text r, forall f', (f <= f')%nat -> extrinsic_encode f' E opt g = Ok (Some text) /\ extrinsic_process f' E H opt (HexToBytes text) = Ok r /\ same_call g r.
Proof.
  intros D W SN WA WR L. pose proof W as (V & _ & _ & A & cs & SC).
  destruct (encode_at g w en D A WA WR) as [f1 X1]; [rewrite SN in *; exact V|exact L|]. destruct (C52_decoded E std opt H w en W L) as [f2 X2].
  exists (Nat.max f1 f2), (hex_encode (compact (blen (body_of w)) ++ body_of w)), (result H w en (blen (body_of w))). intros f' LF.
  split; [apply X1; lia|]. rewrite HexToBytes_hex'. split; [apply X2; lia|]. destruct D as (GV & GC & GP & _). unfold result, same_call. rewrite SN. cbn [g_version g_code g_params].
  repeat split; [now symmetry|now symmetry|]. rewrite GP. unfold args_of. rewrite map_map. cbn [xp_value].
  apply args_values in SC. now apply map_snd_combine.
Qed.
(** A signed extrinsic of version 4, when the signer reads as it was written
    and the extensions are walked in the order of the metadata. *)
Theorem C37_signed_partial g w en s : describes g w -> wire_wf E opt w en -> wi_version w = 132 -> wi_signed w = Some s -> sig_writes s ->
  writes_args en (wi_args w) (wi_values w) -> wi_rest w = [] -> blen (body_of w) < 2 ^ 30 ->
  exists f text r, forall f', (f <= f')%nat -> extrinsic_encode f' E opt g = Ok (Some text) /\ extrinsic_process f' E H opt (HexToBytes text) = Ok r /\ same_content g r.
Proof.
  intros D W V SN SW WA WR L. pose proof W as (VV & _ & _ & A & cs & SC).
  destruct (encode_at g w en D A WA WR) as [f1 X1]; [rewrite SN in *; split; [exact V|split; [exact SW|]]; apply VV|exact L|]. destruct (C52_decoded E std opt H w en W L) as [f2 X2].
  exists (Nat.max f1 f2), (hex_encode (compact (blen (body_of w)) ++ body_of w)), (result H w en (blen (body_of w))). intros f' LF.
  split; [apply X1; lia|]. rewrite HexToBytes_hex'. split; [apply X2; lia|]. destruct D as (GV & GC & GP & GS). unfold result, same_content, same_call. rewrite SN in *.
  destruct GS as (G1 & G2 & G3 & G4 & G5 & G6). cbn [g_version g_code g_params g_signer g_signature_raw g_era g_nonce g_tip g_exts].
  split; [split; [now symmetry|split; [now symmetry|]]|].
  - rewrite GP. unfold args_of. rewrite map_map. cbn [xp_value]. apply args_values in SC. now apply map_snd_combine.
  - split; [now symmetry|]. split; [now symmetry|]. split; [now symmetry|]. split; [now symmetry|]. split; now symmetry.
Qed.
End RoundTrip.

(** ** Cases *)
(** A chain with the usual signer and signature types, and a transfer. *)
Definition ex_xenv : env :=
  reg_env (with_types (upd "extrinsicsigner" (CEnum (Some [("Id", "AccountId"); ("Raw", "HexBytes")]) []))
          (with_types (upd "extrinsicsignature" (CEnum (Some [("Ed25519", "H512"); ("Sr25519", "H512")]) [])) base_reg)).
Definition ex_xcalls : table mcall := [("0600", Entry "Balances" (MCall "transfer" [MArg "value" "Compact<Balance>" "T::Balance"] 0))].
Definition ex_xexts : list (string * string) := [("CheckNonce", "Compact<U32>"); ("ChargeTransactionPayment", "Compact<Balance>"); ("CheckMetadataHash", "u8"); ("ChargeAssetTxPayment", "u16")].
Definition ex_xopt : xopt := XOpt 100 "" 14 (Some (XExtra (map fst ex_xexts) ex_xexts)) ex_xcalls [] [].
(** A stand-in for the digest, as any function will do. *)
Definition ex_digest (b : bytes) : bytes := [Zb (blen b)].

Lemma ex_xstd : std_env ex_xenv.
Proof. intros k cd I. cbn [In] in I. repeat (destruct I as [I|I]; [injection I as <- <-; split; vm_compute; reflexivity|]). contradiction. Qed.

Definition ex_account : bytes := repeat (Zb 17) 32.
Definition ex_sigbytes : bytes := repeat (Zb 34) 64.
Definition ex_items : list ival := [IVal Tip (compact 69) (VDec 69 0); IVal (Ext "CheckMetadataHash" "u8") (le_bytes 1 1) (VInt 1); IVal (Ext "ChargeAssetTxPayment" "u16") (le_bytes 2 3) (VU16 3)].
Definition ex_sw (version : Z) : sigwire :=
  SigWire (Zb 0 :: ex_account) (VMap [("Id", VStr ("0x" ++ hex_encode ex_account))]) (VStr ("0x" ++ hex_encode ex_account)) "Id"
    (Zb 1 :: ex_sigbytes) (VMap [("Sr25519", VStr ("0x" ++ hex_encode ex_sigbytes))]) ("0x" ++ hex_encode ex_sigbytes)
    (if version =? 133 then 5 else 0) [Zb 0] "00" (compact 5) 5 ex_items.
Definition ex_wire (version : Z) : wire := Wire version (Some (ex_sw version)) 6 0 (compact 1000000) [VDec 1000000 0] [].
Definition ex_entry : entry mcall := Entry "Balances" (MCall "transfer" [MArg "value" "Compact<Balance>" "T::Balance"] 0).

Ltac ty cd := eapply (sc_type _ _ _ _ cd); [res|discriminate|].
Lemma ex_compact st c z : c = Ctx (-1) "" None \/ (exists md m, c = Ctx 100 m md /\ (m = "" \/ m = "Balances")) -> 0 <= z < 2 ^ 63 -> scale st ex_xenv c "Compact<Balance>" (compact z) (VDec z 0) [].
Proof.
  intros C L. assert (R : resolves ex_xenv c "Compact<Balance>" (CCompact "Balance")).
  { destruct C as [->|(md & m & -> & [->| ->])]; res. }
  eapply sc_type; [exact R|discriminate|]. eapply (sc_compact _ _ _ _ CBalance); [discriminate|res|lia| |lia].
  unfold compact_repr. replace (z <? 2 ^ 128 - 1) with true by lia. reflexivity.
Qed.
Lemma ex_scales st c cs0 : c = Ctx (-1) "" None \/ (exists md, c = Ctx 100 "" md) -> cs0 = [] ->
  scale st ex_xenv c "ExtrinsicSigner" (sw_signer (ex_sw 132)) (sw_signer_v (ex_sw 132)) cs0 /\
  scale st ex_xenv c "ExtrinsicSignature" (sw_sig (ex_sw 132)) (sw_sig_v (ex_sw 132)) cs0 /\
  scale st ex_xenv c "EraExtrinsic" [Zb 0] (VStr "00") cs0 /\ scale st ex_xenv c "Compact<U64>" (compact 5) (VU64 5) cs0 /\
  scale st ex_xenv c "u8" (le_bytes 1 1) (VInt 1) cs0 /\ scale st ex_xenv c "u16" (le_bytes 2 3) (VU16 3) cs0 /\ scale st ex_xenv c "U8" (le_bytes 1 5) (VInt 5) cs0.
Proof.
  intros C ->. unfold ex_sw. cbn [sw_signer sw_signer_v sw_sig sw_sig_v].
  destruct C as [->|[md ->]]; repeat split.
  all: match goal with
       | |- scale _ _ _ "ExtrinsicSigner" _ _ _ =>
           ty (CEnum (Some [("Id", "AccountId"); ("Raw", "HexBytes")]) []); apply (sc_variant _ _ _ _ _ 0 _ "AccountId");
           try reflexivity; try discriminate; try lia; [ty CAccountId; now constructor|intros _; apply nodup_first_at; repeat constructor; cbn; intuition discriminate]
       | |- scale _ _ _ "ExtrinsicSignature" _ _ _ =>
           ty (CEnum (Some [("Ed25519", "H512"); ("Sr25519", "H512")]) []); apply (sc_variant _ _ _ _ _ 1 _ "H512");
           try reflexivity; try discriminate; try lia; [ty CH512; now constructor|intros _; apply nodup_first_at; repeat constructor; cbn; intuition discriminate]
       | |- scale _ _ _ "EraExtrinsic" _ _ _ => ty CEra; constructor
       | |- scale _ _ _ "Compact<U64>" _ _ _ => ty (CCompact "U64"); eapply (sc_compact _ _ _ _ CU64); [discriminate|res|lia|reflexivity|lia]
       | |- scale _ _ _ "u16" _ _ _ => ty CU16; now constructor
       | _ => ty CU8; now constructor
       end.
Qed.
Example ex_wire_wf : wire_wf ex_xenv ex_xopt (ex_wire 132) ex_entry /\ wire_wf ex_xenv ex_xopt (ex_wire 133) ex_entry.
Proof.
  assert (A : exists cs, scales false ex_xenv (x_ctx ex_xopt "Balances") ["Compact<Balance>"] (compact 1000000) [VDec 1000000 0] cs).
  { exists ([] ++ [])%list. rewrite <- (app_nil_r (compact 1000000)). constructor; [|constructor]. apply ex_compact; [|lia]. right. now eexists _, _; split; [reflexivity|right]. }
  assert (C : x_ctx ex_xopt "" = Ctx (-1) "" None \/ (exists md, x_ctx ex_xopt "" = Ctx 100 "" md)) by (right; now eexists).
  destruct (ex_scales false _ [] C eq_refl) as (S1 & S2 & S3 & S4 & S5 & S6 & S7).
  assert (F : Forall (fun iv => shows ex_xenv ex_xopt "" (item_type (iv_item iv)) (iv_bytes iv) (iv_value iv) /\ (iv_item iv = Tip -> exists z, iv_value iv = VDec z 0)) ex_items).
  { repeat constructor; cbn [iv_item iv_bytes iv_value item_type]; try discriminate.
    - exists []. apply ex_compact; [|lia]. right. now eexists _, _; split; [reflexivity|left].
    - now exists 69.
    - now exists [].
    - now exists []. }
  split.
  - split; [split; [now left|]|split; [cbn; lia|split; [cbn; lia|split; [vm_compute; reflexivity|exact A]]]].
    unfold sig_wf. split; [now exists []|]. split; [constructor|]. split; [now exists []|]. split; [constructor|]. split; [reflexivity|]. split; [now exists []|]. split; [cbn; lia|].
    split; [now exists []|]. split; [reflexivity|]. split; [exact F|]. repeat constructor; cbn; intuition discriminate.
  - split; [split; [now right|]|split; [cbn; lia|split; [cbn; lia|split; [vm_compute; reflexivity|exact A]]]].
    unfold sig_wf. split; [now exists []|]. split; [constructor|]. split; [now exists []|]. split; [constructor|]. split; [now exists []|]. split; [now exists []|]. split; [cbn; lia|].
    split; [now exists []|]. split; [reflexivity|]. split; [exact F|]. repeat constructor; cbn; intuition discriminate.
Qed.
Definition ex_generic (version : Z) : generic := result ex_digest (ex_wire version) ex_entry 0.
Example ex_describes : describes (ex_generic 132) (ex_wire 132) /\ sig_writes ex_xenv ex_xopt (ex_sw 132) /\ writes_args ex_xenv ex_xopt ex_entry (compact 1000000) [VDec 1000000 0].
Proof.
  destruct (ex_scales true _ [] (or_introl eq_refl) eq_refl) as (S1 & S2 & S3 & S4 & S5 & S6 & S7). split; [vm_compute; intuition reflexivity|]. split.
  - split; [now exists []|]. split; [now exists []|]. split; [now exists []|]. split; [exists "U64"; res|]. split; [reflexivity|]. exists (XExtra (map fst ex_xexts) ex_xexts). split; [reflexivity|].
    split; [repeat constructor; cbn; intuition discriminate|]. exists (firstn 1 ex_items), (skipn 1 ex_items). split; [reflexivity|]. split; [reflexivity|]. split.
    + constructor; [|constructor]. exists 69. split; [reflexivity|]. exists []. apply ex_compact; [now left|lia].
    + repeat constructor; [exists "CheckMetadataHash", "u8"|exists "ChargeAssetTxPayment", "u16"]; (split; [reflexivity|split; [reflexivity|now exists []]]).
  - exists ([] ++ [])%list. rewrite <- (app_nil_r (compact 1000000)). constructor; [|constructor]. apply ex_compact; [|lia]. right. now eexists _, _; split; [reflexivity|left].
Qed.

(** What the theorems say of this transfer, computed. *)
Example C52_example :
  extrinsic_process 9 ex_xenv ex_digest ex_xopt (compact (blen (body_of (ex_wire 132))) ++ body_of (ex_wire 132)) = Ok (result ex_digest (ex_wire 132) ex_entry (blen (body_of (ex_wire 132)))) /\
  extrinsic_process 9 ex_xenv ex_digest ex_xopt (body_of (ex_wire 132)) = Ok (result ex_digest (ex_wire 132) ex_entry 0) /\
  extrinsic_process 9 ex_xenv ex_digest ex_xopt (body_of (ex_wire 133)) = Ok (result ex_digest (ex_wire 133) ex_entry 0) /\
  g_nonce (ex_generic 132) = 5 /\ g_tip (ex_generic 132) = (69, 0) /\ g_exts (ex_generic 132) = [("CheckMetadataHash", VInt 1); ("ChargeAssetTxPayment", VU16 3)] /\
  map xp_value (g_params (ex_generic 132)) = [VDec 1000000 0].
Proof. vm_compute. repeat split. Qed.
Example C38_example : ~ own_length (body_of (ex_wire 132)) /\ ~ own_length (body_of (ex_wire 133)).
Proof. split; vm_compute; discriminate. Qed.
Example C37_example :
  extrinsic_encode 9 ex_xenv ex_xopt (ex_generic 132) = Ok (Some (hex_encode (compact (blen (body_of (ex_wire 132))) ++ body_of (ex_wire 132)))).
Proof. vm_compute. reflexivity. Qed.

(** A bare version 5 extrinsic of a call without arguments in pallet 0: given
    without its length, its first two bytes are taken for a length of 1. *)
Definition ex_remark : entry mcall := Entry "System" (MCall "noop" [] 3).
Definition ex_bare : wire := Wire 5 None 0 3 [] [] [].
Definition ex_bare_opt : xopt := XOpt 100 "" 14 (Some (XExtra [] [])) [("0003", ex_remark)] [] [].
Theorem C52_bare_refuted : exists w en, wire_wf ex_xenv ex_bare_opt w en /\
  extrinsic_process 9 ex_xenv ex_digest ex_bare_opt (compact (blen (body_of w)) ++ body_of w) = Ok (result ex_digest w en (blen (body_of w))) /\
  extrinsic_process 9 ex_xenv ex_digest ex_bare_opt (body_of w) = Panic "Extrinsics version 03 is not support".
Proof.
  exists ex_bare, ex_remark. split; [|vm_compute; split; reflexivity].
  split; [now right|]. split; [cbn; lia|]. split; [cbn; lia|]. split; [reflexivity|]. exists []. constructor.
Qed.
Example C37_bare_hyps : exists g, describes g ex_bare /\ wire_wf ex_xenv ex_bare_opt ex_bare ex_remark /\ writes_args ex_xenv ex_bare_opt ex_remark (wi_args ex_bare) (wi_values ex_bare) /\
  extrinsic_encode 9 ex_xenv ex_bare_opt g = Ok (Some "0c050003").
Proof.
  exists (result ex_digest ex_bare ex_remark 0). split; [now repeat split|]. split; [|split; [exists []; constructor|vm_compute; reflexivity]].
  split; [now right|]. split; [cbn; lia|]. split; [cbn; lia|]. split; [reflexivity|]. exists []. constructor.
Qed.

(** ** What Encode loses *)
(** Of a signed version 5 extrinsic it writes neither signer nor signature. *)
Theorem C37_v5_refuted : exists g, extrinsic_process 9 ex_xenv ex_digest ex_xopt (body_of (ex_wire 133)) = Ok g /\
  extrinsic_encode 9 ex_xenv ex_xopt g = Ok (Some "1c85060002093d00").
Proof. exists (ex_generic 133). vm_compute. split; reflexivity. Qed.
(** The values of extensions are written in the order in which a map is
    walked: the same extrinsic has two encodings, one of which is wrong. *)
Definition reordered (g : generic) : generic :=
  Generic (g_version g) (g_length g) (g_address_type g) (g_tip g) (rev (g_exts g)) (g_account g) (g_signer g) (g_signature g) (g_signature_raw g)
    (g_nonce g) (g_era g) (g_hash g) (g_function g) (g_code g) (g_module g) (g_params g) (g_raw g) (g_ext_version g).
Theorem C37_order_refuted : exists g text r, extrinsic_process 9 ex_xenv ex_digest ex_xopt (body_of (ex_wire 132)) = Ok g /\
  extrinsic_encode 9 ex_xenv ex_xopt (reordered g) = Ok (Some text) /\
  extrinsic_process 9 ex_xenv ex_digest ex_xopt (HexToBytes text) = Ok r /\ assoc "CheckMetadataHash" (g_exts g) = Some (VInt 1) /\ assoc "CheckMetadataHash" (g_exts r) = Some (VInt 3).
Proof. eexists _, _, _. split; [vm_compute; reflexivity|]. split; [vm_compute; reflexivity|]. split; [vm_compute; reflexivity|]. vm_compute. split; reflexivity. Qed.
(** The tip is written before every extension, and read in its place. *)
Definition ex_late_opt : xopt :=
  XOpt 100 "" 14 (Some (XExtra ["CheckMetadataHash"; "ChargeTransactionPayment"] [("CheckMetadataHash", "u8"); ("ChargeTransactionPayment", "Compact<Balance>")])) ex_xcalls [] [].
Theorem C37_tip_refuted : exists g text r, let data := ([Zb 132] ++ sw_signer (ex_sw 132) ++ sw_sig (ex_sw 132) ++ [Zb 0] ++ compact 5 ++ le_bytes 1 1 ++ compact 20 ++ [Zb 6; Zb 0] ++ compact 1000000)%list in
  extrinsic_process 9 ex_xenv ex_digest ex_late_opt data = Ok g /\ g_tip g = (20, 0) /\
  extrinsic_encode 9 ex_xenv ex_late_opt g = Ok (Some text) /\ TrimHex text <> hex_encode (compact (blen data) ++ data) /\
  extrinsic_process 9 ex_xenv ex_digest ex_late_opt (HexToBytes text) = r /\ forall x, r <> Ok x.
Proof.
  eexists _, _, _. cbv zeta. split; [vm_compute; reflexivity|]. split; [vm_compute; reflexivity|]. split; [vm_compute; reflexivity|]. split; [vm_compute; discriminate|].
  split; [vm_compute; reflexivity|]. intros x. discriminate.
Qed.
(** Before V14 the signer is read as an Address and written as an AccountId,
    which is read differently when it begins with ff. *)
Definition ff_account : bytes := Zb 255 :: repeat (Zb 17) 31.
Definition ex_old_opt : xopt := XOpt 100 "" 13 (Some (XExtra ["ChargeTransactionPayment"] [("ChargeTransactionPayment", "Compact<Balance>")])) ex_xcalls [] [].
Theorem C37_address_refuted : exists g text, let data := ([Zb 132; Zb 255] ++ ff_account ++ sw_sig (ex_sw 132) ++ [Zb 0] ++ compact 5 ++ compact 20 ++ [Zb 6; Zb 0] ++ compact 1000000)%list in
  extrinsic_process 9 ex_xenv ex_digest ex_old_opt data = Ok g /\ g_signer g = VStr (hex_encode ff_account) /\
  extrinsic_encode 9 ex_xenv ex_old_opt g = Ok (Some text) /\ 
  HexToBytes text = (compact (blen data - 1) ++ [Zb 132] ++ ff_account ++ sw_sig (ex_sw 132) ++ [Zb 0] ++ compact 5 ++ compact 20 ++ [Zb 6; Zb 0] ++ compact 1000000)%list /\
  forall x, extrinsic_process 9 ex_xenv ex_digest ex_old_opt (HexToBytes text) <> Ok x.
Proof. eexists _, _. cbv zeta. split; [vm_compute; reflexivity|]. split; [vm_compute; reflexivity|]. split; [vm_compute; reflexivity|]. split; [vm_compute; reflexivity|]. intros x. vm_compute. discriminate. Qed.

Print Assumptions C38_hash.
Print Assumptions C52_decoded.
Print Assumptions C37_bare.
Print Assumptions C37_signed_partial.
