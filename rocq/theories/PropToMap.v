(** A decoded extrinsic as a map.  C91. *)

From Verif Require Import GoBase SpecNum ProofsBase ModelTools ProofsTools ModelVal ModelFloat ModelRegistry ModelDecode ModelBox ModelExtrinsic ModelToMap
  SpecScale ProofsForms PropInts PropFloat ProofsBox.

(** ** What a value is shown as *)
(** Numbers as the float64 of the same value (PropFloat.v, [float_bits_int]),
    decimals and big numbers above all as text, nil slices as nil, the rest
    as it is. *)
Definition int_of (v : val) (z : Z) : Prop := In v [VInt z; VI64 z; VI32 z; VI16 z; VI8 z; VU64 z; VU32 z; VU16 z; VU8 z; VBig z].
Inductive shown : val -> val -> Prop :=
| sh_nil : shown VNil VNil
| sh_bool b : shown (VBool b) (VBool b)
| sh_int v z : int_of v z -> Z.abs z < 2 ^ 53 -> shown v (VF64 (float_bits z))
| sh_dec z s : is_numeral s z -> shown (VDec z 0) (VStr s)
| sh_str s : utf8 (s2b s) -> shown (VStr s) (VStr s)
| sh_none : shown VNilSlice VNil
| sh_slice l l' : showns l l' -> shown (VSlice l) (VSlice l')
| sh_map ns l l' : Forall (fun n => utf8 (s2b n)) ns -> List.length ns = List.length l -> showns l l' -> shown (VMap (combine ns l)) (VMap (combine ns l'))
| sh_no_args : shown (VParams []) VNil
| sh_args args l l' : Forall (fun a => utf8 (s2b (fst a)) /\ utf8 (s2b (snd a))) args -> List.length args = List.length l -> l <> [] -> showns l l' ->
    shown (VParams (combine args l))
      (VSlice (map (fun p => VMap [("name", VStr (fst (fst p))); ("type", VStr (snd (fst p))); ("value", snd p)]) (combine args l')))
with showns : list val -> list val -> Prop :=
| shs_nil : showns [] []
| shs_cons v v' l l' : shown v v' -> showns l l' -> showns (v :: l) (v' :: l').
Scheme shown_ind2 := Induction for shown Sort Prop with showns_ind2 := Induction for showns Sort Prop.
Combined Scheme shown_all from shown_ind2, showns_ind2.

Lemma rat_neg n d : rat_f64 true n d = option_map (Z.add (2 ^ 63)) (rat_f64 false n d).
Proof.
  unfold rat_f64. cbv zeta. match goal with |- (if ?b then _ else _) = _ => destruct b end; [|reflexivity]. cbn [option_map]. apply f_equal. apply f_equal. symmetry. apply Z.add_0_l.
Qed.
Lemma float_neg z : z < 0 -> float_bits z = 2 ^ 63 + float_bits (- z).
Proof.
  intros N. unfold float_bits. replace (z =? 0) with false by lia. replace (- z =? 0) with false by lia. replace (z <? 0) with true by lia. replace (- z <? 0) with false by lia.
  rewrite Z.abs_opp. cbv zeta. rewrite Z.add_0_l. symmetry. apply Z.add_assoc.
Qed.
Lemma int_f64_exact z : Z.abs z < 2 ^ 53 -> int_f64 z = Some (float_bits z).
Proof.
  intros H. destruct (Z.leb_spec 0 z) as [P|N]; [apply int_f64_small; lia|].
  pose proof (int_f64_small (- z) ltac:(lia)) as E. rewrite float_neg by exact N. unfold int_f64 in *.
  replace (z =? 0) with false by lia. replace (- z =? 0) with false in E by lia. replace (z <? 0) with true by lia. replace (- z <? 0) with false in E by lia.
  rewrite Z.abs_opp in E. rewrite rat_neg, E. reflexivity.
Qed.
Lemma becomes_params args gs gs' : arg_texts args -> List.length args = List.length gs -> Forall2 becomes gs gs' -> becomes (VParams (combine args gs)) (args_val args gs').
Proof.
  intros T L A. destruct (becomes_list _ _ A) as (js & M & U & Dp). pose proof (same_length _ _ M) as L3. exists (args_json args js).
  split; [now apply marshal_params|]. split; [apply unmarshal_args; [exact T|congruence|exact U]|].
  rewrite nesting_params by exact L. pose proof (depth_args args js _ ltac:(congruence) Dp) as X. destruct js, gs; try discriminate; exact X.
Qed.
Lemma shown_becomes : (forall v v', shown v v' -> becomes v v') /\ (forall l l', showns l l' -> Forall2 becomes l l').
Proof.
  apply shown_all.
  - exact (proj1 image_nil).
  - intros b. exact (proj1 (image_bool b)).
  - intros v z I H. exists (JInt z). cbn [unmarshal]. rewrite int_f64_exact by exact H. unfold int_of in I. cbn [In] in I.
    repeat destruct I as [<-|I]; try contradiction; repeat split; cbn; lia.
  - intros z s N. exists (JStr s). cbn [marshal unmarshal]. rewrite dec_text_int, <- (numeral_itoa s z N). repeat split; cbn; lia.
  - intros s U. exact (proj1 (image_str s U)).
  - exists JNull. repeat split; cbn; lia.
  - intros l l' _ F. now apply becomes_slice.
  - intros ns l l' U L _ F. now apply becomes_map.
  - exists JNull. repeat split; cbn; lia.
  - intros args l l' T L N _ F. pose proof (becomes_params args l l' T L F) as B. unfold args_val in B. pose proof (same_length _ _ F) as L2.
    destruct args as [|a args], l as [|x l], l' as [|x' l']; try discriminate; [contradiction|]. exact B.
  - constructor.
  - intros v v' l l' _ B _ F. now constructor.
Qed.

(** ** The map of an extrinsic *)
Definition signed (g : generic) : bool := String.eqb (g_version g) "84" || String.eqb (g_version g) "85".
Definition texts_ok (g : generic) : Prop :=
  Forall (fun s => utf8 (s2b s)) [g_version g; g_address_type g; g_signature g; g_era g; g_hash g; g_function g; g_code g; g_module g; g_raw g]
  /\ Forall (fun p => utf8 (s2b (xp_name p)) /\ utf8 (s2b (xp_type p)) /\ utf8 (s2b (xp_tyname p))) (g_params g).
Definition numbers_ok (g : generic) : Prop := Forall (fun z => Z.abs z < 2 ^ 53) [g_length g; g_nonce g; g_ext_version g].
(** What the map says of a parameter. *)
Definition param_entry (p : xparam) (w : val) : val :=
  VMap [("name", VStr (xp_name p)); ("type", VStr (xp_type p)); ("type_name", VStr (xp_tyname p)); ("value", w)].
Ltac ascii := apply ascii_utf8; repeat constructor; vm_compute; reflexivity.
Theorem C91_map g tip exts acc signer sig ws : texts_ok g -> numbers_ok g -> snd (g_tip g) = 0 -> is_numeral tip (fst (g_tip g)) ->
  (if signed g then shown (VMap (g_exts g)) exts else exts = VNil) -> shown (g_account g) acc -> shown (g_signer g) signer -> shown (g_signature_raw g) sig ->
  showns (map xp_value (g_params g)) ws -> nesting (generic_val g) <= 10000 ->
  ToMap g = Some (VMap
    [("version_info", VStr (g_version g)); ("extrinsic_length", VF64 (float_bits (g_length g))); ("address_type", VStr (g_address_type g)); ("tip", VStr tip);
     ("signed_extensions", exts); ("account_id", acc); ("signer", signer); ("signature", VStr (g_signature g)); ("signature_raw", sig);
     ("nonce", VF64 (float_bits (g_nonce g))); ("era", VStr (g_era g)); ("extrinsic_hash", VStr (g_hash g)); ("call_module_function", VStr (g_function g));
     ("call_code", VStr (g_code g)); ("call_module", VStr (g_module g)); ("params", VSlice (map (fun p => param_entry (fst p) (snd p)) (combine (g_params g) ws)));
     ("params_raw", VStr (g_raw g)); ("transaction_extension_version", VF64 (float_bits (g_ext_version g)))]).
Proof.
  intros [T TP] N T0 TN EX AC SI SG PS D. destruct shown_becomes as [B Bs].
  repeat match goal with F : Forall _ (_ :: _) |- _ => inversion F; clear F; subst end. inversion N as [|? ? N1 N']; subst. inversion N' as [|? ? N2 N'']; subst. inversion N'' as [|? ? N3 _]; subst. clear N N' N''.
  assert (PB : becomes (VSlice (map param_val (g_params g))) (VSlice (map (fun p => param_entry (fst p) (snd p)) (combine (g_params g) ws)))).
  { apply becomes_slice. apply Bs in PS. clear - TP PS. revert ws PS. induction TP as [|p ps (Un & Ut & Uy) TP IH]; intros ws PS; cbn [map] in PS |- *; inversion PS as [|? w ? ws' Bw Fw]; subst; [constructor|].
    cbn [combine map fst snd]. constructor; [|now apply IH].
    apply (becomes_map ["name"; "type"; "type_name"; "value"] [VStr (xp_name p); VStr (xp_type p); VStr (xp_tyname p); xp_value p] [VStr (xp_name p); VStr (xp_type p); VStr (xp_tyname p); w]);
      [repeat (constructor; [ascii|]); constructor|reflexivity|].
    repeat constructor; try (apply image_str; assumption). exact Bw. }
  assert (EB : becomes (if signed g then VMap (g_exts g) else VNil) exts).
  { destruct (signed g); [now apply B|]. rewrite EX. exact (proj1 image_nil). }
  assert (I : forall z, Z.abs z < 2 ^ 53 -> becomes (VInt z) (VF64 (float_bits z))) by (intros z Hz; apply B; apply (sh_int _ z); [now left|exact Hz]).
  assert (TB : becomes (VDec (fst (g_tip g)) (snd (g_tip g))) (VStr tip)) by (rewrite T0; apply B; now constructor).
  match goal with |- ToMap g = Some ?m => assert (X : becomes (generic_val g) m) end.
  { unfold generic_val. fold (signed g).
    apply (becomes_map ["version_info"; "extrinsic_length"; "address_type"; "tip"; "signed_extensions"; "account_id"; "signer"; "signature"; "signature_raw"; "nonce"; "era"; "extrinsic_hash";
        "call_module_function"; "call_code"; "call_module"; "params"; "params_raw"; "transaction_extension_version"]
      [VStr (g_version g); VInt (g_length g); VStr (g_address_type g); VDec (fst (g_tip g)) (snd (g_tip g)); (if signed g then VMap (g_exts g) else VNil); g_account g; g_signer g;
       VStr (g_signature g); g_signature_raw g; VInt (g_nonce g); VStr (g_era g); VStr (g_hash g); VStr (g_function g); VStr (g_code g); VStr (g_module g);
       VSlice (map param_val (g_params g)); VStr (g_raw g); VInt (g_ext_version g)]
      [VStr (g_version g); VF64 (float_bits (g_length g)); VStr (g_address_type g); VStr tip; exts; acc; signer; VStr (g_signature g); sig; VF64 (float_bits (g_nonce g)); VStr (g_era g);
       VStr (g_hash g); VStr (g_function g); VStr (g_code g); VStr (g_module g); VSlice (map (fun p => param_entry (fst p) (snd p)) (combine (g_params g) ws)); VStr (g_raw g);
       VF64 (float_bits (g_ext_version g))]); [repeat (constructor; [ascii|]); constructor|reflexivity|].
    repeat (constructor; [first [assumption|now apply I|now apply B|apply image_str; assumption]|]). constructor. }
  destruct X as (j & M & U & DJ). unfold ToMap. rewrite M. replace (depth j <=? 10000) with true by (symmetry; apply Z.leb_le; lia). exact U.
Qed.

(** ** An extrinsic *)
Definition ex_params : list xparam :=
  [XParam "dest" "Address" "LookupSource" (VMap [("Id", VStr "0x01")]); XParam "calls" "Vec<Call>" "" (VSlice
     [VMap [("call_index", VStr "0001"); ("call_name", VStr "remark"); ("call_module", VStr "System"); ("params", VParams [("remark", "Bytes", VStr "hi")])]]);
   XParam "amount" "Balance" "" (VDec (2 ^ 100) 0); XParam "at" "u32" "" (VU32 7)].
Definition ex_generic (v : val) : generic :=
  Generic "84" 120 "Id" (69, 0) [("CheckMetadataHash", VStr "Disabled")] (VStr "0xaa") (VMap [("Id", VStr "0xaa")]) "0xbb" (VMap [("Ed25519", VStr "0xbb")]) 3 "00" "cc" "send" "0100" "Mod"
    (ex_params ++ [XParam "x" "" "" v])%list "dd" 0.
Example C91_example : exists exts acc signer sig ws, let g := ex_generic (VInt (-5)) in
  texts_ok g /\ numbers_ok g /\ snd (g_tip g) = 0 /\ is_numeral "69" (fst (g_tip g)) /\ signed g = true /\ shown (VMap (g_exts g)) exts /\ shown (g_account g) acc /\ shown (g_signer g) signer
  /\ shown (g_signature_raw g) sig /\ showns (map xp_value (g_params g)) ws /\ nesting (generic_val g) <= 10000
  /\ ws = [VMap [("Id", VStr "0x01")]; VSlice [VMap [("call_index", VStr "0001"); ("call_name", VStr "remark"); ("call_module", VStr "System");
                 ("params", VSlice [VMap [("name", VStr "remark"); ("type", VStr "Bytes"); ("value", VStr "hi")]])]];
           VStr "1267650600228229401496703205376"; VF64 (float_bits 7); VF64 (float_bits (-5))].
Proof.
  assert (ST : forall s, Forall (fun c => bZ c < 128) (s2b s) -> shown (VStr s) (VStr s)) by (intros s F; constructor; now apply ascii_utf8).
  assert (ID : forall k s, Forall (fun c => bZ c < 128) (s2b k) -> Forall (fun c => bZ c < 128) (s2b s) -> shown (VMap [(k, VStr s)]) (VMap [(k, VStr s)])).
  { intros k s K S. apply (sh_map [k] [VStr s] [VStr s]); [constructor; [now apply ascii_utf8|constructor]|reflexivity|]. constructor; [now apply ST|constructor]. }
  do 5 eexists. cbv zeta. split; [split; [repeat (constructor; [ascii|]); constructor|repeat (constructor; [repeat split; ascii|]); constructor]|].
  split; [repeat (constructor; [vm_compute; reflexivity|]); constructor|]. split; [reflexivity|]. split; [exact (itoa_numeral 69 ltac:(discriminate))|]. split; [reflexivity|].
  split; [apply ID; repeat constructor; vm_compute; reflexivity|]. split; [apply ST; repeat constructor; vm_compute; reflexivity|].
  split; [apply ID; repeat constructor; vm_compute; reflexivity|]. split; [apply ID; repeat constructor; vm_compute; reflexivity|].
  split; [|split; [vm_compute; discriminate|reflexivity]].
  cbn [ex_generic g_params ex_params app map xp_value]. constructor; [apply ID; repeat constructor; vm_compute; reflexivity|].
  constructor.
  { constructor. constructor; [|constructor].
    apply (sh_map ["call_index"; "call_name"; "call_module"; "params"] [VStr "0001"; VStr "remark"; VStr "System"; VParams [("remark", "Bytes", VStr "hi")]]
      [VStr "0001"; VStr "remark"; VStr "System"; VSlice [VMap [("name", VStr "remark"); ("type", VStr "Bytes"); ("value", VStr "hi")]]]); [repeat (constructor; [ascii|]); constructor|reflexivity|].
    repeat (constructor; [apply ST; repeat constructor; vm_compute; reflexivity|]). constructor; [|constructor].
    apply (sh_args [("remark", "Bytes")] [VStr "hi"] [VStr "hi"]); [constructor; [split; ascii|constructor]|reflexivity|discriminate|]. constructor; [apply ST; repeat constructor; vm_compute; reflexivity|constructor]. }
  constructor; [apply sh_dec; change "1267650600228229401496703205376" with (itoa (2 ^ 100)); apply itoa_numeral; vm_compute; discriminate|].
  constructor; [apply (sh_int _ 7); [unfold int_of; cbn [In]; tauto|vm_compute; reflexivity]|].
  constructor; [apply (sh_int _ (-5)); [now left|vm_compute; reflexivity]|constructor].
Qed.

(** ** Where it is not so *)
(** Two different numbers have one map. *)
Theorem C91_number_refuted : ToMap (ex_generic (VU64 (2 ^ 53))) = ToMap (ex_generic (VU64 (2 ^ 53 + 1))) /\ ToMap (ex_generic (VU64 (2 ^ 53))) <> None.
Proof. split; [vm_compute; reflexivity|vm_compute; discriminate]. Qed.
(** A float that is no number leaves no map at all. *)
Theorem C91_nan_refuted : ToMap (ex_generic (VF64 0x7ff8000000000000)) = None.
Proof. vm_compute. reflexivity. Qed.
Print Assumptions C91_map.
Print Assumptions C91_number_refuted.
Print Assumptions C91_nan_refuted.
