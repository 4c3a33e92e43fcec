(** C95: a struct is encoded from its declared fields; C96: the size of what is
    written for a type of fixed size. *)

From Verif Require Import GoBase SpecNum ProofsBase ModelTools ProofsTools ModelUint128 ModelJson ModelVal ModelFloat ModelRegistry ModelDecode ModelEncode
  ProofsRun SpecScale ProofsReads ProofsScale ProofsEncode ProofsApi PropCodec.

(** ** C95: other keys do not count *)
Lemma struct_step E spec md ts tm fuel m : std_env E -> resolves E (Ctx spec "" md) ts (CStruct (Some tm)) ->
  encode (S fuel) E spec md ts (VMap m) = (out <- concat_res (map (fun p => encode fuel E spec md (snd p) (map_get (fst p) m)) tm) ;; Ok (TrimHex (to_lower out))).
Proof.
  intros STD R. pose proof (not_null _ _ _ _ STD R ltac:(discriminate)) as NN. destruct R as (cd0 & sub & G & I). cbn [x_module x_spec] in G.
  cbn [encode]. rewrite NN, G. cbn [bind]. rewrite I. reflexivity.
Qed.
Lemma rows_same sub m m' : forall rows, (forall n t x, In (n :: t :: x) rows -> map_get n m = map_get n m') -> encode_rows sub rows m = encode_rows sub rows m'.
Proof.
  induction rows as [|r rows IH]; intros A; [reflexivity|]. destruct r as [|n [|t x]]; try reflexivity. cbn [encode_rows].
  rewrite (A n t x (or_introl eq_refl)), IH; [reflexivity|]. intros n' t' x' I. apply (A n' t' x'). now right.
Qed.
(** Two maps that agree on the declared fields have the same outcome, be it a
    text or a panic. *)
Theorem C95_fields E spec md ts tm m m' fuel : std_env E -> resolves E (Ctx spec "" md) ts (CStruct (Some tm)) ->
  (forall k, In k (map fst tm) -> assoc k m = assoc k m') -> encode fuel E spec md ts (VMap m) = encode fuel E spec md ts (VMap m').
Proof.
  intros STD R A. destruct fuel as [|f]; [reflexivity|]. rewrite !(struct_step _ _ _ _ tm) by assumption. f_equal. f_equal. apply map_ext_in. intros [n t] I. cbn [fst snd]. unfold map_get.
  rewrite (A n); [reflexivity|]. change n with (fst (n, t)). now apply in_map.
Qed.
(** The same for the fields of a variant. *)
Theorem C95_variant E spec md ts tm vl name i sub rows m m' fuel : std_env E -> resolves E (Ctx spec "" md) ts (CEnum (Some tm) vl) -> c_like tm = false ->
  name_index name 0 tm = Some (i, sub) -> struct_variant sub = Some rows -> (forall n t x, In (n :: t :: x) rows -> assoc n m = assoc n m') ->
  encode fuel E spec md ts (VMap [(name, VMap m)]) = encode fuel E spec md ts (VMap [(name, VMap m')]).
Proof.
  intros STD R CL NI SV A. destruct fuel as [|f]; [reflexivity|]. pose proof (not_null _ _ _ _ STD R ltac:(discriminate)) as NN. destruct R as (cd0 & sb & G & I). cbn [x_module x_spec] in G.
  cbn [encode]. rewrite NN, G. cbn [bind]. rewrite I. cbn [encode_codec]. unfold encode_enum. rewrite CL. cbn [encode_enum_map]. rewrite NI, SV.
  rewrite (rows_same _ m m' rows); [reflexivity|]. intros n t x J. unfold map_get. now rewrite (A n t x J).
Qed.

(** ** C95: missing fields *)
(** A field that is missing counts as nil. *)
Theorem C95_missing_nil E spec md ts tm k m fuel : std_env E -> resolves E (Ctx spec "" md) ts (CStruct (Some tm)) -> assoc k m = None ->
  encode fuel E spec md ts (VMap m) = encode fuel E spec md ts (VMap ((k, VNil) :: m)).
Proof.
  intros STD R A. destruct fuel as [|f]; [reflexivity|]. rewrite !(struct_step _ _ _ _ tm) by assumption. f_equal. f_equal. apply map_ext. intros [n t]. cbn [fst snd]. unfold map_get. cbn [assoc].
  destruct (String.eqb_spec n k) as [->|]; [now rewrite A|reflexivity].
Qed.
(** What is written for nil: zeros, an empty list or text, no bytes at all, or a
    panic ([None]). *)
Definition nothing (cd : codec) : option bytes :=
  match cd with
  | CU8 => Some (repeat (Zb 0) 1) | CU16 => Some (repeat (Zb 0) 2) | CU32 => Some (repeat (Zb 0) 4)
  | CU64 | CMoment | CSubstrateFixedU64 => Some (repeat (Zb 0) 8)
  | CCompactU32 | CCompactMoment => Some [Zb 0]
  | CBytes | COpaqueCall | CHexBytes | CString | COption _ | CVec _ | CBoundedVec _ => Some [Zb 0]
  | CBitVec => Some [Zb 4; Zb 0]
  | CEmpty | CH160 | CH256 | CH512 | CEthereumAddress | CAccountId | CEra | CU256 | CFixedU8 _ | CFixedArray _ _ | CEnum _ _ | CLogDigest => Some []
  | _ => None
  end.
Definition no_empty_name (cd : codec) : Prop :=
  match cd with CEnum tm vl => ~ In "" vl /\ match tm with Some tm => ~ In "" (map fst tm) | None => True end | _ => True end.
Lemma no_value E : forall vl i, ~ In "" vl -> value_list_index E (VStr "") i vl = Ok "".
Proof.
  induction vl as [|s vl IH]; intros i N; [reflexivity|]. cbn [value_list_index]. destruct (String.eqb_spec (ToString E (VStr "")) s) as [e|_].
  - exfalso. apply N. left. rewrite <- e. reflexivity.
  - apply IH. intros J. apply N. now right.
Qed.
Lemma no_name : forall tm i, ~ In "" (map fst tm) -> name_index "" i tm = None.
Proof.
  induction tm as [|[n t] tm IH]; intros i N; [reflexivity|]. cbn [name_index map fst In] in *. destruct (String.eqb_spec n ""); [tauto|]. apply IH. tauto.
Qed.
Lemma no_c_like E : forall tm, ~ In "" (map fst tm) -> c_like_index E (VStr "") tm = None.
Proof.
  induction tm as [|[n t] tm IH]; intros N; [reflexivity|]. cbn [c_like_index map fst In] in *. destruct (String.eqb_spec n (ToString E (VStr ""))) as [e|_]; [|apply IH; tauto].
  exfalso. apply N. left. rewrite e. reflexivity.
Qed.
Lemma codec_nothing E spec md cd f : std_env E -> (1 <= f)%nat -> no_empty_name cd ->
  match nothing cd with
  | Some b => exists s, encode_codec E (encode f E) spec md cd (VStr "") = Ok s /\ TrimHex (to_lower s) = hex_encode b
  | None => exists m, encode_codec E (encode f E) spec md cd (VStr "") = Panic m
  end.
Proof.
  intros STD F U. destruct f as [|f]; [lia|]. pose proof (enc_len E STD 0 f ltac:(lia)) as L0. pose proof (enc_len E STD 1 f ltac:(lia)) as L1.
  destruct cd; cbn [nothing]; cbn [encode_codec]; try (eexists; split; [reflexivity|vm_compute; reflexivity]); try (eexists; reflexivity).
  all: try (cbn [on_string]; unfold encode_bytes, encode_hex_bytes, encode_string; cbn [has_prefix pad_even]).
  all: try (change (List.length (HexToBytes (BytesToHex (s2b "")))) with 0%nat; rewrite L0; cbn [bind]; eexists; split; [reflexivity|vm_compute; reflexivity]).
  - exists "". split; [|reflexivity]. destruct U as [U1 U2]. unfold encode_enum. destruct tm as [tm|]; [|now apply no_value].
    rewrite (no_c_like E tm U2), (no_name tm 0 U2). destruct (c_like tm); now apply no_value.
  - change (if has_prefix "" "0x" then pad_even (TrimHex "") else BytesToHex (s2b "")) with "". change (List.length (HexToBytes "")) with 0%nat. rewrite L0. cbn [bind]. eexists. split; [reflexivity|vm_compute; reflexivity].
  - change (pad_even (TrimHex "")) with "". change (List.length (HexToBytes "")) with 0%nat. rewrite L0. cbn [bind]. eexists. split; [reflexivity|vm_compute; reflexivity].
  - change (String.length "") with 0%nat. rewrite L0. cbn [bind]. eexists. split; [reflexivity|vm_compute; reflexivity].
  - change (if has_prefix "" "0x" then pad_even (TrimHex "") else BytesToHex (s2b "")) with "". change (List.length (HexToBytes "")) with 0%nat. rewrite L0. cbn [bind]. eexists. split; [reflexivity|vm_compute; reflexivity].
  - unfold encode_call. destruct md; eexists; reflexivity.
  - unfold encode_bitvec. change (map (fun v => Zb (parse_bin8 v)) (split_char "_"%char (trim_prefix "" "0b"))) with [Zb 0]. cbn [List.length]. rewrite L1. cbn [bind]. eexists. split; [reflexivity|vm_compute; reflexivity].
  - unfold encode_int_fixed. destruct (n <? 16); eexists; reflexivity.
Qed.
(** The outcome of a missing value, for every decoder. *)
Theorem C95_absent E spec md ts cd : std_env E -> resolves E (Ctx spec "" md) ts cd -> cd <> CNull -> no_empty_name cd ->
  match nothing cd with
  | Some b => Encodes E spec md ts VNil (hex_encode b)
  | None => exists m, EncodesTo E spec md ts VNil (Panic m)
  end.
Proof.
  intros STD R N U. pose proof (fun f => codec_nothing E spec md cd f STD) as K.
  destruct (nothing cd) as [b|] eqn:Q.
  - split; [discriminate|]. pose proof (not_null _ _ _ _ STD R N) as NN. destruct R as (cd0 & sub & G & I). cbn [x_module x_spec] in G. exists 2%nat. intros f F. destruct f as [|f]; [lia|].
    destruct (K f ltac:(lia) U) as (s & H & T). cbn [encode]. rewrite NN, G. cbn [bind]. rewrite I, H. cbn [bind]. now rewrite T.
  - pose proof (not_null _ _ _ _ STD R N) as NN. destruct R as (cd0 & sub & G & I). cbn [x_module x_spec] in G.
    assert (X : exists m, forall f, (1 <= f)%nat -> encode_codec E (encode f E) spec md cd (VStr "") = Panic m).
    { destruct cd; cbn [nothing] in Q; try discriminate Q; cbn [encode_codec]; try (eexists; intros; reflexivity); try contradiction.
      - unfold encode_call. destruct md; eexists; intros; reflexivity.
      - unfold encode_int_fixed. destruct (n <? 16); eexists; intros; reflexivity. }
    destruct X as [m X]. exists m. split; [discriminate|]. exists 2%nat. intros f F. destruct f as [|f]; [lia|]. cbn [encode]. rewrite NN, G. cbn [bind]. rewrite I, X by lia. reflexivity.
Qed.
(** Full claim: a map that lacks a declared field is refused.  This holds when
    the type of the field refuses nil. *)
Lemma concat_one l s : concat_res l = Ok s -> forall r, In r l -> exists t, r = Ok t.
Proof.
  revert s. induction l as [|r l IH]; intros s H; [contradiction|]. cbn [concat_res] in H. destruct r as [t|m|]; try discriminate H. cbn [bind] in H. destruct (concat_res l) as [u|m|] eqn:Q; try discriminate H.
  intros r' [<-|I]; [now exists t|]. now apply (IH u).
Qed.
Theorem C95_refused_partial E spec md ts tm m n t cd : std_env E -> resolves E (Ctx spec "" md) ts (CStruct (Some tm)) -> In (n, t) tm -> assoc n m = None ->
  resolves E (Ctx spec "" md) t cd -> cd <> CNull -> no_empty_name cd -> nothing cd = None ->
  forall fuel s, encode fuel E spec md ts (VMap m) <> Ok s.
Proof.
  intros STD R I A RT N U Q fuel s H. destruct fuel as [|f]; [discriminate H|]. rewrite (struct_step _ _ _ _ tm) in H by assumption.
  destruct (concat_res (map (fun p => encode f E spec md (snd p) (map_get (fst p) m)) tm)) as [o|?|] eqn:C; try discriminate H.
  destruct (concat_one _ _ C (encode f E spec md t VNil)) as [x X].
  { apply in_map_iff. exists (n, t). split; [|exact I]. cbn [fst snd]. unfold map_get. now rewrite A. }
  pose proof (C95_absent E spec md t cd STD RT N U) as K. rewrite Q in K. destruct K as (msg & _ & f0 & K).
  destruct (encode_enough E spec md t VNil f _ X ltac:(discriminate)) as (_ & f1 & K1).
  specialize (K (Nat.max f0 f1) ltac:(lia)). specialize (K1 (Nat.max f0 f1) ltac:(lia)). congruence.
Qed.

(** Two transfers: in the first the receiver is missing, in the second the
    amount.  Neither is refused; the first text is 32 bytes short. *)
Definition fld_rows : string := Eval vm_compute in
  let q := String (Zb 34) "" in "[[" ++ q ++ "n" ++ q ++ "," ++ q ++ "u8" ++ q ++ "],[" ++ q ++ "amount" ++ q ++ "," ++ q ++ "u32" ++ q ++ "]]".
Definition fld_env : env := Env [("u8", CU8); ("u32", CU32); ("bool", CBool); ("h256", CH256); ("null", CNull); ("option", COption ""); ("compact<u32>", CCompactU32); ("u256", CU256); ("[u8; 4]", CFixedU8 4);
  ("choice", CEnum (Some [("A", "u8"); ("B", "u8")]) []); ("act", CEnum (Some [("Stop", "u8"); ("Pay", fld_rows)]) []); ("pair", CFixedArray 2 "Flagged"); ("flagged", CStruct (Some [("flag", "bool"); ("n", "u8")]));
  ("pay", CStruct (Some [("to", "H256"); ("amount", "u32")])); ("outer", CStruct (Some [("n", "u8"); ("inner", "Flagged")]))] [] (fun _ => "") (fun b => b) (fun _ => None).
Lemma fld_std : std_env fld_env.
Proof. intros k cd I. cbn [In] in I. destruct I as [[= <- <-]|[[= <- <-]|[[= <- <-]|[]]]]; now split. Qed.
Ltac fld_res := eexists _, _; split; [vm_compute; reflexivity|reflexivity].
Ltac fld_enc := apply (encode_enough _ _ _ _ _ 5); [vm_compute; reflexivity|discriminate].
Theorem C95_missing_refuted : exists E ts tm, std_env E /\ resolves E (Ctx 5 "" None) ts (CStruct (Some tm)) /\ map fst tm = ["to"; "amount"] /\
  Encodes E 5 None ts (VMap [("amount", VInt 7)]) "07000000" /\
  Encodes E 5 None ts (VMap [("to", VStr "0x1111111111111111111111111111111111111111111111111111111111111111")]) "111111111111111111111111111111111111111111111111111111111111111100000000".
Proof. exists fld_env, "Pay", [("to", "H256"); ("amount", "u32")]. split; [exact fld_std|]. split; [fld_res|]. split; [reflexivity|]. split; fld_enc. Qed.
Example C95_example : resolves fld_env (Ctx 5 "" None) "Flagged" (CStruct (Some [("flag", "bool"); ("n", "u8")])) /\ nothing CBool = None /\
  Encodes fld_env 5 None "Flagged" (VMap [("flag", VBool true); ("n", VInt 7); ("other", VNil)]) "0107" /\
  exists m, EncodesTo fld_env 5 None "Flagged" (VMap [("n", VInt 7)]) (Panic m).
Proof. split; [fld_res|]. split; [reflexivity|]. split; [fld_enc|]. eexists. fld_enc. Qed.
Example C95_variant_example : resolves fld_env (Ctx 5 "" None) "Act" (CEnum (Some [("Stop", "u8"); ("Pay", fld_rows)]) []) /\
  struct_variant fld_rows = Some [["n"; "u8"]; ["amount"; "u32"]] /\
  Encodes fld_env 5 None "Act" (VMap [("Pay", VMap [("other", VNil); ("amount", VInt 258); ("n", VInt 7)])]) "010702010000".
Proof. split; [fld_res|]. split; [reflexivity|]. fld_enc. Qed.

(** ** C96: types of fixed size *)
(** The sizes, in bytes, of numbers and bool. *)
Definition number_sizes : list (codec * nat) :=
  [(CU8, 1%nat); (CU16, 2%nat); (CU32, 4%nat); (CU64, 8%nat); (CMoment, 8%nat); (CU128, 16%nat); (CBalance, 16%nat); (CBool, 1%nat);
   (CIntFixed 1, 1%nat); (CIntFixed 2, 2%nat); (CIntFixed 4, 4%nat); (CIntFixed 8, 8%nat); (CIntFixed 16, 16%nat); (CIntFixed 32, 32%nat)].
(** Types made of them by structs and tuples, with their sizes. *)
Inductive sized (E : env) (c : ctx) : string -> nat -> Prop :=
| sz_number ts cd n : resolves E c ts cd -> In (cd, n) number_sizes -> sized E c ts n
| sz_struct ts tm ns : resolves E c ts (CStruct (Some tm)) -> Forall2 (sized E c) (map snd tm) ns -> sized E c ts (fold_right Nat.add 0%nat ns).

Lemma written b n s : List.length b = n -> Ok (hex_encode b) = Ok s -> exists bs, List.length bs = n /\ s = hex_encode bs.
Proof. intros L [= <-]. now exists b. Qed.
Lemma int_bytes_length z n b : 0 <= n -> BigIntToIntBytes z n = Ok b -> List.length b = Z.to_nat n.
Proof.
  intros N. unfold BigIntToIntBytes. cbv zeta. generalize (2 ^ (8 * n - 1)). intros P H. destruct (0 <=? z).
  - destruct (P - 1 <? z); [discriminate H|]. injection H as <-. now rewrite rev_length, le_bytes_length.
  - destruct (P <? - z); [discriminate H|]. injection H as <-. now rewrite map_length, rev_length, le_bytes_length.
Qed.
Lemma number_size E rec spec md cd n v s : In (cd, n) number_sizes -> encode_codec E rec spec md cd v = Ok s -> exists bs, List.length bs = n /\ s = hex_encode bs.
Proof.
  assert (FIX : forall k v s, 0 <= k -> encode_int_fixed k v = Ok s -> exists bs, List.length bs = Z.to_nat k /\ s = hex_encode bs).
  { clear. intros k v s K H. unfold encode_int_fixed in H. destruct (k <? 16) eqn:K16.
    - destruct (fixed_bytes v) as [b|]; [|discriminate H]. eapply written; [|exact H]. rewrite firstn_length, app_length, repeat_length. lia.
    - assert (PUT : forall z, (b <- BigIntToIntBytes z k ;; Ok (BytesToHex b)) = Ok s -> exists bs, List.length bs = Z.to_nat k /\ s = hex_encode bs).
      { intros z P. destruct (BigIntToIntBytes z k) as [b|?|] eqn:B; try discriminate P. eapply written; [|exact P]. now apply (int_bytes_length z). }
      destruct v; try discriminate H; try (now apply (PUT _ H)).
      + destruct (NewFromFloat bits) as [[a e]|?|]; try discriminate H. now apply (PUT _ H).
      + destruct (dec_of_string s0) as [[a e]|]; [now apply (PUT _ H)|discriminate H]. }
  assert (BIG : forall z, (u <- FromBig z ;; Ok (BytesToHex (PutBytes u))) = Ok s -> exists bs, List.length bs = 16%nat /\ s = hex_encode bs).
  { intros z P. destruct (FromBig z) as [u|?|]; try discriminate P. eapply written; [|exact P]. unfold PutBytes. now rewrite app_length, !le_bytes_length. }
  assert (U128 : encode_u128 v = Ok s -> exists bs, List.length bs = 16%nat /\ s = hex_encode bs).
  { intros H. unfold encode_u128 in H. cbv zeta in H. destruct v; try discriminate H; try (now apply (BIG _ H)).
    destruct (dec_of_string s0) as [[a e]|]; [now apply (BIG _ H)|discriminate H]. }
  intros I H. cbn [number_sizes In] in I. repeat match type of I with _ \/ _ => destruct I as [I|I] end; try contradiction; injection I as <- <-; cbn [encode_codec] in H.
  all: try (exact (U128 H)).
  all: try (match type of H with encode_int_fixed ?k _ = _ => exact (FIX k v s ltac:(lia) H) end).
  all: try (match type of H with encode_u8 _ = _ => unfold encode_u8, U8Encode in H; destruct v; eapply written; try exact H; reflexivity end).
  all: try (unfold encode_u16, encode_u32, encode_u64 in H; destruct v; try discriminate H; (eapply written; [|exact H]); apply le_bytes_length).
  destruct v; try discriminate H. destruct b; injection H as <-; [now exists [Zb 1]|now exists [Zb 0]].
Qed.
Lemma fields_size sub (tm : typemap) ns m o : Forall2 (fun t n => forall v s, sub t v = Ok s -> exists bs, List.length bs = n /\ s = hex_encode bs) (map snd tm) ns ->
  concat_res (map (fun p => sub (snd p) (map_get (fst p) m)) tm) = Ok o -> exists bs, List.length bs = fold_right Nat.add 0%nat ns /\ o = hex_encode bs.
Proof.
  revert ns o. induction tm as [|[k t] tm IH]; intros ns o F H; cbn [map] in F; inversion F as [|? n ? ns' F1 F2]; subst; cbn [map concat_res fst snd] in H.
  - injection H as <-. now exists [].
  - destruct (sub t (map_get k m)) as [x|?|] eqn:X; try discriminate H. cbn [bind] in H.
    destruct (concat_res (map (fun p => sub (snd p) (map_get (fst p) m)) tm)) as [y|?|] eqn:Y; try discriminate H. injection H as <-.
    destruct (F1 _ _ X) as (b1 & L1 & ->). destruct (IH _ _ F2 eq_refl) as (b2 & L2 & ->). exists (b1 ++ b2)%list. split; [rewrite app_length; cbn [fold_right]; lia|symmetry; apply hex_encode_app].
Qed.
(** Whatever value is given: if a text is returned, it is that many bytes. *)
Theorem C96_size_partial E spec md ts n v s : std_env E -> sized E (Ctx spec "" md) ts n -> Encodes E spec md ts v s -> exists bs, List.length bs = n /\ s = hex_encode bs.
Proof.
  intros STD SZ (_ & f & H). specialize (H f (Nat.le_refl f)). revert ts n v s SZ H. induction f as [|f IH]; intros ts n v s SZ H; [discriminate H|]. inversion SZ as [? cd ? R I|? tm ns R F]; subst.
  - assert (NN : cd <> CNull) by (intros ->; cbn in I; intuition discriminate). pose proof (not_null _ _ _ _ STD R NN) as EN. destruct R as (cd0 & sub & G & J). cbn [x_module x_spec] in G.
    cbn [encode] in H. rewrite EN, G in H. cbn [bind] in H. rewrite J in H. destruct (encode_codec E (encode f E) spec md cd _) as [o|?|] eqn:O; try discriminate H. cbn [bind] in H.
    destruct (number_size _ _ _ _ _ _ _ _ I O) as (bs & L & ->). rewrite trim_lower_hex in H. injection H as <-. now exists bs.
  - destruct v.
    all: try (exfalso; pose proof (not_null _ _ _ _ STD R ltac:(discriminate)) as EN; destruct R as (cd0 & sub & G & J); cbn [x_module x_spec] in G; cbn [encode] in H; rewrite EN, G in H; cbn [bind] in H; rewrite J in H; discriminate H).
    rewrite (struct_step _ _ _ _ tm) in H by assumption. destruct (concat_res _) as [o|?|] eqn:O; try discriminate H. cbn [bind] in H.
    destruct (fields_size (encode f E spec md) tm ns m o) as (bs & L & ->); [|exact O|rewrite trim_lower_hex in H; injection H as <-; now exists bs].
    clear -IH F. induction F as [|t k ts ks K F IHF]; constructor; [|exact IHF]. intros v' s' H'. now apply (IH t k v' s').
Qed.
(** An array given as a list of that many values. *)
Theorem C96_array_partial E spec md ts k t n l s : std_env E -> resolves E (Ctx spec "" md) ts (CFixedArray k t) -> sized E (Ctx spec "" md) t n ->
  Encodes E spec md ts (VSlice l) s -> Z.of_nat (List.length l) = k /\ exists bs, List.length bs = (List.length l * n)%nat /\ s = hex_encode bs.
Proof.
  intros STD R SZ (_ & f & H). specialize (H (S f) ltac:(lia)). pose proof (not_null _ _ _ _ STD R ltac:(discriminate)) as EN. destruct R as (cd0 & sub & G & J). cbn [x_module x_spec] in G.
  cbn [encode] in H. rewrite EN, G in H. cbn [bind] in H. rewrite J in H. cbn [encode_codec elements] in H. destruct (Z.eqb_spec (Z.of_nat (List.length l)) k) as [K|K]; [|discriminate H]. split; [exact K|]. clear K G J.
  destruct (concat_res _) as [o|?|] eqn:O; try discriminate H. cbn [bind] in H.
  assert (X : exists bs, List.length bs = (List.length l * n)%nat /\ o = hex_encode bs).
  { clear H s. revert o O. induction l as [|v l IH]; intros o O; cbn [map concat_res] in O; [injection O as <-; now exists []|].
    destruct (encode f E spec md t v) as [x|?|] eqn:X; try discriminate O. cbn [bind] in O. destruct (concat_res (map _ l)) as [y|?|] eqn:Y; try discriminate O. injection O as <-.
    destruct (C96_size_partial E spec md t n v x STD SZ) as (b1 & L1 & ->); [now apply (encode_enough _ _ _ _ _ f)|]. destruct (IH _ eq_refl) as (b2 & L2 & ->).
    exists (b1 ++ b2)%list. split; [rewrite app_length; cbn [List.length]; lia|symmetry; apply hex_encode_app]. }
  destruct X as (bs & L & ->). rewrite trim_lower_hex in H. injection H as <-. now exists bs.
Qed.
(** Texts are copied whatever their length: a hash of one byte, four bytes given
    as two, a number over 2^256, and a variant that the enum does not have. *)
Theorem C96_size_refuted : exists E, std_env E /\ resolves E (Ctx 5 "" None) "H256" CH256 /\ Encodes E 5 None "H256" (VStr "0x01") "01" /\
  resolves E (Ctx 5 "" None) "[u8; 4]" (CFixedU8 4) /\ Encodes E 5 None "[u8; 4]" (VStr "ab") "6162" /\
  Encodes E 5 None "U256" (VBig (16 ^ 65)) "000000000000000000000000000000000000000000000000000000000000000010" /\
  Encodes E 5 None "Choice" (VStr "C") "".
Proof. exists fld_env. split; [exact fld_std|]. split; [fld_res|]. split; [fld_enc|]. split; [fld_res|]. split; [fld_enc|]. split; fld_enc. Qed.
Example C96_example : sized fld_env (Ctx 5 "" None) "Outer" 3 /\ Encodes fld_env 5 None "Outer" (VMap [("n", VStr "not a number"); ("inner", VMap [("flag", VBool true); ("n", VDec 515 (-1))])]) "000133".
Proof.
  split; [|fld_enc]. apply (sz_struct fld_env (Ctx 5 "" None) "Outer" [("n", "u8"); ("inner", "Flagged")] [1; 2]%nat); [fld_res|]. cbn [map snd].
  constructor; [apply (sz_number _ _ _ CU8); [fld_res|cbn; tauto]|]. constructor; [|constructor].
  apply (sz_struct fld_env (Ctx 5 "" None) "Flagged" [("flag", "bool"); ("n", "u8")] [1; 1]%nat); [fld_res|]. cbn [map snd].
  constructor; [apply (sz_number _ _ _ CBool); [fld_res|cbn; tauto]|]. constructor; [apply (sz_number _ _ _ CU8); [fld_res|cbn; tauto]|constructor].
Qed.
Example C96_array_example : resolves fld_env (Ctx 5 "" None) "Pair" (CFixedArray 2 "Flagged") /\
  Encodes fld_env 5 None "Pair" (VSlice [VMap [("flag", VBool true)]; VMap [("flag", VBool false); ("n", VInt 256)]]) "01000000".
Proof. split; [fld_res|]. fld_enc. Qed.
Print Assumptions C95_fields.
Print Assumptions C95_variant.
Print Assumptions C95_missing_nil.
Print Assumptions C95_absent.
Print Assumptions C95_refused_partial.
Print Assumptions C95_missing_refuted.
Print Assumptions C96_size_partial.
Print Assumptions C96_array_partial.
Print Assumptions C96_size_refuted.
