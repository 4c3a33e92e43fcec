(** Property C93: types that Compare takes for the same have the same bytes. *)

From Verif Require Import GoBase SpecNum ProofsBase ModelTools ProofsTools ModelVal ModelJson ModelRegistry ModelDecode ModelRegister ModelCompare SpecScale SpecShape
  ProofsEncode ProofsTexts PropTerm PropDescribe PropCompare PropCodec.

(** ** The shape of a registered type *)
Definition leaf_codecs : list (codec * leaf) :=
  [(CNull, LNull); (CBool, LBool); (CU8, LU8); (CU16, LU16); (CU32, LU32); (CU64, LU64); (CU128, LU128); (CBalance, LU128);
   (CIntFixed 2, LI16); (CIntFixed 4, LI32); (CIntFixed 8, LI64); (CIntFixed 16, LI128); (CIntFixed 32, LI256);
   (CH160, LH160); (CH256, LH256); (CH512, LH512); (CAccountId, LAccount); (CBytes, LBytes); (CHexBytes, LBytes); (CString, LString)].
Definition compact_leaves : list (string * codec * leaf) :=
  [("u64", CU64, LCompact64); ("u128", CU128, LCompact128); ("balance", CBalance, LCompactBalance)].
Section Formed.
Variable E : env.
Inductive formed : string -> shape -> Prop :=
| fo_type ts cd s : plain E ts cd -> shaped cd s -> formed ts s
with shaped : codec -> shape -> Prop :=
| sh_leaf cd l : In (cd, l) leaf_codecs -> shaped cd (SLeaf l)
| sh_ethereum : (forall b, List.length b = 40%nat -> (20 <= List.length (e_keccak E b))%nat) -> shaped CEthereumAddress (SLeaf LH160)
| sh_compact sub cd l : In (to_lower sub, cd, l) compact_leaves -> plain E sub cd -> shaped (CCompact sub) (SLeaf l)
| sh_option sub s : sub <> "" -> sub <> "bool" -> formed sub s -> shaped (COption sub) (SOption s)
| sh_vec sub s : formed sub s -> shaped (CVec sub) (SVec s)
| sh_array n sub s : Zpos n < 2 ^ 63 -> (equal_fold sub "u8" = true -> s = SLeaf LU8) -> formed sub s -> shaped (CFixedArray (Zpos n) sub) (SArray n s)
| sh_fixed n : Zpos n < 2 ^ 63 -> shaped (CFixedU8 (Zpos n)) (SArray n (SLeaf LU8))
| sh_map sub a b k v : split_char ","%char sub = [a; b] -> formed a k -> formed b v -> shaped (CBTreeMap sub) (SMap k v)
| sh_result sub a b k v : split_char ","%char sub = [a; b] -> formed a k -> formed b v -> shaped (CResult sub) (SResult k v)
| sh_struct tm l : NoDup (map fst tm) -> formeds (map snd tm) l -> shaped (CStruct (Some tm)) (SStruct l)
| sh_enum tm vl l : c_like tm = false -> Forall (fun p => snd p <> "" /\ struct_variant (snd p) = None) tm -> formeds (map snd tm) l -> shaped (CEnum (Some tm) vl) (SEnum l)
with formeds : list string -> shapes -> Prop :=
| fs_one t s : formed t s -> formeds [t] (SOne s)
| fs_more t s ts l : formed t s -> formeds ts l -> formeds (t :: ts) (SMore s l).
End Formed.
Scheme formed_ind2 := Minimality for formed Sort Prop with shaped_ind2 := Minimality for shaped Sort Prop with formeds_ind2 := Minimality for formeds Sort Prop.
Combined Scheme formed_mutind from formed_ind2, shaped_ind2, formeds_ind2.

(** Structs and enums five deep at most; arrays, maps and results count from the start. *)
Fixpoint fits (d : Z) (s : shape) : Prop :=
  match s with
  | SLeaf _ => True
  | SOption s | SVec s => fits d s
  | SArray _ s => fits 0 s
  | SMap k v | SResult k v => fits 0 k /\ fits 0 v
  | SStruct l | SEnum l => d < 5 /\ fits_all (d + 1) l
  end
with fits_all (d : Z) (l : shapes) : Prop := match l with SOne s => fits d s | SMore s r => fits d s /\ fits_all d r end.

(** ** The description of a shape, in lower case *)
Definition leaf_name (l : leaf) : string :=
  match l with
  | LNull => "null" | LBool => "bool" | LU8 => "u8" | LU16 => "u16" | LU32 => "u32" | LU64 => "u64" | LU128 => "u128"
  | LI16 => "int<16>" | LI32 => "int<32>" | LI64 => "int<64>" | LI128 => "int<128>" | LI256 => "int<256>"
  | LH160 => "h160" | LH256 => "h256" | LH512 => "h512" | LAccount => "accountid" | LBytes => "bytes" | LString => "string"
  | LCompact64 => "compact<u64>" | LCompact128 => "compact<u128>" | LCompactBalance => "compact<balance>"
  end.
Fixpoint said (s : shape) : string :=
  match s with
  | SLeaf l => leaf_name l
  | SOption s => "option<" ++ said s ++ ">"
  | SVec s => "vec<" ++ said s ++ ">"
  | SArray n s => "[" ++ itoa (Zpos n) ++ ";" ++ said s ++ "]"
  | SMap k v => "btreemap<" ++ said k ++ "," ++ said v ++ ">"
  | SResult k v => "results<" ++ said k ++ "," ++ said v ++ ">"
  | SStruct l => "struct(" ++ said_all l ++ ")"
  | SEnum l => "enum(" ++ said_all l ++ ")"
  end
with said_all (l : shapes) : string := match l with SOne s => said s | SMore s r => said s ++ "," ++ said_all r end.

Lemma describe_le E f g ts rt r : (f <= g)%nat -> getTypeStructString f E ts rt = Ok r -> getTypeStructString g E ts rt = Ok r.
Proof. intros L H. exact (describe_more E f g L _ _ _ H ltac:(discriminate)). Qed.
Lemma describe_plain E f ts cd rt : plain E ts cd -> getTypeStructString (S f) E ts rt = codec_string (getTypeStructString f E) rt ts cd.
Proof. intros (c0 & sub & G & <-). cbn [getTypeStructString x_module x_spec] in *. rewrite G. reflexivity. Qed.
Lemma concat_all rs : forall acc, concat_sep "," (map Ok rs) acc = Ok (join "," (rev acc ++ rs)%list).
Proof.
  induction rs as [|r rs IH]; intros acc; cbn [map concat_sep bind]; [now rewrite app_nil_r|]. rewrite IH. cbn [rev]. now rewrite <- app_assoc.
Qed.
Lemma describes_formed E :
  (forall ts s, formed E ts s -> forall rt, 0 <= rt -> fits rt s -> exists f r, getTypeStructString f E ts rt = Ok r /\ to_lower r = said s) /\
  (forall cd s, shaped E cd s -> forall ts rt, 0 <= rt -> fits rt s -> exists f r, codec_string (getTypeStructString f E) rt ts cd = Ok r /\ to_lower r = said s) /\
  (forall tys l, formeds E tys l -> forall rt, 0 <= rt -> fits_all rt l -> exists f rs, map (fun t => getTypeStructString f E t rt) tys = map Ok rs /\ tys <> [] /\ to_lower (join "," rs) = said_all l).
Proof.
  apply formed_mutind.
  - intros ts cd s P _ IH rt R F. destruct (IH ts rt R F) as (f & r & H & L). exists (S f), r. split; [|exact L]. now rewrite (describe_plain _ _ _ _ _ P).
  - intros cd l I ts rt _ _. exists O. cbn in I. decompose [or] I; try contradiction; match goal with H : (_, _) = (_, _) |- _ => injection H as <- <- end; eexists; split; reflexivity.
  - intros _ ts rt _ _. exists O, "H160". now split.
  - intros sub cd l I _ ts rt _ _. exists O, ("Compact<" ++ sub ++ ">"). split; [reflexivity|]. rewrite !to_lower_app. cbn in I.
    decompose [or] I; try contradiction; match goal with H : (_, _, _) = (_, _, _) |- _ => injection H as Q _ <- end; rewrite <- Q; reflexivity.
  - intros sub s _ _ _ IH ts rt R F. destruct (IH rt R F) as (f & r & H & L). exists f, ("Option<" ++ r ++ ">"). cbn [codec_string]. rewrite H. split; [reflexivity|]. now rewrite !to_lower_app, L.
  - intros sub s _ IH ts rt R F. destruct (IH rt R F) as (f & r & H & L). exists f, ("Vec<" ++ r ++ ">"). cbn [codec_string]. rewrite H. split; [reflexivity|]. now rewrite !to_lower_app, L.
  - intros n sub s _ _ _ IH ts rt R F. destruct (IH 0 ltac:(lia) F) as (f & r & H & L). exists f, ("[" ++ itoa (Zpos n) ++ ";" ++ r ++ "]"). cbn [codec_string]. rewrite H. split; [reflexivity|].
    rewrite !to_lower_app, L, lower_digits by lia. reflexivity.
  - intros n _ ts rt _ _. exists O, ("[" ++ itoa (Zpos n) ++ ";U8]"). split; [reflexivity|]. rewrite !to_lower_app, lower_digits by lia. reflexivity.
  - intros sub a b k v SP _ IH1 _ IH2 ts rt _ [F1 F2]. destruct (IH1 0 ltac:(lia) F1) as (f & r & H & L). destruct (IH2 0 ltac:(lia) F2) as (g & q & J & M).
    exists (Nat.max f g), ("BTreeMap<" ++ r ++ "," ++ q ++ ">"). cbn [codec_string]. unfold pair_string. rewrite SP.
    rewrite (describe_le E f _ _ _ _ (Nat.le_max_l f g) H), (describe_le E g _ _ _ _ (Nat.le_max_r f g) J). split; [reflexivity|]. now rewrite !to_lower_app, L, M.
  - intros sub a b k v SP _ IH1 _ IH2 ts rt _ [F1 F2]. destruct (IH1 0 ltac:(lia) F1) as (f & r & H & L). destruct (IH2 0 ltac:(lia) F2) as (g & q & J & M).
    exists (Nat.max f g), ("Results<" ++ r ++ "," ++ q ++ ">"). cbn [codec_string]. unfold pair_string. rewrite SP.
    rewrite (describe_le E f _ _ _ _ (Nat.le_max_l f g) H), (describe_le E g _ _ _ _ (Nat.le_max_r f g) J). split; [reflexivity|]. now rewrite !to_lower_app, L, M.
  - intros tm l _ _ IH ts rt R [D F]. destruct (IH (rt + 1) ltac:(lia) F) as (f & rs & H & N & L). exists f, ("Struct(" ++ join "," rs ++ ")"). cbn [codec_string]. unfold struct_string.
    rewrite map_map in H. destruct tm as [|p tm]; [now destruct N|].
    replace (limitRecursiveTime <? rt + 1) with false by (unfold limitRecursiveTime; lia). rewrite H, concat_all. split; [reflexivity|]. cbn [rev app]. now rewrite !to_lower_app, L.
  - intros tm vl l _ _ _ IH ts rt R [D F]. destruct (IH (rt + 1) ltac:(lia) F) as (f & rs & H & N & L). exists f, ("Enum(" ++ join "," rs ++ ")"). cbn [codec_string]. unfold struct_string.
    rewrite map_map in H. destruct tm as [|p tm]; [now destruct N|].
    replace (limitRecursiveTime <? rt + 1) with false by (unfold limitRecursiveTime; lia). rewrite H, concat_all. split; [reflexivity|]. cbn [rev app]. now rewrite !to_lower_app, L.
  - intros t s _ IH rt R F. destruct (IH rt R F) as (f & r & H & L). exists f, [r]. cbn [map]. rewrite H. split; [reflexivity|]. split; [discriminate|exact L].
  - intros t s ts l _ IH1 _ IH2 rt R [F1 F2]. destruct (IH1 rt R F1) as (f & r & H & L). destruct (IH2 rt R F2) as (g & rs & J & N & M).
    exists (Nat.max f g), (r :: rs). cbn [map]. rewrite (describe_le E f _ _ _ _ (Nat.le_max_l f g) H). split; [|split; [discriminate|]].
    + f_equal. clear - J. revert rs J. induction ts as [|x ts IH]; intros [|q rs] J; cbn [map] in *; try discriminate; [reflexivity|]. injection J as J1 J2.
      f_equal; [exact (describe_le E g _ _ _ _ (Nat.le_max_r f g) J1)|now apply IH].
    + destruct rs as [|q rs]; [destruct ts; [now destruct N|discriminate J]|]. change (join "," (r :: q :: rs)) with (r ++ "," ++ join "," (q :: rs)). rewrite !to_lower_app, L, M. reflexivity.
Qed.

(** ** Descriptions tell shapes apart *)
Definition tokens : list string :=
  (["option<"; "vec<"; "["; "btreemap<"; "results<"; "struct("; "enum("] ++
   map leaf_name [LNull; LBool; LU8; LU16; LU32; LU64; LU128; LI16; LI32; LI64; LI128; LI256; LH160; LH256; LH512; LAccount; LBytes; LString; LCompact64; LCompact128; LCompactBalance])%list.
Definition token (s : shape) : string :=
  match s with SLeaf l => leaf_name l | SOption _ => "option<" | SVec _ => "vec<" | SArray _ _ => "[" | SMap _ _ => "btreemap<" | SResult _ _ => "results<" | SStruct _ => "struct(" | SEnum _ => "enum(" end.
Lemma token_in s : In (token s) tokens.
Proof. destruct s as [[]| | | | | | |]; cbn; tauto. Qed.
Lemma prefix_either a : forall b x y, a ++ x = b ++ y -> prefix a b = true \/ prefix b a = true.
Proof.
  induction a as [|c a IH]; intros [|d b] x y H; cbn [prefix]; try tauto. cbn [append] in H. injection H as <- H. rewrite Ascii.eqb_refl. exact (IH b x y H).
Qed.
Lemma tokens_free : forallb (fun a => forallb (fun b => String.eqb a b || negb (prefix a b)) tokens) tokens = true.
Proof. vm_compute. reflexivity. Qed.
Lemma tokens_clash a b x y : In a tokens -> In b tokens -> a ++ x = b ++ y -> a = b.
Proof.
  intros I J H. assert (K : forall p q, In p tokens -> In q tokens -> prefix p q = true -> p = q).
  { intros p q Ip Iq X. pose proof (proj1 (forallb_forall _ _) (proj1 (forallb_forall _ _) tokens_free p Ip) q Iq) as Z. cbv beta in Z. rewrite X, Bool.orb_false_r in Z. now apply String.eqb_eq. }
  destruct (prefix_either a b x y H) as [P|P]; [now apply K|symmetry; now apply K].
Qed.
Lemma app_cancel a x y : a ++ x = a ++ y -> x = y.
Proof. induction a as [|c a IH]; intros H; [exact H|]. injection H as H. now apply IH. Qed.
Lemma number_split a : forall b x y, Forall (fun c => 48 <= bZ c <= 57) (s2b a) -> Forall (fun c => 48 <= bZ c <= 57) (s2b b) -> a ++ ";" ++ x = b ++ ";" ++ y -> a = b /\ x = y.
Proof.
  induction a as [|c a IH]; intros [|d b] x y A B H.
  - injection H as H. now split.
  - injection H as <- H. inversion B; subst. change (bZ ";") with 59 in *. lia.
  - injection H as -> H. inversion A; subst. change (bZ ";") with 59 in *. lia.
  - injection H as <- H. inversion A; inversion B; subst. destruct (IH b x y) as [-> ->]; [assumption..|]. now split.
Qed.
Lemma app_assoc_s (a b c : string) : (a ++ b) ++ c = a ++ b ++ c.
Proof. induction a as [|x a IH]; [reflexivity|]. cbn [append]. now rewrite IH. Qed.
Lemma said_token s t : exists x, said s ++ t = token s ++ x.
Proof. destruct s; cbn [said token]; rewrite ?app_assoc_s; eexists; reflexivity. Qed.
Lemma said_inj : (forall s s' t t', said s ++ t = said s' ++ t' -> s = s' /\ t = t') /\
  (forall l l' t t', said_all l ++ ")" ++ t = said_all l' ++ ")" ++ t' -> l = l' /\ t = t').
Proof.
  assert (TK : forall s s' t t', said s ++ t = said s' ++ t' -> token s = token s').
  { intros s s' t t' H. destruct (said_token s t) as [x X], (said_token s' t') as [y Y]. rewrite X, Y in H. eapply tokens_clash; [apply token_in|apply token_in|exact H]. }
  apply shape_mutind.
  - intros l s' t t' H. pose proof (TK _ _ _ _ H) as K. destruct s' as [l'| | | | | | |]; cbn [token] in K; try (destruct l; discriminate K).
    cbn [said] in H. rewrite K in H. apply app_cancel in H as ->. split; [|reflexivity]. f_equal. destruct l, l'; try discriminate K; reflexivity.
  - intros s IH s' t t' H. pose proof (TK _ _ _ _ H) as K. destruct s' as [[]|s'| | | | | |]; try discriminate K. cbn [said] in H. rewrite !app_assoc_s in H. apply app_cancel in H.
    apply IH in H as [-> H]. injection H as ->. now split.
  - intros s IH s' t t' H. pose proof (TK _ _ _ _ H) as K. destruct s' as [[]| |s'| | | | |]; try discriminate K. cbn [said] in H. rewrite !app_assoc_s in H. apply app_cancel in H.
    apply IH in H as [-> H]. injection H as ->. now split.
  - intros n s IH s' t t' H. pose proof (TK _ _ _ _ H) as K. destruct s' as [[]| | |n' s'| | | |]; try discriminate K. cbn [said] in H. rewrite !app_assoc_s in H. apply app_cancel in H.
    apply number_split in H as [N H]; [|apply itoa_digits_only; lia|apply itoa_digits_only; lia]. apply itoa_inj in N. injection N as ->.
    apply IH in H as [-> H]. injection H as ->. now split.
  - intros k IH1 v IH2 s' t t' H. pose proof (TK _ _ _ _ H) as K. destruct s' as [[]| | | |k' v'| | |]; try discriminate K. cbn [said] in H. rewrite !app_assoc_s in H. apply app_cancel in H.
    apply IH1 in H as [-> H]. apply app_cancel in H. apply IH2 in H as [-> H]. injection H as ->. now split.
  - intros k IH1 v IH2 s' t t' H. pose proof (TK _ _ _ _ H) as K. destruct s' as [[]| | | | |k' v'| |]; try discriminate K. cbn [said] in H. rewrite !app_assoc_s in H. apply app_cancel in H.
    apply IH1 in H as [-> H]. apply app_cancel in H. apply IH2 in H as [-> H]. injection H as ->. now split.
  - intros l IH s' t t' H. pose proof (TK _ _ _ _ H) as K. destruct s' as [[]| | | | | |l'|]; try discriminate K. cbn [said] in H. rewrite !app_assoc_s in H. apply app_cancel in H.
    apply IH in H as [-> ->]. now split.
  - intros l IH s' t t' H. pose proof (TK _ _ _ _ H) as K. destruct s' as [[]| | | | | | |l']; try discriminate K. cbn [said] in H. rewrite !app_assoc_s in H. apply app_cancel in H.
    apply IH in H as [-> ->]. now split.
  - intros s IH [s'|s' l'] t t' H; cbn [said_all] in H; rewrite ?app_assoc_s in H; apply IH in H as [-> H]; [|discriminate H]. injection H as ->. now split.
  - intros s IH l IHl [s'|s' l'] t t' H; cbn [said_all] in H; rewrite ?app_assoc_s in H; apply IH in H as [-> H]; [discriminate H|].
    apply app_cancel in H. apply IHl in H as [-> ->]. now split.
Qed.

(** ** Every byte string of the shape encodes a value of the type *)
Definition usual_ctx (c : ctx) : Prop := x_module c = "" /\ x_spec c = 0.
Lemma plain_ctx E c ts cd : usual_ctx c -> plain E ts cd -> resolves E c ts cd.
Proof. intros [M S] (c0 & sub & G & I). exists c0, sub. rewrite M, S. now split. Qed.
Lemma wires_bytes n : forall b, wires (repeat (SLeaf LU8) n) b -> List.length b = n.
Proof.
  induction n as [|n IH]; intros b H; cbn [repeat] in H; inversion H; subst; [reflexivity|]. rewrite app_length.
  match goal with W : wire (SLeaf LU8) _ |- _ => inversion W; subst end. match goal with W : leaf_wire LU8 _ |- _ => destruct W as (z & _ & ->) end.
  match goal with W : wires _ _ |- _ => rewrite (IH _ W) end. reflexivity.
Qed.
Lemma entries_exist E n : forall gs, List.length gs = (2 * n)%nat -> exists ps, entries E gs ps.
Proof.
  induction n as [|n IH]; intros [|k [|v gs]] L; cbn in L; try lia; [exists []; constructor|]. destruct (IH gs ltac:(lia)) as [ps P]. eexists. constructor. exact P.
Qed.
Lemma scales_length st E c ts bs gs cs : scales st E c ts bs gs cs -> List.length gs = List.length ts.
Proof. revert bs gs cs. induction ts as [|t ts IH]; intros bs gs cs H; inversion H; subst; cbn [List.length]; [reflexivity|]. f_equal. eapply IH. eassumption. Qed.
Lemma formeds_all E tys l : formeds E tys l -> Forall2 (formed E) tys (list_of l).
Proof. induction 1 as [|t s ts l F _ IH]; cbn [list_of]; constructor; auto. Qed.
Lemma repeat_all E t s n : formed E t s -> Forall2 (formed E) (repeat t n) (repeat s n).
Proof. intros F. induction n; cbn [repeat]; now constructor. Qed.
Lemma pairs_all E a b k v n : formed E a k -> formed E b v -> Forall2 (formed E) (List.concat (repeat [a; b] n)) (List.concat (repeat [k; v] n)).
Proof. intros F G. induction n; cbn [repeat List.concat app]; repeat constructor; assumption. Qed.
Lemma nth_formed E tys ss i s : Forall2 (formed E) tys ss -> nth_error ss i = Some s -> exists t, nth_error tys i = Some t /\ formed E t s.
Proof.
  intros H. revert i. induction H as [|t s0 tys ss F _ IH]; intros [|i] N; cbn [nth_error] in *; try discriminate; [injection N as <-; eauto|]. now apply IH.
Qed.

Ltac of_shape := match goal with H : formed _ _ _ |- _ => inversion H; subst; clear H end;
  match goal with H : shaped _ _ _ |- _ => inversion H; subst; clear H end.
Lemma leaf_scale E c cd l b : usual_ctx c -> shaped E cd (SLeaf l) -> leaf_wire l b -> exists g cs, scale_at false E c cd b g cs.
Proof.
  intros U S W. inversion S as [cd0 l0 I|KL|sub wcd l0 I P| | | | | | | |]; subst.
  - cbn in I. decompose [or] I; try contradiction; match goal with H : (_, _) = (_, _) |- _ => injection H as <- <- end; cbn [leaf_wire] in W; unfold fixed_width, signed_width, prefixed in W.
    all: try (subst b; eexists _, _; constructor).
    all: try (eexists _, _; constructor; exact W).
    all: try (destruct W as (z & R & ->); eexists _, _; constructor; exact R).
    all: try (destruct W as (z & R & ->); eexists _, _; constructor; [reflexivity|cbn; tauto|exact R]).
    all: try (destruct W as (z & R & ->); eexists _, _; constructor; [exact R|discriminate]).
    + destruct W as [-> | ->]; eexists _, _; [exact (sc_bool false E c false)|exact (sc_bool false E c true)].
    + destruct W as (z & R & ->). eexists _, _. apply sc_u128 with (s := itoa z); [lia|]. now apply itoa_numeral.
  - cbn [leaf_wire] in W. eexists _, _. apply sc_eth; [exact W|]. apply KL. rewrite s2b_length, hex_encode_length, W. reflexivity.
  - cbn in I. decompose [or] I; try contradiction; match goal with H : (_, _, _) = (_, _, _) |- _ => injection H as Q <- <- end; cbn [leaf_wire] in W; destruct W as (z & R & ->).
    all: assert (sub <> "") by (intros ->; discriminate Q).
    all: eexists _, _; eapply sc_compact; [assumption|exact P|lia|cbn [compact_repr]; rewrite (proj2 (Z.ltb_lt _ _)) by apply R; reflexivity|discriminate].
Qed.
Lemma wire_scale E : (forall s b, wire s b -> forall ts c, usual_ctx c -> formed E ts s -> exists g cs, scale false E c ts b g cs) /\
  (forall ss b, wires ss b -> forall tys c, usual_ctx c -> Forall2 (formed E) tys ss -> exists gs cs, scales false E c tys b gs cs).
Proof.
  assert (UP : forall ts cd c b, usual_ctx c -> plain E ts cd -> (exists g cs, scale_at false E c cd b g cs) -> exists g cs, scale false E c ts b g cs).
  { intros ts cd c b U P (g & cs & H). exists g, cs. eapply sc_type; [exact (plain_ctx _ _ _ _ U P)|discriminate|exact H]. }
  apply wire_mutind.
  - intros l b W ts c U F. inversion F; subst. eapply UP; [exact U|eassumption|]. now apply leaf_scale with (l := l).
  - intros s ts c U F. of_shape. eapply UP; [exact U|eassumption|]. eexists _, _. now constructor.
  - intros s b _ IH ts c U F. of_shape. eapply UP; [exact U|eassumption|]. match goal with H : formed _ ?t _ |- _ => destruct (IH t c U H) as (g & cs & S) end.
    eexists _, _. apply sc_some; [assumption|assumption|exact S|discriminate].
  - intros s n b L _ IH ts c U F. of_shape. eapply UP; [exact U|eassumption|]. match goal with H : formed _ ?t _ |- _ => destruct (IH _ c U (repeat_all E t s n H)) as (gs & cs & S) end.
    eexists _, _. now apply sc_vec with (1 := S).
  - intros n s b W IH ts c U F. of_shape; (eapply UP; [exact U|eassumption|]).
    + match goal with H : formed _ ?t _ |- _ => destruct (equal_fold t "u8") eqn:Q end.
      * match goal with H : true = true -> _ |- _ => rewrite (H eq_refl) in W end. apply wires_bytes in W. eexists _, _. apply sc_array_u8; [exact Q|lia|lia|discriminate].
      * match goal with H : formed _ ?t _ |- _ => destruct (IH _ c U (repeat_all E t s (Pos.to_nat n) H)) as (gs & cs & S) end.
        eexists _, _. apply sc_array; [exact Q|lia|]. rewrite Z2Nat.inj_pos. exact S.
    + apply wires_bytes in W. eexists _, _. apply sc_fixed_u8; [lia|lia|discriminate].
  - intros k v n b L _ IH ts c U F. of_shape. eapply UP; [exact U|eassumption|].
    match goal with H : formed _ ?t k, G : formed _ ?q v |- _ => destruct (IH _ c U (pairs_all E t q k v n H G)) as (gs & cs & S) end.
    destruct (entries_exist E n gs) as [ps P].
    { rewrite (scales_length _ _ _ _ _ _ _ S). clear. induction n; cbn [repeat List.concat app List.length]; lia. }
    eexists _, _. eapply sc_map; [reflexivity|eassumption|exact L|exact S|exact P].
  - intros k e b _ IH ts c U F. of_shape. eapply UP; [exact U|eassumption|]. match goal with H : formed _ ?t k |- _ => destruct (IH t c U H) as (g & cs & S) end. eexists _, _. eapply sc_ok; [eassumption|exact S].
  - intros k e b _ IH ts c U F. of_shape. eapply UP; [exact U|eassumption|]. match goal with H : formed _ ?t e |- _ => destruct (IH t c U H) as (g & cs & S) end. eexists _, _. eapply sc_err; [eassumption|exact S].
  - intros l b _ IH ts c U F. of_shape. eapply UP; [exact U|eassumption|]. match goal with H : formeds _ _ _ |- _ => destruct (IH _ c U (formeds_all _ _ _ H)) as (gs & cs & S) end. eexists _, _. now apply sc_struct with (1 := S).
  - intros l i s b N LI _ IH ts c U F. of_shape. eapply UP; [exact U|eassumption|]. match goal with H : formeds _ _ _ |- _ => destruct (nth_formed _ _ _ _ _ (formeds_all _ _ _ H) N) as (t & T & FT) end.
    destruct (IH t c U FT) as (g & cs & S). rewrite nth_error_map in T. destruct (nth_error tm i) as [[name sub]|] eqn:NT; [|discriminate]. cbn in T. injection T as ->.
    match goal with H : Forall _ tm |- _ => destruct (proj1 (Forall_forall _ _) H _ (nth_error_In _ _ NT)) as [T1 T2] end. cbn [snd] in *.
    eexists _, _. eapply sc_variant; [assumption|lia|rewrite Nat2Z.id; exact NT|exact T1|exact T2|exact S|discriminate].
  - intros tys c _ F. inversion F; subst. eexists _, _. constructor.
  - intros s l b bs _ IH1 _ IH2 tys c U F. inversion F; subst. match goal with H : formed _ ?t s, G : Forall2 _ ?q l |- _ => destruct (IH1 t c U H) as (g & cs & S), (IH2 q c U G) as (gs & cs' & S') end.
    eexists _, _. constructor; eassumption.
Qed.

(** ** C93 *)
(** Types of different shapes are told apart, types of one shape are not. *)
Theorem C93_differ E a b s s' : formed E a s -> formed E b s' -> fits 0 s -> fits 0 s' -> (differ E a b <-> s <> s').
Proof.
  intros A B FA FB. destruct (proj1 (describes_formed E) a s A 0 ltac:(lia) FA) as (f & r & H & L). destruct (proj1 (describes_formed E) b s' B 0 ltac:(lia) FB) as (g & q & J & M).
  assert (DA : Describes E a 0 (Ok r)) by (split; [discriminate|now exists f]). assert (DB : Describes E b 0 (Ok q)) by (split; [discriminate|now exists g]). split.
  - intros (x & y & X & Y & N) <-. apply N. assert (Ok r = Ok x) as [= <-] by (eapply Describes_fun; eassumption). assert (Ok q = Ok y) as [= <-] by (eapply Describes_fun; eassumption). congruence.
  - intros N. exists r, q. split; [exact DA|]. split; [exact DB|]. rewrite L, M. intros X. apply N. destruct (proj1 said_inj s s' "" "") as [Q _]; [now rewrite X|exact Q].
Qed.
(** Eq answers, and says so. *)
Theorem C93_eq E a b s s' : formed E a s -> formed E b s' -> fits 0 s -> fits 0 s' ->
  exists f0 e, (e = true <-> s = s') /\ forall f, (f0 <= f)%nat -> Eq f E a b = Ok e.
Proof.
  intros A B FA FB. destruct (proj1 (describes_formed E) a s A 0 ltac:(lia) FA) as (f & r & H & L). destruct (proj1 (describes_formed E) b s' B 0 ltac:(lia) FB) as (g & q & J & M).
  exists (Nat.max f g), (equal_fold r q). split.
  - unfold equal_fold. rewrite String.eqb_eq, L, M. split; [|now intros ->]. intros X. destruct (proj1 said_inj s s' "" "") as [Q _]; [now rewrite X|exact Q].
  - intros h F. unfold Eq. rewrite (describe_le E f h _ _ _ ltac:(lia) H), (describe_le E g h _ _ _ ltac:(lia) J). reflexivity.
Qed.
(** Every byte string of the shape is decoded at the type, and read to its end. *)
Theorem C93_decodes E c ts s pre b tl : std_env E -> usual_ctx c -> formed E ts s -> wire s b -> blen (pre ++ b ++ tl) < 2 ^ 63 ->
  exists g cs, Decodes E c (pre ++ b ++ tl) (blen pre) ts (Ok (g, blen pre + blen b, cs)).
Proof.
  intros S U F W L. destruct (proj1 (wire_scale E) s b W ts c U F) as (g & cs & H). exists g, cs. now apply C15_decode.
Qed.
(** Hence: a call or event that is in both and is not reported as changed takes
    the same bytes, argument by argument. *)
Definition same_bytes (E : env) (c : ctx) (ta tb : string) (s : shape) : Prop :=
  forall pre b tl, wire s b -> blen (pre ++ b ++ tl) < 2 ^ 63 -> forall t, t = ta \/ t = tb -> exists g cs, Decodes E c (pre ++ b ++ tl) (blen pre) t (Ok (g, blen pre + blen b, cs)).
Lemma unreported E c l dl ch x y i ta tb (s s' : shape) : std_env E -> usual_ctx c -> reported E l dl ch -> In x l -> In y dl -> fst x = fst y -> ~ In (show y, show x) (ch_changes ch) ->
  nth_error (snd x) i = Some ta -> nth_error (snd y) i = Some tb -> formed E ta s -> formed E tb s' -> fits 0 s -> fits 0 s' ->
  List.length (snd x) = List.length (snd y) /\ s = s' /\ same_bytes E c ta tb s.
Proof.
  intros S U [_ K2] Ix Iy NX NR NA NB A B FA FB.
  assert (ND : ~ item_differs E x y) by (intros X; apply NR, K2; exists x, y; auto 7).
  assert (SS : s = s').
  { destruct (proj1 (describes_formed E) ta s A 0 ltac:(lia) FA) as (f & q & H & L). destruct (proj1 (describes_formed E) tb s' B 0 ltac:(lia) FB) as (g & q' & J & M).
    destruct (string_dec (to_lower q) (to_lower q')) as [Q|Q].
    - rewrite L, M in Q. destruct (proj1 said_inj s s' "" "") as [X _]; [now rewrite Q|exact X].
    - exfalso. apply ND. right. exists i, ta, tb. split; [exact NA|]. split; [exact NB|]. exists q, q'. split; [split; [discriminate|now exists f]|]. split; [split; [discriminate|now exists g]|exact Q]. }
  split; [|split; [exact SS|]].
  - destruct (Nat.eq_dec (List.length (snd x)) (List.length (snd y))) as [Q|Q]; [exact Q|]. exfalso. apply ND. now left.
  - subst s'. intros pre b tl W L t [-> | ->]; now apply C93_decodes with (s := s).
Qed.
Theorem C93_calls_partial E c m dest r a d x y i ta tb (s s' : shape) : std_env E -> usual_ctx c -> distinct m -> distinct dest -> Compares E m dest (Ok r) ->
  In a m -> In d dest -> mod_name a = mod_name d -> In x (mod_calls a) -> In y (mod_calls d) -> fst x = fst y -> ~ In (show y, show x) (ch_changes (calls_of r (mod_name a))) ->
  nth_error (snd x) i = Some ta -> nth_error (snd y) i = Some tb -> formed E ta s -> formed E tb s' -> fits 0 s -> fits 0 s' ->
  List.length (snd x) = List.length (snd y) /\ s = s' /\ same_bytes E c ta tb s.
Proof.
  intros S U DM DD CR Ia Id N. destruct (C40_changes E m dest r DM DD CR) as (_ & _ & K). destruct (K a d Ia Id N) as [K1 _]. now apply unreported with (1 := S) (2 := U) (3 := K1).
Qed.
Theorem C93_events_partial E c m dest r a d x y i ta tb (s s' : shape) : std_env E -> usual_ctx c -> distinct m -> distinct dest -> Compares E m dest (Ok r) ->
  In a m -> In d dest -> mod_name a = mod_name d -> In x (mod_events a) -> In y (mod_events d) -> fst x = fst y -> ~ In (show y, show x) (ch_changes (events_of r (mod_name a))) ->
  nth_error (snd x) i = Some ta -> nth_error (snd y) i = Some tb -> formed E ta s -> formed E tb s' -> fits 0 s -> fits 0 s' ->
  List.length (snd x) = List.length (snd y) /\ s = s' /\ same_bytes E c ta tb s.
Proof.
  intros S U DM DD CR Ia Id N. destruct (C40_changes E m dest r DM DD CR) as (_ & _ & K). destruct (K a d Ia Id N) as [_ K1]. now apply unreported with (1 := S) (2 := U) (3 := K1).
Qed.

(** ** Examples *)
(** Two versions of a type: the fields were renamed, a Balance became a u128, and an alias was introduced. *)
Definition sx_defs : list (string * tstruct) :=
  [("Old", TStruct "struct" "" [["who"; "AccountId"]; ["amount"; "Balance"]; ["memo"; "Option<Bytes>"]; ["tags"; "Vec<(u8,[u16; 3])>"]] [] 0 false 0);
   ("Memo", TStruct "string" "HexBytes" [] [] 0 false 0);
   ("New", TStruct "struct" "" [["owner"; "AccountId"]; ["value"; "u128"]; ["note"; "Option<Memo>"]; ["labels"; "Vec<(u8,[u16; 3])>"]] [] 0 false 0);
   ("Other", TStruct "struct" "" [["owner"; "AccountId"]; ["value"; "u128"]; ["note"; "Option<Memo>"]; ["labels"; "Vec<(u8,[u16; 4])>"]] [] 0 false 0);
   ("Pick", TStruct "enum" "" [["A"; "Old"]; ["B"; "Compact<U64>"]; ["C"; "Null"]] [] 0 false 0);
   ("Choice", TStruct "enum" "" [["X"; "New"]; ["Y"; "Compact<u64>"]; ["Z"; "NULL"]] [] 0 false 0)].
Definition sx_reg : reg := Eval vm_compute in match RegCustomTypes 9 sx_defs base_reg with Ok r => r | _ => base_reg end.
Definition sx_field (n : positive) : shape := SStruct (SMore (SLeaf LAccount) (SMore (SLeaf LU128) (SMore (SOption (SLeaf LBytes)) (SOne (SVec (SStruct (SMore (SLeaf LU8) (SOne (SArray n (SLeaf LU16)))))))))).
Definition sx_choice (n : positive) : shape := SEnum (SMore (sx_field n) (SMore (SLeaf LCompact64) (SOne (SLeaf LNull)))).
Ltac sx_plain := eexists _, _; split; [vm_compute; reflexivity|vm_compute; reflexivity].
Ltac sx_formed := match goal with
  | |- formed _ _ _ => eapply fo_type; [sx_plain|sx_formed]
  | |- shaped _ (CCompact _) _ => eapply sh_compact; [cbn; tauto|sx_plain]
  | |- shaped _ _ (SLeaf _) => apply sh_leaf; cbn; tauto
  | |- shaped _ (COption _) _ => apply sh_option; [discriminate|discriminate|sx_formed]
  | |- shaped _ (CVec _) _ => apply sh_vec; sx_formed
  | |- shaped _ (CFixedArray _ _) _ => apply sh_array; [reflexivity|discriminate|sx_formed]
  | |- shaped _ (CStruct _) _ => apply sh_struct; [repeat constructor; cbn; intuition discriminate|sx_formed]
  | |- shaped _ (CEnum _ _) _ => apply sh_enum; [reflexivity|repeat constructor; discriminate|sx_formed]
  | |- formeds _ _ _ => first [apply fs_one; sx_formed|apply fs_more; sx_formed]
  end.
Lemma sx_old : formed (reg_env sx_reg) "Pick" (sx_choice 3).
Proof. unfold sx_choice, sx_field. sx_formed. Qed.
Lemma sx_new : formed (reg_env sx_reg) "Choice" (sx_choice 3).
Proof. unfold sx_choice, sx_field. sx_formed. Qed.
Lemma sx_other : formed (reg_env sx_reg) "Other" (sx_field 4).
Proof. unfold sx_choice, sx_field. sx_formed. Qed.
Lemma sx_fits : fits 0 (sx_choice 3).
Proof. cbn. repeat split; lia. Qed.
Lemma sx_std : std_env (reg_env sx_reg).
Proof. intros k cd I. cbn in I. repeat (destruct I as [[= <- <-]|I]; [split; vm_compute; reflexivity|]). destruct I. Qed.
Definition sx_m : list cmodule := [CModule "Coin" [("pay", ["Choice"; "u8"])] []].
Definition sx_dest : list cmodule := [CModule "Coin" [("pay", ["Pick"; "U8"])] []].
Lemma sx_distinct : distinct sx_m /\ distinct sx_dest.
Proof. split; (split; [repeat constructor; cbn; tauto|]); intros x [<-|[]]; cbn; split; repeat constructor; cbn; tauto. Qed.
Lemma sx_compared : Compares (reg_env sx_reg) sx_m sx_dest (Ok (Compared [] [])).
Proof. split; [discriminate|]. exists 20%nat. vm_compute. reflexivity. Qed.
(** No change is reported, and the argument takes the same bytes. *)
Example C93_case b : wire (sx_choice 3) b -> blen b < 2 ^ 62 -> forall t, t = "Choice" \/ t = "Pick" ->
  exists g cs, Decodes (reg_env sx_reg) (Ctx 0 "" None) b 0 t (Ok (g, blen b, cs)).
Proof.
  intros W L. destruct (C93_calls_partial (reg_env sx_reg) (Ctx 0 "" None) sx_m sx_dest _ (CModule "Coin" [("pay", ["Choice"; "u8"])] []) (CModule "Coin" [("pay", ["Pick"; "U8"])] [])
    ("pay", ["Choice"; "u8"]) ("pay", ["Pick"; "U8"]) 0 "Choice" "Pick" (sx_choice 3) (sx_choice 3) sx_std (conj eq_refl eq_refl) (proj1 sx_distinct) (proj2 sx_distinct) sx_compared
    (or_introl eq_refl) (or_introl eq_refl) eq_refl (or_introl eq_refl) (or_introl eq_refl) eq_refl (fun x => x) eq_refl eq_refl sx_new sx_old sx_fits sx_fits) as (_ & _ & H).
  intros t T. destruct (H [] b [] W) with (t := t) as (g & cs & D); [cbn [app]; rewrite app_nil_r; clear - L; lia|exact T|]. cbn [app] in D. rewrite app_nil_r in D. exists g, cs. exact D.
Qed.
Example C93_case_bytes : wire (sx_choice 3) (Zb 0 :: repeat (Zb 7) 32 ++ le_bytes 16 500 ++ [Zb 0] ++ compact 1 ++ [Zb 9] ++ map Zb [1; 0; 2; 0; 3; 0])%list.
Proof.
  change (Zb 0) with (Zb (Z.of_nat 0)) at 1. eapply wi_enum; [reflexivity|reflexivity|]. apply wi_struct. cbn [list_of sx_field].
  apply ws_cons; [apply wi_leaf; reflexivity|]. apply ws_cons; [apply wi_leaf; exists 500; split; [split; [discriminate|reflexivity]|reflexivity]|].
  apply ws_cons; [apply wi_none|]. rewrite <- (app_nil_r (map Zb _)), !app_assoc. apply ws_cons; [|apply ws_nil]. rewrite <- app_assoc. apply (wi_vec _ 1); [discriminate|].
  rewrite <- (app_nil_r (_ ++ _)%list). apply ws_cons; [|apply ws_nil]. apply wi_struct. cbn [list_of]. apply ws_cons; [apply wi_leaf; exists 9; split; [split; [discriminate|reflexivity]|reflexivity]|].
  rewrite <- (app_nil_r (map Zb _)). apply ws_cons; [|apply ws_nil]. apply wi_array. change (map Zb [1; 0; 2; 0; 3; 0]) with (le_bytes 2 1 ++ le_bytes 2 2 ++ le_bytes 2 3 ++ [])%list.
  repeat (apply ws_cons; [apply wi_leaf; eexists; split; [|reflexivity]; split; [discriminate|reflexivity]|]). apply ws_nil.
Qed.
(** One more element in the array is a change. *)
Example C93_change : differ (reg_env sx_reg) "New" "Other".
Proof. exists "Struct(AccountId,U128,Option<Bytes>,Vec<Struct(U8,[3;U16])>)", "Struct(AccountId,U128,Option<Bytes>,Vec<Struct(U8,[4;U16])>)". split; [split; [discriminate|exists 9%nat; vm_compute; reflexivity]|]. split; [split; [discriminate|exists 9%nat; vm_compute; reflexivity]|]. vm_compute. discriminate. Qed.

(** ** Where it fails *)
(** Both are taken for the same, yet one reads less of the bytes than the other. *)
Definition mistaken (r : reg) (a b : string) (data : bytes) : Prop :=
  Eq 20 (reg_env r) a b = Ok true /\ exists g o cs g' o' cs', Decodes (reg_env r) (Ctx 0 "" None) data 0 a (Ok (g, o, cs)) /\ Decodes (reg_env r) (Ctx 0 "" None) data 0 b (Ok (g', o', cs')) /\ o <> o' /\ o <= blen data /\ o' <= blen data.
Ltac mistaken_by := split; [vm_compute; reflexivity|]; eexists _, _, _, _, _, _; split; [split; [discriminate|exists 12%nat; vm_compute; reflexivity]|]; split; [split; [discriminate|exists 12%nat; vm_compute; reflexivity]|]; vm_compute; intuition discriminate.
(** The fields of a variant are not looked at, *)
Definition sv_defs : list (string * tstruct) :=
  [("Small", TStruct "enum" "" [["Moved"; "[[""to"",""u8""],[""by"",""u8""]]"]; ["Kept"; "Null"]] [] 0 false 0);
   ("Large", TStruct "enum" "" [["Moved"; "[[""to"",""u16""],[""by"",""u8""]]"]; ["Kept"; "Null"]] [] 0 false 0)].
Definition sv_reg : reg := Eval vm_compute in match RegCustomTypes 9 sv_defs base_reg with Ok r => r | _ => base_reg end.
Theorem C93_variant_refuted : mistaken sv_reg "Small" "Large" (map Zb [0; 1; 2; 3]).
Proof. mistaken_by. Qed.
(** nor what lies six structs deep; *)
Definition sd_defs : list (string * tstruct) :=
  [("S1", TStruct "struct" "" [["x"; "u8"]] [] 0 false 0); ("S2", TStruct "struct" "" [["x"; "S1"]] [] 0 false 0); ("S3", TStruct "struct" "" [["x"; "S2"]] [] 0 false 0);
   ("S4", TStruct "struct" "" [["x"; "S3"]] [] 0 false 0); ("S5", TStruct "struct" "" [["x"; "S4"]] [] 0 false 0); ("S6", TStruct "struct" "" [["x"; "S5"]] [] 0 false 0);
   ("L1", TStruct "struct" "" [["x"; "u64"]; ["y"; "u8"]] [] 0 false 0); ("L2", TStruct "struct" "" [["x"; "L1"]] [] 0 false 0); ("L3", TStruct "struct" "" [["x"; "L2"]] [] 0 false 0);
   ("L4", TStruct "struct" "" [["x"; "L3"]] [] 0 false 0); ("L5", TStruct "struct" "" [["x"; "L4"]] [] 0 false 0); ("L6", TStruct "struct" "" [["x"; "L5"]] [] 0 false 0)].
Definition sd_reg : reg := Eval vm_compute in match RegCustomTypes 9 sd_defs base_reg with Ok r => r | _ => base_reg end.
Theorem C93_deep_refuted : mistaken sd_reg "S6" "L6" (map Zb [1; 2; 3; 4; 5; 6; 7; 8; 9]).
Proof. mistaken_by. Qed.
(** Option<bool> has a form of its own, which Option<Bool> has not; *)
Theorem C93_bool_refuted : mistaken base_reg "Option<bool>" "Option<Bool>" (map Zb [1; 1]).
Proof. mistaken_by. Qed.
(** and a compact number is described like a type that does not exist. *)
Theorem C93_unknown_refuted : Eq 20 (reg_env base_reg) "Compact<u32>" "NoSuchType" = Ok true /\
  Decodes (reg_env base_reg) (Ctx 0 "" None) (map Zb [4]) 0 "Compact<u32>" (Ok (VInt 1, 1, [])) /\ exists m, Decodes (reg_env base_reg) (Ctx 0 "" None) (map Zb [4]) 0 "NoSuchType" (Panic m).
Proof. split; [vm_compute; reflexivity|]. split; [split; [discriminate|exists 9%nat; vm_compute; reflexivity]|]. eexists. split; [discriminate|exists 9%nat; vm_compute; reflexivity]. Qed.

Print Assumptions C93_differ.
Print Assumptions C93_eq.
Print Assumptions C93_decodes.
Print Assumptions C93_calls_partial.
Print Assumptions C93_events_partial.
Print Assumptions C93_variant_refuted.
Print Assumptions C93_deep_refuted.
Print Assumptions C93_bool_refuted.
Print Assumptions C93_unknown_refuted.
