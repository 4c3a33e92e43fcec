(** The JSON round trip of a call given as a map. *)

From Verif Require Import GoBase SpecNum ProofsBase ModelTools ProofsTools ModelVal ModelFloat ModelRegistry ModelDecode ModelEncode
  ModelBox SpecScale ProofsForms PropInts PropFloat.

(** ** Text *)
Lemma conts_split n : forall lo hi b r, utf8_conts n lo hi b = Some r -> b = (firstn n b ++ r)%list.
Proof.
  induction n as [|n IH]; intros lo hi b r H; cbn [utf8_conts] in H; [now injection H as ->|].
  destruct b as [|c b]; [discriminate|]. destruct (_ && _); [|discriminate]. cbn [firstn app]. f_equal. exact (IH _ _ _ _ H).
Qed.
Lemma valid_text_id f : forall b, utf8_valid_fuel f b = true -> valid_text f b = b.
Proof.
  induction f as [|f IH]; intros b H; [destruct b; [reflexivity|discriminate]|]. destruct b as [|c r]; [reflexivity|].
  cbn [utf8_valid_fuel valid_text] in *. cbv zeta in *.
  repeat match goal with
  | H : (if ?b then _ else _) = true |- _ => destruct b eqn:?
  end; try discriminate.
  all: try (f_equal; now apply IH).
  all: match goal with H : (match ?x with Some _ => _ | None => _ end) = true |- _ => destruct x as [r'|] eqn:U; [|discriminate] end.
  all: apply conts_split in U; rewrite (IH _ H), <- U; reflexivity.
Qed.
Lemma json_text_id s : utf8 (s2b s) -> json_text s = s.
Proof.
  intros U. apply utf8_valid_spec in U. unfold json_text. unfold utf8_valid in U.
  rewrite <- s2b_length, valid_text_id by exact U. apply b2s_s2b.
Qed.

(** ASCII text is UTF-8. *)
Lemma ascii_utf8 b : Forall (fun c => bZ c < 128) b -> utf8 b.
Proof.
  intros F. exists (map bZ b). split.
  - induction F as [|c b H F IH]; constructor; [|exact IH]. left. pose proof (bZ_range c). lia.
  - induction F as [|c b H F IH]; [reflexivity|]. cbn [map List.concat]. rewrite <- IH. unfold utf8_char.
    replace (bZ c <? 0x80) with true by (symmetry; apply Z.ltb_lt; exact H). cbn [map app]. now rewrite Zb_bZ.
Qed.

(** ** Numbers *)
Lemma int_f64_small z : 0 <= z < 2 ^ 53 -> int_f64 z = Some (float_bits z).
Proof.
  intros H. unfold int_f64, float_bits. destruct (Z.eqb_spec z 0) as [->|N]; [reflexivity|].
  replace (z <? 0) with false by lia. rewrite (Z.abs_eq z) by lia. cbv zeta. unfold rat_f64. cbv zeta beta. change (Z.log2 1) with 0.
  pose proof (Z.log2_spec z ltac:(lia)) as [L1 L2]. pose proof (Z.log2_nonneg z) as L0. set (l := Z.log2 z) in *.
  assert (L3 : l < 53) by (apply (Z.pow_lt_mono_r_iff 2); lia). rewrite Z.pow_succ_r in L2 by lia.
  assert (P0 : 0 < 2 ^ (52 - l)) by (apply Z.pow_pos_nonneg; lia).
  assert (P1 : 2 ^ (53 - l) = 2 * 2 ^ (52 - l)) by (rewrite <- Z.pow_succ_r by lia; f_equal; lia).
  assert (PP : 2 ^ l * 2 ^ (52 - l) = 2 ^ 52) by (rewrite <- Z.pow_add_r by lia; f_equal; lia).
  replace (Z.max (-1074) (l - 0 - 53)) with (l - 53) by lia.
  replace (Z.max (- (l - 53)) 0) with (53 - l) by lia. replace (Z.max (l - 53) 0) with 0 by lia. change (1 * 2 ^ 0) with 1. rewrite Z.div_1_r.
  assert (B1 : 2 ^ 52 <= z * 2 ^ (52 - l) < 2 ^ 53) by (change (2 ^ 53) with (2 * 2 ^ 52); nia).
  replace (2 ^ 53 <=? z * 2 ^ (53 - l)) with true by (symmetry; apply Z.leb_le; rewrite P1; change (2 ^ 53) with (2 * 2 ^ 52); nia).
  replace (Z.max (- (l - 53 + 1)) 0) with (52 - l) by lia. replace (Z.max (l - 53 + 1) 0) with 0 by lia. change (1 * 2 ^ 0) with 1.
  rewrite Z.div_1_r, Z.mod_1_r. change (1 <? 2 * 0) with false. change (2 * 0 =? 1) with false. cbn [orb andb].
  replace (z * 2 ^ (52 - l) <? 2 ^ 52) with false by (symmetry; apply Z.ltb_ge; lia).
  replace ((l - 53 + 1 + 1075) * 2 ^ 52 + (z * 2 ^ (52 - l) - 2 ^ 52) <? 2047 * 2 ^ 52) with true by (symmetry; apply Z.ltb_lt; lia).
  f_equal. lia.
Qed.
Lemma float_bits_finite z : Z.abs z < 2 ^ 53 -> exists n m e, f64_of_bits (float_bits z) = Fin n m e.
Proof.
  intros H. destruct (float_bits_int z H) as (n & m & e & a & F & _). destruct (float_fields _ _ _ _ F) as (Q & _). eauto.
Qed.

(** ** What a value becomes *)
(** [v'] is what JSON makes of [v], once and again. *)
Fixpoint nesting (v : val) : Z :=
  match v with
  | VSlice l => 1 + fold_right Z.max 0 (map nesting l)
  | VMap m => 1 + fold_right Z.max 0 (map (fun p => nesting (snd p)) m)
  | VParams [] => 0
  | VParams l => 2 + fold_right Z.max 0 (map (fun p => nesting (snd p)) l)
  | VStrs (Some _) => 1
  | VBox _ ps cs => 3 + Z.max (fold_right Z.max 0 (map nesting ps)) (fold_right Z.max 0 (map nesting cs))
  | _ => 0
  end.
Definition becomes (v v' : val) : Prop :=
  exists j, marshal v = Some j /\ unmarshal j = Some v' /\ depth j <= nesting v.
Definition image (v v' : val) : Prop := becomes v v' /\ becomes v' v' /\ nesting v' <= nesting v.

Lemma image_nil : image VNil VNil.
Proof. split; [|split; [|reflexivity]]; exists JNull; repeat split; cbn; lia. Qed.
Lemma image_bool b : image (VBool b) (VBool b).
Proof. split; [|split; [|reflexivity]]; exists (JBool b); repeat split; cbn; lia. Qed.
Lemma image_str s : utf8 (s2b s) -> image (VStr s) (VStr s).
Proof. intros U. split; [|split; [|reflexivity]]; exists (JStr s); cbn [marshal unmarshal]; rewrite json_text_id by exact U; repeat split; cbn; lia. Qed.
Lemma image_float z : Z.abs z < 2 ^ 53 -> becomes (VF64 (float_bits z)) (VF64 (float_bits z)).
Proof.
  intros H. exists (JFloat (float_bits z)). destruct (float_bits_finite z H) as (n & m & e & F). cbn [marshal unmarshal]. rewrite F. repeat split; cbn; lia.
Qed.
Lemma image_number z v : In v [VInt z; VU16 z; VU32 z; VU64 z] -> 0 <= z < 2 ^ 53 -> image v (VF64 (float_bits z)).
Proof.
  intros I H. split; [|split; [apply image_float; lia|]].
  - exists (JInt z). cbn [unmarshal]. rewrite int_f64_small by exact H.
    destruct I as [<-|[<-|[<-|[<-|[]]]]]; repeat split; cbn; lia.
  - destruct I as [<-|[<-|[<-|[<-|[]]]]]; cbn; lia.
Qed.
Lemma dec_text_int z : dec_text z 0 = itoa z.
Proof. unfold dec_text. change (0 <=? 0) with true. cbv iota. change (10 ^ 0) with 1. now rewrite Z.mul_1_r. Qed.
Lemma itoa_utf8 z : 0 <= z -> utf8 (s2b (itoa z)).
Proof.
  intros H. apply ascii_utf8. destruct (itoa_numeral z H) as (F & _). eapply Forall_impl; [|exact F].
  intros c D. cbv beta in *. lia.
Qed.
Lemma image_dec z : 0 <= z -> image (VDec z 0) (VStr (itoa z)).
Proof.
  intros H. split.
  - exists (JStr (itoa z)). cbn [marshal unmarshal]. rewrite dec_text_int. repeat split; cbn; lia.
  - split; [|cbn; lia]. apply image_str. now apply itoa_utf8.
Qed.

Lemma all_some_Forall2 {A B} (f : A -> option B) (l : list A) (l' : list B) : Forall2 (fun a b => f a = Some b) l l' -> all_some f l = Some l'.
Proof. induction 1 as [|a b l l' H F IH]; [reflexivity|]. cbn [all_some]. now rewrite H, IH. Qed.
Lemma max_le (l l' : list Z) : Forall2 Z.le l l' -> fold_right Z.max 0 l <= fold_right Z.max 0 l'.
Proof. induction 1 as [|a b l l' H F IH]; [reflexivity|]. cbn [fold_right]. lia. Qed.

Lemma same_length {A B} {R : A -> B -> Prop} l l' : Forall2 R l l' -> List.length l = List.length l'.
Proof. induction 1; cbn; congruence. Qed.
(** Lists of values. *)
Lemma becomes_list gs gs' : Forall2 becomes gs gs' ->
  exists js, Forall2 (fun a b => marshal a = Some b) gs js /\ Forall2 (fun a b => unmarshal a = Some b) js gs'
    /\ Forall2 Z.le (map depth js) (map nesting gs).
Proof.
  induction 1 as [|g g' gs gs' (j & M & U & D) F (js & Ms & Us & Ds)]; [exists []; repeat split; constructor|].
  exists (j :: js). cbn [map]. repeat split; constructor; assumption.
Qed.
Lemma image_split gs gs' : Forall2 image gs gs' -> Forall2 becomes gs gs' /\ Forall2 becomes gs' gs' /\ Forall2 Z.le (map nesting gs') (map nesting gs).
Proof. induction 1 as [|g g' gs gs' (A & B & D) F (As & Bs & Ds)]; [repeat split; constructor|]. cbn [map]. repeat split; constructor; assumption. Qed.
Lemma becomes_slice gs gs' : Forall2 becomes gs gs' -> becomes (VSlice gs) (VSlice gs').
Proof.
  intros F. destruct (becomes_list _ _ F) as (js & M & U & D). exists (JArr js). cbn [marshal unmarshal].
  rewrite (all_some_Forall2 _ _ _ M), (all_some_Forall2 _ _ _ U). repeat split. cbn [depth nesting]. pose proof (max_le _ _ D). lia.
Qed.
(** The slice of no elements is nil. *)
Definition null_of (gs : list val) : val := match gs with [] => VNil | _ => VSlice gs end.
Lemma image_slice gs gs' : Forall2 image gs gs' -> image (slice_of gs) (null_of gs').
Proof.
  intros F. destruct (image_split _ _ F) as (A & B & D). destruct F as [|g g' gs gs' I F].
  - split; [|split; [exact (proj1 image_nil)|reflexivity]]. exists JNull. repeat split. cbn. lia.
  - cbn [slice_of null_of]. split; [now apply becomes_slice|]. split; [now apply becomes_slice|]. cbn [nesting]. pose proof (max_le _ _ D). lia.
Qed.
(** Maps. *)
Lemma becomes_map ns gs gs' : Forall (fun n => utf8 (s2b n)) ns -> List.length ns = List.length gs -> Forall2 becomes gs gs' ->
  becomes (VMap (combine ns gs)) (VMap (combine ns gs')).
Proof.
  intros N L F.
  assert (X : exists js, Forall2 (fun p q => match marshal (snd p) with Some j => Some (json_text (fst p), j) | None => None end = Some q) (combine ns gs) js
    /\ Forall2 (fun p q => match unmarshal (snd p) with Some v => Some (fst p, v) | None => None end = Some q) js (combine ns gs')
    /\ Forall2 Z.le (map (fun p => depth (snd p)) js) (map (fun p => nesting (snd p)) (combine ns gs))).
  { clear - N L F. revert ns N L. induction F as [|g g' gs gs' (j & M & U & D) F IH]; intros ns N L.
    - destruct ns; [|discriminate]. exists []. repeat split; constructor.
    - destruct ns as [|n ns]; [discriminate|]. inversion N as [|? ? Un Ns]; subst. injection L as L. destruct (IH ns Ns L) as (js & Ms & Us & Ds).
      exists ((n, j) :: js). cbn [combine map fst snd]. repeat split; constructor; cbn [fst snd]; try assumption.
      + now rewrite M, json_text_id.
      + now rewrite U. }
  destruct X as (js & M & U & D). exists (JObj js). cbn [marshal unmarshal].
  rewrite (all_some_Forall2 _ _ _ M), (all_some_Forall2 _ _ _ U). repeat split. cbn [depth nesting]. pose proof (max_le _ _ D). lia.
Qed.
Lemma nesting_combine ns : forall gs gs', List.length ns = List.length gs -> Forall2 Z.le (map nesting gs') (map nesting gs) ->
  nesting (VMap (combine ns gs')) <= nesting (VMap (combine ns gs)).
Proof.
  intros gs gs' L D. cbn [nesting].
  assert (Forall2 Z.le (map (fun p : string * val => nesting (snd p)) (combine ns gs')) (map (fun p : string * val => nesting (snd p)) (combine ns gs))).
  { revert gs gs' L D. induction ns as [|n ns IH]; intros [|g gs] gs' L D; try discriminate; cbn [combine map]; [constructor|].
    destruct gs' as [|g' gs']; inversion D; subst. cbn [combine map snd]. constructor; [assumption|]. injection L as L. apply IH; assumption. }
  pose proof (max_le _ _ H). lia.
Qed.
Lemma image_map ns gs gs' : Forall (fun n => utf8 (s2b n)) ns -> List.length ns = List.length gs -> Forall2 image gs gs' ->
  image (VMap (combine ns gs)) (VMap (combine ns gs')).
Proof.
  intros N L F. destruct (image_split _ _ F) as (A & B & D). pose proof (same_length _ _ F) as L2.
  split; [now apply becomes_map|]. split; [apply becomes_map; [exact N|congruence|exact B]|]. now apply nesting_combine.
Qed.
Lemma image_entry k g g' : utf8 (s2b k) -> image g g' -> image (VMap [(k, g)]) (VMap [(k, g')]).
Proof. intros U I. apply (image_map [k] [g] [g']); [now constructor|reflexivity|now constructor]. Qed.

(** ** Calls *)
(** The arguments as JSON objects, and what they are read back as. *)
Definition arg_obj (p : string * string * json) : json := json_arg (fst (fst p)) (snd (fst p)) (snd p).
Definition args_json (args : list (string * string)) (js : list json) : json :=
  match combine args js with [] => JNull | l => JArr (map arg_obj l) end.
Definition arg_map (p : string * string * val) : val := VMap [("name", VStr (fst (fst p))); ("type", VStr (snd (fst p))); ("value", snd p)].
Definition args_val (args : list (string * string)) (gs : list val) : val := null_of (map arg_map (combine args gs)).

Lemma arg_read n t j v : unmarshal j = Some v -> arg_of (json_arg n t j) = Some v.
Proof.
  intros U. unfold arg_of, json_arg.
  change (entries_of "name" _) with [JStr (json_text n)]. change (entries_of "type" _) with [JStr (json_text t)]. change (entries_of "value" _) with [j].
  cbn [string_field value_field]. now rewrite U.
Qed.
Lemma args_read args : forall js gs, List.length args = List.length js -> Forall2 (fun a b => unmarshal a = Some b) js gs ->
  args_field [] [args_json args js] = Some gs.
Proof.
  intros js gs L F. unfold args_json.
  assert (X : all_some arg_of (map arg_obj (combine args js)) = Some gs).
  { revert js gs L F. induction args as [|[n t] args IH]; intros [|j js] gs L F; try discriminate; inversion F as [|j' v js' gs' U Us]; subst; [reflexivity|].
    cbn [combine map all_some]. unfold arg_obj at 1. cbn [fst snd]. rewrite (arg_read n t j v U). injection L as L. now rewrite (IH js gs' L Us). }
  destruct (combine args js) as [|p l] eqn:Q.
  - cbn [args_field]. cbn in X. exact X.
  - cbn [args_field]. now rewrite X.
Qed.

Definition arg_texts (args : list (string * string)) : Prop := Forall (fun a => utf8 (s2b (fst a)) /\ utf8 (s2b (snd a))) args.
Lemma marshal_params args gs js : List.length args = List.length gs -> Forall2 (fun a b => marshal a = Some b) gs js ->
  marshal (VParams (combine args gs)) = Some (args_json args js).
Proof.
  intros L F. unfold args_json.
  assert (X : all_some (fun p : string * string * val => match marshal (snd p) with Some j => Some (json_arg (fst (fst p)) (snd (fst p)) j) | None => None end) (combine args gs)
              = Some (map arg_obj (combine args js))).
  { revert gs js L F. induction args as [|a args IH]; intros [|g gs] js L F; try discriminate; inversion F as [|g' j gs' js' M Ms]; subst; [reflexivity|].
    cbn [combine map all_some fst snd]. rewrite M. injection L as L. rewrite (IH gs js' L Ms). reflexivity. }
  destruct (combine args gs) as [|p l] eqn:Q.
  - injection X as X. destruct (combine args js); [reflexivity|discriminate].
  - change (marshal (VParams (p :: l))) with (match all_some (fun p : string * string * val => match marshal (snd p) with Some j => Some (json_arg (fst (fst p)) (snd (fst p)) j) | None => None end) (p :: l) with Some js => Some (JArr js) | None => None end).
    rewrite X. destruct (combine args js) as [|q r] eqn:Q2; [|reflexivity]. exfalso.
    destruct args, gs, js; try discriminate; inversion F.
Qed.
Lemma marshal_args_val args gs js : arg_texts args -> List.length args = List.length gs -> Forall2 (fun a b => marshal a = Some b) gs js ->
  marshal (args_val args gs) = Some (args_json args js).
Proof.
  intros T L F. unfold args_json, args_val.
  assert (X : all_some marshal (map arg_map (combine args gs)) = Some (map arg_obj (combine args js))).
  { revert gs js L F. induction T as [|[n t] args [Tn Tt] T IH]; intros [|g gs] js L F; try discriminate; inversion F as [|g' j gs' js' M Ms]; subst; [reflexivity|].
    cbn [combine map all_some]. unfold arg_map at 1. cbn [fst snd marshal all_some]. rewrite M.
    injection L as L. rewrite (IH gs js' L Ms). reflexivity. }
  destruct (combine args gs) as [|p l] eqn:Q.
  - injection X as X. destruct (combine args js); [reflexivity|discriminate].
  - cbn [map null_of]. change (marshal (VSlice (arg_map p :: map arg_map l))) with (match all_some marshal (map arg_map (p :: l)) with Some js => Some (JArr js) | None => None end).
    rewrite X. destruct (combine args js) as [|q r] eqn:Q2; [|reflexivity]. exfalso.
    destruct args, gs, js; try discriminate; inversion F.
Qed.
Lemma unmarshal_args args js gs : arg_texts args -> List.length args = List.length js -> Forall2 (fun a b => unmarshal a = Some b) js gs ->
  unmarshal (args_json args js) = Some (args_val args gs).
Proof.
  intros T L F. unfold args_json, args_val.
  assert (X : all_some unmarshal (map arg_obj (combine args js)) = Some (map arg_map (combine args gs))).
  { revert js gs L F. induction T as [|[n t] args [Tn Tt] T IH]; intros [|j js] gs L F; try discriminate; inversion F as [|j' g js' gs' U Us]; subst; [reflexivity|].
    cbn [combine map all_some]. unfold arg_obj at 1, json_arg. cbn [fst snd unmarshal all_some]. rewrite U.
    injection L as L. rewrite (IH js gs' L Us). cbn [fst snd] in Tn, Tt. rewrite (json_text_id n Tn), (json_text_id t Tt). reflexivity. }
  destruct (combine args js) as [|p l] eqn:Q.
  - injection X as X. destruct (combine args gs); [reflexivity|discriminate].
  - cbn [map] in *. cbn [unmarshal]. rewrite X. destruct (combine args gs) as [|q r] eqn:Q2; [|reflexivity]. exfalso.
    destruct args, gs, js; try discriminate; inversion F.
Qed.
Lemma depth_args args : forall js ds, List.length args = List.length js -> Forall2 Z.le (map depth js) ds ->
  depth (args_json args js) <= match js with [] => 0 | _ => 2 + fold_right Z.max 0 ds end.
Proof.
  intros js ds L F. unfold args_json. destruct args as [|a args], js as [|j js]; try discriminate. cbn [combine].
  cbn [depth]. assert (X : fold_right Z.max 0 (map depth (map arg_obj ((a, j) :: combine args js))) <= 1 + fold_right Z.max 0 (map depth (j :: js))).
  { clear F ds. injection L as L. revert a j js L. induction args as [|b args IH]; intros a j [|k js] L; try discriminate.
    - cbn [combine map fold_right arg_obj json_arg depth fst snd]. lia.
    - injection L as L. specialize (IH b k js L). cbn [combine map fold_right] in IH |- *. cbn [arg_obj json_arg depth fst snd map fold_right] in IH |- *. lia. }
  pose proof (max_le _ _ F). lia.
Qed.

Lemma nesting_params args gs : List.length args = List.length gs ->
  nesting (VParams (combine args gs)) = match gs with [] => 0 | _ => 2 + fold_right Z.max 0 (map nesting gs) end.
Proof.
  intros L. destruct gs as [|g gs]; [destruct args; reflexivity|]. destruct args as [|a args]; [discriminate|]. cbn [combine nesting map fold_right snd].
  injection L as L. do 2 f_equal. revert gs L. induction args as [|b args IH]; intros [|h gs] L; try discriminate; [reflexivity|].
  cbn [combine map fold_right snd]. injection L as L. now rewrite (IH gs L).
Qed.
Lemma nesting_args_val args gs : List.length args = List.length gs ->
  nesting (args_val args gs) = match gs with [] => 0 | _ => 2 + fold_right Z.max 0 (map nesting gs) end.
Proof.
  intros L. destruct gs as [|g gs]; [destruct args; reflexivity|]. destruct args as [|a args]; [discriminate|]. unfold args_val. cbn [combine map null_of nesting].
  assert (P : forall l : list Z, 0 <= fold_right Z.max 0 l) by (induction l; cbn; lia).
  enough (X : fold_right Z.max 0 (map nesting (map arg_map ((a, g) :: combine args gs))) = 1 + fold_right Z.max 0 (map nesting (g :: gs))).
  { cbn [map] in X. rewrite X. cbn [map]. lia. }
  injection L as L. revert a g gs L. induction args as [|b args IH]; intros a g [|h gs] L; try discriminate.
  - cbn [combine map fold_right arg_map nesting snd]. lia.
  - injection L as L. specialize (IH b h gs L). cbn [combine map fold_right] in IH |- *. cbn [arg_map nesting map fold_right snd] in IH |- *. lia.
Qed.
Lemma image_params args gs gs' : arg_texts args -> List.length args = List.length gs -> Forall2 image gs gs' ->
  image (VParams (combine args gs)) (args_val args gs').
Proof.
  intros T L F. destruct (image_split _ _ F) as (A & B & D). pose proof (same_length _ _ F) as L2.
  assert (N : nesting (args_val args gs') <= nesting (VParams (combine args gs))).
  { rewrite nesting_params, nesting_args_val by congruence. destruct F as [|g g' gs gs' I F]; [lia|]. pose proof (max_le _ _ D). lia. }
  split; [|split; [|exact N]].
  - destruct (becomes_list _ _ A) as (js & M & U & Dp). pose proof (same_length _ _ M) as L3. exists (args_json args js).
    split; [now apply marshal_params|]. split; [apply unmarshal_args; [exact T|congruence|exact U]|].
    rewrite nesting_params by exact L. pose proof (depth_args args js _ ltac:(congruence) Dp) as X. destruct js, gs; try discriminate; exact X.
  - destruct (becomes_list _ _ B) as (js & M & U & Dp). pose proof (same_length _ _ M) as L3. exists (args_json args js).
    split; [apply marshal_args_val; [exact T|congruence|exact M]|]. split; [apply unmarshal_args; [exact T|congruence|exact U]|].
    rewrite nesting_args_val by congruence. pose proof (depth_args args js _ ltac:(congruence) Dp) as X. destruct js, gs'; try discriminate; exact X.
Qed.

Definition call_fields (idx n mo : string) (p : val) : list (string * val) :=
  [("call_index", VStr idx); ("call_name", VStr n); ("call_module", VStr mo); ("params", p)].
Lemma box_read idx n mo p args js gs : utf8 (s2b idx) -> marshal p = Some (args_json args js) -> List.length args = List.length js ->
  Forall2 (fun a b => unmarshal a = Some b) js gs -> depth (args_json args js) <= 9999 -> json_box (call_fields idx n mo p) = Some (idx, gs, []).
Proof.
  intros U M L F D. unfold json_box, call_fields. cbn [marshal all_some snd fst]. rewrite M.
  set (o := [(json_text "call_index", JStr (json_text idx)); (json_text "call_name", JStr (json_text n)); (json_text "call_module", JStr (json_text mo)); (json_text "params", args_json args js)]).
  assert (DO : depth (JObj o) <=? 10000 = true).
  { apply Z.leb_le. unfold o. cbn [depth map snd fold_right]. lia. }
  rewrite DO. change (entries_of "call_Index" o) with [JStr (json_text idx)]. change (entries_of "params" o) with [args_json args js].
  change (entries_of "call_args" o) with (@nil json). cbn [string_field]. rewrite (args_read args js gs L F), (json_text_id idx U). reflexivity.
Qed.
Theorem call_image idx n mo args gs gs' : utf8 (s2b idx) -> utf8 (s2b n) -> utf8 (s2b mo) -> arg_texts args -> List.length args = List.length gs ->
  Forall2 image gs gs' ->
  let m := call_fields idx n mo (VParams (combine args gs)) in let m' := call_fields idx n mo (args_val args gs') in
  image (VMap m) (VMap m') /\ (nesting (VMap m) <= 10000 -> json_box m = Some (idx, gs', []) /\ json_box m' = Some (idx, gs', [])).
Proof.
  intros Ui Un Um T L F m m'. pose proof (image_params args gs gs' T L F) as IP. pose proof (same_length _ _ F) as L2.
  assert (IM : image (VMap m) (VMap m')).
  { apply (image_map ["call_index"; "call_name"; "call_module"; "params"] [VStr idx; VStr n; VStr mo; VParams (combine args gs)] [VStr idx; VStr n; VStr mo; args_val args gs']).
    - repeat (constructor; [apply utf8_valid_spec; reflexivity|]). constructor.
    - reflexivity.
    - repeat constructor; try (apply image_str; assumption). all: apply IP. }
  split; [exact IM|]. intros N. destruct (image_split _ _ F) as (A & B & D).
  assert (NP : nesting (VParams (combine args gs)) <= 9999) by (unfold m, call_fields in N; cbn [nesting map snd fold_right] in N; cbn [nesting]; lia).
  split.
  - destruct (becomes_list _ _ A) as (js & M & U & Dp). pose proof (same_length _ _ M) as L3.
    apply (box_read idx n mo _ args js gs' Ui); [now apply marshal_params|congruence|exact U|].
    rewrite nesting_params in NP by exact L. pose proof (depth_args args js _ ltac:(congruence) Dp) as X. destruct js, gs; try discriminate; lia.
  - destruct (becomes_list _ _ B) as (js & M & U & Dp). pose proof (same_length _ _ M) as L3.
    apply (box_read idx n mo _ args js gs' Ui); [apply marshal_args_val; [exact T|congruence|exact M]|congruence|exact U|].
    rewrite nesting_params in NP by exact L. pose proof (max_le _ _ D) as X2.
    pose proof (depth_args args js _ ltac:(congruence) Dp) as X. destruct js, gs, gs'; try discriminate; lia.
Qed.
