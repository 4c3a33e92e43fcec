(** From the codec of a type to the API calls: decode and encode of any type
    string that resolves to it. *)

From Verif Require Import GoBase SpecNum ProofsBase ModelTools ProofsTools ModelVal ModelJson ModelRegistry ModelDecode ModelEncode
  ModelRegister ProofsRun SpecScale ProofsReads ProofsScale ProofsEncode.

Lemma Decodes_reads E c ts cd f bs g cs pre tl : resolves E c ts cd -> reads (decode f E) [] (process E c cd) bs g cs ->
  blen (pre ++ bs ++ tl) < 2 ^ 63 -> Decodes E c (pre ++ bs ++ tl) (blen pre) ts (Ok (g, blen pre + blen bs, cs)).
Proof.
  intros R H L. split; [discriminate|]. exists (S f). now apply (Dec_resolves f E c ts cd bs g cs R H).
Qed.

Lemma Decodes_next E c ts cd n k bs g pre tl : resolves E c ts cd -> process E c cd = Next n k -> n = blen bs -> k bs = Ret g ->
  blen (pre ++ bs ++ tl) < 2 ^ 63 -> Decodes E c (pre ++ bs ++ tl) (blen pre) ts (Ok (g, blen pre + blen bs, [])).
Proof.
  intros R P N K L. apply (Decodes_reads E c ts cd O bs g [] pre tl R); [|exact L]. rewrite P. now apply reads_next_ret.
Qed.

Lemma not_null E c ts cd : std_env E -> resolves E c ts cd -> cd <> CNull -> equal_fold ts "Null" = false.
Proof.
  intros S R N. destruct (equal_fold ts "Null") eqn:EN; [|reflexivity].
  exfalso. apply N. eapply resolves_fun; [exact R|]. now apply null_resolves.
Qed.

Lemma EncodesTo_fuel E spec meta ts cd v f r : std_env E -> resolves E (Ctx spec "" meta) ts cd -> cd <> CNull ->
  (forall f', (f <= f')%nat -> encode_codec E (encode f' E) spec meta cd (norm v) = r) -> r <> OutOfFuel ->
  EncodesTo E spec meta ts v (o <- r ;; Ok (TrimHex (to_lower o))).
Proof.
  intros S R N H NO. pose proof (not_null _ _ _ _ S R N) as NN. destruct R as (cd0 & sub & G & I).
  split; [destruct r; [discriminate|discriminate|congruence]|].
  exists (Datatypes.S f). intros f' L. destruct f' as [|f']; [lia|]. cbn [encode]. rewrite NN.
  cbn [x_module x_spec] in G. rewrite G. cbn [bind]. rewrite I.
  specialize (H f' ltac:(lia)). unfold norm in H. rewrite H. reflexivity.
Qed.

Lemma EncodesTo_const E spec meta ts cd v r : std_env E -> resolves E (Ctx spec "" meta) ts cd -> cd <> CNull ->
  (forall rec, encode_codec E rec spec meta cd (norm v) = r) -> r <> OutOfFuel ->
  EncodesTo E spec meta ts v (o <- r ;; Ok (TrimHex (to_lower o))).
Proof. intros S R N H NO. now apply (EncodesTo_fuel E spec meta ts cd v O). Qed.

Lemma Encodes_hex E spec meta ts cd v b : std_env E -> resolves E (Ctx spec "" meta) ts cd -> cd <> CNull ->
  (forall rec, encode_codec E rec spec meta cd (norm v) = Ok (hex_encode b)) -> Encodes E spec meta ts v (hex_encode b).
Proof.
  intros S R N H. pose proof (EncodesTo_const E spec meta ts cd v (Ok (hex_encode b)) S R N H ltac:(discriminate)) as P.
  cbn [bind] in P. now rewrite trim_lower_hex in P.
Qed.

Lemma EncodesTo_det E spec meta ts v r1 r2 : EncodesTo E spec meta ts v r1 -> EncodesTo E spec meta ts v r2 -> r1 = r2.
Proof.
  intros (_ & f1 & H1) (_ & f2 & H2). rewrite <- (H1 (Nat.max f1 f2)) by lia. apply H2. lia.
Qed.

(** A decimal that stands for the integer [z]. *)
Definition dec_is (c e z : Z) : Prop := if 0 <=? e then z = c * 10 ^ e else c = z * 10 ^ (- e).
Lemma dec_int_is c e z : dec_is c e z -> dec_int c e = z.
Proof.
  unfold dec_is, dec_int. destruct (0 <=? e) eqn:L; [congruence|]. intros ->. apply Z.quot_mul.
  apply Z.pow_nonzero; lia.
Qed.

(** The built-in registry is standard. *)
Lemma base_std : std_env (reg_env base_reg).
Proof.
  intros k cd I. cbn [In] in I. repeat (destruct I as [I|I]; [injection I as <- <-; split; vm_compute; reflexivity|]). contradiction.
Qed.

(** ** More fuel does not change a finished encode *)
Definition le_res {A} (a b : res A) : Prop := a = OutOfFuel \/ a = b.
Definition le_enc (r1 r2 : encoder) : Prop := forall s m t v, le_res (r1 s m t v) (r2 s m t v).

Lemma le_res_refl {A} (a : res A) : le_res a a.
Proof. now right. Qed.
Lemma le_res_bind {A B} (a b : res A) (f g : A -> res B) : le_res a b -> (forall x, le_res (f x) (g x)) -> le_res (bind a f) (bind b g).
Proof. intros [->| ->] H; [now left|]. destruct b; cbn [bind]; [apply H|now right|now left]. Qed.
Lemma le_res_concat l1 l2 : Forall2 le_res l1 l2 -> le_res (concat_res l1) (concat_res l2).
Proof.
  induction 1; cbn [concat_res]; [apply le_res_refl|]. apply le_res_bind; [assumption|]. intros s.
  apply le_res_bind; [assumption|]. intros t. apply le_res_refl.
Qed.
Lemma le_res_map {A} (f g : A -> res string) l : (forall x, le_res (f x) (g x)) -> Forall2 le_res (map f l) (map g l).
Proof. intros H. induction l; cbn; constructor; auto. Qed.

Section Mono.
Variables r1 r2 : encoder.
Hypothesis LE : le_enc r1 r2.

Lemma le_rows s m rows fm : le_res (encode_rows (r1 s m) rows fm) (encode_rows (r2 s m) rows fm).
Proof.
  induction rows as [|[|n [|t rest]] rows IH]; cbn [encode_rows]; try apply le_res_refl.
  apply le_res_bind; [apply LE|]. intros a. apply le_res_bind; [exact IH|]. intros b. apply le_res_refl.
Qed.
Lemma le_args s m args ps : le_res (encode_args (r1 s m) args ps) (encode_args (r2 s m) args ps).
Proof.
  revert ps. induction args as [|[n t] args IH]; intros ps; cbn [encode_args]; [apply le_res_refl|].
  destruct ps as [|v ps]; [apply le_res_refl|].
  apply le_res_bind; [apply LE|]. intros a. apply le_res_bind; [apply IH|]. intros b. apply le_res_refl.
Qed.
Lemma le_enum_map s m tm mm :
  match encode_enum_map (r1 s m) tm mm, encode_enum_map (r2 s m) tm mm with
  | Some a, Some b => le_res a b | None, None => True | _, _ => False end.
Proof.
  induction mm as [|[k v] mm IH]; cbn [encode_enum_map]; [exact I|].
  destruct (name_index k 0 tm) as [[i sub]|]; [|exact IH].
  destruct (struct_variant sub) as [rows|].
  - destruct v; try apply le_res_refl. apply le_res_bind; [apply le_rows|]. intros a. apply le_res_refl.
  - apply le_res_bind; [apply LE|]. intros a. apply le_res_refl.
Qed.

Ltac mono := repeat first
  [ apply le_res_refl
  | apply LE
  | apply le_rows | apply le_args
  | apply le_res_concat; apply le_res_map; intros
  | apply le_res_bind; [|intros]
  | match goal with |- le_res (match ?x with _ => _ end) _ => destruct x end ].

Lemma encode_codec_mono E s m cd v : le_res (encode_codec E r1 s m cd v) (encode_codec E r2 s m cd v).
Proof.
  destruct cd; cbn [encode_codec]; unfold on_string, on_map, encode_bytes, encode_hex_bytes, encode_string, encode_bitvec, len_prefix;
    try (mono; fail).
  - (* enum *)
    unfold encode_enum. destruct tm as [tm|]; [|apply le_res_refl].
    destruct (if c_like tm then c_like_index E v tm else None); [apply le_res_refl|].
    destruct v; try apply le_res_refl. pose proof (le_enum_map s m tm m0) as H.
    destruct (encode_enum_map (r1 s m) tm m0), (encode_enum_map (r2 s m) tm m0); try contradiction; [exact H|apply le_res_refl].
  - (* call *)
    unfold encode_call. mono.
  - (* data *)
    destruct v; try apply le_res_refl. unfold encode_data. mono.
Qed.
End Mono.

Lemma encode_mono_S E f : le_enc (encode f E) (encode (S f) E).
Proof.
  induction f as [|f IH]; intros s m t v; [now left|]. cbn [encode].
  destruct (equal_fold t "Null"); [apply le_res_refl|]. apply le_res_bind; [apply le_res_refl|]. intros [[cd sub]|]; [|apply le_res_refl].
  apply le_res_bind; [|intros; apply le_res_refl]. now apply encode_codec_mono.
Qed.

Theorem encode_enough E spec meta ts v f r : encode f E spec meta ts v = r -> r <> OutOfFuel -> EncodesTo E spec meta ts v r.
Proof.
  intros H N. split; [exact N|]. exists f. intros f' L. induction L as [|f' L IH]; [exact H|].
  destruct (encode_mono_S E f' spec meta ts v) as [O|Q]; congruence.
Qed.
