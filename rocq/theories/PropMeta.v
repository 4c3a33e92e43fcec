(** Properties C64 to C66: runtime metadata is read from its bytes as the wire
    format says (SpecMeta.v). *)

From Verif Require PropForms.
From Verif Require Import GoBase SpecNum ModelTools ModelVal ModelRegistry ModelDecode ModelEncode ModelRegister SpecScale ModelScaleInfo ModelMetadata ModelMeta SpecMeta
  ProofsBase ProofsTools ProofsRun ProofsReads ProofsScale ProofsApi PropCodec ProofsNames ProofsTexts ProofsPortReg ProofsFrame ProofsMeta.

(** ** The registry *)
Lemma registry_env r spec : meta_registry r -> meta_env (reg_env r) spec.
Proof.
  intros (K & V & O & S). assert (F : forall k, In k meta_names -> find_key (reg_env r) k spec = assoc k (r_types r)).
  { intros k I. unfold find_key, specialVersionCodec. cbn [e_special reg_env e_reg]. now rewrite S. }
  split; [|split].
  - intros k cd I. rewrite F; [now apply K|]. unfold meta_names. apply in_or_app. left. apply in_map_iff. now exists (k, cd).
  - intros t I. rewrite F; [now apply V|]. unfold meta_names. apply in_or_app. right. apply in_or_app. left. apply in_map_iff. now exists t.
  - intros t I. rewrite F; [now apply O|]. unfold meta_names. apply in_or_app. right. apply in_or_app. right. apply in_map_iff. now exists t.
Qed.
Lemma registry_std r : meta_registry r -> std_env (reg_env r).
Proof.
  intros (K & _ & _ & S) k cd I. cbn [In] in I. destruct I as [I|[I|[I|[]]]]; injection I as <- <-; (split; [apply K; vm_compute; tauto|apply S; vm_compute; tauto]).
Qed.
Lemma registry_same r r' : (forall k, In k meta_names -> same_at k r r') -> meta_registry r -> meta_registry r'.
Proof.
  intros H (K & V & O & S). split; [|split; [|split]].
  - intros k cd I. destruct (H k) as [-> _]; [|now apply K]. unfold meta_names. apply in_or_app. left. apply in_map_iff. now exists (k, cd).
  - intros t I. destruct (H (to_lower ("Vec<" ++ t ++ ">"))) as [-> _]; [|now apply V]. unfold meta_names. apply in_or_app. right. apply in_or_app. left. apply in_map_iff. now exists t.
  - intros t I. destruct (H (to_lower ("Option<" ++ t ++ ">"))) as [-> _]; [|now apply O]. unfold meta_names. apply in_or_app. right. apply in_or_app. right. apply in_map_iff. now exists t.
  - intros k I. destruct (H k I) as [_ ->]. now apply S.
Qed.
Definition free_keyb (k : string) : bool :=
  negb (String.eqb k "") && negb (existsb (fun a => Ascii.eqb a "#"%char || Ascii.eqb a ":"%char || Ascii.eqb a "@"%char) (s2b k))
  && negb (String.eqb k "extrinsicsignature") && negb (String.eqb k "extrinsicsigner").
Lemma free_keyb_ok k : free_keyb k = true -> free_key k.
Proof.
  unfold free_keyb, free_key. intros H. repeat (apply andb_true_iff in H; destruct H as [H ?]). repeat match goal with X : negb _ = true |- _ => apply negb_true_iff in X end.
  assert (C : forall a, Ascii.eqb a "#"%char || Ascii.eqb a ":"%char || Ascii.eqb a "@"%char = true -> ~ has_char a k).
  { intros a A I. assert (X : existsb (fun a => Ascii.eqb a "#"%char || Ascii.eqb a ":"%char || Ascii.eqb a "@"%char) (s2b k) = true); [|congruence].
    apply existsb_exists. exists a. now split. }
  split; [now apply String.eqb_neq|]. split; [now apply C|]. split; [now apply C|]. split; [now apply C|]. split; now apply String.eqb_neq.
Qed.
Lemma meta_names_free k : In k meta_names -> free_key k.
Proof. intros I. apply free_keyb_ok. revert k I. apply forallb_forall. vm_compute. reflexivity. Qed.
(** Registering the types of a runtime keeps those names, unless the runtime
    declares a type that goes by one of them alone. *)
Lemma registry_kept f c r s : meta_registry r -> ProcessSiType f c r = Ok s -> i_prefix c = "" -> plain_paths (i_port c) ->
  (forall k, In k meta_names -> free_name (i_port c) k) -> meta_registry (g_reg s).
Proof.
  intros M P X H F. eapply registry_same; [|exact M]. intros k I. eapply portable_frame; [exact P|exact X|exact H|now apply meta_names_free|now apply F].
Qed.

(** ** Reading *)
Lemma reads r c t b g : meta_registry r -> sc0 (reg_env r) c t b g -> forall pre tl, blen (pre ++ b ++ tl) < 2 ^ 63 ->
  exists f0, forall f, (f0 <= f)%nat -> read f c r (pre ++ b ++ tl) (blen pre) t = Ok (g, blen pre + blen b).
Proof.
  intros M S pre tl L. destruct (C15_decode (reg_env r) c t b g [] pre tl (registry_std r M) S L) as [_ [f0 D]]. exists f0. intros f F.
  unfold read. rewrite (decode_mono f0 f (reg_env r) F _ _ _ _ _ D) by discriminate. reflexivity.
Qed.

(** ** C64: the portable type registry *)
Theorem C64_registry r c l pre tl : meta_registry r -> registry_ok l -> blen (pre ++ registry_enc l ++ tl) < 2 ^ 63 ->
  exists f0, forall f, (f0 <= f)%nat ->
  exists x, read f c r (pre ++ registry_enc l ++ tl) (blen pre) "PortableRegistry" = Ok (slice_of x, blen pre + blen (registry_enc l)) /\
  InitPortableRaw (VSlice x) = Ok (declared l).
Proof.
  intros M K L. destruct (reads r c _ _ _ M (sc0_registry (reg_env r) c (registry_env r _ M) l K) pre tl L) as [f0 F].
  exists f0. intros f G. exists (map entry_val l). split; [now apply F|apply init_portable].
Qed.

(** ** C66: the header *)
Definition magic : bytes := s2b "meta".
(** What may stand before the magic word: nothing, no length, or a length. *)
Inductive lead : bytes -> Prop :=
| ld_none : lead []
| ld_no_length : lead [Zb 0]
| ld_length n : 0 <= n < 2 ^ 32 -> lead (Zb 1 :: compact n).
Definition versions : list string :=
  ["MetadataV0Decoder"; "MetadataV1Decoder"; "MetadataV2Decoder"; "MetadataV3Decoder"; "MetadataV4Decoder"; "MetadataV5Decoder"; "MetadataV6Decoder"; "MetadataV7Decoder"; "MetadataV8Decoder"; "MetadataV9Decoder"; "MetadataV10Decoder"; "MetadataV11Decoder"; "MetadataV12Decoder"; "MetadataV13Decoder"; "MetadataV14Decoder"; "MetadataV15Decoder"].
Lemma sc0_length E c n : meta_env E (x_spec c) -> 0 <= n < 2 ^ 32 -> sc0 E c "Compact<u32>" (compact n) (VInt n).
Proof.
  intros (K & _) B. eapply (sc0_at E c "Compact<u32>" CCompactU32); [|apply sc_compact_u32; [lia|discriminate]].
  exists CCompactU32, "". split; [|reflexivity]. apply resolve_key.
  - change "Compact<u32>" with ("Compact" ++ "<" ++ "u32" ++ ">"). apply good_generic; [vm_compute; tauto|]. apply name_good, nameb_ok. reflexivity.
  - reflexivity.
  - vm_compute. intuition discriminate.
  - apply K. vm_compute; tauto.
Qed.
Lemma read_lead r c h : meta_registry r -> lead h -> h <> [] -> forall tl, blen (h ++ tl) < 2 ^ 63 ->
  exists f0, forall f, (f0 <= f)%nat -> exists v, read f c r (h ++ tl) 0 "Option<Compact<u32>>" = Ok (v, blen h).
Proof.
  intros M H N tl L. assert (S : exists o : option Z, h = opt_enc compact o /\ opt_ok id_ok o).
  { destruct H as [| |n B]; [contradiction| |].
    - exists None. split; [reflexivity|exact I].
    - exists (Some n). split; [reflexivity|exact B]. }
  destruct S as (o & -> & O). pose proof (registry_env r (x_spec c) M) as ENV.
  assert (S : sc0 (reg_env r) c ("Option<" ++ "Compact<u32>" ++ ">") (opt_enc compact o) (opt_val VInt o)).
  { apply (sc0_opt (reg_env r) c ENV "Compact<u32>" compact VInt id_ok); [vm_compute; tauto|exact O|]. intros n B. now apply sc0_length. }
  destruct (reads r c _ _ _ M S [] tl L) as [f0 F]. exists f0. intros f G. exists (opt_val VInt o). exact (F f G).
Qed.
Lemma next_at pre d tl n off : off = blen pre -> n = blen d -> blen (pre ++ d ++ tl) < 2 ^ 63 -> next_bytes (pre ++ d ++ tl) off n = Ok (d, off + n).
Proof.
  intros -> -> L. assert (B : blen (pre ++ d ++ tl) = blen pre + blen d + blen tl) by (unfold blen; rewrite !app_length; lia).
  assert (P : 0 <= blen pre /\ 0 <= blen d /\ 0 <= blen tl) by (unfold blen; lia). change (2 ^ 63) with two63 in L.
  rewrite next_bytes_ok by lia. f_equal. f_equal; [|lia]. unfold rest, blen. rewrite !Nat2Z.id, skipn_app, skipn_all, Nat.sub_diag. cbn [skipn app].
  now rewrite firstn_app, firstn_all, Nat.sub_diag, app_nil_r.
Qed.
Lemma slice_at pre x tl : slice (pre ++ [x] ++ tl) (blen pre) (blen pre + 1) = Ok [x].
Proof.
  change ([x] ++ tl)%list with (x :: tl).
  assert (B : blen (pre ++ x :: tl) = blen pre + 1 + blen tl) by (unfold blen; rewrite app_length; cbn [List.length]; lia).
  assert (P : 0 <= blen pre /\ 0 <= blen tl) by (unfold blen; lia). rewrite slice_ok by lia. replace (blen pre + 1 - blen pre) with 1 by lia.
  unfold blen. rewrite Nat2Z.id, skipn_app, skipn_all, Nat.sub_diag. reflexivity.
Qed.
Lemma lead_not_magic h tl d : lead h -> h <> [] -> d = firstn 4 (h ++ tl)%list -> is_magic d = false.
Proof.
  intros H N ->. destruct H as [| |n B]; [contradiction| |]; cbn [app firstn]; unfold is_magic; cbn [b2s]; reflexivity.
Qed.
Lemma read_version r c v pre tl : meta_registry r -> 0 <= v < 16 -> blen (pre ++ [Zb v] ++ tl) < 2 ^ 63 ->
  exists f0, forall f, (f0 <= f)%nat -> read f c r (pre ++ [Zb v] ++ tl) (blen pre) "MetadataVersion" = Ok (VStr (nth (Z.to_nat v) versions ""), blen pre + 1).
Proof.
  intros M V L. destruct (nth_listed versions v) as [N Q]; [exact V|reflexivity|].
  assert (S : sc0 (reg_env r) c "MetadataVersion" [Zb v] (VStr (nth (Z.to_nat v) versions ""))).
  { eapply sc0_value; [|lia|exact N|exact Q]. apply (key_look (reg_env r) c (registry_env r _ M) "MetadataVersion" (CEnum None versions)); reflexivity. }
  exact (reads r c _ _ _ M S pre tl L).
Qed.
Theorem C66_header r c h v tl : meta_registry r -> lead h -> 0 <= v < 16 -> blen (h ++ magic ++ [Zb v] ++ tl) < 2 ^ 63 ->
  exists f0, forall f, (f0 <= f)%nat ->
  metadata_header f c r (h ++ magic ++ [Zb v] ++ tl) = Ok (Some (v, nth (Z.to_nat v) versions "", blen h + 5)).
Proof.
  intros M H V L. assert (A : (h ++ magic ++ [Zb v] ++ tl = (h ++ magic) ++ [Zb v] ++ tl)%list) by now rewrite <- app_assoc.
  assert (BM : blen (h ++ magic) = blen h + 4) by (unfold blen; rewrite app_length; change (List.length magic) with 4%nat; lia).
  assert (B0 : 0 <= blen h) by (unfold blen; lia).
  destruct (read_version r c v (h ++ magic) tl M V ltac:(now rewrite <- A)) as [f1 F1].
  assert (TAIL : forall f, (f1 <= f)%nat -> (if is_magic magic then
      d <- slice (h ++ magic ++ [Zb v] ++ tl) (blen h + 4) (blen h + 4 + 1) ;;
      '(x, o) <- read f c r (h ++ magic ++ [Zb v] ++ tl) (blen h + 4) "MetadataVersion" ;;
      match x with VStr n => Ok (Some (head_u8 d, n, o)) | _ => Panic "interface conversion: interface {} is not string" end
    else Ok None) = Ok (Some (v, nth (Z.to_nat v) versions "", blen h + 5))).
  { intros f G. change (is_magic magic) with true. cbv iota. rewrite A, <- BM. rewrite (slice_at (h ++ magic) (Zb v) tl). cbn [bind]. rewrite (F1 f G). cbn [bind].
    rewrite BM. replace (blen h + 4 + 1) with (blen h + 5) by lia. cbn [head_u8]. rewrite bZ_Zb_small by lia. reflexivity. }
  destruct h as [|x h].
  - exists f1. intros f G. unfold metadata_header.
    rewrite (next_at [] magic ([Zb v] ++ tl) 4 0 eq_refl eq_refl L). cbn [bind]. change (is_magic magic) with true. cbv iota. cbn [bind]. exact (TAIL f G).
  - set (h' := x :: h) in *. assert (N : h' <> []) by discriminate. destruct (read_lead r c h' M H N (magic ++ [Zb v] ++ tl)%list L) as [f0 F0].
    exists (Nat.max f0 f1). intros f G. unfold metadata_header. destruct (F0 f ltac:(lia)) as [w W]. rewrite W.
    rewrite next_bytes_ok; [|unfold blen; lia|lia|unfold two63; lia]. cbn [bind].
    assert (NM : is_magic (firstn (Z.to_nat 4) (rest (h' ++ magic ++ [Zb v] ++ tl) 0)) = false) by (apply (lead_not_magic h' (magic ++ [Zb v] ++ tl)%list); [exact H|exact N|reflexivity]).
    rewrite NM. cbn [bind].
    rewrite (next_at h' magic ([Zb v] ++ tl) 4 (blen h') eq_refl eq_refl L). cbn [bind]. apply TAIL. lia.
Qed.

(** Only what begins with the magic word, possibly after such a length, is
    taken for metadata; the next byte is the version. *)
Lemma taken b o d o' x : 0 <= o <= blen b -> next_bytes b o 4 = Ok (d, o') -> is_magic d = true -> slice b o' (o' + 1) = Ok x ->
  exists h v tl, b = (h ++ magic ++ [Zb v] ++ tl)%list /\ blen h = o /\ 0 <= v < 256 /\ head_u8 x = v.
Proof.
  intros B N M S. destruct (next_bytes_offset b o 4 d o' B N) as [B' D]. apply String.eqb_eq in M.
  assert (DM : d = magic) by (unfold magic; now rewrite <- M, s2b_b2s). clear M. unfold slice in S.
  destruct ((0 <=? o') && (o' <=? o' + 1) && (o' + 1 <=? blen b)) eqn:Q; [|discriminate]. injection S as <-. replace (o' + 1 - o') with 1 by lia. assert (L : o' + 1 <= blen b) by lia. clear Q N.
  subst d. assert (LM : Z.to_nat (o' - o) = 4%nat).
  { assert (X : List.length (firstn (Z.to_nat (o' - o)) (skipn (Z.to_nat o) b)) = 4%nat) by (rewrite DM; reflexivity). rewrite firstn_length, skipn_length in X. unfold blen in *. lia. }
  rewrite LM in DM. assert (SK : skipn (Z.to_nat o') b = skipn 4 (skipn (Z.to_nat o) b)) by (rewrite skipn_skipn; f_equal; lia). rewrite SK.
  assert (RL : (5 <= List.length (skipn (Z.to_nat o) b))%nat) by (rewrite skipn_length; unfold blen in *; lia).
  exists (firstn (Z.to_nat o) b). destruct (skipn 4 (skipn (Z.to_nat o) b)) as [|y tl] eqn:T.
  { apply (f_equal (@List.length _)) in T. rewrite skipn_length in T. cbn [List.length] in T. lia. }
  exists (bZ y), tl. split; [|split; [|split]].
  - rewrite <- (firstn_skipn (Z.to_nat o) b) at 1. f_equal. rewrite <- (firstn_skipn 4 (skipn (Z.to_nat o) b)), DM, T. cbn [app]. now rewrite Zb_bZ.
  - unfold blen. rewrite firstn_length. unfold blen in *. lia.
  - apply bZ_range.
  - reflexivity.
Qed.
Theorem C66_sound f c r b v n o : metadata_header f c r b = Ok (Some (v, n, o)) ->
  exists h tl, b = (h ++ magic ++ [Zb v] ++ tl)%list /\ 0 <= v < 256 /\
  (h = [] \/ exists w, read f c r b 0 "Option<Compact<u32>>" = Ok (w, blen h)).
Proof.
  unfold metadata_header. destruct (next_bytes b 0 4) as [[d o1]| |] eqn:N; [|discriminate..]. cbn [bind]. assert (B0 : 0 <= 0 <= blen b) by (unfold blen; lia).
  destruct (is_magic d) eqn:M.
  - cbn [bind]. rewrite M. destruct (slice b o1 (o1 + 1)) as [x| |] eqn:S; [|discriminate..]. cbn [bind].
    destruct (read f c r b o1 "MetadataVersion") as [[w o2]| |]; [|discriminate..]. cbn [bind]. destruct w; try discriminate. intros [= <- _ _].
    destruct (taken b 0 d o1 x B0 N M S) as (h & v & tl & E & L & V & Q). exists h, tl. rewrite Q. split; [exact E|]. split; [exact V|left]. destruct h; [reflexivity|discriminate L].
  - destruct (read f c r b 0 "Option<Compact<u32>>") as [[w0 o2]| |] eqn:R; [|discriminate..]. cbn [bind].
    destruct (next_bytes b o2 4) as [[d' o3]| |] eqn:N2; [|discriminate..]. cbn [bind]. destruct (is_magic d') eqn:M2; [|discriminate].
    destruct (slice b o3 (o3 + 1)) as [x| |] eqn:S; [|discriminate..]. cbn [bind].
    destruct (read f c r b o3 "MetadataVersion") as [[w o4]| |]; [|discriminate..]. cbn [bind]. destruct w; try discriminate. intros [= <- _ _].
    assert (B2 : 0 <= o2 <= blen b).
    { unfold read in R. destruct (decode f (reg_env r) c b 0 "Option<Compact<u32>>") as [[[w1 o5] cs]| |] eqn:D; [|discriminate..]. cbn [bind] in R. injection R as <- <-.
      exact (decode_forward f (reg_env r) _ _ _ _ _ _ _ B0 D). }
    destruct (taken b o2 d' o3 x B2 N2 M2 S) as (h & v & tl & E & L & V & Q). exists h, tl. rewrite Q. split; [exact E|]. split; [exact V|right]. exists w0. now rewrite L.
Qed.

(** What contains no magic word is refused with an error, whatever it is. *)
Lemma next_total b o n : 0 <= o <= blen b -> 0 <= n < 2 ^ 60 -> blen b < 2 ^ 60 -> exists d o', next_bytes b o (i64 n) = Ok (d, o') /\ 0 <= o' <= blen b.
Proof.
  intros B N L. rewrite i64_small by (unfold two63; lia). rewrite next_bytes_ok by (unfold two63 in *; lia). eexists _, _. split; [reflexivity|lia].
Qed.
Lemma compact_total rec st k b o cs : (forall len d, exists v, k len d = Ret v) -> 0 <= o <= blen b -> blen b < 2 ^ 60 ->
  exists v o', run rec st (compact_bytes k) b o cs = Ok (v, o', cs) /\ 0 <= o' <= blen b.
Proof.
  intros K B L. unfold compact_bytes. cbn [run]. destruct (next_total b o 1 B ltac:(lia) L) as (d & o1 & -> & B1). cbn [bind].
  assert (R : forall n len (g : bytes -> bytes), 0 <= n < 2 ^ 60 -> exists v o', run rec st (r <~ next n ; k len (g r)) b o1 cs = Ok (v, o', cs) /\ 0 <= o' <= blen b).
  { intros n len g N. cbn [run]. destruct (next_total b o1 n B1 N L) as (e & o2 & -> & B2). cbn [bind]. destruct (K len (g e)) as [v ->]. cbn [run]. now exists v, o2. }
  destruct d as [|x d].
  { destruct (K 1 []) as [v ->]. cbn [run]. now exists v, o1. }
  pose proof (bZ_range x) as X. pose proof (Z.mod_pos_bound (bZ x) 4 ltac:(lia)) as Y. cbn [head_u8].
  assert (D : bZ x mod 4 = 0 \/ bZ x mod 4 = 1 \/ bZ x mod 4 = 2 \/ bZ x mod 4 = 3) by lia.
  destruct D as [D|[D|[D|D]]]; rewrite D.
  - destruct (K 1 (x :: d)) as [v ->]. cbn [run]. now exists v, o1.
  - apply R. lia.
  - apply R. lia.
  - apply (R _ _ (fun r => r)). pose proof (Z.div_le_lower_bound (bZ x - 3) 4 (-1) ltac:(lia) ltac:(lia)). pose proof (Z.div_le_upper_bound (bZ x - 3) 4 100 ltac:(lia) ltac:(lia)). lia.
Qed.
Lemma lead_total r c b f : meta_registry r -> blen b < 2 ^ 60 -> (2 <= f)%nat -> exists v o, read f c r b 0 "Option<Compact<u32>>" = Ok (v, o) /\ 0 <= o <= blen b.
Proof.
  intros M L F. destruct f as [|[|f]]; [lia..|]. pose proof (registry_env r (x_spec c) M) as ENV.
  destruct (opt_resolves (reg_env r) c ENV "Compact<u32>") as (cd & s & G & J); [vm_compute; tauto|]. change ("Option<" ++ "Compact<u32>" ++ ">") with "Option<Compact<u32>>" in G.
  assert (R2 : GetCodecClass (reg_env r) (x_module c) "Compact<u32>" (x_spec c) = Ok (Some (CCompactU32, ""))).
  { destruct ENV as (K & _). apply resolve_key.
    - change "Compact<u32>" with ("Compact" ++ "<" ++ "u32" ++ ">"). apply good_generic; [vm_compute; tauto|]. apply name_good, nameb_ok. reflexivity.
    - reflexivity.
    - vm_compute. intuition discriminate.
    - apply K. vm_compute; tauto. }
  unfold read. change (decode (S (S f))) with (fun E c data off ts => r <- GetCodecClass E (x_module c) ts (x_spec c) ;;
      match r with None => Panic ("Not found decoder class " ++ ts) | Some (cd, sub) => run (decode (S f) E) off (process E c (init_sub cd sub)) data off [] end). cbv beta.
  rewrite G. cbn [bind]. rewrite J. unfold process at 1. cbn [run].
  destruct (next_total b 0 1 ltac:(unfold blen; lia) ltac:(lia) L) as (d & o1 & -> & B1). cbn [bind].
  destruct (negb (String.eqb "Compact<u32>" "") && negb (String.eqb (BytesToHex d) "00")).
  - change (String.eqb "Compact<u32>" "bool") with false. cbv iota. cbn [run decode]. rewrite R2. cbn [bind init_sub]. unfold process.
    destruct (compact_total (decode f (reg_env r)) o1 (fun len b => Ret (VInt (compact_u32_int len b))) b o1 []) as (v & o2 & E & B2); [intros len e; now eexists|exact B1|exact L|].
    rewrite E. cbn [bind run]. now exists v, o2.
  - cbn [run bind]. now exists VNil, o1.
Qed.
Theorem C66_not_metadata r b f : meta_registry r -> blen b < 2 ^ 60 -> (2 <= f)%nat -> (forall h tl, b <> h ++ magic ++ tl)%list ->
  ProcessMetadata f r b = Ok (None, r) /\ ReadPortableRegistry f r b = Ok None.
Proof.
  intros M L F N. assert (H : metadata_header f (Ctx 0 "" None) r b = Ok None).
  { assert (NM : forall o d o', 0 <= o <= blen b -> next_bytes b o 4 = Ok (d, o') -> is_magic d = false).
    { intros o d o' B E. destruct (next_bytes_offset b o 4 d o' B E) as [B' D]. destruct (is_magic d) eqn:I; [|reflexivity]. exfalso. apply String.eqb_eq in I.
      assert (DM : d = magic) by (unfold magic; now rewrite <- I, s2b_b2s). apply (N (firstn (Z.to_nat o) b) (skipn (Z.to_nat (o' - o)) (skipn (Z.to_nat o) b))).
      rewrite <- DM, D, firstn_skipn, firstn_skipn. reflexivity. }
    assert (B0 : 0 <= 0 <= blen b) by (unfold blen; lia).
    unfold metadata_header. destruct (next_total b 0 4 B0 ltac:(lia) L) as (d & o & E & B1). change (i64 4) with 4 in E. rewrite E. cbn [bind]. rewrite (NM 0 d o B0 E).
    destruct (lead_total r (Ctx 0 "" None) b f M L F) as (v & o1 & -> & B2). cbn [bind].
    destruct (next_total b o1 4 B2 ltac:(lia) L) as (d' & o2 & E2 & B3). change (i64 4) with 4 in E2. rewrite E2. cbn [bind]. now rewrite (NM o1 d' o2 B2 E2). }
  unfold ProcessMetadata, ReadPortableRegistry. rewrite H. now split.
Qed.

(** Metadata of versions 0 to 8 has a header, but no decoder. *)
Definition no_decoder (r : reg) : Prop := forall n, In n (firstn 9 versions) -> assoc (to_lower n) (r_types r) = None /\ assoc (to_lower n) (r_special r) = None.
Lemma missing_name E m t spec :
  ConvertType t = t /\ last_char t <> None /\ last_char t <> Some ">"%char /\ prefix "(" t = false /\ contains t "::" = false ->
  getCodecInstant E m t spec = Ok None -> GetCodecClass E m t spec = Ok None.
Proof.
  intros (C & Z & L & P & D) G. unfold GetCodecClass. generalize (String.length t). intros n. destruct n; cbn [GetCodecClass_fuel]; rewrite C; destruct (last_char t) as [z|]; try contradiction;
    (destruct (Ascii.eqb_spec z ">"%char) as [->|]; [contradiction|]); cbn [bind]; rewrite G; cbn [bind]; rewrite P, D, andb_false_r; reflexivity.
Qed.
Theorem C66_old_versions r h v tl : meta_registry r -> no_decoder r -> lead h -> 0 <= v < 9 -> blen (h ++ magic ++ [Zb v] ++ tl) < 2 ^ 63 ->
  exists f0, forall f, (f0 <= f)%nat ->
  ProcessMetadata f r (h ++ magic ++ [Zb v] ++ tl) = Panic ("Not found decoder class " ++ nth (Z.to_nat v) versions "").
Proof.
  intros M N H V L. destruct (C66_header r (Ctx 0 "" None) h v tl M H ltac:(lia) L) as [f0 F]. exists f0. intros f G. unfold ProcessMetadata. rewrite (F f G). cbn [bind].
  assert (I : In (nth (Z.to_nat v) versions "") (firstn 9 versions)).
  { assert (D : v = 0 \/ v = 1 \/ v = 2 \/ v = 3 \/ v = 4 \/ v = 5 \/ v = 6 \/ v = 7 \/ v = 8) by lia. clear - D. decompose [or] D; subst v; vm_compute; tauto. }
  revert I. generalize (nth (Z.to_nat v) versions ""). intros n I. unfold process_version. cbn [x_module x_spec].
  assert (C : GetCodecClass (reg_env r) "" n 0 = Ok None); [|now rewrite C].
  assert (GM : getCodecInstant (reg_env r) "" n 0 = Ok None).
  { apply get_missing.
    - intros ->. vm_compute in I. intuition discriminate.
    - intros Q. clear - I Q. vm_compute in I. decompose [or] I; try contradiction; subst; discriminate Q.
    - clear - I. vm_compute in I. decompose [or] I; try contradiction; subst; vm_compute; intuition discriminate.
    - unfold find_key, specialVersionCodec. cbn [e_special reg_env e_reg]. destruct (N n I) as [-> ->]. reflexivity. }
  clear - I GM. apply missing_name; [|exact GM]. vm_compute in I. decompose [or] I; try contradiction; subst n; vm_compute; repeat split; discriminate.
Qed.

(** A version byte of 16 or more stops the decoder. *)
Theorem C66_new_versions r h v tl : meta_registry r -> lead h -> 16 <= v < 256 -> blen (h ++ magic ++ [Zb v] ++ tl) < 2 ^ 63 ->
  exists f0, forall f, (f0 <= f)%nat ->
  ProcessMetadata f r (h ++ magic ++ [Zb v] ++ tl) = Panic "runtime error: index out of range" /\
  ReadPortableRegistry f r (h ++ magic ++ [Zb v] ++ tl) = Panic "runtime error: index out of range".
Proof.
  intros M H V L. set (c := Ctx 0 "" None). assert (A : (h ++ magic ++ [Zb v] ++ tl = (h ++ magic) ++ [Zb v] ++ tl)%list) by now rewrite <- app_assoc.
  assert (BM : blen (h ++ magic) = blen h + 4) by (unfold blen; rewrite app_length; change (List.length magic) with 4%nat; lia).
  assert (R : exists f1, forall f, (f1 <= f)%nat -> read f c r (h ++ magic ++ [Zb v] ++ tl) (blen h + 4) "MetadataVersion" = Panic "runtime error: index out of range").
  { assert (D : Decodes (reg_env r) c ((h ++ magic) ++ [Zb v] ++ tl) (blen (h ++ magic)) "MetadataVersion" (Panic "runtime error: index out of range")).
    { eapply (PropForms.Decodes_run (reg_env r) c "MetadataVersion" (CEnum None versions) 0); [apply (key_look (reg_env r) c (registry_env r _ M) "MetadataVersion" (CEnum None versions)); reflexivity| |discriminate].
      cbn [process]. unfold process_enum. cbn [run]. rewrite (next_at (h ++ magic) [Zb v] tl (i64 1) _ eq_refl eq_refl) by (now rewrite <- A). cbn [bind head_u8].
      rewrite bZ_Zb_small by lia. unfold nth_z. replace (v <? 0) with false by lia. assert (O : nth_error versions (Z.to_nat v) = None) by (apply nth_error_None; change (List.length versions) with 16%nat; lia).
      rewrite O. reflexivity. }
    destruct D as [_ [f0 D]]. exists f0. intros f F. rewrite A, <- BM. unfold read. rewrite (decode_mono f0 f (reg_env r) F _ _ _ _ _ D) by discriminate. reflexivity. }
  destruct R as [f1 R].
  assert (HD : exists f0, forall f, (f0 <= f)%nat -> metadata_header f c r (h ++ magic ++ [Zb v] ++ tl) = Panic "runtime error: index out of range").
  { assert (TAIL : forall f, (f1 <= f)%nat -> (d <- slice (h ++ magic ++ [Zb v] ++ tl) (blen h + 4) (blen h + 4 + 1) ;;
        '(x, o) <- read f c r (h ++ magic ++ [Zb v] ++ tl) (blen h + 4) "MetadataVersion" ;;
        match x with VStr n => Ok (Some (head_u8 d, n, o)) | _ => Panic "interface conversion: interface {} is not string" end) = Panic "runtime error: index out of range").
    { intros f G. rewrite (R f G). rewrite A, <- BM, (slice_at (h ++ magic) (Zb v) tl). reflexivity. }
    destruct h as [|x h].
    - exists f1. intros f G. unfold metadata_header.
      rewrite (next_at [] magic ([Zb v] ++ tl) 4 0 eq_refl eq_refl L). cbn [bind]. change (is_magic magic) with true. cbv iota. cbn [bind]. change (is_magic magic) with true. cbv iota. exact (TAIL f G).
    - set (h' := x :: h) in *. assert (N : h' <> []) by discriminate. destruct (read_lead r c h' M H N (magic ++ [Zb v] ++ tl)%list L) as [f0 F0].
      exists (Nat.max f0 f1). intros f G. unfold metadata_header. destruct (F0 f ltac:(lia)) as [w W]. rewrite W.
      rewrite next_bytes_ok; [|unfold blen; lia|lia|unfold two63; lia]. cbn [bind].
      assert (NM : is_magic (firstn (Z.to_nat 4) (rest (h' ++ magic ++ [Zb v] ++ tl) 0)) = false) by (apply (lead_not_magic h' (magic ++ [Zb v] ++ tl)%list); [exact H|exact N|reflexivity]).
      rewrite NM. cbn [bind].
      rewrite (next_at h' magic ([Zb v] ++ tl) 4 (blen h') eq_refl eq_refl L). cbn [bind]. change (is_magic magic) with true. cbv iota. apply TAIL. lia. }
  destruct HD as [f0 F]. exists f0. intros f G. unfold ProcessMetadata, ReadPortableRegistry. fold c. rewrite (F f G). now split.
Qed.

(** The registry of types, read from whole metadata of version 14 or 15. *)
Theorem C64_from_metadata r h v l tl : meta_registry r -> lead h -> v = 14 \/ v = 15 -> registry_ok l -> blen (h ++ magic ++ [Zb v] ++ registry_enc l ++ tl) < 2 ^ 63 ->
  exists f0, forall f, (f0 <= f)%nat -> ReadPortableRegistry f r (h ++ magic ++ [Zb v] ++ registry_enc l ++ tl) = Ok (Some (declared l)).
Proof.
  intros M H V K L. destruct (C66_header r (Ctx 0 "" None) h v (registry_enc l ++ tl) M H ltac:(lia) L) as [f0 F].
  assert (A : (h ++ magic ++ [Zb v] ++ registry_enc l ++ tl = (h ++ magic ++ [Zb v]) ++ registry_enc l ++ tl)%list) by now rewrite <- !app_assoc.
  assert (B : blen (h ++ magic ++ [Zb v]) = blen h + 5) by (unfold blen; rewrite !app_length; change (List.length magic) with 4%nat; cbn [List.length]; lia).
  destruct (C64_registry r (Ctx 0 "" None) l (h ++ magic ++ [Zb v]) tl M K ltac:(now rewrite <- A)) as [f1 F1].
  exists (Nat.max f0 f1). intros f G. unfold ReadPortableRegistry. rewrite (F f ltac:(lia)). cbn [bind]. replace (v <? 14) with false by lia.
  destruct (F1 f ltac:(lia)) as (x & R & I). rewrite A, <- B, R. cbn [bind]. rewrite slice_val_of. cbn [bind]. now rewrite I.
Qed.
(** Earlier metadata has none. *)
Theorem C64_none r h v tl : meta_registry r -> lead h -> 0 <= v < 14 -> blen (h ++ magic ++ [Zb v] ++ tl) < 2 ^ 63 ->
  exists f0, forall f, (f0 <= f)%nat -> ReadPortableRegistry f r (h ++ magic ++ [Zb v] ++ tl) = Ok None.
Proof.
  intros M H V L. destruct (C66_header r (Ctx 0 "" None) h v tl M H ltac:(lia) L) as [f0 F]. exists f0. intros f G. unfold ReadPortableRegistry. rewrite (F f G). cbn [bind].
  now replace (v <? 14) with true by lia.
Qed.
