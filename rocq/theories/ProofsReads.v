(** A program logic for decoders: what a program reads from the bytes in front
    of it, wherever they stand in the buffer. *)

From Verif Require Import GoBase SpecNum ProofsBase ModelTools ProofsTools ModelVal ModelJson ModelRegistry ModelDecode
  ProofsRun SpecScale.

(** Decoding [ts] at the start of [bs] takes exactly [bs]. *)
Definition Dec (rec : decoder) (c : ctx) (ts : string) (bs : bytes) (g : val) (cs : list string) : Prop :=
  forall pre tl, blen (pre ++ bs ++ tl) < two63 ->
    rec c (pre ++ bs ++ tl)%list (blen pre) ts = Ok (g, blen pre + blen bs, cs).

(** Program [p], after having read [done], reads exactly [bs]. *)
Definition reads (rec : decoder) (done : bytes) (p : prog) (bs : bytes) (v : val) (cs : list string) : Prop :=
  forall pre tl calls, blen (pre ++ done ++ bs ++ tl) < two63 ->
    run rec (blen pre) p (pre ++ done ++ bs ++ tl)%list (blen pre + blen done) calls
    = Ok (v, blen pre + blen done + blen bs, (calls ++ cs)%list).

Local Ltac okeq := match goal with |- Ok (?v, ?a, ?c) = Ok (_, ?b, _) => replace b with a by lia; reflexivity end.

Lemma next_at pre b tl n : blen (pre ++ b ++ tl) < two63 -> n = blen b ->
  next_bytes (pre ++ b ++ tl) (blen pre) (i64 n) = Ok (b, blen pre + blen b).
Proof.
  intros H ->. pose proof (blen_nonneg pre). pose proof (blen_nonneg b). pose proof (blen_nonneg tl).
  rewrite !blen_app in H.
  rewrite i64_small by (unfold two63 in *; lia).
  rewrite next_bytes_ok by (rewrite ?blen_app; lia).
  f_equal. f_equal.
  - unfold rest, blen. rewrite !Nat2Z.id.
    rewrite skipn_app, Nat.sub_diag, skipn_all. cbn [app skipn].
    rewrite firstn_app, Nat.sub_diag, firstn_all. cbn [firstn]. apply app_nil_r.
  - rewrite !blen_app. lia.
Qed.

Lemma reads_ret rec done v : reads rec done (Ret v) [] v [].
Proof. intros pre tl calls _. cbn [run]. rewrite app_nil_r. cbn. now rewrite Z.add_0_r. Qed.

Lemma reads_next rec done n k b bs v cs : n = blen b -> reads rec (done ++ b) (k b) bs v cs ->
  reads rec done (Next n k) (b ++ bs) v cs.
Proof.
  intros Hn H pre tl calls Hl. cbn [run].
  pose proof (next_at (pre ++ done) b (bs ++ tl) n) as N.
  rewrite <- !app_assoc in *. rewrite (blen_app pre done) in N. rewrite N by (assumption || exact Hl). cbn [bind].
  specialize (H pre tl calls). rewrite <- !app_assoc in H. rewrite (blen_app done b) in H. rewrite Z.add_assoc in H.
  rewrite H by exact Hl. rewrite blen_app. okeq.
Qed.

Lemma reads_next_last rec done n k b v cs : n = blen b -> reads rec (done ++ b) (k b) [] v cs ->
  reads rec done (Next n k) b v cs.
Proof. intros Hn H. rewrite <- (app_nil_r b). now apply reads_next. Qed.

(** A final read. *)
Lemma reads_next_ret rec done n k b v : n = blen b -> k b = Ret v -> reads rec done (Next n k) b v [].
Proof. intros Hn Hk. rewrite <- (app_nil_r b). apply reads_next; [exact Hn|]. rewrite Hk. apply reads_ret. Qed.

Lemma reads_sub rec done c ts k b g cs1 bs v cs2 : Dec rec c ts b g cs1 ->
  reads rec (done ++ b) (k g) bs v cs2 -> reads rec done (Sub c ts k) (b ++ bs) v (cs1 ++ cs2).
Proof.
  intros D H pre tl calls Hl. cbn [run].
  pose proof (D (pre ++ done)%list (bs ++ tl)%list) as N.
  rewrite <- !app_assoc in *. rewrite (blen_app pre done) in N. rewrite N by exact Hl. cbn [bind].
  specialize (H pre tl (calls ++ cs1)%list). rewrite <- !app_assoc in H. rewrite (blen_app done b) in H. rewrite Z.add_assoc in H.
  rewrite H by exact Hl. rewrite !blen_app. okeq.
Qed.

Lemma reads_sub_last rec done c ts k b g cs1 v cs2 : Dec rec c ts b g cs1 ->
  reads rec (done ++ b) (k g) [] v cs2 -> reads rec done (Sub c ts k) b v (cs1 ++ cs2).
Proof. intros D H. rewrite <- (app_nil_r b). now apply reads_sub with g. Qed.

Lemma reads_sub_ret rec done c ts k b g cs v : Dec rec c ts b g cs -> k g = Ret v ->
  reads rec done (Sub c ts k) b v cs.
Proof.
  intros D K. rewrite <- (app_nil_r b), <- (app_nil_r cs). apply reads_sub with g; [exact D|].
  rewrite K. apply reads_ret.
Qed.

Lemma reads_other rec done b c keep ts k g o cs1 bs v cs2 : rec c b 0 ts = Ok (g, o, cs1) ->
  reads rec done (k g) bs v cs2 ->
  reads rec done (Other b c keep ts k) bs v ((if keep then cs1 else []) ++ cs2).
Proof.
  intros D H pre tl calls Hl. cbn [run]. rewrite D. cbn [bind].
  destruct keep; rewrite H by exact Hl; [now rewrite <- app_assoc|reflexivity].
Qed.

Lemma reads_log rec done k bs v cs : reads rec done k bs v cs ->
  reads rec done (LogSpan k) bs v (hex_encode done :: cs).
Proof.
  intros H pre tl calls Hl. cbn [run].
  pose proof (blen_nonneg pre). pose proof (blen_nonneg bs). pose proof (blen_nonneg tl). pose proof (blen_nonneg done).
  rewrite slice_ok by (rewrite ?blen_app; lia). cbn [bind].
  replace (blen pre + blen done - blen pre) with (blen done) by lia.
  replace (firstn (Z.to_nat (blen done)) (skipn (Z.to_nat (blen pre)) (pre ++ done ++ bs ++ tl))) with done.
  2:{ unfold blen. rewrite !Nat2Z.id, skipn_app, Nat.sub_diag, skipn_all. cbn [app skipn].
      rewrite firstn_app, Nat.sub_diag, firstn_all. cbn [firstn]. now rewrite app_nil_r. }
  rewrite H by exact Hl. rewrite <- app_assoc. reflexivity.
Qed.

Lemma reads_mono rec1 rec2 done p bs v cs : more_defined rec1 rec2 -> reads rec1 done p bs v cs -> reads rec2 done p bs v cs.
Proof.
  intros M H pre tl calls Hl. eapply run_mono; [exact M|now apply H|discriminate].
Qed.
Lemma Dec_mono rec1 rec2 c ts bs g cs : more_defined rec1 rec2 -> Dec rec1 c ts bs g cs -> Dec rec2 c ts bs g cs.
Proof. intros M H pre tl Hl. eapply M; [now apply H|discriminate]. Qed.

(** From the program of the resolved codec to the decoder. *)
Lemma Dec_resolves f E c ts cd bs g cs : resolves E c ts cd ->
  reads (decode f E) [] (process E c cd) bs g cs -> Dec (decode (S f) E) c ts bs g cs.
Proof.
  intros (cd0 & sub & G & I) R pre tl Hl. cbn [decode]. rewrite G. cbn [bind]. rewrite I.
  specialize (R pre tl []). cbn [app] in R. change (blen []) with 0 in R. rewrite Z.add_0_r in R. now apply R.
Qed.

(** ** Sequences of nested decodes *)
Inductive seqdec (rec : decoder) (c : ctx) : list string -> bytes -> list val -> list string -> Prop :=
| sd_nil : seqdec rec c [] [] [] []
| sd_cons t ts b bs g gs cs1 cs2 : Dec rec c t b g cs1 -> seqdec rec c ts bs gs cs2 ->
    seqdec rec c (t :: ts) (b ++ bs) (g :: gs) (cs1 ++ cs2).

Lemma seqdec_mono rec1 rec2 c ts bs gs cs : more_defined rec1 rec2 -> seqdec rec1 c ts bs gs cs -> seqdec rec2 c ts bs gs cs.
Proof. intros M. induction 1; constructor; [|assumption]. eapply Dec_mono; eassumption. Qed.

Lemma seqdec_length rec c ts bs gs cs : seqdec rec c ts bs gs cs -> List.length gs = List.length ts.
Proof. induction 1; cbn; congruence. Qed.

Lemma reads_nil_cs rec done p bs v cs : reads rec done p bs v (cs ++ []) -> reads rec done p bs v cs.
Proof. now rewrite app_nil_r. Qed.

Lemma reads_repeat rec c ts n bs gs cs : seqdec rec c (repeat ts n) bs gs cs ->
  forall done acc k v cs2 bs2, reads rec (done ++ bs) (k (rev acc ++ gs)%list) bs2 v cs2 ->
  reads rec done (repeat_sub c ts n acc k) (bs ++ bs2) v (cs ++ cs2).
Proof.
  revert bs gs cs. induction n as [|n IH]; intros bs gs cs H done acc k v cs2 bs2 K; cbn [repeat repeat_sub] in *.
  - inversion H; subst. rewrite !app_nil_r in K. exact K.
  - inversion H as [|t ts' b bs' g gs' cs1 cs1' D S]; subst.
    rewrite <- !app_assoc. eapply reads_sub; [exact D|].
    eapply IH; [exact S|]. cbn [rev]. rewrite <- !app_assoc in *. exact K.
Qed.

Lemma map_set_fresh {A} k (v : A) m : ~ In k (map fst m) -> map_set k v m = (m ++ [(k, v)])%list.
Proof.
  induction m as [|[k' x] m IH]; cbn; [reflexivity|]. intros N.
  destruct (String.eqb_spec k k') as [->|]; [tauto|]. rewrite IH by tauto. reflexivity.
Qed.

Lemma reads_fields rec c tm bs gs cs : seqdec rec c (map snd tm) bs gs cs ->
  forall done acc k v cs2 bs2, NoDup (map fst acc ++ map fst tm) ->
  reads rec (done ++ bs) (k (acc ++ combine (map fst tm) gs)%list) bs2 v cs2 ->
  reads rec done (fields_sub c tm acc k) (bs ++ bs2) v (cs ++ cs2).
Proof.
  revert bs gs cs. induction tm as [|[n t] tm IH]; intros bs gs cs H done acc k v cs2 bs2 ND K; cbn [map fields_sub fst snd] in *.
  - inversion H; subst. cbn [combine] in K. rewrite !app_nil_r in K. exact K.
  - inversion H as [|t' ts' b bs' g gs' cs1 cs1' D S]; subst.
    rewrite <- !app_assoc. eapply reads_sub; [exact D|]. cbn [combine] in K.
    rewrite map_set_fresh by (intros I; apply NoDup_remove_2 in ND; apply ND, in_or_app; now left).
    eapply IH; [exact S| |].
    + rewrite map_app, <- app_assoc. exact ND.
    + rewrite <- !app_assoc in *. exact K.
Qed.

Lemma reads_rows rec c rows bs gs cs : seqdec rec c (map row_type rows) bs gs cs -> Forall row_ok rows ->
  forall done acc k v cs2 bs2, NoDup (map fst acc ++ map row_name rows) ->
  reads rec (done ++ bs) (k (acc ++ combine (map row_name rows) gs)%list) bs2 v cs2 ->
  reads rec done (rows_sub c rows acc k) (bs ++ bs2) v (cs ++ cs2).
Proof.
  revert bs gs cs. induction rows as [|r rows IH]; intros bs gs cs H F done acc k v cs2 bs2 ND K; cbn [map rows_sub] in *.
  - inversion H; subst. cbn [combine] in K. rewrite !app_nil_r in K. exact K.
  - inversion F as [|r' rows' (n & t & rest & ->) F']; subst.
    change (row_name (n :: t :: rest)) with n in *. change (row_type (n :: t :: rest)) with t in *.
    inversion H as [|t' ts' b bs' g gs' cs1 cs1' D S]; subst.
    rewrite <- !app_assoc. eapply reads_sub; [exact D|]. cbn [combine] in K.
    rewrite map_set_fresh by (intros I; apply NoDup_remove_2 in ND; apply ND, in_or_app; now left).
    eapply IH; [exact S|exact F'| |].
    + rewrite map_app, <- app_assoc. exact ND.
    + rewrite <- !app_assoc in *. exact K.
Qed.

Lemma reads_params rec c args bs gs cs : seqdec rec c (map snd args) bs gs cs ->
  forall done acc k v cs2 bs2,
  reads rec (done ++ bs) (k (rev acc ++ combine args gs)%list) bs2 v cs2 ->
  reads rec done (call_params c args acc k) (bs ++ bs2) v (cs ++ cs2).
Proof.
  revert bs gs cs. induction args as [|[n t] args IH]; intros bs gs cs H done acc k v cs2 bs2 K; cbn [map call_params fst snd] in *.
  - inversion H; subst. cbn [combine] in K. rewrite !app_nil_r in K. exact K.
  - inversion H as [|t' ts' b bs' g gs' cs1 cs1' D S]; subst.
    rewrite <- !app_assoc. eapply reads_sub; [exact D|]. cbn [combine] in K.
    eapply IH; [exact S|]. cbn [rev]. rewrite <- !app_assoc in *. exact K.
Qed.

(** ** Little-endian reads *)

Lemma le_val_firstn n l : le_val (firstn n l) = le_val l mod 256 ^ Z.of_nat n.
Proof.
  rewrite <- (firstn_skipn n l) at 2. rewrite le_val_app.
  destruct (Nat.le_gt_cases (List.length l) n) as [L|L].
  - rewrite skipn_all2, firstn_all2 by lia. cbn [le_val]. rewrite Z.mul_0_r, Z.add_0_r.
    symmetry. apply Z.mod_small. pose proof (le_val_range l).
    assert (256 ^ Z.of_nat (List.length l) <= 256 ^ Z.of_nat n) by (apply Z.pow_le_mono_r; lia). lia.
  - rewrite firstn_length_le by lia.
    rewrite Z.mul_comm, Z.mod_add by (pose proof (pow256_pos n); lia).
    symmetry. apply Z.mod_small. pose proof (le_val_range (firstn n l)) as R. rewrite firstn_length_le in R by lia. exact R.
Qed.

Lemma le_uint_val n b : le_uint n b = le_val b mod 256 ^ Z.of_nat n.
Proof. unfold le_uint. now rewrite le_val_firstn, le_val_pad. Qed.

Lemma le_uint_bytes n z : 0 <= z < 256 ^ Z.of_nat n -> le_uint n (le_bytes n z) = z.
Proof. intros H. rewrite le_uint_val, le_val_bytes_small by exact H. now apply Z.mod_small. Qed.

Lemma blen_le_bytes n z : blen (le_bytes n z) = Z.of_nat n.
Proof. unfold blen. now rewrite le_bytes_length. Qed.

(** ** Compact integers *)

Lemma byte_count_spec n : 0 < n -> 256 ^ (byte_count n - 1) <= n < 256 ^ byte_count n.
Proof.
  intros H. unfold byte_count. pose proof (Z.log2_spec n H) as [L U]. pose proof (Z.log2_nonneg n) as N.
  replace (Z.log2 n / 8 + 1 - 1) with (Z.log2 n / 8) by lia.
  change 256 with (2 ^ 8). rewrite <- !Z.pow_mul_r by (try apply Z.add_nonneg_nonneg; try apply Z.div_pos; lia).
  assert (Q := Z.div_mod (Z.log2 n) 8 ltac:(lia)). assert (M := Z.mod_pos_bound (Z.log2 n) 8 ltac:(lia)).
  split.
  - apply Z.le_trans with (2 ^ Z.log2 n); [|exact L]. apply Z.pow_le_mono_r; lia.
  - apply Z.lt_le_trans with (2 ^ Z.succ (Z.log2 n)); [exact U|]. apply Z.pow_le_mono_r; lia.
Qed.

Lemma byte_count_range n lo hi : 0 < lo -> 256 ^ (lo - 1) <= n < 256 ^ hi -> lo <= byte_count n <= hi.
Proof.
  intros Hlo [L U]. assert (P : 0 < 256 ^ (lo - 1)) by (apply Z.pow_pos_nonneg; lia).
  pose proof (byte_count_spec n ltac:(lia)) as [A B].
  assert (0 <= byte_count n - 1) by (unfold byte_count; pose proof (Z.div_pos (Z.log2 n) 8 (Z.log2_nonneg n) ltac:(lia)); lia).
  split.
  - destruct (Z.lt_ge_cases (byte_count n) lo) as [X|X]; [|exact X].
    assert (256 ^ byte_count n <= 256 ^ (lo - 1)) by (apply Z.pow_le_mono_r; lia). lia.
  - destruct (Z.lt_ge_cases hi (byte_count n)) as [X|X]; [|exact X].
    destruct (Z.lt_ge_cases hi 0) as [Y|Y]; [rewrite (Z.pow_neg_r 256 hi Y) in U; lia|].
    assert (256 ^ hi <= 256 ^ (byte_count n - 1)) by (apply Z.pow_le_mono_r; lia). lia.
Qed.

(** What Compact.ProcessCompactBytes hands over for the number [z]. *)
Definition compact_part (z len : Z) (b : bytes) : Prop :=
  (len <= 4 /\ z < 2 ^ 30 /\ le_val b / 4 = z /\ le_val b < 2 ^ 32 /\ (List.length b <= 4)%nat)
  \/ (4 < len /\ 2 ^ 30 <= z /\ b = le_bytes (Z.to_nat (byte_count z)) z /\ le_val b = z).

Lemma reads_compact rec done k z bs v cs : 0 <= z < 2 ^ 536 ->
  (forall len b, compact_part z len b -> reads rec (done ++ compact z) (k len b) bs v cs) ->
  reads rec done (compact_bytes k) (compact z ++ bs) v cs.
Proof.
  intros Hz K. unfold compact_bytes.
  unfold compact in *.
  destruct (Z.ltb_spec z (2 ^ 6)) as [H6|H6]; [|destruct (Z.ltb_spec z (2 ^ 14)) as [H14|H14]; [|destruct (Z.ltb_spec z (2 ^ 30)) as [H30|H30]]].
  - apply reads_next; [reflexivity|]. cbn [le_bytes].
    rewrite bZ_Zb. replace ((4 * z) mod 256) with (4 * z) by (symmetry; apply Z.mod_small; lia).
    replace ((4 * z) mod 4) with 0 by (symmetry; rewrite Z.mul_comm; apply Z.mod_mul; lia).
    apply K. left. cbn [le_val List.length]. rewrite bZ_Zb, Z.mod_small by lia.
    repeat split; try lia.
  - cbn [le_bytes]. change [Zb (4 * z + 1); Zb ((4 * z + 1) / 256)] with ([Zb (4 * z + 1)] ++ [Zb ((4 * z + 1) / 256)])%list.
    rewrite <- app_assoc. apply reads_next; [reflexivity|]. cbn [bytes].
    rewrite bZ_Zb. replace ((4 * z + 1) mod 256 mod 4) with 1 by lia.
    apply reads_next; [reflexivity|]. rewrite <- app_assoc. cbn [app].
    apply K. left. change [Zb (4 * z + 1); Zb ((4 * z + 1) / 256)] with (le_bytes 2 (4 * z + 1)).
    rewrite le_val_bytes_small, le_bytes_length by lia. repeat split; try lia.
  - change (le_bytes 4 (4 * z + 2)) with ([Zb (4 * z + 2)] ++ le_bytes 3 ((4 * z + 2) / 256))%list in *.
    rewrite <- app_assoc. apply reads_next; [reflexivity|].
    rewrite bZ_Zb. replace ((4 * z + 2) mod 256 mod 4) with 2 by lia.
    apply reads_next; [reflexivity|]. rewrite <- app_assoc.
    apply K. left. change ([Zb (4 * z + 2)] ++ le_bytes 3 ((4 * z + 2) / 256))%list with (le_bytes 4 (4 * z + 2)).
    rewrite le_val_bytes_small, le_bytes_length by lia. repeat split; try lia.
  - pose proof (byte_count_range z 4 67 ltac:(lia) ltac:(split; [|change (256 ^ 67) with (2 ^ 536)]; lia)) as BC.
    pose proof (byte_count_spec z ltac:(lia)) as BS.
    set (m := byte_count z) in *.
    change (Zb (4 * (m - 4) + 3) :: le_bytes (Z.to_nat m) z)%list
      with ([Zb (4 * (m - 4) + 3)] ++ le_bytes (Z.to_nat m) z)%list in *.
    rewrite <- app_assoc. apply reads_next; [reflexivity|].
    cbn [head_u8]. rewrite bZ_Zb_small by lia.
    replace ((4 * (m - 4) + 3) mod 4) with 3 by (clear - m; lia).
    replace (5 + (4 * (m - 4) + 3 - 3) / 4) with (m + 1) by (clear - m; lia).
    apply reads_next; [rewrite blen_le_bytes; lia|]. rewrite <- app_assoc.
    apply K. right. rewrite le_val_bytes_small by (rewrite Z2Nat.id by lia; lia). repeat split; try lia.
Qed.

Lemma compact_u32_int_spec z len b : 0 <= z < 2 ^ 63 -> compact_part z len b -> compact_u32_int len b = z.
Proof.
  intros Hz [(L & S & D & U & Lb)|(L & S & B & V)]; unfold compact_u32_int; rewrite le_uint_val.
  - assert (0 <= le_val b) by apply le_val_range.
    rewrite (Z.mod_small (le_val b)) by (change (256 ^ Z.of_nat 8) with (2 ^ 64); lia).
    rewrite i64_small by (unfold two63; lia). replace (len <=? 4) with true by (symmetry; lia).
    rewrite Z.quot_div_nonneg by lia. exact D.
  - rewrite V, Z.mod_small by (change (256 ^ Z.of_nat 8) with (2 ^ 64); lia).
    rewrite i64_small by (unfold two63; lia). replace (len <=? 4) with false by (symmetry; lia). reflexivity.
Qed.

(** ** Built-in names *)

Lemma builtin_resolves E c ts key cd :
  assoc key (e_reg E) = Some cd -> assoc key (e_special E) = None -> to_lower (ConvertType ts) = key ->
  to_lower key = key -> (forall m, ModuleType key m = key) ->
  ((exists z, last_char (ConvertType ts) = Some z /\ (z = ">"%char \/ generic_parts (ConvertType ts) = None))) ->
  resolves E c ts (init_sub cd "").
Proof.
  intros R S L LL M (z & Hz & C). exists cd, "". split; [|reflexivity].
  assert (G : getCodecInstant E (x_module c) (ConvertType ts) (x_spec c) = Ok (Some cd)).
  { unfold getCodecInstant. rewrite L, M. unfold specialVersionCodec. rewrite S, LL, R. reflexivity. }
  unfold GetCodecClass. destruct (String.length ts); cbn [GetCodecClass_fuel]; rewrite Hz.
  all: destruct (Ascii.eqb_spec z ">"%char) as [->|N]; [now rewrite G|]; cbn [bind]; now rewrite G.
Qed.

Lemma module_type_other key m : (forall mod_ l, In (mod_, l) typesModules -> assoc key l = None) -> ModuleType key m = key.
Proof.
  intros H. unfold ModuleType. destruct (String.eqb m ""); [reflexivity|].
  destruct (assoc (to_lower m) typesModules) as [l|] eqn:A; [|reflexivity].
  rewrite (H (to_lower m) l); [reflexivity|].
  clear - A. induction typesModules as [|[k x] t IH]; cbn in *; [discriminate|].
  destruct (String.eqb_spec (to_lower m) k) as [->|]; [injection A as ->; now left|right; auto].
Qed.

Lemma std_compact_u32 E c : std_env E -> resolves E c "Compact<u32>" CCompactU32.
Proof.
  intros S. destruct (S "compact<u32>" CCompactU32 ltac:(cbn; tauto)) as [R Sp].
  apply (builtin_resolves E c "Compact<u32>" "compact<u32>" CCompactU32 R Sp); try reflexivity.
  - intros m. apply module_type_other. intros md l I. cbn in I.
    repeat (destruct I as [I|I]; [injection I as <- <-; reflexivity|]). contradiction.
  - exists ">"%char. split; [reflexivity|now left].
Qed.

Lemma Dec_compact_u32 E f c z : std_env E -> 0 <= z < 2 ^ 63 ->
  Dec (decode (S f) E) c "Compact<u32>" (compact z) (VInt z) [].
Proof.
  intros S Hz. eapply Dec_resolves; [now apply std_compact_u32|]. cbn [process].
  rewrite <- (app_nil_r (compact z)). apply reads_compact; [lia|].
  intros len b P. rewrite (compact_u32_int_spec z) by (assumption || lia). apply reads_ret.
Qed.

(** A length prefix followed by what the continuation reads. *)
Lemma reads_len E f c done k z bs v cs : std_env E -> 0 <= z < 2 ^ 63 ->
  reads (decode (S f) E) (done ++ compact z) (k z) bs v cs ->
  reads (decode (S f) E) done (compact_u32 c k) (compact z ++ bs) v cs.
Proof.
  intros S Hz K. unfold compact_u32. change cs with ([] ++ cs)%list.
  eapply reads_sub; [now apply Dec_compact_u32|]. exact K.
Qed.

(** ** Text *)
Lemma ascii_ok_printable c : ascii_ok c = printable c.
Proof. unfold ascii_ok, printable. pose proof (bZ_range c). lia. Qed.
Lemma IsASCII_printable b : IsASCII b = forallb printable b.
Proof. unfold IsASCII. induction b as [|c b IH]; [reflexivity|]. cbn [forallb]. now rewrite IH, ascii_ok_printable. Qed.
Lemma ascii_or_hex_text b : ascii_or_hex b = text_of b.
Proof. unfold ascii_or_hex, text_of, BytesToHex. rewrite IsASCII_printable, AddHex_hex. reflexivity. Qed.
