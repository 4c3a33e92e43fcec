(** C97: a type of fixed size reads that many bytes, whatever they are, so that
    the elements of arrays and vectors stand at multiples of it. *)

From Verif Require Import GoBase SpecNum ProofsBase ModelTools ProofsTools ModelUint128 SpecUint128 ProofsUint128 ModelJson ModelVal ModelRegistry ModelDecode
  ProofsRun SpecScale ProofsReads ProofsScale.

(** ** The sizes of types *)
Definition read_sizes : list (codec * nat) :=
  [(CU8, 1); (CU16, 2); (CU32, 4); (CU64, 8); (CMoment, 8); (CU128, 16); (CU256, 32); (CBalance, 16); (CBool, 1); (CH160, 20); (CH256, 32); (CH512, 64);
   (CAccountId, 32); (CLockIdentifier, 8); (CEcdsaSignature, 65); (CEthereumAddress, 20); (CEmpty, 0); (CNull, 0)]%nat.
Inductive spans (E : env) (c : ctx) : string -> nat -> Prop :=
| sp_leaf ts cd n : resolves E c ts cd -> In (cd, n) read_sizes -> spans E c ts n
| sp_int ts n : resolves E c ts (CIntFixed (Z.of_nat n)) -> (0 < n)%nat -> spans E c ts n
| sp_bytes ts n : resolves E c ts (CFixedU8 (Z.of_nat n)) -> spans E c ts n
| sp_byte_array ts k t : resolves E c ts (CFixedArray (Z.of_nat k) t) -> (0 < k)%nat -> equal_fold t "u8" = true -> spans E c ts k
| sp_array ts k t n : resolves E c ts (CFixedArray (Z.of_nat k) t) -> (0 < k)%nat -> equal_fold t "u8" = false -> spans E c t n -> spans E c ts (k * n)
| sp_struct ts tm ns : resolves E c ts (CStruct (Some tm)) -> Forall2 (spans E c) (map snd tm) ns -> spans E c ts (fold_right Nat.add 0%nat ns)
| sp_numbered ts tm vl : resolves E c ts (CEnum (Some tm) vl) -> c_like tm = true -> spans E c ts 1
| sp_set ts vl bits n : resolves E c ts (CSet vl bits) -> spans E c ("U" ++ itoa bits) n -> spans E c ts n
| sp_box ts t n : resolves E c ts (CBox t) -> spans E c t n -> spans E c ts n
| sp_range ts t n : resolves E c ts (CRange t) -> List.length (split_char ","%char t) = 1%nat -> spans E c t n -> spans E c ts (n + n).

Lemma reads_fields_any rec c : forall tm bs gs cs, seqdec rec c (map snd tm) bs gs cs -> forall done acc, exists m, reads rec done (fields_sub c tm acc (fun m => Ret (VMap m))) bs (VMap m) cs.
Proof.
  induction tm as [|[n t] tm IH]; intros bs gs cs H done acc; cbn [map fields_sub fst snd] in *.
  - inversion H; subst. exists acc. apply reads_ret.
  - inversion H as [|t' ts' b bs' g gs' cs1 cs1' D S]; subst. destruct (IH _ _ _ S (done ++ b)%list (map_set n g acc)) as [m R]. exists m. now apply reads_sub with g.
Qed.
Lemma leaf_reads E c cd n b : In (cd, n) read_sizes -> List.length b = n -> exists g, ReadE E c cd b g [].
Proof.
  intros I L. pose proof (blen_length b n L) as BL. cbn [read_sizes In] in I. repeat match type of I with _ \/ _ => destruct I as [I|I] end; try contradiction; injection I as <- <-.
  all: try (eexists; eapply ReadE_next; [reflexivity|symmetry; exact BL|reflexivity]).
  - destruct (FromBytes_spec b L) as (u & F & W & _). eexists. eapply ReadE_next; [reflexivity|symmetry; exact BL|]. cbv beta zeta. rewrite L. cbn [Nat.ltb Nat.leb]. rewrite F, (String_itoa u W). reflexivity.
  - destruct (ReverseBytes b) as [|x l] eqn:R; [pose proof (proj1 (ReverseBytes_nth b)) as Q; rewrite R, L in Q; discriminate Q|].
    eexists. eapply ReadE_next; [reflexivity|symmetry; exact BL|]. cbv beta. rewrite U256_hex, R. reflexivity.
  - destruct (FromBytes_spec b L) as (u & F & W & _).
    destruct (String.eqb (BytesToHex b) "ffffffffffffffffffffffffffffffff") eqn:Q.
    all: eexists; eapply ReadE_next; [reflexivity|symmetry; exact BL|]; cbv beta zeta.
    all: replace (firstn 16 (b ++ repeat "000"%char 16)) with b by (rewrite firstn_app, L, Nat.sub_diag, firstn_O, app_nil_r, firstn_all2 by lia; reflexivity).
    all: rewrite Q; rewrite ?F; reflexivity.
  - apply length_zero_iff_nil in L. subst b. exists (VStr "NULL"). exists O. apply reads_ret.
  - apply length_zero_iff_nil in L. subst b. exists VNil. exists O. apply reads_ret.
Qed.

Lemma skip_skip {A} (l : list A) o m : skipn m (skipn o l) = skipn (o + m) l.
Proof. revert l. induction o as [|o IH]; intros l; [reflexivity|]. destruct l as [|x l]; [now rewrite !skipn_nil|]. apply IH. Qed.
(** Elements of one size, one after the other. *)
Lemma same_size E c t n : (forall b, List.length b = n -> exists g, DecE E c t b g []) ->
  forall k bs, List.length bs = (k * n)%nat -> exists gs, List.length gs = k /\ SeqE E c (repeat t k) bs gs [] /\
    forall i, (i < k)%nat -> DecE E c t (firstn n (skipn (i * n) bs)) (nth i gs VNil) [].
Proof.
  intros H. induction k as [|k IH]; intros bs L.
  - apply length_zero_iff_nil in L. subst bs. exists []. split; [reflexivity|]. split; [apply SeqE_nil|lia].
  - destruct (H (firstn n bs)) as [g D]; [rewrite firstn_length; lia|]. destruct (IH (skipn n bs)) as (gs & LG & SQ & N); [rewrite skipn_length; lia|].
    exists (g :: gs). split; [cbn; lia|]. split.
    + rewrite <- (firstn_skipn n bs). change (@nil string) with ([] ++ @nil string)%list. cbn [repeat]. now apply SeqE_cons.
    + intros [|i] Hi; [exact D|]. cbn [nth]. replace (S i * n)%nat with (n + i * n)%nat by lia. specialize (N i ltac:(lia)).
      rewrite skip_skip in N. exact N.
Qed.
Lemma array_reads E c k t bs gs : (0 < k)%nat -> equal_fold t "u8" = false -> List.length gs = k -> SeqE E c (repeat t k) bs gs [] -> ReadE E c (CFixedArray (Z.of_nat k) t) bs (VSlice gs) [].
Proof.
  intros K U L [f S]. exists f. cbn [process]. replace (0 <? Z.of_nat k) with true by lia. rewrite U, Nat2Z.id.
  rewrite <- (app_nil_r bs). change (@nil string) with ([] ++ @nil string)%list. eapply reads_repeat; [exact S|]. cbn [rev app]. destruct gs as [|g gs]; [cbn in L; lia|]. apply reads_ret.
Qed.

(** ** Every string of that many bytes is read, and nothing else *)
Lemma spans_dec E c : forall ts n, spans E c ts n -> forall b, List.length b = n -> exists g, DecE E c ts b g [].
Proof.
  fix F 3. intros ts n S b L. destruct S as [ts cd n R I|ts n R P|ts n R|ts k t R K U|ts k t n R K U S|ts tm ns R A|ts tm vl R CL|ts vl bits n R S|ts t n R S|ts t n R SP S].
  - destruct (leaf_reads E c cd n b I L) as [g H]. exists g. eapply DecE_reads; eassumption.
  - destruct (ReverseBytes b) as [|x l] eqn:Q; [pose proof (proj1 (ReverseBytes_nth b)) as X; rewrite Q, L in X; cbn in X; lia|].
    eexists. eapply DecE_reads; [exact R|]. eapply ReadE_next; [reflexivity|now rewrite (blen_length b n L)|]. cbv beta. rewrite U256_hex, Q. reflexivity.
  - eexists. eapply DecE_reads; [exact R|]. eapply ReadE_next; [reflexivity|now rewrite (blen_length b n L)|reflexivity].
  - eexists. eapply DecE_reads; [exact R|]. eapply ReadE_next; [cbn [process]; replace (0 <? Z.of_nat k) with true by lia; rewrite U; reflexivity|now rewrite (blen_length b k L)|reflexivity].
  - destruct (same_size E c t n (F t n S) k b L) as (gs & LG & SQ & _). exists (VSlice gs). eapply DecE_reads; [exact R|]. now apply array_reads.
  - assert (X : forall b, List.length b = fold_right Nat.add 0%nat ns -> exists gs, SeqE E c (map snd tm) b gs []).
    { clear b L R. revert A. generalize (map snd tm). revert ns. fix G 3. intros ns tys A. destruct A as [|t n tys ns S A]; intros b L.
      - apply length_zero_iff_nil in L. subst b. exists []. apply SeqE_nil.
      - cbn [fold_right] in L. destruct (F t n S (firstn n b)) as [g D]; [rewrite firstn_length; lia|]. destruct (G ns tys A (skipn n b)) as [gs Q]; [rewrite skipn_length; lia|].
        exists (g :: gs). rewrite <- (firstn_skipn n b). change (@nil string) with ([] ++ @nil string)%list. now apply SeqE_cons. }
    destruct (X b L) as (gs & f & SQ). destruct (reads_fields_any _ c tm b gs [] SQ [] []) as [m H]. exists (VMap m). eapply DecE_reads; [exact R|]. exists f. exact H.
  - eexists. eapply DecE_reads; [exact R|]. eapply ReadE_next; [cbn [process]; unfold process_enum; rewrite CL; reflexivity|now rewrite (blen_length b 1 L)|reflexivity].
  - destruct (F _ n S b L) as (g & f & D). eexists. eapply DecE_reads; [exact R|]. exists f. cbn [process]. eapply reads_sub_ret; [exact D|reflexivity].
  - destruct (F _ n S b L) as (g & f & D). eexists. eapply DecE_reads; [exact R|]. exists f. cbn [process]. eapply reads_sub_ret; [exact D|reflexivity].
  - destruct (F _ n S (firstn n b)) as (g1 & D1); [rewrite firstn_length; lia|]. destruct (F _ n S (skipn n b)) as (g2 & D2); [rewrite skipn_length; lia|].
    destruct D1 as [f1 D1], D2 as [f2 D2]. exists (VMap [("start", g1); ("end", g2)]). eapply DecE_reads; [exact R|]. exists (Nat.max f1 f2). cbn [process].
    destruct (split_char ","%char t) as [|x [|y l]]; try discriminate SP. rewrite <- (firstn_skipn n b). change (@nil string) with ([] ++ @nil string)%list.
    eapply reads_sub; [eapply Dec_mono; [|exact D1]; apply decode_mono; lia|]. eapply reads_sub_ret; [eapply Dec_mono; [|exact D2]; apply decode_mono; lia|reflexivity].
Qed.

Lemma dec_at E c ts data o n g : 0 <= o -> o + Z.of_nat n <= blen data < 2 ^ 63 -> DecE E c ts (firstn n (skipn (Z.to_nat o) data)) g [] ->
  Decodes E c data o ts (Ok (g, o + Z.of_nat n, [])).
Proof.
  intros O L [f D]. split; [discriminate|]. exists f. set (b := firstn n (skipn (Z.to_nat o) data)) in *.
  assert (LB : List.length b = n) by (unfold b; rewrite firstn_length, skipn_length; unfold blen in L; lia).
  specialize (D (firstn (Z.to_nat o) data) (skipn n (skipn (Z.to_nat o) data))).
  replace (firstn (Z.to_nat o) data ++ b ++ skipn n (skipn (Z.to_nat o) data))%list with data in D by (unfold b; rewrite firstn_skipn, firstn_skipn; reflexivity).
  assert (BO : blen (firstn (Z.to_nat o) data) = o) by (unfold blen in *; rewrite firstn_length; lia).
  rewrite BO, (blen_length b n LB) in D. apply D. unfold two63. lia.
Qed.
(** Whatever the bytes are, wherever they stand: the value takes [n] of them. *)
Theorem C97_size E c ts n data o : spans E c ts n -> 0 <= o -> o + Z.of_nat n <= blen data < 2 ^ 63 ->
  exists v, Decodes E c data o ts (Ok (v, o + Z.of_nat n, [])).
Proof.
  intros S O L. destruct (spans_dec E c ts n S (firstn n (skipn (Z.to_nat o) data))) as [g D]; [rewrite firstn_length, skipn_length; unfold blen in L; lia|].
  exists g. now apply dec_at.
Qed.
Lemma skip_at {A} (l : list A) o k m n : (m + n <= k)%nat -> firstn n (skipn m (firstn k (skipn o l))) = firstn n (skipn (o + m) l).
Proof.
  intros H. rewrite skipn_firstn_comm, firstn_firstn. replace (Nat.min n (k - m)) with n by lia. f_equal. apply skip_skip.
Qed.
(** The elements of an array, each decoded on its own at its place. *)
Theorem C97_array E c ts k t n data o : resolves E c ts (CFixedArray (Z.of_nat k) t) -> (0 < k)%nat -> equal_fold t "u8" = false -> spans E c t n ->
  0 <= o -> o + Z.of_nat (k * n) <= blen data < 2 ^ 63 ->
  exists l, List.length l = k /\ Decodes E c data o ts (Ok (VSlice l, o + Z.of_nat (k * n), [])) /\
    forall i, (i < k)%nat -> Decodes E c data (o + Z.of_nat (i * n)) t (Ok (nth i l VNil, o + Z.of_nat (i * n) + Z.of_nat n, [])).
Proof.
  intros R K U S O L. destruct (same_size E c t n (spans_dec E c t n S) k (firstn (k * n) (skipn (Z.to_nat o) data))) as (gs & LG & SQ & N); [rewrite firstn_length, skipn_length; unfold blen in L; lia|].
  exists gs. split; [exact LG|]. split.
  - apply dec_at; [exact O|exact L|]. eapply DecE_reads; [exact R|]. now apply array_reads.
  - intros i I. assert (i * n + n <= k * n)%nat by nia. apply dec_at; [lia|lia|]. specialize (N i I). rewrite skip_at in N by lia. rewrite Z2Nat.inj_add, Nat2Z.id by lia. exact N.
Qed.
(** The same for a vector, after its announced length. *)
Theorem C97_vec E c ts t n k data o w : std_env E -> resolves E c ts (CVec t) -> spans E c t n -> (0 < k)%nat -> Z.of_nat k <= 512 * 1024 ->
  0 <= o -> firstn (List.length (compact (Z.of_nat k))) (skipn (Z.to_nat o) data) = compact (Z.of_nat k) -> w = o + blen (compact (Z.of_nat k)) ->
  w + Z.of_nat (k * n) <= blen data < 2 ^ 63 ->
  exists l, List.length l = k /\ Decodes E c data o ts (Ok (VSlice l, w + Z.of_nat (k * n), [])) /\
    forall i, (i < k)%nat -> Decodes E c data (w + Z.of_nat (i * n)) t (Ok (nth i l VNil, w + Z.of_nat (i * n) + Z.of_nat n, [])).
Proof.
  intros STD R S K KM O P -> L. set (q := compact (Z.of_nat k)) in *. pose proof (blen_nonneg q) as QN.
  destruct (same_size E c t n (spans_dec E c t n S) k (firstn (k * n) (skipn (Z.to_nat (o + blen q)) data))) as (gs & LG & SQ & N); [rewrite firstn_length, skipn_length; unfold blen in *; lia|].
  exists gs. split; [exact LG|]. split.
  - replace (o + blen q + Z.of_nat (k * n)) with (o + Z.of_nat (List.length q + k * n)) by (unfold blen; lia). apply dec_at; [exact O|unfold blen in *; lia|].
    replace (firstn (List.length q + k * n) (skipn (Z.to_nat o) data)) with (q ++ firstn (k * n) (skipn (Z.to_nat (o + blen q)) data))%list.
    2:{ rewrite Z2Nat.inj_add by lia. unfold blen at 1. rewrite Nat2Z.id. rewrite <- P at 1.
        rewrite <- skip_skip. generalize (skipn (Z.to_nat o) data). generalize (List.length q). clear. intros m l. revert l. induction m as [|m IH]; intros l; [reflexivity|]. destruct l as [|x l]; [now rewrite !firstn_nil|]. cbn [firstn skipn app Nat.add]. f_equal. apply IH. }
    eapply DecE_reads; [exact R|]. destruct SQ as [f SQ]. exists (1 + f)%nat. cbn [process].
    apply reads_len; [exact STD|lia|]. replace (512 * 1024 <? Z.of_nat k) with false by lia. rewrite Nat2Z.id.
    rewrite <- (app_nil_r (firstn _ _)). change (@nil string) with ([] ++ @nil string)%list. eapply reads_repeat; [eapply seqdec_mono; [|exact SQ]; apply decode_mono; lia|].
    cbn [rev app]. destruct gs as [|g gs]; [cbn in LG; lia|]. apply reads_ret.
  - intros i I. assert (i * n + n <= k * n)%nat by nia. apply dec_at; [lia|lia|]. specialize (N i I). rewrite skip_at in N by lia. rewrite Z2Nat.inj_add, Nat2Z.id by lia. exact N.
Qed.

(** Two types of fixed size that are read otherwise: floats move nothing, an
    empty array takes a byte. *)
Definition str_env : env := Env [("u8", CU8); ("u16", CU16); ("h160", CH160); ("f64", CFloat64); ("none", CFixedArray 0 "u16"); ("compact<u32>", CCompactU32); ("null", CNull); ("option", COption "");
  ("flags", CSet ["a"; "b"] 8); ("kind", CEnum (Some [("X", "3"); ("Y", "5")]) []); ("rec", CStruct (Some [("n", "u16"); ("f", "Flags"); ("k", "Kind")])); ("three", CFixedArray 3 "Rec"); ("many", CVec "Rec")]
  [] (fun _ => "") (fun b => b) (fun _ => None).
Lemma str_std : std_env str_env.
Proof. intros k cd I. cbn [In] in I. destruct I as [[= <- <-]|[[= <- <-]|[[= <- <-]|[]]]]; now split. Qed.
Ltac str_res := eexists _, _; split; [vm_compute; reflexivity|reflexivity].
Ltac str_dec := split; [discriminate|exists 6%nat; vm_compute; reflexivity].
Theorem C97_float_refuted : exists E c data, resolves E c "f64" CFloat64 /\ List.length data = 9%nat /\ exists v w, Decodes E c data 0 "f64" (Ok (v, 0, [])) /\
  resolves E c "None" (CFixedArray 0 "u16") /\ Decodes E c data 0 "None" (Ok (w, 1, [])).
Proof. exists str_env, (Ctx 5 "" None), (repeat (Zb 7) 9). split; [str_res|]. split; [reflexivity|]. eexists _, _. split; [str_dec|]. split; [str_res|str_dec]. Qed.

Lemma str_spans : spans str_env (Ctx 5 "" None) "Rec" 4.
Proof.
  apply (sp_struct str_env (Ctx 5 "" None) "Rec" [("n", "u16"); ("f", "Flags"); ("k", "Kind")] [2; 1; 1]%nat); [str_res|]. cbn [map snd].
  constructor; [apply (sp_leaf _ _ _ CU16); [str_res|cbn; tauto]|].
  constructor; [apply (sp_set _ _ _ ["a"; "b"] 8); [str_res|apply (sp_leaf _ _ _ CU8); [str_res|cbn; tauto]]|].
  constructor; [apply (sp_numbered _ _ _ [("X", "3"); ("Y", "5")] []); [str_res|reflexivity]|constructor].
Qed.
Example C97_example : resolves str_env (Ctx 5 "" None) "Three" (CFixedArray 3 "Rec") /\ spans str_env (Ctx 5 "" None) "Rec" 4 /\
  Decodes str_env (Ctx 5 "" None) (repeat (Zb 5) 13) 1 "Three" (Ok (VSlice (repeat (VMap [("n", VU16 1285); ("f", VStrs None); ("k", VStr "Y")]) 3), 13, [])).
Proof. split; [str_res|]. split; [exact str_spans|]. str_dec. Qed.
Example C97_vec_example : std_env str_env /\ resolves str_env (Ctx 5 "" None) "Many" (CVec "Rec") /\ compact (Z.of_nat 2) = [Zb 8] /\
  exists l, Decodes str_env (Ctx 5 "" None) (Zb 8 :: repeat (Zb 3) 8) 0 "Many" (Ok (VSlice l, 9, [])).
Proof. split; [exact str_std|]. split; [str_res|]. split; [reflexivity|]. eexists. str_dec. Qed.
Print Assumptions C97_size.
Print Assumptions C97_array.
Print Assumptions C97_vec.
Print Assumptions C97_float_refuted.
