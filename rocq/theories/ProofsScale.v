(** Every SCALE value decodes, at any position and with anything behind it. *)

From Verif Require Import GoBase SpecNum ProofsBase ModelTools ProofsTools ModelUint128 SpecUint128 ProofsUint128 ModelVal
  ModelJson ModelRegistry ModelDecode ProofsRun SpecScale ProofsReads ProofsForms.

(** ** Records of runtime metadata. *)
Inductive feeds (c : ctx) : prog -> list string -> list val -> val -> Prop :=
| fd_ret v : feeds c (Ret v) [] [] v
| fd_sub t k g ts gs v : feeds c (k g) ts gs v -> feeds c (Sub c t k) (t :: ts) (g :: gs) v.

Lemma reads_feeds rec c p ts gs v : feeds c p ts gs v -> forall done bs cs, seqdec rec c ts bs gs cs -> reads rec done p bs v cs.
Proof.
  induction 1 as [v|t k g ts gs v H IH]; intros done bs cs D; inversion D; subst.
  - apply reads_ret.
  - eapply reads_sub; [eassumption|]. now apply IH.
Qed.

Lemma as_list_slice l k : as_list (slice_of l) k = k l. Proof. now destruct l. Qed.
Lemma as_strs_map l : forall k, as_strs (map VStr l) k = k l.
Proof. induction l as [|s l IH]; intros k; [reflexivity|]. cbn [map as_strs]. now rewrite IH. Qed.
Lemma as_structs_map l : forall k, as_structs (map VMap l) k = k (map VMap l).
Proof. induction l as [|s l IH]; intros k; [reflexivity|]. cbn [map as_structs]. now rewrite IH. Qed.
Lemma strs_of_eq l : strs_of l = strings_val l. Proof. reflexivity. Qed.
Lemma copy_args l : map copy_arg (map VMap (map arg_rec l)) = map VMap (map arg_rec l).
Proof. induction l as [|[n t] l IH]; [reflexivity|]. cbn [map]. now rewrite IH. Qed.
Lemma items_nil l : items_val VNilSlice (Some l) = records l. Proof. now destruct l. Qed.
Lemma items_keep l : items_val (VSlice []) (Some l) = VSlice (map VMap l). Proof. now destruct l. Qed.

Ltac feed1 := first
  [ apply fd_ret
  | apply fd_sub; cbn [as_str as_bool as_int as_struct];
    unfold texts, records; rewrite ?as_list_slice, ?as_strs_map, ?as_structs_map ].
Ltac feed := cbv beta delta [sub_str sub_int sub_type sub_strs sub_structs sub_flag meta_items sub_lookup meta_storage_end store_rec] zeta;
  repeat feed1.

Lemma meta_end_feeds c n m t f docs : feeds c (meta_storage_end c n m t) ["HexBytes"; "Vec<String>"] [VStr f; texts docs]
  (VMap [("name", VStr n); ("modifier", VStr m); ("type", t); ("fallback", VStr f); ("docs", strings_val docs)]).
Proof. feed. Qed.

Lemma meta_feeds c name ts gs m : meta_layout name ts gs m -> feeds c (process_meta c name) ts gs (VMap m).
Proof.
  destruct 1.
  - unfold process_meta, meta_event; cbn [String.eqb Ascii.eqb Bool.eqb]. feed.
  - unfold process_meta, meta_argument; cbn [String.eqb Ascii.eqb Bool.eqb]. feed.
  - unfold process_meta, meta_call; cbn [String.eqb Ascii.eqb Bool.eqb]. feed. rewrite copy_args. feed.
  - unfold process_meta, meta_error; cbn [String.eqb Ascii.eqb Bool.eqb]. feed.
  - unfold process_meta, meta_constant; cbn [String.eqb Ascii.eqb Bool.eqb]. feed.
  - destruct H as [H|[H|[]]]; injection H as <- <-; destruct H0; try discriminate;
      unfold process_meta, meta_storage_entry, meta_storage_type; cbn [String.eqb Ascii.eqb Bool.eqb app andb];
      feed; cbn [String.eqb Ascii.eqb Bool.eqb app andb]; feed.
  - destruct H; unfold process_meta, meta_storage_entry14; cbn [String.eqb Ascii.eqb Bool.eqb app andb];
      feed; cbn [String.eqb Ascii.eqb Bool.eqb app andb]; feed.
  - destruct H as [<-|[<-|[<-|[]]]]; unfold process_meta, meta_storage; cbn [String.eqb Ascii.eqb Bool.eqb append]; feed.
  - unfold process_meta, meta_module; cbn [String.eqb Ascii.eqb Bool.eqb]. unfold module_types, module_vals, module_rec, opt_types, opt_vals.
    destruct st as [[? ?]|], cs as [cs|], es as [es|]; cbn [app]; rewrite ?items_keep; feed.
  - destruct H as [H|[H|[]]]; injection H as <- <-; unfold process_meta, meta_module; cbn [String.eqb Ascii.eqb Bool.eqb];
    unfold module_types, module_vals, module_rec, opt_types, opt_vals;
    destruct st as [[? ?]|], cs as [cs|], es as [es|]; cbn [app]; rewrite ?items_nil; feed.
  - unfold process_meta, meta_constant14; cbn [String.eqb Ascii.eqb Bool.eqb]. feed.
  - unfold process_meta, meta_module14; cbn [String.eqb Ascii.eqb Bool.eqb]. unfold module14_types, module14_vals, module14_rec, opt_types, opt_vals.
    destruct st as [[? ?]|], cs as [cs|], es as [es|], xs as [xs|]; cbn [app]; feed.
  - unfold process_meta, meta_module15, meta_module14; cbn [String.eqb Ascii.eqb Bool.eqb]. unfold module14_types, module14_vals, module14_rec, opt_types, opt_vals.
    destruct st as [[? ?]|], cs as [cs|], es as [es|], xs as [xs|]; cbn [app]; feed.
  - unfold process_meta, meta_api; cbn [String.eqb Ascii.eqb Bool.eqb]. feed.
  - unfold process_meta, meta_method; cbn [String.eqb Ascii.eqb Bool.eqb]. feed.
  - unfold process_meta, meta_param; cbn [String.eqb Ascii.eqb Bool.eqb]. feed.
  - unfold process_meta, meta_outer; cbn [String.eqb Ascii.eqb Bool.eqb]. feed.
  - unfold process_meta, meta_custom; cbn [String.eqb Ascii.eqb Bool.eqb]. feed.
Qed.

Section Decode.
Variable st : bool.
Variable E : env.
Hypothesis STD : std_env E.

Definition DecE c ts bs g cs := exists f, Dec (decode f E) c ts bs g cs.
Definition ReadE c cd bs g cs := exists f, reads (decode f E) [] (process E c cd) bs g cs.
Definition SeqE c ts bs gs cs := exists f, seqdec (decode f E) c ts bs gs cs.

Lemma DecE_reads c ts cd bs g cs : resolves E c ts cd -> ReadE c cd bs g cs -> DecE c ts bs g cs.
Proof. intros R [f H]. exists (S f). eapply Dec_resolves; eassumption. Qed.

Lemma SeqE_nil c : SeqE c [] [] [] [].
Proof. exists O. constructor. Qed.
Lemma SeqE_cons c t ts b bs g gs cs1 cs2 : DecE c t b g cs1 -> SeqE c ts bs gs cs2 ->
  SeqE c (t :: ts) (b ++ bs) (g :: gs) (cs1 ++ cs2).
Proof.
  intros [f1 H1] [f2 H2]. exists (Nat.max f1 f2). constructor.
  - eapply Dec_mono; [|exact H1]. apply decode_mono. lia.
  - eapply seqdec_mono; [|exact H2]. apply decode_mono. lia.
Qed.

(** Fixed-width reads. *)
Lemma ReadE_next c cd n k b v : process E c cd = Next n k -> n = blen b -> k b = Ret v -> ReadE c cd b v [].
Proof. intros P N K. exists O. rewrite P. now apply reads_next_ret. Qed.

Lemma pow_256_nat n : 256 ^ Z.of_nat n = 2 ^ (8 * Z.of_nat n).
Proof. rewrite Z.pow_mul_r by lia. reflexivity. Qed.

Lemma blen_length b n : List.length b = n -> blen b = Z.of_nat n.
Proof. intros <-. reflexivity. Qed.

Lemma FromBytes_le z : 0 <= z < 2 ^ 128 -> exists u, FromBytes (le_bytes 16 z) = Ok u /\ wf u /\ value u = z.
Proof.
  intros H. destruct (FromBytes_spec (le_bytes 16 z)) as (u & A & B & C); [apply le_bytes_length|].
  exists u. repeat split; try assumption; try apply B. rewrite C. apply le_val_bytes_small. exact H.
Qed.

Lemma nth_z_nat {A} (l : list A) i x : 0 <= i -> nth_error l (Z.to_nat i) = Some x -> nth_z l i = Some x.
Proof. intros H N. unfold nth_z. now replace (i <? 0) with false by (symmetry; lia). Qed.

Lemma hex_byte_eq a x : String.eqb (hex_encode [a]) (hex_encode [x]) = Ascii.eqb a x.
Proof.
  destruct (Ascii.eqb_spec a x) as [->|N]; [apply String.eqb_refl|].
  apply String.eqb_neq. intros H. apply hex_encode_inj in H. congruence.
Qed.

Lemma c_like_value_spec tm i name t : In (name, t) tm -> StringToInt t = i ->
  (forall n' t', In (n', t') tm -> StringToInt t' = i -> n' = name) -> c_like_value tm i = name.
Proof.
  unfold c_like_value. generalize "". revert name t.
  assert (X : forall (tm : typemap) (acc name : string), (forall n' t', In (n', t') tm -> StringToInt t' = i -> n' = name) ->
    acc = name -> fold_left (fun acc p => if StringToInt (snd p) =? i then fst p else acc) tm acc = name).
  { clear. induction tm as [|[n t] tm IH]; intros acc name U A; cbn [fold_left fst snd]; [exact A|].
    apply IH; [intros; eapply U; [right|]; eassumption|].
    destruct (Z.eqb_spec (StringToInt t) i); [|exact A]. eapply U; [left; reflexivity|assumption]. }
  induction tm as [|[n t0] tm IH]; intros name t acc I H U; [contradiction|]. cbn [fold_left fst snd].
  destruct I as [I|I].
  - injection I as -> ->. rewrite H, Z.eqb_refl. apply X; [|reflexivity]. intros; eapply U; [right|]; eassumption.
  - eapply IH; [exact I|exact H|]. intros; eapply U; [right|]; eassumption.
Qed.

Lemma reads_btreemap f c sub tk tv n : split_char ","%char sub = [tk; tv] ->
  forall bs gs cs ps, seqdec (decode f E) c (List.concat (repeat [tk; tv] n)) bs gs cs -> entries E gs ps ->
  forall done acc,
  reads (decode f E) done
   ((fix loop (n : nat) (acc : list val) : prog :=
      match n with
      | O => Ret (slice_of (rev acc))
      | S n' =>
          Sub c (nth 0 (split_char ","%char sub) "") (fun kv =>
          match nth_error (split_char ","%char sub) 1 with
          | None => Fail "runtime error: index out of range"
          | Some sub_v => Sub c sub_v (fun v => loop n' (VMap [(ToString E kv, v)] :: acc))
          end)
      end) n acc) bs (slice_of (rev acc ++ ps)%list) cs.
Proof.
  intros HS. rewrite HS. cbn [nth nth_error].
  induction n as [|n IH]; intros bs gs cs ps H EN done acc; cbn [repeat List.concat app] in H.
  - inversion H; subst. inversion EN; subst. rewrite app_nil_r. apply reads_ret.
  - inversion H as [|t1 ts1 b1 bs1 g1 gs1 cs1 cs1' D1 S1]; subst.
    inversion S1 as [|t2 ts2 b2 bs2 g2 gs2 cs2 cs2' D2 S2]; subst.
    inversion EN as [|k v gs' ps' EN']; subst.
    eapply reads_sub; [exact D1|]. eapply reads_sub; [exact D2|].
    specialize (IH _ _ _ _ S2 EN' ((done ++ b1) ++ b2)%list (VMap [(ToString E g1, g2)] :: acc)).
    cbn [rev] in IH. rewrite <- (app_assoc (rev acc)) in IH. exact IH.
Qed.

(** A decode in a fresh decoder over exactly the value's bytes. *)
Lemma Dec_fresh f c ts bs g cs : Dec (decode f E) c ts bs g cs -> blen bs < two63 ->
  decode f E c bs 0 ts = Ok (g, blen bs, cs).
Proof.
  intros D L. specialize (D [] []). cbn [app] in D. rewrite app_nil_r in D. now apply D.
Qed.

Lemma reads_bytes f c k b v cs : Z.of_nat (List.length b) < 2 ^ 32 ->
  reads (decode (S f) E) (len_of b ++ b)%list (k b) [] v cs ->
  reads (decode (S f) E) [] (compact_u32 c (fun n => Next n k)) (len_of b ++ b) v cs.
Proof.
  intros L K. unfold len_of in *. apply reads_len; [exact STD|lia|]. cbn [app].
  apply reads_next_last; [reflexivity|]. exact K.
Qed.

(** The inner decode of a compact integer sees as many bytes as the compact
    form has; missing ones count as zero. *)
Lemma next_short b n : 0 <= n < 2 ^ 62 -> blen b < 2 ^ 62 ->
  next_bytes b 0 (i64 n) = Ok (firstn (Z.to_nat n) b, Z.min n (blen b)).
Proof.
  intros H L. pose proof (blen_nonneg b). rewrite i64_small by (unfold two63; lia).
  rewrite next_bytes_ok by (unfold two63; lia). reflexivity.
Qed.

Lemma le_uint_firstn n b : le_uint n (firstn n b) = le_uint n b.
Proof. rewrite !le_uint_val, le_val_firstn. apply Z.mod_mod. pose proof (pow256_pos n). lia. Qed.

Lemma pad16 b : (List.length b <= 16)%nat -> firstn 16 (b ++ repeat "000"%char 16) = le_bytes 16 (le_val b).
Proof.
  intros L. apply le_val_inj.
  - rewrite le_bytes_length, firstn_length, app_length, repeat_length. lia.
  - rewrite le_val_firstn, le_val_pad, le_val_bytes. reflexivity.
Qed.

Lemma srepeat_zeros n : srepeat "0"%char (2 * n) = hex_encode (repeat "000"%char n).
Proof. induction n as [|n IH]; [reflexivity|]. replace (2 * S n)%nat with (S (S (2 * n))) by lia. cbn [srepeat]. rewrite IH. reflexivity. Qed.

Lemma justify16 b : (List.length b <= 16)%nat ->
  (if Nat.ltb (List.length b) 16 then HexToBytes (left_justify0 (BytesToHex b) 32) else b) = le_bytes 16 (le_val b).
Proof.
  intros L. destruct (Nat.ltb_spec (List.length b) 16) as [H|H].
  - unfold left_justify0, BytesToHex. rewrite hex_encode_length.
    replace (32 - 2 * List.length b)%nat with (2 * (16 - List.length b))%nat by lia.
    rewrite srepeat_zeros, <- hex_encode_app.
    change (hex_encode (b ++ repeat "000"%char (16 - Datatypes.length b))) with (BytesToHex (b ++ repeat "000"%char (16 - Datatypes.length b))).
    rewrite HexToBytes_hex. apply le_val_inj.
    + rewrite le_bytes_length, app_length, repeat_length. lia.
    + rewrite le_val_pad, le_val_bytes. symmetry. apply Z.mod_small.
      pose proof (le_val_range b). assert (256 ^ Z.of_nat (List.length b) <= 256 ^ Z.of_nat 16) by (apply Z.pow_le_mono_r; lia). lia.
  - replace 16%nat with (List.length b) by lia. symmetry. apply le_bytes_val.
Qed.

Lemma compact_part_short z len b : 0 <= z < 2 ^ 128 -> compact_part z len b -> (List.length b <= 16)%nat.
Proof.
  intros Hz [(_ & _ & _ & _ & L)|(_ & S & -> & _)]; [lia|]. rewrite le_bytes_length.
  pose proof (byte_count_range z 1 16 ltac:(lia) ltac:(split; [|change (256 ^ 16) with (2 ^ 128)]; lia)). lia.
Qed.

Lemma dec_div_floor_4 z : 0 <= z -> dec_div_floor z 0 4 = (z / 4, 0).
Proof.
  intros H. unfold dec_div_floor. change (0 + 16 <? 0) with false. cbv iota.
  change (10 ^ (0 + 16)) with (4 * 2500000000000000). change (-16 + 16) with 0. change (0 <? 0) with false. cbv iota.
  rewrite Z.quot_div_nonneg, Z.rem_mod_nonneg by lia.
  replace (z * (4 * 2500000000000000)) with (z * 2500000000000000 * 4) by ring.
  rewrite Z.mod_mul, Z.div_mul by lia. change (2 * Z.abs 0 * 10 ^ 0 <? 4) with true. cbv iota.
  f_equal. change (10 ^ 16) with (4 * 2500000000000000). apply Z.div_mul_cancel_r; lia.
Qed.
Lemma dec_div_floor_1 z : 0 <= z -> dec_div_floor z 0 1 = (z, 0).
Proof.
  intros H. unfold dec_div_floor. change (0 + 16 <? 0) with false. cbv iota.
  change (10 ^ (0 + 16)) with 10000000000000000. change (-16 + 16) with 0. change (0 <? 0) with false. cbv iota.
  rewrite Z.quot_1_r, Z.rem_1_r. change (2 * Z.abs 0 * 10 ^ 0 <? 1) with true. cbv iota.
  f_equal. change (10 ^ 16) with 10000000000000000. apply Z.div_mul. lia.
Qed.

Lemma digits_no_e s : Forall (fun c => 48 <= bZ c <= 57) (s2b s) -> index_any_e s = None.
Proof.
  induction s as [|c s IH]; cbn [s2b index_any_e]; intros F; [reflexivity|]. inversion F as [|? ? Hc F']; subst.
  destruct (Ascii.eqb_spec c "e"%char) as [->|_]; [exfalso; cbv in Hc; destruct Hc; congruence|].
  destruct (Ascii.eqb_spec c "E"%char) as [->|_]; [exfalso; cbv in Hc; destruct Hc; congruence|].
  cbn [orb]. now rewrite IH.
Qed.
Lemma digits_no_split s x : Forall (fun c => 48 <= bZ c <= 57) (s2b s) -> ~ (48 <= bZ x <= 57) -> split_char x s = [s].
Proof.
  intros F Hx. induction s as [|c s IH]; [reflexivity|]. cbn [s2b] in F. inversion F as [|? ? Hc F']; subst.
  cbn [split_char]. destruct (Ascii.eqb_spec c x) as [->|_]; [contradiction|]. now rewrite IH.
Qed.
Lemma dec_of_numeral s z : is_numeral s z -> dec_of_string s = Some (z, 0).
Proof.
  intros N. unfold dec_of_string. rewrite digits_no_e by apply N.
  unfold dec_mantissa. rewrite digits_no_split by (apply N || (cbv; intros [? ?]; congruence)).
  now rewrite (parse_int_numeral s z N).
Qed.

(** The inner decode of a compact integer. *)
Lemma compact_inner f sub cd z g len b done : resolves E (Ctx 0 "" None) sub cd -> 0 <= z ->
  compact_repr cd z = Some g -> compact_part z len b ->
  reads (decode (S f) E) done (Other b (Ctx 0 "" None) false sub (compact_value len)) [] g [].
Proof.
  intros (cd0 & t & G & I) Hz R P.
  assert (Z128 : z < 2 ^ 128).
  { destruct cd; cbn in R; try discriminate; match type of R with (if ?x <? ?y then _ else _) = _ =>
      destruct (Z.ltb_spec x y); [|discriminate] end; lia. }
  pose proof (compact_part_short z len b (conj Hz Z128) P) as Lb.
  assert (Bb : blen b < 2 ^ 62) by (unfold blen; lia).
  assert (V : 0 <= le_val b < 2 ^ 128).
  { pose proof (le_val_range b). assert (256 ^ Z.of_nat (List.length b) <= 256 ^ 16) by (apply Z.pow_le_mono_r; lia).
    change (256 ^ 16) with (2 ^ 128) in *. lia. }
  change (@nil string) with ((if false then [] else []) ++ @nil string)%list.
  assert (D : forall v o, run (decode f E) 0 (process E (Ctx 0 "" None) cd) b 0 [] = Ok (v, o, []) ->
    reads (decode (S f) E) done (compact_value len v) [] g [] ->
    reads (decode (S f) E) done (Other b (Ctx 0 "" None) false sub (compact_value len)) [] g []).
  { intros v o H K. change (@nil string) with ((if false then [] else []) ++ @nil string)%list.
    eapply reads_other; [|exact K]. cbn [decode]. rewrite G. cbn [bind]. rewrite I. exact H. }
  assert (DD : (if len <=? 4 then 4 else 1) = 4 /\ le_val b / 4 = z /\ le_val b < 2 ^ 32 \/ (if len <=? 4 then 4 else 1) = 1 /\ le_val b = z).
  { destruct P as [(L & _ & Q & U & _)|(L & _ & _ & Q)].
    - left. replace (len <=? 4) with true by (symmetry; lia). auto.
    - right. replace (len <=? 4) with false by (symmetry; lia). auto. }
  cbn [app]. destruct cd; cbn [compact_repr] in R; try discriminate;
    match type of R with (if ?x <? ?y then _ else _) = _ => destruct (Z.ltb_spec x y) as [Hr|]; [|discriminate] end;
    injection R as <-.
  - (* u32 *)
    eapply D; [cbn [process run]; rewrite next_short by (exact Bb || lia); cbn [bind run]; reflexivity|].
    rewrite le_uint_firstn, le_uint_val. unfold compact_value.
    change (256 ^ Z.of_nat (Z.to_nat 4)) with (2 ^ 32).
    destruct DD as [(-> & Q & U)|(-> & ->)]; rewrite Z.mod_small by lia; rewrite ?Z.div_1_r, ?Q; apply reads_ret.
  - (* u64 *)
    eapply D; [cbn [process run]; rewrite next_short by (exact Bb || lia); cbn [bind run]; reflexivity|].
    rewrite le_uint_firstn, le_uint_val. unfold compact_value.
    change (256 ^ Z.of_nat (Z.to_nat 8)) with (2 ^ 64).
    destruct DD as [(-> & Q & U)|(-> & ->)]; rewrite Z.mod_small by lia; rewrite ?Z.div_1_r, ?Q; apply reads_ret.
  - (* u128 *)
    destruct (FromBytes_le (le_val b) V) as (u & HF & W & VU).
    eapply D.
    { cbn [process run]. rewrite next_short by (exact Bb || lia). cbn [bind].
      rewrite (firstn_all2 b) by lia. rewrite justify16 by lia. cbv zeta. rewrite HF, String_itoa by exact W.
      cbn [run]. reflexivity. }
    rewrite VU. unfold compact_value. rewrite (dec_of_numeral _ (le_val b)) by (apply itoa_numeral; lia).
    destruct DD as [(-> & Q & U)|(-> & Q)]; rewrite ?dec_div_floor_4, ?dec_div_floor_1, Q by lia; apply reads_ret.
  - (* balance *)
    destruct (FromBytes_le (le_val b) V) as (u & HF & W & VU).
    eapply D.
    { cbn [process run]. rewrite next_short by (exact Bb || lia). cbn [bind].
      rewrite (firstn_all2 b) by lia. rewrite pad16 by lia. cbv zeta.
      destruct (String.eqb_spec (BytesToHex (le_bytes 16 (le_val b))) "ffffffffffffffffffffffffffffffff") as [F|_].
      { exfalso. change "ffffffffffffffffffffffffffffffff" with (hex_encode (le_bytes 16 (2 ^ 128 - 1))) in F.
        apply hex_encode_inj in F. apply (f_equal le_val) in F. rewrite !le_val_bytes_small in F by (change (256 ^ Z.of_nat 16) with (2 ^ 128); lia).
        destruct DD as [(_ & Q & U)|(_ & Q)]; lia. }
      rewrite HF, Big_spec by exact W. cbn [run]. reflexivity. }
    rewrite VU. unfold compact_value.
    destruct DD as [(-> & Q & U)|(-> & Q)]; rewrite ?dec_div_floor_4, ?dec_div_floor_1, Q by lia; apply reads_ret.
Qed.

Lemma BytesToHex_eq b : BytesToHex b = hex_encode b. Proof. reflexivity. Qed.

Theorem scale_decodes :
  (forall c ts bs g cs, scale st E c ts bs g cs -> DecE c ts bs g cs)
  /\ (forall c cd bs g cs, scale_at st E c cd bs g cs -> ReadE c cd bs g cs)
  /\ (forall c ts bs gs cs, scales st E c ts bs gs cs -> SeqE c ts bs gs cs).
Proof.
  apply scale_mutind.
  - intros c ts cd bs g cs R _ _ IH. eapply DecE_reads; eassumption.
  - intros c. exists O. apply reads_ret.
  - intros c. exists O. apply reads_ret.
  - intros c b. eapply ReadE_next; [reflexivity|reflexivity|]. destruct b; reflexivity.
  - intros c z Hz. eapply ReadE_next; [reflexivity|reflexivity|]. cbn [le_bytes head_u8].
    now rewrite bZ_Zb_small by lia.
  - intros c z Hz. eapply ReadE_next; [reflexivity|reflexivity|]. cbv beta. now rewrite le_uint_bytes by exact Hz.
  - intros c z Hz. eapply ReadE_next; [reflexivity|reflexivity|]. cbv beta. now rewrite le_uint_bytes by exact Hz.
  - intros c z Hz. eapply ReadE_next; [reflexivity|reflexivity|]. cbv beta. now rewrite le_uint_bytes by exact Hz.
  - (* u128 *)
    intros c z s Hz N. eapply ReadE_next; [reflexivity|reflexivity|]. cbv beta.
    rewrite justify16 by (rewrite le_bytes_length; lia). rewrite le_val_bytes_small by exact Hz. cbv zeta.
    destruct (FromBytes_le z Hz) as (u & -> & W & V). rewrite String_itoa, V by exact W. now rewrite (numeral_itoa s z N).
  - (* u256 *)
    intros c z Hz. eapply ReadE_next; [reflexivity|reflexivity|]. cbv beta.
    rewrite ReverseBytes_even by (now rewrite le_bytes_length). rewrite U256_hex.
    destruct (rev (le_bytes 32 z)) as [|x l] eqn:R.
    { apply (f_equal (@List.length ascii)) in R. rewrite rev_length, le_bytes_length in R. discriminate. }
    rewrite <- R, rev_involutive, le_val_bytes_small by exact Hz. reflexivity.
  - (* balance *)
    intros c z Hz. eapply ReadE_next; [reflexivity|reflexivity|]. cbv beta.
    rewrite pad16 by (rewrite le_bytes_length; lia). rewrite le_val_bytes_small by (change (256 ^ Z.of_nat 16) with (2 ^ 128); lia). cbv zeta.
    destruct (String.eqb_spec (BytesToHex (le_bytes 16 z)) "ffffffffffffffffffffffffffffffff") as [F|_].
    { exfalso. change "ffffffffffffffffffffffffffffffff" with (hex_encode (le_bytes 16 (2 ^ 128 - 1))) in F.
      apply hex_encode_inj in F. apply (f_equal le_val) in F.
      rewrite !le_val_bytes_small in F by (change (256 ^ Z.of_nat 16) with (2 ^ 128); lia). lia. }
    destruct (FromBytes_le z ltac:(lia)) as (u & -> & W & V). now rewrite Big_spec, V by exact W.
  - (* moment *)
    intros c z Hz. eapply ReadE_next; [reflexivity|reflexivity|]. cbv beta. cbv zeta.
    rewrite le_uint_bytes by (change (256 ^ Z.of_nat 8) with (2 ^ 64); lia).
    now replace (10000000000 <? z) with false by (symmetry; lia).
  - (* signed *)
    intros c n z _ Hn Hz. eapply ReadE_next; [reflexivity|rewrite blen_le_bytes; cbn in Hn; lia|]. cbv beta.
    assert (Nn : 0 < n) by (cbn in Hn; lia).
    rewrite ReverseBytes_even by (rewrite le_bytes_length; cbn in Hn; intuition (subst; reflexivity)).
    rewrite U256_hex. destruct (rev (le_bytes (Z.to_nat n) z)) as [|x l] eqn:R.
    { apply (f_equal (@List.length ascii)) in R. rewrite rev_length, le_bytes_length in R. cbn [List.length] in R. lia. }
    rewrite <- R, rev_involutive, le_val_bytes. rewrite Z2Nat.id by lia.
    assert (PW : 2 ^ (8 * n) = 2 * 2 ^ (8 * n - 1)) by (rewrite <- Z.pow_succ_r by lia; f_equal; lia).
    change 256 with (2 ^ 8). rewrite <- Z.pow_mul_r by lia.
    set (H := 2 ^ (8 * n - 1)) in *. rewrite PW. clear PW.
    destruct (Z.lt_ge_cases z 0) as [Neg|Pos].
    + replace (z mod (2 * H)) with (z + 2 * H).
      2:{ apply Z.mod_unique with (-1); lia. }
      replace (H <? z + 2 * H) with true by (symmetry; lia). do 2 f_equal. lia.
    + rewrite Z.mod_small by lia. now replace (H <? z) with false by (symmetry; lia).
  - intros c b Hb. eapply ReadE_next; [reflexivity|now rewrite (blen_length b _ Hb)|]. cbv beta. now rewrite BytesToHex_eq, AddHex_hex.
  - intros c b Hb. eapply ReadE_next; [reflexivity|now rewrite (blen_length b _ Hb)|]. cbv beta. now rewrite BytesToHex_eq, AddHex_hex.
  - intros c b Hb. eapply ReadE_next; [reflexivity|now rewrite (blen_length b _ Hb)|]. cbv beta. now rewrite BytesToHex_eq, AddHex_hex.
  - intros c b Hb. eapply ReadE_next; [reflexivity|now rewrite (blen_length b _ Hb)|]. cbv beta.
    unfold right_justify0. rewrite BytesToHex_eq, hex_encode_length, Hb. cbn [Nat.mul Nat.add Nat.sub srepeat String.append].
    now rewrite AddHex_hex.
  - intros c b _ Hb. eapply ReadE_next; [reflexivity|now rewrite (blen_length b _ Hb)|]. cbv beta. now rewrite BytesToHex_eq, AddHex_hex.
  - intros c b _ Hb. eapply ReadE_next; [reflexivity|now rewrite (blen_length b _ Hb)|]. cbv beta. now rewrite BytesToHex_eq, AddHex_hex.
  - intros c b Hb _. eapply ReadE_next; [reflexivity|now rewrite (blen_length b _ Hb)|]. reflexivity.
  - intros c. eapply ReadE_next; reflexivity.
  - intros c x y Hx. exists O. cbn [process]. change [x; y] with ([x] ++ [y])%list at 1. apply reads_next; [reflexivity|].
    change "00" with (hex_encode [Zb 0]). rewrite BytesToHex_eq, hex_byte_eq.
    destruct (Ascii.eqb_spec x (Zb 0)) as [|_]; [contradiction|].
    apply reads_next_ret; [reflexivity|]. unfold BytesToHex. now rewrite <- hex_encode_app.
  - intros c b _ Hb. exists O. cbn [process]. change (Zb 255 :: b) with ([Zb 255] ++ b)%list. apply reads_next; [reflexivity|].
    cbn [BytesToHex]. change (String.eqb (BytesToHex [Zb 255]) "ff") with true. cbv iota.
    apply reads_next_ret; [now rewrite (blen_length b _ Hb)|reflexivity].
  - intros c n b Hb Hn _. eapply ReadE_next; [reflexivity|now rewrite <- Hb|]. cbv beta. now rewrite ascii_or_hex_text.
  - intros c n sub b Hs Hb Hn _. eapply ReadE_next.
    + cbn [process]. replace (0 <? n) with true by (symmetry; lia). rewrite Hs. reflexivity.
    + now rewrite <- Hb.
    + cbv beta. now rewrite ascii_or_hex_text.
  - (* compact u32 *)
    intros c z Hz _. exists O. cbn [process]. rewrite <- (app_nil_r (compact z)). apply reads_compact; [lia|].
    intros len b P. rewrite (compact_u32_int_spec z) by (assumption || lia). apply reads_ret.
  - intros c z Hz _. exists O. cbn [process]. rewrite <- (app_nil_r (compact z)). apply reads_compact; [lia|].
    intros len b P. rewrite (compact_u32_int_spec z) by (assumption || lia). cbv zeta.
    replace (10000000000 <? z) with false by (symmetry; lia). apply reads_ret.
  - intros c sub cd z g Hs R Hz HR _. exists 1%nat. cbn [process]. rewrite <- (app_nil_r (compact z)). apply reads_compact.
    + destruct cd; cbn in HR; try discriminate; match type of HR with (if ?x <? ?y then _ else _) = _ =>
        destruct (Z.ltb_spec x y); [|discriminate] end; lia.
    + intros len b P. destruct (String.eqb_spec sub ""); [contradiction|]. eapply compact_inner; eassumption.
  - intros c b Hb _. exists 1%nat. cbn [process]. unfold process_bytes. apply reads_bytes; [exact Hb|].
    rewrite ascii_or_hex_text. apply reads_ret.
  - intros c b Hb _. exists 1%nat. cbn [process]. unfold process_bytes. apply reads_bytes; [exact Hb|].
    rewrite ascii_or_hex_text. apply reads_ret.
  - intros c b Hb _. exists 1%nat. cbn [process]. apply reads_bytes; [exact Hb|]. rewrite BytesToHex_eq, AddHex_hex. apply reads_ret.
  - intros c sub Hs. eapply ReadE_next; [reflexivity|reflexivity|]. cbv beta zeta.
    change (String.eqb (BytesToHex [Zb 0]) "00") with true. cbn [negb]. now rewrite andb_false_r.
  - intros c sub bs g cs Hs Hb _ [f D] _. exists f. cbn [process]. change (Zb 1 :: bs) with ([Zb 1] ++ bs)%list.
    apply reads_next; [reflexivity|]. cbv zeta. change (String.eqb (BytesToHex [Zb 1]) "00") with false.
    destruct (String.eqb_spec sub ""); [contradiction|]. destruct (String.eqb_spec sub "bool"); [contradiction|].
    cbn [negb andb]. eapply reads_sub_ret; [exact D|reflexivity].
  - intros c b. eapply ReadE_next; [reflexivity|reflexivity|]. destruct b; reflexivity.
  - (* vec *)
    intros c sub n bs gs cs _ [f S] Hn. exists (Datatypes.S f). cbn [process]. apply reads_len; [exact STD|lia|].
    replace (512 * 1024 <? Z.of_nat n) with false by (symmetry; lia). rewrite Nat2Z.id.
    rewrite <- (app_nil_r bs), <- (app_nil_r cs). eapply reads_repeat.
    + eapply seqdec_mono; [apply decode_mono_S|exact S].
    + cbn [rev app]. apply reads_ret.
  - (* array *)
    intros c n sub bs gs cs Hs Hn _ [f S]. exists f. cbn [process]. replace (0 <? n) with true by (symmetry; lia). rewrite Hs.
    rewrite <- (app_nil_r bs), <- (app_nil_r cs). eapply reads_repeat; [exact S|]. cbn [rev app]. apply reads_ret.
  - (* struct *)
    intros c tm bs gs cs _ [f S] ND. exists f. cbn [process].
    rewrite <- (app_nil_r bs), <- (app_nil_r cs). eapply reads_fields; [exact S|exact ND|]. cbn [rev app]. apply reads_ret.
  - intros c. exists O. apply reads_ret.
  - (* map *)
    intros c sub tk tv n bs gs cs ps _ HS Hn _ [f S] EN. exists (Datatypes.S f). cbn [process]. apply reads_len; [exact STD|lia|].
    replace (1000 <? Z.of_nat n) with false by (symmetry; lia). rewrite Nat2Z.id. cbv zeta.
    eapply (reads_btreemap (Datatypes.S f) c sub tk tv n HS bs gs cs ps) with (acc := []); [|exact EN].
    eapply seqdec_mono; [apply decode_mono_S|exact S].
  - (* value list *)
    intros c vl i s Hi HN Hs _. eapply ReadE_next; [reflexivity|reflexivity|]. cbv beta zeta. cbn [head_u8].
    rewrite bZ_Zb_small by lia. rewrite (nth_z_nat vl i s) by (assumption || lia).
    destruct (String.eqb_spec s ""); [contradiction|reflexivity].
  - intros c tm vl i name t HC I HT Hi U _. eapply ReadE_next; [reflexivity|reflexivity|]. cbv beta zeta. cbn [head_u8].
    rewrite bZ_Zb_small by lia. rewrite HC. do 2 f_equal. eapply c_like_value_spec; eassumption.
  - intros c tm vl i name sub bs g cs HC Hi HN Hs HV _ [f D] _. exists f. cbn [process]. unfold process_enum.
    change (Zb i :: bs) with ([Zb i] ++ bs)%list. apply reads_next; [reflexivity|]. cbv zeta. cbn [head_u8].
    rewrite bZ_Zb_small by lia. rewrite HC, (nth_z_nat tm i (name, sub)) by (assumption || lia).
    destruct (String.eqb_spec sub ""); [contradiction|]. rewrite HV. eapply reads_sub_ret; [exact D|reflexivity].
  - intros c tm vl i name sub rows bs gs cs HC Hi HN Hs HV FR ND _ [f D] _. exists f. cbn [process]. unfold process_enum.
    change (Zb i :: bs) with ([Zb i] ++ bs)%list. apply reads_next; [reflexivity|]. cbv zeta. cbn [head_u8].
    rewrite bZ_Zb_small by lia. rewrite HC, (nth_z_nat tm i (name, sub)) by (assumption || lia).
    destruct (String.eqb_spec sub ""); [contradiction|]. rewrite HV.
    rewrite <- (app_nil_r bs), <- (app_nil_r cs). eapply reads_rows; [exact D|exact FR|exact ND|]. cbn [rev app]. apply reads_ret.
  - intros c sub t_ok t_err bs g cs HS _ [f D]. exists f. cbn [process]. change (Zb 0 :: bs) with ([Zb 0] ++ bs)%list.
    apply reads_next; [reflexivity|]. rewrite HS. cbv zeta. change (String.eqb (BytesToHex [Zb 0]) "00") with true. cbn [orb].
    eapply reads_sub_ret; [exact D|reflexivity].
  - intros c sub t_ok t_err bs g cs HS _ [f D]. exists f. cbn [process]. change (Zb 1 :: bs) with ([Zb 1] ++ bs)%list.
    apply reads_next; [reflexivity|]. rewrite HS. cbv zeta.
    change (String.eqb (BytesToHex [Zb 1]) "00") with false. change (String.eqb (BytesToHex [Zb 1]) "") with false.
    change (String.eqb (BytesToHex [Zb 1]) "01") with true. cbn [orb].
    eapply reads_sub_ret; [exact D|reflexivity].
  - intros c i t bs g cs _ Hi HN _ [f D]. exists f. cbn [process].
    change (Zb i :: bs) with ([Zb i] ++ bs)%list. apply reads_next; [reflexivity|]. cbn [head_u8].
    rewrite bZ_Zb_small by lia. rewrite (nth_z_nat _ i t) by (assumption || lia). eapply reads_sub_ret; [exact D|reflexivity].
  - intros c sub bs g cs _ _ [f D]. exists f. cbn [process]. eapply reads_sub_ret; [exact D|reflexivity].
  - intros c sub bs g cs _ Hl _ [f D]. exists (S f). cbn [process]. change cs with ([] ++ cs)%list. eapply reads_sub.
    + apply Dec_compact_u32; [exact STD|lia].
    + eapply reads_sub_ret; [|reflexivity]. eapply Dec_mono; [apply decode_mono_S|exact D].
  - intros c sub t1 t2 b1 b2 g1 g2 cs1 cs2 _ HS _ [f1 D1] _ [f2 D2]. exists (Nat.max f1 f2). cbn [process]. rewrite HS.
    eapply reads_sub; [eapply Dec_mono; [apply (decode_mono f1); lia|exact D1]|].
    eapply reads_sub_ret; [eapply Dec_mono; [apply (decode_mono f2); lia|exact D2]|reflexivity].
  - intros c sub b1 b2 g1 g2 cs1 cs2 _ HS _ [f1 D1] _ [f2 D2]. exists (Nat.max f1 f2). cbn [process]. rewrite HS.
    eapply reads_sub; [eapply Dec_mono; [apply (decode_mono f1); lia|exact D1]|].
    eapply reads_sub_ret; [eapply Dec_mono; [apply (decode_mono f2); lia|exact D2]|reflexivity].
  - (* call *)
    intros c md i j cm bs gs cs _ HM HA _ [f S]. exists f. cbn [process]. unfold process_call.
    change (i :: j :: bs) with ([i; j] ++ bs)%list at 1. apply reads_next; [reflexivity|]. rewrite HM. cbv zeta.
    rewrite BytesToHex_eq, HA. rewrite HM in S.
    rewrite <- (app_nil_r bs) at 1. eapply reads_params; [exact S|]. cbn [rev app].
    apply reads_log. apply reads_ret.
  - intros c bs g cs _ HP HL _ [f D]. exists (S f). cbn [process]. unfold process_bytes. apply reads_bytes; [exact HL|].
    rewrite ascii_or_hex_text. unfold text_of. rewrite HP. change (hex_encode bs) with (BytesToHex bs). rewrite HexToBytes_0xhex.
    rewrite <- (app_nil_r cs). change cs with (if true then cs else []) at 1. eapply reads_other; [|apply reads_ret].
    eapply Dec_fresh; [eapply Dec_mono; [apply decode_mono_S|exact D]|]. unfold blen, two63. lia.
  - (* flags *)
    intros c vl bits cd z _ W R Hz H63.
    assert (X : exists g, reads (decode 0 E) [] (process E c cd) (le_bytes (Z.to_nat (bits / 8)) z) g [] /\ set_value g = z).
    { destruct W as [W|[W|[W|[]]]]; injection W as <- <-.
      - exists (VU16 z). split; [|reflexivity]. apply reads_next_ret; [reflexivity|]. cbv beta. now rewrite le_uint_bytes by exact Hz.
      - exists (VU32 z). split; [|reflexivity]. apply reads_next_ret; [reflexivity|]. cbv beta. now rewrite le_uint_bytes by exact Hz.
      - exists (VU64 z). split; [|apply i64_small; unfold two63; lia]. apply reads_next_ret; [reflexivity|]. cbv beta. now rewrite le_uint_bytes by exact Hz. }
    destruct X as (g & Rg & V). exists 1%nat. cbn [process]. eapply reads_sub_ret; [eapply Dec_resolves; [exact R|exact Rg]|].
    cbv beta. rewrite V. unfold set_result, strings_val. destruct (Z.ltb_spec 0 z).
    + now rewrite set_names_flags by lia.
    + replace z with 0 by lia. now rewrite flags_0.
  - intros c n b _ Hn Hb. exists 1%nat. now apply reads_bitvec.
  - intros c b _ Hb. exists O. cbn [process]. change (Zb 255 :: b) with ([Zb 255] ++ b)%list. apply reads_next; [reflexivity|].
    cbv zeta. change (String.eqb (BytesToHex [Zb 255]) "ff") with true. cbv iota.
    apply reads_next_ret; [now rewrite (blen_length b _ Hb)|reflexivity].
  - intros c. eapply ReadE_next; [reflexivity|reflexivity|]. reflexivity.
  - (* raw identity data *)
    intros c b s n Hb Hn SH _. exists O. cbn [process]. change (Zb (n + 1) :: b) with ([Zb (n + 1)] ++ b)%list. apply reads_next; [reflexivity|].
    cbv zeta. cbn [head_u8]. rewrite bZ_Zb_small by lia. replace (n + 1 =? 0) with false by lia. replace (n + 1 <=? 33) with true by lia.
    rewrite Z.add_simpl_r. apply reads_next_ret; [now rewrite <- Hb|]. cbv beta. now rewrite (shown_spec b s SH).
  - (* hashed identity data *)
    intros c i n b I Hb R _. exists 1%nat. cbn [process]. change (Zb i :: b) with ([Zb i] ++ b)%list. apply reads_next; [reflexivity|].
    assert (DH : Dec (decode 1 E) c "H256" b (VStr ("0x" ++ hex_encode b)) []).
    { eapply Dec_resolves; [exact R|]. cbn [process]. apply reads_next_ret; [now rewrite (blen_length b _ Hb)|]. cbv beta. now rewrite BytesToHex_eq, AddHex_hex. }
    destruct I as [I|[I|[I|[I|[]]]]]; injection I as <- <-; eapply reads_sub_ret; try exact DH; reflexivity.
  - intros c name ts bs gs cs m _ _ [f S] L. exists f. cbn [process]. eapply reads_feeds; [eapply meta_feeds; exact L|exact S].
  - intros c. apply SeqE_nil.
  - intros c t ts b bs g gs cs1 cs2 _ D _ S. now apply SeqE_cons.
Qed.

End Decode.
