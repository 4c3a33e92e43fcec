(** C23 and C48: type lookup always returns; decoding returns for every type
    whose chain of first components is finite. *)

From Verif Require Import GoBase SpecNum ProofsBase ModelTools ProofsTools ModelJson ModelVal ModelRegistry ModelDecode ModelRegister ProofsRun SpecScale ProofsReads ProofsScale ProofsEncode ProofsNames PropTuple PropForms.

(** ** Lookup *)
Lemma repl_short old new k s : (String.length new <= String.length old)%nat -> old <> "" ->
  (String.length (repl old new k s) + k <= String.length s + k)%nat /\
  (k <= String.length s -> String.length (repl old new k s) + k <= String.length s)%nat.
Proof.
  intros L N. revert k. induction s as [|c s IH]; intros k; cbn [repl].
  - cbn. split; lia.
  - destruct k as [|k].
    + assert (G : (String.length (if prefix old (String c s) then new ++ repl old new (String.length old - 1) s else String c (repl old new 0 s)) <= String.length (String c s))%nat); [|lia].
      destruct (prefix old (String c s)) eqn:P.
      * apply prefix_split in P as [r P]. apply (f_equal String.length) in P. rewrite length_app_s in P. cbn [String.length] in P.
        rewrite length_app_s. destruct (IH (String.length old - 1)%nat) as [_ I]. cbn [String.length]. destruct old; [contradiction|]. cbn [String.length] in *. lia.
      * cbn [String.length]. destruct (IH 0%nat). lia.
    + cbn [String.length]. destruct (IH k). split; lia.
Qed.
Lemma replace_short s old new : (String.length new <= String.length old)%nat -> old <> "" -> (String.length (replace_all s old new) <= String.length s)%nat.
Proof. intros L N. unfold replace_all. destruct (repl_short old new 0 s L N). lia. Qed.
Lemma trim_short s : (String.length (trim_space s) <= String.length s)%nat.
Proof.
  unfold trim_space. assert (R : forall t, (String.length (trim_right t) <= String.length t)%nat).
  { induction t as [|c t IH]; [reflexivity|]. cbn [trim_right]. destruct (trim_right t); [destruct (is_space c)|]; cbn [String.length] in *; lia. }
  etransitivity; [apply R|]. induction s as [|c s IH]; [reflexivity|]. cbn [trim_left]. destruct (is_space c); cbn [String.length] in *; lia.
Qed.
Lemma convert_short ts : contains (ConvertType ts) "::" = true -> (String.length (ConvertType ts) <= String.length ts)%nat.
Proof.
  unfold ConvertType. cbv zeta.
  set (n1 := trim_space ts). set (n2 := replace_all n1 "T::" ""). set (n3 := replace_all n2 "VecDeque<" "Vec<"). set (n4 := replace_all n3 "<T>" "").
  set (n5 := replace_all n4 "<T as Trait>::" ""). set (n6 := replace_all n5 "<T, I>" ""). set (n7 := replace_all n6 (String "010" "") " ").
  set (n8 := replace_all n7 "&'static[u8]" "Bytes").
  assert (L : (String.length n8 <= String.length ts)%nat).
  { etransitivity; [apply replace_short; [cbn; lia|discriminate]|]. etransitivity; [apply replace_short; [cbn; lia|discriminate]|].
    etransitivity; [apply replace_short; [cbn; lia|discriminate]|]. etransitivity; [apply replace_short; [cbn; lia|discriminate]|].
    etransitivity; [apply replace_short; [cbn; lia|discriminate]|]. etransitivity; [apply replace_short; [cbn; lia|discriminate]|].
    etransitivity; [apply replace_short; [cbn; lia|discriminate]|]. apply trim_short. }
  set (n9 := if has_prefix n8 "BoundedBTreeSet" then replace_all n8 "BoundedBTreeSet" "BTreeSet" else n8).
  assert (L9 : (String.length n9 <= String.length ts)%nat).
  { unfold n9. destruct (has_prefix n8 _); [|exact L]. etransitivity; [apply replace_short; [cbn; lia|discriminate]|exact L]. }
  clearbody n9. clear L n1 n2 n3 n4 n5 n6 n7 n8.
  repeat match goal with |- context [if ?b then ?x else _] => destruct b; [intros H; try (exfalso; vm_compute in H; discriminate); try exact L9|] end;
  intros _; exact L9.
Qed.
Lemma seg_short s : forall k best, (String.length (last_seg best k s) <= Nat.max (String.length best) (String.length s - 2))%nat.
Proof.
  induction s as [|c s IH]; intros k best; cbn [last_seg]; [lia|]. destruct k as [|k]; [|specialize (IH k best); cbn [String.length]; lia].
  destruct (prefix "::" (String c s)).
  - specialize (IH 1%nat (sdrop 2 (String c s))). assert (D : (String.length (sdrop 2 (String c s)) <= String.length (String c s) - 2)%nat).
    { cbn [sdrop]. destruct s; cbn [sdrop String.length]; lia. }
    cbn [String.length] in *. lia.
  - specialize (IH 0%nat best). cbn [String.length]. lia.
Qed.
Lemma seg_found s : contains s "::" = true -> forall best, (String.length (last_seg best 0 s) <= String.length s - 2)%nat.
Proof.
  induction s as [|c s IH]; intros H best; [discriminate|]. cbn [last_seg]. change (prefix "::" (String c s) || contains s "::" = true) in H.
  destruct (prefix "::" (String c s)).
  - pose proof (seg_short s 1 (sdrop 2 (String c s))) as L.
    assert (D : (String.length (sdrop 2 (String c s)) <= String.length (String c s) - 2)%nat) by (cbn [sdrop]; destruct s; cbn [sdrop String.length]; lia).
    cbn [String.length] in *. lia.
  - specialize (IH H best). cbn [String.length]. lia.
Qed.
Lemma contains_long s : contains s "::" = true -> (2 <= String.length s)%nat.
Proof.
  induction s as [|c s IH]; intros H; [discriminate|]. change (prefix "::" (String c s) || contains s "::" = true) in H. cbn [String.length].
  apply orb_prop in H as [H|H]; [|apply IH in H; lia]. apply prefix_split in H as [r H]. apply (f_equal String.length) in H. rewrite length_app_s in H. cbn in H. lia.
Qed.
Lemma instant_total E m t spec : getCodecInstant E m t spec <> OutOfFuel.
Proof.
  unfold getCodecInstant, idx_panic. cbv zeta. repeat match goal with |- context [match ?x with _ => _ end] => destruct x; try discriminate end.
Qed.
Lemma class_total E m spec : forall fuel t, (String.length t <= fuel)%nat -> GetCodecClass_fuel fuel E m t spec <> OutOfFuel.
Proof.
  induction fuel as [|fuel IH]; intros t L; cbn [GetCodecClass_fuel]; (destruct (last_char (ConvertType t)) as [z|]; [|discriminate]);
  (match goal with |- bind ?x _ <> _ => assert (X : x <> OutOfFuel) by (destruct (Ascii.eqb z ">"); [apply instant_total|discriminate]); destruct x as [[c|]|e|] end; cbn [bind]; try discriminate; try contradiction);
  clear X;
  (match goal with |- bind ?x _ <> _ => assert (X : x <> OutOfFuel);
     [ destruct (if Ascii.eqb z ">" then generic_parts (ConvertType t) else None) as [[nm sb]|];
       [pose proof (instant_total E m nm spec) as I; destruct (getCodecInstant E m nm spec)|pose proof (instant_total E m (ConvertType t) spec) as I; destruct (getCodecInstant E m (ConvertType t) spec)]; cbn [bind]; try discriminate; contradiction
     | destruct x as [[c|]|e|] ] end; cbn [bind]; try discriminate; try contradiction);
  clear X;
  (match goal with |- (if ?b then _ else _) <> _ => destruct b end;
   [ pose proof (instant_total E m "Struct" spec) as I; destruct (getCodecInstant E m "Struct" spec) as [[c|]|e|]; cbn [bind]; try discriminate; try contradiction; destruct c; discriminate |]);
  (destruct (contains (ConvertType t) "::") eqn:C; cbn [andb]; [|discriminate]); (destruct (negb _); [|discriminate]);
  pose proof (convert_short t C) as K; pose proof (contains_long _ C) as K2.
  - lia.
  - apply IH. pose proof (seg_found _ C (ConvertType t)). lia.
Qed.
(** ** C48: looking a type string up always returns: a type, "not found" or a panic. *)
Theorem C48_lookup E module ts spec : exists r, GetCodecClass E module ts spec = r /\ r <> OutOfFuel.
Proof. eexists. split; [reflexivity|]. apply class_total. reflexivity. Qed.
Example C48_case : GetCodecClass (reg_env base_reg) "" "a::b::c::u8" 0 = Ok (Some (CU8, "")).
Proof. vm_compute. reflexivity. Qed.

(** ** C23 *)
(** The component types a decoder may go on to decode, *)
Definition variant_refs (c : ctx) (sub : string) : list (ctx * string) :=
  if String.eqb sub "" then []
  else match struct_variant sub with
       | Some rows => map (fun r => (c, nth 1 r "")) rows
       | None => [(c, sub)]
       end.
Definition call_refs (c : ctx) (cm : callmod) : list (ctx * string) :=
  map (fun p => (Ctx (x_spec c) (cm_module cm) (x_meta c), snd p)) (cm_args cm).
(** those among them it decodes without having read a byte of its own when the
    input has ended, *)
Definition first_refs (c : ctx) (cd : codec) : list (ctx * string) :=
  match cd with
  | COption sub => if String.eqb sub "" || String.eqb sub "bool" then [] else [(c, sub)]
  | CStruct (Some tm) => map (fun p => (c, snd p)) tm
  | CEnum (Some tm) _ => if c_like tm then [] else match tm with [] => [] | p :: _ => variant_refs c (snd p) end
  | CFixedArray n sub => [(c, sub)]
  | CSet _ bits => [(c, "U" ++ itoa bits)]
  | CCompact sub => if String.eqb sub "" then [] else [(Ctx 0 "" None, sub)]
  | CLogDigest => [(c, "Other")]
  | CCall => match x_meta c with
             | Some md => match assoc "" md with Some cm => call_refs c cm | None => [] end
             | None => []
             end
  | CBox sub | CWrapperOpaque sub => [(c, sub)]
  | CRange sub => match split_char ","%char sub with [a; b] => [(c, a); (c, b)] | _ => [(c, sub)] end
  | CResult sub => match split_char ","%char sub with [a; _] => [(c, a)] | _ => [] end
  | CSubstrateFixedI128 => [(c, "i128")]
  | COpaqueCall => [(Ctx (x_spec c) "" (x_meta c), "Call")]
  | COpaque name => map (fun t => (c, t)) (meta_refs name)
  | _ => []
  end.
(** and all of them. *)
Definition all_refs (c : ctx) (cd : codec) : list (ctx * string) :=
  match cd with
  | CVec sub | CBoundedVec sub => [(c, sub)]
  | CEnum (Some tm) _ => flat_map (fun p => variant_refs c (snd p)) tm
  | CLogDigest => map (fun t => (c, t)) log_digest_list
  | CCall => match x_meta c with Some md => flat_map (fun p => call_refs c (snd p)) md | None => [] end
  | CData => map (fun t => (c, t)) data_types
  | CBTreeMap sub => map (fun t => (c, t)) (split_char ","%char sub)
  | CResult sub => map (fun t => (c, t)) (split_char ","%char sub)
  | _ => first_refs c cd
  end.
(** Every chain of first components ends. *)
Inductive grounded (E : env) : ctx -> string -> Prop :=
| gr c ts : (forall cd c' t', resolves E c ts cd -> In (c', t') (first_refs c cd) -> grounded E c' t') -> grounded E c ts.
(** A type and its components, direct and indirect. *)
Inductive reaches (E : env) (c : ctx) (ts : string) : ctx -> string -> Prop :=
| re_self : reaches E c ts c ts
| re_step c1 t1 cd c2 t2 : reaches E c ts c1 t1 -> resolves E c1 t1 cd -> In (c2, t2) (all_refs c1 cd) -> reaches E c ts c2 t2.

Definition Terminates (E : env) (c : ctx) (d : bytes) (o : Z) (ts : string) : Prop := exists r, Decodes E c d o ts r.

(** A program whose nested decodes, in any run, terminate. *)
Fixpoint safe (E : env) (d : bytes) (p : prog) (o : Z) : Prop :=
  match p with
  | Ret _ | Fail _ => True
  | Next n k => forall x o', next_bytes d o (i64 n) = Ok (x, o') -> safe E d (k x) o'
  | Sub c ts k => Terminates E c d o ts /\ forall v o' cs, Decodes E c d o ts (Ok (v, o', cs)) -> safe E d (k v) o'
  | Other b c _ ts k => Terminates E c b 0 ts /\ forall v o' cs, Decodes E c b 0 ts (Ok (v, o', cs)) -> safe E d (k v) o
  | Whole k => safe E d (k d) o
  | LogSpan k => safe E d k o
  end.
Lemma next_fuel d o n : next_bytes d o n <> OutOfFuel.
Proof. unfold next_bytes, slice. repeat match goal with |- context [if ?b then _ else _] => destruct b end; discriminate. Qed.
Lemma safe_run E d p : forall o start cs, safe E d p o -> exists f, run (decode f E) start p d o cs <> OutOfFuel.
Proof.
  induction p as [v|m|n k IH|c ts k IH|b c keep ts k IH|k IH|k IH]; intros o start cs H; cbn [run safe] in *.
  - exists O. discriminate.
  - exists O. discriminate.
  - destruct (next_bytes d o (i64 n)) as [[x o']|m|] eqn:X; cbn [bind]; [apply IH; now apply H|exists O; discriminate|now apply next_fuel in X].
  - destruct H as [(r & NR & f & D) H]. destruct r as [[[v o'] cs']|m|]; [|exists f; rewrite D; discriminate|contradiction].
    destruct (IH v o' start (cs ++ cs')%list) as [f' F]; [apply (H v o' cs'); split; [discriminate|now exists f]|].
    exists (Nat.max f f'). rewrite (decode_mono f (Nat.max f f') E ltac:(lia) _ _ _ _ _ D NR). cbn [bind].
    destruct (run (decode f' E) start (k v) d o' (cs ++ cs')) eqn:R; [| |contradiction];
      rewrite (run_mono _ _ _ _ _ _ _ _ (decode_mono f' (Nat.max f f') E ltac:(lia)) R ltac:(discriminate)); discriminate.
  - destruct H as [(r & NR & f & D) H]. destruct r as [[[v o'] cs']|m|]; [|exists f; rewrite D; discriminate|contradiction].
    destruct (IH v o start (if keep then cs ++ cs' else cs)%list) as [f' F]; [apply (H v o' cs'); split; [discriminate|now exists f]|].
    exists (Nat.max f f'). rewrite (decode_mono f (Nat.max f f') E ltac:(lia) _ _ _ _ _ D NR). cbn [bind].
    destruct (run (decode f' E) start (k v) d o (if keep then cs ++ cs' else cs)%list) eqn:R; [| |contradiction];
      rewrite (run_mono _ _ _ _ _ _ _ _ (decode_mono f' (Nat.max f f') E ltac:(lia)) R ltac:(discriminate)); discriminate.
  - now apply IH.
  - destruct (slice d start o) as [x|m|] eqn:X; cbn [bind]; [now apply IH|exists O; discriminate|].
    unfold slice in X. destruct (_ && _); discriminate.
Qed.
Lemma safe_terminates E c d o ts : (forall cd, resolves E c ts cd -> safe E d (process E c cd) o) -> Terminates E c d o ts.
Proof.
  intros H. destruct (GetCodecClass E (x_module c) ts (x_spec c)) as [[[cd sub]|]|m|] eqn:G.
  - destruct (safe_run E d _ o o [] (H (init_sub cd sub) (ex_intro _ cd (ex_intro _ sub (conj G eq_refl))))) as [f F].
    eexists. split; [exact F|]. exists (S f). cbn [decode]. now rewrite G.
  - exists (Panic ("Not found decoder class " ++ ts)). split; [discriminate|]. exists 1%nat. cbn [decode]. now rewrite G.
  - exists (Panic m). split; [discriminate|]. exists 1%nat. cbn [decode]. now rewrite G.
  - destruct (C48_lookup E (x_module c) ts (x_spec c)) as (r & Hr & N). congruence.
Qed.

(** ** Decoders as safe programs *)
Lemma next_read d o n x o' : 0 <= o <= blen d -> next_bytes d o n = Ok (x, o') ->
  o <= o' <= blen d /\ blen x = o' - o /\ (x = [] \/ o < o').
Proof.
  intros Ho H. apply next_bytes_offset in H as [H1 ->]; [|exact Ho]. split; [exact H1|]. split.
  - unfold blen in *. rewrite firstn_length, skipn_length. lia.
  - destruct (Z.eq_dec o' o) as [->|]; [left; now rewrite Z.sub_diag|right; lia].
Qed.

Section Decoders.
Variables (E : env) (d : bytes).
Hypothesis S : std_env E.
Hypothesis U : resolves E (Ctx 0 "" None) "U32" CU32.

Lemma safe_repeat c ts k n : forall acc o, 0 <= o <= blen d -> (forall o', o <= o' <= blen d -> Terminates E c d o' ts) ->
  (forall l o', o <= o' <= blen d -> safe E d (k l) o') -> safe E d (repeat_sub c ts n acc k) o.
Proof.
  induction n as [|n IH]; intros acc o Ho T K; cbn [repeat_sub safe]; [apply K; lia|]. split; [apply T; lia|].
  intros v o' cs (_ & f & D). apply decode_forward in D; [|exact Ho]. apply IH; [lia| |]; intros; [apply T|apply K]; lia.
Qed.
Lemma safe_fields c k tm : forall acc o, 0 <= o <= blen d -> (forall p o', In p tm -> o <= o' <= blen d -> Terminates E c d o' (snd p)) ->
  (forall l o', o <= o' <= blen d -> safe E d (k l) o') -> safe E d (fields_sub c tm acc k) o.
Proof.
  induction tm as [|[n t] tm IH]; intros acc o Ho T K; cbn [fields_sub safe]; [apply K; lia|]. split; [apply (T (n, t)); [now left|lia]|].
  intros v o' cs (_ & f & D). apply decode_forward in D; [|exact Ho]. apply IH; [lia| |]; intros; [apply T; [now right|]|apply K]; lia.
Qed.
Lemma safe_rows c k rows : forall acc o, 0 <= o <= blen d -> (forall r o', In r rows -> o <= o' <= blen d -> Terminates E c d o' (nth 1 r "")) ->
  (forall l o', o <= o' <= blen d -> safe E d (k l) o') -> safe E d (rows_sub c rows acc k) o.
Proof.
  induction rows as [|[|n [|t r]] rows IH]; intros acc o Ho T K; cbn [rows_sub safe]; try exact I; [apply K; lia|].
  split; [apply (T (n :: t :: r)); [now left|lia]|].
  intros v o' cs (_ & f & D). apply decode_forward in D; [|exact Ho]. apply IH; [lia| |]; intros; [apply T; [now right|]|apply K]; lia.
Qed.
Lemma safe_params c k args : forall acc o, 0 <= o <= blen d -> (forall p o', In p args -> o <= o' <= blen d -> Terminates E c d o' (snd p)) ->
  (forall l o', o <= o' <= blen d -> safe E d (k l) o') -> safe E d (call_params c args acc k) o.
Proof.
  induction args as [|[n t] tm IH]; intros acc o Ho T K; cbn [call_params safe]; [apply K; lia|]. split; [apply (T (n, t)); [now left|lia]|].
  intros v o' cs (_ & f & D). apply decode_forward in D; [|exact Ho]. apply IH; [lia| |]; intros; [apply T; [now right|]|apply K]; lia.
Qed.
Lemma safe_compact_bytes k o : 0 <= o <= blen d ->
  (forall n b o', o <= o' <= blen d -> blen b <= blen d - o -> (o < o' \/ b = []) -> safe E d (k n b) o') -> safe E d (compact_bytes k) o.
Proof.
  intros Ho K. unfold compact_bytes. cbn [safe]. intros b o1 H1. apply next_read in H1 as (A1 & B1 & C1); [|exact Ho].
  destruct b as [|x b]; [apply K; [lia|cbn; lia|now right]|]. assert (C : o < o1) by (destruct C1; [discriminate|assumption]).
  assert (R : forall n m, safe E d (Next n (fun r => k m ((x :: b) ++ r)%list)) o1).
  { intros n m. cbn [safe]. intros r o2 H2. apply next_read in H2 as (A2 & B2 & _); [|lia]. apply K; [lia|rewrite blen_app; lia|left; lia]. }
  assert (R' : forall n m, safe E d (Next n (fun r => k m r)) o1).
  { intros n m. cbn [safe]. intros r o2 H2. apply next_read in H2 as (A2 & B2 & _); [|lia]. apply K; [lia|lia|left; lia]. }
  destruct (bZ x mod 4) as [|[p|[p|p|]|]|p]; first [apply R | apply R' | apply K; [lia|lia|left; lia]].
Qed.
Lemma safe_compact_u32 c k o : 0 <= o <= blen d ->
  (forall n o', o <= o' <= blen d -> (o < o' \/ n = 0) -> safe E d (k n) o') -> safe E d (compact_u32 c k) o.
Proof.
  intros Ho K. unfold compact_u32. cbn [safe]. split.
  - apply safe_terminates. intros cd R. assert (cd = CCompactU32) by (eapply resolves_fun; [exact R|now apply std_compact_u32]). subst cd.
    cbn [process]. apply safe_compact_bytes; [exact Ho|]. intros; exact I.
  - intros v o' cs (_ & f & D). destruct f as [|f]; [discriminate|]. cbn [decode] in D. destruct (std_compact_u32 E c S) as (cd & sub & G & I0). rewrite G in D. cbn [bind] in D.
    rewrite I0 in D. cbn [process] in D. unfold compact_bytes in D. cbn [run] in D.
    destruct (next_bytes d o (i64 1)) as [[b o1]|m|] eqn:H1; cbn [bind] in D; try discriminate. apply next_read in H1 as (A1 & B1 & C1); [|exact Ho].
    destruct b as [|x b].
    + cbn in B1. cbn in D. injection D as <- <- _. cbn [as_int]. apply K; [lia|]. right. reflexivity.
    + assert (C : o < o1) by (destruct C1; [discriminate|assumption]). apply run_forward in D; [|apply decode_forward|lia].
      destruct v; cbn [as_int safe]; try exact I. apply K; [lia|left; lia].
Qed.

Lemma hex_text_short b : blen (HexToBytes (ascii_or_hex b)) <= blen b.
Proof.
  unfold ascii_or_hex. destruct (IsASCII b).
  - unfold HexToBytes, blen. rewrite hex_decode_length. assert (L : (String.length (TrimHex (b2s b)) <= List.length b)%nat).
    { assert (L0 : String.length (b2s b) = List.length b) by (unfold b2s; clear; induction b as [|x b IH]; [reflexivity|cbn; now rewrite IH]).
      unfold TrimHex, trim_prefix. destruct (has_prefix _ _); [|lia]. rewrite <- L0. generalize (b2s b). intros s.
      destruct s as [|? [|? s]]; cbn [sdrop String.length]; lia. }
    pose proof (Nat.div2_decr (String.length (TrimHex (b2s b))) (List.length b) ltac:(lia)). lia.
  - unfold HexToBytes. rewrite TrimHex_AddHex. change (hex_decode (hex_encode b)) with (hex_decode (hex_encode b)). rewrite hex_decode_encode. lia.
Qed.

Variables (c : ctx) (N : Z).
Definition calm (b : Z) (r : ctx * string) : Prop := forall d' o', 0 <= o' <= blen d' -> blen d' < 2 ^ 63 -> blen d' - o' <= b -> Terminates E (fst r) d' o' (snd r).

Lemma safe_enum tm vl o : 0 <= o <= blen d -> blen d < 2 ^ 63 -> blen d - o <= N ->
  (forall r, In r (first_refs c (CEnum tm vl)) -> calm N r) -> (forall r, In r (all_refs c (CEnum tm vl)) -> calm (N - 1) r) -> safe E d (process_enum c tm vl) o.
Proof.
  intros Ho L HN HF HA. unfold process_enum. cbn [safe]. intros x o1 H1. apply next_read in H1 as (A1 & B1 & C1); [|exact Ho].
  assert (V : forall q, safe E d (match nth_z vl (head_u8 x) with None => Fail "runtime error: index out of range" | Some s => Ret (if String.eqb s "" then VNil else VStr s) end) q)
    by (intros q; destruct (nth_z vl (head_u8 x)); exact I).
  destruct tm as [tm|]; [|apply V]. cbn [first_refs all_refs] in *. destruct (c_like tm) eqn:CL; [exact I|]. destruct (nth_z tm (head_u8 x)) as [[name sub]|] eqn:NZ; [|exact I].
  assert (T : forall r, In r (variant_refs c sub) -> forall o', o1 <= o' <= blen d -> Terminates E (fst r) d o' (snd r)).
  { intros r Hr o' Ho'. destruct x as [|a x].
    - cbn [head_u8] in NZ. cbn in NZ. destruct tm as [|p tm]; [discriminate|]. injection NZ as ->. apply HF; [exact Hr|lia|lia|lia].
    - destruct C1 as [C1|C1]; [discriminate|]. apply HA; [|lia|lia|lia]. apply in_flat_map. exists (name, sub). split; [|exact Hr].
      unfold nth_z in NZ. destruct (_ <? 0); [discriminate|]. now apply nth_error_In in NZ. }
  unfold variant_refs in T. destruct (String.eqb sub ""); [apply V|]. destruct (struct_variant sub) as [rows|].
  - apply safe_rows; [lia| |intros; exact I]. intros r o' Hr Ho'. apply (T (c, nth 1 r "")); [|lia]. apply in_map_iff. now exists r.
  - cbn [safe]. split; [apply (T (c, sub)); [now left|lia]|]. intros; exact I.
Qed.

Ltac quiet := repeat first [exact I | progress cbn [safe] | progress intros | match goal with |- context [match ?x with _ => _ end] => destruct x end].

Lemma safe_process cd o : 0 <= o <= blen d -> blen d < 2 ^ 63 -> blen d - o <= N ->
  (forall r, In r (first_refs c cd) -> calm N r) -> (forall r, In r (all_refs c cd) -> calm (N - 1) r) -> safe E d (process E c cd) o.
Proof.
  intros Ho L HN HF HA.
  assert (F1 : forall c' t, In (c', t) (first_refs c cd) -> forall o', o <= o' <= blen d -> Terminates E c' d o' t).
  { intros c' t Hr o' Ho'. apply (HF (c', t) Hr); cbn [fst snd]; lia. }
  assert (A1 : forall c' t, In (c', t) (all_refs c cd) -> forall o', o < o' <= blen d -> Terminates E c' d o' t).
  { intros c' t Hr o' Ho'. apply (HA (c', t) Hr); cbn [fst snd]; lia. }
  destruct cd; try (cbn [process]; solve [quiet]).
  - (* GenericLookupSource *)
    cbn [process]. cbv zeta.
    assert (T : forall q, safe E d (a <~ next 1 ;
        if String.eqb (BytesToHex a) "ff" then b <~ next 32 ; Ret (VStr (BytesToHex b))
        else match a with
             | [] => Fail "runtime error: index out of range"
             | f :: _ =>
                 let '(o, l) := if bZ f =? 252 then (1, 2) else if bZ f =? 253 then (1, 4)
                                else if bZ f =? 254 then (1, 8) else (0, 1) in
                 Whole (fun d =>
                   match slice d o (o + l) with
                   | Ok b => Other b (Ctx 0 "" None) false "U32"
                               (fun v => match v with
                                         | VU32 z => Ret (VStr (itoa z))
                                         | _ => Fail "interface conversion: interface {} is not uint32"
                                         end)
                   | _ => Fail "runtime error: slice bounds out of range"
                   end)
             end) q).
    { intros q. cbn [safe]. intros a o1 _. destruct (String.eqb (BytesToHex a) "ff"); [quiet|]. destruct a as [|f a]; [exact I|].
      destruct (if bZ f =? 252 then (1, 2) else if bZ f =? 253 then (1, 4) else if bZ f =? 254 then (1, 8) else (0, 1)) as [x y].
      cbn [safe]. destruct (slice d x (x + y)) as [b|m|]; [|exact I|exact I]. cbn [safe]. split.
      - apply safe_terminates. intros cd R. assert (cd = CU32) by (eapply resolves_fun; [exact R|exact U]). subst cd. exact (fun _ _ _ => I).
      - intros v _ _ _. destruct v; exact I. }
    change (safe E d (if Nat.eqb (List.length d) 32 then Next 32 (fun _ => ltac:(match type of T with forall q, safe _ _ ?t q => exact t end)) else ltac:(match type of T with forall q, safe _ _ ?t q => exact t end)) o).
    destruct (Nat.eqb (List.length d) 32); [intros ? ? _|]; apply T.
  - (* Option *)
    cbn [process safe]. intros x o1 H1. apply next_read in H1 as (B1 & _ & _); [|exact Ho]. cbv zeta.
    destruct (negb (String.eqb sub "") && negb (String.eqb (BytesToHex x) "00")) eqn:G; [|exact I]. destruct (String.eqb sub "bool") eqn:SB; [exact I|].
    cbn [safe]. split; [|intros; exact I]. apply F1; [|lia]. cbn [first_refs]. rewrite SB. destruct (String.eqb sub ""); [discriminate|]. now left.
  - (* Struct *)
    cbn [process]. destruct tm as [tm|]; [|exact I]. apply safe_fields; [exact Ho| |intros; exact I]. intros p o' Hp Ho'. apply F1; [|exact Ho'].
    cbn [first_refs]. apply in_map_iff. now exists p.
  - (* Enum *) cbn [process]. now apply safe_enum.
  - (* Bytes *) cbn [process]. unfold process_bytes. apply safe_compact_u32; [exact Ho|]. intros; quiet.
  - (* HexBytes *) cbn [process]. apply safe_compact_u32; [exact Ho|]. intros; quiet.
  - (* String *) cbn [process]. unfold process_bytes. apply safe_compact_u32; [exact Ho|]. intros; quiet.
  - (* OpaqueCall *)
    cbn [process]. unfold process_bytes. apply safe_compact_u32; [exact Ho|]. intros n o1 B1 _. cbn [safe]. intros b o2 H2. apply next_read in H2 as (B2 & C2 & _); [|lia].
    pose proof (hex_text_short b) as HS. split; [|intros; exact I].
    apply (HF (Ctx (x_spec c) "" (x_meta c), "Call")); [now left| |lia|lia]. pose proof (blen_nonneg (HexToBytes (ascii_or_hex b))). lia.
  - (* Vec *)
    cbn [process]. apply safe_compact_u32; [exact Ho|]. intros n o1 B1 C1. destruct (512 * 1024 <? n); [exact I|].
    destruct C1 as [C1| ->]; [|exact I]. apply safe_repeat; [lia| |intros; exact I]. intros o' Ho'. apply A1; [now left|lia].
  - (* BoundedVec *)
    cbn [process]. apply safe_compact_u32; [exact Ho|]. intros n o1 B1 C1. destruct (512 * 1024 <? n); [exact I|].
    destruct C1 as [C1| ->]; [|exact I]. apply safe_repeat; [lia| |intros; exact I]. intros o' Ho'. apply A1; [now left|lia].
  - (* Set *) cbn [process safe]. split; [apply F1; [now left|lia]|intros; exact I].
  - (* Compact *)
    cbn [process]. apply safe_compact_bytes; [exact Ho|]. intros n b o1 B1 B2 _. destruct (String.eqb sub "") eqn:SE; [exact I|]. cbn [safe]. split.
    + apply (HF (Ctx 0 "" None, sub)); [cbn [first_refs]; rewrite SE; now left| |lia|lia]. pose proof (blen_nonneg b). lia.
    + intros v _ _ _. unfold compact_value. destruct v; try exact I; [destruct (dec_div_floor _ _ _); exact I|].
      destruct (dec_of_string s) as [[p q]|]; [|exact I]. destruct (dec_div_floor _ _ _). exact I.
  - (* CompactU32 *) cbn [process]. apply safe_compact_bytes; [exact Ho|]. intros; exact I.
  - (* CompactMoment *) cbn [process]. apply safe_compact_bytes; [exact Ho|]. intros; exact I.
  - (* LogDigest *)
    cbn [process safe]. intros x o1 H1. apply next_read in H1 as (B1 & _ & C1); [|exact Ho]. destruct (nth_z log_digest_list (head_u8 x)) as [t|] eqn:NZ; [|exact I].
    cbn [safe]. split; [|intros; exact I]. destruct x as [|a x].
    + cbn in NZ. injection NZ as <-. apply F1; [now left|lia].
    + destruct C1 as [C1|C1]; [discriminate|]. apply A1; [|lia]. cbn [all_refs]. apply in_map. unfold nth_z in NZ. destruct (_ <? 0); [discriminate|]. now apply nth_error_In in NZ.
  - (* Call *)
    cbn [process]. unfold process_call. cbn [safe]. intros x o1 H1. apply next_read in H1 as (B1 & _ & C1); [|exact Ho].
    destruct (x_meta c) as [md|] eqn:M; [|exact I]. cbv zeta. apply safe_params; [lia| |intros; exact I]. intros p o' Hp Ho'.
    destruct (assoc (BytesToHex x) md) as [cm|] eqn:AM; [|contradiction].
    destruct C1 as [-> |C1].
    + apply F1; [|lia]. cbn [first_refs]. rewrite M. change (BytesToHex []) with "" in AM. rewrite AM. unfold call_refs. rewrite M. apply in_map_iff. now exists p.
    + apply A1; [|lia]. cbn [all_refs]. rewrite M. apply in_flat_map. exists (BytesToHex x, cm). split.
      * clear - AM. revert AM. generalize (BytesToHex x). intros s. induction md as [|[k y] md IH]; cbn [assoc]; [discriminate|].
        destruct (String.eqb_spec s k) as [->|]; [intros [= ->]; now left|intros H; right; now apply IH].
      * unfold call_refs. cbn [snd]. rewrite M. apply in_map_iff. now exists p.
  - (* Data *)
    cbn [process safe]. intros x o1 H1. apply next_read in H1 as (B1 & _ & C1); [|exact Ho]. cbv zeta.
    destruct (Z.eqb_spec (head_u8 x) 0); [exact I|]. destruct (Z.leb_spec (head_u8 x) 33); [quiet|]. destruct (Z.leb_spec (head_u8 x) 37); [|exact I].
    destruct C1 as [-> |C1]; [cbn in *; lia|]. cbn [safe]. split; [|intros; exact I]. apply A1; [|lia]. cbn [all_refs]. apply in_map. apply nth_In. cbn. lia.
  - (* BitVec *) cbn [process]. apply safe_compact_u32; [exact Ho|]. intros; quiet.
  - (* BTreeMap *)
    cbn [process]. apply safe_compact_u32; [exact Ho|]. intros n o1 B1 C1. destruct (1000 <? n); [exact I|]. cbv zeta.
    destruct C1 as [C1| ->]; [|exact I]. cbn [all_refs] in A1.
    assert (A2 : forall t, In t (split_char ","%char sub) -> forall o', o < o' <= blen d -> Terminates E c d o' t).
    { intros t Ht. apply A1. apply in_map_iff. now exists t. }
    assert (K0 : In (nth 0 (split_char ","%char sub) "") (split_char ","%char sub)).
    { destruct (split_char ","%char sub) eqn:X; [|now left]. destruct sub; cbn in X; [discriminate|]. destruct (Ascii.eqb a ","); [discriminate|]. destruct (split_char "," sub); discriminate. }
    generalize (@nil val). revert o1 B1 C1. induction (Z.to_nat n) as [|m IH]; intros o1 B1 C1 acc; [exact I|].
    cbn [safe]. split; [apply A2; [exact K0|lia]|]. intros v o2 cs2 (_ & f & D). apply decode_forward in D; [|lia].
    destruct (nth_error (split_char "," sub) 1) as [tv|] eqn:NE; [|exact I]. apply nth_error_In in NE. cbn [safe]. split; [apply A2; [exact NE|lia]|].
    intros w o3 cs3 (_ & f' & D'). apply decode_forward in D'; [|lia]. apply IH; lia.
  - (* Box *) cbn [process safe]. split; [apply F1; [now left|lia]|intros; exact I].
  - (* Result *)
    cbn [process safe]. intros x o1 H1. apply next_read in H1 as (B1 & _ & C1); [|exact Ho]. cbn [first_refs all_refs] in *.
    destruct (split_char ","%char sub) as [|a [|b [|? ?]]]; try exact I. cbv zeta.
    destruct (String.eqb (BytesToHex x) "00" || String.eqb (BytesToHex x) "") eqn:G.
    + cbn [safe]. split; [apply F1; [now left|lia]|intros; exact I].
    + destruct (String.eqb (BytesToHex x) "01"); [|exact I]. destruct C1 as [-> |C1]; [discriminate|]. cbn [safe]. split; [apply A1; [right; now left|lia]|intros; exact I].
  - (* WrapperOpaque *)
    cbn [process safe]. split.
    + pose proof (safe_compact_u32 c (fun _ => Ret VNil) o Ho (fun _ _ _ _ => I)) as X. apply X.
    + intros v o1 cs (_ & f & D). apply decode_forward in D; [|exact Ho]. split; [apply F1; [now left|lia]|intros; exact I].
  - (* Range *)
    cbn [process first_refs] in *. destruct (match split_char ","%char sub with [a; b] => (a, b) | _ => (sub, sub) end) as [a b] eqn:X. cbn [safe].
    assert (In (c, a) (match split_char ","%char sub with [a; b] => [(c, a); (c, b)] | _ => [(c, sub)] end) /\ In (c, b) (match split_char ","%char sub with [a; b] => [(c, a); (c, b)] | _ => [(c, sub)] end)) as [IA IB].
    { destruct (split_char ","%char sub) as [|y [|z [|? ?]]]; injection X as <- <-; split; cbn; tauto. }
    split; [apply F1; [exact IA|lia]|]. intros v o1 cs (_ & f & D). apply decode_forward in D; [|exact Ho]. split; [apply F1; [exact IB|lia]|intros; exact I].
  - (* FixedArray *)
    cbn [process]. destruct (0 <? n); [|quiet]. destruct (equal_fold sub "u8"); [quiet|]. apply safe_repeat; [exact Ho| |intros; exact I].
    intros o' Ho'. apply F1; [now left|lia].
  - (* FixedI128 *) cbn [process safe]. split; [apply F1; [now left|lia]|intros; quiet].
  - (* metadata records *)
    cbn [process first_refs] in *. pose proof (process_meta_subs c name) as P. clear HF HA A1.
    assert (F2 : forall t, In t (meta_refs name) -> forall o', o <= o' <= blen d -> Terminates E c d o' t) by (intros t Ht; apply F1; now apply in_map).
    clear F1. revert o Ho HN F2. induction P as [v|m|ts k Hts _ IH]; intros o Ho HN F2; cbn [safe]; try exact I.
    split; [apply F2; [exact Hts|lia]|]. intros v o1 cs (_ & f & D). apply decode_forward in D; [|exact Ho]. apply IH; [lia|lia|].
    intros t Ht o' Ho'. apply F2; [exact Ht|lia].
Qed.
End Decoders.

Lemma first_all c cd r : In r (first_refs c cd) -> In r (all_refs c cd).
Proof.
  destruct cd; cbn [first_refs all_refs]; try exact (fun H => H).
  - destruct tm as [[|p tm]|]; [|destruct (c_like (p :: tm)); [contradiction|]; cbn [flat_map]; intros H; apply in_or_app; now left|contradiction].
    destruct (c_like []); contradiction.
  - contradiction.
  - contradiction.
  - intros [<-|[]]. now left.
  - destruct (x_meta c) as [md|]; [|contradiction]. destruct (assoc "" md) as [cm|] eqn:A; [|contradiction]. intros H. apply in_flat_map. exists ("", cm). split; [|exact H].
    clear - A. induction md as [|[k y] md IH]; cbn [assoc] in A; [discriminate|].
    destruct (String.eqb "" k) eqn:X; [apply String.eqb_eq in X; subst; injection A as ->; now left|right; now apply IH].
  - contradiction.
  - contradiction.
  - destruct (split_char "," sub) as [|a [|b [|? ?]]]; try contradiction. intros [<-|[]]. now left.
Qed.
Lemma reaches_step E c ts cd c1 t1 c2 t2 : resolves E c ts cd -> In (c1, t1) (all_refs c cd) -> reaches E c1 t1 c2 t2 -> reaches E c ts c2 t2.
Proof. intros R I H. induction H as [|c2 t2 cd2 c3 t3 _ IH R2 I2]; [eapply re_step; [apply re_self|exact R|exact I]|eapply re_step; [exact IH|exact R2|exact I2]]. Qed.

(** ** C23
    Decoding returns, with a value or a panic, on every input: no type whose
    components are all grounded makes it recurse for ever.  Recursion through
    anything that reads a byte first (a vector, a later variant, an option of a
    type that is not its own first component ...) is allowed. *)
Theorem C23_returns_partial E c ts d o : std_env E -> resolves E (Ctx 0 "" None) "U32" CU32 ->
  (forall c' t', reaches E c ts c' t' -> grounded E c' t') -> 0 <= o <= blen d -> blen d < 2 ^ 63 -> Terminates E c d o ts.
Proof.
  intros S U. assert (G : forall n c ts, grounded E c ts -> (forall c' t', reaches E c ts c' t' -> grounded E c' t') ->
    forall d o, 0 <= o <= blen d -> blen d < 2 ^ 63 -> blen d - o <= Z.of_nat n -> Terminates E c d o ts).
  { clear c ts d o. induction n as [n IHn] using lt_wf_ind. intros c ts G. induction G as [c ts _ IHg]. intros W d o Ho L HN.
    apply safe_terminates. intros cd R. apply (safe_process E d S U c (Z.of_nat n)); try assumption.
    - intros [c1 t1] I d' o' Ho' L' N'. apply (IHg cd c1 t1 R I); try assumption. intros c2 t2 H2. apply W. apply (reaches_step E c ts cd c1 t1); [exact R|now apply first_all|exact H2].
    - intros [c1 t1] I d' o' Ho' L' N'. cbn [fst snd].
      assert (W1 : forall c2 t2, reaches E c1 t1 c2 t2 -> grounded E c2 t2) by (intros c2 t2 H2; apply W; eapply reaches_step; [exact R|exact I|exact H2]).
      apply (IHn (Z.to_nat (blen d' - o'))); [lia|apply W1, re_self|exact W1|exact Ho'|exact L'|lia]. }
  intros W Ho L. apply (G (Z.to_nat (blen d - o)) c ts); [apply W, re_self|exact W|exact Ho|exact L|lia].
Qed.

(** A way to check the hypothesis: a list of types closed under components
    where every first component comes earlier. *)
Definition refs_of (f : ctx -> codec -> list (ctx * string)) (E : env) (x : ctx * string) : list (ctx * string) :=
  match GetCodecClass E (x_module (fst x)) (snd x) (x_spec (fst x)) with Ok (Some (cd, sub)) => f (fst x) (init_sub cd sub) | _ => [] end.
Inductive ordered (E : env) : list (ctx * string) -> Prop :=
| or_nil : ordered E []
| or_cons x l : ordered E l -> (forall r, In r (refs_of first_refs E x) -> In r l) -> ordered E (x :: l).
Lemma refs_in f E c ts cd r : resolves E c ts cd -> In r (f c cd) -> In r (refs_of f E (c, ts)).
Proof. intros (cd0 & sub & G & <-) H. unfold refs_of. cbn [fst snd]. now rewrite G. Qed.
Lemma checked E l : ordered E l -> (forall x r, In x l -> In r (refs_of all_refs E x) -> In r l) ->
  forall c ts, In (c, ts) l -> forall c' t', reaches E c ts c' t' -> grounded E c' t'.
Proof.
  intros O C c ts I c' t' H.
  assert (I' : In (c', t') l).
  { induction H as [|c1 t1 cd c2 t2 _ IH R I2]; [exact I|]. eapply C; [exact IH|]. eapply refs_in; [exact R|exact I2]. }
  clear H I C. revert c' t' I'. induction O as [|x l _ IH F]; intros c' t' I'; [contradiction|]. destruct I' as [-> |I']; [|now apply IH].
  constructor. intros cd c2 t2 R I2. apply IH, F. eapply refs_in; [exact R|exact I2].
Qed.

(** A recursive type it applies to: a list, as an enum whose first variant is
    the empty one. *)
Definition list_reg : reg := match RegCustomTypes 5 [("List", TStruct "enum" "" [["Nil"; "Null"]; ["Cons"; "(u8,List)"]] [] 0 false 0)] base_reg with Ok r => r | _ => base_reg end.
Example C23_case : forall d, blen d < 2 ^ 63 -> Terminates (reg_env list_reg) (Ctx (-1) "" None) d 0 "List".
Proof.
  intros d L. apply C23_returns_partial.
  - intros k cd I. repeat destruct I as [I|I]; try contradiction; injection I as <- <-; split; vm_compute; reflexivity.
  - eexists _, _. split; vm_compute; reflexivity.
  - set (c := Ctx (-1) "" None). apply (checked _ [(c, "(u8,List)"); (c, "List"); (c, "Null"); (c, "u8")]).
    + repeat (apply or_cons; [|intros r; vm_compute; tauto]). apply or_nil.
    + intros x r [<-|[<-|[<-|[<-|[]]]]]; vm_compute; tauto.
    + right. now left.
  - pose proof (blen_nonneg d). lia.
  - exact L.
Qed.
Example C23_case_value : Decodes (reg_env list_reg) (Ctx (-1) "" None) [Zb 1; Zb 7; Zb 1; Zb 9] 0 "List"
  (Ok (VMap [("Cons", VMap [("col1", VInt 7); ("col2", VMap [("Cons", VMap [("col1", VInt 9); ("col2", VMap [("Nil", VNil)])])])])], 4, [])).
Proof. split; [discriminate|]. exists 20%nat. vm_compute. reflexivity. Qed.

(** The full statement is false: a list as a value and an optional tail, cut
    short, is decoded for ever: a missing option flag counts as present. *)
Definition node_reg : reg := match RegCustomTypes 5 [("Node", TStruct "struct" "" [["value"; "u8"]; ["next"; "Option<Node>"]] [] 0 false 0)] base_reg with Ok r => r | _ => base_reg end.
Theorem C23_returns_refuted : let E := reg_env node_reg in let c := Ctx (-1) "" None in
  Decodes E c [Zb 7; Zb 0] 0 "Node" (Ok (VMap [("value", VInt 7); ("next", VNil)], 2, []))
  /\ (forall fuel, decode fuel E c [Zb 7] 0 "Node" = OutOfFuel) /\ ~ Terminates E c [Zb 7] 0 "Node".
Proof.
  cbv zeta. set (E := reg_env node_reg). set (c := Ctx (-1) "" None).
  split; [split; [discriminate|]; exists 9%nat; vm_compute; reflexivity|].
  assert (G1 : GetCodecClass E "" "Node" (-1) = Ok (Some (CStruct (Some [("value", "u8"); ("next", "Option<Node>")]), ""))) by (vm_compute; reflexivity).
  assert (G2 : GetCodecClass E "" "Option<Node>" (-1) = Ok (Some (COption "", "Node"))) by (vm_compute; reflexivity).
  assert (G3 : GetCodecClass E "" "u8" (-1) = Ok (Some (CU8, ""))) by (vm_compute; reflexivity).
  assert (D : forall n fuel, (fuel <= n)%nat -> decode fuel E c [Zb 7] 0 "Node" = OutOfFuel /\ decode fuel E c [Zb 7] 1 "Node" = OutOfFuel).
  { induction n as [|n IH]; intros fuel Hf; [assert (fuel = O) by lia; subst; now split|]. destruct fuel as [|f]; [now split|].
    cbn [decode]. change (x_module c) with "". change (x_spec c) with (-1). rewrite G1. cbn [bind init_sub process fields_sub run].
    destruct f as [|f]; [now split|].
    assert (U0 : decode (S f) E c [Zb 7] 0 "u8" = Ok (VInt 7, 1, [])) by (cbn [decode]; change (x_module c) with ""; change (x_spec c) with (-1); rewrite G3; reflexivity).
    assert (U1 : decode (S f) E c [Zb 7] 1 "u8" = Ok (VInt 0, 1, [])) by (cbn [decode]; change (x_module c) with ""; change (x_spec c) with (-1); rewrite G3; reflexivity).
    assert (O1 : decode (S f) E c [Zb 7] 1 "Option<Node>" = OutOfFuel).
    { cbn [decode]. change (x_module c) with "". change (x_spec c) with (-1). rewrite G2. cbn [bind init_sub process run].
      change (next_bytes [Zb 7] 1 (i64 1)) with (@Ok (bytes * Z) ([], 1)). cbn [bind]. change (pick_sub "" "Node") with "Node".
      change (negb (String.eqb "Node" "") && negb (String.eqb (BytesToHex []) "00")) with true. change (String.eqb "Node" "bool") with false. cbv iota. cbn [run].
      destruct (IH f ltac:(lia)) as [_ ->]. reflexivity. }
    rewrite U0, U1. cbn [bind]. rewrite O1. now split. }
  split; [intros fuel; apply (D fuel fuel (le_n fuel))|]. intros (r & NR & fuel & H). apply NR. rewrite <- H. apply (D fuel fuel (le_n fuel)).
Qed.

Print Assumptions C48_lookup.
Print Assumptions C23_returns_partial.
Print Assumptions C23_returns_refuted.
