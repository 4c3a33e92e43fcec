(** The calls nested in a decoded value (C78): what InternalCall lists. *)

From Verif Require Import GoBase SpecNum ProofsBase ModelTools ProofsTools ModelVal ModelRegistry ModelDecode ProofsRun SpecScale ProofsReads ProofsScale ProofsEncode ProofsMeta ProofsApi PropCodec.

(** ** The calls a value contains, inner ones first.  A call is an object whose
    "params" are an argument list. *)
Definition is_call (m : list (string * val)) : bool :=
  match assoc "params" m with Some (VParams _) => true | _ => false end.
Fixpoint calls_in (v : val) : list val :=
  match v with
  | VSlice l => flat_map calls_in l
  | VMap m => (flat_map (fun p => calls_in (snd p)) m ++ if is_call m then [VMap m] else [])%list
  | VParams l => flat_map (fun p => calls_in (snd p)) l
  | _ => []
  end.

Inductive subseq {A} : list A -> list A -> Prop :=
| sub_nil : subseq [] []
| sub_take x l l' : subseq l l' -> subseq (x :: l) (x :: l')
| sub_skip x l l' : subseq l l' -> subseq l (x :: l').

(** [s] is the hex of a piece of [bs] that encodes the call [v]. *)
Definition writes_call (E : env) (c : ctx) (bs : bytes) (s : string) (v : val) : Prop :=
  exists p b q cs, bs = (p ++ b ++ q)%list /\ s = hex_encode b /\ scale_at false E (Ctx (x_spec c) "" (x_meta c)) CCall b v cs.

(** Map keys are turned into text, so calls in them are no longer seen. *)
Definition plain_keys (E : env) : Prop :=
  forall c ts sub tk tv, resolves E c ts (CBTreeMap sub) -> split_char ","%char sub = [tk; tv] ->
  forall c' b g cs, scale false E c' tk b g cs -> cs = [].

(** ** Proofs *)
Lemma sub_refl {A} (l : list A) : subseq l l. Proof. induction l; constructor; assumption. Qed.
Lemma sub_app {A} (a b c d : list A) : subseq a b -> subseq c d -> subseq (a ++ c) (b ++ d).
Proof. intros H K. induction H; cbn [app]; try constructor; assumption. Qed.
Lemma sub_none {A} (l : list A) : subseq [] l. Proof. induction l; constructor; assumption. Qed.

Lemma sub_trans {A} (b c : list A) : subseq b c -> forall a, subseq a b -> subseq a c.
Proof.
  induction 1 as [|x l l' H IH|x l l' H IH]; intros a K; [exact K| |constructor; now apply IH].
  inversion K; subst; constructor; now apply IH.
Qed.

Definition listed (E : env) (c : ctx) (bs : bytes) (vs : list val) (cs : list string) : Prop :=
  exists full, Forall2 (writes_call E c bs) cs full /\ subseq vs full /\ (plain_keys E -> full = vs).

Lemma writes_more E c bs p q s v : writes_call E c bs s v -> writes_call E c (p ++ bs ++ q) s v.
Proof. intros (a & b & d & cs & -> & H). exists (p ++ a)%list, b, (d ++ q)%list, cs. split; [|exact H]. now rewrite <- !app_assoc. Qed.
Lemma listed_more E c bs vs cs p q : listed E c bs vs cs -> listed E c (p ++ bs ++ q) vs cs.
Proof.
  intros (f & F & H). exists f. split; [|exact H]. clear H. induction F; constructor; [|exact IHF]. now apply writes_more.
Qed.
Lemma listed_pre E c bs vs cs p : listed E c bs vs cs -> listed E c (p ++ bs) vs cs.
Proof. intros H. apply (listed_more _ _ _ _ _ p []) in H. now rewrite app_nil_r in H. Qed.
Lemma listed_post E c bs vs cs q : listed E c bs vs cs -> listed E c (bs ++ q) vs cs.
Proof. apply (listed_more _ _ _ _ _ [] q). Qed.
Lemma listed_cons E c bs vs cs x : listed E c bs vs cs -> listed E c (x :: bs) vs cs.
Proof. apply (listed_pre _ _ _ _ _ [x]). Qed.
Lemma listed_app E c b1 b2 v1 v2 cs1 cs2 : listed E c b1 v1 cs1 -> listed E c b2 v2 cs2 -> listed E c (b1 ++ b2) (v1 ++ v2) (cs1 ++ cs2).
Proof.
  intros H K. apply (listed_post _ _ _ _ _ b2) in H. apply (listed_pre _ _ _ _ _ b1) in K.
  destruct H as (f & F & S1 & P1), K as (g & G & S2 & P2). exists (f ++ g)%list. split; [now apply Forall2_app|]. split; [now apply sub_app|].
  intros P. now rewrite (P1 P), (P2 P).
Qed.
Lemma listed_nil E c bs : listed E c bs [] [].
Proof. exists []. repeat split; constructor. Qed.
Lemma listed_ctx E c c' bs vs cs : x_spec c = x_spec c' -> x_meta c = x_meta c' -> listed E c bs vs cs -> listed E c' bs vs cs.
Proof. intros S M (f & F & H). exists f. split; [|exact H]. unfold writes_call in *. now rewrite S, M in F. Qed.

(** Argument lists occur nowhere else. *)
Definition no_params (v : val) : Prop := match v with VParams _ => False | _ => True end.
Lemma not_call m : Forall no_params (map snd m) -> is_call m = false.
Proof.
  unfold is_call. intros H. destruct (assoc "params" m) as [v|] eqn:A; [|reflexivity].
  apply assoc_in in A. assert (N : no_params v) by (apply (proj1 (Forall_forall _ _) H); now apply (in_map snd) in A).
  now destruct v.
Qed.
Lemma snd_combine {A B} (l : list A) (k : list B) : List.length l = List.length k -> map snd (combine l k) = k.
Proof. revert k. induction l as [|a l IH]; intros [|b k] L; try discriminate L; [reflexivity|]. cbn. f_equal. apply IH. now injection L. Qed.
Lemma scales_length st E c ts bs gs cs : scales st E c ts bs gs cs -> List.length ts = List.length gs.
Proof. induction 1; cbn; congruence. Qed.
Lemma calls_map m : Forall no_params (map snd m) -> calls_in (VMap m) = flat_map calls_in (map snd m).
Proof.
  intros H. cbn [calls_in]. rewrite (not_call m H), app_nil_r. clear H. induction m as [|p m IH]; [reflexivity|]. cbn. now rewrite IH.
Qed.
Lemma calls_slice l : calls_in (slice_of l) = flat_map calls_in l.
Proof. now destruct l. Qed.

Lemma calls_strings l : flat_map calls_in (map VStr l) = [].
Proof. induction l; [reflexivity|exact IHl]. Qed.
Lemma calls_texts l : calls_in (texts l) = [].
Proof. unfold texts. now rewrite calls_slice, calls_strings. Qed.
Lemma calls_strs l : calls_in (strings_val l) = [].
Proof. reflexivity. Qed.

(** One field of a list of values. *)
Definition field_ok (E : env) (c : ctx) (t : string) (g : val) : Prop :=
  exists b cs, scale false E c t b g cs /\ (plain_keys E -> cs = [] -> calls_in g = []).

Lemma entries_params E gs ps : entries E gs ps -> Forall no_params ps.
Proof. induction 1; constructor; [exact I|assumption]. Qed.
Lemma entries_calls E gs ps : entries E gs ps -> Forall no_params gs -> subseq (flat_map calls_in ps) (flat_map calls_in gs).
Proof.
  induction 1 as [|k v gs ps H IH]; intros N; [constructor|].
  inversion N as [|? ? _ N']; subst. inversion N' as [|? ? Nv N'']; subst.
  change (flat_map calls_in (k :: v :: gs)) with (calls_in k ++ calls_in v ++ flat_map calls_in gs)%list.
  change (flat_map calls_in (VMap [(ToString E k, v)] :: ps)) with (calls_in (VMap [(ToString E k, v)]) ++ flat_map calls_in ps)%list.
  rewrite calls_map by (constructor; [exact Nv|constructor]). cbn [map snd flat_map]. rewrite app_nil_r.
  apply (sub_app [] (calls_in k)); [apply sub_none|]. apply sub_app; [apply sub_refl|now apply IH].
Qed.
Lemma entries_all E c tk tv n : (forall c' b g cs, scale false E c' tk b g cs -> cs = []) -> plain_keys E -> forall gs ps,
  Forall2 (field_ok E c) (List.concat (repeat [tk; tv] n)) gs -> entries E gs ps -> Forall no_params gs -> flat_map calls_in gs = flat_map calls_in ps.
Proof.
  intros K PK. induction n as [|n IH]; intros gs ps F H N; cbn in F.
  - inversion F; subst. inversion H; subst. reflexivity.
  - inversion F as [|? k ? gs' Fk F' ]; subst. inversion F' as [|? v ? gs'' _ F'']; subst. inversion H as [|? ? ? ps' H']; subst.
    inversion N as [|? ? _ N']; subst. inversion N' as [|? ? Nv N'']; subst.
    destruct Fk as (b & cs & S1 & S2). specialize (S2 PK (K _ _ _ _ S1)).
    change (flat_map calls_in (k :: v :: gs'')) with (calls_in k ++ calls_in v ++ flat_map calls_in gs'')%list. rewrite S2.
    change (flat_map calls_in (VMap [(ToString E k, v)] :: ps')) with (calls_in (VMap [(ToString E k, v)]) ++ flat_map calls_in ps')%list.
    rewrite calls_map by (constructor; [exact Nv|constructor]). cbn [map snd flat_map app]. rewrite app_nil_r. f_equal. now apply IH.
Qed.

Lemma flat_records l : Forall no_params (map VMap l). Proof. induction l; constructor; [exact I|assumption]. Qed.
Lemma calls_args l : flat_map calls_in (map VMap (map arg_rec l)) = [].
Proof. induction l as [|a l IH]; [reflexivity|]. cbn [map flat_map]. rewrite IH. reflexivity. Qed.


Lemma np_slice l : no_params (slice_of l). Proof. now destruct l. Qed.
Lemma np_items o e : no_params e -> no_params (items_val e o).
Proof. intros H. destruct o as [[|x l]|]; [exact H|exact I|exact I]. Qed.
Lemma np_lookup o : no_params (lookup_val o). Proof. now destruct o. Qed.
Lemma np_store o : no_params (store_items o). Proof. destruct o as [[p l]|]; [apply np_slice|exact I]. Qed.
Ltac no_p := repeat (apply Forall_cons; [first [exact I | apply np_slice | apply np_items; exact I | apply np_lookup | apply np_store]|]); try apply Forall_nil.

Lemma calls_store o : calls_in (store_items o) = flat_map calls_in (opt_vals store_rec o).
Proof.
  destruct o as [[p l]|]; [|reflexivity]. unfold opt_vals, store_rec, store_items. cbn [flat_map fst snd]. change (calls_in (VBool true)) with (@nil val).
  rewrite calls_map by (cbn [map snd]; no_p). cbn [map snd flat_map app]. change (calls_in (VStr p)) with (@nil val). cbn [app]. now rewrite !app_nil_r.
Qed.
Lemma calls_items e o : calls_in e = [] -> calls_in (items_val e o) = flat_map calls_in (opt_vals records o).
Proof. intros H. destruct o as [[|x l]|]; [exact H| |reflexivity]. unfold opt_vals. cbn [flat_map app]. now rewrite app_nil_r. Qed.
Lemma calls_lookup o : calls_in (lookup_val o) = flat_map calls_in (opt_vals VMap o).
Proof. destruct o as [m|]; [|reflexivity]. unfold opt_vals, lookup_val. cbn [flat_map app]. now rewrite app_nil_r. Qed.

(** Records of metadata keep the fields they are read from. *)
Lemma meta_calls name ts gs m : meta_layout name ts gs m -> calls_in (VMap m) = flat_map calls_in gs.
Proof.
  intros H. destruct H; try (match goal with K : store_layout _ _ _ _ _ |- _ => destruct K | K : store_layout14 _ _ _ _ |- _ => destruct K end);
  unfold module_rec, module14_rec, module_vals, module14_vals, store_prefix in *; cbn [app] in *;
  (rewrite calls_map; [|unfold arg_rec; cbn [map snd app]; no_p]); unfold arg_rec;
  repeat (rewrite ?flat_map_app; cbn [map snd flat_map app]); rewrite ?calls_texts, ?calls_strs; cbn [calls_in app flat_map];
  rewrite ?app_nil_r, ?calls_store, ?calls_lookup; try reflexivity.
  all: rewrite ?calls_items by reflexivity; rewrite ?app_nil_r, <- ?app_assoc; try reflexivity.
  all: idtac.
Qed.

Lemma fields_calls E c gs bs cs : Forall no_params gs -> listed E c bs (flat_map calls_in gs) cs ->
  forall names, List.length names = List.length gs -> listed E c bs (calls_in (VMap (combine names gs))) cs.
Proof. intros N L names LN. rewrite calls_map; rewrite snd_combine by exact LN; assumption. Qed.

Lemma call_params_calls args gs : List.length args = List.length gs -> calls_in (VParams (combine args gs)) = flat_map calls_in gs.
Proof.
  cbn [calls_in]. revert gs. induction args as [|a args IH]; intros [|g gs] L; try discriminate L; [reflexivity|].
  cbn [combine flat_map snd]. f_equal. apply IH. now injection L.
Qed.

Lemma scale_calls E :
  (forall c ts bs g cs, scale false E c ts bs g cs -> no_params g /\ listed E c bs (calls_in g) cs) /\
  (forall c cd bs g cs, scale_at false E c cd bs g cs -> (exists c' ts, resolves E c' ts cd) -> no_params g /\ listed E c bs (calls_in g) cs) /\
  (forall c ts bs gs cs, scales false E c ts bs gs cs -> Forall no_params gs /\ listed E c bs (flat_map calls_in gs) cs /\ Forall2 (field_ok E c) ts gs).
Proof.
  apply (scale_mutind false E
    (fun c ts bs g cs => no_params g /\ listed E c bs (calls_in g) cs)
    (fun c cd bs g cs => (exists c' ts, resolves E c' ts cd) -> no_params g /\ listed E c bs (calls_in g) cs)
    (fun c ts bs gs cs => Forall no_params gs /\ listed E c bs (flat_map calls_in gs) cs /\ Forall2 (field_ok E c) ts gs)).
  all: intros; try (split; [exact I|apply listed_nil]).
  all: repeat match goal with K : no_params _ /\ _ |- _ => let n := fresh "NP" in let l := fresh "LS" in destruct K as [n l] | K : Forall no_params _ /\ _ |- _ => let n := fresh "NP" in let l := fresh "LS" in let f := fresh "FO" in destruct K as (n & l & f) end.
  (* sc_type *)
  - match goal with K : _ -> _ /\ _ |- _ => apply K end. eauto.
  (* compact *)
  - match goal with K : compact_repr ?cd _ = Some _ |- _ => destruct cd; try discriminate K; cbn in K; destruct (_ <? _) in K; try discriminate K; injection K as <- end;
    (split; [exact I|apply listed_nil]).
  (* option *)
  - split; [exact NP|now apply listed_cons].
  (* vectors, arrays *)
  - split; [apply np_slice|]. rewrite calls_slice. now apply listed_pre.
  - split; [apply np_slice|]. now rewrite calls_slice.
  - split; [exact I|]. apply fields_calls; [assumption..|]. rewrite map_length, <- (map_length snd). eapply scales_length; eassumption.
  (* BTreeMap *)
  - split; [apply np_slice|]. apply listed_pre. rewrite calls_slice.
    match goal with K : entries _ _ _ |- _ => rename K into EN end. match goal with K : ex _ |- _ => destruct K as (c' & ts & R) end.
    destruct LS as (full & F1 & F2 & F3). exists full. split; [exact F1|]. split; [exact (sub_trans _ _ F2 _ (entries_calls _ _ _ EN NP))|].
    intros PK. rewrite (F3 PK). eapply entries_all; [eapply PK; [exact R|eassumption]|exact PK|eassumption|exact EN|exact NP].
  (* variants *)
  - split; [exact I|]. apply listed_cons. rewrite calls_map by (constructor; [exact NP|constructor]). cbn [map snd flat_map]. now rewrite app_nil_r.
  - split; [exact I|]. apply listed_cons. rewrite calls_map by (repeat constructor). cbn [map snd flat_map]. rewrite app_nil_r. apply fields_calls; [assumption..|].
    rewrite map_length, <- (map_length row_type). eapply scales_length; eassumption.
  - split; [exact I|]. apply listed_cons. rewrite calls_map by (constructor; [exact NP|constructor]). cbn [map snd flat_map]. now rewrite app_nil_r.
  - split; [exact I|]. apply listed_cons. rewrite calls_map by (constructor; [exact NP|constructor]). cbn [map snd flat_map]. now rewrite app_nil_r.
  - split; [exact I|]. apply listed_cons. rewrite calls_map by (constructor; [exact I|constructor; [exact NP|constructor]]). cbn [map snd flat_map]. change (calls_in (VStr t)) with (@nil val). cbn [app]. now rewrite app_nil_r.
  (* wrappers *)
  - now split.
  - split; [exact NP|]. now apply listed_pre.
  - split; [exact I|]. rewrite calls_map by (constructor; [assumption|constructor; [assumption|constructor]]). cbn [map snd flat_map]. rewrite app_nil_r. now apply listed_app.
  - split; [exact I|]. rewrite calls_map by (constructor; [assumption|constructor; [assumption|constructor]]). cbn [map snd flat_map]. rewrite app_nil_r. now apply listed_app.
  (* calls *)
  - split; [exact I|]. set (v := VMap _). 
    assert (LN : List.length (cm_args cm) = List.length gs) by (rewrite <- (map_length snd); eapply scales_length; eassumption).
    assert (EV : calls_in v = (flat_map calls_in gs ++ [v])%list).
    { unfold v at 1. cbn [calls_in flat_map snd app]. rewrite app_nil_r. f_equal. exact (call_params_calls _ _ LN). }
    rewrite EV. apply (listed_ctx E _ c) in LS; [|reflexivity|reflexivity].
    assert (WC : writes_call E c (i :: j :: bs) (hex_encode (i :: j :: bs)) v).
    { exists [], (i :: j :: bs), [], (cs ++ [hex_encode (i :: j :: bs)])%list. split; [cbn; now rewrite app_nil_r|]. split; [reflexivity|].
      apply (sc_call false E (Ctx (x_spec c) "" (x_meta c)) md i j cm bs gs cs); assumption. }
    apply (listed_pre _ _ _ _ _ [i; j]) in LS. destruct LS as (full & F1 & F2 & F3). exists (full ++ [v])%list.
    split; [apply Forall2_app; [exact F1|constructor; [exact WC|constructor]]|]. split; [apply sub_app; [exact F2|apply sub_refl]|].
    intros PK. now rewrite (F3 PK).
  - split; [exact NP|]. apply listed_pre. revert LS. now apply listed_ctx.
  (* identity data *)
  - split; [exact I|]. rewrite calls_map by (constructor; [exact I|constructor]). apply listed_nil.
  (* metadata *)
  - split; [exact I|]. match goal with K : meta_layout _ _ _ _ |- _ => rewrite (meta_calls _ _ _ _ K) end. exact LS.
  - split; [constructor|]. split; [apply listed_nil|constructor].
  - split; [now constructor|]. split; [now apply listed_app|]. constructor; [|assumption].
    exists b, cs1. split; [assumption|]. intros PK ->. destruct LS as (full & F1 & _ & F3). rewrite <- (F3 PK). now inversion F1.
Qed.

(** ** C78.  The decoder lists the calls: each text is the hex of a piece of the
    input that encodes a call, they come inner ones first, and they include all
    the calls of the value. *)
Theorem C78_listed E c ts bs g cs pre tl : std_env E -> scale false E c ts bs g cs -> blen (pre ++ bs ++ tl) < 2 ^ 63 ->
  Decodes E c (pre ++ bs ++ tl) (blen pre) ts (Ok (g, blen pre + blen bs, cs)) /\
  exists full, Forall2 (writes_call E c bs) cs full /\ subseq (calls_in g) full /\ (plain_keys E -> full = calls_in g).
Proof. intros S H L. split; [now apply C15_decode|]. exact (proj2 (proj1 (scale_calls E) _ _ _ _ _ H)). Qed.

(** Each of them can be decoded on its own, and gives that call. *)
Theorem C78_alone E c bs s v : std_env E -> resolves E (Ctx (x_spec c) "" (x_meta c)) "Call" CCall -> writes_call E c bs s v -> blen bs < 2 ^ 63 ->
  exists cs, Decodes E (Ctx (x_spec c) "" (x_meta c)) (HexToBytes s) 0 "Call" (Ok (v, blen (HexToBytes s), cs)).
Proof.
  intros S R (p & b & q & cs & -> & -> & H) L. exists cs. rewrite (HexToBytes_hex' b).
  assert (SC : scale false E (Ctx (x_spec c) "" (x_meta c)) "Call" b v cs) by (econstructor; [exact R|discriminate|exact H]).
  pose proof (C15_decode E _ "Call" b v cs [] [] S SC) as D. cbn [app] in D. rewrite app_nil_r in D. apply D.
  unfold blen in *. rewrite !app_length in L. lia.
Qed.

(** A batch of two calls. *)
Definition calls_reg : list (string * codec) :=
  [("compact<u32>", CCompactU32); ("u8", CU8); ("null", CNull); ("call", CCall); ("vec", CVec "")].
Definition calls_env : env := Env calls_reg [] (fun _ => "call") (fun b => b) (fun _ => None).
Definition calls_md : metadata :=
  [("0000", CallMod "Utility" "batch" [("calls", "Vec<Call>")]); ("0100", CallMod "System" "remark" [("n", "u8")])].
Definition calls_ctx : ctx := Ctx 0 "" (Some calls_md).

Lemma calls_std : std_env calls_env.
Proof. intros k cd H. cbn in H. decompose [or] H; try contradiction; injection H0 || injection H1 || idtac; intros; subst; now split. Qed.
Lemma calls_remark c n : x_spec c = 0 -> x_meta c = Some calls_md -> 0 <= n < 256 ->
  scale_at false calls_env c CCall [Zb 1; Zb 0; Zb n]
    (VMap [("call_index", VStr "0100"); ("call_name", VStr "remark"); ("call_module", VStr "System"); ("params", VParams [(("n", "u8"), VInt n)])])
    [hex_encode [Zb 1; Zb 0; Zb n]].
Proof.
  intros S M R.
  apply (sc_call false calls_env c calls_md (Zb 1) (Zb 0) (CallMod "System" "remark" [("n", "u8")]) [Zb n] [VInt n] []); [reflexivity|exact M|reflexivity|].
  change [Zb n] with ([Zb n] ++ [])%list. apply (ss_cons _ _ _ "u8" [] [Zb n] [] (VInt n) [] [] []); [|constructor].
  econstructor; [exists CU8, ""; split; [|reflexivity]|discriminate|].
  - cbn [x_module x_spec]. rewrite S. reflexivity.
  - pose proof (sc_u8 false calls_env (Ctx (x_spec c) "System" (x_meta c)) n R) as K. unfold le_bytes in K. exact K.
Qed.
Definition remark_val (n : Z) : val :=
  VMap [("call_index", VStr "0100"); ("call_name", VStr "remark"); ("call_module", VStr "System"); ("params", VParams [(("n", "u8"), VInt n)])].
Definition batch_val : val :=
  VMap [("call_index", VStr "0000"); ("call_name", VStr "batch"); ("call_module", VStr "Utility");
        ("params", VParams [(("calls", "Vec<Call>"), VSlice [remark_val 5; remark_val 6])])].
Definition batch_bytes : bytes := hex_decode "000008010005010006".

Lemma batch_scale : scale false calls_env calls_ctx "Call" batch_bytes batch_val ["010005"; "010006"; "000008010005010006"].
Proof.
  econstructor; [exists CCall, ""; split; reflexivity|discriminate|].
  apply (sc_call false calls_env calls_ctx calls_md (Zb 0) (Zb 0) (CallMod "Utility" "batch" [("calls", "Vec<Call>")]) (hex_decode "08010005010006")
    [VSlice [remark_val 5; remark_val 6]] ["010005"; "010006"]); [reflexivity..|].
  change (hex_decode "08010005010006") with (hex_decode "08010005010006" ++ [])%list.
  apply (ss_cons _ _ _ "Vec<Call>" [] _ [] _ [] ["010005"; "010006"] []); [|constructor].
  econstructor; [exists (CVec ""), "Call"; split; reflexivity|discriminate|].
  apply (sc_vec false calls_env _ "Call" 2 (hex_decode "010005010006") [remark_val 5; remark_val 6] ["010005"; "010006"]); [|lia].
  apply (ss_cons _ _ _ "Call" ["Call"] (hex_decode "010005") (hex_decode "010006") _ _ ["010005"] ["010006"]).
  2: change (hex_decode "010006") with (hex_decode "010006" ++ [])%list; apply (ss_cons _ _ _ "Call" [] _ [] _ [] ["010006"] []); [|constructor].
  1: econstructor; [exists CCall, ""; split; reflexivity|discriminate|]; apply (calls_remark _ 5).
  4: econstructor; [exists CCall, ""; split; reflexivity|discriminate|]; apply (calls_remark _ 6).
  all: (reflexivity || lia).
Qed.

(** Without a registered BTreeMap no key can hide a call. *)
Lemma no_maps E : (forall k cd, assoc k (e_reg E) = Some cd -> forall s, cd <> CBTreeMap s) ->
  (forall k l lo hi cd, assoc k (e_special E) = Some l -> In (lo, hi, cd) l -> forall s, cd <> CBTreeMap s) -> plain_keys E.
Proof.
  intros R1 R2 c ts sub tk tv (cd0 & s0 & G & I) _. exfalso.
  assert (P : forall s, cd0 <> CBTreeMap s).
  { eapply (GetCodecClass_P (fun cd => forall s, cd <> CBTreeMap s)); [exact R1|exact R2|discriminate|discriminate|exact G]. }
  destruct cd0; try discriminate I. exact (P _ eq_refl).
Qed.
Lemma calls_plain : plain_keys calls_env.
Proof.
  apply no_maps; [|intros k l lo hi cd H; discriminate H]. intros k cd H. cbn in H.
  repeat (destruct (String.eqb k _) in H; [injection H as <-; discriminate|]). discriminate H.
Qed.
Example C78_case : calls_in batch_val = [remark_val 5; remark_val 6; batch_val] /\
  (exists f, decode f calls_env calls_ctx batch_bytes 0 "Call" = Ok (batch_val, 9, ["010005"; "010006"; "000008010005010006"])) /\
  Forall2 (writes_call calls_env calls_ctx batch_bytes) ["010005"; "010006"; "000008010005010006"] (calls_in batch_val).
Proof.
  split; [reflexivity|]. split; [exists 9%nat; vm_compute; reflexivity|].
  destruct (C78_listed calls_env calls_ctx "Call" _ _ _ [] [] calls_std batch_scale) as (_ & full & F & _ & P); [vm_compute; reflexivity|].
  now rewrite <- (P calls_plain).
Qed.

(** A call used as the key of a map is listed although the value shows it as
    text. *)
Definition keys_env : env := Env (("btreemap", CBTreeMap "") :: calls_reg) [] (fun _ => "call") (fun b => b) (fun _ => None).
Theorem C78_keys_refuted : exists E c ts bs g cs, std_env E /\ scale false E c ts bs g cs /\ cs <> [] /\ calls_in g = [].
Proof.
  exists keys_env, calls_ctx, "BTreeMap<Call,u8>", (hex_decode "0401000507"), (VSlice [VMap [("call", VInt 7)]]), ["010005"].
  split; [|split; [|split; [discriminate|reflexivity]]].
  - intros k cd H. cbn in H. decompose [or] H; try contradiction; injection H0 || injection H1 || idtac; intros; subst; now split.
  - econstructor; [exists (CBTreeMap ""), "Call,u8"; split; reflexivity|discriminate|].
    apply (sc_map false keys_env calls_ctx "Call,u8" "Call" "u8" 1 (hex_decode "01000507") [remark_val 5; VInt 7] ["010005"] [VMap [("call", VInt 7)]]);
      [reflexivity|reflexivity|lia| |exact (en_cons keys_env (remark_val 5) (VInt 7) [] [] (en_nil keys_env))].
    apply (ss_cons _ _ _ "Call" ["u8"] (hex_decode "010005") (hex_decode "07") _ _ ["010005"] []).
    + econstructor; [exists CCall, ""; split; reflexivity|discriminate|].
      apply (sc_call false keys_env calls_ctx calls_md (Zb 1) (Zb 0) (CallMod "System" "remark" [("n", "u8")]) [Zb 5] [VInt 5] []); [reflexivity..|].
      apply (ss_cons _ _ _ "u8" [] [Zb 5] [] (VInt 5) [] [] []); [|constructor].
      econstructor; [exists CU8, ""; split; reflexivity|discriminate|]. apply (sc_u8 false keys_env _ 5). lia.
    + apply (ss_cons _ _ _ "u8" [] [Zb 7] [] (VInt 7) [] [] []); [|constructor].
      econstructor; [exists CU8, ""; split; reflexivity|discriminate|]. apply (sc_u8 false keys_env _ 7). lia.
Qed.

(** ** Whatever the input, only calls are listed: every text is the hex of the
    bytes a "Call" was read from. *)
Definition alike (c c' : ctx) : Prop := x_spec c' = x_spec c /\ x_meta c' = x_meta c.
Inductive silent (c : ctx) : prog -> Prop :=
| si_ret v : silent c (Ret v)
| si_fail m : silent c (Fail m)
| si_next n k : (forall b, silent c (k b)) -> silent c (Next n k)
| si_sub c' ts k : alike c c' -> (forall v, silent c (k v)) -> silent c (Sub c' ts k)
| si_other b c' keep ts k : (keep = true -> alike c c') -> (forall v, silent c (k v)) -> silent c (Other b c' keep ts k)
| si_whole k : (forall b, silent c (k b)) -> silent c (Whole k).
Lemma alike_refl c : alike c c. Proof. now split. Qed.

Lemma silent_repeat c ts n acc k : (forall l, silent c (k l)) -> silent c (repeat_sub c ts n acc k).
Proof. intros Hk. revert acc. induction n as [|n IH]; intros acc; cbn [repeat_sub]; [apply Hk|]. constructor; [apply alike_refl|]. intros v. apply IH. Qed.
Lemma silent_fields c tm acc k : (forall l, silent c (k l)) -> silent c (fields_sub c tm acc k).
Proof. intros Hk. revert acc. induction tm as [|[n t] tm IH]; intros acc; cbn [fields_sub]; [apply Hk|]. constructor; [apply alike_refl|]. intros v. apply IH. Qed.
Lemma silent_rows c rows acc k : (forall l, silent c (k l)) -> silent c (rows_sub c rows acc k).
Proof.
  intros Hk. revert acc. induction rows as [|[|n [|t r]] rows IH]; intros acc; cbn [rows_sub]; try constructor; auto. apply alike_refl.
Qed.
Lemma silent_as_int c v k : (forall z, silent c (k z)) -> silent c (as_int v k).
Proof. intros Hk. destruct v; cbn [as_int]; try constructor; auto. Qed.
Lemma silent_compact_u32 c k : (forall z, silent c (k z)) -> silent c (compact_u32 c k).
Proof. intros Hk. constructor; [apply alike_refl|]. intros v. now apply silent_as_int. Qed.
Lemma silent_compact_bytes c k : (forall n b, silent c (k n b)) -> silent c (compact_bytes k).
Proof.
  intros Hk. constructor. intros b. cbv zeta.
  destruct (match b with [] => 0 | c :: _ => bZ c mod 4 end) as [|[p|p|]|p]; auto; try (constructor; auto).
  destruct p; constructor; auto.
Qed.
Lemma silent_process_bytes c k : (forall s, silent c (k s)) -> silent c (process_bytes c k).
Proof. intros Hk. apply silent_compact_u32. intros z. constructor. auto. Qed.
Lemma silent_compact_value c len v : silent c (compact_value len v).
Proof.
  unfold compact_value. destruct v; try constructor.
  - destruct (dec_div_floor coef exp _). constructor.
  - destruct (dec_of_string s) as [[cf e]|]; [|constructor]. destruct (dec_div_floor cf e _). constructor.
Qed.
Lemma subs_silent c ok p : subs_only c ok p -> silent c p.
Proof. intros H. induction H; constructor; auto. apply alike_refl. Qed.

Lemma process_silent E c cd : cd <> CCall -> silent c (process E c cd).
Proof.
  intros G. destruct cd; try (now contradiction G); cbn [process];
    repeat match goal with
    | |- silent _ (Ret _) => constructor
    | |- silent _ (Fail _) => constructor
    | |- silent _ (Next _ _) => constructor; intros ?
    | |- silent _ (Whole _) => constructor; intros ?
    | |- silent _ (Sub _ _ _) => constructor; [apply alike_refl|intros ?]
    | |- silent _ (Other _ _ false _ _) => constructor; [discriminate|intros ?]
    | |- silent _ (Other _ _ true _ _) => constructor; [intros _; now split|intros ?]
    | |- silent _ (compact_u32 _ _) => apply silent_compact_u32; intros ?
    | |- silent _ (compact_bytes _) => apply silent_compact_bytes; intros ? ?
    | |- silent _ (process_bytes _ _) => apply silent_process_bytes; intros ?
    | |- silent _ (repeat_sub _ _ _ _ _) => apply silent_repeat; intros ?
    | |- silent _ (fields_sub _ _ _ _) => apply silent_fields; intros ?
    | |- silent _ (rows_sub _ _ _ _) => apply silent_rows; intros ?
    | |- silent _ (compact_value _ _) => apply silent_compact_value
    | |- silent _ (process_enum _ _ _) => unfold process_enum
    | |- silent _ (process_meta _ _) => apply (subs_silent c _ _ (process_meta_subs c _))
    | |- silent _ (let _ := _ in _) => cbv zeta
    | |- silent _ (match ?x with _ => _ end) => destruct x
    end.
  (* BTreeMap loop *)
  match goal with |- silent _ (?loop ?n []) => generalize (@nil val), n end.
  intros acc n. revert acc. induction n as [|n IH]; intros acc; [constructor|].
  constructor; [apply alike_refl|]. intros v. destruct (nth_error (split_char "," sub) 1); constructor; [apply alike_refl|]. intros w. apply IH.
Qed.

(** [s] is the hex of the bytes of a call: reading a "Call" there, in the same
    version and with the same metadata, ends where they end. *)
Definition read_as_call (E : env) (c : ctx) (s : string) : Prop :=
  exists data a z raw v cs, Decodes E (Ctx (x_spec c) "" (x_meta c)) data a "Call" (Ok (v, z, cs)) /\ slice data a z = Ok raw /\ s = BytesToHex raw.

Lemma silent_run E c rec start p : silent c p ->
  (forall c' data off ts v o cs, alike c c' -> rec c' data off ts = Ok (v, o, cs) -> Forall (read_as_call E c) cs) ->
  forall data off calls v o cs, run rec start p data off calls = Ok (v, o, cs) -> Forall (read_as_call E c) calls -> Forall (read_as_call E c) cs.
Proof.
  intros H R. induction H as [x|m|n k H IH|c' ts k A H IH|b c' keep ts k A H IH|k H IH]; intros data off calls v o cs G F; cbn [run] in G.
  - now injection G as _ _ <-.
  - discriminate.
  - destruct (next_bytes data off (i64 n)) as [[d o']|m|]; cbn [bind] in G; try discriminate. eapply IH; eassumption.
  - destruct (rec c' data off ts) as [[[w o'] cs']|m|] eqn:RC; cbn [bind] in G; try discriminate. eapply IH; [exact G|]. apply Forall_app. split; [exact F|]. eapply R; eassumption.
  - destruct (rec c' b 0 ts) as [[[w o'] cs']|m|] eqn:RC; cbn [bind] in G; try discriminate. eapply IH; [exact G|]. destruct keep; [|exact F]. apply Forall_app. split; [exact F|]. eapply R; [now apply A|eassumption].
  - eapply IH; eassumption.
Qed.
Lemma call_run E c c' rec start data k : alike c c' ->
  (forall c' data off ts v o cs, alike c c' -> rec c' data off ts = Ok (v, o, cs) -> Forall (read_as_call E c) cs) ->
  forall args acc off calls v o cs, run rec start (call_params c' args acc (fun ps => LogSpan (Ret (k ps)))) data off calls = Ok (v, o, cs) -> Forall (read_as_call E c) calls ->
  exists cs' raw, cs = (cs' ++ [BytesToHex raw])%list /\ slice data start o = Ok raw /\ Forall (read_as_call E c) cs'.
Proof.
  intros A R. induction args as [|[n t] args IH]; intros acc off calls v o cs G F; cbn [call_params run] in G.
  - destruct (slice data start off) as [raw|m|] eqn:SL; cbn [bind] in G; try discriminate. injection G as _ <- <-. now exists calls, raw.
  - destruct (rec c' data off t) as [[[w o'] cs']|m|] eqn:RC; cbn [bind] in G; try discriminate. eapply IH; [exact G|]. apply Forall_app. split; [exact F|]. eapply R; eassumption.
Qed.
Lemma read_alike E c c' s : alike c c' -> read_as_call E c' s -> read_as_call E c s.
Proof. intros [S M]. unfold read_as_call. now rewrite S, M. Qed.

Theorem C78_any E c f data off ts v o cs : resolves E (Ctx (x_spec c) "" (x_meta c)) "Call" CCall ->
  decode f E c data off ts = Ok (v, o, cs) -> Forall (read_as_call E c) cs.
Proof.
  revert c data off ts v o cs. induction f as [|f IH]; intros c data off ts v o cs RC H; [discriminate|].
  pose proof H as H0. cbn [decode] in H. destruct (GetCodecClass E (x_module c) ts (x_spec c)) as [[[cd sub]|]|m|] eqn:G; cbn [bind] in H; try discriminate.
  assert (R : forall c' data off ts v o cs, alike c c' -> decode f E c' data off ts = Ok (v, o, cs) -> Forall (read_as_call E c) cs).
  { intros c' d o' t' v' o2 cs' A D. specialize (IH c' d o' t' v' o2 cs'). destruct A as [AS AM]. rewrite AS, AM in IH. specialize (IH RC D).
    eapply Forall_impl; [|exact IH]. intros s. apply read_alike. now split. }
  destruct (init_sub cd sub) as [] eqn:I.
  all: try (match goal with K : init_sub _ _ = ?x |- _ => assert (NC : x <> CCall) by discriminate end;
            eapply (silent_run E c _ _ _ (process_silent E c _ NC) R); [exact H|constructor]).
  cbn [process] in H. unfold process_call in H. cbn [run] in H.
  destruct (next_bytes data off (i64 2)) as [[b o']|m|] eqn:NB; cbn [bind] in H; try discriminate.
  destruct (x_meta c) as [md|] eqn:M; [|discriminate]. cbv zeta in H.
  match type of H with run _ _ (call_params ?c' _ _ _) _ _ _ = _ => assert (A : alike c c') by (split; [reflexivity|now rewrite M]) end.
  destruct (call_run E c _ (decode f E) off data _ A R _ _ _ _ _ _ _ H (Forall_nil _)) as (cs' & raw & -> & SL & F).
  apply Forall_app. split; [exact F|]. constructor; [|constructor].
  exists data, off, o, raw, v, (cs' ++ [BytesToHex raw])%list. split; [|now split]. split; [discriminate|]. exists (S f).
  destruct RC as (cd1 & s1 & G1 & I1). cbn [decode x_module x_spec x_meta] in *. rewrite M in *. rewrite G1. cbn [bind]. rewrite I1.
  cbn [process]. unfold process_call. cbn [run x_meta x_spec]. rewrite NB. cbn [bind]. exact H.
Qed.
Print Assumptions C78_listed.
Print Assumptions C78_alone.
Print Assumptions C78_keys_refuted.
Print Assumptions C78_any.
