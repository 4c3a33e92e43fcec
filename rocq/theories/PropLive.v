(** Decoding while other goroutines register types.  C86. *)

From Verif Require Import GoBase SpecNum ModelTools ModelVal ModelRegistry ModelDecode ModelRegister ModelLive ProofsKnown ProofsNet.

(** ** What decoding a type asks for *)
(** The registry entries looked up for the type text [ts] in the pallet [m]. *)
Inductive looked_up (m : string) : string -> string -> Prop :=
| lk_whole ts : looked_up m ts (ModuleType (to_lower (ConvertType ts)) m)
| lk_generic ts name sub : generic_parts (ConvertType ts) = Some (name, sub) -> looked_up m ts (ModuleType (to_lower name) m)
| lk_tuple ts : prefix "(" (ConvertType ts) = true -> looked_up m ts (ModuleType "struct" m)
| lk_last ts n : contains (ConvertType ts) "::" = true -> looked_up m (last_seg (ConvertType ts) O (ConvertType ts)) n -> looked_up m ts n.
(** A set of type texts that contains what its members ask for. *)
Definition closed_under (E : env) (known Pallet : string -> Prop) : Prop :=
  forall t m spec cd sub, known t -> Pallet m -> GetCodecClass E m t spec = Ok (Some (cd, sub)) -> forall t', In t' (asks (init_sub cd sub)) -> known t'.
(** The others register names of [R] only. *)
Definition only_changes (R : string -> Prop) (r0 : reg) (w : world) : Prop :=
  forall n q, ~ R q -> assoc q (r_types (w n)) = assoc q (r_types r0) /\ assoc q (r_special (w n)) = assoc q (r_special r0).
Definition away (R known Pallet : string -> Prop) : Prop :=
  forall t m n, known t -> Pallet m -> looked_up m t n -> ~ R n /\ ~ R (to_lower n).

Definition forget (o : live_outcome) : outcome :=
  match o with Ok (x, _) => Ok x | Panic m => Panic m | OutOfFuel => OutOfFuel end.

(** ** The proof *)
Definition agrees {A} (a : res (A * nat)) (b : res A) : Prop :=
  match b with Ok x => exists n, a = Ok (x, n) | Panic m => a = Panic m | OutOfFuel => a = OutOfFuel end.
Section Away.
Variables (w : world) (like : env) (r0 : reg) (R known Pallet : string -> Prop).
Hypothesis OC : only_changes R r0 w.
Notation E := (env_of r0 like).
Definition clear_of (n : string) : Prop := ~ R n /\ ~ R (to_lower n).

Lemma instant_agrees n m t spec : clear_of (ModuleType (to_lower t) m) -> agrees (instant_live w n m t spec) (getCodecInstant E m t spec).
Proof.
  intros [C1 C2]. unfold instant_live, getCodecInstant, special_live, specialVersionCodec. cbv zeta.
  set (t' := ModuleType (to_lower t) m) in *. cbn [reg_env e_special env_of e_reg].
  rewrite (proj2 (OC n t' C1)), (proj1 (OC (S n) (to_lower t') C2)).
  destruct (match assoc t' (r_special r0) with Some l => in_range l spec | None => None end) as [c|]; [now exists (S n)|].
  destruct (assoc (to_lower t') (r_types r0)) as [c|]; [now exists (S (S n))|].
  destruct (String.eqb t' "[]"); [now exists (S (S n))|]. destruct (first_char t') as [a|]; [|reflexivity]. destruct (last_char t') as [z|]; [|reflexivity].
  destruct (Ascii.eqb a "[" && Ascii.eqb z "]"); now exists (S (S n)).
Qed.

Lemma agrees_bind {A B} (a : res (A * nat)) (b : res A) (f : A * nat -> res (B * nat)) (g : A -> res B) :
  agrees a b -> (forall x n, agrees (f (x, n)) (g x)) -> agrees (bind a f) (bind b g).
Proof. destruct b as [x|m|]; cbn [agrees]; [intros [n ->] H; cbn [bind]; apply H|intros -> _; reflexivity|intros -> _; reflexivity]. Qed.
Lemma agrees_ok {A} (x : A) n : agrees (Ok (x, n)) (Ok x).
Proof. now exists n. Qed.
Lemma class_agrees m spec : forall f n t, (forall q, looked_up m t q -> clear_of q) -> agrees (class_live w f n m t spec) (GetCodecClass_fuel f E m t spec).
Proof.
  intros f. induction f as [|f IH]; intros n t C;
    pose proof (fun k => instant_agrees k m (ConvertType t) spec (C _ (lk_whole m t))) as W;
    assert (G : forall name sub k, generic_parts (ConvertType t) = Some (name, sub) -> agrees (instant_live w k m name spec) (getCodecInstant E m name spec))
      by (intros name sub k GP; apply instant_agrees, C, (lk_generic m t name sub GP));
    assert (TU : forall k, prefix "(" (ConvertType t) = true -> agrees (instant_live w k m "Struct" spec) (getCodecInstant E m "Struct" spec))
      by (intros k PF; apply instant_agrees, C, (lk_tuple m t PF));
    assert (LS : contains (ConvertType t) "::" = true -> forall q, looked_up m (last_seg (ConvertType t) O (ConvertType t)) q -> clear_of q)
      by (intros CT q L; apply C; now apply lk_last);
    cbn [class_live GetCodecClass_fuel]; cbv zeta; generalize dependent (ConvertType t); intros ts W G TU LS;
    (destruct (last_char ts) as [z|]; [|reflexivity]);
    (apply agrees_bind; [destruct (Ascii.eqb z ">"); [apply W|apply agrees_ok]|]); intros [c|] n1; try apply agrees_ok;
    (apply agrees_bind;
      [destruct (if Ascii.eqb z ">" then generic_parts ts else None) as [[name sub]|] eqn:GP;
        [destruct (Ascii.eqb z ">"); [|discriminate]; apply agrees_bind; [apply (G name sub), GP|]; intros o n2; apply agrees_ok
        |apply agrees_bind; [apply W|]; intros o n2; apply agrees_ok]|]);
    intros [p|] n2; try apply agrees_ok;
    (destruct (negb (String.eqb ts "()") && prefix "(" ts && Ascii.eqb z ")") eqn:TP;
      [apply Bool.andb_true_iff in TP; destruct TP as [TP _]; apply Bool.andb_true_iff in TP; destruct TP as [_ TP];
       apply agrees_bind; [apply TU, TP|]; intros [c|] n3; [|reflexivity]; destruct c; try reflexivity; apply agrees_ok|]);
    (destruct (contains ts "::" && negb (String.eqb ts "::")) eqn:CT; [|apply agrees_ok]); apply Bool.andb_true_iff in CT; destruct CT as [CT _].
  - reflexivity.
  - apply IH. now apply LS.
Qed.

Lemma process_like c cd : process E c cd = process like c cd.
Proof. destruct cd; reflexivity. Qed.
Lemma run_agrees rec rec' start p : closed known Pallet p ->
  (forall n c data off t, fine known Pallet c -> known t -> agrees (rec n c data off t) (rec' c data off t)) ->
  forall n data off calls, agrees (run_live rec start p n data off calls) (run rec' start p data off calls).
Proof.
  intros CL REC. induction CL as [v|x M|k f _ IH|c ts k F T _ IH|b c keep ts k F T _ IH|k _ IH|k _ IH]; intros n data off calls; cbn [run_live run].
  - apply agrees_ok.
  - reflexivity.
  - destruct (next_bytes data off (i64 k)) as [[d o]|x|]; cbn [bind]; [apply IH|reflexivity|reflexivity].
  - apply agrees_bind; [now apply REC|]. intros [[v o] cs] n'. apply IH.
  - apply agrees_bind; [now apply REC|]. intros [[v o] cs] n'. apply IH.
  - apply IH.
  - destruct (slice data start off); cbn [bind]; [apply IH|reflexivity|reflexivity].
Qed.
Hypothesis P0 : Pallet "".
Hypothesis CU : closed_under E known Pallet.
Hypothesis AW : away R known Pallet.
Lemma decode_agrees fuel : forall n c data off t, fine known Pallet c -> known t -> agrees (decode_live w like fuel n c data off t) (decode fuel E c data off t).
Proof.
  induction fuel as [|f IH]; intros n c data off t F T; [reflexivity|]. cbn [decode_live decode].
  pose proof (class_agrees (x_module c) (x_spec c) (String.length t) n t (fun q L => AW t (x_module c) q T (proj1 F) L)) as CA.
  change (GetCodecClass_fuel (String.length t) E (x_module c) t (x_spec c)) with (GetCodecClass E (x_module c) t (x_spec c)) in CA.
  destruct (GetCodecClass E (x_module c) t (x_spec c)) as [[[cd sub]|]|x|] eqn:G; cbn [agrees] in CA.
  - destruct CA as [n' ->]. cbn [bind]. rewrite process_like. apply run_agrees; [|exact IH].
    apply closed_process; [exact P0|exact F|]. exact (CU t (x_module c) (x_spec c) cd sub T (proj1 F) G).
  - destruct CA as [n' ->]. reflexivity.
  - rewrite CA. reflexivity.
  - rewrite CA. reflexivity.
Qed.
End Away.

(** ** C86: registering other types meanwhile changes nothing *)
Theorem C86_away w like r0 (R known Pallet : string -> Prop) fuel n c data off t : only_changes R r0 w -> Pallet "" -> closed_under (env_of r0 like) known Pallet -> away R known Pallet ->
  fine known Pallet c -> known t -> forget (decode_live w like fuel n c data off t) = decode fuel (env_of r0 like) c data off t.
Proof.
  intros OC P0 CU AW F T. pose proof (decode_agrees w like r0 R known Pallet OC P0 CU AW fuel n c data off t F T) as A.
  destruct (decode fuel (env_of r0 like) c data off t) as [x|m|]; cbn [agrees] in A; [destruct A as [k ->]; reflexivity|rewrite A; reflexivity|rewrite A; reflexivity].
Qed.
(** Without others, this is the decoder of ModelDecode.v. *)
Theorem C86_alone r like fuel n c data off t : forget (decode_live (fun _ => r) like fuel n c data off t) = decode fuel (env_of r like) c data off t.
Proof.
  apply (C86_away (fun _ => r) like r (fun _ => False) (fun _ => True) (fun _ => True)); try exact I.
  - intros k q _. now split.
  - intros t0 m spec cd sub _ _ _ t' _. exact I.
  - intros t0 m q _ _ _. now split.
  - split; [exact I|]. destruct (x_meta c); [|exact I]. intros i cm _. now split.
Qed.

(** A decode of a Vec of structs while the registry is being filled with other
    names, one of them a prefix of a name in use, and versions of yet another. *)
Definition lv_base : reg := Reg [("vec", CVec ""); ("u8", CU8); ("u32", CU32); ("compact", CCompact ""); ("compact<u32>", CCompactU32); ("struct", CStruct None);
                                 ("widget", CStruct (Some [("a", "u8"); ("b", "u8")]))] [] [].
Definition lv_world : world := fun n =>
  Reg (flat_map (fun k => [("widgets", CU8); ("other", CVec (itoa (Z.of_nat k)))]) (seq 0 n) ++ r_types lv_base)%list [("others", [(0, Z.of_nat n, CU32)])] [].
Definition lv_others (q : string) : Prop := In q ["widgets"; "other"; "others"].
Definition lv_known (t : string) : Prop := In t ["Vec<Widget>"; "Widget"; "u8"; "Compact<u32>"].
Definition no_pallet (m : string) : Prop := m = "".
Definition lv_bytes : bytes := map Zb [8; 1; 2; 3; 4].
Definition lv_value : val := VSlice [VMap [("a", VInt 1); ("b", VInt 2)]; VMap [("a", VInt 3); ("b", VInt 4)]].
Lemma lv_flat q n : ~ lv_others q -> forall l, assoc q (flat_map (fun k => [("widgets", CU8); ("other", CVec (itoa (Z.of_nat k)))]) (seq n l) ++ r_types lv_base)%list = assoc q (r_types lv_base).
Proof.
  intros N l. revert n. induction l as [|l IH]; intros n; [reflexivity|]. cbn [seq flat_map app assoc].
  destruct (String.eqb_spec q "widgets") as [->|]; [destruct N; now left|]. destruct (String.eqb_spec q "other") as [->|]; [destruct N; right; now left|]. apply IH.
Qed.
Example C86_case : let E := env_of lv_base (reg_env lv_base) in
  only_changes lv_others lv_base lv_world /\ closed_under E lv_known no_pallet /\ away lv_others lv_known no_pallet /\ fine lv_known no_pallet (Ctx 5 "" None)
  /\ decode 9 E (Ctx 5 "" None) lv_bytes 0 "Vec<Widget>" = Ok (lv_value, 5, []) /\ assoc "widgets" (r_types (lv_world 7%nat)) = Some CU8.
Proof.
  cbv zeta. split; [|split; [|split; [|split; [|split]]]].
  - intros n q N. split; [apply lv_flat, N|]. cbn [lv_world r_special assoc lv_base]. destruct (String.eqb_spec q "others") as [->|]; [|reflexivity]. destruct N. right. right. now left.
  - intros t m spec cd sub K -> G t' I. unfold lv_known in K. cbn [In] in K.
    destruct K as [<-|[<-|[<-|[<-|[]]]]]; vm_compute in G; injection G as <- <-; vm_compute in I; unfold lv_known; cbn [In]; intuition (subst; auto).
  - intros t m q K -> L. unfold lv_known in K. cbn [In] in K.
    assert (X : forall s, In s ["vec<widget>"; "vec"; "widget"; "u8"; "compact<u32>"; "compact"] -> ~ lv_others s /\ ~ lv_others (to_lower s)).
    { intros s I. cbn [In] in I. unfold lv_others. cbn [In]. destruct I as [<-|[<-|[<-|[<-|[<-|[<-|[]]]]]]]; vm_compute; split; intuition discriminate. }
    apply X. clear X. destruct K as [<-|[<-|[<-|[<-|[]]]]]; inversion L as [ts|ts name sub GP|ts PF|ts n CT LL]; subst; clear L;
      match goal with
      | GP : generic_parts _ = _ |- _ => vm_compute in GP; try discriminate GP; injection GP as <- <-
      | PF : prefix _ _ = _ |- _ => vm_compute in PF; discriminate PF
      | CT : contains _ _ = _ |- _ => vm_compute in CT; discriminate CT
      | _ => idtac
      end; vm_compute; repeat (first [left; reflexivity | right]).
  - split; [reflexivity|exact I].
  - vm_compute. reflexivity.
  - vm_compute. reflexivity.
Qed.

(** ** The condition is needed: when the type being decoded is registered again
    meanwhile, the elements of one Vec can be read with different layouts, which
    no registry gives. *)
Definition torn_new : reg := with_types (upd "widget" (CStruct (Some [("c", "u32")]))) lv_base.
Definition torn_bytes : bytes := map Zb [8; 1; 2; 9; 0; 0; 0].
Theorem C86_torn_refuted : exists w : world, (exists k, forall n, w n = if Nat.ltb n k then lv_base else torn_new) /\
  forget (decode_live w (reg_env lv_base) 9 0%nat (Ctx 5 "" None) torn_bytes 0 "Vec<Widget>")
    = Ok (VSlice [VMap [("a", VInt 1); ("b", VInt 2)]; VMap [("c", VU32 9)]], 7, [])
  /\ forall r, r = lv_base \/ r = torn_new -> forall v off cs, decode 9 (env_of r (reg_env lv_base)) (Ctx 5 "" None) torn_bytes 0 "Vec<Widget>" = Ok (v, off, cs) ->
     v <> VSlice [VMap [("a", VInt 1); ("b", VInt 2)]; VMap [("c", VU32 9)]].
Proof.
  exists (fun n => if Nat.ltb n 12 then lv_base else torn_new). split; [now exists 12%nat|]. split; [vm_compute; reflexivity|].
  intros r [->| ->] v off cs D; vm_compute in D; injection D as <- <- <-; discriminate.
Qed.
Print Assumptions C86_away.
Print Assumptions C86_alone.
Print Assumptions C86_torn_refuted.
