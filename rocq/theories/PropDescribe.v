(** C41: the structural description of a type returns when the recursion goes
    through fields of structs and enums only; through a fixed array, a map or a
    result it does not. *)

From Verif Require Import GoBase ProofsBase ModelVal ModelRegistry ModelDecode ModelRegister SpecScale PropTerm.

(** ** Fuel *)
Definition says_more (f g : string -> Z -> res string) : Prop := forall ts rt r, f ts rt = r -> r <> OutOfFuel -> g ts rt = r.
Lemma concat_more sep f g (tm : list (string * string)) rt : says_more f g -> forall acc r,
  concat_sep sep (map (fun p => f (snd p) rt) tm) acc = r -> r <> OutOfFuel -> concat_sep sep (map (fun p => g (snd p) rt) tm) acc = r.
Proof.
  intros M. induction tm as [|[n t] tm IH]; intros acc r H N; cbn [map concat_sep snd] in *; [exact H|].
  destruct (f t rt) as [s|m|] eqn:F; cbn [bind] in H; [|subst r|subst r; contradiction].
  - rewrite (M _ _ _ F ltac:(discriminate)). cbn [bind]. now apply IH.
  - rewrite (M _ _ _ F ltac:(discriminate)). reflexivity.
Qed.
Lemma codec_more f g rt ts cd r : says_more f g -> codec_string f rt ts cd = r -> r <> OutOfFuel -> codec_string g rt ts cd = r.
Proof.
  intros M. assert (B : forall A (x y : res A) k r, (x <> OutOfFuel -> y = x) -> bind x k = r -> r <> OutOfFuel -> bind y k = (r : res string)).
  { intros A x y k q H E0 N. destruct x as [a|m|]; [rewrite H by discriminate|rewrite H by discriminate|subst q; contradiction]; exact E0. }
  assert (M' : forall t z, f t z <> OutOfFuel -> g t z = f t z) by (intros t z N; now apply M).
  destruct cd; cbn [codec_string]; try exact (fun H _ => H); try (intros H N; eapply B; [apply M'|exact H|exact N]).
  - destruct tm as [tm|]; [|exact (fun H _ => H)]. unfold struct_string. destruct tm as [|p tm]; [exact (fun H _ => H)|].
    destruct (_ <? _); [exact (fun H _ => H)|]. apply B. intros N. now apply (concat_more "," f g (p :: tm) (rt + 1) M []).
  - destruct tm as [tm|]; [|exact (fun H _ => H)]. unfold struct_string. destruct tm as [|p tm]; [exact (fun H _ => H)|].
    destruct (_ <? _); [exact (fun H _ => H)|]. apply B. intros N. now apply (concat_more "," f g (p :: tm) (rt + 1) M []).
  - unfold pair_string. destruct (split_char "," sub) as [|a [|b l]]; [exact (fun H _ => H)|apply B, M'|].
    intros H N. destruct (f a 0) as [s|m|] eqn:F; cbn [bind] in H; [| |subst r; contradiction]; rewrite (M _ _ _ F ltac:(discriminate)); cbn [bind]; [|exact H].
    eapply B; [apply M'|exact H|exact N].
  - unfold pair_string. destruct (split_char "," sub) as [|a [|b l]]; [exact (fun H _ => H)|apply B, M'|].
    intros H N. destruct (f a 0) as [s|m|] eqn:F; cbn [bind] in H; [| |subst r; contradiction]; rewrite (M _ _ _ F ltac:(discriminate)); cbn [bind]; [|exact H].
    eapply B; [apply M'|exact H|exact N].
Qed.
Lemma describe_more E : forall n m, (n <= m)%nat -> says_more (getTypeStructString n E) (getTypeStructString m E).
Proof.
  induction n as [|n IH]; intros m L ts rt r H N; [cbn in H; subst; contradiction|]. destruct m as [|m]; [lia|].
  cbn [getTypeStructString] in *. destruct (GetCodecClass E "" ts 0) as [[[c sub]|]|e|]; cbn [bind] in *; try exact H.
  eapply codec_more; [|exact H|exact N]. apply IH. lia.
Qed.

(** ** The description of a type: what the recursion comes to. *)
Definition Describes (E : env) (ts : string) (rt : Z) (r : res string) : Prop := r <> OutOfFuel /\ exists f, getTypeStructString f E ts rt = r.
Lemma Describes_fun E ts rt r r' : Describes E ts rt r -> Describes E ts rt r' -> r = r'.
Proof.
  intros [N [f H]] [N' [f' H']]. pose proof (describe_more E f (Nat.max f f') ltac:(lia) _ _ _ H N) as A.
  pose proof (describe_more E f' (Nat.max f f') ltac:(lia) _ _ _ H' N') as B. congruence.
Qed.

(** The component types described with the same count of nested structs, *)
Definition keep_refs (cd : codec) : list string := match cd with COption t | CVec t | CBoundedVec t => [t] | _ => [] end.
(** with one more, *)
Definition field_refs (cd : codec) : list string := match cd with CStruct (Some tm) | CEnum (Some tm) _ => map snd tm | _ => [] end.
(** and with the count started again. *)
Definition reset_refs (cd : codec) : list string :=
  match cd with CFixedArray _ t => [t] | CBTreeMap t | CResult t => firstn 2 (split_char ","%char t) | _ => [] end.
Definition plain (E : env) (ts : string) (cd : codec) : Prop := resolves E (Ctx 0 "" None) ts cd.

(** Types that are not an option or vector of an option or vector ... for ever; *)
Inductive shallow (E : env) : string -> Prop :=
| sh ts : (forall cd t, plain E ts cd -> In t (keep_refs cd) -> shallow E t) -> shallow E ts.
(** components not behind an array, a map or a result; *)
Inductive within (E : env) (ts : string) : string -> Prop :=
| wi_self : within E ts ts
| wi_step t cd t' : within E ts t -> plain E t cd -> In t' (keep_refs cd ++ field_refs cd)%list -> within E ts t'.
(** and types that do not contain themselves behind an array, a map or a result. *)
Inductive bounded (E : env) : string -> Prop :=
| bo ts : (forall t, within E ts t -> shallow E t) ->
          (forall t cd t', within E ts t -> plain E t cd -> In t' (reset_refs cd) -> bounded E t') -> bounded E ts.

(** One step. *)
Definition describable (E : env) (ts : string) (rt : Z) : Prop := exists f, getTypeStructString f E ts rt <> OutOfFuel.
Lemma describable_all E (l : list (string * Z)) : (forall x, In x l -> describable E (fst x) (snd x)) ->
  exists f, forall x, In x l -> getTypeStructString f E (fst x) (snd x) <> OutOfFuel.
Proof.
  induction l as [|x l IH]; intros H; [exists O; contradiction|]. destruct (H x (or_introl eq_refl)) as [f F]. destruct IH as [f' F']; [intros y Hy; apply H; now right|].
  exists (Nat.max f f'). intros y [<-|Hy]; [rewrite (describe_more E f (Nat.max f f') ltac:(lia) _ _ _ eq_refl F); exact F|].
  specialize (F' y Hy). now rewrite (describe_more E f' (Nat.max f f') ltac:(lia) _ _ _ eq_refl F').
Qed.
Definition next_refs (rt : Z) (cd : codec) : list (string * Z) :=
  (map (fun t => (t, rt)) (keep_refs cd) ++ (if 5 <? rt + 1 then [] else map (fun t => (t, rt + 1)%Z) (field_refs cd)) ++ map (fun t => (t, 0)) (reset_refs cd))%list.
Lemma bind_fuel {A B} (x : res A) (k : A -> res B) : x <> OutOfFuel -> (forall a, k a <> OutOfFuel) -> bind x k <> OutOfFuel.
Proof. destruct x; cbn [bind]; intros H K; [apply K|discriminate|contradiction]. Qed.
Lemma concat_fuel (f : string -> Z -> res string) (tm : list (string * string)) rt : (forall t, In t (map snd tm) -> f t rt <> OutOfFuel) ->
  forall acc, concat_sep "," (map (fun p => f (snd p) rt) tm) acc <> OutOfFuel.
Proof.
  induction tm as [|[n t] tm IH]; intros H acc; cbn [map concat_sep snd]; [discriminate|]. apply bind_fuel; [apply H; now left|].
  intros s. apply IH. intros t' Ht. apply H. now right.
Qed.
Lemma codec_fuel (f : string -> Z -> res string) rt ts cd : (forall x, In x (next_refs rt cd) -> f (fst x) (snd x) <> OutOfFuel) -> codec_string f rt ts cd <> OutOfFuel.
Proof.
  intros H. assert (S : forall nm tm, (forall x, In x (if 5 <? rt + 1 then [] else map (fun t => (t, rt + 1)) (map snd tm)) -> f (fst x) (snd x) <> OutOfFuel) -> struct_string nm f rt tm <> OutOfFuel).
  { intros nm tm HT. unfold struct_string. destruct tm as [|p tm]; [discriminate|]. unfold limitRecursiveTime. destruct (5 <? rt + 1); [discriminate|].
    apply bind_fuel; [|discriminate]. apply concat_fuel. intros t Ht. apply (HT (t, rt + 1)). now apply (in_map (fun t => (t, rt + 1)%Z)). }
  assert (P : forall nm sub, (forall x, In x (map (fun t => (t, 0)) (firstn 2 (split_char "," sub))) -> f (fst x) (snd x) <> OutOfFuel) -> pair_string nm f sub <> OutOfFuel).
  { intros nm sub HT. unfold pair_string. destruct (split_char "," sub) as [|a [|b l]]; [discriminate| |]; cbn [firstn map] in HT.
    - apply bind_fuel; [|discriminate]. apply (HT (a, 0)). now left.
    - apply bind_fuel; [apply (HT (a, 0)); now left|]. intros s. apply bind_fuel; [apply (HT (b, 0)); right; now left|discriminate]. }
  unfold next_refs in H. destruct cd; cbn [keep_refs field_refs reset_refs map app] in H; cbn [codec_string]; try discriminate;
    try (apply bind_fuel; [|discriminate]; first [apply (H (sub, rt)); now left | apply (H (sub, 0)); destruct (5 <? rt + 1); now left]).
  - destruct tm as [tm|]; [|discriminate]. apply S. intros x Hx. apply H. rewrite app_nil_r. exact Hx.
  - destruct tm as [tm|]; [|destruct vl; discriminate]. apply S. intros x Hx. apply H. rewrite app_nil_r. exact Hx.
  - apply P. intros x Hx. apply H. destruct (5 <? rt + 1); exact Hx.
  - apply P. intros x Hx. apply H. destruct (5 <? rt + 1); exact Hx.
Qed.
Lemma describe_step E ts rt : (forall cd x, plain E ts cd -> In x (next_refs rt cd) -> describable E (fst x) (snd x)) -> describable E ts rt.
Proof.
  intros H. destruct (GetCodecClass E "" ts 0) as [[[c sub]|]|m|] eqn:G.
  - destruct (describable_all E (next_refs rt (init_sub c sub))) as [f F].
    { intros x Hx. apply (H (init_sub c sub)); [|exact Hx]. now exists c, sub. }
    exists (S f). cbn [getTypeStructString]. rewrite G. cbn [bind]. now apply codec_fuel.
  - exists 1%nat. cbn [getTypeStructString]. rewrite G. discriminate.
  - exists 1%nat. cbn [getTypeStructString]. rewrite G. discriminate.
  - destruct (C48_lookup E "" ts 0) as (r & Hr & N). congruence.
Qed.
Lemma within_step E ts cd t t' : plain E ts cd -> In t (keep_refs cd ++ field_refs cd)%list -> within E t t' -> within E ts t'.
Proof. intros R I H. induction H as [|t1 cd1 t2 _ IH R2 I2]; [eapply wi_step; [apply wi_self|exact R|exact I]|eapply wi_step; [exact IH|exact R2|exact I2]]. Qed.

(** ** C41 *)
Theorem C41_returns_partial E ts rt : bounded E ts -> exists r, Describes E ts rt r.
Proof.
  intros B. assert (D : describable E ts rt); [|destruct D as [f F]; eexists; split; [exact F|now exists f]].
  revert rt. induction B as [ts SH _ IHb].
  assert (G : forall n rt t, (Z.to_nat (6 - rt) <= n)%nat -> within E ts t -> describable E t rt).
  { induction n as [n IHn] using lt_wf_ind. intros rt t L W. pose proof (SH t W) as S. induction S as [t _ IHs].
    apply describe_step. intros cd x R I. unfold next_refs in I. apply in_app_or in I as [I|I]; [|apply in_app_or in I as [I|I]].
    - apply in_map_iff in I as (t' & <- & I). cbn [fst snd]. apply (IHs cd t' R I). eapply wi_step; [exact W|exact R|]. apply in_or_app. now left.
    - destruct (Z.ltb_spec 5 (rt + 1)); [contradiction|]. apply in_map_iff in I as (t' & <- & I). cbn [fst snd].
      apply (IHn (Z.to_nat (6 - (rt + 1)))); [lia|reflexivity|]. eapply wi_step; [exact W|exact R|]. apply in_or_app. now right.
    - apply in_map_iff in I as (t' & <- & I). cbn [fst snd]. now apply (IHb t cd t' W). }
  intros rt. apply (G _ rt ts (le_n _)). apply wi_self.
Qed.

(** A way to check the hypothesis. *)
Definition plain_refs (f : codec -> list string) (E : env) (ts : string) : list string :=
  match GetCodecClass E "" ts 0 with Ok (Some (cd, sub)) => f (init_sub cd sub) | _ => [] end.
Lemma plain_in f E ts cd t : plain E ts cd -> In t (f cd) -> In t (plain_refs f E ts).
Proof. intros (cd0 & sub & G & <-) H. unfold plain_refs. cbn [x_module x_spec] in G. now rewrite G. Qed.
Inductive kept (E : env) : list string -> Prop :=
| ke_nil : kept E []
| ke_cons x l : kept E l -> (forall t, In t (plain_refs keep_refs E x) -> In t l) -> kept E (x :: l).
Lemma bounded_checked E l : kept E l -> (forall x t, In x l -> In t (plain_refs keep_refs E x ++ plain_refs field_refs E x)%list -> In t l) ->
  (forall x t, In x l -> In t (plain_refs reset_refs E x) -> bounded E t) -> forall t, In t l -> bounded E t.
Proof.
  intros K C R t I. assert (CL : forall t', within E t t' -> In t' l).
  { intros t' W. induction W as [|t1 cd t2 _ IH P I2]; [exact I|]. apply (C t1 t2 IH). apply in_app_or in I2 as [I2|I2]; apply in_or_app; [left|right]; eapply plain_in; eassumption. }
  constructor; [|intros t' cd t2 W P I2; apply (R t' t2 (CL t' W)); eapply plain_in; eassumption].
  intros t' W. apply CL in W as I'. clear W I C R CL. revert t' I'. induction K as [|x l _ IH F]; intros t' I'; [contradiction|]. destruct I' as [-> |I']; [|now apply IH].
  constructor. intros cd t2 P I2. apply IH, F. eapply plain_in; eassumption.
Qed.

(** Recursive types it applies to: a struct with an optional or repeated
    component of its own type, and a map of them. *)
Definition tree_reg : reg := match RegCustomTypes 5 [("Tree", TStruct "struct" "" [["value"; "u8"]; ["left"; "Option<Tree>"]; ["more"; "Vec<Tree>"]] [] 0 false 0)] base_reg with Ok r => r | _ => base_reg end.
Lemma tree_bounded : bounded (reg_env tree_reg) "Tree".
Proof.
  apply (bounded_checked _ ["Vec<Tree>"; "Option<Tree>"; "Tree"; "u8"]).
  - repeat (apply ke_cons; [|intros t; vm_compute; tauto]). apply ke_nil.
  - intros x t [<-|[<-|[<-|[<-|[]]]]]; vm_compute; tauto.
  - intros x t [<-|[<-|[<-|[<-|[]]]]]; vm_compute; tauto.
  - right; right; now left.
Qed.
Lemma u8_bounded : bounded (reg_env tree_reg) "u8".
Proof.
  apply (bounded_checked _ ["u8"]); [apply ke_cons; [apply ke_nil|intros t; vm_compute; tauto]| | |now left]; intros x t [<-|[]]; vm_compute; tauto.
Qed.
Example C41_case : forall rt, exists r, Describes (reg_env tree_reg) "BTreeMap<u8,Tree>" rt r.
Proof.
  intros rt. apply C41_returns_partial. apply (bounded_checked _ ["BTreeMap<u8,Tree>"]).
  - apply ke_cons; [apply ke_nil|intros t; vm_compute; tauto].
  - intros x t [<-|[]]; vm_compute; tauto.
  - intros x t [<-|[]]. vm_compute (plain_refs _ _ _). intros [<-|[<-|[]]]; [apply u8_bounded|apply tree_bounded].
  - now left.
Qed.
Example C41_case_value : Describes (reg_env tree_reg) "Tree" 4 (Ok "Struct(U8,Option<Struct(...)>,Vec<Struct(...)>)").
Proof. split; [discriminate|]. exists 9%nat. vm_compute. reflexivity. Qed.

(** The full statement is false: these never return. *)
Definition loop_reg : reg :=
  match RegCustomTypes 5 [("Children", TStruct "struct" "" [["at"; "[Children; 7]"]] [] 0 false 0);
                          ("Index", TStruct "struct" "" [["by"; "BTreeMap<u8,Index>"]] [] 0 false 0);
                          ("Step", TStruct "struct" "" [["next"; "Result<u8,Step>"]] [] 0 false 0);
                          ("Nest", TStruct "string" "Vec<Nest>" [] [] 0 false 0)] base_reg with Ok r => r | _ => base_reg end.
Theorem C41_returns_refuted : forall ts, In ts ["Children"; "Index"; "Step"; "Nest"] ->
  (exists cd, plain (reg_env loop_reg) ts cd) /\ forall rt, rt <= 4 -> ~ exists r, Describes (reg_env loop_reg) ts rt r.
Proof.
  assert (G : forall ts c sub, GetCodecClass (reg_env loop_reg) "" ts 0 = Ok (Some (c, sub)) -> exists cd, plain (reg_env loop_reg) ts cd)
    by (intros ts c sub H; exists (init_sub c sub), c, sub; now split).
  assert (N : forall ts, (forall n fuel rt, (fuel <= n)%nat -> rt <= 4 -> getTypeStructString fuel (reg_env loop_reg) ts rt = OutOfFuel) ->
    forall rt, rt <= 4 -> ~ exists r, Describes (reg_env loop_reg) ts rt r).
  { intros ts H rt L (r & NR & f & D). apply NR. rewrite <- D. now apply (H f). }
  set (E := reg_env loop_reg) in *.
  assert (GC : GetCodecClass E "" "Children" 0 = Ok (Some (CStruct (Some [("at", "[Children; 7]")]), ""))) by (vm_compute; reflexivity).
  assert (GC' : GetCodecClass E "" "[Children; 7]" 0 = Ok (Some (CFixedArray 7 "children", ""))) by (vm_compute; reflexivity).
  assert (GD : GetCodecClass E "" "children" 0 = Ok (Some (CStruct (Some [("at", "[Children; 7]")]), ""))) by (vm_compute; reflexivity).
  assert (GI : GetCodecClass E "" "Index" 0 = Ok (Some (CStruct (Some [("by", "BTreeMap<u8,Index>")]), ""))) by (vm_compute; reflexivity).
  assert (GI' : GetCodecClass E "" "BTreeMap<u8,Index>" 0 = Ok (Some (CBTreeMap "", "u8,Index"))) by (vm_compute; reflexivity).
  assert (GS : GetCodecClass E "" "Step" 0 = Ok (Some (CStruct (Some [("next", "Result<u8,Step>")]), ""))) by (vm_compute; reflexivity).
  assert (GS' : GetCodecClass E "" "Result<u8,Step>" 0 = Ok (Some (CResult "", "u8,Step"))) by (vm_compute; reflexivity).
  assert (GN : GetCodecClass E "" "Nest" 0 = Ok (Some (CVec "Nest", ""))) by (vm_compute; reflexivity).
  assert (GU : GetCodecClass E "" "u8" 0 = Ok (Some (CU8, ""))) by (vm_compute; reflexivity).
  assert (U : forall f rt, getTypeStructString (S f) E "u8" rt = Ok "U8") by (intros f rt; cbn [getTypeStructString]; rewrite GU; reflexivity).
  assert (D : forall f rt, getTypeStructString f E "children" rt = getTypeStructString f E "Children" rt) by (intros [|f] rt; cbn [getTypeStructString]; [|rewrite GD, GC]; reflexivity).
  assert (L : forall rt, rt <= 4 -> (limitRecursiveTime <? rt + 1) = false) by (intros rt H; unfold limitRecursiveTime; apply Z.ltb_ge; lia).
  intros ts [<-|[<-|[<-|[<-|[]]]]]; (split; [eapply G; eassumption|]); apply N; clear N G;
    (induction n as [|n IH]; intros fuel rt Hf Hr; [assert (fuel = O) by lia; now subst|]; destruct fuel as [|f]; [reflexivity|]; cbn [getTypeStructString]).
  - rewrite GC. cbn [bind init_sub codec_string struct_string]. unfold struct_string. rewrite (L rt Hr). cbn [map concat_sep snd]. destruct f as [|f]; [reflexivity|].
    cbn [getTypeStructString]. rewrite GC'. cbn [bind init_sub codec_string]. rewrite D, (IH f 0) by lia. reflexivity.
  - rewrite GI. cbn [bind init_sub codec_string struct_string]. unfold struct_string. rewrite (L rt Hr). cbn [map concat_sep snd]. destruct f as [|f]; [reflexivity|].
    cbn [getTypeStructString]. rewrite GI'. cbn [bind init_sub codec_string]. change (pick_sub "" "u8,Index") with "u8,Index". unfold pair_string.
    change (split_char "," "u8,Index") with ["u8"; "Index"]. cbv iota. destruct f as [|f]; [reflexivity|]. rewrite U. cbn [bind]. rewrite (IH (S f) 0) by lia. reflexivity.
  - rewrite GS. cbn [bind init_sub codec_string struct_string]. unfold struct_string. rewrite (L rt Hr). cbn [map concat_sep snd]. destruct f as [|f]; [reflexivity|].
    cbn [getTypeStructString]. rewrite GS'. cbn [bind init_sub codec_string]. change (pick_sub "" "u8,Step") with "u8,Step". unfold pair_string.
    change (split_char "," "u8,Step") with ["u8"; "Step"]. cbv iota. destruct f as [|f]; [reflexivity|]. rewrite U. cbn [bind]. rewrite (IH (S f) 0) by lia. reflexivity.
  - rewrite GN. cbn [bind init_sub]. change (String.eqb "Nest" "") with false. cbv iota. cbn [codec_string]. rewrite (IH f rt) by lia. reflexivity.
Qed.

Print Assumptions C41_returns_partial.
Print Assumptions C41_returns_refuted.
