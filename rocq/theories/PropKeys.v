(** The keys of a decoded BTreeMap.  C90. *)

From Coq Require Import Permutation.
From Verif Require Import GoBase SpecNum ProofsBase ModelTools ProofsTools ModelVal ModelJson ProofsJson ModelRegistry ModelDecode ModelEncode ModelBox ModelKey
  ProofsRun SpecScale ProofsReads ProofsForms ProofsScale ProofsEncode ProofsApi PropInts PropCodec ProofsBox.

(** ** JSON texts can be read back *)
(** Numbers that are not negative, and no floats. *)
Inductive plain_json : json -> Prop :=
| pj_null : plain_json JNull
| pj_bool b : plain_json (JBool b)
| pj_int z : 0 <= z -> plain_json (JInt z)
| pj_str s : plain_json (JStr s)
| pj_arr l : Forall plain_json l -> plain_json (JArr l)
| pj_obj m : Forall (fun p => plain_json (snd p)) m -> plain_json (JObj m).
Section JsonInd.
Variable P : json -> Prop.
Hypothesis (H0 : P JNull) (H1 : forall b, P (JBool b)) (H2 : forall z, P (JInt z)) (H3 : forall w, P (JFloat w)) (H4 : forall c e, P (JDec c e)) (H5 : forall s, P (JStr s)).
Hypothesis (H6 : forall l, Forall P l -> P (JArr l)) (H7 : forall m, Forall (fun p => P (snd p)) m -> P (JObj m)).
Fixpoint json_rec2 (j : json) : P j :=
  match j with
  | JNull => H0 | JBool b => H1 b | JInt z => H2 z | JFloat w => H3 w | JDec c e => H4 c e | JStr s => H5 s
  | JArr l => H6 l ((fix go (l : list json) : Forall P l := match l with [] => Forall_nil _ | x :: r => Forall_cons _ (json_rec2 x) (go r) end) l)
  | JObj m => H7 m ((fix go (m : list (string * json)) : Forall (fun p => P (snd p)) m := match m with [] => Forall_nil _ | p :: r => Forall_cons p (json_rec2 (snd p)) (go r) end) m)
  end.
End JsonInd.

Definition digit (c : ascii) : Prop := 48 <= bZ c <= 57.
Definition stops (r : string) : Prop := match r with EmptyString => True | String c _ => ~ digit c end.
Lemma app_string a b c : ((a ++ b) ++ c)%string = (a ++ (b ++ c))%string.
Proof. induction a as [|x a IH]; [reflexivity|]. cbn. now rewrite IH. Qed.
Lemma digits_stop a : Forall digit (s2b a) -> forall b r1 r2, Forall digit (s2b b) -> stops r1 -> stops r2 -> a ++ r1 = b ++ r2 -> a = b /\ r1 = r2.
Proof.
  induction a as [|x a IH]; intros F b r1 r2 G S1 S2 H.
  - destruct b as [|y b]; [now split|]. cbn [append] in H. subst r1. inversion G; subst. contradiction.
  - inversion F as [|? ? Dx Fa]; subst. destruct b as [|y b]; cbn [append] in H; [subst r2; contradiction|]. injection H as -> H. inversion G as [|? ? Dy Gb]; subst.
    destruct (IH Fa b r1 r2 Gb S1 S2 H) as [-> ->]. now split.
Qed.
Lemma itoa_stop z z' r r' : 0 <= z -> 0 <= z' -> stops r -> stops r' -> itoa z ++ r = itoa z' ++ r' -> z = z' /\ r = r'.
Proof.
  intros Z1 Z2 S1 S2 H. destruct (digits_stop (itoa z) (proj1 (itoa_numeral z Z1)) (itoa z') r r' (proj1 (itoa_numeral z' Z2)) S1 S2 H) as [A ->].
  split; [|reflexivity]. pose proof (dec_of_numeral _ _ (itoa_numeral z Z1)) as D1. pose proof (dec_of_numeral _ _ (itoa_numeral z' Z2)) as D2. rewrite A in D1. congruence.
Qed.
Lemma quote_stop s s' r r' : quote s ++ r = quote s' ++ r' -> s = s' /\ r = r'.
Proof.
  unfold quote. cbn [append]. intros [= H]. rewrite !app_string in H. cbn [append] in H. apply (f_equal parse_str) in H. rewrite !parse_escape in H. now injection H as -> ->.
Qed.
(** Lists of things that can be read back. *)
Section Lists.
Variables (A : Type) (f : A -> string) (ok : A -> Prop) (close : ascii).
Hypothesis NC : close <> ","%char.
Hypothesis ND : ~ digit close.
Hypothesis FIRST : forall a, ok a -> exists x s, f a = String x s /\ x <> close.
Definition back (a : A) : Prop := forall b r1 r2, ok b -> stops r1 -> stops r2 -> f a ++ r1 = f b ++ r2 -> a = b /\ r1 = r2.
Lemma tail_stops l r : stops (tail_text close (map f l) ++ r).
Proof. destruct l as [|a l]; cbn; [exact ND|]. unfold digit. change (bZ ",") with 44. lia. Qed.
Lemma tail_back l1 : Forall back l1 -> forall l2 r1 r2, Forall ok l2 ->
  tail_text close (map f l1) ++ r1 = tail_text close (map f l2) ++ r2 -> l1 = l2 /\ r1 = r2.
Proof.
  induction 1 as [|a l1 B F IH]; intros [|b l2] r1 r2 O H; cbn [map tail_text append] in H.
  - injection H as ->. now split.
  - injection H as H. now destruct NC.
  - injection H as H _. now destruct NC.
  - injection H as H. rewrite !app_string in H. inversion O as [|? ? Ob Ol]; subst.
    destruct (B b _ _ Ob (tail_stops l1 r1) (tail_stops l2 r2) H) as [-> T]. destruct (IH l2 r1 r2 Ol T) as [-> ->]. now split.
Qed.
Lemma list_back op l1 : Forall ok l1 -> Forall back l1 -> forall l2 r1 r2, Forall ok l2 ->
  list_text op close (map f l1) ++ r1 = list_text op close (map f l2) ++ r2 -> l1 = l2 /\ r1 = r2.
Proof.
  intros O1 B [|b l2] r1 r2 O H; destruct l1 as [|a l1]; unfold list_text in H; cbn [map append] in H.
  - injection H as ->. now split.
  - injection H as H. exfalso. inversion O1 as [|? ? Oa _]; subst. destruct (FIRST a Oa) as (x & s & Fa & N). rewrite Fa in H. cbn [append] in H. injection H as H _. contradiction.
  - injection H as H. exfalso. inversion O as [|? ? Ob _]; subst. destruct (FIRST b Ob) as (x & s & Fb & N). rewrite Fb in H. cbn [append] in H. injection H as H _. now destruct N.
  - injection H as H. rewrite !app_string in H. inversion O as [|? ? Ob Ol]; subst. inversion B as [|? ? Ba Bl]; subst.
    destruct (Ba b _ _ Ob (tail_stops l1 r1) (tail_stops l2 r2) H) as [-> T]. destruct (tail_back l1 Bl l2 r1 r2 Ol T) as [-> ->]. now split.
Qed.
End Lists.

(** The first character of a text *)
Lemma render_first j : plain_json j -> exists x s, render j = String x s /\ x <> "]"%char.
Proof.
  intros [|b|z Hz|s|l _|m _]; cbn [render]; try (eexists; eexists; split; [reflexivity|discriminate]).
  - destruct b; eexists; eexists; (split; [reflexivity|discriminate]).
  - destruct (itoa_numeral z Hz) as (D & N & _). destruct (itoa z) as [|x s]; [now destruct N|]. exists x, s. split; [reflexivity|]. cbn in D. inversion D as [|? ? Dx _]; subst.
    intros ->. change (bZ "]") with 93 in Dx. lia.
Qed.
Lemma entry_first (p : string * json) : exists x s, quote (fst p) ++ String ":"%char (render (snd p)) = String x s /\ x <> "}"%char.
Proof. unfold quote. cbn [append]. eexists. eexists. split; [reflexivity|discriminate]. Qed.
Lemma digit_head z r : 0 <= z -> exists x s, itoa z ++ r = String x s /\ digit x.
Proof.
  intros Hz. destruct (itoa_numeral z Hz) as (D & N & _). destruct (itoa z) as [|x s]; [now destruct N|]. exists x, (s ++ r). split; [reflexivity|]. cbn in D. now inversion D.
Qed.
Theorem render_back j1 : plain_json j1 -> back json render plain_json j1.
Proof.
  induction j1 as [|b|z|w|c e|s|l IH|m IH] using json_rec2; intros P1 j2 r1 r2 P2 S1 S2 H; try (now inversion P1).
  all: inversion P1; subst; clear P1; inversion P2; subst; clear P2; cbn [render] in H.
  all: repeat match goal with b : bool |- _ => destruct b end.
  all: repeat match goal with Hz : 0 <= ?z, H : context [itoa ?z ++ ?r] |- _ =>
         lazymatch goal with HH : itoa z ++ r = _ |- _ => fail | HH : _ = itoa z ++ r |- _ => fail | _ => idtac end end.
  all: try (unfold list_text, quote in H; cbn [append] in H; discriminate H).
  all: try (cbn [append] in H; injection H as ->; now split).
  all: try (match goal with Hz : 0 <= ?z, H : itoa ?z ++ ?r = ?t |- _ =>
              lazymatch t with itoa _ ++ _ => fail | _ => idtac end; destruct (digit_head z r Hz) as (x & q & HD & DX); rewrite HD in H; unfold list_text, quote in H; cbn [append] in H;
              injection H as -> _; destruct DX as [DX1 DX2]; vm_compute in DX1, DX2; congruence
            | Hz : 0 <= ?z, H : ?t = itoa ?z ++ ?r |- _ =>
              lazymatch t with itoa _ ++ _ => fail | _ => idtac end; destruct (digit_head z r Hz) as (x & q & HD & DX); rewrite HD in H; unfold list_text, quote in H; cbn [append] in H;
              injection H as <- _; destruct DX as [DX1 DX2]; vm_compute in DX1, DX2; congruence end).
  - destruct (itoa_stop z z0 r1 r2) as [-> ->]; try assumption. now split.
  - destruct (quote_stop _ _ _ _ H) as [-> ->]. now split.
  - assert (B : Forall (back json render plain_json) l).
    { rewrite Forall_forall in *. intros x I. now apply IH; [|match goal with Q : forall x, In x l -> plain_json x |- _ => apply Q end]. }
    assert (X : l = l0 /\ r1 = r2); [|destruct X as [-> ->]; now split].
    eapply (list_back json render plain_json "]"%char); try eassumption; [discriminate|unfold digit; change (bZ "]") with 93; lia|exact render_first].
  - assert (X : m = m0 /\ r1 = r2); [|destruct X as [-> ->]; now split].
    eapply (list_back (string * json) (fun p => quote (fst p) ++ String ":"%char (render (snd p))) (fun p => plain_json (snd p)) "}"%char); try eassumption;
      [discriminate|unfold digit; change (bZ "}") with 125; lia|intros p _; apply entry_first|].
    rewrite Forall_forall in *. intros [k x] I [k' x'] q1 q2 Ok Q1 Q2 HH. cbn [fst snd] in *. rewrite !app_string in HH. destruct (quote_stop _ _ _ _ HH) as [-> HH'].
    cbn [append] in HH'. injection HH' as HH'. match goal with Q : forall x, In x m -> plain_json (snd x) |- _ => pose proof (Q _ I) as PX end. cbn [snd] in PX.
    destruct (IH _ I PX x' q1 q2 Ok Q1 Q2 HH') as [E1 ->]. cbn [snd] in E1. subst. now split.
Qed.
Corollary render_inj j1 j2 : plain_json j1 -> plain_json j2 -> render j1 = render j2 -> j1 = j2.
Proof.
  intros P1 P2 H. assert (H' : render j1 ++ "" = render j2 ++ "") by now rewrite H. now destruct (render_back j1 P1 j2 "" "" P2 I I H').
Qed.

(** ** Values of which JSON loses nothing *)
(** Natural numbers, and texts and field names in UTF-8. *)
Inductive clean : val -> Prop :=
| cl_nil : clean VNil
| cl_bool b : clean (VBool b)
| cl_int v z : In v [VInt z; VU16 z; VU32 z; VU64 z] -> 0 <= z -> clean v
| cl_dec z : 0 <= z -> clean (VDec z 0)
| cl_str s : utf8 (s2b s) -> clean (VStr s)
| cl_none : clean VNilSlice
| cl_slice l : Forall clean l -> clean (VSlice l)
| cl_map m : Forall (fun p => utf8 (s2b (fst p))) m -> Forall (fun p => clean (snd p)) m -> clean (VMap m).
Section CleanInd.
Variable P : val -> Prop.
Hypothesis (H0 : P VNil) (H1 : forall b, P (VBool b)) (H2 : forall v z, In v [VInt z; VU16 z; VU32 z; VU64 z] -> 0 <= z -> P v) (H3 : forall z, 0 <= z -> P (VDec z 0)).
Hypothesis (H4 : forall s, utf8 (s2b s) -> P (VStr s)) (H5 : P VNilSlice) (H6 : forall l, Forall P l -> P (VSlice l)).
Hypothesis H7 : forall m : list (string * val), Forall (fun p => utf8 (s2b (fst p))) m -> Forall (fun p => P (snd p)) m -> P (VMap m).
Fixpoint clean_rec2 (v : val) (H : clean v) {struct H} : P v :=
  match H in clean v return P v with
  | cl_nil => H0 | cl_bool b => H1 b | cl_int v z i Z => H2 v z i Z | cl_dec z Z => H3 z Z | cl_str s U => H4 s U | cl_none => H5
  | cl_slice l F => H6 l ((fix go l (F : Forall clean l) : Forall P l := match F with Forall_nil _ => Forall_nil _ | Forall_cons x a b => Forall_cons x (clean_rec2 x a) (go _ b) end) l F)
  | cl_map m U F => H7 m U ((fix go (m : list (string * val)) (F : Forall (fun p => clean (snd p)) m) : Forall (fun p => P (snd p)) m :=
      match F with Forall_nil _ => Forall_nil _ | Forall_cons p a b => Forall_cons p (clean_rec2 (snd p) a) (go _ b) end) m F)
  end.
End CleanInd.
Definition write_entry (p : string * val) : option (string * json) := match marshal (snd p) with Some j => Some (json_text (fst p), j) | None => None end.
Lemma marshal_map m : marshal (VMap m) = match all_some write_entry m with Some js => Some (JObj js) | None => None end.
Proof. reflexivity. Qed.
Lemma clean_json v : clean v -> exists j, marshal v = Some j /\ plain_json j.
Proof.
  induction 1 as [|b|v z I Hz|z Hz|s U| |l F|m U F] using clean_rec2.
  - exists JNull. split; [reflexivity|constructor].
  - exists (JBool b). split; [reflexivity|constructor].
  - exists (JInt z). split; [destruct I as [<-|[<-|[<-|[<-|[]]]]]; reflexivity|now constructor].
  - eexists. split; [reflexivity|constructor].
  - eexists. split; [reflexivity|constructor].
  - exists JNull. split; [reflexivity|constructor].
  - assert (X : exists js, all_some marshal l = Some js /\ Forall plain_json js).
    { induction F as [|v l (j & M & P) F (js & A & Q)]; [exists []; split; [reflexivity|constructor]|]. exists (j :: js). cbn [all_some]. rewrite M, A. split; [reflexivity|now constructor]. }
    destruct X as (js & A & Q). exists (JArr js). cbn [marshal]. rewrite A. split; [reflexivity|now constructor].
  - assert (X : exists js, all_some write_entry m = Some js /\ Forall (fun p => plain_json (snd p)) js).
    { clear U. induction F as [|[k v] m (j & M & P) F (js & A & Q)]; [exists []; split; [reflexivity|constructor]|]. exists ((json_text k, j) :: js). cbn [all_some]. unfold write_entry at 1. cbn [fst snd] in *.
      rewrite M, A. split; [reflexivity|now constructor]. }
    destruct X as (js & A & Q). exists (JObj js). rewrite marshal_map, A. split; [reflexivity|now constructor].
Qed.
(** Sorting *)
Lemma insert_perm p l : Permutation (insert_entry p l) (p :: l).
Proof. induction l as [|q l IH]; [reflexivity|]. cbn [insert_entry]. destruct (String.leb (fst p) (fst q)); [reflexivity|]. rewrite IH. apply perm_swap. Qed.
Lemma sort_perm l : Permutation (fold_right insert_entry [] l) l.
Proof. induction l as [|p l IH]; [reflexivity|]. cbn [fold_right]. rewrite insert_perm. now constructor. Qed.
Lemma order_plain j : plain_json j -> plain_json (in_order j).
Proof.
  induction j as [|b|z|w|c e|s|l IH|m IH] using json_rec2; intros P; inversion P; subst; cbn [in_order]; try (now constructor).
  - constructor. rewrite Forall_forall in *. intros x I. apply in_map_iff in I. destruct I as (y & <- & I). auto.
  - constructor. rewrite Forall_forall in *. intros x I. apply (Permutation_in _ (sort_perm _)) in I. apply in_map_iff in I. destruct I as (y & <- & I). cbn [snd]. auto.
Qed.

(** ** Values with the same JSON *)
Definition same (g1 g2 : val) : Prop := exists j1 j2, marshal g1 = Some j1 /\ marshal g2 = Some j2 /\ in_order j1 = in_order j2.
Lemma same_str a b : utf8 (s2b a) -> utf8 (s2b b) -> same (VStr a) (VStr b) -> a = b.
Proof. intros U V (j1 & j2 & [= <-] & [= <-] & H). cbn [in_order] in H. injection H as H. now rewrite !json_text_id in H. Qed.
Lemma some_all {A B} (f : A -> option B) l : forall l', all_some f l = Some l' -> Forall2 (fun a b => f a = Some b) l l'.
Proof.
  induction l as [|a l IH]; intros l' H; cbn [all_some] in H; [injection H as <-; constructor|]. destruct (f a) eqn:Fa; [|discriminate]. destruct (all_some f l) eqn:Fl; [|discriminate].
  injection H as <-. constructor; [exact Fa|now apply IH].
Qed.
Lemma same_slice a b : same (slice_of a) (slice_of b) -> Forall2 same a b.
Proof.
  assert (M : forall l j, marshal (slice_of l) = Some j -> (l = [] /\ j = JNull) \/ exists js, j = JArr js /\ js <> [] /\ Forall2 (fun v j => marshal v = Some j) l js).
  { intros [|v l] j H; [left; now injection H as <-|]. right. cbn [slice_of] in H. change (match all_some marshal (v :: l) with Some js => Some (JArr js) | None => None end = Some j) in H.
    destruct (all_some marshal (v :: l)) as [js|] eqn:A; [|discriminate]. injection H as <-. exists js. apply some_all in A. split; [reflexivity|]. split; [intros ->; inversion A|exact A]. }
  intros (j1 & j2 & M1 & M2 & H). apply M in M1, M2. destruct M1 as [[-> ->]|(js1 & -> & N1 & F1)], M2 as [[-> ->]|(js2 & -> & N2 & F2)].
  - constructor.
  - discriminate H.
  - discriminate H.
  - cbn [in_order] in H. injection H as H. clear N1 N2. revert js2 b F2 H. induction F1 as [|v j l js E F IH]; intros [|j' js2] b F2 H; cbn [map] in H; try discriminate H; inversion F2; subst; [constructor|].
    injection H as H1 H2. constructor; [now exists j, j'|now apply IH with js2].
Qed.
Lemma map_back (ns : list string) : forall a b : list json, NoDup ns -> List.length ns = List.length a -> List.length ns = List.length b -> Permutation (combine ns a) (combine ns b) -> a = b.
Proof.
  induction ns as [|n ns IH]; intros [|x a] [|y b] ND L1 L2 P; try discriminate; [reflexivity|]. cbn [combine] in P. inversion ND as [|? ? N1 ND']; subst.
  assert (I : In (n, x) ((n, y) :: combine ns b)) by (apply (Permutation_in _ P); now left).
  destruct I as [[= <-]|I]; [|apply in_combine_l in I; contradiction]. apply Permutation_cons_inv in P. f_equal. apply IH; auto.
Qed.
Lemma combine_entries ns a : Forall (fun n => utf8 (s2b n)) ns -> List.length ns = List.length a -> forall js, all_some write_entry (combine ns a) = Some js ->
  exists l, js = combine ns l /\ List.length ns = List.length l /\ Forall2 (fun v j => marshal v = Some j) a l.
Proof.
  intros U. revert a. induction U as [|n ns Un U IH]; intros [|v a] L js H; try discriminate; cbn [combine all_some] in H; [injection H as <-; exists []; repeat split; constructor|].
  unfold write_entry at 1 in H. cbn [fst snd] in H. destruct (marshal v) as [j|] eqn:M; [|discriminate]. destruct (all_some write_entry (combine ns a)) as [js'|] eqn:A; [|discriminate]. injection H as <-.
  injection L as L. destruct (IH a L js' A) as (l & -> & L' & F). exists (j :: l). rewrite json_text_id by exact Un. cbn [combine List.length]. split; [reflexivity|]. split; [now rewrite L'|now constructor].
Qed.
Lemma map_combine (f : json -> json) (ns : list string) l : map (fun p => (fst p, f (snd p))) (combine ns l) = combine ns (map f l).
Proof. revert l. induction ns as [|n ns IH]; intros [|x l]; try reflexivity. cbn [combine map fst snd]. now rewrite IH. Qed.
Lemma same_map ns a b : NoDup ns -> Forall (fun n => utf8 (s2b n)) ns -> List.length ns = List.length a -> List.length ns = List.length b ->
  same (VMap (combine ns a)) (VMap (combine ns b)) -> Forall2 same a b.
Proof.
  intros ND U L1 L2 (j1 & j2 & M1 & M2 & H). rewrite marshal_map in M1, M2. destruct (all_some write_entry (combine ns a)) as [js1|] eqn:A1; [|discriminate].
  destruct (all_some write_entry (combine ns b)) as [js2|] eqn:A2; [|discriminate]. injection M1 as <-. injection M2 as <-. cbn [in_order] in H. injection H as H.
  destruct (combine_entries ns a U L1 js1 A1) as (l1 & -> & K1 & F1). destruct (combine_entries ns b U L2 js2 A2) as (l2 & -> & K2 & F2). rewrite !map_combine in H.
  assert (Q : map in_order l1 = map in_order l2).
  { apply (map_back ns); try (rewrite map_length; assumption); [exact ND|]. rewrite <- (sort_perm (combine ns (map in_order l1))), H. apply sort_perm. }
  clear - F1 F2 Q. revert l2 b F2 Q. induction F1 as [|v j l js E F IH]; intros [|j' js2] b F2 H; cbn [map] in H; try discriminate H; inversion F2; subst; [constructor|].
  injection H as H1 H2. constructor; [now exists j, j'|now apply IH with js2].
Qed.
Lemma same_entry k k' a b : utf8 (s2b k) -> utf8 (s2b k') -> same (VMap [(k, a)]) (VMap [(k', b)]) -> k = k' /\ same a b.
Proof.
  intros U V (j1 & j2 & M1 & M2 & H). cbn [marshal all_some fst snd] in M1, M2. destruct (marshal a) as [ja|] eqn:A; [|discriminate]. destruct (marshal b) as [jb|] eqn:B; [|discriminate].
  injection M1 as <-. injection M2 as <-. cbn [in_order map fold_right insert_entry fst snd] in H. injection H as H1 H2. rewrite !json_text_id in H1 by assumption. split; [exact H1|]. now exists ja, jb.
Qed.

(** ** At one type, values with the same JSON are the same *)
Section Keys.
Variable E : env.
Lemma clean_slice l : clean (slice_of l) -> Forall clean l.
Proof. destruct l as [|v l]; intros H; [constructor|]. cbn [slice_of] in H. inversion H; subst; [|assumption]. match goal with H : In _ _ |- _ => cbn in H; intuition discriminate end. Qed.
Lemma clean_map m : clean (VMap m) -> Forall (fun p => utf8 (s2b (fst p))) m /\ Forall (fun p => clean (snd p)) m.
Proof. intros H. inversion H; subst; [|now split]. match goal with H : In _ _ |- _ => cbn in H; intuition discriminate end. Qed.
Lemma clean_entry k v : clean (VMap [(k, v)]) -> utf8 (s2b k) /\ clean v.
Proof. intros H. apply clean_map in H. destruct H as [U C]. inversion U; inversion C; subst. now split. Qed.
Lemma clean_str s : clean (VStr s) -> utf8 (s2b s).
Proof. intros H. inversion H; subst; [|assumption]. match goal with H : In _ _ |- _ => cbn in H; intuition discriminate end. Qed.
Lemma clean_combine ns gs : List.length ns = List.length gs -> clean (VMap (combine ns gs)) -> Forall (fun n => utf8 (s2b n)) ns /\ Forall clean gs.
Proof.
  intros L H. apply clean_map in H. destruct H as [U C]. revert gs L U C. induction ns as [|n ns IH]; intros [|g gs] L U C; try discriminate; [split; constructor|].
  cbn [combine] in U, C. inversion U; inversion C; subst. injection L as L. destruct (IH gs L) as [A B]; try assumption. split; constructor; assumption.
Qed.
Lemma scales_length c ts bs gs cs : scales true E c ts bs gs cs -> List.length ts = List.length gs.
Proof. induction 1; cbn; congruence. Qed.
Lemma same_int v w z z' : In v [VInt z; VU16 z; VU32 z; VU64 z] -> In w [VInt z'; VU16 z'; VU32 z'; VU64 z'] -> same v w -> z = z'.
Proof. intros I J (j1 & j2 & M1 & M2 & H). destruct I as [<-|[<-|[<-|[<-|[]]]]]; destruct J as [<-|[<-|[<-|[<-|[]]]]]; injection M1 as <-; injection M2 as <-; injection H as H; exact H. Qed.
Lemma same_dec z z' : 0 <= z -> 0 <= z' -> same (VDec z 0) (VDec z' 0) -> z = z'.
Proof.
  intros A B (j1 & j2 & M1 & M2 & H). injection M1 as <-. injection M2 as <-. cbn [in_order] in H. injection H as H. rewrite !dec_text_int in H.
  apply (f_equal (fun s => s ++ "")) in H. now destruct (itoa_stop z z' "" "" A B I I H).
Qed.
Lemma same_nil g : same VNil g -> clean g -> nil_like g.
Proof.
  intros (j1 & j2 & M1 & M2 & H) C. injection M1 as <-. cbn [in_order] in H. unfold nil_like. destruct C as [|b|v z I _|z _|s _| |l _|m _]; auto.
  - injection M2 as <-. discriminate.
  - destruct I as [<-|[<-|[<-|[<-|[]]]]]; injection M2 as <-; discriminate.
  - injection M2 as <-. discriminate.
  - injection M2 as <-. discriminate.
  - cbn [marshal] in M2. destruct (all_some marshal l); [|discriminate]. injection M2 as <-. discriminate.
  - rewrite marshal_map in M2. destruct (all_some write_entry m); [|discriminate]. injection M2 as <-. discriminate.
Qed.
Lemma same_sym a b : same a b -> same b a.
Proof. intros (j1 & j2 & A & B & H). now exists j2, j1. Qed.
Lemma first_at_same l i k n : first_at l i -> first_at l k -> nth_error l i = Some n -> nth_error l k = Some n -> i = k.
Proof.
  intros F G A B. destruct (Nat.lt_trichotomy i k) as [L|[->|L]]; [|reflexivity|].
  - now destruct (G i n L A).
  - now destruct (F k n L B).
Qed.
Lemma variant_same (tm : typemap) i k n s1 s2 : first_at (map fst tm) (Z.to_nat i) -> first_at (map fst tm) (Z.to_nat k) ->
  nth_error tm (Z.to_nat i) = Some (n, s1) -> nth_error tm (Z.to_nat k) = Some (n, s2) -> s1 = s2.
Proof.
  intros F G A B. assert (Z.to_nat i = Z.to_nat k) as X by (apply (first_at_same (map fst tm) _ _ n F G); rewrite nth_error_map; [rewrite A|rewrite B]; reflexivity).
  rewrite X in A. congruence.
Qed.
Definition text_codec (cd : codec) : bool :=
  match cd with
  | CEmpty | CU128 | CH160 | CH256 | CH512 | CAccountId | CEthereumAddress | CEra | CFixedU8 _ | CBytes | CString | CHexBytes | CEnum None _ => true
  | CFixedArray _ sub => equal_fold sub "u8"
  | CEnum (Some tm) _ => c_like tm
  | _ => false
  end.
Definition is_text (v : val) : bool := match v with VStr _ => true | _ => false end.
Lemma text_at c cd bs g cs : scale_at true E c cd bs g cs -> (forall sub, cd <> COption sub) -> is_text g = text_codec cd.
Proof.
  intros H N. destruct H; try discriminate; try reflexivity; try (now destruct (N sub)); try (now destruct (N "bool")); cbn [text_codec is_text]; try congruence; try (now destruct gs).
  match goal with H : compact_repr ?d ?z = Some _ |- _ => destruct d; try discriminate H; cbn [compact_repr] in H; destruct (_ <? _); try discriminate H; now injection H as <- end.
Qed.

Ltac leaf := match goal with
  | S : same (VStr _) (VStr _), A : clean _, B : clean _ |- _ => apply clean_str in A; apply clean_str in B; f_equal; now apply same_str
  | S : same (VDec _ 0) (VDec _ 0) |- _ => f_equal; apply same_dec; [lia|lia|exact S]
  | S : same (?f ?a) (?f ?b) |- _ => f_equal; apply (same_int (f a) (f b) a b); [cbn; tauto|cbn; tauto|exact S]
  end.
Definition leaf_val (v : val) : Prop := v = VNil \/ exists s, v = VStr s.
Lemma data_same k k' x y : leaf_val x -> leaf_val y -> clean (VMap [(k, x)]) -> clean (VMap [(k', y)]) -> same (VMap [(k, x)]) (VMap [(k', y)]) -> VMap [(k, x)] = VMap [(k', y)].
Proof.
  intros X Y C1 C2 SM. apply clean_entry in C1, C2. destruct C1 as [U1 C1], C2 as [U2 C2]. apply same_entry in SM; [|exact U1|exact U2]. destruct SM as [-> SM]. do 3 f_equal.
  destruct X as [->|[a ->]], Y as [->|[b ->]]; [reflexivity| | |leaf].
  - destruct SM as (j1 & j2 & M1 & M2 & H). injection M1 as <-. injection M2 as <-. discriminate H.
  - destruct SM as (j1 & j2 & M1 & M2 & H). injection M1 as <-. injection M2 as <-. discriminate H.
Qed.
Theorem same_value :
  (forall c ts bs g cs, scale true E c ts bs g cs -> clean g -> forall bs2 g2 cs2, scale true E c ts bs2 g2 cs2 -> clean g2 -> same g g2 -> g = g2)
  /\ (forall c cd bs g cs, scale_at true E c cd bs g cs -> clean g -> forall bs2 g2 cs2, scale_at true E c cd bs2 g2 cs2 -> clean g2 -> same g g2 -> g = g2)
  /\ (forall c ts bs gs cs, scales true E c ts bs gs cs -> Forall clean gs -> forall bs2 gs2 cs2, scales true E c ts bs2 gs2 cs2 -> Forall clean gs2 -> Forall2 same gs gs2 -> gs = gs2).
Proof.
  apply scale_mutind; try (intros; discriminate).
  1:{ intros c ts cd bs g cs R _ _ IH C bs2 g2 cs2 S2 C2 SM. inversion S2 as [? ? cd' ? ? ? R' _ SA]; subst. assert (cd' = cd) as -> by (eapply resolves_fun; eassumption).
      now apply (IH C bs2 g2 cs2). }
  all: try (intros; match goal with H : scale_at true E _ _ _ _ _ |- _ => inversion H; subst; try discriminate; try reflexivity; try leaf end; fail).
  - (* bool *) intros c b C bs2 g2 cs2 S2 C2 (j1 & j2 & M1 & M2 & H). inversion S2; subst. injection M1 as <-. injection M2 as <-. injection H as ->. reflexivity.
  - (* u8 array *) intros c n sub b HU Hn Hr _ C bs2 g2 cs2 S2 C2 SM. inversion S2; subst; [|congruence]. leaf.
  - (* compact *) intros c sub cd z g _ R Hz CR _ C bs2 g2 cs2 S2 C2 SM. inversion S2; subst. match goal with R' : resolves E _ sub ?d, CR' : compact_repr ?d ?y = Some g2 |- _ => lazymatch d with cd => fail | _ => rename R' into Rx, CR' into CRx, d into cd', y into z' end end.
    assert (cd' = cd) as -> by (eapply resolves_fun; [exact Rx|exact R]).
    destruct cd; try discriminate CR; cbn [compact_repr] in CR, CRx; destruct (z <? _); try discriminate CR; destruct (z' <? _); try discriminate CRx; injection CR as <-; injection CRx as <-; leaf.
  - (* None *) intros c sub Hs C bs2 g2 cs2 S2 C2 SM. pose proof (same_nil g2 SM C2) as NL. inversion S2; subst; try reflexivity.
    + match goal with H : true = true -> ~ _ |- _ => destruct (H eq_refl NL) end.
    + destruct NL as [H|[H|[H|H]]]; discriminate H.
  - (* Some *) intros c sub bs g cs Hs Hb _ IH HN C bs2 g2 cs2 S2 C2 SM. inversion S2; subst.
    + destruct (HN eq_refl (same_nil g (same_sym _ _ SM) C)).
    + eapply IH; eassumption.
    + congruence.
  - (* Some bool *) intros c b C bs2 g2 cs2 S2 C2 SM. inversion S2; subst.
    + pose proof (same_nil _ (same_sym _ _ SM) C) as [H|[H|[H|H]]]; discriminate H.
    + congruence.
    + destruct SM as (j1 & j2 & M1 & M2 & H). injection M1 as <-. injection M2 as <-. injection H as ->. reflexivity.
  - (* Vec *) intros c sub n bs gs cs S1 IH Hn C bs2 g2 cs2 S2 C2 SM. inversion S2; subst. match goal with S' : scales true E c (repeat sub ?m) _ ?l _ |- _ => lazymatch m with n => fail | _ => rename S' into Sx, m into n' end end.
    pose proof (same_slice _ _ SM) as F. f_equal. apply clean_slice in C, C2.
    assert (n' = n) as -> by (pose proof (scales_length _ _ _ _ _ S1) as L1; pose proof (scales_length _ _ _ _ _ Sx) as L2; rewrite repeat_length in L1, L2; apply same_length in F; congruence).
    eapply IH; eassumption.
  - (* array *) intros c n sub bs gs cs HU Hn S1 IH C bs2 g2 cs2 S2 C2 SM. inversion S2; subst; [congruence|]. f_equal. apply clean_slice in C, C2. apply same_slice in SM. eapply IH; eassumption.
  - (* struct *) intros c tm bs gs cs S1 IH ND C bs2 g2 cs2 S2 C2 SM. inversion S2; subst. f_equal. f_equal.
    match goal with S' : scales _ _ _ (map snd tm) _ _ _ |- _ => pose proof (scales_length _ _ _ _ _ S') as L2 end. pose proof (scales_length _ _ _ _ _ S1) as L1. rewrite map_length in L1, L2.
    apply clean_combine in C; [|now rewrite map_length]. apply clean_combine in C2; [|now rewrite map_length].
    apply same_map in SM; [|exact ND|exact (proj1 C)|now rewrite map_length|now rewrite map_length]. eapply IH; [exact (proj2 C)|eassumption|exact (proj2 C2)|exact SM].
  - (* names only *) intros c tm vl i name t HC _ _ _ _ _ C bs2 g2 cs2 S2 C2 SM. inversion S2; subst; try congruence. leaf.
  - (* variant *) intros c tm vl i name sub bs g cs HC Hi HN Hs HV S1 IH HF C bs2 g2 cs2 S2 C2 SM. apply clean_entry in C. destruct C as [U C]. inversion S2; subst; try congruence.
    + apply clean_entry in C2. destruct C2 as [U2 C2]. apply same_entry in SM; [|exact U|exact U2]. destruct SM as [-> SM].
      match goal with N : nth_error tm _ = Some (_, ?s') , F : true = true -> first_at _ (Z.to_nat ?k) |- _ => lazymatch k with i => fail | _ => assert (s' = sub) as -> by (eapply variant_same; [exact (F eq_refl)|exact (HF eq_refl)|exact N|exact HN]) end end.
      do 3 f_equal. eapply IH; eassumption.
    + apply clean_entry in C2. destruct C2 as [U2 C2]. apply same_entry in SM; [|exact U|exact U2]. destruct SM as [-> SM].
      match goal with N : nth_error tm _ = Some (_, ?s') , F : true = true -> first_at _ (Z.to_nat ?k) |- _ => lazymatch k with i => fail | _ => assert (s' = sub) as -> by (eapply variant_same; [exact (F eq_refl)|exact (HF eq_refl)|exact N|exact HN]) end end.
      congruence.
  - (* variant with named fields *) intros c tm vl i name sub rows bs gs cs HC Hi HN Hs HV FR ND S1 IH HF C bs2 g2 cs2 S2 C2 SM. apply clean_entry in C. destruct C as [U C]. inversion S2; subst; try congruence.
    + apply clean_entry in C2. destruct C2 as [U2 C2]. apply same_entry in SM; [|exact U|exact U2]. destruct SM as [-> SM].
      match goal with N : nth_error tm _ = Some (_, ?s') , F : true = true -> first_at _ (Z.to_nat ?k) |- _ => lazymatch k with i => fail | _ => assert (s' = sub) as -> by (eapply variant_same; [exact (F eq_refl)|exact (HF eq_refl)|exact N|exact HN]) end end.
      congruence.
    + apply clean_entry in C2. destruct C2 as [U2 C2]. apply same_entry in SM; [|exact U|exact U2]. destruct SM as [-> SM].
      match goal with N : nth_error tm _ = Some (_, ?s') , F : true = true -> first_at _ (Z.to_nat ?k) |- _ => lazymatch k with i => fail | _ => assert (s' = sub) as -> by (eapply variant_same; [exact (F eq_refl)|exact (HF eq_refl)|exact N|exact HN]) end end.
      match goal with R : struct_variant sub = Some ?r |- _ => lazymatch r with rows => fail | _ => rewrite HV in R; injection R as <- end end.
      do 4 f_equal.
      match goal with S' : scales _ _ _ (map row_type rows) _ _ _ |- _ => lazymatch S' with S1 => fail | _ => pose proof (scales_length _ _ _ _ _ S') as L2 end end.
      pose proof (scales_length _ _ _ _ _ S1) as L1. rewrite map_length in L1, L2.
      apply clean_combine in C; [|now rewrite map_length]. apply clean_combine in C2; [|now rewrite map_length]. f_equal.
      apply same_map in SM; [|exact ND|exact (proj1 C)|now rewrite map_length|now rewrite map_length]. eapply IH; [exact (proj2 C)|eassumption|exact (proj2 C2)|exact SM].
  - (* Ok *) intros c sub a e bs g cs HS S1 IH C bs2 g2 cs2 S2 C2 SM. apply clean_entry in C. destruct C as [U C]. inversion S2; subst; apply clean_entry in C2; destruct C2 as [U2 C2];
      (apply same_entry in SM; [|exact U|exact U2]); destruct SM as [K SM]; [|discriminate K].
    match goal with Q : split_char _ sub = [?x; ?y] |- _ => lazymatch x with a => fail | _ => rewrite HS in Q; injection Q as <- <- end end. do 3 f_equal. eapply IH; eassumption.
  - (* Error *) intros c sub a e bs g cs HS S1 IH C bs2 g2 cs2 S2 C2 SM. apply clean_entry in C. destruct C as [U C]. inversion S2; subst; apply clean_entry in C2; destruct C2 as [U2 C2];
      (apply same_entry in SM; [|exact U|exact U2]); destruct SM as [K SM]; [discriminate K|].
    match goal with Q : split_char _ sub = [?x; ?y] |- _ => lazymatch x with a => fail | _ => rewrite HS in Q; injection Q as <- <- end end. do 3 f_equal. eapply IH; eassumption.
  - intros c C bs2 g2 cs2 S2 C2 SM. inversion S2; subst; apply data_same; unfold leaf_val; eauto.
  - intros c b s n _ _ _ _ C bs2 g2 cs2 S2 C2 SM. inversion S2; subst; apply data_same; unfold leaf_val; eauto.
  - intros c i n b _ _ _ _ C bs2 g2 cs2 S2 C2 SM. inversion S2; subst; apply data_same; unfold leaf_val; eauto.
  - intros c _ bs2 gs2 cs2 S2 _ _. now inversion S2.
  - intros c t ts b bs g gs cs1 cs2 _ IH1 _ IH2 C bs2 gs2 cs0 S2 C2 F. inversion S2; subst. inversion C; inversion C2; inversion F; subst. f_equal; [eapply IH1; eassumption|eapply IH2; eassumption].
Qed.
End Keys.

(** ** C90 *)
(** json.Marshal, for all values but floats. *)
Definition writes_json (E : env) : Prop := forall v j, marshal v = Some j -> plain_json j -> e_json E v = render (in_order j).
Lemma key_text E g : writes_json E -> clean g -> is_text g = false -> exists j, marshal g = Some j /\ plain_json (in_order j) /\ ToString E g = render (in_order j).
Proof.
  intros W C T. destruct (clean_json g C) as (j & M & P). exists j. split; [exact M|]. split; [now apply order_plain|]. rewrite <- (W g j M P).
  destruct C; try reflexivity; [|discriminate T]. match goal with H : In _ _ |- _ => destruct H as [<-|[<-|[<-|[<-|[]]]]]; reflexivity end.
Qed.
(** Two keys of one type with different bytes never get the same text, unless
    one of them is shown as a text and the other is not. *)
Theorem C90_key_partial E c ts b1 g1 cs1 b2 g2 cs2 : std_env E -> writes_json E -> x_module c = "" ->
  scale true E c ts b1 g1 cs1 -> scale true E c ts b2 g2 cs2 -> clean g1 -> clean g2 -> is_text g1 = is_text g2 ->
  ToString E g1 = ToString E g2 -> g1 = g2 /\ b1 = b2.
Proof.
  intros STD W M S1 S2 C1 C2 T H.
  assert (G : g1 = g2).
  { destruct (is_text g1) eqn:T1.
    - destruct g1; try discriminate T1. destruct g2; try discriminate T. cbn [ToString] in H. now rewrite H.
    - destruct (key_text E g1 W C1 T1) as (j1 & M1 & P1 & K1). destruct (key_text E g2 W C2 (eq_sym T)) as (j2 & M2 & P2 & K2).
      apply (proj1 (same_value E) c ts b1 g1 cs1 S1 C1 b2 g2 cs2 S2 C2). exists j1, j2. split; [exact M1|]. split; [exact M2|]. apply render_inj; [exact P1|exact P2|congruence]. }
  split; [exact G|]. subst g2. destruct (scale_encodes E STD) as (EN & _). destruct (EN _ _ _ _ _ S1 M) as [f1 A1]. destruct (EN _ _ _ _ _ S2 M) as [f2 A2].
  specialize (A1 (Nat.max f1 f2) (Nat.le_max_l _ _)). specialize (A2 (Nat.max f1 f2) (Nat.le_max_r _ _)). rewrite A1 in A2. injection A2 as A2. now apply hex_encode_inj.
Qed.
(** Only at an Option can that happen. *)
Theorem C90_key E c ts b1 g1 cs1 b2 g2 cs2 : std_env E -> writes_json E -> x_module c = "" -> (forall sub, ~ resolves E c ts (COption sub)) ->
  scale true E c ts b1 g1 cs1 -> scale true E c ts b2 g2 cs2 -> clean g1 -> clean g2 -> ToString E g1 = ToString E g2 -> b1 = b2.
Proof.
  intros STD W M NO S1 S2 C1 C2 H. refine (proj2 (C90_key_partial E c ts b1 g1 cs1 b2 g2 cs2 STD W M S1 S2 C1 C2 _ H)).
  inversion S1 as [? ? cd ? ? ? R1 _ A1]; subst. inversion S2 as [? ? cd' ? ? ? R2 _ A2]; subst. assert (cd' = cd) as -> by (eapply resolves_fun; eassumption).
  assert (N : forall sub, cd <> COption sub) by (intros sub ->; now apply (NO sub)). rewrite (text_at E _ _ _ _ _ A1 N), (text_at E _ _ _ _ _ A2 N). reflexivity.
Qed.
(** So a decoded map with such keys determines the bytes of its keys. *)
Record row := Row { k_bytes : bytes; k_val : val; v_bytes : bytes; v_val : val }.
Definition rows_ok (E : env) (c : ctx) (tk tv : string) (l : list row) : Prop :=
  Forall (fun r => (exists cs, scale true E c tk (k_bytes r) (k_val r) cs) /\ clean (k_val r) /\ exists cs, scale false E c tv (v_bytes r) (v_val r) cs) l.
Definition rows_bytes (l : list row) : bytes := (compact (Z.of_nat (List.length l)) ++ List.concat (map (fun r => k_bytes r ++ v_bytes r) l))%list.
Definition rows_val (E : env) (l : list row) : val := slice_of (map (fun r => VMap [(ToString E (k_val r), v_val r)]) l).
Lemma rows_scales E c tk tv l : rows_ok E c tk tv l ->
  exists cs gs, scales false E c (List.concat (repeat [tk; tv] (List.length l))) (List.concat (map (fun r => k_bytes r ++ v_bytes r)%list l)) gs cs
    /\ entries E gs (map (fun r => VMap [(ToString E (k_val r), v_val r)]) l).
Proof.
  induction 1 as [|r l ((cs1 & K) & _ & (cs2 & V)) _ (cs & gs & S & N)]; [exists [], []; split; constructor|].
  exists (cs1 ++ (cs2 ++ cs))%list, (k_val r :: v_val r :: gs). cbn [List.length repeat List.concat map app]. split; [|now constructor]. rewrite <- app_assoc.
  constructor; [apply (proj1 (scale_relax E)), K|]. now constructor.
Qed.
Theorem C90_map E c ts sub tk tv : std_env E -> writes_json E -> x_module c = "" -> resolves E c ts (CBTreeMap sub) -> split_char ","%char sub = [tk; tv] ->
  (forall s, ~ resolves E c tk (COption s)) -> forall l1 l2, rows_ok E c tk tv l1 -> rows_ok E c tk tv l2 ->
  (forall l, l = l1 \/ l = l2 -> Z.of_nat (List.length l) <= 1000 -> blen (rows_bytes l) < 2 ^ 63 -> exists cs, Decodes E c (rows_bytes l) 0 ts (Ok (rows_val E l, blen (rows_bytes l), cs)))
  /\ (rows_val E l1 = rows_val E l2 -> map k_bytes l1 = map k_bytes l2).
Proof.
  intros STD W M R SP NO l1 l2 O1 O2. split.
  - intros l L N B. assert (O : rows_ok E c tk tv l) by (destruct L as [->| ->]; assumption). destruct (rows_scales E c tk tv l O) as (cs & gs & S & EN).
    assert (SC : scale false E c ts (rows_bytes l) (rows_val E l) cs) by (econstructor; [exact R|discriminate|]; eapply sc_map; eauto).
    exists cs. pose proof (C15_decode E _ ts _ _ cs [] [] STD SC) as D. cbn [app] in D. rewrite app_nil_r in D. exact (D B).
  - intros H. assert (X : map (fun r => VMap [(ToString E (k_val r), v_val r)]) l1 = map (fun r => VMap [(ToString E (k_val r), v_val r)]) l2).
    { unfold rows_val in H. destruct l1, l2; cbn [map slice_of] in H |- *; congruence. }
    clear H. revert l2 O2 X. induction O1 as [|r l1 ((cs1 & K1) & C1 & _) _ IH]; intros [|r2 l2] O2 X; try discriminate X; [reflexivity|].
    cbn [map] in X |- *. injection X as X1 _ X2. inversion O2 as [|? ? ((cs2 & K2) & C2 & _) O2']; subst. f_equal; [eapply (C90_key E c tk); eassumption|now apply IH].
Qed.

(** A map from structs, the fields of which are not in order, to numbers. *)
Definition key_env : env := Env [("btreemap", CBTreeMap ""); ("bytes", CBytes); ("u8", CU8); ("u32", CU32); ("null", CNull); ("option", COption ""); ("compact<u32>", CCompactU32);
  ("pair", CStruct (Some [("who", "Bytes"); ("at", "u8")]))] [] json_key (fun b => b) json_box.
Definition key_ctx : ctx := Ctx 5 "" None.
Definition key_rows : list row :=
  [Row (map Zb [8; 104; 34; 7]) (VMap [("who", VStr "h"""); ("at", VInt 7)]) (map Zb [1; 0; 0; 0]) (VU32 1); Row (map Zb [4; 0; 7]) (VMap [("who", VStr "0x00"); ("at", VInt 7)]) (map Zb [2; 0; 0; 0]) (VU32 2)].
Lemma key_std : std_env key_env.
Proof. intros k cd I. cbn [In] in I. destruct I as [[= <- <-]|[[= <- <-]|[[= <- <-]|[]]]]; now split. Qed.
Example C90_example : std_env key_env /\ writes_json key_env /\ resolves key_env key_ctx "BTreeMap<Pair,u32>" (CBTreeMap "Pair,u32") /\ split_char ","%char "Pair,u32" = ["Pair"; "u32"]
  /\ (forall s, ~ resolves key_env key_ctx "Pair" (COption s)) /\ rows_ok key_env key_ctx "Pair" "u32" key_rows
  /\ rows_val key_env key_rows = VSlice [VMap [("{""at"":7,""who"":""h\""""}", VU32 1)]; VMap [("{""at"":7,""who"":""0x00""}", VU32 2)]].
Proof.
  split; [exact key_std|]. split; [intros v j M _; cbn [key_env e_json]; unfold json_key; now rewrite M|]. split; [exists (CBTreeMap ""), "Pair,u32"; split; vm_compute; reflexivity|]. split; [reflexivity|].
  split; [|split].
  - intros s H. assert (R : resolves key_env key_ctx "Pair" (CStruct (Some [("who", "Bytes"); ("at", "u8")]))) by (eexists; exists ""; split; vm_compute; reflexivity).
    pose proof (resolves_fun _ _ _ _ _ H R). discriminate.
  - assert (P : forall b z, Z.of_nat (List.length b) < 2 ^ 30 -> ~ looks_hex b -> 0 <= z < 2 ^ 8 ->
      scale true key_env key_ctx "Pair" ((len_of b ++ b) ++ le_bytes 1 z ++ [])%list (VMap [("who", VStr (text_of b)); ("at", VInt z)]) []).
    { intros b z L N Hz. econstructor; [exists (CStruct (Some [("who", "Bytes"); ("at", "u8")])), ""; split; vm_compute; reflexivity|discriminate|].
      apply (sc_struct true key_env key_ctx [("who", "Bytes"); ("at", "u8")] _ [VStr (text_of b); VInt z] []); [|repeat constructor; cbn; intuition discriminate].
      cbn [map snd]. change (@nil string) with (@nil string ++ (@nil string ++ @nil string))%list. constructor; [|constructor; [|constructor]].
      - econstructor; [exists CBytes, ""; split; vm_compute; reflexivity|discriminate|]. constructor; [lia|now split].
      - econstructor; [exists CU8, ""; split; vm_compute; reflexivity|discriminate|]. now constructor. }
    assert (U : forall z, 0 <= z < 2 ^ 32 -> scale false key_env key_ctx "u32" (le_bytes 4 z) (VU32 z) []).
    { intros z Hz. econstructor; [exists CU32, ""; split; vm_compute; reflexivity|discriminate|]. now constructor. }
    assert (C : forall s z, utf8 (s2b s) -> 0 <= z -> clean (VMap [("who", VStr s); ("at", VInt z)])).
    { intros s z Us Hz. constructor; [repeat constructor; cbn [fst]; apply ascii_utf8; repeat constructor; vm_compute; reflexivity|].
      constructor; [now constructor|]. constructor; [|constructor]. apply (cl_int _ z); [now left|exact Hz]. }
    constructor; [|constructor; [|constructor]]; cbn [k_bytes k_val v_bytes v_val]; (split; [exists []|split; [|exists []]]).
    + apply (P (map Zb [104; 34]) 7); [vm_compute; reflexivity|intros [_ Q]; discriminate Q|lia].
    + apply C; [apply ascii_utf8; repeat constructor; vm_compute; reflexivity|lia].
    + apply (U 1). lia.
    + apply (P (map Zb [0]) 7); [vm_compute; reflexivity|intros [Q _]; discriminate Q|lia].
    + apply C; [apply ascii_utf8; repeat constructor; vm_compute; reflexivity|lia].
    + apply (U 2). lia.
  - vm_compute. reflexivity.
Qed.

(** ** Where it is not so *)
(** Nothing and the text "null" *)
Theorem C90_option_refuted : std_env key_env /\ writes_json key_env /\
  Decodes key_env key_ctx (map Zb [8; 0; 1; 1; 16; 110; 117; 108; 108; 2]) 0 "BTreeMap<Option<Bytes>,u8>" (Ok (VSlice [VMap [("null", VInt 1)]; VMap [("null", VInt 2)]], 10, [])).
Proof.
  split; [exact key_std|]. split; [intros v j M _; cbn [key_env e_json]; unfold json_key; now rewrite M|]. split; [discriminate|exists 9%nat; vm_compute; reflexivity].
Qed.
(** A byte that cannot be printed and the text that names it *)
Theorem C90_hex_refuted : std_env key_env /\ writes_json key_env /\
  Decodes key_env key_ctx (map Zb [8; 4; 0; 1; 16; 48; 120; 48; 48; 2]) 0 "BTreeMap<Bytes,u8>" (Ok (VSlice [VMap [("0x00", VInt 1)]; VMap [("0x00", VInt 2)]], 10, [])).
Proof.
  split; [exact key_std|]. split; [intros v j M _; cbn [key_env e_json]; unfold json_key; now rewrite M|]. split; [discriminate|exists 9%nat; vm_compute; reflexivity].
Qed.
Print Assumptions C90_key_partial.
Print Assumptions C90_key.
Print Assumptions C90_map.
Print Assumptions C90_option_refuted.
Print Assumptions C90_hex_refuted.
