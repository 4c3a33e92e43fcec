(** Types of successive runtime versions.  C56.

    Metadata of V14 and later registers every type under its path with the spec
    version of the runtime it comes from (types/scaleInfo.go:272, 288, 333, 433):
    one call of RegCustomTypes with one entry, V14 = true. *)

From Verif Require Import GoBase SpecNum ProofsBase ModelTools ModelVal ModelRegistry ModelDecode ModelEncode ModelRegister ProofsRun SpecScale ProofsReads
  ProofsScale ProofsNames PropRegistry.

(** ** A history of declarations: name, declaration, spec version *)
Definition v14_entry (d : decl) (s : Z) : tstruct :=
  match d with
  | DStruct f => TStruct "struct" "" (rows f) [] 0 true s
  | DEnum v n => TStruct "enum" "" (rows v) n 0 true s
  | DSet n b => TStruct "set" "" [] n b true s
  end.
Fixpoint register_v14 (fuel : nat) (l : list (string * decl * Z)) (r : reg) : res reg :=
  match l with
  | [] => Ok r
  | (n, d, s) :: l' => r' <- RegCustomTypes fuel [(n, v14_entry d s)] r ;; register_v14 fuel l' r'
  end.

(** What metadata declares: structs with fields and enums with variants, whose
    component types are type names (not descriptions). *)
Definition component_ok (t : string) : Prop := t <> "" /\ has_prefix t "Struct(" = false /\ has_prefix t "Enum(" = false
  /\ has_prefix "Struct(" t = false /\ has_prefix "Enum(" t = false.
Definition composite (d : decl) : Prop :=
  match d with
  | DStruct f => f <> [] /\ Forall component_ok (map snd f)
  | DEnum v n => v <> [] /\ n = [] /\ Forall component_ok (map snd v)
  | DSet _ _ => False
  end.

(** ** The declaration in force for a spec version: the first one is the
    default, a later one is for its own version. *)
Fixpoint declared_at (l : list (string * decl * Z)) (n : string) (spec : Z) : option decl :=
  match l with
  | [] => None
  | (n', d, s) :: r => if String.eqb n' n && (s =? spec) then Some d else declared_at r n spec
  end.
Fixpoint of_version (l : list (string * decl * Z)) (n : string) (spec : Z) : option decl :=
  match l with
  | [] => None
  | (n', d, s) :: r =>
      if String.eqb n' n then match declared_at r n spec with Some d' => Some d' | None => Some d end
      else of_version r n spec
  end.

(** ** The registry after a history, as plain and ranged registrations *)
Fixpoint v14_ops (seen : list string) (l : list (string * decl * Z)) : list (key * decl) :=
  match l with
  | [] => []
  | (n, d, s) :: r =>
      if existsb (String.eqb n) seen then (Ranged n s (Some s), d) :: v14_ops seen r else (Plain n, d) :: v14_ops (n :: seen) r
  end.

Lemma v14_plain k d s r : reg_plain k (v14_entry d s) r = Ok (regCustomKey k (decl_codec d) r).
Proof.
  destruct d as [f|v n|n b]; cbn [v14_entry decl_codec]; unfold reg_plain; cbn [t_type t_mapping t_values t_bits]; cbn [String.eqb Ascii.eqb Bool.eqb];
    try rewrite rows_ok; reflexivity.
Qed.
Lemma bind_ok {A B} (x : res A) (f : A -> res B) y : (z <- x ;; f z) = Ok y -> exists z, x = Ok z /\ f z = Ok y.
Proof. destruct x; cbn [bind]; try discriminate. eauto. Qed.

(** The description of a registered composite is never the bare list of the
    types of another one. *)
Lemma description rec rt ts d x : composite d -> codec_string rec rt ts (decl_codec d) = Ok x ->
  (exists y, x = "Struct(" ++ y) \/ (exists y, x = "Enum(" ++ y).
Proof.
  assert (SS : forall name tm, tm <> [] -> struct_string name rec rt tm = Ok x -> exists y, x = name ++ "(" ++ y).
  { intros name tm NE H. unfold struct_string in H. destruct tm as [|p tm]; [contradiction|].
    destruct (limitRecursiveTime <? rt + 1); [injection H as <-; now exists "...)"|]. apply bind_ok in H as (z & _ & H). injection H as <-. now exists (z ++ ")"). }
  destruct d as [f|v n|n b]; cbn [composite decl_codec]; [intros [NE _]|intros (NE & -> & _)|contradiction]; intros H.
  - left. destruct f as [|p f]; [contradiction|]. exact (SS "Struct" (p :: f) NE H).
  - right. destruct v as [|p v]; [contradiction|]. exact (SS "Enum" (p :: v) NE H).
Qed.
Lemma prefix_app_cases a b t u : (a ++ b = t ++ u)%string -> has_prefix a t = true \/ has_prefix t a = true.
Proof.
  revert t u. unfold has_prefix. induction a as [|x a IH]; intros t u; [right; now destruct t|]. destruct t as [|y t]; [left; reflexivity|].
  cbn [String.append]. intros H. injection H as <- H. unfold has_prefix in *. cbn [prefix]. rewrite Ascii.eqb_refl. exact (IH t u H).
Qed.
Lemma types_differ (tm : typemap) y : tm <> [] -> Forall component_ok (map snd tm) ->
  String.concat "" (map snd tm) <> "Struct(" ++ y /\ String.concat "" (map snd tm) <> "Enum(" ++ y.
Proof.
  destruct tm as [|[n t] tm]; [contradiction|]. intros _ F. cbn [map snd] in *. inversion F as [|? ? (NE & P1 & P2 & P3 & P4)]; subst.
  assert (C : exists u, String.concat "" (t :: map snd tm) = t ++ u).
  { cbn [String.concat]. destruct (map snd tm); [exists ""; now rewrite app_nil_r_s|eexists; reflexivity]. }
  destruct C as [u ->]. split; intros Q; symmetry in Q; apply prefix_app_cases in Q as [Q|Q]; congruence.
Qed.

Section History.
Variables (fuel : nat) (r0 : reg).
Hypothesis fresh_special : forall n, assoc (to_lower n) (r_special r0) = None.

(** The state after some operations: the names seen and the registry. *)
Definition state (seen : list string) (ops : list (key * decl)) (r : reg) : Prop :=
  r_types r = r_types (reg_ops ops r0) /\ r_special r = r_special (reg_ops ops r0)
  /\ forall n, (exists t, assoc n (r_v14 r) = Some t) <-> In n seen.

Lemma same_lookup r r' n spec : r_types r = r_types r' -> r_special r = r_special r' -> lookup (reg_env r) "" n spec = lookup (reg_env r') "" n spec.
Proof. intros T S. unfold lookup, specialVersionCodec. cbn [reg_env e_special e_reg]. now rewrite T, S. Qed.
Lemma reg_key_state k d r ops : r_types r = r_types (reg_ops ops r0) -> r_special r = r_special (reg_ops ops r0) -> key_ok k ->
  r_types (regCustomKey (to_lower (key_text k)) (decl_codec d) r) = r_types (reg_ops (ops ++ [(k, d)]) r0)
  /\ r_special (regCustomKey (to_lower (key_text k)) (decl_codec d) r) = r_special (reg_ops (ops ++ [(k, d)]) r0)
  /\ r_v14 (regCustomKey (to_lower (key_text k)) (decl_codec d) r) = r_v14 r.
Proof.
  intros T S K. rewrite reg_ops_app. cbn [reg_ops]. rewrite !reg_key by exact K.
  destruct k; cbn [with_types with_special r_types r_special r_v14]; rewrite ?T, ?S; auto.
Qed.

Definition entry_ok (p : string * decl * Z) : Prop := let '(n, d, s) := p in name_ok n /\ composite d /\ 0 < s < 2 ^ 63.
(** Every name seen has a composite as its plain declaration. *)
Definition based (seen : list string) (ops : list (key * decl)) : Prop :=
  Forall key_ok (map fst ops) /\ (forall n, In n seen -> exists d, last_plain ops n = Some d /\ composite d)
  /\ forall n, first_range ops n 0 = None.

Lemma eq_false r ops seen n d s b : state seen ops r -> based seen ops -> In n seen -> name_ok n -> composite d ->
  EqTypeStringWithTypeStruct fuel r n (v14_entry d s) = Ok b -> b = false.
Proof.
  intros (T & S & V) (K & P & F) I N C H. destruct (P n I) as (d0 & LP & C0).
  assert (L : lookup (reg_env r) "" n 0 = Some (decl_codec d0)).
  { rewrite (same_lookup r (reg_ops ops r0) n 0 T S), lookup_ops by auto. unfold in_force. now rewrite F, LP. }
  unfold EqTypeStringWithTypeStruct in H. apply bind_ok in H as (x & G & H). destruct fuel as [|f]; [discriminate G|]. cbn [getTypeStructString] in G.
  rewrite name_found in G by exact N. rewrite L in G. cbn [option_map bind] in G. rewrite decl_init in G. apply description in G; [|exact C0].
  assert (X : String.eqb x "" = false) by (destruct G as [[y ->]|[y ->]]; reflexivity). rewrite X in H.
  assert (Y : forall tm, tm <> [] -> Forall component_ok (map snd tm) -> (s0 <- mapping_types (rows tm) ;; Ok (String.eqb x s0)) = Ok b -> b = false).
  { intros tm NE FC Q. unfold mapping_types in Q. rewrite rows_ok in Q. cbn [bind] in Q. injection Q as <-. apply String.eqb_neq.
    destruct (types_differ tm "" NE FC) as [_ _]. destruct G as [[y ->]|[y ->]]; intros W; symmetry in W; now apply (types_differ tm y NE FC) in W. }
  destruct d as [f0|v nl|nl bb]; cbn [v14_entry t_type t_mapping t_values t_string composite] in *; [|destruct C as (C1 & -> & C2)|contradiction].
  - change (String.eqb "struct" "struct") with true in H. destruct C as [C1 C2]. exact (Y f0 C1 C2 H).
  - change (String.eqb "enum" "struct") with false in H. change (String.eqb "enum" "enum") with true in H. exact (Y v C1 C2 H).
Qed.

Lemma last_plain_app a b n : last_plain (a ++ b) n = match last_plain b n with Some d => Some d | None => last_plain a n end.
Proof.
  induction a as [|[k d] a IH]; cbn [app last_plain]; [now destruct (last_plain b n)|]. rewrite IH. now destruct (last_plain b n), (last_plain a n).
Qed.
Lemma first_range_app a b n s : first_range (a ++ b) n s = match first_range a n s with Some d => Some d | None => first_range b n s end.
Proof. induction a as [|[k d] a IH]; cbn [app first_range]; [reflexivity|]. destruct (covers k n s); [reflexivity|exact IH]. Qed.

Lemma v14_text n s : key_text (Ranged n s (Some s)) = n ++ "#" ++ itoa s ++ "-" ++ itoa s. Proof. reflexivity. Qed.

Lemma v14_history l : forall seen ops r r', Forall entry_ok l -> state seen ops r -> based seen ops -> register_v14 fuel l r = Ok r' ->
  exists seen', state seen' (ops ++ v14_ops seen l) r' /\ Forall key_ok (map fst (ops ++ v14_ops seen l)).
Proof.
  induction l as [|[[n d] s] l IH]; intros seen ops r r' E ST B H; cbn [register_v14] in H.
  - injection H as <-. cbn [v14_ops]. rewrite app_nil_r. exists seen. split; [exact ST|apply B].
  - inversion E as [|? ? EO]; subst. destruct EO as (N & C & SP). apply bind_ok in H as (r1 & H1 & H). unfold RegCustomTypes in H1. cbn [reg_loop] in H1.
    pose proof ST as (T & S & V). cbn [v14_ops]. apply bind_ok in H1 as (o & VS & H1). unfold v14_step in VS.
    replace (t_v14 (v14_entry d s)) with true in VS by now destruct d. replace (t_spec (v14_entry d s)) with s in VS by now destruct d.
    assert (NS : String.eqb (t_type (v14_entry d s)) "string" = false) by now destruct d.
    destruct (existsb (String.eqb n) seen) eqn:SN.
    + apply existsb_exists in SN as (n' & I & Q). apply String.eqb_eq in Q. subst n'.
      destruct (proj2 (V n) I) as [t At]. rewrite At in VS. replace (s =? 0) with false in VS by lia. apply bind_ok in VS as (b & Q & VS).
      assert (b = false) by (eapply eq_false; eassumption). subst b. injection VS as <-. rewrite NS, v14_plain in H1. cbn [bind] in H1. injection H1 as <-.
      match type of H with context [to_lower ?k] => change k with (key_text (Ranged n s (Some s))) in H end. assert (KO : key_ok (Ranged n s (Some s))) by (split; [exact N|lia]).
      destruct (reg_key_state (Ranged n s (Some s)) d r ops T S KO) as (T' & S' & V').
      edestruct (IH seen (ops ++ [(Ranged n s (Some s), d)])%list) with (4 := H) as (seen' & ST' & K').
      * assumption.
      * split; [exact T'|]. split; [exact S'|]. intros m. rewrite V'. apply V.
      * destruct B as (K & P & F). split; [|split].
        -- rewrite map_app. apply Forall_app. split; [exact K|]. constructor; [exact KO|constructor].
        -- intros m Im. destruct (P m Im) as (dm & LP & Cm). exists dm. rewrite last_plain_app. cbn [last_plain]. auto.
        -- intros m. rewrite first_range_app, F. cbn [first_range covers]. replace ((s <=? 0)) with false by lia. now rewrite andb_false_r.
      * exists seen'. rewrite <- app_assoc in ST', K'. cbn [app] in ST', K'. now split.
    + assert (NI : ~ In n seen).
      { intros I. assert (existsb (String.eqb n) seen = true) by (apply existsb_exists; exists n; split; [exact I|apply String.eqb_refl]). congruence. }
      destruct (assoc n (r_v14 r)) as [t|] eqn:At; [exfalso; apply NI, V; eauto|]. injection VS as <-. rewrite NS, v14_plain in H1. cbn [bind] in H1. injection H1 as <-.
      set (rr := with_v14 (upd n (v14_entry d s)) r) in *.
      assert (KO : key_ok (Plain n)) by exact N.
      destruct (reg_key_state (Plain n) d rr ops T S KO) as (T' & S' & V'). cbn [key_text] in *.
      edestruct (IH (n :: seen) (ops ++ [(Plain n, d)])%list) with (4 := H) as (seen' & ST' & K').
      * assumption.
      * split; [exact T'|]. split; [exact S'|]. intros m. rewrite V'. unfold rr. cbn [with_v14 r_v14]. unfold upd. cbn [assoc In].
        destruct (String.eqb_spec m n) as [->|NE]; [rewrite ?String.eqb_refl; split; eauto|]. 
        rewrite V. split; [auto|]. intros [Q|Q]; [congruence|exact Q].
      * destruct B as (K & P & F). split; [|split].
        -- rewrite map_app. apply Forall_app. split; [exact K|]. constructor; [exact KO|constructor].
        -- intros m Im. rewrite last_plain_app. cbn [last_plain]. destruct (equal_fold n m) eqn:EF; [now exists d|].
           destruct Im as [->|Im]; [rewrite fold_lower, String.eqb_refl in EF; discriminate|]. exact (P m Im).
        -- intros m. now rewrite first_range_app, F.
      * exists seen'. rewrite <- app_assoc in ST', K'. cbn [app] in ST', K'. now split.
Qed.
End History.

(** Names that differ only in letter case are one name of the registry. *)
Definition case_clean (l : list (string * decl * Z)) (n : string) : Prop := Forall (fun p => equal_fold (fst (fst p)) n = true -> fst (fst p) = n) l.

Lemma ranged_at l seen n spec : In n seen -> case_clean l n ->
  first_range (v14_ops seen l) n spec = declared_at l n spec /\ last_plain (v14_ops seen l) n = None.
Proof.
  revert seen. induction l as [|[[n' d] s] l IH]; intros seen I CC; [now split|]. inversion CC as [|? ? Q CC']; subst. cbn [fst] in Q. cbn [v14_ops declared_at].
  destruct (existsb (String.eqb n') seen) eqn:SN.
  - destruct (IH seen I CC') as [IH1 IH2]. cbn [first_range last_plain covers]. rewrite IH1, IH2. split; [|reflexivity].
    destruct (equal_fold n' n) eqn:EF.
    + rewrite (Q eq_refl), String.eqb_refl. cbn [andb]. replace ((s <=? spec) && (spec <=? s)) with (s =? spec) by lia. reflexivity.
    + destruct (String.eqb_spec n' n) as [->|]; [rewrite fold_lower, String.eqb_refl in EF; discriminate|reflexivity].
  - destruct (IH (n' :: seen) (or_intror I) CC') as [IH1 IH2]. cbn [first_range last_plain covers]. rewrite IH1, IH2.
    assert (NE : n' <> n).
    { intros ->. assert (existsb (String.eqb n) seen = true) by (apply existsb_exists; exists n; split; [exact I|apply String.eqb_refl]). congruence. }
    destruct (String.eqb_spec n' n); [contradiction|]. split; [reflexivity|]. destruct (equal_fold n' n) eqn:EF; [|reflexivity]. now specialize (Q eq_refl).
Qed.
Lemma plain_at l seen n spec : ~ In n seen -> case_clean l n -> in_force (v14_ops seen l) n spec = of_version l n spec.
Proof.
  unfold in_force. revert seen. induction l as [|[[n' d] s] l IH]; intros seen NI CC; [reflexivity|]. inversion CC as [|? ? Q CC']; subst. cbn [fst] in Q. cbn [v14_ops of_version].
  assert (X : String.eqb n' n = equal_fold n' n).
  { destruct (equal_fold n' n) eqn:EF; [rewrite (Q eq_refl); apply String.eqb_refl|]. apply String.eqb_neq. intros ->. rewrite fold_lower, String.eqb_refl in EF. discriminate. }
  destruct (existsb (String.eqb n') seen) eqn:SN.
  - assert (NE : n' <> n). { intros ->. apply existsb_exists in SN as (m & I & W). apply String.eqb_eq in W. subst m. contradiction. }
    apply String.eqb_neq in NE. rewrite NE in X |- *. cbn [first_range last_plain covers]. rewrite <- X. cbn [andb]. specialize (IH seen NI CC').
    destruct (first_range (v14_ops seen l) n spec); [exact IH|]. now destruct (last_plain (v14_ops seen l) n).
  - cbn [first_range last_plain covers]. destruct (String.eqb_spec n' n) as [->|NE].
    + destruct (ranged_at l (n :: seen) n spec (or_introl eq_refl) CC') as [-> ->]. rewrite <- X. reflexivity.
    + assert (NI' : ~ In n (n' :: seen)) by (intros [W|W]; [congruence|contradiction]). specialize (IH (n' :: seen) NI' CC'). rewrite <- X.
      destruct (first_range (v14_ops (n' :: seen) l) n spec); [exact IH|]. now destruct (last_plain (v14_ops (n' :: seen) l) n).
Qed.

(** ** C56.  After any history of metadata of successive runtime versions that
    registers without a panic, a name stands for what [of_version] says. *)
Theorem C56_history fuel l r r' c n d : (forall m, assoc m (r_special r) = None) -> r_v14 r = [] -> Forall entry_ok l -> case_clean l n -> name_ok n ->
  x_module c = "" -> register_v14 fuel l r = Ok r' -> of_version l n (x_spec c) = Some d -> resolves (reg_env r') c n (decl_codec d).
Proof.
  intros FS FV E CC N M H O.
  destruct (v14_history fuel r (fun n => FS (to_lower n)) l [] [] r r' E) as (seen' & (T & S & _) & K); [| |exact H|].
  - split; [reflexivity|]. split; [reflexivity|]. intros m. rewrite FV. split; [intros [t [=]]|intros []].
  - split; [constructor|]. split; [intros m []|reflexivity].
  - cbn [app] in *. apply name_resolves; [exact N|]. rewrite M, (same_lookup _ _ n (x_spec c) T S), lookup_ops by (assumption || apply FS).
    rewrite (plain_at l [] n (x_spec c) (fun x => x) CC), O. cbn [option_map]. now rewrite decl_init.
Qed.
(** In particular each runtime version sees its own declarations: those of its
    metadata are in force for its blocks, whatever was registered before or
    after by other versions. *)
Lemma declared_once l : forall n d s, In (n, d, s) l -> (forall d', In (n, d', s) l -> d' = d) -> declared_at l n s = Some d.
Proof.
  induction l as [|[[n' d'] s'] l IH]; intros n d s I U; [contradiction|]. cbn [declared_at].
  destruct (String.eqb_spec n' n) as [->|NE]; cbn [andb].
  - destruct (Z.eqb_spec s' s) as [->|NS]; [f_equal; apply U; now left|]. apply IH; [destruct I as [[= ]|I]; [congruence|exact I]|]. intros x X. apply U. now right.
  - apply IH; [destruct I as [[= ]|I]; [congruence|exact I]|]. intros x X. apply U. now right.
Qed.
Lemma own_version l n d s : In (n, d, s) l -> (forall d', In (n, d', s) l -> d' = d) -> of_version l n s = Some d.
Proof.
  induction l as [|[[n' d'] s'] l IH]; intros I U; [contradiction|]. cbn [of_version].
  assert (U' : forall x, In (n, x, s) l -> x = d) by (intros x X; apply U; now right).
  destruct (String.eqb_spec n' n) as [->|NE].
  - destruct (declared_at l n s) as [x|] eqn:D.
    + f_equal. assert (I' : In (n, x, s) l).
      { clear - D. induction l as [|[[a b] c] l IH]; [discriminate|]. cbn [declared_at] in D.
        destruct (String.eqb_spec a n) as [->|]; cbn [andb] in D; [destruct (Z.eqb_spec c s) as [->|]; [injection D as ->; now left|right; auto]|right; auto]. }
      now apply U'.
    + destruct I as [[= <- <-]|I]; [reflexivity|]. rewrite (declared_once l n d s I U') in D. discriminate.
  - destruct I as [[= ]|I]; [congruence|]. now apply IH.
Qed.
Theorem C56_own_version_partial fuel l r r' c n d : (forall m, assoc m (r_special r) = None) -> r_v14 r = [] -> Forall entry_ok l -> case_clean l n ->
  x_module c = "" -> register_v14 fuel l r = Ok r' -> In (n, d, x_spec c) l -> (forall d', In (n, d', x_spec c) l -> d' = d) ->
  resolves (reg_env r') c n (decl_codec d).
Proof.
  intros FS FV E CC M H I U. eapply C56_history; try eassumption; [|now apply own_version].
  rewrite Forall_forall in E. now destruct (E _ I).
Qed.
(** Spec version 0 stands for "unknown" and never replaces a type. *)
Theorem C56_spec0 fuel d n t r : assoc n (r_v14 r) = Some t -> RegCustomTypes fuel [(n, v14_entry d 0)] r = Ok r.
Proof.
  intros A. unfold RegCustomTypes. cbn [reg_loop]. unfold v14_step. replace (t_v14 (v14_entry d 0)) with true by now destruct d.
  rewrite A. replace (t_spec (v14_entry d 0)) with 0 by now destruct d. reflexivity.
Qed.
Example C56_case : let l := [("pallet:Info", DStruct [("a", "u8"); ("b", "u16")], 9); ("pallet:Kind", DEnum [("X", "u8"); ("Y", "NULL")] [], 9);
                             ("pallet:Info", DStruct [("a", "u32")], 10); ("pallet:Info", DStruct [("c", "u64")], 12)] in
  Forall entry_ok l /\ case_clean l "pallet:Info"
  /\ (exists r', register_v14 9 l base_reg = Ok r' /\ lookup (reg_env r') "" "pallet:Info" 10 = Some (CStruct (Some [("a", "u32")]))
        /\ lookup (reg_env r') "" "pallet:Info" 11 = Some (CStruct (Some [("a", "u8"); ("b", "u16")])))
  /\ of_version l "pallet:Info" 12 = Some (DStruct [("c", "u64")]).
Proof.
  cbv zeta. assert (N : name_ok "pallet:Info" /\ name_ok "pallet:Kind").
  { unfold name_ok. repeat split; try discriminate; cbn [s2b list_ascii_of_string]; repeat (constructor; [unfold name_char; vm_compute; intuition congruence|]); constructor. }
  destruct N as [N1 N2].
  assert (CO : forall t, In t ["u8"; "u16"; "u32"; "u64"; "NULL"] -> component_ok t).
  { intros t I. cbn [In] in I. repeat destruct I as [<-|I]; try contradiction; (split; [discriminate|]); repeat split; reflexivity. }
  split; [|split; [|split]].
  - repeat (constructor; [split; [assumption|]; split; [|lia]; cbn [composite map snd]; split; [discriminate|]; try (split; [reflexivity|]); repeat (constructor; [apply CO; cbn [In]; tauto|]); constructor|]). constructor.
  - repeat (constructor; [cbn [fst]; first [intros _; reflexivity|vm_compute; discriminate]|]). constructor.
  - eexists. split; [vm_compute; reflexivity|]. split; vm_compute; reflexivity.
  - reflexivity.
Qed.
(** The comparison that decides whether a type has changed looks at the
    description only.  A wrapper (type of one field, registered as an alias)
    whose target now is a struct with other field names is kept as it was. *)
Definition alias_v14 (t : string) (s : Z) : tstruct := TStruct "string" t [] [] 0 true s.
Theorem C56_alias_refuted :
  match RegCustomTypes 9 [("A", decl_entry (DStruct [("old", "u8"); ("x", "u8")]))] base_reg with
  | Ok r1 => match RegCustomTypes 9 [("B", decl_entry (DStruct [("new", "u8"); ("x", "u8")]))] r1 with
    | Ok r2 => match RegCustomTypes 9 [("wrap", alias_v14 "A" 1)] r2 with
      | Ok r3 => match RegCustomTypes 9 [("wrap", alias_v14 "B" 2)] r3 with
        | Ok r4 => lookup (reg_env r4) "" "B" 2 = Some (CStruct (Some [("new", "u8"); ("x", "u8")]))
                   /\ lookup (reg_env r4) "" "wrap" 2 = Some (CStruct (Some [("old", "u8"); ("x", "u8")]))
        | _ => False end
      | _ => False end
    | _ => False end
  | _ => False
  end.
Proof. vm_compute. auto. Qed.
(** Meeting a known, unchanged type ends the whole call: what follows in the
    same map is not registered. *)
Theorem C56_return_refuted :
  match RegCustomTypes 9 [("A", alias_v14 "u8" 1)] base_reg with
  | Ok r1 => match RegCustomTypes 9 [("A", alias_v14 "u8" 2); ("C", decl_entry (DStruct [("x", "u8")]))] r1,
                   RegCustomTypes 9 [("C", decl_entry (DStruct [("x", "u8")])); ("A", alias_v14 "u8" 2)] r1 with
    | Ok r2, Ok r3 => lookup (reg_env r2) "" "C" 2 = None /\ lookup (reg_env r3) "" "C" 2 = Some (CStruct (Some [("x", "u8")]))
    | _, _ => False
    end
  | _ => False
  end.
Proof. vm_compute. auto. Qed.

Print Assumptions C56_history.
Print Assumptions C56_own_version_partial.
Print Assumptions C56_spec0.
Print Assumptions C56_alias_refuted.
Print Assumptions C56_return_refuted.
