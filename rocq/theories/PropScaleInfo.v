(** Enums of runtime metadata V14: which variant a first byte selects.  C34. *)

From Coq Require Import Sorting.Sorted Sorting.Permutation.
From Verif Require Import GoBase SpecNum ProofsBase ModelTools ProofsTools ModelVal ModelJson ProofsJson ModelRegistry ModelDecode ModelRegister ModelScaleInfo
  ProofsRun SpecScale ProofsReads ProofsScale ProofsApi ProofsNames PropForms PropRegistry.

(** ** The claim's own notions *)
(** The variant a metadata declaration gives index [i]. *)
Definition declared (vs : list sivariant) (i : Z) : option sivariant := find (fun v => v_index v =? i) vs.
Definition well_indexed (vs : list sivariant) : Prop := NoDup (map v_index vs) /\ Forall (fun v => 0 <= v_index v < 256) vs.
(** Some variant carries data. *)
Definition carries (vs : list sivariant) : bool := existsb (fun v => match v_fields v with [] => false | _ => true end) vs.
(** The fields of a variant with the names under which their types are known. *)
Fixpoint named (k : Z) (fs : list sifield) (ns : list string) : list (string * string) :=
  match fs, ns with
  | f :: fs', n :: ns' => ((if String.eqb (f_name f) "" then "col" ++ itoa k else f_name f), ConvertType n) :: named (k + 1) fs' ns'
  | _, _ => []
  end.
(** Decoding fields one after the other. *)
Inductive fields_at (E : env) (c : ctx) (data : bytes) : Z -> list (string * string) -> list (string * val) -> Z -> list string -> Prop :=
| fa_nil off : fields_at E c data off [] [] off []
| fa_cons off n t r v off1 cs1 fs off2 cs2 : Decodes E c data off t (Ok (v, off1, cs1)) -> fields_at E c data off1 r fs off2 cs2 ->
    fields_at E c data off ((n, t) :: r) ((n, v) :: fs) off2 (cs1 ++ cs2).

(** ** Sorting *)
Lemma insert_perm v l : Permutation (insert_variant v l) (v :: l).
Proof.
  induction l as [|w l IH]; [reflexivity|]. cbn [insert_variant]. destruct (v_index v <=? v_index w); [reflexivity|].
  rewrite IH. constructor.
Qed.
Lemma sort_perm l : Permutation (sort_variants l) l.
Proof. induction l as [|v l IH]; [reflexivity|]. cbn [sort_variants]. rewrite insert_perm. now constructor. Qed.
Definition vle (v w : sivariant) : Prop := v_index v <= v_index w.
Lemma insert_sorted v l : StronglySorted vle l -> StronglySorted vle (insert_variant v l).
Proof.
  induction 1 as [|w l S IH F]; cbn [insert_variant]; [repeat constructor|].
  destruct (Z.leb_spec (v_index v) (v_index w)).
  - constructor; [now constructor|]. constructor; [exact H|]. rewrite Forall_forall in *. intros x Hx. specialize (F x Hx). unfold vle in *. lia.
  - constructor; [exact IH|]. rewrite Forall_forall in *. intros x Hx. apply (Permutation_in _ (insert_perm v l)) in Hx.
    destruct Hx as [<-|Hx]; [unfold vle; lia|now apply F].
Qed.
Lemma sort_sorted l : StronglySorted vle (sort_variants l).
Proof. induction l as [|v l IH]; [constructor|]. cbn [sort_variants]. now apply insert_sorted. Qed.
Definition vlt (v w : sivariant) : Prop := v_index v < v_index w.
Lemma sort_strict l : NoDup (map v_index l) -> StronglySorted vlt (sort_variants l).
Proof.
  intros N. assert (N' : NoDup (map v_index (sort_variants l))).
  { eapply Permutation_NoDup; [|exact N]. symmetry. apply Permutation_map, sort_perm. }
  pose proof (sort_sorted l) as S. induction S as [|w m S IH F]; [constructor|]. cbn [map] in N'. inversion N'; subst.
  constructor; [now apply IH|]. rewrite Forall_forall in *. intros x Hx. specialize (F x Hx). unfold vle, vlt in *.
  assert (v_index w <> v_index x) by (intros Q; apply H1; rewrite Q; now apply in_map). lia.
Qed.
Lemma find_perm vs ws i : NoDup (map v_index vs) -> Permutation vs ws -> declared vs i = declared ws i.
Proof.
  intros N P. unfold declared. destruct (find (fun v => v_index v =? i) vs) as [v|] eqn:F.
  - destruct (find_some _ _ F) as [I Q]. apply Z.eqb_eq in Q. destruct (find (fun v => v_index v =? i) ws) as [w|] eqn:G.
    + destruct (find_some _ _ G) as [I' Q']. apply Z.eqb_eq in Q'. f_equal.
      apply (Permutation_in _ (Permutation_sym P)) in I'.
      clear - N I I' Q Q'. induction vs as [|x vs IH]; [contradiction|]. cbn [map] in N. inversion N; subst.
      destruct I as [->|I], I' as [->|I']; [reflexivity| | |now apply IH].
      * exfalso. apply H1. rewrite <- Q'. now apply in_map.
      * exfalso. apply H1. rewrite Q'. now apply in_map.
    + exfalso. apply (Permutation_in _ P) in I. apply (find_none _ _ G) in I. rewrite Q in I. now rewrite Z.eqb_refl in I.
  - destruct (find (fun v => v_index v =? i) ws) as [w|] eqn:G; [|reflexivity]. exfalso.
    destruct (find_some _ _ G) as [I' Q']. apply (Permutation_in _ (Permutation_sym P)) in I'. apply (find_none _ _ F) in I'. congruence.
Qed.

(** ** The table that expandEnum builds *)
Definition base (prev : option Z) : Z := match prev with None => 0 | Some p => p + 1 end.
Definition vts_at (vts : list (sivariant * string)) (i : Z) := find (fun p => v_index (fst p) =? i) vts.
Lemma rows_at vts : forall prev i, StronglySorted vlt (map fst vts) -> Forall (fun v => base prev <= v_index v) (map fst vts) -> base prev <= i ->
  nth_error (enum_rows prev vts) (Z.to_nat (i - base prev)) =
  match vts_at vts i with
  | Some (v, tn) => Some [v_name v; tn]
  | None => if existsb (fun v => i <? v_index v) (map fst vts) then Some ["empty"; "NULL"] else None
  end.
Proof.
  induction vts as [|[v tn] vts IH]; intros prev i SS F B; [now destruct (Z.to_nat _)|].
  cbn [map fst] in *. inversion SS as [|? ? S' FS]; subst. inversion F as [|? ? F1 F2]; subst. cbn [enum_rows].
  assert (I : interval prev (v_index v) = v_index v - base prev) by (destruct prev; cbn; lia). rewrite I. clear I.
  unfold vts_at. cbn [find fst existsb]. destruct (Z.eqb_spec (v_index v) i) as [Q|Q].
  - rewrite nth_error_app2; rewrite repeat_length; [|lia]. replace (_ - _)%nat with O by lia. reflexivity.
  - destruct (Z.ltb_spec i (v_index v)) as [L|L].
    + rewrite nth_error_app1 by (rewrite repeat_length; lia). rewrite nth_error_repeat by lia.
      replace (find _ vts) with (@None (sivariant * string)); [reflexivity|]. symmetry. clear - FS L.
      induction vts as [|[w m] vts IH]; [reflexivity|]. cbn [map fst] in FS. inversion FS; subst. cbn [find fst]. unfold vlt in H1.
      destruct (Z.eqb_spec (v_index w) i); [lia|now apply IH].
    + rewrite nth_error_app2; rewrite repeat_length; [|lia].
      replace (Z.to_nat (i - base prev) - Z.to_nat (v_index v - base prev))%nat with (S (Z.to_nat (i - base (Some (v_index v))))) by (cbn [base]; lia).
      cbn [nth_error]. rewrite IH; [reflexivity|exact S'| |cbn [base]; lia].
      rewrite Forall_forall in *. intros x Hx. specialize (FS x Hx). unfold vlt in FS. cbn [base]. lia.
Qed.

(** The type text of each variant. *)
Lemma variant_types_fst c deal vs s vts s1 : variant_types c deal vs s = Ok (vts, s1) -> map fst vts = vs.
Proof.
  revert s vts s1. induction vs as [|v vs IH]; intros s vts s1; cbn [variant_types]; [now intros [= <- <-]|].
  destruct (variant_type c deal v s) as [[n s2]| |]; cbn [bind]; try discriminate.
  destruct (variant_types c deal vs s2) as [[l s3]| |] eqn:X; cbn [bind]; try discriminate. intros [= <- <-]. cbn. f_equal. now apply (IH s2 l s3).
Qed.
Section Text.
Variables (c : sictx) (deal : Z -> sitype -> bool -> sistate -> res (string * sistate)).
(** The names [ns] are those found for the type ids [ks]. *)
Definition known_as (ks : list Z) (ns : list string) : Prop := exists s s', sub_names c deal ks s = Ok (ns, s').
Definition text_for (v : sivariant) (tn : string) : Prop :=
  match v_fields v with
  | [] => tn = "empty"
  | [f] => known_as [f_type f] [tn]
  | fs => exists ns, known_as (map f_type fs) ns /\ tn = json_marshal (variant_cols 0 fs ns)
  end.
Lemma sub_names_length ks s ns s1 : sub_names c deal ks s = Ok (ns, s1) -> List.length ns = List.length ks.
Proof.
  revert s ns s1. induction ks as [|k ks IH]; intros s ns s1; cbn [sub_names]; [now intros [= <- <-]|].
  destruct (sub_name c deal k s) as [[n s2]| |]; cbn [bind]; try discriminate.
  destruct (sub_names c deal ks s2) as [[l s3]| |] eqn:X; cbn [bind]; try discriminate. intros [= <- <-]. cbn. f_equal. now apply (IH s2 l s3).
Qed.
Lemma variant_types_text vs s vts s1 : variant_types c deal vs s = Ok (vts, s1) -> Forall (fun p => text_for (fst p) (snd p)) vts.
Proof.
  revert s vts s1. induction vs as [|v vs IH]; intros s vts s1; cbn [variant_types]; [now intros [= <- <-]|].
  destruct (variant_type c deal v s) as [[n s2]| |] eqn:Y; cbn [bind]; try discriminate.
  destruct (variant_types c deal vs s2) as [[l s3]| |] eqn:X; cbn [bind]; try discriminate. intros [= <- <-].
  constructor; [|now apply (IH s2 l s3)]. cbn [fst snd]. unfold text_for, variant_type in *.
  destruct (v_fields v) as [|f [|g fs]]; [now injection Y| |].
  - exists s, s2. cbn [sub_names]. now rewrite Y.
  - destruct (sub_names c deal _ s) as [[ns s4]| |] eqn:Z; cbn [bind] in Y; try discriminate. injection Y as <- <-.
    exists ns. split; [now exists s, s4|reflexivity].
Qed.
End Text.

(** Rows to names and types. *)
Definition row_pair (r : list string) : string * string := (nth 0 r "", nth 1 r "").
Lemma mapping_pairs l : Forall (fun r => List.length r = 2%nat) l -> mapping_rows l = Ok (map row_pair l).
Proof. induction 1 as [|r l H F IH]; [reflexivity|]. destruct r as [|a [|b [|]]]; try discriminate. cbn [mapping_rows]. rewrite IH. reflexivity. Qed.
Lemma enum_rows_two prev vts : Forall (fun r => List.length r = 2%nat) (enum_rows prev vts).
Proof.
  revert prev. induction vts as [|[v tn] vts IH]; intros prev; [constructor|]. cbn [enum_rows]. apply Forall_app. split; [|constructor; [reflexivity|apply IH]].
  apply Forall_forall. intros x Hx. apply repeat_spec in Hx. now subst.
Qed.
Lemma value_rows_two vs : Forall (fun r => List.length r = 2%nat) (value_rows vs).
Proof.
  unfold value_rows. apply Forall_forall. intros x Hx. apply in_flat_map in Hx. destruct Hx as (v & _ & Hx). destruct (has_fields v); [contradiction|].
  destruct Hx as [<-|[]]. reflexivity.
Qed.
Lemma enum_mapping_two vts : mapping_rows (enum_mapping vts) = Ok (map row_pair (enum_mapping vts)).
Proof. apply mapping_pairs. unfold enum_mapping. destruct (existsb _ vts); [apply enum_rows_two|apply value_rows_two]. Qed.

Definition fresh (c : sictx) (name : string) (s : sistate) : Prop := i_v14 c = false \/ assoc name (r_v14 (g_reg s)) = None.
Lemma reg_one_plain c name t s tm : name_ok name -> fresh c name s -> t_type t = "enum" \/ t_type t = "struct" -> mapping_rows (t_mapping t) = Ok tm ->
  t_v14 t = i_v14 c ->
  exists s', reg_one c name t s = Ok s' /\ g_names s' = g_names s /\ g_dup s' = g_dup s
    /\ r_types (g_reg s') = upd (to_lower name) (if String.eqb (t_type t) "struct" then CStruct (newStruct tm) else CEnum (newStruct tm) (t_values t)) (r_types (g_reg s))
    /\ r_special (g_reg s') = r_special (g_reg s).
Proof.
  intros N F T M V. unfold reg_one, RegCustomTypes. cbn [reg_loop].
  assert (X : exists r1, v14_step (i_fuel c) name t (g_reg s) = Ok (Some (name, r1)) /\ r_types r1 = r_types (g_reg s) /\ r_special r1 = r_special (g_reg s)).
  { unfold v14_step. rewrite V. destruct F as [->|F]; [now exists (g_reg s)|]. destruct (i_v14 c); [|now exists (g_reg s)].
    rewrite F. eexists. split; [reflexivity|]. now split. }
  destruct X as (r1 & -> & R1 & R2). cbn [bind].
  assert (K : forall cd, regCustomKey (to_lower name) cd r1 = with_types (upd (to_lower name) cd) r1).
  { intros cd. unfold regCustomKey. rewrite split_absent; [reflexivity|]. apply name_lower_no; [exact N|not_name]. }
  destruct T as [T|T]; rewrite T; cbn [String.eqb Ascii.eqb Bool.eqb]; unfold reg_plain; rewrite T; cbn [String.eqb Ascii.eqb Bool.eqb];
    rewrite M; cbn [bind]; rewrite K; eexists; (split; [reflexivity|]); cbn; rewrite R1; auto.
Qed.

Section Enum.
Variables (c : sictx) (deal : Z -> sitype -> bool -> sistate -> res (string * sistate)) (id : Z) (t : sitype) (vs : list sivariant).
Variables (s s1 : sistate) (vts : list (sivariant * string)) (name : string).
Hypothesis types_found : variant_types c deal (sort_variants vs) s = Ok (vts, s1).
Hypothesis name_is : nameSiType c (g_dup s1) t id = Ok name.
Hypothesis good_name : name_ok name.
Hypothesis new_name : fresh c name s1.

Lemma expand_enum : exists s2, expandEnum c deal id t vs s = Ok (name, s2) /\ assocz id (g_names s2) = Some name
  /\ r_types (g_reg s2) = upd (to_lower name) (CEnum (newStruct (map row_pair (enum_mapping vts))) []) (r_types (g_reg s1))
  /\ r_special (g_reg s2) = r_special (g_reg s1).
Proof.
  unfold expandEnum. rewrite types_found. cbn [bind]. rewrite name_is. cbn [bind].
  destruct (reg_one_plain c name (TStruct "enum" "" (enum_mapping vts) [] 0 (i_v14 c) (i_spec c)) s1 _ good_name new_name (or_introl eq_refl) (enum_mapping_two vts) eq_refl)
    as (s' & -> & G & D & R & S). cbn [bind]. eexists. split; [reflexivity|]. cbn [set_name g_names g_reg assocz]. rewrite Z.eqb_refl. auto.
Qed.
End Enum.

(** ** Decoding *)
Lemma rows_run E c data off tm m off2 cs : fields_at E c data off tm m off2 cs ->
  exists f, forall f', (f <= f')%nat -> forall start acc k calls,
    run (decode f' E) start (rows_sub c (map (fun p => [fst p; snd p]) tm) acc k) data off calls
    = run (decode f' E) start (k (fold_left (fun a p => map_set (fst p) (snd p) a) m acc)) data off2 (calls ++ cs)%list.
Proof.
  induction 1 as [off|off n t r v off1 cs1 fs off2 cs2 [_ [f1 D]] H [f2 IH]].
  - exists O. intros f' _ start acc k calls. cbn [map rows_sub fold_left]. now rewrite app_nil_r.
  - exists (Nat.max f1 f2). intros f' L start acc k calls. cbn [map rows_sub fold_left fst snd run].
    rewrite (decode_mono f1 f' E ltac:(lia) _ _ _ _ _ D) by discriminate. cbn [bind]. rewrite IH by lia. now rewrite <- app_assoc.
Qed.
Lemma fold_set_fresh (m acc : list (string * val)) : NoDup (map fst (acc ++ m)) -> fold_left (fun a p => map_set (fst p) (snd p) a) m acc = (acc ++ m)%list.
Proof.
  revert acc. induction m as [|[k v] m IH]; intros acc N; [now rewrite app_nil_r|]. cbn [fold_left fst snd].
  rewrite map_set_fresh.
  - rewrite IH; rewrite <- app_assoc; [reflexivity|exact N].
  - rewrite map_app in N. cbn [map fst] in N. apply NoDup_remove_2 in N. intros X. apply N. apply in_or_app. now left.
Qed.
(** The first byte picks row i of the table; a row that lists fields. *)
Lemma variant_fields E c ts tm vl i name sub fields pre tl m o cs : resolves E c ts (CEnum (Some tm) vl) -> c_like tm = false ->
  0 <= i < 256 -> nth_error tm (Z.to_nat i) = Some (name, sub) -> sub <> "" -> struct_variant sub = Some (map (fun p => [fst p; snd p]) fields) ->
  blen (pre ++ Zb i :: tl) < 2 ^ 63 -> fields_at E c (pre ++ Zb i :: tl) (blen pre + 1) fields m o cs -> NoDup (map fst m) ->
  Decodes E c (pre ++ Zb i :: tl) (blen pre) ts (Ok (VMap [(name, VMap m)], o, cs)).
Proof.
  intros R CL Hi N NS SV L F ND. destruct (rows_run _ _ _ _ _ _ _ _ F) as [f H].
  eapply (Decodes_run E c ts _ f); [exact R| |discriminate]. cbn [process]. unfold process_enum. cbn [run]. rewrite next_one by exact L. cbn [bind head_u8].
  rewrite CL, bZ_Zb_small by exact Hi. rewrite (nth_z_nat tm i (name, sub)) by (assumption || lia).
  destruct (String.eqb_spec sub ""); [contradiction|]. rewrite SV, H by lia. rewrite fold_set_fresh by exact ND. reflexivity.
Qed.

(** A name of a type, as opposed to a number or a list of fields. *)
Definition type_name (n : string) : Prop := n <> "" /\ numeric n = false /\ struct_variant n = None.

Lemma named_cols k fs ns : map (fun p => [fst p; snd p]) (named k fs ns) = variant_cols k fs ns.
Proof. revert k ns. induction fs as [|f fs IH]; intros k [|n ns]; try reflexivity. cbn [named variant_cols map fst snd]. rewrite IH. reflexivity. Qed.
Lemma cols_cons k fs ns : (2 <= List.length fs)%nat -> List.length ns = List.length fs ->
  exists row rows, variant_cols k fs ns = row :: rows /\ List.length row = 2%nat.
Proof. intros L Q. destruct fs as [|f fs], ns as [|n ns]; cbn in *; try lia. eexists _, _. split; reflexivity. Qed.
Lemma marshal_text row rows : json_marshal (row :: rows) <> "" /\ numeric (json_marshal (row :: rows)) = false.
Proof. unfold json_marshal, json_list at 1. cbn [String.append]. split; [discriminate|]. reflexivity. Qed.

Lemma existsb_map {A B} (f : A -> B) p l : existsb p (map f l) = existsb (fun x => p (f x)) l.
Proof. induction l as [|x l IH]; [reflexivity|]. cbn. now rewrite IH. Qed.
Lemma existsb_perm {A} (p : A -> bool) l l' : Permutation l l' -> existsb p l = existsb p l'.
Proof.
  intros P. destruct (existsb p l') eqn:X.
  - apply existsb_exists in X. destruct X as (x & I & H). apply existsb_exists. exists x. split; [|exact H]. now apply (Permutation_in _ (Permutation_sym P)).
  - destruct (existsb p l) eqn:Y; [|reflexivity]. apply existsb_exists in Y. destruct Y as (x & I & H).
    assert (Z : existsb p l' = true) by (apply existsb_exists; exists x; split; [now apply (Permutation_in _ P)|exact H]). congruence.
Qed.
Lemma vts_declared vts i : option_map fst (vts_at vts i) = declared (map fst vts) i.
Proof. unfold vts_at, declared. induction vts as [|[v tn] vts IH]; [reflexivity|]. cbn [find map fst]. destruct (v_index v =? i); [reflexivity|exact IH]. Qed.

Lemma itoa_numeric n : 0 <= n -> numeric (itoa n) = true.
Proof.
  intros H. unfold numeric. assert (A : all_digits (itoa n) = true).
  { pose proof (itoa_digits n H) as F. unfold s2b in F. induction (itoa n) as [|ch st IH]; [reflexivity|]. cbn [list_ascii_of_string all_digits] in *. inversion F; subst.
    rewrite IH by assumption. unfold is_digit. lia. }
  rewrite A, andb_true_r. destruct (itoa_numeral n H) as (_ & N & _). destruct (itoa n); [contradiction|reflexivity].
Qed.

Section Decode.
Variables (c : sictx) (deal : Z -> sitype -> bool -> sistate -> res (string * sistate)) (vs : list sivariant) (vts : list (sivariant * string)).
Hypothesis indices : well_indexed vs.
Hypothesis sorted : map fst vts = sort_variants vs.
Hypothesis texts : Forall (fun p => text_for c deal (fst p) (snd p)) vts.
(** Field types have names. *)
Hypothesis ones : forall v tn, In (v, tn) vts -> List.length (v_fields v) = 1%nat -> type_name tn.
Variables (E : env) (cx : ctx) (name : string).
Hypothesis is_enum : resolves E cx name (CEnum (newStruct (map row_pair (enum_mapping vts))) []).

Lemma carries_vts : existsb (fun p => has_fields (fst p)) vts = carries vs.
Proof. rewrite <- (existsb_map fst has_fields vts), sorted. apply existsb_perm, sort_perm. Qed.
Lemma declared_vts i : option_map fst (vts_at vts i) = declared vs i.
Proof. rewrite vts_declared, sorted. symmetry. apply find_perm; [apply indices|]. symmetry. apply sort_perm. Qed.
Lemma indices_vts : Forall (fun v => 0 <= v_index v < 256) (map fst vts).
Proof. rewrite sorted. apply Forall_forall. intros x Hx. apply (Permutation_in _ (sort_perm vs)) in Hx. destruct indices as [_ F]. rewrite Forall_forall in F. now apply F. Qed.

Lemma table_at i : 0 <= i -> nth_error (enum_rows None vts) (Z.to_nat i) =
  match vts_at vts i with
  | Some (v, tn) => Some [v_name v; tn]
  | None => if existsb (fun v => i <? v_index v) (map fst vts) then Some ["empty"; "NULL"] else None
  end.
Proof.
  clear name is_enum ones. intros Hi. rewrite <- (rows_at vts None i); [now rewrite Z.sub_0_r| | |exact Hi].
  - rewrite sorted. apply sort_strict, indices.
  - pose proof indices_vts as F. rewrite Forall_forall in *. intros x Hx. specialize (F x Hx). cbn [base]. lia.
Qed.
Lemma text_not_numeric v tn : In (v, tn) vts -> tn <> "" /\ numeric tn = false.
Proof.
  intros I. rewrite Forall_forall in texts. pose proof (texts _ I) as T. cbn [fst snd] in T. unfold text_for in T.
  pose proof (ones _ _ I) as O. destruct (v_fields v) as [|f [|g fs]] eqn:Q.
  - subst tn. split; [discriminate|reflexivity].
  - destruct (O eq_refl) as (A & B & _). now split.
  - destruct T as (ns & (s0 & s0' & K) & ->). apply sub_names_length in K. rewrite map_length in K.
    destruct (cols_cons 0 (f :: g :: fs) ns) as (row & rows & -> & _); [cbn; lia|exact K|]. apply marshal_text.
Qed.
Lemma rows_in prev l v tn : In (v, tn) l -> In [v_name v; tn] (enum_rows prev l).
Proof.
  revert prev. induction l as [|[w m] l IH]; intros prev; [contradiction|]. intros [[= -> ->]|I]; cbn [enum_rows]; apply in_or_app; right; [now left|right; now apply IH].
Qed.
Lemma not_c_like : carries vs = true -> c_like (map row_pair (enum_rows None vts)) = false.
Proof.
  intros C. rewrite <- carries_vts in C. apply existsb_exists in C. destruct C as ([v tn] & I & _).
  unfold c_like. destruct (forallb _ _) eqn:X; [|reflexivity]. rewrite forallb_forall in X.
  specialize (X (v_name v, tn)). destruct (text_not_numeric _ _ I) as [_ Y]. cbn [snd] in X. rewrite X in Y; [discriminate|].
  change (v_name v, tn) with (row_pair [v_name v; tn]). apply in_map. now apply rows_in.
Qed.
Lemma table_nonempty i x : nth_error (enum_rows None vts) i = Some x -> newStruct (map row_pair (enum_rows None vts)) = Some (map row_pair (enum_rows None vts)).
Proof. destruct (enum_rows None vts); [now destruct i|reflexivity]. Qed.

(** What the decoder does for byte [i] of an enum some variant of which carries data. *)
Lemma value_enum i pre tl : carries vs = true -> 0 <= i < 256 -> blen (pre ++ Zb i :: tl) < 2 ^ 63 ->
  let data := (pre ++ Zb i :: tl)%list in let off := blen pre in
  match declared vs i with
  | Some v => exists tn, In (v, tn) vts /\
    match v_fields v with
    | [] => resolves E cx "empty" CEmpty -> Decodes E cx data off name (Ok (VMap [(v_name v, VStr "NULL")], off + 1, []))
    | [f] => known_as c deal [f_type f] [tn] /\
        (forall x o cs, Decodes E cx data (off + 1) tn (Ok (x, o, cs)) -> Decodes E cx data off name (Ok (VMap [(v_name v, x)], o, cs)))
    | fs => exists ns, known_as c deal (map f_type fs) ns /\
        (forall m o cs, fields_at E cx data (off + 1) (named 0 fs ns) m o cs -> NoDup (map fst m) ->
          Decodes E cx data off name (Ok (VMap [(v_name v, VMap m)], o, cs)))
    end
  | None =>
      if existsb (fun v => i <? v_index v) vs then
        resolves E cx "NULL" CNull -> Decodes E cx data off name (Ok (VMap [("empty", VNil)], off + 1, []))
      else exists m, Decodes E cx data off name (Panic m)
  end.
Proof.
  intros C Hi L data off. pose proof (table_at i (proj1 Hi)) as T. pose proof (not_c_like C) as NC.
  pose proof is_enum as R. unfold enum_mapping in R. rewrite carries_vts, C in R. pose proof (declared_vts i) as D.
  destruct (vts_at vts i) as [[v tn]|] eqn:V; cbn [option_map fst] in D.
  - rewrite <- D. assert (I : In (v, tn) vts) by (apply (find_some _ _ V)). exists tn. split; [exact I|].
    rewrite (table_nonempty _ _ T) in R. assert (T' : nth_error (map row_pair (enum_rows None vts)) (Z.to_nat i) = Some (v_name v, tn)) by now rewrite nth_error_map, T.
    destruct (text_not_numeric _ _ I) as [NE _]. pose proof texts as TX. rewrite Forall_forall in TX. specialize (TX _ I). cbn [fst snd] in TX. unfold text_for in TX.
    pose proof (ones _ _ I) as ONE. destruct (v_fields v) as [|f [|g fs]] eqn:Q.
    + intros RE. subst tn. pose proof (C27_variant E cx name _ [] i (v_name v) "empty" pre tl R NC Hi T' NE eq_refl L) as [H _]. apply H.
      eapply (Decodes_run E cx "empty" _ O); [exact RE|reflexivity|discriminate].
    + split; [exact TX|]. pose proof (C27_variant E cx name _ [] i (v_name v) tn pre tl R NC Hi T' NE (proj2 (proj2 (ONE eq_refl))) L) as [H _]. exact H.
    + destruct TX as (ns & K & ->). exists ns. split; [exact K|]. intros m o cs F ND. destruct K as (s0 & s0' & K). apply sub_names_length in K. rewrite map_length in K.
      eapply variant_fields; try eassumption. rewrite named_cols.
      destruct (cols_cons 0 (f :: g :: fs) ns) as (row & rows & -> & H2); [cbn; lia|exact K|]. now apply struct_variant_marshal.
  - rewrite <- D. replace (existsb (fun v => i <? v_index v) vs) with (existsb (fun v => i <? v_index v) (map fst vts))
      by (rewrite sorted; apply existsb_perm, sort_perm).
    destruct (existsb _ (map fst vts)).
    + intros RN. rewrite (table_nonempty _ _ T) in R.
      assert (T' : nth_error (map row_pair (enum_rows None vts)) (Z.to_nat i) = Some ("empty", "NULL")) by now rewrite nth_error_map, T.
      pose proof (C27_variant E cx name _ [] i "empty" "NULL" pre tl R NC Hi T' ltac:(discriminate) eq_refl L) as [H _]. apply H.
      eapply (Decodes_run E cx "NULL" _ O); [exact RN|reflexivity|discriminate].
    + apply C27_unknown_panics with (1 := R); [exact Hi| |exact L]. apply nth_error_None in T.
      destruct (enum_rows None vts) as [|r l] eqn:Q; [cbn; lia|]. cbn [newStruct map]. split; [exact NC|]. rewrite <- (map_length row_pair) in T. cbn [map] in T. lia.
Qed.

(** An enum no variant of which carries data. *)
Lemma plain_table : carries vs = false -> map row_pair (enum_mapping vts) = map (fun v => (v_name v, itoa (v_index v))) (sort_variants vs).
Proof.
  intros C. unfold enum_mapping. rewrite carries_vts, C. rewrite sorted. assert (C' : existsb has_fields (sort_variants vs) = false).
  { rewrite <- C. apply existsb_perm, sort_perm. }
  clear - C'. unfold value_rows. induction (sort_variants vs) as [|v l IH]; [reflexivity|]. cbn [existsb] in C'. apply orb_false_elim in C'. destruct C' as [A B].
  cbn [flat_map]. rewrite A. cbn [app map]. now rewrite IH.
Qed.
Lemma sorted_range v : In v (sort_variants vs) -> 0 <= v_index v < 256.
Proof. intros I. apply (Permutation_in _ (sort_perm vs)) in I. destruct indices as [_ F]. rewrite Forall_forall in F. now apply F. Qed.
Lemma plain_enum i pre tl : carries vs = false -> 0 <= i < 256 -> blen (pre ++ Zb i :: tl) < 2 ^ 63 ->
  let data := (pre ++ Zb i :: tl)%list in let off := blen pre in
  match declared vs i with
  | Some v => Decodes E cx data off name (Ok (VStr (v_name v), off + 1, []))
  | None => vs <> [] -> Decodes E cx data off name (Ok (VStr "", off + 1, []))
  end.
Proof.
  intros C Hi L data off. pose proof is_enum as R. rewrite plain_table in R by exact C. set (tm := map (fun v => (v_name v, itoa (v_index v))) (sort_variants vs)) in *.
  assert (CL : c_like tm = true).
  { unfold c_like, tm. apply forallb_forall. intros p Hp. apply in_map_iff in Hp. destruct Hp as (v & <- & I). cbn [snd]. apply itoa_numeric. apply sorted_range in I. lia. }
  assert (NUM : forall n' t', In (n', t') tm -> exists w, In w vs /\ n' = v_name w /\ StringToInt t' = v_index w).
  { intros n' t' I. unfold tm in I. apply in_map_iff in I. destruct I as (w & [= <- <-] & I). exists w. split; [now apply (Permutation_in _ (sort_perm vs))|].
    split; [reflexivity|]. apply sorted_range in I. apply string_to_itoa. lia. }
  assert (NE : vs <> [] -> newStruct tm = Some tm).
  { intros NE. unfold tm. destruct (sort_variants vs) as [|w l] eqn:Q; [|reflexivity]. exfalso. apply NE. apply Permutation_nil. rewrite <- Q. apply sort_perm. }
  destruct (declared vs i) as [v|] eqn:D.
  - destruct (find_some _ _ D) as [I Q]. apply Z.eqb_eq in Q. rewrite NE in R by (intros ->; contradiction).
    eapply (C27_numbered_partial E cx name tm [] i (v_name v) (itoa (v_index v))); [exact R|exact CL| | |exact Hi| |exact L].
    + unfold tm. apply in_map_iff. exists v. split; [reflexivity|]. now apply (Permutation_in _ (Permutation_sym (sort_perm vs))).
    + rewrite <- Q. apply string_to_itoa. lia.
    + intros n' t' I' Q'. destruct (NUM _ _ I') as (w & Iw & -> & Ew). f_equal.
      assert (v_index w = v_index v) by congruence. destruct indices as [ND _]. clear - ND I Iw H.
      induction vs as [|x l IH]; [contradiction|]. cbn [map] in ND. inversion ND; subst. destruct I as [->|I], Iw as [->|Iw]; [reflexivity| | |now apply IH].
      * exfalso. apply H2. rewrite <- H. now apply in_map.
      * exfalso. apply H2. rewrite H. now apply in_map.
  - intros NV. rewrite (NE NV) in R. eapply (Decodes_run E cx name _ O); [exact R| |discriminate]. cbn [process]. unfold process_enum. cbn [run].
    unfold data, off. rewrite next_one by exact L. cbn [bind head_u8]. rewrite CL, bZ_Zb_small by exact Hi. cbn [run]. unfold c_like_value.
    assert (X : forall acc, fold_left (fun acc p => if StringToInt (snd p) =? i then fst p else acc) tm acc = acc).
    { assert (Y : forall n' t', In (n', t') tm -> StringToInt t' <> i).
      { intros n' t' I' Q'. destruct (NUM _ _ I') as (w & Iw & _ & Ew). apply (find_none _ _ D) in Iw. lia. }
      clear - Y. induction tm as [|[n' t'] l IH]; intros acc; [reflexivity|]. cbn [fold_left fst snd].
      destruct (Z.eqb_spec (StringToInt t') i) as [Q|_]; [exfalso; apply (Y n' t'); [now left|exact Q]|]. apply IH. intros a b I'. apply (Y a b). now right. }
    now rewrite X.
Qed.
End Decode.

(** ** C34.  An enum whose name is new is registered, and the byte in front
    selects the variant that declares it as its index. *)
Section C34.
Variables (c : sictx) (deal : Z -> sitype -> bool -> sistate -> res (string * sistate)) (id : Z) (t : sitype) (vs : list sivariant).
Variables (s s1 : sistate) (vts : list (sivariant * string)) (name : string).
Hypothesis types_found : variant_types c deal (sort_variants vs) s = Ok (vts, s1).
Hypothesis name_is : nameSiType c (g_dup s1) t id = Ok name.
Hypothesis good_name : name_ok name.
Hypothesis new_name : fresh c name s1.
Hypothesis no_ranges : assoc (to_lower name) (r_special (g_reg s1)) = None.
Hypothesis indices : well_indexed vs.
Hypothesis ones : forall v tn, In (v, tn) vts -> List.length (v_fields v) = 1%nat -> type_name tn.

Lemma enum_resolves : exists s2, expandEnum c deal id t vs s = Ok (name, s2) /\ assocz id (g_names s2) = Some name /\
  r_types (g_reg s2) = upd (to_lower name) (CEnum (newStruct (map row_pair (enum_mapping vts))) []) (r_types (g_reg s1)) /\
  forall cx, x_module cx = "" -> resolves (reg_env (g_reg s2)) cx name (CEnum (newStruct (map row_pair (enum_mapping vts))) []).
Proof.
  destruct (expand_enum c deal id t vs s s1 vts name types_found name_is good_name new_name) as (s2 & X & G & T & S).
  exists s2. split; [exact X|]. split; [exact G|]. split; [exact T|]. intros cx M. apply name_resolves; [exact good_name|].
  unfold lookup. rewrite M, module_type_empty. unfold specialVersionCodec. cbn [reg_env e_special e_reg]. rewrite S, no_ranges, to_lower_idem, T.
  unfold upd. cbn [assoc]. rewrite String.eqb_refl. reflexivity.
Qed.

(** The variants carry no data. *)
Theorem C34_names cx i pre tl : carries vs = false -> x_module cx = "" -> 0 <= i < 256 -> blen (pre ++ Zb i :: tl) < 2 ^ 63 ->
  exists s2, expandEnum c deal id t vs s = Ok (name, s2) /\ assocz id (g_names s2) = Some name /\
  let E := reg_env (g_reg s2) in let data := (pre ++ Zb i :: tl)%list in let off := blen pre in
  match declared vs i with
  | Some v => Decodes E cx data off name (Ok (VStr (v_name v), off + 1, []))
  | None => vs <> [] -> Decodes E cx data off name (Ok (VStr "", off + 1, []))
  end.
Proof.
  intros C M Hi L. destruct enum_resolves as (s2 & X & G & _ & R). exists s2. split; [exact X|]. split; [exact G|].
  apply (plain_enum vs vts indices (variant_types_fst _ _ _ _ _ _ types_found)); try assumption. now apply R.
Qed.
(** Some variant carries data. *)
Theorem C34_values cx i pre tl : carries vs = true -> x_module cx = "" -> 0 <= i < 256 -> blen (pre ++ Zb i :: tl) < 2 ^ 63 ->
  exists s2, expandEnum c deal id t vs s = Ok (name, s2) /\ assocz id (g_names s2) = Some name /\
  let E := reg_env (g_reg s2) in let data := (pre ++ Zb i :: tl)%list in let off := blen pre in
  match declared vs i with
  | Some v => exists tn, In (v, tn) vts /\
    match v_fields v with
    | [] => resolves E cx "empty" CEmpty -> Decodes E cx data off name (Ok (VMap [(v_name v, VStr "NULL")], off + 1, []))
    | [f] => known_as c deal [f_type f] [tn] /\
        (forall x o cs, Decodes E cx data (off + 1) tn (Ok (x, o, cs)) -> Decodes E cx data off name (Ok (VMap [(v_name v, x)], o, cs)))
    | fs => exists ns, known_as c deal (map f_type fs) ns /\
        (forall m o cs, fields_at E cx data (off + 1) (named 0 fs ns) m o cs -> NoDup (map fst m) ->
          Decodes E cx data off name (Ok (VMap [(v_name v, VMap m)], o, cs)))
    end
  | None =>
      if existsb (fun v => i <? v_index v) vs then
        resolves E cx "NULL" CNull -> Decodes E cx data off name (Ok (VMap [("empty", VNil)], off + 1, []))
      else exists m, Decodes E cx data off name (Panic m)
  end.
Proof.
  intros C M Hi L. destruct enum_resolves as (s2 & X & G & _ & R). exists s2. split; [exact X|]. split; [exact G|].
  apply (value_enum c deal vs vts indices (variant_types_fst _ _ _ _ _ _ types_found) (variant_types_text _ _ _ _ _ _ types_found)); try assumption. now apply R.
Qed.
End C34.

(** A portable registry: 0 u8, 1 u16, 2 a value enum with gaps declared out of
    order, 3 a plain enum. *)
Definition ex_value : list sivariant :=
  [SiVariant "Both" [SiField "a" 0 ""; SiField "" 1 ""] 7; SiVariant "None" [] 2; SiVariant "One" [SiField "" 1 ""] 4].
Definition ex_plain : list sivariant := [SiVariant "Hi" [] 9; SiVariant "Lo" [] 3].
Definition ex_port : portable :=
  [(0, SiType [] [] (DPrimitive "u8")); (1, SiType [] [] (DPrimitive "u16"));
   (2, SiType ["pallet_x"; "pallet"; "Value"] [] (DVariant ex_value)); (3, SiType ["pallet_x"; "Plain"] [] (DVariant ex_plain))].
Definition ex_ctx : sictx := SiCtx "" true 100 ex_port 20.
Definition ex_state : sistate :=
  match ProcessSiType 10 ex_ctx base_reg with Ok s => s | _ => SiState [] [] base_reg end.
Example C34_process : exists s, ProcessSiType 10 ex_ctx base_reg = Ok s /\
  map (fun k => assocz k (g_names s)) [0; 1; 2; 3] = [Some "u8"; Some "u16"; Some "pallet_x:pallet:Value"; Some "pallet_x:Plain"].
Proof. eexists. split; vm_compute; reflexivity. Qed.
Example C34_decode : let E := reg_env (g_reg ex_state) in let cx := Ctx 100 "" None in
  Decodes E cx (map Zb [7; 5; 6; 0]) 0 "pallet_x:pallet:Value" (Ok (VMap [("Both", VMap [("a", VInt 5); ("col1", VU16 6)])], 4, []))
  /\ Decodes E cx (map Zb [4; 6; 0]) 0 "pallet_x:pallet:Value" (Ok (VMap [("One", VU16 6)], 3, []))
  /\ Decodes E cx (map Zb [2]) 0 "pallet_x:pallet:Value" (Ok (VMap [("None", VStr "NULL")], 1, []))
  /\ Decodes E cx (map Zb [9]) 0 "pallet_x:Plain" (Ok (VStr "Hi", 1, [])).
Proof. cbv zeta. repeat match goal with |- _ /\ _ => split end; dec 6%nat. Qed.
(** The hypotheses hold for the value enum. *)
Example C34_hyps : let d := dealOneSiType 5 ex_ctx in let s := SiState [(0, "u8"); (1, "u16")] [] base_reg in
  variant_types ex_ctx d (sort_variants ex_value) s =
    Ok ([(SiVariant "None" [] 2, "empty"); (SiVariant "One" [SiField "" 1 ""] 4, "u16");
         (SiVariant "Both" [SiField "a" 0 ""; SiField "" 1 ""] 7, "[[""a"",""u8""],[""col1"",""u16""]]")], s)
  /\ nameSiType ex_ctx (g_dup s) (port_get ex_port 2) 2 = Ok "pallet_x:pallet:Value" /\ name_ok "pallet_x:pallet:Value" /\ fresh ex_ctx "pallet_x:pallet:Value" s
  /\ well_indexed ex_value /\ type_name "u16" /\ carries ex_value = true /\ declared ex_value 7 = Some (SiVariant "Both" [SiField "a" 0 ""; SiField "" 1 ""] 7)
  /\ declared ex_value 3 = None.
Proof.
  cbv zeta. split; [vm_compute; reflexivity|]. split; [reflexivity|]. split.
  { split; [discriminate|]. split; [|split; reflexivity]. cbn [s2b list_ascii_of_string]. repeat (constructor; [unfold name_char; vm_compute; intuition congruence|]). constructor. }
  split; [right; reflexivity|]. split; [|repeat split; discriminate || reflexivity].
  split; [repeat constructor; cbn; intuition congruence|]. repeat (constructor; [cbn; lia|]). constructor.
Qed.
(** Below the largest index a byte that no variant declares is accepted. *)
Theorem C34_gap_refuted : declared ex_value 3 = None /\
  Decodes (reg_env (g_reg ex_state)) (Ctx 100 "" None) (map Zb [3]) 0 "pallet_x:pallet:Value" (Ok (VMap [("empty", VNil)], 1, [])).
Proof. split; [reflexivity|]. dec 6%nat. Qed.
(** Equal indices shift every later variant: byte 2 selects the variant declared 1 twice over. *)
Definition ex_dup : list sivariant := [SiVariant "A" [SiField "" 0 ""] 0; SiVariant "B" [SiField "" 0 ""] 0; SiVariant "C" [SiField "" 0 ""] 1].
Theorem C34_duplicates_refuted : let p := [(0, SiType [] [] (DPrimitive "u8")); (1, SiType ["x"; "Dup"] [] (DVariant ex_dup))] in
  exists s, ProcessSiType 10 (SiCtx "" true 100 p 20) base_reg = Ok s /\ option_map v_name (declared ex_dup 1) = Some "C" /\
  Decodes (reg_env (g_reg s)) (Ctx 100 "" None) (map Zb [1; 5]) 0 "x:Dup" (Ok (VMap [("B", VInt 5)], 2, [])).
Proof. cbv zeta. eexists. split; [vm_compute; reflexivity|]. split; [reflexivity|]. dec 6%nat. Qed.

Print Assumptions C34_names.
Print Assumptions C34_values.
Print Assumptions C34_gap_refuted.
Print Assumptions C34_duplicates_refuted.
