(** The checks of ProofsLoad and ProofsNet with tries instead of lists. *)

From Verif Require Import GoBase ModelTools ModelVal ModelRegistry ModelDecode ModelRegister ModelBaseTypes ProofsTrie ProofsLoad ProofsNet.

Section By.
Variable def : string -> option tstruct.
Variables base fin : string -> option codec.
Variable depth : nat.
Fixpoint finals_by (n : nat) (k : string) : option (list tstruct) :=
  match n with
  | O => None
  | S n =>
      match def k with
      | None => Some []
      | Some v =>
          if String.eqb (t_type v) "string" then
            match def (t_string v) with
            | None => Some [v]
            | Some x => match finals_by n (t_string v) with Some l => Some (x :: l) | None => None end
            end
          else Some [v]
      end
  end.
Definition look_by (q : string) : list (option codec) := [base q; match fin q with Some c => Some c | None => base q end].
Definition check_string_by (c : option codec) (ts : string) : bool :=
  forallb (fun l1 => match l1 with
    | Some c1 => same_codec (Some c1) c
    | None =>
        match finals_by depth ts with
        | None => false
        | Some [] => is_ok (shape_of ts) c
        | Some xs =>
            forallb (fun x =>
              if String.eqb (t_type x) "string" then
                forallb (fun l2 => match l2 with Some c2 => same_codec (Some c2) c | None => is_ok (shape_of ts) c end) (look_by (to_lower (t_string x)))
              else negb (t_v14 x) && match shape_of ts with Ok None => true | _ => false end && is_ok (plain_of x) c) xs
        end
    end) (look_by (to_lower ts)).
Definition check_value_by (c : option codec) (k : string) : bool :=
  match finals_by depth k with
  | Some ts => forallb (fun t => negb (t_v14 t) && if String.eqb (t_type t) "string" then check_string_by c (ConvertType (t_string t)) else is_ok (plain_of t) c) ts
  | None => false
  end.
End By.

Section Same.
Variable defs : list (string * tstruct).
Variable B : reg.
Variable F : list (string * codec).
Variable depth : nat.
Variable def : string -> option tstruct.
Variables base fin : string -> option codec.
Hypothesis DEF : forall k, def k = assoc k defs.
Hypothesis BASE : forall k, base k = assoc k (r_types B).
Hypothesis FIN : forall k, fin k = assoc k F.
Lemma finals_same : forall n k, finals_by def n k = finals defs n k.
Proof. induction n as [|n IH]; intros k; [reflexivity|]. cbn [finals_by finals]. rewrite DEF. destruct (assoc k defs) as [v|]; [|reflexivity]. rewrite DEF, IH. reflexivity. Qed.
Lemma look_same q : look_by base fin q = look B F q.
Proof. unfold look_by, look, after. now rewrite BASE, FIN. Qed.
Lemma forallb_same {X} (f g : X -> bool) l : (forall x, f x = g x) -> forallb f l = forallb g l.
Proof. intros H. induction l as [|x l IH]; [reflexivity|]. cbn [forallb]. now rewrite H, IH. Qed.
Lemma string_same c ts : check_string_by def base fin depth c ts = check_string defs B F depth c ts.
Proof.
  unfold check_string_by, check_string. rewrite look_same. apply forallb_same. intros [c1|]; [reflexivity|]. rewrite finals_same.
  destruct (finals defs depth ts) as [[|x xs]|]; try reflexivity. apply forallb_same. intros y. destruct (String.eqb (t_type y) "string"); [now rewrite look_same|reflexivity].
Qed.
Lemma value_same c k : check_value_by def base fin depth c k =
  match finals defs depth k with
  | Some ts => forallb (fun t => negb (t_v14 t) && if String.eqb (t_type t) "string" then check_string defs B F depth c (ConvertType (t_string t)) else is_ok (plain_of t) c) ts
  | None => false
  end.
Proof.
  unfold check_value_by. rewrite finals_same. destruct (finals defs depth k) as [ts|]; [|reflexivity]. apply forallb_same. intros t. now rewrite string_same.
Qed.
End Same.

(** ** The check of ProofsLoad *)
Definition fast_loads (defs : list (string * tstruct)) (B : reg) (F : list (string * codec)) (depth : nat) : bool :=
  let d := tbuild defs in let b := tbuild (r_types B) in let f := tbuild F in let ks := names_trie (map (fun p => to_lower (fst p)) defs) in
  forallb (fun p => no_version (to_lower (fst p)) && check_value_by (fun k => tfind k d) (fun k => tfind k b) (fun k => tfind k f) depth (tfind (to_lower (fst p)) f) (fst p)) defs &&
  forallb (fun p => found (tfind (fst p) ks)) F.
Lemma fast_loads_ok defs B F depth : fast_loads defs B F depth = true -> loads defs B F depth = true.
Proof.
  unfold fast_loads, loads. cbv zeta. intros H. apply andb_prop in H. destruct H as [H K]. apply andb_true_intro. split.
  - apply forallb_forall. intros p I. assert (X := proj1 (forallb_forall _ _) H p I). cbv beta in X. apply andb_prop in X. destruct X as [N X].
    rewrite (value_same defs B F depth) in X by (intros; apply tfind_build). unfold check_entry. cbv zeta. rewrite tfind_build in X.
    destruct (finals defs depth (fst p)); [|discriminate]. now rewrite N, X.
  - apply forallb_forall. intros p I. assert (X := proj1 (forallb_forall _ _) K p I). cbv beta in X. apply names_trie_in in X. apply existsb_exists. eexists. split; [exact X|apply String.eqb_refl].
Qed.

(** ** The check of ProofsNet; [b] is the trie of the registry *)
Definition fast_net (b : trie codec) (defs : list (string * tstruct)) (F V : list (string * codec)) (depth : nat) : bool :=
  let d := tbuild defs in let f := tbuild F in let ks := map fst defs in let ts := names_trie (map to_lower ks) in
  forallb (fun k => check_value_by (fun k => tfind k d) (fun k => tfind k b) (fun k => tfind k f) depth
                      (match version_of (to_lower k) with Some _ => assoc (to_lower k) V | None => tfind (to_lower k) f end) k) ks &&
  forallb (fun p => found (tfind (fst p) ts)) F &&
  forallb (fun p => match version_of (fst p) with None => true | Some _ => false end) F &&
  forallb (fun n => coherent (ranges_of V n ks)) (names_of ks).
Lemma fast_net_ok b defs B F V depth : (forall k, tfind k b = assoc k (r_types B)) -> fast_net b defs F V depth = true -> net_loads defs B F V depth = true.
Proof.
  intros BB. unfold fast_net, net_loads. cbv zeta. intros H. apply andb_prop in H. destruct H as [H H4]. apply andb_prop in H. destruct H as [H H3]. apply andb_prop in H. destruct H as [H1 H2].
  rewrite H4, H3, !andb_true_r. apply andb_true_intro. split.
  - apply forallb_forall. intros k I. assert (X := proj1 (forallb_forall _ _) H1 k I). cbv beta in X.
    rewrite (value_same defs B F depth) in X by (intros; first [apply tfind_build|apply BB]). rewrite tfind_build in X. exact X.
  - apply forallb_forall. intros p I. assert (X := proj1 (forallb_forall _ _) H2 p I). cbv beta in X. apply names_trie_in in X. apply existsb_exists. eexists. split; [exact X|apply String.eqb_refl].
Qed.

(** ** What the definitions make of their keys: a guess the checks confirm *)
Definition value_in (o : res (option codec)) : option codec := match o with Ok c => c | _ => None end.
Definition guess (d : trie tstruct) (b : trie codec) (k : string) : option codec :=
  match finals_by (fun k => tfind k d) 8 k with
  | Some (t :: l) =>
      let t := last l t in
      if String.eqb (t_type t) "string" then
        let ts := ConvertType (t_string t) in
        match tfind (to_lower ts) b with Some c => Some c | None => value_in (shape_of ts) end
      else value_in (plain_of t)
  | _ => None
  end.
Definition guesses (versioned : bool) (b : trie codec) (defs : list (string * tstruct)) : list (string * codec) :=
  let d := tbuild defs in
  flat_map (fun p => let k := to_lower (fst p) in
    if Bool.eqb versioned (match version_of k with Some _ => true | None => false end) then match guess d b (fst p) with Some c => [(k, c)] | None => [] end else []) defs.
