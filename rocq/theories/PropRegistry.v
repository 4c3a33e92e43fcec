(** Custom types: which definition a name stands for.  C30, C31, C33. *)

From Verif Require Import GoBase SpecNum ProofsBase ModelTools ModelVal ModelRegistry ModelDecode ModelEncode ModelRegister ProofsRun SpecScale ProofsReads
  ProofsScale ProofsNames.

Ltac res := eexists _, _; split; [vm_compute; reflexivity|reflexivity].

(** ** What a user registers *)
Inductive decl := DStruct (fields : list (string * string)) | DEnum (variants : list (string * string)) (names : list string) | DSet (names : list string) (bits : Z).
(** Name, or Name#lo-hi, or Name#lo-? . *)
Inductive key := Plain (n : string) | Ranged (n : string) (lo : Z) (hi : option Z).
Definition key_text (k : key) : string :=
  match k with
  | Plain n => n
  | Ranged n lo hi => n ++ "#" ++ itoa lo ++ "-" ++ match hi with Some h => itoa h | None => "?" end
  end.
Definition key_ok (k : key) : Prop :=
  match k with
  | Plain n => name_ok n
  | Ranged n lo hi => name_ok n /\ 0 <= lo < 2 ^ 63 /\ match hi with Some h => 0 <= h < 2 ^ 63 | None => True end
  end.
(** The source.TypeStruct of a declaration (not from V14 metadata). *)
Definition rows (l : list (string * string)) : list (list string) := map (fun p => [fst p; snd p]) l.
Definition decl_entry (d : decl) : tstruct :=
  match d with
  | DStruct f => TStruct "struct" "" (rows f) [] 0 false 0
  | DEnum v n => TStruct "enum" "" (rows v) n 0 false 0
  | DSet n b => TStruct "set" "" [] n b false 0
  end.
(** Its decoder. *)
Definition some_if_any (l : typemap) : option typemap := match l with [] => None | _ => Some l end.
Definition decl_codec (d : decl) : codec :=
  match d with
  | DStruct f => CStruct (some_if_any f)
  | DEnum v n => CEnum (some_if_any v) n
  | DSet n b => CSet n b
  end.
(** A history: several calls of RegCustomTypes, each with the entries of its
    map in whatever order they are visited. *)
Fixpoint register (fuel : nat) (calls : list (list (key * decl))) (r : reg) : res reg :=
  match calls with
  | [] => Ok r
  | c :: cs => r' <- RegCustomTypes fuel (map (fun p => (key_text (fst p), decl_entry (snd p))) c) r ;; register fuel cs r'
  end.

(** ** What a name should stand for *)
Definition covers (k : key) (n : string) (spec : Z) : bool :=
  match k with
  | Plain _ => false
  | Ranged n' lo hi => equal_fold n' n && (lo <=? spec) && (spec <=? match hi with Some h => h | None => 99999999 end)
  end.
Fixpoint first_range (ops : list (key * decl)) (n : string) (spec : Z) : option decl :=
  match ops with
  | [] => None
  | (k, d) :: r => if covers k n spec then Some d else first_range r n spec
  end.
Fixpoint last_plain (ops : list (key * decl)) (n : string) : option decl :=
  match ops with
  | [] => None
  | (k, d) :: r =>
      match last_plain r n with
      | Some d' => Some d'
      | None => match k with Plain n' => if equal_fold n' n then Some d else None | _ => None end
      end
  end.
Definition in_force (ops : list (key * decl)) (n : string) (spec : Z) : option decl :=
  match first_range ops n spec with Some d => Some d | None => last_plain ops n end.

(** ** The registration step *)
Lemma rows_ok l : mapping_rows (rows l) = Ok l.
Proof. induction l as [|[n t] l IH]; [reflexivity|]. unfold rows in *. cbn [map mapping_rows fst snd]. now rewrite IH. Qed.
Lemma plain_entry k d r : reg_plain k (decl_entry d) r = Ok (regCustomKey k (decl_codec d) r).
Proof.
  destruct d as [f|v n|n b]; cbn [decl_entry decl_codec]; unfold reg_plain; cbn [t_type t_mapping t_values t_bits]; cbn [String.eqb Ascii.eqb Bool.eqb];
    try rewrite rows_ok; reflexivity.
Qed.
Fixpoint reg_ops (ops : list (key * decl)) (r : reg) : reg :=
  match ops with
  | [] => r
  | (k, d) :: ops' => reg_ops ops' (regCustomKey (to_lower (key_text k)) (decl_codec d) r)
  end.
Lemma reg_ops_app a b r : reg_ops (a ++ b) r = reg_ops b (reg_ops a r).
Proof. revert r. induction a as [|[k d] a IH]; intros r; [reflexivity|]. apply IH. Qed.
Lemma reg_loop_ops fuel all ops r :
  reg_loop fuel all (map (fun p => (key_text (fst p), decl_entry (snd p))) ops) r = Ok (reg_ops ops r).
Proof.
  revert r. induction ops as [|[k d] ops IH]; intros r; [reflexivity|]. cbn [map fst snd reg_loop reg_ops].
  unfold v14_step. replace (t_v14 (decl_entry d)) with false by now destruct d. cbn [bind].
  replace (String.eqb (t_type (decl_entry d)) "string") with false by now destruct d. rewrite plain_entry. cbn [bind]. apply IH.
Qed.
Lemma register_ops fuel calls r : register fuel calls r = Ok (reg_ops (List.concat calls) r).
Proof.
  revert r. induction calls as [|c cs IH]; intros r; [reflexivity|]. cbn [register List.concat]. unfold RegCustomTypes.
  rewrite reg_loop_ops. cbn [bind]. now rewrite IH, reg_ops_app.
Qed.

(** ** Keys *)
Lemma digits_lower s : Forall (fun c => 48 <= bZ c <= 57) (s2b s) -> to_lower s = s.
Proof.
  unfold to_lower. induction s as [|c s IH]; intros H; [reflexivity|]. cbn [s2b smap] in *. inversion H; subst.
  f_equal; [|now apply IH]. unfold lower_char. now replace ((65 <=? bZ c) && (bZ c <=? 90)) with false by (symmetry; lia).
Qed.
Lemma itoa_digits n : 0 <= n -> Forall (fun c => 48 <= bZ c <= 57) (s2b (itoa n)).
Proof. intros H. apply (itoa_numeral n H). Qed.
Lemma itoa_no x n : 0 <= n -> ~ (48 <= bZ x <= 57) -> ~ has_char x (itoa n).
Proof. intros H N I. pose proof (itoa_digits n H) as D. rewrite Forall_forall in D. now apply N, D. Qed.
Lemma string_to_itoa n : 0 <= n < 2 ^ 63 -> StringToInt (itoa n) = n.
Proof. intros H. unfold StringToInt. rewrite parse_int_itoa. unfold two63. now replace ((- 2 ^ 63 <=? n) && (n <? 2 ^ 63)) with true by (symmetry; lia). Qed.

Definition range_of (lo : Z) (hi : option Z) : Z * Z := (lo, match hi with Some h => h | None => 99999999 end).
Lemma reg_key k c r : key_ok k -> regCustomKey (to_lower (key_text k)) c r =
  match k with
  | Plain n => with_types (upd (to_lower n) c) r
  | Ranged n lo hi => with_special (fun m => upd (to_lower n) (match assoc (to_lower n) m with Some l => l | None => [] end ++ [(range_of lo hi, c)])%list m) r
  end.
Proof.
  intros K. destruct k as [n|n lo hi]; cbn [key_text].
  - unfold regCustomKey. rewrite split_absent; [reflexivity|]. apply name_lower_no; [exact K|not_name].
  - destruct K as (N & L & H). rewrite !to_lower_app'. change (to_lower "#") with "#". change (to_lower "-") with "-".
    rewrite (digits_lower (itoa lo)) by (apply itoa_digits; lia).
    set (h := match hi with Some h => itoa h | None => "?" end).
    replace (to_lower h) with h by (unfold h; destruct hi; [symmetry; apply digits_lower, itoa_digits; lia|reflexivity]).
    assert (HH : forall x, ~ (48 <= bZ x <= 57) -> x <> "?"%char -> ~ has_char x h).
    { intros x X Q. unfold h. destruct hi; [apply itoa_no; [lia|exact X]|]. intros [I|[]]. congruence. }
    unfold regCustomKey. cbn [String.append]. rewrite split_at by (apply name_lower_no; [exact N|not_name]).
    rewrite split_absent.
    2:{ rewrite has_char_app, has_char_cons. intros [I|[I|I]]; [revert I; apply itoa_no; [lia|vm_compute; intuition congruence]|discriminate|
        revert I; apply HH; [vm_compute; intuition congruence|discriminate]]. }
    unfold version_range. rewrite split_at by (apply itoa_no; [lia|vm_compute; intuition congruence]).
    rewrite split_absent by (apply HH; [vm_compute; intuition congruence|discriminate]).
    rewrite string_to_itoa by lia.
    replace (if String.eqb h "?" then 99999999 else StringToInt h) with (match hi with Some h => h | None => 99999999 end).
    + unfold range_of, with_special. cbv beta. destruct (assoc (to_lower n) (r_special r)); reflexivity.
    + unfold h. destruct hi as [z|]; [|reflexivity]. rewrite string_to_itoa by lia.
      destruct (String.eqb_spec (itoa z) "?") as [Q|]; [|reflexivity].
      exfalso. apply (itoa_no "?"%char z); [lia|vm_compute; intuition congruence|rewrite Q; now left].
Qed.

(** ** The registry after a history *)
Fixpoint ranges (ops : list (key * decl)) (n : string) : list (Z * Z * codec) :=
  match ops with
  | [] => []
  | (Ranged n' lo hi, d) :: r => if equal_fold n' n then (range_of lo hi, decl_codec d) :: ranges r n else ranges r n
  | _ :: r => ranges r n
  end.
Lemma fold_lower a b : equal_fold a b = String.eqb (to_lower a) (to_lower b).
Proof. reflexivity. Qed.

Lemma ops_types ops r n : Forall key_ok (map fst ops) ->
  assoc (to_lower n) (r_types (reg_ops ops r)) =
  match last_plain ops n with Some d => Some (decl_codec d) | None => assoc (to_lower n) (r_types r) end.
Proof.
  revert r. induction ops as [|[k d] ops IH]; intros r K; [reflexivity|]. cbn [map fst] in K. inversion K; subst.
  cbn [reg_ops last_plain]. rewrite IH by assumption. destruct (last_plain ops n); [reflexivity|].
  rewrite reg_key by assumption. destruct k as [n'|n' lo hi]; [|reflexivity].
  cbn [with_types r_types]. unfold upd. cbn [assoc]. rewrite String.eqb_sym, <- fold_lower. now destruct (equal_fold n' n).
Qed.
Lemma ops_special ops r n : Forall key_ok (map fst ops) ->
  match assoc (to_lower n) (r_special (reg_ops ops r)) with Some l => l | None => [] end =
  (match assoc (to_lower n) (r_special r) with Some l => l | None => [] end ++ ranges ops n)%list.
Proof.
  revert r. induction ops as [|[k d] ops IH]; intros r K; [cbn [ranges reg_ops]; now rewrite app_nil_r|]. cbn [map fst] in K. inversion K; subst.
  cbn [reg_ops]. rewrite IH by assumption. rewrite reg_key by assumption. destruct k as [n'|n' lo hi]; [reflexivity|].
  cbn [with_special r_special ranges]. unfold upd. cbn [assoc]. rewrite String.eqb_sym, <- fold_lower.
  destruct (equal_fold n' n) eqn:F; [|reflexivity].
  rewrite fold_lower in F. apply String.eqb_eq in F. rewrite <- F. now rewrite <- app_assoc.
Qed.
Lemma ranges_first ops n spec : in_range (ranges ops n) spec = option_map decl_codec (first_range ops n spec).
Proof.
  induction ops as [|[[n'|n' lo hi] d] ops IH]; cbn [ranges first_range covers]; [reflexivity|exact IH|].
  destruct (equal_fold n' n); cbn [andb]; [|exact IH]. cbn [in_range range_of]. unfold range_of. cbn [in_range].
  destruct ((lo <=? spec) && _); [reflexivity|exact IH].
Qed.

Theorem lookup_ops ops r n spec : Forall key_ok (map fst ops) -> assoc (to_lower n) (r_special r) = None ->
  lookup (reg_env (reg_ops ops r)) "" n spec =
  match in_force ops n spec with Some d => Some (decl_codec d) | None => assoc (to_lower n) (r_types r) end.
Proof.
  intros K S. unfold lookup. rewrite module_type_empty, to_lower_idem. unfold specialVersionCodec. cbn [reg_env e_special e_reg].
  pose proof (ops_special ops r n K) as P. rewrite S in P. cbn [app] in P.
  assert (X : match assoc (to_lower n) (r_special (reg_ops ops r)) with Some l => in_range l spec | None => None end
    = option_map decl_codec (first_range ops n spec)).
  { rewrite <- ranges_first, <- P. now destruct (assoc (to_lower n) (r_special (reg_ops ops r))). }
  rewrite X. unfold in_force. destruct (first_range ops n spec); [reflexivity|]. cbn [option_map]. now apply ops_types.
Qed.
Lemma name_resolves E c n cd : name_ok n -> resolves E c n cd <-> option_map (fun x => init_sub x "") (lookup E (x_module c) n (x_spec c)) = Some cd.
Proof.
  intros N. unfold resolves. rewrite name_found by exact N. destruct (lookup E (x_module c) n (x_spec c)) as [x|]; cbn [option_map]; split.
  - intros (cd0 & sub & [= <- <-] & I). now rewrite I.
  - intros [= <-]. exists x, "". now split.
  - intros (cd0 & sub & [=] & _).
  - discriminate.
Qed.
Lemma decl_init d : init_sub (decl_codec d) "" = decl_codec d.
Proof. now destruct d. Qed.

(** ** C31 *)
Theorem C31_versions fuel calls r c n : Forall key_ok (map fst (List.concat calls)) -> name_ok n -> x_module c = "" ->
  assoc (to_lower n) (r_special r) = None ->
  exists r', register fuel calls r = Ok r' /\
  match in_force (List.concat calls) n (x_spec c) with
  | Some d => resolves (reg_env r') c n (decl_codec d)
  | None => forall cd, resolves (reg_env r') c n cd <-> resolves (reg_env r) c n cd
  end.
Proof.
  intros K N M S. exists (reg_ops (List.concat calls) r). split; [apply register_ops|].
  pose proof (lookup_ops (List.concat calls) r n (x_spec c) K S) as L. destruct (in_force _ n (x_spec c)) as [d|].
  - apply name_resolves; [exact N|]. rewrite M, L. cbn [option_map]. now rewrite decl_init.
  - intros cd. rewrite !name_resolves by exact N. rewrite M, L. unfold lookup. rewrite module_type_empty, to_lower_idem.
    unfold specialVersionCodec. cbn [reg_env e_special e_reg]. now rewrite S.
Qed.
Example C31_case : Forall key_ok (map fst [(Ranged "Weight" 5 (Some 9), DSet ["a"] 8); (Ranged "weight" 8 None, DSet ["b"] 8); (Plain "WEIGHT", DStruct [("x", "u8")])])
  /\ (let h := [(Ranged "Weight" 5 (Some 9), DSet ["a"] 8); (Ranged "weight" 8 None, DSet ["b"] 8); (Plain "WEIGHT", DStruct [("x", "u8")])] in
      in_force h "Weight" 9 = Some (DSet ["a"] 8) /\ in_force h "Weight" 10 = Some (DSet ["b"] 8) /\ in_force h "Weight" 4 = Some (DStruct [("x", "u8")])
      /\ map key_text (map fst h) = ["Weight#5-9"; "weight#8-?"; "WEIGHT"]).
Proof.
  assert (N : name_ok "Weight" /\ name_ok "weight" /\ name_ok "WEIGHT").
  { unfold name_ok. repeat split; try discriminate; cbn [s2b list_ascii_of_string]; repeat (constructor; [unfold name_char; vm_compute; intuition congruence|]); constructor. }
  destruct N as (N1 & N2 & N3). split; [|vm_compute; auto].
  repeat (constructor; [cbn [map fst key_ok]; repeat split; try apply N1; try apply N2; try apply N3; vm_compute; congruence|]). constructor.
Qed.

(** ** C30 *)
Definition plain (k : key) : Prop := match k with Plain _ => True | _ => False end.
Lemma plain_force ops n spec : Forall plain (map fst ops) -> in_force ops n spec = last_plain ops n.
Proof.
  intros P. unfold in_force. replace (first_range ops n spec) with (@None decl); [reflexivity|].
  induction ops as [|[[n'|] d] ops IH]; [reflexivity| |]; cbn [map fst] in P; inversion P; subst; [|contradiction].
  cbn [first_range covers]. now apply IH.
Qed.
(** The last registration of a name, in any letter case, is the one in force;
    other names do not matter. *)
Theorem C30_last_wins_partial fuel calls r c n : Forall key_ok (map fst (List.concat calls)) -> Forall plain (map fst (List.concat calls)) ->
  name_ok n -> x_module c = "" -> assoc (to_lower n) (r_special r) = None ->
  exists r', register fuel calls r = Ok r' /\
  match last_plain (List.concat calls) n with
  | Some d => resolves (reg_env r') c n (decl_codec d)
  | None => forall cd, resolves (reg_env r') c n cd <-> resolves (reg_env r) c n cd
  end.
Proof. intros K P N M S. rewrite <- (plain_force _ n (x_spec c) P). now apply C31_versions. Qed.
(** Letter case never matters, in any registry and module. *)
Theorem C30_case E c n n' cd : name_ok n -> name_ok n' -> equal_fold n n' = true -> resolves E c n cd <-> resolves E c n' cd.
Proof.
  intros N N' F. apply String.eqb_eq in F. rewrite !name_resolves by assumption. unfold lookup. now rewrite F.
Qed.
(** An alias of a registered name is a copy made when the alias is registered:
    no later history without the alias's name changes it. *)
Definition alias_entry (t : string) : tstruct := TStruct "string" t [] [] 0 false 0.
Theorem C30_alias fuel calls r c a t cd : name_ok a -> name_ok t -> assoc (to_lower t) (r_types r) = Some cd ->
  Forall key_ok (map fst (List.concat calls)) -> (forall k d, In (k, d) (List.concat calls) -> forall spec, covers k a spec = false) ->
  last_plain (List.concat calls) a = None -> x_module c = "" -> assoc (to_lower a) (r_special r) = None ->
  exists r1 r2, RegCustomTypes fuel [(a, alias_entry t)] r = Ok r1 /\ register fuel calls r1 = Ok r2 /\ resolves (reg_env r2) c a (init_sub cd "").
Proof.
  intros Na Nt H K NC NP M S. set (r1 := with_types (upd (to_lower a) cd) r).
  exists r1, (reg_ops (List.concat calls) r1). split; [|split; [apply register_ops|]].
  - unfold RegCustomTypes. cbn [reg_loop]. unfold v14_step. cbn [alias_entry t_v14 bind t_type String.eqb Ascii.eqb Bool.eqb].
    unfold reg_string. cbn [t_string alias_entry]. rewrite name_convert, H by exact Nt. cbn [bind].
    unfold regCustomKey. rewrite split_absent; [reflexivity|]. apply name_lower_no; [exact Na|not_name].
  - apply name_resolves; [exact Na|]. rewrite M, lookup_ops by assumption.
    unfold in_force. rewrite NP. replace (first_range _ a (x_spec c)) with (@None decl).
    + cbn [r_types with_types r1]. unfold r1, upd. cbn [with_types r_types assoc]. now rewrite String.eqb_refl.
    + clear - NC. induction (List.concat calls) as [|[k d] ops IH]; [reflexivity|]. cbn [first_range].
      rewrite (NC k d) by now left. apply IH. intros k' d' I. apply (NC k' d'). now right.
Qed.
(** Where the claim fails: an alias of a generic other than Vec, Option,
    Compact, BTreeMap and BTreeSet, or of a name registered later, registers
    nothing; a name starting with BoundedBTreeSet is looked up under another
    name; and a type from V14 metadata is not replaced. *)
Definition v14_entry (d : tstruct) : tstruct := TStruct (t_type d) (t_string d) (t_mapping d) (t_values d) (t_bits d) true (t_spec d).
Theorem C30_lookup_refuted :
  (exists r', RegCustomTypes 5 [("Outcome", alias_entry "Result<u8,u16>")] base_reg = Ok r' /\ GetCodecClass (reg_env r') "" "Outcome" 0 = Ok None)
  /\ (exists r', RegCustomTypes 5 [("A", alias_entry "B")] base_reg = Ok r' /\ GetCodecClass (reg_env r') "" "A" 0 = Ok None)
  /\ (exists r', RegCustomTypes 5 [("BoundedBTreeSetX", decl_entry (DSet ["a"] 8))] base_reg = Ok r' /\ GetCodecClass (reg_env r') "" "BoundedBTreeSetX" 0 = Ok None)
  /\ (exists r1 r2, RegCustomTypes 5 [("S", v14_entry (decl_entry (DSet ["a"] 8)))] base_reg = Ok r1
      /\ RegCustomTypes 5 [("S", v14_entry (decl_entry (DSet ["b"] 8)))] r1 = Ok r2
      /\ resolves (reg_env r2) (Ctx 0 "" None) "S" (CSet ["a"] 8)).
Proof.
  split; [eexists; split; vm_compute; reflexivity|]. split; [eexists; split; vm_compute; reflexivity|]. split; [eexists; split; vm_compute; reflexivity|].
  eexists _, _. split; [vm_compute; reflexivity|]. split; [vm_compute; reflexivity|]. res.
Qed.

(** ** C33: the override table of types/override, module by module. *)
Definition overrides : list (string * string * string) :=
  [ ("parasInclusion", "validatorindex", "ParaValidatorIndex"); ("inclusion", "validatorindex", "ParaValidatorIndex");
    ("parasScheduler", "validatorindex", "ParaValidatorIndex"); ("parasShared", "validatorindex", "ParaValidatorIndex");
    ("scheduler", "validatorindex", "ParaValidatorIndex"); ("paraDisputes", "validatorindex", "ParaValidatorIndex");
    ("parasDisputes", "validatorindex", "ParaValidatorIndex"); ("shared", "validatorindex", "ParaValidatorIndex");
    ("assets", "approval", "AssetApproval"); ("assets", "approvalkey", "AssetApprovalKey"); ("assets", "balance", "TAssetBalance");
    ("assets", "destroywitness", "AssetDestroyWitness"); ("beefy", "authorityid", "BeefyId");
    ("ethereum", "block", "EthBlock"); ("ethereum", "header", "EthHeader"); ("ethereum", "receipt", "EthReceipt");
    ("ethereum", "transaction", "EthTransaction"); ("ethereum", "transactionstatus", "EthTransactionStatus");
    ("bridgemultisig", "timepoint", "BridgeTimepoint") ].
(** Inside a listed module whose name is all lower case in the table, the type
    is the unversioned definition of the overriding name. *)
Theorem C33_override_partial E c m t o ts : In (m, t, o) overrides -> to_lower m = m -> to_lower (x_module c) = m -> name_ok ts -> to_lower ts = t ->
  assoc o (e_special E) = None -> forall cd0, assoc (to_lower o) (e_reg E) = Some cd0 -> resolves E c ts (init_sub cd0 "").
Proof.
  intros I LM HM N HT NS cd0 R. apply name_resolves; [exact N|]. unfold lookup. rewrite HT.
  assert (K : ModuleType t (x_module c) = o).
  { unfold ModuleType. destruct (String.eqb_spec (x_module c) "") as [Q|_].
    - exfalso. rewrite Q in HM. cbn in HM. subst m. cbn [overrides In] in I. repeat (destruct I as [I|I]; [discriminate|]). contradiction.
    - rewrite HM. cbn [overrides In] in I.
      repeat (destruct I as [I|I]; [injection I as <- <- <-; first [discriminate LM | reflexivity]|]). contradiction. }
  rewrite K. unfold specialVersionCodec. now rewrite NS, R.
Qed.
(** The five module names written with a capital letter are never matched:
    the lookup lower-cases the module but not the table. *)
Theorem C33_capitals_refuted E m t : In m ["parasInclusion"; "parasScheduler"; "parasShared"; "paraDisputes"; "parasDisputes"] ->
  ModuleType t m = t /\ forall spec n cd, name_ok n -> resolves E (Ctx spec m None) n cd <-> resolves E (Ctx spec "" None) n cd.
Proof.
  intros I. assert (H : forall t, ModuleType t m = t).
  { intros t'. cbn [In] in I. repeat (destruct I as [<-|I]; [reflexivity|]). contradiction. }
  split; [apply H|]. intros spec n cd N. rewrite !name_resolves by exact N. unfold lookup. cbn [x_module x_spec]. now rewrite H.
Qed.
(** Versioned definitions of the overriding type are missed, because the
    overriding name keeps its capitals. *)
Theorem C33_versions_refuted :
  exists r, RegCustomTypes 5 [("BridgeTimepoint", decl_entry (DSet ["plain"] 8)); ("BridgeTimepoint#0-9", decl_entry (DSet ["v"] 8))] base_reg = Ok r
  /\ resolves (reg_env r) (Ctx 5 "" None) "BridgeTimepoint" (CSet ["v"] 8)
  /\ resolves (reg_env r) (Ctx 5 "bridgemultisig" None) "Timepoint" (CSet ["plain"] 8).
Proof. eexists. split; [vm_compute; reflexivity|]. split; res. Qed.
Example C33_case : exists r, RegCustomTypes 5 [("EthBlock", decl_entry (DSet ["eth"] 8)); ("Block", decl_entry (DSet ["own"] 8))] base_reg = Ok r
  /\ resolves (reg_env r) (Ctx 5 "Ethereum" None) "Block" (CSet ["eth"] 8) /\ resolves (reg_env r) (Ctx 5 "" None) "Block" (CSet ["own"] 8).
Proof. eexists. split; [vm_compute; reflexivity|]. split; res. Qed.

Print Assumptions C30_last_wins_partial.
Print Assumptions C30_case.
Print Assumptions C30_alias.
Print Assumptions C30_lookup_refuted.
Print Assumptions C31_versions.
Print Assumptions C33_override_partial.
Print Assumptions C33_capitals_refuted.
Print Assumptions C33_versions_refuted.
