(** An ExtrinsicDecoder that is used more than once (C79). *)

From Verif Require Import GoBase SpecNum ProofsBase ModelTools ProofsTools ModelVal ModelRegistry ModelDecode ModelEncode ModelScaleInfo ModelMetadata ModelRegister ProofsRun ModelExtrinsic ModelExtrinsicUse PropExtrinsic ProofsPallet SpecScale ProofsReads PropCalls.

(** What a run sees of the decoder: the options in force, where Init has left
    the spec version and the pallet of an earlier run if the caller gave none. *)
Definition in_force (d : xdec) (opt : xopt) : xopt :=
  XOpt (if xo_spec opt =? 0 then d_spec d else xo_spec opt) (if String.eqb (xo_module opt) "" then d_module d else xo_module opt)
    (xo_version opt) (xo_extra opt) (xo_calls opt) (xo_signed opt) (xo_check opt).
(** A signer or signature with nothing to show leaves the last one in place. *)
Definition tells (v : val) : bool := match v with VStr _ => true | VMap (_ :: _) => true | _ => false end.
Definition is_signed (g : generic) : bool := String.eqb (g_version g) "84" || String.eqb (g_version g) "85".
Definition left_over (d : xdec) (g : generic) : generic :=
  Generic (g_version g) (g_length g) (g_address_type g) (g_tip g) (g_exts g)
    (if is_signed g && negb (tells (g_signer g)) then d_address d else g_account g) (g_signer g)
    (if is_signed g && negb (tells (g_signature_raw g)) then d_signature d else g_signature g) (g_signature_raw g)
    (g_nonce g) (g_era g) (g_hash g) (g_function g) (g_code g) (g_module g) (g_params g) (g_raw g) (g_ext_version g).
Definition on_ok {A B} (f : A -> B) (r : res A) : res B :=
  match r with Ok a => Ok (f a) | Panic m => Panic m | OutOfFuel => OutOfFuel end.

Section Proofs.
Variable fuel : nat.
Variable E : env.
Variable H : bytes -> bytes.

Definition opt_of (d : xdec) : xopt :=
  XOpt (d_spec d) (d_module d) (xo_version (d_opt d)) (xo_extra (d_opt d)) (xo_calls (d_opt d)) (xo_signed (d_opt d)) (xo_check (d_opt d)).

(** [a] does to the decoder what [r] says, apart from the address and the
    signature, which [w] describes. *)
Definition follows {A} (w : A -> xdec -> xdec) (d : xdec) (a : act A) (r : res (A * Z)) : Prop :=
  match r with
  | Ok (x, o) => exists L, a d = (Ok x, with_off o (with_calls L (w x d)))
  | Panic m => exists d', a d = (Panic m, d')
  | OutOfFuel => exists d', a d = (OutOfFuel, d')
  end.
Definition same {A} (x : A) (d : xdec) : xdec := d.
Notation old f d := (f fuel E (opt_of d) (d_data d) (d_module d)).

Lemma calls_twice L L' o o' d : with_off o' (with_calls L' (with_off o (with_calls L d))) = with_off o' (with_calls (L ++ L') d).
Proof. unfold with_off, with_calls. cbn. now rewrite app_assoc. Qed.
Lemma no_calls o d : with_off o d = with_off o (with_calls [] d).
Proof. unfold with_off, with_calls. cbn. now rewrite app_nil_r. Qed.

Lemma follows_bind {A B} d (a : act A) (r : res (A * Z)) (k : A -> act B) (k' : A -> Z -> res (B * Z)) :
  follows same d a r -> (forall x o L, follows same (with_off o (with_calls L d)) (k x) (k' x o)) ->
  follows same d (andthen a k) (bind r (fun p => let '(x, o) := p in k' x o)).
Proof.
  intros F K. destruct r as [[x o]|m|]; cbn [bind]; unfold follows in *; unfold andthen.
  - destruct F as [L E1]. rewrite E1. specialize (K x o L). unfold same in *. destruct (k' x o) as [[y o']|m|]; [|exact K|exact K].
    destruct K as [L' ->]. exists (L ++ L')%list. now rewrite calls_twice.
  - destruct F as [d' ->]. now exists d'.
  - destruct F as [d' ->]. now exists d'.
Qed.
Lemma follows_lift {A B} d (r : res A) (k : A -> act B) (k' : A -> res (B * Z)) :
  (forall x, follows same d (k x) (k' x)) -> follows same d (andthen (lift r) k) (bind r k').
Proof. intros K. unfold andthen, lift. destruct r; cbn [bind]; [apply K|now exists d|now exists d]. Qed.
Lemma follows_done {A} d (x : A) : follows same d (done x) (Ok (x, d_off d)).
Proof. exists []. unfold same. rewrite <- no_calls. now destruct d. Qed.

Lemma follows_pud d ts : follows same d (pud fuel E ts) (xpud fuel E (opt_of d) (d_data d) (d_module d) (d_off d) ts).
Proof.
  unfold follows, xpud, x_ctx, pud, same. cbn [xo_spec xo_calls opt_of].
  destruct (decode fuel E _ (d_data d) (d_off d) ts) as [[[v o] cs]|m|]; cbn [bind]; [now exists cs|now exists d|now exists d].
Qed.
Lemma follows_take d n : follows same d (take n) (next_bytes (d_data d) (d_off d) n).
Proof.
  unfold follows, take, same. destruct (next_bytes _ _ n) as [[b o]|m|]; [|now exists d|now exists d]. exists []. now rewrite <- no_calls.
Qed.
Lemma follows_tip d : follows same d (u_tip fuel E) (read_tip fuel E (opt_of d) (d_data d) (d_module d) (d_off d)).
Proof.
  unfold u_tip, read_tip. apply follows_bind; [apply follows_pud|]. intros v o L.
  unfold lift. destruct (DecimalFromInterface v) as [t|m|]; cbn [bind follows]; [|eauto|eauto]. exists []. unfold same. now rewrite <- no_calls.
Qed.
Lemma follows_values l : forall d acc, follows same d (u_values fuel E l acc) (option_values fuel E (opt_of d) (d_data d) (d_module d) l acc (d_off d)).
Proof.
  induction l as [|[n t] l IH]; intros d acc; cbn [u_values option_values]; [apply follows_done|].
  apply follows_bind; [apply follows_pud|]. intros v o L. apply IH.
Qed.
Lemma follows_option ids l : forall d acc, follows same d (u_option_exts fuel E ids l acc) (option_exts fuel E (opt_of d) (d_data d) (d_module d) ids l acc (d_off d)).
Proof.
  induction l as [|[n vs] l IH]; intros d acc; cbn [u_option_exts option_exts]; [apply follows_done|].
  apply follows_bind; [destruct (negb _); [apply follows_values|apply follows_done]|]. intros v o L. apply IH.
Qed.
Lemma follows_meta l : forall d tip acc, follows same d (u_meta_exts fuel E (xo_check (d_opt d)) l tip acc) (meta_exts fuel E (opt_of d) (d_data d) (d_module d) l tip acc (d_off d)).
Proof.
  induction l as [|[id ts] l IH]; intros d tip acc; cbn [u_meta_exts meta_exts]; [apply follows_done|].
  cbn [opt_of xo_check]. destruct (sent (xo_check (d_opt d)) id); [|apply IH].
  destruct (String.eqb id "ChargeTransactionPayment"); (apply follows_bind; [first [apply follows_tip|apply follows_pud]|]; intros v o L; exact (IH (with_off o (with_calls L d)) _ _)).
Qed.

Lemma get_then {A B} (f : xdec -> A) (k : A -> act B) d : andthen (get f) k d = k (f d) d.
Proof. reflexivity. Qed.
Lemma follows_get {A B} (f : xdec -> A) (k : A -> act B) d r : follows same d (k (f d)) r -> follows same d (andthen (get f) k) r.
Proof. intros K. exact K. Qed.
Lemma follows_v4 d : follows same d (u_extra_v4 fuel E) (extra_v4 fuel E (opt_of d) (d_data d) (d_module d) (d_off d)).
Proof.
  unfold u_extra_v4, extra_v4. apply follows_get. cbn [opt_of xo_extra xo_version xo_signed].
  apply follows_bind.
  - destruct (xo_extra (d_opt d)) as [x|]; [destruct (_ && _)|]; try apply follows_tip; apply follows_done.
  - intros tip o L. destruct (xo_signed (d_opt d)) as [|e l].
    + destruct (14 <=? xo_version (d_opt d)); [|exact (follows_done (with_off o (with_calls L d)) (tip, []))].
      destruct (xo_extra (d_opt d)) as [x|]; [exact (follows_meta (xe_exts x) (with_off o (with_calls L d)) tip [])|eexists; reflexivity].
    + destruct (xo_extra (d_opt d)) as [x|]; [|eexists; reflexivity].
      apply (follows_bind (with_off o (with_calls L d)) _ _ (fun acc => done (tip, acc)) (fun acc o => Ok (tip, acc, o))); [apply (follows_option _ _ (with_off o (with_calls L d)))|].
      intros acc o' L'. exact (follows_done (with_off o' (with_calls L' (with_off o (with_calls L d)))) (tip, acc)).
Qed.
Lemma follows_v5 d : follows same d (u_extra_v5 fuel E) (extra_v5 fuel E (opt_of d) (d_data d) (d_module d) (d_off d)).
Proof.
  unfold u_extra_v5, extra_v5. apply follows_get. cbn [opt_of xo_extra].
  destruct (xo_extra (d_opt d)) as [x|]; [apply follows_meta|exists d; reflexivity].
Qed.

(** The address and the signature after a run. *)
Definition new_address (v old : val) : val := if tells v then fst (address_of v) else old.
Definition new_signature (v : val) (s old : string) : string := if tells v then s else old.
Lemma address_step v d : u_address v d = (Ok (snd (address_of v)), with_address (new_address v (d_address d)) d).
Proof.
  assert (ID : with_address (d_address d) d = d) by now destruct d.
  destruct v; try (unfold new_address; cbn [tells]; rewrite ID; reflexivity); [reflexivity|].
  destruct m as [|[n x] m]; [unfold new_address; cbn [tells]; rewrite ID; reflexivity|].
  unfold new_address. cbn [tells u_address address_of fold_left]. cbn [snd fst]. unfold andthen, write, done. cbn.
  revert n x d ID. induction m as [|[n' x'] m IH]; intros n x d ID; [reflexivity|]. cbn [fold_left fst snd].
  specialize (IH n' x' (with_address x d)). rewrite IH; [reflexivity|now destruct d].
Qed.
Lemma signature_step v d :
  match signature_of v with
  | Ok s => u_signature v d = (Ok tt, with_signature (new_signature v s (d_signature d)) d)
  | Panic m => exists d', u_signature v d = (Panic m, d')
  | OutOfFuel => False
  end.
Proof.
  assert (ID : with_signature (d_signature d) d = d) by now destruct d.
  destruct v; try (unfold new_signature; cbn [tells signature_of]; rewrite ID; reflexivity); [reflexivity|].
  destruct m as [|[n x] m]; [unfold new_signature; cbn [tells signature_of fold_left]; rewrite ID; reflexivity|].
  assert (PP : forall (m : list (string * val)) e, fold_left (fun (a : res string) (p : string * val) => _ <- a ;; match snd p with VStr s => Ok s | _ => Panic "interface conversion: interface {} is not string" end) m (Panic e : res string) = Panic e).
  { clear. induction m as [|p m IH]; intros e; [reflexivity|]. cbn [fold_left bind]. apply IH. }
  unfold new_signature. cbn [tells u_signature signature_of fold_left bind snd]. clear ID. revert n x d. induction m as [|[n' x'] m IH]; intros n x d.
  - destruct x; cbn; try reflexivity; exists d; reflexivity.
  - destruct x; try (rewrite PP; exists d; reflexivity). cbn [fold_left bind snd]. specialize (IH n' x' (with_signature s d)).
    destruct (fold_left _ m _) as [t|e|]; [|exact IH|exact IH]. cbn [andthen write] in *. unfold andthen, write. exact IH.
Qed.

Definition blank (s : sigpart) : sigpart := SigPart (sp_signer s) (sp_sig s) "" (sp_extver s) (sp_era s) (sp_nonce s) (sp_tip s) (sp_exts s).
Definition after_sign (s : sigpart) (d : xdec) : xdec :=
  with_signature (new_signature (sp_sig s) (sp_sigtext s) (d_signature d)) (with_address (new_address (sp_signer s) (d_address d)) d).
Lemma andthen_ok {A B} (a : act A) (k : A -> act B) d x d' : a d = (Ok x, d') -> andthen a k d = k x d'.
Proof. intros E1. unfold andthen. now rewrite E1. Qed.
Lemma andthen_panic {A B} (a : act A) (k : A -> act B) d m d' : a d = (Panic m, d') -> andthen a k d = (Panic m, d').
Proof. intros E1. unfold andthen. now rewrite E1. Qed.
Lemma andthen_fuel {A B} (a : act A) (k : A -> act B) d d' : a d = (OutOfFuel, d') -> andthen a k d = (OutOfFuel, d').
Proof. intros E1. unfold andthen. now rewrite E1. Qed.

Lemma lift_ok {A B} (x : A) (k : A -> act B) d : andthen (lift (Ok x)) k d = k x d. Proof. reflexivity. Qed.

Ltac stop := let d' := fresh "d'" in
  match goal with
  | F : exists d', _ = (Panic _, d') |- _ => destruct F as [d' F]; exists d'; first [exact (andthen_panic _ _ _ _ _ F)|exact F]
  | F : exists d', _ = (OutOfFuel, d') |- _ => destruct F as [d' F]; exists d'; first [exact (andthen_fuel _ _ _ _ F)|exact F]
  end.
(** One ProcessAndUpdateData on both sides. *)
Ltac step d v o := match goal with |- context [andthen (pud fuel E ?ts) _ ?d0] =>
  let F := fresh "F" in pose proof (follows_pud d0 ts) as F;
  match type of F with follows _ _ _ ?r =>
    match goal with |- context [xpud fuel E (opt_of d) (d_data d) (d_module d) ?off ts] =>
      change r with (xpud fuel E (opt_of d) (d_data d) (d_module d) off ts) in F;
      destruct (xpud fuel E (opt_of d) (d_data d) (d_module d) off ts) as [[v o]|?|]; cbn [bind]; unfold follows, same in F; [|solve [stop]|solve [stop]];
      let L := fresh "L" in destruct F as [L F]; rewrite (andthen_ok _ _ _ _ _ F); clear F
    end
  end
end.

Lemma signed_step v5 d :
  match signed_part fuel E (opt_of d) (d_data d) v5 (d_module d) (d_off d) with
  | Ok (s, o) => exists L, u_signed fuel E v5 d = (Ok (snd (address_of (sp_signer s)), blank s), with_off o (with_calls L (after_sign s d)))
  | Panic m => exists d', u_signed fuel E v5 d = (Panic m, d')
  | OutOfFuel => exists d', u_signed fuel E v5 d = (OutOfFuel, d')
  end.
Proof.
  unfold signed_part, u_signed. rewrite get_then. cbn [opt_of xo_version]. fold (opt_of d).
  step d signer o1. rewrite (andthen_ok _ _ _ _ _ (address_step signer _)).
  step d sg o2.
  set (d2 := with_off o2 _).
  assert (X : follows same d2 (if v5 then andthen (pud fuel E "U8") (fun v => match v with VInt z => done z | _ => lift (Panic "interface conversion: interface {} is not int") end) else done 0)
     (if v5 : bool then '(v, o) <- xpud fuel E (opt_of d) (d_data d) (d_module d) o2 "U8" ;; match v with VInt z => Ok (z, o) | _ => Panic "interface conversion: interface {} is not int" end else Ok (0, o2))).
  { destruct v5; [|exact (follows_done d2 0)]. apply (follows_bind d2 _ _ _ (fun v o => match v with VInt z => Ok (z, o) | _ => Panic "interface conversion: interface {} is not int" end)); [exact (follows_pud d2 "U8")|].
    intros v o L1. destruct v; try (eexists; reflexivity). exact (follows_done (with_off o (with_calls L1 d2)) z). }
  match type of X with follows _ _ _ ?r => destruct r as [[xv o3]|?|] end; cbn [bind]; unfold follows, same in X; [|solve [stop]|solve [stop]].
  destruct X as [L1 X]. rewrite (andthen_ok _ _ _ _ _ X). clear X. set (d3 := with_off o3 _).
  pose proof (signature_step sg d3) as X. destruct (signature_of sg) as [st|?|]; cbn [bind]; [|solve [stop]|contradiction].
  rewrite (andthen_ok _ _ _ _ _ X). clear X. subst d3 d2.
  step d v4 o4. destruct (as_string v4) as [era|?|]; cbn [bind]; [|eexists; reflexivity|eexists; reflexivity].
  rewrite lift_ok. step d v5' o5. destruct (as_nonce v5') as [nonce|?|]; cbn [bind]; [|eexists; reflexivity|eexists; reflexivity].
  rewrite lift_ok. set (d5 := with_off o5 _).
  assert (X : follows same d5 (if v5 then u_extra_v5 fuel E else u_extra_v4 fuel E)
    (if v5 : bool then extra_v5 fuel E (opt_of d) (d_data d) (d_module d) o5 else extra_v4 fuel E (opt_of d) (d_data d) (d_module d) o5)).
  { destruct v5; [exact (follows_v5 d5)|exact (follows_v4 d5)]. }
  match type of X with follows _ _ _ ?r => destruct r as [[[tip exts] o6]|?|] end; cbn [bind]; unfold follows, same in X; [|solve [stop]|solve [stop]].
  destruct X as [L5 X]. rewrite (andthen_ok _ _ _ _ _ X). clear X. subst d5. unfold done. cbn [sp_signer].
  exists (L ++ L0 ++ L1 ++ L2 ++ L3 ++ L5)%list. clear. destruct d as [dd off sp md ad sg' ps cs op].
  cbv [after_sign blank with_off with_calls with_address with_signature d_data d_off d_spec d_module d_address d_signature d_params d_calls d_opt
       sp_signer sp_sig sp_sigtext sp_extver sp_era sp_nonce sp_tip sp_exts fst snd]. rewrite <- !app_assoc. reflexivity.
Qed.

Definition with_params (ps : list xparam) (d : xdec) : xdec :=
  XDec (d_data d) (d_off d) (d_spec d) (d_module d) (d_address d) (d_signature d) (d_params d ++ ps)%list (d_calls d) (d_opt d).
Lemma args_step l : forall d,
  match args_loop fuel E (opt_of d) (d_data d) (d_module d) l (d_off d) with
  | Ok (ps, o) => exists L, u_args fuel E l d = (Ok tt, with_off o (with_calls L (with_params ps d)))
  | Panic m => exists d', u_args fuel E l d = (Panic m, d')
  | OutOfFuel => exists d', u_args fuel E l d = (OutOfFuel, d')
  end.
Proof.
  induction l as [|a l IH]; intros d; cbn [args_loop u_args].
  - exists []. destruct d. unfold done, with_off, with_calls, with_params. cbn. now rewrite !app_nil_r.
  - step d v o. match goal with |- context [andthen (write ?f) ?k ?d0] => change (andthen (write f) k d0) with (k tt (f d0)) end. cbv beta.
    match goal with |- context [u_args fuel E l ?d1] => specialize (IH d1); set (d2 := d1) in * end.
    change (args_loop fuel E (opt_of d2) (d_data d2) (d_module d2) l (d_off d2)) with (args_loop fuel E (opt_of d) (d_data d) (d_module d) l o) in IH.
    destruct (args_loop fuel E (opt_of d) (d_data d) (d_module d) l o) as [[ps o']|m|]; cbn [bind]; [|exact IH|exact IH].
    destruct IH as [L' ->]. exists (L ++ L')%list. subst d2. destruct d. unfold with_param, with_off, with_calls, with_params. cbn. rewrite <- !app_assoc. reflexivity.
Qed.

Definition end_address (g : generic) (old : val) : val := if is_signed g then new_address (g_signer g) old else old.
Definition end_signature (g : generic) (old : string) : string := if is_signed g then new_signature (g_signature_raw g) (g_signature g) old else old.

Lemma args_opt o1 o2 data m l : xo_spec o1 = xo_spec o2 -> xo_calls o1 = xo_calls o2 -> forall off, args_loop fuel E o1 data m l off = args_loop fuel E o2 data m l off.
Proof.
  intros S C. assert (X : forall off ts, xpud fuel E o1 data m off ts = xpud fuel E o2 data m off ts) by (intros; unfold xpud, x_ctx; now rewrite S, C).
  induction l as [|a l IH]; intros off; cbn [args_loop]; [reflexivity|]. rewrite X. destruct (xpud fuel E o2 data m off (a_type a)) as [[v o]|e|]; cbn [bind]; try reflexivity. now rewrite IH.
Qed.
Ltac body_tail d d2 d3 o2 :=
  let X := fresh "X" in pose proof (follows_take d2 2) as X; change (next_bytes (d_data d2) (d_off d2) 2) with (next_bytes (d_data d) o2 2) in X;
  destruct (next_bytes (d_data d) o2 2) as [[bc o3]|m|]; cbn [bind]; unfold follows, same in X; [|solve [stop]|solve [stop]];
  let L := fresh "L2" in destruct X as [L X]; rewrite (andthen_ok _ _ _ _ _ X); clear X;
  destruct (String.eqb (BytesToHex bc) ""); [eexists; reflexivity|]; rewrite get_then;
  match goal with |- context [d_opt (with_off ?o ?x)] => change (d_opt (with_off o x)) with (d_opt d) end;
  destruct (assoc (BytesToHex bc) (xo_calls (d_opt d))) as [en|]; [|eexists; reflexivity];
  match goal with |- context [andthen (write ?f) ?k ?d0] => change (andthen (write f) k d0) with (k tt (f d0)) end; cbv beta;
  match goal with |- context [andthen (get d_off) ?k ?d0] => set (d3 := d0); change (andthen (get d_off) k d3) with (k o3 d3) end; cbv beta;
  pose proof (args_step (k_args (en_item en)) d3) as X;
  rewrite (args_opt (opt_of d3) (opt_of d) (d_data d3) (d_module d3) (k_args (en_item en)) eq_refl eq_refl (d_off d3)) in X;
  change (args_loop fuel E (opt_of d) (d_data d3) (d_module d3) (k_args (en_item en)) (d_off d3)) with
    (args_loop fuel E (opt_of d) (d_data d) (en_module en) (k_args (en_item en)) o3) in X;
  destruct (args_loop fuel E (opt_of d) (d_data d) (en_module en) (k_args (en_item en)) o3) as [[ps o4]|m|]; cbn [bind]; [|solve [stop]|solve [stop]];
  let L' := fresh "L3" in destruct X as [L' X]; rewrite (andthen_ok _ _ _ _ _ X); clear X; subst d3; rewrite !get_then;
  match goal with |- context [andthen (lift (slice ?dt ?a ?z)) ?k ?dd] => change (andthen (lift (slice dt a z)) k dd) with (andthen (lift (slice (d_data d) o3 o4)) k dd) end;
  destruct (slice (d_data d) o3 o4) as [raw|m|]; cbn [bind]; [|eexists; reflexivity|eexists; reflexivity];
  rewrite lift_ok, !get_then.

Lemma body_step length d : d_params d = [] ->
  match extrinsic_body fuel E H (opt_of d) (d_data d) length (d_off d) with
  | Ok g => exists o L, u_body fuel E H length d = (Ok (left_over d g),
      XDec (d_data d) o (d_spec d) (g_module g) (end_address g (d_address d)) (end_signature g (d_signature d)) (g_params g) (d_calls d ++ L)%list (d_opt d))
  | Panic m => exists d', u_body fuel E H length d = (Panic m, d')
  | OutOfFuel => exists d', u_body fuel E H length d = (OutOfFuel, d')
  end.
Proof.
  intros NP. unfold extrinsic_body, u_body. cbv zeta. change (xo_module (opt_of d)) with (d_module d). change (xo_calls (opt_of d)) with (xo_calls (d_opt d)).
  pose proof (follows_take d 1) as X. destruct (next_bytes (d_data d) (d_off d) 1) as [[b o1]|m|]; cbn [bind]; unfold follows, same in X; [|solve [stop]|solve [stop]].
  destruct X as [L0 X]. rewrite (andthen_ok _ _ _ _ _ X). clear X. set (d1 := with_off o1 _).
  destruct (ModelTools.U256 (BytesToHex b)) as [z|] eqn:U; cbn [bind]; [|eexists; reflexivity].
  match goal with |- context [andthen (done ?x) ?k d1] => change (andthen (done x) k d1) with (k x d1) end. cbv beta.
  set (vs := BytesToHex b) in *.
  destruct (String.eqb vs "04" || String.eqb vs "84" || (String.eqb vs "05" || String.eqb vs "85")) eqn:V; cbn [negb]; [|eexists; reflexivity].
  assert (SG : (80 <=? i64 z) = String.eqb vs "84" || String.eqb vs "85").
  { clearbody vs. destruct (String.eqb_spec vs "04") as [->|]; [vm_compute in U; injection U as <-; reflexivity|].
    destruct (String.eqb_spec vs "84") as [->|]; [vm_compute in U; injection U as <-; reflexivity|].
    destruct (String.eqb_spec vs "05") as [->|]; [vm_compute in U; injection U as <-; reflexivity|].
    destruct (String.eqb_spec vs "85") as [->|]; [vm_compute in U; injection U as <-; reflexivity|]. discriminate V. }
  rewrite SG. destruct (String.eqb vs "84" || String.eqb vs "85") eqn:SV.
  - pose proof (signed_step (negb (String.eqb vs "04" || String.eqb vs "84")) d1) as X.
    change (signed_part fuel E (opt_of d1) (d_data d1) (negb (String.eqb vs "04" || String.eqb vs "84")) (d_module d1) (d_off d1))
      with (signed_part fuel E (opt_of d) (d_data d) (negb (String.eqb vs "04" || String.eqb vs "84")) (d_module d) o1) in X.
    destruct (signed_part fuel E (opt_of d) (d_data d) (negb (String.eqb vs "04" || String.eqb vs "84")) (d_module d) o1) as [[s o2]|m|]; cbn [bind].
    2: { destruct X as [d' X]. exists d'. unfold andthen at 1. unfold andthen at 1. rewrite X. reflexivity. }
    2: { destruct X as [d' X]. exists d'. unfold andthen at 1. unfold andthen at 1. rewrite X. reflexivity. }
    destruct X as [L1 X].
    rewrite (andthen_ok (andthen _ _) _ _ _ _ (andthen_ok _ _ _ _ _ X)). clear X. subst d1. set (d2 := with_off o2 _).
    body_tail d d2 d3 o2.
    exists o4, (L0 ++ L1 ++ L2 ++ L3)%list. subst d2. unfold done. clear - NP SV.
    destruct d as [dd off sp md ad sg ps0 cs op]. cbn [d_params] in NP. subst ps0.
    unfold left_over, is_signed, end_address, end_signature, is_signed. destruct (address_of (sp_signer s)) as [acc at_] eqn:AD.
    cbn [g_version g_length g_address_type g_tip g_exts g_account g_signer g_signature g_signature_raw g_nonce g_era g_hash g_function g_code g_module g_params g_raw g_ext_version].
    rewrite SV. unfold new_address, new_signature. rewrite ?AD.
    destruct s as [a1 a2 a3 a4 a5 a6 a7 a8].
    cbv [after_sign blank with_off with_calls with_address with_signature with_module with_params d_data d_off d_spec d_module d_address d_signature d_params d_calls d_opt
       sp_signer sp_sig sp_sigtext sp_extver sp_era sp_nonce sp_tip sp_exts fst snd new_address new_signature] in *.
    rewrite AD. rewrite <- !app_assoc. cbn [andb]. destruct (tells a1), (tells a2); reflexivity.
  - cbn [bind]. match goal with |- context [andthen (done ?x) ?k d1] => change (andthen (done x) k d1) with (k x d1) end. cbv beta. subst d1. set (d2 := with_off o1 _).
    body_tail d d2 d3 o1.
    exists o4, (L0 ++ L2 ++ L3)%list. subst d2. unfold done. clear - NP SV.
    destruct d as [dd off sp md ad sg ps0 cs op]. cbn [d_params] in NP. subst ps0.
    unfold left_over, is_signed, end_address, end_signature, is_signed.
    cbn [g_version g_length g_address_type g_tip g_exts g_account g_signer g_signature g_signature_raw g_nonce g_era g_hash g_function g_code g_module g_params g_raw g_ext_version].
    rewrite SV. 
    cbv [after_sign blank with_off with_calls with_address with_signature with_module with_params d_data d_off d_spec d_module d_address d_signature d_params d_calls d_opt
       sp_signer sp_sig sp_sigtext sp_extver sp_era sp_nonce sp_tip sp_exts fst snd new_address new_signature] in *.
    rewrite <- !app_assoc. reflexivity.
Qed.

Lemma process_step opt data d :
  match extrinsic_process fuel E H (in_force d opt) data with
  | Ok g => exists o L, u_process fuel E H (x_init opt data d) = (Ok (left_over d g),
      XDec data o (xo_spec (in_force d opt)) (g_module g) (end_address g (d_address d)) (end_signature g (d_signature d)) (g_params g) (d_calls d ++ L)%list opt)
  | Panic m => exists d', u_process fuel E H (x_init opt data d) = (Panic m, d')
  | OutOfFuel => exists d', u_process fuel E H (x_init opt data d) = (OutOfFuel, d')
  end.
Proof.
  unfold extrinsic_process, u_process. pose proof (follows_pud (x_init opt data d) "Compact<u32>") as X. set (d0 := x_init opt data d) in *.
  change (opt_of d0) with (in_force d opt) in X. change (d_data d0) with data in X. change (d_off d0) with 0 in X. change (d_module d0) with (xo_module (in_force d opt)) in X.
  destruct (xpud fuel E (in_force d opt) data (xo_module (in_force d opt)) 0 "Compact<u32>") as [[v o]|m|]; cbn [bind]; unfold follows, same in X; [|solve [stop]|solve [stop]].
  destruct X as [L0 X]. rewrite (andthen_ok _ _ _ _ _ X). clear X.
  set (d1 := with_off o (with_calls L0 d0)).
  destruct v; cbn [bind]; try (eexists; reflexivity).
  match goal with |- context [andthen (done ?x) ?k d1] => change (andthen (done x) k d1) with (k x d1) end. cbv beta.
  rewrite !get_then. change (d_data d1) with data. change (d_off d1) with o.
  assert (B : forall len o', match extrinsic_body fuel E H (in_force d opt) data len o' with
    | Ok g => exists o L, u_body fuel E H len (with_off o' d1) = (Ok (left_over d g),
      XDec data o (xo_spec (in_force d opt)) (g_module g) (end_address g (d_address d)) (end_signature g (d_signature d)) (g_params g) (d_calls d ++ L)%list opt)
    | Panic m => exists d', u_body fuel E H len (with_off o' d1) = (Panic m, d')
    | OutOfFuel => exists d', u_body fuel E H len (with_off o' d1) = (OutOfFuel, d') end).
  { intros len o'. pose proof (body_step len (with_off o' d1) eq_refl) as X.
    change (extrinsic_body fuel E H (opt_of (with_off o' d1)) (d_data (with_off o' d1)) len (d_off (with_off o' d1))) with
      (extrinsic_body fuel E H (in_force d opt) data len o') in X.
    destruct (extrinsic_body fuel E H (in_force d opt) data len o') as [g|m|]; [|exact X|exact X].
    destruct X as (o2 & L & X). exists o2, (L0 ++ L)%list. rewrite X, app_assoc. reflexivity. }
  destruct (z =? blen data - o).
  - specialize (B z o). change (with_off o d1) with d1 in B. exact B.
  - exact (B 0 0).
Qed.
End Proofs.

(** ** What a new decoder does is what ModelExtrinsic.v says *)
Lemma address_blank v : tells v = false -> fst (address_of v) = VNil.
Proof. destruct v; try reflexivity; try discriminate. destruct m; [reflexivity|discriminate]. Qed.
Lemma signature_blank v s : tells v = false -> signature_of v = Ok s -> s = "".
Proof. destruct v; cbn; try discriminate; try congruence. destruct m; [cbn; congruence|discriminate]. Qed.
Ltac inv_bind R := repeat match type of R with bind ?e _ = Ok _ => let F := fresh "F" in destruct e eqn:F; cbn [bind] in R; try discriminate R end.
Lemma signed_text_of fuel E opt data v5 m off s o : signed_part fuel E opt data v5 m off = Ok (s, o) -> signature_of (sp_sig s) = Ok (sp_sigtext s).
Proof.
  unfold signed_part. intros R.
  repeat match type of R with
  | bind ?e _ = Ok _ => let F := fresh "F" in destruct e eqn:F; cbn [bind] in R; try discriminate R
  | (let '(_, _) := ?p in _) = Ok _ => destruct p
  end.
  injection R as <- <-. cbn [sp_sig sp_sigtext]. assumption.
Qed.
Lemma process_blank fuel E H opt data g : extrinsic_process fuel E H opt data = Ok g ->
  (tells (g_signer g) = false -> g_account g = VNil) /\ (tells (g_signature_raw g) = false -> g_signature g = "").
Proof.
  unfold extrinsic_process. intros R.
  destruct (xpud fuel E opt data (xo_module opt) 0 "Compact<u32>") as [[v o]|m|]; cbn [bind] in R; try discriminate R.
  destruct (match v with VInt n => Ok n | _ => Panic _ end) as [n|m|]; cbn [bind] in R; try discriminate R.
  destruct (if n =? blen data - o then (n, o) else (0, 0)) as [len off]. unfold extrinsic_body in R. cbv zeta in R.
  destruct (next_bytes data off 1) as [[b o1]|m|]; cbn [bind] in R; try discriminate R.
  destruct (match ModelTools.U256 (BytesToHex b) with Some z => Ok (80 <=? i64 z) | None => nil_extra end) as [sg|m|]; cbn [bind] in R; try discriminate R.
  destruct (negb _); [discriminate R|].
  assert (K : forall sp o2, (if sg : bool then '(sp, o) <- signed_part fuel E opt data (negb (String.eqb (BytesToHex b) "04" || String.eqb (BytesToHex b) "84")) (xo_module opt) o1 ;; Ok (Some sp, o) else Ok (None, o1)) = Ok (sp, o2) ->
    match sp with Some s => signature_of (sp_sig s) = Ok (sp_sigtext s) | None => True end).
  { intros sp o2 G. destruct sg; [|now injection G as <- _].
    destruct (signed_part fuel E opt data _ (xo_module opt) o1) as [[s o']|m|] eqn:SP; cbn [bind] in G; try discriminate G. injection G as <- _. eapply signed_text_of; exact SP. }
  destruct (if sg : bool then '(sp, o) <- signed_part fuel E opt data _ (xo_module opt) o1 ;; Ok (Some sp, o) else Ok (None, o1)) as [[sp o2]|m|]; cbn [bind] in R; try discriminate R.
  specialize (K sp o2 eq_refl).
  destruct (next_bytes data o2 2) as [[bc o3]|m|]; cbn [bind] in R; try discriminate R.
  destruct (String.eqb (BytesToHex bc) ""); [discriminate R|]. destruct (assoc (BytesToHex bc) (xo_calls opt)) as [en|]; [|discriminate R].
  destruct (args_loop fuel E opt data (en_module en) (k_args (en_item en)) o3) as [[ps o4]|m|]; cbn [bind] in R; try discriminate R.
  destruct (slice data o3 o4) as [raw|m|]; cbn [bind] in R; try discriminate R. injection R as <-.
  destruct sp as [s|]; [|now split]. pose proof (address_blank (sp_signer s)) as A. destruct (address_of (sp_signer s)) as [acc at_].
  cbn [g_signer g_account g_signature_raw g_signature]. split; [exact A|]. intros T. exact (signature_blank _ _ T K).
Qed.

(** A run of any decoder, whatever it did before: the run of a new one under
    the options in force, except for what [left_over] says. *)
Theorem C79_reuse fuel E H d opt data :
  fst (u_process fuel E H (x_init opt data d)) = on_ok (left_over d) (extrinsic_process fuel E H (in_force d opt) data).
Proof.
  pose proof (process_step fuel E H opt data d) as X. destruct (extrinsic_process fuel E H (in_force d opt) data); [destruct X as (o & L & ->)|destruct X as [d' ->]..]; reflexivity.
Qed.
(** A new decoder returns what ModelExtrinsic.v says. *)
Theorem C79_fresh fuel E H opt data : fst (u_process fuel E H (x_init opt data new_xdec)) = extrinsic_process fuel E H opt data.
Proof.
  rewrite C79_reuse. assert (I : in_force new_xdec opt = opt).
  { destruct opt as [s m v x c sg ch]. unfold in_force. cbn. destruct (Z.eqb_spec s 0) as [->|]; destruct (String.eqb_spec m "") as [->|]; reflexivity. }
  rewrite I. destruct (extrinsic_process fuel E H opt data) as [g|m|] eqn:P; try reflexivity. cbn [on_ok]. apply (f_equal Ok).
  destruct (process_blank _ _ _ _ _ _ P) as [A S]. destruct g as [g1 g2 g3 g4 g5 g6 g7 g8 g9 g10 g11 g12 g13 g14 g15 g16 g17 g18].
  unfold left_over. cbn [d_address d_signature new_xdec g_version g_length g_address_type g_tip g_exts g_account g_signer g_signature g_signature_raw g_nonce g_era g_hash g_function g_code g_module g_params g_raw g_ext_version] in *.
  destruct (is_signed _); cbn [andb]; [|reflexivity].
  destruct (tells g7); [|rewrite A by reflexivity]; (destruct (tells g9); [|rewrite S by reflexivity]); reflexivity.
Qed.

(** ** Under which conditions it makes no difference *)
Section Pallet.
Variable fuel : nat.
Variable E : env.
Variable opt opt' : xopt.
Variable data : bytes.
Variable m m' : string.
Hypothesis VER : xo_version opt = xo_version opt'.
Hypothesis EXT : xo_extra opt = xo_extra opt'.
Hypothesis SGN : xo_signed opt = xo_signed opt'.
Hypothesis CHK : xo_check opt = xo_check opt'.
Hypothesis X : forall off ts, xpud fuel E opt data m off ts = xpud fuel E opt' data m' off ts.
Ltac go := repeat match goal with
  | |- bind ?e _ = bind ?e _ => destruct e as [?|?|]; cbn [bind]; [|reflexivity|reflexivity]
  | |- context [let '(_, _) := ?p in _] => is_var p; destruct p
  end.
Lemma read_tip_eq off : read_tip fuel E opt data m off = read_tip fuel E opt' data m' off.
Proof. unfold read_tip. now rewrite X. Qed.
Lemma option_values_eq l : forall acc off, option_values fuel E opt data m l acc off = option_values fuel E opt' data m' l acc off.
Proof. induction l as [|[n t] l IH]; intros acc off; cbn [option_values]; [reflexivity|]. rewrite X. go. apply IH. Qed.
Lemma option_exts_eq ids l : forall acc off, option_exts fuel E opt data m ids l acc off = option_exts fuel E opt' data m' ids l acc off.
Proof. induction l as [|[n t] l IH]; intros acc off; cbn [option_exts]; [reflexivity|]. rewrite option_values_eq. go. apply IH. Qed.
Lemma meta_exts_eq l : forall tip acc off, meta_exts fuel E opt data m l tip acc off = meta_exts fuel E opt' data m' l tip acc off.
Proof.
  induction l as [|[n t] l IH]; intros tip acc off; cbn [meta_exts]; [reflexivity|]. rewrite CHK, read_tip_eq, X.
  destruct (sent (xo_check opt') n); [|apply IH]. destruct (String.eqb n "ChargeTransactionPayment"); go; apply IH.
Qed.
Lemma signed_part_eq v5 off : signed_part fuel E opt data v5 m off = signed_part fuel E opt' data v5 m' off.
Proof.
  unfold signed_part. rewrite VER, X. go. rewrite X. go. rewrite X. go.
  rewrite X. go. rewrite X. go.
  assert (V5 : forall o, extra_v5 fuel E opt data m o = extra_v5 fuel E opt' data m' o).
  { intros o. unfold extra_v5. rewrite EXT. destruct (xo_extra opt'); [apply meta_exts_eq|reflexivity]. }
  assert (V4 : forall o, extra_v4 fuel E opt data m o = extra_v4 fuel E opt' data m' o).
  { intros o. unfold extra_v4. rewrite EXT, VER, SGN, read_tip_eq. destruct (xo_extra opt') as [x|].
    - destruct (_ && _); go; destruct (xo_signed opt'); try (destruct (14 <=? xo_version opt'); [apply meta_exts_eq|reflexivity]); rewrite option_exts_eq; reflexivity.
    - reflexivity. }
  rewrite V5, V4. reflexivity.
Qed.
End Pallet.

(** The same options with the decoder left in pallet [m]. *)
Definition in_pallet (m : string) (opt : xopt) : xopt :=
  XOpt (xo_spec opt) m (xo_version opt) (xo_extra opt) (xo_calls opt) (xo_signed opt) (xo_check opt).
Lemma process_pallet fuel E H opt data m m' : same_overrides m m' ->
  extrinsic_process fuel E H (in_pallet m opt) data = extrinsic_process fuel E H (in_pallet m' opt) data.
Proof.
  intros S. assert (X : forall off ts, xpud fuel E (in_pallet m opt) data m off ts = xpud fuel E (in_pallet m' opt) data m' off ts).
  { intros off ts. unfold xpud, x_ctx. cbn [xo_spec xo_calls in_pallet]. now rewrite (decode_pallet fuel E _ _ m m' data off ts S). }
  unfold extrinsic_process. cbn [xo_module in_pallet]. change (XOpt (xo_spec opt) ?a _ _ _ _ _) with (in_pallet a opt). rewrite X.
  destruct (xpud fuel E (in_pallet m' opt) data m' 0 "Compact<u32>") as [[v o]|e|]; cbn [bind]; [|reflexivity..].
  destruct (match v with VInt n => Ok n | _ => Panic _ end) as [n|e|]; cbn [bind]; [|reflexivity..].
  destruct (if n =? blen data - o then (n, o) else (0, 0)) as [len off]. unfold extrinsic_body. cbv zeta.
  destruct (next_bytes data off 1) as [[b o1]|e|]; cbn [bind]; [|reflexivity..].
  destruct (match ModelTools.U256 (BytesToHex b) with Some z => Ok (80 <=? i64 z) | None => nil_extra end) as [sg|e|]; cbn [bind]; [|reflexivity..].
  destruct (negb (_ || _)); [reflexivity|]. cbn [xo_module in_pallet]. 
  rewrite (signed_part_eq fuel E (in_pallet m opt) (in_pallet m' opt) data m m' eq_refl eq_refl eq_refl eq_refl X).
  match goal with |- bind ?e _ = _ => destruct e as [[sp o2]|e'|]; cbn [bind]; [|reflexivity..] end.
  destruct (next_bytes data o2 2) as [[bc o3]|e|]; cbn [bind]; [|reflexivity..].
  destruct (String.eqb (BytesToHex bc) ""); [reflexivity|]. cbn [xo_calls in_pallet]. destruct (assoc (BytesToHex bc) (xo_calls opt)) as [en|]; [|reflexivity].
  rewrite (args_opt fuel E (in_pallet m opt) (in_pallet m' opt) data _ _ eq_refl eq_refl). reflexivity.
Qed.

(** The pallet has no overriding types. *)
Definition plain_pallet (m : string) : Prop := same_overrides m "".
Lemma plain_unlisted m : assoc (to_lower m) typesModules = None -> plain_pallet m.
Proof. intros A t. unfold ModuleType. rewrite A. now destruct (String.eqb m ""). Qed.

(** Signer and signature, if any, are texts or maps that are not empty. *)
Definition telling (g : generic) : Prop := is_signed g = true -> tells (g_signer g) = true /\ tells (g_signature_raw g) = true.
Lemma left_telling d g : telling g -> left_over d g = g.
Proof.
  intros T. unfold telling in T. destruct g as [g1 g2 g3 g4 g5 g6 g7 g8 g9 g10 g11 g12 g13 g14 g15 g16 g17 g18]. unfold left_over.
  cbn [g_version g_length g_address_type g_tip g_exts g_account g_signer g_signature g_signature_raw g_nonce g_era g_hash g_function g_code g_module g_params g_raw g_ext_version] in *.
  destruct (is_signed _); cbn [andb]; [|reflexivity]. destruct (T eq_refl) as [-> ->]. reflexivity.
Qed.
Theorem C79_same fuel E H d opt data : xo_spec opt <> 0 \/ d_spec d = 0 -> same_overrides (xo_module (in_force d opt)) (xo_module opt) ->
  (forall g, extrinsic_process fuel E H opt data = Ok g -> telling g) ->
  fst (u_process fuel E H (x_init opt data d)) = extrinsic_process fuel E H opt data.
Proof.
  intros SP MD T. rewrite C79_reuse.
  assert (P : extrinsic_process fuel E H (in_force d opt) data = extrinsic_process fuel E H opt data).
  { transitivity (extrinsic_process fuel E H (in_pallet (xo_module (in_force d opt)) opt) data).
    - apply (f_equal (fun o => extrinsic_process fuel E H o data)). unfold in_force, in_pallet. cbn [xo_module]. apply (f_equal (fun s => XOpt s _ _ _ _ _ _)).
      destruct (Z.eqb_spec (xo_spec opt) 0) as [Z0|]; [|reflexivity]. destruct SP as [SP|SP]; [contradiction|congruence].
    - rewrite (process_pallet fuel E H opt data _ _ MD). apply (f_equal (fun o => extrinsic_process fuel E H o data)). now destruct opt. }
  rewrite P. destruct (extrinsic_process fuel E H opt data) as [g|m|] eqn:G; try reflexivity. cbn [on_ok]. apply (f_equal Ok). apply left_telling. now apply T.
Qed.

(** ** Any number of runs *)
Section Keeps.
Variable fuel : nat.
Variable E : env.
Variable H : bytes -> bytes.
(** The pallets of the calls, and that the decoder is in. *)
Definition plain_calls (opt : xopt) : Prop := Forall (fun e => plain_pallet (en_module (snd e))) (xo_calls opt).
Definition settled (d : xdec) : Prop := plain_pallet (d_module d) /\ plain_calls (d_opt d).
Definition keeps {A} (a : act A) : Prop := forall d, settled d -> settled (snd (a d)).
Lemma keeps_then {A B} (a : act A) (k : A -> act B) : keeps a -> (forall x, keeps (k x)) -> keeps (andthen a k).
Proof. intros Ka Kk d S. unfold andthen. specialize (Ka d S). destruct (a d) as [[x|m|] d']; cbn [snd] in *; [now apply Kk|exact Ka..]. Qed.
Lemma keeps_done {A} (x : A) : keeps (done x). Proof. intros d S. exact S. Qed.
Lemma keeps_lift {A} (r : res A) : keeps (lift r). Proof. intros d S. exact S. Qed.
Lemma keeps_get {A} (f : xdec -> A) : keeps (get f). Proof. intros d S. exact S. Qed.
Lemma keeps_pud ts : keeps (pud fuel E ts).
Proof. intros d S. unfold pud. destruct (decode _ _ _ _ _ _) as [[[v o] cs]|m|]; exact S. Qed.
Lemma keeps_take n : keeps (take n).
Proof. intros d S. unfold take. destruct (next_bytes _ _ _) as [[v o]|m|]; exact S. Qed.
Lemma keeps_write f : (forall d, settled d -> settled (f d)) -> keeps (write f).
Proof. intros F d S. now apply F. Qed.
Lemma keeps_address v : keeps (u_address v).
Proof.
  unfold u_address. destruct v; try apply keeps_done.
  - apply keeps_then; [apply keeps_write; intros d S; exact S|intros ?; apply keeps_done].
  - generalize "" as t. induction m as [|[n x] m IH]; intros t; [apply keeps_done|]. apply keeps_then; [apply keeps_write; intros d S; exact S|intros ?; apply IH].
Qed.
Lemma keeps_signature v : keeps (u_signature v).
Proof.
  unfold u_signature. destruct v; try apply keeps_done.
  - apply keeps_write; intros d S; exact S.
  - induction m as [|[n x] m IH]; [apply keeps_done|]. destruct x; try apply keeps_lift. apply keeps_then; [apply keeps_write; intros d S; exact S|intros ?; apply IH].
Qed.
Lemma keeps_tip : keeps (u_tip fuel E). Proof. apply keeps_then; [apply keeps_pud|intros ?; apply keeps_lift]. Qed.
Lemma keeps_values l : forall acc, keeps (u_values fuel E l acc).
Proof. induction l as [|[n t] l IH]; intros acc; cbn [u_values]; [apply keeps_done|]. apply keeps_then; [apply keeps_pud|intros ?; apply IH]. Qed.
Lemma keeps_option ids l : forall acc, keeps (u_option_exts fuel E ids l acc).
Proof.
  induction l as [|[n t] l IH]; intros acc; cbn [u_option_exts]; [apply keeps_done|]. apply keeps_then; [|intros ?; apply IH].
  destruct (negb _); [apply keeps_values|apply keeps_done].
Qed.
Lemma keeps_meta check l : forall tip acc, keeps (u_meta_exts fuel E check l tip acc).
Proof.
  induction l as [|[n t] l IH]; intros tip acc; cbn [u_meta_exts]; [apply keeps_done|]. destruct (sent check n); [|apply IH].
  destruct (String.eqb n _); (apply keeps_then; [apply keeps_tip || apply keeps_pud|intros ?; apply IH]).
Qed.
Lemma keeps_args l : keeps (u_args fuel E l).
Proof. induction l as [|a l IH]; cbn [u_args]; [apply keeps_done|]. apply keeps_then; [apply keeps_pud|]. intros v. apply keeps_then; [apply keeps_write; intros d S; exact S|intros ?; exact IH]. Qed.
Lemma keeps_extra (v5 : bool) : keeps (if v5 then u_extra_v5 fuel E else u_extra_v4 fuel E).
Proof.
  destruct v5.
  - apply keeps_then; [apply keeps_get|intros o]. destruct (xo_extra o); [apply keeps_meta|apply keeps_lift].
  - apply keeps_then; [apply keeps_get|intros o]. apply keeps_then.
    + destruct (xo_extra o); [destruct (_ && _)|]; try apply keeps_tip; apply keeps_done.
    + intros t. destruct (xo_signed o); [destruct (14 <=? _); [destruct (xo_extra o); [apply keeps_meta|apply keeps_lift]|apply keeps_done]|].
      destruct (xo_extra o); [|apply keeps_lift]. apply keeps_then; [apply keeps_option|intros ?; apply keeps_done].
Qed.
Lemma keeps_signed v5 : keeps (u_signed fuel E v5).
Proof.
  unfold u_signed. apply keeps_then; [apply keeps_get|intros o]. apply keeps_then; [apply keeps_pud|intros s]. apply keeps_then; [apply keeps_address|intros t].
  apply keeps_then; [apply keeps_pud|intros g]. apply keeps_then; [destruct v5; [apply keeps_then; [apply keeps_pud|intros []; try apply keeps_lift; apply keeps_done]|apply keeps_done]|intros xv].
  apply keeps_then; [apply keeps_signature|intros _]. apply keeps_then; [apply keeps_pud|intros v]. apply keeps_then; [apply keeps_lift|intros era].
  apply keeps_then; [apply keeps_pud|intros v2]. apply keeps_then; [apply keeps_lift|intros n]. apply keeps_then; [apply keeps_extra|intros te; apply keeps_done].
Qed.
Lemma keeps_body len : keeps (u_body fuel E H len).
Proof.
  unfold u_body. apply keeps_then; [apply keeps_take|intros b]. cbv zeta. apply keeps_then; [destruct (ModelTools.U256 _); [apply keeps_done|apply keeps_lift]|intros sg].
  destruct (negb _); [apply keeps_lift|]. apply keeps_then.
  { destruct sg; [|apply keeps_done]. apply keeps_then; [apply keeps_signed|intros s; apply keeps_done]. }
  intros sp. apply keeps_then; [apply keeps_take|intros c]. destruct (String.eqb _ ""); [apply keeps_lift|].
  intros d S. rewrite get_then. destruct (assoc (BytesToHex c) (xo_calls (d_opt d))) as [en|] eqn:A; [|exact S].
  assert (P : plain_pallet (en_module en)).
  { destruct S as [_ C]. unfold plain_calls in C. rewrite Forall_forall in C. apply ProofsMeta.assoc_in in A. exact (C _ A). }
  revert d S A. intros d S _.
  apply (keeps_then (write (with_module (en_module en)))); [| |exact S].
  - apply keeps_write. intros d' [_ C]. split; [exact P|exact C].
  - intros _. repeat (apply keeps_then; [first [apply keeps_get|apply keeps_args|apply keeps_lift]|intros ?]). apply keeps_done.
Qed.
Lemma keeps_process : keeps (u_process fuel E H).
Proof.
  unfold u_process. apply keeps_then; [apply keeps_pud|intros v]. apply keeps_then; [destruct v; try apply keeps_lift; apply keeps_done|intros n].
  apply keeps_then; [apply keeps_get|intros data]. apply keeps_then; [apply keeps_get|intros o]. destruct (n =? _); [apply keeps_body|].
  apply keeps_then; [apply keeps_write; intros d S; exact S|intros _; apply keeps_body].
Qed.
End Keeps.

(** One decoder for any number of extrinsics, of any runtimes, with panics
    recovered from in between, does what a new decoder for each would do: if
    every run is given its spec version, no pallet has overriding types, and
    signers and signatures tell something. *)
Theorem C79_runs fuel E H l d : plain_pallet (d_module d) ->
  Forall (fun r => xo_spec (fst r) <> 0 /\ plain_pallet (xo_module (fst r)) /\ plain_calls (fst r) /\
                   (forall g, extrinsic_process fuel E H (fst r) (snd r) = Ok g -> telling g)) l ->
  fst (u_runs fuel E H l d) = map (fun r => extrinsic_process fuel E H (fst r) (snd r)) l.
Proof.
  intros P F. revert d P. induction F as [|[opt data] l (SP & MD & CL & T) F IH]; intros d P; [reflexivity|]. cbn [u_runs map fst snd] in *.
  assert (PI : plain_pallet (xo_module (in_force d opt))) by (unfold in_force; cbn [xo_module]; now destruct (String.eqb (xo_module opt) "")).
  pose proof (C79_same fuel E H d opt data (or_introl SP)) as R.
  pose proof (keeps_process fuel E H (x_init opt data d)) as K.
  destruct (u_process fuel E H (x_init opt data d)) as [x d'] eqn:U. cbn [fst snd] in *.
  assert (S : settled d') by (apply K; split; [exact PI|exact CL]).
  specialize (IH d' (proj1 S)). destruct (u_runs fuel E H l d') as [xs d'']. cbn [fst] in *.
  rewrite IH, R; [reflexivity| |exact T]. intros t. now rewrite (PI t), (MD t).
Qed.

(** ** The calls listed *)
Section Framed.
Variable fuel : nat.
Variable E : env.
Variable H : bytes -> bytes.
Definition before (cs : list string) (d : xdec) : xdec :=
  XDec (d_data d) (d_off d) (d_spec d) (d_module d) (d_address d) (d_signature d) (d_params d) (cs ++ d_calls d)%list (d_opt d).
Definition framed {A} (a : act A) : Prop := forall cs d, a (before cs d) = (fst (a d), before cs (snd (a d))).
Lemma framed_then {A B} (a : act A) (k : A -> act B) : framed a -> (forall x, framed (k x)) -> framed (andthen a k).
Proof. intros Ka Kk cs d. unfold andthen. rewrite (Ka cs d). destruct (a d) as [[x|m|] d']; cbn [fst snd]; [now apply Kk|reflexivity..]. Qed.
Lemma framed_done {A} (x : A) : framed (done x). Proof. intros cs d. reflexivity. Qed.
Lemma framed_lift {A} (r : res A) : framed (lift r). Proof. intros cs d. reflexivity. Qed.
Lemma framed_get {A} (f : xdec -> A) : (forall cs d, f (before cs d) = f d) -> framed (get f). Proof. intros F cs d. unfold get. cbn [fst snd]. now rewrite F. Qed.
Lemma framed_pud ts : framed (pud fuel E ts).
Proof.
  intros cs d. unfold pud. change (d_spec (before cs d)) with (d_spec d). change (d_module (before cs d)) with (d_module d). change (d_opt (before cs d)) with (d_opt d).
  change (d_data (before cs d)) with (d_data d). change (d_off (before cs d)) with (d_off d).
  destruct (decode _ _ _ _ _ _) as [[[v o] cs']|m|]; cbn [fst snd]; try reflexivity. unfold with_off, with_calls, before. cbn. now rewrite app_assoc.
Qed.
Lemma framed_take n : framed (take n).
Proof.
  intros cs d. unfold take. change (d_data (before cs d)) with (d_data d). change (d_off (before cs d)) with (d_off d). destruct (next_bytes _ _ _) as [[v o]|m|]; reflexivity.
Qed.
Lemma framed_write f : (forall cs d, f (before cs d) = before cs (f d)) -> framed (write f).
Proof. intros F cs d. unfold write. cbn [fst snd]. now rewrite F. Qed.
Lemma framed_address v : framed (u_address v).
Proof.
  unfold u_address. destruct v; try apply framed_done.
  - apply framed_then; [apply framed_write; intros cs d; reflexivity|intros ?; apply framed_done].
  - generalize "" as t. induction m as [|[n x] m IH]; intros t; [apply framed_done|]. apply framed_then; [apply framed_write; intros cs d; reflexivity|intros ?; apply IH].
Qed.
Lemma framed_signature v : framed (u_signature v).
Proof.
  unfold u_signature. destruct v; try apply framed_done.
  - apply framed_write; intros cs d; reflexivity.
  - induction m as [|[n x] m IH]; [apply framed_done|]. destruct x; try apply framed_lift. apply framed_then; [apply framed_write; intros cs d; reflexivity|intros ?; apply IH].
Qed.
Lemma framed_tip : framed (u_tip fuel E). Proof. apply framed_then; [apply framed_pud|intros ?; apply framed_lift]. Qed.
Lemma framed_values l : forall acc, framed (u_values fuel E l acc).
Proof. induction l as [|[n t] l IH]; intros acc; cbn [u_values]; [apply framed_done|]. apply framed_then; [apply framed_pud|intros ?; apply IH]. Qed.
Lemma framed_option ids l : forall acc, framed (u_option_exts fuel E ids l acc).
Proof.
  induction l as [|[n t] l IH]; intros acc; cbn [u_option_exts]; [apply framed_done|]. apply framed_then; [|intros ?; apply IH].
  destruct (negb _); [apply framed_values|apply framed_done].
Qed.
Lemma framed_meta check l : forall tip acc, framed (u_meta_exts fuel E check l tip acc).
Proof.
  induction l as [|[n t] l IH]; intros tip acc; cbn [u_meta_exts]; [apply framed_done|]. destruct (sent check n); [|apply IH].
  destruct (String.eqb n _); (apply framed_then; [apply framed_tip || apply framed_pud|intros ?; apply IH]).
Qed.
Lemma framed_args l : framed (u_args fuel E l).
Proof. induction l as [|a l IH]; cbn [u_args]; [apply framed_done|]. apply framed_then; [apply framed_pud|]. intros v. apply framed_then; [apply framed_write; intros cs d; reflexivity|intros ?; exact IH]. Qed.
Lemma framed_extra (v5 : bool) : framed (if v5 then u_extra_v5 fuel E else u_extra_v4 fuel E).
Proof.
  destruct v5.
  - apply framed_then; [apply framed_get; reflexivity|intros o]. destruct (xo_extra o); [apply framed_meta|apply framed_lift].
  - apply framed_then; [apply framed_get; reflexivity|intros o]. apply framed_then.
    + destruct (xo_extra o); [destruct (_ && _)|]; try apply framed_tip; apply framed_done.
    + intros t. destruct (xo_signed o); [destruct (14 <=? _); [destruct (xo_extra o); [apply framed_meta|apply framed_lift]|apply framed_done]|].
      destruct (xo_extra o); [|apply framed_lift]. apply framed_then; [apply framed_option|intros ?; apply framed_done].
Qed.
Lemma framed_signed v5 : framed (u_signed fuel E v5).
Proof.
  unfold u_signed. apply framed_then; [apply framed_get; reflexivity|intros o]. apply framed_then; [apply framed_pud|intros s]. apply framed_then; [apply framed_address|intros t].
  apply framed_then; [apply framed_pud|intros g]. apply framed_then; [destruct v5; [apply framed_then; [apply framed_pud|intros []; try apply framed_lift; apply framed_done]|apply framed_done]|intros xv].
  apply framed_then; [apply framed_signature|intros _]. apply framed_then; [apply framed_pud|intros v]. apply framed_then; [apply framed_lift|intros era].
  apply framed_then; [apply framed_pud|intros v2]. apply framed_then; [apply framed_lift|intros n]. apply framed_then; [apply framed_extra|intros te; apply framed_done].
Qed.
Lemma framed_body len : framed (u_body fuel E H len).
Proof.
  unfold u_body. apply framed_then; [apply framed_take|intros b]. cbv zeta. apply framed_then; [destruct (ModelTools.U256 _); [apply framed_done|apply framed_lift]|intros sg].
  destruct (negb _); [apply framed_lift|]. apply framed_then.
  { destruct sg; [|apply framed_done]. apply framed_then; [apply framed_signed|intros s; apply framed_done]. }
  intros sp. apply framed_then; [apply framed_take|intros c]. destruct (String.eqb _ ""); [apply framed_lift|].
  apply framed_then; [apply framed_get; reflexivity|intros o]. destruct (assoc _ _) as [en|]; [|apply framed_lift].
  repeat (apply framed_then; [first [apply framed_get; reflexivity|apply framed_args|apply framed_lift|apply framed_write; reflexivity]|intros ?]). apply framed_done.
Qed.
Lemma framed_process : framed (u_process fuel E H).
Proof.
  unfold u_process. apply framed_then; [apply framed_pud|intros v]. apply framed_then; [destruct v; try apply framed_lift; apply framed_done|intros n].
  apply framed_then; [apply framed_get; reflexivity|intros data]. apply framed_then; [apply framed_get; reflexivity|intros o]. destruct (n =? _); [apply framed_body|].
  apply framed_then; [apply framed_write; reflexivity|intros _; apply framed_body].
Qed.
End Framed.

(** The calls are appended to those of earlier runs, which Init keeps. *)
Definition without_calls (d : xdec) : xdec :=
  XDec (d_data d) (d_off d) (d_spec d) (d_module d) (d_address d) (d_signature d) (d_params d) [] (d_opt d).
Theorem C79_calls fuel E H d opt data :
  d_calls (snd (u_process fuel E H (x_init opt data d))) = (d_calls d ++ d_calls (snd (u_process fuel E H (x_init opt data (without_calls d)))))%list.
Proof.
  pose proof (framed_process fuel E H (d_calls d) (x_init opt data (without_calls d))) as F.
  assert (B : before (d_calls d) (x_init opt data (without_calls d)) = x_init opt data d) by (unfold before, x_init, without_calls; cbn; now rewrite app_nil_r).
  rewrite B in F. rewrite F. reflexivity.
Qed.
(** Each of them is the text of bytes that a call was read from, whether the
    run ends or panics. *)
Section Listed.
Variable fuel : nat.
Variable E : env.
Variable H : bytes -> bytes.
Variable spec : Z.
Variable md : option metadata.
Hypothesis CALL : resolves E (Ctx spec "" md) "Call" CCall.
Definition lists (d : xdec) : Prop :=
  d_spec d = spec /\ Some (codec_calls (xo_calls (d_opt d))) = md /\ Forall (read_as_call E (Ctx spec "" md)) (d_calls d).
Definition keeps_lists {A} (a : act A) : Prop := forall d, lists d -> lists (snd (a d)).
Lemma lists_then {A B} (a : act A) (k : A -> act B) : keeps_lists a -> (forall x, keeps_lists (k x)) -> keeps_lists (andthen a k).
Proof. intros Ka Kk d S. unfold andthen. specialize (Ka d S). destruct (a d) as [[x|m|] d']; cbn [snd] in *; [now apply Kk|exact Ka..]. Qed.
Lemma lists_done {A} (x : A) : keeps_lists (done x). Proof. intros d S. exact S. Qed.
Lemma lists_lift {A} (r : res A) : keeps_lists (lift r). Proof. intros d S. exact S. Qed.
Lemma lists_get {A} (f : xdec -> A) : keeps_lists (get f). Proof. intros d S. exact S. Qed.
Lemma lists_pud ts : keeps_lists (pud fuel E ts).
Proof.
  intros d (S & M & F). unfold pud. destruct (decode _ _ _ _ _ _) as [[[v o] cs]|m|] eqn:D; [|now split..]. split; [exact S|]. split; [exact M|].
  cbn [snd with_off with_calls d_calls]. apply Forall_app. split; [exact F|]. rewrite S, M in D.
  pose proof (C78_any E (Ctx spec (d_module d) md) fuel (d_data d) (d_off d) ts v o cs CALL D) as R. exact R.
Qed.
Lemma lists_take n : keeps_lists (take n).
Proof. intros d S. unfold take. destruct (next_bytes _ _ _) as [[v o]|m|]; exact S. Qed.
Lemma lists_write f : (forall d, lists d -> lists (f d)) -> keeps_lists (write f).
Proof. intros F d S. now apply F. Qed.
Lemma lists_address v : keeps_lists (u_address v).
Proof.
  unfold u_address. destruct v; try apply lists_done.
  - apply lists_then; [apply lists_write; intros d S; exact S|intros ?; apply lists_done].
  - generalize "" as t. induction m as [|[n x] m IH]; intros t; [apply lists_done|]. apply lists_then; [apply lists_write; intros d S; exact S|intros ?; apply IH].
Qed.
Lemma lists_signature v : keeps_lists (u_signature v).
Proof.
  unfold u_signature. destruct v; try apply lists_done.
  - apply lists_write; intros d S; exact S.
  - induction m as [|[n x] m IH]; [apply lists_done|]. destruct x; try apply lists_lift. apply lists_then; [apply lists_write; intros d S; exact S|intros ?; apply IH].
Qed.
Lemma lists_tip : keeps_lists (u_tip fuel E). Proof. apply lists_then; [apply lists_pud|intros ?; apply lists_lift]. Qed.
Lemma lists_values l : forall acc, keeps_lists (u_values fuel E l acc).
Proof. induction l as [|[n t] l IH]; intros acc; cbn [u_values]; [apply lists_done|]. apply lists_then; [apply lists_pud|intros ?; apply IH]. Qed.
Lemma lists_option ids l : forall acc, keeps_lists (u_option_exts fuel E ids l acc).
Proof.
  induction l as [|[n t] l IH]; intros acc; cbn [u_option_exts]; [apply lists_done|]. apply lists_then; [|intros ?; apply IH].
  destruct (negb _); [apply lists_values|apply lists_done].
Qed.
Lemma lists_meta check l : forall tip acc, keeps_lists (u_meta_exts fuel E check l tip acc).
Proof.
  induction l as [|[n t] l IH]; intros tip acc; cbn [u_meta_exts]; [apply lists_done|]. destruct (sent check n); [|apply IH].
  destruct (String.eqb n _); (apply lists_then; [apply lists_tip || apply lists_pud|intros ?; apply IH]).
Qed.
Lemma lists_args l : keeps_lists (u_args fuel E l).
Proof. induction l as [|a l IH]; cbn [u_args]; [apply lists_done|]. apply lists_then; [apply lists_pud|]. intros v. apply lists_then; [apply lists_write; intros d S; exact S|intros ?; exact IH]. Qed.
Lemma lists_extra (v5 : bool) : keeps_lists (if v5 then u_extra_v5 fuel E else u_extra_v4 fuel E).
Proof.
  destruct v5.
  - apply lists_then; [apply lists_get|intros o]. destruct (xo_extra o); [apply lists_meta|apply lists_lift].
  - apply lists_then; [apply lists_get|intros o]. apply lists_then.
    + destruct (xo_extra o); [destruct (_ && _)|]; try apply lists_tip; apply lists_done.
    + intros t. destruct (xo_signed o); [destruct (14 <=? _); [destruct (xo_extra o); [apply lists_meta|apply lists_lift]|apply lists_done]|].
      destruct (xo_extra o); [|apply lists_lift]. apply lists_then; [apply lists_option|intros ?; apply lists_done].
Qed.
Lemma lists_signed v5 : keeps_lists (u_signed fuel E v5).
Proof.
  unfold u_signed. apply lists_then; [apply lists_get|intros o]. apply lists_then; [apply lists_pud|intros s]. apply lists_then; [apply lists_address|intros t].
  apply lists_then; [apply lists_pud|intros g]. apply lists_then; [destruct v5; [apply lists_then; [apply lists_pud|intros []; try apply lists_lift; apply lists_done]|apply lists_done]|intros xv].
  apply lists_then; [apply lists_signature|intros _]. apply lists_then; [apply lists_pud|intros v]. apply lists_then; [apply lists_lift|intros era].
  apply lists_then; [apply lists_pud|intros v2]. apply lists_then; [apply lists_lift|intros n]. apply lists_then; [apply lists_extra|intros te; apply lists_done].
Qed.
Lemma lists_body len : keeps_lists (u_body fuel E H len).
Proof.
  unfold u_body. apply lists_then; [apply lists_take|intros b]. cbv zeta. apply lists_then; [destruct (ModelTools.U256 _); [apply lists_done|apply lists_lift]|intros sg].
  destruct (negb _); [apply lists_lift|]. apply lists_then.
  { destruct sg; [|apply lists_done]. apply lists_then; [apply lists_signed|intros s; apply lists_done]. }
  intros sp. apply lists_then; [apply lists_take|intros c]. destruct (String.eqb _ ""); [apply lists_lift|].
  apply lists_then; [apply lists_get|intros o]. destruct (assoc _ _) as [en|]; [|apply lists_lift].
  repeat (apply lists_then; [first [apply lists_get|apply lists_args|apply lists_lift|apply lists_write; intros d S; exact S]|intros ?]). apply lists_done.
Qed.
Lemma lists_process : keeps_lists (u_process fuel E H).
Proof.
  unfold u_process. apply lists_then; [apply lists_pud|intros v]. apply lists_then; [destruct v; try apply lists_lift; apply lists_done|intros n].
  apply lists_then; [apply lists_get|intros data]. apply lists_then; [apply lists_get|intros o]. destruct (n =? _); [apply lists_body|].
  apply lists_then; [apply lists_write; intros d S; exact S|intros _; apply lists_body].
Qed.
End Listed.
Theorem C79_listed fuel E H d opt data : resolves E (Ctx (xo_spec (in_force d opt)) "" (Some (codec_calls (xo_calls opt)))) "Call" CCall ->
  Forall (read_as_call E (Ctx (xo_spec (in_force d opt)) "" (Some (codec_calls (xo_calls opt))))) (d_calls (snd (u_process fuel E H (x_init opt data (without_calls d))))).
Proof.
  intros C. pose proof (lists_process fuel E H _ _ C (x_init opt data (without_calls d))) as L. apply L. split; [reflexivity|]. split; [reflexivity|constructor].
Qed.

(** ** Where it does make a difference *)
Definition use_env : env := reg_env (with_types (upd "tassetbalance" CU64) (with_types (upd "address" CGenericAddress)
  (with_types (upd "extrinsicsignature" (CEnum (Some [("Ed25519", "H512"); ("Sr25519", "H512")]) [])) base_reg))).
(** A chain before version 14 of the metadata, with one extension of its own. *)
Definition use_calls : table mcall :=
  [("0003", Entry "System" (MCall "noop" [] 0)); ("3203", Entry "Assets" (MCall "touch" [] 0));
   ("1800", Entry "Utility" (MCall "dispatch" [MArg "call" "Call" "Call"] 1))].
Definition use_opt : xopt := XOpt 100 "" 13 (Some (XExtra ["Fee"] [])) use_calls [("Fee", [("fee", "Balance")])] [].
Definition use_signed (signer : bytes) : bytes :=
  (hex_decode "84" ++ signer ++ [Zb 1] ++ ex_sigbytes ++ hex_decode "0014" ++ le_bytes 16 7 ++ hex_decode "0003")%list.
Definition use_by_account : bytes := use_signed (hex_decode "ff" ++ ex_account).
Definition use_by_index : bytes := use_signed (hex_decode "fd01000000").

(** After a call of the pallet Assets the same extrinsic is read otherwise:
    the type Balance of its extension is replaced by TAssetBalance. *)
Theorem C79_pallet_refuted : exists E H opt x y g, extrinsic_process 9 E H opt y = Ok g /\ telling g /\ xo_spec opt <> 0 /\
  match fst (u_runs 9 E H [(opt, x); (opt, y)] new_xdec) with [Ok _; Panic _] => True | _ => False end.
Proof.
  exists use_env, ex_digest, use_opt, (hex_decode "043203"), use_by_account. eexists. split; [vm_compute; reflexivity|]. split; [intros _; split; reflexivity|]. split; [discriminate|].
  vm_compute. exact I.
Qed.
(** An extrinsic signed by an account index is shown with the account that
    signed the one before. *)
Theorem C79_address_refuted : exists E H opt x y g g', plain_pallet "System" /\ extrinsic_process 9 E H opt y = Ok g /\ g_account g = VNil /\
  nth_error (fst (u_runs 9 E H [(opt, x); (opt, y)] new_xdec)) 1 = Some (Ok g') /\ g_account g' = VStr (hex_encode ex_account) /\ g_signer g' = VNil.
Proof.
  exists use_env, ex_digest, use_opt, use_by_account, use_by_index. eexists. eexists. split; [now apply plain_unlisted|]. split; [vm_compute; reflexivity|]. split; [reflexivity|].
  split; [vm_compute; reflexivity|]. split; vm_compute; reflexivity.
Qed.
(** An extrinsic without nested calls, after one that has a nested call. *)
Theorem C79_calls_refuted : exists E H opt x y, d_calls (snd (u_process 9 E H (x_init opt y new_xdec))) = [] /\
  d_calls (snd (u_runs 9 E H [(opt, x); (opt, y)] new_xdec)) = ["0003"].
Proof. exists use_env, ex_digest, use_opt, (hex_decode "0418000003"), (hex_decode "040003"). vm_compute. split; reflexivity. Qed.

(** Four extrinsics, the second of which panics, that C79_runs speaks of. *)
Definition use_calm : xopt := XOpt 100 "" 13 (Some (XExtra ["Fee"] [])) [("0003", Entry "System" (MCall "noop" [] 0))] [("Fee", [("fee", "Balance")])] [].
Definition use_list : list (xopt * bytes) :=
  [(use_calm, use_by_account); (use_calm, hex_decode "040009"); (use_calm, hex_decode "040003"); (use_calm, use_by_account)].
Example C79_hyps : plain_pallet (d_module new_xdec) /\
  Forall (fun r => xo_spec (fst r) <> 0 /\ plain_pallet (xo_module (fst r)) /\ plain_calls (fst r) /\
                   (forall g, extrinsic_process 9 use_env ex_digest (fst r) (snd r) = Ok g -> telling g)) use_list.
Proof.
  split; [intros t; reflexivity|].
  assert (C : plain_calls use_calm) by (constructor; [now apply plain_unlisted|constructor]).
  unfold use_list. repeat (constructor; [split; [discriminate|split; [intros t; reflexivity|split; [exact C|intros g G; vm_compute in G; try discriminate G; injection G as <-; unfold telling; vm_compute; intros X; try discriminate X; split; reflexivity]]]|]).
  constructor.
Qed.
Example C79_example : map (fun r => match r with Ok g => g_function g | _ => "panic" end) (fst (u_runs 9 use_env ex_digest use_list new_xdec)) = ["noop"; "panic"; "noop"; "noop"].
Proof. vm_compute. reflexivity. Qed.

Print Assumptions C79_reuse.
Print Assumptions C79_fresh.
Print Assumptions C79_same.
Print Assumptions C79_runs.
Print Assumptions C79_calls.
Print Assumptions C79_listed.
Print Assumptions C79_pallet_refuted.
Print Assumptions C79_address_refuted.
Print Assumptions C79_calls_refuted.
