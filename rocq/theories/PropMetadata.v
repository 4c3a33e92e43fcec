(** The lookup tables of decoded metadata (C36) and the OriginCaller type (C35). *)

From Coq Require Import Sorting.Sorted Sorting.Permutation.
From Verif Require Import GoBase SpecNum ProofsBase ModelTools ProofsTools ModelVal ModelJson ModelRegistry ModelDecode ModelEncode ModelRegister ModelScaleInfo ModelMetadata
  ProofsRun SpecScale ProofsReads ProofsScale ProofsApi ProofsEncode ProofsNames PropForms PropRegistry PropScaleInfo.

(** ** The claim's own notions *)
(** The two bytes on the chain, as the library prints them. *)
Definition on_chain (i j : Z) : string := hex_encode [Zb i; Zb j].
(** The pallet with index [i], the variant of its calls (events) type with index [j]. *)
Definition variant_at (port : portable) (of : pallet -> option Z) (l : list pallet) (i j : Z) : option (string * sivariant) :=
  match find (fun p => p_index p =? i) l with
  | Some p =>
      match of p with
      | Some k =>
          match s_def (port_get port k) with
          | DVariant vs => match declared vs j with Some v => Some (p_name p, v) | None => None end
          | _ => None
          end
      | None => None
      end
  | None => None
  end.
(** V12 and V13: the pallet with index [i], its [j]-th item. *)
Definition item_at {A} (of : imodule -> list A) (l : list imodule) (i j : Z) : option (string * A) :=
  match find (fun m => i_index m =? i) l with
  | Some m => match nth_error (of m) (Z.to_nat j) with Some a => Some (i_name m, a) | None => None end
  | None => None
  end.
(** Up to V11: the [i]-th of the modules that have calls (events), its [j]-th item. *)
Definition having {A} (of : omodule -> option (list A)) (l : list omodule) : list (string * list A) :=
  flat_map (fun m => match of m with Some x => [(o_name m, x)] | None => [] end) l.
Definition counted_at {A} (of : omodule -> option (list A)) (l : list omodule) (i j : Z) : option (string * A) :=
  match nth_error (having of l) (Z.to_nat i) with
  | Some (n, x) => match nth_error x (Z.to_nat j) with Some a => Some (n, a) | None => None end
  | None => None
  end.
Definition to_entry {A B} (f : A -> B) (o : option (string * A)) : option (entry B) :=
  match o with Some (n, a) => Some (Entry n (f a)) | None => None end.

(** ** Keys *)
Lemma half_key i : 0 <= i < 256 -> right_justify0 (IntToHex i) 2 = hex_encode [Zb i].
Proof.
  intros H.
  assert (X : forallb (fun k => String.eqb (right_justify0 (IntToHex k) 2) (hex_encode [Zb k])) (map Z.of_nat (seq 0 256)) = true) by (vm_compute; reflexivity).
  rewrite forallb_forall in X. apply String.eqb_eq, X. apply in_map_iff. exists (Z.to_nat i). split; [lia|]. apply in_seq. lia.
Qed.
Lemma key_on_chain i j : 0 <= i < 256 -> 0 <= j < 256 -> lookup_key i j = on_chain i j.
Proof. intros Hi Hj. unfold lookup_key. rewrite !half_key by assumption. unfold on_chain. now rewrite <- hex_encode_app. Qed.
Lemma hex_loop_S f n acc : hex_loop (S f) n acc = if n <? 16 then String (hex_digit n) acc else hex_loop f (n / 16) (String (hex_digit (n mod 16)) acc).
Proof. reflexivity. Qed.
Lemma hex_loop_pos f n : (1 <= String.length (hex_loop (S f) n ""))%nat.
Proof.
  rewrite hex_loop_S. destruct (n <? 16); [cbn; lia|]. rewrite hex_loop_acc, length_app_s. cbn [String.length]. lia.
Qed.
Lemma long_half i : 256 <= i -> (3 <= String.length (right_justify0 (IntToHex i) 2))%nat.
Proof.
  intros H. unfold right_justify0, IntToHex, hex_text. replace (i <? 0) with false by lia. rewrite length_app_s.
  assert (L : 8 <= Z.log2 i) by (change 8 with (Z.log2 256); now apply Z.log2_le_mono).
  destruct (Z.to_nat (Z.log2 i)) as [|[|f]] eqn:F; try lia. rewrite !hex_loop_S. replace (i <? 16) with false by lia.
  replace (i / 16 <? 16) with false by lia. rewrite <- hex_loop_S, hex_loop_acc, length_app_s.
  pose proof (hex_loop_pos f (i / 16 / 16)). cbn [String.length]. lia.
Qed.
Lemma half_length i : 0 <= i -> (2 <= String.length (right_justify0 (IntToHex i) 2))%nat.
Proof.
  intros H. destruct (Z.lt_ge_cases i 256).
  - rewrite half_key by lia. rewrite hex_encode_length. cbn. lia.
  - pose proof (long_half i). lia.
Qed.
Lemma key_inj i j i' j' : 0 <= i -> 0 <= j -> 0 <= i' < 256 -> 0 <= j' < 256 -> lookup_key i j = on_chain i' j' -> i = i' /\ j = j'.
Proof.
  intros Hi Hj Hi' Hj' Q.
  assert (L : String.length (lookup_key i j) = 4%nat) by (rewrite Q; unfold on_chain; now rewrite hex_encode_length).
  unfold lookup_key in L. rewrite length_app_s in L. pose proof (half_length i Hi). pose proof (half_length j Hj).
  destruct (Z.lt_ge_cases i 256) as [Li|Li]; [|pose proof (long_half i Li); lia].
  destruct (Z.lt_ge_cases j 256) as [Lj|Lj]; [|pose proof (long_half j Lj); lia].
  rewrite key_on_chain in Q by lia. apply hex_encode_inj in Q. injection Q as Q1 Q2.
  apply (f_equal bZ) in Q1, Q2. rewrite !bZ_Zb_small in Q1, Q2 by lia. now split.
Qed.
Lemma key_eqb i j i' j' : 0 <= i -> 0 <= j -> 0 <= i' < 256 -> 0 <= j' < 256 ->
  String.eqb (on_chain i' j') (lookup_key i j) = (i =? i') && (j =? j').
Proof.
  intros Hi Hj Hi' Hj'. destruct (String.eqb_spec (on_chain i' j') (lookup_key i j)) as [Q|Q].
  - symmetry in Q. apply key_inj in Q; try assumption. lia.
  - symmetry. apply Bool.not_true_is_false. intros H. apply Q. rewrite Bool.andb_true_iff in H.
    replace i with i' by lia. replace j with j' by lia. symmetry. now apply key_on_chain.
Qed.

(** ** One module *)
Lemma by_position_assoc {A} mi n (l : list A) : forall j t a b, 0 <= mi -> 0 <= j -> 0 <= a < 256 -> 0 <= b < 256 ->
  assoc (on_chain a b) (by_position mi n j l t) =
  if (mi =? a) && (j <=? b) then match nth_error l (Z.to_nat (b - j)) with Some x => Some (Entry n x) | None => assoc (on_chain a b) t end
  else assoc (on_chain a b) t.
Proof.
  induction l as [|x l IH]; intros j t a b Hm Hj Ha Hb; cbn [by_position].
  - destruct ((mi =? a) && (j <=? b)); [|reflexivity]. now destruct (Z.to_nat (b - j)).
  - rewrite IH by lia. unfold upd. cbn [assoc]. rewrite key_eqb by assumption. destruct (Z.eqb_spec mi a) as [M|M]; cbn [andb]; [|reflexivity].
    destruct (Z.leb_spec (j + 1) b) as [L|L].
    + replace (j =? b) with false by lia. replace (j <=? b) with true by lia. now replace (Z.to_nat (b - j)) with (S (Z.to_nat (b - (j + 1)))) by lia.
    + destruct (Z.eqb_spec j b) as [<-|N].
      * replace (j <=? j) with true by lia. now replace (Z.to_nat (j - j)) with O by lia.
      * now replace (j <=? b) with false by lia.
Qed.
Lemma by_index_assoc {A} (index : A -> Z) mi n (l : list A) : forall t a b, NoDup (map index l) -> Forall (fun x => 0 <= index x) l -> 0 <= mi -> 0 <= a < 256 -> 0 <= b < 256 ->
  assoc (on_chain a b) (by_index index mi n l t) =
  if mi =? a then match find (fun x => index x =? b) l with Some x => Some (Entry n x) | None => assoc (on_chain a b) t end
  else assoc (on_chain a b) t.
Proof.
  induction l as [|x l IH]; intros t a b ND F Hm Ha Hb; cbn [by_index find]; [now destruct (mi =? a)|].
  cbn [map] in ND. inversion ND as [|? ? NI ND']; subst. inversion F; subst.
  rewrite IH by assumption. unfold upd. cbn [assoc]. rewrite key_eqb by assumption. destruct (mi =? a); cbn [andb]; [|reflexivity].
  destruct (Z.eqb_spec (index x) b) as [Q|Q]; [|reflexivity].
  destruct (find (fun y => index y =? b) l) as [y|] eqn:Y; [|reflexivity]. apply find_some in Y. destruct Y as [I Y].
  exfalso. apply NI. replace (index x) with (index y) by lia. now apply in_map.
Qed.

(** ** V12 and V13 *)
Lemma indexed_assoc {A} (of : imodule -> list A) (l : list imodule) : forall t a b,
  NoDup (map i_index l) -> Forall (fun m => 0 <= i_index m) l -> 0 <= a < 256 -> 0 <= b < 256 ->
  assoc (on_chain a b) (fold_left (fun t m => by_position (i_index m) (i_name m) 0 (of m) t) l t) =
  match to_entry (fun x => x) (item_at of l a b) with Some e => Some e | None => assoc (on_chain a b) t end.
Proof.
  induction l as [|m l IH]; intros t a b ND F Ha Hb; [reflexivity|]. cbn [fold_left]. cbn [map] in ND.
  inversion ND as [|? ? NI ND']; subst. inversion F; subst. rewrite IH by assumption.
  unfold item_at. cbn [find]. destruct (Z.eqb_spec (i_index m) a) as [Q|Q].
  - replace (find (fun m0 => i_index m0 =? a) l) with (@None imodule).
    + cbn [to_entry]. rewrite by_position_assoc by lia. replace (i_index m =? a) with true by lia. replace (0 <=? b) with true by lia. cbn [andb].
      rewrite Z.sub_0_r. destruct (nth_error (of m) (Z.to_nat b)); reflexivity.
    + symmetry. destruct (find _ l) as [y|] eqn:Y; [|reflexivity]. apply find_some in Y. destruct Y as [I Y]. exfalso. apply NI.
      replace (i_index m) with (i_index y) by lia. now apply in_map.
  - rewrite by_position_assoc by lia. replace (i_index m =? a) with false by lia. reflexivity.
Qed.
(** The table has an entry for the key [i; j] exactly when the pallet of index
    [i] has a [j]-th call, and it is that call. *)
Theorem C36_v13 l i j : NoDup (map i_index l) -> Forall (fun m => 0 <= i_index m < 256) l -> 0 <= i < 256 -> 0 <= j < 256 ->
  assoc (on_chain i j) (indexed_calls l) = to_entry (fun c => c) (item_at i_calls l i j)
  /\ assoc (on_chain i j) (indexed_events l) = to_entry (fun c => c) (item_at i_events l i j).
Proof.
  intros ND F Hi Hj. assert (F' : Forall (fun m => 0 <= i_index m) l) by (eapply Forall_impl; [|exact F]; cbn; lia).
  unfold indexed_calls, indexed_events. rewrite !indexed_assoc by assumption. split; now destruct (to_entry _ _).
Qed.

(** ** V6 to V11 *)
Lemma counted_assoc {A} (of : omodule -> option (list A)) (l : list omodule) : forall mi t a b,
  0 <= mi -> 0 <= a < 256 -> 0 <= b < 256 ->
  assoc (on_chain a b) (counted of mi l t) =
  if mi <=? a then match to_entry (fun x => x) (counted_at of l (a - mi) b) with Some e => Some e | None => assoc (on_chain a b) t end
  else assoc (on_chain a b) t.
Proof.
  induction l as [|m l IH]; intros mi t a b Hm Ha Hb; cbn [counted].
  - unfold counted_at. cbn [having flat_map]. destruct (mi <=? a); [|reflexivity]. now destruct (Z.to_nat (a - mi)).
  - unfold counted_at, having. cbn [flat_map]. destruct (of m) as [x|] eqn:OM.
    + rewrite IH by lia. rewrite by_position_assoc by lia. destruct (Z.leb_spec mi a) as [L|L].
      * destruct (Z.eqb_spec mi a) as [<-|N]; cbn [andb].
        -- replace (mi + 1 <=? mi) with false by lia. replace (0 <=? b) with true by lia. rewrite Z.sub_0_r.
           replace (Z.to_nat (mi - mi)) with O by lia. cbn [app nth_error]. now destruct (nth_error x (Z.to_nat b)).
        -- replace (mi + 1 <=? a) with true by lia. replace (Z.to_nat (a - mi)) with (S (Z.to_nat (a - (mi + 1)))) by lia. reflexivity.
      * replace (mi + 1 <=? a) with false by lia. replace (mi =? a) with false by lia. reflexivity.
    + rewrite IH by lia. reflexivity.
Qed.
(** V8 to V11: [keep_empty] = true, nothing to assume.  V6 and V7: no module
    announces calls (events) and then lists none. *)
Theorem C36_counted_partial keep_empty l i j :
  (keep_empty = true \/ Forall (fun m => o_calls m <> Some [] /\ o_events m <> Some []) l) -> 0 <= i < 256 -> 0 <= j < 256 ->
  assoc (on_chain i j) (old_calls keep_empty l) = to_entry (fun c => c) (counted_at o_calls l i j)
  /\ assoc (on_chain i j) (old_events keep_empty l) = to_entry (fun c => c) (counted_at o_events l i j).
Proof.
  intros K Hi Hj. unfold old_calls, old_events. rewrite !counted_assoc by lia. replace (0 <=? i) with true by lia. rewrite Z.sub_0_r.
  assert (G : forall A (of : omodule -> option (list A)), (keep_empty = true \/ Forall (fun m => of m <> Some []) l) ->
    counted_at (fun m => as_slice keep_empty (of m)) l i j = counted_at of l i j).
  { intros A of K'. unfold counted_at. replace (having (fun m => as_slice keep_empty (of m)) l) with (having of l); [reflexivity|].
    unfold having. clear -K'. induction l as [|m l IH]; [reflexivity|]. cbn [flat_map]. rewrite IH; [|destruct K' as [K'|K']; [now left|right; now inversion K']].
    f_equal. destruct (of m) as [[|x y]|] eqn:Q; cbn [as_slice]; try reflexivity. destruct K' as [->|K']; [reflexivity|]. inversion K'; subst. contradiction. }
  rewrite !G.
  - split; now destruct (to_entry _ _).
  - destruct K as [K|K]; [now left|right]. eapply Forall_impl; [|exact K]. cbn. tauto.
  - destruct K as [K|K]; [now left|right]. eapply Forall_impl; [|exact K]. cbn. tauto.
Qed.
(** V6 and V7: a module with an empty call list is not counted, and every later
    module's calls are found one index too low. *)
Theorem C36_counted_refuted : exists l,
  counted_at o_calls l 2 0 = Some ("Sudo", MCall "sudo" [] 0) /\
  assoc (on_chain 2 0) (old_calls false l) = None /\
  assoc (on_chain 1 0) (old_calls false l) = Some (Entry "Sudo" (MCall "sudo" [] 0)).
Proof.
  exists [OModule "System" (Some [MCall "remark" [] 0]) None; OModule "Empty" (Some []) None; OModule "Sudo" (Some [MCall "sudo" [] 0]) None].
  vm_compute. repeat split.
Qed.

(** ** V14 and V15 *)
Definition distinct_variants (port : portable) (l : list pallet) : Prop :=
  forall p k vs, In p l -> p_calls p = Some k \/ p_events p = Some k -> s_def (port_get port k) = DVariant vs -> well_indexed vs.

Lemma find_map {A B} (f : A -> B) (q : B -> bool) (l : list A) : find q (map f l) = option_map f (find (fun x => q (f x)) l).
Proof. induction l as [|x l IH]; [reflexivity|]. cbn [map find]. destruct (q (f x)); [reflexivity|exact IH]. Qed.
Lemma items_assoc {A} (of : sivariant -> A) (index : A -> Z) port o mi n items t a b :
  (forall v, index (of v) = v_index v) -> items_of port of o = Ok items ->
  (forall k vs, o = Some k -> s_def (port_get port k) = DVariant vs -> well_indexed vs) ->
  0 <= mi -> 0 <= a < 256 -> 0 <= b < 256 ->
  assoc (on_chain a b) (by_index index mi n items t) =
  if mi =? a then
    match match o with
          | Some k => match s_def (port_get port k) with DVariant vs => declared vs b | _ => None end
          | None => None
          end with Some v => Some (Entry n (of v)) | None => assoc (on_chain a b) t end
  else assoc (on_chain a b) t.
Proof.
  intros IX I W Hm Ha Hb. destruct o as [k|]; cbn [items_of] in I.
  - unfold variants_of in I. destruct (s_def (port_get port k)) as [|vs| | | | | | | | |] eqn:D; try discriminate I. injection I as <-.
    destruct (W k vs eq_refl D) as [ND F]. rewrite by_index_assoc.
    + destruct (mi =? a); [|reflexivity]. rewrite find_map. unfold declared.
      replace (find (fun x => index (of x) =? b) vs) with (find (fun v => v_index v =? b) vs).
      * now destruct (find _ vs).
      * clear -IX. induction vs as [|v vs IH]; [reflexivity|]. cbn [find]. rewrite IX, IH. reflexivity.
    + rewrite map_map. now rewrite (map_ext _ _ IX).
    + apply Forall_map. eapply Forall_impl; [|exact F]. cbn. intros v. rewrite IX. lia.
    + exact Hm.
    + exact Ha.
    + exact Hb.
  - injection I as <-. cbn [by_index]. now destruct (mi =? a).
Qed.

Lemma pallets_assoc v15 port names l : forall t t', NoDup (map p_index l) -> Forall (fun p => 0 <= p_index p < 256) l -> distinct_variants port l ->
  pallets_loop v15 port names l t = Ok t' -> forall a b, 0 <= a < 256 -> 0 <= b < 256 ->
  assoc (on_chain a b) (tb_calls t') = match to_entry (call_of names) (variant_at port p_calls l a b) with Some e => Some e | None => assoc (on_chain a b) (tb_calls t) end
  /\ assoc (on_chain a b) (tb_events t') = match to_entry (event_of names) (variant_at port p_events l a b) with Some e => Some e | None => assoc (on_chain a b) (tb_events t) end.
Proof.
  induction l as [|p l IH]; intros t t' ND F W H a b Ha Hb; cbn [pallets_loop] in H.
  - injection H as <-. split; reflexivity.
  - destruct (items_of port (call_of names) (p_calls p)) as [cs| |] eqn:IC; try discriminate H. cbn [bind] in H.
    destruct (items_of port (event_of names) (p_events p)) as [es| |] eqn:IE; try discriminate H. cbn [bind] in H.
    destruct (resolve_all v15 port names (p_storage p)) as [st| |]; try discriminate H. cbn [bind] in H.
    cbn [map] in ND. inversion ND as [|? ? NI ND']; subst. inversion F; subst.
    destruct (IH _ _ ND' ltac:(assumption) ltac:(intros q k vs Q; apply W; now right) H a b Ha Hb) as [X Y]. rewrite X, Y. cbn [tb_calls tb_events].
    rewrite (items_assoc (call_of names) k_index port (p_calls p)) by (assumption || reflexivity || lia || (intros k vs Q; apply W with p; [now left|now left])).
    rewrite (items_assoc (event_of names) w_index port (p_events p)) by (assumption || reflexivity || lia || (intros k vs Q; apply W with p; [now left|now right])).
    unfold variant_at. cbn [find]. destruct (Z.eqb_spec (p_index p) a) as [Q|Q].
    + replace (find (fun p0 => p_index p0 =? a) l) with (@None pallet).
      * cbn [to_entry]. split.
        -- destruct (p_calls p) as [k|]; [|reflexivity]. destruct (s_def (port_get port k)); try reflexivity. now destruct (declared _ b).
        -- destruct (p_events p) as [k|]; [|reflexivity]. destruct (s_def (port_get port k)); try reflexivity. now destruct (declared _ b).
      * symmetry. destruct (find _ l) as [y|] eqn:Z0; [|reflexivity]. apply find_some in Z0. destruct Z0 as [I Z0]. exfalso. apply NI.
        replace (p_index p) with (p_index y) by lia. now apply in_map.
    + split; reflexivity.
Qed.

(** For distinct pallet indices and distinct variant indices, the key [i; j]
    leads to the variant [j] of the calls (events) type of pallet [i], with its
    name, its argument names and the types registered for them, and to nothing
    if there is no such pallet or variant. *)
Theorem C36_v14 v15 port names l t i j : NoDup (map p_index l) -> Forall (fun p => 0 <= p_index p < 256) l -> distinct_variants port l ->
  pallet_tables v15 port names l = Ok t -> 0 <= i < 256 -> 0 <= j < 256 ->
  match variant_at port p_calls l i j with
  | Some (n, v) => exists e, assoc (on_chain i j) (tb_calls t) = Some e /\ en_module e = n /\ k_name (en_item e) = v_name v
      /\ map a_name (k_args (en_item e)) = map f_name (v_fields v)
      /\ map a_type (k_args (en_item e)) = map (fun f => si_name names (f_type f)) (v_fields v)
  | None => assoc (on_chain i j) (tb_calls t) = None
  end /\
  match variant_at port p_events l i j with
  | Some (n, v) => exists e, assoc (on_chain i j) (tb_events t) = Some e /\ en_module e = n /\ w_name (en_item e) = v_name v
      /\ w_argnames (en_item e) = map f_name (v_fields v)
      /\ w_args (en_item e) = map (fun f => si_name names (f_type f)) (v_fields v)
  | None => assoc (on_chain i j) (tb_events t) = None
  end.
Proof.
  intros ND F W H Hi Hj. destruct (pallets_assoc v15 port names l _ _ ND F W H i j Hi Hj) as [X Y]. rewrite X, Y. split.
  - destruct (variant_at port p_calls l i j) as [[n v]|]; [|reflexivity]. cbn [to_entry]. eexists. split; [reflexivity|].
    cbn [en_module en_item call_of k_name k_args]. repeat split; now rewrite map_map.
  - destruct (variant_at port p_events l i j) as [[n v]|]; [|reflexivity]. cbn [to_entry]. eexists. split; [reflexivity|]. now repeat split.
Qed.
(** No other key is in the tables. *)
Lemma by_index_keys {A} (index : A -> Z) mi n (l : list A) : forall t k e, In (k, e) (by_index index mi n l t) ->
  In (k, e) t \/ exists a, In a l /\ k = lookup_key mi (index a) /\ e = Entry n a.
Proof.
  induction l as [|x l IH]; intros t k e H; cbn [by_index] in H; [now left|].
  apply IH in H. destruct H as [[H|H]|(a & I & Q)].
  - injection H as <- <-. right. exists x. repeat split. now left.
  - now left.
  - right. exists a. split; [now right|exact Q].
Qed.
Theorem C36_v14_only v15 port names l t : Forall (fun p => 0 <= p_index p < 256) l -> distinct_variants port l ->
  pallet_tables v15 port names l = Ok t ->
  (forall k e, In (k, e) (tb_calls t) -> exists i j, k = on_chain i j /\ 0 <= i < 256 /\ 0 <= j < 256) /\
  (forall k e, In (k, e) (tb_events t) -> exists i j, k = on_chain i j /\ 0 <= i < 256 /\ 0 <= j < 256).
Proof.
  intros F W. unfold pallet_tables.
  assert (G : forall l t t', Forall (fun p => 0 <= p_index p < 256) l -> distinct_variants port l -> pallets_loop v15 port names l t = Ok t' ->
    (forall k e, In (k, e) (tb_calls t') -> In (k, e) (tb_calls t) \/ exists i j, k = on_chain i j /\ 0 <= i < 256 /\ 0 <= j < 256) /\
    (forall k e, In (k, e) (tb_events t') -> In (k, e) (tb_events t) \/ exists i j, k = on_chain i j /\ 0 <= i < 256 /\ 0 <= j < 256)).
  { clear. induction l as [|p l IH]; intros t t' F W H; cbn [pallets_loop] in H; [injection H as <-; split; now left|].
    destruct (items_of port (call_of names) (p_calls p)) as [cs| |] eqn:IC; try discriminate H. cbn [bind] in H.
    destruct (items_of port (event_of names) (p_events p)) as [es| |] eqn:IE; try discriminate H. cbn [bind] in H.
    destruct (resolve_all v15 port names (p_storage p)) as [st| |]; try discriminate H. cbn [bind] in H. inversion F; subst.
    destruct (IH _ _ ltac:(assumption) ltac:(intros q k vs Q; apply W; now right) H) as [X Y]. cbn [tb_calls tb_events] in X, Y.
    assert (K : forall A (of : sivariant -> A) (index : A -> Z) o items, (forall v, index (of v) = v_index v) -> items_of port of o = Ok items ->
      (p_calls p = o \/ p_events p = o) -> forall a, In a items -> 0 <= index a < 256).
    { intros A of index o items IX I PO a Ia. destruct o as [k|]; cbn [items_of] in I; [|injection I as <-; contradiction].
      unfold variants_of in I. destruct (s_def (port_get port k)) as [|vs| | | | | | | | |] eqn:D; try discriminate I. injection I as <-.
      apply in_map_iff in Ia. destruct Ia as (v & <- & Iv). rewrite IX. destruct (W p k vs ltac:(now left) PO D) as [_ V]. rewrite Forall_forall in V. now apply V. }
    split; intros k e I.
    - destruct (X k e I) as [I'|]; [|now right]. destruct (by_index_keys _ _ _ _ _ _ _ I') as [|(a & Ia & -> & _)]; [now left|right].
      pose proof (K _ (call_of names) k_index _ _ (fun _ => eq_refl) IC (or_introl eq_refl) a Ia). exists (p_index p), (k_index a). split; [now apply key_on_chain|split; assumption].
    - destruct (Y k e I) as [I'|]; [|now right]. destruct (by_index_keys _ _ _ _ _ _ _ I') as [|(a & Ia & -> & _)]; [now left|right].
      pose proof (K _ (event_of names) w_index _ _ (fun _ => eq_refl) IE (or_intror eq_refl) a Ia). exists (p_index p), (w_index a). split; [now apply key_on_chain|split; assumption]. }
  intros H. destruct (G l _ _ F W H) as [X Y]. split; intros k e I.
  - destruct (X k e I) as [[]|Z0]. exact Z0.
  - destruct (Y k e I) as [[]|Z0]. exact Z0.
Qed.

(** ** A call decoded with such a table *)
Definition call_args (names : list (Z * string)) (v : sivariant) : list (string * string) :=
  map (fun f => (f_name f, si_name names (f_type f))) (v_fields v).
Definition params_of (args : list (string * string)) (m : list (string * val)) : list (string * string * val) :=
  map (fun p => (fst (fst p), snd (fst p), snd (snd p))) (combine args m).
Lemma params_run E c data off args m off2 cs : fields_at E c data off args m off2 cs ->
  exists f, forall f', (f <= f')%nat -> forall start acc k calls,
    run (decode f' E) start (call_params c args acc k) data off calls
    = run (decode f' E) start (k (rev acc ++ params_of args m)%list) data off2 (calls ++ cs)%list.
Proof.
  induction 1 as [off|off n t r v off1 cs1 fs off2 cs2 [_ [f1 D]] H [f2 IH]].
  - exists O. intros f' _ start acc k calls. cbn [call_params params_of combine map]. now rewrite !app_nil_r.
  - exists (Nat.max f1 f2). intros f' L start acc k calls. cbn [call_params run].
    rewrite (decode_mono f1 f' E ltac:(lia) _ _ _ _ _ D) by discriminate. cbn [bind]. rewrite IH by lia. rewrite <- app_assoc. cbn [rev].
    rewrite <- app_assoc. reflexivity.
Qed.
Lemma codec_assoc k (t : table mcall) : assoc k (codec_calls t) = option_map to_callmod (assoc k t).
Proof. induction t as [|[k' e] t IH]; [reflexivity|]. cbn [codec_calls map assoc fst snd]. destruct (String.eqb k k'); [reflexivity|exact IH]. Qed.
Lemma slice_middle pre b tl : slice (pre ++ b ++ tl) (blen pre) (blen pre + blen b) = Ok b.
Proof.
  pose proof (blen_nonneg pre). pose proof (blen_nonneg b). pose proof (blen_nonneg tl).
  rewrite slice_ok by (rewrite ?blen_app; lia). f_equal. unfold blen.
  rewrite skipn_app. replace (Z.to_nat (Z.of_nat (List.length pre))) with (List.length pre) by lia. rewrite skipn_all, Nat.sub_diag. cbn [skipn app].
  replace (Z.to_nat _) with (List.length b) by lia. now rewrite firstn_app, firstn_all, Nat.sub_diag, firstn_O, app_nil_r.
Qed.
(** Decoding a Call whose bytes are [i; j] and the arguments gives the call of
    pallet [i] and variant [j]; the arguments are decoded at the registered
    types, inside that pallet's module. *)
Theorem C36_decoded v15 port names l t E spec ts i j n v b pre tl m cs :
  NoDup (map p_index l) -> Forall (fun p => 0 <= p_index p < 256) l -> distinct_variants port l ->
  pallet_tables v15 port names l = Ok t -> 0 <= i < 256 -> 0 <= j < 256 -> variant_at port p_calls l i j = Some (n, v) ->
  let md := Some (codec_calls (tb_calls t)) in
  let data := (pre ++ (Zb i :: Zb j :: b) ++ tl)%list in
  forall module, resolves E (Ctx spec module md) ts CCall -> blen data < 2 ^ 63 ->
  fields_at E (Ctx spec n md) data (blen pre + 2) (call_args names v) m (blen pre + 2 + blen b) cs ->
  Decodes E (Ctx spec module md) data (blen pre) ts
    (Ok (VMap [("call_index", VStr (on_chain i j)); ("call_name", VStr (v_name v)); ("call_module", VStr n);
               ("params", VParams (params_of (call_args names v) m))],
         blen pre + 2 + blen b, (cs ++ [hex_encode (Zb i :: Zb j :: b)])%list)).
Proof.
  intros ND F W H Hi Hj V md data module R L FA.
  destruct (pallets_assoc v15 port names l _ _ ND F W H i j Hi Hj) as [X _]. rewrite V in X. cbn [to_entry] in X.
  destruct (params_run _ _ _ _ _ _ _ _ FA) as [f P]. eapply (Decodes_run E _ ts CCall f); [exact R| |discriminate].
  cbn [process]. unfold process_call. cbn [run].
  assert (N : next_bytes data (blen pre) (i64 2) = Ok ([Zb i; Zb j], blen pre + 2)).
  { unfold data. change ((Zb i :: Zb j :: b) ++ tl)%list with ([Zb i; Zb j] ++ (b ++ tl))%list. now apply next_at. }
  rewrite N. cbn [bind x_meta x_spec]. unfold md at 1. cbn [x_meta]. rewrite BytesToHex_eq. fold (on_chain i j).
  rewrite codec_assoc, X. cbn [option_map to_callmod en_module en_item call_of k_name k_args cm_module cm_name cm_args].
  replace (map (fun a => (a_name a, a_type a)) (map (fun f0 => MArg (f_name f0) (si_name names (f_type f0)) (ConvertType (f_tyname f0))) (v_fields v)))
    with (call_args names v) by (now rewrite map_map).
  fold md. rewrite P by lia. cbn [run rev app].
  assert (SL : slice data (blen pre) (blen pre + 2 + blen b) = Ok (Zb i :: Zb j :: b)).
  { unfold data. replace (blen pre + 2 + blen b) with (blen pre + blen (Zb i :: Zb j :: b)) by (unfold blen; cbn [List.length]; lia). apply slice_middle. }
  rewrite SL. cbn [bind]. reflexivity.
Qed.

(** A runtime with two pallets, sparse indices, shared and missing types. *)
Definition ex_pallets : list pallet :=
  [Pallet "System" 0 (Some 4) (Some 5) []; Pallet "Timestamp" 200 (Some 6) None []; Pallet "Empty" 7 None None []].
Definition ex_tables_port : portable :=
  [(0, SiType [] [] (DPrimitive "u8")); (1, SiType [] [] (DPrimitive "u32"));
   (4, SiType ["frame_system"; "pallet"; "Call"] [] (DVariant [SiVariant "remark" [SiField "x" 0 "u8"] 9; SiVariant "halt" [] 1]));
   (5, SiType ["frame_system"; "pallet"; "Event"] [] (DVariant [SiVariant "Done" [SiField "who" 1 ""] 255]));
   (6, SiType ["timestamp"; "pallet"; "Call"] [] (DVariant [SiVariant "set" [SiField "now" 1 "u32"; SiField "y" 0 ""] 0]))].
Definition ex_names : list (Z * string) := [(0, "u8"); (1, "u32"); (4, "Call"); (5, "Event"); (6, "Call")].
Example C36_example : exists t, pallet_tables false ex_tables_port ex_names ex_pallets = Ok t
  /\ NoDup (map p_index ex_pallets) /\ Forall (fun p => 0 <= p_index p < 256) ex_pallets /\ distinct_variants ex_tables_port ex_pallets
  /\ assoc "0009" (tb_calls t) = Some (Entry "System" (MCall "remark" [MArg "x" "u8" "u8"] 9))
  /\ assoc "c800" (tb_calls t) = Some (Entry "Timestamp" (MCall "set" [MArg "now" "u32" "u32"; MArg "y" "u8" ""] 0))
  /\ assoc "00ff" (tb_events t) = Some (Entry "System" (MEvent "Done" ["u32"] ["who"] [""] 255))
  /\ assoc "0700" (tb_calls t) = None.
Proof.
  eexists. split; [vm_compute; reflexivity|]. split; [repeat constructor; cbn; intuition discriminate|].
  split; [repeat constructor; cbn; discriminate|]. split; [|vm_compute; repeat split].
  intros p k vs [<-|[<-|[<-|[]]]] [K|K]; try discriminate K; injection K as <-; intros D; injection D as <-;
    (split; [repeat constructor; cbn; intuition discriminate|repeat constructor; cbn; discriminate]).
Qed.
Example C36_decoded_example : exists t, pallet_tables false ex_tables_port ex_names ex_pallets = Ok t /\
  Decodes (reg_env base_reg) (Ctx 100 "" (Some (codec_calls (tb_calls t)))) (map Zb [200; 0; 1; 0; 0; 0; 7]) 0 "Call"
    (Ok (VMap [("call_index", VStr "c800"); ("call_name", VStr "set"); ("call_module", VStr "Timestamp");
               ("params", VParams [("now", "u32", VU32 1); ("y", "u8", VInt 7)])], 7, ["c8000100000007"])).
Proof. eexists. split; [vm_compute; reflexivity|]. dec 6%nat. Qed.
Example C36_v13_example :
  item_at i_calls [IModule "A" 3 [MCall "x" [] 0; MCall "y" [] 0] []; IModule "B" 1 [MCall "z" [] 0] []] 3 1 = Some ("A", MCall "y" [] 0).
Proof. reflexivity. Qed.
Example C36_counted_example :
  counted_at o_calls [OModule "A" None None; OModule "B" (Some []) None; OModule "C" (Some [MCall "z" [] 0]) None] 1 0 = Some ("C", MCall "z" [] 0)
  /\ assoc "0100" (old_calls true [OModule "A" None None; OModule "B" (Some []) None; OModule "C" (Some [MCall "z" [] 0]) None]) = Some (Entry "C" (MCall "z" [] 0)).
Proof. split; reflexivity. Qed.

(** ** C51: one key type per hasher.
    A map with [n] hashers has either one key ([n] = 1) or a tuple key of [n]
    components (frame's StorageMap, StorageDoubleMap and StorageNMap). *)
Definition hashed (port : portable) (hs : list string) (key : Z) : Prop :=
  List.length hs = 1%nat \/ exists l, s_def (port_get port key) = DTuple l /\ List.length l = List.length hs.
(** The type name of the key, when it is one key: not a parenthesised text. *)
Definition plain_key (port : portable) (names : list (Z * string)) (key : Z) : Prop :=
  match s_def (port_get port key) with
  | DTuple l => l <> []
  | _ => exists a r, si_name names key = String a r /\ a <> "("%char
  end.
Lemma tuple_disassemble_plain a r : a <> "("%char -> TupleDisassemble (String a r) = Ok [String a r].
Proof.
  intros N. unfold TupleDisassemble. cbn [first_char]. destruct (last_char (String a r)) as [z|] eqn:Q.
  - destruct (Ascii.eqb_spec a "("%char); [contradiction|]. reflexivity.
  - exfalso. clear N. revert a Q. induction r as [|b r IH]; intros a Q; [discriminate Q|]. cbn [last_char] in Q, IH. eapply (IH b). exact Q.
Qed.
(** V14: as many key types as hashers; the one key of a single hasher is the
    whole key type, and those of several hashers are the components. *)
Theorem C51_keys_partial port names hs key value : hashed port hs key -> plain_key port names key ->
  exists keys, resolve_storage false port names (Map14 hs key value) = Ok (SMap hs keys (si_name names value)) /\
  List.length keys = List.length hs /\
  ((keys = [si_name names key] /\ List.length hs = 1%nat) \/ exists l, s_def (port_get port key) = DTuple l /\ keys = map (si_name names) l).
Proof.
  intros H P. unfold plain_key in P. cbn [resolve_storage negb andb]. destruct (s_def (port_get port key)) as [| | | |l| | | | | |] eqn:D.
  5:{ destruct (Z.ltb_spec (Z.of_nat (List.length hs)) (Z.of_nat (List.length l))) as [L|L]; cbn [bind].
      - eexists. split; [reflexivity|]. destruct H as [H|(l' & Q & H)]; [|rewrite D in Q; injection Q as <-; lia]. split; [now rewrite H|]. left. now split.
      - eexists. split; [reflexivity|]. rewrite map_length. split.
        + destruct H as [H|(l' & Q & H)]; [|rewrite D in Q; now injection Q as <-]. destruct l as [|x l]; [contradiction|]. cbn in *. lia.
        + right. exists l. now split. }
  all: destruct H as [H|(l' & Q & _)]; [|rewrite D in Q; discriminate Q]; destruct P as (a & r & P & N); rewrite P, tuple_disassemble_plain by exact N;
    cbn [bind]; eexists; (split; [reflexivity|]); split; [now rewrite H|left; now split].
Qed.
(** V15: a map from a pair with one hasher gets two key types; V14 gives one. *)
Theorem C51_v15_refuted : let port := [(0, SiType [] [] (DPrimitive "u8")); (1, SiType [] [] (DTuple [0; 0]))] in
  let names := [(0, "u8"); (1, "Tuple:u8u8")] in
  hashed port ["Blake2_128Concat"] 1 /\ plain_key port names 1 /\
  resolve_storage false port names (Map14 ["Blake2_128Concat"] 1 0) = Ok (SMap ["Blake2_128Concat"] ["Tuple:u8u8"] "u8") /\
  resolve_storage true port names (Map14 ["Blake2_128Concat"] 1 0) = Ok (SMap ["Blake2_128Concat"] ["u8"; "u8"] "u8").
Proof. cbv zeta. split; [now left|]. split; [cbn; discriminate|]. split; reflexivity. Qed.
Example C51_example : hashed [(3, SiType [] [] (DTuple [1; 2]))] ["Twox64Concat"; "Identity"] 3
  /\ resolve_storage false [(3, SiType [] [] (DTuple [1; 2]))] [(1, "u8"); (2, "u16"); (3, "Tuple:u8u16")] (Map14 ["Twox64Concat"; "Identity"] 3 1)
     = Ok (SMap ["Twox64Concat"; "Identity"] ["u8"; "u16"] "u8").
Proof. split; [right; now eexists|reflexivity]. Qed.

(** ** C35: OriginCaller *)
Ltac name_ok_text :=
  split; [discriminate|]; split; [|split; reflexivity]; cbn [s2b list_ascii_of_string];
  repeat (constructor; [unfold name_char; vm_compute; intuition congruence|]); constructor.
(** The override table (types/override/override.go) leaves a type name alone. *)
Definition override_free (t : string) : bool := forallb (fun p => match assoc t (snd p) with Some _ => false | None => true end) typesModules.
Lemma override_none t m : override_free t = true -> ModuleType t m = t.
Proof.
  intros H. unfold ModuleType. destruct (String.eqb m ""); [reflexivity|]. unfold override_free in H. rewrite forallb_forall in H.
  destruct (assoc (to_lower m) typesModules) as [x|] eqn:Q; [|reflexivity].
  assert (I : exists k, In (k, x) typesModules).
  { clear H. revert Q. generalize (to_lower m). induction typesModules as [|[k y] l IH]; intros z Q; [discriminate Q|]. cbn [assoc] in Q.
    destruct (String.eqb z k); [injection Q as ->; exists k; now left|]. destruct (IH z Q) as [k' I]. exists k'. now right. }
  destruct I as [k I]. specialize (H _ I). cbn [snd] in H. now destruct (assoc t x).
Qed.
Definition pallet_named (l : list (string * Z)) (i : Z) : option string := option_map fst (find (fun p => snd p =? i) l).
Lemma insert_origin_perm v l : Permutation (insert_origin v l) (v :: l).
Proof. induction l as [|w l IH]; [reflexivity|]. cbn [insert_origin]. destruct (snd v <=? snd w); [reflexivity|]. rewrite IH. constructor. Qed.
Lemma sort_origins_perm l : Permutation (sort_origins l) l.
Proof. induction l as [|v l IH]; [reflexivity|]. cbn [sort_origins]. rewrite insert_origin_perm. now constructor. Qed.
Definition olt (v w : string * Z) : Prop := snd v < snd w.
Lemma insert_origin_strict v l : StronglySorted olt l -> ~ In (snd v) (map snd l) -> StronglySorted olt (insert_origin v l).
Proof.
  induction 1 as [|w l SS IH F]; intros N; cbn [insert_origin]; [repeat constructor|]. cbn [map In] in N.
  assert (snd v <> snd w) by (intros Q; apply N; left; now rewrite Q). assert (N2 : ~ In (snd v) (map snd l)) by tauto. destruct (Z.leb_spec (snd v) (snd w)) as [L|L].
  - constructor; [now constructor|]. constructor; [unfold olt; lia|]. rewrite Forall_forall in *. intros x Hx. specialize (F x Hx). unfold olt in *. lia.
  - constructor; [now apply IH|]. rewrite Forall_forall in *. intros x Hx. apply (Permutation_in _ (insert_origin_perm v l)) in Hx.
    destruct Hx as [<-|Hx]; [unfold olt; lia|now apply F].
Qed.
Lemma sort_origins_strict l : NoDup (map snd l) -> StronglySorted olt (sort_origins l).
Proof.
  induction l as [|v l IH]; intros ND; [constructor|]. cbn [map] in ND. inversion ND; subst. cbn [sort_origins]. apply insert_origin_strict; [now apply IH|].
  intros I. apply H1. eapply Permutation_in; [|exact I]. apply Permutation_map, sort_origins_perm.
Qed.
Lemma pad_length n : forall k, List.length (pad_origins n k) = n.
Proof. induction n as [|n IH]; intros k; [reflexivity|]. cbn [pad_origins List.length]. now rewrite IH. Qed.
Lemma pad_nth n : forall k j, (j < n)%nat -> nth_error (pad_origins n k) j = Some ("EMPTY" ++ itoa (k + Z.of_nat j), "NULL").
Proof.
  induction n as [|n IH]; intros k j H; [lia|]. destruct j as [|j]; cbn [pad_origins nth_error].
  - now rewrite Z.add_0_r.
  - rewrite IH by lia. do 3 f_equal. f_equal. lia.
Qed.
Lemma origin_rows_at l : forall tm i, StronglySorted olt l -> Forall (fun p => Z.of_nat (List.length tm) <= snd p) l -> 0 <= i ->
  nth_error (origin_rows tm l) (Z.to_nat i) =
  if i <? Z.of_nat (List.length tm) then nth_error tm (Z.to_nat i) else
  match pallet_named l i with
  | Some n => Some (n, origin_type n)
  | None => if existsb (fun p => i <? snd p) l then Some ("EMPTY" ++ itoa i, "NULL") else None
  end.
Proof.
  induction l as [|[n k] l IH]; intros tm i SS F Hi; cbn [origin_rows].
  - cbn. destruct (Z.ltb_spec i (Z.of_nat (List.length tm))); [reflexivity|]. apply nth_error_None. lia.
  - inversion SS as [|? ? SS' FL]; subst. inversion F as [|? ? K F']; subst. cbn [snd] in K.
    set (len := Z.of_nat (List.length tm)) in *. set (tm' := (tm ++ _)%list).
    assert (LN : Z.of_nat (List.length tm') = k + 1) by (unfold tm'; rewrite !app_length, pad_length; cbn [List.length]; lia).
    rewrite IH; [|exact SS'| |exact Hi].
    2:{ rewrite LN. rewrite Forall_forall in *. intros x Hx. specialize (FL x Hx). unfold olt in FL. cbn [snd] in FL. lia. }
    rewrite LN. unfold pallet_named. cbn [find snd existsb].
    assert (NP : i <= k -> find (fun p => snd p =? i) l = None).
    { intros L. destruct (find _ l) as [p|] eqn:Q; [|reflexivity]. apply find_some in Q. destruct Q as [I Q]. rewrite Forall_forall in FL. specialize (FL p I).
      unfold olt in FL. cbn [snd] in FL. lia. }
    destruct (Z.ltb_spec i (k + 1)) as [L|L].
    + unfold tm'. destruct (Z.ltb_spec i len) as [L2|L2].
      * rewrite nth_error_app1 by lia. reflexivity.
      * rewrite nth_error_app2 by lia. destruct (Z.eqb_spec k i) as [->|N]; cbn [option_map fst].
        -- rewrite nth_error_app2 by (rewrite pad_length; lia). rewrite pad_length. replace (Z.to_nat i - _ - _)%nat with O by lia. reflexivity.
        -- rewrite NP by lia. cbn [option_map]. replace (i <? k) with true by lia. cbn [orb].
           rewrite nth_error_app1 by (rewrite pad_length; lia). rewrite pad_nth by lia. do 3 f_equal. f_equal. lia.
    + replace (i <? len) with false by lia. replace (k =? i) with false by lia. replace (i <? k) with false by lia. reflexivity.
Qed.

Lemma origin_rows_keeps l : forall tm x, In x tm -> In x (origin_rows tm l).
Proof. induction l as [|[n k] l IH]; intros tm x I; [exact I|]. cbn [origin_rows]. apply IH, in_or_app. now left. Qed.
Lemma find_perm_unique {A} (index : A -> Z) l l' i : Permutation l l' -> NoDup (map index l) ->
  find (fun x => index x =? i) l = find (fun x => index x =? i) l'.
Proof.
  intros P ND. assert (ND' : NoDup (map index l')) by (eapply Permutation_NoDup; [apply Permutation_map; exact P|exact ND]).
  assert (U : forall m x, NoDup (map index m) -> In x m -> index x = i -> find (fun x => index x =? i) m = Some x).
  { clear. induction m as [|y m IH]; intros x ND I Q; [contradiction|]. cbn [map] in ND. inversion ND as [|? ? NI ND']; subst. cbn [find].
    destruct I as [->|I]; [now replace (index x =? index x) with true by lia|].
    destruct (Z.eqb_spec (index y) (index x)) as [E|_]; [|now apply IH]. exfalso. apply NI. rewrite E. now apply in_map. }
  destruct (find _ l') as [x|] eqn:Q.
  - apply find_some in Q. destruct Q as [I Q]. apply U; [exact ND|eapply Permutation_in; [symmetry; exact P|exact I]|lia].
  - destruct (find _ l) as [x|] eqn:R; [|reflexivity]. apply find_some in R. destruct R as [I R].
    eapply find_none in Q; [|eapply Permutation_in; [exact P|exact I]]. lia.
Qed.
Lemma existsb_perm' {A} (q : A -> bool) l l' : Permutation l l' -> existsb q l = existsb q l'.
Proof.
  induction 1 as [|x l l' P IH|x y l|l l' l'' P1 IH1 P2 IH2]; cbn [existsb]; try congruence. now rewrite !Bool.orb_assoc, (Bool.orb_comm (q y)).
Qed.

(** For every set of pallets with distinct indices, OriginCaller decodes byte
    [i] to the pallet of index [i] with its origin (nil, or the type of
    KnownOrigins); a byte between two pallets to EMPTYi; others panic. *)
Theorem C35_pallet l r cx i pre tl : NoDup (map snd l) -> Forall (fun p => 0 <= snd p < 256) l -> l <> [] ->
  assoc "origincaller" (r_special r) = None -> 0 <= i < 256 -> blen (pre ++ Zb i :: tl) < 2 ^ 63 ->
  let E := reg_env (registerOriginCaller l r) in let data := (pre ++ Zb i :: tl)%list in let off := blen pre in
  match pallet_named l i with
  | Some n =>
      match assoc n KnownOrigins with
      | Some t => forall v o cs, Decodes E cx data (off + 1) t (Ok (v, o, cs)) -> Decodes E cx data off "OriginCaller" (Ok (VMap [(n, v)], o, cs))
      | None => resolves E cx "NULL" CNull -> Decodes E cx data off "OriginCaller" (Ok (VMap [(n, VNil)], off + 1, []))
      end
  | None =>
      if existsb (fun p => i <? snd p) l then
        resolves E cx "NULL" CNull -> Decodes E cx data off "OriginCaller" (Ok (VMap [("EMPTY" ++ itoa i, VNil)], off + 1, []))
      else exists m, Decodes E cx data off "OriginCaller" (Panic m)
  end.
Proof.
  intros ND F NE SP Hi L E data off.
  set (tm := origin_rows [] (sort_origins l)).
  assert (R : resolves E cx "OriginCaller" (CEnum (Some tm) [])).
  { apply name_resolves; [name_ok_text|]. unfold lookup. change (to_lower "OriginCaller") with "origincaller". cbv zeta. rewrite (override_none "origincaller" (x_module cx) eq_refl).
    unfold specialVersionCodec, E, registerOriginCaller. change (to_lower "OriginCaller") with "origincaller". unfold regCustomKey.
    change (split_char "#"%char "origincaller") with ["origincaller"]. cbn [reg_env e_special e_reg with_types r_types r_special]. change (to_lower "origincaller") with "origincaller". rewrite SP. reflexivity. }
  pose proof (origin_rows_at (sort_origins l) [] i (sort_origins_strict l ND)) as T. cbn [List.length] in T.
  assert (PN : pallet_named (sort_origins l) i = pallet_named l i).
  { unfold pallet_named. f_equal. apply find_perm_unique; [apply sort_origins_perm|]. eapply Permutation_NoDup; [|exact ND]. apply Permutation_map. symmetry. apply sort_origins_perm. }
  rewrite PN, (existsb_perm' _ _ _ (sort_origins_perm l)) in T. replace (i <? Z.of_nat 0) with false in T by lia. fold tm in T.
  assert (FS : Forall (fun p => Z.of_nat 0 <= snd p) (sort_origins l)).
  { rewrite Forall_forall in *. intros p Hp. specialize (F p (Permutation_in _ (sort_origins_perm l) Hp)). lia. }
  specialize (T FS (proj1 Hi)).
  assert (ON : forall n, numeric (origin_type n) = false /\ origin_type n <> "" /\ struct_variant (origin_type n) = None).
  { intros n. unfold origin_type. destruct (assoc n KnownOrigins) as [t|] eqn:Q; [|repeat split; discriminate].
    unfold KnownOrigins in Q. cbn [assoc] in Q. repeat match type of Q with (if ?b then _ else _) = _ => destruct b end; try discriminate Q; injection Q as <-; repeat split; discriminate. }
  assert (NC : c_like tm = false).
  { unfold c_like. destruct (sort_origins l) as [|[n k] l'] eqn:SO.
    - exfalso. apply NE. pose proof (sort_origins_perm l) as P. rewrite SO in P. now apply Permutation_nil.
    - apply Bool.not_true_is_false. intros A. rewrite forallb_forall in A.
      assert (I : exists m, In (m, origin_type n) tm).
      { exists n. unfold tm. cbn [origin_rows]. apply origin_rows_keeps. apply in_or_app. right. apply in_or_app. right. now left. }
      destruct I as [m I]. specialize (A _ I). cbn [snd] in A. destruct (ON n) as [O1 _]. congruence. }
  destruct (pallet_named l i) as [n|].
  - destruct (ON n) as (_ & O2 & O3). pose proof (C27_variant E cx "OriginCaller" tm [] i n (origin_type n) pre tl R NC Hi T O2 O3 L) as [X _].
    unfold origin_type in X. destruct (assoc n KnownOrigins) as [t|]; [exact X|]. intros RN. apply X.
    eapply (Decodes_run E cx "NULL" _ O); [exact RN|reflexivity|discriminate].
  - destruct (existsb _ l).
    + intros RN. pose proof (C27_variant E cx "OriginCaller" tm [] i ("EMPTY" ++ itoa i) "NULL" pre tl R NC Hi T ltac:(discriminate) eq_refl L) as [X _]. apply X.
      eapply (Decodes_run E cx "NULL" _ O); [exact RN|reflexivity|discriminate].
    + apply C27_unknown_panics with (1 := R); [exact Hi| |exact L]. split; [exact NC|]. apply nth_error_None in T. lia.
Qed.
Example C35_example :
  let r := regCustomKey "collectiveorigin" (CEnum (Some [("Members", "u32"); ("Member", "AccountId")]) []) base_reg in
  let E := reg_env (registerOriginCaller [("Council", 13); ("System", 2); ("Sudo", 5)] r) in
  Decodes E (Ctx 100 "" None) (map Zb [5]) 0 "OriginCaller" (Ok (VMap [("Sudo", VNil)], 1, []))
  /\ Decodes E (Ctx 100 "" None) (map Zb [4]) 0 "OriginCaller" (Ok (VMap [("EMPTY4", VNil)], 1, []))
  /\ Decodes E (Ctx 100 "" None) (map Zb [13; 0; 3; 0; 0; 0]) 0 "OriginCaller" (Ok (VMap [("Council", VMap [("Members", VU32 3)])], 6, [])).
Proof. cbv zeta. repeat match goal with |- _ /\ _ => split end; dec 6%nat. Qed.
Example C35_hyps : assoc "origincaller" (r_special base_reg) = None /\ resolves (reg_env (registerOriginCaller [("A", 3)] base_reg)) (Ctx 100 "" None) "NULL" CNull.
Proof. split; [reflexivity|res]. Qed.

Print Assumptions C36_v13.
Print Assumptions C36_counted_partial.
Print Assumptions C36_counted_refuted.
Print Assumptions C36_v14.
Print Assumptions C36_v14_only.
Print Assumptions C36_decoded.
Print Assumptions C51_keys_partial.
Print Assumptions C51_v15_refuted.
Print Assumptions C35_pallet.
