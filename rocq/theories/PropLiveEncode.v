(** Encoding while other goroutines register types.  C89. *)

From Verif Require Import GoBase SpecNum ModelTools ModelJson ModelVal ModelRegistry ModelDecode ModelEncode ModelRegister ModelLive ModelLiveEncode ProofsPortReg ProofsKnown ProofsNet PropLive.

(** ** The plans are the Encode methods of ModelEncode.v *)
Lemma run_andthen rec p f : run_plan rec (andthen p f) = (s <- run_plan rec p ;; run_plan rec (f s)).
Proof.
  induction p as [r|spec meta t v k IH]; cbn [andthen run_plan]; [destruct r; reflexivity|].
  destruct (rec spec meta t v); cbn [bind]; [apply IH|reflexivity|reflexivity].
Qed.
Lemma run_ask rec spec meta t v : run_plan rec (ask spec meta t v) = rec spec meta t v.
Proof. cbn [ask run_plan]. destruct (rec spec meta t v); reflexivity. Qed.
Lemma run_len rec n : run_plan rec (plan_len n) = len_prefix rec n.
Proof. apply run_ask. Qed.
Lemma run_all rec spec meta (each : string -> string) l :
  run_plan rec (plan_all spec meta l each) = concat_res (map (fun p => s <- rec spec meta (fst p) (snd p) ;; Ok (each s)) l).
Proof.
  induction l as [|[t v] l IH]; [reflexivity|]. cbn [plan_all map concat_res fst snd]. rewrite run_andthen, run_ask.
  destruct (rec spec meta t v); cbn [bind]; [|reflexivity|reflexivity]. rewrite run_andthen, IH. reflexivity.
Qed.
Lemma run_all_plain rec spec meta l : run_plan rec (plan_all spec meta l (fun s => s)) = concat_res (map (fun p => rec spec meta (fst p) (snd p)) l).
Proof. rewrite run_all. f_equal. apply map_ext. intros p. destruct (rec spec meta (fst p) (snd p)); reflexivity. Qed.
Lemma run_rows rec spec meta rows m : run_plan rec (plan_rows spec meta rows m) = encode_rows (rec spec meta) rows m.
Proof.
  induction rows as [|[|n [|t r]] rows IH]; try reflexivity. cbn [plan_rows encode_rows]. rewrite run_andthen, run_ask.
  destruct (rec spec meta t (map_get n m)); cbn [bind]; [|reflexivity|reflexivity]. rewrite run_andthen, IH. reflexivity.
Qed.
Lemma run_args rec spec meta args : forall ps, run_plan rec (plan_args spec meta args ps) = encode_args (rec spec meta) args ps.
Proof.
  induction args as [|[n t] args IH]; intros [|v ps]; try reflexivity. cbn [plan_args encode_args]. rewrite run_andthen, run_ask.
  destruct (rec spec meta t v); cbn [bind]; [|reflexivity|reflexivity]. rewrite run_andthen, IH. reflexivity.
Qed.
Lemma run_enum_map rec spec meta tm m : option_map (run_plan rec) (plan_enum_map spec meta tm m) = encode_enum_map (rec spec meta) tm m.
Proof.
  induction m as [|[k v] m IH]; [reflexivity|]. cbn [plan_enum_map encode_enum_map]. destruct (name_index k 0 tm) as [[i sub]|]; [|exact IH].
  cbn [option_map]. f_equal. destruct (struct_variant sub) as [rows|].
  - destruct v; try reflexivity. rewrite run_andthen, run_rows. reflexivity.
  - rewrite run_andthen, run_ask. reflexivity.
Qed.
Lemma run_enum E rec spec meta tm vl v : run_plan rec (plan_enum E spec meta tm vl v) = encode_enum E (rec spec meta) tm vl v.
Proof.
  unfold plan_enum, encode_enum. destruct tm as [tm|]; [|reflexivity]. destruct (if c_like tm then c_like_index E v tm else None); [reflexivity|].
  destruct v; try reflexivity.
  - destruct (name_index s 0 tm) as [[i t]|]; reflexivity.
  - rewrite <- run_enum_map. destruct (plan_enum_map spec meta tm m); reflexivity.
Qed.
Lemma run_call E rec spec meta v : run_plan rec (plan_call E spec meta v) = encode_call E (rec spec meta) meta v.
Proof.
  unfold plan_call, encode_call. destruct meta as [md|]; [|reflexivity]. cbv zeta.
  destruct (match v with VBox i ps cs => Some (i, ps, cs) | VMap m => e_box E m | _ => None end) as [[[i ps] cs]|]; [|reflexivity].
  destruct (assoc (TrimHex i) md) as [cm|]; [|reflexivity]. rewrite run_andthen, run_args. reflexivity.
Qed.
Lemma run_data rec m : run_plan rec (plan_data m) = encode_data rec m.
Proof.
  unfold plan_data, encode_data. destruct m as [|[key v] m]; [reflexivity|]. cbv zeta. destruct (-1 <? SliceIndex key data_names).
  - destruct (String.eqb key "None"); [apply run_ask|]. rewrite run_andthen, run_ask. destruct (rec (-1) None "U8" _); cbn [bind]; [|reflexivity|reflexivity].
    destruct v; reflexivity.
  - destruct (has_prefix key "Raw"); [|reflexivity]. destruct (scan_raw key) as [l|]; [|reflexivity]. rewrite run_andthen, run_ask.
    destruct (rec (-1) None "U8" _); cbn [bind]; [|reflexivity|reflexivity]. destruct v; reflexivity.
Qed.
Lemma run_codec E rec spec meta cd v : run_plan rec (plan_codec E spec meta cd v) = encode_codec E rec spec meta cd v.
Proof.
  assert (V : forall t, run_plan rec (plan_codec E spec meta (CVec t) v) = encode_codec E rec spec meta (CVec t) v).
  { intros t. cbn [plan_codec encode_codec].
    assert (X : forall l, run_plan rec (andthen (plan_len (List.length l)) (fun p => andthen (plan_all spec meta (map (fun x => (t, x)) l) TrimHex) (fun r => Done (Ok (p ++ r))))) =
      (p <- len_prefix rec (List.length l) ;; r <- concat_res (map (fun x => s <- rec spec meta t x ;; Ok (TrimHex s)) l) ;; Ok (p ++ r))).
    { intros l. rewrite run_andthen, run_len. destruct (len_prefix rec (List.length l)); cbn [bind]; [|reflexivity|reflexivity]. rewrite run_andthen, run_all, map_map. reflexivity. }
    destruct (elements v) as [l|]; destruct v; try apply X; try reflexivity; (destruct (String.eqb s ""); [apply run_len|reflexivity]). }
  destruct cd; try reflexivity; try apply V; cbn [plan_codec encode_codec]; unfold on_text, on_string, on_map.
  all: try apply run_enum.
  all: try apply run_call.
  all: try (destruct v; try reflexivity; try apply run_data; unfold plan_bytes, encode_bytes, plan_hex_bytes, encode_hex_bytes, plan_string, encode_string, plan_bitvec, encode_bitvec; cbv zeta; rewrite run_andthen, run_len; reflexivity).
  - (* Option *) destruct (_ || _); [reflexivity|]. destruct (String.eqb sub "bool"); [destruct v; reflexivity|]. rewrite run_andthen, run_ask. reflexivity.
  - destruct v; try reflexivity. destruct tm as [tm|]; [|reflexivity]. rewrite run_all_plain, map_map. reflexivity.
  - destruct v; try reflexivity. destruct (split_char ","%char sub) as [|a [|b [|? ?]]]; try reflexivity.
    destruct (assoc "Ok" m); [rewrite run_andthen, run_ask; reflexivity|]. destruct (assoc "Error" m); [rewrite run_andthen, run_ask; reflexivity|reflexivity].
  - assert (X : forall l, run_plan rec (plan_all spec meta (map (fun x => (sub, x)) l) (fun s => s)) = concat_res (map (rec spec meta sub) l)).
    { intros l. rewrite run_all_plain, map_map. reflexivity. }
    destruct (elements v) as [l|]; [destruct (Z.of_nat (List.length l) =? n)|]; destruct v; try apply X; try reflexivity; (destruct (String.eqb s ""); reflexivity).
Qed.
(** Without others, this is the encoder of ModelEncode.v. *)

(** ** What encoding a type asks for *)
Definition writes (cd : codec) : list string :=
  match cd with
  | CBytes | COpaqueCall | CHexBytes | CString | CBitVec => ["Compact<u32>"]
  | COption t => [t]
  | CResult t => match split_char ","%char t with [a; b] => [a; b] | _ => [] end
  | CStruct (Some tm) => map snd tm
  | CVec t | CBoundedVec t => ["Compact<u32>"; t]
  | CFixedArray _ t => [t]
  | CEnum (Some tm) _ => flat_map (fun p => match struct_variant (snd p) with Some rows => flat_map second rows | None => [snd p] end) tm
  | CData => "U8" :: data_types
  | _ => []
  end.
Definition closed_writing (E : env) (known : string -> Prop) : Prop :=
  forall t spec cd sub, known t -> GetCodecClass E "" t spec = Ok (Some (cd, sub)) -> forall t', In t' (writes (init_sub cd sub)) -> known t'.
(** The arguments of all calls are known. *)
Definition calls_known (known : string -> Prop) (meta : option metadata) : Prop :=
  match meta with None => True | Some md => forall i cm n t, assoc i md = Some cm -> In (n, t) (cm_args cm) -> known t end.
Definition away_writing (R known : string -> Prop) : Prop := forall t n, known t -> looked_up "" t n -> ~ R n /\ ~ R (to_lower n).

(** ** The proof *)
Section Away.
Variables (w : world) (like : env) (r0 : reg) (R known : string -> Prop).
Hypothesis OC : only_changes R r0 w.
Notation E := (env_of r0 like).
Inductive within : plan -> Prop :=
| wi_done r : within (Done r)
| wi_ask spec meta t v k : known t -> calls_known known meta -> (forall s, within (k s)) -> within (Ask spec meta t v k).
Lemma within_then p f : within p -> (forall s, within (f s)) -> within (andthen p f).
Proof. intros P F. induction P as [r|spec meta t v k T C _ IH]; cbn [andthen]; [destruct r; [apply F|constructor|constructor]|]. now constructor. Qed.
Lemma within_ask spec meta t v : known t -> calls_known known meta -> within (ask spec meta t v).
Proof. intros T C. constructor; [exact T|exact C|]. intros s. constructor. Qed.
Lemma within_all spec meta each l : (forall t v, In (t, v) l -> known t) -> calls_known known meta -> within (plan_all spec meta l each).
Proof.
  intros K C. induction l as [|[t v] l IH]; [constructor|]. cbn [plan_all]. apply within_then; [apply within_ask; [apply (K t v); now left|exact C]|]. intros a.
  apply within_then; [apply IH; intros t' v' I; apply (K t' v'); now right|]. intros b. constructor.
Qed.
Lemma within_rows spec meta m rows : (forall t, In t (flat_map second rows) -> known t) -> calls_known known meta -> within (plan_rows spec meta rows m).
Proof.
  intros K C. induction rows as [|[|n [|t r]] rows IH]; [constructor|constructor|constructor|]. cbn [plan_rows]. apply within_then; [apply within_ask; [apply K; now left|exact C]|]. intros a.
  apply within_then; [apply IH; intros t' I; apply K; now right|]. intros b. constructor.
Qed.
Lemma name_index_in k : forall tm i j t, name_index k i tm = Some (j, t) -> In (k, t) tm.
Proof.
  induction tm as [|[n u] tm IH]; intros i j t H; [discriminate|]. cbn [name_index] in H. destruct (String.eqb_spec n k) as [->|]; [injection H as _ ->; now left|]. right. now apply (IH (i + 1) j).
Qed.
Lemma within_enum spec meta tm vl v : (forall t, In t (writes (CEnum tm vl)) -> known t) -> calls_known known meta -> within (plan_enum like spec meta tm vl v).
Proof.
  intros K C. unfold plan_enum. destruct tm as [tm|]; [|constructor]. destruct (if c_like tm then c_like_index like v tm else None); [constructor|].
  destruct v; try constructor; [destruct (name_index s 0 tm) as [[i t]|]; constructor|].
  assert (M : forall p, plan_enum_map spec meta tm m = Some p -> within p).
  { induction m as [|[k x] m IH]; intros p H; [discriminate|]. cbn [plan_enum_map] in H. destruct (name_index k 0 tm) as [[i sub]|] eqn:NI; [|now apply IH].
    apply name_index_in in NI. assert (P : forall q, within q -> Some q = Some p -> within p) by (intros q W [= <-]; exact W). refine (P _ _ H). clear P H.
    assert (Q : forall t, In t (match struct_variant sub with Some rows => flat_map second rows | None => [sub] end) -> known t).
    { intros t I. apply K. cbn [writes]. apply in_flat_map. exists (k, sub). now split. }
    destruct (struct_variant sub) as [rows|].
    - destruct x; try solve [constructor]. apply within_then; [now apply within_rows|]. intros a. constructor.
    - apply within_then; [apply within_ask; [apply Q; now left|exact C]|]. intros a. constructor. }
  destruct (plan_enum_map spec meta tm m) as [p|]; [now apply M|constructor].
Qed.
Lemma slice_index_lt key : (Z.to_nat (SliceIndex key data_names) < List.length data_types)%nat.
Proof.
  unfold SliceIndex, data_names, data_types. cbn [slice_index List.length]. repeat (destruct (String.eqb _ key); [cbn; lia|]). cbn. lia.
Qed.
Lemma within_len n : known "Compact<u32>" -> within (plan_len n).
Proof. intros K. apply within_ask; [exact K|exact I]. Qed.
Lemma within_codec spec meta cd v : (forall t, In t (writes cd) -> known t) -> calls_known known meta -> within (plan_codec like spec meta cd v).
Proof.
  intros K C.
  assert (V : forall t, (forall t', In t' ["Compact<u32>"; t] -> known t') -> within (plan_codec like spec meta (CVec t) v)).
  { intros t K'. cbn [plan_codec]. assert (CP : known "Compact<u32>") by (apply K'; now left).
    assert (X : forall l, within (andthen (plan_len (List.length l)) (fun p => andthen (plan_all spec meta (map (fun x => (t, x)) l) TrimHex) (fun r => Done (Ok (p ++ r)))))).
    { intros l. apply within_then; [now apply within_len|]. intros p. apply within_then; [|intros r; constructor]. apply within_all; [|exact C].
      intros t' x I. apply in_map_iff in I. destruct I as (y & [= <- _] & _). apply K'. right. now left. }
    destruct (elements v) as [l|]; destruct v; try apply X; try constructor; (destruct (String.eqb s ""); [now apply within_len|constructor]). }
  destruct cd; try solve [constructor]; try (apply V; exact K); cbn [plan_codec]; unfold on_text; cbn [writes] in K.
  all: try (destruct v; try solve [constructor]; unfold plan_bytes, plan_hex_bytes, plan_string, plan_bitvec; cbv zeta; apply within_then; [apply within_len, K; now left|intros p; constructor]).
  - (* Option *) destruct (_ || _); [constructor|]. destruct (String.eqb sub "bool"); [destruct v; constructor|].
    apply within_then; [apply within_ask; [apply K; now left|exact C]|]. intros a. constructor.
  - (* Struct *) destruct v; try solve [constructor]. destruct tm as [tm|]; [|constructor]. apply within_all; [|exact C].
    intros t x I. apply in_map_iff in I. destruct I as (p & [= <- _] & I). apply K. now apply in_map.
  - (* Enum *) now apply within_enum.
  - (* Call *) unfold plan_call. destruct meta as [md|]; [|constructor]. cbv zeta.
    destruct (match v with VBox i ps cs => Some (i, ps, cs) | VMap m => e_box like m | _ => None end) as [[[i ps] cs]|]; [|constructor].
    destruct (assoc (TrimHex i) md) as [cm|] eqn:A; [|constructor]. apply within_then; [|intros a; constructor].
    generalize (match cs with [] => ps | _ => cs end). assert (Q : forall n t, In (n, t) (cm_args cm) -> known t) by (intros n t I; exact (C _ _ n t A I)).
    induction (cm_args cm) as [|[n t] args IH]; intros [|x l]; [constructor|constructor|constructor|]. cbn [plan_args]. apply within_then; [apply within_ask; [apply (Q n); now left|exact C]|]. intros a.
    apply within_then; [|intros b; constructor]. apply IH. intros n' t' I. apply (Q n'). now right.
  - (* Data *) assert (A : forall x, within (ask (-1) None "U8" x)) by (intros x; apply within_ask; [apply K; now left|exact I]).
    destruct v; try solve [constructor]. unfold plan_data. destruct m as [|[key x] m]; [constructor|]. cbv zeta.
    destruct (-1 <? SliceIndex key data_names) eqn:SI.
    + destruct (String.eqb key "None"); [apply A|]. apply within_then; [apply A|]. intros a. destruct x; try solve [constructor].
      apply within_then; [|intros b; constructor]. apply within_ask; [|exact I]. apply K. right. apply nth_In, slice_index_lt.
    + destruct (has_prefix key "Raw"); [|constructor]. destruct (scan_raw key); [|constructor]. apply within_then; [apply A|]. intros a. destruct x; constructor.
  - (* Result *) destruct v; try solve [constructor]. destruct (split_char ","%char sub) as [|a [|b [|? ?]]]; try solve [constructor].
    destruct (assoc "Ok" m); [apply within_then; [apply within_ask; [apply K; now left|exact C]|intros s; constructor]|].
    destruct (assoc "Error" m); [apply within_then; [apply within_ask; [apply K; right; now left|exact C]|intros s; constructor]|constructor].
  - (* FixedArray *)
    assert (X : forall l, within (plan_all spec meta (map (fun x => (sub, x)) l) (fun s => s))).
    { intros l. apply within_all; [|exact C]. intros t' x I. apply in_map_iff in I. destruct I as (y & [= <- _] & _). apply K. now left. }
    destruct (elements v) as [l|]; [destruct (Z.of_nat (List.length l) =? n)|]; destruct v; try apply X; constructor.
Qed.

Lemma plan_like spec meta cd v : plan_codec E spec meta cd v = plan_codec like spec meta cd v.
Proof.
  assert (TS : ToString E v = ToString like v) by (destruct v; reflexivity).
  assert (VL : forall vl i, value_list_index E v i vl = value_list_index like v i vl) by (induction vl as [|s vl IH]; intros i; cbn [value_list_index]; [|rewrite TS, IH]; reflexivity).
  assert (CL : forall tm, c_like_index E v tm = c_like_index like v tm) by (induction tm as [|[s t] tm IH]; cbn [c_like_index]; [|rewrite TS, IH]; reflexivity).
  assert (EN : forall tm vl, plan_enum E spec meta tm vl v = plan_enum like spec meta tm vl v).
  { intros [tm|] vl; unfold plan_enum; rewrite VL; [rewrite CL|]; reflexivity. }
  destruct cd; cbn [plan_codec]; try reflexivity; try apply EN; cbn [encode_codec].
Qed.
Lemma run_plan_agrees rec rec' p : within p ->
  (forall n spec meta t v, known t -> calls_known known meta -> agrees (rec n spec meta t v) (rec' spec meta t v)) ->
  forall n, agrees (run_plan_live rec p n) (run_plan rec' p).
Proof.
  intros P REC. induction P as [r|spec meta t v k T C _ IH]; intros n; cbn [run_plan_live run_plan].
  - destruct r; [apply agrees_ok|reflexivity|reflexivity].
  - apply agrees_bind; [now apply REC|]. intros s n'. apply IH.
Qed.
Hypothesis CW : closed_writing E known.
Hypothesis AW : away_writing R known.
Lemma encode_agrees fuel : forall n spec meta t v, known t -> calls_known known meta -> agrees (encode_live w like fuel n spec meta t v) (encode fuel E spec meta t v).
Proof.
  induction fuel as [|f IH]; intros n spec meta t v T C; [reflexivity|]. cbn [encode_live encode].
  destruct (equal_fold t "Null"); [apply agrees_ok|].
  pose proof (class_agrees w like r0 R OC "" spec (String.length t) n t (fun q L => AW t q T L)) as CA.
  change (GetCodecClass_fuel (String.length t) E "" t spec) with (GetCodecClass E "" t spec) in CA.
  destruct (GetCodecClass E "" t spec) as [[[cd sub]|]|x|] eqn:G; cbn [agrees] in CA.
  - destruct CA as [n' ->]. cbn [bind]. rewrite <- run_codec, plan_like. apply agrees_bind; [|intros out k; apply agrees_ok].
    apply run_plan_agrees; [|exact IH]. apply within_codec; [|exact C]. exact (CW t spec cd sub T G).
  - destruct CA as [n' ->]. reflexivity.
  - rewrite CA. reflexivity.
  - rewrite CA. reflexivity.
Qed.
End Away.

(** ** C89: registering other types meanwhile changes nothing *)
Definition forget_text (o : live_text) : res string := match o with Ok (s, _) => Ok s | Panic m => Panic m | OutOfFuel => OutOfFuel end.
Theorem C89_away w like r0 (R known : string -> Prop) fuel n spec meta t v : only_changes R r0 w -> closed_writing (env_of r0 like) known -> away_writing R known ->
  calls_known known meta -> known t -> forget_text (encode_live w like fuel n spec meta t v) = encode fuel (env_of r0 like) spec meta t v.
Proof.
  intros OC CW AW C T. pose proof (encode_agrees w like r0 R known OC CW AW fuel n spec meta t v T C) as A.
  destruct (encode fuel (env_of r0 like) spec meta t v) as [x|m|]; cbn [agrees] in A; [destruct A as [k ->]; reflexivity|rewrite A; reflexivity|rewrite A; reflexivity].
Qed.
(** Without others, this is the encoder of ModelEncode.v. *)
Theorem C89_alone r like fuel n spec meta t v : forget_text (encode_live (fun _ => r) like fuel n spec meta t v) = encode fuel (env_of r like) spec meta t v.
Proof.
  apply (C89_away (fun _ => r) like r (fun _ => False) (fun _ => True)); try exact I.
  - intros k q _. now split.
  - intros t0 sp cd sub _ _ t' _. exact I.
  - intros t0 q _ _. now split.
  - destruct meta as [md|]; [|exact I]. intros i cm a t0 _ _. exact I.
Qed.

(** Encoding a Vec of structs, itself the argument of a call, while the registry
    is being filled with other names. *)
Definition lw_known (t : string) : Prop := In t ["Call"; "Vec<Widget>"; "Widget"; "u8"; "Compact<u32>"].
Definition lw_base : reg := with_types (upd "call" CCall) lv_base.
Definition lw_world : world := fun n => with_types (upd "call" CCall) (lv_world n).
Definition lw_meta : metadata := [("0102", CallMod "M" "put" [("widgets", "Vec<Widget>")])].
Definition lw_value : val := VBox "0102" [lv_value] [].
Example C89_case : let E := env_of lw_base (reg_env lw_base) in
  only_changes lv_others lw_base lw_world /\ closed_writing E lw_known /\ away_writing lv_others lw_known /\ calls_known lw_known (Some lw_meta)
  /\ encode 9 E 5 (Some lw_meta) "Call" lw_value = Ok "01020801020304" /\ assoc "widgets" (r_types (lw_world 7%nat)) = Some CU8.
Proof.
  cbv zeta. split; [|split; [|split; [|split; [|split]]]].
  - intros n q N. split.
    + unfold lw_world, lw_base, with_types. cbn [r_types]. rewrite !assoc_upd. destruct (String.eqb q "call"); [reflexivity|]. apply lv_flat, N.
    + cbn [lw_world with_types lv_world r_special assoc lv_base lw_base]. destruct (String.eqb_spec q "others") as [->|]; [|reflexivity]. destruct N. right. right. now left.
  - intros t spec cd sub K G t' I. unfold lw_known in K. cbn [In] in K.
    destruct K as [<-|[<-|[<-|[<-|[<-|[]]]]]]; vm_compute in G; injection G as <- <-; vm_compute in I; unfold lw_known; cbn [In]; intuition (subst; auto 6).
  - intros t q K L. unfold lw_known in K. cbn [In] in K.
    assert (X : forall s, In s ["vec<widget>"; "vec"; "widget"; "u8"; "compact<u32>"; "compact"; "call"] -> ~ lv_others s /\ ~ lv_others (to_lower s)).
    { intros s I. cbn [In] in I. unfold lv_others. cbn [In]. destruct I as [<-|[<-|[<-|[<-|[<-|[<-|[<-|[]]]]]]]]; vm_compute; split; intuition discriminate. }
    apply X. clear X. destruct K as [<-|[<-|[<-|[<-|[<-|[]]]]]]; inversion L as [ts|ts name sub GP|ts PF|ts n CT LL]; subst; clear L;
      match goal with
      | GP : generic_parts _ = _ |- _ => vm_compute in GP; try discriminate GP; injection GP as <- <-
      | PF : prefix _ _ = _ |- _ => vm_compute in PF; discriminate PF
      | CT : contains _ _ = _ |- _ => vm_compute in CT; discriminate CT
      | _ => idtac
      end; vm_compute; repeat (first [left; reflexivity | right]).
  - intros i cm a t A I. cbn [lw_meta assoc] in A. destruct (String.eqb i "0102"); [|discriminate]. injection A as <-. cbn [cm_args In] in I. destruct I as [[= _ <-]|[]]. right. now left.
  - vm_compute. reflexivity.
  - vm_compute. reflexivity.
Qed.

(** ** The condition is needed: when the type is registered again meanwhile, the
    bytes of one Vec can have both layouts; neither registry writes such bytes, nor
    anything read back from them. *)
Definition torn_rows : val := VSlice [VMap [("a", VInt 1); ("b", VInt 2); ("c", VInt 9)]; VMap [("a", VInt 1); ("b", VInt 2); ("c", VInt 9)]].
Theorem C89_torn_refuted : exists w : world, (exists k, forall n, w n = if Nat.ltb n k then lv_base else torn_new) /\
  forget_text (encode_live w (reg_env lv_base) 9 0%nat 5 None "Vec<Widget>" torn_rows) = Ok "08010209000000"
  /\ forall r, r = lv_base \/ r = torn_new ->
     encode 9 (env_of r (reg_env lv_base)) 5 None "Vec<Widget>" torn_rows <> Ok "08010209000000"
     /\ forall v off cs, decode 9 (env_of r (reg_env lv_base)) (Ctx 5 "" None) (hex_decode "08010209000000") 0 "Vec<Widget>" = Ok (v, off, cs) ->
        encode 9 (env_of r (reg_env lv_base)) 5 None "Vec<Widget>" v <> Ok "08010209000000".
Proof.
  exists (fun n => if Nat.ltb n 12 then lv_base else torn_new). split; [now exists 12%nat|]. split; [vm_compute; reflexivity|].
  intros r [->| ->]; (split; [vm_compute; discriminate|]); intros v off cs D; vm_compute in D; injection D as <- <- <-; vm_compute; discriminate.
Qed.
Print Assumptions C89_away.
Print Assumptions C89_alone.
Print Assumptions C89_torn_refuted.
