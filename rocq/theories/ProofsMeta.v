(** Proofs about reading runtime metadata from its bytes (ModelMeta.v). *)

From Verif Require Import GoBase SpecNum ModelTools ProofsBase ProofsTools ModelVal ModelJson ModelRegistry ModelDecode ModelEncode ModelRegister ProofsRun SpecScale
  ProofsReads ProofsScale ProofsApi PropCodec ProofsNames ProofsTexts ModelScaleInfo ModelMetadata ModelMeta SpecMeta.

(** ** The names metadata is read with *)
Definition nameb (t : string) : bool :=
  negb (String.eqb t "") && forallb name_charb (s2b t) && negb (has_prefix t "BoundedBTreeSet") && negb (contains t "::") &&
  match first_char t with Some a => negb (Ascii.eqb a ":"%char) | None => false end &&
  match last_char t with Some a => negb (Ascii.eqb a ":"%char) | None => false end && (2 <=? String.length t)%nat.
Lemma nameb_ok t : nameb t = true -> name_text_ok t.
Proof.
  unfold nameb, name_text_ok, name_ok. intros H. repeat (apply andb_true_iff in H; destruct H as [H ?]). split; [split; [|split; [|split]]|split; [|split]].
  - intros ->. discriminate.
  - apply Forall_forall. intros a A. apply name_charb_ok. eapply forallb_forall in A; [exact A|]. assumption.
  - now apply negb_true_iff.
  - now apply negb_true_iff.
  - intros X. match goal with Y : match first_char t with _ => _ end = _ |- _ => rewrite X in Y; discriminate end.
  - intros X. match goal with Y : match last_char t with _ => _ end = _ |- _ => rewrite X in Y; discriminate end.
  - now apply Nat.leb_le.
Qed.

Section Read.
Variable E : env.
Variable c : ctx.
Hypothesis ENV : meta_env E (x_spec c).

Definition plainb (t : string) : bool :=
  nameb t && String.eqb (ConvertType t) t && negb (existsb (String.eqb (to_lower t)) overridden).
Lemma key_resolves t cd : plainb t = true -> In (to_lower t, cd) meta_keys -> resolves E c t (init_sub cd "").
Proof.
  intros B I. unfold plainb in B. apply andb_true_iff in B. destruct B as [B O]. apply andb_true_iff in B. destruct B as [B C].
  exists cd, "". split; [|reflexivity]. apply resolve_key.
  - apply name_good, nameb_ok, B.
  - now apply String.eqb_eq.
  - intros X. apply negb_true_iff in O. rewrite <- not_true_iff_false in O. apply O. apply existsb_exists. eexists. split; [exact X|apply String.eqb_refl].
  - now apply ENV.
Qed.
Lemma assoc_in {A} k (l : list (string * A)) a : assoc k l = Some a -> In (k, a) l.
Proof.
  induction l as [|[x v] l IH]; [discriminate|]. cbn [assoc]. destruct (String.eqb_spec k x) as [->|]; [|intros H; right; now apply IH].
  intros H. injection H as ->. now left.
Qed.
Lemma key_look t cd cd' : plainb t = true -> assoc (to_lower t) meta_keys = Some cd -> init_sub cd "" = cd' -> resolves E c t cd'.
Proof. intros B A <-. apply key_resolves; [exact B|]. now apply assoc_in. Qed.
Ltac key := eapply key_look; [vm_compute; reflexivity|lazy; reflexivity|reflexivity].

Lemma vec_resolves t : In t meta_vecs -> resolves E c ("Vec<" ++ t ++ ">") (CVec t).
Proof.
  intros I. exists (CVec ""), t. split.
  - change ("Vec<" ++ t ++ ">") with ("Vec" ++ "<" ++ t ++ ">"). apply resolve_generic.
    + vm_compute; tauto.
    + apply name_good, nameb_ok. revert t I. apply forallb_forall. vm_compute. reflexivity.
    + revert I. revert t. assert (F : forallb (fun t => negb (equal_fold ("Vec" ++ "<" ++ t ++ ">") "Vec<u8>")) meta_vecs = true) by (vm_compute; reflexivity).
      intros t I. rewrite forallb_forall in F. now apply F, negb_true_iff in I.
    + now apply ENV.
    + apply ENV. vm_compute; tauto.
  - cbn [init_sub String.eqb]. reflexivity.
Qed.
Lemma opt_resolves t : In t meta_opts -> resolves E c ("Option<" ++ t ++ ">") (COption t).
Proof.
  intros I. exists (COption ""), t. split.
  - change ("Option<" ++ t ++ ">") with ("Option" ++ "<" ++ t ++ ">"). apply resolve_generic.
    + vm_compute; tauto.
    + cbn [meta_opts In] in I. destruct I as [<-|[<-|[<-|[]]]].
      * apply name_good, nameb_ok. reflexivity.
      * apply name_good, nameb_ok. reflexivity.
      * change "Compact<u32>" with ("Compact" ++ "<" ++ "u32" ++ ">"). apply good_generic; [vm_compute; tauto|]. apply name_good, nameb_ok. reflexivity.
    + reflexivity.
    + now apply ENV.
    + apply ENV. vm_compute; tauto.
  - cbn [meta_opts In] in I. destruct I as [<-|[<-|[<-|[]]]]; reflexivity.
Qed.

(** ** Values without nested calls *)
Definition sc0 (t : string) (b : bytes) (g : val) : Prop := scale false E c t b g [].
Definition ss0 (ts : list string) (b : bytes) (gs : list val) : Prop := scales false E c ts b gs [].
Lemma sc0_at t cd b g : resolves E c t cd -> scale_at false E c cd b g [] -> sc0 t b g.
Proof. intros R A. eapply sc_type; [exact R|discriminate|exact A]. Qed.
Lemma ss0_nil : ss0 [] [] []. Proof. constructor. Qed.
Lemma ss0_cons t ts b bs g gs : sc0 t b g -> ss0 ts bs gs -> ss0 (t :: ts) (b ++ bs)%list (g :: gs).
Proof. intros A B. exact (ss_cons false E c t ts b bs g gs [] [] A B). Qed.
Lemma ss0_one t b g : sc0 t b g -> ss0 [t] b [g].
Proof. intros A. rewrite <- (app_nil_r b). apply ss0_cons; [exact A|apply ss0_nil]. Qed.
Lemma ss_app c0 ts1 b1 g1 cs1 ts2 b2 g2 cs2 : scales false E c0 ts1 b1 g1 cs1 -> scales false E c0 ts2 b2 g2 cs2 ->
  scales false E c0 (ts1 ++ ts2)%list (b1 ++ b2)%list (g1 ++ g2)%list (cs1 ++ cs2)%list.
Proof.
  intros A B. induction A as [c0|c0 t ts b bs g gs ca cb S A IH]; [exact B|]. cbn [app]. rewrite <- !app_assoc. constructor; [exact S|now apply IH].
Qed.
Lemma ss0_app ts1 b1 g1 ts2 b2 g2 : ss0 ts1 b1 g1 -> ss0 ts2 b2 g2 -> ss0 (ts1 ++ ts2)%list (b1 ++ b2)%list (g1 ++ g2)%list.
Proof. exact (ss_app c ts1 b1 g1 [] ts2 b2 g2 []). Qed.

Lemma ss0_list {A} t (e : A -> bytes) (v : A -> val) (P : A -> Prop) l : Forall P l -> (forall x, P x -> sc0 t (e x) (v x)) ->
  ss0 (repeat t (List.length l)) (flat_map e l) (map v l).
Proof.
  intros F H. induction F as [|x l Px F IH]; [apply ss0_nil|]. cbn [List.length repeat flat_map map]. apply ss0_cons; [now apply H|exact IH].
Qed.
Lemma sc0_list {A} n t (e : A -> bytes) (v : A -> val) (P : A -> Prop) l : resolves E c n (CVec t) -> list_ok P l -> (forall x, P x -> sc0 t (e x) (v x)) ->
  sc0 n (list_enc e l) (slice_of (map v l)).
Proof.
  intros R [L F] H. eapply sc0_at; [exact R|]. unfold list_enc, len_of. eapply sc_vec; [|exact L]. eapply ss0_list; eassumption.
Qed.
Lemma sc0_vec {A} t (e : A -> bytes) (v : A -> val) (P : A -> Prop) l : In t meta_vecs -> list_ok P l -> (forall x, P x -> sc0 t (e x) (v x)) ->
  sc0 ("Vec<" ++ t ++ ">") (list_enc e l) (slice_of (map v l)).
Proof. intros I. apply sc0_list, vec_resolves, I. Qed.
Definition opt_val {A} (v : A -> val) (o : option A) : val := match o with None => VNil | Some a => v a end.
Lemma sc0_opt {A} t (e : A -> bytes) (v : A -> val) (P : A -> Prop) o : In t meta_opts -> opt_ok P o -> (forall x, P x -> sc0 t (e x) (v x)) ->
  sc0 ("Option<" ++ t ++ ">") (opt_enc e o) (opt_val v o).
Proof.
  intros I O H. eapply sc0_at; [apply opt_resolves, I|].
  assert (N : t <> "" /\ t <> "bool") by (cbn [meta_opts In] in I; destruct I as [<-|[<-|[<-|[]]]]; split; discriminate).
  destruct o as [a|]; cbn [opt_enc opt_val].
  - apply sc_some; [apply N|apply N|now apply H|discriminate].
  - apply sc_none, N.
Qed.

Definition text_val (b : bytes) : val := VStr (text_of b).
Lemma sc0_string n b : resolves E c n CString -> text_ok b -> sc0 n (text_enc b) (text_val b).
Proof. intros R T. eapply sc0_at; [exact R|]. apply sc_string; [exact T|discriminate]. Qed.
Lemma sc0_text b : text_ok b -> sc0 "Text" (text_enc b) (text_val b).
Proof. apply sc0_string. key. Qed.
Lemma sc0_str b : text_ok b -> sc0 "String" (text_enc b) (text_val b).
Proof. apply sc0_string. key. Qed.
Lemma sc0_hexbytes b : text_ok b -> sc0 "HexBytes" (text_enc b) (VStr ("0x" ++ hex_encode b)).
Proof. intros T. eapply sc0_at; [key|]. apply sc_hexbytes; [exact T|discriminate]. Qed.
Lemma sc0_id z : id_ok z -> sc0 "SiLookupTypeId" (id_enc z) (VInt z).
Proof. unfold id_ok. intros T. eapply sc0_at; [key|]. apply sc_compact_u32; [lia|discriminate]. Qed.
Lemma sc0_u8 n z : n = "u8" \/ n = "U8" -> 0 <= z < 256 -> sc0 n (le_bytes 1 z) (VInt z).
Proof. intros [-> | ->] T; (eapply sc0_at; [key|]); apply sc_u8; lia. Qed.
Lemma sc0_u32 z : 0 <= z < 2 ^ 32 -> sc0 "u32" (le_bytes 4 z) (VU32 z).
Proof. intros T. eapply sc0_at; [key|]. apply sc_u32; lia. Qed.
Lemma sc0_bool b : sc0 "bool" (bool_enc b) (VBool b).
Proof. eapply sc0_at; [key|]. apply sc_bool. Qed.
Lemma sc0_struct n tm b gs : resolves E c n (CStruct (Some tm)) -> ss0 (map snd tm) b gs -> NoDup (map fst tm) ->
  sc0 n b (VMap (combine (map fst tm) gs)).
Proof. intros R A N. eapply sc0_at; [exact R|]. now apply sc_struct. Qed.
Lemma sc0_texts l : list_ok text_ok l -> sc0 "Vec<Text>" (list_enc text_enc l) (slice_of (map text_val l)).
Proof. intros L. apply (sc0_vec "Text" text_enc text_val text_ok l); [vm_compute; tauto|exact L|apply sc0_text]. Qed.
Lemma sc0_strs l : list_ok text_ok l -> sc0 "Vec<String>" (list_enc text_enc l) (slice_of (map text_val l)).
Proof. intros L. apply (sc0_vec "String" text_enc text_val text_ok l); [vm_compute; tauto|exact L|apply sc0_str]. Qed.

Ltac nodup := repeat constructor; cbn [In map fst]; intuition discriminate.

(** ** The portable registry *)
Definition field_val (f : wfield) : val :=
  VMap [("name", opt_val text_val (wf_name f)); ("type", VInt (wf_type f)); ("typeName", opt_val text_val (wf_tyname f));
        ("docs", slice_of (map text_val (wf_docs f)))].
Lemma sc0_field f : field_ok f -> sc0 "SiField" (field_enc f) (field_val f).
Proof.
  intros (A & B & C & D). refine (sc0_struct "SiField" [("name", "Option<Text>"); ("type", "SiLookupTypeId"); ("typeName", "Option<Text>"); ("docs", "Vec<Text>")] _
    [opt_val text_val (wf_name f); VInt (wf_type f); opt_val text_val (wf_tyname f); slice_of (map text_val (wf_docs f))] _ _ _); [key| |nodup].
  cbn [map snd]. unfold field_enc. apply ss0_cons; [|apply ss0_cons; [|apply ss0_cons; [|apply ss0_one]]].
  - apply (sc0_opt "Text" text_enc text_val text_ok); [vm_compute; tauto|exact A|apply sc0_text].
  - now apply sc0_id.
  - apply (sc0_opt "Text" text_enc text_val text_ok); [vm_compute; tauto|exact C|apply sc0_text].
  - now apply sc0_texts.
Qed.
Definition variant_val (v : wvariant) : val :=
  VMap [("name", text_val (wv_name v)); ("fields", slice_of (map field_val (wv_fields v))); ("index", VInt (wv_index v));
        ("docs", slice_of (map text_val (wv_docs v)))].
Lemma sc0_fields l : list_ok field_ok l -> sc0 "Vec<SiField>" (list_enc field_enc l) (slice_of (map field_val l)).
Proof. intros L. apply (sc0_vec "SiField" field_enc field_val field_ok l); [vm_compute; tauto|exact L|apply sc0_field]. Qed.
Lemma sc0_variant v : variant_ok v -> sc0 "SiVariant" (variant_enc v) (variant_val v).
Proof.
  intros (A & B & C & D). refine (sc0_struct "SiVariant" [("name", "Text"); ("fields", "Vec<SiField>"); ("index", "u8"); ("docs", "Vec<Text>")] _
    [text_val (wv_name v); slice_of (map field_val (wv_fields v)); VInt (wv_index v); slice_of (map text_val (wv_docs v))] _ _ _); [key| |nodup].
  cbn [map snd]. unfold variant_enc. apply ss0_cons; [|apply ss0_cons; [|apply ss0_cons; [|apply ss0_one]]].
  - now apply sc0_text.
  - now apply sc0_fields.
  - apply sc0_u8; [now left|exact C].
  - now apply sc0_texts.
Qed.

Definition def_val (d : wdef) : val :=
  match d with
  | WComposite fs => VMap [("Composite", VMap [("fields", slice_of (map field_val fs))])]
  | WEnum vs => VMap [("Variant", VMap [("variants", slice_of (map variant_val vs))])]
  | WSequence t => VMap [("Sequence", VMap [("type", VInt t)])]
  | WArray n t => VMap [("Array", VMap [("len", VU32 n); ("type", VInt t)])]
  | WTuple l => VMap [("Tuple", slice_of (map VInt l))]
  | WPrimitive i => VMap [("Primitive", VStr (nth (Z.to_nat i) primitives ""))]
  | WCompact t => VMap [("Compact", VMap [("type", VInt t)])]
  | WBitSequence a b => VMap [("BitSequence", VMap [("bitStoreType", VInt a); ("bitOrderType", VInt b)])]
  | WRange a b i => VMap [("Range", VMap [("start", VInt a); ("end", VInt b); ("inclusive", VBool i)])]
  | WHistoric s => VMap [("HistoricMetaCompat", text_val s)]
  end.
Definition def_rows : typemap :=
  [("Composite", "SiTypeDefComposite"); ("Variant", "SiTypeDefVariant"); ("Sequence", "SiTypeDefSequence"); ("Array", "SiTypeDefArray");
   ("Tuple", "SiTypeDefTuple"); ("Primitive", "SiTypeDefPrimitive"); ("Compact", "SiTypeDefCompact"); ("BitSequence", "SiTypeDefBitSequence");
   ("Range", "SiTypeDefRange"); ("HistoricMetaCompat", "String")].
Lemma sc0_def_at i name t b g : 0 <= i < 10 -> nth_error def_rows (Z.to_nat i) = Some (name, t) -> struct_variant t = None -> t <> "" -> sc0 t b g ->
  sc0 "SiTypeDef" (Zb i :: b) (VMap [(name, g)]).
Proof.
  intros Hi N V T S. eapply sc0_at; [key|]. eapply sc_variant; [reflexivity|lia|exact N|exact T|exact V|exact S|discriminate].
Qed.
Lemma sc0_type_row n t : plainb n = true -> In (to_lower n, CStruct (Some [("type", "SiLookupTypeId")])) meta_keys -> id_ok t ->
  sc0 n (id_enc t) (VMap [("type", VInt t)]).
Proof.
  intros P I T. refine (sc0_struct n [("type", "SiLookupTypeId")] _ [VInt t] _ _ _); [exact (key_resolves n _ P I)| |nodup].
  apply ss0_one. now apply sc0_id.
Qed.
Lemma sc0_value n vl i s : resolves E c n (CEnum None vl) -> 0 <= i < 256 -> nth_error vl (Z.to_nat i) = Some s -> s <> "" -> sc0 n [Zb i] (VStr s).
Proof. intros R I N S. eapply sc0_at; [exact R|]. apply sc_value_list; [exact I|exact N|exact S|discriminate]. Qed.
Lemma nth_listed (l : list string) i : 0 <= i < Z.of_nat (List.length l) -> forallb (fun s => negb (String.eqb s "")) l = true ->
  nth_error l (Z.to_nat i) = Some (nth (Z.to_nat i) l "") /\ nth (Z.to_nat i) l "" <> "".
Proof.
  intros I F. assert (N : nth_error l (Z.to_nat i) = Some (nth (Z.to_nat i) l "")) by (apply nth_error_nth'; lia). split; [exact N|].
  apply nth_error_In in N. rewrite forallb_forall in F. apply F, negb_true_iff in N. intros X. rewrite X in N. discriminate.
Qed.
Lemma sc0_def d : def_ok d -> sc0 "SiTypeDef" (def_enc d) (def_val d).
Proof.
  destruct d as [fs|vs|t|n t|l|i|t|a b|a b i|s]; cbn [def_ok def_enc def_val]; intros K.
  - refine (sc0_def_at 0 _ _ _ _ _ eq_refl eq_refl _ _); [lia|discriminate|].
    refine (sc0_struct "SiTypeDefComposite" [("fields", "Vec<SiField>")] _ [_] _ _ _); [key| |nodup]. apply ss0_one. now apply sc0_fields.
  - refine (sc0_def_at 1 _ _ _ _ _ eq_refl eq_refl _ _); [lia|discriminate|].
    refine (sc0_struct "SiTypeDefVariant" [("variants", "Vec<SiVariant>")] _ [_] _ _ _); [key| |nodup]. apply ss0_one.
    apply (sc0_vec "SiVariant" variant_enc variant_val variant_ok vs); [vm_compute; tauto|exact K|apply sc0_variant].
  - refine (sc0_def_at 2 _ _ _ _ _ eq_refl eq_refl _ _); [lia|discriminate|]. apply sc0_type_row; [reflexivity|vm_compute; tauto|exact K].
  - refine (sc0_def_at 3 _ _ _ _ _ eq_refl eq_refl _ _); [lia|discriminate|].
    refine (sc0_struct "SiTypeDefArray" [("len", "u32"); ("type", "SiLookupTypeId")] _ [_; _] _ _ _); [key| |nodup].
    cbn [map snd]. apply ss0_cons; [now apply sc0_u32|]. now apply ss0_one, sc0_id.
  - refine (sc0_def_at 4 _ _ _ _ _ eq_refl eq_refl _ _); [lia|discriminate|]. apply (sc0_list "SiTypeDefTuple" "SiLookupTypeId" id_enc VInt id_ok l); [key|exact K|apply sc0_id].
  - destruct (nth_listed primitives i) as [N Q]; [exact K|reflexivity|].
    refine (sc0_def_at 5 _ _ _ _ _ eq_refl eq_refl _ _); [lia|discriminate|]. eapply sc0_value; [key|lia|exact N|exact Q].
  - refine (sc0_def_at 6 _ _ _ _ _ eq_refl eq_refl _ _); [lia|discriminate|]. apply sc0_type_row; [reflexivity|vm_compute; tauto|exact K].
  - refine (sc0_def_at 7 _ _ _ _ _ eq_refl eq_refl _ _); [lia|discriminate|].
    refine (sc0_struct "SiTypeDefBitSequence" [("bitStoreType", "SiLookupTypeId"); ("bitOrderType", "SiLookupTypeId")] _ [_; _] _ _ _); [key| |nodup].
    cbn [map snd]. apply ss0_cons; [now apply sc0_id|]. now apply ss0_one, sc0_id.
  - refine (sc0_def_at 8 _ _ _ _ _ eq_refl eq_refl _ _); [lia|discriminate|].
    refine (sc0_struct "SiTypeDefRange" [("start", "SiLookupTypeId"); ("end", "SiLookupTypeId"); ("inclusive", "bool")] _ [_; _; _] _ _ _); [key| |nodup].
    cbn [map snd]. apply ss0_cons; [now apply sc0_id|]. apply ss0_cons; [now apply sc0_id|]. apply ss0_one, sc0_bool.
  - refine (sc0_def_at 9 _ _ _ _ _ eq_refl eq_refl _ _); [lia|discriminate|]. now apply sc0_str.
Qed.

Definition param_val (p : bytes * option Z) : val := VMap [("name", text_val (fst p)); ("type", opt_val VInt (snd p))].
Lemma sc0_param p : text_ok (fst p) /\ opt_ok id_ok (snd p) -> sc0 "SiTypeParameter" (param_enc p) (param_val p).
Proof.
  intros [A B]. refine (sc0_struct "SiTypeParameter" [("name", "Text"); ("type", "Option<SiLookupTypeId>")] _ [_; _] _ _ _); [key| |nodup].
  cbn [map snd]. apply ss0_cons; [now apply sc0_text|]. apply ss0_one. apply (sc0_opt "SiLookupTypeId" id_enc VInt id_ok); [vm_compute; tauto|exact B|apply sc0_id].
Qed.
Definition type_val (t : wtype) : val :=
  VMap [("path", slice_of (map text_val (wt_path t))); ("params", slice_of (map param_val (wt_params t))); ("def", def_val (wt_def t));
        ("docs", slice_of (map text_val (wt_docs t)))].
Lemma sc0_type t : type_ok t -> sc0 "SiType" (type_enc t) (type_val t).
Proof.
  intros (A & B & C & D). refine (sc0_struct "SiType" [("path", "SiPath"); ("params", "Vec<SiTypeParameter>"); ("def", "SiTypeDef"); ("docs", "Vec<Text>")] _ [_; _; _; _] _ _ _);
    [key| |nodup]. cbn [map snd]. unfold type_enc. apply ss0_cons; [|apply ss0_cons; [|apply ss0_cons; [|apply ss0_one]]].
  - apply (sc0_list "SiPath" "Text" text_enc text_val text_ok); [key|exact A|apply sc0_text].
  - apply (sc0_vec "SiTypeParameter" param_enc param_val (fun p => text_ok (fst p) /\ opt_ok id_ok (snd p))); [vm_compute; tauto|exact B|apply sc0_param].
  - now apply sc0_def.
  - now apply sc0_texts.
Qed.
Definition entry_val (p : Z * wtype) : val := VMap [("id", VInt (fst p)); ("type", type_val (snd p))].
Definition registry_val (l : wregistry) : val := slice_of (map entry_val l).
Lemma sc0_registry l : registry_ok l -> sc0 "PortableRegistry" (registry_enc l) (registry_val l).
Proof.
  intros K. apply (sc0_list "PortableRegistry" "PortableType" entry_enc entry_val (fun p => id_ok (fst p) /\ type_ok (snd p)) l); [key|exact K|].
  intros p [A B]. refine (sc0_struct "PortableType" [("id", "SiLookupTypeId"); ("type", "SiType")] _ [_; _] _ _ _); [key| |nodup].
  cbn [map snd]. apply ss0_cons; [now apply sc0_id|]. now apply ss0_one, sc0_type.
Qed.

(** ** Pallets *)
Lemma slice_records {A} (f : A -> list (string * val)) l : slice_of (map (fun x => VMap (f x)) l) = records (map f l).
Proof. unfold records. now rewrite map_map. Qed.
Lemma slice_texts {A} (f : A -> string) l : slice_of (map (fun x => VStr (f x)) l) = texts (map f l).
Proof. unfold texts. now rewrite map_map. Qed.
Lemma sc0_meta n name ts bs gs m : resolves E c n (COpaque name) -> ss0 ts bs gs -> meta_layout name ts gs m -> sc0 n bs (VMap m).
Proof. intros R A L. eapply sc0_at; [exact R|]. eapply sc_meta; [reflexivity|exact A|exact L]. Qed.
Definition texts_of (l : list bytes) : list string := map text_of l.
Lemma sc0_strs' l : list_ok text_ok l -> sc0 "Vec<String>" (list_enc text_enc l) (texts (texts_of l)).
Proof. intros L. unfold texts_of. rewrite <- slice_texts. now apply sc0_strs. Qed.
Lemma sc0_texts' l : list_ok text_ok l -> sc0 "Vec<Text>" (list_enc text_enc l) (texts (texts_of l)).
Proof. intros L. unfold texts_of. rewrite <- slice_texts. now apply sc0_texts. Qed.

Definition storage_rec (s : wstorage) : list (string * val) :=
  match s with
  | WPlain t => [("origin", VStr "PlainType"); ("PlainTypeValue", VInt t)]
  | WMap hs k v => [("origin", VStr "Map"); ("n_map_type", VMap [("hashers", strings_val (map hasher_name hs)); ("keys_id", VInt k); ("value_id", VInt v)])]
  end.
Definition entry_rec (e : wentry) : list (string * val) :=
  [("name", VStr (text_of (we_name e))); ("modifier", VStr (if we_default e then "Default" else "Optional")); ("type", VMap (storage_rec (we_type e)));
   ("fallback", VStr ("0x" ++ hex_encode (we_fallback e))); ("docs", strings_val (texts_of (we_docs e)))].
Lemma sc0_hashers hs : list_ok (fun h => 0 <= h < 7) hs -> sc0 "Vec<StorageHasher>" (list_enc (fun h => [Zb h]) hs) (texts (map hasher_name hs)).
Proof.
  intros L. rewrite <- slice_texts.
  apply (sc0_vec "StorageHasher" (fun h => [Zb h]) (fun h => VStr (hasher_name h)) (fun h => 0 <= h < 7)); [vm_compute; tauto|exact L|].
  intros h H. destruct (nth_listed hashers h) as [N Q]; [exact H|reflexivity|]. eapply sc0_value; [key|lia|exact N|exact Q].
Qed.
Lemma sc0_modify d : sc0 "StorageModify" (bool_enc d) (VStr (if d then "Default" else "Optional")).
Proof.
  destruct d.
  - refine (sc0_value "StorageModify" ["Optional"; "Default"] 1 _ _ _ eq_refl _); [key|lia|discriminate].
  - refine (sc0_value "StorageModify" ["Optional"; "Default"] 0 _ _ _ eq_refl _); [key|lia|discriminate].
Qed.
Lemma sc0_storage s : storage_ok s -> exists kind ts gs kb sb, storage_enc s = (kb ++ sb)%list /\ store_layout14 kind ts gs (storage_rec s) /\
  sc0 "StorageFunctionTypeV14" kb (VStr kind) /\ ss0 ts sb gs.
Proof.
  destruct s as [t|hs k v]; cbn [storage_ok storage_rec storage_enc]; intros K.
  - exists "PlainType", ["SiLookupTypeId"], [VInt t], [Zb 0], (id_enc t). split; [reflexivity|]. split; [constructor|]. split.
    + refine (sc0_value "StorageFunctionTypeV14" ["PlainType"; "Map"] 0 _ _ _ eq_refl _); [key|lia|discriminate].
    + now apply ss0_one, sc0_id.
  - destruct K as (B1 & B2 & B3).
    exists "Map", ["Vec<StorageHasher>"; "SiLookupTypeId"; "SiLookupTypeId"], [texts (map hasher_name hs); VInt k; VInt v], [Zb 1],
      (list_enc (fun h => [Zb h]) hs ++ id_enc k ++ id_enc v)%list. split; [reflexivity|]. split; [constructor|]. split.
    + refine (sc0_value "StorageFunctionTypeV14" ["PlainType"; "Map"] 1 _ _ _ eq_refl _); [key|clear; lia|discriminate].
    + apply ss0_cons; [now apply sc0_hashers|]. apply ss0_cons; [now apply sc0_id|]. now apply ss0_one, sc0_id.
Qed.
Lemma sc0_entry e : wentry_ok e -> sc0 "MetadataV14ModuleStorageEntry" (wentry_enc e) (VMap (entry_rec e)).
Proof.
  intros (A & B & C & D).
  assert (R : resolves E c "MetadataV14ModuleStorageEntry" (COpaque "MetadataV14ModuleStorageEntry")) by key.
  destruct (sc0_storage (we_type e) B) as (kind & ts & gs & kb & sb & X & LY & SK & SS).
  pose proof (ml_entry14 (text_of (we_name e)) (if we_default e then "Default" else "Optional") kind ts gs _ ("0x" ++ hex_encode (we_fallback e)) (texts_of (we_docs e)) LY) as M.
  refine (sc0_meta _ _ _ _ _ _ R _ M). unfold wentry_enc. rewrite X, <- app_assoc. cbn [app].
  apply ss0_cons; [now apply sc0_str|]. apply ss0_cons; [apply sc0_modify|]. apply ss0_cons; [exact SK|]. apply ss0_app; [exact SS|].
  apply ss0_cons; [now apply sc0_hexbytes|]. now apply ss0_one, sc0_strs'.
Qed.
Definition const_rec (k : wconst) : list (string * val) :=
  [("name", VStr (text_of (wc_name k))); ("type_value", VInt (wc_type k)); ("constants_value", VStr (hex_encode (wc_value k)));
   ("docs", strings_val (texts_of (wc_docs k)))].
Lemma sc0_const k : const_ok k -> sc0 "PalletConstantMetadataV14" (const_enc k) (VMap (const_rec k)).
Proof.
  intros (A & B & C & D). eapply sc0_meta; [key| |apply ml_constant14]. unfold const_enc.
  apply ss0_cons; [now apply sc0_str|]. apply ss0_cons; [now apply sc0_id|]. apply ss0_cons; [now apply sc0_hexbytes|]. now apply ss0_one, sc0_strs'.
Qed.
Lemma sc0_records {A} t (e : A -> bytes) (f : A -> list (string * val)) (P : A -> Prop) l : In t meta_vecs -> list_ok P l ->
  (forall x, P x -> sc0 t (e x) (VMap (f x))) -> sc0 ("Vec<" ++ t ++ ">") (list_enc e l) (records (map f l)).
Proof. intros I L H. rewrite <- slice_records. now apply (sc0_vec t e (fun x => VMap (f x)) P). Qed.
(** A flag and, if it is set, a value. *)
Lemma ss0_opt {A B} t (e : A -> bytes) (v : B -> val) (f : A -> B) (P : A -> Prop) o : opt_ok P o -> (forall x, P x -> sc0 t (e x) (v (f x))) ->
  ss0 (opt_types (option_map f o) t) (opt_enc e o) (opt_vals v (option_map f o)).
Proof.
  intros O H. destruct o as [a|]; unfold opt_types, opt_vals; cbn [opt_enc option_map].
  - change (Zb 1 :: e a) with (bool_enc true ++ e a)%list. apply ss0_cons; [apply sc0_bool|]. now apply ss0_one, H.
  - change [Zb 0] with (bool_enc false). apply ss0_one, sc0_bool.
Qed.
Definition type_row (t : Z) : list (string * val) := [("type", VInt t)].
Definition store_of (s : bytes * list wentry) : string * list (list (string * val)) := (text_of (fst s), map entry_rec (snd s)).
Definition pallet_types (p : wpallet) : list string :=
  module14_types (option_map store_of (wp_storage p)) (option_map type_row (wp_calls p)) (option_map type_row (wp_events p)) (option_map type_row (wp_errors p)).
Definition pallet_vals (p : wpallet) : list val :=
  module14_vals (text_of (wp_name p)) (option_map store_of (wp_storage p)) (option_map type_row (wp_calls p)) (option_map type_row (wp_events p))
    (map const_rec (wp_constants p)) (option_map type_row (wp_errors p)) (wp_index p).
Definition pallet_rec (p : wpallet) : list (string * val) :=
  module14_rec (text_of (wp_name p)) (option_map store_of (wp_storage p)) (option_map type_row (wp_calls p)) (option_map type_row (wp_events p))
    (map const_rec (wp_constants p)) (option_map type_row (wp_errors p)) (wp_index p).
Lemma ss0_pallet p : pallet_ok p -> ss0 (pallet_types p) (pallet_enc p) (pallet_vals p).
Proof.
  intros (A & B & C & D & F & G & H). unfold pallet_types, pallet_vals, pallet_enc, module14_types, module14_vals.
  apply ss0_cons; [now apply sc0_str|]. apply ss0_app.
  { apply (ss0_opt "MetadataV14ModuleStorage" (fun s => text_enc (fst s) ++ list_enc wentry_enc (snd s))%list store_rec store_of _ _ B).
    intros s [S1 S2]. unfold store_rec, store_of; cbn [fst snd]. eapply sc0_meta; [key| |apply ml_storage; vm_compute; tauto].
    apply ss0_cons; [now apply sc0_str|]. apply ss0_one.
    apply (sc0_records "MetadataV14ModuleStorageEntry" wentry_enc entry_rec wentry_ok); [vm_compute; tauto|exact S2|apply sc0_entry]. }
  apply ss0_app.
  { apply (ss0_opt "PalletCallMetadataV14" id_enc VMap type_row id_ok); [exact C|]. intros x X. apply sc0_type_row; [reflexivity|vm_compute; tauto|exact X]. }
  apply ss0_app.
  { apply (ss0_opt "PalletEventMetadataV14" id_enc VMap type_row id_ok); [exact D|]. intros x X. apply sc0_type_row; [reflexivity|vm_compute; tauto|exact X]. }
  apply ss0_cons.
  { apply (sc0_records "PalletConstantMetadataV14" const_enc const_rec const_ok); [vm_compute; tauto|exact F|apply sc0_const]. }
  apply ss0_app.
  { apply (ss0_opt "PalletErrorMetadataV14" id_enc VMap type_row id_ok); [exact G|]. intros x X. apply sc0_type_row; [reflexivity|vm_compute; tauto|exact X]. }
  apply ss0_one. apply sc0_u8; [now right|exact H].
Qed.
Lemma sc0_pallet p : pallet_ok p -> sc0 "MetadataV14Module" (pallet_enc p) (VMap (pallet_rec p)).
Proof. intros K. eapply sc0_meta; [key|apply ss0_pallet, K|apply ml_module14]. Qed.
Lemma sc0_pallets l : list_ok pallet_ok l -> sc0 "Vec<MetadataV14Module>" (list_enc pallet_enc l) (records (map pallet_rec l)).
Proof. intros L. apply (sc0_records "MetadataV14Module" pallet_enc pallet_rec pallet_ok); [vm_compute; tauto|exact L|apply sc0_pallet]. Qed.

(** ** The format of extrinsics *)
Definition extension_rec (x : wextension) : list (string * val) :=
  [("identifier", text_val (wx_name x)); ("type", VInt (wx_type x)); ("additionalSigned", VInt (wx_additional x))].
Lemma sc0_extensions l : list_ok extension_ok l -> sc0 "Vec<SignedExtensionMetadataV14>" (list_enc extension_enc l) (records (map extension_rec l)).
Proof.
  intros L. apply (sc0_records "SignedExtensionMetadataV14" extension_enc extension_rec extension_ok); [vm_compute; tauto|exact L|].
  intros x (A & B & C). refine (sc0_struct "SignedExtensionMetadataV14" [("identifier", "Text"); ("type", "SiLookupTypeId"); ("additionalSigned", "SiLookupTypeId")] _ [_; _; _] _ _ _);
    [key| |nodup]. cbn [map snd]. apply ss0_cons; [now apply sc0_text|]. apply ss0_cons; [now apply sc0_id|]. now apply ss0_one, sc0_id.
Qed.
Definition extrinsic_rec (x : wextrinsic) : list (string * val) :=
  [("type", VInt (we_id x)); ("version", VInt (we_version x)); ("signedExtensions", records (map extension_rec (we_extensions x)))].
Lemma sc0_extrinsic x : extrinsic_ok x -> sc0 "ExtrinsicMetadataV14" (extrinsic_enc x) (VMap (extrinsic_rec x)).
Proof.
  intros (A & B & C). refine (sc0_struct "ExtrinsicMetadataV14" [("type", "SiLookupTypeId"); ("version", "u8"); ("signedExtensions", "Vec<SignedExtensionMetadataV14>")] _ [_; _; _] _ _ _);
    [key| |nodup]. cbn [map snd]. apply ss0_cons; [now apply sc0_id|]. apply ss0_cons; [apply sc0_u8; [now left|exact B]|]. now apply ss0_one, sc0_extensions.
Qed.
End Read.

(** ** The values read as JSON *)
Lemma jall_map {A B} (f : val -> res B) (g : A -> val) (h : A -> B) l : Forall (fun x => f (g x) = Ok (h x)) l -> jall f (map g l) = Ok (map h l).
Proof. intros F. induction F as [|x l X F IH]; [reflexivity|]. cbn [map jall]. rewrite X. cbn [bind]. rewrite IH. reflexivity. Qed.
Lemma jlist_slice l : jlist (slice_of l) = Ok l. Proof. destruct l; reflexivity. Qed.
Lemma jlist_of_map {A B} (f : val -> res B) (g : A -> val) (h : A -> B) l : (forall x, f (g x) = Ok (h x)) -> jlist_of f (slice_of (map g l)) = Ok (map h l).
Proof. intros F. unfold jlist_of. rewrite jlist_slice. cbn [bind]. apply jall_map, Forall_forall. intros x _. apply F. Qed.
Lemma jlist_strs l : jlist (strings_val l) = Ok (map VStr l). Proof. destruct l; reflexivity. Qed.
Lemma jstr_opt o : jstr (opt_val text_val o) = Ok (opt_text o). Proof. destruct o; reflexivity. Qed.
Lemma jint_opt o : jint (opt_val VInt o) = Ok (match o with Some k => k | None => 0 end). Proof. destruct o; reflexivity. Qed.

Lemma raw_field_ok f : raw_field (field_val f) = Ok (declared_field f).
Proof.
  unfold raw_field, field_val. cbn -[opt_val text_val slice_of]. rewrite !jstr_opt. reflexivity.
Qed.
Lemma raw_variant_ok v : raw_variant (variant_val v) = Ok (declared_variant v).
Proof.
  unfold raw_variant, variant_val. cbn -[slice_of field_val]. rewrite (jlist_of_map raw_field field_val declared_field) by apply raw_field_ok. reflexivity.
Qed.
Lemma text_of_nonempty b : b <> [] -> String.eqb (text_of b) "" = false.
Proof.
  intros N. apply String.eqb_neq. unfold text_of. destruct (forallb printable b); [|discriminate]. destruct b as [|x b]; [congruence|discriminate].
Qed.
Lemma raw_def_ok d : raw_def (def_val d) = Ok (declared_def d).
Proof.
  destruct d as [fs|vs|t|n t|l|i|t|a b|a b i|s]; unfold raw_def; cbn [def_val jobj bind].
  - cbn -[slice_of jlist_of]. rewrite (jlist_of_map raw_field field_val declared_field) by apply raw_field_ok. reflexivity.
  - cbn -[slice_of jlist_of]. rewrite (jlist_of_map raw_variant variant_val declared_variant) by apply raw_variant_ok. reflexivity.
  - reflexivity.
  - reflexivity.
  - destruct l as [|z l]; [reflexivity|]. change (is_null (slice_of (map VInt (z :: l)))) with false. cbn [String.eqb]. cbn -[slice_of jlist_of map].
    rewrite (jlist_of_map jint VInt (fun z => z)) by reflexivity. cbn [bind]. rewrite map_id. reflexivity.
  - reflexivity.
  - reflexivity.
  - reflexivity.
  - reflexivity.
  - cbn -[text_of String.eqb]. change (String.eqb "HistoricMetaCompat" "Composite") with false. cbn -[text_of].
    destruct s as [|x s]; [reflexivity|]. rewrite text_of_nonempty by discriminate. reflexivity.
Qed.
Lemma raw_param_ok p : raw_param (param_val p) = Ok (text_of (fst p), match snd p with Some k => k | None => 0 end).
Proof. unfold raw_param, param_val. cbn -[opt_val text_val]. rewrite jint_opt. reflexivity. Qed.
Lemma raw_type_ok t : raw_type (type_val t) = Ok (declared_type t).
Proof.
  unfold raw_type, type_val. cbn -[slice_of jlist_of def_val].
  rewrite (jlist_of_map jstr text_val text_of) by reflexivity. cbn [bind].
  rewrite (jlist_of_map raw_param param_val (fun p => (text_of (fst p), match snd p with Some k => k | None => 0 end))) by apply raw_param_ok. cbn [bind].
  rewrite raw_def_ok. reflexivity.
Qed.
Lemma raw_portable_ok p : raw_portable (entry_val p) = Ok (fst p, declared_type (snd p)).
Proof. unfold raw_portable, entry_val. cbn -[type_val]. rewrite raw_type_ok. reflexivity. Qed.
Lemma slice_val_of l : slice_val (slice_of l) = Ok l. Proof. destruct l; reflexivity. Qed.
Lemma init_portable l : InitPortableRaw (VSlice (map entry_val l)) = Ok (declared l).
Proof.
  unfold InitPortableRaw, jlist_of. cbn [jlist bind].
  rewrite (jall_map raw_portable entry_val (fun p => (fst p, declared_type (snd p)))) by (apply Forall_forall; intros p _; apply raw_portable_ok). reflexivity.
Qed.

Lemma zlist_of_map {A B} (f : val -> res B) (g : A -> val) (h : A -> B) l : (forall x, f (g x) = Ok (h x)) -> zlist_of f (slice_of (map g l)) = Ok (map h l).
Proof. intros F. unfold zlist_of. rewrite jlist_slice. apply jall_map, Forall_forall. intros x _. apply F. Qed.
Lemma jlist_of_strs l : zlist_of zstr (strings_val l) = Ok l.
Proof.
  unfold zlist_of. rewrite jlist_strs. rewrite (jall_map zstr VStr (fun s => s)) by (apply Forall_forall; reflexivity). now rewrite map_id.
Qed.
Lemma raw_storage_ok e : raw_storage (VMap (entry_rec e)) = Ok (text_of (we_name e), described_storage (we_type e)).
Proof.
  unfold raw_storage, entry_rec. destruct (we_type e) as [t|hs k v].
  - cbn -[text_of]. reflexivity.
  - cbn -[text_of strings_val zlist_of hasher_name map]. rewrite jlist_of_strs. reflexivity.
Qed.
Definition raw_const_of (k : wconst) : string * Z * string := (text_of (wc_name k), wc_type k, hex_encode (wc_value k)).
Lemma raw_const_ok k : raw_const (VMap (const_rec k)) = Ok (raw_const_of k).
Proof. reflexivity. Qed.
Lemma raw_lookup_ok o : raw_lookup (lookup_val (option_map type_row o)) = Ok o.
Proof. destruct o; reflexivity. Qed.
Definition prefix_of (p : wpallet) : string := match wp_storage p with Some s => text_of (fst s) | None => "" end.
Definition raw_of (p : wpallet) : rawmodule := RawModule (described p) (prefix_of p) (map raw_const_of (wp_constants p)) (wp_errors p) (about_pallet p).
Lemma entry_about_ok e : entry_about (VMap (entry_rec e)) = Ok (modifier_name (we_default e), "0x" ++ hex_encode (we_fallback e), map text_of (we_docs e)).
Proof. unfold entry_about, entry_rec. cbn -[text_of strings_val zlist_of texts_of append hex_encode storage_rec]. rewrite jlist_of_strs. reflexivity. Qed.
Lemma const_docs_ok k : docs_of (VMap (const_rec k)) = Ok (map text_of (wc_docs k)).
Proof. unfold docs_of, const_rec. cbn -[text_of strings_val zlist_of texts_of]. now rewrite jlist_of_strs. Qed.
Lemma raw_module_ok p tl : raw_module (VMap (pallet_rec p ++ tl)%list) = Ok (raw_of p).
Proof.
  unfold raw_module, pallet_rec, module14_rec. cbn -[text_of store_prefix store_items records lookup_val option_map zlist_of about_of].
  replace (match jstr (store_prefix (option_map store_of (wp_storage p))) with Ok s => s | _ => "" end) with (prefix_of p) by (unfold prefix_of, store_prefix, store_of; destruct (wp_storage p); reflexivity).
  cbn [bind].
  replace (zlist_of raw_storage (store_items (option_map store_of (wp_storage p)))) with (Ok (p_storage (described p))).
  2:{ unfold described. cbn [p_storage]. unfold store_items, store_of. destruct (wp_storage p) as [[n l]|]; [|reflexivity]. cbn [option_map snd]. symmetry.
      rewrite <- slice_records. apply (zlist_of_map raw_storage (fun e => VMap (entry_rec e)) (fun e => (text_of (we_name e), described_storage (we_type e)))).
      apply raw_storage_ok. }
  cbn [bind]. rewrite !raw_lookup_ok. cbn [bind]. rewrite <- slice_records.
  rewrite (zlist_of_map raw_const (fun k => VMap (const_rec k)) raw_const_of) by apply raw_const_ok. cbn [bind].
  match goal with |- context [about_of ?x] => assert (AB : about_of x = Ok (about_pallet p)) end.
  { unfold about_of. cbn -[store_prefix store_items records lookup_val option_map zlist_of text_of about_pallet map].
    replace (zlist_of entry_about (store_items (option_map store_of (wp_storage p)))) with (Ok (ab_storage (about_pallet p))).
    2:{ unfold about_pallet. cbn [ab_storage]. unfold store_items, store_of. destruct (wp_storage p) as [[n l]|]; [|reflexivity]. cbn [option_map snd]. symmetry.
        rewrite <- slice_records. apply (zlist_of_map entry_about (fun e => VMap (entry_rec e)) (fun e => (modifier_name (we_default e), "0x" ++ hex_encode (we_fallback e), map text_of (we_docs e)))). apply entry_about_ok. }
    cbn [bind]. rewrite <- ?slice_records. rewrite (zlist_of_map docs_of (fun k => VMap (const_rec k)) (fun k => map text_of (wc_docs k))) by apply const_docs_ok. reflexivity. }
  rewrite AB. reflexivity.
Qed.
Lemma raw_modules_ok l : jall raw_module (map VMap (map pallet_rec l)) = Ok (map raw_of l).
Proof.
  rewrite map_map. apply (jall_map raw_module (fun p => VMap (pallet_rec p)) raw_of). apply Forall_forall. intros p _.
  rewrite <- (app_nil_r (pallet_rec p)). apply raw_module_ok.
Qed.
Lemma extensions_ok names m l : field_of "signedExtensions" m = records (map extension_rec l) ->
  extensions_of names (VMap m) = Ok (map (fun x => (text_of (wx_name x), si_name names (wx_type x))) l).
Proof.
  intros F. unfold extensions_of. cbn [map_val bind]. rewrite F, <- slice_records.
  rewrite (zlist_of_map raw_extension (fun x => VMap (extension_rec x)) (fun x => (text_of (wx_name x), wx_type x))) by reflexivity.
  cbn [bind]. now rewrite map_map.
Qed.
