(** C72: when does decoding end with "Not found decoder class"?  Not when every
    name a type needs is registered; with the shipped definitions that is the
    case for all but 29 of them. *)

From Verif Require Import GoBase ModelTools ModelJson ModelVal ModelRegistry ModelDecode ModelRegister ModelBaseTypes ProofsLoad ProofsTrie ProofsKnown PropLoad.
From Coq Require Import Permutation.

(** ** Any registry *)
(** [known t]: the name [t] is registered, and so are all names its decoder
    looks up, in every pallet considered. *)
Definition registered_names (E : env) (Pallet known : string -> Prop) : Prop :=
  forall t m spec, known t -> Pallet m ->
    exists cd sub, GetCodecClass E m t spec = Ok (Some (cd, sub)) /\ forall t', In t' (asks (init_sub cd sub)) -> known t'.
Theorem C72_known E (Pallet known : string -> Prop) : Pallet "" -> registered_names E Pallet known ->
  forall fuel c data off t, fine known Pallet c -> known t -> ~ reports_unknown (decode fuel E c data off t).
Proof.
  intros P0 R fuel c data off t F T (m & D & U). assert (K := decode_known E known Pallet P0 R fuel c data off t F T). rewrite D in K. cbn [known_outcome] in K. congruence.
Qed.

(** ** The shipped definitions *)
(** The definitions that need a name nobody registers. *)
Definition broken : list string :=
  [ "BlockTrace"; "BlockTraceEvent"; "BlockTraceEventData"; "BlockV0"; "BlockV1"; "BlockV2"; "ContractExecResultSuccessTo255"; "ContractExecResultTo255";
    "ContractProject"; "EthBlock"; "EthHeader"; "EthRichBlock"; "EthRichHeader"; "EthSubResult"; "InstructionV2"; "InstructionV3"; "QueryStatus"; "RelayTo";
    "RelayedFrom"; "ResponseV2"; "ResponseV2Result"; "TraceBlockResponse"; "VersionedResponse"; "VersionedXcm"; "XcmV2"; "XcmV3"; "ethereum::Block";
    "ethereum::Header"; "xcm::VersionedXcm" ].
(** Built-in decoders that mean nothing without a type argument. *)
Definition bare : list string :=
  [ "vec"; "boundedvec"; "weakboundedvec"; "set"; "btreemap"; "btreeset"; "box"; "wrapperopaque"; "range"; "rangeinclusive" ].
(** The other names, alone or as an argument. *)
Definition usable (k : string) : Prop :=
  (In k (map fst base_definitions) /\ ~ In k broken) \/ (In k (map fst base_registry) /\ ~ In k bare).
Definition wrapped (k : string) : list string := [k; "Vec<" ++ k ++ ">"; "Option<" ++ k ++ ">"; "Compact<" ++ k ++ ">"].
Definition shipped (t : string) : Prop := exists k, usable k /\ In t (wrapped k).
(** Pallets whose overridden names (override.go) are registered: all but two. *)
Definition pallet (m : string) : Prop := to_lower m <> "ethereum" /\ to_lower m <> "bridgemultisig".
(** A decoder for the shipped types: without metadata, or with calls whose
    arguments are shipped types. *)
Definition shipped_context (c : ctx) : Prop := fine shipped pallet c.

(** The further names these types ask for. *)
Definition nested : list string :=
  [ " CustomValueMetadata15"; "BTreeMap<Text, CustomValueMetadata15>"; "RuntimeApiMethodParamMetadataV15"; "Vec<RuntimeApiMethodParamMetadataV15>";
    "RuntimeApiMethodMetadataV15"; "Vec<RuntimeApiMethodMetadataV15>"; "PalletConstantMetadataV14"; "Vec<PalletConstantMetadataV14>";
    "MetadataModuleError"; "Vec<MetadataModuleError>"; "MetadataV7ModuleConstants"; "Vec<MetadataV7ModuleConstants>"; "MetadataModuleEvent";
    "Vec<MetadataModuleEvent>"; "MetadataModuleCall"; "Vec<MetadataModuleCall>"; "MetadataV14ModuleStorage"; "MetadataV13ModuleStorage";
    "MetadataV7ModuleStorage"; "MetadataV14ModuleStorageEntry"; "Vec<MetadataV14ModuleStorageEntry>"; "MetadataV13ModuleStorageEntry";
    "Vec<MetadataV13ModuleStorageEntry>"; "MetadataV7ModuleStorageEntry"; "Vec<MetadataV7ModuleStorageEntry>"; "MetadataModuleCallArgument";
    "Vec<MetadataModuleCallArgument>"; "Vec<String>"; "RuntimeEnvironmentUpdated"; "ChangesTrieRoot"; "AuthoritiesChange"; "Other"; "()";
    "(MultiLocationV1, XcmV1)"; "(AccountId, ParaId, BalanceOf)"; " u32"; "UnlockChunk<Balance>"; "Vec<UnlockChunk<Balance>>"; "Call";
    "(AccountId, ExtendedBalance)"; "Vec<(AccountId, ExtendedBalance)>"; "(AccountId, SolutionSupport)"; "RawBabePreDigestSecondaryVRF";
    "RawBabePreDigestSecondary"; "RawBabePreDigestPrimary"; "(U32, XcmTraitsErrorV3)"; "Option<(U32, XcmTraitsErrorV3)>"; "compact<u64>";
    "BTreeSet<AuthorityId>"; " VecInboundHrmpMessage"; "BTreeMap<ParaId, VecInboundHrmpMessage>"; "U32"; "(MultiLocation, Xcm)";
    "(Weight, XcmErrorV0)"; "(u64, u64)"; "(JunctionV0, JunctionV0, JunctionV0, JunctionV0, JunctionV0, JunctionV0, JunctionV0, JunctionV0)";
    "(JunctionV0, JunctionV0, JunctionV0, JunctionV0, JunctionV0, JunctionV0, JunctionV0)";
    "(JunctionV0, JunctionV0, JunctionV0, JunctionV0, JunctionV0, JunctionV0)"; "(JunctionV0, JunctionV0, JunctionV0, JunctionV0, JunctionV0)";
    "(JunctionV0, JunctionV0, JunctionV0, JunctionV0)"; "(JunctionV0, JunctionV0, JunctionV0)"; "(JunctionV0, JunctionV0)"; "(u32, u32)";
    " InboundHrmpMessages"; "BTreeMap<ParaId, InboundHrmpMessages>"; "Vec<U8>";
    "(JunctionV3, JunctionV3, JunctionV3, JunctionV3, JunctionV3, JunctionV3, JunctionV3, JunctionV3)";
    "(JunctionV3, JunctionV3, JunctionV3, JunctionV3, JunctionV3, JunctionV3, JunctionV3)";
    "(JunctionV3, JunctionV3, JunctionV3, JunctionV3, JunctionV3, JunctionV3)"; "(JunctionV3, JunctionV3, JunctionV3, JunctionV3, JunctionV3)";
    "(JunctionV3, JunctionV3, JunctionV3, JunctionV3)"; "(JunctionV3, JunctionV3, JunctionV3)"; "(JunctionV3, JunctionV3)"; "option<NetworkIdV3>";
    "Option<AccountId>"; "Vec<Hash>"; "Data"; "blockNumber"; "String"; "LastContribution<BlockNumber>"; "Option<U64>"; "Vec<H160>"; "Option<H256>";
    "Option<Bytes>"; "Option<U256>"; "Option<H160>"; "Vec<Bytes>"; "(AccountId, RewardPoint)"; "Vec<(AccountId, RewardPoint)>";
    "(GrandpaPrevote, AuthoritySignature)"; "IndividualExposure<AccountId, Balance>"; "Vec<IndividualExposure<AccountId, Balance>>"; "Exposure";
    "(AccountId, Exposure)"; "Vec<(AccountId, Exposure)>"; "(bool, BlockNumber)"; "Vec<Vec<u8>>"; "sessionIndex"; "(Statement, ValidatorSignature)";
    "(DisputeStatement, ParaValidatorIndex, ValidatorSignature)"; "Vec<(DisputeStatement, ParaValidatorIndex, ValidatorSignature)>";
    "[CompactScoreCompact; 23]"; "(NominatorIndexCompact, [CompactScoreCompact; 23], ValidatorIndexCompact)";
    "Vec<(NominatorIndexCompact, [CompactScoreCompact; 23], ValidatorIndexCompact)>"; "[CompactScoreCompact; 22]";
    "(NominatorIndexCompact, [CompactScoreCompact; 22], ValidatorIndexCompact)";
    "Vec<(NominatorIndexCompact, [CompactScoreCompact; 22], ValidatorIndexCompact)>"; "[CompactScoreCompact; 21]";
    "(NominatorIndexCompact, [CompactScoreCompact; 21], ValidatorIndexCompact)";
    "Vec<(NominatorIndexCompact, [CompactScoreCompact; 21], ValidatorIndexCompact)>"; "[CompactScoreCompact; 20]";
    "(NominatorIndexCompact, [CompactScoreCompact; 20], ValidatorIndexCompact)";
    "Vec<(NominatorIndexCompact, [CompactScoreCompact; 20], ValidatorIndexCompact)>"; "[CompactScoreCompact; 19]";
    "(NominatorIndexCompact, [CompactScoreCompact; 19], ValidatorIndexCompact)";
    "Vec<(NominatorIndexCompact, [CompactScoreCompact; 19], ValidatorIndexCompact)>"; "[CompactScoreCompact; 18]";
    "(NominatorIndexCompact, [CompactScoreCompact; 18], ValidatorIndexCompact)";
    "Vec<(NominatorIndexCompact, [CompactScoreCompact; 18], ValidatorIndexCompact)>"; "[CompactScoreCompact; 17]";
    "(NominatorIndexCompact, [CompactScoreCompact; 17], ValidatorIndexCompact)";
    "Vec<(NominatorIndexCompact, [CompactScoreCompact; 17], ValidatorIndexCompact)>"; "[CompactScoreCompact; 16]";
    "(NominatorIndexCompact, [CompactScoreCompact; 16], ValidatorIndexCompact)";
    "Vec<(NominatorIndexCompact, [CompactScoreCompact; 16], ValidatorIndexCompact)>"; "[CompactScoreCompact; 15]";
    "(NominatorIndexCompact, [CompactScoreCompact; 15], ValidatorIndexCompact)";
    "Vec<(NominatorIndexCompact, [CompactScoreCompact; 15], ValidatorIndexCompact)>"; "[CompactScoreCompact; 14]";
    "(NominatorIndexCompact, [CompactScoreCompact; 14], ValidatorIndexCompact)";
    "Vec<(NominatorIndexCompact, [CompactScoreCompact; 14], ValidatorIndexCompact)>"; "[CompactScoreCompact; 13]";
    "(NominatorIndexCompact, [CompactScoreCompact; 13], ValidatorIndexCompact)";
    "Vec<(NominatorIndexCompact, [CompactScoreCompact; 13], ValidatorIndexCompact)>"; "[CompactScoreCompact; 12]";
    "(NominatorIndexCompact, [CompactScoreCompact; 12], ValidatorIndexCompact)";
    "Vec<(NominatorIndexCompact, [CompactScoreCompact; 12], ValidatorIndexCompact)>"; "[CompactScoreCompact; 11]";
    "(NominatorIndexCompact, [CompactScoreCompact; 11], ValidatorIndexCompact)";
    "Vec<(NominatorIndexCompact, [CompactScoreCompact; 11], ValidatorIndexCompact)>"; "[CompactScoreCompact; 10]";
    "(NominatorIndexCompact, [CompactScoreCompact; 10], ValidatorIndexCompact)";
    "Vec<(NominatorIndexCompact, [CompactScoreCompact; 10], ValidatorIndexCompact)>"; "[CompactScoreCompact; 9]";
    "(NominatorIndexCompact, [CompactScoreCompact; 9], ValidatorIndexCompact)";
    "Vec<(NominatorIndexCompact, [CompactScoreCompact; 9], ValidatorIndexCompact)>"; "[CompactScoreCompact; 8]";
    "(NominatorIndexCompact, [CompactScoreCompact; 8], ValidatorIndexCompact)";
    "Vec<(NominatorIndexCompact, [CompactScoreCompact; 8], ValidatorIndexCompact)>"; "[CompactScoreCompact; 7]";
    "(NominatorIndexCompact, [CompactScoreCompact; 7], ValidatorIndexCompact)";
    "Vec<(NominatorIndexCompact, [CompactScoreCompact; 7], ValidatorIndexCompact)>"; "[CompactScoreCompact; 6]";
    "(NominatorIndexCompact, [CompactScoreCompact; 6], ValidatorIndexCompact)";
    "Vec<(NominatorIndexCompact, [CompactScoreCompact; 6], ValidatorIndexCompact)>"; "[CompactScoreCompact; 5]";
    "(NominatorIndexCompact, [CompactScoreCompact; 5], ValidatorIndexCompact)";
    "Vec<(NominatorIndexCompact, [CompactScoreCompact; 5], ValidatorIndexCompact)>"; "[CompactScoreCompact; 4]";
    "(NominatorIndexCompact, [CompactScoreCompact; 4], ValidatorIndexCompact)";
    "Vec<(NominatorIndexCompact, [CompactScoreCompact; 4], ValidatorIndexCompact)>"; "[CompactScoreCompact; 3]";
    "(NominatorIndexCompact, [CompactScoreCompact; 3], ValidatorIndexCompact)";
    "Vec<(NominatorIndexCompact, [CompactScoreCompact; 3], ValidatorIndexCompact)>"; "compactscorecompact"; "[CompactScoreCompact; 2]";
    "(NominatorIndexCompact, [CompactScoreCompact; 2], ValidatorIndexCompact)";
    "Vec<(NominatorIndexCompact, [CompactScoreCompact; 2], ValidatorIndexCompact)>";
    "(NominatorIndexCompact, CompactScoreCompact, ValidatorIndexCompact)";
    "Vec<(NominatorIndexCompact, CompactScoreCompact, ValidatorIndexCompact)>"; "(NominatorIndexCompact, ValidatorIndexCompact)";
    "Vec<(NominatorIndexCompact, ValidatorIndexCompact)>"; "[CompactScore; 15]"; "(NominatorIndex, [CompactScore; 15], ValidatorIndex)";
    "Vec<(NominatorIndex, [CompactScore; 15], ValidatorIndex)>"; "[CompactScore; 14]"; "(NominatorIndex, [CompactScore; 14], ValidatorIndex)";
    "Vec<(NominatorIndex, [CompactScore; 14], ValidatorIndex)>"; "[CompactScore; 13]"; "(NominatorIndex, [CompactScore; 13], ValidatorIndex)";
    "Vec<(NominatorIndex, [CompactScore; 13], ValidatorIndex)>"; "[CompactScore; 12]"; "(NominatorIndex, [CompactScore; 12], ValidatorIndex)";
    "Vec<(NominatorIndex, [CompactScore; 12], ValidatorIndex)>"; "[CompactScore; 11]"; "(NominatorIndex, [CompactScore; 11], ValidatorIndex)";
    "Vec<(NominatorIndex, [CompactScore; 11], ValidatorIndex)>"; "[CompactScore; 10]"; "(NominatorIndex, [CompactScore; 10], ValidatorIndex)";
    "Vec<(NominatorIndex, [CompactScore; 10], ValidatorIndex)>"; "[CompactScore; 9]"; "(NominatorIndex, [CompactScore; 9], ValidatorIndex)";
    "Vec<(NominatorIndex, [CompactScore; 9], ValidatorIndex)>"; "[CompactScore; 8]"; "(NominatorIndex, [CompactScore; 8], ValidatorIndex)";
    "Vec<(NominatorIndex, [CompactScore; 8], ValidatorIndex)>"; "[CompactScore; 7]"; "(NominatorIndex, [CompactScore; 7], ValidatorIndex)";
    "Vec<(NominatorIndex, [CompactScore; 7], ValidatorIndex)>"; "[CompactScore; 6]"; "(NominatorIndex, [CompactScore; 6], ValidatorIndex)";
    "Vec<(NominatorIndex, [CompactScore; 6], ValidatorIndex)>"; "[CompactScore; 5]"; "(NominatorIndex, [CompactScore; 5], ValidatorIndex)";
    "Vec<(NominatorIndex, [CompactScore; 5], ValidatorIndex)>"; "[CompactScore; 4]"; "(NominatorIndex, [CompactScore; 4], ValidatorIndex)";
    "Vec<(NominatorIndex, [CompactScore; 4], ValidatorIndex)>"; "[CompactScore; 3]"; "(NominatorIndex, [CompactScore; 3], ValidatorIndex)";
    "Vec<(NominatorIndex, [CompactScore; 3], ValidatorIndex)>"; "[CompactScore; 2]"; "(NominatorIndex, [CompactScore; 2], ValidatorIndex)";
    "Vec<(NominatorIndex, [CompactScore; 2], ValidatorIndex)>"; "compactscore"; "[CompactScore; 1]";
    "(NominatorIndex, [CompactScore; 1], ValidatorIndex)"; "Vec<(NominatorIndex, [CompactScore; 1], ValidatorIndex)>";
    "(NominatorIndex, ValidatorIndex)"; "Vec<(NominatorIndex, ValidatorIndex)>"; "(MemberCount, MemberCount)"; "[u8; 33]";
    "(AccountId, MultiSigner, MultiSignature)"; "H160"; "U256"; "Vec<H256>"; "Option<Signature>"; "Vec<Option<Signature>>";
    "(JunctionV1, JunctionV1, JunctionV1, JunctionV1, JunctionV1, JunctionV1, JunctionV1, JunctionV1)";
    "(JunctionV1, JunctionV1, JunctionV1, JunctionV1, JunctionV1, JunctionV1, JunctionV1)";
    "(JunctionV1, JunctionV1, JunctionV1, JunctionV1, JunctionV1, JunctionV1)"; "(JunctionV1, JunctionV1, JunctionV1, JunctionV1, JunctionV1)";
    "(JunctionV1, JunctionV1, JunctionV1, JunctionV1)"; "(JunctionV1, JunctionV1, JunctionV1)"; "(JunctionV1, JunctionV1)"; "U8"; "LockIdentifier";
    "PreRuntime"; "HexBytes"; "Seal"; "Consensus"; "Signature"; "SealV0"; "DigestItem<Hash>"; "Vec<DigestItem<Hash>>"; "Compact<BlockNumber>";
    "H256"; "(u64,u64)"; "U64"; "BlockHash"; "BitVec"; "(CollatorId, u32)"; "Compact<Balance>"; "NULL"; "Option<BlockNumber>"; "Vec<AccountId>";
    "Null"; "Option<Hash>"; "Bytes"; "Hash"; "BlockNumber"; "(BalanceOf, BidKind<AccountId, BalanceOf>)"; "BidKind<AccountId, BalanceOf>"; "Balance";
    "AccountId" ].

(** ** Checking it by computation *)
Definition inb (k : string) (l : list string) : bool := existsb (String.eqb k) l.
Definition without (bad l : list string) : list string := filter (fun k => negb (inb k bad)) l.
Lemma inb_in k l : inb k l = true <-> In k l.
Proof.
  unfold inb. rewrite existsb_exists. split; [intros (x & I & Q); apply String.eqb_eq in Q; now subst|intros I; exists k; split; [exact I|apply String.eqb_refl]].
Qed.
Lemma in_without bad l k : In k l -> ~ In k bad -> In k (without bad l).
Proof. intros I N. apply filter_In. split; [exact I|]. apply negb_true_iff. destruct (inb k bad) eqn:B; [|reflexivity]. apply inb_in in B. now destruct N. Qed.
Definition all_names (defs : list (string * tstruct)) (builtin : list (string * codec)) : list string :=
  (flat_map wrapped (without broken (map fst defs)) ++ flat_map wrapped (without bare (map fst builtin)) ++ nested)%list.

(** The pallets that matter: of the overriding ones, one for each table. *)
Definition pallets : list string := [""; "shared"; "assets"; "beefy"].
Lemma pallet_like m : pallet m -> exists p, In p pallets /\ forall t, ModuleType t m = ModuleType t p.
Proof.
  intros [N1 N2]. destruct (String.eqb m "") eqn:Z; [exists ""; split; [now left|]; intros t; unfold ModuleType; rewrite Z; reflexivity|].
  destruct (assoc (to_lower m) typesModules) as [tb|] eqn:A.
  - assert (I := assoc_some_in _ _ _ A). cbn [typesModules map fst In] in I.
    assert (U : forall p, In p pallets -> String.eqb p "" = false -> assoc (to_lower p) typesModules = Some tb -> exists p, In p pallets /\ forall t, ModuleType t m = ModuleType t p).
    { intros p Ip Zp Ap. exists p. split; [exact Ip|]. intros t. unfold ModuleType. rewrite Z, Zp, A, Ap. reflexivity. }
    assert (V : to_lower m = "ethereum" \/ to_lower m = "bridgemultisig" \/ assoc "shared" typesModules = Some tb \/ assoc "assets" typesModules = Some tb \/ assoc "beefy" typesModules = Some tb).
    { repeat (destruct I as [I|I]; [rewrite <- I in A |- *; first [left; reflexivity|right; left; reflexivity|right; right; left; exact A|right; right; right; left; exact A|right; right; right; right; exact A]|]). destruct I. }
    destruct V as [V|[V|[V|[V|V]]]]; [congruence|congruence|apply (U "shared")|apply (U "assets")|apply (U "beefy")]; try exact V; try reflexivity; cbn; tauto.
  - exists "". split; [now left|]. intros t. unfold ModuleType. rewrite Z, A. reflexivity.
Qed.

(** A lookup only depends on what is registered and on the overrides. *)
Lemma get_same E E' m m' : (forall k, assoc k (e_reg E) = assoc k (e_reg E')) -> e_special E = [] -> e_special E' = [] -> (forall t, ModuleType t m = ModuleType t m') ->
  forall t s s', GetCodecClass E m t s = GetCodecClass E' m' t s'.
Proof.
  intros R S1 S2 M. assert (G : forall t s s', getCodecInstant E m t s = getCodecInstant E' m' t s').
  { intros t s s'. unfold getCodecInstant, specialVersionCodec. rewrite M, R, S1, S2. reflexivity. }
  unfold GetCodecClass. intros t s s'. generalize (String.length t) as fuel. intros fuel. revert t. induction fuel as [|f IH]; intros t; cbn [GetCodecClass_fuel].
  - destruct (last_char (ConvertType t)); [|reflexivity]. rewrite (G _ s s'), (G "Struct" s s'). destruct (if Ascii.eqb _ _ then getCodecInstant E' m' _ _ else _) as [[x|]| |]; try reflexivity. cbn [bind].
    destruct (if Ascii.eqb _ _ then generic_parts _ else _) as [[pn pa]|]; rewrite ?(G pn s s'); reflexivity.
  - destruct (last_char (ConvertType t)); [|reflexivity]. rewrite (G _ s s'), (G "Struct" s s'), IH. destruct (if Ascii.eqb _ _ then getCodecInstant E' m' _ _ else _) as [[x|]| |]; try reflexivity. cbn [bind].
    destruct (if Ascii.eqb _ _ then generic_parts _ else _) as [[pn pa]|]; rewrite ?(G pn s s'); reflexivity.
Qed.

(** GetCodecClass with another way to find a name. *)
Section By.
Variable find : string -> option codec.
Definition instant_by (module t : string) : res (option codec) :=
  let t := ModuleType (to_lower t) module in
  match find (to_lower t) with
  | Some c => Ok (Some c)
  | None =>
      if String.eqb t "[]" then Ok None
      else match first_char t, last_char t with
           | Some a, Some z => if Ascii.eqb a "["%char && Ascii.eqb z "]"%char then Ok (fixed_array t) else Ok None
           | _, _ => idx_panic
           end
  end.
Fixpoint class_by (fuel : nat) (module typeString : string) : res (option (codec * string)) :=
  let ts := ConvertType typeString in
  match last_char ts with
  | None => Panic "runtime error: slice bounds out of range"
  | Some z =>
      let complex := Ascii.eqb z ">"%char in
      full <- (if complex then instant_by module ts else Ok None) ;;
      match full with
      | Some c => Ok (Some (c, ""))
      | None =>
          let parts := if complex then generic_parts ts else None in
          found <- match parts with
                   | Some (name, sub) => r <- instant_by module name ;; Ok (match r with Some c => Some (c, sub) | None => None end)
                   | None => r <- instant_by module ts ;; Ok (match r with Some c => Some (c, "") | None => None end)
                   end ;;
          match found with
          | Some p => Ok (Some p)
          | None =>
              if negb (String.eqb ts "()") && prefix "(" ts && Ascii.eqb z ")"%char then
                r <- instant_by module "Struct" ;;
                match r with
                | Some (CStruct _) => Ok (Some (CStruct (buildStruct ts), ""))
                | _ => Panic "interface conversion: not *types.Struct"
                end
              else if contains ts "::" && negb (String.eqb ts "::") then
                match fuel with
                | O => OutOfFuel
                | S f => class_by f module (last_seg ts O ts)
                end
              else Ok None
          end
      end
  end.
Variable E : env.
Hypothesis FIND : forall k, find k = assoc k (e_reg E).
Hypothesis PLAIN : e_special E = [].
Lemma instant_same m t s : instant_by m t = getCodecInstant E m t s.
Proof. unfold instant_by, getCodecInstant, specialVersionCodec. cbv zeta. rewrite PLAIN, FIND. reflexivity. Qed.
Lemma class_same s : forall f m t, class_by f m t = GetCodecClass_fuel f E m t s.
Proof.
  induction f as [|f IH]; intros m t; cbn [class_by GetCodecClass_fuel]; cbv zeta; destruct (last_char (ConvertType t)) as [z|]; try reflexivity; rewrite !(instant_same _ _ s).
  all: match goal with |- bind ?e _ = bind ?e _ => destruct e as [[c|]|x|]; cbn [bind]; try reflexivity end.
  all: match goal with |- bind (match ?p with _ => _ end) _ = _ => destruct p as [[n sub]|]; rewrite ?(instant_same _ _ s) end.
  all: match goal with |- bind ?e _ = bind ?e _ => destruct e as [[c|]|x|]; cbn [bind]; try reflexivity end.
  all: try (destruct (negb _ && _ && _); [reflexivity|]); try (destruct (contains _ _ && _); [|reflexivity]); try reflexivity; apply IH.
Qed.
End By.
(** [t] resolves in every pallet to a decoder asking for names in [T]. *)
Definition resolves (d : trie codec) (T : trie unit) (t : string) : bool :=
  forallb (fun m => match class_by (fun k => tfind k d) (String.length t) m t with Ok (Some (cd, sub)) => forallb (fun t' => found (tfind t' T)) (asks (init_sub cd sub)) | _ => false end) pallets.
Definition plain_env (types : list (string * codec)) : env := Env types [] (fun _ => "") (fun b => b) (fun _ => None).
Definition all_resolve (types : list (string * codec)) (l : list string) : bool := let T := names_trie l in let d := tbuild types in forallb (resolves d T) l.
Lemma names_resolve : all_resolve (yardstick ++ base_registry)%list (all_names base_definitions base_registry) = true.
Proof. vm_compute. reflexivity. Qed.

#[local] Opaque yardstick base_definitions base_registry start_registry.
Lemma names_known E types l : all_resolve types l = true -> (forall k, assoc k (e_reg E) = assoc k types) -> e_special E = [] ->
  registered_names E pallet (fun t => In t l).
Proof.
  intros H R S0 t m spec T P. unfold all_resolve in H. cbv zeta in H. assert (Q := proj1 (forallb_forall _ _) H t T). unfold resolves in Q.
  destruct (pallet_like m P) as (p & Ip & MT). assert (V := proj1 (forallb_forall _ _) Q p Ip). cbv beta in V.
  rewrite (class_same _ (plain_env types) (fun k => tfind_build k types) eq_refl 0 (String.length t) p t) in V. fold (GetCodecClass (plain_env types) p t 0) in V.
  rewrite <- (get_same E (plain_env types) m p R S0 eq_refl MT t spec 0) in V. destruct (GetCodecClass E m t spec) as [[[cd sub]|]|e|]; try discriminate V.
  exists cd, sub. split; [reflexivity|]. intros t' I. exact (names_trie_in _ _ (proj1 (forallb_forall _ _) V t' I)).
Qed.
Lemma assoc_either a b k : assoc k (a ++ b)%list = either a b k.
Proof. unfold either. induction a as [|[x c] a IH]; [reflexivity|]. cbn [app assoc]. destruct (String.eqb k x); [reflexivity|exact IH]. Qed.
Lemma shipped_in defs builtin t : (exists k, ((In k (map fst defs) /\ ~ In k broken) \/ (In k (map fst builtin) /\ ~ In k bare)) /\ In t (wrapped k)) -> In t (all_names defs builtin).
Proof.
  intros (k & U & W). unfold all_names. destruct U as [[U N]|[U N]].
  - apply in_or_app. left. apply in_flat_map. exists k. split; [now apply in_without|exact W].
  - apply in_or_app. right. apply in_or_app. left. apply in_flat_map. exists k. split; [now apply in_without|exact W].
Qed.
Lemma fine_mono (A B Pallet : string -> Prop) c : (forall t, A t -> B t) -> fine A Pallet c -> fine B Pallet c.
Proof.
  intros AB [F M]. split; [exact F|]. destruct (x_meta c) as [md|]; [|exact I]. intros i cm H. destruct (M i cm H) as [P Q]. split; [exact P|]. intros n t K. apply AB. exact (Q n t K).
Qed.

(** A process that has loaded the shipped definitions, in any order. *)
Definition fresh_process (E : env) : Prop :=
  exists o1 o2 r, visiting_order o1 /\ visiting_order o2 /\ start_registry o1 o2 = Ok r /\ e_reg E = r_types r /\ e_special E = r_special r.
Lemma fresh_types E : fresh_process E -> (forall k, assoc k (e_reg E) = assoc k (yardstick ++ base_registry)%list) /\ e_special E = [].
Proof.
  intros (o1 & o2 & r & A & B & R & T & S0). destruct (started o1 o2 A B) as (r' & R1 & R2 & _ & R4). rewrite R in R1. injection R1 as <-. rewrite T, S0. split; [|exact R2].
  intros k. rewrite assoc_either. exact (R4 k).
Qed.

(** No shipped type but the broken ones ever ends a decode with an unknown type,
    whatever the bytes. *)
Theorem C72_shipped_partial E : fresh_process E ->
  forall fuel c data off t, shipped_context c -> shipped t -> ~ reports_unknown (decode fuel E c data off t).
Proof.
  intros F fuel c data off t C T. destruct (fresh_types E F) as [R S0].
  assert (K := names_known E _ _ names_resolve R S0).
  apply (C72_known E pallet _ (conj (fun H => eq_ind "" (fun s => match s with EmptyString => True | _ => False end) I _ H) (fun H => eq_ind "" (fun s => match s with EmptyString => True | _ => False end) I _ H)) K).
  - apply (fine_mono shipped); [|exact C]. intros t'. exact (shipped_in base_definitions base_registry t').
  - exact (shipped_in base_definitions base_registry t T).
Qed.

(** ** The other definitions *)
Lemma run_ext rec rec' start p : (forall c data off t, rec c data off t = rec' c data off t) ->
  forall data off calls, run rec start p data off calls = run rec' start p data off calls.
Proof.
  intros REC. induction p as [v|m|n k IH|c ts k IH|b c keep ts k IH|k IH|k IH]; intros data off calls; cbn [run]; try reflexivity.
  - destruct (next_bytes data off (i64 n)) as [[d o]| |]; cbn [bind]; [apply IH|reflexivity..].
  - rewrite REC. destruct (rec' c data off ts) as [[[v o] cs]| |]; cbn [bind]; [apply IH|reflexivity..].
  - rewrite REC. destruct (rec' c b 0 ts) as [[[v o] cs]| |]; cbn [bind]; [apply IH|reflexivity..].
  - apply IH.
  - destruct (slice data start off); cbn [bind]; [apply IH|reflexivity..].
Qed.
Lemma decode_same types E : (forall k, assoc k (e_reg E) = assoc k types) -> e_special E = [] ->
  forall fuel c data off t, decode fuel E c data off t = decode fuel (Env types [] (e_json E) (e_keccak E) (e_box E)) c data off t.
Proof.
  intros R S0. induction fuel as [|f IH]; intros c data off t; [reflexivity|]. cbn [decode].
  rewrite (get_same E (Env types [] (e_json E) (e_keccak E) (e_box E)) (x_module c) (x_module c) R S0 eq_refl (fun _ => eq_refl) t (x_spec c) (x_spec c)).
  destruct (GetCodecClass (Env types [] (e_json E) (e_keccak E) (e_box E)) (x_module c) t (x_spec c)) as [[[cd sub]|]| |]; cbn [bind]; try reflexivity.
  change (process (Env types [] (e_json E) (e_keccak E) (e_box E)) c (init_sub cd sub)) with (process E c (init_sub cd sub)). apply run_ext. exact IH.
Qed.

(** For each of them an input that needs the missing name. *)
Definition blank : list Z := repeat 0 605%nat.
Definition witness (k : string) : list Z :=
  if inb k ["BlockTrace"] then [0; 0; 0; 0; 0; 4]
  else if inb k ["TraceBlockResponse"] then [1; 0; 0; 0; 0; 0; 4]
  else if inb k ["ResponseV2"] then [2]
  else if inb k ["InstructionV2"] then [3; 0; 2]
  else if inb k ["XcmV2"] then [4; 3; 0; 2]
  else if inb k ["VersionedXcm"; "xcm::VersionedXcm"] then [2; 4; 3; 0; 2]
  else if inb k ["RelayTo"; "RelayedFrom"] then [0; 0; 2; 4; 3; 0; 2]
  else if inb k ["VersionedResponse"] then [0; 0; 0; 0; 2]
  else if inb k ["QueryStatus"] then [1; 0; 0; 0; 0; 2]
  else if inb k ["InstructionV3"] then [31; 1]
  else if inb k ["XcmV3"] then [4; 31; 1]
  else if inb k ["EthSubResult"] then 0 :: blank
  else if inb k ["BlockV0"; "BlockV1"; "BlockV2"; "EthBlock"; "EthHeader"; "EthRichBlock"; "EthRichHeader"; "ethereum::Block"; "ethereum::Header"] then blank
  else [].
Definition as_bytes (l : list Z) : bytes := map (fun z => ascii_of_nat (Z.to_nat z)) l.
Definition unknown_in (o : outcome) : bool := match o with Panic m => unknown_type m | _ => false end.
Definition witnessed (E : env) : bool :=
  forallb (fun k => unknown_in (decode 20 E (Ctx 0 "" None) (as_bytes (witness k)) 0 k)) broken &&
  unknown_in (decode 20 E (Ctx 0 "BridgeMultisig" None) [] 0 "Timepoint").
Lemma all_witnessed j k b : witnessed (Env (yardstick ++ base_registry)%list [] j k b) = true.
Proof. vm_compute. reflexivity. Qed.
Lemma unknown_in_iff o : unknown_in o = true -> reports_unknown o.
Proof. destruct o as [x|m|]; intros H; try discriminate. exists m. split; [reflexivity|exact H]. Qed.
Lemma broken_shipped : forallb (fun k => inb k (map fst base_definitions)) ("Timepoint" :: broken) = true.
Proof. vm_compute. reflexivity. Qed.

(** Each of the 29 definitions, though shipped, has an input that ends in
    "Not found decoder class"; and Timepoint does in the pallet BridgeMultisig. *)
Theorem C72_unknown_refuted E : fresh_process E ->
  (forall k, In k broken -> In k (map fst base_definitions) /\ exists fuel data, reports_unknown (decode fuel E (Ctx 0 "" None) data 0 k)) /\
  In "Timepoint" (map fst base_definitions) /\ exists fuel data, reports_unknown (decode fuel E (Ctx 0 "BridgeMultisig" None) data 0 "Timepoint").
Proof.
  intros F. destruct (fresh_types E F) as [R S0]. assert (D := decode_same _ E R S0). assert (W := all_witnessed (e_json E) (e_keccak E) (e_box E)).
  unfold witnessed in W. apply andb_prop in W. destruct W as [W1 W2]. split; [|split].
  - intros k I. split; [exact (proj1 (inb_in _ _) (proj1 (forallb_forall _ _) broken_shipped k (or_intror I)))|].
    exists 20%nat, (as_bytes (witness k)). rewrite D. apply unknown_in_iff. exact (proj1 (forallb_forall _ _) W1 k I).
  - exact (proj1 (inb_in _ _) (proj1 (forallb_forall _ _) broken_shipped "Timepoint" (or_introl eq_refl))).
  - exists 20%nat, []. rewrite D. apply unknown_in_iff. exact W2.
Qed.

(** ** Non-vacuity *)
(** There is a fresh process. *)
Example a_fresh_process : exists E, fresh_process E.
Proof.
  destruct (started file_order file_order (Permutation_refl _) (Permutation_refl _)) as (r & R & _). exists (reg_env r), file_order, file_order, r.
  split; [exact (Permutation_refl _)|]. split; [exact (Permutation_refl _)|]. split; [exact R|]. split; reflexivity.
Qed.
(** Types of the shipped definitions the theorem speaks about. *)
Definition usable_in (k : string) : bool := inb k (map fst base_definitions) && negb (inb k broken).
Lemma usable_check k : usable_in k = true -> usable k.
Proof.
  intros H. unfold usable_in in H. apply andb_prop in H. destruct H as [A B]. left. split; [exact (proj1 (inb_in _ _) A)|]. intros I. apply inb_in in I. rewrite I in B. discriminate B.
Qed.
Lemma sample_usable : forallb usable_in ["AccountInfo"; "Digest"; "ValidatorPrefs"; "XcmV1"; "Timepoint"] = true.
Proof. vm_compute. reflexivity. Qed.
Example shipped_samples : shipped "AccountInfo" /\ shipped "Vec<XcmV1>" /\ shipped "Option<Timepoint>" /\
  shipped_context (Ctx 0 "System" (Some [("0400", CallMod "System" "remark" [("who", "Vec<ValidatorPrefs>"); ("digest", "Digest")])])).
Proof.
  assert (U : forall k, In k ["AccountInfo"; "Digest"; "ValidatorPrefs"; "XcmV1"; "Timepoint"] -> usable k).
  { intros k I. exact (usable_check k (proj1 (forallb_forall _ _) sample_usable k I)). }
  assert (W : forall k t, In k ["AccountInfo"; "Digest"; "ValidatorPrefs"; "XcmV1"; "Timepoint"] -> In t (wrapped k) -> shipped t) by (intros k t I J; exists k; split; [exact (U k I)|exact J]).
  split; [apply (W "AccountInfo"); cbn; tauto|]. split; [apply (W "XcmV1"); cbn; tauto|]. split; [apply (W "Timepoint"); cbn; tauto|].
  split; [split; discriminate|]. cbn [x_meta]. intros i cm H. cbn [assoc] in H. destruct (String.eqb i "0400"); [|discriminate]. injection H as <-. split; [split; discriminate|].
  intros n t I. cbn [cm_args In] in I. destruct I as [I|[I|[]]]; injection I as <- <-; [apply (W "ValidatorPrefs")|apply (W "Digest")]; cbn; tauto.
Qed.

Print Assumptions C72_known.
Print Assumptions C72_shipped_partial.
Print Assumptions C72_unknown_refuted.
