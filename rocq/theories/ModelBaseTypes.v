(** The type definitions shipped with the library and how they are loaded:
    source/base.go (the constant BaseType), source/source.go:18-46
    (LoadTypeRegistry) and types/registry.go:54-190 (regBaseType). *)

From Verif Require Import GoBase ModelTools ModelVal ModelRegistry ModelDecode ModelRegister.

(** source/source.go:28-29: a definition that is a text. *)
Definition alias (s : string) : tstruct := TStruct "string" s [] [] 0 false 0.

(** source/source.go:38-43, one round of the loop.  Go reads the value at the
    moment the key is visited, so an alias of an alias already visited takes
    over what that one became. *)
Definition inherit_step (k : string) (ts : list (string * tstruct)) : list (string * tstruct) :=
  match assoc k ts with
  | Some v =>
      if String.eqb (t_type v) "string" then
        match assoc (t_string v) ts with
        | Some x => map_set k x ts
        | None => ts
        end
      else ts
  | None => ts
  end.
(** source/source.go:18-46 after the JSON text has been read into [ts];
    [order] is the order in which Go visits the keys of the map. *)
Definition LoadTypeRegistry (order : list string) (ts : list (string * tstruct)) : list (string * tstruct) :=
  fold_left (fun m k => inherit_step k m) order ts.

(** The entries of a map as Go visits them in RegCustomTypes
    (types/customType.go:24-25). *)
Definition entries (order : list string) (ts : list (string * tstruct)) : list (string * tstruct) :=
  flat_map (fun k => match assoc k ts with Some t => [(k, t)] | None => [] end) order.

(** types/registry.go:190 on definitions [defs]: [o1] and [o2] are the orders
    in which the two loops visit the map.  The fuel only matters for types
    taken from V14 metadata, of which there are none here. *)
Definition load_definitions (defs : list (string * tstruct)) (o1 o2 : list string) (r : reg) : res reg :=
  let ts := LoadTypeRegistry o1 defs in reg_loop 0 ts (entries o2 ts) r.

(** ** source/base.go: the constant BaseType, entry by entry in the order of the
    file (encoding/json keeps the last of several equal keys; there are
    none).  Fields absent from an entry have Go's zero value. *)
Definition base_definitions : list (string * tstruct) :=
  [("&[u8]", alias "Bytes");
   ("(AccountId, Balance)", TStruct "struct" "" [["account"; "AccountId"]; ["balance"; "Balance"]] [] 0 false 0);
   ("(BalanceOf<T, I>, BidKind<AccountId, BalanceOf<T, I>>)", TStruct "struct" "" [["balance"; "Balance"]; ["bidkind"; "BidKind"]] [] 0 false 0);
   ("(BoundedVec<ProxyDefinition<AccountId,ProxyType,BlockNumber>,MaxProxies>,BalanceOf)", alias "(Vec<ProxyDefinition>,BalanceOf)");
   ("<AuthorityId as RuntimeAppPublic>::Signature", alias "Signature");
   ("<T as Config>::Call", alias "Call");
   ("AbridgedCandidateReceipt", TStruct "struct" "" [["parachainIndex"; "ParaId"]; ["relayParent"; "Hash"]; ["headData"; "HeadData"]; ["collator"; "CollatorId"]; ["signature"; "CollatorSignature"]; ["povBlockHash"; "Hash"]; ["commitments"; "CandidateCommitments"]] [] 0 false 0);
   ("AbridgedHostConfiguration", TStruct "struct" "" [["maxCodeSize"; "u32"]; ["maxHeadDataSize"; "u32"]; ["maxUpwardQueueCount"; "u32"]; ["maxUpwardQueueSize"; "u32"]; ["maxUpwardMessageSize"; "u32"]; ["maxUpwardMessageNumPerCandidate"; "u32"]; ["hrmpMaxMessageNumPerCandidate"; "u32"]; ["validationUpgradeFrequency"; "BlockNumber"]; ["validationUpgradeDelay"; "BlockNumber"]] [] 0 false 0);
   ("AbridgedHrmpChannel", TStruct "struct" "" [["maxCapacity"; "u32"]; ["maxTotalSize"; "u32"]; ["maxMessageSize"; "u32"]; ["msgCount"; "u32"]; ["totalSize"; "u32"]; ["mqcHead"; "Option<Hash>"]] [] 0 false 0);
   ("AbstractFungible", TStruct "struct" "" [["id"; "Vec<u8>"]; ["instance"; "Compact<u128>"]] [] 0 false 0);
   ("AbstractNonFungible", TStruct "struct" "" [["class"; "Vec<u8>"]; ["instance"; "AssetInstance"]] [] 0 false 0);
   ("AccountData", TStruct "struct" "" [["free"; "Balance"]; ["reserved"; "Balance"]; ["miscFrozen"; "Balance"]; ["feeFrozen"; "Balance"]] [] 0 false 0);
   ("AccountId32", alias "[u8; 32]");
   ("AccountIndex", alias "U32");
   ("AccountInfo", TStruct "struct" "" [["nonce"; "Index"]; ["refcount"; "RefCount"]; ["data"; "AccountData"]] [] 0 false 0);
   ("AccountInfoWithProviders", TStruct "struct" "" [["nonce"; "Index"]; ["consumers"; "RefCount"]; ["providers"; "RefCount"]; ["data"; "AccountData"]] [] 0 false 0);
   ("AccountInfoWithTripleRefCount", TStruct "struct" "" [["nonce"; "Index"]; ["consumers"; "RefCount"]; ["providers"; "RefCount"]; ["sufficients"; "RefCount"]; ["data"; "AccountData"]] [] 0 false 0);
   ("AccountStatus", TStruct "struct" "" [["validity"; "AccountValidity"]; ["freeBalance"; "Balance"]; ["lockedBalance"; "Balance"]; ["signature"; "Vec<u8>"]; ["vat"; "Permill"]] [] 0 false 0);
   ("AccountValidity", TStruct "enum" "" [] ["Invalid"; "Initiated"; "Pending"; "ValidLow"; "ValidHigh"; "Completed"] 0 false 0);
   ("AccountVote", TStruct "enum" "" [["Standard"; "AccountVoteStandard"]; ["Split"; "AccountVoteSplit"]] [] 0 false 0);
   ("AccountVoteSplit", TStruct "struct" "" [["aye"; "Balance"]; ["nay"; "Balance"]] [] 0 false 0);
   ("AccountVoteStandard", TStruct "struct" "" [["vote"; "Vote"]; ["balance"; "Balance"]] [] 0 false 0);
   ("ActiveEraInfo", TStruct "struct" "" [["index"; "EraIndex"]; ["start"; "MomentOf"]] [] 0 false 0);
   ("ActiveGilt", TStruct "struct" "" [["proportion"; "Perquintill"]; ["amount"; "Balance"]; ["who"; "AccountId"]; ["expiry"; "BlockNumber"]] [] 0 false 0);
   ("ActiveGiltsTotal", TStruct "struct" "" [["frozen"; "Balance"]; ["proportion"; "Perquintill"]; ["index"; "ActiveIndex"]; ["target"; "Perquintill"]] [] 0 false 0);
   ("ActiveIndex", alias "u32");
   ("ActiveRecovery", TStruct "struct" "" [["created"; "BlockNumber"]; ["deposit"; "Balance"]; ["friends"; "Vec<AccountId>"]] [] 0 false 0);
   ("AliveContractInfo", TStruct "struct" "" [["trieId"; "TrieId"]; ["storageSize"; "u32"]; ["codeHash"; "CodeHash"]; ["rentAllowance"; "Balance"]; ["rentPaid"; "Balance"]; ["deductBlock"; "BlockNumber"]; ["lastWrite"; "Option<BlockNumber>"]] [] 0 false 0);
   ("AllowedSlots", TStruct "enum" "" [] ["PrimarySlots"; "PrimaryAndSecondaryPlainSlots"; "PrimaryAndSecondaryVRFSlots"] 0 false 0);
   ("Announcement", alias "ProxyAnnouncement");
   ("AnySignature", alias "H512");
   ("ApiId", alias "[u8; 8]");
   ("Approvals", alias "[bool; 4]");
   ("ArithmeticError", TStruct "enum" "" [] ["Underflow"; "Overflow"; "DivisionByZero"] 0 false 0);
   ("AssetApproval", TStruct "struct" "" [["amount"; "TAssetBalance"]; ["deposit"; "TAssetDepositBalance"]] [] 0 false 0);
   ("AssetApprovalKey", TStruct "struct" "" [["owner"; "AccountId"]; ["delegate"; "AccountId"]] [] 0 false 0);
   ("AssetBalance", TStruct "struct" "" [["balance"; "TAssetBalance"]; ["isFrozen"; "bool"]; ["isSufficient"; "bool"]] [] 0 false 0);
   ("AssetDestroyWitness", TStruct "struct" "" [["accounts"; "Compact<u32>"]; ["sufficients"; "Compact<u32>"]; ["approvals"; "Compact<u32>"]] [] 0 false 0);
   ("AssetDetails", TStruct "struct" "" [["owner"; "AccountId"]; ["issuer"; "AccountId"]; ["admin"; "AccountId"]; ["freezer"; "AccountId"]; ["supply"; "TAssetBalance"]; ["deposit"; "TAssetDepositBalance"]; ["minBalance"; "TAssetBalance"]; ["isSufficient"; "bool"]; ["accounts"; "u32"]; ["sufficients"; "u32"]; ["approvals"; "u32"]; ["isFrozen"; "bool"]] [] 0 false 0);
   ("AssetId", alias "u32");
   ("AssetInstance", alias "AssetInstanceV1");
   ("AssetInstanceV0", TStruct "enum" "" [["Undefined"; "Null"]; ["Index8"; "u8"]; ["Index16"; "Compact<u16>"]; ["Index32"; "Compact<u32>"]; ["Index64"; "Compact<u64>"]; ["Index128"; "Compact<u128>"]; ["Array4"; "[u8; 4]"]; ["Array8"; "[u8; 8]"]; ["Array16"; "[u8; 16]"]; ["Array32"; "[u8; 32]"]; ["Blob"; "Vec<u8>"]] [] 0 false 0);
   ("AssetInstanceV1", TStruct "enum" "" [["Undefined"; "Null"]; ["Index"; "Compact<u128>"]; ["Array4"; "[u8; 4]"]; ["Array8"; "[u8; 8]"]; ["Array16"; "[u8; 16]"]; ["Array32"; "[u8; 32]"]; ["Blob"; "Bytes"]] [] 0 false 0);
   ("AssetInstanceV2", alias "AssetInstanceV1");
   ("AssetInstanceV3", TStruct "enum" "" [["Undefined"; "NULL"]; ["Index"; "Compact<u128>"]; ["Array4"; "[u8; 4]"]; ["Array8"; "[u8; 8]"]; ["Array16"; "[u8; 16]"]; ["Array32"; "[u8; 32]"]] [] 0 false 0);
   ("AssetMetadata", TStruct "struct" "" [["deposit"; "TAssetDepositBalance"]; ["name"; "Vec<u8>"]; ["symbol"; "Vec<u8>"]; ["decimals"; "u8"]; ["isFrozen"; "bool"]] [] 0 false 0);
   ("AssetOptions", TStruct "struct" "" [["initalIssuance"; "Compact<Balance>"]; ["permissions"; "PermissionLatest"]] [] 0 false 0);
   ("AssignmentId", alias "AccountId");
   ("AssignmentKind", TStruct "enum" "" [["Parachain"; "Null"]; ["Parathread"; "(CollatorId, u32)"]] [] 0 false 0);
   ("AttestedCandidate", TStruct "struct" "" [["candidate"; "AbridgedCandidateReceipt"]; ["validityVotes"; "Vec<ValidityAttestation>"]; ["validatorIndices"; "BitVec"]] [] 0 false 0);
   ("AuctionIndex", alias "u32");
   ("AuthIndex", alias "U32");
   ("AuthorityDiscoveryId", alias "AccountId");
   ("AuthorityId", alias "H256");
   ("AuthorityIndex", alias "u64");
   ("AuthorityList", alias "Vec<NextAuthority>");
   ("AuthoritySet", TStruct "struct" "" [["currentAuthorities"; "AuthorityList"]; ["setId"; "u64"]; ["pendingStandardChanges"; "ForkTreePendingChange"]; ["pendingForcedChanges"; "Vec<PendingChange>"]; ["authoritySetChanges"; "AuthoritySetChanges"]] [] 0 false 0);
   ("AuthoritySetChange", alias "(U64, BlockNumber)");
   ("AuthoritySetChanges", alias "Vec<AuthoritySetChange>");
   ("AuthoritySignature", alias "Signature");
   ("AuthorityWeight", alias "u64");
   ("AvailabilityBitfield", alias "BitVec");
   ("AvailabilityBitfieldRecord", TStruct "struct" "" [["bitfield"; "AvailabilityBitfield"]; ["submittedTt"; "BlockNumber"]] [] 0 false 0);
   ("BabeAuthorityWeight", alias "u64");
   ("BabeBlockWeight", alias "u32");
   ("BabeEpochConfiguration", TStruct "struct" "" [["c"; "(u64,u64)"]; ["allowedSlots"; "AllowedSlots"]] [] 0 false 0);
   ("BabeEquivocationProof", TStruct "struct" "" [["offender"; "AuthorityId"]; ["slotNumber"; "SlotNumber"]; ["firstHeader"; "Header"]; ["secondHeader"; "Header"]] [] 0 false 0);
   ("BabeWeight", alias "u64");
   ("BackedCandidate", TStruct "struct" "" [["candidate"; "CommittedCandidateReceipt"]; ["validityVotes"; "Vec<ValidityAttestation>"]; ["validatorIndices"; "BitVec"]] [] 0 false 0);
   ("BalanceLock", TStruct "struct" "" [["id"; "LockIdentifier"]; ["amount"; "Balance"]; ["until"; "u32"]; ["reasons"; "WithdrawReasons"]] [] 0 false 0);
   ("BalanceLock<Balance, BlockNumber>", TStruct "struct" "" [["id"; "LockIdentifier"]; ["amount"; "Balance"]; ["reasons"; "Reasons"]] [] 0 false 0);
   ("BalanceLock<Balance>", TStruct "struct" "" [["id"; "LockIdentifier"]; ["amount"; "Balance"]; ["reasons"; "Reasons"]] [] 0 false 0);
   ("BalanceOf", alias "Balance");
   ("BalanceStatus", TStruct "enum" "" [] ["Free"; "Reserved"] 0 false 0);
   ("BalanceUpload", TStruct "struct" "" [["col1"; "AccountId"]; ["col2"; "u64"]] [] 0 false 0);
   ("Balances", TStruct "struct" "" [["queryId"; "Compact<u64>"]; ["assets"; "Vec<MultiAsset>"]] [] 0 false 0);
   ("BeefyCommitment", TStruct "struct" "" [["payload"; "BeefyPayload"]; ["blockNumber"; "BlockNumber"]; ["validatorSetId"; "ValidatorSetId"]] [] 0 false 0);
   ("BeefyId", alias "[u8; 33]");
   ("BeefyKey", alias "[u8; 33]");
   ("BeefyNextAuthoritySet", TStruct "struct" "" [["id"; "u64"]; ["len"; "u32"]; ["root"; "H256"]] [] 0 false 0);
   ("BeefyPayload", alias "MmrRootHash");
   ("BeefySignedCommitment", TStruct "struct" "" [["commitment"; "BeefyCommitment"]; ["signatures"; "Vec<Option<Signature>>"]] [] 0 false 0);
   ("Bid", TStruct "struct" "" [["who"; "AccountId"]; ["kind"; "BidKind"]; ["value"; "Balance"]] [] 0 false 0);
   ("BidKind", TStruct "enum" "" [["Deposit"; "Balance"]; ["Vouch"; "BidKindVouch"]] [] 0 false 0);
   ("BidKindVouch", TStruct "struct" "" [["account"; "AccountId"]; ["amount"; "Balance"]] [] 0 false 0);
   ("Bidder", TStruct "enum" "" [["New"; "NewBidder"]; ["Existing"; "ParaId"]] [] 0 false 0);
   ("BlockAttestations", TStruct "struct" "" [["receipt"; "CandidateReceipt"]; ["valid"; "Vec<AccountId>"]; ["invalid"; "Vec<AccountId>"]] [] 0 false 0);
   ("BlockLength", TStruct "struct" "" [["max"; "PerDispatchClassU32"]] [] 0 false 0);
   ("BlockNumberFor", alias "BlockNumber");
   ("BlockNumberOf", alias "BlockNumber");
   ("BlockTrace", TStruct "struct" "" [["blockHash"; "Text"]; ["parentHash"; "Text"]; ["tracingTargets"; "Text"]; ["storageKeys"; "Text"]; ["spans"; "Vec<BlockTraceSpan>"]; ["events"; "Vec<BlockTraceEvent>"]] [] 0 false 0);
   ("BlockTraceEvent", TStruct "struct" "" [["target"; "Text"]; ["data"; "BlockTraceEventData"]; ["parentId"; "Option<u64>"]] [] 0 false 0);
   ("BlockTraceEventData", TStruct "struct" "" [["stringValues"; "HashMap<Text, Text>"]] [] 0 false 0);
   ("BlockTraceSpan", TStruct "struct" "" [["id"; "u64"]; ["parentId"; "Option<u64>"]; ["name"; "Text"]; ["target"; "Text"]; ["wasm"; "bool"]] [] 0 false 0);
   ("BlockTransactions", TStruct "enum" "" [["Hashes"; "Vec<H256>"]; ["Full"; "Vec<ethereum::Transaction>"]] [] 0 false 0);
   ("BlockV0", TStruct "struct" "" [["header"; "EthHeader"]; ["transactions"; "Vec<TransactionV0>"]; ["ommers"; "Vec<EthHeader>"]] [] 0 false 0);
   ("BlockV1", TStruct "struct" "" [["header"; "EthHeader"]; ["transactions"; "Vec<TransactionV1>"]; ["ommers"; "Vec<EthHeader>"]] [] 0 false 0);
   ("BlockV2", TStruct "struct" "" [["header"; "EthHeader"]; ["transactions"; "Vec<TransactionV2>"]; ["ommers"; "Vec<EthHeader>"]] [] 0 false 0);
   ("BlockWeights", TStruct "struct" "" [["baseBlock"; "Weight"]; ["maxBlock"; "Weight"]; ["perClass"; "PerDispatchClass"]] [] 0 false 0);
   ("BodyId", TStruct "enum" "" [["Unit"; "Null"]; ["Named"; "Vec<u8>"]; ["Index"; "Compact<u32>"]; ["Executive"; "Null"]; ["Technical"; "Null"]; ["Legislative"; "Null"]; ["Judicial"; "Null"]; ["Defense"; "Null"]; ["Administration"; "Null"]; ["Treasury"; "Null"]] [] 0 false 0);
   ("BodyPart", TStruct "enum" "" [["Voice"; "Null"]; ["Members"; "Compact<u32>"]; ["Fraction"; "[[""nom"", ""Compact<u32>""], [""denom"", ""Compact<u32>""]]"]; ["AtLeastProportion"; "[[""nom"", ""Compact<u32>""], [""denom"", ""Compact<u32>""]]"]; ["MoreThanProportion"; "[[""nom"", ""Compact<u32>""], [""denom"", ""Compact<u32>""]]"]] [] 0 false 0);
   ("Bounty", TStruct "struct" "" [["proposer"; "AccountId"]; ["value"; "Balance"]; ["fee"; "Balance"]; ["curator_deposit"; "Balance"]; ["bond"; "Balance"]; ["status"; "BountyStatus"]] [] 0 false 0);
   ("BountyIndex", alias "u32");
   ("BountyStatus", TStruct "enum" "" [["Proposed"; "Null"]; ["Approved"; "Null"]; ["Funded"; "Null"]; ["CuratorProposed"; "BountyStatusCuratorProposed"]; ["Active"; "BountyStatusActive"]; ["PendingPayout"; "BountyStatusPendingPayout"]] [] 0 false 0);
   ("BountyStatusActive", TStruct "struct" "" [["curator"; "AccountId"]; ["update_due"; "BlockNumber"]] [] 0 false 0);
   ("BountyStatusCuratorProposed", TStruct "struct" "" [["curator"; "AccountId"]] [] 0 false 0);
   ("BountyStatusPendingPayout", TStruct "struct" "" [["curator"; "AccountId"]; ["beneficiary"; "AccountId"]; ["unlockAt"; "BlockNumber"]] [] 0 false 0);
   ("Box<<T as Config<I>>::Proposal>", alias "Proposal");
   ("Box<<T as Config>::Call>", alias "Call");
   ("Box<<T as Trait<I>>::Proposal>", alias "BoxProposal");
   ("Box<Call>", alias "BoxProposal");
   ("Box<Proposal>", alias "BoxProposal");
   ("BridgeMessageId", alias "(LaneId, MessageNonce)");
   ("BridgedBlockHash", alias "H256");
   ("BridgedBlockNumber", alias "BlockNumber");
   ("BridgedHeader", alias "Header");
   ("BufferedSessionChange", TStruct "struct" "" [["applyAt"; "BlockNumber"]; ["validators"; "Vec<ValidatorId>"]; ["queued"; "Vec<ValidatorId>"]; ["sessionIndex"; "SessionIndex"]] [] 0 false 0);
   ("ByForkV3", TStruct "struct" "" [["block_number"; "u64"]; ["block_hash"; "[u8; 32]"]] [] 0 false 0);
   ("CallHash", alias "H256");
   ("CallHashOf", alias "H256");
   ("CallIndex", alias "(u8, u8)");
   ("CallOrigin", TStruct "enum" "" [["SourceRoot"; "Null"]; ["TargetAccount"; "(AccountId, MultiSigner, MultiSignature)"]; ["SourceAccount"; "AccountId"]] [] 0 false 0);
   ("CandidateCommitments", TStruct "struct" "" [["upwardMessages"; "Vec<UpwardMessage>"]; ["horizontalMessages"; "Vec<OutboundHrmpMessage>"]; ["newValidationCode"; "Option<ValidationCode>"]; ["headData"; "HeadData"]; ["processedDownwardMessages"; "u32"]; ["hrmpWatermark"; "BlockNumber"]] [] 0 false 0);
   ("CandidateDescriptor", TStruct "struct" "" [["paraId"; "ParaId"]; ["relayParent"; "RelayChainHash"]; ["collatorId"; "CollatorId"]; ["persistedValidationDataHash"; "Hash"]; ["povHash"; "Hash"]; ["erasureRoot"; "Hash"]; ["signature"; "CollatorSignature"]; ["paraHead"; "Hash"]; ["validationCodeHash"; "Hash"]] [] 0 false 0);
   ("CandidateHash", alias "Hash");
   ("CandidatePendingAvailability", TStruct "struct" "" [["core"; "CoreIndex"]; ["hash"; "CandidateHash"]; ["descriptor"; "CandidateDescriptor"]; ["availabilityoVotes"; "BitVec"]; ["backers"; "BitVec"]; ["relayParentNumber"; "BlockNumber"]; ["backedInNumber"; "BlockNumber"]; ["backingGroup"; "GroupIndex"]] [] 0 false 0);
   ("CandidateReceipt", TStruct "struct" "" [["descriptor"; "CandidateDescriptor"]; ["commitmentsHash"; "Hash"]] [] 0 false 0);
   ("ChainId", alias "[u8; 4]");
   ("ChangesTrieConfiguration", TStruct "struct" "" [["digestInterval"; "u32"]; ["digestLevels"; "u32"]] [] 0 false 0);
   ("ChangesTrieSignal", TStruct "enum" "" [["NewConfiguration"; "Option<ChangesTrieConfiguration>"]] [] 0 false 0);
   ("ClassDetails", TStruct "struct" "" [["owner"; "AccountId"]; ["issuer"; "AccountId"]; ["admin"; "AccountId"]; ["freezer"; "AccountId"]; ["totalDeposit"; "DepositBalance"]; ["freeHolding"; "bool"]; ["instances"; "u32"]; ["instanceMetadatas"; "u32"]; ["attributes"; "u32"]; ["isFrozen"; "bool"]] [] 0 false 0);
   ("ClassId", alias "u32");
   ("ClassMetadata", TStruct "struct" "" [["deposit"; "DepositBalance"]; ["data"; "Vec<u8>"]; ["isFrozen"; "bool"]] [] 0 false 0);
   ("CodeHash", alias "Hash");
   ("CollatorId", alias "H256");
   ("CollatorSignature", alias "Signature");
   ("CollectiveOrigin", TStruct "enum" "" [["Members"; "(MemberCount, MemberCount)"]; ["Member"; "AccountId"]] [] 0 false 0);
   ("CommittedCandidateReceipt", TStruct "struct" "" [["descriptor"; "CandidateDescriptor"]; ["commitments"; "CandidateCommitments"]] [] 0 false 0);
   ("CompactAssignments", TStruct "struct" "" [["votes1"; "Vec<(NominatorIndex, ValidatorIndex)>"]; ["votes2"; "Vec<(NominatorIndex, [CompactScore; 1], ValidatorIndex)>"]; ["votes3"; "Vec<(NominatorIndex, [CompactScore; 2], ValidatorIndex)>"]; ["votes4"; "Vec<(NominatorIndex, [CompactScore; 3], ValidatorIndex)>"]; ["votes5"; "Vec<(NominatorIndex, [CompactScore; 4], ValidatorIndex)>"]; ["votes6"; "Vec<(NominatorIndex, [CompactScore; 5], ValidatorIndex)>"]; ["votes7"; "Vec<(NominatorIndex, [CompactScore; 6], ValidatorIndex)>"]; ["votes8"; "Vec<(NominatorIndex, [CompactScore; 7], ValidatorIndex)>"]; ["votes9"; "Vec<(NominatorIndex, [CompactScore; 8], ValidatorIndex)>"]; ["votes10"; "Vec<(NominatorIndex, [CompactScore; 9], ValidatorIndex)>"]; ["votes11"; "Vec<(NominatorIndex, [CompactScore; 10], ValidatorIndex)>"]; ["votes12"; "Vec<(NominatorIndex, [CompactScore; 11], ValidatorIndex)>"]; ["votes13"; "Vec<(NominatorIndex, [CompactScore; 12], ValidatorIndex)>"]; ["votes14"; "Vec<(NominatorIndex, [CompactScore; 13], ValidatorIndex)>"]; ["votes15"; "Vec<(NominatorIndex, [CompactScore; 14], ValidatorIndex)>"]; ["votes16"; "Vec<(NominatorIndex, [CompactScore; 15], ValidatorIndex)>"]] [] 0 false 0);
   ("CompactAssignmentsLatest", TStruct "struct" "" [["votes1"; "Vec<(NominatorIndexCompact, ValidatorIndexCompact)>"]; ["votes2"; "Vec<(NominatorIndexCompact, CompactScoreCompact, ValidatorIndexCompact)>"]; ["votes3"; "Vec<(NominatorIndexCompact, [CompactScoreCompact; 2], ValidatorIndexCompact)>"]; ["votes4"; "Vec<(NominatorIndexCompact, [CompactScoreCompact; 3], ValidatorIndexCompact)>"]; ["votes5"; "Vec<(NominatorIndexCompact, [CompactScoreCompact; 4], ValidatorIndexCompact)>"]; ["votes6"; "Vec<(NominatorIndexCompact, [CompactScoreCompact; 5], ValidatorIndexCompact)>"]; ["votes7"; "Vec<(NominatorIndexCompact, [CompactScoreCompact; 6], ValidatorIndexCompact)>"]; ["votes8"; "Vec<(NominatorIndexCompact, [CompactScoreCompact; 7], ValidatorIndexCompact)>"]; ["votes9"; "Vec<(NominatorIndexCompact, [CompactScoreCompact; 8], ValidatorIndexCompact)>"]; ["votes10"; "Vec<(NominatorIndexCompact, [CompactScoreCompact; 9], ValidatorIndexCompact)>"]; ["votes11"; "Vec<(NominatorIndexCompact, [CompactScoreCompact; 10], ValidatorIndexCompact)>"]; ["votes12"; "Vec<(NominatorIndexCompact, [CompactScoreCompact; 11], ValidatorIndexCompact)>"]; ["votes13"; "Vec<(NominatorIndexCompact, [CompactScoreCompact; 12], ValidatorIndexCompact)>"]; ["votes14"; "Vec<(NominatorIndexCompact, [CompactScoreCompact; 13], ValidatorIndexCompact)>"]; ["votes15"; "Vec<(NominatorIndexCompact, [CompactScoreCompact; 14], ValidatorIndexCompact)>"]; ["votes16"; "Vec<(NominatorIndexCompact, [CompactScoreCompact; 15], ValidatorIndexCompact)>"]] [] 0 false 0);
   ("CompactAssignmentsVote", TStruct "struct" "" [["accountId1"; "AccountId"]; ["scores"; "Vec<CompactScore>"]; ["accountId2"; "AccountId"]] [] 0 false 0);
   ("CompactAssignmentsWith24", TStruct "struct" "" [["votes1"; "Vec<(NominatorIndexCompact, ValidatorIndexCompact)>"]; ["votes2"; "Vec<(NominatorIndexCompact, CompactScoreCompact, ValidatorIndexCompact)>"]; ["votes3"; "Vec<(NominatorIndexCompact, [CompactScoreCompact; 2], ValidatorIndexCompact)>"]; ["votes4"; "Vec<(NominatorIndexCompact, [CompactScoreCompact; 3], ValidatorIndexCompact)>"]; ["votes5"; "Vec<(NominatorIndexCompact, [CompactScoreCompact; 4], ValidatorIndexCompact)>"]; ["votes6"; "Vec<(NominatorIndexCompact, [CompactScoreCompact; 5], ValidatorIndexCompact)>"]; ["votes7"; "Vec<(NominatorIndexCompact, [CompactScoreCompact; 6], ValidatorIndexCompact)>"]; ["votes8"; "Vec<(NominatorIndexCompact, [CompactScoreCompact; 7], ValidatorIndexCompact)>"]; ["votes9"; "Vec<(NominatorIndexCompact, [CompactScoreCompact; 8], ValidatorIndexCompact)>"]; ["votes10"; "Vec<(NominatorIndexCompact, [CompactScoreCompact; 9], ValidatorIndexCompact)>"]; ["votes11"; "Vec<(NominatorIndexCompact, [CompactScoreCompact; 10], ValidatorIndexCompact)>"]; ["votes12"; "Vec<(NominatorIndexCompact, [CompactScoreCompact; 11], ValidatorIndexCompact)>"]; ["votes13"; "Vec<(NominatorIndexCompact, [CompactScoreCompact; 12], ValidatorIndexCompact)>"]; ["votes14"; "Vec<(NominatorIndexCompact, [CompactScoreCompact; 13], ValidatorIndexCompact)>"]; ["votes15"; "Vec<(NominatorIndexCompact, [CompactScoreCompact; 14], ValidatorIndexCompact)>"]; ["votes16"; "Vec<(NominatorIndexCompact, [CompactScoreCompact; 15], ValidatorIndexCompact)>"]; ["votes17"; "Vec<(NominatorIndexCompact, [CompactScoreCompact; 16], ValidatorIndexCompact)>"]; ["votes18"; "Vec<(NominatorIndexCompact, [CompactScoreCompact; 17], ValidatorIndexCompact)>"]; ["votes19"; "Vec<(NominatorIndexCompact, [CompactScoreCompact; 18], ValidatorIndexCompact)>"]; ["votes20"; "Vec<(NominatorIndexCompact, [CompactScoreCompact; 19], ValidatorIndexCompact)>"]; ["votes21"; "Vec<(NominatorIndexCompact, [CompactScoreCompact; 20], ValidatorIndexCompact)>"]; ["votes22"; "Vec<(NominatorIndexCompact, [CompactScoreCompact; 21], ValidatorIndexCompact)>"]; ["votes23"; "Vec<(NominatorIndexCompact, [CompactScoreCompact; 22], ValidatorIndexCompact)>"]; ["votes24"; "Vec<(NominatorIndexCompact, [CompactScoreCompact; 23], ValidatorIndexCompact)>"]] [] 0 false 0);
   ("CompactScore", TStruct "struct" "" [["validatorIndex"; "ValidatorIndex"]; ["offchainAccuracy"; "OffchainAccuracy"]] [] 0 false 0);
   ("CompactScoreCompact", TStruct "struct" "" [["validatorIndex"; "ValidatorIndexCompact"]; ["offchainAccuracy"; "OffchainAccuracyCompact"]] [] 0 false 0);
   ("ConcreteFungible", TStruct "struct" "" [["id"; "MultiLocation"]; ["amount"; "Compact<u128>"]] [] 0 false 0);
   ("ConcreteNonFungible", TStruct "struct" "" [["class"; "MultiLocation"]; ["instance"; "AssetInstance"]] [] 0 false 0);
   ("ConfigData", TStruct "struct" "" [["maxIndividual"; "Weight"]] [] 0 false 0);
   ("ConsensusEngineId", alias "[u8; 4]");
   ("ConsumedWeight", alias "PerDispatchClass");
   ("ContractCallRequest", TStruct "struct" "" [["origin"; "AccountId"]; ["dest"; "AccountId"]; ["value"; "Balance"]; ["gasLimit"; "u64"]; ["inputData"; "Bytes"]] [] 0 false 0);
   ("ContractExecResult", TStruct "enum" "" [["Success"; "ContractExecResultSuccess"]; ["Error"; "Null"]] [] 0 false 0);
   ("ContractExecResultSuccess", TStruct "struct" "" [["flags"; "u32"]; ["data"; "Bytes"]; ["gasConsumed"; "u64"]] [] 0 false 0);
   ("ContractExecResultSuccessTo255", TStruct "struct" "" [["status"; "u8"]; ["data"; "Raw"]] [] 0 false 0);
   ("ContractExecResultTo255", TStruct "enum" "" [["Success"; "ContractExecResultSuccessTo255"]; ["Error"; "Null"]; ["gasConsumed"; "u64"]] [] 0 false 0);
   ("ContractInfo", TStruct "enum" "" [["Alive"; "AliveContractInfo"]; ["Tombstone"; "TombstoneContractInfo"]] [] 0 false 0);
   ("ContractInstantiateResult", TStruct "enum" "" [["Ok"; "InstantiateReturnValue"]; ["Err"; "Null"]] [] 0 false 0);
   ("ContractProject", TStruct "struct" "" [["metadataVersion"; "Text"]; ["source"; "ContractProjectSource"]; ["contract"; "ContractProjectContract"]; ["types"; "Vec<SiType>"]; ["spec"; "ContractContractSpec"]] [] 0 false 0);
   ("ContractProjectContract", TStruct "struct" "" [["name"; "Text"]; ["version"; "Text"]; ["authors"; "Vec<Text>"]; ["description"; "Option<Text>"]; ["documentation"; "Option<Text>"]; ["repository"; "Option<Text>"]; ["homepage"; "Option<Text>"]; ["license"; "Option<Text>"]] [] 0 false 0);
   ("ContractProjectSource", TStruct "struct" "" [["hash"; "[u8; 32]"]; ["language"; "Text"]; ["compiler"; "Text"]] [] 0 false 0);
   ("ContractStorageKey", alias "[u8; 32]");
   ("Conviction", TStruct "enum" "" [] ["None"; "Locked1x"; "Locked2x"; "Locked3x"; "Locked4x"; "Locked5x"; "Locked6x"] 0 false 0);
   ("CoreAssignment", TStruct "struct" "" [["core"; "CoreIndex"]; ["paraId"; "ParaId"]; ["kind"; "AssignmentKind"]; ["groupIdx"; "GroupIndex"]] [] 0 false 0);
   ("CoreIndex", alias "u32");
   ("CoreOccupied", TStruct "enum" "" [["Parathread"; "ParathreadEntry"]; ["Parachain"; "Null"]] [] 0 false 0);
   ("CreatedBlock", TStruct "struct" "" [["hash"; "BlockHash"]; ["aux"; "ImportedAux"]] [] 0 false 0);
   ("CustomValueMetadata15", TStruct "struct" "" [["type"; "SiLookupTypeId"]; ["value"; "Bytes"]] [] 0 false 0);
   ("DeferredOffenceOf", alias "(Vec<OffenceDetails>, Vec<Perbill>, SessionIndex)");
   ("DefunctVoter", TStruct "struct" "" [["who"; "AccountId"]; ["voteCount"; "Compact<u32>"]; ["candidateCount"; "Compact<u32>"]] [] 0 false 0);
   ("DelayKind", TStruct "enum" "" [["Finalized"; "Null"]; ["Best"; "DelayKindBest"]] [] 0 false 0);
   ("DelayKindBest", TStruct "struct" "" [["medianLastFinalized"; "BlockNumber"]] [] 0 false 0);
   ("Delegations", TStruct "struct" "" [["votes"; "Balance"]; ["capital"; "Balance"]] [] 0 false 0);
   ("DeliveredMessages", TStruct "struct" "" [["begin"; "MessageNonce"]; ["end"; "MessageNonce"]; ["dispatchResults"; "BitVec"]] [] 0 false 0);
   ("DepositAsset", TStruct "struct" "" [["assets"; "Vec<MultiAsset>"]; ["dest"; "MultiLocation"]] [] 0 false 0);
   ("DepositBalance", alias "Balance");
   ("DepositBalanceOf", alias "Balance");
   ("DepositReserveAsset", TStruct "struct" "" [["assets"; "Vec<MultiAsset>"]; ["dest"; "MultiLocation"]; ["effects"; "Vec<Order>"]] [] 0 false 0);
   ("DestroyWitness", TStruct "struct" "" [["instances"; "Compact<u32>"]; ["instanceMetadatas"; "Compact<u32>"]; ["attributes"; "Compact<u32>"]] [] 0 false 0);
   ("Digest", TStruct "struct" "" [["logs"; "Vec<DigestItem<Hash>>"]] [] 0 false 0);
   ("DigestItem", TStruct "enum" "" [["Other"; "Vec<u8>"]; ["AuthoritiesChange"; "Vec<AuthorityId>"]; ["ChangesTrieRoot"; "Hash"]; ["SealV0"; "SealV0"]; ["Consensus"; "Consensus"]; ["Seal"; "Seal"]; ["PreRuntime"; "PreRuntime"]; ["ChangesTrieSignal"; "ChangesTrieSignal"]; ["RuntimeEnvironmentUpdated"; "NULL"]] [] 0 false 0);
   ("DigestOf", alias "Digest");
   ("DispatchClass", TStruct "enum" "" [] ["Normal"; "Operational"; "Mandatory"] 0 false 0);
   ("DispatchError", TStruct "enum" "" [["Other"; "Null"]; ["CannotLookup"; "Null"]; ["BadOrigin"; "Null"]; ["Module"; "DispatchErrorModule"]; ["ConsumerRemaining"; "Null"]; ["NoProviders"; "Null"]; ["Token"; "TokenError"]; ["Arithmetic"; "ArithmeticError"]] [] 0 false 0);
   ("DispatchErrorModule", TStruct "struct" "" [["index"; "u8"]; ["error"; "u8"]] [] 0 false 0);
   ("DispatchFeePayment", TStruct "enum" "" [] ["AtSourceChain"; "AtTargetChain"] 0 false 0);
   ("DispatchInfo", TStruct "struct" "" [["weight"; "Weight"]; ["class"; "DispatchClass"]; ["paysFee"; "Pays"]] [] 0 false 0);
   ("DispatchInfo258", TStruct "struct" "" [["weight"; "Weight"]; ["class"; "DispatchClass"]; ["paysFee"; "bool"]] [] 0 false 0);
   ("DispatchResult", TStruct "enum" "" [["Ok"; "Null"]; ["Error"; "DispatchError"]] [] 0 false 0);
   ("DisputeLocation", TStruct "enum" "" [] ["Local"; "Remote"] 0 false 0);
   ("DisputeResult", TStruct "enum" "" [] ["Valid"; "Invalid"] 0 false 0);
   ("DisputeState", TStruct "struct" "" [["validatorsFor"; "BitVec"]; ["validatorsAgainst"; "BitVec"]; ["start"; "BlockNumber"]; ["concludedAt"; "Option<BlockNumber>"]] [] 0 false 0);
   ("DisputeStatement", TStruct "enum" "" [["Valid"; "ValidDisputeStatementKind"]; ["Invalid"; "InvalidDisputeStatementKind"]] [] 0 false 0);
   ("DisputeStatementSet", TStruct "struct" "" [["candidateHash"; "CandidateHash"]; ["session"; "SessionIndex"]; ["statements"; "Vec<(DisputeStatement, ParaValidatorIndex, ValidatorSignature)>"]] [] 0 false 0);
   ("DoNotConstruct", alias "Null");
   ("DoubleEncodedCall", TStruct "struct" "" [["encoded"; "Vec<u8>"]] [] 0 false 0);
   ("DoubleVoteReport", TStruct "struct" "" [["identity"; "ValidatorId"]; ["first"; "(Statement, ValidatorSignature)"]; ["second"; "(Statement, ValidatorSignature)"]; ["proof"; "MembershipProof"]; ["signingContext"; "SigningContext"]] [] 0 false 0);
   ("DownwardMessage", alias "Bytes");
   ("EIP1559Transaction", TStruct "struct" "" [["chainId"; "u64"]; ["nonce"; "U256"]; ["maxPriorityFeePerGas"; "U256"]; ["maxFeePerGas"; "U256"]; ["gasLimit"; "U256"]; ["action"; "EthTransactionAction"]; ["value"; "U256"]; ["input"; "Bytes"]; ["accessList"; "EthAccessList"]; ["oddYParity"; "bool"]; ["r"; "H256"]; ["s"; "H256"]] [] 0 false 0);
   ("EIP2930Transaction", TStruct "struct" "" [["chainId"; "u64"]; ["nonce"; "U256"]; ["gasPrice"; "U256"]; ["gasLimit"; "U256"]; ["action"; "EthTransactionAction"]; ["value"; "U256"]; ["input"; "Bytes"]; ["accessList"; "EthAccessList"]; ["oddYParity"; "bool"]; ["r"; "H256"]; ["s"; "H256"]] [] 0 false 0);
   ("EcdsaSignature", alias "[u8; 65]");
   ("Ed25519Signature", alias "H512");
   ("EgressQueueRoot", TStruct "struct" "" [["col1"; "ParaId"]; ["col2"; "Hash"]] [] 0 false 0);
   ("ElectionCompute", TStruct "enum" "" [] ["OnChain"; "Signed"; "Unsigned"] 0 false 0);
   ("ElectionPhase", TStruct "enum" "" [["Off"; "Null"]; ["Signed"; "Null"]; ["Unsigned"; "(bool, BlockNumber)"]; ["Emergency"; "Null"]] [] 0 false 0);
   ("ElectionResult", TStruct "struct" "" [["compute"; "ElectionCompute"]; ["slotStake"; "Balance"]; ["electedStashes"; "Vec<AccountId>"]; ["exposures"; "Vec<(AccountId, Exposure)>"]] [] 0 false 0);
   ("ElectionScore", alias "[u128; 3]");
   ("ElectionSize", TStruct "struct" "" [["validators"; "ValidatorIndex"]; ["nominators"; "NominatorIndex"]] [] 0 false 0);
   ("ElectionStatus", TStruct "enum" "" [["Close"; "Null"]; ["Open"; "BlockNumber"]] [] 0 false 0);
   ("EncodedFinalityProofs", alias "Bytes");
   ("EpochAuthorship", TStruct "struct" "" [["primary"; "Vec<u64>"]; ["secondary"; "Vec<u64>"]; ["secondary_vrf"; "Vec<u64>"]] [] 0 false 0);
   ("Equivocation", alias "GrandpaEquivocation");
   ("EquivocationProof<Hash, BlockNumber>", alias "GrandpaEquivocationProof");
   ("EquivocationProof<Header>", alias "BabeEquivocationProof");
   ("EraIndex", alias "U32");
   ("EraRewardPoints", TStruct "struct" "" [["total"; "RewardPoint"]; ["individual"; "Vec<(AccountId, RewardPoint)>"]] [] 0 false 0);
   ("EthAccessList", alias "Vec<EthAccessListItem>");
   ("EthAccessListItem", TStruct "struct" "" [["address"; "EthAddress"]; ["slots"; "Vec<H256>"]] [] 0 false 0);
   ("EthAccount", TStruct "struct" "" [["address"; "H160"]; ["balance"; "U256"]; ["nonce"; "U256"]; ["codeHash"; "H256"]; ["storageHash"; "H256"]; ["accountProof"; "Vec<Bytes>"]; ["storageProof"; "Vec<EthStorageProof>"]] [] 0 false 0);
   ("EthAddress", alias "H160");
   ("EthBlock", TStruct "struct" "" [["header"; "EthHeader"]; ["transactions"; "Vec<EthTransaction>"]; ["ommers"; "Vec<EthHeader>"]] [] 0 false 0);
   ("EthBloom", alias "H2048");
   ("EthCallRequest", TStruct "struct" "" [["from"; "Option<H160>"]; ["to"; "Option<H160>"]; ["gasPrice"; "Option<U256>"]; ["gas"; "Option<U256>"]; ["value"; "Option<U256>"]; ["data"; "Option<Bytes>"]; ["nonce"; "Option<U256>"]] [] 0 false 0);
   ("EthFilter", TStruct "struct" "" [["fromBlock"; "Option<BlockNumber>"]; ["toBlock"; "Option<BlockNumber>"]; ["blockHash"; "Option<H256>"]; ["address"; "Option<EthFilterAddress>"]; ["topics"; "Option<EthFilterTopic>"]] [] 0 false 0);
   ("EthFilterAddress", TStruct "enum" "" [["Single"; "H160"]; ["Multiple"; "Vec<H160>"]; ["Null"; "Null"]] [] 0 false 0);
   ("EthFilterChanges", TStruct "enum" "" [["Logs"; "Vec<EthLog>"]; ["Hashes"; "Vec<H256>"]; ["Empty"; "Null"]] [] 0 false 0);
   ("EthFilterTopic", TStruct "enum" "" [["Single"; "EthFilterTopicInner"]; ["Multiple"; "Vec<EthFilterTopicInner>"]; ["Null"; "Null"]] [] 0 false 0);
   ("EthFilterTopicEntry", alias "Option<H256>");
   ("EthFilterTopicInner", TStruct "enum" "" [["Single"; "EthFilterTopicEntry"]; ["Multiple"; "Vec<EthFilterTopicEntry>"]; ["Null"; "Null"]] [] 0 false 0);
   ("EthHeader", TStruct "struct" "" [["parentHash"; "H256"]; ["ommersHash"; "H256"]; ["beneficiary"; "H160"]; ["stateRoot"; "H256"]; ["transactionsRoot"; "H256"]; ["receiptsRoot"; "H256"]; ["logsBloom"; "EthBloom"]; ["difficulty"; "U256"]; ["number"; "U256"]; ["gasLimit"; "U256"]; ["gasUsed"; "U256"]; ["timestamp"; "U64"]; ["extraData"; "Bytes"]; ["mixMash"; "H256"]; ["nonce"; "H64"]] [] 0 false 0);
   ("EthLog", TStruct "struct" "" [["address"; "H160"]; ["topics"; "Vec<H256>"]; ["data"; "Bytes"]; ["blockHash"; "Option<H256>"]; ["blockNumber"; "Option<U256>"]; ["transactionHash"; "Option<H256>"]; ["transactionIndex"; "Option<U256>"]; ["logIndex"; "Option<U256>"]; ["transactionLogIndex"; "Option<U256>"]; ["removed"; "bool"]] [] 0 false 0);
   ("EthReceipt", TStruct "struct" "" [["transactionHash"; "Option<H256>"]; ["transactionIndex"; "Option<U256>"]; ["blockHash"; "Option<H256>"]; ["from"; "Option<H160>"]; ["to"; "Option<H160>"]; ["blockNumber"; "Option<U256>"]; ["cumulativeGasUsed"; "U256"]; ["gasUsed"; "Option<U256>"]; ["contractAddress"; "Option<H160>"]; ["logs"; "Vec<EthLog>"]; ["root"; "Option<H256>"]; ["logsBloom"; "H2048"]; ["statusCode"; "Option<U64>"]] [] 0 false 0);
   ("EthRichBlock", alias "EthBlock");
   ("EthRichHeader", alias "EthHeader");
   ("EthStorageProof", TStruct "struct" "" [["key"; "U256"]; ["value"; "U256"]; ["proof"; "Vec<Bytes>"]] [] 0 false 0);
   ("EthSubKind", TStruct "enum" "" [] ["newHeads"; "logs"; "newPendingTransactions"; "syncing"] 0 false 0);
   ("EthSubParams", TStruct "enum" "" [["None"; "Null"]; ["Logs"; "EthFilter"]] [] 0 false 0);
   ("EthSubResult", TStruct "enum" "" [["Header"; "EthRichHeader"]; ["Log"; "EthLog"]; ["TransactionHash"; "H256"]; ["SyncState"; "EthSyncStatus"]] [] 0 false 0);
   ("EthSyncInfo", TStruct "struct" "" [["startingBlock"; "U256"]; ["currentBlock"; "U256"]; ["highestBlock"; "U256"]; ["warpChunksAmount"; "Option<U256>"]; ["warpChunksProcessed"; "Option<U256>"]] [] 0 false 0);
   ("EthSyncStatus", TStruct "enum" "" [["Info"; "EthSyncInfo"]; ["None"; "Null"]] [] 0 false 0);
   ("EthTransaction", alias "LegacyTransaction");
   ("EthTransactionAction", TStruct "enum" "" [["Call"; "H160"]; ["Create"; "NULL"]] [] 0 false 0);
   ("EthTransactionCondition", TStruct "enum" "" [["block"; "u64"]; ["time"; "u64"]] [] 0 false 0);
   ("EthTransactionRequest", TStruct "struct" "" [["from"; "Option<H160>"]; ["to"; "Option<H160>"]; ["gasPrice"; "Option<U256>"]; ["gas"; "Option<U256>"]; ["value"; "Option<U256>"]; ["data"; "Option<Bytes>"]; ["nonce"; "Option<U256>"]] [] 0 false 0);
   ("EthTransactionSignature", alias "TransactionSignature");
   ("EthTransactionStatus", TStruct "struct" "" [["transactionHash"; "H256"]; ["transactionIndex"; "u32"]; ["from"; "H160"]; ["to"; "Option<H160>"]; ["contractAddress"; "Option<H160>"]; ["logs"; "Vec<EthLog>"]; ["logsBloom"; "EthBloom"]] [] 0 false 0);
   ("EthWork", TStruct "struct" "" [["pow_hash"; "H256"]; ["seed_hash"; "H256"]; ["target"; "H256"]; ["number"; "Option<u64>"]] [] 0 false 0);
   ("EthereumAccountId", alias "EthereumAddress");
   ("EthereumLookupSource", alias "EthereumAddress");
   ("EthereumSignature", alias "[u8; 65]");
   ("EventIndex", alias "u32");
   ("ExchangeAsset", TStruct "struct" "" [["give"; "Vec<MultiAsset>"]; ["receive"; "Vec<MultiAsset>"]] [] 0 false 0);
   ("ExecReturnValue", TStruct "struct" "" [["flags"; "u32"]; ["data"; "Bytes"]] [] 0 false 0);
   ("ExitError", TStruct "enum" "" [["StackUnderflow"; "NULL"]; ["StackOverflow"; "NULL"]; ["InvalidJump"; "NULL"]; ["InvalidRange"; "NULL"]; ["DesignatedInvalid"; "NULL"]; ["CallTooDeep"; "NULL"]; ["CreateCollision"; "NULL"]; ["CreateContractLimit"; "NULL"]; ["OutOfOffset"; "NULL"]; ["OutOfGas"; "NULL"]; ["OutOfFund"; "NULL"]; ["PCUnderflow"; "NULL"]; ["CreateEmpty"; "NULL"]; ["Other"; "string"]] [] 0 false 0);
   ("ExitFatal", TStruct "enum" "" [["NotSupported"; "NULL"]; ["UnhandledInterrupt"; "NULL"]; ["CallErrorAsFatal"; "NULL"]; ["Other"; "string"]] [] 0 false 0);
   ("ExitReason", TStruct "enum" "" [["Succeed"; "ExitSucceed"]; ["Error"; "ExitError"]; ["Revert"; "ExitRevert"]; ["Fatal"; "ExitFatal"]] [] 0 false 0);
   ("ExitRevert", TStruct "enum" "" [] ["Reverted"] 0 false 0);
   ("ExitSucceed", TStruct "enum" "" [] ["Stopped"; "Returned"; "Suicided"] 0 false 0);
   ("ExplicitDisputeStatement", TStruct "struct" "" [["valid"; "bool"]; ["candidateHash"; "CandidateHash"]; ["session"; "SessionIndex"]] [] 0 false 0);
   ("ExtendedBalance", alias "u128");
   ("ExtrinsicMetadata", TStruct "struct" "" [["version"; "u8"]; ["signedExtensions"; "Vec<Bytes>"]] [] 0 false 0);
   ("ExtrinsicMetadataV14", TStruct "struct" "" [["type"; "SiLookupTypeId"]; ["version"; "u8"]; ["signedExtensions"; "Vec<SignedExtensionMetadataV14>"]] [] 0 false 0);
   ("ExtrinsicMetadataV15", TStruct "struct" "" [["version"; "u8"]; ["addressType"; "SiLookupTypeId"]; ["callType"; "SiLookupTypeId"]; ["signatureType"; "SiLookupTypeId"]; ["extraType"; "SiLookupTypeId"]; ["signedExtensions"; "Vec<SignedExtensionMetadataV14>"]] [] 0 false 0);
   ("ExtrinsicSignature", alias "MultiSignature");
   ("ExtrinsicsWeight", TStruct "struct" "" [["normal"; "Weight"]; ["operational"; "Weight"]] [] 0 false 0);
   ("FeeDetails", TStruct "struct" "" [["inclusionFee"; "Option<InclusionFee>"]] [] 0 false 0);
   ("FixedU128", alias "u128");
   ("Forcing", TStruct "enum" "" [] ["NotForcing"; "ForceNew"; "ForceNone"] 0 false 0);
   ("ForkTreePendingChange", TStruct "struct" "" [["roots"; "Vec<ForkTreePendingChangeNode>"]; ["bestFinalizedNumber"; "Option<BlockNumber>"]] [] 0 false 0);
   ("ForkTreePendingChangeNode", TStruct "struct" "" [["hash"; "BlockHash"]; ["number"; "BlockNumber"]; ["data"; "PendingChange"]; ["children"; "Vec<ForkTreePendingChangeNode>"]] [] 0 false 0);
   ("FullIdentification", TStruct "struct" "" [["total"; "Compact<Balance>"]; ["own"; "Compact<Balance>"]; ["others"; "Vec<IndividualExposure>"]] [] 0 false 0);
   ("FundIndex", alias "u32");
   ("FundInfo", TStruct "struct" "" [["depositor"; "AccountId"]; ["verifier"; "Option<MultiSigner>"]; ["deposit"; "Balance"]; ["raised"; "Balance"]; ["end"; "BlockNumber"]; ["cap"; "Balance"]; ["last_contribution"; "LastContribution<BlockNumber>"]; ["first_period"; "LeasePeriod"]; ["last_period"; "LeasePeriod"]; ["trie_index"; "TrieIndex"]] [] 0 false 0);
   ("FungibilityV0", alias "FungibilityV1");
   ("FungibilityV1", TStruct "enum" "" [["Fungible"; "Compact<u128>"]; ["NonFungible"; "AssetInstanceV1"]] [] 0 false 0);
   ("FungibilityV2", alias "FungibilityV1");
   ("FungibilityV3", TStruct "enum" "" [["Fungible"; "Compact<u128>"]; ["NonFungible"; "AssetInstanceV3"]] [] 0 false 0);
   ("Gas", alias "u64");
   ("GeneralKeyV3", TStruct "struct" "" [["length"; "u8"]; ["data"; "[u8; 32]"]] [] 0 false 0);
   ("GenericMultiAddress", TStruct "enum" "" [["Id"; "AccountId"]; ["Index"; "Compact<AccountIndex>"]; ["Raw"; "Bytes"]; ["Address32"; "H256"]; ["Address20"; "H160"]] [] 0 false 0);
   ("GenericPortableRegistry", alias "Vec<PortableType>");
   ("GiltBid", TStruct "struct" "" [["amount"; "Balance"]; ["who"; "AccountId"]] [] 0 false 0);
   ("GlobalValidationData", TStruct "struct" "" [["maxCodeSize"; "u32"]; ["maxHeadDataSize"; "u32"]; ["blockNumber"; "blockNumber"]] [] 0 false 0);
   ("GlobalValidationSchedule", TStruct "struct" "" [["maxCodeSize"; "u32"]; ["maxHeadDataSize"; "u32"]; ["blockNumber"; "BlockNumber"]] [] 0 false 0);
   ("GrandpaCommit", TStruct "struct" "" [["targetHash"; "BlockHash"]; ["targetNumber"; "BlockNumber"]; ["precommits"; "Vec<GrandpaSignedPrecommit>"]] [] 0 false 0);
   ("GrandpaEquivocation", TStruct "enum" "" [["Prevote"; "GrandpaEquivocationValue"]; ["Precommit"; "GrandpaEquivocationValue"]] [] 0 false 0);
   ("GrandpaEquivocationProof", TStruct "struct" "" [["setId"; "SetId"]; ["equivocation"; "GrandpaEquivocation"]] [] 0 false 0);
   ("GrandpaEquivocationValue", TStruct "struct" "" [["roundNumber"; "u64"]; ["identity"; "AuthorityId"]; ["first"; "(GrandpaPrevote, AuthoritySignature)"]; ["second"; "(GrandpaPrevote, AuthoritySignature)"]] [] 0 false 0);
   ("GrandpaJustification", TStruct "struct" "" [["round"; "u64"]; ["commit"; "GrandpaCommit"]; ["votesAncestries"; "Vec<Header>"]] [] 0 false 0);
   ("GrandpaPrecommit", TStruct "struct" "" [["targetHash"; "BlockHash"]; ["targetNumber"; "BlockNumber"]] [] 0 false 0);
   ("GrandpaPrevote", TStruct "struct" "" [["targetHash"; "Hash"]; ["targetNumber"; "BlockNumber"]] [] 0 false 0);
   ("GrandpaSignedPrecommit", TStruct "struct" "" [["precommit"; "GrandpaPrecommit"]; ["signature"; "AuthoritySignature"]; ["id"; "AuthorityId"]] [] 0 false 0);
   ("GroupIndex", alias "u32");
   ("H1024", alias "[u8; 128]");
   ("H2048", alias "[u8; 256]");
   ("HeadData", alias "Bytes");
   ("Header", TStruct "struct" "" [["parent_hash"; "H256"]; ["number"; "Compact<BlockNumber>"]; ["state_root"; "H256"]; ["extrinsics_root"; "H256"]; ["digest"; "Digest"]] [] 0 false 0);
   ("Heartbeat", TStruct "struct" "" [["blockNumber"; "BlockNumber"]; ["networkState"; "OpaqueNetworkState"]; ["sessionIndex"; "SessionIndex"]; ["authorityIndex"; "AuthIndex"]] [] 0 false 0);
   ("HostConfiguration", TStruct "struct" "" [["maxCodeSize"; "u32"]; ["maxHeadDataSize"; "u32"]; ["maxUpwardQueueCount"; "u32"]; ["maxUpwardQueueSize"; "u32"]; ["maxUpwardMessageSize"; "u32"]; ["maxUpwardMessageNumPerCandidate"; "u32"]; ["hrmpMaxMessageNumPerCandidate"; "u32"]; ["validationUpgradeFrequency"; "BlockNumber"]; ["validationUpgradeDelay"; "BlockNumber"]; ["maxPovSize"; "u32"]; ["maxDownwardMessageSize"; "u32"]; ["preferredDispatchableUpwardMessagesStepWeight"; "Weight"]; ["hrmpMaxParachainOutboundChannels"; "u32"]; ["hrmpMaxParathreadOutboundChannels"; "u32"]; ["hrmpOpenRequestTtl"; "u32"]; ["hrmpSenderDeposit"; "Balance"]; ["hrmpRecipientDeposit"; "Balance"]; ["hrmpChannelMaxCapacity"; "u32"]; ["hrmpChannelMaxTotalSize"; "u32"]; ["hrmpMaxParachainInboundChannels"; "u32"]; ["hrmpMaxParathreadInboundChannels"; "u32"]; ["hrmpChannelMaxMessageSize"; "u32"]; ["codeRetentionPeriod"; "BlockNumber"]; ["parathreadCores"; "u32"]; ["parathreadRetries"; "u32"]; ["groupRotationFrequency"; "BlockNumber"]; ["chainAvailabilityPeriod"; "BlockNumber"]; ["threadAvailabilityPeriod"; "BlockNumber"]; ["schedulingLookahead"; "u32"]; ["maxValidatorsPerCore"; "Option<u32>"]; ["disputePeriod"; "SessionIndex"]; ["disputePostConclusionAcceptancePeriod"; "BlockNumber"]; ["disputeMaxSpamSlots"; "u32"]; ["disputeConclusionByTimeOutPeriod"; "BlockNumber"]; ["noShowSlots"; "u32"]; ["nDelayTranches"; "u32"]; ["zerothDelayTrancheWidth"; "u32"]; ["neededApprovals"; "u32"]; ["relayVrfModuloSamples"; "u32"]] [] 0 false 0);
   ("HostFnWeights", TStruct "struct" "" [["caller"; "Weight"]; ["address"; "Weight"]; ["gasLeft"; "Weight"]; ["balance"; "Weight"]; ["valueTransferred"; "Weight"]; ["minimumBalance"; "Weight"]; ["tombstoneDeposit"; "Weight"]; ["rentAllowance"; "Weight"]; ["blockNumber"; "Weight"]; ["now"; "Weight"]; ["weightToFee"; "Weight"]; ["gas"; "Weight"]; ["input"; "Weight"]; ["inputPerByte"; "Weight"]; ["return"; "Weight"]; ["returnPerByte"; "Weight"]; ["terminate"; "Weight"]; ["restoreTo"; "Weight"]; ["restoreToPerDelta"; "Weight"]; ["random"; "Weight"]; ["depositEvent"; "Weight"]; ["depositEventPerTopic"; "Weight"]; ["depositEventPerByte"; "Weight"]; ["setRentAllowance"; "Weight"]; ["setStorage"; "Weight"]; ["setStoragePerByte"; "Weight"]; ["clearStorage"; "Weight"]; ["getStorage"; "Weight"]; ["getStoragePerByte"; "Weight"]; ["transfer"; "Weight"]; ["call"; "Weight"]; ["callTransferSurcharge"; "Weight"]; ["callPerInputByte"; "Weight"]; ["callPerOutputByte"; "Weight"]; ["instantiate"; "Weight"]; ["instantiatePerInputByte"; "Weight"]; ["instantiatePerOutputByte"; "Weight"]; ["hashSha2256"; "Weight"]; ["hashSha2256PerByte"; "Weight"]; ["hashKeccak256"; "Weight"]; ["hashKeccak256PerByte"; "Weight"]; ["hashBlake2256"; "Weight"]; ["hashBlake2256PerByte"; "Weight"]; ["hashBlake2128"; "Weight"]; ["hashBlake2128PerByte"; "Weight"]] [] 0 false 0);
   ("HrmpChannel", TStruct "struct" "" [["maxCapacity"; "u32"]; ["maxTotalSize"; "u32"]; ["maxMessageSize"; "u32"]; ["msgCount"; "u32"]; ["totalSize"; "u32"]; ["mqcHead"; "Option<Hash>"]; ["senderDeposit"; "Balance"]; ["recipientDeposit"; "Balance"]] [] 0 false 0);
   ("HrmpChannelId", TStruct "struct" "" [["sender"; "u32"]; ["receiver"; "u32"]] [] 0 false 0);
   ("HrmpOpenChannelRequest", TStruct "struct" "" [["confirmed"; "bool"]; ["age"; "SessionIndex"]; ["senderDeposit"; "Balance"]; ["maxMessageSize"; "u32"]; ["maxCapacity"; "u32"]; ["maxTotalSize"; "u32"]] [] 0 false 0);
   ("IdentificationTuple", TStruct "struct" "" [["validatorId"; "ValidatorId"]; ["exposure"; "FullIdentification"]] [] 0 false 0);
   ("IdentityFields", TStruct "set" "" [] ["Display"; "Legal"; "Web"; "Riot"; "Email"; "PgpFingerprint"; "Image"; "Twitter"] 64 false 0);
   ("IdentityInfo", TStruct "struct" "" [["additional"; "Vec<IdentityInfoAdditional>"]; ["display"; "Data"]; ["legal"; "Data"]; ["web"; "Data"]; ["riot"; "Data"]; ["email"; "Data"]; ["pgpFingerprint"; "Option<H160>"]; ["image"; "Data"]; ["twitter"; "Data"]] [] 0 false 0);
   ("IdentityInfoAdditional", TStruct "struct" "" [["field"; "Data"]; ["value"; "Data"]] [] 0 false 0);
   ("ImportedAux", TStruct "struct" "" [["headerOnly"; "bool"]; ["clearJustificationRequests"; "bool"]; ["needsJustification"; "bool"]; ["badJustification"; "bool"]; ["needsFinalityProof"; "bool"]; ["isNewBest"; "bool"]] [] 0 false 0);
   ("InboundDownwardMessage", TStruct "struct" "" [["pubSentAt"; "BlockNumber"]; ["pubMsg"; "DownwardMessage"]] [] 0 false 0);
   ("InboundHrmpMessage", TStruct "struct" "" [["sentAt"; "BlockNumber"]; ["data"; "Bytes"]] [] 0 false 0);
   ("InboundHrmpMessages", alias "Vec<InboundHrmpMessage>");
   ("InboundLaneData", TStruct "struct" "" [["relayers"; "Vec<UnrewardedRelayer>"]; ["lastConfirmedNonce"; "MessageNonce"]] [] 0 false 0);
   ("InboundRelayer", alias "AccountId");
   ("InboundStatus", TStruct "enum" "" [] ["Ok"; "Suspended"] 0 false 0);
   ("IncludedBlocks", TStruct "struct" "" [["actualNumber"; "BlockNumber"]; ["session"; "SessionIndex"]; ["randomSeed"; "H256"]; ["activeParachains"; "Vec<ParaId>"]; ["paraBlocks"; "Vec<Hash>"]] [] 0 false 0);
   ("InclusionFee", TStruct "struct" "" [["baseFee"; "Balance"]; ["lenFee"; "Balance"]; ["adjustedWeightFee"; "Balance"]] [] 0 false 0);
   ("IncomingParachain", TStruct "enum" "" [["Unset"; "NewBidder"]; ["Fixed"; "IncomingParachainFixed"]; ["Deploy"; "IncomingParachainDeploy"]] [] 0 false 0);
   ("IncomingParachainDeploy", TStruct "struct" "" [["code"; "ValidationCode"]; ["initialHeadData"; "HeadData"]] [] 0 false 0);
   ("IncomingParachainFixed", TStruct "struct" "" [["codeHash"; "Hash"]; ["codeSize"; "u32"]; ["initialHeadData"; "HeadData"]] [] 0 false 0);
   ("Index", alias "U32");
   ("IndividualExposure", TStruct "struct" "" [["who"; "AccountId"]; ["value"; "Compact<Balance>"]] [] 0 false 0);
   ("InitializationData", TStruct "struct" "" [["header"; "Header"]; ["authorityList"; "AuthorityList"]; ["setId"; "SetId"]; ["isHalted"; "bool"]] [] 0 false 0);
   ("InitiateReserveWithdraw", TStruct "struct" "" [["assets"; "Vec<MultiAsset>"]; ["reserve"; "MultiLocation"]; ["effects"; "Vec<Order>"]] [] 0 false 0);
   ("InitiateTeleport", TStruct "struct" "" [["assets"; "Vec<MultiAsset>"]; ["dest"; "MultiLocation"]; ["effects"; "Vec<Order>"]] [] 0 false 0);
   ("InstanceDetails", TStruct "struct" "" [["owner"; "AccountId"]; ["approved"; "Option<AccountId>"]; ["isFrozen"; "bool"]; ["deposit"; "DepositBalance"]] [] 0 false 0);
   ("InstanceId", alias "u32");
   ("InstanceMetadata", TStruct "struct" "" [["deposit"; "DepositBalance"]; ["data"; "Vec<u8>"]; ["isFrozen"; "bool"]] [] 0 false 0);
   ("InstantiateRequest", TStruct "struct" "" [["origin"; "AccountId"]; ["endowment"; "Balance"]; ["gasLimit"; "Gas"]; ["code"; "Bytes"]; ["code"; "Bytes"]; ["salt"; "Bytes"]] [] 0 false 0);
   ("InstantiateReturnValue", TStruct "struct" "" [["result"; "ExecReturnValue"]; ["accountId"; "AccountId"]; ["rentProjection"; "Option<RentProjection>"]] [] 0 false 0);
   ("InstructionV2", TStruct "enum" "" [["WithdrawAsset"; "MultiAssetsV2"]; ["ReserveAssetDeposited"; "MultiAssetsV2"]; ["ReceiveTeleportedAsset"; "MultiAssetsV2"]; ["QueryResponse"; "[[""query_id"", ""Compact<u64>""], [""response"", ""ResponseV2""], [""max_weight"", ""Compact<u64>""]]"]; ["TransferAsset"; "[[""assets"", ""MultiAssetsV2""], [""beneficiary"", ""MultiLocationV2""]]"]; ["TransferReserveAsset"; "[[""assets"", ""MultiAssetsV2""], [""dest"", ""MultiLocationV2""], [""xcm"", ""XcmV2""]]"]; ["Transact"; "[[""originType"", ""OriginKindV2""], [""requireWeightAtMost"", ""u64""], [""call"", ""DoubleEncodedCall""]]"]; ["HrmpNewChannelOpenRequest"; "[[""sender"", ""Compact<u32>""], [""maxMessageSize"", ""Compact<u32>""], [""maxCapacity"", ""Compact<u32>""]]"]; ["HrmpChannelAccepted"; "[[""recipient"", ""Compact<u32>""]]"]; ["HrmpChannelClosing"; "[[""initiator"", ""Compact<u32>""], [""sender"", ""Compact<u32>""], [""recipient"", ""Compact<u32>""]]"]; ["ClearOrigin"; "empty"]; ["DescendOrigin"; "InteriorMultiLocation"]; ["ReportError"; "[[""query_id"", ""Compact<u64>""], [""dest"", ""MultiLocationV2""], [""maxResponseWeight"", ""Compact<u64>""]]"]; ["DepositAsset"; "[[""assets"", ""MultiAssetFilterV2""], [""max_assets"", ""compact<u32>""], [""beneficiary"", ""MultiLocationV2""]]"]; ["DepositReserveAsset"; "[[""assets"", ""MultiAssetFilterV2""], [""max_assets"", ""compact<u32>""], [""dest"", ""MultiLocationV2""], [""xcm"", ""XcmV2""]]"]; ["ExchangeAsset"; "[[""give"", ""MultiAssetFilterV2""], [""receive"", ""MultiAssetsV2""]]"]; ["InitiateReserveWithdraw"; "[[""assets"", ""MultiAssetFilterV2""], [""reserve"", ""MultiLocationV2""], [""xcm"", ""XcmV2""]]"]; ["InitiateTeleport"; "[[""assets"", ""MultiAssetFilterV2""], [""dest"", ""MultiLocationV2""], [""xcm"", ""XcmV2""]]"]; ["QueryHolding"; "[[""query_id"", ""Compact<u64>""], [""dest"", ""MultiLocationV2""], [""assets"", ""MultiAssetFilterV2""], [""maxResponse_Weight"", ""Compact<u64>""]]"]; ["BuyExecution"; "[[""fees"", ""MultiAssetV2""], [""weight_limit"", ""WeightLimitV2""]]"]; ["RefundSurplus"; "empty"]; ["SetErrorHandler"; "XcmV2"]; ["SetAppendix"; "XcmV2"]; ["ClearError"; "empty"]; ["ClaimAsset"; "[[""assets"", ""MultiAssetsV2""], [""ticket"", ""MultiLocationV2""]]"]; ["Trap"; "u64"]] [] 0 false 0);
   ("InstructionV3", TStruct "enum" "" [["WithdrawAsset"; "MultiAssetsV3"]; ["ReserveAssetDeposited"; "MultiAssetsV3"]; ["ReceiveTeleportedAsset"; "MultiAssetsV3"]; ["QueryResponse"; "QueryResponseV3"]; ["TransferAsset"; "[[""assets"", ""MultiAssetsV3""], [""beneficiary"", ""MultiLocationV3""]]"]; ["TransferReserveAsset"; "[[""assets"", ""MultiAssetsV3""], [""dest"", ""MultiLocationV3""], [""xcm"", ""XcmV3""]]"]; ["Transact"; "[[""origin_kind"", ""OriginKindV2""], [""require_weight_at_most"", ""WeightV2""], [""call"", ""DoubleEncodedCall""]]"]; ["HrmpNewChannelOpenRequest"; "[[""sender"", ""Compact<u32>""], [""maxMessageSize"", ""Compact<u32>""], [""maxCapacity"", ""Compact<u32>""]]"]; ["HrmpChannelAccepted"; "[[""recipient"", ""Compact<u32>""]]"]; ["HrmpChannelClosing"; "[[""initiator"", ""Compact<u32>""], [""sender"", ""Compact<u32>""], [""recipient"", ""Compact<u32>""]]"]; ["ClearOrigin"; "Null"]; ["DescendOrigin"; "InteriorMultiLocationV3"]; ["ReportError"; "[[""destination"", ""MultiLocationV3""], [""query_id"", ""Compact<u64>""], [""max_weight"", ""WeightV2""]]"]; ["DepositAsset"; "[[""assets"", ""MultiAssetFilterV3""], [""beneficiary"", ""MultiLocationV3""]]"]; ["DepositReserveAsset"; "[[""assets"", ""MultiAssetFilterV3""], [""dest"", ""MultiLocationV3""], [""xcm"", ""XcmV3""]]"]; ["ExchangeAsset"; "[[""give"", ""MultiAssetFilterV3""],[""want"", ""MultiAssetsV3""], [""maximal"", ""bool""]]"]; ["InitiateReserveWithdraw"; "[[""assets"", ""MultiAssetFilterV3""], [""reserve"", ""MultiLocationV3""], [""xcm"", ""XcmV3""]]"]; ["InitiateTeleport"; "[[""assets"", ""MultiAssetFilterV3""], [""dest"", ""MultiLocationV3""], [""xcm"", ""XcmV3""]]"]; ["QueryHolding"; "[[""response_info"", ""QueryResponseInfoV3""], [""assets"", ""MultiAssetFilterV3""]]"]; ["BuyExecution"; "[[""fees"", ""MultiAssetV3""], [""weight_limit"", ""WeightLimitV3""]]"]; ["RefundSurplus"; "Null"]; ["SetErrorHandler"; "XcmV3"]; ["SetAppendix"; "XcmV3"]; ["ClearError"; "Null"]; ["ClaimAsset"; "[[""assets"", ""MultiAssetsV3""], [""ticket"", ""MultiLocationV3""]]"]; ["Trap"; "u64"]; ["SubscribeVersion"; "[[""query_id"", ""Compact<u64>""], [""max_response_weight"", ""WeightV2""]]"]; ["UnsubscribeVersion"; "NULL"]; ["BurnAsset"; "MultiAssetsV3"]; ["ExpectAsset"; "MultiAssetsV3"]; ["ExpectOrigin"; "Option<MultiLocationV3>"]; ["ExpectError"; "Option<(U32, XcmTraitsErrorV3)>>"]; ["ExpectTransactStatus"; "MaybeErrorCodeV3"]; ["QueryPallet"; "[[""module_name"", ""Vec<U8>""], [""response_info"", ""QueryResponseInfoV3""]]"]; ["ExpectPallet"; "[[""index"", ""Compact<u32>""], [""name"", ""Vec<U8>""], [""module_name"", ""Vec<U8>""], [""crate_major"", ""Compact<u32>""], [""min_crate_minor"", ""Compact<u32>""]]"]; ["ReportTransactStatus"; "QueryResponseInfoV3"]; ["ClearTransactStatus"; "NULL"]; ["UniversalOrigin"; "JunctionV3"]; ["ExportMessage"; "[[""network"", ""NetworkIdV3""], [""destination"", ""InteriorMultiLocationV3""], [""xcm"", ""XcmV3""]]"]; ["LockAsset"; "[[""asset"", ""MultiAssetV3""], [""unlocker"", ""MultiLocationV3""]]"]; ["UnlockAsset"; "[[""asset"", ""MultiAssetV3""], [""target"", ""MultiLocationV3""]]"]; ["NoteUnlockable"; "[[""asset"", ""MultiAssetV3""], [""owner"", ""MultiLocationV3""]]"]; ["RequestUnlock"; "[[""asset"", ""MultiAssetV3""], [""locker"", ""MultiLocationV3""]]"]; ["SetFeesMode"; "[[""jit_withdraw"", ""bool""]]"]; ["SetTopic"; "[u8; 32]"]; ["ClearTopic"; "NULL"]; ["AliasOrigin"; "MultiLocationV3"]; ["UnpaidExecution"; "[[""weight_limit"", ""WeightV2""], [""check_origin"", ""MultiLocationV3""]]"]] [] 0 false 0);
   ("InstructionWeights", TStruct "struct" "" [["i64const"; "u32"]; ["i64load"; "u32"]; ["i64store"; "u32"]; ["select"; "u32"]; ["rIf"; "u32"]; ["br"; "u32"]; ["brIf"; "u32"]; ["brIable"; "u32"]; ["brIablePerEntry"; "u32"]; ["call"; "u32"]; ["callIndirect"; "u32"]; ["callIndirectPerParam"; "u32"]; ["localGet"; "u32"]; ["localSet"; "u32"]; ["local_tee"; "u32"]; ["globalGet"; "u32"]; ["globalSet"; "u32"]; ["memoryCurrent"; "u32"]; ["memoryGrow"; "u32"]; ["i64clz"; "u32"]; ["i64ctz"; "u32"]; ["i64popcnt"; "u32"]; ["i64eqz"; "u32"]; ["i64extendsi32"; "u32"]; ["i64extendui32"; "u32"]; ["i32wrapi64"; "u32"]; ["i64eq"; "u32"]; ["i64ne"; "u32"]; ["i64lts"; "u32"]; ["i64ltu"; "u32"]; ["i64gts"; "u32"]; ["i64gtu"; "u32"]; ["i64les"; "u32"]; ["i64leu"; "u32"]; ["i64ges"; "u32"]; ["i64geu"; "u32"]; ["i64add"; "u32"]; ["i64sub"; "u32"]; ["i64mul"; "u32"]; ["i64divs"; "u32"]; ["i64divu"; "u32"]; ["i64rems"; "u32"]; ["i64remu"; "u32"]; ["i64and"; "u32"]; ["i64or"; "u32"]; ["i64xor"; "u32"]; ["i64shl"; "u32"]; ["i64shrs"; "u32"]; ["i64shru"; "u32"]; ["i64rotl"; "u32"]; ["i64rotr"; "u32"]] [] 0 false 0);
   ("InteriorMultiLocation", alias "Junctions");
   ("InteriorMultiLocationV3", alias "JunctionsV3");
   ("InvalidDisputeStatementKind", TStruct "enum" "" [] ["Explicit"] 0 false 0);
   ("Judgement", TStruct "enum" "" [["Unknown"; "Null"]; ["FeePaid"; "Balance"]; ["Reasonable"; "Null"]; ["KnownGood"; "Null"]; ["OutOfDate"; "Null"]; ["LowQuality"; "Null"]; ["Erroneous"; "Null"]] [] 0 false 0);
   ("Junction", alias "JunctionV1");
   ("JunctionV0", TStruct "enum" "" [["Parent"; "Null"]; ["Parachain"; "Compact<u32>"]; ["AccountId32"; "[[""network"", ""NetworkId""], [""id"", ""AccountId32""]]"]; ["AccountIndex64"; "[[""network"", ""NetworkId""], [""index"", ""Compact<u64>""]]"]; ["AccountKey20"; "[[""network"", ""NetworkId""], [""key"", ""[u8; 20]""]]"]; ["PalletInstance"; "u8"]; ["GeneralIndex"; "Compact<u128>"]; ["GeneralKey"; "Vec<u8>"]; ["OnlyChild"; "Null"]; ["Plurality"; "[[""id"", ""BodyId""], [""part"", ""BodyPart""]]"]] [] 0 false 0);
   ("JunctionV1", TStruct "enum" "" [["Parachain"; "Compact<u32>"]; ["AccountId32"; "[[""network"", ""NetworkId""], [""id"", ""AccountId32""]]"]; ["AccountIndex64"; "[[""network"", ""NetworkId""], [""index"", ""Compact<u64>""]]"]; ["AccountKey20"; "[[""network"", ""NetworkId""], [""key"", ""[u8; 20]""]]"]; ["PalletInstance"; "u8"]; ["GeneralIndex"; "Compact<u128>"]; ["GeneralKey"; "Vec<u8>"]; ["OnlyChild"; "Null"]; ["Plurality"; "[[""id"", ""BodyId""], [""part"", ""BodyPart""]]"]] [] 0 false 0);
   ("JunctionV2", alias "JunctionV1");
   ("JunctionV3", TStruct "enum" "" [["Parachain"; "Compact<u32>"]; ["AccountId32"; "[[""network"", ""option<NetworkIdV3>""], [""id"", ""AccountId32""]]"]; ["AccountIndex64"; "[[""network"", ""option<NetworkIdV3>""], [""index"", ""Compact<u64>""]]"]; ["AccountKey20"; "[[""network"", ""option<NetworkIdV3>""], [""key"", ""[u8; 20]""]]"]; ["PalletInstance"; "u8"]; ["GeneralIndex"; "Compact<u128>"]; ["GeneralKey"; "GeneralKeyV3"]; ["OnlyChild"; "NULL"]; ["Plurality"; "[[""id"", ""BodyId""], [""part"", ""BodyPart""]]"]; ["GlobalConsensus"; "NetworkIdV3"]] [] 0 false 0);
   ("Junctions", alias "JunctionsV1");
   ("JunctionsV1", TStruct "enum" "" [["Here"; "Null"]; ["X1"; "JunctionV1"]; ["X2"; "(JunctionV1, JunctionV1)"]; ["X3"; "(JunctionV1, JunctionV1, JunctionV1)"]; ["X4"; "(JunctionV1, JunctionV1, JunctionV1, JunctionV1)"]; ["X5"; "(JunctionV1, JunctionV1, JunctionV1, JunctionV1, JunctionV1)"]; ["X6"; "(JunctionV1, JunctionV1, JunctionV1, JunctionV1, JunctionV1, JunctionV1)"]; ["X7"; "(JunctionV1, JunctionV1, JunctionV1, JunctionV1, JunctionV1, JunctionV1, JunctionV1)"]; ["X8"; "(JunctionV1, JunctionV1, JunctionV1, JunctionV1, JunctionV1, JunctionV1, JunctionV1, JunctionV1)"]] [] 0 false 0);
   ("JunctionsV2", alias "JunctionsV1");
   ("JunctionsV3", TStruct "enum" "" [["Here"; "NULL"]; ["X1"; "JunctionV3"]; ["X2"; "(JunctionV3, JunctionV3)"]; ["X3"; "(JunctionV3, JunctionV3, JunctionV3)"]; ["X4"; "(JunctionV3, JunctionV3, JunctionV3, JunctionV3)"]; ["X5"; "(JunctionV3, JunctionV3, JunctionV3, JunctionV3, JunctionV3)"]; ["X6"; "(JunctionV3, JunctionV3, JunctionV3, JunctionV3, JunctionV3, JunctionV3)"]; ["X7"; "(JunctionV3, JunctionV3, JunctionV3, JunctionV3, JunctionV3, JunctionV3, JunctionV3)"]; ["X8"; "(JunctionV3, JunctionV3, JunctionV3, JunctionV3, JunctionV3, JunctionV3, JunctionV3, JunctionV3)"]] [] 0 false 0);
   ("JustificationNotification", alias "Bytes");
   ("Key", alias "Bytes");
   ("KeyOwnerProof", alias "MembershipProof");
   ("KeyTypeId", alias "u32");
   ("KeyValue", TStruct "struct" "" [["key"; "Vec<u8>"]; ["value"; "Vec<u8>"]] [] 0 false 0);
   ("KeyValueOption", alias "(StorageKey, Option<StorageData>)");
   ("Keys", TStruct "struct" "" [["grandpa"; "AccountId"]; ["babe"; "AccountId"]; ["im_online"; "AccountId"]; ["authority_discovery"; "AccountId"]] [] 0 false 0);
   ("Kind", alias "[u8; 16]");
   ("LaneId", alias "[u8; 4]");
   ("LastContribution", TStruct "enum" "" [["Never"; "Null"]; ["PreEnding"; "u32"]; ["Ending"; "BlockNumber"]] [] 0 false 0);
   ("LastRuntimeUpgradeInfo", TStruct "struct" "" [["specVersion"; "Compact<u32>"]; ["specName"; "Bytes"]] [] 0 false 0);
   ("LeasePeriod", alias "BlockNumber");
   ("LeasePeriodOf", alias "LeasePeriod");
   ("LegacyTransaction", TStruct "struct" "" [["nonce"; "U256"]; ["gasPrice"; "U256"]; ["gasLimit"; "U256"]; ["action"; "EthTransactionAction"]; ["value"; "U256"]; ["input"; "Bytes"]; ["signature"; "EthTransactionSignature"]] [] 0 false 0);
   ("Limits", TStruct "struct" "" [["eventTopics"; "u32"]; ["stackHeight"; "u32"]; ["globals"; "u32"]; ["parameters"; "u32"]; ["memoryPages"; "u32"]; ["tableSize"; "u32"]; ["brTableSize"; "u32"]; ["subjectLen"; "u32"]; ["codeSize"; "u32"]] [] 0 false 0);
   ("Linkage", TStruct "struct" "" [["previous"; "Option<AccountId>"]; ["next"; "Option<AccountId>"]] [] 0 false 0);
   ("LocalValidationData", TStruct "struct" "" [["parentHead"; "HeadData"]; ["balance"; "Balance"]; ["codeUpgradeAllowed"; "Option<BlockNumber>"]] [] 0 false 0);
   ("Log", TStruct "struct" "" [["address"; "H160"]; ["topics"; "Vec<H256>"]; ["data"; "Vec<u8>"]] [] 0 false 0);
   ("LookupSource", alias "AccountId");
   ("LotteryConfig", TStruct "struct" "" [["price"; "Balance"]; ["start"; "BlockNumber"]; ["length"; "BlockNumber"]; ["delay"; "BlockNumber"]; ["repeat"; "bool"]] [] 0 false 0);
   ("MaybeErrorCodeV3", TStruct "enum" "" [["Success"; "NULL"]; ["Error"; "Vec<U8>"]; ["TruncatedError"; "Vec<U8>"]] [] 0 false 0);
   ("MaybeRandomness", alias "Option<Randomness>");
   ("MaybeVrf", alias "[u8; 32]");
   ("MemberCount", alias "u32");
   ("MembershipProof", TStruct "struct" "" [["session"; "sessionIndex"]; ["trieNodes"; "Vec<Vec<u8>>"]; ["validatorCount"; "ValidatorCount"]] [] 0 false 0);
   ("MessageData", TStruct "struct" "" [["payload"; "Bytes"]; ["fee"; "Balance"]] [] 0 false 0);
   ("MessageId", alias "[u8; 32]");
   ("MessageIngestionType", TStruct "struct" "" [["downwardMessages"; "Vec<InboundDownwardMessage>"]; ["horizontalMessages"; "BTreeMap<ParaId, InboundHrmpMessages>"]] [] 0 false 0);
   ("MessageKey", TStruct "struct" "" [["laneId"; "LaneId"]; ["nonce"; "MessageNonce"]] [] 0 false 0);
   ("MessageNonce", alias "u64");
   ("MessageQueueChain", alias "RelayChainHash");
   ("MessagesDeliveryProofOf", TStruct "struct" "" [["bridgedHeaderHash"; "BlockHash"]; ["storageProof"; "Vec<Bytes>"]; ["lane"; "LaneId"]] [] 0 false 0);
   ("MessagesProofOf", TStruct "struct" "" [["bridgedHeaderHash"; "BridgedBlockHash"]; ["storageProof"; "Vec<Bytes>"]; ["lane"; "LaneId"]; ["noncesStart"; "MessageNonce"]; ["noncesEnd"; "MessageNonce"]] [] 0 false 0);
   ("MessagingStateSnapshot", TStruct "struct" "" [["relayDispatchQueueSize"; "(u32, u32)"]; ["egressChannels"; "Vec<MessagingStateSnapshotEgressEntry>"]] [] 0 false 0);
   ("MessagingStateSnapshotEgressEntry", alias "(ParaId, AbridgedHrmpChannel)");
   ("MetadataVersion", TStruct "enum" "" [] ["MetadataV0Decoder"; "MetadataV1Decoder"; "MetadataV2Decoder"; "MetadataV3Decoder"; "MetadataV4Decoder"; "MetadataV5Decoder"; "MetadataV6Decoder"; "MetadataV7Decoder"; "MetadataV8Decoder"; "MetadataV9Decoder"; "MetadataV10Decoder"; "MetadataV11Decoder"; "MetadataV12Decoder"; "MetadataV13Decoder"; "MetadataV14Decoder"; "MetadataV15Decoder"] 0 false 0);
   ("MmrRootHash", alias "H256");
   ("ModuleId", alias "LockIdentifier");
   ("MomentOf", alias "Moment");
   ("MoreAttestations", alias "Null");
   ("MultiAddress", alias "GenericMultiAddress");
   ("MultiAsset", alias "MultiAssetV1");
   ("MultiAssetFilter", alias "MultiAssetFilterV1");
   ("MultiAssetFilterV1", TStruct "enum" "" [["Definite"; "MultiAssetsV1"]; ["Wild"; "WildMultiAssetV1"]] [] 0 false 0);
   ("MultiAssetFilterV2", alias "MultiAssetFilterV1");
   ("MultiAssetFilterV3", TStruct "enum" "" [["Definite"; "MultiAssetsV3"]; ["Wild"; "WildMultiAssetV3"]] [] 0 false 0);
   ("MultiAssetV0", TStruct "enum" "" [["None"; "Null"]; ["All"; "Null"]; ["AllFungible"; "Null"]; ["AllNonFungible"; "Null"]; ["AllAbstractFungible"; "Vec<u8>"]; ["AllAbstractNonFungible"; "Vec<u8>"]; ["AllConcreteFungible"; "MultiLocationV0"]; ["AllConcreteNonFungible"; "MultiLocationV0"]; ["AbstractFungible"; "[[""id"", ""Vec<u8>""], [""instance"", ""Compact<u128>""]]"]; ["AbstractNonFungible"; "[[""class"", ""Vec<u8>""], [""instance"", ""AssetInstanceV0""]]"]; ["ConcreteFungible"; "[[""id"", ""MultiLocationV0""], [""amount"", ""Compact<u128>""]]"]; ["ConcreteNonFungible"; "[[""class"", ""MultiLocationV0""], [""instance"", ""AssetInstanceV0""]]"]] [] 0 false 0);
   ("MultiAssetV1", TStruct "struct" "" [["id"; "XcmAssetId"]; ["fun"; "FungibilityV1"]] [] 0 false 0);
   ("MultiAssetV2", alias "MultiAssetV1");
   ("MultiAssetV3", TStruct "struct" "" [["id"; "XcmAssetIdV3"]; ["fun"; "FungibilityV3"]] [] 0 false 0);
   ("MultiAssets", alias "Vec<MultiAsset>");
   ("MultiAssetsV1", alias "Vec<MultiAssetV1>");
   ("MultiAssetsV2", alias "MultiAssetsV1");
   ("MultiAssetsV3", alias "Vec<MultiAssetV3>");
   ("MultiDisputeStatementSet", alias "Vec<DisputeStatementSet>");
   ("MultiLocation", alias "MultiLocationV1");
   ("MultiLocationV0", TStruct "enum" "" [["Here"; "Null"]; ["X1"; "JunctionV0"]; ["X2"; "(JunctionV0, JunctionV0)"]; ["X3"; "(JunctionV0, JunctionV0, JunctionV0)"]; ["X4"; "(JunctionV0, JunctionV0, JunctionV0, JunctionV0)"]; ["X5"; "(JunctionV0, JunctionV0, JunctionV0, JunctionV0, JunctionV0)"]; ["X6"; "(JunctionV0, JunctionV0, JunctionV0, JunctionV0, JunctionV0, JunctionV0)"]; ["X7"; "(JunctionV0, JunctionV0, JunctionV0, JunctionV0, JunctionV0, JunctionV0, JunctionV0)"]; ["X8"; "(JunctionV0, JunctionV0, JunctionV0, JunctionV0, JunctionV0, JunctionV0, JunctionV0, JunctionV0)"]] [] 0 false 0);
   ("MultiLocationV1", TStruct "struct" "" [["parents"; "u8"]; ["interior"; "JunctionsV1"]] [] 0 false 0);
   ("MultiLocationV2", alias "MultiLocationV1");
   ("MultiLocationV3", TStruct "struct" "" [["parents"; "u8"]; ["interior"; "JunctionsV3"]] [] 0 false 0);
   ("MultiSignature", TStruct "enum" "" [["Ed25519"; "Ed25519Signature"]; ["Sr25519"; "Sr25519Signature"]; ["Ecdsa"; "EcdsaSignature"]] [] 0 false 0);
   ("MultiSigner", TStruct "enum" "" [["Ed25519"; "[u8; 32]"]; ["Sr25519"; "[u8; 32]"]; ["Ecdsa"; "[u8; 33]"]] [] 0 false 0);
   ("Multiplier", alias "u64");
   ("Multisig", TStruct "struct" "" [["when"; "Timepoint"]; ["deposit"; "Balance"]; ["depositor"; "AccountId"]; ["approvals"; "Vec<AccountId>"]] [] 0 false 0);
   ("NetworkId", TStruct "enum" "" [["Any"; "Null"]; ["Named"; "Vec<u8>"]; ["Polkadot"; "Null"]; ["Kusama"; "Null"]] [] 0 false 0);
   ("NetworkIdV3", TStruct "enum" "" [["ByGenesis"; "[u8; 32]"]; ["ByFork"; "ByForkV3"]; ["Polkadot"; "NULL"]; ["Kusama"; "NULL"]; ["Westend"; "NULL"]; ["Rococo"; "NULL"]; ["Wococo"; "NULL"]; ["Ethereum"; "U64"]; ["BitcoinCore"; "NULL"]; ["BitcoinCash"; "NULL"]] [] 0 false 0);
   ("NewBidder", TStruct "struct" "" [["who"; "AccountId"]; ["sub"; "SubId"]] [] 0 false 0);
   ("NextAuthority", TStruct "struct" "" [["AuthorityId"; "AuthorityId"]; ["weight"; "AuthorityWeight"]] [] 0 false 0);
   ("NextConfigDescriptor", TStruct "enum" "" [["V0"; "Null"]; ["V1"; "NextConfigDescriptorV1"]] [] 0 false 0);
   ("NextConfigDescriptorV1", TStruct "struct" "" [["c"; "(u64, u64)"]; ["allowedSlots"; "AllowedSlots"]] [] 0 false 0);
   ("Nominations", TStruct "struct" "" [["targets"; "Vec<AccountId>"]; ["submittedIn"; "EraIndex"]; ["suppressed"; "bool"]] [] 0 false 0);
   ("NominatorIndex", alias "u32");
   ("NominatorIndexCompact", alias "Compact<NominatorIndex>");
   ("OffchainAccuracy", alias "u16");
   ("OffchainAccuracyCompact", alias "Compact<OffchainAccuracy>");
   ("OffenceDetails", TStruct "struct" "" [["offender"; "Offender"]; ["reporters"; "Vec<Reporter>"]] [] 0 false 0);
   ("OffenceDetails<AccountId, IdentificationTuple>", TStruct "struct" "" [["offender"; "Offender"]; ["reporters"; "Vec<Reporter>"]] [] 0 false 0);
   ("Offender", alias "IdentificationTuple");
   ("OpaqueMultiaddr", alias "Bytes");
   ("OpaqueNetworkState", TStruct "struct" "" [["peerId"; "OpaquePeerId"]; ["externalAddresses"; "Vec<OpaqueMultiaddr>"]] [] 0 false 0);
   ("OpaquePeerId", alias "Bytes");
   ("OpaqueTimeSlot", alias "Bytes");
   ("OpenTip", TStruct "struct" "" [["reason"; "Hash"]; ["who"; "AccountId"]; ["finder"; "AccountId"]; ["deposit"; "Balance"]; ["closes"; "Option<BlockNumber>"]; ["tips"; "Vec<OpenTipTip>"]; ["findersFee"; "bool"]] [] 0 false 0);
   ("OpenTip<AccountId, BalanceOf, BlockNumber, Hash>", TStruct "struct" "" [["reason"; "Hash"]; ["who"; "AccountId"]; ["finder"; "Option<OpenTipFinder>"]; ["closes"; "Option<BlockNumber>"]; ["tips"; "Vec<OpenTipTip>"]] [] 0 false 0);
   ("OpenTipFinder", alias "(AccountId, Balance)");
   ("OpenTipTip", alias "(AccountId, Balance)");
   ("OperatingMode", TStruct "enum" "" [] ["Normal"; "RejectingOutboundMessages"; "Halted"] 0 false 0);
   ("Order", TStruct "enum" "" [["Null"; "Null"]; ["DepositAsset"; "DepositAsset"]; ["DepositReserveAsset"; "DepositReserveAsset"]; ["ExchangeAsset"; "ExchangeAsset"]; ["InitiateReserveWithdraw"; "InitiateReserveWithdraw"]; ["InitiateTeleport"; "InitiateTeleport"]; ["QueryHolding"; "QueryHolding"]] [] 0 false 0);
   ("Origin", alias "Null");
   ("OriginCaller", TStruct "enum" "" [["System"; "SystemOrigin"]] [] 0 false 0);
   ("OriginKind", TStruct "enum" "" [] ["Native"; "SovereignAccount"; "Superuser"] 0 false 0);
   ("OriginKindV0", TStruct "enum" "" [] ["Native"; "SovereignAccount"; "Superuser"; "Xcm"] 0 false 0);
   ("OriginKindV1", alias "OriginKindV0");
   ("OriginKindV2", alias "OriginKindV1");
   ("OutboundHrmpMessage", TStruct "struct" "" [["recipient"; "u32"]; ["data"; "Bytes"]] [] 0 false 0);
   ("OutboundLaneData", TStruct "struct" "" [["oldestUnprunedNonce"; "MessageNonce"]; ["latestReceivedNonce"; "MessageNonce"]; ["latestGeneratedNonce"; "MessageNonce"]] [] 0 false 0);
   ("OutboundMessageFee", alias "Balance");
   ("OutboundPayload", TStruct "struct" "" [["specVersion"; "u32"]; ["weight"; "Weight"]; ["origin"; "CallOrigin"]; ["dispatchFeePayment"; "DispatchFeePayment"]; ["call"; "Bytes"]] [] 0 false 0);
   ("OutboundStatus", TStruct "enum" "" [] ["Ok"; "Suspended"] 0 false 0);
   ("Outcome", TStruct "enum" "" [["Complete"; "Weight"]; ["Incomplete"; "(Weight, XcmErrorV0)"]; ["Error"; "XcmErrorV0"]] [] 0 false 0);
   ("OverweightIndex", alias "u64");
   ("Owner", TStruct "enum" "" [["None"; "Null"]; ["Address"; "AccountId"]] [] 0 false 0);
   ("PageCounter", alias "u32");
   ("PageIndexData", TStruct "struct" "" [["beginUsed"; "PageCounter"]; ["endUsed"; "PageCounter"]; ["overweightCount"; "OverweightIndex"]] [] 0 false 0);
   ("PalletCallMetadataV14", TStruct "struct" "" [["type"; "SiLookupTypeId"]] [] 0 false 0);
   ("PalletErrorMetadataV14", TStruct "struct" "" [["type"; "SiLookupTypeId"]] [] 0 false 0);
   ("PalletEventMetadataV14", TStruct "struct" "" [["type"; "SiLookupTypeId"]] [] 0 false 0);
   ("PalletId", alias "LockIdentifier");
   ("PalletInfoV3", TStruct "struct" "" [["index"; "Compact<u32>"]; ["name"; "Vec<u8>"]; ["module_name"; "Vec<u8>"]; ["major"; "Compact<u32>"]; ["minor"; "Compact<u32>"]; ["patch"; "Compact<u32>"]] [] 0 false 0);
   ("PalletVersion", TStruct "struct" "" [["major"; "u16"]; ["minor"; "u8"]; ["patch"; "u8"]] [] 0 false 0);
   ("PalletsOrigin", alias "OriginCaller");
   ("ParaGenesisArgs", TStruct "struct" "" [["genesisHead"; "Bytes"]; ["validationCode"; "Bytes"]; ["parachain"; "bool"]] [] 0 false 0);
   ("ParaId", alias "u32");
   ("ParaInfo", TStruct "struct" "" [["manager"; "AccountId"]; ["deposit"; "Balance"]] [] 0 false 0);
   ("ParaLifecycle", TStruct "enum" "" [] ["Onboarding"; "Parathread"; "Parachain"; "UpgradingToParachain"; "DowngradingToParathread"; "OutgoingParathread"; "OutgoingParachain"] 0 false 0);
   ("ParaPastCodeMeta", TStruct "struct" "" [["upgradeTimes"; "Vec<ReplacementTimes>"]; ["lastPruned"; "Option<BlockNumber>"]] [] 0 false 0);
   ("ParaScheduling", TStruct "enum" "" [] ["Always"; "Dynamic"] 0 false 0);
   ("ParaValidatorIndex", alias "u32");
   ("ParachainDispatchOrigin", TStruct "enum" "" [] ["Signed"; "Parachain"; "Root"] 0 false 0);
   ("ParachainInherentData", TStruct "struct" "" [["validationData"; "PersistedValidationData"]; ["relayChainState"; "StorageProof"]; ["downwardMessages"; "Vec<InboundDownwardMessage>"]; ["horizontalMessages"; "BTreeMap<ParaId, VecInboundHrmpMessage>"]] [] 0 false 0);
   ("ParachainProposal", TStruct "struct" "" [["proposer"; "AccountId"]; ["genesis_head"; "HeadData"]; ["validators"; "Vec<ValidatorId>"]; ["name"; "Vec<U8>"]; ["balance"; "Balance"]] [] 0 false 0);
   ("ParachainsInherentData", TStruct "struct" "" [["bitfields"; "SignedAvailabilityBitfields"]; ["backedCandidates"; "Vec<BackedCandidate>"]; ["disputes"; "MultiDisputeStatementSet"]; ["parentHeader"; "Header"]] [] 0 false 0);
   ("Parameter", alias "Null");
   ("ParathreadClaim", alias "(ParaId, CollatorId)");
   ("ParathreadClaimQueue", TStruct "struct" "" [["queue"; "Vec<QueuedParathread>"]; ["nextCoreOffset"; "u32"]] [] 0 false 0);
   ("ParathreadEntry", TStruct "struct" "" [["claim"; "ParathreadClaim"]; ["retries"; "u32"]] [] 0 false 0);
   ("Pays", TStruct "enum" "" [] ["Yes"; "No"] 0 false 0);
   ("PendingChange", TStruct "struct" "" [["nextAuthorities"; "AuthorityList"]; ["delay"; "BlockNumber"]; ["canonHeight"; "BlockNumber"]; ["canonHash"; "BlockHash"]; ["delayKind"; "DelayKind"]] [] 0 false 0);
   ("PendingPause", TStruct "struct" "" [["scheduledAt"; "BlockNumber"]; ["delay"; "BlockNumber"]] [] 0 false 0);
   ("PendingResume", TStruct "struct" "" [["scheduledAt"; "BlockNumber"]; ["delay"; "BlockNumber"]] [] 0 false 0);
   ("PerDispatchClass", TStruct "struct" "" [["normal"; "WeightPerClass"]; ["operational"; "WeightPerClass"]; ["mandatory"; "WeightPerClass"]] [] 0 false 0);
   ("PerDispatchClassU32", TStruct "struct" "" [["normal"; "u32"]; ["operational"; "u32"]; ["mandatory"; "u32"]] [] 0 false 0);
   ("PerU16", alias "u16");
   ("Perbill", alias "u32");
   ("Percent", alias "u8");
   ("Period", alias "(BlockNumber, u32)");
   ("Permill", alias "u32");
   ("PermissionLatest", alias "PermissionsV1");
   ("PermissionVersions", TStruct "enum" "" [["V1"; "PermissionsV1"]] [] 0 false 0);
   ("PermissionsV1", TStruct "struct" "" [["update"; "Owner"]; ["mint"; "Owner"]; ["burn"; "Owner"]] [] 0 false 0);
   ("Perquintill", alias "u64");
   ("PersistedValidationData", TStruct "struct" "" [["parentHead"; "HeadData"]; ["relayParentNumber"; "RelayChainBlockNumber"]; ["relayParentStorageRoot"; "Hash"]; ["maxPovSize"; "u32"]] [] 0 false 0);
   ("PhantomData", alias "Null");
   ("Phase", TStruct "enum" "" [["ApplyExtrinsic"; "u32"]; ["Finalization"; "Null"]; ["Initialization"; "Null"]] [] 0 false 0);
   ("PhragmenScore", alias "[u128; 3]");
   ("Points", alias "u32");
   ("PortableRegistry", alias "GenericPortableRegistry");
   ("PortableType", TStruct "struct" "" [["id"; "SiLookupTypeId"]; ["type"; "SiType"]] [] 0 false 0);
   ("Precommit", TStruct "struct" "" [["target_hash"; "BridgedBlockHash"]; ["target_number"; "BridgedBlockNumber"]] [] 0 false 0);
   ("Precommits", TStruct "struct" "" [["currentWeight"; "u32"]; ["missing"; "BTreeSet<AuthorityId>"]] [] 0 false 0);
   ("PrefabWasmModule", TStruct "struct" "" [["scheduleVersion"; "Compact<u32>"]; ["initial"; "Compact<u32>"]; ["maximum"; "Compact<u32>"]; ["_reserved"; "PrefabWasmModuleReserved"]; ["code"; "Bytes"]] [] 0 false 0);
   ("PrefabWasmModuleReserved", alias "Option<Null>");
   ("PreimageStatus", TStruct "enum" "" [["Missing"; "BlockNumber"]; ["Available"; "PreimageStatusAvailable"]] [] 0 false 0);
   ("PreimageStatusAvailable", TStruct "struct" "" [["data"; "Bytes"]; ["provider"; "AccountId"]; ["deposit"; "Balance"]; ["since"; "BlockNumber"]; ["expiry"; "Option<BlockNumber>"]] [] 0 false 0);
   ("Prevotes", TStruct "struct" "" [["currentWeight"; "u32"]; ["missing"; "BTreeSet<AuthorityId>"]] [] 0 false 0);
   ("PriorLock", TStruct "struct" "" [["blockNumber"; "BlockNumber"]; ["balance"; "Balance"]] [] 0 false 0);
   ("Priority", alias "u8");
   ("PropIndex", alias "U32");
   ("Proposal", alias "BoxProposal");
   ("ProposalCategory", TStruct "enum" "" [] ["Signaling"] 0 false 0);
   ("ProposalContents", alias "Bytes");
   ("ProposalIndex", alias "u32");
   ("ProposalStage", TStruct "enum" "" [] ["PreVoting"; "Voting"; "Completed"] 0 false 0);
   ("ProposalTitle", alias "Bytes");
   ("ProxyAnnouncement", TStruct "struct" "" [["real"; "AccountId"]; ["callHash"; "Hash"]; ["height"; "BlockNumber"]] [] 0 false 0);
   ("ProxyDefinition", TStruct "struct" "" [["delegate"; "AccountId"]; ["proxyType"; "ProxyType"]; ["delay"; "BlockNumber"]] [] 0 false 0);
   ("ProxyState", TStruct "struct" "" [["Open"; "AccountId"]; ["Active"; "AccountId"]] [] 0 false 0);
   ("ProxyType", TStruct "enum" "" [] ["Any"; "NonTransfer"; "Governance"; "Staking"; "CancelProxy"] 0 false 0);
   ("QueryHolding", TStruct "struct" "" [["query_id"; "Compact<u64>"]; ["dest"; "MultiLocation"]; ["assets"; "Vec<MultiAsset>"]] [] 0 false 0);
   ("QueryId", alias "u64");
   ("QueryResponseInfoV3", TStruct "struct" "" [["destination"; "MultiLocationV3"]; ["query_id"; "Compact<u64>"]; ["max_weight"; "WeightV2"]] [] 0 false 0);
   ("QueryResponseV3", TStruct "struct" "" [["query_id"; "compact<u64>"]; ["response"; "ResponseV3"]; ["max_weight"; "WeightV2"]; ["querier"; "Option<MultiLocationV3>"]] [] 0 false 0);
   ("QueryStatus", TStruct "enum" "" [["Pending"; "[[""responder"", ""VersionedMultiLocation""], [""maybeNotify"", ""Option<(u8, u8)>""], [""timeout"", ""BlockNumber""]]"]; ["Ready"; "[[""response"", ""VersionedResponse""], [""at"", ""BlockNumber""]]"]] [] 0 false 0);
   ("QueueConfigData", TStruct "struct" "" [["suspendThreshold"; "u32"]; ["dropThreshold"; "u32"]; ["resumeThreshold"; "u32"]; ["thresholdWeight"; "Weight"]; ["weightRestrictDecay"; "Weight"]] [] 0 false 0);
   ("QueuedParathread", TStruct "struct" "" [["claim"; "ParathreadEntry"]; ["coreOffset"; "u32"]] [] 0 false 0);
   ("Randomness", alias "Hash");
   ("RawBabePreDigest", TStruct "enum" "" [["isPhantom"; "bool"]; ["Primary"; "RawBabePreDigestPrimary"]; ["Secondary"; "RawBabePreDigestSecondary"]; ["VRF"; "RawBabePreDigestSecondaryVRF"]] [] 0 false 0);
   ("RawBabePreDigestCompat", TStruct "enum" "" [["Zero"; "u32"]; ["One"; "u32"]; ["Two"; "u32"]; ["Three"; "u32"]] [] 0 false 0);
   ("RawOrigin", TStruct "enum" "" [["Root"; "Null"]; ["Signed"; "AccountId"]; ["None"; "Null"]] [] 0 false 0);
   ("RawSolution", TStruct "struct" "" [["compact"; "CompactAssignments"]; ["score"; "ElectionScore"]; ["round"; "u32"]] [] 0 false 0);
   ("ReadProof", TStruct "struct" "" [["at"; "Hash"]; ["proof"; "Vec<Bytes>"]] [] 0 false 0);
   ("ReadySolution", TStruct "struct" "" [["supports"; "SolutionSupports"]; ["score"; "ElectionScore"]; ["compute"; "ElectionCompute"]] [] 0 false 0);
   ("Reasons", TStruct "enum" "" [] ["Fee"; "Misc"; "All"] 0 false 0);
   ("RecoveryConfig", TStruct "struct" "" [["delayPeriod"; "BlockNumber"]; ["deposit"; "Balance"]; ["friends"; "Vec<AccountId>"]; ["threshold"; "u16"]] [] 0 false 0);
   ("RefCount", alias "u8");
   ("RefCount1", alias "u32");
   ("ReferendumIndex", alias "U32");
   ("ReferendumInfo", TStruct "struct" "" [["end"; "BlockNumber"]; ["proposal"; "Proposal"]; ["threshold"; "VoteThreshold"]; ["delay"; "BlockNumber"]] [] 0 false 0);
   ("ReferendumInfo<BlockNumber, Hash, Balance>", TStruct "enum" "" [["Ongoing"; "ReferendumStatus"]; ["Finished"; "ReferendumInfoFinished"]] [] 0 false 0);
   ("ReferendumInfo<BlockNumber, Hash, BalanceOf>", TStruct "enum" "" [["Ongoing"; "ReferendumStatus"]; ["Finished"; "ReferendumInfoFinished"]] [] 0 false 0);
   ("ReferendumInfo<BlockNumber, Hash>", TStruct "struct" "" [["end"; "BlockNumber"]; ["proposalHash"; "Hash"]; ["threshold"; "VoteThreshold"]; ["delay"; "BlockNumber"]] [] 0 false 0);
   ("ReferendumInfo<BlockNumber, Proposal>", TStruct "struct" "" [["end"; "BlockNumber"]; ["proposal"; "Proposal"]; ["threshold"; "VoteThreshold"]; ["delay"; "BlockNumber"]] [] 0 false 0);
   ("ReferendumInfoFinished", TStruct "struct" "" [["approved"; "bool"]; ["end"; "BlockNumber"]] [] 0 false 0);
   ("ReferendumStatus", TStruct "struct" "" [["end"; "BlockNumber"]; ["proposalHash"; "Hash"]; ["threshold"; "VoteThreshold"]; ["delay"; "BlockNumber"]; ["tally"; "Tally"]] [] 0 false 0);
   ("RegisteredParachainInfo", TStruct "struct" "" [["validators"; "Vec<ValidatorId>"]; ["proposer"; "AccountId"]] [] 0 false 0);
   ("RegistrarIndex", alias "u32");
   ("RegistrarInfo", TStruct "struct" "" [["account"; "AccountId"]; ["fee"; "Balance"]; ["fields"; "IdentityFields"]] [] 0 false 0);
   ("Registration", TStruct "struct" "" [["judgements"; "Vec<RegistrationJudgement>"]; ["deposit"; "Balance"]; ["info"; "IdentityInfo"]] [] 0 false 0);
   ("RegistrationJudgement", TStruct "struct" "" [["col1"; "RegistrarIndex"]; ["col2"; "Judgement"]] [] 0 false 0);
   ("RelayBlockNumber", alias "u32");
   ("RelayChainBlockNumber", alias "RelayBlockNumber");
   ("RelayChainHash", alias "RelayHash");
   ("RelayHash", alias "Hash");
   ("RelayTo", TStruct "struct" "" [["dest"; "MultiLocation"]; ["inner"; "VersionedXcm"]] [] 0 false 0);
   ("RelayedFrom", TStruct "struct" "" [["superorigin"; "MultiLocation"]; ["inner"; "VersionedXcm"]] [] 0 false 0);
   ("RelayerId", alias "AccountId");
   ("Releases", alias "ReleasesBalances");
   ("ReleasesBalances", TStruct "enum" "" [] ["V1_0_0"; "V2_0_0"; "V3_0_0"; "V4_0_0"; "V5_0_0"] 0 false 0);
   ("Remark", alias "[u8; 32]");
   ("Renouncing", TStruct "enum" "" [["Member"; "Null"]; ["RunnerUp"; "Null"]; ["Candidate"; "Compact<u32>"]] [] 0 false 0);
   ("RentProjection", TStruct "enum" "" [["EvictionAt"; "BlockNumber"]; ["NoEviction"; "Null"]] [] 0 false 0);
   ("ReplacementTimes", TStruct "struct" "" [["expectedAt"; "BlockNumber"]; ["activatedAt"; "BlockNumber"]] [] 0 false 0);
   ("ReportIdOf", alias "Hash");
   ("ReportedRoundStates", TStruct "struct" "" [["setId"; "u32"]; ["best"; "RoundState"]; ["background"; "Vec<RoundState>"]] [] 0 false 0);
   ("Reporter", alias "AccountId");
   ("ReserveAssetDeposit", TStruct "struct" "" [["assets"; "Vec<MultiAsset>"]; ["effects"; "Vec<Order>"]] [] 0 false 0);
   ("Response", alias "ResponseV1");
   ("ResponseV0", TStruct "enum" "" [["Assets"; "Vec<MultiAssetV0>"]] [] 0 false 0);
   ("ResponseV1", TStruct "enum" "" [["Assets"; "MultiAssetsV1"]; ["Version"; "U32"]] [] 0 false 0);
   ("ResponseV2", TStruct "enum" "" [["Null"; "empty"]; ["Assets"; "MultiAssetsV2"]; ["ExecutionResult"; "ResponseV2Result"]; ["Version"; "U32"]] [] 0 false 0);
   ("ResponseV2Error", alias "(u32, XcmErrorV2)");
   ("ResponseV2Result", alias "Result<U32, ResponseV2Error>");
   ("ResponseV3", TStruct "enum" "" [["NULL"; "NULL"]; ["Assets"; "MultiAssetsV3"]; ["ExecutionResult"; "Option<(U32, XcmTraitsErrorV3)>"]; ["Version"; "U32"]; ["PalletsInfo"; "Vec<PalletInfoV3>"]; ["DispatchResult"; "MaybeErrorCodeV3"]] [] 0 false 0);
   ("Retriable", TStruct "enum" "" [["Never"; "Null"]; ["WithRetries"; "u32"]] [] 0 false 0);
   ("RewardDestination", TStruct "enum" "" [["Staked"; "Null"]; ["Stash"; "Null"]; ["Controller"; "Null"]; ["Account"; "AccountId"]; ["None"; "Null"]] [] 0 false 0);
   ("RewardPoint", alias "u32");
   ("RoundNumber", alias "U64");
   ("RoundState", TStruct "struct" "" [["round"; "u32"]; ["totalWeight"; "u32"]; ["thresholdWeight"; "u32"]; ["prevotes"; "Prevotes"]; ["precommits"; "Precommits"]] [] 0 false 0);
   ("RpcMethods", TStruct "struct" "" [["version"; "u32"]; ["methods"; "Vec<Text>"]] [] 0 false 0);
   ("RuntimeDbWeight", TStruct "struct" "" [["read"; "Weight"]; ["write"; "Weight"]] [] 0 false 0);
   ("RuntimeVersion", TStruct "struct" "" [["specName"; "Text"]; ["implName"; "Text"]; ["authoringVersion"; "u32"]; ["specVersion"; "u32"]; ["implVersion"; "u32"]; ["apis"; "Vec<RuntimeVersionApi>"]; ["transactionVersion"; "u32"]] [] 0 false 0);
   ("RuntimeVersionApi", alias "(ApiId, u32)");
   ("Schedule", TStruct "struct" "" [["version"; "u32"]; ["enablePrintln"; "bool"]; ["limits"; "Limits"]; ["instructionWeights"; "InstructionWeights"]; ["hostFnWeights"; "HostFnWeights"]] [] 0 false 0);
   ("SchedulePeriod", alias "(BlockNumber, u32)");
   ("SchedulePriority", alias "u8");
   ("ScheduleTo212", TStruct "struct" "" [["version"; "u32"]; ["putCodePerByteCost"; "Gas"]; ["growMemCost"; "Gas"]; ["regularOpCost"; "Gas"]; ["returnDataPerByteCost"; "Gas"]; ["eventDataPerByteCost"; "Gas"]; ["eventPerTopicCost"; "Gas"]; ["eventBaseCost"; "Gas"]; ["sandboxDataReadCost"; "Gas"]; ["sandboxDataWriteCost"; "Gas"]; ["maxEventTopics"; "u32"]; ["maxStackHeight"; "u32"]; ["maxMemoryPages"; "u32"]; ["enablePrintln"; "bool"]; ["maxSubjectLen"; "u32"]] [] 0 false 0);
   ("ScheduleTo258", TStruct "struct" "" [["version"; "u32"]; ["putCodePerByteCost"; "Gas"]; ["growMemCost"; "Gas"]; ["regularOpCost"; "Gas"]; ["returnDataPerByteCost"; "Gas"]; ["eventDataPerByteCost"; "Gas"]; ["eventPerTopicCost"; "Gas"]; ["eventBaseCost"; "Gas"]; ["sandboxDataReadCost"; "Gas"]; ["sandboxDataWriteCost"; "Gas"]; ["transferCost"; "Gas"]; ["maxEventTopics"; "u32"]; ["maxStackHeight"; "u32"]; ["maxMemoryPages"; "u32"]; ["enablePrintln"; "bool"]; ["maxSubjectLen"; "u32"]] [] 0 false 0);
   ("Scheduled", TStruct "struct" "" [["maybe_id"; "Option<Bytes>"]; ["priority"; "SchedulePriority"]; ["call"; "Call"]; ["maybe_periodic"; "Option<SchedulePeriod>"]; ["origin"; "PalletsOrigin"]] [] 0 false 0);
   ("Scheduling", TStruct "enum" "" [] ["Always"; "Dynamic"] 0 false 0);
   ("SeatHolder", TStruct "struct" "" [["who"; "AccountId"]; ["stake"; "Balance"]; ["deposit"; "Balance"]] [] 0 false 0);
   ("SeedOf", alias "Hash");
   ("ServiceQuality", TStruct "enum" "" [] ["Ordered"; "Fast"] 0 false 0);
   ("SessionIndex", alias "U32");
   ("SessionInfo", TStruct "struct" "" [["validators"; "Vec<ValidatorId>"]; ["discoveryKeys"; "Vec<AuthorityDiscoveryId>"]; ["assignmentKeys"; "Vec<AssignmentId>"]; ["validatorGroups"; "Vec<SessionInfoValidatorGroup>"]; ["nCores"; "u32"]; ["zerothDelayTrancheWidth"; "u32"]; ["relayVrfModuloSamples"; "u32"]; ["nDelayTranches"; "u32"]; ["noShowSlots"; "u32"]; ["neededApprovals"; "u32"]] [] 0 false 0);
   ("SessionInfoValidatorGroup", alias "Vec<ParaValidatorIndex>");
   ("SessionKeys1", alias "(AccountId)");
   ("SessionKeys10", alias "(AccountId, AccountId, AccountId, AccountId, AccountId, AccountId, AccountId, AccountId, AccountId, AccountId)");
   ("SessionKeys10B", alias "(AccountId, AccountId, AccountId, AccountId, AccountId, AccountId, AccountId, AccountId, AccountId, BeefyKey)");
   ("SessionKeys2", alias "(AccountId, AccountId)");
   ("SessionKeys3", alias "(AccountId, AccountId, AccountId)");
   ("SessionKeys4", alias "(AccountId, AccountId, AccountId, AccountId)");
   ("SessionKeys5", alias "(AccountId, AccountId, AccountId, AccountId, AccountId)");
   ("SessionKeys6", alias "(AccountId, AccountId, AccountId, AccountId, AccountId, AccountId)");
   ("SessionKeys6B", alias "(AccountId, AccountId, AccountId, AccountId, AccountId, BeefyKey)");
   ("SessionKeys7", alias "(AccountId, AccountId, AccountId, AccountId, AccountId, AccountId, AccountId)");
   ("SessionKeys7B", alias "(AccountId, AccountId, AccountId, AccountId, AccountId, AccountId, BeefyKey)");
   ("SessionKeys8", alias "(AccountId, AccountId, AccountId, AccountId, AccountId, AccountId, AccountId, AccountId)");
   ("SessionKeys8B", alias "(AccountId, AccountId, AccountId, AccountId, AccountId, AccountId, AccountId, BeefyKey)");
   ("SessionKeys9", alias "(AccountId, AccountId, AccountId, AccountId, AccountId, AccountId, AccountId, AccountId, AccountId)");
   ("SessionKeys9B", alias "(AccountId, AccountId, AccountId, AccountId, AccountId, AccountId, AccountId, AccountId, BeefyKey)");
   ("SessionKeysPolkadot", TStruct "struct" "" [["grandpa"; "AccountId"]; ["babe"; "AccountId"]; ["im_online"; "AccountId"]; ["authority_discovery"; "AccountId"]; ["parachains"; "AccountId"]] [] 0 false 0);
   ("SetId", alias "u64");
   ("SiField", TStruct "struct" "" [["name"; "Option<Text>"]; ["type"; "SiLookupTypeId"]; ["typeName"; "Option<Text>"]; ["docs"; "Vec<Text>"]] [] 0 false 0);
   ("SiLookupTypeId", alias "Compact<u32>");
   ("SiPath", alias "Vec<Text>");
   ("SiType", TStruct "struct" "" [["path"; "SiPath"]; ["params"; "Vec<SiTypeParameter>"]; ["def"; "SiTypeDef"]; ["docs"; "Vec<Text>"]] [] 0 false 0);
   ("SiTypeDef", TStruct "enum" "" [["Composite"; "SiTypeDefComposite"]; ["Variant"; "SiTypeDefVariant"]; ["Sequence"; "SiTypeDefSequence"]; ["Array"; "SiTypeDefArray"]; ["Tuple"; "SiTypeDefTuple"]; ["Primitive"; "SiTypeDefPrimitive"]; ["Compact"; "SiTypeDefCompact"]; ["BitSequence"; "SiTypeDefBitSequence"]; ["Range"; "SiTypeDefRange"]; ["HistoricMetaCompat"; "String"]] [] 0 false 0);
   ("SiTypeDefArray", TStruct "struct" "" [["len"; "u32"]; ["type"; "SiLookupTypeId"]] [] 0 false 0);
   ("SiTypeDefBitSequence", TStruct "struct" "" [["bitStoreType"; "SiLookupTypeId"]; ["bitOrderType"; "SiLookupTypeId"]] [] 0 false 0);
   ("SiTypeDefCompact", TStruct "struct" "" [["type"; "SiLookupTypeId"]] [] 0 false 0);
   ("SiTypeDefComposite", TStruct "struct" "" [["fields"; "Vec<SiField>"]] [] 0 false 0);
   ("SiTypeDefPrimitive", TStruct "enum" "" [] ["Bool"; "Char"; "Str"; "U8"; "U16"; "U32"; "U64"; "U128"; "U256"; "I8"; "I16"; "I32"; "I64"; "I128"; "I256"] 0 false 0);
   ("SiTypeDefRange", TStruct "struct" "" [["start"; "SiLookupTypeId"]; ["end"; "SiLookupTypeId"]; ["inclusive"; "bool"]] [] 0 false 0);
   ("SiTypeDefSequence", TStruct "struct" "" [["type"; "SiLookupTypeId"]] [] 0 false 0);
   ("SiTypeDefTuple", alias "Vec<SiLookupTypeId>");
   ("SiTypeDefVariant", TStruct "struct" "" [["variants"; "Vec<SiVariant>"]] [] 0 false 0);
   ("SiTypeParameter", TStruct "struct" "" [["name"; "Text"]; ["type"; "Option<SiLookupTypeId>"]] [] 0 false 0);
   ("SiVariant", TStruct "struct" "" [["name"; "Text"]; ["fields"; "Vec<SiField>"]; ["index"; "u8"]; ["docs"; "Vec<Text>"]] [] 0 false 0);
   ("SignedAvailabilityBitfield", TStruct "struct" "" [["payload"; "BitVec"]; ["validatorIndex"; "ParaValidatorIndex"]; ["signature"; "ValidatorSignature"]] [] 0 false 0);
   ("SignedAvailabilityBitfields", alias "Vec<SignedAvailabilityBitfield>");
   ("SignedExtensionMetadataV14", TStruct "struct" "" [["identifier"; "Text"]; ["type"; "SiLookupTypeId"]; ["additionalSigned"; "SiLookupTypeId"]] [] 0 false 0);
   ("SignedSubmission", TStruct "struct" "" [["who"; "AccountId"]; ["deposit"; "Balance"]; ["solution"; "RawSolution"]; ["reward"; "Balance"]] [] 0 false 0);
   ("SignedSubmissionOf", alias "SignedSubmission");
   ("SigningContext", TStruct "struct" "" [["sessionIndex"; "SessionIndex"]; ["parentHash"; "Hash"]] [] 0 false 0);
   ("SlashingSpans", TStruct "struct" "" [["spanIndex"; "SpanIndex"]; ["lastStart"; "EraIndex"]; ["lastNonzeroSlash"; "EraIndex"]; ["prior"; "Vec<EraIndex>"]] [] 0 false 0);
   ("Slot", alias "u64");
   ("SlotNumber", alias "u64");
   ("SlotRange", TStruct "enum" "" [] ["ZeroZero"; "ZeroOne"; "ZeroTwo"; "ZeroThree"; "OneOne"; "OneTwo"; "OneThree"; "TwoTwo"; "TwoThree"; "ThreeThree"] 0 false 0);
   ("SolutionOrSnapshotSize", TStruct "struct" "" [["voters"; "Compact<u32>"]; ["targets"; "Compact<u32>"]] [] 0 false 0);
   ("SolutionSupport", TStruct "struct" "" [["total"; "ExtendedBalance"]; ["voters"; "Vec<(AccountId, ExtendedBalance)>"]] [] 0 false 0);
   ("SolutionSupports", alias "Vec<(AccountId, SolutionSupport)>");
   ("SpanIndex", alias "u32");
   ("SpanRecord", TStruct "struct" "" [["slashed"; "Balance"]; ["paidOut"; "Balance"]] [] 0 false 0);
   ("SpecVersion", alias "u32");
   ("Sr25519Signature", alias "H512");
   ("StakingLedger<AccountId, BalanceOf>", TStruct "struct" "" [["stash"; "AccountId"]; ["total"; "Compact<Balance>"]; ["active"; "Compact<Balance>"]; ["unlocking"; "Vec<UnlockChunk<Balance>>"]; ["lastReward"; "Option<EraIndex>"]] [] 0 false 0);
   ("Statement", TStruct "enum" "" [["Never"; "Null"]; ["Candidate"; "Hash"]; ["Valid"; "Hash"]; ["Invalid"; "Hash"]] [] 0 false 0);
   ("StatementKind", TStruct "enum" "" [] ["Regular"; "Saft"] 0 false 0);
   ("Status", alias "BalanceStatus");
   ("StorageChangeSet", TStruct "struct" "" [["block"; "Hash"]; ["changes"; "Vec<KeyValueOption>"]] [] 0 false 0);
   ("StorageData", alias "Bytes");
   ("StorageFunctionType", TStruct "enum" "" [] ["PlainType"; "MapType"; "DoubleMapType"; "NMap"] 0 false 0);
   ("StorageFunctionTypeV14", TStruct "enum" "" [] ["PlainType"; "Map"] 0 false 0);
   ("StorageHasher", TStruct "enum" "" [] ["Blake2_128"; "Blake2_256"; "Blake2_128Concat"; "Twox128"; "Twox256"; "Twox64Concat"; "Identity"] 0 false 0);
   ("StorageKey", alias "Bytes");
   ("StorageModify", TStruct "enum" "" [] ["Optional"; "Default"] 0 false 0);
   ("StorageProof", TStruct "struct" "" [["trieNodes"; "Vec<Bytes>"]] [] 0 false 0);
   ("StoredPendingChange", TStruct "struct" "" [["scheduledAt"; "BlockNumber"]; ["delay"; "BlockNumber"]; ["nextAuthorities"; "AuthorityList"]] [] 0 false 0);
   ("StoredState", TStruct "enum" "" [["Live"; "Null"]; ["PendingPause"; "PendingPause"]; ["Paused"; "Null"]; ["PendingResume"; "PendingResume"]] [] 0 false 0);
   ("StrikeCount", alias "u32");
   ("SubId", alias "u32");
   ("SubmissionIndicesOf", alias "BTreeMap<ElectionScore, u32>");
   ("SyncState", TStruct "struct" "" [["startingBlock"; "BlockNumber"]; ["currentBlock"; "BlockNumber"]; ["highestBlock"; "Option<BlockNumber>"]] [] 0 false 0);
   ("SystemInherentData", alias "ParachainInherentData");
   ("SystemOrigin", alias "RawOrigin");
   ("TAssetBalance", alias "u64");
   ("TAssetDepositBalance", alias "BalanceOf");
   ("Tally", TStruct "struct" "" [["ayes"; "Balance"]; ["nays"; "Balance"]; ["turnout"; "Balance"]] [] 0 false 0);
   ("TaskAddress", TStruct "struct" "" [["blockNumber"; "BlockNumber"]; ["index"; "u32"]] [] 0 false 0);
   ("TeleportAsset", TStruct "struct" "" [["assets"; "Vec<MultiAsset>"]; ["effects"; "Vec<Order>"]] [] 0 false 0);
   ("Text", alias "String");
   ("Timepoint", TStruct "struct" "" [["height"; "BlockNumber"]; ["index"; "u32"]] [] 0 false 0);
   ("TokenError", TStruct "enum" "" [] ["NoFunds"; "WouldDie"; "BelowMinimum"; "CannotCreate"; "UnknownAsset"; "Frozen"; "Underflow"; "Overflow"] 0 false 0);
   ("TombstoneContractInfo", alias "Hash");
   ("TraceBlockResponse", TStruct "enum" "" [["TraceError"; "TraceError"]; ["BlockTrace"; "BlockTrace"]] [] 0 false 0);
   ("TraceError", TStruct "struct" "" [["error"; "Text"]] [] 0 false 0);
   ("Transact", TStruct "struct" "" [["originType"; "OriginKind"]; ["call"; "Vec<u8>"]] [] 0 false 0);
   ("TransactionPriority", alias "u64");
   ("TransactionRecoveryId", alias "U64");
   ("TransactionSignature", TStruct "struct" "" [["v"; "TransactionRecoveryId"]; ["r"; "H256"]; ["s"; "H256"]] [] 0 false 0);
   ("TransactionV0", alias "LegacyTransaction");
   ("TransactionV1", TStruct "enum" "" [["Legacy"; "LegacyTransaction"]; ["EIP2930"; "EIP2930Transaction"]] [] 0 false 0);
   ("TransactionV2", TStruct "enum" "" [["Legacy"; "LegacyTransaction"]; ["EIP2930"; "EIP2930Transaction"]; ["EIP1559"; "EIP1559Transaction"]] [] 0 false 0);
   ("TransientValidationData", TStruct "struct" "" [["maxCodeSize"; "u32"]; ["maxHeadDataSize"; "u32"]; ["balance"; "Balance"]; ["codeUpgradeAllowed"; "Option<BlockNumber>"]; ["dmqLength"; "u32"]] [] 0 false 0);
   ("TreasuryProposal", TStruct "struct" "" [["proposer"; "AccountId"]; ["value"; "Balance"]; ["beneficiary"; "AccountId"]; ["bond"; "Balance"]] [] 0 false 0);
   ("TrieId", alias "Bytes");
   ("TrieIndex", alias "u32");
   ("UnappliedSlash", TStruct "struct" "" [["validator"; "AccountId"]; ["own"; "Balance"]; ["others"; "Vec<UnappliedSlashOther>"]; ["reporters"; "Vec<AccountId>"]; ["payout"; "Balance"]] [] 0 false 0);
   ("UnappliedSlash<AccountId, BalanceOf>", TStruct "struct" "" [["validator"; "AccountId"]; ["own"; "Balance"]; ["others"; "Vec<UnappliedSlashOther>"]; ["reporters"; "Vec<AccountId>"]; ["payout"; "Balance"]] [] 0 false 0);
   ("UnappliedSlashOther", TStruct "struct" "" [["account"; "AccountId"]; ["amount"; "Balance"]] [] 0 false 0);
   ("UnlockChunk", TStruct "struct" "" [["value"; "Compact<Balance>"]; ["era"; "Compact<EraIndex>"]] [] 0 false 0);
   ("UnrewardedRelayer", TStruct "struct" "" [["relayer"; "RelayerId"]; ["messages"; "DeliveredMessages"]] [] 0 false 0);
   ("UnrewardedRelayersState", TStruct "struct" "" [["unrewardedRelayer_Entries"; "MessageNonce"]; ["messagesInOldestEntry"; "MessageNonce"]; ["totalMessages"; "MessageNonce"]] [] 0 false 0);
   ("UpgradeRestriction", TStruct "enum" "" [] ["Present"] 0 false 0);
   ("UpwardMessage", alias "Bytes");
   ("ValidDisputeStatementKind", TStruct "enum" "" [["Explicit"; "Null"]; ["BackingSeconded"; "Hash"]; ["BackingValid"; "Hash"]; ["ApprovalChecking"; "Null"]] [] 0 false 0);
   ("ValidationCode", alias "Bytes");
   ("ValidationCodeHash", alias "H256");
   ("ValidationData", TStruct "struct" "" [["persisted"; "PersistedValidationData"]; ["transient"; "TransientValidationData"]] [] 0 false 0);
   ("ValidationDataType", TStruct "struct" "" [["validationData"; "ValidationData"]; ["relayChainState"; "Vec<Bytes>"]] [] 0 false 0);
   ("ValidationFunctionParams", TStruct "struct" "" [["maxCodeSize"; "u32"]; ["relayChainHeight"; "RelayChainBlockNumber"]; ["codeUpgradeAllowed"; "Option<RelayChainBlockNumber>"]] [] 0 false 0);
   ("ValidatorCount", alias "u32");
   ("ValidatorId", alias "AccountId");
   ("ValidatorIdOf", alias "ValidatorId");
   ("ValidatorIndex", alias "u16");
   ("ValidatorIndexCompact", alias "Compact<ValidatorIndex>");
   ("ValidatorPrefs", alias "ValidatorPrefsWithCommission");
   ("ValidatorPrefsWithBlocked", TStruct "struct" "" [["commission"; "Compact<Perbill>"]; ["blocked"; "bool"]] [] 0 false 0);
   ("ValidatorPrefsWithCommission", TStruct "struct" "" [["commission"; "Compact<Perbill>"]] [] 0 false 0);
   ("ValidatorSetId", alias "u64");
   ("ValidatorSignature", alias "Signature");
   ("ValidityAttestation", TStruct "enum" "" [["Never"; "Null"]; ["Implicit"; "ValidatorSignature"]; ["Explicit"; "ValidatorSignature"]] [] 0 false 0);
   ("VecInboundHrmpMessage", alias "Vec<InboundHrmpMessage>");
   ("VersionMigrationStage", TStruct "enum" "" [["MigrateSupportedVersion"; "Null"]; ["MigrateVersionNotifiers"; "Null"]; ["NotifyCurrentTargets"; "Option<Bytes>"]; ["MigrateAndNotifyOldTargets"; "Null"]] [] 0 false 0);
   ("VersionedMultiAsset", TStruct "enum" "" [["V0"; "MultiAssetV0"]; ["V1"; "MultiAssetV1"]; ["V2"; "MultiAssetV2"]] [] 0 false 0);
   ("VersionedMultiAssets", TStruct "enum" "" [["V0"; "Vec<MultiAssetV0>"]; ["V1"; "MultiAssetsV1"]; ["V2"; "MultiAssetsV2"]] [] 0 false 0);
   ("VersionedMultiLocation", TStruct "enum" "" [["V0"; "MultiLocationV0"]; ["V1"; "MultiLocationV1"]; ["V2"; "MultiLocationV2"]] [] 0 false 0);
   ("VersionedResponse", TStruct "struct" "" [["V0"; "ResponseV0"]; ["V1"; "ResponseV1"]; ["V2"; "ResponseV2"]] [] 0 false 0);
   ("VersionedXcm", TStruct "enum" "" [["V0"; "XcmV0"]; ["V1"; "XcmV1"]; ["V2"; "XcmV2"]; ["V3"; "XcmV3"]] [] 0 false 0);
   ("VestingInfo", TStruct "struct" "" [["locked"; "Balance"]; ["perBlock"; "Balance"]; ["startingBlock"; "BlockNumber"]] [] 0 false 0);
   ("Vote", alias "U8");
   ("VoteStage", TStruct "enum" "" [] ["PreVoting"; "Commit"; "Voting"; "Completed"] 0 false 0);
   ("VoteThreshold", TStruct "enum" "" [] ["SuperMajorityApprove"; "SuperMajorityAgainst"; "SimpleMajority"] 0 false 0);
   ("Voter", TStruct "struct" "" [["votes"; "Vec<AccountId>"]; ["stake"; "Balance"]; ["deposit"; "Balance"]] [] 0 false 0);
   ("Votes", TStruct "struct" "" [["index"; "ProposalIndex"]; ["threshold"; "MemberCount"]; ["ayes"; "Vec<AccountId>"]; ["nays"; "Vec<AccountId>"]] [] 0 false 0);
   ("Voting", TStruct "enum" "" [["Direct"; "VotingDirect"]; ["Delegating"; "VotingDelegating"]] [] 0 false 0);
   ("VotingDelegating", TStruct "struct" "" [["balance"; "Balance"]; ["target"; "AccountId"]; ["conviction"; "Conviction"]; ["delegations"; "Delegations"]; ["prior"; "PriorLock"]] [] 0 false 0);
   ("VotingDirect", TStruct "struct" "" [["votes"; "Vec<VotingDirectVote>"]; ["delegations"; "Delegations"]; ["prior"; "PriorLock"]] [] 0 false 0);
   ("VotingDirectVote", TStruct "struct" "" [["referendumIndex"; "ReferendumIndex"]; ["accountVote"; "AccountVote"]] [] 0 false 0);
   ("VouchingStatus", TStruct "enum" "" [] ["Vouching"; "Banned"] 0 false 0);
   ("VrfData", alias "[u8; 32]");
   ("VrfOutput", alias "[u8; 32]");
   ("VrfProof", alias "[u8; 64]");
   ("Weight", alias "u32");
   ("WeightLimitV2", TStruct "enum" "" [["Unlimited"; "empty"]; ["Limited"; "Compact<u64>"]] [] 0 false 0);
   ("WeightLimitV3", TStruct "enum" "" [["Unlimited"; "Null"]; ["Limited"; "WeightV2"]] [] 0 false 0);
   ("WeightMultiplier", alias "u64");
   ("WeightPerClass", TStruct "struct" "" [["baseExtrinsic"; "Weight"]; ["maxExtrinsic"; "Weight"]; ["maxTotal"; "Option<Weight>"]; ["reserved"; "Option<Weight>"]] [] 0 false 0);
   ("WeightV2", TStruct "struct" "" [["ref_time"; "Compact<u64>"]; ["proof_size"; "Compact<u64>"]] [] 0 false 0);
   ("WildFungibilityV0", alias "WildFungibilityV1");
   ("WildFungibilityV1", TStruct "enum" "" [] ["Fungible"; "NonFungible"] 0 false 0);
   ("WildFungibilityV2", alias "WildFungibilityV1");
   ("WildFungibilityV3", TStruct "enum" "" [] ["Fungible"; "NonFungible"] 0 false 0);
   ("WildMultiAsset", alias "WildMultiAssetV1");
   ("WildMultiAssetV1", TStruct "enum" "" [["All"; "Null"]; ["AllOf"; "[[""id"", ""XcmAssetId""], [""fun"", ""WildFungibilityV1""]]"]] [] 0 false 0);
   ("WildMultiAssetV2", alias "WildMultiAssetV1");
   ("WildMultiAssetV3", TStruct "enum" "" [["All"; "Null"]; ["AllOf"; "[[""id"", ""XcmAssetIdV3""], [""fun"", ""WildFungibilityV3""]]"]; ["AllCounted"; "Compact<u32>"]] [] 0 false 0);
   ("WinnersData", alias "Vec<WinnersDataTuple>");
   ("WinnersDataTuple", alias "(AccountId, ParaId, BalanceOf, SlotRange)");
   ("WinningData", alias "[WinningDataEntry; 10]");
   ("WinningDataEntry", alias "Option<(AccountId, ParaId, BalanceOf)>");
   ("WithdrawAsset", TStruct "struct" "" [["assets"; "Vec<MultiAsset>"]; ["effects"; "Vec<Order>"]] [] 0 false 0);
   ("WithdrawReasons", TStruct "set" "" [] ["TransactionPayment"; "Transfer"; "Reserve"; "Fee"; "Tip"] 8 false 0);
   ("Xcm", alias "XcmV1");
   ("XcmAssetId", TStruct "enum" "" [["Concrete"; "MultiLocation"]; ["Abstract"; "Bytes"]] [] 0 false 0);
   ("XcmAssetIdV3", TStruct "enum" "" [["Concrete"; "MultiLocationV3"]; ["Abstract"; "[u8; 32]"]] [] 0 false 0);
   ("XcmError", alias "XcmErrorV1");
   ("XcmErrorV0", TStruct "enum" "" [["Undefined"; "Null"]; ["Overflow"; "Null"]; ["Unimplemented"; "Null"]; ["UnhandledXcmVersion"; "Null"]; ["UnhandledXcmMessage"; "Null"]; ["UnhandledEffect"; "Null"]; ["EscalationOfPrivilege"; "Null"]; ["UntrustedReserveLocation"; "Null"]; ["UntrustedTeleportLocation"; "Null"]; ["DestinationBufferOverflow"; "Null"]; ["SendFailed"; "Null"]; ["CannotReachDestination"; "(MultiLocation, Xcm)"]; ["MultiLocationFull"; "Null"]; ["FailedToDecode"; "Null"]; ["BadOrigin"; "Null"]; ["ExceedsMaxMessageSize"; "Null"]; ["FailedToTransactAsset"; "Null"]; ["WeightLimitReached"; "Weight"]; ["Wildcard"; "Null"]; ["TooMuchWeightRequired"; "Null"]; ["NotHoldingFees"; "Null"]; ["WeightNotComputable"; "Null"]; ["Barrier"; "Null"]; ["NotWithdrawable"; "Null"]; ["LocationCannotHold"; "Null"]; ["TooExpensive"; "Null"]; ["AssetNotFound"; "Null"]; ["RecursionLimitReached"; "Null"]] [] 0 false 0);
   ("XcmErrorV1", TStruct "enum" "" [["Undefined"; "Null"]; ["Overflow"; "Null"]; ["Unimplemented"; "Null"]; ["UnhandledXcmVersion"; "Null"]; ["UnhandledXcmMessage"; "Null"]; ["UnhandledEffect"; "Null"]; ["EscalationOfPrivilege"; "Null"]; ["UntrustedReserveLocation"; "Null"]; ["UntrustedTeleportLocation"; "Null"]; ["DestinationBufferOverflow"; "Null"]; ["SendFailed"; "Null"]; ["CannotReachDestination"; "(MultiLocationV1, XcmV1)"]; ["MultiLocationFull"; "Null"]; ["FailedToDecode"; "Null"]; ["BadOrigin"; "Null"]; ["ExceedsMaxMessageSize"; "Null"]; ["FailedToTransactAsset"; "Null"]; ["WeightLimitReached"; "Weight"]; ["Wildcard"; "Null"]; ["TooMuchWeightRequired"; "Null"]; ["NotHoldingFees"; "Null"]; ["WeightNotComputable"; "Null"]; ["Barrier"; "Null"]; ["NotWithdrawable"; "Null"]; ["LocationCannotHold"; "Null"]; ["TooExpensive"; "Null"]; ["AssetNotFound"; "Null"]; ["DestinationUnsupported"; "Null"]; ["RecursionLimitReached"; "Null"]] [] 0 false 0);
   ("XcmErrorV2", TStruct "enum" "" [["Undefined"; "empty"]; ["Overflow"; "empty"]; ["Unimplemented"; "empty"]; ["UnhandledXcmVersion"; "empty"]; ["UnhandledXcmMessage"; "empty"]; ["UnhandledEffect"; "empty"]; ["EscalationOfPrivilege"; "empty"]; ["UntrustedReserveLocation"; "empty"]; ["UntrustedTeleportLocation"; "empty"]; ["DestinationBufferOverflow"; "empty"]; ["MultiLocationFull"; "empty"]; ["MultiLocationNotInvertible"; "empty"]; ["FailedToDecode"; "empty"]; ["BadOrigin"; "empty"]; ["ExceedsMaxMessageSize"; "empty"]; ["FailedToTransactAsset"; "empty"]; ["WeightLimitReached"; "Weight"]; ["Wildcard"; "empty"]; ["TooMuchWeightRequired"; "empty"]; ["NotHoldingFees"; "empty"]; ["WeightNotComputable"; "empty"]; ["Barrier"; "empty"]; ["NotWithdrawable"; "empty"]; ["LocationCannotHold"; "empty"]; ["TooExpensive"; "empty"]; ["AssetNotFound"; "empty"]; ["DestinationUnsupported"; "empty"]; ["RecursionLimitReached"; "empty"]; ["Transport"; "empty"]; ["Unroutable"; "empty"]; ["UnknownWeightRequired"; "empty"]; ["Trap"; "u64"]; ["UnknownClaim"; "empty"]; ["InvalidLocation"; "empty"]] [] 0 false 0);
   ("XcmOrder", alias "XcmOrderV1");
   ("XcmOrderV0", TStruct "enum" "" [["Null"; "Null"]; ["DepositAsset"; "[[""assets"", ""Vec<MultiAssetV0>""], [""dest"", ""MultiLocationV0""]]"]; ["DepositReserveAsset"; "[[""assets"", ""Vec<MultiAssetV0>""], [""dest"", ""MultiLocationV0""], [""effects"", ""Vec<XcmOrderV0>""]]"]; ["ExchangeAsset"; "[[""give"", ""Vec<MultiAssetV0>""], [""receive"", ""Vec<MultiAssetV0>""]]"]; ["InitiateReserveWithdraw"; "[[""assets"", ""Vec<MultiAssetV0>""], [""reserve"", ""MultiLocationV0""], [""effects"", ""Vec<XcmOrderV0>""]]"]; ["InitiateTeleport"; "[[""assets"", ""Vec<MultiAssetV0>""], [""dest"", ""MultiLocationV0""], [""effects"", ""Vec<XcmOrderV0>""]]"]; ["QueryHolding"; "[[""queryId"", ""Compact<u64>""], [""dest"", ""MultiLocationV0""], [""assets"", ""Vec<MultiAssetV0>""]]"]; ["BuyExecution"; "[[""fees"", ""MultiAssetV0""], [""weight"", ""u64""], [""debt"", ""u64""], [""haltOnError"", ""bool""], [""xcm"", ""Vec<XcmV0>""]]"]] [] 0 false 0);
   ("XcmOrderV1", TStruct "enum" "" [["Noop"; "Null"]; ["DepositAsset"; "[[""assets"", ""MultiAssetFilterV1""], [""max_assets"", ""u32""], [""beneficiary"", ""MultiLocationV1""]]"]; ["DepositReserveAsset"; "[[""assets"", ""MultiAssetFilterV1""], [""max_assets"", ""u32""], [""dest"", ""MultiLocationV1""], [""effects"", ""Vec<XcmOrderV1>""]]"]; ["ExchangeAsset"; "[[""give"", ""MultiAssetFilterV1""], [""receive"", ""MultiAssetsV1""]]"]; ["InitiateReserveWithdraw"; "[[""assets"", ""MultiAssetFilterV1""], [""reserve"", ""MultiLocationV1""], [""effects"", ""Vec<XcmOrderV1>""]]"]; ["InitiateTeleport"; "[[""assets"", ""MultiAssetFilterV1""], [""dest"", ""MultiLocationV1""], [""effects"", ""Vec<XcmOrderV1>""]]"]; ["QueryHolding"; "[[""queryId"", ""Compact<u64>""], [""dest"", ""MultiLocationV1""], [""assets"", ""MultiAssetFilterV1""]]"]; ["BuyExecution"; "[[""fees"", ""MultiAssetV1""], [""weight"", ""u64""], [""debt"", ""u64""], [""halt_on_error"", ""bool""], [""instructions"", ""Vec<XcmV1>""]]"]] [] 0 false 0);
   ("XcmOrderV2", alias "XcmOrderV1");
   ("XcmOrigin", TStruct "enum" "" [["Xcm"; "MultiLocation"]] [] 0 false 0);
   ("XcmOriginKind", TStruct "enum" "" [] ["Native"; "SovereignAccount"; "Superuser"; "Xcm"] 0 false 0);
   ("XcmResult", TStruct "enum" "" [["Ok"; "()"]; ["Err"; "XcmError"]] [] 0 false 0);
   ("XcmTraitsErrorV3", TStruct "enum" "" [["Overflow"; "NULL"]; ["Unimplemented"; "NULL"]; ["UntrustedReserveLocation"; "NULL"]; ["UntrustedTeleportLocation"; "NULL"]; ["LocationFull"; "NULL"]; ["LocationNotInvertible"; "NULL"]; ["BadOrigin"; "NULL"]; ["InvalidLocation"; "NULL"]; ["AssetNotFound"; "NULL"]; ["FailedToTransactAsset"; "NULL"]; ["NotWithdrawable"; "NULL"]; ["LocationCannotHold"; "NULL"]; ["ExceedsMaxMessageSize"; "NULL"]; ["DestinationUnsupported"; "NULL"]; ["Transport"; "NULL"]; ["Unroutable"; "NULL"]; ["UnknownClaim"; "NULL"]; ["FailedToDecode"; "NULL"]; ["MaxWeightInvalid"; "NULL"]; ["NotHoldingFees"; "NULL"]; ["TooExpensive"; "NULL"]; ["Trap"; "U64"]; ["ExpectationFalse"; "NULL"]; ["PalletNotFound"; "NULL"]; ["NameMismatch"; "NULL"]; ["VersionIncompatible"; "NULL"]; ["HoldingWouldOverflow"; "NULL"]; ["ExportError"; "NULL"]; ["ReanchorFailed"; "NULL"]; ["NoDeal"; "NULL"]; ["FeesNotMet"; "NULL"]; ["LockError"; "NULL"]; ["NoPermission"; "NULL"]; ["Unanchored"; "NULL"]; ["NotDepositable"; "NULL"]; ["UnhandledXcmVersion"; "NULL"]; ["WeightLimitReached"; "WeightV2"]; ["Barrier"; "NULL"]; ["WeightNotComputable"; "NULL"]; ["ExceedsStackLimit"; "NULL"]] [] 0 false 0);
   ("XcmV0", TStruct "enum" "" [["WithdrawAsset"; "[[""assets"", ""Vec<MultiAssetV0>""], [""effects"", ""Vec<XcmOrderV0>""]]"]; ["ReserveAssetDeposit"; "[[""assets"", ""Vec<MultiAssetV0>""], [""effects"", ""Vec<XcmOrderV0>""]]"]; ["TeleportAsset"; "[[""assets"", ""Vec<MultiAssetV0>""], [""effects"", ""Vec<XcmOrderV0>""]]"]; ["QueryResponse"; "[[""queryId"", ""Compact<u64>""], [""response"", ""ResponseV0""]]"]; ["TransferAsset"; "[[""assets"", ""Vec<MultiAssetV0>""], [""dest"", ""MultiLocationV0""]]"]; ["TransferReserveAsset"; "[[""assets"", ""Vec<MultiAssetV0>""], [""dest"", ""MultiLocationV0""], [""effects"", ""Vec<XcmOrderV0>""]]"]; ["Transact"; "[[""originType"", ""XcmOriginKind""], [""requireWeightAtMost"", ""u64""], [""call"", ""DoubleEncodedCall""]]"]; ["HrmpNewChannelOpenRequest"; "[[""sender"", ""Compact<u32>""], [""maxMessageSize"", ""Compact<u32>""], [""maxCapacity"", ""Compact<u32>""]]"]; ["HrmpChannelAccepted"; "[[""recipient"", ""Compact<u32>""]]"]; ["HrmpChannelClosing"; "[[""initiator"", ""Compact<u32>""], [""sender"", ""Compact<u32>""], [""recipient"", ""Compact<u32>""]]"]; ["RelayedFrom"; "[[""who"", ""MultiLocationV0""], [""message"", ""XcmV0""]]"]] [] 0 false 0);
   ("XcmV1", TStruct "enum" "" [["WithdrawAsset"; "[[""assets"", ""MultiAssetsV1""], [""effects"", ""Vec<XcmOrderV1>""]]"]; ["ReserveAssetDeposit"; "[[""assets"", ""MultiAssetsV1""], [""effects"", ""Vec<XcmOrderV1>""]]"]; ["ReceiveTeleportedAsset"; "[[""assets"", ""MultiAssetsV1""], [""effects"", ""Vec<XcmOrderV1>""]]"]; ["QueryResponse"; "[[""queryId"", ""Compact<u64>""], [""response"", ""ResponseV1""]]"]; ["TransferAsset"; "[[""assets"", ""MultiAssetsV1""], [""dest"", ""MultiLocationV1""]]"]; ["TransferReserveAsset"; "[[""assets"", ""MultiAssetsV1""], [""dest"", ""MultiLocationV1""], [""effects"", ""Vec<XcmOrderV1>""]]"]; ["Transact"; "[[""originType"", ""XcmOriginKind""], [""requireWeightAtMost"", ""u64""], [""call"", ""DoubleEncodedCall""]]"]; ["HrmpNewChannelOpenRequest"; "[[""sender"", ""Compact<u32>""], [""maxMessageSize"", ""Compact<u32>""], [""maxCapacity"", ""Compact<u32>""]]"]; ["HrmpChannelAccepted"; "[[""recipient"", ""Compact<u32>""]]"]; ["HrmpChannelClosing"; "[[""initiator"", ""Compact<u32>""], [""sender"", ""Compact<u32>""], [""recipient"", ""Compact<u32>""]]"]; ["RelayedFrom"; "[[""who"", ""MultiLocationV1""], [""message"", ""XcmV1""]]"]; ["SubscribeVersion"; "[[""query_id"", ""U64""], [""max_response_weight"", ""U64""]]"]; ["UnsubscribeVersion"; "NULL"]] [] 0 false 0);
   ("XcmV2", alias "Vec<InstructionV2>");
   ("XcmV3", alias "Vec<InstructionV3>");
   ("XcmVersion", alias "u32");
   ("XcmpMessageFormat", TStruct "enum" "" [] ["ConcatenatedVersionedXcm"; "ConcatenatedEncodedBlob"; "Signals"] 0 false 0);
   ("ethereum::Block", alias "EthBlock");
   ("ethereum::Header", alias "EthHeader");
   ("ethereum::Receipt", alias "EthReceipt");
   ("ethereum::Transaction", alias "EthTransaction");
   ("gas", alias "u64");
   ("schedule::Period<BlockNumber>", alias "(BlockNumber, u32)");
   ("schedule::Priority", alias "u8");
   ("schnorrkel::Randomness", alias "Hash");
   ("schnorrkel::RawVRFOutput", alias "[u8; 32]");
   ("slashing::SlashingSpans", alias "SlashingSpans");
   ("slashing::SpanIndex", alias "SpanIndex");
   ("slashing::SpanRecord<BalanceOf>", alias "SpanRecord");
   ("super::initializationdata<bridgedheader<t, i>>", alias "InitializationData");
   ("weights::ExtrinsicsWeight", alias "ExtrinsicsWeight");
   ("xcm::VersionedXcm", alias "VersionedXcm")].

(** types/registry.go:43-190: the registry of a fresh process. *)
Definition start_registry (o1 o2 : list string) : res reg := load_definitions base_definitions o1 o2 base_reg.
