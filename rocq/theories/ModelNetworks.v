(** The type definitions of single networks: network/*.json.  A user reads such a
    file and calls types.RegCustomTypes(source.LoadTypeRegistry(file)), as
    event_test.go:19-23 and extrinsic_test.go:21-25 do. *)

From Verif Require Import GoBase ModelTools ModelVal ModelRegistry ModelDecode ModelRegister ModelBaseTypes.

(** Entry by entry in the order of the files, each name once in each file.
    Fields absent from an entry have Go's zero value.  encoding/json goes on
    after a value of the wrong kind and leaves the zero value in its place, and
    source/source.go:31-33 ignores the error: a row that is not a list is the
    empty row, a cell that is not a text is the empty text. *)
(** network/acala-test.json *)
Definition net_acala_test : list (string * tstruct) :=
  [("Weight", alias "u64");
   ("CompactAssignments", alias "CompactAssignmentsLatest");
   ("RefCount", alias "u32");
   ("Address", alias "MultiAddress");
   ("LookupSource", alias "MultiAddress");
   ("AccountInfo", alias "AccountInfoWithTripleRefCount")].
(** network/acala.json *)
Definition net_acala : list (string * tstruct) :=
  [("Weight", alias "u64");
   ("CompactAssignments", alias "CompactAssignmentsLatest");
   ("RefCount", alias "u32");
   ("Address", alias "MultiAddress");
   ("LookupSource", alias "MultiAddress");
   ("AccountInfo", alias "AccountInfoWithTripleRefCount")].
(** network/balala.json *)
Definition net_balala : list (string * tstruct) :=
  [("Weight", alias "u64");
   ("CompactAssignments", alias "CompactAssignmentsLatest");
   ("RefCount", alias "u32");
   ("DispatchResult", TStruct "enum" "" [["Ok"; "Null"]; ["Error"; "DispatchError"]] [] 0 false 0);
   ("Address", alias "MultiAddress");
   ("LookupSource", alias "MultiAddress");
   ("Box<<T as Config>::Call>", alias "Call");
   ("Keys#0-12", TStruct "struct" "" [["grandpa"; "AccountId"]; ["babe"; "AccountId"]; ["im_online"; "AccountId"]; ["authority_discovery"; "AccountId"]; ["parachains"; "AccountId"]] [] 0 false 0);
   ("Keys", TStruct "struct" "" [["grandpa"; "AccountId"]; ["babe"; "AccountId"]; ["im_online"; "AccountId"]; ["para_validator"; "AccountId"]; ["para_assignment"; "AccountId"]; ["authority_discovery"; "AccountId"]] [] 0 false 0);
   ("Proposal<AccountId, ValidatorId, BalanceOf>", alias "ParachainProposal");
   ("FullIdentification", alias "NULL");
   ("AccountInfo", alias "AccountInfoWithTripleRefCount");
   ("AuctionIndex", alias "u32");
   ("slots::AuctionIndex", alias "u32");
   ("auctions::AuctionIndex", alias "u32");
   ("FundIndex", alias "u32");
   ("LastContribution<BlockNumber>", TStruct "enum" "" [["Never"; "Null"]; ["PreEnding"; "slots::AuctionIndex"]; ["Ending"; "BlockNumber"]] [] 0 false 0);
   ("TrieIndex", alias "u32");
   ("(LeasePeriodOf, BlockNumber)", TStruct "struct" "" [["lease_index"; "LeasePeriodOf"]; ["ending_block"; "BlockNumber"]] [] 0 false 0);
   ("ParaLifecycle", TStruct "enum" "" [] ["Onboarding"; "Parathread"; "Parachain"; "UpgradingParathread"; "DowngradingParachain"; "OffboardingParathread"; "OffboardingParachain"] 0 false 0);
   ("HeadData", alias "Bytes");
   ("ValidationCode", alias "Bytes");
   ("ParaGenesisArgs", TStruct "struct" "" [["genesis_head"; "HeadData"]; ["validation_code"; "ValidationCode"]; ["parachain"; "bool"]] [] 0 false 0);
   ("ParaInfo<AccountId, BalanceOf>", alias "ParaInfo");
   ("(AccountId, BalanceOf)", alias "ParaInfo");
   ("Vec<Option<(AccountId, BalanceOf)>>", alias "Vec<Option<ParaInfo>>");
   ("WinningData", alias "[Option<WinnerData>; 36]");
   ("WinnerData", TStruct "struct" "" [["accountId"; "AccountId"]; ["paraId"; "ParaId"]; ["amount"; "Balance"]] [] 0 false 0);
   ("ValidatorIndex", alias "u32")].
(** network/bifrost.json *)
Definition net_bifrost : list (string * tstruct) :=
  [("Weight", alias "u64");
   ("CompactAssignments", alias "CompactAssignmentsLatest");
   ("RefCount", alias "u32");
   ("Address", alias "MultiAddress");
   ("LookupSource", alias "MultiAddress");
   ("AccountInfo", alias "AccountInfoWithTripleRefCount");
   ("ProducerKey", TStruct "struct" "" [["producer_name"; "AccountName"]; ["block_signing_key"; "PublicKey"]] [] 0 false 0);
   ("ActionName", alias "u64");
   ("ParachainTransactProxyType", TStruct "enum" "" [["Primary"; "0"]; ["Derived"; "1"]] [] 0 false 0);
   ("AuctionInfo", TStruct "struct" "" [["bid"; "Option<(AccountId, Balance)>"]; ["start"; "BlockNumber"]; ["end"; "Option<BlockNumber>"]] [] 0 false 0);
   ("TxOut", TStruct "enum" "" [["Initialized"; "MultiSigTx"]; ["Created"; "MultiSigTx"]; ["SignComplete"; "MultiSigTx"]; ["Sent"; "Sent"]; ["Succeeded"; "Succeeded"]; ["Failed"; "Failed"]] [] 0 false 0);
   ("ContributionStatus", TStruct "enum" "" [] ["Idle"; "Refunded"; "Unlocked"; "Refunding"] 0 false 0);
   ("ExtraFeeName", TStruct "enum" "" [] ["SalpContribute"; "NoExtraFee"] 0 false 0);
   ("RpcContributionStatus", TStruct "enum" "" [] ["Idle"; "Contributing"; "Refunded"; "Unlocked"; "Redeemed"] 0 false 0);
   ("AccountIdOf", alias "AccountId");
   ("TimestampedValueOf", alias "TimestampedValue");
   ("FundStatus", TStruct "enum" "" [["Ongoing"; "0"]; ["Retired"; "1"]; ["Success"; "2"]; ["Failed"; "3"]; ["RefundWithdrew"; "4"]; ["RedeemWithdrew"; "5"]; ["End"; "6"]] [] 0 false 0);
   ("StorageKeyBytes", alias "Vec<u8>");
   ("OrderInfo", TStruct "struct" "" [["owner"; "AccountIdOf"]; ["vsbond"; "CurrencyId"]; ["supply"; "u128"]; ["remain"; "u128"]; ["unit_price"; "U64F64"]; ["order_id"; "OrderId"]; ["order_state"; "OrderState"]] [] 0 false 0);
   ("DelayedDispatchTime", TStruct "enum" "" [["At"; "BlockNumber"]; ["After"; "BlockNumber"]] [] 0 false 0);
   ("TimestampedValue", TStruct "struct" "" [["value"; "OracleValue"]; ["timestamp"; "Moment"]] [] 0 false 0);
   ("ProducerSchedule", TStruct "struct" "" [["version"; "u32"]; ["producers"; "Vec<ProducerKey>"]] [] 0 false 0);
   ("CrowdloanContributeCall", TStruct "enum" "" [["CrowdloanContribute"; "ContributeCall"]] [] 0 false 0);
   ("Checksum256Array", alias "Vec<Checksum256>");
   ("ParachainDerivedProxyAccountType", TStruct "enum" "" [["Salp"; "0"]; ["Staking"; "1"]] [] 0 false 0);
   ("PalletBalanceOf", alias "Balance");
   ("SwapFee", alias "u128");
   ("BridgeAssetSymbol", TStruct "struct" "" [["blockchain"; "BlockchainType"]; ["symbol"; "Vec<u8>"]; ["precision"; "Precision"]] [] 0 false 0);
   ("Amount", alias "AmountOf");
   ("Withdraw", TStruct "struct" "" [["who"; "AccountIdOf"]; ["index"; "ParaId"]] [] 0 false 0);
   ("DispatchTime", TStruct "enum" "" [["At"; "BlockNumber"]; ["After"; "BlockNumber"]] [] 0 false 0);
   ("TransactionStatus", TStruct "enum" "" [] ["Initialized"; "Created"; "SignComplete"; "Sent"; "Succeeded"; "Failed"] 0 false 0);
   ("FlatMap", TStruct "struct" "" [["map"; "Vec<(ActionName, u64)>"]] [] 0 false 0);
   ("Share", alias "u128");
   ("VersionId", alias "u32");
   ("SignedBlockHeader", TStruct "struct" "" [["block_header"; "BlockHeader"]; ["producer_signature"; "bridgeEosSignature"]] [] 0 false 0);
   ("ShareWeight", alias "Balance");
   ("OracleValue", alias "Price");
   ("TxSig", TStruct "struct" "" [["signature"; "Vec<u8>"]; ["author"; "AccountId"]] [] 0 false 0);
   ("PermissionLevel", TStruct "struct" "" [["actor"; "AccountName"]; ["permission"; "PermissionName"]] [] 0 false 0);
   ("PoolState", TStruct "enum" "" [] ["UnderAudit"; "Approved"; "Ongoing"; "Retired"; "Dead"] 0 false 0);
   ("OrmlBalanceLock", TStruct "struct" "" [["amount"; "Balance"]; ["id"; "LockIdentifier"]] [] 0 false 0);
   ("GraduallyUpdate", TStruct "struct" "" [["key"; "StorageKey"]; ["targetValue"; "StorageValue"]; ["perBlock"; "StorageValue"]] [] 0 false 0);
   ("Failed", TStruct "struct" "" [["tx_id"; "Vec<u8>"]; ["reason"; "Vec<u8>"]] [] 0 false 0);
   ("BancorPool", TStruct "struct" "" [["currency_id"; "CurrencyId"]; ["token_pool"; "Balance"]; ["vstoken_pool"; "Balance"]; ["token_ceiling"; "Balance"]; ["token_base_supply"; "Balance"]; ["vstoken_base_supply"; "Balance"]] [] 0 false 0);
   ("Sent", TStruct "struct" "" [["tx_id"; "Vec<u8>"]; ["from"; "AccountId"]; ["asset_id"; "AssetId"]] [] 0 false 0);
   ("PairInfo", TStruct "struct" "" [["asset0"; "ZenlinkAssetId"]; ["asset1"; "ZenlinkAssetId"]; ["account"; "AccountId"]; ["totalLiquidity"; "ZenlinkAssetBalance"]; ["holdingLiquidity"; "ZenlinkAssetBalance"]; ["reserve0"; "ZenlinkAssetBalance"]; ["reserve1"; "ZenlinkAssetBalance"]; ["lpAssetId"; "ZenlinkAssetId"]] [] 0 false 0);
   ("PoolToken", alias "u128");
   ("BifrostVestingInfo", TStruct "struct" "" [["locked"; "Balance"]; ["per_block"; "Balance"]; ["starting_block"; "BlockNumber"]] [] 0 false 0);
   ("RewardRecord", TStruct "struct" "" [["account_id"; "AccountId"]; ["record_amount"; "Balance"]] [] 0 false 0);
   ("ZenlinkAssetId", TStruct "struct" "" [["chain_id"; "u32"]; ["asset_type"; "u8"]; ["asset_index"; "u32"]] [] 0 false 0);
   ("U64F64", alias "u128");
   ("PoolType", TStruct "enum" "" [] ["Mining"; "Farming"] 0 false 0);
   ("MultiSigTx", TStruct "struct" "" [["chain_id"; "Vec<u8>"]; ["raw_tx"; "Vec<u8>"]; ["multi_sig"; "MultiSig"]; ["action"; "Action"]; ["from"; "AccountId"]; ["asset_id"; "AssetId"]] [] 0 false 0);
   ("TAssetBalance", alias "Balance");
   ("BlockchainType", TStruct "enum" "" [] ["BIFROST"; "EOS"; "IOST"] 0 false 0);
   ("RpcDataProviderId", alias "Text");
   ("FundInfo", TStruct "struct" "" [["raised"; "Balance"]; ["cap"; "Balance"]; ["first_slot"; "LeasePeriod"]; ["last_slot"; "LeasePeriod"]; ["trie_index"; "TrieIndex"]; ["status"; "FundStatus"]] [] 0 false 0);
   ("Extension", alias "(u16, Vec<u8>)");
   ("CurrencyId", TStruct "enum" "" [["Native"; "TokenSymbol"]; ["VToken"; "TokenSymbol"]; ["Token"; "TokenSymbol"]; ["Stable"; "TokenSymbol"]; ["VSToken"; "TokenSymbol"]; ["VSBond"; "(TokenSymbol, ParaId, LeasePeriod, LeasePeriod)"]] [] 0 false 0);
   ("BlockNumberFor", alias "BlockNumber");
   ("TransferOriginType", TStruct "enum" "" [["FromSelf"; "0"]; ["FromRelayChain"; "1"]; ["FromSiblingParaChain"; "2"]] [] 0 false 0);
   ("WithdrawCall", TStruct "enum" "" [["Withdraw"; "Withdraw"]] [] 0 false 0);
   ("PoolDetails", TStruct "struct" "" [["owner"; "AccountId"]; ["swap_fee_rate"; "SwapFee"]; ["active"; "bool"]] [] 0 false 0);
   ("PoolWeight", alias "Balance");
   ("DepositData", TStruct "struct" "" [["deposit"; "Balance"]; ["gain_avgs"; "(CurrencyId, FixedU128)"]; ["update_b"; "BlockNumber"]] [] 0 false 0);
   ("CallOf", alias "Call");
   ("IostTxOut", TStruct "enum" "" [["Initial"; "IostMultiSigTx"]; ["Generated"; "IostMultiSigTx"]; ["Signed"; "IostMultiSigTx"]; ["Processing"; "Processing"]; ["Success"; "Vec<u8>"]; ["Fail"; "Failed"]] [] 0 false 0);
   ("PoolId", alias "u128");
   ("IostAction", TStruct "struct" "" [["contract"; "Vec<u8>"]; ["action_name"; "Vec<u8>"]; ["data"; "Vec<u8>"]] [] 0 false 0);
   ("BlockTimestamp", alias "(u32)");
   ("Currency", alias "CurrencyIdOf");
   ("BiddingOrderUnitOf", alias "BiddingOrderUnit");
   ("RedeemStatus", alias "BalanceOf");
   ("ProducerAuthoritySchedule", TStruct "struct" "" [["version"; "u32"]; ["producers"; "Vec<ProducerAuthority>"]] [] 0 false 0);
   ("UnsignedInt", alias "u32");
   ("BiddingOrderUnit", TStruct "struct" "" [["bidder_id"; "AccountId"]; ["token_id"; "AssetId"]; ["block_num"; "BlockNumber"]; ["votes"; "Balance"]; ["annual_roi"; "Permill"]; ["validator"; "AccountId"]] [] 0 false 0);
   ("Checksum256", alias "([u8;32])");
   ("IncrementalMerkle", TStruct "struct" "" [["_node_count"; "u64"]; ["_active_nodes"; "Checksum256Array"]] [] 0 false 0);
   ("NumberOrHex", TStruct "enum" "" [["Number"; "u64"]; ["Hex"; "U256"]] [] 0 false 0);
   ("KeyWeight", TStruct "struct" "" [["key"; "PublicKey"]; ["weight"; "u16"]] [] 0 false 0);
   ("Keys", alias "SessionKeys1");
   ("Processing", TStruct "struct" "" [["tx_id"; "Vec<u8>"]; ["multi_sig_tx"; "IostMultiSigTx"]] [] 0 false 0);
   ("Precision", alias "u32");
   ("OrderState", TStruct "enum" "" [] ["InTrade"; "Revoked"; "Clinchd"] 0 false 0);
   ("EraId", alias "u32");
   ("StorageValueBytes", alias "Vec<u8>");
   ("IostMultiSigTx", TStruct "struct" "" [["chain_id"; "i32"]; ["raw_tx"; "Vec<u8>"]; ["multi_sig"; "MultiSig"]; ["action"; "IostAction"]; ["from"; "AccountId"]; ["asset_id"; "AssetId"]] [] 0 false 0);
   ("BlockSigningAuthority", alias "(UnsignedInt, BlockSigningAuthorityV0)");
   ("PoolCreateTokenDetails", TStruct "struct" "" [["token_id"; "AssetId"]; ["token_balance"; "Balance"]; ["token_weight"; "PoolWeight"]] [] 0 false 0);
   ("AccountName", alias "u64");
   ("Action", TStruct "struct" "" [["account"; "AccountName"]; ["name"; "ActionName"]; ["authorization"; "Vec<PermissionLevel>"]; ["data"; "Vec<u8>"]] [] 0 false 0);
   ("Contribution", TStruct "struct" "" [["index"; "ParaId"]; ["value"; "BalanceOf"]; ["signature"; "Option<MultiSignature>"]] [] 0 false 0);
   ("OrderedSet", alias "Vec<AccountId>");
   ("AuthorityOrigin", alias "DelayedOrigin");
   ("SystemPalletId", alias "PalletId");
   ("OracleKey", alias "CurrencyId");
   ("MaxLocksOf", alias "u32");
   ("BiddingOrderId", alias "u64");
   ("TokenSymbol", TStruct "enum" "" [["ASG"; "0"]; ["BNC"; "1"]; ["KUSD"; "2"]; ["DOT"; "3"]; ["KSM"; "4"]; ["ETH"; "5"]] [] 0 false 0);
   ("VestingScheduleOf", alias "OrmlVestingSchedule");
   ("StorageValue", alias "Vec<u8>");
   ("ParachainTransactType", TStruct "enum" "" [["Xcm"; "0"]; ["Proxy"; "1"]] [] 0 false 0);
   ("IsExtended", alias "bool");
   ("ZenlinkAssetBalance", alias "u128");
   ("bridgeEosSignature", TStruct "struct" "" [["type_"; "UnsignedInt"]; ["data"; "[u8;65]"]] [] 0 false 0);
   ("StorageVersion", alias "Releases");
   ("BlockSigningAuthorityV0", TStruct "struct" "" [["threshold"; "u32"]; ["keyWeights"; "Vec<KeyWeight>"]] [] 0 false 0);
   ("BlockHeader", TStruct "struct" "" [["timestamp"; "BlockTimestamp"]; ["producer"; "AccountName"]; ["confirmed"; "u16"]; ["previous"; "Checksum256"]; ["transaction_mroot"; "Checksum256"]; ["action_mroot"; "Checksum256"]; ["schedule_version"; "u32"]; ["new_producers"; "Option<ProducerSchedule>"]; ["header_extensions"; "Vec<Extension>"]] [] 0 false 0);
   ("Price", alias "FixedU128");
   ("ContributeCall", TStruct "enum" "" [["Contribute"; "Contribution"]] [] 0 false 0);
   ("CurrencyIdOf", alias "CurrencyId");
   ("MultiSig", TStruct "struct" "" [["signatures"; "Vec<TxSig>"]; ["threshold"; "u8"]] [] 0 false 0);
   ("AmountOf", alias "Balance");
   ("TrieIndex", alias "u32");
   ("ActionReceipt", TStruct "struct" "" [["receiver"; "AccountName"]; ["act_digest"; "Checksum256"]; ["global_sequence"; "u64"]; ["recv_sequence"; "u64"]; ["auth_sequence"; "FlatMap<AccountName, u64>"]; ["code_sequence"; "UnsignedInt"]; ["abi_sequence"; "UnsignedInt"]] [] 0 false 0);
   ("ProducerAuthority", TStruct "struct" "" [["producer_name"; "ActionName"]; ["authority"; "BlockSigningAuthority"]] [] 0 false 0);
   ("ScheduleTaskIndex", alias "u32");
   ("PoolInfo", TStruct "struct" "" [["pool_id"; "PoolId"]; ["creator"; "AccountId"]; ["trading_pair"; "(CurrencyId, CurrencyId)"]; ["min_deposit_to_start"; "Balance"]; ["duration"; "BlockNumber"]; ["after_block_to_start"; "BlockNumber"]; ["update_b"; "BlockNumber"]; ["deposit"; "Balance"]; ["rewards"; "(CurrencyId, RewardData)"]; ["state"; "PoolState"]; ["type"; "PoolType"]; ["block_startup"; "BlockNumber"]] [] 0 false 0);
   ("Succeeded", TStruct "struct" "" [["tx_id"; "Vec<u8>"]] [] 0 false 0);
   ("RewardData", TStruct "struct" "" [["total"; "BalanceOf"]; ["per_block"; "BalanceOf"]; ["claimed"; "BalanceOf"]; ["gain_avg"; "FixedU128"]] [] 0 false 0);
   ("OrmlAccountData", TStruct "struct" "" [["free"; "Balance"]; ["reserved"; "Balance"]; ["frozen"; "Balance"]] [] 0 false 0);
   ("DispatchId", alias "u32");
   ("OrderId", alias "u64");
   ("PermissionName", alias "u64");
   ("DelayedOrigin", TStruct "struct" "" [["delay"; "BlockNumber"]; ["origin"; "PalletsOrigin"]] [] 0 false 0);
   ("DataProviderId", alias "u8");
   ("PublicKey", TStruct "struct" "" [["type_"; "UnsignedInt"]; ["data"; "[u8;33]"]] [] 0 false 0);
   ("OrmlVestingSchedule", TStruct "struct" "" [["start"; "BlockNumber"]; ["period"; "BlockNumber"]; ["periodCount"; "u32"]; ["perPeriod"; "Compact<Balance>"]] [] 0 false 0);
   ("AssetInstance", alias "AssetInstanceV0");
   ("MultiAsset", alias "MultiAssetV0");
   ("Xcm", alias "XcmV0");
   ("XcmOrder", alias "XcmOrderV0");
   ("MultiLocation", alias "MultiLocationV0")].
(** network/canvas.json *)
Definition net_canvas : list (string * tstruct) :=
  [("Weight", alias "u64");
   ("CompactAssignments", alias "CompactAssignmentsLatest");
   ("RefCount", alias "u32");
   ("DispatchResult", TStruct "enum" "" [["Ok"; "Null"]; ["Error"; "DispatchError"]] [] 0 false 0)].
(** network/centrifuge.json *)
Definition net_centrifuge : list (string * tstruct) :=
  [("Weight", alias "u32");
   ("ChainId", alias "u8");
   ("ResourceId", alias "[u8; 32]");
   ("chainbridge::ChainId", alias "u8");
   ("DepositNonce", alias "u64");
   ("Points", alias "u32");
   ("Multiplier", alias "Fixed64");
   ("Address#229-999", alias "GenericAddress");
   ("LookupSource#229-999", alias "GenericAddress");
   ("U256", alias "[u8; 32]");
   ("Box<Proposal>", alias "BoxProposal");
   ("EraPoints", TStruct "struct" "" [["total"; "Points"]; ["individual"; "Vec<Points>"]] [] 0 false 0);
   ("DispatchResult", TStruct "enum" "" [["Ok"; "Null"]; ["Error"; "DispatchError"]] [] 0 false 0);
   ("ReferendumInfo", TStruct "enum" "" [["Ongoing"; "ReferendumStatus"]; ["Finished"; "ReferendumInfoFinished"]] [] 0 false 0);
   ("ProxyType", TStruct "enum" "" [] ["Any"; "NonTransfer"; "Governance"; "Staking"; "SudoBalances"; "IdentityJudgement"] 0 false 0);
   ("AnchorData", TStruct "struct" "" [["anchoredBlock"; "u64"]; ["docRoot"; "H256"]; ["id"; "H256"]] [] 0 false 0);
   ("Fee", TStruct "struct" "" [["key"; "Hash"]; ["price"; "Balance"]] [] 0 false 0);
   ("PreCommitData", TStruct "struct" "" [["expirationBlock"; "u64"]; ["identity"; "H256"]; ["signingRoot"; "H256"]] [] 0 false 0);
   ("Proof", TStruct "struct" "" [["leafHash"; "H256"]; ["sortedHashes"; "H256"]] [] 0 false 0);
   ("MultiAccountData", TStruct "struct" "" [["deposit"; "Balance"]; ["depositor"; "AccountId"]; ["signatories"; "Vec<AccountId>"]; ["threshold"; "u16"]] [] 0 false 0);
   ("Address#1-228", alias "AccountId");
   ("LookupSource#1-228", alias "AccountId");
   ("Weight#235-?", alias "u64");
   ("ReferendumInfo#229-234", TStruct "struct" "" [["end"; "BlockNumber"]; ["proposal"; "Proposal"]; ["threshold"; "VoteThreshold"]; ["delay"; "BlockNumber"]] [] 0 false 0);
   ("Linkage", TStruct "struct" "" [["previous"; "Option<AccountId>"]; ["next"; "Option<AccountId>"]] [] 0 false 0);
   ("CompactAssignments#1000-?", alias "CompactAssignmentsLatest");
   ("RefCount#1000-?", alias "u32");
   ("Address#1000-?", alias "MultiAddress");
   ("LookupSource#1000-?", alias "MultiAddress");
   ("AccountInfo#1000-?", alias "AccountInfoWithTripleRefCount")].
(** network/chainx.json *)
Definition net_chainx : list (string * tstruct) :=
  [("Weight", alias "u64");
   ("CompactAssignments", alias "CompactAssignmentsLatest");
   ("RefCount", alias "u32");
   ("BalanceOf", alias "Balance");
   ("DispatchResult", TStruct "enum" "" [["Ok"; "Null"]; ["Error"; "DispatchError"]] [] 0 false 0);
   ("Address", alias "GenericLookupSource");
   ("LookupSource", alias "GenericLookupSource");
   ("OrderInfo", alias "Order");
   ("OrderProperty", TStruct "struct" "" [["id"; "OrderId"]; ["side"; "Side"]; ["price"; "Price"]; ["amount"; "Amount"]; ["pairId"; "TradingPairId"]; ["submitter"; "AccountId"]; ["orderType"; "OrderType"]; ["createdAt"; "BlockNumber"]] [] 0 false 0);
   ("RpcBalance", alias "String");
   ("Token", alias "Text");
   ("MinerLedger", TStruct "struct" "" [["lastMiningWeight"; "MiningWeight"]; ["lastMiningWeightUpdate"; "BlockNumber"]; ["lastClaim"; "Option<BlockNumber>"]] [] 0 false 0);
   ("UnbondedIndex", alias "u32");
   ("ValidatorInfo", TStruct "struct" "" [["account"; "AccountId"]; ["registeredAt"; "BlockNumber"]; ["isChilled"; "bool"]; ["lastChilled"; "Option<BlockNumber>"]; ["totalNomination"; "RpcBalance"]; ["lastTotalVoteWeight"; "RpcVoteWeight"]; ["lastTotalVoteWeightUpdate"; "BlockNumber"]; ["isValidating"; "bool"]; ["selfBonded"; "RpcBalance"]; ["referralId"; "String"]; ["rewardPotAccount"; "AccountId"]; ["rewardPotBalance"; "RpcBalance"]] [] 0 false 0);
   ("Handicap", TStruct "struct" "" [["highestBid"; "Price"]; ["lowestAsk"; "Price"]] [] 0 false 0);
   ("BtcVoteResult", TStruct "enum" "" [] ["Unfinish"; "Finish"] 0 false 0);
   ("MiningDistribution", TStruct "struct" "" [["asset"; "u32"]; ["staking"; "u32"]] [] 0 false 0);
   ("BtcTxState", TStruct "struct" "" [["txType"; "BtcTxType"]; ["result"; "BtcTxResult"]] [] 0 false 0);
   ("ValidatorProfile", TStruct "struct" "" [["registeredAt"; "BlockNumber"]; ["isChilled"; "bool"]; ["lastChilled"; "Option<BlockNumber>"]; ["referralId"; "ReferralId"]] [] 0 false 0);
   ("Amount", alias "i128");
   ("FeeDetails", TStruct "struct" "" [["inclusionFee"; "Option<InclusionFee<Balance>>"]; ["extraFee"; "Balance"]; ["tip"; "Balance"]; ["finalFee"; "Balance"]] [] 0 false 0);
   ("BtcTxResult", TStruct "enum" "" [] ["Success"; "Failure"] 0 false 0);
   ("TrusteeInfoConfig", TStruct "struct" "" [["minTrusteeCount"; "u32"]; ["maxTrusteeCount"; "u32"]] [] 0 false 0);
   ("AssetRestriction", TStruct "enum" "" [] ["Move"; "Transfer"; "Deposit"; "Withdraw"; "DestroyWithdrawal"; "DestroyFree"] 0 false 0);
   ("AssetLedger", TStruct "struct" "" [["lastTotalMiningWeight"; "MiningWeight"]; ["lastTotalMiningWeightUpdate"; "BlockNumber"]] [] 0 false 0);
   ("RpcTotalAssetInfo", TStruct "struct" "" [["info"; "AssetInfo"]; ["balance"; "BTreeMap<AssetType, RpcBalance>"]; ["isOnline"; "bool"]; ["restrictions"; "AssetRestrictions"]] [] 0 false 0);
   ("FullPairInfo", TStruct "struct" "" [["baseCurrency"; "AssetId"]; ["highestBid"; "RpcPrice"]; ["id"; "TradingPairId"]; ["latestPrice"; "RpcPrice"]; ["latestPriceUpdatedAt"; "BlockNumber"]; ["lowestAsk"; "RpcPrice"]; ["maxValidBid"; "RpcPrice"]; ["minValidAsk"; "RpcPrice"]; ["pipDecimals"; "u32"]; ["quoteCurrency"; "AssetId"]; ["tickDecimals"; "u32"]; ["tradable"; "bool"]] [] 0 false 0);
   ("InclusionFee", TStruct "struct" "" [["baseFee"; "Balance"]; ["lenFee"; "Balance"]; ["adjustedWeightFee"; "Balance"]] [] 0 false 0);
   ("BtcTrusteeSessionInfo", TStruct "struct" "" [["trusteeList"; "Vec<AccountId>"]; ["threshold"; "u16"]; ["hotAddress"; "BtcTrusteeAddrInfo"]; ["coldAddress"; "BtcTrusteeAddrInfo"]] [] 0 false 0);
   ("BtcDepositCache", TStruct "struct" "" [["txid"; "H256"]; ["balance"; "u64"]] [] 0 false 0);
   ("RpcFeeDetails", TStruct "struct" "" [["inclusionFee"; "Option<RpcInclusionFee>"]; ["tip"; "RpcBalance"]; ["extraFee"; "RpcBalance"]; ["finalFee"; "RpcBalance"]] [] 0 false 0);
   ("RpcOrder", TStruct "struct" "" [["orderId"; "OrderId"]; ["side"; "Side"]; ["price"; "RpcPrice"]; ["amount"; "RpcBalance"]; ["pairId"; "TradingPairId"]; ["submitter"; "AccountId"]; ["orderType"; "OrderType"]; ["createdAt"; "BlockNumber"]; ["status"; "OrderStatus"]; ["remaining"; "RpcBalance"]; ["executedIndices"; "Vec<TradingHistoryIndex>"]; ["alreadyFilled"; "RpcBalance"]; ["reservedBalance"; "RpcBalance"]; ["lastUpdateAt"; "BlockNumber"]] [] 0 false 0);
   ("WithdrawalRecordId", alias "u32");
   ("TradingHistoryIndex", alias "u64");
   ("AssetInfo", TStruct "struct" "" [["token"; "String"]; ["tokenName"; "String"]; ["chain"; "Chain"]; ["decimals"; "Decimals"]; ["desc"; "String"]] [] 0 false 0);
   ("String", alias "Text");
   ("BtcNetwork", TStruct "enum" "" [] ["Mainnet"; "Testnet"] 0 false 0);
   ("Memo", alias "Text");
   ("AddrStr", alias "Text");
   ("GenericTrusteeSessionInfo", TStruct "struct" "" [["trusteeList"; "Vec<AccountId>"]; ["threshold"; "u16"]; ["hotAddress"; "Vec<u8>"]; ["coldAddress"; "Vec<u8>"]] [] 0 false 0);
   ("AssetType", TStruct "enum" "" [] ["Usable"; "Locked"; "Reserved"; "ReservedWithdrawal"; "ReservedDexSpot"] 0 false 0);
   ("RpcMiningWeight", alias "String");
   ("VoteWeight", alias "u128");
   ("CurrencyId", alias "AssetId");
   ("BtcAddress", alias "Text");
   ("MiningWeight", alias "u128");
   ("ClaimRestriction", TStruct "struct" "" [["stakingRequirement"; "StakingRequirement"]; ["frequencyLimit"; "BlockNumber"]] [] 0 false 0);
   ("BtcPartialMerkleTree", alias "Vec<u8>");
   ("Chain", TStruct "enum" "" [] ["ChainX"; "Bitcoin"; "Ethereum"; "Polkadot"] 0 false 0);
   ("OrderExecutedInfo", TStruct "struct" "" [["tradingHistoryIdx"; "TradingHistoryIndex"]; ["pairId"; "TradingPairId"]; ["price"; "Price"]; ["maker"; "AccountId"]; ["taker"; "AccountId"]; ["makerOrderId"; "OrderId"]; ["takerOrderId"; "OrderId"]; ["turnover"; "Balance"]; ["executedAt"; "BlockNumber"]] [] 0 false 0);
   ("RpcMiningDividendInfo", TStruct "struct" "" [["own"; "RpcBalance"]; ["other"; "RpcBalance"]; ["insufficientStake"; "RpcBalance"]] [] 0 false 0);
   ("NominatorInfo", TStruct "struct" "" [["lastRebond"; "Option<BlockNumber>"]] [] 0 false 0);
   ("BtcTrusteeAddrInfo", TStruct "struct" "" [["addr"; "BtcAddress"]; ["redeemScript"; "Vec<u8>"]] [] 0 false 0);
   ("BtcTxVerifier", TStruct "enum" "" [] ["Recover"; "RuntimeInterface"] 0 false 0);
   ("WithdrawalLimit", TStruct "struct" "" [["minimalWithdrawal"; "Balance"]; ["fee"; "Balance"]] [] 0 false 0);
   ("FullIdentification", alias "ValidatorId");
   ("ChainAddress", alias "Vec<u8>");
   ("BtcTransaction", alias "Vec<u8>");
   ("GlobalDistribution", TStruct "struct" "" [["treasury"; "u32"]; ["mining"; "u32"]] [] 0 false 0);
   ("TradingPairId", alias "u32");
   ("RpcVoteWeight", alias "String");
   ("BondRequirement", TStruct "struct" "" [["selfBonded"; "Balance"]; ["total"; "Balance"]] [] 0 false 0);
   ("RpcInclusionFee", TStruct "struct" "" [["baseFee"; "RpcBalance"]; ["lenFee"; "RpcBalance"]; ["adjustedWeightFee"; "RpcBalance"]] [] 0 false 0);
   ("WithdrawalRecordOf", alias "WithdrawalRecord");
   ("Order", TStruct "struct" "" [["props"; "OrderProperty"]; ["status"; "OrderStatus"]; ["remaining"; "Balance"]; ["executedIndices"; "Vec<TradingHistoryIndex>"]; ["alreadyFilled"; "Balance"]; ["lastUpdateAt"; "BlockNumber"]] [] 0 false 0);
   ("OrderStatus", TStruct "enum" "" [] ["Created"; "PartialFill"; "Filled"; "PartialFillAndCanceled"; "Canceled"] 0 false 0);
   ("GenericTrusteeIntentionProps", TStruct "struct" "" [["about"; "Text"]; ["hotEntity"; "Vec<u8>"]; ["coldEntity"; "Vec<u8>"]] [] 0 false 0);
   ("WithdrawalRecord", TStruct "struct" "" [["assetId"; "AssetId"]; ["applicant"; "AccountId"]; ["balance"; "Balance"]; ["addr"; "AddrStr"]; ["ext"; "Memo"]; ["height"; "BlockNumber"]] [] 0 false 0);
   ("ReferralId", alias "Text");
   ("BtcWithdrawalProposal", TStruct "struct" "" [["sigState"; "BtcVoteResult"]; ["withdrawalIdList"; "Vec<u32>"]; ["tx"; "BtcTransaction"]; ["trusteeList"; "Vec<(AccountId, bool)>"]] [] 0 false 0);
   ("OrderType", TStruct "enum" "" [] ["Limit"; "Market"] 0 false 0);
   ("FixedAssetPower", alias "u32");
   ("MiningAssetInfo", TStruct "struct" "" [["assetId"; "AssetId"]; ["miningPower"; "FixedAssetPower"]; ["rewardPot"; "AccountId"]; ["rewardPotBalance"; "RpcBalance"]; ["lastTotalMiningWeight"; "RpcMiningWeight"]; ["lastTotalMiningWeightUpdate"; "BlockNumber"]] [] 0 false 0);
   ("StakingRequirement", alias "u32");
   ("BtcHeaderIndex", TStruct "struct" "" [["hash"; "H256"]; ["height"; "u32"]] [] 0 false 0);
   ("MiningDividendInfo", TStruct "struct" "" [["own"; "Balance"]; ["other"; "Balance"]; ["insufficientStake"; "Balance"]] [] 0 false 0);
   ("Decimals", alias "u8");
   ("RpcWithdrawalRecord", TStruct "struct" "" [["assetId"; "AssetId"]; ["applicant"; "AccountId"]; ["balance"; "RpcBalance"]; ["addr"; "String"]; ["ext"; "String"]; ["height"; "BlockNumber"]; ["state"; "WithdrawalState"]] [] 0 false 0);
   ("Unbonded", TStruct "struct" "" [["value"; "Balance"]; ["lockedUntil"; "BlockNumber"]] [] 0 false 0);
   ("BtcHeaderInfo", TStruct "struct" "" [["header"; "BtcHeader"]; ["height"; "u32"]] [] 0 false 0);
   ("BtcTrusteeType", alias "Vec<u8>");
   ("CurrencyPair", TStruct "struct" "" [["base"; "AssetId"]; ["quote"; "AssetId"]] [] 0 false 0);
   ("BtcTxType", TStruct "enum" "" [] ["Withdrawal"; "Deposit"; "HotAndCold"; "TrusteeTransition"; "Irrelevance"] 0 false 0);
   ("NetworkType", TStruct "enum" "" [] ["Mainnet"; "Testnet"] 0 false 0);
   ("BtcHeader", alias "Vec<u8>");
   ("AssetRestrictions", TStruct "struct" "" [["bits"; "u32"]] [] 0 false 0);
   ("TradingPairInfo", TStruct "struct" "" [["latestPrice"; "Price"]; ["lastUpdated"; "BlockNumber"]] [] 0 false 0);
   ("NominatorLedger", TStruct "struct" "" [["nomination"; "Balance"]; ["lastVoteWeight"; "VoteWeight"]; ["lastVoteWeightUpdate"; "BlockNumber"]; ["unbondedChunks"; "Vec<Unbonded>"]] [] 0 false 0);
   ("TradingPairProfile", TStruct "struct" "" [["id"; "TradingPairId"]; ["currencyPair"; "CurrencyPair"]; ["pipDecimals"; "u32"]; ["tickDecimals"; "u32"]; ["tradable"; "bool"]] [] 0 false 0);
   ("HandicapInfo", alias "Handicap");
   ("Price", alias "Balance");
   ("CurrencyIdOf", alias "AssetId");
   ("BtcParams", TStruct "struct" "" [["maxBits"; "u32"]; ["blockMaxFuture"; "u32"]; ["targetTimespanSeconds"; "u32"]; ["targetSpacingSeconds"; "u32"]; ["retargetingFactor"; "u32"]; ["retargetingInterval"; "u32"]; ["minTimespan"; "u32"]; ["maxTimespan"; "u32"]] [] 0 false 0);
   ("AmountOf", alias "Amount");
   ("LockedType", TStruct "enum" "" [] ["Bonded"; "BondedWithdrawal"] 0 false 0);
   ("Page", TStruct "struct" "" [["pageIndex"; "u32"]; ["pageSize"; "u32"]; ["data"; "Vec<RpcOrder>"]] [] 0 false 0);
   ("Desc", alias "Text");
   ("AssetId", alias "u32");
   ("Depth", TStruct "struct" "" [["asks"; "Vec<(RpcPrice, RpcBalance)>"]; ["bids"; "Vec<(RpcPrice, RpcBalance)>"]] [] 0 false 0);
   ("Side", TStruct "enum" "" [] ["Buy"; "Sell"] 0 false 0);
   ("OrderId", alias "u64");
   ("TotalAssetInfo", TStruct "struct" "" [["info"; "AssetInfo"]; ["balance"; "BTreeMap<AssetType, Balance>"]; ["isOnline"; "bool"]; ["restrictions"; "AssetRestrictions"]] [] 0 false 0);
   ("WithdrawalState", TStruct "enum" "" [] ["Applying"; "Processing"; "NormalFinish"; "RootFinish"; "NormalCancel"; "RootCancel"] 0 false 0);
   ("RpcPrice", alias "String");
   ("ValidatorLedger", TStruct "struct" "" [["totalNomination"; "Balance"]; ["lastTotalVoteWeight"; "VoteWeight"]; ["lastTotalVoteWeightUpdate"; "BlockNumber"]] [] 0 false 0);
   ("PriceFluctuation", alias "u32");
   ("BtcTrusteeIntentionProps", TStruct "struct" "" [["about"; "Text"]; ["hotEntity"; "BtcTrusteeType"]; ["coldEntity"; "BtcTrusteeType"]] [] 0 false 0);
   ("BtcRelayedTxInfo", TStruct "struct" "" [["blockHash"; "H256"]; ["merkleProof"; "BtcPartialMerkleTree"]] [] 0 false 0)].
(** network/clover-test.json *)
Definition net_clover_test : list (string * tstruct) :=
  [("ExchangeInfo", TStruct "struct" "" [["balance"; "Balance"]; ["routes"; "Vec<CurrencyTypeEnum>"]] [] 0 false 0);
   ("Ratio", alias "u128");
   ("CurrencyId", TStruct "enum" "" [] ["CLV"; "CUSDT"; "DOT"; "CETH"] 0 false 0);
   ("EcdsaSignature", alias "[u8; 65]");
   ("Price", alias "FixedU128");
   ("PoolId", TStruct "enum" "" [["Swap"; "u64"]] [] 0 false 0);
   ("Share", alias "u128");
   ("Rate", alias "u128");
   ("CurrencyTypeEnum", TStruct "enum" "" [] ["CLV"; "CUSDT"; "DOT"; "CETH"] 0 false 0);
   ("CurrencyIdOf", alias "CurrencyId");
   ("Amount", alias "i128");
   ("EvmAddress", alias "H160");
   ("CurrencyInfo", TStruct "struct" "" [["id"; "CurrencyId"]; ["name"; "CurrencyTypeEnum"]] [] 0 false 0);
   ("PairKey", alias "u64");
   ("AmountOf", alias "Amount");
   ("OracleKey", alias "CurrencyId");
   ("Balance", alias "u128");
   ("Weight", alias "u64");
   ("CompactAssignments", alias "CompactAssignmentsLatest");
   ("RefCount", alias "u32");
   ("DispatchResult", TStruct "enum" "" [["Ok"; "Null"]; ["Error"; "DispatchError"]] [] 0 false 0);
   ("TransactionRecoveryId", alias "U64");
   ("TransactionSignature", TStruct "struct" "" [["v"; "TransactionRecoveryId"]; ["r"; "H256"]; ["s"; "H256"]] [] 0 false 0);
   ("Address", alias "MultiAddress");
   ("LookupSource", alias "MultiAddress");
   ("AccountInfo", alias "AccountInfoWithProviders");
   ("Keys", alias "(AccountId, AccountId, AccountId, AccountId)");
   ("FixedU128", alias "u128");
   ("EthereumTxHash", alias "H256");
   ("BridgeNetworks", TStruct "enum" "" [] ["BSC"; "Ethereum"] 0 false 0)].
(** network/clover.json *)
Definition net_clover : list (string * tstruct) :=
  [("ExchangeInfo", TStruct "struct" "" [["balance"; "Balance"]; ["routes"; "Vec<CurrencyTypeEnum>"]] [] 0 false 0);
   ("Ratio", alias "u128");
   ("CurrencyId", TStruct "enum" "" [] ["CLV"; "CUSDT"; "DOT"; "CETH"] 0 false 0);
   ("EcdsaSignature", alias "[u8; 65]");
   ("Price", alias "FixedU128");
   ("PoolId", TStruct "enum" "" [["Swap"; "u64"]] [] 0 false 0);
   ("Share", alias "u128");
   ("Rate", alias "u128");
   ("CurrencyTypeEnum", TStruct "enum" "" [] ["CLV"; "CUSDT"; "DOT"; "CETH"] 0 false 0);
   ("CurrencyIdOf", alias "CurrencyId");
   ("Amount", alias "i128");
   ("EvmAddress", alias "H160");
   ("CurrencyInfo", TStruct "struct" "" [["id"; "CurrencyId"]; ["name"; "CurrencyTypeEnum"]] [] 0 false 0);
   ("PairKey", alias "u64");
   ("AmountOf", alias "Amount");
   ("OracleKey", alias "CurrencyId");
   ("Balance", alias "u128");
   ("Weight", alias "u64");
   ("CompactAssignments", alias "CompactAssignmentsLatest");
   ("RefCount", alias "u32");
   ("DispatchResult", TStruct "enum" "" [["Ok"; "Null"]; ["Error"; "DispatchError"]] [] 0 false 0);
   ("TransactionRecoveryId", alias "U64");
   ("TransactionSignature", TStruct "struct" "" [["v"; "TransactionRecoveryId"]; ["r"; "H256"]; ["s"; "H256"]] [] 0 false 0);
   ("Address", alias "MultiAddress");
   ("LookupSource", alias "MultiAddress");
   ("AccountInfo", alias "AccountInfoWithProviders");
   ("Keys", alias "(AccountId, AccountId, AccountId, AccountId)");
   ("FixedU128", alias "u128");
   ("BridgeNetworks", TStruct "enum" "" [] ["BSC"; "Ethereum"] 0 false 0);
   ("EthereumTxHash", alias "H256")].
(** network/crab.json *)
Definition net_crab : list (string * tstruct) :=
  [("U256", alias "[u8; 32]");
   ("H128", alias "[u8; 16]");
   ("TsInMs", alias "u64");
   ("RingBalance", alias "Balance");
   ("KtonBalance", alias "Balance");
   ("MomentT", alias "Moment");
   ("Power", alias "u32");
   ("DepositId", alias "U256");
   ("EthBlockNumber", alias "u64");
   ("EthereumBlockNumber", alias "u64");
   ("EthAddress", alias "H160");
   ("EthTransactionIndex", alias "(H256, u64)");
   ("EthereumTransactionIndex", alias "(H256, u64)");
   ("BalanceInfo", alias "null");
   ("AddressT", alias "EthereumAddress");
   ("TronAddress", alias "EthereumAddress");
   ("Bloom", alias "[u8; 256]");
   ("H", alias "Hash");
   ("Address", alias "AccountId");
   ("LookupSource", alias "AccountId");
   ("EthereumAddress", alias "H160");
   ("MappedRing", alias "u128");
   ("Keys", TStruct "struct" "" [["babe"; "AccountId"]; ["grandpa"; "AccountId"]; ["im_online"; "AccountId"]; ["authority_discovery"; "AccountId"]] [] 0 false 0);
   ("Weight", alias "u64");
   ("ModuleId", alias "[u8; 8]");
   ("RuntimeDbWeight", TStruct "struct" "" [["read"; "u128"]; ["read"; "write"]] [] 0 false 0);
   ("SpanRecord", TStruct "struct" "" [["slashed"; "RKT"]; ["paid_out"; "RKT"]] [] 0 false 0);
   ("StakingRuntimeDispatchInfo", TStruct "struct" "" [["power"; "Power"]] [] 0 false 0);
   ("BalancesRuntimeDispatchInfo", TStruct "struct" "" [["usable_balance"; "Balance"]] [] 0 false 0);
   ("StakingBalance", TStruct "enum" "" [["RingBalance"; "Balance"]; ["KtonBalance"; "Balance"]] [] 0 false 0);
   ("StakingLedger", TStruct "struct" "" [["stash"; "AccountId"]; ["active_ring"; "Compact<Balance>"]; ["active_deposit_ring"; "Compact<Balance>"]; ["active_kton"; "Compact<Balance>"]; ["deposit_items"; "Vec<TimeDepositItem>"]; ["ring_staking_lock"; "StakingLock"]; ["kton_staking_lock"; "StakingLock"]; ["last_reward"; "Option<EraIndex>"]] [] 0 false 0);
   ("TimeDepositItem", TStruct "struct" "" [["value"; "Compact<Balance>"]; ["start_time"; "Compact<TsInMs>"]; ["expire_time"; "Compact<TsInMs>"]] [] 0 false 0);
   ("Staked", TStruct "struct" "" [["promise_month"; "u8"]] [] 0 false 0);
   ("Exposure", TStruct "struct" "" [["own_ring_balance"; "Compact<Balance>"]; ["own_kton_balance"; "Compact<Balance>"]; ["own_power"; "Power"]; ["total_power"; "Power"]; ["others"; "Vec<IndividualExposure>"]] [] 0 false 0);
   ("IndividualExposure", TStruct "struct" "" [["who"; "AccountId"]; ["ring_balance"; "Compact<Balance>"]; ["kton_balance"; "Compact<Balance>"]; ["power"; "Power"]] [] 0 false 0);
   ("ValidatorReward", TStruct "struct" "" [["who"; "AccountId"]; ["amount"; "Compact<Balance>"]; ["nominators_reward"; "Vec<NominatorReward>"]] [] 0 false 0);
   ("NominatorReward", TStruct "struct" "" [["who"; "AccountId"]; ["amount"; "Compact<Balance>"]] [] 0 false 0);
   ("RK", TStruct "struct" "" [["r"; "Balance"]; ["k"; "Balance"]] [] 0 false 0);
   ("BalanceLock<Balance, BlockNumber>", TStruct "struct" "" [["id"; "LockIdentifier"]; ["lock_for"; "LockFor"]; ["lock_reasons"; "LockReasons"]] [] 0 false 0);
   ("LockFor", TStruct "enum" "" [["Common"; "Common"]; ["Staking"; "StakingLock"]] [] 0 false 0);
   ("Common", TStruct "struct" "" [["amount"; "Balance"]] [] 0 false 0);
   ("StakingLock", TStruct "struct" "" [["staking_amount"; "Balance"]; ["unbondings"; "Vec<Unbonding>"]] [] 0 false 0);
   ("LockReasons", TStruct "enum" "" [["Fee"; "null"]; ["Misc"; "null"]; ["All"; "null"]] [] 0 false 0);
   ("AccountData", TStruct "struct" "" [["free"; "Balance"]; ["reserved"; "Balance"]; ["free_kton"; "Balance"]; ["reserved_kton"; "Balance"]] [] 0 false 0);
   ("EthHeaderBrief", TStruct "struct" "" [["total_difficulty"; "U256"]; ["parent_hash"; "H256"]; ["number"; "EthBlockNumber"]; ["relayer"; "AccountId"]] [] 0 false 0);
   ("EthereumHeader", TStruct "struct" "" [["parent_hash"; "H256"]; ["timestamp"; "u64"]; ["number"; "EthereumBlockNumber"]; ["author"; "EthereumAddress"]; ["transactions_root"; "H256"]; ["uncles_hash"; "H256"]; ["extra_data"; "Bytes"]; ["state_root"; "H256"]; ["receipts_root"; "H256"]; ["log_bloom"; "Bloom"]; ["gas_used"; "U256"]; ["gas_limit"; "U256"]; ["difficulty"; "U256"]; ["seal"; "Vec<Bytes>"]; ["hash"; "Option<H256>"]] [] 0 false 0);
   ("EthHeaderBrief::<AccountId>", alias "EthHeaderBrief");
   ("HeaderInfo", TStruct "struct" "" [["total_difficulty"; "U256"]; ["parent_hash"; "H256"]; ["number"; "EthBlockNumber"]] [] 0 false 0);
   ("EthHeader", TStruct "struct" "" [["parent_hash"; "H256"]; ["timestamp"; "u64"]; ["number"; "EthBlockNumber"]; ["auth"; "EthAddress"]; ["transaction_root"; "H256"]; ["uncles_hash"; "H256"]; ["extra_data"; "Bytes"]; ["state_root"; "H256"]; ["receipts_root"; "H256"]; ["log_bloom"; "Bloom"]; ["gas_used"; "U256"]; ["gas_limit"; "U256"]; ["difficulty"; "U256"]; ["seal"; "Vec<Bytes>"]; ["hash"; "Option<H256>"]] [] 0 false 0);
   ("Receipt", TStruct "struct" "" [["gas_used"; "U256"]; ["log_bloom"; "Bloom"]; ["logs"; "Vec<LogEntry>"]; ["outcome"; "TransactionOutcome"]] [] 0 false 0);
   ("EthereumReceipt", alias "Receipt");
   ("EthReceiptProof", TStruct "struct" "" [["index"; "u64"]; ["proof"; "Bytes"]; ["header_hash"; "H256"]] [] 0 false 0);
   ("EthNetworkType", TStruct "enum" "" [["Mainnet"; "null"]; ["Ropsten"; "null"]] [] 0 false 0);
   ("RedeemFor", TStruct "enum" "" [["Token"; "NULL"]; ["Deposit"; "NULL"]] [] 0 false 0);
   ("EthereumReceiptProofThing", alias "(EthereumHeader, EthereumReceiptProof, MMRProof)");
   ("OtherSignature", TStruct "enum" "" [["Eth"; "EcdsaSignature"]; ["Tron"; "EcdsaSignature"]] [] 0 false 0);
   ("OtherAddress", TStruct "enum" "" [["Eth"; "EthereumAddress"]; ["Tron"; "EthereumAddress"]] [] 0 false 0);
   ("MerkleMountainRangeRoot", TStruct "struct" "" [["data"; "Hash"]] [] 0 false 0);
   ("MerkleMountainRangeRootLog", TStruct "struct" "" [["prefix"; "[u8; 4]"]; ["mmr_root"; "Hash"]] [] 0 false 0);
   ("DoubleNodeWithMerkleProof", TStruct "struct" "" [["dag_nodes"; "[H512; 2]"]; ["proof"; "Vec<H128>"]] [] 0 false 0);
   ("StakingBalanceT", TStruct "enum" "" [["RingBalance"; "Balance"]; ["KtonBalance"; "Balance"]] [] 0 false 0);
   ("StakingLedgerT", TStruct "struct" "" [["stash"; "AccountId"]; ["active_ring"; "Compact<Balance>"]; ["active_deposit_ring"; "Compact<Balance>"]; ["active_kton"; "Compact<Balance>"]; ["deposit_items"; "Vec<TimeDepositItem>"]; ["ring_staking_lock"; "StakingLock"]; ["kton_staking_lock"; "StakingLock"]; ["claimed_rewards"; "Vec<EraIndex>"]] [] 0 false 0);
   ("ExposureT", TStruct "struct" "" [["own_ring_balance"; "Compact<Balance>"]; ["own_kton_balance"; "Compact<Balance>"]; ["own_power"; "Power"]; ["total_power"; "Power"]; ["others"; "Vec<IndividualExposure>"]] [] 0 false 0);
   ("FullIdentification", TStruct "struct" "" [["own_ring_balance"; "Compact<Balance>"]; ["own_kton_balance"; "Compact<Balance>"]; ["own_power"; "Power"]; ["total_power"; "Power"]; ["others"; "Vec<IndividualExposure>"]] [] 0 false 0);
   ("RKT", TStruct "struct" "" [["r"; "Balance"]; ["k"; "Balance"]] [] 0 false 0);
   ("DispatchResult", TStruct "enum" "" [["Ok"; "Null"]; ["Error"; "DispatchError"]] [] 0 false 0);
   ("OpenTip<AccountId, RingBalance, BlockNumber, Hash>", TStruct "struct" "" [["reason"; "Hash"]; ["who"; "AccountId"]; ["finder"; "Option<OpenTipFinder>"]; ["closes"; "Option<BlockNumber>"]; ["tips"; "Vec<OpenTipTip>"]] [] 0 false 0);
   ("slashing::SpanRecord<RingBalance, KtonBalance>", alias "SpanRecord");
   ("slashing::RKT", alias "RKT");
   ("MMRHash", alias "Vec<u8>");
   ("RawHeaderThing", alias "Vec<u8>");
   ("EthereumNetworkType", alias "EthNetworkType");
   ("EthashProof", alias "DoubleNodeWithMerkleProof");
   ("MMRProof", alias "Vec<H256>");
   ("MMRProof#11-?", TStruct "struct" "" [["member_leaf_index"; "u64"]; ["last_leaf_index"; "u64"]; ["proof"; "Vec<H256>"]] [] 0 false 0);
   ("Proposal", TStruct "struct" "" [["proposer"; "AccountId"]; ["beneficiary"; "AccountId"]; ["ring_value"; "Balance"]; ["kton_value"; "Balance"]; ["ring_bond"; "Balance"]; ["kton_bond"; "Balance"]] [] 0 false 0);
   ("UnappliedSlash", TStruct "struct" "" [["validator"; "AccountId"]; ["own"; "RKT"]; ["others"; "Vec<(AccountId, RKT)>"]; ["reporters"; "Vec<AccountId>"]; ["payout"; "RKT"]] [] 0 false 0);
   ("ElectionResultT", TStruct "struct" "" [["elected_stashes"; "Vec<AccountId>"]; ["exposures"; "Vec<(AccountId, ExposureT)>"]; ["compute"; "ElectionCompute"]] [] 0 false 0);
   ("EthereumReceiptProof", TStruct "struct" "" [["index"; "u64"]; ["proof"; "Bytes"]; ["header_hash"; "H256"]] [] 0 false 0);
   ("Unbonding", TStruct "struct" "" [["amount"; "Balance"]; ["moment"; "BlockNumber"]] [] 0 false 0);
   ("RelayVotingState", TStruct "struct" "" [["ayes"; "Vec<AccountId>"]; ["nays"; "Vec<AccountId>"]] [] 0 false 0);
   ("TcHeaderMMR", alias "Vec<u8>");
   ("CompactAssignments#17-?", alias "CompactAssignmentsLatest");
   ("ProxyType", TStruct "enum" "" [] ["Any"; "NonTransfer"; "Governance"; "Staking"; "IdentityJudgement"; "EthereumBridge"] 0 false 0);
   ("TreasuryProposal", TStruct "struct" "" [["proposer"; "AccountId"]; ["beneficiary"; "AccountId"]; ["ring_value"; "Balance"]; ["kton_value"; "Balance"]; ["ring_bond"; "Balance"]; ["kton_bond"; "Balance"]] [] 0 false 0);
   ("RefCount#21-?", alias "u32");
   ("EthereumRelayHeaderParcel", TStruct "struct" "" [["header"; "EthereumHeader"]; ["mmr_root"; "H256"]] [] 0 false 0);
   ("EthereumRelayProofs", TStruct "struct" "" [["ethash_proof"; "Vec<EthashProof>"]; ["mmr_proof"; "Vec<H256>"]] [] 0 false 0);
   ("RelayHeaderId", alias "EthereumBlockNumber");
   ("RelayHeaderParcel", alias "EthereumRelayHeaderParcel");
   ("RelayProofs", alias "EthereumRelayProofs");
   ("RelayAffirmationId", TStruct "struct" "" [["game_id"; "EthereumBlockNumber"]; ["round"; "u32"]; ["index"; "u32"]] [] 0 false 0);
   ("RelayAffirmationT", TStruct "struct" "" [["relayer"; "AccountId"]; ["relay_header_parcels"; "EthereumRelayHeaderParcel"]; ["bond"; "Balance"]; ["maybe_extended_relay_affirmation_id"; "Option<RelayAffirmationId>"]; ["verified"; "bool"]] [] 0 false 0);
   ("Signer", alias "EthereumAddress");
   ("RelayAuthorityT", TStruct "struct" "" [["accountId"; "AccountId"]; ["signer"; "Signer"]; ["stake"; "Balance"]; ["term"; "BlockNumber"]] [] 0 false 0);
   ("MMRRoot", alias "Hash");
   ("EcdsaAddress", alias "EthereumAddress");
   ("EcdsaSignature", alias "[u8; 65]");
   ("EcdsaMessage", alias "H256");
   ("RelayAuthoritySigner", alias "EcdsaAddress");
   ("RelayAuthorityMessage", alias "EcdsaMessage");
   ("RelayAuthoritySignature", alias "EcdsaSignature");
   ("RelayAuthoritySignature<T, I>", alias "EcdsaSignature");
   ("Term", alias "u32");
   ("OpCode", alias "[u8; 4]");
   ("ScheduledAuthoritiesChange", TStruct "struct" "" [["next_authorities"; "Vec<RelayAuthorityT>"]; ["deadline"; "BlockNumber"]] [] 0 false 0);
   ("ScheduledAuthoritiesChangeT", alias "ScheduledAuthoritiesChange");
   ("AccountInfo#42-42", alias "AccountInfoWithProviders");
   ("Address#42-?", alias "MultiAddress");
   ("LookupSource#42-?", alias "MultiAddress");
   ("ValidatorPrefs#42-?", alias "ValidatorPrefsWithBlocked");
   ("AccountInfo#43-?", alias "AccountInfoWithTripleRefCount");
   ("ExitReason", TStruct "enum" "" [["Succeed"; "ExitSucceed"]; ["Error"; "ExitError"]; ["Revert"; "ExitRevert"]; ["Fatal"; "ExitFatal"]] [] 0 false 0);
   ("ExitSucceed", TStruct "enum" "" [] ["Stopped"; "Returned"; "Suicided"] 0 false 0);
   ("ExitError", TStruct "enum" "" [["StackUnderflow"; "NULL"]; ["StackOverflow"; "NULL"]; ["InvalidJump"; "NULL"]; ["InvalidRange"; "NULL"]; ["DesignatedInvalid"; "NULL"]; ["CallTooDeep"; "NULL"]; ["CreateCollision"; "NULL"]; ["CreateContractLimit"; "NULL"]; ["OutOfOffset"; "NULL"]; ["OutOfGas"; "NULL"]; ["OutOfFund"; "NULL"]; ["PCUnderflow"; "NULL"]; ["CreateEmpty"; "NULL"]; ["Other"; "string"]] [] 0 false 0);
   ("ExitFatal", TStruct "enum" "" [["NotSupported"; "NULL"]; ["UnhandledInterrupt"; "NULL"]; ["CallErrorAsFatal"; "NULL"]; ["Other"; "string"]] [] 0 false 0);
   ("BlockTransactions", TStruct "enum" "" [["Hashes"; "Vec<H256>"]; ["Full"; "Vec<ethereum::Transaction>"]] [] 0 false 0);
   ("ExitRevert", TStruct "enum" "" [] ["Reverted"] 0 false 0);
   ("ethereum::Block", TStruct "struct" "" [["hash"; "Option<H256>"]; ["parent_hash"; "H256"]; ["uncles_hash"; "H256"]; ["author"; "H160"]; ["miner"; "H160"]; ["state_root"; "H256"]; ["transactions_root"; "H256"]; ["receipts_root"; "H256"]; ["number"; "Option<U256>"]; ["gas_used"; "U256"]; ["gas_limit"; "U256"]; ["extra_data"; "Bytes"]; ["logs_bloom"; "Option<H2048>"]; ["timestamp"; "U256"]; ["difficulty"; "U256"]; ["total_difficulty"; "Option<U256>"]; ["seal_fields"; "Vec<Bytes>"]; ["uncles"; "Vec<H256>"]; ["transactions"; "BlockTransactions"]; ["size"; "Option<U256>"]] [] 0 false 0);
   ("TransactionAction", TStruct "enum" "" [["Call"; "H160"]; ["Create"; "NULL"]] [] 0 false 0);
   ("Log", TStruct "struct" "" [["address"; "H160"]; ["topics"; "Vec<H256>"]; ["data"; "Vec<u8>"]] [] 0 false 0);
   ("TransactionSignature", TStruct "struct" "" [["v"; "TransactionRecoveryId"]; ["r"; "H256"]; ["s"; "H256"]] [] 0 false 0);
   ("TransactionRecoveryId", alias "U64");
   ("NodeIndex", alias "u64");
   ("MmrNodesPruningConfiguration", TStruct "struct" "" [["step"; "NodeIndex"]; ["progress"; "NodeIndex"]; ["last_position"; "NodeIndex"]] [] 0 false 0);
   ("BlockNumberFor", alias "BlockNumber")].
(** network/crust-main.json *)
Definition net_crust_main : list (string * tstruct) :=
  [("ReportSlot", alias "u64");
   ("Group", TStruct "struct" "" [["members"; "BTreeSet<AccountId>"]; ["allowlist"; "BTreeSet<AccountId>"]] [] 0 false 0);
   ("MerchantLedger", TStruct "struct" "" [["reward"; "Balance"]; ["collateral"; "Balance"]] [] 0 false 0);
   ("IASSig", alias "HexBytes");
   ("SworkBenefit", TStruct "struct" "" [["total_funds"; "Compact<Balance>"]; ["active_funds"; "Compact<Balance>"]; ["total_fee_reduction_count"; "u32"]; ["used_fee_reduction_count"; "u32"]; ["refreshed_at"; "Compact<EraIndex>"]; ["unlocking_funds"; "Vec<FundsUnlockChunk<Balance>>"]] [] 0 false 0);
   ("AccountInfo", alias "AccountInfoWithProviders");
   ("EraBenefits", TStruct "struct" "" [["total_fee_reduction_quota"; "Compact<Balance>"]; ["total_market_active_funds"; "Compact<Balance>"]; ["used_fee_reduction_quota"; "Compact<Balance>"]; ["active_era"; "Compact<EraIndex>"]] [] 0 false 0);
   ("SworkerSignature", alias "HexBytes");
   ("UsedInfo", TStruct "struct" "" [["used_size"; "u64"]; ["reported_group_count"; "u32"]; ["groups"; "BTreeMap<SworkerAnchor, bool>"]] [] 0 false 0);
   ("Status", TStruct "enum" "" [] ["Free"; "Reserved"] 0 false 0);
   ("CSMLedger", TStruct "struct" "" [["total"; "Compact<Balance>"]; ["active"; "Compact<Balance>"]; ["unlocking"; "Vec<CSMUnlockChunk<Balance>>"]] [] 0 false 0);
   ("EthereumTxHash", alias "H256");
   ("Releases", TStruct "enum" "" [] ["V1_0_0"; "V2_0_0"] 0 false 0);
   ("CsmBalanceOf", alias "Balance");
   ("FundsType", TStruct "enum" "" [] ["SWORK"; "MARKET"] 0 false 0);
   ("ValidatorPrefs", TStruct "struct" "" [["guarantee_fee"; "Compact<Perbill>"]] [] 0 false 0);
   ("SworkerAnchor", alias "HexBytes");
   ("Address", alias "AccountId");
   ("Identity", TStruct "struct" "" [["anchor"; "SworkerAnchor"]; ["punishment_deadline"; "u64"]; ["group"; "Option<AccountId>"]] [] 0 false 0);
   ("SworkerCode", alias "HexBytes");
   ("MerkleRoot", alias "HexBytes");
   ("WorkReport", TStruct "struct" "" [["report_slot"; "u64"]; ["spower"; "u64"]; ["free"; "u64"]; ["reported_files_size"; "u64"]; ["reported_srd_root"; "MerkleRoot"]; ["reported_files_root"; "MerkleRoot"]] [] 0 false 0);
   ("CSMUnlockChunk", TStruct "struct" "" [["value"; "Compact<Balance>"]; ["bn"; "Compact<BlockNumber>"]] [] 0 false 0);
   ("LookupSource", alias "AccountId");
   ("SworkerCert", alias "HexBytes");
   ("ETHAddress", alias "HexBytes");
   ("Guarantee", TStruct "struct" "" [["targets"; "Vec<IndividualExposure<AccountId, Balance>>"]; ["total"; "Compact<Balance>"]; ["submitted_in"; "EraIndex"]; ["suppressed"; "bool"]] [] 0 false 0);
   ("CsmBalance", alias "Balance");
   ("MarketBenefit", TStruct "struct" "" [["total_funds"; "Compact<Balance>"]; ["active_funds"; "Compact<Balance>"]; ["used_fee_reduction_quota"; "Compact<Balance>"]; ["file_reward"; "Compact<Balance>"]; ["refreshed_at"; "Compact<EraIndex>"]; ["unlocking_funds"; "Vec<FundsUnlockChunk<Balance>>"]] [] 0 false 0);
   ("FeeReductionBenefit", TStruct "struct" "" [["funds"; "Balance"]; ["total_fee_reduction_count"; "u32"]; ["used_fee_reduction_quota"; "Balance"]; ["used_fee_reduction_count"; "u32"]; ["refreshed_at"; "EraIndex"]] [] 0 false 0);
   ("FileInfo", TStruct "struct" "" [["file_size"; "u64"]; ["spower"; "u64"]; ["expired_on"; "BlockNumber"]; ["calculated_at"; "BlockNumber"]; ["amount"; "Compact<Balance>"]; ["prepaid"; "Compact<Balance>"]; ["reported_replica_count"; "u32"]; ["replicas"; "Vec<Replica<AccountId>>"]] [] 0 false 0);
   ("ISVBody", alias "HexBytes");
   ("SworkerPubKey", alias "HexBytes");
   ("Lock", TStruct "struct" "" [["total"; "Compact<Balance>"]; ["last_unlock_at"; "BlockNumber"]; ["lock_type"; "LockType"]] [] 0 false 0);
   ("Replica", TStruct "struct" "" [["who"; "AccountId"]; ["valid_at"; "BlockNumber"]; ["anchor"; "SworkerAnchor"]; ["is_reported"; "bool"]; ["created_at"; "Option<BlockNumber>"]] [] 0 false 0);
   ("PKInfo", TStruct "struct" "" [["code"; "SworkerCode"]; ["anchor"; "Option<SworkerAnchor>"]] [] 0 false 0);
   ("AddressInfo", alias "HexBytes");
   ("LockType", TStruct "struct" "" [["delay"; "BlockNumber"]; ["lock_period"; "u32"]] [] 0 false 0);
   ("FundsUnlockChunk", TStruct "struct" "" [["value"; "Compact<Balance>"]; ["era"; "Compact<EraIndex>"]] [] 0 false 0);
   ("Weight", alias "u64");
   ("CompactAssignments", alias "CompactAssignmentsLatest");
   ("RefCount", alias "u32");
   ("ChainId", alias "u8");
   ("TokenId", alias "U256");
   ("ResourceId", alias "H256");
   ("Erc721Token", TStruct "struct" "" [["id"; "TokenId"]; ["metadata"; "Vec<u8>"]] [] 0 false 0);
   ("BridgeChainId", alias "u8");
   ("ProposalStatus", TStruct "enum" "" [] ["Initiated"; "Approved"; "Rejected"] 0 false 0);
   ("ProposalVotes", TStruct "struct" "" [["votes_for"; "Vec<AccountId>"]; ["votes_against"; "Vec<AccountId>"]; ["status"; "ProposalStatus"]; ["expiry"; "BlockNumber"]] [] 0 false 0);
   ("DepositNonce", alias "u64")].
(** network/crust.json *)
Definition net_crust : list (string * tstruct) :=
  [("Weight", alias "u64");
   ("Address", alias "AccountId");
   ("LookupSource", alias "AccountId");
   ("DispatchResult", TStruct "enum" "" [["Ok"; "Null"]; ["Error"; "DispatchError"]] [] 0 false 0);
   ("ETHAddress", alias "HexBytes");
   ("RefCount", alias "u32");
   ("ReportSlot", alias "u64");
   ("MerchantLedger", TStruct "struct" "" [["reward"; "Balance"]; ["collateral"; "Balance"]] [] 0 false 0);
   ("IASSig", alias "HexBytes");
   ("SworkerSignature", alias "HexBytes");
   ("UsedInfo", TStruct "struct" "" [["used_size"; "u64"]; ["reported_group_count"; "u32"]; ["groups"; "BTreeMap<SworkerAnchor, bool>"]] [] 0 false 0);
   ("Status", TStruct "enum" "" [] ["Free"; "Reserved"] 0 false 0);
   ("EthereumTxHash", alias "H256");
   ("Releases", TStruct "enum" "" [] ["V1_0_0"; "V2_0_0"] 0 false 0);
   ("Identity", TStruct "struct" "" [["anchor"; "SworkerAnchor"]; ["punishment_deadline"; "u64"]; ["group"; "Option<AccountId>"]] [] 0 false 0);
   ("SworkerCode", alias "HexBytes");
   ("MerkleRoot", alias "HexBytes");
   ("SworkerCert", alias "HexBytes");
   ("WorkReport", TStruct "struct" "" [["report_slot"; "u64"]; ["used"; "u64"]; ["free"; "u64"]; ["reported_files_size"; "u64"]; ["reported_srd_root"; "MerkleRoot"]; ["reported_files_root"; "MerkleRoot"]] [] 0 false 0);
   ("SworkerAnchor", alias "HexBytes");
   ("FileInfo", TStruct "struct" "" [["file_size"; "u64"]; ["expired_on"; "BlockNumber"]; ["calculated_at"; "BlockNumber"]; ["amount"; "Balance"]; ["prepaid"; "Balance"]; ["reported_replica_count"; "u32"]; ["replicas"; "Vec<Replica<AccountId>>"]] [] 0 false 0);
   ("ISVBody", alias "HexBytes");
   ("SworkerPubKey", alias "HexBytes");
   ("AddressInfo", alias "HexBytes");
   ("Replica", TStruct "struct" "" [["who"; "AccountId"]; ["valid_at"; "BlockNumber"]; ["anchor"; "SworkerAnchor"]; ["is_reported"; "bool"]] [] 0 false 0);
   ("PKInfo", TStruct "struct" "" [["code"; "SworkerCode"]; ["anchor"; "Option<SworkerAnchor>"]] [] 0 false 0);
   ("FileAlias", alias "HexBytes");
   ("Guarantee", TStruct "struct" "" [["targets"; "Vec<IndividualExposure<AccountId, Balance>>"]; ["total"; "Compact<Balance>"]; ["submitted_in"; "EraIndex"]; ["suppressed"; "bool"]] [] 0 false 0);
   ("Box<<T as Config>::Call>", alias "Call");
   ("CompactAssignments", alias "CompactAssignmentsLatest");
   ("AccountInfo", alias "AccountInfoWithProviders");
   ("CsmBalance", alias "Balance");
   ("CsmBalanceOf", alias "Balance");
   ("ChainId", alias "u8");
   ("TokenId", alias "U256");
   ("ResourceId", alias "H256");
   ("Erc721Token", TStruct "struct" "" [["id"; "TokenId"]; ["metadata"; "Vec<u8>"]] [] 0 false 0);
   ("BridgeChainId", alias "u8");
   ("ProposalStatus", TStruct "enum" "" [] ["Initiated"; "Approved"; "Rejected"] 0 false 0);
   ("ProposalVotes", TStruct "struct" "" [["votes_for"; "Vec<AccountId>"]; ["votes_against"; "Vec<AccountId>"]; ["status"; "ProposalStatus"]; ["expiry"; "BlockNumber"]] [] 0 false 0);
   ("DepositNonce", alias "u64");
   ("ValidatorPrefs", TStruct "struct" "" [["guarantee_fee"; "Compact<Perbill>"]] [] 0 false 0)].
(** network/darwinia.json *)
Definition net_darwinia : list (string * tstruct) :=
  [("U256", alias "[u8; 32]");
   ("H128", alias "[u8; 16]");
   ("TsInMs", alias "u64");
   ("RingBalance", alias "Balance");
   ("KtonBalance", alias "Balance");
   ("MomentT", alias "Moment");
   ("Power", alias "u32");
   ("DepositId", alias "U256");
   ("EthBlockNumber", alias "u64");
   ("EthereumBlockNumber", alias "u64");
   ("EthAddress", alias "H160");
   ("EthTransactionIndex", alias "(H256, u64)");
   ("EthereumTransactionIndex", alias "(H256, u64)");
   ("BalanceInfo", alias "null");
   ("AddressT", alias "EthereumAddress");
   ("TronAddress", alias "EthereumAddress");
   ("Bloom", alias "[u8; 256]");
   ("H", alias "Hash");
   ("Address", alias "AccountId");
   ("LookupSource", alias "AccountId");
   ("EthereumAddress", alias "H160");
   ("MappedRing", alias "u128");
   ("Keys", TStruct "struct" "" [["babe"; "AccountId"]; ["grandpa"; "AccountId"]; ["im_online"; "AccountId"]; ["authority_discovery"; "AccountId"]] [] 0 false 0);
   ("Weight", alias "u64");
   ("ModuleId", alias "[u8; 8]");
   ("RuntimeDbWeight", TStruct "struct" "" [["read"; "u128"]; ["read"; "write"]] [] 0 false 0);
   ("SpanRecord", TStruct "struct" "" [["slashed"; "RKT"]; ["paid_out"; "RKT"]] [] 0 false 0);
   ("StakingRuntimeDispatchInfo", TStruct "struct" "" [["power"; "Power"]] [] 0 false 0);
   ("BalancesRuntimeDispatchInfo", TStruct "struct" "" [["usable_balance"; "Balance"]] [] 0 false 0);
   ("StakingBalance", TStruct "enum" "" [["RingBalance"; "Balance"]; ["KtonBalance"; "Balance"]] [] 0 false 0);
   ("StakingLedger", TStruct "struct" "" [["stash"; "AccountId"]; ["active_ring"; "Compact<Balance>"]; ["active_deposit_ring"; "Compact<Balance>"]; ["active_kton"; "Compact<Balance>"]; ["deposit_items"; "Vec<TimeDepositItem>"]; ["ring_staking_lock"; "StakingLock"]; ["kton_staking_lock"; "StakingLock"]; ["last_reward"; "Option<EraIndex>"]] [] 0 false 0);
   ("TimeDepositItem", TStruct "struct" "" [["value"; "Compact<Balance>"]; ["start_time"; "Compact<TsInMs>"]; ["expire_time"; "Compact<TsInMs>"]] [] 0 false 0);
   ("Staked", TStruct "struct" "" [["promise_month"; "u8"]] [] 0 false 0);
   ("Exposure", TStruct "struct" "" [["own_ring_balance"; "Compact<Balance>"]; ["own_kton_balance"; "Compact<Balance>"]; ["own_power"; "Power"]; ["total_power"; "Power"]; ["others"; "Vec<IndividualExposure>"]] [] 0 false 0);
   ("IndividualExposure", TStruct "struct" "" [["who"; "AccountId"]; ["ring_balance"; "Compact<Balance>"]; ["kton_balance"; "Compact<Balance>"]; ["power"; "Power"]] [] 0 false 0);
   ("ValidatorReward", TStruct "struct" "" [["who"; "AccountId"]; ["amount"; "Compact<Balance>"]; ["nominators_reward"; "Vec<NominatorReward>"]] [] 0 false 0);
   ("NominatorReward", TStruct "struct" "" [["who"; "AccountId"]; ["amount"; "Compact<Balance>"]] [] 0 false 0);
   ("RK", TStruct "struct" "" [["r"; "Balance"]; ["k"; "Balance"]] [] 0 false 0);
   ("BalanceLock<Balance, BlockNumber>", TStruct "struct" "" [["id"; "LockIdentifier"]; ["lock_for"; "LockFor"]; ["lock_reasons"; "LockReasons"]] [] 0 false 0);
   ("LockFor", TStruct "enum" "" [["Common"; "Common"]; ["Staking"; "StakingLock"]] [] 0 false 0);
   ("Common", TStruct "struct" "" [["amount"; "Balance"]] [] 0 false 0);
   ("StakingLock", TStruct "struct" "" [["staking_amount"; "Balance"]; ["unbondings"; "Vec<Unbonding>"]] [] 0 false 0);
   ("LockReasons", TStruct "enum" "" [["Fee"; "null"]; ["Misc"; "null"]; ["All"; "null"]] [] 0 false 0);
   ("AccountData", TStruct "struct" "" [["free"; "Balance"]; ["reserved"; "Balance"]; ["free_kton"; "Balance"]; ["reserved_kton"; "Balance"]] [] 0 false 0);
   ("EthHeaderBrief", TStruct "struct" "" [["total_difficulty"; "U256"]; ["parent_hash"; "H256"]; ["number"; "EthBlockNumber"]; ["relayer"; "AccountId"]] [] 0 false 0);
   ("EthereumHeader", TStruct "struct" "" [["parent_hash"; "H256"]; ["timestamp"; "u64"]; ["number"; "EthereumBlockNumber"]; ["author"; "EthereumAddress"]; ["transactions_root"; "H256"]; ["uncles_hash"; "H256"]; ["extra_data"; "Bytes"]; ["state_root"; "H256"]; ["receipts_root"; "H256"]; ["log_bloom"; "Bloom"]; ["gas_used"; "U256"]; ["gas_limit"; "U256"]; ["difficulty"; "U256"]; ["seal"; "Vec<Bytes>"]; ["hash"; "Option<H256>"]] [] 0 false 0);
   ("EthHeaderBrief::<AccountId>", alias "EthHeaderBrief");
   ("HeaderInfo", TStruct "struct" "" [["total_difficulty"; "U256"]; ["parent_hash"; "H256"]; ["number"; "EthBlockNumber"]] [] 0 false 0);
   ("EthHeader", TStruct "struct" "" [["parent_hash"; "H256"]; ["timestamp"; "u64"]; ["number"; "EthBlockNumber"]; ["auth"; "EthAddress"]; ["transaction_root"; "H256"]; ["uncles_hash"; "H256"]; ["extra_data"; "Bytes"]; ["state_root"; "H256"]; ["receipts_root"; "H256"]; ["log_bloom"; "Bloom"]; ["gas_used"; "U256"]; ["gas_limit"; "U256"]; ["difficulty"; "U256"]; ["seal"; "Vec<Bytes>"]; ["hash"; "Option<H256>"]] [] 0 false 0);
   ("Receipt", TStruct "struct" "" [["gas_used"; "U256"]; ["log_bloom"; "Bloom"]; ["logs"; "Vec<LogEntry>"]; ["outcome"; "TransactionOutcome"]] [] 0 false 0);
   ("EthereumReceipt", alias "Receipt");
   ("EthReceiptProof", TStruct "struct" "" [["index"; "u64"]; ["proof"; "Bytes"]; ["header_hash"; "H256"]] [] 0 false 0);
   ("EthNetworkType", TStruct "enum" "" [["Mainnet"; "null"]; ["Ropsten"; "null"]] [] 0 false 0);
   ("RedeemFor", TStruct "enum" "" [["Token"; "NULL"]; ["Deposit"; "NULL"]] [] 0 false 0);
   ("EthereumReceiptProofThing", alias "(EthereumHeader, EthereumReceiptProof, MMRProof)");
   ("OtherSignature", TStruct "enum" "" [["Eth"; "EcdsaSignature"]; ["Tron"; "EcdsaSignature"]] [] 0 false 0);
   ("OtherAddress", TStruct "enum" "" [["Eth"; "EthereumAddress"]; ["Tron"; "EthereumAddress"]] [] 0 false 0);
   ("MerkleMountainRangeRoot", TStruct "struct" "" [["data"; "Hash"]] [] 0 false 0);
   ("ValidatorPrefs", TStruct "struct" "" [["commission"; "Compact<Balance>"]] [] 0 false 0);
   ("MerkleMountainRangeRootLog", TStruct "struct" "" [["prefix"; "[u8; 4]"]; ["mmr_root"; "Hash"]] [] 0 false 0);
   ("DoubleNodeWithMerkleProof", TStruct "struct" "" [["dag_nodes"; "[H512; 2]"]; ["proof"; "Vec<H128>"]] [] 0 false 0);
   ("StakingBalanceT", TStruct "enum" "" [["RingBalance"; "Balance"]; ["KtonBalance"; "Balance"]] [] 0 false 0);
   ("StakingLedgerT", TStruct "struct" "" [["stash"; "AccountId"]; ["active_ring"; "Compact<Balance>"]; ["active_deposit_ring"; "Compact<Balance>"]; ["active_kton"; "Compact<Balance>"]; ["deposit_items"; "Vec<TimeDepositItem>"]; ["ring_staking_lock"; "StakingLock"]; ["kton_staking_lock"; "StakingLock"]; ["claimed_rewards"; "Vec<EraIndex>"]] [] 0 false 0);
   ("ExposureT", TStruct "struct" "" [["own_ring_balance"; "Compact<Balance>"]; ["own_kton_balance"; "Compact<Balance>"]; ["own_power"; "Power"]; ["total_power"; "Power"]; ["others"; "Vec<IndividualExposure>"]] [] 0 false 0);
   ("FullIdentification", TStruct "struct" "" [["own_ring_balance"; "Compact<Balance>"]; ["own_kton_balance"; "Compact<Balance>"]; ["own_power"; "Power"]; ["total_power"; "Power"]; ["others"; "Vec<IndividualExposure>"]] [] 0 false 0);
   ("RKT", TStruct "struct" "" [["r"; "Balance"]; ["k"; "Balance"]] [] 0 false 0);
   ("DispatchResult", TStruct "enum" "" [["Ok"; "Null"]; ["Error"; "DispatchError"]] [] 0 false 0);
   ("OpenTip<AccountId, RingBalance, BlockNumber, Hash>", TStruct "struct" "" [["reason"; "Hash"]; ["who"; "AccountId"]; ["finder"; "Option<OpenTipFinder>"]; ["closes"; "Option<BlockNumber>"]; ["tips"; "Vec<OpenTipTip>"]] [] 0 false 0);
   ("slashing::SpanRecord<RingBalance, KtonBalance>", alias "SpanRecord");
   ("slashing::RKT", alias "RKT");
   ("MMRHash", alias "Vec<u8>");
   ("RawHeaderThing", alias "Vec<u8>");
   ("EthereumNetworkType", alias "EthNetworkType");
   ("EthashProof", alias "DoubleNodeWithMerkleProof");
   ("MMRProof", TStruct "struct" "" [["member_leaf_index"; "u64"]; ["last_leaf_index"; "u64"]; ["proof"; "Vec<H256>"]] [] 0 false 0);
   ("ConfirmedEthereumHeaderInfo", TStruct "struct" "" [["header"; "EthereumHeader"]; ["mmr_root"; "H256"]] [] 0 false 0);
   ("Proposal", TStruct "struct" "" [["proposer"; "AccountId"]; ["beneficiary"; "AccountId"]; ["ring_value"; "Balance"]; ["kton_value"; "Balance"]; ["ring_bond"; "Balance"]; ["kton_bond"; "Balance"]] [] 0 false 0);
   ("UnappliedSlash", TStruct "struct" "" [["validator"; "AccountId"]; ["own"; "RKT"]; ["others"; "Vec<(AccountId, RKT)>"]; ["reporters"; "Vec<AccountId>"]; ["payout"; "RKT"]] [] 0 false 0);
   ("ElectionResultT", TStruct "struct" "" [["elected_stashes"; "Vec<AccountId>"]; ["exposures"; "Vec<(AccountId, ExposureT)>"]; ["compute"; "ElectionCompute"]] [] 0 false 0);
   ("EthereumReceiptProof", TStruct "struct" "" [["index"; "u64"]; ["proof"; "Bytes"]; ["header_hash"; "H256"]] [] 0 false 0);
   ("Unbonding", TStruct "struct" "" [["amount"; "Balance"]; ["moment"; "BlockNumber"]] [] 0 false 0);
   ("TcHeaderMMR", alias "Vec<u8>");
   ("CompactAssignments", alias "CompactAssignmentsLatest");
   ("ProxyType", TStruct "enum" "" [] ["Any"; "NonTransfer"; "Governance"; "Staking"; "IdentityJudgement"; "EthereumBridge"] 0 false 0);
   ("TreasuryProposal", TStruct "struct" "" [["proposer"; "AccountId"]; ["beneficiary"; "AccountId"]; ["ring_value"; "Balance"]; ["kton_value"; "Balance"]; ["ring_bond"; "Balance"]; ["kton_bond"; "Balance"]] [] 0 false 0);
   ("RefCount", alias "u32");
   ("EthereumRelayHeaderParcel", TStruct "struct" "" [["header"; "EthereumHeader"]; ["parent_mmr_root"; "H256"]] [] 0 false 0);
   ("EthereumRelayProofs", TStruct "struct" "" [["ethash_proof"; "Vec<EthashProof>"]; ["mmr_proof"; "Vec<H256>"]] [] 0 false 0);
   ("RelayHeaderId", alias "EthereumBlockNumber");
   ("RelayHeaderParcel", alias "EthereumRelayHeaderParcel");
   ("RelayProofs", alias "EthereumRelayProofs");
   ("RelayAffirmationId", TStruct "struct" "" [["game_id"; "EthereumBlockNumber"]; ["round"; "u32"]; ["index"; "u32"]] [] 0 false 0);
   ("RelayAffirmationT", TStruct "struct" "" [["relayer"; "AccountId"]; ["relay_header_parcels"; "EthereumRelayHeaderParcel"]; ["bond"; "Balance"]; ["maybe_extended_relay_affirmation_id"; "Option<RelayAffirmationId>"]; ["verified"; "bool"]] [] 0 false 0);
   ("RelayVotingState", TStruct "struct" "" [["ayes"; "Vec<AccountId>"]; ["nays"; "Vec<AccountId>"]] [] 0 false 0);
   ("Signer", alias "EthereumAddress");
   ("RelayAuthorityT", TStruct "struct" "" [["accountId"; "AccountId"]; ["signer"; "Signer"]; ["stake"; "Balance"]; ["term"; "BlockNumber"]] [] 0 false 0);
   ("MMRRoot", alias "Hash");
   ("EcdsaAddress", alias "EthereumAddress");
   ("EcdsaSignature", alias "[u8; 65]");
   ("EcdsaMessage", alias "H256");
   ("RelayAuthoritySigner", alias "EcdsaAddress");
   ("RelayAuthorityMessage", alias "EcdsaMessage");
   ("RelayAuthoritySignature", alias "EcdsaSignature");
   ("RelayAuthoritySignature<T, I>", alias "EcdsaSignature");
   ("Term", alias "u32");
   ("OpCode", alias "[u8; 4]");
   ("ScheduledAuthoritiesChange", TStruct "struct" "" [["next_authorities"; "Vec<RelayAuthorityT>"]; ["deadline"; "BlockNumber"]] [] 0 false 0);
   ("ScheduledAuthoritiesChangeT", alias "ScheduledAuthoritiesChange");
   ("AccountInfo#23-23", alias "AccountInfoWithProviders");
   ("Address#23-?", alias "MultiAddress");
   ("LookupSource#23-?", alias "MultiAddress");
   ("ValidatorPrefs#23-?", alias "ValidatorPrefsWithBlocked");
   ("AccountInfo#24-?", alias "AccountInfoWithTripleRefCount");
   ("NodeIndex", alias "u64");
   ("MmrNodesPruningConfiguration", TStruct "struct" "" [["step"; "NodeIndex"]; ["progress"; "NodeIndex"]; ["last_position"; "NodeIndex"]] [] 0 false 0);
   ("BlockNumberFor", alias "BlockNumber");
   ("EthereumHeader#1120-?", TStruct "struct" "" [["parent_hash"; "H256"]; ["timestamp"; "u64"]; ["number"; "EthereumBlockNumber"]; ["author"; "EthereumAddress"]; ["transactions_root"; "H256"]; ["uncles_hash"; "H256"]; ["extra_data"; "Bytes"]; ["state_root"; "H256"]; ["receipts_root"; "H256"]; ["log_bloom"; "Bloom"]; ["gas_used"; "U256"]; ["gas_limit"; "U256"]; ["difficulty"; "U256"]; ["seal"; "Vec<Bytes>"]; ["base_fee_per_gas"; "Option<U256>"]; ["hash"; "Option<H256>"]] [] 0 false 0)].
(** network/datahighway-harbour.json *)
Definition net_datahighway_harbour : list (string * tstruct) :=
  [("RoamingChargingPolicyIndex", alias "u64");
   ("MiningRatesHardwareCategory3MaxTokenBonusPerGateway", alias "u32");
   ("MiningClaimsToken", alias "[u8; 16]");
   ("RoamingOrganizationIndex", alias "u64");
   ("MiningEligibilityHardwareAuditorAccountID", alias "u64");
   ("RoamingOrganization", alias "[u8; 16]");
   ("RoamingRoutingProfile", alias "[u8; 16]");
   ("MiningConfigTokenType", alias "Text");
   ("MiningConfigTokenIndex", alias "u64");
   ("DecimalsAfterPoint", alias "u32");
   ("RoamingPacketBundleReceivedPacketsCount", alias "u64");
   ("RoamingDeviceProfileDevEUI", alias "Text");
   ("Address", alias "MultiAddress");
   ("LookupSource", alias "MultiAddress");
   ("MiningConfigTokenConfig", TStruct "struct" "" [["token_type"; "Text"]; ["token_lock_amount"; "u64"]; ["token_lock_start_block"; "Moment"]; ["token_lock_interval_blocks"; "Moment"]] [] 0 false 0);
   ("RoamingAgreementPolicyIndex", alias "u64");
   ("MiningExecutionToken", alias "[u8; 16]");
   ("RoamingDeviceProfileDevAddr", alias "Text");
   ("MiningEligibilityTokenLockedPercentage", alias "u32");
   ("RoamingPacketBundleIndex", alias "u64");
   ("MiningEligibilityTokenAuditorAccountID", alias "u64");
   ("MiningRatesTokenIndex", alias "u64");
   ("MiningRatesHardwareConfig", TStruct "struct" "" [["hardware_hardware_secure"; "u32"]; ["hardware_hardware_insecure"; "u32"]; ["hardware_max_hardware"; "u32"]; ["hardware_category_1_max_token_bonus_per_gateway"; "u32"]; ["hardware_category_2_max_token_bonus_per_gateway"; "u32"]; ["hardware_category_3_max_token_bonus_per_gateway"; "u32"]] [] 0 false 0);
   ("MiningConfigHardwareIndex", alias "u64");
   ("MiningRatesToken", alias "[u8; 16]");
   ("RoamingOperatorIndex", alias "u64");
   ("RoamingNetworkProfileIndex", alias "u64");
   ("RoamingChargingPolicyConfig", TStruct "struct" "" [["policy_next_charging_at_block"; "Moment"]; ["policy_delay_after_billing_in_blocks"; "u64"]] [] 0 false 0);
   ("RoamingServiceProfile", alias "[u8; 16]");
   ("MiningClaimsTokenIndex", alias "u64");
   ("MiningEligibilityTokenCalculatedEligibility", alias "u64");
   ("RoamingDeviceIndex", alias "u64");
   ("RoamingAccountingPolicyConfig", TStruct "struct" "" [["policy_type"; "Text"]; ["subscription_fee"; "Balance"]; ["uplink_fee_factor"; "u32"]; ["downlink_fee_factor"; "u32"]] [] 0 false 0);
   ("MiningEligibilityHardware", alias "[u8; 16]");
   ("MiningRatesHardwareMaxHardware", alias "u32");
   ("RoamingAccountingPolicyIndex", alias "u64");
   ("RoamingPacketBundle", alias "[u8; 16]");
   ("MiningClaimsHardware", alias "[u8; 16]");
   ("MiningEligibilityHardwareResult", TStruct "struct" "" [["hardware_calculated_eligibility"; "u64"]; ["hardware_uptime_percentage"; "u32"]; ["hardware_block_audited"; "Moment"]; ["hardware_auditor_account_id"; "u64"]] [] 0 false 0);
   ("MiningRatesHardwareCategory1MaxTokenBonusPerGateway", alias "u32");
   ("MiningEligibilityHardwareIndex", alias "u64");
   ("RoamingPacketBundleReceivedAtHome", alias "bool");
   ("RoamingDeviceProfileJoinEUI", alias "Text");
   ("MiningClaimsHardwareClaimAmount", alias "u64");
   ("RoamingRoutingProfileAppServer", alias "Text");
   ("MiningRatesTokenTokenMXC", alias "u32");
   ("MiningConfigHardwareSecure", alias "bool");
   ("RoamingSessionIndex", alias "u64");
   ("RoamingServiceProfileIndex", alias "u64");
   ("MiningConfigTokenLockAmount", alias "u64");
   ("MiningEligibilityTokenIndex", alias "u64");
   ("RoamingBillingPolicyConfig", TStruct "struct" "" [["policy_next_billing_at_block"; "Moment"]; ["policy_frequency_in_blocks"; "Moment"]] [] 0 false 0);
   ("RoamingSession", alias "[u8; 16]");
   ("RoamingDeviceProfile", alias "[u8; 16]");
   ("ExchangeRateConfig", TStruct "struct" "" [["hbtc"; "u64"]; ["dot"; "u64"]; ["iota"; "u64"]; ["fil"; "u64"]; ["decimals_after_point"; "u32"]] [] 0 false 0);
   ("RoamingDeviceProfileVendorID", alias "Text");
   ("RoamingServiceProfileUplinkRate", alias "u32");
   ("MiningSamplingTokenConfig", TStruct "struct" "" [["token_sample_block"; "Moment"]; ["token_sample_locked_amount"; "u64"]] [] 0 false 0);
   ("MiningSamplingHardware", alias "[u8; 16]");
   ("MiningConfigTokenRequirementsConfig", TStruct "struct" "" [["token_type"; "Text"]; ["token_lock_min_amount"; "u64"]; ["token_lock_min_blocks"; "u32"]] [] 0 false 0);
   ("MiningRatesTokenMaxToken", alias "u32");
   ("HBTCRate", alias "u64");
   ("MiningClaimsHardwareIndex", alias "u64");
   ("MiningSamplingToken", alias "[u8; 16]");
   ("MiningConfigHardwareType", alias "Text");
   ("MiningClaimsTokenClaimResult", TStruct "struct" "" [["token_claim_amount"; "u64"]; ["token_claim_block_redeemed"; "u64"]] [] 0 false 0);
   ("MiningEligibilityToken", alias "[u8; 16]");
   ("MiningRatesTokenTokenDOT", alias "u32");
   ("MiningSamplingHardwareIndex", alias "u64");
   ("MiningEligibilityHardwareCalculatedEligibility", alias "u64");
   ("IOTARate", alias "u64");
   ("DOTRate", alias "u64");
   ("MiningRatesHardwareSecure", alias "u32");
   ("MiningConfigToken", alias "[u8; 16]");
   ("RoamingServiceProfileDownlinkRate", alias "u32");
   ("MiningRatesTokenTokenIOTA", alias "u32");
   ("MiningConfigHardwareID", alias "u64");
   ("MiningConfigHardwareConfig", TStruct "struct" "" [["hardware_secure"; "bool"]; ["hardware_type"; "Text"]; ["hardware_id"; "u64"]; ["hardware_dev_eui"; "u64"]; ["hardware_lock_start_block"; "Moment"]; ["hardware_lock_interval_blocks"; "Moment"]] [] 0 false 0);
   ("MiningClaimsTokenClaimAmount", alias "u64");
   ("MiningRatesHardwareCategory2MaxTokenBonusPerGateway", alias "u32");
   ("MiningExecutionTokenExecutorAccountID", alias "u64");
   ("MiningRatesHardwareInsecure", alias "u32");
   ("MiningEligibilityHardwareUptimePercentage", alias "u32");
   ("FILRate", alias "u64");
   ("MiningConfigHardwareDevEUI", alias "u64");
   ("MiningRatesTokenConfig", TStruct "struct" "" [["token_token_mxc"; "u32"]; ["token_token_iota"; "u32"]; ["token_token_dot"; "u32"]; ["token_max_token"; "u32"]; ["token_max_loyalty"; "u32"]] [] 0 false 0);
   ("MiningSamplingHardwareConfig", TStruct "struct" "" [["hardware_sample_block"; "Moment"]; ["hardware_sample_hardware_online"; "bool"]] [] 0 false 0);
   ("MiningRatesTokenMaxLoyalty", alias "u32");
   ("MiningSamplingTokenIndex", alias "u64");
   ("MiningExecutionTokenExecutionResult", TStruct "struct" "" [["token_execution_exector_account_id"; "u64"]; ["token_execution_started_block"; "Moment"]; ["token_execution_ended_block"; "Moment"]] [] 0 false 0);
   ("MiningExecutionTokenIndex", alias "u64");
   ("MiningEligibilityTokenResult", TStruct "struct" "" [["token_calculated_eligibility"; "u64"]; ["token_token_locked_percentage"; "u32"]; ["token_date_audited"; "Moment"]; ["token_auditor_account_id"; "u64"]] [] 0 false 0);
   ("MiningRatesHardwareIndex", alias "u64");
   ("MiningRatesHardware", alias "[u8; 16]");
   ("MiningSamplingHardwareSampleHardwareOnline", alias "u64");
   ("ExchangeRateIndex", alias "u64");
   ("MiningSamplingTokenSampleLockedAmount", alias "u64");
   ("MiningClaimsHardwareClaimResult", TStruct "struct" "" [["hardware_claim_amount"; "u64"]; ["hardware_claim_block_redeemed"; "u64"]] [] 0 false 0);
   ("MiningConfigHardware", alias "[u8; 16]");
   ("Weight", alias "u64");
   ("CompactAssignments", alias "CompactAssignmentsLatest");
   ("RefCount", alias "u32");
   ("DispatchResult", TStruct "enum" "" [["Ok"; "Null"]; ["Error"; "DispatchError"]] [] 0 false 0);
   ("MiningSpeedBoostConfigurationTokenMiningTokenLockPeriod", alias "u32");
   ("MiningSpeedBoostLodgementsTokenMiningLodgementResult", TStruct "struct" "" [["token_claim_amount"; "u64"]; ["token_date_redeemed"; "u64"]] [] 0 false 0);
   ("RoamingChargingPolicyDelayAfterBillingInDays", alias "u64");
   ("MiningSpeedBoostRatesTokenMiningTokenDOT", alias "u32");
   ("MiningSpeedBoostConfigurationHardwareMiningHardwareConfig", TStruct "struct" "" [["hardware_secure"; "bool"]; ["hardware_type"; "Text"]; ["hardware_id"; "u64"]; ["hardware_dev_eui"; "u64"]; ["hardware_lock_period_start_date"; "Moment"]; ["hardware_lock_period_end_date"; "Moment"]] [] 0 false 0);
   ("MiningSpeedBoostLodgementsTokenMiningIndex", alias "u64");
   ("MiningSpeedBoostEligibilityTokenMiningIndex", alias "u64");
   ("MiningSpeedBoostRatesHardwareMiningHardwareSecure", alias "u32");
   ("MiningSpeedBoostConfigurationHardwareMiningHardwareLockPeriodEndDate", alias "u64");
   ("MiningSpeedBoostConfigurationTokenMiningIndex", alias "u64");
   ("MiningSpeedBoostRatesHardwareMiningIndex", alias "u64");
   ("MiningSpeedBoostRatesTokenMiningTokenMXC", alias "u32");
   ("MiningSpeedBoostConfigurationHardwareMiningHardwareID", alias "u64");
   ("RoamingPacketBundleReceivedStartedAt", alias "Moment");
   ("MiningSpeedBoostLodgementsTokenMiningLodgementAmount", alias "u64");
   ("MiningSpeedBoostConfigurationHardwareMining", alias "[u8; 16]");
   ("MiningSpeedBoostConfigurationTokenMiningTokenLockedAmount", alias "u64");
   ("MiningSpeedBoostSamplingHardwareMiningSamplingConfig", TStruct "struct" "" [["hardware_sample_date"; "Moment"]; ["hardware_sample_hardware_online"; "bool"]] [] 0 false 0);
   ("MiningSpeedBoostRatesHardwareMining", alias "[u8; 16]");
   ("RoamingChargingPolicyNextChargingAt", alias "Moment");
   ("MiningSpeedBoostConfigurationTokenMiningTokenLockPeriodEndDate", alias "u64");
   ("MiningSpeedBoostEligibilityHardwareMiningAuditorAccountID", alias "u64");
   ("MiningSpeedBoostSamplingTokenMiningIndex", alias "u64");
   ("MiningSpeedBoostConfigurationHardwareMiningHardwareSecure", alias "bool");
   ("MiningSpeedBoostLodgementsHardwareMiningLodgementResult", TStruct "struct" "" [["hardware_claim_amount"; "u64"]; ["hardware_date_redeemed"; "u64"]] [] 0 false 0);
   ("MiningSpeedBoostLodgementsTokenMining", alias "[u8; 16]");
   ("MiningSpeedBoostConfigurationHardwareMiningHardwareDevEUI", alias "u64");
   ("MiningSpeedBoostSamplingTokenMiningSampleDate", alias "u64");
   ("MiningSpeedBoostConfigurationTokenMining", alias "[u8; 16]");
   ("MiningSpeedBoostEligibilityTokenMiningCalculatedEligibility", alias "u64");
   ("MiningSpeedBoostConfigurationTokenMiningTokenType", alias "Text");
   ("MiningSpeedBoostRatesHardwareMiningHardwareInsecure", alias "u32");
   ("MiningSpeedBoostConfigurationHardwareMiningHardwareLockPeriodStartDate", alias "u64");
   ("RoamingAccountingPolicyDownlinkFeeFactor", alias "u32");
   ("RoamingOperator", alias "[u8; 16]");
   ("MiningSpeedBoostRatesHardwareMiningMaxHardware", alias "u32");
   ("RoamingSessionJoinRequest", TStruct "struct" "" [["session_network_server_id"; "Moment"]; ["session_join_request_requested_at"; "Moment"]] [] 0 false 0);
   ("RoamingSessionJoinRequestRequestedAt", alias "Moment");
   ("MiningSpeedBoostEligibilityHardwareMining", alias "[u8; 16]");
   ("MiningSpeedBoostEligibilityTokenMiningTokenLockedPercentage", alias "u32");
   ("RoamingAccountingPolicy", alias "[u8; 16]");
   ("RoamingSessionJoinRequestAcceptAcceptedAt", alias "Moment");
   ("MiningSpeedBoostSamplingHardwareMiningSampleHardwareOnline", alias "u64");
   ("RoamingRoutingProfileIndex", alias "u64");
   ("RoamingAgreementPolicy", alias "[u8; 16]");
   ("RoamingChargingPolicy", alias "[u8; 16]");
   ("RoamingBillingPolicyNextBillingAt", alias "Moment");
   ("MiningSpeedBoostEligibilityTokenMiningDateAudited", alias "u64");
   ("Keys", alias "(AccountId, AccountId)");
   ("RoamingDeviceProfileIndex", alias "u64");
   ("MiningSpeedBoostEligibilityHardwareMiningHardwareUptimePercentage", alias "u32");
   ("RoamingBillingPolicyFrequencyInDays", alias "u64");
   ("RoamingNetwork", alias "[u8; 16]");
   ("MiningSpeedBoostRatesHardwareMiningRatesConfig", TStruct "struct" "" [["hardware_hardware_secure"; "u32"]; ["hardware_hardware_insecure"; "u32"]; ["hardware_max_hardware"; "u32"]] [] 0 false 0);
   ("MiningSpeedBoostRatesTokenMiningMaxToken", alias "u32");
   ("MiningSpeedBoostRatesTokenMiningMaxLoyalty", alias "u32");
   ("MiningSpeedBoostRatesTokenMiningTokenIOTA", alias "u32");
   ("RoamingDevice", alias "[u8; 16]");
   ("MiningSpeedBoostSamplingTokenMining", alias "[u8; 16]");
   ("MiningSpeedBoostRatesTokenMiningIndex", alias "u64");
   ("RoamingBillingPolicy", alias "[u8; 16]");
   ("RoamingAccountingPolicyUplinkFeeFactor", alias "u32");
   ("MiningSpeedBoostLodgementsHardwareMiningLodgementDateRedeemed", alias "u64");
   ("RoamingBillingPolicyIndex", alias "u64");
   ("MiningSpeedBoostLodgementsHardwareMiningIndex", alias "u64");
   ("RoamingPacketBundleReceivedPacketsOkCount", alias "u64");
   ("RoamingNetworkProfile", alias "[u8; 16]");
   ("MiningSpeedBoostEligibilityHardwareMiningIndex", alias "u64");
   ("RoamingAgreementPolicyActivationType", alias "Text");
   ("MiningSpeedBoostRatesTokenMiningRatesConfig", TStruct "struct" "" [["token_token_mxc"; "u32"]; ["token_token_iota"; "u32"]; ["token_token_dot"; "u32"]; ["token_max_token"; "u32"]; ["token_max_loyalty"; "u32"]] [] 0 false 0);
   ("MiningSpeedBoostEligibilityHardwareMiningEligibilityResult", TStruct "struct" "" [["hardware_calculated_eligibility"; "u64"]; ["hardware_hardware_uptime_percentage"; "u32"]; ["hardware_date_audited"; "u64"]; ["hardware_auditor_account_id"; "u64"]] [] 0 false 0);
   ("RoamingPacketBundleReceivedEndedAt", alias "Moment");
   ("RoamingAccountingPolicyType", alias "Text");
   ("RoamingDeviceProfileConfig", TStruct "struct" "" [["device_profile_devaddr"; "Text"]; ["device_profile_deveui"; "Text"]; ["device_profile_joineui"; "Text"]; ["device_profile_vendorid"; "Text"]] [] 0 false 0);
   ("MiningSpeedBoostConfigurationHardwareMiningIndex", alias "u64");
   ("MiningSpeedBoostConfigurationTokenMiningTokenLockPeriodStartDate", alias "u64");
   ("MiningSpeedBoostLodgementsHardwareMiningLodgementAmount", alias "u64");
   ("MiningSpeedBoostEligibilityTokenMining", alias "[u8; 16]");
   ("RoamingNetworkServerIndex", alias "u64");
   ("MiningSpeedBoostSamplingTokenMiningSamplingConfig", TStruct "struct" "" [["token_sample_date"; "Moment"]; ["token_sample_tokens_locked"; "u64"]] [] 0 false 0);
   ("MiningSpeedBoostSamplingHardwareMining", alias "[u8; 16]");
   ("MiningSpeedBoostLodgementsTokenMiningLodgementDateRedeemed", alias "u64");
   ("RoamingAgreementPolicyExpiry", alias "Moment");
   ("MiningSpeedBoostSamplingTokenMiningSampleTokensLocked", alias "u64");
   ("MiningSpeedBoostEligibilityTokenMiningAuditorAccountID", alias "u64");
   ("MiningSpeedBoostConfigurationTokenMiningTokenConfig", TStruct "struct" "" [["token_type"; "Text"]; ["token_locked_amount"; "u64"]; ["token_lock_period"; "u32"]; ["token_lock_period_start_date"; "Moment"]; ["token_lock_period_end_date"; "Moment"]] [] 0 false 0);
   ("MiningSpeedBoostEligibilityTokenMiningEligibilityResult", TStruct "struct" "" [["token_calculated_eligibility"; "u64"]; ["token_token_locked_percentage"; "u32"]; ["token_date_audited"; "u64"]; ["token_auditor_account_id"; "u64"]] [] 0 false 0);
   ("RoamingPacketBundleExternalDataStorageHash", alias "Hash");
   ("MiningSpeedBoostEligibilityHardwareMiningDateAudited", alias "u64");
   ("MiningSpeedBoostConfigurationHardwareMiningHardwareType", alias "Text");
   ("RoamingSessionJoinRequestAcceptExpiry", alias "Moment");
   ("RoamingAgreementPolicyConfig", TStruct "struct" "" [["policy_activation_type"; "Text"]; ["policy_expiry"; "u64"]] [] 0 false 0);
   ("MiningSpeedBoostLodgementsHardwareMining", alias "[u8; 16]");
   ("RoamingNetworkIndex", alias "u64");
   ("RoamingSessionJoinAccept", TStruct "struct" "" [["session_join_request_accept_expiry"; "Moment"]; ["session_join_request_accept_accepted_at"; "Moment"]] [] 0 false 0);
   ("MiningSpeedBoostSamplingHardwareMiningIndex", alias "u64");
   ("RoamingNetworkServer", alias "[u8; 16]");
   ("RoamingPacketBundleReceiver", TStruct "struct" "" [["packet_bundle_received_at_home"; "bool"]; ["packet_bundle_received_packets_count"; "u64"]; ["packet_bundle_received_packets_ok_count"; "u64"]; ["packet_bundle_received_started_at"; "Moment"]; ["packet_bundle_received_ended_at"; "Moment"]; ["packet_bundle_external_data_storage_hash"; "Hash"]] [] 0 false 0);
   ("MiningSpeedBoostRatesTokenMining", alias "[u8; 16]");
   ("MiningSpeedBoostEligibilityHardwareMiningCalculatedEligibility", alias "u64");
   ("MiningSpeedBoostSamplingHardwareMiningSampleDate", alias "u64");
   ("AccountInfo", alias "AccountInfoWithProviders")].
(** network/datahighway.json *)
Definition net_datahighway : list (string * tstruct) :=
  [("Weight", alias "u64");
   ("CompactAssignments", alias "CompactAssignmentsLatest");
   ("RefCount", alias "u32");
   ("DispatchResult", TStruct "enum" "" [["Ok"; "Null"]; ["Error"; "DispatchError"]] [] 0 false 0);
   ("RoamingChargingPolicyIndex", alias "u64");
   ("MiningRatesHardwareCategory3MaxTokenBonusPerGateway", alias "u32");
   ("RoamingOrganizationIndex", alias "u64");
   ("MiningEligibilityHardwareAuditorAccountID", alias "u64");
   ("RoamingOrganization", alias "[u8; 16]");
   ("DOTRate", alias "u64");
   ("RoamingRoutingProfile", alias "[u8; 16]");
   ("RoamingAccountingPolicyIndex", alias "u64");
   ("RoamingAgreementPolicySetting", TStruct "struct" "" [["policy_activation_type"; "Text"]; ["policy_expiry_block"; "Moment"]] [] 0 false 0);
   ("DecimalsAfterPoint", alias "u32");
   ("RoamingPacketBundleReceivedPacketsCount", alias "u64");
   ("RequestorData", TStruct "struct" "" [["mining_eligibility_proxy_id"; "MiningEligibilityProxyIndex"]; ["total_amt"; "Balance"]; ["rewardee_count"; "u64"]; ["member_kind"; "u32"]; ["requested_date"; "Moment"]] [] 0 false 0);
   ("RoamingDeviceProfileDevEUI", alias "Text");
   ("MiningSettingHardware", alias "[u8; 16]");
   ("RoamingAgreementPolicyIndex", alias "u64");
   ("MiningExecutionToken", alias "[u8; 16]");
   ("RoamingDeviceProfileDevAddr", alias "Text");
   ("MiningEligibilityTokenLockedPercentage", alias "u32");
   ("RoamingPacketBundleIndex", alias "u64");
   ("MiningEligibilityTokenAuditorAccountID", alias "u64");
   ("MiningRatesTokenIndex", alias "u64");
   ("RoamingBillingPolicySetting", TStruct "struct" "" [["policy_next_billing_at_block"; "Moment"]; ["policy_frequency_in_blocks"; "Moment"]] [] 0 false 0);
   ("MiningRatesToken", alias "[u8; 16]");
   ("RoamingOperatorIndex", alias "u64");
   ("MiningSettingTokenLockAmount", alias "u64");
   ("RoamingSessionJoinAccept", TStruct "struct" "" [["session_join_request_accept_expiry"; "Moment"]; ["session_join_request_accept_accepted_at_block"; "Moment"]] [] 0 false 0);
   ("DailyData", TStruct "struct" "" [["mining_eligibility_proxy_id"; "MiningEligibilityProxyIndex"]; ["total_amt"; "Balance"]; ["proxy_claim_requestor_account_id"; "AccountId"]; ["member_kind"; "u32"]; ["rewarded_date"; "Date"]] [] 0 false 0);
   ("RoamingServiceProfile", alias "[u8; 16]");
   ("MiningClaimsTokenIndex", alias "u64");
   ("MiningEligibilityTokenCalculatedEligibility", alias "u64");
   ("RoamingDeviceIndex", alias "u64");
   ("MiningEligibilityProxyClaimRewardeeData", TStruct "struct" "" [["proxy_claim_rewardee_account_id"; "AccountId"]; ["proxy_claim_reward_amount"; "Balance"]; ["proxy_claim_start_date"; "Date"]; ["proxy_claim_end_date"; "Date"]] [] 0 false 0);
   ("MiningEligibilityHardware", alias "[u8; 16]");
   ("MiningRatesHardwareMaxHardware", alias "u32");
   ("RoamingPacketBundle", alias "[u8; 16]");
   ("MiningClaimsHardware", alias "[u8; 16]");
   ("RoamingChargingPolicySetting", TStruct "struct" "" [["policy_next_charging_at_block"; "Moment"]; ["policy_delay_after_billing_in_blocks"; "u64"]] [] 0 false 0);
   ("MiningEligibilityHardwareResult", TStruct "struct" "" [["hardware_calculated_eligibility"; "u64"]; ["hardware_uptime_percentage"; "u32"]; ["hardware_block_audited"; "Moment"]; ["hardware_auditor_account_id"; "u64"]] [] 0 false 0);
   ("MiningRatesHardwareCategory1MaxTokenBonusPerGateway", alias "u32");
   ("MiningEligibilityHardwareIndex", alias "u64");
   ("RoamingPacketBundleReceivedAtHome", alias "bool");
   ("RoamingDeviceProfileJoinEUI", alias "Text");
   ("ExchangeRateSetting", TStruct "struct" "" [["hbtc"; "u64"]; ["dot"; "u64"]; ["iota"; "u64"]; ["fil"; "u64"]; ["decimals_after_point"; "u32"]] [] 0 false 0);
   ("MiningClaimsHardwareClaimAmount", alias "u64");
   ("RoamingRoutingProfileAppServer", alias "Text");
   ("MiningRatesTokenTokenMXC", alias "u32");
   ("MiningClaimsToken", alias "[u8; 16]");
   ("RoamingSessionIndex", alias "u64");
   ("RoamingServiceProfileIndex", alias "u64");
   ("MiningEligibilityTokenIndex", alias "u64");
   ("RoamingSession", alias "[u8; 16]");
   ("RoamingDeviceProfile", alias "[u8; 16]");
   ("RewardTransferData", TStruct "struct" "" [["mining_eligibility_proxy_id"; "MiningEligibilityProxyIndex"]; ["is_sent"; "bool"]; ["total_amt"; "Balance"]; ["rewardee_count"; "u64"]; ["member_kind"; "u32"]; ["requested_date"; "Moment"]] [] 0 false 0);
   ("RoamingDeviceProfileVendorID", alias "Text");
   ("TransferData", TStruct "struct" "" [["mining_eligibility_proxy_id"; "MiningEligibilityProxyIndex"]; ["is_sent"; "bool"]; ["total_amt"; "Balance"]; ["rewardee_count"; "u64"]; ["member_kind"; "u32"]; ["requested_date"; "Moment"]] [] 0 false 0);
   ("RoamingServiceProfileUplinkRate", alias "u32");
   ("RoamingChargingPolicy", alias "[u8; 16]");
   ("RoamingDeviceProfileSetting", TStruct "struct" "" [["device_profile_devaddr"; "Text"]; ["device_profile_deveui"; "Text"]; ["device_profile_joineui"; "Text"]; ["device_profile_vendorid"; "Text"]] [] 0 false 0);
   ("RoamingDevice", alias "[u8; 16]");
   ("RoamingAccountingPolicyDownlinkFeeFactor", alias "u32");
   ("MiningSettingHardwareID", alias "u64");
   ("MiningSamplingHardware", alias "[u8; 16]");
   ("MiningSamplingHardwareSetting", TStruct "struct" "" [["hardware_sample_block"; "Moment"]; ["hardware_sample_hardware_online"; "bool"]] [] 0 false 0);
   ("RoamingNetworkProfileIndex", alias "u64");
   ("RewardeeData", TStruct "struct" "" [["proxy_claim_rewardee_account_id"; "AccountId"]; ["proxy_claim_reward_amount"; "Balance"]; ["proxy_claim_start_date"; "Date"]; ["proxy_claim_end_date"; "Date"]] [] 0 false 0);
   ("MiningSettingTokenRequirementsSetting", TStruct "struct" "" [["token_type"; "Text"]; ["token_lock_min_amount"; "u64"]; ["token_lock_min_blocks"; "u32"]] [] 0 false 0);
   ("RoamingOperator", alias "[u8; 16]");
   ("MiningRatesHardwareSetting", TStruct "struct" "" [["hardware_hardware_secure"; "u32"]; ["hardware_hardware_insecure"; "u32"]; ["hardware_max_hardware"; "u32"]; ["hardware_category_1_max_token_bonus_per_gateway"; "u32"]; ["hardware_category_2_max_token_bonus_per_gateway"; "u32"]; ["hardware_category_3_max_token_bonus_per_gateway"; "u32"]] [] 0 false 0);
   ("MiningRatesTokenMaxToken", alias "u32");
   ("RoamingSessionJoinRequest", TStruct "struct" "" [["session_network_server_id"; "Moment"]; ["session_join_requested_at_block"; "Moment"]] [] 0 false 0);
   ("HBTCRate", alias "u64");
   ("RoamingPacketBundleReceivedPacketsOkCount", alias "u64");
   ("RoamingAccountingPolicySetting", TStruct "struct" "" [["policy_type"; "Text"]; ["subscription_fee"; "Balance"]; ["uplink_fee_factor"; "u32"]; ["downlink_fee_factor"; "u32"]] [] 0 false 0);
   ("MiningClaimsHardwareIndex", alias "u64");
   ("MiningSamplingToken", alias "[u8; 16]");
   ("MiningClaimsTokenClaimResult", TStruct "struct" "" [["token_claim_amount"; "u64"]; ["token_claim_block_redeemed"; "u64"]] [] 0 false 0);
   ("RoamingAccountingPolicy", alias "[u8; 16]");
   ("RoamingRoutingProfileIndex", alias "u64");
   ("RoamingAgreementPolicy", alias "[u8; 16]");
   ("MiningEligibilityToken", alias "[u8; 16]");
   ("MiningClaimsTokenClaimAmount", alias "u64");
   ("MiningEligibilityProxyIndex", alias "u64");
   ("Keys", alias "SessionKeys2");
   ("MiningRatesTokenTokenDOT", alias "u32");
   ("RoamingDeviceProfileIndex", alias "u64");
   ("Date", alias "i64");
   ("MiningSamplingHardwareIndex", alias "u64");
   ("RoamingNetwork", alias "[u8; 16]");
   ("MiningSettingTokenType", alias "Text");
   ("MiningEligibilityHardwareCalculatedEligibility", alias "u64");
   ("MiningSettingTokenSetting", TStruct "struct" "" [["token_type"; "Text"]; ["token_lock_amount"; "u64"]; ["token_lock_start_block"; "Moment"]; ["token_lock_interval_blocks"; "Moment"]] [] 0 false 0);
   ("IOTARate", alias "u64");
   ("RoamingBillingPolicy", alias "[u8; 16]");
   ("RoamingAccountingPolicyUplinkFeeFactor", alias "u32");
   ("MiningSettingHardwareSecure", alias "bool");
   ("RoamingBillingPolicyIndex", alias "u64");
   ("MiningRatesHardwareSecure", alias "u32");
   ("RewardRequestorData", TStruct "struct" "" [["mining_eligibility_proxy_id"; "MiningEligibilityProxyIndex"]; ["total_amt"; "Balance"]; ["rewardee_count"; "u64"]; ["member_kind"; "u32"]; ["requested_date"; "Moment"]] [] 0 false 0);
   ("RoamingNetworkProfile", alias "[u8; 16]");
   ("RoamingAgreementPolicyActivationType", alias "Text");
   ("RoamingServiceProfileDownlinkRate", alias "u32");
   ("MiningSettingHardwareSetting", TStruct "struct" "" [["hardware_secure"; "bool"]; ["hardware_type"; "Text"]; ["hardware_id"; "u64"]; ["hardware_dev_eui"; "u64"]; ["hardware_lock_start_block"; "Moment"]; ["hardware_lock_interval_blocks"; "Moment"]] [] 0 false 0);
   ("MiningRatesTokenTokenIOTA", alias "u32");
   ("RoamingAccountingPolicyType", alias "Text");
   ("MiningSettingTokenIndex", alias "u64");
   ("MiningRatesHardwareCategory2MaxTokenBonusPerGateway", alias "u32");
   ("MiningExecutionTokenExecutorAccountID", alias "u64");
   ("MiningRatesHardwareInsecure", alias "u32");
   ("MiningEligibilityHardwareUptimePercentage", alias "u32");
   ("FILRate", alias "u64");
   ("RoamingNetworkServerIndex", alias "u64");
   ("AccountInfo", alias "AccountInfoWithProviders");
   ("MiningSamplingTokenSetting", TStruct "struct" "" [["token_sample_block"; "Moment"]; ["token_sample_locked_amount"; "u64"]] [] 0 false 0);
   ("Address", alias "MultiAddress");
   ("MiningRatesTokenMaxLoyalty", alias "u32");
   ("MiningEligibilityProxyRewardRequest", TStruct "struct" "" [["proxy_claim_requestor_account_id"; "AccountId"]; ["proxy_claim_total_reward_amount"; "Balance"]; ["proxy_claim_timestamp_redeemed"; "Moment"]] [] 0 false 0);
   ("LookupSource", alias "MultiAddress");
   ("MiningSamplingTokenIndex", alias "u64");
   ("MiningExecutionTokenExecutionResult", TStruct "struct" "" [["token_execution_exector_account_id"; "u64"]; ["token_execution_started_block"; "Moment"]; ["token_execution_ended_block"; "Moment"]] [] 0 false 0);
   ("RoamingPacketBundleExternalDataStorageHash", alias "Hash");
   ("MiningExecutionTokenIndex", alias "u64");
   ("MiningEligibilityTokenResult", TStruct "struct" "" [["token_calculated_eligibility"; "u64"]; ["token_token_locked_percentage"; "u32"]; ["token_date_audited"; "Moment"]; ["token_auditor_account_id"; "u64"]] [] 0 false 0);
   ("MiningRatesHardwareIndex", alias "u64");
   ("MiningRatesHardware", alias "[u8; 16]");
   ("MiningEligibilityProxy", alias "[u8; 16]");
   ("MiningSettingHardwareType", alias "Text");
   ("RewardDailyData", TStruct "struct" "" [["mining_eligibility_proxy_id"; "MiningEligibilityProxyIndex"]; ["total_amt"; "Balance"]; ["proxy_claim_requestor_account_id"; "AccountId"]; ["member_kind"; "u32"]; ["rewarded_date"; "Date"]] [] 0 false 0);
   ("RoamingNetworkIndex", alias "u64");
   ("MiningSettingHardwareDevEUI", alias "u64");
   ("MiningClaimsHardwareClaimResult", TStruct "struct" "" [["hardware_claim_amount"; "u64"]; ["hardware_claim_block_redeemed"; "u64"]] [] 0 false 0);
   ("MiningSamplingHardwareSampleHardwareOnline", alias "u64");
   ("ExchangeRateIndex", alias "u64");
   ("MiningSamplingTokenSampleLockedAmount", alias "u64");
   ("RoamingNetworkServer", alias "[u8; 16]");
   ("RoamingPacketBundleReceiver", TStruct "struct" "" [["packet_bundle_received_at_home"; "bool"]; ["packet_bundle_received_packets_count"; "u64"]; ["packet_bundle_received_packets_ok_count"; "u64"]; ["packet_bundle_received_started_at_block"; "Moment"]; ["packet_bundle_received_ended_at_block"; "Moment"]; ["packet_bundle_external_data_storage_hash"; "Hash"]] [] 0 false 0);
   ("MiningSettingToken", alias "[u8; 16]");
   ("MiningSettingHardwareIndex", alias "u64");
   ("MiningRatesTokenSetting", TStruct "struct" "" [["token_token_mxc"; "u32"]; ["token_token_iota"; "u32"]; ["token_token_dot"; "u32"]; ["token_max_token"; "u32"]; ["token_max_loyalty"; "u32"]] [] 0 false 0)].
(** network/deepbrain.json *)
Definition net_deepbrain : list (string * tstruct) :=
  [("Weight", alias "u64");
   ("CompactAssignments", alias "CompactAssignmentsLatest");
   ("RefCount", alias "u32");
   ("Address", alias "MultiAddress");
   ("LookupSource", alias "MultiAddress");
   ("AccountInfo", alias "AccountInfoWithProviders")].
(** network/dock-pos.json *)
Definition net_dock_pos : list (string * tstruct) :=
  [("Weight", alias "u64");
   ("RefCount", alias "u32");
   ("DispatchResult", TStruct "enum" "" [["Ok"; "Null"]; ["Error"; "DispatchError"]] [] 0 false 0);
   ("Address", alias "AccountId");
   ("LookupSource", alias "AccountId");
   ("Address#23-?", alias "MultiAddress");
   ("LookupSource#23-?", alias "MultiAddress");
   ("AccountInfo", alias "AccountInfoWithTripleRefCount");
   ("CompactAssignments", alias "CompactAssignmentsLatest");
   ("BlockNumber", alias "u32");
   ("EpochDetail<Balance>", TStruct "struct" "" [["validator_count"; "u8"]; ["starting_slot"; "SlotNo"]; ["expected_ending_slot"; "SlotNo"]; ["ending_slot"; "Option<SlotNo>"]; ["emission_for_validators"; "Option<Balance>"]; ["emission_for_treasury"; "Option<Balance>"]] [] 0 false 0);
   ("ValidatorStatsPerEpoch<Balance>", TStruct "struct" "" [["block_count"; "EpochLen"]; ["locked_reward"; "Option<Balance>"]; ["unlocked_reward"; "Option<Balance>"]] [] 0 false 0);
   ("Bonus<Balance, BlockNumber>", TStruct "struct" "" [["swap_bonuses"; "Vec<(Balance, BlockNumber)>"]; ["vesting_bonuses"; "Vec<(Balance, Balance, BlockNumber)>"]] [] 0 false 0);
   ("Bonus", TStruct "struct" "" [["swap_bonuses"; "Vec<(Balance, BlockNumber)>"]; ["vesting_bonuses"; "Vec<(Balance, Balance, BlockNumber)>"]] [] 0 false 0);
   ("ValidatorStatsPerEpoch", TStruct "struct" "" [["block_count"; "EpochLen"]; ["locked_reward"; "Option<Balance>"]; ["unlocked_reward"; "Option<Balance>"]] [] 0 false 0);
   ("Transaction", TStruct "struct" "" [["nonce"; "U256"]; ["action"; "String"]; ["gas_price"; "u64"]; ["gas_limit"; "u64"]; ["value"; "U256"]; ["input"; "Vec<u8>"]; ["signature"; "TransactionSignature"]] [] 0 false 0);
   ("Blob", TStruct "struct" "" [["id"; "BlobId"]; ["blob"; "Vec<u8>"]; ["author"; "Did"]] [] 0 false 0);
   ("Policy", TStruct "enum" "" [["OneOf"; "BTreeSet<Did>"]] [] 0 false 0);
   ("SlotNo", alias "u64");
   ("EpochLen", alias "u32");
   ("StateChange", TStruct "enum" "" [["KeyUpdate"; "KeyUpdate"]; ["DidRemoval"; "DidRemoval"]; ["Revoke"; "Revoke"]; ["UnRevoke"; "UnRevoke"]; ["RemoveRegistry"; "RemoveRegistry"]; ["Blob"; "Blob"]; ["MasterVote"; "Payload"]; ["Attestation"; "(Did, Attestation)"]] [] 0 false 0);
   ("BlockLength", TStruct "struct" "" [["max"; "PerDispatchClassU32"]] [] 0 false 0);
   ("DidSignature", TStruct "enum" "" [["Sr25519"; "Bytes64"]; ["Ed25519"; "Bytes64"]; ["Secp256k1"; "Bytes65"]] [] 0 false 0);
   ("Membership", TStruct "struct" "" [["members"; "BTreeSet<Did>"]; ["vote_requirement"; "u64"]] [] 0 false 0);
   ("Registry", TStruct "struct" "" [["policy"; "Policy"]; ["add_only"; "bool"]] [] 0 false 0);
   ("EpochNo", alias "u32");
   ("UnRevoke", TStruct "struct" "" [["registry_id"; "RegistryId"]; ["revoke_ids"; "BTreeSet<RevokeId>"]; ["last_modified"; "BlockNumber"]] [] 0 false 0);
   ("PMAuth", alias "BTreeMap<Did, DidSignature>");
   ("Account", TStruct "struct" "" [["nonce"; "U256"]; ["balance"; "U256"]] [] 0 false 0);
   ("KeyDetail", TStruct "struct" "" [["controller"; "Did"]; ["public_key"; "PublicKey"]] [] 0 false 0);
   ("Did", alias "[u8; 32]");
   ("Bytes33", TStruct "struct" "" [["value"; "[u8;33]"]] [] 0 false 0);
   ("RemoveRegistry", TStruct "struct" "" [["registry_id"; "RegistryId"]; ["last_modified"; "BlockNumber"]] [] 0 false 0);
   ("BlobId", alias "[u8;32]");
   ("Bytes32", TStruct "struct" "" [["value"; "[u8;32]"]] [] 0 false 0);
   ("Attestation", TStruct "struct" "" [["priority"; "Compact<u64>"]; ["iri"; "Option<Vec<u8>>"]] [] 0 false 0);
   ("RegistryId", alias "[u8;32]");
   ("TransactionSignature", TStruct "struct" "" [["v"; "u64"]; ["r"; "H256"]; ["s"; "H256"]] [] 0 false 0);
   ("Balance", alias "u64");
   ("ContractConfig", TStruct "struct" "" [["address"; "H160"]; ["query_aggregator_call_encoded"; "Vec<u8>"]; ["query_price_abi_encoded"; "Vec<u8>"]; ["return_val_abi"; "Vec<ParamType>"]] [] 0 false 0);
   ("RevokeId", alias "[u8;32]");
   ("Revoke", TStruct "struct" "" [["registry_id"; "RegistryId"]; ["revoke_ids"; "BTreeSet<RevokeId>"]; ["last_modified"; "BlockNumber"]] [] 0 false 0);
   ("ParamType", TStruct "enum" "" [["Address"; "null"]; ["Int"; "u16"]; ["Uint"; "u16"]] [] 0 false 0);
   ("DidRemoval", TStruct "struct" "" [["did"; "Did"]; ["last_modified_in_block"; "BlockNumber"]] [] 0 false 0);
   ("PerDispatchClassU32", TStruct "struct" "" [["normal"; "u32"]; ["operational"; "u32"]; ["mandatory"; "u32"]] [] 0 false 0);
   ("Keys", alias "SessionKeys2");
   ("PublicKey", TStruct "enum" "" [["Sr25519"; "Bytes32"]; ["Ed25519"; "Bytes32"]; ["Secp256k1"; "Bytes33"]] [] 0 false 0);
   ("KeyUpdate", TStruct "struct" "" [["did"; "Did"]; ["public_key"; "PublicKey"]; ["controller"; "Option<Did>"]; ["last_modified_in_block"; "BlockNumber"]] [] 0 false 0);
   ("Bytes64", TStruct "struct" "" [["value"; "[u8;64]"]] [] 0 false 0);
   ("Bytes65", TStruct "struct" "" [["value"; "[u8;65]"]] [] 0 false 0);
   ("EpochDetail", TStruct "struct" "" [["validator_count"; "u8"]; ["starting_slot"; "SlotNo"]; ["expected_ending_slot"; "SlotNo"]; ["ending_slot"; "Option<SlotNo>"]; ["emission_for_validators"; "Option<Balance>"]; ["emission_for_treasury"; "Option<Balance>"]] [] 0 false 0);
   ("Payload", TStruct "struct" "" [["proposal"; "Vec<u8>"]; ["round_no"; "u64"]] [] 0 false 0);
   ("PAuth", alias "BTreeMap<Did, DidSignature>")].
(** network/dock.json *)
Definition net_dock : list (string * tstruct) :=
  [("Weight", alias "u64");
   ("RefCount", alias "u32");
   ("DispatchResult", TStruct "enum" "" [["Ok"; "Null"]; ["Error"; "DispatchError"]] [] 0 false 0);
   ("Address", alias "AccountId");
   ("LookupSource", alias "AccountId");
   ("Address#23-?", alias "MultiAddress");
   ("LookupSource#23-?", alias "MultiAddress");
   ("AccountInfo", alias "AccountInfoWithTripleRefCount");
   ("BlockNumber", alias "u32");
   ("EpochDetail<Balance>", TStruct "struct" "" [["validator_count"; "u8"]; ["starting_slot"; "SlotNo"]; ["expected_ending_slot"; "SlotNo"]; ["ending_slot"; "Option<SlotNo>"]; ["emission_for_validators"; "Option<Balance>"]; ["emission_for_treasury"; "Option<Balance>"]] [] 0 false 0);
   ("ValidatorStatsPerEpoch<Balance>", TStruct "struct" "" [["block_count"; "EpochLen"]; ["locked_reward"; "Option<Balance>"]; ["unlocked_reward"; "Option<Balance>"]] [] 0 false 0);
   ("Bonus<Balance, BlockNumber>", TStruct "struct" "" [["swap_bonuses"; "Vec<(Balance, BlockNumber)>"]; ["vesting_bonuses"; "Vec<(Balance, Balance, BlockNumber)>"]] [] 0 false 0);
   ("Bonus", TStruct "struct" "" [["swap_bonuses"; "Vec<(Balance, BlockNumber)>"]; ["vesting_bonuses"; "Vec<(Balance, Balance, BlockNumber)>"]] [] 0 false 0);
   ("ValidatorStatsPerEpoch", TStruct "struct" "" [["block_count"; "EpochLen"]; ["locked_reward"; "Option<Balance>"]; ["unlocked_reward"; "Option<Balance>"]] [] 0 false 0);
   ("Transaction", TStruct "struct" "" [["nonce"; "U256"]; ["action"; "String"]; ["gas_price"; "u64"]; ["gas_limit"; "u64"]; ["value"; "U256"]; ["input"; "Vec<u8>"]; ["signature"; "TransactionSignature"]] [] 0 false 0);
   ("Blob", TStruct "struct" "" [["id"; "BlobId"]; ["blob"; "Vec<u8>"]; ["author"; "Did"]] [] 0 false 0);
   ("Policy", TStruct "enum" "" [["OneOf"; "BTreeSet<Did>"]] [] 0 false 0);
   ("SlotNo", alias "u64");
   ("EpochLen", alias "u32");
   ("StateChange", TStruct "enum" "" [["KeyUpdate"; "KeyUpdate"]; ["DidRemoval"; "DidRemoval"]; ["Revoke"; "Revoke"]; ["UnRevoke"; "UnRevoke"]; ["RemoveRegistry"; "RemoveRegistry"]; ["Blob"; "Blob"]; ["MasterVote"; "Payload"]; ["Attestation"; "(Did, Attestation)"]] [] 0 false 0);
   ("BlockLength", TStruct "struct" "" [["max"; "PerDispatchClassU32"]] [] 0 false 0);
   ("DidSignature", TStruct "enum" "" [["Sr25519"; "Bytes64"]; ["Ed25519"; "Bytes64"]; ["Secp256k1"; "Bytes65"]] [] 0 false 0);
   ("Membership", TStruct "struct" "" [["members"; "BTreeSet<Did>"]; ["vote_requirement"; "u64"]] [] 0 false 0);
   ("Registry", TStruct "struct" "" [["policy"; "Policy"]; ["add_only"; "bool"]] [] 0 false 0);
   ("EpochNo", alias "u32");
   ("UnRevoke", TStruct "struct" "" [["registry_id"; "RegistryId"]; ["revoke_ids"; "BTreeSet<RevokeId>"]; ["last_modified"; "BlockNumber"]] [] 0 false 0);
   ("PMAuth", alias "BTreeMap<Did, DidSignature>");
   ("Account", TStruct "struct" "" [["nonce"; "U256"]; ["balance"; "U256"]] [] 0 false 0);
   ("KeyDetail", TStruct "struct" "" [["controller"; "Did"]; ["public_key"; "PublicKey"]] [] 0 false 0);
   ("Did", alias "[u8; 32]");
   ("Bytes33", TStruct "struct" "" [["value"; "[u8;33]"]] [] 0 false 0);
   ("RemoveRegistry", TStruct "struct" "" [["registry_id"; "RegistryId"]; ["last_modified"; "BlockNumber"]] [] 0 false 0);
   ("BlobId", alias "[u8;32]");
   ("Bytes32", TStruct "struct" "" [["value"; "[u8;32]"]] [] 0 false 0);
   ("Attestation", TStruct "struct" "" [["priority"; "Compact<u64>"]; ["iri"; "Option<Vec<u8>>"]] [] 0 false 0);
   ("RegistryId", alias "[u8;32]");
   ("TransactionSignature", TStruct "struct" "" [["v"; "u64"]; ["r"; "H256"]; ["s"; "H256"]] [] 0 false 0);
   ("Balance", alias "u64");
   ("ContractConfig", TStruct "struct" "" [["address"; "H160"]; ["query_aggregator_call_encoded"; "Vec<u8>"]; ["query_price_abi_encoded"; "Vec<u8>"]; ["return_val_abi"; "Vec<ParamType>"]] [] 0 false 0);
   ("RevokeId", alias "[u8;32]");
   ("Revoke", TStruct "struct" "" [["registry_id"; "RegistryId"]; ["revoke_ids"; "BTreeSet<RevokeId>"]; ["last_modified"; "BlockNumber"]] [] 0 false 0);
   ("ParamType", TStruct "enum" "" [["Address"; "null"]; ["Int"; "u16"]; ["Uint"; "u16"]] [] 0 false 0);
   ("DidRemoval", TStruct "struct" "" [["did"; "Did"]; ["last_modified_in_block"; "BlockNumber"]] [] 0 false 0);
   ("PerDispatchClassU32", TStruct "struct" "" [["normal"; "u32"]; ["operational"; "u32"]; ["mandatory"; "u32"]] [] 0 false 0);
   ("Keys", alias "SessionKeys2");
   ("PublicKey", TStruct "enum" "" [["Sr25519"; "Bytes32"]; ["Ed25519"; "Bytes32"]; ["Secp256k1"; "Bytes33"]] [] 0 false 0);
   ("KeyUpdate", TStruct "struct" "" [["did"; "Did"]; ["public_key"; "PublicKey"]; ["controller"; "Option<Did>"]; ["last_modified_in_block"; "BlockNumber"]] [] 0 false 0);
   ("Bytes64", TStruct "struct" "" [["value"; "[u8;64]"]] [] 0 false 0);
   ("Bytes65", TStruct "struct" "" [["value"; "[u8;65]"]] [] 0 false 0);
   ("EpochDetail", TStruct "struct" "" [["validator_count"; "u8"]; ["starting_slot"; "SlotNo"]; ["expected_ending_slot"; "SlotNo"]; ["ending_slot"; "Option<SlotNo>"]; ["emission_for_validators"; "Option<Balance>"]; ["emission_for_treasury"; "Option<Balance>"]] [] 0 false 0);
   ("Payload", TStruct "struct" "" [["proposal"; "Vec<u8>"]; ["round_no"; "u64"]] [] 0 false 0);
   ("PAuth", alias "BTreeMap<Did, DidSignature>")].
(** network/dusty.json *)
Definition net_dusty : list (string * tstruct) :=
  [("Lockdrop", TStruct "struct" "" [["duration"; "u64"]; ["public_key"; "[u8; 33]"]; ["transaction_hash"; "H256"]; ["type"; "u8"]; ["value"; "u128"]] [] 0 false 0);
   ("Parameters", TStruct "struct" "" [["canBeNominated"; "bool"]; ["optionExpired"; "u128"]; ["optionP"; "u32"]] [] 0 false 0);
   ("ClaimVote", TStruct "struct" "" [["approve"; "bool"]; ["authority"; "u16"]; ["claim_id"; "ClaimId"]] [] 0 false 0);
   ("Decision", TStruct "enum" "" [] ["Undecided"; "True"; "False"] 0 false 0);
   ("ClaimId", alias "H256");
   ("ChallengeGameOf", TStruct "struct" "" [["challenges"; "Vec<Hash>"]; ["createdBlock"; "BlockNumber"]; ["decision"; "Decision"]; ["propertyHash"; "Hash"]] [] 0 false 0);
   ("PropertyOf", TStruct "struct" "" [["inputs"; "Vec<Vec<u8>>"]; ["predicateAddress"; "AccountId"]] [] 0 false 0);
   ("EraStakingPoints", TStruct "struct" "" [["individual"; "BTreeMap<AccountId, Balance>"]; ["total"; "Balance"]] [] 0 false 0);
   ("AccountInfo", alias "AccountInfoWithProviders");
   ("AuthorityVote", alias "u32");
   ("AuthorityId", alias "AccountId");
   ("Schedule", TStruct "struct" "" [["putCodePerByteCost"; "Weight"]; ["version"; "u32"]] [] 0 false 0);
   ("Keys", alias "SessionKeys3");
   ("PredicateHash", alias "Hash");
   ("EraIndex", alias "u32");
   ("DollarRate", alias "u128");
   ("PredicateContractOf", TStruct "struct" "" [["inputs"; "Vec<u8>"]; ["predicateHash"; "Hash"]] [] 0 false 0);
   ("SmartContract", TStruct "enum" "" [["Wasm"; "AccountId"]; ["Evm"; "H160"]] [] 0 false 0);
   ("PrefabOvmModule", TStruct "struct" "" [["code"; "Vec<u8>"]; ["scheduleVersion"; "u32"]] [] 0 false 0);
   ("VoteCounts", TStruct "struct" "" [["bad"; "u32"]; ["good"; "u32"]] [] 0 false 0);
   ("TickerRate", TStruct "struct" "" [["authority"; "u16"]; ["btc"; "u128"]; ["eth"; "u128"]] [] 0 false 0);
   ("Property", TStruct "struct" "" [["inputs"; "Vec<Vec<u8>>"]; ["predicateAddress"; "AccountId"]] [] 0 false 0);
   ("Claim", TStruct "struct" "" [["amount"; "u128"]; ["approve"; "BTreeSet<AuthorityId>"]; ["complete"; "bool"]; ["decline"; "BTreeSet<AuthorityId>"]; ["params"; "Lockdrop"]] [] 0 false 0);
   ("StakingParameters", TStruct "struct" "" [["canBeNominated"; "bool"]; ["optionExpired"; "u128"]; ["optionP"; "u32"]] [] 0 false 0);
   ("Weight", alias "u64");
   ("CompactAssignments", alias "CompactAssignmentsLatest");
   ("RefCount", alias "u32");
   ("Address", alias "MultiAddress");
   ("LookupSource", alias "MultiAddress")].
(** network/edgeware.json *)
Definition net_edgeware : list (string * tstruct) :=
  [("BlockNumber", alias "U32");
   ("SessionIndex", alias "U32");
   ("AuctionIndex", alias "U32");
   ("AuthIndex", alias "U32");
   ("BalanceUpload", alias "(AccountId, u64)");
   ("EgressQueueRoot", alias "(ParaId, Hash)");
   ("EventIndex", alias "u32");
   ("LeasePeriodOf", alias "BlockNumber");
   ("LeasePeriod", alias "BlockNumber");
   ("MemberCount", alias "u32");
   ("MomentOf", alias "Moment");
   ("Offender", alias "(ValidatorId, Exposure)");
   ("ReportIdOf", alias "Hash");
   ("SubId", alias "u32");
   ("Weight", alias "u32");
   ("WeightMultiplier", alias "u64");
   ("WinningData", alias "Vec<WinningDataEntry>");
   ("Index", alias "U32");
   ("Kind", alias "[u8; 16]");
   ("OpaqueTimeSlot", alias "Bytes");
   ("ProposalContents", alias "Bytes");
   ("ProposalTitle", alias "Bytes");
   ("VoteOutcome", alias "[u8; 32]");
   ("VotingTally", alias "Option<Vec<(VoteOutcome, u128)>>");
   ("Box<<T as Trait<I>>::Proposal>", alias "BoxProposal");
   ("ValidatorPrefs", TStruct "struct" "" [["Commission"; "Compact<Balance>"]] [] 0 false 0);
   ("Keys", TStruct "struct" "" [["grandpa"; "AccountId"]; ["babe"; "AccountId"]; ["im_online"; "AccountId"]; ["authority_discovery"; "AccountId"]] [] 0 false 0);
   ("Forcing", TStruct "enum" "" [] ["NotForcing"; "ForceNew"; "ForceNone"] 0 false 0);
   ("VoteStage", TStruct "enum" "" [] ["PreVoting"; "Commit"; "Voting"; "Completed"] 0 false 0);
   ("VoteData", TStruct "struct" "" [["initiator"; "AccountId"]; ["stage"; "VoteStage"]; ["vote_type"; "VoteType"]; ["tally_type"; "TallyType"]; ["is_commit_reveal"; "Bool"]] [] 0 false 0);
   ("VoteRecord", TStruct "struct" "" [["id"; "u64"]; ["commitments"; "Commitments"]; ["reveals"; "Reveals"]; ["data"; "VoteData"]; ["outcomes"; "Vec<(VoteOutcome)>"]] [] 0 false 0);
   ("Commitments", alias "Vec<(AccountId, VoteOutcome)>");
   ("Reveals", alias "Vec<(AccountId, Vec<VoteOutcome>)>");
   ("VoteType", TStruct "enum" "" [] ["Binary"; "MultiOption"; "RankedChoice"] 0 false 0);
   ("IdentityStage", TStruct "enum" "" [] ["Registered"; "Attested"; "Verified"] 0 false 0);
   ("IdentityRecord", TStruct "struct" "" [["account"; "AccountId"]; ["identity_type"; "String"]; ["identity"; "Bytes"]; ["stage"; "IdentityStage"]; ["expiration_time"; "BlockNumber"]; ["proof"; "Bytes"]; ["metadata"; "Bytes"]] [] 0 false 0);
   ("MetadataRecord", TStruct "struct" "" [["avatar"; "String"]; ["display_name"; "String"]; ["tagline"; "String"]] [] 0 false 0);
   ("ProposalCategory", TStruct "enum" "" [] ["Signaling"] 0 false 0);
   ("ProposalStage", TStruct "enum" "" [] ["PreVoting"; "Voting"; "Completed"] 0 false 0);
   ("ProposalRecord", TStruct "struct" "" [["index"; "u32"]; ["author"; "AccountId"]; ["stage"; "VoteStage"]; ["transition_time"; "u32"]; ["category"; "ProposalCategory"]; ["title"; "Text"]; ["contents"; "Text"]; ["vote_id"; "u64"]] [] 0 false 0);
   ("Balance2", alias "Balance");
   ("BalanceLock<Balance, BlockNumber>", TStruct "struct" "" [["id"; "LockIdentifier"]; ["amount"; "Balance"]; ["reasons"; "Reasons"]] [] 0 false 0);
   ("Linkage", TStruct "struct" "" [["previous"; "Option<AccountId>"]; ["next"; "Option<AccountId>"]] [] 0 false 0);
   ("voting::VoteType", TStruct "enum" "" [] ["Binary"; "MultiOption"] 0 false 0);
   ("voting::TallyType", TStruct "enum" "" [] ["OnePerson"; "OneCoin"] 0 false 0);
   ("Points", alias "u32");
   ("EraPoints", TStruct "struct" "" [["total"; "Points"]; ["individual"; "Vec<Points>"]] [] 0 false 0);
   ("Weight#38-?", alias "u64");
   ("DispatchResult#0-37", TStruct "enum" "" [["Error"; "DispatchError"]; ["Ok"; "Null"]] [] 0 false 0);
   ("Address#38-41", alias "GenericAddress");
   ("LookupSource#38-41", alias "GenericAddress");
   ("RefCount", alias "u32");
   ("voting::Tally", alias "VotingTally");
   ("Address#45-?", alias "MultiAddress");
   ("LookupSource#45-?", alias "MultiAddress");
   ("AssetId", alias "u32")].
(** network/equilibrium.json *)
Definition net_equilibrium : list (string * tstruct) :=
  [("Weight", alias "u64");
   ("RefCount", alias "u32");
   ("DispatchResult", TStruct "enum" "" [["Ok"; "Null"]; ["Error"; "DispatchError"]] [] 0 false 0);
   ("ReinitRequest", TStruct "struct" "" [["account"; "AccountId"]; ["authority_index"; "AuthIndex"]; ["validators_len"; "u32"]; ["block_num"; "BlockNumber"]] [] 0 false 0);
   ("ChainId", alias "u8");
   ("FinancialMetrics", TStruct "struct" "" [["period_start"; "Duration"]; ["period_end"; "Duration"]; ["assets"; "Vec<Asset>"]; ["mean_returns"; "Vec<FixedNumber>"]; ["volatilities"; "Vec<FixedNumber>"]; ["correlations"; "Vec<FixedNumber>"]; ["covariances"; "Vec<FixedNumber>"]] [] 0 false 0);
   ("UserGroup", TStruct "enum" "" [] ["Unknown"; "Balances"; "Bailsmen"; "Borrowers"; "Lenders"] 0 false 0);
   ("PricePeriod", TStruct "enum" "" [] ["Min"; "TenMin"; "Hour"; "FourHour"; "Day"] 0 false 0);
   ("PricePayload", alias "Data");
   ("Asset", alias "Currency");
   ("DepositNonce", alias "u64");
   ("Keys", alias "SessionKeys3");
   ("ResourceId", alias "[u8; 32]");
   ("OperationRequest", TStruct "struct" "" [["account"; "AccountId"]; ["authority_index"; "AuthIndex"]; ["validators_len"; "u32"]; ["block_num"; "BlockNumber"]] [] 0 false 0);
   ("TransferReason", TStruct "enum" "" [] ["Common"; "InterestFee"; "MarginCall"; "LiquidityFarming"; "BailsmenRedistribution"; "TreasuryEqBuyout"; "TreasuryBuyEq"; "Subaccount"; "Lock"] 0 false 0);
   ("TotalAggregates", TStruct "struct" "" [["collateral"; "Balance"]; ["debt"; "Balance"]] [] 0 false 0);
   ("Address", alias "AccountId");
   ("PricePoint", TStruct "struct" "" [["block_number"; "BlockNumber"]; ["timestamp"; "u64"]; ["price"; "u64"]; ["data_points"; "Vec<DataPoint>"]] [] 0 false 0);
   ("PriceUpdate", TStruct "struct" "" [["period_start"; "Duration"]; ["time"; "Duration"]; ["price"; "FixedNumber"]] [] 0 false 0);
   ("BalanceOf", alias "Balance");
   ("LookupSource", alias "AccountId");
   ("CapVec", TStruct "struct" "" [["head_index"; "u32"]; ["len_cap"; "u32"]; ["items"; "Vec<FixedNumber>"]] [] 0 false 0);
   ("AssetMetrics", TStruct "struct" "" [["period_start"; "Duration"]; ["period_end"; "Duration"]; ["returns"; "Vec<FixedNumber>"]; ["volatility"; "FixedNumber"]; ["correlations"; "Vec<(Asset, FixedNumber)>"]] [] 0 false 0);
   ("FixedI64", alias "i64");
   ("FixedNumber", alias "u128");
   ("SignedBalance", TStruct "enum" "" [["Positive"; "Balance"]; ["Negative"; "Balance"]] [] 0 false 0);
   ("Balance", alias "u64");
   ("VestingInfo", TStruct "struct" "" [["locked"; "Balance"]; ["perBlock"; "Balance"]; ["startingBlock"; "BlockNumber"]] [] 0 false 0);
   ("PriceLog", TStruct "struct" "" [["latest_timestamp"; "Duration"]; ["prices"; "CapVec<Price>"]] [] 0 false 0);
   ("BlockNumber", alias "u64");
   ("Currency", TStruct "enum" "" [] ["Unknown"; "Usd"; "Eq"; "Eth"; "Btc"; "Eos"; "Dot"; "Crv"] 0 false 0);
   ("DataPoint", TStruct "struct" "" [["price"; "u64"]; ["account_id"; "AccountId"]; ["block_number"; "BlockNumber"]; ["timestamp"; "u64"]] [] 0 false 0);
   ("ProposalVotes", TStruct "struct" "" [["votes_for"; "Vec<AccountId>"]; ["votes_against"; "Vec<AccountId>"]; ["status"; "ProposalStatus"]; ["expiry"; "BlockNumber"]] [] 0 false 0);
   ("ProposalStatus", TStruct "enum" "" [] ["Initiated"; "Approved"; "Rejected"] 0 false 0);
   ("PortfolioMetrics", TStruct "struct" "" [["period_start"; "Duration"]; ["period_end"; "Duration"]; ["z_score"; "u32"]; ["volatility"; "FixedNumber"]; ["value_at_risk"; "FixedNumber"]] [] 0 false 0);
   ("Duration", TStruct "struct" "" [["secs"; "u64"]; ["nanos"; "u32"]] [] 0 false 0);
   ("BalancesAggregate", TStruct "struct" "" [["total_issuance"; "Balance"]; ["total_debt"; "Balance"]] [] 0 false 0);
   ("Price", alias "u128");
   ("SubAccType", TStruct "enum" "" [] ["Bailsman"; "Borrower"; "Lender"] 0 false 0)].
(** network/gateway-test.json *)
Definition net_gateway_test : list (string * tstruct) :=
  [("AccountData", alias "NULL");
   ("ChainAccountSignature", TStruct "enum" "" [["Gate"; "Gateway__Chain__Address"]; ["Eth"; "ChainAccountSignatureEth"]; ["Dot"; "ChainAccountSignatureDot"]] [] 0 false 0);
   ("ChainAccountSignatureGate", alias "(Gateway__Chain__Address,Gateway__Chain__Signature)");
   ("ApiRates", alias "(ApiAPR,ApiAPR)");
   ("Solana__Chain__Signature", alias "[u8; 65]");
   ("CashExtractionNotice", TStruct "enum" "" [["Eth"; "CashExtractionNoticeEth"]] [] 0 false 0);
   ("CashIndex", alias "Uint");
   ("RatesError", TStruct "enum" "" [["ModelRateOutOfBounds"; "NULL"]; ["ZeroAboveKink"; "NULL"]; ["KinkAboveFull"; "NULL"]; ["KinkUtilizationTooHigh"; "NULL"]; ["Overflowed"; "NULL"]] [] 0 false 0);
   ("InterestRateModelFixed", TStruct "struct" "" [["rate"; "APR"]] [] 0 false 0);
   ("BlockLength", TStruct "struct" "" [["max"; "PerDispatchClass_u32"]] [] 0 false 0);
   ("ApiValidators", TStruct "struct" "" [["current_block"; "String"]; ["current_validators"; "Vec<(String,String)>"]; ["miner_payouts"; "Vec<(ChainAccount,String)>"]] [] 0 false 0);
   ("ApiAssetMeta", TStruct "struct" "" [["supplier_counts"; "BTreeMap<String,u32>"]; ["borrower_counts"; "BTreeMap<String,u32>"]; ["combined_supplier_count"; "u32"]; ["combined_borrower_count"; "u32"]] [] 0 false 0);
   ("ReasonIncorrectNonce", alias "(Nonce,Nonce)");
   ("Polkadot__Chain__PublicKey", alias "[u8; 64]");
   ("ChainLogId", TStruct "enum" "" [["Eth"; "ChainLogIdEth"]] [] 0 false 0);
   ("EthereumClientError", TStruct "enum" "" [["DecodeError"; "NULL"]; ["HttpIoError"; "NULL"]; ["HttpTimeout"; "NULL"]; ["HttpErrorCode"; "U16"]; ["InvalidUTF8"; "NULL"]; ["JsonParseError"; "NULL"]; ["NoResult"; "NULL"]] [] 0 false 0);
   ("CashPrincipalPerAsset", alias "AssetIndex");
   ("ExtractionNotice", TStruct "enum" "" [["Eth"; "ExtractionNoticeEth"]] [] 0 false 0);
   ("Nonce", alias "u32");
   ("Notice", TStruct "enum" "" [["ExtractionNotice"; "ExtractionNotice"]; ["CashExtractionNotice"; "CashExtractionNotice"]; ["FutureYieldNotice"; "FutureYieldNotice"]; ["SetSupplyCapNotice"; "SetSupplyCapNotice"]; ["ChangeAuthorityNotice"; "ChangeAuthorityNotice"]] [] 0 false 0);
   ("Tezos__Chain__Rate", alias "u128");
   ("Polkadot__Chain__Amount", alias "u128");
   ("Tezos__Chain__PublicKey", alias "[u8; 64]");
   ("Polkadot__Chain__Block", alias "NULL");
   ("Reason", TStruct "enum" "" [["AssetExtractionNotSupported"; "null"]; ["AssetNotSupported"; "null"]; ["BadAccount"; "null"]; ["BadAddress"; "null"]; ["BadAsset"; "null"]; ["BadChainId"; "null"]; ["BadFactor"; "null"]; ["BadHash"; "null"]; ["BadSymbol"; "null"]; ["BadTicker"; "null"]; ["BadUnits"; "null"]; ["ChainMismatch"; "null"]; ["HashMismatch"; "null"]; ["CryptoError"; "CryptoError"]; ["EventError"; "EventError"]; ["FailedToSubmitExtrinsic"; "null"]; ["CannotFormulateReorg"; "null"]; ["WorkerFetchError"; "null"]; ["WorkerBusy"; "null"]; ["IncorrectNonce"; "ReasonIncorrectNonce"]; ["InKindLiquidation"; "null"]; ["InsufficientChainCash"; "null"]; ["InsufficientLiquidity"; "null"]; ["InsufficientTotalFunds"; "null"]; ["InvalidAPR"; "null"]; ["InvalidCodeHash"; "null"]; ["InvalidLiquidation"; "null"]; ["InvalidUTF8"; "null"]; ["KeyNotFound"; "null"]; ["MathError"; "MathError"]; ["MaxForNonCashAsset"; "null"]; ["MinTxValueNotMet"; "null"]; ["None"; "null"]; ["NoPrice"; "null"]; ["NoSuchAsset"; "null"]; ["NoticeMissing"; "ReasonNoticeMissing"]; ["NotImplemented"; "null"]; ["OracleError"; "OracleError"]; ["RatesError"; "RatesError"]; ["RepayTooMuch"; "null"]; ["SelfTransfer"; "null"]; ["SerdeError"; "null"]; ["SetYieldNextError"; "SetYieldNextError"]; ["SignatureAccountMismatch"; "null"]; ["SignatureMismatch"; "null"]; ["TimestampMissing"; "null"]; ["TimeTravelNotAllowed"; "null"]; ["TrxRequestParseError"; "TrxReqParseError"]; ["UnknownValidator"; "null"]; ["InvalidChain"; "null"]; ["PendingAuthNotice"; "null"]; ["ChangeValidatorsError"; "null"]; ["InsufficientCashForMaxTransfer"; "null"]; ["SufficientLiquidity"; "null"]; ["AssetQuantityMismatch"; "null"]; ["Unreachable"; "null"]; ["TotalBorrowUnderflow"; "null"]; ["InsufficientCollateral"; "null"]; ["NegativeChainCash"; "null"]; ["MissingLastBlock"; "null"]; ["StarportMissing"; "null"]; ["InvalidChainBlock"; "null"]] [] 0 false 0);
   ("SessionKeys", TStruct "struct" "" [["aura"; "[u8;32]"]; ["grandpa"; "[u8;32]"]] [] 0 false 0);
   ("Uint", alias "u128");
   ("Tezos__Chain__Event", alias "tez__Event");
   ("ChainHash", TStruct "enum" "" [["Gate"; "Gateway__Chain__Hash"]; ["Eth"; "Ethereum__Chain__Hash"]; ["Dot"; "Polkadot__Chain__Hash"]] [] 0 false 0);
   ("AssetBalance", alias "Int");
   ("Tezos__Chain__Amount", alias "u128");
   ("AccountId32", alias "[u8; 32]");
   ("Solana__Chain__PublicKey", alias "[u8; 64]");
   ("Solana__Chain__Amount", alias "u128");
   ("ChainAccountSignatureTez", alias "(Tezos__Chain__Address,Tezos__Chain__Signature)");
   ("USDQuantity", alias "Quantity");
   ("SetSupplyCapNoticeEth", TStruct "struct" "" [["id"; "NoticeId"]; ["parent"; "Ethereum__Chain__Hash"]; ["asset"; "Ethereum__Chain__Address"]; ["cap"; "Ethereum__Chain__Amount"]] [] 0 false 0);
   ("APR", alias "Uint");
   ("ValidatorKeys", TStruct "struct" "" [["substrate_id"; "SubstrateId"]; ["eth_address"; "Ethereum__Chain__Address"]] [] 0 false 0);
   ("ApiPortfolio", TStruct "struct" "" [["cash"; "String"]; ["positions"; "Vec<(ChainAsset,String)>"]] [] 0 false 0);
   ("CashQuantity", alias "Quantity");
   ("Tezos__Chain__Timestamp", alias "u64");
   ("Oracle__Timestamp", alias "u64");
   ("EthereumEventExecuteProposal", TStruct "struct" "" [["title"; "String"]; ["extrinsics"; "Vec<Vec<u8>>"]] [] 0 false 0);
   ("ApiInterestRateModelFixed", TStruct "struct" "" [["rate"; "String"]] [] 0 false 0);
   ("sol__EventId", alias "(u64,u64)");
   ("AssetPrice", alias "u128");
   ("ApiInterestRateModelKink", TStruct "struct" "" [["zero_rate"; "String"]; ["kink_rate"; "String"]; ["kink_utilization"; "String"]; ["full_rate"; "String"]] [] 0 false 0);
   ("Factor", alias "Uint");
   ("Units", TStruct "struct" "" [["ticker"; "Ticker"]; ["decimals"; "Decimals"]] [] 0 false 0);
   ("ReasonNoticeMissing", alias "(ChainId,NoticeId)");
   ("AssetInfo", TStruct "struct" "" [["asset"; "ChainAsset"]; ["decimals"; "Decimals"]; ["liquidity_factor"; "LiquidityFactor"]; ["rate_model"; "InterestRateModel"]; ["miner_shares"; "MinerShares"]; ["supply_cap"; "AssetAmount"]; ["symbol"; "Symbol"]; ["ticker"; "Ticker"]] [] 0 false 0);
   ("Solana__Chain__Rate", alias "u128");
   ("ChainAccountSignatureSol", alias "(Solana__Chain__Address,Solana__Chain__Signature)");
   ("LiquidityFactor", alias "Factor");
   ("Gateway__Chain__EventId", alias "comp__EventId");
   ("EventStateFailed", TStruct "struct" "" [["reason"; "Reason"]] [] 0 false 0);
   ("SubstrateId", alias "AccountId32");
   ("CashPrincipal", alias "AssetBalance");
   ("MinerShares", alias "Factor");
   ("ChainSignatureList", TStruct "enum" "" [["Gate"; "Reserved"]; ["Eth"; "Vec<(Ethereum__Chain__Address,Ethereum__Chain__Signature)>"]; ["Dot"; "Vec<(Polkadot__Chain__Address,Polkadot__Chain__Signature)>"]] [] 0 false 0);
   ("AssetAmount", alias "Uint");
   ("Solana__Chain__Event", alias "sol__Event");
   ("Polkadot__Chain__Address", alias "[u8; 32]");
   ("Ethereum__Chain__Amount", alias "u128");
   ("Solana__Chain__Hash", alias "[u8; 32]");
   ("Ethereum__Chain__Rate", alias "u128");
   ("NoticeStatePending", TStruct "struct" "" [["signature_pairs"; "ChainSignatureList"]] [] 0 false 0);
   ("PerDispatchClass_u32", TStruct "struct" "" [["normal"; "u32"]; ["operational"; "u32"]; ["mandatory"; "u32"]] [] 0 false 0);
   ("NoticeId", alias "(EraId,EraIndex)");
   ("ChainAsset", TStruct "enum" "" [["Gate"; "Reserved"]; ["Eth"; "Ethereum__Chain__Address"]; ["Dot"; "Polkadot__Chain__Address"]] [] 0 false 0);
   ("ApiAssetInfo", TStruct "struct" "" [["asset"; "ChainAsset"]; ["decimals"; "u8"]; ["liquidity_factor"; "String"]; ["rate_model"; "ApiInterestRateModel"]; ["miner_shares"; "String"]; ["supply_cap"; "String"]; ["symbol"; "Symbol"]; ["ticker"; "String"]] [] 0 false 0);
   ("CashPerCashPrincipal", alias "CashIndex");
   ("ChainAccountSignatureEth", alias "(Ethereum__Chain__Address,Ethereum__Chain__Signature)");
   ("Ethereum__Chain__PublicKey", alias "[u8; 64]");
   ("ValidatorIdentity", alias "SubstrateId");
   ("TrxReqParseError", TStruct "enum" "" [["NotImplemented"; "null"]; ["LexError"; "null"]; ["InvalidAmount"; "null"]; ["InvalidAddress"; "null"]; ["InvalidArgs"; "null"]; ["UnknownFunction"; "null"]; ["InvalidExpression"; "null"]; ["InvalidChain"; "null"]; ["InvalidChainAccount"; "null"]] [] 0 false 0);
   ("VersionedAuthorityList", TStruct "struct" "" [["version"; "u8"]; ["authorityList"; "AuthorityList"]] [] 0 false 0);
   ("ChainAccountSignatureDot", alias "(Polkadot__Chain__Address,Polkadot__Chain__Signature)");
   ("AssetIndex", alias "Uint");
   ("ExtractionNoticeEth", TStruct "struct" "" [["id"; "NoticeId"]; ["parent"; "Ethereum__Chain__Hash"]; ["asset"; "Ethereum__Chain__Address"]; ["account"; "Ethereum__Chain__Address"]; ["amount"; "Ethereum__Chain__Amount"]] [] 0 false 0);
   ("EthereumEvent", TStruct "enum" "" [["Lock"; "EthereumEventLock"]; ["LockCash"; "EthereumEventLockCash"]; ["ExecTrxRequest"; "EthereumEventExecTrxRequest"]; ["ExecuteProposal"; "EthereumEventExecuteProposal"]; ["NoticeInvoked"; "EthereumEventNoticeInvoked"]] [] 0 false 0);
   ("EventInfo", TStruct "struct" "" [["latest_eth_block"; "u64"]; ["events"; "Vec<(ChainLogId,ChainLogEvent)>"]] [] 0 false 0);
   ("SignersSet", alias "BTreeSet<ValidatorIdentity>");
   ("InterestRateModelKink", TStruct "struct" "" [["zero_rate"; "APR"]; ["kink_rate"; "APR"]; ["kink_utilization"; "Factor"]; ["full_rate"; "APR"]] [] 0 false 0);
   ("CashAmount", alias "Uint");
   ("FutureYieldNoticeEth", TStruct "struct" "" [["id"; "NoticeId"]; ["parent"; "Ethereum__Chain__Hash"]; ["next_cash_yield"; "Ethereum__Chain__Rate"]; ["next_cash_index"; "Ethereum__Chain__CashIndex"]; ["next_cash_yield_start"; "Ethereum__Chain__Timestamp"]] [] 0 false 0);
   ("GovernanceResult", TStruct "enum" "" [["FailedToDecodeCall"; "NULL"]; ["DispatchSuccess"; "NULL"]; ["DispatchFailure"; "DispatchError"]] [] 0 false 0);
   ("ChainLogEvent", TStruct "enum" "" [["Eth"; "EthereumLogEvent"]] [] 0 false 0);
   ("Ethereum__Chain__Event", alias "EthereumEvent");
   ("dot__EventId", alias "(u64,u64)");
   ("tez__EventId", alias "(u128,u128)");
   ("CashExtractionNoticeEth", TStruct "struct" "" [["id"; "NoticeId"]; ["parent"; "Ethereum__Chain__Hash"]; ["account"; "Ethereum__Chain__Address"]; ["principal"; "Ethereum__Chain__Amount"]] [] 0 false 0);
   ("ChainReorgEth", TStruct "struct" "" [["from_hash"; "Ethereum__Chain__Hash"]; ["to_hash"; "Ethereum__Chain__Hash"]; ["reverse_blocks"; "Vec<Ethereum__Chain__Block>"]; ["forward_blocks"; "Vec<Ethereum__Chain__Block>"]] [] 0 false 0);
   ("ChainReorgTally", TStruct "struct" "" [["reorg"; "ChainReorg"]; ["support"; "SignersSet"]] [] 0 false 0);
   ("ChainId", TStruct "enum" "" [["Gate"; "NULL"]; ["Eth"; "NULL"]; ["Dot"; "NULL"]] [] 0 false 0);
   ("ChainReorg", TStruct "enum" "" [["Eth"; "ChainReorgEth"]] [] 0 false 0);
   ("eth__LogIndex", alias "u64");
   ("SetSupplyCapNotice", TStruct "enum" "" [["Eth"; "SetSupplyCapNoticeEth"]] [] 0 false 0);
   ("Polkadot__Chain__Rate", alias "u128");
   ("eth__BlockNumber", alias "u64");
   ("EraIndex", alias "u32");
   ("ChangeAuthorityNoticeEth", TStruct "struct" "" [["id"; "NoticeId"]; ["parent"; "Ethereum__Chain__Hash"]; ["new_authorities"; "Vec<Ethereum__Chain__Address>"]] [] 0 false 0);
   ("Ethereum__Chain__EventId", alias "eth__EventId");
   ("Polkadot__Chain__Hash", alias "[u8; 32]");
   ("Ethereum__Chain__CashIndex", alias "u128");
   ("comp__EventId", alias "(u64,u64)");
   ("ChainSignature", TStruct "enum" "" [["Gate"; "Gateway__Chain__Signature"]; ["Eth"; "Ethereum__Chain__Signature"]; ["Dot"; "Polkadot__Chain__Signature"]] [] 0 false 0);
   ("ChangeAuthorityNotice", TStruct "enum" "" [["Eth"; "ChangeAuthorityNoticeEth"]] [] 0 false 0);
   ("Reporter", alias "[u8; 20]");
   ("Keys", alias "SessionKeys");
   ("Timestamp", alias "u64");
   ("Symbol", alias "[u8; 12]");
   ("CodeHash", alias "Ethereum__Chain__Hash");
   ("Tezos__Chain__Hash", alias "[u8; 32]");
   ("CryptoError", TStruct "enum" "" [["Unknown"; "NULL"]; ["KeyNotFound"; "NULL"]; ["KeyringLock"; "NULL"]; ["InvalidKeyId"; "NULL"]; ["ParseError"; "NULL"]; ["RecoverError"; "NULL"]; ["HSMError"; "NULL"]; ["EnvironmentVariablePrivateKeyNotSet"; "NULL"]; ["HexDecodeFailed"; "NULL"]; ["EnvironmentVariableHexDecodeFailed"; "NULL"]; ["EnvironmentVariableInvalidSeed"; "NULL"]] [] 0 false 0);
   ("EraId", alias "u32");
   ("Ethereum__Chain__Hash", alias "[u8; 32]");
   ("ValidatorSig", alias "Ethereum__Chain__Signature");
   ("EthereumEventExecTrxRequest", TStruct "struct" "" [["account"; "[u8; 20]"]; ["trx_request"; "String"]] [] 0 false 0);
   ("Tezos__Chain__CashIndex", alias "u128");
   ("Balance", TStruct "struct" "" [["value"; "AssetBalance"]; ["units"; "Units"]] [] 0 false 0);
   ("Decimals", alias "u8");
   ("Quantity", TStruct "struct" "" [["value"; "AssetAmount"]; ["units"; "Units"]] [] 0 false 0);
   ("EthereumEventLockCash", TStruct "struct" "" [["sender"; "[u8; 20]"]; ["chain"; "String"]; ["recipient"; "[u8; 32]"]; ["amount"; "u128"]; ["principal"; "u128"]] [] 0 false 0);
   ("Polkadot__Chain__Timestamp", alias "u64");
   ("ChainAccount", TStruct "enum" "" [["Gate"; "Gateway__Chain__Address"]; ["Eth"; "Ethereum__Chain__Address"]; ["Dot"; "Polkadot__Chain__Address"]] [] 0 false 0);
   ("InterestRateModel", TStruct "enum" "" [["Kink"; "InterestRateModelKink"]; ["Fixed"; "InterestRateModelFixed"]] [] 0 false 0);
   ("eth__EventId", alias "(BlockNumber,LogIndex)");
   ("Int", alias "i128");
   ("Ethereum__Chain__Timestamp", alias "u64");
   ("Solana__Chain__Address", alias "[u8; 20]");
   ("EthereumLogEvent", TStruct "struct" "" [["block_hash"; "[u8; 32]"]; ["block_number"; "u64"]; ["transaction_index"; "u64"]; ["log_index"; "u64"]; ["event"; "EthereumEvent"]] [] 0 false 0);
   ("EncodedNotice", alias "Vec<u8>");
   ("Tezos__Chain__Address", alias "[u8; 20]");
   ("Bips", alias "u128");
   ("ReporterSet", alias "Vec<Reporter>");
   ("Price", TStruct "struct" "" [["ticker"; "Ticker"]; ["value"; "AssetPrice"]] [] 0 false 0);
   ("ApiInterestRateModel", TStruct "enum" "" [["Kink"; "ApiInterestRateModelKink"]; ["Fixed"; "ApiInterestRateModelFixed"]] [] 0 false 0);
   ("EventState", TStruct "enum" "" [["Pending"; "EventStatePending"]; ["Failed"; "EventStateFailed"]; ["Done"; "null"]] [] 0 false 0);
   ("SetYieldNextError", TStruct "enum" "" [["NotEnoughTimeToSyncBeforeNext"; "null"]; ["NotEnoughTimeToSyncBeforeCancel"; "null"]] [] 0 false 0);
   ("EventError", TStruct "enum" "" [["NoRpcUrl"; "NULL"]; ["NoStarportAddress"; "NULL"]; ["EthereumClientError"; "EthereumClientError"]; ["ErrorDecodingHex"; "NULL"]; ["InvalidBlockchain"; "NULL"]] [] 0 false 0);
   ("Polkadot__Chain__Event", alias "NULL");
   ("SignedPayload", alias "Vec<u8>");
   ("ApiAssetData", TStruct "struct" "" [["asset"; "String"]; ["balance"; "String"]; ["total_supply"; "String"]; ["total_borrow"; "String"]; ["supply_rate"; "String"]; ["borrow_rate"; "String"]; ["liquidity_factor"; "String"]; ["price"; "String"]] [] 0 false 0);
   ("Address", alias "MultiAddress");
   ("Authorities", alias "Vec<AccountId32>");
   ("Solana__Chain__Timestamp", alias "u64");
   ("CashPrincipalAmount", alias "AssetAmount");
   ("CashOrChainAsset", TStruct "enum" "" [["Cash"; "NULL"]; ["ChainAsset"; "ChainAsset"]] [] 0 false 0);
   ("Ticker", alias "[u8; 12]");
   ("AssetQuantity", alias "Quantity");
   ("Solana__Chain__EventId", alias "sol__EventId");
   ("LookupSource", alias "MultiAddress");
   ("Ethereum__Chain__Signature", alias "[u8; 65]");
   ("EthereumEventLock", TStruct "struct" "" [["asset"; "[u8; 20]"]; ["sender"; "[u8; 20]"]; ["chain"; "String"]; ["recipient"; "[u8; 32]"]; ["amount"; "u128"]] [] 0 false 0);
   ("OracleError", TStruct "enum" "" [["BadTicker"; "null"]; ["CryptoError"; "null"]; ["EthAbiParseError"; "null"]; ["HexParseError"; "null"]; ["HttpError"; "null"]; ["InvalidApiEndpoint"; "null"]; ["InvalidKind"; "null"]; ["InvalidReporter"; "null"]; ["InvalidSymbol"; "null"]; ["InvalidTicker"; "null"]; ["InvalidTimestamp"; "null"]; ["JsonParseError"; "null"]; ["NoPriceFeedURL"; "null"]; ["StalePrice"; "null"]; ["SubmitError"; "null"]; ["NoPrice"; "null"]] [] 0 false 0);
   ("MathError", TStruct "enum" "" [["AbnormalFloatingPointResult"; "NULL"]; ["DivisionByZero"; "NULL"]; ["Overflow"; "NULL"]; ["Underflow"; "NULL"]; ["SignMismatch"; "NULL"]; ["PriceNotUSD"; "NULL"]; ["UnitsMismatch"; "NULL"]] [] 0 false 0);
   ("SessionIndex", alias "u32");
   ("Portfolio", TStruct "struct" "" [["cash"; "Balance"]; ["positions"; "Vec<(AssetInfo,Balance)>"]] [] 0 false 0);
   ("ApiCashData", TStruct "struct" "" [["balance"; "String"]; ["cash_yield"; "String"]; ["price"; "String"]] [] 0 false 0);
   ("Ethereum__Chain__Address", alias "[u8; 20]");
   ("NoticeState", TStruct "enum" "" [["Missing"; "null"]; ["Pending"; "NoticeStatePending"]; ["Executed"; "null"]] [] 0 false 0);
   ("ChainLogIdEth", alias "(eth__BlockNumber,eth__LogIndex)");
   ("Polkadot__Chain__Signature", alias "[u8; 65]");
   ("FutureYieldNotice", TStruct "enum" "" [["Eth"; "FutureYieldNoticeEth"]] [] 0 false 0);
   ("EthereumEventNoticeInvoked", TStruct "struct" "" [["era_id"; "u32"]; ["era_index"; "u32"]; ["notice_hash"; "[u8; 32]"]; ["result"; "Vec<u8>"]] [] 0 false 0);
   ("ApiAPR", alias "u64");
   ("Polkadot__Chain__CashIndex", alias "u128");
   ("Tezos__Chain__EventId", alias "tez__EventId");
   ("Polkadot__Chain__EventId", alias "dot__EventId");
   ("Solana__Chain__CashIndex", alias "u128");
   ("Tezos__Chain__Signature", alias "[u8; 65]");
   ("EventStatePending", TStruct "struct" "" [["signers"; "SignersSet"]] [] 0 false 0);
   ("Weight", alias "u64");
   ("CompactAssignments", alias "CompactAssignmentsLatest");
   ("DispatchResult", TStruct "enum" "" [["Ok"; "Null"]; ["Error"; "DispatchError"]] [] 0 false 0);
   ("ChainBlock", TStruct "enum" "" [["Eth"; "EthereumBlock"]] [] 0 false 0);
   ("ChainBlockEvent", TStruct "enum" "" [["Reserved"; "NULL"]; ["Eth"; "ChainBlockEventEth"]] [] 0 false 0);
   ("ChainBlockEvents", TStruct "enum" "" [["Reserved"; "NULL"]; ["Eth"; "Vec<(ChainBlockNumber,Ethereum__Chain__Event)>"]] [] 0 false 0);
   ("ChainBlocks", TStruct "enum" "" [["Eth"; "Vec<Ethereum__Chain__Block>"]] [] 0 false 0);
   ("ChainBlockEventEth", alias "(ChainBlockNumber, Ethereum__Chain__Event)");
   ("ChainBlockNumber", alias "u64");
   ("Ethereum__Chain__Block", alias "EthereumBlock");
   ("EthereumBlock", TStruct "struct" "" [["hash"; "EthereumHash"]; ["parent_hash"; "EthereumHash"]; ["number"; "EthereumBlockNumber"]; ["events"; "Vec<EthereumEvent>"]] [] 0 false 0);
   ("ChainBlockTally", TStruct "struct" "" [["block"; "ChainBlock"]; ["support"; "SignersSet"]; ["dissent"; "SignersSet"]] [] 0 false 0);
   ("EthereumBlockNumber", alias "U64");
   ("EthereumHash", alias "[u8; 32]");
   ("ApiCashData#10-?", TStruct "struct" "" [["balance"; "String"]; ["cash_yield"; "String"]; ["price"; "String"]; ["cash_principal"; "String"]; ["cash_index"; "String"]; ["total_cash"; "String"]] [] 0 false 0);
   ("Reserved", alias "NULL");
   ("Gateway__Chain__Address", alias "[u8; 32]");
   ("Gateway__Chain__Amount", alias "u128");
   ("Gateway__Chain__Block", alias "()");
   ("Gateway__Chain__CashIndex", alias "u128");
   ("Gateway__Chain__Event", alias "()");
   ("Gateway__Chain__Hash", alias "[u8; 32]");
   ("Gateway__Chain__PublicKey", alias "[u8; 64]");
   ("Gateway__Chain__Rate", alias "u128");
   ("Gateway__Chain__Signature", alias "[u8; 65]");
   ("Gateway__Chain__Timestamp", alias "u64")].
(** network/karura.json *)
Definition net_karura : list (string * tstruct) :=
  [("Weight", alias "u64");
   ("CompactAssignments", alias "CompactAssignmentsLatest");
   ("RefCount", alias "u32");
   ("Address", alias "MultiAddress");
   ("LookupSource", alias "MultiAddress");
   ("AccountInfo", alias "AccountInfoWithTripleRefCount");
   ("PalletsOrigin", alias "OriginCaller");
   ("Attributes", alias "BTreeMap<Vec<u8>, Vec<u8>>");
   ("AuctionInfo", TStruct "struct" "" [["bid"; "Option<(AccountId, Balance)>"]; ["start"; "BlockNumber"]; ["end"; "Option<BlockNumber>"]] [] 0 false 0);
   ("NFTBalance", alias "u128");
   ("OptionRatio", alias "Option<Ratio>");
   ("TimestampedValueOf", alias "TimestampedValue");
   ("Ratio", alias "FixedU128");
   ("StorageKeyBytes", alias "Vec<u8>");
   ("ClassIdOf", alias "ClassId");
   ("Erc20Info", TStruct "struct" "" [["address"; "EvmAddress"]; ["name"; "Vec<u8>"]; ["symbol"; "Vec<u8>"]; ["decimals"; "u8"]] [] 0 false 0);
   ("DelayedDispatchTime", TStruct "enum" "" [["At"; "BlockNumber"]; ["After"; "BlockNumber"]] [] 0 false 0);
   ("TimestampedValue", TStruct "struct" "" [["value"; "OracleValue"]; ["timestamp"; "Moment"]] [] 0 false 0);
   ("AuthoritysOriginId", TStruct "enum" "" [] ["Root"; "AcalaTreasury"; "HonzonTreasury"; "HomaTreasury"; "DSWF"] 0 false 0);
   ("SlashInfo", TStruct "struct" "" [["validator"; "RelaychainAccountId"]; ["relaychainTokenAmount"; "Balance"]] [] 0 false 0);
   ("ClassData", TStruct "struct" "" [["deposit"; "Balance"]; ["properties"; "Properties"]] [] 0 false 0);
   ("PalletBalanceOf", alias "Balance");
   ("ClassInfoOf", TStruct "struct" "" [["metadata"; "CID"]; ["totalIssuance"; "TokenId"]; ["owner"; "AccountId"]; ["data"; "ClassData"]] [] 0 false 0);
   ("TradingPairProvisionParameters", TStruct "struct" "" [["minContribution"; "(Balance, Balance)"]; ["targetProvision"; "(Balance, Balance)"]; ["accumulatedProvision"; "(Balance, Balance)"]; ["notBefore"; "BlockNumber"]] [] 0 false 0);
   ("ChangeOptionRate", TStruct "enum" "" [["NoChange"; "Null"]; ["NewValue"; "OptionRate"]] [] 0 false 0);
   ("Amount", alias "i128");
   ("StorageValue", alias "Vec<u8>");
   ("Position", TStruct "struct" "" [["collateral"; "Balance"]; ["debit"; "Balance"]] [] 0 false 0);
   ("DispatchTime", TStruct "enum" "" [["At"; "BlockNumber"]; ["After"; "BlockNumber"]] [] 0 false 0);
   ("OptionRate", alias "Option<Rate>");
   ("ChangeRate", TStruct "enum" "" [["NoChange"; "Null"]; ["NewValue"; "Rate"]] [] 0 false 0);
   ("ExchangeRate", alias "FixedU128");
   ("Share", alias "u128");
   ("TradingPairStatus", TStruct "enum" "" [["NotEnabled"; "Null"]; ["Provisioning"; "TradingPairProvisionParameters"]; ["Enabled"; "Null"]] [] 0 false 0);
   ("OracleValue", alias "Price");
   ("NFTClassId", alias "u32");
   ("Guarantee", TStruct "struct" "" [["total"; "Balance"]; ["bonded"; "Balance"]; ["unbonding"; "Option<(Balance, BlockNumber)>"]] [] 0 false 0);
   ("OrmlBalanceLock", TStruct "struct" "" [["amount"; "Balance"]; ["id"; "LockIdentifier"]] [] 0 false 0);
   ("ChangeRatio", TStruct "enum" "" [["NoChange"; "Null"]; ["NewValue"; "Ratio"]] [] 0 false 0);
   ("GraduallyUpdate", TStruct "struct" "" [["key"; "StorageKey"]; ["targetValue"; "StorageValue"]; ["perBlock"; "StorageValue"]] [] 0 false 0);
   ("Params", TStruct "struct" "" [["targetMaxFreeUnbondedRatio"; "Ratio"]; ["targetMinFreeUnbondedRatio"; "Ratio"]; ["targetUnbondingToFreeRatio"; "Ratio"]; ["unbondingToFreeAdjustment"; "Ratio"]; ["baseFeeRate"; "Rate"]] [] 0 false 0);
   ("AirDropCurrencyId", TStruct "enum" "" [] ["KAR"; "ACA"] 0 false 0);
   ("BalanceRequest", TStruct "struct" "" [["amount"; "Balance"]] [] 0 false 0);
   ("RelaychainAccountId", alias "AccountId");
   ("EvmAddress", alias "H160");
   ("EstimateResourcesResponse", TStruct "struct" "" [["gas"; "u256"]; ["storage"; "i32"]; ["weightFee"; "u256"]] [] 0 false 0);
   ("RpcDataProviderId", alias "Text");
   ("CollateralAuctionItem", TStruct "struct" "" [["refundRecipient"; "AccountId"]; ["currencyId"; "CurrencyId"]; ["initialAmount"; "Compact<Balance>"]; ["amount"; "Compact<Balance>"]; ["target"; "Compact<Balance>"]; ["startTime"; "BlockNumber"]] [] 0 false 0);
   ("TokenId", alias "u64");
   ("CurrencyId", TStruct "enum" "" [["Token"; "TokenSymbol"]; ["DEXShare"; "(DexShare, DexShare)"]; ["ERC20"; "EvmAddress"]; ["ChainSafe"; "[u8; 32]"]] [] 0 false 0);
   ("DebitAuctionItem", TStruct "struct" "" [["initialAmount"; "Compact<Balance>"]; ["amount"; "Compact<Balance>"]; ["fix"; "Compact<Balance>"]; ["startTime"; "BlockNumber"]] [] 0 false 0);
   ("RedeemStrategy", TStruct "enum" "" [["Immediately"; "Null"]; ["Target"; "EraIndex"]; ["WaitForUnbonding"; "Null"]] [] 0 false 0);
   ("CallOf", alias "Call");
   ("AuctionIdOf", alias "AuctionId");
   ("AsOriginId", alias "AuthoritysOriginId");
   ("OrmlVestingSchedule", TStruct "struct" "" [["start"; "BlockNumber"]; ["period"; "BlockNumber"]; ["periodCount"; "u32"]; ["perPeriod"; "Compact<Balance>"]] [] 0 false 0);
   ("ChainId", alias "u8");
   ("AcalaDataProviderId", TStruct "enum" "" [] ["Aggregated"; "Acala"; "Band"] 0 false 0);
   ("Ledger", TStruct "struct" "" [["bonded"; "Balance"]; ["unbondingToFree"; "Balance"]; ["freePool"; "Balance"]; ["toUnbondNextEra"; "(Balance, Balance)"]] [] 0 false 0);
   ("ChangeOptionRatio", TStruct "enum" "" [["NoChange"; "Null"]; ["NewValue"; "OptionRatio"]] [] 0 false 0);
   ("PolkadotAccountIdOf", alias "PolkadotAccountId");
   ("RiskManagementParams", TStruct "struct" "" [["maximumTotalDebitValue"; "Balance"]; ["interestRatePerSec"; "Option<Rate>"]; ["liquidationRatio"; "Option<Rate>"]; ["liquidationPenalty"; "Option<Rate>"]; ["requiredCollateralRatio"; "Option<Rate>"]] [] 0 false 0);
   ("Keys", alias "SessionKeys1");
   ("EvmContractInfo", TStruct "struct" "" [["codeHash"; "H256"]; ["maintainer"; "H160"]; ["deployed"; "bool"]] [] 0 false 0);
   ("TradingPair", alias "(CurrencyId,  CurrencyId)");
   ("ValidatorBacking", TStruct "struct" "" [["totalInsurance"; "Balance"]; ["isFrozen"; "bool"]] [] 0 false 0);
   ("OrmlAccountData", TStruct "struct" "" [["free"; "Balance"]; ["frozen"; "Balance"]; ["reserved"; "Balance"]] [] 0 false 0);
   ("LiquidationStrategy", TStruct "enum" "" [] ["Auction"; "Exchange"] 0 false 0);
   ("CodeInfo", TStruct "struct" "" [["codeSize"; "u32"]; ["refCount"; "u32"]] [] 0 false 0);
   ("Properties", TStruct "set" "" [[]; []] [] 8 false 0);
   ("TokenSymbol", TStruct "enum" "" [["ACA"; "0"]; ["AUSD"; "1"]; ["DOT"; "2"]; ["LDOT"; "3"]; ["RENBTC"; "4"]; ["KAR"; "128"]; ["KUSD"; "129"]; ["KSM"; "130"]; ["LKSM"; "131"]] [] 0 false 0);
   ("AuctionId", alias "u32");
   ("StorageValueBytes", alias "Vec<u8>");
   ("CandidateInfoOf", alias "CandidateInfo");
   ("CallRequest", TStruct "struct" "" [["from"; "Option<H160>"]; ["to"; "Option<H160>"]; ["gasLimit"; "Option<u32>"]; ["storageLimit"; "Option<u32>"]; ["value"; "Option<U128>"]; ["data"; "Option<Bytes>"]] [] 0 false 0);
   ("OrderedSet", alias "Vec<AccountId>");
   ("StakingPoolPhase", TStruct "enum" "" [] ["Started"; "RelaychainUpdated"; "LedgerUpdated"; "Finished"] 0 false 0);
   ("TokenInfoOf", TStruct "struct" "" [["metadata"; "CID"]; ["owner"; "AccountId"]; ["data"; "TokenData"]] [] 0 false 0);
   ("AuthorityOrigin", alias "DelayedOrigin");
   ("OracleKey", alias "CurrencyId");
   ("TokenIdOf", alias "TokenId");
   ("BalanceInfo", TStruct "struct" "" [["amount"; "Balance"]] [] 0 false 0);
   ("CID", alias "Vec<u8>");
   ("ChangeBalance", TStruct "enum" "" [["NoChange"; "Null"]; ["NewValue"; "Balance"]] [] 0 false 0);
   ("VestingScheduleOf", alias "OrmlVestingSchedule");
   ("NomineeId", alias "AccountId");
   ("PoolId", TStruct "enum" "" [["Loans"; "CurrencyId"]; ["Dex"; "CurrencyId"]] [] 0 false 0);
   ("PoolId#0-1009", TStruct "enum" "" [["LoansIncentive"; "CurrencyId"]; ["DexIncentive"; "CurrencyId"]; ["HomaIncentive"; "Null"]; ["DexSaving"; "CurrencyId"]; ["HomaValidatorAllowance"; "AccountId"]] [] 0 false 0);
   ("SubAccountStatus", TStruct "struct" "" [["bonded"; "Balance"]; ["available"; "Balance"]; ["unbonding"; "Vec<(EraIndex,Balance)>"]; ["mockRewardRate"; "Rate"]] [] 0 false 0);
   ("DepositNonce", alias "u64");
   ("BalanceWrapper", TStruct "struct" "" [["amount"; "Balance"]] [] 0 false 0);
   ("ResourceId", alias "[u8; 32]");
   ("Price", alias "FixedU128");
   ("CurrencyIdOf", alias "CurrencyId");
   ("AmountOf", alias "Amount");
   ("BondingLedger", TStruct "struct" "" [["total"; "Balance"]; ["active"; "Balance"]; ["unlocking"; "Vec<HomaUnlockChunk>"]] [] 0 false 0);
   ("ScheduleTaskIndex", alias "u32");
   ("PoolInfo", TStruct "struct" "" [["totalShares"; "Share"]; ["rewards"; "BTreeMap<OrmlCurrencyId, (Balance, Balance)>"]] [] 0 false 0);
   ("PoolInfo#0-1009", TStruct "struct" "" [["totalShares"; "Compact<Share>"]; ["totalRewards"; "Compact<Balance>"]; ["totalWithdrawnRewards"; "Compact<Balance>"]] [] 0 false 0);
   ("OrmlCurrencyId", alias "CurrencyId");
   ("EvmAccountInfo", TStruct "struct" "" [["nonce"; "Index"]; ["contractInfo"; "Option<EvmContractInfo>"]; ["developerDeposit"; "Option<Balance>"]] [] 0 false 0);
   ("DexShare", TStruct "enum" "" [["Token"; "TokenSymbol"]; ["Erc20"; "EvmAddress"]] [] 0 false 0);
   ("DestAddress", alias "Vec<u8>");
   ("HomaUnlockChunk", TStruct "struct" "" [["value"; "Balance"]; ["era"; "EraIndex"]] [] 0 false 0);
   ("TokenData", TStruct "struct" "" [["deposit"; "Balance"]] [] 0 false 0);
   ("DispatchId", alias "u32");
   ("DelayedOrigin", TStruct "struct" "" [["delay"; "BlockNumber"]; ["origin"; "PalletsOrigin"]] [] 0 false 0);
   ("DataProviderId", alias "u8");
   ("PublicKey", alias "[u8; 20]");
   ("Rate", alias "FixedU128");
   ("PolkadotAccountId", alias "AccountId");
   ("SurplusAuctionItem", TStruct "struct" "" [["amount"; "Compact<Balance>"]; ["startTime"; "BlockNumber"]] [] 0 false 0);
   ("ProxyType", TStruct "enum" "" [] ["Any"; "CancelProxy"; "Governance"; "Auction"; "Swap"; "Loan"] 0 false 0);
   ("AssetInstance", alias "AssetInstanceV0");
   ("MultiAsset", alias "MultiAssetV0");
   ("Xcm", alias "XcmV0");
   ("XcmOrder", alias "XcmOrderV0");
   ("MultiLocation", alias "MultiLocationV0")].
(** network/khala.json *)
Definition net_khala : list (string * tstruct) :=
  [("Weight", alias "u64");
   ("CompactAssignments", alias "CompactAssignmentsLatest");
   ("RefCount", alias "u32");
   ("AccountInfo", alias "AccountInfoWithTripleRefCount");
   ("GenericTransfer", TStruct "struct" "" [["dest_id"; "BridgeChainId"]; ["nonce"; "DepositNonce"]; ["resource_id"; "ResourceId"]; ["metadata"; "Vec<u8>"]] [] 0 false 0);
   ("ContractPublicKey", alias "Sr25519PublicKey");
   ("MinerInfo", TStruct "struct" "" [["state"; "MinerState"]; ["ve"; "u128"]; ["v"; "u128"]; ["vUpdatedAt"; "u64"]; ["benchmark"; "Benchmark"]; ["coolDownStart"; "u64"]; ["stats"; "MinerStats"]] [] 0 false 0);
   ("TokenomicParams", alias "TokenomicParameters");
   ("U64F64Bits", alias "u128");
   ("KeyDistribution", TStruct "enum" "" [["MasterKeyDistribution"; "DispatchMasterKeyEvent"]] [] 0 false 0);
   ("BridgeChainId", alias "u8");
   ("Benchmark", TStruct "struct" "" [["pInit"; "u32"]; ["pInstant"; "u32"]; ["iterations"; "u64"]; ["miningStartTime"; "u64"]; ["challengeTimeLast"; "u64"]] [] 0 false 0);
   ("DepositNonce", alias "u64");
   ("ProxyType", TStruct "enum" "" [] ["Any"; "NonTransfer"; "CancelProxy"; "Governance"; "Collator"; "StakePoolManager"] 0 false 0);
   ("Keys", alias "AccountId");
   ("ResourceId", alias "[u8; 32]");
   ("WorkerRegistrationInfo", TStruct "struct" "" [["version"; "u32"]; ["machineId"; "Vec<u8>"]; ["pubkey"; "WorkerPublicKey"]; ["ecdhPubkey"; "EcdhPublicKey"]; ["genesisBlockHash"; "H256"]; ["features"; "Vec<u32>"]; ["operator"; "Option<AccountId>"]] [] 0 false 0);
   ("SenderId", alias "MessageOrigin");
   ("WorkerInfo", TStruct "struct" "" [["pubkey"; "WorkerPublicKey"]; ["ecdhPubkey"; "EcdhPublicKey"]; ["runtimeVersion"; "u32"]; ["lastUpdated"; "u64"]; ["operator"; "Option<AccountId>"]; ["confidenceLevel"; "u8"]; ["initialScore"; "Option<u32>"]; ["features"; "Vec<u32>"]] [] 0 false 0);
   ("AttestationSgxIas", TStruct "struct" "" [["raReport"; "Vec<u8>"]; ["signature"; "Vec<u8>"]; ["rawSigningCert"; "Vec<u8>"]] [] 0 false 0);
   ("Address", alias "MultiAddress");
   ("Path", alias "Vec<u8>");
   ("TokenomicParameters", TStruct "struct" "" [["phaRate"; "U64F64Bits"]; ["rho"; "U64F64Bits"]; ["budgetPerBlock"; "U64F64Bits"]; ["vMax"; "U64F64Bits"]; ["costK"; "U64F64Bits"]; ["costB"; "U64F64Bits"]; ["slashRate"; "U64F64Bits"]; ["treasuryRatio"; "U64F64Bits"]; ["heartbeatWindow"; "u32"]; ["rigK"; "U64F64Bits"]; ["rigB"; "U64F64Bits"]; ["re"; "U64F64Bits"]; ["k"; "U64F64Bits"]; ["kappa"; "U64F64Bits"]] [] 0 false 0);
   ("MasterPublicKey", alias "Sr25519PublicKey");
   ("BridgeEvent", TStruct "enum" "" [["FungibleTransfer"; "FungibleTransfer"]; ["NonFungibleTransfer"; "NonFungibleTransfer"]; ["GenericTransfer"; "GenericTransfer"]] [] 0 false 0);
   ("PoolInfo", TStruct "struct" "" [["pid"; "u64"]; ["owner"; "AccountId"]; ["payoutCommission"; "Option<Permill>"]; ["ownerReward"; "Balance"]; ["cap"; "Option<Balance>"]; ["rewardAcc"; "u128"]; ["totalShares"; "Balance"]; ["totalStake"; "Balance"]; ["freeStake"; "Balance"]; ["releasingStake"; "Balance"]; ["workers"; "Vec<WorkerPublicKey>"]; ["withdrawQueue"; "Vec<WithdrawInfo>"]] [] 0 false 0);
   ("GatekeeperChange", TStruct "enum" "" [["GatekeeperRegistered"; "NewGatekeeperEvent"]] [] 0 false 0);
   ("LookupSource", alias "MultiAddress");
   ("TokenId", alias "U256");
   ("SignedMessage", TStruct "struct" "" [["message"; "Message"]; ["sequence"; "u64"]; ["signature"; "Vec<u8>"]] [] 0 false 0);
   ("NewGatekeeperEvent", TStruct "struct" "" [["pubkey"; "WorkerPublicKey"]; ["ecdhPubkey"; "EcdhPublicKey"]] [] 0 false 0);
   ("WithdrawInfo", TStruct "struct" "" [["user"; "AccountId"]; ["shares"; "Balance"]; ["startTime"; "u64"]] [] 0 false 0);
   ("FungibleTransfer", TStruct "struct" "" [["dest_id"; "BridgeChainId"]; ["nonce"; "DepositNonce"]; ["resource_id"; "ResourceId"]; ["amount"; "U256"]; ["recipient"; "Vec<u8>"]] [] 0 false 0);
   ("Attestation", TStruct "enum" "" [["SgxIas"; "AttestationSgxIas"]] [] 0 false 0);
   ("WorkerPublicKey", alias "Sr25519PublicKey");
   ("GatekeeperEvent", TStruct "enum" "" [["NewRandomNumber"; "RandomNumberEvent"]; ["TokenomicParametersChanged"; "TokenomicParameters"]] [] 0 false 0);
   ("DispatchMasterKeyEvent", TStruct "struct" "" [["dest"; "WorkerPublicKey"]; ["ecdhPubkey"; "EcdhPublicKey"]; ["encryptedMasterKey"; "Vec<u8>"]; ["iv"; "[u8; 12]"]] [] 0 false 0);
   ("EcdhPublicKey", alias "[u8; 32]");
   ("HeartbeatChallenge", TStruct "struct" "" [["seed"; "U256"]; ["onlineTarget"; "U256"]] [] 0 false 0);
   ("RandomNumberEvent", TStruct "struct" "" [["blockNumber"; "u32"]; ["randomNumber"; "[u8; 32]"]; ["lastRandomNumber"; "[u8; 32]"]] [] 0 false 0);
   ("UserStakeInfo", TStruct "struct" "" [["user"; "AccountId"]; ["locked"; "Balance"]; ["shares"; "Balance"]; ["availableRewards"; "Balance"]; ["rewardDebt"; "Balance"]] [] 0 false 0);
   ("GatekeeperLaunch", TStruct "enum" "" [["FirstGatekeeper"; "NewGatekeeperEvent"]; ["MasterPubkeyOnChain"; "null"]] [] 0 false 0);
   ("Sr25519PublicKey", alias "[u8; 32]");
   ("Topic", alias "Path");
   ("MinerStats", TStruct "struct" "" [["totalReward"; "Balance"]] [] 0 false 0);
   ("ProposalVotes", TStruct "struct" "" [["votes_for"; "Vec<AccountId>"]; ["votes_against"; "Vec<AccountId>"]; ["status"; "ProposalStatus"]; ["expiry"; "BlockNumber"]] [] 0 false 0);
   ("MinerState", TStruct "enum" "" [["Ready"; "null"]; ["MiningIdle"; "null"]; ["MiningActive"; "null"]; ["MiningUnresponsive"; "null"]; ["MiningCoolingDown"; "null"]] [] 0 false 0);
   ("ProposalStatus", TStruct "enum" "" [["Initiated"; "null"]; ["Approved"; "null"]; ["Rejected"; "null"]] [] 0 false 0);
   ("NonFungibleTransfer", TStruct "struct" "" [["dest_id"; "BridgeChainId"]; ["nonce"; "DepositNonce"]; ["resource_id"; "ResourceId"]; ["token_id"; "Vec<u8>"]; ["recipient"; "Vec<u8>"]; ["metadata"; "Vec<u8>"]] [] 0 false 0);
   ("Message", TStruct "struct" "" [["sender"; "SenderId"]; ["destination"; "Topic"]; ["payload"; "Vec<u8>"]] [] 0 false 0);
   ("MessageOrigin", TStruct "enum" "" [["Pallet"; "Vec<u8>"]; ["Contract"; "H256"]; ["Worker"; "Sr25519PublicKey"]; ["AccountId"; "H256"]; ["MultiLocation"; "Vec<u8>"]; ["Gatekeeper"; "null"]] [] 0 false 0)].
(** network/kilt.json *)
Definition net_kilt : list (string * tstruct) :=
  [("ChainId", TStruct "enum" "" [["RelayChain"; "Null"]; ["ParaChain"; "ParaId"]] [] 0 false 0);
   ("XCurrencyId", TStruct "struct" "" [["chainId"; "ChainId"]; ["currencyId"; "Vec<u8>"]] [] 0 false 0);
   ("CurrencyId", TStruct "enum" "" [["DOT"; ""]; ["KSM"; ""]; ["KILT"; ""]] [] 0 false 0);
   ("DidRecord", TStruct "struct" "" [["signKey"; "Hash"]; ["boxKey"; "Hash"]; ["docRef"; "Option<Vec<u8>>"]] [] 0 false 0);
   ("PublicBoxKey", alias "Hash");
   ("DelegationNodeId", alias "Hash");
   ("Signature", alias "MultiSignature");
   ("Attestation", TStruct "struct" "" [["ctypeHash"; "Hash"]; ["attester"; "AccountId"]; ["delegationId"; "Option<DelegationNodeId>"]; ["revoked"; "bool"]] [] 0 false 0);
   ("XcmError", TStruct "enum" "" [["Undefined"; ""]; ["Unimplemented"; ""]; ["UnhandledXcmVersion"; ""]; ["UnhandledXcmMessage"; ""]; ["UnhandledEffect"; ""]; ["EscalationOfPrivilege"; ""]; ["UntrustedReserveLocation"; ""]; ["UntrustedTeleportLocation"; ""]; ["DestinationBufferOverflow"; ""]; ["CannotReachDestination"; ""]; ["MultiLocationFull"; ""]; ["FailedToDecode"; ""]; ["BadOrigin"; ""]; ["ExceedsMaxMessageSize"; ""]; ["FailedToTransactAsset"; ""]] [] 0 false 0);
   ("ReferendumInfo", TStruct "enum" "" [["Ongoing"; "ReferendumStatus"]; ["Finished"; "ReferendumInfoFinished"]] [] 0 false 0);
   ("PublicSigningKey", alias "Hash");
   ("CurrencyIdOf", alias "CurrencyId");
   ("KeyIdOf", alias "Hash");
   ("DidDeletionOperation", TStruct "struct" "" [["did"; "DidIdentifierOf"]; ["txCounter"; "u64"]] [] 0 false 0);
   ("LookupSource", alias "MultiAddress");
   ("Index", alias "u64");
   ("BlockNumberOf", alias "BlockNumber");
   ("RoundInfo", TStruct "struct" "" [["current"; "SessionIndex"]; ["first"; "BlockNumber"]; ["length"; "BlockNumber"]] [] 0 false 0);
   ("DidVerificationKey", TStruct "enum" "" [["Ed25519"; "[u8; 32]"]; ["Sr25519"; "[u8; 32]"]] [] 0 false 0);
   ("Stake", TStruct "struct" "" [["owner"; "AccountId"]; ["amount"; "Balance"]] [] 0 false 0);
   ("CtypeCreatorOf", alias "DidIdentifierOf");
   ("KeyError", TStruct "enum" "" [] ["InvalidVerificationKeyFormat"; "InvalidEncryptionKeyFormat"] 0 false 0);
   ("TotalStake", TStruct "struct" "" [["collators"; "Balance"]; ["delegators"; "Balance"]] [] 0 false 0);
   ("AccountInfo", alias "AccountInfoWithTripleRefCount");
   ("RewardRate", TStruct "struct" "" [["annual"; "Perquintill"]; ["perBlock"; "Perquintill"]] [] 0 false 0);
   ("DidSignature", TStruct "enum" "" [["Ed25519"; "Ed25519Signature"]; ["Sr25519"; "Sr25519Signature"]] [] 0 false 0);
   ("DelegationNodeIdOf", alias "Hash");
   ("IpfsUrl", TStruct "struct" "" [["payload"; "Text"]] [] 0 false 0);
   ("DidCallableOf", alias "Call");
   ("DidUpdateOperation", TStruct "struct" "" [["did"; "DidIdentifierOf"]; ["newAuthenticationKey"; "Option<DidVerificationKey>"]; ["newKeyAgreementKeys"; "Vec<DidEncryptionKey>"]; ["attestationKeyUpdate"; "DidVerificationKeyUpdateAction"]; ["delegationKeyUpdate"; "DidVerificationKeyUpdateAction"]; ["publicKeysToRemove"; "Vec<KeyIdOf>"]; ["newEndpointUrl"; "Option<Url>"]; ["txCounter"; "u64"]] [] 0 false 0);
   ("DidError", TStruct "enum" "" [["StorageError"; "StorageError"]; ["SignatureError"; "SignatureError"]; ["UrlError"; "UrlError"]; ["InternalError"; "Null"]] [] 0 false 0);
   ("DidDetails#20-?", TStruct "struct" "" [["authenticationKey"; "KeyIdOf"]; ["keyAgreementKeys"; "Vec<KeyIdOf>"]; ["delegationKey"; "Option<KeyIdOf>"]; ["attestationKey"; "Option<KeyIdOf>"]; ["publicKeys"; "DidPublicKeyMap"]; ["endpointUrl"; "Option<Url>"]; ["lastTxCounter"; "u64"]] [] 0 false 0);
   ("DidEncryptionKey", TStruct "enum" "" [["X25519"; "[u8; 32]"]] [] 0 false 0);
   ("HttpUrl", TStruct "struct" "" [["payload"; "Text"]] [] 0 false 0);
   ("AttestationDetails", TStruct "struct" "" [["ctypeHash"; "CtypeHashOf"]; ["attester"; "AttesterOf"]; ["delegationId"; "Option<DelegationNodeIdOf>"]; ["revoked"; "bool"]] [] 0 false 0);
   ("DelegationSignature", alias "DidSignature");
   ("DelegationNode#20-?", TStruct "struct" "" [["rootId"; "DelegationNodeIdOf"]; ["parent"; "Option<DelegationNodeIdOf>"]; ["owner"; "DelegatorIdOf"]; ["permissions"; "Permissions"]; ["revoked"; "bool"]] [] 0 false 0);
   ("Collator", TStruct "struct" "" [["id"; "AccountId"]; ["stake"; "Balance"]; ["delegators"; "Vec<Stake>"]; ["total"; "Balance"]; ["state"; "CollatorStatus"]] [] 0 false 0);
   ("LockedBalance", TStruct "struct" "" [["block"; "BlockNumber"]; ["amount"; "Balance"]] [] 0 false 0);
   ("DidPublicKey", TStruct "enum" "" [["PublicVerificationKey"; "DidVerificationKey"]; ["PublicEncryptionKey"; "DidEncryptionKey"]] [] 0 false 0);
   ("CollatorSnapshot", TStruct "struct" "" [["stake"; "Balance"]; ["delegators"; "Vec<Stake>"]; ["total"; "Balance"]] [] 0 false 0);
   ("AttesterOf", alias "DidIdentifierOf");
   ("UrlError", TStruct "enum" "" [] ["InvalidUrlEncoding"; "InvalidUrlScheme"] 0 false 0);
   ("Delegator", TStruct "struct" "" [["delegations"; "Vec<Stake>"]; ["total"; "Balance"]] [] 0 false 0);
   ("BalanceOf", alias "Balance");
   ("Permissions", alias "u32");
   ("DelegationRoot", TStruct "struct" "" [["ctypeHash"; "CtypeHashOf"]; ["owner"; "DelegatorIdOf"]; ["revoked"; "bool"]] [] 0 false 0);
   ("CollatorStatus", TStruct "enum" "" [["Active"; "Null"]; ["Leaving"; "SessionIndex"]] [] 0 false 0);
   ("DidVerificationKeyRelationship", TStruct "enum" "" [] ["Authentication"; "CapabilityDelegation"; "CapabilityInvocation"; "AssertionMethod"] 0 false 0);
   ("AccountIdentifierOf", alias "AccountId");
   ("DidIdentifierOf", alias "AccountId");
   ("InflationInfo", TStruct "struct" "" [["collator"; "StakingInfo"]; ["delegator"; "StakingInfo"]] [] 0 false 0);
   ("Url", TStruct "enum" "" [["Http"; "HttpUrl"]; ["Ftp"; "FtpUrl"]; ["Ipfs"; "IpfsUrl"]] [] 0 false 0);
   ("SignatureError", TStruct "enum" "" [] ["InvalidSignatureFormat"; "InvalidSignature"; "InvalidNonce"] 0 false 0);
   ("Address", alias "MultiAddress");
   ("StakingInfo", TStruct "struct" "" [["maxRate"; "Perquintill"]; ["rewardRate"; "RewardRate"]] [] 0 false 0);
   ("AmountOf", alias "i128");
   ("Balance", alias "u128");
   ("OrderedSet", alias "Vec<Stake>");
   ("FtpUrl", TStruct "struct" "" [["payload"; "Text"]] [] 0 false 0);
   ("StorageError", TStruct "enum" "" [["DidAlreadyPresent"; "Null"]; ["DidNotPresent"; "Null"]; ["DidKeyNotPresent"; "DidVerificationKeyRelationship"]; ["VerificationKeyNotPresent"; "Null"]; ["CurrentlyActiveKey"; "Null"]; ["MaxTxCounterValue"; "Null"]] [] 0 false 0);
   ("DelegatorIdOf", alias "DidIdentifierOf");
   ("BlockNumber", alias "u64");
   ("DidVerificationKeyUpdateAction", TStruct "enum" "" [["Ignore"; "Null"]; ["Change"; "DidVerificationKey"]; ["Delete"; "Null"]] [] 0 false 0);
   ("ClaimHashOf", alias "Hash");
   ("DidAuthorizedCallOperation", TStruct "struct" "" [["did"; "DidIdentifierOf"]; ["txCounter"; "u64"]; ["call"; "DidCallableOf"]] [] 0 false 0);
   ("DidCreationOperation", TStruct "struct" "" [["did"; "DidIdentifierOf"]; ["newAuthenticationKey"; "DidVerificationKey"]; ["newKeyAgreementKeys"; "Vec<DidEncryptionKey>"]; ["newAttestationKey"; "Option<DidVerificationKey>"]; ["newDelegationKey"; "Option<DidVerificationKey>"]; ["newEndpointUrl"; "Option<Url>"]] [] 0 false 0);
   ("DidPublicKeyDetails", TStruct "struct" "" [["key"; "DidPublicKey"]; ["blockNumber"; "BlockNumberOf"]] [] 0 false 0);
   ("CtypeHashOf", alias "Hash");
   ("Weight", alias "u64");
   ("CompactAssignments", alias "CompactAssignmentsLatest");
   ("RefCount", alias "u32");
   ("StakingStorageVersion", TStruct "enum" "" [] ["V1_0_0"; "V2_0_0"; "V3_0_0"; "V4"] 0 false 0);
   ("DidPublicKeyMap", alias "BTreeMap<KeyIdOf, DidPublicKeyDetails>");
   ("MaxVerificationKeysToRevoke", alias "u32");
   ("DidKeyAgreementKeys", alias "BTreeSet<KeyIdOf>");
   ("DidNewKeyAgreementKeys", alias "BTreeSet<DidEncryptionKey>");
   ("DidCreationDetails", TStruct "struct" "" [["did"; "DidIdentifierOf"]; ["newKeyAgreementKeys"; "DidNewKeyAgreementKeys"]; ["newAttestationKey"; "Option<DidVerificationKey>"]; ["newDelegationKey"; "Option<DidVerificationKey>"]; ["newServiceEndpoints"; "Option<ServiceEndpoints>"]] [] 0 false 0);
   ("MaxDelegatorsPerCollator", alias "u32");
   ("MaxDelegatedAttestations", alias "u32");
   ("DidDetails", TStruct "struct" "" [["authenticationKey"; "KeyIdOf"]; ["keyAgreementKeys"; "DidKeyAgreementKeys"]; ["delegationKey"; "Option<KeyIdOf>"]; ["attestationKey"; "Option<KeyIdOf>"]; ["publicKeys"; "DidPublicKeyMap"]; ["serviceEndpoints"; "Option<ServiceEndpoints>"]; ["lastTxCounter"; "u64"]] [] 0 false 0);
   ("MaxTotalKeyAgreementKeys", alias "u32");
   ("DelegationNode", TStruct "struct" "" [["hierarchyRootId"; "DelegationNodeIdOf"]; ["parent"; "Option<DelegationNodeIdOf>"]; ["children"; "BTreeSet<DelegationNodeIdOf>"]; ["details"; "DelegationDetails"]] [] 0 false 0);
   ("Collator#20-?", TStruct "struct" "" [["id"; "AccountId"]; ["stake"; "Balance"]; ["delegators"; "OrderedSet<Stake, MaxDelegatorsPerCollator>"]; ["total"; "Balance"]; ["state"; "CollatorStatus"]] [] 0 false 0);
   ("ServiceEndpoints", TStruct "struct" "" [["contentHash"; "Hash"]; ["urls"; "BoundedVec<Url, MaxEndpointUrlsCount>"]; ["contentType"; "ContentType"]] [] 0 false 0);
   ("MaxCollatorsPerDelegator", alias "u32");
   ("Delegator#20-?", TStruct "struct" "" [["delegations"; "OrderedSet<Stake, MaxCollatorsPerDelegator>"]; ["total"; "Balance"]] [] 0 false 0);
   ("DidUpdateDetails", TStruct "struct" "" [["newAuthenticationKey"; "Option<DidVerificationKey>"]; ["newKeyAgreementKeys"; "Vec<DidEncryptionKey>"]; ["attestationKeyUpdate"; "DidVerificationKeyUpdateAction"]; ["delegationKeyUpdate"; "DidVerificationKeyUpdateAction"]; ["publicKeysToRemove"; "Vec<KeyIdOf>"]; ["serviceEndpointsUpdate"; "DidFragmentUpdateAction_ServiceEndpoints"]] [] 0 false 0);
   ("MaxEndpointUrlsCount", alias "u32");
   ("MaxNewKeyAgreementKeys", alias "u32");
   ("OrderedSet#20-?", alias "BoundedVec<Stake, MaxCollatorCandidates>");
   ("MaxChildren", alias "u32");
   ("MaxUrlLength", alias "u32");
   ("DidVerificationKeysToRevoke", alias "BTreeSet<KeyIdOf>");
   ("MaxClaims", alias "u32");
   ("MaxCollatorCandidates", alias "u32");
   ("MaxPublicKeysPerDid", alias "u32");
   ("StorageError#20-?", TStruct "enum" "" [["DidAlreadyPresent"; "Null"]; ["DidNotPresent"; "Null"]; ["DidKeyNotPresent"; "DidVerificationKeyRelationship"]; ["VerificationKeyNotPresent"; "Null"]; ["CurrentlyActiveKey"; "Null"]; ["MaxTxCounterValue"; "Null"]; ["MaxPublicKeysPerDidKeyIdentifierExceeded"; "Null"]; ["MaxTotalKeyAgreementKeysExceeded"; "Null"]; ["MaxOldAttestationKeysExceeded"; "Null"]] [] 0 false 0);
   ("ContentType", TStruct "enum" "" [["application/json"; "Null"]; ["application/ld+json"; "Null"]] [] 0 false 0)].
(** network/kintsugi.json *)
Definition net_kintsugi : list (string * tstruct) :=
  [("Weight", alias "u64");
   ("CompactAssignments", alias "CompactAssignmentsLatest");
   ("RefCount", alias "u32");
   ("Address", alias "AccountId");
   ("LookupSource", alias "AccountId");
   ("AccountInfo", alias "AccountInfoWithTripleRefCount");
   ("CurrencyId", TStruct "enum" "" [] ["DOT"; "INTERBTC"; "INTR"; "KSM"; "KBTC"; "KINT"] 0 false 0)].
(** network/kulupu.json *)
Definition net_kulupu : list (string * tstruct) :=
  [("Keys", alias "SessionKeysPolkadot");
   ("U256", alias "[u8; 32]");
   ("Difficulty", alias "U256");
   ("weight", alias "u64");
   ("DifficultyAndTimestamp", TStruct "struct" "" [["difficulty"; "Difficulty"]; ["timestamp"; "Moment"]] [] 0 false 0);
   ("ReferendumInfo<BlockNumber, Hash, BalanceOf>", TStruct "enum" "" [["Ongoing"; "ReferendumStatus"]; ["Finished"; "ReferendumInfoFinished"]] [] 0 false 0);
   ("Era", TStruct "struct" "" [["genesisBlockHash"; "H256"]; ["finalBlockHash"; "H256"]; ["finalStateRoot"; "H256"]] [] 0 false 0);
   ("DispatchResult", TStruct "enum" "" [["Ok"; "Null"]; ["Error"; "DispatchError"]] [] 0 false 0);
   ("RefCount#10-?", alias "u32");
   ("Address#13-?", alias "MultiAddress");
   ("LookupSource#13-?", alias "MultiAddress");
   ("Box<<T as Config>::Call>", alias "Call");
   ("AccountInfo", alias "AccountInfoWithTripleRefCount");
   ("CampaignIdentifier", alias "[u8; 4]")].
(** network/kusama.json *)
Definition net_kusama : list (string * tstruct) :=
  [("Keys", alias "SessionKeysPolkadot");
   ("ValidatorPrefs", TStruct "struct" "" [["Commission"; "Compact<Balance>"]] [] 0 false 0);
   ("Timepoint", TStruct "struct" "" [["height"; "BlockNumber"]; ["index"; "u32"]] [] 0 false 0);
   ("Multisig", TStruct "struct" "" [["when"; "Timepoint"]; ["deposit"; "Balance"]; ["depositor"; "AccountId"]; ["approvals"; "Vec<AccountId>"]] [] 0 false 0);
   ("BalanceLock<Balance>", TStruct "struct" "" [["id"; "LockIdentifier"]; ["amount"; "Balance"]; ["reasons"; "Reasons"]] [] 0 false 0);
   ("ReferendumInfo<BlockNumber, Hash>", TStruct "enum" "" [["Ongoing"; "ReferendumStatus"]; ["Finished"; "ReferendumInfoFinished"]] [] 0 false 0);
   ("DispatchResult", TStruct "enum" "" [["Ok"; "Null"]; ["Error"; "DispatchError"]] [] 0 false 0);
   ("Heartbeat", TStruct "struct" "" [["blockNumber"; "BlockNumber"]; ["networkState"; "OpaqueNetworkState"]; ["sessionIndex"; "SessionIndex"]; ["authorityIndex"; "AuthIndex"]] [] 0 false 0);
   ("Weight#1058-?", alias "u64");
   ("Heartbeat#1062-?", TStruct "struct" "" [["blockNumber"; "BlockNumber"]; ["networkState"; "OpaqueNetworkState"]; ["sessionIndex"; "SessionIndex"]; ["authorityIndex"; "AuthIndex"]; ["validatorsLen"; "u32"]] [] 0 false 0);
   ("ReferendumInfo<BlockNumber, Hash, BalanceOf>", TStruct "enum" "" [["Ongoing"; "ReferendumStatus"]; ["Finished"; "ReferendumInfoFinished"]] [] 0 false 0);
   ("DispatchInfo#1019-1061", alias "DispatchInfo258");
   ("DispatchInfo#1062-?", TStruct "struct" "" [["weight"; "Weight"]; ["class"; "DispatchClass"]; ["paysFee"; "Pays"]] [] 0 false 0);
   ("ReferendumInfo#1019-1054", TStruct "struct" "" [["end"; "BlockNumber"]; ["proposal"; "Proposal"]; ["threshold"; "VoteThreshold"]; ["delay"; "BlockNumber"]] [] 0 false 0);
   ("DispatchError#1019-1031", TStruct "struct" "" [["module"; "Option<u8>"]; ["error"; "u8"]] [] 0 false 0);
   ("ProxyType", TStruct "enum" "" [] ["Any"; "NonTransfer"; "Governance"; "Staking"; "IdentityJudgement"; "CancelProxy"; "Auction"] 0 false 0);
   ("Address#1050-2027", alias "AccountId");
   ("Box<Proposal>", alias "BoxProposal");
   ("CompactAssignments#2023-9000", alias "CompactAssignmentsLatest");
   ("RefCount", alias "u32");
   ("Box<<T as Config>::Call>", alias "Call");
   ("Box<<T as Config<I>>::Proposal>", alias "Proposal");
   ("AccountInfo", alias "AccountInfoWithTripleRefCount");
   ("Address#2028-?", alias "MultiAddress");
   ("LookupSource#2028-?", alias "MultiAddress");
   ("Keys#2028-2029", TStruct "struct" "" [["grandpa"; "AccountId"]; ["babe"; "AccountId"]; ["im_online"; "AccountId"]; ["para_validator"; "AccountId"]; ["para_assignment"; "AccountId"]; ["authority_discovery"; "AccountId"]] [] 0 false 0);
   ("ValidatorPrefs#2028-?", alias "ValidatorPrefsWithBlocked");
   ("Keys#2030-?", alias "SessionKeys6");
   ("CompactAssignments#9010-?", alias "CompactAssignmentsWith24");
   ("AssetInstance#9010-9090", alias "AssetInstanceV0");
   ("MultiAsset#9010-9090", alias "MultiAssetV0");
   ("Xcm#9010-9090", alias "XcmV0");
   ("XcmOrder#9010-9090", alias "XcmOrderV0");
   ("MultiLocation#9010-9090", alias "MultiLocationV0");
   ("AssetInstance#9100-9100", alias "AssetInstanceV1");
   ("MultiAsset#9100-9100", alias "MultiAssetV1");
   ("Xcm#9100-9100", alias "XcmV1");
   ("XcmOrder#9100-9100", alias "XcmOrderV1");
   ("MultiLocation#9100-9100", alias "MultiLocationV1")].
(** network/laminar-test.json *)
Definition net_laminar_test : list (string * tstruct) :=
  [("RefCount", alias "u32");
   ("Weight", alias "u64");
   ("PositionId", alias "u64");
   ("FixedU128", alias "u128");
   ("<T as Trait<I>>::OracleKey", alias "CurrencyId");
   ("DispatchResult", TStruct "enum" "" [["Ok"; "Null"]; ["Error"; "DispatchError"]] [] 0 false 0);
   ("AuctionInfo", TStruct "struct" "" [["bid"; "Option<(AccountId, Balance)>"]; ["start"; "BlockNumber"]; ["end"; "Option<BlockNumber>"]] [] 0 false 0);
   ("Leverage", TStruct "enum" "" [] ["LongTwo"; "LongThree"; "LongFive"; "LongTen"; "LongTwenty"; "LongThirty"; "LongFifty"; "LongReserved"; "ShortTwo"; "ShortThree"; "ShortFive"; "ShortTen"; "ShortTwenty"; "ShortThirty"; "ShortFifty"; "ShortReserved"] 0 false 0);
   ("RiskThreshold", TStruct "struct" "" [["marginCall"; "Permill"]; ["stopOut"; "Permill"]] [] 0 false 0);
   ("SyntheticTokensRatio", TStruct "struct" "" [["extreme"; "Option<Permill>"]; ["liquidation"; "Option<Permill>"]; ["collateral"; "Option<Permill>"]] [] 0 false 0);
   ("OrmlBalanceLock", TStruct "struct" "" [["amount"; "Balance"]; ["id"; "LockIdentifier"]] [] 0 false 0);
   ("VestingScheduleOf", alias "OrmlVestingSchedule");
   ("PairInfo", TStruct "struct" "" [["baseAmount"; "FixedI128"]; ["quoteAmount"; "FixedI128"]] [] 0 false 0);
   ("PositionsSnapshot", TStruct "struct" "" [["positionsCount"; "PositionId"]; ["long"; "LeveragedAmounts"]; ["short"; "LeveragedAmounts"]] [] 0 false 0);
   ("GraduallyUpdate", TStruct "struct" "" [["key"; "StorageKey"]; ["targetValue"; "StorageValue"]; ["perBlock"; "StorageValue"]] [] 0 false 0);
   ("MarginTraderState", TStruct "struct" "" [["equity"; "FixedI128"]; ["margin_held"; "FixedI128"]; ["margin_level"; "FixedI128"]; ["free_margin"; "FixedI128"]; ["unrealized_pl"; "FixedI128"]] [] 0 false 0);
   ("LiquidityPoolIdentityInfo", TStruct "struct" "" [["legalName"; "Vec<u8>"]; ["displayName"; "Vec<u8>"]; ["web"; "Vec<u8>"]; ["email"; "Vec<u8>"]; ["image_url"; "Vec<u8>"]] [] 0 false 0);
   ("TimestampedValueOf", alias "TimestampedValue");
   ("LiquidityPoolId", alias "u32");
   ("Leverages", TStruct "set" "" [[]; []; []; []; []; []; []; []; []; []; []; []; []; []; []; []] [] 16 false 0);
   ("MarginPoolOption", TStruct "struct" "" [["additionalSwapRate"; "FixedI128"]; ["minLeveragedAmount"; "FixedU128"]] [] 0 false 0);
   ("AccumulateConfig", TStruct "struct" "" [["frequency"; "Moment"]; ["offset"; "Moment"]] [] 0 false 0);
   ("DelayedDispatchTime", TStruct "enum" "" [["At"; "BlockNumber"]; ["After"; "BlockNumber"]] [] 0 false 0);
   ("SyntheticPoolState", TStruct "struct" "" [["collateral_ratio"; "FixedI128"]; ["is_safe"; "boolean"]] [] 0 false 0);
   ("TimestampedValue", TStruct "struct" "" [["value"; "OracleValue"]; ["timestamp"; "Moment"]] [] 0 false 0);
   ("TradingPair", TStruct "struct" "" [["base"; "CurrencyId"]; ["quote"; "CurrencyId"]] [] 0 false 0);
   ("Rate", alias "FixedI128");
   ("DispatchTime", TStruct "enum" "" [["At"; "BlockNumber"]; ["After"; "BlockNumber"]] [] 0 false 0);
   ("CurrencyIdOf", alias "CurrencyId");
   ("AmountOf", alias "Amount");
   ("OrderedSet", alias "Vec<AccountId>");
   ("RpcDataProviderId", alias "Text");
   ("MarginPoolTradingPairOption", TStruct "struct" "" [["enabled"; "bool"]; ["bidSpread"; "Option<FixedU128>"]; ["askSpread"; "Option<FixedU128>"]; ["enabledTrades"; "Leverages"]] [] 0 false 0);
   ("Pool", TStruct "struct" "" [["owner"; "AccountId"]; ["balance"; "Balance"]] [] 0 false 0);
   ("TradingPairRiskThreshold", TStruct "struct" "" [["trader"; "Option<RiskThreshold>"]; ["enp"; "Option<RiskThreshold>"]; ["ell"; "Option<RiskThreshold>"]] [] 0 false 0);
   ("ScheduleTaskIndex", alias "u32");
   ("PoolInfo", TStruct "struct" "" [["totalShares"; "Compact<Share>"]; ["totalRewards"; "Compact<Balance>"]; ["totalWithdrawnRewards"; "Compact<Balance>"]] [] 0 false 0);
   ("LeveragedAmounts", TStruct "struct" "" [["held"; "FixedI128"]; ["debits"; "FixedI128"]] [] 0 false 0);
   ("CurrencyId", TStruct "enum" "" [] ["LAMI"; "AUSD"; "FEUR"; "FJPY"; "FBTC"; "FETH"; "FAUD"; "FCAD"; "FCHF"; "FXAU"; "FOIL"; "FGBP"] 0 false 0);
   ("MarginTradingPairOption", TStruct "struct" "" [["enabled"; "bool"]; ["maxSpread"; "Option<FixedU128>"]; ["swapRate"; "SwapRate"]; ["accumulateConfig"; "Option<AccumulateConfig>"]] [] 0 false 0);
   ("FixedI128", alias "i128");
   ("Amount", alias "FixedI128");
   ("StorageValue", alias "Vec<u8>");
   ("MarginPoolState", TStruct "struct" "" [["enp"; "FixedI128"]; ["ell"; "FixedI128"]; ["required_deposit"; "FixedI128"]] [] 0 false 0);
   ("CallOf", alias "Call");
   ("OrmlAccountData", TStruct "struct" "" [["free"; "Balance"]; ["frozen"; "Balance"]; ["reserved"; "Balance"]] [] 0 false 0);
   ("DispatchId", alias "u32");
   ("IdentityDepositBalanceOf", alias "Balance");
   ("DelayedOrigin", TStruct "struct" "" [["delay"; "BlockNumber"]; ["origin"; "PalletsOrigin"]] [] 0 false 0);
   ("SyntheticPosition", TStruct "struct" "" [["collateral"; "FixedU128"]; ["synthetic"; "FixedU128"]] [] 0 false 0);
   ("Share", alias "u128");
   ("DataProviderId", alias "u8");
   ("Keys", alias "SessionKeys2");
   ("OracleKey", alias "CurrencyId");
   ("SyntheticPoolCurrencyOption", TStruct "struct" "" [["bidSpread"; "Option<FixedU128>"]; ["askSpread"; "Option<FixedU128>"]; ["additionalCollateralRatio"; "Option<Permill>"]; ["syntheticEnabled"; "bool"]] [] 0 false 0);
   ("MarginPosition", TStruct "struct" "" [["owner"; "AccountId"]; ["poolId"; "LiquidityPoolId"]; ["pair"; "TradingPair"]; ["leverage"; "Leverage"]; ["leveragedHeld"; "FixedI128"]; ["leveragedDebits"; "FixedI128"]; ["openAccumulatedSwapRate"; "Rate"]; ["marginHeld"; "FixedI128"]] [] 0 false 0);
   ("PoolTraderInfo", TStruct "struct" "" [["positionNum"; "PositionId"]; ["long"; "PairInfo"]; ["short"; "PairInfo"]] [] 0 false 0);
   ("OracleValue", alias "Price");
   ("SwapRate", TStruct "struct" "" [["long"; "Rate"]; ["short"; "Rate"]] [] 0 false 0);
   ("Price", alias "FixedU128");
   ("OrmlVestingSchedule", TStruct "struct" "" [["start"; "BlockNumber"]; ["period"; "BlockNumber"]; ["periodCount"; "u32"]; ["perPeriod"; "Compact<Balance>"]] [] 0 false 0);
   ("Address", alias "MultiAddress");
   ("LookupSource", alias "MultiAddress");
   ("AccountInfo", alias "AccountInfoWithTripleRefCount");
   ("ValidatorPrefs", alias "ValidatorPrefsWithBlocked")].
(** network/litentry-test.json *)
Definition net_litentry_test : list (string * tstruct) :=
  [("Weight", alias "u64");
   ("CompactAssignments", alias "CompactAssignmentsLatest");
   ("RefCount", alias "u32");
   ("Address", alias "MultiAddress");
   ("LookupSource", alias "MultiAddress");
   ("AccountInfo", alias "AccountInfoWithTripleRefCount");
   ("CID", alias "Vec<u8>");
   ("ClassIdOf", alias "ClassId");
   ("Properties", TStruct "set" "" [[]; []] [] 8 false 0);
   ("ClassType", TStruct "enum" "" [["Simple"; "u32"]; ["Claim"; "HashByte32"]; ["Merge"; "(ID, ID, bool)"]] [] 0 false 0);
   ("ID", alias "ClassIdOf");
   ("HashByte32", alias "[u8; 32]");
   ("TokenId", alias "u64");
   ("TokenIdOf", alias "TokenId")].
(** network/manta-test.json *)
Definition net_manta_test : list (string * tstruct) :=
  [("Weight", alias "u64");
   ("CompactAssignments", alias "CompactAssignmentsLatest");
   ("RefCount", alias "u32");
   ("Address", alias "MultiAddress");
   ("LookupSource", alias "MultiAddress");
   ("CurrencyId", TStruct "enum" "" [] ["MA"] 0 false 0);
   ("CurrencyIdOf", alias "CurrencyId");
   ("Amount", alias "i128");
   ("AmountOf", alias "Amount");
   ("AccountInfo", alias "AccountInfoWithProviders");
   ("PrivateTransferPayload", alias "[u8; 608]");
   ("ReclaimPayload", alias "[u8; 512]")].
(** network/moonbase.json *)
Definition net_moonbase : list (string * tstruct) :=
  [("Weight", alias "u64");
   ("CompactAssignments", alias "CompactAssignmentsLatest");
   ("RefCount", alias "u32");
   ("Box<<T as Config>::Call>", alias "Call");
   ("AccountInfo", alias "AccountInfoWithTripleRefCount");
   ("DispatchResult", TStruct "enum" "" [["Ok"; "Null"]; ["Error"; "DispatchError"]] [] 0 false 0);
   ("TransactionRecoveryId", alias "U64");
   ("TransactionSignature", TStruct "struct" "" [["v"; "TransactionRecoveryId"]; ["r"; "H256"]; ["s"; "H256"]] [] 0 false 0);
   ("RoundInfo", TStruct "struct" "" [["current"; "RoundIndex"]; ["first"; "BlockNumber"]; ["length"; "u32"]] [] 0 false 0);
   ("Candidate", TStruct "struct" "" [["id"; "AccountId"]; ["fee"; "Perbill"]; ["bond"; "Balance"]; ["nominators"; "Vec<Bond>"]; ["total"; "Balance"]; ["state"; "CollatorStatus"]] [] 0 false 0);
   ("TxPoolResultStatus", TStruct "struct" "" [["pending"; "U256"]; ["queued"; "U256"]] [] 0 false 0);
   ("CollatorStatus", TStruct "enum" "" [["Active"; "NULL"]; ["Idle"; "Null"]; ["Leaving"; "RoundIndex"]] [] 0 false 0);
   ("PoolTransaction", TStruct "struct" "" [["hash"; "H256"]; ["nonce"; "U256"]; ["block_hash"; "Option<H256>"]; ["block_number"; "Option<U256>"]; ["from"; "H160"]; ["to"; "Option<H160>"]; ["value"; "U256"]; ["gas_price"; "U256"]; ["gas"; "U256"]; ["input"; "Bytes"]] [] 0 false 0);
   ("ExtrinsicSignature", alias "EthereumSignature");
   ("Collator", TStruct "struct" "" [["id"; "AccountId"]; ["bond"; "Balance"]; ["nominators"; "Vec<Bond>"]; ["total"; "Balance"]; ["state"; "CollatorStatus"]] [] 0 false 0);
   ("CollatorSnapshot", TStruct "struct" "" [["bond"; "Balance"]; ["nominators"; "Vec<Bond>"]; ["total"; "Balance"]] [] 0 false 0);
   ("Address", alias "AccountId");
   ("SystemInherentData", TStruct "struct" "" [["validation_data"; "PersistedValidationData"]; ["relay_chain_state"; "StorageProof"]; ["downward_messages"; "Vec<InboundDownwardMessage>"]; ["horizontal_messages"; "BTreeMap<ParaId, Vec<InboundHrmpMessage>>"]] [] 0 false 0);
   ("OrderedSet", alias "Vec<Bond>");
   ("AccountId", alias "EthereumAccountId");
   ("Account", TStruct "struct" "" [["nonce"; "U256"]; ["balance"; "u128"]] [] 0 false 0);
   ("LookupSource", alias "AccountId");
   ("InflationInfo", TStruct "struct" "" [["expect"; "RangeBalance"]; ["round"; "RangePerbill"]] [] 0 false 0);
   ("Summary", alias "Bytes");
   ("Range", alias "RangeBalance");
   ("TxPoolResultInspect", TStruct "struct" "" [["pending"; "HashMap<H160, HashMap<U256, Summary>>"]; ["queued"; "HashMap<H160, HashMap<U256, Summary>>"]] [] 0 false 0);
   ("RangeBalance", TStruct "struct" "" [["min"; "Balance"]; ["ideal"; "Balance"]; ["max"; "Balance"]] [] 0 false 0);
   ("RoundIndex", alias "u32");
   ("Nominator", TStruct "struct" "" [["nominations"; "Vec<Bond>"]; ["total"; "Balance"]] [] 0 false 0);
   ("Balance", alias "u128");
   ("Bond", TStruct "struct" "" [["owner"; "AccountId"]; ["amount"; "Balance"]] [] 0 false 0);
   ("RangePerbill", TStruct "struct" "" [["min"; "Perbill"]; ["ideal"; "Perbill"]; ["max"; "Perbill"]] [] 0 false 0);
   ("TxPoolResultContent", TStruct "struct" "" [["pending"; "HashMap<H160, HashMap<U256, PoolTransaction>>"]; ["queued"; "HashMap<H160, HashMap<U256, PoolTransaction>>"]] [] 0 false 0);
   ("AuthorId", alias "AccountId32");
   ("RegistrationInfo", TStruct "struct" "" [["account"; "AccountId"]; ["deposit"; "Balance"]] [] 0 false 0);
   ("AssetRegistrarMetadata", TStruct "struct" "" [["name"; "Vec<u8>"]; ["symbol"; "Vec<u8>"]; ["decimals"; "u8"]; ["is_frozen"; "bool"]] [] 0 false 0);
   ("Collator2", TStruct "struct" "" [["id"; "AccountId"]; ["bond"; "Balance"]; ["nominators"; "Vec<AccountId>"]; ["top_nominators"; "Vec<Bond>"]; ["bottom_nominators"; "Vec<Bond>"]; ["total_counted"; "Balance"]; ["total_backing"; "Balance"]; ["state"; "CollatorStatus"]] [] 0 false 0);
   ("NominatorAdded", TStruct "enum" "" [["AddedToTop"; "Balance"]; ["AddedToBottom"; "Null"]] [] 0 false 0);
   ("CurrencyId", TStruct "enum" "" [["SelfReserve"; "Null"]; ["OtherReserve"; "u128"]] [] 0 false 0);
   ("AssetType", TStruct "enum" "" [["Xcm"; "MultiLocation"]] [] 0 false 0);
   ("RelayChainAccountId", alias "AccountId32");
   ("AssetInstance", alias "AssetInstanceV0");
   ("MultiAsset", alias "MultiAssetV0");
   ("Xcm", alias "XcmV0");
   ("XcmOrder", alias "XcmOrderV0");
   ("MultiLocation", alias "MultiLocationV0");
   ("AssetId", alias "u128");
   ("TAssetBalance", alias "u128");
   ("AssetInstance#800-?", alias "AssetInstanceV1");
   ("MultiAsset#800-?", alias "MultiAssetV1");
   ("Xcm#800-?", alias "XcmV1");
   ("XcmOrder#800-?", alias "XcmOrderV1");
   ("MultiLocation#800-?", alias "MultiLocationV1")].
(** network/moonbeam.json *)
Definition net_moonbeam : list (string * tstruct) :=
  [("Weight", alias "u64");
   ("CompactAssignments", alias "CompactAssignmentsLatest");
   ("RefCount", alias "u32");
   ("Box<<T as Config>::Call>", alias "Call");
   ("DispatchResult", TStruct "enum" "" [["Ok"; "Null"]; ["Error"; "DispatchError"]] [] 0 false 0);
   ("TransactionRecoveryId", alias "U64");
   ("TransactionSignature", TStruct "struct" "" [["v"; "TransactionRecoveryId"]; ["r"; "H256"]; ["s"; "H256"]] [] 0 false 0);
   ("AccountId", alias "EthereumAccountId");
   ("Address", alias "AccountId");
   ("Balance", alias "u128");
   ("LookupSource", alias "AccountId");
   ("Account", TStruct "struct" "" [["nonce"; "U256"]; ["balance"; "u128"]] [] 0 false 0);
   ("RoundIndex", alias "u32");
   ("Candidate", TStruct "struct" "" [["id"; "AccountId"]; ["fee"; "Perbill"]; ["bond"; "Balance"]; ["nominators"; "Vec<Bond>"]; ["total"; "Balance"]; ["state"; "ValidatorStatus"]] [] 0 false 0);
   ("Bond", TStruct "struct" "" [["owner"; "AccountId"]; ["amount"; "Balance"]] [] 0 false 0);
   ("ValidatorStatus", TStruct "enum" "" [["Active"; "NULL"]; ["Idle"; "NULL"]; ["Leaving"; "RoundIndex"]] [] 0 false 0)].
(** network/moonriver.json *)
Definition net_moonriver : list (string * tstruct) :=
  [("Weight", alias "u64");
   ("CompactAssignments", alias "CompactAssignmentsLatest");
   ("RefCount", alias "u32");
   ("RoundInfo", TStruct "struct" "" [["current"; "RoundIndex"]; ["first"; "BlockNumber"]; ["length"; "u32"]] [] 0 false 0);
   ("Candidate", TStruct "struct" "" [["id"; "AccountId"]; ["fee"; "Perbill"]; ["bond"; "Balance"]; ["nominators"; "Vec<Bond>"]; ["total"; "Balance"]; ["state"; "CollatorStatus"]] [] 0 false 0);
   ("RewardInfo", TStruct "struct" "" [["total_reward"; "Balance"]; ["claimed_reward"; "Balance"]] [] 0 false 0);
   ("TxPoolResultStatus", TStruct "struct" "" [["pending"; "U256"]; ["queued"; "U256"]] [] 0 false 0);
   ("CollatorStatus", TStruct "enum" "" [["Active"; "NULL"]; ["Idle"; "Null"]; ["Leaving"; "RoundIndex"]] [] 0 false 0);
   ("PoolTransaction", TStruct "struct" "" [["hash"; "H256"]; ["nonce"; "U256"]; ["block_hash"; "Option<H256>"]; ["block_number"; "Option<U256>"]; ["from"; "H160"]; ["to"; "Option<H160>"]; ["value"; "U256"]; ["gas_price"; "U256"]; ["gas"; "U256"]; ["input"; "Bytes"]] [] 0 false 0);
   ("AccountInfo", alias "AccountInfoWithTripleRefCount");
   ("Collator2", TStruct "struct" "" [["id"; "AccountId"]; ["bond"; "Balance"]; ["nominators"; "Vec<AccountId>"]; ["top_nominators"; "Vec<Bond>"]; ["bottom_nominators"; "Vec<Bond>"]; ["total_counted"; "Balance"]; ["total_backing"; "Balance"]; ["state"; "CollatorStatus"]] [] 0 false 0);
   ("ExtrinsicSignature", alias "EthereumSignature");
   ("NominatorAdded", TStruct "enum" "" [["AddedToTop"; "Balance"]; ["AddedToBottom"; "Null"]] [] 0 false 0);
   ("RegistrationInfo", TStruct "struct" "" [["account"; "AccountId"]; ["deposit"; "Balance"]] [] 0 false 0);
   ("Collator", TStruct "struct" "" [["id"; "AccountId"]; ["bond"; "Balance"]; ["nominators"; "Vec<Bond>"]; ["total"; "Balance"]; ["state"; "CollatorStatus"]] [] 0 false 0);
   ("CollatorSnapshot", TStruct "struct" "" [["bond"; "Balance"]; ["nominators"; "Vec<Bond>"]; ["total"; "Balance"]] [] 0 false 0);
   ("Address", alias "AccountId");
   ("SystemInherentData", TStruct "struct" "" [["validation_data"; "PersistedValidationData"]; ["relay_chain_state"; "StorageProof"]; ["downward_messages"; "Vec<InboundDownwardMessage>"]; ["horizontal_messages"; "BTreeMap<ParaId, Vec<InboundHrmpMessage>>"]] [] 0 false 0);
   ("OrderedSet", alias "Vec<Bond>");
   ("AccountId", alias "EthereumAccountId");
   ("Account", TStruct "struct" "" [["nonce"; "U256"]; ["balance"; "u128"]] [] 0 false 0);
   ("RelayChainAccountId", alias "AccountId32");
   ("LookupSource", alias "AccountId");
   ("InflationInfo", TStruct "struct" "" [["expect"; "RangeBalance"]; ["annual"; "RangePerbill"]; ["round"; "RangePerbill"]] [] 0 false 0);
   ("AccountId32", alias "H256");
   ("Summary", alias "Bytes");
   ("Range", alias "RangeBalance");
   ("TxPoolResultInspect", TStruct "struct" "" [["pending"; "HashMap<H160, HashMap<U256, Summary>>"]; ["queued"; "HashMap<H160, HashMap<U256, Summary>>"]] [] 0 false 0);
   ("RangeBalance", TStruct "struct" "" [["min"; "Balance"]; ["ideal"; "Balance"]; ["max"; "Balance"]] [] 0 false 0);
   ("RoundIndex", alias "u32");
   ("ParachainBondConfig", TStruct "struct" "" [["account"; "AccountId"]; ["percent"; "Percent"]] [] 0 false 0);
   ("Nominator", TStruct "struct" "" [["nominations"; "Vec<Bond>"]; ["total"; "Balance"]] [] 0 false 0);
   ("Balance", alias "u128");
   ("Bond", TStruct "struct" "" [["owner"; "AccountId"]; ["amount"; "Balance"]] [] 0 false 0);
   ("RangePerbill", TStruct "struct" "" [["min"; "Perbill"]; ["ideal"; "Perbill"]; ["max"; "Perbill"]] [] 0 false 0);
   ("AuthorId", alias "AccountId32");
   ("TxPoolResultContent", TStruct "struct" "" [["pending"; "HashMap<H160, HashMap<U256, PoolTransaction>>"]; ["queued"; "HashMap<H160, HashMap<U256, PoolTransaction>>"]] [] 0 false 0)].
(** network/pangolin.json *)
Definition net_pangolin : list (string * tstruct) :=
  [("U256", alias "[u8; 32]");
   ("H128", alias "[u8; 16]");
   ("TsInMs", alias "u64");
   ("RingBalance", alias "Balance");
   ("KtonBalance", alias "Balance");
   ("MomentT", alias "Moment");
   ("Power", alias "u32");
   ("DepositId", alias "U256");
   ("EthBlockNumber", alias "u64");
   ("EthereumBlockNumber", alias "u64");
   ("EthAddress", alias "H160");
   ("EthTransactionIndex", alias "(H256, u64)");
   ("EthereumTransactionIndex", alias "(H256, u64)");
   ("BalanceInfo", alias "null");
   ("AddressT", alias "EthereumAddress");
   ("TronAddress", alias "EthereumAddress");
   ("Bloom", alias "[u8; 256]");
   ("H", alias "Hash");
   ("EthereumAddress", alias "H160");
   ("MappedRing", alias "u128");
   ("Keys", TStruct "struct" "" [["babe"; "AccountId"]; ["grandpa"; "AccountId"]; ["im_online"; "AccountId"]; ["authority_discovery"; "AccountId"]] [] 0 false 0);
   ("Weight", alias "u64");
   ("ModuleId", alias "[u8; 8]");
   ("RuntimeDbWeight", TStruct "struct" "" [["read"; "u128"]; ["read"; "write"]] [] 0 false 0);
   ("SpanRecord", TStruct "struct" "" [["slashed"; "RKT"]; ["paid_out"; "RKT"]] [] 0 false 0);
   ("StakingRuntimeDispatchInfo", TStruct "struct" "" [["power"; "Power"]] [] 0 false 0);
   ("BalancesRuntimeDispatchInfo", TStruct "struct" "" [["usable_balance"; "Balance"]] [] 0 false 0);
   ("StakingBalance", TStruct "enum" "" [["RingBalance"; "Balance"]; ["KtonBalance"; "Balance"]] [] 0 false 0);
   ("StakingLedger", TStruct "struct" "" [["stash"; "AccountId"]; ["active_ring"; "Compact<Balance>"]; ["active_deposit_ring"; "Compact<Balance>"]; ["active_kton"; "Compact<Balance>"]; ["deposit_items"; "Vec<TimeDepositItem>"]; ["ring_staking_lock"; "StakingLock"]; ["kton_staking_lock"; "StakingLock"]; ["last_reward"; "Option<EraIndex>"]] [] 0 false 0);
   ("TimeDepositItem", TStruct "struct" "" [["value"; "Compact<Balance>"]; ["start_time"; "Compact<TsInMs>"]; ["expire_time"; "Compact<TsInMs>"]] [] 0 false 0);
   ("Staked", TStruct "struct" "" [["promise_month"; "u8"]] [] 0 false 0);
   ("Exposure", TStruct "struct" "" [["own_ring_balance"; "Compact<Balance>"]; ["own_kton_balance"; "Compact<Balance>"]; ["own_power"; "Power"]; ["total_power"; "Power"]; ["others"; "Vec<IndividualExposure>"]] [] 0 false 0);
   ("IndividualExposure", TStruct "struct" "" [["who"; "AccountId"]; ["ring_balance"; "Compact<Balance>"]; ["kton_balance"; "Compact<Balance>"]; ["power"; "Power"]] [] 0 false 0);
   ("ValidatorReward", TStruct "struct" "" [["who"; "AccountId"]; ["amount"; "Compact<Balance>"]; ["nominators_reward"; "Vec<NominatorReward>"]] [] 0 false 0);
   ("NominatorReward", TStruct "struct" "" [["who"; "AccountId"]; ["amount"; "Compact<Balance>"]] [] 0 false 0);
   ("RK", TStruct "struct" "" [["r"; "Balance"]; ["k"; "Balance"]] [] 0 false 0);
   ("BalanceLock<Balance, BlockNumber>", TStruct "struct" "" [["id"; "LockIdentifier"]; ["lock_for"; "LockFor"]; ["lock_reasons"; "LockReasons"]] [] 0 false 0);
   ("LockFor", TStruct "enum" "" [["Common"; "Common"]; ["Staking"; "StakingLock"]] [] 0 false 0);
   ("Common", TStruct "struct" "" [["amount"; "Balance"]] [] 0 false 0);
   ("StakingLock", TStruct "struct" "" [["staking_amount"; "Balance"]; ["unbondings"; "Vec<Unbonding>"]] [] 0 false 0);
   ("LockReasons", TStruct "enum" "" [["Fee"; "null"]; ["Misc"; "null"]; ["All"; "null"]] [] 0 false 0);
   ("AccountData", TStruct "struct" "" [["free"; "Balance"]; ["reserved"; "Balance"]; ["free_kton"; "Balance"]; ["reserved_kton"; "Balance"]] [] 0 false 0);
   ("EthHeaderBrief", TStruct "struct" "" [["total_difficulty"; "U256"]; ["parent_hash"; "H256"]; ["number"; "EthBlockNumber"]; ["relayer"; "AccountId"]] [] 0 false 0);
   ("EthereumHeader", TStruct "struct" "" [["parent_hash"; "H256"]; ["timestamp"; "u64"]; ["number"; "EthereumBlockNumber"]; ["author"; "EthereumAddress"]; ["transactions_root"; "H256"]; ["uncles_hash"; "H256"]; ["extra_data"; "Bytes"]; ["state_root"; "H256"]; ["receipts_root"; "H256"]; ["log_bloom"; "Bloom"]; ["gas_used"; "U256"]; ["gas_limit"; "U256"]; ["difficulty"; "U256"]; ["seal"; "Vec<Bytes>"]; ["base_fee_per_gas"; "Option<U256>"]; ["hash"; "Option<H256>"]] [] 0 false 0);
   ("EthHeaderBrief::<AccountId>", alias "EthHeaderBrief");
   ("HeaderInfo", TStruct "struct" "" [["total_difficulty"; "U256"]; ["parent_hash"; "H256"]; ["number"; "EthBlockNumber"]] [] 0 false 0);
   ("EthHeader", TStruct "struct" "" [["parent_hash"; "H256"]; ["timestamp"; "u64"]; ["number"; "EthBlockNumber"]; ["auth"; "EthAddress"]; ["transaction_root"; "H256"]; ["uncles_hash"; "H256"]; ["extra_data"; "Bytes"]; ["state_root"; "H256"]; ["receipts_root"; "H256"]; ["log_bloom"; "Bloom"]; ["gas_used"; "U256"]; ["gas_limit"; "U256"]; ["difficulty"; "U256"]; ["seal"; "Vec<Bytes>"]; ["hash"; "Option<H256>"]] [] 0 false 0);
   ("Receipt", TStruct "struct" "" [["gas_used"; "U256"]; ["log_bloom"; "Bloom"]; ["logs"; "Vec<LogEntry>"]; ["outcome"; "TransactionOutcome"]] [] 0 false 0);
   ("EthereumReceipt", alias "Receipt");
   ("EthReceiptProof", TStruct "struct" "" [["index"; "u64"]; ["proof"; "Bytes"]; ["header_hash"; "H256"]] [] 0 false 0);
   ("EthNetworkType", TStruct "enum" "" [["Mainnet"; "null"]; ["Ropsten"; "null"]] [] 0 false 0);
   ("RedeemFor", TStruct "enum" "" [["Token"; "NULL"]; ["Deposit"; "NULL"]] [] 0 false 0);
   ("EthereumReceiptProofThing", alias "(EthereumHeader, EthereumReceiptProof, MMRProof)");
   ("OtherSignature", TStruct "enum" "" [["Eth"; "EcdsaSignature"]; ["Tron"; "EcdsaSignature"]] [] 0 false 0);
   ("OtherAddress", TStruct "enum" "" [["Eth"; "EthereumAddress"]; ["Tron"; "EthereumAddress"]] [] 0 false 0);
   ("MerkleMountainRangeRoot", TStruct "struct" "" [["data"; "Hash"]] [] 0 false 0);
   ("MerkleMountainRangeRootLog", TStruct "struct" "" [["prefix"; "[u8; 4]"]; ["mmr_root"; "Hash"]] [] 0 false 0);
   ("DoubleNodeWithMerkleProof", TStruct "struct" "" [["dag_nodes"; "[H512; 2]"]; ["proof"; "Vec<H128>"]] [] 0 false 0);
   ("StakingBalanceT", TStruct "enum" "" [["RingBalance"; "Balance"]; ["KtonBalance"; "Balance"]] [] 0 false 0);
   ("StakingLedgerT", TStruct "struct" "" [["stash"; "AccountId"]; ["active_ring"; "Compact<Balance>"]; ["active_deposit_ring"; "Compact<Balance>"]; ["active_kton"; "Compact<Balance>"]; ["deposit_items"; "Vec<TimeDepositItem>"]; ["ring_staking_lock"; "StakingLock"]; ["kton_staking_lock"; "StakingLock"]; ["claimed_rewards"; "Vec<EraIndex>"]] [] 0 false 0);
   ("ExposureT", TStruct "struct" "" [["own_ring_balance"; "Compact<Balance>"]; ["own_kton_balance"; "Compact<Balance>"]; ["own_power"; "Power"]; ["total_power"; "Power"]; ["others"; "Vec<IndividualExposure>"]] [] 0 false 0);
   ("FullIdentification", TStruct "struct" "" [["own_ring_balance"; "Compact<Balance>"]; ["own_kton_balance"; "Compact<Balance>"]; ["own_power"; "Power"]; ["total_power"; "Power"]; ["others"; "Vec<IndividualExposure>"]] [] 0 false 0);
   ("RKT", TStruct "struct" "" [["r"; "Balance"]; ["k"; "Balance"]] [] 0 false 0);
   ("DispatchResult", TStruct "enum" "" [["Ok"; "Null"]; ["Error"; "DispatchError"]] [] 0 false 0);
   ("OpenTip<AccountId, RingBalance, BlockNumber, Hash>", TStruct "struct" "" [["reason"; "Hash"]; ["who"; "AccountId"]; ["finder"; "Option<OpenTipFinder>"]; ["closes"; "Option<BlockNumber>"]; ["tips"; "Vec<OpenTipTip>"]] [] 0 false 0);
   ("slashing::SpanRecord<RingBalance, KtonBalance>", alias "SpanRecord");
   ("slashing::RKT", alias "RKT");
   ("MMRHash", alias "Vec<u8>");
   ("RawHeaderThing", alias "Vec<u8>");
   ("EthereumNetworkType", alias "EthNetworkType");
   ("EthashProof", alias "DoubleNodeWithMerkleProof");
   ("MMRProof", TStruct "struct" "" [["member_leaf_index"; "u64"]; ["last_leaf_index"; "u64"]; ["proof"; "Vec<H256>"]] [] 0 false 0);
   ("Proposal", TStruct "struct" "" [["proposer"; "AccountId"]; ["beneficiary"; "AccountId"]; ["ring_value"; "Balance"]; ["kton_value"; "Balance"]; ["ring_bond"; "Balance"]; ["kton_bond"; "Balance"]] [] 0 false 0);
   ("UnappliedSlash", TStruct "struct" "" [["validator"; "AccountId"]; ["own"; "RKT"]; ["others"; "Vec<(AccountId, RKT)>"]; ["reporters"; "Vec<AccountId>"]; ["payout"; "RKT"]] [] 0 false 0);
   ("ElectionResultT", TStruct "struct" "" [["elected_stashes"; "Vec<AccountId>"]; ["exposures"; "Vec<(AccountId, ExposureT)>"]; ["compute"; "ElectionCompute"]] [] 0 false 0);
   ("EthereumReceiptProof", TStruct "struct" "" [["index"; "u64"]; ["proof"; "Bytes"]; ["header_hash"; "H256"]] [] 0 false 0);
   ("Unbonding", TStruct "struct" "" [["amount"; "Balance"]; ["moment"; "BlockNumber"]] [] 0 false 0);
   ("RelayVotingState", TStruct "struct" "" [["ayes"; "Vec<AccountId>"]; ["nays"; "Vec<AccountId>"]] [] 0 false 0);
   ("TcHeaderMMR", alias "Vec<u8>");
   ("CompactAssignments", alias "CompactAssignmentsLatest");
   ("ProxyType", TStruct "enum" "" [] ["Any"; "NonTransfer"; "Governance"; "Staking"; "IdentityJudgement"; "EthereumBridge"] 0 false 0);
   ("TreasuryProposal", TStruct "struct" "" [["proposer"; "AccountId"]; ["beneficiary"; "AccountId"]; ["ring_value"; "Balance"]; ["kton_value"; "Balance"]; ["ring_bond"; "Balance"]; ["kton_bond"; "Balance"]] [] 0 false 0);
   ("RefCount", alias "u32");
   ("EthereumRelayHeaderParcel", TStruct "struct" "" [["header"; "EthereumHeader"]; ["mmr_root"; "H256"]] [] 0 false 0);
   ("EthereumRelayProofs", TStruct "struct" "" [["ethash_proof"; "Vec<EthashProof>"]; ["mmr_proof"; "Vec<H256>"]] [] 0 false 0);
   ("RelayHeaderId", alias "EthereumBlockNumber");
   ("RelayHeaderParcel", alias "EthereumRelayHeaderParcel");
   ("RelayProofs", alias "EthereumRelayProofs");
   ("RelayAffirmationId", TStruct "struct" "" [["game_id"; "EthereumBlockNumber"]; ["round"; "u32"]; ["index"; "u32"]] [] 0 false 0);
   ("RelayAffirmationT", TStruct "struct" "" [["relayer"; "AccountId"]; ["relay_header_parcels"; "EthereumRelayHeaderParcel"]; ["bond"; "Balance"]; ["maybe_extended_relay_affirmation_id"; "Option<RelayAffirmationId>"]; ["verified"; "bool"]] [] 0 false 0);
   ("Signer", alias "EthereumAddress");
   ("RelayAuthorityT", TStruct "struct" "" [["accountId"; "AccountId"]; ["signer"; "Signer"]; ["stake"; "Balance"]; ["term"; "BlockNumber"]] [] 0 false 0);
   ("MMRRoot", alias "Hash");
   ("EcdsaAddress", alias "EthereumAddress");
   ("EcdsaSignature", alias "[u8; 65]");
   ("EcdsaMessage", alias "H256");
   ("RelayAuthoritySigner", alias "EcdsaAddress");
   ("RelayAuthorityMessage", alias "EcdsaMessage");
   ("RelayAuthoritySignature", alias "EcdsaSignature");
   ("RelayAuthoritySignature<T, I>", alias "EcdsaSignature");
   ("Term", alias "u32");
   ("OpCode", alias "[u8; 4]");
   ("ScheduledAuthoritiesChange", TStruct "struct" "" [["next_authorities"; "Vec<RelayAuthorityT>"]; ["deadline"; "BlockNumber"]] [] 0 false 0);
   ("ScheduledAuthoritiesChangeT", alias "ScheduledAuthoritiesChange");
   ("Address", alias "MultiAddress");
   ("LookupSource", alias "MultiAddress");
   ("ValidatorPrefs", alias "ValidatorPrefsWithBlocked");
   ("AccountInfo", alias "AccountInfoWithTripleRefCount");
   ("ExitReason", TStruct "enum" "" [["Succeed"; "ExitSucceed"]; ["Error"; "ExitError"]; ["Revert"; "ExitRevert"]; ["Fatal"; "ExitFatal"]] [] 0 false 0);
   ("ExitSucceed", TStruct "enum" "" [] ["Stopped"; "Returned"; "Suicided"] 0 false 0);
   ("ExitError", TStruct "enum" "" [["StackUnderflow"; "NULL"]; ["StackOverflow"; "NULL"]; ["InvalidJump"; "NULL"]; ["InvalidRange"; "NULL"]; ["DesignatedInvalid"; "NULL"]; ["CallTooDeep"; "NULL"]; ["CreateCollision"; "NULL"]; ["CreateContractLimit"; "NULL"]; ["OutOfOffset"; "NULL"]; ["OutOfGas"; "NULL"]; ["OutOfFund"; "NULL"]; ["PCUnderflow"; "NULL"]; ["CreateEmpty"; "NULL"]; ["Other"; "string"]] [] 0 false 0);
   ("ExitFatal", TStruct "enum" "" [["NotSupported"; "NULL"]; ["UnhandledInterrupt"; "NULL"]; ["CallErrorAsFatal"; "NULL"]; ["Other"; "string"]] [] 0 false 0);
   ("BlockTransactions", TStruct "enum" "" [["Hashes"; "Vec<H256>"]; ["Full"; "Vec<ethereum::Transaction>"]] [] 0 false 0);
   ("ExitRevert", TStruct "enum" "" [] ["Reverted"] 0 false 0);
   ("ethereum::Block", TStruct "struct" "" [["hash"; "Option<H256>"]; ["parent_hash"; "H256"]; ["uncles_hash"; "H256"]; ["author"; "H160"]; ["miner"; "H160"]; ["state_root"; "H256"]; ["transactions_root"; "H256"]; ["receipts_root"; "H256"]; ["number"; "Option<U256>"]; ["gas_used"; "U256"]; ["gas_limit"; "U256"]; ["extra_data"; "Bytes"]; ["logs_bloom"; "Option<H2048>"]; ["timestamp"; "U256"]; ["difficulty"; "U256"]; ["total_difficulty"; "Option<U256>"]; ["seal_fields"; "Vec<Bytes>"]; ["uncles"; "Vec<H256>"]; ["transactions"; "BlockTransactions"]; ["size"; "Option<U256>"]] [] 0 false 0);
   ("TransactionAction", TStruct "enum" "" [["Call"; "H160"]; ["Create"; "NULL"]] [] 0 false 0);
   ("Log", TStruct "struct" "" [["address"; "H160"]; ["topics"; "Vec<H256>"]; ["data"; "Vec<u8>"]] [] 0 false 0);
   ("TransactionSignature", TStruct "struct" "" [["v"; "TransactionRecoveryId"]; ["r"; "H256"]; ["s"; "H256"]] [] 0 false 0);
   ("TransactionRecoveryId", alias "U64");
   ("NodeIndex", alias "u64");
   ("MmrNodesPruningConfiguration", TStruct "struct" "" [["step"; "NodeIndex"]; ["progress"; "NodeIndex"]; ["last_position"; "NodeIndex"]] [] 0 false 0);
   ("BlockNumberFor", alias "BlockNumber");
   ("MessageId", alias "(LaneId, MessageNonce)");
   ("SpecVersion", alias "u32")].
(** network/phala.json *)
Definition net_phala : list (string * tstruct) :=
  [("Weight", alias "u64");
   ("CompactAssignments", alias "CompactAssignmentsLatest");
   ("RefCount", alias "u32");
   ("AccountInfo", alias "AccountInfoWithTripleRefCount");
   ("GenericTransfer", TStruct "struct" "" [["dest_id"; "BridgeChainId"]; ["nonce"; "DepositNonce"]; ["resource_id"; "ResourceId"]; ["metadata"; "Vec<u8>"]] [] 0 false 0);
   ("ContractPublicKey", alias "Sr25519PublicKey");
   ("MinerInfo", TStruct "struct" "" [["state"; "MinerState"]; ["ve"; "u128"]; ["v"; "u128"]; ["vUpdatedAt"; "u64"]; ["benchmark"; "Benchmark"]; ["coolDownStart"; "u64"]; ["stats"; "MinerStats"]] [] 0 false 0);
   ("TokenomicParams", alias "TokenomicParameters");
   ("U64F64Bits", alias "u128");
   ("KeyDistribution", TStruct "enum" "" [["MasterKeyDistribution"; "DispatchMasterKeyEvent"]] [] 0 false 0);
   ("BridgeChainId", alias "u8");
   ("Benchmark", TStruct "struct" "" [["pInstant"; "u32"]; ["pInit"; "u32"]; ["iterations"; "u64"]; ["miningStartTime"; "u64"]; ["updatedAt"; "u64"]] [] 0 false 0);
   ("DepositNonce", alias "u64");
   ("ProxyType", TStruct "enum" "" [] ["Any"; "NonTransfer"; "CancelProxy"; "Governance"; "Collator"; "StakePoolManager"] 0 false 0);
   ("Keys", alias "AccountId");
   ("ResourceId", alias "[u8; 32]");
   ("WorkerRegistrationInfo", TStruct "struct" "" [["version"; "u32"]; ["machineId"; "Vec<u8>"]; ["pubkey"; "WorkerPublicKey"]; ["ecdhPubkey"; "EcdhPublicKey"]; ["genesisBlockHash"; "H256"]; ["features"; "Vec<u32>"]; ["operator"; "Option<AccountId>"]] [] 0 false 0);
   ("SenderId", alias "MessageOrigin");
   ("WorkerInfo", TStruct "struct" "" [["pubkey"; "WorkerPublicKey"]; ["ecdhPubkey"; "EcdhPublicKey"]; ["runtimeVersion"; "u32"]; ["lastUpdated"; "u64"]; ["operator"; "Option<AccountId>"]; ["confidenceLevel"; "u8"]; ["initialScore"; "Option<u32>"]; ["features"; "Vec<u32>"]] [] 0 false 0);
   ("AttestationSgxIas", TStruct "struct" "" [["raReport"; "Vec<u8>"]; ["signature"; "Vec<u8>"]; ["rawSigningCert"; "Vec<u8>"]] [] 0 false 0);
   ("Address", alias "MultiAddress");
   ("Path", alias "Vec<u8>");
   ("TokenomicParameters", TStruct "struct" "" [["phaRate"; "U64F64Bits"]; ["rho"; "U64F64Bits"]; ["budgetPerBlock"; "U64F64Bits"]; ["vMax"; "U64F64Bits"]; ["costK"; "U64F64Bits"]; ["costB"; "U64F64Bits"]; ["slashRate"; "U64F64Bits"]; ["treasuryRatio"; "U64F64Bits"]; ["heartbeatWindow"; "u32"]; ["rigK"; "U64F64Bits"]; ["rigB"; "U64F64Bits"]; ["re"; "U64F64Bits"]; ["k"; "U64F64Bits"]; ["kappa"; "U64F64Bits"]] [] 0 false 0);
   ("MasterPublicKey", alias "Sr25519PublicKey");
   ("BridgeEvent", TStruct "enum" "" [["FungibleTransfer"; "FungibleTransfer"]; ["NonFungibleTransfer"; "NonFungibleTransfer"]; ["GenericTransfer"; "GenericTransfer"]] [] 0 false 0);
   ("PoolInfo", TStruct "struct" "" [["pid"; "u64"]; ["owner"; "AccountId"]; ["payoutCommission"; "Option<Permill>"]; ["ownerReward"; "Balance"]; ["cap"; "Option<Balance>"]; ["rewardAcc"; "u128"]; ["totalShares"; "Balance"]; ["totalStake"; "Balance"]; ["freeStake"; "Balance"]; ["releasingStake"; "Balance"]; ["workers"; "Vec<WorkerPublicKey>"]; ["withdrawQueue"; "Vec<WithdrawInfo>"]] [] 0 false 0);
   ("GatekeeperChange", TStruct "enum" "" [["GatekeeperRegistered"; "NewGatekeeperEvent"]] [] 0 false 0);
   ("LookupSource", alias "MultiAddress");
   ("TokenId", alias "U256");
   ("SignedMessage", TStruct "struct" "" [["message"; "Message"]; ["sequence"; "u64"]; ["signature"; "Vec<u8>"]] [] 0 false 0);
   ("NewGatekeeperEvent", TStruct "struct" "" [["pubkey"; "WorkerPublicKey"]; ["ecdhPubkey"; "EcdhPublicKey"]] [] 0 false 0);
   ("WithdrawInfo", TStruct "struct" "" [["user"; "AccountId"]; ["shares"; "Balance"]; ["startTime"; "u64"]] [] 0 false 0);
   ("FungibleTransfer", TStruct "struct" "" [["dest_id"; "BridgeChainId"]; ["nonce"; "DepositNonce"]; ["resource_id"; "ResourceId"]; ["amount"; "U256"]; ["recipient"; "Vec<u8>"]] [] 0 false 0);
   ("Attestation", TStruct "enum" "" [["SgxIas"; "AttestationSgxIas"]] [] 0 false 0);
   ("WorkerPublicKey", alias "Sr25519PublicKey");
   ("GatekeeperEvent", TStruct "enum" "" [["NewRandomNumber"; "RandomNumberEvent"]; ["TokenomicParametersChanged"; "TokenomicParameters"]] [] 0 false 0);
   ("DispatchMasterKeyEvent", TStruct "struct" "" [["dest"; "WorkerPublicKey"]; ["ecdhPubkey"; "EcdhPublicKey"]; ["encryptedMasterKey"; "Vec<u8>"]; ["iv"; "[u8; 12]"]] [] 0 false 0);
   ("EcdhPublicKey", alias "[u8; 32]");
   ("HeartbeatChallenge", TStruct "struct" "" [["seed"; "U256"]; ["onlineTarget"; "U256"]] [] 0 false 0);
   ("RandomNumberEvent", TStruct "struct" "" [["blockNumber"; "u32"]; ["randomNumber"; "[u8; 32]"]; ["lastRandomNumber"; "[u8; 32]"]] [] 0 false 0);
   ("UserStakeInfo", TStruct "struct" "" [["user"; "AccountId"]; ["locked"; "Balance"]; ["shares"; "Balance"]; ["availableRewards"; "Balance"]; ["rewardDebt"; "Balance"]] [] 0 false 0);
   ("GatekeeperLaunch", TStruct "enum" "" [["FirstGatekeeper"; "NewGatekeeperEvent"]; ["MasterPubkeyOnChain"; "null"]] [] 0 false 0);
   ("Sr25519PublicKey", alias "[u8; 32]");
   ("Topic", alias "Path");
   ("MinerStats", TStruct "struct" "" [["totalReward"; "Balance"]] [] 0 false 0);
   ("ProposalVotes", TStruct "struct" "" [["votes_for"; "Vec<AccountId>"]; ["votes_against"; "Vec<AccountId>"]; ["status"; "ProposalStatus"]; ["expiry"; "BlockNumber"]] [] 0 false 0);
   ("MinerState", TStruct "enum" "" [["Ready"; "null"]; ["MiningIdle"; "null"]; ["MiningActive"; "null"]; ["MiningUnresponsive"; "null"]; ["MiningCoolingDown"; "null"]] [] 0 false 0);
   ("ProposalStatus", TStruct "enum" "" [["Initiated"; "null"]; ["Approved"; "null"]; ["Rejected"; "null"]] [] 0 false 0);
   ("NonFungibleTransfer", TStruct "struct" "" [["dest_id"; "BridgeChainId"]; ["nonce"; "DepositNonce"]; ["resource_id"; "ResourceId"]; ["token_id"; "Vec<u8>"]; ["recipient"; "Vec<u8>"]; ["metadata"; "Vec<u8>"]] [] 0 false 0);
   ("Message", TStruct "struct" "" [["sender"; "SenderId"]; ["destination"; "Topic"]; ["payload"; "Vec<u8>"]] [] 0 false 0);
   ("MessageOrigin", TStruct "enum" "" [["Pallet"; "Vec<u8>"]; ["Contract"; "H256"]; ["Worker"; "Sr25519PublicKey"]; ["AccountId"; "H256"]; ["MultiLocation"; "Vec<u8>"]; ["Gatekeeper"; "null"]] [] 0 false 0)].
(** network/plasm.json *)
Definition net_plasm : list (string * tstruct) :=
  [("Weight", alias "u32");
   ("DispatchResult", TStruct "enum" "" [["Ok"; "Null"]; ["Error"; "DispatchError"]] [] 0 false 0);
   ("Keys", alias "SessionKeysPolkadot");
   ("ValidatorPrefs", TStruct "struct" "" [["Commission"; "Compact<Balance>"]] [] 0 false 0);
   ("Parameters", TStruct "struct" "" [["canBeNominated"; "bool"]; ["optionExpired"; "u128"]; ["optionP"; "u128"]] [] 0 false 0);
   ("Claim", TStruct "struct" "" [["amount"; "u128"]; ["approve"; "BTreeSet<AuthorityId>"]; ["complete"; "bool"]; ["decline"; "BTreeSet<AuthorityId>"]; ["params"; "Lockdrop"]] [] 0 false 0);
   ("BTreeSet", TStruct "struct" "" [] [] 0 false 0);
   ("AuthorityIndex", alias "u16");
   ("ClaimId", alias "H256");
   ("PredicateHash", alias "H256");
   ("AuthorityVote", alias "u32");
   ("DollarRate", alias "u128");
   ("AuthorityId", alias "AccountId");
   ("TickerRate<DollarRate>", TStruct "struct" "" [["authority"; "AuthorityIndex"]; ["btc"; "DollarRate"]; ["eth"; "DollarRate"]] [] 0 false 0);
   ("ClaimVote", TStruct "struct" "" [["approve"; "bool"]; ["authority"; "u16"]; ["claim_id"; "ClaimId"]] [] 0 false 0);
   ("Lockdrop", TStruct "struct" "" [["duration"; "u64"]; ["public_key"; "[u8; 33]"]; ["transaction_hash"; "H256"]; ["type"; "u8"]; ["value"; "u128"]] [] 0 false 0)].
(** network/polkadex.json *)
Definition net_polkadex : list (string * tstruct) :=
  [("Weight", alias "u64");
   ("CompactAssignments", alias "CompactAssignmentsLatest");
   ("RefCount", alias "u32");
   ("Votes", TStruct "struct" "" [["ayes"; "Vec<Voter>"]; ["nays"; "Vec<Voter>"]] [] 0 false 0);
   ("ChainId", alias "u8");
   ("Stake", TStruct "struct" "" [["stakedAmount"; "Balance"]; ["unlockingBlock"; "BlockNumber"]] [] 0 false 0);
   ("FundingRoundWithPrimitives", TStruct "struct" "" [["tokenA"; "AssetId"]; ["creator"; "AccountId"]; ["amount"; "String"]; ["tokenB"; "AssetId"]; ["vestingPerBlock"; "String"]; ["startBlock"; "BlockNumber"]; ["voteEndBlock"; "BlockNumber"]; ["vestingEndBlock"; "BlockNumber"]; ["projectInfoCid"; "Vec<u8>"]; ["minAllocation"; "String"]; ["maxAllocation"; "String"]; ["tokenAPriceperTokenB"; "String"]; ["closeRoundBlock"; "BlockNumber"]; ["actualRaise"; "String"]] [] 0 false 0);
   ("StoredHeader", TStruct "struct" "" [["submitter"; "Option<AccountId>"]; ["header"; "EthereumHeader"]; ["totalDifficulty"; "U256"]] [] 0 false 0);
   ("AccountInfo", alias "AccountInfoWithTripleRefCount");
   ("Voter", TStruct "struct" "" [["accountId"; "AccountId"]; ["votes"; "Balance"]] [] 0 false 0);
   ("Erc721Token", TStruct "struct" "" [["id"; "TokenId"]; ["metadata"; "Vec<u8>"]] [] 0 false 0);
   ("ShardIdentifier", alias "H256");
   ("KYCStatus", TStruct "enum" "" [["Tier0"; "null"]; ["Tier1"; "null"]; ["Tier2"; "null"]] [] 0 false 0);
   ("DepositNonce", alias "u64");
   ("FundingRound", TStruct "struct" "" [["tokenA"; "AssetId"]; ["creator"; "AccountId"]; ["amount"; "Balance"]; ["tokenB"; "AssetId"]; ["projectInfoCid"; "Vec<u8>"]; ["voteEndBlock"; "BlockNumber"]; ["vestingEndBlock"; "BlockNumber"]; ["vestingPerBlock"; "Balance"]; ["startBlock"; "BlockNumber"]; ["minAllocation"; "Balance"]; ["maxAllocation"; "Balance"]; ["tokenAPriceperTokenB"; "Balance"]; ["closeRoundBlock"; "BlockNumber"]; ["actualRaise"; "Balance"]] [] 0 false 0);
   ("EthereumHeader", TStruct "struct" "" [["parentHash"; "H256"]; ["timestamp"; "u64"]; ["number"; "u64"]; ["author"; "H160"]; ["transactionsRoot"; "H256"]; ["ommersHash"; "H256"]; ["extraData"; "Vec<u8>"]; ["stateRoot"; "H256"]; ["receiptsRoot"; "H256"]; ["logBloom"; "Bloom"]; ["gasUsed"; "U256"]; ["gasLimit"; "U256"]; ["difficulty"; "U256"]; ["seal"; "Vec<Vec<u8>>"]] [] 0 false 0);
   ("ResourceId", alias "[u8; 32]");
   ("CHAINSAFE", alias "H160");
   ("CurrencyIdOf", alias "AssetId");
   ("EthashProofData", TStruct "struct" "" [["dagNodes"; "[H512; 2]"]; ["proof"; "Vec<H128>"]] [] 0 false 0);
   ("Address", alias "MultiAddress");
   ("Bloom", alias "[u8; 256]");
   ("BalanceOf", alias "Balance");
   ("StakeInfo", TStruct "struct" "" [["stakes"; "Vec<Stake>"]] [] 0 false 0);
   ("VoteCast", TStruct "struct" "" [["amount"; "Balance"]; ["unlockingBlock"; "BlockNumber"]; ["voterAccount"; "AccountId"]] [] 0 false 0);
   ("LookupSource", alias "MultiAddress");
   ("TokenId", alias "U256");
   ("AssetId", TStruct "enum" "" [["POLKADEX"; "null"]; ["ASSET"; "u64"]] [] 0 false 0);
   ("PruningRange", TStruct "struct" "" [["oldestUnprunedBlock"; "u64"]; ["oldestBlockToKeep"; "u64"]] [] 0 false 0);
   ("EthereumHeaderId", TStruct "struct" "" [["number"; "u64"]; ["hash"; "H256"]] [] 0 false 0);
   ("VoteStat", TStruct "struct" "" [["yes"; "String"]; ["no"; "String"]] [] 0 false 0);
   ("InvestorInfo", TStruct "struct" "" [["kycStatus"; "KYCStatus"]] [] 0 false 0);
   ("Proof", TStruct "struct" "" [["blockHash"; "H256"]; ["txIndex"; "u32"]; ["data"; "(Vec<Vec<u8>>, Vec<Vec<u8>>)"]] [] 0 false 0);
   ("chainbridge::ChainId", alias "u8");
   ("ProposalVotes", TStruct "struct" "" [["votes_for"; "Vec<MultiAddress>"]; ["votes_against"; "Vec<MultiAddress>"]; ["status"; "enum"]] [] 0 false 0);
   ("AccountData", TStruct "struct" "" [["free"; "Balance"]; ["reserved"; "Balance"]; ["frozen"; "Balance"]] [] 0 false 0);
   ("Message", TStruct "struct" "" [["data"; "Vec<u8>"]; ["proof"; "Proof"]] [] 0 false 0);
   ("CurrencyId", alias "AssetId")].
(** network/polkadot.json *)
Definition net_polkadot : list (string * tstruct) :=
  [("Address", alias "AccountId");
   ("BlockNumber", alias "U32");
   ("LeasePeriod", alias "BlockNumber");
   ("Weight", alias "u64");
   ("Keys", alias "SessionKeysPolkadot");
   ("DispatchInfo", TStruct "struct" "" [["weight"; "Weight"]; ["class"; "DispatchClass"]; ["paysFee"; "Pays"]] [] 0 false 0);
   ("DispatchResult", TStruct "enum" "" [["Ok"; "Null"]; ["Error"; "DispatchError"]] [] 0 false 0);
   ("Timepoint", TStruct "struct" "" [["height"; "BlockNumber"]; ["index"; "u32"]] [] 0 false 0);
   ("Multisig", TStruct "struct" "" [["when"; "Timepoint"]; ["deposit"; "Balance"]; ["depositor"; "AccountId"]; ["approvals"; "Vec<AccountId>"]] [] 0 false 0);
   ("BalanceLock<Balance, BlockNumber>", TStruct "struct" "" [["id"; "LockIdentifier"]; ["amount"; "Balance"]; ["reasons"; "Reasons"]] [] 0 false 0);
   ("ProxyType", TStruct "enum" "" [] ["Any"; "NonTransfer"; "Governance"; "Staking"; "DeprecatedSudoBalances"; "IdentityJudgement"; "CancelProxy"] 0 false 0);
   ("ReferendumInfo", TStruct "enum" "" [["Ongoing"; "ReferendumStatus"]; ["Finished"; "ReferendumInfoFinished"]] [] 0 false 0);
   ("CompactAssignments#23-?", alias "CompactAssignmentsLatest");
   ("RefCount", alias "u32");
   ("Box<<T as Config>::Call>", alias "Call");
   ("Box<<T as Config<I>>::Proposal>", alias "Proposal");
   ("AccountInfo", alias "AccountInfoWithProviders");
   ("Address#28-?", alias "MultiAddress");
   ("LookupSource#28-?", alias "MultiAddress");
   ("Keys#28-29", TStruct "struct" "" [["grandpa"; "AccountId"]; ["babe"; "AccountId"]; ["im_online"; "AccountId"]; ["para_validator"; "AccountId"]; ["para_assignment"; "AccountId"]; ["authority_discovery"; "AccountId"]] [] 0 false 0);
   ("ValidatorPrefs#28-?", alias "ValidatorPrefsWithBlocked");
   ("Keys#30-?", alias "SessionKeys6");
   ("AccountInfo#30-?", alias "AccountInfoWithTripleRefCount");
   ("AssetInstance", alias "AssetInstanceV0");
   ("MultiAsset", alias "MultiAssetV0");
   ("Xcm", alias "XcmV0");
   ("XcmOrder", alias "XcmOrderV0");
   ("MultiLocation", alias "MultiLocationV0")].
(** network/reef.json *)
Definition net_reef : list (string * tstruct) :=
  [("Weight", alias "u64");
   ("CompactAssignments", alias "CompactAssignmentsLatest");
   ("RefCount", alias "u32");
   ("Address", alias "MultiAddress");
   ("LookupSource", alias "MultiAddress");
   ("AccountInfo", alias "AccountInfoWithProviders");
   ("PalletsOrigin", TStruct "enum" "" [["System"; "SystemOrigin"]; ["Timestamp"; "Null"]; ["RandomnessCollectiveFlip"; "Null"]; ["Balances"; "Null"]; ["Accounts"; "Null"]; ["Currencies"; "Null"]; ["Tokens"; "Null"]; ["Vesting"; "Null"]; ["AcalaTreasury"; "Null"]; ["Utility"; "Null"]; ["Multisig"; "Null"]; ["Recovery"; "Null"]; ["Proxy"; "Null"]; ["Scheduler"; "Null"]; ["Indices"; "Null"]; ["GraduallyUpdate"; "Null"]; ["Authorship"; "Null"]; ["Babe"; "Null"]; ["Grandpa"; "Null"]; ["Staking"; "Null"]; ["Session"; "Null"]; ["Historical"; "Null"]; ["GeneralCouncil"; "CollectiveOrigin"]; ["GeneralCouncilMembership"; "Null"]; ["HonzonCouncil"; "CollectiveOrigin"]; ["HonzonCouncilMembership"; "Null"]; ["HomaCouncil"; "CollectiveOrigin"]; ["HomaCouncilMembership"; "Null"]; ["TechnicalCommittee"; "CollectiveOrigin"]; ["TechnicalCommitteeMembership"; "Null"]; ["Authority"; "DelayedOrigin"]; ["ElectionsPhragmen"; "Null"]; ["AcalaOracle"; "Null"]; ["BandOracle"; "Null"]; ["OperatorMembershipAcala"; "Null"]; ["OperatorMembershipBand"; "Null"]; ["Auction"; "Null"]; ["Rewards"; "Null"]; ["OrmlNFT"; "Null"]; ["Prices"; "Null"]; ["Dex"; "Null"]; ["AuctionManager"; "Null"]; ["Loans"; "Null"]; ["Honzon"; "Null"]; ["CdpTreasury"; "Null"]; ["CdpEngine"; "Null"]; ["EmergencyShutdown"; "Null"]; ["Homa"; "Null"]; ["NomineesElection"; "Null"]; ["StakingPool"; "Null"]; ["PolkadotBridge"; "Null"]; ["Incentives"; "Null"]; ["AirDrop"; "Null"]; ["NFT"; "Null"]; ["RenVmBridge"; "Null"]; ["Contracts"; "Null"]; ["EVM"; "Null"]; ["Sudo"; "Null"]; ["TransactionPayment"; "Null"]] [] 0 false 0);
   ("ChainId", TStruct "enum" "" [["RelayChain"; "Null"]; ["ParaChain"; "ParaId"]] [] 0 false 0);
   ("AuctionInfo", TStruct "struct" "" [["bid"; "Option<(AccountId, Balance)>"]; ["start"; "BlockNumber"]; ["end"; "Option<BlockNumber>"]] [] 0 false 0);
   ("AuctionId", alias "u32");
   ("OrmlBalanceLock", TStruct "struct" "" [["amount"; "Balance"]; ["id"; "LockIdentifier"]] [] 0 false 0);
   ("VestingScheduleOf", alias "OrmlVestingSchedule");
   ("PalletBalanceOf", alias "Balance");
   ("GraduallyUpdate", TStruct "struct" "" [["key"; "StorageKey"]; ["targetValue"; "StorageValue"]; ["perBlock"; "StorageValue"]] [] 0 false 0);
   ("TimestampedValueOf", alias "TimestampedValue");
   ("Ratio", alias "FixedU128");
   ("StorageKeyBytes", alias "Vec<u8>");
   ("XCurrencyId", TStruct "struct" "" [["chainId"; "ChainId"]; ["currencyId"; "Vec<u8>"]] [] 0 false 0);
   ("EvmAddress", alias "H160");
   ("EstimateResourcesResponse", TStruct "struct" "" [["gas"; "u256"]; ["storage"; "i32"]; ["weightFee"; "u256"]] [] 0 false 0);
   ("AuthoritysOriginId", TStruct "enum" "" [] ["Root"] 0 false 0);
   ("DelayedDispatchTime", TStruct "enum" "" [["At"; "BlockNumber"]; ["After"; "BlockNumber"]] [] 0 false 0);
   ("Price", alias "FixedU128");
   ("EvmContractInfo", TStruct "struct" "" [["codeHash"; "H256"]; ["maintainer"; "H160"]; ["deployed"; "bool"]] [] 0 false 0);
   ("TradingPair", alias "(CurrencyId,  CurrencyId)");
   ("Rate", alias "FixedU128");
   ("DispatchTime", TStruct "enum" "" [["At"; "BlockNumber"]; ["After"; "BlockNumber"]] [] 0 false 0);
   ("CurrencyIdOf", alias "CurrencyId");
   ("AmountOf", alias "Amount");
   ("OrderedSet", alias "Vec<AccountId>");
   ("RpcDataProviderId", alias "Text");
   ("TokenSymbol", TStruct "enum" "" [["REEF"; "0"]; ["RUSD"; "1"]] [] 0 false 0);
   ("ScheduleTaskIndex", alias "u32");
   ("PoolInfo", TStruct "struct" "" [["totalShares"; "Compact<Share>"]; ["totalRewards"; "Compact<Balance>"]; ["totalWithdrawnRewards"; "Compact<Balance>"]] [] 0 false 0);
   ("CommitmentOf", TStruct "struct" "" [["duration"; "LockDuration"]; ["amount"; "BalanceOf"]; ["candidate"; "AccountId"]] [] 0 false 0);
   ("StorageValueBytes", alias "Vec<u8>");
   ("EvmAccountInfo", TStruct "struct" "" [["nonce"; "Index"]; ["contractInfo"; "Option<EvmContractInfo>"]; ["developerDeposit"; "Option<Balance>"]] [] 0 false 0);
   ("CurrencyId", TStruct "enum" "" [["Token"; "TokenSymbol"]; ["DEXShare"; "(TokenSymbol, TokenSymbol)"]; ["ERC20"; "EvmAddress"]] [] 0 false 0);
   ("LockDuration", TStruct "enum" "" [] ["OneMonth"; "OneYear"; "TenYears"] 0 false 0);
   ("CallRequest", TStruct "struct" "" [["from"; "Option<H160>"]; ["to"; "Option<H160>"]; ["gasLimit"; "Option<u32>"]; ["storageLimit"; "Option<u32>"]; ["value"; "Option<U128>"]; ["data"; "Option<Bytes>"]] [] 0 false 0);
   ("Amount", alias "i128");
   ("Era", TStruct "struct" "" [["index"; "u32"]; ["start"; "BlockNumber"]] [] 0 false 0);
   ("StorageValue", alias "Vec<u8>");
   ("CallOf", alias "Call");
   ("OrmlAccountData", TStruct "struct" "" [["free"; "Balance"]; ["frozen"; "Balance"]; ["reserved"; "Balance"]] [] 0 false 0);
   ("DispatchId", alias "u32");
   ("PoolId", TStruct "enum" "" [["Loans"; "CurrencyId"]; ["DexIncentive"; "CurrencyId"]; ["DexSaving"; "CurrencyId"]; ["Homa"; "Null"]] [] 0 false 0);
   ("DelayedOrigin", TStruct "struct" "" [["delay"; "BlockNumber"]; ["origin"; "PalletsOrigin"]] [] 0 false 0);
   ("AuctionIdOf", alias "AuctionId");
   ("ExchangeRate", alias "FixedU128");
   ("Share", alias "u128");
   ("DataProviderId", alias "u8");
   ("AsOriginId", alias "AuthoritysOriginId");
   ("Keys", alias "SessionKeys2");
   ("OracleKey", alias "CurrencyId");
   ("CodeInfo", TStruct "struct" "" [["codeSize"; "u32"]; ["refCount"; "u32"]] [] 0 false 0);
   ("OracleValue", alias "Price");
   ("TimestampedValue", TStruct "struct" "" [["value"; "OracleValue"]; ["timestamp"; "Moment"]] [] 0 false 0);
   ("OrmlVestingSchedule", TStruct "struct" "" [["start"; "BlockNumber"]; ["period"; "BlockNumber"]; ["periodCount"; "u32"]; ["perPeriod"; "Compact<Balance>"]] [] 0 false 0)].
(** network/robonomics-test.json *)
Definition net_robonomics_test : list (string * tstruct) :=
  [("Weight", alias "u64");
   ("CompactAssignments", alias "CompactAssignmentsLatest");
   ("RefCount", alias "u32");
   ("Address", alias "MultiAddress");
   ("LookupSource", alias "MultiAddress");
   ("AccountInfo", alias "AccountInfoWithTripleRefCount");
   ("LaunchParameter", alias "bool");
   ("Lighthouse", alias "AccountId");
   ("LiabilityIndex", alias "u32");
   ("RingBufferItem", alias "(Compact<Moment>,Record)");
   ("ReportFor", alias "Report");
   ("Economics", alias "NULL");
   ("Agreement", TStruct "struct" "" [["technics"; "Technics"]; ["economics"; "Economics"]; ["promisee"; "AccountId"]; ["promisor"; "AccountId"]; ["promisee_signature"; "MultiSignature"]; ["promisor_signature"; "MultiSignature"]] [] 0 false 0);
   ("RingBufferIndex", TStruct "struct" "" [["start"; "u64"]; ["end"; "u64"]] [] 0 false 0);
   ("Record", alias "Vec<u8>");
   ("Technics", alias "Vec<u8>");
   ("Report", TStruct "struct" "" [["index"; "LiabilityIndex"]; ["sender"; "AccountId"]; ["payload"; "Vec<u8>"]; ["signature"; "MultiSignature"]] [] 0 false 0);
   ("Parameter", alias "bool");
   ("Moment", alias "u64");
   ("StakerLedger", TStruct "struct" "" [["stash"; "AccountId"]; ["total"; "Compact<Balance>"]; ["active"; "Compact<Balance>"]; ["unlocking"; "Vec<UnlockChunk>"]; ["claimed_rewards"; "Moment"]] [] 0 false 0);
   ("UnlockChunk", TStruct "struct" "" [["value"; "Compact<Balance>"]; ["moment"; "Compact<Moment>"]] [] 0 false 0)].
(** network/rococo.json *)
Definition net_rococo : list (string * tstruct) :=
  [("Weight", alias "u64");
   ("CompactAssignments", alias "CompactAssignmentsLatest");
   ("RefCount", alias "u32");
   ("DispatchResult", TStruct "enum" "" [["Ok"; "Null"]; ["Error"; "DispatchError"]] [] 0 false 0);
   ("Address", alias "MultiAddress");
   ("LookupSource", alias "MultiAddress");
   ("Box<<T as Config>::Call>", alias "Call");
   ("Keys#0-12", TStruct "struct" "" [["grandpa"; "AccountId"]; ["babe"; "AccountId"]; ["im_online"; "AccountId"]; ["authority_discovery"; "AccountId"]; ["parachains"; "AccountId"]] [] 0 false 0);
   ("Keys", alias "SessionKeys7B");
   ("Proposal<AccountId, ValidatorId, BalanceOf>", alias "ParachainProposal");
   ("FullIdentification", alias "NULL");
   ("AccountInfo", alias "AccountInfoWithTripleRefCount");
   ("AuctionIndex", alias "u32");
   ("slots::AuctionIndex", alias "u32");
   ("auctions::AuctionIndex", alias "u32");
   ("FundIndex", alias "u32");
   ("LastContribution<BlockNumber>", TStruct "enum" "" [["Never"; "Null"]; ["PreEnding"; "slots::AuctionIndex"]; ["Ending"; "BlockNumber"]] [] 0 false 0);
   ("TrieIndex", alias "u32");
   ("(LeasePeriodOf, BlockNumber)", TStruct "struct" "" [["lease_index"; "LeasePeriodOf"]; ["ending_block"; "BlockNumber"]] [] 0 false 0);
   ("HeadData", alias "Bytes");
   ("ValidationCode", alias "Bytes");
   ("ParaGenesisArgs", TStruct "struct" "" [["genesis_head"; "HeadData"]; ["validation_code"; "ValidationCode"]; ["parachain"; "bool"]] [] 0 false 0);
   ("ParaInfo<AccountId, BalanceOf>", alias "ParaInfo");
   ("(AccountId, BalanceOf)", alias "ParaInfo");
   ("Vec<Option<(AccountId, BalanceOf)>>", alias "Vec<Option<ParaInfo>>");
   ("WinningData", alias "[Option<WinnerData>; 36]");
   ("WinnerData", TStruct "struct" "" [["accountId"; "AccountId"]; ["paraId"; "ParaId"]; ["amount"; "Balance"]] [] 0 false 0);
   ("ValidatorIndex", alias "u32");
   ("CompactAssignments#9010-?", alias "CompactAssignmentsWith24");
   ("AssetInstance", alias "AssetInstanceV0");
   ("MultiAsset", alias "MultiAssetV0");
   ("Xcm", alias "XcmV0");
   ("XcmOrder", alias "XcmOrderV0");
   ("MultiLocation", alias "MultiLocationV0")].
(** network/sakura.json *)
Definition net_sakura : list (string * tstruct) :=
  [("ExchangeInfo", TStruct "struct" "" [["balance"; "Balance"]; ["routes"; "Vec<CurrencyTypeEnum>"]] [] 0 false 0);
   ("Ratio", alias "u128");
   ("CurrencyId", TStruct "enum" "" [] ["CLV"; "CUSDT"; "DOT"; "CETH"] 0 false 0);
   ("EcdsaSignature", alias "[u8; 65]");
   ("Price", alias "FixedU128");
   ("PoolId", TStruct "enum" "" [["Swap"; "u64"]] [] 0 false 0);
   ("Share", alias "u128");
   ("Rate", alias "u128");
   ("CurrencyTypeEnum", TStruct "enum" "" [] ["CLV"; "CUSDT"; "DOT"; "CETH"] 0 false 0);
   ("CurrencyIdOf", alias "CurrencyId");
   ("Amount", alias "i128");
   ("EvmAddress", alias "H160");
   ("CurrencyInfo", TStruct "struct" "" [["id"; "CurrencyId"]; ["name"; "CurrencyTypeEnum"]] [] 0 false 0);
   ("PairKey", alias "u64");
   ("AmountOf", alias "Amount");
   ("OracleKey", alias "CurrencyId");
   ("Balance", alias "u128");
   ("Weight", alias "u64");
   ("CompactAssignments", alias "CompactAssignmentsLatest");
   ("RefCount", alias "u32");
   ("DispatchResult", TStruct "enum" "" [["Ok"; "Null"]; ["Error"; "DispatchError"]] [] 0 false 0);
   ("TransactionRecoveryId", alias "U64");
   ("TransactionSignature", TStruct "struct" "" [["v"; "TransactionRecoveryId"]; ["r"; "H256"]; ["s"; "H256"]] [] 0 false 0);
   ("Address", alias "MultiAddress");
   ("LookupSource", alias "MultiAddress");
   ("AccountInfo", alias "AccountInfoWithProviders");
   ("Keys", alias "(AccountId, AccountId, AccountId, AccountId)");
   ("FixedU128", alias "u128");
   ("BridgeNetworks", TStruct "enum" "" [] ["BSC"; "Ethereum"] 0 false 0);
   ("EthereumTxHash", alias "H256")].
(** network/shibuya.json *)
Definition net_shibuya : list (string * tstruct) :=
  [("Weight", alias "u64");
   ("CompactAssignments", alias "CompactAssignmentsLatest");
   ("RefCount", alias "u32");
   ("Address", alias "MultiAddress");
   ("LookupSource", alias "MultiAddress");
   ("AccountInfo", alias "AccountInfoWithTripleRefCount");
   ("Keys", alias "SessionKeys1")].
(** network/shiden.json *)
Definition net_shiden : list (string * tstruct) :=
  [("Weight", alias "u64");
   ("CompactAssignments", alias "CompactAssignmentsLatest");
   ("RefCount", alias "u32");
   ("Address", alias "MultiAddress");
   ("LookupSource", alias "MultiAddress");
   ("AccountInfo", alias "AccountInfoWithTripleRefCount");
   ("Keys", alias "SessionKeys1")].
(** network/sora.json *)
Definition net_sora : list (string * tstruct) :=
  [("Weight", alias "u64");
   ("CompactAssignments", alias "CompactAssignmentsLatest");
   ("AccountInfo", alias "AccountInfoWithProviders");
   ("Sr25519Public", alias "[u8; 32]");
   ("SessionKeys2", alias "(Sr25519Public, Sr25519Public)");
   ("SessionKeys3", alias "(Sr25519Public, Sr25519Public, Sr25519Public)");
   ("Address", alias "AccountId");
   ("LookupSource", alias "AccountId");
   ("Amount", alias "i128");
   ("AmountOf", alias "Amount");
   ("AssetId32", alias "[u8; 32]");
   ("AssetId", alias "AssetId32");
   ("AssetIdOf", alias "AssetId");
   ("MultiChainHeight", TStruct "enum" "" [["Thischain"; "BlockNumber"]; ["Sidechain"; "u64"]] [] 0 false 0);
   ("BridgeTimepoint", TStruct "struct" "" [["height"; "MultiChainHeight"]; ["index"; "u32"]] [] 0 false 0);
   ("AssetInfo", TStruct "struct" "" [["asset_id"; "AssetId"]; ["symbol"; "AssetSymbolStr"]; ["name"; "AssetNameStr"]; ["precision"; "u8"]; ["is_mintable"; "bool"]] [] 0 false 0);
   ("AssetKind", TStruct "enum" "" [] ["Thischain"; "Sidechain"; "SidechainOwned"] 0 false 0);
   ("AssetName", alias "Vec<u8>");
   ("AssetNameStr", alias "String");
   ("AssetRecord", alias "Null");
   ("AssetSymbol", alias "Vec<u8>");
   ("AssetSymbolStr", alias "String");
   ("Balance", alias "u128");
   ("BalanceInfo", TStruct "struct" "" [["balance"; "Balance"]] [] 0 false 0);
   ("BalancePrecision", alias "u8");
   ("BasisPoints", alias "u16");
   ("BridgeNetworkId", alias "u32");
   ("NetworkId", alias "BridgeNetworkId");
   ("BridgeStatus", TStruct "enum" "" [] ["Initialized"; "Migrating"] 0 false 0);
   ("ChangePeersContract", TStruct "enum" "" [] ["XOR"; "VAL"] 0 false 0);
   ("ChargeFeeInfo", TStruct "struct" "" [["tip"; "Compact<Balance>"]; ["target_asset_id"; "AssetId"]] [] 0 false 0);
   ("CurrencyId", alias "AssetId");
   ("CurrencyIdEncoded", TStruct "enum" "" [["AssetId"; "H256"]; ["TokenAddress"; "H160"]] [] 0 false 0);
   ("CurrencyIdOf", alias "AssetId");
   ("T::AccountId", alias "AccountId");
   ("CustomInfo", TStruct "struct" "" [["amount"; "Balance"]] [] 0 false 0);
   ("DEXId", alias "u32");
   ("DEXIdOf", alias "DEXId");
   ("DEXInfo", TStruct "struct" "" [["base_asset_id"; "AssetId"]; ["default_fee"; "BasisPoints"]; ["default_protocol_fee"; "BasisPoints"]] [] 0 false 0);
   ("DispatchErrorWithPostInfoTPostDispatchInfo", TStruct "struct" "" [["post_info"; "PostDispatchInfo"]; ["error"; "DispatchError"]] [] 0 false 0);
   ("DispatchResultWithPostInfo", TStruct "enum" "" [["Ok"; "PostDispatchInfo"]; ["Err"; "DispatchErrorWithPostInfoTPostDispatchInfo"]] [] 0 false 0);
   ("DistributionAccounts", alias "Null");
   ("Duration", alias "Null");
   ("EthPeersSync", TStruct "struct" "" [["is_bridge_ready"; "bool"]; ["is_xor_ready"; "bool"]; ["is_val_ready"; "bool"]] [] 0 false 0);
   ("Farm", alias "Null");
   ("FarmId", alias "u64");
   ("Farmer", alias "Null");
   ("FilterMode", TStruct "enum" "" [] ["Disabled"; "ForbidSelected"; "AllowSelected"] 0 false 0);
   ("Fixed", alias "FixedU128");
   ("FixedBytes", alias "Vec<u8>");
   ("HolderId", alias "AccountId");
   ("IncomingAddToken", TStruct "struct" "" [["token_address"; "EthereumAddress"]; ["asset_id"; "AssetId"]; ["precision"; "BalancePrecision"]; ["symbol"; "AssetSymbol"]; ["name"; "AssetName"]; ["author"; "AccountId"]; ["tx_hash"; "H256"]; ["at_height"; "u64"]; ["timepoint"; "Timepoint"]; ["network_id"; "BridgeNetworkId"]] [] 0 false 0);
   ("IncomingCancelOutgoingRequest", TStruct "struct" "" [["outgoing_request"; "OutgoingRequest"]; ["outgoing_request_hash"; "H256"]; ["initial_request_hash"; "H256"]; ["tx_input"; "Vec<u8>"]; ["author"; "AccountId"]; ["tx_hash"; "H256"]; ["at_height"; "u64"]; ["timepoint"; "Timepoint"]; ["network_id"; "BridgeNetworkId"]] [] 0 false 0);
   ("IncomingChangePeers", TStruct "struct" "" [["peer_account_id"; "AccountId"]; ["peer_address"; "EthereumAddress"]; ["added"; "bool"]; ["author"; "AccountId"]; ["tx_hash"; "H256"]; ["at_height"; "u64"]; ["timepoint"; "Timepoint"]; ["network_id"; "BridgeNetworkId"]] [] 0 false 0);
   ("IncomingChangePeersCompat", TStruct "struct" "" [["peer_account_id"; "AccountId"]; ["peer_address"; "EthereumAddress"]; ["added"; "bool"]; ["contract"; "ChangePeersContract"]; ["author"; "AccountId"]; ["tx_hash"; "H256"]; ["at_height"; "u64"]; ["timepoint"; "Timepoint"]; ["network_id"; "BridgeNetworkId"]] [] 0 false 0);
   ("IncomingMarkAsDoneRequest", TStruct "struct" "" [["outgoing_request_hash"; "H256"]; ["initial_request_hash"; "H256"]; ["author"; "AccountId"]; ["at_height"; "u64"]; ["timepoint"; "Timepoint"]; ["network_id"; "BridgeNetworkId"]] [] 0 false 0);
   ("IncomingMetaRequestKind", TStruct "enum" "" [] ["CancelOutgoingRequest"; "MarkAsDone"] 0 false 0);
   ("IncomingMigrate", TStruct "struct" "" [["new_contract_address"; "EthereumAddress"]; ["author"; "AccountId"]; ["tx_hash"; "H256"]; ["at_height"; "u64"]; ["timepoint"; "Timepoint"]; ["network_id"; "BridgeNetworkId"]] [] 0 false 0);
   ("IncomingPrepareForMigration", TStruct "struct" "" [["author"; "AccountId"]; ["tx_hash"; "H256"]; ["at_height"; "u64"]; ["timepoint"; "Timepoint"]; ["network_id"; "BridgeNetworkId"]] [] 0 false 0);
   ("IncomingRequest", TStruct "enum" "" [["Transfer"; "IncomingTransfer"]; ["AddToken"; "IncomingAddToken"]; ["ChangePeers"; "IncomingChangePeers"]; ["CancelOutgoingRequest"; "IncomingCancelOutgoingRequest"]; ["MarkAsDone"; "IncomingMarkAsDoneRequest"]; ["PrepareForMigration"; "IncomingPrepareForMigration"]; ["Migrate"; "IncomingMigrate"]] [] 0 false 0);
   ("IncomingRequestKind", TStruct "enum" "" [["Transaction"; "IncomingTransactionRequestKind"]; ["Meta"; "IncomingMetaRequestKind"]] [] 0 false 0);
   ("IncomingTransactionRequestKind", TStruct "enum" "" [] ["Transfer"; "AddAsset"; "AddPeer"; "RemovePeer"; "PrepareForMigration"; "Migrate"; "AddPeerCompat"; "RemovePeerCompat"; "TransferXOR"] 0 false 0);
   ("IncomingTransfer", TStruct "struct" "" [["from"; "EthereumAddress"]; ["to"; "AccountId"]; ["asset_id"; "AssetId"]; ["asset_kind"; "AssetKind"]; ["amount"; "Balance"]; ["author"; "AccountId"]; ["tx_hash"; "H256"]; ["at_height"; "u64"]; ["timepoint"; "Timepoint"]; ["network_id"; "BridgeNetworkId"]; ["should_take_fee"; "bool"]] [] 0 false 0);
   ("Keys", alias "SessionKeys3");
   ("LiquiditySourceType", TStruct "enum" "" [] ["XYKPool"; "BondingCurvePool"; "MulticollateralBondingCurvePool"; "MockPool"; "MockPool2"; "MockPool3"; "MockPool4"] 0 false 0);
   ("LoadIncomingMetaRequest", TStruct "struct" "" [["author"; "AccountId"]; ["hash"; "H256"]; ["timepoint"; "Timepoint"]; ["kind"; "IncomingMetaRequestKind"]; ["network_id"; "BridgeNetworkId"]] [] 0 false 0);
   ("LoadIncomingRequest", TStruct "enum" "" [["Transaction"; "LoadIncomingTransactionRequest"]; ["Meta"; "(LoadIncomingMetaRequest, H256)"]] [] 0 false 0);
   ("LoadIncomingTransactionRequest", TStruct "struct" "" [["author"; "AccountId"]; ["hash"; "H256"]; ["timepoint"; "Timepoint"]; ["kind"; "IncomingTransactionRequestKind"]; ["network_id"; "BridgeNetworkId"]] [] 0 false 0);
   ("Mode", TStruct "enum" "" [] ["Permit"; "Forbid"] 0 false 0);
   ("MultiCurrencyBalance", alias "Balance");
   ("MultiCurrencyBalanceOf", alias "MultiCurrencyBalance");
   ("MultisigAccount", alias "Null");
   ("OffchainRequest", TStruct "enum" "" [["Outgoing"; "(OutgoingRequest, H256)"]; ["LoadIncoming"; "LoadIncomingRequest"]; ["Incoming"; "(IncomingRequest, H256)"]] [] 0 false 0);
   ("OracleKey", alias "AssetId");
   ("OutgoingAddAsset", TStruct "struct" "" [["author"; "AccountId"]; ["asset_id"; "AssetId"]; ["supply"; "Balance"]; ["nonce"; "Index"]; ["network_id"; "BridgeNetworkId"]; ["timepoint"; "Timepoint"]] [] 0 false 0);
   ("OutgoingAddAssetEncoded", TStruct "struct" "" [["name"; "String"]; ["symbol"; "String"]; ["decimal"; "u8"]; ["supply"; "U256"]; ["sidechain_asset_id"; "FixedBytes"]; ["hash"; "H256"]; ["network_id"; "H256"]; ["raw"; "Vec<u8>"]] [] 0 false 0);
   ("OutgoingAddPeer", TStruct "struct" "" [["author"; "AccountId"]; ["peer_address"; "EthereumAddress"]; ["peer_account_id"; "AccountId"]; ["nonce"; "Index"]; ["network_id"; "BridgeNetworkId"]; ["timepoint"; "Timepoint"]] [] 0 false 0);
   ("OutgoingAddPeerCompat", TStruct "struct" "" [["author"; "AccountId"]; ["peer_address"; "EthereumAddress"]; ["peer_account_id"; "AccountId"]; ["nonce"; "Index"]; ["network_id"; "BridgeNetworkId"]; ["timepoint"; "Timepoint"]] [] 0 false 0);
   ("OutgoingAddPeerEncoded", TStruct "struct" "" [["peer_address"; "EthereumAddress"]; ["tx_hash"; "H256"]; ["network_id"; "H256"]; ["raw"; "Vec<u8>"]] [] 0 false 0);
   ("OutgoingAddToken", TStruct "struct" "" [["author"; "AccountId"]; ["token_address"; "EthereumAddress"]; ["ticker"; "String"]; ["name"; "String"]; ["decimals"; "u8"]; ["nonce"; "Index"]; ["network_id"; "BridgeNetworkId"]; ["timepoint"; "Timepoint"]] [] 0 false 0);
   ("OutgoingAddTokenEncoded", TStruct "struct" "" [["token_address"; "EthereumAddress"]; ["ticker"; "String"]; ["name"; "String"]; ["decimals"; "u8"]; ["hash"; "H256"]; ["network_id"; "H256"]; ["raw"; "Vec<u8>"]] [] 0 false 0);
   ("OutgoingMigrate", TStruct "struct" "" [["author"; "AccountId"]; ["new_contract_address"; "EthereumAddress"]; ["erc20_native_tokens"; "Vec<EthereumAddress>"]; ["nonce"; "Index"]; ["network_id"; "BridgeNetworkId"]; ["timepoint"; "Timepoint"]] [] 0 false 0);
   ("OutgoingMigrateEncoded", TStruct "struct" "" [["this_contract_address"; "EthereumAddress"]; ["tx_hash"; "H256"]; ["new_contract_address"; "EthereumAddress"]; ["erc20_native_tokens"; "Vec<EthereumAddress>"]; ["network_id"; "H256"]; ["raw"; "Vec<u8>"]] [] 0 false 0);
   ("OutgoingPrepareForMigration", TStruct "struct" "" [["author"; "AccountId"]; ["nonce"; "Index"]; ["network_id"; "BridgeNetworkId"]; ["timepoint"; "Timepoint"]] [] 0 false 0);
   ("OutgoingPrepareForMigrationEncoded", TStruct "struct" "" [["this_contract_address"; "EthereumAddress"]; ["tx_hash"; "H256"]; ["network_id"; "H256"]; ["raw"; "Vec<u8>"]] [] 0 false 0);
   ("OutgoingRemovePeer", TStruct "struct" "" [["author"; "AccountId"]; ["peer_account_id"; "AccountId"]; ["peer_address"; "EthereumAddress"]; ["nonce"; "Index"]; ["network_id"; "BridgeNetworkId"]; ["timepoint"; "Timepoint"]] [] 0 false 0);
   ("OutgoingRemovePeerCompat", TStruct "struct" "" [["author"; "AccountId"]; ["peer_account_id"; "AccountId"]; ["peer_address"; "EthereumAddress"]; ["nonce"; "Index"]; ["network_id"; "BridgeNetworkId"]; ["timepoint"; "Timepoint"]] [] 0 false 0);
   ("OutgoingRemovePeerEncoded", TStruct "struct" "" [["peer_address"; "EthereumAddress"]; ["tx_hash"; "H256"]; ["network_id"; "H256"]; ["raw"; "Vec<u8>"]] [] 0 false 0);
   ("OutgoingRequest", TStruct "enum" "" [["Transfer"; "OutgoingTransfer"]; ["AddAsset"; "OutgoingAddAsset"]; ["AddToken"; "OutgoingAddToken"]; ["AddPeer"; "OutgoingAddPeer"]; ["RemovePeer"; "OutgoingRemovePeer"]; ["PrepareForMigration"; "OutgoingPrepareForMigration"]; ["Migrate"; "OutgoingMigrate"]] [] 0 false 0);
   ("OutgoingRequestEncoded", TStruct "enum" "" [["Transfer"; "OutgoingTransferEncoded"]; ["AddAsset"; "OutgoingAddAssetEncoded"]; ["AddToken"; "OutgoingAddTokenEncoded"]; ["AddPeer"; "OutgoingAddPeerEncoded"]; ["RemovePeer"; "OutgoingRemovePeerEncoded"]; ["PrepareForMigration"; "OutgoingPrepareForMigrationEncoded"]; ["Migrate"; "OutgoingMigrateEncoded"]] [] 0 false 0);
   ("OutgoingTransfer", TStruct "struct" "" [["from"; "AccountId"]; ["to"; "EthereumAddress"]; ["asset_id"; "AssetId"]; ["amount"; "Balance"]; ["nonce"; "Index"]; ["network_id"; "BridgeNetworkId"]; ["timepoint"; "Timepoint"]] [] 0 false 0);
   ("OutgoingTransferEncoded", TStruct "struct" "" [["currency_id"; "CurrencyIdEncoded"]; ["amount"; "U256"]; ["to"; "EthereumAddress"]; ["from"; "EthereumAddress"]; ["tx_hash"; "H256"]; ["network_id"; "H256"]; ["raw"; "Vec<u8>"]] [] 0 false 0);
   ("OwnerId", alias "AccountId");
   ("PendingMultisigAccount", alias "Null");
   ("Permission", alias "Null");
   ("PermissionId", alias "u32");
   ("PostDispatchInfo", TStruct "struct" "" [["actual_weight"; "Option<Weight>"]; ["pays_fee"; "Pays"]] [] 0 false 0);
   ("Public", alias "[u8; 33]");
   ("QuoteAmount", TStruct "enum" "" [["WithDesiredInput"; "QuoteWithDesiredInput"]; ["WithDesiredOutput"; "QuoteWithDesiredOutput"]] [] 0 false 0);
   ("QuoteWithDesiredInput", TStruct "struct" "" [["desired_amount_in"; "Balance"]] [] 0 false 0);
   ("QuoteWithDesiredOutput", TStruct "struct" "" [["desired_amount_out"; "Balance"]] [] 0 false 0);
   ("RefCount", alias "u32");
   ("RequestStatus", TStruct "enum" "" [] ["Pending"; "Frozen"; "ApprovalsReady"; "Failed"; "Done"] 0 false 0);
   ("Result<IncomingRequest, DispatchError>", TStruct "enum" "" [["Ok"; "IncomingRequest"]; ["Err"; "DispatchError"]] [] 0 false 0);
   ("Scope", TStruct "enum" "" [["Limited"; "H512"]; ["Unlimited"; "Null"]] [] 0 false 0);
   ("SignatureParams", TStruct "struct" "" [["r"; "[u8; 32]"]; ["s"; "[u8; 32]"]; ["v"; "u8"]] [] 0 false 0);
   ("BTreeSet<SignatureParams>", alias "Vec<SignatureParams>");
   ("BTreeSet<H256>", alias "Vec<H256>");
   ("BTreeSet<AssetId>", alias "Vec<AssetId>");
   ("BTreeSet<AccountId>", alias "Vec<AccountId>");
   ("BTreeSet<LiquiditySourceType>", alias "Vec<LiquiditySourceType>");
   ("ecdsa::Public", alias "[u8; 33]");
   ("SmoothPriceState", alias "Null");
   ("SwapAction", alias "Null");
   ("SwapAmount", TStruct "enum" "" [["WithDesiredInput"; "SwapWithDesiredInput"]; ["WithDesiredOutput"; "SwapWithDesiredOutput"]] [] 0 false 0);
   ("SwapOutcome", TStruct "struct" "" [["amount"; "Balance"]; ["fee"; "Balance"]] [] 0 false 0);
   ("SwapOutcomeInfo", TStruct "struct" "" [["amount"; "Balance"]; ["fee"; "Balance"]] [] 0 false 0);
   ("SwapVariant", TStruct "enum" "" [] ["WithDesiredInput"; "WithDesiredOutput"] 0 false 0);
   ("SwapWithDesiredInput", TStruct "struct" "" [["desired_amount_in"; "Balance"]; ["min_amount_out"; "Balance"]] [] 0 false 0);
   ("SwapWithDesiredOutput", TStruct "struct" "" [["desired_amount_out"; "Balance"]; ["max_amount_in"; "Balance"]] [] 0 false 0);
   ("TAssetBalance", alias "Balance");
   ("TP", alias "TradingPair");
   ("TechAccountId", TStruct "enum" "" [["Pure"; "(DEXId, TechPurpose)"]; ["Generic"; "(Vec<u8>, Vec<u8>)"]; ["Wrapped"; "AccountId"]; ["WrappedRepr"; "AccountId"]] [] 0 false 0);
   ("TechAccountIdPrimitive", alias "Null");
   ("TechAmount", alias "Amount");
   ("TechAssetId", alias "Null");
   ("TechBalance", alias "Balance");
   ("TechPurpose", TStruct "enum" "" [["FeeCollector"; "Null"]; ["LiquidityKeeper"; "TradingPair"]; ["Identifier"; "Vec<u8>"]] [] 0 false 0);
   ("TradingPair", TStruct "struct" "" [["base_asset_id"; "AssetId"]; ["target_asset_id"; "AssetId"]] [] 0 false 0);
   ("ValidationFunction", alias "Null");
   ("RewardReason#0-3", TStruct "enum" "" [] ["Unspecified"; "BuyOnBondingCurve"] 0 false 0);
   ("BTreeMap<RewardReason,Balance>", alias "Vec<(RewardReason,Balance)>");
   ("RewardInfo", TStruct "struct" "" [["limit"; "Balance"]; ["total_available"; "Balance"]; ["rewards"; "BTreeMap<RewardReason,Balance>"]] [] 0 false 0);
   ("StorageVersion", alias "Null");
   ("MarketMakerInfo", TStruct "struct" "" [["count"; "u32"]; ["volume"; "Balance"]] [] 0 false 0);
   ("EthBridgeStorageVersion", TStruct "enum" "" [] ["V1"; "V2RemovePendingTransfers"] 0 false 0);
   ("RewardReason", TStruct "enum" "" [] ["Unspecified"; "BuyOnBondingCurve"; "LiquidityProvisionFarming"; "MarketMakerVolume"] 0 false 0);
   ("AccountIdOf", alias "AccountId")].
(** network/spiritnet.json *)
Definition net_spiritnet : list (string * tstruct) :=
  [("ChainId", TStruct "enum" "" [["RelayChain"; "Null"]; ["ParaChain"; "ParaId"]] [] 0 false 0);
   ("XCurrencyId", TStruct "struct" "" [["chainId"; "ChainId"]; ["currencyId"; "Vec<u8>"]] [] 0 false 0);
   ("CurrencyId", TStruct "enum" "" [["DOT"; ""]; ["KSM"; ""]; ["KILT"; ""]] [] 0 false 0);
   ("DidRecord", TStruct "struct" "" [["signKey"; "Hash"]; ["boxKey"; "Hash"]; ["docRef"; "Option<Vec<u8>>"]] [] 0 false 0);
   ("PublicBoxKey", alias "Hash");
   ("DelegationNodeId", alias "Hash");
   ("Signature", alias "MultiSignature");
   ("Attestation", TStruct "struct" "" [["ctypeHash"; "Hash"]; ["attester"; "AccountId"]; ["delegationId"; "Option<DelegationNodeId>"]; ["revoked"; "bool"]] [] 0 false 0);
   ("XcmError", TStruct "enum" "" [["Undefined"; ""]; ["Unimplemented"; ""]; ["UnhandledXcmVersion"; ""]; ["UnhandledXcmMessage"; ""]; ["UnhandledEffect"; ""]; ["EscalationOfPrivilege"; ""]; ["UntrustedReserveLocation"; ""]; ["UntrustedTeleportLocation"; ""]; ["DestinationBufferOverflow"; ""]; ["CannotReachDestination"; ""]; ["MultiLocationFull"; ""]; ["FailedToDecode"; ""]; ["BadOrigin"; ""]; ["ExceedsMaxMessageSize"; ""]; ["FailedToTransactAsset"; ""]] [] 0 false 0);
   ("ReferendumInfo", TStruct "enum" "" [["Ongoing"; "ReferendumStatus"]; ["Finished"; "ReferendumInfoFinished"]] [] 0 false 0);
   ("PublicSigningKey", alias "Hash");
   ("CurrencyIdOf", alias "CurrencyId");
   ("KeyIdOf", alias "Hash");
   ("DidDeletionOperation", TStruct "struct" "" [["did"; "DidIdentifierOf"]; ["txCounter"; "u64"]] [] 0 false 0);
   ("LookupSource", alias "MultiAddress");
   ("Index", alias "u64");
   ("BlockNumberOf", alias "BlockNumber");
   ("RoundInfo", TStruct "struct" "" [["current"; "SessionIndex"]; ["first"; "BlockNumber"]; ["length"; "BlockNumber"]] [] 0 false 0);
   ("DidVerificationKey", TStruct "enum" "" [["Ed25519"; "[u8; 32]"]; ["Sr25519"; "[u8; 32]"]] [] 0 false 0);
   ("Stake", TStruct "struct" "" [["owner"; "AccountId"]; ["amount"; "Balance"]] [] 0 false 0);
   ("CtypeCreatorOf", alias "DidIdentifierOf");
   ("KeyError", TStruct "enum" "" [] ["InvalidVerificationKeyFormat"; "InvalidEncryptionKeyFormat"] 0 false 0);
   ("TotalStake", TStruct "struct" "" [["collators"; "Balance"]; ["delegators"; "Balance"]] [] 0 false 0);
   ("AccountInfo", alias "AccountInfoWithTripleRefCount");
   ("RewardRate", TStruct "struct" "" [["annual"; "Perquintill"]; ["perBlock"; "Perquintill"]] [] 0 false 0);
   ("DidSignature", TStruct "enum" "" [["Ed25519"; "Ed25519Signature"]; ["Sr25519"; "Sr25519Signature"]] [] 0 false 0);
   ("DelegationNodeIdOf", alias "Hash");
   ("IpfsUrl", TStruct "struct" "" [["payload"; "Text"]] [] 0 false 0);
   ("DidCallableOf", alias "Call");
   ("DidUpdateOperation", TStruct "struct" "" [["did"; "DidIdentifierOf"]; ["newAuthenticationKey"; "Option<DidVerificationKey>"]; ["newKeyAgreementKeys"; "BTreeSet<DidEncryptionKey>"]; ["attestationKeyUpdate"; "DidVerificationKeyUpdateAction"]; ["delegationKeyUpdate"; "DidVerificationKeyUpdateAction"]; ["publicKeysToRemove"; "BTreeSet<KeyIdOf>"]; ["newEndpointUrl"; "Option<Url>"]; ["txCounter"; "u64"]] [] 0 false 0);
   ("DidError", TStruct "enum" "" [["StorageError"; "StorageError"]; ["SignatureError"; "SignatureError"]; ["UrlError"; "UrlError"]; ["InternalError"; "Null"]] [] 0 false 0);
   ("DidDetails", TStruct "struct" "" [["authenticationKey"; "KeyIdOf"]; ["keyAgreementKeys"; "BTreeSet<KeyIdOf>"]; ["delegationKey"; "Option<KeyIdOf>"]; ["attestationKey"; "Option<KeyIdOf>"]; ["publicKeys"; "BTreeMap<KeyIdOf, DidPublicKeyDetails>"]; ["endpointUrl"; "Option<Url>"]; ["lastTxCounter"; "u64"]] [] 0 false 0);
   ("DidEncryptionKey", TStruct "enum" "" [["X25519"; "[u8; 32]"]] [] 0 false 0);
   ("HttpUrl", TStruct "struct" "" [["payload"; "Text"]] [] 0 false 0);
   ("AttestationDetails", TStruct "struct" "" [["ctypeHash"; "CtypeHashOf"]; ["attester"; "AttesterOf"]; ["delegationId"; "Option<DelegationNodeIdOf>"]; ["revoked"; "bool"]] [] 0 false 0);
   ("DelegationSignature", alias "DidSignature");
   ("DelegationNode", TStruct "struct" "" [["rootId"; "DelegationNodeIdOf"]; ["parent"; "Option<DelegationNodeIdOf>"]; ["owner"; "DelegatorIdOf"]; ["permissions"; "Permissions"]; ["revoked"; "bool"]] [] 0 false 0);
   ("Collator", TStruct "struct" "" [["id"; "AccountId"]; ["stake"; "Balance"]; ["delegators"; "Vec<Stake>"]; ["total"; "Balance"]; ["state"; "CollatorStatus"]] [] 0 false 0);
   ("LockedBalance", TStruct "struct" "" [["block"; "BlockNumber"]; ["amount"; "Balance"]] [] 0 false 0);
   ("DidPublicKey", TStruct "enum" "" [["PublicVerificationKey"; "DidVerificationKey"]; ["PublicEncryptionKey"; "DidEncryptionKey"]] [] 0 false 0);
   ("CollatorSnapshot", TStruct "struct" "" [["stake"; "Balance"]; ["delegators"; "Vec<Stake>"]; ["total"; "Balance"]] [] 0 false 0);
   ("AttesterOf", alias "DidIdentifierOf");
   ("UrlError", TStruct "enum" "" [] ["InvalidUrlEncoding"; "InvalidUrlScheme"] 0 false 0);
   ("Delegator", TStruct "struct" "" [["delegations"; "Vec<Stake>"]; ["total"; "Balance"]] [] 0 false 0);
   ("BalanceOf", alias "Balance");
   ("Permissions", alias "u32");
   ("DelegationRoot", TStruct "struct" "" [["ctypeHash"; "CtypeHashOf"]; ["owner"; "DelegatorIdOf"]; ["revoked"; "bool"]] [] 0 false 0);
   ("CollatorStatus", TStruct "enum" "" [["Active"; "Null"]; ["Leaving"; "SessionIndex"]] [] 0 false 0);
   ("DidVerificationKeyRelationship", TStruct "enum" "" [] ["Authentication"; "CapabilityDelegation"; "CapabilityInvocation"; "AssertionMethod"] 0 false 0);
   ("AccountIdentifierOf", alias "AccountId");
   ("DidIdentifierOf", alias "AccountId");
   ("InflationInfo", TStruct "struct" "" [["collator"; "StakingInfo"]; ["delegator"; "StakingInfo"]] [] 0 false 0);
   ("Url", TStruct "enum" "" [["Http"; "HttpUrl"]; ["Ftp"; "FtpUrl"]; ["Ipfs"; "IpfsUrl"]] [] 0 false 0);
   ("SignatureError", TStruct "enum" "" [] ["InvalidSignatureFormat"; "InvalidSignature"; "InvalidNonce"] 0 false 0);
   ("Address", alias "MultiAddress");
   ("StakingInfo", TStruct "struct" "" [["maxRate"; "Perquintill"]; ["rewardRate"; "RewardRate"]] [] 0 false 0);
   ("AmountOf", alias "i128");
   ("Balance", alias "u128");
   ("OrderedSet", alias "Vec<Stake>");
   ("FtpUrl", TStruct "struct" "" [["payload"; "Text"]] [] 0 false 0);
   ("StorageError", TStruct "enum" "" [["DidAlreadyPresent"; "Null"]; ["DidNotPresent"; "Null"]; ["DidKeyNotPresent"; "DidVerificationKeyRelationship"]; ["VerificationKeyNotPresent"; "Null"]; ["CurrentlyActiveKey"; "Null"]; ["MaxTxCounterValue"; "Null"]] [] 0 false 0);
   ("DelegatorIdOf", alias "DidIdentifierOf");
   ("BlockNumber", alias "u64");
   ("DidVerificationKeyUpdateAction", TStruct "enum" "" [["Ignore"; "Null"]; ["Change"; "DidVerificationKey"]; ["Delete"; "Null"]] [] 0 false 0);
   ("ClaimHashOf", alias "Hash");
   ("DidAuthorizedCallOperation", TStruct "struct" "" [["did"; "DidIdentifierOf"]; ["txCounter"; "u64"]; ["call"; "DidCallableOf"]] [] 0 false 0);
   ("DidCreationOperation", TStruct "struct" "" [["did"; "DidIdentifierOf"]; ["newAuthenticationKey"; "DidVerificationKey"]; ["newKeyAgreementKeys"; "BTreeSet<DidEncryptionKey>"]; ["newAttestationKey"; "Option<DidVerificationKey>"]; ["newDelegationKey"; "Option<DidVerificationKey>"]; ["newEndpointUrl"; "Option<Url>"]] [] 0 false 0);
   ("DidPublicKeyDetails", TStruct "struct" "" [["key"; "DidPublicKey"]; ["blockNumber"; "BlockNumberOf"]] [] 0 false 0);
   ("CtypeHashOf", alias "Hash");
   ("Weight", alias "u64");
   ("CompactAssignments", alias "CompactAssignmentsLatest");
   ("RefCount", alias "u32")].
(** network/stafi.json *)
Definition net_stafi : list (string * tstruct) :=
  [("Weight", alias "u64");
   ("DispatchResult", TStruct "enum" "" [["Ok"; "Null"]; ["Error"; "DispatchError"]] [] 0 false 0);
   ("Address", alias "GenericLookupSource");
   ("LookupSource", alias "GenericLookupSource");
   ("Keys", TStruct "struct" "" [["grandpa"; "AccountId"]; ["babe"; "AccountId"]; ["im_online"; "AccountId"]; ["authority_discovery"; "AccountId"]] [] 0 false 0);
   ("RefCount#7-?", alias "u32");
   ("ChainId", alias "u8");
   ("ResourceId", alias "[u8; 32]");
   ("DepositNonce", alias "u64");
   ("U256", alias "[u8; 32]");
   ("AccountRData", TStruct "struct" "" [["free"; "u128"]] [] 0 false 0);
   ("Box<Proposal>", alias "BoxProposal");
   ("RproposalVotes", TStruct "struct" "" [["votes_for"; "Vec<AccountId>"]; ["votes_against"; "Vec<AccountId>"]; ["status"; "RproposalStatus"]; ["expiry"; "BlockNumber"]] [] 0 false 0);
   ("RefCount", alias "u32");
   ("XSymbol", TStruct "enum" "" [] ["WRA"] 0 false 0);
   ("BondReason", TStruct "enum" "" [] ["Pass"; "BlockhashUnmatch"; "TxhashUnmatch"; "PubkeyUnmatch"; "PoolUnmatch"; "AmountUnmatch"] 0 false 0);
   ("PoolBondState", TStruct "enum" "" [] ["EraUpdated"; "BondReported"; "ActiveReported"; "WithdrawSkipped"; "WithdrawReported"; "TransferReported"] 0 false 0);
   ("BondState", TStruct "enum" "" [] ["Dealing"; "Fail"; "Success"] 0 false 0);
   ("RproposalStatus", TStruct "enum" "" [] ["Initiated"; "Approved"; "Rejected"; "Expired"] 0 false 0);
   ("UserUnlockChunk", TStruct "struct" "" [["pool"; "Vec<u8>"]; ["unlock_era"; "u32"]; ["value"; "u128"]; ["recipient"; "Vec<u8>"]] [] 0 false 0);
   ("RSymbol", TStruct "enum" "" [] ["RFIS"; "RDOT"; "RKSM"; "RATOM"; "RSOL"; "RMATIC"; "RBNB"] 0 false 0);
   ("RateType", alias "u64");
   ("Unbonding", TStruct "struct" "" [["who"; "AccountId"]; ["value"; "u128"]; ["recipient"; "Vec<u8>"]] [] 0 false 0);
   ("LinkChunk", TStruct "struct" "" [["bond"; "u128"]; ["unbond"; "u128"]; ["active"; "u128"]] [] 0 false 0);
   ("BondSnapshot", TStruct "struct" "" [["symbol"; "RSymbol"]; ["era"; "u32"]; ["pool"; "Vec<u8>"]; ["bond"; "u128"]; ["unbond"; "u128"]; ["active"; "u128"]; ["last_voter"; "AccountId"]; ["bond_state"; "PoolBondState"]] [] 0 false 0);
   ("BondRecord", TStruct "struct" "" [["bonder"; "AccountId"]; ["symbol"; "RSymbol"]; ["pubkey"; "Vec<u8>"]; ["pool"; "Vec<u8>"]; ["blockhash"; "Vec<u8>"]; ["txhash"; "Vec<u8>"]; ["amount"; "u128"]] [] 0 false 0);
   ("AccountXData", TStruct "struct" "" [["free"; "u128"]] [] 0 false 0);
   ("OriginalTxType", TStruct "enum" "" [] ["Transfer"; "Bond"; "Unbond"; "WithdrawUnbond"; "ClaimRewards"] 0 false 0);
   ("SigVerifyResult", TStruct "enum" "" [] ["InvalidPubkey"; "Fail"; "Pass"] 0 false 0);
   ("ProposalVotes", TStruct "struct" "" [["voted"; "Vec<AccountId>"]; ["status"; "ProposalStatus"]; ["expiry"; "BlockNumber"]] [] 0 false 0);
   ("ProposalStatus", TStruct "enum" "" [] ["Active"; "Passed"; "Expired"; "Executed"] 0 false 0);
   ("ClaimInfo", TStruct "struct" "" [["mint_amount"; "u128"]; ["native_token_amount"; "u128"]; ["total_reward"; "Balance"]; ["total_claimed"; "Balance"]; ["latest_claimed_block"; "BlockNumber"]; ["mint_block"; "BlockNumber"]] [] 0 false 0);
   ("MintRewardAct", TStruct "struct" "" [["begin"; "BlockNumber"]; ["end"; "BlockNumber"]; ["cycle"; "u32"]; ["reward_rate"; "u128"]; ["total_reward"; "Balance"]; ["left_amount"; "Balance"]; ["user_limit"; "Balance"]; ["locked_blocks"; "u32"]; ["total_rtoken_amount"; "u128"]; ["total_native_token_amount"; "u128"]] [] 0 false 0);
   ("SwapRate", TStruct "struct" "" [["lock_number"; "u64"]; ["rate"; "u128"]] [] 0 false 0);
   ("SwapTransactionInfo", TStruct "struct" "" [["account"; "AccountId"]; ["receiver"; "Vec<u8>"]; ["value"; "u128"]; ["is_deal"; "bool"]] [] 0 false 0);
   ("BondSwap", TStruct "struct" "" [["bonder"; "AccountId"]; ["swap_fee"; "Balance"]; ["swap_receiver"; "AccountId"]; ["bridger"; "AccountId"]; ["recipient"; "Vec<u8>"]; ["dest_id"; "ChainId"]; ["expire"; "BlockNumber"]; ["bond_state"; "BondState"]; ["refunded"; "bool"]] [] 0 false 0);
   ("BondAction", TStruct "enum" "" [] ["BondOnly"; "UnbondOnly"; "BothBondUnbond"; "EitherBondUnbond"; "InterDeduct"] 0 false 0)].
(** network/statemine.json *)
Definition net_statemine : list (string * tstruct) :=
  [("Weight", alias "u64");
   ("CompactAssignments", alias "CompactAssignmentsWith24");
   ("RefCount", alias "u32");
   ("Address", alias "MultiAddress");
   ("LookupSource", alias "MultiAddress");
   ("AccountInfo", alias "AccountInfoWithTripleRefCount");
   ("TAssetBalance", alias "u128");
   ("ProxyType", TStruct "enum" "" [] ["Any"; "NonTransfer"; "CancelProxy"; "Assets"; "AssetOwner"; "AssetManager"] 0 false 0);
   ("AssetInstance", alias "AssetInstanceV0");
   ("MultiAsset", alias "MultiAssetV0");
   ("Xcm", alias "XcmV0");
   ("XcmOrder", alias "XcmOrderV0");
   ("MultiLocation", alias "MultiLocationV0");
   ("AssetInstance#4-5", alias "AssetInstanceV1");
   ("MultiAsset#4-5", alias "MultiAssetV1");
   ("Xcm#4-5", alias "XcmV1");
   ("XcmOrder#4-5", alias "XcmOrderV1");
   ("MultiLocation#4-5", alias "MultiLocationV1")].
(** network/subgame.json *)
Definition net_subgame : list (string * tstruct) :=
  [("GameInstance", TStruct "struct" "" [["game_instance_id"; "u32"]; ["owner"; "AccountId"]; ["bet_block_number"; "u32"]; ["chips_pool"; "u128"]; ["game_over"; "bool"]] [] 0 false 0);
   ("BetInfo", TStruct "struct" "" [["user"; "AccountId"]; ["game_id"; "u32"]; ["amount"; "u128"]; ["game_mode"; "u8"]] [] 0 false 0);
   ("GameInstanceId", alias "u32");
   ("ChipBalance", alias "u128");
   ("SGAssetBalance", alias "u64");
   ("GameMode", alias "u8");
   ("GameIndex", alias "u32");
   ("SusGameAssetBalance", TStruct "struct" "" [["balance"; "u64"]; ["isFrozen"; "bool"]; ["isZombie"; "bool"]] [] 0 false 0);
   ("SubGameAssetDetails", TStruct "struct" "" [["owner"; "AccountId"]; ["issuer"; "AccountId"]; ["admin"; "AccountId"]; ["freezer"; "AccountId"]; ["supply"; "u64"]; ["deposit"; "DepositBalance"]; ["max_zombies"; "u32"]; ["min_balance"; "u64"]; ["zombies"; "u32"]; ["accounts"; "u32"]; ["isFrozen"; "bool"]] [] 0 false 0);
   ("SubGameAssetMetadata", TStruct "struct" "" [["deposit"; "DepositBalance"]; ["name"; "Vec<u8>"]; ["symbol"; "Vec<u8>"]; ["decimals"; "u8"]] [] 0 false 0);
   ("ChipsDetail", TStruct "struct" "" [["balance"; "ChipBalance"]; ["reserve"; "ChipBalance"]] [] 0 false 0);
   ("Template", TStruct "struct" "" [["template_id"; "u32"]; ["template_name"; "TemplateName"]] [] 0 false 0);
   ("BridgeRecord", TStruct "struct" "" [["from"; "AccountId"]; ["to"; "AccountId"]; ["amount"; "u128"]; ["chain_type"; "u8"]; ["coin_type"; "u8"]] [] 0 false 0);
   ("GameInfo", TStruct "struct" "" [["owner"; "AccountId"]; ["block_number"; "u32"]; ["bet_block_number"; "u32"]; ["amount"; "u128"]] [] 0 false 0);
   ("TemplateName", alias "u32");
   ("UserInfo", TStruct "struct" "" [["Account"; "Vec<u8>"]; ["ReferrerAccount"; "Vec<u8>"]] [] 0 false 0);
   ("Weight", alias "u64");
   ("CompactAssignments", alias "CompactAssignmentsLatest");
   ("RefCount", alias "u32");
   ("Address", alias "MultiAddress");
   ("LookupSource", alias "MultiAddress");
   ("AccountInfo", alias "AccountInfoWithProviders")].
(** network/substrate20.json *)
Definition net_substrate20 : list (string * tstruct) :=
  [("Weight", alias "u64");
   ("CompactAssignments", alias "CompactAssignmentsLatest");
   ("RefCount", alias "u32");
   ("DispatchResult", TStruct "enum" "" [["Ok"; "Null"]; ["Error"; "DispatchError"]] [] 0 false 0);
   ("Address", alias "GenericLookupSource");
   ("LookupSource", alias "GenericLookupSource")].
(** network/substrate30.json *)
Definition net_substrate30 : list (string * tstruct) :=
  [("Weight", alias "u64");
   ("CompactAssignments", alias "CompactAssignmentsLatest");
   ("RefCount", alias "u32");
   ("Address", alias "MultiAddress");
   ("LookupSource", alias "MultiAddress");
   ("AccountInfo", alias "AccountInfoWithTripleRefCount")].
(** network/uniarts.json *)
Definition net_uniarts : list (string * tstruct) :=
  [("Weight", alias "u64");
   ("CompactAssignments", alias "CompactAssignmentsLatest");
   ("RefCount", alias "u32");
   ("TradePair", TStruct "struct" "" [["hash"; "H256"]; ["base"; "H256"]; ["quote"; "H256"]; ["buy_one_price"; "Option<Price>"]; ["sell_one_price"; "Option<Price>"]; ["latest_matched_price"; "Option<Price>"]; ["one_day_trade_volume"; "Option<Price>"]; ["one_day_highest_price"; "Option<Price>"]; ["one_day_lowest_price"; "Option<Price>"]] [] 0 false 0);
   ("Lottery", TStruct "struct" "" [["round"; "LottoIndex"]; ["kind"; "LotteryKind"]; ["jackpot"; "Balance"]; ["next_ticket_id"; "u32"]; ["players"; "BTreeMap<AccountId, bool>"]; ["tickets"; "BTreeMap<u32, AccountId>"]; ["result"; "Option<LottoResult<AccountId, Balance>>"]] [] 0 false 0);
   ("LotteryKind", TStruct "enum" "" [] ["Routine"; "TreasuryFunded(ReasonIndex)"] 0 false 0);
   ("BidHistory", TStruct "struct" "" [["auction_id"; "u64"]; ["currency_id"; "CurrencyId"]; ["bidder"; "AccountId"]; ["bid_price"; "u64"]; ["bid_time"; "BlockNumber"]] [] 0 false 0);
   ("MemberId", alias "u64");
   ("AccessMode", TStruct "enum" "" [] ["Normal"; "WhiteList"] 0 false 0);
   ("NftCard", TStruct "struct" "" [["group_id"; "u64"]; ["collection_id"; "u64"]; ["item_id"; "u64"]; ["value"; "u64"]; ["remaind_value"; "u64"]; ["draw_start"; "u64"]; ["draw_end"; "u64"]] [] 0 false 0);
   ("NameData", TStruct "struct" "" [["value"; "Value"]; ["owner"; "AccountId"]; ["expiration"; "Option<u32>"]] [] 0 false 0);
   ("ReasonIndex", alias "u32");
   ("SaleOrder", TStruct "struct" "" [["order_id"; "u64"]; ["collection_id"; "u64"]; ["item_id"; "u64"]; ["currency_id"; "CurrencyId"]; ["value"; "u64"]; ["owner"; "AccountId"]; ["price"; "u64"]] [] 0 false 0);
   ("StorageVersion", TStruct "enum" "" [] ["V1_0_0"; "V2_0_0"] 0 false 0);
   ("Ownership", TStruct "struct" "" [["owner"; "AccountId"]; ["fraction"; "u128"]] [] 0 false 0);
   ("LookupSource", alias "AccountId");
   ("SplitSaleOrder", TStruct "struct" "" [["order_id"; "u64"]; ["collection_id"; "u64"]; ["item_id"; "u64"]; ["currency_id"; "CurrencyId"]; ["value"; "u64"]; ["balance"; "u64"]; ["owner"; "AccountId"]; ["price"; "u64"]] [] 0 false 0);
   ("Keys", alias "SessionKeys2");
   ("Price", alias "u128");
   ("LimitOrder", TStruct "struct" "" [["hash"; "H256"]; ["base"; "H256"]; ["quote"; "H256"]; ["owner"; "AccountId"]; ["price"; "Price"]; ["sell_amount"; "Balance"]; ["buy_amount"; "Balance"]; ["remained_sell_amount"; "Balance"]; ["remained_buy_amount"; "Balance"]; ["otype"; "OrderType"]; ["status"; "OrderStatus"]] [] 0 false 0);
   ("CurrencyIdOf", alias "CurrencyId");
   ("Royalty", TStruct "struct" "" [["owner"; "AccountId"]; ["rate"; "u64"]; ["expired_at"; "BlockNumber"]] [] 0 false 0);
   ("OrderStatus", TStruct "enum" "" [] ["Created"; "PartialFilled"; "Filled"; "Canceled"] 0 false 0);
   ("NftItemType", TStruct "struct" "" [["Collection"; "u64"]; ["Owner"; "AccountId"]; ["Data"; "Vec<u8>"]; ["item_hash"; "H160"]] [] 0 false 0);
   ("AmountOf", alias "Amount");
   ("Pool", TStruct "struct" "" [["id"; "Id"]; ["account"; "AccountId"]; ["acc_rewards_per_share"; "Balance"]; ["last_reward_block"; "BlockNumber"]; ["asset_id"; "Id"]; ["total_balance"; "Balance"]] [] 0 false 0);
   ("TokenSymbol", TStruct "enum" "" [] ["USDT"; "DAI"] 0 false 0);
   ("Name", alias "Vec<u8>");
   ("Limits", TStruct "struct" "" [["max_tx_value"; "u128"]; ["day_max_limit"; "u128"]; ["day_max_limit_for_one_address"; "u128"]; ["max_pending_tx_limit"; "u128"]; ["min_tx_value"; "u128"]] [] 0 false 0);
   ("CurrencyId", TStruct "enum" "" [["Native"; "Null"]; ["UINK"; "Null"]; ["DOT"; "Null"]; ["KSM"; "Null"]; ["ETH"; "Null"]; ["Token"; "TokenSymbol"]] [] 0 false 0);
   ("OrderType", TStruct "enum" "" [] ["Buy"; "Sell"] 0 false 0);
   ("Address", alias "AccountId");
   ("Value", alias "Vec<u8>");
   ("SignatureAuthentication", TStruct "struct" "" [["collection"; "u64"]; ["item"; "u64"]; ["names"; "Name"]; ["names_owner"; "AccountId"]; ["sign_time"; "BlockNumber"]; ["memo"; "Vec<u8>"]; ["expiration"; "Option<BlockNumber>"]] [] 0 false 0);
   ("WorkId", alias "u32");
   ("LottoIndex", alias "u32");
   ("Amount", alias "i128");
   ("ProposalId", alias "u64");
   ("TokenBalance", alias "Balance");
   ("ReFungibleItemType", TStruct "struct" "" [["Collection"; "u64"]; ["Owner"; "Vec<Ownership<AccountId>>"]; ["Data"; "Vec<u8>"]; ["item_hash"; "H160"]] [] 0 false 0);
   ("OrderLinkedItem", TStruct "struct" "" [["prev"; "Option<Price>"]; ["next"; "Option<Price>"]; ["price"; "Option<Price>"]; ["orders"; "Vec<H256>"]] [] 0 false 0);
   ("LottoResult", TStruct "enum" "" [] ["Routine(AccountId, Balance)"; "TreasuryFunded(Balance)"] 0 false 0);
   ("SaleOrderHistory", TStruct "struct" "" [["collection_id"; "u64"]; ["item_id"; "u64"]; ["currency_id"; "CurrencyId"]; ["value"; "u64"]; ["seller"; "AccountId"]; ["buyer"; "AccountId"]; ["price"; "u64"]; ["buy_time"; "BlockNumber"]] [] 0 false 0);
   ("Staker", TStruct "struct" "" [["amount"; "Balance"]; ["reward"; "Balance"]; ["debt"; "Balance"]] [] 0 false 0);
   ("CollectionType", TStruct "struct" "" [["Owner"; "AccountId"]; ["Mode"; "CollectionMode"]; ["Access"; "u8"]; ["DecimalPoints"; "u32"]; ["Name"; "Vec<u16>"]; ["Description"; "Vec<u16>"]; ["TokenPrefix"; "Vec<u8>"]; ["CustomDataSize"; "u32"]; ["OffchainSchema"; "Vec<u8>"]; ["Sponsor"; "AccountId"]; ["UnconfirmedSponsor"; "AccountId"]] [] 0 false 0);
   ("Auction", TStruct "struct" "" [["id"; "u64"]; ["collection_id"; "u64"]; ["item_id"; "u64"]; ["currency_id"; "CurrencyId"]; ["value"; "u64"]; ["owner"; "AccountId"]; ["start_price"; "u64"]; ["increment"; "u64"]; ["current_price"; "u64"]; ["start_time"; "BlockNumber"]; ["end_time"; "BlockNumber"]] [] 0 false 0);
   ("FungibleItemType", TStruct "struct" "" [["Collection"; "u64"]; ["Owner"; "AccountId"]; ["value"; "u128"]; ["item_hash"; "H160"]] [] 0 false 0);
   ("CollectionMode", TStruct "enum" "" [["Invalid"; "null"]; ["NFT"; "u32"]; ["Fungible"; "u32"]; ["ReFungible"; "(u32, u32)"]] [] 0 false 0);
   ("Token", TStruct "struct" "" [["hash"; "H256"]; ["symbol"; "Vec<u8>"]; ["total_supply"; "Balance"]] [] 0 false 0);
   ("Trade", TStruct "struct" "" [["hash"; "H256"]; ["base"; "H256"]; ["quote"; "H256"]; ["buyer"; "AccountId"]; ["seller"; "AccountId"]; ["maker"; "AccountId"]; ["taker"; "AccountId"]; ["otype"; "OrderType"]; ["price"; "Price"]; ["base_amount"; "Balance"]; ["quote_amount"; "Balance"]] [] 0 false 0);
   ("BlindboxItem", TStruct "struct" "" [["id"; "u64"]; ["owner"; "AccountId"]; ["card_group"; "Vec<u64>"]; ["total_count"; "u64"]; ["remaind_count"; "u64"]; ["currency_id"; "CurrencyId"]; ["price"; "u64"]; ["start_time"; "BlockNumber"]; ["end_time"; "BlockNumber"]; ["has_ended"; "bool"]] [] 0 false 0);
   ("Id", alias "u32");
   ("ApprovePermissions", TStruct "struct" "" [["approved"; "AccountId"]; ["amount"; "u64"]] [] 0 false 0);
   ("Address#45-?", alias "MultiAddress");
   ("LookupSource#45-?", alias "MultiAddress");
   ("AccountInfo", alias "AccountInfoWithProviders")].
(** network/westend.json *)
Definition net_westend : list (string * tstruct) :=
  [("Address", alias "AccountId");
   ("BlockNumber", alias "u32");
   ("LeasePeriod", alias "BlockNumber");
   ("Keys", alias "SessionKeysPolkadot");
   ("Weight", alias "u32");
   ("Weight#3-?", alias "u64");
   ("DispatchInfo", TStruct "struct" "" [["weight"; "Weight"]; ["class"; "DispatchClass"]; ["paysFee"; "Pays"]] [] 0 false 0);
   ("DispatchResult", TStruct "enum" "" [["Ok"; "Null"]; ["Error"; "DispatchError"]] [] 0 false 0);
   ("ProxyType", TStruct "enum" "" [] ["Any"; "NonTransfer"; "Staking"; "SudoBalances"; "IdentityJudgement"; "CancelProxy"] 0 false 0);
   ("CompactAssignments#43-?", alias "CompactAssignmentsLatest");
   ("RefCount#45-?", alias "u32");
   ("Box<<T as Config>::Call>", alias "Call");
   ("AccountInfo#48-49", alias "AccountInfoWithProviders");
   ("Address#48-?", alias "MultiAddress");
   ("LookupSource#48-?", alias "MultiAddress");
   ("ValidatorPrefs#48-?", alias "ValidatorPrefsWithBlocked");
   ("Keys#48-?", TStruct "struct" "" [["grandpa"; "AccountId"]; ["babe"; "AccountId"]; ["im_online"; "AccountId"]; ["para_validator"; "AccountId"]; ["para_assignment"; "AccountId"]; ["authority_discovery"; "AccountId"]] [] 0 false 0);
   ("AccountInfo#50-?", alias "AccountInfoWithTripleRefCount");
   ("AssetInstance", alias "AssetInstanceV0");
   ("MultiAsset", alias "MultiAssetV0");
   ("Xcm", alias "XcmV0");
   ("XcmOrder", alias "XcmOrderV0");
   ("MultiLocation", alias "MultiLocationV0")].

(** The directory network, by file name without ".json". *)
Definition networks : list (string * list (string * tstruct)) :=
  [("acala-test", net_acala_test);
   ("acala", net_acala);
   ("balala", net_balala);
   ("bifrost", net_bifrost);
   ("canvas", net_canvas);
   ("centrifuge", net_centrifuge);
   ("chainx", net_chainx);
   ("clover-test", net_clover_test);
   ("clover", net_clover);
   ("crab", net_crab);
   ("crust-main", net_crust_main);
   ("crust", net_crust);
   ("darwinia", net_darwinia);
   ("datahighway-harbour", net_datahighway_harbour);
   ("datahighway", net_datahighway);
   ("deepbrain", net_deepbrain);
   ("dock-pos", net_dock_pos);
   ("dock", net_dock);
   ("dusty", net_dusty);
   ("edgeware", net_edgeware);
   ("equilibrium", net_equilibrium);
   ("gateway-test", net_gateway_test);
   ("karura", net_karura);
   ("khala", net_khala);
   ("kilt", net_kilt);
   ("kintsugi", net_kintsugi);
   ("kulupu", net_kulupu);
   ("kusama", net_kusama);
   ("laminar-test", net_laminar_test);
   ("litentry-test", net_litentry_test);
   ("manta-test", net_manta_test);
   ("moonbase", net_moonbase);
   ("moonbeam", net_moonbeam);
   ("moonriver", net_moonriver);
   ("pangolin", net_pangolin);
   ("phala", net_phala);
   ("plasm", net_plasm);
   ("polkadex", net_polkadex);
   ("polkadot", net_polkadot);
   ("reef", net_reef);
   ("robonomics-test", net_robonomics_test);
   ("rococo", net_rococo);
   ("sakura", net_sakura);
   ("shibuya", net_shibuya);
   ("shiden", net_shiden);
   ("sora", net_sora);
   ("spiritnet", net_spiritnet);
   ("stafi", net_stafi);
   ("statemine", net_statemine);
   ("subgame", net_subgame);
   ("substrate20", net_substrate20);
   ("substrate30", net_substrate30);
   ("uniarts", net_uniarts);
   ("westend", net_westend)].
