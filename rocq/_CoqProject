-Q theories Verif
theories/GoBase.v
theories/SpecNum.v
theories/ProofsBase.v
theories/ModelUint128.v
theories/SpecUint128.v
theories/ProofsUint128.v
theories/PropUint128.v
theories/ModelTools.v
theories/ProofsTools.v
theories/PropTools.v
theories/ModelJson.v
theories/ModelVal.v
theories/ModelFloat.v
theories/ModelRegistry.v
theories/ModelFixPoint.v
theories/ModelDecode.v
theories/ModelEncode.v
theories/ModelRegister.v
theories/ProofsRun.v
theories/PropDecode.v
theories/SpecScale.v
theories/ProofsReads.v
theories/ProofsForms.v
theories/ProofsScale.v
theories/ProofsEncode.v
theories/ProofsApi.v
theories/PropCodec.v
theories/PropInts.v
theories/PropCompact.v
theories/PropForms.v
theories/PropEncode.v
theories/PropFloat.v
theories/ProofsNames.v
theories/ProofsTexts.v
theories/PropRegistry.v
theories/PropAlias.v
theories/PropTuple.v
theories/PropTerm.v
theories/ModelCompare.v
theories/PropDescribe.v
theories/PropCompare.v
theories/SpecKeccak.v
theories/ModelKeccak.v
theories/ModelSponge.v
theories/SpecSponge.v
theories/PropKeccak.v
theories/PropSponge.v
theories/PropEthereum.v
theories/PropFixPoint.v
theories/ModelScaleInfo.v
theories/ProofsJson.v
theories/PropScaleInfo.v
theories/SpecPortable.v
theories/ProofsPortText.v
theories/ProofsPortReg.v
theories/ProofsPortDecode.v
theories/PropPortable.v
theories/PropPortNames.v
theories/ModelMetadata.v
theories/ModelMeta.v
theories/SpecMeta.v
theories/ProofsMeta.v
theories/ProofsFrame.v
theories/PropMeta.v
theories/PropMeta14.v
theories/ProofsMeta15.v
theories/PropMeta15.v
theories/PropRuntime.v
theories/PropRuntimeEx.v
theories/PropPortableEncode.v
theories/PropGeneric.v
theories/PropCallModule.v
theories/PropRuntime15.v
theories/SpecMetaOld.v
theories/ProofsMetaOld.v
theories/PropMetaOld.v
theories/PropRuntimeOld.v
theories/ModelBaseTypes.v
theories/ProofsLoad.v
theories/PropLoad.v
theories/PropCustomOrder.v
theories/ProofsKnown.v
theories/PropKnown.v
theories/PropAnyMeta.v
theories/ModelContract.v
theories/PropContract.v
theories/PropMetadata.v
theories/ModelEvents.v
theories/PropEvents.v
theories/ModelExtrinsic.v
theories/PropExtrinsic.v
theories/ModelConcurrent.v
theories/PropConcurrent.v
theories/PropData.v
theories/PropV14.v
theories/ModelEthMath.v
theories/PropEthMath.v
theories/ProofsSiTotal.v
theories/PropSiTotal.v
theories/ModelKeccakAsm.v
theories/ProofsKeccakAsm.v
theories/PropKeccakAsm.v
theories/PropCalls.v
theories/ProofsPallet.v
theories/ModelExtrinsicUse.v
theories/PropReuse.v
theories/ModelNetworks.v
theories/ProofsNet.v
theories/ProofsTrie.v
theories/ProofsFast.v
theories/PropNetworks.v
theories/PropNetKnown.v
theories/ModelBox.v
theories/ProofsBox.v
theories/PropBox.v
theories/ProofsTwice.v
theories/PropTwice.v
theories/PropTwiceOld.v
theories/ModelEventsUse.v
theories/PropEventsUse.v
theories/ModelConcurrentV14.v
theories/PropConcurrentV14.v
theories/ModelLive.v
theories/PropLive.v
theories/ModelLiveEncode.v
theories/PropLiveEncode.v
theories/ModelKey.v
theories/PropKeys.v
theories/ModelToMap.v
theories/PropToMap.v
theories/ModelSums.v
theories/PropSums.v
theories/SpecShape.v
theories/PropShape.v
theories/PropMapOrder.v
theories/PropMapOrderUse.v
theories/PropFields.v
theories/PropStride.v
theories/PropLossless.v
theories/ModelMerge.v
theories/PropMerge.v
theories/ModelNil.v
theories/PropNil.v
theories/PropPadding.v
theories/PropFixNamed.v
theories/PropSignedKeys.v
theories/PropSignedMap.v
