-Q theories Verif
theories/Base.v
theories/BaseLemmas.v
theories/HeaderModel.v
theories/HeaderSpec.v
theories/HeaderOps.v
theories/CodecProofs.v
theories/PartProofs.v
theories/MetaProofs.v
theories/HeaderHistory.v
theories/HeaderWitness.v
theories/PropertiesHeader.v
theories/CrcModel.v
theories/CrcSpec.v
theories/CrcProofs.v
theories/PropertiesCrc.v
theories/HashModel.v
theories/MerkleModel.v
theories/MerkleSpec.v
theories/MerkleSizes.v
theories/MerkleChunks.v
theories/MerkleProofs.v
theories/VerifyModel.v
theories/MerkleVerifySpec.v
theories/MerkleVerify.v
theories/MerkleApi.v
theories/PropertiesMerkle.v
theories/VerifySpec.v
theories/VerifyProofs.v
theories/VerifySign.v
theories/VerifyAgree.v
theories/VerifyWitness.v
theories/PropertiesVerify.v
theories/PkgModel.v
theories/PkgSpec.v
theories/PkgProofs.v
theories/PkgAdd.v
theories/PkgDelete.v
theories/PkgHistory.v
theories/PkgApi.v
theories/PkgTrees.v
theories/PkgMerkle.v
theories/PkgWitness.v
theories/PropertiesPkg.v
theories/BspatchModel.v
theories/BspatchSpec.v
theories/BspatchProofs.v
theories/BspatchApply.v
theories/BspatchSafe.v
theories/BspatchWitness.v
theories/PropertiesBspatch.v
theories/BsdiffModel.v
theories/BsdiffProofs.v
theories/BsdiffSafe.v
theories/PropertiesBsdiff.v
theories/HsModel.v
theories/HsSpec.v
theories/HsBits.v
theories/HsDecoder.v
theories/HsDecApi.v
theories/HsEncoder.v
theories/HsEncStep.v
theories/HsEncApi.v
theories/HsPatchModel.v
theories/HsPatchProofs.v
theories/HsPatchDec.v
theories/HsPatchFinal.v
theories/PropertiesHs.v
theories/LzModel.v
theories/LzSpec.v
theories/LzProofs.v
theories/LzFinal.v
theories/LzWitness.v
theories/PropertiesLz.v
theories/TransportModel.v
theories/TransportSpec.v
theories/TransportFile.v
theories/TransportLay.v
theories/TransportEncode.v
theories/TransportDecode.v
theories/TransportMain.v
theories/TransportWitness.v
theories/TransportRefuse.v
theories/TransportTotal.v
theories/TransportSound.v
theories/TransportSane.v
theories/PropertiesDecode.v
theories/PropertiesTransport.v
theories/UtilModel.v
theories/UtilSpec.v
theories/UtilProofs.v
theories/UtilParse.v
theories/UtilMeta.v
theories/KeystoreModel.v
theories/KeystoreSpec.v
theories/KeystoreProofs.v
theories/KeystoreWitness.v
theories/PropertiesUtil.v
theories/CrashModel.v
theories/CrashSpec.v
theories/CrashProofs.v
theories/CrashDelete.v
theories/CrashMain.v
theories/CrashKilledDelete.v
theories/CrashWitness.v
theories/PropertiesCrash.v
theories/CliModel.v
theories/CliSpec.v
theories/CliMeta.v
theories/CliArgs.v
theories/CliStep.v
theories/CliProofs.v
theories/CliSign.v
theories/CliNumbers.v
theories/CliClaims.v
theories/PkgForget.v
theories/CliWitness.v
theories/PropertiesCli.v
theories/PkgCanon.v
theories/ImageSpec.v
theories/ImageProofs.v
theories/ImageSteps.v
theories/ImageMain.v
theories/ImageClaims.v
theories/PropertiesImage.v
theories/ViewModel.v
theories/ViewSpec.v
theories/ViewProofs.v
theories/ViewShow.v
theories/ViewWitness.v
theories/PropertiesView.v
theories/ViewGen.v
theories/PropertiesGen.v
theories/MbedModel.v
theories/MbedSpec.v
theories/MbedProofs.v
theories/PropertiesMbed.v
theories/PyModel.v
theories/PySpec.v
theories/PyInv.v
theories/PyProofs.v
theories/PySession.v
theories/PyFrozen.v
theories/PyHash.v
theories/PyClaims.v
theories/PropertiesPy.v
theories/PySignModel.v
theories/PySignSpec.v
theories/PySignProofs.v
theories/PySignSession.v
theories/PySignClaims.v
theories/PropertiesPySign.v
theories/TransportCliModel.v
theories/TransportCliProofs.v
theories/PropertiesTransportCli.v
theories/SafeSpec.v
theories/SafeProofs.v
theories/SafeExtract.v
theories/PropertiesSafe.v
theories/CliFresh.v
theories/UpdateSpec.v
theories/UpdateProofs.v
theories/PropertiesUpdate.v
theories/BsdiffSize.v
theories/EncodeSpec.v
theories/EncodeSuccess.v
theories/PropertiesEncode.v
theories/ArgModel.v
theories/ArgSpec.v
theories/ArgProofs.v
theories/ArgActs.v
theories/ArgMeans.v
theories/ArgIdle.v
theories/ArgMore.v
theories/ArgNamed.v
theories/PropertiesArg.v
theories/LowTac.v
theories/LowBase.v
theories/LowPkg.v
theories/LowTransport.v
theories/LowArg.v
theories/PropertiesStatus.v
theories/AllocModel.v
theories/AllocSpec.v
theories/AllocProofs.v
theories/PropertiesAlloc.v
theories/RefModel.v
theories/RefSpec.v
theories/RefProofs.v
theories/RefCalls.v
theories/RefPrograms.v
theories/PropertiesRef.v
theories/PropertiesNoPart.v
