-Q theories Verif
theories/Base.v
theories/Base64Model.v
theories/Base64Proofs.v
theories/CodecModel.v
theories/CodecProofs.v
theories/IdentityModel.v
theories/IdentityProofs.v
theories/PropsCodec.v
theories/Maps.v
theories/JsonModel.v
theories/JsonProofs.v
theories/CryptoModel.v
theories/MsgFormatModel.v
theories/MsgFormatProofs.v
theories/PropsFormat.v
theories/StoreModel.v
theories/KeysModel.v
theories/KeysProofs.v
theories/PropsKeys.v
theories/HeaderModel.v
theories/HeaderProofs.v
theories/PropsHeader.v
theories/ProtoModel.v
theories/ProtoProofs.v
theories/ProtoFirst.v
theories/PropsProto.v
theories/ProtoCases.v
theories/PropsProto2.v
theories/SqlModel.v
theories/SqlProofs.v
theories/MsgDBModel.v
theories/MsgDBProofs.v
theories/MsgDBQueue.v
theories/MsgDBView.v
theories/MsgDBSpec.v
theories/MsgDBSteps.v
theories/PropsMsgDB.v
theories/KeyDBModel.v
theories/KeyDBProofs.v
theories/PropsKeyDB.v
theories/HashChainModel.v
theories/HashChainProofs.v
theories/PropsHashChain.v
theories/Asn1Model.v
theories/Asn1Proofs.v
theories/MixModel.v
theories/MixProofs.v
theories/PropsMix.v
theories/MixClientModel.v
theories/PropsMixClient.v
theories/CtrlModel.v
theories/CtrlProofs.v
theories/PropsCtrl.v
theories/PropsFetch.v
theories/PropsIncoming.v
theories/WalletModel.v
theories/WalletProofs.v
theories/PropsWallet.v
theories/PropsReissue.v
theories/ConfigModel.v
theories/PropsConfig.v
theories/KeyPoolModel.v
theories/PropsKeyPool.v
theories/KeyfileModel.v
theories/PropsKeyfile.v
theories/Utf8Model.v
theories/TextBufferModel.v
theories/PropsTextBuffer.v
theories/MimeModel.v
theories/MimeProofs.v
theories/PropsMime.v
theories/ConvModel.v
theories/ConvSteps.v
theories/ConvInv.v
theories/ConvProofs.v
theories/ConvSend.v
theories/ConvRecv.v
theories/ConvMain.v
theories/ConvEnabled.v
theories/ConvTrack.v
theories/ConvToy.v
theories/ConvExample.v
theories/ConvLimit.v
theories/PropsConv.v
theories/SessState.v
theories/ConvDyn.v
theories/ConvStuck.v
theories/ConvRun.v
theories/SessCount.v
theories/ConvSimul.v
theories/ConvCross.v
theories/PropsSession.v
theories/UidModel.v
theories/UidProofs.v
theories/PropsUid.v
theories/PropsDoc.v
theories/PipeModel.v
theories/JourneyModel.v
theories/PipeProofs.v
theories/PropsPipe.v
theories/JourneyProofs.v
theories/PropsJourney.v
theories/PropsDelivery.v
theories/ScanModel.v
theories/ScanProofs.v
theories/PropsPassphrase.v
theories/PrepareModel.v
theories/PropsPrepare.v
theories/PropsLogin.v
theories/GuardModel.v
theories/PropsGuard.v
theories/NymModel.v
theories/PropsNym.v
theories/KeystoreModel.v
theories/KeystoreProofs.v
theories/KeystoreLimit.v
theories/PropsKeystore.v
theories/MixKeysModel.v
theories/PropsMixKeys.v
theories/DialogModel.v
theories/PropsDialog.v
theories/ShutdownModel.v
theories/PropsShutdown.v
theories/ViewModel.v
theories/PropsView.v
theories/UpdateModel.v
theories/PropsUpdate.v
theories/PoolStoreModel.v
theories/PropsPoolStore.v
theories/CacheModel.v
theories/PropsCache.v
theories/GenerateModel.v
theories/PropsGenerate.v
theories/MixRPCModel.v
theories/PropsMixRPC.v
theories/HandModel.v
theories/PropsHand.v
theories/RemoteModel.v
theories/PropsRemote.v
theories/CopyModel.v
theories/PropsCopy.v
theories/CliModel.v
theories/PropsCli.v
theories/FuzzModel.v
theories/PropsFuzz.v
theories/EqualModel.v
theories/PropsEqual.v
theories/RecipModel.v
theories/PropsRecip.v
theories/EditorModel.v
theories/PropsEditor.v
theories/VacuumModel.v
theories/PropsVacuum.v
theories/KeyEntryModel.v
theories/PropsKeyEntry.v
theories/LogModel.v
theories/PropsLog.v
theories/NoTokensModel.v
theories/PropsNoTokens.v
theories/CompleteModel.v
theories/PropsComplete.v
