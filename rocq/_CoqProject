-Q theories Verif
theories/Base.v
theories/Zxlib.v
theories/Crypto.v
theories/Utils.v
theories/RuntimeArg.v
theories/Deploy.v
theories/DeployUI.v
theories/TxV1.v
theories/TxV1UI.v
theories/Parser.v
theories/App.v
theories/Vectors.v
theories/BaseFacts.v
theories/Spec.v
theories/Exec.v
theories/ArgsFacts.v
theories/ReaderFacts.v
theories/SpecText.v
theories/TextFacts.v
theories/SpecDeploy.v
theories/Shows.v
theories/DeployArgs.v
theories/SessionFacts.v
theories/DelegationFacts.v
theories/StoredFacts.v
theories/ModuleFacts.v
theories/ReviewFacts.v
theories/Demo.v
theories/WitBasic.v
theories/PropsBasic.v
theories/PropsText.v
theories/DeployCases.v
theories/WitDeploy.v
theories/PropsDeploy.v
theories/RangeFacts.v
theories/BindFacts.v
theories/OklFacts.v
theories/BindCases.v
theories/WitBind.v
theories/PropsBind.v
theories/SpecApp.v
theories/AppFacts.v
theories/AppHist.v
theories/AppClaims.v
theories/AppSign.v
theories/SpecTx.v
theories/TxFacts.v
theories/TxBody.v
theories/TxShow.v
theories/TxReview.v
theories/TxClaims.v
theories/WitTx.v
theories/PropsTx.v
theories/SpecLayout.v
theories/SafeFacts.v
theories/FwdFacts.v
theories/SpecRaw.v
theories/RawFacts.v
theories/TxInv.v
theories/TxAccept.v
theories/DeploySafe.v
theories/TxSign.v
theories/WitSafe.v
theories/PropsSafe.v
theories/WitApp.v
theories/PropsLayout.v
theories/PropsApp.v
theories/ExtFacts.v
theories/ExtUI.v
theories/ExtTx.v
theories/ModeFacts.v
theories/MoreSign.v
theories/WitMore.v
theories/PropsMore.v
theories/SpecLook.v
theories/LookFacts.v
theories/LookTx.v
theories/WitLook.v
theories/PropsLook.v
theories/SpecSess.v
theories/SessFacts.v
theories/SessTx.v
theories/Screen.v
theories/WasmSafe.v
theories/SessWasm.v
theories/SessReply.v
theories/WitSess.v
theories/PropsSess.v
theories/SessMore.v
theories/SizeFacts.v
theories/SpecAppv.v
theories/AppvFacts.v
theories/WitRest.v
theories/RawShow.v
theories/WitRaw.v
theories/PropsRest.v
theories/PropsRaw.v
theories/SpecForm.v
theories/FormFacts.v
theories/SpecHead.v
theories/SpecBlind.v
theories/SpecVerdict.v
theories/SpecShow.v
theories/SpecWrap.v
theories/FormUnique.v
theories/FormReview.v
theories/FormArgs.v
theories/FormRun.v
theories/FormAccept.v
theories/FormShow.v
theories/WitForm.v
theories/WitShow.v
theories/PropsForm.v
theories/PropsSeen.v
theories/WitExact.v
theories/PropsExact.v
theories/FormSign.v
theories/DeploySign.v
theories/WitSign.v
theories/PropsSign.v
theories/LookForm.v
theories/WitAlike.v
theories/PropsAlike.v
theories/LookMore.v
theories/ModeItems.v
theories/ModeTx.v
theories/WitExtra.v
theories/PropsExtra.v
theories/HeadFacts.v
theories/HeadClear.v
theories/WitHead.v
theories/PropsHead.v
theories/ModeV1.v
theories/ModeForm.v
theories/WitMode.v
theories/PropsMode.v
theories/BlindReview.v
theories/BlindFacts.v
theories/WitBlind.v
theories/PropsBlind.v
theories/VerdictFacts.v
theories/VerdictLost.v
theories/VerdictCode.v
theories/VerdictAuction.v
theories/WitVerdict.v
theories/PropsVerdict.v
theories/FormSeen.v
theories/HeadSeen.v
theories/HeadDeploy.v
theories/HeadPrice.v
theories/WitWrap.v
theories/PropsWrap.v
theories/SeenSign.v
theories/PadAny.v
theories/WitPad.v
theories/PropsPad.v
