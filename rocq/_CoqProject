-Q theories Verif
theories/Base.v
theories/StringSpec.v
theories/Json.v
theories/Prog.v
theories/Sha256.v
theories/CoreModel.v
theories/VcModel.v
theories/IssuerTypes.v
theories/ClaimsModel.v
theories/IssuerModel.v
theories/ProgFacts.v
theories/ExecSpec.v
theories/ExecFacts.v
theories/Sched.v
theories/IssuerSpec.v
theories/IssuerFacts.v
theories/IssuerWp.v
theories/IssuerExec.v
theories/IssuerOffer.v
theories/IssuerExample.v
theories/P_Offer.v
theories/IssuerToken.v
theories/IssuerExpiry.v
theories/P_Token.v
theories/IssuerCredential.v
theories/IssuerNonce.v
theories/P_Credential.v
theories/AuthorizeSpec.v
theories/IssuerClaims.v
theories/IssuerAuthorize.v
theories/IssuerPushed.v
theories/IssuerFrame.v
theories/P_Authorize.v
theories/MatcherModel.v
theories/MatcherSpec.v
theories/MatcherFacts.v
theories/MatcherExample.v
theories/P_Matcher.v
theories/VerifierModel.v
theories/VerifierSpec.v
theories/VerifierFacts.v
theories/VerifierExec.v
theories/VerifierExample.v
theories/P_Verifier.v
theories/StatusModel.v
theories/StatusSpec.v
theories/StatusFacts.v
theories/P_Status.v
theories/UrlModel.v
theories/UrlSpec.v
theories/UrlFacts.v
theories/P_Url.v
theories/GenModel.v
theories/GenSpec.v
theories/GenFacts.v
theories/GenIssuer.v
theories/P_Gen.v
theories/VpParseModel.v
theories/BuilderSpec.v
theories/BuilderFacts.v
theories/P_Builder.v
theories/MdlModel.v
theories/MdlSpec.v
theories/MdlFacts.v
theories/P_Mdl.v
theories/HolderModel.v
theories/HolderSpec.v
theories/HolderFacts.v
theories/HolderExec.v
theories/HolderRuns.v
theories/HolderSerial.v
theories/HolderProps.v
theories/ComposeSpec.v
theories/HolderExample.v
theories/P_Wallet.v
theories/P_Present.v
theories/IssuerGrant.v
theories/ComposeFacts.v
theories/ComposeExample.v
theories/P_Compose.v
theories/PresentFacts.v
theories/P_PresentVerify.v
theories/WalletStepSpec.v
theories/HolderSteps.v
theories/CredentialSteps.v
theories/P_WalletSteps.v
theories/JsonParse.v
theories/JsonText.v
theories/JsonDeep.v
theories/SerdeSpec.v
theories/SerdeModel.v
theories/SerdeFacts.v
theories/SerdeTrips.v
theories/SerdeText.v
theories/SerdeStore.v
theories/SerdeRequest.v
theories/QueryModel.v
theories/SerdeQuery.v
theories/ErrorSpec.v
theories/ErrorModel.v
theories/ErrorFacts.v
theories/SerdeProps.v
theories/SerdeExample.v
theories/ErrorExample.v
theories/P_Serde.v
theories/P_Error.v
theories/WireSpec.v
theories/WireFacts.v
theories/P_Wire.v
theories/RedeemSpec.v
theories/IssuerComplete.v
theories/RedeemExec.v
theories/P_Redeem.v
theories/VcSpec.v
theories/VcSerde.v
theories/VcTrips.v
theories/VcText.v
theories/VpText.v
theories/VcExample.v
theories/P_Vc.v
theories/DifSerde.v
theories/DifSpec.v
theories/DifTrips.v
theories/DifFacts.v
theories/DifExec.v
theories/DifQuery.v
theories/P_Dif.v
theories/MetaSerde.v
theories/MetaSpec.v
theories/MetaTrips.v
theories/MetaFacts.v
theories/P_Meta.v
theories/RecordSerde.v
theories/RecordSpec.v
theories/RecordTrips.v
theories/RecordExec.v
theories/RecordExample.v
theories/P_Record.v
theories/OfferLink.v
theories/P_Link.v
theories/RegisterFacts.v
theories/P_Register.v
theories/AnswerSerde.v
theories/AnswerSpec.v
theories/AnswerFacts.v
theories/P_Answer.v
theories/SentSpec.v
theories/SentExec.v
theories/SentExample.v
theories/P_Sent.v
theories/TextSpec.v
theories/TextFacts.v
theories/TextExample.v
theories/P_Text.v
theories/MessageSerde.v
theories/MessageSpec.v
theories/MessageFacts.v
theories/P_Message.v
theories/MacroModel.v
theories/MacroSpec.v
theories/MacroFacts.v
theories/MacroJson.v
theories/P_Macro.v
theories/CborModel.v
theories/CborFacts.v
theories/CborSpec.v
theories/CborWire.v
theories/MdlCbor.v
theories/MdlRead.v
theories/MdlReadFacts.v
theories/MdlReadMain.v
theories/P_MdlCbor.v
theories/PresentTextSpec.v
theories/PresentTextFacts.v
theories/P_PresentText.v
theories/ServiceModel.v
theories/ServiceSpec.v
theories/ServiceFacts.v
theories/P_Service.v
theories/DatasetModel.v
theories/DatasetFacts.v
theories/P_Dataset.v
theories/FormModel.v
theories/FormFacts.v
theories/P_Form.v
theories/TextStore.v
theories/TextStoreFacts.v
theories/P_TextStore.v
theories/WalletModel.v
theories/WalletSpec.v
theories/WalletFacts.v
theories/P_App.v
theories/ReplyModel.v
theories/P_Reply.v
theories/DriveSpec.v
theories/DriveFacts.v
theories/DriveExample.v
theories/P_Drive.v
theories/KeepSpec.v
theories/P_Keep.v
theories/P_Given.v
theories/P_EndToEnd.v
