-Q theories Verif

theories/Base.v
theories/BaseFacts.v
theories/Utf8.v
theories/Utf8Facts.v
theories/Json.v
theories/JsonFacts.v
theories/JsonText.v
theories/JsonTextFacts.v
theories/Base64.v
theories/Base64Facts.v
theories/UrlEncoded.v
theories/UrlEncodedFacts.v
theories/Url.v
theories/Sha256.v
theories/Cbor.v
theories/Serde.v
theories/Object.v
theories/Formats.v
theories/Params.v
theories/Metadata.v
theories/Dcql.v
theories/Effects.v
theories/Jwt.v
theories/Request.v
theories/Verify.v
theories/Did.v
theories/X509.v
theories/Response.v
theories/Jwe.v
theories/Iso.v
theories/Wallet.v
theories/Session.v
theories/Client.v
theories/Builder.v
theories/Server.v
theories/MapFacts.v
theories/Spec.v
theories/ParamFacts.v
theories/SpecObject.v
theories/PfObject.v
theories/PObject.v
theories/PfParams.v
theories/PParams.v
theories/PfFormats.v
theories/PFormats.v
theories/PfDcql.v
theories/PDcql.v
theories/PfMetadata.v
theories/PMetadata.v
theories/PfText.v
theories/PText.v
theories/SpecRequest.v
theories/PfRequest.v
theories/PRequest.v
theories/PfResolve.v
theories/PResolve.v
theories/PfVerify.v
theories/PVerify.v
theories/SpecVerify.v
theories/PfDid.v
theories/PDid.v
theories/PfX509.v
theories/PX509.v
theories/PfClient.v
theories/PClient.v
theories/SpecBuilder.v
theories/StoreFacts.v
theories/PfBuilder.v
theories/PBuilder.v
theories/SpecSession.v
theories/PfSession.v
theories/PSession.v
theories/PfServer.v
theories/PServer.v
theories/SpecResponse.v
theories/PfResponse.v
theories/PResponse.v
theories/SpecWallet.v
theories/PfWallet.v
theories/PWallet.v
theories/SpecJwe.v
theories/PfJwe.v
theories/PJwe.v
theories/SpecIso.v
theories/Sha256Facts.v
theories/CborFacts.v
theories/PfIso.v
theories/PIso.v
theories/ExMatcher.v
theories/ExWallet.v
theories/SpecExample.v
theories/PfExample.v
theories/PExample.v
theories/ExVerifier.v
theories/ExCli.v
theories/SpecVerifierEx.v
theories/UuidFacts.v
theories/PfExServer.v
theories/PExServer.v
theories/PfExInitiate.v
theories/PExInitiate.v
theories/PfInterop.v
theories/PInterop.v
theories/SpecCli.v
theories/PfExCli.v
theories/PExCli.v
theories/SpecConfig.v
theories/PfConfig.v
theories/PConfig.v
theories/SpecFlow.v
theories/PfFlow.v
theories/PFlow.v
theories/SpecDcql.v
theories/PfQuery.v
theories/PQuery.v
theories/SpecServer.v
theories/PfHistory.v
theories/PHistory.v
theories/SpecSha.v
theories/PfSha.v
theories/PSha.v
theories/ExMetadata.v
theories/StatusJson.v
theories/SpecStatus.v
theories/PfAnnounce.v
theories/PAnnounce.v
theories/PfStatus.v
theories/PStatus.v
theories/SpecExHistory.v
theories/PfFresh.v
theories/PFresh.v
theories/PfExHistory.v
theories/PExHistory.v
theories/SpecJsonText.v
theories/GrammarFacts.v
theories/PfGrammar.v
theories/PGrammar.v
theories/SpecEncodings.v
theories/PfEncodings.v
theories/PEncodings.v
theories/SpecReading.v
theories/PfReading.v
theories/PReading.v
theories/PfPanic.v
theories/PPanic.v
theories/ExConsole.v
theories/SpecConsole.v
theories/PfConsole.v
theories/PConsole.v
theories/JsonPretty.v
theories/PrettyFacts.v
theories/ExCache.v
theories/SpecCache.v
theories/CacheFacts.v
theories/PfCache.v
theories/PCache.v
theories/ExHttp.v
theories/SpecHttp.v
theories/PfHttp.v
theories/PHttp.v
theories/ExShipped.v
theories/SpecShipped.v
theories/PfShipped.v
theories/PShipped.v
theories/ExWeb.v
theories/SpecWeb.v
theories/PfWeb.v
theories/PWeb.v
theories/Signer.v
theories/SpecSigner.v
theories/PfSigner.v
theories/PSigner.v
theories/ExStart.v
theories/SpecStart.v
theories/PfStart.v
theories/PStart.v
theories/DcqlEdit.v
theories/SpecEdit.v
theories/PfEdit.v
theories/PEdit.v
theories/ExCliWeb.v
theories/SpecCliWeb.v
theories/PfCliWeb.v
theories/PCliWeb.v
theories/Reqwest.v
theories/SpecReqwest.v
theories/PfReqwest.v
theories/PReqwest.v
theories/P256.v
theories/SpecP256.v
theories/P256Facts.v
theories/SpecHolder.v
theories/PfHolder.v
theories/PHolder.v
theories/WebUrl.v
theories/SpecWebUrl.v
theories/PfWebUrl.v
theories/PWebUrl.v
theories/PfWebFlow.v
theories/PWebFlow.v
theories/PfWebReads.v
theories/PWebReads.v
theories/HttpUri.v
theories/SpecHttpUri.v
theories/PfHttpUri.v
theories/PHttpUri.v
theories/PfHttpFlow.v
theories/PHttpFlow.v
theories/WebJoin.v
theories/SpecWebJoin.v
theories/PfWebJoin.v
theories/PWebJoin.v
theories/PfJoinFlow.v
theories/PJoinFlow.v
theories/CborStreamFacts.v
theories/SpecCert.v
theories/CertFacts.v
theories/WebHost.v
theories/SpecHost.v
theories/HostFacts.v
theories/PfIp.v
theories/PIp.v
theories/PfHost.v
theories/PHost.v
theories/PfHostUrl.v
theories/PHostUrl.v
theories/SpecIds.v
theories/PfIds.v
theories/PIds.v
theories/PfPages.v
theories/PPages.v
theories/PfHostFlow.v
theories/PHostFlow.v
theories/RepoTests.v
theories/RepoIso.v
theories/RepoFlow.v
theories/AnyStore.v
theories/SpecStore.v
theories/PfAnyStore.v
theories/PAnyStore.v
theories/PfSibling.v
theories/PSibling.v
theories/SpecAgree.v
theories/PfAgree.v
theories/PAgree.v
theories/ExPrint.v
theories/SpecPrint.v
theories/PfPrint.v
theories/PPrint.v
theories/JsonOrder.v
theories/SpecOrder.v
theories/LikeFacts.v
theories/PfOrder.v
theories/POrder.v
theories/SpecJweCalls.v
theories/PfJweCalls.v
theories/PJweCalls.v
theories/JsonNumber.v
theories/SpecNumber.v
theories/PfNumber.v
theories/PNumber.v
theories/PfNonce.v
theories/PNonce.v
theories/SpecIgnored.v
theories/PfIgnored.v
theories/PIgnored.v
theories/PfAccess.v
theories/PAccess.v
theories/SpecAtomic.v
theories/PfAtomic.v
theories/PAtomic.v
theories/SpecExAtomic.v
theories/PfExAtomic.v
theories/PExAtomic.v
theories/SpecMore.v
theories/PfMore.v
theories/PMore.v
theories/SpecAnyAtomic.v
theories/PfAnyAtomic.v
theories/PAnyAtomic.v
theories/RandomId.v
theories/SpecRandomId.v
theories/PfRandomId.v
theories/PRandomId.v
theories/SpecGuess.v
theories/PfGuess.v
theories/PGuess.v
theories/PfReveal.v
theories/PReveal.v
theories/SpecConverge.v
theories/PfConverge.v
theories/PConverge.v
theories/SpecCompany.v
theories/PfCompany.v
theories/PCompany.v
theories/PfPassing.v
theories/PPassing.v
theories/PfSealed.v
theories/PSealed.v
theories/SpecPopulation.v
theories/PfPopulation.v
theories/PPopulation.v
theories/PfHolding.v
theories/PHolding.v
theories/SpecWritten.v
theories/PfWritten.v
theories/PWritten.v
theories/SpecSize.v
theories/PfSize.v
theories/PSize.v
theories/ExLog.v
theories/SpecLog.v
theories/PfLog.v
theories/PLog.v
theories/PfLogWallet.v
theories/PLogWallet.v
theories/SpecCliAtomic.v
theories/PfCliAtomic.v
theories/PCliAtomic.v
theories/LibLog.v
theories/SpecLibLog.v
theories/PfLibLog.v
theories/PLibLog.v
theories/LibLogRun.v
theories/SpecLibLogRun.v
theories/PfLibLogRun.v
theories/PLibLogRun.v
