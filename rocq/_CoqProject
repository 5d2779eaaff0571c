-Q theories Verif
theories/GoStr.v
theories/Codec.v
theories/Sha.v
theories/Utils.v
theories/Core.v
theories/Json.v
theories/OAuthError.v
theories/IdToken.v
theories/Assertion.v
theories/Grants.v
theories/TokenEndpoint.v
theories/ResourceProtector.v
theories/AuthzResponse.v
theories/AuthzEndpoint.v
theories/Misc.v
theories/World.v
theories/TestStore.v
theories/Hoare.v
theories/StrFacts.v
theories/Spec.v
theories/TokenSpec.v
theories/UtilsFacts.v
theories/ShaFacts.v
theories/WpTac.v
theories/GrantFacts.v
theories/TokenFacts.v
theories/TokenProofs.v
theories/LogFacts.v
theories/Demo.v
theories/TokenComplete.v
theories/TokenMore.v
theories/PropsUtil.v
theories/PropsToken.v
theories/ResourceSpec.v
theories/ResourceFacts.v
theories/PropsResource.v
theories/AuthzSpec.v
theories/AuthzFacts.v
theories/AuthzDecide.v
theories/AuthzValidate.v
theories/AuthzProofs.v
theories/AuthzMore.v
theories/PropsAuthz.v
theories/CodecSpec.v
theories/CodecFacts.v
theories/JsonParse.v
theories/JsonFacts.v
theories/PropsCodec.v
theories/PropsMisc.v
theories/SysSpec.v
theories/SysFacts.v
theories/SysTrace.v
theories/StoreFacts.v
theories/SysDemo.v
theories/PropsSystem.v
theories/AssertSpec.v
theories/AssertFacts.v
theories/FlowFacts.v
theories/PropsAssert.v
theories/FlowSpec.v
theories/ReasonFacts.v
theories/OutcomeFacts.v
theories/PropsFlow.v
theories/LogLine.v
theories/PropsOutput.v
theories/TraceSpec.v
theories/TraceFacts.v
theories/PropsTrace.v
theories/IsolSpec.v
theories/IsolFacts.v
theories/LeakFacts.v
theories/PropsIsol.v
theories/WorkSpec.v
theories/WorkFacts.v
theories/RedeemFacts.v
theories/PropsWork.v
theories/PropsSilent.v
theories/BoundSpec.v
theories/Bound.v
theories/BoundFacts.v
theories/BoundAuthz.v
theories/PropsBound.v
theories/AgreeSpec.v
theories/AgreeFacts.v
theories/PropsAgree.v
theories/RefreshSpec.v
theories/RefreshFacts.v
theories/PropsRefresh.v
theories/RevokeSpec.v
theories/RevokeFacts.v
theories/PropsRevoke.v
theories/Http.v
theories/HttpSpec.v
theories/HttpFacts.v
theories/MultipartFacts.v
theories/PropsHttp.v
theories/JsonFull.v
theories/JsonTree.v
theories/Jwt.v
theories/JwtSpec.v
theories/JwtFacts.v
theories/JwtRead.v
theories/PropsJwt.v
theories/JsonSpec.v
theories/TreePrint.v
theories/DecodeSpec.v
theories/JsonGram.v
theories/JsonFloat.v
theories/JsonRead.v
theories/TreeRead.v
theories/DecodeFacts.v
theories/PropsDecode.v
theories/TestServer.v
theories/ServerSpec.v
theories/ServerFacts.v
theories/ServerGrants.v
theories/HistFacts.v
theories/ServerCode.v
theories/PropsServer.v
theories/PropsJson.v
theories/FaultSpec.v
theories/FaultFacts.v
theories/FaultIff.v
theories/PropsFault.v
theories/ViewFacts.v
theories/AmidFacts.v
theories/PropsAmid.v
theories/EndSpec.v
theories/EndFacts.v
theories/PropsEnd.v
theories/FipsSpec.v
theories/FipsFacts.v
theories/PropsFips.v
theories/WhySpec.v
theories/WhyFacts.v
theories/PropsWhy.v
theories/ReportSpec.v
theories/ReportFacts.v
theories/ReportAuthz.v
theories/PropsReport.v
theories/UrlParse.v
theories/RedirectSpec.v
theories/RedirectFacts.v
theories/PropsRedirect.v
theories/ChallengeSpec.v
theories/ChallengeFacts.v
theories/PropsChallenge.v
theories/ChainFacts.v
theories/PropsChain.v
theories/Pem.v
theories/PemSpec.v
theories/PemFacts.v
theories/Crypto.v
theories/PropsCrypto.v
theories/PropsGuard.v
