-Q theories Verif
theories/Base.v
theories/GoStrings.v
theories/GoStringsFacts.v
theories/Unicode.v
theories/UnicodeFacts.v
theories/GoFloat.v
theories/GoFloatFacts.v
theories/Regex.v
theories/Assertion.v
theories/AssertionSpec.v
theories/AssertionProofs.v
theories/Prop_Assertion.v
theories/PolicySpec.v
theories/PolicyCheck.v
theories/PolicyCheckProofs.v
theories/PolicyCheckFacts.v
theories/Prop_PolicyCheck.v
theories/Gache.v
theories/PolicySimplify.v
theories/PolicySimplifySpec.v
theories/PolicySimplifyProofs.v
theories/PolicyCacheProofs.v
theories/PolicyUpdateFacts.v
theories/PolicyCheckers.v
theories/Prop_PolicyUpdate.v
theories/Prop_Cancel.v
theories/Fetcher.v
theories/FetcherFacts.v
theories/Prop_Fetcher.v
theories/Prop_Verify.v
theories/PubKey.v
theories/PubKeyFacts.v
theories/Prop_PubKey.v
theories/Jwk.v
theories/Prop_Jwk.v
theories/Role.v
theories/RoleSpec.v
theories/RoleProofs.v
theories/Prop_Role.v
theories/Access.v
theories/Prop_Access.v
theories/Authorizer.v
theories/AuthorizerFacts.v
theories/Prop_Authorizer.v
theories/RoleCert.v
theories/Prop_RoleCert.v
theories/Query.v
theories/Translator.v
theories/TranslatorProofs.v
theories/Prop_Translator.v
theories/Mask.v
theories/Prop_Mask.v
theories/Config.v
theories/Prop_Config.v
theories/Daemon.v
theories/Prop_Daemon.v
theories/Prop_Init.v
theories/Prop_Start.v
theories/Client.v
theories/Prop_Client.v
theories/System.v
theories/SystemSpec.v
theories/SystemFacts.v
theories/SystemExec.v
theories/Prop_System.v
theories/Prop_Hook.v
theories/Prop_Window.v
theories/Body.v
theories/Prop_Body.v
theories/Startup.v
theories/Prop_Startup.v
theories/Slices.v
theories/Prop_Slices.v
theories/Prop_Revoke.v
theories/Prop_Kinds.v
theories/Prop_Query.v
theories/Duration.v
theories/Prop_Duration.v
theories/Prop_Bypass.v
theories/Results.v
theories/Prop_Results.v
theories/Timed.v
theories/Prop_Timed.v
theories/Joint.v
theories/Prop_Latency.v
theories/Snapshot.v
theories/Prop_Snapshot.v
theories/Prop_KeyRevoke.v
theories/Running.v
theories/Prop_KeyLatency.v
theories/Prop_Terminate.v
theories/Hooked.v
theories/Prop_Expiry.v
theories/Prop_Unexpired.v
theories/Prop_Lag.v
theories/GacheRace.v
theories/Prop_GacheRace.v
theories/Rough.v
theories/Prop_Rough.v
theories/Api.v
theories/ApiFacts.v
theories/Prop_Direct.v
theories/Prop_Api.v
theories/Prop_FailClosed.v
theories/Prop_Entitled.v
theories/Prop_Reports.v
theories/Whole.v
theories/Prop_Whole.v
theories/Prop_Grant.v
theories/Prop_NewKeys.v
theories/Prop_Outage.v
theories/GoMem.v
theories/MemTrace.v
theories/MemFacts.v
theories/MemPublish.v
theories/MemCheck.v
theories/Prop_Publish.v
theories/MemRace.v
theories/Prop_Race.v
theories/Prop_RaceSites.v
theories/Prop_CheckPolicy.v
theories/Prop_Monotone.v
theories/Prop_Arrange.v
theories/Handed.v
theories/Prop_Handed.v
theories/Prop_FailedUpdate.v
theories/Prop_Crash.v
theories/Prop_Isolation.v
theories/Prop_WaitFree.v
theories/Prop_Stopped.v
