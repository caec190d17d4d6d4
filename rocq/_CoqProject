-Q theories Verif
theories/Bytes.v
theories/BytesFacts.v
theories/Outcome.v
theories/Tlv.v
theories/TlvFacts.v
theories/Name.v
theories/NameFacts.v
theories/Multimap.v
theories/MultimapFacts.v
theories/Env.v
theories/CryptoHelpers.v
theories/Types.v
theories/ErrorEncoder.v
theories/InfoEncoder.v
theories/ProbeEncoder.v
theories/RequestEncoder.v
theories/ChallengeEncoder.v
theories/Json.v
theories/JsonText.v
theories/NameAssign.v
theories/Redirection.v
theories/CaProfile.v
theories/CaConfig.v
theories/ProfileStorage.v
theories/Storage.v
theories/Challenge.v
theories/CaModule.v
theories/CaTrace.v
theories/Requester.v
theories/CaServer.v
theories/ToyEnv.v
theories/JsonFacts.v
theories/ToyEnvFacts.v
theories/Spec_Codec.v
theories/Spec_JsonText.v
theories/JsonTextFacts.v
theories/EncoderFacts.v
theories/RequestFacts.v
theories/Spec_Crypto.v
theories/Spec_Reply.v
theories/CryptoFacts.v
theories/ChallengeCodecFacts.v
theories/Samples.v
theories/CodecWitness.v
theories/Properties_Codec.v
theories/CryptoWitness.v
theories/Properties_Crypto.v
theories/Spec_Storage.v
theories/StorageFacts.v
theories/StorageWitness.v
theories/Properties_Storage.v
theories/Spec_Ca.v
theories/ChallengeFacts.v
theories/CaFacts.v
theories/TraceFacts.v
theories/Spec_Policy.v
theories/PolicyFacts.v
theories/EmailScript.v
theories/Spec_Email.v
theories/EmailFacts.v
theories/CaProps.v
theories/ChalProps.v
theories/Spec_Trace.v
theories/TraceProps.v
theories/TraceCounts.v
theories/SimFacts.v
theories/OutcomeFacts.v
theories/TraceWitness.v
theories/Properties_Trace.v
theories/Spec_Secrecy.v
theories/SecrecyFacts.v
theories/SecrecyWitness.v
theories/Properties_Secrecy.v
theories/BackendWitness.v
theories/Properties_Backend.v
theories/Spec_Server.v
theories/ServerFacts.v
theories/ServerWitness.v
theories/Properties_Server.v
theories/Spec_Requester.v
theories/RequesterFacts.v
theories/RequesterWitness.v
theories/Properties_Requester.v
theories/PolicyWitness.v
theories/CaWitness.v
theories/Properties_Ca.v
theories/Properties_Policy.v
theories/Spec_Config.v
theories/ConfigFacts.v
theories/ConfigWitness.v
theories/Properties_Config.v
theories/PossessionFacts.v
theories/SessionFacts.v
theories/SessionWitness.v
theories/Properties_Session.v
theories/EndToEndFacts.v
theories/EndToEndWitness.v
theories/Properties_EndToEnd.v
theories/Client.v
theories/Spec_Client.v
theories/ClientFacts.v
theories/ClientWitness.v
theories/Properties_Client.v
theories/Spec_Accept.v
theories/AcceptFacts.v
theories/Properties_Accept.v
theories/Spec_ClientSession.v
theories/ClientSessionFacts.v
theories/ClientSessionWitness.v
theories/Properties_ClientSession.v
theories/PossessionConfig.v
theories/Spec_Files.v
theories/FilesFacts.v
theories/FilesWitness.v
theories/Properties_Files.v
theories/Host.v
theories/Spec_Host.v
theories/HostFacts.v
theories/HostWitness.v
theories/Properties_Host.v
theories/Spec_Limits.v
theories/LimitsFacts.v
theories/LimitsWitness.v
theories/Properties_Limits.v
theories/Spec_Network.v
theories/NetworkFacts.v
theories/NetworkWitness.v
theories/Properties_Network.v
theories/Spec_Guess.v
theories/GuessFacts.v
theories/GuessWitness.v
theories/Properties_Guess.v
theories/Spec_Isolation.v
theories/IsolationFacts.v
theories/IsolationWitness.v
theories/Properties_Isolation.v
theories/Spec_Odds.v
theories/OddsFacts.v
theories/OddsWitness.v
theories/Properties_Odds.v
theories/Spec_Wire.v
theories/WireFacts.v
theories/SizeFacts.v
theories/WireWitness.v
theories/Properties_Wire.v
theories/Spec_JsonGrammar.v
theories/JsonGrammarFacts.v
theories/JsonGrammarWitness.v
theories/Properties_JsonGrammar.v
theories/FillFacts.v
theories/FillWitness.v
theories/Properties_Possession.v
theories/NarrowFacts.v
theories/Spec_ClientEnd.v
theories/ClientEndFacts.v
theories/ClientEndWitness.v
theories/Properties_ClientEnd.v
theories/BufferFacts.v
theories/Spec_ClientChoice.v
theories/ClientChoiceFacts.v
theories/ClientChoiceWitness.v
theories/Properties_ClientChoice.v
theories/ServerProcess.v
theories/Spec_Process.v
theories/ProcessFacts.v
theories/ProcessWitness.v
theories/Properties_Process.v
theories/CertNameFacts.v
theories/CertNameWitness.v
theories/Properties_CertName.v
theories/MailScript.v
theories/Spec_Mail.v
theories/MailFacts.v
theories/MailWitness.v
theories/Properties_Mail.v
theories/Spec_Mails.v
theories/MailsFacts.v
theories/MailsWitness.v
theories/Properties_Mails.v
theories/Spec_Verdict.v
theories/VerdictFacts.v
theories/VerdictWitness.v
theories/Properties_Verdict.v
theories/Spec_Crash.v
theories/CrashFacts.v
theories/CrashWitness.v
theories/Properties_Crash.v
theories/Spec_Refused.v
theories/RefusedFacts.v
theories/RefusedWitness.v
theories/Properties_Refused.v
theories/Spec_Answer.v
theories/AnswerFacts.v
theories/AnswerWitness.v
theories/Properties_Answer.v
theories/Spec_Draw.v
theories/DrawFacts.v
theories/DrawWitness.v
theories/Properties_Draw.v
theories/Spec_Ledger.v
theories/LedgerFacts.v
theories/LedgerWitness.v
theories/Properties_Ledger.v
theories/Spec_Redirect.v
theories/RedirectFacts.v
theories/RedirectWitness.v
theories/Properties_Redirect.v
theories/Spec_Typed.v
theories/TypedFacts.v
theories/TypedWitness.v
theories/Properties_Typed.v
theories/Repo.v
theories/Spec_Repo.v
theories/RepoFacts.v
theories/RepoWitness.v
theories/Properties_Repo.v
theories/Face.v
theories/Spec_Face.v
theories/FaceFacts.v
theories/FaceWitness.v
theories/Properties_Face.v
theories/Spec_Revoke.v
theories/RevokeFacts.v
theories/RevokeWitness.v
theories/Properties_Revoke.v
theories/Registration.v
theories/Spec_Registration.v
theories/RegFacts.v
theories/RegWitness.v
theories/Properties_Registration.v
theories/Spec_Growth.v
theories/GrowthFacts.v
theories/GrowthWitness.v
theories/Properties_Growth.v
theories/ProfileReload.v
theories/Spec_Reload.v
theories/ReloadFacts.v
theories/ReloadWitness.v
theories/Properties_Reload.v
theories/Keychain.v
theories/Spec_Keychain.v
theories/KeychainFacts.v
theories/KeychainWitness.v
theories/Properties_Keychain.v
theories/Locked.v
theories/Spec_Locked.v
theories/LockedFacts.v
theories/LockedWitness.v
theories/Properties_Locked.v
theories/Spec_Reconfig.v
theories/ReconfigFacts.v
theories/ReconfigWitness.v
theories/Properties_Reconfig.v
theories/Spec_ReconfigSession.v
theories/ReconfigSessionFacts.v
theories/ReconfigSessionWitness.v
theories/Properties_ReconfigSession.v
theories/Spec_ReconfigRevoke.v
theories/ReconfigRevokeFacts.v
theories/ReconfigRevokeWitness.v
theories/Properties_ReconfigRevoke.v
theories/Spec_Rollover.v
theories/RolloverFacts.v
theories/RolloverWitness.v
theories/Properties_Rollover.v
theories/Spec_Cache.v
theories/CacheFacts.v
theories/CacheWitness.v
theories/Properties_Cache.v
theories/Spec_ReconfigRevocation.v
theories/ReconfigRevocationFacts.v
theories/ReconfigRevocationWitness.v
theories/Properties_ReconfigRevocation.v
theories/Spec_Hold.v
theories/HoldFacts.v
theories/HoldWitness.v
theories/Properties_Hold.v
theories/Spec_ReconfigClient.v
theories/ReconfigClientFacts.v
theories/ReconfigClientWitness.v
theories/Properties_ReconfigClient.v
theories/Spec_Forestall.v
theories/ForestallFacts.v
theories/ForestallWitness.v
theories/Properties_Forestall.v
theories/Spec_ReconfigPossession.v
theories/ReconfigPossessionFacts.v
theories/ReconfigPossessionWitness.v
theories/Properties_ReconfigPossession.v
theories/Spec_Observer.v
theories/ObserverFacts.v
theories/ObserverWitness.v
theories/Properties_Observer.v
theories/Spec_Outsider.v
theories/OutsiderFacts.v
theories/OutsiderWitness.v
theories/Properties_Outsider.v
theories/Spec_Trackless.v
theories/TracklessFacts.v
theories/TracklessWitness.v
theories/Properties_Trackless.v
theories/Spec_Commute.v
theories/CommuteFacts.v
theories/CommuteWitness.v
theories/Properties_Commute.v
theories/Spec_Unmade.v
theories/UnmadeFacts.v
theories/UnmadeWitness.v
theories/Properties_Unmade.v
theories/AtomicFacts.v
theories/AtomicWitness.v
theories/Properties_Atomic.v
theories/Spec_Restart.v
theories/RestartFacts.v
theories/RestartWitness.v
theories/Properties_Restart.v
