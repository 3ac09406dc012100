-Q theories Verif

theories/Model/Aes.v
theories/Model/Alert.v
theories/Model/AppChannel.v
theories/Model/Base.v
theories/Model/Base64.v
theories/Model/Bytes.v
theories/Model/Certificate.v
theories/Model/Chacha.v
theories/Model/Channel.v
theories/Model/Client.v
theories/Model/ClientMemory.v
theories/Model/Config.v
theories/Model/Curve.v
theories/Model/Der.v
theories/Model/Display.v
theories/Model/Ecdsa.v
theories/Model/ExampleFiles.v
theories/Model/Examples.v
theories/Model/Extensions.v
theories/Model/F32.v
theories/Model/Gcm.v
theories/Model/Handshake.v
theories/Model/Hello.v
theories/Model/Hmac.v
theories/Model/Kex.v
theories/Model/KeySchedule.v
theories/Model/Keylog.v
theories/Model/Log.v
theories/Model/Pem.v
theories/Model/Rand.v
theories/Model/Record.v
theories/Model/Server.v
theories/Model/Sha2.v
theories/Model/SigAlgs.v
theories/Model/Signature.v
theories/Model/Stream.v
theories/Model/Suite.v
theories/Model/X25519.v
theories/Model/X509.v
theories/Proofs/Aes.v
theories/Proofs/AfterHandshake.v
theories/Proofs/Agreement.v
theories/Proofs/AgreementRuns.v
theories/Proofs/Alert.v
theories/Proofs/Alerting.v
theories/Proofs/AnyStage.v
theories/Proofs/AnyStageClient.v
theories/Proofs/Anytime.v
theories/Proofs/Auth.v
theories/Proofs/Base64.v
theories/Proofs/Base64Any.v
theories/Proofs/Bounded.v
theories/Proofs/Bytes.v
theories/Proofs/CertCrash.v
theories/Proofs/CertExample.v
theories/Proofs/CertFalls.v
theories/Proofs/CertMessagePanics.v
theories/Proofs/CertPanics.v
theories/Proofs/Chacha.v
theories/Proofs/Chance.v
theories/Proofs/Channel.v
theories/Proofs/ClientAccept.v
theories/Proofs/ClientAccept2.v
theories/Proofs/ClientAlerts.v
theories/Proofs/ClientBroken.v
theories/Proofs/ClientCrashes.v
theories/Proofs/ClientFlow.v
theories/Proofs/ClientHandshakeExample.v
theories/Proofs/ClientMemory.v
theories/Proofs/ClientProps.v
theories/Proofs/ClientReads.v
theories/Proofs/ClientRun.v
theories/Proofs/ClientSteps.v
theories/Proofs/Config.v
theories/Proofs/Crashes.v
theories/Proofs/Cuts.v
theories/Proofs/Dates.v
theories/Proofs/Dh25519.v
theories/Proofs/EcGroup.v
theories/Proofs/EcOrder.v
theories/Proofs/Ecdsa.v
theories/Proofs/EcdsaP256.v
theories/Proofs/Endless.v
theories/Proofs/Ends.v
theories/Proofs/EndsExample.v
theories/Proofs/ExampleConfig.v
theories/Proofs/Examples.v
theories/Proofs/ExamplesJoined.v
theories/Proofs/FastLadder.v
theories/Proofs/Fp.v
theories/Proofs/Gcm.v
theories/Proofs/Gf2.v
theories/Proofs/HandshakeExample.v
theories/Proofs/Hello.v
theories/Proofs/HelloCrashes.v
theories/Proofs/HelloFalls.v
theories/Proofs/HelloLists.v
theories/Proofs/HelloPanics.v
theories/Proofs/HelloTotal.v
theories/Proofs/Hex.v
theories/Proofs/Hmac.v
theories/Proofs/Http.v
theories/Proofs/Impersonation.v
theories/Proofs/ImpersonationExample.v
theories/Proofs/Kex.v
theories/Proofs/KeySchedule.v
theories/Proofs/Log.v
theories/Proofs/Loopback.v
theories/Proofs/LoopbackExample.v
theories/Proofs/Montgomery.v
theories/Proofs/Negotiate.v
theories/Proofs/Number.v
theories/Proofs/Opened.v
theories/Proofs/Order.v
theories/Proofs/P256.v
theories/Proofs/Pem.v
theories/Proofs/Primes.v
theories/Proofs/PrivateKey.v
theories/Proofs/Proper.v
theories/Proofs/Rand.v
theories/Proofs/ReadData.v
theories/Proofs/Reads.v
theories/Proofs/Record.v
theories/Proofs/RequestCrash.v
theories/Proofs/RequestExample.v
theories/Proofs/RequestPanics.v
theories/Proofs/ServerAccept.v
theories/Proofs/ServerAccept2.v
theories/Proofs/ServerAnswer.v
theories/Proofs/ServerCrash.v
theories/Proofs/ServerExample.v
theories/Proofs/ServerFlow.v
theories/Proofs/ServerHelloPanics.v
theories/Proofs/ServerKeys.v
theories/Proofs/ServerProps.v
theories/Proofs/ServerRun.v
theories/Proofs/ServerSteps.v
theories/Proofs/Sha2.v
theories/Proofs/Shorter.v
theories/Proofs/Shown.v
theories/Proofs/SigAlgs.v
theories/Proofs/Signature.v
theories/Proofs/SmallOrder.v
theories/Proofs/SmallShares.v
theories/Proofs/Stream.v
theories/Proofs/Time.v
theories/Proofs/TimeText.v
theories/Proofs/Utf8.v
theories/Proofs/Util.v
theories/Proofs/VerifyPanics.v
theories/Proofs/Weier.v
theories/Proofs/X25519.v
theories/Proofs/X25519Props.v
theories/Proofs/X509.v
theories/Proofs/X509Any.v
theories/Proofs/X509Bytes.v
theories/Proofs/X509Cert.v
theories/Props/Aes.v
theories/Props/AfterHandshake.v
theories/Props/Agreement.v
theories/Props/Auth.v
theories/Props/Base64Any.v
theories/Props/Bounded.v
theories/Props/CertMessage.v
theories/Props/Chacha.v
theories/Props/Client.v
theories/Props/ClientDown.v
theories/Props/ClientHandshake.v
theories/Props/Config.v
theories/Props/Dates.v
theories/Props/Ec.v
theories/Props/Encoding.v
theories/Props/Ends.v
theories/Props/Examples.v
theories/Props/Gcm.v
theories/Props/Handshake.v
theories/Props/Hash.v
theories/Props/Hello.v
theories/Props/Http.v
theories/Props/Impersonation.v
theories/Props/Kex.v
theories/Props/Log.v
theories/Props/Loopback.v
theories/Props/Rand.v
theories/Props/Record.v
theories/Props/RequestDown.v
theories/Props/Server.v
theories/Props/ServerAnswer.v
theories/Props/ServerDown.v
theories/Props/Shown.v
theories/Props/SigAlgs.v
theories/Props/Signature.v
theories/Props/SmallOrder.v
theories/Props/Stream.v
theories/Props/Time.v
theories/Props/X25519.v
theories/Props/X509.v
theories/Props/X509Any.v
theories/Spec/AfterHandshake.v
theories/Spec/Agreement.v
theories/Spec/Alerts.v
theories/Spec/Base64Any.v
theories/Spec/Broken.v
theories/Spec/Calendar.v
theories/Spec/CertFalls.v
theories/Spec/CertMessagePanics.v
theories/Spec/CertPanics.v
theories/Spec/Chance.v
theories/Spec/ClientAccept.v
theories/Spec/ClientConnection.v
theories/Spec/ClientCrashes.v
theories/Spec/Config.v
theories/Spec/Connection.v
theories/Spec/Crashes.v
theories/Spec/Dates.v
theories/Spec/Ec.v
theories/Spec/EcView.v
theories/Spec/Ecdsa.v
theories/Spec/Enc.v
theories/Spec/Endpoints.v
theories/Spec/Ends.v
theories/Spec/Fips180.v
theories/Spec/Fips197.v
theories/Spec/Gf2.v
theories/Spec/Handshaking.v
theories/Spec/HelloCrashes.v
theories/Spec/HelloPanics.v
theories/Spec/HelloView.v
theories/Spec/Hex.v
theories/Spec/Http.v
theories/Spec/Impersonation.v
theories/Spec/KeyShare.v
theories/Spec/Keylog.v
theories/Spec/Limbs.v
theories/Spec/Logging.v
theories/Spec/Loopback.v
theories/Spec/Negotiation.v
theories/Spec/PemFile.v
theories/Spec/Proper.v
theories/Spec/RequestPanics.v
theories/Spec/Rfc2104.v
theories/Spec/Rfc4648.v
theories/Spec/Rfc7748.v
theories/Spec/Rfc8439.v
theories/Spec/Rfc8446Auth.v
theories/Spec/Rfc8446Hello.v
theories/Spec/Rfc8446Keys.v
theories/Spec/SameView.v
theories/Spec/Sec1.v
theories/Spec/ServerAnswer.v
theories/Spec/Shown.v
theories/Spec/SmallOrder.v
theories/Spec/Sp80038d.v
theories/Spec/Tls13Record.v
theories/Spec/TranscriptOps.v
theories/Spec/VerifyPanics.v
theories/Spec/Writes.v
theories/Spec/X509.v
theories/Spec/X509Any.v
theories/Spec/X509View.v
theories/Tests/UnitTests.v
