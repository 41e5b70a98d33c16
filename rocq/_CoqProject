-Q theories Verif
theories/Base.v
theories/PyVal.v
theories/BaseFacts.v
theories/B64.v
theories/CaseConv.v
theories/Url.v
theories/Utf8.v
theories/Json.v
theories/Cbor.v
theories/Utf8Facts.v
theories/CborFacts.v
theories/Types.v
theories/World.v
theories/FormatSpec.v
theories/Parsers.v
theories/Crypto.v
theories/Backends.v
theories/Spec.v
theories/StepSpec.v
theories/StepFacts.v
theories/FormatFacts.v
theories/MapFailSpec.v
theories/RaiseFacts.v
theories/MapFails.v
theories/ClientFacts.v
theories/AuthFacts.v
theories/CryptoFacts.v
theories/BackendFacts.v
theories/ErrorFacts.v
theories/History.v
theories/HistoryFacts.v
theories/HistorySpec.v
theories/Examples.v
theories/AssertFacts.v
theories/PropsAssert.v
theories/ConcurrencyFacts.v
theories/ConcurrencyCount.v
theories/PropsHistory.v
theories/AttestFacts.v
theories/PropsAttest.v
theories/KeyFacts.v
theories/PropsFormat.v
theories/CodecSpec.v
theories/B64Facts.v
theories/B64Round.v
theories/CaseFacts.v
theories/UrlFacts.v
theories/CborExt.v
theories/CodecFacts.v
theories/PropsCodec.v
theories/Jsonify.v
theories/Builders.v
theories/OptionSpec.v
theories/JsonifyFacts.v
theories/OptionFacts.v
theories/OptionProps.v
theories/JsonGraph.v
theories/JsonGraphSpec.v
theories/JsonGraphFacts.v
theories/PropsOptions.v
theories/Heap.v
theories/HeapFacts.v
theories/HeapProps.v
theories/PropsHeap.v
theories/JsonSpec.v
theories/JsonFacts.v
theories/Utf8Sound.v
theories/ClientJson.v
theories/PropsClient.v
theories/App.v
theories/AppSpec.v
theories/AppFacts.v
theories/AppHistory.v
theories/AppAccept.v
theories/AppExamples.v
theories/AppTheorems.v
theories/PropsApp.v
theories/Der.v
theories/Asn1.v
theories/DerSpec.v
theories/DerFacts.v
theories/Asn1Facts.v
theories/KeyDescFacts.v
theories/PropsAsn1.v
theories/CborSpec.v
theories/CborExact.v
theories/WireSpec.v
theories/WireFacts.v
theories/PropsWire.v
theories/FailSpec.v
theories/FailFacts.v
theories/LongInts.v
theories/PropsErrors.v
theories/HonestSpec.v
theories/HonestFacts.v
theories/AppHonest.v
theories/PropsHonest.v
theories/AppConc.v
theories/AppConcSpec.v
theories/AppConcFacts.v
theories/AppConcInv.v
theories/AppReplySpec.v
theories/AppReply.v
theories/AppConcExamples.v
theories/AppConcTheorems.v
theories/AppConcCount.v
theories/PropsConc.v
theories/AppConcHonestSpec.v
theories/AppConcHonest.v
theories/AppConcHonestEx.v
theories/PropsServe.v
theories/Dumps.v
theories/DumpsSpec.v
theories/DumpsFacts.v
theories/DumpsOptions.v
theories/DumpsFirstSpec.v
theories/DumpsFirst.v
theories/PropsDumps.v
theories/AgreeSpec.v
theories/Agree.v
theories/AgreeExamples.v
theories/PropsAgree.v
theories/Attesters.v
theories/AttesterSpec.v
theories/AttesterFacts.v
theories/PropsAttesters.v
theories/Form.v
theories/Page.v
theories/PageSpec.v
theories/FormFacts.v
theories/PageText.v
theories/PageArgs.v
theories/PageParse.v
theories/PageSend.v
theories/PageRun.v
theories/PageStatus.v
theories/PageStages.v
theories/PageExamples.v
theories/PropsPage.v
theories/PropsStages.v
theories/CeremonySpec.v
theories/OriginFacts.v
theories/CeremonyFacts.v
theories/PropsCeremony.v
theories/PhishSpec.v
theories/PhishFacts.v
theories/PropsPhish.v
theories/ReadSpec.v
theories/ReadFacts.v
theories/FormRead.v
theories/MapKeys.v
theories/WriteSpec.v
theories/WriteFacts.v
theories/PropsRead.v
theories/Registrars.v
theories/PropsRegistrar.v
theories/AppConcOptions.v
theories/Web.v
theories/WebSpec.v
theories/WebFacts.v
theories/WebHonest.v
theories/WebAlone.v
theories/WebExamples.v
theories/PropsWeb.v
theories/Routes.v
theories/RoutesSpec.v
theories/RoutesFacts.v
theories/PropsRoutes.v
theories/Life.v
theories/LifeSpec.v
theories/LifeHonestSpec.v
theories/LifeFacts.v
theories/LifeHonest.v
theories/LifeEx.v
theories/PropsLife.v
theories/Utf8Replace.v
theories/ReplaceSpec.v
theories/ReplaceFacts.v
theories/ReplaceForms.v
theories/PropsReplace.v
theories/RepoTests.v
