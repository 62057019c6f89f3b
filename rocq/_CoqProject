-Q theories Verif
theories/Base.v
theories/DateModel.v
theories/PduModel.v
theories/PduSpec.v
theories/SeptetProofs.v
theories/Gsm7Proofs.v
theories/FieldProofs.v
theories/TimeProofs.v
theories/CodecFinal.v
theories/PropertiesCodec.v
theories/SmsSpec.v
theories/AddressProofs.v
theories/SubmitSpec.v
theories/SubmitProofs.v
theories/SubmitFinal.v
theories/PropertiesSubmit.v
theories/DeliverSpec.v
theories/DecodeProofs.v
theories/DecodeTotal.v
theories/PropertiesDecode.v
theories/TrieModel.v
theories/TrieSpec.v
theories/TrieProofs.v
theories/TrieFinal.v
theories/TrieDeadSpec.v
theories/TrieDeadProofs.v
theories/IterModel.v
theories/IterSpec.v
theories/IterProofs.v
theories/PropertiesIter.v
theories/PropertiesTrie.v
theories/UtilModel.v
theories/UtilSpec.v
theories/UtilProofs.v
theories/TimeExact.v
theories/PropertiesUtil.v
theories/RegexModel.v
theories/RegexProofs.v
theories/SerialModel.v
theories/SerialSpec.v
theories/SerialProofs.v
theories/ThreadProofs.v
theories/LockProofs.v
theories/ResponseProofs.v
theories/DeathProofs.v
theories/SerialFinal.v
theories/PropertiesSerial.v
theories/ModemCore.v
theories/ModemSpec.v
theories/WriteProofs.v
theories/MonadProofs.v
theories/SmsModel.v
theories/SendSpec.v
theories/TrackSpec.v
theories/SendProofs.v
theories/StoreLemmas.v
theories/TrackProofs.v
theories/ModemFinal.v
theories/PropertiesModem.v
theories/LangProofs.v
theories/CoverageSpec.v
theories/CoverageProofs.v
theories/CoverageTimer.v
theories/QueryProofs.v
theories/PropertiesNetwork.v
theories/StoreSpec.v
theories/ReadProofs.v
theories/StoreProofs.v
theories/ListSpec.v
theories/ListProofs.v
theories/ProcessProofs.v
theories/HandlerModel.v
theories/HandlerSpec.v
theories/HandlerProofs.v
theories/StoreFinal.v
theories/PropertiesStore.v
theories/UssdModel.v
theories/UssdSpec.v
theories/UssdProofs.v
theories/PropertiesUssd.v
theories/CallModel.v
theories/CallSpec.v
theories/DtmfProofs.v
theories/NotifyModel.v
theories/ConnectModel.v
theories/ConnectSpec.v
theories/ConnectProofs.v
theories/CentreProofs.v
theories/PropertiesConnect.v
theories/PollModel.v
theories/PollSpec.v
theories/PollProofs.v
theories/BookSpec.v
theories/BookProofs.v
theories/CallProofs.v
theories/CallFinal.v
theories/PropertiesCalls.v
theories/DialSpec.v
theories/DialProofs.v
theories/RingProofs.v
theories/PropertiesDial.v
theories/SetupSpec.v
theories/SetupProofs.v
theories/FeatureProofs.v
theories/SetupFinal.v
theories/PropertiesSetup.v
theories/WaitSpec.v
theories/WaitProofs.v
theories/PropertiesWait.v
theories/LifeModel.v
theories/LifeSpec.v
theories/LifeProofs.v
theories/PropertiesLife.v
theories/ToolModel.v
theories/ToolSpec.v
theories/ToolProofs.v
theories/PropertiesTool.v
theories/SenderModel.v
theories/SenderSpec.v
theories/SenderProofs.v
theories/SenderFinal.v
theories/SenderLink.v
theories/PropertiesSender.v
theories/TermModel.v
theories/TermSpec.v
theories/TermProofs.v
theories/ScreenProofs.v
theories/PropertiesTerm.v
theories/EntrySpec.v
theories/EntryProofs.v
theories/EnterProofs.v
theories/CommandData.v
theories/TableSpec.v
theories/TableProofs.v
theories/PropertiesEntry.v
theories/VectorsPdu.v
theories/VectorsModem.v
theories/VectorsTrie.v
theories/VectorsSerial.v
theories/NetworkModel.v
theories/NetworkSpec.v
theories/NetworkProofs.v
theories/PropertiesDelivery.v
theories/CallbackModel.v
theories/CallbackSpec.v
theories/CallbackProofs.v
theories/CallbackFinal.v
theories/CallbackCalls.v
theories/CallbackNews.v
theories/PropertiesCallback.v
theories/DemoModel.v
theories/DemoSpec.v
theories/DemoProofs.v
theories/PropertiesDemo.v
theories/StaleSpec.v
theories/StaleProofs.v
theories/PropertiesStale.v
theories/NoticeModel.v
theories/NoticeSpec.v
theories/NoticeProofs.v
theories/PropertiesNotice.v
theories/EndProofs.v
theories/PropertiesEnd.v
theories/FailSpec.v
theories/FailProofs.v
theories/PropertiesFail.v
theories/WireSpec.v
theories/WireProofs.v
theories/PropertiesWire.v
theories/MeetModel.v
theories/MeetSpec.v
theories/MeetProofs.v
theories/MeetFinal.v
theories/MeetLink.v
theories/PropertiesMeet.v
theories/RaceModel.v
theories/RaceSpec.v
theories/RaceProofs.v
theories/RaceInv.v
theories/RaceFinal.v
theories/RaceHow.v
theories/RaceCases.v
theories/RaceLink.v
theories/PropertiesRace.v
theories/CollectModel.v
theories/CollectSpec.v
theories/CollectProofs.v
theories/CollectInv.v
theories/CollectFinal.v
theories/CollectCases.v
theories/CollectLink.v
theories/PropertiesCollect.v
theories/ErrorModel.v
theories/ErrorSpec.v
theories/ErrorProofs.v
theories/PropertiesError.v
theories/TwinSpec.v
theories/TwinProofs.v
theories/TwinFinal.v
theories/PropertiesTwin.v
theories/YieldSpec.v
theories/YieldProofs.v
theories/PropertiesYield.v
theories/BytesModel.v
theories/BytesSpec.v
theories/BytesProofs.v
theories/PropertiesBytes.v
theories/InjectSpec.v
theories/InjectProofs.v
theories/PropertiesInject.v
theories/AnonSpec.v
theories/AnonProofs.v
theories/AnonFinal.v
theories/PropertiesAnon.v
theories/StampSpec.v
theories/StampProofs.v
theories/StampFinal.v
theories/PropertiesStamp.v
theories/PartsSpec.v
theories/PartsProofs.v
theories/PropertiesParts.v
theories/SpoofSpec.v
theories/SpoofProofs.v
theories/SpoofRead.v
theories/PropertiesSpoof.v
theories/CodingSpec.v
theories/CodingProofs.v
theories/TrailProofs.v
theories/PropertiesCoding.v
theories/CrowdModel.v
theories/CrowdSpec.v
theories/CrowdProofs.v
theories/PropertiesCrowd.v
theories/WeakModel.v
theories/WeakSpec.v
theories/WeakProofs.v
theories/PropertiesWeak.v
theories/KeysModel.v
theories/KeysSpec.v
theories/KeysProofs.v
theories/PropertiesKeys.v
theories/InsideModel.v
theories/InsideSpec.v
theories/InsideProofs.v
theories/PropertiesInside.v
theories/HeaderSpec.v
theories/HeaderProofs.v
theories/PropertiesHeader.v
theories/ModeModel.v
theories/ModeSpec.v
theories/ModeProofs.v
theories/ModePairProofs.v
theories/ModeReadProofs.v
theories/PropertiesTextMode.v
theories/PurgeSpec.v
theories/PurgeProofs.v
theories/PropertiesPurge.v
theories/BusyModel.v
theories/BusySpec.v
theories/BusyProofs.v
theories/PropertiesBusy.v
theories/BorderSpec.v
theories/BorderProofs.v
theories/PropertiesBorder.v
theories/BatchSpec.v
theories/BatchProofs.v
theories/BatchHandler.v
theories/PropertiesBatch.v
theories/CallerSpec.v
theories/CallerProofs.v
theories/PropertiesCaller.v
theories/MainModel.v
theories/MainSpec.v
theories/MainProofs.v
theories/PropertiesMain.v
theories/IdentModel.v
theories/IdentSpec.v
theories/IdentProofs.v
theories/PropertiesIdent.v
