-Q theories Verif
theories/Model/Base.v
theories/Model/Callbacks.v
theories/Model/Clock.v
theories/Model/Contention.v
theories/Model/Countries.v
theories/Model/Curve.v
theories/Model/Device.v
theories/Model/DeviceConc.v
theories/Model/Each.v
theories/Model/GPX.v
theories/Model/GenAgain.v
theories/Model/GenConc.v
theories/Model/GenLocks.v
theories/Model/Generator.v
theories/Model/Geo.v
theories/Model/GeoJSON.v
theories/Model/IO.v
theories/Model/Locks.v
theories/Model/Mutex.v
theories/Model/Navigator.v
theories/Model/Num.v
theories/Model/NumF64.v
theories/Model/NumR.v
theories/Model/PacketConc.v
theories/Model/Pb.v
theories/Model/PropHeap.v
theories/Model/PropMap.v
theories/Model/RandomRoute.v
theories/Model/Route.v
theories/Model/Shared.v
theories/Model/Track.v
theories/Model/Types.v
theories/Model/TypesSnap.v
theories/Model/Utf8.v
theories/Model/Wire.v
theories/Model/WireF64.v
theories/Model/WireMsgs.v
theories/Model/Worker.v
theories/Spec/CallbackSpec.v
theories/Spec/ClockSpec.v
theories/Spec/ContentionSpec.v
theories/Spec/CountriesSpec.v
theories/Spec/CurveF64Spec.v
theories/Spec/DecodeSpec.v
theories/Spec/DeviceConcSpec.v
theories/Spec/DeviceExamples.v
theories/Spec/DeviceRealSpec.v
theories/Spec/DeviceSpec.v
theories/Spec/DmsSpec.v
theories/Spec/EachSpec.v
theories/Spec/Examples.v
theories/Spec/GPXSpec.v
theories/Spec/GenConcSpec.v
theories/Spec/GenLocksSpec.v
theories/Spec/GenSpec.v
theories/Spec/GeoJSONSpec.v
theories/Spec/JourneySpec.v
theories/Spec/LeakSpec.v
theories/Spec/ListSpec.v
theories/Spec/LocksSpec.v
theories/Spec/MutexSpec.v
theories/Spec/NavSpec.v
theories/Spec/NewDeviceSpec.v
theories/Spec/NumLaws.v
theories/Spec/PacketConcSpec.v
theories/Spec/PropHeapSpec.v
theories/Spec/PropPubSpec.v
theories/Spec/PropsSpec.v
theories/Spec/ProtoSpec.v
theories/Spec/RandomSpec.v
theories/Spec/RealExamples.v
theories/Spec/RealSpec.v
theories/Spec/ResaveSpec.v
theories/Spec/RestoreSpec.v
theories/Spec/RouteSpec.v
theories/Spec/SharedSpec.v
theories/Spec/SilenceSpec.v
theories/Spec/SnapSpec.v
theories/Spec/SphereSpec.v
theories/Spec/TrackSpec.v
theories/Spec/TypesSpec.v
theories/Spec/UseSpec.v
theories/Spec/Utf8Spec.v
theories/Spec/WireMsgSpec.v
theories/Spec/WireSpec.v
theories/Spec/WorkerSpec.v
theories/Proofs/BaseLemmas.v
theories/Proofs/BoundExample.v
theories/Proofs/BoundF64.v
theories/Proofs/BoundF64b.v
theories/Proofs/CallbackProofs.v
theories/Proofs/ClockProofs.v
theories/Proofs/ContentionProofs.v
theories/Proofs/CountriesProofs.v
theories/Proofs/CurveF64.v
theories/Proofs/CurveLemmas.v
theories/Proofs/DecodeProofs.v
theories/Proofs/DeviceConcProofs.v
theories/Proofs/DeviceConcRefuted.v
theories/Proofs/DeviceExample.v
theories/Proofs/DeviceLemmas.v
theories/Proofs/DeviceProofs.v
theories/Proofs/DeviceProofs2.v
theories/Proofs/DeviceProofs3.v
theories/Proofs/DeviceReal.v
theories/Proofs/DmsProofs.v
theories/Proofs/EachProofs.v
theories/Proofs/F64Lemmas.v
theories/Proofs/FinishProofs.v
theories/Proofs/GPXProofs.v
theories/Proofs/GenAgainProofs.v
theories/Proofs/GenClose.v
theories/Proofs/GenConcProofs.v
theories/Proofs/GenDevs.v
theories/Proofs/GenLeak.v
theories/Proofs/GenLive.v
theories/Proofs/GenLocksLive.v
theories/Proofs/GenLocksRefuted.v
theories/Proofs/GenLocksSerial.v
theories/Proofs/GenProofs.v
theories/Proofs/GenSilence.v
theories/Proofs/GenStuck.v
theories/Proofs/GeoExample.v
theories/Proofs/GeoJSONProofs.v
theories/Proofs/GeoLemmas.v
theories/Proofs/GeoProofs.v
theories/Proofs/GpxExample.v
theories/Proofs/InPlace.v
theories/Proofs/JourneyAny.v
theories/Proofs/JourneyF64.v
theories/Proofs/JourneyHist.v
theories/Proofs/JourneyRefute.v
theories/Proofs/JourneyVisit.v
theories/Proofs/JsonExample.v
theories/Proofs/LinkProofs.v
theories/Proofs/LocksBase.v
theories/Proofs/LocksLive.v
theories/Proofs/LocksSerial.v
theories/Proofs/MutexProofs.v
theories/Proofs/NavExample.v
theories/Proofs/NavLemmas.v
theories/Proofs/NavProofs.v
theories/Proofs/NavProofs2.v
theories/Proofs/NavProofs3.v
theories/Proofs/NavReal.v
theories/Proofs/NavReal2.v
theories/Proofs/NavReal3.v
theories/Proofs/NavReal4.v
theories/Proofs/NavReal5.v
theories/Proofs/NavReal6.v
theories/Proofs/NavRefute.v
theories/Proofs/NavSteps.v
theories/Proofs/NewDeviceProofs.v
theories/Proofs/PacketConcProofs.v
theories/Proofs/PropHeapProofs.v
theories/Proofs/PropPub.v
theories/Proofs/PropsProofs.v
theories/Proofs/ProtoProofs.v
theories/Proofs/ProtoTop.v
theories/Proofs/RandomProofs.v
theories/Proofs/ResaveExample.v
theories/Proofs/ResaveProofs.v
theories/Proofs/RestoreExample.v
theories/Proofs/RestoreProofs.v
theories/Proofs/RestoreRefute.v
theories/Proofs/RouteLemmas.v
theories/Proofs/SharedAlone.v
theories/Proofs/SharedHeap.v
theories/Proofs/SharedProofs.v
theories/Proofs/SnapProofs.v
theories/Proofs/TrackLemmas.v
theories/Proofs/TrackRouteProofs.v
theories/Proofs/TypesProofs.v
theories/Proofs/UseProofs.v
theories/Proofs/Utf8Proofs.v
theories/Proofs/ViewDev.v
theories/Proofs/ViewNav.v
theories/Proofs/VisitExample.v
theories/Proofs/VisitF64.v
theories/Proofs/WireF64Proofs.v
theories/Proofs/WireMsgProofs.v
theories/Proofs/WireProofs.v
theories/Proofs/WireTop.v
theories/Proofs/WorkerProofs.v
theories/Props/Callbacks.v
theories/Props/Clock.v
theories/Props/Contention.v
theories/Props/Countries.v
theories/Props/Device.v
theories/Props/DeviceConc.v
theories/Props/Each.v
theories/Props/GPX.v
theories/Props/GenConc.v
theories/Props/GenDevs.v
theories/Props/GenLocks.v
theories/Props/Generator.v
theories/Props/Geo.v
theories/Props/GeoJSON.v
theories/Props/InPlace.v
theories/Props/Journey.v
theories/Props/Leak.v
theories/Props/NavBasics.v
theories/Props/NavReal.v
theories/Props/NewDevice.v
theories/Props/PacketConc.v
theories/Props/Properties.v
theories/Props/Proto.v
theories/Props/RandomRoute.v
theories/Props/Resave.v
theories/Props/Shared.v
theories/Props/Silence.v
theories/Props/Snapshot.v
theories/Props/TrackRoute.v
theories/Props/Types.v
theories/Props/Use.v
theories/Props/Values.v
theories/Props/Wire.v
theories/Props/Worker.v
