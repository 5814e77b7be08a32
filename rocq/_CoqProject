-Q theories Verif
theories/Base.v
theories/SpecBase.v
theories/BaseFacts.v
theories/Crc.v
theories/CrcFacts.v
theories/Bits.v
theories/Layouts.v
theories/BitsFacts.v
theories/Enums.v
theories/EnumsFacts.v
theories/Common.v
theories/SpecCommon.v
theories/SpecCodes.v
theories/SpecLayouts.v
theories/CommonFacts.v
theories/PropFcs.v
theories/PropCommon.v
theories/Utf8.v
theories/Elements.v
theories/SpecElements.v
theories/ElementsFacts.v
theories/ElementTypes.v
theories/SpecUtf8.v
theories/SpecElementTypes.v
theories/ElementTypesFacts.v
theories/Utf8Facts.v
theories/ElementTypesFacts2.v
theories/ElementTypesFacts3.v
theories/ElementTypesFacts4.v
theories/PropElements.v
theories/PropElementTypes.v
theories/Suites.v
theories/Rsn.v
theories/StepsFacts.v
theories/SpecRsn.v
theories/RsnFacts.v
theories/RsnFacts2.v
theories/RsnFacts3.v
theories/RsnFacts4.v
theories/PropRsn.v
theories/Tim.v
theories/SpecTim.v
theories/TimFacts.v
theories/TimFacts2.v
theories/PropTim.v
theories/Mgmt.v
theories/SpecMgmt.v
theories/MgmtFacts.v
theories/MgmtFacts2.v
theories/MgmtFacts3.v
theories/MgmtFacts4.v
theories/MgmtFacts5.v
theories/PropMgmt.v
theories/CryptoHeader.v
theories/Amsdu.v
theories/Data.v
theories/Control.v
theories/Generic.v
theories/SpecData.v
theories/DataFacts.v
theories/DataFacts2.v
theories/DataFacts3.v
theories/DataFacts4.v
theories/DataFacts5.v
theories/PropData.v
theories/SpecGeneric.v
theories/GenericFacts.v
theories/GenericFacts2.v
theories/GenericFacts3.v
theories/PropGeneric.v
theories/Michael.v
theories/SpecMichael.v
theories/MichaelFacts.v
theories/MichaelFacts2.v
theories/PropMichael.v
theories/Builder.v
theories/SpecBuilder.v
theories/BuilderFacts.v
theories/BuilderFacts2.v
theories/PropBuilder.v
theories/Eapol.v
theories/SpecEapol.v
theories/EapolFacts.v
theories/PropEapol.v
theories/KeyMgmt.v
theories/SpecKeyMgmt.v
theories/KeyMgmtFacts.v
theories/KeyMgmtFacts2.v
theories/KeyMgmtFacts3.v
theories/KeyMgmtFacts4.v
theories/KeyMgmtFacts5.v
theories/Sha1.v
theories/Aes.v
theories/AesFacts.v
theories/KeyMgmtFacts6.v
theories/PropKeyMgmt.v
theories/SpecForward.v
theories/ForwardFacts.v
theories/PropForward.v
theories/AesPad.v
theories/KeyWrap.v
theories/SpecKeyWrap.v
theories/KeyWrapFacts.v
theories/PropKeyWrap.v
theories/Accessors.v
theories/SpecAccessors.v
theories/AccessorFacts.v
theories/AccessorFacts2.v
theories/AccessorFacts3.v
theories/PropAccessors.v
theories/SpecSizes.v
theories/SizesFacts.v
theories/PropSizes.v
theories/Hashes.v
theories/SpecHash.v
theories/HashFacts.v
theories/PropHash.v
theories/ViewFacts.v
theories/SpecDelivery.v
theories/DeliveryFacts.v
theories/PropEndToEnd.v
theories/SpecHandshake.v
theories/HandshakeFacts.v
theories/PropHandshake.v
theories/SpecAccept.v
theories/AcceptFacts.v
theories/PropAccept.v
theories/RepoBytes.v
theories/RepoTests.v
theories/FcsFacts.v
theories/SpecStable.v
theories/StableFacts.v
theories/InjectiveFacts.v
theories/PropStable.v
theories/TamperFacts.v
theories/RsnFacts5.v
theories/SpecFcs.v
theories/CrcPolyFacts.v
theories/Text.v
theories/SpecText.v
theories/TextFacts.v
theories/PropText.v
theories/KeyMgmtFacts7.v
theories/LookupFacts.v
theories/KeyMgmtState.v
theories/KeyMgmtFacts8.v
theories/PropInPlace.v
theories/ActionState.v
theories/ActionStateFacts.v
theories/SpecUniform.v
theories/UniformFacts.v
theories/PropUniform.v
theories/SpecCrash.v
theories/CrashFacts.v
theories/PropCrash.v
theories/TimFacts3.v
theories/SpecNeighbours.v
theories/NeighboursFacts.v
theories/NeighboursFacts2.v
theories/PropNeighbours.v
theories/RateFacts.v
theories/KeyMgmtFacts9.v
theories/TextIter.v
theories/TextFacts2.v
theories/FcsZech.v
theories/AidFacts.v
theories/BuilderFacts3.v
theories/ReceiveFacts.v
theories/SpecPortable.v
theories/PortableFacts.v
theories/RelayFacts.v
theories/PropPortable.v
theories/Stores.v
theories/SpecTorn.v
theories/TornFacts.v
theories/TornFacts2.v
theories/TornFacts3.v
theories/TornFacts4.v
theories/PropTorn.v
theories/TornFacts5.v
theories/SpecErrors.v
theories/ErrorsFacts.v
theories/ErrorsFacts2.v
theories/ErrorsFacts3.v
theories/ErrorsFacts4.v
theories/PropErrors.v
theories/ElementTypesFacts5.v
theories/KeyCureFacts.v
theories/SpecResend.v
theories/ResendFacts.v
theories/ResendFacts2.v
theories/ResendFacts3.v
theories/PropResend.v
theories/SpecJourney.v
theories/JourneyFacts.v
theories/JourneyFacts2.v
theories/PropJourney.v
theories/SpecAmsdu.v
theories/AmsduFacts.v
theories/SpecArrival.v
theories/ArrivalFacts.v
theories/Vendor.v
theories/SpecVendor.v
theories/VendorFacts.v
theories/RsnFacts6.v
theories/UniformFacts2.v
theories/SpecReplay.v
theories/ReplayFacts.v
theories/ReplayFacts2.v
theories/PropReplay.v
theories/SpecHash2.v
theories/HashFacts2.v
theories/SpecNoise.v
theories/NoiseFacts.v
theories/PropNoise.v
theories/GenericFacts4.v
theories/SpecResend2.v
theories/ResendFacts4.v
theories/SpecSeparate.v
theories/SeparateFacts.v
theories/PropSeparate.v
theories/SpecSecrecy.v
theories/SecrecyFacts.v
theories/PropSecrecy.v
theories/SpecBounds.v
theories/BoundsFacts.v
theories/PropBounds.v
theories/SpecPatch.v
theories/PatchFacts.v
theories/PatchFacts2.v
theories/PropPatch.v
theories/SpecPowerSave.v
theories/PowerSaveFacts.v
theories/PowerSaveFacts2.v
theories/PropPowerSave.v
theories/SpecRetry.v
theories/RetryFacts.v
theories/RetryFacts2.v
theories/PropRetry.v
theories/SpecLink.v
theories/LinkFacts.v
theories/LinkFacts2.v
theories/PropLink.v
theories/SpecFragment.v
theories/FragmentFacts.v
theories/FragmentFacts2.v
theories/FragmentFacts3.v
theories/PropFragment.v
theories/SpecScan.v
theories/ScanFacts.v
theories/ScanFacts2.v
theories/PropScan.v
theories/SpecAssoc.v
theories/AssocFacts.v
theories/AssocFacts2.v
theories/PropAssoc.v
theories/SpecPeering.v
theories/PeeringFacts.v
theories/PeeringFacts2.v
theories/PropPeering.v
theories/SpecAggregate.v
theories/AggregateFacts.v
theories/AggregateFacts2.v
theories/PropAggregate.v
theories/SpecDowngrade.v
theories/DowngradeFacts.v
theories/PropDowngrade.v
theories/SpecRates.v
theories/RatesFacts.v
theories/RatesFacts2.v
theories/PropRates.v
theories/SpecAnnounce.v
theories/AnnounceFacts.v
theories/AnnounceFacts2.v
theories/PropAnnounce.v
theories/SpecReserve.v
theories/ReserveFacts.v
theories/ReserveFacts2.v
theories/PropReserve.v
theories/SpecProtocols.v
theories/ProtocolsFacts.v
theories/ProtocolsFacts2.v
theories/PropProtocols.v
theories/SpecClocks.v
theories/ClocksFacts.v
theories/ClocksFacts2.v
theories/PropClocks.v
theories/SpecAck.v
theories/AckFacts.v
theories/AckFacts2.v
theories/PropAck.v
