-Q theories Verif
theories/Base.v
theories/Utf8.v
theories/Buffer.v
theories/Fqdn.v
theories/Header.v
theories/Types.v
theories/RDataBasic.v
theories/Bitmap.v
theories/Svcb.v
theories/RDataSec.v
theories/RData.v
theories/Packet.v
theories/BaseFacts.v
theories/Utf8Facts.v
theories/RepairSpec.v
theories/RepairFacts.v
theories/BufferFacts.v
theories/NameSpec.v
theories/FqdnLoop.v
theories/FqdnFacts.v
theories/BitmapFacts.v
theories/WalkFacts.v
theories/TextFacts.v
theories/CompressSpec.v
theories/ChunkFacts.v
theories/NameProps.v
theories/PropName.v
theories/BufferApi.v
theories/BufferApiFacts.v
theories/WindowFacts.v
theories/PropBuffer.v
theories/HeaderSpec.v
theories/HeaderFacts.v
theories/PropHeader.v
theories/CodeSpec.v
theories/CodeFacts.v
theories/PropCodes.v
theories/RDataSpec.v
theories/RDataReads.v
theories/SvcbFacts.v
theories/RDataFacts.v
theories/RecordSpec.v
theories/RecordFacts.v
theories/ParseFacts.v
theories/WireSpec.v
theories/WireFacts.v
theories/RecordProps.v
theories/PropRecord.v
theories/PacketFacts.v
theories/SvcbParse.v
theories/ApiSpec.v
theories/PacketProps.v
theories/FailSpec.v
theories/FailFacts.v
theories/MdnsFacts.v
theories/PropPacket.v
theories/Dnssec.v
theories/DnssecSpec.v
theories/DnssecFacts.v
theories/FieldSpec.v
theories/FieldFacts.v
theories/PropField.v
theories/PropDnssec.v
theories/LayoutSpec.v
theories/LayoutFacts.v
theories/LayoutUnique.v
theories/PropLayout.v
theories/ReadSpec.v
theories/ReadFacts.v
theories/InteropSpec.v
theories/InteropFacts.v
theories/InteropPacket.v
theories/InteropProps.v
theories/PropWire.v
theories/StopSpec.v
theories/StopFacts.v
theories/PropStop.v
theories/ErrSpec.v
theories/ErrFacts.v
theories/PropError.v
theories/Api.v
theories/ObjectSpec.v
theories/ObjectFacts.v
theories/PropObject.v
theories/VerifySpec.v
theories/PropVerify.v
theories/Construct.v
theories/ConstructSpec.v
theories/PropConstruct.v
theories/BuildSpec.v
theories/BuildFacts.v
theories/PropBuild.v
theories/PropCut.v
theories/Misc.v
theories/PropMisc.v
theories/HeldSpec.v
theories/HeldFacts.v
theories/PropHeld.v
theories/Reserve.v
theories/PropReserve.v
theories/Print.v
theories/PropPrint.v
theories/StrictSpec.v
theories/StrictFacts.v
theories/StrictConv.v
theories/PropStrict.v
theories/ExactFacts.v
theories/PropExact.v
theories/Steps.v
theories/StepsFacts.v
theories/PropSteps.v
theories/ShiftFacts.v
theories/PropShift.v
theories/PropForge.v
theories/CompressLayout.v
theories/PropCompress.v
theories/Base64.v
theories/Base64Spec.v
theories/Base64Facts.v
theories/PropBase64.v
theories/SipHash.v
theories/PropHash.v
theories/Work.v
theories/WorkFacts.v
theories/PropWork.v
theories/ErrorText.v
theories/PropErrorText.v
theories/AddrText.v
theories/AddrSpec.v
theories/AddrFacts.v
theories/PropAddr.v
theories/Unsafe.v
theories/PropUnsafe.v
theories/PropOutcome.v
theories/PropRepair.v
theories/Sets.v
theories/PropSets.v
theories/SignSpec.v
theories/PropSign.v
theories/PropVerdict.v
theories/Sha.v
theories/Rsa.v
theories/RsaFacts.v
theories/PropRsa.v
theories/PatchSpec.v
theories/PatchFacts.v
theories/PropPatch.v
theories/AnnounceFacts.v
theories/PropAccess.v
theories/OrderSpec.v
theories/OrderFacts.v
theories/PropOrder.v
theories/AppendSpec.v
theories/AppendFacts.v
theories/PropAppend.v
theories/JumpSpec.v
theories/JumpFacts.v
theories/PropJump.v
theories/EchoSpec.v
theories/EchoFacts.v
theories/PropEcho.v
theories/RewriteSpec.v
theories/RewriteFacts.v
theories/PropRewrite.v
theories/SendSpec.v
theories/SendFacts.v
theories/PropSend.v
theories/SpoilFacts.v
theories/ReturnFacts.v
theories/PropSpoil.v
theories/DeliverSpec.v
theories/DeliverFacts.v
theories/PropDeliver.v
theories/PropTrust.v
theories/Defaults.v
theories/PropDefault.v
theories/PropEdns.v
theories/RelaySpec.v
theories/RelayFacts.v
theories/PropRelay.v
theories/PropCache.v
theories/PropFill.v
theories/UpdateSpec.v
theories/UpdateFacts.v
theories/PropUpdate.v
theories/PropBind.v
theories/OctetsSpec.v
theories/OctetsFacts.v
theories/PropOctets.v
theories/PropChain.v
theories/PropSkip.v
theories/PropStream.v
theories/PropStore.v
theories/PropLimit.v
theories/PropTtl.v
theories/PropZone.v
theories/PropMatch.v
theories/PropAnchor.v
theories/PropDenial.v
theories/PropAlias.v
theories/PropProbe.v
theories/PropRoll.v
theories/Equality.v
theories/EqualityFacts.v
theories/PropEqual.v
theories/PropKnown.v
theories/PropFlush.v
theories/PropBrowse.v
theories/PropRetry.v
theories/PropMac.v
theories/PropTransfer.v
theories/PropReverse.v
theories/PropPadding.v
theories/PropIssue.v
theories/PropEndpoint.v
theories/Conformance.v
