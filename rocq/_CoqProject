-Q theories Verif
theories/Base.v
theories/BaseLemmas.v
theories/SteimModel.v
theories/SteimSpec.v
theories/SteimProof.v
theories/SteimSafe.v
theories/PropSteim.v
theories/FloatSpec.v
theories/FloatLemmas.v
theories/CodecModel.v
theories/CodecSpec.v
theories/CodecProof.v
theories/GswapProof.v
theories/PropCodec.v
theories/CrcTable.v
theories/CrcModel.v
theories/CrcSpec.v
theories/CrcProof.v
theories/PropCrc.v
theories/TimeModel.v
theories/TimeSpec.v
theories/TimeProof.v
theories/PropTime.v
theories/FloatOps.v
theories/FloatOpsProof.v
theories/TimeStrModel.v
theories/TimeStrSpec.v
theories/TimeStrProof.v
theories/PropTimeStr.v
theories/StrModel.v
theories/StrSpec.v
theories/StrProof.v
theories/PropStr.v
theories/GlobModel.v
theories/GlobSpec.v
theories/GlobProof.v
theories/PropGlob.v
theories/SelModel.v
theories/SelSpec.v
theories/SelProof.v
theories/PropSel.v
theories/CliModel.v
theories/CliSpec.v
theories/CliProof.v
theories/PropCli.v
theories/RecModel.v
theories/RecSpec.v
theories/RecProof.v
theories/PropRec.v
theories/SteimFrames.v
theories/PackModel.v
theories/PackSpec.v
theories/PackData.v
theories/PackProof.v
theories/PropPack.v
theories/DblModel.v
theories/SampleModel.v
theories/SampleSpec.v
theories/SampleProof.v
theories/PackTimes.v
theories/PropSample.v
theories/TlModel.v
theories/TlSpec.v
theories/TlHeap.v
theories/TlSegs.v
theories/TlSkip.v
theories/TlMade.v
theories/TlProof.v
theories/TlTime.v
theories/RateProof.v
theories/TlTile.v
theories/TlIds.v
theories/PropTl.v
theories/GapModel.v
theories/GapSpec.v
theories/GapProof.v
theories/PropGap.v
theories/ListModel.v
theories/ListSpec.v
theories/ListProof.v
theories/PropList.v
theories/ReadModel.v
theories/ReadSpec.v
theories/ReadProof.v
theories/RangeProof.v
theories/PropRead.v
theories/LogModel.v
theories/LogSpec.v
theories/LogProof.v
theories/PropLog.v
theories/DataSpec.v
theories/DataProof.v
theories/PropData.v
theories/RepackSpec.v
theories/RepackProof.v
theories/PropRepack.v
theories/ConvModel.v
theories/ConvSpec.v
theories/ConvProof.v
theories/ConvLists.v
theories/PropConv.v
theories/V2Model.v
theories/V2Spec.v
theories/V2Proof.v
theories/V2Total.v
theories/PropV2.v
theories/V2RecSpec.v
theories/V2Rate.v
theories/V2RecProof.v
theories/V2RecParse.v
theories/PropV2Rec.v
theories/Pack2Model.v
theories/Pack2Spec.v
theories/Pack2Data.v
theories/Pack2Hdr.v
theories/Pack2Proof.v
theories/Pack2Rate.v
theories/Pack2Read.v
theories/Pack2All.v
theories/PropPack2.v
theories/FactRoot.v
theories/FactProof.v
theories/FactRate.v
theories/PropFact.v
theories/LeapModel.v
theories/LeapSpec.v
theories/LeapProof.v
theories/PropLeap.v
theories/DateSpec.v
theories/DateProof.v
theories/PropDate.v
theories/SelFileModel.v
theories/SelFileSpec.v
theories/SelFileProof.v
theories/PropSelFile.v
theories/TlPackModel.v
theories/TlPackSpec.v
theories/TlPackProof.v
theories/PropTlPack.v
theories/RawModel.v
theories/RawSpec.v
theories/RawProof.v
theories/PropRaw.v
theories/BufModel.v
theories/BufSpec.v
theories/BufProof.v
theories/BareProof.v
theories/BufRead.v
theories/BufUnpack.v
theories/PropBuf.v
theories/FileModel.v
theories/FileSpec.v
theories/FileProof.v
theories/PropFile.v
theories/WriteSpec.v
theories/WriteProof.v
theories/PropWrite.v
theories/SpanSpec.v
theories/SpanProof.v
theories/PropSpan.v
theories/BackSpec.v
theories/BackProof.v
theories/PropBack.v
theories/ShowModel.v
theories/ShowSpec.v
theories/ShowProof.v
theories/PropShow.v
theories/MainModel.v
theories/MainSpec.v
theories/MainProof.v
theories/PropMain.v
theories/EhModel.v
theories/EhSpec.v
theories/EhProof.v
theories/PropEh.v
theories/EhPackModel.v
theories/EhPackSpec.v
theories/EhPack2Spec.v
theories/EhPackFields.v
theories/EhPackBody.v
theories/EhPackProof.v
theories/EhPackHdr.v
theories/EhPackRead.v
theories/PropEhPack.v
theories/EhPack2Model.v
theories/EhPack2Proof.v
theories/EhPack2Read.v
theories/PropEhPack2.v
theories/V2EhModel.v
theories/V2EhSpec.v
theories/V2EhProof.v
theories/V2EhRead.v
theories/V2EhWhole.v
theories/PropV2Eh.v
theories/V2EhPack.v
theories/PropV2EhPack.v
theories/ResizeModel.v
theories/ResizeSpec.v
theories/ResizeProof.v
theories/PropResize.v
