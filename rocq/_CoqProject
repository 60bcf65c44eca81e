-Q theories Verif
theories/AnswerProofs.v
theories/AnswerProps.v
theories/AnswerSpec.v
theories/AnswerTheory.v
theories/Base.v
theories/BaseProofs.v
theories/BitsModel.v
theories/BitsProofs.v
theories/BitsProps.v
theories/BitsSpec.v
theories/BitsTheory.v
theories/BootModel.v
theories/BootProofs.v
theories/BootProps.v
theories/BootSpec.v
theories/BootTheory.v
theories/BoxSpec.v
theories/BoxesModel.v
theories/BoxesProofs.v
theories/BoxesProps.v
theories/BoxesSpec.v
theories/BoxesTheory.v
theories/BytesModel.v
theories/BytesProofs.v
theories/CacheProofs.v
theories/CacheProps.v
theories/CacheSpec.v
theories/CacheTheory.v
theories/CcModel.v
theories/CcProofs.v
theories/CcProofs2.v
theories/CcProofs3.v
theories/CcProofs4.v
theories/CcProps.v
theories/CcSpec.v
theories/CcTheory.v
theories/CheckModel.v
theories/CheckProofs.v
theories/CheckProps.v
theories/CheckSpec.v
theories/CheckTheory.v
theories/ChunkAll.v
theories/ChunkDecode.v
theories/ChunkModel.v
theories/ChunkParse.v
theories/ChunkProofs.v
theories/ChunkProps.v
theories/ChunkSpec.v
theories/ChunkTheory.v
theories/ChunkWrite.v
theories/ClockProofs.v
theories/Config2Props.v
theories/Config2Theory.v
theories/ConfigModel.v
theories/ConfigProofs.v
theories/ConfigProps.v
theories/ConfigTheory.v
theories/CritModel.v
theories/CritProofs.v
theories/CritProps.v
theories/CritSpec.v
theories/CritTheory.v
theories/Emsg2Props.v
theories/Emsg2Theory.v
theories/EmsgModel.v
theories/EmsgProps.v
theories/EmsgReadModel.v
theories/EmsgSpec.v
theories/EmsgTheory.v
theories/EndProps.v
theories/EndSpec.v
theories/EndTheory.v
theories/GencModel.v
theories/GencProofs.v
theories/GencProps.v
theories/GencSpec.v
theories/GencTheory.v
theories/HeadModel.v
theories/HeadProofs.v
theories/HeadProps.v
theories/HeadSpec.v
theories/HeadTheory.v
theories/HttpModel.v
theories/HttpProofs.v
theories/HttpProps.v
theories/HttpSpec.v
theories/HttpTheory.v
theories/InitModel.v
theories/InitProofs.v
theories/InitProps.v
theories/InitSpec.v
theories/InitTheory.v
theories/LangModel.v
theories/LangProps.v
theories/LangSpec.v
theories/LangTheory.v
theories/MediaModel.v
theories/MediaProofs.v
theories/MediaProofs2.v
theories/MediaProofs3.v
theories/MediaProofs4.v
theories/MediaProofs5.v
theories/MediaProofs6.v
theories/MediaProofs7.v
theories/MediaProofs8.v
theories/MediaProps.v
theories/MediaSpec.v
theories/MediaTheory.v
theories/Mp4Model.v
theories/Mp4Proofs.v
theories/Mp4Term.v
theories/Mpd2Proofs.v
theories/Mpd2Props.v
theories/Mpd2Spec.v
theories/Mpd2Theory.v
theories/Mpd3Proofs.v
theories/Mpd3Props.v
theories/Mpd3Spec.v
theories/Mpd3Theory.v
theories/MpdModel.v
theories/MpdProofs.v
theories/MpdProps.v
theories/MpdSpec.v
theories/MpdTheory.v
theories/MuxModel.v
theories/MuxProofs.v
theories/MuxProps.v
theories/MuxSpec.v
theories/MuxTheory.v
theories/NavModel.v
theories/NavProofs.v
theories/NavProps.v
theories/NavSpec.v
theories/NavTheory.v
theories/NavTracks.v
theories/OptionsProofs.v
theories/OptionsProps.v
theories/OptionsTheory.v
theories/PeriodModel.v
theories/PeriodProofs.v
theories/PeriodProps.v
theories/PeriodSpec.v
theories/PeriodTheory.v
theories/Player2Proofs.v
theories/PlayerProofs.v
theories/PlayerProps.v
theories/PlayerSpec.v
theories/PlayerTheory.v
theories/Proxy2Props.v
theories/Proxy2Theory.v
theories/ProxyModel.v
theories/ProxyProofs.v
theories/ProxyProps.v
theories/ProxySpec.v
theories/ProxyTheory.v
theories/ReadbackProofs.v
theories/ReadbackProps.v
theories/ReadbackSpec.v
theories/ReadbackTheory.v
theories/ReadersModel.v
theories/ReadersProofs.v
theories/ReadersProps.v
theories/ReadersSpec.v
theories/ReadersTheory.v
theories/RunModel.v
theories/RunProofs.v
theories/RunProofs2.v
theories/RunProps.v
theories/RunSpec.v
theories/RunTheory.v
theories/SampleProofs.v
theories/SampleProps.v
theories/SampleSpec.v
theories/SampleTheory.v
theories/SegmentModel.v
theories/ServeProofs.v
theories/ServeProps.v
theories/ServeSpec.v
theories/ServeTheory.v
theories/SessionProofs.v
theories/SignalProofs.v
theories/SignalProps.v
theories/SignalSpec.v
theories/SignalTheory.v
theories/SourceModel.v
theories/SourceProofs.v
theories/SourceProofs2.v
theories/SourceProofs3.v
theories/SourceProps.v
theories/SourceSpec.v
theories/SourceTheory.v
theories/StepProofs.v
theories/StepProps.v
theories/StepSpec.v
theories/StepTheory.v
theories/StppModel.v
theories/StppProofs.v
theories/StppProps.v
theories/StppSpec.v
theories/StppTheory.v
theories/StrModel.v
theories/StreamProps.v
theories/StreamSpec.v
theories/StreamTheory.v
theories/TablesModel.v
theories/TablesProofs.v
theories/TablesProps.v
theories/TablesSpec.v
theories/TablesTheory.v
theories/TimeModel.v
theories/TimeProofs.v
theories/TimeProps.v
theories/TimeSpec.v
theories/TimeTheory.v
theories/TimelineModel.v
theories/TimelineProofs.v
theories/TimelineProps.v
theories/TimelineSpec.v
theories/TimelineTheory.v
theories/TimelineTotal.v
theories/TtmlModel.v
theories/TtmlProps.v
theories/TtmlSpec.v
theories/TtmlTheory.v
theories/UuidModel.v
theories/UuidProofs.v
theories/UuidProps.v
theories/UuidSpec.v
theories/UuidTheory.v
theories/VodModel.v
theories/VodProofs.v
theories/VodProofs2.v
theories/VodProofs3.v
theories/VodProps.v
theories/VodSpec.v
theories/VodTheory.v
theories/XlinkModel.v
theories/XlinkProofs.v
theories/XlinkProofs2.v
theories/XlinkProofs3.v
theories/XlinkProofs4.v
theories/XlinkProofs5.v
theories/XlinkProofs6.v
theories/XlinkProofs7.v
theories/XlinkProofs8.v
theories/XlinkProps.v
theories/XlinkSpec.v
theories/XlinkTheory.v
