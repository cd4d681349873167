-Q theories Verif
theories/Base.v
theories/BaseProofs.v
theories/TicksModel.v
theories/TicksSpec.v
theories/TicksProofs.v
theories/TicksProofs2.v
theories/PropertiesTicks.v
theories/GuidModel.v
theories/GuidSpec.v
theories/GuidProofs.v
theories/GuidMemModel.v
theories/GuidMemProofs.v
theories/PropertiesGuid.v
theories/HashSetModel.v
theories/HashSetSpec.v
theories/HashSetProofs.v
theories/PropertiesHashSet.v
theories/FormatModel.v
theories/FormatSpec.v
theories/FormatProofs.v
theories/PropertiesFormat.v
theories/CompactModel.v
theories/CompactSpec.v
theories/CompactProofs.v
theories/PropertiesCompact.v
theories/CacheModel.v
theories/CacheSpec.v
theories/CacheProofs.v
theories/PropertiesCache.v
theories/FrameModel.v
theories/FrameSpec.v
theories/FrameProofs.v
theories/PropertiesFrame.v
theories/TsscModel.v
theories/TsscSpec.v
theories/TsscCode.v
theories/TsscCode2.v
theories/TsscRead.v
theories/TsscProofs.v
theories/TsscProofs2.v
theories/TsscProofs3.v
theories/TsscCutSpec.v
theories/TsscProofs4.v
theories/PropertiesTssc.v
theories/SubscriberModel.v
theories/SubscriberSpec.v
theories/SubscriberProofs.v
theories/SubscriberProofs2.v
theories/SubscriberProofs3.v
theories/SubscriberProofs4.v
theories/SubscriberProofs5.v
theories/SubscriberProofs6.v
theories/SubscriberProofs7.v
theories/SubscriberProofs8.v
theories/SubscriberProofs9.v
theories/SubscriberProofs10.v
theories/PropertiesSubscriber.v
theories/ConnectorModel.v
theories/ConnectorSpec.v
theories/ConnectorProofs.v
theories/PropertiesConnector.v
theories/ConcModel.v
theories/ConcSpec.v
theories/ConcProofs.v
theories/ConcBuffer.v
theories/PropertiesConc.v
theories/SignalModel.v
theories/SignalSpec.v
theories/SignalProofs.v
theories/PropertiesSignal.v
theories/StrModel.v
theories/CalModel.v
theories/NumModel.v
theories/GoTextModel.v
theories/NumTextModel.v
theories/NumTextSpec.v
theories/NumTextProofs.v
theories/NumTextProofs2.v
theories/NumTextProofs3.v
theories/NumTextProofs4.v
theories/NumTextProofs5.v
theories/PropertiesNumText.v
theories/StampModel.v
theories/ReplaceModel.v
theories/PowModel.v
theories/PowProofs.v
theories/ExprModel.v
theories/ExprSpec.v
theories/ExprProofs.v
theories/ExprPanic.v
theories/StrProofs.v
theories/ExprPanic2.v
theories/ExprProofs2.v
theories/ExprProofs3.v
theories/ExprProofs4.v
theories/ExprProofs5.v
theories/ExprProofs6.v
theories/PropertiesExpr.v
theories/PanicSpec.v
theories/ExprPanic3.v
theories/ExprPanic4.v
theories/PropertiesPanic.v
theories/TableModel.v
theories/TableSpec.v
theories/TableProofs.v
theories/TableProofs2.v
theories/TableProofs3.v
theories/TableProofs4.v
theories/TableProofs5.v
theories/TableProofs6.v
theories/TableProofs7.v
theories/PropertiesTable.v
theories/PropertiesTable2.v
theories/XmlModel.v
theories/XmlSpec.v
theories/XmlProofs.v
theories/XmlProofs2.v
theories/XmlProofs3.v
theories/XmlProofs4.v
theories/XmlProofs5.v
theories/XmlProofs6.v
theories/PropertiesXml.v
theories/SessionModel.v
theories/SessionSpec.v
theories/SessionProofs.v
theories/SessionProofs2.v
theories/SessionProofs3.v
theories/SessionProofs4.v
theories/SessionProofs5.v
theories/SessionProofs6.v
theories/SessionProofs7.v
theories/SessionProofs8.v
theories/PropertiesSession.v
theories/CalSpec.v
theories/CalProofs.v
theories/FuncSpec.v
theories/FuncProofs.v
theories/FuncProofs2.v
theories/FuncProofs3.v
theories/FloatSpec.v
theories/FloatProofs.v
theories/FuncProofs4.v
theories/FuncProofs5.v
theories/FuncProofs6.v
theories/FuncProofs7.v
theories/FloatProofs2.v
theories/PropertiesFunc.v
theories/ParseModel.v
theories/LexModel.v
theories/ParseSpec.v
theories/ParseProofs.v
theories/ParseProofs2.v
theories/ParseProofs3.v
theories/ParseProofs4.v
theories/LexSpec.v
theories/LexProofs.v
theories/LexProofs2.v
theories/LexProofs3.v
theories/LexProofs4.v
theories/TextModel.v
theories/TextSpec.v
theories/TextProofs.v
theories/TextProofs2.v
theories/TextProofs3.v
theories/TextProofs4.v
theories/PropertiesText.v
theories/ShutdownModel.v
theories/ShutdownSpec.v
theories/ShutdownProofs.v
theories/ShutdownLost.v
theories/ShutdownAgain.v
theories/PropertiesShutdown.v
theories/CrashSpec.v
theories/CrashProofs.v
theories/PropertiesCrash.v
theories/ChannelModel.v
theories/ChannelSpec.v
theories/ChannelProofs.v
theories/PropertiesChannel.v
theories/EndSpec.v
theories/EndModel.v
theories/EndProofs.v
theories/PropertiesEnd.v
theories/ReconnectModel.v
theories/ReconnectSpec.v
theories/ReconnectProofs.v
theories/PropertiesReconnect.v
theories/Sched.v
theories/Explore.v
theories/ListenModel.v
theories/ListenSpec.v
theories/ListenProofs.v
theories/PropertiesListen.v
theories/MixModel.v
theories/MixSpec.v
theories/MixProofs.v
theories/MixProofs2.v
theories/PropertiesMix.v
theories/StampSpec.v
theories/StampProofs.v
theories/PropertiesStamp.v
theories/CleanSpec.v
theories/CleanProofs.v
theories/CleanProofs2.v
theories/PropertiesClean.v
theories/GoTextSpec.v
theories/GoTextProofs.v
theories/GoTextProofs2.v
theories/MeasTextModel.v
theories/MeasTextSpec.v
theories/MeasTextProofs.v
theories/MeasTextProofs2.v
theories/GuidTextProofs.v
theories/RecordSpec.v
theories/MeasTextProofs3.v
theories/PropertiesGoText.v
theories/PropertiesMeasText.v
theories/StampProofs2.v
theories/PoolModel.v
theories/PoolSpec.v
theories/PoolProofs.v
theories/PropertiesPool.v
theories/CloseModel.v
theories/CloseSpec.v
theories/CloseProofs.v
theories/CloseProofs2.v
theories/PropertiesClose.v
theories/DisplayModel.v
theories/DisplaySpec.v
theories/DisplayProofs.v
theories/PropertiesDisplay.v
theories/ReplaceSpec.v
theories/ReplaceProofs.v
theories/PropertiesReplace.v
theories/WriteModel.v
theories/WriteSpec.v
theories/WriteProofs.v
theories/WriteProofs2.v
theories/PropertiesWrite.v
theories/PowProofs2.v
theories/PropertiesPow.v
theories/SplitSpec.v
theories/SplitProofs.v
theories/PropertiesSplit.v
theories/CellSpec.v
theories/CellProofs.v
theories/CellProofs2.v
theories/PropertiesCell.v
theories/SigTypeModel.v
theories/PropertiesSigType.v
theories/PropertiesDefault.v
theories/UnsubModel.v
theories/UnsubSpec.v
theories/UnsubProofs.v
theories/UnsubProofs2.v
theories/PropertiesUnsub.v
theories/OverlapModel.v
theories/OverlapSpec.v
theories/OverlapProofs.v
theories/OverlapProofs2.v
theories/PropertiesOverlap.v
theories/ReuseModel.v
theories/ReuseSpec.v
theories/ReuseProofs.v
theories/PropertiesReuse.v
theories/ReloadSpec.v
theories/ReloadProofs.v
theories/PropertiesReload.v
theories/LocksModel.v
theories/LocksSpec.v
theories/LocksProofs.v
theories/PropertiesLocks.v
theories/RegisterModel.v
theories/RegisterSpec.v
theories/RegisterProofs.v
theories/PropertiesRegister.v
theories/DialsModel.v
theories/DialsSpec.v
theories/DialsProofs.v
theories/PropertiesDials.v
theories/HeardModel.v
theories/HeardSpec.v
theories/HeardProofs.v
theories/PropertiesHeard.v
theories/DocsModel.v
theories/DocsSpec.v
theories/DocsProofs.v
theories/PropertiesDocs.v
theories/BufferModel.v
theories/BufferSpec.v
theories/BufferProofs.v
theories/PropertiesBuffer.v
theories/QuietSpec.v
theories/QuietProofs.v
theories/PropertiesQuiet.v
theories/KeepModel.v
theories/KeepSpec.v
theories/KeepProofs.v
theories/PropertiesKeep.v
theories/ReadersModel.v
theories/ReadersSpec.v
theories/ReadersProofs.v
theories/PropertiesReaders.v
