-Q theories Verif
theories/Base.v
theories/Platform.v
theories/Bcd.v
theories/Fp.v
theories/TraceHdr.v
theories/SegyTypes.v
theories/Ebcdic.v
theories/SegyCodec.v
theories/ISegy.v
theories/OSegy.v
theories/Sorted1D.v
theories/SegdTypes.v
theories/ISegd.v
theories/OSegd.v
theories/BaseFacts.v
theories/BcdFacts.v
theories/BcdSpec.v
theories/BcdFacts2.v
theories/PropertiesBcd.v
theories/CodecSpec.v
theories/CodecFacts.v
theories/EbcdicFacts.v
theories/SampleFacts.v
theories/FpFacts.v
theories/FpSpec.v
theories/FpReal.v
theories/SampleReal.v
theories/OpenFacts.v
theories/PropertiesCodec.v
theories/PropertiesFp.v
theories/LayoutSpec.v
theories/HdrFacts.v
theories/LayoutFacts.v
theories/PropertiesLayout.v
theories/BinFacts.v
theories/WriterFacts.v
theories/RoundSpec.v
theories/ReaderFacts.v
theories/RoundFacts.v
theories/PropertiesRound.v
theories/FileSpec.v
theories/FileFacts.v
theories/FileArea.v
theories/PropertiesFile.v
theories/ReadSpec.v
theories/ReadFacts.v
theories/ReadFacts2.v
theories/ReadFacts3.v
theories/ReadFacts4.v
theories/ReadFacts5.v
theories/PropertiesRead.v
theories/SortedSpec.v
theories/SortedFacts.v
theories/PropertiesSorted.v
theories/Objects.v
theories/ObjSpec.v
theories/ObjFacts.v
theories/PropertiesObjects.v
theories/PropertiesText.v
theories/SegdSpec.v
theories/NibFacts.v
theories/FixFacts.v
theories/SegdHdrFacts.v
theories/SegdTrcFacts.v
theories/SegdFileFacts.v
theories/SegdSmpFacts.v
theories/SegdIoFacts.v
theories/SegdExamples.v
theories/SegdFileProps.v
theories/SegdCountFacts.v
theories/PropertiesSegdFile.v
theories/SegdDecSpec.v
theories/SegdDecFacts.v
theories/SegdOpenFacts.v
theories/SegdOpenProps.v
theories/PropertiesSegdOpen.v
theories/SegdHdrProps.v
theories/PropertiesSegdHdr.v
theories/SegdTrcSpec.v
theories/SegdReadSpec.v
theories/SegdRecFacts.v
theories/SegdTrcRead.v
theories/SegdReadProps.v
theories/SegdTrcExamples.v
theories/PropertiesSegdTrc.v
theories/SegdExtSpec.v
theories/SegdExtFacts.v
theories/SegdExtProps.v
theories/PropertiesSegdExt.v
theories/Sercel.v
theories/SegdUserSpec.v
theories/SegdUserRead.v
theories/PropertiesSercel.v
theories/Segd3Spec.v
theories/Segd3TrcSpec.v
theories/Segd3Facts.v
theories/Segd3Props.v
theories/Segd3Trc.v
theories/Segd3Examples.v
theories/PropertiesSegd3.v
theories/PropertiesSegd3Trc.v
theories/SegyDecSpec.v
theories/SegyDecFacts.v
theories/SegyDecFacts2.v
theories/SegyDecFacts3.v
theories/SegyDecFacts4.v
theories/PropertiesSegyDec.v
theories/SegyEncSpec.v
theories/SegyEncFacts.v
theories/SegyEncFacts2.v
theories/SegyEncFacts3.v
theories/SegyEncFacts4.v
theories/SegyEncFacts5.v
theories/PropertiesSegyEnc.v
theories/CopySpec.v
theories/CopyFacts.v
theories/CopyFacts2.v
theories/CopyFacts3.v
theories/CopyFacts4.v
theories/PropertiesCopy.v
theories/StepX.v
theories/OSegyX.v
theories/RefuseSpec.v
theories/RefuseFacts.v
theories/PropertiesRefuse.v
theories/ISegyX.v
theories/RereadSpec.v
theories/RereadFacts.v
theories/RereadFacts2.v
theories/RereadFacts3.v
theories/RereadFacts4.v
theories/PropertiesReread.v
theories/PyBind.v
theories/NameTables.v
theories/PySpec.v
theories/PyFacts.v
theories/PyIterFacts.v
theories/PyFacts2.v
theories/PropertiesPy.v
theories/PropertiesPyIter.v
theories/NameSpec.v
theories/NameFacts.v
theories/PropertiesNames.v
theories/PyTrace.v
theories/PyTraceSpec.v
theories/PyTraceFacts.v
theories/PyDictSpec.v
theories/PyDictFacts.v
theories/PropertiesPyTrace.v
theories/EditSpec.v
theories/EditFacts.v
theories/PropertiesEdit.v
theories/ConvSpec.v
theories/ConvFacts.v
theories/ConvFacts2.v
theories/PropertiesConv.v
theories/OSegdX.v
theories/DRefuseSpec.v
theories/DRefuseFacts.v
theories/PropertiesDRefuse.v
theories/ISegdX.v
theories/DRereadSpec.v
theories/DRereadFacts.v
theories/PropertiesDReread.v
theories/Procs.v
theories/ProcSpec.v
theories/ProcFacts.v
theories/PropertiesProc.v
theories/CtorX.v
theories/CtorSpec.v
theories/CtorFacts.v
theories/PropertiesCtor.v
theories/PyWrite.v
theories/PyWriteSpec.v
theories/PyWriteFacts.v
theories/PropertiesPyWrite.v
theories/DiskX.v
theories/DiskSpec.v
theories/DiskFacts.v
theories/PropertiesDisk.v
theories/CrashSpec.v
theories/CrashFacts.v
theories/PropertiesCrash.v
theories/ChAcc.v
theories/ChAccSpec.v
theories/ChAccFacts.v
theories/PropertiesChAcc.v
theories/StartX.v
theories/StartFacts.v
theories/BlankFacts.v
theories/PropertiesStart.v
theories/DiskD.v
theories/DiskDSpec.v
theories/DiskDFacts.v
theories/CutDFacts.v
theories/StopDFacts.v
theories/PropertiesDiskD.v
theories/AckFacts.v
theories/AckYFacts.v
theories/PropertiesAck.v
