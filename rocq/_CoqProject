-Q theories Verif
theories/GoBase.v
theories/ListZ.v
theories/Rle.v
theories/Spec_Rle.v
theories/RleProofs.v
theories/Image.v
theories/ImageProofs.v
theories/Props_Rle.v
theories/Errors.v
theories/ErrorsProofs.v
theories/Flags.v
theories/Props_ErrorsFlags.v
theories/BlockCache.v
theories/Spec_BlockCache.v
theories/BlockCacheProofs.v
theories/BlockCacheProofs2.v
theories/BlockCacheProofs3.v
theories/BlockCacheProofs4.v
theories/Props_BlockCache.v
theories/BasicStream.v
theories/Spec_BasicStream.v
theories/BasicStreamProofs.v
theories/BasicStreamProofs2.v
theories/BasicStreamProofs3.v
theories/BasicStreamProofs4.v
theories/Props_BasicStream.v
theories/GoPath.v
theories/Spec_Path.v
theories/GoPathProofs.v
theories/Driver.v
theories/Spec_Driver.v
theories/DriverProofs.v
theories/DriverProofs2.v
theories/DriverProofs3.v
theories/DriverProofs4.v
theories/DriverProofs5.v
theories/DriverProofs6.v
theories/DriverProofs7.v
theories/DriverProofs8.v
theories/DriverProofs9.v
theories/DriverProofs10.v
theories/DriverProofs11.v
theories/Props_Driver.v
theories/OsFile.v
theories/Fat8.v
theories/Spec_Fat8.v
theories/Fat8Proofs.v
theories/Fat8Proofs2.v
theories/Fat8Proofs3.v
theories/Fat8Proofs4.v
theories/Fat8Proofs5.v
theories/Fat8Names.v
theories/Fat8Proofs6.v
theories/Props_Fat8.v
theories/DriverProofs12.v
theories/Props_Driver2.v
theories/FatBoot.v
theories/FatDirent.v
theories/FatDriver.v
theories/Spec_Fat.v
theories/FatProofs.v
theories/FatProofs2.v
theories/FatProofs3.v
theories/FatProofs4.v
theories/Props_Fat.v
theories/Props_Fat2.v
theories/UnixV6.v
theories/Disks.v
theories/Spec_Misc.v
theories/MiscProofs.v
theories/Props_Misc.v
theories/DriverFile.v
theories/Spec_Driver2.v
theories/DriverProofs13.v
theories/DriverProofs14.v
theories/DriverProofs15.v
theories/Props_Driver3.v
theories/Spec_Bounds.v
theories/BoundsProofs.v
theories/Props_Bounds.v
theories/CmdTools.v
theories/Spec_Tools.v
theories/ToolsProofs.v
theories/Props_Tools.v
theories/WrapStream.v
theories/Spec_Wrap.v
theories/WrapProofs.v
theories/Props_Wrap.v
theories/Spec_Shared.v
theories/SharedProofs.v
theories/Props_Shared.v
theories/CacheSlices.v
theories/Spec_Slices.v
theories/SlicesProofs.v
theories/Props_Slices.v
theories/Spec_RleSize.v
theories/RleSizeProofs.v
theories/Props_RleSize.v
theories/Spec_Handles.v
theories/HandlesProofs.v
theories/Props_Handles.v
theories/Fat8Same.v
theories/Spec_Fat8Same.v
theories/Fat8SameProofs.v
theories/Props_Fat8Same.v
theories/Spec_Driver4.v
theories/DriverProofs16.v
theories/DriverProofs17.v
theories/Props_Driver4.v
theories/Bufio.v
theories/Spec_Bufio.v
theories/BufioProofs.v
theories/Props_Bufio.v
theories/ImageStream.v
theories/Spec_ImageStream.v
theories/ImageStreamProofs.v
theories/Props_ImageStream.v
theories/Csv.v
theories/CsvText.v
theories/Spec_Csv.v
theories/CsvProofs.v
theories/Props_Csv.v
theories/Spec_Access.v
theories/AccessProofs.v
theories/AccessProofs2.v
theories/Props_Access.v
theories/Spec_Edit.v
theories/AccessProofs3.v
theories/Props_Edit.v
theories/AccessProofs4.v
theories/Props_FileAttr.v
theories/Spec_FatChain.v
theories/Props_FatChain.v
theories/Spec_Fat8Ref.v
theories/Fat8RefProofs.v
theories/Props_Fat8Ref.v
theories/Conformance.v
theories/Spec_Errors.v
theories/Spec_Fat3.v
theories/FatProofs5.v
theories/Props_Fat3.v
theories/Spec_Fat4.v
theories/FatProofs6.v
theories/Props_Fat4.v
theories/Spec_Report.v
theories/ReportProofs.v
theories/Props_Report.v
theories/Spec_Driver5.v
theories/DriverProofs18.v
theories/Props_Driver5.v
theories/Scanner.v
theories/Spec_Scanner.v
theories/ScannerProofs.v
theories/Props_Scanner.v
theories/FatBootRead.v
theories/Spec_FatBootRead.v
theories/FatBootReadProofs.v
theories/Props_FatBootRead.v
theories/RleExact.v
theories/BlockCacheBounds.v
theories/StreamNegative.v
theories/WrapGrow.v
theories/LstatAny.v
theories/FatExact.v
theories/FatLayout.v
theories/Props_NewFile.v
theories/Spec_Utf8.v
theories/Fat8Unicode.v
theories/Fat8UnicodeProofs.v
theories/Props_Fat8Unicode.v
theories/StreamInput.v
theories/StreamInputProofs.v
theories/Props_StreamInput.v
theories/StreamCopy.v
theories/StreamCopyProofs.v
theories/Props_StreamCopy.v
theories/StreamFull.v
theories/StreamFullProofs.v
theories/Props_StreamFull.v
theories/SectionReader.v
theories/SectionReaderProofs.v
theories/Props_SectionReader.v
theories/StreamOutput.v
theories/StreamOutputProofs.v
theories/Props_StreamOutput.v
theories/Props_Fat8Errors.v
theories/Props_StdErrors.v
