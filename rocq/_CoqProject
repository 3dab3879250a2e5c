-Q theories Verif
theories/Base.v
theories/Engine.v
theories/BaseLemmas.v
theories/Wf.v
theories/EngineLemmas.v
theories/Codec.v
theories/RoundTrip.v
theories/Rewrite.v
theories/Literal.v
theories/Positions.v
theories/Keys.v
theories/Deps.v
theories/Assign.v
theories/Update.v
theories/Ext.v
theories/Decimal.v
theories/DecimalLemmas.v
theories/DecimalFit.v
theories/Delayed.v
theories/Spec.v
theories/Reach.v
theories/TextSpec.v
theories/Ex.v
theories/P_RoundTrip.v
theories/P_Fields.v
theories/P_Delayed.v
theories/DescsHdr.v
theories/DescsDes.v
theories/DescsTre.v
theories/DescsTre2.v
theories/P_Codec.v
theories/P_Descs.v
theories/Copy.v
theories/P_Copy.v
theories/Utf8.v
theories/Tre.v
theories/TreLemmas.v
theories/P_Tre.v
theories/TrePlace.v
theories/TrePlaceLemmas.v
theories/PrepTwice.v
theories/P_TrePlace.v
theories/Scalar.v
theories/Security.v
theories/P_Security.v
theories/Handles.v
theories/P_Handles.v
theories/Hooks.v
theories/P_Hooks.v
theories/Image.v
theories/ImageLemmas.v
theories/ImageNew.v
theories/P_Image.v
theories/File.v
theories/FileLemmas.v
theories/P_File.v
theories/FileRead.v
theories/P_FileKeep.v
theories/P_FileRead.v
theories/FileTwice.v
theories/P_FileTwice.v
theories/P_Skip.v
theories/P_FileBuilt.v
theories/Igeolo.v
theories/P_Igeolo.v
theories/Loop1.v
theories/Engrda.v
theories/P_Engrda.v
theories/Assoc.v
theories/P_Assoc.v
theories/ExtContent.v
theories/P_ExtContent.v
theories/Merge.v
theories/P_Merge.v
theories/Diff.v
theories/P_Diff.v
theories/P_DiffCases.v
theories/FileAgain.v
theories/P_FileAgain.v
theories/FileDiff.v
theories/P_FileDiff.v
theories/P_FileDiffRead.v
theories/P_FileDiffEx.v
theories/Listing.v
theories/P_Listing.v
theories/P_ListingRead.v
theories/Illuma.v
theories/P_Illuma.v
theories/P_IllumaXml.v
theories/Delta.v
theories/P_Delta.v
theories/P_DeltaMerge.v
theories/P_DeltaRead.v
theories/P_DeltaEx.v
theories/P_Expr.v
theories/P_Default.v
theories/DesPrint.v
theories/P_DesPrint.v
theories/Csexrb.v
theories/P_Csexrb.v
theories/P_Fits.v
theories/P_Limits.v
theories/P_FloatText.v
theories/P_EngrdaRead.v
theories/P_ImagePart.v
theories/P_Defaults.v
theories/ImageCopy.v
theories/P_ImageCopy.v
theories/P_ReadAny.v
theories/TreImpl.v
theories/P_TreImpl.v
theories/WeakDict.v
theories/P_WeakDict.v
theories/DesImpl.v
theories/P_DesImpl.v
theories/Docopt.v
theories/P_Docopt.v
theories/FileLog.v
theories/P_FileLog.v
theories/P_FileLogEx.v
theories/FilePrint.v
theories/P_FilePrint.v
theories/P_FilePrintRead.v
theories/P_FileSummary.v
theories/P_FilePrintKeep.v
theories/P_FilePrintEx.v
theories/Shared.v
theories/P_Shared.v
theories/P_FilePrintData.v
theories/SetOps.v
theories/P_SetOps.v
theories/MaxPrec.v
theories/P_MaxPrec.v
theories/UshDispatch.v
theories/P_UshDispatch.v
theories/Rsm.v
theories/P_Rsm.v
theories/OpenFile.v
theories/P_OpenFile.v
theories/FailRead.v
theories/P_FailRead.v
theories/P_FileCut.v
theories/TwoFiles.v
theories/P_TwoFiles.v
theories/InPlace.v
theories/P_InPlace.v
theories/FailWrite.v
theories/P_FailWrite.v
