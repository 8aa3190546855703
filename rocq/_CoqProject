-Q theories Verif
theories/GoBase.v
theories/ConcModel.v
theories/ConcProofs.v
theories/GoStrings.v
theories/IhexModel.v
theories/GoBaseFacts.v
theories/IhexOffsets.v
theories/IhexPhase2.v
theories/IhexProofs.v
theories/HexSpec.v
theories/IhexSpec.v
theories/HexSpecFacts.v
theories/HexParts.v
theories/IhexEnc.v
theories/IhexMain.v
theories/IhexLines.v
theories/IhexThm.v
theories/IhexRead.v
theories/IhexProps.v
theories/SrecModel.v
theories/SrecProofs.v
theories/SrecSpec.v
theories/SrecThm.v
theories/SrecProps.v
theories/CalibModel.v
theories/CalibProofs.v
theories/CalibSpec.v
theories/CalibThm.v
theories/CalibProps.v
theories/FloatModel.v
theories/FloatSpec.v
theories/FloatProofs.v
theories/MemModel.v
theories/MemSpec.v
theories/MemThm.v
theories/MemProps.v
theories/FloatArith.v
theories/CompuModel.v
theories/CompuSpec.v
theories/CompuThm.v
theories/CompuProps.v
theories/CompuRoot.v
theories/LookModel.v
theories/LookProps.v
theories/TokModel.v
theories/TokSpec.v
theories/TokProofs.v
theories/TokThm.v
theories/TokProps.v
theories/TokWords.v
theories/StrconvModel.v
theories/A2lIR.v
theories/A2lTokens.v
theories/A2lParsers.v
theories/A2lCheck.v
theories/A2lThm.v
theories/A2lSpec.v
theories/A2lProps.v
theories/A2lGrammar.v
theories/A2lForms.v
theories/A2lSym.v
theories/A2lSymThm.v
theories/A2lSymSound.v
theories/A2lDescribe.v
theories/A2lFormSpec.v
theories/A2lFormProps.v
theories/A2lObjProps.v
theories/A2lEnumProps.v
theories/A2lLayoutModel.v
theories/A2lLayoutSpec.v
theories/A2lLayoutProps.v
theories/FanModel.v
theories/FanProofs.v
theories/A2lModModel.v
theories/A2lModSpec.v
theories/A2lModStore.v
theories/A2lModSeq.v
theories/A2lModPar.v
theories/A2lModParts.v
theories/A2lModProps.v
theories/A2lTextModel.v
theories/A2lTextSpec.v
theories/A2lTextProps.v
theories/A2lFileModel.v
theories/A2lFileSpec.v
theories/A2lFileThm.v
theories/A2lFileProps.v
theories/A2lFileLost.v
theories/CalibFileModel.v
theories/CalibFileProps.v
theories/ValuesModel.v
theories/ValuesSpec.v
theories/ValuesThm.v
theories/ValuesProps.v
theories/A2lNestSpec.v
theories/A2lNest.v
theories/A2lNestThm.v
theories/A2lNestProps.v
theories/A2lTripSpec.v
theories/A2lMeetThm.v
theories/A2lTripThm.v
theories/A2lTripProps.v
theories/TreeModel.v
theories/TreeSpec.v
theories/TreeThm.v
theories/TreeLook.v
theories/TreeConv.v
theories/TreeLayoutSpec.v
theories/TreeLayout.v
theories/TreeLayoutEx.v
theories/FilesSpec.v
theories/FilesThm.v
theories/FilesProps.v
theories/FilesEx.v
theories/CountSpec.v
theories/CountProps.v
theories/AnySpec.v
theories/IhexAny.v
theories/SrecAny.v
theories/AnyProps.v
theories/A2lStrictSpec.v
theories/A2lStrict.v
theories/A2lStrictProps.v
theories/A2lMissProps.v
theories/A2lAcceptSpec.v
theories/A2lExplore.v
theories/A2lExploreThm.v
theories/A2lAcceptProps.v
theories/LockModel.v
theories/LockSpec.v
theories/LockThm.v
theories/LockProps.v
theories/GlobModel.v
theories/GlobProps.v
theories/TokAnySpec.v
theories/TokAnyProps.v
theories/OriginSpec.v
theories/OriginThm.v
theories/OriginProps.v
theories/FloatTextSpec.v
theories/FloatRound.v
theories/FloatTextThm.v
theories/FloatTextMore.v
theories/FloatTextFar.v
theories/FloatTextProps.v
theories/A2lExactSpec.v
theories/A2lExact.v
theories/A2lExactThm.v
theories/A2lExactProps.v
theories/A2lOddSpec.v
theories/A2lOddThm.v
theories/A2lOddParsers.v
theories/A2lOddTables.v
theories/A2lOddRest.v
theories/A2lOddProps.v
theories/ConvFileProps.v
theories/LookFileSpec.v
theories/LookFileThm.v
theories/LookFileProps.v
theories/LookFileName.v
theories/ValFileSpec.v
theories/ValFileProps.v
theories/GoTypes.v
theories/A2lStructs.v
theories/A2lTypeThm.v
theories/A2lTypeProps.v
theories/HashModel.v
theories/HashSpec.v
theories/HashThm.v
theories/HashProps.v
theories/CompuSqrt.v
theories/HashText.v
theories/FanFullModel.v
theories/FanFullThm.v
theories/A2lParModel.v
theories/A2lParSpec.v
theories/A2lParProps.v
theories/LeakSpec.v
theories/LeakThm.v
theories/LeakHex.v
theories/LeakProps.v
theories/LookShared.v
theories/HashAnySpec.v
theories/HashAny.v
theories/HashAnyProps.v
theories/RepoTests.v
theories/A2lCutSpec.v
theories/A2lCut.v
theories/A2lCutProps.v
theories/A2lCutLost.v
theories/A2lQuietSpec.v
theories/A2lQuiet.v
theories/A2lQuietThm.v
theories/A2lQuietProps.v
theories/A2lLooseSpec.v
theories/A2lLoose.v
theories/A2lLooseProps.v
theories/A2lLooseFile.v
theories/A2lShortProps.v
theories/FilesConv.v
theories/A2lLostProps.v
theories/SameMemSpec.v
theories/SameMemProps.v
theories/A2lLostFile.v
theories/OrderSpec.v
theories/OrderProps.v
theories/WrittenSpec.v
theories/WrittenProps.v
theories/WrittenEx.v
theories/FailedProps.v
theories/CutProps.v
theories/SCutProps.v
theories/BreakProps.v
theories/JoinProps.v
theories/PatchProps.v
theories/PatchCalibProps.v
theories/AddRecProps.v
theories/EditObjProps.v
theories/AddRecCalibProps.v
