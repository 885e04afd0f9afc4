-Q theories Verif
theories/PyBase.v
theories/BitsModel.v
theories/BitsSpec.v
theories/BitsProofs.v
theories/CrcModel.v
theories/CrcSpec.v
theories/CrcProofs.v
theories/FramerModel.v
theories/FramerSpec.v
theories/FramerProofs.v
theories/FramerTheorems.v
theories/TestData.v
theories/PropertiesStream.v
theories/PyDict.v
theories/PyFloat.v
theories/TablesModel.v
theories/MsmModel.v
theories/MessageSpec.v
theories/ReadProofs.v
theories/MsmSpec.v
theories/MsmProofs.v
theories/MsmConverse.v
theories/CleanProofs.v
theories/MsmTheorems.v
theories/MsmScaleSpec.v
theories/MsmScaleProofs.v
theories/MsmConvert.v
theories/PropertiesMsm.v
theories/FloatProofs.v
theories/MsmScaleTheorems.v
theories/MsmRange.v
theories/PropertiesMsmScaled.v
theories/PyVal.v
theories/EphModel.v
theories/EphSpec.v
theories/EphProofs.v
theories/EphTheorems.v
theories/PropertiesEph.v
theories/PyText.v
theories/BaseModel.v
theories/BaseSpec.v
theories/TextProofs.v
theories/BaseProofs.v
theories/BaseTextProofs.v
theories/BaseSchedProofs.v
theories/PropertiesBase.v
theories/DecoderModel.v
theories/DecoderSpec.v
theories/DecoderProofs.v
theories/PropertiesDecoder.v
theories/PropertiesPayload.v
theories/PyFormat.v
theories/FormatSpec.v
theories/FormatProofs.v
theories/MargoModel.v
theories/MargoSpec.v
theories/MargoProofs.v
theories/MargoFiles.v
theories/MargoUnits.v
theories/PropertiesMargo.v
theories/PyJson.v
theories/JsonSpec.v
theories/JsonFloat.v
theories/JsonNumbers.v
theories/JsonProofs.v
theories/JsonModel.v
theories/JsonFileSpec.v
theories/JsonFiles.v
theories/JsonDecoded.v
theories/PropertiesJson.v
theories/PropertiesRelease.v
theories/JsonFields.v
theories/PropertiesJsonFields.v
theories/PrinterModel.v
theories/PrinterSpec.v
theories/PrinterProofs.v
theories/PropertiesPrinter.v
theories/NamesSpec.v
theories/NamesProofs.v
theories/MainModel.v
theories/PropertiesNames.v
theories/MainSpec.v
theories/MainProofs.v
theories/PropertiesMain.v
theories/PropertiesFiles.v
theories/ControlsModel.v
theories/ControlsSpec.v
theories/ControlsProofs.v
theories/PropertiesControls.v
theories/CompareModel.v
theories/CompareSpec.v
theories/CompareProofs.v
theories/PropertiesCompare.v
theories/PropertiesCopies.v
theories/SessionModel.v
theories/SessionSpec.v
theories/SessionProofs.v
theories/PropertiesSession.v
theories/SourcesModel.v
theories/SourcesSpec.v
theories/PropertiesSources.v
theories/IniModel.v
theories/IniSpec.v
theories/IniProofs.v
theories/IniData.v
theories/PropertiesIni.v
theories/ArgsModel.v
theories/ArgsSpec.v
theories/ArgsProofs.v
theories/PropertiesArgs.v
theories/ProgramModel.v
theories/ProgramSpec.v
theories/PropertiesProgram.v
theories/LogModel.v
theories/LogSpec.v
theories/LogProofs.v
theories/LogFrames.v
theories/LogRun.v
theories/PropertiesLog.v
theories/FullModel.v
theories/FullSpec.v
theories/PropertiesFull.v
theories/ConsoleModel.v
theories/ConsoleSpec.v
theories/PropertiesConsole.v
theories/ReferenceData.v
theories/Conformance.v
theories/TransmissionSpec.v
theories/TransmissionProofs.v
theories/PropertiesTransmission.v
theories/DocumentsSpec.v
theories/DocumentsProofs.v
theories/PropertiesDocuments.v
theories/GrabberModel.v
theories/GrabberSpec.v
theories/GrabberProofs.v
theories/PropertiesGrabber.v
theories/CrashModel.v
theories/CrashProofs.v
theories/CrashRun.v
theories/PropertiesCrash.v
theories/PiecesSpec.v
theories/PropertiesPieces.v
theories/PropertiesAgain.v
theories/PropertiesAlone.v
theories/PropertiesModes.v
theories/LosslessSpec.v
theories/PropertiesLossless.v
theories/ResolutionSpec.v
theories/ResolutionProofs.v
theories/PropertiesResolution.v
theories/PatternsSpec.v
theories/PropertiesPatterns.v
theories/PropertiesUserIni.v
theories/PropertiesCarriers.v
theories/PropertiesOrder.v
theories/PropertiesKinds.v
theories/PropertiesGrowing.v
theories/ClassifySpec.v
theories/PropertiesClassify.v
theories/PropertiesTolerance.v
theories/PropertiesLast.v
theories/PropertiesRuns.v
theories/PropertiesTail.v
theories/FoldedSpec.v
theories/PropertiesFolded.v
