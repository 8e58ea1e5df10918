-Q theories Verif

theories/Base.v
theories/Conversion.v
theories/Reader.v
theories/Lib.v
theories/SpecNum.v
theories/ConversionProofs.v
theories/SpecReader.v
theories/ReaderProofs.v
theories/PropsReader.v
theories/PropsMatch.v
theories/Buffer.v
theories/Writer.v
theories/BufferProofs.v
theories/Emits.v
theories/SpecEscape.v
theories/WriterProofs.v
theories/TruncProofs.v
theories/SpecWriter.v
theories/CallProofs.v
theories/RoundTrip.v
theories/Pieces.v
theories/PropsWriter.v
theories/PropsBuffer.v
theories/PropsCount.v
theories/PropsPointer.v
theories/CtVector.v
theories/SpecOwn.v
theories/CtVectorProofs.v
theories/PropsOwn.v
theories/Bitset.v
theories/BitsetProofs.v
theories/Result.v
theories/PropsMisc.v
theories/Specs.v
theories/Bignum.v
theories/Dragon.v
theories/FormatArg.v
theories/FloatArg.v
theories/Format.v
theories/SpecBignum.v
theories/BignumProofs.v
theories/PropsBignum.v
theories/SpecFloat.v
theories/EstimateProofs.v
theories/DragonProofs.v
theories/ExactProofs.v
theories/ReadBack.v
theories/PropsFloat.v
theories/SpecFormat.v
theories/FormatArgProofs.v
theories/FloatArgProofs.v
theories/DoubleProofs.v
theories/SpecDecimal.v
theories/DecimalProofs.v
theories/FloatTextProofs.v
theories/SpecField.v
theories/FieldProofs.v
theories/FieldUnique.v
theories/PropsField.v
theories/SpecSpecs.v
theories/SpecsProofs.v
theories/PropsSpecs.v
theories/SpecString.v
theories/AtomProofs.v
theories/StringProofs.v
theories/StringLoop.v
theories/StringTuples.v
theories/StringEmits.v
theories/StringTop.v
theories/StringUnique.v
theories/PropsFormat.v
theories/FormatApi.v
theories/PropsApi.v
theories/SpecDigits.v
theories/DigitProofs.v
theories/Scan.v
theories/SpecScan.v
theories/ScanSpecs.v
theories/ScanLoop.v
theories/ScanNumber.v
theories/ScanInt.v
theories/ParseProofs.v
theories/ScanText.v
theories/ScanTop.v
theories/PropsScan.v
theories/PropsRound.v
theories/Direct.v
theories/Validated.v
theories/DirectProofs.v
theories/PropsPaths.v
theories/Float32.v
theories/SpecFloat32.v
theories/Float32Proofs.v
theories/PropsFloat32.v
theories/Custom.v
theories/SpecCustom.v
theories/CustomProofs.v
theories/PropsCustom.v
theories/Elements.v
theories/SpecElements.v
theories/ElementsProofs.v
theories/PropsElements.v
theories/Tuples.v
theories/SpecTuples.v
theories/TuplesProofs.v
theories/PropsTuples.v
theories/CustomApi.v
theories/SpecCustomApi.v
theories/CustomApiProofs.v
theories/PropsCustomApi.v
theories/CustomScan.v
theories/SpecCustomScan.v
theories/CustomScanProofs.v
theories/PropsCustomScan.v
theories/Conformance.v
theories/ConformanceFormat.v
theories/ConformanceScan.v
theories/ConformanceMisc.v
