-Q theories Verif
theories/Py.v
theories/Biff.v
theories/PyFacts.v
theories/BiffSpec.v
theories/BiffProofs.v
theories/BiffNumba.v
theories/BiffAny.v
theories/BiffEnum.v
theories/BiffEnumProofs.v
theories/PropsBiff.v
theories/Utf16.v
theories/Utf16Spec.v
theories/BiffRecs.v
theories/Utf16Proofs.v
theories/Utf16Text.v
theories/PropsRecs.v
theories/NumFmt.v
theories/NumFmtSpec.v
theories/NumFmtProofs.v
theories/Cell.v
theories/Xlsb.v
theories/XlsbSpec.v
theories/XlsbProofs.v
theories/XlsbParts.v
theories/PropsNumFmt.v
theories/PropsXlsb.v
theories/PyText.v
theories/Xlsx.v
theories/XlsxSpec.v
theories/XlsxProofs.v
theories/XlsxParts.v
theories/XlsxNorm.v
theories/PropsXlsx.v
theories/Queue.v
theories/QueueProofs.v
theories/PropsQueue.v
theories/Sheets.v
theories/SheetsSpec.v
theories/SheetsProofs.v
theories/PropsSheets.v
theories/Casts.v
theories/FloatFacts.v
theories/CastsSpec.v
theories/CastsProofs.v
theories/CastsProofs2.v
theories/PropsCasts.v
theories/Chunk.v
theories/ChunkSpec.v
theories/ChunkProofs.v
theories/ChunkWindow.v
theories/ChunkRun.v
theories/ChunkClosed.v
theories/ChunkConcat.v
theories/PropsChunk.v
theories/Utf8.v
theories/Series.v
theories/SeriesSpec.v
theories/SeriesProofs.v
theories/PropsSeries.v
theories/Reader.v
theories/ReaderSpec.v
theories/ReaderProofs.v
theories/ReaderSteps.v
theories/ReaderRead.v
theories/ReaderMore.v
theories/PropsReader.v
theories/PropsReader2.v
theories/Workbook.v
theories/WorkbookSpec.v
theories/WorkbookProofs.v
theories/PropsWorkbook.v
theories/PropsFile.v
theories/PropsParity.v
theories/PlacesSpec.v
theories/PlacesProofs.v
theories/PropsOptions.v
theories/RkProofs.v
theories/PropsRk.v
theories/ReaderOrder.v
theories/PropsOrder.v
theories/RobustSpec.v
theories/RobustProofs.v
theories/PropsRobust.v
theories/SafeProofs.v
theories/SafeBook.v
theories/PropsSafe.v
theories/PropsTime.v
theories/ReadSpec.v
theories/ReadProofs.v
theories/ReadState.v
theories/PropsRead.v
theories/TableSpec.v
theories/TableProofs.v
theories/TableSteps.v
theories/TableRead.v
theories/TableFresh.v
theories/TableErrors.v
theories/PropsTable.v
theories/PropsDamage.v
theories/Lax.v
theories/PropsLax.v
theories/Regex.v
theories/PropsRegex.v
theories/PropsSlice.v
theories/PropsCols.v
theories/FileSpec.v
theories/RaiseProofs.v
theories/PropsCauses.v
theories/PropsShort.v
theories/SameSpec.v
theories/SameProofs.v
theories/PropsSame.v
theories/QueueCalls.v
theories/PropsCalls.v
theories/Objects.v
theories/PropsObjects.v
theories/Generators.v
theories/PropsGenerators.v
theories/DefectSpec.v
theories/PropsDefects.v
theories/PropsDefectRows.v
theories/WindowSpec.v
theories/WindowProofs.v
theories/TableCalm.v
theories/PropsWindow.v
theories/Compiled.v
theories/PropsCompiled.v
theories/PropsFilters.v
theories/PropsDateOrder.v
theories/PropsLimit.v
theories/PropsWindow2.v
theories/PropsRels.v
theories/PropsLimitFile.v
theories/PropsFormats.v
theories/IntText.v
theories/PropsTexts.v
theories/PropsRelType.v
theories/PropsRkAll.v
theories/PropsLookup.v
theories/PropsUri.v
theories/PropsNullFirst.v
theories/PropsBools.v
theories/PropsScanners.v
