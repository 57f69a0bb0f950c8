-Q theories Verif
theories/Base/PyStr.v
theories/Base/PyNum.v
theories/Base/PyVal.v
theories/Base/PyDict.v
theories/Base/Outcome.v
theories/Model/Warn.v
theories/Model/Lib.v
theories/Model/Convert.v
theories/Model/Input.v
theories/Tests/TestLib.v
theories/Tests/UnflattenRepo.v
theories/Spec/Columns.v
theories/Proofs/ColumnFacts.v
theories/Spec/Embed.v
theories/Spec/Ids.v
theories/Spec/Rows.v
theories/Spec/Cells.v
theories/Proofs/TreeInd.v
theories/Proofs/EmbedFacts.v
theories/Spec/Source.v
theories/Proofs/RowWf.v
theories/Proofs/Distinct.v
theories/Proofs/IdInv.v
theories/Proofs/MergeCells.v
theories/Proofs/Grouping.v
theories/Proofs/IdRun.v
theories/Proofs/RunCells.v
theories/Proofs/Conflict.v
theories/Props/Merging.v
theories/Proofs/DecStr.v
theories/Proofs/DecText.v
theories/Model/Json.v
theories/Spec/Conversion.v
theories/Proofs/ConvertFacts.v
theories/Proofs/RunSource.v
theories/Spec/Plain.v
theories/Spec/Odds.v
theories/Spec/Outcomes.v
theories/Spec/Wkt.v
theories/Spec/Conforms.v
theories/Proofs/Total.v
theories/Spec/SheetConf.v
theories/Proofs/SheetConfFacts.v
theories/Props/Conversion.v
theories/Model/Flatten.v
theories/Tests/FlattenLib.v
theories/Tests/FlattenRepo.v
theories/Proofs/JvInd.v
theories/Proofs/FlattenTrace.v
theories/Proofs/FlattenRows.v
theories/Spec/Flat.v
theories/Proofs/FlattenRun.v
theories/Spec/Sites.v
theories/Proofs/FlattenPlain.v
theories/Spec/Paths.v
theories/Proofs/FlattenPaths.v
theories/Proofs/FlattenUsed.v
theories/Proofs/FlattenTotal.v
theories/Proofs/FlattenItems.v
theories/Spec/Preserve.v
theories/Proofs/PreserveFacts.v
theories/Spec/Rollup.v
theories/Proofs/RollupFacts.v
theories/Proofs/FlattenMain.v
theories/Props/Flattening.v
theories/Spec/Headings.v
theories/Proofs/RowBuild.v
theories/Proofs/RowFin.v
theories/Proofs/RowRead.v
theories/Spec/Same.v
theories/Proofs/RowRun.v
theories/Proofs/RowOrder.v
theories/Props/Reading.v
theories/Model/SourceMap.v
theories/Tests/SourceMapRepo.v
theories/Spec/Maps.v
theories/Proofs/RowKeys.v
theories/Proofs/MapFacts.v
theories/Proofs/MapRun.v
theories/Proofs/MapSound.v
theories/Proofs/MapOrder.v
theories/Props/Maps.v
theories/Spec/Filled.v
theories/Proofs/Erase.v
theories/Proofs/EraseRun.v
theories/Props/Blanks.v
theories/Model/Readers.v
theories/Spec/Grids.v
theories/Proofs/ReaderFacts.v
theories/Proofs/LocationFacts.v
theories/Proofs/FormatFacts.v
theories/Props/Files.v
theories/Model/Ods.v
theories/Spec/OdsCells.v
theories/Proofs/OdsFacts.v
theories/Props/OdsFiles.v
theories/Model/SortXml.v
theories/Model/XmlInput.v
theories/Model/XmlOut.v
theories/Model/XmlDict.v
theories/Spec/XmlOrder.v
theories/Spec/XmlTags.v
theories/Spec/XmlData.v
theories/Proofs/SortXmlFacts.v
theories/Proofs/XmlTagsFacts.v
theories/Proofs/XmlOutFacts.v
theories/Props/Xml.v
theories/Model/Csv.v
theories/Model/Output.v
theories/Spec/CsvText.v
theories/Spec/Written.v
theories/Proofs/CsvFacts.v
theories/Proofs/OutputFacts.v
theories/Proofs/CsvFiles.v
theories/Proofs/OdsFiles.v
theories/Props/Writing.v
theories/Model/Titles.v
theories/Model/Schema.v
theories/Model/TitleLines.v
theories/Tests/SchemaLib.v
theories/Tests/SchemaRepo.v
theories/Spec/SchemaFields.v
theories/Spec/SchemaWarnings.v
theories/Spec/SchemaLines.v
theories/Proofs/SchemaTrace.v
theories/Proofs/SchemaRun.v
theories/Proofs/SchemaColumns.v
theories/Proofs/SchemaState.v
theories/Proofs/SchemaTypes.v
theories/Proofs/SchemaTitles.v
theories/Proofs/SchemaTotal.v
theories/Proofs/SchemaReady.v
theories/Proofs/SchemaLines.v
theories/Proofs/SchemaCheck.v
theories/Props/Schema.v
theories/Model/Commands.v
theories/Model/Cli.v
theories/Model/JsonText.v
theories/Model/MapText.v
theories/Spec/JsonGrammar.v
theories/Proofs/JsonScan.v
theories/Proofs/JsonSound.v
theories/Proofs/JsonWrite.v
theories/Spec/CommandLine.v
theories/Tests/CliArgparse.v
theories/Proofs/CliWords.v
theories/Proofs/CliLine.v
theories/Proofs/CliMeaning.v
theories/Proofs/CliRun.v
theories/Proofs/CliAll.v
theories/Proofs/CliMain.v
theories/Spec/Commands.v
theories/Tests/CommandLib.v
theories/Tests/CommandRepo.v
theories/Proofs/CommandFacts.v
theories/Proofs/CommandRun.v
theories/Proofs/CommandMaps.v
theories/Props/Commands.v
theories/Spec/RoundTrip.v
theories/Spec/Alike.v
theories/Spec/Near.v
theories/Spec/Typed.v
theories/Proofs/RtMerge.v
theories/Proofs/RtRow.v
theories/Proofs/RtLine.v
theories/Proofs/RtDoc.v
theories/Proofs/RtState.v
theories/Proofs/RtRun.v
theories/Proofs/RtOrder.v
theories/Proofs/RtMain.v
theories/Proofs/RtTrip.v
theories/Proofs/RtNames.v
theories/Proofs/RtCheck.v
theories/Proofs/RtTyped.v
theories/Proofs/NearFacts.v
theories/Props/RoundTrip.v
theories/Spec/Trip.v
theories/Spec/FlattenRun.v
theories/Spec/XmlTrip.v
theories/Spec/XmlSheets.v
theories/Spec/Repeated.v
theories/Spec/Titled.v
theories/Spec/SchemaTitled.v
theories/Spec/Positions.v
theories/Spec/TitledTrip.v
theories/Spec/Turned.v
theories/Proofs/CsvListing.v
theories/Proofs/Trip.v
theories/Proofs/TripJson.v
theories/Proofs/TripRun.v
theories/Proofs/TripEnd.v
theories/Spec/BookTrip.v
theories/Proofs/BookRead.v
theories/Proofs/BookRun.v
theories/Proofs/BookEnd.v
theories/Proofs/BookCheck.v
theories/Spec/JsonTrip.v
theories/Proofs/JsonTexts.v
theories/Proofs/TextTrip.v
theories/Proofs/TripCheck.v
theories/Props/EndToEnd.v
theories/Proofs/Odds.v
theories/Proofs/CommandTotal.v
theories/Proofs/OddsSchema.v
theories/Proofs/WktFlat.v
theories/Proofs/WktAbsent.v
theories/Proofs/Conforms.v
theories/Proofs/ConformsEnd.v
theories/Proofs/FlattenCommand.v
theories/Proofs/XmlTripFacts.v
theories/Proofs/XmlTripRun.v
theories/Proofs/XmlShapes.v
theories/Proofs/XmlRows.v
theories/Proofs/XmlSheets.v
theories/Proofs/RepeatedFacts.v
theories/Proofs/RepeatedRead.v
theories/Proofs/FlattenTitled.v
theories/Proofs/TitledItems.v
theories/Proofs/TitledUsed.v
theories/Proofs/SchemaHeadings.v
theories/Proofs/SchemaOnce.v
theories/Proofs/TitledSchema.v
theories/Proofs/SchemaSame.v
theories/Proofs/TripLines.v
theories/Proofs/TitleChain.v
theories/Proofs/TitlePlaces.v
theories/Proofs/TitleRows.v
theories/Proofs/TitleBack.v
theories/Proofs/TitleSheets.v
theories/Proofs/TitleTrip.v
theories/Proofs/TitleCheck.v
theories/Proofs/TitledReady.v
theories/Proofs/PositionFacts.v
theories/Proofs/TurnedFacts.v
theories/Proofs/TurnedBooks.v
theories/Props/Odds.v
theories/Props/Wkt.v
theories/Props/Conforms.v
theories/Props/FlattenRun.v
theories/Props/Repeated.v
theories/Props/Titled.v
theories/Props/Turned.v
theories/Props/SchemaTitled.v
theories/Props/Positions.v
theories/Props/TitleRound.v
theories/Props/CliCalls.v
theories/Tests/JsonPython.v
theories/Props/JsonFiles.v
theories/Props/Books.v
theories/Spec/TitledFiles.v
theories/Proofs/CsvShown.v
theories/Proofs/TitleFiles.v
theories/Proofs/TitleEnd.v
theories/Proofs/TitleFilesCheck.v
theories/Props/TitledFiles.v
theories/Model/Utf8.v
theories/Spec/Bytes.v
theories/Spec/MapText.v
theories/Proofs/Utf8Facts.v
theories/Proofs/BytesFacts.v
theories/Proofs/BytesTrip.v
theories/Props/Utf8Files.v
theories/Proofs/MapTextFacts.v
theories/Proofs/MapFiles.v
theories/Props/MapFiles.v
theories/Proofs/SchemaWarnings.v
theories/Proofs/SchemaReports.v
theories/Props/SchemaReports.v
theories/Props/XmlTrip.v
theories/Proofs/LinesFit.v
theories/Spec/FlattenOutcome.v
theories/Proofs/FlattenOutcome.v
theories/Props/Outcomes.v
theories/Props/FlattenOutcome.v
theories/Props/TemplateOutcome.v
theories/Tests/ExampleLib.v
theories/Tests/DocExamples.v
