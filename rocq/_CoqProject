-Q theories Verif
theories/PyTables.v
theories/PyStr.v
theories/Regex.v
theories/Regexes.v
theories/Xml.v
theories/Json.v
theories/Lint.v
theories/RowIter.v
theories/Helpers.v
theories/Extract.v
theories/Document.v
theories/PyStrFacts.v
theories/RegexFacts.v
theories/Conformance.v
theories/MFacts.v
theories/SpecText.v
theories/RangeProofs.v
theories/Prop_Range.v
theories/SpecFields.v
theories/ValidateProofs.v
theories/Prop_Validate.v
theories/SpecLabel.v
theories/LabelProofs.v
theories/Prop_Label.v
theories/SpecHeader.v
theories/HeaderProofs.v
theories/Prop_Header.v
theories/SpecRows.v
theories/SpecIter.v
theories/IterProofs.v
theories/RowProofs.v
theories/Prop_Rows.v
theories/Prop_Iter.v
theories/SpecNames.v
theories/NameProofs.v
theories/SpecTable.v
theories/CellRead.v
theories/Prop_Names.v
theories/TableProofs.v
theories/SizeProofs.v
theories/SpecDoc.v
theories/DocProofs.v
theories/Prop_Table.v
theories/DocFlow.v
theories/DocRuns.v
theories/SpecRun.v
theories/Prop_Doc.v
theories/Output.v
theories/SpecOutput.v
theories/Prop_Output.v
theories/Schema.v
theories/Prop_Schema.v
theories/Cli.v
theories/SpecCli.v
theories/Prop_Cli.v
theories/Docx.v
theories/Render.v
theories/SpecQuery.v
theories/QueryProofs.v
theories/SpecFmt.v
theories/SpecRuns.v
theories/Prop_Fmt.v
theories/RunProofs.v
theories/SpecGrid.v
theories/GridProofs.v
theories/Prop_Grid.v
theories/SpecHtml.v
theories/HtmlProofs.v
theories/TableHtml.v
theories/TilingProofs.v
theories/Prop_Html.v
theories/DocxFlow.v
theories/RestoreProofs.v
theories/Prop_HtmlTable.v
theories/SpecList.v
theories/ListProofs.v
theories/DocxTotal.v
theories/Prop_List.v
theories/SpecDocx.v
theories/Prop_Docx.v
theories/SpecTables.v
theories/TablesOnce.v
theories/Prop_Tables.v
theories/SpecStage1.v
theories/Stage1Proofs.v
theories/Prop_Stage1.v
theories/Server.v
theories/SpecServer.v
theories/ServerProofs.v
theories/Prop_Server.v
theories/Report.v
theories/SpecReport.v
theories/Prop_Report.v
theories/JsonText.v
theories/SpecJson.v
theories/JsonProofs.v
theories/Prop_Json.v
theories/SpecStage2.v
theories/Prop_Stage2.v
theories/Client.v
theories/SpecClient.v
theories/Prop_Client.v
theories/SpecXml.v
theories/XmlProofs.v
theories/XmlPrefix.v
theories/XmlText.v
theories/XmlNeat.v
theories/Prop_Xml.v
theories/Css.v
theories/SpecCss.v
theories/CssRead.v
theories/CssProofs.v
theories/DocxParts.v
theories/CssCascade.v
theories/CssPlaces.v
theories/CssLists.v
theories/CssTags.v
theories/CssOrder.v
theories/Prop_Css.v
theories/Prop_CssEx.v
theories/SpecReads.v
theories/ReadForms.v
theories/ReadProofs.v
theories/ReadFigs.v
theories/Prop_Reads.v
theories/SpecEnd.v
theories/EndProofs.v
theories/EndRows.v
theories/EndFigure.v
theories/Prop_End.v
theories/SpecDeep.v
theories/DeepText.v
theories/DeepTables.v
theories/DeepRows.v
theories/DeepFigure.v
theories/Prop_Deep.v
theories/Prop_Ids.v
theories/SpecOut.v
theories/OutProofs.v
theories/OutFigure.v
theories/OutUnique.v
theories/Prop_Out.v
theories/Disk.v
theories/SpecDisk.v
theories/DiskProofs.v
theories/DiskJson.v
theories/Prop_Disk.v
theories/Prop_DiskEx.v
theories/Prop_Works.v
theories/Prop_WorksEx.v
theories/Log.v
theories/SpecLog.v
theories/Prop_Log.v
theories/Messages.v
theories/SpecMsg.v
theories/MsgProofs.v
theories/MsgFlow.v
theories/Prop_Msg.v
theories/RunLog.v
theories/SpecRunLog.v
theories/Prop_RunLog.v
theories/Args.v
theories/SpecArgs.v
theories/ArgsProofs.v
theories/ArgsLine.v
theories/Prop_Args.v
theories/Prop_Bound.v
theories/Program.v
theories/Prop_Program.v
theories/Prop_ProgramEx.v
theories/SpecChars.v
theories/CharProofs.v
theories/CharFlow.v
theories/Prop_Chars.v
theories/SpecElem.v
theories/Prop_Elem.v
theories/SpecAlike.v
theories/AlikeProofs.v
theories/Prop_Alike.v
theories/SpecQuirks.v
theories/Prop_Quirks.v
theories/SpecResaved.v
theories/ResavedProofs.v
theories/Prop_Resaved.v
theories/Prop_ResavedLog.v
theories/SpecAlikeRun.v
theories/Prop_AlikeRun.v
theories/Prop_Skip.v
theories/Prop_SkipLog.v
theories/Prop_SkipLine.v
