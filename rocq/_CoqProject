-Q theories Verif
theories/Base.v
theories/Command.v
theories/CommandSet.v
theories/Parser.v
theories/SpecStream.v
theories/ParserLemmas.v
theories/Automaton.v
theories/StreamProofs.v
theories/Decompose.v
theories/ParserTheory.v
theories/PropsParser.v
theories/Vec.v
theories/Float32.v
theories/GTypes.v
theories/Graphics.v
theories/SpecGraphics.v
theories/GraphicsTheory.v
theories/GraphicsTheory2.v
theories/PropsGraphics.v
theories/Utf8.v
theories/DecoderTables.v
theories/Decoder.v
theories/Context.v
theories/Text.v
theories/SpecText.v
theories/PropsDecoder.v
theories/Upce.v
theories/SpecUpc.v
theories/PropsUpce.v
theories/PropsText.v
theories/ThermalImage.v
theories/SpecCanvas.v
theories/CanvasTheory.v
theories/CanvasRect.v
theories/PropsCanvas.v
theories/Handlers.v
theories/Renderer.v
theories/ContextTheory.v
theories/RendererTheory.v
theories/Origin.v
theories/SpecPrinter.v
theories/StateTheory.v
theories/PropsContext.v
theories/PropsPage.v
theories/SpecRender.v
theories/PropsOutput.v
theories/LayoutTheory.v
theories/AreaTheory.v
theories/PropsLayout.v
theories/PlaceTheory.v
theories/PropsPlace.v
theories/ThermalFile.v
theories/SpecThermal.v
theories/ThermalTheory.v
theories/PropsThermal.v
theories/SafeTheory.v
theories/SafeTheory2.v
theories/SpecSafe.v
theories/SafeTheory3.v
theories/SafeTheory4.v
theories/SafeTheory5.v
theories/PropsSafe.v
theories/ImageRenderer.v
theories/CallsTheory.v
theories/SpecImage.v
theories/ImageTheory.v
theories/PropsImage.v
theories/PropsBitmap.v
theories/HtmlTemplate.v
theories/HtmlRenderer.v
theories/SpecHtml.v
theories/HtmlTheory.v
theories/FlatTheory.v
theories/PropsHtml.v
theories/SpecError.v
theories/PropsErrors.v
theories/Told.v
theories/SpecSymbol.v
theories/PropsPicture.v
theories/PenTheory.v
theories/SpecBarcode.v
theories/PropsBarcode.v
theories/SpecMemory.v
theories/MemoryTheory.v
theories/SpecQr.v
theories/PropsQr.v
theories/SpecStored.v
theories/PropsStored.v
theories/SpecBuffer.v
theories/PropsBuffer.v
theories/SpecLines.v
theories/PropsLines.v
theories/PropsMotion.v
theories/PropsCells.v
theories/DemoLines.v
theories/SpecDesk.v
theories/DeskTheory.v
theories/PageTheory.v
theories/PropsDesk.v
theories/SpecRow.v
theories/RowTheory.v
theories/PropsRow.v
theories/InkTheory.v
theories/PropsLook.v
theories/SpecPosition.v
theories/PropsPosition.v
theories/PropsCrop.v
theories/SpotTheory.v
theories/SpecDraw.v
theories/DrawTheory.v
theories/PropsDraw.v
theories/PropsDrawHtml.v
theories/HueTheory.v
theories/SpecScene.v
theories/GlyphTheory.v
theories/PixelTheory.v
theories/SceneTheory.v
theories/PropsScene.v
theories/SpecManual.v
theories/ManualTheory.v
theories/PropsManual.v
theories/SpecProtocol.v
theories/ProtocolTheory.v
theories/PropsProtocol.v
theories/SpecPrintout.v
theories/PrintoutTheory.v
theories/PropsPrintout.v
theories/SpecStage.v
theories/StageTheory.v
theories/PropsStage.v
theories/SpecPlain.v
theories/PlainTheory.v
theories/PlainRun.v
theories/PlainJob.v
theories/PropsPlain.v
theories/SpecReceipt.v
theories/ReceiptRun.v
theories/PropsReceipt.v
theories/SpecReceiptHtml.v
theories/PropsReceiptHtml.v
theories/SpecSlip.v
theories/SlipRun.v
theories/PropsSlip.v
theories/SpecSlipHtml.v
theories/PropsSlipHtml.v
theories/SpecTitles.v
theories/PropsTitles.v
theories/SpecTicket.v
theories/TicketRun.v
theories/PropsTicket.v
theories/SpecTicketHtml.v
theories/PropsTicketHtml.v
theories/Assumptions.v
