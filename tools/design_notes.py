NOTES = {
'C01': 'SpecStream.v gives the grammar: items, their wire bytes, the commands they stand for. The parser is shown to be a two-mode automaton (Automaton.v); one lemma per item kind (StreamProofs.v), induction over the item list; Decompose.v shows every byte string is items plus a truncated end, so the characterisation is complete.',
'C02': 'Invariant over the automaton; corollary of the decomposition theorem.',
'C03': 'The state after `parse_bytes` is the initial state; induction over the list of calls.',
'C04': 'Panics are values of the model; the exact condition is stated with the item grammar, not with the automaton.',
'C05': 'From C01 items.', 'C06': 'From C01 items; the fixed arities come from the table in SpecStream.v.',
'C07': 'From the compositional form of C01.', 'C08': 'Finite table, decided by computation and lifted.',
'C09': 'Wire bytes of reported commands versus input, by decomposition.', 'C10': 'From C01.', 'C11': 'From the automaton: at a boundary the state is determined by the current command only.',
'C12': 'The sub-command tables are transcribed independently in SpecStream.v and compared for all keys.',
'C13': 'SpecThermal.v defines tokens, lines and sources; induction over the source.',
'C14': 'Writer of the code composed with the reader; the guard on text is exactly what C13 can read back.',
'C15': 'SpecGraphics.v defines the dots of the packed formats; loop invariants over rows and bytes.',
'C16': 'As C15.', 'C17': 'Index arithmetic over rows.', 'C18': 'Induction over the list of layers.',
'C19': 'Context.v and the handler of ESC @; frame lemmas.', 'C20': 'SpecPrinter.v lists which settings each command names; every command of the table is covered (completeness theorems).',
'C21': 'Invariant by induction over the history (StateTheory.v).', 'C22': 'Arithmetic on the three cases; history invariant for the block images.',
'C23': 'Group of quarter turns; invariant linking the sum of announced turns with the direction.', 'C24': 'Algebra of page geometry.',
'C25': 'List induction; words are characterised by SpecText-style predicates, uniqueness proves the characterisation complete.',
'C26': 'Tables generated from the sources; 256 x tables x national sets by computation lifted with forallb_forall, strings by induction; published code pages in SpecText.v.',
'C27': 'As C26.', 'C28': 'SpecUpc.v states the GS1 check equation and expansion.', 'C29': 'As C28.', 'C30': 'As C28.',
'C31': 'Trace of output-renderer calls; induction over commands with the page-mode flag (SpecRender.v `sheets`).',
'C32': 'Conservation law per command, lifted to jobs; placement by induction over words (PlaceTheory.v).',
'C33': 'SpecSafe.v lists the gentle commands and the paper they use; invariant `calm` over the history (SafeTheory*.v): number ranges of all areas, tabs, stored images. Standard mode only.',
'C34': 'SpecCanvas.v: a canvas shows a picture (function of coordinates); loop invariant of the painting loop.',
'C35': 'As C34.', 'C36': 'Invariant over histories of canvas operations.', 'C37': 'As C34.', 'C38': 'As C34.',
'C39': 'ImageRenderer.v run over the calls of Renderer.v; invariant on the paper canvas; count by C31.',
'C40': 'SpecImage.v: strokes on a strip; every canvas operation simulates its stroke (ImageTheory.v); CallsTheory.v shows the calls of every history are well formed.',
'C41': 'Invariant: after end_render the paper canvas has width 0 and refuses everything.',
'C42': 'Composition of C01-style parsing, C15, the layout of Renderer.v and C40; total correctness.',
'C43': 'HtmlRenderer.v interprets the calls; SpecHtml.v reads HTML (tags against text). Fragment composition lemmas, separation lemmas for str::replace, FlatTheory for standard mode, C32 for the typed text.',
'C44': 'Boxes of calls are specified by least and greatest coordinates; invariant on last_y over the run of calls.',
'C45': 'The content of the renderer only grows between two ends of sheets.',
'C46': 'An Ok run means the encoder accepted every image.',
'C47': 'Error list as a function of the history; for the image renderer an invariant pairing ends of sheets with error flushes.',
'C48': 'Told.v: every reported command carries exactly the settings its bytes say (invariants over the parser); then C15/C16 and the layout of Renderer.v.',
'C49': 'PenTheory.v: the band of paper text occupies; the drawing loop equals the list of all bars filtered by the right edge.',
'C50': 'SpecBarcode.v: systems, lengths, encoder inputs; the three string replacements of CODE128 equal one left-to-right reading.',
'C51': 'SpecQr.v folds the settings over the command history; MemoryTheory.v: which commands touch the symbol and picture stores; the drawing loop equals the grid of dark modules.',
'C52': 'SpecStored.v: last writer per key over the command history; invariant of the stored map (MemoryTheory.v), then C18_multicolour_raster and the layout of block images.',
'C53': 'SpecBuffer.v: the buffer as a fold over the history; every layer decodes by C15/C16, the overlay by C18.',
'C54': 'SpecLines.v: rows of words with their places as a recursion over the lines; the flow loop equals it by induction over the words (PropsLines.v); paper motion is a relation preserved by every command (PropsMotion.v); heights and base lines by an exhaustive check of the 16 character heights and 7 fonts (PropsCells.v).',
 'C55': 'SpecDesk.v describes the sheet and the page beside it: drawing (with the clipping quirk of C38), turning, enlarging, stamping. DeskTheory.v shows that the image renderer\'s two canvases always show that desk (at_desk, by induction over the calls, using put_pixels_shows_gen, flip_pixels_shows_gen and the rotations of C37). C55_image is C40 without the restriction to jobs that print no page. C55_page_printed uses an opacity invariant (every pixel has alpha 255 and byte channels) to turn blending into copying. PageTheory.v proves by cases over all handlers that in page mode only FF, ESC FF, ESC S and ESC @ touch the paper position.',
'C56': 'The run of HtmlRenderer over the calls is related row by row to the calls (html_rows, event_row); the text of each row is compared with SpecRow.shows, which writes numbers by reading them back (writes) and lists classes by what they stand for (class_for).',
'C57': 'SpecRow has a reader for the style sheet in the head (split at braces, semicolons and colons) and the cascade (value_of); the properties only look at the classes named in the sheet, so the 2^k class sets reduce to finitely many tests done by vm_compute inside a proof for all spans. The four colours are an invariant over histories (InkTheory).',
'C58': 'SpecPosition maps places of the turned page to the upright one (upright) and names the area and the pen there. Each command is unfolded for any state; apply_logical_area is solved by cases on the direction (apply_fits).',

'C59': 'PropsDraw.v, PropsDrawHtml.v (SpecDraw.v; SpotTheory.v, DrawTheory.v). The totality proof of C33 is strengthened to an invariant on every recorded call: positions and widths stay on the 609-dot paper, heights below 65536 plus the paper position. Each drawing routine (rect, put_pixels, flip, glyph, span, svg, words, push_row) is then shown total on such calls for canvases whose size fits 32 bits. Demos: the receipt of C33 for arbitrary fonts/encoders. Refutations: a long roll (ESC d repeated after large line spacing) overflows the image buffer size; a GS v 0 picture of height 0 makes the HTML renderer unwrap None.',
'C60': 'PropsScene.v (SpecScene.v; HueTheory.v, GlyphTheory.v, PixelTheory.v, SceneTheory.v). Refines C40: each stroke of SpecImage is shown equal to a whole-number picture operation. The f32 channel formulas are shown equal to round-half-free integer division for all bytes (256*256(*256) reduced by monotone error bounds), glyph cells and scaling by loop invariants, the base line and middle fractions by evaluating all 16*16 sizes and fonts; that pages stay opaque and inks are printable is an invariant of all histories including stored graphics.',
'C61': 'SpecManual.v is a flat manual of the settings: 26 named settings, their power-on values, a table from command bytes to orders, and the effect of each order. ManualTheory.v: the table is compared with the crate command table by computation, each handler (context update or device command, depending on the command kind) is shown to have the order effect, everything else to leave the settings alone; sub-commands only by the dot density. PropsManual.v: induction over the stream, and the text by C32 with the style and decoder recomputed from the settings. PropsTitles.v adds the texts of the barcodes: which data give one is SpecBarcode (C49, C50), compared with the crate by barcode_gives and barcode_refuses.',
'C62': 'SpecProtocol.v: a table from command bytes to device acts, what the device is to do in or out of page mode, and the calls that accompany each device command. ProtocolTheory.v: the table is compared with the crate command table by computation, text and pictures only add drawing calls, each device command adds its announcement; page mode by step_effect. PropsProtocol.v: induction over the stream.',
'C63': 'The page of the HTML renderer is tracked with the same page (leaf) as in C55: every call changes it as SpecDesk says (PrintoutTheory.html_leaf), its size stays a 32 bit number, its dots in a row are the bytes of the canvas (leaf_dots). Induction over the calls gives the rows; C55_image_shows_page gives the comparison with the image.',
'C64': 'SpecStage gives the sheet and the page beside it in whole numbers (press, fade, dot of SpecScene; the edges of the page as in SpecDesk). StageTheory proves, call by call, that the modelled renderer does the same (staged/stage_run); with C55 every dot of every sheet follows, and with C63 every dot of a page picture in HTML.',
'C65': 'SpecPlain.v says in terms of the lines and n alone which character covers a dot (cell_of), how black it is (blackness) and how high the sheet is. PlainRun.v: the bytes of typed lines are a stream of C01 items, so the parser reports one text and one LF command per line, and each collects a span; the spans fall into the words of the lines. PlainJob.v: the context after Begin Print and ESC ! n, by cases on the five bits; the End Print flush puts the rows of C54 on the sheet. PlainTheory.v: words side by side are the cells of the line, rows below each other the cells of the text (stamps_cell). PropsPlain.v: C40 for the height (no stroke of a row reaches below its pitch), C60 for the dots, C59 for the existence.',
'C66': 'SpecReceipt: parts (line with alignment and mode, feeds, cuts), their bytes, heights, and the cell in which a dot lies. ReceiptRun: the parser theorem for the parts, then induction over the parts with the invariant "one finished line may be waiting"; PropsReceipt: the picture of the rows (shifted by the alignment) is the picture of the spec, cell by cell, and the sheet is not lower than the parts.',
'C67': 'The calls of such a job come from ReceiptRun (C66). `lines_in` shows that the HTML renderer makes of them one row per line; `words_out` and `row_out` give the row: elements, classes (`classes_mode`, all flag combinations by computation) and the drop of 0 (f32 arithmetic). `parts_in` is the induction over the parts with the end of the last paragraph; `bare_*` show that there is nothing for the template to replace. The specification (SpecReceiptHtml) writes the paragraphs directly from the parts.',
'C68': 'SpecSlip: elements (parts of SpecReceipt and GS v 0 pictures), their bytes and heights, the place of a picture, the bit at a dot. SlipRun: the parser theorem for the elements (a raster command takes exactly its announced bytes), induction over the elements with the invariant of ReceiptRun, the picture step from C48 (size, place, pixels); PropsSlip: the scene of the calls is, element by element, the picture of the spec, and the sheet is not lower than the elements.',
'C69': 'SpecSlipHtml: the dots of a picture as the bytes given to the encoder, its image tag, the paragraphs of the elements. PropsSlipHtml: the calls of SlipRun are rows of the document one by one (parts by PropsReceiptHtml, pictures by encode_html_image and the pixels of C48); no brace, so the template does not change them.',



}
