{"id": "C01", "title": "Well-formed streams parse to exactly the commands they encode", "statement": "Take any ESC/POS stream written as a sequence of items - fixed-length commands with their argument bytes, runs of plain text, barcodes (NUL terminated or with an explicit length), column bit images, raster images, cut commands, character-effect commands, GS ( L / GS 8 L / GS ( k sub-commands - such that text runs are non-empty, contain no control bytes and are not adjacent, and a command comes first and a non-sub-command comes last. Parser::parse_bytes on the concatenation of the items' wire bytes returns Begin Print, then exactly one command per item, in order, each with exactly the item's name, kind and data, then End Print.", "quantifier": "all item sequences of any length, all argument bytes, all payload lengths", "why_tests_cant": "the parser is a byte-at-a-time automaton whose framing depends on lengths inside the data; only an induction over the stream covers every sequence, payload and adjacency", "anchors": ["thermal_parser/src/parser.rs Parser::parse_bytes, Parser::parse", "thermal_parser/src/command.rs Command::push", "thermal_parser/src/command_sets/esc_pos.rs new"]}
{"id": "C02", "title": "Every parse is framed by one Begin Print and one End Print", "statement": "Whatever the bytes, if parse_bytes returns then the first returned command is Begin Print, the last is End Print, and no other command in the result is a Begin/End Print.", "quantifier": "all byte strings", "why_tests_cant": "must hold for every byte string", "anchors": ["thermal_parser/src/parser.rs parse_bytes lines 29-54"]}
{"id": "C03", "title": "A parser can be reused: no state leaks between calls", "statement": "Calling parse_bytes repeatedly on one Parser gives, for each input, exactly the result a freshly constructed Parser would give for it, whatever was parsed before (truncated commands included).", "quantifier": "all finite histories of byte strings", "why_tests_cant": "quantifies over histories of calls", "anchors": ["thermal_parser/src/parser.rs parse_bytes lines 36-53"]}
{"id": "C04", "title": "When the parser panics", "statement": "parse_bytes fails to return (arithmetic underflow in a checked build) exactly when some GS ( L, GS 8 L, GS ( k or GS ( H command recognised in the stream carries a declared length below 2 and at least one byte follows its header; on every other byte string it returns. In particular a stream without the bytes GS ( and GS 8 never panics the parser.", "quantifier": "all byte strings", "why_tests_cant": "robustness against arbitrary input is a for-all statement", "anchors": ["thermal_parser/src/parser.rs", "thermal_parser/src/subcommands/mod.rs parse_meta lines 52-83"]}
{"id": "C05", "title": "Plain text is delivered verbatim", "statement": "A non-empty run of bytes none of which is a control byte that starts a command (HT, LF, FF, CR, CAN, DLE, ESC, FS, GS), following a complete command, is returned as a single Text command whose data is exactly that run. (At the very start of a stream the run is preceded by one spurious, empty Unknown command.)", "quantifier": "all such runs after any parser history ending at a command boundary", "why_tests_cant": "all lengths and contents", "anchors": ["thermal_parser/src/parser.rs parse lines 135-177", "thermal_parser/src/commands/text.rs"]}
{"id": "C06", "title": "Fixed-length commands take exactly their arguments", "statement": "For each of the fixed-arity commands of the command set and every argument string of the documented length, the command is returned with exactly these bytes as data and the byte after them is interpreted afresh, even when the argument bytes are themselves ESC, GS, LF or any other command prefix.", "quantifier": "all fixed-arity commands, all argument bytes, any continuation", "why_tests_cant": "argument bytes coincide with command prefixes", "anchors": ["thermal_parser/src/command.rs Command::push lines 116-153", "thermal_parser/src/commands/*.rs"]}
{"id": "C07", "title": "Length-prefixed payloads are taken verbatim and never re-scanned", "statement": "The payload of GS k (explicit size), ESC *, GS v 0, GS ( L, GS 8 L and GS ( k consists of exactly the number of bytes announced in the header, whatever these bytes are (including bytes that look like commands), and the next byte starts a new command.", "quantifier": "all headers and payloads, any continuation", "why_tests_cant": "payload can contain arbitrary bytes at arbitrary length", "anchors": ["thermal_parser/src/commands/barcode.rs push", "thermal_parser/src/commands/bit_image.rs push", "thermal_parser/src/commands/raster_bit_image.rs push", "thermal_parser/src/subcommands/mod.rs push"]}
{"id": "C08", "title": "The command table is unambiguous", "statement": "No command prefix of the ESC/POS command set is a prefix of another one (so each command is reachable and its recognition cannot be stolen), and from a command boundary the bytes of each prefix are recognised as that command.", "quantifier": "all pairs of table entries, all parser states at a boundary", "why_tests_cant": "requires every pair and every parser state", "anchors": ["thermal_parser/src/command_sets/esc_pos.rs new", "thermal_parser/src/parser.rs parse lines 94-133"]}
{"id": "C09", "title": "No byte is invented and none is lost", "statement": "For every byte string on which the parser returns, the wire bytes of the returned commands in order form a subsequence of the input (nothing is invented or reordered), up to one NUL that a NUL-terminated barcode at the very end of the input is given; and they are the whole input when the input contains no stray CAN byte, no GS ( / GS 8 sub-command, no barcode, and does not end in the middle of a command prefix (barcodes and known sub-commands followed by something are lossless item by item).", "quantifier": "all byte strings", "why_tests_cant": "conservation over arbitrary streams", "anchors": ["thermal_parser/src/parser.rs", "thermal_parser/src/command.rs"]}
{"id": "C10", "title": "Unrecognised escape sequences are reported, not dropped", "statement": "An unrecognised sequence starting with DLE, ESC, FS or GS after a command boundary yields an Unknown command that carries all its bytes (followed by the bytes up to the next recognised command).", "quantifier": "all unrecognised sequences and continuations", "why_tests_cant": "the set of unrecognised sequences is infinite", "anchors": ["thermal_parser/src/parser.rs lines 137-177", "thermal_parser/src/commands/unknown.rs"]}
{"id": "C11", "title": "Parsing is compositional at command boundaries", "statement": "If a stream s1 ends at a command boundary (its last command is complete and the first byte of s2 starts a command), then the commands of s1 ++ s2 are those of s1 followed by those of s2 with the inner End/Begin Print pair removed; thus a print job can be cut into jobs at command boundaries.", "quantifier": "all pairs of streams with a boundary between them", "why_tests_cant": "all pairs of streams", "anchors": ["thermal_parser/src/parser.rs"]}
{"id": "C12", "title": "Sub-command recovery", "statement": "A GS ( k sub-command whose (cn, fn) pair, or a GS ( L / GS 8 L sub-command whose fn byte, is in the table and which is followed by at least one byte is returned as the sub-command's own command (name, kind), its commands field being the two/three byte prefix followed by the header and its data being exactly the announced payload; a sub-command that is the last thing in the stream loses its payload.", "quantifier": "all sub-commands, payloads, and continuations", "why_tests_cant": "payload arbitrary", "anchors": ["thermal_parser/src/subcommands/mod.rs"]}
{"id": "C13", "title": "Plain thermal text: constants, numbers, comments", "statement": "parse_str of a Thermal file maps every line to the bytes of its tokens, in order: named constants, 0x-hex bytes, decimal bytes, quoted strings (with backslash escapes, any Unicode) and bare words; comment lines and blank lines contribute nothing; lines end with LF or CR LF, the last may be open; whatever the text, lines are read independently and only bytes come out.", "quantifier": "all Thermal source texts built from these tokens", "why_tests_cant": "all token sequences and line layouts", "anchors": ["thermal_parser/src/thermal_file.rs parse_str, parse_tokens"]}
{"id": "C14", "title": "Thermal disassembly round-trips", "statement": "Disassembling a command list with the Thermal writer and parsing the text again gives back the bytes the commands stand for, for every command list whose text runs are line feeds or well-formed UTF-8 without line feed, double quote or backslash (tabs and carriage returns as commands, and other text, are not preserved) and whose unknown commands carry at least one byte; every other command survives whatever its bytes. With the parser: bytes -> commands -> .thermal text -> bytes is the identity under the same conditions when the parser drops nothing.", "quantifier": "all command lists, and all byte strings, satisfying the guard", "why_tests_cant": "round trip over all command lists", "anchors": ["thermal_parser/src/thermal_file.rs cmd_to_thermal, parse_str"]}
{"id": "C15", "title": "Raster bits become pixels one-for-one", "statement": "For every raster image of w x h dots packed as ceil(w/8) bytes per row, pixel (x,y) of the decoded image is opaque iff bit 7-(x mod 8) of byte y*ceil(w/8)+x/8 is set; padding bits are ignored and the decoded image has exactly w*h pixels; data of any other length is reported as an error. (The dot has the requested ink only when the ink's blue equals its green: the decoder copies green into blue.)", "quantifier": "all widths, heights and data", "why_tests_cant": "all dimensions and data", "anchors": ["thermal_parser/src/graphics.rs unpack_bytes, image_from_raster_bytes_single_color"]}
{"id": "C16", "title": "Column images are the transpose of raster images", "statement": "For every column-format image of w columns and h dots, pixel (x,y) of the decoded image is opaque iff bit 7-(y mod 8) of byte x*ceil(h/8)+y/8 is set; so it is the transpose of the raster image of the transposed dots. (Truncated column data aborts the decoder; the multi-colour column decoder never yields an image.)", "quantifier": "all widths, heights (multiple of 8) and data", "why_tests_cant": "all dimensions and data", "anchors": ["thermal_parser/src/graphics.rs column_to_bytes, rotate_90_clockwise, flip_right_to_left", "thermal_parser/src/commands/bit_image.rs"]}
{"id": "C17", "title": "Scaling replicates pixels exactly", "statement": "Scaling a w x h image by (sx,sy) yields an image of w*sx x h*sy in which pixel (x,y) equals source pixel (x/sx, y/sy).", "quantifier": "all images and scale factors in range", "why_tests_cant": "all dimensions", "anchors": ["thermal_parser/src/graphics.rs scale_pixels"]}
{"id": "C18", "title": "Image layers merge without disturbing the base where the layer is transparent", "statement": "Merging equally sized layers keeps the size, leaves each pixel where the upper layers are fully transparent unchanged and gives the layer's colour where it is opaque, the topmost opaque layer winning. (Larger layers are refused; smaller ones are accepted but painted at the wrong place; multi-colour raster data decodes only when the width is a multiple of 8.)", "quantifier": "all layer lists", "why_tests_cant": "all layer contents and counts", "anchors": ["thermal_parser/src/graphics.rs merge_image_layers, blend_foreground_with_alpha"]}
{"id": "C19", "title": "ESC @ restores every default", "statement": "After any sequence of commands, ESC @ makes text, barcode, 2D-code and graphics settings equal to those of a fresh context (page-mode state is not reset). This includes the paper position: it is rewound to the top, above what was already printed.", "quantifier": "all command histories", "why_tests_cant": "all histories of context mutations", "anchors": ["thermal_parser/src/context.rs reset", "thermal_parser/src/commands/initialize.rs"]}
{"id": "C20", "title": "Style commands change only what they name", "statement": "Each text-style / context command changes only the setting it documents, to the value its argument names; in particular the default context, stored graphics and page-mode state are untouched by text style commands. (Two documented values are not what the code sets: underline in ESC ! sits on bit 6 instead of bit 7, and ESC G 0 steps the strike-through down instead of switching it off.)", "quantifier": "all contexts, all argument bytes", "why_tests_cant": "frame condition over all contexts", "anchors": ["thermal_parser/src/commands/*.rs apply_context"]}
{"id": "C21", "title": "Printer setting invariants", "statement": "In every context reachable by executing commands: character cell sizes are 12x24 or 9x17, multipliers stay within 1..8, barcode width stays in 2..6, dpi is one of 203/180/360, the tab table has 32 entries, the default context is present and unchanged.", "quantifier": "all histories", "why_tests_cant": "invariant over all reachable contexts", "anchors": ["thermal_parser/src/context.rs", "thermal_parser/src/commands/*.rs"]}
{"id": "C22", "title": "Justification keeps content inside the print area", "statement": "For every content width w not exceeding the render width, the justification offset plus w does not exceed the render width; left gives 0, right gives the remaining width, centre halves it; wider content gets offset 0.", "quantifier": "all contexts and widths", "why_tests_cant": "all widths", "anchors": ["thermal_parser/src/context.rs calculate_justification"]}
{"id": "C23", "title": "Page-mode rotation bookkeeping", "statement": "The rotation reported when the print direction changes composes: changing a->b then b->c rotates by the sum modulo 4, a->a by none; in page mode any closed walk of direction changes (ESC T) returns the page to its original orientation and dimensions when no larger area is set, and the turns told to the output renderer always add up to the current direction. (ESC T outside page mode repeats the last turn: false there.)", "quantifier": "all sequences of direction changes", "why_tests_cant": "all walks", "anchors": ["thermal_parser/src/context.rs calculate_directional_rotation, apply_logical_area"]}
{"id": "C24", "title": "The page never shrinks and always contains the print area", "statement": "After every page-area or direction change, the page dimensions cover the render area's far corner, and for unchanged direction they never decrease.", "quantifier": "all logical areas and page states", "why_tests_cant": "invariant over histories", "anchors": ["thermal_parser/src/context.rs apply_logical_area"]}
{"id": "C25", "title": "Breaking text never loses or reorders characters", "statement": "Splitting a span into words or into line-sized chunks yields spans whose texts concatenate to the original, with the same style; words end at white space and contain no inner white space; chunks respect the length limits.", "quantifier": "all texts and limits", "why_tests_cant": "all strings", "anchors": ["thermal_parser/src/text.rs break_apart, break_into_words, clone_with"]}
{"id": "C26", "title": "Code-page decoding is one character per byte", "statement": "For every code page other than UTF-8 and every byte string, decoding yields one character per byte (a few unassigned bytes of pages 851, 853 and 857 yield none), each depending only on that byte; bytes 32..126 decode to ASCII when the international set is USA; pages 437, 860 and 863 and the half-width katakana agree with the published tables (850 and 865 do not at three and eight bytes); UTF-8 text is decoded to exactly the encoded characters.", "quantifier": "all byte strings, code tables and character sets", "why_tests_cant": "all strings", "anchors": ["thermal_parser/src/decoder/mod.rs"]}
{"id": "C27", "title": "International sets change only their listed characters", "statement": "Selecting an international character set alters only the code points that the set lists; every other byte decodes as under USA. (The characters shown at the listed positions are not always those of the published sets.)", "quantifier": "all sets, tables and bytes", "why_tests_cant": "all combinations", "anchors": ["thermal_parser/src/decoder/mod.rs", "thermal_parser/src/decoder/international.rs"]}
{"id": "C28", "title": "UPC-E check digit", "statement": "For every accepted input that does not carry a check digit of its own (6, 7, 11 digits), the computed check digit makes the weighted sum of the UPC-A digits divisible by ten, and is the only digit that does. (A check digit given by the caller is not verified.)", "quantifier": "all digit strings of the accepted lengths", "why_tests_cant": "a million codes", "anchors": ["thermal_parser/src/utils/barcodes/upce.rs calculate_checkdigit"]}
{"id": "C29", "title": "UPC-E symbol shape", "statement": "Every encoded UPC-E symbol has 51 modules (start 101, six 7-module digits, end 010101), all 0/1.", "quantifier": "all accepted inputs", "why_tests_cant": "all inputs", "anchors": ["thermal_parser/src/utils/barcodes/upce.rs encode"]}
{"id": "C30", "title": "UPC-E expansion and compression", "statement": "Expanding a UPC-E code to UPC-A and compressing it again gives a code that abbreviates the same UPC-A number, and the same digits for codes in canonical form. (Compression also accepts numbers that have no UPC-E form, and then two different numbers share a symbol.)", "quantifier": "all digit strings", "why_tests_cant": "all codes", "anchors": ["thermal_parser/src/utils/barcodes/upce.rs from_upc_a, from_upc_e"]}
{"id": "C31", "title": "Every command stream produces one output per End Print", "statement": "Rendering a parsed stream tells the output renderer to begin before anything is drawn and to end after everything, and collects one output for the end of the job plus one for each form feed that finds the printer outside page mode.", "quantifier": "all command streams", "why_tests_cant": "all streams", "anchors": ["thermal_renderer/src/renderer.rs render, process_device_commands"]}
{"id": "C32", "title": "Text layout keeps every character and stays within the line", "statement": "Laying out buffered text draws every character a job types exactly once and in order, each in the style in force when it was received; within a line words go left to right, lines go down; words that fit are kept whole; and nothing visible is put past the right edge when a line holds at least as many characters as one of them is dots wide and justification does not follow a tab or an absolute position (each condition is needed).", "quantifier": "all span sequences and widths", "why_tests_cant": "all texts", "anchors": ["thermal_renderer/src/renderer.rs process_text"]}
{"id": "C33", "title": "Renderer robustness", "statement": "Printing a job in standard mode does not panic: for every byte string whose commands are 'gentle' (a short list of exceptions: ESC L, reverse feed, oversized or truncated images, malformed sub-command parameters, GS P above the resolution, right justification with more than double width) and whose paper consumption fits 32 bits, Renderer::render returns; in particular any such receipt of up to 15000 commands and 5 MB, and any sequence of such jobs on one renderer. Each exception is necessary: a byte string that panics is exhibited for each, and the exact panic conditions of ESC e, ESC $ and GS P are stated.", "quantifier": "all byte strings and job sequences meeting the conditions, all symbol encoders of sane output size", "why_tests_cant": "absence of panics over all inputs and all accumulated printer states", "anchors": ["thermal_renderer/src/renderer.rs", "thermal_parser/src/context.rs"]}
{"id": "C34", "title": "Painting touches only its rectangle", "statement": "Drawing a w x h block of pixels at (x,y) onto the canvas changes only canvas pixels inside that rectangle clipped to the canvas width; width is kept; height only grows, to cover y+h.", "quantifier": "all canvases, positions, blocks", "why_tests_cant": "all sizes", "anchors": ["thermal_renderer/src/image_renderer/thermal_image.rs put_pixels, crop_pixels"]}
{"id": "C35", "title": "Rotating a page four times by 90 degrees is the identity", "statement": "On every canvas with at least one row: rotating by 90 degrees four times restores the image exactly; 180 is 90 twice; 270 undoes 90 and 90 undoes 270; pixel (x,y) of a w x h image goes to (h-1-y,x). (A canvas without rows loses its width when turned.)", "quantifier": "all images", "why_tests_cant": "all sizes", "anchors": ["thermal_renderer/src/image_renderer/thermal_image.rs rotate_90_clockwise, rotate_180, rotate_270_clockwise"]}
{"id": "C36", "title": "The canvas stays rectangular", "statement": "Every canvas operation keeps the number of pixels equal to width*height and the RGB export has exactly 3 bytes per pixel.", "quantifier": "all operation sequences", "why_tests_cant": "invariant over histories", "anchors": ["thermal_renderer/src/image_renderer/thermal_image.rs"]}
{"id": "C37", "title": "Growing the canvas keeps the picture", "statement": "expand_to_width / expand_to_height / add_top_margin keep all existing pixels at their (shifted) positions and fill the rest with the paper colour; a smaller width or height changes nothing.", "quantifier": "all canvases and sizes", "why_tests_cant": "all sizes", "anchors": ["thermal_renderer/src/image_renderer/thermal_image.rs"]}
{"id": "C38", "title": "Painting on a page: what is cut off and when the page grows", "statement": "Painting a block on a page canvas (auto-grow off) crops the block at the right edge and never changes the page's width. If the block sticks out on the right, or its width reaches past the bottom edge, or it does not stick out below, the page keeps its size and the block is cropped at the bottom edge; otherwise the page grows downwards, exactly enough to hold the block. The pixels of the block on the page are mixed with what was there, all others keep their colour, new rows have the paper colour. Not true: that a page never changes its size when it is painted on.", "quantifier": "every page size and content, every block, position and size", "why_tests_cant": "The cropping arithmetic depends on four sizes and two positions; a test with a wide block never reaches the tall-and-narrow case.", "anchors": ["thermal_renderer/src/image_renderer/thermal_image.rs: put_pixels, crop_pixels, expand_to_height"]}
{"id": "C39", "title": "One image per sheet, with the right number of bytes", "statement": "The image renderer returns one image per form feed outside page mode plus one for the end of the job; every image is as wide as the paper (649 dots) and carries exactly three bytes per pixel.", "quantifier": "every byte stream for which rendering succeeds, all fonts, all symbol encoders", "why_tests_cant": "The number of images depends on the mode the printer is in at each form feed, so on the whole history; the byte count depends on the height every command added.", "anchors": ["thermal_renderer/src/image_renderer/mod.rs: ImageRenderer, begin_render, end_render", "thermal_renderer/src/image_renderer/thermal_image.rs: consume_rgb_u8"]}
{"id": "C40", "title": "The image shows what was printed, where it was printed, and nothing else", "statement": "The image of a sheet is the white paper with the blocks of pixels of the renderer's calls multiplied onto it in order, at the positions of the calls, shifted by the left margin of 20 dots; everything outside the print area is white; the image ends at the lowest thing printed or at the paper position, whichever is lower.", "quantifier": "every history of commands, every sheet of it without page-mode printing, all fonts", "why_tests_cant": "Later commands repaint, crop and grow the canvas: that no call disturbs an earlier one is a statement about all sequences.", "anchors": ["thermal_renderer/src/image_renderer/mod.rs", "thermal_renderer/src/image_renderer/thermal_image.rs: put_pixels, flip_pixels, expand_to_height, expand_to_width"]}
{"id": "C41", "title": "Sheets after the first", "statement": "A form feed outside page mode ends the image. The user expects the following commands on the next image. They are not: nothing starts a new sheet, so every image after the first is white all over whatever was sent, and each block is refused with an error.", "quantifier": "every byte stream for which rendering succeeds", "why_tests_cant": "The claim is about every continuation of every job.", "anchors": ["thermal_renderer/src/renderer.rs: process_device_command (EndPrint)", "thermal_renderer/src/image_renderer/mod.rs: end_render", "thermal_parser/src/commands/formfeed.rs"]}
{"id": "C42", "title": "A bitmap sent as raster bands is printed exactly", "statement": "A job made of any number of GS v 0 raster bands, of any widths and heights, renders without error to one image in which dot (x, y) of the stacked bands is black at (20 + x, 108 + y) exactly when its bit is set, and all else is white; what does not fit into the print width is cut off.", "quantifier": "every list of bands of every size, all contents, all fonts and encoders (up to the size at which the canvas arithmetic would overflow)", "why_tests_cant": "End to end over parser, decoder, layout and canvas, for bitmaps of every size.", "anchors": ["thermal_parser/src/commands/raster_bit_image.rs", "thermal_parser/src/graphics.rs", "thermal_renderer/src/renderer.rs: process_image", "thermal_renderer/src/image_renderer"]}
{"id": "C43", "title": "The HTML of a job shows its text", "statement": "A job gives one HTML document per form feed outside page mode and one more. Each document is the same fixed page (style sheet filled with the printer's colours) around the receipt, as wide as the paper. What a reader sees of the last document of a job that stays in standard mode is exactly the text the job prints, every character once and in order, if no character has a meaning in HTML or in the template. (Markup in the text is not escaped and placeholders are substituted: refuted.)", "quantifier": "every byte stream for which rendering succeeds, every base64 encoder, all fonts and symbol encoders", "why_tests_cant": "Escaping, nesting of tags and substitution in a template can go wrong for some text only; the claim is about all texts and all sequences of calls.", "anchors": ["thermal_renderer/src/html_renderer/mod.rs: end_render, push_row", "thermal_renderer/src/html_renderer/thermal_html.rs: spans_to_html, span_to_html", "thermal_renderer/resources/templates/thermal.html"]}
{"id": "C44", "title": "The HTML puts things where they were printed", "statement": "The receipt is a stack of paragraphs: blank paper down to the first line, then one paragraph for each line of text, symbol or image, as high as the thing is and with a gap above it equal to the distance from the thing before; a browser that stacks the paragraphs then shows each thing at the height it was printed at, and as much blank paper below as was fed, if each thing begins at or below the end of the one before. (Two texts on one line, as after ESC $, are shown one below the other: refuted.)", "quantifier": "every byte stream for which rendering succeeds, every document of it on which no page-mode page is printed", "why_tests_cant": "The gap of a row depends on everything before it; drift would only show for particular sequences of calls.", "anchors": ["thermal_renderer/src/html_renderer/mod.rs: push_row, begin_render, end_render", "thermal_renderer/src/html_renderer/thermal_html.rs: graphics_to_svg, spans_to_html, encode_html_image"]}
{"id": "C45", "title": "HTML after a form feed", "statement": "A form feed outside page mode ends a document; the user expects the following commands alone in the next document. They are not: the next document begins with everything the one before shows, and continues with the new text.", "quantifier": "every byte stream for which rendering succeeds, any two successive or non-successive documents of it", "why_tests_cant": "The claim is about every continuation of every job.", "anchors": ["thermal_renderer/src/html_renderer/mod.rs: begin_render, end_render", "thermal_renderer/src/renderer.rs: process_device_command (EndPrint)"]}
{"id": "C46", "title": "The HTML renderer accepts what the image renderer accepts", "statement": "A job that renders to an image should render to HTML. It does not: a job that prints an image without pixels (a raster image of width or height zero, a page printed before its area is set) never gives HTML, because the PNG encoder refuses an image without pixels and the refusal is not handled.", "quantifier": "every byte stream, every PNG encoder that refuses images without pixels, all fonts and symbol encoders", "why_tests_cant": "Whether such an image reaches the encoder depends on the whole job.", "anchors": ["thermal_renderer/src/html_renderer/thermal_html.rs: encode_html_image", "thermal_renderer/src/html_renderer/mod.rs: render_image, render_page"]}
{"id": "C47", "title": "Errors are reported, once each, in order", "statement": "After rendering, the renderer's error list is exactly: one entry for every unrecognised command and one for every graphics command whose data cannot be turned into a picture, in the order the commands were sent; nothing else adds, removes or reorders an error, and an error never stops the job. The image renderer's own list holds exactly the complaints of its two canvases - once each if nothing is output in between; a job with a form feed reports the same complaint more than once.", "quantifier": "every byte stream for which rendering succeeds, every history of commands, all fonts and symbol encoders", "why_tests_cant": "Any of the commands in any state could add, drop or duplicate an error.", "anchors": ["thermal_renderer/src/renderer.rs: process_command, render_graphics, push_error", "thermal_renderer/src/image_renderer/mod.rs: end_render", "thermal_renderer/src/image_renderer/thermal_image.rs: errors"]}
{"id": "C48", "title": "Pictures sent with GS v 0 and ESC * come out dot for dot, in place", "statement": "A raster image (GS v 0) whose data has the announced length is printed once: every dot of the result is the dot the data names, magnified as the mode byte says; it is justified as ESC a says, at the current paper position, and the paper moves past it (in page mode: at the pen, and nothing moves). Data of another length prints nothing, changes nothing and is reported. A bit image (ESC *) is printed at the pen if it fits into the line and at the start of the next line otherwise, dot for dot, and leaves the pen at its right edge. Two mode bytes do not mean what the manual says.", "quantifier": "every such command the parser can report, every history of commands before it, all sizes and data", "why_tests_cant": "The claim is about every dot of every picture in every printer state.", "anchors": ["thermal_parser/src/commands/raster_bit_image.rs", "thermal_parser/src/commands/bit_image.rs", "thermal_parser/src/graphics.rs: Image", "thermal_renderer/src/renderer.rs: process_image"]}
{"id": "C49", "title": "Barcodes come out bar for bar, in place", "statement": "A barcode command (GS k) whose data its system accepts prints the modules of the symbol side by side: bars of the width GS w and the height GS h have set, starting where ESC a says, at the current paper position; bars that would leave the print area on the right are left out and nothing else is. The text for people is printed above, below, both or not at all as GS H says, in the font of GS f, above respectively below the bars without touching them; the paper moves past everything.", "quantifier": "every barcode command the parser can report, every history of commands before it, every symbol encoder", "why_tests_cant": "The claim is about every symbol in every printer state.", "anchors": ["thermal_renderer/src/renderer.rs: process_barcode", "thermal_parser/src/commands/barcode.rs: get_graphics", "thermal_parser/src/context.rs: calculate_justification"]}
{"id": "C50", "title": "Which barcode data is accepted, and what is encoded", "statement": "The system byte of GS k selects the symbology (0-6 and 65-73); data of an unacceptable length, data that is not valid text and data the encoder refuses print nothing, move nothing and are reported. CODE39 asterisks are dropped, CODE128 code set selections {A {B {C are handed over as such, of EAN-13 the first twelve digits are encoded. Not as documented: systems 74 and up never print, a wrong EAN-13 check digit is not noticed, and {{ in CODE128 data is not a brace.", "quantifier": "every barcode command the parser can report, every printer state, every symbol encoder", "why_tests_cant": "It ranges over all data strings for all systems.", "anchors": ["thermal_parser/src/commands/barcode.rs: validate_data_length, get_graphics, push"]}
{"id": "C51", "title": "QR symbols: the stored symbol is printed module for module", "statement": "The model, level and module size set by GS ( k and the symbol of the last data stored persist until changed or ESC @; printing draws every dark module of the last stored symbol as a square of the module size chosen when it was stored, rows below each other, placed by the justification, at the paper position after the waiting text; printing without stored data draws nothing and is reported. Not as documented: the paper stays inside the last row, level bytes 49-51 mean L, data that cannot be encoded silently leaves the old symbol, and the print functions of all other two-dimensional symbols print the stored QR symbol or silently nothing.", "quantifier": "every command history the parser can report, every symbol encoder, every symbol that fits the paper width", "why_tests_cant": "The symbol printed depends on the whole history of settings, stores and resets before it.", "anchors": ["thermal_parser/src/subcommands/gs_code2d/qr_store.rs", "thermal_parser/src/subcommands/gs_code2d/qr_print.rs", "thermal_parser/src/subcommands/gs_code2d/qr_set_size.rs", "thermal_renderer/src/renderer.rs: process_graphics Code2D"]}
{"id": "C52", "title": "Pictures kept in the printer: last definition wins, printed dot for dot", "statement": "A picture defined under two key bytes in non-volatile or download memory stays until it is redefined or deleted under the same keys in the same memory, all pictures of that memory are deleted, or ESC @; other commands never change it. Printing it draws exactly the dots sent (the last plane that has a dot wins, in the colour of the plane), as a block placed by the justification below the waiting text; printing unknown keys prints nothing; data of the wrong size is reported at every printing. Not as documented: ESC @ deletes non-volatile pictures, widths that are not multiples of 8 never print, column format is read as rows, the scale bytes of the print command are ignored and colour 3 loses its blue.", "quantifier": "every command history the parser can report, every key pair, both memories, every picture size", "why_tests_cant": "What is printed depends on the whole history of definitions and deletions.", "anchors": ["thermal_parser/src/subcommands/gs_graphics/define_nv_graphics_raster.rs", "thermal_parser/src/subcommands/gs_graphics/print_nv_graphic.rs", "thermal_parser/src/subcommands/gs_graphics/clear_nv_graphic.rs", "thermal_parser/src/graphics.rs: ImageRef, image_from_raster_bytes_multi_color"]}
{"id": "C53", "title": "The picture buffer: what was collected is printed once, overlaid in order", "statement": "Pictures added to the print buffer (GS ( L functions 112 and 113) stay there in order until the buffer is printed or ESC @; printing the buffer draws all of them on top of each other, each dot magnified as announced, the last picture uppermost, as one block placed by the justification below the waiting text, and empties the buffer. An empty buffer prints nothing. One damaged picture spoils the whole buffer: nothing is printed, one error is reported, and the buffer is empty afterwards.", "quantifier": "every command history the parser can report, every number and format of pictures of equal size", "why_tests_cant": "It ranges over all histories of stores, prints and resets and all picture data.", "anchors": ["thermal_parser/src/subcommands/gs_graphics/store_buffer_graphics_raster.rs", "thermal_parser/src/subcommands/gs_graphics/store_buffer_graphics_column.rs", "thermal_parser/src/subcommands/gs_graphics/print_buffer_graphics.rs", "thermal_parser/src/graphics.rs: merge_image_layers", "thermal_renderer/src/renderer.rs: DeviceCommand::ClearBufferGraphics"]}
{"id": "C54", "title": "Lines of text and the motion of the paper", "statement": "Text whose words fit is set the way a typewriter sets it: the words of a line stand side by side from the pen's place, a tab moves the pen to the next tab stop, a line feed starts the next line at the left edge, lower by the line spacing or by the highest word of the line, whichever is more; the line is then shifted to the left, the middle or the right as its first word asks, by exactly the free space; characters of different height on one line share the line's box and, in one font, the base line to within a dot. ESC J, ESC d and the cuts print the waiting text and then move the paper by exactly what they ask for, with the pen at the left edge; ESC $ moves the pen to the asked column of the same line. Outside page mode and ESC @ no command ever moves the paper back and nothing is printed above the place where the paper stood.", "quantifier": "every command history the parser can report, every text, every size, font, tab table, justification and line spacing; for the row theorems every text whose words fit on the paper", "why_tests_cant": "It ranges over all texts, all mixtures of sizes and all histories of commands before them.", "anchors": ["thermal_renderer/src/renderer.rs: render_text, process_text, DeviceCommand::Feed, DeviceCommand::FeedLine", "thermal_parser/src/context.rs: newline_for_spans, feed, newline, reset_x, set_x, tab handling", "thermal_renderer/src/image_renderer/mod.rs", "thermal_parser/src/commands/horizontal_tab.rs"]}
{"id": "C55", "title": "What is printed in page mode", "statement": "In page mode everything is drawn on a page beside the paper, turned by ESC T and enlarged by ESC W. While page mode is on the paper does not move, whatever is printed; FF or ESC FF copies the page, turned upright, onto the sheet with its top left corner where the paper stands, pixel for pixel and leaving the rest of the sheet alone, and the paper then moves past the page area. The first image of every job shows exactly the drawing of all calls up to the first end of a sheet, page mode included. Not true: that a page shows something before its area was given, that the paper moves past what was printed when the page is turned, that enlarging the area leaves the page's contents in place.", "quantifier": "every job and history of jobs, every sequence of text, image, symbol, area and direction commands in page mode, every page size and direction, every font", "why_tests_cant": "the picture depends on the whole sequence of drawings, turns and enlargements; a test samples one page", "anchors": ["thermal_renderer/src/image_renderer/mod.rs: render_page, page_area_changed, page_begin, begin_render", "thermal_renderer/src/renderer.rs: DeviceCommand::PrintPageMode", "thermal_parser/src/commands/formfeed.rs", "thermal_parser/src/commands/page_mode_print_data.rs", "thermal_renderer/src/image_renderer/thermal_image.rs: put_pixels, rotate_*, expand_to_*"]}
{"id": "C56", "title": "What stands in the rows of an HTML receipt", "statement": "For a job whose text has no characters special to HTML and no page-mode print, the document of each sheet is the fixed page with one paragraph per thing printed, in order, and each paragraph shows exactly what was printed: a line of text is a run of pieces with the same characters, the same distance from the left edge, standing on a common base line to within a dot, and with exactly the classes that say how it is printed (bold, italic, struck, underlined, upside down, the stretch factors, the font, the ink and the ground), each class once; a drawing has exactly the rectangles that were printed, moved to the drawing's corner and inside it; a picture is an image at the same place and width with exactly the printed pixels handed to the PNG encoder.", "quantifier": "every job the image renderer accepts, every text without special characters, every mixture of styles, sizes and pictures, any fonts, PNG encoder and symbol encoders", "why_tests_cant": "It ranges over all jobs and all combinations of styles; a test compares one document.", "anchors": ["thermal_renderer/src/html_renderer/mod.rs: render_text, render_graphics, render_image, push_row", "thermal_renderer/src/html_renderer/thermal_html.rs: spans_to_html, span_to_html, graphics_to_svg, encode_html_image", "thermal_renderer/resources"]}
{"id": "C57", "title": "A browser shows the text of an HTML receipt the way it was printed", "statement": "Reading the style sheet in the head of every document the way a browser does (the most particular rule that applies wins, then the last), a piece of text with the classes of C56 is shown bold, italic, in its ink on its ground, in the size of its font, struck through or underlined, upside down, and stretched in one direction or in both alike, exactly when it was printed so; and text is always printed in one of the printer's four colours on one of the four. Not true: that double underlining differs from single, that unequal stretches of both directions are shown, that upside down survives a stretch, that struck text keeps its underline.", "quantifier": "every piece of text and every set of classes; for the colours every history of commands the parser can report", "why_tests_cant": "It ranges over all combinations of styles; the cascade of rules depends on all of them together.", "anchors": ["thermal_renderer/resources", "thermal_renderer/src/html_renderer/thermal_html.rs: span_to_html, color_to_class", "thermal_parser/src/context.rs: RenderColors, set_color"]}
{"id": "C58", "title": "Positions on the page in page mode", "statement": "In page mode ESC W puts a print area that fits on the page as far from the left edge as asked and in the size asked for, and the pen where text starts in the current direction; while text runs to the right or to the top it is also as far from the upper edge as asked, and ESC T to one of these directions leaves the area where it is. ESC $ then puts the pen exactly n motion units right of the area's left edge (printing to the bottom only if the area begins at the edge of the page), GS $ exactly n below the area's upper edge, whichever way the page is turned, and GS \\ moves it by a signed n across the lines, stopping at the page's edge; none of them changes the page, the area, the waiting text or draws anything. Outside page mode GS $ and GS \\ do nothing. Not true: that turning the page around leaves the area where it is, that GS \\ stays inside the area, that an area too large for a turned page is put where it is asked for.", "quantifier": "every state reachable by any command history, every area, direction, motion unit and distance", "why_tests_cant": "It ranges over all areas, directions and pages left by any history; a test checks one place.", "anchors": ["thermal_parser/src/context.rs: PageModeContext::set_x_absolute, set_y_absolute, offset_y_relative, apply_logical_area, translate_*", "thermal_parser/src/commands/set_horizontal_pos.rs", "thermal_parser/src/commands/set_vertical_pos.rs", "thermal_parser/src/commands/offset_vertical_pos.rs", "thermal_parser/src/commands/page_mode_print_area.rs", "thermal_parser/src/commands/page_mode_print_direction.rs"]}
{"id": "C59", "title": "A job that prints can also be drawn", "statement": "Every standard-mode job that C33 shows to print without a panic (same list of exceptions) also becomes an image: ImageRenderer::render_from_bytes returns, for any fonts whose glyph sizes and offsets are unsigned, as long as no drawing call is made beyond 6,400,000 dots of paper (800 metres); in particular whenever the paper budget of the commands stays below that. It also becomes an HTML document: HtmlRenderer::render_from_bytes returns if the picture encoder takes every non-empty picture and no picture of the job is empty. Both limits are necessary: a gentle job on a longer roll panics in the image renderer (it prints in the dry run), and a gentle job with a picture of no rows panics in the HTML renderer although it prints and is drawn as an image.", "quantifier": "all byte strings meeting the conditions, all fonts, all symbol and picture encoders", "why_tests_cant": "absence of panics over all inputs, positions, fonts and accumulated printer states", "anchors": ["thermal_renderer/src/image_renderer/mod.rs ImageRenderer, render_char", "thermal_renderer/src/image_renderer/thermal_image.rs put_pixels, draw_rect, invert_pixels, expand_to_height", "thermal_renderer/src/html_renderer/mod.rs HtmlRenderer, graphics_to_svg, spans_to_html, encode_html_image"]}
{"id": "C60", "title": "The printed sheet, dot for dot", "statement": "Every dot of the image of a printed sheet follows from the drawing calls of the job by whole-number arithmetic alone: inks mix by the product of the channels rounded to the nearest value (clear ink changes nothing and no ink makes a dot lighter), a character is the font library's coverage faded between its two colours, drawn at the larger of its two enlargements and shrunk to its cell, words of a line are lowered, underlined and struck through at fixed fractions of their height, pictures are put on as they are, and upside down turns the box of the word or picture over. This holds for every sheet of every job and every font library whose coverages are bytes. (The only unevenness, six columns of characters drawn sevenfold and shrunk to three or six times, is part of the statement.) Every picture a job draws has opaque, clear or black dots.", "quantifier": "all command histories, all sheets, all fonts, all dots", "why_tests_cant": "A test compares some images; this ranges over all jobs, fonts, sizes and dots, and rules out any rounding difference anywhere.", "anchors": ["thermal_renderer/src/image_renderer/thermal_image.rs put_pixels, draw_rect, flip_pixels, render_char, scale_bitmap", "thermal_renderer/src/image_renderer/mod.rs ImageRenderer", "thermal_parser/src/graphics.rs RGBA::multiply_foreground, blend_foreground, blend_foreground_with_alpha"]}
{"id": "C61", "title": "The settings and the text are those of the command manual", "statement": "At any point of any command stream, all 26 settings of the printer (font, size, emphasis, italics, underline, strike, invert, upside down, smoothing, ink, background and shadow colours, justification, line spacing, code table, character set, tab stops, barcode height, width, text and font, dot density and motion units) are exactly what a flat manual - one line per command, reading only the command's bytes and parameters - yields when applied, in order, to the power-on values: every command of the manual has its full effect, and no other command, text run, picture, symbol or page operation changes a setting. Consequently the text a job draws is exactly, in order, the characters of its text runs, decoded by the code table and character set in force, in order, each in the style (font, cell, size, line thickness for the dot density, colours) the manual's settings ask for at that place, and, for every GS k whose data give a barcode, the barcode's text as often as GS H asks for it, in that style but in the font of GS f (CODE128 data with two braces in a row, which C50 refutes, excepted).", "quantifier": "all command sequences the parser can report, at every prefix, from power-on; all jobs", "why_tests_cant": "The settings accumulate over unbounded histories of commands; a test fixes one history. The converse (nothing else changes a setting) ranges over all commands and data.", "anchors": ["thermal_parser/src/commands/*.rs apply_context, get_device_command", "thermal_parser/src/subcommands/gs_graphics/set_dot_density.rs", "thermal_parser/src/context.rs Context, TextContext, BarcodeContext, GraphicsContext", "thermal_parser/src/text.rs TextSpan::new", "thermal_renderer/src/renderer.rs process_command, process_device_commands", "thermal_parser/src/commands/barcode.rs get_graphics"]}
{"id": "C62", "title": "What the output renderer is told besides the drawing", "statement": "The calls an output renderer receives that draw nothing - every device command with its arguments, begin and end of a sheet, the collection of errors, begin, shape, printing and end of a page - come in exactly the order the commands of the stream ask for, whatever text, pictures and symbols are drawn in between: nothing is announced twice, dropped or out of order, a cut comes before the feed it includes, a form feed ends a page in page mode and a sheet otherwise, and printing the picture buffer announces that it is cleared. Page mode is on after ESC L until FF or ESC S and at no other time. Leaving page mode by ESC S is not announced (refuted: every page begun is announced as ended).", "quantifier": "all command sequences the parser can report, at every prefix; all jobs after all histories", "why_tests_cant": "The sequence depends on the page mode left by an unbounded history and must hold for every interleaving of drawing and device commands.", "anchors": ["thermal_renderer/src/renderer.rs process_command, process_device_commands, OutputRenderer", "thermal_parser/src/commands/*.rs get_device_command", "thermal_parser/src/subcommands/gs_graphics/print_buffer_graphics.rs"]}
{"id": "C63", "title": "Pages in an HTML receipt", "statement": "For every job, with or without page mode, the HTML receipt has exactly one row for each thing printed outside page mode and one for each printed page, in order, each as high as the thing and as far below the row before as on paper. The row of a page is a picture handed to the PNG encoder with exactly the dots of the page as it was drawn, turned and enlarged, turned so that it can be read, at the place where the paper stood. It is dot for dot the page in the image of the same job made by the image renderer.", "quantifier": "all byte streams, all documents of a job, all fonts, PNG encoders and symbol encoders, all printed pages", "why_tests_cant": "The page depends on everything drawn, turned and enlarged since page mode began; a test shows one history, and two renderers can only be compared on the jobs tried.", "anchors": ["thermal_renderer/src/html_renderer/mod.rs HtmlRenderer::render_page, page_begin, page_area_changed, begin_render, push_row", "thermal_renderer/src/html_renderer/thermal_html.rs encode_html_image", "thermal_renderer/src/image_renderer/mod.rs render_page"]}
{"id": "C64", "title": "Page mode, dot for dot", "statement": "Every dot of every printed sheet, with page mode used in any way, follows from the drawing calls by whole-number arithmetic alone. What is drawn in page mode goes on a page with edges: ink that begins outside the page is not drawn, rows that reach past its end lengthen it, changing the direction turns it, enlarging it keeps what is on it, and printing it covers (not inks) the part of the sheet it lies on. The picture of a page in an HTML receipt has exactly these dots too.", "quantifier": "all command histories, all sheets, all pages, all fonts, all dots", "why_tests_cant": "A test compares some pages; this ranges over all orders of page commands, turns, sizes, texts and fonts.", "anchors": ["thermal_renderer/src/image_renderer/mod.rs ImageRenderer::render_page, page_begin, page_area_changed", "thermal_renderer/src/image_renderer/thermal_image.rs put_pixels, draw_rect, flip_pixels, render_char, scale_bitmap, put_render_img, expand_to_height, rotate_90, rotate_180, rotate_270", "thermal_renderer/src/html_renderer/mod.rs HtmlRenderer::render_page", "thermal_parser/src/graphics.rs RGBA::multiply_foreground, blend_foreground_with_alpha"]}
{"id": "C65", "title": "A receipt of plain text, from the bytes to the dots", "statement": "Send lines of printable ASCII, each ended by LF and short enough for the paper, after one ESC ! n or after nothing: the job gives exactly one image, 649 dots wide and 108 dots plus the pitches of the lines high, and every dot of it is known. Character k of a line stands in the k-th cell; the cell is 12 x 24 dots (9 x 17 in font B), doubled as bits 4 and 5 of n say; a line is as high as its cells, but at least 24 dots, and an empty line 24; the grey of a dot is what the font library's coverage says at that place of the cell, bold as bit 3 says; with bit 6 one row of each cell is black; everything else is white. Up to 12,000 bytes such a job never fails.", "quantifier": "all numbers, lengths and contents of lines, all 256 print modes, all font libraries, all dots", "why_tests_cant": "A test prints some receipts; this ranges over all texts and all print modes and decides every dot of the image.", "anchors": ["thermal_parser/src/parser.rs parse_esc_pos", "thermal_parser/src/commands/set_print_mode.rs", "thermal_parser/src/text.rs TextSpan::new, break_into_words", "thermal_renderer/src/renderer.rs process_text, process_command, render", "thermal_renderer/src/image_renderer/mod.rs", "thermal_renderer/src/image_renderer/thermal_image.rs draw_text, render_char, put_pixels, copy"]}
{"id": "C66", "title": "A receipt of styled, aligned lines, feeds and cuts, from the bytes to the dots", "statement": "Take any sequence of parts, each of which is a line of printable text with its own alignment (ESC a), its own print mode (ESC !) and a line feed, or a feed by lines (ESC d) or dots (ESC J), or a cut (GS V, with or without feed). If the lines are short enough for the paper, rendering the bytes of the parts gives exactly one image, 649 dots wide, 108 dots higher than the parts together; every dot of it is determined: it is black to the degree the font library says at the matching dot of the character in whose cell it lies (with the underline in its row), and white anywhere else. Centred lines are in the middle, right aligned ones end at the right edge, and every line begins where the parts before it end. Up to 29000 parts on up to 800 metres of paper, rendering does not crash.", "quantifier": "every sequence of parts (any number of lines, any texts of printable ASCII within the width, all 256 print modes and alignments per line, all feed amounts, all cuts), every font library, every dot of the image", "why_tests_cant": "the texts, modes, alignments and their sequences are unbounded, and each dot's position depends on everything before it; tests compare a few sample files", "anchors": ["thermal_parser/src/parser.rs parse_esc_pos", "thermal_parser/src/commands/set_print_mode.rs", "thermal_parser/src/commands/set_justification.rs", "thermal_parser/src/commands/feed_and_cut.rs", "thermal_parser/src/commands/print_and_feed.rs", "thermal_parser/src/commands/print_and_feed_lines.rs", "thermal_parser/src/text.rs TextSpan::new, break_into_words", "thermal_renderer/src/renderer.rs process_text, process_device_commands, process_command, render", "thermal_renderer/src/image_renderer/mod.rs", "thermal_renderer/src/image_renderer/thermal_image.rs draw_text, render_char, put_pixels, copy"]}
{"id": "C67", "title": "A receipt of styled, aligned lines, feeds and cuts, from the bytes to the HTML document", "statement": "Take any sequence of parts as in C66 (lines of printable text without an opening brace, each with its own alignment and print mode; feeds by lines or dots; cuts). Rendering the bytes of the parts as HTML gives exactly one document, every character of which is determined: the fixed page; the style with the paper's width and margins and, below the last line, as much blank paper as the feeds and cuts after it take; an empty paragraph of 108 dots; and for every line with characters one paragraph, as high as the characters, with a gap above it of exactly the paper fed since the end of the line before, containing one element per word (a word ends with its space), with the word's text, its distance from the left edge (alignment and characters before it counted), and the classes of its style: b for bold, w2/h2 and str for double width/height, u ud for underlined, fb for the small font. Up to 29000 parts, rendering does not crash if the picture encoder does not.", "quantifier": "every sequence of parts (any number of lines, any texts of printable ASCII within the width, all 256 print modes and alignments per line, all feed amounts, all cuts), every font library and picture encoder, every character of the document", "why_tests_cant": "the texts, modes, alignments and their sequences are unbounded, and each gap and distance depends on what comes before it; tests compare a few sample files", "anchors": ["thermal_renderer/src/html_renderer/mod.rs", "thermal_renderer/src/html_renderer/thermal_html.rs spans_to_html", "thermal_parser/src/text.rs TextSpan::new, break_into_words", "thermal_renderer/src/renderer.rs process_text, process_device_commands, process_command, render", "thermal_parser/src/commands/set_print_mode.rs", "thermal_parser/src/commands/set_justification.rs", "thermal_parser/src/commands/feed_and_cut.rs"]}
{"id": "C68", "title": "A receipt with pictures, from the bytes to the dots", "statement": "Take any sequence of elements, each of which is a part of a receipt as in C66 (an aligned, styled line of printable text with a line feed, a feed, a cut) or a picture sent with GS v 0 under an alignment of its own (ESC a), in any of the four magnifications, complete and not wider than the paper. Rendering the bytes gives exactly one image, 649 dots wide and 108 dots higher than the elements together, and every dot of it is determined: in a picture it is black exactly if its bit of the data is set (rows of whole bytes, the most significant bit leftmost, each bit stretched to its one or two by one or two dots), in the cell of a character it is as black as the font library says, and it is white anywhere else. A picture stands where its alignment puts it, directly below what was sent before it, and what is sent after it begins directly below it. Up to 16000 elements on up to 800 metres of paper, rendering does not crash.", "quantifier": "every sequence of elements (any texts, modes, alignments, feeds, cuts; any pictures of any size and data within the width), every font library, every dot of the image", "why_tests_cant": "the data, sizes and sequences of pictures and lines are unbounded, and each dot's place depends on all that went before; tests compare a few sample files by eye", "anchors": ["thermal_parser/src/parser.rs parse_esc_pos", "thermal_parser/src/commands/raster_bit_image.rs", "thermal_parser/src/graphics.rs Image, ImageRefStorage", "thermal_parser/src/commands/set_justification.rs", "thermal_renderer/src/renderer.rs process_text, process_graphics, render", "thermal_renderer/src/image_renderer/mod.rs", "thermal_renderer/src/image_renderer/thermal_image.rs draw_image, draw_text, put_pixels, copy"]}
{"id": "C69", "title": "A receipt with pictures, from the bytes to the HTML document", "statement": "Take any sequence of elements as in C68 (styled, aligned lines without an opening brace, feeds, cuts, and complete GS v 0 pictures not wider than the paper). Rendering the bytes as HTML gives exactly one document, every character of which is determined: it is the document of C67 with, for every picture, one paragraph of the picture's height, with a gap above it of exactly the paper fed since the paragraph before ended, containing one image: its distance from the left edge as its alignment says, its width in dots, and as data what the picture encoder makes of the picture's dots, which are given to it row by row, from left to right, black and opaque where the bit of the data is set and fully transparent where it is not. Up to 16000 elements, if every picture has a row, rendering does not crash if the picture encoder does not.", "quantifier": "every sequence of elements (any texts, modes, alignments, feeds, cuts; any pictures of any size and data within the width), every font library and picture encoder", "why_tests_cant": "the data, sizes and sequences of pictures and lines are unbounded, and each gap depends on all that went before; tests compare a few sample files", "anchors": ["thermal_parser/src/parser.rs parse_esc_pos", "thermal_parser/src/commands/raster_bit_image.rs", "thermal_parser/src/graphics.rs Image, ImageRefStorage, as_rgba_u8", "thermal_renderer/src/renderer.rs process_text, process_graphics, render", "thermal_renderer/src/html_renderer/mod.rs", "thermal_renderer/src/html_renderer/thermal_html.rs encode_html_image"]}
{"id": "C70", "title": "A receipt with pictures and barcodes, from the bytes to the dots", "statement": "Take any sequence of entries, each of which is an element of C68 (an aligned, styled line of text, a feed, a cut, or a GS v 0 picture) or a barcode sent with GS k (function B, systems 65 to 73) under an alignment of its own, whose data has a symbol that fits the paper. Rendering the bytes gives exactly one image, 649 dots wide and 108 dots higher than the entries together, a barcode taking 40 dots, and every dot of it is determined: in a barcode every module of the symbol is 3 dots wide and 40 high, black for a bar and white for a gap, beginning where the alignment puts the symbol as a whole, and everywhere else the dots are those of C68. Up to 16000 entries on up to 800 metres of paper, rendering does not crash.", "quantifier": "every sequence of entries (any texts, modes, alignments, feeds, cuts, pictures; barcodes of every system, any data that has a symbol within the width), every font library and barcode encoder, every dot of the image", "why_tests_cant": "the data and the sequences are unbounded, and each dot's place depends on all that went before; tests compare a few sample files by eye", "anchors": ["thermal_parser/src/parser.rs parse_esc_pos", "thermal_parser/src/commands/barcode.rs", "thermal_parser/src/commands/raster_bit_image.rs", "thermal_parser/src/commands/set_justification.rs", "thermal_renderer/src/renderer.rs process_text, process_graphics, render", "thermal_renderer/src/image_renderer/mod.rs", "thermal_renderer/src/image_renderer/thermal_image.rs draw_rect, draw_image, draw_text, put_pixels"]}
{"id": "C71", "title": "A receipt with pictures and barcodes, from the bytes to the HTML document", "statement": "Take any sequence of entries as in C70 (styled, aligned lines without an opening brace, feeds, cuts, complete GS v 0 pictures, and GS k barcodes with at least one bar). Rendering the bytes as HTML gives exactly one document, every character of which is determined: it is the document of C69 with, for every barcode, one paragraph 40 dots high, with a gap above it of exactly the paper fed since the paragraph before ended, containing one drawing: it begins at the first bar of the symbol as placed by the alignment, is as wide as from there to the end of the last bar, and holds one black rectangle, 3 dots wide and 40 high, for every module that is a bar, in their order and at their places, and nothing for the gaps. Up to 16000 entries, if every picture has a row, rendering does not crash if the picture encoder does not.", "quantifier": "every sequence of entries (any texts, modes, alignments, feeds, cuts, pictures; barcodes of every system, any data that has a symbol within the width), every font library, picture encoder and barcode encoder", "why_tests_cant": "the data and the sequences are unbounded, and each gap and each bar's place depends on all that went before; tests compare a few sample files", "anchors": ["thermal_parser/src/parser.rs parse_esc_pos", "thermal_parser/src/commands/barcode.rs", "thermal_parser/src/commands/raster_bit_image.rs", "thermal_renderer/src/renderer.rs process_text, process_graphics, render", "thermal_renderer/src/html_renderer/mod.rs", "thermal_renderer/src/html_renderer/thermal_html.rs graphics_to_svg, encode_html_image"]}
