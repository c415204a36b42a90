# Formal model of zachzurn/thermal in Rocq (Coq 8.16.1)

The sources are read as text; nothing is built or run. `rocq/theories` holds three kinds of files:
models of the code (every definition cites the file and lines it models), small specification files
`Spec*.v` written in terms of the printer and its formats and not of the code, and proofs
(`*Theory*.v`, `*Proofs.v` lemmas; `Props*.v` the theorems). This file is generated by
`tools/design.py` from `properties.jsonl`, `MANIFEST.json`, the comments above the theorems and
`tools/design_*.md`.

## Conventions of the model
* Integers are `Z`. Fixed-width arithmetic (u8/u16/u32/i16/usize) is written with explicit checks:
  where Rust's dev/test profile panics (overflow, underflow, index or slice out of bounds, unwrap on
  None, division by zero), the model returns the error value `Panic`. Release builds wrap instead of
  panicking on overflow; that profile is not modelled.
* `Vec<T>` is `list T`; `&mut self` methods return the new value; trait objects
  (`Box<dyn CommandHandler>`) become an inductive `handler` carrying the private state; the calls the
  renderer makes on the output renderer become a trace of events, each with a snapshot of the context
  it was given.
* f32 arithmetic is exact (round to nearest even on rationals, Float32.v) wherever the code uses it,
  except `(a as f32 / 2.0).floor()` in the canvas, written as integer halving (exact below 2^24).
* A job is a byte list whose elements are bytes (`bytes_ok`). A `history` is any sequence of commands
  that the parser can report, executed one after the other by one renderer, from the fresh state.

## What is modelled
| code | model |
|---|---|
| thermal_parser: parser.rs, command.rs, command_sets/esc_pos.rs, all custom `push` handlers, subcommands/mod.rs and both sub-command tables | Command.v, CommandSet.v, Parser.v |
| graphics.rs (raster, column, multi-colour, scaling, merging, colours, barcode and 2D-code drawing geometry) | GTypes.v, Graphics.v |
| decoder/*.rs (all tables, transcribed by script), UTF-8 decoding of the standard library | DecoderTables.v, Decoder.v, Utf8.v |
| context.rs; every `apply_context`, `get_text`, `get_graphics`, `get_device_command` of commands/ and subcommands/ | Context.v, Handlers.v |
| text.rs | Text.v |
| utils/barcodes/upce.rs | Upce.v |
| thermal_file.rs (reader and writer; `parse_binary` always returns nothing and is not modelled) | ThermalFile.v |
| thermal_renderer: renderer.rs | Renderer.v |
| image_renderer/mod.rs, thermal_image.rs | ImageRenderer.v, ThermalImage.v |
| html_renderer/mod.rs, thermal_html.rs, templates/thermal.html | HtmlRenderer.v, HtmlTemplate.v |

Not modelled: the debug profile of the canvas (coloured outlines), the
`transmit`/debug strings of handlers that only feed `println!`. External crates are parameters over
which every theorem quantifies: the symbol encoders (`barcoders`, `qr_code`; record `encoders`), the
glyph rasteriser (`fontdue`; `fonts`) and the PNG/base64 encoders (`png`, `base64`; `pngs`). They are assumed to return (not to panic); C33
also assumes that symbols have sane sizes (`encoders_ok`). The EAN-13 constants UPC-E takes from
`barcoders` are those of the standard. `from_utf8`, `from_utf8_lossy`, `lines`, `trim`,
`from_str_radix`, `replace` are modelled from their documentation.

## Trusted base
* Coq 8.16.1's kernel, including its `vm_compute` machine.
* The reading of the Rust sources into Gallina.
* No axioms. `Assumptions.v` (generated by `tools/assumptions.py`) runs `Print Assumptions` on every
  theorem listed in MANIFEST.json; the build prints "Closed under the global context" for each. A
  check of all loaded libraries lists seven standard-library parameters
  `Coq.ssr.ssrunder.Under_rel.*`, which come with `ssreflect`'s `under` tactic and are used by no
  theorem.
* No functors, module types, plugins, or kernel switches.

## Properties

### C01 Well-formed streams parse to exactly the commands they encode (proved)
*Claim.* Take any ESC/POS stream written as a sequence of items - fixed-length commands with their argument bytes, runs of plain text, barcodes (NUL terminated or with an explicit length), column bit images, raster images, cut commands, character-effect commands, GS ( L / GS 8 L / GS ( k sub-commands - such that text runs are non-empty, contain no control bytes and are not adjacent, and a command comes first and a non-sub-command comes last. Parser::parse_bytes on the concatenation of the items' wire bytes returns Begin Print, then exactly one command per item, in order, each with exactly the item's name, kind and data, then End Print.

*Model and proof.* SpecStream.v gives the grammar: items, their wire bytes, the commands they stand for. The parser is shown to be a two-mode automaton (Automaton.v); one lemma per item kind (StreamProofs.v), induction over the item list; Decompose.v shows every byte string is items plus a truncated end, so the characterisation is complete.

*Limits.* for every stream of well-formed commands and for every byte string

* `C01_stream_parses_exactly` (PropsParser.v): A well-formed stream parses to exactly the commands its items encode.
* `C01_every_byte_string` (PropsParser.v): Every byte string whatsoever is a sequence of items followed by a truncated end, and is parsed accordingly - or it contains, at an item boundary, a sub-command header announcing fewer than two bytes followed by at least one byte, and the parser panics.
* `C01_reading_unique` (PropsParser.v): The reading is unambiguous as far as the application can tell: two decompositions of the same bytes give the same report.

### C02 Every parse is framed by one Begin Print and one End Print (proved)
*Claim.* Whatever the bytes, if parse_bytes returns then the first returned command is Begin Print, the last is End Print, and no other command in the result is a Begin/End Print.

*Model and proof.* Invariant over the automaton; corollary of the decomposition theorem.

* `C02_framed` (PropsParser.v)

### C03 A parser can be reused: no state leaks between calls (proved)
*Claim.* Calling parse_bytes repeatedly on one Parser gives, for each input, exactly the result a freshly constructed Parser would give for it, whatever was parsed before (truncated commands included).

*Model and proof.* The state after `parse_bytes` is the initial state; induction over the list of calls.

* `C03_parser_reuse` (PropsParser.v)

### C04 When the parser panics (proved)
*Claim.* parse_bytes fails to return (arithmetic underflow in a checked build) exactly when some GS ( L, GS 8 L, GS ( k or GS ( H command recognised in the stream carries a declared length below 2 and at least one byte follows its header; on every other byte string it returns. In particular a stream without the bytes GS ( and GS 8 never panics the parser.

*Model and proof.* Panics are values of the model; the exact condition is stated with the item grammar, not with the automaton.

* `C04_panic_iff` (PropsParser.v)
* `C04_no_sub_no_panic` (PropsParser.v)

### C05 Plain text is delivered verbatim (proved)
*Claim.* A non-empty run of bytes none of which is a control byte that starts a command (HT, LF, FF, CR, CAN, DLE, ESC, FS, GS), following a complete command, is returned as a single Text command whose data is exactly that run. (At the very start of a stream the run is preceded by one spurious, empty Unknown command.)

*Model and proof.* From C01 items.

*Limits.* second theorem: text at the very start is preceded by a spurious empty Unknown command

* `C05_text_verbatim` (PropsParser.v): A text run after a complete command is delivered verbatim, as one command.
* `C05_leading_text_spurious_unknown` (PropsParser.v): At the very start of a stream the same run is preceded by one spurious empty Unknown.

### C06 Fixed-length commands take exactly their arguments (proved)
*Claim.* For each of the fixed-arity commands of the command set and every argument string of the documented length, the command is returned with exactly these bytes as data and the byte after them is interpreted afresh, even when the argument bytes are themselves ESC, GS, LF or any other command prefix.

*Model and proof.* From C01 items; the fixed arities come from the table in SpecStream.v.

* `C06_fixed_arguments` (PropsParser.v)

### C07 Length-prefixed payloads are taken verbatim and never re-scanned (proved)
*Claim.* The payload of GS k (explicit size), ESC *, GS v 0, GS ( L, GS 8 L and GS ( k consists of exactly the number of bytes announced in the header, whatever these bytes are (including bytes that look like commands), and the next byte starts a new command.

*Model and proof.* From the compositional form of C01.

* `C07_next_byte_starts_afresh` (PropsParser.v): The general form: after a complete item (any kind except text runs, which have no end of their own), whatever its argument or payload bytes, the following bytes are parsed exactly as a job of their own would be.
* `C07_payload_verbatim` (PropsParser.v): Explicit-size barcode, column image, raster image, sub-commands: payload verbatim.

### C08 The command table is unambiguous (proved)
*Claim.* No command prefix of the ESC/POS command set is a prefix of another one (so each command is reachable and its recognition cannot be stolen), and from a command boundary the bytes of each prefix are recognised as that command.

*Model and proof.* Finite table, decided by computation and lifted.

* `C08_table_prefix_free` (PropsParser.v): No command's prefix is the beginning of another command's prefix.
* `C08_each_prefix_recognised` (PropsParser.v): Hence no recognition is stolen: the bytes of each prefix, after any complete items, are reported as that very command (sub-command families report nothing until their payload comes, see C12).

### C09 No byte is invented and none is lost (proved)
*Claim.* For every byte string on which the parser returns, the wire bytes of the returned commands in order form a subsequence of the input (nothing is invented or reordered), up to one NUL that a NUL-terminated barcode at the very end of the input is given; and they are the whole input when the input contains no stray CAN byte, no GS ( / GS 8 sub-command, no barcode, and does not end in the middle of a command prefix (barcodes and known sub-commands followed by something are lossless item by item).

*Model and proof.* Wire bytes of reported commands versus input, by decomposition.

*Limits.* the exact exceptions are theorems

* `C09_nothing_invented` (PropsParser.v): Nothing is invented or reordered: the bytes of the reported commands are a subsequence of the input, up to one NUL after the end (a NUL-terminated barcode at the end of the input is reported with a terminator of its own).
* `C09_nul_barcode_at_end_invents_nul` (PropsParser.v): The exception is real.
* `C09_nothing_lost` (PropsParser.v): Nothing is lost when the input has no stray CAN, no sub-command, no barcode and does not stop inside a command prefix.
* `C09_items_lossless` (PropsParser.v): Item-level version, allowing barcodes and known sub-commands followed by something.
* `C09_losses_are_real` (PropsParser.v): What is lost: a stray CAN, a truncated prefix, a final sub-command.

### C10 Unrecognised escape sequences are reported, not dropped (proved)
*Claim.* An unrecognised sequence starting with DLE, ESC, FS or GS after a command boundary yields an Unknown command that carries all its bytes (followed by the bytes up to the next recognised command).

*Model and proof.* From C01.

* `C10_unknown_reported` (PropsParser.v)

### C11 Parsing is compositional at command boundaries (proved)
*Claim.* If a stream s1 ends at a command boundary (its last command is complete and the first byte of s2 starts a command), then the commands of s1 ++ s2 are those of s1 followed by those of s2 with the inner End/Begin Print pair removed; thus a print job can be cut into jobs at command boundaries.

*Model and proof.* From the automaton: at a boundary the state is determined by the current command only.

* `C11_compositional` (PropsParser.v)

### C12 Sub-command recovery (proved)
*Claim.* A GS ( k sub-command whose (cn, fn) pair, or a GS ( L / GS 8 L sub-command whose fn byte, is in the table and which is followed by at least one byte is returned as the sub-command's own command (name, kind), its commands field being the two/three byte prefix followed by the header and its data being exactly the announced payload; a sub-command that is the last thing in the stream loses its payload.

*Model and proof.* The sub-command tables are transcribed independently in SpecStream.v and compared for all keys.

* `C12_subcommand_recovered` (PropsParser.v)
* `C12_last_subcommand_loses_payload` (PropsParser.v): The last sub-command of a stream is reported without its payload; one with an empty payload is not reported at all.
* `C12_function_tables` (PropsParser.v): The tables the parser really uses agree with the documented function tables for every key.

### C13 Plain thermal text: constants, numbers, comments (proved)
*Claim.* parse_str of a Thermal file maps every line to the bytes of its tokens, in order: named constants, 0x-hex bytes, decimal bytes, quoted strings (with backslash escapes, any Unicode) and bare words; comment lines and blank lines contribute nothing; lines end with LF or CR LF, the last may be open; whatever the text, lines are read independently and only bytes come out.

*Model and proof.* SpecThermal.v defines tokens, lines and sources; induction over the source.

*Limits.* the last three say what happens to lines outside the format

* `C13_parse_str` (PropsThermal.v): Every source of the format is read as the bytes its tokens stand for, in order; comments and blank lines give nothing; lines may end with LF or CR LF and the last one may be open.
* `C13_lines_independent` (PropsThermal.v): Without any condition on the text: lines are independent, so one malformed line never affects another.
* `C13_only_bytes` (PropsThermal.v)
* `C13_token_before_quote_lost` (PropsThermal.v): What the reader does outside the format: an unquoted token directly before a quote is lost, a malformed hexadecimal number is dropped, and a number above 255 is printed as text.
* `C13_bad_hex_dropped` (PropsThermal.v)
* `C13_big_number_is_text` (PropsThermal.v)

### C14 Thermal disassembly round-trips (proved)
*Claim.* Disassembling a command list with the Thermal writer and parsing the text again gives back the bytes the commands stand for, for every command list whose text runs are line feeds or well-formed UTF-8 without line feed, double quote or backslash (tabs and carriage returns as commands, and other text, are not preserved) and whose unknown commands carry at least one byte; every other command survives whatever its bytes. With the parser: bytes -> commands -> .thermal text -> bytes is the identity under the same conditions when the parser drops nothing.

*Model and proof.* Writer of the code composed with the reader; the guard on text is exactly what C13 can read back.

*Limits.* the last five show each part of the guard is needed

* `C14_round_trip` (PropsThermal.v): Reading back what was written gives the bytes the commands stand for.
* `C14_stream_round_trip` (PropsThermal.v)
* `C14_bytes_round_trip` (PropsThermal.v): Bytes to .thermal and back: nothing changes, when moreover the parser drops nothing ([C09_nothing_lost] gives conditions on the bytes alone).
* `C14_carriage_return_lost` (PropsThermal.v): a carriage return or a tab is written as an empty text;
* `C14_quote_lost` (PropsThermal.v): quotes in text are not escaped;
* `C14_backslash_lost` (PropsThermal.v): neither are backslashes;
* `C14_latin1_replaced` (PropsThermal.v): text that is not UTF-8 is replaced;
* `C14_leading_text_gains_bytes` (PropsThermal.v): and the empty Unknown command before leading text is written as a comment that does not start its line, so it is read back as text: printing it adds bytes that were never there.

### C15 Raster bits become pixels one-for-one (proved)
*Claim.* For every raster image of w x h dots packed as ceil(w/8) bytes per row, pixel (x,y) of the decoded image is opaque iff bit 7-(x mod 8) of byte y*ceil(w/8)+x/8 is set; padding bits are ignored and the decoded image has exactly w*h pixels; data of any other length is reported as an error. (The dot has the requested ink only when the ink's blue equals its green: the decoder copies green into blue.)

*Model and proof.* SpecGraphics.v defines the dots of the packed formats; loop invariants over rows and bytes.

* `C15_raster_pixels` (PropsGraphics.v): Every dot of the packed data appears as a block of [sx] x [sy] pixels, opaque ink where the bit is set and fully transparent where it is not; padding bits do not matter.
* `C15_raster_ink` (PropsGraphics.v): With a colour whose blue equals its green (black, white, grey, red) the pixel is the ink.
* `C15_raster_ink_refuted` (PropsGraphics.v): The full claim (the dot is printed in the requested colour) fails as soon as blue and green differ: the decoder fills the blue channel from green. Witness: the default colour 3.
* `C15_wrong_length_is_error` (PropsGraphics.v): Data of any other length is reported as an error; it is neither padded nor cut.

### C16 Column images are the transpose of raster images (proved)
*Claim.* For every column-format image of w columns and h dots, pixel (x,y) of the decoded image is opaque iff bit 7-(y mod 8) of byte x*ceil(h/8)+y/8 is set; so it is the transpose of the raster image of the transposed dots. (Truncated column data aborts the decoder; the multi-colour column decoder never yields an image.)

*Model and proof.* As C15.

* `C16_column_pixels` (PropsGraphics.v)
* `C16_column_is_transposed_raster` (PropsGraphics.v): A column image and the raster image of the transposed dots are the same picture.
* `C16_truncated_column_data_panics` (PropsGraphics.v): Unlike the raster decoder, truncated column data is not reported: the decoder aborts.
* `C16_multicolour_column_never_decodes` (PropsGraphics.v): The multi-colour column decoder never yields an image.

### C17 Scaling replicates pixels exactly (proved)
*Claim.* Scaling a w x h image by (sx,sy) yields an image of w*sx x h*sy in which pixel (x,y) equals source pixel (x/sx, y/sy).

*Model and proof.* Index arithmetic over rows.

* `C17_scaling` (PropsGraphics.v)
* `C17_scaling_by_one` (PropsGraphics.v): Factor 0 counts as 1 (the code clamps), so scaling by (0,0) or (1,1) is the identity.

### C18 Image layers merge without disturbing the base where the layer is transparent (proved)
*Claim.* Merging equally sized layers keeps the size, leaves each pixel where the upper layers are fully transparent unchanged and gives the layer's colour where it is opaque, the topmost opaque layer winning. (Larger layers are refused; smaller ones are accepted but painted at the wrong place; multi-colour raster data decodes only when the width is a multiple of 8.)

*Model and proof.* Induction over the list of layers.

* `C18_topmost_opaque_layer_wins` (PropsGraphics.v)
* `C18_layers_blend_in_order` (PropsGraphics.v): The same for arbitrary alpha: each layer is blended onto what lies below.
* `C18_larger_layer_refused` (PropsGraphics.v): Layers larger than the base are refused.
* `C18_smaller_layer_misplaced_refuted` (PropsGraphics.v): Layers smaller than the base are accepted but painted at the wrong place: the pixels are taken in storage order, not by position. Here a 1x2 layer paints pixel (1,0) of a 2x2 base, which lies outside the layer, and leaves (0,1), which lies inside, unpainted.
* `C18_multicolour_raster` (PropsGraphics.v): Multi-colour raster data: one plane per colour, each a colour number and w/8*h bytes. When the width is a whole number of bytes the decoded pixel shows the last plane having that dot.
* `C18_multicolour_raster_odd_width_refuted` (PropsGraphics.v): When the width is not a whole number of bytes the full claim fails completely: no input at all is decoded to an image (the plane size is computed with a truncating division).

### C19 ESC @ restores every default (proved)
*Claim.* After any sequence of commands, ESC @ makes text, barcode, 2D-code and graphics settings equal to those of a fresh context (page-mode state is not reset). This includes the paper position: it is rewound to the top, above what was already printed.

*Model and proof.* Context.v and the handler of ESC @; frame lemmas.

*Limits.* consequence for the user: the paper position is rewound to the top (last theorem)

* `C19_initialize_restores_defaults` (PropsContext.v): After any history, ESC @ makes the text, barcode, 2D-code and graphics settings those of a fresh printer; the page-mode state is not reset.
* `C19_initialize_never_fails` (PropsContext.v): It goes through whenever there is no buffered text left to lay out.
* `C19_initialize_rewinds_paper` (PropsContext.v): The consequence a user notices: in standard mode the print position is back at the top of the paper, above what was already printed.

### C20 Style commands change only what they name (proved)
*Claim.* Each text-style / context command changes only the setting it documents, to the value its argument names; in particular the default context, stored graphics and page-mode state are untouched by text style commands. (Two documented values are not what the code sets: underline in ESC ! sits on bit 6 instead of bit 7, and ESC G 0 steps the strike-through down instead of switching it off.)

*Model and proof.* SpecPrinter.v lists which settings each command names; every command of the table is covered (completeness theorems).

*Limits.* frame conditions and the exact new values; two documented meanings are false of the code (_refuted)

* `C20_style_commands_touch_only_their_setting` (PropsContext.v): Every style command touches the settings it names and nothing else: the other text settings, the stored defaults, barcode, 2D-code, graphics (stored images included) and page-mode state, the text already buffered and the errors are as before; the output renderer is asked to draw nothing; and it cannot fail.
* `C20_style_table_complete` (PropsContext.v): The table is complete: its prefixes are those of all the style commands.
* `C20_setting_commands_touch_only_their_part` (PropsContext.v): The commands of kind Context: buffered text is printed first, under the old setting.
* `C20_setting_table_complete` (PropsContext.v): The other commands of kind Context move the print position (ESC $, GS $, GS \\) or store graphics and symbols; together the tables cover the kind.
* `C20_switches` (PropsContext.v): ESC E, ESC 4, GS b, ESC { switch their setting on for odd and off for even arguments.
* `C20_font` (PropsContext.v)
* `C20_underline` (PropsContext.v)
* `C20_code_page` (PropsContext.v): ESC t and ESC R select the table and set, and the decoder follows the pair (C26, C27 say what it decodes).
* `C20_international_set` (PropsContext.v)
* `C20_invert` (PropsContext.v): GS B: 1 swaps paper and ink, everything else restores black on paper.
* `C20_alternate_color` (PropsContext.v): ESC r: 1 or '1' selects the second colour.
* `C20_print_mode` (PropsContext.v): ESC !: bit 0 font B, bit 3 emphasis, bit 4 double height, bit 5 double width, and underline on bit 6. The ESC/POS reference puts underline on bit 7: see the refutation below.
* `C20_print_mode_underline_refuted` (PropsContext.v): "Bit 7 of ESC ! turns underlining on" is false of this code: with only bit 7 set it is off.
* `C20_double_strike` (PropsContext.v): ESC G sets the strike-through: odd arguments make it double; an even one steps down one level, so switching off after switching on leaves a single line.
* `C20_double_strike_off_refuted` (PropsContext.v)
* `C20_character_size` (PropsContext.v): GS !: width in bits 4-6, height in bits 0-2, both counted from 1.
* `C20_tab_entry` (PropsContext.v): ESC D changes the one entry its second byte names: the first byte becomes the entry. (The ESC/POS reference describes a NUL-terminated list of columns instead.)
* `C20_justification` (PropsContext.v): ESC a: the text so far is printed as it was; then only the justification changes.
* `C20_line_spacing` (PropsContext.v): GS P, ESC 3, GS h, GS w: the settings of the other group
* `C20_barcode_settings` (PropsContext.v)

### C21 Printer setting invariants (proved)
*Claim.* In every context reachable by executing commands: character cell sizes are 12x24 or 9x17, multipliers stay within 1..8, barcode width stays in 2..6, dpi is one of 203/180/360, the tab table has 32 entries, the default context is present and unchanged.

*Model and proof.* Invariant by induction over the history (StateTheory.v).

* `C21_settings_invariant` (PropsContext.v): The invariants of every history, whatever commands and arguments it is made of.

### C22 Justification keeps content inside the print area (proved)
*Claim.* For every content width w not exceeding the render width, the justification offset plus w does not exceed the render width; left gives 0, right gives the remaining width, centre halves it; wider content gets offset 0.

*Model and proof.* Arithmetic on the three cases; history invariant for the block images.

* `C22_justification` (PropsContext.v): Where content of width [w] is put in an area of width [get_width c].
* `C22_block_images_inside` (PropsContext.v): Block images (raster images, stored graphics) in standard mode: the image is drawn where the justification puts it and inside the print width, and the next line starts below it.

### C23 Page-mode rotation bookkeeping (proved)
*Claim.* The rotation reported when the print direction changes composes: changing a->b then b->c rotates by the sum modulo 4, a->a by none; in page mode any closed walk of direction changes (ESC T) returns the page to its original orientation and dimensions when no larger area is set, and the turns told to the output renderer always add up to the current direction. (ESC T outside page mode repeats the last turn: false there.)

*Model and proof.* Group of quarter turns; invariant linking the sum of announced turns with the direction.

*Limits.* ESC T outside page mode repeats the last turn (the _refuted theorem), so the history theorem is about ESC T in page mode

* `C23_rotations_compose` (PropsPage.v): Turning from [a] to [b] and on to [c] is turning from [a] to [c]; staying is no turn.
* `C23_turns_match_direction` (PropsPage.v): In every such history the quarter turns the output renderer was told to make add up to the current print direction.
* `C23_direction_change_keeps_page` (PropsPage.v): A page of W x H (standard orientation) covering the logical area: every ESC T in page mode with no text pending succeeds, and leaves a W x H page with the same logical area, now lying in the new direction.
* `C23_walks` (PropsPage.v): Any walk of direction changes keeps the page; a closed one brings back its orientation, its dimensions and a total rotation of no turn.
* `C23_direction_in_standard_mode_refuted` (PropsPage.v)

### C24 The page never shrinks and always contains the print area (proved)
*Claim.* After every page-area or direction change, the page dimensions cover the render area's far corner, and for unchanged direction they never decrease.

*Model and proof.* Algebra of page geometry.

* `C24_page_covers_print_area` (PropsPage.v): What one page geometry change does to the page: dimensions as if only turned, then grown.
* `C24_print_area_command` (PropsPage.v): Hence: setting a print area (ESC W) in any state never shrinks the page, the page it announces contains the new print area, and a page already containing it keeps its size.

### C25 Breaking text never loses or reorders characters (proved)
*Claim.* Splitting a span into words or into line-sized chunks yields spans whose texts concatenate to the original, with the same style; words end at white space and contain no inner white space; chunks respect the length limits.

*Model and proof.* List induction; words are characterised by SpecText-style predicates, uniqueness proves the characterisation complete.

* `C25_words_lossless` (PropsText.v): No character is lost, duplicated, reordered or restyled.
* `C25_words_shape` (PropsText.v)
* `C25_words_unique` (PropsText.v): ... and there is only one way to cut a text like that.
* `C25_break_apart_panic_iff` (PropsText.v): break_apart panics exactly for a zero line length.
* `C25_break_apart` (PropsText.v): Otherwise: no character lost, style kept, the first piece takes [f] characters (or all of a shorter text; nothing when [f] = 0), the others [n].

### C26 Code-page decoding is one character per byte (proved)
*Claim.* For every code page other than UTF-8 and every byte string, decoding yields one character per byte (a few unassigned bytes of pages 851, 853 and 857 yield none), each depending only on that byte; bytes 32..126 decode to ASCII when the international set is USA; pages 437, 860 and 863 and the half-width katakana agree with the published tables (850 and 865 do not at three and eight bytes); UTF-8 text is decoded to exactly the encoded characters.

*Model and proof.* Tables generated from the sources; 256 x tables x national sets by computation lifted with forallb_forall, strings by induction; published code pages in SpecText.v.

*Limits.* pages 851 and 853 have no published mapping at hand: only the one-character property is proved for them

* `C26_unknown_selection_falls_back` (PropsDecoder.v): Unknown code tables behave as table 0 (PC437), unknown national sets as 0 (USA).
* `C26_bytewise` (PropsDecoder.v): Decoding works byte by byte: no state, no look-ahead.
* `C26_one_char_per_byte` (PropsDecoder.v): Every byte gives exactly one character, except the listed unassigned bytes, which give none.
* `C26_length_preserved` (PropsDecoder.v): Pages 437, Katakana, 850, 860, 863, 865 (and any unknown table): length is preserved exactly.
* `C26_ascii` (PropsDecoder.v): ASCII text is itself in every code page (with the USA set selected).
* `C26_pages_437_860_863_exact` (PropsDecoder.v)
* `C26_page_850_refuted` (PropsDecoder.v): PC850 is wrong at 0xBD (should be the cent sign), 0xBE (yen) and 0xF0 (soft hyphen).
* `C26_page_865_refuted` (PropsDecoder.v): PC865 is wrong at eight bytes.
* `C26_page_857_but_three` (PropsDecoder.v): PC857: 0xD5 is the euro sign here; 0xE7 and 0xF2 are unassigned in both.
* `C26_katakana` (PropsDecoder.v): Katakana: bytes 0xA1..0xDF are the JIS X 0201 half-width katakana.
* `C26_utf8_roundtrip` (PropsDecoder.v): Text sent as UTF-8 is decoded to exactly the characters that were encoded.
* `C26_utf8_strict_iff` (PropsDecoder.v): The strict decoder accepts exactly the encodings of scalar-value strings.
* `C26_utf8_total` (PropsDecoder.v): Whatever the bytes, the decoded text is a valid Unicode string, no longer than the input.

### C27 International sets change only their listed characters (proved)
*Claim.* Selecting an international character set alters only the code points that the set lists; every other byte decodes as under USA. (The characters shown at the listed positions are not always those of the published sets.)

*Model and proof.* As C26.

*Limits.* sets 11-16 not compared with a published table

* `C27_only_listed_positions_change` (PropsDecoder.v)
* `C27_high_half_untouched` (PropsDecoder.v): In particular bytes above 0x7F never depend on the national set.
* `C27_indian_digits` (PropsDecoder.v)
* `C27_national_sets_refuted` (PropsDecoder.v)

### C28 UPC-E check digit (proved)
*Claim.* For every accepted input that does not carry a check digit of its own (6, 7, 11 digits), the computed check digit makes the weighted sum of the UPC-A digits divisible by ten, and is the only digit that does. (A check digit given by the caller is not verified.)

*Model and proof.* SpecUpc.v states the GS1 check equation and expansion.

*Limits.* inputs that carry a check digit (8 or 12 digits) are accepted whatever it is: the _refuted theorem

* `C28_check_digit` (PropsUpce.v): Eleven digits have a check digit, it is a digit, and the check equation holds.
* `C28_check_digit_unique` (PropsUpce.v): ... and it is the only digit with that property.
* `C30_seven_digits` (PropsUpce.v): 7 digits: always accepted for number systems 0 and 1; the resulting code abbreviates the same UPC-A number, carries that number's check digit, and is the given code iff that is canonical.
* `C30_eleven_digits` (PropsUpce.v): 11 and 12 digits: every UPC-A number that has a UPC-E form is accepted and compressed to its canonical form.
* `C28_given_check_digit_unverified_refuted` (PropsUpce.v): A check digit given by the caller (8 or 12 digits) is not verified.

### C29 UPC-E symbol shape (proved)
*Claim.* Every encoded UPC-E symbol has 51 modules (start 101, six 7-module digits, end 010101), all 0/1.

*Model and proof.* As C28.

* `C29_symbol` (PropsUpce.v): For every input whatsoever: construction never panics; when it accepts, encoding does not panic and yields the standard symbol of the code, 51 modules of 0/1, from guard to guard.
* `C29_symbol_determines_code` (PropsUpce.v): A scanner can recover the code: different accepted codes have different symbols.

### C30 UPC-E expansion and compression (proved)
*Claim.* Expanding a UPC-E code to UPC-A and compressing it again gives a code that abbreviates the same UPC-A number, and the same digits for codes in canonical form. (Compression also accepts numbers that have no UPC-E form, and then two different numbers share a symbol.)

*Model and proof.* As C28.

*Limits.* the second half of the statement is false of the code: the _refuted theorem gives two UPC-A numbers with one symbol

* `C30_compress_expand` (PropsUpce.v): If the number is the expansion of some UPC-E code, compression succeeds, keeps the check digit, and gives a code that abbreviates the same number.
* `C30_six_digits` (PropsUpce.v): A 6-digit input is the 7-digit input with number system 0.
* `C30_seven_digits` (PropsUpce.v): 7 digits: always accepted for number systems 0 and 1; the resulting code abbreviates the same UPC-A number, carries that number's check digit, and is the given code iff that is canonical.
* `C30_eight_digits` (PropsUpce.v): 8 digits: as before, with the check digit that was given (see C28_given_check_digit_unverified).
* `C30_eleven_digits` (PropsUpce.v): 11 and 12 digits: every UPC-A number that has a UPC-E form is accepted and compressed to its canonical form.
* `C30_accepted_keeps` (PropsUpce.v): What compression keeps for whatever it accepts: number system, manufacturer code, last product digit and check digit. Product digits 1-4 may be lost (next theorem).
* `C30_distinct_numbers_same_symbol_refuted` (PropsUpce.v): The guards in the source use && where || is meant: numbers with no UPC-E form are accepted and two different UPC-A numbers (with their own correct check digits) get the same symbol.

### C31 Every command stream produces one output per End Print (proved)
*Claim.* Rendering a parsed stream tells the output renderer to begin before anything is drawn and to end after everything, and collects one output for the end of the job plus one for each form feed that finds the printer outside page mode.

*Model and proof.* Trace of output-renderer calls; induction over commands with the page-mode flag (SpecRender.v `sheets`).

* `C31_outputs` (PropsOutput.v): In every job the output renderer is told once to begin, and as often to end (giving an output each time) as the job has form feeds outside page mode, plus one for the job itself.
* `C31_framed` (PropsOutput.v): The calls of a job start with Begin Print and begin_render and end with End Print, get_render_errors and end_render; no text is left waiting, so the next job starts clean.

### C32 Text layout keeps every character and stays within the line (proved)
*Claim.* Laying out buffered text draws every character a job types exactly once and in order, each in the style in force when it was received; within a line words go left to right, lines go down; words that fit are kept whole; and nothing visible is put past the right edge when a line holds at least as many characters as one of them is dots wide and justification does not follow a tab or an absolute position (each condition is needed).

*Model and proof.* Conservation law per command, lifted to jobs; placement by induction over words (PlaceTheory.v).

*Limits.* containment under the stated conditions; the _refuted theorems show each condition is needed

* `C32_each_command` (PropsLayout.v): one command. What has been drawn, followed by what is waiting to be drawn, grows by exactly the characters the command types, in the style in force when it arrives.
* `C32_every_character_once` (PropsLayout.v): one job. Every character the job types is drawn exactly once and in order, each in the style in force when it was received.
* `C32_reading_order` (PropsPlace.v): reading order. Of the words one command causes to be printed, an earlier one lies entirely above a later one, or on the same line to its left.
* `C32_right_edge` (PropsPlace.v): the right edge. If a line holds at least as many of the waiting characters as one of them is dots wide, nothing visible is put past the right edge; nor does justification move it there, if the text starts at the left edge and has no tabs.
* `C32_wraps_words` (PropsPlace.v): wrapping. Words (C25) that fit on a line are printed whole, each directly after the one before unless it would not have fitted there; then it begins a new line below.
* `C32_wide_word_refuted` (PropsPlace.v): The conditions are needed. Triple width (GS ! 0x20, a 36-dot cell of which 16 make a line): a long word is cut into pieces of 36 characters and runs over the edge.
* `C32_tab_right_refuted` (PropsPlace.v): A tab before a right-justified word moves it past the edge.
* `C32_position_right_refuted` (PropsPlace.v): ... and so does an absolute position (ESC $).
* `C32_right_panics` (PropsPlace.v): A right-justified word that is too wide stops the program (ESC a 2, GS ! 0x70).

### C33 Renderer robustness (proved)
*Claim.* Printing a job in standard mode does not panic: for every byte string whose commands are 'gentle' (a short list of exceptions: ESC L, reverse feed, oversized or truncated images, malformed sub-command parameters, GS P above the resolution, right justification with more than double width) and whose paper consumption fits 32 bits, Renderer::render returns; in particular any such receipt of up to 15000 commands and 5 MB, and any sequence of such jobs on one renderer. Each exception is necessary: a byte string that panics is exhibited for each, and the exact panic conditions of ESC e, ESC $ and GS P are stated.

*Model and proof.* SpecSafe.v lists the gentle commands and the paper they use; invariant `calm` over the history (SafeTheory*.v): number ranges of all areas, tabs, stored images. Standard mode only.

*Limits.* standard mode; the exceptions are listed in SpecSafe.gentle, each with a crashing stream; the external symbol encoders are assumed to return (encoders_ok: sane sizes)

* `C33_no_crash` (PropsSafe.v): A job whose commands are all gentle, on a roll that is long enough, prints without a crash.
* `C33_no_crash_jobs` (PropsSafe.v): Any number of jobs printed one after the other by the same renderer.
* `C33_receipts_print` (PropsSafe.v)
* `C33_reverse_feed` (PropsSafe.v): ESC e n (reverse feed) multiplies the line spacing by 2^32 - n: it crashes unless the spacing is nought, or one and the printed paper is shorter than n.
* `C33_absolute_position` (PropsSafe.v): ESC $ divides by the motion unit, which GS P sets to nought for every x above the resolution.
* `C33_motion_units` (PropsSafe.v)
* `C33_crashes` (PropsSafe.v)
* `C33_exceptions_needed` (PropsSafe.v): ... and the conditions name the culprit each time: without the exceptions of [gentle] the theorem would be wrong.

### C34 Painting touches only its rectangle (proved)
*Claim.* Drawing a w x h block of pixels at (x,y) onto the canvas changes only canvas pixels inside that rectangle clipped to the canvas width; width is kept; height only grows, to cover y+h.

*Model and proof.* SpecCanvas.v: a canvas shows a picture (function of coordinates); loop invariant of the painting loop.

* `C34_paper_painting` (PropsCanvas.v): On the paper (which grows): the canvas keeps its width, becomes exactly as high as needed; the pixels of the clipped rectangle are mixed with the block, all others keep their colour, new rows have the paper colour.
* `C34_nothing_else_changes` (PropsCanvas.v): Growing or not: nothing outside the clipped rectangle changes, the width is kept, the height never shrinks and never exceeds what the block needs.
* `C34_refused_painting` (PropsCanvas.v): A block that lies entirely outside, or comes with more pixels than its size admits, leaves the canvas alone and is reported.
* `C34_white_and_transparent_do_not_cover` (PropsCanvas.v)
* `C34_black_covers` (PropsCanvas.v)
* `C34_upside_down_mirrors` (PropsCanvas.v)

### C35 Rotating a page four times by 90 degrees is the identity (proved)
*Claim.* On every canvas with at least one row: rotating by 90 degrees four times restores the image exactly; 180 is 90 twice; 270 undoes 90 and 90 undoes 270; pixel (x,y) of a w x h image goes to (h-1-y,x). (A canvas without rows loses its width when turned.)

*Model and proof.* As C34.

*Limits.* for canvases with at least one row; an empty canvas loses its width (last theorem)

* `C35_rotation_moves_pixels` (PropsCanvas.v): Where the pixels go.
* `C35_four_quarter_turns` (PropsCanvas.v)
* `C35_half_turn_is_two_quarters` (PropsCanvas.v)
* `C35_three_quarters_undo_one` (PropsCanvas.v)
* `C35_empty_page_forgets_its_width` (PropsCanvas.v): An empty page loses its width when it is turned by a quarter: turning is then not undone.

### C36 The canvas stays rectangular (proved)
*Claim.* Every canvas operation keeps the number of pixels equal to width*height and the RGB export has exactly 3 bytes per pixel.

*Model and proof.* Invariant over histories of canvas operations.

* `C36_pixels_fill_the_rectangle` (PropsCanvas.v): Whatever is drawn, from a fresh canvas on: width times height is the number of pixels.
* `C36_rgb_export` (PropsCanvas.v): Export: three bytes per pixel, in order, and the canvas is empty afterwards.
* `C36_turning_and_widening_never_fail` (PropsCanvas.v): Rotating and widening never fail on a rectangular canvas.

### C37 Growing the canvas keeps the picture (proved)
*Claim.* expand_to_width / expand_to_height / add_top_margin keep all existing pixels at their (shifted) positions and fill the rest with the paper colour; a smaller width or height changes nothing.

*Model and proof.* As C34.

*Limits.* there is no add_left_margin in the code

* `C37_growing_height_keeps_the_picture` (PropsCanvas.v): Growing the canvas keeps the picture
* `C37_growing_width_centres_the_picture` (PropsCanvas.v): Widening centres the picture: the left margin is half the added width, rounded down.
* `C37_narrower_width_changes_nothing` (PropsCanvas.v)
* `C37_top_margin_shifts_the_picture` (PropsCanvas.v)

### C38 Painting on a page: what is cut off and when the page grows (proved)
*Claim.* Painting a block on a page canvas (auto-grow off) crops the block at the right edge and never changes the page's width. If the block sticks out on the right, or its width reaches past the bottom edge, or it does not stick out below, the page keeps its size and the block is cropped at the bottom edge; otherwise the page grows downwards, exactly enough to hold the block. The pixels of the block on the page are mixed with what was there, all others keep their colour, new rows have the paper colour. Not true: that a page never changes its size when it is painted on.

*Model and proof.* As C34.

*Limits.* The page grows although it must not because the bottom-edge test uses the block width (thermal_image.rs:534); C38_page_painting says exactly when. Sizes must fit the code's u32 arithmetic.

* `C38_page_painting` (PropsCrop.v): Painting any block on a page. The width stays, the block is cut off at the right edge. If the page notices that it sticks out, or it does not stick out below, the page keeps its height and the block is cut off at the bottom; otherwise the page becomes longer, exactly enough to hold the block, and nothing is cut off there. In both cases the pixels of the block that are on the page are mixed with what was there (paper colour, in new rows), and all others keep their colour (new rows: paper colour).
* `C38_page_does_not_grow_refuted` (PropsCanvas.v): Without that condition the page grows although it must not: the test for the bottom edge adds the block's width instead of its height.

### C39 One image per sheet, with the right number of bytes (proved)
*Claim.* The image renderer returns one image per form feed outside page mode plus one for the end of the job; every image is as wide as the paper (649 dots) and carries exactly three bytes per pixel.

*Model and proof.* ImageRenderer.v run over the calls of Renderer.v; invariant on the paper canvas; count by C31.

* `C39_images` (PropsImage.v): A job gives one image more than it has form feeds outside page mode. Every image is as wide as the paper (649 dots at 203 dpi, 80 mm and a bit) and has exactly three bytes for each pixel.

### C40 The image shows what was printed, where it was printed, and nothing else (proved)
*Claim.* The image of a sheet is the white paper with the blocks of pixels of the renderer's calls multiplied onto it in order, at the positions of the calls, shifted by the left margin of 20 dots; everything outside the print area is white; the image ends at the lowest thing printed or at the paper position, whichever is lower.

*Model and proof.* SpecImage.v: strokes on a strip; every canvas operation simulates its stroke (ImageTheory.v); CallsTheory.v shows the calls of every history are well formed.

*Limits.* sheets on which no page-mode page is printed; fonts are an arbitrary parameter

* `C40_sheet` (PropsImage.v): The picture of a sheet, for every history of jobs: between a begin_render call and the next end_render call (and no page printed in between), the image has the picture the calls draw in the middle of the paper, with a margin of 20 white pixels on both sides; it is as high as the lowest stroke, or reaches down to where the print position is.
* `C40_first_image` (PropsImage.v)

### C41 Sheets after the first (proved)
*Claim.* A form feed outside page mode ends the image. The user expects the following commands on the next image. They are not: nothing starts a new sheet, so every image after the first is white all over whatever was sent, and each block is refused with an error.

*Model and proof.* Invariant: after end_render the paper canvas has width 0 and refuses everything.

*Limits.* the expected behaviour is false of the code; proved is what happens instead

* `C41_no_sheet` (PropsImage.v): What is printed between the end of a sheet and the next end of a sheet with no begin_render in between is lost: the image is white.
* `C41_only_the_first_image_shows_anything` (PropsImage.v): One job: the first image shows what is drawn up to the first end of a sheet, and every further image (each form feed outside page mode ends one) is entirely white.
* `C41_form_feed_loses_the_bitmap` (PropsBitmap.v): The bitmap of [C42_bitmap_printed_exactly] sent after a form feed: the job succeeds and gives two images, but both are white all over; each band has been refused.

### C42 A bitmap sent as raster bands is printed exactly (proved)
*Claim.* A job made of any number of GS v 0 raster bands, of any widths and heights, renders without error to one image in which dot (x, y) of the stacked bands is black at (20 + x, 108 + y) exactly when its bit is set, and all else is white; what does not fit into the print width is cut off.

*Model and proof.* Composition of C01-style parsing, C15, the layout of Renderer.v and C40; total correctness.

* `C42_bitmap_printed_exactly` (PropsBitmap.v): A bitmap sent as any number of raster bands, whatever the fonts and the encoders of symbols: nothing fails, there is one image, the bitmap stands at the left edge of the print area (20 dots from the edge of the paper) 108 dots from the top, every dot is black where its bit is set and everything else is white; what does not fit into the print width is cut off at the right.

### C43 The HTML of a job shows its text (proved)
*Claim.* A job gives one HTML document per form feed outside page mode and one more. Each document is the same fixed page (style sheet filled with the printer's colours) around the receipt, as wide as the paper. What a reader sees of the last document of a job that stays in standard mode is exactly the text the job prints, every character once and in order, if no character has a meaning in HTML or in the template. (Markup in the text is not escaped and placeholders are substituted: refuted.)

*Model and proof.* HtmlRenderer.v interprets the calls; SpecHtml.v reads HTML (tags against text). Fragment composition lemmas, separation lemmas for str::replace, FlatTheory for standard mode, C32 for the typed text.

*Limits.* text without the characters < & {; the _refuted theorems show the condition is needed. Line feeds between spans are markup white space and are not compared

* `C43_number_of_documents` (PropsHtml.v): The number of documents: one more than there are form feeds outside page mode.
* `C43_document_text` (PropsHtml.v): Every document is the fixed page around a content, and what a reader sees of the content is exactly the text printed outside page mode up to the end of that sheet, as long as no character printed there has a meaning in HTML or in the template.
* `C43_standard_job` (PropsHtml.v): A job that never turns page mode on: the last document shows every character the job prints, once and in order, as long as none has a meaning in HTML or in the template.
* `C43_markup_refuted` (PropsHtml.v): Markup in the text is not escaped: it becomes part of the document.
* `C43_placeholder_refuted` (PropsHtml.v): The name of a placeholder in the text is replaced.

### C44 The HTML puts things where they were printed (proved)
*Claim.* The receipt is a stack of paragraphs: blank paper down to the first line, then one paragraph for each line of text, symbol or image, as high as the thing is and with a gap above it equal to the distance from the thing before; a browser that stacks the paragraphs then shows each thing at the height it was printed at, and as much blank paper below as was fed, if each thing begins at or below the end of the one before. (Two texts on one line, as after ESC $, are shown one below the other: refuted.)

*Model and proof.* Boxes of calls are specified by least and greatest coordinates; invariant on last_y over the run of calls.

*Limits.* the gaps are exact for every document; positions agree when the things printed are stacked

* `C44_rows` (PropsHtml.v): Rows. The content of a document is a paragraph for the blank paper at the top and one paragraph for each thing printed; each is as high as the thing, and the gap above it is the distance from the thing before. When each thing is below the one before, a browser puts each where it was printed, and leaves as much blank paper below as was fed.
* `C44_same_line_refuted` (PropsHtml.v): Two words printed on one line with ESC $ between them are shown one below the other.

### C45 HTML after a form feed (proved)
*Claim.* A form feed outside page mode ends a document; the user expects the following commands alone in the next document. They are not: the next document begins with everything the one before shows, and continues with the new text.

*Model and proof.* The content of the renderer only grows between two ends of sheets.

*Limits.* the expected behaviour is false of the code; proved is what happens instead

* `C45_repeats` (PropsHtml.v): After a form feed: the next document begins with everything the one before shows.

### C46 The HTML renderer accepts what the image renderer accepts (proved)
*Claim.* A job that renders to an image should render to HTML. It does not: a job that prints an image without pixels (a raster image of width or height zero, a page printed before its area is set) never gives HTML, because the PNG encoder refuses an image without pixels and the refusal is not handled.

*Model and proof.* An Ok run means the encoder accepted every image.

*Limits.* the expected behaviour is false of the code; proved is what happens instead

* `C46_empty_image_stops` (PropsHtml.v): A job that prints an image without pixels outside page mode never gives HTML.
* `C46_stops_refuted` (PropsHtml.v): GS v 0 with a width of zero bytes: the image renderer gives a receipt, the HTML renderer panics; and so does the HTML of a page printed before its area was set (ESC L A FF).

### C47 Errors are reported, once each, in order (proved)
*Claim.* After rendering, the renderer's error list is exactly: one entry for every unrecognised command and one for every graphics command whose data cannot be turned into a picture, in the order the commands were sent; nothing else adds, removes or reorders an error, and an error never stops the job. The image renderer's own list holds exactly the complaints of its two canvases - once each if nothing is output in between; a job with a form feed reports the same complaint more than once.

*Model and proof.* Error list as a function of the history; for the image renderer an invariant pairing ends of sheets with error flushes.

*Limits.* the image renderer reports a complaint again at every sheet (the _refuted theorem)

* `C47_each_command` (PropsErrors.v): One command: exactly its complaints are added at the end.
* `C47_errors` (PropsErrors.v): Any run of commands, from any state: the errors are the commands' complaints, in order.
* `C47_unknown_commands` (PropsErrors.v): A job: the commands the parser could not recognise are reported, each once, in the order they were sent.
* `C47_image_errors` (PropsErrors.v): A job rendered as images: what the canvases of paper and page refused to draw is reported, and nothing else; each refusal once if the job has no form feed outside page mode.
* `C47_reported_once_refuted` (PropsErrors.v): Not once each when there is a form feed: the canvas never forgets its errors, so what was refused on the first sheet is reported again for every later one.

### C48 Pictures sent with GS v 0 and ESC * come out dot for dot, in place (proved)
*Claim.* A raster image (GS v 0) whose data has the announced length is printed once: every dot of the result is the dot the data names, magnified as the mode byte says; it is justified as ESC a says, at the current paper position, and the paper moves past it (in page mode: at the pen, and nothing moves). Data of another length prints nothing, changes nothing and is reported. A bit image (ESC *) is printed at the pen if it fits into the line and at the start of the next line otherwise, dot for dot, and leaves the pen at its right edge. Two mode bytes do not mean what the manual says.

*Model and proof.* Told.v: every reported command carries exactly the settings its bytes say (invariants over the parser); then C15/C16 and the layout of Renderer.v.

*Limits.* the mode bytes 51/52 of GS v 0 and 32 of ESC * are not what the manual says (_refuted)

* `C48_raster` (PropsPicture.v): GS v 0 m xL xH yL yH d1 ... dk in standard mode. After the text still waiting is printed (state [s1]) exactly one image is drawn: it has the announced number of dots times the magnification, every dot is black where its bit of the data is set and transparent elsewhere, it is placed by the justification and the paper moves down by exactly its height.
* `C48_raster_page` (PropsPicture.v): In page mode the image is put where the pen is and the pen stays there.
* `C48_raster_cut_short` (PropsPicture.v): Data cut short by the end of the stream: nothing is drawn, the error is reported, nothing moves.
* `C48_bit_image` (PropsPicture.v): ESC * m nL nH d1 ... dk in standard mode: the image comes next to what was printed before it if there is room and on the next line otherwise; columns of 8 or 24 dots, topmost dot in the most significant bit; afterwards the pen is at its right edge.
* `C48_quadruple_refuted` (PropsPicture.v): GS v 0 with m = 51 ("3", documented as double width and height like m = 3) is not magnified; m = 52 is instead.
* `C48_single_density_refuted` (PropsPicture.v): ESC * in 24-dot mode: the single density image (m = 32) should be as tall as the double density one (m = 33), and half as dense horizontally; it is three times as tall.

### C49 Barcodes come out bar for bar, in place (proved)
*Claim.* A barcode command (GS k) whose data its system accepts prints the modules of the symbol side by side: bars of the width GS w and the height GS h have set, starting where ESC a says, at the current paper position; bars that would leave the print area on the right are left out and nothing else is. The text for people is printed above, below, both or not at all as GS H says, in the font of GS f, above respectively below the bars without touching them; the paper moves past everything.

*Model and proof.* PenTheory.v: the band of paper text occupies; the drawing loop equals the list of all bars filtered by the right edge.

*Limits.* standard mode; the text is placed by C32 rules, its exact line breaks are not restated

* `C49_printed` (PropsBarcode.v): GS k in standard mode, after the text still waiting was printed (state [s1]): the modules of the symbol as bars of the width of GS w and the height of GS h, side by side, placed by the justification; what would leave the paper on the right is left out. With GS H the text is printed above, below or both, in the font of GS f; the paper moves past everything.

### C50 Which barcode data is accepted, and what is encoded (proved)
*Claim.* The system byte of GS k selects the symbology (0-6 and 65-73); data of an unacceptable length, data that is not valid text and data the encoder refuses print nothing, move nothing and are reported. CODE39 asterisks are dropped, CODE128 code set selections {A {B {C are handed over as such, of EAN-13 the first twelve digits are encoded. Not as documented: systems 74 and up never print, a wrong EAN-13 check digit is not noticed, and {{ in CODE128 data is not a brace.

*Model and proof.* SpecBarcode.v: systems, lengths, encoder inputs; the three string replacements of CODE128 equal one left-to-right reading.

*Limits.* the accepted half is C49_printed with SpecBarcode.barcode; the _refuted theorems are documented meanings the code does not have

* `C49_printed` (PropsBarcode.v): GS k in standard mode, after the text still waiting was printed (state [s1]): the modules of the symbol as bars of the width of GS w and the height of GS h, side by side, placed by the justification; what would leave the paper on the right is left out. With GS H the text is printed above, below or both, in the font of GS f; the paper moves past everything.
* `C50_refused` (PropsBarcode.v): Everything else prints nothing, moves nothing and is reported.
* `C50_gs1_refuted` (PropsBarcode.v): In particular nothing is ever printed for the systems 74 and up (GS1-128, GS1 DataBar, CODE128 auto).
* `C50_check_digit_refuted` (PropsBarcode.v): The thirteenth digit of an EAN-13 number is its check digit; the user expects a number with a wrong one to be refused. It is not: every thirteenth digit is accepted and gives the same bars.
* `C50_brace_refuted` (PropsBarcode.v)

### C51 QR symbols: the stored symbol is printed module for module (proved)
*Claim.* The model, level and module size set by GS ( k and the symbol of the last data stored persist until changed or ESC @; printing draws every dark module of the last stored symbol as a square of the module size chosen when it was stored, rows below each other, placed by the justification, at the paper position after the waiting text; printing without stored data draws nothing and is reported. Not as documented: the paper stays inside the last row, level bytes 49-51 mean L, data that cannot be encoded silently leaves the old symbol, and the print functions of all other two-dimensional symbols print the stored QR symbol or silently nothing.

*Model and proof.* SpecQr.v folds the settings over the command history; MemoryTheory.v: which commands touch the symbol and picture stores; the drawing loop equals the grid of dark modules.

*Limits.* standard mode, symbols that fit the paper width; the _refuted theorems are documented meanings the code does not have

* `C51_printed` (PropsQr.v): After any commands [l], GS ( k print (cn 49, fn 81) in standard mode prints the symbol of the last data stored since ESC @: every dark module as a square of the size set when the data was stored, in rows below each other, placed by the justification, at the paper position after the text still waiting (state [s1]). Without stored data nothing happens and an error is reported.
* `C51_other_symbols_refuted` (PropsQr.v): There is one store for all two-dimensional symbols, and only the QR functions fill it. So the print functions of PDF417, MaxiCode, GS1 DataBar, composite symbols, Aztec and DataMatrix print the QR symbol last stored, whatever data their own store function was given, or silently print nothing.
* `C51_overlap_refuted` (PropsQr.v): The paper is left inside the last row of modules: whatever is printed next overlaps it.
* `C51_level_refuted` (PropsQr.v): The level bytes of the ESC/POS command are 48 - 51; the three upper ones are not recognised: asking for level H (51) stores a symbol of level L.
* `C51_stale_refuted` (PropsQr.v): Data that cannot be encoded (here AA) leaves the symbol stored before: printing it is silent, with no error, and shows the old data.

### C52 Pictures kept in the printer: last definition wins, printed dot for dot (proved)
*Claim.* A picture defined under two key bytes in non-volatile or download memory stays until it is redefined or deleted under the same keys in the same memory, all pictures of that memory are deleted, or ESC @; other commands never change it. Printing it draws exactly the dots sent (the last plane that has a dot wins, in the colour of the plane), as a block placed by the justification below the waiting text; printing unknown keys prints nothing; data of the wrong size is reported at every printing. Not as documented: ESC @ deletes non-volatile pictures, widths that are not multiples of 8 never print, column format is read as rows, the scale bytes of the print command are ignored and colour 3 loses its blue.

*Model and proof.* SpecStored.v: last writer per key over the command history; invariant of the stored map (MemoryTheory.v), then C18_multicolour_raster and the layout of block images.

*Limits.* placement in standard mode; the _refuted theorems are documented meanings the code does not have

* `C52_printed` (PropsStored.v): Printing a picture that is kept prints it dot for dot as it was sent, as a block placed by the justification, at the paper position after the text still waiting (state [s1]); the picture is the one of the last definition under these keys in this memory. Its width must be a multiple of 8 (C52_odd_width_refuted).
* `C52_damaged` (PropsStored.v): A picture whose data does not have the announced size is reported when it is printed (not when it is defined), every time, and prints nothing.
* `C52_odd_width_refuted` (PropsStored.v): ... which includes every picture whose width is not a multiple of 8, sent as documented: a row takes a started byte, but only whole bytes are counted.
* `C52_initialize_deletes_refuted` (PropsStored.v): "Non-volatile": ESC @ deletes the pictures of both memories.
* `C52_column_refuted` (PropsStored.v): A definition in column format (function 68) is read as rows: the columns of this 8 x 8 picture are all empty but the last, and the last row is inked.

### C53 The picture buffer: what was collected is printed once, overlaid in order (proved)
*Claim.* Pictures added to the print buffer (GS ( L functions 112 and 113) stay there in order until the buffer is printed or ESC @; printing the buffer draws all of them on top of each other, each dot magnified as announced, the last picture uppermost, as one block placed by the justification below the waiting text, and empties the buffer. An empty buffer prints nothing. One damaged picture spoils the whole buffer: nothing is printed, one error is reported, and the buffer is empty afterwards.

*Model and proof.* SpecBuffer.v: the buffer as a fold over the history; every layer decodes by C15/C16, the overlay by C18.

*Limits.* standard mode, pictures of equal size; unequal sizes are C18_larger_layer_refused and C18_smaller_layer_misplaced_refuted

* `C53_printed` (PropsBuffer.v): Printing the buffer prints the pictures collected since it was last emptied on top of each other, the last one uppermost, as one block placed by the justification at the paper position after the text still waiting (state [s1]), and empties it (the next printing prints nothing: buffered is then []).
* `C53_empty` (PropsBuffer.v): An empty buffer prints nothing.
* `C53_damaged` (PropsBuffer.v)

### C54 Lines of text and the motion of the paper (proved)
*Claim.* Text whose words fit is set the way a typewriter sets it: the words of a line stand side by side from the pen's place, a tab moves the pen to the next tab stop, a line feed starts the next line at the left edge, lower by the line spacing or by the highest word of the line, whichever is more; the line is then shifted to the left, the middle or the right as its first word asks, by exactly the free space; characters of different height on one line share the line's box and, in one font, the base line to within a dot. ESC J, ESC d and the cuts print the waiting text and then move the paper by exactly what they ask for, with the pen at the left edge; ESC $ moves the pen to the asked column of the same line. Outside page mode and ESC @ no command ever moves the paper back and nothing is printed above the place where the paper stood.

*Model and proof.* SpecLines.v: rows of words with their places as a recursion over the lines; the flow loop equals it by induction over the words (PropsLines.v); paper motion is a relation preserved by every command (PropsMotion.v); heights and base lines by an exhaustive check of the 16 character heights and 7 fonts (PropsCells.v).

*Limits.* standard mode; lines that need wrapping are C32. Counterexamples: C54_tab_at_stop_refuted, C54_initialize_goes_back_refuted, C54_feed_overprints_refuted

* `C54_line` (PropsLines.v): every line of text is shifted as the first word on it asks for - not at all, into the middle, or to the right edge - and is as high as its highest characters.
* `C54_lines` (PropsLines.v): lines. A text in standard mode that is made of lines short enough to need no wrapping is printed line by line: on each line the words one after the other, a tab leading to the next tab stop; each line below the one before by the line spacing, or by the height of the highest characters on that one if that is more; each shifted by its justification.
* `C54_feed` (PropsLines.v): feeding. ESC J, ESC d and the cuts print the waiting text; then the paper moves by the dots, or the lines, they ask for - a cut by two lines - and the pen returns to the left edge.
* `C54_position` (PropsMotion.v): ESC $ nL nH puts the pen nL + 256 nH motion units from the left edge, on the same line.
* `C54_paper_moves_forward` (PropsMotion.v): the paper only moves forward. Whatever commands are sent in standard mode, other than ESC @ (which rewinds the paper, C19) and ESC L: the paper does not move back, and everything they print begins no higher than where the paper stood before and no lower than where it stands after them.
* `C54_cells` (PropsCells.v): characters of different size. On a line the characters of every word stay between the upper edge of the line and the lower edge of its highest characters, which are not moved; and the base lines of two words in the same font are at most a dot apart.
* `C54_base_line` (PropsCells.v)
* `C54_tab_at_stop_refuted` (DemoLines.v): A tab when the pen stands on a tab stop - here at the left edge - does not move to the next stop.
* `C54_initialize_goes_back_refuted` (DemoLines.v): ESC @ puts the paper back: what follows is printed over what was printed before.
* `C54_feed_overprints_refuted` (DemoLines.v): A feed over an unfinished line of high characters is too short to clear it: A twice as high, ESC J 10, b.

### C55 What is printed in page mode (proved)
*Claim.* In page mode everything is drawn on a page beside the paper, turned by ESC T and enlarged by ESC W. While page mode is on the paper does not move, whatever is printed; FF or ESC FF copies the page, turned upright, onto the sheet with its top left corner where the paper stands, pixel for pixel and leaving the rest of the sheet alone, and the paper then moves past the page area. The first image of every job shows exactly the drawing of all calls up to the first end of a sheet, page mode included. Not true: that a page shows something before its area was given, that the paper moves past what was printed when the page is turned, that enlarging the area leaves the page's contents in place.

*Model and proof.* SpecDesk.v describes the sheet and the page beside it: drawing (with the clipping quirk of C38), turning, enlarging, stamping. DeskTheory.v shows that the image renderer's two canvases always show that desk (at_desk, by induction over the calls, using put_pixels_shows_gen, flip_pixels_shows_gen and the rotations of C37). C55_image is C40 without the restriction to jobs that print no page. C55_page_printed uses an opacity invariant (every pixel has alpha 255 and byte channels) to turn blending into copying. PageTheory.v proves by cases over all handlers that in page mode only FF, ESC FF, ESC S and ESC @ touch the paper position.

*Limits.* the pixel-for-pixel copy assumes that painted colours are bytes (their type in the program). Counterexamples: the two _refuted theorems; C55_page_needs_an_area is the general form of the third

* `C55_sheet` (PropsDesk.v): The picture of a sheet
* `C55_image` (PropsDesk.v): The one image of a job that can show anything, for every job (page mode or not).
* `C55_page_printed` (PropsDesk.v): The moment the page is printed: the sheet shows exactly the page, upright, with its top left corner where the paper stands, and the rest of the sheet as before. The page keeps what it shows.
* `C55_image_shows_page` (PropsDesk.v): A job that ends with printing a page: its image shows the page where the paper stood, 20 pixels from the edge.
* `C55_paper_waits` (PropsDesk.v): In page mode nothing but printing the page, ESC S and ESC @ moves the paper or leaves page mode: what is printed there goes onto the page.
* `C55_print_page` (PropsDesk.v): ESC FF: the page is printed where the paper stands; the paper moves past it; page mode stays on.
* `C55_form_feed` (PropsDesk.v): FF in page mode does the same and leaves page mode.
* `C55_page_goes_where_the_paper_stood` (PropsDesk.v): Whatever is printed in page mode first (any commands that stay there), the page goes where the paper stood.
* `C55_print_page_outside` (PropsDesk.v): Outside page mode ESC FF prints nothing and moves nothing.
* `C55_page_needs_an_area` (PropsDesk.v)
* `C55_paper_moves_past_the_print_refuted` (PropsDesk.v)
* `C55_enlarging_keeps_the_page_refuted` (PropsDesk.v)

### C56 What stands in the rows of an HTML receipt (proved)
*Claim.* For a job whose text has no characters special to HTML and no page-mode print, the document of each sheet is the fixed page with one paragraph per thing printed, in order, and each paragraph shows exactly what was printed: a line of text is a run of pieces with the same characters, the same distance from the left edge, standing on a common base line to within a dot, and with exactly the classes that say how it is printed (bold, italic, struck, underlined, upside down, the stretch factors, the font, the ink and the ground), each class once; a drawing has exactly the rectangles that were printed, moved to the drawing's corner and inside it; a picture is an image at the same place and width with exactly the printed pixels handed to the PNG encoder.

*Model and proof.* The run of HtmlRenderer over the calls is related row by row to the calls (html_rows, event_row); the text of each row is compared with SpecRow.shows, which writes numbers by reading them back (writes) and lists classes by what they stand for (class_for).

*Limits.* Content of every row of the HTML document against SpecRow.shows; C56_demo is a mixed-size line and a picture, C56_applies meets all hypotheses.

* `C56_rows_show` (PropsRow.v): C56. Every paragraph of a document shows the thing printed: the words of a line each as far from the left as printed and on one base line, an image as far from the left and with just its dots, the bars of a symbol each at its place and of its size. [boxes] are the heights the things are printed at (see C44).

### C57 A browser shows the text of an HTML receipt the way it was printed (proved)
*Claim.* Reading the style sheet in the head of every document the way a browser does (the most particular rule that applies wins, then the last), a piece of text with the classes of C56 is shown bold, italic, in its ink on its ground, in the size of its font, struck through or underlined, upside down, and stretched in one direction or in both alike, exactly when it was printed so; and text is always printed in one of the printer's four colours on one of the four. Not true: that double underlining differs from single, that unequal stretches of both directions are shown, that upside down survives a stretch, that struck text keeps its underline.

*Model and proof.* SpecRow has a reader for the style sheet in the head (split at braces, semicolons and colons) and the cascade (value_of); the properties only look at the classes named in the sheet, so the 2^k class sets reduce to finitely many tests done by vm_compute inside a proof for all spans. The four colours are an invariant over histories (InkTheory).

*Limits.* Cascade of the template's style sheet, read by a small CSS reader in SpecRow (element, class and two-class selectors, which is all the template uses for text).

* `C57_look` (PropsLook.v): C57. The head of every document has a style sheet, and a browser that obeys it shows every piece of text (its classes are those of C56) the way it was printed: bold, italic, in its colour on its ground, in the size of its font, struck through or underlined, turned upside down, stretched in one direction or in both alike.
* `C57_four_colours` (PropsLook.v): Text is always printed in one of the printer's four colours on a ground of one of the four.
* `C57_double_underline_refuted` (PropsLook.v): One line below the text and two lines below it give the same document: a line is measured in pixels, and one point is two pixels, so the class for two lines is always there.
* `C57_stretch_refuted` (PropsLook.v): Text stretched to twice its width and three times its height is shown in its own width, and the right way up even if it was printed upside down.
* `C57_strike_refuted` (PropsLook.v)

### C58 Positions on the page in page mode (proved)
*Claim.* In page mode ESC W puts a print area that fits on the page as far from the left edge as asked and in the size asked for, and the pen where text starts in the current direction; while text runs to the right or to the top it is also as far from the upper edge as asked, and ESC T to one of these directions leaves the area where it is. ESC $ then puts the pen exactly n motion units right of the area's left edge (printing to the bottom only if the area begins at the edge of the page), GS $ exactly n below the area's upper edge, whichever way the page is turned, and GS \ moves it by a signed n across the lines, stopping at the page's edge; none of them changes the page, the area, the waiting text or draws anything. Outside page mode GS $ and GS \ do nothing. Not true: that turning the page around leaves the area where it is, that GS \ stays inside the area, that an area too large for a turned page is put where it is asked for.

*Model and proof.* SpecPosition maps places of the turned page to the upright one (upright) and names the area and the pen there. Each command is unfolded for any state; apply_logical_area is solved by cases on the direction (apply_fits).

*Limits.* Places are stated on the upright page (SpecPosition); with no text waiting. Counterexamples: the four _refuted theorems.

* `C58_horizontal` (PropsPosition.v): ESC $ nL nH puts the pen n motion units right of the left edge of the area, at the same height. Printing from top to bottom it counts from the left edge of the area only if the area is at the edge of the page.
* `C58_vertical` (PropsPosition.v): GS $ nL nH puts the pen n motion units below the upper edge of the area, as far right as before.
* `C58_relative` (PropsPosition.v): GS \ nL nH moves the pen n motion units across the lines (down, if text runs to the right; n has a sign), and never past the edge of the page.
* `C58_vertical_only_in_page_mode` (PropsPosition.v): Outside page mode GS $ and GS \ do nothing.
* `C58_area` (PropsPosition.v): ESC W: an area that fits on the page is put as far from the left edge as asked, has the size asked for, and the pen goes to where text starts. Printing to the right or to the top it is as far from the upper edge as asked, otherwise as far from the lower edge.
* `C58_area_enlarges` (PropsPosition.v): While text runs to the right, ESC W puts the area where it is asked for, on a page enlarged if needed.
* `C58_turn` (PropsPosition.v): ESC T: the same for the area given before, when the page is turned.
* `C58_area_stays_refuted` (PropsPosition.v): Turning the page around moves the area: asked for at a height of 20, it is at 80, 20 above the lower edge.
* `C58_third_direction_refuted` (PropsPosition.v): Printing to the bottom, ESC $ 50 puts the pen 140 dots right of the area's left edge.
* `C58_relative_stays_inside_refuted` (PropsPosition.v): GS \ -50 leaves the area at its upper edge.
* `C58_area_must_fit_refuted` (PropsPosition.v): An area that does not fit on the turned page is not put where it is asked for: at 10, 20 it is asked for, at 10, 0 it is.

### C59 A job that prints can also be drawn (proved)
*Claim.* Every standard-mode job that C33 shows to print without a panic (same list of exceptions) also becomes an image: ImageRenderer::render_from_bytes returns, for any fonts whose glyph sizes and offsets are unsigned, as long as no drawing call is made beyond 6,400,000 dots of paper (800 metres); in particular whenever the paper budget of the commands stays below that. It also becomes an HTML document: HtmlRenderer::render_from_bytes returns if the picture encoder takes every non-empty picture and no picture of the job is empty. Both limits are necessary: a gentle job on a longer roll panics in the image renderer (it prints in the dry run), and a gentle job with a picture of no rows panics in the HTML renderer although it prints and is drawn as an image.

*Model and proof.* PropsDraw.v, PropsDrawHtml.v (SpecDraw.v; SpotTheory.v, DrawTheory.v). The totality proof of C33 is strengthened to an invariant on every recorded call: positions and widths stay on the 609-dot paper, heights below 65536 plus the paper position. Each drawing routine (rect, put_pixels, flip, glyph, span, svg, words, push_row) is then shown total on such calls for canvases whose size fits 32 bits. Demos: the receipt of C33 for arbitrary fonts/encoders. Refutations: a long roll (ESC d repeated after large line spacing) overflows the image buffer size; a GS v 0 picture of height 0 makes the HTML renderer unwrap None.

*Limits.* C59_image/C59_short_job: image renderer; C59_html: HTML renderer; the refutations show both limits are needed. Page-mode jobs are outside (as in C33).

* `C59_image` (PropsDraw.v): a job made of harmless commands, on at most 800 metres of paper, becomes an image: whatever the fonts look like, the image renderer does not crash on any of the calls it gets.
* `C59_short_job` (PropsDraw.v): A bound that can be read off the job: 255 dots for each character, 65 025 for each command that feeds paper, 200 000 for each graphics command.
* `C59_html` (PropsDrawHtml.v): the same for HTML, if the picture encoder takes every picture that is not empty and no picture is.
* `C59_longer_paper_refuted` (PropsDraw.v)
* `C59_empty_picture_refuted` (PropsDrawHtml.v)

### C60 The printed sheet, dot for dot (proved)
*Claim.* Every dot of the image of a printed sheet follows from the drawing calls of the job by whole-number arithmetic alone: inks mix by the product of the channels rounded to the nearest value (clear ink changes nothing and no ink makes a dot lighter), a character is the font library's coverage faded between its two colours, drawn at the larger of its two enlargements and shrunk to its cell, words of a line are lowered, underlined and struck through at fixed fractions of their height, pictures are put on as they are, and upside down turns the box of the word or picture over. This holds for every sheet of every job and every font library whose coverages are bytes. (The only unevenness, six columns of characters drawn sevenfold and shrunk to three or six times, is part of the statement.) Every picture a job draws has opaque, clear or black dots.

*Model and proof.* PropsScene.v (SpecScene.v; HueTheory.v, GlyphTheory.v, PixelTheory.v, SceneTheory.v). Refines C40: each stroke of SpecImage is shown equal to a whole-number picture operation. The f32 channel formulas are shown equal to round-half-free integer division for all bytes (256*256(*256) reduced by monotone error bounds), glyph cells and scaling by loop invariants, the base line and middle fractions by evaluating all 16*16 sizes and fonts; that pages stay opaque and inks are printable is an invariant of all histories including stored graphics.

*Limits.* Exact, all f32 rounding eliminated. Sheets printed in standard mode (page-mode pages are C41/C38). The scene is specified in SpecScene.v without any renderer code; non-vacuity: Example C60_demo computes single dots of a job's image through the theorem.

* `C60_sheet` (PropsScene.v): the dots. What a job leaves on the paper is, dot for dot, the scene of SpecScene: whole numbers only, no rounding steps of the code, for every font library whose coverages are bytes.
* `C60_first_image` (PropsScene.v): The first image of a job (up to its first cut).
* `C60_ink` (PropsScene.v): Ink: what [multiply_foreground] leaves on opaque paper is the exact rounded product, for every ink the printer has (opaque, clear, or black of any strength).
* `C60_inks` (PropsScene.v): Every picture and every rule a job draws has such ink.
* `C60_never_lighter` (PropsScene.v): No ink makes a dot lighter, and white paper takes the colour of the ink.

### C61 The settings and the text are those of the command manual (proved)
*Claim.* At any point of any command stream, all 26 settings of the printer (font, size, emphasis, italics, underline, strike, invert, upside down, smoothing, ink, background and shadow colours, justification, line spacing, code table, character set, tab stops, barcode height, width, text and font, dot density and motion units) are exactly what a flat manual - one line per command, reading only the command's bytes and parameters - yields when applied, in order, to the power-on values: every command of the manual has its full effect, and no other command, text run, picture, symbol or page operation changes a setting. Consequently the text a job draws is exactly, in order, the characters of its text runs, decoded by the code table and character set in force, in order, each in the style (font, cell, size, line thickness for the dot density, colours) the manual's settings ask for at that place, and, for every GS k whose data give a barcode, the barcode's text as often as GS H asks for it, in that style but in the font of GS f (CODE128 data with two braces in a row, which C50 refutes, excepted).

*Model and proof.* SpecManual.v is a flat manual of the settings: 26 named settings, their power-on values, a table from command bytes to orders, and the effect of each order. ManualTheory.v: the table is compared with the crate command table by computation, each handler (context update or device command, depending on the command kind) is shown to have the order effect, everything else to leave the settings alone; sub-commands only by the dot density. PropsManual.v: induction over the stream, and the text by C32 with the style and decoder recomputed from the settings. PropsTitles.v adds the texts of the barcodes: which data give one is SpecBarcode (C49, C50), compared with the crate by barcode_gives and barcode_refuses.

*Limits.* The manual (SpecManual.v) reads command bytes and parameters only; the theorem is an equality of the whole flat settings record with a fold over the stream. C61_whole_text and C61_whole_job give the text with the texts of barcodes (SpecTitles.v; the symbol encoders are parameters; CODE128 data with a doubled opening brace, refuted in C50, are outside). Demos: C61_demo, C61_titles_demo.

* `C61_settings` (PropsManual.v): after any run of commands the settings are exactly what the manual's table, applied command by command to the power-on settings, says: every command that sets something sets it as described, nothing else changes a setting.
* `C61_job` (PropsManual.v): ... in particular a whole job, from whatever the jobs before it left behind
* `C61_text` (PropsManual.v)
* `C61_printed` (PropsManual.v): ... and a whole job on a fresh renderer prints it all
* `C61_whole_text` (PropsTitles.v): everything printed or waiting to be printed is, in order, the text of the stream and of its barcodes.
* `C61_whole_job` (PropsTitles.v)

### C62 What the output renderer is told besides the drawing (proved)
*Claim.* The calls an output renderer receives that draw nothing - every device command with its arguments, begin and end of a sheet, the collection of errors, begin, shape, printing and end of a page - come in exactly the order the commands of the stream ask for, whatever text, pictures and symbols are drawn in between: nothing is announced twice, dropped or out of order, a cut comes before the feed it includes, a form feed ends a page in page mode and a sheet otherwise, and printing the picture buffer announces that it is cleared. Page mode is on after ESC L until FF or ESC S and at no other time. Leaving page mode by ESC S is not announced (refuted: every page begun is announced as ended).

*Model and proof.* SpecProtocol.v: a table from command bytes to device acts, what the device is to do in or out of page mode, and the calls that accompany each device command. ProtocolTheory.v: the table is compared with the crate command table by computation, text and pictures only add drawing calls, each device command adds its announcement; page mode by step_effect. PropsProtocol.v: induction over the stream.

*Limits.* Equality of the whole sequence of non-drawing calls with a list computed from the command bytes; the payload of the page-shape call is left to C23/C24.

* `C62_protocol` (PropsProtocol.v): the calls that draw nothing are, in order and with their arguments, those the commands ask for: whatever is drawn in between, nothing is announced twice, dropped or out of order.
* `C62_page_mode` (PropsProtocol.v): Page mode is on after ESC L until FF or ESC S, and at no other time.
* `C62_job` (PropsProtocol.v): ... for a job on a renderer that was used before, the new announcements
* `C62_page_end_refuted` (PropsProtocol.v): Every page announced as begun should be announced as ended. It is not when the page is left by ESC S: here page mode is off again and the renderer was never told.

### C63 Pages in an HTML receipt (proved)
*Claim.* For every job, with or without page mode, the HTML receipt has exactly one row for each thing printed outside page mode and one for each printed page, in order, each as high as the thing and as far below the row before as on paper. The row of a page is a picture handed to the PNG encoder with exactly the dots of the page as it was drawn, turned and enlarged, turned so that it can be read, at the place where the paper stood. It is dot for dot the page in the image of the same job made by the image renderer.

*Model and proof.* The page of the HTML renderer is tracked with the same page (leaf) as in C55: every call changes it as SpecDesk says (PrintoutTheory.html_leaf), its size stays a 32 bit number, its dots in a row are the bytes of the canvas (leaf_dots). Induction over the calls gives the rows; C55_image_shows_page gives the comparison with the image.

*Limits.* Generalises C56 (which excluded printed pages) to all jobs; C63_same_page compares the two renderers. The PNG encoder and the fonts are parameters.

* `C63_rows` (PropsPrintout.v): C63. The rows of an HTML receipt, for jobs with and without page mode: every printed page has a row of its own, a picture of exactly the page, as far from the left and from the top as the paper stood.
* `C63_same_page` (PropsPrintout.v): ... and its dots are those of the page in the image of the same job: the two renderers print the same page.

### C64 Page mode, dot for dot (proved)
*Claim.* Every dot of every printed sheet, with page mode used in any way, follows from the drawing calls by whole-number arithmetic alone. What is drawn in page mode goes on a page with edges: ink that begins outside the page is not drawn, rows that reach past its end lengthen it, changing the direction turns it, enlarging it keeps what is on it, and printing it covers (not inks) the part of the sheet it lies on. The picture of a page in an HTML receipt has exactly these dots too.

*Model and proof.* SpecStage gives the sheet and the page beside it in whole numbers (press, fade, dot of SpecScene; the edges of the page as in SpecDesk). StageTheory proves, call by call, that the modelled renderer does the same (staged/stage_run); with C55 every dot of every sheet follows, and with C63 every dot of a page picture in HTML.

*Limits.* SpecStage: the sheet (as in SpecScene) and the page beside it, both in whole numbers. Generalises C60 to jobs that print pages. C64_html_page gives the picture a page becomes in an HTML receipt (with C63).

* `C64_sheet` (PropsStage.v): C64. Every sheet of every job: each dot is the dot of the stage, whole numbers only.
* `C64_image` (PropsStage.v): The first image of a job.
* `C64_html_page` (PropsStage.v): The pictures of pages in an HTML receipt (C63) have the dots of the page of the stage.

### C65 A receipt of plain text, from the bytes to the dots (proved)
*Claim.* Send lines of printable ASCII, each ended by LF and short enough for the paper, after one ESC ! n or after nothing: the job gives exactly one image, 649 dots wide and 108 dots plus the pitches of the lines high, and every dot of it is known. Character k of a line stands in the k-th cell; the cell is 12 x 24 dots (9 x 17 in font B), doubled as bits 4 and 5 of n say; a line is as high as its cells, but at least 24 dots, and an empty line 24; the grey of a dot is what the font library's coverage says at that place of the cell, bold as bit 3 says; with bit 6 one row of each cell is black; everything else is white. Up to 12,000 bytes such a job never fails.

*Model and proof.* SpecPlain.v says in terms of the lines and n alone which character covers a dot (cell_of), how black it is (blackness) and how high the sheet is. PlainRun.v: the bytes of typed lines are a stream of C01 items, so the parser reports one text and one LF command per line, and each collects a span; the spans fall into the words of the lines. PlainJob.v: the context after Begin Print and ESC ! n, by cases on the five bits; the End Print flush puts the rows of C54 on the sheet. PlainTheory.v: words side by side are the cells of the line, rows below each other the cells of the text (stamps_cell). PropsPlain.v: C40 for the height (no stroke of a row reaches below its pitch), C60 for the dots, C59 for the existence.

*Limits.* From raw job bytes to every dot of the image; the specification (SpecPlain.v) is a page long and mentions no state of the printer. Composes the parser (C01), decoder (C26), layout (C54), image (C40) and dot (C60) theorems. The font library is a parameter (fonts_fine: sizes and offsets unsigned, coverages bytes).

* `C65_typed` (PropsPlain.v): plain lines after one ESC ! n.
* `C65_plain` (PropsPlain.v): plain lines and nothing else.
* `C65_prints` (PropsPlain.v)

### C66 A receipt of styled, aligned lines, feeds and cuts, from the bytes to the dots (proved)
*Claim.* Take any sequence of parts, each of which is a line of printable text with its own alignment (ESC a), its own print mode (ESC !) and a line feed, or a feed by lines (ESC d) or dots (ESC J), or a cut (GS V, with or without feed). If the lines are short enough for the paper, rendering the bytes of the parts gives exactly one image, 649 dots wide, 108 dots higher than the parts together; every dot of it is determined: it is black to the degree the font library says at the matching dot of the character in whose cell it lies (with the underline in its row), and white anywhere else. Centred lines are in the middle, right aligned ones end at the right edge, and every line begins where the parts before it end. Up to 29000 parts on up to 800 metres of paper, rendering does not crash.

*Model and proof.* SpecReceipt: parts (line with alignment and mode, feeds, cuts), their bytes, heights, and the cell in which a dot lies. ReceiptRun: the parser theorem for the parts, then induction over the parts with the invariant "one finished line may be waiting"; PropsReceipt: the picture of the rows (shifted by the alignment) is the picture of the spec, cell by cell, and the sheet is not lower than the parts.

*Limits.* SpecReceipt gives the bytes of a part, its height, the indent of a line and the cell a dot lies in; C66_receipt: the one image of the job, its size and all its dots; C66_prints: up to 29000 parts and 800 m the job does become an image. Demo: C66_demo, C66_demo_prints. The font library is a parameter (fonts_fine).

* `C66_receipt` (PropsReceipt.v): lines of their own style and alignment, line and dot feeds, and cuts.
* `C66_prints` (PropsReceipt.v)

### C67 A receipt of styled, aligned lines, feeds and cuts, from the bytes to the HTML document (proved)
*Claim.* Take any sequence of parts as in C66 (lines of printable text without an opening brace, each with its own alignment and print mode; feeds by lines or dots; cuts). Rendering the bytes of the parts as HTML gives exactly one document, every character of which is determined: the fixed page; the style with the paper's width and margins and, below the last line, as much blank paper as the feeds and cuts after it take; an empty paragraph of 108 dots; and for every line with characters one paragraph, as high as the characters, with a gap above it of exactly the paper fed since the end of the line before, containing one element per word (a word ends with its space), with the word's text, its distance from the left edge (alignment and characters before it counted), and the classes of its style: b for bold, w2/h2 and str for double width/height, u ud for underlined, fb for the small font. Up to 29000 parts, rendering does not crash if the picture encoder does not.

*Model and proof.* The calls of such a job come from ReceiptRun (C66). `lines_in` shows that the HTML renderer makes of them one row per line; `words_out` and `row_out` give the row: elements, classes (`classes_mode`, all flag combinations by computation) and the drop of 0 (f32 arithmetic). `parts_in` is the induction over the parts with the end of the last paragraph; `bare_*` show that there is nothing for the template to replace. The specification (SpecReceiptHtml) writes the paragraphs directly from the parts.

*Limits.* End to end in HTML: the exact text of the one document for every receipt of styled, aligned lines, feeds and cuts. Non-vacuity: C67_demo and C67_demo_prints give the slip of C66 as text.

* `C67_document` (PropsReceiptHtml.v): one document, every character of which is known.
* `C67_prints` (PropsReceiptHtml.v): Such a receipt does become a document, if it is not too long.

### C68 A receipt with pictures, from the bytes to the dots (proved)
*Claim.* Take any sequence of elements, each of which is a part of a receipt as in C66 (an aligned, styled line of printable text with a line feed, a feed, a cut) or a picture sent with GS v 0 under an alignment of its own (ESC a), in any of the four magnifications, complete and not wider than the paper. Rendering the bytes gives exactly one image, 649 dots wide and 108 dots higher than the elements together, and every dot of it is determined: in a picture it is black exactly if its bit of the data is set (rows of whole bytes, the most significant bit leftmost, each bit stretched to its one or two by one or two dots), in the cell of a character it is as black as the font library says, and it is white anywhere else. A picture stands where its alignment puts it, directly below what was sent before it, and what is sent after it begins directly below it. Up to 16000 elements on up to 800 metres of paper, rendering does not crash.

*Model and proof.* SpecSlip: elements (parts of SpecReceipt and GS v 0 pictures), their bytes and heights, the place of a picture, the bit at a dot. SlipRun: the parser theorem for the elements (a raster command takes exactly its announced bytes), induction over the elements with the invariant of ReceiptRun, the picture step from C48 (size, place, pixels); PropsSlip: the scene of the calls is, element by element, the picture of the spec, and the sheet is not lower than the elements.

*Limits.* SpecSlip gives the bytes of an element, its height, the place of a picture and the bit of the data at a dot; C68_slip: the one image of the job, its size and all its dots; C68_prints: up to 16000 elements and 800 m the job does become an image. Demo: C68_demo, C68_demo_prints (two pictures, a line, a feed and a cut). The font library is a parameter (fonts_fine).

* `C68_slip` (PropsSlip.v): text, feeds, cuts and pictures.
* `C68_prints` (PropsSlip.v)

### C69 A receipt with pictures, from the bytes to the HTML document (proved)
*Claim.* Take any sequence of elements as in C68 (styled, aligned lines without an opening brace, feeds, cuts, and complete GS v 0 pictures not wider than the paper). Rendering the bytes as HTML gives exactly one document, every character of which is determined: it is the document of C67 with, for every picture, one paragraph of the picture's height, with a gap above it of exactly the paper fed since the paragraph before ended, containing one image: its distance from the left edge as its alignment says, its width in dots, and as data what the picture encoder makes of the picture's dots, which are given to it row by row, from left to right, black and opaque where the bit of the data is set and fully transparent where it is not. Up to 16000 elements, if every picture has a row, rendering does not crash if the picture encoder does not.

*Model and proof.* SpecSlipHtml: the dots of a picture as the bytes given to the encoder, its image tag, the paragraphs of the elements. PropsSlipHtml: the calls of SlipRun are rows of the document one by one (parts by PropsReceiptHtml, pictures by encode_html_image and the pixels of C48); no brace, so the template does not change them.

*Limits.* End to end in HTML with pictures: the exact text of the one document for every receipt of lines, feeds, cuts and GS v 0 pictures. The PNG encoder is a parameter (its text has base64 characters; it takes pictures that have dots). Non-vacuity: C69_demo and C69_demo_prints give the slip of C68 as text.

* `C69_document` (PropsSlipHtml.v): one document, every character of which is known.
* `C69_prints` (PropsSlipHtml.v)

### C70 A receipt with pictures and barcodes, from the bytes to the dots (proved)
*Claim.* Take any sequence of entries, each of which is an element of C68 (an aligned, styled line of text, a feed, a cut, or a GS v 0 picture) or a barcode sent with GS k (function B, systems 65 to 73) under an alignment of its own, whose data has a symbol that fits the paper. Rendering the bytes gives exactly one image, 649 dots wide and 108 dots higher than the entries together, a barcode taking 40 dots, and every dot of it is determined: in a barcode every module of the symbol is 3 dots wide and 40 high, black for a bar and white for a gap, beginning where the alignment puts the symbol as a whole, and everywhere else the dots are those of C68. Up to 16000 entries on up to 800 metres of paper, rendering does not crash.

*Limits.* SpecTicket adds barcodes to the elements of SpecSlip: their bytes (ESC a, GS k function B), the width of the symbol and the module at a dot. C70_ticket: the one image of the job, its size and all its dots; C70_prints: up to 16000 entries and 800 m the job does become an image. The symbol is the one SpecBarcode assigns to the data (encoders of the external crates are parameters, UPC-E is modelled). EAN-13 data is assumed to be ASCII: the slice of its first twelve bytes crashes inside a longer character, see C33. No GS H, GS h, GS w before: C49 has these. Demo: C70_demo, C70_demo_prints.

* `C70_ticket` (PropsTicket.v): text, feeds, cuts, pictures and barcodes.
* `C70_prints` (PropsTicket.v)

### C71 A receipt with pictures and barcodes, from the bytes to the HTML document (proved)
*Claim.* Take any sequence of entries as in C70 (styled, aligned lines without an opening brace, feeds, cuts, complete GS v 0 pictures, and GS k barcodes with at least one bar). Rendering the bytes as HTML gives exactly one document, every character of which is determined: it is the document of C69 with, for every barcode, one paragraph 40 dots high, with a gap above it of exactly the paper fed since the paragraph before ended, containing one drawing: it begins at the first bar of the symbol as placed by the alignment, is as wide as from there to the end of the last bar, and holds one black rectangle, 3 dots wide and 40 high, for every module that is a bar, in their order and at their places, and nothing for the gaps. Up to 16000 entries, if every picture has a row, rendering does not crash if the picture encoder does not.

*Limits.* End to end in HTML with pictures and barcodes: the exact text of the one document for every receipt of C70. A symbol without any bar is excluded: the code puts its empty paragraph at the top of the sheet (row 0) and loses the gaps. Encoders of barcodes and pictures are parameters. Non-vacuity: C71_demo and C71_demo_prints give the ticket of C70 as text.

* `C71_document` (PropsTicketHtml.v): one document, every character of which is known.
* `C71_prints` (PropsTicketHtml.v)

## Testing the theorems against wrong programs
`seeded/mutate.py` applies an edit to a scratch copy of the model, rebuilds everything downstream with
each failing proof replaced by an admission, and reports which theorems no longer prove;
`seeded/LOG.jsonl` has one line per attempt.
