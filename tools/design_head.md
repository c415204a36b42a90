# Formal model of zachzurn/thermal in Rocq (Coq 8.16.1)

The sources are read as text; nothing is built or run. `rocq/theories` holds three kinds of files:
models of the code (every definition cites the file and lines it models), small specification files
`Spec*.v` written in terms of the printer and its formats and not of the code, and proofs
(`*Theory*.v`, `*Proofs.v` lemmas; `Props*.v` the theorems). This file is generated by
`tools/design.py` from `properties.jsonl`, `MANIFEST.json`, the comments above the theorems and
`tools/design_*.md`.

## Conventions of the model
* Integers are `Z`. Fixed-width arithmetic (u8/u16/u32/i16/usize) is written with explicit checks:
  where Rust's dev/test profile panics (overflow, underflow, index or slice out of bounds, unwrap on
  None, division by zero), the model returns the error value `Panic`. Release builds wrap instead of
  panicking on overflow; that profile is not modelled.
* `Vec<T>` is `list T`; `&mut self` methods return the new value; trait objects
  (`Box<dyn CommandHandler>`) become an inductive `handler` carrying the private state; the calls the
  renderer makes on the output renderer become a trace of events, each with a snapshot of the context
  it was given.
* f32 arithmetic is exact (round to nearest even on rationals, Float32.v) wherever the code uses it,
  except `(a as f32 / 2.0).floor()` in the canvas, written as integer halving (exact below 2^24).
* A job is a byte list whose elements are bytes (`bytes_ok`). A `history` is any sequence of commands
  that the parser can report, executed one after the other by one renderer, from the fresh state.

## What is modelled
| code | model |
|---|---|
| thermal_parser: parser.rs, command.rs, command_sets/esc_pos.rs, all custom `push` handlers, subcommands/mod.rs and both sub-command tables | Command.v, CommandSet.v, Parser.v |
| graphics.rs (raster, column, multi-colour, scaling, merging, colours, barcode and 2D-code drawing geometry) | GTypes.v, Graphics.v |
| decoder/*.rs (all tables, transcribed by script), UTF-8 decoding of the standard library | DecoderTables.v, Decoder.v, Utf8.v |
| context.rs; every `apply_context`, `get_text`, `get_graphics`, `get_device_command` of commands/ and subcommands/ | Context.v, Handlers.v |
| text.rs | Text.v |
| utils/barcodes/upce.rs | Upce.v |
| thermal_file.rs (reader and writer; `parse_binary` always returns nothing and is not modelled) | ThermalFile.v |
| thermal_renderer: renderer.rs | Renderer.v |
| image_renderer/mod.rs, thermal_image.rs | ImageRenderer.v, ThermalImage.v |
| html_renderer/mod.rs, thermal_html.rs, templates/thermal.html | HtmlRenderer.v, HtmlTemplate.v |

Not modelled: the debug profile of the canvas (coloured outlines), the
`transmit`/debug strings of handlers that only feed `println!`. External crates are parameters over
which every theorem quantifies: the symbol encoders (`barcoders`, `qr_code`; record `encoders`), the
glyph rasteriser (`fontdue`; `fonts`) and the PNG/base64 encoders (`png`, `base64`; `pngs`). They are assumed to return (not to panic); C33
also assumes that symbols have sane sizes (`encoders_ok`). The EAN-13 constants UPC-E takes from
`barcoders` are those of the standard. `from_utf8`, `from_utf8_lossy`, `lines`, `trim`,
`from_str_radix`, `replace` are modelled from their documentation.

## Trusted base
* Coq 8.16.1's kernel, including its `vm_compute` machine.
* The reading of the Rust sources into Gallina.
* No axioms. `Assumptions.v` (generated by `tools/assumptions.py`) runs `Print Assumptions` on every
  theorem listed in MANIFEST.json; the build prints "Closed under the global context" for each. A
  check of all loaded libraries lists seven standard-library parameters
  `Coq.ssr.ssrunder.Under_rel.*`, which come with `ssreflect`'s `under` tactic and are used by no
  theorem.
* No functors, module types, plugins, or kernel switches.
