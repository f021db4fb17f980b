# Formal model of shade40/Slate in Rocq (Coq 8.16.1)

`properties.jsonl` holds the properties in English, `MANIFEST.json` maps each to its theorems,
`seeded/LOG.jsonl` records the wrong programs the theorems were tested against.  The source
modelled is /repo/slate (Python) and two of the scripts in /repo/experiments, read as text; nothing of it was run.

## 1. Trusted base

* Coq's kernel (coqc 8.16.1; `coqchk` accepts the compiled files).  No axiom, `Admitted`, module
  functor, plugin or disabled check of our own.
* The axioms `Print Assumptions` lists, all from the standard library (they come with the real
  numbers, which Flocq's binary64 is specified with):
  `ClassicalDedekindReals.sig_forall_dec`, `ClassicalDedekindReals.sig_not_dec`,
  `FunctionalExtensionality.functional_extensionality_dep`, `Classical_Prop.classic`.
  Section 6 lists them per theorem.
* Flocq (definitions and theorems about binary64; no axioms of its own).
* The faithfulness of the model to the source, definition by definition.  Each definition cites
  the lines it models.
* The specification files (`*Spec.v`, `Vt.v`): what the theorems mean is said there.

Hypotheses rather than axioms: the platform's `pow` is a parameter (`env_pow`); the theorems that
depend on it (C08, C11) assume it accurate to 2^-40 (`pow_accurate`) and, where stated, monotone.

## 2. Method

Shallow, total, computable Gallina functions mirror the Python branch by branch.  Strings are lists
of code points, Python ints are `Z`, floats are IEEE binary64 (Flocq `binary_float 53 1024`),
exceptions are values (`res A := Ok a | Err e`).  Stateful functions return the new state *and* the
result, so what an exception leaves behind is visible.  Loops without an evident bound carry fuel;
theorems either show the fuel suffices or quantify over it.

A property is stated over a small specification that does not use the model's helpers: a terminal
emulator for what is displayed (`Vt.v`), real arithmetic for colors, row-major positions for text,
queues for events, the published mouse, UTF-8 and SGR encodings for input.  Files:

* `XModel.v`: definitions only, transcribed from the source.
* `XSpec.v`: specification notions, independent of the model.
* `XProofs.v`: lemmas.
* `PropX.v`: the theorems `Cnn_...`, each `exact lemma`, `Print Assumptions`, and `Example`s showing
  that hypotheses can be met and what the result is on a concrete value.

A property the code does not have is kept in `properties.jsonl` as users would expect it, with
status `partial`: the counterexample is a theorem `..._refuted` (or a universal negative, when the
code never has it), beside the part that does hold, `..._partial`.  A property that holds on an
exactly known domain is stated on that domain, with the boundary in the statement and a theorem for
it.

## 3. What is modelled

| source | model |
|---|---|
| color.py | all of it (`ColorModel.v`): construction, parsing, hex, ansi in the four color spaces, equality and hash key, blend/lighten/darken, HLS conversion, hue_shift, complement, groups, luminance, brightness, contrast; `__repr__` in `ShowModel.v`. |
| color_info.py, key_names.py | the tables, transcribed (`ColorTab.v`, `KeyTab.v`) |
| core.py | color spaces and their detection, `width`, mouse events, keys, feeder, POSIX reading, timeouts, Windows reading, palette and pixel size replies, control sequences (`SpaceModel.v`, `CoreModel.v`, `TimeoutModel.v`); reading and the color queries of `Terminal()` step by step, with threads (`TtyModel.v`); feeding from another thread (`FeedModel.v`) |
| event.py | all of it (`EventModel.v`) |
| span.py | all of it (`SpanModel.v`, `AnsiRe.v`, `__repr__` in `ShowModel.v`); SVG coordinates as floats (`SvgGeoModel.v`) and as printed (`SvgTextModel.v`, `ReprModel.v`) |
| screen.py | all of it (`ScreenModel.v`), including the LRU cache of `get_characters` with aliasing of the cached lists; writing from generators (`LazyModel.v`); writing while another thread draws (`RaceModel.v`) |
| \_\_main\_\_.py | `run_debug` (`MainModel.v`), `run_getch`, `run_size` (`KeyUseModel.v`) |
| examples/mouse_playground.py | the loop (`PlayModel.v`) |
| terminal.py | `Terminal` (`TermModel.v`): size and events, color space, context managers, title, writes, draws, queries, the SVG document (`SvgDocModel.v`) |

## 4. Simplifications

* `int()`, `float()` and `str.isdigit` know the digits and blanks of Unicode 14 (CPython 3.11, tables
  in `PyBase.v`); CPython's limit of 4300 digits is not modelled.  `float()` sees only texts
  containing a point, so inf/nan spellings are not needed.  `str.lower` is ASCII: the texts it is
  compared with contain no letter to which a character beyond ASCII is lowered.
* Most models treat colors and spans as plain values.  `ObjModel.v` has them as objects, with the
  caches of `Color.ansi`, `Color.complement`, `Color.contrast`, the color groups, `Color.blend` and
  `Span.get_characters` and the strings a Span computes when made.  C95 proves that programs see
  the same in both as long as the color space stays; C94 says what happens when it does not.  What
  remains trusted: different keys of `lru_cache` have different hashes.
* The drawing theorems use colors that have not been read in another color space.
* `Color.ansi` reads the color space of the global `terminal`; the model passes it in `env`.
* Comparisons of tuples containing NaN alphas: CPython's identity shortcut is ignored.
* A write to the stream either happens completely or raises in `TermModel.v`; C109 has draws of which the terminal receives any part.
* Terminal listeners are those that take note, read the size or raise; callbacks of `Event` in
  `EventModel.v` are arbitrary.
* `Vt.v` gives every printable character one column. `WideSpec.v` gives it 0, 1 or 2 and C105 says what changes; what remains of a wide character of which one half was overwritten is not modelled.
* SVG numbers are columns and rows (`ScreenModel.v`), floats (`SvgGeoModel.v`), preformatted strings without markup (`SvgDocModel.v`) or the text Python prints (`SvgTextModel.v`). `repr` of a float (`ReprModel.v`) is the shortest decimal of at most 17 digits that reads back; `:.4f` is for floats that are not negative.
* `None` as a cursor inside `write_bulk` data is not modelled (it raises at once).
* `ReshapeModel.v` (`Terminal.size` with listeners that paint; experiments/resize.py): the listeners do not read the size themselves, and experiments/resize.py is its two functions and the loop body; the context managers around it are those of C50 and C51, `sleep` is nothing. A window changes only between turns of the loop.
* `repr` of a string is modelled with `str.isprintable` for characters beyond ASCII as a parameter.
* `CommandSpec.v` recognises commands as the state machine of the VT500 series does, 8-bit controls obeyed or not; it does not say what a command does. `AltSpec.v` adds a normal and an alternate buffer (mode 1049 as xterm has it) to any behaviour of the other commands; a sequence that sets 1049 together with other modes only changes the buffer. C108's histories are writes, clears, resizes and draws of one screen; its refutations cover the other outputs.
* Threads (`RaceModel.v`, `TtyModel.v`, `FeedModel.v`): the interpreter changes threads between the steps listed in the models; one operation on a list, dictionary or StringIO is one step. `ResizeRaceModel.v` (a resize in one thread, a write in another): building the matrices of a write, comparing and storing a cell, and a whole draw are one step each; nothing scrolls. `CrewModel.v` (any number of threads writing): the steps of each are the same; the cache of characters is not shared.
* C110 draws several screens on one emulator, each draw whole.
* Signals: an interrupt or alarm may arrive at the program points listed at the models.
* Strings hold code points; no grapheme clusters, wide or combining characters (Slate counts code
  points).  The emulator `Vt.v` gives every printable code point one cell.

* In `CoreModel.v` a call of getch reads the bytes that arrive after it has set the mode
  (`tty.setcbreak` discards those that wait); `TtyModel.v` has the waiting bytes and every timing, and
  C101 proves that each call is one of `CoreModel.v`.  In `TtyModel.v` nothing is fed and no signal
  arrives; `FeedModel.v` adds one feeding thread.

* `ViewSpec.v` states what a viewer of an SVG document shows: the `fill` of the rectangle behind a piece, and the `fill` of the rule of its class, or else its own, for the text. CSS and SVG beyond that are not modelled.
* `SpanValueModel.v`: the equality and the hash of the dataclass `Span`. A hash is the tuple that is hashed. That tuple comparison takes an object as equal to itself without calling `==` is left out (it only matters for an alpha that is NaN).
* `ExportModel.v`: in Terminal.export_svg the two readings of the window size may see different windows; both default colors have been read before (`__post_init__` does).
* `MarkupModel.v` (experiments/markup.py): the message about an unknown tag is an event with the tag;
  of the exceptions of the contrast of a background, that of an overflowing power is left out (the
  Span raises afterwards in any case).  A `$` before a last line break is left out where no line
  break can be.  The interactive loop of its `__main__` block is not modelled.

Not modelled: the argument parser of `__main__.py`, `os.system("stty")`'s effect beyond the echo
flag; of /repo/experiments, `graveyard.py` (fragments that use names nothing defines), `screen.py`
(imports a package `undertone` that does not exist) and `color_info.py` (the tables of
slate/color_info.py without Slate's four names).

## 5. Files

| file (rocq/theories) | contents |
|---|---|
| `PyBase.v` | Python values and builtins used by Slate. Definitions only (no proofs). A Python [str] is the list of its code points. |
| `PyLemmas.v` | Lemmas about PyBase. |
| `SplitLemmas.v` | Lemmas about split_str, contains and replace. |
| `F64.v` | Python [float] as IEEE-754 binary64, via Flocq. Definitions only. |
| `ColorTab.v` | color_info.py, transcribed verbatim. Definitions only. |
| `SpaceModel.v` | core.py:183-227 and 275-302: color spaces. Definitions only. |
| `ColorModel.v` | color.py. Definitions only (no proofs). |
| `AnsiRe.v` | The two regular expressions used on styled text, as leftmost / lazy scanners. Definitions only. |
| `SpanModel.v` | span.py. Definitions only (no proofs). |
| `KeyTab.v` | key_names.py, transcribed by a script from the source text. Definitions only. |
| `CoreModel.v` | core.py: width, mouse and key decoding, the feeder, the POSIX read loop, terminal replies. Definitions only (no proofs). |
| `TimeoutModel.v` | core.py: timeout and getch_timeout (POSIX signals), and the Windows branch of getch. Definitions only (no proofs). |
| `EventModel.v` | event.py. Definitions only (no proofs). |
| `ScreenModel.v` | screen.py. Definitions only (no proofs). |
| `TermModel.v` | terminal.py (and the caching of Color.ansi, color.py:268-269). Definitions only. |
| `Vt.v` | Specification, independent of Slate: what a terminal emulator does with the bytes it receives (ECMA-48 / xterm subset). |
| `SpaceSpec.v` | Specification of color space detection and order, independent of the model's helpers. |
| `SpaceProofs.v` | Lemmas about color space detection and order. |
| `PropSpace.v` | C54, C55: color space detection and order (core.py:183-227, 275-302). |
| `EventSpec.v` | Specification of event emission as a queue, independent of indices and fuel. |
| `EventProofs.v` | Lemmas about event emission. |
| `PropEvent.v` | C44: events (event.py). |
| `ColorSpec.v` | Specification notions for colors, independent of the model's helpers. |
| `ColorProofs.v` | Colors: descriptions, hex, ansi, equality (no real arithmetic). |
| `ColorProofs2.v` | Colors: exceptions of descriptions, equality and hashing, layers, tables. |
| `BlendSpec.v` | Specification notions for blending: values of floats, interpolation. |
| `FloatLemmas.v` | IEEE binary64 facts: what each operation computes, as a rounded real. |
| `BlendProofs.v` | blend, lighten, darken. |
| `PropColor.v` | C01, C04, C05, C09, C12, C13, C14: colors (color.py, color_info.py). |
| `PropBlend.v` | C02, C03: blending (color.py). [fin x v]: the binary64 [x] is finite with real value [v]. |
| `PaletteSpec.v` | Specification: distance between colors, nearest palette entry. |
| `PaletteProofs.v` | 16-color and 256-color approximation. |
| `PropPalette.v` | C06, C07: approximation of colors in STANDARD and EIGHT_BIT terminals (color.py). |
| `HueSpec.v` | Specification: the textbook HLS hue rotation over the reals. |
| `HueProofs.v` | hue_shift: the floating point code stays within 2^-40 of the textbook rotation. |
| `HueProofs2.v` | hue_shift: the whole function. |
| `HueProofs3.v` | Consequences for hue_shift: totality, bounds, greys, whole and third turns, complement. |
| `HueProofs4.v` | complement and the color groups |
| `DecSpec.v` | Specification notions for decimal texts such as "0.25". |
| `DecProofs.v` | Lemmas: the quotient of two integers is correctly rounded; reading decimal texts. |
| `ColorProofs3.v` | Lemmas: named colors with an alpha value, blending with the complement. |
| `PropHue.v` | C10, C58, C59: hue rotation, complement and color groups (color.py). [fin x v]: the binary64 [x] is finite with real value [v]. |
| `PropAlpha.v` | C72: the alpha part of color descriptions (color.py). [fin x v]: the binary64 [x] is finite with real value [v]. |
| `GreySpec.v` | Specification: luminance, lightness and contrast of colors, as real numbers; what is assumed of the C library's [pow]. |
| `GreyProofs.v` | Luminance, lightness, contrast: accuracy of the binary64 computations. |
| `GreyProofs2.v` | Luminance, contrast and the grey ramp. |
| `GreyProofs3.v` | The grey ramp of NO_COLOR terminals. |
| `PropGrey.v` | C08, C11: greyscale terminals and contrast (color.py). |
| `KeySpec.v` | Specification: the SGR (1006) mouse protocol, UTF-8, terminal replies. |
| `KeyProofs.v` | Mouse reports, keys, the feeder, reading. |
| `KeyProofs2.v` | Replies of the terminal: default colors and pixel size. |
| `KeyProofs3.v` | Sessions of the feeder, whole reads, terminal mode. |
| `TimeoutSpec.v` | Specification notions for reading with a timeout and on Windows. |
| `TimeoutProofs.v` | Lemmas: reading with a timeout, reading on Windows. |
| `PropTimeout.v` | C73-C77: getch_timeout and getch on Windows (core.py). |
| `PropKey.v` | C48-C53: mouse reports, keys, feeding, reading, terminal replies (core.py, terminal.py). |
| `SpanSpec.v` | Specification of what styled text is: how a terminal shows a span, which SGR parameters mean what, which texts a grouping stands for. |
| `SpanProofs.v` | Lemmas: what a terminal shows of a printed span, widths, mutation, slices, characters. |
| `SpanProofs2.v` | Lemmas: how colors are displayed, widths, mutation, slices, characters, escaping. |
| `ParseProofs.v` | Lemmas: parsing of styled lines. |
| `ParseProofs2.v` | Lemmas: SGR parameters as the parser reads them, round trips, exceptions. |
| `ParseProofs3.v` | Reading printed spans back (C21) and the exceptions of the parser (C23). |
| `ParseProofs4.v` | Lemmas: what follows a reset does not parse. |
| `GroupProofs.v` | Lemmas for Span.group (C24). |
| `SpanProofs3.v` | Remaining small lemmas for C15-C23. |
| `PropSpan.v` | C15-C25: spans, their printing, parsing, slicing and grouping (span.py, core.py). |
| `ScreenSpec.v` | Specification of a screen: where text lands, what a cell holds, what is pending. |
| `ScreenProofs.v` | Proofs about matrices, the change buffer and the layout of writes. |
| `ScreenProofs2.v` | Proofs about write_bulk without scrolling: cell by cell. |
| `ScreenProofs3.v` | Proofs about what writes leave in cells. |
| `ScreenProofs4.v` | The screen properties: shape, layout, counts, repetition, last writer. |
| `ScreenProofs5.v` | The screen properties: layout, counts, repetition, last writer. |
| `ScreenProofs6.v` | The screen properties: shape along every history, resize, clear, render order. |
| `ScreenProofs7.v` | The screen properties: layers, rendering, the cache along histories. |
| `ScreenProofs8.v` | The screen properties: the characters of a line, resizing and clearing, histories of writes. |
| `DrawSpec.v` | Specification of drawing: the picture a history of writes and clears describes, independent of cells, pending sets and escape sequences; and the terminal that received ... |
| `DrawProofs.v` | Drawing: one cell, then all pending cells. |
| `DrawProofs2.v` | Drawing: histories of writes, clears and draws. |
| `DrawProofs3.v` | Drawing: the colors of the terminal, full redraws, draws after a resize. |
| `ScrollProofs.v` | Writing below the last row. |
| `ScrollProofs2.v` | What the terminal shows after a write below the last row. |
| `ScrollProofs3.v` | Writes after a clear. |
| `PropScreen.v` | C26-C34, C37, C39, C41, C42: the screen (screen.py). |
| `PropDraw.v` | C35, C36, C38, C40, C60: what the terminal displays (screen.py, Terminal.draw). |
| `TermSpec.v` | Specification vocabulary for the terminal properties: histories of calls, the bytes that open and close each context manager (xterm's control sequences, spelled out), ... |
| `TermProofs.v` | Lemmas about Terminal: sizes and listeners, context managers, titles, failed draws. |
| `TermProofs2.v` | Lemmas about Terminal: context managers, titles, failed draws, cached color sequences. |
| `TermProofs3.v` | Lemmas about Terminal: nested managers, synchronized updates, string payloads, SVG background. |
| `PropTerm.v` | Properties of the terminal: size, context managers, titles, failed draws, color spaces. |
| `SvgSpec.v` | Specification vocabulary for SVG exports. |
| `SvgProofs.v` | Lemmas about SVG exports. |
| `PropSvg.v` | Properties of SVG exports. |
| `SvgDocModel.v` | The document made by Terminal.export_svg (terminal.py:42-60, 420-472). |
| `SvgDocSpec.v` | Specification: a part of XML 1.0 as a relation between element trees and the texts that write them, and the tree a terminal export should be. |
| `SvgDocProofs.v` | Lemmas about the document of a terminal export. |
| `SvgDocProofs2.v` | The grammar of SvgDocSpec is unambiguous; characters XML forbids. |
| `PropSvgDoc.v` | C78: the document of a terminal export. |
| `SvgGeoModel.v` | The coordinates of an SVG export, in binary64 (screen.py:395-419, span.py:48-58, 498-540, terminal.py:449-450). |
| `SvgGeoSpec.v` | Specification notions for the coordinates of an SVG export, in real numbers. |
| `SvgGeoProofs.v` | Lemmas about the coordinates of an SVG export. |
| `PropSvgGeo.v` | C79-C81: where the pieces of an SVG export are. |
| `Utf8Spec.v` | Specification notions for input that is not UTF-8. |
| `Utf8Proofs.v` | Proofs about input that is not UTF-8. |
| `PropUtf8.v` | C83: input that is not UTF-8. |
| `MainModel.v` | __main__.py: the report of [slate debug] (lines 16-97). Definitions only (no proofs). |
| `MainSpec.v` | Specification notions for the report of [slate debug]. |
| `MainProofs.v` | Proofs about the report of [slate debug]. |
| `MainProofs2.v` | Proofs about the report of [slate debug]: the whole report. |
| `PropMain.v` | C82: the report of [slate debug]. |
| `MiscProofs.v` | Corollaries combining the terminal with drawing. |
| `PropMisc.v` | Properties that combine the terminal with drawing. |
| `KeyUseModel.v` | core.py: Key objects; __main__.py: the commands [slate getch] and [slate size]. Definitions only (no proofs). |
| `KeyUseSpec.v` | Specification: the keys of an xterm, what they send and what they are called; Python's string literals. |
| `KeyUseProofs.v` | Lemmas about the names of keys, Key objects, [repr] and the commands. |
| `PropKeyUse.v` | C84-C87: using keys (core.py Key, __main__.py getch and size). |
| `RedrawSpec.v` | Specification of histories with full redraws (Terminal.draw(redraw=True)). |
| `RedrawProofs.v` | Histories with full redraws. |
| `SessionSpec.v` | Specification notions for programs that write and draw through a Terminal. |
| `SessionProofs.v` | Lemmas about programs that write and draw through a Terminal. |
| `PlayModel.v` | examples/mouse_playground.py, inside its context managers. Definitions only (no proofs). |
| `PlaySpec.v` | Specification notions for the mouse example. |
| `PlayProofs.v` | Lemmas about the mouse example. |
| `PropSession.v` | C88-C90: programs that use a Terminal. |
| `PropRedraw.v` | C92: full redraws among other draws (Terminal.draw(redraw=True)). |
| `ReprModel.v` | Printing of Python floats: [str(x)] (shortest digits that read back as x, CPython's float_repr_style 'short') and [f"{x:.4f}"]. Definitions only (no proofs). |
| `ReprSpec.v` | Specification: reading decimal numerals such as -12.5 and 1.5e-07, as exact numbers. |
| `ReprProofs.v` | Lemmas about the printing of floats. |
| `SvgTextModel.v` | The text of an SVG export with the numbers as Python prints them (span.py:498-540, screen.py:350-420, terminal.py:420-472). |
| `SvgTextSpec.v` | Specification: where the numbers written in an SVG export put its pieces. |
| `SvgTextProofs.v` | Lemmas about the text of SVG exports. |
| `PropSvgText.v` | C91: the text of an SVG export, numbers included. |
| `TransSpec.v` | Specification of drawing translucent content: the picture of a history whose writes put translucent layers over other content, in terms of characters, attributes and ... |
| `TransProofs.v` | Drawing translucent content. |
| `PropTrans.v` | C93: drawing translucent content (screen.py:168-306, Terminal.draw). |
| `ObjModel.v` | Color and Span objects with their identities and everything that is cached on or about them: [Color.ansi], [Color.complement], [Color.contrast] and the three color ... |
| `ObjSpec.v` | Programs over colors, spans and a screen when colors and spans are plain values: nothing is remembered about them, and every sequence is that of the color space in force. |
| `ObjProofs.v` | Proofs that the caches of color and span objects cannot be told from the outside while the color space stays the same. |
| `ObjProofs2.v` | Proofs about writing to a screen with color objects: the same as with colors as values. |
| `ObjProofs3.v` | Proofs about whole programs over color objects: while the color space stays as it is, the caches cannot be seen. |
| `ObjProofs4.v` | Proofs about color objects when the color space changes: a sequence once read stays. |
| `PropObj.v` | C94, C95: color objects, their caches and the forced color space. |
| `ShowModel.v` | [repr()] of colors and spans (color.py:157-162, span.py:271-289). Definitions only (no proofs). [pr] is [str.isprintable] for characters above 126, as in KeyUseModel.v. |
| `ShowSpec.v` | Specification: reading a Python expression made of calls with positional and keyword arguments, tuples, numbers, strings and True / False / None, and evaluating it where ... |
| `ShowProofs.v` | Lemmas: reading expressions does not depend on the bound; the tokens of printed numbers, strings and colors. |
| `ShowProofs2.v` | Lemmas: printed colors and spans as arguments of calls. |
| `ShowProofs3.v` | Lemmas: what the printed form of a span evaluates to. |
| `ShowProofs4.v` | Lemmas: which printed forms evaluate to equal objects and which do not. |
| `PropShow.v` | C97, C98: what the [repr()] of colors and spans evaluates to. |
| `NumSpec.v` | Specification notions for the numbers Python reads: the grammars of [int] and [float] in its language reference, on the digits of every script. |
| `NumProofs.v` | Lemmas: [int] and [float] read exactly the texts of their grammars. |
| `NumProofs2.v` | Lemmas: [float] reads exactly the texts of its grammar, correctly rounded. |
| `NumProofs3.v` | Lemmas: the numbers of a pixel size answer. |
| `DescSpec.v` | Specification of color descriptions: what every text means. |
| `DescProofs.v` | Lemmas: color descriptions mean what the specification says. |
| `PropDesc.v` | C99: what color descriptions mean (color.py). The grammar is in DescSpec.v, the numbers in NumSpec.v. |
| `LogSpec.v` | Specification of logs: lines written one below the other and drawn one by one. |
| `LogProofs.v` | Logs longer than the window. |
| `PropLog.v` | C100: logs longer than the window (screen.py, terminal.py). |
| `TtyModel.v` | core.py: _getch_posix and get_default_color step by step, against a terminal whose bytes arrive at any time. Definitions only (no proofs). |
| `TtySpec.v` | Specification notions for input that arrives at any time. |
| `TtyProofs.v` | Lemmas: calls of getch against input that arrives at any time. |
| `StartProofs.v` | Lemmas: the color queries of Terminal(), in every order of events. |
| `QueryProofs.v` | Lemmas: answers to queries read with getch_timeout. |
| `PropTty.v` | C101-C103: input that arrives at any time (core.py, terminal.py). |
| `FeedModel.v` | core.py: feed against getch, step by step, the feeding done by another thread. Definitions only (no proofs). |
| `FeedSpec.v` | Specification notions for feeding. |
| `FeedProofs.v` | Proofs about feeding. |
| `PropFeed.v` | C104: feeding getch from another thread (core.py feed). |
| `WideSpec.v` | Specification, independent of Slate: a terminal that draws some characters two columns wide (East Asian ideographs, emoji) and others in no column of their own ... |
| `WideProofs.v` | Wide characters: proofs. |
| `WideProofs2.v` | Wide characters: histories, and one run of cells. |
| `WideProofs3.v` | Wide characters: where the text of a write appears. |
| `PropWide.v` | C105: characters that take two columns, or none (screen.py). |
| `StepModel.v` | span.py: slices with a step. Definitions only (no proofs). |
| `StepSpec.v` | Specification of slices with a step: which characters are taken, and in which order. |
| `StepProofs.v` | Slices with a step: proofs. |
| `PropStep.v` | C17, C18, C87: colors by description, slices with a step, iteration, [slate size] (span.py, __main__.py). |
| `LazyModel.v` | screen.py: writing from iterables that run code while they are consumed (generators). Definitions only (no proofs). ScreenModel.v has the case of lists. |
| `LazySpec.v` | Specification of writing from iterables: the kinds of iterables. |
| `LazyProofs.v` | Proofs about writing from iterables that run code while they are consumed. |
| `PropLazy.v` | C106: writing from generators (screen.py, terminal.py). |
| `RaceModel.v` | screen.py, terminal.py: one thread writes to the screen while another draws it. Definitions only (no proofs). |
| `RaceSpec.v` | Specification of writing while another thread draws: what each cell last got, and what was drawn. |
| `RaceProofs.v` | Proofs about writing while another thread draws. |
| `PropRace.v` | C107: writing while another thread draws (screen.py, terminal.py). |
| `ColorProofs4.v` | Lemmas: the body of a sequence with an alpha value after it. |
| `CommandSpec.v` | Specification, independent of Slate: the commands a terminal recognises in what it receives, after the state machine of the VT500 series (ECMA-35, ECMA-48), and the ... |
| `CommandProofs.v` | Proofs about the commands in what is drawn. |
| `CommandProofs2.v` | Proofs about the commands in what is drawn: parsed strings, and whole histories. |
| `CommandProofs3.v` | Proofs about the commands in what is drawn: the ways text does reach the terminal. |
| `PropCommand.v` | C108: text that is drawn does not command the terminal (span.py, color.py, screen.py, terminal.py). |
| `CutProofs.v` | Lemmas: every instant of a draw. |
| `CutProofs2.v` | Every instant of a draw, and what a full redraw repairs. |
| `PropCut.v` | C109: every instant of a draw, and draws that are cut short (screen.py, Terminal.draw). |
| `WindowSpec.v` | Specification of several screens shown at different places of one terminal: each is given by its size, its origin and its fill; histories name the screen each operation ... |
| `WindowProofs.v` | Several screens on one terminal. |
| `PropWindow.v` | C110: several screens on one terminal (Terminal.origin, Terminal.draw). |
| `ResizeRaceModel.v` | screen.py: one thread writes a span to the screen while another resizes or clears it, and the screen is drawn in between. Definitions only (no proofs). |
| `ResizeRaceSpec.v` | Specification of writing while another thread resizes or clears the screen. |
| `ResizeRaceProofs.v` | Proofs about writing while another thread resizes the screen: each thread alone, and which writes fail. |
| `ResizeRaceProofs2.v` | Proofs about writing while another thread clears the screen: what is to be drawn and what the screen holds. |
| `PropResizeRace.v` | C111: writing while another thread resizes or clears the screen (screen.py). |
| `AltSpec.v` | Specification, independent of Slate: a terminal with a normal and an alternate screen buffer (private mode 1049 of xterm). What its other commands do is left open. |
| `AltProofs.v` | Proofs about the alternate buffer. |
| `PropAlt.v` | C112: what was on the terminal before the alternate buffer (terminal.py). |
| `CrewModel.v` | screen.py: any number of threads write spans to one screen, which is drawn in between. Definitions only (no proofs). |
| `CrewSpec.v` | Specification of several threads writing to one screen. |
| `CrewProofs.v` | Proofs about several threads writing to one screen. |
| `CrewProofs2.v` | Proofs about several threads writing to one screen: threads that store different cells. |
| `CrewProofs3.v` | Proofs about several threads writing to one screen: threads that store the same cell. |
| `PropCrew.v` | C113: several threads write to one screen (screen.py). |
| `EconSpec.v` | Specification of what a draw costs. |
| `EconProofs.v` | Proofs about what a draw costs. |
| `PropEcon.v` | C114: what a draw costs (README.md:29, README.md:80; screen.py:136-348). |
| `ReadmeModel.v` | The animation of README.md:45-85. Definitions only (no proofs). |
| `ReadmeSpec.v` | Specification notions for the README's animation. |
| `ReadmeProofs.v` | Lemmas about the README's animation. |
| `PropReadme.v` | C115: the animation in the README (README.md:45-85). |
| `TileSpec.v` | Specification of a full redraw (Terminal.draw(redraw=True)) of text with attributes: what was written in each cell, and the attributes a terminal shows when the cells ... |
| `TileProofs.v` | Lemmas: a full redraw, exactly. |
| `PropTile.v` | C116: exactly what a full redraw shows (screen.py, Terminal.draw(redraw=True)). |
| `PenSpec.v` | Specification of what a terminal shows after any sequence of writes, clears, draws, full redraws, and attributes turned on by the program itself: what was written in ... |
| `PenProofs.v` | Lemmas: what is written in a cell; drawing cells with any pen. |
| `PenProofs2.v` | Lemmas: what a terminal shows after any events. |
| `PenProofs3.v` | Lemmas: leaked pens, recovery, programs on a terminal. |
| `PropPen.v` | C117: exactly what a terminal shows after any writes, clears, draws and full redraws (screen.py, terminal.py). |
| `ReshapeSpec.v` | Specification of what a terminal shows when the window or the screen changes its size between writes, clears, draws and full redraws: what the screen holds, what the ... |
| `ReshapeModel.v` | terminal.py: reading the size with listeners that paint; experiments/resize.py. Definitions only. |
| `ReshapeProofs.v` | Lemmas: what a terminal shows when windows and screens are resized between other events. |
| `ReshapeProofs2.v` | Lemmas: repainting after the window got another size. |
| `PainterSpec.v` | Specification of programs that repaint when the window gets another size: turns of a main loop, in each of which the window may have changed, the size is read, and ... |
| `PainterProofs.v` | Lemmas: programs that repaint when the window gets another size. |
| `PainterProofs2.v` | Lemmas: loops that read the size and draw, with a listener that paints. |
| `UvProofs.v` | Lemmas: experiments/resize.py. |
| `PropReshape.v` | C118: exactly what a terminal shows when the window or the screen gets another size, and programs that repaint then (screen.py, terminal.py, experiments/resize.py). |
| `LoneSpec.v` | Specification of writing a Span by itself: [write(span)] instead of [write([span])]. A Span is an iterable of Spans of one character each. |
| `LoneProofs.v` | Lemmas: Spans written by themselves. |
| `LoneProofs2.v` | Lemmas: Spans written by themselves on screens that scroll. |
| `PropLone.v` | C119: Spans written by themselves, [write(span)] instead of [write([span])] (screen.py, span.py). |
| `LineSpec.v` | Specification of written text with line breaks. |
| `LineProofs.v` | Lemmas: text with line breaks and no attributes. |
| `LineProofs2.v` | Lemmas: text with attributes and a line break. |
| `PropLine.v` | C120: line breaks in written text (screen.py, span.py). |
| `MarkupModel.v` | experiments/markup.py: spans from a markup language. Definitions only (no proofs). |
| `MarkupSpec.v` | Specification of the markup language of experiments/markup.py: what a text in it is, which words of a tag mean what, which spans the text stands for. |
| `MarkupProofs.v` | Proofs about experiments/markup.py, part 1: the texts, the words of the tags. |
| `MarkupProofs2.v` | Proofs about experiments/markup.py, part 2: the spans, their styles, what is printed. |
| `MarkupProofs3.v` | Proofs about experiments/markup.py, part 3: what is printed; the colors. |
| `PropMarkup.v` | Spans from markup (experiments/markup.py), and what a terminal shows of them. |
| `GroupSpec.v` | Specification of what Span.group keeps of a row of cells: everything, but the mark "opaque" and the colors of cells that look, without their colors, like the character ... |
| `GroupProofs2.v` | Span.group: what is kept of any row (C24_exact). |
| `ViewSpec.v` | Specification: what somebody sees who looks at an SVG export, and how that compares with a terminal. |
| `ViewProofs.v` | What an SVG export shows (C122): the cells of a screen after a history, as stored characters. |
| `ViewProofs2.v` | What an SVG export shows (C122): the pieces over the positions of a screen. |
| `ViewProofs3.v` | What an SVG export shows (C122): whole screens. |
| `ViewProofs4.v` | Exporting after a scroll (C122): the emptied cells make Span.group fail. |
| `ViewProofs5.v` | What an SVG export shows (C122): translucent content. |
| `PropView.v` | C24 and C122: what Span.group keeps of a row, and what an SVG export shows (span.py:300-416, screen.py:350-420, terminal.py:420-472). |
| `ExportModel.v` | Terminal.export_svg as a method: what it reads, in which order (terminal.py:420-472). Definitions only. |
| `ExportSpec.v` | Specification: the picture an SVG export is, and which of its pieces are in it. |
| `ExportProofs.v` | Lemmas about Terminal.export_svg. |
| `PropExport.v` | C123: Terminal.export_svg and the size of the window (terminal.py:141-164, 420-472). |
| `SpanValueModel.v` | span.py:216-257: the equality and the hash that the dataclass decorator gives to Span. Definitions only. |
| `SpanValueSpec.v` | Specification: spans as values. |
| `SpanValueProofs.v` | Lemmas about the equality of spans. |
| `PropSpanValue.v` | C124: spans are values. The theorems; proofs in SpanValueProofs.v. |
| `FlowSpec.v` | Specification of several Spans with line breaks written by one call. |
| `FlowProofs.v` | Lemmas: several Spans with line breaks in one write. |
| `PropFlow.v` | C125: several Spans with line breaks in one write (screen.py:193-244). Proofs in FlowProofs.v. |
| `SwapSpec.v` | Specification: what a caller of a screen gets to see, and calls that differ in equal spans only. |
| `SwapProofs.v` | Equal spans are interchangeable in calls of a screen. |
| `SwapProofs2.v` | Equal spans are interchangeable in exports. |
| `PropSwap.v` | C126: equal spans are interchangeable in calls of a screen. The theorems; proofs in SwapProofs.v. |

## 6. Assumptions per theorem

* none (closed under the global context) (156 theorems):
  `C01_constructor`, `C101_busy_refuted`, `C101_exact`, `C101_lost_refuted`, `C101_none_lost_partial`, `C102_asks`, `C102_ends_partial`, `C102_in_order`, `C102_race_refuted`, `C102_silent_refuted`, `C103_early_refuted`, `C103_late_partial`, `C104_kept_partial`, `C104_lost_refuted`, `C104_next_partial`, `C104_ongoing_refuted`, `C108_title_refuted`, `C112_entry_refuted`, `C112_nested_refuted`, `C112_session`, `C114_sent`, `C116_look`, `C121_bare_hex_refuted`, `C121_beyond`, `C121_css`, `C121_hex`, `C121_index`, `C121_meaning`, `C121_names`, `C121_one_meaning`, `C121_rgb`, `C122_unexpressed`, `C12_equality_meaning`, `C12_equivalence`, `C12_hash`, `C13_as_alpha`, `C13_as_background`, `C14_palette`, `C17_as_color`, `C17_as_flag`, `C17_as_hyperlink`, `C17_mutate`, `C17_reset_after`, `C18_contains`, `C18_cut`, `C18_index`, `C18_iter`, `C18_reset_after`, `C18_reversed`, `C18_same_style`, `C18_slice`, `C18_split`, `C18_step`, `C22_terminal`, `C24_colored`, `C24_empty`, `C24_plain`, `C25_ampersand`, `C25_escape`, `C25_injective`, `C25_safe`, `C34_render`, `C37_resize`, `C39_clear`, `C41_cursor_refuted`, `C43_first`, `C43_raising`, `C43_reading`, `C44_clear_stops`, `C44_each_once_in_order`, `C44_emission`, `C44_other_results`, `C44_registration`, `C44_self_appending_diverges`, `C45_leaving`, `C45_nested`, `C46_first`, `C46_later`, `C46_stack`, `C47_lost_refuted`, `C47_redraw_partial`, `C47_success`, `C48_any_input`, `C48_middle_click`, `C48_reports`, `C49_ctrl_letters`, `C49_home_end`, `C49_lost`, `C49_named`, `C49_raises`, `C49_raw`, `C49_report_decoded`, `C49_verbatim`, `C50_in_turn`, `C50_overwritten`, `C50_second_feed`, `C51_end_spins`, `C51_interrupt`, `C51_mode`, `C51_mode_lost`, `C51_reads`, `C51_stray`, `C51_waits`, `C52_answer_ignored`, `C52_answer_partial`, `C52_answer_refuted`, `C52_garbled_refuted`, `C52_silent`, `C53_reply_read`, `C54_detection`, `C54_detection_determined`, `C55_names`, `C55_total_order`, `C56_setting`, `C61_echo_refuted`, `C61_modes_refuted`, `C62_refuted`, `C63_refuted`, `C64_answers`, `C64_garbled`, `C64_query`, `C64_silent`, `C64_total`, `C66_strike`, `C66_styles`, `C68_inline_refuted`, `C70_file_refuted`, `C73_escapes`, `C73_in_time`, `C73_results`, `C73_silent`, `C74_bytes_lost`, `C74_feed_lost`, `C74_mode`, `C74_mode_lost`, `C75_zero_partial`, `C75_zero_refuted`, `C76_signals_refuted`, `C77_arrows`, `C77_raises`, `C77_reads`, `C78_unique`, `C83_exact`, `C83_inputs`, `C83_invalid`, `C83_surrogate`, `C84_missing_refuted`, `C84_named_partial`, `C84_swapped_refuted`, `C85_only`, `C85_pasted_refuted`, `C86_equality_refuted`, `C86_lists`, `C86_sets_refuted`, `C87_size`, `C96_controls`

* `ClassicalDedekindReals.sig_forall_dec`, `FunctionalExtensionality.functional_extensionality_dep` (1 theorems):
  `C10_own_hue`

* `ClassicalDedekindReals.sig_forall_dec`, `ClassicalDedekindReals.sig_not_dec`, `FunctionalExtensionality.functional_extensionality_dep` (1 theorems):
  `C06_determined`

* `ClassicalDedekindReals.sig_forall_dec`, `ClassicalDedekindReals.sig_not_dec`, `Classical_Prop.classic`, `FunctionalExtensionality.functional_extensionality_dep` (312 theorems):
  `C01_operations`, `C02_ends`, `C02_interpolates`, `C02_monotone`, `C02_total`, `C03_amount`, `C03_darken`, `C03_lighten`, `C03_negative`, `C03_ten_default_shades`, `C04_hex_alpha`, `C04_hex_channels`, `C04_hex_round_trip`, `C05_alpha`, `C05_alpha_index`, `C05_true_color`, `C06_exact`, `C06_nearest`, `C07_cube`, `C07_cube_not_kept`, `C07_grey_not_kept`, `C07_kept`, `C07_monotone`, `C08_codes`, `C08_grey`, `C08_monotone`, `C09_cut_short`, `C09_description`, `C09_exceptions`, `C100_bottom_partial`, `C100_log_refuted`, `C100_room_refuted`, `C100_screen`, `C100_short`, `C100_spans_refuted`, `C102_colors_partial`, `C102_key_refuted`, `C102_pieces_refuted`, `C105_columns_refuted`, `C105_narrow_partial`, `C105_run`, `C105_scroll_refuted`, `C105_timing_refuted`, `C106_eager`, `C106_grows_refuted`, `C106_raises_partial`, `C106_scrolled_refuted`, `C106_shrinks_late_refuted`, `C106_shrinks_partial`, `C107_draw`, `C107_drawn_partial`, `C107_kept_partial`, `C107_lost_refuted`, `C107_write`, `C108_controls_refuted`, `C108_description_refuted`, `C108_number_refuted`, `C108_redraw_refuted`, `C108_spans`, `C108_strings_partial`, `C109_draw_refuted`, `C109_instant`, `C109_redraw_partial`, `C109_redraw_refuted`, `C10_grey`, `C10_no_identity`, `C10_rotates`, `C10_thirds`, `C10_total`, `C110_overlap`, `C110_windows`, `C111_ghost_refuted`, `C111_grow_refuted`, `C111_resize`, `C111_same_size`, `C111_shrink_refuted`, `C111_synced_partial`, `C111_write`, `C112_drawn`, `C112_redraw_refuted`, `C113_apart`, `C113_left`, `C113_never_fails`, `C113_tangled_refuted`, `C113_truthful_partial`, `C113_write`, `C114_back_refuted`, `C114_frame`, `C114_returned`, `C114_terminal`, `C114_untouched`, `C115_animation`, `C115_readme_refuted`, `C116_attributes`, `C116_cut`, `C116_redraw`, `C116_right`, `C117_leak`, `C117_recovery`, `C117_recovery_unreset`, `C117_session`, `C117_shown`, `C117_unreset`, `C118_kept`, `C118_painter`, `C118_redraw`, `C118_redraw_painter`, `C118_repaint`, `C118_same_text_refuted`, `C118_shown`, `C118_terminal`, `C118_uv`, `C119_below`, `C119_climbs`, `C119_drawing`, `C119_last_cell`, `C119_mixed`, `C119_redraw`, `C11_choice`, `C11_mid_grey`, `C11_readable`, `C120_column_refuted`, `C120_lines`, `C120_misplaced`, `C120_shown`, `C120_two_lines`, `C121_adjacent_refuted`, `C121_color_refuted`, `C121_lost_refuted`, `C121_printed`, `C121_styles_partial`, `C121_trailing`, `C121_unprinted`, `C122_colors`, `C122_document`, `C122_films`, `C122_films_terminal`, `C122_gap_refuted`, `C122_scrolled_refuted`, `C122_terminal`, `C122_text`, `C123_cut_refuted`, `C123_raising_refuted`, `C123_snapshot`, `C123_window_partial`, `C124_colors_refuted`, `C124_equivalence`, `C124_hash_partial`, `C124_hash_refuted`, `C124_interchangeable`, `C124_meaning`, `C124_spaces_refuted`, `C125_cut`, `C125_flow`, `C125_full_refuted`, `C125_shown`, `C126_exported`, `C126_interchangeable`, `C126_scrolled_refuted`, `C12_hash_by_build`, `C12_hash_by_layer`, `C13_alpha_ignored`, `C14_indexed`, `C14_named_colors`, `C15_colors`, `C15_described_colors`, `C15_printed`, `C15_shown`, `C15_wrong_layer`, `C16_additive`, `C16_colors`, `C16_odd_color`, `C16_width`, `C17_described`, `C19_always`, `C19_always_unreset`, `C19_concat`, `C19_empty`, `C19_entries`, `C19_is_str`, `C19_last_unreset`, `C20_lead_dropped`, `C20_texts`, `C21_concat_raises`, `C21_equal`, `C21_link_lost`, `C21_look`, `C21_opaque_lost`, `C21_reset_span`, `C22_agrees`, `C22_blink_stays`, `C22_reset_raises`, `C22_reveal_raises`, `C23_IndexError`, `C23_TypeError`, `C23_ValueError`, `C23_exceptions`, `C24_clash`, `C24_exact`, `C24_group`, `C24_lossless`, `C26_pure`, `C26_scrolling`, `C27_empty_text`, `C27_no_rows`, `C27_shape`, `C27_writes_succeed`, `C28_characters`, `C28_layout`, `C28_outside`, `C29_counts`, `C30_twice`, `C31_last_writer`, `C32_layers`, `C32_opaque_on_top`, `C32_repeated`, `C33_blended_refuted`, `C33_invisible`, `C34_keyed`, `C35_colors`, `C35_drawing`, `C35_true_color`, `C36_colors_refuted`, `C36_leak_refuted`, `C36_leftover_refuted`, `C36_plain`, `C36_redraw_partial`, `C38_outside_refuted`, `C38_resize_partial`, `C38_retained_refuted`, `C40_far_refuted`, `C40_refuted`, `C40_scroll_partial`, `C40_terminal_partial`, `C41_cursor_stays`, `C42_force_refuted`, `C42_repeat_refuted`, `C43_follows`, `C46_empty`, `C46_foreign`, `C46_twice`, `C53_default`, `C53_other`, `C53_reply`, `C53_total`, `C56_first`, `C56_forced_later`, `C56_written`, `C57_classes`, `C57_layout`, `C58_blend`, `C58_complement`, `C58_red`, `C59_analogous`, `C59_tetradic`, `C59_triadic`, `C60_after_scroll`, `C60_clear_write`, `C60_swallowed`, `C65_bulk`, `C65_bulk_anywhere`, `C65_bulk_empty`, `C65_bulk_spans`, `C65_write`, `C67_markup`, `C69_background_refuted`, `C71_links_refuted`, `C72_decimal`, `C72_hex`, `C78_document`, `C78_forbidden`, `C79_position`, `C79_row`, `C80_rows`, `C81_inside`, `C82_report`, `C82_spans`, `C87_character`, `C87_click_refuted`, `C87_escape_refuted`, `C87_named`, `C87_raw`, `C87_verbatim`, `C88_session`, `C88_text`, `C89_playground`, `C90_garbage_refuted`, `C90_written`, `C91_text`, `C92_redraws`, `C92_session`, `C93_determined`, `C93_films`, `C94_first`, `C94_fresh`, `C94_group`, `C94_refuted`, `C94_some_space`, `C94_sticky`, `C94_white`, `C95_caches`, `C97_equal`, `C97_not_finite`, `C97_only`, `C97_reader`, `C98_background_refuted`, `C98_comma_refuted`, `C98_equal_partial`, `C98_reads`, `C98_reset_refuted`, `C99_means`, `C99_reads`
