{"id": "C01", "title": "Colors always have valid channels", "statement": "Color((r,g,b)) succeeds exactly when 0<=r,g,b<256 and otherwise raises ValueError; every Color returned by from_ansi, from_hex, color(), blend, lighten, darken, as_alpha, as_background, hue_shift, complement or contrast has all channels in 0..255.", "quantifier": "all integer triples, all description strings, all colors and all binary64 alphas/amounts", "why_tests_cant": "the input space (strings, triples, floats) is unbounded; a test samples a few colors", "anchors": ["slate/color.py:Color.__post_init__", "slate/color.py:Color.from_ansi", "slate/color.py:Color.from_hex", "slate/color.py:color", "slate/color.py:Color.blend"]}
{"id": "C02", "title": "blend interpolates", "statement": "For 0<=alpha<=1, every channel of a.blend(b, alpha) lies between that channel of a and of b; blend at 0 gives a's channels, blend at 1 gives b's; for any finite alpha the result is a valid color and the layer flag is a's unless overridden; it fails only when the IEEE arithmetic leaves the finite range.", "quantifier": "all pairs of colors and all IEEE binary64 alphas", "why_tests_cant": "rounding of 2^64 alphas times 2^48 color pairs cannot be enumerated", "anchors": ["slate/color.py:Color.blend", "slate/screen.py:_get_blended"]}
{"id": "C03", "title": "lighten/darken are monotone", "statement": "lighten(n) with a non-negative finite step never decreases a channel, darken(n) never increases one, neither leaves 0..255, lighten(10) of the default step is white and darken(10) is black, and they keep the layer flag.", "quantifier": "all colors, all shade counts, all step sizes", "why_tests_cant": "floating point rounding over unbounded shade counts", "anchors": ["slate/color.py:Color.lighten", "slate/color.py:Color.darken"]}
{"id": "C04", "title": "Hex round trip", "statement": "color(c.hex) has the same channels as c for every color c, c.hex is always '#' plus six upper case hex digits, and color('#rrggbbaa') sets alpha to aa/255 with the channels of '#rrggbb'.", "quantifier": "all 2^24 channel triples, all hex strings", "why_tests_cant": "16.7M colors times all strings; tests check one or two", "anchors": ["slate/color.py:Color.hex", "slate/color.py:Color.from_hex", "slate/color.py:color"]}
{"id": "C05", "title": "True color ANSI round trip", "statement": "In a TRUE_COLOR terminal Color.from_ansi(c.ansi) has the same channels and layer as c, for every constructor-less color c; and a standards-conforming terminal receiving c.ansi selects exactly c.rgb on the layer of c. An alpha value after a direct color body becomes the color's alpha and is not in its sequence; after an indexed body it becomes the alpha but stays in the sequence.", "quantifier": "all channel triples and both layers", "why_tests_cant": "the printer/parser pair must agree on every triple", "anchors": ["slate/color.py:Color.ansi", "slate/color.py:Color.from_ansi"]}
{"id": "C06", "title": "16-color approximation is the nearest color", "statement": "In a STANDARD terminal the emitted code is one of 30-37/90-97 (40-47/100-107 for backgrounds) and designates the first of the 16 table colors minimising the documented geometric difference; a color that is exactly one of the 16 (and has no duplicate) is emitted as itself.", "quantifier": "all channel triples and both layers", "why_tests_cant": "needs all 2^24 triples against all 16 candidates, including ties", "anchors": ["slate/color.py:Color.ansi", "slate/color.py:geometric_difference", "slate/color_info.py:COLOR_TABLE"]}
{"id": "C07", "title": "256-color approximation", "statement": "In an EIGHT_BIT terminal a constructor-less color is emitted as 38;5;n / 48;5;n with n in the 6x6x6 cube 16..231, whose coordinates are the channels rounded to the nearest of 0, 51, ..., 255, monotone in every channel; the palette entry emitted is exactly the color if and only if every channel is 0, 175, 215 or 255 (so other exact palette colors and the grey ramp are not kept).", "quantifier": "all channel triples and both layers", "why_tests_cant": "float rounding for each of 256 levels in each position, and palette exactness for 240 entries", "anchors": ["slate/color.py:Color.ansi", "slate/color_info.py:COLOR_TABLE"]}
{"id": "C08", "title": "NO_COLOR is greyscale", "statement": "In a NO_COLOR terminal every color, except those given as one of the 32 16-color codes, is emitted as the greyscale entry 232..255 nearest to its luminance, brighter colors never getting a darker entry; the 32 codes are emitted unchanged.", "quantifier": "all colors however constructed, all platform pow functions accurate to 2^-40", "why_tests_cant": "covers every constructor and every luminance; tests never set NO_COLOR", "anchors": ["slate/color.py:Color.ansi", "slate/color.py:calculate_brightness", "slate/core.py:COLOR_SPACE_CASCADE"]}
{"id": "C09", "title": "Color descriptions fail only with ValueError", "statement": "color(s) on any string returns a valid color or raises ValueError, except that a color sequence cut short raises IndexError; it raises nothing else.", "quantifier": "all strings", "why_tests_cant": "the set of malformed strings is unbounded", "anchors": ["slate/color.py:color", "slate/color.py:Color.from_ansi", "slate/color.py:Color.from_hex"]}
{"id": "C10", "title": "hue_shift is total and keeps the layer", "statement": "c.hue_shift(x) never raises, gives an opaque valid color on c's layer whose channels are those of the exact hue rotation truncated; greys stay grey; turns by 0, 1/3 and 2/3 permute the channels, each non-zero one losing one level (so hue_shift(0) is not the identity).", "quantifier": "all colors and all binary64 amounts (accuracy: up to 1000 turns)", "why_tests_cant": "accumulated float rounding in colorsys could push a channel out of range for some rare input", "anchors": ["slate/color.py:Color.hue_shift"]}
{"id": "C11", "title": "contrast is readable", "statement": "c.contrast is always the off-white or the off-black color on c's layer, with a W3C contrast ratio of at least 3.4:1 against c, and of at least 4.5:1 when c's luminance is at most 0.163 or at least 0.251 (grey 118 gets less than 3.5:1).", "quantifier": "all colors, all platform pow functions accurate to 2^-40", "why_tests_cant": "needs all 2^24 colors; tests check two", "anchors": ["slate/color.py:calculate_contrast", "slate/color.py:calculate_luminance"]}
{"id": "C12", "title": "Equality and hashing of colors agree", "statement": "Color equality is equality of channels and alpha, an equivalence on colors with non-NaN alpha; equal colors have equal hashes whenever layer, origin and constructor string agree too, and may hash differently otherwise.", "quantifier": "all pairs of colors", "why_tests_cant": "a law over all pairs", "anchors": ["slate/color.py:Color.__eq__"]}
{"id": "C13", "title": "as_background / as_alpha only change what they name", "statement": "c.as_background(b) has c's channels and layer b; its alpha is the given one when one is passed, else c's, except that a passed alpha is ignored when the layer does not change or when it is 0; c.as_alpha(a) has c's channels and layer and alpha a.", "quantifier": "all colors, layers and alphas", "why_tests_cant": "law over all colors", "anchors": ["slate/color.py:Color.as_background", "slate/color.py:Color.as_alpha"]}
{"id": "C14", "title": "Named colors and palette tables are well formed", "statement": "color(name) succeeds with alpha 1 for every name in the named color table and yields the channels its hex spells; the palette has exactly 256 valid entries laid out as 16 standard colors, the xterm 6x6x6 cube and the 24 step grey ramp; from_ansi('38;5;n') yields entry n for every n in 0..255 and raises ValueError for every other integer.", "quantifier": "all table entries, all integers n", "why_tests_cant": "tests look at four entries", "anchors": ["slate/color_info.py:COLOR_TABLE", "slate/color_info.py:NAMED_COLORS", "slate/color.py:Color.from_ansi"]}
{"id": "C15", "title": "A printed span shows its text in its style", "statement": "Sending str(span) to a terminal (default pen) prints exactly span.text, each character carrying exactly the span's attributes, colors and hyperlink, and leaves the pen back at default when reset_after is set (and at the span's style when it is not), for spans whose foreground and background color are given for their own layer; a background color used as foreground can color the background instead.", "quantifier": "all spans over printable text: any length, any of 2^10 attribute combinations, any colors", "why_tests_cant": "the product of texts, attributes and colors is unbounded", "anchors": ["slate/span.py:Span.__post_init__", "slate/span.py:Span._generate_sequences"]}
{"id": "C16", "title": "width ignores styling", "statement": "width(str(span)) == len(span) == len(span.text) for every span whose text has no escape character, whose hyperlink has no escape or newline and whose printed colors have no m, H or newline; width is additive over concatenated spans.", "quantifier": "all spans and span sequences", "why_tests_cant": "regex behaviour over all strings", "anchors": ["slate/core.py:width", "slate/core.py:RE_ANSI"]}
{"id": "C17", "title": "mutate changes only what it names", "statement": "span.mutate(**options) and each as_* method return a span equal to the original in every attribute not named but reset_after, which becomes True unless named.", "quantifier": "all spans and option sets", "why_tests_cant": "frame condition over all attributes", "anchors": ["slate/span.py:Span.mutate", "slate/span.py:Span.attrs"]}
{"id": "C18", "title": "Slicing and splitting preserve text and style", "statement": "len(span[a:b]) and its text follow Python slicing, also with a step (span[a:b:k] takes the characters the step reaches, in that order; span[::-1] is reversed); span[:k]+span[k:] concatenates back to the text; joining split(sep) with sep restores the text, no part contains the separator, `t in span` tells whether t occurs in the text, iterating gives the characters one by one, and every piece keeps all attributes but reset_after, which becomes True.", "quantifier": "all spans, all slice bounds, all separators", "why_tests_cant": "law over all texts and indices", "anchors": ["slate/span.py:Span.__getitem__", "slate/span.py:Span.split", "slate/span.py:Span.__len__"]}
{"id": "C19", "title": "get_characters partitions the span", "statement": "get_characters() of a non-empty text has one entry per character and their concatenation is str(span) (without hyperlink) when reset_after is set; with always_include_sequence every entry starts with the span's sequence.  Without reset_after, and for an empty styled text, the two can differ.", "quantifier": "all spans and flag combinations", "why_tests_cant": "law over all texts and attribute sets", "anchors": ["slate/span.py:Span.get_characters"]}
{"id": "C20", "title": "Parsing keeps all visible text", "statement": "For a line of styling sequences each followed by text, the concatenated texts of list(Span.yield_from(line)) are the line without its sequences, except that text before the first sequence is dropped and a sequence ending the line becomes text.", "quantifier": "all lines of supported sequences and texts", "why_tests_cant": "unbounded strings", "anchors": ["slate/span.py:Span.yield_from", "slate/span.py:RE_ANSI_STYLES"]}
{"id": "C21", "title": "Printing then parsing gives the span back", "statement": "The first span of list(Span.yield_from(str(span))) equals the span (with reset_after set) for opaque-free, link-free spans with opaque colors; a span printed with a reset is followed by one more span holding the reset; two printed spans one after the other, the first with a reset, give the first span and then raise ValueError.", "quantifier": "all spans with printable text, all color spaces", "why_tests_cant": "round trip over unbounded texts and attribute sets", "anchors": ["slate/span.py:Span.yield_from", "slate/span.py:_parse_sequence", "slate/span.py:Span.__post_init__"]}
{"id": "C22", "title": "SGR parsing agrees with terminals", "statement": "For any list of the SGR parameters 1-9, 22, 23, 24, 27, 39, 49 and color selections, the attributes Span.yield_from gives to the text following it are those a terminal would give; settings persist across sequences until unset.  (0, 28 and 29 raise; 25 leaves fast_blink on.)", "quantifier": "all parameter lists and all sequences of them", "why_tests_cant": "unbounded parameter lists; interactions between parameters", "anchors": ["slate/span.py:_parse_sequence", "slate/span.py:_is_valid_color", "slate/span.py:_is_background_color"]}
{"id": "C23", "title": "Unparseable sequences raise ValueError only", "statement": "Span.yield_from on any string ends, yielding spans or raising ValueError, IndexError or TypeError; IndexError only if some parameter has a point, TypeError only for one of the parameters 26, 28, 29, 54.", "quantifier": "all strings", "why_tests_cant": "unbounded malformed input", "anchors": ["slate/span.py:Span.yield_from", "slate/span.py:_parse_sequence"]}
{"id": "C24", "title": "group is a lossless run-length grouping", "statement": "For every row of cells, Span.group(row) yields spans whose texts concatenate to the row's visible characters, each character's style equal to its cell's (but for the mark 'opaque', which no cell keeps), with no two neighbouring groups of identical style. The colors are the cells' too, but for the colored cells that come after an uncolored run and repeat, apart from the color, the first cell of that run: those lose their color. So nothing else is lost exactly when no colored cell repeats the first cell of the uncolored run before it.", "quantifier": "all rows of cells", "why_tests_cant": "unbounded rows", "anchors": ["slate/span.py:Span.group"]}
{"id": "C25", "title": "SVG text escaping is safe and injective", "statement": "The text put in SVG contains no raw '<', '>', '\"', \"'\" or space, every '&' starts one of the six entities used, and distinct texts stay distinct.", "quantifier": "all strings", "why_tests_cant": "unbounded strings", "anchors": ["slate/span.py:_escape_html", "slate/span.py:Span.as_svg"]}
{"id": "C26", "title": "Cached characters are pure", "statement": "span.get_characters(...) always returns the same list for equal spans, whatever was called before and whatever the cache evicted, as long as no write scrolled the screen; a scrolling write can change a cached list for good.", "quantifier": "all histories of calls and screen writes", "why_tests_cant": "depends on the whole call history of the process", "anchors": ["slate/span.py:Span.get_characters", "slate/screen.py:Screen.write_bulk"]}
{"id": "C27", "title": "The screen matrix always matches its size", "statement": "After any history of writes, bulk writes, clears, resizes and renders the screen holds exactly height rows of width cells; a write of non-empty spans with explicit cursor on a screen of at least one row never raises (an empty span, or a screen without rows, can raise IndexError).", "quantifier": "all operation histories, all cursors, all sizes", "why_tests_cant": "unbounded histories", "anchors": ["slate/screen.py:Screen.write_bulk", "slate/screen.py:Screen.resize", "slate/screen.py:Screen.clear"]}
{"id": "C28", "title": "write lays text out row-major with wrapping", "statement": "A write at (x,y) puts the k-th character of the concatenated text at cell number y*width+x+k (row-major), dropping what falls below the last row, carrying the span's foreground (white if unset) and background; all other cells are untouched.", "quantifier": "all screen sizes, cursors, lists of opaque spans that do not scroll", "why_tests_cant": "unbounded sizes, texts and positions", "anchors": ["slate/screen.py:Screen.write", "slate/screen.py:Screen.write_bulk"]}
{"id": "C29", "title": "write returns the number of cells it changed", "statement": "The number returned is exactly the number of cells whose stored content differs before and after, and exactly those positions become pending for the next draw (plus what was already pending).", "quantifier": "all screens and writes that do not scroll", "why_tests_cant": "unbounded states", "anchors": ["slate/screen.py:Screen.write_bulk"]}
{"id": "C30", "title": "Repeating a write changes nothing", "statement": "Performing the same write twice returns 0 the second time, leaves cells as they are and adds nothing to draw.", "quantifier": "all screens and writes that do not scroll", "why_tests_cant": "unbounded states", "anchors": ["slate/screen.py:Screen.write_bulk"]}
{"id": "C31", "title": "write_bulk is the sequence of its writes, last writer wins", "statement": "For opaque content write_bulk(items) leaves exactly the cells that performing the writes one after another would leave, and each cell holds the last item covering it.", "quantifier": "all screens and item lists that do not scroll", "why_tests_cant": "all overlaps of unboundedly many items", "anchors": ["slate/screen.py:Screen.write_bulk"]}
{"id": "C32", "title": "Opaque content hides what is below it; translucent content blends", "statement": "In one bulk write, for translucent layers of successively different colors over an opaque base, the background of a cell is the base blended with each layer in turn; blank translucent characters let the underlying character show through unless opaque is set.  A repeated layer can count only once, and an opaque item above translucent ones can still be tinted by them.", "quantifier": "all stacks of items over a cell", "why_tests_cant": "unbounded stacks of translucent layers", "anchors": ["slate/screen.py:Screen.write_bulk", "slate/screen.py:_get_blended"]}
{"id": "C33", "title": "Translucent foregrounds stay legible", "statement": "Writing text whose foreground has alpha < 1 over a background yields a foreground blended between the two colors.", "quantifier": "all colors and alphas", "why_tests_cant": "law over all color pairs", "anchors": ["slate/screen.py:Screen.write_bulk", "slate/screen.py:_get_blended"]}
{"id": "C34", "title": "render emits each pending cell once, in order, at its position", "statement": "render() emits all and only the pending cells in row-major order, each preceded by a cursor move unless it directly follows the previous one, ends with a reset, and clears the pending set so that an immediate second render emits only a reset.", "quantifier": "all pending sets and origins", "why_tests_cant": "unbounded pending sets", "anchors": ["slate/screen.py:Screen.render", "slate/screen.py:ChangeBuffer.gather"]}
{"id": "C35", "title": "Drawing diffs shows the screen", "statement": "After any history of writes, clears and draws that ends in a draw, a terminal that received the drawn output (from origin (1,1)) displays exactly what the writes put there: the same characters, attributes and colors in every cell, as if the whole screen had been repainted.", "quantifier": "all histories of non-scrolling writes of opaque text, clears and draws, all sizes", "why_tests_cant": "needs all histories; this is the whole point of cell diffing", "anchors": ["slate/screen.py:Screen", "slate/terminal.py:Terminal.draw", "slate/terminal.py:Terminal.write"]}
{"id": "C36", "title": "A full redraw shows the screen too", "statement": "draw(redraw=True) leaves the terminal displaying the same picture as incremental drawing.", "quantifier": "all reachable screens", "why_tests_cant": "all reachable states", "anchors": ["slate/screen.py:Screen.render"]}
{"id": "C37", "title": "resize keeps the overlap and fills the rest", "statement": "After resize((w,h), fill) the screen is w by h, every cell inside both the old and new size keeps its content, every other cell is the fill character without color.", "quantifier": "all screens and sizes", "why_tests_cant": "unbounded sizes and contents", "anchors": ["slate/screen.py:Screen.resize"]}
{"id": "C38", "title": "After a resize the next draw shows the retained content", "statement": "Resizing and then drawing shows the retained cells, and nothing is drawn outside the new size.", "quantifier": "all screens and sizes", "why_tests_cant": "all reachable states", "anchors": ["slate/screen.py:Screen.resize", "slate/screen.py:Screen.render"]}
{"id": "C39", "title": "clear resets everything", "statement": "clear(fill) makes every cell the fill character without color, marks every cell pending, homes the cursor and keeps the size, whatever happened before.", "quantifier": "all screens", "why_tests_cant": "all reachable states", "anchors": ["slate/screen.py:Screen.clear", "slate/terminal.py:Terminal.clear"]}
{"id": "C40", "title": "Writing below the last row scrolls consistently", "statement": "Writing at a row at or below the height scrolls the screen so that row becomes the last one, and the next draw leaves the terminal showing the scrolled screen.", "quantifier": "all screens and rows", "why_tests_cant": "depends on history through the scrollback offset", "anchors": ["slate/screen.py:Screen.write_bulk"]}
{"id": "C41", "title": "Writing without a cursor continues at the screen's cursor", "statement": "write(spans) without a cursor writes at the screen's cursor and advances it past the text.", "quantifier": "all screens and span lists", "why_tests_cant": "all states", "anchors": ["slate/screen.py:Screen.write", "slate/terminal.py:Terminal.write"]}
{"id": "C42", "title": "force_overwrite registers every written cell", "statement": "With force_overwrite=True each visible character written is counted and becomes pending, changed or not.", "quantifier": "all screens and writes", "why_tests_cant": "all states", "anchors": ["slate/screen.py:Screen.write_bulk"]}
{"id": "C43", "title": "The screen follows the terminal size", "statement": "After any history of window size changes and reads of Terminal.size with listeners that only take note, the screen has the size last read, resize listeners were called exactly once per observed change with the new size, and the first read never fires; a listener that reads the size recurses without end and one that raises is told again.", "quantifier": "all histories of size changes and reads", "why_tests_cant": "unbounded histories", "anchors": ["slate/terminal.py:Terminal.size", "slate/terminal.py:Terminal.__post_init__"]}
{"id": "C44", "title": "Events reach every listener in order", "statement": "Calling an event runs every listener exactly once in registration order with the data; the result is truthy iff some listener's result is, for results of the annotated type (a truthy non-number raises TypeError); adding a non callable raises ValueError and changes nothing; an exception stops at that listener and propagates; listeners added while emitting are called in that emission and clear() stops it.", "quantifier": "all listener lists and behaviours", "why_tests_cant": "unbounded listener lists and arbitrary callbacks", "anchors": ["slate/event.py:Event"]}
{"id": "C45", "title": "Context managers restore the terminal", "statement": "While the stream accepts what is written on leaving: leaving alt_buffer, no_echo, report_mouse or batch, normally or by an exception anywhere in the body, emits the closing sequences exactly once, last-in first-out, and re-raises the exception; the terminal ends outside the alternate buffer with cursor visible, echo on, mouse reporting off.", "quantifier": "all bodies, exception points and nestings", "why_tests_cant": "every crash point of every body", "anchors": ["slate/terminal.py:Terminal.alt_buffer", "slate/terminal.py:Terminal.no_echo", "slate/terminal.py:Terminal.report_mouse", "slate/terminal.py:Terminal.batch"]}
{"id": "C46", "title": "The original title comes back", "statement": "After any sequence of set_title calls inside the first alt_buffer session, leaving it restores the title the terminal had before; every later session leaves its last title behind.", "quantifier": "all title sequences, all numbers of sessions", "why_tests_cant": "unbounded histories", "anchors": ["slate/terminal.py:Terminal.set_title", "slate/terminal.py:Terminal.alt_buffer"]}
{"id": "C47", "title": "A failed draw loses nothing", "statement": "If draw raises (stream or file error), a later successful draw still shows everything that was pending.", "quantifier": "all failure points in draw", "why_tests_cant": "every crash point", "anchors": ["slate/terminal.py:Terminal.draw", "slate/screen.py:Screen.render"]}
{"id": "C48", "title": "Mouse reports decode correctly", "statement": "Every SGR mouse report for a supported button decodes to mouse:{modifiers}{button}_{event}@x;y with the modifiers given by its bits, press/release distinguished for clicks; input without two semicolons yields None; a report of another button, or other text with two semicolons, raises KeyError (IndexError when it ends in a semicolon).", "quantifier": "all button codes, all coordinates, all strings", "why_tests_cant": "unbounded coordinates and malformed reports", "anchors": ["slate/core.py:parse_mouse_event", "slate/core.py:_build_event", "slate/core.py:MOUSE_EVENTS"]}
{"id": "C49", "title": "getch returns the key that was typed", "statement": "getch returns a Key matching all names of the typed sequence, its string is the canonical name; unknown input without two semicolons is returned verbatim; raw=True always returns the input verbatim; a mouse report at the end of the input is decoded and what came before it lost.  The home and end sequences are named the wrong way round.", "quantifier": "all input strings", "why_tests_cant": "unbounded input", "anchors": ["slate/core.py:getch", "slate/core.py:Key", "slate/key_names.py:POSIX_KEY_NAMES"]}
{"id": "C50", "title": "feed queues input for getch", "statement": "Text passed to feed is returned by the following getch call, without loss, before the terminal is read, when each feed is read before the next; a feed before that overwrites the earlier one.", "quantifier": "all histories of feed and getch", "why_tests_cant": "unbounded histories", "anchors": ["slate/core.py:feed", "slate/core.py:_getch_posix"]}
{"id": "C51", "title": "Reading decodes everything available", "statement": "A read of complete UTF-8 input returns the decoding of all bytes that arrived since it began, never splits a multi byte character (it waits for the rest), and restores the terminal mode unless interrupted between setting it and entering the try; it never returns when input ended in the middle.", "quantifier": "all byte streams and arrival schedules", "why_tests_cant": "all schedules", "anchors": ["slate/core.py:_getch_posix"]}
{"id": "C52", "title": "resolution reports what the terminal answered", "statement": "When the terminal answers the pixel size query with height;width, resolution is (width, height); when it does not answer or answers garbage, the fallback.", "quantifier": "all replies", "why_tests_cant": "unbounded replies", "anchors": ["slate/terminal.py:Terminal.resolution", "slate/core.py:getch"]}
{"id": "C53", "title": "Default color replies", "statement": "get_default_color returns the color whose channels are the high bytes of a well formed reply and the documented default for any other reply or when not on a TTY; it never raises.", "quantifier": "all replies", "why_tests_cant": "unbounded replies", "anchors": ["slate/core.py:get_default_color", "slate/core.py:RE_PALETTE_REPLY"]}
{"id": "C54", "title": "Color space detection", "statement": "get_color_space follows the documented precedence SLATE_COLORSYS, NO_COLOR, COLORTERM, TERM for every environment; a forced color space overrides it.", "quantifier": "all environments", "why_tests_cant": "unbounded strings in four variables", "anchors": ["slate/core.py:get_color_space", "slate/terminal.py:Terminal.color_space"]}
{"id": "C55", "title": "Color spaces are totally ordered", "statement": "The comparisons between color spaces (and with their names) form a total order with standard < no_color < eight_bit < true_color; unknown names raise ValueError.", "quantifier": "all pairs/triples of color spaces and all strings", "why_tests_cant": "order laws", "anchors": ["slate/core.py:ColorSpace"]}
{"id": "C56", "title": "Forcing a color space affects all later output", "statement": "After terminal.color_space = s, every color emitted for the first time is expressed in s; a color whose sequence was read before keeps that sequence.", "quantifier": "all colors and histories of accesses and settings", "why_tests_cant": "depends on access history", "anchors": ["slate/color.py:Color.ansi", "slate/terminal.py:Terminal.color_space"]}
{"id": "C57", "title": "SVG classes determine styles", "statement": "In an SVG export two pieces of text share a class only if their style is identical, and text pieces are placed at columns equal to the number of characters before them in the row.", "quantifier": "all screens", "why_tests_cant": "unbounded screens", "anchors": ["slate/screen.py:Screen.export_svg_with_styles", "slate/span.py:Span.get_svg_styles"]}
{"id": "C58", "title": "complement mirrors the color", "statement": "c.complement turns the hue by half a turn: it keeps the layer and maps every channel v to darkest+brightest-v (dimmed by one level), when the hue is not red; reds and greys give black, black gives white, on the foreground layer.  blend_complement(alpha) moves every channel towards that of the complement by the given part.", "quantifier": "all colors", "why_tests_cant": "16 million colors through float hue arithmetic with a special case on hue 0.0", "anchors": ["slate/color.py:Color.complement", "slate/color.py:Color.hue_shift"]}
{"id": "C59", "title": "Color groups are the documented hue rotations", "statement": "triadic/analogous/tetradic groups never raise, start with the color itself, keep its layer and hold its rotations by thirds / twelfths / quarters; triadic rotations permute the (dimmed) channels.", "quantifier": "all colors", "why_tests_cant": "float rounding at third turns decides which branch of the hue computation each channel takes", "anchors": ["slate/color.py:calculate_triadic_group", "slate/color.py:calculate_analogous_group", "slate/color.py:calculate_tetradic_group"]}
{"id": "C60", "title": "After a clear, text written at the origin is visible", "statement": "After clear(), text written at (0, 0) is in the first cells of the screen, if the screen never scrolled; after a scroll nothing written above the scroll offset appears, also after a clear.", "quantifier": "all screens, fills and spans", "why_tests_cant": "depends on the whole history through the scrollback offset, which clear does not reset", "anchors": ["slate/screen.py:Screen.clear", "slate/screen.py:Screen.write_bulk"]}
{"id": "C61", "title": "Nested context managers do not undo each other", "statement": "Inside two nested uses of the same context manager, leaving the inner one leaves the outer one in force: echo stays off, the alternate buffer and mouse reporting stay on until the outer one is left.", "quantifier": "all bodies and managers", "why_tests_cant": "needs nesting and all bodies", "anchors": ["slate/terminal.py:Terminal.no_echo", "slate/terminal.py:Terminal.alt_buffer", "slate/terminal.py:Terminal.report_mouse"]}
{"id": "C62", "title": "A stream error while leaving alt_buffer does not skip the rest", "statement": "If one of the writes made on leaving alt_buffer fails, the others are still attempted and the exception of the body is not lost.", "quantifier": "all bodies and failure points", "why_tests_cant": "every crash point", "anchors": ["slate/terminal.py:Terminal.alt_buffer"]}
{"id": "C63", "title": "batch starts a synchronized update", "statement": "Inside batch() the terminal is in synchronized update mode (private mode 2026).", "quantifier": "all terminals and bodies", "why_tests_cant": "tests compare bytes, not what a terminal makes of them", "anchors": ["slate/terminal.py:Terminal.batch", "slate/core.py:BEGIN_SYNCHRONIZED_UPDATE"]}
{"id": "C64", "title": "Synchronized update support is detected", "statement": "supports_synchronized_update is True exactly when the terminal answers the query with 1 or 2, and False for silence and every other reply without two semicolons; replies with two semicolons can raise KeyError.", "quantifier": "all replies", "why_tests_cant": "unbounded replies", "anchors": ["slate/terminal.py:Terminal.supports_synchronized_update", "slate/core.py:getch_timeout"]}
{"id": "C65", "title": "Strings can be written like spans", "statement": "write given a string writes the spans it parses to; write_bulk given spans writes them, treats an empty string as absent, and given any other string raises AttributeError and adds nothing to draw.", "quantifier": "all strings, positions and screens", "why_tests_cant": "unbounded strings", "anchors": ["slate/terminal.py:Terminal.write", "slate/terminal.py:Terminal.write_bulk"]}
{"id": "C66", "title": "SVG styles express the span", "statement": "get_svg_styles gives exactly the CSS for bold, dim, italic and underline and fills the text with the color it is displayed in; strike is never expressed.", "quantifier": "all spans", "why_tests_cant": "all combinations of attributes and colors", "anchors": ["slate/span.py:Span.get_svg_styles", "slate/span.py:STYLE_TO_CSS"]}
{"id": "C67", "title": "SVG markup is well formed for every text", "statement": "as_svg returns one rect and one text element with the displayed colors; no text, color or class can break out of its attribute or element.", "quantifier": "all spans, default colors and classes", "why_tests_cant": "unbounded texts", "anchors": ["slate/span.py:Span.as_svg", "slate/span.py:_escape_html"]}
{"id": "C68", "title": "Inline SVG styles take effect", "statement": "as_svg(inline_styles=True) puts the CSS of the span in the style attribute of its text element.", "quantifier": "all spans", "why_tests_cant": "tests compare with the string produced", "anchors": ["slate/span.py:Span.as_svg"]}
{"id": "C69", "title": "An exported terminal has its background", "statement": "The rectangle behind an exported terminal is filled with the background color as SVG writes colors.", "quantifier": "all background colors", "why_tests_cant": "tests compare with the string produced", "anchors": ["slate/terminal.py:Terminal.export_svg"]}
{"id": "C70", "title": "Drawing needs nothing but the stream", "statement": "draw() succeeds whenever the stream accepts what is written.", "quantifier": "all terminals and surroundings", "why_tests_cant": "tests run where files can be created", "anchors": ["slate/terminal.py:Terminal.draw"]}
{"id": "C71", "title": "Hyperlinks reach the terminal", "statement": "A character written with a hyperlink is drawn with that hyperlink.", "quantifier": "all histories of writes, clears and draws", "why_tests_cant": "unbounded histories", "anchors": ["slate/screen.py:Screen.write_bulk", "slate/screen.py:Screen.render", "slate/span.py:Span.get_characters"]}
{"id": "C72", "title": "The alpha of a description is the number written", "statement": "color('d;x.y') is the color d describes with alpha the binary64 number nearest to the decimal x.y (or raises what color('d') raises); color('#rrggbbaa') has the channels of '#rrggbb' and alpha the binary64 number nearest to aa/255.", "quantifier": "all descriptions and all decimal texts up to 2^1023, all hex digits", "why_tests_cant": "unbounded decimal texts; rounding", "anchors": ["slate/color.py:color", "slate/color.py:Color.from_ansi", "slate/color.py:Color.from_hex"]}
{"id": "C73", "title": "getch_timeout returns the key or the default", "statement": "For a positive duration getch_timeout returns what getch returns when the alarm does not go off, and the default when nothing is typed in time, changing nothing except that input from before the call is discarded; at every other point of the alarm it is one of the two, except that an alarm before the body raises RuntimeError and one after it escapes as TimeoutException.", "quantifier": "all inputs, feeders, durations and points at which the alarm goes off", "why_tests_cant": "needs the alarm at every point of the execution", "anchors": ["slate/core.py:getch_timeout", "slate/core.py:timeout", "slate/core.py:getch"]}
{"id": "C74", "title": "What a timeout costs", "statement": "When getch_timeout returns, the terminal is in the mode it was in, unless the alarm went off between setcbreak and the try or inside the finally (where the mode is lost); an alarm while reading loses, of what arrived since reading began, exactly the bytes read so far, and one after fed text was taken loses that text.", "quantifier": "all inputs, feeders, durations and points at which the alarm goes off", "why_tests_cant": "every crash point", "anchors": ["slate/core.py:getch_timeout", "slate/core.py:timeout", "slate/core.py:getch", "slate/core.py:_getch_posix"]}
{"id": "C75", "title": "A zero timeout returns at once", "statement": "getch_timeout(0, default) returns immediately: the pending key or the default. (The code never does without input that arrives during the call.)", "quantifier": "all inputs", "why_tests_cant": "a test of it would hang", "anchors": ["slate/core.py:getch_timeout", "slate/core.py:timeout"]}
{"id": "C76", "title": "Timeouts leave the program's own alarms alone", "statement": "After getch_timeout the SIGALRM handler and the interval timer are those the program had set.", "quantifier": "all programs, inputs and points at which the alarm goes off", "why_tests_cant": "needs every prior signal state and every alarm point", "anchors": ["slate/core.py:timeout"]}
{"id": "C77", "title": "Keys on Windows", "statement": "On Windows getch reads ASCII bytes, of which only the first may be the prefix 0xE0, as text (the prefix as ESC) and names it by the table: the arrows and F1 to F10 get their names; any other byte raises UnicodeDecodeError, so that F11, F12 and two arrows arriving together raise.", "quantifier": "all byte sequences", "why_tests_cant": "unbounded inputs, and the suite does not run on Windows", "anchors": ["slate/core.py:_getch_nt", "slate/core.py:getch", "slate/key_names.py"]}
{"id": "C78", "title": "A terminal export is an XML document", "statement": "export_svg returns a well formed XML document whose tree is an svg element holding a style sheet, the background and, for every piece of text on the screen, a rect in its background color and a text element with its class, its color and exactly its text (spaces as no-break spaces); no other tree has that text. This holds whenever the screen shows only characters XML allows; one other character (such as a bell) makes the export no XML document.", "quantifier": "all screens with valid colors and all default colors; numbers given as formatted", "why_tests_cant": "unbounded screens and texts; tests compare strings with strings", "anchors": ["slate/terminal.py:Terminal.export_svg", "slate/terminal.py:SVG_TEMPLATE", "slate/screen.py:Screen.export_svg_with_styles", "slate/span.py:Span.as_svg"]}
{"id": "C79", "title": "SVG pieces are at their column and row", "statement": "In an SVG export every piece of text, its background rectangle and its baseline are within a hundredth of a pixel of column times character width and row times character height, whatever the number of float additions and roundings before it; in a row each rectangle reaches the next one and covers less than a pixel of it.", "quantifier": "all screens of up to 8192 columns and rows, all contents, all font sizes from 1 to 1024", "why_tests_cant": "accumulated rounding errors over all contents and sizes cannot be sampled", "anchors": ["slate/screen.py:Screen.export_svg_with_styles", "slate/span.py:Span.as_svg"]}
{"id": "C80", "title": "SVG rows leave no gaps, except text above blocks", "statement": "In an SVG export the background of each row reaches the top of the next, unless text stands above block characters: there a gap of at least a twentieth of the font size always shows.", "quantifier": "all screens of up to 8192 columns and rows, all contents, all font sizes from 1 to 1024", "why_tests_cant": "accumulated rounding errors over all contents and sizes cannot be sampled", "anchors": ["slate/screen.py:Screen.export_svg_with_styles", "slate/span.py:Span.as_svg", "slate/span.py:_is_block"]}
{"id": "C81", "title": "SVG exports stay inside their picture", "statement": "Every rectangle of a terminal's SVG export lies inside the declared width and, up to font size 94, inside the declared height; from font size 95 on, text in the first row always starts above the picture.", "quantifier": "all screens of up to 8192 columns and rows, all contents, all font sizes from 1 to 1024", "why_tests_cant": "accumulated rounding errors over all contents and sizes cannot be sampled", "anchors": ["slate/terminal.py:Terminal.export_svg", "slate/screen.py:Screen.export_svg_with_styles", "slate/span.py:Span.as_svg"]}
{"id": "C82", "title": "slate debug prints an aligned report", "statement": "`slate debug` always prints its report; what is seen of it is a line of colors, the two sections with every label on the left and its value on the right, all these lines equally wide with at least six spaces between, and the style names filling lines of at most that width as far as they can. Every style name is printed in its style, and the default colors as themselves on a contrasting background.", "quantifier": "all terminal sizes, color spaces, default colors and values of the environment variables without escapes and line breaks", "why_tests_cant": "the widths depend on unbounded environment values", "anchors": ["slate/__main__.py:run_debug"]}
{"id": "C83", "title": "Bytes that are not UTF-8 are shown as bytes", "statement": "A byte that cannot continue what was read so far appears in the text of getch as Python writes that byte (b'\\xff'), just before the character it interrupts; the characters before and after it are read correctly, and the terminal mode is restored. If nothing follows it, the beginning of the interrupted character is lost. Every input either is UTF-8 up to an unfinished character or has such a byte. After the first two bytes of an encoded surrogate, every further byte of that read appears that way, even letters. Every input is accounted for.", "quantifier": "all byte sequences, all bytes, all interrupted characters", "why_tests_cant": "unbounded byte sequences", "anchors": ["slate/core.py:_getch_posix"]}
{"id": "C84", "title": "Keys have the names of an xterm's keys", "statement": "Every key an xterm sends (arrows with any modifiers, F1 to F12, insert, delete, home, end, page up and down, tab, return, escape, backspace, ctrl with a letter) is returned by getch as a Key equal to its name. (It holds for all but the page keys and six combinations of modifiers with arrows, which have no name, and home and end, which are exchanged.)", "quantifier": "all keys, modifiers and sequences an xterm sends", "why_tests_cant": "the table has to be compared with the terminal's, not with itself", "anchors": ["slate/core.py:getch", "slate/core.py:Key", "slate/key_names.py"]}
{"id": "C85", "title": "Text is never taken for a key", "statement": "A Key equals the name of a key only if that key was pressed. (Exactly: if the input is a sequence that key sends, or the name itself, typed or pasted at once.)", "quantifier": "all inputs and all keys", "why_tests_cant": "unbounded inputs", "anchors": ["slate/core.py:getch", "slate/core.py:Key.__eq__"]}
{"id": "C86", "title": "Keys are values", "statement": "A Key can be compared with keys and names and used in lists, sets and dictionaries. (Membership in a list of names works by any name of the key; a Key equals no Key, not even itself, and sets and dictionaries raise TypeError.)", "quantifier": "all keys and collections", "why_tests_cant": "all collections", "anchors": ["slate/core.py:Key"]}
{"id": "C87", "title": "slate getch shows what was typed", "statement": "`slate getch` prints the names of the key, or the character as a Python literal, and `slate getch --raw` a Python literal whose value is what was typed; nothing printed is a control character. (Sequences without a name are printed as they are, and a middle click raises KeyError.)", "quantifier": "all inputs and all color spaces", "why_tests_cant": "unbounded inputs", "anchors": ["slate/__main__.py:run_getch", "slate/core.py:getch"]}
{"id": "C88", "title": "A program's writes appear on its terminal", "statement": "For a new Terminal and any sequence of write (strings or spans), clear and draw calls ending in a draw, no call raises, every cell of the window shows the character, attributes and colors last written there, and nothing else on the terminal changes.", "quantifier": "all sequences of calls, window sizes, texts, colors and color spaces", "why_tests_cant": "unbounded sequences of calls", "anchors": ["slate/terminal.py:Terminal.write", "slate/terminal.py:Terminal.clear", "slate/terminal.py:Terminal.draw"]}
{"id": "C89", "title": "The mouse example marks the mouse", "statement": "examples/mouse_playground.py: after any sequence of typed texts and mouse actions the program is still running, an X is displayed in the cell of the last mouse action, and the last text typed is displayed as a Python literal from the top left corner.", "quantifier": "all sequences of texts and mouse actions, window sizes and color spaces", "why_tests_cant": "unbounded sequences; needs a terminal with a mouse", "anchors": ["examples/mouse_playground.py:main", "slate/core.py:getch", "slate/terminal.py:Terminal.write", "slate/terminal.py:Terminal.draw"]}
{"id": "C90", "title": "A printed span can be written as a string", "statement": "terminal.write(str(span)) displays what terminal.write([span]) does. (It does for spans that end without a reset; otherwise the reset sequence is written as text after it: bold 'ab' appears as 'ab[0m'.)", "quantifier": "all spans, positions and terminals", "why_tests_cant": "all combinations of attributes and colors", "anchors": ["slate/terminal.py:Terminal.write", "slate/span.py:Span.yield_from", "slate/span.py:Span.__str__"]}
{"id": "C91", "title": "The text of an SVG export, numbers included", "statement": "The string Terminal.export_svg returns is an XML document in which every number is a decimal numeral; read exactly, the numbers put every rectangle and text within a hundredth of a pixel of its column and row, give every rectangle the width of its text plus half a pixel (within a hundredth and a ten-thousandth per character), and give the picture the size of the terminal plus two margins of 16.", "quantifier": "all screens of up to 8192 columns and rows showing characters XML allows in valid colors, all font sizes from 1 to 1024", "why_tests_cant": "accumulated rounding, int/float formatting and decimal printing over all contents and sizes cannot be sampled", "anchors": ["slate/terminal.py:Terminal.export_svg", "slate/screen.py:Screen.export_svg_with_styles", "slate/span.py:Span.as_svg"]}
{"id": "C92", "title": "Redraws among draws lose nothing but colors", "statement": "For any sequence of writes of text without attributes, clears, draws and full redraws (draw(redraw=True)) ending in a draw, every cell of the window shows the character and the colors last written there, or that character in the default colors if a full redraw showed it and it has not changed since; nothing else on the terminal changes.", "quantifier": "all sequences of calls, window sizes, origins, texts, colors and color spaces", "why_tests_cant": "unbounded sequences of calls", "anchors": ["slate/terminal.py:Terminal.draw", "slate/screen.py:Screen.render"]}
{"id": "C93", "title": "Translucent content is drawn blended", "statement": "For any sequence of bulk writes whose spans may have translucent backgrounds, clears and draws, ending in a draw, every cell shows the topmost character its last bulk wrote there that is not a see-through blank, with its attributes, on the background of the lowest content that still shows, tinted in turn by the translucent backgrounds over it (a lone translucent background is blended onto the terminal's); under a blank the text color is tinted too. Cells a bulk does not write keep what they show, and the history determines everything but the foreground of blanks.", "quantifier": "all sequences of calls, window sizes, texts, opaque foregrounds, alphas, color spaces and stacks of layers without equal neighbours and without translucent content below opaque content of the same bulk", "why_tests_cant": "unbounded stacks and sequences of calls, float blending", "anchors": ["slate/screen.py:Screen.write_bulk", "slate/terminal.py:Terminal.draw", "slate/color.py:Color.blend"]}
{"id": "C94", "title": "Text written after forcing a color space is in that space", "statement": "After terminal.color_space = s, every sequence a program sees (of colors, of spans made, of what it writes and renders) is the one for s, whatever it did before. (The code breaks this: plain text written before leaves the sequence of the shared default foreground behind. What holds: it is so when s is set before anything else, and for every color made afterwards; a color once read keeps its sequence, all Color.white() are one such color, and no sequence is ever that of a space that was never in force.)", "quantifier": "all programs over colors, spans and a screen, all color spaces", "why_tests_cant": "needs two spaces and shared color objects in one process", "anchors": ["slate/color.py:Color.ansi", "slate/color.py:Color.white", "slate/screen.py:Screen.write_bulk", "slate/terminal.py:Terminal.color_space"]}
{"id": "C95", "title": "Caching of colors and spans cannot be observed", "statement": "While the color space stays as it is, a program making colors (by every operation), reading their fields and sequences, making spans, listing their characters, writing, clearing, resizing and rendering sees exactly what it would see if nothing were cached on colors, on spans or by blend.", "quantifier": "all such programs, all color spaces and screen sizes", "why_tests_cant": "the caches depend on the whole history of the process", "anchors": ["slate/color.py:Color.ansi", "slate/color.py:Color.complement", "slate/color.py:Color.contrast", "slate/color.py:Color.blend", "slate/span.py:Span.get_characters", "slate/screen.py:Screen.write_bulk"]}
{"id": "C96", "title": "Bell, cursor and mouse controls do only what they say", "statement": "After any sequence of bell(), show_cursor(b) and set_report_mouse(b) on a working stream the terminal has rung once per bell(), the cursor's visibility and the three mouse reporting modes are as last asked, and everything else on the terminal and in the Terminal object is as before.", "quantifier": "all sequences, all terminals not in the middle of a sequence", "why_tests_cant": "unbounded sequences against a terminal", "anchors": ["slate/terminal.py:Terminal.bell", "slate/terminal.py:Terminal.show_cursor", "slate/terminal.py:Terminal.set_report_mouse"]}
{"id": "C97", "title": "The repr of a color evaluates to an equal color", "statement": "eval(repr(c)), with Color known, gives a color equal to c: same channels, same alpha to the last bit. (The result is a foreground color: == does not see the difference. With alpha nan or infinite the text cannot be evaluated.)", "quantifier": "all colors, all finite alphas below 2**1022", "why_tests_cant": "all doubles must survive printing and reading; tests try a few", "anchors": ["slate/color.py:Color.__repr__", "slate/color.py:Color.__eq__"]}
{"id": "C98", "title": "The repr of a span evaluates to an equal span", "statement": "eval(repr(s)), with Span and Color known, gives a span equal to s, whatever its text and hyperlink contain. (The code breaks this: a background color comes back as a foreground color and shows differently; reset_after=False comes back as True; with reset_after=False, no style and a color or hyperlink, the text has two commas in a row and is a syntax error. What holds: text, styles, hyperlink and the values of the colors always come back, and the span is equal if its colors are plain foreground colors and it resets.)", "quantifier": "all spans over all characters", "why_tests_cant": "texts mixing quotes, backslashes and unprintable characters, all combinations of 15 attributes", "anchors": ["slate/span.py:Span.__repr__", "slate/color.py:Color.__repr__"]}
{"id": "C99", "title": "Color descriptions mean what their grammar says", "statement": "color(d) succeeds exactly for the texts d of one grammar, and the channels, layer, color space and alpha of the result are those the grammar gives: '#' and three hexadecimal numbers, with two more digits for the alpha; a CSS color name; a single SGR color code or palette number; two or three fields of which the last is a palette entry; 38;2;r;g;b or 48;2;r;g;b. A last field with a point is the alpha value, rounded to the nearest float. Numbers are those int() and float() read, with blanks, signs, underscores and the digits of all scripts.", "quantifier": "all texts over all of Unicode", "why_tests_cant": "an infinite grammar; tests try the usual forms only", "anchors": ["slate/color.py:color", "slate/color.py:Color.from_hex", "slate/color.py:Color.from_ansi"]}
{"id": "C100", "title": "A log longer than the window shows its last lines", "statement": "Writing line after line, each one row below the one before, and drawing after each, displays the last lines of the log once it is longer than the window. (The screen object does hold exactly the last lines; the terminal does not: at the bottom of the terminal the line that filled the window is lost, every later line is one row too high and the last row is blank; anywhere else nothing scrolls and all later lines overwrite each other in the last row. Of a line of two spans the first is lost.)", "quantifier": "all logs of any length, all texts, colors, window sizes and positions, all color spaces", "why_tests_cant": "unbounded logs; the effect of a line feed needs a terminal", "anchors": ["slate/screen.py:Screen.write_bulk", "slate/terminal.py:Terminal.write", "slate/terminal.py:Terminal.draw"]}
{"id": "C101", "title": "Keys typed between two reads are not lost", "statement": "Everything typed is returned by some later getch, in order. (The code breaks this: getch discards what was typed before it began to read, so what is typed while the program is doing something else never has any effect. What holds: every call that returns gives exactly what arrived during it, whatever the timing; if all typing happens during calls nothing is lost.)", "quantifier": "all interleavings of arriving bytes and calls of getch", "why_tests_cant": "timing of input against program steps", "anchors": ["slate/core.py:_getch_posix", "slate/core.py:getch"]}
{"id": "C102", "title": "Terminal() learns the terminal's colors, whatever the timing", "statement": "Creating a Terminal (importing slate creates one) returns, and its background_color and foreground_color are those the terminal reports. (The code breaks this: the thread that reads the answer may begin after the answer came, which is then discarded; then, and with every terminal that does not answer, it waits for a key press; a key pressed meanwhile makes it take the answer about the background for the foreground; an answer in two pieces is not understood. What holds: if nobody types and answers come as a whole, the colors are right in every order of events in which it returns, and it returns if each thread is reading before its query is written.)", "quantifier": "all interleavings of the main thread, the reading threads, the terminal and the keyboard; all colors", "why_tests_cant": "thread interleavings and terminal timing", "anchors": ["slate/terminal.py:Terminal.__post_init__", "slate/core.py:get_default_color", "slate/core.py:_getch_posix"]}
{"id": "C103", "title": "Quick answers to queries are heard", "statement": "supports_synchronized_update and resolution use the answer of the terminal however fast it comes. (The code breaks this: the query is written before reading begins, and beginning to read discards what has arrived; such an answer counts as none. Answers that come later are heard.)", "quantifier": "all answers that arrive before reading begins", "why_tests_cant": "timing of the terminal's answer", "anchors": ["slate/terminal.py:Terminal.supports_synchronized_update", "slate/terminal.py:Terminal.resolution", "slate/core.py:getch_timeout", "slate/core.py:_getch_posix"]}
{"id": "C104", "title": "feed reaches getch, also from another thread", "statement": "feed(text) interrupts a getch call going on in another thread (as its documentation says), and text fed is never lost. (The code breaks this: a call that waits goes on waiting, and text fed while a call is taking fed text is lost. What holds: feeds that take turns with the calls that return fed text are each returned by exactly one call, in order, and the next call returns it without touching waiting input.)", "quantifier": "all interleavings of feeding, arriving input and getch; all texts", "why_tests_cant": "thread interleavings", "anchors": ["slate/core.py:feed", "slate/core.py:_getch_posix"]}
{"id": "C105", "title": "Wide and combining characters: where text drawn with them appears", "statement": "If every character takes one terminal column, a history of writes, clears and draws leaves the same display on a terminal with character widths as on one without. A character that takes two columns or none (East Asian text, emoji, combining marks) is one cell to Screen all the same. Text written over cells that all looked different and drawn appears with each character as many columns to the right as the characters before it take, not at the column of its cell. So what is written at a cell need not appear at that cell, two histories with the same writes can show different things depending on when draw was called, and a wide character in the last row of a screen that fills the terminal scrolls the display.", "quantifier": "every assignment of 0, 1 or 2 columns to characters with ASCII narrow, every history, every screen and terminal size, every text that fits", "why_tests_cant": "The display depends on the widths the terminal gives to characters, on the runs of changed cells and on the timing of draws; tests compare the bytes written.", "anchors": ["slate/screen.py:Screen.render", "slate/screen.py:Screen.write_bulk"]}
{"id": "C106", "title": "Writing from generators", "statement": "Screen.write and write_bulk accept any iterables of spans. A generator writes exactly what the list of its spans would; a generator that raises lets its exception through and leaves the cells and the pending changes as they were; and a generator that asks for Terminal.size, finding that the window was resized, has its text written to the resized screen. (The code breaks this: the exception leaves a line lost if an earlier entry of the same call scrolled; after the window grew any text reaching a new cell makes the write fail with IndexError and nothing is written; after it shrank below what an earlier entry wrote the write fails half-way. What holds is stated exactly.)", "quantifier": "every list of entries, every screen, offset, text, position, old and new size, exception", "why_tests_cant": "The outcome depends on code run between the moment the matrices are made and the moment the text is placed; unit tests pass ready lists.", "anchors": ["slate/screen.py:Screen.write_bulk", "slate/screen.py:Screen.resize", "slate/terminal.py:Terminal.size"]}
{"id": "C107", "title": "Writing while another thread draws", "statement": "When one thread writes to a terminal while another calls draw, every change reaches the terminal: however the steps of the two threads follow each other, after one more draw the last text sent for each cell is the one last written to it. (The code breaks this: a change noted between the moment a draw gathers the changes and the moment it clears them is never sent, however often the screen is drawn and the same text written again, since the screen takes the cell for drawn. For every order of steps without such a moment the claim is proved.)", "quantifier": "every interleaving of the steps of one writing and one drawing thread, every screen, every content", "why_tests_cant": "The loss depends on a switch of threads within a few instructions of render; no test can enumerate the interleavings.", "anchors": ["slate/screen.py:Screen.render", "slate/screen.py:ChangeBuffer.gather", "slate/screen.py:Screen.write_bulk", "slate/terminal.py:Terminal.draw"]}
{"id": "C108", "title": "Drawn text cannot command the terminal", "statement": "Text written to a screen, whatever it contains (escape sequences, control characters, 8-bit controls), does not command the terminal: after any history of writes of spans, clears, resizes and draws, a terminal that parses as the VT500 series does has recognised in the output only characters, positions (CUP), renditions (SGR), empty strings, newlines and the control characters of the texts themselves, and is left in its ground state. The same holds for strings parsed by Slate, except for control sequences with final byte _, E or e. It does not hold for redraws, titles and color descriptions: there the commands in the text are executed (theorems). Control characters other than ESC and newline are executed even on an ordinary draw.", "quantifier": "all texts, links and attributes, all plain colors, all histories, screens and origins, terminals with and without 8-bit controls", "why_tests_cant": "the dangerous text is the one nobody thought of when writing the tests; safety depends on what surrounds every single character for every history", "anchors": ["slate/screen.py:Screen.render", "slate/screen.py:Screen.write", "slate/span.py:Span.get_characters", "slate/span.py:Span.yield_from", "slate/color.py:Color.ansi", "slate/terminal.py:Terminal.set_title"]}
{"id": "C109", "title": "Every instant of a draw", "statement": "While a draw is being received, after any history of writes and clears, the terminal displays the new picture above some position in reading order and what it displayed before from there on; no other picture is ever seen and nothing outside the screen changes, wherever the output is split (also inside an escape sequence). If the rest is lost, drawing again never repairs the screen; a full redraw gives every cell its character and attributes back, but adds the colors and attributes that were on when the output was cut.", "quantifier": "all histories of writes and clears, all screens and origins, all color spaces, every split of the output", "why_tests_cant": "the number of instants and states is unbounded, and tests look at the screen when the draw is complete", "anchors": ["slate/screen.py:Screen.render", "slate/terminal.py:Terminal.draw"]}
{"id": "C110", "title": "Several screens on one terminal", "statement": "Screens shown at different origins of one terminal, sharing no cell, do not disturb each other: however writes, clears and draws on them are interleaved, each screen whose last operation was a draw is displayed exactly as its own operations describe it, and cells that belong to no screen are untouched. Where two screens share a cell, the cell keeps showing the one that sent it last: drawing the other again, with nothing changed, does not bring it to the front.", "quantifier": "any number of screens of any sizes and origins inside the terminal, all interleavings of operations, all color spaces", "why_tests_cant": "the interleavings and arrangements are unbounded; each screen alone looks right in tests", "anchors": ["slate/screen.py:Screen.render", "slate/terminal.py:Terminal.origin", "slate/terminal.py:Terminal.draw"]}
{"id": "C111", "title": "Writing while another thread resizes or clears", "statement": "While one thread writes, another may clear the screen or resize it to the size it has: the write never raises because of it and the matrix keeps its shape. A resize to another size can make a concurrent write raise IndexError. After concurrent writes, clears and draws, what is to be drawn for a cell is what the screen holds, provided no write stores the cell between the moment a clear fills it and the end of that clear; a cell stored in between stays on the terminal, though the screen holds the fill, until it is written again or the screen is cleared again.", "quantifier": "every interleaving of the steps of writes, resizes and draws, all sizes, texts and colors", "why_tests_cant": "the interleavings are unbounded and not reproducible in a test", "anchors": ["slate/screen.py:Screen.resize", "slate/screen.py:Screen.clear", "slate/screen.py:Screen.write_bulk", "slate/terminal.py:Terminal.clear"]}
{"id": "C112", "title": "What was on the terminal before the alternate buffer comes back", "statement": "Leaving alt_buffer, normally, by an exception or in the middle of a draw, brings back what the terminal showed before it was entered, cursor position and rendition included; nothing written and drawn inside ever reaches the normal buffer, whatever text it consists of. Exceptions: after an inner alt_buffer the outer one draws on the normal buffer; a full redraw of text that holds the sequence leaves the buffer; and if the stream refuses the first write, the cursor is moved although the buffer was never entered.", "quantifier": "every terminal (only the meaning of private mode 1049 is assumed), every program and exception, every text, every instant of the output", "why_tests_cant": "it depends on a terminal's state that tests do not have, and on all texts and all points of failure", "anchors": ["slate/terminal.py:Terminal.alt_buffer", "slate/terminal.py:Terminal.draw", "slate/core.py:START_ALT_BUFFER"]}
{"id": "C113", "title": "Several threads write to one screen", "statement": "Any number of threads may call Screen.write or write_bulk on one screen while it is drawn: no write fails with IndexError and the matrix keeps its shape. If no two threads store the same cell, the screen and what the terminal shows are those of the same writes one after the other, in any order. If two threads store the same cell, the terminal shows what the screen holds provided neither stores it between the moment the other stores it and enters it in the change buffer. Exception: otherwise the screen holds one thread's character and the terminal the other's, until the cell is changed again.", "quantifier": "every number of threads, every interleaving of their steps with draws, every screen, span and colour", "why_tests_cant": "the outcome depends on where the interpreter switches threads; a test sees a few of the interleavings", "anchors": ["slate/screen.py:Screen.write", "slate/screen.py:Screen.write_bulk", "slate/screen.py:Screen.render"]}
{"id": "C114", "title": "A draw sends only what changed", "statement": "A write returns at most the number of characters it is given (so terminal.write(\"0\", cursor=cursor) <= 1), and over any series of writes at most as many cells wait to be drawn as changes were returned. A cell none of the writes changes is not sent. What a draw sends is the texts of the waiting cells, one cursor movement for each run of neighbouring cells and at most one reset: from a screen that was drawn, n changes cost at most n times the longest text plus a movement, whatever the size of the screen. Exception: a cell changed and changed back before the draw is sent although the terminal already shows it.", "quantifier": "every series of write and write_bulk calls, every screen, span, colour, origin and terminal size", "why_tests_cant": "a test measures a few frames; the claim is a bound on the cost of every frame", "anchors": ["slate/screen.py:Screen.write_bulk", "slate/screen.py:Screen.render", "slate/screen.py:ChangeBuffer"]}
{"id": "C115", "title": "The README's animation", "statement": "The program in README.md:45-85, with the place of each line given to terminal.write, works on any terminal: its assertion (a write of \"0\" changes at most one cell) never fails; after any number of turns every cell shows a white 0 where one was drawn and a bold X in the chosen colours elsewhere, and nothing outside the screen changed; each turn sends one cursor movement and one character, or only a reset if a 0 was there already; and interrupted at any instant, even within a draw, it leaves the terminal showing what it showed before. As it is printed in the README the program raises TypeError at its first write and draws nothing.", "quantifier": "every terminal size, colour space, default colour, sequence of random numbers, number of turns and instant of interruption", "why_tests_cant": "the program is a random, endless loop: a test sees some turns on one terminal, and its output is judged by eye", "anchors": ["README.md:45", "slate/terminal.py:Terminal.write", "slate/terminal.py:Terminal.draw", "slate/terminal.py:Terminal.alt_buffer"]}
{"id": "C116", "title": "Exactly what a full redraw shows", "statement": "After any history of writes, clears and draws, whatever pen the terminal has (also after a draw that was cut short anywhere), draw(redraw=True) shows each character in its own attributes on top of the pen that the characters before it in reading order have left: each adds its attributes, and the character written last of a span with attributes resets the pen. So a cell is shown with an attribute exactly if it or an earlier cell was written with it and no span with attributes ended in between; every cell has the attributes an ordinary draw gives it exactly if each cell ends such a span or has no attribute that the next one lacks. The pen the last cell leaves stays on; the rest of the terminal is untouched.", "quantifier": "every history, screen size, origin, colour space, pen of the terminal, attribute and instant at which an earlier draw was cut", "why_tests_cant": "which cells leak attributes depends on the order and overlap of all earlier writes; a test sees a few of them", "anchors": ["slate/screen.py:Screen.render", "slate/span.py:Span.get_characters", "slate/terminal.py:Terminal.draw"]}
{"id": "C117", "title": "What the terminal shows after any writes, clears, draws and full redraws", "statement": "Take any sequence of Terminal.write, clear, draw() and draw(redraw=True), with any attributes (reset or not) and colors given by value, on a terminal showing anything, with any attributes turned on, and with the program turning attributes on by itself in between. Then the terminal shows exactly this. A cell is due for the next draw when a write changed its character, attributes, colors or the place where attributes end, or a clear covered it. A draw goes over the cells due in reading order; a written one is shown in its own colors and attributes over the terminal's current ones, which are then put away; a cleared one is shown in whatever the terminal's current ones are; after a draw they are off. A full redraw shows all cells without their colors, each over what the cells before it left on, and leaves on what is left. So attributes left on reach the cleared cells due before the first written one, and that one, and no others; and after draw(), clear() everything is shown right again until the next full redraw, whatever happened before. The last character of a span with reset_after=False is shown without the span's attributes.", "quantifier": "all sequences of writes, clears, draws, full redraws and attribute changes; all screens, origins, terminals (contents, size, attributes) and color spaces; all spans of printable text with colors given by value", "why_tests_cant": "The outcome depends on the whole history: which cells are due, what each last showed, and which attributes were left on by which event. Tests compare what one draw sends for one buffer, not what a terminal shows after arbitrary interleavings.", "anchors": ["slate/screen.py:126-131", "slate/screen.py:158-304", "slate/screen.py:307-347", "slate/span.py:418-451", "slate/terminal.py:318-382", "slate/terminal.py:399-414"]}
{"id": "C118", "title": "What the terminal shows when the window changes its size, and how to repaint then", "statement": "Take any sequence of writes, clears, draws and full redraws, now with the window changing in between (its size, its contents, its attributes) and the screen following when Terminal.size is read, or resized to any size by Screen.resize. Then the terminal shows exactly this: a resize makes every cell of the new screen due, and what the next draw shows there is the fill character, not what the cell still holds; what a later write makes different is shown. So a listener of on_resize that calls clear(), writes for the size it is told and calls draw() is right: after any changes of the window every cell shows the picture for its last size, and the loop that only reads the size and draws keeps it. Without the clear, cells that are written with what they already held stay blank. And a listener that calls draw(redraw=True) instead shows every character, but none of its colors: experiments/resize.py, which is to show a plane of colors, shows no color on any window. A cell that was waiting outside a screen that has become smaller is still drawn; the theorems need that there is none when draw is called (drawing before the size is read is enough).", "quantifier": "all sequences of writes, clears, draws, full redraws, resizes (any size, kept or not) and changes of the window; all painting listeners, any number of them; all loops of reading the size and making requests; for experiments/resize.py all windows up to 65535 by 65535 and all histories of their sizes", "why_tests_cant": "The effect of a resize shows only with the writes and draws before and after it, in every order. The tests compare a resized buffer once, draw nothing after it, and no test has a listener that paints.", "anchors": ["slate/screen.py:86-131", "slate/screen.py:158-347", "slate/terminal.py:80-88", "slate/terminal.py:141-152", "slate/terminal.py:349-414", "slate/event.py:45-60", "experiments/resize.py:6-48"]}
{"id": "C119", "title": "What a Span written by itself shows, and where it goes on screens that scroll", "statement": "A Span is an iterable of Spans, so write(span) is accepted wherever write([span]) is meant. On a screen that does not scroll it shows the right picture, and a better one: each cell shows its character with exactly its Span's attributes and colors, even if the Span is not reset (written in a list, the last character of such a Span loses its attributes). Full redraws of such writes show exactly each Span's attributes, without colors, and leak none (C36, C116). But the position is lowered by the scrolled rows once for every Span of the iterable: on a screen that has scrolled by n rows, each character is written n rows above the one before it. Below the last row of a screen that has not scrolled, only the last character is written, where the text was to start. And two characters written from the last cell on scroll the whole screen by a row, though that position is on the screen and the list would not scroll it.", "quantifier": "all sequences of Spans written by themselves (any attributes, reset or not, any colors given by value), clears, draws and full redraws; for scrolling: all screens, scrolled by any number of rows, all texts that fit in the row, all caches of characters that earlier writes can leave", "why_tests_cant": "The type hints accept both calls and each shows the same on a fresh screen; which characters are where after scrolling depends on the number of rows, the position and the length together.", "anchors": ["slate/screen.py:136-305", "slate/span.py:268-269", "slate/span.py:551-557", "slate/terminal.py:349-390"]}
{"id": "C120", "title": "Where the lines of a written text go", "statement": "A Span whose text has line breaks can be written. If it has no attributes (colors and a link are allowed) the screen is the one that writing its lines one by one leaves, each starting in the cell below the one after the end of the line before it, and the lines starting below the screen are dropped without scrolling; so a second line does not start in the column of the first one unless that one is empty. Drawn, the terminal shows exactly the picture of these lines. If the Span has an attribute, the break takes a cell of its own and the second line follows it in the same row of the screen, but the terminal receives a line feed there: it shows the second line on its next row, from its own left edge on, even outside the area of the screen, and nothing in the cells where the screen has it.", "quantifier": "all screens that have not scrolled, all positions not below the screen, all texts, colors and links, all caches of characters of unscrolled screens, all histories of such writes, clears and draws; for Spans with attributes: all texts with one line break that fit in their row of cells not written before, all attributes, all screens and origins on all terminals with a row below", "why_tests_cant": "Whether a line break is one depends on the attributes of the Span, on reset and on its place in the text; where the line goes depends on the width of the screen, the length of each line before it and, on the terminal, on which cells happen to be pending next to each other.", "anchors": ["slate/screen.py:193-244", "slate/screen.py:246-304", "slate/screen.py:307-348", "slate/span.py:418-451"]}
{"id": "C121", "title": "Spans from markup", "statement": "The markup language of experiments/markup.py: a text in which stretches follow tags in brackets. Every word of a tag has exactly one meaning: a style switched on or off, a color, or an unknown word. If no color occurs, styled_from_markup yields one Span per stretch, with exactly the styles whose last word up to there switches them on, reports every unknown word in order, and mprint shows exactly these stretches with these styles on the terminal. Tags at the end without a text change nothing. A color word names the color it should: parse_color selects the palette color of an index 0 to 255, the color of six hexadecimal digits after #, of three numbers or of a CSS name, on the layer the @ gives, and rejects larger indices. But the first stretch that sets or removes a color raises after the spans before it, so nothing is printed; two style tags directly after each other are one unknown word; a text before a closing bracket disappears; six hexadecimal digits without # give parameters no terminal understands.", "quantifier": "all lists of stretches and tags of any length, all words and white space between them, all styles, all colors of the four forms, both layers, all terminals in their resting state", "why_tests_cant": "The regular expression is lazy and backtracks over brackets, so where a tag ends depends on the whole rest of the text; the styles of a stretch depend on every tag before it, over an unbounded number of texts", "anchors": ["experiments/markup.py:13-21", "experiments/markup.py:109-142", "experiments/markup.py:145-156", "experiments/markup.py:159-197", "slate/span.py:244-258", "slate/span.py:291-318"]}
{"id": "C122", "title": "An SVG export shows what the terminal shows", "statement": "After any sequence of writes (translucent content included, with its colors blended), clears and draws on a screen that does not scroll, Terminal.export_svg succeeds, and at every position of the screen its document has the character last written there (a space as a no-break space) in text that is bold, dim, italic or underlined exactly if that was asked for; text and background are in the colors asked for, swapped if inverted, as long as no colored cell after an uncolored gap between colored texts repeats the gap's first character. So on a terminal showing true colors the export and the terminal show the same. Cells that the condition excludes can be in default colors in the export though colored on the terminal; blinking, concealed and struck text look in an export as if they were not; and after a write that scrolled the screen and left a cell before, or two cells after, the text in its row, the export raises; after any other it succeeds if it would have before.", "quantifier": "all screens and fills, all histories of writes, clears and draws, all texts, attributes and colors, all color spaces, all terminals in their resting state, all font sizes and default colors", "why_tests_cant": "The export goes from escape sequences in cells back to spans, by comparing strings with the previous one; what a cell looks like depends on the whole row before it and on every write before, and both sides (a viewer and a terminal) have to be compared over an unbounded set of histories", "anchors": ["slate/span.py:378-416", "slate/span.py:453-570", "slate/screen.py:350-420", "slate/terminal.py:420-472"]}
{"id": "C123", "title": "Exporting changes nothing, and the picture holds all of it", "statement": "Terminal.export_svg() leaves the terminal as it was, and every piece of the document is inside the document's picture, whatever was written before. This holds for font sizes up to 94 while the window keeps the size the terminal last read. After a change of the window it is false: the document has the screen as it was in a picture of the new size (the width read first, the height after it), the export notifies the resize listeners and resizes the screen, a listener that raises prevents the export, and if the window became narrower or lower by 17 pixels and more the ends of all rows or the whole last row are outside the picture. A second export changes nothing more.", "quantifier": "all programs of writes, clears and draws on a new terminal, all color spaces, all font sizes from 1 to 1024, all default colors, all sizes of the window before, at and between the two readings, all listeners that take note or raise", "why_tests_cant": "The size is read by properties with side effects after the screen has been exported; the failure needs a window that changes between two particular reads, and being inside the picture has to hold for the rounded numbers of every piece of every screen", "anchors": ["slate/terminal.py:420-472", "slate/terminal.py:141-164", "slate/screen.py:350-420", "slate/span.py:498-540"]}
{"id": "C124", "title": "Spans are values", "statement": "Spans are values: == is an equivalence relation, it means that the arguments are the same (the colors of a layer: the same channels and alpha, and written alike), equal spans give the same strings, characters and SVG and stay equal after the same mutations, and equal spans have equal hashes. The last is false: a span of Color((255, 0, 0)) and one of Color('#FF0000') are equal and hash differently, so a set or a dict keeps both. Equal colors need not make equal spans ('38;5;196' and '#FF0000' in true color), and neither do the same arguments when the color space changed between the two.", "quantifier": "all spans with any text, hyperlink, attributes and colors that are written as a terminal color, all color spaces, all sequences of mutations with alphas that are numbers", "why_tests_cant": "Equality compares three computed strings besides the arguments; that these determine the colors of both layers is an argument about all parameter strings of SGR, and hashes have to agree for every pair of equal spans", "anchors": ["slate/span.py:216-260", "slate/span.py:291-320", "slate/span.py:551-557", "slate/color.py:124", "slate/color.py:164-168"]}
{"id": "C125", "title": "Spans written together follow each other", "statement": "Spans given to one write follow each other: each one starts where the one before it ended, line by line as C120 says for one Span, so the screen and, drawn, the terminal are those of writing every line by itself. This holds for Spans without attributes (any colors, links and texts) as long as all but the last one end on the screen. After a Span that is cut off at the end of the screen the rest of the write is dropped, whatever it is. It is false when a Span ends in the very last cell: the next one scrolls the screen, is put over the beginning of the last row, and shifts all later writes by a row; if it is empty, the write raises IndexError.", "quantifier": "all screens, starting cells, lists of Spans without attributes, texts with any line breaks, color spaces and colors, all histories of such writes, clears and draws for what is shown, all rests of a write for what is dropped", "why_tests_cant": "Where a Span starts depends on the lengths of all lines before it and the width, and the loop variable that decides about scrolling is shared between two loops, so that only texts of exactly one length on a given screen scroll", "anchors": ["slate/screen.py:193-244", "slate/screen.py:246-304", "slate/span.py:418-451"]}
{"id": "C126", "title": "Equal spans are interchangeable on a screen", "statement": "Replacing spans by spans that are == to them anywhere in a history of calls of a screen (write, write_bulk, get_characters, clear, resize, render) changes nothing a caller can see: not the counts the writes return, not the exceptions, not the characters, not a byte of what is rendered, full redraws included, and not a byte of an SVG export made afterwards; whatever was on the screen before, whichever colors are translucent, and however the colors of the equal spans were made. This holds for histories that do not scroll. It is false after any scroll: of two equal spans whose colors were made in different ways, the one whose write scrolled the screen has got a line break appended to its last character for good, the other one has not.", "quantifier": "all screens whatever their cells hold, all caches of correct results, all color spaces, all histories that do not scroll, all replacements by equal spans with regular colors; for the exception all screens with a row, all equal spans with text and different hashes, and all positions below the last row", "why_tests_cant": "Equality ignores how a color was made (constructor text, color space of origin), which decides which escape sequence is chosen and whether a cached result is found; the difference could show in any later blend, comparison, cache hit or export of any history", "anchors": ["slate/span.py:216-257", "slate/span.py:377-451", "slate/screen.py:13-33", "slate/screen.py:136-348", "slate/screen.py:350-420", "slate/color.py:124-152"]}
