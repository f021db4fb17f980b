{
 "claims": [
  {
   "property": "C01",
   "status": "proved",
   "theorems": [
    "C01_constructor",
    "C01_operations"
   ],
   "note": "Constructor accepts exactly 0..255 triples; every color any operation returns is valid."
  },
  {
   "property": "C02",
   "status": "proved",
   "theorems": [
    "C02_interpolates",
    "C02_ends",
    "C02_monotone",
    "C02_total"
   ],
   "note": "All colors, all finite binary64 alphas; bounds, end points, accuracy, monotonicity; OverflowError only beyond 2^1000."
  },
  {
   "property": "C03",
   "status": "proved",
   "theorems": [
    "C03_lighten",
    "C03_darken",
    "C03_negative",
    "C03_amount",
    "C03_ten_default_shades"
   ],
   "note": "All colors, counts and non-negative finite steps; negative counts move the other way; exact amount."
  },
  {
   "property": "C04",
   "status": "proved",
   "theorems": [
    "C04_hex_round_trip",
    "C04_hex_channels",
    "C04_hex_alpha"
   ],
   "note": "All colors; every six and eight digit hex string."
  },
  {
   "property": "C05",
   "status": "proved",
   "theorems": [
    "C05_true_color",
    "C05_alpha",
    "C05_alpha_index"
   ],
   "note": "Round trip and effect on the emulator pen; an alpha value after the body. C05_alpha_index: after an indexed body the alpha value stays in the sequence, which no terminal expects."
  },
  {
   "property": "C06",
   "status": "proved",
   "theorems": [
    "C06_nearest",
    "C06_determined",
    "C06_exact"
   ],
   "note": "All colors; first table color of least redmean distance; determined uniquely."
  },
  {
   "property": "C07",
   "status": "proved",
   "theorems": [
    "C07_cube",
    "C07_monotone",
    "C07_kept",
    "C07_cube_not_kept",
    "C07_grey_not_kept"
   ],
   "note": "All colors; exactly which colors the palette keeps."
  },
  {
   "property": "C08",
   "status": "proved",
   "theorems": [
    "C08_grey",
    "C08_monotone",
    "C08_codes"
   ],
   "note": "Nearest grey and monotonicity for every color not given as a 16-color code, for any pow accurate to 2^-40 (and monotone); the 32 codes are emitted unchanged (universal)."
  },
  {
   "property": "C09",
   "status": "proved",
   "theorems": [
    "C09_description",
    "C09_cut_short",
    "C09_exceptions"
   ],
   "note": "The exact set of exceptions; IndexError exactly for descriptions cut short (C09_cut_short shows one)."
  },
  {
   "property": "C10",
   "status": "proved",
   "theorems": [
    "C10_total",
    "C10_rotates",
    "C10_own_hue",
    "C10_grey",
    "C10_thirds",
    "C10_no_identity"
   ],
   "note": "Totality, layer, bounds, greys, accuracy of the rotation and exact third turns proved for all colors; hue_shift(0) is not the identity (each non-zero channel loses one level)."
  },
  {
   "property": "C11",
   "status": "proved",
   "theorems": [
    "C11_readable",
    "C11_choice",
    "C11_mid_grey"
   ],
   "note": "Off-white or off-black on the layer, ratio at least 3.4:1 always and 4.5:1 outside luminances 0.163..0.251, for any pow accurate to 2^-40; 4.5:1 fails for grey 118."
  },
  {
   "property": "C12",
   "status": "proved",
   "theorems": [
    "C12_equivalence",
    "C12_equality_meaning",
    "C12_hash",
    "C12_hash_by_build",
    "C12_hash_by_layer"
   ],
   "note": "Both directions of the hash claim, with witnesses where hashes differ."
  },
  {
   "property": "C13",
   "status": "proved",
   "theorems": [
    "C13_as_background",
    "C13_as_alpha",
    "C13_alpha_ignored"
   ],
   "note": "All colors and alphas; the two cases where the alpha is ignored are theorems."
  },
  {
   "property": "C14",
   "status": "proved",
   "theorems": [
    "C14_named_colors",
    "C14_palette",
    "C14_indexed"
   ],
   "note": "All table entries and all integers."
  },
  {
   "property": "C15",
   "status": "proved",
   "theorems": [
    "C15_printed",
    "C15_shown",
    "C15_colors",
    "C15_described_colors",
    "C15_wrong_layer"
   ],
   "note": "Spans whose colors are displayed on their own layer (all canonical colors are, C15_colors); C15_wrong_layer is the boundary."
  },
  {
   "property": "C16",
   "status": "proved",
   "theorems": [
    "C16_width",
    "C16_additive",
    "C16_colors",
    "C16_odd_color"
   ],
   "note": "C16_odd_color is the boundary: a color made from the description \"m;5\"."
  },
  {
   "property": "C17",
   "status": "proved",
   "theorems": [
    "C17_mutate",
    "C17_as_color",
    "C17_as_flag",
    "C17_as_hyperlink",
    "C17_reset_after",
    "C17_described"
   ],
   "note": "All spans and options; the lost reset_after is C17_reset_after."
  },
  {
   "property": "C18",
   "status": "proved",
   "theorems": [
    "C18_slice",
    "C18_cut",
    "C18_index",
    "C18_contains",
    "C18_split",
    "C18_same_style",
    "C18_reset_after",
    "C18_step",
    "C18_reversed",
    "C18_iter"
   ],
   "note": "All spans; the lost reset_after is C18_reset_after."
  },
  {
   "property": "C19",
   "status": "proved",
   "theorems": [
    "C19_entries",
    "C19_concat",
    "C19_is_str",
    "C19_always",
    "C19_last_unreset",
    "C19_always_unreset",
    "C19_empty"
   ],
   "note": "Every entry characterised for all spans and flags; the boundaries are C19_last_unreset, C19_always_unreset and C19_empty."
  },
  {
   "property": "C20",
   "status": "proved",
   "theorems": [
    "C20_texts",
    "C20_lead_dropped"
   ],
   "note": "All lines of sequences and texts; C20_lead_dropped shows dropped text."
  },
  {
   "property": "C21",
   "status": "proved",
   "theorems": [
    "C21_equal",
    "C21_look",
    "C21_reset_span",
    "C21_concat_raises",
    "C21_link_lost",
    "C21_opaque_lost"
   ],
   "note": "All color spaces; lost links and opaque are C21_link_lost and C21_opaque_lost."
  },
  {
   "property": "C22",
   "status": "proved",
   "theorems": [
    "C22_agrees",
    "C22_terminal",
    "C22_reset_raises",
    "C22_blink_stays",
    "C22_reveal_raises"
   ],
   "note": "Also compared with the terminal emulator (C22_terminal); 0, 25, 28, 29 are the boundaries."
  },
  {
   "property": "C23",
   "status": "proved",
   "theorems": [
    "C23_exceptions",
    "C23_ValueError",
    "C23_TypeError",
    "C23_IndexError"
   ],
   "note": "All strings; IndexError and TypeError do occur."
  },
  {
   "property": "C24",
   "status": "proved",
   "theorems": [
    "C24_group",
    "C24_colored",
    "C24_plain",
    "C24_empty",
    "C24_clash",
    "C24_exact",
    "C24_lossless"
   ],
   "note": "C24_exact: what is kept of every row; C24_lossless: exactly which rows are kept as they are; C24_group, C24_colored, C24_plain: those without a clash, fully colored and uncolored ones; C24_clash: a row that loses a color."
  },
  {
   "property": "C25",
   "status": "proved",
   "theorems": [
    "C25_escape",
    "C25_safe",
    "C25_ampersand",
    "C25_injective"
   ],
   "note": "All strings."
  },
  {
   "property": "C26",
   "status": "proved",
   "theorems": [
    "C26_pure",
    "C26_scrolling"
   ],
   "note": "All histories without scrolling writes; C26_scrolling is the boundary."
  },
  {
   "property": "C27",
   "status": "proved",
   "theorems": [
    "C27_shape",
    "C27_writes_succeed",
    "C27_no_rows",
    "C27_empty_text"
   ],
   "note": "Shape for all histories; C27_no_rows and C27_empty_text are the boundaries."
  },
  {
   "property": "C28",
   "status": "proved",
   "theorems": [
    "C28_layout",
    "C28_characters",
    "C28_outside"
   ],
   "note": "Opaque text, no scrolling: position, content and colors of every character, all other cells untouched."
  },
  {
   "property": "C29",
   "status": "proved",
   "theorems": [
    "C29_counts"
   ],
   "note": "All non-scrolling writes, translucent ones included."
  },
  {
   "property": "C30",
   "status": "proved",
   "theorems": [
    "C30_twice"
   ],
   "note": "All non-scrolling writes, translucent ones included."
  },
  {
   "property": "C31",
   "status": "proved",
   "theorems": [
    "C31_last_writer"
   ],
   "note": "All non-scrolling opaque bulk writes."
  },
  {
   "property": "C32",
   "status": "proved",
   "theorems": [
    "C32_layers",
    "C32_opaque_on_top",
    "C32_repeated"
   ],
   "note": "All stacks of translucent layers; C32_opaque_on_top and C32_repeated are the boundaries."
  },
  {
   "property": "C33",
   "status": "partial",
   "theorems": [
    "C33_invisible",
    "C33_blended_refuted"
   ],
   "note": "False in every case: the text gets the color of its background, proved for all colors."
  },
  {
   "property": "C34",
   "status": "proved",
   "theorems": [
    "C34_render",
    "C34_keyed"
   ],
   "note": "All reachable pending sets and all origins."
  },
  {
   "property": "C35",
   "status": "proved",
   "theorems": [
    "C35_drawing",
    "C35_colors",
    "C35_true_color"
   ],
   "note": "All histories of non-scrolling writes of opaque, control-free text with colors given by value; the picture is defined from texts and colors only and compared on a terminal emulator specification."
  },
  {
   "property": "C36",
   "status": "partial",
   "theorems": [
    "C36_redraw_partial",
    "C36_plain",
    "C36_colors_refuted",
    "C36_leak_refuted",
    "C36_leftover_refuted"
   ],
   "note": "Characters and attributes proved; all colors are lost by a full redraw (universal), attributes spread to other cells (refuted) unless there are none."
  },
  {
   "property": "C37",
   "status": "proved",
   "theorems": [
    "C37_resize"
   ],
   "note": "All screens and sizes."
  },
  {
   "property": "C38",
   "status": "partial",
   "theorems": [
    "C38_resize_partial",
    "C38_retained_refuted",
    "C38_outside_refuted"
   ],
   "note": "Nothing drawn outside the new size if everything was drawn before; every cell shows the fill, retained ones included (universal negative); pending cells outside are drawn (refuted)."
  },
  {
   "property": "C39",
   "status": "proved",
   "theorems": [
    "C39_clear"
   ],
   "note": "All screens; the scroll offset survives, see C60."
  },
  {
   "property": "C40",
   "status": "partial",
   "theorems": [
    "C40_scroll_partial",
    "C40_terminal_partial",
    "C40_refuted",
    "C40_far_refuted"
   ],
   "note": "Effect of one span within the width characterised on the screen and on the terminal: the terminal never shows the scrolled screen, and only one row is scrolled (refuted)."
  },
  {
   "property": "C41",
   "status": "partial",
   "theorems": [
    "C41_cursor_refuted",
    "C41_cursor_stays"
   ],
   "note": "False in every case: TypeError without a cursor; and no write moves the cursor."
  },
  {
   "property": "C42",
   "status": "partial",
   "theorems": [
    "C42_force_refuted",
    "C42_repeat_refuted"
   ],
   "note": "False in every case: the flag changes nothing."
  },
  {
   "property": "C43",
   "status": "proved",
   "theorems": [
    "C43_follows",
    "C43_first",
    "C43_reading",
    "C43_raising"
   ],
   "note": "All histories of calls and window sizes; listeners that read the size or raise are covered by universal theorems."
  },
  {
   "property": "C44",
   "status": "proved",
   "theorems": [
    "C44_emission",
    "C44_each_once_in_order",
    "C44_clear_stops",
    "C44_registration",
    "C44_self_appending_diverges",
    "C44_other_results"
   ],
   "note": "Queue semantics for every behaviour of the callbacks."
  },
  {
   "property": "C45",
   "status": "proved",
   "theorems": [
    "C45_leaving",
    "C45_nested"
   ],
   "note": "All bodies, exceptions and nestings while the stream accepts the closing writes; final modes on the emulator; see C61 and C62 for nesting and failing streams."
  },
  {
   "property": "C46",
   "status": "proved",
   "theorems": [
    "C46_first",
    "C46_stack",
    "C46_later",
    "C46_twice",
    "C46_empty",
    "C46_foreign"
   ],
   "note": "First and later sessions both universal; empty and foreign titles are the boundaries."
  },
  {
   "property": "C47",
   "status": "partial",
   "theorems": [
    "C47_lost_refuted",
    "C47_redraw_partial",
    "C47_success"
   ],
   "note": "False in every case for an ordinary draw (universal negative); a full redraw recovers; a successful draw delivers everything."
  },
  {
   "property": "C48",
   "status": "proved",
   "theorems": [
    "C48_reports",
    "C48_any_input",
    "C48_middle_click"
   ],
   "note": "All reports and all other strings."
  },
  {
   "property": "C49",
   "status": "proved",
   "theorems": [
    "C49_raw",
    "C49_named",
    "C49_ctrl_letters",
    "C49_verbatim",
    "C49_report_decoded",
    "C49_lost",
    "C49_raises",
    "C49_home_end"
   ],
   "note": "All input; lost text, three-field text and the swapped home/end names are the boundaries."
  },
  {
   "property": "C50",
   "status": "proved",
   "theorems": [
    "C50_in_turn",
    "C50_second_feed",
    "C50_overwritten"
   ],
   "note": "Feeding and reading in turn, and the effect of a second feed, for all texts."
  },
  {
   "property": "C51",
   "status": "proved",
   "theorems": [
    "C51_reads",
    "C51_waits",
    "C51_mode",
    "C51_interrupt",
    "C51_mode_lost",
    "C51_end_spins",
    "C51_stray"
   ],
   "note": "All UTF-8 input and arrival states; C51_mode_lost and C51_stray are the boundaries."
  },
  {
   "property": "C52",
   "status": "partial",
   "theorems": [
    "C52_silent",
    "C52_answer_ignored",
    "C52_answer_refuted",
    "C52_answer_partial",
    "C52_garbled_refuted"
   ],
   "note": "No answer gives the fallback; every well formed answer is ignored because it is decoded as a mouse report; garbled answers may raise KeyError."
  },
  {
   "property": "C53",
   "status": "proved",
   "theorems": [
    "C53_reply",
    "C53_reply_read",
    "C53_other",
    "C53_default",
    "C53_total"
   ],
   "note": "All replies."
  },
  {
   "property": "C54",
   "status": "proved",
   "theorems": [
    "C54_detection",
    "C54_detection_determined"
   ],
   "note": "All environments."
  },
  {
   "property": "C55",
   "status": "proved",
   "theorems": [
    "C55_total_order",
    "C55_names"
   ],
   "note": "All pairs and all strings."
  },
  {
   "property": "C56",
   "status": "proved",
   "theorems": [
    "C56_first",
    "C56_forced_later",
    "C56_setting",
    "C56_written"
   ],
   "note": "All colors and histories of settings."
  },
  {
   "property": "C57",
   "status": "proved",
   "theorems": [
    "C57_classes",
    "C57_layout"
   ],
   "note": "All exports; coordinates as columns and rows, not as formatted floats."
  },
  {
   "property": "C58",
   "status": "proved",
   "theorems": [
    "C58_complement",
    "C58_red",
    "C58_blend"
   ],
   "note": "Exact result for every color."
  },
  {
   "property": "C59",
   "status": "proved",
   "theorems": [
    "C59_triadic",
    "C59_analogous",
    "C59_tetradic"
   ],
   "note": "All colors."
  },
  {
   "property": "C60",
   "status": "proved",
   "theorems": [
    "C60_clear_write",
    "C60_swallowed",
    "C60_after_scroll"
   ],
   "note": "Both cases universal."
  },
  {
   "property": "C61",
   "status": "partial",
   "theorems": [
    "C61_echo_refuted",
    "C61_modes_refuted"
   ],
   "note": "False in every case: the inner exit undoes the outer manager."
  },
  {
   "property": "C62",
   "status": "partial",
   "theorems": [
    "C62_refuted"
   ],
   "note": "False in every case."
  },
  {
   "property": "C63",
   "status": "partial",
   "theorems": [
    "C63_refuted"
   ],
   "note": "False in every case: the sequence sent is not the one that sets the mode."
  },
  {
   "property": "C64",
   "status": "proved",
   "theorems": [
    "C64_answers",
    "C64_silent",
    "C64_total",
    "C64_garbled",
    "C64_query"
   ],
   "note": "All replies and all terminals that report their modes; C64_garbled is the boundary."
  },
  {
   "property": "C65",
   "status": "proved",
   "theorems": [
    "C65_write",
    "C65_bulk",
    "C65_bulk_spans",
    "C65_bulk_empty",
    "C65_bulk_anywhere"
   ],
   "note": "All strings; AttributeError in every case for write_bulk."
  },
  {
   "property": "C66",
   "status": "proved",
   "theorems": [
    "C66_styles",
    "C66_strike"
   ],
   "note": "Exact CSS for every span."
  },
  {
   "property": "C67",
   "status": "proved",
   "theorems": [
    "C67_markup"
   ],
   "note": "All spans; numbers and class name given, without quotes or markup."
  },
  {
   "property": "C68",
   "status": "partial",
   "theorems": [
    "C68_inline_refuted"
   ],
   "note": "False in every case: the attribute is called styles."
  },
  {
   "property": "C69",
   "status": "partial",
   "theorems": [
    "C69_background_refuted"
   ],
   "note": "False in every case: the fill starts with two hash signs."
  },
  {
   "property": "C70",
   "status": "partial",
   "theorems": [
    "C70_file_refuted"
   ],
   "note": "False in every case: without a writable screen.txt draw raises and forgets what was pending."
  },
  {
   "property": "C71",
   "status": "partial",
   "theorems": [
    "C71_links_refuted"
   ],
   "note": "False in every case: no drawn cell has a link."
  },
  {
   "property": "C72",
   "status": "proved",
   "theorems": [
    "C72_decimal",
    "C72_hex"
   ],
   "note": "Decimal texts of any length: the quotient is proved correctly rounded."
  },
  {
   "property": "C73",
   "status": "proved",
   "theorems": [
    "C73_in_time",
    "C73_silent",
    "C73_results",
    "C73_escapes"
   ],
   "note": "All inputs and alarm points."
  },
  {
   "property": "C74",
   "status": "proved",
   "theorems": [
    "C74_mode",
    "C74_mode_lost",
    "C74_bytes_lost",
    "C74_feed_lost"
   ],
   "note": "All inputs and alarm points; the points at which the mode or fed text is lost are exact."
  },
  {
   "property": "C75",
   "status": "partial",
   "theorems": [
    "C75_zero_refuted",
    "C75_zero_partial"
   ],
   "note": "False in every case: 0 disables the timer, without input the call never returns."
  },
  {
   "property": "C76",
   "status": "partial",
   "theorems": [
    "C76_signals_refuted"
   ],
   "note": "False in every case: the handler stays replaced and the timer cancelled."
  },
  {
   "property": "C77",
   "status": "proved",
   "theorems": [
    "C77_reads",
    "C77_arrows",
    "C77_raises"
   ],
   "note": "All byte sequences."
  },
  {
   "property": "C78",
   "status": "proved",
   "theorems": [
    "C78_document",
    "C78_unique",
    "C78_forbidden"
   ],
   "note": "All screens; XML restricted to what the export uses (names of letters, the references it writes, no carriage returns); numbers given as formatted text."
  },
  {
   "property": "C79",
   "status": "proved",
   "theorems": [
    "C79_position",
    "C79_row"
   ],
   "note": "Binary64 arithmetic; the printing of the numbers is not modelled."
  },
  {
   "property": "C80",
   "status": "proved",
   "theorems": [
    "C80_rows"
   ],
   "note": "Both directions: where rows touch and where they never do."
  },
  {
   "property": "C81",
   "status": "proved",
   "theorems": [
    "C81_inside"
   ],
   "note": "Both directions: the font size 94 is exact."
  },
  {
   "property": "C82",
   "status": "proved",
   "theorems": [
    "C82_report",
    "C82_spans"
   ],
   "note": "All views of the terminal; the terminal state is given."
  },
  {
   "property": "C83",
   "status": "proved",
   "theorems": [
    "C83_invalid",
    "C83_inputs",
    "C83_exact",
    "C83_surrogate"
   ],
   "note": "All byte sequences: C83_exact gives what is returned for every input."
  },
  {
   "property": "C84",
   "status": "partial",
   "theorems": [
    "C84_named_partial",
    "C84_missing_refuted",
    "C84_swapped_refuted"
   ],
   "note": "False for page keys, six arrow combinations, home and end; exact on all others."
  },
  {
   "property": "C85",
   "status": "partial",
   "theorems": [
    "C85_only",
    "C85_pasted_refuted"
   ],
   "note": "Exact characterization; the name of a key pasted as text is taken for the key."
  },
  {
   "property": "C86",
   "status": "partial",
   "theorems": [
    "C86_lists",
    "C86_equality_refuted",
    "C86_sets_refuted"
   ],
   "note": "Lists work; keys equal no keys and cannot be hashed."
  },
  {
   "property": "C87",
   "status": "partial",
   "theorems": [
    "C87_raw",
    "C87_named",
    "C87_character",
    "C87_verbatim",
    "C87_escape_refuted",
    "C87_click_refuted",
    "C87_size"
   ],
   "note": "Raw, named keys and single characters proved; unnamed sequences are printed raw, a middle click raises."
  },
  {
   "property": "C88",
   "status": "proved",
   "theorems": [
    "C88_session",
    "C88_text"
   ],
   "note": "Writes with a position on the screen that cannot scroll and colors given by value; redraws: C92."
  },
  {
   "property": "C89",
   "status": "proved",
   "theorems": [
    "C89_playground"
   ],
   "note": "Texts getch returns unchanged (the clear key included) and supported mouse actions."
  },
  {
   "property": "C90",
   "status": "partial",
   "theorems": [
    "C90_written",
    "C90_garbage_refuted"
   ],
   "note": "Exactly what is written is proved; it differs for every styled span that resets."
  },
  {
   "property": "C91",
   "status": "proved",
   "theorems": [
    "C91_text"
   ],
   "note": "The printing of floats (repr and .4f) is modelled; the default colors are given."
  },
  {
   "property": "C92",
   "status": "proved",
   "theorems": [
    "C92_redraws",
    "C92_session"
   ],
   "note": "Text without attributes; C36 shows what happens to attributes."
  },
  {
   "property": "C93",
   "status": "proved",
   "theorems": [
    "C93_films",
    "C93_determined"
   ],
   "note": "Opaque foregrounds (translucent ones: C33); translucent content below opaque content of the same bulk: C32_opaque_on_top."
  },
  {
   "property": "C94",
   "status": "partial",
   "theorems": [
    "C94_refuted",
    "C94_first",
    "C94_fresh",
    "C94_sticky",
    "C94_white",
    "C94_group",
    "C94_some_space"
   ],
   "note": "False as stated (C94_refuted); what does hold is proved."
  },
  {
   "property": "C95",
   "status": "proved",
   "theorems": [
    "C95_caches"
   ],
   "note": "Trusted: lru_cache keys that differ have different hashes."
  },
  {
   "property": "C96",
   "status": "proved",
   "theorems": [
    "C96_controls"
   ],
   "note": "The stream accepts every write; the terminal is the emulator of Vt.v."
  },
  {
   "property": "C97",
   "status": "proved",
   "theorems": [
    "C97_equal",
    "C97_only",
    "C97_not_finite",
    "C97_reader"
   ],
   "note": "Evaluation: the small reader of Python expressions in ShowSpec.v; floats are read to the nearest double."
  },
  {
   "property": "C98",
   "status": "partial",
   "theorems": [
    "C98_equal_partial",
    "C98_reads",
    "C98_comma_refuted",
    "C98_reset_refuted",
    "C98_background_refuted"
   ],
   "note": "False as stated (three kinds of counterexamples proved); proved for plain foreground colors and reset_after=True."
  },
  {
   "property": "C99",
   "status": "proved",
   "theorems": [
    "C99_reads",
    "C99_means"
   ],
   "note": "An equivalence: everything accepted is described (C99_reads), everything described is accepted (C99_means). The limit of 4300 digits of int() is not modelled."
  },
  {
   "property": "C100",
   "status": "partial",
   "theorems": [
    "C100_screen",
    "C100_short",
    "C100_bottom_partial",
    "C100_room_refuted",
    "C100_spans_refuted",
    "C100_log_refuted"
   ],
   "note": "False as stated (C100_log_refuted, C100_room_refuted, C100_spans_refuted); what the screen holds and what the terminal shows is proved for all logs of one-span lines."
  },
  {
   "property": "C101",
   "status": "partial",
   "theorems": [
    "C101_exact",
    "C101_busy_refuted",
    "C101_none_lost_partial",
    "C101_lost_refuted"
   ],
   "note": "False as stated (C101_busy_refuted for every course of events, C101_lost_refuted); exact account of what is returned."
  },
  {
   "property": "C102",
   "status": "partial",
   "theorems": [
    "C102_colors_partial",
    "C102_ends_partial",
    "C102_asks",
    "C102_in_order",
    "C102_race_refuted",
    "C102_silent_refuted",
    "C102_key_refuted",
    "C102_pieces_refuted"
   ],
   "note": "False as stated (five kinds of counterexamples); safety and termination proved under the stated conditions."
  },
  {
   "property": "C103",
   "status": "partial",
   "theorems": [
    "C103_early_refuted",
    "C103_late_partial"
   ],
   "note": "False for answers that arrive before reading begins; C64 and C52 say what later answers do."
  },
  {
   "property": "C104",
   "status": "partial",
   "theorems": [
    "C104_ongoing_refuted",
    "C104_lost_refuted",
    "C104_kept_partial",
    "C104_next_partial"
   ],
   "note": "False as stated (C104_ongoing_refuted universal, C104_lost_refuted for all texts); proved for feeds in turn with the calls."
  },
  {
   "property": "C105",
   "status": "partial",
   "theorems": [
    "C105_narrow_partial",
    "C105_run",
    "C105_columns_refuted",
    "C105_timing_refuted",
    "C105_scroll_refuted"
   ],
   "note": "False for characters that do not take exactly one column (three refutations); the case of narrow text and the exact columns of one run are proved."
  },
  {
   "property": "C106",
   "status": "partial",
   "theorems": [
    "C106_eager",
    "C106_raises_partial",
    "C106_shrinks_partial",
    "C106_grows_refuted",
    "C106_scrolled_refuted",
    "C106_shrinks_late_refuted"
   ],
   "note": "Lists and generators agree without condition (C106_eager); false for windows that grow (every text reaching a new cell), for a scroll before the exception, and for a late shrink."
  },
  {
   "property": "C107",
   "status": "partial",
   "theorems": [
    "C107_draw",
    "C107_write",
    "C107_kept_partial",
    "C107_drawn_partial",
    "C107_lost_refuted"
   ],
   "note": "False as stated (C107_lost_refuted for every state, cell and continuation); proved for every interleaving in which no change is noted between gathering and clearing."
  },
  {
   "property": "C108",
   "status": "partial",
   "theorems": [
    "C108_spans",
    "C108_strings_partial",
    "C108_number_refuted",
    "C108_controls_refuted",
    "C108_redraw_refuted",
    "C108_title_refuted",
    "C108_description_refuted"
   ],
   "note": "C108_spans is the whole claim for spans. For strings the final bytes _, E and e are excepted (C108_number_refuted shows _ does occur). Refuted for redraws, titles, color descriptions and control characters, in general form."
  },
  {
   "property": "C109",
   "status": "partial",
   "theorems": [
    "C109_instant",
    "C109_draw_refuted",
    "C109_redraw_partial",
    "C109_redraw_refuted"
   ],
   "note": "C109_instant is the whole claim about instants; C109_draw_refuted: a lost rest is never drawn again (universal); C109_redraw_partial: characters and attributes recovered; C109_redraw_refuted: attributes of the cut remain."
  },
  {
   "property": "C110",
   "status": "proved",
   "theorems": [
    "C110_windows",
    "C110_overlap"
   ],
   "note": "C110_windows: screens apart, any interleaving; C110_overlap: any two screens sharing a cell."
  },
  {
   "property": "C111",
   "status": "partial",
   "theorems": [
    "C111_resize",
    "C111_write",
    "C111_same_size",
    "C111_shrink_refuted",
    "C111_grow_refuted",
    "C111_synced_partial",
    "C111_ghost_refuted"
   ],
   "note": "C111_same_size: no failure at an unchanged size. C111_shrink_refuted, C111_grow_refuted: for every screen and smaller or wider size some order makes the write fail. C111_synced_partial: agreement where no store falls into a clear; C111_ghost_refuted: what happens where one does."
  },
  {
   "property": "C112",
   "status": "partial",
   "theorems": [
    "C112_session",
    "C112_drawn",
    "C112_nested_refuted",
    "C112_entry_refuted",
    "C112_redraw_refuted"
   ],
   "note": "C112_session and C112_drawn are the claim. C112_nested_refuted (all bodies), C112_entry_refuted (all bodies), C112_redraw_refuted (all sizes from 8 columns) are the exceptions."
  },
  {
   "property": "C113",
   "status": "partial",
   "theorems": [
    "C113_write",
    "C113_never_fails",
    "C113_apart",
    "C113_truthful_partial",
    "C113_tangled_refuted",
    "C113_left"
   ],
   "note": "C113_write, C113_never_fails, C113_apart and C113_left are the claim in full. C113_truthful_partial is the part of the same-cell claim that holds; C113_tangled_refuted shows, for all screens, cells and pairs of characters, that it fails without its hypothesis."
  },
  {
   "property": "C114",
   "status": "proved",
   "theorems": [
    "C114_returned",
    "C114_terminal",
    "C114_untouched",
    "C114_sent",
    "C114_frame",
    "C114_back_refuted"
   ],
   "note": "C114_returned, C114_terminal, C114_untouched, C114_sent and C114_frame are the claim; C114_back_refuted is its exception. C114_untouched is stated for writes that do not scroll."
  },
  {
   "property": "C115",
   "status": "proved",
   "theorems": [
    "C115_readme_refuted",
    "C115_animation"
   ],
   "note": "C115_animation is the claim about the program with the places given; C115_readme_refuted is the program as printed (no cursor argument). Sleeping is left out; AssertionError is a user error."
  },
  {
   "property": "C116",
   "status": "proved",
   "theorems": [
    "C116_redraw",
    "C116_cut",
    "C116_attributes",
    "C116_right",
    "C116_look"
   ],
   "note": "This is the exact account of what C36 and C109 refute (a redraw is not the picture of a draw). Spans as in C35: printable text, attributes reset, opaque colours given by value."
  },
  {
   "property": "C117",
   "status": "proved",
   "theorems": [
    "C117_shown",
    "C117_session",
    "C117_leak",
    "C117_recovery",
    "C117_recovery_unreset",
    "C117_unreset"
   ],
   "note": "C117_shown: emulator = display, pen, pending cells, rest untouched, for any events; C117_session: the same through Terminal.write/clear/draw; C117_leak: which cells attributes left on reach; C117_recovery(_unreset): draw, clear, and the screen is right from then on; C117_unreset: spans with reset_after=False. Generalises C36, C92 and C116. Writes stay within the conditions of C35 (calm entries, colors by value); the emulator models SGR, cursor moves and autowrap (Vt.v)."
  },
  {
   "property": "C118",
   "status": "proved",
   "theorems": [
    "C118_shown",
    "C118_repaint",
    "C118_kept",
    "C118_redraw",
    "C118_terminal",
    "C118_painter",
    "C118_redraw_painter",
    "C118_uv",
    "C118_same_text_refuted"
   ],
   "note": "C118_shown: emulator = view for any happenings; C118_repaint: clear, paint, draw after any history and resize; C118_kept: what happens without the clear (and the witness C118_same_text_refuted); C118_redraw: full redraws lose the colors; C118_terminal: Terminal.size with painting listeners, turn by turn; C118_painter, C118_redraw_painter: loops of the kind of experiments/resize.py, right and wrong; C118_uv: experiments/resize.py itself (floats included: the channels stay in 0..255). Listeners do not read the size themselves (C43 says what happens if one does). Writes stay within the conditions of C35. The theorems about draw() need that nothing is due outside the screen (see C38_outside_refuted for what happens then)."
  },
  {
   "property": "C119",
   "status": "proved",
   "theorems": [
    "C119_drawing",
    "C119_redraw",
    "C119_mixed",
    "C119_climbs",
    "C119_below",
    "C119_last_cell"
   ],
   "note": "C119_drawing, C119_redraw and C119_mixed use the emulator of C35; lone_ok excludes texts of two or more characters that start in the last cell, which C119_last_cell covers (two characters, screen not scrolled). C119_climbs, C119_below and C119_last_cell describe the behaviour as it is, not as the documentation suggests. The cache hypothesis (tainted) says that each cached list is the right one, possibly with line feeds after its last character."
  },
  {
   "property": "C120",
   "status": "partial",
   "theorems": [
    "C120_lines",
    "C120_two_lines",
    "C120_shown",
    "C120_misplaced",
    "C120_column_refuted"
   ],
   "note": "C120_lines and C120_shown cover one Span per entry (C125 covers several). C120_column_refuted: that each line starts in the column of the first one is false. C120_misplaced describes the behaviour as it is, for Spans that are reset and one break; the terminal is the emulator of C35, whose line feed also returns to column 0."
  },
  {
   "property": "C121",
   "status": "partial",
   "theorems": [
    "C121_meaning",
    "C121_one_meaning",
    "C121_styles_partial",
    "C121_printed",
    "C121_color_refuted",
    "C121_unprinted",
    "C121_adjacent_refuted",
    "C121_lost_refuted",
    "C121_trailing",
    "C121_index",
    "C121_beyond",
    "C121_hex",
    "C121_rgb",
    "C121_css",
    "C121_names",
    "C121_bare_hex_refuted"
   ],
   "note": "False as stated for colors (C121_color_refuted: Span asks the string it is given for .ansi), for adjacent tags (C121_adjacent_refuted), for closing brackets in texts (C121_lost_refuted) and for hexadecimal digits without # (C121_bare_hex_refuted); the rest is proved without bounds."
  },
  {
   "property": "C122",
   "status": "partial",
   "theorems": [
    "C122_text",
    "C122_colors",
    "C122_document",
    "C122_terminal",
    "C122_films",
    "C122_films_terminal",
    "C122_gap_refuted",
    "C122_unexpressed",
    "C122_scrolled_refuted"
   ],
   "note": "C122_text and C122_document for every history without scrolling; C122_colors with the condition on gaps, C122_terminal against the emulator. False in full: C122_gap_refuted, C122_unexpressed, C122_scrolled_refuted. C122_films, C122_films_terminal: the same for translucent content."
  },
  {
   "property": "C123",
   "status": "partial",
   "theorems": [
    "C123_snapshot",
    "C123_window_partial",
    "C123_cut_refuted",
    "C123_raising_refuted"
   ],
   "note": "C123_snapshot is the claim for an unchanged window. C123_window_partial: what is exported and what changes otherwise. C123_cut_refuted (for every program and every window narrower or lower by 17 pixels) and C123_raising_refuted (for every state) are where it fails."
  },
  {
   "property": "C124",
   "status": "partial",
   "theorems": [
    "C124_equivalence",
    "C124_meaning",
    "C124_interchangeable",
    "C124_hash_partial",
    "C124_hash_refuted",
    "C124_colors_refuted",
    "C124_spaces_refuted"
   ],
   "note": "C124_equivalence, C124_meaning and C124_interchangeable are the claim without the hashes. C124_hash_partial: equal hashes when the colors were made in the same way; C124_hash_refuted (for every color, text, link and attributes), C124_colors_refuted and C124_spaces_refuted are where it fails."
  },
  {
   "property": "C125",
   "status": "partial",
   "theorems": [
    "C125_flow",
    "C125_shown",
    "C125_cut",
    "C125_full_refuted"
   ],
   "note": "C125_flow and C125_shown are the claim; C125_cut says what happens to the rest of a write that is cut off. C125_full_refuted (for every screen, start, text that ends in the last cell and following Span) is where it is false."
  },
  {
   "property": "C126",
   "status": "partial",
   "theorems": [
    "C126_interchangeable",
    "C126_exported",
    "C126_scrolled_refuted"
   ],
   "note": "C126_interchangeable and C126_exported are the claim for histories that do not scroll. C126_scrolled_refuted: false after any scroll, for all equal spans with different hashes."
  }
 ]
}
