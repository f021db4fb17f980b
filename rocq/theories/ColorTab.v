(** color_info.py, transcribed verbatim.  Definitions only. *)
From Coq Require Import ZArith List String.
From Verif Require Import PyBase.
Import ListNotations.
Open Scope Z_scope.

(** color_info.py:8-265 *)
Definition COLOR_TABLE : list (Z * Z * Z) :=
  [ (0, 0, 0); (170, 0, 0); (0, 170, 0); (170, 85, 0); (0, 0, 170); (170, 0, 170);
    (0, 170, 170); (170, 170, 170); (85, 85, 85); (255, 85, 85); (85, 255, 85); (255, 255, 85);
    (85, 85, 255); (255, 85, 255); (85, 255, 255); (255, 255, 255); (0, 0, 0); (0, 0, 95);
    (0, 0, 135); (0, 0, 175); (0, 0, 215); (0, 0, 255); (0, 95, 0); (0, 95, 95);
    (0, 95, 135); (0, 95, 175); (0, 95, 215); (0, 95, 255); (0, 135, 0); (0, 135, 95);
    (0, 135, 135); (0, 135, 175); (0, 135, 215); (0, 135, 255); (0, 175, 0); (0, 175, 95);
    (0, 175, 135); (0, 175, 175); (0, 175, 215); (0, 175, 255); (0, 215, 0); (0, 215, 95);
    (0, 215, 135); (0, 215, 175); (0, 215, 215); (0, 215, 255); (0, 255, 0); (0, 255, 95);
    (0, 255, 135); (0, 255, 175); (0, 255, 215); (0, 255, 255); (95, 0, 0); (95, 0, 95);
    (95, 0, 135); (95, 0, 175); (95, 0, 215); (95, 0, 255); (95, 95, 0); (95, 95, 95);
    (95, 95, 135); (95, 95, 175); (95, 95, 215); (95, 95, 255); (95, 135, 0); (95, 135, 95);
    (95, 135, 135); (95, 135, 175); (95, 135, 215); (95, 135, 255); (95, 175, 0); (95, 175, 95);
    (95, 175, 135); (95, 175, 175); (95, 175, 215); (95, 175, 255); (95, 215, 0); (95, 215, 95);
    (95, 215, 135); (95, 215, 175); (95, 215, 215); (95, 215, 255); (95, 255, 0); (95, 255, 95);
    (95, 255, 135); (95, 255, 175); (95, 255, 215); (95, 255, 255); (135, 0, 0); (135, 0, 95);
    (135, 0, 135); (135, 0, 175); (135, 0, 215); (135, 0, 255); (135, 95, 0); (135, 95, 95);
    (135, 95, 135); (135, 95, 175); (135, 95, 215); (135, 95, 255); (135, 135, 0); (135, 135, 95);
    (135, 135, 135); (135, 135, 175); (135, 135, 215); (135, 135, 255); (135, 175, 0); (135, 175, 95);
    (135, 175, 135); (135, 175, 175); (135, 175, 215); (135, 175, 255); (135, 215, 0); (135, 215, 95);
    (135, 215, 135); (135, 215, 175); (135, 215, 215); (135, 215, 255); (135, 255, 0); (135, 255, 95);
    (135, 255, 135); (135, 255, 175); (135, 255, 215); (135, 255, 255); (175, 0, 0); (175, 0, 95);
    (175, 0, 135); (175, 0, 175); (175, 0, 215); (175, 0, 255); (175, 95, 0); (175, 95, 95);
    (175, 95, 135); (175, 95, 175); (175, 95, 215); (175, 95, 255); (175, 135, 0); (175, 135, 95);
    (175, 135, 135); (175, 135, 175); (175, 135, 215); (175, 135, 255); (175, 175, 0); (175, 175, 95);
    (175, 175, 135); (175, 175, 175); (175, 175, 215); (175, 175, 255); (175, 215, 0); (175, 215, 95);
    (175, 215, 135); (175, 215, 175); (175, 215, 215); (175, 215, 255); (175, 255, 0); (175, 255, 95);
    (175, 255, 135); (175, 255, 175); (175, 255, 215); (175, 255, 255); (215, 0, 0); (215, 0, 95);
    (215, 0, 135); (215, 0, 175); (215, 0, 215); (215, 0, 255); (215, 95, 0); (215, 95, 95);
    (215, 95, 135); (215, 95, 175); (215, 95, 215); (215, 95, 255); (215, 135, 0); (215, 135, 95);
    (215, 135, 135); (215, 135, 175); (215, 135, 215); (215, 135, 255); (215, 175, 0); (215, 175, 95);
    (215, 175, 135); (215, 175, 175); (215, 175, 215); (215, 175, 255); (215, 215, 0); (215, 215, 95);
    (215, 215, 135); (215, 215, 175); (215, 215, 215); (215, 215, 255); (215, 255, 0); (215, 255, 95);
    (215, 255, 135); (215, 255, 175); (215, 255, 215); (215, 255, 255); (255, 0, 0); (255, 0, 95);
    (255, 0, 135); (255, 0, 175); (255, 0, 215); (255, 0, 255); (255, 95, 0); (255, 95, 95);
    (255, 95, 135); (255, 95, 175); (255, 95, 215); (255, 95, 255); (255, 135, 0); (255, 135, 95);
    (255, 135, 135); (255, 135, 175); (255, 135, 215); (255, 135, 255); (255, 175, 0); (255, 175, 95);
    (255, 175, 135); (255, 175, 175); (255, 175, 215); (255, 175, 255); (255, 215, 0); (255, 215, 95);
    (255, 215, 135); (255, 215, 175); (255, 215, 215); (255, 215, 255); (255, 255, 0); (255, 255, 95);
    (255, 255, 135); (255, 255, 175); (255, 255, 215); (255, 255, 255); (8, 8, 8); (18, 18, 18);
    (28, 28, 28); (38, 38, 38); (48, 48, 48); (58, 58, 58); (68, 68, 68); (78, 78, 78);
    (88, 88, 88); (98, 98, 98); (108, 108, 108); (118, 118, 118); (128, 128, 128); (138, 138, 138);
    (148, 148, 148); (158, 158, 158); (168, 168, 168); (178, 178, 178); (188, 188, 188); (198, 198, 198);
    (208, 208, 208); (218, 218, 218); (228, 228, 228); (238, 238, 238) ].

(** color_info.py:268-416 (CSS_COLORS) followed by 420-425 *)
Definition NAMED_COLORS_src : list (string * string) :=
  [ ("aliceblue", "#f0f8ff")%string;
    ("antiquewhite", "#faebd7")%string;
    ("aqua", "#00ffff")%string;
    ("aquamarine", "#7fffd4")%string;
    ("azure", "#f0ffff")%string;
    ("beige", "#f5f5dc")%string;
    ("bisque", "#ffe4c4")%string;
    ("black", "#000000")%string;
    ("blanchedalmond", "#ffebcd")%string;
    ("blue", "#0000ff")%string;
    ("blueviolet", "#8a2be2")%string;
    ("brown", "#a52a2a")%string;
    ("burlywood", "#deb887")%string;
    ("cadetblue", "#5f9ea0")%string;
    ("chartreuse", "#7fff00")%string;
    ("chocolate", "#d2691e")%string;
    ("coral", "#ff7f50")%string;
    ("cornflowerblue", "#6495ed")%string;
    ("cornsilk", "#fff8dc")%string;
    ("crimson", "#dc143c")%string;
    ("cyan", "#00ffff")%string;
    ("darkblue", "#00008b")%string;
    ("darkcyan", "#008b8b")%string;
    ("darkgoldenrod", "#b8860b")%string;
    ("darkgray", "#a9a9a9")%string;
    ("darkgrey", "#a9a9a9")%string;
    ("darkgreen", "#006400")%string;
    ("darkkhaki", "#bdb76b")%string;
    ("darkmagenta", "#8b008b")%string;
    ("darkolivegreen", "#556b2f")%string;
    ("darkorange", "#ff8c00")%string;
    ("darkorchid", "#9932cc")%string;
    ("darkred", "#8b0000")%string;
    ("darksalmon", "#e9967a")%string;
    ("darkseagreen", "#8fbc8f")%string;
    ("darkslateblue", "#483d8b")%string;
    ("darkslategray", "#2f4f4f")%string;
    ("darkslategrey", "#2f4f4f")%string;
    ("darkturquoise", "#00ced1")%string;
    ("darkviolet", "#9400d3")%string;
    ("deeppink", "#ff1493")%string;
    ("deepskyblue", "#00bfff")%string;
    ("dimgray", "#696969")%string;
    ("dimgrey", "#696969")%string;
    ("dodgerblue", "#1e90ff")%string;
    ("firebrick", "#b22222")%string;
    ("floralwhite", "#fffaf0")%string;
    ("forestgreen", "#228b22")%string;
    ("fuchsia", "#ff00ff")%string;
    ("gainsboro", "#dcdcdc")%string;
    ("ghostwhite", "#f8f8ff")%string;
    ("gold", "#ffd700")%string;
    ("goldenrod", "#daa520")%string;
    ("gray", "#808080")%string;
    ("grey", "#808080")%string;
    ("green", "#008000")%string;
    ("greenyellow", "#adff2f")%string;
    ("honeydew", "#f0fff0")%string;
    ("hotpink", "#ff69b4")%string;
    ("indianred", "#cd5c5c")%string;
    ("indigo", "#4b0082")%string;
    ("ivory", "#fffff0")%string;
    ("khaki", "#f0e68c")%string;
    ("lavender", "#e6e6fa")%string;
    ("lavenderblush", "#fff0f5")%string;
    ("lawngreen", "#7cfc00")%string;
    ("lemonchiffon", "#fffacd")%string;
    ("lightblue", "#add8e6")%string;
    ("lightcoral", "#f08080")%string;
    ("lightcyan", "#e0ffff")%string;
    ("lightgoldenrodyellow", "#fafad2")%string;
    ("lightgray", "#d3d3d3")%string;
    ("lightgrey", "#d3d3d3")%string;
    ("lightgreen", "#90ee90")%string;
    ("lightpink", "#ffb6c1")%string;
    ("lightsalmon", "#ffa07a")%string;
    ("lightseagreen", "#20b2aa")%string;
    ("lightskyblue", "#87cefa")%string;
    ("lightslategray", "#778899")%string;
    ("lightslategrey", "#778899")%string;
    ("lightsteelblue", "#b0c4de")%string;
    ("lightyellow", "#ffffe0")%string;
    ("lime", "#00ff00")%string;
    ("limegreen", "#32cd32")%string;
    ("linen", "#faf0e6")%string;
    ("magenta", "#ff00ff")%string;
    ("maroon", "#800000")%string;
    ("mediumaquamarine", "#66cdaa")%string;
    ("mediumblue", "#0000cd")%string;
    ("mediumorchid", "#ba55d3")%string;
    ("mediumpurple", "#9370db")%string;
    ("mediumseagreen", "#3cb371")%string;
    ("mediumslateblue", "#7b68ee")%string;
    ("mediumspringgreen", "#00fa9a")%string;
    ("mediumturquoise", "#48d1cc")%string;
    ("mediumvioletred", "#c71585")%string;
    ("midnightblue", "#191970")%string;
    ("mintcream", "#f5fffa")%string;
    ("mistyrose", "#ffe4e1")%string;
    ("moccasin", "#ffe4b5")%string;
    ("navajowhite", "#ffdead")%string;
    ("navy", "#000080")%string;
    ("oldlace", "#fdf5e6")%string;
    ("olive", "#808000")%string;
    ("olivedrab", "#6b8e23")%string;
    ("orange", "#ffa500")%string;
    ("orangered", "#ff4500")%string;
    ("orchid", "#da70d6")%string;
    ("palegoldenrod", "#eee8aa")%string;
    ("palegreen", "#98fb98")%string;
    ("paleturquoise", "#afeeee")%string;
    ("palevioletred", "#db7093")%string;
    ("papayawhip", "#ffefd5")%string;
    ("peachpuff", "#ffdab9")%string;
    ("peru", "#cd853f")%string;
    ("pink", "#ffc0cb")%string;
    ("plum", "#dda0dd")%string;
    ("powderblue", "#b0e0e6")%string;
    ("purple", "#800080")%string;
    ("red", "#ff0000")%string;
    ("rosybrown", "#bc8f8f")%string;
    ("royalblue", "#4169e1")%string;
    ("saddlebrown", "#8b4513")%string;
    ("salmon", "#fa8072")%string;
    ("sandybrown", "#f4a460")%string;
    ("seagreen", "#2e8b57")%string;
    ("seashell", "#fff5ee")%string;
    ("sienna", "#a0522d")%string;
    ("silver", "#c0c0c0")%string;
    ("skyblue", "#87ceeb")%string;
    ("slateblue", "#6a5acd")%string;
    ("slategray", "#708090")%string;
    ("slategrey", "#708090")%string;
    ("snow", "#fffafa")%string;
    ("springgreen", "#00ff7f")%string;
    ("steelblue", "#4682b4")%string;
    ("tan", "#d2b48c")%string;
    ("teal", "#008080")%string;
    ("thistle", "#d8bfd8")%string;
    ("tomato", "#ff6347")%string;
    ("turquoise", "#40e0d0")%string;
    ("violet", "#ee82ee")%string;
    ("wheat", "#f5deb3")%string;
    ("white", "#ffffff")%string;
    ("whitesmoke", "#f5f5f5")%string;
    ("yellow", "#ffff00")%string;
    ("yellowgreen", "#9acd32")%string;
    ("slate", "#717e8d")%string;
    ("zenith", "#4a7a9f")%string;
    ("celadon", "#afe1af")%string;
    ("carmine", "#d70040")%string ].

(** color_info.py:418-426 *)
Definition NAMED_COLORS : list (str * str) :=
  map (fun kv => (lit (fst kv), lit (snd kv))) NAMED_COLORS_src.
