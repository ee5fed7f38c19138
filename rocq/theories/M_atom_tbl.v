(** The tables of names of lib/whatwg/html/parsing/atom_tbl.cpp: from names to numbers and from numbers to names, for tags,
    attributes and namespaces.  Definitions only; made from the source by a script. *)
From Coq Require Import ZArith List String.
Import ListNotations.
Open Scope string_scope.
Open Scope Z_scope.

(** atom_tbl.cpp:7-434, tag_atom_tbl, with the numbers of the enumerators (atom_defs.hpp:18-446) *)
Definition tag_atom_tbl : list (string * Z) := [
  ("a", 1); ("abbr", 2); ("abs", 3); ("address", 4); ("altGlyph", 5); ("altGlyphDef", 6); ("altGlyphItem", 7); ("altglyph", 8); ("altglyphdef", 9);
  ("altglyphitem", 10); ("and", 11); ("animate", 12); ("animateColor", 13); ("animateMotion", 14); ("animateTransform", 15); ("animatecolor", 16);
  ("animatemotion", 17); ("animatetransform", 18); ("annotation", 19); ("annotation-xml", 20); ("applet", 21); ("apply", 22); ("approx", 23);
  ("arccos", 24); ("arccosh", 25); ("arccot", 26); ("arccoth", 27); ("arccsc", 28); ("arccsch", 29); ("arcsec", 30); ("arcsech", 31); ("arcsin", 32);
  ("arcsinh", 33); ("arctan", 34); ("arctanh", 35); ("area", 36); ("arg", 37); ("article", 38); ("aside", 39); ("audio", 40); ("b", 41);
  ("base", 42); ("basefont", 43); ("bdi", 44); ("bdo", 45); ("bgsound", 46); ("big", 47); ("bind", 48); ("blockquote", 49); ("body", 50); ("br", 51);
  ("button", 52); ("bvar", 53); ("canvas", 54); ("caption", 55); ("card", 56); ("cartesianproduct", 57); ("cbytes", 58); ("ceiling", 59);
  ("center", 60); ("cerror", 61); ("ci", 62); ("circle", 63); ("cite", 64); ("clipPath", 65); ("clippath", 66); ("cn", 67); ("code", 68);
  ("codomain", 69); ("col", 70); ("colgroup", 71); ("complexes", 72); ("compose", 73); ("condition", 74); ("conjugate", 75); ("cos", 76);
  ("cosh", 77); ("cot", 78); ("coth", 79); ("cs", 80); ("csc", 81); ("csch", 82); ("csymbol", 83); ("curl", 84); ("data", 85); ("datalist", 86);
  ("dd", 87); ("declare", 88); ("defs", 89); ("degree", 90); ("del", 91); ("desc", 92); ("details", 93); ("determinant", 94); ("dfn", 95);
  ("dialog", 96); ("diff", 97); ("dir", 98); ("discard", 99); ("div", 100); ("divergence", 101); ("divide", 102); ("dl", 103); ("domain", 104);
  ("domainofapplication", 105); ("dt", 106); ("ellipse", 107); ("em", 108); ("embed", 109); ("emptyset", 110); ("eq", 111); ("equivalent", 112);
  ("eulergamma", 113); ("exists", 114); ("exp", 115); ("exponentiale", 116); ("factorial", 117); ("factorof", 118); ("false", 119); ("feBlend", 120);
  ("feColorMatrix", 121); ("feComponentTransfer", 122); ("feComposite", 123); ("feConvolveMatrix", 124); ("feDiffuseLighting", 125);
  ("feDisplacementMap", 126); ("feDistantLight", 127); ("feDropShadow", 128); ("feFlood", 129); ("feFuncA", 130); ("feFuncB", 131); ("feFuncG", 132);
  ("feFuncR", 133); ("feGaussianBlur", 134); ("feImage", 135); ("feMerge", 136); ("feMergeNode", 137); ("feMorphology", 138); ("feOffset", 139);
  ("fePointLight", 140); ("feSpecularLighting", 141); ("feSpotLight", 142); ("feTile", 143); ("feTurbulence", 144); ("feblend", 145);
  ("fecolormatrix", 146); ("fecomponenttransfer", 147); ("fecomposite", 148); ("feconvolvematrix", 149); ("fediffuselighting", 150);
  ("fedisplacementmap", 151); ("fedistantlight", 152); ("fedropshadow", 153); ("feflood", 154); ("fefunca", 155); ("fefuncb", 156); ("fefuncg", 157);
  ("fefuncr", 158); ("fegaussianblur", 159); ("feimage", 160); ("femerge", 161); ("femergenode", 162); ("femorphology", 163); ("feoffset", 164);
  ("fepointlight", 165); ("fespecularlighting", 166); ("fespotlight", 167); ("fetile", 168); ("feturbulence", 169); ("fieldset", 170);
  ("figcaption", 171); ("figure", 172); ("filter", 173); ("floor", 174); ("fn", 175); ("font", 176); ("footer", 177); ("forall", 178);
  ("foreignObject", 179); ("foreignobject", 180); ("form", 181); ("frame", 182); ("frameset", 183); ("g", 184); ("gcd", 185); ("geq", 186);
  ("glyphRef", 187); ("glyphref", 188); ("grad", 189); ("gt", 190); ("h1", 191); ("h2", 192); ("h3", 193); ("h4", 194); ("h5", 195); ("h6", 196);
  ("head", 197); ("header", 198); ("hgroup", 199); ("hr", 200); ("html", 201); ("i", 202); ("ident", 203); ("iframe", 204); ("image", 205);
  ("imaginary", 206); ("imaginaryi", 207); ("img", 208); ("implies", 209); ("in", 210); ("infinity", 211); ("input", 212); ("ins", 213);
  ("int", 214); ("integers", 215); ("intersect", 216); ("interval", 217); ("inverse", 218); ("kbd", 219); ("keygen", 220); ("label", 221);
  ("lambda", 222); ("laplacian", 223); ("lcm", 224); ("legend", 225); ("leq", 226); ("li", 227); ("limit", 228); ("line", 229);
  ("linearGradient", 230); ("lineargradient", 231); ("link", 232); ("list", 233); ("listing", 234); ("ln", 235); ("log", 236); ("logbase", 237);
  ("lowlimit", 238); ("lt", 239); ("maction", 240); ("main", 241); ("maligngroup", 242); ("malignmark", 243); ("map", 244); ("mark", 245);
  ("marker", 246); ("marquee", 247); ("mask", 248); ("math", 249); ("matrix", 250); ("matrixrow", 251); ("max", 252); ("mean", 253); ("median", 254);
  ("menclose", 255); ("menu", 256); ("merror", 257); ("meta", 258); ("metadata", 259); ("meter", 260); ("mfenced", 261); ("mfrac", 262);
  ("mglyph", 263); ("mi", 264); ("min", 265); ("minus", 266); ("mlabeledtr", 267); ("mlongdiv", 268); ("mmultiscripts", 269); ("mn", 270);
  ("mo", 271); ("mode", 272); ("moment", 273); ("momentabout", 274); ("mover", 275); ("mpadded", 276); ("mpath", 277); ("mphantom", 278);
  ("mprescripts", 279); ("mroot", 280); ("mrow", 281); ("ms", 282); ("mscarries", 283); ("mscarry", 284); ("msgroup", 285); ("msline", 286);
  ("mspace", 287); ("msqrt", 288); ("msrow", 289); ("mstack", 290); ("mstyle", 291); ("msub", 292); ("msubsup", 293); ("msup", 294); ("mtable", 295);
  ("mtd", 296); ("mtext", 297); ("mtr", 298); ("munder", 299); ("munderover", 300); ("naturalnumbers", 301); ("nav", 302); ("neq", 303);
  ("nobr", 304); ("noembed", 305); ("noframes", 306); ("none", 307); ("noscript", 308); ("not", 309); ("notanumber", 310); ("notin", 311);
  ("notprsubset", 312); ("notsubset", 313); ("object", 314); ("ol", 315); ("optgroup", 316); ("option", 317); ("or", 318); ("otherwise", 319);
  ("outerproduct", 320); ("output", 321); ("p", 322); ("param", 323); ("partialdiff", 324); ("path", 325); ("pattern", 326); ("pi", 327);
  ("picture", 328); ("piece", 329); ("piecewise", 330); ("plaintext", 331); ("plus", 332); ("polygon", 333); ("polyline", 334); ("power", 335);
  ("pre", 336); ("primes", 337); ("product", 338); ("progress", 339); ("prsubset", 340); ("q", 341); ("quotient", 342); ("radialGradient", 343);
  ("radialgradient", 344); ("rationals", 345); ("rb", 346); ("real", 347); ("reals", 348); ("rect", 349); ("reln", 350); ("rem", 351); ("root", 352);
  ("rp", 353); ("rt", 354); ("rtc", 355); ("ruby", 356); ("s", 357); ("samp", 358); ("scalarproduct", 359); ("script", 360); ("sdev", 361);
  ("sec", 362); ("sech", 363); ("section", 364); ("select", 365); ("selector", 366); ("semantics", 367); ("sep", 368); ("set", 369);
  ("setdiff", 370); ("share", 371); ("sin", 372); ("sinh", 373); ("slot", 374); ("small", 375); ("source", 376); ("span", 377); ("stop", 378);
  ("strike", 379); ("strong", 380); ("style", 381); ("sub", 382); ("subset", 383); ("sum", 384); ("summary", 385); ("sup", 386); ("svg", 387);
  ("switch", 388); ("symbol", 389); ("table", 390); ("tan", 391); ("tanh", 392); ("tbody", 393); ("td", 394); ("template", 395); ("tendsto", 396);
  ("text", 397); ("textPath", 398); ("textarea", 399); ("textpath", 400); ("tfoot", 401); ("th", 402); ("thead", 403); ("time", 404); ("times", 405);
  ("title", 406); ("tr", 407); ("track", 408); ("transpose", 409); ("true", 410); ("tspan", 411); ("tt", 412); ("u", 413); ("ul", 414);
  ("union", 415); ("uplimit", 416); ("use", 417); ("var", 418); ("variance", 419); ("vector", 420); ("vectorproduct", 421); ("video", 422);
  ("view", 423); ("wbr", 424); ("xmp", 425); ("xor", 426)].
(** atom_tbl.cpp:1081-1129 *)
Definition tag_name_tbl : list string := [
  ""; "a"; "abbr"; "abs"; "address"; "altGlyph"; "altGlyphDef"; "altGlyphItem"; "altglyph"; "altglyphdef"; "altglyphitem"; "and"; "animate";
  "animateColor"; "animateMotion"; "animateTransform"; "animatecolor"; "animatemotion"; "animatetransform"; "annotation"; "annotation-xml"; "applet";
  "apply"; "approx"; "arccos"; "arccosh"; "arccot"; "arccoth"; "arccsc"; "arccsch"; "arcsec"; "arcsech"; "arcsin"; "arcsinh"; "arctan"; "arctanh";
  "area"; "arg"; "article"; "aside"; "audio"; "b"; "base"; "basefont"; "bdi"; "bdo"; "bgsound"; "big"; "bind"; "blockquote"; "body"; "br"; "button";
  "bvar"; "canvas"; "caption"; "card"; "cartesianproduct"; "cbytes"; "ceiling"; "center"; "cerror"; "ci"; "circle"; "cite"; "clipPath"; "clippath";
  "cn"; "code"; "codomain"; "col"; "colgroup"; "complexes"; "compose"; "condition"; "conjugate"; "cos"; "cosh"; "cot"; "coth"; "cs"; "csc"; "csch";
  "csymbol"; "curl"; "data"; "datalist"; "dd"; "declare"; "defs"; "degree"; "del"; "desc"; "details"; "determinant"; "dfn"; "dialog"; "diff"; "dir";
  "discard"; "div"; "divergence"; "divide"; "dl"; "domain"; "domainofapplication"; "dt"; "ellipse"; "em"; "embed"; "emptyset"; "eq"; "equivalent";
  "eulergamma"; "exists"; "exp"; "exponentiale"; "factorial"; "factorof"; "false"; "feBlend"; "feColorMatrix"; "feComponentTransfer"; "feComposite";
  "feConvolveMatrix"; "feDiffuseLighting"; "feDisplacementMap"; "feDistantLight"; "feDropShadow"; "feFlood"; "feFuncA"; "feFuncB"; "feFuncG";
  "feFuncR"; "feGaussianBlur"; "feImage"; "feMerge"; "feMergeNode"; "feMorphology"; "feOffset"; "fePointLight"; "feSpecularLighting"; "feSpotLight";
  "feTile"; "feTurbulence"; "feblend"; "fecolormatrix"; "fecomponenttransfer"; "fecomposite"; "feconvolvematrix"; "fediffuselighting";
  "fedisplacementmap"; "fedistantlight"; "fedropshadow"; "feflood"; "fefunca"; "fefuncb"; "fefuncg"; "fefuncr"; "fegaussianblur"; "feimage";
  "femerge"; "femergenode"; "femorphology"; "feoffset"; "fepointlight"; "fespecularlighting"; "fespotlight"; "fetile"; "feturbulence"; "fieldset";
  "figcaption"; "figure"; "filter"; "floor"; "fn"; "font"; "footer"; "forall"; "foreignObject"; "foreignobject"; "form"; "frame"; "frameset"; "g";
  "gcd"; "geq"; "glyphRef"; "glyphref"; "grad"; "gt"; "h1"; "h2"; "h3"; "h4"; "h5"; "h6"; "head"; "header"; "hgroup"; "hr"; "html"; "i"; "ident";
  "iframe"; "image"; "imaginary"; "imaginaryi"; "img"; "implies"; "in"; "infinity"; "input"; "ins"; "int"; "integers"; "intersect"; "interval";
  "inverse"; "kbd"; "keygen"; "label"; "lambda"; "laplacian"; "lcm"; "legend"; "leq"; "li"; "limit"; "line"; "linearGradient"; "lineargradient";
  "link"; "list"; "listing"; "ln"; "log"; "logbase"; "lowlimit"; "lt"; "maction"; "main"; "maligngroup"; "malignmark"; "map"; "mark"; "marker";
  "marquee"; "mask"; "math"; "matrix"; "matrixrow"; "max"; "mean"; "median"; "menclose"; "menu"; "merror"; "meta"; "metadata"; "meter"; "mfenced";
  "mfrac"; "mglyph"; "mi"; "min"; "minus"; "mlabeledtr"; "mlongdiv"; "mmultiscripts"; "mn"; "mo"; "mode"; "moment"; "momentabout"; "mover";
  "mpadded"; "mpath"; "mphantom"; "mprescripts"; "mroot"; "mrow"; "ms"; "mscarries"; "mscarry"; "msgroup"; "msline"; "mspace"; "msqrt"; "msrow";
  "mstack"; "mstyle"; "msub"; "msubsup"; "msup"; "mtable"; "mtd"; "mtext"; "mtr"; "munder"; "munderover"; "naturalnumbers"; "nav"; "neq"; "nobr";
  "noembed"; "noframes"; "none"; "noscript"; "not"; "notanumber"; "notin"; "notprsubset"; "notsubset"; "object"; "ol"; "optgroup"; "option"; "or";
  "otherwise"; "outerproduct"; "output"; "p"; "param"; "partialdiff"; "path"; "pattern"; "pi"; "picture"; "piece"; "piecewise"; "plaintext"; "plus";
  "polygon"; "polyline"; "power"; "pre"; "primes"; "product"; "progress"; "prsubset"; "q"; "quotient"; "radialGradient"; "radialgradient";
  "rationals"; "rb"; "real"; "reals"; "rect"; "reln"; "rem"; "root"; "rp"; "rt"; "rtc"; "ruby"; "s"; "samp"; "scalarproduct"; "script"; "sdev";
  "sec"; "sech"; "section"; "select"; "selector"; "semantics"; "sep"; "set"; "setdiff"; "share"; "sin"; "sinh"; "slot"; "small"; "source"; "span";
  "stop"; "strike"; "strong"; "style"; "sub"; "subset"; "sum"; "summary"; "sup"; "svg"; "switch"; "symbol"; "table"; "tan"; "tanh"; "tbody"; "td";
  "template"; "tendsto"; "text"; "textPath"; "textarea"; "textpath"; "tfoot"; "th"; "thead"; "time"; "times"; "title"; "tr"; "track"; "transpose";
  "true"; "tspan"; "tt"; "u"; "ul"; "union"; "uplimit"; "use"; "var"; "variance"; "vector"; "vectorproduct"; "video"; "view"; "wbr"; "xmp"; "xor"].

(** atom_tbl.cpp:436-1070, attribute_atom_tbl, with the numbers of the enumerators (atom_defs.hpp:448-1083) *)
Definition attribute_atom_tbl : list (string * Z) := [
  ("abbr", 1); ("accent", 2); ("accentunder", 3); ("accept", 4); ("accept-charset", 5); ("accesskey", 6); ("accumulate", 7); ("action", 8);
  ("actiontype", 9); ("actuate", 10); ("additive", 11); ("align", 12); ("alignment-baseline", 13); ("alignmentscope", 14); ("allow", 15);
  ("allowfullscreen", 16); ("allowpaymentrequest", 17); ("alt", 18); ("altimg", 19); ("altimg-height", 20); ("altimg-valign", 21);
  ("altimg-width", 22); ("alttext", 23); ("amplitude", 24); ("annotation-xml", 25); ("arcrole", 26); ("aria-activedescendant", 27);
  ("aria-atomic", 28); ("aria-autocomplete", 29); ("aria-busy", 30); ("aria-checked", 31); ("aria-colcount", 32); ("aria-colindex", 33);
  ("aria-colspan", 34); ("aria-controls", 35); ("aria-current", 36); ("aria-describedby", 37); ("aria-details", 38); ("aria-disabled", 39);
  ("aria-dropeffect", 40); ("aria-errormessage", 41); ("aria-expanded", 42); ("aria-flowto", 43); ("aria-grabbed", 44); ("aria-haspopup", 45);
  ("aria-hidden", 46); ("aria-invalid", 47); ("aria-keyshortcuts", 48); ("aria-label", 49); ("aria-labelledby", 50); ("aria-level", 51);
  ("aria-live", 52); ("aria-modal", 53); ("aria-multiline", 54); ("aria-multiselectable", 55); ("aria-orientation", 56); ("aria-owns", 57);
  ("aria-placeholder", 58); ("aria-posinset", 59); ("aria-pressed", 60); ("aria-readonly", 61); ("aria-relevant", 62); ("aria-required", 63);
  ("aria-roledescription", 64); ("aria-rowcount", 65); ("aria-rowindex", 66); ("aria-rowspan", 67); ("aria-selected", 68); ("aria-setsize", 69);
  ("aria-sort", 70); ("aria-valuemax", 71); ("aria-valuemin", 72); ("aria-valuenow", 73); ("aria-valuetext", 74); ("as", 75); ("async", 76);
  ("attributeName", 77); ("attributeType", 78); ("attributename", 79); ("attributetype", 80); ("autocapitalize", 81); ("autocomplete", 82);
  ("autofocus", 83); ("autoplay", 84); ("azimuth", 85); ("background", 86); ("base", 87); ("baseFrequency", 88); ("baseProfile", 89);
  ("basefrequency", 90); ("baseline", 91); ("baseline-shift", 92); ("baseprofile", 93); ("begin", 94); ("bevelled", 95); ("bias", 96); ("by", 97);
  ("calcMode", 98); ("calcmode", 99); ("cd", 100); ("cdgroup", 101); ("charalign", 102); ("charset", 103); ("charspacing", 104); ("checked", 105);
  ("cite", 106); ("class", 107); ("clip", 108); ("clip-path", 109); ("clip-rule", 110); ("clipPathUnits", 111); ("clippathunits", 112);
  ("close", 113); ("closure", 114); ("color", 115); ("color-interpolation", 116); ("color-interpolation-filters", 117); ("cols", 118);
  ("colspan", 119); ("columnalign", 120); ("columnalignment", 121); ("columnlines", 122); ("columnspacing", 123); ("columnspan", 124);
  ("columnwidth", 125); ("content", 126); ("contenteditable", 127); ("controls", 128); ("coords", 129); ("crossorigin", 130); ("crossout", 131);
  ("cursor", 132); ("cx", 133); ("cy", 134); ("data", 135); ("datetime", 136); ("decimalpoint", 137); ("decoding", 138); ("default", 139);
  ("defer", 140); ("definitionURL", 141); ("definitionurl", 142); ("denomalign", 143); ("depth", 144); ("diffuseConstant", 145);
  ("diffuseconstant", 146); ("dir", 147); ("direction", 148); ("dirname", 149); ("disabled", 150); ("display", 151); ("displaystyle", 152);
  ("divisor", 153); ("dominant-baseline", 154); ("download", 155); ("draggable", 156); ("dur", 157); ("dx", 158); ("dy", 159); ("edge", 160);
  ("edgeMode", 161); ("edgemode", 162); ("elevation", 163); ("encoding", 164); ("enctype", 165); ("end", 166); ("enterkeyhint", 167);
  ("equalcolumns", 168); ("equalrows", 169); ("exponent", 170); ("fence", 171); ("fill", 172); ("fill-opacity", 173); ("fill-rule", 174);
  ("filter", 175); ("filterUnits", 176); ("filterunits", 177); ("flood-color", 178); ("flood-opacity", 179); ("font-family", 180);
  ("font-size", 181); ("font-size-adjust", 182); ("font-stretch", 183); ("font-style", 184); ("font-variant", 185); ("font-weight", 186);
  ("fontfamily", 187); ("fontsize", 188); ("fontstyle", 189); ("fontweight", 190); ("for", 191); ("form", 192); ("formaction", 193);
  ("formenctype", 194); ("formmethod", 195); ("formnovalidate", 196); ("formtarget", 197); ("fr", 198); ("frame", 199); ("framespacing", 200);
  ("from", 201); ("fx", 202); ("fy", 203); ("glyph-orientation-horizontal", 204); ("glyph-orientation-vertical", 205); ("glyphRef", 206);
  ("glyphref", 207); ("gradientTransform", 208); ("gradientUnits", 209); ("gradienttransform", 210); ("gradientunits", 211); ("groupalign", 212);
  ("headers", 213); ("height", 214); ("hidden", 215); ("high", 216); ("href", 217); ("hreflang", 218); ("http-equiv", 219); ("id", 220);
  ("image-rendering", 221); ("imagesizes", 222); ("imagesrcset", 223); ("in", 224); ("in2", 225); ("indentalign", 226); ("indentalignfirst", 227);
  ("indentalignlast", 228); ("indentshift", 229); ("indentshiftfirst", 230); ("indentshiftlast", 231); ("indenttarget", 232); ("index", 233);
  ("infixlinebreakstyle", 234); ("inputmode", 235); ("integer", 236); ("integrity", 237); ("intercept", 238); ("is", 239); ("ismap", 240);
  ("itemid", 241); ("itemprop", 242); ("itemref", 243); ("itemscope", 244); ("itemtype", 245); ("k1", 246); ("k2", 247); ("k3", 248); ("k4", 249);
  ("kernelMatrix", 250); ("kernelUnitLength", 251); ("kernelmatrix", 252); ("kernelunitlength", 253); ("keyPoints", 254); ("keySplines", 255);
  ("keyTimes", 256); ("keypoints", 257); ("keysplines", 258); ("keytimes", 259); ("kind", 260); ("label", 261); ("lang", 262); ("largeop", 263);
  ("leftoverhang", 264); ("length", 265); ("lengthAdjust", 266); ("lengthadjust", 267); ("letter-spacing", 268); ("lighting-color", 269);
  ("limitingConeAngle", 270); ("limitingconeangle", 271); ("linebreak", 272); ("linebreakmultchar", 273); ("linebreakstyle", 274);
  ("lineleading", 275); ("linethickness", 276); ("list", 277); ("loading", 278); ("location", 279); ("longdivstyle", 280); ("loop", 281);
  ("low", 282); ("lquote", 283); ("lspace", 284); ("ltr", 285); ("macros", 286); ("manifest", 287); ("marker-end", 288); ("marker-mid", 289);
  ("marker-start", 290); ("markerHeight", 291); ("markerUnits", 292); ("markerWidth", 293); ("markerheight", 294); ("markerunits", 295);
  ("markerwidth", 296); ("mask", 297); ("mask-type", 298); ("maskContentUnits", 299); ("maskUnits", 300); ("maskcontentunits", 301);
  ("maskunits", 302); ("math", 303); ("math element", 304); ("mathbackground", 305); ("mathcolor", 306); ("mathsize", 307); ("mathvariant", 308);
  ("max", 309); ("maxlength", 310); ("maxsize", 311); ("maxwidth", 312); ("media", 313); ("mediummathspace", 314); ("menclose", 315);
  ("method", 316); ("min", 317); ("minlabelspacing", 318); ("minlength", 319); ("minsize", 320); ("mode", 321); ("movablelimits", 322);
  ("msgroup", 323); ("mslinethickness", 324); ("multiple", 325); ("muted", 326); ("name", 327); ("nargs", 328); ("newline", 329); ("nomodule", 330);
  ("nonce", 331); ("notation", 332); ("novalidate", 333); ("numOctaves", 334); ("numalign", 335); ("number", 336); ("numoctaves", 337);
  ("occurrence", 338); ("offset", 339); ("onabort", 340); ("onafterprint", 341); ("onauxclick", 342); ("onbeforeprint", 343);
  ("onbeforeunload", 344); ("onbegin", 345); ("onblur", 346); ("oncancel", 347); ("oncanplay", 348); ("oncanplaythrough", 349); ("onchange", 350);
  ("onclick", 351); ("onclose", 352); ("oncontextmenu", 353); ("oncopy", 354); ("oncuechange", 355); ("oncut", 356); ("ondblclick", 357);
  ("ondrag", 358); ("ondragend", 359); ("ondragenter", 360); ("ondragexit", 361); ("ondragleave", 362); ("ondragover", 363); ("ondragstart", 364);
  ("ondrop", 365); ("ondurationchange", 366); ("onemptied", 367); ("onend", 368); ("onended", 369); ("onerror", 370); ("onfocus", 371);
  ("onformdata", 372); ("onhashchange", 373); ("oninput", 374); ("oninvalid", 375); ("onkeydown", 376); ("onkeypress", 377); ("onkeyup", 378);
  ("onlanguagechange", 379); ("onload", 380); ("onloadeddata", 381); ("onloadedmetadata", 382); ("onloadstart", 383); ("onmessage", 384);
  ("onmessageerror", 385); ("onmousedown", 386); ("onmouseenter", 387); ("onmouseleave", 388); ("onmousemove", 389); ("onmouseout", 390);
  ("onmouseover", 391); ("onmouseup", 392); ("onoffline", 393); ("ononline", 394); ("onpagehide", 395); ("onpageshow", 396); ("onpaste", 397);
  ("onpause", 398); ("onplay", 399); ("onplaying", 400); ("onpopstate", 401); ("onprogress", 402); ("onratechange", 403);
  ("onrejectionhandled", 404); ("onrepeat", 405); ("onreset", 406); ("onresize", 407); ("onscroll", 408); ("onsecuritypolicyviolation", 409);
  ("onseeked", 410); ("onseeking", 411); ("onselect", 412); ("onshow", 413); ("onslotchange", 414); ("onstalled", 415); ("onstorage", 416);
  ("onsubmit", 417); ("onsuspend", 418); ("ontimeupdate", 419); ("ontoggle", 420); ("onunhandledrejection", 421); ("onunload", 422);
  ("onvolumechange", 423); ("onwaiting", 424); ("onwheel", 425); ("opacity", 426); ("open", 427); ("operator", 428); ("optimum", 429);
  ("order", 430); ("orient", 431); ("origin", 432); ("other", 433); ("overflow", 434); ("paint-order", 435); ("path", 436); ("pathLength", 437);
  ("pathlength", 438); ("pattern", 439); ("patternContentUnits", 440); ("patternTransform", 441); ("patternUnits", 442);
  ("patterncontentunits", 443); ("patterntransform", 444); ("patternunits", 445); ("ping", 446); ("placeholder", 447); ("playbackorder", 448);
  ("playsinline", 449); ("pointer-events", 450); ("points", 451); ("pointsAtX", 452); ("pointsAtY", 453); ("pointsAtZ", 454); ("pointsatx", 455);
  ("pointsaty", 456); ("pointsatz", 457); ("position", 458); ("poster", 459); ("preload", 460); ("preserveAlpha", 461); ("preserveAspectRatio", 462);
  ("preservealpha", 463); ("preserveaspectratio", 464); ("primitiveUnits", 465); ("primitiveunits", 466); ("r", 467); ("radius", 468);
  ("readonly", 469); ("refX", 470); ("refY", 471); ("referrerpolicy", 472); ("refx", 473); ("refy", 474); ("rel", 475); ("repeatCount", 476);
  ("repeatDur", 477); ("repeatcount", 478); ("repeatdur", 479); ("required", 480); ("requiredExtensions", 481); ("requiredFeatures", 482);
  ("requiredextensions", 483); ("requiredfeatures", 484); ("restart", 485); ("result", 486); ("reversed", 487); ("rightoverhang", 488);
  ("role", 489); ("rotate", 490); ("rowalign", 491); ("rowlines", 492); ("rows", 493); ("rowspacing", 494); ("rowspan", 495); ("rquote", 496);
  ("rspace", 497); ("sandbox", 498); ("scale", 499); ("schemaLocation", 500); ("schemalocation", 501); ("scope", 502); ("scriptlevel", 503);
  ("scriptminsize", 504); ("scriptsize", 505); ("scriptsizemultiplier", 506); ("seed", 507); ("selected", 508); ("selection", 509);
  ("separator", 510); ("separators", 511); ("shape", 512); ("shape-rendering", 513); ("shift", 514); ("show", 515); ("side", 516); ("size", 517);
  ("sizes", 518); ("slope", 519); ("slot", 520); ("space", 521); ("spacing", 522); ("span", 523); ("specularConstant", 524);
  ("specularExponent", 525); ("specularconstant", 526); ("specularexponent", 527); ("spellcheck", 528); ("spreadMethod", 529); ("spreadmethod", 530);
  ("src", 531); ("srcdoc", 532); ("srclang", 533); ("srcset", 534); ("stackalign", 535); ("start", 536); ("startOffset", 537); ("startoffset", 538);
  ("stdDeviation", 539); ("stddeviation", 540); ("step", 541); ("stitchTiles", 542); ("stitchtiles", 543); ("stop-color", 544);
  ("stop-opacity", 545); ("stretchy", 546); ("stroke", 547); ("stroke-dasharray", 548); ("stroke-dashoffset", 549); ("stroke-linecap", 550);
  ("stroke-linejoin", 551); ("stroke-miterlimit", 552); ("stroke-opacity", 553); ("stroke-width", 554); ("style", 555); ("subscriptshift", 556);
  ("superscriptshift", 557); ("surfaceScale", 558); ("surfacescale", 559); ("symmetric", 560); ("systemLanguage", 561); ("systemlanguage", 562);
  ("tabindex", 563); ("tableValues", 564); ("tablevalues", 565); ("target", 566); ("targetX", 567); ("targetY", 568); ("targetx", 569);
  ("targety", 570); ("text-anchor", 571); ("text-decoration", 572); ("text-rendering", 573); ("textLength", 574); ("textlength", 575);
  ("thickmathspace", 576); ("thinmathspace", 577); ("timelinebegin", 578); ("title", 579); ("to", 580); ("transform", 581);
  ("transform-origin", 582); ("translate", 583); ("type", 584); ("unicode-bidi", 585); ("usemap", 586); ("valign", 587); ("value", 588);
  ("values", 589); ("vector-effect", 590); ("verythickmathspace", 591); ("verythinmathspace", 592); ("veryverythickmathspace", 593);
  ("veryverythinmathspace", 594); ("viewBox", 595); ("viewTarget", 596); ("viewbox", 597); ("viewtarget", 598); ("visibility", 599);
  ("voffset", 600); ("width", 601); ("word-spacing", 602); ("wrap", 603); ("writing-mode", 604); ("x", 605); ("x1", 606); ("x2", 607);
  ("xChannelSelector", 608); ("xchannelselector", 609); ("xlink", 610); ("xlink:actuate", 611); ("xlink:arcrole", 612); ("xlink:href", 613);
  ("xlink:role", 614); ("xlink:show", 615); ("xlink:title", 616); ("xlink:type", 617); ("xml", 618); ("xml:lang", 619); ("xml:space", 620);
  ("xmlns", 621); ("xmlns:xlink", 622); ("xref", 623); ("xsi:schemaLocation", 624); ("xsi:schemalocation", 625); ("y", 626); ("y1", 627);
  ("y2", 628); ("yChannelSelector", 629); ("ychannelselector", 630); ("z", 631); ("zoomAndPan", 632); ("zoomandpan", 633)].
(** atom_tbl.cpp:1131-1202 *)
Definition attribute_name_tbl : list string := [
  ""; "abbr"; "accent"; "accentunder"; "accept"; "accept-charset"; "accesskey"; "accumulate"; "action"; "actiontype"; "actuate"; "additive"; "align";
  "alignment-baseline"; "alignmentscope"; "allow"; "allowfullscreen"; "allowpaymentrequest"; "alt"; "altimg"; "altimg-height"; "altimg-valign";
  "altimg-width"; "alttext"; "amplitude"; "annotation-xml"; "arcrole"; "aria-activedescendant"; "aria-atomic"; "aria-autocomplete"; "aria-busy";
  "aria-checked"; "aria-colcount"; "aria-colindex"; "aria-colspan"; "aria-controls"; "aria-current"; "aria-describedby"; "aria-details";
  "aria-disabled"; "aria-dropeffect"; "aria-errormessage"; "aria-expanded"; "aria-flowto"; "aria-grabbed"; "aria-haspopup"; "aria-hidden";
  "aria-invalid"; "aria-keyshortcuts"; "aria-label"; "aria-labelledby"; "aria-level"; "aria-live"; "aria-modal"; "aria-multiline";
  "aria-multiselectable"; "aria-orientation"; "aria-owns"; "aria-placeholder"; "aria-posinset"; "aria-pressed"; "aria-readonly"; "aria-relevant";
  "aria-required"; "aria-roledescription"; "aria-rowcount"; "aria-rowindex"; "aria-rowspan"; "aria-selected"; "aria-setsize"; "aria-sort";
  "aria-valuemax"; "aria-valuemin"; "aria-valuenow"; "aria-valuetext"; "as"; "async"; "attributeName"; "attributeType"; "attributename";
  "attributetype"; "autocapitalize"; "autocomplete"; "autofocus"; "autoplay"; "azimuth"; "background"; "base"; "baseFrequency"; "baseProfile";
  "basefrequency"; "baseline"; "baseline-shift"; "baseprofile"; "begin"; "bevelled"; "bias"; "by"; "calcMode"; "calcmode"; "cd"; "cdgroup";
  "charalign"; "charset"; "charspacing"; "checked"; "cite"; "class"; "clip"; "clip-path"; "clip-rule"; "clipPathUnits"; "clippathunits"; "close";
  "closure"; "color"; "color-interpolation"; "color-interpolation-filters"; "cols"; "colspan"; "columnalign"; "columnalignment"; "columnlines";
  "columnspacing"; "columnspan"; "columnwidth"; "content"; "contenteditable"; "controls"; "coords"; "crossorigin"; "crossout"; "cursor"; "cx"; "cy";
  "data"; "datetime"; "decimalpoint"; "decoding"; "default"; "defer"; "definitionURL"; "definitionurl"; "denomalign"; "depth"; "diffuseConstant";
  "diffuseconstant"; "dir"; "direction"; "dirname"; "disabled"; "display"; "displaystyle"; "divisor"; "dominant-baseline"; "download"; "draggable";
  "dur"; "dx"; "dy"; "edge"; "edgeMode"; "edgemode"; "elevation"; "encoding"; "enctype"; "end"; "enterkeyhint"; "equalcolumns"; "equalrows";
  "exponent"; "fence"; "fill"; "fill-opacity"; "fill-rule"; "filter"; "filterUnits"; "filterunits"; "flood-color"; "flood-opacity"; "font-family";
  "font-size"; "font-size-adjust"; "font-stretch"; "font-style"; "font-variant"; "font-weight"; "fontfamily"; "fontsize"; "fontstyle"; "fontweight";
  "for"; "form"; "formaction"; "formenctype"; "formmethod"; "formnovalidate"; "formtarget"; "fr"; "frame"; "framespacing"; "from"; "fx"; "fy";
  "glyph-orientation-horizontal"; "glyph-orientation-vertical"; "glyphRef"; "glyphref"; "gradientTransform"; "gradientUnits"; "gradienttransform";
  "gradientunits"; "groupalign"; "headers"; "height"; "hidden"; "high"; "href"; "hreflang"; "http-equiv"; "id"; "image-rendering"; "imagesizes";
  "imagesrcset"; "in"; "in2"; "indentalign"; "indentalignfirst"; "indentalignlast"; "indentshift"; "indentshiftfirst"; "indentshiftlast";
  "indenttarget"; "index"; "infixlinebreakstyle"; "inputmode"; "integer"; "integrity"; "intercept"; "is"; "ismap"; "itemid"; "itemprop"; "itemref";
  "itemscope"; "itemtype"; "k1"; "k2"; "k3"; "k4"; "kernelMatrix"; "kernelUnitLength"; "kernelmatrix"; "kernelunitlength"; "keyPoints"; "keySplines";
  "keyTimes"; "keypoints"; "keysplines"; "keytimes"; "kind"; "label"; "lang"; "largeop"; "leftoverhang"; "length"; "lengthAdjust"; "lengthadjust";
  "letter-spacing"; "lighting-color"; "limitingConeAngle"; "limitingconeangle"; "linebreak"; "linebreakmultchar"; "linebreakstyle"; "lineleading";
  "linethickness"; "list"; "loading"; "location"; "longdivstyle"; "loop"; "low"; "lquote"; "lspace"; "ltr"; "macros"; "manifest"; "marker-end";
  "marker-mid"; "marker-start"; "markerHeight"; "markerUnits"; "markerWidth"; "markerheight"; "markerunits"; "markerwidth"; "mask"; "mask-type";
  "maskContentUnits"; "maskUnits"; "maskcontentunits"; "maskunits"; "math"; "math element"; "mathbackground"; "mathcolor"; "mathsize"; "mathvariant";
  "max"; "maxlength"; "maxsize"; "maxwidth"; "media"; "mediummathspace"; "menclose"; "method"; "min"; "minlabelspacing"; "minlength"; "minsize";
  "mode"; "movablelimits"; "msgroup"; "mslinethickness"; "multiple"; "muted"; "name"; "nargs"; "newline"; "nomodule"; "nonce"; "notation";
  "novalidate"; "numOctaves"; "numalign"; "number"; "numoctaves"; "occurrence"; "offset"; "onabort"; "onafterprint"; "onauxclick"; "onbeforeprint";
  "onbeforeunload"; "onbegin"; "onblur"; "oncancel"; "oncanplay"; "oncanplaythrough"; "onchange"; "onclick"; "onclose"; "oncontextmenu"; "oncopy";
  "oncuechange"; "oncut"; "ondblclick"; "ondrag"; "ondragend"; "ondragenter"; "ondragexit"; "ondragleave"; "ondragover"; "ondragstart"; "ondrop";
  "ondurationchange"; "onemptied"; "onend"; "onended"; "onerror"; "onfocus"; "onformdata"; "onhashchange"; "oninput"; "oninvalid"; "onkeydown";
  "onkeypress"; "onkeyup"; "onlanguagechange"; "onload"; "onloadeddata"; "onloadedmetadata"; "onloadstart"; "onmessage"; "onmessageerror";
  "onmousedown"; "onmouseenter"; "onmouseleave"; "onmousemove"; "onmouseout"; "onmouseover"; "onmouseup"; "onoffline"; "ononline"; "onpagehide";
  "onpageshow"; "onpaste"; "onpause"; "onplay"; "onplaying"; "onpopstate"; "onprogress"; "onratechange"; "onrejectionhandled"; "onrepeat"; "onreset";
  "onresize"; "onscroll"; "onsecuritypolicyviolation"; "onseeked"; "onseeking"; "onselect"; "onshow"; "onslotchange"; "onstalled"; "onstorage";
  "onsubmit"; "onsuspend"; "ontimeupdate"; "ontoggle"; "onunhandledrejection"; "onunload"; "onvolumechange"; "onwaiting"; "onwheel"; "opacity";
  "open"; "operator"; "optimum"; "order"; "orient"; "origin"; "other"; "overflow"; "paint-order"; "path"; "pathLength"; "pathlength"; "pattern";
  "patternContentUnits"; "patternTransform"; "patternUnits"; "patterncontentunits"; "patterntransform"; "patternunits"; "ping"; "placeholder";
  "playbackorder"; "playsinline"; "pointer-events"; "points"; "pointsAtX"; "pointsAtY"; "pointsAtZ"; "pointsatx"; "pointsaty"; "pointsatz";
  "position"; "poster"; "preload"; "preserveAlpha"; "preserveAspectRatio"; "preservealpha"; "preserveaspectratio"; "primitiveUnits";
  "primitiveunits"; "r"; "radius"; "readonly"; "refX"; "refY"; "referrerpolicy"; "refx"; "refy"; "rel"; "repeatCount"; "repeatDur"; "repeatcount";
  "repeatdur"; "required"; "requiredExtensions"; "requiredFeatures"; "requiredextensions"; "requiredfeatures"; "restart"; "result"; "reversed";
  "rightoverhang"; "role"; "rotate"; "rowalign"; "rowlines"; "rows"; "rowspacing"; "rowspan"; "rquote"; "rspace"; "sandbox"; "scale";
  "schemaLocation"; "schemalocation"; "scope"; "scriptlevel"; "scriptminsize"; "scriptsize"; "scriptsizemultiplier"; "seed"; "selected"; "selection";
  "separator"; "separators"; "shape"; "shape-rendering"; "shift"; "show"; "side"; "size"; "sizes"; "slope"; "slot"; "space"; "spacing"; "span";
  "specularConstant"; "specularExponent"; "specularconstant"; "specularexponent"; "spellcheck"; "spreadMethod"; "spreadmethod"; "src"; "srcdoc";
  "srclang"; "srcset"; "stackalign"; "start"; "startOffset"; "startoffset"; "stdDeviation"; "stddeviation"; "step"; "stitchTiles"; "stitchtiles";
  "stop-color"; "stop-opacity"; "stretchy"; "stroke"; "stroke-dasharray"; "stroke-dashoffset"; "stroke-linecap"; "stroke-linejoin";
  "stroke-miterlimit"; "stroke-opacity"; "stroke-width"; "style"; "subscriptshift"; "superscriptshift"; "surfaceScale"; "surfacescale"; "symmetric";
  "systemLanguage"; "systemlanguage"; "tabindex"; "tableValues"; "tablevalues"; "target"; "targetX"; "targetY"; "targetx"; "targety"; "text-anchor";
  "text-decoration"; "text-rendering"; "textLength"; "textlength"; "thickmathspace"; "thinmathspace"; "timelinebegin"; "title"; "to"; "transform";
  "transform-origin"; "translate"; "type"; "unicode-bidi"; "usemap"; "valign"; "value"; "values"; "vector-effect"; "verythickmathspace";
  "verythinmathspace"; "veryverythickmathspace"; "veryverythinmathspace"; "viewBox"; "viewTarget"; "viewbox"; "viewtarget"; "visibility"; "voffset";
  "width"; "word-spacing"; "wrap"; "writing-mode"; "x"; "x1"; "x2"; "xChannelSelector"; "xchannelselector"; "xlink"; "xlink:actuate";
  "xlink:arcrole"; "xlink:href"; "xlink:role"; "xlink:show"; "xlink:title"; "xlink:type"; "xml"; "xml:lang"; "xml:space"; "xmlns"; "xmlns:xlink";
  "xref"; "xsi:schemaLocation"; "xsi:schemalocation"; "y"; "y1"; "y2"; "yChannelSelector"; "ychannelselector"; "z"; "zoomAndPan"; "zoomandpan"].

(** atom_tbl.cpp:1072-1079, ns_uri_atom_tbl, with the numbers of the enumerators (atom_defs.hpp:8-16) *)
Definition ns_uri_atom_tbl : list (string * Z) := [
  ("http://www.w3.org/1999/xhtml", 1); ("http://www.w3.org/1998/Math/MathML", 2); ("http://www.w3.org/2000/svg", 3);
  ("http://www.w3.org/1999/xlink", 4); ("http://www.w3.org/XML/1998/namespace", 5); ("http://www.w3.org/2000/xmlns/", 6)].
(** atom_tbl.cpp:1204-1212 *)
Definition ns_uri_tbl : list string := [
  ""; "http://www.w3.org/1999/xhtml"; "http://www.w3.org/1998/Math/MathML"; "http://www.w3.org/2000/svg"; "http://www.w3.org/1999/xlink";
  "http://www.w3.org/XML/1998/namespace"; "http://www.w3.org/2000/xmlns/"].
