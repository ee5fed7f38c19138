(** Names of the table of atoms, for the model of HTML tree construction (M_dom.v): which tag names have a number of
    their own.  Definitions only. *)
From Coq Require Import ZArith List Bool String.
From Verif Require Import M_labels.
Import ListNotations.

(** lib/whatwg/html/parsing/atom_tbl.cpp:7-434, the keys of tag_atom_tbl *)
Definition atom_names : list string := [
  "a"; "abbr"; "abs"; "address"; "altGlyph"; "altGlyphDef"; "altGlyphItem"; "altglyph"; "altglyphdef";
  "altglyphitem"; "and"; "animate"; "animateColor"; "animateMotion"; "animateTransform"; "animatecolor";
  "animatemotion"; "animatetransform"; "annotation"; "annotation-xml"; "applet"; "apply"; "approx"; "arccos";
  "arccosh"; "arccot"; "arccoth"; "arccsc"; "arccsch"; "arcsec"; "arcsech"; "arcsin"; "arcsinh"; "arctan"; "arctanh";
  "area"; "arg"; "article"; "aside"; "audio"; "b"; "base"; "basefont"; "bdi"; "bdo"; "bgsound"; "big"; "bind";
  "blockquote"; "body"; "br"; "button"; "bvar"; "canvas"; "caption"; "card"; "cartesianproduct"; "cbytes"; "ceiling";
  "center"; "cerror"; "ci"; "circle"; "cite"; "clipPath"; "clippath"; "cn"; "code"; "codomain"; "col"; "colgroup";
  "complexes"; "compose"; "condition"; "conjugate"; "cos"; "cosh"; "cot"; "coth"; "cs"; "csc"; "csch"; "csymbol";
  "curl"; "data"; "datalist"; "dd"; "declare"; "defs"; "degree"; "del"; "desc"; "details"; "determinant"; "dfn";
  "dialog"; "diff"; "dir"; "discard"; "div"; "divergence"; "divide"; "dl"; "domain"; "domainofapplication"; "dt";
  "ellipse"; "em"; "embed"; "emptyset"; "eq"; "equivalent"; "eulergamma"; "exists"; "exp"; "exponentiale";
  "factorial"; "factorof"; "false"; "feBlend"; "feColorMatrix"; "feComponentTransfer"; "feComposite";
  "feConvolveMatrix"; "feDiffuseLighting"; "feDisplacementMap"; "feDistantLight"; "feDropShadow"; "feFlood";
  "feFuncA"; "feFuncB"; "feFuncG"; "feFuncR"; "feGaussianBlur"; "feImage"; "feMerge"; "feMergeNode"; "feMorphology";
  "feOffset"; "fePointLight"; "feSpecularLighting"; "feSpotLight"; "feTile"; "feTurbulence"; "feblend";
  "fecolormatrix"; "fecomponenttransfer"; "fecomposite"; "feconvolvematrix"; "fediffuselighting";
  "fedisplacementmap"; "fedistantlight"; "fedropshadow"; "feflood"; "fefunca"; "fefuncb"; "fefuncg"; "fefuncr";
  "fegaussianblur"; "feimage"; "femerge"; "femergenode"; "femorphology"; "feoffset"; "fepointlight";
  "fespecularlighting"; "fespotlight"; "fetile"; "feturbulence"; "fieldset"; "figcaption"; "figure"; "filter";
  "floor"; "fn"; "font"; "footer"; "forall"; "foreignObject"; "foreignobject"; "form"; "frame"; "frameset"; "g";
  "gcd"; "geq"; "glyphRef"; "glyphref"; "grad"; "gt"; "h1"; "h2"; "h3"; "h4"; "h5"; "h6"; "head"; "header"; "hgroup";
  "hr"; "html"; "i"; "ident"; "iframe"; "image"; "imaginary"; "imaginaryi"; "img"; "implies"; "in"; "infinity";
  "input"; "ins"; "int"; "integers"; "intersect"; "interval"; "inverse"; "kbd"; "keygen"; "label"; "lambda";
  "laplacian"; "lcm"; "legend"; "leq"; "li"; "limit"; "line"; "linearGradient"; "lineargradient"; "link"; "list";
  "listing"; "ln"; "log"; "logbase"; "lowlimit"; "lt"; "maction"; "main"; "maligngroup"; "malignmark"; "map"; "mark";
  "marker"; "marquee"; "mask"; "math"; "matrix"; "matrixrow"; "max"; "mean"; "median"; "menclose"; "menu"; "merror";
  "meta"; "metadata"; "meter"; "mfenced"; "mfrac"; "mglyph"; "mi"; "min"; "minus"; "mlabeledtr"; "mlongdiv";
  "mmultiscripts"; "mn"; "mo"; "mode"; "moment"; "momentabout"; "mover"; "mpadded"; "mpath"; "mphantom";
  "mprescripts"; "mroot"; "mrow"; "ms"; "mscarries"; "mscarry"; "msgroup"; "msline"; "mspace"; "msqrt"; "msrow";
  "mstack"; "mstyle"; "msub"; "msubsup"; "msup"; "mtable"; "mtd"; "mtext"; "mtr"; "munder"; "munderover";
  "naturalnumbers"; "nav"; "neq"; "nobr"; "noembed"; "noframes"; "none"; "noscript"; "not"; "notanumber"; "notin";
  "notprsubset"; "notsubset"; "object"; "ol"; "optgroup"; "option"; "or"; "otherwise"; "outerproduct"; "output"; "p";
  "param"; "partialdiff"; "path"; "pattern"; "pi"; "picture"; "piece"; "piecewise"; "plaintext"; "plus"; "polygon";
  "polyline"; "power"; "pre"; "primes"; "product"; "progress"; "prsubset"; "q"; "quotient"; "radialGradient";
  "radialgradient"; "rationals"; "rb"; "real"; "reals"; "rect"; "reln"; "rem"; "root"; "rp"; "rt"; "rtc"; "ruby";
  "s"; "samp"; "scalarproduct"; "script"; "sdev"; "sec"; "sech"; "section"; "select"; "selector"; "semantics"; "sep";
  "set"; "setdiff"; "share"; "sin"; "sinh"; "slot"; "small"; "source"; "span"; "stop"; "strike"; "strong"; "style";
  "sub"; "subset"; "sum"; "summary"; "sup"; "svg"; "switch"; "symbol"; "table"; "tan"; "tanh"; "tbody"; "td";
  "template"; "tendsto"; "text"; "textPath"; "textarea"; "textpath"; "tfoot"; "th"; "thead"; "time"; "times";
  "title"; "tr"; "track"; "transpose"; "true"; "tspan"; "tt"; "u"; "ul"; "union"; "uplimit"; "use"; "var";
  "variance"; "vector"; "vectorproduct"; "video"; "view"; "wbr"; "xmp"; "xor"
]%string.
