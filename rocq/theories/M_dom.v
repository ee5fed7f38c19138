(** Model of HTML tree construction, include/wordring/whatwg/html/parsing/tree_construction_dispatcher.hpp, with the
    parser that owns the tree, include/wordring/html/simple_parser.hpp, and simple_traits.hpp: names, the tree, the
    members and the functions the insertion modes are made of.  The modes themselves are in M_dom2.v.

    Simplifications: report_error, set_document, set_document_ready_state and the script flags change nothing and are left
    out, and so is change_encoding (M_html_meta.v has the part that reads the name). The tree is a list of nodes that know
    their parent and their children; the tag tree below it is modelled in M_tag.v, and the operations used here are the
    ones proved of it (C88, C89, with the loss of a node that is moved to the place directly behind it). Numbers of
    nodes are not used again. Strings are lists of code points. Undefined behaviour and failed asserts are [Bad].
    Definitions only. *)
From Coq Require Import ZArith List Bool String.
From Verif Require Import M_infra M_encoding M_labels M_html M_html_serialize M_dom_names.
Import ListNotations.
Open Scope Z_scope.

Declare Scope dom_scope.
Notation "'run' x <- e ; k" := (match e with Val x => k | Bad => Bad | NoFuel => NoFuel end)
  (at level 200, x pattern, e at level 100, k at level 200) : dom_scope.
Open Scope dom_scope.
Open Scope list_scope.

(** atom_defs.hpp, enum class tag_name: the names that tree construction asks for; [Other] is any other name *)
Inductive tname :=
| T_a | T_address | T_annotation_xml | T_applet | T_area | T_article | T_aside | T_b | T_base | T_basefont
| T_bgsound | T_big | T_blockquote | T_body | T_br | T_button | T_caption | T_center | T_code | T_col | T_colgroup
| T_dd | T_desc | T_details | T_dialog | T_dir | T_div | T_dl | T_dt | T_em | T_embed | T_factorial | T_fieldset
| T_figcaption | T_figure | T_font | T_footer | T_foreignObject | T_form | T_frame | T_frameset | T_h1 | T_h2 | T_h3
| T_h4 | T_h5 | T_h6 | T_head | T_header | T_hgroup | T_hr | T_html | T_i | T_iframe | T_image | T_img | T_input
| T_keygen | T_li | T_link | T_listing | T_main | T_malignmark | T_marquee | T_math | T_menu | T_meta | T_mglyph
| T_mi | T_mn | T_mo | T_ms | T_mtext | T_nav | T_nobr | T_noembed | T_noframes | T_noscript | T_object | T_ol
| T_optgroup | T_option | T_p | T_param | T_plaintext | T_pre | T_rb | T_rp | T_rt | T_rtc | T_ruby | T_s | T_script
| T_section | T_select | T_small | T_source | T_span | T_strike | T_strong | T_style | T_sub | T_summary | T_sup
| T_svg | T_table | T_tbody | T_td | T_template | T_textarea | T_tfoot | T_th | T_thead | T_title | T_tr | T_track
| T_tt | T_u | T_ul | T_var | T_wbr | T_xmp
| Other (s : list Z).

(** atom_tbl.cpp:7-434, tag_atom_tbl, as far as tree construction asks for the names *)
Definition tnames : list (tname * string) := [
  (T_a, "a"); (T_address, "address"); (T_annotation_xml, "annotation-xml"); (T_applet, "applet"); (T_area, "area");
  (T_article, "article"); (T_aside, "aside"); (T_b, "b"); (T_base, "base"); (T_basefont, "basefont");
  (T_bgsound, "bgsound"); (T_big, "big"); (T_blockquote, "blockquote"); (T_body, "body"); (T_br, "br");
  (T_button, "button"); (T_caption, "caption"); (T_center, "center"); (T_code, "code"); (T_col, "col");
  (T_colgroup, "colgroup"); (T_dd, "dd"); (T_desc, "desc"); (T_details, "details"); (T_dialog, "dialog");
  (T_dir, "dir"); (T_div, "div"); (T_dl, "dl"); (T_dt, "dt"); (T_em, "em"); (T_embed, "embed");
  (T_factorial, "factorial"); (T_fieldset, "fieldset"); (T_figcaption, "figcaption"); (T_figure, "figure");
  (T_font, "font"); (T_footer, "footer"); (T_foreignObject, "foreignObject"); (T_form, "form"); (T_frame, "frame");
  (T_frameset, "frameset"); (T_h1, "h1"); (T_h2, "h2"); (T_h3, "h3"); (T_h4, "h4"); (T_h5, "h5"); (T_h6, "h6");
  (T_head, "head"); (T_header, "header"); (T_hgroup, "hgroup"); (T_hr, "hr"); (T_html, "html"); (T_i, "i");
  (T_iframe, "iframe"); (T_image, "image"); (T_img, "img"); (T_input, "input"); (T_keygen, "keygen"); (T_li, "li");
  (T_link, "link"); (T_listing, "listing"); (T_main, "main"); (T_malignmark, "malignmark"); (T_marquee, "marquee");
  (T_math, "math"); (T_menu, "menu"); (T_meta, "meta"); (T_mglyph, "mglyph"); (T_mi, "mi"); (T_mn, "mn");
  (T_mo, "mo"); (T_ms, "ms"); (T_mtext, "mtext"); (T_nav, "nav"); (T_nobr, "nobr"); (T_noembed, "noembed");
  (T_noframes, "noframes"); (T_noscript, "noscript"); (T_object, "object"); (T_ol, "ol"); (T_optgroup, "optgroup");
  (T_option, "option"); (T_p, "p"); (T_param, "param"); (T_plaintext, "plaintext"); (T_pre, "pre"); (T_rb, "rb");
  (T_rp, "rp"); (T_rt, "rt"); (T_rtc, "rtc"); (T_ruby, "ruby"); (T_s, "s"); (T_script, "script");
  (T_section, "section"); (T_select, "select"); (T_small, "small"); (T_source, "source"); (T_span, "span");
  (T_strike, "strike"); (T_strong, "strong"); (T_style, "style"); (T_sub, "sub"); (T_summary, "summary");
  (T_sup, "sup"); (T_svg, "svg"); (T_table, "table"); (T_tbody, "tbody"); (T_td, "td"); (T_template, "template");
  (T_textarea, "textarea"); (T_tfoot, "tfoot"); (T_th, "th"); (T_thead, "thead"); (T_title, "title"); (T_tr, "tr");
  (T_track, "track"); (T_tt, "tt"); (T_u, "u"); (T_ul, "ul"); (T_var, "var"); (T_wbr, "wbr"); (T_xmp, "xmp")
]%string.

(** The name of a string: its number in the table, or the string itself. *)
Definition tname_of (s : list Z) : tname :=
  match find (fun p => same_str s (lit (snd p))) tnames with Some (t, _) => t | None => Other s end.
(** The string of a name (html_atom.hpp, basic_html_atom::string). *)
Definition tstring (t : tname) : list Z :=
  match t with
  | T_a => lit "a"
  | T_address => lit "address"
  | T_annotation_xml => lit "annotation-xml"
  | T_applet => lit "applet"
  | T_area => lit "area"
  | T_article => lit "article"
  | T_aside => lit "aside"
  | T_b => lit "b"
  | T_base => lit "base"
  | T_basefont => lit "basefont"
  | T_bgsound => lit "bgsound"
  | T_big => lit "big"
  | T_blockquote => lit "blockquote"
  | T_body => lit "body"
  | T_br => lit "br"
  | T_button => lit "button"
  | T_caption => lit "caption"
  | T_center => lit "center"
  | T_code => lit "code"
  | T_col => lit "col"
  | T_colgroup => lit "colgroup"
  | T_dd => lit "dd"
  | T_desc => lit "desc"
  | T_details => lit "details"
  | T_dialog => lit "dialog"
  | T_dir => lit "dir"
  | T_div => lit "div"
  | T_dl => lit "dl"
  | T_dt => lit "dt"
  | T_em => lit "em"
  | T_embed => lit "embed"
  | T_factorial => lit "factorial"
  | T_fieldset => lit "fieldset"
  | T_figcaption => lit "figcaption"
  | T_figure => lit "figure"
  | T_font => lit "font"
  | T_footer => lit "footer"
  | T_foreignObject => lit "foreignObject"
  | T_form => lit "form"
  | T_frame => lit "frame"
  | T_frameset => lit "frameset"
  | T_h1 => lit "h1"
  | T_h2 => lit "h2"
  | T_h3 => lit "h3"
  | T_h4 => lit "h4"
  | T_h5 => lit "h5"
  | T_h6 => lit "h6"
  | T_head => lit "head"
  | T_header => lit "header"
  | T_hgroup => lit "hgroup"
  | T_hr => lit "hr"
  | T_html => lit "html"
  | T_i => lit "i"
  | T_iframe => lit "iframe"
  | T_image => lit "image"
  | T_img => lit "img"
  | T_input => lit "input"
  | T_keygen => lit "keygen"
  | T_li => lit "li"
  | T_link => lit "link"
  | T_listing => lit "listing"
  | T_main => lit "main"
  | T_malignmark => lit "malignmark"
  | T_marquee => lit "marquee"
  | T_math => lit "math"
  | T_menu => lit "menu"
  | T_meta => lit "meta"
  | T_mglyph => lit "mglyph"
  | T_mi => lit "mi"
  | T_mn => lit "mn"
  | T_mo => lit "mo"
  | T_ms => lit "ms"
  | T_mtext => lit "mtext"
  | T_nav => lit "nav"
  | T_nobr => lit "nobr"
  | T_noembed => lit "noembed"
  | T_noframes => lit "noframes"
  | T_noscript => lit "noscript"
  | T_object => lit "object"
  | T_ol => lit "ol"
  | T_optgroup => lit "optgroup"
  | T_option => lit "option"
  | T_p => lit "p"
  | T_param => lit "param"
  | T_plaintext => lit "plaintext"
  | T_pre => lit "pre"
  | T_rb => lit "rb"
  | T_rp => lit "rp"
  | T_rt => lit "rt"
  | T_rtc => lit "rtc"
  | T_ruby => lit "ruby"
  | T_s => lit "s"
  | T_script => lit "script"
  | T_section => lit "section"
  | T_select => lit "select"
  | T_small => lit "small"
  | T_source => lit "source"
  | T_span => lit "span"
  | T_strike => lit "strike"
  | T_strong => lit "strong"
  | T_style => lit "style"
  | T_sub => lit "sub"
  | T_summary => lit "summary"
  | T_sup => lit "sup"
  | T_svg => lit "svg"
  | T_table => lit "table"
  | T_tbody => lit "tbody"
  | T_td => lit "td"
  | T_template => lit "template"
  | T_textarea => lit "textarea"
  | T_tfoot => lit "tfoot"
  | T_th => lit "th"
  | T_thead => lit "thead"
  | T_title => lit "title"
  | T_tr => lit "tr"
  | T_track => lit "track"
  | T_tt => lit "tt"
  | T_u => lit "u"
  | T_ul => lit "ul"
  | T_var => lit "var"
  | T_wbr => lit "wbr"
  | T_xmp => lit "xmp"
  | Other s => s
  end.
(** numbers of the names (atom_defs.hpp); 0 for names without *)
Definition tcode (t : tname) : Z :=
  match t with
  | T_a => 1 | T_address => 2 | T_annotation_xml => 3 | T_applet => 4 | T_area => 5 | T_article => 6 | T_aside => 7
  | T_b => 8 | T_base => 9 | T_basefont => 10 | T_bgsound => 11 | T_big => 12 | T_blockquote => 13 | T_body => 14
  | T_br => 15 | T_button => 16 | T_caption => 17 | T_center => 18 | T_code => 19 | T_col => 20 | T_colgroup => 21
  | T_dd => 22 | T_desc => 23 | T_details => 24 | T_dialog => 25 | T_dir => 26 | T_div => 27 | T_dl => 28
  | T_dt => 29 | T_em => 30 | T_embed => 31 | T_factorial => 32 | T_fieldset => 33 | T_figcaption => 34
  | T_figure => 35 | T_font => 36 | T_footer => 37 | T_foreignObject => 38 | T_form => 39 | T_frame => 40
  | T_frameset => 41 | T_h1 => 42 | T_h2 => 43 | T_h3 => 44 | T_h4 => 45 | T_h5 => 46 | T_h6 => 47 | T_head => 48
  | T_header => 49 | T_hgroup => 50 | T_hr => 51 | T_html => 52 | T_i => 53 | T_iframe => 54 | T_image => 55
  | T_img => 56 | T_input => 57 | T_keygen => 58 | T_li => 59 | T_link => 60 | T_listing => 61 | T_main => 62
  | T_malignmark => 63 | T_marquee => 64 | T_math => 65 | T_menu => 66 | T_meta => 67 | T_mglyph => 68 | T_mi => 69
  | T_mn => 70 | T_mo => 71 | T_ms => 72 | T_mtext => 73 | T_nav => 74 | T_nobr => 75 | T_noembed => 76
  | T_noframes => 77 | T_noscript => 78 | T_object => 79 | T_ol => 80 | T_optgroup => 81 | T_option => 82 | T_p => 83
  | T_param => 84 | T_plaintext => 85 | T_pre => 86 | T_rb => 87 | T_rp => 88 | T_rt => 89 | T_rtc => 90
  | T_ruby => 91 | T_s => 92 | T_script => 93 | T_section => 94 | T_select => 95 | T_small => 96 | T_source => 97
  | T_span => 98 | T_strike => 99 | T_strong => 100 | T_style => 101 | T_sub => 102 | T_summary => 103 | T_sup => 104
  | T_svg => 105 | T_table => 106 | T_tbody => 107 | T_td => 108 | T_template => 109 | T_textarea => 110
  | T_tfoot => 111 | T_th => 112 | T_thead => 113 | T_title => 114 | T_tr => 115 | T_track => 116 | T_tt => 117
  | T_u => 118 | T_ul => 119 | T_var => 120 | T_wbr => 121 | T_xmp => 122
  | Other _ => 0
  end.
(** html_atom.hpp, the comparison of two names *)
Definition teqb (a b : tname) : bool :=
  match a, b with
  | Other s, Other t => same_str s t
  | Other _, _ | _, Other _ => false
  | _, _ => tcode a =? tcode b
  end.
(** a name among others (std::array<tag_name, n>, switch) *)
Definition among (t : tname) (l : list tname) : bool := existsb (teqb t) l.

(** token.hpp:52-75, with the namespace and the prefix *)
Record tattr := TAttr { ta_ns : Z; ta_prefix : list Z; ta_name : list Z; ta_value : list Z; ta_omitted : bool }.

(** token.hpp:121-190, a start tag token: m_tag_name_id, whether it is not 0, m_tag_name, m_self_closing_flag, the
    attributes *)
Record stag := STag { g_id : tname; g_atom : bool; g_text : list Z; g_self : bool; g_attrs : list tattr }.
(** start_tag_token(), token.hpp:176-180 *)
Definition empty_tag : stag := STag (Other []) false [] false [].
(** start_tag_token(tag), token.hpp:182-185 *)
Definition made_tag (t : tname) : stag := STag t true [] false [].

(** The arguments of process_token. Of an end tag only the name is used. *)
Inductive ktok :=
| KDoctype (d : doctype)
| KStart (g : stag)
| KEnd (t : tname)
| KComment (data : list Z)
| KChar (c : Z)
| KEof.

(** tokenization.hpp:223-225 *)
Definition has_atom (s : list Z) : bool := existsb (fun x => same_str s (lit x)) atom_names.

(** A start tag token as emitted: the attributes are put into slots with the prefixes left in them. *)
Fixpoint fill (slots : list (list Z)) (l : list attribute) : list tattr :=
  match l with
  | [] => []
  | a :: r => TAttr 0 (hd [] slots) (a_name a) (a_value a) (a_omitted a) :: fill (tl slots) r
  end.
Definition emitted (slots : list (list Z)) (g : tag) : stag :=
  STag (tname_of (g_name g)) (has_atom (g_name g)) (g_name g) (g_self_closing g) (fill slots (g_attributes g)).
Definition tok_of (slots : list (list Z)) (t : token) : ktok :=
  match t with
  | TDoctype d => KDoctype d
  | TStart g => KStart (emitted slots g)
  | TEnd g => KEnd (tname_of (g_name g))
  | TComment s => KComment s
  | TChar c => KChar c
  | TEof => KEof
  end.

(** token.hpp:152-163, tag_token::find *)
Definition find_attr (name : list Z) (g : stag) : option (list Z) :=
  match find (fun a => negb (ta_omitted a) && same_str name (ta_name a)) (g_attrs g) with
  | Some a => Some (ta_value a) | None => None
  end.

(** *** The tree *)

(** simple_node.hpp:770-835, the alternatives that the parser makes; m_temporary is an [IDocument] too *)
Inductive info :=
| IDocument
| IElement (ns : Z) (t : tname) (attrs : list attr)
| IText (data : list Z)
| IComment (data : list Z)
| IDoctype (name public system : list Z).

(** a node: its value, its parent and its children *)
Record cell := Cell { c_info : info; c_parent : nat; c_kids : list nat }.

(** simple_parser.hpp:67-68: the document is node 0 and m_temporary node 1; the children of the latter are not kept *)
Definition the_document : nat := 0.
Definition the_temporary : nat := 1.
Definition tree_init : list cell := [Cell IDocument the_document []; Cell IDocument the_document []].

Definition no_cell : cell := Cell IDocument the_document [].
Definition cell_of (d : list cell) (i : nat) : cell := nth i d no_cell.
Definition kids_of (d : list cell) (i : nat) : list nat := c_kids (cell_of d i).
Definition parent_of (d : list cell) (i : nat) : nat := c_parent (cell_of d i).
Fixpoint change (d : list cell) (i : nat) (f : cell -> cell) : list cell :=
  match d, i with
  | [], _ => []
  | c :: r, O => f c :: r
  | c :: r, S j => c :: change r j f
  end.
Definition set_kids (l : list nat) (c : cell) : cell := Cell (c_info c) (c_parent c) l.
Definition set_parent (p : nat) (c : cell) : cell := Cell (c_info c) p (c_kids c).
Definition set_info (x : info) (c : cell) : cell := Cell x (c_parent c) (c_kids c).

(** simple_traits.hpp:92-107; asked of elements only (simple_node.hpp:891-928 asserts) *)
Definition ns_of (d : list cell) (i : nat) : Z :=
  match c_info (cell_of d i) with IElement ns _ _ => ns | _ => 0 end.
Definition name_of (d : list cell) (i : nat) : tname :=
  match c_info (cell_of d i) with IElement _ t _ => t | _ => Other [] end.
(** tree_construction_dispatcher.hpp:258-292 *)
Definition is_el (ns : Z) (t : tname) (d : list cell) (i : nat) : bool := (ns_of d i =? ns) && teqb (name_of d i) t.
Definition is_html (t : tname) (d : list cell) (i : nat) : bool := is_el ns_HTML t d i.
Definition is_html_in (l : list tname) (d : list cell) (i : nat) : bool := (ns_of d i =? ns_HTML) && among (name_of d i) l.

(** A position: a node and the child before which it is, or its end. *)
Definition place := (nat * option nat)%type.
Definition at_end (i : nat) : place := (i, None).

(** the list with [n] put before [b] *)
Fixpoint put_before (b n : nat) (l : list nat) : option (list nat) :=
  match l with
  | [] => None
  | x :: r => if (x =? b)%nat then Some (n :: l) else match put_before b n r with Some r1 => Some (x :: r1) | None => None end
  end.
Definition put (before : option nat) (n : nat) (l : list nat) : option (list nat) :=
  match before with None => Some (l ++ [n]) | Some b => put_before b n l end.
(** the child in front of a position *)
Fixpoint in_front (b : nat) (l : list nat) (prev : option nat) : option (option nat) :=
  match l with
  | [] => None
  | x :: r => if (x =? b)%nat then Some prev else in_front b r (Some x)
  end.
Definition before_place (d : list cell) (p : place) : option (option nat) :=
  match snd p with
  | None => Some (match kids_of d (fst p) with [] => None | (_ :: _) as l => Some (last l O) end)
  | Some b => in_front b (kids_of d (fst p)) None
  end.

(** m_c.insert(pos, value) (simple_parser.hpp:95-98, 166-178), and create_element followed by insert_element
    (109-122): the new node was last in m_temporary, so the move is one of those that work (C89) *)
Definition insert (d : list cell) (p : place) (x : info) : outcome (list cell * nat) :=
  let n := List.length d in
  match put (snd p) n (kids_of d (fst p)) with
  | Some l => Val (change d (fst p) (set_kids l) ++ [Cell x (fst p) []], n)
  | None => Bad
  end.
(** create_element alone (simple_parser.hpp:109-117) *)
Definition create (d : list cell) (x : info) : list cell * nat := (d ++ [Cell x the_temporary []], List.length d).

(** is [n] the node [p] or above it? *)
Fixpoint above (fuel : nat) (d : list cell) (n p : nat) : bool :=
  (n =? p)%nat ||
  match fuel with O => false | S f => if (p <=? 1)%nat then false else above f d n (parent_of d p) end.
Definition without (n : nat) (l : list nat) : list nat := filter (fun x => negb (x =? n)%nat) l.
(** the position behind a node (iterator ++) *)
Fixpoint behind (n : nat) (l : list nat) : option nat :=
  match l with
  | [] => None
  | x :: r => if (x =? n)%nat then hd_error r else behind n r
  end.
Definition same_place (p q : place) : bool :=
  (fst p =? fst q)%nat && match snd p, snd q with Some a, Some b => (a =? b)%nat | None, None => true | _, _ => false end.
(** m_c.move(pos, it) (simple_parser.hpp:119-122, 140-143): M_tag.v, tt_move. A move into the node itself is left out
    (C89_itself_refuted). Moved to the position directly behind it a node is lost (C89_lost). *)
Definition move (d : list cell) (p : place) (n : nat) : outcome (list cell) :=
  if above (List.length d) d n (fst p) then Bad else
  let q := parent_of d n in
  let next := (q, behind n (kids_of d q)) in
  let d1 := change d q (fun c => set_kids (without n (c_kids c)) c) in
  if negb (q =? the_temporary)%nat && same_place p next then Val d1
  else match put (snd p) n (kids_of d1 (fst p)) with
       | Some l => Val (change (change d1 (fst p) (set_kids l)) n (set_parent (fst p)))
       | None => Bad
       end.
(** erase_element (simple_parser.hpp:131-134): the node is taken out *)
Definition erase (d : list cell) (n : nat) : list cell :=
  change d (parent_of d n) (fun c => set_kids (without n (c_kids c)) c).

(** *** The members *)

(** tree_construction_dispatcher.hpp:78-103 *)
Inductive mode :=
| M_initial | M_before_html | M_before_head | M_in_head | M_in_head_noscript | M_after_head | M_in_body | M_text
| M_in_table | M_in_table_text | M_in_caption | M_in_column_group | M_in_table_body | M_in_row | M_in_cell | M_in_select
| M_in_select_in_table | M_in_template | M_after_body | M_in_frameset | M_after_frameset | M_after_after_body
| M_after_after_frameset.

(** the arguments of change_state (tokenization.hpp:262) in this file: 1471, 1482, 1910, 2547, 2907 *)
Inductive reading := R_rcdata | R_rawtext | R_script | R_plaintext.

(** 116-122 *)
Record entry := Entry { en_tag : stag; en_node : nat }.
(** 131-140; [None] is a marker *)
Definition formatting := option entry.

(** tree_construction_dispatcher.hpp:62-199: the members. [s_stack], [s_active] and [s_templates] are written from the
    back to the front; m_scripting_flag is always false; the encoding and m_context_entry (never set, so a null pointer)
    are left out. [s_slots]: the prefixes left in m_start_tag_token (token.hpp:60-66 does not clear them). [s_wanted]: the
    state given to change_state since the last token. *)
Record st := St {
  s_dom : list cell; s_quirks : bool; s_mode : mode; s_original : mode; s_templates : list mode;
  s_stack : list entry; s_active : list formatting; s_head : option nat; s_form : option nat; s_frameset_ok : bool;
  s_foster : bool; s_fragment : bool; s_omit_lf : bool; s_pending : list Z; s_slots : list (list Z);
  s_wanted : option reading }.

(** assignments to single members *)
Definition set_dom (x : list cell) (s : st) : st :=
  St x (s_quirks s) (s_mode s) (s_original s) (s_templates s) (s_stack s) (s_active s) (s_head s) (s_form s) (s_frameset_ok s) (s_foster s) (s_fragment s) (s_omit_lf s) (s_pending s) (s_slots s) (s_wanted s).
Definition set_quirks (x : bool) (s : st) : st :=
  St (s_dom s) x (s_mode s) (s_original s) (s_templates s) (s_stack s) (s_active s) (s_head s) (s_form s) (s_frameset_ok s) (s_foster s) (s_fragment s) (s_omit_lf s) (s_pending s) (s_slots s) (s_wanted s).
Definition set_mode (x : mode) (s : st) : st :=
  St (s_dom s) (s_quirks s) x (s_original s) (s_templates s) (s_stack s) (s_active s) (s_head s) (s_form s) (s_frameset_ok s) (s_foster s) (s_fragment s) (s_omit_lf s) (s_pending s) (s_slots s) (s_wanted s).
Definition set_original (x : mode) (s : st) : st :=
  St (s_dom s) (s_quirks s) (s_mode s) x (s_templates s) (s_stack s) (s_active s) (s_head s) (s_form s) (s_frameset_ok s) (s_foster s) (s_fragment s) (s_omit_lf s) (s_pending s) (s_slots s) (s_wanted s).
Definition set_templates (x : list mode) (s : st) : st :=
  St (s_dom s) (s_quirks s) (s_mode s) (s_original s) x (s_stack s) (s_active s) (s_head s) (s_form s) (s_frameset_ok s) (s_foster s) (s_fragment s) (s_omit_lf s) (s_pending s) (s_slots s) (s_wanted s).
Definition set_stack (x : list entry) (s : st) : st :=
  St (s_dom s) (s_quirks s) (s_mode s) (s_original s) (s_templates s) x (s_active s) (s_head s) (s_form s) (s_frameset_ok s) (s_foster s) (s_fragment s) (s_omit_lf s) (s_pending s) (s_slots s) (s_wanted s).
Definition set_active (x : list formatting) (s : st) : st :=
  St (s_dom s) (s_quirks s) (s_mode s) (s_original s) (s_templates s) (s_stack s) x (s_head s) (s_form s) (s_frameset_ok s) (s_foster s) (s_fragment s) (s_omit_lf s) (s_pending s) (s_slots s) (s_wanted s).
Definition set_head (x : option nat) (s : st) : st :=
  St (s_dom s) (s_quirks s) (s_mode s) (s_original s) (s_templates s) (s_stack s) (s_active s) x (s_form s) (s_frameset_ok s) (s_foster s) (s_fragment s) (s_omit_lf s) (s_pending s) (s_slots s) (s_wanted s).
Definition set_form (x : option nat) (s : st) : st :=
  St (s_dom s) (s_quirks s) (s_mode s) (s_original s) (s_templates s) (s_stack s) (s_active s) (s_head s) x (s_frameset_ok s) (s_foster s) (s_fragment s) (s_omit_lf s) (s_pending s) (s_slots s) (s_wanted s).
Definition set_frameset_ok (x : bool) (s : st) : st :=
  St (s_dom s) (s_quirks s) (s_mode s) (s_original s) (s_templates s) (s_stack s) (s_active s) (s_head s) (s_form s) x (s_foster s) (s_fragment s) (s_omit_lf s) (s_pending s) (s_slots s) (s_wanted s).
Definition set_foster (x : bool) (s : st) : st :=
  St (s_dom s) (s_quirks s) (s_mode s) (s_original s) (s_templates s) (s_stack s) (s_active s) (s_head s) (s_form s) (s_frameset_ok s) x (s_fragment s) (s_omit_lf s) (s_pending s) (s_slots s) (s_wanted s).
Definition set_fragment (x : bool) (s : st) : st :=
  St (s_dom s) (s_quirks s) (s_mode s) (s_original s) (s_templates s) (s_stack s) (s_active s) (s_head s) (s_form s) (s_frameset_ok s) (s_foster s) x (s_omit_lf s) (s_pending s) (s_slots s) (s_wanted s).
Definition set_omit_lf (x : bool) (s : st) : st :=
  St (s_dom s) (s_quirks s) (s_mode s) (s_original s) (s_templates s) (s_stack s) (s_active s) (s_head s) (s_form s) (s_frameset_ok s) (s_foster s) (s_fragment s) x (s_pending s) (s_slots s) (s_wanted s).
Definition set_pending (x : list Z) (s : st) : st :=
  St (s_dom s) (s_quirks s) (s_mode s) (s_original s) (s_templates s) (s_stack s) (s_active s) (s_head s) (s_form s) (s_frameset_ok s) (s_foster s) (s_fragment s) (s_omit_lf s) x (s_slots s) (s_wanted s).
Definition set_slots (x : list (list Z)) (s : st) : st :=
  St (s_dom s) (s_quirks s) (s_mode s) (s_original s) (s_templates s) (s_stack s) (s_active s) (s_head s) (s_form s) (s_frameset_ok s) (s_foster s) (s_fragment s) (s_omit_lf s) (s_pending s) x (s_wanted s).
Definition set_wanted (x : option reading) (s : st) : st :=
  St (s_dom s) (s_quirks s) (s_mode s) (s_original s) (s_templates s) (s_stack s) (s_active s) (s_head s) (s_form s) (s_frameset_ok s) (s_foster s) (s_fragment s) (s_omit_lf s) (s_pending s) (s_slots s) x.
(** 202-215 *)
Definition st_init (fragment : bool) : st :=
  St tree_init false M_initial M_initial [] [] [] None None true false fragment false [] [] None.

(** 344-347 *)
Definition template_mode (s : st) : outcome mode := match s_templates s with m :: _ => Val m | [] => Bad end.

(** 497-499: back() of an empty deque is undefined *)
Definition cur (s : st) : outcome nat := match s_stack s with e :: _ => Val (en_node e) | [] => Bad end.
(** 506-516: m_context_entry holds a null pointer *)
Definition adjusted (s : st) : outcome entry :=
  match s_stack s with
  | [] => Bad
  | e :: r => if s_fragment s && match r with [] => true | _ => false end then Bad else Val e
  end.
(** m_stack.pop_back() *)
Definition pop (s : st) : outcome st := match s_stack s with _ :: r => Val (set_stack r s) | [] => Bad end.
Definition cur_is (t : tname) (s : st) : outcome bool := run i <- cur s; Val (is_html t (s_dom s) i).
(** m_stack.front() *)
Definition front (s : st) : outcome nat := match s_stack s with [] => Bad | e :: r => Val (en_node (last r e)) end.
(** m_stack[1]; the caller knows that there are two *)
Definition second (s : st) : outcome nat := match rev (s_stack s) with _ :: e :: _ => Val (en_node e) | _ => Bad end.

(** 450-490 *)
Definition contains (t : tname) (s : st) : bool := existsb (fun e => is_html t (s_dom s) (en_node e)) (s_stack s).
Definition on_stack (i : nat) (s : st) : bool := existsb (fun e => (en_node e =? i)%nat) (s_stack s).

(** 376-393 *)
Fixpoint reset_select (d : list cell) (below : list entry) : mode :=
  match below with
  | [] => M_in_select
  | e :: r =>
      if is_html T_template d (en_node e) then M_in_select
      else if is_html T_table d (en_node e) then M_in_select_in_table
      else reset_select d r
  end.
(** 362-431; at the bottom of the stack of a fragment parser the node is the null pointer of m_context_entry *)
Fixpoint reset_from (s : st) (l : list entry) : outcome mode :=
  match l with
  | [] => Bad
  | e :: r =>
      let last := match r with [] => true | _ => false end in
      let is t := is_html t (s_dom s) (en_node e) in
      if last && s_fragment s then Bad
      else if is T_select then Val (reset_select (s_dom s) r)
      else if (is T_td || is T_th) && negb last then Val M_in_cell
      else if is T_tr then Val M_in_row
      else if is T_tbody || is T_thead || is T_tfoot then Val M_in_table_body
      else if is T_caption then Val M_in_caption
      else if is T_colgroup then Val M_in_column_group
      else if is T_table then Val M_in_table
      else if is T_template then template_mode s
      else if is T_head && negb last then Val M_in_head
      else if is T_body then Val M_in_body
      else if is T_frameset then Val M_in_frameset
      else if is T_html then Val (match s_head s with None => M_before_head | Some _ => M_after_head end)
      else if last then Val M_in_body
      else reset_from s r
  end.
(** 354-432 *)
Definition reset_mode (s : st) : outcome st := run m <- reset_from s (s_stack s); Val (set_mode m s).

(** 527-574 *)
Definition special_html : list tname :=
  [T_address; T_applet; T_area; T_article; T_aside; T_base; T_basefont; T_bgsound; T_blockquote; T_body; T_br; T_button;
   T_caption; T_center; T_col; T_colgroup; T_dd; T_details; T_dir; T_div; T_dl; T_dt; T_embed; T_fieldset; T_figcaption;
   T_figure; T_footer; T_form; T_frame; T_frameset; T_h1; T_h2; T_h3; T_h4; T_h5; T_h6; T_head; T_header; T_hgroup; T_hr;
   T_html; T_iframe; T_img; T_input; T_keygen; T_li; T_link; T_listing; T_main; T_marquee; T_menu; T_meta; T_nav;
   T_noembed; T_noframes; T_noscript; T_object; T_ol; T_p; T_param; T_plaintext; T_pre; T_script; T_section; T_select;
   T_source; T_style; T_summary; T_table; T_tbody; T_td; T_template; T_textarea; T_tfoot; T_th; T_thead; T_title; T_tr;
   T_track; T_ul; T_wbr; T_xmp].
Definition mathml_texts : list tname := [T_mi; T_mo; T_mn; T_ms; T_mtext].
Definition is_special (d : list cell) (i : nat) : bool :=
  let t := name_of d i in
  if ns_of d i =? ns_HTML then among t special_html
  else if ns_of d i =? ns_MathML then among t (mathml_texts ++ [T_annotation_xml])
  else if ns_of d i =? ns_SVG then among t [T_foreignObject; T_desc; T_title]
  else false.

(** 632-671; the end of the loop is assert(false) *)
Fixpoint scope_from (d : list cell) (target scope : nat -> bool) (l : list entry) : outcome bool :=
  match l with
  | [] => Bad
  | e :: r => if target (en_node e) then Val true else if scope (en_node e) then Val false else scope_from d target scope r
  end.
(** 682-720 *)
Definition default_scope (d : list cell) (i : nat) : bool :=
  let t := name_of d i in
  if ns_of d i =? ns_HTML then
    among t [T_applet; T_caption; T_html; T_table; T_td; T_th; T_marquee; T_object; T_template]
  else if ns_of d i =? ns_MathML then among t (mathml_texts ++ [T_annotation_xml])
  else if ns_of d i =? ns_SVG then among t [T_factorial; T_foreignObject; T_desc; T_title]
  else false.
(** 731-788 *)
Definition list_item_scope (d : list cell) (i : nat) : bool := default_scope d i || is_html T_ol d i || is_html T_ul d i.
Definition button_scope (d : list cell) (i : nat) : bool := default_scope d i || is_html T_button d i.
Definition table_scope (d : list cell) (i : nat) : bool := is_html T_html d i || is_html T_table d i || is_html T_template d i.
Definition select_scope (d : list cell) (i : nat) : bool := negb (is_html T_optgroup d i || is_html T_option d i).
Definition in_scope (scope : list cell -> nat -> bool) (t : tname) (s : st) : outcome bool :=
  scope_from (s_dom s) (is_html t (s_dom s)) (scope (s_dom s)) (s_stack s).
Definition in_scope_any (scope : list cell -> nat -> bool) (l : list tname) (s : st) : outcome bool :=
  scope_from (s_dom s) (is_html_in l (s_dom s)) (scope (s_dom s)) (s_stack s).
Definition in_scope_node (scope : list cell -> nat -> bool) (i : nat) (s : st) : outcome bool :=
  scope_from (s_dom s) (fun j => (j =? i)%nat) (scope (s_dom s)) (s_stack s).

(** 806-860 *)
Fixpoint drop_to (f : nat -> bool) (l : list entry) : list entry :=
  match l with [] => [] | e :: r => if f (en_node e) then r else drop_to f r end.
Definition pop_until (t : tname) (s : st) : st := set_stack (drop_to (is_html t (s_dom s)) (s_stack s)) s.
Definition pop_until_any (l : list tname) (s : st) : st := set_stack (drop_to (is_html_in l (s_dom s)) (s_stack s)) s.
Definition pop_until_node (i : nat) (s : st) : st := set_stack (drop_to (fun j => (j =? i)%nat) (s_stack s)) s.
(** The first entry from the front, as std::find_if does; [l] is from the back to the front. *)
Fixpoint remove_first {A} (f : A -> bool) (l : list A) : option (list A) :=
  match l with
  | [] => None
  | e :: r => if f e then Some r else match remove_first f r with Some r1 => Some (e :: r1) | None => None end
  end.
Definition remove_front {A} (f : A -> bool) (l : list A) : option (list A) :=
  match remove_first f (rev l) with Some r => Some (rev r) | None => None end.
(** 889-895 *)
Definition remove_stack (i : nat) (s : st) : outcome st :=
  match remove_front (fun e => (en_node e =? i)%nat) (s_stack s) with Some l => Val (set_stack l s) | None => Bad end.

(** *** The list of active formatting elements *)

Definition is_entry (i : nat) (f : formatting) : bool := match f with Some e => (en_node e =? i)%nat | None => false end.
(** 1008-1031 *)
Definition in_list (i : nat) (s : st) : bool := existsb (is_entry i) (s_active s).
Definition remove_list (i : nat) (s : st) : st :=
  match remove_front (is_entry i) (s_active s) with Some l => set_active l s | None => s end.

(** simple_node.hpp:168-173 and 566-578: the values of the attributes, the namespace and the name are not compared *)
Definition same_attr (a b : attr) : bool :=
  (at_ns a =? at_ns b) && same_str (at_prefix a) (at_prefix b) && same_str (at_local a) (at_local b).
Definition attrs_of (d : list cell) (i : nat) : list attr := match c_info (cell_of d i) with IElement _ _ l => l | _ => [] end.
Definition same_element (d : list cell) (i j : nat) : bool :=
  (List.length (attrs_of d i) =? List.length (attrs_of d j))%nat &&
  forallb (fun a => existsb (same_attr a) (attrs_of d j)) (attrs_of d i).
(** 918-939: the entries back to the last marker; the earliest equal one goes when there are three *)
Fixpoint count_same (d : list cell) (i : nat) (l : list formatting) : nat :=
  match l with
  | Some e :: r => ((if same_element d i (en_node e) then 1 else 0) + count_same d i r)%nat
  | _ => O
  end.
Fixpoint erase_earliest (d : list cell) (i : nat) (n : nat) (l : list formatting) : list formatting :=
  match l with
  | Some e :: r =>
      if same_element d i (en_node e) then
        match n with S O => r | _ => Some e :: erase_earliest d i (pred n) r end
      else Some e :: erase_earliest d i n r
  | _ => l
  end.
Definition push_formatting (i : nat) (g : stag) (s : st) : st :=
  let n := count_same (s_dom s) i (s_active s) in
  let l := if (3 <=? n)%nat then erase_earliest (s_dom s) i n (s_active s) else s_active s in
  set_active (Some (Entry g i) :: l) s.
(** 946-949 *)
Definition push_marker (s : st) : st := set_active (None :: s_active s) s.
(** 990-998 *)
Fixpoint to_marker (l : list formatting) : list formatting :=
  match l with [] => [] | None :: r => r | Some _ :: r => to_marker r end.
Definition clear_formatting (s : st) : st := set_active (to_marker (s_active s)) s.

(** *** Inserting *)

(** the entries above the first one that satisfies [f], counted from the back *)
Fixpoint index_of (f : nat -> bool) (l : list entry) : option nat :=
  match l with
  | [] => None
  | e :: r => if f (en_node e) then Some O else option_map S (index_of f r)
  end.
(** 1237-1301 *)
Definition place_for (target : nat) (s : st) : outcome place :=
  let d := s_dom s in
  if s_foster s && is_html_in [T_table; T_tbody; T_tfoot; T_thead; T_tr] d target then
    match index_of (is_html T_table d) (s_stack s) with
    | None => run f <- front s; Val (at_end f)
    | Some k =>
        let table := match nth_error (s_stack s) k with Some e => en_node e | None => O end in
        let template :=
          match index_of (is_html T_template d) (s_stack s) with
          | Some j => if (j <? k)%nat then nth_error (s_stack s) j else None
          | None => None
          end in
        match template with
        | Some e => Val (at_end (en_node e))
        | None =>
            if (parent_of d table =? the_document)%nat then
              match nth_error (s_stack s) (S k) with Some e => Val (at_end (en_node e)) | None => Bad end
            else Val (parent_of d table, Some table)
        end
    end
  else Val (at_end target).

(** 1308-1331 and simple_parser.hpp:109-117, 149-152 *)
Definition element_for (g : stag) (ns : Z) : outcome info :=
  let attrs := map (fun a => Attr (ta_ns a) (ta_prefix a) (ta_name a) (ta_value a))
                   (filter (fun a => negb (ta_omitted a)) (g_attrs g)) in
  if g_atom g then Val (IElement ns (g_id g) attrs)
  else match g_text g with [] => Bad | _ => Val (IElement ns (tname_of (g_text g)) attrs) end.

(** 1336-1351 *)
Definition insert_foreign (g : stag) (ns : Z) (s : st) : outcome (st * nat) :=
  run c <- cur s;
  run p <- place_for c s;
  run x <- element_for g ns;
  run (d, i) <- insert (s_dom s) p x;
  Val (set_stack (Entry g i :: s_stack s) (set_dom d s), i).
(** 1356-1359 *)
Definition insert_el (g : stag) (s : st) : outcome (st * nat) := insert_foreign g ns_HTML s.
Definition insert_el' (g : stag) (s : st) : outcome st := run (s1, _) <- insert_el g s; Val s1.
(** insert_html_element(token); m_stack.pop_back() *)
Definition insert_void (g : stag) (s : st) : outcome st := run s1 <- insert_el' g s; pop s1.

(** 956-983 *)
Fixpoint to_open (s : st) (l : list formatting) : list entry * list formatting :=
  match l with
  | Some e :: r => if on_stack (en_node e) s then ([], l) else let (a, b) := to_open s r in (e :: a, b)
  | _ => ([], l)
  end.
(** 974-982, the entries from the front to the back *)
Fixpoint reopen (l : list entry) (done : list formatting) (s : st) : outcome st :=
  match l with
  | [] => Val (set_active done s)
  | e :: r => run (s1, i) <- insert_el (en_tag e) s; reopen r (Some (Entry (en_tag e) i) :: done) s1
  end.
Definition reconstruct (s : st) : outcome st :=
  let (a, b) := to_open s (s_active s) in
  match a with [] => Val s | _ => reopen (rev a) b s end.

(** 1417-1439 *)
Definition insert_char (c : Z) (s : st) : outcome st :=
  run i <- cur s;
  run p <- place_for i s;
  if (fst p =? the_document)%nat then Val s else
  match before_place (s_dom s) p with
  | None => Bad
  | Some prev =>
      match prev with
      | Some t =>
          match c_info (cell_of (s_dom s) t) with
          | IText data => Val (set_dom (change (s_dom s) t (set_info (IText (data ++ [c])))) s)
          | _ => run (d, _) <- insert (s_dom s) p (IText [c]); Val (set_dom d s)
          end
      | None => run (d, _) <- insert (s_dom s) p (IText [c]); Val (set_dom d s)
      end
  end.
(** 1444-1456 *)
Definition insert_comment_at (data : list Z) (p : place) (s : st) : outcome st :=
  run (d, _) <- insert (s_dom s) p (IComment data); Val (set_dom d s).
Definition insert_comment (data : list Z) (s : st) : outcome st :=
  run i <- cur s; run p <- place_for i s; insert_comment_at data p s.

(** change_state (tokenization.hpp:262) *)
Definition want (x : reading) (s : st) : st := set_wanted (Some x) s.
(** m_original_insertion_mode = m_insertion_mode; insertion_mode(text_insertion_mode) *)
Definition to_text (s : st) : st := set_mode M_text (set_original (s_mode s) s).
(** 1468-1485 *)
Definition raw_text (g : stag) (s : st) : outcome st := run s1 <- insert_el' g s; Val (to_text (want R_rawtext s1)).
Definition rcdata (g : stag) (s : st) : outcome st := run s1 <- insert_el' g s; Val (to_text (want R_rcdata s1)).

(** 1497-1536; a node with the excepted name ends the loop, and so does any other namespace *)
Definition implied : list tname := [T_dd; T_dt; T_li; T_optgroup; T_option; T_p; T_rb; T_rp; T_rt; T_rtc].
Fixpoint drop_implied (d : list cell) (l : list tname) (except : option tname) (x : list entry) : list entry :=
  match x with
  | [] => []
  | e :: r =>
      let t := name_of d (en_node e) in
      if match except with Some u => teqb t u | None => false end then x
      else if (ns_of d (en_node e) =? ns_HTML) && among t l then drop_implied d l except r
      else x
  end.
Definition implied_except (except : option tname) (s : st) : st :=
  set_stack (drop_implied (s_dom s) implied except (s_stack s)) s.
Definition implied_end_tags (s : st) : st := implied_except None s.
(** 1541-1562 *)
Definition implied_thoroughly (s : st) : st :=
  set_stack (drop_implied (s_dom s) (implied ++ [T_caption; T_colgroup; T_tbody; T_td; T_tfoot; T_th; T_thead; T_tr]) None (s_stack s)) s.

(** *** Foreign elements *)

(** 1185-1199 *)
Definition mathml_text_point (d : list cell) (i : nat) : bool := (ns_of d i =? ns_MathML) && among (name_of d i) mathml_texts.
(** 1201-1224 *)
Definition html_point (d : list cell) (e : entry) : bool :=
  let i := en_node e in
  if (ns_of d i =? ns_MathML) && teqb (name_of d i) T_annotation_xml then
    match find_attr (lit "encoding") (en_tag e) with
    | Some v => same_str (map cp_lower v) (lit "text/html") || same_str (map cp_lower v) (lit "application/xhtml+xml")
    | None => false
    end
  else (ns_of d i =? ns_SVG) && among (name_of d i) [T_foreignObject; T_desc; T_title].

(** 1365-1411 *)
Definition rename (f : tattr -> tattr) (g : stag) : stag := STag (g_id g) (g_atom g) (g_text g) (g_self g) (map f (g_attrs g)).
Definition renamed (n : list Z) (a : tattr) : tattr := TAttr (ta_ns a) (ta_prefix a) n (ta_value a) (ta_omitted a).
Definition adjust_mathml : stag -> stag :=
  rename (fun a => if same_str (ta_name a) (lit "definitionurl") then renamed (lit "definitionURL") a else a).
(** lib/whatwg/html/parsing/atom_tbl.cpp:4765-4776 and 5141-5145: for each entry the replacement; the key is the same in
    lower case *)
Definition svg_attributes : list string := [
  "attributeName"; "attributeType"; "baseFrequency"; "baseProfile"; "calcMode"; "clipPathUnits"; "diffuseConstant";
  "edgeMode"; "filterUnits"; "glyphRef"; "gradientTransform"; "gradientUnits"; "kernelMatrix"; "kernelUnitLength";
  "keyPoints"; "keySplines"; "keyTimes"; "lengthAdjust"; "limitingConeAngle"; "markerHeight"; "markerUnits";
  "markerWidth"; "maskContentUnits"; "maskUnits"; "numOctaves"; "pathLength"; "patternContentUnits"; "patternTransform";
  "patternUnits"; "pointsAtX"; "pointsAtY"; "pointsAtZ"; "preserveAlpha"; "preserveAspectRatio"; "primitiveUnits";
  "refX"; "refY"; "repeatCount"; "repeatDur"; "requiredExtensions"; "requiredFeatures"; "specularConstant";
  "specularExponent"; "spreadMethod"; "startOffset"; "stdDeviation"; "stitchTiles"; "surfaceScale"; "systemLanguage";
  "tableValues"; "targetX"; "targetY"; "textLength"; "viewBox"; "viewTarget"; "xChannelSelector"; "yChannelSelector";
  "zoomAndPan"]%string.
Definition svg_elements : list string := [
  "altGlyph"; "altGlyphDef"; "altGlyphItem"; "animateColor"; "animateMotion"; "animateTransform"; "clipPath"; "feBlend";
  "feColorMatrix"; "feComponentTransfer"; "feComposite"; "feConvolveMatrix"; "feDiffuseLighting"; "feDisplacementMap";
  "feDistantLight"; "feDropShadow"; "feFlood"; "feFuncA"; "feFuncB"; "feFuncG"; "feFuncR"; "feGaussianBlur"; "feImage";
  "feMerge"; "feMergeNode"; "feMorphology"; "feOffset"; "fePointLight"; "feSpecularLighting"; "feSpotLight"; "feTile";
  "feTurbulence"; "foreignObject"; "glyphRef"; "linearGradient"; "radialGradient"; "textPath"]%string.
Definition cased (tbl : list string) (n : list Z) : list Z :=
  match find (fun x => same_str n (map cp_lower (lit x))) tbl with Some x => lit x | None => n end.
Definition adjust_svg : stag -> stag := rename (fun a => renamed (cased svg_attributes (ta_name a)) a).
(** atom_tbl.cpp:4778-4781 *)
Definition foreign_attributes : list (string * (Z * string * string)) := [
  ("xlink:actuate", (ns_XLink, "xlink", "actuate")); ("xlink:arcrole", (ns_XLink, "xlink", "arcrole"));
  ("xlink:href", (ns_XLink, "xlink", "href")); ("xlink:role", (ns_XLink, "xlink", "role"));
  ("xlink:show", (ns_XLink, "xlink", "show")); ("xlink:title", (ns_XLink, "xlink", "title"));
  ("xlink:type", (ns_XLink, "xlink", "type")); ("xml:lang", (ns_XML, "xml", "lang")); ("xml:space", (ns_XML, "xml", "space"));
  ("xmlns", (ns_XMLNS, "", "xmlns")); ("xmlns:xlink", (ns_XMLNS, "xmlns", "xlink"))]%string.
Definition adjust_foreign : stag -> stag :=
  rename (fun a =>
    match find (fun p => same_str (ta_name a) (lit (fst p))) foreign_attributes with
    | Some (_, (ns, p, n)) => TAttr ns (lit p) (lit n) (ta_value a) (ta_omitted a)
    | None => a
    end).
(** The token is m_start_tag_token itself (tokenization.hpp:229-230), so the prefixes stay in its slots. *)
Definition keep_slots (g : stag) (s : st) : st :=
  set_slots (map ta_prefix (g_attrs g) ++ skipn (List.length (g_attrs g)) (s_slots s)) s.
