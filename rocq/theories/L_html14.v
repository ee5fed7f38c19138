(** The tokenisation section of the HTML standard (13.2.5) as a table, state by state, and the handlers held against it. *)
From Coq Require Import ZArith List Bool Lia String.
From Verif Require Import M_infra M_encoding M_html M_html_ncr L_html_names L_html_ncr3 L_html1.
Import ListNotations.
Open Scope Z_scope.
Open Scope html_scope.

(** ** What the standard lets a state do *)

(** the current input character, its lowercase form, a given code point *)
Inductive ch := Cur | Low | Cp (c : Z).

(** the steps of the standard; [Marked]: an attribute whose name is already on the tag is removed from it, which this program
    does by a mark on the attribute *)
Inductive act :=
| Emit (x : ch) | EmitBuffer | EmitEof | EmitTag | EmitComment | EmitDoctype
| NewStart | NewEnd | NewComment | NewDoctype | NewAttribute
| TagName (x : ch) | AttrName (x : ch) | AttrValue (x : ch) | CommentData (x : ch) | DoctypeName (x : ch) | PublicId (x : ch) | SystemId (x : ch)
| SelfClosing | Quirks | PublicEmpty | SystemEmpty | BufferEmpty | Buffer (x : ch) | ReturnTo (s : state) | Unmatched | Marked
| CodeZero | CodeTimes (n : Z) | CodeAdd (minus : Z).

(** stay in the state; switch to a state; reconsume in a state; reconsume in the return state *)
Inductive dest := Stay | To (s : state) | Re (s : state) | ReReturn.

Inductive cond := Among (l : list Z) | Upper | Lower | Alpha | Digit | Alnum | UpperHex | LowerHex | HexDigit.
Inductive guard := Always | IfAppropriate | IfBuffer (s : list Z) | IfAttribute.

(** the rows in order, "anything else", the end of file *)
Record table := Table { rows : list (cond * guard * list act * dest); other : list act * dest; at_eof : list act * dest }.

Definition spaces : list Z := [0x9; 0xA; 0xC; 0x20].
Definition eof_only : list act * dest := ([EmitEof], Stay).
Definition also (p : list act * dest) (r : list (cond * guard * list act * dest)) : table := Table r p p.
Notation "c --> a , d" := (c, Always, a, d) (at level 60, a at level 50, d at level 50).
Notation "c ? g --> a , d" := (c, g, a, d) (at level 60, g at level 50, a at level 50, d at level 50).

(** 13.2.5.9 to 11, 12 to 14, 15 to 17, 23 to 25 *)
Definition lt_table (open text : state) : table := also ([Emit (Cp 0x3C)], Re text) [Among [0x2F] --> [BufferEmpty], To open].
Definition end_open_table (name text : state) : table :=
  also ([Emit (Cp 0x3C); Emit (Cp 0x2F)], Re text) [Alpha --> [NewEnd], Re name].
Definition end_name_table (text : state) : table :=
  also ([Emit (Cp 0x3C); Emit (Cp 0x2F); EmitBuffer], Re text)
    [Among spaces ? IfAppropriate --> [], To before_attribute_name_state; Among [0x2F] ? IfAppropriate --> [], To self_closing_start_tag_state;
     Among [0x3E] ? IfAppropriate --> [EmitTag], To data_state; Upper --> [TagName Low; Buffer Cur], Stay; Lower --> [TagName Cur; Buffer Cur], Stay].
(** 13.2.5.26 and 31 *)
Definition double_table (yes no text : state) : table :=
  also ([], Re text)
    [Among (spaces ++ [0x2F; 0x3E]) ? IfBuffer [0x73; 0x63; 0x72; 0x69; 0x70; 0x74] --> [Emit Cur], To yes;
     Among (spaces ++ [0x2F; 0x3E]) --> [Emit Cur], To no; Upper --> [Buffer Low; Emit Cur], Stay; Lower --> [Buffer Cur; Emit Cur], Stay].
(** 13.2.5.36 and 37 *)
Definition quoted_table (q : Z) (self : state) : table :=
  Table [Among [q] --> [], To after_attribute_value_quoted_state; Among [0x26] --> [ReturnTo self], To character_reference_state;
         Among [0] --> [AttrValue (Cp 0xFFFD)], Stay] ([AttrValue Cur], Stay) eof_only.
(** the end of file inside a doctype *)
Definition doctype_eof : list act * dest := ([Quirks; EmitDoctype; EmitEof], Stay).
(** 13.2.5.57, 58, 63, 64 *)
Definition keyword_table (before dq sq : state) (empty : act) : table :=
  Table [Among spaces --> [], To before; Among [0x22] --> [empty], To dq; Among [0x27] --> [empty], To sq; Among [0x3E] --> [Quirks; EmitDoctype], To data_state]
    ([Quirks], Re bogus_DOCTYPE_state) doctype_eof.
Definition before_id_table (dq sq : state) (empty : act) : table :=
  Table [Among spaces --> [], Stay; Among [0x22] --> [empty], To dq; Among [0x27] --> [empty], To sq; Among [0x3E] --> [Quirks; EmitDoctype], To data_state]
    ([Quirks], Re bogus_DOCTYPE_state) doctype_eof.
(** 13.2.5.59, 60, 65, 66 *)
Definition id_table (q : Z) (after : state) (push : ch -> act) : table :=
  Table [Among [q] --> [], To after; Among [0] --> [push (Cp 0xFFFD)], Stay; Among [0x3E] --> [Quirks; EmitDoctype], To data_state] ([push Cur], Stay) doctype_eof.
(** the end of file inside a comment *)
Definition comment_eof : list act * dest := ([EmitComment; EmitEof], Stay).

(** 13.2.5.1 to 80 but for the four states that look ahead or do not consume *)
Definition standard (s : state) : option table :=
  match s with
  | data_state => Some (Table [Among [0x26] --> [ReturnTo data_state], To character_reference_state; Among [0x3C] --> [], To tag_open_state; Among [0] --> [Emit Cur], Stay]
      ([Emit Cur], Stay) eof_only)
  | RCDATA_state => Some (Table [Among [0x26] --> [ReturnTo RCDATA_state], To character_reference_state; Among [0x3C] --> [], To RCDATA_less_than_sign_state;
      Among [0] --> [Emit (Cp 0xFFFD)], Stay] ([Emit Cur], Stay) eof_only)
  | RAWTEXT_state => Some (Table [Among [0x3C] --> [], To RAWTEXT_less_than_sign_state; Among [0] --> [Emit (Cp 0xFFFD)], Stay] ([Emit Cur], Stay) eof_only)
  | script_data_state => Some (Table [Among [0x3C] --> [], To script_data_less_than_sign_state; Among [0] --> [Emit (Cp 0xFFFD)], Stay] ([Emit Cur], Stay) eof_only)
  | PLAINTEXT_state => Some (Table [Among [0] --> [Emit (Cp 0xFFFD)], Stay] ([Emit Cur], Stay) eof_only)
  | tag_open_state => Some (Table [Among [0x21] --> [], To markup_declaration_open_state; Among [0x2F] --> [], To end_tag_open_state; Alpha --> [NewStart], Re tag_name_state;
      Among [0x3F] --> [NewComment], Re bogus_comment_state] ([Emit (Cp 0x3C)], Re data_state) ([Emit (Cp 0x3C); EmitEof], Stay))
  | end_tag_open_state => Some (Table [Alpha --> [NewEnd], Re tag_name_state; Among [0x3E] --> [], To data_state] ([NewComment], Re bogus_comment_state)
      ([Emit (Cp 0x3C); Emit (Cp 0x2F); EmitEof], Stay))
  | tag_name_state => Some (Table [Among spaces --> [], To before_attribute_name_state; Among [0x2F] --> [], To self_closing_start_tag_state;
      Among [0x3E] --> [EmitTag], To data_state; Upper --> [TagName Low], Stay; Among [0] --> [TagName (Cp 0xFFFD)], Stay] ([TagName Cur], Stay) eof_only)
  | RCDATA_less_than_sign_state => Some (lt_table RCDATA_end_tag_open_state RCDATA_state)
  | RCDATA_end_tag_open_state => Some (end_open_table RCDATA_end_tag_name_state RCDATA_state)
  | RCDATA_end_tag_name_state => Some (end_name_table RCDATA_state)
  | RAWTEXT_less_than_sign_state => Some (lt_table RAWTEXT_end_tag_open_state RAWTEXT_state)
  | RAWTEXT_end_tag_open_state => Some (end_open_table RAWTEXT_end_tag_name_state RAWTEXT_state)
  | RAWTEXT_end_tag_name_state => Some (end_name_table RAWTEXT_state)
  | script_data_less_than_sign_state => Some (also ([Emit (Cp 0x3C)], Re script_data_state)
      [Among [0x2F] --> [BufferEmpty], To script_data_end_tag_open_state; Among [0x21] --> [Emit (Cp 0x3C); Emit (Cp 0x21)], To script_data_escape_start_state])
  | script_data_end_tag_open_state => Some (end_open_table script_data_end_tag_name_state script_data_state)
  | script_data_end_tag_name_state => Some (end_name_table script_data_state)
  | script_data_escape_start_state => Some (also ([], Re script_data_state) [Among [0x2D] --> [Emit (Cp 0x2D)], To script_data_escape_start_dash_state])
  | script_data_escape_start_dash_state => Some (also ([], Re script_data_state) [Among [0x2D] --> [Emit (Cp 0x2D)], To script_data_escaped_dash_dash_state])
  | script_data_escaped_state => Some (Table [Among [0x2D] --> [Emit (Cp 0x2D)], To script_data_escaped_dash_state; Among [0x3C] --> [], To script_data_escaped_less_than_sign_state;
      Among [0] --> [Emit (Cp 0xFFFD)], Stay] ([Emit Cur], Stay) eof_only)
  | script_data_escaped_dash_state => Some (Table [Among [0x2D] --> [Emit (Cp 0x2D)], To script_data_escaped_dash_dash_state; Among [0x3C] --> [], To script_data_escaped_less_than_sign_state;
      Among [0] --> [Emit (Cp 0xFFFD)], To script_data_escaped_state] ([Emit Cur], To script_data_escaped_state) eof_only)
  | script_data_escaped_dash_dash_state => Some (Table [Among [0x2D] --> [Emit (Cp 0x2D)], Stay; Among [0x3C] --> [], To script_data_escaped_less_than_sign_state;
      Among [0x3E] --> [Emit (Cp 0x3E)], To script_data_state; Among [0] --> [Emit (Cp 0xFFFD)], To script_data_escaped_state] ([Emit Cur], To script_data_escaped_state) eof_only)
  | script_data_escaped_less_than_sign_state => Some (also ([Emit (Cp 0x3C)], Re script_data_escaped_state)
      [Among [0x2F] --> [BufferEmpty], To script_data_escaped_end_tag_open_state; Alpha --> [BufferEmpty; Emit (Cp 0x3C)], Re script_data_double_escape_start_state])
  | script_data_escaped_end_tag_open_state => Some (end_open_table script_data_escaped_end_tag_name_state script_data_escaped_state)
  | script_data_escaped_end_tag_name_state => Some (end_name_table script_data_escaped_state)
  | script_data_double_escape_start_state => Some (double_table script_data_double_escaped_state script_data_escaped_state script_data_escaped_state)
  | script_data_double_escaped_state => Some (Table [Among [0x2D] --> [Emit (Cp 0x2D)], To script_data_double_escaped_dash_state;
      Among [0x3C] --> [Emit (Cp 0x3C)], To script_data_double_escaped_less_than_sign_state; Among [0] --> [Emit (Cp 0xFFFD)], Stay] ([Emit Cur], Stay) eof_only)
  | script_data_double_escaped_dash_state => Some (Table [Among [0x2D] --> [Emit (Cp 0x2D)], To script_data_double_escaped_dash_dash_state;
      Among [0x3C] --> [Emit (Cp 0x3C)], To script_data_double_escaped_less_than_sign_state; Among [0] --> [Emit (Cp 0xFFFD)], To script_data_double_escaped_state]
      ([Emit Cur], To script_data_double_escaped_state) eof_only)
  | script_data_double_escaped_dash_dash_state => Some (Table [Among [0x2D] --> [Emit (Cp 0x2D)], Stay;
      Among [0x3C] --> [Emit (Cp 0x3C)], To script_data_double_escaped_less_than_sign_state; Among [0x3E] --> [Emit (Cp 0x3E)], To script_data_state;
      Among [0] --> [Emit (Cp 0xFFFD)], To script_data_double_escaped_state] ([Emit Cur], To script_data_double_escaped_state) eof_only)
  | script_data_double_escaped_less_than_sign_state => Some (also ([], Re script_data_double_escaped_state)
      [Among [0x2F] --> [BufferEmpty; Emit (Cp 0x2F)], To script_data_double_escape_end_state])
  | script_data_double_escape_end_state => Some (double_table script_data_escaped_state script_data_double_escaped_state script_data_double_escaped_state)
  | before_attribute_name_state => Some (Table [Among spaces --> [], Stay; Among [0x2F; 0x3E] --> [], Re after_attribute_name_state;
      Among [0x3D] --> [NewAttribute; AttrName Cur], To attribute_name_state] ([NewAttribute], Re attribute_name_state) ([], Re after_attribute_name_state))
  (* leaving the state the name is compared with those before; at the end of file nothing is compared, as the tag is not emitted *)
  | attribute_name_state => Some (Table [Among (spaces ++ [0x2F; 0x3E]) --> [Marked], Re after_attribute_name_state; Among [0x3D] --> [Marked], To before_attribute_value_state;
      Upper --> [AttrName Low], Stay; Among [0] --> [AttrName (Cp 0xFFFD)], Stay] ([AttrName Cur], Stay) ([], Re after_attribute_name_state))
  | after_attribute_name_state => Some (Table [Among spaces --> [], Stay; Among [0x2F] --> [], To self_closing_start_tag_state; Among [0x3D] --> [], To before_attribute_value_state;
      Among [0x3E] --> [EmitTag], To data_state] ([NewAttribute], Re attribute_name_state) eof_only)
  | before_attribute_value_state => Some (also ([], Re attribute_value_unquoted_state) [Among spaces --> [], Stay; Among [0x22] --> [], To attribute_value_double_quoted_state;
      Among [0x27] --> [], To attribute_value_single_quoted_state; Among [0x3E] --> [EmitTag], To data_state])
  | attribute_value_double_quoted_state => Some (quoted_table 0x22 attribute_value_double_quoted_state)
  | attribute_value_single_quoted_state => Some (quoted_table 0x27 attribute_value_single_quoted_state)
  | attribute_value_unquoted_state => Some (Table [Among spaces --> [], To before_attribute_name_state; Among [0x26] --> [ReturnTo attribute_value_unquoted_state], To character_reference_state;
      Among [0x3E] --> [EmitTag], To data_state; Among [0] --> [AttrValue (Cp 0xFFFD)], Stay] ([AttrValue Cur], Stay) eof_only)
  | after_attribute_value_quoted_state => Some (Table [Among spaces --> [], To before_attribute_name_state; Among [0x2F] --> [], To self_closing_start_tag_state;
      Among [0x3E] --> [EmitTag], To data_state] ([], Re before_attribute_name_state) eof_only)
  | self_closing_start_tag_state => Some (Table [Among [0x3E] --> [SelfClosing; EmitTag], To data_state] ([], Re before_attribute_name_state) eof_only)
  | bogus_comment_state => Some (Table [Among [0x3E] --> [EmitComment], To data_state; Among [0] --> [CommentData (Cp 0xFFFD)], Stay] ([CommentData Cur], Stay) comment_eof)
  | comment_start_state => Some (also ([], Re comment_state) [Among [0x2D] --> [], To comment_start_dash_state; Among [0x3E] --> [EmitComment], To data_state])
  | comment_start_dash_state => Some (Table [Among [0x2D] --> [], To comment_end_state; Among [0x3E] --> [EmitComment], To data_state]
      ([CommentData (Cp 0x2D)], Re comment_state) comment_eof)
  | comment_state => Some (Table [Among [0x3C] --> [CommentData Cur], To comment_less_than_sign_state; Among [0x2D] --> [], To comment_end_dash_state;
      Among [0] --> [CommentData (Cp 0xFFFD)], Stay] ([CommentData Cur], Stay) comment_eof)
  | comment_less_than_sign_state => Some (also ([], Re comment_state) [Among [0x21] --> [CommentData Cur], To comment_less_than_sign_bang_state; Among [0x3C] --> [CommentData Cur], Stay])
  | comment_less_than_sign_bang_state => Some (also ([], Re comment_state) [Among [0x2D] --> [], To comment_less_than_sign_bang_dash_state])
  | comment_less_than_sign_bang_dash_state => Some (also ([], Re comment_end_dash_state) [Among [0x2D] --> [], To comment_less_than_sign_bang_dash_dash_state])
  | comment_less_than_sign_bang_dash_dash_state => Some (also ([], Re comment_end_state) [Among [0x3E] --> [], Re comment_end_state])
  | comment_end_dash_state => Some (Table [Among [0x2D] --> [], To comment_end_state] ([CommentData (Cp 0x2D)], Re comment_state) comment_eof)
  | comment_end_state => Some (Table [Among [0x3E] --> [EmitComment], To data_state; Among [0x21] --> [], To comment_end_bang_state; Among [0x2D] --> [CommentData (Cp 0x2D)], Stay]
      ([CommentData (Cp 0x2D); CommentData (Cp 0x2D)], Re comment_state) comment_eof)
  | comment_end_bang_state => Some (Table [Among [0x2D] --> [CommentData (Cp 0x2D); CommentData (Cp 0x2D); CommentData (Cp 0x21)], To comment_end_dash_state;
      Among [0x3E] --> [EmitComment], To data_state] ([CommentData (Cp 0x2D); CommentData (Cp 0x2D); CommentData (Cp 0x21)], Re comment_state) comment_eof)
  | DOCTYPE_state => Some (Table [Among spaces --> [], To before_DOCTYPE_name_state; Among [0x3E] --> [], Re before_DOCTYPE_name_state] ([], Re before_DOCTYPE_name_state)
      ([NewDoctype; Quirks; EmitDoctype; EmitEof], Stay))
  | before_DOCTYPE_name_state => Some (Table [Among spaces --> [], Stay; Upper --> [NewDoctype; DoctypeName Low], To DOCTYPE_name_state;
      Among [0] --> [NewDoctype; DoctypeName (Cp 0xFFFD)], To DOCTYPE_name_state; Among [0x3E] --> [NewDoctype; Quirks; EmitDoctype], To data_state]
      ([NewDoctype; DoctypeName Cur], To DOCTYPE_name_state) ([NewDoctype; Quirks; EmitDoctype; EmitEof], Stay))
  | DOCTYPE_name_state => Some (Table [Among spaces --> [], To after_DOCTYPE_name_state; Among [0x3E] --> [EmitDoctype], To data_state; Upper --> [DoctypeName Low], Stay;
      Among [0] --> [DoctypeName (Cp 0xFFFD)], Stay] ([DoctypeName Cur], Stay) doctype_eof)
  | after_DOCTYPE_public_keyword_state => Some (keyword_table before_DOCTYPE_public_identifier_state DOCTYPE_public_identifier_double_quoted_state
      DOCTYPE_public_identifier_single_quoted_state PublicEmpty)
  | before_DOCTYPE_public_identifier_state => Some (before_id_table DOCTYPE_public_identifier_double_quoted_state DOCTYPE_public_identifier_single_quoted_state PublicEmpty)
  | DOCTYPE_public_identifier_double_quoted_state => Some (id_table 0x22 after_DOCTYPE_public_identifier_state PublicId)
  | DOCTYPE_public_identifier_single_quoted_state => Some (id_table 0x27 after_DOCTYPE_public_identifier_state PublicId)
  | after_DOCTYPE_public_identifier_state => Some (Table [Among spaces --> [], To between_DOCTYPE_public_and_system_identifiers_state; Among [0x3E] --> [EmitDoctype], To data_state;
      Among [0x22] --> [SystemEmpty], To DOCTYPE_system_identifier_double_quoted_state; Among [0x27] --> [SystemEmpty], To DOCTYPE_system_identifier_single_quoted_state]
      ([Quirks], Re bogus_DOCTYPE_state) doctype_eof)
  | between_DOCTYPE_public_and_system_identifiers_state => Some (Table [Among spaces --> [], Stay; Among [0x3E] --> [EmitDoctype], To data_state;
      Among [0x22] --> [SystemEmpty], To DOCTYPE_system_identifier_double_quoted_state; Among [0x27] --> [SystemEmpty], To DOCTYPE_system_identifier_single_quoted_state]
      ([Quirks], Re bogus_DOCTYPE_state) doctype_eof)
  | after_DOCTYPE_system_keyword_state => Some (keyword_table before_DOCTYPE_system_identifier_state DOCTYPE_system_identifier_double_quoted_state
      DOCTYPE_system_identifier_single_quoted_state SystemEmpty)
  | before_DOCTYPE_system_identifier_state => Some (before_id_table DOCTYPE_system_identifier_double_quoted_state DOCTYPE_system_identifier_single_quoted_state SystemEmpty)
  | DOCTYPE_system_identifier_double_quoted_state => Some (id_table 0x22 after_DOCTYPE_system_identifier_state SystemId)
  | DOCTYPE_system_identifier_single_quoted_state => Some (id_table 0x27 after_DOCTYPE_system_identifier_state SystemId)
  | after_DOCTYPE_system_identifier_state => Some (Table [Among spaces --> [], Stay; Among [0x3E] --> [EmitDoctype], To data_state] ([], Re bogus_DOCTYPE_state) doctype_eof)
  | bogus_DOCTYPE_state => Some (Table [Among [0x3E] --> [EmitDoctype], To data_state; Among [0] --> [], Stay] ([], Stay) ([EmitDoctype; EmitEof], Stay))
  | CDATA_section_state => Some (Table [Among [0x5D] --> [], To CDATA_section_bracket_state] ([Emit Cur], Stay) eof_only)
  | CDATA_section_bracket_state => Some (also ([Emit (Cp 0x5D)], Re CDATA_section_state) [Among [0x5D] --> [], To CDATA_section_end_state])
  | CDATA_section_end_state => Some (also ([Emit (Cp 0x5D); Emit (Cp 0x5D)], Re CDATA_section_state) [Among [0x5D] --> [Emit (Cp 0x5D)], Stay; Among [0x3E] --> [], To data_state])
  | character_reference_state => Some (also ([BufferEmpty; Buffer (Cp 0x26); Unmatched], ReReturn)
      [Alnum --> [BufferEmpty; Buffer (Cp 0x26)], Re named_character_reference_state; Among [0x23] --> [BufferEmpty; Buffer (Cp 0x26); Buffer Cur], To numeric_character_reference_state])
  | ambiguous_ampersand_state => Some (also ([], ReReturn) [Alnum ? IfAttribute --> [AttrValue Cur], Stay; Alnum --> [Emit Cur], Stay; Among [0x3B] --> [], ReReturn])
  | numeric_character_reference_state => Some (also ([CodeZero], Re decimal_character_reference_start_state)
      [Among [0x78; 0x58] --> [CodeZero; Buffer Cur], To hexadecimal_character_reference_start_state])
  | hexadecimal_character_reference_start_state => Some (also ([Unmatched], ReReturn) [HexDigit --> [], Re hexadecimal_character_reference_state])
  | decimal_character_reference_start_state => Some (also ([Unmatched], ReReturn) [Digit --> [], Re decimal_character_reference_state])
  | hexadecimal_character_reference_state => Some (also ([], Re numeric_character_reference_end_state) [Digit --> [CodeTimes 16; CodeAdd 0x30], Stay;
      UpperHex --> [CodeTimes 16; CodeAdd 0x37], Stay; LowerHex --> [CodeTimes 16; CodeAdd 0x57], Stay; Among [0x3B] --> [], To numeric_character_reference_end_state])
  | decimal_character_reference_state => Some (also ([], Re numeric_character_reference_end_state) [Digit --> [CodeTimes 10; CodeAdd 0x30], Stay;
      Among [0x3B] --> [], To numeric_character_reference_end_state])
  | markup_declaration_open_state | after_DOCTYPE_name_state | named_character_reference_state | numeric_character_reference_end_state => None
  end.

(** ** What the words of the table mean *)
Definition between (a b c : Z) : bool := (a <=? c) && (c <=? b).
Definition holds (k : cond) (c : Z) : bool :=
  match k with
  | Among l => if in_dec Z.eq_dec c l then true else false
  | Upper => between 0x41 0x5A c
  | Lower => between 0x61 0x7A c
  | Alpha => between 0x41 0x5A c || between 0x61 0x7A c
  | Digit => between 0x30 0x39 c
  | Alnum => between 0x30 0x39 c || between 0x41 0x5A c || between 0x61 0x7A c
  | UpperHex => between 0x41 0x46 c
  | LowerHex => between 0x61 0x66 c
  | HexDigit => between 0x30 0x39 c || between 0x41 0x46 c || between 0x61 0x66 c
  end.
Definition text_of (x : ch) (c : Z) : Z := match x with Cur => c | Low => c + 0x20 | Cp d => d end.
Definition in_attribute (t : tok) : bool :=
  match t_return t with
  | Some attribute_value_double_quoted_state | Some attribute_value_single_quoted_state | Some attribute_value_unquoted_state => true
  | _ => false
  end.
Definition same_text (a b : list Z) : bool := if list_eq_dec Z.eq_dec a b then true else false.
Definition permits (g : guard) (t : tok) : bool :=
  match g with
  | Always => true
  | IfAppropriate => negb (same_text (t_last t) []) && same_text (t_last t) (g_name (t_end t))
  | IfBuffer s => same_text (t_tmp t) s
  | IfAttribute => in_attribute t
  end.

Section Meaning.
Variable switch : list token -> option state.
Notation T st ret tmp doc sta en com id last code out := (Tok st ret tmp doc sta en com id last code out).

Definition put (s : state) (t : tok) : tok :=
  let (_, ret, tmp, doc, sta, en, com, id, la, code, out) := t in Tok s ret tmp doc sta en com id la code out.
Definition out_more (l : list token) (t : tok) : tok :=
  let (st, ret, tmp, doc, sta, en, com, id, la, code, out) := t in Tok st ret tmp doc sta en com id la code (out ++ l).
(** the current tag: a start tag (2) or an end tag (3); none before the first *)
Definition with_tag (f : tag -> option tag) (t : tok) : option tok :=
  let (st, ret, tmp, doc, sta, en, com, id, la, code, out) := t in
  if id =? 2 then match f sta with Some g => Some (Tok st ret tmp doc g en com id la code out) | None => None end
  else if id =? 3 then match f en with Some g => Some (Tok st ret tmp doc sta g com id la code out) | None => None end
  else None.
Definition with_attr (f : list attribute -> attribute -> attribute) : tok -> option tok :=
  with_tag (fun g => match rev (g_attributes g) with [] => None | a :: l => Some (Tag (g_name g) (g_self_closing g) (rev l ++ [f (rev l) a])) end).
Definition with_doctype (f : doctype -> doctype) (t : tok) : tok :=
  let (st, ret, tmp, doc, sta, en, com, id, la, code, out) := t in Tok st ret tmp (f doc) sta en com id la code out.
Definition with_tmp (f : list Z -> list Z) (t : tok) : tok :=
  let (st, ret, tmp, doc, sta, en, com, id, la, code, out) := t in Tok st ret (f tmp) doc sta en com id la code out.
Definition with_comment (f : list Z -> list Z) (t : tok) : tok :=
  let (st, ret, tmp, doc, sta, en, com, id, la, code, out) := t in Tok st ret tmp doc sta en (f com) id la code out.
Definition with_code (f : Z -> Z) (t : tok) : tok :=
  let (st, ret, tmp, doc, sta, en, com, id, la, code, out) := t in Tok st ret tmp doc sta en com id la (f code) out.

(** 13.2.5: an emitted start tag is the last one, and tree construction may change the state *)
Definition emit_the_tag (t : tok) : option tok :=
  let (st, ret, tmp, doc, sta, en, com, id, la, code, out) := t in
  if id =? 2 then
    let out1 := out ++ [TStart sta] in
    Some (Tok (match switch out1 with Some s => s | None => st end) ret tmp doc sta en com id (g_name sta) code out1)
  else if id =? 3 then Some (Tok st ret tmp doc sta en com id la code (out ++ [TEnd en]))
  else None.
(** "flush code points consumed as a character reference" *)
Definition flush_buffer (t : tok) : option tok :=
  if same_text (t_tmp t) [] then Some t
  else if in_attribute t then with_attr (fun _ a => Attribute (a_name a) (a_value a ++ t_tmp t) (a_omitted a)) t
  else Some (out_more (map TChar (t_tmp t)) t).

Definition perform (c : Z) (a : act) (t : tok) : option tok :=
  match a with
  | Emit x => Some (out_more [TChar (text_of x c)] t)
  | EmitBuffer => Some (out_more (map TChar (t_tmp t)) t)
  | EmitEof => Some (out_more [TEof] t)
  | EmitTag => emit_the_tag t
  | EmitComment => Some (out_more [TComment (t_comment t)] t)
  | EmitDoctype => Some (out_more [TDoctype (t_doctype t)] t)
  | NewStart => let (st, ret, tmp, doc, sta, en, com, id, la, code, out) := t in Some (Tok st ret tmp doc (Tag [] false []) en com 2 la code out)
  | NewEnd => let (st, ret, tmp, doc, sta, en, com, id, la, code, out) := t in Some (Tok st ret tmp doc sta (Tag [] false []) com 3 la code out)
  | NewComment => Some (with_comment (fun _ => []) t)
  | NewDoctype => Some (with_doctype (fun _ => Doctype [] [] [] false) t)
  | NewAttribute => with_tag (fun g => Some (Tag (g_name g) (g_self_closing g) (g_attributes g ++ [Attribute [] [] false]))) t
  | TagName x => with_tag (fun g => Some (Tag (g_name g ++ [text_of x c]) (g_self_closing g) (g_attributes g))) t
  | AttrName x => with_attr (fun _ a => Attribute (a_name a ++ [text_of x c]) (a_value a) (a_omitted a)) t
  | AttrValue x => with_attr (fun _ a => Attribute (a_name a) (a_value a ++ [text_of x c]) (a_omitted a)) t
  | CommentData x => Some (with_comment (fun s => s ++ [text_of x c]) t)
  | DoctypeName x => Some (with_doctype (fun d => Doctype (d_name d ++ [text_of x c]) (d_public d) (d_system d) (d_quirks d)) t)
  | PublicId x => Some (with_doctype (fun d => Doctype (d_name d) (d_public d ++ [text_of x c]) (d_system d) (d_quirks d)) t)
  | SystemId x => Some (with_doctype (fun d => Doctype (d_name d) (d_public d) (d_system d ++ [text_of x c]) (d_quirks d)) t)
  | SelfClosing => with_tag (fun g => Some (Tag (g_name g) true (g_attributes g))) t
  | Quirks => Some (with_doctype (fun d => Doctype (d_name d) (d_public d) (d_system d) true) t)
  | PublicEmpty => Some (with_doctype (fun d => Doctype (d_name d) [] (d_system d) (d_quirks d)) t)
  | SystemEmpty => Some (with_doctype (fun d => Doctype (d_name d) (d_public d) [] (d_quirks d)) t)
  | BufferEmpty => Some (with_tmp (fun _ => []) t)
  | Buffer x => Some (with_tmp (fun s => s ++ [text_of x c]) t)
  | ReturnTo s => let (st, ret, tmp, doc, sta, en, com, id, la, code, out) := t in Some (Tok st (Some s) tmp doc sta en com id la code out)
  | Unmatched => flush_buffer t
  | Marked => with_attr (fun l a => Attribute (a_name a) (a_value a) (a_omitted a || existsb (fun b => same_text (a_name b) (a_name a)) l)) t
  | CodeZero => Some (with_code (fun _ => 0) t)
  | CodeTimes n => Some (with_code (fun x => x * n) t)
  | CodeAdd m => Some (with_code (fun x => x + (c - m)) t)
  end.
Fixpoint performs (c : Z) (l : list act) (t : tok) : option tok :=
  match l with
  | [] => Some t
  | a :: l => match perform c a t with Some t1 => performs c l t1 | None => None end
  end.
(** first the state is left for the next one, then the steps are taken (tree construction may change the state again) *)
Definition follow (c : Z) (p : list act * dest) (t : tok) : option (tok * bool) :=
  let go := fun t b => match performs c (fst p) t with Some t1 => Some (t1, b) | None => None end in
  match snd p with
  | Stay => go t false
  | To s => go (put s t) false
  | Re s => go (put s t) true
  | ReReturn => match t_return t with Some s => go (put s t) true | None => None end
  end.
Fixpoint pick (c : Z) (t : tok) (l : list (cond * guard * list act * dest)) (p : list act * dest) : list act * dest :=
  match l with
  | [] => p
  | (k, g, a, d) :: l => if holds k c && permits g t then (a, d) else pick c t l p
  end.
(** One input character, or the end of file, in a state of the table: the new state, and whether it is to be reconsumed. *)
Definition std_step (t : tok) (i : option Z) : option (tok * bool) :=
  match standard (t_state t) with
  | None => None
  | Some tb => match i with None => follow 0 (at_eof tb) t | Some c => follow c (pick c t (rows tb) (other tb)) t end
  end.
End Meaning.

(** ** Where the program departs from the standard *)
Definition digit_of (c : Z) : Z := if between 0x30 0x39 c then c - 0x30 else if between 0x41 0x46 c then c - 0x37 else c - 0x57.
Inductive Departs : tok -> option Z -> Prop :=
(** U+0000 in a comment *)
| Dp_null : forall t, t_state t = comment_state -> Departs t (Some 0)
(** another tag than "script" in an escaped script *)
| Dp_script : forall t c, t_state t = script_data_double_escape_start_state -> In c (spaces ++ [0x2F; 0x3E]) ->
    t_tmp t <> [0x73; 0x63; 0x72; 0x69; 0x70; 0x74] -> Departs t (Some c)
(** numbers of more than 32 bits *)
| Dp_hex : forall t c, t_state t = hexadecimal_character_reference_state -> holds HexDigit c = true ->
    ~ (0 <= t_code t * 16 + digit_of c < 2 ^ 32) -> Departs t (Some c)
| Dp_decimal : forall t c, t_state t = decimal_character_reference_state -> holds Digit c = true ->
    ~ (0 <= t_code t * 10 + (c - 0x30) < 2 ^ 32) -> Departs t (Some c).

(** ** The words mean what the program computes *)
Lemma among_one c x : holds (Among [x]) c = (c =? x).
Proof. cbn [holds]. destruct (in_dec Z.eq_dec c [x]) as [H|H]; cbn in H; destruct (c =? x) eqn:E; try reflexivity; lia. Qed.
Lemma among_two c x y : holds (Among [x; y]) c = (c =? x) || (c =? y).
Proof. cbn [holds]. destruct (in_dec Z.eq_dec c [x; y]) as [H|H]; cbn in H; destruct (c =? x) eqn:E, (c =? y) eqn:E1; try reflexivity; lia. Qed.
Lemma among_spaces c : holds (Among spaces) c = is_space c.
Proof.
  cbn [holds]. unfold is_space. destruct (in_dec Z.eq_dec c spaces) as [H|H]; unfold spaces in H; cbn in H;
    destruct (c =? 9) eqn:E, (c =? 10) eqn:E1, (c =? 12) eqn:E2, (c =? 32) eqn:E3; try reflexivity; lia.
Qed.
Lemma among_delimiters c : holds (Among (spaces ++ [0x2F; 0x3E])) c = is_space c || (c =? 0x2F) || (c =? 0x3E).
Proof.
  cbn [holds]. unfold is_space. destruct (in_dec Z.eq_dec c (spaces ++ [0x2F; 0x3E])) as [H|H]; unfold spaces in H; cbn in H;
    destruct (c =? 9) eqn:E, (c =? 10) eqn:E1, (c =? 12) eqn:E2, (c =? 32) eqn:E3, (c =? 0x2F) eqn:E4, (c =? 0x3E) eqn:E5; try reflexivity; lia.
Qed.
Lemma same_eq a b : eq_str a b = same_text a b.
Proof.
  unfold same_text. destruct (list_eq_dec Z.eq_dec a b) as [<-|N].
  - induction a as [|x a IH]; [reflexivity|]. cbn. rewrite IH, Z.eqb_refl. reflexivity.
  - destruct (eq_str a b) eqn:E; [|reflexivity]. exfalso. apply N. clear N. revert b E. induction a as [|x a IH]; intros [|y b] E; cbn in E; try discriminate; [reflexivity|].
    apply andb_true_iff in E. destruct E as [E E1]. apply Z.eqb_eq in E. subst y. f_equal. apply IH, E1.
Qed.
Lemma map_last_rev {A} (f : A -> A) l : map_last f l = match rev l with [] => None | a :: r => Some (rev r ++ [f a]) end.
Proof.
  induction l as [|x l IH]; [reflexivity|]. cbn [map_last rev]. destruct l as [|y l]; [reflexivity|]. rewrite IH.
  destruct (rev (y :: l)) as [|a r] eqn:E; [apply (f_equal (@List.length A)) in E; rewrite rev_length in E; discriminate|].
  cbn [app]. rewrite rev_app_distr. reflexivity.
Qed.

Section Held.
Variable switch : list token -> option state.

Lemma attr_same f t : on_current_attribute f t = with_attr (fun _ => f) t.
Proof.
  destruct t as [st ret tmp doc sta en com id la code out]. unfold on_current_attribute, on_current_tag, current_tag, with_attr, with_tag, set_current_tag. cbn [t_id t_start t_end].
  destruct (id =? 2) eqn:E; [|destruct (id =? 3); [|reflexivity]]; rewrite map_last_rev; destruct (rev _); try reflexivity; cbn; rewrite ?E; reflexivity.
Qed.
Lemma tag_same f t : on_current_tag f t = with_tag f t.
Proof.
  destruct t as [st ret tmp doc sta en com id la code out]. unfold on_current_tag, current_tag, with_tag, set_current_tag. cbn [t_id t_start t_end].
  destruct (id =? 2) eqn:E; [|destruct (id =? 3); [|reflexivity]]; destruct (f _); try reflexivity; cbn; rewrite ?E; reflexivity.
Qed.
Lemma emit_same t : emit_tag switch t = emit_the_tag switch t.
Proof.
  destruct t as [st ret tmp doc sta en com id la code out]. unfold emit_tag, emit_the_tag. cbn [t_id t_start t_end].
  destruct (id =? 2) eqn:E; [|destruct (id =? 3); [|reflexivity]]; try reflexivity. cbn. destruct (switch _); reflexivity.
Qed.
Lemma flush_same t : flush_reference t = flush_buffer t.
Proof.
  unfold flush_reference, flush_buffer. rewrite <- same_eq. destruct (t_tmp t) as [|x l] eqn:E; [reflexivity|]. cbn [eq_str]. unfold push_attribute_values. rewrite attr_same.
  change (consumed_as_part_of_attribute t) with (in_attribute t). destruct (in_attribute t); [reflexivity|]. destruct t. reflexivity.
Qed.
Lemma marked_same t : unify_attribute t = with_attr (fun l a => Attribute (a_name a) (a_value a) (a_omitted a || existsb (fun b => same_text (a_name b) (a_name a)) l)) t.
Proof.
  unfold unify_attribute. rewrite tag_same. unfold with_attr.
  assert (X : forall f g, (forall x, f x = g x) -> with_tag f t = with_tag g t).
  { intros f g H. destruct t as [st ret tmp doc sta en com id la code out]. unfold with_tag. rewrite !H. reflexivity. }
  apply X. intro g. cbv zeta. rewrite map_last_rev. destruct (rev (g_attributes g)) as [|a l] eqn:E; [reflexivity|].
  assert (El : g_attributes g = rev l ++ [a]) by (rewrite <- (rev_involutive (g_attributes g)), E; reflexivity).
  rewrite El, last_last, removelast_last. do 5 f_equal.
  assert (Y : existsb (fun b => eq_str (a_name b) (a_name a)) (rev l) = existsb (fun b => same_text (a_name b) (a_name a)) (rev l)).
  { clear. induction (rev l) as [|b r IH]; [reflexivity|]. cbn. now rewrite same_eq, IH. }
  rewrite Y. clear Y. destruct (a_omitted a), (existsb _ (rev l)); reflexivity.
Qed.

Lemma appropriate_same t : t_id t = 3 -> is_appropriate_end_tag t = Some (permits IfAppropriate t).
Proof. intro E. unfold is_appropriate_end_tag. rewrite E. cbn [Z.eqb Pos.eqb permits]. rewrite !same_eq. destruct (same_text (t_last t) []), (same_text _ _); reflexivity. Qed.
Lemma appropriate_id t b : is_appropriate_end_tag t = Some b -> t_id t = 3.
Proof. unfold is_appropriate_end_tag. destruct (t_id t =? 3) eqn:E; [lia|discriminate]. Qed.

Ltac unfolds H :=
  cbv beta delta [on_data on_RCDATA on_RAWTEXT on_script_data on_PLAINTEXT on_tag_open on_end_tag_open on_tag_name
    on_less_than_sign on_text_end_tag_open on_text_end_tag_name on_script_data_less_than_sign
    on_script_data_escape_start on_script_data_escape_start_dash on_script_data_escaped on_script_data_escaped_dash
    on_script_data_escaped_dash_dash on_script_data_escaped_less_than_sign on_script_data_double_escape
    on_script_data_double_escaped on_script_data_double_escaped_dash on_script_data_double_escaped_dash_dash
    on_script_data_double_escaped_less_than_sign on_before_attribute_name on_attribute_name on_after_attribute_name
    on_before_attribute_value on_attribute_value_quoted on_attribute_value_unquoted on_after_attribute_value_quoted
    on_self_closing_start_tag on_bogus_comment on_comment_start on_comment_start_dash on_comment
    on_comment_less_than_sign on_comment_less_than_sign_bang on_comment_less_than_sign_bang_dash
    on_comment_less_than_sign_bang_dash_dash on_comment_end_dash on_comment_end on_comment_end_bang on_DOCTYPE
    on_before_DOCTYPE_name on_DOCTYPE_name on_after_DOCTYPE_keyword on_before_DOCTYPE_identifier
    on_DOCTYPE_identifier on_after_DOCTYPE_public_identifier on_between_DOCTYPE_identifiers
    on_after_DOCTYPE_system_identifier on_bogus_DOCTYPE on_CDATA_section on_CDATA_section_bracket
    on_CDATA_section_end on_character_reference on_ambiguous_ampersand on_numeric_character_reference
    on_reference_start on_hexadecimal_character_reference on_decimal_character_reference
    stay go again again_return stay' push_tag_name set_self_closing create_attribute push_attribute_name push_attribute_value] in H.
Ltac tables := cbn [standard also lt_table end_open_table end_name_table double_table quoted_table keyword_table before_id_table id_table
    doctype_eof comment_eof eof_only rows other at_eof fst snd].

Lemma with_tag_put s f t : with_tag f (put s t) = option_map (put s) (with_tag f t).
Proof. destruct t as [st ret tmp doc sta en com id la code out]. unfold with_tag, put. destruct (id =? 2); [destruct (f sta); reflexivity|]. destruct (id =? 3); [destruct (f en); reflexivity|reflexivity]. Qed.
Lemma with_tag_return f t t1 : with_tag f t = Some t1 -> t_return t1 = t_return t.
Proof.
  destruct t as [st ret tmp doc sta en com id la code out]. unfold with_tag.
  destruct (id =? 2); [destruct (f sta); [|discriminate]|destruct (id =? 3); [destruct (f en); [|discriminate]|discriminate]]; intro H; injection H as <-; reflexivity.
Qed.
Lemma flush_put s t : flush_buffer (put s t) = option_map (put s) (flush_buffer t).
Proof.
  unfold flush_buffer. replace (t_tmp (put s t)) with (t_tmp t) by (destruct t; reflexivity). replace (in_attribute (put s t)) with (in_attribute t) by (destruct t; reflexivity).
  destruct (same_text (t_tmp t) []); [reflexivity|]. destruct (in_attribute t); [apply with_tag_put|]. destruct t; reflexivity.
Qed.
Lemma flush_return t t1 : flush_buffer t = Some t1 -> t_return t1 = t_return t.
Proof.
  unfold flush_buffer. destruct (same_text _ _); [congruence|]. destruct (in_attribute t); [apply with_tag_return|]. intro H. injection H as <-. destruct t; reflexivity.
Qed.
Lemma set_put s t : set_state s t = put s t.
Proof. destruct t; reflexivity. Qed.
Lemma return_same t : (do t1 <- flush_reference t; do t2 <- to_return t1; Some (t2, true)) =
  match t_return t with Some s => match flush_buffer (put s t) with Some t1 => Some (t1, true) | None => None end | None => None end.
Proof.
  rewrite flush_same. destruct (flush_buffer t) as [t1|] eqn:E.
  - pose proof (flush_return _ _ E) as R. unfold to_return. rewrite R. destruct (t_return t) as [s|]; [|reflexivity]. rewrite flush_put, E, set_put. reflexivity.
  - destruct (t_return t) as [s|]; [|reflexivity]. now rewrite flush_put, E.
Qed.

Lemma std_eof t r : ordinary switch t None = Some r -> std_step switch t None = Some r.
Proof.
  intro H. unfold ordinary in H. unfold std_step. destruct (t_state t) eqn:Es; try discriminate H; unfolds H; cbv zeta in H; tables; unfold follow;
    cbn [fst snd also eof_only doctype_eof comment_eof at_eof lt_table end_open_table end_name_table double_table];
    try rewrite return_same in H; rewrite <- H; clear H; destruct t as [st ret tmp doc sta en com id la code out]; cbn in Es; subst st.
  all: try (cbn; rewrite <- ?app_assoc; reflexivity).
  all: try (cbn [t_return]; destruct ret; reflexivity).
  all: unfold set_tmp; cbn [t_return]; destruct ret as [s|]; [|reflexivity]; cbn [performs perform put with_tmp app text_of t_tmp t_state t_doctype t_start t_end t_comment t_id t_last t_code t_out t_return];
    destruct (flush_buffer _); reflexivity.
Qed.

Ltac tests H :=
  repeat (cbv beta iota zeta in H;
    match type of H with context [if ?b then _ else _] =>
      match b with
      | context [if _ then _ else _] => fail 1
      | _ => destruct b eqn:?
      end end).
Lemma std_char t c r : ordinary switch t (Some c) = Some r -> ~ Departs t (Some c) -> std_step switch t (Some c) = Some r.
Proof.
  intros H D. unfold ordinary in H. unfold std_step. destruct (t_state t) eqn:Es; try discriminate H; unfolds H; cbv beta iota zeta in H; tables;
    cbn [also lt_table end_open_table end_name_table double_table quoted_table keyword_table before_id_table id_table rows other];
    cbn [pick]; rewrite ?among_one, ?among_two, ?among_spaces, ?among_delimiters.
  all: rewrite ?return_same, ?emit_same, ?tag_same, ?attr_same, ?marked_same, ?same_eq in H.
  all: match type of H with
    | context [is_appropriate_end_tag ?x] =>
      destruct (is_appropriate_end_tag x) as [ap|] eqn:Ea;
      [pose proof (appropriate_id _ _ Ea) as Ei; rewrite (appropriate_same x Ei) in Ea; assert (Eb : permits IfAppropriate x = ap) by congruence; clear Ea; rewrite Eb|]
    | _ => idtac end.
  all: change consumed_as_part_of_attribute with in_attribute in H; change (permits IfAttribute t) with (in_attribute t); change (permits Always t) with true;
    change (permits (IfBuffer [115; 99; 114; 105; 112; 116]) t) with (same_text (t_tmp t) script_name).
  all: tests H; try discriminate H; cbn [andb]; rewrite ?andb_true_r.
  all: repeat match goal with |- context [if ?b then _ else _] => match b with context [if _ then _ else _] => fail 1 | _ => destruct b eqn:? end end.
  all: try solve [exfalso; cbv beta iota delta [holds between is_space is_ascii_alpha is_ascii_upper_alpha is_ascii_lower_alpha is_ascii_digit is_ascii_alphanumeric is_ascii_hex_digit is_ascii_upper_hex_digit is_ascii_lower_hex_digit] in *; lia].
  all: rewrite <- H; clear H; unfold follow; cbn [fst snd performs perform text_of]; rewrite ?set_put.
  all: try solve [destruct t; cbn in Es; subst; reflexivity].
  all: try solve [destruct t; cbn in Es; subst; cbn; rewrite <- ?app_assoc; reflexivity].
  all: try solve [unfold with_attr, attribute_clear;
    repeat (rewrite ?with_tag_put; match goal with |- context [with_tag ?f ?x] => destruct (with_tag f x); cbn [option_map] end; rewrite ?attr_same, ?emit_same, ?set_put; unfold with_attr);
    try reflexivity; destruct (emit_the_tag _ _); reflexivity].
  all: try solve [destruct (emit_the_tag _ _); reflexivity].
  all: try solve [destruct (with_tag _ _) as [[]|]; reflexivity].
  - exfalso. apply D, Dp_script; [exact Es| |].
    + pose proof (among_delimiters c) as Q. match goal with K : is_space c || _ || _ = true |- _ => rewrite K in Q end. cbn [holds] in Q. destruct (in_dec Z.eq_dec c (spaces ++ [47; 62])); [assumption|discriminate Q].
    + intro Et. match goal with K : same_text _ _ = false |- _ => rewrite Et in K; discriminate K end.
  - exfalso. apply D. assert (c = 0) by lia. subst c. apply Dp_null, Es.
  - assert (c = 35) by lia. subst c. destruct t; reflexivity.
  - destruct t as [st ret tmp doc sta en com id la code out]. unfold set_tmp. cbn [t_return]. destruct ret; [|reflexivity].
    cbn [put with_tmp app t_tmp t_state t_doctype t_start t_end t_comment t_id t_last t_code t_out t_return]. destruct (flush_buffer _); reflexivity.
  - unfold to_return. destruct (t_return t); [|reflexivity]. now rewrite set_put.
  - unfold to_return. destruct (t_return t); [|reflexivity]. now rewrite set_put.
  - destruct (t_return t); [|reflexivity]. destruct (flush_buffer _); reflexivity.
  - destruct (t_return t); [|reflexivity]. destruct (flush_buffer _); reflexivity.
  - assert (R : 0 <= t_code t * 16 + (c - 48) < 2 ^ 32).
    { destruct (Z_le_dec 0 (t_code t * 16 + (c - 48))), (Z_lt_dec (t_code t * 16 + (c - 48)) (2 ^ 32)); try (split; assumption); exfalso; apply D; apply Dp_hex; try exact Es;
      unfold digit_of; cbv beta iota delta [holds between is_space is_ascii_alpha is_ascii_upper_alpha is_ascii_lower_alpha is_ascii_digit is_ascii_alphanumeric is_ascii_hex_digit is_ascii_upper_hex_digit is_ascii_lower_hex_digit] in *; destruct ((48 <=? c) && (c <=? 57)) eqn:?; lia. }
    rewrite Z.mod_small by exact R. destruct t; reflexivity.
  - assert (R : 0 <= t_code t * 16 + (c - 55) < 2 ^ 32).
    { destruct (Z_le_dec 0 (t_code t * 16 + (c - 55))), (Z_lt_dec (t_code t * 16 + (c - 55)) (2 ^ 32)); try (split; assumption); exfalso; apply D; apply Dp_hex; try exact Es;
      unfold digit_of; cbv beta iota delta [holds between is_space is_ascii_alpha is_ascii_upper_alpha is_ascii_lower_alpha is_ascii_digit is_ascii_alphanumeric is_ascii_hex_digit is_ascii_upper_hex_digit is_ascii_lower_hex_digit] in *; destruct ((48 <=? c) && (c <=? 57)) eqn:?; try lia; destruct ((65 <=? c) && (c <=? 70)) eqn:?; lia. }
    rewrite Z.mod_small by exact R. destruct t; reflexivity.
  - assert (R : 0 <= t_code t * 16 + (c - 87) < 2 ^ 32).
    { destruct (Z_le_dec 0 (t_code t * 16 + (c - 87))), (Z_lt_dec (t_code t * 16 + (c - 87)) (2 ^ 32)); try (split; assumption); exfalso; apply D; apply Dp_hex; try exact Es;
      unfold digit_of; cbv beta iota delta [holds between is_space is_ascii_alpha is_ascii_upper_alpha is_ascii_lower_alpha is_ascii_digit is_ascii_alphanumeric is_ascii_hex_digit is_ascii_upper_hex_digit is_ascii_lower_hex_digit] in *; destruct ((48 <=? c) && (c <=? 57)) eqn:?; try lia; destruct ((65 <=? c) && (c <=? 70)) eqn:?; lia. }
    rewrite Z.mod_small by exact R. destruct t; reflexivity.
  - assert (R : 0 <= t_code t * 10 + (c - 48) < 2 ^ 32).
    { destruct (Z_le_dec 0 (t_code t * 10 + (c - 48))), (Z_lt_dec (t_code t * 10 + (c - 48)) (2 ^ 32)); try (split; assumption); exfalso; apply D; apply Dp_decimal; try exact Es;
      cbv beta iota delta [holds between is_ascii_digit] in *; lia. }
    rewrite Z.mod_small by exact R. destruct t; reflexivity.
Qed.

(** and there it does differ *)
Lemma departs_differ t i r : ordinary switch t i = Some r -> Departs t i -> std_step switch t i <> Some r.
Proof.
  intros H D K. destruct D as [t Es|t c Es Hc Hb|t c Es Hc Hn|t c Es Hc Hn]; unfold ordinary in H; rewrite Es in H; unfold std_step in K; rewrite Es in K; unfolds H.
  - cbn in H, K. rewrite <- H in K. destruct t. injection K as K1 K2. apply (f_equal (@List.length token)) in K2. rewrite app_length in K2. cbn in K2. lia.
  - assert (Hd : holds (Among (spaces ++ [47; 62])) c = true) by (cbn [holds]; destruct (in_dec Z.eq_dec c (spaces ++ [47; 62])); [reflexivity|contradiction]).
    assert (Hs : same_text (t_tmp t) script_name = false) by (unfold same_text; destruct (list_eq_dec Z.eq_dec (t_tmp t) script_name); [contradiction|reflexivity]).
    cbn [standard double_table also rows other pick] in K. rewrite Hd in K. change (permits (IfBuffer [115; 99; 114; 105; 112; 116]) t) with (same_text (t_tmp t) script_name) in K.
    rewrite Hs in K. cbn [andb permits] in K. rewrite among_delimiters in Hd. cbv beta iota in H. rewrite Hd, same_eq, Hs in H. rewrite <- H in K. destruct t. discriminate K.
  - cbv beta iota zeta in H.
    assert (E : is_ascii_hex_digit c = true) by (cbv beta iota delta [holds between is_ascii_digit is_ascii_hex_digit is_ascii_upper_hex_digit is_ascii_lower_hex_digit] in *; lia).
    rewrite E in H. cbn [standard also rows other pick] in K. rewrite !among_one in K. cbn [permits] in K. rewrite !andb_true_r in K.
    assert (X : exists d, d = digit_of c /\ r = (set_code ((t_code t * 16 + d) mod 2 ^ 32) t, false) /\ Some (with_code (fun x => x + d) (with_code (fun x => x * 16) t), false) = Some r).
    { unfold digit_of. cbv beta iota delta [holds between is_ascii_digit is_ascii_upper_hex_digit] in *.
      destruct ((48 <=? c) && (c <=? 57)) eqn:E1; [eexists; split; [reflexivity|]; split; [congruence|exact K]|]. cbn [orb] in H.
      destruct ((65 <=? c) && (c <=? 70)) eqn:E2; [eexists; split; [reflexivity|]; split; [congruence|exact K]|].
      destruct ((97 <=? c) && (c <=? 102)) eqn:E3; [eexists; split; [reflexivity|]; split; [congruence|exact K]|]. lia. }
    destruct X as (d & -> & -> & X). apply Hn. destruct t as [st ret tmp doc sta en com id la code out]. cbn in X. injection X as X. cbn [t_code]. rewrite X. apply Z.mod_pos_bound. reflexivity.
  - cbv beta iota zeta in H. change (is_ascii_digit c) with (holds Digit c) in H. rewrite Hc in H. cbn [standard also rows other pick] in K. rewrite Hc in K. cbn [permits andb] in K.
    rewrite <- H in K. destruct t as [st ret tmp doc sta en com id la code out]. cbn in K. injection K as X. apply Hn. cbn [t_code]. rewrite X. apply Z.mod_pos_bound. reflexivity.
Qed.
End Held.
