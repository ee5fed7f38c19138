(** Model of the HTML input stream and tokeniser:
    include/wordring/whatwg/html/parsing/input_stream.hpp, token.hpp, tokenization.hpp.

    Simplifications: report_error is left out (it changes nothing here); tag_name_id, namespaces and prefixes of
    attributes are left out; the attribute vector is kept without its unused tail; m_fill_length is left out (it is
    written but never read by the tokeniser).  Tree construction (on_emit_token) is represented by the list of
    emitted tokens and by two parameters: [switch], the state it may set after a start tag
    (tree_construction_dispatcher.hpp:1471, 1482, 1910, 2547, 2907), and [cdata], whether its stack is not empty with
    the adjusted current node in the HTML namespace.  [ncr] is match_named_character_reference (M_html_ncr).
    Undefined behaviour and failed asserts are [None].  Definitions only. *)
From Coq Require Import ZArith List Bool.
From Verif Require Import M_infra M_encoding.
Import ListNotations.
Open Scope Z_scope.

Declare Scope html_scope.
Notation "'do' x <- e ; k" := (match e with Some x => k | None => None end)
  (at level 200, x pattern, e at level 100, k at level 200) : html_scope.
Open Scope html_scope.

(** tokenization.hpp:2795-2874 *)
Inductive state :=
| data_state | RCDATA_state | RAWTEXT_state | script_data_state | PLAINTEXT_state
| tag_open_state | end_tag_open_state | tag_name_state
| RCDATA_less_than_sign_state | RCDATA_end_tag_open_state | RCDATA_end_tag_name_state
| RAWTEXT_less_than_sign_state | RAWTEXT_end_tag_open_state | RAWTEXT_end_tag_name_state
| script_data_less_than_sign_state | script_data_end_tag_open_state | script_data_end_tag_name_state
| script_data_escape_start_state | script_data_escape_start_dash_state
| script_data_escaped_state | script_data_escaped_dash_state | script_data_escaped_dash_dash_state
| script_data_escaped_less_than_sign_state | script_data_escaped_end_tag_open_state | script_data_escaped_end_tag_name_state
| script_data_double_escape_start_state | script_data_double_escaped_state | script_data_double_escaped_dash_state
| script_data_double_escaped_dash_dash_state | script_data_double_escaped_less_than_sign_state | script_data_double_escape_end_state
| before_attribute_name_state | attribute_name_state | after_attribute_name_state | before_attribute_value_state
| attribute_value_double_quoted_state | attribute_value_single_quoted_state | attribute_value_unquoted_state
| after_attribute_value_quoted_state | self_closing_start_tag_state | bogus_comment_state | markup_declaration_open_state
| comment_start_state | comment_start_dash_state | comment_state | comment_less_than_sign_state
| comment_less_than_sign_bang_state | comment_less_than_sign_bang_dash_state | comment_less_than_sign_bang_dash_dash_state
| comment_end_dash_state | comment_end_state | comment_end_bang_state
| DOCTYPE_state | before_DOCTYPE_name_state | DOCTYPE_name_state | after_DOCTYPE_name_state
| after_DOCTYPE_public_keyword_state | before_DOCTYPE_public_identifier_state
| DOCTYPE_public_identifier_double_quoted_state | DOCTYPE_public_identifier_single_quoted_state
| after_DOCTYPE_public_identifier_state | between_DOCTYPE_public_and_system_identifiers_state
| after_DOCTYPE_system_keyword_state | before_DOCTYPE_system_identifier_state
| DOCTYPE_system_identifier_double_quoted_state | DOCTYPE_system_identifier_single_quoted_state
| after_DOCTYPE_system_identifier_state | bogus_DOCTYPE_state
| CDATA_section_state | CDATA_section_bracket_state | CDATA_section_end_state
| character_reference_state | named_character_reference_state | ambiguous_ampersand_state | numeric_character_reference_state
| hexadecimal_character_reference_start_state | decimal_character_reference_start_state
| hexadecimal_character_reference_state | decimal_character_reference_state | numeric_character_reference_end_state.

(** token.hpp:22-43 *)
Record doctype := Doctype { d_name : list Z; d_public : list Z; d_system : list Z; d_quirks : bool }.
(** token.hpp:22-36, the constructor and clear() *)
Definition doctype_clear : doctype := Doctype [] [] [] false.

(** token.hpp:52-75 *)
Record attribute := Attribute { a_name : list Z; a_value : list Z; a_omitted : bool }.
(** token.hpp:52-69, the constructor and clear() *)
Definition attribute_clear : attribute := Attribute [] [] false.

(** token.hpp:121-170 *)
Record tag := Tag { g_name : list Z; g_self_closing : bool; g_attributes : list attribute }.
(** token.hpp:126-146, the constructor and clear() *)
Definition tag_clear : tag := Tag [] false [].

(** the arguments of on_emit_token (tokenization.hpp:214-258) *)
Inductive token :=
| TDoctype (d : doctype)
| TStart (g : tag)
| TEnd (g : tag)
| TComment (data : list Z)
| TChar (c : Z)
| TEof.

(** tokenization.hpp:55-77: the members of tokenizer, and the tokens emitted so far *)
Record tok := Tok {
  t_state : state; t_return : option state; t_tmp : list Z;
  t_doctype : doctype; t_start : tag; t_end : tag; t_comment : list Z;
  t_id : Z; t_last : list Z; t_code : Z; t_out : list token }.

(** tokenization.hpp:82-88 *)
Definition tok_init : tok := Tok data_state None [] doctype_clear tag_clear tag_clear [] 0 [] 0 [].

(** assignments to single members; change_state is tokenization.hpp:262, return_state 264 *)
Definition set_state (s : state) (t : tok) : tok :=
  Tok s (t_return t) (t_tmp t) (t_doctype t) (t_start t) (t_end t) (t_comment t) (t_id t) (t_last t) (t_code t) (t_out t).
Definition set_return (s : state) (t : tok) : tok :=
  Tok (t_state t) (Some s) (t_tmp t) (t_doctype t) (t_start t) (t_end t) (t_comment t) (t_id t) (t_last t) (t_code t) (t_out t).
Definition set_tmp (x : list Z) (t : tok) : tok :=
  Tok (t_state t) (t_return t) x (t_doctype t) (t_start t) (t_end t) (t_comment t) (t_id t) (t_last t) (t_code t) (t_out t).
Definition set_doctype (d : doctype) (t : tok) : tok :=
  Tok (t_state t) (t_return t) (t_tmp t) d (t_start t) (t_end t) (t_comment t) (t_id t) (t_last t) (t_code t) (t_out t).
Definition set_start (g : tag) (t : tok) : tok :=
  Tok (t_state t) (t_return t) (t_tmp t) (t_doctype t) g (t_end t) (t_comment t) (t_id t) (t_last t) (t_code t) (t_out t).
Definition set_end (g : tag) (t : tok) : tok :=
  Tok (t_state t) (t_return t) (t_tmp t) (t_doctype t) (t_start t) g (t_comment t) (t_id t) (t_last t) (t_code t) (t_out t).
Definition set_comment (x : list Z) (t : tok) : tok :=
  Tok (t_state t) (t_return t) (t_tmp t) (t_doctype t) (t_start t) (t_end t) x (t_id t) (t_last t) (t_code t) (t_out t).
Definition set_id (x : Z) (t : tok) : tok :=
  Tok (t_state t) (t_return t) (t_tmp t) (t_doctype t) (t_start t) (t_end t) (t_comment t) x (t_last t) (t_code t) (t_out t).
Definition set_last (x : list Z) (t : tok) : tok :=
  Tok (t_state t) (t_return t) (t_tmp t) (t_doctype t) (t_start t) (t_end t) (t_comment t) (t_id t) x (t_code t) (t_out t).
Definition set_code (x : Z) (t : tok) : tok :=
  Tok (t_state t) (t_return t) (t_tmp t) (t_doctype t) (t_start t) (t_end t) (t_comment t) (t_id t) (t_last t) x (t_out t).
Definition set_out (x : list token) (t : tok) : tok :=
  Tok (t_state t) (t_return t) (t_tmp t) (t_doctype t) (t_start t) (t_end t) (t_comment t) (t_id t) (t_last t) (t_code t) x.

(** tokenization.hpp:246-258: one more call of on_emit_token *)
Definition emit (k : token) (t : tok) : tok := set_out (t_out t ++ [k]) t.
(** tokenization.hpp:246-252 *)
Definition emit_char (c : Z) (t : tok) : tok := emit (TChar c) t.
(** for (char32_t c : s) emit_token(c) (e.g. tokenization.hpp:627) *)
Definition emit_chars (s : list Z) (t : tok) : tok := set_out (t_out t ++ map TChar s) t.
(** emit_token(end_of_file_token()) *)
Definition emit_eof (t : tok) : tok := emit TEof t.
(** emit_token(current_comment_token()), tokenization.hpp:174-177 *)
Definition emit_comment (t : tok) : tok := emit (TComment (t_comment t)) t.
(** emit_token(current_DOCTYPE_token()), tokenization.hpp:179-182 *)
Definition emit_doctype (t : tok) : tok := emit (TDoctype (t_doctype t)) t.

(** TAB, LF, FF, SPACE: the four cases that recur in the handlers *)
Definition is_space (c : Z) : bool := (c =? 0x9) || (c =? 0xA) || (c =? 0xC) || (c =? 0x20).

(** comparison of two u32string *)
Fixpoint eq_str (a b : list Z) : bool :=
  match a, b with
  | [], [] => true
  | x :: a, y :: b => (x =? y) && eq_str a b
  | _, _ => false
  end.

(** tokenization.hpp:143-150, with the assert *)
Definition current_tag (t : tok) : option tag :=
  if t_id t =? 2 then Some (t_start t) else if t_id t =? 3 then Some (t_end t) else None.
Definition set_current_tag (g : tag) (t : tok) : tok := if t_id t =? 2 then set_start g t else set_end g t.
(** a change of current_tag_token() *)
Definition on_current_tag (f : tag -> option tag) (t : tok) : option tok :=
  do g <- current_tag t; do g1 <- f g; Some (set_current_tag g1 t).

(** tokenization.hpp:116-121 *)
Definition create_start_tag (t : tok) : tok := set_start tag_clear (set_id 2 t).
(** tokenization.hpp:123-128 *)
Definition create_end_tag (t : tok) : tok := set_end tag_clear (set_id 3 t).

(** current_tag_token().m_tag_name.push_back(c) *)
Definition push_tag_name (c : Z) (t : tok) : option tok :=
  on_current_tag (fun g => Some (Tag (g_name g ++ [c]) (g_self_closing g) (g_attributes g))) t.
(** current_tag_token().m_self_closing_flag = true *)
Definition set_self_closing (t : tok) : option tok :=
  on_current_tag (fun g => Some (Tag (g_name g) true (g_attributes g))) t.
(** tokenization.hpp:162-165, token.hpp:92-98 *)
Definition create_attribute (t : tok) : option tok :=
  on_current_tag (fun g => Some (Tag (g_name g) (g_self_closing g) (g_attributes g ++ [attribute_clear]))) t.

(** token.hpp:100-103: m_c[m_last - 1] of an empty list is undefined *)
Fixpoint map_last {A} (f : A -> A) (l : list A) : option (list A) :=
  match l with
  | [] => None
  | [x] => Some [f x]
  | x :: r => do r1 <- map_last f r; Some (x :: r1)
  end.
(** a change of current_attribute(), tokenization.hpp:169-172 *)
Definition on_current_attribute (f : attribute -> attribute) (t : tok) : option tok :=
  on_current_tag (fun g => do l <- map_last f (g_attributes g); Some (Tag (g_name g) (g_self_closing g) l)) t.
(** current_attribute().m_name.push_back(c) and current_attribute().m_value.push_back(c) *)
Definition push_attribute_name (c : Z) : tok -> option tok :=
  on_current_attribute (fun a => Attribute (a_name a ++ [c]) (a_value a) (a_omitted a)).
Definition push_attribute_value (c : Z) : tok -> option tok :=
  on_current_attribute (fun a => Attribute (a_name a) (a_value a ++ [c]) (a_omitted a)).
Definition push_attribute_values (s : list Z) : tok -> option tok :=
  on_current_attribute (fun a => Attribute (a_name a) (a_value a ++ s) (a_omitted a)).

(** tokenization.hpp:204-210 *)
Definition unify_attribute (t : tok) : option tok :=
  on_current_tag (fun g =>
    let l := g_attributes g in
    let cur := last l attribute_clear in
    let dup := existsb (fun a => eq_str (a_name a) (a_name cur)) (removelast l) in
    do l1 <- map_last (fun a => Attribute (a_name a) (a_value a) (if dup then true else a_omitted a)) l;
    Some (Tag (g_name g) (g_self_closing g) l1)) t.

(** tokenization.hpp:152-158; None is the assert *)
Definition is_appropriate_end_tag (t : tok) : option bool :=
  if t_id t =? 3 then
    Some (negb (eq_str (t_last t) [] || negb (eq_str (t_last t) (g_name (t_end t)))))
  else None.

(** tokenization.hpp:278-285 *)
Definition consumed_as_part_of_attribute (t : tok) : bool :=
  match t_return t with
  | Some attribute_value_double_quoted_state | Some attribute_value_single_quoted_state
  | Some attribute_value_unquoted_state => true
  | _ => false
  end.

(** tokenization.hpp:287-291; the loop over an empty buffer does not touch the attribute *)
Definition flush_reference (t : tok) : option tok :=
  match t_tmp t with
  | [] => Some t
  | s => if consumed_as_part_of_attribute t then push_attribute_values s t else Some (emit_chars s t)
  end.

(** change_state(return_state()), a null pointer being undefined when called *)
Definition to_return (t : tok) : option tok := do s <- t_return t; Some (set_state s t).

(** current_DOCTYPE_token() changes *)
Definition set_quirks (t : tok) : tok :=
  let d := t_doctype t in set_doctype (Doctype (d_name d) (d_public d) (d_system d) true) t.
Definition push_doctype_name (c : Z) (t : tok) : tok :=
  let d := t_doctype t in set_doctype (Doctype (d_name d ++ [c]) (d_public d) (d_system d) (d_quirks d)) t.
Definition set_public (s : list Z) (t : tok) : tok :=
  let d := t_doctype t in set_doctype (Doctype (d_name d) s (d_system d) (d_quirks d)) t.
Definition set_system (s : list Z) (t : tok) : tok :=
  let d := t_doctype t in set_doctype (Doctype (d_name d) (d_public d) s (d_quirks d)) t.

Section Tokenizer.
Variable switch : list token -> option state.
Variable cdata : list token -> bool.
Variable ncr : list Z -> option (nat * list Z).

(** emit_token(current_tag_token()), tokenization.hpp:214-244; [switch] is what tree construction does to m_state *)
Definition emit_tag (t : tok) : option tok :=
  if t_id t =? 2 then
    let t1 := emit (TStart (t_start t)) (set_last (g_name (t_start t)) t) in
    Some (match switch (t_out t1) with Some s => set_state s t1 | None => t1 end)
  else if t_id t =? 3 then Some (emit (TEnd (t_end t)) t)
  else None.

(** What a handler that starts with consume() leaves: the members, and whether it ends with reconsume(m_state). *)
Definition handled := option (tok * bool).
Definition stay (t : tok) : handled := Some (t, false).
Definition go (s : state) (t : tok) : handled := Some (set_state s t, false).
Definition again (s : state) (t : tok) : handled := Some (set_state s t, true).
(** reconsume(return_state()) *)
Definition again_return (t : tok) : handled := do t1 <- to_return t; Some (t1, true).
Definition stay' (t : option tok) : handled := do t1 <- t; stay t1.

(** The handlers: [i] is the result of consume(), [None] when eof() holds after it. *)

(** tokenization.hpp:303-330 *)
Definition on_data (t : tok) (i : option Z) : handled :=
  match i with
  | None => stay (emit_eof t)
  | Some c =>
      if c =? 0x26 then go character_reference_state (set_return data_state t)
      else if c =? 0x3C then go tag_open_state t
      else stay (emit_char c t)
  end.
(** tokenization.hpp:333-360 *)
Definition on_RCDATA (t : tok) (i : option Z) : handled :=
  match i with
  | None => stay (emit_eof t)
  | Some c =>
      if c =? 0x26 then go character_reference_state (set_return RCDATA_state t)
      else if c =? 0x3C then go RCDATA_less_than_sign_state t
      else if c =? 0 then stay (emit_char 0xFFFD t)
      else stay (emit_char c t)
  end.
(** tokenization.hpp:363-386 *)
Definition on_RAWTEXT (t : tok) (i : option Z) : handled :=
  match i with
  | None => stay (emit_eof t)
  | Some c =>
      if c =? 0x3C then go RAWTEXT_less_than_sign_state t
      else if c =? 0 then stay (emit_char 0xFFFD t)
      else stay (emit_char c t)
  end.
(** tokenization.hpp:389-412 *)
Definition on_script_data (t : tok) (i : option Z) : handled :=
  match i with
  | None => stay (emit_eof t)
  | Some c =>
      if c =? 0x3C then go script_data_less_than_sign_state t
      else if c =? 0 then stay (emit_char 0xFFFD t)
      else stay (emit_char c t)
  end.
(** tokenization.hpp:415-433 *)
Definition on_PLAINTEXT (t : tok) (i : option Z) : handled :=
  match i with
  | None => stay (emit_eof t)
  | Some c => if c =? 0 then stay (emit_char 0xFFFD t) else stay (emit_char c t)
  end.
(** tokenization.hpp:436-473 *)
Definition on_tag_open (t : tok) (i : option Z) : handled :=
  match i with
  | None => stay (emit_eof (emit_char 0x3C t))
  | Some c =>
      if c =? 0x21 then go markup_declaration_open_state t
      else if c =? 0x2F then go end_tag_open_state t
      else if c =? 0x3F then again bogus_comment_state (set_comment [] t)
      else if is_ascii_alpha c then again tag_name_state (create_start_tag t)
      else again data_state (emit_char 0x3C t)
  end.
(** tokenization.hpp:476-506 *)
Definition on_end_tag_open (t : tok) (i : option Z) : handled :=
  match i with
  | None => stay (emit_eof (emit_char 0x2F (emit_char 0x3C t)))
  | Some c =>
      if is_ascii_alpha c then again tag_name_state (create_end_tag t)
      else if c =? 0x3E then go data_state t
      else again bogus_comment_state (set_comment [] t)
  end.
(** tokenization.hpp:509-548 *)
Definition on_tag_name (t : tok) (i : option Z) : handled :=
  match i with
  | None => stay (emit_eof t)
  | Some c =>
      if is_space c then go before_attribute_name_state t
      else if c =? 0x2F then go self_closing_start_tag_state t
      else if c =? 0x3E then stay' (emit_tag (set_state data_state t))
      else if c =? 0 then stay' (push_tag_name 0xFFFD t)
      else if is_ascii_upper_alpha c then stay' (push_tag_name (c + 0x20) t)
      else stay' (push_tag_name c t)
  end.
(** tokenization.hpp:551-564 (RCDATA), 633-646 (RAWTEXT): the same text with other state names *)
Definition on_less_than_sign (open text : state) (t : tok) (i : option Z) : handled :=
  match i with
  | Some c => if c =? 0x2F then go open (set_tmp [] t) else again text (emit_char 0x3C t)
  | None => again text (emit_char 0x3C t)
  end.
(** tokenization.hpp:567-581 (RCDATA), 649-663 (RAWTEXT), 740-757 (script data), 966-983 (script data escaped) *)
Definition on_text_end_tag_open (name text : state) (t : tok) (i : option Z) : handled :=
  let other := again text (emit_char 0x2F (emit_char 0x3C t)) in
  match i with
  | Some c => if is_ascii_alpha c then again name (create_end_tag t) else other
  | None => other
  end.
(** tokenization.hpp:584-630 (RCDATA), 666-712 (RAWTEXT), 760-806 (script data), 986-1032 (script data escaped) *)
Definition on_text_end_tag_name (text : state) (t : tok) (i : option Z) : handled :=
  let other := again text (emit_chars (t_tmp t) (emit_char 0x2F (emit_char 0x3C t))) in
  match i with
  | Some c =>
      if is_space c then do b <- is_appropriate_end_tag t; if b then go before_attribute_name_state t else other
      else if c =? 0x2F then do b <- is_appropriate_end_tag t; if b then go self_closing_start_tag_state t else other
      else if c =? 0x3E then do b <- is_appropriate_end_tag t; if b then stay' (emit_tag (set_state data_state t)) else other
      else if is_ascii_upper_alpha c then do t1 <- push_tag_name (c + 0x20) t; stay (set_tmp (t_tmp t1 ++ [c]) t1)
      else if is_ascii_lower_alpha c then do t1 <- push_tag_name c t; stay (set_tmp (t_tmp t1 ++ [c]) t1)
      else other
  | None => other
  end.
(** tokenization.hpp:715-737 *)
Definition on_script_data_less_than_sign (t : tok) (i : option Z) : handled :=
  let other := again script_data_state (emit_char 0x3C t) in
  match i with
  | Some c =>
      if c =? 0x2F then go script_data_end_tag_open_state (set_tmp [] t)
      else if c =? 0x21 then stay (emit_char 0x21 (emit_char 0x3C (set_state script_data_escape_start_state t)))
      else other
  | None => other
  end.
(** tokenization.hpp:809-821 *)
Definition on_script_data_escape_start (t : tok) (i : option Z) : handled :=
  match i with
  | Some c => if c =? 0x2D then stay (emit_char 0x2D (set_state script_data_escape_start_dash_state t)) else again script_data_state t
  | None => again script_data_state t
  end.
(** tokenization.hpp:824-836 *)
Definition on_script_data_escape_start_dash (t : tok) (i : option Z) : handled :=
  match i with
  | Some c => if c =? 0x2D then stay (emit_char 0x2D (set_state script_data_escaped_dash_dash_state t)) else again script_data_state t
  | None => again script_data_state t
  end.
(** tokenization.hpp:839-867 *)
Definition on_script_data_escaped (t : tok) (i : option Z) : handled :=
  match i with
  | None => stay (emit_eof t)
  | Some c =>
      if c =? 0x2D then stay (emit_char 0x2D (set_state script_data_escaped_dash_state t))
      else if c =? 0x3C then go script_data_escaped_less_than_sign_state t
      else if c =? 0 then stay (emit_char 0xFFFD t)
      else stay (emit_char c t)
  end.
(** tokenization.hpp:870-900 *)
Definition on_script_data_escaped_dash (t : tok) (i : option Z) : handled :=
  match i with
  | None => stay (emit_eof t)
  | Some c =>
      if c =? 0x2D then stay (emit_char 0x2D (set_state script_data_escaped_dash_dash_state t))
      else if c =? 0x3C then go script_data_escaped_less_than_sign_state t
      else if c =? 0 then stay (emit_char 0xFFFD (set_state script_data_escaped_state t))
      else stay (emit_char c (set_state script_data_escaped_state t))
  end.
(** tokenization.hpp:903-936 *)
Definition on_script_data_escaped_dash_dash (t : tok) (i : option Z) : handled :=
  match i with
  | None => stay (emit_eof t)
  | Some c =>
      if c =? 0x2D then stay (emit_char 0x2D t)
      else if c =? 0x3C then go script_data_escaped_less_than_sign_state t
      else if c =? 0x3E then stay (emit_char 0x3E (set_state script_data_state t))
      else if c =? 0 then stay (emit_char 0xFFFD (set_state script_data_escaped_state t))
      else stay (emit_char c (set_state script_data_escaped_state t))
  end.
(** tokenization.hpp:939-963 *)
Definition on_script_data_escaped_less_than_sign (t : tok) (i : option Z) : handled :=
  let other := again script_data_escaped_state (emit_char 0x3C t) in
  match i with
  | Some c =>
      if c =? 0x2F then go script_data_escaped_end_tag_open_state (set_tmp [] t)
      else if is_ascii_alpha c then again script_data_double_escape_start_state (emit_char 0x3C (set_tmp [] t))
      else other
  | None => other
  end.
(** U"script" *)
Definition script_name : list Z := [0x73; 0x63; 0x72; 0x69; 0x70; 0x74].
(** tokenization.hpp:1035-1071 (escape start) and 1190-1226 (escape end): the same text with other state names *)
Definition on_script_data_double_escape (yes no text : state) (t : tok) (i : option Z) : handled :=
  match i with
  | Some c =>
      if is_space c || (c =? 0x2F) || (c =? 0x3E) then
        stay (emit_char c (set_state (if eq_str (t_tmp t) script_name then yes else no) t))
      else if is_ascii_upper_alpha c then stay (emit_char c (set_tmp (t_tmp t ++ [c + 0x20]) t))
      else if is_ascii_lower_alpha c then stay (emit_char c (set_tmp (t_tmp t ++ [c]) t))
      else again text t
  | None => again text t
  end.
(** tokenization.hpp:1074-1102 *)
Definition on_script_data_double_escaped (t : tok) (i : option Z) : handled :=
  match i with
  | None => stay (emit_eof t)
  | Some c =>
      if c =? 0x2D then stay (emit_char 0x2D (set_state script_data_double_escaped_dash_state t))
      else if c =? 0x3C then stay (emit_char 0x3C (set_state script_data_double_escaped_less_than_sign_state t))
      else if c =? 0 then stay (emit_char 0xFFFD t)
      else stay (emit_char c t)
  end.
(** tokenization.hpp:1105-1135 *)
Definition on_script_data_double_escaped_dash (t : tok) (i : option Z) : handled :=
  match i with
  | None => stay (emit_eof t)
  | Some c =>
      if c =? 0x2D then stay (emit_char 0x2D (set_state script_data_double_escaped_dash_dash_state t))
      else if c =? 0x3C then stay (emit_char 0x3C (set_state script_data_double_escaped_less_than_sign_state t))
      else if c =? 0 then stay (emit_char 0xFFFD (set_state script_data_double_escaped_state t))
      else stay (emit_char c (set_state script_data_double_escaped_state t))
  end.
(** tokenization.hpp:1138-1171 *)
Definition on_script_data_double_escaped_dash_dash (t : tok) (i : option Z) : handled :=
  match i with
  | None => stay (emit_eof t)
  | Some c =>
      if c =? 0x2D then stay (emit_char 0x2D t)
      else if c =? 0x3C then stay (emit_char 0x3C (set_state script_data_double_escaped_less_than_sign_state t))
      else if c =? 0x3E then stay (emit_char 0x3E (set_state script_data_state t))
      else if c =? 0 then stay (emit_char 0xFFFD (set_state script_data_double_escaped_state t))
      else stay (emit_char c (set_state script_data_double_escaped_state t))
  end.
(** tokenization.hpp:1174-1187 *)
Definition on_script_data_double_escaped_less_than_sign (t : tok) (i : option Z) : handled :=
  match i with
  | Some c =>
      if c =? 0x2F then stay (emit_char 0x2F (set_state script_data_double_escape_end_state (set_tmp [] t)))
      else again script_data_double_escaped_state t
  | None => again script_data_double_escaped_state t
  end.
(** tokenization.hpp:1229-1260 *)
Definition on_before_attribute_name (t : tok) (i : option Z) : handled :=
  match i with
  | None => again after_attribute_name_state t
  | Some c =>
      if is_space c then stay t
      else if (c =? 0x2F) || (c =? 0x3E) then again after_attribute_name_state t
      else do t1 <- create_attribute t;
        if c =? 0x3D then do t2 <- push_attribute_name c t1; go attribute_name_state t2
        else again attribute_name_state t1
  end.
(** tokenization.hpp:1263-1307 *)
Definition on_attribute_name (t : tok) (i : option Z) : handled :=
  match i with
  | None => again after_attribute_name_state t
  | Some c =>
      if is_space c || (c =? 0x2F) || (c =? 0x3E) then do t1 <- unify_attribute t; again after_attribute_name_state t1
      else if c =? 0x3D then do t1 <- unify_attribute t; go before_attribute_value_state t1
      else if c =? 0 then stay' (push_attribute_name 0xFFFD t)
      else if is_ascii_upper_alpha c then stay' (push_attribute_name (c + 0x20) t)
      else stay' (push_attribute_name c t)
  end.
(** tokenization.hpp:1310-1342 *)
Definition on_after_attribute_name (t : tok) (i : option Z) : handled :=
  match i with
  | None => stay (emit_eof t)
  | Some c =>
      if is_space c then stay t
      else if c =? 0x2F then go self_closing_start_tag_state t
      else if c =? 0x3D then go before_attribute_value_state t
      else if c =? 0x3E then stay' (emit_tag (set_state data_state t))
      else do t1 <- create_attribute t; again attribute_name_state t1
  end.
(** tokenization.hpp:1345-1373 *)
Definition on_before_attribute_value (t : tok) (i : option Z) : handled :=
  match i with
  | None => again attribute_value_unquoted_state t
  | Some c =>
      if is_space c then stay t
      else if c =? 0x22 then go attribute_value_double_quoted_state t
      else if c =? 0x27 then go attribute_value_single_quoted_state t
      else if c =? 0x3E then stay' (emit_tag (set_state data_state t))
      else again attribute_value_unquoted_state t
  end.
(** tokenization.hpp:1376-1403 (double quoted), 1406-1433 (single quoted) *)
Definition on_attribute_value_quoted (self : state) (q : Z) (t : tok) (i : option Z) : handled :=
  match i with
  | None => stay (emit_eof t)
  | Some c =>
      if c =? q then go after_attribute_value_quoted_state t
      else if c =? 0x26 then go character_reference_state (set_return self t)
      else if c =? 0 then stay' (push_attribute_value 0xFFFD t)
      else stay' (push_attribute_value c t)
  end.
(** tokenization.hpp:1436-1478 *)
Definition on_attribute_value_unquoted (t : tok) (i : option Z) : handled :=
  match i with
  | None => stay (emit_eof t)
  | Some c =>
      if is_space c then go before_attribute_name_state t
      else if c =? 0x26 then go character_reference_state (set_return attribute_value_unquoted_state t)
      else if c =? 0x3E then stay' (emit_tag (set_state data_state t))
      else if c =? 0 then stay' (push_attribute_value 0xFFFD t)
      else stay' (push_attribute_value c t)
  end.
(** tokenization.hpp:1481-1511 *)
Definition on_after_attribute_value_quoted (t : tok) (i : option Z) : handled :=
  match i with
  | None => stay (emit_eof t)
  | Some c =>
      if is_space c then go before_attribute_name_state t
      else if c =? 0x2F then go self_closing_start_tag_state t
      else if c =? 0x3E then stay' (emit_tag (set_state data_state t))
      else again before_attribute_name_state t
  end.
(** tokenization.hpp:1514-1535 *)
Definition on_self_closing_start_tag (t : tok) (i : option Z) : handled :=
  match i with
  | None => stay (emit_eof t)
  | Some c =>
      if c =? 0x3E then do t1 <- set_self_closing t; stay' (emit_tag (set_state data_state t1))
      else again before_attribute_name_state t
  end.
(** tokenization.hpp:1538-1562 *)
Definition on_bogus_comment (t : tok) (i : option Z) : handled :=
  match i with
  | None => stay (emit_eof (emit_comment t))
  | Some c =>
      if c =? 0x3E then stay (emit_comment (set_state data_state t))
      else if c =? 0 then stay (set_comment (t_comment t ++ [0xFFFD]) t)
      else stay (set_comment (t_comment t ++ [c]) t)
  end.
(** tokenization.hpp:1617-1637 *)
Definition on_comment_start (t : tok) (i : option Z) : handled :=
  match i with
  | Some c =>
      if c =? 0x2D then go comment_start_dash_state t
      else if c =? 0x3E then stay (emit_comment (set_state data_state t))
      else again comment_state t
  | None => again comment_state t
  end.
(** tokenization.hpp:1640-1666 *)
Definition on_comment_start_dash (t : tok) (i : option Z) : handled :=
  match i with
  | None => stay (emit_eof (emit_comment t))
  | Some c =>
      if c =? 0x2D then go comment_end_state t
      else if c =? 0x3E then stay (emit_comment (set_state data_state t))
      else again comment_state (set_comment (t_comment t ++ [0x2D]) t)
  end.
(** tokenization.hpp:1669-1697 *)
Definition on_comment (t : tok) (i : option Z) : handled :=
  match i with
  | None => stay (emit_eof (emit_comment t))
  | Some c =>
      if c =? 0x3C then go comment_less_than_sign_state (set_comment (t_comment t ++ [c]) t)
      else if c =? 0x2D then go comment_end_dash_state t
      else if c =? 0 then stay (emit_char 0xFFFD t)
      else stay (set_comment (t_comment t ++ [c]) t)
  end.
(** tokenization.hpp:1700-1719 *)
Definition on_comment_less_than_sign (t : tok) (i : option Z) : handled :=
  match i with
  | Some c =>
      if c =? 0x21 then go comment_less_than_sign_bang_state (set_comment (t_comment t ++ [c]) t)
      else if c =? 0x3C then stay (set_comment (t_comment t ++ [c]) t)
      else again comment_state t
  | None => again comment_state t
  end.
(** tokenization.hpp:1722-1733 *)
Definition on_comment_less_than_sign_bang (t : tok) (i : option Z) : handled :=
  match i with
  | Some c => if c =? 0x2D then go comment_less_than_sign_bang_dash_state t else again comment_state t
  | None => again comment_state t
  end.
(** tokenization.hpp:1736-1747 *)
Definition on_comment_less_than_sign_bang_dash (t : tok) (i : option Z) : handled :=
  match i with
  | Some c => if c =? 0x2D then go comment_less_than_sign_bang_dash_dash_state t else again comment_end_dash_state t
  | None => again comment_end_dash_state t
  end.
(** tokenization.hpp:1750-1768 *)
Definition on_comment_less_than_sign_bang_dash_dash (t : tok) (i : option Z) : handled := again comment_end_state t.
(** tokenization.hpp:1771-1791 *)
Definition on_comment_end_dash (t : tok) (i : option Z) : handled :=
  match i with
  | None => stay (emit_eof (emit_comment t))
  | Some c => if c =? 0x2D then go comment_end_state t else again comment_state (set_comment (t_comment t ++ [0x2D]) t)
  end.
(** tokenization.hpp:1794-1823 *)
Definition on_comment_end (t : tok) (i : option Z) : handled :=
  match i with
  | None => stay (emit_eof (emit_comment t))
  | Some c =>
      if c =? 0x3E then stay (emit_comment (set_state data_state t))
      else if c =? 0x21 then go comment_end_bang_state t
      else if c =? 0x2D then stay (set_comment (t_comment t ++ [0x2D]) t)
      else again comment_state (set_comment (t_comment t ++ [0x2D; 0x2D]) t)
  end.
(** tokenization.hpp:1826-1857 *)
Definition on_comment_end_bang (t : tok) (i : option Z) : handled :=
  match i with
  | None => stay (emit_eof (emit_comment t))
  | Some c =>
      if c =? 0x2D then go comment_end_dash_state (set_comment (t_comment t ++ [0x2D; 0x2D; 0x21]) t)
      else if c =? 0x3E then stay (emit_comment (set_state data_state t))
      else again comment_state (set_comment (t_comment t ++ [0x2D; 0x2D; 0x21]) t)
  end.
(** tokenization.hpp:1860-1889 *)
Definition on_DOCTYPE (t : tok) (i : option Z) : handled :=
  match i with
  | None => stay (emit_eof (emit_doctype (set_quirks (set_doctype doctype_clear t))))
  | Some c => if is_space c then go before_DOCTYPE_name_state t else again before_DOCTYPE_name_state t
  end.
(** tokenization.hpp:1892-1939 *)
Definition on_before_DOCTYPE_name (t : tok) (i : option Z) : handled :=
  match i with
  | None => stay (emit_eof (emit_doctype (set_quirks (set_doctype doctype_clear t))))
  | Some c =>
      if is_space c then stay t
      else if c =? 0 then go DOCTYPE_name_state (push_doctype_name 0xFFFD (set_doctype doctype_clear t))
      else if c =? 0x3E then stay (emit_doctype (set_state data_state (set_quirks (set_doctype doctype_clear t))))
      else if is_ascii_upper_alpha c then go DOCTYPE_name_state (push_doctype_name (c + 0x20) (set_doctype doctype_clear t))
      else go DOCTYPE_name_state (push_doctype_name c (set_doctype doctype_clear t))
  end.
(** tokenization.hpp:1942-1980 *)
Definition on_DOCTYPE_name (t : tok) (i : option Z) : handled :=
  match i with
  | None => stay (emit_eof (emit_doctype (set_quirks t)))
  | Some c =>
      if is_space c then go after_DOCTYPE_name_state t
      else if c =? 0x3E then stay (emit_doctype (set_state data_state t))
      else if c =? 0 then stay (push_doctype_name 0xFFFD t)
      else if is_ascii_upper_alpha c then stay (push_doctype_name (c + 0x20) t)
      else stay (push_doctype_name c t)
  end.
(** tokenization.hpp:2037-2079 (after public keyword), 2275-2317 (after system keyword) *)
Definition on_after_DOCTYPE_keyword (before dq sq : state) (clear : tok -> tok) (t : tok) (i : option Z) : handled :=
  match i with
  | None => stay (emit_eof (emit_doctype (set_quirks t)))
  | Some c =>
      if is_space c then go before t
      else if c =? 0x22 then go dq (clear t)
      else if c =? 0x27 then go sq (clear t)
      else if c =? 0x3E then stay (emit_doctype (set_state data_state (set_quirks t)))
      else again bogus_DOCTYPE_state (set_quirks t)
  end.
(** tokenization.hpp:2082-2121 (public), 2320-2359 (system) *)
Definition on_before_DOCTYPE_identifier (dq sq : state) (clear : tok -> tok) (t : tok) (i : option Z) : handled :=
  match i with
  | None => stay (emit_eof (emit_doctype (set_quirks t)))
  | Some c =>
      if is_space c then stay t
      else if c =? 0x22 then go dq (clear t)
      else if c =? 0x27 then go sq (clear t)
      else if c =? 0x3E then stay (emit_doctype (set_state data_state (set_quirks t)))
      else again bogus_DOCTYPE_state (set_quirks t)
  end.
(** tokenization.hpp:2124-2155, 2158-2189 (public), 2362-2393, 2396-2427 (system) *)
Definition on_DOCTYPE_identifier (q : Z) (after : state) (push : Z -> tok -> tok) (t : tok) (i : option Z) : handled :=
  match i with
  | None => stay (emit_eof (emit_doctype (set_quirks t)))
  | Some c =>
      if c =? q then go after t
      else if c =? 0 then stay (push 0xFFFD t)
      else if c =? 0x3E then stay (emit_doctype (set_state data_state (set_quirks t)))
      else stay (push c t)
  end.
(** tokenization.hpp:2192-2232 *)
Definition on_after_DOCTYPE_public_identifier (t : tok) (i : option Z) : handled :=
  match i with
  | None => stay (emit_eof (emit_doctype (set_quirks t)))
  | Some c =>
      if is_space c then go between_DOCTYPE_public_and_system_identifiers_state t
      else if c =? 0x3E then stay (emit_doctype (set_state data_state t))
      else if c =? 0x22 then go DOCTYPE_system_identifier_double_quoted_state (set_system [] t)
      else if c =? 0x27 then go DOCTYPE_system_identifier_single_quoted_state (set_system [] t)
      else again bogus_DOCTYPE_state (set_quirks t)
  end.
(** tokenization.hpp:2235-2272 *)
Definition on_between_DOCTYPE_identifiers (t : tok) (i : option Z) : handled :=
  match i with
  | None => stay (emit_eof (emit_doctype (set_quirks t)))
  | Some c =>
      if is_space c then stay t
      else if c =? 0x3E then stay (emit_doctype (set_state data_state t))
      else if c =? 0x22 then go DOCTYPE_system_identifier_double_quoted_state (set_system [] t)
      else if c =? 0x27 then go DOCTYPE_system_identifier_single_quoted_state (set_system [] t)
      else again bogus_DOCTYPE_state (set_quirks t)
  end.
(** tokenization.hpp:2430-2458 *)
Definition on_after_DOCTYPE_system_identifier (t : tok) (i : option Z) : handled :=
  match i with
  | None => stay (emit_eof (emit_doctype (set_quirks t)))
  | Some c =>
      if is_space c then stay t
      else if c =? 0x3E then stay (emit_doctype (set_state data_state t))
      else again bogus_DOCTYPE_state t
  end.
(** tokenization.hpp:2461-2482 *)
Definition on_bogus_DOCTYPE (t : tok) (i : option Z) : handled :=
  match i with
  | None => stay (emit_eof (emit_doctype t))
  | Some c => if c =? 0x3E then stay (emit_doctype (set_state data_state t)) else stay t
  end.
(** tokenization.hpp:2485-2503 *)
Definition on_CDATA_section (t : tok) (i : option Z) : handled :=
  match i with
  | None => stay (emit_eof t)
  | Some c => if c =? 0x5D then go CDATA_section_bracket_state t else stay (emit_char c t)
  end.
(** tokenization.hpp:2506-2518 *)
Definition on_CDATA_section_bracket (t : tok) (i : option Z) : handled :=
  match i with
  | Some c => if c =? 0x5D then go CDATA_section_end_state t else again CDATA_section_state (emit_char 0x5D t)
  | None => again CDATA_section_state (emit_char 0x5D t)
  end.
(** tokenization.hpp:2521-2541 *)
Definition on_CDATA_section_end (t : tok) (i : option Z) : handled :=
  let other := again CDATA_section_state (emit_char 0x5D (emit_char 0x5D t)) in
  match i with
  | Some c => if c =? 0x5D then stay (emit_char 0x5D t) else if c =? 0x3E then go data_state t else other
  | None => other
  end.
(** tokenization.hpp:2544-2569; m_temporary_buffer is set before consume(), which makes no difference *)
Definition on_character_reference (t : tok) (i : option Z) : handled :=
  let t := set_tmp [0x26] t in
  let other := do t1 <- flush_reference t; again_return t1 in
  match i with
  | Some c =>
      if is_ascii_alphanumeric c then again named_character_reference_state t
      else if c =? 0x23 then go numeric_character_reference_state (set_tmp [0x26; 0x23] t)
      else other
  | None => other
  end.
(** tokenization.hpp:2619-2641 *)
Definition on_ambiguous_ampersand (t : tok) (i : option Z) : handled :=
  match i with
  | Some c =>
      if is_ascii_alphanumeric c then
        (if consumed_as_part_of_attribute t then stay' (push_attribute_value c t) else stay (emit_char c t))
      else again_return t
  | None => again_return t
  end.
(** tokenization.hpp:2644-2663 *)
Definition on_numeric_character_reference (t : tok) (i : option Z) : handled :=
  let t := set_code 0 t in
  match i with
  | Some c =>
      if (c =? 0x78) || (c =? 0x58) then go hexadecimal_character_reference_start_state (set_tmp (t_tmp t ++ [c]) t)
      else again decimal_character_reference_start_state t
  | None => again decimal_character_reference_start_state t
  end.
(** tokenization.hpp:2666-2679 (hexadecimal), 2682-2695 (decimal) *)
Definition on_reference_start (digit : Z -> bool) (next : state) (t : tok) (i : option Z) : handled :=
  let other := do t1 <- flush_reference t; again_return t1 in
  match i with
  | Some c => if digit c then again next t else other
  | None => other
  end.
(** tokenization.hpp:2698-2726; the code is a char32_t *)
Definition on_hexadecimal_character_reference (t : tok) (i : option Z) : handled :=
  match i with
  | Some c =>
      if is_ascii_hex_digit c then
        let d := if is_ascii_digit c then c - 0x30 else if is_ascii_upper_hex_digit c then c - 0x37 else c - 0x57 in
        stay (set_code ((t_code t * 16 + d) mod 2 ^ 32) t)
      else if c =? 0x3B then go numeric_character_reference_end_state t
      else again numeric_character_reference_end_state t
  | None => again numeric_character_reference_end_state t
  end.
(** tokenization.hpp:2729-2750 *)
Definition on_decimal_character_reference (t : tok) (i : option Z) : handled :=
  match i with
  | Some c =>
      if is_ascii_digit c then stay (set_code ((t_code t * 10 + (c - 0x30)) mod 2 ^ 32) t)
      else if c =? 0x3B then go numeric_character_reference_end_state t
      else again numeric_character_reference_end_state t
  | None => again numeric_character_reference_end_state t
  end.

(** m_state of the states that start with consume(); the other four give [None] and are handled below *)
Definition ordinary (t : tok) (i : option Z) : handled :=
  match t_state t with
  | data_state => on_data t i
  | RCDATA_state => on_RCDATA t i
  | RAWTEXT_state => on_RAWTEXT t i
  | script_data_state => on_script_data t i
  | PLAINTEXT_state => on_PLAINTEXT t i
  | tag_open_state => on_tag_open t i
  | end_tag_open_state => on_end_tag_open t i
  | tag_name_state => on_tag_name t i
  | RCDATA_less_than_sign_state => on_less_than_sign RCDATA_end_tag_open_state RCDATA_state t i
  | RCDATA_end_tag_open_state => on_text_end_tag_open RCDATA_end_tag_name_state RCDATA_state t i
  | RCDATA_end_tag_name_state => on_text_end_tag_name RCDATA_state t i
  | RAWTEXT_less_than_sign_state => on_less_than_sign RAWTEXT_end_tag_open_state RAWTEXT_state t i
  | RAWTEXT_end_tag_open_state => on_text_end_tag_open RAWTEXT_end_tag_name_state RAWTEXT_state t i
  | RAWTEXT_end_tag_name_state => on_text_end_tag_name RAWTEXT_state t i
  | script_data_less_than_sign_state => on_script_data_less_than_sign t i
  | script_data_end_tag_open_state => on_text_end_tag_open script_data_end_tag_name_state script_data_state t i
  | script_data_end_tag_name_state => on_text_end_tag_name script_data_state t i
  | script_data_escape_start_state => on_script_data_escape_start t i
  | script_data_escape_start_dash_state => on_script_data_escape_start_dash t i
  | script_data_escaped_state => on_script_data_escaped t i
  | script_data_escaped_dash_state => on_script_data_escaped_dash t i
  | script_data_escaped_dash_dash_state => on_script_data_escaped_dash_dash t i
  | script_data_escaped_less_than_sign_state => on_script_data_escaped_less_than_sign t i
  | script_data_escaped_end_tag_open_state => on_text_end_tag_open script_data_escaped_end_tag_name_state script_data_escaped_state t i
  | script_data_escaped_end_tag_name_state => on_text_end_tag_name script_data_escaped_state t i
  | script_data_double_escape_start_state =>
      on_script_data_double_escape script_data_double_escaped_state before_attribute_name_state script_data_escaped_state t i
  | script_data_double_escaped_state => on_script_data_double_escaped t i
  | script_data_double_escaped_dash_state => on_script_data_double_escaped_dash t i
  | script_data_double_escaped_dash_dash_state => on_script_data_double_escaped_dash_dash t i
  | script_data_double_escaped_less_than_sign_state => on_script_data_double_escaped_less_than_sign t i
  | script_data_double_escape_end_state =>
      on_script_data_double_escape script_data_escaped_state script_data_double_escaped_state script_data_double_escaped_state t i
  | before_attribute_name_state => on_before_attribute_name t i
  | attribute_name_state => on_attribute_name t i
  | after_attribute_name_state => on_after_attribute_name t i
  | before_attribute_value_state => on_before_attribute_value t i
  | attribute_value_double_quoted_state => on_attribute_value_quoted attribute_value_double_quoted_state 0x22 t i
  | attribute_value_single_quoted_state => on_attribute_value_quoted attribute_value_single_quoted_state 0x27 t i
  | attribute_value_unquoted_state => on_attribute_value_unquoted t i
  | after_attribute_value_quoted_state => on_after_attribute_value_quoted t i
  | self_closing_start_tag_state => on_self_closing_start_tag t i
  | bogus_comment_state => on_bogus_comment t i
  | comment_start_state => on_comment_start t i
  | comment_start_dash_state => on_comment_start_dash t i
  | comment_state => on_comment t i
  | comment_less_than_sign_state => on_comment_less_than_sign t i
  | comment_less_than_sign_bang_state => on_comment_less_than_sign_bang t i
  | comment_less_than_sign_bang_dash_state => on_comment_less_than_sign_bang_dash t i
  | comment_less_than_sign_bang_dash_dash_state => on_comment_less_than_sign_bang_dash_dash t i
  | comment_end_dash_state => on_comment_end_dash t i
  | comment_end_state => on_comment_end t i
  | comment_end_bang_state => on_comment_end_bang t i
  | DOCTYPE_state => on_DOCTYPE t i
  | before_DOCTYPE_name_state => on_before_DOCTYPE_name t i
  | DOCTYPE_name_state => on_DOCTYPE_name t i
  | after_DOCTYPE_public_keyword_state =>
      on_after_DOCTYPE_keyword before_DOCTYPE_public_identifier_state DOCTYPE_public_identifier_double_quoted_state
        DOCTYPE_public_identifier_single_quoted_state (set_public []) t i
  | before_DOCTYPE_public_identifier_state =>
      on_before_DOCTYPE_identifier DOCTYPE_public_identifier_double_quoted_state
        DOCTYPE_public_identifier_single_quoted_state (set_public []) t i
  | DOCTYPE_public_identifier_double_quoted_state =>
      on_DOCTYPE_identifier 0x22 after_DOCTYPE_public_identifier_state (fun c t => set_public (d_public (t_doctype t) ++ [c]) t) t i
  | DOCTYPE_public_identifier_single_quoted_state =>
      on_DOCTYPE_identifier 0x27 after_DOCTYPE_public_identifier_state (fun c t => set_public (d_public (t_doctype t) ++ [c]) t) t i
  | after_DOCTYPE_public_identifier_state => on_after_DOCTYPE_public_identifier t i
  | between_DOCTYPE_public_and_system_identifiers_state => on_between_DOCTYPE_identifiers t i
  | after_DOCTYPE_system_keyword_state =>
      on_after_DOCTYPE_keyword before_DOCTYPE_system_identifier_state DOCTYPE_system_identifier_double_quoted_state
        DOCTYPE_system_identifier_single_quoted_state (set_system []) t i
  | before_DOCTYPE_system_identifier_state =>
      on_before_DOCTYPE_identifier DOCTYPE_system_identifier_double_quoted_state
        DOCTYPE_system_identifier_single_quoted_state (set_system []) t i
  | DOCTYPE_system_identifier_double_quoted_state =>
      on_DOCTYPE_identifier 0x22 after_DOCTYPE_system_identifier_state (fun c t => set_system (d_system (t_doctype t) ++ [c]) t) t i
  | DOCTYPE_system_identifier_single_quoted_state =>
      on_DOCTYPE_identifier 0x27 after_DOCTYPE_system_identifier_state (fun c t => set_system (d_system (t_doctype t) ++ [c]) t) t i
  | after_DOCTYPE_system_identifier_state => on_after_DOCTYPE_system_identifier t i
  | bogus_DOCTYPE_state => on_bogus_DOCTYPE t i
  | CDATA_section_state => on_CDATA_section t i
  | CDATA_section_bracket_state => on_CDATA_section_bracket t i
  | CDATA_section_end_state => on_CDATA_section_end t i
  | character_reference_state => on_character_reference t i
  | ambiguous_ampersand_state => on_ambiguous_ampersand t i
  | numeric_character_reference_state => on_numeric_character_reference t i
  | hexadecimal_character_reference_start_state => on_reference_start is_ascii_hex_digit hexadecimal_character_reference_state t i
  | decimal_character_reference_start_state => on_reference_start is_ascii_digit decimal_character_reference_state t i
  | hexadecimal_character_reference_state => on_hexadecimal_character_reference t i
  | decimal_character_reference_state => on_decimal_character_reference t i
  | markup_declaration_open_state | after_DOCTYPE_name_state | named_character_reference_state
  | numeric_character_reference_end_state => None
  end.

(** input_stream.hpp:45-59 *)
Record stream := Stream { s_c : list Z; s_current : Z; s_eof : bool; s_eof_consumed : bool; s_cr : bool }.
(** input_stream.hpp:65-72 *)
Definition stream_init : stream := Stream [] 0 false false false.

(** input_stream.hpp:241-254; None is front() of an empty buffer *)
Definition consume (s : stream) : option (Z * stream) :=
  match s_c s with
  | [] => if s_eof s then Some (0, Stream [] (s_current s) (s_eof s) true (s_cr s)) else None
  | c :: r => Some (c, Stream r c (s_eof s) (s_eof_consumed s) (s_cr s))
  end.
(** input_stream.hpp:263-266 *)
Fixpoint consume_n (n : nat) (s : stream) : option stream :=
  match n with
  | O => Some s
  | S k => do (_, s1) <- consume s; consume_n k s1
  end.
(** input_stream.hpp:270-274 *)
Definition reconsume (s : stream) : stream :=
  if s_eof_consumed s then Stream (s_c s) (s_current s) (s_eof s) false (s_cr s)
  else Stream (s_current s :: s_c s) (s_current s) (s_eof s) (s_eof_consumed s) (s_cr s).
(** input_stream.hpp:229-233 *)
Definition fill (n : nat) (s : stream) : bool := s_eof s || (length (s_c s) =? n)%nat.

(** input_stream.hpp:308-318 *)
Fixpoint match_label (label buf : list Z) (case_insensitive : bool) : bool :=
  match label with
  | [] => true
  | l :: label =>
      match buf with
      | [] => false
      | c :: buf =>
          let c := if case_insensitive && is_ascii_upper_alpha c then c + 0x20 else c in
          (c =? l) && match_label label buf case_insensitive
      end
  end.
(** input_stream.hpp:293-319, with_current being true: the current input character is compared first *)
Definition match_current (label : list Z) (s : stream) (case_insensitive : bool) : bool :=
  match_label label (s_current s :: s_c s) case_insensitive.

(** the tokeniser object *)
Record machine := Machine { m_s : stream; m_t : tok }.

(** How a handler goes on: it returns; it ends with reconsume (which calls the handler of m_state); it ends with
    flush_code_point; or the first and then the second. *)
Inductive next_call := Return (m : machine) | Call (m : machine) | Flush (m : machine) | CallFlush (m : machine).

(** U"--", U"doctype", U"[CDATA[", U"public", U"system" *)
Definition str_dashes : list Z := [0x2D; 0x2D].
Definition str_doctype : list Z := [0x64; 0x6F; 0x63; 0x74; 0x79; 0x70; 0x65].
Definition str_cdata : list Z := [0x5B; 0x43; 0x44; 0x41; 0x54; 0x41; 0x5B].
Definition str_public : list Z := [0x70; 0x75; 0x62; 0x6C; 0x69; 0x63].
Definition str_system : list Z := [0x73; 0x79; 0x73; 0x74; 0x65; 0x6D].

(** tokenization.hpp:1565-1614 *)
Definition on_markup_declaration_open (m : machine) : option next_call :=
  let (s, t) := m in
  if negb (fill 7 s) then Some (Return m)
  else if match_label str_dashes (s_c s) false then
    do s1 <- consume_n 2 s; Some (Flush (Machine s1 (set_state comment_start_state (set_comment [] t))))
  else if match_label str_doctype (s_c s) true then
    do s1 <- consume_n 7 s; Some (Flush (Machine s1 (set_state DOCTYPE_state t)))
  else if match_label str_cdata (s_c s) false then
    do s1 <- consume_n 7 s;
    if cdata (t_out t) then Some (Flush (Machine s1 (set_state CDATA_section_state t)))
    else Some (Flush (Machine s1 (set_state bogus_comment_state (set_comment str_cdata t))))
  else Some (Flush (Machine s (set_state bogus_comment_state (set_comment [] t)))).

(** tokenization.hpp:1983-2034 *)
Definition on_after_DOCTYPE_name (m : machine) : option next_call :=
  let (s, t) := m in
  if negb (fill 6 s) then Some (Return m)
  else
    do (c, s1) <- consume s;
    if s_eof_consumed s1 then Some (Return (Machine s1 (emit_eof (emit_doctype (set_quirks t)))))
    else if is_space c then Some (Flush (Machine s1 t))
    else if c =? 0x3E then Some (Flush (Machine s1 (emit_doctype (set_state data_state t))))
    else if match_current str_public s1 true then
      do s2 <- consume_n 5 s1; Some (Flush (Machine s2 (set_state after_DOCTYPE_public_keyword_state t)))
    else if match_current str_system s1 true then
      do s2 <- consume_n 5 s1; Some (Flush (Machine s2 (set_state after_DOCTYPE_system_keyword_state t)))
    else Some (CallFlush (Machine (reconsume s1) (set_state bogus_DOCTYPE_state (set_quirks t)))).

(** tokenization.hpp:2572-2616; atom_tbl.hpp:36 *)
Definition on_named_character_reference (m : machine) : option next_call :=
  let (s, t) := m in
  if negb (fill 33 s) then Some (Return m)
  else
    do (len, a) <- ncr (s_c s);
    match len with
    | O => do t1 <- flush_reference t; Some (Flush (Machine s (set_state ambiguous_ampersand_state t1)))
    | S k =>
        do tail <- nth_error (s_c s) k;
        let t1 := set_tmp (t_tmp t ++ firstn len (s_c s)) t in
        do s1 <- consume_n len s;
        let keep :=
          match s_c s1 with
          | [] => false
          | c :: _ => consumed_as_part_of_attribute t1 && negb (tail =? 0x3B) && ((c =? 0x3D) || is_ascii_alphanumeric c)
          end in
        let t2 := if keep then t1 else set_tmp a t1 in
        do t3 <- flush_reference t2;
        do t4 <- to_return t3;
        Some (Flush (Machine s1 t4))
    end.

(** lib/whatwg/html/parsing/atom_tbl.cpp:4759-4763 *)
Definition character_reference_code_tbl : list (Z * Z) :=
  [(0x80, 0x20AC); (0x82, 0x201A); (0x83, 0x0192); (0x84, 0x201E); (0x85, 0x2026); (0x86, 0x2020); (0x87, 0x2021);
   (0x88, 0x02C6); (0x89, 0x2030); (0x8A, 0x0160); (0x8B, 0x2039); (0x8C, 0x0152); (0x8E, 0x017D); (0x91, 0x2018);
   (0x92, 0x2019); (0x93, 0x201C); (0x94, 0x201D); (0x95, 0x2022); (0x96, 0x2013); (0x97, 0x2014); (0x98, 0x02DC);
   (0x99, 0x2122); (0x9A, 0x0161); (0x9B, 0x203A); (0x9C, 0x0153); (0x9E, 0x017E); (0x9F, 0x0178)].

(** tokenization.hpp:2755-2788: the code point a number stands for *)
Definition reference_code (c : Z) : Z :=
  let x := if c =? 0 then 0xFFFD else c in
  let x := if 0x10FFFF <? c then 0xFFFD else x in
  let x := if is_surrogate c then 0xFFFD else x in
  match find (fun e => fst e =? c) character_reference_code_tbl with Some e => snd e | None => x end.

(** tokenization.hpp:2753-2791 *)
Definition on_numeric_character_reference_end (m : machine) : option next_call :=
  let (s, t) := m in
  let x := reference_code (t_code t) in
  do t1 <- flush_reference (set_tmp [x] (set_code x t));
  do t2 <- to_return t1;
  Some (Return (Machine s t2)).

(** tokenization.hpp:295-298: the handler of m_state; 270-275 reconsume(state) *)
Definition handler (m : machine) : option next_call :=
  match t_state (m_t m) with
  | markup_declaration_open_state => on_markup_declaration_open m
  | after_DOCTYPE_name_state => on_after_DOCTYPE_name m
  | named_character_reference_state => on_named_character_reference m
  | numeric_character_reference_end_state => on_numeric_character_reference_end m
  | _ =>
      do (c, s1) <- consume (m_s m);
      do (t1, again) <- ordinary (m_t m) (if s_eof_consumed s1 then None else Some c);
      Some (if again : bool then Call (Machine (reconsume s1) t1) else Return (Machine s1 t1))
  end.

(** the functions that call each other: on_emit_code_point, flush_code_point, and the latter's loop *)
Inductive entry := On_emit | On_flush | On_loop.

Definition bind (o : outcome machine) (k : machine -> outcome machine) : outcome machine :=
  match o with Val m => k m | Bad => Bad | NoFuel => NoFuel end.

(** tokenization.hpp:295-298 and input_stream.hpp:177-192 *)
Fixpoint run (fuel : nat) (e : entry) (m : machine) : outcome machine :=
  match fuel with
  | O => NoFuel
  | S f =>
      match e with
      | On_emit =>
          match handler m with
          | None => Bad
          | Some (Return m1) => Val m1
          | Some (Call m1) => run f On_emit m1
          | Some (Flush m1) => run f On_flush m1
          | Some (CallFlush m1) => bind (run f On_emit m1) (run f On_flush)
          end
      | On_flush => if s_eof_consumed (m_s m) then Bad else run f On_loop m
      | On_loop =>
          match s_c (m_s m) with
          | [] => if s_eof (m_s m) && negb (s_eof_consumed (m_s m)) then run f On_emit m else Val m
          | _ :: _ =>
              bind (run f On_emit m) (fun m1 =>
                if (length (s_c (m_s m1)) =? length (s_c (m_s m)))%nat then Val m1 else run f On_loop m1)
          end
      end
  end.

(** input_stream.hpp:164-168 *)
Definition emit_code_point (fuel : nat) (c : Z) (m : machine) : outcome machine :=
  let s := m_s m in
  run fuel On_emit (Machine (Stream (s_c s ++ [c]) (s_current s) (s_eof s) (s_eof_consumed s) (s_cr s)) (m_t m)).
(** m_cr_state = b *)
Definition set_cr (b : bool) (m : machine) : machine :=
  let s := m_s m in Machine (Stream (s_c s) (s_current s) (s_eof s) (s_eof_consumed s) b) (m_t m).

(** input_stream.hpp:107-134 *)
Definition push_code_point (fuel : nat) (c : Z) (m : machine) : outcome machine :=
  if s_cr (m_s m) then
    if c =? 0xD then emit_code_point fuel 0xA m
    else if c =? 0xA then bind (emit_code_point fuel 0xA m) (fun m1 => Val (set_cr false m1))
    else bind (emit_code_point fuel 0xA m) (fun m1 =>
         bind (emit_code_point fuel c m1) (fun m2 => Val (set_cr false m2)))
  else
    if c =? 0xD then Val (set_cr true m) else emit_code_point fuel c m.

(** input_stream.hpp:140-153 *)
Definition push_eof (fuel : nat) (m : machine) : outcome machine :=
  let s := m_s m in
  let m1 := Machine (Stream (s_c s) (s_current s) true (s_eof_consumed s) (s_cr s)) (m_t m) in
  bind (if s_cr s then
          run fuel On_emit (Machine (Stream (s_c s ++ [0xA]) (s_current s) true (s_eof_consumed s) (s_cr s)) (m_t m))
        else Val m1)
       (run fuel On_emit).

(** A whole run: every code point pushed, then the end of input. *)
Fixpoint push_all (fuel : nat) (text : list Z) (m : machine) : outcome machine :=
  match text with
  | [] => push_eof fuel m
  | c :: r => bind (push_code_point fuel c m) (push_all fuel r)
  end.

(** The tokens emitted for a text, starting in a given tokeniser state. *)
Definition tokenize (fuel : nat) (t : tok) (text : list Z) : outcome (list token) :=
  match push_all fuel text (Machine stream_init t) with
  | Val m => Val (t_out (m_t m))
  | Bad => Bad
  | NoFuel => NoFuel
  end.
End Tokenizer.
