(** Model of the CSS parser, include/wordring/wwwc/css_syntax/parsing.hpp, over the tokens of M_css. The error handler is not modelled: it
    receives the stream and returns nothing. The [std::int32_t] position is an integer without bound, and the C++ stack is not modelled.
    Definitions only. *)
From Coq Require Import String.
From Coq Require Import ZArith List Bool.
From Verif Require Import M_unicode M_infra M_percent M_encoding M_labels M_css.
Import ListNotations.
Open Scope list_scope.
Open Scope Z_scope.

Definition pbind {A B : Type} (x : outcome A) (f : A -> outcome B) : outcome B := match x with Val a => f a | Bad => Bad | NoFuel => NoFuel end.
Definition popt {A : Type} (x : option A) : outcome A := match x with Some a => Val a | None => Bad end.

(** token.hpp:172-184, 218-404 and 482-600: tokens, functions and simple blocks, as [syntax_primitive] and as [component_value]. The conversions
    between these two (lib/wwwc/css_syntax/token.cpp:58-225) keep the value; those that assert are not reached with these three. *)
Inductive prim := Tok (t : token) | Fun (name : list Z) (v : list prim) | Blk (o : Z) (v : list prim).
(** token.hpp:409-479: at-rule, qualified rule and declaration. A block is its opening character with its values. *)
Inductive node :=
| AtRule (name : list Z) (prelude : list prim) (block : option (Z * list prim))
| Rule (prelude : list prim) (block : Z * list prim)
| Decl (name : list Z) (value : list prim) (important : bool).

(** * The stream *)

(** parsing.hpp:43-83 *)
Record stream := Stream { m_v : list prim; m_i : Z }.
Definition size (s : stream) : Z := Z.of_nat (List.length (m_v s)).
(** parsing.hpp:50-55 *)
Definition token_stream (c : list prim) : stream := Stream (c ++ [Tok Eof]) (-1).
(** parsing.hpp:57-61 *)
Definition current (s : stream) : prim :=
  if negb ((0 <=? m_i s) && (m_i s <? size s)) then last (m_v s) (Tok Eof) else nth (Z.to_nat (m_i s)) (m_v s) (Tok Eof).
(** parsing.hpp:63-67; the assert is [Bad]. *)
Definition next (s : stream) : outcome prim := if m_i s <? size s - 1 then Val (nth (Z.to_nat (m_i s + 1)) (m_v s) (Tok Eof)) else Bad.
(** parsing.hpp:69-73 *)
Definition consume (s : stream) : stream := Stream (m_v s) (m_i s + 1).
(** parsing.hpp:75-78 *)
Definition reconsume (s : stream) : stream := Stream (m_v s) (m_i s - 1).

(** * Component values *)

(** parsing.hpp:1221-1238 *)
Definition associated (p : prim) : Z := match p with Tok OpenCurly => 0x7B | Tok OpenSquare => 0x5B | Tok OpenParen => 0x28 | _ => 0 end.
(** parsing.hpp:1186-1205, 1214-1262 and 1270-1295. [block_loop] and [function_loop] are the loops of lines 1240-1258 and 1277-1291. The three
    closing cases of line 1245 return the block when it is the block's own token; otherwise they fall through to line 1249, which returns
    the block as well. *)
Fixpoint consume_component_value (fuel : nat) (s : stream) : outcome (prim * stream) :=
  match fuel with
  | O => NoFuel
  | S f =>
      let s := consume s in
      match current s with
      | Tok OpenCurly | Tok OpenSquare | Tok OpenParen => pbind (block_loop f [] s) (fun '(v, s') => Val (Blk (associated (current s)) v, s'))
      | Tok (Function n) => pbind (function_loop f [] s) (fun '(v, s') => Val (Fun n v, s'))
      | p => Val (p, s)
      end
  end
with block_loop (fuel : nat) (acc : list prim) (s : stream) : outcome (list prim * stream) :=
  match fuel with
  | O => NoFuel
  | S f =>
      let s := consume s in
      match current s with
      | Tok CloseCurly | Tok CloseSquare | Tok CloseParen => Val (acc, s)
      | Tok Eof => Val (acc, s)
      | _ => pbind (consume_component_value f (reconsume s)) (fun '(c, s) => block_loop f (acc ++ [c]) s)
      end
  end
with function_loop (fuel : nat) (acc : list prim) (s : stream) : outcome (list prim * stream) :=
  match fuel with
  | O => NoFuel
  | S f =>
      let s := consume s in
      match current s with
      | Tok CloseParen => Val (acc, s)
      | Tok Eof => Val (acc, s)
      | _ => pbind (consume_component_value f (reconsume s)) (fun '(c, s) => function_loop f (acc ++ [c]) s)
      end
  end.
Definition consume_simple_block (fuel : nat) (s : stream) : outcome (Z * list prim * stream) :=
  pbind (block_loop fuel [] s) (fun '(v, s') => Val (associated (current s), v, s')).

(** parsing.hpp:665-678 *)
Fixpoint values_loop (fuel : nat) (acc : list prim) (s : stream) : outcome (list prim) :=
  match fuel with
  | O => NoFuel
  | S f =>
      pbind (consume_component_value f s) (fun '(c, s) =>
      match c with
      | Tok Eof => Val acc
      | _ => values_loop f (acc ++ [c]) s
      end)
  end.
(** parsing.hpp:680-684 *)
Definition parse_list_of_component_values (fuel : nat) (c : list prim) : outcome (list prim) := values_loop fuel [] (token_stream c).

(** parsing.hpp:723-748. The vector that is moved from is empty (lines 740-741). *)
Fixpoint comma_loop (fuel : nat) (lists : list (list prim)) (v : list prim) (s : stream) : outcome (list (list prim)) :=
  match fuel with
  | O => NoFuel
  | S f =>
      pbind (consume_component_value f s) (fun '(c, s) =>
      match c with
      | Tok Eof => Val (lists ++ [v])
      | Tok Comma => comma_loop f (lists ++ [v]) [] s
      | _ => comma_loop f lists (v ++ [c]) s
      end)
  end.
(** parsing.hpp:759-764 *)
Definition parse_comma_separated_list_of_component_values (fuel : nat) (c : list prim) : outcome (list (list prim)) := comma_loop fuel [] [] (token_stream c).

(** [while (in.next_input_token().type() == syntax_primitive_name::WhitespaceToken) in.consume();], parsing.hpp:434, 449, 504, 610, 615, 1151, 1161 *)
Fixpoint skip_whitespace (fuel : nat) (s : stream) : outcome stream :=
  match fuel with
  | O => NoFuel
  | S f => pbind (next s) (fun p => match p with Tok Whitespace => skip_whitespace f (consume s) | _ => Val s end)
  end.

(** parsing.hpp:605-619 *)
Definition parse_component_value (fuel : nat) (c : list prim) : outcome (option prim) :=
  pbind (skip_whitespace fuel (token_stream c)) (fun s =>
  pbind (next s) (fun p =>
  match p with
  | Tok Eof => Val None
  | _ =>
      pbind (consume_component_value fuel s) (fun '(c, s) =>
      pbind (skip_whitespace fuel s) (fun s =>
      pbind (next s) (fun p =>
      match p with
      | Tok Eof => Val (Some c)
      | _ => Val None
      end)))
  end)).

(** * Rules *)

(** parsing.hpp:908-929 *)
Fixpoint at_loop (fuel : nat) (name : list Z) (prelude : list prim) (s : stream) : outcome (node * stream) :=
  match fuel with
  | O => NoFuel
  | S f =>
      let s := consume s in
      match current s with
      | Tok Semicolon => Val (AtRule name prelude None, s)
      | Tok Eof => Val (AtRule name prelude None, s)
      | Tok OpenCurly => pbind (consume_simple_block f s) (fun '(o, v, s) => Val (AtRule name prelude (Some (o, v)), s))
      | Blk o v =>
          if o =? 0x7B then Val (AtRule name prelude (Some (o, v)), s)
          else pbind (consume_component_value f (reconsume s)) (fun '(c, s) => at_loop f name (prelude ++ [c]) s)
      | _ => pbind (consume_component_value f (reconsume s)) (fun '(c, s) => at_loop f name (prelude ++ [c]) s)
      end
  end.
(** parsing.hpp:899-906; the assert of line 903 is [Bad]. *)
Definition consume_at_rule (fuel : nat) (s : stream) : outcome (node * stream) :=
  let s := consume s in
  match current s with
  | Tok (AtKeyword n) => at_loop fuel n [] s
  | _ => Bad
  end.
(** parsing.hpp:958-986 *)
Fixpoint qualified_loop (fuel : nat) (prelude : list prim) (s : stream) : outcome (option node * stream) :=
  match fuel with
  | O => NoFuel
  | S f =>
      let s := consume s in
      match current s with
      | Tok Eof => Val (None, s)
      | Tok OpenCurly => pbind (consume_simple_block f s) (fun '(o, v, s) => Val (Some (Rule prelude (o, v)), s))
      | Blk o v =>
          if o =? 0x7B then Val (Some (Rule prelude (o, v)), s)
          else pbind (consume_component_value f (reconsume s)) (fun '(c, s) => qualified_loop f (prelude ++ [c]) s)
      | _ => pbind (consume_component_value f (reconsume s)) (fun '(c, s) => qualified_loop f (prelude ++ [c]) s)
      end
  end.
Definition consume_qualified_rule (fuel : nat) (s : stream) : outcome (option node * stream) := qualified_loop fuel [] s.
Definition add_node (l : list node) (n : option node) : list node := match n with Some n => l ++ [n] | None => l end.
(** parsing.hpp:832-876. The case of lines 853-862 falls through to that of line 863. *)
Fixpoint rules_loop (fuel : nat) (top_level : bool) (rules : list node) (s : stream) : outcome (list node) :=
  match fuel with
  | O => NoFuel
  | S f =>
      let s := consume s in
      let at_keyword rules s := pbind (consume_at_rule f (reconsume s)) (fun '(r, s) => rules_loop f top_level (rules ++ [r]) s) in
      match current s with
      | Tok Whitespace => rules_loop f top_level rules s
      | Tok Eof => Val rules
      | Tok CDO | Tok CDC =>
          if top_level then rules_loop f top_level rules s
          else pbind (consume_qualified_rule f (reconsume s)) (fun '(r, s) => at_keyword (add_node rules r) s)
      | Tok (AtKeyword _) => at_keyword rules s
      | _ => pbind (consume_qualified_rule f (reconsume s)) (fun '(r, s) => rules_loop f top_level (add_node rules r) s)
      end
  end.
Definition consume_list_of_rules (fuel : nat) (s : stream) (top_level : bool) : outcome (list node) := rules_loop fuel top_level [] s.
(** parsing.hpp:315-327 *)
Definition parse_stylesheet (fuel : nat) (c : list prim) : outcome (list node) := consume_list_of_rules fuel (token_stream c) true.
(** parsing.hpp:381-393 *)
Definition parse_list_of_rules (fuel : nat) (c : list prim) : outcome (list node) := consume_list_of_rules fuel (token_stream c) true.
(** parsing.hpp:139-148 and 329-334: the text is filtered and split into tokens first. *)
Definition normalize_into_token_stream (fuel : nat) (s : list Z) : outcome (list prim) :=
  let '(buf, n) := filter_code_points s in pbind (tokenize fuel (firstn n buf)) (fun ts => Val (map Tok ts)).
Definition parse_stylesheet_text (fuel : nat) (s : list Z) : outcome (list node) := pbind (normalize_into_token_stream fuel s) (parse_stylesheet fuel).

(** parsing.hpp:431-456 *)
Definition parse_rule (fuel : nat) (c : list prim) : outcome (option node) :=
  pbind (skip_whitespace fuel (token_stream c)) (fun s =>
  pbind (next s) (fun p =>
  let rest r s :=
    pbind (skip_whitespace fuel s) (fun s =>
    pbind (next s) (fun p => match p with Tok Eof => Val (Some r) | _ => Val None end)) in
  match p with
  | Tok Eof => Val None
  | Tok (AtKeyword _) => pbind (consume_at_rule fuel s) (fun '(r, s) => rest r s)
  | _ => pbind (consume_qualified_rule fuel s) (fun '(r, s) => match r with None => Val None | Some r => rest r s end)
  end)).

(** * Declarations *)

Definition important : list Z := [0x69; 0x6D; 0x70; 0x6F; 0x72; 0x74; 0x61; 0x6E; 0x74].
(** parsing.hpp:1091-1129. [n] is [i + 1]; the loop condition [0 <= i] always holds, so that after the index 0, and with an empty vector, the
    index wraps around and is read out of range. *)
Fixpoint important_loop (n : nat) (st : bool) (v : list prim) : outcome (option (list prim)) :=
  match n with
  | O => Bad
  | S i =>
      match nth i v (Tok Eof) with
      | Tok Whitespace => important_loop i st v
      | Tok (Ident s) =>
          if st then Val None
          else pbind (popt (is_ascii_case_insensitive_match utf32 utf32 s important)) (fun b => if b then important_loop i true v else Val None)
      | Tok (Delim c) => if st && (c =? 0x21) then Val (Some (firstn i v)) else Val None
      | _ => Val None
      end
  end.
Definition process_important (v : list prim) : outcome (option (list prim)) := important_loop (List.length v) false v.
(** parsing.hpp:1175 *)
Fixpoint pop_whitespace (v : list prim) : list prim :=
  match v with
  | [] => []
  | p :: r => match pop_whitespace r, p with [], Tok Whitespace => [] | r, _ => p :: r end
  end.
(** parsing.hpp:1163-1166 *)
Fixpoint value_loop (fuel : nat) (acc : list prim) (s : stream) : outcome (list prim) :=
  match fuel with
  | O => NoFuel
  | S f =>
      pbind (next s) (fun p =>
      match p with
      | Tok Eof => Val acc
      | _ => pbind (consume_component_value f s) (fun '(c, s) => value_loop f (acc ++ [c]) s)
      end)
  end.
(** parsing.hpp:1143-1178; the assert of line 1147 is [Bad]. *)
Definition consume_declaration (fuel : nat) (s : stream) : outcome (option node) :=
  let s := consume s in
  match current s with
  | Tok (Ident n) =>
      pbind (skip_whitespace fuel s) (fun s =>
      pbind (next s) (fun p =>
      match p with
      | Tok Colon =>
          pbind (skip_whitespace fuel (consume s)) (fun s =>
          pbind (value_loop fuel [] s) (fun v =>
          pbind (process_important v) (fun r =>
          match r with
          | Some v => Val (Some (Decl n (pop_whitespace v) true))
          | None => Val (Some (Decl n (pop_whitespace v) false))
          end)))
      | _ => Val None
      end))
  | _ => Bad
  end.
(** parsing.hpp:501-511 *)
Definition parse_declaration (fuel : nat) (c : list prim) : outcome (option node) :=
  pbind (skip_whitespace fuel (token_stream c)) (fun s =>
  pbind (next s) (fun p =>
  match p with
  | Tok (Ident _) => consume_declaration fuel s
  | _ => Val (Some (Decl [] [] false))
  end)).

(** parsing.hpp:1040-1048 and 1059-1067: component values up to a semicolon or the end. *)
Fixpoint until_semicolon (fuel : nat) (acc : list prim) (s : stream) : outcome (list prim * stream) :=
  match fuel with
  | O => NoFuel
  | S f =>
      pbind (next s) (fun p =>
      match p with
      | Tok Semicolon | Tok Eof => Val (acc, s)
      | _ => pbind (consume_component_value f s) (fun '(c, s) => until_semicolon f (acc ++ [c]) s)
      end)
  end.
(** parsing.hpp:1017-1075 *)
Fixpoint declarations_loop (fuel : nat) (ds : list node) (s : stream) : outcome (list node) :=
  match fuel with
  | O => NoFuel
  | S f =>
      let s := consume s in
      match current s with
      | Tok Whitespace | Tok Semicolon => declarations_loop f ds s
      | Tok Eof => Val ds
      | Tok (AtKeyword _) => pbind (consume_at_rule f (reconsume s)) (fun '(r, s) => declarations_loop f (ds ++ [r]) s)
      | Tok (Ident n) =>
          pbind (until_semicolon f [Tok (Ident n)] s) (fun '(tmp, s) =>
          pbind (consume_declaration f (token_stream tmp)) (fun d => declarations_loop f (add_node ds d) s))
      | _ => pbind (until_semicolon f [] (reconsume s)) (fun '(_, s) => declarations_loop f ds s)
      end
  end.
(** parsing.hpp:556-567 *)
Definition parse_list_of_declarations (fuel : nat) (c : list prim) : outcome (list node) := declarations_loop fuel [] (token_stream c).
