(** Model of CSS input preprocessing and tokenisation.
    Source: include/wordring/wwwc/css_syntax/input_stream.hpp, tokenization.hpp and token.hpp.
    A pair of iterators [first], [last] is the list of code points between them; [--it] puts the code point
    just read back in front of the list. [None] is a failed assert or a read of [*last]. Error handlers are
    not modelled: they receive an iterator and return nothing. Definitions only. *)
From Coq Require Import ZArith List Bool.
From Verif Require Import M_unicode M_infra M_percent M_encoding M_labels.
Import ListNotations.
Open Scope Z_scope.

(* ------------------------------------------------------------------ input_stream.hpp *)

(** Assignment through an iterator at position [i]. *)
Fixpoint set_at (i : nat) (v : Z) (l : list Z) : list Z :=
  match l, i with
  | [], _ => []
  | _ :: r, O => v :: r
  | x :: r, S i' => x :: set_at i' v r
  end.
(** input_stream.hpp:120-148. One buffer, read at [first] and overwritten at [out]; the result is the buffer and
    the final [out]. One round per code point, so [length buf] rounds suffice. *)
Fixpoint filter_loop (fuel : nat) (buf : list Z) (first out : nat) : list Z * nat :=
  match fuel with
  | O => (buf, out)
  | S f =>
      match nth_error buf first with
      | None => (buf, out)
      | Some cp =>
          let put v := filter_loop f (set_at out v buf) (S first) (S out) in
          if cp =? 0x0D then
            match nth_error buf (S first) with
            | Some 0x0A => filter_loop f buf (S first) out
            | _ => put 0x0A
            end
          else if cp =? 0x0C then put 0x0A
          else if cp =? 0x00 then put 0xFFFD
          else put (if is_surrogate cp then 0xFFFD else cp)
      end
  end.
Definition filter_code_points (buf : list Z) : list Z * nat := filter_loop (length buf) buf 0 0.

(** input_stream.hpp:63: the text of the at-keyword charset, a space and a double quote *)
Definition charset_prefix : list Z := [0x40; 0x63; 0x68; 0x61; 0x72; 0x73; 0x65; 0x74; 0x20; 0x22].
(** input_stream.hpp:64. [None] is goto Abort; running out of input is not an abort. *)
Fixpoint skip_prefix (pre s : list Z) : option (list Z) :=
  match pre, s with
  | p :: pre', b :: s' => if p =? b then skip_prefix pre' s' else None
  | _, _ => Some s
  end.
(** encoding.hpp:161-165 (std::string overload of get_encoding_name): the label is converted to code
    points first. *)
Definition get_encoding_name_bytes (label : list Z) : option (option encoding_name) :=
  match encoding_cast utf8 utf32 label with
  | Some s => get_encoding_name s
  | None => None
  end.
(** input_stream.hpp:66-96, with the loop counter counting down from 1015 and [state] as a boolean. *)
Fixpoint charset_loop (n : nat) (state : bool) (label s : list Z) : option encoding_name :=
  match n, s with
  | S n', ch :: r =>
      if state then
        if ch =? 0x3B then
          match get_encoding_name_bytes label with
          | None => None
          | Some None => Some UTF_8
          | Some (Some e) => Some e
          end
        else charset_loop n' false (label ++ [0x22; ch]) r
      else if (ch <=? 0x21) || ((0x23 <=? ch) && (ch <=? 0x7F)) then charset_loop n' false (label ++ [ch]) r
      else if ch =? 0x22 then charset_loop n' true label r
      else Some UTF_8
  | _, _ => Some UTF_8
  end.
(** input_stream.hpp:54-97. [fallback = None] is static_cast<encoding_name>(0). *)
Definition determine_fallback_encoding (s : list Z) (fallback : option encoding_name) : option encoding_name :=
  match fallback with
  | Some e => Some e
  | None =>
      match skip_prefix charset_prefix s with
      | None => Some UTF_8
      | Some r => charset_loop 1015 false [] r
      end
  end.

(* ------------------------------------------------------------------ token.hpp *)

(** The operands of  s * (i + f * pow(10, -d)) * pow(10, t * e)  in tokenization.hpp:650. The floating point
    arithmetic itself is not modelled. *)
Record number := mk_number {
  n_neg : bool;      (* s = -1.0 *)
  n_int : Z;         (* i *)
  n_frac : Z;        (* f *)
  n_digits : nat;    (* d *)
  n_eneg : bool;     (* t = -1.0 *)
  n_exp : Z          (* e *)
}.
(** token.hpp:68 *)
Inductive type_flag := Tinteger | Tnumber.
(** token.hpp:20-49 and 71-159. [Hash] carries whether the type flag is [id]. *)
Inductive token :=
| Ident (s : list Z) | Function (s : list Z) | AtKeyword (s : list Z) | Hash (s : list Z) (id : bool)
| Str (s : list Z) | BadString | Url (s : list Z) | BadUrl | Delim (c : Z)
| Number (v : number) (t : type_flag) | Percentage (v : number) | Dimension (v : number) (unit : list Z) (t : type_flag)
| Whitespace | CDO | CDC | Colon | Semicolon | Comma | OpenSquare | CloseSquare | OpenParen | CloseParen
| OpenCurly | CloseCurly | Eof.

(* ------------------------------------------------------------------ tokenization.hpp *)

(** tokenization.hpp:35-69 *)
Definition is_digit (cp : Z) : bool := (0x30 <=? cp) && (cp <=? 0x39).
Definition is_hex_digit (cp : Z) : bool :=
  is_digit cp || ((0x41 <=? cp) && (cp <=? 0x46)) || ((0x61 <=? cp) && (cp <=? 0x66)).
Definition is_uppercase_letter (cp : Z) : bool := (0x41 <=? cp) && (cp <=? 0x5A).
Definition is_lowercase_letter (cp : Z) : bool := (0x61 <=? cp) && (cp <=? 0x7A).
Definition is_letter (cp : Z) : bool := is_uppercase_letter cp || is_lowercase_letter cp.
Definition is_non_ascii_code_point (cp : Z) : bool := (0x80 <=? cp) && (cp <=? 0x10FFFF).
Definition is_identifier_start_code_point (cp : Z) : bool :=
  is_letter cp || is_non_ascii_code_point cp || (cp =? 0x5F).
Definition is_identifier_code_point (cp : Z) : bool :=
  is_identifier_start_code_point cp || is_digit cp || (cp =? 0x2D).
Definition is_non_printable_code_point (cp : Z) : bool :=
  ((0 <=? cp) && (cp <=? 0x08)) || (cp =? 0x0B) || ((0x0E <=? cp) && (cp <=? 0x1F)) || (cp =? 0x7F).
Definition is_newline (cp : Z) : bool := cp =? 0x0A.
Definition is_whitespace (cp : Z) : bool := is_newline cp || (cp =? 0x09) || (cp =? 0x20).

(** The loops [while (first != last && p( *first)) ++first] and the code points passed over. *)
Fixpoint span (p : Z -> bool) (s : list Z) : list Z * list Z :=
  match s with
  | c :: r => if p c then let '(a, b) := span p r in (c :: a, b) else ([], s)
  | [] => ([], [])
  end.

(** tokenization.hpp:236-237: std::search for  */  and, when found, the advance past it. *)
Fixpoint after_comment (s : list Z) : list Z :=
  match s with
  | [] => []
  | c :: r => match c, r with
              | 0x2A, 0x2F :: r' => r'
              | _, _ => after_comment r
              end
  end.
(** tokenization.hpp:230-247; every round drops at least two code points, so [length s] rounds suffice. *)
Fixpoint consume_comments_loop (fuel : nat) (s : list Z) : list Z :=
  match fuel with
  | O => s
  | S f => match s with
           | 0x2F :: 0x2A :: r => consume_comments_loop f (after_comment r)
           | _ => s
           end
  end.
Definition consume_comments (s : list Z) : list Z := consume_comments_loop (length s) s.

(** tokenization.hpp:421-433. Up to [n] further hexadecimal digits. *)
Fixpoint hex_run (n : nat) (s : list Z) : list Z * list Z :=
  match n, s with
  | S n', c :: r => if is_hex_digit c then let '(a, b) := hex_run n' r in (c :: a, b) else ([], s)
  | _, _ => ([], s)
  end.
(** tokenization.hpp:427 *)
Definition skip_one_whitespace (s : list Z) : list Z :=
  match s with c :: r => if is_whitespace c then r else s | [] => [] end.
(** tokenization.hpp:413-440. The code point and the rest. The digits fit in 32 bits, so from_chars (and its
    assert) succeeds; [None] would be the failed assert. *)
Definition consume_escaped_code_point (s : list Z) : option (Z * list Z) :=
  match s with
  | [] => Some (0xFFFD, [])
  | cp :: r =>
      if is_hex_digit cp then
        let '(ds, r1) := hex_run 5 r in
        let r2 := skip_one_whitespace r1 in
        match from_chars 16 (2 ^ 32 - 1) (map (fun c => c mod 256) (cp :: ds)) with
        | None => None
        | Some ch =>
            if (ch =? 0) || is_surrogate ch || (0x10FFFF <? ch) then Some (0xFFFD, r2) else Some (ch, r2)
        end
      else Some (cp, r)
  end.

(** tokenization.hpp:449-453 *)
Definition starts_with_valid_escape (s : list Z) : bool :=
  match s with a :: b :: _ => (a =? 0x5C) && negb (is_newline b) | _ => false end.

(** tokenization.hpp:462-479 *)
Definition starts_with_identifier (s : list Z) : bool :=
  match s with
  | [] => false
  | c :: r =>
      if c =? 0x2D then
        match r with
        | d :: _ => if is_identifier_start_code_point d || (d =? 0x2D) then true else starts_with_valid_escape r
        | [] => false
        end
      else if is_identifier_start_code_point c then true
      else if c =? 0x5C then starts_with_valid_escape s
      else false
  end.

(** tokenization.hpp:488-516 *)
Definition starts_with_number (s : list Z) : bool :=
  match s with
  | [] => false
  | cp1 :: r =>
      if (cp1 =? 0x2B) || (cp1 =? 0x2D) then
        match r with
        | cp2 :: r2 =>
            if is_digit cp2 then true
            else if cp2 =? 0x2E then match r2 with d :: _ => is_digit d | [] => false end
            else false
        | [] => false
        end
      else if cp1 =? 0x2E then match r with d :: _ => is_digit d | [] => false end
      else is_digit cp1
  end.

(** tokenization.hpp:525-543. Every round consumes a code point, so [length s] rounds suffice; running out of
    fuel returns what has been read. *)
Fixpoint consume_identifier_loop (fuel : nat) (acc s : list Z) : option (list Z * list Z) :=
  match fuel, s with
  | S f, c :: r =>
      if is_identifier_code_point c then consume_identifier_loop f (acc ++ [c]) r
      else if starts_with_valid_escape s then
        match consume_escaped_code_point r with
        | None => None
        | Some (ch, r') => consume_identifier_loop f (acc ++ [ch]) r'
        end
      else Some (acc, s)
  | _, _ => Some (acc, s)
  end.
Definition consume_identifier (s : list Z) : option (list Z * list Z) :=
  consume_identifier_loop (length s) [] s.

(** tokenization.hpp:552-583, the lexical part: the text of the number, its type flag and the rest. *)
Definition is_e (c : Z) : bool := (c =? 0x45) || (c =? 0x65).
Definition is_sign (c : Z) : bool := (c =? 0x2B) || (c =? 0x2D).
Definition take_sign (s : list Z) : list Z * list Z :=
  match s with c :: r => if is_sign c then ([c], r) else ([], s) | [] => ([], []) end.
(** tokenization.hpp:562-568 *)
Definition take_fraction (s : list Z) : list Z * list Z :=
  match s with
  | c :: d :: r => if (c =? 0x2E) && is_digit d then let '(a, b) := span is_digit r in (c :: d :: a, b) else ([], s)
  | _ => ([], s)
  end.
(** tokenization.hpp:570-578 *)
Definition take_exponent (s : list Z) : list Z * list Z :=
  match s with
  | c :: d :: r =>
      if is_e c && is_digit d then let '(a, b) := span is_digit r in (c :: d :: a, b)
      else match r with
           | d2 :: r2 => if is_e c && is_sign d && is_digit d2
                         then let '(a, b) := span is_digit r2 in (c :: d :: d2 :: a, b) else ([], s)
           | [] => ([], s)
           end
  | _ => ([], s)
  end.
Definition number_repr (s : list Z) : list Z * type_flag * list Z :=
  let '(sg, s1) := take_sign s in
  let '(ip, s2) := span is_digit s1 in
  let '(fp, s3) := take_fraction s2 in
  let '(ep, s4) := take_exponent s3 in
  (sg ++ ip ++ fp ++ ep, match fp, ep with [], [] => Tinteger | _, _ => Tnumber end, s4).

(** tokenization.hpp:607-613, 620-627 and 641-648: an empty digit string leaves the 0; from_chars on a
    std::uint32_t out of range fails the assert. *)
Definition u32_of_digits (ds : list Z) : option Z :=
  match ds with [] => Some 0 | _ => from_chars 10 (2 ^ 32 - 1) (map (fun c => c mod 256) ds) end.
(** tokenization.hpp:598-603 and 631-638 *)
Definition read_sign (s : list Z) : bool * list Z :=
  match s with
  | c :: r => if c =? 0x2B then (false, r) else if c =? 0x2D then (true, r) else (false, s)
  | [] => (false, [])
  end.
(** tokenization.hpp:592-651 *)
Definition convert_string_to_number (s : list Z) : option number :=
  let '(neg, s1) := read_sign s in
  let '(ip, s2) := span is_digit s1 in
  let s3 := match s2 with c :: r => if c =? 0x2E then r else s2 | [] => [] end in
  let '(fp, s4) := span is_digit s3 in
  let s5 := match s4 with c :: r => if is_e c then r else s4 | [] => [] end in
  let '(eneg, s6) := read_sign s5 in
  let '(ep, _) := span is_digit s6 in
  match u32_of_digits ip, u32_of_digits fp, u32_of_digits ep with
  | Some i, Some f, Some e => Some (mk_number neg i f (length fp) eneg e)
  | _, _, _ => None
  end.
(** tokenization.hpp:552-583 *)
Definition consume_number (s : list Z) : option (number * type_flag * list Z) :=
  let '(repr, t, r) := number_repr s in
  match convert_string_to_number repr with Some v => Some (v, t, r) | None => None end.

(** tokenization.hpp:256-270 *)
Definition consume_numeric_token (s : list Z) : option (token * list Z) :=
  match consume_number s with
  | None => None
  | Some (num, t, r) =>
      if starts_with_identifier r then
        match consume_identifier r with
        | None => None
        | Some (u, r') => Some (Dimension num u t, r')
        end
      else match r with
           | c :: r' => if c =? 0x25 then Some (Percentage num, r') else Some (Number num t, r)
           | [] => Some (Number num t, r)
           end
  end.

(** tokenization.hpp:308-343; at most one round per code point. *)
Fixpoint consume_string_loop (fuel : nat) (ends : Z) (acc s : list Z) : option (token * list Z) :=
  match fuel, s with
  | S f, cp :: r =>
      if cp =? ends then Some (Str acc, r)
      else if is_newline cp then Some (BadString, s)
      else if cp =? 0x5C then
        match r with
        | [] => consume_string_loop f ends acc r
        | d :: r' =>
            if is_newline d then consume_string_loop f ends acc r'
            else match consume_escaped_code_point r with
                 | None => None
                 | Some (ch, r'') => consume_string_loop f ends (acc ++ [ch]) r''
                 end
        end
      else consume_string_loop f ends (acc ++ [cp]) r
  | _, _ => Some (Str acc, s)
  end.
Definition consume_string_token (ends : Z) (s : list Z) : option (token * list Z) :=
  consume_string_loop (length s) ends [] s.

(** tokenization.hpp:660-675 *)
Fixpoint bad_url_loop (fuel : nat) (s : list Z) : option (list Z) :=
  match fuel, s with
  | S f, cp :: r =>
      if cp =? 0x29 then Some r
      else if starts_with_valid_escape s then
        match consume_escaped_code_point r with
        | None => None
        | Some (_, r') => bad_url_loop f r'
        end
      else bad_url_loop f r
  | _, _ => Some s
  end.
Definition consume_remnants_of_bad_url (s : list Z) : option (list Z) := bad_url_loop (length s) s.
Definition bad_url (s : list Z) : option (token * list Z) :=
  match consume_remnants_of_bad_url s with Some r => Some (BadUrl, r) | None => None end.

(** tokenization.hpp:352-404. The escape case tests and decodes the text after the backslash but does not
    move [first] past the escape. *)
Fixpoint consume_url_loop (fuel : nat) (acc s : list Z) : option (token * list Z) :=
  match fuel, s with
  | S f, cp :: r =>
      if cp =? 0x29 then Some (Url acc, r)
      else if is_whitespace cp then
        match snd (span is_whitespace r) with
        | [] => Some (Url acc, [])
        | d :: r' => if d =? 0x29 then Some (Url acc, r') else bad_url (d :: r')
        end
      else if (cp =? 0x22) || (cp =? 0x27) || (cp =? 0x28) || is_non_printable_code_point cp then bad_url r
      else if cp =? 0x5C then
        if starts_with_valid_escape r then
          match consume_escaped_code_point r with
          | None => None
          | Some (ch, _) => consume_url_loop f (acc ++ [ch]) r
          end
        else bad_url r
      else consume_url_loop f (acc ++ [cp]) r
  | _, _ => Some (Url acc, s)
  end.
Definition consume_url_token (s : list Z) : option (token * list Z) :=
  let r := snd (span is_whitespace s) in consume_url_loop (length r) [] r.

(** tokenization.hpp:290: skip while the next two code points are whitespace. [p] is the code point in front
    of [s], which [--it] on line 292 makes current again. *)
Fixpoint skip_two_whitespace (p : Z) (s : list Z) : Z * list Z :=
  match s with
  | a :: r => match r with
              | b :: _ => if is_whitespace a && is_whitespace b then skip_two_whitespace a r else (p, s)
              | [] => (p, s)
              end
  | [] => (p, s)
  end.
Definition is_quote (c : Z) : bool := (c =? 0x22) || (c =? 0x27).
(** tokenization.hpp:291-292 *)
Definition quote_follows (s : list Z) : bool :=
  match s with
  | a :: r => is_quote a || (is_whitespace a && match r with b :: _ => is_quote b | [] => false end)
  | [] => false
  end.
(** tokenization.hpp:279-299. [*it] on line 287 is read without a test for [last]. *)
Definition consume_ident_like_token (s : list Z) : option (token * list Z) :=
  match consume_identifier s with
  | None => None
  | Some (n, r) =>
      let plain := match r with
                   | c :: r' => if c =? 0x28 then Some (Function n, r') else Some (Ident n, r)
                   | [] => Some (Ident n, r)
                   end in
      match is_ascii_case_insensitive_match utf32 utf32 n [0x75; 0x72; 0x6C] with
      | None => None
      | Some false => plain
      | Some true =>
          match r with
          | [] => None
          | c :: r1 =>
              if c =? 0x28 then
                let '(p, r2) := skip_two_whitespace c r1 in
                if quote_follows r2 then Some (Function n, p :: r2) else consume_url_token r2
              else plain
          end
      end
  end.

(** tokenization.hpp:127-221; the switch on one code point [cp] with [r] after it. [*it] in the '#' case is
    read without a test for [last]. *)
Definition consume_token_at (cp : Z) (r : list Z) : option (token * list Z) :=
  let delim := Some (Delim cp, r) in
  if is_whitespace cp then Some (Whitespace, snd (span is_whitespace r))
  else if cp =? 0x22 then consume_string_token cp r
  else if cp =? 0x23 then
    match r with
    | [] => None
    | c :: _ =>
        if is_identifier_code_point c || starts_with_valid_escape r then
          match consume_identifier r with
          | None => None
          | Some (n, r') => Some (Hash n (starts_with_identifier r), r')
          end
        else delim
    end
  else if cp =? 0x27 then consume_string_token cp r
  else if cp =? 0x28 then Some (OpenParen, r)
  else if cp =? 0x29 then Some (CloseParen, r)
  else if cp =? 0x2B then (if starts_with_number r then consume_numeric_token (cp :: r) else delim)
  else if cp =? 0x2C then Some (Comma, r)
  else if cp =? 0x2D then
    if starts_with_number r then consume_numeric_token (cp :: r)
    else match r with
         | 0x2D :: 0x3E :: r' => Some (CDC, r')
         | _ => if starts_with_identifier r then consume_ident_like_token (cp :: r) else delim
         end
  else if cp =? 0x2E then (if starts_with_number r then consume_numeric_token (cp :: r) else delim)
  else if cp =? 0x3A then Some (Colon, r)
  else if cp =? 0x3B then Some (Semicolon, r)
  else if cp =? 0x3C then
    match r with
    | 0x21 :: 0x2D :: 0x2D :: r' => Some (CDO, r')
    | _ => delim
    end
  else if cp =? 0x40 then
    if starts_with_identifier r then
      match consume_identifier r with
      | None => None
      | Some (n, r') => Some (AtKeyword n, r')
      end
    else delim
  else if cp =? 0x5B then Some (OpenSquare, r)
  else if cp =? 0x5C then
    (if starts_with_valid_escape (cp :: r) then consume_ident_like_token (cp :: r) else delim)
  else if cp =? 0x5D then Some (CloseSquare, r)
  else if cp =? 0x7B then Some (OpenCurly, r)
  else if cp =? 0x7D then Some (CloseCurly, r)
  else if is_digit cp then consume_numeric_token (cp :: r)
  else if is_identifier_start_code_point cp then consume_ident_like_token (cp :: r)
  else delim.
Definition consume_token (s : list Z) : option (token * list Z) :=
  match consume_comments s with
  | [] => Some (Eof, [])
  | cp :: r => consume_token_at cp r
  end.

(** tokenization.hpp:681-691. [Bad] is a failed assert or out of range read, [NoFuel] a loop that is still
    running after [fuel] tokens. *)
Fixpoint tokenize (fuel : nat) (s : list Z) : outcome (list token) :=
  match fuel with
  | O => NoFuel
  | S f =>
      match consume_token s with
      | None => Bad
      | Some (Eof, _) => Val []
      | Some (t, r) => match tokenize f r with
                       | Val ts => Val (t :: ts)
                       | Bad => Bad
                       | NoFuel => NoFuel
                       end
      end
  end.
