(** Model of the URL host parser, the basic URL parser, the URL serialiser and the URL class.
    Sources: lib/whatwg/url/host.cpp, lib/whatwg/url/url.cpp, include/wordring/whatwg/url/url.hpp, host.hpp, infra.hpp, api.hpp.
    Definitions only.
    Simplified: the error code, which is only written, is dropped; the blob entry, which is never used, is dropped; pointers into the
    input are integers (so that one position before the input, which the C++ forms and does not read, is a value); ICU's IDNA
    conversion is a function [idna] giving the ASCII form or an error; strings of the class are strings of code points. *)
From Coq Require Import String.
From Coq Require Import ZArith List Bool.
From Verif Require Import M_unicode M_infra M_percent M_ip M_encoding M_labels.
Import ListNotations.
Open Scope string_scope.
Open Scope list_scope.
Open Scope Z_scope.

Definition obind {A B} (x : outcome A) (f : A -> outcome B) : outcome B :=
  match x with Val a => f a | Bad => Bad | NoFuel => NoFuel end.
Definition of_option {A} (x : option A) : outcome A := match x with Some a => Val a | None => Bad end.
Definition eqs (a b : list Z) : bool := if list_eq_dec Z.eq_dec a b then true else false.
Definition nonempty {A} (l : list A) : bool := match l with [] => false | _ => true end.

(** * Percent-encoding (infra.hpp) *)

(** infra.hpp:277-333; the loop of lines 290-330. *)
Fixpoint pe_loop (fuel : nat) (c : coder) (set : Z -> bool) (q : queue) (output : list Z) : outcome (list Z) :=
  match fuel with
  | O => NoFuel
  | S f =>
      match encode_or_fail (S f) q c [] with
      | Bad => Bad
      | NoFuel => NoFuel
      | Val (r, q, out) =>
          let output := output ++ percent_encode_bytes set false (map (fun b => b mod 256) (from_queue out)) in
          match r with
          | Error cp => pe_loop f c set q (output ++ lit "%26%23" ++ serialize_integer cp ++ lit "%3B")
          | _ => Val output
          end
      end
  end.
Definition pe_after_encoding (fuel : nat) (name : encoding_name) (s : list Z) (set : Z -> bool) : outcome (list Z) :=
  match get_encoding_encoder name with
  | None => Bad
  | Some c => pe_loop fuel c set (to_queue s) []
  end.
(** infra.hpp:339-353 *)
Definition utf8_percent_encode (fuel : nat) (s : list Z) (set : Z -> bool) : outcome (list Z) := pe_after_encoding fuel UTF_8 s set.

(** infra.hpp:121-133 *)
Definition string_percent_decode (fuel : nat) (s : list Z) : outcome (list Z) :=
  obind (utf8_encode fuel (to_queue s) []) (fun '(_, _, _, out) => of_option (percent_decode_bytes (from_queue out))).

(** * Hosts *)

(** host.hpp:163-184 *)
Definition is_forbidden_host_code_point (cp : Z) : bool :=
  one_of [0; 0x9; 0xA; 0xD; 0x20; 0x23; 0x25; 0x2F; 0x3A; 0x3F; 0x40; 0x5B; 0x5C; 0x5D] cp.

(** host.cpp:459-511; steps 2 and 3 only write the error code. *)
Definition parse_opaque_host (fuel : nat) (s : list Z) : outcome host :=
  if existsb (fun cp => is_forbidden_host_code_point cp && negb (cp =? 0x25)) s then Val HNone
  else obind (utf8_percent_encode fuel s is_c0_control_percent_encode_set) (fun e => Val (HOpaque e)).

Section Idna.
Variable idna : list Z -> option (list Z).

(** host.cpp:104-145; the assert of line 120 is [Bad]. The error code is that of line 130. [--in.end()] of line 115 is a
    dereference of a string of at least one unit; for the string of only "[" the range would be reversed, but then the back is not "]". *)
Definition parse_domain (fuel : nat) (s : list Z) : outcome host :=
  obind (string_percent_decode fuel s) (fun bytes =>
  obind (utf8_decode_without_bom fuel (to_queue bytes) []) (fun '(_, _, _, out) =>
  match idna (from_queue out) with
  | None => Val HNone
  | Some ascii =>
      if existsb is_forbidden_host_code_point ascii then Val HNone
      else obind (of_option (parse_ipv4 ascii EcNone)) (fun '(ipv4, _) =>
           match ipv4 with
           | HNone | HIpv4 _ => Val ipv4
           | _ => Val (HDomain ascii)
           end)
  end)).
Definition parse_host (fuel : nat) (s : list Z) (isNotSpecial : bool) : outcome host :=
  match s with
  | c :: r =>
      if c =? 0x5B then
        if last s 0 =? 0x5D then obind (of_option (parse_ipv6 (removelast r) EcNone)) (fun x => Val (fst x)) else Val HNone
      else if isNotSpecial then parse_opaque_host fuel s
      else parse_domain fuel s
  | [] => if isNotSpecial then parse_opaque_host fuel s else Bad
  end.

(** host.hpp:138-151; [None] is the assert. *)
Definition host_equals (h : host) (s : list Z) : option bool :=
  match h with
  | HDomain v | HOpaque v => Some (eqs v s)
  | _ => None
  end.

(** host.cpp:513-533 *)
Definition serialize_host (h : host) : option (list Z) :=
  match h with
  | HIpv4 n => Some (serialize_ipv4 n)
  | HIpv6 a => Some ([0x5B] ++ serialize_ipv6 a ++ [0x5D])
  | HDomain s | HOpaque s => Some s
  | HEmpty => Some []
  | HNone => None
  end.

(** * URL records *)

(** url.hpp:31-43 *)
Record url := Url {
  scheme : list Z; username : list Z; password : list Z; uhost : option host; port : option Z;
  path : list (list Z); query : option (list Z); fragment : option (list Z); cannot_be_base : bool }.
Definition empty_url : url := Url [] [] [] None None [] None None false.

Definition set_scheme s u := Url s (username u) (password u) (uhost u) (port u) (path u) (query u) (fragment u) (cannot_be_base u).
Definition set_user s u := Url (scheme u) s (password u) (uhost u) (port u) (path u) (query u) (fragment u) (cannot_be_base u).
Definition set_pass s u := Url (scheme u) (username u) s (uhost u) (port u) (path u) (query u) (fragment u) (cannot_be_base u).
Definition set_host h u := Url (scheme u) (username u) (password u) h (port u) (path u) (query u) (fragment u) (cannot_be_base u).
Definition set_port n u := Url (scheme u) (username u) (password u) (uhost u) n (path u) (query u) (fragment u) (cannot_be_base u).
Definition set_path p u := Url (scheme u) (username u) (password u) (uhost u) (port u) p (query u) (fragment u) (cannot_be_base u).
Definition set_query q u := Url (scheme u) (username u) (password u) (uhost u) (port u) (path u) q (fragment u) (cannot_be_base u).
Definition set_fragment f u := Url (scheme u) (username u) (password u) (uhost u) (port u) (path u) (query u) f (cannot_be_base u).
Definition set_cannot b u := Url (scheme u) (username u) (password u) (uhost u) (port u) (path u) (query u) (fragment u) b.

(** url.cpp:14-23 *)
Definition is_special_scheme (s : list Z) : bool :=
  eqs s (lit "ftp") || eqs s (lit "file") || eqs s (lit "http") || eqs s (lit "https") || eqs s (lit "ws") || eqs s (lit "wss").
(** url.cpp:25-35 *)
Definition default_port (s : list Z) : option Z :=
  if eqs s (lit "ftp") then Some 21
  else if eqs s (lit "file") then None
  else if eqs s (lit "http") then Some 80
  else if eqs s (lit "https") then Some 443
  else if eqs s (lit "ws") then Some 80
  else if eqs s (lit "wss") then Some 443
  else None.
(** url.cpp:37-40 *)
Definition is_special (u : url) : bool := is_special_scheme (scheme u).
(** url.cpp:42-45 *)
Definition includes_credentials (u : url) : bool := nonempty (username u) || nonempty (password u).
(** url.cpp:47-53; comparing the host with the empty string asserts for addresses and the empty host (host.hpp:138-151). *)
Definition cannot_have_username_or_password_or_port (u : url) : option bool :=
  match uhost u with
  | None => Some true
  | Some h =>
      match host_equals h [] with
      | None => None
      | Some b => Some (b || cannot_be_base u || eqs (scheme u) (lit "file"))
      end
  end.
(** url.cpp:55-73 *)
Definition is_windows_drive_letter (s : list Z) : bool :=
  match s with [a; b] => is_ascii_alpha a && ((b =? 0x3A) || (b =? 0x7C)) | _ => false end.
Definition is_normalized_windows_drive_letter (s : list Z) : bool :=
  match s with [a; b] => is_ascii_alpha a && (b =? 0x3A) | _ => false end.
(** url.cpp:75-80 *)
Definition starts_with_windows_drive_letter (s : list Z) : bool :=
  match s with
  | a :: b :: r => is_windows_drive_letter [a; b] &&
      match r with [] => true | c :: _ => (c =? 0x2F) || (c =? 0x5C) || (c =? 0x3F) || (c =? 0x23) end
  | _ => false
  end.
(** url.cpp:82-89 *)
Definition shorten_urls_path (u : url) : url :=
  match path u with
  | [] => u
  | [p] => if eqs (scheme u) (lit "file") && is_normalized_windows_drive_letter p then u else set_path [] u
  | p => set_path (removelast p) u
  end.
(** url.cpp:200-203 *)
Definition is_single_dot_path_segment (s : list Z) : bool := eqs s (lit ".") || eqs s (lit "%2e") || eqs s (lit "%2E").
(** url.cpp:205-215; the case-insensitive match of two UTF-32 strings compares the lower case code points. *)
Definition ci (a b : list Z) : bool := eqs (map cp_lower a) (map cp_lower b).
Definition is_double_dot_path_segment (s : list Z) : bool :=
  eqs s (lit "..") || ci s (lit ".%2e") || ci s (lit "%2e.") || ci s (lit "%2e%2e").

(** * The basic URL parser *)

(** url.hpp:309-332 *)
Inductive pstate :=
| SchemeStart | Scheme | NoScheme | SpecialRelativeOrAuthority | PathOrAuthority | Relative | RelativeSlash
| SpecialAuthoritySlashes | SpecialAuthorityIgnoreSlashes | Authority | Host | Hostname | Port | File | FileSlash | FileHost
| PathStart | Path | CannotBeABaseUrlPath | Query | Fragment.

(** url.hpp:389-405; the base and the state override do not change. *)
Record parser := P {
  p_state : pstate; p_buffer : list Z; p_at : bool; p_brackets : bool; p_token : bool;
  p_pointer : Z; p_enc : encoding_name; p_url : url }.
Definition s_state s p := P s (p_buffer p) (p_at p) (p_brackets p) (p_token p) (p_pointer p) (p_enc p) (p_url p).
Definition s_buffer b p := P (p_state p) b (p_at p) (p_brackets p) (p_token p) (p_pointer p) (p_enc p) (p_url p).
Definition s_at b p := P (p_state p) (p_buffer p) b (p_brackets p) (p_token p) (p_pointer p) (p_enc p) (p_url p).
Definition s_brackets b p := P (p_state p) (p_buffer p) (p_at p) b (p_token p) (p_pointer p) (p_enc p) (p_url p).
Definition s_token b p := P (p_state p) (p_buffer p) (p_at p) (p_brackets p) b (p_pointer p) (p_enc p) (p_url p).
Definition s_pointer n p := P (p_state p) (p_buffer p) (p_at p) (p_brackets p) (p_token p) n (p_enc p) (p_url p).
Definition s_enc e p := P (p_state p) (p_buffer p) (p_at p) (p_brackets p) (p_token p) (p_pointer p) e (p_url p).
Definition s_url u p := P (p_state p) (p_buffer p) (p_at p) (p_brackets p) (p_token p) (p_pointer p) (p_enc p) u.
Definition on_url (f : url -> url) (p : parser) : parser := s_url (f (p_url p)) p.
Definition move (d : Z) (p : parser) : parser := s_pointer (p_pointer p + d) p.
Definition push (s : list Z) (p : parser) : parser := s_buffer (p_buffer p ++ s) p.

(** url.hpp:334-339; Failure and Return both end the run with no value, and leave the record as it is. *)
Inductive verdict := Failure (u : url) | Return (u : url) | Go (p : parser).

Section Parser.
Variable input : list Z.
Variable base : option url.
Variable over : option pstate.
Variable fuel : nat.

Definition size : Z := Z.of_nat (List.length input).
Definition overridden : bool := match over with Some _ => true | None => false end.
(** [*(pointer + k)]: undefined outside the input *)
Definition at_ (p : parser) (k : Z) : outcome Z :=
  let i := p_pointer p + k in
  if i <? 0 then Bad else of_option (nth_error input (Z.to_nat i)).
(** std::distance(pointer, m_input.data() + m_input.size()) *)
Definition left_ (p : parser) : Z := size - p_pointer p.
Definition rest_ (p : parser) : list Z := skipn (Z.to_nat (p_pointer p)) input.
Definition go (s : pstate) (p : parser) : outcome verdict := Val (Go (s_state s p)).
Definition fail (p : parser) : outcome verdict := Val (Failure (p_url p)).
Definition ret (p : parser) : outcome verdict := Val (Return (p_url p)).
Definition stay (p : parser) : outcome verdict := Val (Go p).
(** end of the input is the code point LF, which the constructor has removed (url.hpp:343) *)
Definition EOF : Z := 0xA.
(** m_base-> *)
Definition with_base (f : url -> outcome verdict) : outcome verdict := match base with Some b => f b | None => Bad end.

(** url.cpp:444-466 *)
Definition on_scheme_start (p : parser) (c : Z) : outcome verdict :=
  if is_ascii_alpha c then go Scheme (push [cp_lower c] p)
  else if negb overridden then go NoScheme (move (-1) p)
  else fail p.

(** url.cpp:468-545 *)
Definition on_scheme (p : parser) (c : Z) : outcome verdict :=
  let u := p_url p in
  let b := p_buffer p in
  if is_ascii_alphanumeric c || (c =? 0x2B) || (c =? 0x2D) || (c =? 0x2E) then stay (push [cp_lower c] p)
  else if c =? 0x3A then
    if overridden && is_special_scheme (scheme u) && negb (is_special_scheme b) then ret p
    else if overridden && negb (is_special_scheme (scheme u)) && is_special_scheme b then ret p
    else if overridden && (includes_credentials u || match port u with Some _ => true | None => false end) && eqs b (lit "file") then ret p
    else
      let step4 :=
        if overridden && eqs (scheme u) (lit "file") then
          match uhost u with None => Bad | Some HEmpty => Val true | Some _ => Val false end
        else Val false in
      obind step4 (fun stop =>
      if stop then ret p
      else
        let u := set_scheme b u in
        if overridden then
          let u := match port u, default_port (scheme u) with
                   | Some n, Some d => if n =? d then set_port None u else u
                   | _, _ => u
                   end in
          ret (s_url u p)
        else
          let p := s_buffer [] (s_url u p) in
          if eqs (scheme u) (lit "file") then
            obind (if left_ p <? 3 then Val 0 else obind (at_ p 1) (fun a => if a =? 0x2F then at_ p 2 else Val 0)) (fun _ => go File p)
          else if is_special u && match base with Some v => eqs (scheme v) (scheme u) | None => false end then go SpecialRelativeOrAuthority p
          else if is_special u then go SpecialAuthoritySlashes p
          else
            obind (if 2 <? left_ p then at_ p 1 else Val 0) (fun a =>
            if a =? 0x2F then go PathOrAuthority (move 1 p)
            else go CannotBeABaseUrlPath (on_url (fun u => set_path (path u ++ [[]]) (set_cannot true u)) p)))
  else if negb overridden then go NoScheme (s_pointer (-1) (s_buffer [] p))
  else fail p.

(** url.cpp:547-579 *)
Definition on_no_scheme (p : parser) (c : Z) : outcome verdict :=
  match base with
  | None => fail p
  | Some b =>
      if cannot_be_base b && negb (c =? 0x23) then fail p
      else if cannot_be_base b then
        go Fragment (on_url (fun u => set_cannot true (set_fragment (Some []) (set_query (query b) (set_path (path b) (set_scheme (scheme b) u))))) p)
      else if negb (eqs (scheme b) (lit "file")) then go Relative (move (-1) p)
      else go File (move (-1) p)
  end.

(** url.cpp:581-598 *)
Definition on_special_relative_or_authority (p : parser) (c : Z) : outcome verdict :=
  obind (if (c =? 0x2F) && (2 <=? left_ p) then at_ p 1 else Val 0) (fun a =>
  if a =? 0x2F then go SpecialAuthorityIgnoreSlashes (move 1 p) else go Relative (move (-1) p)).

(** url.cpp:600-612 *)
Definition on_path_or_authority (p : parser) (c : Z) : outcome verdict :=
  if c =? 0x2F then go Authority p else go Path (move (-1) p).

(** url.cpp:614-662 *)
Definition on_relative (p : parser) (c : Z) : outcome verdict :=
  with_base (fun b =>
  let p := on_url (set_scheme (scheme b)) p in
  if c =? 0x2F then go RelativeSlash p
  else if is_special (p_url p) && (c =? 0x5C) then go RelativeSlash p
  else
    let p := on_url (fun u => set_query (query b) (set_path (path b) (set_port (port b) (set_host (uhost b)
                              (set_pass (password b) (set_user (username b) u)))))) p in
    if c =? 0x3F then go Query (on_url (set_query (Some [])) p)
    else if c =? 0x23 then go Fragment (on_url (set_fragment (Some [])) p)
    else if negb (c =? EOF) then go Path (move (-1) (on_url (fun u => set_path (removelast (path u)) (set_query None u)) p))
    else stay p).

(** url.cpp:664-688 *)
Definition on_relative_slash (p : parser) (c : Z) : outcome verdict :=
  if is_special (p_url p) && ((c =? 0x2F) || (c =? 0x5C)) then go SpecialAuthorityIgnoreSlashes p
  else if c =? 0x2F then go Authority p
  else with_base (fun b => go Path (move (-1) (on_url (fun u => set_port (port b) (set_host (uhost b) (set_pass (password b) (set_user (username b) u)))) p))).

(** url.cpp:690-707 *)
Definition on_special_authority_slashes (p : parser) (c : Z) : outcome verdict :=
  obind (if (c =? 0x2F) && (2 <=? left_ p) then at_ p 1 else Val 0) (fun a =>
  if a =? 0x2F then go SpecialAuthorityIgnoreSlashes (move 1 p) else go SpecialAuthorityIgnoreSlashes (move (-1) p)).

(** url.cpp:709-721 *)
Definition on_special_authority_ignore_slashes (p : parser) (c : Z) : outcome verdict :=
  if negb ((c =? 0x2F) || (c =? 0x5C)) then go Authority (move (-1) p) else stay p.

(** url.cpp:739-753 *)
Fixpoint credentials (l : list Z) (token : bool) (u : url) : outcome (bool * url) :=
  match l with
  | [] => Val (token, u)
  | cp :: r =>
      if (cp =? 0x3A) && negb token then credentials r true u
      else
        obind (utf8_percent_encode fuel [cp] is_userinfo_percent_encode_set) (fun e =>
        credentials r token (if token then set_pass (password u ++ e) u else set_user (username u ++ e) u))
  end.
Definition ends_authority (u : url) (c : Z) : bool :=
  (c =? EOF) || (c =? 0x2F) || (c =? 0x3F) || (c =? 0x23) || (is_special u && (c =? 0x5C)).

(** url.cpp:723-779 *)
Definition on_authority (p : parser) (c : Z) : outcome verdict :=
  if c =? 0x40 then
    let b := if p_at p then lit "%40" ++ p_buffer p else p_buffer p in
    obind (credentials b (p_token p) (p_url p)) (fun '(token, u) =>
    stay (s_buffer [] (s_token token (s_at true (s_url u p)))))
  else if ends_authority (p_url p) c then
    if p_at p && negb (nonempty (p_buffer p)) then fail p
    else go Host (s_buffer [] (move (- (Z.of_nat (List.length (p_buffer p)) + 1)) p))
  else stay (push [c] p).

(** url.cpp:786-854; on_host_state (781-784) calls it. Step 1 has no else: the same code point is then handled here and, as the
    pointer was moved back, again in the file host state. *)
Definition on_hostname (p : parser) (c : Z) : outcome verdict :=
  let p := if overridden && eqs (scheme (p_url p)) (lit "file") then s_state FileHost (move (-1) p) else p in
  let u := p_url p in
  if (c =? 0x3A) && negb (p_brackets p) then
    if negb (nonempty (p_buffer p)) then fail p
    else
      obind (parse_host fuel (p_buffer p) (negb (is_special u))) (fun h =>
      match h with
      | HNone => fail p
      | _ =>
          let p := s_buffer [] (on_url (set_host (Some h)) p) in
          if match over with Some Hostname => true | _ => false end then ret p else go Port p
      end)
  else if ends_authority u c then
    let p := move (-1) p in
    if is_special u && negb (nonempty (p_buffer p)) then fail p
    else if overridden && negb (nonempty (p_buffer p)) && (includes_credentials u || match port u with Some _ => true | None => false end) then ret p
    else
      obind (parse_host fuel (p_buffer p) (negb (is_special u))) (fun h =>
      match h with
      | HNone => fail p
      | _ =>
          let p := s_buffer [] (on_url (set_host (Some h)) p) in
          if overridden then ret p else go PathStart p
      end)
  else
    let p := if c =? 0x5B then s_brackets true p else p in
    let p := if c =? 0x5D then s_brackets false p else p in
    stay (push [c] p).

(** url.cpp:868-869: std::uint32_t arithmetic *)
Definition port_value (b : list Z) : Z := fold_left (fun n cp => (n * 10 + (cp - 0x30)) mod 2 ^ 32) b 0.
(** url.cpp:856-896 *)
Definition on_port (p : parser) (c : Z) : outcome verdict :=
  if is_ascii_digit c then stay (push [c] p)
  else if ends_authority (p_url p) c || overridden then
    let store :=
      if nonempty (p_buffer p) then
        let n := port_value (p_buffer p) in
        if (5 <? Z.of_nat (List.length (p_buffer p))) || (0xFFFF <=? n) then None
        else
          let keep := match default_port (scheme (p_url p)) with Some d => if n =? d then None else Some n | None => Some n end in
          Some (s_buffer [] (on_url (set_port keep) p))
      else Some p in
    match store with
    | None => fail p
    | Some p => if overridden then ret p else go PathStart (move (-1) p)
    end
  else fail p.

(** url.cpp:898-955 *)
Definition on_file (p : parser) (c : Z) : outcome verdict :=
  let p := on_url (fun u => set_host (Some HEmpty) (set_scheme (lit "file") u)) p in
  let other := go Path (move (-1) p) in
  if (c =? 0x2F) || (c =? 0x5C) then go FileSlash p
  else
    match base with
    | Some b =>
        if eqs (scheme b) (lit "file") then
          let p := on_url (fun u => set_query (query b) (set_path (path b) (set_host (uhost b) u))) p in
          if c =? 0x3F then go Query (on_url (set_query (Some [])) p)
          else if c =? 0x23 then go Fragment (on_url (set_fragment (Some [])) p)
          else if negb (c =? EOF) then
            let p := on_url (set_query None) p in
            let p := on_url (fun u => if starts_with_windows_drive_letter (rest_ p) then set_path [] u else shorten_urls_path u) p in
            go Path (move (-1) p)
          else stay p
        else other
    | None => other
    end.

(** url.cpp:957-986 *)
Definition on_file_slash (p : parser) (c : Z) : outcome verdict :=
  if (c =? 0x2F) || (c =? 0x5C) then go FileHost p
  else
    let p :=
      match base with
      | Some b =>
          if eqs (scheme b) (lit "file") then
            on_url (fun u =>
              let u := set_host (uhost b) u in
              match path b with
              | d :: _ =>
                  if negb (starts_with_windows_drive_letter (rest_ p)) && is_normalized_windows_drive_letter d then set_path (path u ++ [d]) u else u
              | [] => u
              end) p
          else p
      | None => p
      end in
    go Path (move (-1) p).

(** url.cpp:988-1034; the comparison of line 1020 asserts for addresses (host.hpp:138-151). *)
Definition on_file_host (p : parser) (c : Z) : outcome verdict :=
  if (c =? EOF) || (c =? 0x2F) || (c =? 0x5C) || (c =? 0x3F) || (c =? 0x23) then
    let p := move (-1) p in
    if negb overridden && is_windows_drive_letter (p_buffer p) then go Path p
    else if negb (nonempty (p_buffer p)) then
      let p := on_url (set_host (Some HEmpty)) p in
      if overridden then ret p else go PathStart p
    else
      obind (parse_host fuel (p_buffer p) (negb (is_special (p_url p)))) (fun h =>
      match h with
      | HNone => fail p
      | _ =>
          obind (of_option (host_equals h (lit "localhost"))) (fun l =>
          let p := on_url (set_host (Some (if l then HEmpty else h))) p in
          if overridden then ret p else go PathStart (s_buffer [] p))
      end)
  else stay (push [c] p).

(** url.cpp:1036-1071 *)
Definition on_path_start (p : parser) (c : Z) : outcome verdict :=
  if is_special (p_url p) then
    go Path (if (c =? 0x2F) || (c =? 0x5C) then p else move (-1) p)
  else if negb overridden && (c =? 0x3F) then go Query (on_url (set_query (Some [])) p)
  else if negb overridden && (c =? 0x23) then go Fragment (on_url (set_fragment (Some [])) p)
  else if negb (c =? EOF) then go Path (if c =? 0x2F then p else move (-1) p)
  else stay p.

(** url.cpp:1073-1135 *)
Definition on_path (p : parser) (c : Z) : outcome verdict :=
  let u := p_url p in
  let b := p_buffer p in
  if (c =? EOF) || (c =? 0x2F) || (is_special u && (c =? 0x5C)) || (negb overridden && ((c =? 0x3F) || (c =? 0x23))) then
    let slash := (c =? 0x2F) || (is_special u && (c =? 0x5C)) in
    let add s u := set_path (path u ++ [s]) u in
    let u :=
      if is_double_dot_path_segment b then let u := shorten_urls_path u in if slash then u else add [] u
      else if is_single_dot_path_segment b then if slash then u else add [] u
      else
        let b := if eqs (scheme u) (lit "file") && negb (nonempty (path u)) && is_windows_drive_letter b then firstn 1 b ++ [0x3A] else b in
        add b u in
    let p := s_buffer [] (s_url u p) in
    let p := if c =? 0x3F then s_state Query (on_url (set_query (Some [])) p) else p in
    let p := if c =? 0x23 then s_state Fragment (on_url (set_fragment (Some [])) p) else p in
    stay p
  else
    obind (if (c =? 0x25) && (2 <=? left_ p) then at_ p 1 else Val 0) (fun _ =>
    obind (utf8_percent_encode fuel [c] is_path_percent_encode_set) (fun e => stay (push e p))).

(** The reads of the percent checks of url.cpp:1157, 1197, 1216. *)
Definition percent_check (p : parser) (c : Z) : outcome unit :=
  if (c =? 0x25) && (3 <=? left_ p) then obind (at_ p 1) (fun a => if is_ascii_hex_digit a then obind (at_ p 2) (fun _ => Val tt) else Val tt)
  else Val tt.

(** url.cpp:1137-1166 *)
Definition on_cannot_be_a_base_url_path (p : parser) (c : Z) : outcome verdict :=
  if c =? 0x3F then go Query (on_url (set_query (Some [])) p)
  else if c =? 0x23 then go Fragment (on_url (set_fragment (Some [])) p)
  else
    obind (percent_check p c) (fun _ =>
    if negb (c =? EOF) then
      match path (p_url p) with
      | [] => Bad
      | s :: r => obind (utf8_percent_encode fuel [c] is_c0_control_percent_encode_set) (fun e => stay (on_url (set_path ((s ++ e) :: r)) p))
      end
    else stay p).

(** url.cpp:1168-1206; [m_query->] of an empty optional is undefined. *)
Definition on_query (p : parser) (c : Z) : outcome verdict :=
  let u := p_url p in
  let p := match p_enc p with
           | UTF_8 => p
           | _ => if negb (is_special u) || eqs (scheme u) (lit "ws") || eqs (scheme u) (lit "wss") then s_enc UTF_8 p else p
           end in
  if (negb overridden && (c =? 0x23)) || (c =? EOF) then
    let set := if is_special u then is_special_query_percent_encode_set else is_query_percent_encode_set in
    match query u with
    | None => Bad
    | Some q =>
        obind (pe_after_encoding fuel (p_enc p) (p_buffer p) set) (fun e =>
        let p := s_buffer [] (on_url (set_query (Some (q ++ e))) p) in
        if c =? 0x23 then go Fragment (on_url (set_fragment (Some [])) p) else stay p)
    end
  else obind (percent_check p c) (fun _ => stay (push [c] p)).

(** url.cpp:1208-1225 *)
Definition on_fragment (p : parser) (c : Z) : outcome verdict :=
  if negb (c =? EOF) then
    obind (percent_check p c) (fun _ =>
    match fragment (p_url p) with
    | None => Bad
    | Some f => obind (utf8_percent_encode fuel [c] is_fragment_percent_encode_set) (fun e => stay (on_url (set_fragment (Some (f ++ e))) p))
    end)
  else stay p.

(** url.cpp:358-425 *)
Definition current (p : parser) : Z :=
  if (0 <=? p_pointer p) && (p_pointer p <? size) then nth (Z.to_nat (p_pointer p)) input EOF else EOF.
Definition handle (p : parser) : outcome verdict :=
  let c := current p in
  match p_state p with
  | SchemeStart => on_scheme_start p c
  | Scheme => on_scheme p c
  | NoScheme => on_no_scheme p c
  | SpecialRelativeOrAuthority => on_special_relative_or_authority p c
  | PathOrAuthority => on_path_or_authority p c
  | Relative => on_relative p c
  | RelativeSlash => on_relative_slash p c
  | SpecialAuthoritySlashes => on_special_authority_slashes p c
  | SpecialAuthorityIgnoreSlashes => on_special_authority_ignore_slashes p c
  | Authority => on_authority p c
  | Host | Hostname => on_hostname p c
  | Port => on_port p c
  | File => on_file p c
  | FileSlash => on_file_slash p c
  | FileHost => on_file_host p c
  | PathStart => on_path_start p c
  | Path => on_path p c
  | CannotBeABaseUrlPath => on_cannot_be_a_base_url_path p c
  | Query => on_query p c
  | Fragment => on_fragment p c
  end.

(** url.cpp:353-442. The result is whether the run returns a value, and the record as it is left. *)
Fixpoint run_loop (steps : nat) (p : parser) : outcome (bool * url) :=
  match steps with
  | O => NoFuel
  | S steps =>
      obind (handle p) (fun v =>
      match v with
      | Failure u | Return u => Val (false, u)
      | Go p => if p_pointer p <? size then run_loop steps (move 1 p) else Val (true, p_url p)
      end)
  end.
End Parser.

(** url.cpp:307-331 *)
Fixpoint drop_while (f : Z -> bool) (s : list Z) : list Z :=
  match s with [] => [] | c :: r => if f c then drop_while f r else s end.
Definition trim (s : list Z) : list Z := rev (drop_while is_c0_control_or_space (rev (drop_while is_c0_control_or_space s))).
(** url.cpp:332-339 *)
Definition without_newlines (s : list Z) : list Z := filter (fun c => negb (is_ascii_tab_or_newline c)) s.

(** url.cpp:292-351 with the run: a new record, or the record [u] with a state to start from *)
Definition start (s : option pstate) (e : encoding_name) (u : url) : parser :=
  P (match s with Some x => x | None => SchemeStart end) [] false false false 0 (get_output_encoding_name e) u.
Definition basic_parse (fuel steps : nat) (s : list Z) (base : option url) (e : encoding_name) : outcome (option url) :=
  let input := without_newlines (trim s) in
  obind (run_loop input base None fuel steps (start None e empty_url)) (fun '(ok, u) => Val (if ok then Some u else None)).
Definition modify (fuel steps : nat) (s : list Z) (u : url) (o : pstate) : outcome url :=
  let input := without_newlines s in
  obind (run_loop input None (Some o) fuel steps (start (Some o) UTF_8 u)) (fun '(_, u) => Val u).

(** url.cpp:272-289 *)
Definition parse_url := basic_parse.

(** * Serialising *)

(** url.cpp:1243-1306 *)
Definition serialize_url (u : url) (exclude_fragment : bool) : option (list Z) :=
  let front :=
    match uhost u with
    | Some h =>
        match serialize_host h with
        | None => None
        | Some s =>
            Some (lit "//" ++
              (if includes_credentials u then username u ++ (if nonempty (password u) then [0x3A] ++ password u else []) ++ [0x40] else []) ++ s ++
              match port u with Some n => [0x3A] ++ serialize_integer n | None => [] end)
        end
    | None => Some []
    end in
  let middle :=
    if cannot_be_base u then match path u with [] => None | s :: _ => Some s end
    else Some ((match uhost u, path u with None, [] :: _ :: _ => lit "/." | _, _ => [] end) ++ flat_map (fun s => 0x2F :: s) (path u)) in
  match front, middle with
  | Some a, Some b =>
      Some (scheme u ++ [0x3A] ++ a ++ b ++
        match query u with Some q => [0x3F] ++ q | None => [] end ++
        match fragment u with Some f => if exclude_fragment then [] else [0x23] ++ f | None => [] end)
  | _, _ => None
  end.

(** url.cpp:1314-1317 *)
Definition url_equals (a b : url) (exclude : bool) : option bool :=
  match serialize_url a exclude, serialize_url b exclude with
  | Some x, Some y => Some (eqs x y)
  | _, _ => None
  end.

(** * The class (api.hpp) *)

(** api.hpp:33-61, 68-76; the inner [None] is the exception. *)
Definition new_url (fuel steps : nat) (s : list Z) (base : option (list Z)) : outcome (option url) :=
  match base with
  | None => basic_parse fuel steps s None UTF_8
  | Some b =>
      obind (basic_parse fuel steps b None UTF_8) (fun v =>
      match v with
      | None => Val None
      | Some u => basic_parse fuel steps s (Some u) UTF_8
      end)
  end.
(** api.hpp:129-136 *)
Definition set_protocol (fuel steps : nat) (u : url) (s : list Z) : outcome url := modify fuel steps (s ++ [0x3A]) u SchemeStart.
(** api.hpp:148-153, url.cpp:1227-1230 *)
Definition set_username (fuel : nat) (u : url) (s : list Z) : outcome url :=
  obind (of_option (cannot_have_username_or_password_or_port u)) (fun b =>
  if b then Val u else obind (utf8_percent_encode fuel s is_userinfo_percent_encode_set) (fun e => Val (set_user e u))).
(** api.hpp:165-170, url.cpp:1232-1235 *)
Definition set_password (fuel : nat) (u : url) (s : list Z) : outcome url :=
  obind (of_option (cannot_have_username_or_password_or_port u)) (fun b =>
  if b then Val u else obind (utf8_percent_encode fuel s is_userinfo_percent_encode_set) (fun e => Val (set_pass e u))).
(** api.hpp:176-186 *)
Definition get_host (u : url) : option (list Z) :=
  match uhost u with
  | None => Some []
  | Some h =>
      match serialize_host h with
      | None => None
      | Some s => Some (s ++ match port u with Some n => [0x3A] ++ serialize_integer n | None => [] end)
      end
  end.
(** api.hpp:192-199 *)
Definition set_host_ (fuel steps : nat) (u : url) (s : list Z) : outcome url := if cannot_be_base u then Val u else modify fuel steps s u Host.
(** api.hpp:205-209 *)
Definition get_hostname (u : url) : option (list Z) := match uhost u with None => Some [] | Some h => serialize_host h end.
(** api.hpp:215-222 *)
Definition set_hostname (fuel steps : nat) (u : url) (s : list Z) : outcome url := if cannot_be_base u then Val u else modify fuel steps s u Hostname.
(** api.hpp:228-234 *)
Definition get_port (u : url) : list Z := match port u with None => [] | Some n => serialize_integer n end.
(** api.hpp:240-251 *)
Definition set_port_ (fuel steps : nat) (u : url) (s : list Z) : outcome url :=
  obind (of_option (cannot_have_username_or_password_or_port u)) (fun b =>
  if b then Val u else match s with [] => Val (set_port None u) | _ => modify fuel steps s u Port end).
(** api.hpp:257-267 *)
Definition get_pathname (u : url) : option (list Z) :=
  if cannot_be_base u then match path u with [] => None | s :: _ => Some s end else Some (flat_map (fun s => 0x2F :: s) (path u)).
(** api.hpp:273-281 *)
Definition set_pathname (fuel steps : nat) (u : url) (s : list Z) : outcome url :=
  if cannot_be_base u then Val u else modify fuel steps s (set_path [] u) PathStart.
(** api.hpp:287-294 *)
Definition get_search (u : url) : list Z := match query u with None | Some [] => [] | Some q => 0x3F :: q end.
(** api.hpp:300-313 *)
Definition set_search (fuel steps : nat) (u : url) (s : list Z) : outcome url :=
  match s with
  | [] => Val (set_query None u)
  | c :: r => modify fuel steps (if c =? 0x3F then r else s) (set_query (Some []) u) Query
  end.
(** api.hpp:319-326 *)
Definition get_hash (u : url) : list Z := match fragment u with None | Some [] => [] | Some f => 0x23 :: f end.
(** api.hpp:332-346 *)
Definition set_hash (fuel steps : nat) (u : url) (s : list Z) : outcome url :=
  match s with
  | [] => Val (set_fragment None u)
  | c :: r => modify fuel steps (if c =? 0x23 then r else s) (set_fragment (Some []) u) Fragment
  end.
End Idna.
