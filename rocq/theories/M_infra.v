(** Model of the WHATWG Infra string functions.
    Source: include/wordring/whatwg/infra/infra.hpp.
    Strings are lists of code units read through a [codec] (M_unicode); output iterators are lists that are
    appended to. [None] is a failed assert or a read outside the input. Definitions only. *)
From Coq Require Import ZArith List Bool.
From Verif Require Import M_unicode.
Import ListNotations.
Open Scope Z_scope.

(** infra.hpp:103-108 *)
Definition is_surrogate (cp : Z) : bool := (0xD800 <=? cp) && (cp <=? 0xDFFF).
(** infra.hpp:161-164 *)
Definition is_ascii_tab_or_newline (cp : Z) : bool := (cp =? 0x9) || (cp =? 0xA) || (cp =? 0xD).
(** infra.hpp:166-169 *)
Definition is_ascii_white_space (cp : Z) : bool :=
  (cp =? 0x9) || (cp =? 0xA) || (cp =? 0xC) || (cp =? 0xD) || (cp =? 0x20).
(** infra.hpp:171-179 *)
Definition is_c0_control (cp : Z) : bool := cp <=? 0x1F.
Definition is_c0_control_or_space (cp : Z) : bool := is_c0_control cp || (cp =? 0x20).
(** infra.hpp:186-224 *)
Definition is_ascii_digit (cp : Z) : bool := (0x30 <=? cp) && (cp <=? 0x39).
Definition is_ascii_upper_hex_digit (cp : Z) : bool := is_ascii_digit cp || ((0x41 <=? cp) && (cp <=? 0x46)).
Definition is_ascii_lower_hex_digit (cp : Z) : bool := is_ascii_digit cp || ((0x61 <=? cp) && (cp <=? 0x66)).
Definition is_ascii_hex_digit (cp : Z) : bool := is_ascii_upper_hex_digit cp || is_ascii_lower_hex_digit cp.
Definition is_ascii_upper_alpha (cp : Z) : bool := (0x41 <=? cp) && (cp <=? 0x5A).
Definition is_ascii_lower_alpha (cp : Z) : bool := (0x61 <=? cp) && (cp <=? 0x7A).
Definition is_ascii_alpha (cp : Z) : bool := is_ascii_upper_alpha cp || is_ascii_lower_alpha cp.
Definition is_ascii_alphanumeric (cp : Z) : bool := is_ascii_digit cp || is_ascii_alpha cp.

(** infra.hpp:41-50 and 67-76, one byte *)
Definition byte_lower (u : Z) : Z :=
  let ch := u mod 256 in if (0x41 <=? ch) && (ch <=? 0x5A) then ch + 0x20 else ch.
Definition byte_upper (u : Z) : Z :=
  let ch := u mod 256 in if (0x61 <=? ch) && (ch <=? 0x7A) then ch - 0x20 else ch.
Definition to_byte_lowercase (s : list Z) : list Z := map byte_lower s.
Definition to_byte_uppercase (s : list Z) : list Z := map byte_upper s.

(** infra.hpp:80-89 *)
Definition is_byte_case_insensitive_match (a b : list Z) : bool :=
  if list_eq_dec Z.eq_dec (to_byte_lowercase a) (to_byte_lowercase b) then true else false.

(** infra.hpp:95-99 *)
Definition isomorphic_decode (s : list Z) : list Z := map (fun u => u mod 256) s.
(** infra.hpp:228-236 *)
Fixpoint isomorphic_encode (s : list Z) : option (list Z) :=
  match s with
  | [] => Some []
  | c :: r =>
      if c <=? 0xFF then
        match isomorphic_encode r with Some v => Some (c mod 256 :: v) | None => None end
      else None
  end.

(** infra.hpp:259, 273 *)
Definition cp_lower (cp : Z) : Z := if is_ascii_upper_alpha cp then cp + 0x20 else cp.
Definition cp_upper (cp : Z) : Z := if is_ascii_lower_alpha cp then cp - 0x20 else cp.

(** infra.hpp:252-262 *)
Definition to_ascii_lowercase (C D : codec) (input : list Z) : option (list Z) :=
  cp_fold C (length input) (fun out cp => emit D out (cp_lower cp)) [] input.
(** infra.hpp:266-276 *)
Definition to_ascii_uppercase (C D : codec) (input : list Z) : option (list Z) :=
  cp_fold C (length input) (fun out cp => emit D out (cp_upper cp)) [] input.

(** infra.hpp:280-296 *)
Fixpoint ci_match (fuel : nat) (C1 C2 : codec) (a b : list Z) : option bool :=
  match a, b with
  | _ :: _, _ :: _ =>
      match fuel with
      | O => None
      | S f =>
          match c_dec C1 a, c_dec C2 b with
          | Some (cp1, r1), Some (cp2, r2) =>
              if cp_lower cp1 =? cp_lower cp2 then ci_match f C1 C2 r1 r2 else Some false
          | _, _ => None
          end
      end
  | [], [] => Some true
  | _, _ => Some false
  end.
Definition is_ascii_case_insensitive_match (C1 C2 : codec) (a b : list Z) : option bool :=
  ci_match (length a) C1 C2 a b.

(** infra.hpp:318-327 *)
Definition strip_newlines (C D : codec) (input : list Z) : option (list Z) :=
  cp_fold C (length input)
    (fun out cp => if negb (cp =? 0xA) && negb (cp =? 0xD) then emit D out cp else Some out) [] input.

(** infra.hpp:336-370. State: false = Start, true = Cr. The output is written by [*output++ = cp],
    which stores the code point reduced to the width of the output unit. *)
Definition nn_body (D : codec) (st : bool * list Z) (cp : Z) : option (bool * list Z) :=
  let '(cr, out) := st in
  if cr then
    if cp =? 0xD then Some (true, out ++ [0xA])
    else if cp =? 0xA then Some (false, out ++ [0xA])
    else Some (false, out ++ [0xA; cp mod c_unit D])
  else
    if cp =? 0xD then Some (true, out)
    else if cp =? 0xA then Some (false, out ++ [0xA])
    else Some (false, out ++ [cp mod c_unit D]).
Definition normalize_newlines (C D : codec) (input : list Z) : option (list Z) :=
  match cp_fold C (length input) (nn_body D) (false, []) input with
  | Some (_, out) => Some out
  | None => None
  end.

(** std::find_if_not on a range, as an index *)
Fixpoint find_not (f : Z -> bool) (l : list Z) : nat :=
  match l with
  | [] => 0
  | x :: r => if f x then S (find_not f r) else 0
  end.

(** infra.hpp:390  [while (left != right) to_string( *left++, output);]
    Reading at or behind tmp.end() is undefined ([None]). *)
Fixpoint strip_emit (fuel : nat) (D : codec) (tmp : list Z) (left right : nat) (out : list Z)
  : option (list Z) :=
  if Nat.eqb left right then Some out
  else
    match fuel with
    | O => None
    | S f =>
        match nth_error tmp left with
        | None => None
        | Some cp =>
            match emit D out cp with
            | None => None
            | Some out' => strip_emit f D tmp (S left) right out'
            end
        end
    end.

(** infra.hpp:374-391 *)
Definition strip_ws (C D : codec) (input : list Z) : option (list Z) :=
  match cp_fold C (length input) (fun t cp => Some (t ++ [cp])) [] input with
  | None => None
  | Some tmp =>
      let left := find_not is_ascii_white_space tmp in
      let right := (length tmp - find_not is_ascii_white_space (rev tmp))%nat in
      strip_emit (S (length tmp)) D tmp left right []
  end.

(** infra.hpp:393-431 *)
Inductive collapse_state := CStart | CLeading | CNormal | CWs.
Definition collapse_body (D : codec) (st : collapse_state * list Z) (cp : Z)
  : option (collapse_state * list Z) :=
  let '(q, out) := st in
  let normal out := match emit D out cp with Some o => Some (CNormal, o) | None => None end in
  match q with
  | CStart => if is_ascii_white_space cp then Some (CLeading, out) else normal out
  | CLeading => if is_ascii_white_space cp then Some (CLeading, out) else normal out
  | CNormal => if is_ascii_white_space cp then Some (CWs, out) else normal out
  | CWs =>
      if is_ascii_white_space cp then Some (CWs, out)
      else match emit D out 0x20 with Some o => normal o | None => None end
  end.
Definition strip_and_collapse (C D : codec) (input : list Z) : option (list Z) :=
  match cp_fold C (length input) (collapse_body D) (CStart, []) input with
  | Some (_, out) => Some out
  | None => None
  end.

(** infra.hpp:433-450; returns the collected output and the position behind it. *)
Fixpoint collect (fuel : nat) (C D : codec) (cond : Z -> bool) (input out : list Z)
  : option (list Z * list Z) :=
  match input with
  | [] => Some (out, [])
  | _ =>
      match fuel with
      | O => None
      | S f =>
          match c_dec C input with
          | None => None
          | Some (cp, rest) =>
              if cond cp then
                match emit D out cp with
                | None => None
                | Some out' => collect f C D cond rest out'
                end
              else Some (out, input)
          end
      end
  end.
Definition collect_sequence (C D : codec) (cond : Z -> bool) (input : list Z) : option (list Z * list Z) :=
  collect (length input) C D cond input [].

(** infra.hpp:452-467 *)
Fixpoint skip_ws_loop (fuel : nat) (C : codec) (input : list Z) : option (list Z) :=
  match input with
  | [] => Some []
  | _ =>
      match fuel with
      | O => None
      | S f =>
          match c_dec C input with
          | None => None
          | Some (cp, rest) => if is_ascii_white_space cp then skip_ws_loop f C rest else Some input
          end
      end
  end.
Definition skip_ws (C : codec) (input : list Z) : option (list Z) := skip_ws_loop (length input) C input.

(** infra.hpp:482-495  the loop; [++first] advances one code unit (491). *)
Fixpoint strict_loop (fuel : nat) (C : codec) (delim : Z) (input : list Z) (out : list (list Z))
  : option (list (list Z)) :=
  match input with
  | [] => Some out
  | _ :: rest =>
      match fuel with
      | O => None
      | S f =>
          match c_dec C input with
          | None => None
          | Some (cp, _) =>
              if cp =? delim then
                match collect_sequence C C (fun c => negb (c =? delim)) rest with
                | None => None
                | Some (token, rest') => strict_loop f C delim rest' (out ++ [token])
                end
              else None
          end
      end
  end.
(** infra.hpp:471-496 *)
Definition strictly_split (C : codec) (delim : Z) (input : list Z) : option (list (list Z)) :=
  match collect_sequence C C (fun c => negb (c =? delim)) input with
  | None => None
  | Some (token, rest) => strict_loop (length input) C delim rest [token]
  end.

(** infra.hpp:506-512 *)
Fixpoint split_ws_loop (fuel : nat) (C : codec) (input : list Z) (out : list (list Z))
  : option (list (list Z)) :=
  match input with
  | [] => Some out
  | _ =>
      match fuel with
      | O => None
      | S f =>
          match collect_sequence C C (fun c => negb (is_ascii_white_space c)) input with
          | None => None
          | Some (token, rest) =>
              match skip_ws C rest with
              | None => None
              | Some rest' => split_ws_loop f C rest' (out ++ [token])
              end
          end
      end
  end.
(** infra.hpp:498-513 *)
Definition split_on_ws (C : codec) (input : list Z) : option (list (list Z)) :=
  match skip_ws C input with
  | None => None
  | Some rest => split_ws_loop (length input) C rest []
  end.

(** infra.hpp:515-533 *)
Fixpoint split_commas_loop (fuel : nat) (C : codec) (input : list Z) (out : list (list Z))
  : option (list (list Z)) :=
  match input with
  | [] => Some out
  | _ =>
      match fuel with
      | O => None
      | S f =>
          match collect_sequence C C (fun c => negb (c =? 0x2C)) input with
          | None => None
          | Some (tmp1, rest) =>
              match strip_ws C C tmp1 with
              | None => None
              | Some tmp2 =>
                  match rest with
                  | [] => Some (out ++ [tmp2])
                  | u :: rest' => if u =? 0x2C then split_commas_loop f C rest' (out ++ [tmp2]) else None
                  end
              end
          end
      end
  end.
Definition split_on_commas (C : codec) (input : list Z) : option (list (list Z)) :=
  split_commas_loop (length input) C input [].
