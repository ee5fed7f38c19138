(** Models of std::to_chars / std::from_chars for unsigned integers and of the percent-encoding layer.
    Source: include/wordring/whatwg/url/infra.hpp. Definitions only. *)
From Coq Require Import ZArith List Bool.
From Verif Require Import M_unicode M_infra.
Import ListNotations.
Open Scope Z_scope.

(** [charconv] (C++ standard 20.19): the character of one digit (lower case) and the value of a character. *)
Definition digit_char (d : Z) : Z := if d <? 10 then 0x30 + d else 0x61 + (d - 10).
Definition digit_val (c : Z) : option Z :=
  if (0x30 <=? c) && (c <=? 0x39) then Some (c - 0x30)
  else if (0x61 <=? c) && (c <=? 0x7A) then Some (c - 0x61 + 10)
  else if (0x41 <=? c) && (c <=? 0x5A) then Some (c - 0x41 + 10)
  else None.

(** std::to_chars(first, last, n, base): shortest digit string; the buffer is always large enough at the
    call sites (infra.hpp:39, 82; host.cpp:546, 603). *)
Fixpoint to_chars_loop (fuel : nat) (base n : Z) (acc : list Z) : list Z :=
  match fuel with
  | O => acc
  | S f =>
      let acc' := digit_char (n mod base) :: acc in
      if n <? base then acc' else to_chars_loop f base (n / base) acc'
  end.
Definition to_chars (base n : Z) : list Z := to_chars_loop (S (Z.to_nat (Z.log2 n))) base n [].

(** The maximal digit prefix consumed by std::from_chars, as (value, digits seen). *)
Fixpoint digits_prefix (base : Z) (s : list Z) (v : Z) (n : nat) : Z * nat :=
  match s with
  | [] => (v, n)
  | c :: r =>
      match digit_val c with
      | Some d => if d <? base then digits_prefix base r (v * base + d) (S n) else (v, n)
      | None => (v, n)
      end
  end.
(** std::from_chars(first, last, out, base) on an unsigned type with maximum [maxv]: [None] when [out] is
    left unmodified (no digits, or result out of range). *)
Definition from_chars (base maxv : Z) (s : list Z) : option Z :=
  let '(v, n) := digits_prefix base s 0 O in
  match n with
  | O => None
  | _ => if v <=? maxv then Some v else None
  end.

(** infra.hpp:36-42 *)
Definition serialize_integer (cp : Z) : list Z := to_chars 10 cp.

(** infra.hpp:56-61 *)
Definition starts_with_percent_encoded_byte (s : list Z) : bool :=
  match s with
  | a :: b :: c :: _ => (a =? 0x25) && is_ascii_hex_digit b && is_ascii_hex_digit c
  | _ => false
  end.

(** infra.hpp:79-86. to_chars writes one or two digits; one digit is swapped behind the '0'. *)
Definition percent_encode (byte : Z) : list Z :=
  map cp_upper (0x25 :: match to_chars 16 byte with [d] => [0x30; d] | ds => ds end).

(** infra.hpp:95-113. [static_cast<unsigned char>] and the one-byte input make every unit a byte;
    from_chars cannot fail here, its result type is uint8_t. *)
Fixpoint percent_decode (fuel : nat) (s : list Z) : option (list Z) :=
  match s with
  | [] => Some []
  | a :: r =>
      match fuel with
      | O => None
      | S f =>
          if starts_with_percent_encoded_byte s then
            match s with
            | _ :: b :: c :: r' =>
                match from_chars 16 255 [b; c], percent_decode f r' with
                | Some v, Some out => Some (v :: out)
                | _, _ => None
                end
            | _ => None
            end
          else match percent_decode f r with Some out => Some (a :: out) | None => None end
      end
  end.
Definition percent_decode_bytes (s : list Z) : option (list Z) := percent_decode (length s) s.

(** infra.hpp:139-270 *)
Definition is_c0_control_percent_encode_set (cp : Z) : bool := is_c0_control cp || (0x7E <? cp).
Definition one_of (l : list Z) (cp : Z) : bool := existsb (Z.eqb cp) l.
Definition is_fragment_percent_encode_set (cp : Z) : bool :=
  is_c0_control_percent_encode_set cp || one_of [0x20; 0x22; 0x3C; 0x3E; 0x60] cp.
Definition is_query_percent_encode_set (cp : Z) : bool :=
  is_c0_control_percent_encode_set cp || one_of [0x20; 0x22; 0x23; 0x3C; 0x3E] cp.
Definition is_special_query_percent_encode_set (cp : Z) : bool :=
  is_query_percent_encode_set cp || (cp =? 0x27).
Definition is_path_percent_encode_set (cp : Z) : bool :=
  is_fragment_percent_encode_set cp || one_of [0x23; 0x3F; 0x7B; 0x7D] cp.
Definition is_userinfo_percent_encode_set (cp : Z) : bool :=
  is_path_percent_encode_set cp || one_of [0x2F; 0x3A; 0x3B; 0x3D; 0x40; 0x5B; 0x5C; 0x5D; 0x5E; 0x7C] cp.
Definition is_component_percent_encode_set (cp : Z) : bool :=
  is_userinfo_percent_encode_set cp || one_of [0x24; 0x25; 0x26; 0x2B; 0x2C] cp.
Definition is_form_percent_encode_set (cp : Z) : bool :=
  is_component_percent_encode_set cp || one_of [0x21; 0x27; 0x28; 0x29; 0x7E] cp.

(** infra.hpp:299-319, one encoded byte *)
Definition percent_encode_byte (set : Z -> bool) (spaceAsPlus : bool) (byte : Z) : list Z :=
  if spaceAsPlus && (byte =? 0x20) then [0x2B]
  else if set byte then percent_encode byte
  else [byte].
Definition percent_encode_bytes (set : Z -> bool) (spaceAsPlus : bool) (s : list Z) : list Z :=
  flat_map (percent_encode_byte set spaceAsPlus) s.

(** infra.hpp:277-333. [encode_or_fail] is the encoder run on the remaining input: the bytes written and,
    if it stopped at an unencodable code point, that code point and the input behind it. *)
Fixpoint percent_encode_after_encoding_loop (fuel : nat)
  (encode_or_fail : list Z -> list Z * option (Z * list Z))
  (set : Z -> bool) (spaceAsPlus : bool) (input out : list Z) : option (list Z) :=
  match fuel with
  | O => None
  | S f =>
      let '(bytes, err) := encode_or_fail input in
      let out' := out ++ percent_encode_bytes set spaceAsPlus bytes in
      match err with
      | None => Some out'
      | Some (cp, rest) =>
          percent_encode_after_encoding_loop f encode_or_fail set spaceAsPlus rest
            (out' ++ [0x25; 0x32; 0x36; 0x25; 0x32; 0x33] ++ serialize_integer cp ++ [0x25; 0x33; 0x42])
      end
  end.
Definition percent_encode_after_encoding (eof : list Z -> list Z * option (Z * list Z))
  (set : Z -> bool) (spaceAsPlus : bool) (input : list Z) : option (list Z) :=
  percent_encode_after_encoding_loop (S (length input)) eof set spaceAsPlus input [].
