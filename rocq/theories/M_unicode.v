(** Model of the UTF code point conversions.
    Source: include/wordring/whatwg/infra/unicode.hpp.
    Code units and code points are integers. [None] is a failed [assert]. Definitions only. *)
From Coq Require Import ZArith List Bool.
Import ListNotations.
Open Scope Z_scope.

(** unicode.hpp:39-80 (char) and 82-123 (char8_t): the unit is cast to unsigned char. *)
Definition utf8_to_code_point (input : list Z) : option (Z * list Z) :=
  match input with
  | [] => None
  | u1 :: r1 =>
      let ch1 := u1 mod 256 in
      if Z.land ch1 0x80 =? 0 then Some (ch1, r1)
      else
        match r1 with
        | [] => None
        | u2 :: r2 =>
            let ch2 := u2 mod 256 in
            if negb (Z.land ch2 0xC0 =? 0x80) then None
            else if Z.land ch1 0xE0 =? 0xC0
            then Some (Z.shiftl (Z.land ch1 0x1F) 6 + Z.land ch2 0x3F, r2)
            else
              match r2 with
              | [] => None
              | u3 :: r3 =>
                  let ch3 := u3 mod 256 in
                  if negb (Z.land ch3 0xC0 =? 0x80) then None
                  else if Z.land ch1 0xF0 =? 0xE0
                  then Some (Z.shiftl (Z.land ch1 0xF) 12 + Z.shiftl (Z.land ch2 0x3F) 6 + Z.land ch3 0x3F, r3)
                  else
                    match r3 with
                    | [] => None
                    | u4 :: r4 =>
                        let ch4 := u4 mod 256 in
                        if negb (Z.land ch4 0xC0 =? 0x80) then None
                        else if Z.land ch1 0xF8 =? 0xF0
                        then Some (Z.shiftl (Z.land ch1 0x7) 18 + Z.shiftl (Z.land ch2 0x3F) 12
                                   + Z.shiftl (Z.land ch3 0x3F) 6 + Z.land ch4 0x3F, r4)
                        else None
                    end
              end
        end
  end.

(** unicode.hpp:125-142 (char16_t) *)
Definition utf16_to_code_point (input : list Z) : option (Z * list Z) :=
  match input with
  | [] => None
  | u1 :: r1 =>
      let ch1 := u1 mod 65536 in
      if negb (Z.land ch1 0xFC00 =? 0xD800) then Some (ch1, r1)
      else
        match r1 with
        | [] => None
        | u2 :: r2 =>
            let ch2 := u2 mod 65536 in
            if negb (Z.land ch2 0xFC00 =? 0xDC00) then None
            else Some (0x10000 + (ch1 - 0xD800) * 0x400 + (ch2 - 0xDC00), r2)
        end
  end.

(** unicode.hpp:144-151 (char32_t) *)
Definition utf32_to_code_point (input : list Z) : option (Z * list Z) :=
  match input with
  | [] => None
  | u1 :: r1 => Some (u1 mod 2 ^ 32, r1)
  end.

(** unicode.hpp:174-203 (char) and 205-234 (char8_t); the casts to unsigned char reduce modulo 256. *)
Definition utf8_to_string (ch : Z) : option (list Z) :=
  if Z.land ch 0xFFFFFF80 =? 0 then Some [ch mod 256]
  else if Z.land ch 0xFFFFF800 =? 0 then
    Some [(0xC0 + Z.shiftr ch 6) mod 256; (0x80 + Z.land ch 0x3F) mod 256]
  else if Z.land ch 0xFFFF0000 =? 0 then
    Some [(0xE0 + Z.shiftr ch 12) mod 256; (0x80 + Z.shiftr (Z.land ch 0xFC0) 6) mod 256;
          (0x80 + Z.land ch 0x3F) mod 256]
  else if Z.land ch 0xFFE00000 =? 0 then
    Some [(0xF0 + Z.shiftr ch 18) mod 256; (0x80 + Z.shiftr (Z.land ch 0x3F000) 12) mod 256;
          (0x80 + Z.shiftr (Z.land ch 0xFC0) 6) mod 256; (0x80 + Z.land ch 0x3F) mod 256]
  else None.

(** unicode.hpp:236-252 (char16_t) *)
Definition utf16_to_string (ch : Z) : option (list Z) :=
  if Z.land ch 0xFFFF0000 =? 0 then Some [ch mod 65536]
  else if Z.land ch 0xFFE00000 =? 0 then
    Some [((ch - 0x10000) / 0x400 + 0xD800) mod 65536; ((ch - 0x10000) mod 0x400 + 0xDC00) mod 65536]
  else None.

(** unicode.hpp:254-261 (char32_t) *)
Definition utf32_to_string (ch : Z) : option (list Z) := Some [ch].

(** The overload set selected by a character type: reading, writing, and the number of unit values. *)
Record codec := Codec {
  c_dec : list Z -> option (Z * list Z);
  c_enc : Z -> option (list Z);
  c_unit : Z }.

Definition utf8 : codec := Codec utf8_to_code_point utf8_to_string 256.
Definition utf16 : codec := Codec utf16_to_code_point utf16_to_string 65536.
Definition utf32 : codec := Codec utf32_to_code_point utf32_to_string (2 ^ 32).

(** The loop shape used throughout:
    [while (first != last) { first = to_code_point(first, last, cp); body }].
    [fuel] bounds the iterations; [None] covers failed asserts and exhausted fuel
    (exhaustion does not happen with fuel = length of the input, L_unicode.cp_fold_enc). *)
Fixpoint cp_fold {S : Type} (C : codec) (fuel : nat) (body : S -> Z -> option S) (st : S) (input : list Z)
  : option S :=
  match input with
  | [] => Some st
  | _ =>
      match fuel with
      | O => None
      | Datatypes.S f =>
          match c_dec C input with
          | None => None
          | Some (cp, rest) =>
              match body st cp with
              | None => None
              | Some st' => cp_fold C f body st' rest
              end
          end
      end
  end.

(** [to_string(cp, output)] appending to the output written so far. *)
Definition emit (D : codec) (out : list Z) (cp : Z) : option (list Z) :=
  match c_enc D cp with Some u => Some (out ++ u) | None => None end.

(** unicode.hpp:267-280 *)
Definition encoding_cast (C D : codec) (input : list Z) : option (list Z) :=
  cp_fold C (length input) (emit D) [] input.
