(** Model of the IPv4 / IPv6 parsers and serialisers.
    Source: lib/whatwg/url/host.cpp, include/wordring/whatwg/url/host.hpp. Definitions only.
    The outer option of every result is [None] for undefined behaviour (uninitialised read, disengaged
    optional, failed assert, fuel exhausted). *)
From Coq Require Import ZArith List Bool.
From Verif Require Import M_unicode M_infra M_percent.
Import ListNotations.
Open Scope Z_scope.

(** url_defs.hpp error codes stored in [std::error_code& ec]; [EcNone] = ec left untouched. *)
Inductive ec := EcNone | EcValidation | EcParse | EcIdna.

(** host.hpp:84-136  the variant host_base; [HNone] is std::monostate, which means failure. *)
Inductive host := HNone | HDomain (s : list Z) | HIpv4 (n : Z) | HIpv6 (a : list Z) | HOpaque (s : list Z) | HEmpty.

Definition uint32 (n : Z) : Z := n mod 2 ^ 32.
Definition all_in (digits : list Z) (s : list Z) : bool := forallb (fun c => existsb (Z.eqb c) digits) s.

(** host.cpp:233: the three digit sets. The octal one contains '8'. *)
Definition set8 : list Z := [0x30; 0x31; 0x32; 0x33; 0x34; 0x35; 0x36; 0x37; 0x38].
Definition set10 : list Z := [0x30; 0x31; 0x32; 0x33; 0x34; 0x35; 0x36; 0x37; 0x38; 0x39].
Definition set16 : list Z := set10 ++ [0x61; 0x62; 0x63; 0x64; 0x65; 0x66; 0x41; 0x42; 0x43; 0x44; 0x45; 0x46].

(** host.cpp:209-245. Result: (number or failure, validationError). [i] is uninitialised when from_chars
    does not store: reading it is undefined. *)
Definition parse_ipv4_number (s : list Z) : option (option Z * bool) :=
  let '(ve, s, R) :=
    match s with
    | a :: b :: r =>
        if (a =? 0x30) && ((b =? 0x78) || (b =? 0x58)) then (true, r, 16)
        else if a =? 0x30 then (true, b :: r, 8)
        else (false, s, 10)
    | _ => (false, s, 10)
    end in
  match s with
  | [] => Some (None, ve)
  | _ =>
      let sv := if R =? 8 then set8 else if R =? 10 then set10 else set16 in
      if all_in sv s then
        match from_chars R (2 ^ 32 - 1) s with
        | Some i => Some (Some i, ve)
        | None => None
        end
      else Some (None, ve)
  end.

(** host.cpp:167-179: [inl] continue with the numbers and the validation flag, [inr] return opaque. *)
Fixpoint ipv4_numbers (parts : list (list Z)) (ve : bool) (numbers : list Z) : option (option (list Z * bool)) :=
  match parts with
  | [] => Some (Some (numbers, ve))
  | part :: r =>
      match part with
      | [] => Some None
      | _ =>
          match parse_ipv4_number part with
          | None => None
          | Some (None, _) => Some None
          | Some (Some n, e) => ipv4_numbers r (ve || e) (numbers ++ [n])
          end
      end
  end.

(** host.cpp:200-204: counter counts up; std::pow(256, k) and the product are exact doubles here. *)
Fixpoint ipv4_sum (numbers : list Z) (counter acc : Z) : Z :=
  match numbers with
  | [] => acc
  | n :: r => ipv4_sum r (counter + 1) (uint32 (acc + uint32 (n * 256 ^ (3 - counter))))
  end.

(** host.cpp:149-207 *)
Definition parse_ipv4 (input : list Z) (e : ec) : option (host * ec) :=
  match strictly_split utf32 0x2E input with
  | None => None
  | Some parts =>
      let '(parts, ve) :=
        match rev parts with
        | [] :: r => (match r with [] => parts | _ => rev r end, true)
        | _ => (parts, false)
        end in
      if (4 <? length parts)%nat then Some (HOpaque input, e)
      else
        match ipv4_numbers parts ve [] with
        | None => None
        | Some None => Some (HOpaque input, e)
        | Some (Some (numbers, ve)) =>
            let e := if ve then EcValidation else e in
            let e := if existsb (fun n => 255 <? n) numbers then EcValidation else e in
            match rev numbers with
            | [] => None
            | lastn :: revinit =>
                let init := rev revinit in
                if existsb (fun n => 255 <? n) init then Some (HNone, e)
                else if 256 ^ (5 - Z.of_nat (length numbers)) <=? lastn then Some (HNone, EcValidation)
                else Some (HIpv4 (ipv4_sum init 0 lastn), e)
            end
        end
  end.

(** host.cpp:535-555 *)
Fixpoint serialize_ipv4_loop (k : nat) (n : Z) (out : list Z) : list Z :=
  match k with
  | O => out
  | S k' =>
      let out := to_chars 10 (n mod 256) ++ out in
      let out := match k' with O => out | _ => 0x2E :: out end in
      serialize_ipv4_loop k' (n / 256) out
  end.
Definition serialize_ipv4 (n : Z) : list Z := serialize_ipv4_loop 4 n [].

(** * IPv6 *)

Definition upd16 (a : list Z) (i : nat) (v : Z) : list Z := firstn i a ++ (v mod 65536) :: skipn (S i) a.
Definition hexv (cp : Z) : Z :=
  if (0x30 <=? cp) && (cp <=? 0x39) then cp - 0x30
  else if (0x61 <=? cp) && (cp <=? 0x66) then cp - 0x61 + 10 else cp - 0x41 + 10.

(** host.cpp:291-298. The remaining input is kept as a list instead of an index. *)
Fixpoint hex4 (k : nat) (s : list Z) (v : Z) (len : nat) : Z * nat * list Z :=
  match k, s with
  | S k', c :: r => if is_ascii_hex_digit c then hex4 k' r (v * 16 + hexv c) (S len) else (v, len, s)
  | _, _ => (v, len, s)
  end.

(** host.cpp:319-367. [*ipv4Piece = number] is executed while the optional is empty (line 345), which is
    undefined; so the loop never gets past the first digit. Result: [None] undefined, [Some false] failure
    with ec, [Some true] loop left because the input is exhausted (then numbersSeen = 0 and failure). *)
Definition embedded_ipv4 (s : list Z) : option bool :=
  match s with
  | [] => Some true
  | c :: _ => if is_ascii_digit c then None else Some false
  end.

(** host.cpp:401-411. Both indices are below 8 here (lines 273 and 403-409), so the default of [nth] is
    never used. *)
Fixpoint ipv6_swaps (k : nat) (a : list Z) (pieceIndex compress swaps : nat) : list Z :=
  match k with
  | O => a
  | S k' =>
      if Nat.eqb pieceIndex 0 || Nat.eqb swaps 0 then a
      else
        let j := (compress + swaps - 1)%nat in
        let x := nth pieceIndex a 0 in
        let y := nth j a 0 in
        ipv6_swaps k' (upd16 (upd16 a pieceIndex y) j x) (pieceIndex - 1) compress (swaps - 1)
  end.
Definition ipv6_finish (a : list Z) (pieceIndex : nat) (compress : option nat) (e : ec) : option (host * ec) :=
  match compress with
  | Some c => Some (HIpv6 (ipv6_swaps 8 a 7 c (pieceIndex - c)), e)
  | None => if Nat.eqb pieceIndex 8 then Some (HIpv6 a, e) else Some (HNone, EcValidation)
  end.

(** host.cpp:270-399; the pointer is kept as the remaining input, so [pointer -= length] (309) is [s]. *)
Fixpoint ipv6_loop (fuel : nat) (s : list Z) (a : list Z) (pieceIndex : nat) (compress : option nat) (e : ec)
  : option (host * ec) :=
  match s with
  | [] => ipv6_finish a pieceIndex compress e
  | c :: r =>
      match fuel with
      | O => None
      | S f =>
          if Nat.eqb pieceIndex 8 then Some (HNone, e)
          else if c =? 0x3A then
            match compress with
            | Some _ => Some (HNone, EcValidation)
            | None => ipv6_loop f r a (S pieceIndex) (Some (S pieceIndex)) e
            end
          else
            let '(value, len, rest) := hex4 4 s 0 0 in
            match rest with
            | d :: rest' =>
                if d =? 0x2E then
                  if Nat.eqb len 0 then Some (HNone, EcValidation)
                  else if (6 <? pieceIndex)%nat then Some (HNone, EcValidation)
                  else match embedded_ipv4 s with
                       | None => None
                       | Some _ => Some (HNone, EcValidation)
                       end
                else if d =? 0x3A then
                  match rest' with
                  | [] => Some (HNone, EcValidation)
                  | _ => ipv6_loop f rest' (upd16 a pieceIndex value) (S pieceIndex) compress e
                  end
                else Some (HNone, EcValidation)
            | [] => ipv6_loop f [] (upd16 a pieceIndex value) (S pieceIndex) compress e
            end
      end
  end.

(** host.cpp:247-420 *)
Definition parse_ipv6 (input : list Z) (e : ec) : option (host * ec) :=
  let a := repeat 0 8 in
  match input with
  | c :: r =>
      if c =? 0x3A then
        match r with
        | d :: r' => if d =? 0x3A then ipv6_loop (length input) r' a 1 (Some 1%nat) e else Some (HNone, EcValidation)
        | [] => Some (HNone, EcValidation)
        end
      else ipv6_loop (length input) input a 0 None e
  | [] => ipv6_loop 0 [] a 0 None e
  end.

(** host.cpp:564-583: (tail, longer) after the scan; [i] runs over 0..7, a zero at 7 sets i = 8 before the
    comparison. Returns compress. *)
Fixpoint ipv6_scan (z : list bool) (i longer length tail : nat) : nat * nat :=
  match z with
  | [] => (longer, tail)
  | b :: r =>
      if b then
        match r with
        | [] => let length := S length in
                if (longer <? length)%nat then (length, S i) else (longer, tail)
        | _ => ipv6_scan r (S i) longer (S length) tail
        end
      else
        if (longer <? length)%nat then ipv6_scan r (S i) length 0 i
        else ipv6_scan r (S i) longer length tail
  end.
Definition ipv6_compress (z : list bool) : option nat :=
  let '(longer, tail) := ipv6_scan z 0 0 0 0 in
  if (2 <=? longer)%nat then Some (tail - longer)%nat else None.

(** host.cpp:585-607 *)
Fixpoint ipv6_emit (a : list Z) (i : nat) (compress : option nat) (ignore0 : bool) : list Z :=
  match a with
  | [] => []
  | p :: r =>
      if ignore0 && (p =? 0) then ipv6_emit r (S i) compress ignore0
      else
        match compress with
        | Some c =>
            if Nat.eqb c i then
              (if Nat.eqb i 0 then [0x3A; 0x3A] else [0x3A]) ++ ipv6_emit r (S i) compress true
            else to_chars 16 p ++ (if Nat.eqb i 7 then [] else [0x3A]) ++ ipv6_emit r (S i) compress false
        | None => to_chars 16 p ++ (if Nat.eqb i 7 then [] else [0x3A]) ++ ipv6_emit r (S i) compress false
        end
  end.
Definition serialize_ipv6 (a : list Z) : list Z :=
  ipv6_emit a 0 (ipv6_compress (map (Z.eqb 0) a)) false.

(** host.cpp:83-102 is_valid_ipv4_address_string; [i] is uninitialised when from_chars does not store.
    boost::split on '.' = splitting at every dot. *)
Fixpoint split_dot (s cur : list Z) : list (list Z) :=
  match s with
  | [] => [cur]
  | c :: r => if c =? 0x2E then cur :: split_dot r [] else split_dot r (cur ++ [c])
  end.
Fixpoint valid_parts (v : list (list Z)) : option bool :=
  match v with
  | [] => Some true
  | c :: r =>
      if ((1 <=? length c) && (length c <=? 4))%nat then
        match from_chars 10 (2 ^ 32 - 1) (map (fun ch => ch mod 256) c) with
        | None => None
        | Some i => if 255 <? i then Some false else valid_parts r
        end
      else Some false
  end.
Definition is_valid_ipv4_address_string (s : list Z) : option bool :=
  let v := split_dot s [] in
  if Nat.eqb (length v) 4 then valid_parts v else Some false.
