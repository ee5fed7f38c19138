(** Model of the integer serialisation functions and iterators.
    Source: include/wordring/serialize/serialize.hpp, serialize_iterator.hpp.
    A C++ integral type T is represented by its width [w] in bytes.
    Definitions only. *)
From Coq Require Import ZArith List.
Import ListNotations.
Open Scope Z_scope.

(** 2^(8w), the number of values of make_unsigned_t<T>. *)
Definition modulus (w : nat) : Z := 2 ^ (8 * Z.of_nat w).

(** serialize.hpp:13  [std::make_unsigned_t<T> n = number;] *)
Definition to_unsigned (w : nat) (x : Z) : Z := x mod modulus w.

(** Conversion of an unsigned value to a signed T (serialize.hpp:34, two's complement). *)
Definition to_signed (w : nat) (x : Z) : Z :=
  let u := x mod modulus w in
  if 2 * u <? modulus w then u else u - modulus w.

(** serialize.hpp:20-24  [serialize(T number, uint32_t position)];
    position is only meaningful below sizeof(T): otherwise the shift count is out of range (UB, [None]). *)
Definition serialize_at (w : nat) (x : Z) (position : nat) : option Z :=
  if (position <? w)%nat
  then Some (Z.land (Z.shiftr (to_unsigned w x) (Z.of_nat ((w - position - 1) * 8))) 255)
  else None.

(** serialize.hpp:16  loop body for index i *)
Definition serialize_byte (w : nat) (n : Z) (i : nat) : Z :=
  Z.land (Z.shiftr n (Z.of_nat ((w - i - 1) * 8))) 255.

(** serialize.hpp:9-18  [serialize(T number)] *)
Definition serialize (w : nat) (x : Z) : list Z :=
  let n := to_unsigned w x in
  map (serialize_byte w n) (seq 0 w).

(** serialize.hpp:31-33  the accumulation loop; [k] counts the remaining iterations.
    The element is cast to its unsigned type: elements are 8-bit (char or uint8_t). *)
Fixpoint deserialize_loop (w : nat) (k : nat) (buf : Z) (input : list Z) : Z * list Z :=
  match k with
  | O => (buf, input)
  | S k' =>
      match input with
      | [] => (buf, [])
      | c :: rest =>
          deserialize_loop w k' ((buf * 256 + c mod 256) mod modulus w) rest
      end
  end.

(** serialize.hpp:26-37  [deserialize]; returns the unsigned result and the remaining input. *)
Definition deserialize (w : nat) (input : list Z) : Z * list Z :=
  deserialize_loop w w 0 input.

(** serialize.hpp:34 with a signed T *)
Definition deserialize_signed (w : nat) (input : list Z) : Z * list Z :=
  let '(u, rest) := deserialize w input in (to_signed w u, rest).

(** serialize_iterator.hpp:118-120.  The base iterator is an index into the container.
    m_index is a uint32_t. *)
Record ser_iter := SerIter { si_pos : nat; si_index : Z }.

Definition two32 : Z := 2 ^ 32.

(** serialize_iterator.hpp:84-88 *)
Definition ser_begin : ser_iter := SerIter 0 0.
Definition ser_end (v : list Z) : ser_iter := SerIter (length v) 0.

(** serialize_iterator.hpp:97-102; [None] is dereferencing past the end *)
Definition ser_deref (w : nat) (v : list Z) (it : ser_iter) : option Z :=
  match nth_error v (si_pos it) with
  | None => None
  | Some x =>
      let n := (Z.of_nat w - 1) - (si_index it mod Z.of_nat w) in
      Some (Z.land (Z.shiftr (to_unsigned w x) (n * 8)) 255)
  end.

(** serialize_iterator.hpp:104-109 *)
Definition ser_next (w : nat) (it : ser_iter) : ser_iter :=
  let i := (si_index it + 1) mod two32 in
  if i mod Z.of_nat w =? 0 then SerIter (S (si_pos it)) i else SerIter (si_pos it) i.

(** serialize_iterator.hpp:129-134 *)
Definition ser_neq (w : nat) (a b : ser_iter) : bool :=
  negb (Nat.eqb (si_pos a) (si_pos b))
  || negb (si_index a mod Z.of_nat w =? si_index b mod Z.of_nat w).

(** serialize_iterator.hpp:33  [while (it1 != it2) out( *it1++ )].
    Outer [None]: out of fuel; inner [None]: invalid dereference. *)
Fixpoint ser_walk (fuel w : nat) (v : list Z) (it : ser_iter) : option (option (list Z)) :=
  match fuel with
  | O => None
  | S f =>
      if ser_neq w it (ser_end v) then
        match ser_deref w v it with
        | None => Some None
        | Some b =>
            match ser_walk f w v (ser_next w it) with
            | None => None
            | Some None => Some None
            | Some (Some l) => Some (Some (b :: l))
            end
        end
      else Some (Some [])
  end.

(** serialize_iterator.hpp:205-213; the base iterator is the remaining input.
    [None]: read past the end. *)
Fixpoint des_deref_loop (w k : nat) (v : Z) (input : list Z) : option Z :=
  match k with
  | O => Some v
  | S k' =>
      match input with
      | [] => None
      | c :: rest => des_deref_loop w k' ((v * 256 + c mod 256) mod modulus w) rest
      end
  end.

Definition des_deref (w : nat) (input : list Z) : option Z := des_deref_loop w w 0 input.

(** serialize_iterator.hpp:215-219 std::advance; [None]: advanced past the end. *)
Fixpoint des_next (w : nat) (input : list Z) : option (list Z) :=
  match w with
  | O => Some input
  | S k => match input with [] => None | _ :: r => des_next k r end
  end.

(** serialize_iterator.hpp:157  [while (it1 != it2) out( *it1++ )]; end is the empty remaining input. *)
Fixpoint des_walk (fuel w : nat) (input : list Z) : option (option (list Z)) :=
  match fuel with
  | O => None
  | S f =>
      match input with
      | [] => Some (Some [])
      | _ =>
          match des_deref w input, des_next w input with
          | Some x, Some rest =>
              match des_walk f w rest with
              | None => None
              | Some None => Some None
              | Some (Some l) => Some (Some (x :: l))
              end
          | _, _ => Some None
          end
      end
  end.
