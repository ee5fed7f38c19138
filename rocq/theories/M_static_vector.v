(** Model of the fixed-capacity vector.
    Source: include/wordring/static_vector/static_vector.hpp.
    [None] stands for a failed [assert], an access outside the std::array, or an invalid iterator range.
    Definitions only. *)
From Coq Require Import List Bool ZArith Arith.
Import ListNotations.

Section StaticVector.
Context {A : Type}.

(** static_vector.hpp:569-571  std::array<T,N> and m_size *)
Record svec := SVec { sv_buf : list A; sv_size : nat }.

(** static_vector.hpp:296-300, value-initialised array *)
Definition sv_empty (d : A) (cap : nat) : svec := SVec (repeat d cap) 0.

(** [*(m_container.data() + i) = x] *)
Fixpoint upd (l : list A) (i : nat) (x : A) : option (list A) :=
  match l, i with
  | [], _ => None
  | _ :: r, O => Some (x :: r)
  | y :: r, S i' => match upd r i' x with Some r' => Some (y :: r') | None => None end
  end.

(** A [value_type const&] argument: an object outside the vector, or a reference to slot i of the vector. *)
Inductive arg := Val (x : A) | Slot (i : nat).

(** Reading the reference at the moment of use. *)
Definition rd (l : list A) (a : arg) : option A :=
  match a with Val x => Some x | Slot i => nth_error l i end.

(** std::copy_backward(first, last, d_last) with n = last - first:
    [while (first != last) *(--d_last) = *(--last);] *)
Fixpoint copy_backward (n last d_last : nat) (l : list A) : option (list A) :=
  match n with
  | O => Some l
  | S n' =>
      match last, d_last with
      | S last', S d' =>
          match nth_error l last' with
          | None => None
          | Some x =>
              match upd l d' x with
              | None => None
              | Some l' => copy_backward n' last' d' l'
              end
          end
      | _, _ => None
      end
  end.

(** std::copy(first, last, d) with n = last - first: [while (first != last) *d++ = *first++;] *)
Fixpoint copy_forward (n first d : nat) (l : list A) : option (list A) :=
  match n with
  | O => Some l
  | S n' =>
      match nth_error l first with
      | None => None
      | Some x =>
          match upd l d x with
          | None => None
          | Some l' => copy_forward n' (S first) (S d) l'
          end
      end
  end.

(** Writing the same argument n times from slot d on (static_vector.hpp:307, 357, 465). *)
Fixpoint fill (n d : nat) (a : arg) (l : list A) : option (list A) :=
  match n with
  | O => Some l
  | S n' =>
      match rd l a with
      | None => None
      | Some x =>
          match upd l d x with
          | None => None
          | Some l' => fill n' (S d) a l'
          end
      end
  end.

(** Writing an external sequence from slot d on (static_vector.hpp:324, 336, 349, 364, 371, 482, 497). *)
Fixpoint write_list (xs : list A) (d : nat) (l : list A) : option (list A) :=
  match xs with
  | [] => Some l
  | x :: r =>
      match upd l d x with
      | None => None
      | Some l' => write_list r (S d) l'
      end
  end.

(** static_vector.hpp:376-378  std::array::at; [None] is the std::out_of_range exception *)
Definition sv_at (s : svec) (i : nat) : option A := nth_error (sv_buf s) i.

(** static_vector.hpp:380-382 *)
Definition sv_index (s : svec) (i : nat) : option A := nth_error (sv_buf s) i.

(** static_vector.hpp:384-390 *)
Definition sv_front (s : svec) : option A := nth_error (sv_buf s) 0.
Definition sv_back (s : svec) : option A :=
  match sv_size s with O => None | S k => nth_error (sv_buf s) k end.

(** static_vector.hpp:404-408  the elements in [begin(), end()) *)
Definition sv_contents (s : svec) : list A := firstn (sv_size s) (sv_buf s).

(** static_vector.hpp:434 *)
Definition sv_clear (s : svec) : svec := SVec (sv_buf s) 0.

(** static_vector.hpp:436-445 (and 447-456).
    A position beyond end() is not a valid iterator. *)
Definition sv_insert (s : svec) (p : nat) (a : arg) : option svec :=
  if negb (sv_size s <? length (sv_buf s)) then None
  else if negb (p <=? sv_size s) then None
  else
    match copy_backward (sv_size s - p) (sv_size s) (sv_size s + 1) (sv_buf s) with
    | None => None
    | Some b1 =>
        match rd b1 a with
        | None => None
        | Some x =>
            match upd b1 p x with
            | None => None
            | Some b2 => Some (SVec b2 (S (sv_size s)))
            end
        end
    end.

(** static_vector.hpp:458-470 *)
Definition sv_insert_n (s : svec) (p count : nat) (a : arg) : option svec :=
  if negb (sv_size s + count <=? length (sv_buf s)) then None
  else if negb (p <=? sv_size s) then None
  else
    match copy_backward (sv_size s - p) (sv_size s) (sv_size s + count) (sv_buf s) with
    | None => None
    | Some b1 =>
        match fill count p a b1 with
        | None => None
        | Some b2 => Some (SVec b2 (sv_size s + count))
        end
    end.

(** static_vector.hpp:472-487 and 489-502; the sequence does not refer into this vector. *)
Definition sv_insert_list (s : svec) (p : nat) (xs : list A) : option svec :=
  if negb (sv_size s + length xs <=? length (sv_buf s)) then None
  else if negb (p <=? sv_size s) then None
  else
    match copy_backward (sv_size s - p) (sv_size s) (sv_size s + length xs) (sv_buf s) with
    | None => None
    | Some b1 =>
        match write_list xs p b1 with
        | None => None
        | Some b2 => Some (SVec b2 (sv_size s + length xs))
        end
    end.

(** static_vector.hpp:504-514 *)
Definition sv_erase (s : svec) (p : nat) : option svec :=
  if negb (p <? sv_size s) then None
  else
    match copy_forward (sv_size s - (p + 1)) (p + 1) p (sv_buf s) with
    | None => None
    | Some b => Some (SVec b (sv_size s - 1))
    end.

(** static_vector.hpp:516-525; first must differ from cend() (518), first <= last (519). *)
Definition sv_erase_range (s : svec) (f l : nat) : option svec :=
  if Nat.eqb f (sv_size s) then None
  else if negb (f <=? l) then None
  else if negb (l <=? sv_size s) then None
  else
    match copy_forward (sv_size s - l) l f (sv_buf s) with
    | None => None
    | Some b => Some (SVec b (sv_size s - (l - f)))
    end.

(** static_vector.hpp:527-541 *)
Definition sv_push_back (s : svec) (a : arg) : option svec :=
  if negb (sv_size s <? length (sv_buf s)) then None
  else
    match rd (sv_buf s) a with
    | None => None
    | Some x =>
        match upd (sv_buf s) (sv_size s) x with
        | None => None
        | Some b => Some (SVec b (S (sv_size s)))
        end
    end.

(** static_vector.hpp:543-548 *)
Definition sv_pop_back (s : svec) : option svec :=
  match sv_size s with
  | O => None
  | S k => sv_erase s k
  end.

(** static_vector.hpp:555-561 *)
Definition sv_resize (s : svec) (count : nat) (a : arg) : option svec :=
  if negb (count <=? length (sv_buf s)) then None
  else if count <? sv_size s then sv_erase_range s count (sv_size s)
  else if sv_size s <? count then sv_insert_n s (sv_size s) (count - sv_size s) a
  else Some s.

(** static_vector.hpp:354-358 *)
Definition sv_assign_n (s : svec) (count : nat) (a : arg) : option svec :=
  if negb (count <=? length (sv_buf s)) then None
  else
    match fill count 0 a (sv_buf s) with
    | None => None
    | Some b => Some (SVec b count)
    end.

(** static_vector.hpp:345-352, 360-372 *)
Definition sv_assign (s : svec) (xs : list A) : option svec :=
  if negb (length xs <=? length (sv_buf s)) then None
  else
    match write_list xs 0 (sv_buf s) with
    | None => None
    | Some b => Some (SVec b (length xs))
    end.

Inductive sv_op :=
| OpPushBack (a : arg) | OpPopBack
| OpInsert (p : nat) (a : arg) | OpInsertN (p count : nat) (a : arg) | OpInsertList (p : nat) (xs : list A)
| OpErase (p : nat) | OpEraseRange (f l : nat)
| OpResize (count : nat) (a : arg) | OpAssignN (count : nat) (a : arg) | OpAssign (xs : list A) | OpClear.

Definition sv_step (s : svec) (o : sv_op) : option svec :=
  match o with
  | OpPushBack a => sv_push_back s a
  | OpPopBack => sv_pop_back s
  | OpInsert p a => sv_insert s p a
  | OpInsertN p n a => sv_insert_n s p n a
  | OpInsertList p xs => sv_insert_list s p xs
  | OpErase p => sv_erase s p
  | OpEraseRange f l => sv_erase_range s f l
  | OpResize n a => sv_resize s n a
  | OpAssignN n a => sv_assign_n s n a
  | OpAssign xs => sv_assign s xs
  | OpClear => Some (sv_clear s)
  end.

Fixpoint sv_run (s : svec) (ops : list sv_op) : option svec :=
  match ops with
  | [] => Some s
  | o :: r => match sv_step s o with Some s' => sv_run s' r | None => None end
  end.
End StaticVector.

Arguments svec : clear implicits.
Arguments arg : clear implicits.
Arguments sv_op : clear implicits.

(** Comparisons, on integers. static_vector.hpp:574-578 std::equal on two ranges. *)
Fixpoint std_equal (a b : list Z) : bool :=
  match a, b with
  | [], [] => true
  | x :: a', y :: b' => if Z.eqb x y then std_equal a' b' else false
  | _, _ => false
  end.

(** static_vector.hpp:586-590 std::lexicographical_compare *)
Fixpoint std_lex (a b : list Z) : bool :=
  match a, b with
  | [], [] => false
  | [], _ :: _ => true
  | _ :: _, [] => false
  | x :: a', y :: b' => if Z.ltb x y then true else if Z.ltb y x then false else std_lex a' b'
  end.

Definition sv_eq (s t : svec Z) : bool := std_equal (sv_contents s) (sv_contents t).
(** static_vector.hpp:580-584 *)
Definition sv_ne (s t : svec Z) : bool := negb (sv_eq s t).
Definition sv_lt (s t : svec Z) : bool := std_lex (sv_contents s) (sv_contents t).
(** static_vector.hpp:592-596 *)
Definition sv_le (s t : svec Z) : bool := sv_lt s t || sv_eq s t.
(** static_vector.hpp:598-602 *)
Definition sv_gt (s t : svec Z) : bool := std_lex (sv_contents t) (sv_contents s).
(** static_vector.hpp:604-608 *)
Definition sv_ge (s t : svec Z) : bool := sv_gt s t || sv_eq s t.
