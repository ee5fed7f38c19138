(** Model of the HTML/XML tree container tag_tree (include/wordring/tag_tree/tag_tree.hpp,
    tag_tree_iterator.hpp, serial_iterator.hpp, character_iterator.hpp).

    The container keeps the tree as one circular doubly linked list of tags: a text, a comment or a document
    type is one tag, every other node is a start tag and an end tag.

    Simplifications: indices are [nat] (std::uint32_t in the code, no wrap-around is modelled), the container
    pointer of an iterator is left out (all iterators belong to the one arena passed along), allocation
    never fails. Out-of-range access, failing asserts and loops that do not end are [None]. *)
From Coq Require Import List Arith Bool ZArith.
From Verif Require Import M_tree.
Import ListNotations.
Open Scope tree_scope.

(** tag_node.hpp:7-18 *)
Record tag (V : Type) := Tag { t_prev : nat; t_next : nat; t_head : nat; t_tail : nat; t_val : V }.
Arguments Tag {V}. Arguments t_prev {V}. Arguments t_next {V}. Arguments t_head {V}. Arguments t_tail {V}. Arguments t_val {V}.

Section TagTree.
Context {V : Type}.

(** tag_tree.hpp:35, std::vector<wrapper> *)
Definition tags := list (tag V).

(** (d + i)->m_xxx as an rvalue *)
Definition r_prev (a : tags) i := option_map t_prev (nth_error a i).
Definition r_next (a : tags) i := option_map t_next (nth_error a i).
Definition r_head (a : tags) i := option_map t_head (nth_error a i).
Definition r_tail (a : tags) i := option_map t_tail (nth_error a i).
Definition r_val (a : tags) i := option_map t_val (nth_error a i).

(** (d + i)->m_xxx = x *)
Definition upd (a : tags) i (f : tag V -> tag V) : option tags :=
  match nth_error a i with Some n => Some (firstn i a ++ f n :: skipn (S i) a) | None => None end.
Definition w_prev (a : tags) i x := upd a i (fun n => Tag x (t_next n) (t_head n) (t_tail n) (t_val n)).
Definition w_next (a : tags) i x := upd a i (fun n => Tag (t_prev n) x (t_head n) (t_tail n) (t_val n)).
Definition w_head (a : tags) i x := upd a i (fun n => Tag (t_prev n) (t_next n) x (t_tail n) (t_val n)).
Definition w_tail (a : tags) i x := upd a i (fun n => Tag (t_prev n) (t_next n) (t_head n) x (t_val n)).
Definition w_val (a : tags) i x := upd a i (fun n => Tag (t_prev n) (t_next n) (t_head n) (t_tail n) x).

(** tag_tree.hpp:82-84, 145-149: tag_tree() and clear(); [dv] is value_type(). *)
Definition tt_init (dv : V) : tags := [Tag 0 0 0 0 dv].
Definition tt_clear (dv : V) (a : tags) : tags := tt_init dv.

(** tag_tree.hpp:107, 113, 127 *)
Definition tt_begin (a : tags) : option nat := r_next a 0.
Definition tt_end : nat := 0.
Definition tt_empty (a : tags) : option bool := do n <- r_next a 0; Some (n =? 0).

(** tag_tree.hpp:220-243 *)
Definition allocate (a : tags) (v : V) : option (tags * nat) :=
  do idx <- r_tail a 0;
  if idx =? 0 then Some (a ++ [Tag 0 0 0 0 v], length a)
  else
    do before <- r_head a idx;
    do after <- r_tail a idx;
    do a <- w_val a idx v;
    do a <- w_prev a idx 0;
    do a <- w_next a idx 0;
    do a <- w_tail a before after;
    do a <- w_head a after before;
    Some (a, idx).

(** tag_tree.hpp:253-254, the loop that looks for the last free tag before [idx] *)
Fixpoint free_before (fuel : nat) (a : tags) (idx before i : nat) : option nat :=
  match fuel with
  | O => None
  | S f =>
    if negb (i =? 0) && (i <? idx) then do n <- r_tail a i; free_before f a idx i n
    else Some before
  end.

(** tag_tree.hpp:246-270; the loop ends within as many turns as there are tags when the free list is sound *)
Definition free (a : tags) (idx : nat) : option tags :=
  if idx <? length a then
    do i <- r_tail a 0;
    do before <- free_before (S (length a)) a idx 0 i;
    do after <- r_tail a before;
    do a <- w_tail a before idx;
    do a <- w_head a idx before;
    do a <- w_tail a idx after;
    do a <- w_head a after idx;
    do a <- w_prev a idx 0;
    w_next a idx 0
  else None.

(** tag_tree.hpp:272-293 *)
Definition link (a : tags) (pos idx : nat) : option tags :=
  if (pos <? length a) && (idx <? length a) then
    do before <- r_prev a pos;
    do a <- w_next a before idx;
    do a <- w_prev a idx before;
    do a <- w_next a idx pos;
    do a <- w_prev a pos idx;
    do a <- w_head a idx 0;
    w_tail a idx 0
  else None.

(** tag_tree.hpp:295-313 *)
Definition unlink (a : tags) (idx : nat) : option tags :=
  if idx <? length a then
    do before <- r_prev a idx;
    do after <- r_next a idx;
    do a <- w_next a before after;
    do a <- w_prev a after before;
    do a <- w_prev a idx 0;
    do a <- w_next a idx 0;
    do a <- w_head a idx 0;
    w_tail a idx 0
  else None.

(** tag_tree.hpp:153-169; [single] is node_traits::is_single (simple_traits.hpp:307-319). The position is the
    index of the tag before which the node goes. *)
Definition tt_insert (single : V -> bool) (dv : V) (a : tags) (pos : nat) (v : V) : option (tags * nat) :=
  do (a, t) <- allocate a v;
  do a <- link a pos t;
  if single v then Some (a, t)
  else
    do (a, e) <- allocate a dv;
    do a <- link a pos e;
    do a <- w_tail a t e;
    do a <- w_head a e t;
    Some (a, t).

(** tag_tree.hpp:186, 205: the last tag of the node at [i] *)
Definition last_tag (a : tags) (i : nat) : option nat := do t <- r_tail a i; Some (if t =? 0 then i else t).

(** tag_tree.hpp:176-198 *)
Definition tt_move (a : tags) (pos sub : nat) : option (tags * nat) :=
  do pos_before <- r_prev a pos;
  do sub_before <- r_prev a sub;
  do sub_tail <- last_tag a sub;
  do sub_after <- r_next a sub_tail;
  do a <- w_next a pos_before sub;
  do a <- w_prev a sub pos_before;
  do a <- w_prev a pos sub_tail;
  do a <- w_next a sub_tail pos;
  do a <- w_next a sub_before sub_after;
  do a <- w_prev a sub_after sub_before;
  Some (a, sub).

(** tag_tree.hpp:208-214, the loop of erase *)
Fixpoint erase_loop (fuel : nat) (a : tags) (tail before : nat) : option tags :=
  match fuel with
  | O => None
  | S f =>
    if tail =? before then Some a
    else
      do prev <- r_prev a tail;
      do a <- unlink a tail;
      do a <- free a tail;
      erase_loop f a prev before
  end.

(** tag_tree.hpp:200-217; the loop ends within as many turns as there are tags when the list is sound *)
Definition tt_erase (a : tags) (pos : nat) : option (tags * nat) :=
  do before <- r_prev a pos;
  do tail <- last_tag a pos;
  do after <- r_next a tail;
  do a <- erase_loop (S (length a)) a tail before;
  Some (a, after).

(** tag_tree.hpp:129-143 *)
Fixpoint size_loop (fuel : nat) (a : tags) (idx n : nat) : option nat :=
  match fuel with
  | O => None
  | S f =>
    if idx =? 0 then Some n
    else
      do tail <- r_tail a idx;
      do head <- r_head a idx;
      do next <- r_next a idx;
      size_loop f a next (if (tail =? 0) && negb (head =? 0) then n else S n)
  end.
Definition tt_size (a : tags) : option nat := do i <- r_next a 0; size_loop (S (length a)) a i 0.

(** tag_tree_iterator.hpp:71-80 *)
Definition i_inc (a : tags) (i : nat) : option nat :=
  if i =? 0 then None
  else do tail <- r_tail a i; r_next a (if tail =? 0 then i else tail).

(** tag_tree_iterator.hpp:89-99 *)
Definition i_dec (a : tags) (i : nat) : option nat :=
  do prev <- r_prev a i;
  if prev =? 0 then None
  else do head <- r_head a prev; Some (if head =? 0 then prev else head).

(** tag_tree_iterator.hpp:121-130; 0 stands for the default iterator *)
Fixpoint parent_loop (fuel : nat) (a : tags) (idx : nat) : option nat :=
  match fuel with
  | O => None
  | S f =>
    if idx =? 0 then Some 0
    else
      do tail <- r_tail a idx;
      if negb (tail =? 0) then Some idx
      else
        do head <- r_head a idx;
        do prev <- r_prev a (if head =? 0 then idx else head);
        parent_loop f a prev
  end.

(** tag_tree_iterator.hpp:116-131 *)
Definition i_parent (a : tags) (i : nat) : option nat := do p <- r_prev a i; parent_loop (S (length a)) a p.

(** tag_tree_iterator.hpp:133-138 *)
Definition i_begin (a : tags) (i : nat) : option nat :=
  do tail <- r_tail a i; if tail =? 0 then Some 0 else r_next a i.

(** tag_tree_iterator.hpp:140-143 *)
Definition i_end (a : tags) (i : nat) : option nat := r_tail a i.

(** serial_iterator.hpp:74-80, 89-94 *)
Definition s_inc (a : tags) (i : nat) : option nat := if i =? 0 then None else r_next a i.
Definition s_dec (a : tags) (i : nat) : option nat := r_prev a i.

(** serial_iterator.hpp:118, 124 *)
Definition is_start_tag (a : tags) (i : nat) : option bool := do t <- r_tail a i; Some (negb (t =? 0)).
Definition is_end_tag (a : tags) (i : nat) : option bool := do h <- r_head a i; Some (negb (h =? 0)).

(** serial_iterator.hpp:132-136, 144-148 *)
Definition start_tag (a : tags) (i : nat) : option nat := do b <- is_start_tag a i; if (b : bool) then Some i else r_head a i.
Definition end_tag (a : tags) (i : nat) : option nat := do b <- is_end_tag a i; if (b : bool) then Some i else r_tail a i.

Section Characters.
Context {C : Type}.

(** [text] is the data of a text node and [None] for any other node (simple_traits.hpp:188, is_text, and 67, data).
    [nul] is the character that operator[] of a std::basic_string returns at its size. *)
Context (text : V -> option (list C)) (nul : C).

(** character_iterator.hpp:185, 198: !node_traits::is_text(it) *)
Definition is_text (a : tags) (i : nat) : option bool :=
  do v <- r_val a i; Some (match text v with Some _ => true | None => false end).

(** character_iterator.hpp:194-201 *)
Fixpoint c_next (fuel : nat) (a : tags) (i : nat) : option nat :=
  match fuel with
  | O => None
  | S f =>
    if i =? 0 then Some i
    else do b <- is_text a i; if (b : bool) then Some i else do n <- r_next a i; c_next f a n
  end.

(** character_iterator.hpp:181-188 *)
Fixpoint c_prev (fuel : nat) (a : tags) (i : nat) : option nat :=
  match fuel with
  | O => None
  | S f =>
    if i =? 0 then Some i
    else do b <- is_text a i; if (b : bool) then Some i else do n <- r_prev a i; c_prev f a n
  end.

(** character_iterator.hpp:58-63, an iterator is (m_it, m_i); m_i is a 32 bit number *)
Definition c_make (a : tags) (i : nat) : option (nat * Z) := do j <- c_next (S (length a)) a i; Some (j, 0%Z).

(** character_iterator.hpp:65-68: end() *)
Definition c_end : nat * Z := (0, 0%Z).

(** character_iterator.hpp:81-87; reading at the size of the string gives the terminator, reading behind it is
    undefined *)
Definition c_deref (a : tags) (x : nat * Z) : option C :=
  if fst x =? 0 then None
  else
    do v <- r_val a (fst x);
    do s <- text v;
    if (snd x =? Z.of_nat (length s))%Z then Some nul
    else if (snd x <? Z.of_nat (length s))%Z then nth_error s (Z.to_nat (snd x))
    else None.

(** character_iterator.hpp:101-117 *)
Definition c_inc (a : tags) (x : nat * Z) : option (nat * Z) :=
  let '(it, i) := x in
  if it =? 0 then None
  else
    do v <- r_val a it;
    match text v with
    | Some s =>
      let i := ((i + 1) mod 2 ^ 32)%Z in
      if (i <? Z.of_nat (length s))%Z then Some (it, i)
      else
        do n <- r_next a it;
        do j <- c_next (S (length a)) a n;
        Some (j, 0%Z)
    | None => do j <- c_next (S (length a)) a it; Some (j, i)
    end.

(** character_iterator.hpp:146-150, the end of operator-- *)
Definition c_last (a : tags) (it : nat) (i : Z) : option (nat * Z) :=
  do j <- c_prev (S (length a)) a it;
  if j =? 0 then Some (j, i)
  else
    do v <- r_val a j;
    do s <- text v;
    Some (j, ((Z.of_nat (length s) - 1) mod 2 ^ 32)%Z).

(** character_iterator.hpp:130-151 *)
Definition c_dec (a : tags) (x : nat * Z) : option (nat * Z) :=
  let '(it, i) := x in
  if negb (it =? 0) then
    do v <- r_val a it;
    match text v with
    | Some _ => if negb (i =? 0)%Z then Some (it, (i - 1)%Z) else do n <- r_prev a it; c_last a n i
    | None => c_last a it i
    end
  else do n <- r_prev a it; c_last a n i.

End Characters.
End TagTree.
