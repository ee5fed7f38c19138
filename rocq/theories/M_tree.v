(** Model of the tree container (include/wordring/tree/tree.hpp) and of the traversal adaptors
    (include/wordring/tree/tree_iterator.hpp).

    Simplifications: indices are [nat] (std::uint32_t in the code, no wrap-around is modelled), the container
    pointer of an iterator is left out (all iterators belong to the one arena passed along), allocation
    never fails. Out-of-range access, failing asserts and loops that do not end are [None]. *)
From Coq Require Import List Arith Bool.
Import ListNotations.

Declare Scope tree_scope.
Notation "'do' x <- e ; k" := (match e with Some x => k | None => None end)
  (at level 200, x pattern, e at level 100, k at level 200) : tree_scope.
Open Scope tree_scope.

(** tree.hpp:24-38 *)
Record node (V : Type) := Node { n_par : nat; n_prv : nat; n_nxt : nat; n_chd : nat; n_val : V }.
Arguments Node {V}. Arguments n_par {V}. Arguments n_prv {V}. Arguments n_nxt {V}. Arguments n_chd {V}. Arguments n_val {V}.

(** tree.hpp:342, std::vector<node_type> *)
Definition arena (V : Type) := list (node V).

Section Tree.
Context {V : Type}.

(** (d + i)->m_xxx as an rvalue *)
Definition g_par (a : arena V) i := option_map n_par (nth_error a i).
Definition g_prv (a : arena V) i := option_map n_prv (nth_error a i).
Definition g_nxt (a : arena V) i := option_map n_nxt (nth_error a i).
Definition g_chd (a : arena V) i := option_map n_chd (nth_error a i).
Definition g_val (a : arena V) i := option_map n_val (nth_error a i).

(** (d + i)->m_xxx = x *)
Definition set_node (a : arena V) i (f : node V -> node V) : option (arena V) :=
  match nth_error a i with Some n => Some (firstn i a ++ f n :: skipn (S i) a) | None => None end.
Definition s_par (a : arena V) i x := set_node a i (fun n => Node x (n_prv n) (n_nxt n) (n_chd n) (n_val n)).
Definition s_prv (a : arena V) i x := set_node a i (fun n => Node (n_par n) x (n_nxt n) (n_chd n) (n_val n)).
Definition s_nxt (a : arena V) i x := set_node a i (fun n => Node (n_par n) (n_prv n) x (n_chd n) (n_val n)).
Definition s_chd (a : arena V) i x := set_node a i (fun n => Node (n_par n) (n_prv n) (n_nxt n) x (n_val n)).
Definition s_val (a : arena V) i x := set_node a i (fun n => Node (n_par n) (n_prv n) (n_nxt n) (n_chd n) x).

(** tree.hpp:92-97, an iterator is (m_parent, m_index); index 0 is the end position. *)
Definition iter := (nat * nat)%type.

(** tree.hpp:253; operator== is its negation (241). *)
Definition it_neq (x y : iter) : bool := negb (snd x =? snd y) || negb (fst x =? fst y).

(** tree.hpp:362-365, 533-537: tree() and clear(); [dv] is the value of a value-initialised T. *)
Definition tree_init (dv : V) : arena V := [Node 0 0 0 0 dv].
Definition tree_clear (dv : V) (a : arena V) : arena V := tree_init dv.

(** tree.hpp:113-118 *)
Definition it_deref (a : arena V) (x : iter) : option V := if snd x =? 0 then None else g_val a (snd x).

(** tree.hpp:131-138 *)
Definition it_inc (a : arena V) (x : iter) : option iter :=
  if snd x =? 0 then None else do n <- g_nxt a (snd x); Some (fst x, n).

(** tree.hpp:154-175, asserts enabled *)
Definition it_dec (a : arena V) (x : iter) : option iter :=
  if negb (snd x =? 0) then
    if fst x =? 0 then None else
    do c <- g_chd a (fst x);
    if c =? snd x then None else do q <- g_prv a (snd x); Some (fst x, q)
  else if negb (fst x =? 0) then
    do c <- g_chd a (fst x); do q <- g_prv a c; Some (fst x, q)
  else
    do c <- g_chd a 0; if c =? 0 then None else Some (fst x, c).

(** tree.hpp:188-200 *)
Definition it_begin (a : arena V) (x : iter) : option iter :=
  if snd x =? 0 then None else do c <- g_chd a (snd x); Some (snd x, c).
Definition it_end (a : arena V) (x : iter) : option iter := if snd x =? 0 then None else Some (snd x, 0).

(** tree.hpp:222-230 *)
Definition it_parent (a : arena V) (x : iter) : option iter :=
  if fst x =? 0 then Some (0, 0) else do pp <- g_par a (fst x); Some (pp, fst x).

(** tree.hpp:436-466 *)
Definition t_begin (a : arena V) : option iter := do c <- g_chd a 0; Some (0, c).
Definition t_end (a : arena V) : iter := (0, 0).

(** tree.hpp:729-750. Returns the arena and the index. *)
Definition allocate (a : arena V) (v : V) : option (arena V * nat) :=
  do idx <- g_nxt a 0;
  if idx =? 0 then Some (a ++ [Node 0 0 0 0 v], length a)
  else
    do before <- g_prv a idx;
    do after <- g_nxt a idx;
    do a <- s_val a idx v;
    do a <- s_nxt a before after;
    do a <- s_prv a after before;
    Some (a, idx).

(** tree.hpp:763-764, the loop looking for the last unused node below idx *)
Fixpoint free_before fuel (a : arena V) (before i idx : nat) : option nat :=
  match fuel with
  | 0 => None
  | S fuel =>
      if negb (i =? 0) && (i <? idx) then do n <- g_nxt a i; free_before fuel a i n idx
      else Some before
  end.

(** tree.hpp:756-780 *)
Definition free (a : arena V) idx : option (arena V) :=
  if idx <? length a then
    do i <- g_nxt a 0;
    do before <- free_before (S (length a)) a 0 i idx;
    do after <- g_nxt a before;
    do a <- s_nxt a before idx;
    do a <- s_prv a idx before;
    do a <- s_nxt a idx after;
    do a <- s_prv a after idx;
    do a <- s_par a idx 0;
    s_chd a idx 0
  else None.

(** tree.hpp:907-940 *)
Definition link (a : arena V) (parent pos idx : nat) : option (arena V) :=
  do child <- g_chd a parent;
  let after := pos in
  do before <- (if negb (after =? 0) then (if negb (child =? after) then g_prv a after else Some 0)
                else (if negb (child =? 0) then g_prv a child else Some 0));
  do a <- (if before =? 0 then
             do a <- s_chd a parent idx;
             do tail <- (if negb (after =? 0) then g_prv a after else Some idx);
             s_prv a idx tail
           else
             do a <- s_nxt a before idx;
             s_prv a idx before);
  do a <- (if after =? 0 then
             do a <- s_nxt a idx 0;
             if negb (before =? 0) then s_prv a child idx else Some a
           else
             do a <- s_prv a after idx;
             s_nxt a idx after);
  s_par a idx parent.

(** tree.hpp:1028-1055 *)
Definition unlink (a : arena V) idx : option (arena V) :=
  if idx =? 0 then None else
  do parent <- g_par a idx;
  do child <- g_chd a parent;
  do before <- (if negb (child =? idx) then g_prv a idx else Some 0);
  do after <- g_nxt a idx;
  do a <- (if before =? 0 then
             if after =? 0 then s_chd a parent 0
             else
               do a <- s_chd a parent after;
               do q <- g_prv a idx;
               s_prv a after q
           else s_nxt a before after);
  if after =? 0 then
    if negb (before =? 0) then s_prv a child before else Some a
  else
    do q <- g_prv a idx;
    s_prv a after q.

(** tree.hpp:551-558 *)
Definition insert (a : arena V) (pos : iter) (v : V) : option (arena V * iter) :=
  do (a, idx) <- allocate a v;
  do a <- link a (fst pos) (snd pos) idx;
  Some (a, (fst pos, idx)).

(** the loops for (j = m_child; j != 0; j = (d + j)->m_next) of tree.hpp:517 and 712, giving the js *)
Fixpoint sibs fuel (a : arena V) (j : nat) : option (list nat) :=
  match fuel with
  | 0 => None
  | S fuel => if j =? 0 then Some [] else do n <- g_nxt a j; do r <- sibs fuel a n; Some (j :: r)
  end.
Definition sibs_from (a : arena V) j := sibs (S (length a)) a j.

(** tree.hpp:708-715. The stack is a list whose head is v.back(). *)
Fixpoint erase_loop fuel (a : arena V) (v : list nat) : option (arena V) :=
  match v with
  | [] => Some a
  | i :: v =>
      match fuel with
      | 0 => None
      | S fuel =>
          do c <- g_chd a i;
          do js <- sibs_from a c;
          do a <- free a i;
          erase_loop fuel a (rev js ++ v)
      end
  end.

(** tree.hpp:694-718 *)
Definition erase (a : arena V) (pos : iter) : option (arena V * iter) :=
  if snd pos =? 0 then None else
  do after <- g_nxt a (snd pos);
  do a <- unlink a (snd pos);
  do a <- erase_loop (length a) a [snd pos];
  Some (a, (fst pos, after)).

(** tree.hpp:501-521 *)
Fixpoint size_loop fuel (a : arena V) (stack : list nat) (n : nat) : option nat :=
  match stack with
  | [] => Some n
  | i :: stack =>
      match fuel with
      | 0 => None
      | S fuel => do c <- g_chd a i; do js <- sibs_from a c; size_loop fuel a (rev js ++ stack) (S n)
      end
  end.
Definition size_at (a : arena V) (pos : iter) : option nat :=
  if snd pos =? 0 then Some 0 else size_loop (length a) a [snd pos] 0.

(** tree.hpp:480-493 *)
Fixpoint size_roots fuel (a : arena V) (it1 it2 : iter) (n : nat) : option nat :=
  match fuel with
  | 0 => None
  | S fuel => if it_neq it1 it2 then do k <- size_at a it1; do it1 <- it_inc a it1; size_roots fuel a it1 it2 (n + k)
              else Some n
  end.
Definition size (a : arena V) : option nat := do b <- t_begin a; size_roots (S (length a)) a b (t_end a) 0.

(** tree.hpp:474 *)
Definition empty (a : arena V) : option bool := do n <- size a; Some (n =? 0).

(** tree.hpp:414-428 *)
Definition front (a : arena V) : option V := do e <- empty a; if e then None else do b <- t_begin a; it_deref a b.
Definition back (a : arena V) : option V := front a.

(** tree.hpp:672-685. The loop of 676-679: [Some true] when sub is met (exception). *)
Fixpoint meets fuel (a : arena V) (i sub : nat) : option bool :=
  match fuel with
  | 0 => None
  | S fuel => if i =? 0 then Some false else if i =? sub then Some true else do p <- g_par a i; meets fuel a p sub
  end.
(** [None] inside is the thrown std::invalid_argument. *)
Definition move (a : arena V) (pos sub : iter) : option (option (arena V * iter)) :=
  do m <- meets (S (length a)) a (snd pos) (snd sub);
  if m then Some None else
  do a <- unlink a (snd sub);
  do a <- link a (fst pos) (snd pos) (snd sub);
  Some (Some (a, (fst pos, snd sub))).

(** tree.hpp:620-624 and 637-639: pushing the children through reverse iterators; [it1] is the base of the
    reverse iterator. Head of the list is v.back(). *)
Fixpoint push_rev fuel (a : arena V) (it1 it2 : iter) (v : list iter) : option (list iter) :=
  match fuel with
  | 0 => None
  | S fuel => if it_neq it1 it2 then do it1 <- it_dec a it1; push_rev fuel a it1 it2 (it1 :: v) else Some v
  end.
Definition push_children (a : arena V) (it : iter) (v : list iter) : option (list iter) :=
  do e <- it_end a it; do b <- it_begin a it; push_rev (S (length a)) a e b v.

(** tree.hpp:627-643. [x] is the parent stack, head is x.back(). *)
Fixpoint copy_loop fuel (a : arena V) (x : list (iter * iter)) (v : list iter) : option (arena V) :=
  match v with
  | [] => Some a
  | it :: v =>
      match fuel with
      | 0 => None
      | S fuel =>
          match x with
          | [] => None
          | (_, s) :: x' =>
              do p <- it_parent a it;
              let x := if it_neq p s then x' else x in
              match x with
              | [] => None
              | (d, _) :: _ =>
                  do e <- it_end a d;
                  do w <- it_deref a it;
                  do (a, p) <- insert a e w;
                  do b <- it_begin a it;
                  do e <- it_end a it;
                  if it_neq b e then do v <- push_children a it v; copy_loop fuel a ((p, it) :: x) v
                  else copy_loop fuel a x v
              end
          end
      end
  end.

(** tree.hpp:612-646; [fuel] bounds the number of copied nodes *)
Definition insert_copy fuel (a : arena V) (pos sub : iter) : option (arena V * iter) :=
  do w <- it_deref a sub;
  do (a, ret) <- insert a pos w;
  do v <- push_children a sub [];
  do a <- copy_loop fuel a [(ret, sub)] v;
  Some (a, ret).

(** ** tree_iterator.hpp *)

(** the children pushed by push(first, last), tree_iterator.hpp:38-42 and 83-86: the iterators from begin to end *)
Fixpoint range fuel (a : arena V) (first last : iter) : option (list iter) :=
  match fuel with
  | 0 => None
  | S fuel => if it_neq first last then do n <- it_inc a first; do r <- range fuel a n last; Some (first :: r)
              else Some []
  end.
Definition children (a : arena V) (it : iter) : option (list iter) :=
  do b <- it_begin a it; do e <- it_end a it; range (S (length a)) a b e.

(** tree_iterator.hpp:208-214 with tree_iterator_stack (34, 38-42): pop the front, insert at the front *)
Definition pre_next (a : arena V) (st : list iter) : option (list iter) :=
  match st with [] => None | it :: st => do c <- children a it; Some (c ++ st) end.
(** tree_iterator.hpp:208-214 with tree_iterator_queue (79, 83-86): pop the front, append at the back *)
Definition level_next (a : arena V) (st : list iter) : option (list iter) :=
  match st with [] => None | it :: st => do c <- children a it; Some (st ++ c) end.

(** for (it = I(x); it != I(); ++it) visit(it.base()); tree_iterator.hpp:167-170, 188, 233-238 *)
Fixpoint traverse (next : arena V -> list iter -> option (list iter)) fuel (a : arena V) (st : list iter) : option (list iter) :=
  match st with
  | [] => Some []
  | it :: _ =>
      match fuel with
      | 0 => None
      | S fuel => do st' <- next a st; do r <- traverse next fuel a st'; Some (it :: r)
      end
  end.

End Tree.
