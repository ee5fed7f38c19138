(** Model of the trie over labels wider than a byte: include/wordring/trie/trie.hpp (basic_trie) and
    trie_iterator.hpp (const_trie_iterator), for sizeof(Label) = [w] bytes and [w] > 1.  With one byte labels these
    classes hand everything to their base, which is M_trie.v.

    Simplifications: those of M_trie.v; the count of transitions [i] of lookup is unbounded (std::uint32_t in the
    code); a key is the list of its labels, and the bytes a serialize_iterator yields on it are taken from
    M_serialize.v (C02_serialize_iterator proves that they are these).  Definitions only. *)
From Coq Require Import ZArith List Bool.
From Verif Require Import M_serialize M_trie.
Import ListNotations.
Open Scope Z_scope.
Open Scope trie_scope.

(** trie.hpp:454-455, 653-654, 818-819: the bytes from serialize_iterator(first) to serialize_iterator(last) *)
Definition wide (w : nat) (key : list Z) : list Z := flat_map (serialize w) key.

(** ** basic_trie *)

(** trie.hpp:825 *)
Fixpoint bt_up (n : nat) (h : heap) (idx : Z) : option Z :=
  match n with
  | O => Some idx
  | S m => do p <- it_parent h idx; bt_up m h p
  end.
(** trie.hpp:803-832.  The second component is the key from ret.second.base() on: the base iterator moves on once in
    [w] steps (serialize_iterator.hpp:104-109). *)
Definition bt_lookup (w : nat) (h : heap) (key : list Z) : option (Z * list Z) :=
  do (idx, rest) <- lookup h 1 (wide w key);
  let i := (length (wide w key) - length rest)%nat in
  do idx1 <- bt_up (i mod w) h idx;
  Some (idx1, skipn (i / w) key).

(** trie.hpp:842-852 *)
Definition bt_search (w : nat) (h : heap) (key : list Z) : option Z :=
  do (idx, rest) <- bt_lookup w h key; Some (match rest with [] => idx | _ => 0 end).

(** trie.hpp:892-905; is_tail is the one of trie_heap for both bases (trie.hpp:166) *)
Definition bt_find (w : nat) (h : heap) (key : list Z) : option Z :=
  do (idx, rest) <- bt_lookup w h key;
  match rest with
  | [] => do t <- is_tail h idx; Some (if t : bool then idx else 0)
  | _ => Some 0
  end.

(** trie.hpp:943-954 *)
Definition bt_contains (w : nat) (h : heap) (key : list Z) : option bool :=
  do (idx, rest) <- bt_lookup w h key;
  match rest with
  | [] => is_tail h idx
  | _ => Some false
  end.

(** trie.hpp:643-660 over stable_trie_base and over trie_base *)
Definition wst_insert (w : nat) (h : heap) (key : list Z) (value : Z) : option (heap * Z) := st_insert h (wide w key) value.
Definition wtb_insert (w : nat) (h : heap) (key : list Z) (value : Z) : option (heap * Z) := tb_insert h (wide w key) value.

(** trie.hpp:738-744 *)
Definition wst_erase (w : nat) (h : heap) (key : list Z) : option heap := do idx <- bt_find w h key; st_erase_at h idx.
Definition wtb_erase (w : nat) (h : heap) (key : list Z) : option heap := do idx <- bt_find w h key; tb_erase_at h idx.

(** trie.hpp:444-461 *)
Definition wst_get (w : nat) (h : heap) (key : list Z) : option (option Z) := st_get h (wide w key).
Definition wtb_get (w : nat) (h : heap) (key : list Z) : option (option Z) := tb_get h (wide w key).

(** trie.hpp:550-557: trie[key] = value *)
Definition wst_set (w : nat) (h : heap) (key : list Z) (value : Z) : option heap :=
  do idx <- bt_find w h key;
  do (h1, idx1) <- (if idx =? 0 then wst_insert w h key 0 else Some (h, idx));
  do i <- st_value_index h1 idx1; proxy_set h1 i value.
Definition wtb_set (w : nat) (h : heap) (key : list Z) (value : Z) : option heap :=
  do idx <- bt_find w h key;
  do (h1, idx1) <- (if idx =? 0 then wtb_insert w h key 0 else Some (h, idx));
  do i <- tb_value_index h1 idx1; proxy_set h1 i value.

(** trie.hpp:331-345: the branch for wide labels does not clear *)
Fixpoint wst_assign (w : nat) (h : heap) (keys : list (list Z)) : option heap :=
  match keys with
  | [] => Some h
  | k :: r => do (h1, _) <- wst_insert w h k 0; wst_assign w h1 r
  end.
Fixpoint wtb_assign (w : nat) (h : heap) (keys : list (list Z)) : option heap :=
  match keys with
  | [] => Some h
  | k :: r => do (h1, _) <- wtb_insert w h k 0; wtb_assign w h1 r
  end.

(** ** const_trie_iterator *)

(** trie_iterator.hpp:99-110; [i] is the loop variable, [n] the passes left.  idx - base is an std::int32_t, so a shift
    by 32 or more is undefined ([None]); a smaller one is taken modulo the width of the label. *)
Fixpoint wi_deref_loop (w n i : nat) (h : heap) (idx result : Z) : option Z :=
  match n with
  | O => Some result
  | S m =>
      do parent <- g_check h idx;
      assert ((1 <=? parent) && (parent <? limit h));
      do b <- g_base h parent;
      assert ((1 <=? b) && (b <? limit h));
      assert ((i * 8 <? 32)%nat);
      wi_deref_loop w m (S i) h parent ((result + (idx - b) * 2 ^ Z.of_nat (i * 8)) mod modulus w)
  end.
(** trie_iterator.hpp:87-114; [sgn] tells whether Label is signed *)
Definition wi_deref (w : nat) (sgn : bool) (h : heap) (idx : Z) : option Z :=
  assert ((1 <? idx) && (idx <? limit h));
  do u <- wi_deref_loop w w 0 h idx 0;
  Some (if sgn then to_signed w u else u).

(** trie_iterator.hpp:152-171; [bs] are the bytes of the label.  Nothing tests base + ch against the limit. *)
Fixpoint wi_at_loop (bs : list Z) (h : heap) (parent : Z) : option Z :=
  match bs with
  | [] => Some parent
  | ch :: r =>
      do b <- g_base h parent;
      if b <=? 0 then Some 0 else
      do k <- g_check h (b + ch);
      if negb (k =? parent) then Some 0 else wi_at_loop r h (b + ch)
  end.
(** trie_iterator.hpp:141-175 *)
Definition wi_at (w : nat) (h : heap) (idx label : Z) : option Z :=
  assert ((1 <=? idx) && (idx <? limit h)); wi_at_loop (serialize w label) h idx.

(** trie_iterator.hpp:188-200; [n] is coefficient - lv *)
Fixpoint wi_right (n : nat) (h : heap) (i : Z) (lv : nat) : option (Z * nat) :=
  match n with
  | O => Some (0, lv)
  | S m =>
      do parent <- g_check h i;
      do b <- g_base h parent;
      do j <- it_find h (i + 1) (b + null_value) parent;
      if negb (j =? 0) then Some (j, lv) else wi_right m h parent (S lv)
  end.
(** trie_iterator.hpp:205-211 *)
Fixpoint wi_down (lv : nat) (h : heap) (idx : Z) : option Z :=
  match lv with
  | O => Some idx
  | S m =>
      do b <- g_base h idx;
      do j <- it_find h b (b + null_value) idx;
      assert (negb (j =? 0)); wi_down m h j
  end.
(** trie_iterator.hpp:177-218 *)
Definition wi_next (w : nat) (h : heap) (idx : Z) : option Z :=
  do (i, lv) <- wi_right w h idx 0;
  if negb (i =? 0) then wi_down lv h i else Some 0.

(** trie_iterator.hpp:279-294 *)
Fixpoint wi_parent (w : nat) (h : heap) (idx : Z) : option Z :=
  match w with
  | O => Some idx
  | S m =>
      do p <- g_check h idx;
      assert ((1 <=? p) && (p <? limit h)); wi_parent m h p
  end.

(** trie_iterator.hpp:296-321; [w] is coefficient - lv *)
Fixpoint wi_begin (w : nat) (h : heap) (idx : Z) : option Z :=
  match w with
  | O => Some idx
  | S m =>
      if idx =? 0 then Some 0 else
      do b <- g_base h idx;
      do i <- (if 1 <=? b then it_find h b (b + null_value) idx else Some 0);
      wi_begin m h i
  end.

(** trie_iterator.hpp:251-257, collected in reverse *)
Fixpoint wi_string_rev (fuel w : nat) (sgn : bool) (h : heap) (idx : Z) : option (list Z) :=
  match fuel with
  | O => None
  | S f =>
      if 1 <? idx then
        do c <- wi_deref w sgn h idx;
        do p <- wi_parent w h idx;
        do r <- wi_string_rev f w sgn h p; Some (c :: r)
      else Some []
  end.
Definition wi_string (w : nat) (sgn : bool) (h : heap) (idx : Z) : option (list Z) :=
  do r <- wi_string_rev (S (length h)) w sgn h idx; Some (rev r).

(** for (it = p.begin(); it != p.end(); ++it) *)
Fixpoint wi_from (fuel w : nat) (h : heap) (idx : Z) : option (list Z) :=
  match fuel with
  | O => None
  | S f => if idx =? 0 then Some [] else
           do n <- wi_next w h idx; do r <- wi_from f w h n; Some (idx :: r)
  end.
Definition wi_children (w : nat) (h : heap) (idx : Z) : option (list Z) :=
  do b <- wi_begin w h idx; wi_from (S (length h)) w h b.

(** tree_iterator.hpp:208-214 over these iterators, as [traverse] of M_trie.v *)
Fixpoint wi_traverse (fuel w : nat) (h : heap) (st : list Z) : option (list Z) :=
  match st with
  | [] => Some []
  | idx :: rest =>
      match fuel with
      | O => None
      | S f => do c <- wi_children w h idx; do r <- wi_traverse f w h (c ++ rest); Some (idx :: r)
      end
  end.
(** trie.hpp:91-95: string() of every node for which operator bool holds *)
Fixpoint wi_strings (it_bool : heap -> Z -> option bool) (w : nat) (sgn : bool) (h : heap) (l : list Z) : option (list (list Z)) :=
  match l with
  | [] => Some []
  | idx :: rest =>
      do b <- it_bool h idx;
      do r <- wi_strings it_bool w sgn h rest;
      if b : bool then do s <- wi_string w sgn h idx; Some (s :: r) else Some r
  end.
Definition wi_enumerate (it_bool : heap -> Z -> option bool) (w : nat) (sgn : bool) (h : heap) (idx : Z) : option (list (list Z)) :=
  do l <- wi_traverse (S (length h)) w h [idx]; wi_strings it_bool w sgn h l.
