(** Model of the double-array trie: include/wordring/trie/trie_heap.hpp, trie_base.hpp, stable_trie_base.hpp,
    the byte-label iterators trie_heap_iterator.hpp, trie_base_iterator.hpp, stable_trie_base_iterator.hpp,
    the bulk-construction iterators list_trie_iterator.hpp and trie_construct_iterator.hpp, and the atom
    set string/atom.hpp at byte labels.

    Simplifications: index_type (std::int32_t) is [Z] without wrap-around, the container pointer of an iterator is
    left out, allocation never fails.  Out-of-range access, failing asserts and loops that do not end are [None].
    Definitions only. *)
From Coq Require Import ZArith List Bool.
From Verif Require Import M_serialize.
Import ListNotations.
Open Scope Z_scope.

Declare Scope trie_scope.
Notation "'do' x <- e ; k" := (match e with Some x => k | None => None end)
  (at level 200, x pattern, e at level 100, k at level 200) : trie_scope.
Notation "'assert' b ; k" := (if b then k else None)
  (at level 200, b at level 100, k at level 200) : trie_scope.
Open Scope trie_scope.

(** trie_heap.hpp:23-29, 211: a node is (m_base, m_check), m_c a vector of nodes *)
Definition heap := list (Z * Z).

(** trie_heap.hpp:214 *)
Definition null_value : Z := 256.

(** trie_heap.hpp:395 *)
Definition limit (h : heap) : Z := Z.of_nat (length h).

(** (d + i)->m_base and (d + i)->m_check as rvalues *)
Definition node_at (h : heap) (i : Z) : option (Z * Z) := if i <? 0 then None else nth_error h (Z.to_nat i).
Definition g_base (h : heap) (i : Z) : option Z := option_map fst (node_at h i).
Definition g_check (h : heap) (i : Z) : option Z := option_map snd (node_at h i).

(** (d + i)->m_base = x and (d + i)->m_check = x *)
Fixpoint set_nth (h : heap) (i : nat) (f : Z * Z -> Z * Z) : option heap :=
  match h, i with
  | [], _ => None
  | n :: r, O => Some (f n :: r)
  | n :: r, S j => do r' <- set_nth r j f; Some (n :: r')
  end.
Definition s_base (h : heap) (i x : Z) : option heap :=
  if i <? 0 then None else set_nth h (Z.to_nat i) (fun n => (x, snd n)).
Definition s_check (h : heap) (i x : Z) : option heap :=
  if i <? 0 then None else set_nth h (Z.to_nat i) (fun n => (fst n, x)).

(** trie_heap.hpp:364-368, 373-376 *)
Definition th_clear : heap := [(0, 0); (0, 0)].

(** trie_heap.hpp:406-410, the search for the last free node *)
Fixpoint last_free (fuel : nat) (h : heap) (before : Z) : option Z :=
  match fuel with
  | O => None
  | S f =>
      do k <- g_check h before;
      if - k =? 0 then Some before else
      assert (- k <? limit h); last_free f h (- k)
  end.

(** trie_heap.hpp:412-416; [n] counts id up to last *)
Fixpoint link_new (n : nat) (h : heap) (before id : Z) : option heap :=
  match n with
  | O => Some h
  | S m => do h1 <- s_check h before (- id); link_new m h1 id (id + 1)
  end.

(** trie_heap.hpp:397-417 *)
Definition reserve (h : heap) (n : nat) (before : Z) : option heap :=
  assert ((0 <=? before) && (before <? limit h));
  let h1 := h ++ repeat (0, 0) n in
  do b <- last_free (S (length h1)) h1 before;
  link_new n h1 b (limit h).

(** std::is_sorted(labels.begin(), labels.end()) (trie_heap.hpp:445, 554, 575, 800) *)
Fixpoint sorted_labels (l : list Z) : bool :=
  match l with
  | a :: (b :: _) as r => (a <=? b) && sorted_labels r
  | _ => true
  end.

(** trie_heap.hpp:457-461: the free-list predecessor of idx; [i] is the loop variable *)
Fixpoint seek (fuel : nat) (h : heap) (i before idx : Z) : option Z :=
  match fuel with
  | O => None
  | S f =>
      if i =? idx then Some before else
      assert (i <? limit h);
      do k <- g_check h i; seek f h (- k) i idx
  end.

(** trie_heap.hpp:451-465 *)
Fixpoint allocate_loop (h : heap) (base : Z) (labels : list Z) (before : Z) : option heap :=
  match labels with
  | [] => Some h
  | label :: rest =>
      let idx := base + label in
      assert (idx <? limit h);
      do k <- g_check h idx;
      if 1 <=? k then allocate_loop h base rest before else
      do b <- seek (S (S (length h))) h before before idx;
      do k1 <- g_check h idx;
      do h1 <- s_check h b k1;
      do h2 <- s_check h1 idx 0;
      allocate_loop h2 base rest b
  end.

(** trie_heap.hpp:441-466 *)
Definition allocate (h : heap) (base : Z) (labels : list Z) (before : Z) : option heap :=
  assert ((1 <=? base) && negb (length labels =? 0)%nat && sorted_labels labels && (before <? limit h));
  let back := base + last labels 0 in
  do h1 <- (if limit h <=? back then reserve h (Z.to_nat (back + 1 - limit h)) 0 else Some h);
  allocate_loop h1 base labels before.

(** trie_heap.hpp:533-537 *)
Fixpoint free_seek (fuel : nat) (h : heap) (before idx : Z) : option Z :=
  match fuel with
  | O => None
  | S f =>
      do k <- g_check h before;
      if negb (- k =? 0) && (- k <? idx) then assert (- k <? limit h); free_seek f h (- k) idx
      else Some before
  end.

(** trie_heap.hpp:526-544; also returns before *)
Definition th_free (h : heap) (idx before : Z) : option (heap * Z) :=
  assert ((1 <? idx) && (idx <? limit h) && (0 <=? before) && (before <? limit h));
  do b <- free_seek (S (length h)) h before idx;
  do h1 <- s_base h idx 0;
  do k <- g_check h1 b;
  do h2 <- s_check h1 idx k;
  do h3 <- s_check h2 b (- idx);
  Some (h3, b).

(** trie_heap.hpp:558-562 *)
Fixpoint free_loop (h : heap) (base : Z) (labels : list Z) (before : Z) : option heap :=
  match labels with
  | [] => Some h
  | label :: rest =>
      assert (base + label <? limit h);
      do (h1, b) <- th_free h (base + label) before;
      free_loop h1 base rest b
  end.

(** trie_heap.hpp:548-563, before = 0 *)
Definition free_labels (h : heap) (base : Z) (labels : list Z) : option heap :=
  assert ((1 <=? base) && (base <? limit h) && (base + last labels 0 <? limit h)
          && negb (length labels =? 0)%nat && sorted_labels labels);
  free_loop h base labels 0.

(** trie_heap.hpp:606-623 *)
Fixpoint is_free_loop (h : heap) (base : Z) (labels : list Z) : option bool :=
  match labels with
  | [] => Some true
  | label :: rest =>
      if (label =? 0) && (base =? 1) then Some false else
      if limit h <=? base + label then Some true else
      do k <- g_check h (base + label);
      if 1 <=? k then Some false else is_free_loop h base rest
  end.
Definition is_free (h : heap) (base : Z) (labels : list Z) : option bool :=
  assert ((1 <=? base) && negb (length labels =? 0)%nat); is_free_loop h base labels.

(** trie_heap.hpp:627-646 *)
Fixpoint is_free_for_loop (h : heap) (parent base : Z) (labels : list Z) : option bool :=
  match labels with
  | [] => Some true
  | label :: rest =>
      if (label =? 0) && (base =? 1) then Some false else
      if limit h <=? base + label then Some true else
      do k <- g_check h (base + label);
      if (1 <=? k) && negb (parent =? k) then Some false else is_free_for_loop h parent base rest
  end.
Definition is_free_for (h : heap) (parent base : Z) (labels : list Z) : option bool :=
  assert ((1 <=? parent) && (parent <? limit h) && (1 <=? base) && negb (length labels =? 0)%nat);
  is_free_for_loop h parent base labels.

(** trie_heap.hpp:586; returns (idx, before) *)
Fixpoint locate_skip (fuel : nat) (h : heap) (offset idx before : Z) : option (Z * Z) :=
  match fuel with
  | O => None
  | S f =>
      if (0 <? idx) && (idx <=? offset) then do k <- g_check h idx; locate_skip f h offset (- k) idx
      else Some (idx, before)
  end.

(** trie_heap.hpp:591; returns (idx, before) *)
Fixpoint locate_fit (fuel : nat) (h : heap) (labels : list Z) (offset idx before : Z) : option (Z * Z) :=
  match fuel with
  | O => None
  | S f =>
      if idx =? 0 then Some (idx, before) else
      do b <- is_free h (idx - offset) labels;
      if b then Some (idx, before) else do k <- g_check h idx; locate_fit f h labels offset (- k) idx
  end.

(** trie_heap.hpp:572-602; returns (base, before) *)
Definition locate (h : heap) (labels : list Z) : option (Z * Z) :=
  assert (negb (length labels =? 0)%nat && sorted_labels labels);
  let offset := hd 0 labels in
  do k <- g_check h 0;
  do (idx, before) <- locate_skip (S (length h)) h offset (- k) 0;
  do (base, before) <-
     (if offset <? idx
      then do (idx1, before1) <- locate_fit (S (length h)) h labels offset idx before;
           Some ((if negb (idx1 =? 0) then idx1 - offset else 0), before1)
      else Some (0, before));
  let base := if base =? 0 then Z.max (limit h - offset) 1 else base in
  assert ((1 <=? base) && (0 <=? before) && (before <? base + offset));
  Some (base, before).

(** trie_heap.hpp:477-483: the labels of the children of parent; [n] counts i up to last *)
Fixpoint child_labels (n : nat) (h : heap) (parent from i : Z) : option (list Z) :=
  match n with
  | O => Some []
  | S m =>
      do k <- g_check h i;
      do r <- child_labels m h parent from (i + 1);
      Some (if k =? parent then (i - from) :: r else r)
  end.

(** std::set_union (trie_heap.hpp:486) *)
Fixpoint set_union (a : list Z) : list Z -> list Z :=
  fix go (b : list Z) : list Z :=
    match a, b with
    | [], _ => b
    | _, [] => a
    | x :: a', y :: b' =>
        if x <? y then x :: set_union a' b else
        if y <? x then y :: go b' else x :: set_union a' b'
    end.

(** trie_heap.hpp:507-511: grandchildren of idx get the new index; [n] counts i up to last *)
Fixpoint adopt (n : nat) (h : heap) (idx new i : Z) : option heap :=
  match n with
  | O => Some h
  | S m =>
      do k <- g_check h i;
      do h1 <- (if k =? idx then s_check h i new else Some h);
      adopt m h1 idx new (i + 1)
  end.

(** trie_heap.hpp:493-513 *)
Fixpoint move_children (h : heap) (from to : Z) (children : list Z) : option heap :=
  match children with
  | [] => Some h
  | label :: rest =>
      let idx := from + label in
      assert ((idx <? limit h) && (to + label <? limit h));
      do b <- g_base h idx;
      do h1 <- s_base h (to + label) b;
      do k <- g_check h1 idx;
      do h2 <- s_check h1 (to + label) k;
      do base <- g_base h2 idx;
      do h3 <-
        (if 1 <=? base
         then let lst := Z.min (base + null_value) (limit h2 - 1) in
              adopt (Z.to_nat (lst - base + 1)) h2 idx (to + label) base
         else Some h2);
      move_children h3 from to rest
  end.

(** trie_heap.hpp:470-520; label_vector holds at most 257 labels (212) *)
Definition relocate (h : heap) (parent from : Z) (labels : list Z) : option (heap * Z) :=
  assert ((1 <=? parent) && (parent <? limit h) && (1 <=? from) && (from <? limit h));
  let lst := Z.min (from + null_value) (limit h - 1) in
  do children <- child_labels (Z.to_nat (lst - from + 1)) h parent from from;
  let all := set_union labels children in
  assert ((length all <=? 257)%nat);
  do (to, before) <- locate h all;
  do h1 <- allocate h to all before;
  do h2 <- move_children h1 from to children;
  assert (parent <? limit h2);
  do h3 <- s_base h2 parent to;
  do h4 <- free_labels h3 from children;
  Some (h4, to).

(** trie_heap.hpp:651-660 *)
Definition is_tail (h : heap) (idx : Z) : option bool :=
  assert ((1 <=? idx) && (idx <? limit h));
  do base <- g_base h idx;
  if (base <=? 0) && negb (idx =? 1) then Some true else
  if (1 <=? base) && (base + null_value <? limit h) then
    do k <- g_check h (base + null_value); Some (k =? idx)
  else Some false.

(** trie_heap.hpp:678-682 *)
Fixpoint any_check (n : nat) (h : heap) (parent i : Z) (skip : Z) : option bool :=
  match n with
  | O => Some false
  | S m =>
      do k <- g_check h i;
      assert (k <? limit h);
      if (k =? parent) && negb (i =? skip) then Some true else any_check m h parent (i + 1) skip
  end.

(** trie_heap.hpp:664-686; no index is skipped (0 is never inside the range) *)
Definition has_child (h : heap) (parent : Z) : option bool :=
  assert ((1 <=? parent) && (parent <? limit h));
  do base <- g_base h parent;
  assert (base <? limit h);
  if 1 <=? base
  then let lst := Z.min (base + null_value) (limit h) in
       any_check (Z.to_nat (lst - base)) h parent base 0
  else Some false.

(** trie_heap.hpp:690-706 *)
Definition has_null (h : heap) (parent : Z) : option bool :=
  assert ((1 <=? parent) && (parent <? limit h));
  do base <- g_base h parent;
  assert (base <? limit h);
  if 1 <=? base
  then if base + null_value <? limit h
       then do k <- g_check h (base + null_value); Some (k =? parent)
       else Some false
  else Some false.

(** trie_heap.hpp:710-734 *)
Definition has_sibling (h : heap) (idx : Z) : option bool :=
  assert ((0 <=? idx) && (idx <? limit h));
  if idx <=? 1 then Some false else
  do parent <- g_check h idx;
  assert ((1 <=? parent) && (parent <? limit h));
  do base <- g_base h parent;
  assert ((1 <=? base) && (base <? limit h));
  let lst := Z.min (base + null_value) (limit h) in
  any_check (Z.to_nat (lst - base)) h parent base idx.

(** trie_heap.hpp:766-785 *)
Definition th_at (h : heap) (parent label : Z) : option Z :=
  assert ((1 <=? parent) && (parent <? limit h) && (label <=? null_value));
  do base <- g_base h parent;
  if 1 <=? base then
    let idx := base + label in
    do check <- (if idx <? limit h then g_check h idx else Some 0);
    Some (if negb (check =? parent) then 0 else idx)
  else Some 0.

(** trie_heap.hpp:818 *)
Fixpoint set_checks (h : heap) (base : Z) (labels : list Z) (parent : Z) : option heap :=
  match labels with
  | [] => Some h
  | label :: rest => do h1 <- s_check h (base + label) parent; set_checks h1 base rest parent
  end.

(** trie_heap.hpp:796-823; (787-790 is the case of one label) *)
Definition add (h : heap) (parent : Z) (labels : list Z) : option (heap * Z) :=
  assert ((parent <? limit h) && negb (length labels =? 0)%nat && sorted_labels labels);
  do base <- g_base h parent;
  assert (base <? limit h);
  do (h1, base1) <-
    (if base <=? 0 then
       do (b, before) <- locate h labels;
       do h1 <- allocate h b labels before; Some (h1, b)
     else
       do ok <- is_free_for h parent base labels;
       if ok : bool then do h1 <- allocate h base labels 0; Some (h1, base)
       else relocate h parent base labels);
  assert (base1 + last labels 0 <? limit h1);
  do h2 <- s_base h1 parent base1;
  do h3 <- set_checks h2 base1 labels parent;
  assert ((1 <=? base1) && (base1 <? limit h3));
  Some (h3, base1).

(** trie_base.hpp:617-636, stable_trie_base.hpp:621-640: lookup returns the node and the rest of the key.
    The same loop is the skipping of known transitions in insert (trie_base.hpp:467-472,
    stable_trie_base.hpp:500-505), there for a non-empty key. *)
Fixpoint lookup (h : heap) (parent : Z) (key : list Z) : option (Z * list Z) :=
  match key with
  | [] => Some (parent, [])
  | c :: rest =>
      do idx <- th_at h parent c;
      if idx =? 0 then Some (parent, key) else lookup h idx rest
  end.

(** m_c.front().m_base, the number of keys (trie_base.hpp:434, stable_trie_base.hpp:463) *)
Definition t_size (h : heap) : option Z := g_base h 0.
Definition add_size (h : heap) (n : Z) : option heap := do s <- g_base h 0; s_base h 0 (s + n).

(** trie_base.hpp:663-671, stable_trie_base.hpp:667-678 *)
Definition t_search (h : heap) (key : list Z) : option Z :=
  do (idx, rest) <- lookup h 1 key; Some (match rest with [] => idx | _ => 0 end).

(** The loops adding the new transitions (trie_base.hpp:497-503, stable_trie_base.hpp:510-515): returns
    (heap, base, parent). *)
Fixpoint add_key (h : heap) (base parent : Z) (key : list Z) : option (heap * Z * Z) :=
  match key with
  | [] => Some (h, base, parent)
  | c :: rest =>
      do (h1, b) <- add h parent [c];
      add_key h1 b (b + c) rest
  end.

(** stable_trie_base.hpp:490-526; 2147483647 is numeric_limits<int32_t>::max() *)
Definition st_insert (h : heap) (key : list Z) (value : Z) : option (heap * Z) :=
  assert (value <=? 2147483647);
  match key with
  | [] => Some (h, 0)
  | _ =>
      do (parent, rest) <- lookup h 1 key;
      do n <- has_null h parent;
      if negb n || negb (length rest =? 0)%nat then
        do (h1, _, p) <- add_key h 0 parent rest;
        assert (negb (p =? 1));
        do (h2, b) <- add h1 p [null_value];
        do h3 <- s_base h2 (b + null_value) (- value);
        do h4 <- add_size h3 1;
        Some (h4, p)
      else Some (h, parent)
  end.

(** stable_trie_base.hpp:689-700 *)
Definition st_find (h : heap) (key : list Z) : option Z :=
  do (idx, rest) <- lookup h 1 key;
  match rest with
  | [] => do n <- has_null h idx; Some (if n : bool then idx else 0)
  | _ => Some 0
  end.

(** stable_trie_base.hpp:723-732 *)
Definition st_contains (h : heap) (key : list Z) : option bool :=
  do (idx, rest) <- lookup h 1 key;
  match rest with
  | [] => do n <- has_null h idx; Some n
  | _ => Some false
  end.

(** stable_trie_base.hpp:563-568 *)
Fixpoint st_prune (fuel : nat) (h : heap) (idx : Z) : option heap :=
  match fuel with
  | O => None
  | S f =>
      if idx =? 1 then Some h else
      do n <- has_null h idx;
      if n : bool then Some h else
      do c <- has_child h idx;
      if c : bool then Some h else
      do parent <- g_check h idx;
      do (h1, _) <- th_free h idx 0;
      st_prune f h1 parent
  end.

(** stable_trie_base.hpp:551-572 *)
Definition st_erase_at (h : heap) (idx : Z) : option heap :=
  assert ((0 <=? idx) && (idx <? limit h));
  if idx <=? 1 then Some h else
  do n <- has_null h idx;
  if negb n then Some h else
  do b <- g_base h idx;
  let term := b + null_value in
  do k <- g_check h term;
  assert (k =? idx);
  do (h1, _) <- th_free h term 0;
  do h2 <- st_prune (S (length h)) h1 idx;
  do h3 <- add_size h2 (-1);
  do s <- t_size h3;
  Some (if s =? 0 then th_clear else h3).

(** stable_trie_base.hpp:581-585 *)
Definition st_erase (h : heap) (key : list Z) : option heap :=
  do idx <- st_find h key; st_erase_at h idx.

(** stable_trie_base.hpp:279-287: the index of the node holding the value *)
Definition st_value_index (h : heap) (idx : Z) : option Z :=
  do b <- g_base h idx;
  assert ((1 <? b + null_value) && (b + null_value <? limit h)); Some (b + null_value).

(** trie_value_proxy (trie_heap.hpp:57-67) at a node: reading and writing; a negative value throws
    std::invalid_argument, here [None]. *)
Definition proxy_get (h : heap) (idx : Z) : option Z :=
  do b <- g_base h idx; assert (b <=? 0); Some (- b).
Definition proxy_set (h : heap) (idx value : Z) : option heap :=
  if value <? 0 then None else s_base h idx (- value).

(** stable_trie_base.hpp:335-341: at(key) read; [Some None] is std::out_of_range *)
Definition st_get (h : heap) (key : list Z) : option (option Z) :=
  do idx <- st_find h key;
  if idx =? 0 then Some None else
  do i <- st_value_index h idx; do v <- proxy_get h i; Some (Some v).

(** stable_trie_base.hpp:403-413: trie[key] = value *)
Definition st_set (h : heap) (key : list Z) (value : Z) : option heap :=
  do idx <- st_find h key;
  do (h1, idx1) <- (if idx =? 0 then st_insert h key 0 else Some (h, idx));
  do i <- st_value_index h1 idx1; proxy_set h1 i value.

(** stable_trie_base.hpp:250-258 *)
Fixpoint st_insert_all (h : heap) (keys : list (list Z)) : option heap :=
  match keys with
  | [] => Some h
  | k :: r => do (h1, _) <- st_insert h k 0; st_insert_all h1 r
  end.
Definition st_assign (keys : list (list Z)) : option heap := st_insert_all th_clear keys.

(** trie_base.hpp:458-513 *)
Definition tb_insert (h : heap) (key : list Z) (value : Z) : option (heap * Z) :=
  assert (value <=? 2147483647);
  match key with
  | [] => Some (h, 0)
  | _ =>
      do (parent, rest) <- lookup h 1 key;
      let more := negb (length rest =? 0)%nat in
      do h1 <- (if more then add_size h 1 else Some h);
      do c <- has_child h1 parent;
      do n <- has_null h1 parent;
      do h2 <-
        (if c : bool then
           if negb more && negb n then
             do (h2, b) <- add h1 parent [null_value];
             do b0 <- g_base h2 (b + null_value);
             assert (b0 =? 0);
             do h3 <- s_base h2 (b + null_value) (- value);
             add_size h3 1
           else Some h1
         else if negb (parent =? 1) && negb n && more then
           do v <- g_base h1 parent;
           assert (v <=? 0);
           do (h2, b) <- add h1 parent [null_value];
           do b0 <- g_base h2 (b + null_value);
           assert (b0 =? 0);
           s_base h2 (b + null_value) v
         else Some h1);
      do (h3, b, p) <- add_key h2 0 parent rest;
      do h4 <- (if negb (b =? 0) then
                  do b0 <- g_base h3 p; assert (b0 =? 0); s_base h3 p (- value)
                else Some h3);
      assert (negb (p =? 1));
      Some (h4, p)
  end.

(** trie_base.hpp:697-707 *)
Definition tb_find (h : heap) (key : list Z) : option Z :=
  do (idx, rest) <- lookup h 1 key;
  match rest with
  | [] => do t <- is_tail h idx; Some (if t : bool then idx else 0)
  | _ => Some 0
  end.

(** trie_base.hpp:731-739 *)
Definition tb_contains (h : heap) (key : list Z) : option bool :=
  do (idx, rest) <- lookup h 1 key;
  match rest with
  | [] => is_tail h idx
  | _ => Some false
  end.

(** trie_base.hpp:543-564 *)
Fixpoint tb_prune (fuel : nat) (h : heap) (idx : Z) : option heap :=
  match fuel with
  | O => None
  | S f =>
      do n <- has_null h idx;
      if n : bool then
        do b <- g_base h idx;
        let i := b + null_value in
        do k <- g_check h i;
        assert (k =? idx);
        do (h1, _) <- th_free h i 0;
        do c <- has_child h1 idx;
        if c : bool then Some h1 else s_base h1 idx 0
      else
        do s <- has_sibling h idx;
        do parent <- (if s : bool then Some 0 else g_check h idx);
        assert ((0 <=? parent) && (parent <? limit h));
        do h1 <- (if negb (idx =? 1) then do (h1, _) <- th_free h idx 0; Some h1 else Some h);
        if parent =? 0 then Some h1 else tb_prune f h1 parent
  end.

(** trie_base.hpp:536-568 *)
Definition tb_erase_at (h : heap) (idx : Z) : option heap :=
  assert ((0 <=? idx) && (idx <? limit h));
  if idx <=? 1 then Some h else
  do t <- is_tail h idx;
  if negb t then Some h else
  do h2 <- tb_prune (S (length h)) h idx;
  do h3 <- add_size h2 (-1);
  do s <- t_size h3;
  Some (if s =? 0 then th_clear else h3).

(** trie_base.hpp:577-581 *)
Definition tb_erase (h : heap) (key : list Z) : option heap :=
  do idx <- tb_find h key; tb_erase_at h idx.

(** trie_base.hpp:257-267 *)
Definition tb_value_index (h : heap) (idx : Z) : option Z :=
  do b <- g_base h idx; Some (if b <=? 0 then idx else b + null_value).

(** trie_base.hpp:295-309; [Some None] is std::out_of_range *)
Definition tb_get (h : heap) (key : list Z) : option (option Z) :=
  do idx <- tb_find h key;
  if idx =? 0 then Some None else
  do i <- tb_value_index h idx; do v <- proxy_get h i; Some (Some v).

(** trie_base.hpp:371-384 *)
Definition tb_set (h : heap) (key : list Z) (value : Z) : option heap :=
  do idx <- tb_find h key;
  do (h1, idx1) <- (if idx =? 0 then tb_insert h key 0 else Some (h, idx));
  do i <- tb_value_index h1 idx1; proxy_set h1 i value.

(** ** Iterators.  An iterator is its m_index; 0 is the end. *)

(** trie_heap_iterator.hpp:102-108; [n] bounds the steps *)
Fixpoint find_loop (n : nat) (h : heap) (first tail check : Z) : option Z :=
  if first <? tail then
    match n with
    | O => None
    | S m => do k <- g_check h first; if k =? check then Some first else find_loop m h (first + 1) tail check
    end
  else Some first.
Definition it_find (h : heap) (first lst check : Z) : option Z :=
  let tail := Z.min lst (limit h) in
  do r <- find_loop (S (length h)) h first tail check;
  Some (if negb (r =? tail) then r else 0).

(** trie_heap_iterator.hpp:112-122 *)
Definition it_mother (h : heap) (idx : Z) : option Z :=
  assert ((1 <=? idx) && (idx <? limit h));
  do p <- g_check h idx; Some (if 1 <=? p then p else 0).

(** trie_heap_iterator.hpp:127-138 *)
Definition it_base (h : heap) (idx : Z) : option Z :=
  do parent <- it_mother h idx;
  assert (negb (parent =? 0));
  do b <- g_base h parent;
  assert (1 <=? b); Some b.

(** trie_heap_iterator.hpp:41-46, the label as a byte *)
Definition it_value (h : heap) (idx : Z) : option Z :=
  do b <- it_base h idx;
  assert ((b <=? idx) && (idx <? b + null_value)); Some ((idx - b) mod 256).

(** trie_heap_iterator.hpp:50-64 *)
Definition it_at (h : heap) (idx label : Z) : option Z :=
  do base <- g_base h idx;
  if 1 <=? base then
    if base + label <? limit h then
      do k <- g_check h (base + label); Some (if k =? idx then base + label else 0)
    else Some 0
  else Some 0.

(** trie_heap_iterator.hpp:68 *)
Definition it_advance (h : heap) (idx : Z) : option Z :=
  do b <- it_base h idx;
  do m <- it_mother h idx;
  it_find h (idx + 1) (b + null_value) m.

(** trie_heap_iterator.hpp:73-78 *)
Definition it_parent (h : heap) (idx : Z) : option Z := assert (1 <=? idx); g_check h idx.

(** trie_heap_iterator.hpp:84-92 *)
Definition it_begin (h : heap) (idx : Z) : option Z :=
  assert (1 <=? idx);
  do b <- g_base h idx;
  if 1 <=? b then it_find h b (b + null_value) idx else Some 0.

(** trie_heap_iterator.hpp:147-155 with stable_trie_base_iterator.hpp:68 (operator bool) *)
Definition st_it_bool (h : heap) (idx : Z) : option bool :=
  if 1 <? idx then
    do b <- g_base h idx;
    if b + null_value <? limit h then do k <- g_check h (b + null_value); Some (k =? idx) else Some false
  else Some false.

(** trie_base_iterator.hpp:67-80 *)
Definition tb_it_bool (h : heap) (idx : Z) : option bool :=
  if idx <=? 1 then Some false else
  do b <- g_base h idx;
  if b <=? 0 then Some true else
  if b + null_value <? limit h then do k <- g_check h (b + null_value); Some (k =? idx) else Some false.

(** trie_base_iterator.hpp:104-110, stable_trie_base_iterator.hpp:92-98: the key of a node, collected in reverse *)
Fixpoint it_string_rev (fuel : nat) (h : heap) (idx : Z) : option (list Z) :=
  match fuel with
  | O => None
  | S f =>
      if 1 <? idx then
        do c <- it_value h idx;
        do p <- it_parent h idx;
        do r <- it_string_rev f h p; Some (c :: r)
      else Some []
  end.
Definition it_string (h : heap) (idx : Z) : option (list Z) :=
  do r <- it_string_rev (S (length h)) h idx; Some (rev r).

(** for (it = p.begin(); it != p.end(); ++it): the children of a node in iteration order *)
Fixpoint it_from (fuel : nat) (h : heap) (idx : Z) : option (list Z) :=
  match fuel with
  | O => None
  | S f => if idx =? 0 then Some [] else
           do n <- it_advance h idx; do r <- it_from f h n; Some (idx :: r)
  end.
Definition it_children (h : heap) (idx : Z) : option (list Z) :=
  do b <- it_begin h idx; it_from (S (length h)) h b.

(** tree_iterator.hpp:208-214 with tree_iterator_stack (34, 38-42) over trie iterators: pop the front, insert the
    children at the front; for (it = tree_iterator(x); it != tree_iterator(); ++it) visit it.base() *)
Fixpoint traverse (fuel : nat) (h : heap) (st : list Z) : option (list Z) :=
  match st with
  | [] => Some []
  | idx :: rest =>
      match fuel with
      | O => None
      | S f => do c <- it_children h idx; do r <- traverse f h (c ++ rest); Some (idx :: r)
      end
  end.

(** The use shown in trie.hpp:91-95: walk the subtree of [idx] and read string() of each node for which operator
    bool holds. *)
Fixpoint strings (it_bool : heap -> Z -> option bool) (h : heap) (l : list Z) : option (list (list Z)) :=
  match l with
  | [] => Some []
  | idx :: rest =>
      do b <- it_bool h idx;
      do r <- strings it_bool h rest;
      if b : bool then do s <- it_string h idx; Some (s :: r) else Some r
  end.
Definition enumerate (it_bool : heap -> Z -> option bool) (h : heap) (idx : Z) : option (list (list Z)) :=
  do l <- traverse (S (length h)) h [idx]; strings it_bool h l.

(** ** Bulk assignment (trie_base.hpp:202-240) *)

(** const_list_trie_iterator: [li_range] is the list of strings from m_first to m_last, [li_level] is m_level.  The cache
    m_next is left out (it always holds the value recomputed here).  Reading a string at or behind m_last is [None]. *)
Record list_iter := LI { li_range : list (list Z); li_level : Z }.

(** list_trie_iterator.hpp:227-238 *)
Fixpoint li_skip (ch : Z) (lv : nat) (r : list (list Z)) : option (list (list Z)) :=
  match r with
  | [] => Some []
  | s :: r' => do c <- nth_error s lv; if ch =? c then li_skip ch lv r' else Some r
  end.
Definition li_drop (lv : nat) (r : list (list Z)) : list (list Z) :=
  match r with s :: r' => if (length s <=? lv)%nat then r' else r | [] => [] end.
Definition li_value (it : list_iter) : option Z := (* 77-88 *)
  assert ((0 <=? li_level it) && (match li_range it with [] => false | s :: _ => li_level it <=? Z.of_nat (length s) end));
  let lv := Z.to_nat (li_level it) in
  match li_drop lv (li_range it) with [] => None | s :: _ => nth_error s lv end.
Definition li_next (it : list_iter) : option (list (list Z)) := (* 221-239 *)
  let lv := Z.to_nat (li_level it) in
  match li_range it with
  | [] => None
  | _ => let r := li_drop lv (li_range it) in
         match r with [] => None | s :: _ => do ch <- nth_error s lv; li_skip ch lv r end
  end.

(** list_trie_iterator.hpp:138-158; the range of the children ends where next() stops *)
Definition li_begin (it : list_iter) : option list_iter :=
  let lv1 := Z.to_nat (li_level it + 1) in
  let it1 := match li_range it with s :: r => if (lv1 =? length s)%nat then r else li_range it | [] => [] end in
  if li_level it =? -1 then Some (LI it1 0) else
  do it2 <- li_next it;
  Some (if (length it1 =? length it2)%nat then LI [] (li_level it + 1)
        else LI (firstn (length it1 - length it2) it1) (li_level it + 1)).

(** list_trie_iterator.hpp:171-192; not called for the root *)
Definition li_has_child (it : list_iter) : option bool :=
  let lv := Z.to_nat (li_level it) in
  match li_range it with
  | [] => None
  | s :: r =>
      match (if (S lv =? length s)%nat then r else li_range it) with
      | [] => Some false
      | s1 :: _ => do ch <- li_value it; do c <- nth_error s1 lv; Some (ch =? c)
      end
  end.

(** list_trie_iterator.hpp:196-206 *)
Definition li_has_null (it : list_iter) : option bool :=
  if li_level it =? -1 then Some false else
  match li_range it with [] => None | s :: _ => Some (S (Z.to_nat (li_level it)) =? length s)%nat end.

(** list_trie_iterator.hpp:129-134 *)
Definition li_string (it : list_iter) : option (list Z) :=
  match li_range it with [] => None | s :: _ => Some (firstn (Z.to_nat (li_level it + 1)) s) end.

(** trie_construct_iterator.hpp:82-87: labels and iterators put into the queue *)
Fixpoint ci_loop (fuel : nat) (it : list_iter) : option (list Z * list list_iter) :=
  match li_range it with
  | [] => Some ([], [])
  | _ =>
      match fuel with
      | O => None
      | S f =>
          do l <- li_value it;
          do c <- li_has_child it;
          do r <- li_next it;
          do (ls, qs) <- ci_loop f (LI r (li_level it));
          Some (l :: ls, if c : bool then it :: qs else qs)
      end
  end.
(** trie_construct_iterator.hpp:73-89: (labels, what is put into the queue) *)
Definition ci_children (it : list_iter) : option (list Z * list list_iter) :=
  do it1 <- li_begin it;
  do (ls, qs) <- ci_loop (length (li_range it1)) it1;
  do n <- li_has_null it;
  Some (if n : bool then ls ++ [null_value] else ls, qs).
Definition ci_assign (queue : list list_iter) : option (list Z * list list_iter) :=
  match queue with [] => Some ([], []) | it :: _ => do (ls, qs) <- ci_children it; Some (ls, queue ++ qs) end.

(** trie_base.hpp:230-237; the state of the construct iterator is (labels, queue) *)
Fixpoint bulk_loop (fuel : nat) (h : heap) (st : list Z * list list_iter) : option heap :=
  match st with
  | (_, []) | ([], _) => Some h
  | (labels, it :: queue) =>
      match fuel with
      | O => None
      | S f =>
          do view <- li_string it;
          do (idx, _) <- lookup h 1 view;
          do (h1, _) <- add h (if idx =? 0 then 1 else idx) labels;
          do st1 <- ci_assign queue;
          bulk_loop f h1 st1
      end
  end.

(** operator< of std::string (unsigned bytes); std::is_sorted and no two neighbours equal (trie_base.hpp:214) *)
Fixpoint lexltb (a b : list Z) : bool :=
  match a, b with
  | _, [] => false
  | [], _ :: _ => true
  | x :: a', y :: b' => (x <? y) || ((x =? y) && lexltb a' b')
  end.
Fixpoint sorted_unique (ks : list (list Z)) : bool :=
  match ks with
  | a :: (b :: _) as r => lexltb a b && sorted_unique r
  | _ => true
  end.
Fixpoint tb_insert_all (h : heap) (keys : list (list Z)) : option heap :=
  match keys with
  | [] => Some h
  | k :: r => do (h1, _) <- tb_insert h k 0; tb_insert_all h1 r
  end.
(** trie_base.hpp:202-240; the loop runs once for every inner node *)
Definition tb_assign (keys : list (list Z)) : option heap :=
  if sorted_unique keys then
    do st <- ci_assign [LI keys (-1)];
    do h <- bulk_loop (S (length (concat keys))) th_clear st;
    s_base h 0 (Z.of_nat (length keys))
  else tb_insert_all th_clear keys.

(** ** Serialisation *)

(** trie_heap.hpp:115-119, 342-356: the values read from ibegin() to iend(), as uint32_t *)
Definition ivalues (h : heap) : list Z := flat_map (fun n => [fst n mod 2 ^ 32; snd n mod 2 ^ 32]) h.

(** static_cast<index_type> of an unsigned 32 bit value *)
Definition int32 (x : Z) : Z := let u := x mod 2 ^ 32 in if u <? 2 ^ 31 then u else u - 2 ^ 32.

(** trie_heap.hpp:286-287: at most [n] elements of [bits] bits; the shift is 8 whatever the element width *)
Fixpoint gather (n : nat) (bits : Z) (acc : Z) (input : list Z) : Z * list Z :=
  match n, input with
  | S m, x :: rest => gather m bits ((acc * 256 + x mod 2 ^ bits) mod 2 ^ 32) rest
  | _, _ => (acc, input)
  end.

(** trie_heap.hpp:274-291; [n] = sizeof(index_type) / sizeof(value_type) elements make one integer.  With n = 1 an
    odd number of elements reads past the end ([None]).  [fuel] bounds the number of nodes. *)
Fixpoint th_assign_loop (fuel n : nat) (bits : Z) (input : list Z) : option heap :=
  match fuel with
  | O => None
  | S f =>
      match input with
      | [] => Some []
      | _ =>
          if (n =? 1)%nat then
            match input with
            | b :: k :: rest =>
                do r <- th_assign_loop f n bits rest;
                Some ((int32 b, int32 k) :: r)
            | _ => None
            end
          else
            let '(b, rest) := gather n bits 0 input in
            let '(k, rest) := gather n bits 0 rest in
            do r <- th_assign_loop f n bits rest; Some ((int32 b, int32 k) :: r)
      end
  end.
Definition th_assign (n : nat) (bits : Z) (input : list Z) : option heap :=
  th_assign_loop (S (length input)) n bits input.

(** trie_heap.hpp:829-843 operator<<: the byte count, then every integer, most significant byte first *)
Definition th_write (h : heap) : list Z :=
  serialize 8 (limit h * 8) ++ concat (map (serialize 4) (ivalues h)).

(** trie_heap.hpp:856-862; [n] is the byte count read before, used as a number of nodes.  Every pass takes at least one
    element, so the length of the input bounds the passes. *)
Fixpoint th_read_loop (fuel : nat) (n : Z) (input : list Z) : option (heap * list Z) :=
  match input with
  | [] => Some ([], [])
  | _ =>
      if 0 <? n then
        match fuel with
        | O => None
        | S f =>
            let '(b, r1) := deserialize_signed 4 input in
            let '(k, r2) := deserialize_signed 4 r1 in
            do (h, rest) <- th_read_loop f (n - 1) r2; Some ((b, k) :: h, rest)
        end
      else Some ([], input)
  end.
(** trie_heap.hpp:845-865 operator>>: the heap and the input left in the stream *)
Definition th_read (input : list Z) : option (heap * list Z) :=
  let '(n, r) := deserialize 8 input in th_read_loop (length input) n r.

(** ** Atoms: include/wordring/string/atom.hpp, over byte strings *)

(** atom.hpp:114-128 operator uint32_t of the atom at node [idx] *)
Definition atom_id (h : heap) (idx : Z) : option Z :=
  if idx =? 0 then Some 0 else
  do b <- g_base h idx;
  let id := b + null_value in
  assert ((1 <? id) && (id <? limit h));
  do k <- g_check h id;
  assert (k =? idx); Some id.

(** atom.hpp:472-481 at(id): the node of the atom *)
Definition atom_at_id (h : heap) (id : Z) : option Z :=
  do idx <- g_check h id;
  assert ((1 <? idx) && (idx <? limit h));
  do b <- g_base h idx;
  assert (b + null_value =? id); Some idx.

(** atom.hpp:587-601 insert *)
Definition atom_insert (h : heap) (key : list Z) : option (heap * Z) :=
  do (h1, it) <- st_insert h key 0;
  do ok <- st_it_bool h1 it;
  if ok : bool then
    do idx <- st_value_index h1 it;
    do h2 <- proxy_set h1 idx idx; Some (h2, it)
  else Some (h1, it).

(** atom.hpp:557-562 operator[] *)
Definition atom_index (h : heap) (key : list Z) : option (heap * Z) :=
  do it <- st_find h key;
  do ok <- st_it_bool h it;
  if ok : bool then Some (h, it) else atom_insert h key.

(** atom.hpp:648-651 erase(id) *)
Definition atom_erase (h : heap) (id : Z) : option heap :=
  if id =? 0 then Some h else do idx <- atom_at_id h id; st_erase_at h idx.

(** the identifier of a string: static_cast<uint32_t>(set.at(key)), atom.hpp:506-510 *)
Definition atom_of (h : heap) (key : list Z) : option Z := do it <- st_find h key; atom_id h it.
