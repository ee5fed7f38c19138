(** The lookup of named character references in the input stream buffer: wide labels on a double array, and the
    search for the longest name. *)
From Coq Require Import ZArith List Bool.
From Verif Require Import M_trie M_html_table.
Import ListNotations.
Open Scope Z_scope.

Section Lookup.
(** Reading a node of the array: [None] is a read outside the vector (undefined). *)
Variable nd : Z -> option (Z * Z).
(** The number of nodes. *)
Variable lim : Z.

(** trie_iterator.hpp:152-168: one round of the loop in operator[]: the transition from [parent] on the byte [ch];
    0 when there is none. The array is read at base + ch without a comparison with limit(). *)
Definition byte_step (parent ch : Z) : option Z :=
  match nd parent with
  | None => None
  | Some (base, _) =>
      if base <=? 0 then Some 0
      else match nd (base + ch) with
           | None => None
           | Some (_, check) => if check =? parent then Some (base + ch) else Some 0
           end
  end.

(** trie_iterator.hpp:141-174, operator[] with coefficient = sizeof(char32_t) = 4: the bytes of the label from the
    most significant one; [n] counts the bytes left. *)
Fixpoint wide_step (n : nat) (label parent : Z) : option Z :=
  match n with
  | O => Some parent
  | S k =>
      match byte_step parent (Z.land (Z.shiftr label (8 * Z.of_nat k)) 0xFF) with
      | None => None
      | Some idx => if idx =? 0 then Some 0 else wide_step k label idx
      end
  end.

(** trie_base_iterator.hpp:65-78, operator bool *)
Definition at_end (i : Z) : option bool :=
  if i <=? 1 then Some false
  else match nd i with
       | None => None
       | Some (base, _) =>
           if base <=? 0 then Some true
           else if base + null_value <? lim then
             match nd (base + null_value) with None => None | Some (_, check) => Some (check =? i) end
           else Some false
       end.

(** trie_base.hpp:257-267 and trie_heap.hpp:63-67: at(pos) read as an index; the assertion of the proxy is kept *)
Definition leaf_value (i : Z) : option Z :=
  match nd i with
  | None => None
  | Some (base, _) =>
      match nd (if base <=? 0 then i else base + null_value) with
      | None => None
      | Some (v, _) => if v <=? 0 then Some (- v) else None
      end
  end.

(** input_stream.hpp:342-350: the loop; [i] characters were read, [it] is it1, [tail] and [j] as in the source *)
Fixpoint scan_names (b : list Z) (i : nat) (it tail : Z) (j : nat) : option (Z * nat) :=
  match b with
  | [] => Some (tail, j)
  | c :: r =>
      if it =? 0 then Some (tail, j)
      else match wide_step 4 c it with
           | None => None
           | Some it1 =>
               match at_end it1 with
               | None => None
               | Some true => scan_names r (S i) it1 it1 (S i)
               | Some false => scan_names r (S i) it1 tail j
               end
           end
  end.

(** input_stream.hpp:332-372 and tokenization.hpp:2604-2606: the length matched and the code points to use. The local
    string of lines 351-352 is never used and is left out. The loop of lines 354-362 climbs from [tail] to the first end
    of a name; [tail] is always such an end or the root, so it stops at once. *)
Definition match_names (map : list (Z * Z)) (b : list Z) : option (nat * list Z) :=
  match scan_names b 0 1 1 0 with
  | None => None
  | Some (tail, j) =>
      if tail =? 1 then Some (O, [])
      else match leaf_value tail with
           | None => None
           | Some v =>
               match nth_error map (Z.to_nat v) with
               | None => None
               | Some (x, y) => Some (j, x :: if y =? 0 then [] else [y])
               end
           end
  end.
End Lookup.

(** match_named_character_reference on the table of the repository *)
Definition match_ncr (b : list Z) : option (nat * list Z) :=
  match_names (node_at ncr_heap) (limit ncr_heap) ncr_map b.
