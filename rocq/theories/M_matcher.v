(** Model of the push-style multi-string matcher.
    Source: include/wordring/string/matcher.hpp.
    Characters are integers. Lengths are [nat]: pattern and text lengths are taken to be below 2^32,
    the range of the uint32_t variables [pos] and [n] (matcher.hpp:83-84). Definitions only. *)
From Coq Require Import ZArith List Bool.
Import ListNotations.

(** matcher.hpp:21-26 *)
Inductive match_result := partial | succeed | failed.

(** matcher.hpp:28-36 *)
Record entry := Entry { e_str : list Z; e_failed : bool }.

(** matcher.hpp:105-107 *)
Record matcher := Matcher { m_c : list entry; m_s : list Z }.

(** matcher.hpp:45-48 *)
Definition matcher_make (patterns : list (list Z)) : matcher :=
  Matcher (map (fun s => Entry s false) patterns) [].

(** matcher.hpp:65-69 *)
Definition matcher_clear (m : matcher) : matcher :=
  Matcher (map (fun e => Entry (e_str e) false) (m_c m)) [].

(** matcher.hpp:92  the condition; [nth_error] covers both [size() == pos] and the character test:
    when the entry has not failed, its size is at least [pos]. *)
Definition entry_mismatch (e : entry) (pos : nat) (ch : Z) : bool :=
  e_failed e || Nat.eqb (length (e_str e)) pos ||
  match nth_error (e_str e) pos with
  | Some c => negb (Z.eqb c ch)
  | None => true (* operator[] out of range: not reached, see L_matcher.entry_in_range *)
  end.

(** matcher.hpp:90-100  the loop; [size] is [m_s.size()] after the push. Result: entries afterwards,
    the count [n], and whether the loop returned early with succeed. *)
Fixpoint push_loop (size pos : nat) (ch : Z) (n : nat) (es : list entry)
  : list entry * nat * bool :=
  match es with
  | [] => ([], n, false)
  | e :: rest =>
      if entry_mismatch e pos ch then
        let '(r, n', b) := push_loop size pos ch (S n) rest in
        (Entry (e_str e) true :: r, n', b)
      else if Nat.eqb size (length (e_str e)) then (e :: rest, n, true)
      else
        let '(r, n', b) := push_loop size pos ch n rest in (e :: r, n', b)
  end.

(** matcher.hpp:81-103 *)
Definition matcher_push (m : matcher) (ch : Z) : matcher * match_result :=
  let pos := length (m_s m) in
  let s := m_s m ++ [ch] in
  let '(es, n, early) := push_loop (length s) pos ch 0 (m_c m) in
  (Matcher es s,
   if early then succeed
   else if Nat.eqb n (length (m_c m)) then failed else partial).
