(** C03: push matcher. Theorems only; proofs in L_matcher. *)
From Coq Require Import ZArith List.
From Verif Require Import M_matcher L_matcher.
Import ListNotations.
Open Scope Z_scope.

(** Each single answer, in every state reachable under the documented protocol. [t] is the text fed
    since construction or the last clear. The remaining answer, partial, is the complement of the two. *)
Theorem C03_answer : forall pats t m c m' r,
  reach pats t m -> matcher_push m c = (m', r) ->
  (r = succeed <-> In (t ++ [c]) pats) /\
  (r = failed <-> forall p, In p pats -> ~ exists rest, p = (t ++ [c]) ++ rest) /\
  m_s m' = t ++ [c].
Proof. exact matcher_answer. Qed.
Print Assumptions C03_answer.

(** A whole run from any protocol state: the first decisive answer is the shortest match, or the first
    point at which no pattern can match any more, or there is none. *)
Theorem C03_run : forall pats text t m, reach pats t m ->
  match feed m text with
  | (succeed, rest) => exists u, text = u ++ rest /\ u <> [] /\ In (t ++ u) pats /\
        forall v w, u = v ++ w -> v <> [] -> w <> [] -> ~ In (t ++ v) pats
  | (failed, rest) => exists u, text = u ++ rest /\ u <> [] /\
        (forall p, In p pats -> ~ exists x, p = (t ++ u) ++ x) /\
        forall v w, u = v ++ w -> v <> [] -> ~ In (t ++ v) pats
  | (partial, rest) => rest = [] /\ forall v w, text = v ++ w -> v <> [] ->
        ~ In (t ++ v) pats /\ exists p, In p pats /\ exists x, p = (t ++ v) ++ x
  end.
Proof. exact feed_spec. Qed.
Print Assumptions C03_run.

Example C03_ex :
  let m := matcher_make [[97; 98; 99]; [97; 99]; []; [97; 98; 99]] in
  reach [[97; 98; 99]; [97; 99]; []; [97; 98; 99]] [] m /\
  feed m [97; 98; 99; 100] = (succeed, [100]) /\
  feed m [97; 98] = (partial, []) /\
  feed m [97; 100; 99] = (failed, [99]).
Proof. split; [apply reach_init|vm_compute; auto]. Qed.
