(** C04, C05, C06: fixed-capacity vector. Theorems only; proofs in L_static_vector. *)
From Coq Require Import List ZArith Arith Lia.
From Verif Require Import M_static_vector L_static_vector.
Import ListNotations.

(** C04: any operation history behaves like the same history on a length-limited list ([spec_run]);
    both are undefined (assertion, invalid position) on exactly the same histories.
    [arg_safe] excludes references into the part of the vector the call shifts (see C05). *)
Theorem C04_history : forall (A : Type) (cap : nat) (d : A) (ops : list (sv_op A)),
  ops_valid cap [] ops -> Forall arg_safe ops ->
  option_map sv_contents (sv_run (sv_empty d cap) ops) = spec_run cap [] ops.
Proof. exact @history_contents. Qed.
Print Assumptions C04_history.

(** C04: indexing, size and capacity after any history. *)
Theorem C04_observers : forall (A : Type) (cap : nat) (d : A) (ops : list (sv_op A)) (s : svec A),
  ops_valid cap [] ops -> Forall arg_safe ops -> sv_run (sv_empty d cap) ops = Some s ->
  exists l, spec_run cap [] ops = Some l /\ sv_size s = length l /\ length l <= cap /\
    (forall i, i < length l -> sv_index s i = nth_error l i /\ sv_at s i = nth_error l i) /\
    (forall i, cap <= i -> sv_at s i = None).
Proof. exact @index_ok. Qed.
Print Assumptions C04_observers.

Definition ex_ops : list (sv_op nat) :=
  [OpAssign [1; 2; 3]; OpPushBack (Slot 0); OpInsert 1 (Val 9); OpInsertN 2 2 (Slot 0); OpErase 0;
   OpResize 7 (Slot 1); OpPopBack; OpEraseRange 1 3; OpInsertList 0 [5; 6]].
Example C04_ex :
  ops_valid 8 [] ex_ops /\ Forall arg_safe ex_ops /\
  spec_run 8 [] ex_ops = Some [5; 6; 9; 2; 3; 1] /\
  option_map sv_contents (sv_run (sv_empty 0 8) ex_ops) = Some [5; 6; 9; 2; 3; 1] /\
  spec_run 5 [] ex_ops = None.
Proof. cbn. repeat split; try (repeat constructor; cbn; lia); lia. Qed.

(** C05 is false as stated. at() accepts an index that is not an element. *)
Theorem C05_at_refuted : exists (s : svec nat) (i x : nat),
  sv_run (sv_empty 0 4) [OpAssign [7; 8]; OpPopBack] = Some s /\ sv_size s <= i /\ sv_at s i = Some x.
Proof. exists (SVec [7; 8; 0; 0] 1), 1, 8. vm_compute. auto. Qed.
Print Assumptions C05_at_refuted.

(** C05: inserting a reference to a later element of the same vector inserts another value. *)
Theorem C05_self_insert_refuted : exists (ops : list (sv_op nat)) (s : svec nat) (l : list nat),
  ops_valid 8 [] ops /\ sv_run (sv_empty 0 8) ops = Some s /\ spec_run 8 [] ops = Some l /\ sv_contents s <> l.
Proof.
  exists [OpAssign [10; 20; 30]; OpInsert 0 (Slot 2)], (SVec [20; 10; 20; 30; 0; 0; 0; 0] 4), [30; 10; 20; 30].
  cbn. repeat split; auto; try lia; discriminate.
Qed.
Print Assumptions C05_self_insert_refuted.

(** C05, guarded: element references not shifted by the call are safe in every operation. *)
Theorem C05_self_reference_partial : forall (A : Type) (cap : nat) (s : svec A) (o : sv_op A),
  wf cap s -> arg_valid (sv_contents s) o -> arg_safe o ->
  rel cap (sv_step s o) (spec_step cap (sv_contents s) o).
Proof. exact @step_ok. Qed.
Print Assumptions C05_self_reference_partial.

Example C05_self_reference_ex : 
  let s := SVec [10; 20; 30; 0] 3 in
  wf 4 s /\ arg_valid (sv_contents s) (OpInsert 1 (Slot 1)) /\ arg_safe (A := nat) (OpInsert 1 (Slot 1)) /\
  option_map sv_contents (sv_step s (OpInsert 1 (Slot 1))) = Some [10; 20; 20; 30].
Proof. cbn. repeat split; cbn; lia. Qed.

(** C06: every comparison operator, in terms of the lexicographic order of the contents. *)
Theorem C06_compare : forall s t : svec Z,
  (sv_eq s t = true <-> sv_contents s = sv_contents t) /\
  (sv_ne s t = true <-> sv_contents s <> sv_contents t) /\
  (sv_lt s t = true <-> lex_lt (sv_contents s) (sv_contents t)) /\
  (sv_le s t = true <-> lex_lt (sv_contents s) (sv_contents t) \/ sv_contents s = sv_contents t) /\
  (sv_gt s t = true <-> lex_lt (sv_contents t) (sv_contents s)) /\
  (sv_ge s t = true <-> lex_lt (sv_contents t) (sv_contents s) \/ sv_contents s = sv_contents t).
Proof. exact compare_ok. Qed.
Print Assumptions C06_compare.

(** C06: that order is a strict total order. *)
Theorem C06_total_order :
  (forall a, ~ lex_lt a a) /\
  (forall a b c, lex_lt a b -> lex_lt b c -> lex_lt a c) /\
  (forall a b, lex_lt a b \/ a = b \/ lex_lt b a).
Proof. exact lex_lt_order. Qed.
Print Assumptions C06_total_order.

Example C06_ex : sv_lt (SVec [1; 2; 7]%Z 2) (SVec [1; 2; 0]%Z 3) = true /\ sv_eq (SVec [1; 5]%Z 1) (SVec [1; 6]%Z 1) = true.
Proof. vm_compute. auto. Qed.
