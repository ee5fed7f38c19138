(** Theorems about the container tag_tree (C88-C92).

    [Rep dv a f fr] says that the arena [a] holds the forest [f] (a node is one tag or a pair of tags, the tags are
    the list from tag 0 back to tag 0) and the free tags [fr]; every tag is in one of the two.
    [put_at t p f f'] puts the node [t] before the tag [p] of the forest [f], [cut t f g] takes the node [t] out. *)
From Coq Require Import List Arith Bool Lia ZArith Sorted Permutation.
From Verif Require Import M_tree M_tag L_tag L_tag2 L_tag3 L_tag4 L_tag5 L_tag6 L_tag7 L_tag8.
Import ListNotations.
Open Scope tree_scope.

Section T.
Context {V : Type}.
Variable dv : V.
Notation tags := (@tags V).
Notation tr := (tr V).
Implicit Types (a : tags) (f g : list tr).

(** *** C88: insert and erase *)

(** A new container and a cleared one are empty. *)
Theorem C88_empty : Rep dv (tt_init dv) [] [] /\ forall a, tt_clear dv a = tt_init dv.
Proof. split; [apply rep_init|reflexivity]. Qed.

(** Inserting at any position puts one childless node there and nothing else changes; the node takes the least free
    tag, or a new one. *)
Theorem C88_insert single a f fr p v : Rep dv a f fr -> place p f ->
  exists a' t f' fr', tt_insert single dv a p v = Some (a', first t) /\ put_at t p f f' /\ Rep dv a' f' fr' /\ value t = v /\
    first t = match fr with [] => length a | j :: _ => j end /\
    match t with One _ _ => single v = true | Pair _ _ _ c => single v = false /\ c = [] end.
Proof. apply rep_insert. Qed.

(** Erasing any node takes it and what is below it out, frees exactly their tags, and returns the position behind it. *)
Theorem C88_erase a f fr t : Rep dv a f fr -> within t f ->
  exists a' g r fr', tt_erase a (first t) = Some (a', r) /\ cut t f g /\ Rep dv a' g fr' /\ i_inc a (first t) = Some r /\
    Permutation fr' (tags_of t ++ fr) /\ length a' = length a.
Proof. apply rep_erase. Qed.

(** The arena determines the forest and the free tags, which are kept in order. *)
Theorem C88_unique a f g fr fr' : Rep dv a f fr -> Rep dv a g fr' -> f = g /\ fr = fr' /\ StronglySorted lt fr /\
  Permutation (flat_map tags_of f ++ fr) (seq 1 (length a - 1)).
Proof.
  intros H H'. destruct (rep_unique dv a f g fr fr' H H') as (A & B). split; [exact A|]. split; [exact B|]. split; [apply (h_sorted _ _ _ _ H)|].
  rewrite <- (tags_fids dv f). apply (h_all _ _ _ _ H).
Qed.

(** *** C89: move *)

(** A move to any position outside of the node, but the one directly behind it, does just that. *)
Theorem C89_move_partial a t p f g f' fr : Rep dv a f fr -> cut t f g -> put_at t p g f' -> i_inc a (first t) <> Some p ->
  exists a', tt_move a p (first t) = Some (a', first t) /\ Rep dv a' f' fr.
Proof. apply move_holds. Qed.

(** A move to the position directly behind the node, which should change nothing, loses the node and all below it:
    the list is the one without it, and its tags are neither in the list nor free. *)
Theorem C89_lost a t p f g fr : Rep dv a f fr -> cut t f g -> i_inc a (first t) = Some p ->
  exists a', tt_move a p (first t) = Some (a', first t) /\ Holds a' (fmarks dv g) (tags_of t) fr.
Proof.
  intros H C E. destruct (move_lost dv a t p f g fr H C E) as (a' & M & R). exists a'. rewrite tags_ids in R. auto.
Qed.

(** *** C90: children and parents *)

(** [begin] and [end] of the container and of each node *)
Theorem C90_ends a f fr : Rep dv a f fr ->
  tt_begin a = Some (hd 0 (map first f)) /\ tt_empty a = Some (match f with [] => true | _ => false end) /\
  (forall s e v c, within (Pair s e v c) f -> i_begin a s = Some (hd e (map first c)) /\ i_end a s = Some e) /\
  (forall i v, within (One i v) f -> i_begin a i = Some 0 /\ i_end a i = Some 0).
Proof. apply ends. Qed.

(** [++] goes from each child to the next and from the last to the end, [--] the same way back. *)
Theorem C90_walk a f fr s e c1 x c2 : Rep dv a f fr -> children f s e (c1 ++ x :: c2) ->
  i_inc a (first x) = Some (hd e (map first c2)) /\ i_dec a (hd e (map first c2)) = Some (first x).
Proof. apply walk. Qed.

(** [parent] of each child and of the end position *)
Theorem C90_parent a f fr s e c1 c2 : Rep dv a f fr -> children f s e (c1 ++ c2) -> i_parent a (hd e (map first c2)) = Some s.
Proof. apply parents. Qed.

(** *** C91: all tags in order, their pairs and the number of nodes *)
Theorem C91_serial a f fr l1 i l2 : Rep dv a f fr -> flat_map tags_of f = l1 ++ i :: l2 ->
  s_inc a i = Some (hd 0 l2) /\ s_dec a (hd 0 l2) = Some i.
Proof.
  intros H E. rewrite <- (tags_fids dv) in E. unfold ids in E. destruct (map_split _ _ _ _ _ E) as (m1 & k & m2 & E1 & <- & <- & <-).
  apply (serial dv a f fr m1 k m2 H E1).
Qed.

Theorem C91_pairs a f fr : Rep dv a f fr ->
  (forall s e v c, within (Pair s e v c) f -> s <> e /\ is_start_tag a s = Some true /\ is_end_tag a s = Some false /\
     is_start_tag a e = Some false /\ is_end_tag a e = Some true /\
     start_tag a s = Some s /\ start_tag a e = Some s /\ end_tag a s = Some e /\ end_tag a e = Some e) /\
  (forall i v, within (One i v) f -> is_start_tag a i = Some false /\ is_end_tag a i = Some false /\
     start_tag a i = Some 0 /\ end_tag a i = Some 0).
Proof. apply pairs. Qed.

Theorem C91_size a f fr : Rep dv a f fr -> tt_size a = Some (list_sum (map nodes f)).
Proof. apply size_nodes. Qed.

(** *** C92: characters *)
Section Chars.
Context {C : Type} (text : V -> option (list C)) (nul : C).

(** A loop from the beginning reads the texts of all text nodes in order, when none of them is empty. *)
Theorem C92_all_partial a f fr : Rep dv a f fr -> text dv = None -> Forall (full text) f ->
  exists b x, tt_begin a = Some b /\ c_make text a b = Some x /\
    forall fuel, length (flat_map (tree_text text) f) < fuel -> c_run text nul fuel a x = Some (flat_map (tree_text text) f).
Proof.
  intros H D F. pose proof (full_solid text dv D f F) as S. destruct (ends dv a f fr H) as (B & _).
  exists (hd 0 (map first f)), (hd c_end (cells text (fmarks dv f))). split; [exact B|]. split.
  - pose proof (make_cells text dv a f fr [] (fmarks dv f) H eq_refl S) as M. pose proof (hd_fmarks dv f []) as W. rewrite app_nil_r in W. rewrite W in M. exact M.
  - intros fuel L. pose proof (deref_cells text nul dv a f fr [] (fmarks dv f) H eq_refl) as Q. rewrite (chars_text text dv D) in Q.
    apply (run_cells text nul dv a f fr H S (cells text (fmarks dv f)) []); [reflexivity|exact Q|].
    pose proof (f_equal (@length _) Q) as W. rewrite !map_length in W. lia.
Qed.

(** A loop from a node [x] reads its text, and does not stop at its end but goes on to the end of the document:
    it reads exactly the characters of the tags behind the start of [x]. *)
Theorem C92_from_partial a f fr m1 m2 : Rep dv a f fr -> text dv = None -> Forall (full text) f -> fmarks dv f = m1 ++ m2 ->
  exists x, c_make text a (hd 0 (ids m2)) = Some x /\
    forall fuel, length (chars text m2) < fuel -> c_run text nul fuel a x = Some (chars text m2).
Proof.
  intros H D F E. pose proof (full_solid text dv D f F) as S. exists (hd c_end (cells text m2)). split.
  - apply (make_cells text dv a f fr m1 m2 H E). rewrite E in S. apply Forall_app in S. apply S.
  - intros fuel L. pose proof (deref_cells text nul dv a f fr m1 m2 H E) as Q.
    apply (run_cells text nul dv a f fr H S (cells text m2) (cells text m1)); [rewrite E; apply cells_app|exact Q|].
    pose proof (f_equal (@length _) Q) as W. rewrite !map_length in W. lia.
Qed.

(** Each step can be taken back, the end counting as a place before the first and behind the last character. *)
Theorem C92_back_partial a f fr : Rep dv a f fr -> text dv = None -> Forall (full text) f ->
  exists l, map (c_deref text nul a) l = map Some (flat_map (tree_text text) f) /\
    (forall l1 x l2, l = l1 ++ x :: l2 -> c_inc text a x = Some (hd c_end l2) /\ c_dec text a (hd c_end l2) = Some x) /\
    c_dec text a (hd c_end l) = Some c_end.
Proof.
  intros H D F. pose proof (full_solid text dv D f F) as S. exists (cells text (fmarks dv f)). split; [|split].
  - pose proof (deref_cells text nul dv a f fr [] (fmarks dv f) H eq_refl) as Q. rewrite (chars_text text dv D) in Q. exact Q.
  - intros l1 x l2 E. apply (step_cells text dv a f fr l1 x l2 H S E).
  - apply (first_cells text dv a f fr H S).
Qed.
End Chars.
End T.

Print Assumptions C88_empty.
Print Assumptions C88_insert.
Print Assumptions C88_erase.
Print Assumptions C88_unique.
Print Assumptions C89_move_partial.
Print Assumptions C89_lost.
Print Assumptions C90_ends.
Print Assumptions C90_walk.
Print Assumptions C90_parent.
Print Assumptions C91_serial.
Print Assumptions C91_pairs.
Print Assumptions C91_size.
Print Assumptions C92_all_partial.
Print Assumptions C92_from_partial.
Print Assumptions C92_back_partial.

(** *** Examples: values are a name and, for texts, the data; names below 10 are single tags *)
Definition ex_v : Type := (nat * list nat)%type.
Definition ex_single (v : ex_v) : bool := fst v <? 10.
Definition ex_text (v : ex_v) : option (list nat) := if fst v =? 3 then Some (snd v) else None.
Definition ex_dv : ex_v := (0, []).
Definition el : ex_v := (10, []).
Definition tx (s : list nat) : ex_v := (3, s).

Ltac comp := repeat match goal with |- _ /\ _ => split end; vm_compute; repeat match goal with |- _ /\ _ => split end; try exact I; reflexivity.

Inductive ex_op := Ins (p : nat) (v : ex_v) | Mov (p s : nat) | Del (s : nat).
Definition ex_do (a : tags) (o : ex_op) : option (@tags ex_v * nat) :=
  match o with Ins p v => tt_insert ex_single ex_dv a p v | Mov p s => tt_move a p s | Del s => tt_erase a s end.
Definition ex_run (l : list ex_op) : option (@tags ex_v) :=
  fold_left (fun oa o => match oa with Some a => option_map fst (ex_do a o) | None => None end) l (Some (tt_init ex_dv)).

(** an element (1, 2) holding the texts 3 "ab" and the element (4, 5), which holds the text 6 "c"; a text 7 "d" behind it *)
Definition ex_ops : list ex_op := [Ins 0 el; Ins 2 (tx [97; 98]); Ins 2 el; Ins 5 (tx [99]); Ins 0 (tx [100])].
Definition ex_f : list (tr ex_v) := [Pair 1 2 el [One 3 (tx [97; 98]); Pair 4 5 el [One 6 (tx [99])]]; One 7 (tx [100])].
Definition ex_a : @tags ex_v := match ex_run ex_ops with Some a => a | None => [] end.

Example C88_ex : ex_run ex_ops = Some ex_a /\ Rep ex_dv ex_a ex_f [].
Proof.
  split; [vm_compute; reflexivity|]. unfold Rep. constructor.
  - comp.
  - repeat constructor.
  - comp.
  - constructor.
  - vm_compute. lia.
  - change (Permutation [1; 3; 4; 6; 5; 2; 7] [1; 2; 3; 4; 5; 6; 7]). apply perm_skip, Permutation_sym.
    apply (Permutation_cons_app [3; 4; 6; 5] [7]). cbn [app]. apply perm_skip, perm_skip, perm_swap.
Qed.

Example C88_erase_ex : exists a, tt_erase ex_a 4 = Some (a, 2) /\ r_tail a 0 = Some 4 /\
  option_map snd (tt_insert ex_single ex_dv a 3 (tx [101])) = Some 4.
Proof.
  exists (match tt_erase ex_a 4 with Some (a, _) => a | None => [] end). comp.
Qed.

Example C88_place_ex : place 5 ex_f /\ place 0 ex_f /\ within (One 6 (tx [99])) ex_f.
Proof.
  split; [right; vm_compute; tauto|]. split; [left; reflexivity|].
  apply within_in, within_next, within_in, within_here.
Qed.

(** the inner element put behind the last text *)
Example C89_ex : exists g f' a', cut (Pair 4 5 el [One 6 (tx [99])]) ex_f g /\ put_at (Pair 4 5 el [One 6 (tx [99])]) 0 g f' /\
  i_inc ex_a 4 <> Some 0 /\ tt_move ex_a 0 4 = Some (a', 4) /\ i_parent a' 4 = Some 0.
Proof.
  exists [Pair 1 2 el [One 3 (tx [97; 98])]; One 7 (tx [100])],
    [Pair 1 2 el [One 3 (tx [97; 98])]; One 7 (tx [100]); Pair 4 5 el [One 6 (tx [99])]]. eexists.
  split; [apply cut_in, cut_next, cut_here|]. split; [apply (put_end _ [_; _])|]. split; [vm_compute; discriminate|]. split; vm_compute; reflexivity.
Qed.

(** Moving a node to the place where it is (before the next node) loses it: the container has four nodes instead of
    five, and the tags are not free either. *)
Theorem C89_move_refuted : exists a a' : @tags ex_v, ex_run ex_ops = Some a /\ i_inc a 3 = Some 4 /\ tt_move a 4 3 = Some (a', 3) /\
  tt_size a = Some 5 /\ tt_size a' = Some 4 /\ i_begin a' 1 = Some 4 /\ option_map snd (allocate a' el) = Some 8.
Proof.
  exists ex_a, (match tt_move ex_a 4 3 with Some (a, _) => a | None => [] end). comp.
Qed.
Print Assumptions C89_move_refuted.

(** A move before itself and a move below itself are not refused, and lose the node as well. *)
Theorem C89_itself_refuted : exists a a' a'' : @tags ex_v, ex_run ex_ops = Some a /\
  tt_move a 4 4 = Some (a', 4) /\ tt_size a' = Some 3 /\ tt_move a 5 4 = Some (a'', 4) /\ tt_size a'' = Some 3.
Proof.
  exists ex_a, (match tt_move ex_a 4 4 with Some (a, _) => a | None => [] end), (match tt_move ex_a 5 4 with Some (a, _) => a | None => [] end).
  comp.
Qed.
Print Assumptions C89_itself_refuted.

Example C90_ex : children ex_f 1 2 ([One 3 (tx [97; 98])] ++ Pair 4 5 el [One 6 (tx [99])] :: []) /\
  i_inc ex_a 4 = Some 2 /\ i_dec ex_a 2 = Some 4 /\ i_parent ex_a 2 = Some 1 /\ i_parent ex_a 4 = Some 1 /\ i_parent ex_a 1 = Some 0.
Proof. split; [right; eexists; apply within_here|]. comp. Qed.

Example C91_ex : flat_map tags_of ex_f = [1; 3; 4; 6; 5; 2; 7] /\ s_inc ex_a 5 = Some 2 /\ start_tag ex_a 5 = Some 4 /\ tt_size ex_a = Some 5.
Proof. comp. Qed.

Example C92_ex : Forall (full ex_text) ex_f /\ ex_text ex_dv = None /\ fmarks ex_dv ex_f = firstn 3 (fmarks ex_dv ex_f) ++ skipn 3 (fmarks ex_dv ex_f) /\
  (do x <- c_make ex_text ex_a 1; c_run ex_text 0 9 ex_a x) = Some [97; 98; 99; 100].
Proof.
  split; [|comp].
  repeat match goal with
  | |- Forall _ _ => constructor
  | |- full _ (One _ _) => apply full_one
  | |- full _ (Pair _ _ _ _) => apply full_pair
  | |- forall s, _ => intros s E; cbn in E; (discriminate E || (injection E as <-; split; [discriminate|vm_compute; reflexivity]))
  end.
Qed.

(** An empty text is read as one character, and going back into it gives the index 2^32 - 1, where there is nothing to
    read. *)
Theorem C92_empty_refuted : exists a : @tags ex_v, ex_run [Ins 0 (tx []); Ins 0 (tx [97])] = Some a /\
  (do x <- c_make ex_text a 1; c_run ex_text 0 9 a x) = Some [0; 97] /\
  (do x <- c_dec ex_text a (2, 0%Z); Some (x, c_deref ex_text 0 a x)) = Some ((1, 4294967295%Z), None).
Proof.
  exists (match ex_run [Ins 0 (tx []); Ins 0 (tx [97])] with Some a => a | None => [] end).
  comp.
Qed.
Print Assumptions C92_empty_refuted.
