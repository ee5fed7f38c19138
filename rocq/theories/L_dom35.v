(** The other modes, and all of them together. *)
From Coq Require Import ZArith List Bool String Lia.
From Verif Require Import M_infra M_encoding M_labels M_html M_html_serialize M_dom_names M_dom M_dom2 L_dom L_dom30 L_dom31 L_dom32 L_dom33 L_dom34.
Import ListNotations.
Open Scope Z_scope.
Open Scope dom_scope.
Open Scope list_scope.

Section Rest.
Variable emit : st -> ktok -> outcome st.
Variable use : mode -> st -> ktok -> outcome st.
Notation obeys := (obey emit use).
Hypothesis use_head : forall s k s', on_in_head emit s k = Val s' -> use M_in_head s k = Val s'.
Hypothesis use_body : forall s k s', plain_stack s -> departs M_in_body s k = false -> on_in_body emit s k = Val s' -> use M_in_body s k = Val s'.

Ltac in_scope_case c H P :=
  match type of H with
  | match in_scope ?f ?t ?s with Val _ => _ | Bad => _ | NoFuel => _ end = Val ?x =>
      let b := fresh "b" in let E := fresh "E" in
      destruct (in_scope f t s) as [b| |] eqn:E; try discriminate H;
      rewrite (scope_if emit use c t _ _ s b P E); destruct b; [|first [exact H|(injection H as <-; reflexivity)]]
  | match in_scope_any ?f ?t ?s with Val _ => _ | Bad => _ | NoFuel => _ end = Val ?x =>
      let b := fresh "b" in let E := fresh "E" in
      destruct (in_scope_any f t s) as [b| |] eqn:E; try discriminate H;
      rewrite (scope_any_if emit use c t _ _ s b P E); destruct b; [|first [exact H|(injection H as <-; reflexivity)]]
  end.
Ltac by_head := solve [apply head_std; auto].
Ltac by_body := solve [apply body_std; auto].

Lemma in_cell_std : forall s k s', plain_stack s -> departs M_in_cell s k = false -> on_in_cell emit s k = Val s' ->
  obeys (rules_in_cell k) s = Val s'.
Proof.
  intros s k s' P D H. destruct k as [d|g|t|d|c|]; cbn [on_in_cell rules_in_cell] in *; try by_body.
  - destruct (g_id g) eqn:G; pick; try by_body; in_scope_case In_table H P; rewrite imply_through, clear_std; exact H.
  - destruct t eqn:G; pick; try by_body; try exact H; in_scope_case In_table H P; rewrite ?imply_through1, ?imply_through, ?clear_std; exact H.
Qed.

Lemma pop_if_std : forall t r s s1, (run b <- cur_is t s; if b : bool then pop s else Val s) = Val s1 ->
  obeys (When (Current [t]) [Pop] r) s = obeys r s1.
Proof.
  intros t r s s1 H. destruct (cur_is t s) as [b| |] eqn:E; try discriminate H. rewrite (cur_when emit use t r s b E).
  destruct b; [rewrite H|injection H as <-]; reflexivity.
Qed.
Lemma optgroup_end_std : forall s s1,
  (run b <- cur_is T_option s;
   if b : bool then match s_stack s with _ :: e :: _ => if is_html T_optgroup (s_dom s) (en_node e) then pop s else Val s | _ => Bad end
   else Val s) = Val s1 ->
  (if holds Option_in_optgroup s then pop s else Val s) = Val s1.
Proof.
  intros s s1 H. unfold cur_is, cur in H. cbn [holds]. destruct (s_stack s) as [|e r]; [discriminate|]. rewrite one_of_one.
  destruct (is_html T_option (s_dom s) (en_node e)).
  - destruct r as [|f r]; [discriminate|]. rewrite one_of_one. cbn [andb]. exact H.
  - destruct r; exact H.
Qed.
Lemma in_select_std : forall s k s', plain_stack s -> on_in_select emit s k = Val s' -> obeys (rules_in_select k) s = Val s'.
Proof.
  intros s k s' P H. destruct k as [d|g|t|d|c|]; cbn [on_in_select rules_in_select] in *; try (now fin H).
  - destruct (g_id g) eqn:G; pick; try exact H; try by_head; try (now apply html_std);
      try (in_scope_case In_select H P; rewrite through_std; now fin H).
    + match type of H with match ?x with Val _ => _ | Bad => _ | NoFuel => _ end = _ => destruct x as [s1| |] eqn:E; try discriminate H end.
      rewrite (pop_if_std _ _ _ _ E).
      match type of H with match ?x with Val _ => _ | Bad => _ | NoFuel => _ end = _ => destruct x as [s2| |] eqn:E2; try discriminate H end.
      rewrite (pop_if_std _ _ _ _ E2). now fin H.
    + match type of H with match ?x with Val _ => _ | Bad => _ | NoFuel => _ end = _ => destruct x as [s1| |] eqn:E; try discriminate H end.
      rewrite (pop_if_std _ _ _ _ E). now fin H.
  - destruct t eqn:G; pick; try exact H; try by_head; try (in_scope_case In_select H P; rewrite through_std; now fin H).
    + match type of H with match ?x with Val _ => match match _ with _ => _ end with _ => _ end | Bad => _ | NoFuel => _ end = _ => idtac end.
      assert (X : exists s1, (if holds Option_in_optgroup s then pop s else Val s) = Val s1 /\
        (run b <- cur_is T_optgroup s1; if b : bool then pop s1 else Val s1) = Val s').
      { destruct (cur_is T_option s) as [b| |] eqn:E; try discriminate H.
        match type of H with match ?x with Val _ => _ | Bad => _ | NoFuel => _ end = _ => destruct x as [s1| |] eqn:E1; try discriminate H end.
        exists s1. split; [|exact H]. apply optgroup_end_std. rewrite E. exact E1. }
      destruct X as (s1 & X & Y).
      change (obeys (When Option_in_optgroup [Pop] ?r) s) with (run x <- (if holds Option_in_optgroup s then performs [Pop] s else Val s); obeys r x).
      assert (Z : (if holds Option_in_optgroup s then performs [Pop] s else Val s) = Val s1).
      { destruct (holds Option_in_optgroup s); [|exact X]. cbn [performs perform]. rewrite X. reflexivity. }
      rewrite Z. rewrite (pop_if_std _ _ _ _ Y). reflexivity.
    + rewrite (pop_if_std _ _ _ _ H). reflexivity.
  - destruct (c =? 0); now fin H.
  - by_body.
Qed.
Lemma in_template_std : forall s k s', plain_stack s -> on_in_template emit s k = Val s' -> obeys (rules_in_template k) s = Val s'.
Proof.
  intros s k s' P H. destruct k as [d|g|t|d|c|]; cbn [on_in_template rules_in_template] in *; try by_body.
  - destruct (g_id g) eqn:G; pick; try by_head; unfold pop_template in H; cbn [obey]; cbn [perform]; (destruct (s_templates s); [discriminate H|exact H]).
  - destruct t eqn:G; pick; try by_head; exact H.
  - now apply template_eof_std.
Qed.
Lemma after_body_std : forall s k s', plain_stack s -> on_after_body emit s k = Val s' -> obeys (rules_after_body k) s = Val s'.
Proof.
  intros s k s' P H. destruct k as [d|g|t|d|c|]; cbn [on_after_body rules_after_body] in *; try (now fin H).
  - destruct (g_id g) eqn:G; pick; try (now apply html_std); exact H.
  - destruct t eqn:G; pick; exact H.
  - rewrite front_rev in H. cbn [obey]. cbn [perform]. destruct (rev (s_stack s)); [discriminate H|]. rewrite H. reflexivity.
  - rewrite white_eq. destruct (is_ascii_white_space c); [by_body|exact H].
Qed.
Lemma in_frameset_std : forall s k s', on_in_frameset emit s k = Val s' -> obeys (rules_in_frameset k) s = Val s'.
Proof.
  intros s k s' H. destruct k as [d|g|t|d|c|]; cbn [on_in_frameset rules_in_frameset] in *; try (now fin H).
  - destruct (g_id g) eqn:G; pick; try exact H; try (now apply html_std); try by_head; unfold insert_void in H; now fin H.
  - destruct t eqn:G; pick; try exact H. destruct (cur_is T_html s) as [b| |] eqn:E; try discriminate H. rewrite obey_if, (cur_is_holds _ _ _ E).
    destruct b; [exact H|]. rewrite obey_do. change (perform Pop s) with (pop s). destruct (pop s) as [s1| |]; try discriminate H.
    rewrite obey_if. cbn [holds]. destruct (s_fragment s1); [exact H|]. destruct (cur_is T_frameset s1) as [f| |] eqn:F; try discriminate H.
    rewrite obey_if, (cur_is_holds _ _ _ F). destruct f; exact H.
  - rewrite white_eq. destruct (is_ascii_white_space c); now fin H.
Qed.
Lemma after_frameset_std : forall s k s', on_after_frameset emit s k = Val s' -> obeys (rules_after_frameset k) s = Val s'.
Proof.
  intros s k s' H. destruct k as [d|g|t|d|c|]; cbn [on_after_frameset rules_after_frameset] in *; try (now fin H).
  - destruct (g_id g) eqn:G; pick; try exact H; try (now apply html_std); try by_head.
  - destruct t eqn:G; pick; exact H.
  - rewrite white_eq. destruct (is_ascii_white_space c); now fin H.
Qed.
Lemma after_after_body_std : forall s k s', plain_stack s -> on_after_after_body emit s k = Val s' -> obeys (rules_after_after_body k) s = Val s'.
Proof.
  intros s k s' P H. destruct k as [d|g|t|d|c|]; cbn [on_after_after_body rules_after_after_body] in *; try (now fin H); try by_body.
  - destruct (g_id g) eqn:G; pick; try exact H; try (now apply html_std).
  - rewrite white_eq. destruct (is_ascii_white_space c); [by_body|exact H].
Qed.
Lemma after_after_frameset_std : forall s k s', plain_stack s -> on_after_after_frameset emit s k = Val s' -> obeys (rules_after_after_frameset k) s = Val s'.
Proof.
  intros s k s' P H. destruct k as [d|g|t|d|c|]; cbn [on_after_after_frameset rules_after_after_frameset] in *; try (now fin H); try by_body.
  - destruct (g_id g) eqn:G; pick; try exact H; try (now apply html_std); try by_head.
  - rewrite white_eq. destruct (is_ascii_white_space c); [by_body|exact H].
Qed.

Section Select.
Hypothesis use_select : forall s k s', plain_stack s -> on_in_select emit s k = Val s' -> use M_in_select s k = Val s'.
Lemma in_select_in_table_std : forall s k s', plain_stack s -> departs M_in_select_in_table s k = false -> on_in_select_in_table emit s k = Val s' ->
  obeys (rules_in_select_in_table k) s = Val s'.
Proof.
  assert (U : forall k s s', plain_stack s -> on_in_select emit s k = Val s' -> obeys (Use M_in_select k []) s = Val s') by (intros; now apply use_std, use_select).
  intros s k s' P D H. destruct k as [d|g|t|d|c|]; cbn [on_in_select_in_table rules_in_select_in_table departs] in *; try (now apply U).
  - destruct (g_id g) eqn:G; pick; try (now apply U); rewrite through_std; now fin H.
  - destruct t eqn:G; try discriminate D; pick; now apply U.
Qed.
End Select.
End Rest.

Section All.
Variable listed : list Z -> bool.
Variable emit : st -> ktok -> outcome st.
Notation std := (standard listed).

Lemma head_all : forall n s k s', on_in_head emit s k = Val s' -> std (S n) emit M_in_head s k = Val s'.
Proof. intros n s k s' H. cbn [standard rules]. now apply in_head_std. Qed.
Lemma body_all : forall n s k s', plain_stack s -> departs M_in_body s k = false -> on_in_body emit s k = Val s' -> std (S (S n)) emit M_in_body s k = Val s'.
Proof. intros n s k s' P D H. change (std (S (S n)) emit M_in_body s k) with (obey emit (std (S n) emit) (rules_in_body s k) s). apply in_body_std; auto. apply head_all. Qed.
Lemma body_char_all : forall n s c s', on_in_body emit s (KChar c) = Val s' -> std (S n) emit M_in_body s (KChar c) = Val s'.
Proof.
  intros n s c s' H. change (std (S n) emit M_in_body s (KChar c)) with (obey emit (std n emit) (rules_in_body s (KChar c)) s).
  cbn [rules_in_body on_in_body] in *. rewrite white_eq. destruct (c =? 0); [exact H|]. destruct (is_ascii_white_space c); now fin H.
Qed.
Lemma table_all : forall n s k s', plain_stack s -> departs M_in_table s k = false -> on_in_table emit s k = Val s' -> std (S (S (S n))) emit M_in_table s k = Val s'.
Proof.
  intros n s k s' P D H. change (std (S (S (S n))) emit M_in_table s k) with (obey emit (std (S (S n)) emit) (rules_in_table k) s).
  apply in_table_std; auto; [apply head_all|apply body_all].
Qed.
Lemma select_all : forall n s k s', plain_stack s -> on_in_select emit s k = Val s' -> std (S (S (S n))) emit M_in_select s k = Val s'.
Proof.
  intros n s k s' P H. change (std (S (S (S n))) emit M_in_select s k) with (obey emit (std (S (S n)) emit) (rules_in_select k) s).
  apply in_select_std; auto; [apply head_all|apply body_all].
Qed.

(** each insertion mode takes the steps of the standard *)
Lemma modes_std : forall s k s', plain_stack s -> departs (s_mode s) s k = false -> in_mode listed emit s k = Val s' ->
  std 4 emit (s_mode s) s k = Val s'.
Proof.
  intros s k s' P D H. unfold in_mode in H.
  pose proof (head_all 2) as UH. pose proof (body_all 1) as UB. pose proof (table_all 0) as UT. pose proof (select_all 0) as US.
  change (std 4 emit (s_mode s) s k) with (obey emit (std 3 emit) (rules listed (s_mode s) s k) s).
  destruct (s_mode s) eqn:M; cbn [rules].
  - now apply initial_std.
  - now apply before_html_std.
  - now apply before_head_std.
  - now apply in_head_std.
  - now apply in_head_noscript_std.
  - now apply after_head_std.
  - now apply in_body_std.
  - now apply text_std.
  - now apply in_table_std.
  - apply in_table_text_std; auto. intros. now apply body_char_all.
  - now apply in_caption_std.
  - now apply in_column_group_std.
  - now apply in_table_body_std.
  - now apply in_row_std.
  - now apply in_cell_std.
  - now apply in_select_std.
  - now apply in_select_in_table_std.
  - now apply in_template_std.
  - now apply after_body_std.
  - now apply in_frameset_std.
  - now apply after_frameset_std.
  - now apply after_after_body_std.
  - now apply after_after_frameset_std.
Qed.
End All.
