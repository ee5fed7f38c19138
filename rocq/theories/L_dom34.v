(** Tables, selects, templates, framesets and the end of the document, as the standard has them. *)
From Coq Require Import ZArith List Bool String Lia.
From Verif Require Import M_infra M_encoding M_labels M_html M_html_serialize M_dom_names M_dom M_dom2 L_dom L_dom30 L_dom31 L_dom32 L_dom33.
Import ListNotations.
Open Scope Z_scope.
Open Scope dom_scope.
Open Scope list_scope.

Lemma foster_false : forall s, s_foster s = false -> set_foster false s = s.
Proof. intros [] H. cbn in H. subst. reflexivity. Qed.
Lemma foster_twice : forall a b s, set_foster a (set_foster b s) = set_foster a s.
Proof. reflexivity. Qed.
Lemma reset_from_foster : forall b s l, reset_from (set_foster b s) l = reset_from s l.
Proof. intros b s l. induction l as [|e l IH]; [reflexivity|]. cbn [reset_from]. now rewrite IH. Qed.
Lemma reset_foster : forall b s, reset_mode (set_foster b s) = run s1 <- reset_mode s; Val (set_foster b s1).
Proof. intros b s. unfold reset_mode. rewrite reset_from_foster. cbn [s_stack set_foster]. destruct (reset_from s (s_stack s)); reflexivity. Qed.
Lemma reset_keeps : forall s s1, reset_mode s = Val s1 -> s_stack s1 = s_stack s /\ s_dom s1 = s_dom s /\ s_foster s1 = s_foster s.
Proof. intros s s1 H. unfold reset_mode in H. destruct (reset_from s (s_stack s)); try discriminate. injection H as <-. repeat split. Qed.
Lemma table_context_eq : forall s, plain_stack s -> to_table_context s = popped_to (one_of to_table_names s) s.
Proof.
  intros s P. unfold to_table_context, popped_to. f_equal. unfold plain_stack in P. induction (s_stack s) as [|e l IH]; [reflexivity|].
  inversion P as [|? ? P1 P2]; subst. cbn [to_table lead]. rewrite one_of_in. unfold is_html_in. rewrite P1.
  change (negb (ns_HTML =? ns_HTML)) with false. change (ns_HTML =? ns_HTML) with true. cbn [andb]. cbv iota.
  destruct (among (name_of (s_dom s) (en_node e)) to_table_names) eqn:E; unfold to_table_names in E; rewrite E; [reflexivity|].
  cbn [negb List.length skipn]. now apply IH.
Qed.
Lemma body_context_eq : forall s s1, to_body_context s = Val s1 -> s1 = popped_to (one_of to_body_names s) s.
Proof.
  intros s s1 H. unfold to_body_context in H. destruct (pop_to _ _) as [l| |] eqn:E; try discriminate. injection H as <-.
  apply pop_to_lead in E. subst l. reflexivity.
Qed.
Lemma row_context_eq : forall s s1, holds (In_scope In_table [T_tr]) s = true -> to_row_context s = Val s1 ->
  s1 = popped_to (one_of to_row_names s) s.
Proof.
  intros s s1 C H. unfold to_row_context in H. destruct (pop_to _ _) as [l| |] eqn:E; try discriminate. injection H as <-.
  unfold popped_to. f_equal. cbn [holds] in C. unfold scoped in C. revert l E. induction (s_stack s) as [|e r IH]; intros l E; [discriminate|].
  cbn [find pop_to lead] in *. rewrite one_of_one in C. destruct (is_html T_tr (s_dom s) (en_node e)) eqn:T; cbn [orb] in C.
  - unfold is_html, is_el in T. apply andb_prop in T. destruct T as [T1 T2]. unfold is_html_in, among in E. cbn [existsb] in E. rewrite T1, T2 in E. injection E as <-.
    unfold one_of, to_row_names. cbn [existsb]. rewrite T1, T2. reflexivity.
  - destruct (ends_scope In_table s e) eqn:S; [rewrite one_of_one, T in C; discriminate|].
    assert (A : is_html_in [T_tr; T_table; T_html] (s_dom s) (en_node e) = false /\ one_of to_row_names s e = false).
    { unfold ends_scope, listed_el in S. unfold is_html_in, among, is_html, is_el, one_of, to_row_names in *.
      cbn [existsb scope_list fst snd] in *.
      destruct (ns_of (s_dom s) (en_node e) =? ns_HTML); [|split; reflexivity]. cbn [andb] in *. rewrite T.
      destruct (teqb _ T_html); [discriminate|]. destruct (teqb _ T_table); [discriminate|]. destruct (teqb _ T_template); [discriminate|].
      split; reflexivity. }
    destruct A as [A1 A2]. rewrite A1 in E. rewrite A2. cbn [negb List.length skipn]. now apply IH.
Qed.

Section Rest.
Variable listed : list Z -> bool.
Variable emit : st -> ktok -> outcome st.
Variable use : mode -> st -> ktok -> outcome st.
Notation obeys := (obey emit use).
Hypothesis use_head : forall s k s', on_in_head emit s k = Val s' -> use M_in_head s k = Val s'.
Hypothesis use_body : forall s k s', plain_stack s -> departs M_in_body s k = false -> on_in_body emit s k = Val s' -> use M_in_body s k = Val s'.

Lemma use_std : forall m k s s', use m s k = Val s' -> obeys (Use m k []) s = Val s'.
Proof. intros m k s s' H. cbn [obey performs]. now rewrite H. Qed.
Lemma head_std : forall k s s', on_in_head emit s k = Val s' -> obeys (Use M_in_head k []) s = Val s'.
Proof. intros. now apply use_std, use_head. Qed.
Lemma body_std : forall k s s', plain_stack s -> departs M_in_body s k = false -> on_in_body emit s k = Val s' -> obeys (Use M_in_body k []) s = Val s'.
Proof. intros. now apply use_std, use_body. Qed.
Lemma fostered_std : forall k s s', plain_stack s -> departs M_in_body (set_foster true s) k = false ->
  (run s1 <- on_in_body emit (set_foster true s) k; Val (set_foster false s1)) = Val s' -> obeys (Fostered k) s = Val s'.
Proof.
  intros k s s' P D H. unfold Fostered. cbn [obey performs]. cbn [perform]. destruct (on_in_body emit (set_foster true s) k) as [s1| |] eqn:E; try discriminate H.
  rewrite (use_body (set_foster true s) k s1 P D E). exact H.
Qed.
Lemma back_to_table : forall r s, plain_stack s -> obeys (Back_to to_table_names ;; r) s = obeys r (to_table_context s).
Proof. intros r s P. rewrite obey_do. cbn [perform]. now rewrite <- table_context_eq. Qed.
Lemma marker_std : forall r s, obeys (Marker ;; r) s = obeys r (push_marker s).
Proof. reflexivity. Qed.
Lemma fostered_template : forall s s', s_foster s = false ->
  (run s1 <- on_in_body emit (set_foster true s) (KEnd T_template); Val (set_foster false s1)) = Val s' -> on_in_head emit s (KEnd T_template) = Val s'.
Proof.
  intros s s' F H. cbn [on_in_body body_end on_in_head] in *. change (contains T_template (set_foster true s)) with (contains T_template s) in H.
  destruct (contains T_template s); cbn [negb] in *; [|injection H as <-; now rewrite foster_twice, foster_false].
  unfold pop_template in *. change (s_templates _) with (s_templates s) in H. change (s_templates _) with (s_templates s).
  destruct (s_templates s) as [|m l] eqn:E; [discriminate H|].
  change (set_templates l _) with (set_foster true (set_templates l (clear_formatting (pop_until T_template (implied_thoroughly s))))) in H.
  rewrite reset_foster in H. destruct (reset_mode _) as [x| |] eqn:R; try discriminate H. injection H as <-.
  apply reset_keeps in R. destruct R as (_ & _ & R). rewrite foster_twice, foster_false; [reflexivity|]; rewrite R; exact F.
Qed.
Lemma table_end_std : forall s s', plain_stack s -> settled T_table s = true -> s_foster s = false ->
  (run b <- in_scope table_scope T_table s;
   if b : bool then run s1 <- reset_mode (pop_until T_table s); run s2 <- on_in_body emit (set_foster true s1) (KEnd T_table); Val (set_foster false s2)
   else Val s) = Val s' ->
  obeys (If (In_scope In_table [T_table]) (Pop_through [T_table] ;; Reset ;; Done) Done) s = Val s'.
Proof.
  intros s s' P S F H. destruct (in_scope table_scope T_table s) as [b| |] eqn:E; try discriminate H.
  apply (scope_then emit use In_table T_table _ s s' b P E); intros ->; [|now injection H as <-].
  rewrite through_std, obey_do. cbn [perform]. destruct (reset_mode (pop_until T_table s)) as [s1| |] eqn:R; try discriminate H.
  apply reset_keeps in R. destruct R as (R1 & R2 & R3). cbn [obey].
  destruct (on_in_body emit (set_foster true s1) (KEnd T_table)) as [s2| |] eqn:B; try discriminate H. injection H as <-.
  cbn [on_in_body body_end] in B. apply other_end_perform in B. cbn [perform] in B.
  unfold other_end_steps in B. unfold settled, one_of, special, listed_el in *. rewrite pop_until_eq in R1. cbn [s_stack s_dom set_foster] in B. rewrite R1, R2 in B.
  change (s_dom (pop_until T_table s)) with (s_dom s) in B. unfold one_of in B.
  destruct (find _ _) as [e|]; [|discriminate]. apply negb_true_iff in S. rewrite S in B. injection B as <-.
  rewrite foster_twice, foster_false; [reflexivity|]. now rewrite R3.
Qed.

Lemma in_table_std : forall s k s', plain_stack s -> departs M_in_table s k = false -> on_in_table emit s k = Val s' ->
  obeys (rules_in_table k) s = Val s'.
Proof.
  intros s k s' P D H. destruct k as [d|g|t|d|c|]; cbn [on_in_table rules_in_table] in *; try (now fin H).
  - rewrite hidden_eq. assert (D1 : departs M_in_body (set_foster true s) (KStart g) = false) by exact D.
    destruct (g_id g) eqn:G; pick; try (now apply fostered_std); try (now apply head_std);
      try (rewrite back_to_table, ?marker_std by exact P; now fin H).
    + rewrite obey_if, contains_holds. destruct (contains T_template s); cbn [orb] in H; [exact H|]. rewrite obey_if. cbn [holds].
      destruct (s_form s); [exact H|]. runs H. known. cbn [obey]. cbn [perform]. rewrite H0. cbn [perform]. rewrite H1. cbn [perform]. rewrite H. reflexivity.
    + destruct (is_hidden g); [unfold insert_void in H; now fin H|]. now apply fostered_std.
    + destruct (in_scope table_scope T_table s) as [b| |] eqn:E; try discriminate H.
      apply (scope_then emit use In_table T_table _ s s' b P E); intros ->; [|now injection H as <-]. rewrite through_std. now fin H.
  - cbn [departs] in D. apply orb_false_elim in D. destruct D as [D F].
    assert (D1 : departs M_in_body (set_foster true s) (KEnd t) = false).
    { cbn [departs]. destruct t; try reflexivity; cbn [existsb teqb tcode Z.eqb Pos.eqb orb] in *; exact D. }
    destruct t eqn:G; pick; try (now apply fostered_std); try exact H.
    + apply table_end_std; auto. now apply negb_false_iff in D.
    + apply head_std. now apply fostered_template.
  - unfold cur in H. rewrite obey_if. cbn [holds]. destruct (s_stack s) as [|e r] eqn:E; [discriminate H|]. rewrite one_of_in.
    destruct (is_html_in _ _ _); [now fin H|]. apply fostered_std; auto.
  - now apply body_std.
Qed.

(** a step of the model that asks for a scope *)
Ltac in_scope_case c H P :=
  match type of H with
  | match in_scope ?f ?t ?s with Val _ => _ | Bad => _ | NoFuel => _ end = Val ?x =>
      let b := fresh "b" in let E := fresh "E" in
      destruct (in_scope f t s) as [b| |] eqn:E; try discriminate H;
      rewrite (scope_if emit use c t _ _ s b P E); destruct b; [|first [exact H|(injection H as <-; reflexivity)]]
  | match in_scope_any ?f ?t ?s with Val _ => _ | Bad => _ | NoFuel => _ end = Val ?x =>
      let b := fresh "b" in let E := fresh "E" in
      destruct (in_scope_any f t s) as [b| |] eqn:E; try discriminate H;
      rewrite (scope_any_if emit use c t _ _ s b P E); destruct b; [|first [exact H|(injection H as <-; reflexivity)]]
  end.

Lemma in_table_text_std : forall s k s',
  (forall (s1 : st) c s2, on_in_body emit s1 (KChar c) = Val s2 -> use M_in_body s1 (KChar c) = Val s2) ->
  on_in_table_text emit s k = Val s' -> obeys (rules_in_table_text k) s = Val s'.
Proof.
  intros s k s' U H.
  assert (T : forall b l x y, table_text emit b l x = Val y ->
    (if b then each (fun c s => run s1 <- use M_in_body (set_foster true s) (KChar c); Val (set_foster false s1)) l x else each insert_char l x) = Val y).
  { intros b l. induction l as [|c l IH]; intros x y Y; [destruct b; exact Y|]. cbn [table_text] in Y.
    destruct b; cbn [each].
    - destruct (on_in_body emit (set_foster true x) (KChar c)) as [z| |] eqn:Z; try discriminate Y. rewrite (U _ _ _ Z). now apply IH.
    - destruct (insert_char c x); try discriminate Y. now apply IH. }
  assert (R : forall k, (run s1 <- table_text emit (negb (forallb is_ascii_white_space (s_pending s))) (s_pending s) s; emit (set_mode (s_original s1) s1) k) = Val s' ->
    obeys (Pending k) s = Val s').
  { intros k0 Y. destruct (table_text emit _ _ s) as [y| |] eqn:E; try discriminate Y. apply T in E. cbn [obey].
    destruct (forallb is_ascii_white_space (s_pending s)); cbn [negb] in E; rewrite E; exact Y. }
  destruct k as [d|g|t|d|c|]; cbn [on_in_table_text rules_in_table_text] in *; try (now apply R).
  destruct (c =? 0); exact H.
Qed.
Lemma in_caption_std : forall s k s', plain_stack s -> departs M_in_caption s k = false -> on_in_caption emit s k = Val s' ->
  obeys (rules_in_caption k) s = Val s'.
Proof.
  intros s k s' P D H. destruct k as [d|g|t|d|c|]; cbn [on_in_caption rules_in_caption] in *; try (now apply body_std).
  - destruct (g_id g) eqn:G; pick; try (now apply body_std); in_scope_case In_table H P; rewrite imply_through1, clear_std; exact H.
  - cbn [departs] in D. apply orb_false_elim in D. destruct D as [D F].
    destruct t eqn:G; try discriminate F; pick; try (now apply body_std); try exact H;
      in_scope_case In_table H P; rewrite imply_through1, clear_std; exact H.
Qed.
Lemma colgroup_leave : forall s s' k,
  (run b <- cur_is T_colgroup s; if b : bool then run s1 <- pop s; emit (set_mode M_in_table s1) k else Val s) = Val s' ->
  obeys (If (Current [T_colgroup]) (Pop ;; Mode M_in_table ;; Again k) Done) s = Val s'.
Proof.
  intros s s' k H. destruct (cur_is T_colgroup s) as [b| |] eqn:E; try discriminate H. rewrite obey_if, (cur_is_holds _ _ _ E).
  destruct b; now fin H.
Qed.
Lemma in_column_group_std : forall s k s', plain_stack s -> on_in_column_group emit s k = Val s' -> obeys (rules_in_column_group k) s = Val s'.
Proof.
  intros s k s' P H. destruct k as [d|g|t|d|c|]; cbn [on_in_column_group rules_in_column_group] in *; try (now fin H).
  - destruct (g_id g) eqn:G; pick; try (now apply colgroup_leave); try (now apply head_std); try (now apply html_std).
    unfold insert_void in H. now fin H.
  - destruct t eqn:G; pick; try (now apply colgroup_leave); try (now apply head_std); try exact H.
    destruct (cur_is T_colgroup s) as [b| |] eqn:E; try discriminate H. rewrite obey_if, (cur_is_holds _ _ _ E). destruct b; now fin H.
  - rewrite white_eq. destruct (is_ascii_white_space c); [now fin H|now apply colgroup_leave].
  - now apply body_std.
Qed.

Section Table.
Hypothesis use_table : forall s k s', plain_stack s -> departs M_in_table s k = false -> on_in_table emit s k = Val s' -> use M_in_table s k = Val s'.
Lemma table_std : forall k s s', plain_stack s -> departs M_in_table s k = false -> on_in_table emit s k = Val s' -> obeys (Use M_in_table k []) s = Val s'.
Proof. intros. now apply use_std, use_table. Qed.
Lemma back_to_body : forall r s s1, to_body_context s = Val s1 -> obeys (Back_to to_body_names ;; r) s = obeys r s1.
Proof. intros r s s1 E. rewrite obey_do. cbn [perform]. now rewrite <- (body_context_eq _ _ E). Qed.
Lemma back_to_row : forall r s s1, holds (In_scope In_table [T_tr]) s = true -> to_row_context s = Val s1 -> obeys (Back_to to_row_names ;; r) s = obeys r s1.
Proof. intros r s s1 C E. rewrite obey_do. cbn [perform]. now rewrite <- (row_context_eq _ _ C E). Qed.

Lemma in_table_body_std : forall s k s', plain_stack s -> departs M_in_table_body s k = false -> on_in_table_body emit s k = Val s' ->
  obeys (rules_in_table_body k) s = Val s'.
Proof.
  intros s k s' P D H. destruct k as [d|g|t|d|c|]; cbn [on_in_table_body rules_in_table_body] in *; try (now apply table_std).
  - destruct (g_id g) eqn:G; pick; try (now apply table_std); try (in_scope_case In_table H P);
      (destruct (to_body_context s) as [s1| |] eqn:E1; try discriminate H); rewrite (back_to_body _ _ _ E1); now fin H.
  - destruct t eqn:G; pick; try (now apply table_std); try exact H; in_scope_case In_table H P;
      (destruct (to_body_context s) as [s1| |] eqn:E1; try discriminate H); rewrite (back_to_body _ _ _ E1); now fin H.
Qed.
Lemma row_close : forall r s s', holds (In_scope In_table [T_tr]) s = true ->
  (run s3 <- (run s1 <- to_row_context s; run b <- cur_is T_tr s1; if b : bool then run s2 <- pop s1; Val (set_mode M_in_table_body s2) else Bad); obeys r s3) = Val s' ->
  obeys (Back_to to_row_names ;; Pop ;; Mode M_in_table_body ;; r) s = Val s'.
Proof.
  intros r s s' C H. destruct (to_row_context s) as [s1| |] eqn:E; try discriminate H. rewrite (back_to_row _ _ _ C E).
  destruct (cur_is T_tr s1) as [[]| |]; try discriminate H. rewrite obey_do. change (perform Pop s1) with (pop s1).
  destruct (pop s1) as [s2| |]; try discriminate H. exact H.
Qed.
Lemma in_row_std : forall s k s', plain_stack s -> departs M_in_row s k = false -> on_in_row emit s k = Val s' ->
  obeys (rules_in_row k) s = Val s'.
Proof.
  intros s k s' P D H.
  destruct k as [d|g|t|d|c|]; cbn [on_in_row rules_in_row departs] in *; try (now apply table_std); apply orb_false_elim in D; destruct D as [D C].
  - destruct (g_id g) eqn:G; pick; try (apply table_std; auto; cbn [departs]; rewrite G; exact D).
    all: try (cbn [existsb teqb tcode Z.eqb Pos.eqb orb andb] in C; apply negb_false_iff in C;
      destruct (to_row_context s) as [s1| |] eqn:E1; try discriminate H; rewrite (back_to_row _ _ _ C E1); now fin H).
    all: destruct (in_scope table_scope T_tr s) as [b| |] eqn:E; try discriminate H;
      rewrite obey_if, (in_scope_holds In_table T_tr s b P E); destruct b; [|exact H];
      apply row_close; [apply (in_scope_holds In_table T_tr s true P E)|exact H].
  - destruct t eqn:G; pick; try (apply table_std; auto; cbn [departs]; exact D); try exact H.
    1: destruct (in_scope table_scope T_tr s) as [b| |] eqn:E; try discriminate H;
      rewrite obey_if, (in_scope_holds In_table T_tr s b P E); destruct b; [|exact H];
      apply row_close; [apply (in_scope_holds In_table T_tr s true P E)|exact H].
    all: try (cbn [existsb teqb tcode Z.eqb Pos.eqb orb andb] in C; apply negb_false_iff in C; in_scope_case In_table H P;
      rewrite obey_if, C; destruct (in_scope table_scope T_tr s); try discriminate H; now apply row_close).
    destruct (in_scope table_scope T_tr s) as [b| |] eqn:E; try discriminate H;
      rewrite obey_if, (in_scope_holds In_table T_tr s b P E); destruct b; [|exact H];
      apply row_close; [apply (in_scope_holds In_table T_tr s true P E)|]. cbn [obey]. destruct (to_row_context s) as [s1| |]; try discriminate H.
    destruct (cur_is T_tr s1) as [[]| |]; try discriminate H. destruct (pop s1); try discriminate H. exact H.
Qed.
End Table.
End Rest.
