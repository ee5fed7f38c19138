(** The insertion modes of the library take the steps of the standard, one mode after the other. *)
From Coq Require Import ZArith List Bool String Lia.
From Verif Require Import M_infra M_encoding M_labels M_html M_html_serialize M_dom_names M_dom M_dom2 L_dom L_dom30 L_dom31.
Import ListNotations.
Open Scope Z_scope.
Open Scope dom_scope.
Open Scope list_scope.

(** goes through the steps of the model *)
Ltac runs H :=
  repeat match type of H with
  | match (match ?e with Val _ => _ | Bad => _ | NoFuel => _ end) with Val _ => _ | Bad => _ | NoFuel => _ end = Val _ =>
      let E := fresh "E" in destruct e eqn:E; try discriminate H
  | match ?e with Val _ => _ | Bad => _ | NoFuel => _ end = Val _ => let E := fresh "E" in destruct e eqn:E; try discriminate H
  | (let (_, _) := ?p in _) = Val _ => destruct p
  | (if ?b then _ else Bad) = Val _ => destruct b; [|discriminate H]
  end.
(** and through those of the standard *)
Ltac known :=
  repeat match goal with
  | E : insert_el _ _ = Val (_, _) |- _ => apply insert_el_top in E; destruct E as (? & (? & ? & ? & <-) & ?)
  end.
Ltac follow :=
  repeat match goal with |- context [bare ?t] => change (bare t) with (made_tag t) end;
  cbn [obey perform performs];
  repeat (first
    [ match goal with E : ?a = Val _ |- context [?a] => rewrite E end
    | match goal with E : s_stack ?a = _ :: _ |- context [s_stack ?a] => rewrite E end ]; cbn [obey perform performs]).
Ltac fin H := runs H; known; follow; first [reflexivity | exact H | (injection H as <-; reflexivity)].
Ltac pick := cbn [choose existsb teqb tcode Z.eqb Pos.eqb orb in_head_names heading_names table_parts around_select].

Section Modes.
Variable listed : list Z -> bool.
Variable emit : st -> ktok -> outcome st.
Variable use : mode -> st -> ktok -> outcome st.
Notation obeys := (obey emit use).
Hypothesis use_head : forall s k s', on_in_head emit s k = Val s' -> use M_in_head s k = Val s'.

Lemma insert_void_runs : forall g s s', insert_void g s = Val s' -> exists s1, insert_el' g s = Val s1 /\ pop s1 = Val s'.
Proof. intros g s s' H. unfold insert_void in H. destruct (insert_el' g s) eqn:E; try discriminate. eauto. Qed.
Lemma pop_perform : forall s s', pop s = Val s' -> perform Pop s = Val s'.
Proof. intros s s' H. exact H. Qed.

Lemma lower_lower : forall c, cp_lower (cp_lower c) = cp_lower c.
Proof.
  intro c. unfold cp_lower. destruct (is_ascii_upper_alpha c) eqn:E; [|now rewrite E].
  destruct (is_ascii_upper_alpha (c + 32)) eqn:F; [|reflexivity]. unfold is_ascii_upper_alpha in *. lia.
Qed.
Lemma begins_eq : forall a b, begins a (map cp_lower b) = istart_with a (map cp_lower b).
Proof.
  unfold begins. induction a as [|x a IH]; intros [|y b]; try reflexivity. cbn [map List.length firstn same_str istart_with].
  now rewrite lower_lower, IH.
Qed.
Lemma quirky_eq : forall d, quirky listed d = in_quirks listed d.
Proof.
  intro d. unfold quirky, in_quirks. cbn [existsb]. rewrite !begins_eq, !orb_false_r.
  assert (E : same_str (d_system d) [] = match d_system d with [] => true | _ => false end) by (now destruct (d_system d)).
  rewrite E. rewrite !orb_assoc. reflexivity.
Qed.
Lemma initial_std : forall s k s', on_initial listed emit s k = Val s' -> obeys (rules_initial listed k) s = Val s'.
Proof.
  intros s k s' H. destruct k; cbn [on_initial rules_initial] in *; rewrite ?white_eq, ?quirky_eq; try (now fin H).
  - runs H. follow. destruct (in_quirks listed d); exact H.
  - destruct (is_ascii_white_space c); exact H.
Qed.
Lemma before_html_std : forall s k s', on_before_html emit s k = Val s' -> obeys (rules_before_html k) s = Val s'.
Proof.
  intros s k s' H. destruct k as [d|g|t|d|c|]; cbn [on_before_html rules_before_html] in *; rewrite ?white_eq; try (now fin H).
  - destruct (g_id g); pick; fin H.
  - destruct t; pick; fin H.
  - destruct (is_ascii_white_space c); fin H.
Qed.
Lemma html_std : forall g s s', body_html g s = Val s' -> obeys (Html_start g) s = Val s'.
Proof.
  intros g s s' H. unfold body_html, Html_start in *. cbn [obey]. rewrite contains_holds. destruct (contains T_template s); [exact H|].
  cbn [obey perform]. rewrite front_rev in H. destruct (rev (s_stack s)); [discriminate H|exact H].
Qed.
Lemma before_head_std : forall s k s', on_before_head emit s k = Val s' -> obeys (rules_before_head k) s = Val s'.
Proof.
  intros s k s' H. destruct k as [d|g|t|d|c|]; cbn [on_before_head rules_before_head] in *; rewrite ?white_eq; try (now fin H).
  - destruct (g_id g); pick; try (now fin H). now apply html_std.
  - destruct t; pick; fin H.
  - destruct (is_ascii_white_space c); fin H.
Qed.
Lemma raw_std : forall g s s', raw_text g s = Val s' -> obeys (Raw g R_rawtext) s = Val s'.
Proof. intros g s s' H. unfold raw_text, Raw in *. fin H. Qed.
Lemma rcdata_std : forall g s s', rcdata g s = Val s' -> obeys (Raw g R_rcdata) s = Val s'.
Proof. intros g s s' H. unfold rcdata, Raw in *. fin H. Qed.
Lemma void_std : forall g r s s1, insert_void g s = Val s1 -> obeys (Insert g ;; Pop ;; r) s = obeys r s1.
Proof.
  intros g r s s1 H. apply insert_void_runs in H. destruct H as (x & E & P). cbn [obey perform]. now rewrite E, P.
Qed.
Lemma reset_std : forall s s', reset_mode s = Val s' -> perform Reset s = Val s'.
Proof. auto. Qed.
Lemma in_head_std : forall s k s', on_in_head emit s k = Val s' -> obeys (rules_in_head k) s = Val s'.
Proof.
  assert (R : forall k s s', (run b <- cur_is T_head s; if b then run s1 <- pop s; emit (set_mode M_after_head s1) k else Bad) = Val s' ->
    obeys (Pop ;; Mode M_after_head ;; Again k) s = Val s').
  { intros k s s' H. fin H. }
  intros s k s' H. destruct k as [d|g|t|d|c|]; cbn [on_in_head rules_in_head] in *; rewrite ?white_eq; try (now fin H).
  - destruct (g_id g); pick; try (now apply R); try (now apply html_std); try (now apply raw_std); try (now apply rcdata_std);
      try (now rewrite (void_std _ _ _ _ H)); try (now fin H). unfold Raw. fin H.
  - destruct t; pick; try (now apply R); try (now fin H).
    + cbn [obey]. rewrite contains_holds. destruct (contains T_template s); cbn [negb] in H; [|exact H]. cbn [obey].
      runs H. unfold perform at 1. rewrite <- thoroughly_eq. cbn [obey]. unfold perform at 1. rewrite <- pop_until_eq. cbn [obey].
      unfold perform at 1. rewrite <- clear_eq. cbn [obey]. change (perform Pop_template_mode ?x) with (pop_template x). rewrite E. cbn [obey perform].
      now rewrite H.
  - destruct (is_ascii_white_space c); [fin H|now apply R].
Qed.
Lemma in_head_noscript_std : forall s k s', on_in_head_noscript emit s k = Val s' -> obeys (rules_in_head_noscript k) s = Val s'.
Proof.
  assert (C : forall s s', (run b <- cur_is T_noscript s;
    if b then run s1 <- pop s; run h <- cur_is T_head s1; if h then Val (set_mode M_in_head s1) else Bad else Bad) = Val s' ->
    forall r, obeys (Pop ;; Mode M_in_head ;; r) s = obeys r s').
  { intros s s' H r. runs H. injection H as <-. follow. reflexivity. }
  intros s k s' H. destruct k as [d|g|t|d|c|]; cbn [on_in_head_noscript rules_in_head_noscript] in *; rewrite ?white_eq.
  - exact H.
  - destruct (g_id g); pick; try (now apply html_std); try (now fin H); try (cbn [obey performs]; now rewrite (use_head _ _ _ H));
      (match type of H with match ?e with _ => _ end = _ => destruct e as [s1| |] eqn:E; try discriminate H end; rewrite (C _ _ E); exact H).
  - destruct t; pick; first [now fin H | now rewrite (C _ _ H)
      | (match type of H with match ?e with _ => _ end = _ => destruct e as [s1| |] eqn:E; try discriminate H end; rewrite (C _ _ E); exact H)].
  - cbn [obey performs]. now rewrite (use_head _ _ _ H).
  - destruct (is_ascii_white_space c); [cbn [obey performs]; now rewrite (use_head _ _ _ H)|].
    match type of H with match ?e with _ => _ end = _ => destruct e as [s1| |] eqn:E; try discriminate H end. rewrite (C _ _ E). exact H.
  - match type of H with match ?e with _ => _ end = _ => destruct e as [s1| |] eqn:E; try discriminate H end. rewrite (C _ _ E). exact H.
Qed.
Lemma after_head_std : forall s k s', on_after_head emit s k = Val s' -> obeys (rules_after_head s k) s = Val s'.
Proof.
  intros s k s' H. destruct k as [d|g|t|d|c|]; cbn [on_after_head rules_after_head] in *; rewrite ?white_eq; try (now fin H).
  - destruct (g_id g); pick; try (now apply html_std); try (now fin H);
      (destruct (s_head s) as [h|]; [|discriminate H]; runs H; cbn [obey perform]; rewrite (use_head _ _ _ E); exact H).
  - destruct t; pick; try (now fin H). cbn [obey performs]. now rewrite (use_head _ _ _ H).
  - destruct (is_ascii_white_space c); fin H.
Qed.
End Modes.
