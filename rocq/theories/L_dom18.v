(** The tokens before the body. *)
From Coq Require Import ZArith List Bool String Lia.
From Verif Require Import M_infra M_encoding M_labels M_html M_html_serialize M_dom_names M_dom M_dom2 L_html_serialize L_dom L_dom2
  L_dom10 L_dom11 L_dom12 L_dom13 L_dom14 L_dom15 L_dom16.
Import ListNotations.
Open Scope Z_scope.
Open Scope list_scope.

Definition main_modes : list mode :=
  [M_in_body; M_in_table; M_in_caption; M_in_table_body; M_in_row; M_in_cell; M_after_body; M_after_after_body].
Lemma calm_head : forall s k m, Calm s k -> s_mode s = m -> ~ In m main_modes -> s_foster s = false.
Proof. intros s k m C E H. destruct (s_foster s) eqn:Q; [|reflexivity]. destruct (C Q) as [_ I]. elim H. now rewrite <- E. Qed.
Lemma counted_grown : forall t s s', Grown t s s' -> map (fun u => count u (s_dom s')) ones =
  map (fun u => count u (s_dom s) + (if teqb t u then 1 else 0))%nat ones.
Proof. intros t s s' (_ & _ & _ & C & _). cbn [map ones]. now rewrite !C. Qed.
Lemma world_head : forall s i, World s -> is_html T_head (s_dom s) i = true -> World (set_head (Some i) s).
Proof. intros s i [] H. constructor; auto. Qed.
Lemma one_root : forall s u, names s = u ++ [T_html] -> Rooted s.
Proof. intros s u E. now exists u. Qed.
Lemma stand_root : forall m N, Stand m N -> N <> [] -> exists u, N = u ++ [T_html].
Proof.
  intros m N H D.
  assert (A : forall m' w, Floor m' w -> Above w N -> exists u, N = u ++ [T_html]).
  { intros m' w F (u & -> & _). destruct (floor_root m' w F) as (v & ->). exists (u ++ v). now rewrite app_assoc. }
  destruct m; cbn in H; try contradiction; try (subst N; (now elim D) || (now exists []) || (now exists [T_head]) || (now exists [T_noscript; T_head]));
    try (destruct H as (w & F & Ab); eapply A; eassumption).
  - destruct H as (w & -> & F). destruct (floor_root _ _ F) as (v & ->). now exists (T_colgroup :: v).
  - destruct H as (o & r & m' & w & -> & _ & F & u & -> & _). destruct (floor_root _ _ F) as (v & ->). exists (o ++ T_select :: u ++ v).
    rewrite <- app_assoc. cbn. now rewrite <- app_assoc.
  - destruct H as (o & r & m' & w & -> & _ & F & u & -> & _). destruct (floor_root _ _ F) as (v & ->). exists (o ++ T_select :: u ++ v).
    rewrite <- app_assoc. cbn. now rewrite <- app_assoc.
Qed.
Lemma filter_keeps : forall d h l, is_html T_head d h = true -> Forall (fun e => nm d e <> T_head) l ->
  filter (fun e => negb (en_node e =? h)%nat) l = l.
Proof.
  intros d h l H. apply is_html_ns in H. destruct H as [_ H]. induction 1 as [|e l K Q IH]; [reflexivity|]. cbn [filter].
  destruct (en_node e =? h)%nat eqn:E; cbn [negb]; [|now rewrite IH]. apply Nat.eqb_eq in E. elim K. unfold nm. now rewrite E.
Qed.

Section Tokens.
Variable listed : list Z -> bool.
Variable emit : st -> ktok -> outcome st.
Variable R : nat.
Hypothesis emit_ok : forall s k, Inv s -> Tame k -> Calm s k -> (rank (s_mode s) k < R)%nat -> okay (Post s k) (emit s k).

(** an insertion mode before the body goes on with the token *)
Lemma emit_head : forall s s' k, Inv s' -> s_foster s = false -> s_foster s' = false -> Tame k -> (rank (s_mode s') k < R)%nat ->
  okay (Post s k) (emit s' k).
Proof.
  intros s s' k V Fo Fo' T Rk. eapply okay_weak; [apply emit_ok; [exact V|exact T|intro Q; congruence|exact Rk]|].
  intros x H. destruct k; cbn in *; auto; destruct H as [H1 H2]; (split; [exact H1|]); rewrite Fo' in H2; intro Q; specialize (H2 Q); discriminate.
Qed.

Lemma initial_ok : forall s k, Inv s -> s_mode s = M_initial -> Tame k -> Calm s k -> (rank M_initial k <= R)%nat ->
  okay (Post s k) (on_initial listed emit s k).
Proof.
  intros s k V Em T C HR. assert (V' := V). destruct V' as (W & H). rewrite Em in H. destruct H as (P1 & P2 & P3).
  pose proof (calm_head s k M_initial C Em ltac:(cbn; intuition discriminate)) as Fo. pose proof (post_self s V) as Ig.
  assert (Vb : forall s1, World s1 -> names s1 = [] -> Counted M_before_html (s_dom s1) -> s_mode s1 = M_before_html -> Inv s1).
  { intros s1 W1 N1 C1 M1. split; [exact W1|]. rewrite M1. split; [exact N1|]. split; [exact C1|exact I]. }
  assert (rest : okay (Post s k) (emit (set_mode M_before_html (set_quirks true s)) k)).
  { apply emit_head; auto.
    - apply Vb; [apply (alike_world s); [constructor; reflexivity|exact W]|exact P1|exact P2|reflexivity].
    - cbn [s_mode set_mode]. unfold rank in *. lia. }
  assert (gp : good_place (s_dom s) (at_end the_document)).
  { split; [|exact I]. pose proof (T_two _ (W_tree s W)). unfold at_end, the_document, fst. lia. }
  destruct k as [d|g|t|d|c|]; cbn [on_initial]; try exact rest.
  - eapply okay_run2; [apply (text_ok (IDoctype (d_name d) (d_public d) (d_system d)) (at_end the_document) s W gp eq_refl)|].
    intros d1 i St. cbn [fst] in St. cbn [okay Post]. pose proof (near_still _ _ St) as N. destruct St as (W1 & _ & N1 & _).
    split.
    + apply Vb.
      * destruct (in_quirks listed d); (apply (alike_world (set_dom d1 s)); [constructor; reflexivity|exact W1]).
      * destruct (in_quirks listed d); (transitivity (names (set_dom d1 s)); [reflexivity|rewrite N1; exact P1]).
      * destruct (in_quirks listed d); exact (N_count _ _ N M_before_html P2).
      * reflexivity.
    + destruct (in_quirks listed d); cbn; congruence.
  - eapply stills; [exact V|]. now apply insert_comment_at_ok.
  - destruct (is_ascii_white_space c); [exact Ig|exact rest].
Qed.

(** the root element *)
Lemma html_ok : forall s l g, Inv s -> s_mode s = M_before_html -> exists d,
  insert (s_dom s) (at_end the_document) (IElement ns_HTML T_html l) = Val (d, List.length (s_dom s)) /\
  let s1 := set_mode M_before_head (set_stack (Entry g (List.length (s_dom s)) :: s_stack s) (set_dom d s)) in Inv s1.
Proof.
  intros s l g V Em. destruct V as (W & H). rewrite Em in H. destruct H as (P1 & P2 & P3).
  assert (gp : good_place (s_dom s) (at_end the_document)).
  { split; [|exact I]. pose proof (T_two _ (W_tree s W)). unfold at_end, the_document, fst. lia. }
  destruct (insert_tree (s_dom s) (at_end the_document) (IElement ns_HTML T_html l) (W_tree s W) gp) as (d & Hi & T & X & L & J).
  { intros _. split; [exact I|split; reflexivity]. }
  exists d. split; [exact Hi|].
  assert (Es : s_stack s = []) by (cbn in P1; unfold names in P1; now apply map_eq_nil in P1).
  assert (Hn : ns_of d (List.length (s_dom s)) = ns_HTML) by (unfold ns_of; now rewrite J).
  assert (Ht : name_of d (List.length (s_dom s)) = T_html) by (unfold name_of; now rewrite J).
  assert (old : forall i t, is_html t (s_dom s) i = true -> is_html t d i = true).
  { intros i t Hh. rewrite (ext_is (s_dom s)); [exact Hh|exact X|]. apply is_html_ns in Hh. now apply html_node. }
  split; [|split; [|split; [|exact I]]].
  - destruct W. constructor; cbn [s_dom s_stack s_active s_fragment s_templates s_form s_head set_mode set_stack set_dom]; auto.
    + rewrite Es. constructor; [exact Hn|constructor].
    + destruct (s_form s); auto.
    + destruct (s_head s); auto.
  - cbn [Stand s_mode set_mode]. unfold names. cbn [s_dom s_stack set_mode set_stack set_dom]. rewrite Es. cbn [map]. unfold nm. cbn [en_node]. now rewrite Ht.
  - unfold Counted in *. cbn [s_dom set_mode set_stack set_dom]. cbn [map ones] in *. rewrite !(count_insert _ _ _ X L).
    rewrite !is_html_eq by exact Hn. rewrite Ht. injection P2 as Q1 Q2 Q3. rewrite Q1, Q2, Q3. reflexivity.
Qed.
Lemma before_html_ok : forall s k, Inv s -> s_mode s = M_before_html -> Tame k -> Calm s k -> (rank M_before_html k <= R)%nat ->
  okay (Post s k) (on_before_html emit s k).
Proof.
  intros s k V Em T C HR. pose proof (calm_head s k M_before_html C Em ltac:(cbn; intuition discriminate)) as Fo. pose proof (post_self s V) as Ig.
  assert (rest : (rank M_before_head k < rank M_before_html k)%nat -> okay (Post s k) (run (d, i) <- insert (s_dom s) (at_end the_document) (IElement ns_HTML T_html []);
    emit (set_mode M_before_head (set_stack (Entry empty_tag i :: s_stack s) (set_dom d s))) k)).
  { intro R2. destruct (html_ok s [] empty_tag V Em) as (d & -> & V1). cbv beta iota. apply emit_head; auto. cbn [s_mode set_mode]. lia. }
  destruct k as [d|g|t|d|c|]; cbn [on_before_html]; try exact Ig.
  - assert (R3 : (rank M_before_head (KStart g) < rank M_before_html (KStart g))%nat) by (unfold rank; lia).
    destruct (g_id g) eqn:Eg; try (now apply rest). destruct T as (G & _). destruct (element_ok g ns_HTML G) as (l & ->). cbv beta iota.
    rewrite Eg. destruct (html_ok s l g V Em) as (d & -> & V1). cbv beta iota. cbn [okay Post]. split; [exact V1|]. cbn. congruence.
  - destruct t; try exact Ig; (apply rest; cbn; lia).
  - eapply stills; [exact V|]. apply insert_comment_at_ok; [apply V|]. split; [|exact I]. pose proof (T_two _ (W_tree s (proj1 V))).
    unfold at_end, the_document, fst. lia.
  - destruct (is_ascii_white_space c); [exact Ig|apply rest; cbn; lia].
  - apply rest; cbn; lia.
Qed.

(** the head *)
Lemma head_ok : forall s g, Inv s -> s_mode s = M_before_head -> s_foster s = false -> good_tag g -> g_id g = T_head ->
  okay (fun p => Inv (set_mode M_in_head (set_head (Some (snd p)) (fst p))) /\ s_foster (fst p) = false) (insert_el g s).
Proof.
  intros s g V Em Fo G Eg. destruct V as (W & H). rewrite Em in H. destruct H as (P1 & P2 & P3). cbn in P1.
  eapply okay_weak; [apply (insert_el_ok g s W); [now exists []|exact G|]|].
  - right. rewrite Eg. split; [discriminate|]. split; [exact Fo|]. exists T_html, [], [T_html]. auto.
  - intros [s1 i] [Q1 Q2]. cbn [fst snd] in *. rewrite Eg in *. split.
    + split; [|split; [|split]].
      * apply (alike_world (set_head (Some i) s1)); [constructor; reflexivity|]. apply world_head; [apply Q1|exact Q2].
      * cbn [Stand s_mode set_mode]. change (names (set_mode M_in_head (set_head (Some i) s1))) with (names s1).
        rewrite (grown_names _ _ _ Q1), P1. reflexivity.
      * unfold Counted in *. change (s_dom (set_mode M_in_head (set_head (Some i) s1))) with (s_dom s1). rewrite (counted_grown _ _ _ Q1).
        cbn [map ones] in *. injection P2 as A1 A2 A3. rewrite A1, A2, A3. reflexivity.
      * discriminate.
    + destruct Q1 as (_ & _ & _ & _ & e & d & -> & _). exact Fo.
Qed.
Lemma before_head_ok : forall s k, Inv s -> s_mode s = M_before_head -> Tame k -> Calm s k -> (rank M_before_head k <= R)%nat ->
  okay (Post s k) (on_before_head emit s k).
Proof.
  intros s k V Em T C HR. pose proof (calm_head s k M_before_head C Em ltac:(cbn; intuition discriminate)) as Fo. pose proof (post_self s V) as Ig.
  assert (W := proj1 V). assert (Rt : Rooted s) by (destruct V as (_ & H); rewrite Em in H; destruct H as (P1 & _); now exists []).
  assert (rest : (rank M_in_head k < rank M_before_head k)%nat -> okay (Post s k) (run (s1, i) <- insert_el (made_tag T_head) s;
    emit (set_mode M_in_head (set_head (Some i) s1)) k)).
  { intro R2. eapply okay_run2; [apply (head_ok s (made_tag T_head) V Em Fo); [split; [now left|reflexivity]|reflexivity]|]. intros s1 i [V1 Fo1]. cbn [fst snd] in *.
    apply emit_head; auto. cbn [s_mode set_mode]. lia. }
  destruct k as [d|g|t|d|c|]; cbn [on_before_head]; try exact Ig.
  - assert (R3 : (rank M_in_head (KStart g) < rank M_before_head (KStart g))%nat) by (unfold rank; lia).
    destruct (g_id g) eqn:Eg; try (now apply rest).
    + eapply okay_run2; [apply (head_ok s g V Em Fo); [apply T|exact Eg]|]. intros s1 i [V1 Fo1]. cbn [okay Post]. cbn [fst snd] in *.
      split; [exact V1|]. cbn. congruence.
    + eapply stills; [exact V|]. now apply body_html_ok.
  - destruct t; try exact Ig; (apply rest; cbn; lia).
  - eapply stills; [exact V|]. now apply insert_comment_ok.
  - destruct (is_ascii_white_space c); [exact Ig|apply rest; cbn; lia].
  - apply rest; cbn; lia.
Qed.
End Tokens.
