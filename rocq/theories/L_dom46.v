(** Every insertion mode keeps what L_dom45.v states of the tree, as L_dom40.v has it for L_dom45.v. *)
From Coq Require Import ZArith List Bool String Lia Permutation.
From Verif Require Import M_infra M_encoding M_labels M_html M_html_serialize M_dom_names M_dom M_dom2 L_dom L_dom2 L_dom45.
Import ListNotations.
Open Scope Z_scope.
Open Scope dom_scope.
Open Scope list_scope.

Lemma index_by_nth : forall {A} (f : A -> bool) l k, index_by f l = Some k -> exists x, nth_error l k = Some x /\ f x = true.
Proof.
  intros A f l. induction l as [|y l IH]; intros k H; [discriminate|]. cbn in H. destruct (index_by f l) as [j|].
  - injection H as <-. exact (IH j eq_refl).
  - destruct (f y) eqn:E; [|discriminate]. injection H as <-. exists y. auto.
Qed.
Lemma replace_nth_all : forall {A} (P Q : A -> Prop) f l k, Forall P l -> (forall x, P x -> Q x) ->
  (forall x, nth_error l k = Some x -> Q (f x)) -> Forall Q (replace_nth k f l).
Proof.
  intros A P Q f l. induction l as [|y l IH]; intros k F I J; [destruct k; constructor|]. inversion F; subst. destruct k; cbn.
  - constructor; [now apply J|]. eapply Forall_impl; eassumption.
  - constructor; [auto|]. now apply IH.
Qed.
Lemma put_at_all : forall {A} (P : A -> Prop) k x l, Forall P l -> P x -> Forall P (put_at k x l).
Proof.
  intros A P k x l F X. unfold put_at. rewrite <- (firstn_skipn k l) in F. apply Forall_app in F. destruct F as [F1 F2]. apply Forall_app. split; [exact F1|]. now constructor.
Qed.

Section Kept.
Variable Pa : list tattr -> Prop.
Variable Pd : list attr -> Prop.
Variable Pb : list tattr -> Prop.
Variable Ps : list Z -> Prop.
Hypothesis Pa_Pd : forall l, Pa l -> Pd (map (fun a => Attr (ta_ns a) (ta_prefix a) (ta_name a) (ta_value a)) (filter (fun a => negb (ta_omitted a)) l)).
Hypothesis H_add : forall g l, Pa (g_attrs g) -> Pd l -> Pd (add_attrs g l).
Hypothesis Pa_nil : Pa [].
Hypothesis Pa_Pb : forall l, Pa l -> Pb l.
Notation Whole := (Whole Pa Pd Ps).
Notation tag_ok := (tag_ok Pa).
Notation tag_full := (tag_full Pa).
Notation Fresh := (Fresh Pa Pd Ps).

Lemma elem_host : forall d i, elem d i -> host d i.
Proof. now intros d i [H _]. Qed.
Lemma elem_grows : forall d d' i, Grows d d' -> elem d i -> elem d' i.
Proof. intros d d' i G [H1 H2]. split; [now apply (host_grows d)|exact H2]. Qed.
Lemma whole_arena : forall s, Whole s -> Arena Pd (s_dom s).
Proof. intros s W. apply W. Qed.
Lemma whole_in' : forall s e, Whole s -> In e (s_stack s) -> entry_ok Pa (s_dom s) e.
Proof. intros s e W I. exact (whole_in Pa Pd Ps s e W I). Qed.
Lemma whole_act : forall s f, Whole s -> In f (s_active s) -> active_ok Pa (s_dom s) f.
Proof. intros s e W I. pose proof (W_active _ _ _ _ _ _ _ _ _ W) as F. rewrite Forall_forall in F. now apply F. Qed.
Lemma keep_entry_before : forall i s, Whole s -> keeps (elem (s_dom s)) (entry_before i s).
Proof.
  intros i s W. unfold entry_before. destruct (stack_index i s) as [k|]; [|exact I]. destruct (nth_error _ _) as [e|] eqn:E; [|exact I].
  apply (whole_in' s e W). now apply nth_error_In in E.
Qed.
Lemma whole_marked : forall i b s, Whole s -> Whole (fst (remove_marked i b s)) /\ s_dom (fst (remove_marked i b s)) = s_dom s.
Proof.
  intros i b s W. unfold remove_marked. destruct (list_index i s); [|auto]. cbn [fst]. split; [now apply whole_remove_list|].
  unfold remove_list. destruct (remove_front _ _); reflexivity.
Qed.
(** the state with another tree, stack and list *)
Lemma whole_core : forall s d l a, Whole s -> Arena Pd d -> Grows (s_dom s) d -> Forall (entry_ok Pa d) l -> Forall (active_ok Pa d) a ->
  Whole (set_active a (set_stack l (set_dom d s))).
Proof.
  intros s d l a [W1 W2 W3 W4 W5 W6] A G L C. constructor; cbn; auto; now apply (node_grows (s_dom s)).
Qed.
Lemma forall_grows : forall d d' l, Grows d d' -> Forall (entry_ok Pa d) l -> Forall (entry_ok Pa d') l.
Proof. intros d d' l G F. eapply Forall_impl; [|exact F]. intro e. now apply entry_grows. Qed.
Lemma forall_active : forall d d' l, Grows d d' -> Forall (active_ok Pa d) l -> Forall (active_ok Pa d') l.
Proof. intros d d' l G F. eapply Forall_impl; [|exact F]. intro e. now apply active_grows. Qed.

Definition Carried (s : st) (r : st * nat * bookmark) : Prop :=
  Whole (fst (fst r)) /\ elem (s_dom (fst (fst r))) (snd (fst r)) /\ Grows (s_dom s) (s_dom (fst (fst r))).
Lemma carried_trans : forall s s1 r, Grows (s_dom s) (s_dom s1) -> Carried s1 r -> Carried s r.
Proof. intros s s1 r G (C1 & C2 & C3). split; [exact C1|]. split; [exact C2|]. now apply (Grows_trans _ (s_dom s1)). Qed.

Lemma fresh_node : forall s g, Whole s -> tag_full g -> keeps (fun x => let (d, n) := create (s_dom s) x in
    Arena Pd d /\ Grows (s_dom s) d /\ elem d n /\ ns_of d n = ns_HTML /\ n = List.length (s_dom s)) (element_for g ns_HTML).
Proof.
  intros s g W [T V]. pose proof (element_ok Pa Pd Pa_Pd g T) as X. eapply keeps_weak; [exact X|]. intros x (l & E & O).
  destruct (create (s_dom s) x) as [d n] eqn:C. apply (create_arena Pd) in C; [|now apply whole_arena|exact O]. destruct C as (C1 & C2 & C3 & C4 & C5).
  split; [exact C1|]. split; [exact C2|]. split; [|split; [unfold ns_of; now rewrite C5, E|exact C3]].
  split; [split; [lia|]; rewrite C5, E; now intros _|]. subst n. apply (A_roots Pd _ (whole_arena s W)).
Qed.
Lemma keep_inner : forall fe fb f count node last prev b s, Whole s -> elem (s_dom s) last ->
  keeps (Carried s) (inner f fe fb count node last prev b s).
Proof.
  intros fe fb f. induction f as [|f IH]; intros count node last prev b s W L; cbn [inner]; [exact I|].
  destruct (if on_stack node s then _ else _) as [node1| |]; try exact I.
  destruct (node1 =? fe)%nat; [split; [exact W|]; split; [exact L|apply Grows_refl]|].
  set (r := if (3 <? S count)%nat && in_list node1 s then remove_marked node1 b s else (s, b)).
  assert (R : Whole (fst r) /\ s_dom (fst r) = s_dom s) by (unfold r; destruct (_ && _); [now apply whole_marked|auto]).
  destruct r as [s1 b1]. cbn [fst] in R. destruct R as [W1 D1].
  assert (L1 : elem (s_dom s1) last) by now rewrite D1. assert (G1 : Grows (s_dom s) (s_dom s1)) by (rewrite D1; apply Grows_refl).
  destruct (list_index node1 s1) as [j|] eqn:J.
  - destruct (stack_index node1 s1) as [k|] eqn:K; [|exact I]. destruct (nth_error (s_stack s1) k) as [e|] eqn:E; [|exact I].
    apply index_by_nth in J. destruct J as (a & J & JA). apply index_by_nth in K. destruct K as (e' & K & KE). rewrite E in K. injection K as <-.
    apply PeanoNat.Nat.eqb_eq in KE. pose proof (whole_act s1 a W1 (nth_error_In _ _ J)) as A. destruct a as [a|]; [|discriminate]. cbn in JA. apply PeanoNat.Nat.eqb_eq in JA.
    destruct A as (A1 & A2 & A3). pose proof (whole_in' s1 e W1 (nth_error_In _ _ E)) as [E1 E2].
    assert (T : tag_full (en_tag e)) by (apply E2; rewrite KE, <- JA; exact A2).
    pose proof (fresh_node s1 (en_tag e) W1 T) as X. destruct (element_for (en_tag e) ns_HTML) as [x| |]; try exact I. cbn [keeps] in X.
    destruct (create (s_dom s1) x) as [d n]. destruct X as (X1 & X2 & X3 & X4 & X5). cbn [s_dom set_active set_stack set_dom].
    destruct (move d (at_end n) last) as [d1| |] eqn:M; try exact I.
    apply (move_arena Pd) in M; [|exact X1|apply X3|destruct L1 as [[L1 _] L2]; split; [exact L2|]; destruct X2; lia].
    destruct M as (M1 & M2 & M3). pose proof (Grows_trans _ _ _ X2 M2) as G.
    assert (N1 : elem d1 n) by now apply (elem_grows d). assert (N2 : ns_of d1 n = ns_HTML) by (rewrite <- X4; apply ns_grows; [exact M2|apply X3]).
    match goal with |- keeps _ (inner _ _ _ _ _ _ _ _ ?st) => set (s2 := st) end.
    assert (W2 : Whole s2).
    { unfold s2. set (l2 := replace_nth k (fun e0 => Entry (en_tag e0) n) (s_stack s1)). set (a2 := replace_nth j (option_map (fun e0 => Entry (en_tag e0) n)) (s_active s1)).
      refine (whole_core s1 d1 l2 a2 W1 M1 G _ _).
      - apply (replace_nth_all (entry_ok Pa (s_dom s1))); [apply W1|intro; now apply entry_grows|]. intros x0 X0. rewrite E in X0. injection X0 as <-. split; [exact N1|]. intros _. exact T.
      - apply (replace_nth_all (active_ok Pa (s_dom s1))); [apply W1|intro; now apply active_grows|]. intros x0 X0. rewrite J in X0. injection X0 as <-. cbn. split; [apply N1|]. split; [exact N2|exact A3]. }
    assert (G2 : Grows (s_dom s1) (s_dom s2)) by exact G.
    eapply keeps_weak; [apply (IH _ _ _ _ _ s2 W2); exact N1|]. intros q Q. apply (carried_trans s s1); [exact G1|]. now apply (carried_trans s1 s2).
  - pose proof (keep_entry_before node1 s1 W1) as P. destruct (entry_before node1 s1) as [p| |]; try exact I.
    destruct (remove_stack node1 s1) as [s2| |] eqn:R; try exact I.
    assert (D2 : s_dom s2 = s_dom s1) by (unfold remove_stack in R; destruct (remove_front _ _); [injection R as <-; reflexivity|discriminate]).
    pose proof (keep_remove_stack Pa Pd Ps node1 s1 W1) as W2. rewrite R in W2. cbn in W2.
    eapply keeps_weak; [apply (IH _ _ _ _ _ s2 W2); now rewrite D2|]. intros q Q. apply (carried_trans s s1); [exact G1|]. apply (carried_trans s1 s2); [rewrite D2; apply Grows_refl|exact Q].
Qed.
Lemma keep_move_all : forall l d to, Arena Pd d -> elem d to -> Forall (fun x => (2 <= x < List.length d)%nat) l ->
  keeps (fun d1 => Arena Pd d1 /\ Grows d d1) (move_all d l to).
Proof.
  induction l as [|x l IH]; intros d to A T F; cbn [move_all]; [split; [exact A|apply Grows_refl]|]. inversion F; subst.
  destruct (move d (at_end to) x) as [d1| |] eqn:M; try exact I. apply (move_arena Pd) in M; [|exact A|apply T|assumption]. destruct M as (M1 & M2 & M3).
  eapply keeps_weak; [apply IH; [exact M1|now apply (elem_grows d)|now rewrite M3]|]. intros d2 [D1 D2]. split; [exact D1|]. now apply (Grows_trans _ d1).
Qed.
Lemma named_back_in : forall d t l i, named_back d t l = Some i -> exists e, In (Some e) l /\ en_node e = i.
Proof.
  intros d t l i. induction l as [|[e|] l IH]; intro H; cbn in H; try discriminate. destruct (teqb _ _).
  - injection H as <-. exists e. split; [now left|reflexivity].
  - destruct (IH H) as (x & X1 & X2). exists x. split; [now right|exact X2].
Qed.
Lemma stack_entry : forall s i k e, stack_index i s = Some k -> nth_error (s_stack s) k = Some e -> In e (s_stack s) /\ en_node e = i.
Proof.
  intros s i k e K E. apply index_by_nth in K. destruct K as (e' & K & KE). rewrite E in K. injection K as <-. split; [now apply nth_error_In in E|now apply PeanoNat.Nat.eqb_eq].
Qed.
Lemma keep_outer : forall n t s, Whole s -> keeps (fun p => Whole (fst p)) (outer n t s).
Proof.
  induction n as [|n IH]; intros t s W; cbn [outer]; [exact W|]. destruct (named_back _ _ _) as [fe|] eqn:FE; [|exact W].
  destruct (negb (on_stack fe s)); [now apply whole_remove_list|]. destruct (in_scope_node _ _ _) as [sc| |]; try exact I. destruct (negb sc); [exact W|].
  destruct (furthest _ _ _) as [fb|] eqn:FB.
  2:{ apply (whole_remove_list Pa Pd Ps fe (pop_until_node fe s)). now apply whole_pop_until_node. }
  pose proof (keep_entry_before fe s W) as CA. destruct (entry_before fe s) as [ca| |]; try exact I. cbn [keeps] in CA.
  assert (FB1 : elem (s_dom s) fb).
  { unfold furthest in FB. destruct (find _ _) as [e|] eqn:E; [|discriminate]. injection FB as <-. apply find_some in E. destruct E as [E _].
    apply (whole_in' s e W). apply in_rev. clear - E. induction (rev (s_stack s)) as [|x l IH]; [exact E|]. cbn in E. destruct (_ =? _)%nat; [now right|right; now apply IH]. }
  assert (FE1 : elem (s_dom s) fe \/ True) by now right.
  apply named_back_in in FE. destruct FE as (a & A1 & A2). apply (whole_act s _ W) in A1. destruct A1 as (A1 & A3 & A4). rewrite A2 in *.
  pose proof (keep_inner fe fb (S (List.length (s_stack s))) O fb fb None (match list_index fe s with Some j => Some j | None => None end) s W FB1) as K.
  destruct (inner _ _ _ _ _ _ _ _ _) as [[[s1 last] b]| |]; try exact I. destruct K as (W1 & L1 & G1). cbn [fst snd] in *.
  pose proof (keep_place Pa Pd Ps ca s1 W1 (elem_grows _ _ _ G1 CA)) as P. destruct (place_for ca s1) as [p| |]; try exact I. cbn [keeps] in P.
  destruct (move (s_dom s1) p last) as [d2| |] eqn:M; try exact I.
  apply (move_arena Pd) in M; [|now apply whole_arena|exact P|destruct L1 as [[L1 _] L2]; split; assumption]. destruct M as (M1 & M2 & M3).
  set (s2 := set_dom d2 s1). assert (W2 : Whole s2) by (now apply whole_dom).
  change (stack_index fe (set_dom d2 s1)) with (stack_index fe s2). destruct (stack_index fe s2) as [k|] eqn:K; [|exact I].
  change (s_stack (set_dom d2 s1)) with (s_stack s2). destruct (nth_error (s_stack s2) k) as [e|] eqn:E; [|exact I].
  destruct (stack_entry s2 fe k e K E) as [E1 E2]. pose proof (whole_in' s2 e W2 E1) as [E3 E4].
  assert (G2 : Grows (s_dom s) (s_dom s2)) by (apply (Grows_trans _ (s_dom s1)); [exact G1|exact M2]).
  assert (T : tag_full (en_tag e)) by (apply E4; rewrite E2, <- A3; apply ns_grows; [exact G2|apply A1]).
  pose proof (fresh_node s2 (en_tag e) W2 T) as X. destruct (element_for (en_tag e) ns_HTML) as [x| |]; try exact I. cbn [keeps] in X.
  change (s_dom (set_dom d2 s1)) with (s_dom s2). destruct (create (s_dom s2) x) as [d3 el]. destruct X as (X1 & X2 & X3 & X4 & X5).
  assert (F : Forall (fun y => (2 <= y < List.length d3)%nat) (kids_of d3 fb)) by (apply Forall_forall; intros y Y; now apply (A_kids Pd _ X1) in Y).
  pose proof (keep_move_all _ _ el X1 X3 F) as MA. destruct (move_all d3 (kids_of d3 fb) el) as [d4| |]; try exact I. destruct MA as (D1 & D2).
  destruct (move d4 (at_end fb) el) as [d5| |] eqn:MB; try exact I.
  assert (G4 : Grows (s_dom s) d4) by (apply (Grows_trans _ (s_dom s2)); [exact G2|]; apply (Grows_trans _ d3); assumption).
  apply (move_arena Pd) in MB; [|exact D1|apply (host_grows (s_dom s)); [exact G4|apply FB1]|destruct X3 as [[X3 _] X6]; destruct D2 as [D2 _]; split; [exact X6|lia]].
  destruct MB as (MB1 & MB2 & MB3). cbn [s_dom set_dom].
  set (s5 := set_dom d5 s2). assert (G5 : Grows (s_dom s2) d5) by (apply (Grows_trans _ d3); [exact X2|]; apply (Grows_trans _ d4); assumption).
  assert (W5 : Whole s5) by (now apply whole_dom). change (set_dom d5 (set_dom d2 s1)) with s5.
  destruct (whole_marked fe b s5 W5) as [W6 D6]. destruct (remove_marked fe b s5) as [s6 b6]. cbn [fst] in W6, D6. destruct b6 as [k6|]; [|exact I].
  assert (EL : elem (s_dom s6) el) by (rewrite D6; apply (elem_grows d3); [|exact X3]; apply (Grows_trans _ d4); assumption).
  assert (NL : ns_of (s_dom s6) el = ns_HTML) by (rewrite D6, <- X4; apply ns_grows; [apply (Grows_trans _ d4); assumption|apply X3]).
  match goal with |- keeps _ (match remove_stack fe ?st with _ => _ end) => set (s7 := st) end.
  assert (W7 : Whole s7).
  { unfold s7. destruct W6 as [Q1 Q2 Q3 Q4 Q5 Q6]. constructor; cbn; auto. apply put_at_all; [exact Q3|]. cbn. split; [apply EL|]. split; [exact NL|exact T]. }
  pose proof (keep_remove_stack Pa Pd Ps fe s7 W7) as W8. destruct (remove_stack fe s7) as [s8| |] eqn:R; try exact I. cbn [keeps] in W8.
  assert (D8 : s_dom s8 = s_dom s6) by (unfold remove_stack in R; destruct (remove_front _ _); [injection R as <-; reflexivity|discriminate]).
  destruct (stack_index fb s8) as [k8|]; [|exact I]. apply IH.
  destruct W8 as [Q1 Q2 Q3 Q4 Q5 Q6]. constructor; cbn; auto. apply put_at_all; [exact Q2|]. split; cbn; [now rewrite D8|]. intros _. exact T.
Qed.
Lemma keep_agency : forall t s, Whole s -> keeps (fun p => Whole (fst p)) (agency t s).
Proof.
  intros t s W. unfold agency. destruct (cur s) as [i| |]; try exact I. destruct (_ && _); [|now apply keep_outer].
  eapply keeps_run; [apply (keep_pop Pa Pd Ps s W)|]. intros x X. exact X.
Qed.

(** *** The modes *)
Definition tok_ok (k : ktok) : Prop := match k with KStart g => tag_ok g | _ => True end.
Variable listed : list Z -> bool.
Variable emit : st -> ktok -> outcome st.
Hypothesis E : forall s k, Whole s -> tok_ok k -> keeps Whole (emit s k).
Hypothesis H_m : forall g, Pa (g_attrs g) -> Pb (g_attrs (adjust_mathml g)).
Hypothesis H_s : forall g, Pa (g_attrs g) -> Pb (g_attrs (adjust_svg g)).
Hypothesis H_f : forall g, Pb (g_attrs g) ->
  Pd (map (fun a => Attr (ta_ns a) (ta_prefix a) (ta_name a) (ta_value a)) (filter (fun a => negb (ta_omitted a)) (g_attrs (adjust_foreign g)))) /\
  Forall Ps (map ta_prefix (g_attrs (adjust_foreign g))).

Lemma made_ok : forall t, tname_of (tstring t) = t -> tag_ok (made_tag t).
Proof. intros t H. split; [exact H|]. split; [discriminate|exact Pa_nil]. Qed.
Lemma made_full : forall t, tname_of (tstring t) = t -> void t = false -> tag_full (made_tag t).
Proof. intros t H V. split; [now apply made_ok|exact V]. Qed.
Lemma empty_full : tag_full empty_tag.
Proof. split; [|reflexivity]. split; [reflexivity|]. split; [|exact Pa_nil]. intros _. split; [reflexivity|]. exists []. reflexivity. Qed.
Lemma keep_cond : forall (b : bool) s s', Whole s -> Whole s' -> Whole (if b then s else s').
Proof. now intros []. Qed.

Ltac tags :=
  match goal with
  | |- tok_ok _ => cbn [tok_ok]; tags
  | |- True => exact I
  | |- L_dom45.tag_full _ (made_tag _) => apply made_full; vm_compute; reflexivity
  | |- L_dom45.tag_ok _ (made_tag _) => apply made_ok; vm_compute; reflexivity
  | G : g_id ?g = _ |- L_dom45.tag_full _ ?g => split; [assumption|rewrite G; reflexivity]
  | |- _ => assumption
  end.
Ltac whole :=
  repeat first
  [ assumption
  | apply keep_cond
  | apply whole_pop_until | apply whole_pop_until_any | apply whole_pop_until_node | apply whole_implied | apply whole_implied_end
  | apply whole_thoroughly | apply whole_to_table | apply whole_clear | apply whole_marker | apply whole_remove_list
  | apply whole_close_p | apply whole_close_cell | apply whole_stop | apply whole_no_form
  | match goal with
    | |- L_dom45.Whole _ _ _ (set_mode _ ?x) => change (Whole x)
    | |- L_dom45.Whole _ _ _ (set_frameset_ok _ ?x) => change (Whole x)
    | |- L_dom45.Whole _ _ _ (set_omit_lf _ ?x) => change (Whole x)
    | |- L_dom45.Whole _ _ _ (set_quirks _ ?x) => change (Whole x)
    | |- L_dom45.Whole _ _ _ (set_templates _ ?x) => change (Whole x)
    | |- L_dom45.Whole _ _ _ (set_foster _ ?x) => change (Whole x)
    | |- L_dom45.Whole _ _ _ (set_original _ ?x) => change (Whole x)
    | |- L_dom45.Whole _ _ _ (set_pending _ ?x) => change (Whole x)
    | |- L_dom45.Whole _ _ _ (set_wanted _ ?x) => change (Whole x)
    | |- L_dom45.Whole _ _ _ (to_text ?x) => change (Whole x)
    | |- L_dom45.Whole _ _ _ (want _ ?x) => change (Whole x)
    end
  | apply whole_head; [assumption|] | apply whole_form; [assumption|]
  | match goal with T : L_dom45.tag_ok _ ?g |- L_dom45.Whole _ _ _ (merge_attrs ?g _ _) => apply whole_merge; [exact H_add|apply T|] end
  | apply whole_formatting; [now apply elem_host|assumption|tags|] ].

Ltac leaf :=
  first
  [ exact I
  | match goal with
    | |- keeps _ (Val _) => cbn [keeps]; whole
    | |- keeps _ (emit _ _) => apply E; [whole|tags]
    | |- keeps _ (pop _) => apply keep_pop; whole
    | |- keeps _ (remove_stack _ _) => apply keep_remove_stack; whole
    | |- keeps _ (to_body_context _) => apply keep_to_body; whole
    | |- keeps _ (to_row_context _) => apply keep_to_row; whole
    | |- keeps _ (p_closed _) => apply keep_p_closed; whole
    | |- keeps _ (pop_template _) => apply keep_pop_template; whole
    | |- keeps _ (reset_mode _) => apply keep_reset; whole
    | |- keeps _ (other_end _ _) => apply keep_other_end; whole
    | |- keeps _ (dd_from _ _) => apply keep_dd; whole
    | |- keeps _ (reconstruct _) => apply keep_reconstruct; [exact Pa_Pd|whole]
    | |- keeps _ (insert_char _ _) => apply keep_char; whole
    | |- keeps _ (insert_comment _ _) => apply keep_comment; whole
    | |- keeps _ (insert_comment_at _ _ _) => apply keep_comment_at; [whole|now apply (host_document Pa Pd Ps)]
    | |- keeps _ (insert_el' _ _) => apply keep_insert; [exact Pa_Pd|tags|whole]
    | |- keeps _ (insert_void _ _) => apply keep_void; [exact Pa_Pd|tags|whole]
    | |- keeps _ (raw_text _ _) => apply keep_raw_text; [exact Pa_Pd|tags|whole]
    | |- keeps _ (rcdata _ _) => apply keep_rcdata; [exact Pa_Pd|tags|whole]
    | |- keeps _ (other_start _ _) => apply keep_other_start; [exact Pa_Pd|tags|whole]
    | T : L_dom45.tag_ok _ ?g |- keeps _ (body_html ?g _) => apply keep_body_html; [exact H_add|apply T|whole]
    end ].
Ltac go :=
  repeat first
  [ leaf
  | match goal with
    | |- keeps _ (match ?r with Val _ => _ | Bad => _ | NoFuel => _ end) =>
        lazymatch type of r with
        | outcome st => apply (keeps_run Whole); [|intros ? ?]
        | outcome bool => destruct r; [|exact I|exact I]
        | outcome nat => destruct r; [|exact I|exact I]
        | outcome (st * nat) => eapply keeps_run2; [apply (keep_insert_el Pa Pd Ps Pa_Pd); [tags|whole]|intros ? ? (? & ? & ?); cbn [fst snd] in *]
        | outcome (st * bool) => eapply keeps_run2; [apply keep_agency; whole|intros ? ? ?; cbn [fst snd] in *]
        end
    | |- keeps _ (if ?b then _ else _) => destruct b
    | |- keeps _ (match ?o with Some _ => _ | None => _ end) => destruct o
    | |- keeps _ (match ?o with [] => _ | _ :: _ => _ end) => destruct o
    end ].

Lemma keep_initial : forall s k, Whole s -> tok_ok k -> keeps Whole (on_initial listed emit s k).
Proof.
  intros s k W T. unfold on_initial; cbv zeta. destruct k; go.
  destruct (insert _ _ _) as [[d1 i]| |] eqn:X; try exact I. cbn [keeps]. apply (insert_arena Pd) in X; [|apply W|now apply (host_document Pa Pd Ps)|exact I]. destruct X as (X1 & X2 & _).
  assert (Whole (set_dom d1 s)) by now apply whole_dom. whole.
Qed.
Lemma keep_root : forall s g x d i, Whole s -> tag_full g -> info_ok Pd x -> (exists l, x = IElement ns_HTML T_html l) ->
  insert (s_dom s) (at_end the_document) x = Val (d, i) -> Whole (set_stack (Entry g i :: s_stack s) (set_dom d s)).
Proof.
  intros s g x d i W T O (l & X) E0. apply (insert_arena Pd) in E0; [|apply W|now apply (host_document Pa Pd Ps)|exact O]. destruct E0 as (A & G & -> & L & N).
  apply (whole_push Pa Pd Ps (Entry g (List.length (s_dom s))) (set_dom d s)); [|now apply whole_dom]. split; [|now intros _].
  split; [split; [cbn; lia|]; cbn [en_node s_dom set_dom]; rewrite N, X; now intros _|]. apply (A_roots Pd _ (whole_arena s W)).
Qed.
Lemma keep_before_html : forall s k, Whole s -> tok_ok k -> keeps Whole (on_before_html emit s k).
Proof.
  intros s k W T. unfold on_before_html; cbv zeta.
  assert (R : keeps Whole (run (d, i) <- insert (s_dom s) (at_end the_document) (IElement ns_HTML T_html []);
    emit (set_mode M_before_head (set_stack (Entry empty_tag i :: s_stack s) (set_dom d s))) k)).
  { destruct (insert _ _ _) as [[d1 i]| |] eqn:X; try exact I. apply E; [|exact T].
    apply (keep_root s empty_tag _ d1 i W empty_full) in X; [exact X| |now exists []]. split; [exact (Pa_Pd [] Pa_nil)|]. intros _. reflexivity. }
  destruct k; try exact R; cbn [tok_ok] in T; go; try exact R.
  - destruct (g_id g) eqn:G; try exact R. clear R. pose proof (element_ok Pa Pd Pa_Pd g T) as X. destruct (element_for g ns_HTML) as [x| |]; try exact I.
    destruct X as (l & X1 & X2). destruct (insert _ _ _) as [[d1 i]| |] eqn:Y; try exact I. cbn [keeps]. apply (keep_root s g _ d1 i W) in Y; [exact Y|tags|exact X2|rewrite X1, G; now exists l].
  - destruct t; first [exact R|go].
Qed.
Lemma keep_before_head : forall s k, Whole s -> tok_ok k -> keeps Whole (on_before_head emit s k).
Proof. intros s k W T. unfold on_before_head; cbv zeta. destruct k; cbn [tok_ok] in T; go; [destruct (g_id g) eqn:G|destruct t]; go. Qed.
Lemma keep_in_head : forall s k, Whole s -> tok_ok k -> keeps Whole (on_in_head emit s k).
Proof. intros s k W T. unfold on_in_head; cbv zeta. destruct k; cbn [tok_ok] in T; go; [destruct (g_id g) eqn:G|destruct t]; go. Qed.

Lemma keep_in_head_noscript : forall s k, Whole s -> tok_ok k -> keeps Whole (on_in_head_noscript emit s k).
Proof.
  intros s k W T. pose proof (keep_in_head s k W T) as H. unfold on_in_head_noscript; cbv zeta.
  destruct k; cbn [tok_ok] in T; try exact H; go; try exact H; [destruct (g_id g) eqn:G|destruct t]; try exact H; go.
Qed.
Lemma keep_after_head : forall s k, Whole s -> tok_ok k -> keeps Whole (on_after_head emit s k).
Proof.
  intros s k W T. pose proof (keep_in_head s k W T) as H. unfold on_after_head; cbv zeta.
  destruct k; cbn [tok_ok] in T; go; [|destruct t; try exact H; go].
  assert (Q : keeps Whole (match s_head s with
          | None => Bad
          | Some h =>
              run s1 <- on_in_head emit (set_stack (Entry empty_tag h :: s_stack s) s) (KStart g);
              Val (set_stack (filter (fun e => negb (en_node e =? h)%nat) (s_stack s1)) s1)
          end)).
  { destruct (s_head s) as [h|] eqn:HH; [|exact I]. apply (keeps_run Whole).
    - apply keep_in_head; [|exact T]. apply whole_push; [|exact W]. pose proof (W_head _ _ _ _ _ _ _ _ _ W) as N. rewrite HH in N. split; [exact N|]. intros _. exact empty_full.
    - intros s1 W1. cbn [keeps]. apply whole_stack; [|exact W1]. intros e I. apply filter_In in I. apply I. }
  destruct (g_id g) eqn:G; try exact Q; go.
Qed.
Lemma keep_template_eof : forall s, Whole s -> keeps Whole (template_eof emit s).
Proof. intros s W. unfold template_eof; cbv zeta. go. Qed.
Lemma keep_foreign_el : forall g1 ns s, ns <> ns_HTML -> Pb (g_attrs g1) -> Whole s ->
  keeps (fun p => Whole (fst p)) (insert_foreign (adjust_foreign g1) ns (keep_slots (adjust_foreign g1) s)).
Proof.
  intros g1 ns s N F W. destruct (H_f g1 F) as [F1 F2]. apply keep_foreign; [exact N|exact F1|].
  destruct W as [W1 W2 W3 W4 W5 W6]. constructor; cbn; auto. apply Forall_app. split; [exact F2|].
  rewrite <- (firstn_skipn (List.length (g_attrs (adjust_foreign g1))) (s_slots s)) in W6. apply Forall_app in W6. apply W6.
Qed.
Lemma keep_math : forall g ns s, ns <> ns_HTML -> tag_ok g -> Whole s ->
  keeps Whole (run s1 <- reconstruct s;
      let g1 := adjust_foreign (adjust_mathml g) in
      run (s2, _) <- insert_foreign g1 ns (keep_slots g1 s1);
      if g_self g then pop s2 else Val s2).
Proof.
  intros g ns s N T W. apply (keeps_run Whole); [leaf|]. intros s1 W1. cbv zeta. eapply keeps_run2; [apply keep_foreign_el; [exact N|apply H_m, T|exact W1]|].
  intros s2 i W2. cbn [fst] in W2. go.
Qed.
Lemma keep_frameset : forall g s, tag_full g -> Whole s -> keeps Whole (
      if (List.length (s_stack s) =? 1)%nat then Val s
      else run i <- second s;
           if is_html T_body (s_dom s) i then Val s
           else if negb (s_frameset_ok s) then Val s
           else
             let p := parent_of (s_dom s) i in
             let s1 := if (parent_of (s_dom s) p =? the_document)%nat then s else set_dom (erase (s_dom s) p) s in
             run l <- pop_to (is_html T_html (s_dom s1)) (s_stack s1);
             run s2 <- insert_el' g (set_stack l s1);
             Val (set_mode M_in_frameset s2)).
Proof.
  intros g s T W. destruct (_ =? 1)%nat; [exact W|]. destruct (second s) as [i| |]; try exact I. destruct (is_html T_body _ _); [exact W|]. destruct (negb _); [exact W|].
  cbv zeta. set (s1 := if (_ =? the_document)%nat then _ else _).
  assert (W1 : Whole s1) by (unfold s1; destruct (_ =? the_document)%nat; [exact W|]; destruct (erase_arena Pd (s_dom s) (parent_of (s_dom s) i) (whole_arena s W)); now apply whole_dom).
  eapply keeps_run; [apply pop_to_incl|]. intros l L. assert (W2 : Whole (set_stack l s1)) by now apply whole_stack. go.
Qed.
Lemma keep_body_start : forall s g, Whole s -> tag_ok g -> keeps Whole (body_start emit s g).
Proof.
  intros s g W T. pose proof (keep_in_head s (KStart g) W T) as H. unfold body_start; cbv zeta.
  destruct (g_id g) eqn:G; try exact H; try (apply keep_frameset; [tags|exact W]); try (apply keep_math; [discriminate|exact T|exact W]); cbv zeta; go.
  apply E; [exact W|]. cbn [tok_ok]. destruct T as (T1 & T2 & T3). split; [vm_compute; reflexivity|]. split; [|exact T3]. intro A. destruct (T2 A) as [_ (x & X)]. congruence.
Qed.
Lemma keep_body_end : forall s t, Whole s -> keeps Whole (body_end emit s t).
Proof.
  intros s t W. pose proof (keep_in_head s (KEnd t) W I) as H. unfold body_end; cbv zeta. destruct t; try exact H; go.
Qed.
Lemma keep_in_body : forall s k, Whole s -> tok_ok k -> keeps Whole (on_in_body emit s k).
Proof.
  intros s k W T. unfold on_in_body; cbv zeta. destruct k; cbn [tok_ok] in T; go; first [now apply keep_body_start|now apply keep_body_end|now apply keep_template_eof].
Qed.
Ltac mode := intros s k W T; pose proof (keep_in_head s k W T) as H; pose proof (keep_in_body s k W T) as B.
Ltac cases T H B :=
  match goal with k : ktok |- _ => destruct k as [?|g|t|?|?|] end; cbn [tok_ok] in T; try exact B; try exact H; go; try exact B; try exact H;
  match goal with
  | |- keeps _ (match g_id ?g with _ => _ end) => destruct (g_id g) eqn:G
  | |- keeps _ (match ?t with T_a => _ | _ => _ end) => destruct t
  | |- _ => idtac
  end; first [exact B|exact H|go].
Lemma keep_text : forall s k, Whole s -> tok_ok k -> keeps Whole (on_text emit s k).
Proof. intros s k W T. unfold on_text; cbv zeta. destruct k; go. Qed.
Lemma keep_fostered : forall s k, Whole s -> tok_ok k -> keeps Whole (run s1 <- on_in_body emit (set_foster true s) k; Val (set_foster false s1)).
Proof. intros s k W T. apply (keeps_run Whole); [apply keep_in_body; [exact W|exact T]|]. intros s1 W1. exact W1. Qed.
Lemma keep_in_table : forall s k, Whole s -> tok_ok k -> keeps Whole (on_in_table emit s k).
Proof.
  mode. unfold on_in_table; cbv zeta.
  destruct k as [?|g|t|?|?|]; cbn [tok_ok] in T; try exact B; go; try (apply keep_in_body; [whole|exact T]);
    [destruct (g_id g) eqn:G|destruct t]; first [exact H|go]; apply keep_in_body; (whole || exact T).
Qed.
Lemma keep_table_text : forall b l s, Whole s -> keeps Whole (table_text emit b l s).
Proof.
  intros b l. induction l as [|c l IH]; intros s W; cbn [table_text]; [exact W|]. apply (keeps_run Whole); [|intros s1 W1; now apply IH].
  destruct b; [now apply keep_fostered|leaf].
Qed.
Lemma keep_in_table_text : forall s k, Whole s -> tok_ok k -> keeps Whole (on_in_table_text emit s k).
Proof.
  intros s k W T. unfold on_in_table_text; cbv zeta.
  assert (Q : keeps Whole (run s1 <- table_text emit (negb (forallb is_ascii_white_space (s_pending s))) (s_pending s) s; emit (set_mode (s_original s1) s1) k)).
  { apply (keeps_run Whole); [now apply keep_table_text|]. intros s1 W1. now apply E. }
  destruct k; try exact Q. go.
Qed.
Lemma keep_in_caption : forall s k, Whole s -> tok_ok k -> keeps Whole (on_in_caption emit s k).
Proof. mode. unfold on_in_caption; cbv zeta. cases T H B. Qed.
Lemma keep_in_column_group : forall s k, Whole s -> tok_ok k -> keeps Whole (on_in_column_group emit s k).
Proof. mode. unfold on_in_column_group; cbv zeta. cases T H B. Qed.
Lemma keep_in_table_body : forall s k, Whole s -> tok_ok k -> keeps Whole (on_in_table_body emit s k).
Proof. mode. clear B. pose proof (keep_in_table s k W T) as B. unfold on_in_table_body; cbv zeta. cases T H B. Qed.
Lemma keep_in_row : forall s k, Whole s -> tok_ok k -> keeps Whole (on_in_row emit s k).
Proof. mode. clear B. pose proof (keep_in_table s k W T) as B. unfold on_in_row; cbv zeta. cases T H B. Qed.
Lemma keep_in_cell : forall s k, Whole s -> tok_ok k -> keeps Whole (on_in_cell emit s k).
Proof. mode. unfold on_in_cell; cbv zeta. cases T H B. Qed.
Lemma keep_in_select : forall s k, Whole s -> tok_ok k -> keeps Whole (on_in_select emit s k).
Proof. mode. unfold on_in_select; cbv zeta. cases T H B. Qed.
Lemma keep_in_select_in_table : forall s k, Whole s -> tok_ok k -> keeps Whole (on_in_select_in_table emit s k).
Proof. mode. clear B. pose proof (keep_in_select s k W T) as B. unfold on_in_select_in_table; cbv zeta. cases T H B. Qed.
Lemma keep_in_template : forall s k, Whole s -> tok_ok k -> keeps Whole (on_in_template emit s k).
Proof. mode. pose proof (keep_template_eof s W) as Q. unfold on_in_template; cbv zeta. destruct k; cbn [tok_ok] in T; try exact Q; try exact B; [destruct (g_id g) eqn:G|destruct t]; first [exact H|go]. Qed.
Lemma keep_after_body : forall s k, Whole s -> tok_ok k -> keeps Whole (on_after_body emit s k).
Proof.
  mode. unfold on_after_body; cbv zeta. destruct k; cbn [tok_ok] in T; try (go; fail).
  - destruct (g_id g) eqn:G; go.
  - destruct t; go.
  - eapply keeps_run; [apply (keep_front Pa Pd Ps s W)|]. intros i F. apply keep_comment_at; [exact W|apply F].
  - go. exact B.
Qed.
Lemma keep_in_frameset : forall s k, Whole s -> tok_ok k -> keeps Whole (on_in_frameset emit s k).
Proof. mode. unfold on_in_frameset; cbv zeta. cases T H B. Qed.
Lemma keep_after_frameset : forall s k, Whole s -> tok_ok k -> keeps Whole (on_after_frameset emit s k).
Proof. mode. unfold on_after_frameset; cbv zeta. cases T H B. Qed.
Lemma keep_after_after_body : forall s k, Whole s -> tok_ok k -> keeps Whole (on_after_after_body emit s k).
Proof. mode. unfold on_after_after_body; cbv zeta. cases T H B. Qed.
Lemma keep_after_after_frameset : forall s k, Whole s -> tok_ok k -> keeps Whole (on_after_after_frameset emit s k).
Proof. mode. unfold on_after_after_frameset; cbv zeta. cases T H B. Qed.

Lemma keep_mode : forall s k, Whole s -> tok_ok k -> keeps Whole (in_mode listed emit s k).
Proof.
  intros s k W T. unfold in_mode. destruct (s_mode s);
  first [apply keep_initial|apply keep_before_html|apply keep_before_head|apply keep_in_head|apply keep_in_head_noscript|apply keep_after_head|apply keep_in_body
  |apply keep_text|apply keep_in_table|apply keep_in_table_text|apply keep_in_caption|apply keep_in_column_group|apply keep_in_table_body|apply keep_in_row
  |apply keep_in_cell|apply keep_in_select|apply keep_in_select_in_table|apply keep_in_template|apply keep_after_body|apply keep_in_frameset|apply keep_after_frameset
  |apply keep_after_after_body|apply keep_after_after_frameset]; assumption.
Qed.
Lemma keep_foreign_end : forall t b l s, Whole s -> keeps (fun p => Whole (fst p)) (foreign_end t b l s).
Proof.
  intros t b l. induction l as [|e l IH]; intros s W; cbn [foreign_end]; [exact I|]. destruct (_ =? b)%nat; [exact W|].
  destruct (same_str _ _); [now apply whole_pop_until_node|]. destruct l as [|f r]; [exact I|]. destruct (negb _); [now apply IH|exact W].
Qed.
Lemma keep_on_foreign : forall s k, Whole s -> tok_ok k -> keeps (fun e => ns_of (s_dom s) (en_node e) <> ns_HTML) (adjusted s) ->
  keeps Whole (on_foreign listed emit s k).
Proof.
  intros s k W T N. unfold on_foreign; cbv zeta. destruct k; cbn [tok_ok] in T; try (go; fail).
  - match goal with |- context [if ?b then _ else _] => destruct b end.
    + apply (keeps_run Whole); [leaf|]. intros s1 W1. eapply keeps_run; [apply breakout_incl|]. intros l L.
      apply E; [now apply whole_stack|exact T].
    + unfold foreign_start. destruct (adjusted s) as [e| |]; try exact I. cbn [keeps] in N. cbv zeta.
      match goal with |- context [adjust_foreign ?x] => set (g1 := x) end.
      assert (F : Pb (g_attrs g1)).
      { unfold g1. destruct (_ =? ns_MathML); [apply H_m, T|]. destruct (_ =? ns_SVG); [|apply Pa_Pb, T]. cbn [g_attrs]. apply H_s, T. }
      eapply keeps_run2; [apply keep_foreign_el; [exact N|exact F|exact W]|]. intros s2 i W2. cbn [fst] in W2. go.
  - destruct (cur s) as [i| |]; try exact I. destruct (_ && _); [leaf|]. destruct (front s) as [b| |]; try exact I.
    eapply keeps_run2; [apply (keep_foreign_end _ _ _ s W)|]. intros s1 [] W1; [now apply keep_mode|exact W1].
Qed.
Lemma keep_dispatch : forall s k, Whole s -> tok_ok k -> keeps Whole (dispatch listed emit s k).
Proof.
  intros s0 k W0 T. unfold dispatch; cbv zeta. set (s := set_omit_lf false s0). assert (W : Whole s) by exact W0.
  assert (Q : keeps Whole (in_mode listed emit s k)) by now apply keep_mode.
  assert (N : forall e, adjusted s = Val e -> ns_of (s_dom s) (en_node e) <> ns_HTML -> keeps Whole (on_foreign listed emit s k)).
  { intros e A N. apply keep_on_foreign; [exact W|exact T|]. now rewrite A. }
  assert (R : forall b : bool, keeps Whole (match s_stack s with [] => in_mode listed emit s k | _ => run e <- adjusted s;
    if (ns_of (s_dom s) (en_node e) =? ns_HTML) || b then in_mode listed emit s k else on_foreign listed emit s k end)).
  { intro b. destruct (s_stack s); [exact Q|]. destruct (adjusted s) as [e'| |] eqn:A; try exact I. destruct (_ =? ns_HTML) eqn:X; cbn [orb]; [exact Q|]. destruct b; [exact Q|].
    apply (N e' eq_refl). now apply Z.eqb_neq. }
  assert (M : forall f : entry -> bool, keeps Whole (match s_stack s with [] => in_mode listed emit s k | _ => run e <- adjusted s;
    if (ns_of (s_dom s) (en_node e) =? ns_HTML) || f e then in_mode listed emit s k else on_foreign listed emit s k end)).
  { intro f. specialize (R true) as R1. specialize (R false) as R2. destruct (s_stack s); [exact Q|]. destruct (adjusted s) as [e'| |]; try exact I. destruct (f e'); assumption. }
  destruct k as [d|g|t|x|c|].
  - exact (M (fun _ => false)).
  - exact (M (fun e => (mathml_text_point (s_dom s) (en_node e) && negb (among (g_id g) [T_mglyph; T_malignmark]))
                   || (teqb (name_of (s_dom s) (en_node e)) T_annotation_xml && teqb (g_id g) T_svg)
                   || html_point (s_dom s) e)).
  - exact (M (fun _ => false)).
  - exact (M (fun _ => false)).
  - destruct (_ && _); [exact W|]. pose proof (M (fun e => mathml_text_point (s_dom s) (en_node e) || html_point (s_dom s) e)) as H. cbv beta in H.
    destruct (s_stack s); [exact Q|]. destruct (adjusted s) as [e'| |]; try exact I. now rewrite <- orb_assoc.
  - exact (M (fun _ => true)).
Qed.
End Kept.

(** *** Tokens *)
Lemma known_atoms : forallb (fun p => has_atom (lit (snd p))) tnames = true.
Proof. vm_compute. reflexivity. Qed.
Lemma no_atom : forall n, has_atom n = false -> tname_of n = Other n.
Proof.
  intros n H. unfold tname_of. destruct (find _ tnames) as [[t x]|] eqn:F; [|reflexivity]. exfalso. apply find_some in F. destruct F as [F1 F2]. cbn [snd] in F2.
  apply same_str_eq in F2. pose proof known_atoms as K. rewrite forallb_forall in K. apply K in F1. cbn [snd] in F1. congruence.
Qed.
Section Read.
Variable Pa : list tattr -> Prop.
Variable Pd : list attr -> Prop.
Variable Pb : list tattr -> Prop.
Variable Ps : list Z -> Prop.
Variable Pt : list attribute -> Prop.
Hypothesis Pa_Pd : forall l, Pa l -> Pd (map (fun a => Attr (ta_ns a) (ta_prefix a) (ta_name a) (ta_value a)) (filter (fun a => negb (ta_omitted a)) l)).
Hypothesis H_add : forall g l, Pa (g_attrs g) -> Pd l -> Pd (add_attrs g l).
Hypothesis Pa_nil : Pa [].
Hypothesis Pa_Pb : forall l, Pa l -> Pb l.
Hypothesis Pt_Pa : forall slots l, Forall Ps slots -> Pt l -> Pa (fill slots l).
Hypothesis Ps_nil : Ps [].
Hypothesis H_m : forall g, Pa (g_attrs g) -> Pb (g_attrs (adjust_mathml g)).
Hypothesis H_s : forall g, Pa (g_attrs g) -> Pb (g_attrs (adjust_svg g)).
Hypothesis H_f : forall g, Pb (g_attrs g) ->
  Pd (map (fun a => Attr (ta_ns a) (ta_prefix a) (ta_name a) (ta_value a)) (filter (fun a => negb (ta_omitted a)) (g_attrs (adjust_foreign g)))) /\
  Forall Ps (map ta_prefix (g_attrs (adjust_foreign g))).
Notation Whole := (Whole Pa Pd Ps).
Definition token_ok (t : token) : Prop := match t with TStart g => Pt (g_attributes g) | _ => True end.
Lemma fill_ok : forall l slots, Forall Ps slots -> Pt l -> Pa (fill slots l).
Proof. intros l slots S L. now apply Pt_Pa. Qed.
Lemma tok_of_ok : forall slots t, Forall Ps slots -> token_ok t -> tok_ok Pa (tok_of slots t).
Proof.
  intros slots [d|g|g|x|c|] S T; cbn; try exact I. split; [cbn; now rewrite tstring_of|]. split; [|now apply fill_ok]. cbn. intro H. split; [reflexivity|].
  rewrite (no_atom _ H). now exists (g_name g).
Qed.
Lemma keep_process : forall listed f s k, Whole s -> tok_ok Pa k -> keeps Whole (process listed f s k).
Proof.
  intros listed f. induction f as [|f IH]; intros s k W T; cbn [process]; [exact I|]. now apply (keep_dispatch Pa Pd Pb Ps).
Qed.
Theorem keep_construct : forall listed f l s, Whole s -> Forall token_ok l -> keeps Whole (construct listed f s l).
Proof.
  intros listed f l. induction l as [|t l IH]; intros s W T; cbn [construct]; [exact W|]. inversion T; subst. apply (keeps_run Whole).
  - unfold feed. apply keep_process; [exact W|]. apply tok_of_ok; [apply W|assumption].
  - intros s1 W1. now apply IH.
Qed.
End Read.
