(** The tokens of texts and of the body; any token, and any list of tokens. *)
From Coq Require Import ZArith List Bool String Lia.
From Verif Require Import M_infra M_encoding M_labels M_html M_html_serialize M_dom_names M_dom M_dom2 L_html_serialize L_dom L_dom2
  L_dom10 L_dom11 L_dom12 L_dom13 L_dom14 L_dom15 L_dom16 L_dom17 L_dom18 L_dom19.
Import ListNotations.
Open Scope Z_scope.
Open Scope list_scope.

Section Tokens.
Variable listed : list Z -> bool.
Variable emit : st -> ktok -> outcome st.
Variable R : nat.
Hypothesis emit_ok : forall s k, Inv s -> Tame k -> Calm s k -> (rank (s_mode s) k < R)%nat -> okay (Post s k) (emit s k).

Lemma placed_inv : forall s m, World s -> s_mode s = m -> Placed m s (names s) -> Inv s.
Proof. intros s m W E P. split; [exact W|]. rewrite E. destruct m; try exact P; destruct P as [[] _]. Qed.
Lemma text_mode_ok : forall s k, Inv s -> s_mode s = M_text -> Tame k -> Calm s k -> (rank M_text k <= R)%nat ->
  okay (Post s k) (on_text emit s k).
Proof.
  intros s k V Em T C HR. pose proof (calm_head s k M_text C Em ltac:(cbn; intuition discriminate)) as Fo. pose proof (post_self s V) as Ig.
  assert (V' := V). destruct V' as (W & H). rewrite Em in H. destruct H as (t & v & N & D & L & (P1 & P2 & P3)).
  destruct (stand_root _ _ P1 D) as (u & Ev).
  assert (Rt : Rooted s) by (exists (t :: u); now rewrite N, Ev).
  assert (out : okay (fun s1 => Inv (set_mode (s_original s1) s1) /\ s_foster s1 = false /\ s_original s1 = s_original s) (pop s)).
  { pose proof (pop_near s t v W N) as O. unfold pop in *. destruct (s_stack s) as [|e r]; cbn [okay] in *; [contradiction|].
    destruct O as [N1 E1]. split; [|split; [exact Fo|reflexivity]]. change (s_original (set_stack r s)) with (s_original s).
    apply (placed_inv _ (s_original s)); [apply (alike_world (set_stack r s)); [constructor; reflexivity|apply N1]|reflexivity|].
    split; [|split].
    - change (names (set_mode (s_original s) (set_stack r s))) with (names (set_stack r s)). now rewrite E1.
    - exact P2.
    - exact P3. }
  destruct k as [d|g|x|d|c|]; cbn [on_text]; try exact Ig.
  - eapply okay_run; [exact out|]. intros s1 (V1 & F1 & _). cbn [okay Post]. split; [exact V1|]. cbn. congruence.
  - eapply stills; [exact V|]. now apply insert_char_ok.
  - eapply okay_run; [exact out|]. intros s1 (V1 & F1 & O1). apply (emit_head emit R emit_ok); auto. cbn [s_mode set_mode]. rewrite O1.
    assert (rank (s_original s) KEof < rank M_text KEof)%nat; [|lia]. destruct (s_original s); cbn in P1 |- *; try contradiction; lia.
Qed.
Lemma body_mode_ok : forall s k, Inv s -> s_mode s = M_in_body -> Tame k -> Calm s k -> (rank M_in_body k <= R)%nat ->
  okay (Post s k) (on_in_body emit s k).
Proof.
  intros s k V Em T C HR. destruct (ctx_inv M_in_body M_in_body s Em (main_self M_in_body ltac:(cbn; auto)) V) as (w & X).
  apply (in_body_ok emit R emit_ok M_in_body w); [exact X|exact T|]. pose proof (X_floor _ _ _ X) as F.
  destruct k as [d|g|t|d|c|]; cbn [Allowed]; auto.
  - rewrite Em. split; [|exact HR]. cbn. auto.
  - pose proof (calm_other s (KEnd t) C I) as Fo. rewrite Em. split; [|split; auto]. inversion F. cbn. congruence.
Qed.
Lemma in_mode_ok : forall s k, Inv s -> Tame k -> Calm s k -> (rank (s_mode s) k <= R)%nat -> okay (Post s k) (in_mode listed emit s k).
Proof.
  intros s k V T C HR. unfold in_mode. destruct (s_mode s) eqn:Em.
  - now apply (initial_ok listed emit R emit_ok).
  - now apply (before_html_ok emit R emit_ok).
  - now apply (before_head_ok emit R emit_ok).
  - now apply (in_head_ok emit R emit_ok).
  - now apply (in_head_noscript_ok emit R emit_ok).
  - now apply (after_head_ok emit R emit_ok).
  - now apply body_mode_ok.
  - now apply text_mode_ok.
  - destruct (ctx_inv M_in_table M_in_table s Em (main_self M_in_table ltac:(cbn; auto)) V) as (w & X).
    apply (in_table_ok emit R emit_ok M_in_table w); auto; [cbn; auto|]. intro Q. now elim Q.
  - now apply (in_table_text_ok emit R emit_ok).
  - now apply (in_caption_ok emit R emit_ok).
  - now apply (in_column_group_ok emit R emit_ok).
  - now apply (in_table_body_ok emit R emit_ok).
  - now apply (in_row_ok emit R emit_ok).
  - now apply (in_cell_ok emit R emit_ok).
  - apply (in_select_ok emit R emit_ok); auto. rewrite Em. now left.
  - now apply (in_select_in_table_ok emit R emit_ok).
  - exfalso. destruct V as (_ & V). rewrite Em in V. destruct V as [[] _].
  - now apply (in_after_body_ok emit R emit_ok).
  - exfalso. destruct V as (_ & V). rewrite Em in V. destruct V as [[] _].
  - exfalso. destruct V as (_ & V). rewrite Em in V. destruct V as [[] _].
  - now apply (in_after_after_body_ok emit R emit_ok).
  - exfalso. destruct V as (_ & V). rewrite Em in V. destruct V as [[] _].
Qed.
End Tokens.

Lemma alike_inv : forall s s', Alike s s' -> s_original s' = s_original s -> s_mode s' = s_mode s -> Inv s -> Inv s'.
Proof.
  intros s s' A O M (W & H). split; [now apply (alike_world s)|]. rewrite M.
  assert (P : forall m v, Placed m s v -> Placed m s' v).
  { intros m v (P1 & P2 & P3). split; [exact P1|]. split; [now rewrite (A_dom _ _ A)|]. unfold HeadOK in *. now rewrite (A_head _ _ A). }
  rewrite (alike_names _ _ A), O. destruct (s_mode s); auto.
  - destruct H as (t & v & N & D & L & H). exists t, v. auto.
  - destruct H as [H1 H2]. auto.
Qed.
Lemma dispatch_ok : forall listed emit R
  (emit_ok : forall s k, Inv s -> Tame k -> Calm s k -> (rank (s_mode s) k < R)%nat -> okay (Post s k) (emit s k)) s k,
  Inv s -> Tame k -> Calm s k -> (rank (s_mode s) k <= R)%nat -> okay (Post s k) (dispatch listed emit s k).
Proof.
  intros listed emit R emit_ok s k V T C HR.
  assert (V1 : Inv (set_omit_lf false s)).
  { apply (alike_inv s); try reflexivity; [|exact V]. constructor; reflexivity. }
  assert (go : okay (Post s k) (in_mode listed emit (set_omit_lf false s) k)).
  { exact (in_mode_ok listed emit R emit_ok (set_omit_lf false s) k V1 T C HR). }
  assert (W := proj1 V). pose proof (W_stack s W) as Ws. pose proof (W_fragment s W) as Wf.
  unfold dispatch. change (s_stack (set_omit_lf false s)) with (s_stack s).
  assert (all : forall b : entry -> bool, okay (Post s k) match s_stack s with
    | [] => in_mode listed emit (set_omit_lf false s) k
    | _ :: _ => run e <- adjusted (set_omit_lf false s); if (ns_of (s_dom (set_omit_lf false s)) (en_node e) =? ns_HTML) || b e
                then in_mode listed emit (set_omit_lf false s) k else on_foreign listed emit (set_omit_lf false s) k end).
  { intro b. destruct (s_stack s) as [|e r] eqn:Es; [exact go|]. unfold adjusted. change (s_stack (set_omit_lf false s)) with (s_stack s).
    rewrite Es. change (s_fragment (set_omit_lf false s)) with (s_fragment s). rewrite Wf. cbv beta iota. cbn [andb].
    inversion Ws as [|? ? H1 H2]; subst. change (s_dom (set_omit_lf false s)) with (s_dom s). rewrite H1. exact go. }
  assert (self : Post' s (set_omit_lf false s)) by (split; auto).
  destruct k as [d|g|t|d|c|].
  - exact (all (fun _ => false)).
  - exact (all (fun e => (mathml_text_point (s_dom s) (en_node e) && negb (among (g_id g) [T_mglyph; T_malignmark]))
                   || (teqb (name_of (s_dom s) (en_node e)) T_annotation_xml && teqb (g_id g) T_svg)
                   || html_point (s_dom s) e)).
  - exact (all (fun _ => false)).
  - exact (all (fun _ => false)).
  - destruct (s_omit_lf s && (c =? 10)); [exact self|].
    specialize (all (fun e => mathml_text_point (s_dom s) (en_node e) || html_point (s_dom s) e)). destruct (s_stack s) as [|e r]; [exact go|].
    destruct (adjusted (set_omit_lf false s)); cbv beta iota in *; try contradiction. now rewrite orb_assoc in all.
  - exact (all (fun _ => true)).
Qed.
Theorem process_ok : forall listed fuel s k, Inv s -> Tame k -> Calm s k -> (rank (s_mode s) k < fuel)%nat ->
  okay (Post s k) (process listed fuel s k).
Proof.
  induction fuel as [|f IH]; intros s k V T C H; [lia|]. cbn [process]. apply (dispatch_ok listed _ f); auto. lia.
Qed.
Lemma rank_bound : forall m k, (rank m k < 34)%nat.
Proof. intros m k. unfold rank. destruct m, k as [| []|[]| | |]; cbn; repeat match goal with |- context [match ?x with _ => _ end] => destruct x end; lia. Qed.
