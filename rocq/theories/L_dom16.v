(** The tokens in the rows and cells of tables, in select elements and after the body. *)
From Coq Require Import ZArith List Bool String Lia.
From Verif Require Import M_infra M_encoding M_labels M_html M_html_serialize M_dom_names M_dom M_dom2 L_html_serialize L_dom L_dom2
  L_dom10 L_dom11 L_dom12 L_dom13 L_dom14 L_dom15.
Import ListNotations.
Open Scope Z_scope.
Open Scope list_scope.

Ltac alike N := apply (near_trans _ _ _ N); apply near_alike; [apply N|constructor; reflexivity].

(** *** Contexts *)

(** what is above the lower part of the stack is taken off *)
Lemma to_context : forall m w t w1 l s, Floor m w -> Body w s -> w = t :: w1 -> among t l = true ->
  (forall x, among x l = true -> among x firm = true) ->
  okay (fun l' => Near s (set_stack l' s) /\ names (set_stack l' s) = w) (pop_to (is_html_in l (s_dom s)) (s_stack s)).
Proof.
  intros m w t w1 l s F (W & u & N & L) E Ht Hl.
  eapply okay_weak; [apply (pop_to_names _ (fun x => among x l) (s_dom s) (s_stack s) (is_named_in s l W))|].
  - change (map (nm (s_dom s)) (s_stack s)) with (names s). rewrite N, E. rewrite existsb_app. cbn [existsb]. rewrite Ht.
    cbn [orb]. apply orb_true_r.
  - intros l' [D1 D2]. split; [now apply near_cut|]. unfold names. cbn [s_dom s_stack set_stack]. rewrite D1.
    change (map (nm (s_dom s)) (s_stack s)) with (names s). rewrite N. rewrite upto_loose by assumption. rewrite E. cbn [upto]. now rewrite Ht.
Qed.
Lemma pop_near : forall s t w1, World s -> names s = t :: w1 ->
  okay (fun s1 => Near s s1 /\ names s1 = w1) (pop s).
Proof.
  intros s t w1 W N. unfold pop. unfold names in N. destruct (s_stack s) as [|e r] eqn:Es; [discriminate|]. cbn [okay]. split.
  - apply near_cut; [exact W|]. rewrite Es. now apply incl_tl, incl_refl.
  - unfold names. cbn [s_dom s_stack set_stack]. now injection N.
Qed.
Lemma cur_named : forall s t u w1, World s -> names s = t :: w1 -> cur_is u s = Val (teqb t u).
Proof.
  intros s t u w1 W N. unfold cur_is, cur. unfold names in N. destruct (s_stack s) as [|e r] eqn:Es; [discriminate|]. cbv beta iota.
  rewrite is_html_eq; [injection N as N _; unfold nm in N; now rewrite N|]. pose proof (W_stack s W) as A. rewrite Es in A. now inversion A.
Qed.

Lemma body_context : forall w s, Ctx M_in_table_body w s ->
  okay (fun s1 => Near s s1 /\ names s1 = w) (to_body_context s).
Proof.
  intros w s X. pose proof (X_floor _ _ _ X) as F.
  assert (E : exists t w1, w = t :: w1 /\ In t sections) by (inversion F; eauto). destruct E as (t & w1 & E & I). unfold to_body_context.
  eapply okay_run; [apply (to_context M_in_table_body w t w1); [exact F|apply X|exact E| |]|].
  - destruct I as [<-|[<-|[<-|[]]]]; reflexivity.
  - intros x Hx. apply among_In in Hx. cbn in Hx. repeat match type of Hx with _ \/ _ => destruct Hx as [<-|Hx] end; try reflexivity; destruct Hx.
  - intros l' H. exact H.
Qed.
Lemma row_context : forall w s, Ctx M_in_row w s -> okay (fun s1 => Near s s1 /\ names s1 = w) (to_row_context s).
Proof.
  intros w s X. pose proof (X_floor _ _ _ X) as F.
  assert (E : exists w1, w = T_tr :: w1) by (inversion F; eauto). destruct E as (w1 & E). unfold to_row_context.
  eapply okay_run; [apply (to_context M_in_row w T_tr w1); [exact F|apply X|exact E| |]|].
  - reflexivity.
  - intros x Hx. apply among_In in Hx. cbn in Hx. repeat match type of Hx with _ \/ _ => destruct Hx as [<-|Hx] end; try reflexivity; destruct Hx.
  - intros l' H. exact H.
Qed.
Lemma ctx_exact : forall m w s s1, Near s s1 -> names s1 = w -> Floor m w -> Counted M_in_body (s_dom s) ->
  In m [M_in_body; M_in_table; M_in_caption; M_in_table_body; M_in_row; M_in_cell] -> Near s (set_mode m s1) /\ Ctx m w (set_mode m s1).
Proof.
  intros m w s s1 N E F C I. assert (N1 : Near s (set_mode m s1)) by (alike N). split; [exact N1|].
  apply (ctx_near _ _ s); [exact N1|exact C|now apply main_self|exact F|]. exists []. split; [exact E|constructor].
Qed.

Section Tokens.
Variable listed : list Z -> bool.
Variable emit : st -> ktok -> outcome st.
Variable R : nat.
Hypothesis emit_ok : forall s k, Inv s -> Tame k -> Calm s k -> (rank (s_mode s) k < R)%nat -> okay (Post s k) (emit s k).

(** *** Sections *)

Lemma in_table_body_ok : forall s k, Inv s -> s_mode s = M_in_table_body -> Tame k -> Calm s k -> (rank M_in_table_body k <= R)%nat ->
  okay (Post s k) (on_in_table_body emit s k).
Proof.
  intros s k V Em T C HR. destruct (ctx_inv M_in_table_body M_in_table_body s Em) as (w & X); [apply main_self; cbn; auto 9|exact V|].
  pose proof (X_floor _ _ _ X) as F. pose proof (X_body _ _ _ X) as B. pose proof (body_root _ w s F B) as Rt.
  assert (E : exists t w1, w = t :: w1 /\ In t sections /\ Floor M_in_table w1) by (inversion F; eauto). destruct E as (t0 & w1 & Ew & It & F1).
  pose proof (post_self s V) as Ig.
  assert (out : okay (fun s2 => Near s (set_mode M_in_table s2) /\ Ctx M_in_table w1 (set_mode M_in_table s2)) (run s1 <- to_body_context s; pop s1)).
  { eapply okay_run; [now apply (body_context w)|]. intros s1 [N1 E1].
    eapply okay_weak; [apply (pop_near s1 t0 w1); [apply N1|now rewrite E1, Ew]|]. intros s2 [N2 E2].
    apply ctx_exact; [now apply (near_trans _ _ _ N1)|exact E2|exact F1|apply X|cbn; auto 9]. }
  assert (tb : Kept M_in_table_body k -> okay (Post s k) (on_in_table emit s k)).
  { intro Ke. apply (in_table_ok emit R emit_ok M_in_table_body w s k X Em); auto. cbn; auto 9. }
  assert (leave : k <> KEof -> s_foster s = false -> (rank M_in_table k < rank M_in_table_body k)%nat -> okay (Post s k)
    (run b <- in_scope_any table_scope [T_tbody; T_thead; T_tfoot] s;
     if b : bool then run s1 <- to_body_context s; run s2 <- pop s1; emit (set_mode M_in_table s2) k else Val s)).
  { intros NE Fo R2. eapply okay_run; [apply table_any_total; [apply B|exact Rt]|]. intros [] _; [|destruct k; try exact Ig; now elim NE].
    destruct (to_body_context s) as [s1| |]; cbv beta iota in *; try contradiction. eapply okay_run; [exact out|].
    intros s2 [N2 X2]. apply (emit_near emit R emit_ok _ _ _ _ _ N2 X2 T Fo). cbn [s_mode set_mode]. lia. }
  assert (ns : forall g, good_tag g -> g_id g = T_tr -> s_foster s = false ->
    okay (fun s2 => Near s (set_mode M_in_row s2) /\ Ctx M_in_row (T_tr :: w) (set_mode M_in_row s2)) (run s1 <- to_body_context s; insert_el' g s1)).
  { intros g G Eg Fo. eapply okay_run; [now apply (body_context w)|]. intros s1 [N1 E1].
    eapply okay_weak; [apply (grow_at g s1 t0 w1 sections)|].
    - apply N1.
    - unfold Rooted. rewrite E1. now apply (floor_root M_in_table_body).
    - now rewrite (N_foster _ _ N1).
    - exact G.
    - now rewrite E1.
    - now rewrite Eg.
    - destruct It as [<-|[<-|[<-|[]]]]; reflexivity.
    - now rewrite Eg.
    - intros s2 [Q1 Q2]. apply ctx_exact; [now apply (near_trans _ _ _ N1)| |now constructor|apply X|cbn; auto 9].
      rewrite (grown_names _ _ _ Q1), E1, Eg. reflexivity. }
  destruct k as [d|g|t|d|c|]; cbn [on_in_table_body]; try (apply tb; intros _; exact I).
  - assert (G := proj1 T).
    assert (again : s_foster s = false -> (rank M_in_row (KStart g) < rank M_in_table_body (KStart g))%nat -> okay (Post s (KStart g))
      (run s1 <- to_body_context s; run s2 <- insert_el' (made_tag T_tr) s1; emit (set_mode M_in_row s2) (KStart g))).
    { intros Fo R2. specialize (ns (made_tag T_tr) (conj (or_introl eq_refl) eq_refl) eq_refl Fo).
      destruct (to_body_context s) as [s1| |]; cbv beta iota in *; try contradiction. eapply okay_run; [exact ns|].
      intros s2 [N2 X2]. apply (emit_near emit R emit_ok _ _ _ _ _ N2 X2 T Fo). cbn [s_mode set_mode]. lia. }
    assert (nt : among (g_id g) [T_img; T_br] = false -> s_foster s = false) by (apply (calm_start s g C)).
    destruct (g_id g) eqn:Eg; try (apply tb; intros _; rewrite Eg; reflexivity);
      try (apply leave; [discriminate|apply nt; reflexivity|cbn; rewrite Eg; lia]);
      try (apply again; [apply nt; reflexivity|cbn; rewrite Eg; lia]).
    specialize (ns g G Eg (nt eq_refl)). destruct (to_body_context s) as [s1| |]; cbv beta iota in *; try contradiction.
    eapply okay_run; [exact ns|]. intros s2 [N2 X2]. exact (post_ctx _ _ _ _ N2 X2).
  - pose proof (calm_other s _ C I) as Fo.
    assert (cl : okay (Post s (KEnd t)) (run b <- in_scope table_scope t s;
      if b : bool then run s1 <- to_body_context s; run s2 <- pop s1; Val (set_mode M_in_table s2) else Val s)).
    { eapply okay_run; [apply table_total; [apply B|exact Rt]|]. intros [] _; [|exact Ig].
      destruct (to_body_context s) as [s1| |]; cbv beta iota in *; try contradiction. eapply okay_run; [exact out|].
      intros s2 [N2 X2]. exact (post_ctx _ _ _ _ N2 X2). }
    destruct t; try exact Ig; try exact cl; try (apply tb; intros _; discriminate).
    apply leave; [discriminate|exact Fo|cbn; lia].
Qed.
(** *** Rows *)

Lemma in_row_ok : forall s k, Inv s -> s_mode s = M_in_row -> Tame k -> Calm s k -> (rank M_in_row k <= R)%nat ->
  okay (Post s k) (on_in_row emit s k).
Proof.
  intros s k V Em T C HR. destruct (ctx_inv M_in_row M_in_row s Em) as (w & X); [apply main_self; cbn; auto 9|exact V|].
  pose proof (X_floor _ _ _ X) as F. pose proof (X_body _ _ _ X) as B. pose proof (body_root _ w s F B) as Rt.
  assert (E : exists w1, w = T_tr :: w1 /\ Floor M_in_table_body w1) by (inversion F; eauto). destruct E as (w1 & Ew & F1).
  pose proof (post_self s V) as Ig.
  assert (out : okay (fun s2 => Near s s2 /\ Ctx M_in_table_body w1 s2 /\ s_mode s2 = M_in_table_body)
    (run s1 <- to_row_context s; run b <- cur_is T_tr s1; if b : bool then run s2 <- pop s1; Val (set_mode M_in_table_body s2) else Bad)).
  { eapply okay_run; [now apply (row_context w)|]. intros s1 [N1 E1].
    rewrite (cur_named s1 T_tr T_tr w1) by (try (apply N1); now rewrite E1, Ew). cbv beta iota.
    change (teqb T_tr T_tr) with true. cbv beta iota.
    eapply okay_run; [apply (pop_near s1 T_tr w1); [apply N1|now rewrite E1, Ew]|]. intros s2 [N2 E2]. cbn [okay].
    destruct (ctx_exact M_in_table_body w1 s s2) as [N3 X3]; [now apply (near_trans _ _ _ N1)|exact E2|exact F1|apply X|cbn; auto 9|]. auto. }
  assert (tb : Kept M_in_row k -> okay (Post s k) (on_in_table emit s k)).
  { intro Ke. apply (in_table_ok emit R emit_ok M_in_row w s k X Em); auto. cbn; auto 9. }
  destruct k as [d|g|t|d|c|]; cbn [on_in_row]; try (apply tb; intros _; exact I).
  - assert (G := proj1 T). assert (nt : among (g_id g) [T_img; T_br] = false -> s_foster s = false) by (apply (calm_start s g C)).
    assert (leave : s_foster s = false -> (rank M_in_table_body (KStart g) < rank M_in_row (KStart g))%nat -> okay (Post s (KStart g))
      (run b <- in_scope table_scope T_tr s;
       if b : bool then run s1 <- (run s1 <- to_row_context s; run b <- cur_is T_tr s1; if b : bool then run s2 <- pop s1; Val (set_mode M_in_table_body s2) else Bad);
       emit s1 (KStart g) else Val s)).
    { intros Fo R2. eapply okay_run; [apply table_total; [apply B|exact Rt]|]. intros [] _; [|exact Ig].
      eapply okay_run; [exact out|]. intros s2 (N2 & X2 & M2). apply (emit_near emit R emit_ok _ _ _ _ _ N2 X2 T Fo). rewrite M2. lia. }
    assert (cell : In (g_id g) [T_td; T_th] -> s_foster s = false -> okay (Post s (KStart g))
      (run s1 <- to_row_context s; run s2 <- insert_el' g s1; Val (push_marker (set_mode M_in_cell s2)))).
    { intros Ig' Fo. eapply okay_run; [now apply (row_context w)|]. intros s1 [N1 E1].
      eapply okay_run; [apply (grow_at g s1 T_tr w1 [T_tr])|].
      - apply N1.
      - unfold Rooted. rewrite E1. now apply (floor_root M_in_row).
      - now rewrite (N_foster _ _ N1).
      - exact G.
      - now rewrite E1.
      - destruct Ig' as [<-|[<-|[]]]; reflexivity.
      - reflexivity.
      - destruct Ig' as [<-|[<-|[]]]; reflexivity.
      - intros s2 [Q1 Q2]. cbn [okay Post]. assert (N2 : Near s s2) by (now apply (near_trans _ _ _ N1)).
        assert (N3 : Near s (set_mode M_in_cell s2)) by (alike N2).
        assert (N4 : Near s (push_marker (set_mode M_in_cell s2))).
        { apply (near_trans _ _ _ N3). apply near_active; [apply N3|]. constructor; [exact I|apply N3]. }
        apply (post_ctx M_in_cell (g_id g :: w)); [exact N4|]. apply (ctx_near _ _ s); [exact N4|apply X|apply main_self; cbn; tauto| |].
        + constructor; [exact Ig'|exact F].
        + exists []. split; [|constructor]. change (names (push_marker (set_mode M_in_cell s2))) with (names s2).
          rewrite (grown_names _ _ _ Q1), E1. reflexivity. }
    destruct (g_id g) eqn:Eg; try (apply tb; intros _; rewrite Eg; reflexivity);
      try (apply leave; [apply nt; reflexivity|cbn; rewrite Eg; lia]);
      try (apply cell; [cbn; auto 9|apply nt; reflexivity]).
  - pose proof (calm_other s _ C I) as Fo.
    destruct t; try exact Ig; try (apply tb; intros _; discriminate);
      (eapply okay_run; [apply table_total; [apply B|exact Rt]|]; intros [] _; [|exact Ig]);
      try (eapply okay_run; [apply table_total; [apply B|exact Rt]|]; intros _ _);
      try (eapply okay_run; [exact out|]; intros s2 (N2 & X2 & M2); apply (emit_near emit R emit_ok _ _ _ _ _ N2 X2 T Fo); rewrite M2; cbn in *; lia).
    eapply okay_weak; [exact out|]. intros s2 (N2 & X2 & M2). exact (post_ctx _ _ _ _ N2 X2).
Qed.
End Tokens.
