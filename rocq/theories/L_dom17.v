(** The tokens in cells, in select elements and after the body. *)
From Coq Require Import ZArith List Bool String Lia.
From Verif Require Import M_infra M_encoding M_labels M_html M_html_serialize M_dom_names M_dom M_dom2 L_html_serialize L_dom L_dom2
  L_dom10 L_dom11 L_dom12 L_dom13 L_dom14 L_dom15 L_dom16.
Import ListNotations.
Open Scope Z_scope.
Open Scope list_scope.

Section Tokens.
Variable listed : list Z -> bool.
Variable emit : st -> ktok -> outcome st.
Variable R : nat.
Hypothesis emit_ok : forall s k, Inv s -> Tame k -> Calm s k -> (rank (s_mode s) k < R)%nat -> okay (Post s k) (emit s k).

(** *** Cells *)

Lemma cell_left : forall w w1 t0 (P : nat -> bool) q s, Ctx M_in_cell w s -> w = t0 :: w1 -> Floor M_in_row w1 ->
  (forall i, ns_of (s_dom s) i = ns_HTML -> P i = q (name_of (s_dom s) i)) -> q t0 = true -> (forall x, q x = true -> among x firm = true) ->
  let s2 := set_mode M_in_row (clear_formatting (set_stack (drop_to P (s_stack (implied_end_tags s))) (implied_end_tags s))) in
  Near s s2 /\ Ctx M_in_row w1 s2.
Proof.
  intros w w1 t0 P q s X Ew F1 HP H1 H2. cbv zeta. pose proof (X_floor _ _ _ X) as F.
  destruct (close_firm M_in_cell w t0 w1 P q s F (X_body _ _ _ X) Ew HP H1 H2) as [N1 E1]. cbv zeta in *.
  set (s1 := set_stack _ _) in *. clearbody s1.
  assert (N2 : Near s (clear_formatting s1)).
  { apply (near_trans _ _ _ N1). apply near_active; [apply N1|]. apply good_marker. apply N1. }
  apply ctx_exact; [exact N2|exact E1|exact F1|apply X|cbn; auto 9].
Qed.
Lemma in_cell_ok : forall s k, Inv s -> s_mode s = M_in_cell -> Tame k -> Calm s k -> (rank M_in_cell k <= R)%nat ->
  okay (Post s k) (on_in_cell emit s k).
Proof.
  intros s k V Em T C HR. destruct (ctx_inv M_in_cell M_in_cell s Em) as (w & X); [apply main_self; cbn; auto 9|exact V|].
  pose proof (X_floor _ _ _ X) as F. pose proof (X_body _ _ _ X) as B. pose proof (body_root _ w s F B) as Rt.
  assert (E : exists t w1, w = t :: w1 /\ In t [T_td; T_th] /\ Floor M_in_row w1) by (inversion F; eauto). destruct E as (t0 & w1 & Ew & It & F1).
  pose proof (post_self s V) as Ig.
  assert (Hh : hd T_a w = t0) by now rewrite Ew.
  assert (cc : Near s (close_cell s) /\ Ctx M_in_row w1 (close_cell s)).
  { apply (cell_left w w1 t0 (is_html_in [T_td; T_th] (s_dom s)) (fun x => among x [T_td; T_th]) s X Ew F1).
    - intros i Hi. now apply is_html_in_eq.
    - now apply among_In.
    - intros x Hx. apply among_In in Hx. destruct Hx as [<-|[<-|[]]]; reflexivity. }
  destruct cc as [N1 X1].
  destruct k as [d|g|t|d|c|]; cbn [on_in_cell]; try (now apply (in_body_ok emit R emit_ok M_in_cell w)).
  - assert (bd : okay (Post s (KStart g)) (on_in_body emit s (KStart g))).
    { apply (in_body_ok emit R emit_ok M_in_cell w); auto. split; [cbn; auto|now rewrite Em]. }
    assert (again : s_foster s = false -> (rank M_in_row (KStart g) < rank M_in_cell (KStart g))%nat -> okay (Post s (KStart g))
      (run b <- in_scope_any table_scope [T_td; T_th] s; if b : bool then emit (close_cell s) (KStart g) else Val s)).
    { intros Fo R2. eapply okay_run; [apply table_any_total; [apply B|exact Rt]|]. intros [] _; [|exact Ig].
      apply (emit_near emit R emit_ok _ _ _ _ _ N1 X1 T Fo). change (s_mode (close_cell s)) with M_in_row. lia. }
    destruct (g_id g) eqn:Eg; try exact bd; (apply again; [apply (calm_start s g C); rewrite Eg; reflexivity|cbn; rewrite Eg; lia]).
  - pose proof (calm_other s _ C I) as Fo.
    assert (bd : among t [T_td; T_th; T_body; T_html] = false -> okay (Post s (KEnd t)) (on_in_body emit s (KEnd t))).
    { intros D. apply (in_body_ok emit R emit_ok M_in_cell w); auto. split; [|split].
      - rewrite Hh. intros _ ->. destruct It as [<-|[<-|[]]]; discriminate.
      - intro Q. destruct Q as [<-|[<-|[]]]; discriminate.
      - intros _. now rewrite Em. }
    assert (cl : In t [T_td; T_th] -> okay (Post s (KEnd t)) (run b <- in_scope table_scope t s;
      Val (if b then set_mode M_in_row (clear_formatting (pop_until t (implied_end_tags s))) else s))).
    { intro I2. destruct (teqb t t0) eqn:Q.
      - apply teqb_eq in Q. assert (Ew' : w = t :: w1) by congruence.
        assert (cc : Near s (set_mode M_in_row (clear_formatting (pop_until t (implied_end_tags s)))) /\
          Ctx M_in_row w1 (set_mode M_in_row (clear_formatting (pop_until t (implied_end_tags s))))).
        { apply (cell_left w w1 t (is_html t (s_dom s)) (fun x => teqb x t) s X Ew' F1).
          - intros i Hi. now apply is_html_eq.
          - apply teqb_refl.
          - intros x Hx. apply teqb_eq in Hx. subst x. destruct I2 as [<-|[<-|[]]]; reflexivity. }
        destruct cc as [N2 X2]. eapply okay_run; [apply table_total; [apply B|exact Rt]|]. intros [] _; [|exact Ig].
        exact (post_ctx _ _ _ _ N2 X2).
      - destruct B as (W & u & N & L). destruct (floor_tabled M_in_row w1 F1) as (v & u0 & w0 & m0 & Ew1 & _ & _ & _ & Lv); [cbn; auto|].
        rewrite (scope_not s (u ++ t0 :: v) (u0 ++ w0) t W).
        + exact Ig.
        + rewrite N, Ew, Ew1. now rewrite <- app_assoc.
        + intro J. apply in_app_or in J. destruct J as [J|[J|J]].
          * rewrite Forall_forall in L. apply L in J. destruct I2 as [<-|[<-|[]]]; discriminate J.
          * rewrite J, teqb_refl in Q. discriminate Q.
          * rewrite Forall_forall in Lv. apply Lv in J. cbn in J. destruct I2 as [<-|[<-|[]]]; intuition discriminate.
        + intros ->. cbn in I2. intuition discriminate. }
    assert (again : (rank M_in_row (KEnd t) < rank M_in_cell (KEnd t))%nat -> okay (Post s (KEnd t))
      (run b <- in_scope table_scope t s; if b : bool then emit (close_cell s) (KEnd t) else Val s)).
    { intros R2. eapply okay_run; [apply table_total; [apply B|exact Rt]|]. intros [] _; [|exact Ig].
      apply (emit_near emit R emit_ok _ _ _ _ _ N1 X1 T Fo). change (s_mode (close_cell s)) with M_in_row. lia. }
    destruct t; try exact Ig; try (apply bd; reflexivity); try (apply cl; cbn; auto; fail); (apply again; cbn; lia).
Qed.

(** *** Select elements *)

Definition Sel (s : st) : Prop := exists o r m w, names s = o ++ T_select :: r /\ Forall (fun t => In t [T_option; T_optgroup]) o /\ Floor m w /\ Above w r.
Lemma sel_root : forall s, Sel s -> Rooted s.
Proof.
  intros s (o & r & m & w & N & _ & F & u & -> & _). destruct (floor_root _ _ F) as (v & ->). exists (o ++ T_select :: u ++ v).
  rewrite N. rewrite <- app_assoc. cbn. now rewrite <- app_assoc.
Qed.
Definition select_mode (m : mode) : Prop := In m [M_in_select; M_in_select_in_table].
Lemma sel_inv : forall s, World s -> select_mode (s_mode s) -> Sel s -> Counted M_in_body (s_dom s) -> Inv s.
Proof. intros s W M H C. split; [exact W|]. destruct M as [<-|[<-|[]]]; (split; [exact H|split; [exact C|exact I]]). Qed.
Lemma inv_sel : forall s, Inv s -> select_mode (s_mode s) -> Sel s /\ Counted M_in_body (s_dom s).
Proof. intros s (_ & H) M. destruct M as [E|[E|[]]]; rewrite <- E in H; destruct H as (H1 & H2 & _); auto. Qed.
Lemma pop_if_sel : forall t s, In t [T_option; T_optgroup] -> World s -> Sel s ->
  okay (fun s1 => Near s s1 /\ Sel s1 /\ s_mode s1 = s_mode s) (run b <- cur_is t s; if b : bool then pop s else Val s).
Proof.
  intros t s I W H. assert (H' := H). destruct H' as (o & r & m & w & N & Fo & F & A). destruct o as [|a o].
  - cbn in N. rewrite (cur_named s T_select t r W N). cbv beta iota. replace (teqb T_select t) with false by (destruct I as [<-|[<-|[]]]; reflexivity).
    cbn. auto using near_refl.
  - cbn in N. rewrite (cur_named s a t _ W N). cbv beta iota. destruct (teqb a t); [|cbn; auto using near_refl].
    unfold pop. destruct (s_stack s) as [|e rr] eqn:Es; [unfold names in N; rewrite Es in N; discriminate|]. cbn [okay]. split; [|split; [|reflexivity]].
    + apply near_cut; [exact W|]. rewrite Es. now apply incl_tl, incl_refl.
    + exists o, r, m, w. inversion Fo; subst. split; [|auto]. unfold names in *. cbn [s_stack s_dom set_stack]. rewrite Es in N. now injection N.
Qed.
Lemma optgroup_first : forall s, World s -> Sel s ->
  okay (fun b : bool => okay (fun s1 => Near s s1 /\ Sel s1 /\ s_mode s1 = s_mode s) (if b then
     match s_stack s with _ :: e :: _ => if is_html T_optgroup (s_dom s) (en_node e) then pop s else Val s | _ => Bad end else Val s))
    (cur_is T_option s).
Proof.
  intros s W H. assert (H' := H). destruct H' as (o & r & m & w & N & Fo & F & A). destruct o as [|a o].
  - cbn in N. rewrite (cur_named s T_select _ r W N). cbn. auto using near_refl.
  - cbn in N. rewrite (cur_named s a _ _ W N). cbn [okay]. destruct (teqb a T_option); [|cbn; auto using near_refl].
    destruct (s_stack s) as [|e1 [|e2 rr]] eqn:Es; unfold names in N; rewrite Es in N; [discriminate|destruct o; discriminate|].
    destruct (is_html _ _ _); [|cbn; auto using near_refl]. unfold pop. rewrite Es. cbn [okay]. split; [|split; [|reflexivity]].
    + apply near_cut; [exact W|]. rewrite Es. now apply incl_tl, incl_refl.
    + exists o, r, m, w. inversion Fo; subst. split; [|auto]. unfold names. cbn [s_stack s_dom set_stack]. now injection N.
Qed.
Lemma sel_template : forall s, Sel s -> contains T_template s = false.
Proof.
  intros s (o & r & m & w & N & Fo & F & u & Er & L). apply names_contains. rewrite N, Er. intro J. apply in_app_or in J. destruct J as [J|[J|J]].
  - rewrite Forall_forall in Fo. apply Fo in J. cbn in J. intuition discriminate.
  - discriminate.
  - apply in_app_or in J. destruct J as [J|J]; [rewrite Forall_forall in L; apply L in J; discriminate J|now apply (floor_names _ _ _ F J)].
Qed.
(** the select element is closed *)
Lemma leave_select : forall s, World s -> Sel s -> Counted M_in_body (s_dom s) ->
  exists m w, reset_mode (pop_until T_select s) = Val (set_mode m (pop_until T_select s)) /\
    In m [M_in_body; M_in_table; M_in_caption; M_in_table_body; M_in_row; M_in_cell] /\
    Near s (set_mode m (pop_until T_select s)) /\ Ctx m w (set_mode m (pop_until T_select s)).
Proof.
  intros s W (o & r & m & w & N & Fo & F & u & Er & L) C. exists m, w.
  destruct (drop_names _ (fun t => teqb t T_select) (s_dom s) (s_stack s) (is_named s T_select W)) as [D1 D2].
  assert (Q : names (pop_until T_select s) = r).
  { unfold pop_until, names. cbn [s_dom s_stack set_stack]. rewrite D1. change (map (nm (s_dom s)) (s_stack s)) with (names s). rewrite N.
    clear - Fo. induction Fo as [|t o H K IH]; [reflexivity|]. cbn [app after].
    destruct H as [<-|[<-|[]]]; exact IH. }
  assert (N1 : Near s (pop_until T_select s)) by (now apply near_cut).
  assert (B1 : Body w (pop_until T_select s)) by (split; [apply N1|]; exists u; rewrite Q; auto).
  assert (Im : In m [M_in_body; M_in_table; M_in_caption; M_in_table_body; M_in_row; M_in_cell]) by (destruct F; cbn; auto 9).
  split; [now apply (reset_ok m w)|]. split; [exact Im|].
  assert (N2 : Near s (set_mode m (pop_until T_select s))) by (alike N1). split; [exact N2|].
  apply (ctx_near _ _ s); [exact N2|exact C|now apply main_self|exact F|]. exists u. split; [|exact L].
  change (names (set_mode m (pop_until T_select s))) with (names (pop_until T_select s)). now rewrite Q.
Qed.
Lemma rank_select : forall m k, In m [M_in_body; M_in_table; M_in_caption; M_in_table_body; M_in_row; M_in_cell] ->
  (rank m k < rank M_in_select k)%nat.
Proof.
  intros m k I. unfold rank. apply Nat.add_lt_mono_l. cbn in I.
  repeat match type of I with _ \/ _ => destruct I as [<-|I] end; [..|destruct I];
    destruct k as [d|g|t|d|c|]; try (repeat constructor; fail); try (destruct (g_id g); repeat constructor).
Qed.
Lemma in_select_ok : forall s k, Inv s -> select_mode (s_mode s) -> Tame k -> Calm s k -> (rank M_in_select k <= R)%nat ->
  okay (Post s k) (on_in_select emit s k).
Proof.
  intros s k V Em T C HR. destruct (inv_sel s V Em) as [Se Co]. pose proof (proj1 V) as W. pose proof (sel_root s Se) as Rt.
  pose proof (post_self s V) as Ig.
  assert (Fo : s_foster s = false).
  { destruct (s_foster s) eqn:E; [|reflexivity]. destruct (C E) as [_ Q]. destruct Em as [E1|[E1|[]]]; rewrite <- E1 in Q; cbn in Q; intuition discriminate. }
  assert (Pl : plain (s_mode s)) by (destruct Em as [<-|[<-|[]]]; split; discriminate).
  destruct (leave_select s W Se Co) as (m & w & Er & Im & N1 & X1).
  assert (ins : forall g s1, good_tag g -> In (g_id g) [T_option; T_optgroup] -> Near s s1 -> Sel s1 -> s_mode s1 = s_mode s -> okay (Post' s) (insert_el' g s1)).
  { intros g s1 G I1 N2 S1 M1. assert (L : loose (g_id g)) by (destruct I1 as [<-|[<-|[]]]; reflexivity).
    eapply okay_weak; [apply (insert_el'_ok g s1); [apply N2|now apply sel_root|exact G|now apply loose_fits]|]. intros s2 Q.
    pose proof (grown_same _ _ _ Q (proj2 (proj2 (loose_free _ L)))) as Sm.
    assert (N3 : Near s s2) by (apply (near_trans _ _ _ N2); apply (near_grown (g_id g)); [exact Q|now apply loose_free]).
    split; [|rewrite (N_foster _ _ N3); auto]. apply sel_inv.
    - apply N3.
    - rewrite (Same_mode _ _ Sm), M1. exact Em.
    - destruct S1 as (o & r & m1 & w1 & E1 & O1 & F1 & A1). exists (g_id g :: o), r, m1, w1. split; [|auto].
      rewrite (grown_names _ _ _ Q), E1. reflexivity.
    - now apply N3. }
  assert (closed : forall go, (forall x, Near s x -> Ctx m w x -> s_mode x = m -> okay (Post' s) (go x)) ->
    okay (Post' s) (run b <- in_scope select_scope T_select s;
      if b : bool then run s1 <- reset_mode (pop_until T_select s); go s1 else Val s)).
  { intros go Hg. eapply okay_run; [now apply select_total|]. intros [] _; [|exact Ig]. rewrite Er. cbv beta iota. now apply Hg. }
  assert (sel_post : forall s1, Near s s1 -> Sel s1 -> s_mode s1 = s_mode s -> Post' s s1).
  { intros s1 N2 S1 M1. split; [|rewrite (N_foster _ _ N2); auto]. apply sel_inv; [apply N2|now rewrite M1|exact S1|now apply N2]. }
  destruct k as [d|g|t|d|c|]; cbn [on_in_select].
  - exact Ig.
  - destruct T as (G & Wd & Imag).
    assert (again : okay (Post' s) (run b <- in_scope select_scope T_select s;
      if b : bool then run s1 <- reset_mode (pop_until T_select s); emit s1 (KStart g) else Val s)).
    { apply (closed (fun s1 => emit s1 (KStart g))). intros x Nx Xx Mx.
      apply (emit_near emit R emit_ok _ _ _ _ (KStart g) Nx Xx); [split; auto|exact Fo|]. rewrite Mx. pose proof (rank_select m (KStart g) Im). lia. }
    assert (cl : okay (Post' s) (run b <- in_scope select_scope T_select s;
      if b : bool then run s1 <- reset_mode (pop_until T_select s); Val s1 else Val s)).
    { apply (closed (fun s1 => Val s1)). intros x Nx Xx _. exact (post_ctx _ _ _ _ Nx Xx). }
    destruct (g_id g) eqn:Eg; try discriminate Wd; try exact Ig; try exact again; try exact cl.
    + eapply stills; [exact V|]. now apply body_html_ok.
    + pose proof (pop_if_sel T_option s (or_introl eq_refl) W Se) as O1. 
      eapply okay_run; [exact O1|]. intros s1 (N2 & S2 & M2).
      eapply okay_run; [apply (pop_if_sel T_optgroup s1); [cbn; auto|apply N2|exact S2]|]. intros s2 (N3 & S3 & M3).
      apply ins; [exact G|rewrite Eg; cbn; auto|now apply (near_trans _ _ _ N2)|exact S3|congruence].
    + eapply okay_run; [apply (pop_if_sel T_option s); [cbn; auto|exact W|exact Se]|]. intros s1 (N2 & S2 & M2).
      apply ins; [exact G|rewrite Eg; cbn; auto|exact N2|exact S2|exact M2].
    + cbn [on_in_head]. rewrite Eg. apply raw_any; auto. now rewrite Eg.
  - assert (cl : okay (Post' s) (run b <- in_scope select_scope T_select s;
      if b : bool then run s1 <- reset_mode (pop_until T_select s); Val s1 else Val s)).
    { apply (closed (fun s1 => Val s1)). intros x Nx Xx _. exact (post_ctx _ _ _ _ Nx Xx). }
    destruct t; try exact Ig; try exact cl.
    + eapply okay_run; [now apply optgroup_first|]. intros b Hb. cbv beta.
      assert (O1 : okay (fun s1 => Near s s1 /\ Sel s1 /\ s_mode s1 = s_mode s) (if b then
         match s_stack s with _ :: e :: _ => if is_html T_optgroup (s_dom s) (en_node e) then pop s else Val s | _ => Bad end else Val s)).
      { exact Hb. }
      eapply okay_run; [exact O1|]. intros s1 (N2 & S2 & M2).
      eapply okay_weak; [apply (pop_if_sel T_optgroup s1); [cbn; auto|apply N2|exact S2]|]. intros s2 (N3 & S3 & M3).
      apply sel_post; [now apply (near_trans _ _ _ N2)|exact S3|congruence].
    + eapply okay_weak; [apply (pop_if_sel T_option s); [cbn; auto|exact W|exact Se]|]. intros s1 (N2 & S2 & M2). now apply sel_post.
    + cbn [on_in_head]. rewrite (sel_template s Se). exact Ig.
  - eapply stills; [exact V|]. now apply insert_comment_ok.
  - destruct (c =? 0); [exact Ig|]. eapply stills; [exact V|]. now apply insert_char_ok.
  - now apply body_eof.
Qed.
Lemma in_select_in_table_ok : forall s k, Inv s -> s_mode s = M_in_select_in_table -> Tame k -> Calm s k -> (rank M_in_select_in_table k <= R)%nat ->
  okay (Post s k) (on_in_select_in_table emit s k).
Proof.
  intros s k V Em T C HR. assert (Sm : select_mode (s_mode s)) by (rewrite Em; cbn; auto).
  destruct (inv_sel s V Sm) as [Se Co]. pose proof (proj1 V) as W. pose proof (sel_root s Se) as Rt. pose proof (post_self s V) as Ig.
  assert (Fo : s_foster s = false).
  { destruct (s_foster s) eqn:E; [|reflexivity]. destruct (C E) as [_ Q]. rewrite Em in Q. cbn in Q; intuition discriminate. }
  destruct (leave_select s W Se Co) as (m & w & Er & Im & N1 & X1).
  assert (go : okay (Post s k) (run s1 <- reset_mode (pop_until T_select s); emit s1 k)).
  { rewrite Er. cbv beta iota. apply (emit_near emit R emit_ok _ _ _ _ _ N1 X1 T Fo). cbn [s_mode set_mode].
    pose proof (rank_select m k Im). change (rank M_in_select_in_table k) with (rank M_in_select k) in HR. lia. }
  assert (sl : okay (Post s k) (on_in_select emit s k)) by (apply in_select_ok; auto).
  destruct k as [d|g|t|d|c|]; unfold on_in_select_in_table; try exact sl.
  - destruct (g_id g); try exact sl; exact go.
  - assert (cl : okay (Post' s) (run b <- in_scope select_scope t s; if b : bool then run s1 <- reset_mode (pop_until T_select s); emit s1 (KEnd t) else Val s)).
    { eapply okay_run; [now apply select_total|]. intros [] _; [exact go|exact Ig]. }
    destruct t; try exact sl; exact cl.
Qed.

(** *** After the body *)

Lemma again_body : forall s k, Inv s -> In (s_mode s) [M_after_body; M_after_after_body] -> Tame k -> Calm s k -> (rank (s_mode s) k <= R)%nat ->
  (rank M_in_body k < rank (s_mode s) k)%nat -> okay (Post s k) (emit (set_mode M_in_body s) k).
Proof.
  intros s k V Em T C HR R2. destruct (ctx_inv (s_mode s) M_in_body s eq_refl) as (w & X); [right; auto|exact V|].
  assert (N1 : Near s (set_mode M_in_body s)) by (apply near_alike; [apply V|constructor; reflexivity]).
  eapply okay_weak; [apply emit_ok|intros x; now apply (post_near _ _ k)].
  - apply (inv_ctx M_in_body w). apply (ctx_near _ _ s); [exact N1|apply X|apply main_self; cbn; auto|apply X|]. exact (proj2 (X_body _ _ _ X)).
  - exact T.
  - intro Q. change (s_foster (set_mode M_in_body s)) with (s_foster s) in Q. destruct (C Q) as [Q1 _]. split; [exact Q1|cbn; auto].
  - cbn [s_mode set_mode]. lia.
Qed.
Lemma in_after_body_ok : forall s k, Inv s -> s_mode s = M_after_body -> Tame k -> Calm s k -> (rank M_after_body k <= R)%nat ->
  okay (Post s k) (on_after_body emit s k).
Proof.
  intros s k V Em T C HR. destruct (ctx_inv M_after_body M_in_body s Em) as (w & X); [right; cbn; auto|exact V|].
  pose proof (X_floor _ _ _ X) as F. pose proof (X_body _ _ _ X) as B. pose proof (body_root _ w s F B) as Rt. pose proof (post_self s V) as Ig.
  assert (rest : (rank M_in_body k < rank M_after_body k)%nat -> okay (Post s k) (emit (set_mode M_in_body s) k)).
  { intro R2. apply again_body; auto; rewrite Em; auto. cbn; auto. }
  destruct k as [d|g|t|d|c|]; cbn [on_after_body].
  - exact Ig.
  - assert (R3 : (rank M_in_body (KStart g) < rank M_after_body (KStart g))%nat) by (unfold rank; lia).
    destruct (g_id g); try (now apply rest). eapply stills; [exact V|]. apply body_html_ok; [apply B|exact Rt].
  - destruct t; try (apply rest; cbn; lia). rewrite (W_fragment s (proj1 B)). cbn [okay Post]. split; [|auto].
    destruct V as (W & H). rewrite Em in H. split; [apply (alike_world s); [constructor; reflexivity|exact W]|exact H].
  - assert (N0 : names s <> []) by (destruct (rooted_names s Rt) as (e & r & E); unfold names; rewrite E; discriminate).
    eapply okay_run; [apply (front_ok s (proj1 B) N0)|]. intros i Hi. eapply stills; [exact V|]. apply insert_comment_at_ok; [apply B|].
    split; [now apply html_node|exact I].
  - destruct (is_ascii_white_space c); [|apply rest; cbn; lia]. eapply lands; [exact X|]. now apply (body_char emit M_in_body).
  - apply done_stop; [apply B|apply X].
Qed.
Lemma in_after_after_body_ok : forall s k, Inv s -> s_mode s = M_after_after_body -> Tame k -> Calm s k -> (rank M_after_after_body k <= R)%nat ->
  okay (Post s k) (on_after_after_body emit s k).
Proof.
  intros s k V Em T C HR. destruct (ctx_inv M_after_after_body M_in_body s Em) as (w & X); [right; cbn; auto|exact V|].
  pose proof (X_floor _ _ _ X) as F. pose proof (X_body _ _ _ X) as B. pose proof (body_root _ w s F B) as Rt. pose proof (post_self s V) as Ig.
  assert (rest : (rank M_in_body k < rank M_after_after_body k)%nat -> okay (Post s k) (emit (set_mode M_in_body s) k)).
  { intro R2. apply again_body; auto; rewrite Em; auto. cbn; auto. }
  destruct k as [d|g|t|d|c|]; cbn [on_after_after_body].
  - exact Ig.
  - assert (R3 : (rank M_in_body (KStart g) < rank M_after_after_body (KStart g))%nat) by (unfold rank; lia).
    destruct (g_id g); try (now apply rest). eapply stills; [exact V|]. apply body_html_ok; [apply B|exact Rt].
  - apply rest. unfold rank. lia.
  - eapply stills; [exact V|]. apply insert_comment_at_ok; [apply B|]. split; [|exact I]. pose proof (T_two _ (W_tree s (proj1 B))). unfold at_end, the_document, fst. lia.
  - destruct (is_ascii_white_space c); [|apply rest; cbn; lia]. eapply lands; [exact X|]. now apply (body_char emit M_in_body).
  - apply done_stop; [apply B|apply X].
Qed.
End Tokens.
