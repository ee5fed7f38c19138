(** The tokens in the other parts of tables, in select elements and after the body. *)
From Coq Require Import ZArith List Bool String Lia.
From Verif Require Import M_infra M_encoding M_labels M_html M_html_serialize M_dom_names M_dom M_dom2 L_html_serialize L_dom L_dom2
  L_dom10 L_dom11 L_dom12 L_dom13 L_dom14.
Import ListNotations.
Open Scope Z_scope.
Open Scope list_scope.

Lemma inv_still : forall s s', Inv s -> Still s s' -> Inv s'.
Proof.
  intros s s' (W & H) St. assert (N := near_still _ _ St). destruct St as (W' & Es & En & Sm). split; [exact W'|].
  rewrite (Same_mode _ _ Sm).
  assert (P : forall m v, Placed m s v -> Placed m s' v).
  { intros m v (P1 & P2 & P3). split; [exact P1|]. split; [now apply N|]. unfold HeadOK in *. now rewrite (N_head _ _ N). }
  destruct (s_mode s); rewrite ?En, ?(Same_original _ _ Sm); try (now apply P).
  - destruct H as (t & v & H1 & H2 & H3 & H4). exists t, v. auto.
  - destruct H as (H1 & H2). auto.
Qed.
Lemma post_still : forall s s', Inv s -> Still s s' -> Post' s s'.
Proof. intros s s' V St. split; [now apply (inv_still s)|]. rewrite (N_foster _ _ (near_still _ _ St)). auto. Qed.
Lemma stills : forall s r, Inv s -> okay (Still s) r -> okay (Post' s) r.
Proof. intros s r V K. apply (okay_weak _ _ _ K). intros s'. now apply post_still. Qed.
Lemma post_self : forall s, Inv s -> Post' s s.
Proof. intros s V. split; auto. Qed.
(** the mode is not one of those that remember another *)
Definition plain (m : mode) : Prop := m <> M_text /\ m <> M_in_table_text.
Lemma inv_placed : forall s, Inv s -> plain (s_mode s) -> Placed (s_mode s) s (names s).
Proof. intros s (W & H) [P1 P2]. destruct (s_mode s); try exact H; [now elim P1|now elim P2]. Qed.
Lemma raw_any : forall g s x, Inv s -> Rooted s -> plain (s_mode s) -> good_tag g -> loose (g_id g) ->
  okay (Post' s) (run s2 <- insert_el' g s; Val (to_text (want x s2))).
Proof.
  intros g s x V Rt Pl G L. assert (W := proj1 V).
  apply (okay_run _ _ _ _ (insert_el'_ok g s W Rt G (loose_fits s _ L))).
  intros s2 Q. cbn [okay]. pose proof (grown_same _ _ _ Q (proj2 (proj2 (loose_free _ L)))) as Sm.
  assert (N : Near s (to_text (want x s2))).
  { apply (near_trans s s2); [apply near_same; [apply Q|exact Sm]|]. apply near_alike; [apply Q|constructor; reflexivity]. }
  split; [|rewrite (N_foster _ _ N); auto]. split; [apply N|]. cbn [s_mode to_text want set_mode].
  exists (g_id g), (names s). split; [exact (grown_names _ _ _ Q)|]. split; [|split; [exact L|]].
  - destruct (rooted_names s Rt) as (e & r & E). unfold names. rewrite E. discriminate.
  - change (s_original (to_text (want x s2))) with (s_mode s2). rewrite (Same_mode _ _ Sm).
    destruct (inv_placed s V Pl) as (P1 & P2 & P3). split; [exact P1|]. split; [now apply N|]. unfold HeadOK in *. now rewrite (N_head _ _ N).
Qed.
(** the part of the stack above and with an element of a table is taken off *)
Lemma close_firm : forall m w t w1 (P : nat -> bool) q s, Floor m w -> Body w s -> w = t :: w1 ->
  (forall i, ns_of (s_dom s) i = ns_HTML -> P i = q (name_of (s_dom s) i)) -> q t = true -> (forall x, q x = true -> among x firm = true) ->
  let s2 := set_stack (drop_to P (s_stack (implied_end_tags s))) (implied_end_tags s) in Near s s2 /\ names s2 = w1.
Proof.
  intros m w t w1 P q s F B E HP Ht Hq s2. pose proof (implied_stay m w s None F B) as K. destruct (stay_body _ _ _ K) as (W & u & N & L).
  assert (D := drop_names P q (s_dom s) (s_stack (implied_end_tags s))). destruct D as [D1 D2].
  { intros e I. apply HP. pose proof (W_stack _ W) as A. rewrite Forall_forall in A. exact (A e I). }
  split.
  - apply (near_trans _ _ _ (near_stay _ _ _ K)). now apply near_cut.
  - unfold s2, names. cbn [s_dom s_stack set_stack]. change (s_dom (implied_end_tags s)) with (s_dom s). rewrite D1.
    change (map (nm (s_dom s)) (s_stack (implied_end_tags s))) with (names (implied_except None s)). rewrite N.
    rewrite after_loose by assumption. rewrite E. cbn [after]. now rewrite Ht.
Qed.
Lemma scope_not : forall s A r t, World s -> names s = A ++ T_table :: r -> ~ In t A -> t <> T_table -> in_scope table_scope t s = Val false.
Proof.
  intros s A r t W N. unfold in_scope, names in *. pose proof (W_stack s W) as H. revert A N. induction (s_stack s) as [|e l IH]; intros A N NI D.
  - destruct A; discriminate.
  - inversion H as [|? ? H1 H2]; subst. cbn [scope_from]. rewrite is_html_eq by exact H1. destruct A as [|a A].
    + injection N as N1 _. unfold nm in N1. rewrite N1. destruct (teqb T_table t) eqn:Q; [apply teqb_eq in Q; now elim D|].
      unfold table_scope. rewrite !is_html_eq by exact H1. rewrite N1. reflexivity.
    + injection N as N1 N2. destruct (teqb (name_of (s_dom s) (en_node e)) t) eqn:Q.
      { apply teqb_eq in Q. elim NI. left. unfold nm in N1. congruence. }
      destruct (table_scope (s_dom s) (en_node e)); [reflexivity|]. apply (IH H2 A N2); [|exact D]. intro I. apply NI. now right.
Qed.

(** processing a token again *)
Lemma rank_text : forall m k, In m [M_in_table; M_in_table_body; M_in_row] -> match k with KChar _ => False | _ => True end ->
  (rank m k < rank M_in_table_text k)%nat.
Proof.
  intros m k I H. unfold rank. destruct k as [d|g|t|d|c|]; [| | | |destruct H|]; try (destruct I as [<-|[<-|[<-|[]]]]; lia).
  - apply Nat.add_lt_mono_l. destruct I as [<-|[<-|[<-|[]]]]; destruct (g_id g); repeat constructor.
Qed.

Section Tokens.
Variable listed : list Z -> bool.
Variable emit : st -> ktok -> outcome st.
Variable R : nat.
Hypothesis emit_ok : forall s k, Inv s -> Tame k -> Calm s k -> (rank (s_mode s) k < R)%nat -> okay (Post s k) (emit s k).

(** *** The characters of a table *)

Lemma table_text_ok : forall m w b l s, Floor m w -> Body w s -> s_foster s = false -> okay (Stay w s) (table_text emit b l s).
Proof.
  intros m w b l. induction l as [|c l IH]; intros s F B Fo; [now apply stay_refl|]. cbn [table_text].
  assert (O : okay (Stay w s) (if b then run s1 <- on_in_body emit (set_foster true s) (KChar c); Val (set_foster false s1) else insert_char c s)).
  { destruct b; [|apply (char_from m w F c s s); now apply stay_refl].
    assert (B1 : Body w (set_foster true s)) by (split; [apply near_foster; apply B|apply B]).
    eapply okay_run; [apply (body_char emit m w c (set_foster true s) F B1)|]. intros s1 [B2 Sm]. cbn [okay]. split.
    - split; [apply near_foster; apply B2|apply B2].
    - destruct Sm. constructor; auto. }
  eapply okay_run; [exact O|]. intros s1 K. eapply okay_weak; [apply (IH s1 F (stay_body _ _ _ K))|].
  - rewrite (Same_foster _ _ (proj2 K)). exact Fo.
  - intros s2. now apply stay_trans.
Qed.
Lemma in_table_text_ok : forall s k, Inv s -> s_mode s = M_in_table_text -> Tame k -> Calm s k -> (rank M_in_table_text k <= R)%nat ->
  okay (Post s k) (on_in_table_text emit s k).
Proof.
  intros s k V Em T C HR. assert (V' := V). destruct V' as (W & H). rewrite Em in H. destruct H as (Io & P1 & P2 & _).
  assert (Fo : s_foster s = false).
  { destruct (s_foster s) eqn:E; [|reflexivity]. destruct (C E) as [_ Q]. rewrite Em in Q. cbn in Q. intuition discriminate. }
  assert (Fl : exists w, Floor (s_original s) w /\ Above w (names s)) by (destruct Io as [E|[E|[E|[]]]]; rewrite <- E in *; exact P1).
  destruct Fl as (w & F & A).
  assert (G : match k with KChar _ => False | _ => True end -> okay (Post s k) (run s1 <- table_text emit (negb (forallb is_ascii_white_space (s_pending s))) (s_pending s) s;
    emit (set_mode (s_original s1) s1) k)).
  { intro NC. eapply okay_run; [apply (table_text_ok (s_original s) w _ _ s F); [split; [exact W|exact A]|exact Fo]|].
    intros s1 K. rewrite (Same_original _ _ (proj2 K)). set (m := s_original s) in *. clearbody m.
    assert (N : Near s (set_mode m s1)).
    { apply (near_trans _ _ _ (near_stay _ _ _ K)). apply near_alike; [apply K|constructor; reflexivity]. }
    apply (emit_near emit R emit_ok m w); auto.
    - apply (ctx_near m w s); auto.
      + destruct Io as [E|[E|[E|[]]]]; rewrite <- E in *; exact P2.
      + apply main_self. cbn in *. tauto.
      + apply K.
    - cbn [s_mode set_mode]. pose proof (rank_text m k Io NC). lia. }
  unfold on_in_table_text. destruct k as [d|g|t|d|c|]; try (apply G; exact I).
  destruct (c =? 0); [now apply post_self|]. cbn [okay Post]. split; [|cbn; congruence].
  split; [apply (alike_world s); [constructor; reflexivity|exact W]|]. cbn [s_mode set_pending]. rewrite Em. destruct V as (_ & H). rewrite Em in H. exact H.
Qed.

(** *** Captions and column groups *)

Ltac alike N := apply (near_trans _ _ _ N); apply near_alike; [apply N|constructor; reflexivity].
Lemma caption_closed : forall w s, Ctx M_in_caption w s ->
  exists w1, let s2 := set_mode M_in_table (clear_formatting (pop_until T_caption (implied_end_tags s))) in
    Near s s2 /\ Ctx M_in_table w1 s2.
Proof.
  intros w s X. pose proof (X_floor _ _ _ X) as F. assert (Ew : exists w1, w = T_caption :: w1 /\ Floor M_in_table w1) by (inversion F; eauto).
  destruct Ew as (w1 & Ew & F1). exists w1. cbv zeta.
  destruct (close_firm M_in_caption w T_caption w1 (is_html T_caption (s_dom s)) (fun t => teqb t T_caption) s F (X_body _ _ _ X) Ew) as [N1 E1].
  - intros i Hi. now apply is_html_eq.
  - reflexivity.
  - intros x Hx. apply teqb_eq in Hx. now subst.
  - cbv zeta in *. change (set_stack (drop_to (is_html T_caption (s_dom s)) (s_stack (implied_end_tags s))) (implied_end_tags s)) with (pop_until T_caption (implied_end_tags s)) in *.
    assert (N2 : Near s (clear_formatting (pop_until T_caption (implied_end_tags s)))).
    { apply (near_trans _ _ _ N1). apply near_active; [apply N1|]. apply good_marker. apply N1. }
    assert (N3 : Near s (set_mode M_in_table (clear_formatting (pop_until T_caption (implied_end_tags s))))) by (alike N2).
    split; [exact N3|]. apply (ctx_near _ _ s); [exact N3|apply X|apply main_self; cbn; tauto|exact F1|]. exists []. split; [exact E1|constructor].
Qed.
Lemma in_caption_ok : forall s k, Inv s -> s_mode s = M_in_caption -> Tame k -> Calm s k -> (rank M_in_caption k <= R)%nat ->
  okay (Post s k) (on_in_caption emit s k).
Proof.
  intros s k V Em T C HR. destruct (ctx_inv M_in_caption M_in_caption s Em) as (w & X); [apply main_self; cbn; auto|exact V|].
  pose proof (X_floor _ _ _ X) as F. pose proof (X_body _ _ _ X) as B. pose proof (body_root _ w s F B) as Rt.
  assert (Hh : hd T_a w = T_caption) by (inversion F; reflexivity).
  destruct (caption_closed w s X) as (w1 & N1 & X1).
  assert (G : (4 <= rank M_in_caption k)%nat -> (rank M_in_table k < rank M_in_caption k)%nat -> s_foster s = false -> okay (Post s k) (Val s) ->
    okay (Post s k) (run b <- in_scope table_scope T_caption s;
      if b : bool then emit (set_mode M_in_table (clear_formatting (pop_until T_caption (implied_end_tags s)))) k else Val s)).
  { intros R1 R2 Fo Ig. eapply okay_run; [apply table_total; [apply B|exact Rt]|]. intros [] _; [|exact Ig].
    apply (emit_near emit R emit_ok _ _ _ _ _ N1 X1 T Fo). cbn [s_mode set_mode]. lia. }
  pose proof (post_self s V) as Ig.
  destruct k as [d|g|t|d|c|]; cbn [on_in_caption].
  - now apply (in_body_ok emit R emit_ok M_in_caption w).
  - assert (bd : okay (Post s (KStart g)) (on_in_body emit s (KStart g))).
    { apply (in_body_ok emit R emit_ok M_in_caption w); auto. split; [cbn; auto|now rewrite Em]. }
    destruct (g_id g) eqn:E; try exact bd;
      (apply G; [cbn; rewrite E; lia|cbn; rewrite E; lia|apply (calm_start s g C); rewrite E; reflexivity|exact Ig]).
  - pose proof (calm_other s _ C I) as Fo.
    assert (bd : T_caption <> t -> among t [T_body; T_html] = false -> okay (Post s (KEnd t)) (on_in_body emit s (KEnd t))).
    { intros D1 D2. apply (in_body_ok emit R emit_ok M_in_caption w); auto. split; [now rewrite Hh|].
      split; [intro Q; apply among_In in Q; congruence|]. intros _. now rewrite Em. }
    destruct t; try exact Ig; try (apply bd; [discriminate|reflexivity]).
    + eapply okay_run; [apply table_total; [apply B|exact Rt]|]. intros [] _; [|exact Ig]. exact (post_ctx _ _ _ _ N1 X1).
    + apply G; [cbn; lia|cbn; lia|exact Fo|exact Ig].
  - now apply (in_body_ok emit R emit_ok M_in_caption w).
  - now apply (in_body_ok emit R emit_ok M_in_caption w).
  - now apply (in_body_ok emit R emit_ok M_in_caption w).
Qed.
Lemma in_column_group_ok : forall s k, Inv s -> s_mode s = M_in_column_group -> Tame k -> Calm s k -> (rank M_in_column_group k <= R)%nat ->
  okay (Post s k) (on_in_column_group emit s k).
Proof.
  intros s k V Em T C HR. assert (V' := V). destruct V' as (W & H). rewrite Em in H. destruct H as ((w & E & F) & P2 & _).
  assert (Fo : s_foster s = false).
  { destruct (s_foster s) eqn:Q; [|reflexivity]. destruct (C Q) as [_ Q']. rewrite Em in Q'. cbn in Q'. intuition discriminate. }
  assert (Rt : Rooted s) by (destruct (floor_root _ _ F) as (v & ->); exists (T_colgroup :: v); exact E).
  destruct (rooted_names s Rt) as (e & r & Es).
  assert (Er : nm (s_dom s) e = T_colgroup /\ map (nm (s_dom s)) r = w) by (unfold names in E; rewrite Es in E; injection E as E1 E2; auto).
  destruct Er as [Ee Er].
  assert (N1 : Near s (set_mode M_in_table (set_stack r s))).
  { apply (near_trans s (set_stack r s)); [apply near_cut; [exact W|rewrite Es; now apply incl_tl, incl_refl]|].
    apply near_alike; [apply world_stack; [exact W|rewrite Es; now apply incl_tl, incl_refl]|constructor; reflexivity]. }
  assert (X1 : Ctx M_in_table w (set_mode M_in_table (set_stack r s))).
  { apply (ctx_near _ _ s); [exact N1|exact P2|apply main_self; cbn; tauto|exact F|]. exists []. split; [exact Er|constructor]. }
  assert (Cu : cur_is T_colgroup s = Val true).
  { unfold cur_is, cur. rewrite Es. cbv beta iota. rewrite is_html_eq; [unfold nm in Ee; rewrite Ee; reflexivity|].
    pose proof (W_stack s W) as A. rewrite Es in A. now inversion A. }
  assert (Po : pop s = Val (set_stack r s)) by (unfold pop; now rewrite Es).
  assert (rest : (rank M_in_table k < rank M_in_column_group k)%nat ->
    okay (Post s k) (run b <- cur_is T_colgroup s; if b : bool then run s1 <- pop s; emit (set_mode M_in_table s1) k else Val s)).
  { intro R2. rewrite Cu. cbv beta iota. rewrite Po. cbv beta iota. apply (emit_near emit R emit_ok _ _ _ _ _ N1 X1 T Fo).
    cbn [s_mode set_mode]. lia. }
  pose proof (post_self s V) as Ig.
  assert (NT : contains T_template s = false).
  { apply names_contains. rewrite E. intros [Q|Q]; [discriminate|]. now apply (floor_names _ _ _ F Q). }
  destruct k as [d|g|t|d|c|]; cbn [on_in_column_group].
  - exact Ig.
  - destruct T as (G & Wd & Imag).
    destruct (g_id g) eqn:Eg; try discriminate Wd; try (apply rest; cbn; rewrite Eg; lia).
    + eapply stills; [exact V|]. apply insert_void_ok; auto; [|now rewrite Eg]. right. rewrite Eg. split; [discriminate|]. split; [exact Fo|].
      exists T_colgroup, w, [T_colgroup]. auto.
    + eapply stills; [exact V|]. now apply body_html_ok.
  - destruct t; try (apply rest; cbn; lia); try exact Ig.
    + rewrite Cu. cbv beta iota. rewrite Po. cbv beta iota. exact (post_ctx _ _ _ _ N1 X1).
    + cbn [on_in_head]. rewrite NT. exact Ig.
  - eapply stills; [exact V|]. now apply insert_comment_ok.
  - destruct (is_ascii_white_space c); [|apply rest; cbn; lia]. eapply stills; [exact V|]. now apply insert_char_ok.
  - apply body_eof; assumption.
Qed.
End Tokens.
