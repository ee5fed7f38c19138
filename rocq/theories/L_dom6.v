(** End tags. *)
From Coq Require Import ZArith List Bool String Lia.
From Verif Require Import M_infra M_encoding M_labels M_html M_html_serialize M_dom_names M_dom M_dom2 L_html_serialize L_dom L_dom2 L_dom3 L_dom4 L_dom5.
Import ListNotations.
Open Scope Z_scope.
Open Scope dom_scope.
Open Scope list_scope.

(** the current node closed *)
Definition popped (s : st) : st := set_stack (tl (s_stack s)) s.
Definition Ended (anc : list tname) (s s1 : st) : Prop :=
  Good anc s1 /\ s_stack s1 = tl (s_stack s) /\ s_dom s1 = s_dom s /\ s_wanted s1 = s_wanted s /\ s_omit_lf s1 = s_omit_lf s.

Lemma remove_first_none : forall (A : Type) (f : A -> bool) l, (forall x, In x l -> f x = false) -> remove_first f l = None.
Proof. induction l as [|x l IH]; intro H; [reflexivity|]. cbn. rewrite (H x) by now left. rewrite IH; [reflexivity|]. intros. apply H. now right. Qed.
Lemma remove_first_last : forall (A : Type) (f : A -> bool) l x, (forall x, In x l -> f x = false) -> f x = true -> remove_first f (l ++ [x]) = Some l.
Proof.
  induction l as [|y l IH]; intros x H Hx; cbn; [now rewrite Hx|]. rewrite (H y) by now left. rewrite IH; [reflexivity| |exact Hx].
  intros. apply H. now right.
Qed.
Lemma remove_front_head : forall (A : Type) (f : A -> bool) l x, (forall x, In x l -> f x = false) -> f x = true -> remove_front f (x :: l) = Some l.
Proof.
  intros A f l x H Hx. unfold remove_front. cbn [rev]. rewrite remove_first_last; [now rewrite rev_involutive| |exact Hx].
  intros y I. apply H. now apply in_rev.
Qed.
Lemma after_node_none : forall i l e, (forall x, In x l -> en_node x <> i) -> en_node e = i -> after_node i (l ++ [e]) = [].
Proof.
  induction l as [|y l IH]; intros e H He; cbn [app after_node].
  - rewrite He, PeanoNat.Nat.eqb_refl. reflexivity.
  - destruct (PeanoNat.Nat.eqb_spec (en_node y) i) as [E|E]; [elim (H y); [now left|exact E]|]. apply IH; [|exact He]. intros. apply H. now right.
Qed.
Lemma form_tail : forall e st t anc f, t <> T_form -> FormAt (e :: st) (t :: anc) f -> FormAt st anc f.
Proof.
  intros e st t anc f N H. inversion H as [st0 anc0 K|e0 st0 anc0 K|e0 st0 t0 anc0 f0 K K2]; subst.
  - apply Form_none. intro I. apply K. now right.
  - now elim N.
  - assumption.
Qed.

Section Ends.
Variables (listed : list Z -> bool) (emit : st -> ktok -> outcome st).
Variables (anc : list tname) (t : tname) (s : st) (e : entry) (st : list entry).
Hypothesis G : Good (t :: anc) s.
Hypothesis O : Ok anc.
Hypothesis A : allowed anc t = true.
Hypothesis T : among t (text_names ++ void_tnames) = false.
Hypothesis Es : s_stack s = e :: st.

Lemma e_named : is_named (s_dom s) e t.
Proof. pose proof (G_names _ _ G) as N. rewrite Es in N. now inversion N. Qed.
Lemma st_named : Names (s_dom s) st anc.
Proof. pose proof (G_names _ _ G) as N. rewrite Es in N. now inversion N. Qed.
Lemma e_fresh : forall x, In x st -> en_node x <> en_node e.
Proof.
  intros x I E. pose proof (G_nodup _ _ G) as N. rewrite Es in N. cbn [map] in N. inversion N as [|? ? N1 N2]; subst. apply N1. rewrite <- E.
  now apply in_map.
Qed.
Lemma implied_no : forall s1 except, s_stack s1 = s_stack s -> s_dom s1 = s_dom s -> among t implied = false -> implied_except except s1 = s1.
Proof.
  intros s1 except E1 E2 H. unfold implied_except. rewrite E1, E2, Es. cbn [drop_implied].
  rewrite (named_name _ _ _ e_named), (named_ns _ _ _ e_named), H, andb_false_r.
  destruct (match except with Some u => teqb t u | None => false end); rewrite <- Es, <- E1; apply set_stack_id.
Qed.
Lemma pop_until_head : forall s1, s_stack s1 = s_stack s -> s_dom s1 = s_dom s -> pop_until t s1 = popped s1.
Proof.
  intros s1 E1 E2. unfold pop_until, popped. rewrite E1, E2, Es. cbn [drop_to tl]. now rewrite (named_is _ _ _ _ e_named), teqb_refl.
Qed.
Lemma pop_until_any_head : forall l, among t l = true -> pop_until_any l s = popped s.
Proof.
  intros l H. unfold pop_until_any, popped. rewrite Es. cbn [drop_to tl]. now rewrite (named_in _ _ _ _ e_named), H.
Qed.
Lemma pop_node_head : pop_until_node (en_node e) s = popped s.
Proof. unfold pop_until_node, popped. rewrite Es. cbn [drop_to tl]. now rewrite PeanoNat.Nat.eqb_refl. Qed.
Lemma pop_head : pop s = Val (popped s).
Proof. unfold pop, popped. now rewrite Es. Qed.
Lemma scope_head : forall scope, in_scope scope t s = Val true.
Proof. intros. unfold in_scope. rewrite Es. cbn [scope_from]. now rewrite (named_is _ _ _ _ e_named), teqb_refl. Qed.
Lemma cur_head : forall x, cur_is x s = Val (teqb t x).
Proof. intro x. now apply (cur_is_name _ _ G t x anc). Qed.

Lemma ended : forall s1, s_stack s1 = tl (s_stack s) -> s_dom s1 = s_dom s -> Act st anc (s_active s1) -> FormAt st anc (s_form s1) ->
  s_mode s1 = mode_of anc -> s_foster s1 = s_foster s -> s_fragment s1 = s_fragment s -> s_templates s1 = s_templates s -> s_slots s1 = s_slots s ->
  s_wanted s1 = s_wanted s -> s_omit_lf s1 = s_omit_lf s -> Ended anc s s1.
Proof.
  intros s1 H1 H2 H3 H4 H5 H6 H7 H8 H9 H10 H11. split; [|repeat split; assumption]. destruct G.
  rewrite Es in H1. cbn [tl] in H1. constructor; try congruence.
  - rewrite H1, H2. apply st_named.
  - rewrite H1. rewrite Es in G_nodup. now inversion G_nodup.
Qed.
Lemma act_plain : among t marker_names = false -> among t formatting_names = false -> Act st anc (s_active s).
Proof.
  intros M F. pose proof (G_act _ _ G) as H. rewrite Es in H. inversion H; subst; try congruence; assumption.
Qed.
Lemma ended_plain : passing t = true -> among t marker_names = false -> among t formatting_names = false -> t <> T_form -> Ended anc s (popped s).
Proof.
  intros P M F N. apply ended; try reflexivity.
  - now apply act_plain.
  - pose proof (G_form _ _ G) as H. rewrite Es in H. now apply form_tail in H.
  - cbn. rewrite (G_mode _ _ G). now apply mode_passing.
Qed.
Lemma ended_mode : forall m, mode_of anc = m -> among t marker_names = false -> among t formatting_names = false -> t <> T_form ->
  Ended anc s (set_mode m (popped s)).
Proof.
  intros m E M F N. apply ended; try reflexivity.
  - now apply act_plain.
  - pose proof (G_form _ _ G) as H. rewrite Es in H. now apply form_tail in H.
  - now rewrite E.
Qed.
Lemma ended_marker : forall m, mode_of anc = m -> among t marker_names = true -> t <> T_form -> Ended anc s (set_mode m (clear_formatting (popped s))).
Proof.
  intros m E M N. apply ended; try reflexivity.
  - pose proof (G_act _ _ G) as H. rewrite Es in H. inversion H as [|? ? ? ? ? H1|? ? ? ? ? ? H1|]; subst; try congruence.
    + apply act_disjoint in H1. congruence.
    + cbn [s_active set_mode clear_formatting set_active popped set_stack]. match goal with K : None :: _ = s_active s |- _ => rewrite <- K end. assumption.
  - pose proof (G_form _ _ G) as H. rewrite Es in H. now apply form_tail in H.
  - now rewrite E.
Qed.
Lemma set_mode_id : forall m s1, s_mode s1 = m -> set_mode m s1 = s1.
Proof. intros m s1 <-. now destruct s1. Qed.

(** a formatting element *)
Lemma agency_ok : among t formatting_names = true -> exists s1, agency t s = Val (s1, false) /\ Ended anc s s1.
Proof.
  intro F. assert (P : mode_of (t :: anc) = mode_of anc) by (apply mode_passing; try assumption; destruct t; try discriminate F; reflexivity).
  assert (N : t <> T_form) by (intros ->; discriminate F).
  pose proof (G_form _ _ G) as GF. rewrite Es in GF. apply form_tail in GF; [|exact N].
  unfold agency. unfold cur. rewrite Es. cbv beta iota. rewrite (named_is _ _ _ _ e_named), teqb_refl. cbn [andb].
  pose proof (G_act _ _ G) as H. rewrite Es in H. inversion H as [|? ? ? ? ? H1 H2|? ? ? ? ac g H1 H2|? ? ? ? ? H1 H2]; subst.
  - assert (NI : in_list (en_node e) s = false).
    { unfold in_list. destruct (existsb (is_entry (en_node e)) (s_active s)) eqn:E; [|reflexivity].
      apply (act_open _ _ _ _ H2) in E. apply in_map_iff in E. destruct E as (x & E & I). now apply e_fresh in I. }
    rewrite NI. cbn [negb]. rewrite pop_head. cbv beta iota. eexists. split; [reflexivity|].
    apply ended; try reflexivity; try assumption. cbn. now rewrite (G_mode _ _ G).
  - match goal with K : Some _ :: _ = s_active s |- _ => rename K into H0 end. assert (NI : forall x, In x ac -> is_entry (en_node e) x = false).
    { intros x I. destruct (is_entry (en_node e) x) eqn:E; [|reflexivity]. exfalso.
      assert (K : existsb (is_entry (en_node e)) ac = true) by (apply existsb_exists; eauto).
      apply (act_open _ _ _ _ H2) in K. apply in_map_iff in K. destruct K as (y & K & J). now apply e_fresh in J. }
    unfold in_list. rewrite <- H0. cbn [existsb is_entry en_node]. rewrite PeanoNat.Nat.eqb_refl. cbn [orb negb outer].
    rewrite <- H0. cbn [named_back en_node]. rewrite (named_name _ _ _ e_named), teqb_refl. cbv iota.
    unfold on_stack. rewrite Es. cbn [existsb]. rewrite PeanoNat.Nat.eqb_refl. cbn [orb negb].
    unfold in_scope_node. rewrite Es. cbn [scope_from]. rewrite PeanoNat.Nat.eqb_refl. cbv beta iota. cbn [negb].
    unfold furthest. cbn [rev]. rewrite after_node_none; [|intros x I; apply e_fresh; now apply in_rev|reflexivity]. cbn [find].
    rewrite pop_node_head. eexists. split; [reflexivity|].
    unfold remove_list. cbn [s_active popped set_stack]. rewrite <- H0. rewrite remove_front_head; [|exact NI|cbn; apply PeanoNat.Nat.eqb_refl].
    apply ended; try reflexivity; try assumption. cbn. now rewrite (G_mode _ _ G).
  - rewrite (act_disjoint _ F) in H1. discriminate.
Qed.

Lemma form_ok : t = T_form -> exists s1, body_end emit s t = Val s1 /\ Ended anc s s1.
Proof.
  intros Et. assert (NF : ~ In T_form anc /\ s_form s = Some (en_node e)).
  { pose proof (G_form _ _ G) as GF. rewrite Es, Et in GF. inversion GF; subst;
      [exfalso; match goal with K : ~ In T_form (T_form :: _) |- _ => apply K; now left end|split; [assumption|congruence]|congruence]. }
  destruct NF as [NF EF]. unfold body_end. rewrite Et. rewrite (no_template _ _ G). cbn [negb]. cbv zeta. rewrite EF.
  unfold in_scope_node. cbn [s_stack s_dom set_form]. rewrite Es. cbn [scope_from]. rewrite PeanoNat.Nat.eqb_refl. cbv beta iota.
  unfold implied_end_tags. rewrite implied_no; [|reflexivity|reflexivity|rewrite Et; reflexivity].
  unfold remove_stack. cbn [s_stack set_form]. rewrite Es, remove_front_head.
  - eexists. split; [reflexivity|]. apply ended; try reflexivity; rewrite ?Es; try reflexivity.
    + apply act_plain; rewrite Et; reflexivity.
    + cbn. now apply Form_none.
    + cbn. rewrite (G_mode _ _ G). apply mode_passing; try assumption. now rewrite Et.
  - intros x I. apply PeanoNat.Nat.eqb_neq. now apply e_fresh.
  - apply PeanoNat.Nat.eqb_refl.
Qed.

Lemma other_end_head : other_end t s = Val (popped s).
Proof.
  unfold other_end. rewrite Es. cbn [other_end_from]. rewrite (named_is _ _ _ _ e_named), teqb_refl.
  rewrite (implied_self anc s t G), pop_node_head. reflexivity.
Qed.
End Ends.

Lemma item_stop : forall d st anc t, Names d st anc -> open_item anc = false -> among t [T_dd; T_dt] = true ->
  forall s, s_dom s = d -> other_end_from t st s = Val s.
Proof.
  intros d st anc t N. induction N as [|e u st anc H N IH]; intros O D s E; [discriminate O|]. cbn [other_end_from]. rewrite E.
  rewrite (named_is _ _ _ _ H), (named_special _ _ _ H). cbn [open_item] in O. destruct (among u [T_dd; T_dt]) eqn:Eu; [discriminate|].
  destruct (teqb u t) eqn:Et; [apply teqb_eq in Et; congruence|]. destruct (among u special_html); [reflexivity|]. cbn [andb] in O. now apply IH.
Qed.
Lemma flow_tail : forall t anc, is_flow (mode_of (t :: anc)) = true -> Ok (t :: anc) -> among t [T_body; T_td; T_th; T_caption] = false ->
  Ok anc /\ is_flow (mode_of anc) = true /\ flow anc t = true /\ passing t = true /\ mode_of (t :: anc) = mode_of anc.
Proof.
  intros t anc M O N. inversion O as [E|E|t0 an O2 A T E]; [subst; discriminate N|subst; discriminate M|]. subst t0 an.
  assert (P : passing t = true).
  { destruct (passing t) eqn:P; [reflexivity|]. exfalso. unfold passing in P. rewrite negb_false_iff in P. apply among_In in P. cbn [In] in P.
    repeat match type of P with _ \/ _ => destruct P as [P|P] end; try contradiction; subst t; try discriminate N; try discriminate M.
    cbn in M. destruct (mode_of anc); discriminate M. }
  rewrite (mode_passing _ _ P A T) in M |- *. repeat split; try assumption. now rewrite <- allowed_flow.
Qed.
Lemma flow_not : forall anc t, flow anc t = true -> passing t = true ->
  among t [T_select; T_td; T_th; T_tr; T_tbody; T_thead; T_tfoot; T_caption; T_colgroup; T_table; T_template; T_head; T_body; T_frameset; T_html] = false.
Proof. intros anc t F P. destruct t; try reflexivity; try discriminate F; discriminate P. Qed.
Lemma reset_flow : forall s st anc, Names (s_dom s) st anc -> Ok anc -> is_flow (mode_of anc) = true -> s_fragment s = false ->
  reset_from s st = Val (mode_of anc).
Proof.
  intros s st anc N. induction N as [|e t st anc H N IH]; intros O M F; [inversion O|]. cbn [reset_from].
  rewrite F, andb_false_r. rewrite !(named_is _ _ _ _ H).
  assert (L : (match st with [] => true | _ => false end) = false).
  { inversion O as [E|E|t0 an O2 A T E]; subst; inversion N; subst; try reflexivity. inversion O2. }
  rewrite L. destruct (among t [T_body; T_td; T_th; T_caption]) eqn:B.
  - apply among_In in B. cbn [In] in B. repeat match type of B with _ \/ _ => destruct B as [B|B] end; try contradiction; subst t; reflexivity.
  - destruct (flow_tail t anc M O B) as (O2 & M2 & Fl & P & Em). rewrite Em.
    pose proof (flow_not _ _ Fl P) as K. unfold among in K. cbn [existsb] in K. rewrite !orb_false_iff in K.
    destruct K as (K1 & K2 & K3 & K4 & K5 & K6 & K7 & K8 & K9 & K10 & K11 & K12 & K13 & K14 & K15 & _).
    rewrite K1, K2, K3, K4, K5, K6, K7, K8, K9, K10, K11, K12, K13, K14, K15. cbn [orb andb]. now apply IH.
Qed.
Lemma table_stop : forall s st anc, Names (s_dom s) st anc -> Ok anc -> is_flow (mode_of anc) = true -> other_end_from T_table st s = Val s.
Proof.
  intros s st anc N. induction N as [|e t st anc H N IH]; intros O M; [inversion O|]. cbn [other_end_from].
  rewrite (named_is _ _ _ _ H), (named_special _ _ _ H).
  destruct (among t [T_body; T_td; T_th; T_caption]) eqn:B.
  - apply among_In in B. cbn [In] in B. repeat match type of B with _ \/ _ => destruct B as [B|B] end; try contradiction; subst t; reflexivity.
  - destruct (flow_tail t anc M O B) as (O2 & M2 & Fl & P & Em).
    replace (teqb t T_table) with false by (symmetry; destruct (teqb t T_table) eqn:K; [apply teqb_eq in K; subst; discriminate P|reflexivity]).
    destruct (among t special_html); [reflexivity|]. now apply IH.
Qed.

Section End2.
Variables (listed : list Z -> bool) (emit : st -> ktok -> outcome st).
Variables (anc : list tname) (t : tname) (s : st) (e : entry) (st : list entry).
Hypothesis G : Good (t :: anc) s.
Hypothesis O : Ok anc.
Hypothesis A : allowed anc t = true.
Hypothesis T : among t (text_names ++ void_tnames) = false.
Hypothesis Es : s_stack s = e :: st.
Hypothesis Om : s_omit_lf s = false.

Lemma body_end_ok : flow anc t = true -> passing t = true -> exists s1, body_end emit s t = Val s1 /\ Ended anc s s1.
Proof.
  intros F P.
  assert (EP := ended_plain anc t s e st G O A T Es P).
  assert (SH := scope_head anc t s e st G Es).
  assert (IM := implied_no anc t s e st G Es s None eq_refl eq_refl). change (implied_except None s) with (implied_end_tags s) in IM.
  assert (IS := implied_self anc s t G).
  assert (PU := pop_until_head anc t s e st G Es s eq_refl eq_refl).
  assert (OE := other_end_head anc t s e st G Es).
  destruct (among t formatting_names) eqn:Fm.
  { destruct (agency_ok anc t s e st G O A T Es Fm) as (s1 & E & H). exists s1. split; [|exact H].
    unfold body_end. rewrite E. apply among_In in Fm. cbn [In formatting_names] in Fm.
    repeat match type of Fm with _ \/ _ => destruct Fm as [Fm|Fm] end; try contradiction; rewrite <- Fm; reflexivity. }
  destruct (teqb t T_form) eqn:Ff.
  { apply teqb_eq in Ff. exact (form_ok emit anc t s e st G O A T Es Ff). }
  assert (NF : t <> T_form) by (intro K; rewrite K in Ff; discriminate Ff).
  destruct (among t marker_names) eqn:Mk.
  { exists (set_mode (s_mode s) (clear_formatting (popped s))). split.
    - rewrite (set_mode_id (s_mode s) (clear_formatting (popped s)) eq_refl). apply among_In in Mk. cbn [In marker_names] in Mk.
      repeat match type of Mk with _ \/ _ => destruct Mk as [Mk|Mk] end; try contradiction;
        try (exfalso; rewrite <- Mk in P; discriminate P); unfold body_end; rewrite SH; cbv beta iota;
        rewrite IM, PU by (rewrite <- Mk; reflexivity); rewrite <- Mk; reflexivity.
    - apply (ended_marker anc t s e st G O Es); try assumption. rewrite (G_mode _ _ G). symmetry. now apply mode_passing. }
  specialize (EP eq_refl eq_refl NF). destruct (among t [T_dd; T_dt]) eqn:D.
  { assert (OI : open_item anc = false).
    { apply among_In in D. cbn [In] in D. destruct D as [D|[D|[]]]; rewrite <- D in F; cbn [flow] in F; rewrite andb_true_iff, !negb_true_iff in F; apply F. }
    exists (popped s). split; [|exact EP].
    assert (K : other_end t (popped s) = Val (popped s)).
    { unfold other_end. cbn [popped s_stack set_stack]. rewrite Es. cbn [tl].
      apply (item_stop (s_dom s) st anc); try assumption; [exact (st_named anc t s e st G Es)|reflexivity]. }
    apply among_In in D. cbn [In] in D. unfold body_end. rewrite SH. cbv beta iota. rewrite IS, PU, K. destruct D as [D|[D|[]]]; rewrite <- D; reflexivity. }
  destruct (among t headings) eqn:H.
  { exists (popped s). split; [|exact EP].
    assert (K : in_scope_any default_scope headings s = Val true).
    { unfold in_scope_any. rewrite Es. cbn [scope_from]. now rewrite (named_in _ _ _ _ (e_named anc t s e st G Es)), H. }
    assert (K2 := pop_until_any_head anc t s e st G Es headings H).
    unfold body_end. rewrite K. cbv beta iota. rewrite IM, K2.
    - apply among_In in H. cbn [In headings] in H. repeat match type of H with _ \/ _ => destruct H as [H|H] end; try contradiction; rewrite <- H; reflexivity.
    - apply among_In in H. cbn [In headings] in H. repeat match type of H with _ \/ _ => destruct H as [H|H] end; try contradiction; rewrite <- H; reflexivity. }
  exists (popped s). split; [|exact EP].
  clear - F P T SH IM IS PU OE Fm Mk Ff D H. unfold body_end, close_p.
  destruct t; try discriminate F; try discriminate P; try discriminate T; try discriminate Fm; try discriminate Mk; try discriminate Ff; try discriminate D;
    try discriminate H; cbv iota; try exact OE; rewrite ?SH; cbv beta iota; rewrite ?(IM eq_refl), ?IS; now rewrite PU.
Qed.

Theorem end_ok : exists s1, in_mode listed emit s (KEnd t) = Val s1 /\ Ended anc s s1.
Proof.
  assert (SH := scope_head anc t s e st G Es).
  assert (IM := implied_no anc t s e st G Es s None eq_refl eq_refl). change (implied_except None s) with (implied_end_tags s) in IM.
  assert (PU := pop_until_head anc t s e st G Es s eq_refl eq_refl).
  assert (PH := pop_head s e st Es).
  assert (CH := cur_head anc t s G).
  assert (EM := ended_mode anc t s e st G O Es).
  assert (EK := ended_marker anc t s e st G O Es).
  assert (EN := e_named anc t s e st G Es).
  pose proof A as A2. unfold allowed in A2.
  destruct (is_flow (mode_of anc)) eqn:M.
  - assert (F : flow anc t = true) by now rewrite <- allowed_flow.
    destruct (passing t) eqn:P.
    + destruct (body_end_ok F P) as (s1 & E & H). exists s1. split; [|exact H]. rewrite <- E.
      unfold in_mode. rewrite (G_mode _ _ G), (mode_passing _ _ P A T). pose proof (flow_not _ _ F P) as N.
      destruct (mode_of anc); try discriminate M; [reflexivity| |]; unfold on_in_caption, on_in_cell; clear - F N T;
        destruct t; try reflexivity; try discriminate N; discriminate F.
    + assert (C : t = T_table \/ t = T_select).
      { unfold passing in P. rewrite negb_false_iff in P. apply among_In in P. cbn [In] in P.
        repeat match type of P with _ \/ _ => destruct P as [P|P] end; try contradiction; rewrite <- P in F; try discriminate F; auto. }
      assert (FR : s_fragment s = false) by apply G.
      assert (R : forall s0, s0 = popped s -> reset_from s0 (s_stack s0) = Val (mode_of anc)).
      { intros s0 ->. cbn [popped s_stack set_stack]. rewrite Es. cbn [tl]. apply reset_flow; try assumption. exact (st_named anc t s e st G Es). }
      assert (E0 : Ended anc s (set_mode (mode_of anc) (popped s))).
      { apply EM; try reflexivity; destruct C as [C|C]; rewrite C; (reflexivity || discriminate). }
      exists (set_mode (mode_of anc) (popped s)). split; [|exact E0].
      unfold in_mode. rewrite (G_mode _ _ G). destruct C as [C|C]; rewrite C in *.
      * cbn [mode_of among existsb]. change (mode_of (T_table :: anc)) with M_in_table. cbv iota. unfold on_in_table. rewrite SH. cbv beta iota.
        rewrite PU. unfold reset_mode. rewrite (R _ eq_refl). cbv beta iota. cbn [on_in_body body_end]. unfold other_end.
        cbn [set_foster set_mode popped set_stack s_stack]. rewrite Es. cbn [tl].
        rewrite (table_stop _ st anc); try assumption.
        -- cbv beta iota. rewrite <- (G_foster _ _ G). destruct s. reflexivity.
        -- exact (st_named anc T_table s e st G Es).
      * change (mode_of (T_select :: anc)) with (match mode_of anc with M_in_cell | M_in_caption => M_in_select_in_table | _ => M_in_select end).
        assert (K : on_in_select emit s (KEnd T_select) = Val (set_mode (mode_of anc) (popped s))).
        { unfold on_in_select. rewrite SH. cbv beta iota. rewrite PU. unfold reset_mode. rewrite (R _ eq_refl). reflexivity. }
        destruct (mode_of anc) eqn:Em; try discriminate M; exact K.
  - unfold in_mode. rewrite (G_mode _ _ G). destruct (mode_of anc) eqn:Em; try discriminate A2; try discriminate M.
    + (* head *) exfalso. clear - A2 T. destruct t; try discriminate A2; discriminate T.
    + (* table *)
      apply among_In in A2. cbn [In] in A2.
      repeat match type of A2 with _ \/ _ => destruct A2 as [A2|A2] end; try contradiction; rewrite <- A2 in *; try discriminate T.
      * change (mode_of (T_caption :: anc)) with M_in_caption. cbv iota. unfold on_in_caption. rewrite SH. cbv beta iota. rewrite (IM eq_refl), PU.
        eexists. split; [reflexivity|]. apply EK; (reflexivity || discriminate).
      * change (mode_of (T_colgroup :: anc)) with M_in_column_group. cbv iota. unfold on_in_column_group. rewrite CH. cbv beta iota. rewrite PH.
        eexists. split; [reflexivity|]. apply EM; (reflexivity || discriminate).
      * change (mode_of (T_tbody :: anc)) with M_in_table_body. cbv iota. unfold on_in_table_body. rewrite SH. cbv beta iota.
        unfold to_body_context. rewrite Es. cbn [pop_to]. rewrite (named_in _ _ _ _ EN).
        match goal with |- context [among ?a ?b] => change (among a b) with true end. cbv beta iota. rewrite <- Es, set_stack_id, PH.
        eexists. split; [reflexivity|]. apply EM; (reflexivity || discriminate).
      * change (mode_of (T_tfoot :: anc)) with M_in_table_body. cbv iota. unfold on_in_table_body. rewrite SH. cbv beta iota.
        unfold to_body_context. rewrite Es. cbn [pop_to]. rewrite (named_in _ _ _ _ EN).
        match goal with |- context [among ?a ?b] => change (among a b) with true end. cbv beta iota. rewrite <- Es, set_stack_id, PH.
        eexists. split; [reflexivity|]. apply EM; (reflexivity || discriminate).
      * change (mode_of (T_thead :: anc)) with M_in_table_body. cbv iota. unfold on_in_table_body. rewrite SH. cbv beta iota.
        unfold to_body_context. rewrite Es. cbn [pop_to]. rewrite (named_in _ _ _ _ EN).
        match goal with |- context [among ?a ?b] => change (among a b) with true end. cbv beta iota. rewrite <- Es, set_stack_id, PH.
        eexists. split; [reflexivity|]. apply EM; (reflexivity || discriminate).
    + (* column group *) exfalso. clear - A2 T. destruct t; try discriminate A2; discriminate T.
    + (* table body *)
      apply among_In in A2. cbn [In] in A2.
      repeat match type of A2 with _ \/ _ => destruct A2 as [A2|A2] end; try contradiction; rewrite <- A2 in *; try discriminate T.
      change (mode_of (T_tr :: anc)) with M_in_row. cbv iota. unfold on_in_row. rewrite SH. cbv beta iota zeta.
      unfold to_row_context. rewrite Es. cbn [pop_to]. rewrite (named_in _ _ _ _ EN).
        match goal with |- context [among ?a ?b] => change (among a b) with true end. cbv beta iota. rewrite <- Es, set_stack_id, CH. cbv beta iota. rewrite PH.
      eexists. split; [reflexivity|]. apply EM; (reflexivity || discriminate).
    + (* row *)
      apply among_In in A2. cbn [In] in A2.
      repeat match type of A2 with _ \/ _ => destruct A2 as [A2|A2] end; try contradiction; rewrite <- A2 in *; try discriminate T.
      * change (mode_of (T_td :: anc)) with M_in_cell. cbv iota. unfold on_in_cell. rewrite SH. cbv beta iota. rewrite (IM eq_refl), PU.
        eexists. split; [reflexivity|]. apply EK; (reflexivity || discriminate).
      * change (mode_of (T_th :: anc)) with M_in_cell. cbv iota. unfold on_in_cell. rewrite SH. cbv beta iota. rewrite (IM eq_refl), PU.
        eexists. split; [reflexivity|]. apply EK; (reflexivity || discriminate).
    + (* select *)
      assert (C : t = T_option \/ t = T_optgroup).
      { apply orb_prop in A2. destruct A2 as [A2|A2]; [exfalso; clear - A2 T; rewrite among_one in A2; apply teqb_eq in A2; rewrite A2 in T; discriminate T|].
        rewrite !andb_true_iff in A2. destruct A2 as [[A2 _] _]. apply among_In in A2. destruct A2 as [<-|[<-|[]]]; auto. }
      exists (popped s). split.
      * destruct C as [C|C]; rewrite C in *.
        -- change (mode_of (T_option :: anc)) with (mode_of anc). rewrite Em. unfold on_in_select. rewrite CH. cbv beta iota. now rewrite PH.
        -- change (mode_of (T_optgroup :: anc)) with (mode_of anc). rewrite Em. unfold on_in_select. rewrite CH. change (teqb T_optgroup T_option) with false. cbv beta iota. rewrite CH. change (teqb T_optgroup T_optgroup) with true. cbv beta iota. now rewrite PH.
      * apply (ended_plain anc t s e st G O A T Es); destruct C as [C|C]; rewrite C; (reflexivity || discriminate).
    + (* select in table *)
      assert (C : t = T_option \/ t = T_optgroup).
      { apply orb_prop in A2. destruct A2 as [A2|A2]; [exfalso; clear - A2 T; rewrite among_one in A2; apply teqb_eq in A2; rewrite A2 in T; discriminate T|].
        rewrite !andb_true_iff in A2. destruct A2 as [[A2 _] _]. apply among_In in A2. destruct A2 as [<-|[<-|[]]]; auto. }
      exists (popped s). split.
      * destruct C as [C|C]; rewrite C in *.
        -- change (mode_of (T_option :: anc)) with (mode_of anc). rewrite Em. unfold on_in_select_in_table, on_in_select. rewrite CH. cbv beta iota. now rewrite PH.
        -- change (mode_of (T_optgroup :: anc)) with (mode_of anc). rewrite Em. unfold on_in_select_in_table, on_in_select. rewrite CH. change (teqb T_optgroup T_option) with false. cbv beta iota. rewrite CH. change (teqb T_optgroup T_optgroup) with true. cbv beta iota. now rewrite PH.
      * apply (ended_plain anc t s e st G O A T Es); destruct C as [C|C]; rewrite C; (reflexivity || discriminate).
Qed.
End End2.
