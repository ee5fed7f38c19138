(** Start tags in flow content. *)
From Coq Require Import ZArith List Bool String Lia.
From Verif Require Import M_infra M_encoding M_labels M_html M_html_serialize M_dom_names M_dom M_dom2 L_html_serialize L_dom L_dom2 L_dom3.
Import ListNotations.
Open Scope Z_scope.
Open Scope dom_scope.
Open Scope list_scope.

Lemma good_same : forall anc s s1, Good anc s ->
  s_dom s1 = s_dom s -> s_stack s1 = s_stack s -> s_active s1 = s_active s -> s_form s1 = s_form s -> s_mode s1 = s_mode s ->
  s_foster s1 = s_foster s -> s_fragment s1 = s_fragment s -> s_templates s1 = s_templates s -> s_slots s1 = s_slots s -> Good anc s1.
Proof. intros anc s s1 G E1 E2 E3 E4 E5 E6 E7 E8 E9. destruct G. constructor; try congruence; rewrite ?E1, ?E2, ?E3, ?E4; assumption. Qed.
Lemma good_frameset : forall anc s b, Good anc s -> Good anc (set_frameset_ok b s).
Proof. intros anc s b G. now apply (good_same anc s). Qed.
Lemma set_stack_id : forall s, set_stack (s_stack s) s = s.
Proof. now destruct s. Qed.

Lemma act_disjoint : forall t, among t formatting_names = true -> among t marker_names = false.
Proof. destruct t; try reflexivity; discriminate. Qed.
Lemma act_erase : forall d i st anc ac n, Act st anc ac -> Act st anc (erase_earliest d i n ac).
Proof.
  intros d i st anc ac n A. revert n. induction A as [|e t st anc ac M A IH|e t st anc ac g M A IH|e t st anc ac M A IH]; intro n; cbn [erase_earliest].
  - constructor.
  - now apply Act_skip.
  - cbn [en_node]. destruct (same_element d i (en_node e)).
    + destruct n as [|[|n]]; [apply Act_in; [exact M|apply IH]|apply Act_skip; [now apply act_disjoint|exact A]|apply Act_in; [exact M|apply IH]].
    + apply Act_in; [exact M|apply IH].
  - now apply Act_mark.
Qed.
Lemma act_push : forall i g s anc st e, Act st anc (s_active s) -> en_node e = i -> forall t, among t formatting_names = true ->
  Act (e :: st) (t :: anc) (s_active (push_formatting i g s)).
Proof.
  intros i g s anc st e A E t F. unfold push_formatting. cbn [s_active set_active]. rewrite <- E. apply Act_in; [exact F|].
  destruct (3 <=? count_same (s_dom s) (en_node e) (s_active s))%nat; [now apply act_erase|exact A].
Qed.
Lemma last_a_none : forall d st anc ac, Act st anc ac -> Names d st anc -> open_a anc = false -> last_a d ac = None.
Proof.
  intros d st anc ac A. unfold open_a.
  induction A as [|e t st anc ac M A IH|e t st anc ac g M A IH|e t st anc ac M A IH]; intros N O; cbn [last_a].
  - reflexivity.
  - inversion N; subst. cbn [meets] in O. rewrite M in O. destruct (among t [T_a]) eqn:E; [discriminate|]. now apply IH.
  - inversion N as [|? ? ? ? H N2]; subst. cbn [meets] in O. rewrite (act_disjoint _ M) in O. cbn [en_node].
    rewrite (named_is _ _ _ _ H). rewrite among_one in O. destruct (teqb t T_a); [discriminate|]. now apply IH.
  - reflexivity.
Qed.
Lemma form_none : forall st anc f, FormAt st anc f -> ~ In T_form anc -> f = None.
Proof.
  induction 1 as [|e st anc N|e st t anc f N H IH]; intro K; [reflexivity| |].
  - elim K. now left.
  - apply IH. intro I. apply K. now right.
Qed.
Lemma form_other : forall e st t anc f, t <> T_form -> FormAt st anc f -> FormAt (e :: st) (t :: anc) f.
Proof. intros. now apply Form_up. Qed.

Lemma implied_id : forall anc s except, Good anc s -> inner_is implied anc = false -> implied_except except s = s.
Proof.
  intros anc s except G H. unfold implied_except. destruct (stack_cons _ _ G) as (e & st & t & an & E & Ea & N & _).
  rewrite E. cbn [drop_implied]. rewrite (named_name _ _ _ N), (named_ns _ _ _ N). rewrite Ea in H. cbn [inner_is] in H. rewrite H.
  rewrite andb_false_r. destruct (match except with Some u => teqb t u | None => false end); rewrite <- E; apply set_stack_id.
Qed.
Lemma implied_self : forall anc s t, Good (t :: anc) s -> implied_except (Some t) s = s.
Proof.
  intros anc s t G. unfold implied_except. destruct (stack_cons _ _ G) as (e & st & u & an & E & Ea & N & _). injection Ea as <- <-.
  rewrite E. cbn [drop_implied]. rewrite (named_name _ _ _ N), teqb_refl. rewrite <- E. apply set_stack_id.
Qed.
Lemma dd_from_id : forall d st anc, Names d st anc -> open_item anc = false -> forall s, s_dom s = d -> dd_from st s = Val s.
Proof.
  intros d st anc N. induction N as [|e t st anc H N IH]; intros O s E; [discriminate O|]. cbn [dd_from]. rewrite E.
  rewrite !(named_is _ _ _ _ H), (named_special _ _ _ H), (named_in _ _ _ _ H). cbn [open_item] in O.
  assert (D : among t [T_dd; T_dt] = teqb t T_dd || teqb t T_dt) by (unfold among; cbn; now rewrite orb_false_r).
  rewrite D in O. destruct (teqb t T_dd); [discriminate|]. destruct (teqb t T_dt); [discriminate|]. cbn [orb] in O.
  destruct (among t special_html && negb (among t [T_address; T_div; T_p])); [reflexivity|]. now apply IH.
Qed.

Definition Started (anc : list tname) (s : st) (g : stag) (t : tname) (attrs : list attr) (s1 : st) : Prop :=
  Good (t :: anc) s1 /\ s_stack s1 = s_stack (opened g (IElement ns_HTML t attrs) s) /\
  s_dom s1 = s_dom (opened g (IElement ns_HTML t attrs) s) /\ s_wanted s1 = s_wanted s /\
  (s_omit_lf s1 = true -> among t [T_pre; T_listing] = true).

Section Starts.
Variable listed : list Z -> bool.
Variable emit : st -> ktok -> outcome st.

Definition is_flow (m : mode) : bool := match m with M_in_body | M_in_cell | M_in_caption => true | _ => false end.
Lemma allowed_flow : forall anc t, is_flow (mode_of anc) = true -> allowed anc t = flow anc t.
Proof. intros anc t H. unfold allowed. destruct (mode_of anc); try discriminate; reflexivity. Qed.

Lemma flow_start : forall anc s g t attrs, Good anc s -> is_flow (mode_of anc) = true -> flow anc t = true ->
  among t (text_names ++ void_tnames) = false -> g_id g = t -> element_for g ns_HTML = Val (IElement ns_HTML t attrs) ->
  s_omit_lf s = false -> exists s1, body_start emit s g = Val s1 /\ Started anc s g t attrs s1.
Proof.
  intros anc s g t attrs G M F T Eid El Om.
  assert (A : allowed anc t = true) by now rewrite allowed_flow.
  assert (GI := fun s0 (G0 : Good anc s0) => insert_el_opened anc s0 g _ G0 El).
  assert (GI' := fun s0 (G0 : Good anc s0) => insert_el'_opened anc s0 g _ G0 El).
  assert (OS : forall s0, Good anc s0 -> other_start g s0 = Val (opened g (IElement ns_HTML t attrs) s0)).
  { intros s0 G0. unfold other_start. rewrite (reconstruct_id _ _ G0). cbv beta iota. now apply GI'. }
  assert (PC : forall s0, Good anc s0 -> open_p anc = false -> p_closed s0 = Val s0) by (intros; now apply (p_closed_id anc)).
  assert (GF : Good anc (set_frameset_ok false s)) by now apply good_frameset.
  pose proof (G_act _ _ G) as GA. pose proof (G_form _ _ G) as GFo. pose proof (G_mode _ _ G) as GM.
  assert (ST : forall s1,
    s_dom s1 = s_dom (opened g (IElement ns_HTML t attrs) s) -> s_stack s1 = s_stack (opened g (IElement ns_HTML t attrs) s) ->
    Act (s_stack s1) (t :: anc) (s_active s1) -> FormAt (s_stack s1) (t :: anc) (s_form s1) -> s_mode s1 = mode_of (t :: anc) ->
    s_foster s1 = s_foster s -> s_fragment s1 = s_fragment s -> s_templates s1 = s_templates s -> s_slots s1 = s_slots s ->
    s_wanted s1 = s_wanted s -> (s_omit_lf s1 = true -> among t [T_pre; T_listing] = true) -> Started anc s g t attrs s1).
  { intros s1 H1 H2 H3 H4 H5 H6 H7 H8 H9 H10 H11. split; [|auto]. exact (good_opened anc s t g attrs s1 G A T H1 H2 H3 H4 H5 H6 H7 H8 H9). }
  assert (PL : forall s1,
    s_dom s1 = s_dom (opened g (IElement ns_HTML t attrs) s) -> s_stack s1 = s_stack (opened g (IElement ns_HTML t attrs) s) ->
    s_active s1 = s_active s -> s_form s1 = s_form s -> s_mode s1 = mode_of (t :: anc) ->
    s_foster s1 = s_foster s -> s_fragment s1 = s_fragment s -> s_templates s1 = s_templates s -> s_slots s1 = s_slots s ->
    s_wanted s1 = s_wanted s -> (s_omit_lf s1 = true -> among t [T_pre; T_listing] = true) ->
    among t marker_names = false -> t <> T_form -> Started anc s g t attrs s1).
  { intros s1 H1 H2 H3 H4 H5 H6 H7 H8 H9 H10 H11 H12 H13. apply ST; try assumption.
    - rewrite H2, H3. apply Act_skip; assumption.
    - rewrite H2, H4. apply Form_up; assumption. }
  assert (PLo : mode_of (t :: anc) = mode_of anc -> among t marker_names = false -> t <> T_form -> forall s0, s0 = s \/ s0 = set_frameset_ok false s ->
    Started anc s g t attrs (opened g (IElement ns_HTML t attrs) s0)).
  { intros Hm H12 H13 s0 [->| ->]; apply PL; try reflexivity; try assumption; [rewrite Hm; exact GM|cbn; rewrite Om; discriminate|rewrite Hm; exact GM|cbn; rewrite Om; discriminate]. }
  unfold body_start. rewrite Eid. destruct t; try discriminate F; try discriminate T; cbv iota;
    cbn [flow] in F; rewrite ?andb_true_iff, ?negb_true_iff in F.
  all: try (rewrite (PC s G F); cbv beta iota; rewrite (GI' s G); eexists; split; [reflexivity|]; apply PLo; [reflexivity|reflexivity|discriminate|now left]).
  all: try (rewrite (OS s G); eexists; split; [reflexivity|]; apply PLo; [reflexivity|reflexivity|discriminate|now left]).
  (* formatting *)
  all: try (rewrite (reconstruct_id _ _ G); cbv beta iota; rewrite (GI s G); cbv beta iota; eexists; split; [reflexivity|];
            apply ST; try reflexivity;
            [ apply (act_push _ _ (opened g _ s)); [exact GA|reflexivity|reflexivity]
            | now apply Form_up | exact GM | cbn; rewrite Om; discriminate ]).
  (* markers *)
  all: try (rewrite (reconstruct_id _ _ G); cbv beta iota; rewrite (GI' s G); cbv beta iota; eexists; split; [reflexivity|];
            apply ST; try reflexivity;
            [ now apply Act_mark | now apply Form_up | exact GM | cbn; rewrite Om; discriminate ]).
  (* headings *)
  all: try (destruct F as [F1 F2]; rewrite (PC s G F1); cbv beta iota; rewrite (cur_top _ _ G); cbv beta iota;
            destruct (stack_cons _ _ G) as (e & st & u & an & Es & Ea & N & _);
            replace (is_html_in headings (s_dom s) (top s)) with false
              by (unfold top; rewrite Es, (named_in _ _ _ _ N); rewrite Ea in F2; symmetry; exact F2);
            rewrite (GI' s G); eexists; split; [reflexivity|]; apply PLo; [reflexivity|reflexivity|discriminate|now left]).
  (* options *)
  all: try (destruct (stack_cons _ _ G) as (e & st & u & an & Es & Ea & N & _);
            rewrite (cur_is_name _ _ G u T_option an Ea); rewrite Ea in F; cbn [inner_is] in F; rewrite among_one in F; rewrite F; cbv beta iota;
            rewrite (OS s G); eexists; split; [reflexivity|]; apply PLo; [reflexivity|reflexivity|discriminate|now left]).
  (* pre, listing *)
  all: try (rewrite (PC s G F); cbv beta iota; rewrite (GI' s G); eexists; split; [reflexivity|]; apply PL; try reflexivity; [exact GM|discriminate]).
  (* dd, dt *)
  all: try (destruct F as [F1 F2]; cbv zeta; rewrite (dd_from_id (s_dom s) _ anc (G_names _ _ GF) F2 (set_frameset_ok false s) eq_refl);
            cbv beta iota; rewrite (PC _ GF F1); cbv beta iota; rewrite (GI' _ GF); eexists; split; [reflexivity|];
            apply PLo; [reflexivity|reflexivity|discriminate|now right]).
  (* ruby *)
  all: try (rewrite (in_default _ _ G); cbv beta iota; fold (open_ruby anc); rewrite orb_true_iff, !negb_true_iff in F;
            replace (if open_ruby anc then implied_end_tags s else s) with s
              by (destruct F as [F|F]; [rewrite F; reflexivity|destruct (open_ruby anc); [symmetry; exact (implied_id anc s None G F)|reflexivity]]);
            rewrite (GI' s G); eexists; split; [reflexivity|]; apply PLo; [reflexivity|reflexivity|discriminate|now left]).
  all: try (rewrite (in_default _ _ G); cbv beta iota; fold (open_ruby anc); rewrite orb_true_iff, !negb_true_iff in F;
            replace (if open_ruby anc then implied_except (Some T_rtc) s else s) with s
              by (destruct F as [F|F]; [rewrite F; reflexivity|destruct (open_ruby anc); [symmetry; exact (implied_id anc s (Some T_rtc) G F)|reflexivity]]);
            rewrite (GI' s G); eexists; split; [reflexivity|]; apply PLo; [reflexivity|reflexivity|discriminate|now left]).
  - (* a *)
    rewrite (last_a_none _ _ _ _ GA (G_names _ _ G) F). cbv beta iota zeta. rewrite (reconstruct_id _ _ G). cbv beta iota.
    rewrite (GI s G). cbv beta iota. eexists. split; [reflexivity|]. apply ST; try reflexivity.
    + apply (act_push _ _ (opened g _ s)); [exact GA|reflexivity|reflexivity].
    + now apply Form_up.
    + exact GM.
    + cbn. rewrite Om. discriminate.
  - (* button *)
    rewrite (in_default _ _ G). cbv beta iota. fold (open_p_wide anc). rewrite F. cbv beta iota zeta.
    rewrite (reconstruct_id _ _ G). cbv beta iota. rewrite (GI' s G). cbv beta iota. eexists. split; [reflexivity|].
    apply PL; try reflexivity; [exact GM|cbn; rewrite Om; discriminate|discriminate].
  - (* form *)
    destruct F as [F1 F2].
    assert (NF : ~ In T_form anc).
    { intro I. apply among_In in I. congruence. }
    rewrite (form_none _ _ _ GFo NF). cbv beta iota. rewrite (PC s G F1). cbv beta iota. rewrite (GI s G). cbv beta iota.
    replace (contains T_template (opened g (IElement ns_HTML T_form attrs) s)) with false.
    2:{ symmetry. unfold contains. cbn [opened s_stack s_dom set_stack set_dom existsb].
        rewrite (contains_names _ _ _ _ (names_open _ _ _ _ _ (G_names _ _ G))), (ok_no_template _ (G_ok _ _ G)), orb_false_r.
        cbn [en_node]. unfold is_html, is_el, ns_of, name_of.
        rewrite <- (PeanoNat.Nat.add_0_r (List.length (s_dom s))) at 2 4.
        rewrite <- (change_length (s_dom s) (top s) (add_kids [List.length (s_dom s)])) at 2 4. rewrite cell_app2. reflexivity. }
    eexists. split; [reflexivity|]. apply ST; try reflexivity.
    + apply Act_skip; [reflexivity|exact GA].
    + cbn [opened s_stack s_form set_form set_stack set_dom].
      exact (Form_here (Entry g (List.length (s_dom s))) (s_stack s) anc NF).
    + exact GM.
    + cbn. rewrite Om. discriminate.
  - (* li *)
    destruct F as [F1 F2]. destruct (stack_cons _ _ G) as (e & st & u & an & Es & Ea & N & _).
    cbn [s_stack set_frameset_ok]. rewrite Es. cbn [s_dom set_frameset_ok]. rewrite (named_is _ _ _ _ N), (named_special _ _ _ N), (named_in _ _ _ _ N).
    rewrite Ea in F2. cbn [inner_is] in F2. rewrite among_one in F2. rewrite F2.
    destruct (among u special_html && among u [T_address; T_div; T_p]).
    + rewrite (OS _ GF). eexists. split; [reflexivity|]. apply PLo; [reflexivity|reflexivity|discriminate|now right].
    + rewrite (PC _ GF F1). cbv beta iota. rewrite (GI' _ GF). eexists. split; [reflexivity|].
      apply PLo; [reflexivity|reflexivity|discriminate|now right].
  - (* nobr *)
    rewrite (reconstruct_id _ _ G). cbv beta iota. rewrite (in_default _ _ G). fold (open_nobr anc). rewrite F. cbv beta iota.
    rewrite (GI s G). cbv beta iota. eexists. split; [reflexivity|]. apply ST; try reflexivity.
    + apply (act_push _ _ (opened g _ s)); [exact GA|reflexivity|reflexivity].
    + now apply Form_up.
    + exact GM.
    + cbn. rewrite Om. discriminate.
  - (* select *)
    rewrite (reconstruct_id _ _ G). cbv beta iota. rewrite (GI' s G). cbv beta iota. eexists. split; [reflexivity|].
    apply PL; try reflexivity; [|cbn; rewrite Om; discriminate|discriminate].
    cbn [s_mode set_mode set_frameset_ok opened set_stack set_dom]. rewrite GM.
    change (mode_of (T_select :: anc)) with (match mode_of anc with M_in_cell | M_in_caption => M_in_select_in_table | _ => M_in_select end).
    destruct (mode_of anc); try discriminate M; reflexivity.
  - (* table *)
    replace (if s_quirks s then Val s else p_closed s) with (Val s) by (rewrite (PC s G F); now destruct (s_quirks s)).
    cbv beta iota. rewrite (GI' s G). cbv beta iota. eexists. split; [reflexivity|].
    apply PL; try reflexivity; [cbn; rewrite Om; discriminate|discriminate].
Qed.
End Starts.
