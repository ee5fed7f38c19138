(** Start tags: tables, selects, empty elements, and elements that hold text. *)
From Coq Require Import ZArith List Bool String Lia.
From Verif Require Import M_infra M_encoding M_labels M_html M_html_serialize M_dom_names M_dom M_dom2 L_html_serialize L_dom L_dom2 L_dom3 L_dom4.
Import ListNotations.
Open Scope Z_scope.
Open Scope dom_scope.
Open Scope list_scope.

(** *** What the insertion mode says about the current node *)

Lemma mode_head : forall anc, Ok anc -> exists t an, anc = t :: an /\ mode_of anc =
  match t with
  | T_head => M_in_head | T_body => M_in_body
  | T_table => M_in_table | T_caption => M_in_caption | T_colgroup => M_in_column_group
  | T_tbody | T_thead | T_tfoot => M_in_table_body | T_tr => M_in_row | T_td | T_th => M_in_cell
  | T_select => match mode_of an with M_in_cell | M_in_caption => M_in_select_in_table | _ => M_in_select end
  | _ => mode_of an
  end /\ (among t [T_head; T_body] = false -> Ok an /\ allowed an t = true).
Proof.
  intros anc O. inversion O as [E|E|t an O2 A T E].
  - exists T_body, [T_html]. repeat split; discriminate.
  - exists T_head, [T_html]. repeat split; discriminate.
  - exists t, an. split; [reflexivity|]. split; [|intro; now split]. pose proof (allowed_not _ _ A) as N.
    cbn [mode_of]. rewrite T. destruct t; try discriminate N; reflexivity.
Qed.
(** elements that leave the mode as it is *)
Definition passing (t : tname) : bool :=
  negb (among t [T_head; T_body; T_table; T_caption; T_colgroup; T_tbody; T_thead; T_tfoot; T_tr; T_td; T_th; T_select]).
Lemma mode_passing : forall an t, passing t = true -> allowed an t = true -> among t (text_names ++ void_tnames) = false ->
  mode_of (t :: an) = mode_of an.
Proof.
  intros an t P A T. pose proof (allowed_not _ _ A) as N. cbn [mode_of]. rewrite T. destruct t; try reflexivity; try discriminate P; discriminate N.
Qed.
Lemma table_head : forall anc, Ok anc -> match mode_of anc with
  | M_in_table => exists an, anc = T_table :: an
  | M_in_column_group => exists an, anc = T_colgroup :: an
  | M_in_table_body => exists t an, anc = t :: an /\ among t [T_tbody; T_thead; T_tfoot] = true
  | M_in_row => exists an, anc = T_tr :: an
  | M_in_head => exists an, anc = T_head :: an
  | M_in_select | M_in_select_in_table => exists t an, anc = t :: an /\ among t [T_select; T_option; T_optgroup] = true
  | _ => True
  end.
Proof.
  intros anc O. inversion O as [E|E|t an O2 A T E].
  - exact I.
  - cbn. now eexists.
  - destruct (passing t) eqn:P.
    + rewrite (mode_passing an t P A T). pose proof A as A2. unfold allowed in A2.
      assert (D : forall l, among t l = true -> forallb (fun u => negb (passing u) || among u (text_names ++ void_tnames)) l = true -> False).
      { intros l H1 H2. apply among_In in H1. rewrite forallb_forall in H2. specialize (H2 t H1). rewrite P, T in H2. discriminate. }
      destruct (mode_of an) eqn:M; try exact I; try (exfalso; eapply D; [exact A2|reflexivity]).
      * exists t, an. split; [reflexivity|]. apply orb_prop in A2. destruct A2 as [A2|A2]; [exfalso; eapply D; [exact A2|reflexivity]|].
        rewrite !andb_true_iff in A2. destruct A2 as [[A2 _] _]. apply among_In in A2. destruct A2 as [<-|[<-|[]]]; reflexivity.
      * exists t, an. split; [reflexivity|]. apply orb_prop in A2. destruct A2 as [A2|A2]; [exfalso; eapply D; [exact A2|reflexivity]|].
        rewrite !andb_true_iff in A2. destruct A2 as [[A2 _] _]. apply among_In in A2. destruct A2 as [<-|[<-|[]]]; reflexivity.
    + unfold passing in P. rewrite negb_false_iff in P. cbn [mode_of]. rewrite T.
      destruct t; try discriminate P; try (pose proof (allowed_not _ _ A); discriminate); try exact I; try (repeat eexists; reflexivity).
      destruct (mode_of an); repeat eexists; reflexivity.
Qed.

Lemma insert_any : forall s g x, s_foster s = false -> s_stack s <> [] -> element_for g ns_HTML = Val x -> insert_el' g s = Val (opened g x s).
Proof.
  intros s g x F N E. unfold insert_el', insert_el, insert_foreign, cur, place_for, opened, top. destruct (s_stack s) as [|e st]; [contradiction|].
  cbv beta iota. rewrite F. cbn [andb]. cbv beta iota. rewrite E. cbv beta iota. rewrite insert_end. reflexivity.
Qed.
Lemma not_table : forall (A : Type) anc t (x y : A), flow anc t = true ->
  match t with T_caption | T_col | T_colgroup | T_tbody | T_td | T_tfoot | T_th | T_thead | T_tr => x | _ => y end = y.
Proof. intros A anc t x y F. destruct t; try reflexivity; discriminate F. Qed.

Section Starts.
Variable listed : list Z -> bool.
Variable emit : st -> ktok -> outcome st.

Lemma flow_dispatch : forall anc s g, Good anc s -> is_flow (mode_of anc) = true -> flow anc (g_id g) = true ->
  in_mode listed emit s (KStart g) = body_start emit s g.
Proof.
  intros anc s g G M F. unfold in_mode. rewrite (G_mode _ _ G). destruct (mode_of anc) eqn:E; try discriminate M.
  - reflexivity.
  - unfold on_in_caption. rewrite (not_table _ anc); [reflexivity|exact F].
  - unfold on_in_cell. rewrite (not_table _ anc); [reflexivity|exact F].
Qed.

Theorem start_ok : forall anc s g t attrs, Good anc s -> allowed anc t = true ->
  among t (text_names ++ void_tnames) = false -> g_id g = t -> element_for g ns_HTML = Val (IElement ns_HTML t attrs) ->
  s_omit_lf s = false -> exists s1, in_mode listed emit s (KStart g) = Val s1 /\ Started anc s g t attrs s1.
Proof.
  intros anc s g t attrs G A T Eid El Om.
  destruct (is_flow (mode_of anc)) eqn:M.
  { rewrite (flow_dispatch anc s g G M); [|rewrite Eid, <- allowed_flow; assumption].
    apply flow_start; try assumption. now rewrite <- allowed_flow. }
  assert (GI := fun s0 F N => insert_any s0 g _ F N El).
  pose proof (G_act _ _ G) as GA. pose proof (G_form _ _ G) as GFo. pose proof (G_mode _ _ G) as GM. pose proof (G_foster _ _ G) as GF.
  destruct (stack_cons _ _ G) as (e & st & u & an & Es & Ea & N & NS).
  assert (SN : s_stack s <> []) by (rewrite Es; discriminate).
  assert (ST : forall s1,
    s_dom s1 = s_dom (opened g (IElement ns_HTML t attrs) s) -> s_stack s1 = s_stack (opened g (IElement ns_HTML t attrs) s) ->
    s_active s1 = (if among t marker_names then None :: s_active s else s_active s) ->
    s_form s1 = s_form s -> s_mode s1 = mode_of (t :: anc) ->
    s_foster s1 = s_foster s -> s_fragment s1 = s_fragment s -> s_templates s1 = s_templates s -> s_slots s1 = s_slots s ->
    s_wanted s1 = s_wanted s -> s_omit_lf s1 = s_omit_lf s -> t <> T_form -> Started anc s g t attrs s1).
  { intros s1 H1 H2 H3 H4 H5 H6 H7 H8 H9 H10 H11 H13. split; [|repeat split; auto; rewrite H11, Om; discriminate].
    apply (good_opened anc s t g attrs s1 G A T H1 H2); try assumption.
    - rewrite H2, H3. destruct (among t marker_names) eqn:E; [now apply Act_mark|now apply Act_skip].
    - rewrite H2, H4. apply Form_up; assumption. }
  assert (TC : to_table_context s = s \/ u <> T_table).
  { destruct (teqb u T_table) eqn:E; [left|right; intros ->; now rewrite teqb_refl in E]. apply teqb_eq in E. subst u.
    unfold to_table_context. rewrite Es. cbn [to_table]. rewrite (named_ns _ _ _ N), (named_name _ _ _ N). cbn. rewrite <- Es. apply set_stack_id. }
  unfold in_mode. rewrite GM. pose proof (table_head anc (G_ok _ _ G)) as H. pose proof A as A2. unfold allowed in A2.
  destruct (mode_of anc) eqn:Em; try discriminate A2; try discriminate M.
  - (* head *) exfalso. destruct t; try discriminate A2; discriminate T.
  - (* table *) destruct H as (an2 & H). rewrite Ea in H. injection H as -> ->. destruct TC as [TC|TC]; [|now elim TC].
    unfold on_in_table. rewrite Eid, TC. destruct t; try discriminate A2; try discriminate T; cbv iota; rewrite GI by assumption; cbv beta iota;
      (eexists; split; [reflexivity|apply ST; try reflexivity; discriminate]).
  - (* column group *) exfalso. destruct t; try discriminate A2; discriminate T.
  - (* table body *) destruct H as (v & an2 & H & Hv). rewrite Ea in H. injection H as -> ->.
    assert (TB : to_body_context s = Val s).
    { unfold to_body_context. rewrite Es. cbn [pop_to]. rewrite (named_in _ _ _ _ N).
      replace (among v [T_tbody; T_tfoot; T_thead; T_template; T_html]) with true by (destruct v; try reflexivity; discriminate Hv).
      cbv beta iota. rewrite <- Es. now rewrite set_stack_id. }
    unfold on_in_table_body. rewrite Eid, TB. destruct t; try discriminate A2; try discriminate T; cbv iota; rewrite GI by assumption; cbv beta iota;
      (eexists; split; [reflexivity|apply ST; try reflexivity; discriminate]).
  - (* row *) destruct H as (an2 & H). rewrite Ea in H. injection H as -> ->.
    assert (TB : to_row_context s = Val s).
    { unfold to_row_context. rewrite Es. cbn [pop_to]. rewrite (named_in _ _ _ _ N). cbn.
      rewrite <- Es. now rewrite set_stack_id. }
    unfold on_in_row. rewrite Eid, TB. destruct t; try discriminate A2; try discriminate T; cbv iota; rewrite GI by assumption; cbv beta iota;
      (eexists; split; [reflexivity|apply ST; try reflexivity; discriminate]).
  - (* select *) clear TC H. rewrite Ea in A2. cbn [inner_is] in A2. rewrite !among_one in A2.
    unfold on_in_select. rewrite Eid, !(cur_is_name _ _ G u _ an Ea). destruct t; try discriminate A2; try discriminate T; cbv iota; cbn in A2.
    + destruct (teqb u T_option); [discriminate|]. destruct (teqb u T_optgroup) eqn:Eu; [discriminate|]. cbv beta iota.
      rewrite (cur_is_name _ _ G u _ an Ea), Eu. cbv beta iota. rewrite GI by assumption. eexists; split; [reflexivity|apply ST; try reflexivity; try discriminate].
      cbn [s_mode opened set_stack set_dom]. rewrite GM. symmetry. exact Em.
    + destruct (teqb u T_option); [discriminate|]. cbv beta iota.
      rewrite GI by assumption. eexists; split; [reflexivity|apply ST; try reflexivity; try discriminate].
      cbn [s_mode opened set_stack set_dom]. rewrite GM. symmetry. exact Em.
  - (* select in table *) clear TC H. rewrite Ea in A2. cbn [inner_is] in A2. rewrite !among_one in A2.
    unfold on_in_select_in_table, on_in_select. rewrite Eid, !(cur_is_name _ _ G u _ an Ea). destruct t; try discriminate A2; try discriminate T; cbv iota; cbn in A2.
    + destruct (teqb u T_option); [discriminate|]. destruct (teqb u T_optgroup) eqn:Eu; [discriminate|]. cbv beta iota.
      rewrite (cur_is_name _ _ G u _ an Ea), Eu. cbv beta iota. rewrite GI by assumption. eexists; split; [reflexivity|apply ST; try reflexivity; try discriminate].
      cbn [s_mode opened set_stack set_dom]. rewrite GM. symmetry. exact Em.
    + destruct (teqb u T_option); [discriminate|]. cbv beta iota.
      rewrite GI by assumption. eexists; split; [reflexivity|apply ST; try reflexivity; try discriminate].
      cbn [s_mode opened set_stack set_dom]. rewrite GM. symmetry. exact Em.
Qed.
End Starts.

(** *** Empty elements *)

Definition Same (anc : list tname) (s : st) (l : list node) (s1 : st) : Prop :=
  Good anc s1 /\ s_stack s1 = s_stack s /\ s_dom s1 = grow (s_dom s) (top s) l /\ s_wanted s1 = s_wanted s /\ s_omit_lf s1 = s_omit_lf s.
Lemma same_appended : forall anc s l, Good anc s -> Same anc s l (appended l s).
Proof. intros anc s l G. split; [now apply good_grow|]. repeat split. Qed.
Lemma same_frameset : forall anc s l s1 b, Same anc s l s1 -> Same anc s l (set_frameset_ok b s1).
Proof. intros anc s l s1 b (G & H). split; [now apply good_frameset|exact H]. Qed.
Lemma insert_void_ok : forall anc s g p l attrs, Good anc s -> element_for g ns_HTML = Val (IElement ns_HTML (tname_of l) attrs) ->
  insert_void g s = Val (appended [NElement ns_HTML p l attrs []] s).
Proof.
  intros anc s g p l attrs G E. unfold insert_void. rewrite (insert_el'_opened anc s g _ G E). cbv beta iota. unfold pop, opened. cbn [s_stack set_stack].
  reflexivity.
Qed.

(** *** Elements that hold text *)

Definition reading_of (t : tname) : reading :=
  match t with T_title | T_textarea => R_rcdata | T_script => R_script | _ => R_rawtext end.
Definition InText (anc : list tname) (s : st) (g : stag) (t : tname) (attrs : list attr) (s1 : st) : Prop :=
  s_stack s1 = s_stack (opened g (IElement ns_HTML t attrs) s) /\ s_dom s1 = s_dom (opened g (IElement ns_HTML t attrs) s) /\
  s_active s1 = s_active s /\ s_form s1 = s_form s /\ s_mode s1 = M_text /\ s_original s1 = mode_of anc /\
  s_foster s1 = s_foster s /\ s_fragment s1 = s_fragment s /\ s_templates s1 = s_templates s /\ s_slots s1 = s_slots s /\
  s_wanted s1 = Some (reading_of t) /\ (s_omit_lf s1 = true -> t = T_textarea).

Section Others.
Variable listed : list Z -> bool.
Variable emit : st -> ktok -> outcome st.

Theorem void_ok : forall anc s g p l attrs, Good anc s -> allowed anc (tname_of l) = true ->
  among (tname_of l) void_tnames = true -> g_id g = tname_of l -> element_for g ns_HTML = Val (IElement ns_HTML (tname_of l) attrs) ->
  exists s1, in_mode listed emit s (KStart g) = Val s1 /\ Same anc s [NElement ns_HTML p l attrs []] s1.
Proof.
  intros anc s g p l attrs G A T Eid El.
  assert (IV := insert_void_ok anc s g p l attrs G El). assert (SA := same_appended anc s [NElement ns_HTML p l attrs []] G).
  assert (R := reconstruct_id _ _ G).
  assert (HD : forall s1, s1 = appended [NElement ns_HTML p l attrs []] s \/ (exists b, s1 = set_frameset_ok b (appended [NElement ns_HTML p l attrs []] s)) ->
    Same anc s [NElement ns_HTML p l attrs []] s1).
  { intros s1 [->|[b ->]]; [exact SA|now apply same_frameset]. }
  destruct (is_flow (mode_of anc)) eqn:M.
  - assert (F : flow anc (tname_of l) = true) by now rewrite <- allowed_flow.
    rewrite (flow_dispatch listed emit anc s g G M) by now rewrite Eid.
    unfold body_start. rewrite Eid. destruct (tname_of l); try discriminate T; try discriminate F; cbv iota;
      unfold on_in_head; rewrite ?Eid; cbv iota; rewrite ?R; cbv beta iota;
      try (rewrite (p_closed_id _ _ G) by (cbn [flow] in F; now rewrite negb_true_iff in F)); cbv beta iota; rewrite IV; cbv beta iota;
      (eexists; split; [reflexivity|]; try destruct (is_hidden g); apply HD; eauto).
  - unfold in_mode. rewrite (G_mode _ _ G). unfold allowed in A. apply among_In in T. cbn [In void_tnames] in T.
    repeat match type of T with _ \/ _ => destruct T as [T|T] end; try contradiction; rewrite <- T in A;
    destruct (mode_of anc); try discriminate A; try discriminate M;
    unfold on_in_head, on_in_column_group; rewrite Eid, <- T; cbv iota; rewrite IV; (eexists; split; [reflexivity|apply HD; eauto]).
Qed.

Theorem text_ok : forall anc s g t attrs, Good anc s -> allowed anc t = true -> among t text_names = true ->
  g_id g = t -> element_for g ns_HTML = Val (IElement ns_HTML t attrs) -> s_omit_lf s = false ->
  exists s1, in_mode listed emit s (KStart g) = Val s1 /\ InText anc s g t attrs s1.
Proof.
  intros anc s g t attrs G A T Eid El Om.
  assert (GI := insert_el'_opened anc s g _ G El). assert (GI2 := insert_el'_opened anc _ g _ (good_frameset _ _ false G) El).
  assert (R := reconstruct_id _ _ G). pose proof (G_mode _ _ G) as GM.
  assert (P : flow anc t = true -> t = T_xmp -> p_closed s = Val s).
  { intros F ->. apply (p_closed_id _ _ G). cbn [flow] in F. now rewrite negb_true_iff in F. }
  assert (W : forall s1, s_stack s1 = s_stack (opened g (IElement ns_HTML t attrs) s) -> s_dom s1 = s_dom (opened g (IElement ns_HTML t attrs) s) ->
    s_active s1 = s_active s -> s_form s1 = s_form s -> s_mode s1 = M_text -> s_original s1 = s_mode s ->
    s_foster s1 = s_foster s -> s_fragment s1 = s_fragment s -> s_templates s1 = s_templates s -> s_slots s1 = s_slots s ->
    s_wanted s1 = Some (reading_of t) -> s_omit_lf s1 = (teqb t T_textarea || s_omit_lf s) -> InText anc s g t attrs s1).
  { intros s1 H1 H2 H3 H4 H5 H6 H7 H8 H9 H10 H11 H12. unfold InText. rewrite H6, GM. repeat split; try assumption.
    rewrite H12, Om, orb_false_r. apply teqb_eq. }
  destruct (is_flow (mode_of anc)) eqn:M.
  - assert (F : flow anc t = true) by now rewrite <- allowed_flow.
    rewrite (flow_dispatch listed emit anc s g G M) by now rewrite Eid.
    unfold body_start. rewrite Eid. destruct t; try discriminate T; try discriminate F; cbv iota;
      try rewrite (P F eq_refl); cbv beta iota; rewrite ?R; cbv beta iota;
      unfold on_in_head, raw_text, rcdata; rewrite ?Eid; cbv iota; rewrite ?GI, ?GI2; cbv beta iota;
      (eexists; split; [reflexivity|]; apply W; reflexivity).
  - assert (HT : among t [T_title; T_noframes; T_style; T_script] = true ->
      exists s1, on_in_head emit s (KStart g) = Val s1 /\ InText anc s g t attrs s1).
    { intro C. apply among_In in C. unfold on_in_head, raw_text, rcdata. rewrite Eid. cbn [In] in C.
      repeat match type of C with _ \/ _ => destruct C as [C|C] end; try contradiction; rewrite <- C in GI, W |- *; cbv iota; rewrite ?GI; cbv beta iota;
      (eexists; split; [reflexivity|]; apply W; reflexivity). }
    unfold in_mode. rewrite (G_mode _ _ G). apply among_In in T. unfold allowed in A. cbn [In text_names] in T.
    repeat match type of T with _ \/ _ => destruct T as [T|T] end; try contradiction; rewrite <- T in A, HT;
      destruct (mode_of anc); try discriminate A; try discriminate M; specialize (HT eq_refl);
      first [ rewrite <- T; exact HT
            | replace (on_in_table emit s (KStart g)) with (on_in_head emit s (KStart g)) by (unfold on_in_table; rewrite Eid, <- T; reflexivity); rewrite <- T; exact HT
            | replace (on_in_table_body emit s (KStart g)) with (on_in_head emit s (KStart g)) by (unfold on_in_table_body, on_in_table; rewrite Eid, <- T; reflexivity); rewrite <- T; exact HT
            | replace (on_in_row emit s (KStart g)) with (on_in_head emit s (KStart g)) by (unfold on_in_row, on_in_table; rewrite Eid, <- T; reflexivity); rewrite <- T; exact HT
            | replace (on_in_select emit s (KStart g)) with (on_in_head emit s (KStart g)) by (unfold on_in_select; rewrite Eid, <- T; reflexivity); rewrite <- T; exact HT
            | replace (on_in_select_in_table emit s (KStart g)) with (on_in_head emit s (KStart g)) by (unfold on_in_select_in_table, on_in_select; rewrite Eid, <- T; reflexivity); rewrite <- T; exact HT ].
Qed.
End Others.
