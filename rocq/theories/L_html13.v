(** Whatever the text, references by number and a CR at the end included: where the push machine has got to is a place that
    reading gets to.  The tags, the end of the text and the newlines without conditions on references. *)
From Coq Require Import ZArith List Bool Lia String.
From Verif Require Import M_infra M_encoding M_labels M_html M_html_ncr M_html_serialize L_html_names L_html1 L_html2 L_html5 L_html3 L_html4 L_html6 L_html7 L_html8 L_html9 L_html10 L_html_ncr3 L_html11 L_html12.
Import ListNotations.
Open Scope Z_scope.
Open Scope html_scope.

Notation ec m := (s_eof_consumed (m_s m)).
Notation buf m := (s_c (m_s m)).

Section Any.
Variable switch : list token -> option state.
Hypothesis switch_text : text_switch switch.
Variable cdata : list token -> bool.

Notation pstep := (pstep switch cdata match_ncr).
Notation psteps := (psteps switch cdata match_ncr).
Notation phalts := (phalts switch cdata match_ncr).
Notation handler := (handler switch cdata match_ncr).
Notation run := (run switch cdata match_ncr).

Ltac unfolds H :=
  cbv beta delta [on_data on_RCDATA on_RAWTEXT on_script_data on_PLAINTEXT on_tag_open on_end_tag_open on_tag_name
    on_less_than_sign on_text_end_tag_open on_text_end_tag_name on_script_data_less_than_sign
    on_script_data_escape_start on_script_data_escape_start_dash on_script_data_escaped on_script_data_escaped_dash
    on_script_data_escaped_dash_dash on_script_data_escaped_less_than_sign on_script_data_double_escape
    on_script_data_double_escaped on_script_data_double_escaped_dash on_script_data_double_escaped_dash_dash
    on_script_data_double_escaped_less_than_sign on_before_attribute_name on_attribute_name on_after_attribute_name
    on_before_attribute_value on_attribute_value_quoted on_attribute_value_unquoted on_after_attribute_value_quoted
    on_self_closing_start_tag on_bogus_comment on_comment_start on_comment_start_dash on_comment
    on_comment_less_than_sign on_comment_less_than_sign_bang on_comment_less_than_sign_bang_dash
    on_comment_less_than_sign_bang_dash_dash on_comment_end_dash on_comment_end on_comment_end_bang on_DOCTYPE
    on_before_DOCTYPE_name on_DOCTYPE_name on_after_DOCTYPE_keyword on_before_DOCTYPE_identifier
    on_DOCTYPE_identifier on_after_DOCTYPE_public_identifier on_between_DOCTYPE_identifiers
    on_after_DOCTYPE_system_identifier on_bogus_DOCTYPE on_CDATA_section on_CDATA_section_bracket
    on_CDATA_section_end on_character_reference on_ambiguous_ampersand on_numeric_character_reference
    on_reference_start on_hexadecimal_character_reference on_decimal_character_reference
    stay go again again_return stay'] in H.

Ltac split_ifs H :=
  repeat (cbv beta iota zeta in H;
    match type of H with
    | context [if ?b then _ else _] => destruct b eqn:?
    | context [match ?e with Some _ => _ | None => _ end] => destruct e eqn:?
    end); try discriminate H.
(** what the end of the text leaves as it is *)
Record Same (t t1 : tok) : Prop := MkSame { Sm_state : t_state t1 = t_state t; Sm_id : t_id t1 = t_id t; Sm_start : t_start t1 = t_start t;
  Sm_end : t_end t1 = t_end t; Sm_return : t_return t1 = t_return t }.
Lemma ordinary_halts t t1 : ordinary switch t None = Some (t1, false) -> Same t t1.
Proof.
  intro H. unfold ordinary in H. destruct (t_state t) eqn:Es; try discriminate H; unfolds H; split_ifs H;
    inversion H; subst; constructor; first [reflexivity|cbn; congruence].
Qed.
Lemma pstep_halts t r t1 : pstep t r = Some (Halt t1) -> r = [] /\ Same t t1 /\ halted t1.
Proof.
  unfold L_html1.pstep. destruct (t_state t) eqn:Es.
  all: try match type of Es with _ = markup_declaration_open_state =>
    intro H; exfalso; revert H; repeat match goal with |- context [if ?b then _ else _] => destruct b end; discriminate end.
  all: try match type of Es with _ = after_DOCTYPE_name_state =>
    destruct r as [|c r]; [|intro H; exfalso; revert H; repeat match goal with |- context [if ?b then _ else _] => destruct b end; discriminate];
    intro H; inversion H; subst; split; [reflexivity|]; split; [constructor; reflexivity|]; split; [|split]; cbn; congruence end.
  all: try match type of Es with _ = named_character_reference_state =>
    destruct (match_ncr r) as [[[|k] a]|]; [| |discriminate];
    [destruct (flush_reference t); discriminate|destruct (nth_error r k); [|discriminate]; cbv zeta;
     match goal with |- context [flush_reference ?x] => destruct (flush_reference x) as [t3|]; [|discriminate] end; destruct (to_return t3); discriminate] end.
  all: try match type of Es with _ = numeric_character_reference_end_state =>
    destruct (flush_reference _) as [t3|]; [|discriminate]; destruct (to_return t3); discriminate end.
  all: destruct r as [|c r]; [|destruct (ordinary switch t (Some c)) as [[? ?]|]; discriminate];
    destruct (ordinary switch t None) as [[t2 [|]]|] eqn:Eo; [discriminate| |discriminate]; intro H; inversion H; subst t2;
    pose proof (ordinary_halts t t1 Eo) as S; split; [reflexivity|]; split; [exact S|]; destruct S as [S _ _ _ _]; split; [|split]; rewrite S, Es; discriminate.
Qed.

Section Carried.
Variable whole : list Z.
Variable t0 : tok.
Variable Inv : tok -> list Z -> Prop.
Hypothesis start : Inv t0 whole.
Hypothesis next : forall t r t1 r1, Inv t r -> pstep t r = Some (Next t1 r1) -> Inv t1 r1.
Hypothesis halt : forall t t1, Inv t [] -> pstep t [] = Some (Halt t1) -> Inv t1 [].
Lemma carried_steps t r t1 r1 : psteps t r t1 r1 -> Inv t r -> Inv t1 r1.
Proof. intro P. induction P as [|t r t1 r1 t2 r2 E P IH]; [auto|]. intro H. apply IH. exact (next _ _ _ _ H E). Qed.
Lemma carried_halts t r t1 : phalts t r t1 -> Inv t r -> Inv t1 [] /\ halted t1.
Proof.
  intros (t2 & r2 & P & E) H. apply (carried_steps _ _ _ _ P) in H. destruct (pstep_halts _ _ _ E) as (-> & _ & H2). split; [|exact H2]. exact (halt _ _ H E).
Qed.
(** between two code points *)
Definition at_rest (m : machine) (fut : list Z) : Prop := ec m = false /\ s_eof (m_s m) = false /\ Inv (m_t m) (buf m ++ fut).
Lemma sim fuel e m m1 fut : run fuel e m = Val m1 -> ec m = false -> (s_eof (m_s m) = true -> fut = []) -> reaches switch cdata match_ncr m m1 fut.
Proof.
  exact (run_sim switch cdata match_ncr (fun b len a K => proj1 (match_length b len a K)) (fun b len a K => proj2 (match_length b len a K)) match_local fuel e m m1 fut).
Qed.
Lemma rest_emit fuel c m m1 fut : emit_code_point switch cdata match_ncr fuel c m = Val m1 -> at_rest m (c :: fut) -> at_rest m1 fut /\ s_cr (m_s m1) = s_cr (m_s m).
Proof.
  intros H (E & Ee & K). unfold emit_code_point in H.
  set (m0 := Machine (Stream (buf m ++ [c]) (s_current (m_s m)) (s_eof (m_s m)) (ec m) (s_cr (m_s m))) (m_t m)) in *.
  assert (Eb : buf m0 ++ fut = buf m ++ c :: fut) by (cbn; rewrite <- app_assoc; reflexivity).
  destruct (sim fuel On_emit m0 m1 fut H E ltac:(cbn; congruence)) as ((C1 & C2) & _ & R).
  destruct (ec m1) eqn:E1; [destruct R as (R & _); cbn in R; congruence|]. rewrite Eb in R. split; [|exact C2]. split; [exact E1|]. split; [rewrite C1; exact Ee|].
  exact (carried_steps _ _ _ _ R K).
Qed.
Lemma bind_val o k (m1 : machine) : bind o k = Val m1 -> exists m, o = Val m /\ k m = Val m1.
Proof. destruct o; try discriminate. intro H. eauto. Qed.
Lemma rest_push fuel c r m m1 : push_code_point switch cdata match_ncr fuel c m = Val m1 -> at_rest m (L_html5.pending (s_cr (m_s m)) (c :: r)) -> at_rest m1 (L_html5.pending (s_cr (m_s m1)) r) /\ s_cr (m_s m1) = (c =? 0xD).
Proof.
  unfold push_code_point, L_html5.pending. destruct (s_cr (m_s m)) eqn:Ecr.
  - destruct (c =? 0xD) eqn:E1; [apply Z.eqb_eq in E1; subst c|destruct (c =? 0xA) eqn:E2; [apply Z.eqb_eq in E2; subst c|]]; intros H B; cbv iota in B.
    + rewrite newlines_cr in B by discriminate. destruct (rest_emit _ _ _ _ _ H B) as [B1 Ec]. rewrite Ec, Ecr. auto.
    + change (newlines (0xD :: 0xA :: r)) with (0xA :: newlines r) in B. apply bind_val in H. destruct H as (m2 & H & Q). inversion Q; subst.
      destruct (rest_emit _ _ _ _ _ H B) as [B1 Ec]. split; [exact B1|reflexivity].
    + rewrite newlines_cr in B by lia. rewrite newlines_other in B by lia. apply bind_val in H. destruct H as (m2 & H & Q). apply bind_val in Q. destruct Q as (m3 & Q & Q1).
      inversion Q1; subst. destruct (rest_emit _ _ _ _ _ H B) as [B1 _]. destruct (rest_emit _ _ _ _ _ Q B1) as [B2 _]. split; [exact B2|reflexivity].
  - destruct (c =? 0xD) eqn:E1; intros H B; cbv iota in B.
    + apply Z.eqb_eq in E1; subst c. inversion H; subst. split; [exact B|reflexivity].
    + rewrite newlines_other in B by lia. destruct (rest_emit _ _ _ _ _ H B) as [B1 Ec]. rewrite Ec, Ecr. auto.
Qed.
Lemma rest_run fuel m m1 : run fuel On_emit m = Val m1 -> ec m = false -> s_eof (m_s m) = true -> Inv (m_t m) (buf m) ->
  s_eof (m_s m1) = true /\ Inv (m_t m1) (buf m1) /\ (ec m1 = true -> buf m1 = [] /\ halted (m_t m1)).
Proof.
  intros H E Ee K. destruct (sim fuel On_emit m m1 [] H E ltac:(reflexivity)) as ((C1 & C2) & _ & R). rewrite !app_nil_r in R. split; [congruence|].
  destruct (ec m1) eqn:E1.
  - destruct R as (_ & B & P). destruct (carried_halts _ _ _ P K) as [K1 K2]. rewrite B. auto.
  - split; [exact (carried_steps _ _ _ _ R K)|discriminate].
Qed.
Lemma rest_eof fuel m m1 : push_eof switch cdata match_ncr fuel m = Val m1 -> at_rest m (L_html5.pending (s_cr (m_s m)) []) -> exists r, Inv (m_t m1) r.
Proof.
  unfold push_eof, L_html5.pending. intros H (E & Ee & K). apply bind_val in H. destruct H as (m2 & H & Q).
  assert (G : forall m0, run fuel On_emit m0 = Val m1 -> ec m0 = false -> s_eof (m_s m0) = true -> Inv (m_t m0) (buf m0) -> exists r, Inv (m_t m1) r).
  { intros m0 H0 E0 E1 K0. destruct (rest_run fuel m0 m1 H0 E0 E1 K0) as (_ & X & _). eauto. }
  destruct (s_cr (m_s m)) eqn:Ecr; cbn [newlines] in K.
  - destruct (rest_run _ _ _ H E eq_refl K) as (K1 & K2 & K3). destruct (ec m2) eqn:E2; [|exact (G m2 Q E2 K1 K2)].
    destruct (K3 eq_refl) as [B Hh]. apply (G (set_ec false m2)); [|reflexivity|exact K1|exact K2].
    destruct fuel as [|f]; [discriminate Q|]. cbn [M_html.run] in Q |- *. rewrite (handler_ec switch cdata match_ncr m2 B K1 Hh) in Q. exact Q.
  - inversion H; subst m2. apply (G _ Q); [exact E|reflexivity|]. cbn. now rewrite app_nil_r in K.
Qed.
Lemma rest_last fuel text : forall m m1, push_all switch cdata match_ncr fuel text m = Val m1 -> at_rest m (L_html5.pending (s_cr (m_s m)) text) ->
  last text (if s_cr (m_s m) then 0xD else 0) <> 0xD ->
  exists m0, run fuel On_emit m0 = Val m1 /\ ec m0 = false /\ s_eof (m_s m0) = true /\ Inv (m_t m0) (buf m0).
Proof.
  induction text as [|c r IH]; intros m m1 H B L; cbn [push_all] in H.
  - destruct B as (E & Ee & K). unfold push_eof in H. unfold L_html5.pending in K. cbn [last] in L. destruct (s_cr (m_s m)); [contradiction|]. cbn [bind newlines] in H, K.
    rewrite app_nil_r in K. eexists. split; [exact H|]. split; [exact E|]. split; [reflexivity|exact K].
  - apply bind_val in H. destruct H as (m2 & H & Q). destruct (rest_push fuel c r m m2 H B) as [B1 Ec]. apply (IH m2 m1 Q B1). rewrite Ec.
    destruct r as [|c1 r1]; [cbn in L |- *; destruct (c =? 0xD) eqn:E; [lia|discriminate]|].
    replace (last (c1 :: r1) (if c =? 13 then 13 else 0)) with (last (c :: c1 :: r1) (if s_cr (m_s m) then 13 else 0)); [exact L|].
    cbn [last]. clear. revert c1. induction r1; intro; [reflexivity|]. cbn [last] in *. apply IHr1.
Qed.
Lemma rest_all fuel text : forall m m1, push_all switch cdata match_ncr fuel text m = Val m1 -> at_rest m (L_html5.pending (s_cr (m_s m)) text) -> exists r, Inv (m_t m1) r.
Proof.
  induction text as [|c text IH]; intros m m1 H B; cbn [push_all] in H; [exact (rest_eof fuel m m1 H B)|].
  apply bind_val in H. destruct H as (m2 & H & Q). apply (IH m2 m1 Q). exact (proj1 (rest_push fuel c text m m2 H B)).
Qed.
End Carried.

(** An invariant of reading holds of what the machine has emitted. *)
Lemma carried t0 text fuel l (Inv : tok -> list Z -> Prop) : tokenize switch cdata match_ncr fuel t0 text = Val l -> Inv t0 (newlines text) ->
  (forall t r t1 r1, Inv t r -> pstep t r = Some (Next t1 r1) -> Inv t1 r1) -> (forall t t1, Inv t [] -> pstep t [] = Some (Halt t1) -> Inv t1 []) ->
  exists t r, Inv t r /\ l = t_out t.
Proof.
  intros H S N Ht. unfold tokenize in H. destruct (push_all switch cdata match_ncr fuel text (Machine stream_init t0)) as [m| |] eqn:E; try discriminate. inversion H; subst l.
  destruct (rest_all Inv N Ht fuel text _ _ E) as [r R]; [|eauto]. split; [reflexivity|]. split; [reflexivity|]. exact S.
Qed.

(** *** Tags *)
Lemma same_tag t t1 : Same t t1 -> current_tag t1 = current_tag t /\ tag_name t1 = tag_name t.
Proof. intros [S1 S2 S3 S4 S5]. assert (C : current_tag t1 = current_tag t) by (unfold current_tag; now rewrite S2, S3, S4). split; [exact C|]. unfold tag_name, opening. now rewrite C, S2. Qed.
Lemma tags_carried text fuel l : tokenize switch cdata match_ncr fuel tok_init text = Val l -> Forall token_ok l /\ Forall (token_spelled (newlines text)) l.
Proof.
  intro H. destruct (carried tok_init text fuel l (fun t r => (TagInv t (hd_error r) /\ ~ In 0xD r) /\ exists p, TextInv (newlines text) t p r) H) as (t & r & [[K _] [p L]] & ->).
  - split; [split; [apply init_tags|apply newlines_nocr]|]. exists [].
    apply quiet_text; [reflexivity|reflexivity|right; intros o n Hn; discriminate Hn|discriminate|constructor].
  - intros t r t1 r1 [[K N] [p L]] E. pose proof (pstep_tags switch switch_text cdata match_ncr t r K N) as Q. rewrite E in Q.
    pose proof (pstep_text switch switch_text (newlines text) cdata match_ncr t p r L) as Q2. rewrite E in Q2. auto.
  - intros t t1 [[K N] [p L]] E. pose proof (pstep_tags switch switch_text cdata match_ncr t [] K N) as Q. rewrite E in Q.
    pose proof (pstep_text switch switch_text (newlines text) cdata match_ncr t p [] L) as Q2. rewrite E in Q2.
    destruct (pstep_halts t [] t1 E) as (_ & S & _). destruct (same_tag t t1 S) as [S1 S2]. destruct S as [T1 T2 T3 T4 T5]. destruct K as [K1 K2 K3], L as [L1 L2 L3 L4 L5]. split.
    + split; [|exact N]. constructor; [rewrite S1, T1; exact K1|rewrite T5; exact K2|exact Q].
    + exists p. constructor; [exact L1|rewrite T1; exact L2|rewrite T1, S2; exact L3|rewrite T5; exact L4|exact Q2].
  - split; [apply K|apply L].
Qed.

(** *** The end of the text *)
Lemma eof_last text fuel l : tokenize switch cdata match_ncr fuel tok_init text = Val l -> last text 0 <> 0xD -> ~ In TEof l \/ exists l0, l = l0 ++ [TEof] /\ ~ In TEof l0.
Proof.
  intros H L. unfold tokenize in H. destruct (push_all switch cdata match_ncr fuel text (Machine stream_init tok_init)) as [m| |] eqn:E; try discriminate. inversion H; subst l.
  assert (N : forall l, no_eof l -> ~ In TEof l) by (intros l F I; unfold no_eof in F; rewrite Forall_forall in F; now apply (F TEof I)).
  assert (X : forall t r t1 r1, no_eof (t_out t) -> pstep t r = Some (Next t1 r1) -> no_eof (t_out t1)).
  { intros t r t1 r1 F P. apply (pstep_out switch switch_text) in P. destruct P as (k & -> & K). apply Forall_app. auto. }
  destruct (rest_last (fun t _ => no_eof (t_out t)) X fuel text _ _ E) as (m0 & R & E0 & E1 & K); [|exact L|].
  { split; [reflexivity|]. split; [reflexivity|]. constructor. }
  destruct (sim fuel On_emit m0 m [] R E0 ltac:(reflexivity)) as (_ & _ & Q). destruct (ec m).
  - right. destruct Q as (_ & _ & Q). apply (phalts_out switch switch_text) in Q. destruct Q as (k & -> & F). exists (t_out (m_t m0) ++ k). rewrite <- app_assoc. split; [reflexivity|].
    apply N, Forall_app. auto.
  - left. apply N. exact (carried_steps (fun t _ => no_eof (t_out t)) X _ _ _ _ Q K).
Qed.

(** *** Newlines: the flag of the pending CR does not matter to the machine *)
Definition onm (f : machine -> machine) (o : outcome machine) : outcome machine := match o with Val m => Val (f m) | Bad => Bad | NoFuel => NoFuel end.
Definition oncall (f : machine -> machine) (nc : next_call) : next_call :=
  match nc with Return m => Return (f m) | Call m => Call (f m) | Flush m => Flush (f m) | CallFlush m => CallFlush (f m) end.
Definition flagged (b : bool) (s : stream) : stream := Stream (s_c s) (s_current s) (s_eof s) (s_eof_consumed s) b.
Lemma consume_cr b s : consume (flagged b s) = option_map (fun x => (fst x, flagged b (snd x))) (consume s).
Proof. destruct s as [c cur eo e cr]. unfold consume, flagged. cbn. destruct c; [destruct eo; reflexivity|reflexivity]. Qed.
Lemma consume_n_cr b n : forall s, consume_n n (flagged b s) = option_map (flagged b) (consume_n n s).
Proof.
  induction n as [|n IH]; intro s; [reflexivity|]. cbn [consume_n]. rewrite consume_cr. destruct (consume s) as [[c s1]|]; [|reflexivity]. cbn [option_map fst snd]. apply IH.
Qed.
Lemma handler_cr b m : handler (set_cr b m) = option_map (oncall (set_cr b)) (handler m).
Proof.
  destruct m as [s t]. change (set_cr b (Machine s t)) with (Machine (flagged b s) t). unfold M_html.handler. cbn [m_t m_s].
  assert (F : forall n, fill n (flagged b s) = fill n s) by reflexivity.
  assert (C : s_c (flagged b s) = s_c s) by reflexivity.
  destruct (t_state t) eqn:Es.
  all: try match type of Es with _ = markup_declaration_open_state =>
    unfold on_markup_declaration_open; rewrite F, C, !consume_n_cr;
    repeat match goal with |- context [if ?x then _ else _] => destruct x end; try reflexivity;
    match goal with |- context [consume_n ?n ?y] => destruct (consume_n n y); reflexivity end end.
  all: try match type of Es with _ = after_DOCTYPE_name_state =>
    unfold on_after_DOCTYPE_name; rewrite F, consume_cr; destruct (fill 6 s); [|reflexivity]; cbn [negb]; destruct (consume s) as [[c s1]|]; [|reflexivity];
    cbn [option_map fst snd]; rewrite consume_n_cr; change (s_eof_consumed (flagged b s1)) with (s_eof_consumed s1);
    change (match_current str_public (flagged b s1) true) with (match_current str_public s1 true); change (match_current str_system (flagged b s1) true) with (match_current str_system s1 true);
    destruct (s_eof_consumed s1) eqn:Ee; [reflexivity|]; destruct (is_space c); [reflexivity|]; destruct (c =? 0x3E); [reflexivity|];
    destruct (match_current str_public s1 true); [destruct (consume_n 5 s1); reflexivity|]; destruct (match_current str_system s1 true); [destruct (consume_n 5 s1); reflexivity|];
    cbn [option_map oncall]; unfold reconsume; change (s_eof_consumed (flagged b s1)) with (s_eof_consumed s1); rewrite Ee; reflexivity end.
  all: try match type of Es with _ = named_character_reference_state =>
    unfold on_named_character_reference; rewrite F, C; destruct (fill 33 s); [|reflexivity]; cbn [negb]; destruct (match_ncr (s_c s)) as [[[|k] a]|]; [| |reflexivity];
    [destruct (flush_reference t); reflexivity|];
    destruct (nth_error (s_c s) k); [|reflexivity]; cbv zeta; rewrite consume_n_cr; destruct (consume_n (S k) s) as [s1|]; [|reflexivity]; cbn [option_map];
    change (s_c (flagged b s1)) with (s_c s1); match goal with |- context [flush_reference ?x] => destruct (flush_reference x) as [t3|]; [|reflexivity] end;
    destruct (to_return t3); reflexivity end.
  all: try match type of Es with _ = numeric_character_reference_end_state =>
    unfold on_numeric_character_reference_end; cbv zeta; destruct (flush_reference _) as [t3|]; [|reflexivity]; destruct (to_return t3); reflexivity end.
  all: rewrite consume_cr; destruct (consume s) as [[c s1]|]; [|reflexivity]; cbn [option_map fst snd]; change (s_eof_consumed (flagged b s1)) with (s_eof_consumed s1);
    destruct (ordinary switch t _) as [[t1 [|]]|]; try reflexivity; cbn [option_map oncall]; unfold reconsume; change (s_eof_consumed (flagged b s1)) with (s_eof_consumed s1);
    destruct (s_eof_consumed s1); reflexivity.
Qed.
Lemma run_cr b f : forall e m, run f e (set_cr b m) = onm (set_cr b) (run f e m).
Proof.
  induction f as [|f IH]; intros e m; [reflexivity|]. cbn [M_html.run]. destruct e.
  - rewrite handler_cr. destruct (handler m) as [[m1|m1|m1|m1]|]; cbn [option_map oncall]; [reflexivity|apply IH|apply IH| |reflexivity].
    rewrite IH. destruct (run f On_emit m1) as [m2| |]; cbn [onm bind]; [apply IH|reflexivity|reflexivity].
  - change (ec (set_cr b m)) with (ec m). destruct (ec m); [reflexivity|apply IH].
  - change (s_eof (m_s (set_cr b m))) with (s_eof (m_s m)). change (ec (set_cr b m)) with (ec m). change (buf (set_cr b m)) with (buf m).
    destruct (buf m) as [|c r] eqn:Eb; [destruct (s_eof (m_s m) && negb (ec m)); [apply IH|reflexivity]|].
    rewrite IH. destruct (run f On_emit m) as [m2| |]; cbn [onm bind]; try reflexivity. change (buf (set_cr b m2)) with (buf m2).
    destruct (_ =? _)%nat; [reflexivity|apply IH].
Qed.
Lemma set_cr_same m : set_cr (s_cr (m_s m)) m = m.
Proof. destruct m as [[]]. reflexivity. Qed.
Lemma run_keeps f e m m1 : run f e m = Val m1 -> s_cr (m_s m1) = s_cr (m_s m).
Proof. intro H. pose proof (run_cr (s_cr (m_s m)) f e m) as Q. rewrite set_cr_same, H in Q. cbn in Q. injection Q as Q. now rewrite Q. Qed.
Lemma emit_cr b fuel c m : emit_code_point switch cdata match_ncr fuel c (set_cr b m) = onm (set_cr b) (emit_code_point switch cdata match_ncr fuel c m).
Proof. unfold emit_code_point. rewrite <- run_cr. reflexivity. Qed.
Lemma emit_keeps fuel c m m1 : emit_code_point switch cdata match_ncr fuel c m = Val m1 -> s_cr (m_s m1) = s_cr (m_s m).
Proof. unfold emit_code_point. intro H. apply run_keeps in H. exact H. Qed.
Lemma last_irr {A} (x y : A) c r : last (c :: r) x = last (c :: r) y.
Proof. revert c. induction r as [|d r IH]; intro c; [reflexivity|]. cbn [last] in *. apply IH. Qed.
Lemma push_newlines fuel text : forall m, last text (if s_cr (m_s m) then 0xD else 0) <> 0xD ->
  onm (set_cr false) (push_all switch cdata match_ncr fuel text m) = onm (set_cr false) (push_all switch cdata match_ncr fuel (L_html5.pending (s_cr (m_s m)) text) (set_cr false m)).
Proof.
  induction text as [|c r IH]; intros m L.
  - cbn [last] in L. destruct (s_cr (m_s m)) eqn:Ec; [contradiction|]. assert (Em : set_cr false m = m) by (rewrite <- Ec; apply set_cr_same). now rewrite Em.
  - assert (L1 : forall m1, s_cr (m_s m1) = (c =? 0xD) -> last r (if s_cr (m_s m1) then 0xD else 0) <> 0xD).
    { intros m1 Ec. rewrite Ec. destruct r as [|c1 r1]; [cbn in L |- *; destruct (c =? 0xD) eqn:E; [lia|discriminate]|]. rewrite (last_irr _ (if s_cr (m_s m) then 13 else 0)). exact L. }
    assert (S2 : forall a b m1, set_cr a (set_cr b m1) = set_cr a m1) by reflexivity.
    unfold L_html5.pending. cbn [push_all]. unfold push_code_point at 1. destruct (s_cr (m_s m)) eqn:Ecr; cbv iota.
    + destruct (c =? 0xD) eqn:E1; [apply Z.eqb_eq in E1; subst c|destruct (c =? 0xA) eqn:E2; [apply Z.eqb_eq in E2; subst c|]].
      * rewrite newlines_cr by discriminate. cbn [push_all]. unfold push_code_point at 1. change (s_cr (m_s (set_cr false m))) with false. cbv iota. change (0xA =? 0xD) with false. cbv iota.
        rewrite emit_cr. destruct (emit_code_point switch cdata match_ncr fuel 0xA m) as [m1| |] eqn:Em; [|reflexivity|reflexivity]. cbn [bind onm].
        pose proof (emit_keeps _ _ _ _ Em) as Ek. rewrite Ecr in Ek. specialize (IH m1 (L1 m1 Ek)). rewrite Ek in IH. exact IH.
      * change (newlines (0xD :: 0xA :: r)) with (0xA :: newlines r). cbn [push_all]. unfold push_code_point at 1. change (s_cr (m_s (set_cr false m))) with false. cbv iota. change (0xA =? 0xD) with false. cbv iota.
        rewrite emit_cr. destruct (emit_code_point switch cdata match_ncr fuel 0xA m) as [m1| |] eqn:Em; [|reflexivity|reflexivity]. cbn [bind onm].
        specialize (IH (set_cr false m1) (L1 (set_cr false m1) eq_refl)). exact IH.
      * rewrite newlines_cr by lia. rewrite newlines_other by lia. cbn [push_all]. unfold push_code_point at 1. change (s_cr (m_s (set_cr false m))) with false. cbv iota. change (0xA =? 0xD) with false. cbv iota.
        rewrite emit_cr. destruct (emit_code_point switch cdata match_ncr fuel 0xA m) as [m1| |] eqn:Em; [|reflexivity|reflexivity]. cbn [bind onm].
        unfold push_code_point at 1. change (s_cr (m_s (set_cr false m1))) with false. cbv iota. rewrite E1.
        rewrite emit_cr. destruct (emit_code_point switch cdata match_ncr fuel c m1) as [m2| |] eqn:Em2; [|reflexivity|reflexivity]. cbn [bind onm].
        specialize (IH (set_cr false m2) (L1 (set_cr false m2) eq_refl)). exact IH.
    + destruct (c =? 0xD) eqn:E1.
      * apply Z.eqb_eq in E1; subst c. cbn [bind]. specialize (IH (set_cr true m) (L1 (set_cr true m) eq_refl)). exact IH.
      * rewrite newlines_other by lia. cbn [push_all]. unfold push_code_point at 1. change (s_cr (m_s (set_cr false m))) with false. cbv iota. rewrite E1.
        rewrite emit_cr. destruct (emit_code_point switch cdata match_ncr fuel c m) as [m1| |] eqn:Em; [|reflexivity|reflexivity]. cbn [bind onm].
        pose proof (emit_keeps _ _ _ _ Em) as Ek. rewrite Ecr in Ek. specialize (IH m1 (L1 m1 Ek)). rewrite Ek in IH. exact IH.
Qed.
Lemma tokens_newlines t0 text fuel : last text 0 <> 0xD -> tokenize switch cdata match_ncr fuel t0 text = tokenize switch cdata match_ncr fuel t0 (newlines text).
Proof.
  intro L. pose proof (push_newlines fuel text (Machine stream_init t0) L) as Q. unfold tokenize.
  change (L_html5.pending (s_cr (m_s (Machine stream_init t0))) text) with (newlines text) in Q. change (set_cr false (Machine stream_init t0)) with (Machine stream_init t0) in Q.
  destruct (push_all _ _ _ fuel text _) as [m| |], (push_all _ _ _ fuel (newlines text) _) as [m'| |]; cbn in Q; try discriminate Q; try reflexivity.
  injection Q. intros. f_equal. congruence.
Qed.
End Any.
