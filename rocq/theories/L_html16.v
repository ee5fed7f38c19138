(** CDATA sections: what is between the brackets, for every content. *)
From Coq Require Import ZArith List Bool Lia String.
From Verif Require Import M_infra M_encoding M_labels M_html M_html_ncr L_html_names L_html_ncr3 L_html1 L_html2 L_html3 L_html4 L_html6 L_html9 L_html10.
Import ListNotations.
Open Scope Z_scope.
Open Scope list_scope.

Section Cdata.
Variable switch : list token -> option state.
Hypothesis switch_text : text_switch switch.
Variable cdata : list token -> bool.
Notation nsteps := (L_html6.nsteps switch cdata).

(** "]]>" stands nowhere in it *)
Definition unclosed (s : list Z) : Prop := forall p q, s <> p ++ [0x5D; 0x5D; 0x3E] ++ q.
Definition waiting (k : nat) : state := match k with O => CDATA_section_state | 1%nat => CDATA_section_bracket_state | _ => CDATA_section_end_state end.

Lemma chars_chars a b t : emit_chars b (emit_chars a t) = emit_chars (a ++ b) t.
Proof. destruct t. unfold emit_chars, set_out. cbn. rewrite map_app, app_assoc. reflexivity. Qed.
Lemma chars_state a s t : emit_chars a (set_state s t) = set_state s (emit_chars a t).
Proof. reflexivity. Qed.
Lemma char_chars c t : emit_char c t = emit_chars [c] t.
Proof. reflexivity. Qed.
Lemma state_state a b t : set_state a (set_state b t) = set_state a t.
Proof. reflexivity. Qed.
Lemma chars_none t : emit_chars [] t = t.
Proof. destruct t. unfold emit_chars, set_out. cbn. rewrite app_nil_r. reflexivity. Qed.
Lemma unclosed_tail c s : unclosed (c :: s) -> unclosed s.
Proof. intros H p q E. apply (H (c :: p) q). cbn. now rewrite E. Qed.

Ltac one := eapply ns_trans; [eapply step_c; [match goal with E : t_state ?t = _ |- _ => rewrite E; reflexivity | |- _ => reflexivity end|]|].

Lemma section k : (k <= 2)%nat -> forall s t r, t_state t = waiting k -> unclosed (repeat 0x5D k ++ s ++ [0x5D; 0x5D]) ->
  nsteps t (s ++ [0x5D; 0x5D; 0x3E] ++ r) (set_state data_state (emit_chars (repeat 0x5D k ++ s) t)) r.
Proof.
  intros Hk s. revert k Hk. induction s as [|c s IH]; intros k Hk t r E U.
  - destruct k as [|[|[|k]]]; [| | |lia]; cbn [waiting repeat app] in *.
    + eapply ns_trans; [apply (step_c switch cdata t 0x5D _ (set_state CDATA_section_bracket_state t) false); [rewrite E; reflexivity|unfold ordinary; rewrite E; reflexivity]|].
      eapply ns_trans; [apply (step_c switch cdata _ 0x5D _ (set_state CDATA_section_end_state t) false); reflexivity|].
      eapply ns_trans; [apply (step_c switch cdata _ 0x3E _ (set_state data_state t) false); reflexivity|]. rewrite chars_none. constructor.
    + eapply ns_trans; [apply (step_c switch cdata t 0x5D _ (set_state CDATA_section_end_state t) false); [rewrite E; reflexivity|unfold ordinary; rewrite E; reflexivity]|].
      eapply ns_trans; [apply (step_c switch cdata _ 0x5D _ (set_state CDATA_section_end_state (emit_chars [0x5D] t)) false); reflexivity|].
      eapply ns_trans; [apply (step_c switch cdata _ 0x3E _ (set_state data_state (emit_chars [0x5D] t)) false); reflexivity|]. constructor.
    + eapply ns_trans; [apply (step_c switch cdata t 0x5D _ (emit_chars [0x5D] t) false); [rewrite E; reflexivity|unfold ordinary; rewrite E; reflexivity]|].
      eapply ns_trans; [apply (step_c switch cdata _ 0x5D _ (emit_chars [0x5D; 0x5D] t) false); [cbn; rewrite E; reflexivity|]|].
      { unfold ordinary. cbn [emit_chars set_out t_state]. rewrite E. cbn. change [0x5D; 0x5D] with ([0x5D] ++ [0x5D]). rewrite <- chars_chars. reflexivity. }
      eapply ns_trans; [apply (step_c switch cdata _ 0x3E _ (set_state data_state (emit_chars [0x5D; 0x5D] t)) false); [cbn; rewrite E; reflexivity|]|constructor].
      unfold ordinary. cbn [emit_chars set_out t_state]. rewrite E. reflexivity.
  - assert (P : unclosed ((c :: s) ++ [0x5D; 0x5D])).
    { destruct k as [|[|[|k]]]; [exact U|apply unclosed_tail in U; exact U|do 2 apply unclosed_tail in U; exact U|lia]. }
    assert (Plain : forall t1 l, c <> 0x5D -> t1 = set_state CDATA_section_state (emit_chars l t) ->
        nsteps t1 ((c :: s) ++ [0x5D; 0x5D; 0x3E] ++ r) (set_state data_state (emit_chars (l ++ c :: s) t)) r).
    { intros t1 l N ->. cbn [app]. eapply ns_trans; [apply (step_c switch cdata _ c _ (set_state CDATA_section_state (emit_chars (l ++ [c]) t)) false); [reflexivity|]|].
      - change (on_CDATA_section (set_state CDATA_section_state (emit_chars l t)) (Some c) = Some (set_state CDATA_section_state (emit_chars (l ++ [c]) t), false)).
        unfold on_CDATA_section. destruct (Z.eqb_spec c 0x5D); [contradiction|]. rewrite char_chars, chars_state, chars_chars. reflexivity.
      - pose proof (IH 0%nat ltac:(lia) (set_state CDATA_section_state (emit_chars (l ++ [c]) t)) r eq_refl (unclosed_tail _ _ P)) as Q.
        cbn [repeat] in Q. rewrite chars_state, chars_chars, state_state in Q. cbn [app] in Q |- *. rewrite <- app_assoc in Q. exact Q. }
    destruct (Z.eq_dec c 0x5D) as [->|N].
    + destruct k as [|[|[|k]]]; [| | |lia]; cbn [waiting repeat app] in *.
      * eapply ns_trans; [apply (step_c switch cdata t 0x5D _ (set_state CDATA_section_bracket_state t) false); [rewrite E; reflexivity|unfold ordinary; rewrite E; reflexivity]|].
        exact (IH 1%nat ltac:(lia) (set_state CDATA_section_bracket_state t) r eq_refl U).
      * eapply ns_trans; [apply (step_c switch cdata t 0x5D _ (set_state CDATA_section_end_state t) false); [rewrite E; reflexivity|unfold ordinary; rewrite E; reflexivity]|].
        exact (IH 2%nat ltac:(lia) (set_state CDATA_section_end_state t) r eq_refl U).
      * eapply ns_trans; [apply (step_c switch cdata t 0x5D _ (emit_chars [0x5D] t) false); [rewrite E; reflexivity|unfold ordinary; rewrite E; reflexivity]|].
        pose proof (IH 2%nat ltac:(lia) (emit_chars [0x5D] t) r E (unclosed_tail _ _ U)) as Q. rewrite chars_chars in Q. exact Q.
    + destruct k as [|[|[|k]]]; [| | |lia]; cbn [waiting repeat app] in *.
      * apply (Plain t []); [exact N|]. rewrite chars_none. destruct t. cbn in E. subst. reflexivity.
      * eapply ns_trans; [apply (step_c switch cdata t c _ (set_state CDATA_section_state (emit_chars [0x5D] t)) true); [rewrite E; reflexivity|]|apply (Plain _ [0x5D]); [exact N|reflexivity]].
        unfold ordinary. rewrite E. unfold on_CDATA_section_bracket. destruct (Z.eqb_spec c 0x5D); [contradiction|reflexivity].
      * eapply ns_trans; [apply (step_c switch cdata t c _ (set_state CDATA_section_state (emit_chars [0x5D; 0x5D] t)) true); [rewrite E; reflexivity|]|apply (Plain _ [0x5D; 0x5D]); [exact N|reflexivity]].
        unfold ordinary. rewrite E. unfold on_CDATA_section_end. destruct (Z.eqb_spec c 0x5D); [contradiction|]. destruct (Z.eqb_spec c 0x3E) as [->|N1].
        -- destruct (U [] (s ++ [0x5D; 0x5D])). reflexivity.
        -- rewrite !char_chars, chars_chars. reflexivity.
Qed.

(** a comment up to the first ">" *)
Lemma bogus s : forall t r, t_state t = bogus_comment_state -> ~ In 0x3E s ->
  nsteps t (s ++ 0x3E :: r) (emit_comment (set_state data_state (set_comment (t_comment t ++ map (fun c => if c =? 0 then 0xFFFD else c) s) t))) r.
Proof.
  induction s as [|c s IH]; intros t r E N.
  - cbn [map app]. rewrite app_nil_r. eapply ns_trans; [apply (step_c switch cdata t 0x3E _ (emit_comment (set_state data_state t)) false); [rewrite E; reflexivity|unfold ordinary; rewrite E; reflexivity]|].
    replace (set_comment (t_comment t) t) with t by (destruct t; reflexivity). constructor.
  - cbn [map app]. set (d := if c =? 0 then 0xFFFD else c).
    eapply ns_trans; [apply (step_c switch cdata t c _ (set_comment (t_comment t ++ [d]) t) false); [rewrite E; reflexivity|]|].
    + unfold ordinary. rewrite E. unfold on_bogus_comment. destruct (Z.eqb_spec c 0x3E) as [->|N1]; [destruct N; now left|]. unfold d. destruct (c =? 0); reflexivity.
    + pose proof (IH (set_comment (t_comment t ++ [d]) t) r E (fun H => N (or_intror H))) as Q. cbn [set_comment t_comment] in Q. rewrite <- app_assoc in Q. exact Q.
Qed.

Lemma opens t r : t_state t = data_state -> nsteps t (lit "<!" ++ r) (set_state markup_declaration_open_state t) r.
Proof.
  intro E. eapply ns_trans; [apply (step_c switch cdata t 0x3C _ (set_state tag_open_state t) false); [rewrite E; reflexivity|unfold ordinary; rewrite E; reflexivity]|].
  apply (step_c switch cdata _ 0x21 _ (set_state markup_declaration_open_state t) false); reflexivity.
Qed.
Theorem cdata_text t s r : t_state t = data_state -> cdata (t_out t) = true -> unclosed (s ++ lit "]]") ->
  nsteps t (lit "<![CDATA[" ++ s ++ lit "]]>" ++ r) (emit_chars s t) r.
Proof.
  intros E C U. eapply ns_trans; [exact (opens t (lit "[CDATA[" ++ s ++ lit "]]>" ++ r) E)|].
  eapply ns_trans; [apply (ns_one switch cdata _ _ (set_state CDATA_section_state t) (s ++ lit "]]>" ++ r)); [discriminate|]|].
  - unfold pstep. cbn [set_state t_state t_out]. rewrite C. reflexivity.
  - pose proof (section 0 ltac:(lia) s (set_state CDATA_section_state t) r eq_refl U) as Q. cbn [repeat app] in Q. rewrite chars_state, state_state in Q.
    replace (set_state data_state (emit_chars s t)) with (emit_chars s t) in Q by (destruct t; cbn in E; subst; reflexivity). exact Q.
Qed.
Theorem cdata_comment t s r : t_state t = data_state -> cdata (t_out t) = false -> ~ In 0x3E s ->
  nsteps t (lit "<![CDATA[" ++ s ++ lit ">" ++ r) (emit_comment (set_comment (lit "[CDATA[" ++ map (fun c => if c =? 0 then 0xFFFD else c) s) t)) r.
Proof.
  intros E C U. eapply ns_trans; [exact (opens t (lit "[CDATA[" ++ s ++ lit ">" ++ r) E)|].
  eapply ns_trans; [apply (ns_one switch cdata _ _ (set_state bogus_comment_state (set_comment (lit "[CDATA[") t)) (s ++ lit ">" ++ r)); [discriminate|]|].
  - unfold pstep. cbn [set_state t_state t_out]. rewrite C. reflexivity.
  - pose proof (bogus s (set_state bogus_comment_state (set_comment (lit "[CDATA[") t)) r eq_refl U) as Q.
    match goal with |- nsteps _ _ ?a _ => match type of Q with L_html6.nsteps _ _ _ _ ?b _ => replace a with b; [exact Q|] end end. destruct t; cbn in E; subst; reflexivity.
Qed.

Lemma last_end (p : list Z) x : last (p ++ [x]) 0 = x.
Proof. apply last_last. Qed.
(** a text before it that is read to the data state *)
Theorem section_whole pre t s fuel : (forall r, nsteps tok_init (pre ++ r) t r) -> t_state t = data_state -> cdata (t_out t) = true -> unclosed (s ++ lit "]]") ->
  ~ In 0xD pre -> ~ In 0xD s -> fuel_for fuel (pre ++ lit "<![CDATA[" ++ s ++ lit "]]>") ->
  tokenize switch cdata match_ncr fuel tok_init (pre ++ lit "<![CDATA[" ++ s ++ lit "]]>") = Val (t_out t ++ map TChar s ++ [TEof]).
Proof.
  intros Pr E C U N1 N2 F. set (text := pre ++ lit "<![CDATA[" ++ s ++ lit "]]>") in *.
  assert (Nl : newlines text = text).
  { apply newlines_none. intro H. unfold text in H. rewrite !in_app_iff in H. destruct H as [H|[H|[H|H]]]; [auto| |auto|]; cbn in H; intuition discriminate. }
  assert (L : last text 0 <> 0xD).
  { unfold text. change (lit "]]>") with (lit "]]" ++ [0x3E]). rewrite !app_assoc, last_end. discriminate. }
  rewrite (tokenize_nsteps switch switch_text cdata fuel tok_init text (emit_chars s t) (emit_eof (emit_chars s t))).
  - unfold emit_eof, emit, emit_chars, set_out. cbn [t_out]. rewrite <- app_assoc. reflexivity.
  - exact I.
  - rewrite Nl. eapply ns_trans; [apply Pr|]. pose proof (cdata_text t s [] E C U) as Q. rewrite app_nil_r in Q. exact Q.
  - unfold pstep, ordinary. change (t_state (emit_chars s t)) with (t_state t). rewrite E. reflexivity.
  - cbn [emit_chars set_out t_state]. rewrite E. discriminate.
  - exact L.
  - exact F.
Qed.
Theorem comment_whole pre t s fuel : (forall r, nsteps tok_init (pre ++ r) t r) -> t_state t = data_state -> cdata (t_out t) = false -> ~ In 0x3E s ->
  ~ In 0xD pre -> ~ In 0xD s -> fuel_for fuel (pre ++ lit "<![CDATA[" ++ s ++ lit ">") ->
  tokenize switch cdata match_ncr fuel tok_init (pre ++ lit "<![CDATA[" ++ s ++ lit ">") =
    Val (t_out t ++ [TComment (lit "[CDATA[" ++ map (fun c => if c =? 0 then 0xFFFD else c) s); TEof]).
Proof.
  intros Pr E C U N1 N2 F. set (text := pre ++ lit "<![CDATA[" ++ s ++ lit ">") in *.
  assert (Nl : newlines text = text).
  { apply newlines_none. intro H. unfold text in H. rewrite !in_app_iff in H. destruct H as [H|[H|[H|H]]]; [auto| |auto|]; cbn in H; intuition discriminate. }
  assert (L : last text 0 <> 0xD).
  { unfold text. change (lit ">") with ([0x3E]). rewrite !app_assoc, last_end. discriminate. }
  set (t1 := emit_comment (set_comment (lit "[CDATA[" ++ map (fun c => if c =? 0 then 0xFFFD else c) s) t)).
  assert (E1 : t_state t1 = data_state) by exact E.
  rewrite (tokenize_nsteps switch switch_text cdata fuel tok_init text t1 (emit_eof t1)).
  - unfold t1, emit_eof, emit_comment, emit, set_comment, set_out. cbn [t_out t_comment]. rewrite <- app_assoc. reflexivity.
  - exact I.
  - rewrite Nl. eapply ns_trans; [apply Pr|]. pose proof (cdata_comment t s [] E C U) as Q. rewrite app_nil_r in Q. exact Q.
  - unfold pstep, ordinary. rewrite E1. reflexivity.
  - rewrite E1. discriminate.
  - exact L.
  - exact F.
Qed.
End Cdata.
