(** The tokeniser with the real table of names: a text that can be read to its end is tokenised; reading of references,
    of text and of attribute values. *)
From Coq Require Import ZArith List Bool Lia.
From Verif Require Import M_infra M_encoding M_html M_html_ncr L_html_names L_html1 L_html2 L_html3 L_html4 L_html5 L_html_ncr3.
Import ListNotations.
Open Scope Z_scope.
Open Scope html_scope.

(** ** Newlines *)
Lemma newlines_length : forall text, (length (newlines text) <= length text)%nat.
Proof.
  intro text. remember (length text) as n eqn:E. assert (H : (length text <= n)%nat) by lia. clear E. revert text H.
  induction n as [|n IH]; intros [|c r] H; try (cbn; lia); [cbn in H; lia|]. cbn [length] in H.
  destruct (Z.eq_dec c 0xD) as [->|N].
  - destruct r as [|d r]; [cbn; lia|]. destruct (Z.eq_dec d 0xA) as [->|Nd].
    + change (newlines (0xD :: 0xA :: r)) with (0xA :: newlines r). cbn [length] in *. specialize (IH r). lia.
    + rewrite newlines_cr by exact Nd. cbn [length] in *. specialize (IH (d :: r)). cbn [length] in IH. lia.
  - rewrite newlines_other by exact N. cbn [length]. specialize (IH r). lia.
Qed.
Lemma newlines_none text : ~ In 0xD text -> newlines text = text.
Proof.
  induction text as [|c r IH]; intro H; [reflexivity|]. rewrite newlines_other by (intros ->; apply H; left; reflexivity).
  f_equal. apply IH. intro K; apply H; right; exact K.
Qed.

Lemma match_nil : match_ncr [] <> None.
Proof. vm_compute. discriminate. Qed.

Section Round.
Variable switch : list token -> option state.
Hypothesis switch_text : forall l s, switch l = Some s ->
  s = RCDATA_state \/ s = RAWTEXT_state \/ s = script_data_state \/ s = PLAINTEXT_state.
Variable cdata : list token -> bool.

Notation pstep := (pstep switch cdata match_ncr).
Notation psteps := (psteps switch cdata match_ncr).
Notation phalts := (phalts switch cdata match_ncr).
Notation ordinary := (ordinary switch).

(** ** A whole run of the push machine *)
Theorem tokenize_reads fuel t0 text t' : SAFE t0 (newlines text) -> phalts t0 (newlines text) t' ->
  (24 * length text + 13 <= fuel)%nat ->
  exists l, tokenize switch cdata match_ncr fuel t0 text = Val l /\
    (numfree switch cdata match_ncr t0 (newlines text) -> last text 0 <> 0xD -> l = t_out t').
Proof.
  intros S0 H F. pose proof (newlines_length text) as L.
  assert (F1 : (24 * length (newlines text) + 13 <= fuel)%nat) by lia.
  destruct (push_all_ok switch switch_text cdata match_ncr (fun b len a K => proj1 (match_length b len a K))
    (fun b len a K => proj2 (match_length b len a K)) match_local match_nil t0 (newlines text) (ex_intro _ t' H) S0 fuel F1
    text (Machine stream_init t0)) as (m1 & E & K).
  { split; [reflexivity|]. split; [reflexivity|]. split; [constructor|]. intros _. left. reflexivity. }
  exists (t_out (m_t m1)). unfold tokenize. rewrite E. split; [reflexivity|]. intros N P. destruct (K N P) as [_ K2].
  f_equal. eapply ph_det; [exact K2|]. exact H.
Qed.

(** ** Reading that meets no numeric reference *)
Inductive nsteps : tok -> list Z -> tok -> list Z -> Prop :=
| ns_refl : forall t r, nsteps t r t r
| ns_step : forall t r t1 r1 t2 r2, t_state t <> numeric_character_reference_end_state ->
    pstep t r = Some (Next t1 r1) -> nsteps t1 r1 t2 r2 -> nsteps t r t2 r2.
Lemma ns_ps t r t1 r1 : nsteps t r t1 r1 -> psteps t r t1 r1.
Proof. induction 1; [constructor|econstructor; eassumption]. Qed.
Lemma ns_trans t r t1 r1 t2 r2 : nsteps t r t1 r1 -> nsteps t1 r1 t2 r2 -> nsteps t r t2 r2.
Proof. induction 1; intro; [assumption|]. econstructor; eauto. Qed.
Lemma ns_one t r t1 r1 : t_state t <> numeric_character_reference_end_state -> pstep t r = Some (Next t1 r1) -> nsteps t r t1 r1.
Proof. intros; econstructor; [eassumption|eassumption|constructor]. Qed.
Lemma ns_numfree t r t1 r1 t' : nsteps t r t1 r1 -> pstep t1 r1 = Some (Halt t') ->
  t_state t1 <> numeric_character_reference_end_state -> numfree switch cdata match_ncr t r.
Proof.
  intros H Hh N. induction H as [t r|t r t1 r1 t2 r2 Hn Hp _ IH]; intros a b Hab.
  - inversion Hab; subst; [exact N|congruence].
  - inversion Hab as [|? ? u v ? ? Hu Hv]; subst; [exact Hn|]. rewrite Hp in Hu. apply Next_inj in Hu. destruct Hu as [<- <-].
    apply (IH Hh N a b Hv).
Qed.

Theorem tokenize_nsteps fuel t0 text t1 t' : SAFE t0 (newlines text) -> nsteps t0 (newlines text) t1 [] ->
  pstep t1 [] = Some (Halt t') -> t_state t1 <> numeric_character_reference_end_state -> last text 0 <> 0xD ->
  (24 * length text + 13 <= fuel)%nat ->
  tokenize switch cdata match_ncr fuel t0 text = Val (t_out t').
Proof.
  intros S0 H Hh N L F. assert (P : phalts t0 (newlines text) t') by (exists t1, []; split; [apply ns_ps; exact H|exact Hh]).
  destruct (tokenize_reads fuel t0 text t' S0 P F) as (l & E & K). rewrite E, K; [reflexivity| |exact L].
  eapply ns_numfree; eassumption.
Qed.

Lemma step_c t c r t1 b : waits (t_state t) = false -> ordinary t (Some c) = Some (t1, b) ->
  nsteps t (c :: r) t1 (if b : bool then c :: r else r).
Proof.
  intros W H. apply ns_one; [intro E; rewrite E in W; discriminate|]. rewrite pstep_ordinary by exact W. rewrite H. reflexivity.
Qed.

(** ** References that end with a semicolon *)
(** what the reference adds to: the output, or the value of the current attribute *)
Definition text_like (t t1 : tok) (cps : list Z) : Prop :=
  t_state t1 = t_state t /\ t_out t1 = t_out t ++ map TChar cps /\ t_last t1 = t_last t.
Definition value_like (t t1 : tok) (cps : list Z) : Prop :=
  t_state t1 = t_state t /\ t_out t1 = t_out t /\ t_last t1 = t_last t /\ t_id t1 = t_id t /\
  forall g l a, current_tag t = Some g -> g_attributes g = l ++ [a] ->
    current_tag t1 = Some (Tag (g_name g) (g_self_closing g) (l ++ [Attribute (a_name a) (a_value a ++ cps) (a_omitted a)])).

Lemma named_step t n cps r t1 : t_state t = named_character_reference_state -> In (n, cps) standard_names -> last n 0 = 0x3B -> n <> [] ->
  (do t3 <- flush_reference (set_tmp cps (set_tmp (t_tmp t ++ n) t)); to_return t3) = Some t1 ->
  nsteps t (n ++ r) t1 r.
Proof.
  intros Es Hin L N F. apply ns_one; [congruence|]. unfold L_html1.pstep. rewrite Es, (match_semicolon n cps r Hin L).
  destruct n as [|a0 n0] using rev_ind; [contradiction|]. rewrite last_last in L. subst a0.
  replace (length (n0 ++ [0x3B])) with (S (length n0)) by (rewrite app_length; cbn; lia).
  assert (E1 : nth_error ((n0 ++ [0x3B]) ++ r) (length n0) = Some 0x3B).
  { rewrite <- app_assoc. rewrite nth_error_app2 by lia. rewrite Nat.sub_diag. reflexivity. }
  rewrite E1. replace (S (length n0)) with (length (n0 ++ [0x3B])) by (rewrite app_length; cbn; lia).
  rewrite skipn_app, skipn_all, Nat.sub_diag, firstn_app, firstn_all, Nat.sub_diag. cbn [firstn skipn app]. rewrite app_nil_r.
  cbv zeta. cbn [Z.eqb Pos.eqb negb]. rewrite andb_false_r.
  assert (E2 : match r with [] => false | c :: _ => false && ((c =? 0x3D) || is_ascii_alphanumeric c) end = false) by (destruct r; reflexivity).
  rewrite E2. revert F. destruct (flush_reference _) as [t3|]; [|discriminate]. intros ->. reflexivity.
Qed.

Lemma read_reference t n cps r : In (n, cps) standard_names -> last n 0 = 0x3B -> cps <> [] ->
  (exists c n0, n = c :: n0 /\ is_ascii_alphanumeric c = true) ->
  waits (t_state t) = false ->
  ordinary t (Some 0x26) = Some (set_state character_reference_state (set_return (t_state t) t), false) ->
  match t_state t with
  | data_state | RCDATA_state => exists t1, nsteps t (0x26 :: n ++ r) t1 r /\ text_like t t1 cps
  | attribute_value_double_quoted_state => attrok t -> exists t1, nsteps t (0x26 :: n ++ r) t1 r /\ value_like t t1 cps
  | _ => True
  end.
Proof.
  intros Hin L Nc (c & n0 & -> & A) W O.
  set (t2 := set_state named_character_reference_state (set_tmp [0x26] (set_state character_reference_state (set_return (t_state t) t)))).
  assert (S2 : nsteps t (0x26 :: (c :: n0) ++ r) t2 ((c :: n0) ++ r)).
  { eapply ns_trans; [apply (step_c _ _ _ _ _ W O)|]. cbn [app].
    apply (step_c (set_state character_reference_state (set_return (t_state t) t)) c (n0 ++ r) t2 true); [reflexivity|].
    unfold M_html.ordinary. cbn [t_state set_state]. unfold on_character_reference. rewrite A. reflexivity. }
  assert (K : forall t1, (do t3 <- flush_reference (set_tmp cps (set_tmp (t_tmp t2 ++ c :: n0) t2)); to_return t3) = Some t1 ->
    nsteps t (0x26 :: (c :: n0) ++ r) t1 r).
  { intros t1 E. eapply ns_trans; [exact S2|]. eapply named_step; try eassumption; [reflexivity|discriminate]. }
  destruct (t_state t) eqn:Es; try exact I.
  - eexists. split; [apply K; destruct cps; [contradiction|]; reflexivity|]. repeat split; cbn; congruence.
  - eexists. split; [apply K; destruct cps; [contradiction|]; reflexivity|]. repeat split; cbn; congruence.
  - intros (g & Hg & Na). destruct (snoc_of _ _ Na) as (l & a & El).
    set (t3 := set_tmp cps (set_tmp (t_tmp t2 ++ c :: n0) t2)).
    assert (Hg3 : current_tag t3 = Some g) by (rewrite <- Hg; reflexivity).
    destruct (on_current_attribute_ok (fun a => Attribute (a_name a) (a_value a ++ cps) (a_omitted a)) t3 g l a Hg3 El) as (t4 & E4 & B4 & C4).
    destruct B4 as (B1 & B2 & B3 & B4 & B5 & B6 & B7 & B8 & B9).
    exists (set_state attribute_value_double_quoted_state t4). split.
    + apply K. unfold flush_reference. fold t3. change (t_tmp t3) with cps. destruct cps as [|x cps]; [contradiction|].
      change (consumed_as_part_of_attribute t3) with true. cbv iota. unfold push_attribute_values. rewrite E4. unfold to_return. rewrite B2. reflexivity.
    + split; [cbn; symmetry; exact Es|]. split; [exact B9|]. split; [exact B7|]. split; [exact B6|].
      intros g' l' a' Hg' El'. rewrite Hg in Hg'. inversion Hg'; subst g'. rewrite El in El'. apply app_inj_tail in El'. destruct El' as [<- <-]. exact C4.
Qed.
End Round.
