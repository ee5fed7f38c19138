(** Pushing code points one at a time makes the steps of reading the whole text. *)
From Coq Require Import ZArith List Bool Lia.
From Verif Require Import M_infra M_encoding M_html L_html1 L_html2 L_html3.
Import ListNotations.
Open Scope Z_scope.
Open Scope html_scope.

Section Pushing.
Variable switch : list token -> option state.
Hypothesis switch_text : forall l s, switch l = Some s ->
  s = RCDATA_state \/ s = RAWTEXT_state \/ s = script_data_state \/ s = PLAINTEXT_state.
Variable cdata : list token -> bool.
Variable ncr : list Z -> option (nat * list Z).
Hypothesis ncr_length : forall b len a, ncr b = Some (len, a) -> (len <= length b)%nat.
Hypothesis ncr_short : forall b len a, ncr b = Some (len, a) -> (len <= 32)%nat.
Hypothesis ncr_local : forall b r, length b = 33%nat -> ncr (b ++ r) = ncr b.

Notation pstep := (pstep switch cdata ncr).
Notation psteps := (psteps switch cdata ncr).
Notation phalts := (phalts switch cdata ncr).
Notation handler := (handler switch cdata ncr).
Notation run := (run switch cdata ncr).

Notation ec m := (s_eof_consumed (m_s m)).
Notation buf m := (s_c (m_s m)).
Definition ctl (m m1 : machine) : Prop := s_eof (m_s m1) = s_eof (m_s m) /\ s_cr (m_s m1) = s_cr (m_s m).

Lemma match_label_app l b f ci : (length l <= length b)%nat \/ f = [] -> match_label l (b ++ f) ci = match_label l b ci.
Proof.
  intros [H| ->]; [|rewrite app_nil_r; reflexivity]. revert b H. induction l as [|x l IH]; intros [|c b] H; cbn in *; try lia; [reflexivity..|].
  rewrite IH by lia. reflexivity.
Qed.

Lemma consume_n_ok n s : (n <= length (s_c s))%nat ->
  exists s1, consume_n n s = Some s1 /\ s_c s1 = skipn n (s_c s) /\ s_eof s1 = s_eof s /\ s_cr s1 = s_cr s /\ s_eof_consumed s1 = s_eof_consumed s.
Proof.
  revert s. induction n as [|n IH]; intros s H; [exists s; repeat split|].
  destruct (s_c s) as [|c r] eqn:E; [cbn in H; lia|]. cbn. unfold consume. rewrite E.
  destruct (IH (Stream r c (s_eof s) (s_eof_consumed s) (s_cr s))) as (s1 & A & B & C & D & F); [cbn in *; lia|].
  exists s1. cbn in *. auto.
Qed.

Lemma skipn_app_le n (b f : list Z) : (n <= length b)%nat -> skipn n (b ++ f) = skipn n b ++ f.
Proof. intro H. rewrite skipn_app. replace (n - length b)%nat with 0%nat by lia. reflexivity. Qed.
Lemma firstn_app_le n (b f : list Z) : (n <= length b)%nat -> firstn n (b ++ f) = firstn n b.
Proof. intro H. rewrite firstn_app. replace (n - length b)%nat with 0%nat by lia. cbn. apply app_nil_r. Qed.

Definition waits3 (s : state) : Prop :=
  s = markup_declaration_open_state \/ s = after_DOCTYPE_name_state \/ s = named_character_reference_state.

Lemma handler_ordinary m : waits (t_state (m_t m)) = false -> handler m =
  do (c, s1) <- consume (m_s m);
  do (t1, again) <- ordinary switch (m_t m) (if s_eof_consumed s1 then None else Some c);
  Some (if again : bool then Call (Machine (reconsume s1) t1) else Return (Machine s1 t1)).
Proof. unfold M_html.handler. destruct (t_state (m_t m)); intro H; (discriminate H || reflexivity). Qed.

Definition call_spec (m m1 : machine) (fut : list Z) : Prop :=
  ctl m m1 /\ ec m1 = false /\ pstep (m_t m) (buf m ++ fut) = Some (Next (m_t m1) (buf m1 ++ fut)) /\ (length (buf m1) <= length (buf m))%nat.

Definition handler_spec (m : machine) (fut : list Z) (nc : next_call) : Prop :=
  match nc with
  | Return m1 => ctl m m1 /\
      ((m1 = m /\ waits3 (t_state (m_t m)) /\ s_eof (m_s m) = false)
       \/ (ec m1 = false /\ pstep (m_t m) (buf m ++ fut) = Some (Next (m_t m1) (buf m1 ++ fut)) /\
           (length (buf m1) <= length (buf m))%nat /\
           (t_state (m_t m) <> numeric_character_reference_end_state -> (length (buf m1) < length (buf m))%nat))
       \/ (ec m1 = true /\ s_eof (m_s m) = true /\ buf m = [] /\ buf m1 = [] /\ pstep (m_t m) [] = Some (Halt (m_t m1))))
  | Call m1 => call_spec m m1 fut /\ buf m1 = buf m /\ (buf m <> [] \/ s_eof (m_s m) = true)
  | Flush m1 => call_spec m m1 fut /\ waits3 (t_state (m_t m)) /\ (s_eof (m_s m) = true \/ buf m <> [])
  | CallFlush m1 => call_spec m m1 fut /\ buf m1 = buf m /\ buf m <> [] /\ t_state (m_t m1) = bogus_DOCTYPE_state /\
      t_state (m_t m) = after_DOCTYPE_name_state
  end.

Lemma fill_cases n s (fut : list Z) : fill n s = true -> (s_eof s = true -> fut = []) ->
  (s_eof s = true /\ fut = []) \/ length (s_c s) = n.
Proof.
  unfold fill. intros H F. apply orb_true_iff in H. destruct H as [H|H]; [left; auto|].
  right. apply PeanoNat.Nat.eqb_eq in H. exact H.
Qed.

Lemma handler_sim m nc fut : handler m = Some nc -> ec m = false -> (s_eof (m_s m) = true -> fut = []) -> handler_spec m fut nc.
Proof.
  intros H E F. destruct m as [s t]. cbn [m_s m_t] in *.
  destruct (waits (t_state t)) eqn:W.
  - unfold M_html.handler in H. cbn [m_s m_t] in H. destruct (t_state t) eqn:Es; try discriminate W; clear W.
    + (* markup *)
      unfold on_markup_declaration_open in H. destruct (fill 7 s) eqn:Ef; cbn [negb] in H.
      2: { inversion H; subst. cbn. unfold ctl. split; [auto|]. left. unfold waits3. rewrite Es. split; [reflexivity|]. split; [auto|].
           unfold fill in Ef. apply orb_false_iff in Ef. tauto. }
      assert (FC := fill_cases _ _ _ Ef F).
      assert (ML : forall l ci, (length l <= 7)%nat -> match_label l (s_c s ++ fut) ci = match_label l (s_c s) ci).
      { intros l ci Hl. apply match_label_app. destruct FC as [[_ ->]|FC]; [auto|left; lia]. }
      assert (NE : s_eof s = true \/ s_c s <> []).
      { destruct FC as [[? _]|FC]; [auto|right; intro K; rewrite K in FC; discriminate]. }

      destruct (match_label str_dashes (s_c s) false) eqn:E1.
      { pose proof (match_label_length _ _ _ E1) as L. destruct (consume_n_ok 2 s L) as (s1 & A & B & C & D & G). rewrite A in H. inversion H; subst; clear H.
        cbn. unfold call_spec, ctl, waits3. cbn. rewrite Es. unfold L_html1.pstep. rewrite Es, ML, E1, skipn_app_le, B by (cbn in *; lia).
        rewrite skipn_length. repeat split; auto; try congruence; lia. }
      destruct (match_label str_doctype (s_c s) true) eqn:E2.
      { pose proof (match_label_length _ _ _ E2) as L. destruct (consume_n_ok 7 s L) as (s1 & A & B & C & D & G). rewrite A in H. inversion H; subst; clear H.
        cbn. unfold call_spec, ctl, waits3. cbn. rewrite Es. unfold L_html1.pstep. rewrite Es, !ML, E1, E2, skipn_app_le, B by (cbn in *; lia).
        rewrite skipn_length. repeat split; auto; try congruence; lia. }
      destruct (match_label str_cdata (s_c s) false) eqn:E3.
      { pose proof (match_label_length _ _ _ E3) as L. destruct (consume_n_ok 7 s L) as (s1 & A & B & C & D & G). rewrite A in H.
        assert (P : L_html1.pstep switch cdata ncr t (s_c s ++ fut) = Some (if cdata (t_out t) then Next (set_state CDATA_section_state t) (skipn 7 (s_c s) ++ fut)
               else Next (set_state bogus_comment_state (set_comment str_cdata t)) (skipn 7 (s_c s) ++ fut))).
        { unfold L_html1.pstep. rewrite Es, !ML, E1, E2, E3, skipn_app_le by (cbn in *; lia). reflexivity. }
        destruct (cdata (t_out t)); inversion H; subst; clear H;
        cbn; unfold call_spec, ctl, waits3; cbn; rewrite Es, P, B, skipn_length; repeat split; auto; try congruence; lia. }
      inversion H; subst; clear H. cbn. unfold call_spec, ctl, waits3. cbn. rewrite Es.
      unfold L_html1.pstep. rewrite Es, !ML, E1, E2, E3 by (cbn; lia). repeat split; auto.
    + (* after DOCTYPE name *)
      unfold on_after_DOCTYPE_name in H. destruct (fill 6 s) eqn:Ef; cbn [negb] in H.
      2: { inversion H; subst. cbn. unfold ctl. split; [auto|]. left. unfold waits3. rewrite Es. split; [reflexivity|]. split; [auto|].
           unfold fill in Ef. apply orb_false_iff in Ef. tauto. }
      assert (FC := fill_cases _ _ _ Ef F).
      assert (ML : forall l ci, (length l <= 6)%nat -> match_label l (s_c s ++ fut) ci = match_label l (s_c s) ci).
      { intros l ci Hl. apply match_label_app. destruct FC as [[_ ->]|FC]; [auto|left; lia]. }
      unfold consume in H. destruct (s_c s) as [|c r] eqn:Ec.
      { destruct FC as [[Ee ->]|FC]; [|discriminate]. rewrite Ee in H. cbn in H. inversion H; subst; clear H.
        cbn. unfold ctl. cbn. split; [auto|]. right; right. rewrite Ec. repeat split; auto. unfold L_html1.pstep. rewrite Es. reflexivity. }
      cbn [s_eof_consumed] in H. rewrite E in H. cbn [app] in ML.
      assert (P1 : L_html1.pstep switch cdata ncr t (c :: r ++ fut) =
        Some (if is_space c then Next t (r ++ fut)
                else if c =? 0x3E then Next (emit_doctype (set_state data_state t)) (r ++ fut)
                else if match_label str_public (c :: r) true then Next (set_state after_DOCTYPE_public_keyword_state t) (skipn 5 (r ++ fut))
                else if match_label str_system (c :: r) true then Next (set_state after_DOCTYPE_system_keyword_state t) (skipn 5 (r ++ fut))
                else Next (set_state bogus_DOCTYPE_state (set_quirks t)) (c :: r ++ fut))).
      { unfold L_html1.pstep. rewrite Es. rewrite !ML by (cbn; lia). reflexivity. }
      destruct (is_space c).
      { inversion H; subst; clear H. cbn. unfold call_spec, ctl, waits3. cbn. rewrite Ec, Es. cbn. rewrite P1. repeat split; auto. right; discriminate. }
      destruct (c =? 0x3E).
      { inversion H; subst; clear H. cbn. unfold call_spec, ctl, waits3. cbn. rewrite Ec, Es. cbn. rewrite P1. repeat split; auto. right; discriminate. }
      unfold match_current in H. cbn [s_c s_current] in H.
      destruct (match_label str_public (c :: r) true) eqn:E1.
      { pose proof (match_label_length _ _ _ E1) as L. destruct (consume_n_ok 5 (Stream r c (s_eof s) (s_eof_consumed s) (s_cr s))) as (s1 & A & B & C & D & G); [cbn in *; lia|].
        rewrite E in A. rewrite A in H. inversion H; subst; clear H. cbn [s_c s_eof s_cr s_eof_consumed] in B, C, D, G. 
        cbn [length] in L. rewrite skipn_app_le in P1 by (cbn in L; lia). unfold handler_spec, call_spec, ctl, waits3. cbn [m_s m_t]. rewrite Ec, Es, B.
        cbn [app]. rewrite P1, skipn_length. cbn [length]. repeat split; auto; try congruence; try lia. right; discriminate. }
      destruct (match_label str_system (c :: r) true) eqn:E2.
      { pose proof (match_label_length _ _ _ E2) as L. destruct (consume_n_ok 5 (Stream r c (s_eof s) (s_eof_consumed s) (s_cr s))) as (s1 & A & B & C & D & G); [cbn in *; lia|].
        rewrite E in A. rewrite A in H. inversion H; subst; clear H. cbn [s_c s_eof s_cr s_eof_consumed] in B, C, D, G. 
        cbn [length] in L. rewrite skipn_app_le in P1 by (cbn in L; lia). unfold handler_spec, call_spec, ctl, waits3. cbn [m_s m_t]. rewrite Ec, Es, B.
        cbn [app]. rewrite P1, skipn_length. cbn [length]. repeat split; auto; try congruence; try lia. right; discriminate. }
      inversion H; subst; clear H. unfold reconsume. cbn [s_eof_consumed s_current s_c s_eof s_cr]. cbn.
      unfold call_spec, ctl. cbn. rewrite Ec, Es. cbn. rewrite P1. repeat split; auto. discriminate.
    + (* named *)
      unfold on_named_character_reference in H. destruct (fill 33 s) eqn:Ef; cbn [negb] in H.
      2: { inversion H; subst. cbn. unfold ctl. split; [auto|]. left. unfold waits3. rewrite Es. split; [reflexivity|]. split; [auto|].
           unfold fill in Ef. apply orb_false_iff in Ef. tauto. }
      assert (FC := fill_cases _ _ _ Ef F).
      assert (NE : s_eof s = true \/ s_c s <> []).
      { destruct FC as [[? _]|FC]; [auto|right; intro K; rewrite K in FC; discriminate]. }
      assert (NL : ncr (s_c s ++ fut) = ncr (s_c s)).
      { destruct FC as [[_ ->]|FC]; [rewrite app_nil_r; reflexivity|]. apply ncr_local. exact FC. }
      destruct (ncr (s_c s)) as [[len a]|] eqn:En; [|discriminate].
      pose proof (ncr_length _ _ _ En) as Ln. pose proof (ncr_short _ _ _ En) as Ls.
      destruct len as [|k].
      * destruct (flush_reference t) as [t1|] eqn:Efl; [|discriminate]. inversion H; subst; clear H.
        cbn. unfold call_spec, ctl, waits3. cbn. rewrite Es. unfold L_html1.pstep. rewrite Es, NL, Efl. repeat split; auto.
      * destruct (nth_error (s_c s) k) as [tail|] eqn:Et; [|discriminate].
        destruct (consume_n_ok (S k) s Ln) as (s1 & A & B & C & D & G).
        rewrite A in H. cbv zeta in H.
        match type of H with context [flush_reference (if ?b then _ else _)] => remember b as keep eqn:Ek end.
        match type of H with context [flush_reference ?x] => destruct (flush_reference x) as [t3|] eqn:Efl end; [|discriminate].
        destruct (to_return t3) as [t4|] eqn:Er; [|discriminate]. inversion H; subst nc; clear H.
        cbn. unfold call_spec, ctl, waits3. cbn [m_s m_t]. rewrite Es, B. unfold L_html1.pstep. rewrite Es, NL.
        rewrite nth_error_app1 by lia. rewrite Et, firstn_app_le, skipn_app_le by lia.
        assert (K : match skipn (S k) (s_c s) ++ fut with
                    | [] => false
                    | c :: _ => consumed_as_part_of_attribute (set_tmp (t_tmp t ++ firstn (S k) (s_c s)) t) && negb (tail =? 0x3B) && ((c =? 0x3D) || is_ascii_alphanumeric c)
                    end = keep).
        { rewrite Ek, B. destruct FC as [[_ ->]|FC]; [rewrite app_nil_r; reflexivity|].
          destruct (skipn (S k) (s_c s)) eqn:Esk; [|reflexivity]. apply (f_equal (@length Z)) in Esk. rewrite skipn_length in Esk. cbn in Esk. lia. }
        cbv zeta. rewrite K, Efl, Er. rewrite skipn_length.
        repeat split; auto; try congruence; lia.
    + (* numeric end *)
      unfold on_numeric_character_reference_end in H. cbv zeta in H.
      match type of H with context [flush_reference ?x] => destruct (flush_reference x) as [t1|] eqn:Efl end; [|discriminate].
      destruct (to_return t1) as [t2|] eqn:Er; [|discriminate]. inversion H; subst; clear H.
      cbn. unfold ctl. split; [auto|]. right; left. cbn. unfold L_html1.pstep. rewrite Es. cbv zeta. rewrite Efl, Er. repeat split; auto. intro K; contradiction.
  - rewrite handler_ordinary in H by exact W. cbn [m_s m_t] in H. unfold consume in H.
    destruct (s_c s) as [|c r] eqn:Ec.
    + destruct (s_eof s) eqn:Ee; [|discriminate]. cbn [s_eof_consumed] in H.
      destruct (ordinary switch t None) as [[t1 b]|] eqn:Eo; [|discriminate]. rewrite (F eq_refl) in *. inversion H; subst; clear H.
      assert (P : L_html1.pstep switch cdata ncr t [] = Some (if b then Next t1 [] else Halt t1)).
      { rewrite pstep_ordinary by exact W. rewrite Eo. reflexivity. }
      destruct b; cbn.
      * unfold call_spec, ctl. cbn. rewrite Ec, Ee. cbn. rewrite P. repeat split; auto.
      * unfold ctl. cbn. rewrite Ee. split; [auto|]. right; right. rewrite Ec. repeat split; auto.
    + cbn [s_eof_consumed] in H. rewrite E in H.
      destruct (ordinary switch t (Some c)) as [[t1 b]|] eqn:Eo; [|discriminate]. inversion H; subst; clear H.
      assert (P : L_html1.pstep switch cdata ncr t (c :: r ++ fut) = Some (Next t1 (if b then c :: r ++ fut else r ++ fut))).
      { rewrite pstep_ordinary by exact W. rewrite Eo. reflexivity. }
      destruct b; cbn.
      * unfold call_spec, ctl. cbn. rewrite Ec. cbn. rewrite P. repeat split; auto. left; discriminate.
      * unfold ctl. cbn. split; [auto|]. right; left. rewrite Ec. cbn. rewrite P. repeat split; auto.
Qed.

(** ** Soundness: the steps of the push machine are steps of reading *)
Definition reaches (m m1 : machine) (fut : list Z) : Prop :=
  ctl m m1 /\ (length (buf m1) <= length (buf m))%nat /\
  if ec m1 then s_eof (m_s m) = true /\ buf m1 = [] /\ phalts (m_t m) (buf m ++ fut) (m_t m1)
  else psteps (m_t m) (buf m ++ fut) (m_t m1) (buf m1 ++ fut).

Lemma reaches_refl m fut : ec m = false -> reaches m m fut.
Proof. intro E. unfold reaches, ctl. rewrite E. repeat split; auto. constructor. Qed.

Lemma reaches_step m m1 m2 fut : call_spec m m1 fut -> reaches m1 m2 fut -> reaches m m2 fut.
Proof.
  intros ((A1 & A2) & B & C & D) ((E1 & E2) & G & H). unfold reaches, ctl. split; [split; congruence|]. split; [lia|].
  destruct (ec m2).
  - destruct H as (H1 & H2 & H3). split; [congruence|]. split; [assumption|]. eapply ph_trans; [apply ps_one; eassumption|assumption].
  - eapply ps_step; eassumption.
Qed.
Lemma reaches_trans m m1 m2 fut : ec m1 = false -> reaches m m1 fut -> reaches m1 m2 fut -> reaches m m2 fut.
Proof.
  intros B ((A1 & A2) & D & C) ((E1 & E2) & G & H). unfold reaches, ctl. split; [split; congruence|]. split; [lia|].
  rewrite B in C. destruct (ec m2).
  - destruct H as (H1 & H2 & H3). split; [congruence|]. split; [assumption|]. eapply ph_trans; eassumption.
  - eapply ps_trans; eassumption.
Qed.

Lemma run_loop_done f m m1 : run f On_loop m = Val m1 -> ec m = true -> buf m = [] -> m1 = m.
Proof. destruct f; [discriminate|]. cbn. intros H E B. rewrite B, E, andb_false_r in H. congruence. Qed.

Lemma run_sim f : forall e m m1 fut, run f e m = Val m1 -> ec m = false -> (s_eof (m_s m) = true -> fut = []) -> reaches m m1 fut.
Proof.
  induction f as [|f IH]; intros e m m1 fut H E F; [discriminate|]. cbn [M_html.run] in H. destruct e.
  - destruct (handler m) as [nc|] eqn:Eh; [|discriminate]. pose proof (handler_sim m nc fut Eh E F) as HS.
    destruct nc as [m2|m2|m2|m2]; cbn [handler_spec] in HS.
    + inversion H; subst m2. destruct HS as (C & [(-> & _)|[(A & B & D & _)|(A & B & C1 & C2 & D)]]).
      * apply reaches_refl. exact E.
      * split; [exact C|]. split; [exact D|]. rewrite A. apply ps_one. exact B.
      * split; [exact C|]. rewrite C1, C2. split; [cbn; lia|]. rewrite A. split; [exact B|]. split; [reflexivity|].
        rewrite (F B). cbn. apply ph_halt. exact D.
    + destruct HS as (C & _). eapply reaches_step; [exact C|]. destruct C as ((C1 & C2) & C3 & _).
      apply (IH On_emit); [exact H|exact C3|]. rewrite C1. exact F.
    + destruct HS as (C & _). eapply reaches_step; [exact C|]. destruct C as ((C1 & C2) & C3 & _).
      apply (IH On_flush); [exact H|exact C3|]. rewrite C1. exact F.
    + destruct HS as (C & _). eapply reaches_step; [exact C|]. destruct C as ((C1 & C2) & C3 & _).
      destruct (run f On_emit m2) as [m3| |] eqn:E2; try discriminate H. cbn [bind] in H.
      assert (R : reaches m2 m3 fut) by (apply (IH On_emit); [exact E2|exact C3|rewrite C1; exact F]).
      destruct (ec m3) eqn:E3.
      * destruct f; [discriminate|]. cbn in H. rewrite E3 in H. discriminate.
      * eapply reaches_trans; [exact E3|exact R|]. apply (IH On_flush); [exact H|exact E3|].
        destruct R as ((R1 & _) & _). rewrite R1, C1. exact F.
  - rewrite E in H. apply (IH On_loop); assumption.
  - destruct (buf m) as [|c r] eqn:Eb.
    + rewrite E, andb_true_r in H. destruct (s_eof (m_s m)) eqn:Ee.
      * apply (IH On_emit); [assumption|assumption|]. rewrite Ee. exact F.
      * inversion H; subst. apply reaches_refl. exact E.
    + destruct (run f On_emit m) as [m2| |] eqn:E2; try discriminate H. cbn [bind] in H.
      assert (R : reaches m m2 fut) by (apply (IH On_emit); assumption).
      destruct (length (buf m2) =? length (c :: r))%nat eqn:El.
      * inversion H; subst. exact R.
      * destruct (ec m2) eqn:E3.
        -- pose proof R as (_ & _ & R3). rewrite E3 in R3. destruct R3 as (_ & R3 & _).
           rewrite (run_loop_done _ _ _ H E3 R3). exact R.
        -- eapply reaches_trans; [exact E3|exact R|]. apply (IH On_loop); [exact H|exact E3|].
           destruct R as ((R1 & _) & _). rewrite R1. exact F.
Qed.

(** ** Progress: without numeric references nothing is left behind *)
Definition numfree (t : tok) (r : list Z) : Prop :=
  forall t1 r1, psteps t r t1 r1 -> t_state t1 <> numeric_character_reference_end_state.
Lemma numfree_steps t r t1 r1 : numfree t r -> psteps t r t1 r1 -> numfree t1 r1.
Proof. intros H H1 t2 r2 H2. apply (H t2 r2). eapply ps_trans; eassumption. Qed.

Definition idle (m : machine) : Prop := ec m = true \/ (s_eof (m_s m) = false /\ (buf m = [] \/ waits3 (t_state (m_t m)))).

Lemma run_progress f : forall e m m1 fut, run f e m = Val m1 -> ec m = false -> (s_eof (m_s m) = true -> fut = []) ->
  numfree (m_t m) (buf m ++ fut) ->
  match e with
  | On_emit => ec m1 = true \/ (s_eof (m_s m) = false /\ waits3 (t_state (m_t m1))) \/ (length (buf m1) < length (buf m))%nat
  | _ => idle m1
  end.
Proof.
  induction f as [|f IH]; intros e m m1 fut H E F N; [discriminate|]. cbn [M_html.run] in H. destruct e.
  - destruct (handler m) as [nc|] eqn:Eh; [|discriminate]. pose proof (handler_sim m nc fut Eh E F) as HS.
    destruct nc as [m2|m2|m2|m2]; cbn [handler_spec] in HS.
    + inversion H; subst m2. destruct HS as (C & [(-> & W & Ee)|[(A & B & D & K)|(A & B & C1 & C2 & D)]]).
      * right; left. auto.
      * right; right. apply K. apply (N _ _ (ps_refl _ _ _ _ _)).
      * left. exact A.
    + destruct HS as (C & B & _). pose proof C as ((C1 & C2) & C3 & C4 & C5).
      assert (N2 : numfree (m_t m2) (buf m2 ++ fut)) by (eapply numfree_steps; [exact N|apply ps_one; exact C4]).
      pose proof (IH On_emit m2 m1 fut H C3 ltac:(rewrite C1; exact F) N2) as R. cbn in R. rewrite C1, B in R. exact R.
    + destruct HS as (C & W & B). pose proof C as ((C1 & C2) & C3 & C4 & C5).
      assert (N2 : numfree (m_t m2) (buf m2 ++ fut)) by (eapply numfree_steps; [exact N|apply ps_one; exact C4]).
      pose proof (IH On_flush m2 m1 fut H C3 ltac:(rewrite C1; exact F) N2) as R. cbn in R.
      assert (R0 : reaches m2 m1 fut) by (apply (run_sim f On_flush); [exact H|exact C3|rewrite C1; exact F]).
      destruct R as [R|(R1 & [R2|R2])]; [auto| |].
      * destruct R0 as ((R3 & _) & _). rewrite R3, C1 in R1. right; right. rewrite R2. destruct B as [B|B]; [congruence|].
        destruct (buf m); [contradiction|cbn; lia].
      * destruct R0 as ((R3 & _) & _). rewrite R3, C1 in R1. auto.
    + destruct HS as (C & B & Bn & _). pose proof C as ((C1 & C2) & C3 & C4 & C5).
      assert (N2 : numfree (m_t m2) (buf m2 ++ fut)) by (eapply numfree_steps; [exact N|apply ps_one; exact C4]).
      destruct (run f On_emit m2) as [m3| |] eqn:E2; try discriminate H. cbn [bind] in H.
      assert (R : reaches m2 m3 fut) by (apply (run_sim f On_emit); [exact E2|exact C3|rewrite C1; exact F]).
      destruct (ec m3) eqn:E3.
      { destruct f; [discriminate|]. cbn in H. rewrite E3 in H. discriminate. }
      pose proof R as ((R1 & _) & R2 & R3). rewrite E3 in R3.
      assert (N3 : numfree (m_t m3) (buf m3 ++ fut)) by (eapply numfree_steps; eassumption).
      assert (F3 : s_eof (m_s m3) = true -> fut = []) by (rewrite R1, C1; exact F).
      pose proof (IH On_flush m3 m1 fut H E3 F3 N3) as K. cbn in K.
      assert (R0 : reaches m3 m1 fut) by (apply (run_sim f On_flush); assumption).
      destruct K as [K|(K1 & [K2|K2])]; [auto| |].
      * right; right. rewrite K2. destruct (buf m); [contradiction|cbn; lia].
      * destruct R0 as ((R4 & _) & _). rewrite R4, R1, C1 in K1. auto.
  - rewrite E in H. apply (IH On_loop m m1 fut); assumption.
  - destruct (buf m) as [|c r] eqn:Eb.
    + rewrite E, andb_true_r in H. destruct (s_eof (m_s m)) eqn:Ee.
      * assert (F2 : s_eof (m_s m) = true -> fut = []) by (rewrite Ee; exact F).
        assert (N2 : numfree (m_t m) (buf m ++ fut)) by (rewrite Eb; exact N).
        pose proof (IH On_emit m m1 fut H E F2 N2) as R. cbn in R.
        rewrite Eb in R. left. destruct R as [R|[(R & _)|R]]; [exact R|congruence|cbn in R; lia].
      * inversion H; subst. right. auto.
    + destruct (run f On_emit m) as [m2| |] eqn:E2; try discriminate H. cbn [bind] in H.
      assert (R : reaches m m2 fut) by (apply (run_sim f On_emit); assumption).
      assert (N2 : numfree (m_t m) (buf m ++ fut)) by (rewrite Eb; exact N).
      pose proof (IH On_emit m m2 fut E2 E F N2) as K. cbn in K. rewrite Eb in K.
      destruct (length (buf m2) =? length (c :: r))%nat eqn:El.
      * inversion H; subst. apply PeanoNat.Nat.eqb_eq in El. destruct K as [K|[(K & K1)|K]]; [left; exact K| |lia].
        right. destruct R as ((R1 & _) & _). rewrite R1. auto.
      * destruct (ec m2) eqn:E3.
        -- pose proof R as (_ & _ & R3). rewrite E3 in R3. destruct R3 as (_ & R3 & _).
           rewrite (run_loop_done _ _ _ H E3 R3). left. exact E3.
        -- pose proof R as ((R1 & _) & R2 & R3). rewrite E3 in R3.
           apply (IH On_loop m2 m1 fut); [exact H|exact E3|rewrite R1; exact F|]. eapply numfree_steps; [exact N2|exact R3].
Qed.

End Pushing.
