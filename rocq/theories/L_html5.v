(** The push machine never fails and always comes back; and what it does with a whole text. *)
From Coq Require Import ZArith List Bool Lia.
From Verif Require Import M_infra M_encoding M_html L_html1 L_html2 L_html3 L_html4.
Import ListNotations.
Open Scope Z_scope.
Open Scope html_scope.

Section Total.
Variable switch : list token -> option state.
Hypothesis switch_text : forall l s, switch l = Some s ->
  s = RCDATA_state \/ s = RAWTEXT_state \/ s = script_data_state \/ s = PLAINTEXT_state.
Variable cdata : list token -> bool.
Variable ncr : list Z -> option (nat * list Z).
Hypothesis ncr_length : forall b len a, ncr b = Some (len, a) -> (len <= length b)%nat.
Hypothesis ncr_short : forall b len a, ncr b = Some (len, a) -> (len <= 32)%nat.
Hypothesis ncr_local : forall b r, length b = 33%nat -> ncr (b ++ r) = ncr b.
Hypothesis ncr_nil : ncr [] <> None.
(** the text being read, after newline normalisation; reading it from [t0] comes to an end *)
Variable t0 : tok.
Variable whole : list Z.
Hypothesis halts : exists t', L_html1.phalts switch cdata ncr t0 whole t'.

Notation pstep := (pstep switch cdata ncr).
Notation psteps := (psteps switch cdata ncr).
Notation phalts := (phalts switch cdata ncr).
Notation handler := (handler switch cdata ncr).
Notation run := (run switch cdata ncr).
Notation ec m := (s_eof_consumed (m_s m)).
Notation buf m := (s_c (m_s m)).
Notation reaches := (reaches switch cdata ncr).

(** where the machine can be: somewhere on the way through the text, or after its end *)
Definition INV (t : tok) (r : list Z) : Prop := SAFE t r /\ (psteps t0 whole t r \/ r = []).
Lemma INV_ncr t r : INV t r -> t_state t = named_character_reference_state -> ncr r <> None.
Proof.
  intros (_ & [H| ->]) E; [|exact ncr_nil]. destruct halts as (t' & Hh). apply (ps_det_halt _ _ _ _ _ _ _ H) in Hh.
  destruct Hh as (t1 & r1 & H1 & H2). intro N. assert (P : pstep t r = None) by (unfold L_html1.pstep; rewrite E, N; reflexivity).
  inversion H1; subst; congruence.
Qed.
Lemma pstep_INV t r t1 r1 : pstep t r = Some (Next t1 r1) -> INV t r -> INV t1 r1 /\ (weight t1 r1 < weight t r)%nat.
Proof.
  intros H I. pose proof I as (HS & P). destruct (pstep_ok switch switch_text cdata ncr ncr_length t r HS (INV_ncr _ _ I)) as (p & E1 & K).
  rewrite H in E1. inversion E1; subst. destruct K as [K1 K2]. split; [|exact K2]. split; [exact K1|].
  destruct P as [P| ->]; [left; eapply ps_trans; [exact P|apply ps_one; exact H]|].
  right. unfold weight in K2. destruct r1; [reflexivity|]. pose proof (rank_le (t_state t) (head [])). cbn in *. lia.
Qed.
Lemma psteps_safe t r t1 r1 : psteps t r t1 r1 -> INV t r -> INV t1 r1 /\ (weight t1 r1 <= weight t r)%nat.
Proof.
  induction 1 as [|t r t1 r1 t2 r2 H _ IH]; intro I; [auto|].
  destruct (pstep_INV _ _ _ _ H I) as [K1 K2]. destruct (IH K1). split; [assumption|lia].
Qed.


Definition ready (m : machine) (fut : list Z) : Prop :=
  ec m = false /\ (s_eof (m_s m) = true -> fut = []) /\ INV (m_t m) (buf m ++ fut).

Lemma handler_total m fut : ready m fut -> (buf m <> [] \/ s_eof (m_s m) = true) -> exists nc, handler m = Some nc.
Proof.
  intros (E & F & HI) B. pose proof (INV_ncr _ _ HI) as N. destruct HI as (HS & _). destruct m as [s t]. cbn [m_s m_t] in *.
  destruct (waits (t_state t)) eqn:W.
  - unfold M_html.handler. cbn [m_s m_t]. unfold SAFE, safe in HS. destruct (t_state t) eqn:Es; try discriminate W; clear W.
    + unfold on_markup_declaration_open. destruct (fill 7 s); cbn [negb]; [|eauto].
      destruct (match_label str_dashes (s_c s) false) eqn:E1.
      { pose proof (match_label_length _ _ _ E1) as L. destruct (consume_n_ok 2 s L) as (s1 & -> & _). eauto. }
      destruct (match_label str_doctype (s_c s) true) eqn:E2.
      { pose proof (match_label_length _ _ _ E2) as L. destruct (consume_n_ok 7 s L) as (s1 & -> & _). eauto. }
      destruct (match_label str_cdata (s_c s) false) eqn:E3.
      { pose proof (match_label_length _ _ _ E3) as L. destruct (consume_n_ok 7 s L) as (s1 & -> & _). destruct (cdata (t_out t)); eauto. }
      eauto.
    + unfold on_after_DOCTYPE_name. destruct (fill 6 s); cbn [negb]; [|eauto].
      unfold consume. destruct (s_c s) as [|c r] eqn:Ec.
      { destruct B as [B|B]; [contradiction|]. rewrite B. cbn. eauto. }
      cbn [s_eof_consumed]. rewrite E. destruct (is_space c); [eauto|]. destruct (c =? 0x3E); [eauto|].
      unfold match_current. cbn [s_c s_current].
      destruct (match_label str_public (c :: r) true) eqn:E1.
      { pose proof (match_label_length _ _ _ E1) as L. destruct (consume_n_ok 5 (Stream r c (s_eof s) false (s_cr s))) as (s1 & -> & _); [cbn in *; lia|]. eauto. }
      destruct (match_label str_system (c :: r) true) eqn:E2.
      { pose proof (match_label_length _ _ _ E2) as L. destruct (consume_n_ok 5 (Stream r c (s_eof s) false (s_cr s))) as (s1 & -> & _); [cbn in *; lia|]. eauto. }
      eauto.
    + unfold on_named_character_reference. destruct (fill 33 s) eqn:Fi; cbn [negb]; [|eauto].
      destruct (ncr (s_c s)) as [[len a]|] eqn:En.
      2:{ destruct (N eq_refl). destruct (fill_cases _ _ _ Fi F) as [[_ ->]|L]; [rewrite app_nil_r; exact En|rewrite ncr_local by exact L; exact En]. }
      pose proof (ncr_length _ _ _ En) as Ln. destruct len as [|k].
      { destruct (flush_reference_ok _ HS) as (t1 & -> & _). eauto. }
      destruct (nth_error (s_c s) k) as [tail|] eqn:Et; [|apply nth_error_None in Et; lia].
      destruct (consume_n_ok (S k) s Ln) as (s1 & -> & _). cbv zeta.
      match goal with |- context [flush_reference ?x] => destruct (flush_reference_ok x) as (t1 & -> & R1 & _) end.
      { match goal with |- context [if ?b then _ else _] => destruct b end; revert HS; apply retok_ext; reflexivity. }
      destruct (to_return_ok _ R1) as (t2 & -> & _). eauto.
    + unfold on_numeric_character_reference_end. cbv zeta.
      match goal with |- context [flush_reference ?x] => destruct (flush_reference_ok x) as (t1 & -> & R1 & _) end.
      { revert HS; apply retok_ext; reflexivity. }
      destruct (to_return_ok _ R1) as (t2 & -> & _). eauto.
  - rewrite handler_ordinary by exact W. cbn [m_s m_t]. unfold consume. destruct (s_c s) as [|c r] eqn:Ec.
    + destruct B as [B|B]; [contradiction|]. rewrite B. cbn [s_eof_consumed]. rewrite (F B) in *.
      destruct (ordinary_safe switch switch_text t None HS W) as (t1 & b & -> & _). eauto.
    + cbn [s_eof_consumed]. rewrite E. destruct (ordinary_safe switch switch_text t (Some c) HS W) as (t1 & b & -> & _). eauto.
Qed.

Lemma call_ready m m1 fut : ready m fut -> call_spec switch cdata ncr m m1 fut ->
  ready m1 fut /\ (weight (m_t m1) (buf m1 ++ fut) < weight (m_t m) (buf m ++ fut))%nat.
Proof.
  intros (E & F & HS) ((C1 & C2) & C3 & C4 & C5).
  destruct (pstep_INV _ _ _ _ C4 HS) as [K1 K2]. split; [|exact K2].
  split; [exact C3|]. split; [rewrite C1; exact F|exact K1].
Qed.
Lemma reaches_ready m m1 fut : ready m fut -> reaches m m1 fut -> ec m1 = false ->
  ready m1 fut /\ (weight (m_t m1) (buf m1 ++ fut) <= weight (m_t m) (buf m ++ fut))%nat.
Proof.
  intros (E & F & HS) ((C1 & C2) & C3 & C4) E1. rewrite E1 in C4.
  destruct (psteps_safe _ _ _ _ C4 HS) as [K1 K2]. split; [|exact K2].
  split; [exact E1|]. split; [rewrite C1; exact F|exact K1].
Qed.

Definition needs (e : entry) (w : nat) : nat :=
  match e with On_emit => (3 * w + 1)%nat | On_loop => (3 * w + 2)%nat | On_flush => (3 * w + 3)%nat end.

Lemma run_bogus f m c r : t_state (m_t m) = bogus_DOCTYPE_state -> buf m = c :: r -> ec m = false ->
  exists m1, run (S f) On_emit m = Val m1 /\ ec m1 = false.
Proof.
  intros Es B E. destruct m as [s t]. cbn [m_s m_t] in *. cbn [M_html.run]. rewrite handler_ordinary by (cbn; rewrite Es; reflexivity).
  cbn [m_s m_t]. unfold consume. rewrite B. cbn [s_eof_consumed]. rewrite E. unfold ordinary. rewrite Es. unfold on_bogus_DOCTYPE, stay.
  destruct (c =? 0x3E); eexists; (split; [reflexivity|]); reflexivity.
Qed.

Lemma run_total f : forall e m fut, ready m fut -> (needs e (weight (m_t m) (buf m ++ fut)) <= f)%nat ->
  (e = On_emit -> buf m <> [] \/ s_eof (m_s m) = true) -> exists m1, run f e m = Val m1.
Proof.
  induction f as [|f IH]; intros e m fut R Hf Hb; [destruct e; cbn in Hf; lia|]. cbn [M_html.run].
  pose proof R as (E & F & HS). destruct e.
  - destruct (handler_total m fut R (Hb eq_refl)) as (nc & Eh). rewrite Eh.
    pose proof (handler_sim switch cdata ncr ncr_length ncr_short ncr_local m nc fut Eh E F) as Sp.
    cbn [needs] in Hf. destruct nc as [m2|m2|m2|m2]; cbn [handler_spec] in Sp.
    + eauto.
    + destruct Sp as (C & B & B1). destruct (call_ready _ _ _ R C) as [R2 W]. apply (IH On_emit m2 fut R2); [cbn [needs]; lia|].
      intros _. rewrite B. destruct C as ((C1 & _) & _). rewrite C1. exact B1.
    + destruct Sp as (C & _). destruct (call_ready _ _ _ R C) as [R2 W]. apply (IH On_flush m2 fut R2); [cbn [needs]; lia|discriminate].
    + destruct Sp as (C & B & Bn & Es & _). destruct (call_ready _ _ _ R C) as [R2 W].
      destruct (buf m) as [|c r] eqn:Eb; [contradiction|]. pose proof R2 as (E2 & F2 & _).
      destruct f as [|f]; [lia|].
      destruct (run_bogus f m2 c r Es B E2) as (m3 & H3 & E3). rewrite H3. cbn [bind].
      pose proof (run_sim switch cdata ncr ncr_length ncr_short ncr_local _ _ _ _ fut H3 E2 F2) as R3.
      destruct (reaches_ready _ _ _ R2 R3 E3) as [R4 W4].
      apply (IH On_flush m3 fut R4); [cbn [needs]; lia|discriminate].
  - rewrite E. apply (IH On_loop m fut R); [cbn [needs] in *; lia|discriminate].
  - cbn [needs] in Hf. destruct (buf m) as [|c r] eqn:Eb.
    + rewrite E, andb_true_r. destruct (s_eof (m_s m)) eqn:Ee; [|eauto].
      apply (IH On_emit m fut R); [rewrite Eb; cbn [needs]; lia|auto].
    + destruct (IH On_emit m fut R) as (m1 & H1); [rewrite Eb; cbn [needs]; lia|intros _; left; rewrite Eb; discriminate|].
      rewrite H1. cbn [bind]. pose proof (run_sim switch cdata ncr ncr_length ncr_short ncr_local _ _ _ _ fut H1 E F) as R3.
      destruct (length (buf m1) =? length (c :: r))%nat eqn:El; [eauto|].
      destruct (ec m1) eqn:E1.
      * pose proof R3 as (_ & _ & R4). rewrite E1 in R4. destruct R4 as (_ & R4 & _).
        destruct f as [|f]; [lia|]. cbn [M_html.run]. rewrite R4, E1, andb_false_r. eauto.
      * destruct (reaches_ready _ _ _ R R3 E1) as [R4 W4].
        apply (IH On_loop m1 fut R4); [|discriminate]. cbn [needs].
        assert (L : (length (buf m1) < length (buf m))%nat).
        { destruct R3 as (_ & R3 & _). apply PeanoNat.Nat.eqb_neq in El. rewrite Eb in *. lia. }
        assert (W5 : (weight (m_t m1) (buf m1 ++ fut) < weight (m_t m) (buf m ++ fut))%nat).
        { apply weight_shorter. rewrite !app_length. lia. }
        rewrite Eb in W5. lia.
Qed.

(** ** What is left when the machine comes back *)
Lemma handler_waits m nc : handler m = Some nc -> waits3 (t_state (m_t m)) ->
  match nc with Return m1 => s_eof (m_s m) = false \/ ec m1 = true | Call _ => False | _ => True end.
Proof.
  destruct m as [s t]. cbn [m_s m_t]. unfold M_html.handler. cbn [m_s m_t]. intros H [E|[E|E]]; rewrite E in H.
  - unfold on_markup_declaration_open in H. destruct (fill 7 s) eqn:Fi; cbn [negb] in H.
    + destruct (match_label str_dashes (s_c s) false). { destruct (consume_n 2 s); inversion H; exact I. }
      destruct (match_label str_doctype (s_c s) true). { destruct (consume_n 7 s); inversion H; exact I. }
      destruct (match_label str_cdata (s_c s) false). { destruct (consume_n 7 s); [|discriminate]. destruct (cdata (t_out t)); inversion H; exact I. }
      inversion H; exact I.
    + inversion H; subst. left. unfold fill in Fi. apply orb_false_iff in Fi. tauto.
  - unfold on_after_DOCTYPE_name in H. destruct (fill 6 s) eqn:Fi; cbn [negb] in H.
    + destruct (consume s) as [[c s1]|]; [|discriminate]. destruct (s_eof_consumed s1) eqn:Ec; [inversion H; right; exact Ec|].
      destruct (is_space c); [inversion H; exact I|]. destruct (c =? 0x3E); [inversion H; exact I|].
      destruct (match_current str_public s1 true). { destruct (consume_n 5 s1); inversion H; exact I. }
      destruct (match_current str_system s1 true). { destruct (consume_n 5 s1); inversion H; exact I. }
      inversion H; exact I.
    + inversion H; subst. left. unfold fill in Fi. apply orb_false_iff in Fi. tauto.
  - unfold on_named_character_reference in H. destruct (fill 33 s) eqn:Fi; cbn [negb] in H.
    + destruct (ncr (s_c s)) as [[len a]|]; [|discriminate]. destruct len as [|k].
      { destruct (flush_reference t); inversion H; exact I. }
      destruct (nth_error (s_c s) k); [|discriminate]. destruct (consume_n (S k) s); [|discriminate]. cbv zeta in H.
      match type of H with context [flush_reference ?x] => destruct (flush_reference x) as [t1|]; [|discriminate H] end.
      destruct (to_return t1); inversion H; exact I.
    + inversion H; subst. left. unfold fill in Fi. apply orb_false_iff in Fi. tauto.
Qed.

Lemma run_waits f m m1 fut : run f On_emit m = Val m1 -> ec m = false -> (s_eof (m_s m) = true -> fut = []) ->
  numfree switch cdata ncr (m_t m) (buf m ++ fut) -> waits3 (t_state (m_t m)) -> idle m1.
Proof.
  intros H E F N Wt. destruct f; [discriminate|]. cbn [M_html.run] in H.
  destruct (handler m) as [nc|] eqn:Eh; [|discriminate].
  pose proof (handler_sim switch cdata ncr ncr_length ncr_short ncr_local m nc fut Eh E F) as Sp.
  pose proof (handler_waits _ _ Eh Wt) as Hw.
  destruct nc as [m2|m2|m2|m2]; cbn [handler_spec] in Sp; try contradiction.
  - inversion H; subst m2. destruct Sp as ((C1 & _) & Sp). destruct Hw as [Hw|Hw]; [|left; exact Hw]. right.
    destruct Sp as [(-> & _ & _)|[(A & B & D & K)|(A & B & _)]]; [auto| |congruence].
    split; [rewrite C1; exact Hw|].
    exfalso. clear - Eh Wt Hw D K A. assert (L : (length (buf m1) < length (buf m))%nat).
    { apply K. destruct Wt as [Wt|[Wt|Wt]]; rewrite Wt; discriminate. }
    clear K D. destruct m as [s t]. cbn [m_s m_t] in *. unfold M_html.handler in Eh. cbn [m_s m_t] in Eh.
    destruct Wt as [Wt|[Wt|Wt]]; rewrite Wt in Eh.
    + unfold on_markup_declaration_open in Eh. destruct (fill 7 s); cbn [negb] in Eh; [|inversion Eh; subst; cbn in L; lia].
      repeat match type of Eh with context [if ?b then _ else _] => destruct b end;
        repeat match type of Eh with context [consume_n ?a ?b] => destruct (consume_n a b) end;
        repeat match type of Eh with context [if ?b then _ else _] => destruct b end; discriminate.
    + unfold on_after_DOCTYPE_name in Eh. destruct (fill 6 s); cbn [negb] in Eh; [|inversion Eh; subst; cbn in L; lia].
      destruct (consume s) as [[c s1]|]; [|discriminate]. destruct (s_eof_consumed s1) eqn:Ec; [inversion Eh; subst; cbn in A; congruence|].
      repeat match type of Eh with context [if ?b then _ else _] => destruct b end;
        repeat match type of Eh with context [consume_n ?a ?b] => destruct (consume_n a b) end; discriminate.
    + unfold on_named_character_reference in Eh. destruct (fill 33 s); cbn [negb] in Eh; [|inversion Eh; subst; cbn in L; lia].
      destruct (ncr (s_c s)) as [[len a]|]; [|discriminate]. destruct len as [|k].
      { destruct (flush_reference t); discriminate. }
      destruct (nth_error (s_c s) k); [|discriminate]. destruct (consume_n (S k) s); [|discriminate]. cbv zeta in Eh.
      match type of Eh with context [flush_reference ?x] => destruct (flush_reference x) as [t1|]; [|discriminate Eh] end.
      destruct (to_return t1); discriminate.
  - destruct Sp as (C & _). pose proof C as ((C1 & _) & C3 & C4 & _).
    apply (run_progress switch cdata ncr ncr_length ncr_short ncr_local f On_flush m2 m1 fut H C3); [rewrite C1; exact F|].
    eapply numfree_steps; [exact N|apply ps_one; exact C4].
  - destruct Sp as (C & _). pose proof C as ((C1 & _) & C3 & C4 & _).
    destruct (run f On_emit m2) as [m3| |] eqn:E2; try discriminate H. cbn [bind] in H.
    assert (F2 : s_eof (m_s m2) = true -> fut = []) by (rewrite C1; exact F).
    pose proof (run_sim switch cdata ncr ncr_length ncr_short ncr_local _ _ _ _ fut E2 C3 F2) as R.
    destruct (ec m3) eqn:E3; [destruct f; [discriminate|]; cbn in H; rewrite E3 in H; discriminate|].
    pose proof R as ((R1 & _) & _ & R3). rewrite E3 in R3.
    apply (run_progress switch cdata ncr ncr_length ncr_short ncr_local f On_flush m3 m1 fut H E3); [rewrite R1; exact F2|].
    eapply numfree_steps; [|exact R3]. eapply numfree_steps; [exact N|apply ps_one; exact C4].
Qed.

Lemma run_idle f m m1 fut : run f On_emit m = Val m1 -> ec m = false -> (s_eof (m_s m) = true -> fut = []) ->
  numfree switch cdata ncr (m_t m) (buf m ++ fut) ->
  buf m = [] \/ (s_eof (m_s m) = false /\ (length (buf m) <= 1)%nat) \/ waits3 (t_state (m_t m)) -> idle m1.
Proof.
  intros H E F N [B|[[B1 B2]|B]]; [| |eapply run_waits; eassumption].
  - pose proof (run_progress switch cdata ncr ncr_length ncr_short ncr_local f On_emit m m1 fut H E F N) as P. cbn in P.
    destruct P as [P|[[P1 P2]|P]]; [left; exact P| |rewrite B in P; cbn in P; lia].
    right. pose proof (run_sim switch cdata ncr ncr_length ncr_short ncr_local _ _ _ _ fut H E F) as ((R & _) & _). rewrite R. auto.
  - pose proof (run_progress switch cdata ncr ncr_length ncr_short ncr_local f On_emit m m1 fut H E F N) as P. cbn in P.
    pose proof (run_sim switch cdata ncr ncr_length ncr_short ncr_local _ _ _ _ fut H E F) as ((R & _) & _).
    destruct P as [P|[[P1 P2]|P]]; [left; exact P|right; rewrite R; auto|].
    right. rewrite R. split; [exact B1|]. left. destruct (buf m1); [reflexivity|cbn in P; lia].
Qed.

(** ** A whole text *)
Definition pending (b : bool) (text : list Z) : list Z := newlines (if b then 0xD :: text else text).
Lemma newlines_other c r : c <> 0xD -> newlines (c :: r) = c :: newlines r.
Proof.
  intro N. cbn [newlines]. destruct c as [|p|p]; try reflexivity.
  repeat (destruct p as [p|p|]; try reflexivity). contradiction.
Qed.
Lemma newlines_cr c r : c <> 0xA -> newlines (0xD :: c :: r) = 0xA :: newlines (c :: r).
Proof.
  intro N. change (newlines (0xD :: c :: r)) with (0xA :: match c :: r with 0xA :: r1 => newlines r1 | _ => newlines (c :: r) end).
  f_equal. destruct c as [|p|p]; try reflexivity. repeat (destruct p as [p|p|]; try reflexivity). contradiction.
Qed.

Hypothesis start_safe : SAFE t0 whole.
Definition plain : Prop := numfree switch cdata ncr t0 whole.
Lemma reached_numfree t r : psteps t0 whole t r -> plain -> numfree switch cdata ncr t r.
Proof. intros H P. eapply numfree_steps; eassumption. Qed.
Lemma reached_INV t r : psteps t0 whole t r -> INV t r.
Proof. intro H. apply (psteps_safe _ _ _ _ H). split; [exact start_safe|left; constructor]. Qed.

Variable fuel : nat.
Hypothesis enough : (24 * length whole + 13 <= fuel)%nat.

Lemma reached_fuel t r : psteps t0 whole t r -> (needs On_emit (weight t r) <= fuel)%nat.
Proof.
  intros H. assert (I0 : INV t0 whole) by (apply reached_INV; constructor). destruct (psteps_safe _ _ _ _ H I0) as [_ L].
  unfold needs. unfold weight in L at 2. pose proof (rank_le (t_state t0) (head whole)). lia.
Qed.
Lemma nil_fuel t : (needs On_emit (weight t []) <= fuel)%nat.
Proof. unfold needs, weight. pose proof (rank_le (t_state t) (head [])). cbn [length]. lia. Qed.

(** where the machine is between two code points *)
Definition between (m : machine) (fut : list Z) : Prop :=
  ec m = false /\ s_eof (m_s m) = false /\ psteps t0 whole (m_t m) (buf m ++ fut) /\
  (plain -> buf m = [] \/ waits3 (t_state (m_t m))).

Lemma emit_ok c m fut : between m (c :: fut) -> exists m1, emit_code_point switch cdata ncr fuel c m = Val m1 /\
  between m1 fut /\ s_cr (m_s m1) = s_cr (m_s m) /\ psteps (m_t m) (buf m ++ c :: fut) (m_t m1) (buf m1 ++ fut).
Proof.
  intros (E & Ee & I & Q). unfold emit_code_point.
  set (m0 := Machine (Stream (buf m ++ [c]) (s_current (m_s m)) (s_eof (m_s m)) (ec m) (s_cr (m_s m))) (m_t m)).
  assert (Eb : buf m0 ++ fut = buf m ++ c :: fut) by (cbn; rewrite <- app_assoc; reflexivity).
  assert (F : s_eof (m_s m0) = true -> fut = []) by (cbn; congruence).
  assert (R : ready m0 fut). { split; [exact E|]. split; [exact F|]. rewrite Eb. apply reached_INV. exact I. }
  destruct (run_total fuel On_emit m0 fut R) as (m1 & H1).
  { rewrite Eb. apply reached_fuel. exact I. }
  { intros _. left. cbn. destruct (buf m); discriminate. }
  exists m1. split; [exact H1|].
  pose proof (run_sim switch cdata ncr ncr_length ncr_short ncr_local _ _ _ _ fut H1 E F) as RS.
  assert (E1 : ec m1 = false).
  { destruct (ec m1) eqn:E1; [|reflexivity]. destruct RS as (_ & _ & RS). rewrite E1 in RS. destruct RS as (RS & _). cbn in RS. congruence. }
  pose proof RS as ((C1 & C2) & _ & RS1). rewrite E1 in RS1. cbn [m_t m0] in RS1. rewrite Eb in RS1.
  split; [|split; [exact C2|exact RS1]].
  split; [exact E1|]. split; [rewrite C1; exact Ee|]. split; [eapply ps_trans; [exact I|exact RS1]|]. intro P.
  assert (N : numfree switch cdata ncr (m_t m0) (buf m0 ++ fut)) by (rewrite Eb; apply reached_numfree; assumption).
  destruct (run_idle fuel m0 m1 fut H1 E F N) as [K|[_ K]]; [|congruence|exact K].
  destruct (Q P) as [Q1|Q1]; [|auto]. right; left. split; [exact Ee|]. cbn. rewrite Q1. cbn. lia.
Qed.

Lemma between_cr b m fut : between m fut -> between (set_cr b m) fut.
Proof. intro H. exact H. Qed.

Lemma push_ok c r m : between m (pending (s_cr (m_s m)) (c :: r)) ->
  exists m1, push_code_point switch cdata ncr fuel c m = Val m1 /\ between m1 (pending (s_cr (m_s m1)) r) /\
    s_cr (m_s m1) = (c =? 0xD) /\ psteps (m_t m) (buf m ++ pending (s_cr (m_s m)) (c :: r)) (m_t m1) (buf m1 ++ pending (s_cr (m_s m1)) r).
Proof.
  intro B. unfold push_code_point, pending in *. destruct (s_cr (m_s m)) eqn:Ecr.
  - destruct (c =? 0xD) eqn:E1; [apply Z.eqb_eq in E1; subst c|destruct (c =? 0xA) eqn:E2; [apply Z.eqb_eq in E2; subst c|]].
    + rewrite newlines_cr in * by discriminate. destruct (emit_ok _ _ _ B) as (m1 & -> & B1 & Ec & S1). exists m1.
      rewrite Ec, Ecr. auto.
    + change (newlines (0xD :: 0xA :: r)) with (0xA :: newlines r) in *. destruct (emit_ok _ _ _ B) as (m1 & -> & B1 & Ec & S1).
      exists (set_cr false m1). cbn [bind]. split; [reflexivity|]. split; [exact B1|]. split; [reflexivity|exact S1].
    + rewrite newlines_cr in * by lia. rewrite newlines_other in * by lia.
      destruct (emit_ok _ _ _ B) as (m1 & -> & B1 & Ec1 & S1). cbn [bind].
      destruct (emit_ok _ _ _ B1) as (m2 & -> & B2 & Ec2 & S2). cbn [bind].
      exists (set_cr false m2). split; [reflexivity|]. split; [exact B2|]. split; [reflexivity|]. eapply ps_trans; [exact S1|exact S2].
  - destruct (c =? 0xD) eqn:E1.
    + apply Z.eqb_eq in E1; subst c. exists (set_cr true m). split; [reflexivity|]. split; [exact B|]. split; [reflexivity|].
      constructor.
    + rewrite newlines_other in * by lia. destruct (emit_ok _ _ _ B) as (m1 & -> & B1 & Ec & S1). exists m1. rewrite Ec, Ecr. auto.
Qed.

(** the machine after the end of the text *)
Lemma phalts_INV t r t' : phalts t r t' -> INV t r -> INV t' [] /\ halted t'.
Proof.
  intros (t1 & r1 & H & H1) I. destruct (psteps_safe _ _ _ _ H I) as [I1 _].
  destruct (pstep_ok switch switch_text cdata ncr ncr_length _ _ (proj1 I1) (INV_ncr t1 r1 I1)) as (p & P & K).
  rewrite H1 in P. inversion P; subst p. destruct K as (K1 & K2 & ->).
  split; [|exact K2]. split; [exact K1|]. right. reflexivity.
Qed.

Definition set_ec (b : bool) (m : machine) : machine :=
  Machine (Stream (buf m) (s_current (m_s m)) (s_eof (m_s m)) b (s_cr (m_s m))) (m_t m).
Lemma handler_ec m : buf m = [] -> s_eof (m_s m) = true -> halted (m_t m) -> handler m = handler (set_ec false m).
Proof.
  destruct m as [[b cur eo e cr] t]. cbn. intros -> -> (H1 & H2 & H3). unfold M_html.handler, set_ec. cbn [m_s m_t s_c s_eof s_current s_cr].
  destruct (t_state t) eqn:Es; try reflexivity; contradiction.
Qed.

Lemma push_eof_ok m : between m (pending (s_cr (m_s m)) []) ->
  exists m1, push_eof switch cdata ncr fuel m = Val m1 /\
    (s_cr (m_s m) = false -> plain -> ec m1 = true /\ phalts (m_t m) (buf m) (m_t m1)).
Proof.
  intros (E & Ee & I & Q). unfold push_eof. destruct (s_cr (m_s m)) eqn:Ecr; unfold pending in *.
  - cbn [newlines] in *. set (m0 := Machine (Stream (buf m ++ [0xA]) (s_current (m_s m)) true (ec m) true) (m_t m)).
    assert (R : ready m0 []). { split; [exact E|]. split; [reflexivity|]. rewrite app_nil_r. apply reached_INV. exact I. }
    destruct (run_total fuel On_emit m0 [] R) as (m1 & H1).
    { rewrite app_nil_r. apply reached_fuel. exact I. }
    { intros _. right. reflexivity. }
    rewrite H1. cbn [bind].
    pose proof (run_sim switch cdata ncr ncr_length ncr_short ncr_local _ _ _ _ [] H1 E (fun _ => eq_refl)) as RS.
    destruct (ec m1) eqn:E1.
    + pose proof RS as ((C1 & C2) & _ & RS1). rewrite E1 in RS1. destruct RS1 as (_ & B1 & Ph). rewrite app_nil_r in Ph.
      destruct (phalts_INV _ _ _ Ph (reached_INV _ _ I)) as [I1 Hh].
      assert (R1 : ready (set_ec false m1) []). { split; [reflexivity|]. split; [reflexivity|]. cbn. rewrite B1. exact I1. }
      destruct (run_total fuel On_emit (set_ec false m1) [] R1) as (m2 & H2).
      { cbn [set_ec m_s s_c m_t]. rewrite B1. apply nil_fuel. }
      { intros _. right. exact C1. }
      assert (H3 : run fuel On_emit m1 = run fuel On_emit (set_ec false m1)).
      { pose proof (nil_fuel (m_t m1)) as Fu. destruct fuel as [|f]; [cbn in Fu; lia|]. cbn [M_html.run]. rewrite (handler_ec m1 B1 C1 Hh). reflexivity. }
      exists m2. rewrite H3. split; [exact H2|discriminate].
    + destruct (reaches_ready _ _ _ R RS E1) as [R1 W1].
      destruct (run_total fuel On_emit m1 [] R1) as (m2 & H2).
      { rewrite app_nil_r. pose proof RS as (_ & _ & RS1). rewrite E1, !app_nil_r in RS1.
        apply reached_fuel. eapply ps_trans; [exact I|exact RS1]. }
      { intros _. right. destruct RS as ((C1 & _) & _). exact C1. }
      exists m2. split; [exact H2|discriminate].
  - cbn [newlines bind] in *. set (m0 := Machine (Stream (buf m) (s_current (m_s m)) true (ec m) false) (m_t m)).
    assert (R : ready m0 []). { split; [exact E|]. split; [reflexivity|]. apply reached_INV. exact I. }
    destruct (run_total fuel On_emit m0 [] R) as (m1 & H1).
    { apply reached_fuel. exact I. }
    { intros _. right. reflexivity. }
    exists m1. split; [exact H1|]. intros _ P. rewrite app_nil_r in *.
    pose proof (run_sim switch cdata ncr ncr_length ncr_short ncr_local _ _ _ _ [] H1 E (fun _ => eq_refl)) as RS.
    assert (N : numfree switch cdata ncr (m_t m0) (buf m0 ++ [])) by (rewrite app_nil_r; apply reached_numfree; [exact I|exact P]).
    pose proof RS as ((C1 & C2) & _ & RS1).
    destruct (run_idle fuel m0 m1 [] H1 E (fun _ => eq_refl) N) as [K|[K _]].
    { destruct (Q P) as [Q1|Q1]; auto. }
    + rewrite K in RS1. destruct RS1 as (_ & _ & RS1). rewrite app_nil_r in RS1. split; [exact K|exact RS1].
    + rewrite C1 in K. discriminate.
Qed.

Lemma push_all_ok text : forall m, between m (pending (s_cr (m_s m)) text) ->
  exists m1, push_all switch cdata ncr fuel text m = Val m1 /\
    (plain -> last text (if s_cr (m_s m) then 0xD else 0) <> 0xD ->
      ec m1 = true /\ phalts (m_t m) (buf m ++ pending (s_cr (m_s m)) text) (m_t m1)).
Proof.
  induction text as [|c r IH]; intros m B; cbn [push_all].
  - destruct (push_eof_ok m B) as (m1 & H1 & K). exists m1. split; [exact H1|]. intros P L. cbn in L.
    destruct (s_cr (m_s m)) eqn:Ec; [contradiction|]. cbn. rewrite app_nil_r. auto.
  - destruct (push_ok c r m B) as (m1 & -> & B1 & Ec & S1). cbn [bind]. destruct (IH m1 B1) as (m2 & H2 & K). exists m2. split; [exact H2|].
    intros P L. assert (L1 : last r (if s_cr (m_s m1) then 0xD else 0) <> 0xD).
    { rewrite Ec. destruct r as [|c1 r1]; [cbn in L |- *; destruct (c =? 0xD) eqn:E; [lia|discriminate]|].
      replace (last (c1 :: r1) (if c =? 13 then 13 else 0)) with (last (c :: c1 :: r1) (if s_cr (m_s m) then 13 else 0)); [exact L|].
      cbn [last]. clear. revert c1. induction r1; intro; [reflexivity|]. cbn [last] in *. apply IHr1. }
    destruct (K P L1) as [K1 K2]. split; [exact K1|]. eapply ph_trans; eassumption.
Qed.
End Total.
