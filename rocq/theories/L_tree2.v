(** link, unlink, allocate, free and what is built on them refine the forest operations. *)
From Coq Require Import List Arith Bool Lia Permutation Sorted.
From Verif Require Import M_tree L_tree.
Import ListNotations.
Open Scope tree_scope.

Section Chains.
Context {V : Type}.
Notation forest := (forest V).
Notation arena := (arena V).
Implicit Types A B : arena.

(** A run of siblings l below p: [prev] is what the first one's m_prev holds, [nx] the last one's m_next. *)
Fixpoint seg A (p prev : nat) (l : list nat) (nx : nat) : Prop :=
  match l with
  | [] => True
  | c :: l' => fpar A c = p /\ fprv A c = prev /\ fnxt A c = hd nx l' /\ seg A p c l' nx
  end.
Definition chain A p l := fchd A p = hd 0 l /\ seg A p (last l 0) l 0.

Lemma last_cons (c : nat) l d : last (c :: l) d = last l c.
Proof. revert c d. induction l as [|x l IH]; intros c d; [reflexivity|]. change (last (c :: x :: l) d) with (last (x :: l) d). rewrite IH. symmetry. apply IH. Qed.

Lemma last_app (l m : list nat) d : last (l ++ m) d = last m (last l d).
Proof.
  revert d. induction l as [|x l IH]; intros d; [reflexivity|]. cbn [app]. rewrite last_cons, IH, last_cons. reflexivity.
Qed.

Lemma last_in (l : list nat) d : l <> [] -> In (last l d) l.
Proof.
  induction l as [|x l IH]; [congruence|]. intros _. rewrite last_cons. destruct l as [|y l]; [now left|].
  right. rewrite last_cons in *. destruct (in_dec Nat.eq_dec (last l y) (y :: l)); auto. apply IH. congruence.
Qed.

Lemma last_any (l : list nat) d e : l <> [] -> last l d = last l e.
Proof. destruct l; [congruence|]. now rewrite !last_cons. Qed.

Lemma hd_any (l : list nat) d e : l <> [] -> hd d l = hd e l.
Proof. destruct l; [congruence|]. reflexivity. Qed.
Lemma hd_in (l : list nat) d : l <> [] -> In (hd d l) l.
Proof. destruct l; [congruence|]. now left. Qed.

Lemma seg_app A p prev l1 l2 nx :
  seg A p prev (l1 ++ l2) nx <-> seg A p prev l1 (hd nx l2) /\ seg A p (last l1 prev) l2 nx.
Proof.
  revert prev. induction l1 as [|c l1 IH]; intros prev; [cbn; tauto|]. cbn [app seg]. rewrite IH.
  rewrite last_cons. destruct l1; cbn; tauto.
Qed.

Lemma seg_change A B p prev prev' l nx nx' : seg A p prev l nx -> NoDup l ->
  (forall c, In c l -> fpar B c = fpar A c) ->
  (forall c, In c l -> fprv B c = if c =? hd 0 l then prev' else fprv A c) ->
  (forall c, In c l -> fnxt B c = if c =? last l 0 then nx' else fnxt A c) ->
  seg B p prev' l nx'.
Proof.
  revert prev prev'. induction l as [|c l IH]; intros prev prev' H Hn H1 H2 H3; [exact I|].
  cbn [seg] in *. destruct H as (P1 & P2 & P3 & P4). inversion Hn as [|? ? N1 N2]; subst.
  split; [rewrite H1; [reflexivity|now left]|]. split; [rewrite H2; [cbn; now rewrite Nat.eqb_refl|now left]|].
  split.
  - rewrite H3 by (now left). rewrite last_cons. destruct l as [|d l].
    + cbn. now rewrite Nat.eqb_refl.
    + destruct (Nat.eqb_spec c (last (d :: l) c)) as [E|E]; [|cbn; cbn in P3; exact P3].
      exfalso. apply N1. rewrite E. apply last_in. congruence.
  - apply (IH c c); auto.
    + intros d Hd. apply H1. now right.
    + intros d Hd. rewrite H2 by (now right). cbn [hd]. destruct (Nat.eqb_spec d c); [subst; contradiction|].
      destruct l as [|e l]; [destruct Hd|]. cbn [hd]. destruct (Nat.eqb_spec d e); [|reflexivity]. subst. cbn in P4. tauto.
    + intros d Hd. rewrite H3 by (now right). rewrite last_cons. destruct l as [|e l]; [destruct Hd|]. now rewrite !last_cons.
Qed.

Lemma seg_same A B p prev l nx : seg A p prev l nx ->
  (forall c, In c l -> fpar B c = fpar A c /\ fprv B c = fprv A c /\ fnxt B c = fnxt A c) -> seg B p prev l nx.
Proof.
  revert prev. induction l as [|c l IH]; intros prev H Hs; [exact I|]. cbn [seg] in *. destruct H as (P1 & P2 & P3 & P4).
  destruct (Hs c (or_introl eq_refl)) as (-> & -> & ->). repeat split; auto. apply IH; auto. intros d Hd. apply Hs. now right.
Qed.

Lemma chain_same A B p l : chain A p l -> fchd B p = fchd A p ->
  (forall c, In c l -> fpar B c = fpar A c /\ fprv B c = fprv A c /\ fnxt B c = fnxt A c) -> chain B p l.
Proof. intros [H1 H2] H3 H4. split; [congruence|]. eapply seg_same; eauto. Qed.

Lemma seg_par A p prev l nx c : seg A p prev l nx -> In c l -> fpar A c = p.
Proof. revert prev. induction l as [|x l IH]; intros prev H Hc; [destruct Hc|]. destruct H as (P1 & P2 & P3 & P4). destruct Hc as [<-|Hc]; eauto. Qed.

(** what may change outside the list l and the parent p *)
Definition frame A B (p : nat) (l : list nat) : Prop :=
  length B = length A /\ (forall i, g_val B i = g_val A i) /\ (forall i, i <> p -> fchd B i = fchd A i) /\
  (forall i, ~ In i l -> fpar B i = fpar A i /\ fprv B i = fprv A i /\ fnxt B i = fnxt A i).

Lemma rev_case (l : list nat) : l = [] \/ exists m z, l = m ++ [z].
Proof. destruct l as [|x l] using rev_ind; eauto. Qed.

Ltac fieldwise := intros; autorewrite with arena; eqs; repeat match goal with
  | |- context [?x =? ?y] => destruct (Nat.eqb_spec x y); try congruence; try tauto
  end; try reflexivity; try congruence; try tauto; try (exfalso; subst; tauto).

Lemma link_ok A p l1 l2 idx :
  chain A p (l1 ++ l2) -> NoDup (idx :: l1 ++ l2) -> ~ In 0 (idx :: l1 ++ l2) ->
  (forall c, In c (idx :: l1 ++ l2) -> c < length A) -> p < length A -> ~ In p (idx :: l1 ++ l2) ->
  exists B, link A p (hd 0 l2) idx = Some B /\ chain B p (l1 ++ idx :: l2) /\ frame A B p (idx :: l1 ++ l2).
Proof.
  intros [C1 C2] Hn H0 Hb Hp Hpl.
  assert (Hi : idx < length A) by (apply Hb; now left).
  assert (idx <> 0) by (intros ->; apply H0; now left).
  assert (idx <> p) by (intros ->; apply Hpl; now left).
  apply seg_app in C2. destruct C2 as [S1 S2].
  inversion Hn as [|? ? N1 N2]; subst. pose proof N2 as N2'. apply NoDup_app_iff in N2. destruct N2 as (N2 & N3 & N4).
  unfold link. rewrite (g_chd_ok A p) by lia. rewrite C1.
  destruct l2 as [|b l2].
  - (* at the end *)
    cbn [hd]. rewrite app_nil_r in *. cbn [Nat.eqb negb].
    destruct l1 as [|h t].
    + cbn [hd Nat.eqb negb]. repeat rd1. cbn [Nat.eqb negb]. repeat rd1.
      eexists. split; [reflexivity|]. split.
      * split; [fieldwise|]. cbn. repeat split; fieldwise.
      * split; [now autorewrite with arena|]. split; [fieldwise|]. split; [fieldwise|]. intros i Hi'. cbn in Hi'. repeat split; fieldwise.
    + cbn [hd]. assert (h <> 0) by (intros ->; apply H0; cbn; auto). assert (h < length A) by (apply Hb; cbn; auto).
      eqs. cbn [negb]. rd1. set (z := last (h :: t) 0) in *.
      assert (Hz : In z (h :: t)) by (apply last_in; congruence).
      assert (z <> 0) by (intros E; rewrite E in Hz; apply H0; right; exact Hz). assert (z < length A) by (apply Hb; now right).
      replace (fprv A h) with z by (cbn in S1; symmetry; apply S1).
      eqs. cbn [negb]. repeat rd1.
      assert (z <> idx) by congruence. assert (h <> idx) by (intros ->; apply N1; now left). 
      eexists. split; [reflexivity|]. split.
      * split.
        { autorewrite with arena. exact C1. }
        rewrite last_app. cbn [last]. rewrite seg_app. cbn [hd]. split.
        -- apply (seg_change A _ p z idx (h :: t) 0 idx); auto.
           ++ intros c Hc. assert (c <> idx) by congruence. fieldwise.
           ++ intros c Hc. assert (c <> idx) by congruence. cbn [hd]. fieldwise.
           ++ intros c Hc. assert (c <> idx) by congruence. fold z. fieldwise.
        -- cbn [seg hd]. rewrite last_any with (e := 0) by congruence. fold z. repeat split; fieldwise.
      * split; [now autorewrite with arena|]. split; [fieldwise|]. split; [fieldwise|]. intros i Hi'. 
        assert (i <> idx) by (intros ->; apply Hi'; now left). assert (i <> h) by (intros ->; apply Hi'; cbn; auto).
        assert (i <> z) by (intros ->; apply Hi'; now right). repeat split; fieldwise.
  - (* before b *)
    cbn [hd]. assert (Hbin : In b (idx :: l1 ++ b :: l2)) by (right; apply in_or_app; right; now left).
    assert (b <> 0) by (intros ->; auto). assert (b < length A) by auto. assert (b <> idx) by (intros ->; apply N1; apply in_or_app; right; now left).
    assert (b <> p) by congruence.
    destruct l1 as [|h t].
    + cbn [app hd] in *. eqs. cbn [negb Nat.eqb]. repeat rd1. cbn [Nat.eqb negb]. repeat rd1.
      cbn in S2. destruct S2 as (P1 & P2 & P3 & P4). change (fprv A b = last (b :: l2) 0) in P2. rewrite last_cons in P2.
      eexists. split; [reflexivity|]. split.
      * split; [fieldwise|]. cbn [seg hd]. rewrite !last_cons.
        split; [fieldwise|]. split; [fieldwise|]. split; [fieldwise|].
        split; [fieldwise|]. split; [fieldwise|]. split; [fieldwise|].
        eapply seg_same; [exact P4|]. intros c Hc. assert (c <> b) by (intros ->; inversion N3; contradiction).
        assert (c <> idx) by (intros ->; apply N1; now right).
        repeat split; fieldwise.
      * split; [now autorewrite with arena|]. split; [fieldwise|]. split; [fieldwise|]. intros i Hi'. 
        assert (i <> idx) by (intros ->; apply Hi'; now left). assert (i <> b) by (intros ->; apply Hi'; cbn; auto).
        repeat split; fieldwise.
    + cbn [app hd] in *. assert (h <> b) by (intros ->; apply (N4 b); now left).
      eqs. cbn [negb]. rd1. set (z := last (h :: t) 0) in *.
      assert (Hz : In z (h :: t)) by (apply last_in; congruence).
      assert (z <> 0) by (intros E; rewrite E in Hz; apply H0; right; apply (in_or_app (h :: t)); now left).
      assert (z < length A) by (apply Hb; right; apply (in_or_app (h :: t)); now left).
      cbn [seg] in S2. destruct S2 as (P1 & P2 & P3 & P4). rewrite last_any with (e := 0) in P2 by congruence. fold z in P2.
      rewrite P2. eqs. cbn [negb]. repeat rd1.
      assert (z <> idx) by (intros E; apply N1; rewrite <- E; apply (in_or_app (h :: t)); now left).
      assert (z <> b) by (intros E; apply (N4 z); [assumption|rewrite E; now left]).
      eexists. split; [reflexivity|]. split.
      * split.
        { autorewrite with arena. exact C1. }
        change (h :: t ++ idx :: b :: l2) with ((h :: t) ++ idx :: b :: l2).
        change (last (h :: t ++ b :: l2) 0) with (last ((h :: t) ++ b :: l2) 0) in *.
        rewrite seg_app. cbn [hd]. 
        rewrite last_app, !last_cons. rewrite last_app, last_cons in S1.
        assert (R : forall c, In c (h :: t) -> c <> idx /\ c <> b).
        { intros c Hc. split; [intros ->; apply N1; apply (in_or_app (h :: t)); now left|]. intros ->. apply (N4 b); [assumption|now left]. }
        split.
        -- apply (seg_change A _ p (last l2 b) (last l2 b) (h :: t) b idx); auto.
           ++ intros c Hc. destruct (R c Hc). fieldwise.
           ++ intros c Hc. destruct (R c Hc). cbn [hd]. fieldwise. cbn [seg] in S1. rewrite e. tauto.
           ++ intros c Hc. destruct (R c Hc). fold z. fieldwise.
        -- cbn [seg hd]. rewrite <- last_cons with (d := 0). fold z.
           split; [fieldwise|]. split; [fieldwise|]. split; [fieldwise|].
           split; [fieldwise|]. split; [fieldwise|]. split; [fieldwise|].
           eapply seg_same; [exact P4|]. intros c Hc. assert (c <> b) by (intros ->; inversion N3; contradiction).
           assert (c <> idx) by (intros ->; apply N1; apply (in_or_app (h :: t)); right; now right).
           assert (c <> z) by (intros ->; apply (N4 z); [assumption|now right]).
           repeat split; fieldwise.
      * split; [now autorewrite with arena|]. split; [fieldwise|]. split; [fieldwise|]. intros i Hi'. 
        assert (i <> idx) by (intros ->; apply Hi'; now left). assert (i <> b) by (intros ->; apply Hi'; exact Hbin).
        assert (i <> z) by (intros ->; apply Hi'; right; apply (in_or_app (h :: t)); now left). repeat split; fieldwise.
Qed.

Lemma unlink_ok A p l1 l2 idx :
  chain A p (l1 ++ idx :: l2) -> NoDup (l1 ++ idx :: l2) -> ~ In 0 (l1 ++ idx :: l2) ->
  (forall c, In c (l1 ++ idx :: l2) -> c < length A) -> p < length A -> ~ In p (l1 ++ idx :: l2) ->
  exists B, unlink A idx = Some B /\ chain B p (l1 ++ l2) /\ frame A B p (l1 ++ l2).
Proof.
  intros [C1 C2] Hn H0 Hb Hp Hpl.
  assert (Iin : In idx (l1 ++ idx :: l2)) by (apply in_or_app; right; now left).
  assert (Hi : idx < length A) by (apply Hb; auto).
  assert (idx <> 0) by congruence. assert (idx <> p) by congruence.
  pose proof (seg_par _ _ _ _ _ _ C2 Iin) as Hpar.
  apply seg_app in C2. destruct C2 as [S1 S2]. cbn [hd seg] in S1, S2. destruct S2 as (P1 & P2 & P3 & P4).
  pose proof (NoDup_remove_1 _ _ _ Hn) as N. pose proof (NoDup_remove_2 _ _ _ Hn) as N1.
  apply NoDup_app_iff in Hn. destruct Hn as (N2 & N3 & N4). apply NoDup_cons_iff in N3. destruct N3 as [N5 N6].
  unfold unlink. eqs. rewrite (g_par_ok A idx) by lia. rewrite Hpar. rewrite (g_chd_ok A p) by lia. rewrite C1.
  destruct l1 as [|h t].
  - cbn [app hd] in *. eqs. cbn [negb]. rewrite (g_nxt_ok A idx) by lia. rewrite P3. cbn [Nat.eqb].
    destruct l2 as [|b l2].
    + cbn [hd]. eqs. repeat rd1. eexists. split; [reflexivity|]. split.
      * split; [fieldwise|exact I].
      * split; [now autorewrite with arena|]. split; [fieldwise|]. split; [fieldwise|]. intros i _. repeat split; fieldwise.
    + cbn [hd]. assert (b <> 0) by (intros ->; apply H0; cbn; auto). assert (b < length A) by (apply Hb; cbn; auto).
      assert (b <> p) by (intros ->; apply Hpl; cbn; auto). assert (b <> idx) by (intros ->; apply N5; now left).
      eqs. repeat rd1. cbn [seg] in P4. destruct P4 as (Q1 & Q2 & Q3 & Q4). apply NoDup_cons_iff in N6. destruct N6 as [N6 N7].
      rewrite !last_cons in P2. cbn [last] in P2.
      eexists. split; [reflexivity|]. split.
      * split; [fieldwise|]. rewrite last_cons. cbn [seg].
        split; [fieldwise|]. split; [fieldwise|]. split; [fieldwise|].
        eapply seg_same; [exact Q4|]. intros c Hc. assert (c <> b) by congruence. repeat split; fieldwise.
      * split; [now autorewrite with arena|]. split; [fieldwise|]. split; [fieldwise|]. intros i Hi'.
        assert (i <> b) by (intros ->; apply Hi'; now left). repeat split; fieldwise.
  - cbn [app hd] in *. assert (h <> idx) by (intros ->; apply (N4 idx); now left).
    assert (h <> 0) by (intros ->; apply H0; cbn; auto). assert (h < length A) by (apply Hb; cbn; auto).
    eqs. cbn [negb]. rd1. set (z := last (h :: t) 0) in *.
    assert (Hz : In z (h :: t)) by (apply last_in; congruence).
    assert (z <> 0) by (intros E; rewrite E in Hz; apply H0; apply (in_or_app (h :: t)); now left).
    assert (z < length A) by (apply Hb; apply (in_or_app (h :: t)); now left).
    assert (z <> idx) by (intros E; apply (N4 z); [assumption|rewrite E; now left]).
    rewrite last_any with (l := h :: t) (e := 0) in P2 by congruence. fold z in P2. rewrite P2.
    rewrite (g_nxt_ok A idx) by lia. rewrite P3. eqs.
    destruct l2 as [|b l2].
    + cbn [hd]. rewrite app_nil_r in *. eqs. cbn [negb]. repeat rd1. eexists. split; [reflexivity|]. split.
      * split; [fieldwise|]. fold z.
        change (h :: t ++ [idx]) with ((h :: t) ++ [idx]) in *. rewrite last_app in S1. cbn [last] in S1.
        apply (seg_change A _ p idx z (h :: t) idx 0); auto.
        -- fieldwise.
        -- intros c Hc. cbn [hd]. fieldwise.
        -- intros c Hc. fold z. fieldwise.
      * split; [now autorewrite with arena|]. split; [fieldwise|]. split; [fieldwise|]. intros i Hi'.
        assert (i <> h) by (intros ->; apply Hi'; now left). assert (i <> z) by (intros ->; apply Hi'; assumption). repeat split; fieldwise.
    + assert (Hbin : In b ((h :: t) ++ idx :: b :: l2)) by (apply in_or_app; right; right; now left).
      assert (b <> 0) by (intros ->; auto). assert (b < length A) by auto. assert (b <> p) by (intros ->; auto).
      assert (b <> idx) by (intros ->; apply N5; now left). assert (z <> b) by (intros E; apply (N4 z); [assumption|rewrite E; cbn; auto]).
      cbn [hd]. eqs. cbn [negb]. repeat rd1.
      apply NoDup_cons_iff in N6. destruct N6 as [N6 N7]. cbn [seg] in P4. destruct P4 as (Q1 & Q2 & Q3 & Q4).
      eexists. split; [reflexivity|]. split.
      * split; [fieldwise|].
        change (h :: t ++ b :: l2) with ((h :: t) ++ b :: l2).
        change (h :: t ++ idx :: b :: l2) with ((h :: t) ++ idx :: b :: l2) in *.
        rewrite seg_app. rewrite last_app, !last_cons in S1. rewrite last_app, last_cons. cbn [hd].
        assert (R : forall c, In c (h :: t) -> c <> idx /\ c <> b).
        { intros c Hc. split; intros ->; eapply N4; eauto; cbn; auto. }
        split.
        -- apply (seg_change A _ p (last l2 b) (last l2 b) (h :: t) idx b); auto.
           ++ fieldwise.
           ++ intros c Hc. destruct (R c Hc). cbn [hd]. fieldwise. cbn [seg] in S1. rewrite e. tauto.
           ++ intros c Hc. destruct (R c Hc). fold z. fieldwise.
        -- rewrite <- last_cons with (d := 0). fold z. cbn [seg]. 
           split; [fieldwise|]. split; [fieldwise|]. split; [fieldwise|].
           eapply seg_same; [exact Q4|]. intros c Hc. assert (c <> b) by congruence.
           assert (c <> z) by (intros ->; apply (N4 z); [assumption|cbn; auto]). repeat split; fieldwise.
      * split; [now autorewrite with arena|]. split; [fieldwise|]. split; [fieldwise|]. intros i Hi'.
        assert (i <> b) by (intros ->; apply Hi'; apply (in_or_app (h :: t)); right; now left).
        assert (i <> z) by (intros ->; apply Hi'; apply (in_or_app (h :: t)); now left). repeat split; fieldwise.
Qed.
End Chains.
