(** The iterators of tag_tree over the children of a node, over all tags, and the number of nodes. *)
From Coq Require Import List Arith Bool Lia Sorting.Sorted Permutation.
From Verif Require Import M_tree M_tag L_tag L_tag2 L_tag3 L_tag4 L_tag5.
Import ListNotations.
Open Scope tree_scope.

Section L.
Context {V : Type}.
Notation tags := (@tags V).
Notation tr := (tr V).
Notation mark := (@mark V).

Lemma links_hd : forall nx pv x l y, links nx pv x l y -> nx x = Some (hd y l).
Proof. intros nx pv x [|z l] y H; apply H. Qed.

(** [x] is a node of the forest, at any depth. *)
Inductive within (x : tr) : list tr -> Prop :=
| within_here : forall r, within x (x :: r)
| within_in : forall s e v c r, within x c -> within x (Pair s e v c :: r)
| within_next : forall y r, within x r -> within x (y :: r).

(** The nodes [c] are the children of the node with the tags [s] and [e]; 0 stands for the container itself. *)
Definition children (f : list tr) (s e : nat) (c : list tr) : Prop :=
  s = 0 /\ e = 0 /\ c = f \/ exists v, within (Pair s e v c) f.

Lemma within_marks : forall dv x f, within x f -> exists m1 m2, fmarks dv f = m1 ++ marks dv x ++ m2.
Proof.
  intros dv x f H. induction H as [r|s e v c r H IH|y r H IH].
  - exists [], (fmarks dv r). reflexivity.
  - destruct IH as (m1 & m2 & E). exists ((s, 0, e, v) :: m1), (m2 ++ (e, s, 0, dv) :: fmarks dv r).
    unfold fmarks in *. cbn [flat_map marks app]. rewrite E, <- !app_assoc. reflexivity.
  - destruct IH as (m1 & m2 & E). exists (marks dv y ++ m1), m2. unfold fmarks in *. cbn [flat_map]. rewrite E, <- !app_assoc. reflexivity.
Qed.

Lemma hd_fmarks : forall dv (c : list tr) (m : list mark), hd 0 (ids (fmarks dv c ++ m)) = hd (hd 0 (ids m)) (map first c).
Proof.
  intros dv [|x c] m; [reflexivity|]. unfold fmarks. cbn [flat_map map hd]. rewrite <- app_assoc. apply hd_marks.
Qed.

(** The list before and behind the children *)
Lemma children_marks : forall dv f s e c, children f s e c -> exists m1 m2, fmarks dv f = m1 ++ fmarks dv c ++ m2 /\
  last (ids m1) 0 = s /\ hd 0 (ids m2) = e /\
  (s = 0 /\ e = 0 /\ m1 = [] \/ exists v m3 m4, m1 = m3 ++ [(s, 0, e, v)] /\ m2 = (e, s, 0, dv) :: m4).
Proof.
  intros dv f s e c [(-> & -> & ->)|(v & W)].
  - exists [], []. rewrite app_nil_r. cbn. repeat split. left. repeat split.
  - destruct (within_marks dv _ _ W) as (m1 & m2 & E). exists (m1 ++ [(s, 0, e, v)]), ((e, s, 0, dv) :: m2).
    split; [rewrite E; cbn [marks]; unfold fmarks; rewrite <- !app_assoc; cbn [app]; rewrite <- !app_assoc; reflexivity|].
    split; [rewrite ids_app; apply last_snoc|]. split; [reflexivity|]. right. eauto 8.
Qed.

(** *** One step forwards and backwards *)
Lemma last_head : forall dv (a : tags) m1 t m2 fr, Holds a (m1 ++ marks dv t ++ m2) [] fr ->
  exists h, r_head a (last (ids (marks dv t)) 0) = Some h /\ (if h =? 0 then last (ids (marks dv t)) 0 else h) = first t /\
    r_tail a (last (ids (marks dv t)) 0) = Some 0.
Proof.
  intros dv a m1 t m2 fr H. pose proof (h_marks _ _ _ _ H) as M. apply Forall_app in M. destruct M as [_ M]. apply Forall_app in M. destruct M as [M _].
  destruct (around dv a m1 t m2 fr H) as (_ & _ & _ & _ & A5 & _).
  destruct t as [i v|s e v c]; cbn [marks first] in *.
  - inversion M as [|? ? M1 _]; subst. cbn in M1 |- *. exists 0. tauto.
  - inversion M as [|? ? M1 M2]; subst. apply Forall_app in M2. destruct M2 as [_ M2]. inversion M2 as [|? ? M3 _]; subst. cbn in M3.
    cbn [ids map m_id]. rewrite last_cons_d, map_app. cbn [map m_id]. rewrite last_snoc. exists s. destruct (Nat.eqb_spec s 0); [congruence|]. tauto.
Qed.

Lemma inc_dec_at : forall dv (a : tags) m1 t m2 fr, Holds a (m1 ++ marks dv t ++ m2) [] fr ->
  i_inc a (first t) = Some (hd 0 (ids m2)) /\ i_dec a (hd 0 (ids m2)) = Some (first t).
Proof.
  intros dv a m1 t m2 fr H. split; [apply (inc_at _ _ _ _ _ _ H)|].
  destruct (last_head _ _ _ _ _ _ H) as (h & E1 & E2 & _). destruct (around dv a m1 t m2 fr H) as (_ & _ & _ & _ & A5 & A6 & A7 & _).
  assert (PB : r_prev a (hd 0 (ids m2)) = Some (last (ids (marks dv t)) 0)).
  { pose proof (h_links _ _ _ _ H) as K. rewrite !ids_app, app_assoc in K. apply links_rest in K. destruct K as (K & _). apply links_last in K. rewrite K, last_app_d.
    destruct (ids_marks dv t) as (ls & Q). rewrite Q, !last_cons_d. reflexivity. }
  unfold i_dec. rewrite PB. destruct (Nat.eqb_spec (last (ids (marks dv t)) 0) 0); [congruence|]. rewrite E1, E2. reflexivity.
Qed.

Theorem walk : forall dv (a : tags) f fr s e c1 x c2, Rep dv a f fr -> children f s e (c1 ++ x :: c2) ->
  i_inc a (first x) = Some (hd e (map first c2)) /\ i_dec a (hd e (map first c2)) = Some (first x).
Proof.
  intros dv a f fr s e c1 x c2 H C. unfold Rep in H. destruct (children_marks dv _ _ _ _ C) as (m1 & m2 & E & _ & E2 & _).
  rewrite E in H. rewrite fmarks_app in H. change (fmarks dv (x :: c2)) with (marks dv x ++ fmarks dv c2) in H.
  assert (H' : Holds a ((m1 ++ fmarks dv c1) ++ marks dv x ++ (fmarks dv c2 ++ m2)) [] fr) by (rewrite <- !app_assoc in *; exact H).
  pose proof (inc_dec_at _ _ _ _ _ _ H') as W. rewrite hd_fmarks, E2 in W. exact W.
Qed.

Theorem ends : forall dv (a : tags) f fr, Rep dv a f fr ->
  tt_begin a = Some (hd 0 (map first f)) /\ tt_empty a = Some (match f with [] => true | _ => false end) /\
  (forall s e v c, within (Pair s e v c) f -> i_begin a s = Some (hd e (map first c)) /\ i_end a s = Some e) /\
  (forall i v, within (One i v) f -> i_begin a i = Some 0 /\ i_end a i = Some 0).
Proof.
  intros dv a f fr H.
  assert (B : tt_begin a = Some (hd 0 (map first f))).
  { pose proof (h_links _ _ _ _ H) as K. pose proof (hd_fmarks dv f []) as W. rewrite app_nil_r in W. cbn [ids map hd] in W. rewrite <- W.
    unfold tt_begin. destruct (ids (fmarks dv f)) eqn:Q; cbn [links] in K; cbn [hd]; apply K. }
  split; [exact B|]. split; [|split].
  - unfold tt_begin in B. unfold tt_empty. rewrite B. destruct f as [|x f]; [reflexivity|]. cbn [map hd].
    destruct (around dv a [] x (fmarks dv f) fr H) as (_ & _ & _ & _ & A5 & _). destruct (Nat.eqb_spec (first x) 0); congruence.
  - intros s e v c W. destruct (within_marks dv _ _ W) as (m1 & m2 & E). unfold Rep in H. rewrite E in H.
    pose proof (h_marks _ _ _ _ H) as M. apply Forall_app in M. destruct M as [_ M]. apply Forall_app in M. destruct M as [M _].
    destruct (around dv a m1 _ m2 fr H) as (_ & _ & _ & _ & _ & _ & A7 & _).
    cbn [marks] in M. inversion M as [|? ? M1 M2]; subst. cbn in M1. destruct M1 as (_ & T & _).
    unfold i_begin, i_end. rewrite T. cbn [marks ids map m_id] in A7. rewrite last_cons_d, map_app in A7. cbn [map m_id] in A7. rewrite last_snoc in A7.
    destruct (Nat.eqb_spec e 0); [congruence|]. split; [|reflexivity].
    pose proof (h_links _ _ _ _ H) as K. rewrite ids_app in K. cbn [marks ids map m_id app] in K. apply links_app in K.
    destruct K as (_ & K). change (map m_id ((flat_map (marks dv) c ++ [(e, s, 0, dv)]) ++ m2)) with (ids ((fmarks dv c ++ [(e, s, 0, dv)]) ++ m2)) in K.
    rewrite <- app_assoc in K. pose proof (hd_fmarks dv c ([(e, s, 0, dv)] ++ m2)) as W2. cbn [app ids map m_id hd] in W2. cbn [app] in K. rewrite <- W2.
    apply links_hd in K. exact K.
  - intros i v W. destruct (within_marks dv _ _ W) as (m1 & m2 & E). unfold Rep in H. rewrite E in H.
    pose proof (h_marks _ _ _ _ H) as M. apply Forall_app in M. destruct M as [_ M]. apply Forall_app in M. destruct M as [M _].
    inversion M as [|? ? M1 M2]; subst. cbn in M1. destruct M1 as (_ & T & _). unfold i_begin, i_end. rewrite T. auto.
Qed.

(** *** parent *)
Lemma parent_loop_children : forall dv (a : tags) s e c1 m1 m2 fr fuel, Holds a (m1 ++ fmarks dv c1 ++ m2) [] fr ->
  last (ids m1) 0 = s -> (s = 0 \/ r_tail a s = Some e /\ e <> 0) -> length c1 < fuel ->
  parent_loop fuel a (last (ids (m1 ++ fmarks dv c1)) 0) = Some s.
Proof.
  intros dv a s e c1. induction c1 as [|x c1 IH] using rev_ind; intros m1 m2 fr fuel H Ls T F.
  - cbn [fmarks flat_map]. rewrite app_nil_r. rewrite Ls. destruct fuel; [cbn in F; lia|]. cbn [parent_loop].
    destruct (Nat.eqb_spec s 0) as [->|N]; [reflexivity|]. destruct T as [T|(T & Ne)]; [congruence|]. rewrite T.
    destruct (Nat.eqb_spec e 0); [congruence|]. reflexivity.
  - rewrite app_length in F. cbn in F. destruct fuel as [|fuel]; [lia|]. rewrite fmarks_app in *. unfold fmarks at 2 in H. unfold fmarks at 2.
    cbn [flat_map] in *. rewrite app_nil_r in *.
    assert (H' : Holds a ((m1 ++ fmarks dv c1) ++ marks dv x ++ m2) [] fr) by (rewrite <- !app_assoc in *; exact H).
    assert (Q : last (ids (m1 ++ fmarks dv c1 ++ marks dv x)) 0 = last (ids (marks dv x)) 0).
    { rewrite app_assoc, ids_app, last_app_d. destruct (ids_marks dv x) as (ls & Q). rewrite Q, !last_cons_d. reflexivity. }
    rewrite Q. destruct (last_head _ _ _ _ _ _ H') as (h & E1 & E2 & E3). destruct (around _ _ _ _ _ _ H') as (A1 & _ & _ & _ & _ & _ & A7 & _).
    cbn [parent_loop]. destruct (Nat.eqb_spec (last (ids (marks dv x)) 0) 0); [congruence|]. rewrite E3. cbn [Nat.eqb negb]. rewrite E1, E2, A1.
    apply (IH m1 (marks dv x ++ m2) fr); auto; [rewrite <- !app_assoc in *; exact H|lia].
Qed.

Lemma first_in : forall dv (t : tr), In (first t) (ids (marks dv t)).
Proof. intros. destruct (ids_marks dv t) as (ls & ->). left. reflexivity. Qed.

Lemma fmarks_length : forall dv (c : list tr), length c <= length (fmarks dv c).
Proof.
  intros dv c. induction c as [|x c IH]; cbn; [lia|]. rewrite app_length. fold (fmarks dv c). destruct (marks_first dv x) as (h & t & v & r & ->). cbn. lia.
Qed.

Lemma holds_length : forall (a : tags) m x fr, Holds a m x fr -> length m <= length a.
Proof.
  intros a m x fr H. rewrite <- ids_length. apply nodup_length.
  - pose proof (links_nodup0 _ _ _ _ H) as D. apply NoDup_cons_iff in D. apply D.
  - apply (h_m_in H).
Qed.

Theorem parents : forall dv (a : tags) f fr s e c1 c2, Rep dv a f fr -> children f s e (c1 ++ c2) ->
  i_parent a (hd e (map first c2)) = Some s.
Proof.
  intros dv a f fr s e c1 c2 H C. unfold Rep in H. destruct (children_marks dv _ _ _ _ C) as (m1 & m2 & E & E1 & E2 & E3).
  rewrite E in H. rewrite fmarks_app in H.
  assert (H' : Holds a (m1 ++ fmarks dv c1 ++ (fmarks dv c2 ++ m2)) [] fr) by (rewrite <- !app_assoc in *; exact H).
  pose proof (h_links _ _ _ _ H') as K. rewrite app_assoc, ids_app in K. apply links_rest in K. destruct K as (K & _). apply links_last in K.
  rewrite hd_fmarks, E2 in K. unfold i_parent. rewrite K.
  apply (parent_loop_children dv a s e c1 m1 (fmarks dv c2 ++ m2) fr); auto.
  - destruct E3 as [(-> & _)|(v & m3 & m4 & -> & ->)]; [left; reflexivity|]. right.
    pose proof (h_marks _ _ _ _ H') as M. apply Forall_app in M. destruct M as [M _]. apply Forall_app in M. destruct M as [_ M].
    inversion M as [|? ? M1 _]; subst. cbn in M1. split; [apply M1|].
    pose proof (h_m_in H' e) as W. rewrite !ids_app, !in_app_iff in W. cbn [ids map m_id In] in W. intro. subst e. destruct W; [tauto|lia].
  - pose proof (holds_length _ _ _ _ H') as W. rewrite !app_length in W. pose proof (fmarks_length dv c1). lia.
Qed.

(** *** All tags in order *)
Theorem serial : forall dv (a : tags) f fr m1 k m2, Rep dv a f fr -> fmarks dv f = m1 ++ k :: m2 ->
  s_inc a (m_id k) = Some (hd 0 (ids m2)) /\ s_dec a (hd 0 (ids m2)) = Some (m_id k).
Proof.
  intros dv a f fr m1 k m2 H E. unfold Rep in H. rewrite E in H. pose proof (h_links _ _ _ _ H) as K.
  pose proof (h_m_in H (m_id k)) as W. rewrite ids_app, in_app_iff in W. cbn [ids map In] in W. specialize (W (or_intror (or_introl eq_refl))).
  unfold s_inc, s_dec. destruct (Nat.eqb_spec (m_id k) 0); [lia|].
  rewrite ids_app in K. cbn [ids map] in K. apply links_app in K. destruct K as (_ & K). unfold ids. destruct (map m_id m2); cbn [links hd] in *; tauto.
Qed.

Theorem pairs : forall dv (a : tags) f fr, Rep dv a f fr ->
  (forall s e v c, within (Pair s e v c) f -> s <> e /\ is_start_tag a s = Some true /\ is_end_tag a s = Some false /\
     is_start_tag a e = Some false /\ is_end_tag a e = Some true /\
     start_tag a s = Some s /\ start_tag a e = Some s /\ end_tag a s = Some e /\ end_tag a e = Some e) /\
  (forall i v, within (One i v) f -> is_start_tag a i = Some false /\ is_end_tag a i = Some false /\
     start_tag a i = Some 0 /\ end_tag a i = Some 0).
Proof.
  intros dv a f fr H. split.
  - intros s e v c W. destruct (within_marks dv _ _ W) as (m1 & m2 & E). unfold Rep in H. rewrite E in H.
    pose proof (h_marks _ _ _ _ H) as M. apply Forall_app in M. destruct M as [_ M]. apply Forall_app in M. destruct M as [M _].
    cbn [marks] in M. inversion M as [|? ? M1 M2]; subst. apply Forall_app in M2. destruct M2 as [_ M2]. inversion M2 as [|? ? M3 _]; subst.
    cbn in M1, M3. destruct M1 as (Hs & Ts & _), M3 as (He & Te & _).
    destruct (around _ _ _ _ _ _ H) as (_ & _ & _ & _ & A5 & _ & A7 & _). cbn [first] in A5.
    cbn [marks ids map m_id] in A7. rewrite last_cons_d, map_app in A7. cbn [map m_id] in A7. rewrite last_snoc in A7.
    unfold start_tag, end_tag, is_start_tag, is_end_tag. rewrite Hs, Ts, He, Te.
    destruct (Nat.eqb_spec s 0); [congruence|]. destruct (Nat.eqb_spec e 0); [congruence|]. cbn [negb Nat.eqb].
    repeat split; auto. intros ->. congruence.
  - intros i v W. destruct (within_marks dv _ _ W) as (m1 & m2 & E). unfold Rep in H. rewrite E in H.
    pose proof (h_marks _ _ _ _ H) as M. apply Forall_app in M. destruct M as [_ M]. apply Forall_app in M. destruct M as [M _].
    inversion M as [|? ? M1 M2]; subst. cbn in M1. destruct M1 as (Hs & Ts & _).
    unfold start_tag, end_tag, is_start_tag, is_end_tag. rewrite Hs, Ts. auto.
Qed.

(** *** The number of nodes *)
Fixpoint nodes (t : tr) : nat := match t with One _ _ => 1 | Pair _ _ _ c => S (list_sum (map nodes c)) end.

Definition opens (m : list mark) : nat := length (filter (fun k : mark => let '(_, h, t, _) := k in negb ((t =? 0) && negb (h =? 0))) m).

Lemma opens_app : forall m1 m2, opens (m1 ++ m2) = opens m1 + opens m2.
Proof. intros. unfold opens. rewrite filter_app, app_length. reflexivity. Qed.

Lemma opens_nodes : forall dv t, ~ In 0 (ids (marks dv t)) -> opens (marks dv t) = nodes t.
Proof.
  intros dv t. induction t as [i v|s e v c IH] using tr_ind'; intro Z; [reflexivity|].
  cbn [marks nodes] in *. cbn [ids map m_id] in Z. rewrite map_app in Z. cbn [map m_id] in Z.
  change ((s, 0, e, v) :: flat_map (marks dv) c ++ [(e, s, 0, dv)]) with ([(s, 0, e, v)] ++ flat_map (marks dv) c ++ [(e, s, 0, dv)]).
  rewrite !opens_app.
  assert (A : opens [(s, 0, e, v)] = 1) by (unfold opens; cbn [filter Nat.eqb negb]; rewrite andb_false_r; reflexivity).
  assert (B : opens [(e, s, 0, dv)] = 0).
  { unfold opens. cbn [filter Nat.eqb andb]. destruct (Nat.eqb_spec s 0) as [->|]; [exfalso; apply Z; left; reflexivity|]. reflexivity. }
  rewrite A, B. rewrite Nat.add_0_r. cbn. f_equal.
  assert (Z' : ~ In 0 (ids (flat_map (marks dv) c))) by (intro W; apply Z; right; apply in_or_app; left; exact W). clear Z A B.
  induction IH as [|x c Hx _ IHc]; [reflexivity|]. cbn [flat_map map list_sum] in *. rewrite ids_app, in_app_iff in Z'. rewrite opens_app, Hx, IHc by tauto. reflexivity.
Qed.

Lemma size_loop_marks : forall (a : tags) m2 m1 fr fuel n, Holds a (m1 ++ m2) [] fr -> length m2 < fuel ->
  size_loop fuel a (hd 0 (ids m2)) n = Some (n + opens m2).
Proof.
  intros a m2. induction m2 as [|k m2 IH]; intros m1 fr fuel n H F; destruct fuel as [|fuel]; cbn in F; try lia.
  - cbn. f_equal. lia.
  - assert (H' : Holds a ((m1 ++ [k]) ++ m2) [] fr) by (rewrite <- app_assoc; exact H).
    pose proof (h_m_in H (m_id k)) as W. rewrite ids_app, in_app_iff in W. cbn [ids map In] in W. specialize (W (or_intror (or_introl eq_refl))).
    pose proof (h_marks _ _ _ _ H) as M. apply Forall_app in M. destruct M as [_ M]. inversion M as [|? ? M1 _]; subst.
    assert (N : r_next a (m_id k) = Some (hd 0 (ids m2))).
    { pose proof (h_links _ _ _ _ H) as K. rewrite ids_app in K. cbn [ids map] in K. apply links_app in K. destruct K as (_ & K).
      unfold ids. destruct (map m_id m2); cbn [links hd] in *; tauto. }
    destruct k as [[[i h] t] v]. cbn [ids map hd m_id size_loop] in *. destruct (Nat.eqb_spec i 0); [lia|].
    cbn in M1. destruct M1 as (Hh & Ht & _). rewrite Hh, Ht, N. fold (ids m2). rewrite (IH _ fr fuel _ H') by lia.
    unfold opens. cbn [filter]. destruct ((t =? 0) && negb (h =? 0)); cbn [negb length]; f_equal; lia.
Qed.

Theorem size_nodes : forall dv (a : tags) f fr, Rep dv a f fr -> tt_size a = Some (list_sum (map nodes f)).
Proof.
  intros dv a f fr H. pose proof (ends _ _ _ _ H) as (B & _). unfold tt_begin in B. unfold tt_size. rewrite B.
  unfold Rep in H. pose proof (hd_fmarks dv f []) as W. rewrite app_nil_r in W. cbn [ids map hd] in W. rewrite <- W.
  pose proof (holds_length _ _ _ _ H). change (map m_id (fmarks dv f)) with (ids (fmarks dv f)). rewrite (size_loop_marks a (fmarks dv f) [] fr) by (try exact H; lia).
  cbn [Nat.add]. f_equal. pose proof (links_nodup0 _ _ _ _ H) as D. apply NoDup_cons_iff in D. destruct D as (D & _). revert D. clear.
  induction f as [|x f IH]; intro D; [reflexivity|]. unfold fmarks in *. cbn [flat_map map list_sum fold_right] in *. rewrite ids_app, in_app_iff in D.
  rewrite opens_app, opens_nodes, IH by tauto. reflexivity.
Qed.
End L.
