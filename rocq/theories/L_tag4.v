(** Moving a node of a tag_tree, and its iterators. *)
From Coq Require Import List Arith Bool Lia ZArith Sorting.Sorted Permutation.
From Verif Require Import M_tree M_tag L_tag L_tag2 L_tag3.
Import ListNotations.
Open Scope tree_scope.

Lemma links_next_last : forall nx pv l x y, links nx pv x l y -> nx (last l x) = Some y.
Proof.
  intros nx pv l. induction l as [|k l IH]; intros x y K; cbn [links] in K; [apply K|]. rewrite last_cons_d. apply IH. apply K.
Qed.

Lemma blocks : forall (A B C D : list nat), NoDup (A ++ B ++ C ++ D) ->
  (forall j, In j A -> In j B -> False) /\ (forall j, In j A -> In j C -> False) /\ (forall j, In j A -> In j D -> False) /\
  (forall j, In j B -> In j C -> False) /\ (forall j, In j B -> In j D -> False) /\ (forall j, In j C -> In j D -> False).
Proof.
  intros A B C D N. destruct (nodup_app _ _ N) as (_ & N1 & XA). destruct (nodup_app _ _ N1) as (_ & N2 & XB).
  destruct (nodup_app _ _ N2) as (_ & _ & XC).
  split; [|split; [|split; [|split; [|split; [|exact XC]]]]]; intros j J J'.
  - apply (XA j J). apply in_or_app. auto.
  - apply (XA j J). apply in_or_app. right. apply in_or_app. auto.
  - apply (XA j J). apply in_or_app. right. apply in_or_app. auto.
  - apply (XB j J). apply in_or_app. auto.
  - apply (XB j J). apply in_or_app. auto.
Qed.

(** Two neighbouring blocks of a list swapped *)
Lemma links_swap : forall nx pv nx' pv' l1 s ls q l2 l3,
  links nx pv 0 (l1 ++ (s :: ls) ++ (q :: l2) ++ l3) 0 -> NoDup (0 :: l1 ++ (s :: ls) ++ (q :: l2) ++ l3) ->
  nx' (last l1 0) = Some q -> pv' q = Some (last l1 0) ->
  nx' (last l2 q) = Some s -> pv' s = Some (last l2 q) ->
  nx' (last ls s) = Some (hd 0 l3) -> pv' (hd 0 l3) = Some (last ls s) ->
  (forall j, j <> last l1 0 -> j <> last l2 q -> j <> last ls s -> nx' j = nx j) ->
  (forall j, j <> q -> j <> s -> j <> hd 0 l3 -> pv' j = pv j) ->
  links nx' pv' 0 (l1 ++ (q :: l2) ++ (s :: ls) ++ l3) 0.
Proof.
  intros nx pv nx' pv' l1 s ls q l2 l3 K D A1 A2 B1 B2 C1 C2 N P.
  change (0 :: l1 ++ (s :: ls) ++ (q :: l2) ++ l3) with ((0 :: l1) ++ (s :: ls) ++ (q :: l2) ++ l3) in D.
  destruct (nodup_app _ _ D) as (DA & D1 & XA). destruct (nodup_app _ _ D1) as (DB & D2 & XB). destruct (nodup_app _ _ D2) as (DC & DD & XCD).
  assert (XAB : forall j, In j (0 :: l1) -> In j (s :: ls) -> False) by (intros j J J'; apply (XA j J); apply in_or_app; auto).
  assert (XAC : forall j, In j (0 :: l1) -> In j (q :: l2) -> False).
  { intros j J J'; apply (XA j J). apply in_or_app. right. apply in_or_app. auto. }
  assert (XAD : forall j, In j (0 :: l1) -> In j l3 -> False).
  { intros j J J'; apply (XA j J). apply in_or_app. right. apply in_or_app. auto. }
  assert (XBC : forall j, In j (s :: ls) -> In j (q :: l2) -> False) by (intros j J J'; apply (XB j J); apply in_or_app; auto).
  assert (XBD : forall j, In j (s :: ls) -> In j l3 -> False) by (intros j J J'; apply (XB j J); apply in_or_app; auto).
  clear XA XB D1 D2 D.
  assert (IA : In (last l1 0) (0 :: l1)) by (destruct (last_in l1 0) as [W|W]; [left|right]; auto).
  assert (IB : In (last ls s) (s :: ls)) by (destruct (last_in ls s) as [W|W]; [left|right]; auto).
  assert (IC : In (last l2 q) (q :: l2)) by (destruct (last_in l2 q) as [W|W]; [left|right]; auto).
  assert (Is : In s (s :: ls)) by (left; reflexivity). assert (Iq : In q (q :: l2)) by (left; reflexivity).
  assert (I0 : In 0 (0 :: l1)) by (left; reflexivity).
  cbn [app] in K |- *. apply links_app in K. destruct K as (K1 & K). apply links_app in K. destruct K as (K2 & K).
  apply links_rest in K. destruct K as (K3 & K4).
  assert (IH : hd 0 l3 = 0 \/ In (hd 0 l3) l3) by (destruct l3; cbn; auto).
  apply links_app. split; [|apply links_app; split; [|apply links_rest; split]].
  - eapply links_end with (y := s); [exact K1|exact DA|..]; auto.
    + intros j J Nj. assert (J' : In j (0 :: l1)) by (destruct J; [left|right]; auto). clear J.
      apply N; auto; intro; subst j; eauto.
    + intros j J. assert (J' : In j (0 :: l1)) by (right; exact J). apply P; intro; subst j; eauto.
      destruct IH as [W|W]; [rewrite W in J; apply NoDup_cons_iff in DA; destruct DA; auto|eauto].
  - eapply links_end with (y := hd 0 l3); [exact K3|exact DC|..]; auto.
    + intros j J Nj. assert (J' : In j (q :: l2)) by (destruct J; [left|right]; auto). clear J.
      apply N; auto; intro; subst j; eauto.
    + intros j J. assert (J' : In j (q :: l2)) by (right; exact J). apply P; intro; subst j; eauto.
      * apply NoDup_cons_iff in DC; destruct DC; auto.
      * destruct IH as [W|W]; [rewrite W in J'; eauto|eauto].
  - eapply links_end with (y := q); [exact K2|exact DB|..]; auto.
    + intros j J Nj. assert (J' : In j (s :: ls)) by (destruct J; [left|right]; auto). clear J.
      apply N; auto; intro; subst j; eauto.
    + intros j J. assert (J' : In j (s :: ls)) by (right; exact J). apply P; intro; subst j; eauto.
      * apply NoDup_cons_iff in DB; destruct DB; auto.
      * destruct IH as [W|W]; [rewrite W in J'; eauto|eauto].
  - destruct l3 as [|k l3]; [exact I|]. eapply rest_ext; [| |exact K4].
    + intros j J. apply N; intro; subst j; eauto.
    + cbn [tl hd] in *. intros j J. apply NoDup_cons_iff in DD. destruct DD as (Dk & _).
      apply P; intro; subst j; destruct J as [J|J]; try (rewrite J in *); eauto using in_cons.
      * apply (XAD 0); [exact I0|]. left. reflexivity.
Qed.

Section L.
Context {V : Type}.
Notation tags := (@tags V).
Notation tr := (tr V).
Notation mark := (@mark V).

Lemma links_nodup0 : forall (a : tags) m x fr, Holds a m x fr -> NoDup (0 :: ids m).
Proof. intros. apply (nodup0 _ _ _ _ H). Qed.

(** The positions around the node [t] *)
Lemma around : forall dv (a : tags) m1 t m2 fr, Holds a (m1 ++ marks dv t ++ m2) [] fr ->
  r_prev a (first t) = Some (last (ids m1) 0) /\ last_tag a (first t) = Some (last (ids (marks dv t)) 0) /\
  r_next a (last (ids (marks dv t)) 0) = Some (hd 0 (ids m2)) /\ first t < length a /\ first t <> 0 /\
  last (ids (marks dv t)) 0 < length a /\ last (ids (marks dv t)) 0 <> 0 /\ In (last (ids (marks dv t)) 0) (ids (marks dv t)).
Proof.
  intros dv a m1 t m2 fr H. pose proof (h_links _ _ _ _ H) as K. pose proof (links_nodup0 _ _ _ _ H) as D.
  destruct (marks_first dv t) as (h & tl & v & q & Q).
  assert (Z : ~ In 0 (ids (marks dv t))).
  { apply NoDup_cons_iff in D. rewrite !ids_app, !in_app_iff in D. tauto. }
  pose proof (h_marks _ _ _ _ H) as M. apply Forall_app in M. destruct M as [_ M]. apply Forall_app in M. destruct M as [M _].
  pose proof (last_tag_marks dv a t M Z) as T.
  assert (In1 : In (first t) (ids (marks dv t))) by (rewrite Q; left; reflexivity).
  assert (In2 : In (last (ids (marks dv t)) 0) (ids (marks dv t))).
  { rewrite Q. cbn [ids map m_id]. rewrite last_cons_d. destruct (last_in (map m_id q) (first t)) as [->|W]; [left; reflexivity|right; exact W]. }
  assert (B : forall j, In j (ids (marks dv t)) -> j < length a /\ j <> 0).
  { intros j J. pose proof (h_m_in H j) as W. rewrite !ids_app, !in_app_iff in W. specialize (W (or_intror (or_introl J))). lia. }
  rewrite !ids_app in K. pose proof K as K'. rewrite Q in K'. cbn [ids map m_id app] in K'. apply links_app in K'.
  destruct K' as (K1 & _). fold (ids m1) in K1. split; [apply (links_last _ _ _ _ _ K1)|]. split; [exact T|].
  split; [|split; [apply B; exact In1|split; [apply B; exact In1|split; [apply B; exact In2|split; [apply B; exact In2|exact In2]]]]].
  rewrite app_assoc in K. apply links_rest in K. destruct K as (K3 & _). apply links_next_last in K3.
  rewrite last_app_d in K3. rewrite Q in *. cbn [ids map m_id] in *. rewrite last_cons_d in *. exact K3.
Qed.

Lemma app_app : forall {A} (m1 m2 n1 n2 : list A), m1 ++ m2 = n1 ++ n2 ->
  (exists l, m1 = n1 ++ l /\ n2 = l ++ m2) \/ (exists l, n1 = m1 ++ l /\ m2 = l ++ n2).
Proof.
  intros A m1. induction m1 as [|x m1 IH]; intros m2 [|y n1] n2 E; cbn in E.
  - left. exists []. auto.
  - right. exists (y :: n1). auto.
  - left. exists (x :: m1). auto.
  - injection E as <- E. destruct (IH _ _ _ E) as [(l & -> & ->)|(l & -> & ->)]; [left|right]; exists l; auto.
Qed.

Lemma same_holds : forall (a a' : tags) m m' x fr, Holds a m x fr -> Permutation m m' -> length a' = length a ->
  (forall j, r_head a' j = r_head a j) -> (forall j, r_tail a' j = r_tail a j) -> (forall j, r_val a' j = r_val a j) ->
  links (r_next a') (r_prev a') 0 (ids m') 0 -> Holds a' m' x fr.
Proof.
  intros a a' m m' x fr H P L A3 A4 A5 K. constructor.
  - exact K.
  - eapply holds_ext; [|eapply Permutation_Forall; [exact P|apply (h_marks _ _ _ _ H)]]. intros j _. auto.
  - eapply links_ext; [| |apply (h_free _ _ _ _ H)]; auto.
  - apply (h_sorted _ _ _ _ H).
  - rewrite L. apply (h_pos _ _ _ _ H).
  - rewrite L. eapply Permutation_trans; [|apply (h_all _ _ _ _ H)]. apply Permutation_app_head, Permutation_app_tail.
    apply Permutation_sym, Permutation_map. exact P.
Qed.

Lemma hd_marks : forall dv (t : tr) (m : list mark), hd 0 (ids (marks dv t ++ m)) = first t.
Proof. intros dv t m. destruct (marks_first dv t) as (h & tl & v & q & Q). rewrite Q. reflexivity. Qed.

Lemma ids_marks : forall dv (t : tr), exists ls, ids (marks dv t) = first t :: ls.
Proof. intros dv t. destruct (marks_first dv t) as (h & tl & v & q & Q). rewrite Q. eexists. reflexivity. Qed.

(** forwards: over the tags [l], which are not none *)
Lemma move_forward : forall dv (a : tags) m1 t l m2 fr, Holds a (m1 ++ marks dv t ++ l ++ m2) [] fr -> l <> [] ->
  exists a', tt_move a (hd 0 (ids m2)) (first t) = Some (a', first t) /\ Holds a' (m1 ++ l ++ marks dv t ++ m2) [] fr.
Proof.
  intros dv a m1 t l m2 fr H Nl. destruct (around dv a m1 t (l ++ m2) fr H) as (A1 & A2 & A3 & A4 & A5 & A6 & A7 & A8).
  pose proof (h_links _ _ _ _ H) as K. pose proof (links_nodup0 _ _ _ _ H) as D. rewrite !ids_app in K, D.
  destruct (ids_marks dv t) as (ls & Q). destruct l as [|k l]; [congruence|]. cbn [ids map] in K, D, A3. fold (ids l) in K, D, A3.
  rewrite Q in *.
  assert (Lq : m_id k < length a /\ m_id k <> 0).
  { pose proof (h_m_in H (m_id k)) as W. rewrite !ids_app, !in_app_iff in W. cbn [ids map In] in W. specialize (W (or_intror (or_intror (or_introl (or_introl eq_refl))))). lia. }
  assert (H' : Holds a ((m1 ++ marks dv t ++ k :: l) ++ m2) [] fr) by (rewrite <- !app_assoc; exact H).
  destruct (hd_ids H') as (Lp & Ip). destruct (last_ids H) as (Lb & Ib).
  assert (PB : r_prev a (hd 0 (ids m2)) = Some (last (ids l) (m_id k)) /\ last (ids l) (m_id k) < length a).
  { split.
    - rewrite !app_assoc in K. apply links_rest in K. destruct K as (K & _). apply links_last in K. rewrite K, !last_app_d, last_cons_d. reflexivity.
    - destruct (last_ids H') as (W & _). rewrite !ids_app in W. cbn [ids map] in W. rewrite !last_app_d, last_cons_d in W. exact W. }
  destruct PB as (PB & LB). cbn [hd app] in A3. rewrite last_cons_d in *.
  destruct (move_spec a (hd 0 (ids m2)) (first t) (last (ids l) (m_id k)) (last (ids m1) 0) (last ls (first t)) (m_id k))
    as (a' & E & L & B1 & B2 & B3 & B4 & B5); try assumption; try apply Lq.
  exists a'. split; [exact E|]. eapply same_holds; [exact H| |exact L|exact B3|exact B4|exact B5|].
  - apply Permutation_app_head. rewrite !app_assoc. apply Permutation_app_tail, Permutation_app_comm.
  - rewrite !ids_app, Q. cbn [ids map]. fold (ids l).
    assert (D' : NoDup ((0 :: ids m1) ++ (first t :: ls) ++ (m_id k :: ids l) ++ ids m2)) by exact D.
    destruct (blocks _ _ _ _ D') as (XAB & XAC & XAD & XBC & XBD & XCD).
    assert (S0 : In (last (ids m1) 0) (0 :: ids m1)) by (destruct Ib; [left|right]; auto).
    assert (S1 : In (last ls (first t)) (first t :: ls)) by (destruct (last_in ls (first t)) as [->|W]; [left|right]; auto).
    assert (S2 : In (last (ids l) (m_id k)) (m_id k :: ids l)) by (destruct (last_in (ids l) (m_id k)) as [->|W]; [left|right]; auto).
    assert (S3 : In (first t) (first t :: ls)) by (left; reflexivity).
    assert (S4 : In (m_id k) (m_id k :: ids l)) by (left; reflexivity).
    assert (G1 : last (ids m1) 0 <> last ls (first t)) by (intro W; rewrite W in S0; eauto).
    assert (G2 : last (ids m1) 0 <> last (ids l) (m_id k)) by (intro W; rewrite W in S0; eauto).
    assert (G3 : last ls (first t) <> last (ids l) (m_id k)) by (intro W; rewrite W in S1; eauto).
    assert (G4 : first t <> m_id k) by (intro W; apply (XBC (m_id k)); [rewrite <- W; exact S3|exact S4]).
    assert (G5 : first t <> hd 0 (ids m2)) by (intro W; rewrite <- W in Ip; destruct Ip; [congruence|eauto]).
    assert (G6 : m_id k <> hd 0 (ids m2)) by (intro W; rewrite <- W in Ip; destruct Ip; [destruct Lq; congruence|eauto]).
    eapply links_swap with (nx := r_next a) (pv := r_prev a); [exact K|exact D|..].
    + rewrite B2, ow_same. reflexivity.
    + rewrite B1, ow_same. reflexivity.
    + rewrite B2, ow_other, ow_other, ow_same by auto. reflexivity.
    + rewrite B1, ow_other, ow_other, ow_same by auto. reflexivity.
    + rewrite B2, ow_other, ow_same by auto. reflexivity.
    + rewrite B1, ow_other, ow_same by auto. reflexivity.
    + intros j J1 J2 J3. rewrite B2, !ow_other by auto. reflexivity.
    + intros j J1 J2 J3. rewrite B1, !ow_other by auto. reflexivity.
Qed.

(** backwards: over the tags [l], which are not none *)
Lemma move_backward : forall dv (a : tags) m1 l t m2 fr, Holds a (m1 ++ l ++ marks dv t ++ m2) [] fr -> l <> [] ->
  exists a', tt_move a (hd 0 (ids (l ++ m2))) (first t) = Some (a', first t) /\ Holds a' (m1 ++ marks dv t ++ l ++ m2) [] fr.
Proof.
  intros dv a m1 l t m2 fr H Nl.
  assert (H2 : Holds a ((m1 ++ l) ++ marks dv t ++ m2) [] fr) by (rewrite <- app_assoc; exact H).
  destruct (around dv a (m1 ++ l) t m2 fr H2) as (A1 & A2 & A3 & A4 & A5 & A6 & A7 & A8).
  pose proof (h_links _ _ _ _ H) as K. pose proof (links_nodup0 _ _ _ _ H) as D. rewrite !ids_app in K, D.
  destruct (ids_marks dv t) as (ls & Q). destruct l as [|k l]; [congruence|]. cbn [app ids map hd].
  rewrite ids_app in A1. cbn [ids map] in K, D, A1. fold (ids l) in K, D, A1. rewrite Q in *. rewrite last_app_d, last_cons_d in A1.
  rewrite last_cons_d in *.
  assert (Lq : m_id k < length a /\ m_id k <> 0).
  { pose proof (h_m_in H (m_id k)) as W. rewrite !ids_app, !in_app_iff in W. cbn [ids map In] in W. specialize (W (or_intror (or_introl (or_introl eq_refl)))). lia. }
  assert (H' : Holds a ((m1 ++ (k :: l) ++ marks dv t) ++ m2) [] fr) by (rewrite <- !app_assoc; exact H).
  destruct (hd_ids H') as (Lp & Ip). destruct (last_ids H) as (Lb & Ib).
  assert (PB : r_prev a (m_id k) = Some (last (ids m1) 0)).
  { cbn [app] in K. apply links_app in K. destruct K as (K & _). apply links_last in K. exact K. }
  assert (LB : last (ids l) (m_id k) < length a).
  { destruct (last_ids H2) as (W & _). rewrite ids_app in W. cbn [ids map] in W. rewrite last_app_d, last_cons_d in W. exact W. }
  destruct (move_spec a (m_id k) (first t) (last (ids m1) 0) (last (ids l) (m_id k)) (last ls (first t)) (hd 0 (ids m2)))
    as (a' & E & L & B1 & B2 & B3 & B4 & B5); try assumption; try apply Lq.
  exists a'. split; [exact E|]. eapply same_holds; [exact H| |exact L|exact B3|exact B4|exact B5|].
  - apply Permutation_app_head. apply (Permutation_app_swap_app (k :: l)).
  - change (k :: l ++ m2) with ((k :: l) ++ m2). rewrite !ids_app, Q. cbn [ids map]. fold (ids l).
    assert (D' : NoDup ((0 :: ids m1) ++ (m_id k :: ids l) ++ (first t :: ls) ++ ids m2)) by exact D.
    destruct (blocks _ _ _ _ D') as (XAB & XAC & XAD & XBC & XBD & XCD).
    assert (S0 : In (last (ids m1) 0) (0 :: ids m1)) by (destruct Ib; [left|right]; auto).
    assert (S1 : In (last ls (first t)) (first t :: ls)) by (destruct (last_in ls (first t)) as [->|W]; [left|right]; auto).
    assert (S2 : In (last (ids l) (m_id k)) (m_id k :: ids l)) by (destruct (last_in (ids l) (m_id k)) as [->|W]; [left|right]; auto).
    assert (S3 : In (first t) (first t :: ls)) by (left; reflexivity).
    assert (S4 : In (m_id k) (m_id k :: ids l)) by (left; reflexivity).
    assert (G1 : last (ids m1) 0 <> last ls (first t)) by (intro W; rewrite W in S0; eauto).
    assert (G2 : last (ids m1) 0 <> last (ids l) (m_id k)) by (intro W; rewrite W in S0; eauto).
    assert (G3 : last ls (first t) <> last (ids l) (m_id k)) by (intro W; rewrite W in S1; eauto).
    assert (G4 : first t <> m_id k) by (intro W; apply (XBC (m_id k)); [exact S4|rewrite <- W; exact S3]).
    assert (G5 : first t <> hd 0 (ids m2)) by (intro W; rewrite <- W in Ip; destruct Ip; [congruence|eauto]).
    assert (G6 : m_id k <> hd 0 (ids m2)) by (intro W; rewrite <- W in Ip; destruct Ip; [destruct Lq; congruence|eauto]).
    eapply links_swap with (nx := r_next a) (pv := r_prev a); [exact K|exact D|..].
    + rewrite B2, ow_other, ow_other, ow_same by auto. reflexivity.
    + rewrite B1, ow_other, ow_other, ow_same by auto. reflexivity.
    + rewrite B2, ow_other, ow_same by auto. reflexivity.
    + rewrite B1, ow_other, ow_same by auto. reflexivity.
    + rewrite B2, ow_same by auto. reflexivity.
    + rewrite B1, ow_same by auto. reflexivity.
    + intros j J1 J2 J3. rewrite B2, !ow_other by auto. reflexivity.
    + intros j J1 J2 J3. rewrite B1, !ow_other by auto. reflexivity.
Qed.
End L.
