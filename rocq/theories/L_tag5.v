(** Moving a node of a tag_tree to another place, and the neighbour a move loses. *)
From Coq Require Import List Arith Bool Lia Sorting.Sorted Permutation.
From Verif Require Import M_tree M_tag L_tag L_tag2 L_tag3 L_tag4.
Import ListNotations.
Open Scope tree_scope.

Section L.
Context {V : Type}.
Notation tags := (@tags V).
Notation tr := (tr V).
Notation mark := (@mark V).

Lemma inc_at : forall dv (a : tags) m1 t m2 fr, Holds a (m1 ++ marks dv t ++ m2) [] fr -> i_inc a (first t) = Some (hd 0 (ids m2)).
Proof.
  intros dv a m1 t m2 fr H. destruct (around dv a m1 t m2 fr H) as (_ & A2 & A3 & _ & A5 & _).
  unfold i_inc. destruct (Nat.eqb_spec (first t) 0); [congruence|]. unfold last_tag in A2.
  destruct (r_tail a (first t)); [|discriminate]. injection A2 as A2. rewrite A2. exact A3.
Qed.

Theorem move_holds : forall dv (a : tags) t p f g f' fr, Rep dv a f fr -> cut t f g -> put_at t p g f' ->
  i_inc a (first t) <> Some p -> exists a', tt_move a p (first t) = Some (a', first t) /\ Rep dv a' f' fr.
Proof.
  intros dv a t p f g f' fr H C P N. unfold Rep in *.
  destruct (cut_marks dv _ _ _ C) as (m1 & m2 & E1 & E2). destruct (put_at_marks dv _ _ _ _ P) as (n1 & n2 & E3 & E4 & E5).
  rewrite E1 in H. rewrite E4. rewrite (inc_at _ _ _ _ _ _ H) in N. rewrite E2 in E3.
  destruct (app_app _ _ _ _ E3) as [(l & -> & ->)|(l & -> & ->)].
  - rewrite <- E5 in N |- *. rewrite <- app_assoc in H. apply move_backward; [exact H|]. intros ->. apply N. reflexivity.
  - rewrite <- E5 in N |- *. rewrite <- app_assoc. apply move_forward; [exact H|]. intros ->. apply N. reflexivity.
Qed.

(** The place before the node behind: the node falls out of the list. *)
Theorem move_lost : forall dv (a : tags) t p f g fr, Rep dv a f fr -> cut t f g -> i_inc a (first t) = Some p ->
  exists a', tt_move a p (first t) = Some (a', first t) /\ Holds a' (fmarks dv g) (ids (marks dv t)) fr.
Proof.
  intros dv a t p f g fr H C N. unfold Rep in *.
  destruct (cut_marks dv _ _ _ C) as (m1 & m2 & E1 & E2). rewrite E1 in H. rewrite E2. clear f g C E1 E2.
  rewrite (inc_at _ _ _ _ _ _ H) in N. injection N as <-.
  destruct (around dv a m1 t m2 fr H) as (A1 & A2 & A3 & A4 & A5 & A6 & A7 & A8).
  pose proof (h_links _ _ _ _ H) as K. pose proof (links_nodup0 _ _ _ _ H) as D. rewrite !ids_app in K, D.
  assert (H' : Holds a ((m1 ++ marks dv t) ++ m2) [] fr) by (rewrite <- !app_assoc; exact H).
  destruct (hd_ids H') as (Lp & Ip). destruct (last_ids H) as (Lb & Ib).
  assert (PB : r_prev a (hd 0 (ids m2)) = Some (last (ids (marks dv t)) 0)).
  { rewrite app_assoc in K. apply links_rest in K. destruct K as (K & _). apply links_last in K. rewrite K, last_app_d.
    destruct (ids_marks dv t) as (ls & Q). rewrite Q, !last_cons_d. reflexivity. }
  destruct (move_spec a (hd 0 (ids m2)) (first t) (last (ids (marks dv t)) 0) (last (ids m1) 0) (last (ids (marks dv t)) 0) (hd 0 (ids m2)))
    as (a' & E & L & B1 & B2 & B3 & B4 & B5); try assumption.
  exists a'. split; [exact E|].
  destruct (nodup0 _ _ _ _ H) as (D1 & D2 & D3 & D4 & D5 & D6).
  pose proof (h_marks _ _ _ _ H) as M. apply Forall_app in M. destruct M as [M1 M]. apply Forall_app in M. destruct M as [M2 M3].
  assert (D' : NoDup ((0 :: ids m1) ++ ids (marks dv t) ++ ids m2)) by exact D.
  destruct (nodup_app _ _ D') as (DA & DBC & XA). destruct (nodup_app _ _ DBC) as (DB & DC & XBC).
  assert (S0 : In (last (ids m1) 0) (0 :: ids m1)) by (destruct Ib; [left|right]; auto).
  assert (F1 : In (first t) (ids (marks dv t))) by (destruct (ids_marks dv t) as (ls & ->); left; reflexivity).
  assert (G1 : forall j, In j (0 :: ids m1) -> j <> first t /\ j <> last (ids (marks dv t)) 0).
  { intros j J. split; intros ->; eapply XA; eauto; apply in_or_app; left; assumption. }
  assert (G2 : forall j, In j (ids m2) -> j <> first t /\ j <> last (ids (marks dv t)) 0).
  { intros j J. split; intros ->; eauto. }
  assert (G3 : forall j, In j (0 :: ids m1) -> In j (ids m2) -> False) by (intros j J1 J2; eapply XA; eauto; apply in_or_app; right; assumption).
  assert (G4 : hd 0 (ids m2) <> first t /\ hd 0 (ids m2) <> last (ids (marks dv t)) 0).
  { destruct Ip as [->|Ip]; [split; congruence|]. apply G2. exact Ip. }
  constructor.
  - rewrite ids_app. pose proof K as K0. apply links_rest in K0. destruct K0 as (K1 & _).
    assert (K3 : rest (r_next a) (r_prev a) (ids m2)) by (rewrite app_assoc in K; apply links_rest in K; apply K).
    apply links_rest. split.
    + eapply links_end with (y' := hd 0 (ids m2)); [exact K1|exact DA|..].
      * intros j J Nj. destruct (G1 j) as (Z1 & Z2); [destruct J; [left|right]; auto|]. rewrite B2, !ow_other; auto.
      * intros j J. destruct (G1 j) as (Z1 & Z2); [right; auto|]. rewrite B1, !ow_other; auto; intro; subst j.
        all: destruct Ip as [W|W]; [rewrite W in J; apply NoDup_cons_iff in DA; tauto|]; apply (G3 (hd 0 (ids m2))); [right; exact J|exact W].
      * rewrite B2, ow_same. reflexivity.
      * rewrite B1, ow_same. reflexivity.
    + destruct m2 as [|k m2]; [exact I|]. cbn [ids map] in *. fold (ids m2) in *. eapply rest_ext; [| |exact K3].
      * intros j J. destruct (G2 j J) as (Z1 & Z2). rewrite B2, !ow_other; auto. intros ->. eauto.
      * cbn [hd tl] in *. intros j J. apply NoDup_cons_iff in DC. destruct DC as (Dk & _).
        assert (j <> m_id k).
        { intros ->. destruct J as [J|J]; [|auto]. apply (XA 0); [left; reflexivity|]. rewrite <- J. apply in_or_app. right. left. reflexivity. }
        rewrite B1, !ow_other; auto. destruct J as [->|J]; [congruence|]. apply G2. right. exact J.
  - apply Forall_app. split.
    + eapply holds_ext; [|exact M1]. auto.
    + eapply holds_ext; [|exact M3]. auto.
  - eapply links_ext; [| |apply (h_free _ _ _ _ H)]; auto.
  - apply (h_sorted _ _ _ _ H).
  - rewrite L. apply (h_pos _ _ _ _ H).
  - rewrite L. eapply Permutation_trans; [|apply (h_all _ _ _ _ H)]. cbn [app]. rewrite !ids_app, <- !app_assoc.
    rewrite !app_assoc. apply Permutation_app_tail. rewrite <- !app_assoc. apply Permutation_app_swap_app.
Qed.
End L.
