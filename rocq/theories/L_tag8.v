(** Positions of a forest, the operations as changes of the forest, and that an arena holds one forest only. *)
From Coq Require Import List Arith Bool Lia ZArith Sorting.Sorted Permutation.
From Verif Require Import M_tree M_tag L_tag L_tag2 L_tag3 L_tag4 L_tag5 L_tag6.
Import ListNotations.
Open Scope tree_scope.

Section L.
Context {V : Type}.
Notation tags := (@tags V).
Notation tr := (tr V).
Notation mark := (@mark V).

(** The tags of a node in order *)
Fixpoint tags_of (t : tr) : list nat := match t with One i _ => [i] | Pair s e _ c => s :: flat_map tags_of c ++ [e] end.

Lemma tags_ids : forall dv t, ids (marks dv t) = tags_of t.
Proof.
  intros dv t. induction t as [i v|s e v c IH] using tr_ind'; [reflexivity|]. cbn [marks tags_of ids map m_id]. f_equal. rewrite map_app. cbn [map m_id]. f_equal.
  induction IH as [|x c Hx _ IHc]; [reflexivity|]. cbn [flat_map]. rewrite map_app, <- IHc. f_equal. exact Hx.
Qed.

Lemma tags_fids : forall dv f, ids (fmarks dv f) = flat_map tags_of f.
Proof. intros dv f. induction f as [|x f IH]; [reflexivity|]. unfold fmarks in *. cbn [flat_map]. rewrite ids_app, IH, tags_ids. reflexivity. Qed.

Definition size_of (t : tr) : nat := length (tags_of t).

Lemma tags_pos : forall t : tr, 0 < length (tags_of t).
Proof. intros [|]; cbn; lia. Qed.

(** Every tag is a position. *)
Lemma position : forall dv n f p, length (flat_map tags_of f) <= n -> In p (flat_map tags_of f) ->
  exists m1 m2, fmarks dv f = m1 ++ m2 /\ hd 0 (ids m2) = p /\ m2 <> [] /\ forall t, exists f', put t p f f' /\ fmarks dv f' = m1 ++ marks dv t ++ m2.
Proof.
  intros dv n. induction n as [|n IH]; intros f p L I; [destruct (flat_map tags_of f); [destruct I|cbn in L; lia]|].
  destruct f as [|x f]; [destruct I|]. cbn [flat_map] in I, L. rewrite app_length in L. pose proof (tags_pos x). apply in_app_or in I.
  destruct I as [I|I].
  - destruct x as [i v|s e v c]; cbn [tags_of] in I.
    + destruct I as [<-|[]]. exists [], (fmarks dv (One i v :: f)). repeat split; [discriminate|]. intro t. exists (t :: One i v :: f). split; [apply (put_before t (One i v))|reflexivity].
    + destruct I as [<-|I].
      * exists [], (fmarks dv (Pair s e v c :: f)). repeat split; [discriminate|]. intro t. exists (t :: Pair s e v c :: f). split; [apply (put_before t (Pair s e v c))|reflexivity].
      * apply in_app_or in I. destruct I as [I|[<-|[]]].
        -- cbn [tags_of length] in L. rewrite app_length in L. destruct (IH c p) as (m1 & m2 & E1 & E2 & E3 & E4); [lia|exact I|].
           exists ((s, 0, e, v) :: m1), (m2 ++ (e, s, 0, dv) :: fmarks dv f). unfold fmarks in *. cbn [flat_map marks app]. rewrite E1, <- !app_assoc.
           split; [reflexivity|]. split; [destruct m2; [congruence|exact E2]|]. split; [destruct m2; [congruence|discriminate]|].
           intro t. destruct (E4 t) as (c' & P & Q). exists (Pair s e v c' :: f). split; [constructor; exact P|]. cbn [flat_map marks app]. rewrite Q, <- !app_assoc. reflexivity.
        -- exists ((s, 0, e, v) :: fmarks dv c), ((e, s, 0, dv) :: fmarks dv f). unfold fmarks. cbn [flat_map marks app]. rewrite <- !app_assoc.
           split; [reflexivity|]. split; [reflexivity|]. split; [discriminate|]. intro t. exists (Pair s e v (c ++ [t]) :: f). split; [constructor|].
           cbn [flat_map marks app]. rewrite flat_map_app. cbn [flat_map]. rewrite <- !app_assoc. reflexivity.
  - destruct (IH f p) as (m1 & m2 & E1 & E2 & E3 & E4); [lia|exact I|]. exists (marks dv x ++ m1), m2. unfold fmarks in *. cbn [flat_map]. rewrite E1, <- app_assoc.
    split; [reflexivity|]. split; [exact E2|]. split; [exact E3|]. intro t. destruct (E4 t) as (f' & P & Q). exists (x :: f'). split; [constructor; exact P|].
    cbn [flat_map]. rewrite Q, <- app_assoc. reflexivity.
Qed.

(** [p] is a position of the forest: before one of its tags, or at its end. *)
Definition place (p : nat) (f : list tr) : Prop := p = 0 \/ In p (flat_map tags_of f).

Lemma place_marks : forall dv f p, place p f -> exists m1 m2, fmarks dv f = m1 ++ m2 /\ hd 0 (ids m2) = p /\
  forall t, exists f', put_at t p f f' /\ fmarks dv f' = m1 ++ marks dv t ++ m2.
Proof.
  intros dv f p [->|I].
  - exists (fmarks dv f), []. rewrite app_nil_r. split; [reflexivity|]. split; [reflexivity|]. intro t. exists (f ++ [t]). split; [constructor|].
    rewrite fmarks_app. unfold fmarks at 2. cbn [flat_map]. reflexivity.
  - destruct (position dv _ f p (le_n _) I) as (m1 & m2 & E1 & E2 & _ & E4). exists m1, m2. split; [exact E1|]. split; [exact E2|].
    intro t. destruct (E4 t) as (f' & P & Q). exists f'. split; [constructor; exact P|exact Q].
Qed.

Lemma within_cut : forall (t : tr) f, within t f -> exists g, cut t f g.
Proof.
  intros t f H. induction H as [r|s e v c r H (c' & IH)|y r H (r' & IH)].
  - exists r. constructor.
  - exists (Pair s e v c' :: r). constructor. exact IH.
  - exists (y :: r'). constructor. exact IH.
Qed.

Lemma rep_init : forall dv : V, Rep dv (tt_init dv) [] [].
Proof.
  intro dv. unfold Rep. constructor; cbn; auto; constructor.
Qed.

Theorem rep_insert : forall single dv (a : tags) f fr p v, Rep dv a f fr -> place p f ->
  exists a' t f' fr', tt_insert single dv a p v = Some (a', first t) /\ put_at t p f f' /\ Rep dv a' f' fr' /\ value t = v /\
    first t = fresh_idx a fr /\ match t with One _ _ => single v = true | Pair _ _ _ c => single v = false /\ c = [] end.
Proof.
  intros single dv a f fr p v H P. destruct (place_marks dv f p P) as (m1 & m2 & E1 & E2 & E3). unfold Rep in H. rewrite E1 in H.
  destruct (insert_holds single dv a m1 m2 fr v H) as (a' & t & fr' & I1 & I2 & I3 & I4 & I5). destruct (E3 t) as (f' & P1 & P2).
  exists a', t, f', fr'. rewrite E2 in I1. unfold Rep. rewrite P2. tauto.
Qed.

Theorem rep_erase : forall dv (a : tags) f fr t, Rep dv a f fr -> within t f ->
  exists a' g r fr', tt_erase a (first t) = Some (a', r) /\ cut t f g /\ Rep dv a' g fr' /\ i_inc a (first t) = Some r /\
    Permutation fr' (tags_of t ++ fr) /\ length a' = length a.
Proof.
  intros dv a f fr t H W. destruct (within_cut _ _ W) as (g & C). destruct (cut_marks dv _ _ _ C) as (m1 & m2 & E1 & E2). unfold Rep in H. rewrite E1 in H.
  destruct (erase_holds dv a m1 t m2 fr H) as (a' & fr' & I1 & I2 & I3 & I4). exists a', g, (hd 0 (ids m2)), fr'.
  unfold Rep. rewrite E2. rewrite tags_ids in I3. pose proof (inc_at _ _ _ _ _ _ H). tauto.
Qed.

(** *** The forest is determined by the arena *)
Lemma links_unique : forall nx pv nx' pv' l x l', links nx pv x l 0 -> links nx' pv' x l' 0 -> (forall j, nx j = nx' j) -> ~ In 0 l -> ~ In 0 l' -> l = l'.
Proof.
  intros nx pv nx' pv' l. induction l as [|z l IH]; intros x [|z' l'] H H' E N N'; cbn [links] in *; auto.
  - destruct H as (H & _), H' as (H' & _). rewrite E, H' in H. injection H as H. destruct N'. left. exact H.
  - destruct H as (H & _), H' as (H' & _). rewrite E, H' in H. injection H as H. destruct N. left. symmetry. exact H.
  - destruct H as (H & _ & H2), H' as (H' & _ & H2'). rewrite E, H' in H. injection H as ->. f_equal. eapply IH; eauto; cbn in *; tauto.
Qed.

Definition closed (r : list mark) : Prop := match r with [] => True | (_, h, _, _) :: _ => h <> 0 end.

Lemma marks_unique : forall (dv : V) n f g r q, length (fmarks dv f) <= n -> fmarks dv f ++ r = fmarks dv g ++ q -> closed r -> closed q ->
  ~ In 0 (ids (fmarks dv f ++ r)) -> f = g /\ r = q.
Proof.
  intros dv n. induction n as [|n IH]; intros f g r q L E Cr Cq Z.
  - destruct f as [|x f]; [|pose proof (fmarks_length dv (x :: f)); cbn [length] in *; lia]. cbn [fmarks flat_map app] in E.
    destruct g as [|y g]; [auto|]. exfalso. unfold fmarks in E. cbn [flat_map] in E. destruct y; cbn [marks app] in E; rewrite E in Cr; cbn in Cr; congruence.
  - destruct f as [|x f]; destruct g as [|y g].
    + auto.
    + exfalso. unfold fmarks in E. cbn [flat_map] in E. destruct y; cbn [marks app] in E; rewrite E in Cr; cbn in Cr; congruence.
    + exfalso. unfold fmarks in E. cbn [flat_map] in E. destruct x; cbn [marks app] in E; rewrite <- E in Cq; cbn in Cq; congruence.
    + unfold fmarks in *. cbn [flat_map] in *. rewrite app_length in L. rewrite <- !app_assoc in E. rewrite <- app_assoc in Z.
      destruct x as [i v|s e v c], y as [i' v'|s' e' v' c']; cbn [marks app] in *.
      * injection E as <- <- E. cbn in L. destruct (IH f g r q) as (-> & ->); auto; [lia|]. intro W. apply Z. right. exact W.
      * exfalso. assert (e' = 0) as -> by congruence. apply Z. rewrite E. right. unfold ids. rewrite !map_app, !in_app_iff. cbn. tauto.
      * exfalso. assert (e = 0) as -> by congruence. apply Z. right. unfold ids. rewrite !map_app, !in_app_iff. cbn. tauto.
      * injection E as <- <- <- E. rewrite <- !app_assoc in E. cbn [app] in E. cbn [length] in L. rewrite app_length in L. cbn [length] in L.
        assert (Z1 : s <> 0) by (intro; subst; apply Z; left; reflexivity).
        destruct (IH c c' ((e, s, 0, dv) :: flat_map (marks dv) f ++ r) ((e, s, 0, dv) :: flat_map (marks dv) g ++ q)) as (-> & W); auto; [lia| |].
        { intro W. apply Z. right. rewrite <- !app_assoc in *. exact W. }
        injection W as W. destruct (IH f g r q) as (-> & ->); auto; [lia|]. intro W2. apply Z. right. rewrite <- app_assoc. unfold ids in *. rewrite map_app. apply in_or_app. right. right. exact W2.
Qed.

Theorem rep_unique : forall dv (a : tags) f g fr fr', Rep dv a f fr -> Rep dv a g fr' -> f = g /\ fr = fr'.
Proof.
  intros dv a f g fr fr' H H'. unfold Rep in *.
  assert (N : forall f fr, Holds a (fmarks dv f) [] fr -> ~ In 0 (ids (fmarks dv f)) /\ ~ In 0 fr).
  { intros f0 fr0 H0. split; intro W; [apply (h_m_in H0) in W|apply (h_f_in H0) in W]; lia. }
  destruct (N _ _ H) as (N1 & N2), (N _ _ H') as (N3 & N4).
  assert (I : ids (fmarks dv f) = ids (fmarks dv g)) by (eapply links_unique; [apply (h_links _ _ _ _ H)|apply (h_links _ _ _ _ H')|reflexivity|assumption|assumption]).
  split; [|eapply links_unique; [apply (h_free _ _ _ _ H)|apply (h_free _ _ _ _ H')|reflexivity|assumption|assumption]].
  assert (M : fmarks dv f = fmarks dv g).
  { pose proof (h_marks _ _ _ _ H) as A. pose proof (h_marks _ _ _ _ H') as B. revert I A B. generalize (fmarks dv f) (fmarks dv g). clear.
    intros m. induction m as [|k m IH]; intros [|k' m'] I A B; try discriminate; [reflexivity|]. inversion A as [|? ? A1 A2]; inversion B as [|? ? B1 B2]; subst.
    destruct k as [[[i h] t] v], k' as [[[i' h'] t'] v']. cbn in I, A1, B1. injection I as <- I. destruct A1 as (X1 & X2 & X3), B1 as (Y1 & Y2 & Y3).
    rewrite X1 in Y1. rewrite X2 in Y2. rewrite X3 in Y3. injection Y1 as <-. injection Y2 as <-. injection Y3 as <-. f_equal. apply IH; assumption. }
  apply (marks_unique dv _ f g [] [] (le_n _)); cbn; auto; rewrite ?app_nil_r; auto.
Qed.
End L.
