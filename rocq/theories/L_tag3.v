(** The operations of tag_tree on its list of tags, and the forest the list stands for. *)
From Coq Require Import List Arith Bool Lia Sorting.Sorted Permutation.
From Verif Require Import M_tree M_tag L_tag L_tag2.
Import ListNotations.
Open Scope tree_scope.

(** *** The tree a container holds
    [One i v] is a node without children kept in the tag [i], [Pair s e v c] a node with the start tag [s] and the
    end tag [e]. *)
Inductive tr (V : Type) := One (i : nat) (v : V) | Pair (s e : nat) (v : V) (c : list (tr V)).
Arguments One {V}. Arguments Pair {V}.

Section L.
Context {V : Type}.
Notation tags := (@tags V).
Notation tr := (tr V).
Notation mark := (@mark V).

Lemma tr_ind' : forall P : tr -> Prop, (forall i v, P (One i v)) -> (forall s e v c, Forall P c -> P (Pair s e v c)) ->
  forall t, P t.
Proof.
  intros P A B. fix F 1. intros [i v|s e v c]; [apply A|]. apply B. induction c; constructor; auto.
Qed.

(** The tags of a node in order; every end tag holds [dv]. *)
Fixpoint marks (dv : V) (t : tr) : list mark :=
  match t with
  | One i v => [(i, 0, 0, v)]
  | Pair s e v c => (s, 0, e, v) :: flat_map (marks dv) c ++ [(e, s, 0, dv)]
  end.
Definition fmarks (dv : V) (f : list tr) : list mark := flat_map (marks dv) f.

(** The first tag of a node: what an iterator to it holds. *)
Definition first (t : tr) : nat := match t with One i _ => i | Pair s _ _ _ => s end.
Definition value (t : tr) : V := match t with One _ v => v | Pair _ _ v _ => v end.

(** A container holds the forest [f]. *)
Definition Rep (dv : V) (a : tags) (f : list tr) (fr : list nat) : Prop := Holds a (fmarks dv f) [] fr.

Lemma fmarks_app : forall dv f g, fmarks dv (f ++ g) = fmarks dv f ++ fmarks dv g.
Proof. intros. unfold fmarks. apply flat_map_app. Qed.

Lemma marks_first : forall dv t, exists h tl v r, marks dv t = (first t, h, tl, v) :: r.
Proof. intros dv [i v|s e v c]; cbn; eauto. Qed.

(** *** The spine: [t] put before the tag [p] of a forest, and the node at [s] cut out of it. *)
Inductive put (t : tr) : nat -> list tr -> list tr -> Prop :=
| put_before : forall x r, put t (first x) (x :: r) (t :: x :: r)
| put_last : forall s e v c r, put t e (Pair s e v c :: r) (Pair s e v (c ++ [t]) :: r)
| put_in : forall p s e v c c' r, put t p c c' -> put t p (Pair s e v c :: r) (Pair s e v c' :: r)
| put_next : forall p x r r', put t p r r' -> put t p (x :: r) (x :: r').

(** The position 0 is the end of the roots. *)
Inductive put_at (t : tr) : nat -> list tr -> list tr -> Prop :=
| put_end : forall f, put_at t 0 f (f ++ [t])
| put_tag : forall p f f', put t p f f' -> put_at t p f f'.

Inductive cut (t : tr) : list tr -> list tr -> Prop :=
| cut_here : forall r, cut t (t :: r) r
| cut_in : forall s e v c c' r, cut t c c' -> cut t (Pair s e v c :: r) (Pair s e v c' :: r)
| cut_next : forall x r r', cut t r r' -> cut t (x :: r) (x :: r').

Lemma put_marks : forall dv t p f f', put t p f f' -> exists m1 m2, fmarks dv f = m1 ++ m2 /\ m2 <> [] /\
  fmarks dv f' = m1 ++ marks dv t ++ m2 /\ hd 0 (ids m2) = p.
Proof.
  intros dv t p f f' H. induction H as [x r|s e v c r|p s e v c c' r H IH|p x r r' H IH].
  - exists [], (fmarks dv (x :: r)). destruct (marks_first dv x) as (h & tl & v & q & E).
    unfold fmarks. cbn [flat_map app]. rewrite E. repeat split. discriminate.
  - exists ((s, 0, e, v) :: fmarks dv c), ((e, s, 0, dv) :: fmarks dv r). unfold fmarks. cbn [flat_map marks app].
    rewrite <- !app_assoc. cbn [app]. rewrite flat_map_app. cbn [flat_map]. rewrite <- !app_assoc. cbn [app].
    repeat split. discriminate.
  - destruct IH as (m1 & m2 & E1 & E2 & E3 & E4). exists ((s, 0, e, v) :: m1), (m2 ++ (e, s, 0, dv) :: fmarks dv r).
    unfold fmarks in *. cbn [flat_map marks app]. rewrite E1, E3, <- !app_assoc. cbn [app].
    repeat split; destruct m2; try discriminate; try congruence. exact E4.
  - destruct IH as (m1 & m2 & E1 & E2 & E3 & E4). exists (marks dv x ++ m1), m2.
    unfold fmarks in *. cbn [flat_map app]. rewrite E1, E3, <- !app_assoc. auto.
Qed.

Lemma put_at_marks : forall dv t p f f', put_at t p f f' -> exists m1 m2, fmarks dv f = m1 ++ m2 /\
  fmarks dv f' = m1 ++ marks dv t ++ m2 /\ hd 0 (ids m2) = p.
Proof.
  intros dv t p f f' [f0|p0 f0 f0' H].
  - exists (fmarks dv f0), []. rewrite app_nil_r. rewrite fmarks_app. unfold fmarks at 2. cbn. auto.
  - destruct (put_marks dv _ _ _ _ H) as (m1 & m2 & A & _ & B & C). eauto.
Qed.

Lemma cut_marks : forall dv t f f', cut t f f' -> exists m1 m2, fmarks dv f = m1 ++ marks dv t ++ m2 /\
  fmarks dv f' = m1 ++ m2.
Proof.
  intros dv t f f' H. induction H as [r|s e v c c' r H IH|x r r' H IH].
  - exists [], (fmarks dv r). auto.
  - destruct IH as (m1 & m2 & E1 & E2). exists ((s, 0, e, v) :: m1), (m2 ++ (e, s, 0, dv) :: fmarks dv r).
    unfold fmarks in *. cbn [flat_map marks app]. rewrite E1, E2, <- !app_assoc. auto.
  - destruct IH as (m1 & m2 & E1 & E2). exists (marks dv x ++ m1), m2.
    unfold fmarks in *. cbn [flat_map app]. rewrite E1, E2, <- !app_assoc. auto.
Qed.

(** *** insert *)
Lemma w_tail_holds : forall (a : tags) m1 i h t v m2 x fr t', Holds a (m1 ++ (i, h, t, v) :: m2) x fr ->
  exists a', w_tail a i t' = Some a' /\ Holds a' (m1 ++ (i, h, t', v) :: m2) x fr /\ length a' = length a.
Proof.
  intros a m1 i h t v m2 x fr t' H. destruct (nodup0 _ _ _ _ H) as (D1 & D2 & D3 & D4 & D5 & D6).
  assert (I : In i (ids (m1 ++ (i, h, t, v) :: m2))) by (rewrite ids_app; apply in_or_app; right; left; reflexivity).
  pose proof (h_m_in H i I) as Li. rewrite ids_app in D1, D3. cbn [ids map m_id] in D1, D3.
  inversion D1 as [|? ? Z D]; subst. destruct (nodup_app _ _ D) as (Da & Db & Dc).
  destruct (w_tail_spec a i t') as (a' & E & L & A1 & A2 & A3 & A4 & A5); [lia|].
  exists a'. split; [exact E|]. split; [|exact L]. constructor.
  - rewrite ids_app. cbn [ids map m_id]. pose proof (h_links _ _ _ _ H) as K. rewrite ids_app in K. cbn [ids map m_id] in K.
    eapply links_ext; [| |exact K]; intros; auto.
  - pose proof (h_marks _ _ _ _ H) as M. apply Forall_app in M. destruct M as [M1 M2]. inversion M2 as [|? ? M3 M4]; subst.
    cbn in M3. apply Forall_app. split; [|constructor].
    + eapply holds_ext; [|exact M1]. intros j J. rewrite A3, A4, A5, ow_other; auto. intro; subst. apply (Dc _ J). left. reflexivity.
    + cbn. rewrite A3, A4, A5, ow_same. tauto.
    + eapply holds_ext; [|exact M4]. intros j J. rewrite A3, A4, A5, ow_other; auto. intro; subst. inversion Db; auto.
  - eapply links_ext; [| |apply (h_free _ _ _ _ H)]; intros j J; [|apply A3]. rewrite A4. apply ow_other. intro; subst j.
    destruct J as [J|J]; [lia|]. apply (D3 _ J). apply in_or_app. right. left. reflexivity.
  - apply (h_sorted _ _ _ _ H).
  - rewrite L. apply (h_pos _ _ _ _ H).
  - rewrite L. pose proof (h_all _ _ _ _ H) as P. rewrite ids_app in *. exact P.
Qed.

Lemma w_head_holds : forall (a : tags) m1 i h t v m2 x fr h', Holds a (m1 ++ (i, h, t, v) :: m2) x fr ->
  exists a', w_head a i h' = Some a' /\ Holds a' (m1 ++ (i, h', t, v) :: m2) x fr /\ length a' = length a.
Proof.
  intros a m1 i h t v m2 x fr h' H. destruct (nodup0 _ _ _ _ H) as (D1 & D2 & D3 & D4 & D5 & D6).
  assert (I : In i (ids (m1 ++ (i, h, t, v) :: m2))) by (rewrite ids_app; apply in_or_app; right; left; reflexivity).
  pose proof (h_m_in H i I) as Li. rewrite ids_app in D1, D3. cbn [ids map m_id] in D1, D3.
  inversion D1 as [|? ? Z D]; subst. destruct (nodup_app _ _ D) as (Da & Db & Dc).
  destruct (w_head_spec a i h') as (a' & E & L & A1 & A2 & A3 & A4 & A5); [lia|].
  exists a'. split; [exact E|]. split; [|exact L]. constructor.
  - rewrite ids_app. cbn [ids map m_id]. pose proof (h_links _ _ _ _ H) as K. rewrite ids_app in K. cbn [ids map m_id] in K.
    eapply links_ext; [| |exact K]; intros; auto.
  - pose proof (h_marks _ _ _ _ H) as M. apply Forall_app in M. destruct M as [M1 M2]. inversion M2 as [|? ? M3 M4]; subst.
    cbn in M3. apply Forall_app. split; [|constructor].
    + eapply holds_ext; [|exact M1]. intros j J. rewrite A3, A4, A5, ow_other; auto. intro; subst. apply (Dc _ J). left. reflexivity.
    + cbn. rewrite A3, A4, A5, ow_same. tauto.
    + eapply holds_ext; [|exact M4]. intros j J. rewrite A3, A4, A5, ow_other; auto. intro; subst. inversion Db; auto.
  - eapply links_ext; [| |apply (h_free _ _ _ _ H)]; intros j J; [apply A4|]. rewrite A3. apply ow_other. intro; subst j.
    destruct J as [J|J]; [lia|]. apply (D3 _ J). apply in_or_app. right. left. reflexivity.
  - apply (h_sorted _ _ _ _ H).
  - rewrite L. apply (h_pos _ _ _ _ H).
  - rewrite L. pose proof (h_all _ _ _ _ H) as P. rewrite ids_app in *. exact P.
Qed.

(** The index the next node gets *)
Definition fresh_idx (a : tags) (fr : list nat) : nat := match fr with [] => length a | j :: _ => j end.

Lemma insert_holds : forall single dv (a : tags) m1 m2 fr v, Holds a (m1 ++ m2) [] fr ->
  exists a' t fr', tt_insert single dv a (hd 0 (ids m2)) v = Some (a', first t) /\
    Holds a' (m1 ++ marks dv t ++ m2) [] fr' /\ value t = v /\
    first t = fresh_idx a fr /\
    match t with One _ _ => single v = true | Pair _ _ _ c => single v = false /\ c = [] end.
Proof.
  intros single dv a m1 m2 fr v H. unfold tt_insert.
  destruct (allocate_holds a _ _ _ v H) as (a1 & i & fr1 & E1 & H1 & V1 & _ & I1 & F1 & _). rewrite E1.
  destruct (link_holds a1 m1 m2 i [] fr1 v H1 V1) as (a2 & E2 & H2 & _ & L2). rewrite E2.
  destruct (single v) eqn:Sv.
  - exists a2, (One i v), fr1. split; [reflexivity|]. split; [exact H2|]. split; [reflexivity|]. split; [exact I1|reflexivity].
  - destruct (allocate_holds a2 _ _ _ dv H2) as (a3 & e & fr3 & E3 & H3 & V3 & _ & I3 & F3 & _). rewrite E3.
    replace (m1 ++ (i, 0, 0, v) :: m2) with ((m1 ++ [(i, 0, 0, v)]) ++ m2) in H3 by (rewrite <- app_assoc; reflexivity).
    destruct (link_holds a3 _ m2 e [] fr3 dv H3 V3) as (a4 & E4 & H4 & _ & L4). rewrite E4.
    rewrite <- app_assoc in H4. cbn [app] in H4.
    destruct (w_tail_holds _ _ _ _ _ _ _ _ _ e H4) as (a5 & E5 & H5 & L5). rewrite E5.
    assert (H5' : Holds a5 ((m1 ++ [(i, 0, e, v)]) ++ (e, 0, 0, dv) :: m2) [] fr3) by (rewrite <- app_assoc; exact H5).
    destruct (w_head_holds a5 (m1 ++ [(i, 0, e, v)]) e 0 0 dv m2 [] fr3 i H5') as (a6 & E6 & H6 & L6). rewrite E6.
    exists a6, (Pair i e v []), fr3. cbn [first value marks flat_map app] in *. rewrite <- app_assoc in H6. cbn [app] in H6.
    split; [reflexivity|]. split; [exact H6|]. split; [reflexivity|]. split; [exact I1|]. split; reflexivity.
Qed.

(** *** erase *)
Lemma erase_loop_holds : forall dl (a : tags) m1 m2 fr fuel, Holds a (m1 ++ dl ++ m2) [] fr -> length dl < fuel ->
  exists a' fr', erase_loop fuel a (last (ids dl) (last (ids m1) 0)) (last (ids m1) 0) = Some a' /\
    Holds a' (m1 ++ m2) [] fr' /\ length a' = length a /\ Permutation fr' (ids dl ++ fr).
Proof.
  intro dl. induction dl as [|k dl IH] using rev_ind; intros a m1 m2 fr fuel H N; (destruct fuel as [|fuel]; [lia|]).
  - cbn [ids map last erase_loop]. rewrite Nat.eqb_refl. exists a, fr. split; [reflexivity|]. split; [exact H|]. split; reflexivity.
  - destruct k as [[[i h] t] v]. rewrite app_length in N. cbn in N.
    rewrite <- app_assoc in H. cbn [app] in H. rewrite app_assoc in H.
    destruct (unlink_holds _ _ _ _ _ _ _ _ _ H) as (a1 & E1 & H1 & L1 & _).
    destruct (free_holds _ _ _ _ _ H1) as (a2 & f1 & f2 & E2 & -> & H2 & _ & L2 & _).
    rewrite <- app_assoc in H2.
    destruct (IH a2 m1 m2 (f1 ++ i :: f2) fuel H2) as (a3 & fr' & E3 & H3 & L3 & P3); [lia|].
    exists a3, fr'. split; [|split; [exact H3|split; [congruence|]]].
    + cbn [erase_loop]. rewrite ids_app. cbn [ids map m_id]. rewrite last_snoc.
      assert (Q : i <> last (ids m1) 0).
      { intro Q. destruct (nodup0 _ _ _ _ H) as (D1 & _). rewrite ids_app in D1. cbn [ids map m_id] in D1.
        apply NoDup_cons_iff in D1. destruct D1 as (D2 & D3). destruct (last_in (ids m1) 0) as [W|W].
        - rewrite W in *. apply D2. apply in_or_app. right. left. exact Q.
        - destruct (nodup_app _ _ D3) as (_ & _ & D4). apply (D4 i); [|left; reflexivity].
          fold (ids (m1 ++ dl)). rewrite ids_app. apply in_or_app. left. rewrite Q. exact W. }
      rewrite (proj2 (Nat.eqb_neq _ _) Q).
      pose proof (h_links _ _ _ _ H) as K. rewrite ids_app in K. cbn [ids map m_id] in K. apply links_app in K. destruct K as (K & _).
      fold (ids (m1 ++ dl)) in K. rewrite (links_last _ _ _ _ _ K), E1, E2, ids_app, last_app_d. exact E3.
    + rewrite P3, ids_app. cbn [ids map m_id]. fold (ids dl). rewrite <- app_assoc. apply Permutation_app_head.
      symmetry. exact (Permutation_middle f1 f2 i).
Qed.

Lemma last_tag_marks : forall dv (a : tags) t, Forall (holds a) (marks dv t) -> ~ In 0 (ids (marks dv t)) ->
  last_tag a (first t) = Some (last (ids (marks dv t)) 0).
Proof.
  intros dv a [i v|s e v c] H Z; unfold last_tag; cbn [marks first] in *.
  - inversion H as [|? ? H1 _]; subst. cbn in H1. destruct H1 as (_ & H1 & _). rewrite H1. reflexivity.
  - inversion H as [|? ? H1 _]; subst. cbn in H1. destruct H1 as (_ & H1 & _). rewrite H1.
    cbn [ids map] in *. rewrite last_cons_d. rewrite map_app. cbn [map m_id]. rewrite last_snoc.
    replace (e =? 0) with false; [reflexivity|]. symmetry. apply Nat.eqb_neq. intro; subst. apply Z. right.
    rewrite map_app. apply in_or_app. right. left. reflexivity.
Qed.

Lemma ids_length : forall (m : list mark), length (ids m) = length m.
Proof. intros. apply map_length. Qed.

Lemma erase_holds : forall dv (a : tags) m1 t m2 fr, Holds a (m1 ++ marks dv t ++ m2) [] fr ->
  exists a' fr', tt_erase a (first t) = Some (a', hd 0 (ids m2)) /\ Holds a' (m1 ++ m2) [] fr' /\
    Permutation fr' (ids (marks dv t) ++ fr) /\ length a' = length a.
Proof.
  intros dv a m1 t m2 fr H. unfold tt_erase.
  destruct (nodup0 _ _ _ _ H) as (D1 & D2 & D3 & _).
  pose proof (h_links _ _ _ _ H) as K. pose proof (h_marks _ _ _ _ H) as M.
  apply Forall_app in M. destruct M as [_ M]. apply Forall_app in M. destruct M as [M _].
  assert (Z : ~ In 0 (ids (marks dv t))).
  { inversion D1 as [|? ? Z _]; subst. rewrite !ids_app, !in_app_iff in Z. tauto. }
  rewrite (last_tag_marks dv a t M Z).
  destruct (erase_loop_holds (marks dv t) a m1 m2 fr (S (length a)) H) as (a' & fr' & E & H' & L' & P').
  { pose proof (nodup_length (ids (marks dv t)) (length a)) as N. rewrite ids_length in N. assert (length (marks dv t) <= length a); [|lia].
    apply N.
    - inversion D1 as [|? ? _ D]; subst. rewrite !ids_app in D. destruct (nodup_app _ _ D) as (_ & D' & _).
      destruct (nodup_app _ _ D') as (D'' & _). exact D''.
    - intros j J. apply (h_m_in H). rewrite !ids_app, !in_app_iff. tauto. }
  destruct (marks_first dv t) as (h & tl & v & q & Q).
  exists a', fr'. split; [|auto].
  rewrite !ids_app in K. pose proof K as K'. rewrite Q in K'. cbn [ids map m_id app] in K'. apply links_app in K'.
  destruct K' as (K1 & K2). fold (ids m1) in K1. rewrite (links_last _ _ _ _ _ K1).
  rewrite app_assoc in K. apply links_rest in K. destruct K as (K3 & _).
  assert (N : r_next a (last (ids (marks dv t)) 0) = Some (hd 0 (ids m2))).
  { rewrite Q in *. cbn [ids map m_id] in *. fold (ids q) in *. fold (ids m1) in K3. apply links_app in K3. destruct K3 as (_ & K3).
    rewrite last_cons_d. clear - K3. revert K3. generalize (first t) as s. induction (ids q) as [|k l IH]; intros s K; cbn [links] in K.
    - apply K.
    - rewrite last_cons_d. apply IH. apply K. }
  rewrite N. rewrite Q in E. cbn [ids map m_id] in E. rewrite last_cons_d in E.
  rewrite Q. cbn [ids map m_id]. rewrite last_cons_d. unfold ids in E at 1. unfold ids. rewrite E. reflexivity.
Qed.
End L.
