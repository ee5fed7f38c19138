(** The list of tags of a tag_tree: what allocation, linking, unlinking and freeing do to it. *)
From Coq Require Import List Arith Bool Lia Sorting.Sorted Permutation.
From Verif Require Import M_tree M_tag L_tag.
Import ListNotations.
Open Scope tree_scope.

Lemma last_snoc : forall {A} (l : list A) x d, last (l ++ [x]) d = x.
Proof. intros. apply last_last. Qed.

Lemma last_in : forall {A} (l : list A) d, last l d = d \/ In (last l d) l.
Proof.
  induction l as [|x l IH]; intro d; [left; reflexivity|]. right. destruct l as [|y l].
  - left. reflexivity.
  - change (last (x :: y :: l) d) with (last (y :: l) d). destruct (IH d) as [E|E]; [|right; exact E].
    right. destruct (exists_last (l := y :: l)) as (l' & z & ->); [discriminate|]. rewrite last_snoc. apply in_or_app. right. left. reflexivity.
Qed.

Lemma last_cons_d : forall {A} (l : list A) (x d : A), last (x :: l) d = last l x.
Proof.
  induction l as [|y l IH]; intros x d; [reflexivity|].
  change (last (x :: y :: l) d) with (last (y :: l) d). rewrite IH, (IH y x). reflexivity.
Qed.

Lemma last_app_d : forall {A} (l1 l2 : list A) (d : A), last (l1 ++ l2) d = last l2 (last l1 d).
Proof.
  induction l1 as [|x l1 IH]; intros l2 d; [reflexivity|]. cbn [app]. rewrite !last_cons_d. apply IH.
Qed.

(** The last element's successor is changed to [y']. *)
Lemma links_end : forall nx pv nx' pv' l x y y',
  links nx pv x l y -> NoDup (x :: l) ->
  (forall j, j = x \/ In j l -> j <> last l x -> nx' j = nx j) -> (forall j, In j l -> pv' j = pv j) ->
  nx' (last l x) = Some y' -> pv' y' = Some (last l x) ->
  links nx' pv' x l y'.
Proof.
  intros nx pv nx' pv' l. induction l as [|z l IH]; intros x y y' H D N P A B; cbn [links] in *.
  - cbn in A, B. auto.
  - destruct H as (H1 & H2 & H3). rewrite last_cons_d in *. inversion D as [|? ? D1 D2]; subst.
    split; [|split].
    + rewrite N; auto. intro E. apply D1. rewrite E. destruct (last_in l z) as [->|I]; [left; reflexivity|right; exact I].
    + rewrite P; cbn; auto.
    + apply (IH z y y'); auto. intros j J K. apply N; [destruct J as [->|J]; cbn; auto|exact K].
      intros j J. apply P. right. exact J.
Qed.

(** What follows a position. *)
Definition rest (nx pv : nat -> option nat) (r : list nat) : Prop :=
  match r with [] => True | p :: r' => links nx pv p r' 0 end.

Lemma links_rest : forall nx pv x l r, links nx pv x (l ++ r) 0 <-> links nx pv x l (hd 0 r) /\ rest nx pv r.
Proof.
  intros nx pv x l [|p r]; cbn [hd rest].
  - rewrite app_nil_r. tauto.
  - apply links_app.
Qed.

Lemma rest_ext : forall nx pv nx' pv' r,
  (forall j, In j r -> nx' j = nx j) -> (forall j, j = 0 \/ In j (tl r) -> pv' j = pv j) -> rest nx pv r -> rest nx' pv' r.
Proof.
  intros nx pv nx' pv' [|p r] N P H; [exact I|]. cbn [rest tl] in *. eapply links_ext; [| |exact H].
  - intros j [->|J]; apply N; cbn; auto.
  - intros j J. apply P. exact J.
Qed.

Section L.
Context {V : Type}.
Notation tags := (@tags V).

(** What one tag is: index, m_head, m_tail, value *)
Definition mark := (nat * nat * nat * V)%type.
Definition m_id (m : mark) : nat := let '(i, _, _, _) := m in i.
Definition ids (m : list mark) : list nat := map m_id m.
Definition holds (a : tags) (m : mark) : Prop :=
  let '(i, h, t, v) := m in r_head a i = Some h /\ r_tail a i = Some t /\ r_val a i = Some v.

(** The arena holds the list of tags [m], the free list [fr] and apart from them the tags [x]. *)
Record Holds (a : tags) (m : list mark) (x : list nat) (fr : list nat) : Prop := {
  h_links : links (r_next a) (r_prev a) 0 (ids m) 0;
  h_marks : Forall (holds a) m;
  h_free : links (r_tail a) (r_head a) 0 fr 0;
  h_sorted : StronglySorted lt fr;
  h_pos : 0 < length a;
  h_all : Permutation (x ++ ids m ++ fr) (seq 1 (length a - 1))
}.

Lemma ids_app : forall m1 m2, ids (m1 ++ m2) = ids m1 ++ ids m2.
Proof. intros. apply map_app. Qed.

Lemma ids_in : forall m i h t v, In (i, h, t, v) m -> In i (ids m).
Proof. intros m i h t v H. apply in_map_iff. exists (i, h, t, v). auto. Qed.

Lemma holds_ext : forall (a a' : tags) m,
  (forall j, In j (ids m) -> r_head a' j = r_head a j /\ r_tail a' j = r_tail a j /\ r_val a' j = r_val a j) ->
  Forall (holds a) m -> Forall (holds a') m.
Proof.
  intros a a' m E H. rewrite Forall_forall in *. intros [[[i h] t] v] I.
  destruct (E i) as (A & B & C); [eapply ids_in; exact I|]. specialize (H _ I). cbn in *.
  rewrite A, B, C. exact H.
Qed.

Section Facts.
Context {a : tags} {m : list mark} {x fr : list nat} (H : Holds a m x fr).

Lemma h_in : forall j, In j (x ++ ids m ++ fr) <-> 1 <= j < length a.
Proof.
  intro j. pose proof (h_all _ _ _ _ H) as P. pose proof (h_pos _ _ _ _ H).
  split; intro I.
  - apply (Permutation_in _ P) in I. apply in_seq in I. lia.
  - apply (Permutation_in _ (Permutation_sym P)). apply in_seq. lia.
Qed.
Lemma h_nodup : NoDup (x ++ ids m ++ fr).
Proof. eapply Permutation_NoDup; [apply Permutation_sym, (h_all _ _ _ _ H)|apply seq_NoDup]. Qed.
Lemma h_m_in : forall j, In j (ids m) -> 1 <= j < length a.
Proof. intros j J. apply h_in. rewrite !in_app_iff. auto. Qed.
Lemma h_f_in : forall j, In j fr -> 1 <= j < length a.
Proof. intros j J. apply h_in. rewrite !in_app_iff. auto. Qed.
Lemma h_x_in : forall j, In j x -> 1 <= j < length a.
Proof. intros j J. apply h_in. rewrite !in_app_iff. auto. Qed.
End Facts.

Lemma nodup_app : forall {A} (l1 l2 : list A), NoDup (l1 ++ l2) -> NoDup l1 /\ NoDup l2 /\ forall z, In z l1 -> In z l2 -> False.
Proof.
  induction l1 as [|y l1 IH]; intros l2 D; cbn in *.
  - repeat split; [constructor|exact D|auto].
  - inversion D as [|? ? N D']; subst. destruct (IH _ D') as (A1 & A2 & A3). rewrite in_app_iff in N.
    repeat split; [constructor; tauto|exact A2|]. intros z [->|I] J; [tauto|eauto].
Qed.

Lemma nodup0 : forall a m x fr, Holds a m x fr -> NoDup (0 :: ids m) /\ (forall j, In j x -> ~ In j (ids m)) /\
  (forall j, In j fr -> ~ In j (ids m)) /\ (forall j, In j x -> ~ In j fr) /\ NoDup x /\ NoDup (0 :: fr).
Proof.
  intros a m x fr H. pose proof (h_nodup H) as D.
  destruct (nodup_app _ _ D) as (D1 & D2 & D3). destruct (nodup_app _ _ D2) as (D4 & D5 & D6).
  split; [constructor; [|exact D4]|split; [|split; [|split; [|split]]]].
  - intro I. apply (h_m_in H) in I. lia.
  - intros j J K. apply (D3 j J). apply in_or_app. auto.
  - intros j J K. apply (D6 j K J).
  - intros j J K. apply (D3 j J). apply in_or_app. auto.
  - exact D1.
  - constructor; [|exact D5]. intro I. apply (h_f_in H) in I. lia.
Qed.

(** *** allocate *)
Lemma allocate_holds : forall (a : tags) m x fr v, Holds a m x fr ->
  exists a' i fr', allocate a v = Some (a', i) /\ Holds a' m (i :: x) fr' /\ r_val a' i = Some v /\
    (forall j, In j x -> r_val a' j = r_val a j /\ r_head a' j = r_head a j /\ r_tail a' j = r_tail a j) /\
    (i = match fr with [] => length a | j :: _ => j end) /\ fr' = tl fr /\ length a <= length a'.
Proof.
  intros a m x fr v H. destruct (nodup0 _ _ _ _ H) as (D1 & D2 & D3 & D4 & D5 & D6).
  pose proof (h_free _ _ _ _ H) as F. destruct fr as [|i fr].
  - cbn in F. destruct (allocate_new a v (proj1 F)) as (a' & E & L & S0 & Sv).
    exists a', (length a), []. split; [exact E|].
    assert (K : forall j, In j (0 :: x ++ ids m) -> j < length a).
    { pose proof (h_pos _ _ _ _ H). intros j [<-|J]; [assumption|]. apply in_app_or in J.
      destruct J as [J|J]; [apply (h_x_in H) in J|apply (h_m_in H) in J]; lia. }
    split; [|split; [exact Sv|split; [|split; [reflexivity|split; [reflexivity|lia]]]]].
    + constructor.
      * eapply links_ext; [| |apply (h_links _ _ _ _ H)]; intros j J; apply S0, K; cbn; rewrite in_app_iff; tauto || (destruct J; auto).
      * eapply holds_ext; [|apply (h_marks _ _ _ _ H)]. intros j J.
        destruct (S0 j) as (_ & _ & A & B & C); [apply K; right; apply in_or_app; auto|auto].
      * cbn. destruct (S0 0) as (_ & _ & A & B & _); [apply K; left; reflexivity|]. rewrite A, B. exact F.
      * constructor.
      * lia.
      * rewrite L. replace (S (length a) - 1) with (S (length a - 1)) by (pose proof (h_pos _ _ _ _ H); lia).
        rewrite seq_S. replace (1 + (length a - 1)) with (length a) by (pose proof (h_pos _ _ _ _ H); lia).
        rewrite app_nil_r. pose proof (h_all _ _ _ _ H) as P. rewrite app_nil_r in P.
        cbn [app]. eapply Permutation_trans; [apply perm_skip, P|]. apply Permutation_cons_append.
    + intros j J. destruct (S0 j) as (_ & _ & A & B & C); [apply K; right; apply in_or_app; auto|auto].
  - cbn [links] in F. destruct F as (F1 & F2 & F3).
    pose proof (h_f_in H i (or_introl eq_refl)) as I.
    pose proof (links_first _ _ _ _ _ F3) as F4.
    assert (Ha : hd 0 fr < length a).
    { destruct fr as [|k fr]; cbn; [lia|]. pose proof (h_f_in H k). cbn in *. lia. }
    destruct (allocate_reuse a v i 0 (hd 0 fr)) as (a' & E & L & A1 & A2 & A3 & A4 & A5); try assumption; try lia.
    exists a', i, fr. split; [exact E|].
    assert (Hi : ~ In i (ids m)) by (apply D3; left; reflexivity).
    assert (H0 : ~ In 0 (ids m)) by (intro Q; inversion D1; auto).
    assert (Hx : ~ In i x) by (intro Q; apply (D4 i Q); left; reflexivity).
    assert (Hf : ~ In (hd 0 fr) (ids m)).
    { destruct fr as [|k fr]; cbn; [exact H0|apply D3; right; left; reflexivity]. }
    assert (Hfx : forall j, In j x -> j <> hd 0 fr).
    { intros j J Q. destruct fr as [|k fr]; cbn in Q; subst j; [apply (h_x_in H) in J; lia|apply (D4 _ J); right; left; reflexivity]. }
    split; [|split; [|split; [|split; [reflexivity|split; [reflexivity|lia]]]]].
    + constructor.
      * eapply links_ext; [| |apply (h_links _ _ _ _ H)]; intros j J; rewrite ?A1, ?A2; apply ow_other; intro Q; subst j;
          destruct J as [J|J]; try lia; auto.
      * eapply holds_ext; [|apply (h_marks _ _ _ _ H)]. intros j J. rewrite A3, A4, A5, !ow_other; auto; intro Q; subst j; auto.
      * destruct fr as [|k fr]; cbn [hd] in *.
        -- cbn. rewrite A3, A4, !ow_same. auto.
        -- cbn [links] in F3 |- *. rewrite A3, A4, !ow_same. split; [reflexivity|]. split; [reflexivity|].
           destruct F3 as (_ & _ & F3). inversion D6 as [|? ? Q1 Q2]; subst. inversion Q2 as [|? ? Q3 Q4]; subst.
           inversion Q4 as [|? ? Q5 Q6]; subst.
           eapply links_ext; [| |exact F3].
           ++ intros j [->|J]; rewrite A4; apply ow_other; intro; subst; apply Q1; cbn; auto.
           ++ intros j [->|J]; rewrite A3; apply ow_other; intro; subst; [apply Q1; cbn; auto|auto].
      * pose proof (h_sorted _ _ _ _ H) as Q. inversion Q; assumption.
      * rewrite L. lia.
      * rewrite L. eapply Permutation_trans; [|apply (h_all _ _ _ _ H)]. cbn [app].
        rewrite !app_assoc. rewrite <- Permutation_middle. reflexivity.
    + rewrite A5. apply ow_same.
    + intros j J. rewrite A3, A4, A5, !ow_other; auto; intro; subst; auto; apply (h_x_in H) in J; lia.
Qed.

(** *** link *)
Lemma hd_ids : forall {a : tags} {m1 m2 x fr}, Holds a (m1 ++ m2) x fr -> hd 0 (ids m2) < length a /\
  (hd 0 (ids m2) = 0 \/ In (hd 0 (ids m2)) (ids m2)).
Proof.
  intros a m1 m2 x fr H. pose proof (h_pos _ _ _ _ H). destruct m2 as [|k m2]; cbn; [auto|].
  pose proof (h_m_in H (m_id k)) as Q. rewrite ids_app, in_app_iff in Q. cbn in Q. split; [|auto].
  destruct Q; auto; lia.
Qed.

Lemma last_ids : forall {a : tags} {m1 m2 x fr}, Holds a (m1 ++ m2) x fr -> last (ids m1) 0 < length a /\
  (last (ids m1) 0 = 0 \/ In (last (ids m1) 0) (ids m1)).
Proof.
  intros a m1 m2 x fr H. pose proof (h_pos _ _ _ _ H). pose proof (last_in (ids m1) 0) as [E|E].
  - rewrite E. auto.
  - split; [|auto]. pose proof (h_m_in H (last (ids m1) 0)) as Q. rewrite ids_app, in_app_iff in Q. destruct Q; auto; lia.
Qed.

Lemma link_holds : forall (a : tags) m1 m2 i x fr v, Holds a (m1 ++ m2) (i :: x) fr -> r_val a i = Some v ->
  exists a', link a (hd 0 (ids m2)) i = Some a' /\ Holds a' (m1 ++ (i, 0, 0, v) :: m2) x fr /\
    (forall j, In j x -> r_val a' j = r_val a j /\ r_head a' j = r_head a j /\ r_tail a' j = r_tail a j) /\
    length a' = length a.
Proof.
  intros a m1 m2 i x fr v H Hv. destruct (nodup0 _ _ _ _ H) as (D1 & D2 & D3 & D4 & D5 & D6).
  destruct (hd_ids H) as (Lp & Ip). destruct (last_ids H) as (Lb & Ib).
  pose proof (h_x_in H i (or_introl eq_refl)) as Li.
  pose proof (h_links _ _ _ _ H) as K. rewrite ids_app in K, D1, D2, D3. apply links_rest in K. destruct K as (K1 & K2).
  pose proof (links_last _ _ _ _ _ K1) as B.
  destruct (link_spec a (hd 0 (ids m2)) i (last (ids m1) 0)) as (a' & E & L & A1 & A2 & A3 & A4 & A5); try assumption; try lia.
  exists a'. split; [exact E|].
  assert (Ni : ~ In i (ids m1 ++ ids m2)) by (apply D2; left; reflexivity).
  assert (N0 : ~ In 0 (ids m1 ++ ids m2)) by (inversion D1; assumption).
  rewrite in_app_iff in Ni, N0.
  assert (Dm : NoDup (ids m1 ++ ids m2)) by (inversion D1; assumption).
  destruct (nodup_app _ _ Dm) as (Dm1 & Dm2 & Dm3).
  assert (Pi : hd 0 (ids m2) <> i) by (intro Q; destruct Ip as [Q'|Q']; [lia|rewrite Q in Q'; tauto]).
  assert (Bi : last (ids m1) 0 <> i) by (intro Q; destruct Ib as [Q'|Q']; [lia|rewrite Q in Q'; tauto]).
  assert (Ix : ~ In i x) by (inversion D5; assumption).
  assert (Ifr : ~ In i fr) by (apply D4; left; reflexivity).
  split; [constructor|split; [|exact L]].
  - rewrite ids_app. cbn [ids map m_id]. apply links_app. split.
    + eapply links_end with (y := hd 0 (ids m2)); [exact K1|constructor; tauto|..].
      * intros j J Nj. rewrite A2, ow_other, ow_other; auto. intro; subst j. destruct J as [J|J]; [lia|tauto].
      * intros j J. rewrite A1, ow_other, ow_other; auto; intro; subst j; [tauto|].
        destruct Ip as [Q|Q]; [rewrite Q in J; tauto|exact (Dm3 _ J Q)].
      * rewrite A2, ow_other, ow_same by assumption. reflexivity.
      * rewrite A1, ow_other, ow_same by auto. reflexivity.
    + change (links (r_next a') (r_prev a') i ([] ++ ids m2) 0). apply links_rest. split.
      * cbn. rewrite A1, A2, !ow_same. auto.
      * destruct m2 as [|k m2]; [exact I|]. eapply rest_ext; [| |exact K2].
        -- intros j J. rewrite A2, ow_other, ow_other; auto; intro; subst j; [|tauto].
           destruct Ib as [Q|Q]; [rewrite Q in J; tauto|exact (Dm3 _ Q J)].
        -- intros j J. cbn [ids map tl hd] in *.
           rewrite A1, ow_other, ow_other; auto; intro; subst j.
           ++ destruct J as [J|J]; [lia|]. apply Ni. right. right. exact J.
           ++ destruct J as [J|J]; [apply N0; right; left; exact J|]. inversion Dm2; auto.
  - apply Forall_app. pose proof (h_marks _ _ _ _ H) as M. apply Forall_app in M. destruct M as [M1 M2].
    split; [|constructor].
    + eapply holds_ext; [|exact M1]. intros j J. rewrite A3, A4, A5, !ow_other; auto; intro; subst; tauto.
    + cbn. rewrite A3, A4, A5, !ow_same. auto.
    + eapply holds_ext; [|exact M2]. intros j J. rewrite A3, A4, A5, !ow_other; auto; intro; subst; tauto.
  - eapply links_ext; [| |apply (h_free _ _ _ _ H)]; intros j J; rewrite ?A3, ?A4; apply ow_other; intro; subst j;
      destruct J as [J|J]; try lia; auto.
  - apply (h_sorted _ _ _ _ H).
  - rewrite L. apply (h_pos _ _ _ _ H).
  - rewrite L. eapply Permutation_trans; [|apply (h_all _ _ _ _ H)]. rewrite !ids_app. cbn [ids map m_id app].
    rewrite <- !app_assoc. cbn [app]. rewrite !(app_assoc x).
    symmetry. apply Permutation_middle.
  - intros j J. rewrite A3, A4, A5, !ow_other; auto; intro; subst; auto.
Qed.

(** *** unlink *)
Lemma unlink_holds : forall (a : tags) m1 m2 i h t v x fr, Holds a (m1 ++ (i, h, t, v) :: m2) x fr ->
  exists a', unlink a i = Some a' /\ Holds a' (m1 ++ m2) (i :: x) fr /\ length a' = length a /\
    (forall j, r_val a' j = r_val a j).
Proof.
  intros a m1 m2 i h t v x fr H. destruct (nodup0 _ _ _ _ H) as (D1 & D2 & D3 & D4 & D5 & D6).
  destruct (last_ids H) as (Lb & Ib).
  pose proof H as H'. replace (m1 ++ (i, h, t, v) :: m2) with ((m1 ++ [(i, h, t, v)]) ++ m2) in H' by (rewrite <- app_assoc; reflexivity).
  destruct (hd_ids H') as (Lp & Ip). clear H'.
  pose proof (h_links _ _ _ _ H) as K. rewrite ids_app in K, D1, D2, D3. cbn [ids map m_id] in K, D1, D2, D3.
  fold (ids m2) in K, D1, D2, D3.
  assert (Li : 1 <= i < length a).
  { apply (h_m_in H). rewrite ids_app. apply in_or_app. right. left. reflexivity. }
  apply links_app in K. destruct K as (K1 & K2). change (ids m2) with ([] ++ ids m2) in K2. apply links_rest in K2.
  destruct K2 as ((K2 & K3) & K4).
  pose proof (links_last _ _ _ _ _ K1) as B.
  destruct (unlink_spec a i (last (ids m1) 0) (hd 0 (ids m2))) as (a' & E & L & A1 & A2 & A3 & A4 & A5); try assumption; try lia.
  exists a'. split; [exact E|].
  assert (N0 : ~ In 0 (ids m1 ++ i :: ids m2)) by (inversion D1; assumption).
  assert (Dm : NoDup (ids m1 ++ i :: ids m2)) by (inversion D1; assumption).
  destruct (nodup_app _ _ Dm) as (Dm1 & Dm2 & Dm3). rewrite in_app_iff in N0. cbn [In] in N0.
  assert (Ni1 : ~ In i (ids m1)) by (intro Q; apply (Dm3 i Q); left; reflexivity).
  assert (Ni2 : ~ In i (ids m2)) by (inversion Dm2; assumption).
  assert (Pi : hd 0 (ids m2) <> i) by (intro Q; destruct Ip as [Q'|Q']; [lia|rewrite Q in Q'; tauto]).
  assert (Bi : last (ids m1) 0 <> i) by (intro Q; destruct Ib as [Q'|Q']; [lia|rewrite Q in Q'; tauto]).
  split; [constructor|split; [exact L|intro j; apply A5]].
  - rewrite ids_app. apply links_rest. split.
    + eapply links_end with (y := i); [exact K1|constructor; tauto|..].
      * intros j J Nj. rewrite A2, ow_other, ow_other; auto. intro; subst j. destruct J as [J|J]; [lia|tauto].
      * intros j J. rewrite A1, ow_other, ow_other; auto; intro; subst j; [|tauto].
        destruct Ip as [Q|Q]; [rewrite Q in J; tauto|apply (Dm3 _ J); right; exact Q].
      * rewrite A2, ow_other, ow_same by assumption. reflexivity.
      * rewrite A1, ow_other, ow_same by auto. reflexivity.
    + destruct m2 as [|k m2]; [exact I|]. eapply rest_ext; [| |exact K4].
      * intros j J. rewrite A2, ow_other, ow_other; auto; intro; subst j; [|tauto].
        destruct Ib as [Q|Q]; [rewrite Q in J; tauto|apply (Dm3 _ Q); right; exact J].
      * intros j J. cbn [ids map tl hd] in *. inversion Dm2 as [|? ? Q1 Q2]; subst. inversion Q2 as [|? ? Q3 Q4]; subst.
        rewrite A1, ow_other, ow_other; auto; intro; subst j.
        -- destruct J as [J|J]; [apply N0; right; right; left; exact J|auto].
        -- destruct J as [J|J]; [lia|]. apply Q1. right. exact J.
  - pose proof (h_marks _ _ _ _ H) as M. apply Forall_app in M. destruct M as [M1 M2]. inversion M2; subst.
    apply Forall_app. split; (eapply holds_ext; [|eassumption]); intros j J;
      rewrite A3, A4, A5, !ow_other; auto; intro; subst; tauto.
  - assert (Ifr : ~ In i fr) by (intro Q; apply (D3 i Q); apply in_or_app; right; left; reflexivity).
    eapply links_ext; [| |apply (h_free _ _ _ _ H)]; intros j J; rewrite ?A3, ?A4; apply ow_other; intro; subst j;
      destruct J as [J|J]; try lia; auto.
  - apply (h_sorted _ _ _ _ H).
  - rewrite L. apply (h_pos _ _ _ _ H).
  - rewrite L. eapply Permutation_trans; [|apply (h_all _ _ _ _ H)]. rewrite !ids_app. cbn [ids map m_id app].
    rewrite <- !app_assoc. cbn [app]. rewrite !(app_assoc x). apply Permutation_middle.
Qed.

(** *** free *)
Lemma free_before_spec : forall f2 f1 (a : tags) idx fuel before,
  links (r_tail a) (r_head a) before (f1 ++ f2) 0 -> ~ In 0 f1 -> Forall (fun j => j < idx) f1 ->
  (f2 = [] \/ idx <= hd 0 f2) -> length f1 < fuel ->
  free_before fuel a idx before (hd 0 (f1 ++ f2)) = Some (last f1 before).
Proof.
  intros f2 f1. induction f1 as [|k f1 IH]; intros a idx fuel before L Z F G N; (destruct fuel as [|fuel]; [cbn in N; lia|]);
    cbn [free_before app hd].
  - cbn [app] in L. destruct G as [->|G]; [reflexivity|]. cbn [last].
    replace (hd 0 f2 <? idx) with false by (symmetry; apply Nat.ltb_ge; exact G). rewrite andb_false_r. reflexivity.
  - inversion F as [|? ? F1 F2]; subst. cbn [app links] in L. destruct L as (L1 & L2 & L3).
    rewrite (proj2 (Nat.ltb_lt _ _) F1). replace (k =? 0) with false.
    2:{ symmetry. apply Nat.eqb_neq. intro; subst. apply Z. left. reflexivity. }
    cbn [negb andb]. rewrite (links_first _ _ _ _ _ L3), last_cons_d. apply IH; auto.
    + intro Q. apply Z. right. exact Q.
    + cbn in N. lia.
Qed.

Lemma sorted_split : forall i fr, StronglySorted lt fr -> ~ In i fr ->
  exists f1 f2, fr = f1 ++ f2 /\ Forall (fun j => j < i) f1 /\ Forall (fun j => i < j) f2.
Proof.
  intros i fr S N. induction fr as [|k fr IH].
  - exists [], []. repeat constructor.
  - inversion S as [|? ? S1 S2]; subst. destruct (Nat.lt_trichotomy k i) as [C|[C|C]].
    + destruct IH as (f1 & f2 & -> & A & B); [exact S1|intro Q; apply N; right; exact Q|].
      exists (k :: f1), f2. repeat split; auto.
    + exfalso. apply N. left. exact C.
    + exists [], (k :: fr). repeat split; auto. constructor; [exact C|].
      eapply Forall_impl; [|exact S2]. cbn. intros. lia.
Qed.

Lemma sorted_join : forall i f1 f2, StronglySorted lt (f1 ++ f2) -> Forall (fun j => j < i) f1 -> Forall (fun j => i < j) f2 ->
  StronglySorted lt (f1 ++ i :: f2).
Proof.
  intros i f1 f2. induction f1 as [|k f1 IH]; intros S A B; cbn [app] in *.
  - constructor; assumption.
  - inversion S as [|? ? S1 S2]; subst. inversion A; subst. constructor; [apply IH; assumption|].
    apply Forall_app in S2. destruct S2. apply Forall_app. split; [assumption|]. constructor; assumption.
Qed.

Lemma nodup_length : forall (l : list nat) n, NoDup l -> (forall j, In j l -> 1 <= j < n) -> length l <= n.
Proof.
  intros l n D I. rewrite <- (seq_length n 0). apply NoDup_incl_length; [exact D|]. intros j J. apply in_seq. specialize (I j J). lia.
Qed.

Lemma free_holds : forall (a : tags) m i x fr, Holds a m (i :: x) fr ->
  exists a' f1 f2, free a i = Some a' /\ fr = f1 ++ f2 /\ Holds a' m x (f1 ++ i :: f2) /\
    (forall j, r_val a' j = r_val a j) /\ length a' = length a /\
    Forall (fun j => j < i) f1 /\ Forall (fun j => i < j) f2.
Proof.
  intros a m i x fr H. destruct (nodup0 _ _ _ _ H) as (D1 & D2 & D3 & D4 & D5 & D6).
  assert (Ifr : ~ In i fr) by (apply D4; left; reflexivity).
  pose proof (h_x_in H i (or_introl eq_refl)) as Li.
  destruct (sorted_split i fr (h_sorted _ _ _ _ H) Ifr) as (f1 & f2 & -> & S1 & S2).
  pose proof (h_free _ _ _ _ H) as F. pose proof (links_first _ _ _ _ _ F) as T0.
  assert (N0 : ~ In 0 (f1 ++ f2)) by (inversion D6; assumption). rewrite in_app_iff in N0, Ifr.
  assert (Df : NoDup (f1 ++ f2)) by (inversion D6; assumption). destruct (nodup_app _ _ Df) as (Df1 & Df2 & Df3).
  assert (Lf : forall j, In j (f1 ++ f2) -> 1 <= j < length a) by apply (h_f_in H).
  assert (FB : free_before (S (length a)) a i 0 (hd 0 (f1 ++ f2)) = Some (last f1 0)).
  { apply free_before_spec; auto.
    - destruct f2 as [|k f2]; [left; reflexivity|right]. inversion S2; subst. cbn. lia.
    - pose proof (nodup_length f1 (length a) Df1). assert (length f1 <= length a); [|lia]. apply H0. intros j J. apply Lf. apply in_or_app. auto. }
  pose proof F as F'. apply links_rest in F'. destruct F' as (F1 & F2).
  assert (Lb : last f1 0 < length a).
  { pose proof (h_pos _ _ _ _ H). destruct (last_in f1 0) as [->|Q]; [assumption|]. apply Lf. apply in_or_app. auto. }
  assert (La : hd 0 f2 < length a).
  { pose proof (h_pos _ _ _ _ H). destruct f2 as [|k f2]; cbn; [assumption|]. apply Lf. apply in_or_app. right. left. reflexivity. }
  assert (TB : r_tail a (last f1 0) = Some (hd 0 f2)).
  { clear - F1. revert F1. generalize 0 at 1 3 as s. induction f1 as [|k f1 IH]; intros s F; cbn [links] in F.
    - apply F.
    - rewrite last_cons_d. apply IH. apply F. }
  destruct (free_spec a i (hd 0 (f1 ++ f2)) (last f1 0) (hd 0 f2)) as (a' & E & L & A1 & A2 & A3 & A4 & A5); try assumption; try lia.
  exists a', f1, f2. split; [exact E|]. split; [reflexivity|].
  assert (Ni : ~ In i (ids m)) by (apply D2; left; reflexivity).
  assert (N0m : ~ In 0 (ids m)) by (inversion D1; assumption).
  assert (Bi : last f1 0 <> i) by (intro Q; destruct (last_in f1 0) as [Q'|Q']; [lia|rewrite Q in Q'; tauto]).
  assert (Pi : hd 0 f2 <> i).
  { intro Q. destruct f2 as [|k f2]; cbn in Q; [lia|]. apply Ifr. right. left. exact Q. }
  assert (Bm : ~ In (last f1 0) (ids m)).
  { destruct (last_in f1 0) as [Q|Q]; [rewrite Q; exact N0m|]. apply D3. apply in_or_app. auto. }
  assert (Pm : ~ In (hd 0 f2) (ids m)).
  { destruct f2 as [|k f2]; cbn; [exact N0m|]. apply D3. apply in_or_app. right. left. reflexivity. }
  split; [constructor|split; [exact A5|split; [exact L|split; assumption]]].
  - eapply links_ext; [| |apply (h_links _ _ _ _ H)]; intros j J; rewrite ?A1, ?A2; apply ow_other; intro; subst j;
      destruct J as [J|J]; try lia; auto.
  - eapply holds_ext; [|apply (h_marks _ _ _ _ H)]. intros j J. rewrite A3, A4, A5, !ow_other; auto; intro; subst; tauto.
  - apply links_app. split.
    + eapply links_end with (y := hd 0 f2); [exact F1|constructor; tauto|..].
      * intros j J Nj. rewrite A4, ow_other, ow_other; auto. intro; subst j. destruct J as [J|J]; [lia|tauto].
      * intros j J. rewrite A3, ow_other, ow_other; auto; intro; subst j; [tauto|].
        destruct f2 as [|k f2]; cbn [hd] in *; [tauto|]. apply (Df3 _ J). left. reflexivity.
      * rewrite A4, ow_other, ow_same by assumption. reflexivity.
      * rewrite A3, ow_other, ow_same by auto. reflexivity.
    + change (links (r_tail a') (r_head a') i ([] ++ f2) 0). apply links_rest. split.
      * cbn. rewrite A3, A4, !ow_same. auto.
      * destruct f2 as [|k f2]; [exact I|]. eapply rest_ext; [| |exact F2].
        -- intros j J. rewrite A4, ow_other, ow_other; auto; intro; subst j; [|tauto].
           destruct (last_in f1 0) as [Q|Q]; [rewrite Q in J; tauto|exact (Df3 _ Q J)].
        -- intros j J. cbn [tl hd] in *. inversion Df2 as [|? ? Q3 Q4]; subst.
           rewrite A3, ow_other, ow_other; auto; intro; subst j.
           ++ destruct J as [J|J]; [lia|]. apply Ifr. right. right. exact J.
           ++ destruct J as [J|J]; [apply N0; right; left; exact J|auto].
  - apply sorted_join; [apply (h_sorted _ _ _ _ H)|assumption..].
  - rewrite L. apply (h_pos _ _ _ _ H).
  - rewrite L. eapply Permutation_trans; [|apply (h_all _ _ _ _ H)]. cbn [app].
    rewrite !app_assoc. symmetry. rewrite <- !app_assoc. rewrite (app_assoc x), (app_assoc (x ++ ids m)). rewrite (app_assoc x), (app_assoc (x ++ ids m)).
    apply Permutation_middle.
Qed.
End L.
