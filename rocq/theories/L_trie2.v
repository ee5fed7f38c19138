(** The well-formedness invariant of the double array and the effect of [add] and [relocate]. *)
From Coq Require Import ZArith List Bool Lia Sorting.Sorted.
From Verif Require Import M_trie L_trie.
Import ListNotations.
Open Scope Z_scope.
Local Arguments Z.opp : simpl never.
Local Arguments Z.add : simpl never.
Local Arguments Z.sub : simpl never.

Definition mem (x : Z) (l : list Z) : bool := existsb (Z.eqb x) l.
Lemma mem_spec x l : reflect (In x l) (mem x l).
Proof.
  unfold mem. destruct (existsb (Z.eqb x) l) eqn:E; constructor.
  - apply existsb_exists in E as (y & Hy & Heq). apply Z.eqb_eq in Heq. now subst.
  - intros H. assert (existsb (Z.eqb x) l = true); [|congruence]. apply existsb_exists. exists x. split; [easy|apply Z.eqb_refl].
Qed.
Lemma mem_true x l : mem x l = true <-> In x l. Proof. destruct (mem_spec x l); intuition congruence. Qed.
Lemma mem_false x l : mem x l = false <-> ~ In x l. Proof. destruct (mem_spec x l); intuition congruence. Qed.

Lemma mem_cons x c cs : mem x (c :: cs) = (x =? c) || mem x cs. Proof. easy. Qed.

(** Transitions *)
Definition step (h : heap) (p l : Z) : option Z :=
  if (0 <=? l) && (l <=? 256) && (1 <=? Bs h p) && (Ks h (Bs h p + l) =? p) then Some (Bs h p + l) else None.
Fixpoint walk_from (h : heap) (p : Z) (u : list Z) : option Z :=
  match u with
  | [] => Some p
  | l :: r => match step h p l with Some q => walk_from h q r | None => None end
  end.
Definition walk (h : heap) (u : list Z) : option Z := walk_from h 1 u.

Lemma walk_from_app h u : forall p v, walk_from h p (u ++ v) = match walk_from h p u with Some q => walk_from h q v | None => None end.
Proof. induction u as [|l r IH]; intros p v; cbn; [easy|]. destruct (step h p l); [apply IH|easy]. Qed.
Lemma walk_snoc h u l : walk h (u ++ [l]) = match walk h u with Some q => step h q l | None => None end.
Proof. unfold walk. rewrite walk_from_app. destruct (walk_from h 1 u); [|easy]. cbn. now destruct (step h z l). Qed.
Lemma step_some h p l q : step h p l = Some q <-> 0 <= l <= 256 /\ 1 <= Bs h p /\ q = Bs h p + l /\ Ks h q = p.
Proof.
  unfold step. destruct ((0 <=? l) && (l <=? 256) && (1 <=? Bs h p) && (Ks h (Bs h p + l) =? p)) eqn:E.
  - rewrite !andb_true_iff, !Z.leb_le, Z.eqb_eq in E. split; [intros H; injection H as <-; intuition|intros (_ & _ & -> & _); easy].
  - split; [easy|]. intros (H1 & H2 & -> & H4). rewrite !andb_false_iff, !Z.leb_gt, Z.eqb_neq in E. exfalso. intuition lia.
Qed.
Lemma step_none h p l : 0 <= l <= 256 -> step h p l = None -> Bs h p <= 0 \/ Ks h (Bs h p + l) <> p.
Proof.
  intros Hl H. destruct (Z_le_gt_dec (Bs h p) 0) as [|Hb]; [auto|right]. intros Hk.
  assert (step h p l = Some (Bs h p + l)) by (apply step_some; repeat split; auto; lia). congruence.
Qed.

Definition alloc (h : heap) (fl : list Z) (i : Z) : Prop := i = 1 \/ 2 <= i < limit h /\ ~ In i fl.

Record HI (h : heap) (fl : list Z) : Prop := {
  hi_fl : FL h fl;
  hi_root : Ks h 1 = 0;
  hi_free : forall i, In i fl -> Bs h i = 0;
  hi_base : forall i, alloc h fl i -> Bs h i < limit h;
  hi_own : forall i, 2 <= i < limit h -> ~ In i fl ->
    alloc h fl (Ks h i) /\ 1 <= Bs h (Ks h i) /\ Bs h (Ks h i) <= i <= Bs h (Ks h i) + 256;
  hi_reach : forall i, alloc h fl i -> exists u, walk h u = Some i
}.

Lemma fl_ks h fl i : FL h fl -> In i fl -> Ks h i <= 0.
Proof.
  intros F Hi. destruct (in_split _ _ Hi) as (a & b & E). pose proof (fl_seg _ _ F) as S. rewrite E in S.
  apply seg_app in S as [_ S]. destruct b as [|y b]; cbn in S; [lia|]. destruct S as [S _].
  assert (In y fl) by (rewrite E; apply in_or_app; right; right; now left). apply (fl_range _ _ F) in H. lia.
Qed.
Lemma fl_k0 h fl : FL h fl -> Ks h 0 <= 0.
Proof.
  intros F. pose proof (fl_seg _ _ F) as S. destruct fl as [|y b]; cbn in S; [lia|]. destruct S as [S _].
  assert (In y (y :: b)) by now left. apply (fl_range _ _ F) in H. lia.
Qed.
Lemma alloc_ge h fl i : alloc h fl i -> 1 <= i. Proof. intros [-> |[H _]]; lia. Qed.
Lemma alloc_inb h fl i : FL h fl -> alloc h fl i -> inb h i.
Proof. intros F [-> |[H _]]; unfold inb; [apply fl_lim in F|]; lia. Qed.
Lemma alloc_not_free h fl i : FL h fl -> alloc h fl i -> ~ In i fl.
Proof. intros F [-> |[_ H]]; [|easy]. intros H. apply (fl_range _ _ F) in H. lia. Qed.
(** A node whose check is a node is allocated *)
Lemma ks_alloc h fl i : HI h fl -> 1 <= Ks h i -> 2 <= i < limit h /\ ~ In i fl.
Proof.
  intros H Hk. destruct H as [F Rt Fr Ba Ow Re].
  assert (~ In i fl) by (intros Hi; apply (fl_ks _ _ _ F) in Hi; lia).
  assert (0 <= i < limit h).
  { destruct (Z_lt_dec i 0); [rewrite Ks_out in Hk; unfold inb; lia|]. destruct (Z_lt_dec i (limit h)); [lia|rewrite Ks_out in Hk; unfold inb; lia]. }
  split; [|easy]. assert (i <> 0) by (intros ->; apply fl_k0 in F; lia). assert (i <> 1) by (intros ->; lia). lia.
Qed.
Lemma step_alloc h fl p l q : HI h fl -> alloc h fl p -> step h p l = Some q -> alloc h fl q /\ 2 <= q.
Proof.
  intros H Hp Hs. apply step_some in Hs as (A & B & C & D). apply alloc_ge in Hp.
  destruct (ks_alloc h fl q H) as [E1 E2]; [lia|]. split; [right; auto|lia].
Qed.
Lemma walk_alloc h fl : HI h fl -> forall u i, walk h u = Some i -> alloc h fl i.
Proof.
  intros H u. induction u as [|l r IH] using rev_ind; intros i W; [injection W as <-; now left|].
  rewrite walk_snoc in W. destruct (walk h r) as [q|] eqn:E; [|easy]. eapply step_alloc; eauto.
Qed.
Lemma walk_inj h fl : HI h fl -> forall u v i, walk h u = Some i -> walk h v = Some i -> u = v.
Proof.
  intros H u. induction u as [|l r IH] using rev_ind; intros v i W V.
  - injection W as <-. destruct v as [|l v _] using rev_ind; [easy|]. rewrite walk_snoc in V.
    destruct (walk h v) as [q|] eqn:E; [|easy]. pose proof (walk_alloc h fl H _ _ E) as Aq.
    destruct (step_alloc h fl q l 1 H Aq V). lia.
  - rewrite walk_snoc in W. destruct (walk h r) as [q|] eqn:E; [|easy]. pose proof (walk_alloc h fl H _ _ E) as Aq.
    destruct v as [|l' v _] using rev_ind.
    + injection V as <-. destruct (step_alloc h fl q l 1 H Aq W). lia.
    + rewrite walk_snoc in V. destruct (walk h v) as [q'|] eqn:E'; [|easy].
      apply step_some in W as (W1 & W2 & W3 & W4), V as (V1 & V2 & V3 & V4). assert (q = q') by lia. subst q'.
      f_equal; [apply (IH v (Ks h i)); congruence|f_equal; rewrite W4 in V3; lia].
Qed.
(** No node is its own parent; the labels on a path are bounded *)
Lemma no_self h fl i : HI h fl -> alloc h fl i -> Ks h i <> i.
Proof.
  intros H Ha. destruct (Z.eq_dec i 1) as [-> |Hne]; [rewrite (hi_root _ _ H); lia|]. intros Hk.
  destruct Ha as [|[Ha1 Ha2]]; [easy|]. destruct (hi_own _ _ H i Ha1 Ha2) as (A & B & C). rewrite Hk in *.
  destruct (hi_reach _ _ H i A) as [u U].
  assert (walk h (u ++ [i - Bs h i]) = Some i).
  { rewrite walk_snoc, U. apply step_some. repeat split; lia. }
  assert (u = u ++ [i - Bs h i]) by (eapply walk_inj; eauto). apply (f_equal (@length Z)) in H1. rewrite app_length in H1. cbn in H1. lia.
Qed.
(** ... nor its own grandparent *)
Lemma no_swap h fl i : HI h fl -> alloc h fl i -> Ks h (Ks h i) <> i.
Proof.
  intros H Ha. destruct (Z.eq_dec i 1) as [-> |Hne].
  { rewrite (hi_root _ _ H). intros Hk. pose proof (fl_k0 _ _ (hi_fl _ _ H)). lia. }
  intros Hk. destruct Ha as [|[Ha1 Ha2]]; [easy|]. destruct (hi_own _ _ H i Ha1 Ha2) as (A & B & C).
  set (p := Ks h i) in *. destruct (Z.eq_dec p 1) as [Hp|Hp]; [rewrite Hp, (hi_root _ _ H) in Hk; lia|].
  destruct A as [|[A1 A2]]; [easy|]. destruct (hi_own _ _ H p A1 A2) as (A' & B' & C'). rewrite Hk in *.
  destruct (hi_reach _ _ H i A') as [u U].
  assert (walk h (u ++ [p - Bs h i]) = Some p). { rewrite walk_snoc, U. apply step_some. repeat split; lia. }
  assert (walk h ((u ++ [p - Bs h i]) ++ [i - Bs h p]) = Some i).
  { rewrite walk_snoc, H0. apply step_some. repeat split; lia. }
  assert (E : u = (u ++ [p - Bs h i]) ++ [i - Bs h p]) by (eapply walk_inj; eauto).
  apply (f_equal (@length Z)) in E. rewrite !app_length in E. cbn in E. lia.
Qed.
Lemma walk_labels h u : forall p i, walk_from h p u = Some i -> Forall (fun l => 0 <= l <= 256) u.
Proof.
  induction u as [|l r IH]; intros p i W; [constructor|]. cbn in W. destruct (step h p l) eqn:E; [|easy].
  apply step_some in E. constructor; [easy|eauto].
Qed.

(** ** set_union, child_labels, set_checks *)
Lemma set_union_in a : forall b x, In x (set_union a b) <-> In x a \/ In x b.
Proof.
  induction a as [|y a IHa]; intros b x; [destruct b; cbn; tauto|].
  induction b as [|z b IHb]; [cbn; tauto|].
  cbn [set_union]. destruct (Z.ltb_spec y z); [|destruct (Z.ltb_spec z y)].
  - cbn [In]. rewrite IHa. cbn [In]. tauto.
  - change (In x (z :: set_union (y :: a) b) <-> In x (y :: a) \/ In x (z :: b)). cbn [In] in *. rewrite IHb. tauto.
  - assert (y = z) by lia. subst. cbn [In]. rewrite IHa. tauto.
Qed.
Lemma set_union_sorted a : forall b, StronglySorted Z.lt a -> StronglySorted Z.lt b -> StronglySorted Z.lt (set_union a b).
Proof.
  induction a as [|y a IHa]; intros b Ha Hb; [now destruct b|].
  induction b as [|z b IHb]; [easy|].
  apply sorted_cons in Ha as Ha'. destruct Ha' as [Ha1 Ha2]. apply sorted_cons in Hb as Hb'. destruct Hb' as [Hb1 Hb2].
  cbn [set_union]. destruct (Z.ltb_spec y z); [|destruct (Z.ltb_spec z y)].
  - apply sorted_cons. split; [now apply IHa|]. intros x Hx. apply set_union_in in Hx as [Hx|[<-|Hx]]; auto. apply Hb2 in Hx. lia.
  - change (StronglySorted Z.lt (z :: set_union (y :: a) b)). apply sorted_cons. split; [now apply IHb|].
    intros x Hx. apply set_union_in in Hx as [[<-|Hx]|Hx]; auto. apply Ha2 in Hx. lia.
  - assert (y = z) by lia. subst. apply sorted_cons. split; [now apply IHa|]. intros x Hx. apply set_union_in in Hx as [Hx|Hx]; auto.
Qed.

Lemma child_labels_ok h p from n : forall i, 0 <= i -> i + Z.of_nat n <= limit h ->
  exists cs, child_labels n h p from i = Some cs /\ StronglySorted Z.lt cs /\
    forall c, In c cs <-> i <= from + c < i + Z.of_nat n /\ Ks h (from + c) = p.
Proof.
  induction n as [|n IH]; intros i H0 Hl; cbn [child_labels].
  - exists []. split; [easy|]. split; [apply SSorted_nil|]. intros c. split; [intros []|lia].
  - rewrite g_check_ok by (unfold inb; lia). destruct (IH (i + 1)) as (cs & E & So & I); [lia|lia|]. rewrite E.
    destruct (Z.eqb_spec (Ks h i) p) as [Hk|Hk].
    + exists ((i - from) :: cs). split; [easy|]. split.
      * apply sorted_cons. split; [easy|]. intros y Hy. apply I in Hy. lia.
      * intros c. cbn. rewrite I. split.
        -- intros [<-|[H1 H2]]; [|split; [lia|easy]]. replace (from + (i - from)) with i by lia. lia.
        -- intros [H1 H2]. destruct (Z.eq_dec (from + c) i); [left; lia|right]. split; [lia|easy].
    + exists cs. split; [easy|]. split; [easy|]. intros c. rewrite I. split; intros [H1 H2]; (split; [|easy]); [lia|].
      destruct (Z.eq_dec (from + c) i) as [e|]; [rewrite e in H2; easy|lia].
Qed.

Lemma set_checks_ok base p ls : forall h, (forall l, In l ls -> inb h (base + l)) ->
  exists h', set_checks h base ls p = Some h' /\ limit h' = limit h /\ (forall j, Bs h' j = Bs h j) /\
    forall j, Ks h' j = if mem (j - base) ls then p else Ks h j.
Proof.
  induction ls as [|l ls IH]; intros h Hr; cbn [set_checks]; [exists h; repeat split; easy|].
  rewrite s_check_ok by (apply Hr; now left).
  destruct (IH (setK h (base + l) p)) as (h' & E & L & Bq & Kq).
  { intros l' Hl'. apply inb_setK, Hr. now right. }
  assert (inb h (base + l)) by (apply Hr; now left).
  exists h'. split; [easy|]. split; [now rewrite L, limit_setK|]. split; [intros; rewrite Bq; now apply Bs_setK|].
  intros j. rewrite Kq, Ks_setK by easy. unfold mem. cbn [existsb]. destruct (Z.eqb_spec (j - base) l).
  - destruct (existsb _ ls); [easy|]. destruct (Z.eqb_spec j (base + l)); [easy|lia].
  - destruct (existsb _ ls); [easy|]. destruct (Z.eqb_spec j (base + l)); [lia|easy].
Qed.

(** ** Moving children *)
Lemma adopt_ok idx new n : forall h i, 0 <= i -> i + Z.of_nat n <= limit h -> new <> idx ->
  exists h', adopt n h idx new i = Some h' /\ limit h' = limit h /\ (forall j, Bs h' j = Bs h j) /\
    forall j, Ks h' j = if (Ks h j =? idx) && (i <=? j) && (j <? i + Z.of_nat n) then new else Ks h j.
Proof.
  induction n as [|n IH]; intros h i H0 Hl Hn; cbn [adopt].
  - exists h. repeat split; auto. intros j. destruct (Z.leb_spec i j), (Z.ltb_spec j (i + Z.of_nat 0)); try lia;
      rewrite ?andb_false_r; easy.
  - rewrite g_check_ok by (unfold inb; lia). destruct (Z.eqb_spec (Ks h i) idx) as [Hk|Hk].
    + rewrite s_check_ok by (unfold inb; lia). destruct (IH (setK h i new) (i + 1)) as (h' & E & L & Bq & Kq).
      { lia. } { rewrite limit_setK. lia. } { easy. }
      exists h'. split; [easy|]. split; [now rewrite L, limit_setK|]. split; [intros; rewrite Bq; apply Bs_setK; unfold inb; lia|].
      intros j. rewrite Kq, Ks_setK by (unfold inb; lia). destruct (Z.eqb_spec j i) as [-> |Hj].
      * destruct (Z.eqb_spec new idx); [easy|]. cbn [andb]. rewrite Hk, Z.eqb_refl.
        destruct (Z.leb_spec i i), (Z.ltb_spec i (i + Z.of_nat (S n))); try lia. easy.
      * destruct (Z.eqb_spec (Ks h j) idx); [|easy].
        destruct (Z.leb_spec (i + 1) j), (Z.leb_spec i j), (Z.ltb_spec j (i + 1 + Z.of_nat n)), (Z.ltb_spec j (i + Z.of_nat (S n))); try lia; easy.
    + destruct (IH h (i + 1)) as (h' & E & L & Bq & Kq); [lia|lia|easy|].
      exists h'. repeat (split; [easy|]). intros j. rewrite Kq. destruct (Z.eqb_spec (Ks h j) idx) as [Hj|]; [|easy].
      assert (j <> i) by (intros ->; easy).
      destruct (Z.leb_spec (i + 1) j), (Z.leb_spec i j), (Z.ltb_spec j (i + 1 + Z.of_nat n)), (Z.ltb_spec j (i + Z.of_nat (S n))); try lia; easy.
Qed.

(** Renaming of the moved slots *)
Definition sig (from to : Z) (cs : list Z) (x : Z) : Z := if mem (x - from) cs then x - from + to else x.

Lemma move_children_ok from to cs : forall h,
  NoDup cs ->
  (forall c, In c cs -> 1 <= from + c < limit h /\ 1 <= to + c < limit h) ->
  (forall c c', In c cs -> In c' cs -> to + c <> from + c') ->
  (forall c j, In c cs -> Ks h j = from + c -> 1 <= Bs h (from + c) <= j /\ j <= Bs h (from + c) + 256) ->
  (forall c c', In c cs -> In c' cs -> Ks h (from + c') <> from + c) ->
  (forall c c', In c cs -> In c' cs -> Ks h (to + c') <> from + c) ->
  exists h', move_children h from to cs = Some h' /\ limit h' = limit h /\
    (forall j, Bs h' j = if mem (j - to) cs then Bs h (j - to + from) else Bs h j) /\
    (forall j, Ks h' j = if mem (j - to) cs then Ks h (j - to + from) else sig from to cs (Ks h j)).
Proof.
  induction cs as [|c cs IH]; intros h N R D O P Q; cbn [move_children].
  - exists h. repeat split; easy.
  - assert (Hc : In c (c :: cs)) by now left.
    assert (Rc := R c Hc). inversion N as [|? ? Nc N']; subst.
    rewrite (proj2 (Z.ltb_lt (from + c) (limit h))), (proj2 (Z.ltb_lt (to + c) (limit h))) by lia. cbn [andb].
    assert (If : inb h (from + c)) by (unfold inb; lia). assert (It : inb h (to + c)) by (unfold inb; lia).
    assert (Dc := D c c Hc Hc).
    rewrite g_base_ok by easy. rewrite s_base_ok by easy. rewrite g_check_ok by now apply inb_setB. rewrite Ks_setB.
    rewrite s_check_ok by now apply inb_setB. set (h2 := setK _ (to + c) _).
    assert (L2 : limit h2 = limit h) by (unfold h2; now rewrite limit_setK, limit_setB).
    assert (B2 : forall j, Bs h2 j = if j =? to + c then Bs h (from + c) else Bs h j).
    { intros j. unfold h2. rewrite Bs_setK by now apply inb_setB. now rewrite Bs_setB. }
    assert (K2 : forall j, Ks h2 j = if j =? to + c then Ks h (from + c) else Ks h j).
    { intros j. unfold h2. rewrite Ks_setK by now apply inb_setB. now rewrite Ks_setB. }
    rewrite g_base_ok by (unfold inb; lia). rewrite B2. destruct (Z.eqb_spec (from + c) (to + c)); [lia|].
    (* the heap after adoption *)
    assert (E3 : exists h3, (if 1 <=? Bs h (from + c)
         then let lst := Z.min (Bs h (from + c) + null_value) (limit h2 - 1) in
              adopt (Z.to_nat (lst - Bs h (from + c) + 1)) h2 (from + c) (to + c) (Bs h (from + c))
         else Some h2) = Some h3 /\ limit h3 = limit h /\ (forall j, Bs h3 j = Bs h2 j) /\
         (forall j, Ks h3 j = if j =? to + c then Ks h (from + c) else if Ks h j =? from + c then to + c else Ks h j)).
    { assert (KP : Ks h (from + c) <> from + c) by (apply P; easy).
      destruct (Z.leb_spec 1 (Bs h (from + c))) as [Hb|Hb]; cbn zeta.
      - set (lst := Z.min _ _).
        assert (Fin : forall h3, limit h3 = limit h2 -> (forall j, Bs h3 j = Bs h2 j) ->
           (forall j, Ks h3 j = if (Ks h2 j =? from + c) && (Bs h (from + c) <=? j) && (j <? Bs h (from + c) + Z.of_nat (Z.to_nat (lst - Bs h (from + c) + 1))) then to + c else Ks h2 j) ->
           limit h3 = limit h /\ (forall j, Bs h3 j = Bs h2 j) /\
           (forall j, Ks h3 j = if j =? to + c then Ks h (from + c) else if Ks h j =? from + c then to + c else Ks h j)).
        { intros h3 L3 Bq Kq. split; [lia|]. split; [easy|]. intros j. rewrite Kq, K2. destruct (Z.eqb_spec j (to + c)).
          - destruct (Z.eqb_spec (Ks h (from + c)) (from + c)); [easy|easy].
          - destruct (Z.eqb_spec (Ks h j) (from + c)) as [Hj|]; [|easy]. destruct (O c j Hc Hj) as [O1 O2].
            assert (j < limit h) by (destruct (Z_lt_dec j (limit h)); [easy|rewrite Ks_out in Hj; unfold inb; lia]).
            destruct (Z.leb_spec (Bs h (from + c)) j); [|lia]. destruct (Z.ltb_spec j (Bs h (from + c) + Z.of_nat (Z.to_nat (lst - Bs h (from + c) + 1)))); [easy|].
            unfold lst, null_value in *. lia. }
        destruct (Z_le_gt_dec (Bs h (from + c)) (lst + 1)) as [Hl|Hl].
        + destruct (adopt_ok (from + c) (to + c) (Z.to_nat (lst - Bs h (from + c) + 1)) h2 (Bs h (from + c))) as (h3 & E & L3 & Bq & Kq).
          { lia. } { unfold lst. lia. } { easy. } exists h3. split; [easy|]. apply Fin; easy.
        + exists h2. split; [replace (Z.to_nat (lst - Bs h (from + c) + 1)) with 0%nat by lia; easy|]. apply Fin; auto.
          replace (Z.to_nat (lst - Bs h (from + c) + 1)) with 0%nat by lia. intros j.
          destruct (Z.leb_spec (Bs h (from + c)) j), (Z.ltb_spec j (Bs h (from + c) + Z.of_nat 0)); try lia; now rewrite ?andb_false_r.
      - exists h2. repeat (split; [easy|]). intros j. rewrite K2. destruct (Z.eqb_spec j (to + c)); [easy|].
        destruct (Z.eqb_spec (Ks h j) (from + c)) as [Hj|]; [|easy]. apply (O c j Hc) in Hj. lia. }
    destruct E3 as (h3 & E3 & L3 & B3 & K3). cbn zeta in E3. rewrite E3.
    assert (B3' : forall j, Bs h3 j = if j =? to + c then Bs h (from + c) else Bs h j) by (intros; now rewrite B3).
    assert (Hne : forall c', In c' cs -> c' <> c) by (intros c' H ->; easy).
    destruct (IH h3) as (h' & E & L & Bq & Kq).
    + easy.
    + intros c' H. rewrite L3. apply R. now right.
    + intros c1 c2 H1 H2. apply D; now right.
    + intros c' j H Hj. assert (Hc' : In c' (c :: cs)) by now right. rewrite B3'.
      destruct (Z.eqb_spec (from + c') (to + c)) as [e|_]; [exfalso; apply (D c c' Hc Hc'); lia|].
      rewrite K3 in Hj. destruct (Z.eqb_spec j (to + c)); [exfalso; now apply (P c' c Hc' Hc)|].
      destruct (Z.eqb_spec (Ks h j) (from + c)); [exfalso; apply (D c c' Hc Hc'); lia|]. now apply O.
    + intros c1 c2 H1 H2. assert (In c1 (c :: cs)) by now right. assert (In c2 (c :: cs)) by now right.
      rewrite K3. destruct (Z.eqb_spec (from + c2) (to + c)); [apply P; easy|].
      destruct (Z.eqb_spec (Ks h (from + c2)) (from + c)); [exfalso; now apply (P c c2)|]. now apply P.
    + intros c1 c2 H1 H2. assert (In c1 (c :: cs)) by now right. assert (In c2 (c :: cs)) by now right.
      rewrite K3. destruct (Z.eqb_spec (to + c2) (to + c)); [specialize (Hne c2 H2); lia|].
      destruct (Z.eqb_spec (Ks h (to + c2)) (from + c)); [exfalso; now apply (Q c c2)|]. now apply Q.
    + exists h'. split; [easy|]. split; [lia|]. split.
      * intros j. rewrite Bq, mem_cons. destruct (mem_spec (j - to) cs) as [Hm|Hm].
        -- rewrite orb_true_r. rewrite B3'. destruct (Z.eqb_spec (j - to + from) (to + c)) as [e|]; [|easy].
           exfalso. apply (D c (j - to) Hc); [now right|lia].
        -- rewrite orb_false_r. rewrite B3'. destruct (Z.eqb_spec j (to + c)), (Z.eqb_spec (j - to) c); try lia.
           f_equal. lia.
      * intros j. rewrite Kq, mem_cons. destruct (mem_spec (j - to) cs) as [Hm|Hm].
        -- rewrite orb_true_r. assert (Hm' : In (j - to) (c :: cs)) by now right. rewrite K3. destruct (Z.eqb_spec (j - to + from) (to + c)) as [e|].
           { exfalso. apply (D c (j - to) Hc Hm'). lia. }
           destruct (Z.eqb_spec (Ks h (j - to + from)) (from + c)) as [e|]; [|easy].
           exfalso. apply (P c (j - to) Hc Hm'). rewrite <- e. f_equal. lia.
        -- rewrite orb_false_r. rewrite K3. destruct (Z.eqb_spec j (to + c)) as [Hj|Hj], (Z.eqb_spec (j - to) c); try lia.
           ++ unfold sig. destruct (mem_spec (Ks h (from + c) - from) cs) as [Hk|Hk].
              { exfalso. apply (P (Ks h (from + c) - from) c); [now right|easy|lia]. }
              f_equal. lia.
           ++ unfold sig. rewrite mem_cons. destruct (Z.eqb_spec (Ks h j) (from + c)) as [Hk|Hk].
              ** destruct (Z.eqb_spec (Ks h j - from) c); [|lia]. cbn [orb].
                 destruct (mem_spec (to + c - from) cs) as [Hx|Hx]; [|lia]. exfalso. apply (D c (to + c - from) Hc); [now right|lia].
              ** destruct (Z.eqb_spec (Ks h j - from) c); [lia|]. easy.
Qed.

(** ** Adding transitions *)
Definition rho (h : heap) (p b i : Z) : Z := if Ks h i =? p then b + (i - Bs h p) else i.
Definition Live (h : heap) (p : Z) : Prop := 1 <= Bs h p -> exists l q, step h p l = Some q.

Record Prep (h : heap) (fl : list Z) (p : Z) (ls : list Z) (h' : heap) (fl' : list Z) (b : Z) : Prop := {
  pr_fl : FL h' fl';
  pr_lim : limit h <= limit h' <= limit h + 257;
  pr_b : 1 <= b;
  pr_new : forall l, In l ls -> alloc h' fl' (b + l) /\ 2 <= b + l /\ Bs h' (b + l) = 0;
  pr_old : forall i, alloc h fl i -> alloc h' fl' (rho h p b i);
  pr_base : forall i, alloc h fl i -> i <> p -> Bs h' (rho h p b i) = Bs h i;
  pr_check : forall i, alloc h fl i -> Ks h' (rho h p b i) = rho h p b (Ks h i);
  pr_cover : forall j, alloc h' fl' j -> (exists i, alloc h fl i /\ j = rho h p b i) \/ exists l, In l ls /\ j = b + l;
  pr_fresh : forall i l, alloc h fl i -> In l ls -> rho h p b i <> b + l;
  pr_inj : forall i j, alloc h fl i -> alloc h fl j -> rho h p b i = rho h p b j -> i = j;
  pr_free : forall i, In i fl' -> Bs h' i = 0;
  pr_zero : Bs h' 0 = Bs h 0
}.

Record Added (h : heap) (fl : list Z) (p : Z) (ls : list Z) (h' : heap) (fl' : list Z) (b : Z) : Prop := {
  ad_fl : FL h' fl';
  ad_lim : limit h <= limit h' <= limit h + 257;
  ad_b : 1 <= b < limit h';
  ad_new : forall l, In l ls -> alloc h' fl' (b + l) /\ 2 <= b + l /\ Bs h' (b + l) = 0 /\ Ks h' (b + l) = p;
  ad_old : forall i, alloc h fl i -> alloc h' fl' (rho h p b i);
  ad_base : forall i, alloc h fl i -> i <> p -> Bs h' (rho h p b i) = Bs h i;
  ad_basep : Bs h' p = b;
  ad_check : forall i, alloc h fl i -> Ks h' (rho h p b i) = rho h p b (Ks h i);
  ad_cover : forall j, alloc h' fl' j -> (exists i, alloc h fl i /\ j = rho h p b i) \/ exists l, In l ls /\ j = b + l;
  ad_fresh : forall i l, alloc h fl i -> In l ls -> rho h p b i <> b + l;
  ad_inj : forall i j, alloc h fl i -> alloc h fl j -> rho h p b i = rho h p b j -> i = j;
  ad_free : forall i, In i fl' -> Bs h' i = 0;
  ad_zero : Bs h' 0 = Bs h 0
}.

Lemma hi_pos h fl : HI h fl -> forall i, 2 <= i < limit h -> ~ In i fl -> 1 <= Ks h i.
Proof. intros H i A B. destruct (hi_own _ _ H i A B) as (C & _). now apply alloc_ge in C. Qed.

Lemma rho_p h fl p b : HI h fl -> alloc h fl p -> rho h p b p = p.
Proof. intros H Hp. unfold rho. pose proof (no_self _ _ _ H Hp). destruct (Z.eqb_spec (Ks h p) p); easy. Qed.
Lemma rho_1 h fl p b : HI h fl -> alloc h fl p -> rho h p b 1 = 1.
Proof. intros H Hp. unfold rho. rewrite (hi_root _ _ H). apply alloc_ge in Hp. destruct (Z.eqb_spec 0 p); [lia|easy]. Qed.

(** In place: the new slots are free for the present base, or the node has no children yet *)
Lemma alloc_inplace h fl p ls b before : HI h fl -> alloc h fl p ->
  StronglySorted Z.lt ls -> ls <> [] -> (forall l, In l ls -> 0 <= l <= 256) ->
  1 <= b -> b + hd 0 ls <= Z.max (limit h) (1 + hd 0 ls) + 256 -> placeable h fl b ls -> (before = 0 \/ In before fl) -> before < b + hd 0 ls ->
  b + last ls 0 < limit h + 257 ->
  (Bs h p <= 0 \/ b = Bs h p) ->
  exists h1 fl1, allocate h b ls before = Some h1 /\ Prep h fl p ls h1 fl1 b.
Proof.
  intros H Hp So Ne Hl Hb _ Pl Bf Bl Lim Hc. pose proof (hi_fl _ _ H) as F. pose proof (fl_lim _ _ F) as Lm.
  assert (Hhd : forall l, In l ls -> hd 0 ls <= l) by (intros; now apply sorted_hd).
  destruct (allocate_ok h fl b ls before F So Ne Hb Bf) as (h1 & fl1 & E & L1 & B1 & F1 & I1 & K1 & K1').
  { intros l Hl'. apply Pl in Hl'. lia. } { intros l Hl'. apply Pl in Hl'. tauto. } { intros l Hl' _. apply Hhd in Hl'. lia. }
  assert (Rid : forall i, alloc h fl i -> rho h p b i = i).
  { intros i Hi. unfold rho. destruct (Z.eqb_spec (Ks h i) p) as [Hk|]; [|easy]. destruct Hc as [Hc| ->]; [|lia].
    destruct Hi as [-> |[Hi1 Hi2]]; [rewrite (hi_root _ _ H) in Hk; apply alloc_ge in Hp; lia|].
    destruct (hi_own _ _ H i Hi1 Hi2) as (_ & A & _). rewrite Hk in A. lia. }
  assert (Hmax : forall l, In l ls -> b + l < limit h1).
  { intros l Hl'. rewrite L1. destruct (in_split _ _ Hl') as (a & z & ->). pose proof (sorted_last _ So l 0 Hl'). lia. }
  assert (Aold : forall i, alloc h fl i -> alloc h1 fl1 i).
  { intros i [-> |[A B]]; [now left|right]. split; [lia|]. rewrite I1. intros [[X|X] _]; [easy|lia]. }
  exists h1, fl1. split; [easy|]. constructor.
  - easy.
  - rewrite L1. lia.
  - easy.
  - intros l Hl'. assert (P := Pl l Hl'). split; [|split; [lia|]].
    + right. split; [split; [lia|now apply Hmax]|]. rewrite I1. intros [_ X]. apply X. now replace (b + l - b) with l by lia.
    + rewrite B1. destruct P as [_ [P|P]]; [apply Bs_out; unfold inb; lia|now apply (hi_free _ _ H)].
  - intros i Hi. rewrite Rid by easy. now apply Aold.
  - intros i Hi _. rewrite Rid by easy. apply B1.
  - intros i Hi. rewrite Rid by easy. assert (E' : rho h p b (Ks h i) = Ks h i).
    { destruct Hi as [-> |[Hi1 Hi2]]; [|apply Rid; now apply (hi_own _ _ H)]. rewrite (hi_root _ _ H). unfold rho.
      pose proof (fl_k0 _ _ F). apply alloc_ge in Hp. destruct (Z.eqb_spec (Ks h 0) p); [lia|easy]. }
    rewrite E'. apply K1'; [apply alloc_ge in Hi; lia|now apply (alloc_not_free h)|]. apply alloc_inb in Hi; [|easy]. unfold inb in Hi. lia.
  - intros j [-> |[J1 J2]]; [left; exists 1; split; [now left|now rewrite Rid by now left]|].
    destruct (mem_spec (j - b) ls) as [M|M]; [right; exists (j - b); split; [easy|lia]|left]. exists j.
    assert (alloc h fl j). { right. rewrite I1 in J2. split; [|intros X; apply J2; split; [now left|easy]].
      destruct (Z_lt_dec j (limit h)); [lia|]. exfalso. apply J2. split; [right; lia|easy]. }
    split; [easy|now rewrite Rid].
  - intros i l Hi Hl'. rewrite Rid by easy. intros ->. destruct (Pl l Hl') as [P1 [P2|P2]].
    + apply alloc_inb in Hi; [|easy]. unfold inb in Hi. lia.
    + exact (alloc_not_free _ _ _ F Hi P2).
  - intros i j Hi Hj. now rewrite !Rid.
  - intros i Hi. rewrite B1. apply I1 in Hi as [[Hi|Hi] _]; [now apply (hi_free _ _ H)|apply Bs_out; unfold inb; lia].
  - apply B1.
Qed.

Lemma relocate_ok h fl p ls : HI h fl -> alloc h fl p -> Live h p -> 1 <= Bs h p ->
  StronglySorted Z.lt ls -> ls <> [] -> (forall l, In l ls -> 0 <= l <= 256) ->
  (forall l, In l ls -> step h p l = None) ->
  exists h1 fl1 b, relocate h p (Bs h p) ls = Some (h1, b) /\ Prep h fl p ls h1 fl1 b.
Proof.
  intros H Hp Lv Hb So Ne Hl Hno. pose proof (hi_fl _ _ H) as F. pose proof (fl_lim _ _ F) as Lm.
  pose proof (hi_base _ _ H p Hp) as Hbl. pose proof (alloc_inb _ _ _ F Hp) as Ip. unfold inb in Ip. pose proof (alloc_ge _ _ _ Hp) as P1.
  set (from := Bs h p) in *. unfold relocate.
  rewrite (proj2 (Z.leb_le 1 p)), (proj2 (Z.leb_le 1 from)), (proj2 (Z.ltb_lt p (limit h))), (proj2 (Z.ltb_lt from (limit h))) by lia. cbn [andb]. cbn zeta.
  set (lst := Z.min (from + null_value) (limit h - 1)).
  destruct (child_labels_ok h p from (Z.to_nat (lst - from + 1)) from) as (C & EC & SC & IC); [lia|unfold lst; lia|]. rewrite EC.
  assert (IC' : forall c, In c C <-> 0 <= c <= 256 /\ Ks h (from + c) = p).
  { intros c. rewrite IC. split; intros [X Y]; (split; [|easy]); unfold lst, null_value in *; [lia|].
    assert (from + c < limit h); [|lia]. destruct (Z_lt_dec (from + c) (limit h)); [easy|]. rewrite Ks_out in Y by (unfold inb; lia). lia. }
  clear IC. assert (CA : forall c, In c C -> alloc h fl (from + c) /\ 2 <= from + c < limit h /\ ~ In (from + c) fl).
  { intros c Hc. apply IC' in Hc as [Hc1 Hc2]. destruct (ks_alloc h fl (from + c) H) as [A B]; [lia|]. split; [right; auto|auto]. }
  assert (NeC : C <> []). { destruct (Lv Hb) as (l & q & S). apply step_some in S as (S1 & _ & -> & S4). intros ->. now destruct (proj2 (IC' l) (conj S1 S4)). }
  assert (CM : forall i, alloc h fl i -> Ks h i = p -> In (i - from) C).
  { intros i Hi Hk. destruct Hi as [-> |[Hi1 Hi2]]; [rewrite (hi_root _ _ H) in Hk; lia|]. destruct (hi_own _ _ H i Hi1 Hi2) as (_ & A & B). rewrite Hk in *.
    fold from in A, B. apply IC'. split; [lia|]. now replace (from + (i - from)) with i by lia. }
  assert (LC : forall l, In l ls -> ~ In l C).
  { intros l Hl' Hc. destruct (step_none _ _ _ (Hl l Hl') (Hno l Hl')) as [X|X]; [fold from in X; lia|]. apply IC' in Hc. tauto. }
  set (all := set_union ls C).
  assert (Sa : StronglySorted Z.lt all) by now apply set_union_sorted.
  assert (Ia : forall x, In x all <-> In x ls \/ In x C) by (intros; apply set_union_in).
  assert (Na : all <> []). { destruct ls as [|x r]; [easy|]. intros E. assert (In x all) by (apply Ia; left; now left). now rewrite E in H0. }
  assert (Ra : forall x, In x all -> 0 <= x <= 256) by (intros x [X|X]%Ia; [now apply Hl|now apply IC' in X]).
  assert (La : (length all <= 257)%nat).
  { assert (incl all (map Z.of_nat (seq 0 257))).
    { intros x Hx. apply in_map_iff. exists (Z.to_nat x). apply Ra in Hx. split; [lia|]. apply in_seq. lia. }
    apply (NoDup_incl_length (sorted_nodup _ Sa)) in H0. now rewrite map_length, seq_length in H0. }
  rewrite (proj2 (Nat.leb_le _ _) La).
  destruct (locate_ok h fl all F (hi_pos _ _ H) Sa Na) as (to & before & El & T1 & T2 & Pl & Bf & Bl); [intros; now apply Ra|]. rewrite El.
  destruct (allocate_ok h fl to all before F Sa Na T1 Bf) as (h1 & fl1 & E1 & L1 & B1 & F1 & I1 & K1 & K1').
  { intros l Hl'. apply Pl in Hl'. lia. } { intros l Hl'. apply Pl in Hl'. tauto. } { intros l Hl' _. pose proof (sorted_hd _ Sa l 0 Hl'). lia. }
  rewrite E1.
  assert (Nota : forall l i, In l all -> alloc h fl i -> to + l <> i).
  { intros l i Hl' Hi <-. destruct (Pl l Hl') as [X1 [X2|X2]]; [apply alloc_inb in Hi; [unfold inb in Hi; lia|easy]|exact (alloc_not_free _ _ _ F Hi X2)]. }
  assert (Hmax : forall l, In l all -> to + l < limit h1) by (intros l Hl'; rewrite L1; pose proof (sorted_last _ Sa l 0 Hl'); lia).
  assert (L1' : limit h <= limit h1) by lia.
  assert (L1'' : limit h1 <= limit h + 257).
  { assert (In (last all 0) all) by now apply last_in. assert (X := Ra _ H0). destruct all as [|y r]; [easy|]. cbn [hd] in *.
    assert (0 <= y <= 256) by (apply Ra; now left). lia. }
  assert (K1a : forall i, alloc h fl i -> Ks h1 i = Ks h i).
  { intros i Hi. apply K1'; [apply alloc_ge in Hi; lia|now apply (alloc_not_free h)|]. apply alloc_inb in Hi; [|easy]. unfold inb in Hi; lia. }
  (* every node of h1 carrying a check among the moved slots *)
  assert (O1 : forall c j, In c C -> Ks h1 j = from + c -> alloc h fl j /\ Ks h j = from + c).
  { intros c j Hc Hj. destruct (CA c Hc) as (_ & CA1 & _).
    assert (Hj0 : 0 <= j < limit h1). { destruct (Z_lt_dec j 0); [rewrite Ks_out in Hj by (unfold inb; lia); lia|]. destruct (Z_lt_dec j (limit h1)); [lia|rewrite Ks_out in Hj by (unfold inb; lia); lia]. }
    assert (j <> 0) by (intros ->; pose proof (fl_k0 _ _ F1); lia).
    assert (Nf1 : ~ In j fl1) by (intros X; apply (fl_ks _ _ _ F1) in X; lia).
    destruct (mem_spec (j - to) all) as [M|M].
    { assert (X := Pl _ M). replace (to + (j - to)) with j in X by lia. assert (Y := K1 _ M). replace (to + (j - to)) with j in Y by lia. rewrite Y in Hj by tauto. lia. }
    assert (Nf : ~ In j fl) by (intros X; apply Nf1, I1; split; [now left|easy]).
    assert (j < limit h). { destruct (Z_lt_dec j (limit h)); [easy|]. exfalso. apply Nf1, I1. split; [right; lia|easy]. }
    rewrite K1' in Hj by easy. split; [|easy]. destruct (ks_alloc h fl j H); [lia|]. right; auto. }
  destruct (move_children_ok from to C h1) as (h2 & E2 & L2 & B2 & K2).
  { now apply sorted_nodup. }
  { intros c Hc. destruct (CA c Hc) as (_ & CA1 & _). split; [lia|]. assert (In c all) by (apply Ia; now right). assert (X := Pl c H0). assert (Y := Hmax c H0). lia. }
  { intros c c' Hc Hc'. apply Nota; [apply Ia; now right|now apply CA]. }
  { intros c j Hc Hj. destruct (O1 c j Hc Hj) as [Aj Kj]. rewrite B1.
    destruct Aj as [-> |[A1 A2]]; [rewrite (hi_root _ _ H) in Kj; destruct (CA c Hc); lia|].
    destruct (hi_own _ _ H j A1 A2) as (_ & X & Y). rewrite Kj in *. lia. }
  { intros c c' Hc Hc' Hk. destruct (CA c Hc) as (Ac & _). destruct (CA c' Hc') as (Ac' & _). rewrite K1a in Hk by easy.
    assert (Ks h (from + c') = p) by now apply IC'. assert (Ks h (from + c) = p) by now apply IC'.
    apply (no_self _ _ _ H Ac). congruence. }
  { intros c c' Hc Hc' Hk. assert (M : In c' all) by (apply Ia; now right). rewrite K1 in Hk; [destruct (CA c Hc); lia|easy|]. assert (X := Pl _ M). tauto. }
  rewrite E2. rewrite (proj2 (Z.ltb_lt p (limit h2))) by lia.
  assert (Ip2 : inb h2 p) by (unfold inb; lia). rewrite s_base_ok by easy. set (h3 := setB h2 p to).
  assert (K3 : forall j, Ks h3 j = Ks h2 j) by (intros; apply Ks_setB).
  assert (B3 : forall j, Bs h3 j = if j =? p then to else Bs h2 j) by (intros; now apply Bs_setB).
  assert (L3 : limit h3 = limit h1) by (unfold h3; now rewrite limit_setB).
  (* check facts of h2 *)
  assert (Klow : forall j, ~ In (j - to) C -> Ks h1 j <= 0 -> Ks h2 j = Ks h1 j).
  { intros j Hm Hk. rewrite K2. destruct (mem_spec (j - to) C); [easy|]. unfold sig. destruct (mem_spec (Ks h1 j - from) C) as [M|]; [|easy].
    destruct (CA _ M) as (_ & X & _). lia. }
  assert (F3 : FL h3 fl1).
  { destruct F1 as [Fa Fb Fc Fd]. constructor; [lia|easy|now rewrite L3|]. apply (seg_ext (Ks h1)); [|easy].
    assert (NC : forall j, In j fl1 \/ j = 0 -> ~ In (j - to) C).
    { intros j Hj M. assert (M' : In (j - to) all) by (apply Ia; now right). destruct Hj as [Hj| ->]; [apply I1 in Hj as [_ X]; easy|].
      apply Pl in M'. lia. }
    intros j Hj. rewrite K3. apply Klow; [apply NC; destruct Hj; auto|]. destruct Hj as [-> |Hj]; [apply fl_k0 with fl1|apply fl_ks with fl1]; (easy || now constructor). }
  destruct (free_labels_ok from C h3 fl1 F3 SC NeC) as (h4 & fl4 & E4 & L4 & B4 & F4 & I4 & K4).
  { lia. } { intros c Hc. destruct (CA c Hc) as (Ac & X & Y). split; [lia|]. rewrite I1. intros [[Z|Z] _]; [easy|lia]. }
  rewrite E4.
  assert (Rn : forall i, alloc h fl i -> Ks h i <> p -> rho h p to i = i) by (intros i _ Hk; unfold rho; destruct (Z.eqb_spec (Ks h i) p); easy).
  assert (Rm : forall c, In c C -> rho h p to (from + c) = to + c).
  { intros c Hc. unfold rho. apply IC' in Hc as [_ ->]. rewrite Z.eqb_refl. fold from. lia. }
  assert (Cs : forall i, alloc h fl i -> (exists c, In c C /\ i = from + c) \/ Ks h i <> p /\ ~ In (i - from) C).
  { intros i Hi. destruct (Z.eq_dec (Ks h i) p) as [e|e]; [left; exists (i - from); split; [now apply CM|lia]|right; split; [easy|]].
    intros X. apply IC' in X as [_ X]. replace (from + (i - from)) with i in X by lia. easy. }
  assert (Nt : forall i, alloc h fl i -> ~ In (i - to) C).
  { intros i Hi X. apply (Nota (i - to) i); [apply Ia; now right|easy|lia]. }
  assert (Ntf : forall l, In l all -> ~ In (to + l - from) C).
  { intros l Hl' X. destruct (CA _ X) as (Y & _). apply (Nota l _ Hl' Y). lia. }
  assert (Old : forall i, alloc h fl i -> alloc h4 fl4 (rho h p to i)).
  { intros i Hi. destruct (Cs i Hi) as [(c & Hc & ->)|[N1 N2]].
    - rewrite Rm by easy. assert (M : In c all) by (apply Ia; now right). right. assert (X := Pl c M). assert (Y := Hmax c M). split; [lia|].
      rewrite I4, I1. intros [[_ Z]|Z]; [apply Z; now replace (to + c - to) with c by lia|now apply (Ntf c M)].
    - rewrite Rn by easy. destruct Hi as [-> |[Hi1 Hi2]]; [now left|right]. split; [lia|]. rewrite I4, I1. intros [[[Z|Z] _]|Z]; [easy|lia|easy]. }
  exists h4, fl4, to. split; [easy|]. constructor.
  - easy.
  - lia.
  - easy.
  - intros l Hl'. assert (M : In l all) by (apply Ia; now left). assert (X := Pl l M). assert (Y := Hmax l M). split; [|split; [lia|]].
    + right. split; [lia|]. rewrite I4, I1. intros [[_ Z]|Z]; [apply Z; now replace (to + l - to) with l by lia|now apply (Ntf l M)].
    + rewrite B4. fold (mem (to + l - from) C). destruct (mem_spec (to + l - from) C); [easy|]. rewrite B3.
      destruct (Z.eqb_spec (to + l) p) as [e|_]; [now apply (Nota l p M Hp) in e|]. rewrite B2.
      replace (to + l - to) with l by lia. destruct (mem_spec l C) as [Z|_]; [now apply (LC l Hl') in Z|]. rewrite B1.
      destruct X as [_ [X|X]]; [apply Bs_out; unfold inb; lia|now apply (hi_free _ _ H)].
  - easy.
  - intros i Hi Hne. destruct (Cs i Hi) as [(c & Hc & ->)|[N1 N2]].
    + rewrite Rm by easy. assert (M : In c all) by (apply Ia; now right). rewrite B4. fold (mem (to + c - from) C).
      destruct (mem_spec (to + c - from) C) as [Z|_]; [now apply (Ntf c M) in Z|]. rewrite B3.
      destruct (Z.eqb_spec (to + c) p) as [e|_]; [now apply (Nota c p M Hp) in e|]. rewrite B2.
      replace (to + c - to) with c by lia. rewrite (proj2 (mem_true c C) Hc), B1. f_equal. lia.
    + rewrite Rn by easy. rewrite B4. fold (mem (i - from) C). destruct (mem_spec (i - from) C); [easy|]. rewrite B3.
      destruct (Z.eqb_spec i p); [easy|]. rewrite B2. destruct (mem_spec (i - to) C) as [Z|_]; [now apply Nt in Z|]. apply B1.
  - intros i Hi. assert (Hr : rho h p to i <> 0 /\ ~ In (rho h p to i) fl4).
    { pose proof (Old i Hi) as X. split; [apply alloc_ge in X; lia|now apply (alloc_not_free h4)]. }
    rewrite K4, K3 by apply Hr. clear Hr. destruct (Cs i Hi) as [(c & Hc & ->)|[N1 N2]].
    + rewrite Rm by easy. rewrite K2. replace (to + c - to) with c by lia. rewrite (proj2 (mem_true c C) Hc). replace (c + from) with (from + c) by lia.
      rewrite K1a by easy. replace (Ks h (from + c)) with p by (symmetry; now apply IC'). now rewrite (rho_p h fl) by easy.
    + rewrite (Rn i) by easy. rewrite K2. destruct (mem_spec (i - to) C) as [Z|_]; [now apply Nt in Z|]. rewrite K1a by easy. unfold sig.
      destruct (mem_spec (Ks h i - from) C) as [Z|Z].
      * unfold rho. apply IC' in Z as Z'. replace (from + (Ks h i - from)) with (Ks h i) in Z' by lia. destruct Z' as [_ ->]. rewrite Z.eqb_refl. fold from. lia.
      * destruct Hi as [-> |[Hi1 Hi2]].
        { rewrite (hi_root _ _ H). unfold rho. pose proof (fl_k0 _ _ F). destruct (Z.eqb_spec (Ks h 0) p); [lia|easy]. }
        destruct (hi_own _ _ H i Hi1 Hi2) as (Ak & _). destruct (Cs _ Ak) as [(c & Hc & e)|[M1 _]]; [exfalso; apply Z; now replace (Ks h i - from) with c by lia|].
        now rewrite Rn.
  - intros j [-> |[J1 J2]]; [left; exists 1; split; [now left|symmetry; now apply rho_1 with fl]|].
    destruct (mem_spec (j - to) ls) as [M|M]; [right; exists (j - to); split; [easy|lia]|left].
    destruct (mem_spec (j - to) C) as [M'|M'].
    + exists (from + (j - to)). split; [now apply CA|]. rewrite Rm by easy. lia.
    + assert (NA : ~ In (j - to) all) by (rewrite Ia; tauto).
      assert (NC : ~ In (j - from) C) by (intros X; apply J2, I4; now right).
      assert (alloc h fl j).
      { right. rewrite I4, I1 in J2. split; [|intros X; apply J2; left; split; [now left|easy]].
        destruct (Z_lt_dec j (limit h)); [lia|]. exfalso. apply J2. left. split; [right; lia|easy]. }
      exists j. split; [easy|]. destruct (Cs j H0) as [(c & Hc & ->)|[N1 N2]]; [|now rewrite Rn]. exfalso. apply NC. now replace (from + c - from) with c by lia.
  - intros i l Hi Hl'. assert (M : In l all) by (apply Ia; now left). destruct (Cs i Hi) as [(c & Hc & ->)|[N1 N2]].
    + rewrite Rm by easy. intros e. apply (LC l Hl'). now replace l with c by lia.
    + rewrite Rn by easy. intros e. apply (Nota l i M Hi). lia.
  - intros i j Hi Hj. destruct (Cs i Hi) as [(c & Hc & ->)|[N1 N2]], (Cs j Hj) as [(c' & Hc' & ->)|[N1' N2']].
    + rewrite !Rm by easy. lia.
    + rewrite Rm, Rn by easy. intros e. exfalso. apply (Nota c j); [apply Ia; now right|easy|lia].
    + rewrite Rm, Rn by easy. intros e. exfalso. apply (Nota c' i); [apply Ia; now right|easy|lia].
    + now rewrite !Rn by easy.
  - intros i Hi. rewrite B4. fold (mem (i - from) C). destruct (mem_spec (i - from) C) as [|M]; [easy|]. apply I4 in Hi as [Hi|Hi]; [|easy].
    apply I1 in Hi as [Hi NA]. assert (i <> p). { intros ->. destruct Hi as [Hi|Hi]; [exact (alloc_not_free _ _ _ F Hp Hi)|lia]. }
    rewrite B3. destruct (Z.eqb_spec i p); [easy|]. rewrite B2. destruct (mem_spec (i - to) C) as [X|_]; [exfalso; apply NA, Ia; now right|].
    rewrite B1. destruct Hi as [Hi|Hi]; [now apply (hi_free _ _ H)|apply Bs_out; unfold inb; lia].
  - rewrite B4. fold (mem (0 - from) C). destruct (mem_spec (0 - from) C) as [M|_]; [destruct (CA _ M); lia|]. rewrite B3. destruct (Z.eqb_spec 0 p); [lia|].
    rewrite B2. destruct (mem_spec (0 - to) C) as [M|_]; [|apply B1]. assert (M' : In (0 - to) all) by (apply Ia; now right). apply Pl in M'. lia.
Qed.
