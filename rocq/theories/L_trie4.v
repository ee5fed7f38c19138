(** The remaining operations of the double array through words: free, writing a base, lookup, has_child, ... *)
From Coq Require Import ZArith List Bool Lia Sorting.Sorted.
From Verif Require Import M_trie L_trie L_trie2 L_trie3.
Import ListNotations.
Open Scope Z_scope.
Local Arguments Z.opp : simpl never.
Local Arguments Z.add : simpl never.
Local Arguments Z.sub : simpl never.

Definition eqw (u v : list Z) : bool := if list_eq_dec Z.eq_dec u v then true else false.
Lemma eqw_spec u v : reflect (u = v) (eqw u v).
Proof. unfold eqw. destruct (list_eq_dec Z.eq_dec u v); now constructor. Qed.
Lemma eqw_refl u : eqw u u = true. Proof. now destruct (eqw_spec u u). Qed.

Lemma obs_none h u : obs h u = None <-> walk h u = None.
Proof. unfold obs. destruct (walk h u); split; congruence. Qed.
Lemma obs_step h w p l : walk h w = Some p -> (obs h (w ++ [l]) = None <-> step h p l = None).
Proof. intros W. rewrite obs_none, walk_snoc, W. easy. Qed.

(** ** free *)
Lemma no_child_ks h fl i : HI h fl -> alloc h fl i -> (forall l, step h i l = None) -> forall j, alloc h fl j -> Ks h j <> i.
Proof.
  intros H Hi Hs j Hj Hk. destruct (Z.eq_dec j 1) as [-> |]; [rewrite (hi_root _ _ H) in Hk; apply alloc_ge in Hi; lia|].
  destruct Hj as [|Hj]; [easy|]. destruct (hi_own _ _ H j) as (A & B & C); [easy|easy|]. rewrite Hk in *.
  assert (S := Hs (j - Bs h i)). assert (step h i (j - Bs h i) = Some j); [|congruence]. apply step_some. repeat split; lia.
Qed.

Lemma free_obs h fl u i : HI h fl -> walk h u = Some i -> u <> [] -> (forall l, step h i l = None) ->
  exists h' b fl', th_free h i 0 = Some (h', b) /\ HI h' fl' /\ limit h' = limit h /\ Bs h' 0 = Bs h 0 /\
    (forall v, walk h' v = if eqw v u then None else walk h v) /\
    (forall v, obs h' v = if eqw v u then None else obs h v) /\
    (forall j, j <> i -> Bs h' j = Bs h j).
Proof.
  intros H W Nu Hs. pose proof (hi_fl _ _ H) as F. pose proof (walk_alloc _ _ H _ _ W) as Ai.
  assert (Hi1 : i <> 1). { intros ->. apply Nu. eapply walk_inj; eauto. }
  assert (Hi : 2 <= i < limit h /\ ~ In i fl) by (destruct Ai as [|Ai]; [easy|easy]). destruct Hi as [Hi Hf].
  destruct (th_free_ok h fl i 0 F Hi Hf (or_introl eq_refl)) as (h' & b & fl' & E & L & B & F' & I & _ & _ & K).
  assert (Al : forall j, alloc h' fl' j <-> alloc h fl j /\ j <> i).
  { intros j. unfold alloc. rewrite L, I. split; [intros [-> |[A N]]; [split; [now left|lia]|split; [right; tauto|tauto]]|].
    intros [[-> |[A N]] N2]; [now left|right; tauto]. }
  assert (K' : forall j, alloc h fl j -> j <> i -> Ks h' j = Ks h j).
  { intros j Hj Hne. apply K; [apply alloc_ge in Hj; lia|now apply (alloc_not_free h)|easy]. }
  assert (B' : forall j, j <> i -> Bs h' j = Bs h j) by (intros j Hj; rewrite B; destruct (Z.eqb_spec j i); easy).
  assert (St : forall j l, alloc h fl j -> j <> i -> step h' j l = match step h j l with Some q => if q =? i then None else Some q | None => None end).
  { intros j l Hj Hne. assert (J1 := alloc_ge _ _ _ Hj). destruct (step h' j l) as [q|] eqn:S.
    - apply step_some in S as (S1 & S2 & -> & S4). rewrite B' in * by easy.
      assert (X : alloc h' fl' (Bs h j + l)).
      { right. assert (~ In (Bs h j + l) fl') by (intros X; apply (fl_ks _ _ _ F') in X; lia). split; [|easy].
        assert (Bs h j + l < limit h'). { destruct (Z_lt_dec (Bs h j + l) (limit h')); [easy|]. rewrite Ks_out in S4 by (unfold inb; lia). lia. }
        assert (Bs h j + l <> 1). { intros e. rewrite e in S4. rewrite (K' 1) in S4; [rewrite (hi_root _ _ H) in S4; lia|now left|lia]. }
        lia. }
      apply Al in X as [X1 X2]. rewrite K' in S4 by easy.
      replace (step h j l) with (Some (Bs h j + l)) by (symmetry; now apply step_some). now destruct (Z.eqb_spec (Bs h j + l) i).
    - destruct (step h j l) as [q|] eqn:S'; [|easy]. destruct (Z.eqb_spec q i) as [|Hq]; [easy|]. exfalso.
      destruct (step_alloc h fl j l q H Hj S') as [Aq _]. apply step_some in S' as (S1 & S2 & -> & S4).
      assert (step h' j l = Some (Bs h j + l)); [|congruence]. apply step_some. rewrite B' by easy. rewrite K' by easy. tauto. }
  assert (Wk : forall v, walk h' v = if eqw v u then None else walk h v).
  { induction v as [|l v IH] using rev_ind; [now destruct (eqw_spec [] u) as [<-|]|]. rewrite !walk_snoc, IH.
    destruct (eqw_spec v u) as [e0|Nv]; [subst v|].
    - destruct (eqw_spec (u ++ [l]) u) as [e|]; [apply (f_equal (@length Z)) in e; rewrite app_length in e; cbn in e; lia|]. now rewrite W, Hs.
    - destruct (walk h v) as [q|] eqn:E'; [|now destruct (eqw (v ++ [l]) u)].
      rewrite St; [|now apply (walk_alloc h fl H v)|intros ->; apply Nv; eapply walk_inj; eauto].
      destruct (step h q l) as [x|] eqn:S; [|now destruct (eqw (v ++ [l]) u)].
      assert (X : walk h (v ++ [l]) = Some x) by (rewrite walk_snoc, E'; easy).
      destruct (eqw_spec (v ++ [l]) u) as [e|e], (Z.eqb_spec x i) as [e'|e']; try easy.
      + exfalso. apply e'. rewrite e in X. congruence.
      + exfalso. apply e. subst x. eapply walk_inj; eauto. }
  exists h', b, fl'. split; [easy|]. split; [|split; [easy|]; split; [apply B'; lia|]; split; [easy|]; split; [|easy]].
  - constructor.
    + easy.
    + rewrite K'; [apply (hi_root _ _ H)|now left|lia].
    + intros j Hj. apply I in Hj. rewrite B. destruct (Z.eqb_spec j i); [easy|]. apply (hi_free _ _ H). tauto.
    + intros j Hj. apply Al in Hj as [Hj Hne]. rewrite B', L by easy. now apply (hi_base _ _ H).
    + intros j Hj1 Hj2. assert (Aj : alloc h' fl' j) by now right. apply Al in Aj as [Aj Hne]. rewrite K' by easy.
      destruct Aj as [|Aj]; [lia|]. destruct (hi_own _ _ H j) as (X & Y & Z); [easy|easy|].
      assert (Ks h j <> i) by (apply (no_child_ks h fl i H Ai Hs); now right). rewrite B' by easy. split; [now apply Al|easy].
    + intros j Hj. apply Al in Hj as [Hj Hne]. destruct (hi_reach _ _ H j Hj) as [v V]. exists v. rewrite Wk. destruct (eqw_spec v u) as [-> |]; [congruence|easy].
  - intros v. unfold obs. rewrite Wk. destruct (eqw_spec v u) as [|Nv]; [easy|]. destruct (walk h v) as [j|] eqn:E'; [|easy].
    rewrite B'; [easy|]. intros ->. apply Nv. eapply walk_inj; eauto.
Qed.

(** ** Writing the base of a childless node *)
Lemma step_setB h i x j l : inb h i -> j <> i -> step (setB h i x) j l = step h j l.
Proof. intros I N. unfold step. rewrite Bs_setB by easy. destruct (Z.eqb_spec j i); [easy|]. now rewrite Ks_setB. Qed.

Lemma alloc_setB h fl i x j : alloc (setB h i x) fl j <-> alloc h fl j.
Proof. unfold alloc. now rewrite limit_setB. Qed.
Lemma FL_setB h fl i x : FL h fl -> FL (setB h i x) fl.
Proof.
  intros [A B C D]. constructor; rewrite ?limit_setB; auto. apply (seg_ext (Ks h)); [|easy]. intros. now rewrite Ks_setB.
Qed.

Lemma setB_obs h fl u i x : HI h fl -> walk h u = Some i -> (forall l, step h i l = None) -> x <= 0 ->
  s_base h i x = Some (setB h i x) /\ HI (setB h i x) fl /\
  (forall v, walk (setB h i x) v = walk h v) /\
  (forall v, obs (setB h i x) v = if eqw v u then Some x else obs h v).
Proof.
  intros H W Hs Hx. pose proof (hi_fl _ _ H) as F. pose proof (walk_alloc _ _ H _ _ W) as Ai. pose proof (alloc_inb _ _ _ F Ai) as Ii.
  pose proof (alloc_ge _ _ _ Ai) as I1.
  assert (St : forall j l, step (setB h i x) j l = step h j l).
  { intros j l. destruct (Z.eq_dec j i) as [-> |]; [|now apply step_setB]. rewrite Hs. destruct (step (setB h i x) i l) eqn:S; [|easy].
    apply step_some in S as (_ & S & _). rewrite Bs_setB, Z.eqb_refl in S by easy. lia. }
  assert (Wk : forall v, walk (setB h i x) v = walk h v).
  { induction v as [|l v IH] using rev_ind; [easy|]. rewrite !walk_snoc, IH. destruct (walk h v); [apply St|easy]. }
  split; [now apply s_base_ok|]. split; [|split; [easy|]].
  - constructor.
    + now apply FL_setB.
    + rewrite Ks_setB. apply (hi_root _ _ H).
    + intros j Hj. rewrite Bs_setB by easy. destruct (Z.eqb_spec j i) as [-> |]; [|now apply (hi_free _ _ H)].
      exfalso. exact (alloc_not_free _ _ _ F Ai Hj).
    + intros j Hj. rewrite alloc_setB in Hj. rewrite limit_setB, Bs_setB by easy. pose proof (fl_lim _ _ F). destruct (Z.eqb_spec j i); [lia|now apply (hi_base _ _ H)].
    + intros j Hj1 Hj2. rewrite limit_setB in Hj1. destruct (hi_own _ _ H j Hj1 Hj2) as (A & B & C). rewrite alloc_setB, Ks_setB, Bs_setB by easy.
      assert (Ks h j <> i) by (apply (no_child_ks h fl i H Ai Hs); now right). destruct (Z.eqb_spec (Ks h j) i); easy.
    + intros j Hj. rewrite alloc_setB in Hj. destruct (hi_reach _ _ H j Hj) as [v V]. exists v. now rewrite Wk.
  - intros v. unfold obs. rewrite Wk. destruct (eqw_spec v u) as [-> |Nv].
    + rewrite W, Bs_setB, Z.eqb_refl by easy. f_equal. lia.
    + destruct (walk h v) as [j|] eqn:E; [|easy]. rewrite Bs_setB by easy. destruct (Z.eqb_spec j i) as [-> |]; [|easy]. exfalso. apply Nv. eapply walk_inj; eauto.
Qed.

(** ** The counter in node 0 *)
Lemma size_obs h fl n : HI h fl ->
  exists h', add_size h n = Some h' /\ HI h' fl /\ limit h' = limit h /\ Bs h' 0 = Bs h 0 + n /\
    (forall j, j <> 0 -> Bs h' j = Bs h j) /\ (forall j, Ks h' j = Ks h j) /\
    (forall p l, p <> 0 -> step h' p l = step h p l) /\
    (forall v, walk h' v = walk h v) /\ (forall v, obs h' v = obs h v).
Proof.
  intros H. pose proof (hi_fl _ _ H) as F. pose proof (fl_lim _ _ F) as Lm.
  assert (I0 : inb h 0) by (unfold inb; lia). unfold add_size. rewrite g_base_ok, s_base_ok by easy. set (h' := setB h 0 (Bs h 0 + n)).
  assert (B' : forall j, j <> 0 -> Bs h' j = Bs h j) by (intros j Hj; unfold h'; rewrite Bs_setB by easy; destruct (Z.eqb_spec j 0); easy).
  assert (St : forall p l, p <> 0 -> step h' p l = step h p l) by (intros; now apply step_setB).
  assert (Wk : forall v, walk h' v = walk h v).
  { induction v as [|l v IH] using rev_ind; [easy|]. rewrite !walk_snoc, IH. destruct (walk h v) as [q|] eqn:E; [|easy].
    apply St. pose proof (walk_alloc _ _ H _ _ E) as A. apply alloc_ge in A. lia. }
  exists h'. split; [easy|]. split; [|split; [apply limit_setB|]; split; [unfold h'; now rewrite Bs_setB, Z.eqb_refl|]; split; [easy|]; split; [intros; apply Ks_setB|]; split; [easy|]; split; [easy|]].
  - constructor.
    + now apply FL_setB.
    + unfold h'. rewrite Ks_setB. apply (hi_root _ _ H).
    + intros j Hj. rewrite B'; [now apply (hi_free _ _ H)|]. apply (fl_range _ _ F) in Hj. lia.
    + intros j Hj. unfold h' in Hj. rewrite alloc_setB in Hj. assert (1 <= j) by now apply alloc_ge in Hj. rewrite B' by lia. unfold h'. rewrite limit_setB. now apply (hi_base _ _ H).
    + intros j Hj1 Hj2. unfold h' in Hj1. rewrite limit_setB in Hj1. destruct (hi_own _ _ H j Hj1 Hj2) as (A & B & C). unfold h' at 1. rewrite alloc_setB.
      assert (1 <= Ks h j) by now apply alloc_ge in A. replace (Ks h' j) with (Ks h j) by (symmetry; apply Ks_setB). rewrite B' by lia. easy.
    + intros j Hj. unfold h' in Hj. rewrite alloc_setB in Hj. destruct (hi_reach _ _ H j Hj) as [v V]. exists v. now rewrite Wk.
  - intros v. unfold obs. rewrite Wk. destruct (walk h v) as [q|] eqn:E; [|easy]. rewrite B'; [easy|]. pose proof (walk_alloc _ _ H _ _ E) as A. apply alloc_ge in A. lia.
Qed.

(** ** Reading *)
Lemma th_at_ok h fl p l : HI h fl -> alloc h fl p -> 0 <= l <= 256 ->
  th_at h p l = Some (match step h p l with Some q => q | None => 0 end).
Proof.
  intros H Hp Hl. pose proof (hi_fl _ _ H) as F. pose proof (alloc_inb _ _ _ F Hp) as Ip. pose proof (alloc_ge _ _ _ Hp) as P1. unfold th_at.
  unfold inb in Ip. rewrite (proj2 (Z.leb_le 1 p)), (proj2 (Z.ltb_lt p (limit h))), (proj2 (Z.leb_le l null_value)) by (unfold null_value; lia). cbn [andb].
  rewrite g_base_ok by (unfold inb; lia). unfold step. rewrite (proj2 (Z.leb_le 0 l)), (proj2 (Z.leb_le l 256)) by lia. cbn [andb].
  destruct (Z.leb_spec 1 (Bs h p)) as [Hb|Hb]; cbn [andb]; [|easy]. cbn zeta.
  destruct (Z.ltb_spec (Bs h p + l) (limit h)).
  - rewrite g_check_ok by (unfold inb; lia). now destruct (Z.eqb_spec (Ks h (Bs h p + l)) p).
  - rewrite Ks_out by (unfold inb; lia). now destruct (Z.eqb_spec 0 p).
Qed.
Lemma has_null_ok h fl p : HI h fl -> alloc h fl p ->
  has_null h p = Some (match step h p 256 with Some _ => true | None => false end).
Proof.
  intros H Hp. pose proof (hi_fl _ _ H) as F. pose proof (alloc_inb _ _ _ F Hp) as Ip. pose proof (alloc_ge _ _ _ Hp) as P1. unfold has_null.
  unfold inb in Ip. rewrite (proj2 (Z.leb_le 1 p)), (proj2 (Z.ltb_lt p (limit h))) by lia. cbn [andb].
  rewrite g_base_ok by (unfold inb; lia). rewrite (proj2 (Z.ltb_lt _ _) (hi_base _ _ H p Hp)). unfold step.
  change ((0 <=? 256) && (256 <=? 256)) with true. cbn [andb]. unfold null_value.
  destruct (Z.leb_spec 1 (Bs h p)) as [Hb|Hb]; cbn [andb]; [|easy].
  destruct (Z.ltb_spec (Bs h p + 256) (limit h)).
  - rewrite g_check_ok by (unfold inb; lia). now destruct (Z.eqb_spec (Ks h (Bs h p + 256)) p).
  - rewrite Ks_out by (unfold inb; lia). now destruct (Z.eqb_spec 0 p); [lia|].
Qed.

Lemma any_check_ok h fl parent skip n : HI h fl -> forall i, 0 <= i -> i + Z.of_nat n <= limit h ->
  exists r, any_check n h parent i skip = Some r /\
    (r = true <-> exists j, i <= j < i + Z.of_nat n /\ Ks h j = parent /\ j <> skip).
Proof.
  intros H. pose proof (hi_fl _ _ H) as F. pose proof (fl_lim _ _ F) as Lm. induction n as [|n IH]; intros i H0 Hl; cbn [any_check].
  - exists false. split; [easy|]. split; [easy|]. intros (j & X & _). lia.
  - rewrite g_check_ok by (unfold inb; lia).
    assert (KL : Ks h i < limit h).
    { destruct (Z_le_gt_dec (Ks h i) 0); [lia|]. destruct (ks_alloc h fl i H) as [A B]; [lia|]. destruct (hi_own _ _ H i A B) as (C & _).
      apply alloc_inb in C; [unfold inb in C; lia|easy]. }
    rewrite (proj2 (Z.ltb_lt _ _) KL).
    destruct (Z.eqb_spec (Ks h i) parent) as [e|e], (Z.eqb_spec i skip) as [e'|e']; cbn [andb negb].
    2: { exists true. split; [easy|]. split; [|easy]. intros _. exists i. split; [lia|easy]. }
    all: destruct (IH (i + 1)) as (r & E & R); [lia|lia|]; rewrite E; exists r; (split; [easy|]); rewrite R;
         split; intros (j & J1 & J2 & J3); exists j; (split; [|easy]); (destruct (Z.eq_dec j i) as [-> |]; [try easy; try lia|lia]).
Qed.

Lemma has_child_ok h fl p : HI h fl -> alloc h fl p ->
  exists r, has_child h p = Some r /\ (r = true <-> exists l q, 0 <= l <= 255 /\ step h p l = Some q).
Proof.
  intros H Hp. pose proof (hi_fl _ _ H) as F. pose proof (alloc_inb _ _ _ F Hp) as Ip. pose proof (alloc_ge _ _ _ Hp) as P1. unfold has_child.
  unfold inb in Ip. rewrite (proj2 (Z.leb_le 1 p)), (proj2 (Z.ltb_lt p (limit h))) by lia. cbn [andb].
  rewrite g_base_ok by (unfold inb; lia). pose proof (hi_base _ _ H p Hp) as Hbl. rewrite (proj2 (Z.ltb_lt _ _) Hbl).
  destruct (Z.leb_spec 1 (Bs h p)) as [Hb|Hb]; cbn zeta.
  - unfold null_value. set (lst := Z.min _ _). destruct (any_check_ok h fl p 0 (Z.to_nat (lst - Bs h p)) H (Bs h p)) as (r & E & R); [lia|unfold lst; lia|].
    exists r. split; [easy|]. rewrite R. split.
    + intros (j & J1 & J2 & J3). exists (j - Bs h p), j. assert (j < Bs h p + 256) by (unfold lst in *; lia). split; [lia|]. apply step_some. repeat split; try lia.
    + intros (l & q & L1 & S). apply step_some in S as (S1 & S2 & -> & S4). exists (Bs h p + l). split; [|split; [easy|lia]].
      assert (Bs h p + l < limit h). { destruct (Z_lt_dec (Bs h p + l) (limit h)); [easy|]. rewrite Ks_out in S4 by (unfold inb; lia). lia. }
      unfold lst. lia.
  - exists false. split; [easy|]. split; [easy|]. intros (l & q & _ & S). apply step_some in S. lia.
Qed.
Lemma has_sibling_ok h fl w c p i : HI h fl -> walk h w = Some p -> step h p c = Some i ->
  exists r, has_sibling h i = Some r /\ (r = true <-> exists l q, 0 <= l <= 255 /\ l <> c /\ step h p l = Some q).
Proof.
  intros H W S. pose proof (hi_fl _ _ H) as F. pose proof (walk_alloc _ _ H _ _ W) as Hp. pose proof (alloc_inb _ _ _ F Hp) as Ip. pose proof (alloc_ge _ _ _ Hp) as P1.
  destruct (step_alloc h fl p c i H Hp S) as [Hi I2]. apply (alloc_inb _ _ _ F) in Hi as Ii. apply step_some in S as (S1 & S2 & Si & S4).
  unfold has_sibling. unfold inb in Ip, Ii. rewrite (proj2 (Z.leb_le 0 i)), (proj2 (Z.ltb_lt i (limit h))) by lia. cbn [andb].
  destruct (Z.leb_spec i 1); [lia|]. rewrite g_check_ok by (unfold inb; lia). rewrite S4.
  rewrite (proj2 (Z.leb_le 1 p)), (proj2 (Z.ltb_lt p (limit h))) by lia. cbn [andb]. rewrite g_base_ok by (unfold inb; lia).
  pose proof (hi_base _ _ H p Hp) as Hbl. rewrite (proj2 (Z.leb_le _ _) S2), (proj2 (Z.ltb_lt _ _) Hbl). cbn [andb]. cbn zeta.
  unfold null_value. set (lst := Z.min _ _). destruct (any_check_ok h fl p i (Z.to_nat (lst - Bs h p)) H (Bs h p)) as (r & E & R); [lia|unfold lst; lia|].
  exists r. split; [easy|]. rewrite R. split.
  - intros (j & J1 & J2 & J3). exists (j - Bs h p), j. assert (j < Bs h p + 256) by (unfold lst in *; lia). split; [lia|]. split; [lia|]. apply step_some. repeat split; try lia.
  - intros (l & q & L1 & L2 & S). apply step_some in S as (T1 & T2 & -> & T4). exists (Bs h p + l). split; [|split; [easy|lia]].
    assert (Bs h p + l < limit h). { destruct (Z_lt_dec (Bs h p + l) (limit h)); [easy|]. rewrite Ks_out in T4 by (unfold inb; lia). lia. }
    unfold lst. lia.
Qed.
Lemma is_tail_ok h fl p : HI h fl -> alloc h fl p -> p <> 1 ->
  is_tail h p = Some ((Bs h p <=? 0) || match step h p 256 with Some _ => true | None => false end).
Proof.
  intros H Hp N. pose proof (hi_fl _ _ H) as F. pose proof (alloc_inb _ _ _ F Hp) as Ip. pose proof (alloc_ge _ _ _ Hp) as P1. unfold is_tail.
  unfold inb in Ip. rewrite (proj2 (Z.leb_le 1 p)), (proj2 (Z.ltb_lt p (limit h))) by lia. cbn [andb].
  rewrite g_base_ok by (unfold inb; lia). destruct (Z.eqb_spec p 1); [easy|]. cbn [negb]. rewrite andb_true_r.
  destruct (Z.leb_spec (Bs h p) 0) as [|Hb]; cbn [orb]; [easy|]. rewrite (proj2 (Z.leb_le 1 (Bs h p))) by lia. cbn [andb]. unfold step, null_value.
  rewrite (proj2 (Z.leb_le 1 (Bs h p))) by lia. change ((0 <=? 256) && (256 <=? 256)) with true. cbn [andb].
  destruct (Z.ltb_spec (Bs h p + 256) (limit h)).
  - rewrite g_check_ok by (unfold inb; lia). now destruct (Z.eqb_spec (Ks h (Bs h p + 256)) p).
  - rewrite Ks_out by (unfold inb; lia). now destruct (Z.eqb_spec 0 p); [lia|].
Qed.

Lemma lookup_ok h fl key : HI h fl -> Forall (fun l => 0 <= l <= 256) key -> forall w p, walk h w = Some p ->
  exists q u rest, lookup h p key = Some (q, rest) /\ key = u ++ rest /\ walk h (w ++ u) = Some q /\
    (forall c r, rest = c :: r -> step h q c = None).
Proof.
  intros H. induction key as [|c key IH]; intros Fo w p W; cbn [lookup].
  - exists p, [], []. rewrite (app_nil_r w). split; [easy|]. split; [easy|]. split; [easy|]. intros c r X. discriminate X.
  - inversion Fo as [|? ? Fc Fk]; subst. pose proof (walk_alloc _ _ H _ _ W) as Hp. rewrite (th_at_ok h fl) by easy.
    destruct (step h p c) as [q|] eqn:S.
    + destruct (step_alloc h fl p c q H Hp S) as [Aq Q2]. destruct (Z.eqb_spec q 0); [lia|].
      destruct (IH Fk (w ++ [c]) q) as (q' & u & rest & E & -> & W' & N); [rewrite walk_snoc, W; easy|].
      exists q', (c :: u), rest. split; [easy|]. split; [easy|]. split; [now rewrite <- app_assoc in W'|easy].
    + change (0 =? 0) with true. exists p, [], (c :: key). rewrite (app_nil_r w). split; [easy|]. split; [easy|]. split; [easy|]. intros ? ? X. injection X as <- <-. easy.
Qed.

(** lookup is determined by the longest existing prefix *)
Lemma lookup_walk h fl key : HI h fl -> Forall (fun l => 0 <= l <= 256) key ->
  exists q rest, lookup h 1 key = Some (q, rest) /\ (rest = [] <-> walk h key <> None) /\ (rest = [] -> walk h key = Some q).
Proof.
  intros H Fo. destruct (lookup_ok h fl key H Fo [] 1 eq_refl) as (q & u & rest & E & -> & W & N). cbn [app] in W.
  exists q, rest. split; [easy|]. destruct rest as [|c r].
  - rewrite app_nil_r. split; [|easy]. split; [congruence|easy].
  - split; [|easy]. split; [easy|]. intros X. exfalso. apply X. unfold walk in *. rewrite walk_from_app, W. cbn. now rewrite (N c r).
Qed.

(** Paths are shorter than the heap *)
Lemma walk_prefix h u v i : walk h (u ++ v) = Some i -> exists j, walk h u = Some j.
Proof. unfold walk. rewrite walk_from_app. destruct (walk_from h 1 u); [eauto|easy]. Qed.
Lemma walk_short h fl w i : HI h fl -> walk h w = Some i -> Z.of_nat (length w) < limit h.
Proof.
  intros H W. pose proof (hi_fl _ _ H) as F. pose proof (fl_lim _ _ F) as Lm.
  set (node := fun n => match walk h (firstn n w) with Some j => j | None => 0 end).
  assert (Nd : forall n, (n <= length w)%nat -> walk h (firstn n w) = Some (node n)).
  { intros n Hn. unfold node. destruct (walk_prefix h (firstn n w) (skipn n w) i) as [j J]; [now rewrite firstn_skipn|]. now rewrite J. }
  assert (ND : NoDup (map node (seq 0 (S (length w))))).
  { apply NoDup_nth_error. intros a b Ha E. rewrite map_length, seq_length in Ha.
    assert (Hb : (b < S (length w))%nat).
    { destruct (le_lt_dec (S (length w)) b) as [X|X]; [|easy]. rewrite (proj2 (nth_error_None (map node (seq 0 (S (length w)))) b)) in E by (rewrite map_length, seq_length; easy).
      apply nth_error_None in E. rewrite map_length, seq_length in E. lia. }
    assert (G : forall n, (n < S (length w))%nat -> nth_error (map node (seq 0 (S (length w)))) n = Some (node n)).
    { intros n Hn. rewrite nth_error_map, (nth_error_nth' _ 0%nat) by (now rewrite seq_length). rewrite seq_nth by easy. easy. }
    rewrite !G in E by easy. injection E as E. assert (X : firstn a w = firstn b w).
    { eapply walk_inj; [exact H|apply Nd; lia|rewrite E; apply Nd; lia]. }
    apply (f_equal (@length Z)) in X. rewrite !firstn_length in X. lia. }
  assert (I : incl (map node (seq 0 (S (length w)))) (map Z.of_nat (seq 0 (Z.to_nat (limit h))))).
  { intros x Hx. apply in_map_iff in Hx as (n & <- & Hn). apply in_seq in Hn. apply in_map_iff. exists (Z.to_nat (node n)).
    assert (A := walk_alloc _ _ H _ _ (Nd n ltac:(lia))). apply (alloc_inb _ _ _ F) in A. unfold inb in A. split; [lia|]. apply in_seq. lia. }
  apply (NoDup_incl_length ND) in I. rewrite !map_length, !seq_length in I. lia.
Qed.
Lemma limit_length h : limit h = Z.of_nat (length h). Proof. easy. Qed.

(** The empty heap *)
Lemma clear_HI : HI th_clear [].
Proof.
  constructor; try easy.
  - constructor; try easy. constructor.
  - intros i [-> |[A _]]; [easy|]. unfold limit, th_clear in A. cbn in A. lia.
  - intros i A. unfold limit, th_clear in A. cbn in A. lia.
  - intros i [-> |[A _]]; [now exists []|]. unfold limit, th_clear in A. cbn in A. lia.
Qed.
Lemma clear_obs u : obs th_clear u = match u with [] => Some 0 | _ => None end.
Proof. destruct u as [|l u]; [easy|]. unfold obs, walk. cbn [walk_from]. unfold step. cbn. now rewrite andb_false_r. Qed.
