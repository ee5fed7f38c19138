(** [add] and [th_free] seen through the words that reach the nodes. *)
From Coq Require Import ZArith List Bool Lia Sorting.Sorted.
From Verif Require Import M_trie L_trie L_trie2.
Import ListNotations.
Open Scope Z_scope.
Local Arguments Z.opp : simpl never.
Local Arguments Z.add : simpl never.
Local Arguments Z.sub : simpl never.

Lemma hd_le_last l : StronglySorted Z.lt l -> l <> [] -> hd 0 l <= last l 0.
Proof. intros S N. apply sorted_hd; [easy|now apply last_in]. Qed.

Lemma add_ok h fl p ls : HI h fl -> alloc h fl p -> Live h p ->
  StronglySorted Z.lt ls -> ls <> [] -> (forall l, In l ls -> 0 <= l <= 256) ->
  (forall l, In l ls -> step h p l = None) ->
  exists h' fl' b, add h p ls = Some (h', b) /\ Added h fl p ls h' fl' b.
Proof.
  intros H Hp Lv So Ne Hl Hno. pose proof (hi_fl _ _ H) as F. pose proof (fl_lim _ _ F) as Lm.
  pose proof (hi_base _ _ H p Hp) as Hbl. pose proof (alloc_inb _ _ _ F Hp) as Ip. pose proof (alloc_ge _ _ _ Hp) as P1.
  assert (Hlast : 0 <= last ls 0 <= 256) by (apply Hl; now apply last_in).
  assert (Hhd : 0 <= hd 0 ls <= 256) by (destruct ls; [easy|apply Hl; now left]).
  pose proof (hd_le_last _ So Ne) as Hhl.
  assert (G : exists h1 fl1 b, (if Bs h p <=? 0 then
       do (b, before) <- locate h ls; do h1 <- allocate h b ls before; Some (h1, b)
     else do ok <- is_free_for h p (Bs h p) ls;
       if ok : bool then do h1 <- allocate h (Bs h p) ls 0; Some (h1, Bs h p) else relocate h p (Bs h p) ls) = Some (h1, b) /\
     Prep h fl p ls h1 fl1 b).
  { destruct (Z.leb_spec (Bs h p) 0) as [Hb|Hb].
    - destruct (locate_ok h fl ls F (hi_pos _ _ H) So Ne) as (b & before & E & B1 & B2 & Pl & Bf & Bl); [intros; now apply Hl|]. rewrite E.
      destruct (alloc_inplace h fl p ls b before) as (h1 & fl1 & E1 & Pr); auto; [lia|lia|].
      rewrite E1. exists h1, fl1, b. split; easy.
    - unfold is_free_for. unfold inb in Ip. rewrite (proj2 (Z.leb_le 1 p)), (proj2 (Z.leb_le 1 (Bs h p))), (proj2 (Z.ltb_lt p (limit h))), len_nonempty by (easy || lia). cbn [andb].
      destruct (is_free_for_loop_ok h fl p (Bs h p) ls F (hi_pos _ _ H)) as (ok & E & Hok); [lia|easy|intros; now apply Hl|]. rewrite E. destruct ok.
      + specialize (Hok eq_refl). destruct (alloc_inplace h fl p ls (Bs h p) 0) as (h1 & fl1 & E1 & Pr); auto; try lia.
        { intros l Hl'. destruct (Hok l Hl') as (X & [Y|[Y|Y]]); auto. destruct (step_none _ _ _ (Hl l Hl') (Hno l Hl')); [lia|easy]. }
        rewrite E1. exists h1, fl1, (Bs h p). split; easy.
      + destruct (relocate_ok h fl p ls) as (h1 & fl1 & b & E1 & Pr); auto; [lia|]. exists h1, fl1, b. split; easy. }
  destruct G as (h1 & fl1 & b & E1 & [Pf Pl Pb Pn Po Pba Pc Pcov Pfr Pi Pfree P0]).
  unfold add. rewrite (proj2 (Z.ltb_lt p (limit h))), len_nonempty, sorted_labels_ok by (easy || unfold inb in Ip; lia). cbn [andb].
  rewrite g_base_ok by easy. rewrite (proj2 (Z.ltb_lt (Bs h p) (limit h))) by easy. rewrite E1. cbn zeta.
  assert (Inl : forall l, In l ls -> 2 <= b + l < limit h1).
  { intros l Hl'. destruct (Pn l Hl') as (A & B & _). apply alloc_inb in A; [unfold inb in A; lia|easy]. }
  assert (Hll : b + last ls 0 < limit h1) by (apply Inl; now apply last_in).
  rewrite (proj2 (Z.ltb_lt (b + last ls 0) (limit h1))) by easy.
  assert (Ip1 : inb h1 p) by (unfold inb in *; lia). rewrite s_base_ok by easy. set (h2 := setB h1 p b).
  destruct (set_checks_ok b p ls h2) as (h3 & E3 & L3 & B3 & K3).
  { intros l Hl'. unfold h2. apply inb_setB. apply Inl in Hl'. unfold inb. lia. }
  rewrite E3. assert (L3' : limit h3 = limit h1) by (rewrite L3; apply limit_setB).
  assert (B3' : forall j, Bs h3 j = if j =? p then b else Bs h1 j) by (intros; rewrite B3; unfold h2; now apply Bs_setB).
  assert (K3' : forall j, Ks h3 j = if mem (j - b) ls then p else Ks h1 j) by (intros; rewrite K3; unfold h2; now rewrite Ks_setB).
  rewrite (proj2 (Z.leb_le 1 b)), (proj2 (Z.ltb_lt b (limit h3))) by lia. cbn [andb].
  pose proof (rho_p h fl p b H Hp) as Rp.
  assert (Al : forall i, alloc h3 fl1 i <-> alloc h1 fl1 i) by (intros; unfold alloc; now rewrite L3').
  assert (Nm : forall j, (exists i, alloc h fl i /\ j = rho h p b i) -> ~ In (j - b) ls).
  { intros j (i & Hi & ->) X. apply (Pfr i (rho h p b i - b) Hi X). lia. }
  exists h3, fl1, b. split; [easy|]. constructor.
  - destruct Pf as [Fa Fb Fc Fd]. constructor; [lia|easy|now rewrite L3'|]. apply (seg_ext (Ks h1)); [|easy].
    intros j Hj. rewrite K3'. destruct (mem_spec (j - b) ls) as [M|M]; [|easy]. exfalso. destruct (Pn _ M) as (A & B & _).
    replace (b + (j - b)) with j in A, B by lia. destruct Hj as [-> |Hj]; [lia|]. destruct A as [-> |[_ A]]; [lia|easy].
  - lia.
  - lia.
  - intros l Hl'. destruct (Pn l Hl') as (A & B & C). split; [now apply Al|]. split; [easy|]. rewrite B3', K3'.
    replace (b + l - b) with l by lia. rewrite (proj2 (mem_true l ls) Hl'). split; [|easy].
    destruct (Z.eqb_spec (b + l) p) as [e|]; [|easy]. exfalso. apply (Pfr p l Hp Hl'). lia.
  - intros i Hi. now apply Al, Po.
  - intros i Hi Hne. rewrite B3'. destruct (Z.eqb_spec (rho h p b i) p) as [e|]; [|now apply Pba].
    exfalso. apply Hne. apply (Pi i p Hi Hp). lia.
  - rewrite B3'. now rewrite Z.eqb_refl.
  - intros i Hi. rewrite K3'. destruct (mem_spec (rho h p b i - b) ls) as [M|_]; [|now apply Pc]. exfalso. apply (Nm (rho h p b i)); eauto.
  - intros j Hj. apply Pcov. now apply Al.
  - easy.
  - easy.
  - intros i Hi. rewrite B3'. destruct (Z.eqb_spec i p) as [-> |]; [|now apply Pfree]. exfalso.
    apply (alloc_not_free h1 fl1 p Pf); [|easy]. rewrite <- Rp. now apply Po.
  - rewrite B3'. destruct (Z.eqb_spec 0 p); [lia|easy].
Qed.

(** ** What a word observes: [None] absent, [Some 1] an inner node, [Some (- v)] a leaf with value v *)
Definition obs (h : heap) (u : list Z) : option Z :=
  match walk h u with Some i => Some (Z.min 1 (Bs h i)) | None => None end.

Section Add.
  Context {h : heap} {fl : list Z} {p : Z} {ls : list Z} {h' : heap} {fl' : list Z} {b : Z}.
  Hypothesis H : HI h fl.
  Hypothesis Hp : alloc h fl p.
  Hypothesis Hl : forall l, In l ls -> 0 <= l <= 256.
  Hypothesis Hno : forall l, In l ls -> step h p l = None.
  Hypothesis Ad : Added h fl p ls h' fl' b.
  Let F := hi_fl _ _ H.

  (** A step from an old node *)
  Lemma add_step i : alloc h fl i -> forall l, 0 <= l <= 256 ->
    step h' (rho h p b i) l = if (i =? p) && mem l ls then Some (b + l) else option_map (rho h p b) (step h i l).
  Proof.
    intros Hi l Hl0. pose proof (rho_p h fl p b H Hp) as Rp.
    assert (Fwd : forall q, step h i l = Some q -> step h' (rho h p b i) l = Some (rho h p b q)).
    { intros q S. apply step_some in S as (S1 & S2 & -> & S4). destruct (step_alloc h fl i l (Bs h i + l) H Hi) as [Aq _]; [now apply step_some|].
      assert (Kq := ad_check _ _ _ _ _ _ _ Ad _ Aq). rewrite S4 in Kq. apply step_some. split; [easy|].
      destruct (Z.eq_dec i p) as [-> |Hne].
      - rewrite Rp in *. rewrite (ad_basep _ _ _ _ _ _ _ Ad). split; [apply (ad_b _ _ _ _ _ _ _ Ad)|]. split; [|easy].
        unfold rho. rewrite S4, Z.eqb_refl. lia.
      - rewrite (ad_base _ _ _ _ _ _ _ Ad i Hi Hne). split; [easy|]. split; [|easy].
        unfold rho. rewrite S4. destruct (Z.eqb_spec i p); [easy|lia]. }
    destruct (Z.eqb_spec i p) as [-> |Hne]; cbn [andb].
    - destruct (mem_spec l ls) as [M|M].
      + rewrite Rp. apply step_some. rewrite (ad_basep _ _ _ _ _ _ _ Ad). destruct (ad_new _ _ _ _ _ _ _ Ad l M) as (_ & _ & _ & K).
        repeat split; try lia; try easy. apply (ad_b _ _ _ _ _ _ _ Ad).
      + destruct (step h p l) as [q|] eqn:S; [now apply Fwd|]. cbn. destruct (step h' (rho h p b p) l) as [q'|] eqn:S'; [|easy]. exfalso.
        rewrite Rp in S'. apply step_some in S' as (_ & S2 & -> & S4). rewrite (ad_basep _ _ _ _ _ _ _ Ad) in *.
        destruct (ad_cover _ _ _ _ _ _ _ Ad (b + l)) as [(i & Hi' & e)|(l' & Hl' & e)]; [| |apply M; now replace l with l' by lia].
        { destruct (Z.eq_dec (b + l) 1) as [-> |]; [now left|]. right.
          assert (b + l < limit h'). { destruct (Z_lt_dec (b + l) (limit h')); [easy|]. rewrite Ks_out in S4 by (unfold inb; lia). apply alloc_ge in Hp. lia. }
          split; [lia|]. intros X. apply (fl_ks _ _ _ (ad_fl _ _ _ _ _ _ _ Ad)) in X. apply alloc_ge in Hp. lia. }
        assert (Kc := ad_check _ _ _ _ _ _ _ Ad i Hi'). rewrite <- e, S4 in Kc.
        destruct (Z.eq_dec i 1) as [-> |Hi1].
        { rewrite (hi_root _ _ H) in Kc. unfold rho in Kc. pose proof (fl_k0 _ _ F). apply alloc_ge in Hp. destruct (Z.eqb_spec (Ks h 0) p); lia. }
        destruct Hi' as [|Hi']; [easy|]. destruct (hi_own _ _ H i) as (Ak & Bk & Rk); [easy|easy|].
        assert (Ks h i = p) by (apply (ad_inj _ _ _ _ _ _ _ Ad _ _ Ak Hp); congruence). unfold rho in e. rewrite H0, Z.eqb_refl in e. rewrite H0 in *.
        assert (step h p l = Some i); [|congruence]. apply step_some. repeat split; try lia.
    - destruct (step h i l) as [q|] eqn:S; [now apply Fwd|]. cbn. destruct (step h' (rho h p b i) l) as [q'|] eqn:S'; [|easy]. exfalso.
      apply step_some in S' as (_ & S2 & -> & S4). rewrite (ad_base _ _ _ _ _ _ _ Ad i Hi Hne) in *.
      pose proof (ad_old _ _ _ _ _ _ _ Ad i Hi) as Ai. apply alloc_ge in Ai as Ai'.
      destruct (ad_cover _ _ _ _ _ _ _ Ad (Bs h i + l)) as [(j & Hj & e)|(l' & Hl' & e)].
      { destruct (Z.eq_dec (Bs h i + l) 1) as [-> |]; [now left|]. right.
        assert (Bs h i + l < limit h'). { destruct (Z_lt_dec (Bs h i + l) (limit h')); [easy|]. rewrite Ks_out in S4 by (unfold inb; lia). lia. }
        split; [lia|]. intros X. apply (fl_ks _ _ _ (ad_fl _ _ _ _ _ _ _ Ad)) in X. lia. }
      + assert (Kc := ad_check _ _ _ _ _ _ _ Ad j Hj). rewrite <- e, S4 in Kc.
        destruct (Z.eq_dec j 1) as [-> |Hj1].
        { rewrite (hi_root _ _ H) in Kc. unfold rho in Kc at 2. pose proof (fl_k0 _ _ F). apply alloc_ge in Hp. destruct (Z.eqb_spec (Ks h 0) p); lia. }
        destruct Hj as [|Hj]; [easy|]. destruct (hi_own _ _ H j) as (Ak & Bk & Rk); [easy|easy|].
        assert (i = Ks h j) by (now apply (ad_inj _ _ _ _ _ _ _ Ad)). unfold rho in e. destruct (Z.eqb_spec (Ks h j) p); [congruence|].
        assert (step h i l = Some j); [|congruence]. apply step_some. repeat split; lia.
      + destruct (ad_new _ _ _ _ _ _ _ Ad l' Hl') as (_ & _ & _ & K). rewrite <- e, S4 in K. apply Hne. apply (ad_inj _ _ _ _ _ _ _ Ad i p Hi Hp). congruence.
  Qed.

  Lemma add_new_step l m : In l ls -> step h' (b + l) m = None.
  Proof.
    intros Hl'. destruct (ad_new _ _ _ _ _ _ _ Ad l Hl') as (_ & _ & B & _). destruct (step h' (b + l) m) eqn:S; [|easy].
    apply step_some in S as (_ & S & _). lia.
  Qed.

  (** Words: [w] reaches the parent *)
  Context {w : list Z}.
  Hypothesis W : walk h w = Some p.

  Lemma add_walk u : forall i, walk h u = Some i -> walk h' u = Some (rho h p b i).
  Proof.
    induction u as [|l u IH] using rev_ind; intros i Wu; [injection Wu as <-; cbn; now rewrite (rho_1 h fl)|].
    rewrite walk_snoc in Wu |- *. destruct (walk h u) as [q|] eqn:E; [|easy]. rewrite (IH q eq_refl).
    assert (Aq := walk_alloc h fl H _ _ E). rewrite add_step; [|easy|apply step_some in Wu; tauto].
    destruct (Z.eqb_spec q p) as [-> |]; cbn [andb]; [|now rewrite Wu]. destruct (mem_spec l ls) as [M|]; [|now rewrite Wu].
    rewrite Hno in Wu; easy.
  Qed.
  Lemma add_walk_parent : walk h' w = Some p.
  Proof. rewrite (add_walk w p W). now rewrite (rho_p h fl). Qed.
  Lemma add_walk_new l : In l ls -> walk h' (w ++ [l]) = Some (b + l).
  Proof.
    intros Hl'. rewrite walk_snoc, add_walk_parent. rewrite <- (rho_p h fl p b H Hp), add_step by (easy || now apply Hl).
    now rewrite Z.eqb_refl, (proj2 (mem_true l ls) Hl').
  Qed.
  Lemma add_walk_none u : walk h u = None -> (forall l, In l ls -> u <> w ++ [l]) -> walk h' u = None.
  Proof.
    induction u as [|l u IH] using rev_ind; intros Wu Hu; [easy|].
    rewrite walk_snoc in Wu |- *. destruct (walk h u) as [q|] eqn:E.
    - assert (Aq := walk_alloc h fl H _ _ E). rewrite (add_walk u q E).
      destruct (step h' (rho h p b q) l) as [x|] eqn:S; [|easy].
      assert (0 <= l <= 256) by (apply step_some in S; tauto). rewrite add_step in S by easy. rewrite Wu in S. cbn in S.
      destruct (Z.eqb_spec q p) as [-> |]; cbn [andb] in S; [|easy]. destruct (mem_spec l ls) as [M|]; [|easy].
      exfalso. apply (Hu l M). f_equal. eapply walk_inj; eauto.
    - destruct (walk h' u) as [x|] eqn:X; [|easy]. destruct (in_dec (list_eq_dec Z.eq_dec) u (map (fun l => w ++ [l]) ls)) as [I|I].
      + apply in_map_iff in I as (m & <- & Hm). rewrite add_walk_new in X by easy. injection X as <-. now apply add_new_step.
      + exfalso. assert (None = Some x); [|easy]. rewrite <- IH; [easy|easy|]. intros m Hm ->. apply I. apply in_map_iff. eauto.
  Qed.

  Lemma add_HI : HI h' fl'.
  Proof.
    constructor.
    - apply (ad_fl _ _ _ _ _ _ _ Ad).
    - assert (A1 : alloc h fl 1) by now left. assert (K := ad_check _ _ _ _ _ _ _ Ad 1 A1). rewrite (rho_1 h fl p b H Hp) in K. rewrite K, (hi_root _ _ H).
      unfold rho. pose proof (fl_k0 _ _ F). apply alloc_ge in Hp. destruct (Z.eqb_spec (Ks h 0) p); [lia|easy].
    - apply (ad_free _ _ _ _ _ _ _ Ad).
    - intros j Hj. pose proof (ad_lim _ _ _ _ _ _ _ Ad) as Lm. pose proof (ad_b _ _ _ _ _ _ _ Ad) as Bb. destruct (ad_cover _ _ _ _ _ _ _ Ad j Hj) as [(i & Hi & ->)|(l & Hl' & ->)].
      + destruct (Z.eq_dec i p) as [-> |Hne].
        * rewrite (rho_p h fl) by easy. rewrite (ad_basep _ _ _ _ _ _ _ Ad). lia.
        * rewrite (ad_base _ _ _ _ _ _ _ Ad) by easy. apply (hi_base _ _ H) in Hi. lia.
      + destruct (ad_new _ _ _ _ _ _ _ Ad l Hl') as (_ & _ & B & _). rewrite B. lia.
    - intros j Hj1 Hj2. pose proof (ad_b _ _ _ _ _ _ _ Ad) as Bb. pose proof (rho_p h fl p b H Hp) as Rp.
      destruct (ad_cover _ _ _ _ _ _ _ Ad j) as [(i & Hi & ->)|(l & Hl' & ->)]; [now right| |].
      + rewrite (ad_check _ _ _ _ _ _ _ Ad) by easy. destruct (Z.eq_dec i 1) as [-> |Hi1]; [rewrite (rho_1 h fl) in Hj1 by easy; lia|].
        destruct Hi as [|Hi]; [easy|]. destruct (hi_own _ _ H i) as (Ak & Bk & Rk); [easy|easy|].
        split; [now apply (ad_old _ _ _ _ _ _ _ Ad)|]. destruct (Z.eq_dec (Ks h i) p) as [e|e].
        * rewrite e in *. rewrite Rp, (ad_basep _ _ _ _ _ _ _ Ad). unfold rho. rewrite e, Z.eqb_refl. lia.
        * rewrite (ad_base _ _ _ _ _ _ _ Ad) by easy. unfold rho. destruct (Z.eqb_spec (Ks h i) p); [easy|]. lia.
      + destruct (ad_new _ _ _ _ _ _ _ Ad l Hl') as (_ & _ & _ & K). rewrite K, (ad_basep _ _ _ _ _ _ _ Ad). specialize (Hl l Hl').
        split; [|lia]. rewrite <- Rp. now apply (ad_old _ _ _ _ _ _ _ Ad).
    - intros j Hj. destruct (ad_cover _ _ _ _ _ _ _ Ad j Hj) as [(i & Hi & ->)|(l & Hl' & ->)].
      + destruct (hi_reach _ _ H i Hi) as [u U]. exists u. now apply add_walk.
      + exists (w ++ [l]). now apply add_walk_new.
  Qed.

  Lemma add_obs u : obs h' u =
    if list_eq_dec Z.eq_dec u w then Some 1 else
    if in_dec (list_eq_dec Z.eq_dec) u (map (fun l => w ++ [l]) ls) then Some 0 else obs h u.
  Proof.
    unfold obs. pose proof (ad_b _ _ _ _ _ _ _ Ad) as Bb. destruct (list_eq_dec Z.eq_dec u w) as [-> |Hw].
    - rewrite add_walk_parent, (ad_basep _ _ _ _ _ _ _ Ad). f_equal. lia.
    - destruct (in_dec (list_eq_dec Z.eq_dec) u (map (fun l => w ++ [l]) ls)) as [I|I].
      + apply in_map_iff in I as (m & <- & Hm). rewrite add_walk_new by easy. destruct (ad_new _ _ _ _ _ _ _ Ad m Hm) as (_ & _ & B & _). now rewrite B.
      + destruct (walk h u) as [i|] eqn:E.
        * rewrite (add_walk u i E). rewrite (ad_base _ _ _ _ _ _ _ Ad); [easy|now apply (walk_alloc h fl H u)|]. intros ->. apply Hw. eapply walk_inj; eauto.
        * rewrite add_walk_none; [easy|easy|]. intros l Hl' ->. apply I. apply in_map_iff. eauto.
  Qed.
End Add.
