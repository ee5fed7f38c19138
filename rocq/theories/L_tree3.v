(** The arena invariant, and insert, erase, move and size against the forest. *)
From Coq Require Import List Arith Bool Lia Permutation Sorted.
From Verif Require Import M_tree L_tree L_tree2.
Import ListNotations.
Open Scope tree_scope.

Local Arguments Nat.ltb : simpl never.

Section Inv.
Context {V : Type}.
Notation forest := (forest V).
Notation arena := (arena V).
Implicit Types A B : arena.
Implicit Types F D : forest.

(** ** the free list *)
Fixpoint fseg A (prev : nat) (l : list nat) (nx : nat) : Prop :=
  match l with
  | [] => True
  | f :: l' => fprv A f = prev /\ fnxt A f = hd nx l' /\ fchd A f = 0 /\ fseg A f l' nx
  end.
Definition flist A fl := fnxt A 0 = hd 0 fl /\ fseg A 0 fl 0.

Lemma fseg_app A prev l1 l2 nx :
  fseg A prev (l1 ++ l2) nx <-> fseg A prev l1 (hd nx l2) /\ fseg A (last l1 prev) l2 nx.
Proof.
  revert prev. induction l1 as [|c l1 IH]; intros prev; [cbn; tauto|]. cbn [app fseg]. rewrite IH.
  rewrite last_cons. destruct l1; cbn; tauto.
Qed.

Lemma fseg_same A B prev l nx : fseg A prev l nx ->
  (forall c, In c l -> fprv B c = fprv A c /\ fnxt B c = fnxt A c /\ fchd B c = fchd A c) -> fseg B prev l nx.
Proof.
  revert prev. induction l as [|c l IH]; intros prev H Hs; [exact I|]. cbn [fseg] in *. destruct H as (P1 & P2 & P3 & P4).
  destruct (Hs c (or_introl eq_refl)) as (-> & -> & ->). repeat split; auto. apply IH; auto. intros d Hd. apply Hs. now right.
Qed.

Lemma fseg_change A B prev prev' l nx nx' : fseg A prev l nx -> NoDup l ->
  (forall c, In c l -> fchd B c = fchd A c) ->
  (forall c, In c l -> fprv B c = if c =? hd 0 l then prev' else fprv A c) ->
  (forall c, In c l -> fnxt B c = if c =? last l 0 then nx' else fnxt A c) ->
  fseg B prev' l nx'.
Proof.
  revert prev prev'. induction l as [|c l IH]; intros prev prev' H Hn H1 H2 H3; [exact I|].
  cbn [fseg] in *. destruct H as (P2 & P3 & P1 & P4). inversion Hn as [|? ? N1 N2]; subst.
  split; [rewrite H2; [cbn; now rewrite Nat.eqb_refl|now left]|].
  split; [|split; [rewrite H1; [assumption|now left]|]].
  - rewrite H3 by (now left). rewrite last_cons. destruct l as [|d l].
    + cbn. now rewrite Nat.eqb_refl.
    + destruct (Nat.eqb_spec c (last (d :: l) c)) as [E|E]; [|cbn; cbn in P3; exact P3].
      exfalso. apply N1. rewrite E. apply last_in. congruence.
  - apply (IH c c); auto.
    + intros d Hd. apply H1. now right.
    + intros d Hd. rewrite H2 by (now right). cbn [hd]. destruct (Nat.eqb_spec d c); [subst; contradiction|].
      destruct l as [|e l]; [destruct Hd|]. cbn [hd]. destruct (Nat.eqb_spec d e); [|reflexivity]. subst. cbn in P4. tauto.
    + intros d Hd. rewrite H3 by (now right). rewrite last_cons. destruct l as [|e l]; [destruct Hd|]. now rewrite !last_cons.
Qed.

Ltac fieldwise := intros; autorewrite with arena; eqs; repeat match goal with
  | |- context [?x =? ?y] => destruct (Nat.eqb_spec x y); try congruence; try tauto
  end; try reflexivity; try congruence; try tauto; try (exfalso; subst; tauto).

(** [n]: the index handed out *)
Lemma allocate_ok A v fl : 0 < length A -> flist A fl -> NoDup (0 :: fl) -> (forall f, In f fl -> f < length A) ->
  exists B, allocate A v = Some (B, hd (length A) fl) /\ flist B (tl fl) /\
    length B = (match fl with [] => S (length A) | _ => length A end) /\
    g_val B (hd (length A) fl) = Some v /\ fchd B (hd (length A) fl) = 0 /\
    (forall i, i < length A -> i <> hd (length A) fl -> g_val B i = g_val A i) /\
    (forall i, i < length A -> fchd B i = fchd A i /\ fpar B i = fpar A i) /\
    (forall i, i < length A -> ~ In i (0 :: fl) -> fprv B i = fprv A i /\ fnxt B i = fnxt A i).
Proof.
  intros H [L1 L2] Hn Hb. unfold allocate. rewrite (g_nxt_ok A 0) by lia. rewrite L1.
  destruct fl as [|f fl]; cbn [hd tl] in *.
  - cbn [Nat.eqb]. eexists. split; [reflexivity|].
    assert (E : forall i, i < length A -> nth_error (A ++ [Node 0 0 0 0 v]) i = nth_error A i)
      by (intros; now apply nth_error_app1).
    assert (En : nth_error (A ++ [Node 0 0 0 0 v]) (length A) = Some (Node 0 0 0 0 v)).
    { rewrite nth_error_app2 by lia. now rewrite Nat.sub_diag. }
    unfold flist, fnxt, fchd, fpar, fprv, g_val. rewrite En. rewrite E by lia. unfold fnxt in L1. split; [split; [assumption|exact I]|].
    split; [rewrite app_length; cbn; lia|]. split; [reflexivity|]. split; [reflexivity|].
    split; [intros i Hi _; now rewrite E|]. split; [intros i Hi; now rewrite E|]. intros i Hi _. now rewrite E.
  - pose proof Hn as Hn'. apply NoDup_cons_iff in Hn'. destruct Hn' as [N0 N1]. apply NoDup_cons_iff in N1. destruct N1 as [N2 N3].
    assert (f <> 0) by (intros ->; apply N0; now left). assert (f < length A) by (apply Hb; now left).
    cbn [fseg] in L2. destruct L2 as (P1 & P2 & P3 & P4).
    assert (Hh : hd 0 fl < length A). { destruct fl; [cbn; lia|]. apply Hb. cbn. auto. }
    eqs. rewrite (g_prv_ok A f), (g_nxt_ok A f) by lia. rewrite P1, P2. repeat rd1. 
    assert (Hf : hd 0 fl <> f). { destruct fl; [cbn; auto|]. intros E. apply N2. left. exact E. }
    eexists. split; [reflexivity|]. split.
    { split.
      - autorewrite with arena. cbn [Nat.eqb]. reflexivity.
      - apply (fseg_change A _ f 0 fl 0 0); auto.
        + fieldwise.
        + intros c Hc. fieldwise.
        + intros c Hc. assert (c <> 0) by (intros ->; apply N0; now right). autorewrite with arena. eqs.
          destruct (Nat.eqb_spec c (last fl 0)); [|reflexivity].
          clear - P4 e Hc Hn. revert P4. assert (fl <> []) by (destruct fl; [destruct Hc|congruence]).
          rewrite app_removelast_last with (d := 0) (l := fl) by auto. rewrite fseg_app. cbn [fseg hd]. rewrite <- e. tauto. }
    split; [now autorewrite with arena|]. split; [fieldwise|]. split; [fieldwise|].
    split; [fieldwise|]. split; [intros; split; fieldwise|].
    intros i Hi Hni. assert (i <> 0) by (intros ->; apply Hni; now left). assert (i <> f) by (intros ->; apply Hni; cbn; auto).
    assert (i <> hd 0 fl). { destruct fl; [cbn; auto|]. intros ->. apply Hni. cbn. auto. }
    split; fieldwise.
Qed.

Fixpoint ins_sorted (x : nat) (l : list nat) : list nat :=
  match l with [] => [x] | y :: l' => if y <? x then y :: ins_sorted x l' else x :: l end.

Lemma ins_sorted_split x l : StronglySorted lt l -> exists l1 l2, l = l1 ++ l2 /\ ins_sorted x l = l1 ++ x :: l2 /\
  Forall (fun y => y < x) l1 /\ Forall (fun y => x <= y) l2.
Proof.
  induction l as [|y l IH]; intros H; cbn.
  - exists [], []. auto.
  - inversion H; subst. destruct (Nat.ltb_spec y x).
    + destruct IH as (l1 & l2 & E1 & E2 & E3 & E4); auto. exists (y :: l1), l2. rewrite E2. subst. repeat split; auto.
    + exists [], (y :: l). repeat split; auto. constructor; auto. eapply Forall_impl; [|eassumption]. cbn. lia.
Qed.

Lemma ins_sorted_perm x l : Permutation (ins_sorted x l) (x :: l).
Proof. induction l as [|y l IH]; cbn; auto. destruct (y <? x); auto. rewrite IH. apply perm_swap. Qed.

Lemma ins_sorted_sorted x l : StronglySorted lt l -> ~ In x l -> StronglySorted lt (ins_sorted x l).
Proof.
  induction l as [|y l IH]; intros H Hx; cbn; [repeat constructor|]. inversion H; subst. cbn in Hx. destruct (Nat.ltb_spec y x).
  - constructor; [apply IH; tauto|]. rewrite Forall_forall in *. intros z Hz. apply (Permutation_in _ (ins_sorted_perm x l)) in Hz.
    destruct Hz as [<-|Hz]; auto.
  - constructor; [assumption|]. assert (x < y) by lia. constructor; [assumption|]. eapply Forall_impl; [|eassumption]. cbn. lia.
Qed.

Lemma sorted_nodup l : StronglySorted lt l -> NoDup l.
Proof.
  induction 1 as [|x l H IH F]; constructor; auto. intros C. rewrite Forall_forall in F. specialize (F _ C). lia.
Qed.

Lemma free_before_ok A idx l2 : forall l1 fuel before, fseg A before l1 (hd 0 l2) -> Forall (fun y => y < idx) l1 -> Forall (fun y => idx < y) l2 ->
  (forall f, In f (l1 ++ l2) -> f < length A /\ f <> 0) -> length l1 < fuel ->
  free_before fuel A before (hd (hd 0 l2) l1) idx = Some (last l1 before).
Proof.
  induction l1 as [|y l1 IH]; intros fuel before H F1 F2 Hb Hf; (destruct fuel as [|fuel]; [cbn in Hf; lia|]).
  - cbn [hd last free_before]. destruct l2 as [|z l2]; [reflexivity|]. cbn [hd]. inversion F2; subst.
    destruct (Nat.ltb_spec z idx); [lia|]. now rewrite andb_false_r.
  - cbn [fseg] in H. destruct H as (P1 & P2 & P3 & P4). inversion F1; subst. cbn [hd free_before].
    destruct (Hb y) as [Hy1 Hy2]; [now left|]. eqs. destruct (Nat.ltb_spec y idx); [|lia]. cbn [negb andb].
    rewrite (g_nxt_ok A y) by auto. rewrite P2. rewrite last_cons. apply IH; auto.
    + intros f Hf'. apply Hb. now right.
    + cbn in Hf. lia.
Qed.

Lemma free_ok A idx fl : flist A fl -> StronglySorted lt fl -> (forall f, In f fl -> f < length A /\ f <> 0) ->
  0 < idx < length A -> ~ In idx fl ->
  exists B, free A idx = Some B /\ flist B (ins_sorted idx fl) /\ length B = length A /\
    (forall i, g_val B i = g_val A i) /\ (forall i, i <> idx -> fchd B i = fchd A i) /\ 
    (forall i, ~ In i (0 :: idx :: fl) -> fpar B i = fpar A i /\ fprv B i = fprv A i /\ fnxt B i = fnxt A i).
Proof.
  intros [L1 L2] Hs Hb Hi Hni. destruct (ins_sorted_split idx fl Hs) as (l1 & l2 & E1 & E2 & F1 & F2).
  assert (F2' : Forall (fun y => idx < y) l2).
  { rewrite Forall_forall in *. intros y Hy. specialize (F2 y Hy). assert (y <> idx); [|lia].
    intros ->. apply Hni. rewrite E1. apply in_or_app. auto. }
  rewrite E2. subst fl. clear F2. pose proof (sorted_nodup _ Hs) as N. apply NoDup_app_iff in N. destruct N as (N1 & N2 & N3).
  pose proof L2 as L2'. apply fseg_app in L2. destruct L2 as [S1 S2].
  assert (H0 : 0 < length A) by lia.
  unfold free. destruct (Nat.ltb_spec idx (length A)); [|lia]. rewrite (g_nxt_ok A 0) by lia. rewrite L1.
  replace (hd 0 (l1 ++ l2)) with (hd (hd 0 l2) l1) by (now destruct l1).
  rewrite (free_before_ok A idx l2 l1); auto.
  2:{ assert (length l1 <= length A); [|lia].
      replace (length A) with (length (seq 0 (length A))) by apply seq_length.
      apply NoDup_incl_length; auto. intros f Hf. apply in_seq. specialize (Hb f (in_or_app _ _ _ (or_introl Hf))). lia. }
  set (z := last l1 0). assert (Hz : z = 0 /\ l1 = [] \/ In z l1 /\ z <> 0 /\ l1 <> []).
  { unfold z. destruct l1 as [|x l1]; [left; auto|]. right. assert (In (last (x :: l1) 0) (x :: l1)) by (apply last_in; congruence).
    split; auto. split; [|congruence]. apply Hb. apply in_or_app. auto. }
  assert (Hzl : z < length A). { destruct Hz as [[-> _]|[Hz _]]; [lia|]. apply Hb. apply in_or_app. auto. }
  assert (Hzn : fnxt A z = hd 0 l2).
  { destruct Hz as [[-> ->]|(Hz & Hz0 & Hne)]; [exact L1|]. revert S1.
    rewrite app_removelast_last with (d := 0) (l := l1) by auto. rewrite fseg_app. cbn [fseg hd]. fold z. tauto. }
  rewrite (g_nxt_ok A z) by lia. rewrite Hzn.
  assert (Ha : hd 0 l2 < length A). { destruct l2 as [|y l2]; [cbn; lia|]. apply Hb. apply in_or_app. right. now left. }
  assert (idx <> z). { intros E. destruct Hz as [[Hz _]|[Hz _]]; [lia|]. apply Hni. apply in_or_app. left. congruence. }
  assert (idx <> hd 0 l2). { destruct l2 as [|y l2]; [cbn; lia|]. cbn [hd]. intros ->. apply Hni. apply in_or_app. right. now left. }
  repeat rd1. eexists. split; [reflexivity|].
  assert (Y : hd 0 l2 = 0 /\ l2 = [] \/ In (hd 0 l2) l2 /\ hd 0 l2 <> 0).
  { destruct l2 as [|y l2]; [left; auto|]. right. split; [now left|]. apply Hb. apply in_or_app. right. now left. }
  split; [|split; [now autorewrite with arena|]; split; [fieldwise|]; split; [fieldwise|]].
  - split.
    + autorewrite with arena. destruct (Nat.eqb_spec 0 idx); [lia|]. destruct Hz as [[Hz El]|(Hz & Hz0 & Hne)].
      * rewrite Hz, El. reflexivity.
      * destruct (Nat.eqb_spec 0 z); [congruence|]. rewrite L1. destruct l1; [congruence|reflexivity].
    + rewrite fseg_app. fold z. cbn [hd]. split.
      * apply (fseg_change A _ 0 0 l1 (hd 0 l2) idx); auto.
        -- intros c Hc. assert (c <> idx) by (intros ->; apply Hni; apply in_or_app; auto). fieldwise.
        -- intros c Hc. assert (c <> idx) by (intros ->; apply Hni; apply in_or_app; auto).
           assert (c <> hd 0 l2). { destruct Y as [[Y _]|[Y _]]; [rewrite Y; apply Hb; apply in_or_app; auto|]. intros ->. eapply N3; eauto. }
           fieldwise. subst c. destruct l1; [destruct Hc|]. cbn in S1. cbn. apply S1.
        -- intros c Hc. assert (c <> idx) by (intros ->; apply Hni; apply in_or_app; auto). fold z. fieldwise.
      * cbn [fseg]. split; [fieldwise|]. split; [fieldwise|]. split; [fieldwise|].
        apply (fseg_change A _ z idx l2 0 0); auto.
        -- intros c Hc. assert (c <> idx) by (intros ->; apply Hni; apply in_or_app; auto). fieldwise.
        -- intros c Hc. assert (c <> idx) by (intros ->; apply Hni; apply in_or_app; auto). fieldwise.
        -- intros c Hc. assert (c <> idx) by (intros ->; apply Hni; apply in_or_app; auto).
           assert (c <> z). { destruct Hz as [[Y' _]|[Y' _]]; [rewrite Y'; apply Hb; apply in_or_app; auto|]. intros ->. eapply N3; eauto. }
           autorewrite with arena. eqs.
           destruct (Nat.eqb_spec c (last l2 0)); [|reflexivity].
           clear - S2 e Hc. revert S2. assert (l2 <> []) by (destruct l2; [destruct Hc|congruence]).
           rewrite app_removelast_last with (d := 0) (l := l2) by auto. rewrite fseg_app. cbn [fseg hd]. rewrite <- e. tauto.
  - intros i Hi'. assert (i <> 0) by (intros ->; apply Hi'; now left). assert (i <> idx) by (intros ->; apply Hi'; cbn; auto).
    assert (i <> z). { destruct Hz as [[Y' _]|[Y' _]]; [congruence|]. intros ->. apply Hi'. right. right. apply in_or_app. auto. }
    assert (i <> hd 0 l2). { destruct Y as [[Y' _]|[Y' _]]; [congruence|]. intros ->. apply Hi'. right. right. apply in_or_app. auto. }
    repeat split; fieldwise.
Qed.

(** ** the invariant. F is what is in the tree, D what has been taken off and is still allocated. *)
Record Inv A F D (fl : list nat) : Prop := {
  inv_len : 0 < length A;
  inv_ids : Permutation (ids F ++ ids D ++ fl) (seq 1 (length A - 1));
  inv_sorted : StronglySorted lt fl;
  inv_free : flist A fl;
  inv_chain : forall p, p = 0 \/ In p (ids F) -> chain A p (ch F p);
  inv_det : forall p, In p (ids D) -> chain A p (kids D p);
  inv_val : forall i v, In (i, v) (vals F ++ vals D) -> g_val A i = Some v
}.

Lemma inv_nodup A F D fl : Inv A F D fl -> NoDup (ids F ++ ids D ++ fl).
Proof. intros H. eapply Permutation_NoDup; [symmetry; apply (inv_ids _ _ _ _ H)|apply seq_NoDup]. Qed.
Lemma inv_bound A F D fl x : Inv A F D fl -> In x (ids F ++ ids D ++ fl) -> 0 < x < length A.
Proof. intros H Hx. apply (Permutation_in _ (inv_ids _ _ _ _ H)) in Hx. apply in_seq in Hx. lia. Qed.

Lemma vals_ids F i v : In (i, v) (vals F) -> In i (ids F).
Proof.
  induction F as [|j w s IHs r IHr]; cbn; [tauto|]. rewrite !in_app_iff. intros [[= -> ->]|[?|?]]; auto.
Qed.

Lemma init_inv dv : Inv (tree_init dv) FNil FNil [].
Proof.
  constructor; cbn [ids vals app]; try tauto.
  - cbn. lia.
  - constructor.
  - constructor.
  - split; [reflexivity|exact I].
  - intros p [->|[]]. split; [reflexivity|exact I].
  - cbn. tauto.
  - cbn. tauto.
Qed.

Lemma app3_in {T} (a b c : list T) x : In x (a ++ b ++ c) <-> In x a \/ In x b \/ In x c.
Proof. now rewrite !in_app_iff. Qed.

Lemma app3_nodup {T} (a b c : list T) : NoDup (a ++ b ++ c) -> NoDup a /\ NoDup b /\ NoDup c /\
  (forall x, In x a -> ~ In x b) /\ (forall x, In x a -> ~ In x c) /\ (forall x, In x b -> ~ In x c).
Proof.
  rewrite !NoDup_app_iff. intros (H1 & (H2 & H3 & H4) & H5). repeat match goal with |- _ /\ _ => split end; auto;
  intros x Hx C; apply (H5 x Hx); apply in_or_app; auto.
Qed.

Lemma alloc_inv A F fl v : Inv A F FNil fl -> exists B n, allocate A v = Some (B, n) /\ n = hd (length A) fl /\
  Inv B F (FCons n v FNil FNil) (tl fl) /\ ~ In n (ids F) /\ length B = (match fl with [] => S (length A) | _ => length A end).
Proof.
  intros H. pose proof (inv_nodup _ _ _ _ H) as N. assert (Hb := fun x => inv_bound _ _ _ _ x H). cbn [ids app] in *.
  destruct H as [Hl Hp Hs Hf Hc _ Hv]. apply NoDup_app_iff in N. destruct N as (N1 & N2 & N3).
  assert (Hfb : forall f, In f fl -> 0 < f < length A) by (intros f Hi; apply Hb; apply in_or_app; auto).
  assert (HFb : forall f, In f (ids F) -> 0 < f < length A) by (intros f Hi; apply Hb; apply in_or_app; auto).
  destruct (allocate_ok A v fl) as (B & E & Fl & L & Vn & Cn & Vo & Co & Po); auto.
  { constructor; auto. intros C. apply Hfb in C. lia. }
  { intros f Hi. apply Hfb in Hi. lia. }
  set (n := hd (length A) fl) in *.
  assert (Hn : ~ In n (ids F)).
  { unfold n. destruct fl as [|f fl]; cbn [hd]; intros C; [apply HFb in C; lia|]. apply (N3 f); auto. now left. }
  exists B, n. split; [exact E|]. split; [reflexivity|]. split; [|split; assumption].
  constructor.
  - rewrite L. destruct fl; lia.
  - cbn [ids app]. rewrite L. unfold n. destruct fl as [|f fl]; cbn [hd tl].
    + replace (S (length A) - 1) with ((length A - 1) + 1) by lia. rewrite seq_app. cbn [seq]. replace (1 + (length A - 1)) with (length A) by lia.
      rewrite app_nil_r in Hp. now apply Permutation_app_tail.
    + exact Hp.
  - destruct fl; [constructor|]. cbn. now inversion Hs.
  - exact Fl.
  - intros p Hpp. eapply chain_same; [apply Hc; exact Hpp|..].
    + apply Co. destruct Hpp as [->|Hpp]; [lia|]. apply HFb in Hpp. lia.
    + intros c Hcc. apply ch_in in Hcc. pose proof (HFb c Hcc). split; [apply Co; lia|]. apply Po; [lia|].
      cbn [In]. intros [C|C]; [lia|]. apply (N3 c); auto.
  - cbn [ids app]. intros p [<-|[]]. cbn [kids]. rewrite Nat.eqb_refl. cbn [roots]. split; [exact Cn|exact I].
  - intros i w. rewrite in_app_iff. cbn [vals app In]. intros [Hi|[[= <- <-]|[]]]; [|exact Vn].
    pose proof (vals_ids _ _ _ Hi) as Hi'. rewrite Vo; [apply Hv; rewrite in_app_iff; auto| |].
    + apply HFb in Hi'. lia.
    + intros ->. auto.
Qed.

Lemma link_inv A F fl n v t p b : Inv A F (FCons n v t FNil) fl -> position F p b ->
  exists B, link A p b n = Some B /\ Inv B (graft F p b n v t) FNil fl /\ length B = length A.
Proof.
  intros H [Pp Pb]. pose proof (inv_nodup _ _ _ _ H) as N. assert (Hb := fun x => inv_bound _ _ _ _ x H).
  destruct H as [Hl Hp Hs Hf Hc Hd Hv]. cbn [ids] in *. rewrite app_nil_r in *.
  pose proof (app3_nodup _ _ _ N) as (N1 & N2 & N3 & N4 & N5 & N6).
  assert (HFb : forall f, In f (ids F) -> 0 < f < length A) by (intros f Hi; apply Hb; apply app3_in; auto).
  assert (HDb : forall f, In f (n :: ids t) -> 0 < f < length A) by (intros f Hi; apply Hb; apply app3_in; auto).
  assert (H0 : ~ In 0 (ids F)) by (intros C; apply HFb in C; lia).
  pose proof (NoDup_ch F p N1) as Nc.
  destruct (insl_split b n (ch F p)) as (l1 & l2 & E1 & E2 & E3); auto.
  { intros C. apply ch_in in C. auto. }
  assert (Hin : forall c, In c (l1 ++ l2) -> In c (ids F)) by (intros c C; rewrite <- E1 in C; now apply ch_in in C).
  assert (Hn : ~ In n (ids F)) by (intros C; apply (N4 n C); now left).
  assert (Hpl : p < length A) by (destruct Pp as [->|Pp]; [lia|apply HFb in Pp; lia]).
  destruct (link_ok A p l1 l2 n) as (B & E & Ch & L & Vs & Cs & Fs).
  { rewrite <- E1. auto. }
  { constructor; [intros C; auto|]. now rewrite <- E1. }
  { intros [C|C]; [|auto]. pose proof (HDb n (or_introl eq_refl)). lia. }
  { intros c [<-|C]; [pose proof (HDb n (or_introl eq_refl)); lia|]. apply Hin, HFb in C. lia. }
  { exact Hpl. }
  { intros [<-|C]; [destruct Pp as [Pp|Pp]; [|contradiction]; pose proof (HDb n (or_introl eq_refl)); lia|].
    rewrite <- E1 in C. now apply (ch_ne F p p) in C. }
  rewrite E3 in E. exists B. split; [exact E|]. split; [|exact L].
  assert (ND : NoDup (n :: ids t ++ ids F)).
  { change (NoDup ((n :: ids t) ++ ids F)). apply NoDup_app_iff. split; [auto|split; [auto|]]. intros x Hx C. apply (N4 x); auto. }
  assert (N0 : ~ In 0 (n :: ids t ++ ids F)).
  { change (~ In 0 ((n :: ids t) ++ ids F)). rewrite in_app_iff. intros [C|C]; [apply HDb in C|apply HFb in C]; lia. }
  constructor.
  - lia.
  - cbn [ids app]. rewrite graft_ids; auto. rewrite L, <- Hp. rewrite !app_assoc. apply Permutation_app_tail. apply Permutation_app_comm.
  - exact Hs.
  - destruct Hf as [F1 F2]. assert (Fr : forall f, In f fl -> ~ In f (n :: l1 ++ l2)).
    { intros f Hi [<-|C]; [apply (N6 n); [now left|assumption]|]. apply (N5 f); auto. }
    split.
    + rewrite <- F1. apply Fs. intros [C|C]; [|auto]. pose proof (HDb n (or_introl eq_refl)). lia.
    + eapply fseg_same; [exact F2|]. intros c C. pose proof (Fr c C). destruct (Fs c) as (_ & -> & ->); auto. repeat split; auto.
      apply Cs. intros ->. destruct Pp as [->|Pp]; [|apply (N5 p); auto].
      assert (0 < 0 < length A) by (apply Hb; apply app3_in; auto). lia.
  - intros q Hq. 
    assert (Hq' : q = 0 \/ In q (ids F) \/ In q (n :: ids t)).
    { destruct Hq as [Hq|Hq]; auto. apply (Permutation_in _ (graft_ids F p b n v t N1 Pp)) in Hq. apply in_app_or in Hq. tauto. }
    assert (Hq2 : (q = 0 \/ In q (ids F)) \/ In q (n :: ids t)) by tauto. clear Hq Hq'. destruct Hq2 as [Hq|Hq].
    + rewrite graft_ch; auto. destruct (Nat.eqb_spec q p).
      * subst q. now rewrite E2.
      * eapply chain_same; [apply Hc; exact Hq|apply Cs; auto|]. intros c C. apply Fs. intros [<-|C'].
        -- apply ch_in in C. auto.
        -- rewrite <- E1 in C'. apply n0. now apply (ch_unique F q p c).
    + rewrite graft_ch_new; auto. eapply chain_same; [apply Hd; exact Hq|apply Cs|].
      * intros ->. destruct Pp as [->|Pp]; [apply HDb in Hq; lia|]. apply (N4 p); auto.
      * intros c C. apply Fs. intros [<-|C'].
        -- apply (kids_not_root (FCons n v t FNil) q n); [cbn [ids]; now rewrite app_nil_r|exact C|now left].
        -- apply kids_in in C. cbn [ids] in C. rewrite app_nil_r in C. apply (N4 c); auto. tauto.
  - cbn. tauto.
  - cbn [vals]. rewrite app_nil_r. intros i w Hi. rewrite Vs. apply Hv.
    apply (Permutation_in _ (graft_vals F p b n v t N1 Pp)) in Hi. apply in_app_or in Hi. apply in_or_app. cbn [vals]. rewrite app_nil_r. tauto.
Qed.

Lemma unlink_inv A F fl p i v s : Inv A F FNil fl -> (p = 0 \/ In p (ids F)) -> In i (ch F p) -> find F i = Some (v, s) ->
  exists B, unlink A i = Some B /\ Inv B (cut F i) (FCons i v s FNil) fl /\ length B = length A /\
    (forall x, ~ In x (ch F p) -> fnxt B x = fnxt A x).
Proof.
  intros H Pp Pi Ef. pose proof (inv_nodup _ _ _ _ H) as N. assert (Hb := fun x => inv_bound _ _ _ _ x H).
  destruct H as [Hl Hp Hs Hf Hc _ Hv]. cbn [ids vals app] in *. rewrite app_nil_r in Hv. apply NoDup_app_iff in N. destruct N as (N1 & N2 & N3).
  assert (HFb : forall f, In f (ids F) -> 0 < f < length A) by (intros f Hi; apply Hb; apply in_or_app; auto).
  assert (H0 : ~ In 0 (ids F)) by (intros C; apply HFb in C; lia).
  pose proof (NoDup_ch F p N1) as Nc. destruct (in_split _ _ Pi) as (l1 & l2 & E1).
  assert (Hin : forall c, In c (l1 ++ i :: l2) -> In c (ids F)) by (intros c C; rewrite <- E1 in C; now apply ch_in in C).
  destruct (unlink_ok A p l1 l2 i) as (B & E & Ch & L & Vs & Cs & Fs).
  { rewrite <- E1. auto. } { now rewrite <- E1. } { auto. } { intros c C. apply Hin, HFb in C. lia. }
  { destruct Pp as [->|Pp]; [lia|apply HFb in Pp; lia]. }
  { rewrite <- E1. intros C. now apply (ch_ne F p p) in C. }
  assert (Sub : forall x, In x (l1 ++ l2) -> In x (ch F p)).
  { intros x Hx. rewrite E1. apply in_or_app. apply in_app_or in Hx. cbn. tauto. }
  exists B. split; [exact E|]. split; [|split; [exact L|]].
  2:{ intros x Hx. apply Fs. auto. }
  pose proof (cut_ids F i v s N1 Ef) as Pc. pose proof (cut_nodup F i N1) as Nx.
  constructor.
  - lia.
  - rewrite L, <- Hp. cbn [ids]. rewrite app_nil_r. rewrite (Permutation_app_tail fl Pc). rewrite !app_assoc. apply Permutation_app_tail. apply Permutation_app_comm.
  - exact Hs.
  - destruct Hf as [F1 F2]. split.
    + rewrite <- F1. apply Fs. intros C. apply Sub, ch_in in C. auto.
    + eapply fseg_same; [exact F2|]. intros c C. destruct (Fs c) as (_ & -> & ->).
      { intros C'. apply Sub, ch_in in C'. apply (N3 c); auto. }
      repeat split; auto. apply Cs. intros ->. destruct Pp as [->|Pp]; [|apply (N3 p); auto].
      assert (0 < 0 < length A) by (apply Hb; apply in_or_app; auto). lia.
  - intros q Hq. rewrite ch_cut; auto. assert (Hq' : q = 0 \/ In q (ids F)) by (destruct Hq as [?|Hq]; [auto|right; now apply cut_incl in Hq]).
    destruct (Nat.eq_dec q p) as [->|Hqp].
    + rewrite E1, rml_split; [exact Ch|]. now rewrite <- E1.
    + rewrite rml_out. 2:{ intros C. apply Hqp. now apply (ch_unique F q p i). }
      eapply chain_same; [apply Hc; exact Hq'|apply Cs; auto|]. intros c C. apply Fs. intros C'. apply Sub in C'. apply Hqp. now apply (ch_unique F q p c).
  - cbn [ids]. rewrite app_nil_r. intros q Hq. destruct (find_in _ _ _ _ Ef) as [Ii Is].
    assert (Hq' : In q (ids F)) by (destruct Hq as [<-|Hq]; auto).
    assert (q <> 0) by congruence.
    assert (Ek : kids (FCons i v s FNil) q = ch F q).
    { unfold ch. destruct (Nat.eqb_spec q 0); [contradiction|]. cbn [kids]. rewrite app_nil_r. destruct (Nat.eqb_spec i q).
      - subst. symmetry. eapply find_kids; eauto.
      - destruct Hq as [?|Hq]; [contradiction|]. symmetry. eapply find_sub_kids; eauto. }
    rewrite Ek. assert (q <> p).
    { (* the parent of i is not below i *)
      intros ->. rewrite <- Ek in Pi. pose proof (find_nodup _ _ _ _ N1 Ef) as Nd.
      apply (kids_not_root (FCons i v s FNil) p i); [cbn [ids]; now rewrite app_nil_r|exact Pi|now left]. }
    eapply chain_same; [apply Hc; auto|apply Cs; auto|]. intros c C. apply Fs. intros C'. apply Sub in C'. apply H1. now apply (ch_unique F q p c); auto.
  - intros j w Hj. rewrite Vs. apply Hv. apply (Permutation_in _ (Permutation_sym (cut_vals F i v s N1 Ef))).
    apply in_app_or in Hj. apply in_or_app. cbn [vals] in Hj. rewrite app_nil_r in Hj. tauto.
Qed.

(** ** walking the children *)
Lemma sibs_ok A p l : forall fuel prev, seg A p prev l 0 -> (forall c, In c l -> c < length A /\ c <> 0) -> length l < fuel ->
  sibs fuel A (hd 0 l) = Some l.
Proof.
  induction l as [|c l IH]; intros fuel prev H Hb Hf; (destruct fuel as [|fuel]; [cbn in Hf; lia|]); cbn [sibs hd]; [reflexivity|].
  destruct (Hb c) as [H1 H2]; [now left|]. eqs. destruct H as (P1 & P2 & P3 & P4). rewrite (g_nxt_ok A c) by auto. rewrite P3.
  rewrite (IH fuel c); auto.
  - intros d Hd. apply Hb. now right.
  - cbn in Hf. lia.
Qed.

Lemma bounded_length l n : NoDup l -> (forall c : nat, In c l -> c < n) -> length l <= n.
Proof.
  intros H Hb. replace n with (length (seq 0 n)) by apply seq_length. apply NoDup_incl_length; auto.
  intros c Hc. apply in_seq. apply Hb in Hc. lia.
Qed.

Lemma sibs_from_ok A p l : chain A p l -> NoDup l -> (forall c, In c l -> c < length A /\ c <> 0) -> sibs_from A (fchd A p) = Some l.
Proof.
  intros [H1 H2] N Hb. rewrite H1. unfold sibs_from. eapply sibs_ok; eauto.
  assert (length l <= length A); [|lia]. apply bounded_length; auto. intros c Hc. now apply Hb.
Qed.

(** ** erase *)
(** put the trees of s, last one first, in front of r *)
Fixpoint frev_app (s r : forest) : forest :=
  match s with FNil => r | FCons i v s' s2 => frev_app s2 (FCons i v s' r) end.
Lemma roots_frev s : forall r, roots (frev_app s r) = rev (roots s) ++ roots r.
Proof. induction s as [|i v s' _ s2 IH]; intros r; cbn; [auto|]. rewrite IH. cbn. now rewrite <- app_assoc. Qed.
Lemma ids_frev s : forall r, Permutation (ids (frev_app s r)) (ids s ++ ids r).
Proof.
  induction s as [|i v s' _ s2 IH]; intros r; cbn [frev_app ids app]; [auto|]. rewrite IH. cbn [ids].
  rewrite <- Permutation_middle. apply perm_skip. rewrite !app_assoc. apply Permutation_app_tail. apply Permutation_app_comm.
Qed.
Lemma vals_frev s : forall r, Permutation (vals (frev_app s r)) (vals s ++ vals r).
Proof.
  induction s as [|i v s' _ s2 IH]; intros r; cbn [frev_app vals app]; [auto|]. rewrite IH. cbn [vals].
  rewrite <- Permutation_middle. apply perm_skip. rewrite !app_assoc. apply Permutation_app_tail. apply Permutation_app_comm.
Qed.
Lemma kids_frev s : forall r q, NoDup (ids s ++ ids r) -> kids (frev_app s r) q = kids s q ++ kids r q.
Proof.
  induction s as [|i v s' _ s2 IH]; intros r q H; [reflexivity|].
  change (frev_app (FCons i v s' s2) r) with (frev_app s2 (FCons i v s' r)). rewrite IH.
  2:{ cbn [ids] in *. eapply Permutation_NoDup; [|exact H]. cbn [app]. rewrite <- Permutation_middle. apply perm_skip.
      rewrite !app_assoc. apply Permutation_app_tail. apply Permutation_app_comm. }
  rewrite !kids_cons. cbn [ids app] in H. rewrite NoDup_cons_iff, <- app_assoc, app3_in in H. destruct H as [H1 H2].
  apply app3_nodup in H2. destruct H2 as (_ & _ & _ & D1 & D2 & D3).
  destruct (Nat.eqb_spec i q).
  - subst. rewrite (kids_out s2 q), (kids_out r q) by tauto. now rewrite app_nil_r.
  - destruct (in_dec Nat.eq_dec q (ids s2)).
    + rewrite (kids_out s' q), (kids_out r q); [now rewrite !app_nil_r|now apply D3|intros C; now apply (D1 q)].
    + rewrite (kids_out s2 q) by auto. cbn. now rewrite app_nil_r.
Qed.

Lemma erase_loop_inv F : forall fuel A D fl, Inv A F D fl -> length (ids D) <= fuel ->
  exists B fl', erase_loop fuel A (roots D) = Some B /\ Inv B F FNil fl' /\ length B = length A.
Proof.
  induction fuel as [|fuel IH]; intros A D fl H Hf.
  - destruct D as [|i v s r]; [|cbn in Hf; lia]. exists A, fl. cbn. auto.
  - destruct D as [|i v s r]; [exists A, fl; cbn; auto|]. cbn [roots erase_loop].
    pose proof (inv_nodup _ _ _ _ H) as N. assert (Hb := fun x => inv_bound _ _ _ _ x H).
    destruct H as [Hl Hp Hs Hfl Hc Hd Hv]. cbn [ids] in *.
    pose proof (app3_nodup _ _ _ N) as (N1 & N2 & N3 & N4 & N5 & N6).
    assert (HFb : forall f, In f (ids F) -> 0 < f < length A) by (intros f Hi; apply Hb; apply app3_in; auto).
    assert (HDb : forall f, In f (i :: ids s ++ ids r) -> 0 < f < length A) by (intros f Hi; apply Hb; apply app3_in; auto).
    assert (Hlb : forall f, In f fl -> 0 < f < length A) by (intros f Hi; apply Hb; apply app3_in; auto).
    pose proof (HDb i (or_introl eq_refl)) as Hi. rewrite (g_chd_ok A i) by lia.
    pose proof (Hd i (or_introl eq_refl)) as Hci. cbn [kids] in Hci. rewrite Nat.eqb_refl in Hci.
    pose proof N2 as N2'. apply NoDup_cons_iff in N2'. destruct N2' as [Ni Nsr]. rewrite in_app_iff in Ni.
    pose proof Nsr as Nsr'. apply NoDup_app_iff in Nsr'. destruct Nsr' as (Ns & Nr & Nd).
    rewrite (sibs_from_ok A i (roots s)); auto.
    2:{ now apply NoDup_roots. }
    2:{ intros c C. apply roots_ids in C. assert (0 < c < length A); [|lia]. apply HDb. right. apply in_or_app. auto. }
    destruct (free_ok A i fl) as (B & E & Fl & L & Vs & Cs & Fs); auto.
    { intros f C. apply Hlb in C. lia. } { apply N6. now left. }
    rewrite E. rewrite <- roots_frev.
    assert (IB : Inv B F (frev_app s r) (ins_sorted i fl)).
    { constructor.
      - lia.
      - rewrite ids_frev, ins_sorted_perm, L, <- Hp. apply Permutation_app_head. cbn [app]. apply Permutation_sym. apply Permutation_middle.
      - apply ins_sorted_sorted; auto. apply N6. now left.
      - exact Fl.
      - intros p Hpp. eapply chain_same; [apply Hc; exact Hpp|..].
        + apply Cs. intros ->. destruct Hpp as [?|Hpp]; [lia|]. apply (N4 i); auto. now left.
        + intros c C. apply ch_in in C. apply Fs. cbn [In]. intros [C'|[C'|C']].
          * apply HFb in C. lia.
          * subst c. apply (N4 i); auto. now left.
          * apply (N5 c); auto.
      - intros p Hpp. rewrite kids_frev by auto.
        apply (Permutation_in _ (ids_frev s r)) in Hpp.
        assert (i <> p) by (intros ->; apply in_app_or in Hpp; tauto).
        pose proof (Hd p (or_intror Hpp)) as Hcp. rewrite kids_cons in Hcp. eqs.
        destruct (Nat.eqb_spec i p); [contradiction|].
        eapply chain_same; [exact Hcp|apply Cs; auto|].
        intros c C. assert (Cin : In c (ids s ++ ids r)).
        { apply in_app_or in C. apply in_or_app. destruct C as [C|C]; apply kids_in in C; tauto. }
        apply Fs. cbn [In]. intros [C'|[C'|C']].
        + subst c. assert (0 < 0 < length A) by (apply HDb; now right). lia.
        + subst c. apply in_app_or in Cin. tauto.
        + apply (N6 c); auto. now right.
      - intros j w Hj. rewrite Vs. apply Hv. apply in_app_or in Hj. apply in_or_app. cbn [vals]. destruct Hj as [Hj|Hj]; auto.
        right. right. apply (Permutation_in _ (vals_frev s r)). exact Hj. }
    destruct (IH B (frev_app s r) (ins_sorted i fl) IB) as (B' & fl' & E' & I' & L').
    { rewrite (Permutation_length (ids_frev s r)). cbn in Hf. lia. }
    exists B', fl'. split; [exact E'|]. split; [exact I'|congruence].
Qed.
End Inv.
