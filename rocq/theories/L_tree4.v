(** Public operations of the tree against the forest. *)
From Coq Require Import List Arith Bool Lia Permutation Sorted.
From Verif Require Import M_tree L_tree L_tree2 L_tree3.
Import ListNotations.
Open Scope tree_scope.

Local Arguments Nat.ltb : simpl never.

(** * Specification *)
Section Spec.
Context {V : Type}.
Notation forest := (forest V).
Notation arena := (arena V).

(** the least positive number not in l *)
Definition fresh (l : list nat) : nat :=
  hd 0 (filter (fun i => negb (existsb (Nat.eqb i) l)) (seq 1 (S (length l)))).

(** the element after i in l, 0 if i is last *)
Fixpoint after (i : nat) (l : list nat) : nat :=
  match l with [] => 0 | c :: l' => if c =? i then hd 0 l' else after i l' end.

(** What is seen from an iterator: dereferencing, descending with begin(), going on with ++, and parent(). *)
Fixpoint sees (A : arena) (it : iter) (F : forest) : Prop :=
  match F with
  | FNil => snd it = 0
  | FCons i v s r =>
      snd it = i /\ i <> 0 /\ it_deref A it = Some v /\
      (forall c, it_parent A (i, c) = Some it) /\
      (exists b, it_begin A it = Some b /\ sees A b s) /\
      (exists n, it_inc A it = Some n /\ sees A n r)
  end.

(** Operations of a history. *)
Inductive op := OInsert (p b : nat) (v : V) | OErase (p i : nat) | OMove (p b q i : nat) | OClear.

(** One operation on the forest: new forest and the iterator returned, [None] standing for the exception of move. *)
Inductive spec_step : forest -> op -> forest -> option iter -> Prop :=
| SInsert F p b v : position F p b ->
    spec_step F (OInsert p b v) (graft F p b (fresh (ids F)) v FNil) (Some (p, fresh (ids F)))
| SErase F p i : (p = 0 \/ In p (ids F)) -> In i (ch F p) ->
    spec_step F (OErase p i) (cut F i) (Some (p, after i (ch F p)))
| SMove F p b q i v s : position F p b -> (q = 0 \/ In q (ids F)) -> In i (ch F q) -> find F i = Some (v, s) ->
    ~ In p (i :: ids s) -> b <> i ->
    spec_step F (OMove p b q i) (graft (cut F i) p b i v s) (Some (p, i))
| SMoveThrow F p b q i v s : position F p b -> (q = 0 \/ In q (ids F)) -> In i (ch F q) -> find F i = Some (v, s) ->
    In b (i :: ids s) ->
    spec_step F (OMove p b q i) F None
| SClear F : spec_step F OClear FNil (Some (0, 0)).

Inductive spec_run : forest -> list op -> forest -> list (option iter) -> Prop :=
| SNil F : spec_run F [] F []
| SCons F o F1 out ops F2 outs : spec_step F o F1 out -> spec_run F1 ops F2 outs -> spec_run F (o :: ops) F2 (out :: outs).

(** The same history on the arena. *)
Definition step (dv : V) (A : arena) (o : op) : option (arena * option iter) :=
  match o with
  | OInsert p b v => do (B, it) <- insert A (p, b) v; Some (B, Some it)
  | OErase p i => do (B, it) <- erase A (p, i); Some (B, Some it)
  | OMove p b q i => do r <- move A (p, b) (q, i); match r with Some (B, it) => Some (B, Some it) | None => Some (A, None) end
  | OClear => Some (tree_clear dv A, Some (0, 0))
  end.
Fixpoint run (dv : V) (A : arena) (ops : list op) : option (arena * list (option iter)) :=
  match ops with
  | [] => Some (A, [])
  | o :: ops => do (B, out) <- step dv A o; do (C, outs) <- run dv B ops; Some (C, out :: outs)
  end.

End Spec.
Arguments op : clear implicits.

Section Ops.
Context {V : Type}.
Notation forest := (forest V).
Notation arena := (arena V).
Implicit Types A B : arena.
Implicit Types F D G s r : forest.

(** ** fresh *)
Lemma existsb_in i l : existsb (Nat.eqb i) l = true <-> In i l.
Proof.
  rewrite existsb_exists. split.
  - intros (x & H & E). apply Nat.eqb_eq in E. now subst.
  - intros H. exists i. split; auto. apply Nat.eqb_refl.
Qed.

Lemma fresh_unique l n : 1 <= n -> ~ In n l -> (forall m, 1 <= m < n -> In m l) -> n = fresh l.
Proof.
  intros H1 H2 H3. unfold fresh.
  assert (n <= S (length l)).
  { assert (length (seq 1 (n - 1)) <= length l); [|rewrite seq_length in *; lia]. apply NoDup_incl_length; [apply seq_NoDup|].
    intros x Hx. apply in_seq in Hx. apply H3. lia. }
  replace (S (length l)) with ((n - 1) + S (S (length l) - n)) by lia. rewrite seq_app, filter_app.
  replace (filter _ (seq 1 (n - 1))) with (@nil nat).
  - cbn [seq filter app]. replace (1 + (n - 1)) with n by lia.
    destruct (existsb (Nat.eqb n) l) eqn:E; [apply existsb_in in E; contradiction|]. reflexivity.
  - symmetry. assert (G : forall x, In x (seq 1 (n - 1)) -> negb (existsb (Nat.eqb x) l) = false).
    { intros x Hx. apply in_seq in Hx. rewrite (proj2 (existsb_in x l)); [reflexivity|]. apply H3. lia. }
    revert G. induction (seq 1 (n - 1)) as [|y t IH]; intros G; [reflexivity|]. cbn [filter]. rewrite G by (now left). apply IH. intros x Hx. apply G. now right.
Qed.

Lemma fresh_not_in (l : list nat) : 1 <= fresh l /\ ~ In (fresh l) l.
Proof.
  unfold fresh. destruct (filter _ _) as [|x t] eqn:E; cbn [hd].
  - exfalso. assert (incl (seq 1 (S (length l))) l).
    { intros y Hy. destruct (existsb (Nat.eqb y) l) eqn:Ey; [now apply existsb_in|].
      assert (In y []); [|contradiction]. rewrite <- E. apply filter_In. now rewrite Ey. }
    apply NoDup_incl_length in H; [|apply seq_NoDup]. rewrite seq_length in H. lia.
  - assert (Hx : In x (x :: t)) by (now left). rewrite <- E in Hx. apply filter_In in Hx. destruct Hx as [H1 H2].
    apply in_seq in H1. split; [lia|]. intros C. apply existsb_in in C. rewrite C in H2. discriminate.
Qed.

Lemma inv_fresh A F fl : Inv A F FNil fl -> hd (length A) fl = fresh (ids F).
Proof.
  intros H. pose proof (inv_nodup _ _ _ _ H) as N. assert (Hb := fun x => inv_bound _ _ _ _ x H). cbn [ids app] in *.
  destruct H as [Hl Hp Hs _ _ _ _]. cbn [ids app] in Hp. apply NoDup_app_iff in N. destruct N as (N1 & N2 & N3). apply fresh_unique.
  - destruct fl as [|f fl]; cbn; [lia|]. assert (0 < f < length A); [|lia]. apply Hb. apply in_or_app. right. now left.
  - destruct fl as [|f fl]; cbn; intros C.
    + assert (0 < length A < length A); [|lia]. apply Hb. apply in_or_app. auto.
    + apply (N3 f); auto. now left.
  - intros m Hm. assert (Hin : In m (ids F ++ fl)).
    { apply (Permutation_in _ (Permutation_sym Hp)). apply in_seq.
      assert (hd (length A) fl <= length A); [|lia]. destruct fl as [|f fl]; cbn; [lia|].
      assert (0 < f < length A); [|lia]. apply Hb. apply in_or_app. right. now left. }
    apply in_app_or in Hin. destruct Hin as [Hin|Hin]; auto. exfalso. destruct fl as [|f fl]; [destruct Hin|]. cbn in Hm.
    inversion Hs as [|? ? _ Hlt]; subst. destruct Hin as [<-|Hin]; [lia|]. rewrite Forall_forall in Hlt. apply Hlt in Hin. lia.
Qed.

(** ** insert *)
Theorem insert_inv A F fl p b v : Inv A F FNil fl -> position F p b ->
  exists B, insert A (p, b) v = Some (B, (p, fresh (ids F))) /\
    Inv B (graft F p b (fresh (ids F)) v FNil) FNil (tl fl) /\ ~ In (fresh (ids F)) (ids F) /\
    length B = Nat.max (length A) (S (S (length (ids F)))).
Proof.
  intros H P. destruct (alloc_inv A F fl v H) as (B & n & E & En & HB & Hn & L).
  pose proof (inv_fresh _ _ _ H) as Ef. rewrite En in *. rewrite Ef in *.
  destruct (link_inv B F (tl fl) _ v FNil p b HB P) as (C & E' & HC & L').
  exists C. unfold insert. rewrite E. cbn [fst snd]. rewrite E'. split; [reflexivity|]. split; [exact HC|]. split; [exact Hn|].
  rewrite L', L. pose proof (Permutation_length (inv_ids _ _ _ _ H)) as PL. cbn [ids app] in PL. rewrite app_length, seq_length in PL.
  pose proof (inv_len _ _ _ _ H). destruct fl; cbn in PL; lia.
Qed.

(** ** erase *)
Lemma seg_next A p prev l1 c l2 nx : seg A p prev (l1 ++ c :: l2) nx -> fnxt A c = hd nx l2.
Proof. rewrite seg_app. cbn. tauto. Qed.

Lemma after_split l1 i l2 : ~ In i l1 -> after i (l1 ++ i :: l2) = hd 0 l2.
Proof.
  induction l1 as [|x l1 IH]; cbn; intros H; [now rewrite Nat.eqb_refl|]. destruct (Nat.eqb_spec x i); [tauto|]. apply IH. tauto.
Qed.

Lemma chain_next A p l i : chain A p l -> NoDup l -> In i l -> fnxt A i = after i l.
Proof.
  intros [_ H] N Hi. destruct (in_split _ _ Hi) as (l1 & l2 & ->). rewrite (seg_next _ _ _ _ _ _ _ H).
  rewrite after_split; auto. apply NoDup_remove_2 in N. rewrite in_app_iff in N. tauto.
Qed.

Theorem erase_inv A F fl p i : Inv A F FNil fl -> (p = 0 \/ In p (ids F)) -> In i (ch F p) ->
  exists B fl', erase A (p, i) = Some (B, (p, after i (ch F p))) /\ Inv B (cut F i) FNil fl' /\ length B = length A.
Proof.
  intros H Pp Pi. pose proof (ch_in _ _ _ Pi) as Ii. destruct (find_some F i Ii) as (v & s & Ef).
  pose proof (inv_nodup _ _ _ _ H) as N. apply app3_nodup in N. destruct N as (N1 & _).
  assert (Hi : 0 < i < length A). { apply (inv_bound _ _ _ _ _ H). apply in_or_app. auto. }
  destruct (unlink_inv A F fl p i v s H Pp Pi Ef) as (B & E & HB & L & _).
  destruct (erase_loop_inv (cut F i) (length B) B (FCons i v s FNil) fl HB) as (C & fl' & E' & HC & L').
  { apply bounded_length; [apply inv_nodup, app3_nodup in HB; tauto|]. intros c Hc.
    assert (0 < c < length B); [|lia]. apply (inv_bound _ _ _ _ _ HB). apply app3_in. auto. }
  exists C, fl'. unfold erase. cbn [fst snd]. destruct (Nat.eqb_spec i 0); [lia|].
  rewrite (g_nxt_ok A i) by lia. rewrite E. cbn [roots] in E'. rewrite E'.
  rewrite (chain_next A p (ch F p) i); [split; [reflexivity|split; [exact HC|congruence]]| |now apply NoDup_ch|exact Pi].
  apply (inv_chain _ _ _ _ H). exact Pp.
Qed.

(** ** move *)
(** is i met on the way from x up to the roots of G *)
Fixpoint hits G (x i : nat) : bool :=
  match G with
  | FNil => false
  | FCons j v s r => if x =? j then j =? i else if existsb (Nat.eqb x) (ids s) then hits s x i || (j =? i) else hits r x i
  end.

Lemma hits_find G x i : NoDup (ids G) -> In x (ids G) ->
  (hits G x i = true <-> exists v s, find G i = Some (v, s) /\ In x (i :: ids s)).
Proof.
  induction G as [|j w s IHs r IHr]; cbn [ids]; [intros _ []|]. rewrite NoDup_cons_iff, NoDup_app_iff, in_app_iff.
  intros (H1 & H2 & H3 & H4) Hx. cbn [hits find]. destruct (Nat.eqb_spec x j).
  - subst x. clear Hx. destruct (Nat.eqb_spec j i).
    + subst. split; auto. intros _. exists w, s. split; auto. now left.
    + split; [discriminate|]. intros (v & t & E & Hj).
      assert (In j (ids s ++ ids r)); [|rewrite in_app_iff in H; tauto].
      destruct (find s i) as [[v' t']|] eqn:Es; [injection E as -> ->; apply find_in in Es|apply find_in in E];
      (destruct Hj as [->|Hj]; [now destruct n|]); apply in_or_app; firstorder.
  - destruct (existsb (Nat.eqb x) (ids s)) eqn:Ex.
    + apply existsb_in in Ex. specialize (IHs H2 Ex). rewrite orb_true_iff, IHs. clear Hx. destruct (Nat.eqb_spec j i).
      * subst. split; auto. intros _. exists w, s. split; auto. now right.
      * split.
        -- intros [(v & t & E & Hj)|?]; [|discriminate]. exists v, t. rewrite E. auto.
        -- intros (v & t & E & Hj). left. exists v, t. split; auto.
           destruct (find s i) as [[v' t']|] eqn:Es; auto. exfalso. apply find_in in E. destruct E as [E1 E2].
           apply (H4 x Ex). destruct Hj as [<-|Hj]; auto.
    + assert (Nx : ~ In x (ids s)) by (intros C; apply existsb_in in C; congruence).
      assert (Rx : In x (ids r)) by (destruct Hx as [Hx|Hx]; [congruence|]; apply in_app_or in Hx; tauto).
      rewrite (IHr H3 Rx). destruct (Nat.eqb_spec j i).
      * subst. split.
        -- intros (v & t & E & Hj). apply find_in in E. exfalso. tauto.
        -- intros (v & t & E & Hj). injection E as <- <-. exfalso. destruct Hj as [Hj|Hj]; [congruence|auto].
      * split; intros (v & t & E & Hj); exists v, t; split; auto.
        -- destruct (find s i) as [[v' t']|] eqn:Es; auto. apply find_in in Es. apply find_in in E. exfalso. apply (H4 i); tauto.
        -- destruct (find s i) as [[v' t']|] eqn:Es; auto. injection E as -> ->. apply find_in in Es. exfalso.
           destruct Hj as [<-|Hj]; [tauto|]. apply Nx. apply Es. exact Hj.
Qed.

Lemma meets_up A i : forall G p, NoDup (ids G) -> (forall x, In x (ids G) -> 0 < x < length A) ->
  (forall x, In x (roots G) -> fpar A x = p) -> (forall q x, In x (kids G q) -> fpar A x = q) ->
  forall x, In x (ids G) -> exists k, k <= length (ids G) /\
    forall fuel, meets (k + fuel) A x i = if hits G x i then Some true else meets fuel A p i.
Proof.
  induction G as [|j w s IHs r IHr]; intros p N Hb Hr Hk x Hx; [destruct Hx|].
  cbn [ids] in *. rewrite NoDup_cons_iff, NoDup_app_iff, in_app_iff in N. destruct N as (H1 & H2 & H3 & H4).
  assert (Kj : forall y, In y (roots s) -> fpar A y = j).
  { intros y Hy. apply (Hk j). rewrite kids_cons, Nat.eqb_refl. exact Hy. }
  assert (Up : forall fuel, meets (S fuel) A j i = if j =? i then Some true else meets fuel A p i).
  { intros fuel. cbn [meets]. pose proof (Hb j (or_introl eq_refl)). destruct (Nat.eqb_spec j 0); [lia|].
    destruct (j =? i); [reflexivity|]. rewrite (g_par_ok A j) by lia. rewrite (Hr j); [reflexivity|now left]. }
  cbn [hits]. destruct (Nat.eqb_spec x j).
  - subst. exists 1. split; [cbn; lia|]. intros fuel. apply Up.
  - destruct (existsb (Nat.eqb x) (ids s)) eqn:Ex.
    + apply existsb_in in Ex. destruct (IHs j H2) with (x := x) as (k & Hk1 & Hk2); auto.
      * intros y Hy. apply Hb. right. apply in_or_app. auto.
      * intros q y Hy. apply Hk. rewrite kids_cons. destruct (Nat.eqb_spec j q).
        -- subst. apply kids_in in Hy. tauto.
        -- apply in_or_app. auto.
      * exists (k + 1). split; [cbn; rewrite app_length; lia|]. intros fuel. rewrite <- Nat.add_assoc. rewrite Hk2. 
        destruct (hits s x i); [reflexivity|]. cbn [orb]. apply Up.
    + assert (Rx : In x (ids r)).
      { destruct Hx as [Hx|Hx]; [congruence|]. apply in_app_or in Hx. destruct Hx as [Hx|Hx]; auto. apply existsb_in in Hx. congruence. }
      destruct (IHr p H3) with (x := x) as (k & Hk1 & Hk2); auto.
      * intros y Hy. apply Hb. right. apply in_or_app. auto.
      * intros y Hy. apply Hr. now right.
      * intros q y Hy. apply Hk. rewrite kids_cons. destruct (Nat.eqb_spec j q).
        -- subst. apply kids_in in Hy. tauto.
        -- apply in_or_app. auto.
      * exists k. split; [cbn; rewrite app_length; lia|]. exact Hk2.
Qed.

Lemma inv_par A F D fl p x : Inv A F D fl -> (p = 0 \/ In p (ids F)) -> In x (ch F p) -> fpar A x = p.
Proof. intros H Hp Hx. destruct (inv_chain _ _ _ _ H p Hp) as [_ S]. eapply seg_par; eauto. Qed.

Lemma meets_ok A F fl b i v s : Inv A F FNil fl -> In b (ids F) -> find F i = Some (v, s) ->
  meets (S (length A)) A b i = Some (existsb (Nat.eqb b) (i :: ids s)).
Proof.
  intros H Hbi Ef. pose proof (inv_nodup _ _ _ _ H) as N. apply app3_nodup in N. destruct N as (N1 & _).
  assert (Hb : forall x, In x (ids F) -> 0 < x < length A).
  { intros x Hx. apply (inv_bound _ _ _ _ _ H). apply in_or_app. auto. }
  destruct (meets_up A i F 0 N1 Hb) with (x := b) as (k & Hk1 & Hk2); auto.
  { intros x Hx. apply (inv_par _ _ _ _ 0 x H); auto. }
  { intros q x Hx. pose proof (kids_in _ _ _ Hx) as [Hq _]. apply (inv_par _ _ _ _ q x H); auto. unfold ch.
    destruct (Nat.eqb_spec q 0); [subst; apply Hb in Hq; lia|]. exact Hx. }
  assert (length (ids F) <= length A) by (apply bounded_length; auto; intros c Hc; apply Hb in Hc; lia).
  replace (S (length A)) with (k + S (length A - k)) by lia. rewrite Hk2. cbn [meets Nat.eqb].
  pose proof (hits_find F b i N1 Hbi) as HH. destruct (hits F b i).
  - f_equal. symmetry. apply existsb_in. destruct (proj1 HH eq_refl) as (v' & s' & E & Hin). rewrite Ef in E. now injection E as <- <-.
  - f_equal. symmetry. apply not_true_iff_false. intros C. apply existsb_in in C. assert (false = true); [|discriminate].
    apply HH. eauto.
Qed.

Lemma cut_has F i v s x : NoDup (ids F) -> find F i = Some (v, s) -> In x (ids F) -> ~ In x (i :: ids s) -> In x (ids (cut F i)).
Proof.
  intros N Ef Hx Hn. apply (Permutation_in _ (cut_ids F i v s N Ef)) in Hx. apply in_app_or in Hx. tauto.
Qed.

Lemma sub_closed F i v s p b : NoDup (ids F) -> find F i = Some (v, s) -> In p (i :: ids s) -> In b (kids F p) -> In b (ids s).
Proof.
  intros N Ef Hp Hb. destruct Hp as [<-|Hp].
  - rewrite (find_kids F i v s N Ef) in Hb. now apply roots_ids.
  - rewrite (find_sub_kids F i v s p N Ef Hp) in Hb. apply kids_in in Hb. tauto.
Qed.

Theorem move_inv A F fl p b q i v s : Inv A F FNil fl -> position F p b -> (q = 0 \/ In q (ids F)) -> In i (ch F q) ->
  find F i = Some (v, s) -> ~ In p (i :: ids s) -> b <> i ->
  exists B, move A (p, b) (q, i) = Some (Some (B, (p, i))) /\ Inv B (graft (cut F i) p b i v s) FNil fl /\ length B = length A.
Proof.
  intros H [Pp Pb] Pq Pi Ef Np Nb.
  pose proof (inv_nodup _ _ _ _ H) as N. apply app3_nodup in N. destruct N as (N1 & _).
  assert (Hb : forall x, In x (ids F) -> 0 < x < length A).
  { intros x Hx. apply (inv_bound _ _ _ _ _ H). apply in_or_app. auto. }
  assert (M : meets (S (length A)) A b i = Some false).
  { destruct (Nat.eq_dec b 0) as [->|Hb0]; [reflexivity|]. destruct Pb as [?|Pb]; [contradiction|].
    rewrite (meets_ok A F fl b i v s H (ch_in _ _ _ Pb) Ef). f_equal. apply not_true_iff_false. intros C. apply existsb_in in C.
    destruct C as [C|C]; [congruence|].
    (* b below i, p above b and not below i *)
    pose proof (find_nodup _ _ _ _ N1 Ef) as Nd. 
    destruct (root_or_kid (FCons i v s FNil) b) as [R|(q' & Q1 & Q2)].
    { cbn [ids]. now rewrite app_nil_r. } { cbn [ids]. rewrite app_nil_r. now right. }
    { cbn in R. destruct R as [R|[]]. congruence. }
    cbn [ids] in Q1. rewrite app_nil_r in Q1.
    assert (In b (kids F q')).
    { cbn [kids] in Q2. rewrite app_nil_r in Q2. destruct (Nat.eqb_spec i q').
      - subst. rewrite (find_kids F q' v s); auto.
      - destruct Q1 as [?|Q1]; [contradiction|]. rewrite (find_sub_kids F i v s q'); auto. }
    assert (q' = p); [|subst; auto].
    assert (Hq' : In q' (ids F)) by (apply find_in in Ef; destruct Q1 as [<-|Q1]; [tauto|apply Ef; auto]).
    apply (ch_unique F q' p b); auto. unfold ch. destruct (Nat.eqb_spec q' 0); [subst; apply Hb in Hq'; lia|assumption]. }
  unfold move. cbn [fst snd]. rewrite M.
  destruct (unlink_inv A F fl q i v s H Pq Pi Ef) as (B & E & HB & L & _). rewrite E.
  assert (P' : position (cut F i) p b).
  { split.
    - destruct Pp as [?|Pp]; [auto|right]. eapply cut_has; eauto.
    - destruct Pb as [?|Pb]; [auto|right]. rewrite ch_cut; auto.
      + unfold rml. apply filter_In. split; auto. destruct (Nat.eqb_spec b i); [contradiction|reflexivity].
      + destruct Pp as [?|Pp]; [auto|right]. eapply cut_has; eauto. }
  destruct (link_inv B (cut F i) fl i v s p b HB P') as (C & E' & HC & L'). rewrite E'.
  exists C. split; [reflexivity|]. split; [exact HC|congruence].
Qed.

Theorem move_throws A F fl p b q i v s : Inv A F FNil fl -> position F p b -> find F i = Some (v, s) -> In b (i :: ids s) ->
  move A (p, b) (q, i) = Some None.
Proof.
  intros H [Pp Pb] Ef Hin.
  assert (Hbi : In b (ids F)). { apply find_in in Ef. destruct Hin as [<-|Hin]; [tauto|]. apply Ef. exact Hin. }
  unfold move. cbn [fst snd]. rewrite (meets_ok A F fl b i v s H Hbi Ef).
  rewrite (proj2 (existsb_in b (i :: ids s)) Hin). reflexivity.
Qed.

(** ** structure seen from outside *)
Fixpoint rep A F : Prop :=
  match F with
  | FNil => True
  | FCons i v s r => 0 < i < length A /\ g_val A i = Some v /\ NoDup (roots s) /\ chain A i (roots s) /\ rep A s /\ rep A r
  end.

Lemma rep_of A G : NoDup (ids G) -> (forall q, In q (ids G) -> 0 < q < length A /\ chain A q (kids G q)) ->
  (forall i v, In (i, v) (vals G) -> g_val A i = Some v) -> rep A G.
Proof.
  induction G as [|j w s IHs r IHr]; cbn [rep ids vals]; [auto|]. rewrite NoDup_cons_iff, NoDup_app_iff, in_app_iff.
  intros (H1 & H2 & H3 & H4) Hq Hv. 
  destruct (Hq j (or_introl eq_refl)) as [B C]. rewrite kids_cons, Nat.eqb_refl in C.
  split; [exact B|]. split; [apply Hv; now left|]. split; [now apply NoDup_roots|]. split; [exact C|]. split.
  - apply IHs; auto.
    + intros q Hin. destruct (Hq q) as [B' C']; [right; apply in_or_app; auto|]. split; auto. rewrite kids_cons in C'.
      destruct (Nat.eqb_spec j q); [subst; tauto|]. rewrite (kids_out r q), app_nil_r in C'; auto.
    + intros i v Hi. apply Hv. right. apply in_or_app. auto.
  - apply IHr; auto.
    + intros q Hin. destruct (Hq q) as [B' C']; [right; apply in_or_app; auto|]. split; auto. rewrite kids_cons in C'.
      destruct (Nat.eqb_spec j q); [subst; tauto|]. rewrite (kids_out s q) in C'; auto. intros Cc. apply (H4 q); auto.
    + intros i v Hi. apply Hv. right. apply in_or_app. auto.
Qed.

Lemma inv_rep A F fl : Inv A F FNil fl -> rep A F.
Proof.
  intros H. pose proof (inv_nodup _ _ _ _ H) as N. apply app3_nodup in N. destruct N as (N1 & _).
  apply rep_of; auto.
  - intros q Hq. assert (B : 0 < q < length A). { apply (inv_bound _ _ _ _ _ H). apply in_or_app. auto. }
    split; auto. pose proof (inv_chain _ _ _ _ H q (or_intror Hq)) as C. unfold ch in C. destruct (Nat.eqb_spec q 0); [lia|exact C].
  - intros i v Hi. apply (inv_val _ _ _ _ H). apply in_or_app. auto.
Qed.

Lemma rep_bound A G c : rep A G -> In c (roots G) -> c < length A /\ c <> 0.
Proof. induction G as [|j w s _ r IH]; cbn; [tauto|]. intros (B & _ & _ & _ & _ & R) [<-|Hc]; [lia|auto]. Qed.

Lemma rep_sees A G : forall p prev, rep A G -> seg A p prev (roots G) 0 -> sees A (p, hd 0 (roots G)) G.
Proof.
  induction G as [|j w s IHs r IHr]; intros p prev R S; cbn [sees roots hd snd]; [reflexivity|].
  cbn [rep] in R. destruct R as (B & Hv & Nd & [C1 C2] & Rs & Rr). cbn [roots seg] in S. destruct S as (P1 & P2 & P3 & P4).
  unfold it_deref, it_parent, it_begin, it_inc. cbn [fst snd]. destruct (Nat.eqb_spec j 0); [lia|].
  split; [reflexivity|]. split; [assumption|]. split; [assumption|]. split.
  { intros c. rewrite (g_par_ok A j) by lia. now rewrite P1. }
  split.
  - rewrite (g_chd_ok A j) by lia. rewrite C1. eexists. split; [reflexivity|]. eapply IHs; eauto.
  - rewrite (g_nxt_ok A j) by lia. rewrite P3. eexists. split; [reflexivity|]. eapply IHr; eauto.
Qed.

Theorem inv_sees A F fl : Inv A F FNil fl -> exists b, t_begin A = Some b /\ sees A b F.
Proof.
  intros H. pose proof (inv_chain _ _ _ _ H 0 (or_introl eq_refl)) as [C1 C2]. cbn in C1, C2.
  exists (0, hd 0 (roots F)). unfold t_begin. rewrite (g_chd_ok A 0) by apply (inv_len _ _ _ _ H). rewrite C1. split; [reflexivity|].
  eapply rep_sees; [eapply inv_rep; eauto|exact C2].
Qed.

(** what is seen is determined *)
Lemma sees_unique A F : forall it G, sees A it F -> sees A it G -> F = G.
Proof.
  induction F as [|i v s IHs r IHr]; intros it [|j w s' r'] H1 H2; cbn [sees] in *; try congruence.
  - destruct H2 as (? & ? & _). congruence.
  - destruct H1 as (? & ? & _). congruence.
  - destruct H1 as (A1 & A2 & A3 & A4 & (b & A5 & A6) & (n & A7 & A8)).
    destruct H2 as (B1 & B2 & B3 & B4 & (b' & B5 & B6) & (n' & B7 & B8)).
    rewrite A5 in B5. rewrite A7 in B7. injection B5 as <-. injection B7 as <-. f_equal; [congruence|congruence|eauto|eauto].
Qed.

(** ** size *)
Lemma rep_frev A s : forall r, rep A s -> rep A r -> rep A (frev_app s r).
Proof. induction s as [|i v s' _ s2 IH]; cbn [frev_app rep]; intros r H Hr; [auto|]. apply IH; [tauto|]. cbn [rep]. tauto. Qed.

Lemma size_loop_ok A : forall fuel D n, rep A D -> length (ids D) <= fuel -> size_loop fuel A (roots D) n = Some (n + length (ids D)).
Proof.
  induction fuel as [|fuel IH]; intros D n R Hf.
  - destruct D; [|cbn in Hf; lia]. cbn. f_equal. lia.
  - destruct D as [|i v s r]; [cbn; f_equal; lia|]. cbn [roots size_loop]. cbn [rep] in R. destruct R as (B & Hv & Nd & C & Rs & Rr).
    rewrite (g_chd_ok A i) by lia. rewrite (sibs_from_ok A i (roots s)); auto. 2:{ intros c. now apply rep_bound. }
    rewrite <- roots_frev. rewrite IH.
    + rewrite (Permutation_length (ids_frev s r)). cbn [ids length]. f_equal. lia.
    + now apply rep_frev.
    + rewrite (Permutation_length (ids_frev s r)). cbn in Hf. lia.
Qed.

Lemma size_roots_ok A : forall G prev fuel n, rep A G -> NoDup (ids G) -> (forall x, In x (ids G) -> x < length A) ->
  seg A 0 prev (roots G) 0 -> length (roots G) < fuel ->
  size_roots fuel A (0, hd 0 (roots G)) (0, 0) n = Some (n + length (ids G)).
Proof.
  induction G as [|j w s _ r IH]; intros prev fuel n R N Hb S Hf; (destruct fuel as [|fuel]; [cbn in Hf; lia|]); cbn [size_roots].
  - cbn. f_equal. lia.
  - cbn [rep] in R. destruct R as (B & Hv & Nd & C & Rs & Rr). cbn [roots seg hd] in *. destruct S as (P1 & P2 & P3 & P4).
    unfold it_neq. cbn [fst snd]. destruct (Nat.eqb_spec j 0); [lia|]. cbn [negb orb].
    unfold size_at. cbn [snd]. destruct (Nat.eqb_spec j 0); [lia|].
    cbn [ids] in N. rewrite NoDup_cons_iff, NoDup_app_iff, in_app_iff in N. destruct N as (N1 & N2 & N3 & N4).
    change [j] with (roots (FCons j w s FNil)). rewrite size_loop_ok.
    + unfold it_inc. cbn [fst snd]. destruct (Nat.eqb_spec j 0); [lia|]. rewrite (g_nxt_ok A j) by lia. rewrite P3.
      rewrite (IH j); auto.
      * cbn [ids length]. rewrite app_nil_r, app_length. f_equal. lia.
      * intros x Hx. apply Hb. right. apply in_or_app. auto.
      * cbn in Hf. lia.
    + cbn [rep]. tauto.
    + apply bounded_length.
      * cbn [ids]. rewrite app_nil_r. constructor; tauto.
      * intros c Hc. apply Hb. cbn [ids] in *. rewrite app_nil_r in Hc. destruct Hc as [?|Hc]; [now left|right; apply in_or_app; auto].
Qed.

Theorem inv_size A F fl : Inv A F FNil fl -> size A = Some (length (ids F)).
Proof.
  intros H. pose proof (inv_nodup _ _ _ _ H) as N. apply app3_nodup in N. destruct N as (N1 & _).
  assert (Hb : forall x, In x (ids F) -> 0 < x < length A).
  { intros x Hx. apply (inv_bound _ _ _ _ _ H). apply in_or_app. auto. }
  pose proof (inv_chain _ _ _ _ H 0 (or_introl eq_refl)) as [C1 C2]. cbn in C1, C2.
  unfold size, t_begin. rewrite (g_chd_ok A 0) by apply (inv_len _ _ _ _ H). rewrite C1. unfold t_end.
  rewrite (size_roots_ok A F (last (roots F) 0)); auto.
  - eapply inv_rep; eauto.
  - intros x Hx. apply Hb in Hx. lia.
  - assert (length (roots F) <= length A); [|lia]. apply bounded_length; [now apply NoDup_roots|].
    intros c Hc. apply roots_ids, Hb in Hc. lia.
Qed.

(** size of a subtree *)
Lemma rep_find A F i v s : rep A F -> find F i = Some (v, s) -> rep A (FCons i v s FNil).
Proof.
  induction F as [|j w s' IHs r IHr]; cbn [find]; [discriminate|]. intros R. cbn [rep] in R. destruct (Nat.eqb_spec j i).
  - intros [= -> ->]. subst. cbn [rep]. tauto.
  - destruct (find s' i) as [x|] eqn:E; [intros [= ->]|]; intros; [apply IHs|apply IHr]; tauto.
Qed.

Theorem inv_size_at A F fl p i v s : Inv A F FNil fl -> find F i = Some (v, s) -> size_at A (p, i) = Some (S (length (ids s))).
Proof.
  intros H E. pose proof (inv_nodup _ _ _ _ H) as N. apply app3_nodup in N. destruct N as (N1 & _).
  assert (Hb : forall x, In x (ids F) -> 0 < x < length A).
  { intros x Hx. apply (inv_bound _ _ _ _ _ H). apply in_or_app. auto. }
  destruct (find_in _ _ _ _ E) as [Ii Is]. unfold size_at. cbn [snd]. pose proof (Hb i Ii). destruct (Nat.eqb_spec i 0); [lia|].
  change [i] with (roots (FCons i v s FNil)). rewrite size_loop_ok.
  - cbn [ids length]. now rewrite app_nil_r.
  - eapply rep_find; eauto. eapply inv_rep; eauto.
  - apply bounded_length.
    + cbn [ids]. rewrite app_nil_r. eapply find_nodup; eauto.
    + cbn [ids]. rewrite app_nil_r. intros c [<-|Hc]; [lia|]. apply Is, Hb in Hc. lia.
Qed.

(** ** histories *)
Lemma step_inv dv A F fl o F' out : Inv A F FNil fl -> spec_step F o F' out ->
  exists B fl', step dv A o = Some (B, out) /\ Inv B F' FNil fl'.
Proof.
  intros H S. destruct S; cbn [step].
  - destruct (insert_inv A F fl p b v H H0) as (B & E & I & _). rewrite E. eauto.
  - destruct (erase_inv A F fl p i H H0 H1) as (B & fl' & E & I & _). rewrite E. eauto.
  - destruct (move_inv A F fl p b q i v s H H0 H1 H2 H3 H4 H5) as (B & E & I & _). rewrite E. eauto.
  - rewrite (move_throws A F fl p b q i v s H H0 H3 H4). eauto.
  - exists (tree_init dv), []. split; [reflexivity|apply init_inv].
Qed.

Lemma run_inv dv F ops F' outs : spec_run F ops F' outs -> forall A fl, Inv A F FNil fl ->
  exists B fl', run dv A ops = Some (B, outs) /\ Inv B F' FNil fl'.
Proof.
  induction 1 as [F|F o F1 out ops F2 outs S R IH]; intros A fl H; [exists A, fl; auto|].
  destruct (step_inv dv A _ fl _ _ _ H S) as (B & fl' & E & I). destruct (IH B fl' I) as (C & fl'' & E' & I').
  exists C, fl''. cbn [run]. rewrite E, E'. auto.
Qed.
End Ops.
