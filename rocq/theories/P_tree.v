(** Theorems about the tree container and its traversals (C20-C25).

    A history is a list of operations; [spec_run FNil ops F outs] says that the history is valid (every position
    names a node of the tree at that time) and that, on ordered forests, it gives the forest F and the results outs.
    [run] performs the same history on the node array. *)
From Coq Require Import List Arith Bool Lia Permutation Sorted.
From Verif Require Import M_tree L_tree L_tree2 L_tree3 L_tree4 L_tree5 L_tree6.
Import ListNotations.
Open Scope tree_scope.

Section T.
Context {V : Type}.
Variable dv : V.
Implicit Types (A B : arena V) (F : forest V).

Lemma reach_inv ops F outs A outs' : spec_run FNil ops F outs -> run dv (tree_init dv) ops = Some (A, outs') ->
  exists fl, Inv A F FNil fl.
Proof.
  intros S R. destruct (run_inv dv _ _ _ _ S _ _ (init_inv dv)) as (B & fl & E & I). rewrite E in R. injection R as <- _. eauto.
Qed.

(** C20. Every valid history succeeds, returns the iterators of the forest, and leaves the forest visible through
    begin(), end(), ++, * and parent(); size() is the number of nodes. *)
Theorem C20_history ops F outs : spec_run FNil ops F outs ->
  exists A, run dv (tree_init dv) ops = Some (A, outs) /\ (exists b, t_begin A = Some b /\ sees A b F) /\ size A = Some (length (ids F)).
Proof.
  intros S. destruct (run_inv dv _ _ _ _ S _ _ (init_inv dv)) as (B & fl & E & I). exists B.
  split; [exact E|]. split; [eapply inv_sees; eauto|eapply inv_size; eauto].
Qed.

(** the forest seen is the only one *)
Theorem C20_view_unique A it F G : sees A it F -> sees A it G -> F = G.
Proof. apply sees_unique. Qed.

Lemma vals_find F i v s : find F i = Some (v, s) -> In (i, v) (vals F).
Proof.
  induction F as [|j w s' IHs r IHr]; cbn; [discriminate|]. rewrite in_app_iff. destruct (Nat.eqb_spec j i).
  - intros [= -> _]. subst. auto.
  - destruct (find s' i) as [[]|]; [intros [= -> ->]|]; auto.
Qed.
Lemma vals_of F i : In i (ids F) -> exists v, In (i, v) (vals F).
Proof. intros H. destruct (find_some F i H) as (v & s & E). exists v. eapply vals_find; eauto. Qed.

Lemma step_vals F o F' out i : NoDup (ids F) -> spec_step F o F' out -> In i (ids F) -> In i (ids F') ->
  forall v, In (i, v) (vals F) -> In (i, v) (vals F').
Proof.
  intros N S Hi Hi' v Hv. destruct S as [F p b w P|F p j Pp Pj|F p b q j w s P Pq Pj Ef Np Nb|F p b q j w s P Pq Pj Ef Hin|F].
  - apply (Permutation_in _ (Permutation_sym (graft_vals F p b _ w FNil N (proj1 P)))). apply in_or_app. auto.
  - destruct (find_some F j (ch_in _ _ _ Pj)) as (w & s & Ef).
    apply (Permutation_in _ (cut_vals F j w s N Ef)) in Hv. apply in_app_or in Hv. destruct Hv as [Hv|Hv]; auto. exfalso.
    pose proof (Permutation_NoDup (cut_ids F j w s N Ef) N) as N'. apply NoDup_app_iff in N'. destruct N' as (_ & _ & D).
    apply (D i); auto. destruct Hv as [Hv|Hv]; [left; congruence|right; eapply vals_ids; eauto].
  - assert (Nc := cut_nodup F j N). assert (Pp : p = 0 \/ In p (ids (cut F j))).
    { destruct P as [[?|P] _]; [auto|right]. eapply cut_has; eauto. }
    apply (Permutation_in _ (cut_vals F j w s N Ef)) in Hv.
    apply (Permutation_in _ (Permutation_sym (graft_vals (cut F j) p b j w s Nc Pp))). exact Hv.
  - exact Hv.
  - destruct Hi'.
Qed.

(** an iterator denotes the same value after any operation that keeps its node *)
Theorem C20_iterators_stable ops F outs A outs' o F' out B out' p i :
  spec_run FNil ops F outs -> run dv (tree_init dv) ops = Some (A, outs') ->
  spec_step F o F' out -> step dv A o = Some (B, out') ->
  In i (ids F) -> In i (ids F') -> it_deref B (p, i) = it_deref A (p, i) /\ it_deref A (p, i) <> None.
Proof.
  intros S R S' R' Hi Hi'. destruct (reach_inv _ _ _ _ _ S R) as (fl & I). destruct (step_inv dv A F fl o F' out I S') as (B' & fl' & E & I').
  rewrite E in R'. injection R' as <- _. destruct (vals_of F i Hi) as (v & Hv).
  assert (N : NoDup (ids F)). { pose proof (inv_nodup _ _ _ _ I) as N. now apply app3_nodup in N. }
  pose proof (step_vals F o F' out i N S' Hi Hi' v Hv) as Hv'.
  assert (0 < i < length A). { apply (inv_bound _ _ _ _ _ I). apply in_or_app. auto. }
  unfold it_deref. cbn [snd]. destruct (Nat.eqb_spec i 0); [lia|].
  rewrite (inv_val _ _ _ _ I i v), (inv_val _ _ _ _ I' i v) by (apply in_or_app; auto). split; [reflexivity|discriminate].
Qed.

(** C21. The slots other than slot 0 are the nodes of the forest, each once, and the slots on the free list, each once. *)
Lemma flist_walk A : forall l fuel prev, fseg A prev l 0 -> (forall f, In f l -> f < length A /\ f <> 0) -> length l < fuel ->
  sibs fuel A (hd 0 l) = Some l.
Proof.
  induction l as [|f l IH]; intros fuel prev S Hb Hf; (destruct fuel as [|fuel]; [cbn in Hf; lia|]); cbn [sibs hd]; [reflexivity|].
  destruct (Hb f (or_introl eq_refl)). destruct (Nat.eqb_spec f 0); [lia|]. cbn [fseg] in S. rewrite g_nxt_ok by lia.
  destruct S as (S1 & S2 & S3 & S4). rewrite S2. rewrite (IH fuel f S4); auto; [intros g Hg; apply Hb; now right|cbn in Hf; lia].
Qed.

Theorem C21_slots ops F outs A outs' : spec_run FNil ops F outs -> run dv (tree_init dv) ops = Some (A, outs') ->
  exists fl, (do j <- g_nxt A 0; sibs_from A j) = Some fl /\ StronglySorted lt fl /\ Permutation (ids F ++ fl) (seq 1 (length A - 1)).
Proof.
  intros S R. destruct (reach_inv _ _ _ _ _ S R) as (fl & I). exists fl.
  split; [|split; [apply (inv_sorted _ _ _ _ I)|apply (inv_ids _ _ _ _ I)]].
  assert (Hb : forall f, In f fl -> 0 < f < length A). { intros f Hf. apply (inv_bound _ _ _ _ _ I). apply app3_in. auto. }
  rewrite g_nxt_ok by apply (inv_len _ _ _ _ I). destruct (inv_free _ _ _ _ I) as [E1 E2]. rewrite E1. unfold sibs_from.
  eapply (flist_walk A); eauto.
  - intros f Hf. apply Hb in Hf. lia.
  - assert (length fl <= length A); [|lia]. apply bounded_length; [apply sorted_nodup, (inv_sorted _ _ _ _ I)|]. intros c Hc. apply Hb in Hc. lia.
Qed.

(** The array grows only when every slot is in use; a new node takes the lowest unused slot; erasing and moving keep the size. *)
Theorem C21_reuse ops F outs A outs' p b v : spec_run FNil ops F outs -> run dv (tree_init dv) ops = Some (A, outs') ->
  position F p b -> exists B i, insert A (p, b) v = Some (B, (p, i)) /\
    1 <= i /\ ~ In i (ids F) /\ (forall j, 1 <= j < i -> In j (ids F)) /\
    length B = Nat.max (length A) (S (S (length (ids F)))) /\
    (length (ids F) < length A - 1 -> length B = length A).
Proof.
  intros S R P. destruct (reach_inv _ _ _ _ _ S R) as (fl & I). destruct (insert_inv A F fl p b v I P) as (B & E & IB & Hn & L).
  exists B, (fresh (ids F)). split; [exact E|]. split; [apply fresh_not_in|]. split; [exact Hn|]. split; [|split; [exact L|lia]].
  intros j Hj. unfold fresh in Hj. set (l := ids F) in *.
  destruct (existsb (Nat.eqb j) l) eqn:Ej; [now apply existsb_in|]. exfalso.
  pose proof (inv_fresh _ _ _ I) as Ef. unfold fresh in Ef. fold l in Ef. rewrite <- Ef in Hj. 
  assert (Hin : In j (l ++ fl)).
  { apply (Permutation_in _ (Permutation_sym (inv_ids _ _ _ _ I))). apply in_seq.
    assert (hd (length A) fl <= length A); [|lia]. destruct fl as [|f fl]; cbn; [lia|].
    assert (0 < f < length A); [|lia]. apply (inv_bound _ _ _ _ _ I). apply app3_in. right. right. now left. }
  apply in_app_or in Hin. destruct Hin as [Hin|Hin]; [apply existsb_in in Hin; congruence|].
  pose proof (inv_sorted _ _ _ _ I) as Hs. destruct fl as [|f fl]; [destruct Hin|]. cbn in Hj.
  inversion Hs as [|? ? _ Hlt]; subst. destruct Hin as [<-|Hin]; [lia|]. rewrite Forall_forall in Hlt. apply Hlt in Hin. lia.
Qed.

Theorem C21_no_growth ops F outs A outs' o F' out B out' : spec_run FNil ops F outs -> run dv (tree_init dv) ops = Some (A, outs') ->
  spec_step F o F' out -> step dv A o = Some (B, out') ->
  match o with OErase _ _ | OMove _ _ _ _ => length B = length A | OClear => length B = 1 | OInsert _ _ _ => True end.
Proof.
  intros S R S' R'. destruct (reach_inv _ _ _ _ _ S R) as (fl & I). destruct S'; auto; cbn [step] in R'.
  - destruct (erase_inv A F fl p i I H H0) as (B' & fl' & E & _ & L). rewrite E in R'. now injection R' as <- _.
  - destruct (move_inv A F fl p b q i v s I H H0 H1 H2 H3 H4) as (B' & E & _ & L). rewrite E in R'. now injection R' as <- _.
  - rewrite (move_throws A F fl p b q i v s I H H2 H3) in R'. now injection R' as <- _.
  - now injection R' as <- _.
Qed.

(** C22. Moving: a position outside the subtree (and not the subtree itself) takes the subtree there and nothing else changes. *)
Theorem C22_move_partial ops F outs A outs' p b q i v s : spec_run FNil ops F outs -> run dv (tree_init dv) ops = Some (A, outs') ->
  position F p b -> (q = 0 \/ In q (ids F)) -> In i (ch F q) -> find F i = Some (v, s) ->
  ~ In p (i :: ids s) -> b <> i ->
  exists B, move A (p, b) (q, i) = Some (Some (B, (p, i))) /\ (exists it, t_begin B = Some it /\ sees B it (graft (cut F i) p b i v s)) /\
    size B = size A /\ length B = length A.
Proof.
  intros S R P Pq Pi Ef Np Nb. destruct (reach_inv _ _ _ _ _ S R) as (fl & I).
  destruct (move_inv A F fl p b q i v s I P Pq Pi Ef Np Nb) as (B & E & IB & L). exists B. split; [exact E|].
  split; [eapply inv_sees; eauto|]. split; [|exact L]. rewrite (inv_size _ _ _ I), (inv_size _ _ _ IB).
  assert (N : NoDup (ids F)). { pose proof (inv_nodup _ _ _ _ I) as N. now apply app3_nodup in N. }
  f_equal. rewrite (Permutation_length (cut_ids F i v s N Ef)). apply Permutation_length. apply graft_ids; [now apply cut_nodup|].
  destruct P as [[?|P] _]; [auto|right]. eapply cut_has; eauto.
Qed.

(** A position that is the node itself or a node below it is refused. *)
Theorem C22_refused ops F outs A outs' p b q i v s : spec_run FNil ops F outs -> run dv (tree_init dv) ops = Some (A, outs') ->
  position F p b -> find F i = Some (v, s) -> In b (i :: ids s) -> move A (p, b) (q, i) = Some None.
Proof.
  intros S R P Ef Hin. destruct (reach_inv _ _ _ _ _ S R) as (fl & I). eapply move_throws; eauto.
Qed.

(** C23. Copying a subtree whose nodes have grandchildren only along last children, to a position outside it. *)
Theorem C23_copy_partial ops F outs A outs' p b q i v s fuel : spec_run FNil ops F outs -> run dv (tree_init dv) ops = Some (A, outs') ->
  position F p b -> (q = 0 \/ In q (ids F)) -> In i (ch F q) -> find F i = Some (v, s) ->
  ~ In p (i :: ids s) -> copyable s -> length (ids s) <= fuel ->
  exists B n t, insert_copy fuel A (p, b) (q, i) = Some (B, (p, n)) /\ ~ In n (ids F) /\ alike s t /\
    (exists it, t_begin B = Some it /\ sees B it (graft F p b n v t)).
Proof.
  intros S R P Pq Pi Ef Np Hc Hf. destruct (reach_inv _ _ _ _ _ S R) as (fl & I).
  destruct (copy_inv A F fl p b q i v s fuel I P Pq Pi Ef Np Hc Hf) as (B & fl' & t & E & IB & Al).
  exists B, (fresh (ids F)), t. split; [exact E|]. split; [apply fresh_not_in|]. split; [exact Al|]. eapply inv_sees; eauto.
Qed.

(** C24. Pre-order and level-order traversal visit every position once, in the order of the definition. *)
Theorem C24_traversals ops F outs A outs' q i v s : spec_run FNil ops F outs -> run dv (tree_init dv) ops = Some (A, outs') ->
  find F i = Some (v, s) ->
  traverse pre_next (length A) A [(q, i)] = Some (preorder q (FCons i v s FNil)) /\
  traverse level_next (length A) A [(q, i)] = Some (levels q (FCons i v s FNil)).
Proof. intros S R E. destruct (reach_inv _ _ _ _ _ S R) as (fl & I). eapply inv_traverse_at; eauto. Qed.

Lemma preorder_ids p F : map snd (preorder p F) = ids F.
Proof. revert p. induction F as [|i v s IHs r IHr]; intros p; cbn; [reflexivity|]. now rewrite map_app, IHs, IHr. Qed.

Lemma level_perm : forall F p, Permutation (levels p F) (preorder p F).
Proof.
  assert (G : forall F p h, height F <= h -> Permutation (concat (map (fun k => level k p F) (seq 0 h))) (preorder p F)).
  { induction F as [|i v s IHs r IHr]; intros p h Hh; cbn [height preorder] in *.
    - cbn. clear. induction (seq 0 h); cbn; auto.
    - assert (D : forall l, Permutation (concat (map (fun k => level k p (FCons i v s r)) l))
          (concat (map (fun k => match k with 0 => [(p, i)] | S k => level k i s end) l) ++ concat (map (fun k => level k p r) l))).
      { induction l as [|k l IH]; [reflexivity|]. cbn [map concat level]. rewrite IH. rewrite <- !app_assoc. apply Permutation_app_head.
        rewrite !app_assoc. apply Permutation_app_tail. apply Permutation_app_comm. }
      rewrite D. rewrite IHr by lia. destruct h as [|h]; [lia|]. cbn [seq map concat]. rewrite <- seq_shift, map_map. cbn [app].
      apply perm_skip. apply Permutation_app_tail. apply IHs. lia. }
  intros F p. now apply G.
Qed.

(** each node of the subtree is visited exactly once by either traversal *)
Theorem C24_once ops F outs A outs' q i v s : spec_run FNil ops F outs -> run dv (tree_init dv) ops = Some (A, outs') ->
  find F i = Some (v, s) ->
  exists l1 l2, traverse pre_next (length A) A [(q, i)] = Some l1 /\ traverse level_next (length A) A [(q, i)] = Some l2 /\
    NoDup (map snd l1) /\ map snd l1 = i :: ids s /\ Permutation l1 l2.
Proof.
  intros S R E. destruct (reach_inv _ _ _ _ _ S R) as (fl & I). destruct (inv_traverse_at A F fl q i v s I E) as [E1 E2].
  exists (preorder q (FCons i v s FNil)), (levels q (FCons i v s FNil)). split; [exact E1|]. split; [exact E2|].
  rewrite preorder_ids. cbn [ids]. rewrite app_nil_r.
  split; [|split; [reflexivity|apply Permutation_sym, level_perm]].
  eapply find_nodup; eauto. pose proof (inv_nodup _ _ _ _ I) as N. now apply app3_nodup in N.
Qed.

(** C25. Below a node, -- undoes ++ and ++ undoes --, and -- at the end gives the last child. *)
Theorem C25_siblings_partial ops F outs A outs' p : spec_run FNil ops F outs -> run dv (tree_init dv) ops = Some (A, outs') ->
  In p (ids F) ->
  (forall c, In c (ch F p) -> exists n, it_inc A (p, c) = Some n /\ it_dec A n = Some (p, c)) /\
  (forall n c, (n = 0 /\ ch F p <> [] \/ In n (ch F p)) -> it_dec A (p, n) = Some c -> it_inc A c = Some (p, n)) /\
  (ch F p <> [] -> it_dec A (p, 0) = Some (p, last (ch F p) 0)).
Proof.
  intros S R Hp. destruct (reach_inv _ _ _ _ _ S R) as (fl & I).
  split; [|split].
  - intros c Hc. eapply inv_inc_dec; eauto.
  - intros n c Hn. eapply inv_dec_inc; eauto.
  - intros Hn. eapply inv_end_dec; eauto.
Qed.

(** with one root, -- at the end of the tree gives the root and front() and back() are its value *)
Theorem C25_one_root_partial ops i v s outs A outs' : spec_run FNil ops (FCons i v s FNil) outs -> run dv (tree_init dv) ops = Some (A, outs') ->
  it_dec A (t_end A) = Some (0, i) /\ front A = Some v /\ back A = Some v.
Proof.
  intros S R. destruct (reach_inv _ _ _ _ _ S R) as (fl & I). split; [eapply inv_end_dec_root; eauto|].
  assert (front A = Some v); [|auto]. eapply inv_front; eauto.
Qed.
End T.

(** * Witnesses *)
Ltac wit := repeat (match goal with |- _ /\ _ => split end); (vm_compute; reflexivity).

(** a history: root 1, children 2 and 3, 2 erased, 4 put in its slot, moved under 3 *)
Definition hist : list (op nat) :=
  [OInsert 0 0 10; OInsert 1 0 20; OInsert 1 0 30; OErase 1 2; OInsert 1 3 40; OMove 3 0 1 2].
Definition hist_forest : forest nat := FCons 1 10 (FCons 3 30 (FCons 2 40 FNil FNil) FNil) FNil.
Definition hist_outs : list (option iter) := [Some (0, 1); Some (1, 2); Some (1, 3); Some (1, 3); Some (1, 2); Some (3, 2)].

Example hist_valid : spec_run FNil hist hist_forest hist_outs.
Proof.
  unfold hist, hist_outs.
  eapply SCons. { apply (SInsert FNil 0 0 10). split; auto. } cbn.
  eapply SCons. { apply (SInsert (FCons 1 10 FNil FNil) 1 0 20). split; cbn; auto. } cbn.
  eapply SCons. { apply (SInsert (FCons 1 10 (FCons 2 20 FNil FNil) FNil) 1 0 30). split; cbn; auto. } cbn.
  eapply SCons. { apply (SErase (FCons 1 10 (FCons 2 20 FNil (FCons 3 30 FNil FNil)) FNil) 1 2); cbn; auto. } cbn.
  eapply SCons. { apply (SInsert (FCons 1 10 (FCons 3 30 FNil FNil) FNil) 1 3 40). split; cbn; auto. } cbn.
  eapply SCons. { apply (SMove (FCons 1 10 (FCons 2 40 FNil (FCons 3 30 FNil FNil)) FNil) 3 0 1 2 40 FNil); cbn; auto; [split; cbn; auto|lia]. }
  cbn. constructor.
Qed.

Example C20_ex : exists A, run 0 (tree_init 0) hist = Some (A, hist_outs) /\ size A = Some 3.
Proof. eexists. wit. Qed.
Example C21_ex : exists A o, run 0 (tree_init 0) (hist ++ [OErase 3 2]) = Some (A, o) /\ (do j <- g_nxt A 0; sibs_from A j) = Some [2].
Proof. do 2 eexists. wit. Qed.

(** two roots, a chain below the first *)
Definition hist2 : list (op nat) := [OInsert 0 0 1; OInsert 1 0 2; OInsert 2 0 3; OInsert 0 0 4].
Definition forest2 : forest nat := FCons 1 1 (FCons 2 2 (FCons 3 3 FNil FNil) FNil) (FCons 4 4 FNil FNil).
Example hist2_valid : exists outs, spec_run FNil hist2 forest2 outs.
Proof.
  eexists. unfold hist2.
  eapply SCons. { apply (SInsert FNil 0 0 1). split; auto. } cbn.
  eapply SCons. { apply (SInsert (FCons 1 1 FNil FNil) 1 0 2). split; cbn; auto. } cbn.
  eapply SCons. { apply (SInsert (FCons 1 1 (FCons 2 2 FNil FNil) FNil) 2 0 3). split; cbn; auto. } cbn.
  eapply SCons. { apply (SInsert (FCons 1 1 (FCons 2 2 (FCons 3 3 FNil FNil) FNil) FNil) 0 0 4). split; cbn; auto. } cbn.
  constructor.
Qed.
Example C22_ex : exists A o, run 0 (tree_init 0) hist2 = Some (A, o) /\
  position forest2 4 0 /\ In 2 (ch forest2 1) /\ ~ In 4 [2; 3] /\
  (exists B, move A (4, 0) (1, 2) = Some (Some (B, (4, 2)))) /\ move A (2, 3) (1, 2) = Some None.
Proof.
  do 2 eexists. split; [vm_compute; reflexivity|]. split; [split; cbn; tauto|]. split; [cbn; auto|]. split; [cbn; lia|].
  split; [eexists|]; (vm_compute; reflexivity).
Qed.
Example C23_ex : copyable (FCons 2 2 (FCons 3 3 FNil FNil) (FCons 5 5 (FCons 6 6 (FCons 7 7 FNil FNil) FNil) FNil)).
Proof. cbn. auto. Qed.
Example C23_ex2 : exists A o B, run 0 (tree_init 0) hist2 = Some (A, o) /\ copyable (FCons 2 2 (FCons 3 3 FNil FNil) FNil) /\
  insert_copy 2 A (4, 0) (0, 1) = Some (B, (4, 5)) /\ traverse pre_next 7 B [(0, 4)] = Some [(0, 4); (4, 5); (5, 6); (6, 7)].
Proof. do 3 eexists. split; [vm_compute; reflexivity|]. split; [cbn; auto|]. wit. Qed.
Example C24_ex : exists A o, run 0 (tree_init 0) hist2 = Some (A, o) /\
  traverse level_next 5 A [(0, 1)] = Some [(0, 1); (1, 2); (2, 3)] /\ levels 0 (FCons 1 1 (FCons 2 2 FNil (FCons 3 3 FNil FNil)) FNil) = [(0, 1); (1, 2); (1, 3)].
Proof. do 2 eexists. wit. Qed.

(** move(r.end(), r) is accepted for a single root r: afterwards the tree is empty and r is its own parent and child *)
Theorem C22_end_inside_refuted : exists (A B : arena nat) o,
  run 0 (tree_init 0) [OInsert 0 0 7] = Some (A, o) /\ it_end A (0, 1) = Some (1, 0) /\
  move A (1, 0) (0, 1) = Some (Some (B, (1, 1))) /\ size B = Some 0 /\ it_parent B (1, 1) = Some (1, 1) /\ it_begin B (1, 1) = Some (1, 1).
Proof. do 3 eexists. wit. Qed.

(** in general: an end position inside the subtree is never refused *)
Theorem C22_end_never_refused (A : arena nat) p q i : move A (p, 0) (q, i) <> Some None.
Proof. unfold move. cbn [fst snd meets Nat.eqb]. destruct (unlink A i); [|discriminate]. destruct (link _ _ _ _); discriminate. Qed.

(** copying r with children a and b, where a has a child with a child, puts the copy of b under the copy of a *)
Definition hist3 : list (op nat) :=
  [OInsert 0 0 100; OInsert 1 0 1; OInsert 2 0 2; OInsert 3 0 3; OInsert 1 0 4; OInsert 0 0 200].
Definition st3 : arena nat := Eval vm_compute in match run 0 (tree_init 0) hist3 with Some (A, _) => A | None => [] end.
Definition cp3 : arena nat := Eval vm_compute in match insert_copy 10 st3 (6, 0) (0, 1) with Some (B, _) => B | None => [] end.
Theorem C23_copy_refuted : exists (A B : arena nat) o,
  run 0 (tree_init 0) hist3 = Some (A, o) /\
  (* the source: 100 with children 1 and 4 *)
  children A (0, 1) = Some [(1, 2); (1, 5)] /\
  insert_copy 10 A (6, 0) (0, 1) = Some (B, (6, 7)) /\
  (* the copy has one child; the copy of 4 is below the copy of 1 *)
  children B (6, 7) = Some [(7, 8)] /\ it_deref B (7, 8) = Some 1 /\
  children B (7, 8) = Some [(8, 9); (8, 11)] /\ it_deref B (8, 11) = Some 4.
Proof. exists st3, cp3. eexists. wit. Qed.

(** two roots: -- at the end gives the first root, -- on the second root fails, back() is the first value *)
Theorem C25_roots_refuted : exists (A : arena nat) o,
  run 0 (tree_init 0) [OInsert 0 0 1; OInsert 0 0 2] = Some (A, o) /\
  it_inc A (0, 1) = Some (0, 2) /\ it_inc A (0, 2) = Some (t_end A) /\
  it_dec A (t_end A) = Some (0, 1) /\ it_dec A (0, 2) = None /\ back A = Some 1 /\ it_deref A (0, 2) = Some 2.
Proof. do 2 eexists. wit. Qed.

Example C25_ex : exists A o, run 0 (tree_init 0) hist2 = Some (A, o) /\ In 1 (ids forest2) /\ it_dec A (1, 0) = Some (1, 2).
Proof. do 2 eexists. split; [vm_compute; reflexivity|]. split; [cbn; auto|vm_compute; reflexivity]. Qed.
Example C25_ex2 : exists outs, spec_run FNil [OInsert 0 0 5] (FCons 1 5 FNil FNil) outs.
Proof. eexists. eapply SCons. { apply (SInsert FNil 0 0 5). split; auto. } cbn. constructor. Qed.

Print Assumptions C20_history.
Print Assumptions C20_view_unique.
Print Assumptions C20_iterators_stable.
Print Assumptions C21_slots.
Print Assumptions C21_reuse.
Print Assumptions C21_no_growth.
Print Assumptions C22_move_partial.
Print Assumptions C22_refused.
Print Assumptions C22_end_inside_refuted.
Print Assumptions C22_end_never_refused.
Print Assumptions C23_copy_partial.
Print Assumptions C23_copy_refuted.
Print Assumptions C24_traversals.
Print Assumptions C24_once.
Print Assumptions C25_siblings_partial.
Print Assumptions C25_one_root_partial.
Print Assumptions C25_roots_refuted.
