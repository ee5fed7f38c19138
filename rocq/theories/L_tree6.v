(** Subtree copies. *)
From Coq Require Import List Arith Bool Lia Permutation Sorted.
From Verif Require Import M_tree L_tree L_tree2 L_tree3 L_tree4 L_tree5.
Import ListNotations.
Open Scope tree_scope.

Local Arguments Nat.ltb : simpl never.

Section Copy.
Context {V : Type}.
Notation forest := (forest V).
Notation arena := (arena V).
Implicit Types A B : arena.
Implicit Types F D G X s t : forest.

(** ** forests *)
Lemma put_end n v t F : ~ In 0 (roots F) -> put 0 n v t F = fapp F (FCons n v t FNil).
Proof.
  induction F as [|j w s _ r IH]; cbn; intros H; [reflexivity|]. destruct (Nat.eqb_spec j 0); [tauto|]. now rewrite IH by tauto.
Qed.

Lemma fapp_assoc F G X : fapp (fapp F G) X = fapp F (fapp G X).
Proof. induction F as [|j w s _ r IH]; cbn; congruence. Qed.

Lemma edit_ext p (f g : forest -> forest) F : (forall u, f u = g u) -> edit p f F = edit p g F.
Proof. intros E. induction F as [|j w s IHs r IHr]; cbn; [reflexivity|]. now rewrite E, IHs, IHr. Qed.

Lemma edit_sub p (f g : forest -> forest) F (P : forest -> Prop) : (forall u, P u -> f u = g u) ->
  P F -> (forall j w s r, P (FCons j w s r) -> P s /\ P r) -> edit p f F = edit p g F.
Proof.
  intros E H C. induction F as [|j w s IHs r IHr]; cbn; [reflexivity|]. destruct (C _ _ _ _ H). now rewrite E, IHs, IHr.
Qed.

Lemma edit_edit d (f g : forest -> forest) F : edit d f (edit d g F) = edit d (fun u => f (g u)) F.
Proof.
  induction F as [|j w s IHs r IHr]; cbn; [reflexivity|]. destruct (j =? d) eqn:E; cbn; rewrite E; [reflexivity|]. now rewrite IHs, IHr.
Qed.

Lemma ids_fapp F G : ids (fapp F G) = ids F ++ ids G.
Proof. induction F as [|j w s _ r IH]; cbn; [reflexivity|]. now rewrite IH, app_assoc. Qed.

Lemma edit_fapp m (f : forest -> forest) F w h : ~ In m (ids F) -> edit m f (fapp F (FCons m w h FNil)) = fapp F (FCons m w (f h) FNil).
Proof.
  induction F as [|j w' s _ r IH]; cbn; intros H; [now rewrite Nat.eqb_refl|]. rewrite in_app_iff in H.
  destruct (Nat.eqb_spec j m); [tauto|]. rewrite IH by tauto. rewrite edit_out by tauto. reflexivity.
Qed.

Lemma edit_new d m (f : forest -> forest) w h F : ~ In m (ids F) ->
  edit m f (edit d (fun u => fapp u (FCons m w h FNil)) F) = edit d (fun u => fapp u (FCons m w (f h) FNil)) F.
Proof.
  induction F as [|j w' s IHs r IHr]; cbn; intros H; [reflexivity|]. rewrite in_app_iff in H.
  destruct (j =? d) eqn:E; cbn; (destruct (Nat.eqb_spec j m); [tauto|]).
  - rewrite edit_fapp by tauto. rewrite edit_out by tauto. reflexivity.
  - rewrite IHs, IHr by tauto. reflexivity.
Qed.

Lemma edit_keeps d X F x : In x (ids F) -> In x (ids (edit d (fun u => fapp u X) F)).
Proof.
  induction F as [|j w s IHs r IHr]; cbn; [auto|]. rewrite in_app_iff. destruct (j =? d); cbn; rewrite in_app_iff, ?ids_fapp, ?in_app_iff; tauto.
Qed.
Lemma edit_has d X F x : In d (ids F) -> In x (ids X) -> In x (ids (edit d (fun u => fapp u X) F)).
Proof.
  induction F as [|j w s IHs r IHr]; cbn; [intros []|]. rewrite in_app_iff. intros Hd Hx. destruct (Nat.eqb_spec j d); cbn.
  - rewrite ids_fapp, !in_app_iff. tauto.
  - rewrite in_app_iff. destruct Hd as [Hd|[Hd|Hd]]; tauto.
Qed.

(** editing inside the tree (n, v, t) grafted into F *)
Definition ed (n d : nat) (g : forest -> forest) t : forest := if n =? d then g t else edit d g t.

Lemma edit_put d g b n v t F : ~ In d (ids F) -> edit d g (put b n v t F) = put b n v (ed n d g t) F.
Proof.
  unfold ed. induction F as [|j w s _ r IH]; cbn; intros H.
  - destruct (n =? d); reflexivity.
  - rewrite in_app_iff in H. destruct (j =? b); cbn.
    + rewrite (edit_out d g s), (edit_out d g r) by tauto. destruct (Nat.eqb_spec j d); [tauto|]. destruct (n =? d); reflexivity.
    + destruct (Nat.eqb_spec j d); [tauto|]. rewrite (edit_out d g s) by tauto. rewrite IH by tauto. reflexivity.
Qed.

Lemma graft_graft F p b n v t d m w X : d <> 0 -> ~ In d (ids F) -> d <> p -> 
  graft (graft F p b n v t) d 0 m w X = graft F p b n v (ed n d (put 0 m w X) t).
Proof.
  intros H0 H Hp. unfold graft at 1. destruct (Nat.eqb_spec d 0); [contradiction|]. unfold graft. destruct (p =? 0).
  - now apply edit_put.
  - induction F as [|j w' s IHs r IHr]; cbn; [reflexivity|]. cbn in H. rewrite in_app_iff in H.
    destruct (Nat.eqb_spec j p); cbn; (destruct (Nat.eqb_spec j d); [tauto|]).
    + rewrite edit_put by tauto. rewrite (edit_out d _ r) by tauto. reflexivity.
    + rewrite IHs, IHr by tauto. reflexivity.
Qed.

Lemma ed_put n d m w X t : ~ In 0 (ids t) -> ed n d (put 0 m w X) t = ed n d (fun u => fapp u (FCons m w X FNil)) t.
Proof.
  intros H. unfold ed. assert (Ht : ~ In 0 (roots t)) by (intros C; now apply roots_ids in C). rewrite (put_end _ _ _ t Ht).
  destruct (n =? d); [reflexivity|]. apply (edit_sub _ _ _ _ (fun u => ~ In 0 (ids u))); auto.
  - intros u Hu. apply put_end. intros C. now apply roots_ids in C.
  - intros j w' s r Hj. cbn in Hj. rewrite in_app_iff in Hj. tauto.
Qed.

Lemma ed_ed n d (f g : forest -> forest) t : ed n d f (ed n d g t) = ed n d (fun u => f (g u)) t.
Proof. unfold ed. destruct (n =? d); [reflexivity|apply edit_edit]. Qed.
Lemma ed_ext n d (f g : forest -> forest) t : (forall u, f u = g u) -> ed n d f t = ed n d g t.
Proof. intros E. unfold ed. destruct (n =? d); [apply E|now apply edit_ext]. Qed.
Lemma ed_new n d m (f : forest -> forest) w h t : ~ In m (n :: ids t) ->
  ed n m f (ed n d (fun u => fapp u (FCons m w h FNil)) t) = ed n d (fun u => fapp u (FCons m w (f h) FNil)) t.
Proof.
  intros H. cbn in H. unfold ed at 1. destruct (Nat.eqb_spec n m); [tauto|]. unfold ed. destruct (n =? d).
  - apply edit_fapp. tauto.
  - apply edit_new. tauto.
Qed.
Lemma ed_keeps n d X t x : In x (n :: ids t) -> In x (n :: ids (ed n d (fun u => fapp u X) t)).
Proof.
  intros [H|H]; [now left|right]. unfold ed. destruct (n =? d); [rewrite ids_fapp; apply in_or_app; auto|now apply edit_keeps].
Qed.
Lemma ed_has n d X t x : In d (n :: ids t) -> In x (ids X) -> In x (n :: ids (ed n d (fun u => fapp u X) t)).
Proof.
  intros H Hx. right. unfold ed. destruct (Nat.eqb_spec n d); [rewrite ids_fapp; apply in_or_app; auto|].
  apply edit_has; auto. destruct H; [contradiction|assumption].
Qed.

(** the source is not touched *)
Lemma find_put b n v t F i : ~ In i (n :: ids t) -> find (put b n v t F) i = find F i.
Proof.
  intros H. cbn in H. assert (E : forall X, find (FCons n v t X) i = find X i).
  { intros X. cbn. destruct (Nat.eqb_spec n i); [tauto|]. rewrite (proj2 (find_none t i)) by tauto. reflexivity. }
  induction F as [|j w s _ r IH]; cbn [put]; [apply E|]. destruct (j =? b); [apply E|]. cbn [find]. destruct (j =? i); [reflexivity|].
  now rewrite IH.
Qed.
Lemma find_edit_none p b n v t F i : ~ In i (n :: ids t) -> find F i = None -> find (edit p (put b n v t) F) i = None.
Proof.
  intros H. induction F as [|j w s IHs r IHr]; cbn; [auto|]. destruct (Nat.eqb_spec j i); [discriminate|].
  destruct (find s i) eqn:Es; [discriminate|]. intros Hr. destruct (j =? p); cbn; (destruct (Nat.eqb_spec j i); [contradiction|]).
  - rewrite find_put by auto. now rewrite Es.
  - now rewrite IHs, IHr.
Qed.
Lemma find_graft F p b n v t i w s : find F i = Some (w, s) -> ~ In i (n :: ids t) -> ~ In p (i :: ids s) ->
  find (graft F p b n v t) i = Some (w, s).
Proof.
  intros E H Hp. unfold graft. destruct (p =? 0); [now rewrite find_put|].
  induction F as [|j w' s' IHs r IHr]; cbn in *; [discriminate|]. destruct (Nat.eqb_spec j i).
  - injection E as -> ->. subst j. destruct (Nat.eqb_spec i p); [tauto|]. cbn. rewrite Nat.eqb_refl. rewrite edit_out by tauto. reflexivity.
  - destruct (j =? p); cbn; (destruct (Nat.eqb_spec j i); [contradiction|]).
    + rewrite find_put by auto. exact E.
    + destruct (find s' i) as [x|] eqn:Es.
      * now rewrite IHs.
      * rewrite find_edit_none by auto. auto.
Qed.

(** ** children pushed in reverse *)
Lemma push_rev_ok A i l v0 : i <> 0 -> i < length A -> chain A i l -> NoDup l -> (forall x, In x l -> x < length A /\ x <> 0) ->
  forall l1 l2 fuel, l = l1 ++ l2 -> length l1 < fuel ->
  push_rev fuel A (i, hd 0 l2) (i, hd 0 l) (map (pair i) l2 ++ v0) = Some (map (pair i) l ++ v0).
Proof.
  intros Hi Li C N Hb. intros l1. induction l1 as [|c l1 IH] using rev_ind; intros l2 fuel -> Hf; (destruct fuel as [|fuel]; [lia|]); cbn [push_rev].
  - unfold it_neq. cbn [fst snd app]. now rewrite !Nat.eqb_refl.
  - rewrite <- app_assoc in *. cbn [app] in *. unfold it_neq. cbn [fst snd]. rewrite Nat.eqb_refl. cbn [negb]. rewrite orb_false_r.
    assert (hd 0 l2 <> hd 0 (l1 ++ c :: l2)).
    { intros E. assert (Hh : In (hd 0 (l1 ++ c :: l2)) (l1 ++ [c])) by (destruct l1; cbn; auto).
      rewrite <- E in Hh. destruct l2 as [|d l2]; cbn in Hh.
      - apply (Hb 0); auto. 
      - change (l1 ++ c :: d :: l2) with (l1 ++ [c] ++ d :: l2) in N. rewrite app_assoc in N. apply NoDup_app_iff in N. apply (proj2 (proj2 N) d Hh). now left. }
    destruct (Nat.eqb_spec (hd 0 l2) (hd 0 (l1 ++ c :: l2))); [contradiction|]. cbn [negb].
    rewrite (chain_dec A i l1 c l2) by auto.
    specialize (IH (c :: l2) fuel eq_refl). cbn [hd map app] in IH. apply IH. rewrite app_length in Hf. cbn in Hf. lia.
Qed.

Lemma push_children_ok A q i w s v0 : rep A (FCons i w s FNil) -> push_children A (q, i) v0 = Some (map (pair i) (roots s) ++ v0).
Proof.
  cbn [rep]. intros (B & Hv & Nd & C & Rs & _). unfold push_children, it_end, it_begin. cbn [snd]. destruct (Nat.eqb_spec i 0); [lia|].
  rewrite (g_chd_ok A i) by lia. destruct C as [C1 C2]. rewrite C1. 
  apply (push_rev_ok A i (roots s) v0) with (l1 := roots s) (l2 := []); auto; try lia.
  - now split.
  - intros x. now apply rep_bound.
  - now rewrite app_nil_r.
  - assert (length (roots s) <= length A); [|lia]. apply bounded_length; auto. intros c Hc. apply (rep_bound _ _ _ Rs) in Hc. lia.
Qed.

(** ** the loop *)
Section Loop.
Variables (F : forest) (p b n : nat) (v : V).
Hypothesis Pp : p = 0 \/ In p (ids F).
Hypothesis NF : NoDup (ids F).

(** the arena holds F with a copy (n, v, t) in progress *)
Definition at_work A t := exists fl, Inv A (graft F p b n v t) FNil fl.

Lemma work_ids A t : at_work A t -> NoDup (n :: ids t ++ ids F) /\ (forall x, In x (n :: ids t ++ ids F) -> 0 < x < length A) /\
  (forall x, In x (ids (graft F p b n v t)) <-> In x (n :: ids t ++ ids F)).
Proof.
  intros (fl & H). pose proof (graft_ids F p b n v t NF Pp) as P. pose proof (inv_nodup _ _ _ _ H) as N. apply app3_nodup in N.
  destruct N as (N1 & _). split; [apply (Permutation_NoDup P N1)|]. split.
  - intros x Hx. apply (inv_bound _ _ _ _ _ H). apply in_or_app. left. apply (Permutation_in _ (Permutation_sym P)). exact Hx.
  - intros x. split; apply Permutation_in; [exact P|now apply Permutation_sym].
Qed.

(** what is known about the source forest G with parent (pj, j) *)
Definition source (pj j : nat) G := forall A t, at_work A t ->
  rep A G /\ (forall c, In c (roots G) -> fpar A c = j) /\ fpar A j = pj /\ 0 < j < length A.

Lemma source_tail pj j i w s G : source pj j (FCons i w s G) -> source pj j G.
Proof.
  intros H A t W. destruct (H A t W) as (R & C & P & B). cbn [rep] in R. split; [tauto|]. split; [|auto]. intros c Hc. apply C. now right.
Qed.
Lemma source_sub pj j i w s G : source pj j (FCons i w s G) -> source j i s.
Proof.
  intros H A t W. destruct (H A t W) as (R & C & P & B). cbn [rep] in R. destruct R as (R1 & R2 & R3 & R4 & R5 & R6).
  split; [tauto|]. split; [|split; [apply C; now left|auto]]. intros c Hc. destruct R4 as [_ R4]. eapply seg_par; eauto.
Qed.

Lemma flat_copyable G : flat G -> copyable G.
Proof.
  induction G as [|i w s _ r IH]; intros H; [exact I|]. cbn [flat] in H. destruct H as [-> H]. cbn [copyable]. destruct r; [exact I|].
  split; [exact I|auto].
Qed.

Lemma copy_loop_ok : forall G pj j d pd (x0 x : list (iter * iter)) fuel (v0 : list iter) A t,
  copyable G -> source pj j G -> NoDup (j :: ids G) -> at_work A t -> In d (n :: ids t) ->
  (x = ((pd, d), (pj, j)) :: x0 \/ exists y z k, x = (y, (z, k)) :: ((pd, d), (pj, j)) :: x0 /\ k <> j) ->
  exists A' t' x' G', copy_loop (length (ids G) + fuel) A x (map (pair j) (roots G) ++ v0) = copy_loop fuel A' x' v0 /\
    at_work A' t' /\ t' = ed n d (fun u => fapp u G') t /\ alike G G' /\
    (flat G -> G <> FNil \/ x = ((pd, d), (pj, j)) :: x0 -> x' = ((pd, d), (pj, j)) :: x0).
Proof.
  induction G as [|i w s IHs r IHr]; intros pj j d pd x0 x fuel v0 A t Hc Hs Hn W Hd Hx.
  { exists A, t, x, FNil. split; [reflexivity|]. split; [exact W|]. split.
    - unfold ed. assert (E : forall u : forest, fapp u FNil = u) by (induction u as [|? ? ? _ ? IH]; cbn; congruence).
      destruct (n =? d); [now rewrite E|]. clear -E. induction t as [|j w s IHs r IHr]; cbn; [reflexivity|]. rewrite E, <- IHs, <- IHr. now destruct (j =? d).
    - split; [exact I|]. intros _ [?|?]; [contradiction|assumption]. }
  destruct (Hs A t W) as (R & C & P & B). cbn [ids length Nat.add]. rewrite app_length. cbn [roots map app copy_loop].
  destruct (work_ids A t W) as (WN & WB & WI).
  assert (Pit : it_parent A (j, i) = Some (pj, j)).
  { unfold it_parent. cbn [fst]. destruct (Nat.eqb_spec j 0); [lia|]. rewrite g_par_ok by lia. now rewrite P. }
  set (x1 := ((pd, d), (pj, j)) :: x0 : list (iter * iter)) in *.
  assert (Ex : exists (y sx : iter) (x2 : list (iter * iter)), x = (y, sx) :: x2 /\ (if it_neq (pj, j) sx then x2 else x) = x1).
  { destruct Hx as [->|(y & z & k & -> & Hk)].
    - exists (pd, d), (pj, j), x0. split; [reflexivity|]. unfold it_neq. cbn. now rewrite !Nat.eqb_refl.
    - exists y, (z, k), x1. split; [reflexivity|]. unfold it_neq. cbn [fst snd]. destruct (Nat.eqb_spec j k); [congruence|]. reflexivity. }
  destruct Ex as (y & sx & x2 & Ex & Ex1). rewrite Ex. cbn iota beta. rewrite Pit. rewrite <- Ex, Ex1. unfold x1 at 1. clear y sx x2 Ex Ex1 Pit.
  assert (Hd0 : 0 < d < length A). { apply WB. destruct Hd as [<-|Hd]; [now left|right; apply in_or_app; auto]. }
  cbn [rep] in R. destruct R as (R1 & R2 & R3 & R4 & R5 & R6).
  unfold it_end at 1. cbn [snd]. destruct (Nat.eqb_spec d 0); [lia|].
  unfold it_deref. cbn [snd]. destruct (Nat.eqb_spec i 0); [lia|]. rewrite R2.
  destruct W as (fl & W).
  assert (Pd : position (graft F p b n v t) d 0).
  { split; [right; apply WI; destruct Hd as [<-|Hd]; [now left|right; apply in_or_app; auto]|now left]. }
  destruct (insert_inv A _ fl d 0 w W Pd) as (B' & E & HB & Hm & _). set (m := fresh (ids (graft F p b n v t))) in *. rewrite E. clear E.
  assert (Hm' : ~ In m (n :: ids t ++ ids F)) by (intros Cm; apply Hm, WI, Cm).
  assert (Hm2 : ~ In m (n :: ids t)) by (intros [Cm|Cm]; apply Hm'; [now left|right; apply in_or_app; auto]).
  set (t1 := ed n d (fun u => fapp u (FCons m w FNil FNil)) t).
  assert (W1 : at_work B' t1).
  { exists (tl fl). unfold t1. rewrite graft_graft in HB.
    - rewrite ed_put in HB; [exact HB|]. intros C0. assert (0 < 0 < length A); [|lia]. apply WB. right. apply in_or_app. auto.
    - lia.
    - intros Cd. apply NoDup_cons_iff in WN. rewrite NoDup_app_iff, in_app_iff in WN. destruct WN as (N1 & N2 & N3 & N4).
      destruct Hd as [<-|Hd]; [tauto|]. now apply (N4 d).
    - intros ->. destruct Pp as [?|Cp]; [lia|]. apply NoDup_cons_iff in WN. rewrite NoDup_app_iff, in_app_iff in WN. destruct WN as (N1 & N2 & N3 & N4).
      destruct Hd as [<-|Hd]; [tauto|]. now apply (N4 p). }
  destruct (Hs B' t1 W1) as (R' & _). cbn [rep] in R'. destruct R' as (R1' & R2' & R3' & R4' & R5' & R6').
  unfold it_begin, it_end. cbn [snd]. destruct (Nat.eqb_spec i 0); [lia|]. rewrite (g_chd_ok B' i) by lia.
  destruct R4' as [R4a R4b]. rewrite R4a. unfold it_neq. cbn [fst snd]. rewrite Nat.eqb_refl. cbn [negb]. rewrite orb_false_r.
  assert (Hd1 : In d (n :: ids t1)) by (unfold t1; now apply ed_keeps).
  assert (NR : NoDup (j :: ids r) /\ NoDup (i :: ids s) /\ i <> j).
  { cbn [ids] in Hn. rewrite !NoDup_cons_iff, NoDup_app_iff in Hn. cbn in Hn. rewrite !in_app_iff in Hn. rewrite !NoDup_cons_iff. 
    intuition congruence. }
  destruct NR as (NR1 & NR2 & NR3).
  (* after the subtree of i: the remaining siblings *)
  assert (Rest : forall x' A2 G's, flat s -> copyable r -> at_work A2 (ed n d (fun u => fapp u (FCons m w G's FNil)) t) -> alike s G's ->
     (x' = x1 \/ exists y z k, x' = (y, (z, k)) :: x1 /\ k <> j) ->
     exists A' t' x'' G', copy_loop (length (ids r) + fuel) A2 x' (map (pair j) (roots r) ++ v0) = copy_loop fuel A' x'' v0 /\
       at_work A' t' /\ t' = ed n d (fun u => fapp u G') t /\ alike (FCons i w s r) G' /\ (flat (FCons i w s r) -> (r <> FNil \/ x' = x1) -> x'' = x1)).
  { intros x' A2 G's Fs Hcr W2 Al Hx'.
    destruct (IHr pj j d pd x0 x' fuel v0 A2 _ Hcr (source_tail _ _ _ _ _ _ Hs) NR1 W2) as (A' & t' & x'' & G' & E & W' & Et & Al' & Fx).
    - now apply ed_keeps.
    - exact Hx'.
    - exists A', t', x'', (FCons m w G's G'). split; [exact E|]. split; [exact W'|]. split; [|split].
      + rewrite Et, ed_ed. apply ed_ext. intros u. rewrite fapp_assoc. reflexivity.
      + cbn. auto.
      + intros [_ Fr] Hor. apply Fx; auto. }
  destruct s as [|i2 w2 s2 r2].
  - cbn [roots hd Nat.eqb negb ids length Nat.add]. 
    assert (Hcr : copyable r) by (cbn [copyable] in Hc; destruct r; [exact I|tauto]).
    destruct (Rest x1 B' FNil I Hcr W1 I (or_introl eq_refl)) as (A' & t' & x'' & G' & E & W' & Et & Al' & Fx).
    exists A', t', x'', G'. split; [exact E|]. split; [exact W'|]. split; [exact Et|]. split; [exact Al'|]. auto.
  - set (s := FCons i2 w2 s2 r2) in *. assert (Hi2 : i2 <> 0) by (cbn [rep s] in R5'; lia).
    cbn [roots hd s]. destruct (Nat.eqb_spec i2 0); [contradiction|]. cbn [negb].
    rewrite (push_children_ok B' j i w s); [|exact (conj R1' (conj R2' (conj R3' (conj (conj R4a R4b) (conj R5' I)))))].
    assert (Hms : In m (n :: ids t1)) by (unfold t1; apply ed_has; auto; now left).
    assert (Hcs : copyable s). { cbn [copyable] in Hc. destruct r; [exact Hc|]. apply flat_copyable. tauto. }
    destruct (IHs j i m d x1 (((d, m), (j, i)) :: x1) (length (ids r) + fuel) (map (pair j) (roots r) ++ v0) B' t1 Hcs
                  (source_sub _ _ _ _ _ _ Hs) NR2 W1 Hms (or_introl eq_refl)) as (A2 & t2 & x' & G's & E & W2 & Et & Al & Fx).
    unfold t1 in Et. rewrite ed_new in Et by exact Hm2. cbn [fapp] in Et. rewrite <- Nat.add_assoc.
    match goal with |- context [copy_loop ?f B' ?a ?c] =>
      replace (copy_loop f B' a c) with (copy_loop (length (ids r) + fuel) A2 x' (map (pair j) (roots r) ++ v0)) by (symmetry; exact E) end.
    subst t2. clear E.
    destruct r as [|i3 w3 s3 r3].
    + exists A2, (ed n d (fun u => fapp u (FCons m w G's FNil)) t), x', (FCons m w G's FNil).
      cbn [ids roots map length Nat.add app]. split; [reflexivity|]. split; [exact W2|]. split; [reflexivity|]. split; [cbn; auto|].
      cbn [flat]. intros [C0 _]. discriminate.
    + set (r := FCons i3 w3 s3 r3) in *. cbn [copyable] in Hc. destruct Hc as [Fs Hcr].
      specialize (Fx Fs (or_intror eq_refl)).
      destruct (Rest x' A2 G's Fs Hcr W2 Al) as (A' & t' & x'' & G' & E & W' & Et & Al' & Fx').
      { right. exists (d, m), j, i. rewrite Fx. auto. }
      exists A', t', x'', G'. split; [exact E|]. split; [exact W'|]. split; [exact Et|]. split; [exact Al'|].
      intros Ff _. apply Fx'; auto. left. discriminate.
Qed.
End Loop.

Theorem copy_inv A F fl p b q i v s fuel : Inv A F FNil fl -> position F p b -> (q = 0 \/ In q (ids F)) -> In i (ch F q) ->
  find F i = Some (v, s) -> ~ In p (i :: ids s) -> copyable s -> length (ids s) <= fuel ->
  exists B fl' t, insert_copy fuel A (p, b) (q, i) = Some (B, (p, fresh (ids F))) /\
    Inv B (graft F p b (fresh (ids F)) v t) FNil fl' /\ alike s t.
Proof.
  intros H P Pq Pi Ef Np Hc Hf. pose proof (inv_nodup _ _ _ _ H) as N. apply app3_nodup in N. destruct N as (N1 & _).
  assert (Hb : forall x, In x (ids F) -> 0 < x < length A).
  { intros x Hx. apply (inv_bound _ _ _ _ _ H). apply in_or_app. auto. }
  destruct (insert_inv A F fl p b v H P) as (B & E & HB & Hn & _). set (n := fresh (ids F)) in *.
  pose proof (rep_find A F i v s (inv_rep _ _ _ H) Ef) as RA. cbn [rep] in RA.
  pose proof (ch_in _ _ _ Pi) as Hi. 
  unfold insert_copy, it_deref. cbn [snd]. destruct (Nat.eqb_spec i 0); [lia|].
  destruct RA as (_ & RA & _). rewrite RA, E. clear RA.
  assert (W : at_work F p b n v B FNil) by (exists (tl fl); exact HB).
  destruct P as [Pp Pb].
  assert (Src : forall A t, at_work F p b n v A t -> rep A (FCons i v s FNil) /\ fpar A i = q).
  { intros A' t' W'. destruct (work_ids F p b n v Pp N1 A' t' W') as (WN & WB & WI). destruct W' as (fl' & W').
    split.
    - eapply rep_find; [eapply inv_rep; eauto|]. apply find_graft; auto. intros Ci. apply NoDup_cons_iff in WN.
      rewrite NoDup_app_iff, in_app_iff in WN. destruct WN as (X1 & X2 & X3 & X4). destruct Ci as [<-|Ci]; [tauto|]. now apply (X4 i).
    - assert (Hq : q = 0 \/ In q (ids (graft F p b n v t'))). { destruct Pq as [?|Pq]; [auto|right]. apply WI. right. apply in_or_app. auto. }
      apply (inv_par _ _ _ _ _ _ W' Hq). rewrite graft_ch; auto.
      + destruct (Nat.eqb_spec q p); [|exact Pi]. subst q. destruct (insl_split b n (ch F p)) as (l1 & l2 & E1 & E2 & _); auto.
        * now apply NoDup_ch.
        * intros C0. apply ch_in, Hb in C0. lia.
        * rewrite E2. rewrite E1 in Pi. apply in_app_or in Pi. apply in_or_app. cbn. tauto.
      + intros C0. apply WB in C0. lia. }
  destruct (Src _ _ W) as [RB PB]. rewrite (push_children_ok B q i v s []) by exact RB.
  assert (So : source F p b n v q i s).
  { intros A' t' W'. destruct (Src _ _ W') as [R' P']. cbn [rep] in R'. destruct R' as (R1 & R2 & R3 & [R4 R4'] & R5 & R6).
    split; [exact R5|]. split; [|auto]. intros c Hc'. eapply seg_par; eauto. }
  destruct (copy_loop_ok F p b n v Pp N1 s q i n p [] [((p, n), (q, i))] (fuel - length (ids s)) [] B FNil Hc So (find_nodup _ _ _ _ N1 Ef) W
             (or_introl eq_refl) (or_introl eq_refl)) as (A' & t' & x' & G' & E' & W' & Et & Al & _).
  replace (length (ids s) + (fuel - length (ids s))) with fuel in E' by lia.
  match goal with |- context [copy_loop ?f B ?a ?c] =>
    replace (copy_loop f B a c) with (copy_loop (fuel - length (ids s)) A' x' []) by (symmetry; exact E') end.
  destruct W' as (fl' & W'). exists A', fl', t'. split; [destruct (fuel - length (ids s)); reflexivity|]. split; [exact W'|].
  rewrite Et. unfold ed. rewrite Nat.eqb_refl. exact Al.
Qed.
End Copy.
