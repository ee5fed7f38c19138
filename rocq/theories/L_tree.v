(** Ordered forests (the specification) and lemmas for M_tree. *)
From Coq Require Import List Arith Bool Lia Permutation Sorted.
From Verif Require Import M_tree.
Import ListNotations.
Open Scope tree_scope.

(** * Specification: ordered forests whose nodes carry an identity and a value *)
Inductive forest (V : Type) := FNil | FCons (i : nat) (v : V) (sub rest : forest V).
Arguments FNil {V}. Arguments FCons {V}.

Section Spec.
Context {V : Type}.
Notation forest := (forest V).

(** all identities, depth first *)
Fixpoint ids (F : forest) : list nat :=
  match F with FNil => [] | FCons i v s r => i :: ids s ++ ids r end.
Fixpoint vals (F : forest) : list (nat * V) :=
  match F with FNil => [] | FCons i v s r => (i, v) :: vals s ++ vals r end.
(** identities at the top *)
Fixpoint roots (F : forest) : list nat :=
  match F with FNil => [] | FCons i v s r => i :: roots r end.
(** identities of the children of node p *)
Fixpoint kids (F : forest) (p : nat) : list nat :=
  match F with FNil => [] | FCons i v s r => if i =? p then roots s else kids s p ++ kids r p end.
(** children of a parent, 0 standing for "above the roots" *)
Definition ch (F : forest) (p : nat) : list nat := if p =? 0 then roots F else kids F p.

(** value and children of node i *)
Fixpoint find (F : forest) (i : nat) : option (V * forest) :=
  match F with
  | FNil => None
  | FCons j v s r => if j =? i then Some (v, s) else match find s i with Some x => Some x | None => find r i end
  end.

(** put a tree (n, v, t) before node b at the top, or last if there is no b *)
Fixpoint put (b n : nat) (v : V) (t : forest) (F : forest) : forest :=
  match F with
  | FNil => FCons n v t FNil
  | FCons j w s r => if j =? b then FCons n v t F else FCons j w s (put b n v t r)
  end.
(** change the children of node p *)
Fixpoint edit (p : nat) (g : forest -> forest) (F : forest) : forest :=
  match F with
  | FNil => FNil
  | FCons i v s r => if i =? p then FCons i v (g s) r else FCons i v (edit p g s) (edit p g r)
  end.
(** put a tree among the children of p, before b *)
Definition graft (F : forest) (p b n : nat) (v : V) (t : forest) : forest :=
  if p =? 0 then put b n v t F else edit p (put b n v t) F.
(** take away node i with everything below it *)
Fixpoint cut (F : forest) (i : nat) : forest :=
  match F with
  | FNil => FNil
  | FCons j v s r => if j =? i then r else FCons j v (cut s i) (cut r i)
  end.

(** (p, b) is a position: p is a node or 0, b one of its children or 0 for the end *)
Definition position (F : forest) (p b : nat) : Prop :=
  (p = 0 \/ In p (ids F)) /\ (b = 0 \/ In b (ch F p)).

End Spec.

(** * Pure facts about forests *)
Section ForestLemmas.
Context {V : Type}.
Notation forest := (forest V).
Implicit Types F s r t : forest.

Lemma NoDup_app_iff {A} (l m : list A) : NoDup (l ++ m) <-> NoDup l /\ NoDup m /\ (forall x, In x l -> ~ In x m).
Proof.
  induction l as [|a l IH]; cbn.
  - split; [intros H; split; [constructor|split; [assumption|tauto]]|tauto].
  - rewrite !NoDup_cons_iff, in_app_iff, IH. split.
    + intros (H2 & H3 & H4 & H5). split; [tauto|]. split; [assumption|]. intros x [<-|Hx]; [tauto|auto].
    + intros ((H1 & H2) & H3 & H4). split; [|split; [assumption|split; [assumption|auto]]].
      intros [H|H]; [auto|]. apply (H4 a); auto.
Qed.

Lemma roots_ids F : incl (roots F) (ids F).
Proof. induction F; cbn; intros x; [auto|]. intros [->|H]; [now left|]. right. apply in_or_app. auto. Qed.

Lemma kids_in F p x : In x (kids F p) -> In p (ids F) /\ In x (ids F) .
Proof.
  induction F as [|i v s IHs r IHr]; cbn; [tauto|]. destruct (Nat.eqb_spec i p).
  - subst. intros H. apply roots_ids in H. rewrite !in_app_iff. auto.
  - rewrite !in_app_iff. intros [H|H]; [apply IHs in H|apply IHr in H]; tauto.
Qed.

Lemma kids_out F p : ~ In p (ids F) -> kids F p = [].
Proof. intros H. destruct (kids F p) as [|x l] eqn:E; auto. destruct H. apply (kids_in F p x). rewrite E. now left. Qed.

Lemma ch_in F p x : In x (ch F p) -> In x (ids F).
Proof. unfold ch. destruct (p =? 0); intros H; [now apply roots_ids|now apply kids_in in H]. Qed.

Lemma NoDup_roots F : NoDup (ids F) -> NoDup (roots F).
Proof.
  induction F as [|i v s IHs r IHr]; cbn; [constructor|]. rewrite !NoDup_cons_iff, NoDup_app_iff, in_app_iff.
  intros (H1 & H2 & H3 & _). split; auto. intros H. apply roots_ids in H. auto.
Qed.

(** a child of p is below p, so it is not a root *)
Lemma kids_not_root F p x : NoDup (ids F) -> In x (kids F p) -> ~ In x (roots F).
Proof.
  induction F as [|i v s IHs r IHr]; cbn; [tauto|]. rewrite !NoDup_cons_iff, NoDup_app_iff, in_app_iff.
  intros (H1 & H2 & H3 & H4) H [<-|Hr].
  - destruct (Nat.eqb_spec i p); [apply roots_ids in H; auto|]. rewrite in_app_iff in H.
    destruct H as [H|H]; apply kids_in in H; tauto.
  - pose proof (roots_ids _ _ Hr). destruct (Nat.eqb_spec i p).
    + apply roots_ids in H. apply (H4 x); auto.
    + rewrite in_app_iff in H. destruct H as [H|H]; [apply kids_in in H; apply (H4 x); tauto|]. now apply IHr.
Qed.

Lemma kids_ne F p x : NoDup (ids F) -> In x (kids F p) -> x <> p.
Proof.
  induction F as [|i v s IHs r IHr]; cbn; [tauto|]. rewrite !NoDup_cons_iff, NoDup_app_iff, in_app_iff.
  intros (H1 & H2 & H3 & H4). destruct (Nat.eqb_spec i p).
  - intros H. apply roots_ids in H. intros ->. subst. auto.
  - rewrite in_app_iff. intros [H|H]; auto.
Qed.

Lemma NoDup_kids F p : NoDup (ids F) -> NoDup (kids F p).
Proof.
  induction F as [|i v s IHs r IHr]; cbn; [constructor|]. rewrite !NoDup_cons_iff, NoDup_app_iff, in_app_iff.
  intros (H1 & H2 & H3 & H4). destruct (Nat.eqb_spec i p); [now apply NoDup_roots|].
  apply NoDup_app_iff. split; [auto|split; [auto|]]. intros x Hx Hy. apply kids_in in Hx. apply kids_in in Hy. apply (H4 x); tauto.
Qed.

Lemma NoDup_ch F p : NoDup (ids F) -> NoDup (ch F p).
Proof. unfold ch. destruct (p =? 0); [apply NoDup_roots|apply NoDup_kids]. Qed.

(** one parent only *)
Lemma kids_unique F p q x : NoDup (ids F) -> In x (kids F p) -> In x (kids F q) -> p = q.
Proof.
  induction F as [|i v s IHs r IHr]; cbn; [tauto|]. rewrite !NoDup_cons_iff, NoDup_app_iff, in_app_iff.
  intros (H1 & H2 & H3 & H4). destruct (Nat.eqb_spec i p), (Nat.eqb_spec i q); subst; auto.
  - rewrite in_app_iff. intros Ha [Hb|Hb]; exfalso.
    + now apply (kids_not_root s q x).
    + apply roots_ids in Ha. apply kids_in in Hb. apply (H4 x); tauto.
  - rewrite in_app_iff. intros [Hb|Hb] Ha; exfalso.
    + now apply (kids_not_root s p x).
    + apply roots_ids in Ha. apply kids_in in Hb. apply (H4 x); tauto.
  - rewrite !in_app_iff. intros [Ha|Ha] [Hb|Hb]; auto; exfalso; apply kids_in in Ha; apply kids_in in Hb; apply (H4 x); tauto.
Qed.

Lemma ch_unique F p q x : NoDup (ids F) -> (p = 0 \/ In p (ids F)) -> (q = 0 \/ In q (ids F)) ->
  In x (ch F p) -> In x (ch F q) -> p = q.
Proof.
  unfold ch. intros H _ _. destruct (Nat.eqb_spec p 0), (Nat.eqb_spec q 0); subst; auto.
  - intros Ha Hb. now apply kids_not_root in Hb.
  - intros Ha Hb. now apply kids_not_root in Ha.
  - intros. now apply (kids_unique F p q x).
Qed.

Lemma ch_ne F p x : NoDup (ids F) -> ~ In 0 (ids F) -> In x (ch F p) -> x <> p.
Proof.
  unfold ch. intros H H0. destruct (Nat.eqb_spec p 0).
  - intros Hx ->. subst. apply H0. now apply roots_ids.
  - now apply kids_ne.
Qed.

(** every node has a parent *)

Lemma root_or_kid F x : NoDup (ids F) -> In x (ids F) -> In x (roots F) \/ exists p, In p (ids F) /\ In x (kids F p).
Proof.
  induction F as [|i v s IHs r IHr]; cbn; [tauto|]. rewrite !NoDup_cons_iff, NoDup_app_iff, !in_app_iff.
  intros (H1 & H2 & H3 & H4) [->|[H|H]]; auto.
  - right. destruct (IHs H2 H) as [Hr|(p & Hp & Hx)].
    + exists i. rewrite Nat.eqb_refl. auto.
    + exists p. destruct (Nat.eqb_spec i p); [subst; tauto|]. rewrite !in_app_iff. auto.
  - destruct (IHr H3 H) as [Hr|(p & Hp & Hx)]; [auto|]. right.
    exists p. destruct (Nat.eqb_spec i p); [subst; tauto|]. rewrite !in_app_iff. auto.
Qed.

Lemma has_parent F x : NoDup (ids F) -> ~ In 0 (ids F) -> In x (ids F) -> exists p, (p = 0 \/ In p (ids F)) /\ In x (ch F p).
Proof.
  intros H H0 Hx. destruct (root_or_kid F x H Hx) as [Hr|(p & Hp & Hk)].
  - exists 0. cbn. auto.
  - exists p. split; auto. unfold ch. destruct (Nat.eqb_spec p 0); [subst; contradiction|auto].
Qed.

(** ** find *)
Lemma find_in F i v s : find F i = Some (v, s) -> In i (ids F) /\ incl (ids s) (ids F).
Proof.
  induction F as [|j w s' IHs r IHr]; cbn; [discriminate|]. destruct (Nat.eqb_spec j i).
  - intros [= -> ->]. subst. split; auto. intros x Hx. right. apply in_or_app. auto.
  - destruct (find s' i) eqn:E.
    + intros [= ->]. destruct (IHs eq_refl). split; [right; apply in_or_app; auto|]. intros x Hx. right. apply in_or_app. auto.
    + intros H. destruct (IHr H). split; [right; apply in_or_app; auto|]. intros x Hx. right. apply in_or_app. auto.
Qed.

Lemma find_none F i : find F i = None <-> ~ In i (ids F).
Proof.
  induction F as [|j w s' IHs r IHr]; cbn; [tauto|]. destruct (Nat.eqb_spec j i).
  - split; [discriminate|]. tauto.
  - rewrite in_app_iff. destruct (find s' i) eqn:E.
    + split; [discriminate|]. assert (~ ~ In i (ids s')) by (intros C; apply IHs in C; discriminate). tauto.
    + destruct IHs as [IHs _]. specialize (IHs eq_refl). tauto.
Qed.

Lemma find_some F i : In i (ids F) -> exists v s, find F i = Some (v, s).
Proof. intros H. destruct (find F i) as [[v s]|] eqn:E; [eauto|]. apply find_none in E. contradiction. Qed.

Lemma find_kids F i v s : NoDup (ids F) -> find F i = Some (v, s) -> kids F i = roots s.
Proof.
  induction F as [|j w s' IHs r IHr]; cbn; [discriminate|]. rewrite !NoDup_cons_iff, NoDup_app_iff, in_app_iff.
  intros (H1 & H2 & H3 & H4). destruct (Nat.eqb_spec j i); [now intros [= -> ->]|].
  destruct (find s' i) eqn:E.
  - intros [= ->]. rewrite (IHs H2 eq_refl). destruct (find_in _ _ _ _ E) as [Hi _].
    rewrite (kids_out r i), app_nil_r; auto.
  - intros H. rewrite (IHr H3 H). apply find_none in E. now rewrite (kids_out s' i).
Qed.

Lemma find_nodup F i v s : NoDup (ids F) -> find F i = Some (v, s) -> NoDup (i :: ids s).
Proof.
  induction F as [|j w s' IHs r IHr]; cbn [ids find]; [discriminate|]. rewrite !NoDup_cons_iff, NoDup_app_iff, in_app_iff.
  intros (H1 & H2 & H3 & H4). destruct (Nat.eqb_spec j i).
  - intros [= -> ->]. subst. tauto.
  - destruct (find s' i) eqn:E; [intros [= ->]|intros H]; rewrite <- NoDup_cons_iff; auto.
Qed.

(** the subtree of a node in the subtree of i *)
Lemma find_sub_kids F i v s q : NoDup (ids F) -> find F i = Some (v, s) -> In q (ids s) -> kids F q = kids s q.
Proof.
  induction F as [|j w s' IHs r IHr]; cbn; [discriminate|]. rewrite !NoDup_cons_iff, NoDup_app_iff, in_app_iff.
  intros (H1 & H2 & H3 & H4). destruct (Nat.eqb_spec j i).
  - intros [= -> ->] Hq. destruct (Nat.eqb_spec j q); [subst; tauto|]. rewrite (kids_out r q), app_nil_r; auto.
  - destruct (find s' i) eqn:E.
    + intros [= ->] Hq. destruct (find_in _ _ _ _ E) as [Hi Hs]. pose proof (Hs _ Hq).
      destruct (Nat.eqb_spec j q); [subst; tauto|]. rewrite (kids_out r q), app_nil_r; auto.
    + intros H Hq. destruct (find_in _ _ _ _ H) as [Hi Hs]. pose proof (Hs _ Hq).
      destruct (Nat.eqb_spec j q); [subst; tauto|]. rewrite (kids_out s' q); auto. intros C. apply (H4 q); auto.
Qed.

(** ** put and edit *)
(** inserting a number into a list before b, or last *)
Fixpoint insl (b n : nat) (l : list nat) : list nat :=
  match l with [] => [n] | c :: l' => if c =? b then n :: l else c :: insl b n l' end.

Lemma roots_put b n v t F : roots (put b n v t F) = insl b n (roots F).
Proof. induction F as [|j w s _ r IH]; cbn; [auto|]. destruct (j =? b); cbn; [auto|now rewrite IH]. Qed.

Lemma insl_split b n l : NoDup l -> b = 0 \/ In b l -> ~ In 0 l ->
  exists l1 l2, l = l1 ++ l2 /\ insl b n l = l1 ++ n :: l2 /\ hd 0 l2 = b.
Proof.
  induction l as [|c l IH]; cbn; intros Hn Hb H0.
  - exists [], []. destruct Hb as [->|[]]. auto.
  - destruct (Nat.eqb_spec c b).
    + exists [], (c :: l). auto.
    + inversion Hn; subst. destruct IH as (l1 & l2 & E1 & E2 & E3); auto. { destruct Hb as [?|[?|?]]; auto. congruence. }
      exists (c :: l1), l2. rewrite E2. cbn. split; [congruence|auto].
Qed.

Lemma ids_put b n v t F : Permutation (ids (put b n v t F)) ((n :: ids t) ++ ids F).
Proof.
  induction F as [|j w s _ r IH]; cbn [put ids].
  - reflexivity.
  - destruct (j =? b); [reflexivity|]. cbn [ids]. rewrite IH.
    rewrite (Permutation_app_comm (n :: ids t) (j :: ids s ++ ids r)). cbn [app]. apply perm_skip.
    rewrite <- app_assoc. apply Permutation_app_head. apply (Permutation_app_comm (n :: ids t)).
Qed.

Lemma vals_put b n v t F : Permutation (vals (put b n v t F)) (((n, v) :: vals t) ++ vals F).
Proof.
  induction F as [|j w s _ r IH]; cbn [put vals].
  - reflexivity.
  - destruct (j =? b); [reflexivity|]. cbn [vals]. rewrite IH.
    rewrite (Permutation_app_comm ((n, v) :: vals t) ((j, w) :: vals s ++ vals r)). cbn [app]. apply perm_skip.
    rewrite <- app_assoc. apply Permutation_app_head. apply (Permutation_app_comm ((n, v) :: vals t)).
Qed.

Lemma edit_out p g F : ~ In p (ids F) -> edit p g F = F.
Proof.
  induction F as [|j w s IHs r IHr]; cbn; [auto|]. rewrite in_app_iff. intros H.
  destruct (Nat.eqb_spec j p); [tauto|]. rewrite IHs, IHr; tauto.
Qed.

Lemma edit_perm p g F x : NoDup (ids F) -> In p (ids F) -> (forall s, Permutation (ids (g s)) (x ++ ids s)) ->
  Permutation (ids (edit p g F)) (x ++ ids F).
Proof.
  intros Hn Hp Hg. induction F as [|j w s IHs r IHr]; cbn in *; [tauto|].
  rewrite !NoDup_cons_iff, NoDup_app_iff, in_app_iff in Hn. destruct Hn as (H1 & H2 & H3 & H4).
  destruct (Nat.eqb_spec j p); cbn.
  - rewrite Hg. rewrite <- Permutation_middle. now rewrite <- app_assoc.
  - destruct Hp as [?|Hp]; [contradiction|]. rewrite <- Permutation_middle. apply perm_skip. apply in_app_or in Hp. destruct Hp as [Hp|Hp].
    + rewrite IHs; auto. rewrite (edit_out p g r); auto. now rewrite <- app_assoc.
    + rewrite IHr; auto. rewrite (edit_out p g s); [|intros C; apply (H4 p); auto].
      rewrite !app_assoc. apply Permutation_app_tail. apply Permutation_app_comm.
Qed.

Lemma edit_vals p g F x : NoDup (ids F) -> In p (ids F) -> (forall s, Permutation (vals (g s)) (x ++ vals s)) ->
  Permutation (vals (edit p g F)) (x ++ vals F).
Proof.
  intros Hn Hp Hg. induction F as [|j w s IHs r IHr]; cbn in *; [tauto|].
  rewrite !NoDup_cons_iff, NoDup_app_iff, in_app_iff in Hn. destruct Hn as (H1 & H2 & H3 & H4).
  destruct (Nat.eqb_spec j p); cbn.
  - rewrite Hg. rewrite <- Permutation_middle. now rewrite <- app_assoc.
  - destruct Hp as [?|Hp]; [contradiction|]. rewrite <- Permutation_middle. apply perm_skip. apply in_app_or in Hp. destruct Hp as [Hp|Hp].
    + rewrite IHs; auto. rewrite (edit_out p g r); auto. now rewrite <- app_assoc.
    + rewrite IHr; auto. rewrite (edit_out p g s); [|intros C; apply (H4 p); auto].
      rewrite !app_assoc. apply Permutation_app_tail. apply Permutation_app_comm.
Qed.

Lemma roots_edit p g F : roots (edit p g F) = roots F.
Proof. induction F as [|j w s IHs r IHr]; cbn; [auto|]. destruct (j =? p); cbn; [auto|now rewrite IHr]. Qed.

Lemma kids_cons i v s r q : kids (FCons i v s r) q = if i =? q then roots s else kids s q ++ kids r q.
Proof. reflexivity. Qed.

Lemma kids_put b n v t F q : NoDup (n :: ids t ++ ids F) ->
  kids (put b n v t F) q = kids F q ++ kids (FCons n v t FNil) q.
Proof.
  induction F as [|j w s _ r IH]; intros H.
  - reflexivity.
  - cbn [put]. rewrite NoDup_cons_iff, NoDup_app_iff in H. destruct H as (H1 & H2 & H3 & H4).
    assert (K : kids (FCons n v t FNil) q <> [] -> q = n \/ In q (ids t)).
    { cbn [kids]. destruct (Nat.eqb_spec n q); [auto|]. rewrite app_nil_r. intros K.
      destruct (in_dec Nat.eq_dec q (ids t)); auto. now rewrite kids_out in K. }
    cbn [ids] in *. rewrite NoDup_cons_iff, NoDup_app_iff, in_app_iff in H3.
    destruct (Nat.eqb_spec j b).
    + (* new tree in front *)
      change (kids (FCons n v t (FCons j w s r)) q) with (if n =? q then roots t else kids t q ++ kids (FCons j w s r) q).
      change (kids (FCons n v t FNil) q) with (if n =? q then roots t else kids t q ++ []).
      destruct (Nat.eqb_spec n q).
      * subst q. rewrite (kids_out (FCons j w s r) n); auto. cbn [ids]. intros C. apply H1. apply in_or_app. right. exact C.
      * rewrite app_nil_r. destruct (in_dec Nat.eq_dec q (ids t)) as [Hq|Hq].
        -- rewrite (kids_out (FCons j w s r) q); [now rewrite app_nil_r|]. cbn [ids]. auto.
        -- rewrite (kids_out t q); auto. now rewrite app_nil_r.
    + rewrite !(kids_cons j). destruct (Nat.eqb_spec j q).
      * subst q. destruct (kids (FCons n v t FNil) j) eqn:E; [now rewrite app_nil_r|].
        destruct K; [congruence|..].
        -- subst j. exfalso. apply H1. apply in_or_app. right. now left.
        -- exfalso. apply (H4 j); auto. now left.
      * rewrite IH. { now rewrite app_assoc. }
        rewrite NoDup_cons_iff, NoDup_app_iff. rewrite !in_app_iff in *.
        split; [intros [?|?]; apply H1; auto; right; right; apply in_or_app; auto|].
        split; [auto|]. split; [tauto|]. intros x Hx Hy. apply (H4 x); auto. right. apply in_or_app. auto.
Qed.

Lemma kids_edit b n v t p F q : NoDup (n :: ids t ++ ids F) -> In p (ids F) ->
  kids (edit p (put b n v t) F) q =
    if q =? p then insl b n (kids F p) else kids F q ++ kids (FCons n v t FNil) q.
Proof.
  intros H Hp. induction F as [|j w s IHs r IHr]; [destruct Hp|].
  rewrite NoDup_cons_iff, NoDup_app_iff in H. destruct H as (H1 & H2 & H3 & H4).
  assert (K : kids (FCons n v t FNil) q <> [] -> q = n \/ In q (ids t)).
  { cbn [kids]. destruct (Nat.eqb_spec n q); [auto|]. rewrite app_nil_r. intros K.
    destruct (in_dec Nat.eq_dec q (ids t)); auto. now rewrite kids_out in K. }
  pose proof H3 as H3'.
  cbn [ids] in *. rewrite NoDup_cons_iff, NoDup_app_iff, in_app_iff in H3. destruct H3 as (Hj & Hs & Hr & Hd).
  assert (Dq : In q (j :: ids s ++ ids r) -> kids (FCons n v t FNil) q = []).
  { intros Hq. destruct (kids (FCons n v t FNil) q) eqn:E; auto. exfalso. destruct K; [congruence|..].
    - subst q. apply H1. apply in_or_app. auto.
    - apply (H4 q); auto. }
  cbn [edit]. destruct (Nat.eqb_spec j p).
  - subst p. rewrite !(kids_cons j). destruct (Nat.eqb_spec q j).
    + subst q. rewrite Nat.eqb_refl. apply roots_put.
    + destruct (Nat.eqb_spec j q); [congruence|]. rewrite kids_put. 2:{ rewrite NoDup_cons_iff, NoDup_app_iff, in_app_iff in *.
       split; [intros C; apply H1; destruct C; auto; right; right; apply in_or_app; auto|]. repeat split; auto.
       intros x Hx Hy. apply (H4 x); auto. right. apply in_or_app; auto. }
      destruct (in_dec Nat.eq_dec q (ids r)).
      * rewrite Dq; [|right; apply in_or_app; auto]. now rewrite !app_nil_r.
      * rewrite (kids_out r q); auto. now rewrite !app_nil_r.
  - destruct Hp as [?|Hp]; [contradiction|]. rewrite !(kids_cons j). destruct (Nat.eqb_spec j q).
    + subst q. destruct (Nat.eqb_spec j p); [contradiction|]. rewrite roots_edit. rewrite Dq; [|now left]. now rewrite app_nil_r.
    + apply in_app_or in Hp. destruct (Nat.eqb_spec j p); [contradiction|].
      assert (N1 : NoDup (n :: ids t ++ ids s)).
      { rewrite NoDup_cons_iff, NoDup_app_iff, in_app_iff in *.
        split; [intros C; apply H1; destruct C; auto; right; right; apply in_or_app; auto|]. repeat split; auto.
        intros x Hx Hy. apply (H4 x); auto. right. apply in_or_app; auto. }
      assert (N2 : NoDup (n :: ids t ++ ids r)).
      { rewrite NoDup_cons_iff, NoDup_app_iff, in_app_iff in *.
        split; [intros C; apply H1; destruct C; auto; right; right; apply in_or_app; auto|]. repeat split; auto.
        intros x Hx Hy. apply (H4 x); auto. right. apply in_or_app; auto. }
      destruct Hp as [Hp|Hp].
      * rewrite IHs; auto. rewrite (edit_out p _ r); auto. destruct (Nat.eqb_spec q p).
        -- subst q. rewrite (kids_out r p); auto. now rewrite !app_nil_r.
        -- destruct (in_dec Nat.eq_dec q (ids r)).
           ++ rewrite Dq; [|right; apply in_or_app; auto]. now rewrite !app_nil_r.
           ++ rewrite (kids_out r q); auto. now rewrite !app_nil_r.
      * assert (~ In p (ids s)) by (intros C; apply (Hd p); auto).
        rewrite IHr; auto. rewrite (edit_out p _ s); auto. destruct (Nat.eqb_spec q p).
        -- subst q. now rewrite (kids_out s p).
        -- now rewrite app_assoc.
Qed.

(** ** graft *)
Lemma graft_ids F p b n v t : NoDup (ids F) -> (p = 0 \/ In p (ids F)) ->
  Permutation (ids (graft F p b n v t)) ((n :: ids t) ++ ids F).
Proof.
  intros H Hp. unfold graft. destruct (Nat.eqb_spec p 0); [apply ids_put|].
  destruct Hp; [contradiction|]. apply edit_perm; auto. intros s. apply ids_put.
Qed.

Lemma graft_vals F p b n v t : NoDup (ids F) -> (p = 0 \/ In p (ids F)) ->
  Permutation (vals (graft F p b n v t)) (((n, v) :: vals t) ++ vals F).
Proof.
  intros H Hp. unfold graft. destruct (Nat.eqb_spec p 0); [apply vals_put|].
  destruct Hp; [contradiction|]. apply edit_vals; auto. intros s. apply vals_put.
Qed.

Lemma graft_ch F p b n v t q : NoDup (n :: ids t ++ ids F) -> ~ In 0 (n :: ids t ++ ids F) -> (p = 0 \/ In p (ids F)) ->
  (q = 0 \/ In q (ids F)) -> ch (graft F p b n v t) q = if q =? p then insl b n (ch F p) else ch F q.
Proof.
  intros H H0 Hp Hq. unfold graft, ch. cbn in H0. rewrite in_app_iff in H0.
  assert (Dq : In q (ids F) -> kids (FCons n v t FNil) q = []).
  { intros C. apply kids_out. cbn. rewrite app_nil_r. rewrite NoDup_cons_iff, NoDup_app_iff, in_app_iff in H.
    intros [<-|D]; [tauto|]. apply H in D. tauto. }
  destruct (Nat.eqb_spec p 0); destruct (Nat.eqb_spec q 0); subst.
  - apply roots_put.
  - destruct (Nat.eqb_spec q 0); [contradiction|]. rewrite kids_put; auto. destruct Hq; [contradiction|]. now rewrite Dq, app_nil_r.
  - destruct (Nat.eqb_spec 0 p); [congruence|]. apply roots_edit.
  - destruct Hp; [contradiction|]. destruct Hq; [contradiction|]. rewrite kids_edit; auto. destruct (Nat.eqb_spec q p); [auto|].
    now rewrite Dq, app_nil_r.
Qed.

Lemma graft_ch_new F p b n v t q : NoDup (n :: ids t ++ ids F) -> ~ In 0 (n :: ids t ++ ids F) -> (p = 0 \/ In p (ids F)) ->
  In q (n :: ids t) -> ch (graft F p b n v t) q = kids (FCons n v t FNil) q.
Proof.
  intros H H0 Hp Hq. unfold graft, ch. cbn in H0. rewrite in_app_iff in H0.
  assert (q <> 0). { intros ->. cbn in Hq. tauto. }
  assert (Nq : ~ In q (ids F)). { rewrite NoDup_cons_iff, NoDup_app_iff, in_app_iff in H. intros C.
    destruct Hq as [<-|Hq]; [tauto|]. apply H in Hq. tauto. }
  destruct (Nat.eqb_spec q 0); [contradiction|].
  destruct (Nat.eqb_spec p 0).
  - rewrite kids_put; auto. now rewrite (kids_out F q).
  - destruct Hp; [contradiction|]. rewrite kids_edit; auto. destruct (Nat.eqb_spec q p); [subst; contradiction|].
    now rewrite (kids_out F q).
Qed.

(** ** cut *)
Lemma cut_out F i : ~ In i (ids F) -> cut F i = F.
Proof.
  induction F as [|j w s IHs r IHr]; cbn; [auto|]. rewrite in_app_iff. intros H.
  destruct (Nat.eqb_spec j i); [tauto|]. rewrite IHs, IHr; tauto.
Qed.

Lemma cut_ids F i v s : NoDup (ids F) -> find F i = Some (v, s) -> Permutation (ids F) ((i :: ids s) ++ ids (cut F i)).
Proof.
  induction F as [|j w s' IHs r IHr]; cbn [ids find cut]; [discriminate|]. rewrite !NoDup_cons_iff, NoDup_app_iff, in_app_iff.
  intros (H1 & H2 & H3 & H4). destruct (Nat.eqb_spec j i).
  - intros [= -> ->]. subst. reflexivity.
  - destruct (find s' i) eqn:E.
    + intros [= ->]. cbn [ids]. rewrite <- Permutation_middle. apply perm_skip.
      destruct (find_in _ _ _ _ E). rewrite (cut_out r i); auto. rewrite app_assoc. apply Permutation_app_tail. auto.
    + intros H. cbn [ids]. rewrite <- Permutation_middle. apply perm_skip. apply find_none in E. rewrite (cut_out s' i); auto.
      rewrite (IHr H3 H) at 1. rewrite !app_assoc. apply Permutation_app_tail. apply Permutation_app_comm.
Qed.

Lemma cut_vals F i v s : NoDup (ids F) -> find F i = Some (v, s) -> Permutation (vals F) (((i, v) :: vals s) ++ vals (cut F i)).
Proof.
  induction F as [|j w s' IHs r IHr]; cbn [ids vals find cut]; [discriminate|]. rewrite !NoDup_cons_iff, NoDup_app_iff, in_app_iff.
  intros (H1 & H2 & H3 & H4). destruct (Nat.eqb_spec j i).
  - intros [= -> ->]. subst. reflexivity.
  - destruct (find s' i) eqn:E.
    + intros [= ->]. cbn [vals]. rewrite <- Permutation_middle. apply perm_skip.
      destruct (find_in _ _ _ _ E). rewrite (cut_out r i); auto. rewrite app_assoc. apply Permutation_app_tail. auto.
    + intros H. cbn [vals]. rewrite <- Permutation_middle. apply perm_skip. apply find_none in E. rewrite (cut_out s' i); auto.
      rewrite (IHr H3 H) at 1. rewrite !app_assoc. apply Permutation_app_tail. apply Permutation_app_comm.
Qed.

(** removing a number from a list *)
Definition rml (i : nat) (l : list nat) := filter (fun x => negb (x =? i)) l.

Lemma rml_out i l : ~ In i l -> rml i l = l.
Proof.
  induction l as [|x l IH]; cbn; [auto|]. intros H. destruct (Nat.eqb_spec x i); [tauto|]. cbn. f_equal. apply IH. tauto.
Qed.
Lemma rml_app i l m : rml i (l ++ m) = rml i l ++ rml i m.
Proof. apply filter_app. Qed.
Lemma rml_split i l m : NoDup (l ++ i :: m) -> rml i (l ++ i :: m) = l ++ m.
Proof.
  intros H. rewrite rml_app. apply NoDup_remove_2 in H. rewrite in_app_iff in H.
  assert (E : rml i (i :: m) = rml i m) by (cbn; now rewrite Nat.eqb_refl).
  rewrite E, (rml_out i l), (rml_out i m); tauto.
Qed.

Lemma roots_cut F i : NoDup (ids F) -> roots (cut F i) = rml i (roots F).
Proof.
  induction F as [|j w s IHs r IHr]; cbn [ids cut roots]; [auto|]. rewrite !NoDup_cons_iff, NoDup_app_iff, in_app_iff.
  intros (H1 & H2 & H3 & H4). destruct (Nat.eqb_spec j i); cbn [rml filter].
  - subst. rewrite Nat.eqb_refl. cbn. symmetry. apply rml_out. intros C. apply roots_ids in C. auto.
  - destruct (Nat.eqb_spec j i); [contradiction|]. cbn. f_equal. auto.
Qed.

Lemma kids_cut F i q : NoDup (ids F) -> In q (ids (cut F i)) -> kids (cut F i) q = rml i (kids F q).
Proof.
  induction F as [|j w s IHs r IHr]; cbn [ids cut kids]; [tauto|]. rewrite !NoDup_cons_iff, NoDup_app_iff, in_app_iff.
  intros (H1 & H2 & H3 & H4) Hq.
  assert (SubS : forall F x, NoDup (ids F) -> In x (ids (cut F i)) -> In x (ids F)).
  { intros G x HG Hx. destruct (in_dec Nat.eq_dec i (ids G)).
    - destruct (find_some G i) as (v & t & E); auto. apply Permutation_in with (2 := in_or_app (i :: ids t) _ x (or_intror Hx)).
      symmetry. eapply cut_ids; eauto.
    - now rewrite cut_out in Hx. }
  destruct (Nat.eqb_spec j i).
  - subst. destruct (Nat.eqb_spec i q); [subst; tauto|].
    rewrite (kids_out s q); [|intros C; apply (H4 q); auto]. cbn. symmetry. apply rml_out.
    intros C. apply kids_in in C. tauto.
  - cbn [kids ids In] in *. rewrite in_app_iff in Hq. destruct (Nat.eqb_spec j q).
    + now apply roots_cut.
    + rewrite rml_app. destruct Hq as [?|[Hq|Hq]]; [contradiction|..].
      * rewrite IHs; auto. pose proof (SubS _ _ H2 Hq). rewrite (kids_out r q); auto.
        rewrite (kids_out (cut r i) q); auto. intros C. apply SubS in C; auto. now apply (H4 q).
      * pose proof (SubS _ _ H3 Hq). assert (~ In q (ids s)) by (intros C; apply (H4 q); auto).
        rewrite (kids_out s q); auto. rewrite (kids_out (cut s i) q); auto.
Qed.

Lemma cut_incl F i x : NoDup (ids F) -> In x (ids (cut F i)) -> In x (ids F).
Proof.
  intros HG Hx. destruct (in_dec Nat.eq_dec i (ids F)).
  - destruct (find_some F i) as (v & t & E); auto. apply Permutation_in with (2 := in_or_app (i :: ids t) _ x (or_intror Hx)).
    symmetry. eapply cut_ids; eauto.
  - now rewrite cut_out in Hx.
Qed.

Lemma cut_nodup F i : NoDup (ids F) -> NoDup (ids (cut F i)).
Proof.
  intros H. destruct (in_dec Nat.eq_dec i (ids F)).
  - destruct (find_some F i) as (v & t & E); auto. pose proof (cut_ids _ _ _ _ H E) as P.
    apply (Permutation_NoDup P) in H. apply NoDup_app_iff in H. tauto.
  - now rewrite cut_out.
Qed.

Lemma ch_cut F i q : NoDup (ids F) -> (q = 0 \/ In q (ids (cut F i))) -> ch (cut F i) q = rml i (ch F q).
Proof.
  intros H Hq. unfold ch. destruct (Nat.eqb_spec q 0); [now apply roots_cut|]. destruct Hq; [contradiction|]. now apply kids_cut.
Qed.

End ForestLemmas.

(** * Reading and writing the arena *)
Section Arena.
Context {V : Type}.
Notation forest := (forest V).
Notation arena := (arena V).
Implicit Types A B : arena.

Definition fpar A i := match nth_error A i with Some n => n_par n | None => 0 end.
Definition fprv A i := match nth_error A i with Some n => n_prv n | None => 0 end.
Definition fnxt A i := match nth_error A i with Some n => n_nxt n | None => 0 end.
Definition fchd A i := match nth_error A i with Some n => n_chd n | None => 0 end.

Definition upd A i (f : node V -> node V) : arena :=
  match nth_error A i with Some n => firstn i A ++ f n :: skipn (S i) A | None => A end.

Lemma upd_length A i f : length (upd A i f) = length A.
Proof.
  unfold upd. destruct (nth_error A i) eqn:E; auto. assert (i < length A) by (apply nth_error_Some; congruence).
  rewrite app_length, firstn_length. cbn [length]. rewrite skipn_length. lia.
Qed.

Lemma upd_nth A i f j : i < length A ->
  nth_error (upd A i f) j = if j =? i then option_map f (nth_error A i) else nth_error A j.
Proof.
  intros H. unfold upd. destruct (nth_error A i) eqn:E; [|apply nth_error_None in E; lia].
  pose proof (firstn_length i A) as L. rewrite Nat.min_l in L by lia.
  destruct (Nat.eqb_spec j i).
  - subst. rewrite nth_error_app2 by lia. rewrite L, Nat.sub_diag. reflexivity.
  - destruct (Nat.ltb_spec j i).
    + rewrite nth_error_app1 by lia. rewrite <- (firstn_skipn i A) at 2. rewrite nth_error_app1 by lia. reflexivity.
    + rewrite nth_error_app2 by lia. rewrite L. destruct (j - i) as [|k] eqn:Ek; [lia|]. cbn [nth_error].
      rewrite <- (firstn_skipn (S i) A) at 2. rewrite nth_error_app2; rewrite firstn_length, Nat.min_l by lia; [|lia].
      f_equal. lia.
Qed.

Definition u_par A i x := upd A i (fun n => Node x (n_prv n) (n_nxt n) (n_chd n) (n_val n)).
Definition u_prv A i x := upd A i (fun n => Node (n_par n) x (n_nxt n) (n_chd n) (n_val n)).
Definition u_nxt A i x := upd A i (fun n => Node (n_par n) (n_prv n) x (n_chd n) (n_val n)).
Definition u_chd A i x := upd A i (fun n => Node (n_par n) (n_prv n) (n_nxt n) x (n_val n)).
Definition u_val A i x := upd A i (fun n => Node (n_par n) (n_prv n) (n_nxt n) (n_chd n) x).

Lemma get_bound A i : i < length A -> exists n, nth_error A i = Some n.
Proof. intros H. destruct (nth_error A i) eqn:E; [eauto|]. apply nth_error_None in E. lia. Qed.

Ltac getb := intros H; destruct (get_bound _ _ H) as [n E]; unfold s_par, s_prv, s_nxt, s_chd, s_val, set_node,
  u_par, u_prv, u_nxt, u_chd, u_val, upd, g_par, g_prv, g_nxt, g_chd, g_val, fpar, fprv, fnxt, fchd; rewrite E; reflexivity.
Lemma g_par_ok A i : i < length A -> g_par A i = Some (fpar A i). Proof. getb. Qed.
Lemma g_prv_ok A i : i < length A -> g_prv A i = Some (fprv A i). Proof. getb. Qed.
Lemma g_nxt_ok A i : i < length A -> g_nxt A i = Some (fnxt A i). Proof. getb. Qed.
Lemma g_chd_ok A i : i < length A -> g_chd A i = Some (fchd A i). Proof. getb. Qed.
Lemma s_par_ok A i x : i < length A -> s_par A i x = Some (u_par A i x). Proof. getb. Qed.
Lemma s_prv_ok A i x : i < length A -> s_prv A i x = Some (u_prv A i x). Proof. getb. Qed.
Lemma s_nxt_ok A i x : i < length A -> s_nxt A i x = Some (u_nxt A i x). Proof. getb. Qed.
Lemma s_chd_ok A i x : i < length A -> s_chd A i x = Some (u_chd A i x). Proof. getb. Qed.
Lemma s_val_ok A i x : i < length A -> s_val A i x = Some (u_val A i x). Proof. getb. Qed.

Lemma len_par A i x : length (u_par A i x) = length A. Proof. apply upd_length. Qed.
Lemma len_prv A i x : length (u_prv A i x) = length A. Proof. apply upd_length. Qed.
Lemma len_nxt A i x : length (u_nxt A i x) = length A. Proof. apply upd_length. Qed.
Lemma len_chd A i x : length (u_chd A i x) = length A. Proof. apply upd_length. Qed.
Lemma len_val A i x : length (u_val A i x) = length A. Proof. apply upd_length. Qed.

Lemma upd_field {C : Type} (g : option (node V) -> C) A i f j :
  (forall n, g (Some (f n)) = g (Some n)) -> g (nth_error (upd A i f) j) = g (nth_error A j).
Proof.
  intros H. destruct (Nat.ltb_spec i (length A)) as [L|L].
  - rewrite upd_nth by auto. destruct (Nat.eqb_spec j i); [|auto]. subst. destruct (nth_error A i); cbn; auto.
  - unfold upd. apply nth_error_None in L. now rewrite L.
Qed.

Ltac same := match goal with |- ?f _ _ = _ => unfold f end;
  match goal with |- context [nth_error (?u _ _ _)] => unfold u end;
  match goal with |- match nth_error (upd ?A ?i ?f) ?j with Some n => ?h n | None => 0 end = _ =>
    exact (upd_field (fun o => match o with Some n => h n | None => 0 end) A i f j (fun n => eq_refl)) end.
Ltac hit := intros H; match goal with |- ?f _ _ = _ => unfold f end;
  match goal with |- context [nth_error (?u _ _ _)] => unfold u end;
  rewrite upd_nth by auto; match goal with |- context [?a =? ?b] => destruct (Nat.eqb_spec a b) as [->|] end; [|reflexivity];
  destruct (get_bound _ _ H) as [n E]; rewrite E; reflexivity.

Lemma par_par A i x j : i < length A -> fpar (u_par A i x) j = if j =? i then x else fpar A j. Proof. hit. Qed.
Lemma prv_prv A i x j : i < length A -> fprv (u_prv A i x) j = if j =? i then x else fprv A j. Proof. hit. Qed.
Lemma nxt_nxt A i x j : i < length A -> fnxt (u_nxt A i x) j = if j =? i then x else fnxt A j. Proof. hit. Qed.
Lemma chd_chd A i x j : i < length A -> fchd (u_chd A i x) j = if j =? i then x else fchd A j. Proof. hit. Qed.
Lemma par_prv A i x j : fpar (u_prv A i x) j = fpar A j. Proof. same. Qed.
Lemma par_nxt A i x j : fpar (u_nxt A i x) j = fpar A j. Proof. same. Qed.
Lemma par_chd A i x j : fpar (u_chd A i x) j = fpar A j. Proof. same. Qed.
Lemma par_val A i x j : fpar (u_val A i x) j = fpar A j. Proof. same. Qed.
Lemma prv_par A i x j : fprv (u_par A i x) j = fprv A j. Proof. same. Qed.
Lemma prv_nxt A i x j : fprv (u_nxt A i x) j = fprv A j. Proof. same. Qed.
Lemma prv_chd A i x j : fprv (u_chd A i x) j = fprv A j. Proof. same. Qed.
Lemma prv_val A i x j : fprv (u_val A i x) j = fprv A j. Proof. same. Qed.
Lemma nxt_par A i x j : fnxt (u_par A i x) j = fnxt A j. Proof. same. Qed.
Lemma nxt_prv A i x j : fnxt (u_prv A i x) j = fnxt A j. Proof. same. Qed.
Lemma nxt_chd A i x j : fnxt (u_chd A i x) j = fnxt A j. Proof. same. Qed.
Lemma nxt_val A i x j : fnxt (u_val A i x) j = fnxt A j. Proof. same. Qed.
Lemma chd_par A i x j : fchd (u_par A i x) j = fchd A j. Proof. same. Qed.
Lemma chd_prv A i x j : fchd (u_prv A i x) j = fchd A j. Proof. same. Qed.
Lemma chd_nxt A i x j : fchd (u_nxt A i x) j = fchd A j. Proof. same. Qed.
Lemma chd_val A i x j : fchd (u_val A i x) j = fchd A j. Proof. same. Qed.

Lemma val_val A i x j : i < length A -> g_val (u_val A i x) j = if j =? i then Some x else g_val A j.
Proof.
  intros H. unfold g_val, u_val. rewrite upd_nth by auto. destruct (Nat.eqb_spec j i) as [->|]; [|reflexivity].
  destruct (get_bound _ _ H) as [n E]; rewrite E; reflexivity.
Qed.
Lemma val_par A i x j : g_val (u_par A i x) j = g_val A j.
Proof. unfold g_val. apply (upd_field (option_map n_val)). reflexivity. Qed.
Lemma val_prv A i x j : g_val (u_prv A i x) j = g_val A j.
Proof. unfold g_val. apply (upd_field (option_map n_val)). reflexivity. Qed.
Lemma val_nxt A i x j : g_val (u_nxt A i x) j = g_val A j.
Proof. unfold g_val. apply (upd_field (option_map n_val)). reflexivity. Qed.
Lemma val_chd A i x j : g_val (u_chd A i x) j = g_val A j.
Proof. unfold g_val. apply (upd_field (option_map n_val)). reflexivity. Qed.

Lemma s_val_any A i x : i < length A -> s_val A i x = Some (u_val A i x). Proof. apply s_val_ok. Qed.
End Arena.

Create HintDb arena.
#[export] Hint Rewrite @par_prv @par_nxt @par_chd @par_val @prv_par @prv_nxt @prv_chd @prv_val @nxt_par @nxt_prv @nxt_chd @nxt_val
  @chd_par @chd_prv @chd_nxt @chd_val @val_par @val_prv @val_nxt @val_chd
  @len_par @len_prv @len_nxt @len_chd @len_val : arena.
#[export] Hint Rewrite @par_par @prv_prv @nxt_nxt @chd_chd @val_val using (autorewrite with arena; lia) : arena.
Global Opaque u_par u_prv u_nxt u_chd u_val.

(** run the next read or write *)
Ltac rd1 := first
  [ rewrite g_par_ok by (autorewrite with arena; lia) | rewrite g_prv_ok by (autorewrite with arena; lia)
  | rewrite g_nxt_ok by (autorewrite with arena; lia) | rewrite g_chd_ok by (autorewrite with arena; lia)
  | rewrite s_par_ok by (autorewrite with arena; lia) | rewrite s_prv_ok by (autorewrite with arena; lia)
  | rewrite s_nxt_ok by (autorewrite with arena; lia) | rewrite s_chd_ok by (autorewrite with arena; lia)
  | rewrite s_val_ok by (autorewrite with arena; lia) ].
Ltac eqs := repeat match goal with
  | |- context [?x =? ?x] => rewrite (Nat.eqb_refl x)
  | H : ?x <> ?y |- context [?x =? ?y] => rewrite (proj2 (Nat.eqb_neq x y) H)
  | H : ?y <> ?x |- context [?x =? ?y] => rewrite (proj2 (Nat.eqb_neq x y) (not_eq_sym H))
  end.
