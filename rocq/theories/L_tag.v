(** Lemmas for the tag_tree container: what each primitive writes, and lists linked in the arena. *)
From Coq Require Import List Arith Bool Lia Sorting.Sorted Permutation.
From Verif Require Import M_tree M_tag.
Import ListNotations.
Open Scope tree_scope.

Section L.
Context {V : Type}.
Notation tags := (@tags V).

Lemma nth_error_upd : forall (a : tags) i f a', upd a i f = Some a' ->
  length a' = length a /\ forall j, nth_error a' j = if j =? i then option_map f (nth_error a j) else nth_error a j.
Proof.
  intros a i f a' H. unfold upd in H. destruct (nth_error a i) as [n|] eqn:E; [|discriminate].
  assert (Q : a' = firstn i a ++ f n :: skipn (S i) a) by congruence. clear H. subst a'.
  pose proof (nth_error_split _ _ E) as (l1 & l2 & -> & L).
  assert (F : firstn i (l1 ++ n :: l2) = l1) by (subst i; rewrite firstn_app, Nat.sub_diag, firstn_all, firstn_O, app_nil_r; reflexivity).
  assert (K : skipn (S i) (l1 ++ n :: l2) = l2).
  { subst i. rewrite skipn_app, skipn_all2 by lia. replace (S (length l1) - length l1) with 1 by lia. reflexivity. }
  rewrite F, K. subst i.
  split; [rewrite !app_length; reflexivity|]. intro j.
  destruct (j =? length l1) eqn:J.
  - apply Nat.eqb_eq in J. subst j. rewrite !nth_error_app2, !Nat.sub_diag by lia. reflexivity.
  - apply Nat.eqb_neq in J. destruct (Nat.lt_ge_cases j (length l1)).
    + rewrite !nth_error_app1 by lia. reflexivity.
    + rewrite !nth_error_app2 by lia. destruct (j - length l1) eqn:D; [lia|]. reflexivity.
Qed.

Lemma upd_some : forall (a : tags) i f, i < length a -> exists a', upd a i f = Some a'.
Proof.
  intros a i f H. unfold upd. destruct (nth_error a i) eqn:E; [eauto|]. apply nth_error_None in E. lia.
Qed.

Lemma r_some : forall (a : tags) i, i < length a ->
  (exists x, r_prev a i = Some x) /\ (exists x, r_next a i = Some x) /\ (exists x, r_head a i = Some x)
  /\ (exists x, r_tail a i = Some x) /\ (exists x, r_val a i = Some x).
Proof.
  intros a i H. unfold r_prev, r_next, r_head, r_tail, r_val.
  destruct (nth_error a i) eqn:E; [|apply nth_error_None in E; lia]. cbn. repeat split; eexists; reflexivity.
Qed.

Lemma r_lt : forall (a : tags) i x, r_prev a i = Some x \/ r_next a i = Some x \/ r_head a i = Some x \/ r_tail a i = Some x ->
  i < length a.
Proof.
  intros a i x H. apply nth_error_Some. intro E. unfold r_prev, r_next, r_head, r_tail in H. rewrite E in H.
  cbn in H. intuition discriminate.
Qed.

(** One field written. *)
Definition wrote (a a' : tags) (p n h t : nat -> option nat) (v : nat -> option V) : Prop :=
  length a' = length a /\ (forall j, r_prev a' j = p j) /\ (forall j, r_next a' j = n j)
  /\ (forall j, r_head a' j = h j) /\ (forall j, r_tail a' j = t j) /\ (forall j, r_val a' j = v j).

Definition ow {A} (f : nat -> option A) (i : nat) (x : A) : nat -> option A := fun j => if j =? i then Some x else f j.

Lemma ow_same : forall {A} (f : nat -> option A) i x, ow f i x i = Some x.
Proof. intros. unfold ow. rewrite Nat.eqb_refl. reflexivity. Qed.
Lemma ow_other : forall {A} (f : nat -> option A) i x j, j <> i -> ow f i x j = f j.
Proof. intros. unfold ow. destruct (j =? i) eqn:E; [apply Nat.eqb_eq in E; congruence|reflexivity]. Qed.

Ltac wr := let a := fresh "a" in let i := fresh "i" in let x := fresh "x" in let H := fresh "H" in
  let b := fresh "b" in let E := fresh "E" in let L := fresh "L" in let j := fresh "j" in let J := fresh "J" in
  let N := fresh "N" in
  intros a i x H; unfold w_prev, w_next, w_head, w_tail, w_val;
  match goal with |- context [upd a i ?f] => destruct (upd_some a i f H) as [b E] end;
  exists b; split; [exact E|]; apply nth_error_upd in E; destruct E as [L E];
  unfold wrote; split; [exact L|]; unfold r_prev, r_next, r_head, r_tail, r_val, ow;
  repeat split; intro j; rewrite E; destruct (j =? i) eqn:J; try reflexivity;
  apply Nat.eqb_eq in J; subst j; destruct (nth_error a i) eqn:N; try reflexivity;
  apply nth_error_None in N; lia.

Lemma w_prev_spec : forall (a : tags) i x, i < length a ->
  exists a', w_prev a i x = Some a' /\ wrote a a' (ow (r_prev a) i x) (r_next a) (r_head a) (r_tail a) (r_val a).
Proof. wr. Qed.
Lemma w_next_spec : forall (a : tags) i x, i < length a ->
  exists a', w_next a i x = Some a' /\ wrote a a' (r_prev a) (ow (r_next a) i x) (r_head a) (r_tail a) (r_val a).
Proof. wr. Qed.
Lemma w_head_spec : forall (a : tags) i x, i < length a ->
  exists a', w_head a i x = Some a' /\ wrote a a' (r_prev a) (r_next a) (ow (r_head a) i x) (r_tail a) (r_val a).
Proof. wr. Qed.
Lemma w_tail_spec : forall (a : tags) i x, i < length a ->
  exists a', w_tail a i x = Some a' /\ wrote a a' (r_prev a) (r_next a) (r_head a) (ow (r_tail a) i x) (r_val a).
Proof. wr. Qed.
Lemma w_val_spec : forall (a : tags) i x, i < length a ->
  exists a', w_val a i x = Some a' /\ wrote a a' (r_prev a) (r_next a) (r_head a) (r_tail a) (ow (r_val a) i x).
Proof. wr. Qed.

Lemma wrote_trans : forall (a b c : tags) p n h t v p' n' h' t' v',
  wrote a b p n h t v -> wrote b c p' n' h' t' v' ->
  wrote a c p' n' h' t' v'.
Proof.
  intros a b c p n h t v p' n' h' t' v' (L & _) (L' & A & B & C & D & E).
  split; [congruence|]. repeat split; auto.
Qed.

Lemma wrote_eq : forall (a b : tags) p n h t v p' n' h' t' v',
  wrote a b p n h t v -> (forall j, p j = p' j) -> (forall j, n j = n' j) -> (forall j, h j = h' j) ->
  (forall j, t j = t' j) -> (forall j, v j = v' j) -> wrote a b p' n' h' t' v'.
Proof. intros a b p n h t v p' n' h' t' v' (L & A & B & C & D & E) P N H T W. split; [exact L|]. repeat split; congruence. Qed.

Lemma ow_ext : forall {A} (f g : nat -> option A) i x, (forall j, f j = g j) -> forall j, ow f i x j = ow g i x j.
Proof. intros A f g i x H j. unfold ow. rewrite H. reflexivity. Qed.

(** Rewrites every field of every arena back to the first one. *)
Ltac back :=
  repeat match goal with
  | H : wrote _ _ _ _ _ _ _ |- _ => destruct H as (? & ? & ? & ? & ? & ?)
  end.

Ltac one w spec := match goal with |- context [w ?a ?i ?x] =>
    let a' := fresh "a" in let E := fresh "E" in let W := fresh "W" in
    destruct (spec a i x) as (a' & E & W); [try lia|rewrite E; cbv iota beta zeta; destruct W as (? & ? & ? & ? & ? & ?)] end.
Ltac step := first [one (@w_prev V) w_prev_spec | one (@w_next V) w_next_spec | one (@w_head V) w_head_spec
  | one (@w_tail V) w_tail_spec | one (@w_val V) w_val_spec].

Ltac fields := unfold wrote; split; [congruence|]; repeat split; intro j; unfold ow in *;
  repeat match goal with H : forall j, _ = _ |- _ => rewrite H; clear H end; reflexivity.

Lemma link_spec : forall (a : tags) pos idx before, pos < length a -> idx < length a ->
  r_prev a pos = Some before -> before < length a ->
  exists a', link a pos idx = Some a' /\
    wrote a a' (ow (ow (r_prev a) idx before) pos idx) (ow (ow (r_next a) before idx) idx pos)
      (ow (r_head a) idx 0) (ow (r_tail a) idx 0) (r_val a).
Proof.
  intros a pos idx before P I B Hb. unfold link.
  rewrite (proj2 (Nat.ltb_lt _ _) P), (proj2 (Nat.ltb_lt _ _) I). cbn [andb]. rewrite B.
  do 6 (step; [congruence..|]). eexists. split; [reflexivity|]. fields.
Qed.

Lemma unlink_spec : forall (a : tags) idx before after, idx < length a ->
  r_prev a idx = Some before -> before < length a -> r_next a idx = Some after -> after < length a ->
  exists a', unlink a idx = Some a' /\
    wrote a a' (ow (ow (r_prev a) after before) idx 0) (ow (ow (r_next a) before after) idx 0)
      (ow (r_head a) idx 0) (ow (r_tail a) idx 0) (r_val a).
Proof.
  intros a idx before after I B Hb A Ha. unfold unlink.
  rewrite (proj2 (Nat.ltb_lt _ _) I), B, A.
  do 6 (step; [congruence..|]). eexists. split; [reflexivity|]. fields.
Qed.

Lemma allocate_reuse : forall (a : tags) v idx before after, r_tail a 0 = Some idx -> idx <> 0 -> idx < length a ->
  r_head a idx = Some before -> before < length a -> r_tail a idx = Some after -> after < length a ->
  exists a', allocate a v = Some (a', idx) /\
    wrote a a' (ow (r_prev a) idx 0) (ow (r_next a) idx 0) (ow (r_head a) after before) (ow (r_tail a) before after)
      (ow (r_val a) idx v).
Proof.
  intros a v idx before after T Z I B Hb A Ha. unfold allocate. rewrite T.
  rewrite (proj2 (Nat.eqb_neq _ _) Z), B, A.
  do 5 (step; [congruence..|]). eexists. split; [reflexivity|]. fields.
Qed.

Lemma allocate_new : forall (a : tags) v, r_tail a 0 = Some 0 ->
  exists a', allocate a v = Some (a', length a) /\ length a' = S (length a) /\
    (forall j, j < length a -> r_prev a' j = r_prev a j /\ r_next a' j = r_next a j /\ r_head a' j = r_head a j
               /\ r_tail a' j = r_tail a j /\ r_val a' j = r_val a j)
    /\ r_val a' (length a) = Some v.
Proof.
  intros a v T. unfold allocate. rewrite T. cbn [Nat.eqb]. eexists. split; [reflexivity|].
  split; [rewrite app_length; cbn; lia|].
  split.
  - intros j J. unfold r_prev, r_next, r_head, r_tail, r_val. rewrite nth_error_app1 by exact J. auto.
  - unfold r_val. rewrite nth_error_app2, Nat.sub_diag by lia. reflexivity.
Qed.

Lemma free_spec : forall (a : tags) idx i before after, idx < length a ->
  r_tail a 0 = Some i -> free_before (S (length a)) a idx 0 i = Some before -> before < length a ->
  r_tail a before = Some after -> after < length a ->
  exists a', free a idx = Some a' /\
    wrote a a' (ow (r_prev a) idx 0) (ow (r_next a) idx 0) (ow (ow (r_head a) idx before) after idx)
      (ow (ow (r_tail a) before idx) idx after) (r_val a).
Proof.
  intros a idx i before after I T F Hb A Ha. unfold free.
  rewrite (proj2 (Nat.ltb_lt _ _) I), T, F, A.
  do 6 (step; [congruence..|]). eexists. split; [reflexivity|]. fields.
Qed.

Lemma move_spec : forall (a : tags) pos sub pb sb st sa, pos < length a -> sub < length a ->
  r_prev a pos = Some pb -> pb < length a -> r_prev a sub = Some sb -> sb < length a ->
  last_tag a sub = Some st -> st < length a -> r_next a st = Some sa -> sa < length a ->
  exists a', tt_move a pos sub = Some (a', sub) /\
    wrote a a' (ow (ow (ow (r_prev a) sub pb) pos st) sa sb) (ow (ow (ow (r_next a) pb sub) st pos) sb sa)
      (r_head a) (r_tail a) (r_val a).
Proof.
  intros a pos sub pb sb st sa P S0 B Hb Sb Hsb T Ht A Ha. unfold tt_move.
  rewrite B, Sb, T, A.
  do 6 (step; [congruence..|]). eexists. split; [reflexivity|]. fields.
Qed.

(** A list of indices linked forwards by [nx] and backwards by [pv], from [x] to [y]. *)
Fixpoint links (nx pv : nat -> option nat) (x : nat) (l : list nat) (y : nat) : Prop :=
  match l with
  | [] => nx x = Some y /\ pv y = Some x
  | z :: r => nx x = Some z /\ pv z = Some x /\ links nx pv z r y
  end.

Lemma links_app : forall nx pv l1 x z l2 y, links nx pv x (l1 ++ z :: l2) y <-> links nx pv x l1 z /\ links nx pv z l2 y.
Proof.
  intros nx pv l1. induction l1 as [|w l1 IH]; intros x z l2 y; cbn [app links].
  - tauto.
  - rewrite IH. tauto.
Qed.

Lemma links_ext : forall nx pv nx' pv' l x y,
  (forall j, j = x \/ In j l -> nx' j = nx j) -> (forall j, j = y \/ In j l -> pv' j = pv j) ->
  links nx pv x l y -> links nx' pv' x l y.
Proof.
  intros nx pv nx' pv' l. induction l as [|z l IH]; intros x y N P H; cbn [links] in *.
  - destruct H. split; [rewrite N|rewrite P]; auto.
  - destruct H as (A & B & C). split; [rewrite N; auto|]. split; [rewrite P; cbn; auto|].
    apply IH; [| |exact C].
    + intros j [->|J]; apply N; cbn; auto.
    + intros j [->|J]; apply P; cbn; auto.
Qed.

(** Neighbours *)
Lemma links_last : forall nx pv l x y, links nx pv x l y -> pv y = Some (last l x).
Proof.
  intros nx pv l. induction l as [|z l IH]; intros x y H; cbn [links] in H.
  - apply H.
  - destruct H as (_ & _ & H). apply IH in H. rewrite H. destruct l; cbn; [reflexivity|].
    f_equal. apply (f_equal (fun o => match o with Some k => k | None => 0 end)) in H.
    clear. revert n z x. induction l; intros; cbn; auto.
Qed.

Lemma links_first : forall nx pv l x y, links nx pv x l y -> nx x = Some (hd y l).
Proof. intros nx pv [|z l] x y H; apply H. Qed.
End L.
