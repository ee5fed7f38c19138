(** Specification and lemmas for M_static_vector. *)
From Coq Require Import List Bool ZArith Arith Lia.
From Verif Require Import M_static_vector.
Import ListNotations.

Ltac bools := repeat match goal with
  | |- context [Nat.leb ?a ?b] => destruct (Nat.leb_spec a b)
  | |- context [Nat.ltb ?a ?b] => destruct (Nat.ltb_spec a b)
  | |- context [Nat.eqb ?a ?b] => destruct (Nat.eqb_spec a b)
  end; cbn [andb negb].

(** * Specification: a list with a length limit *)
Section Spec.
Context {A : Type}.

(** Value meant by an argument: an element reference denotes the element's value before the call. *)
Definition spec_arg (l : list A) (a : arg A) : option A :=
  match a with Val x => Some x | Slot i => nth_error l i end.

Definition ok_cap (cap : nat) (l : list A) : option (list A) :=
  if length l <=? cap then Some l else None.

Definition spec_step (cap : nat) (l : list A) (o : sv_op A) : option (list A) :=
  match o with
  | OpPushBack a => match spec_arg l a with Some x => ok_cap cap (l ++ [x]) | None => None end
  | OpPopBack => match l with [] => None | _ => Some (removelast l) end
  | OpInsert p a =>
      if p <=? length l then
        match spec_arg l a with
        | Some x => ok_cap cap (firstn p l ++ [x] ++ skipn p l) | None => None end
      else None
  | OpInsertN p n a =>
      if p <=? length l then
        match n, spec_arg l a with
        | O, _ => Some l
        | _, Some x => ok_cap cap (firstn p l ++ repeat x n ++ skipn p l)
        | _, None => None end
      else None
  | OpInsertList p xs =>
      if p <=? length l then ok_cap cap (firstn p l ++ xs ++ skipn p l) else None
  | OpErase p => if p <? length l then Some (firstn p l ++ skipn (S p) l) else None
  | OpEraseRange f t =>
      if (f <? length l) && (f <=? t) && (t <=? length l) then Some (firstn f l ++ skipn t l) else None
  | OpResize n a =>
      if n <=? length l then Some (firstn n l)
      else match spec_arg l a with
           | Some x => ok_cap cap (l ++ repeat x (n - length l)) | None => None end
  | OpAssignN n a =>
      match n, spec_arg l a with
      | O, _ => Some []
      | _, Some x => ok_cap cap (repeat x n) | _, None => None end
  | OpAssign xs => ok_cap cap xs
  | OpClear => Some []
  end.

Fixpoint spec_run (cap : nat) (l : list A) (ops : list (sv_op A)) : option (list A) :=
  match ops with
  | [] => Some l
  | o :: r => match spec_step cap l o with Some l' => spec_run cap l' r | None => None end
  end.

(** Arguments that do not refer to an element which the same call shifts away. *)
Definition arg_safe (o : sv_op A) : Prop :=
  match o with
  | OpInsert p (Slot i) => i <= p
  | OpInsertN p n (Slot i) => i < p + n
  | _ => True
  end.

(** References must denote an element of the vector. *)
Definition arg_valid (l : list A) (o : sv_op A) : Prop :=
  match o with
  | OpPushBack (Slot i) | OpInsert _ (Slot i) | OpInsertN _ _ (Slot i)
  | OpResize _ (Slot i) | OpAssignN _ (Slot i) => i < length l
  | _ => True
  end.

Fixpoint ops_valid (cap : nat) (l : list A) (ops : list (sv_op A)) : Prop :=
  match ops with
  | [] => True
  | o :: r => arg_valid l o /\ match spec_step cap l o with Some l' => ops_valid cap l' r | None => True end
  end.

(** * Slot-level lemmas *)

Lemma upd_some (l : list A) i x : i < length l ->
  upd l i x = Some (firstn i l ++ x :: skipn (S i) l).
Proof.
  revert i. induction l as [|y l IH]; intros [|i] H; cbn [length] in H; try lia; cbn [upd firstn skipn app].
  - reflexivity.
  - rewrite IH by lia. reflexivity.
Qed.

Lemma upd_none (l : list A) i x : length l <= i -> upd l i x = None.
Proof.
  revert i. induction l as [|y l IH]; intros [|i] H; cbn [length] in H; try lia; cbn; try reflexivity.
  rewrite IH by lia. reflexivity.
Qed.

Lemma upd_nth (l : list A) i x l' : upd l i x = Some l' ->
  length l' = length l /\ forall j, nth_error l' j = if Nat.eqb j i then Some x else nth_error l j.
Proof.
  revert i l'. induction l as [|y l IH]; intros [|i] l' H; cbn in H; try discriminate.
  - injection H as <-. split; [reflexivity|]. intros [|j]; reflexivity.
  - destruct (upd l i x) as [r|] eqn:E; [|discriminate]. injection H as <-.
    destruct (IH _ _ E) as [H1 H2]. split; [cbn; lia|]. intros [|j]; [reflexivity|]. apply H2.
Qed.

Lemma upd_ex (l : list A) i x : i < length l -> exists l', upd l i x = Some l'.
Proof. intros H. eexists. now apply upd_some. Qed.

Lemma copy_backward_spec n : forall last d_last (l : list A),
  n <= last -> last <= d_last -> d_last <= length l ->
  exists l', copy_backward n last d_last l = Some l' /\ length l' = length l /\
    forall j, nth_error l' j =
      if (d_last - n <=? j) && (j <? d_last) then nth_error l (j - (d_last - last)) else nth_error l j.
Proof.
  induction n as [|n IH]; intros last d l H1 H2 H3.
  - exists l. cbn [copy_backward]. repeat split; auto. intros j.
    destruct (Nat.leb_spec (d - 0) j), (Nat.ltb_spec j d); cbn; auto; lia.
  - destruct last as [|last]; [lia|]. destruct d as [|d]; [lia|]. cbn [copy_backward].
    destruct (nth_error l last) as [x|] eqn:Hx.
    2:{ apply nth_error_None in Hx. lia. }
    destruct (upd_ex l d x) as [l1 Hl1]; [lia|]. rewrite Hl1.
    destruct (upd_nth _ _ _ _ Hl1) as [Hlen Hnth].
    destruct (IH last d l1) as (l' & E1 & E2 & E3); try lia.
    exists l'. split; [assumption|]. split; [lia|]. intros j. rewrite E3, !Hnth.
    bools; try lia; try reflexivity; try (rewrite <- Hx); f_equal; lia.
Qed.

Lemma copy_forward_spec n : forall first d (l : list A),
  d <= first -> first + n <= length l ->
  exists l', copy_forward n first d l = Some l' /\ length l' = length l /\
    forall j, nth_error l' j =
      if (d <=? j) && (j <? d + n) then nth_error l (j + (first - d)) else nth_error l j.
Proof.
  induction n as [|n IH]; intros first d l H1 H2.
  - exists l. cbn [copy_forward]. repeat split; auto. intros j.
    destruct (Nat.leb_spec d j), (Nat.ltb_spec j (d + 0)); cbn; auto; lia.
  - cbn [copy_forward]. destruct (nth_error l first) as [x|] eqn:Hx.
    2:{ apply nth_error_None in Hx. lia. }
    destruct (upd_ex l d x) as [l1 Hl1]; [lia|]. rewrite Hl1.
    destruct (upd_nth _ _ _ _ Hl1) as [Hlen Hnth].
    destruct (IH (S first) (S d) l1) as (l' & E1 & E2 & E3); try lia.
    exists l'. split; [assumption|]. split; [lia|]. intros j. rewrite E3, !Hnth.
    bools; try lia; try reflexivity; try (rewrite <- Hx); f_equal; lia.
Qed.

Lemma write_list_spec xs : forall d (l : list A), d + length xs <= length l ->
  exists l', write_list xs d l = Some l' /\ length l' = length l /\
    forall j, nth_error l' j =
      if (d <=? j) && (j <? d + length xs) then nth_error xs (j - d) else nth_error l j.
Proof.
  induction xs as [|x xs IH]; intros d l H; cbn [length] in *.
  - exists l. split; [reflexivity|]. split; [reflexivity|]. intros j. cbn [length]. bools; try reflexivity; lia.
  - cbn [write_list]. destruct (upd_ex l d x) as [l1 Hl1]; [lia|]. rewrite Hl1.
    destruct (upd_nth _ _ _ _ Hl1) as [Hlen Hnth].
    destruct (IH (S d) l1) as (l' & E1 & E2 & E3); try lia.
    exists l'. split; [assumption|]. split; [lia|]. intros j. rewrite E3, !Hnth.
    bools; try lia; try reflexivity.
    + replace (j - d) with (S (j - S d)) by lia. reflexivity.
    + subst j. now rewrite Nat.sub_diag.
Qed.

(** Filling with an argument whose value stays the same. *)
Lemma fill_spec n a x : forall d (l : list A), d + n <= length l -> rd l a = Some x ->
  exists l', fill n d a l = Some l' /\ length l' = length l /\
    forall j, nth_error l' j = if (d <=? j) && (j <? d + n) then Some x else nth_error l j.
Proof.
  induction n as [|n IH]; intros d l H Ha.
  - exists l. split; [reflexivity|]. split; [reflexivity|]. intros j. cbn [length]. bools; try reflexivity; lia.
  - cbn [fill]. rewrite Ha. destruct (upd_ex l d x) as [l1 Hl1]; [lia|]. rewrite Hl1.
    destruct (upd_nth _ _ _ _ Hl1) as [Hlen Hnth].
    destruct (IH (S d) l1) as (l' & E1 & E2 & E3); try lia.
    { destruct a as [y|i]; [assumption|]. cbn in *. rewrite Hnth. destruct (Nat.eqb i d); auto. }
    exists l'. split; [assumption|]. split; [lia|]. intros j. rewrite E3, !Hnth.
    bools; try lia; reflexivity.
Qed.

(** * List extensionality helpers *)

Lemma nth_error_ext (l1 l2 : list A) : (forall j, nth_error l1 j = nth_error l2 j) -> l1 = l2.
Proof.
  revert l2. induction l1 as [|x l1 IH]; intros [|y l2] H.
  - reflexivity.
  - specialize (H 0). discriminate.
  - specialize (H 0). discriminate.
  - pose proof (H 0) as H0. injection H0 as ->. f_equal. apply IH. intros j. apply (H (S j)).
Qed.

Lemma nth_error_firstn (l : list A) n j :
  nth_error (firstn n l) j = if j <? n then nth_error l j else None.
Proof.
  revert n j. induction l as [|x l IH]; intros n j.
  - rewrite firstn_nil. destruct (j <? n); now destruct j.
  - destruct n as [|n]; [now destruct j|]. destruct j as [|j]; [reflexivity|]. cbn [firstn nth_error].
    rewrite IH. reflexivity.
Qed.

Lemma nth_error_skipn (l : list A) n j : nth_error (skipn n l) j = nth_error l (n + j).
Proof.
  revert l. induction n as [|n IH]; intros l; [reflexivity|]. destruct l as [|x l].
  - cbn. destruct j; reflexivity.
  - cbn. apply IH.
Qed.

Lemma nth_error_app_if (l1 l2 : list A) j :
  nth_error (l1 ++ l2) j = if j <? length l1 then nth_error l1 j else nth_error l2 (j - length l1).
Proof.
  destruct (Nat.ltb_spec j (length l1)); [now apply nth_error_app1|now apply nth_error_app2].
Qed.

Lemma nth_error_repeat_if (x : A) n j : nth_error (repeat x n) j = if j <? n then Some x else None.
Proof.
  revert j. induction n as [|n IH]; intros [|j]; cbn [repeat nth_error]; try reflexivity.
  rewrite IH. reflexivity.
Qed.

Lemma nth_error_none_if (l : list A) j : length l <= j -> nth_error l j = None.
Proof. apply nth_error_None. Qed.

Definition wf (cap : nat) (s : svec A) : Prop := length (sv_buf s) = cap /\ sv_size s <= cap.

Lemma contents_length cap (s : svec A) : wf cap s -> length (sv_contents s) = sv_size s.
Proof. intros [H1 H2]. unfold sv_contents. rewrite firstn_length. lia. Qed.

Lemma contents_nth (s : svec A) j : nth_error (sv_contents s) j = if j <? sv_size s then nth_error (sv_buf s) j else None.
Proof. apply nth_error_firstn. Qed.


(** Relation between a model result and a specification result. *)
Definition rel (cap : nat) (r : option (svec A)) (q : option (list A)) : Prop :=
  match r, q with
  | Some s, Some l => wf cap s /\ sv_contents s = l
  | None, None => True
  | _, _ => False
  end.

Lemma rd_contents cap (s : svec A) a l : wf cap s -> sv_contents s = l ->
  match a with Slot i => i < length l | _ => True end -> rd (sv_buf s) a = spec_arg l a.
Proof.
  intros Hwf <- Ha. destruct a as [x|i]; [reflexivity|]. cbn. rewrite contents_nth.
  rewrite (contents_length _ _ Hwf) in Ha. now bools; try lia.
Qed.

Lemma push_back_ok cap s a : wf cap s -> arg_valid (sv_contents s) (OpPushBack a) ->
  rel cap (sv_push_back s a) (spec_step cap (sv_contents s) (OpPushBack a)).
Proof.
  intros Hwf Hv. pose proof (contents_length _ _ Hwf) as Hlen. cbn [spec_step].
  rewrite <- (rd_contents cap s a _ Hwf eq_refl Hv). unfold sv_push_back, ok_cap.
  destruct Hwf as [Hb Hs]. destruct (rd (sv_buf s) a) as [x|] eqn:Hr.
  - rewrite app_length, Hlen. cbn [length].
    destruct (Nat.ltb_spec (sv_size s) (length (sv_buf s))) as [H|H]; cbn [negb].
    + destruct (upd_ex (sv_buf s) (sv_size s) x H) as [b Hu]. rewrite Hu.
      destruct (upd_nth _ _ _ _ Hu) as [H1 H2].
      bools; [|lia]. cbn [rel]. split; [split; cbn; lia|].
      apply nth_error_ext. intros j. rewrite contents_nth. cbn [sv_size sv_buf].
      rewrite nth_error_app_if, Hlen, contents_nth, H2. bools; try lia; try reflexivity.
      * subst. now rewrite Nat.sub_diag.
      * symmetry. apply nth_error_none_if. cbn. lia.
    + bools; [lia|]. exact I.
  - destruct (sv_size s <? length (sv_buf s)); exact I.
Qed.

Lemma insert_ok cap s p a : wf cap s -> arg_valid (sv_contents s) (OpInsert p a) -> arg_safe (OpInsert p a) ->
  rel cap (sv_insert s p a) (spec_step cap (sv_contents s) (OpInsert p a)).
Proof.
  intros Hwf Hv Hsafe. pose proof (contents_length _ _ Hwf) as Hlen. cbn [spec_step].
  rewrite <- (rd_contents cap s a _ Hwf eq_refl Hv). unfold sv_insert, ok_cap. rewrite Hlen.
  destruct (Nat.ltb_spec (sv_size s) (length (sv_buf s))) as [H|H]; cbn [negb].
  - destruct (Nat.leb_spec p (sv_size s)) as [Hp|Hp]; cbn [negb]; [|exact I].
    destruct (copy_backward_spec (sv_size s - p) (sv_size s) (sv_size s + 1) (sv_buf s))
      as (b1 & E1 & E2 & E3); try lia.
    rewrite E1.
    assert (Hr : rd b1 a = rd (sv_buf s) a).
    { destruct a as [x|i]; [reflexivity|]. cbn in *. rewrite E3. bools; try reflexivity; try lia. }
    rewrite Hr. destruct Hwf as [Hb Hs].
    destruct (rd (sv_buf s) a) as [x|] eqn:Hx; [|exact I].
    destruct (upd_ex b1 p x) as [b2 Hu]; [lia|]. rewrite Hu.
    destruct (upd_nth _ _ _ _ Hu) as [H1 H2].
    rewrite !app_length, skipn_length, firstn_length, Hlen. cbn [length].
    bools; [|lia]. cbn [rel]. split; [split; cbn; lia|].
    apply nth_error_ext. intros j. rewrite contents_nth. cbn [sv_size sv_buf].
    rewrite nth_error_app_if, firstn_length, Hlen, Nat.min_l, nth_error_firstn by lia.
    rewrite (contents_nth s j), H2, E3.
    destruct (Nat.ltb_spec j p) as [Hj|Hj].
    + bools; try lia; reflexivity.
    + destruct (j - p) as [|k] eqn:Ejp.
      * bools; try lia; reflexivity.
      * cbn [nth_error app]. rewrite nth_error_skipn, contents_nth.
        replace (p + k) with (j - 1) by lia.
        replace (sv_size s + 1 - sv_size s) with 1 by lia.
        bools; try lia; reflexivity.
  - assert (Hs : sv_size s = cap) by (destruct Hwf; lia).
    destruct (Nat.leb_spec p (sv_size s)) as [Hp|Hp]; cbn [negb]; [|exact I].
    destruct (rd (sv_buf s) a); [|exact I].
    rewrite !app_length, skipn_length, firstn_length, Hlen. cbn [length].
    bools; [lia|exact I].
Qed.

Lemma insert_n_ok cap s p n a : wf cap s -> arg_valid (sv_contents s) (OpInsertN p n a) -> arg_safe (OpInsertN p n a) ->
  rel cap (sv_insert_n s p n a) (spec_step cap (sv_contents s) (OpInsertN p n a)).
Proof.
  intros Hwf Hv Hsafe. pose proof (contents_length _ _ Hwf) as Hlen. cbn [spec_step].
  rewrite <- (rd_contents cap s a _ Hwf eq_refl Hv). unfold sv_insert_n, ok_cap. rewrite Hlen.
  assert (Hx : exists x, rd (sv_buf s) a = Some x).
  { destruct a as [x|i]; [now exists x|]. cbn in *.
    destruct (nth_error (sv_buf s) i) eqn:E; [eauto|]. apply nth_error_None in E. destruct Hwf. lia. }
  destruct Hx as [x Hx]. rewrite Hx.
  destruct (Nat.leb_spec (sv_size s + n) (length (sv_buf s))) as [H|H]; cbn [negb].
  - destruct (Nat.leb_spec p (sv_size s)) as [Hp|Hp]; cbn [negb]; [|exact I].
    destruct (copy_backward_spec (sv_size s - p) (sv_size s) (sv_size s + n) (sv_buf s))
      as (b1 & E1 & E2 & E3); try lia.
    rewrite E1. destruct Hwf as [Hb Hs].
    assert (Hr : rd b1 a = Some x).
    { destruct a as [y|i]; [assumption|]. cbn in *. rewrite E3. bools; try assumption; try lia. }
    destruct (fill_spec n a x p b1) as (b2 & F1 & F2 & F3); [lia|assumption|]. rewrite F1.
    assert (G : rel cap (Some (SVec b2 (sv_size s + n)))
       (Some (firstn p (sv_contents s) ++ repeat x n ++ skipn p (sv_contents s)))).
    { cbn [rel]. split; [split; cbn; lia|].
      apply nth_error_ext. intros j. rewrite contents_nth. cbn [sv_size sv_buf].
      rewrite nth_error_app_if, firstn_length, Hlen, Nat.min_l, nth_error_firstn by lia.
      rewrite nth_error_app_if, repeat_length, nth_error_repeat_if, nth_error_skipn.
      rewrite !contents_nth, F3, E3.
      replace (sv_size s + n - sv_size s) with n by lia.
      destruct (Nat.ltb_spec j p).
      - bools; try lia; reflexivity.
      - replace (p + (j - p - n)) with (if j - p <? n then p else j - n) by (bools; lia).
        bools; try lia; reflexivity. }
    destruct n as [|n].
    + cbn [repeat app] in G. rewrite firstn_skipn in G. exact G.
    + rewrite !app_length, skipn_length, firstn_length, repeat_length, Hlen.
      bools; [exact G|lia].
  - destruct (Nat.leb_spec p (sv_size s)) as [Hp|Hp]; cbn [negb]; [|exact I].
    destruct n as [|n]; [destruct Hwf; lia|].
    rewrite !app_length, skipn_length, firstn_length, repeat_length, Hlen.
    bools; [destruct Hwf; lia|exact I].
Qed.

Lemma insert_list_ok cap s p xs : wf cap s ->
  rel cap (sv_insert_list s p xs) (spec_step cap (sv_contents s) (OpInsertList p xs)).
Proof.
  intros Hwf. pose proof (contents_length _ _ Hwf) as Hlen. cbn [spec_step].
  unfold sv_insert_list, ok_cap. rewrite Hlen.
  rewrite !app_length, skipn_length, firstn_length, Hlen.
  destruct (Nat.leb_spec (sv_size s + length xs) (length (sv_buf s))) as [H|H]; cbn [negb].
  - destruct (Nat.leb_spec p (sv_size s)) as [Hp|Hp]; cbn [negb]; [|exact I].
    destruct (copy_backward_spec (sv_size s - p) (sv_size s) (sv_size s + length xs) (sv_buf s))
      as (b1 & E1 & E2 & E3); try lia.
    rewrite E1. destruct Hwf as [Hb Hs].
    destruct (write_list_spec xs p b1) as (b2 & F1 & F2 & F3); [lia|]. rewrite F1.
    destruct (Nat.leb_spec (Nat.min p (sv_size s) + (length xs + (sv_size s - p))) cap); [|lia].
    cbn [rel]. split; [split; cbn; lia|].
    apply nth_error_ext. intros j. rewrite contents_nth. cbn [sv_size sv_buf].
    rewrite nth_error_app_if, firstn_length, Hlen, Nat.min_l, nth_error_firstn by lia.
    rewrite nth_error_app_if, nth_error_skipn.
    rewrite !contents_nth, F3, E3.
    replace (sv_size s + length xs - sv_size s) with (length xs) by lia.
    destruct (Nat.ltb_spec j p).
    + bools; try lia; reflexivity.
    + replace (p + (j - p - length xs)) with (if j - p <? length xs then p else j - length xs) by (bools; lia).
      bools; try lia; reflexivity.
  - destruct (Nat.leb_spec p (sv_size s)) as [Hp|Hp]; cbn [negb]; [|exact I].
    bools; [destruct Hwf; lia|exact I].
Qed.

Lemma erase_range_gen cap s f t : wf cap s -> f <= t -> t <= sv_size s ->
  exists b, copy_forward (sv_size s - t) t f (sv_buf s) = Some b /\
    rel cap (Some (SVec b (sv_size s - (t - f)))) (Some (firstn f (sv_contents s) ++ skipn t (sv_contents s))).
Proof.
  intros Hwf H1 H2. pose proof (contents_length _ _ Hwf) as Hlen. destruct Hwf as [Hb Hs].
  destruct (copy_forward_spec (sv_size s - t) t f (sv_buf s)) as (b & E1 & E2 & E3); try lia.
  exists b. split; [assumption|]. cbn [rel]. split; [split; cbn; lia|].
  apply nth_error_ext. intros j. rewrite contents_nth. cbn [sv_size sv_buf].
  rewrite nth_error_app_if, firstn_length, Hlen, Nat.min_l, nth_error_firstn by lia.
  rewrite nth_error_skipn, !contents_nth, E3.
  destruct (Nat.ltb_spec j f).
  - bools; try lia; reflexivity.
  - replace (t + (j - f)) with (j + (t - f)) by lia. bools; try lia; reflexivity.
Qed.

Lemma erase_ok cap s p : wf cap s ->
  rel cap (sv_erase s p) (spec_step cap (sv_contents s) (OpErase p)).
Proof.
  intros Hwf. pose proof (contents_length _ _ Hwf) as Hlen. cbn [spec_step].
  unfold sv_erase. rewrite Hlen.
  destruct (Nat.ltb_spec p (sv_size s)) as [H|H]; cbn [negb]; [|exact I].
  destruct (erase_range_gen cap s p (p + 1) Hwf) as (b & E & R); try lia.
  rewrite E. replace (p + 1 - p) with 1 in R by lia. now replace (p + 1) with (S p) in R by lia.
Qed.

Lemma erase_range_ok cap s f t : wf cap s ->
  rel cap (sv_erase_range s f t) (spec_step cap (sv_contents s) (OpEraseRange f t)).
Proof.
  intros Hwf. pose proof (contents_length _ _ Hwf) as Hlen. cbn [spec_step].
  unfold sv_erase_range. rewrite Hlen.
  destruct (Nat.eqb_spec f (sv_size s)), (Nat.leb_spec f t), (Nat.leb_spec t (sv_size s)), (Nat.ltb_spec f (sv_size s));
    cbn [negb andb]; try exact I; try lia.
  destruct (erase_range_gen cap s f t Hwf) as (b & E & R); try lia.
  rewrite E. exact R.
Qed.

Lemma pop_back_ok cap s : wf cap s ->
  rel cap (sv_pop_back s) (spec_step cap (sv_contents s) OpPopBack).
Proof.
  intros Hwf. pose proof (contents_length _ _ Hwf) as Hlen. unfold sv_pop_back.
  destruct (sv_size s) as [|k] eqn:Hs.
  - destruct (sv_contents s) as [|x l] eqn:Hc; [exact I|discriminate].
  - pose proof (erase_ok cap s k Hwf) as H. cbn [spec_step] in *.
    rewrite Hlen in H. destruct (Nat.ltb_spec k (S k)); [|lia].
    destruct (sv_contents s) as [|x l] eqn:Hc; [discriminate|].
    rewrite removelast_firstn_len, Hlen. cbn [Nat.pred].
    replace (skipn (S k) (x :: l)) with (@nil A) in H.
    + now rewrite app_nil_r in H.
    + symmetry. apply skipn_all2. lia.
Qed.

Lemma resize_ok cap s n a : wf cap s -> arg_valid (sv_contents s) (OpResize n a) ->
  rel cap (sv_resize s n a) (spec_step cap (sv_contents s) (OpResize n a)).
Proof.
  intros Hwf Hv. pose proof (contents_length _ _ Hwf) as Hlen. unfold sv_resize. cbn [spec_step].
  rewrite Hlen. pose proof Hwf as [Hb Hs].
  destruct (Nat.ltb_spec n (sv_size s)) as [H1|H1].
  - pose proof (erase_range_ok cap s n (sv_size s) Hwf) as H. cbn [spec_step] in H. rewrite Hlen in H.
    destruct (Nat.ltb_spec n (sv_size s)), (Nat.leb_spec n (sv_size s)), (Nat.leb_spec (sv_size s) (sv_size s)); try lia.
    cbn [andb] in H. rewrite (skipn_all2 (n := sv_size s) (sv_contents s)), app_nil_r in H by lia.
    bools; [exact H|lia].
  - destruct (Nat.ltb_spec (sv_size s) n) as [H2|H2].
    + pose proof (insert_n_ok cap s (sv_size s) (n - sv_size s) a Hwf) as H.
      cbn [spec_step] in H. rewrite Hlen in H.
      assert (Hv' : arg_valid (sv_contents s) (OpInsertN (sv_size s) (n - sv_size s) a)) by exact Hv.
      assert (Hsf : arg_safe (OpInsertN (sv_size s) (n - sv_size s) a)).
      { destruct a as [x|i]; [exact I|]. cbn in *. lia. }
      specialize (H Hv' Hsf). destruct (Nat.leb_spec (sv_size s) (sv_size s)); [|lia].
      rewrite (skipn_all2 (n := sv_size s) (sv_contents s)), (firstn_all2 (n := sv_size s) (sv_contents s)) in H by lia.
      destruct (n - sv_size s) as [|k] eqn:Ek; [lia|].
      destruct (Nat.leb_spec n (sv_size s)); [lia|].
      destruct (Nat.leb_spec n (length (sv_buf s))); cbn [negb].
      { destruct (spec_arg (sv_contents s) a); [|exact H]. now rewrite app_nil_r in H. }
      destruct (spec_arg (sv_contents s) a); [|exact I].
      unfold ok_cap. rewrite app_length, repeat_length, Hlen. bools; [lia|exact I].
    + assert (n = sv_size s) by lia. subst n.
      destruct (Nat.leb_spec (sv_size s) (sv_size s)); [|lia].
      bools; [|lia]. cbn. split; [assumption|]. now rewrite <- Hlen, firstn_all.
Qed.

Lemma assign_n_ok cap s n a : wf cap s -> arg_valid (sv_contents s) (OpAssignN n a) ->
  rel cap (sv_assign_n s n a) (spec_step cap (sv_contents s) (OpAssignN n a)).
Proof.
  intros Hwf Hv. pose proof (contents_length _ _ Hwf) as Hlen. unfold sv_assign_n. cbn [spec_step].
  rewrite <- (rd_contents cap s a _ Hwf eq_refl Hv).
  assert (Hx : exists x, rd (sv_buf s) a = Some x).
  { destruct a as [x|i]; [now exists x|]. cbn in *.
    destruct (nth_error (sv_buf s) i) eqn:E; [eauto|]. apply nth_error_None in E. destruct Hwf. lia. }
  destruct Hx as [x Hx]. rewrite Hx. destruct Hwf as [Hb Hs].
  destruct (Nat.leb_spec n (length (sv_buf s))) as [H|H]; cbn [negb].
  - destruct (fill_spec n a x 0 (sv_buf s)) as (b & E1 & E2 & E3); [lia|assumption|]. rewrite E1.
    assert (G : rel cap (Some (SVec b n)) (Some (repeat x n))).
    { cbn [rel]. split; [split; cbn; lia|]. apply nth_error_ext. intros j.
      rewrite contents_nth, nth_error_repeat_if. cbn [sv_size sv_buf]. rewrite E3. bools; try lia; reflexivity. }
    destruct n; [exact G|]. unfold ok_cap. rewrite repeat_length. bools; [exact G|lia].
  - destruct n; [lia|]. unfold ok_cap. rewrite repeat_length. bools; [lia|exact I].
Qed.

Lemma assign_ok cap s xs : wf cap s ->
  rel cap (sv_assign s xs) (spec_step cap (sv_contents s) (OpAssign xs)).
Proof.
  intros [Hb Hs]. unfold sv_assign. cbn [spec_step]. unfold ok_cap. rewrite Hb.
  destruct (Nat.leb_spec (length xs) cap) as [H|H]; cbn [negb]; [|exact I].
  destruct (write_list_spec xs 0 (sv_buf s)) as (b & E1 & E2 & E3); [lia|]. rewrite E1.
  cbn [rel]. split; [split; cbn; lia|]. apply nth_error_ext. intros j.
  rewrite contents_nth. cbn [sv_size sv_buf]. rewrite E3, Nat.sub_0_r. bools; try lia; try reflexivity.
  symmetry. now apply nth_error_none_if.
Qed.

Lemma step_ok cap s o : wf cap s -> arg_valid (sv_contents s) o -> arg_safe o ->
  rel cap (sv_step s o) (spec_step cap (sv_contents s) o).
Proof.
  intros Hwf Hv Hs. destruct o; cbn [sv_step].
  - now apply push_back_ok.
  - now apply pop_back_ok.
  - now apply insert_ok.
  - now apply insert_n_ok.
  - now apply insert_list_ok.
  - now apply erase_ok.
  - now apply erase_range_ok.
  - now apply resize_ok.
  - now apply assign_n_ok.
  - now apply assign_ok.
  - cbn. split; [|reflexivity]. destruct Hwf. split; cbn; lia.
Qed.

Lemma run_ok cap ops : forall s, wf cap s -> ops_valid cap (sv_contents s) ops -> Forall arg_safe ops ->
  rel cap (sv_run s ops) (spec_run cap (sv_contents s) ops).
Proof.
  induction ops as [|o ops IH]; intros s Hwf Hv Hs; cbn [sv_run spec_run].
  - cbn. now split.
  - inversion Hs as [|? ? Hs1 Hs2]; subst. destruct Hv as [Hv1 Hv2].
    pose proof (step_ok cap s o Hwf Hv1 Hs1) as H.
    destruct (sv_step s o) as [s'|], (spec_step cap (sv_contents s) o) as [l'|]; cbn in H; try contradiction.
    + destruct H as [Hwf' <-]. apply IH; assumption.
    + exact I.
Qed.

Lemma empty_wf cap (d : A) : wf cap (sv_empty d cap).
Proof. split; cbn; [apply repeat_length|lia]. Qed.

Lemma history_ok cap (d : A) ops : ops_valid cap [] ops -> Forall arg_safe ops ->
  rel cap (sv_run (sv_empty d cap) ops) (spec_run cap [] ops).
Proof. intros. apply (run_ok cap ops (sv_empty d cap)); [apply empty_wf|assumption|assumption]. Qed.

Lemma history_contents cap (d : A) ops : ops_valid cap [] ops -> Forall arg_safe ops ->
  option_map sv_contents (sv_run (sv_empty d cap) ops) = spec_run cap [] ops.
Proof.
  intros H1 H2. pose proof (history_ok cap d ops H1 H2) as H.
  destruct (sv_run (sv_empty d cap) ops), (spec_run cap [] ops); cbn in *; try contradiction; [|reflexivity].
  destruct H as [_ ->]. reflexivity.
Qed.

Lemma index_ok cap (d : A) ops s : ops_valid cap [] ops -> Forall arg_safe ops ->
  sv_run (sv_empty d cap) ops = Some s ->
  exists l, spec_run cap [] ops = Some l /\ sv_size s = length l /\ length l <= cap /\
    (forall i, i < length l -> sv_index s i = nth_error l i /\ sv_at s i = nth_error l i) /\
    (forall i, cap <= i -> sv_at s i = None).
Proof.
  intros H1 H2 Hr. pose proof (history_ok cap d ops H1 H2) as H. rewrite Hr in H.
  destruct (spec_run cap [] ops) as [l|]; cbn in H; [|contradiction].
  destruct H as [Hwf <-]. exists (sv_contents s). pose proof (contents_length _ _ Hwf) as Hlen.
  destruct Hwf as [Hb Hs]. rewrite Hlen. repeat split; auto.
  - rewrite contents_nth. destruct (Nat.ltb_spec i (sv_size s)); [reflexivity|lia].
  - rewrite contents_nth. destruct (Nat.ltb_spec i (sv_size s)); [reflexivity|lia].
  - intros i Hi. apply nth_error_None. lia.
Qed.
End Spec.

(** * Comparison *)

(** Lexicographic order: a proper prefix, or smaller at the first difference. *)
Definition lex_lt (a b : list Z) : Prop :=
  (exists x r, b = a ++ x :: r) \/
  (exists p x y ra rb, a = p ++ x :: ra /\ b = p ++ y :: rb /\ (x < y)%Z).

Lemma std_equal_spec a b : std_equal a b = true <-> a = b.
Proof.
  revert b. induction a as [|x a IH]; intros [|y b]; cbn; try easy.
  destruct (Z.eqb_spec x y) as [->|H].
  - rewrite IH. split; [now intros ->|now intros [=]].
  - split; [discriminate|]. intros [=]. contradiction.
Qed.

Lemma std_lex_spec a b : std_lex a b = true <-> lex_lt a b.
Proof.
  revert b. induction a as [|x a IH]; intros [|y b]; cbn [std_lex].
  - split; [discriminate|]. intros [(x & r & H)|(p & x & y & ra & rb & H & _)]; [destruct r; discriminate|].
    destruct p; discriminate.
  - split; auto. intros _. left. now exists y, b.
  - split; [discriminate|]. intros [(z & r & H)|(p & u & v & ra & rb & _ & H & _)]; [discriminate|].
    destruct p; discriminate.
  - destruct (Z.ltb_spec x y) as [H|H].
    + split; auto. intros _. right. now exists [], x, y, a, b.
    + destruct (Z.ltb_spec y x) as [H'|H'].
      * split; [discriminate|].
        intros [(z & r & E)|(p & u & v & ra & rb & E1 & E2 & E3)].
        -- injection E as -> _. lia.
        -- destruct p; cbn in *; injection E1 as -> _; injection E2 as -> _; lia.
      * assert (x = y) by lia. subst y. rewrite IH. split.
        -- intros [(z & r & ->)|(p & u & v & ra & rb & -> & -> & E3)].
           ++ left. now exists z, r.
           ++ right. now exists (x :: p), u, v, ra, rb.
        -- intros [(z & r & E)|(p & u & v & ra & rb & E1 & E2 & E3)].
           ++ left. injection E as E. now exists z, r.
           ++ destruct p as [|w p]; cbn in *.
              ** injection E1 as -> _; injection E2 as -> _. lia.
              ** injection E1 as -> ->; injection E2 as ->. right. now exists p, u, v, ra, rb.
Qed.

Lemma std_lex_total a : forall b, std_lex a b = true \/ a = b \/ std_lex b a = true.
Proof.
  induction a as [|x a IH]; intros [|y b]; cbn; auto.
  destruct (Z.ltb_spec x y); auto. destruct (Z.ltb_spec y x); auto.
  assert (x = y) by lia. subst. destruct (IH b) as [?|[->|?]]; auto.
Qed.

Lemma std_lex_asym a : forall b, std_lex a b = true -> std_lex b a = false /\ a <> b.
Proof.
  induction a as [|x a IH]; intros [|y b]; cbn; try easy.
  destruct (Z.ltb_spec x y).
  - destruct (Z.ltb_spec y x); [lia|]. intros _. split; [reflexivity|]. intros [=]. lia.
  - destruct (Z.ltb_spec y x); [discriminate|]. intros H'. destruct (IH _ H') as [E N].
    split; [assumption|]. intros [=]. contradiction.
Qed.

Lemma std_lex_trans a : forall b c, std_lex a b = true -> std_lex b c = true -> std_lex a c = true.
Proof.
  induction a as [|x a IH]; intros [|y b] [|z c]; cbn; try easy.
  destruct (Z.ltb_spec x y), (Z.ltb_spec y z), (Z.ltb_spec x z); try easy; try lia;
    destruct (Z.ltb_spec y x), (Z.ltb_spec z y), (Z.ltb_spec z x); try easy; try lia.
  apply IH.
Qed.

Lemma compare_ok (s t : svec Z) :
  (sv_eq s t = true <-> sv_contents s = sv_contents t) /\
  (sv_ne s t = true <-> sv_contents s <> sv_contents t) /\
  (sv_lt s t = true <-> lex_lt (sv_contents s) (sv_contents t)) /\
  (sv_le s t = true <-> lex_lt (sv_contents s) (sv_contents t) \/ sv_contents s = sv_contents t) /\
  (sv_gt s t = true <-> lex_lt (sv_contents t) (sv_contents s)) /\
  (sv_ge s t = true <-> lex_lt (sv_contents t) (sv_contents s) \/ sv_contents s = sv_contents t).
Proof.
  unfold sv_ge, sv_le, sv_ne, sv_gt, sv_lt, sv_eq.
  rewrite !orb_true_iff, !std_lex_spec, negb_true_iff, <- not_true_iff_false, !std_equal_spec.
  tauto.
Qed.

Lemma lex_lt_order :
  (forall a, ~ lex_lt a a) /\
  (forall a b c, lex_lt a b -> lex_lt b c -> lex_lt a c) /\
  (forall a b, lex_lt a b \/ a = b \/ lex_lt b a).
Proof.
  repeat split.
  - intros a H. apply std_lex_spec in H. apply std_lex_asym in H. now destruct H.
  - intros a b c. rewrite <- !std_lex_spec. apply std_lex_trans.
  - intros a b. rewrite <- !std_lex_spec. apply std_lex_total.
Qed.
