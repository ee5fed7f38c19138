(** Traversals, backward iteration and subtree copies. *)
From Coq Require Import List Arith Bool Lia Permutation Sorted.
From Verif Require Import M_tree L_tree L_tree2 L_tree3 L_tree4.
Import ListNotations.
Open Scope tree_scope.

Local Arguments Nat.ltb : simpl never.

(** * Specification *)
Section Spec.
Context {V : Type}.
Notation forest := (forest V).

(** the positions of all nodes, parents before children, siblings in order *)
Fixpoint preorder (p : nat) (F : forest) : list iter :=
  match F with FNil => [] | FCons i v s r => (p, i) :: preorder i s ++ preorder p r end.

(** the positions at depth k *)
Fixpoint level (k p : nat) (F : forest) : list iter :=
  match F with
  | FNil => []
  | FCons i v s r => match k with 0 => [(p, i)] | S k => level k i s end ++ level k p r
  end.
Fixpoint height (F : forest) : nat :=
  match F with FNil => 0 | FCons i v s r => Nat.max (S (height s)) (height r) end.
Definition levels (p : nat) (F : forest) : list iter := concat (map (fun k => level k p F) (seq 0 (height F))).

(** same shape and same values *)
Fixpoint alike (F G : forest) : Prop :=
  match F, G with
  | FNil, FNil => True
  | FCons _ v s r, FCons _ w s' r' => v = w /\ alike s s' /\ alike r r'
  | _, _ => False
  end.

(** every tree of the forest is a single node *)
Fixpoint flat (F : forest) : Prop :=
  match F with FNil => True | FCons _ _ s r => s = FNil /\ flat r end.
(** the shapes copied correctly: only along the last children may a node have grandchildren *)
Fixpoint copyable (F : forest) : Prop :=
  match F with
  | FNil => True
  | FCons _ _ s r => match r with FNil => copyable s | _ => flat s /\ copyable r end
  end.
Fixpoint fapp (F G : forest) : forest :=
  match F with FNil => G | FCons i v s r => FCons i v s (fapp r G) end.
End Spec.

Section Trav.
Context {V : Type}.
Notation forest := (forest V).
Notation arena := (arena V).
Implicit Types A B : arena.
Implicit Types F D G s r : forest.

(** ** children of a node *)
Lemma range_ok A p l : forall fuel prev, seg A p prev l 0 -> (forall c, In c l -> c < length A /\ c <> 0) -> length l < fuel ->
  range fuel A (p, hd 0 l) (p, 0) = Some (map (pair p) l).
Proof.
  induction l as [|c l IH]; intros fuel prev S Hc Hf; (destruct fuel as [|fuel]; [cbn in Hf; lia|]); cbn [range hd map].
  - unfold it_neq. cbn [fst snd]. now rewrite !Nat.eqb_refl.
  - destruct (Hc c (or_introl eq_refl)) as [C1 C2]. cbn [seg] in S. destruct S as (P1 & P2 & P3 & P4).
    unfold it_neq, it_inc. cbn [fst snd]. destruct (Nat.eqb_spec c 0); [lia|]. cbn [negb orb].
    rewrite (g_nxt_ok A c) by lia. rewrite P3, (IH fuel c); auto; [firstorder|cbn in Hf; lia].
Qed.

Lemma children_ok A q i v s : rep A (FCons i v s FNil) -> children A (q, i) = Some (map (pair i) (roots s)).
Proof.
  cbn [rep]. intros (B & Hv & Nd & [C1 C2] & Rs & _). unfold children, it_begin, it_end. cbn [snd].
  destruct (Nat.eqb_spec i 0); [lia|]. rewrite (g_chd_ok A i) by lia. rewrite C1.
  eapply range_ok; eauto; [intros c; now apply rep_bound|].
  assert (length (roots s) <= length A); [|lia]. apply bounded_length; auto. intros c Hc. apply (rep_bound _ _ _ Rs) in Hc. lia.
Qed.

(** ** worklists of trees *)
Definition item := (nat * nat * V * forest)%type.
Definition at_ (x : item) : iter := let '(p, i, _, _) := x in (p, i).
Fixpoint items (p : nat) F : list item :=
  match F with FNil => [] | FCons i v s r => (p, i, v, s) :: items p r end.
Definition sub_items (x : item) : list item := let '(_, i, _, s) := x in items i s.
Definition irep A (x : item) : Prop := let '(_, i, v, s) := x in rep A (FCons i v s FNil).
Definition isize (x : item) : nat := let '(_, _, _, s) := x in S (length (ids s)).
Definition total (W : list item) : nat := list_sum (map isize W).

Lemma map_at p F : map at_ (items p F) = map (pair p) (roots F).
Proof. induction F as [|i v s _ r IH]; cbn; [reflexivity|]. now rewrite IH. Qed.

Lemma items_rep A p F : rep A F -> Forall (irep A) (items p F).
Proof. induction F as [|i v s _ r IH]; intros R; cbn in *; constructor; [cbn; tauto|]. apply IH. tauto. Qed.

Lemma sub_rep A x : irep A x -> Forall (irep A) (sub_items x).
Proof. destruct x as [[[p i] v] s]. intros H. cbn in H. apply items_rep. tauto. Qed.

Lemma total_items p F : total (items p F) = length (ids F).
Proof.
  induction F as [|i v s _ r IH]; [reflexivity|]. cbn [ids items length]. unfold total in *. cbn [map list_sum isize]. cbn [fold_right] in *.
  unfold list_sum in *. cbn [fold_right]. rewrite IH, app_length. lia.
Qed.

Lemma total_app W1 W2 : total (W1 ++ W2) = total W1 + total W2.
Proof. unfold total. now rewrite map_app, list_sum_app. Qed.
Lemma total_sub x : isize x = S (total (sub_items x)).
Proof. destruct x as [[[p i] v] s]. cbn [isize sub_items]. now rewrite total_items. Qed.
Lemma total_cons x W : total (x :: W) = S (total (sub_items x)) + total W.
Proof. rewrite <- total_sub. reflexivity. Qed.

Lemma children_item A x : irep A x -> children A (at_ x) = Some (map at_ (sub_items x)).
Proof. destruct x as [[[p i] v] s]. intros H. cbn [at_ sub_items]. rewrite map_at. eapply children_ok; eauto. Qed.

(** pre-order *)
Definition pre_item (x : item) : list iter := let '(p, i, _, s) := x in (p, i) :: preorder i s.
Lemma pre_items p F : flat_map pre_item (items p F) = preorder p F.
Proof. induction F as [|i v s _ r IH]; cbn; [reflexivity|]. now rewrite IH. Qed.

Lemma pre_ok A : forall fuel W, Forall (irep A) W -> total W <= fuel ->
  traverse pre_next fuel A (map at_ W) = Some (flat_map pre_item W).
Proof.
  induction fuel as [|fuel IH]; intros [|x W] R Hf; cbn [traverse map]; try reflexivity.
  - rewrite total_cons in Hf. lia.
  - apply Forall_cons_iff in R. destruct R as [Rx RW]. unfold pre_next. rewrite (children_item A x Rx).
    rewrite <- map_app, IH.
    + rewrite flat_map_app. destruct x as [[[p i] v] s]. cbn [flat_map pre_item sub_items at_]. now rewrite pre_items.
    + apply Forall_app. split; auto. now apply sub_rep.
    + rewrite total_app. rewrite total_cons in Hf. lia.
Qed.

(** level order *)
Fixpoint lvl_items (k : nat) (W : list item) : list item :=
  match k with 0 => W | S k => lvl_items k (flat_map sub_items W) end.
Fixpoint lvls (k : nat) (W : list item) : list item :=
  match k with 0 => [] | S k => W ++ lvls k (flat_map sub_items W) end.

Lemma total_subs W : total W = length W + total (flat_map sub_items W).
Proof.
  induction W as [|x W IH]; [reflexivity|]. cbn [flat_map length]. rewrite total_app, total_cons, IH. lia.
Qed.

Lemma level_split A : forall W1 W2 fuel, Forall (irep A) W1 -> 
  traverse level_next (length W1 + fuel) A (map at_ (W1 ++ W2)) =
  (do o <- traverse level_next fuel A (map at_ (W2 ++ flat_map sub_items W1)); Some (map at_ W1 ++ o)).
Proof.
  induction W1 as [|x W1 IH]; intros W2 fuel R.
  - cbn. rewrite app_nil_r. destruct (traverse _ _ _ _); reflexivity.
  - apply Forall_cons_iff in R. destruct R as [Rx RW]. cbn [length Nat.add app map traverse]. unfold level_next at 1.
    rewrite (children_item A x Rx). rewrite <- map_app, <- app_assoc. rewrite (IH _ _ RW). cbn [flat_map]. rewrite <- app_assoc.
    destruct (traverse _ _ _ _); reflexivity.
Qed.

Lemma level_ok A : forall k W fuel, Forall (irep A) W -> lvl_items k W = [] -> total W <= fuel ->
  traverse level_next fuel A (map at_ W) = Some (map at_ (lvls k W)).
Proof.
  induction k as [|k IH]; intros W fuel R E Hf; cbn [lvl_items lvls] in *.
  - subst. destruct fuel; reflexivity.
  - rewrite total_subs in Hf. replace fuel with (length W + (fuel - length W)) by lia.
    pose proof (level_split A W [] (fuel - length W) R) as L. rewrite app_nil_r in L. rewrite L. cbn [app].
    rewrite IH; auto; [now rewrite map_app| |lia].
    clear - R. induction R; cbn; [constructor|]. apply Forall_app. split; auto. now apply sub_rep.
Qed.

Lemma flat_sub_app W1 W2 : flat_map sub_items (W1 ++ W2) = flat_map sub_items W1 ++ flat_map sub_items W2.
Proof. apply flat_map_app. Qed.
Lemma lvl_app k : forall W1 W2, lvl_items k (W1 ++ W2) = lvl_items k W1 ++ lvl_items k W2.
Proof. induction k; intros; cbn; [reflexivity|]. rewrite flat_sub_app. apply IHk. Qed.
Lemma lvl_nil k : lvl_items k [] = [].
Proof. induction k; cbn; auto. Qed.

Lemma lvl_level k : forall p F, map at_ (lvl_items k (items p F)) = level k p F.
Proof.
  induction k as [|k IH]; intros p F; induction F as [|i v s _ r IHr]; cbn [items level].
  - reflexivity.
  - cbn. cbn in IHr. now rewrite IHr.
  - now rewrite lvl_nil.
  - cbn [lvl_items flat_map sub_items]. rewrite lvl_app, map_app, IH. f_equal. exact IHr.
Qed.

Lemma lvl_height k : forall p F, height F <= k -> lvl_items k (items p F) = [].
Proof.
  induction k as [|k IH]; intros p F; induction F as [|i v s _ r IHr]; intros H; cbn [items]; try apply lvl_nil.
  - cbn [height] in H. lia.
  - cbn [height] in H. cbn [lvl_items flat_map sub_items]. rewrite lvl_app, IH by lia. apply IHr. lia.
Qed.

Lemma lvls_concat k : forall W, lvls k W = concat (map (fun j => lvl_items j W) (seq 0 k)).
Proof.
  induction k as [|k IH]; intros W; [reflexivity|]. cbn [lvls seq map concat lvl_items]. f_equal. rewrite IH. f_equal.
  rewrite <- seq_shift, map_map. reflexivity.
Qed.

Theorem inv_traverse A F fl : Inv A F FNil fl ->
  exists st, children A (0, 0) = None /\ range (S (length A)) A (0, hd 0 (roots F)) (t_end A) = Some st /\
  traverse pre_next (length A) A st = Some (preorder 0 F) /\ traverse level_next (length A) A st = Some (levels 0 F).
Proof.
  intros H. pose proof (inv_rep _ _ _ H) as R. pose proof (inv_nodup _ _ _ _ H) as N. apply app3_nodup in N. destruct N as (N1 & _).
  assert (Hb : forall x, In x (ids F) -> 0 < x < length A).
  { intros x Hx. apply (inv_bound _ _ _ _ _ H). apply in_or_app. auto. }
  pose proof (inv_chain _ _ _ _ H 0 (or_introl eq_refl)) as [C1 C2]. cbn in C1, C2.
  exists (map (pair 0) (roots F)). split; [reflexivity|]. split.
  { eapply range_ok; eauto; [intros c Hc; now apply (rep_bound A F)|].
    assert (length (roots F) <= length A); [|lia]. apply bounded_length; [now apply NoDup_roots|].
    intros c Hc. apply roots_ids, Hb in Hc. lia. }
  assert (T : total (items 0 F) <= length A).
  { rewrite total_items. apply bounded_length; auto. intros c Hc. apply Hb in Hc. lia. }
  rewrite <- map_at. split.
  - rewrite pre_ok; [now rewrite pre_items|now apply items_rep|exact T].
  - rewrite (level_ok A (height F)); [|now apply items_rep|now apply lvl_height|exact T].
    f_equal. rewrite lvls_concat. unfold levels. rewrite concat_map, map_map. f_equal. apply map_ext. intros k. apply lvl_level.
Qed.

Theorem inv_traverse_at A F fl q i v s : Inv A F FNil fl -> find F i = Some (v, s) ->
  traverse pre_next (length A) A [(q, i)] = Some (preorder q (FCons i v s FNil)) /\
  traverse level_next (length A) A [(q, i)] = Some (levels q (FCons i v s FNil)).
Proof.
  intros H E. pose proof (rep_find A F i v s (inv_rep _ _ _ H) E) as R. pose proof (inv_nodup _ _ _ _ H) as N. apply app3_nodup in N. destruct N as (N1 & _).
  assert (Hb : forall x, In x (ids F) -> 0 < x < length A).
  { intros x Hx. apply (inv_bound _ _ _ _ _ H). apply in_or_app. auto. }
  set (G := FCons i v s FNil) in *.
  assert (T : total (items q G) <= length A).
  { rewrite total_items. pose proof (find_nodup _ _ _ _ N1 E). destruct (find_in _ _ _ _ E) as [E1 E2].
    apply bounded_length; subst G; cbn [ids]; rewrite app_nil_r; auto. intros c [<-|Hc]; [apply Hb in E1|apply E2, Hb in Hc]; lia. }
  change [(q, i)] with (map at_ (items q G)). split.
  - rewrite pre_ok; [now rewrite pre_items|now apply items_rep|exact T].
  - rewrite (level_ok A (height G)); [|now apply items_rep|now apply lvl_height|exact T].
    f_equal. rewrite lvls_concat. unfold levels. rewrite concat_map, map_map. f_equal. apply map_ext. intros k. apply lvl_level.
Qed.

(** ** backward iteration *)
Lemma chain_dec A p l1 c l2 : p <> 0 -> p < length A -> chain A p (l1 ++ c :: l2) -> NoDup (l1 ++ c :: l2) ->
  (forall x, In x (l1 ++ c :: l2) -> x < length A /\ x <> 0) ->
  it_dec A (p, hd 0 l2) = Some (p, c).
Proof.
  intros Hp Lp [C1 C2] N Hb. unfold it_dec. cbn [fst snd]. destruct l2 as [|d l2]; cbn [hd].
  - cbn [Nat.eqb negb]. destruct (Nat.eqb_spec p 0); [contradiction|]. cbn [negb].
    rewrite (g_chd_ok A p) by lia. rewrite C1.
    assert (Hh : In (hd 0 (l1 ++ [c])) (l1 ++ [c])) by (apply hd_in; destruct l1; discriminate).
    rewrite g_prv_ok by apply Hb, Hh.
    f_equal. f_equal. rewrite last_app in C2. cbn [last] in C2. destruct l1; cbn in C2 |- *; tauto.
  - assert (Hd : d < length A /\ d <> 0) by (apply Hb; apply in_or_app; right; right; now left).
    destruct (Nat.eqb_spec d 0); [lia|]. cbn [negb]. destruct (Nat.eqb_spec p 0); [contradiction|].
    rewrite (g_chd_ok A p) by lia. rewrite C1. 
    assert (hd 0 (l1 ++ c :: d :: l2) <> d).
    { destruct l1 as [|x l1]; cbn; intros ->.
      - inversion N as [|? ? N1 _]. apply N1. now left.
      - inversion N as [|? ? N1 _]. apply N1. apply in_or_app. right. right. now left. }
    destruct (Nat.eqb_spec (hd 0 (l1 ++ c :: d :: l2)) d); [contradiction|]. rewrite g_prv_ok by tauto.
    rewrite seg_app in C2. cbn in C2. do 2 f_equal. tauto.
Qed.

Lemma inv_ch A F fl p : Inv A F FNil fl -> (p = 0 \/ In p (ids F)) ->
  p < length A /\ chain A p (ch F p) /\ NoDup (ch F p) /\ (forall x, In x (ch F p) -> x < length A /\ x <> 0).
Proof.
  intros H Hp. pose proof (inv_nodup _ _ _ _ H) as N. apply app3_nodup in N. destruct N as (N1 & _).
  assert (Hb : forall x, In x (ids F) -> 0 < x < length A).
  { intros x Hx. apply (inv_bound _ _ _ _ _ H). apply in_or_app. auto. }
  split. { destruct Hp as [->|Hp]; [apply (inv_len _ _ _ _ H)|apply Hb in Hp; lia]. }
  split. { apply (inv_chain _ _ _ _ H). exact Hp. }
  split. { now apply NoDup_ch. }
  intros x Hx. apply ch_in, Hb in Hx. lia.
Qed.

Theorem inv_inc_dec A F fl p c : Inv A F FNil fl -> In p (ids F) -> In c (ch F p) ->
  exists n, it_inc A (p, c) = Some n /\ it_dec A n = Some (p, c).
Proof.
  intros H Hp Hc. destruct (inv_ch A F fl p H (or_intror Hp)) as (Lp & C & N & Hb).
  assert (p <> 0). { assert (0 < p < length A); [|lia]. apply (inv_bound _ _ _ _ _ H). apply in_or_app. auto. }
  destruct (in_split _ _ Hc) as (l1 & l2 & E). rewrite E in *. exists (p, hd 0 l2). split.
  - unfold it_inc. cbn [fst snd]. destruct (Hb c) as [B1 B2]; [apply in_or_app; right; now left|].
    destruct (Nat.eqb_spec c 0); [contradiction|]. rewrite g_nxt_ok by lia. destruct C as [_ C]. now rewrite (seg_next _ _ _ _ _ _ _ C).
  - eapply chain_dec; eauto.
Qed.

Theorem inv_dec_inc A F fl p c n : Inv A F FNil fl -> In p (ids F) -> (n = 0 /\ ch F p <> [] \/ In n (ch F p)) ->
  it_dec A (p, n) = Some c -> it_inc A c = Some (p, n).
Proof.
  intros H Hp Hn. destruct (inv_ch A F fl p H (or_intror Hp)) as (Lp & C & N & Hb).
  assert (P0 : p <> 0). { assert (0 < p < length A); [|lia]. apply (inv_bound _ _ _ _ _ H). apply in_or_app. auto. }
  assert (G : forall l1 d l2, ch F p = l1 ++ d :: l2 -> n = hd 0 l2 -> it_dec A (p, n) = Some c -> it_inc A c = Some (p, n)).
  { intros l1 d l2 E ->. rewrite E in *. rewrite (chain_dec A p l1 d l2); auto. intros [= <-].
    unfold it_inc. cbn [fst snd]. destruct (Hb d) as [B1 B2]; [apply in_or_app; right; now left|].
    destruct (Nat.eqb_spec d 0); [contradiction|]. rewrite g_nxt_ok by lia. destruct C as [_ C]. now rewrite (seg_next _ _ _ _ _ _ _ C). }
  destruct Hn as [[-> Hn]|Hn].
  - destruct (rev_case (ch F p)) as [E|(m & z & E)]; [contradiction|]. apply (G m z []); auto.
  - destruct (in_split _ _ Hn) as (l1 & l2 & E). destruct (rev_case l1) as [->|(m & z & ->)].
    + unfold it_dec. cbn [fst snd]. destruct (Hb n Hn) as [B1 B2]. destruct (Nat.eqb_spec n 0); [contradiction|]. cbn [negb].
      destruct (Nat.eqb_spec p 0); [contradiction|]. rewrite g_chd_ok by lia. destruct C as [C1 _]. rewrite C1, E. cbn [hd app].
      rewrite Nat.eqb_refl. discriminate.
    + apply (G m z (n :: l2)); auto. now rewrite <- app_assoc in E.
Qed.

Theorem inv_end_dec A F fl p : Inv A F FNil fl -> In p (ids F) -> ch F p <> [] -> it_dec A (p, 0) = Some (p, last (ch F p) 0).
Proof.
  intros H Hp Hn. destruct (inv_ch A F fl p H (or_intror Hp)) as (Lp & C & N & Hb).
  assert (P0 : p <> 0). { assert (0 < p < length A); [|lia]. apply (inv_bound _ _ _ _ _ H). apply in_or_app. auto. }
  destruct (rev_case (ch F p)) as [E|(m & z & E)]; [contradiction|]. rewrite E in *.
  rewrite last_app. cbn [last]. apply (chain_dec A p m z []); auto.
Qed.

(** the roots: one root only *)
Theorem inv_end_dec_root A i v s fl : Inv A (FCons i v s FNil) FNil fl -> it_dec A (t_end A) = Some (0, i).
Proof.
  intros H. destruct (inv_ch A _ fl 0 H (or_introl eq_refl)) as (Lp & [C _] & N & Hb). cbn in C.
  unfold it_dec, t_end. cbn [fst snd Nat.eqb negb]. rewrite g_chd_ok by lia. rewrite C. 
  destruct (Hb i) as [B1 B2]; [now left|]. destruct (Nat.eqb_spec i 0); [contradiction|]. reflexivity.
Qed.

Theorem inv_front A F fl i v s r : F = FCons i v s r -> Inv A F FNil fl -> front A = Some v.
Proof.
  intros E H. unfold front, empty. rewrite (inv_size _ _ _ H). pose proof (inv_rep _ _ _ H) as R. 
  pose proof (inv_chain _ _ _ _ H 0 (or_introl eq_refl)) as [C1 C2]. subst F. cbn [ids length Nat.eqb] in *. cbn in C1.
  unfold t_begin. rewrite (g_chd_ok A 0) by apply (inv_len _ _ _ _ H). rewrite C1. unfold it_deref. cbn [snd]. cbn [rep] in R.
  destruct (Nat.eqb_spec i 0); [lia|]. tauto.
Qed.
End Trav.
