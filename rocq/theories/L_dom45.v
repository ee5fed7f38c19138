(** As L_dom39.v, of the lists of attributes instead of single attributes. *)
From Coq Require Import ZArith List Bool String Lia Permutation.
From Verif Require Import M_infra M_encoding M_labels M_html M_html_serialize M_dom_names M_dom M_dom2 L_dom L_dom2.
Import ListNotations.
Open Scope Z_scope.
Open Scope dom_scope.
Open Scope list_scope.

(** a result, if there is one *)
Definition keeps {A} (Q : A -> Prop) (r : outcome A) : Prop := match r with Val x => Q x | _ => True end.
Lemma keeps_run : forall {A B} (Q : A -> Prop) (P : B -> Prop) (r : outcome A) (f : A -> outcome B),
  keeps Q r -> (forall x, Q x -> keeps P (f x)) -> keeps P (run x <- r; f x).
Proof. intros A B Q P r f H K. destruct r; cbn in *; auto. Qed.
Lemma keeps_run2 : forall {A B C} (Q : A * B -> Prop) (P : C -> Prop) (r : outcome (A * B)) (f : A -> B -> outcome C),
  keeps Q r -> (forall x y, Q (x, y) -> keeps P (f x y)) -> keeps P (run (x, y) <- r; f x y).
Proof. intros A B C Q P r f H K. destruct r as [[x y]| |]; cbn in *; auto. Qed.
Lemma keeps_weak : forall {A} (Q P : A -> Prop) (r : outcome A), keeps Q r -> (forall x, Q x -> P x) -> keeps P r.
Proof. intros A Q P r H K. destruct r; cbn in *; auto. Qed.

(** elements without content: those that the serialiser of the standard writes without an end tag *)
Definition void_names : list tname :=
  [T_area; T_base; T_basefont; T_bgsound; T_br; T_col; T_embed; T_frame; T_hr; T_img; T_input; T_keygen; T_link; T_meta; T_param;
   T_source; T_track; T_wbr].
Definition void (t : tname) : bool := among t void_names.

(** a node that may have children *)
Definition host (d : list cell) (i : nat) : Prop :=
  (i < List.length d)%nat /\
  match c_info (cell_of d i) with
  | IDocument => True
  | IElement ns t _ => ns = ns_HTML -> void t = false
  | _ => False
  end.
(** the number of steps from a node up to a root *)
Inductive Depth (d : list cell) : nat -> nat -> Prop :=
| Depth_root : forall i, (i <= 1)%nat -> Depth d 0 i
| Depth_step : forall k i, (2 <= i)%nat -> Depth d k (parent_of d i) -> Depth d (S k) i.

(** the same kind of node *)
Definition like (x y : info) : Prop :=
  match x, y with
  | IDocument, IDocument | IText _, IText _ | IComment _, IComment _ | IDoctype _ _ _, IDoctype _ _ _ => True
  | IElement ns t _, IElement ns' t' _ => ns = ns' /\ t = t'
  | _, _ => False
  end.
Lemma like_refl : forall x, like x x.
Proof. destruct x; cbn; auto. Qed.
Lemma like_trans : forall x y z, like x y -> like y z -> like x z.
Proof. destruct x, y, z; cbn; try tauto. intros [-> ->] [-> ->]. auto. Qed.
Definition Grows (d d' : list cell) : Prop :=
  (List.length d <= List.length d')%nat /\ forall i, (i < List.length d)%nat -> like (c_info (cell_of d i)) (c_info (cell_of d' i)).
Lemma Grows_refl : forall d, Grows d d.
Proof. intro d. split; [lia|]. intros. apply like_refl. Qed.
Lemma Grows_trans : forall a b c, Grows a b -> Grows b c -> Grows a c.
Proof. intros a b c [A1 A2] [B1 B2]. split; [lia|]. intros i I. eapply like_trans; [now apply A2|]. apply B2. lia. Qed.
Lemma host_grows : forall d d' i, Grows d d' -> host d i -> host d' i.
Proof.
  intros d d' i [G1 G2] [H1 H2]. split; [lia|]. specialize (G2 i H1). destruct (c_info (cell_of d i)), (c_info (cell_of d' i)); cbn in *; try tauto.
  destruct G2 as [-> ->]. exact H2.
Qed.
Lemma ns_grows : forall d d' i, Grows d d' -> (i < List.length d)%nat -> ns_of d' i = ns_of d i.
Proof.
  intros d d' i [G1 G2] H. specialize (G2 i H). unfold ns_of. destruct (c_info (cell_of d i)), (c_info (cell_of d' i)); cbn in *; try tauto.
  symmetry. tauto.
Qed.

Lemma change_length : forall d i f, List.length (change d i f) = List.length d.
Proof. intros d. induction d as [|c d IH]; intros [|i] f; cbn; auto. Qed.
Lemma cell_change : forall d i f j, cell_of (change d i f) j = if (i =? j)%nat && (j <? List.length d)%nat then f (cell_of d j) else cell_of d j.
Proof.
  intros d. unfold cell_of. induction d as [|c d IH]; intros [|i] f [|j]; cbn; try reflexivity.
  - now rewrite andb_false_r.
  - rewrite IH. reflexivity.
Qed.
Lemma cell_app : forall d l j, cell_of (d ++ l) j = if (j <? List.length d)%nat then cell_of d j else nth (j - List.length d) l no_cell.
Proof.
  intros d l j. unfold cell_of. destruct (j <? List.length d)%nat eqn:E.
  - apply PeanoNat.Nat.ltb_lt in E. now apply app_nth1.
  - apply PeanoNat.Nat.ltb_ge in E. now apply app_nth2.
Qed.
Lemma cell_past : forall d j, (List.length d <= j)%nat -> cell_of d j = no_cell.
Proof. intros. now apply nth_overflow. Qed.

Section Kept.
(** what is kept of the attributes of tokens and of elements, and of the prefixes left in the slots *)
Variable Pa : list tattr -> Prop.
Variable Pd : list attr -> Prop.
Variable Ps : list Z -> Prop.
Hypothesis Pa_Pd : forall l, Pa l -> Pd (map (fun a => Attr (ta_ns a) (ta_prefix a) (ta_name a) (ta_value a)) (filter (fun a => negb (ta_omitted a)) l)).
Hypothesis H_add : forall g l, Pa (g_attrs g) -> Pd l -> Pd (add_attrs g l).

Definition info_ok (x : info) : Prop :=
  match x with IElement ns t l => Pd l /\ (ns = ns_HTML -> tname_of (tstring t) = t) | _ => True end.
Record Arena (d : list cell) : Prop := MkArena {
  A_roots : (2 <= List.length d)%nat /\ c_info (cell_of d 0) = IDocument /\ c_info (cell_of d 1) = IDocument;
  A_kids : forall p k, In k (kids_of d p) -> (2 <= k < List.length d)%nat /\ parent_of d k = p;
  A_once : forall p, NoDup (kids_of d p);
  A_host : forall i, (i < List.length d)%nat -> host d (parent_of d i);
  A_deep : forall i, (i < List.length d)%nat -> exists k, Depth d k i;
  A_info : forall i, (i < List.length d)%nat -> info_ok (c_info (cell_of d i)) }.

Lemma arena_init : Arena tree_init.
Proof.
  constructor.
  - cbn. auto.
  - intros p k K. destruct p as [|[|p]]; cbn in K; try tauto. unfold kids_of, cell_of in K. cbn in K. now destruct p.
  - intros p. destruct p as [|[|p]]; try constructor. unfold kids_of, cell_of. cbn. destruct p; constructor.
  - intros i I. destruct i as [|[|i]]; cbn in I; try lia; (split; [vm_compute; lia|exact Logic.I]).
  - intros i I. exists 0%nat. constructor. cbn in I. lia.
  - intros i I. destruct i as [|[|i]]; cbn in I; try lia; exact Logic.I.
Qed.

Lemma put_perm : forall b n l l1, put b n l = Some l1 -> Permutation l1 (n :: l).
Proof.
  intros [b|] n l l1 H; cbn in H.
  - revert l1 H. induction l as [|x l IH]; intros l1 H; [discriminate|]. cbn in H. destruct (x =? b)%nat.
    + injection H as <-. reflexivity.
    + destruct (put_before b n l) as [r|]; [|discriminate]. injection H as <-. rewrite (IH r eq_refl). apply perm_swap.
  - injection H as <-. symmetry. apply Permutation_cons_append.
Qed.
Lemma depth_same : forall d d' k i, (forall j, (2 <= j)%nat -> parent_of d' j = parent_of d j) -> Depth d k i -> Depth d' k i.
Proof. intros d d' k i H D. induction D; [now constructor|]. constructor; [assumption|]. now rewrite H. Qed.

(** what an element with children has below it has its depth *)
Lemma depth_fun : forall d k i, Depth d k i -> forall j, Depth d j i -> k = j.
Proof.
  intros d k i D. induction D; intros j E; inversion E; subst; try lia. f_equal. auto.
Qed.

Lemma insert_arena : forall d p x d1 n, Arena d -> host d (fst p) -> info_ok x -> insert d p x = Val (d1, n) ->
  Arena d1 /\ Grows d d1 /\ n = List.length d /\ List.length d1 = S (List.length d) /\ c_info (cell_of d1 n) = x.
Proof.
  intros d [p b] x d1 n A H X E. unfold insert in E. cbn [fst snd] in *. destruct (put b _ _) as [l|] eqn:P; [|discriminate]. injection E as <- <-.
  apply put_perm in P. destruct H as [H1 H2].
  set (d1 := change d p (set_kids l) ++ [Cell x p []]).
  assert (L : List.length d1 = S (List.length d)) by (unfold d1; rewrite app_length, change_length; cbn; lia).
  assert (C : forall j, (j < List.length d)%nat -> cell_of d1 j = if (p =? j)%nat then set_kids l (cell_of d j) else cell_of d j).
  { intros j J. unfold d1. rewrite cell_app, change_length. apply PeanoNat.Nat.ltb_lt in J as J1. rewrite J1, cell_change, J1, andb_true_r. reflexivity. }
  assert (N : cell_of d1 (List.length d) = Cell x p []).
  { unfold d1. rewrite cell_app, change_length, PeanoNat.Nat.ltb_irrefl, PeanoNat.Nat.sub_diag. reflexivity. }
  assert (I : forall j, (j < List.length d)%nat -> c_info (cell_of d1 j) = c_info (cell_of d j)) by (intros j J; rewrite C by exact J; destruct (p =? j)%nat; reflexivity).
  assert (Q : forall j, (j < List.length d)%nat -> parent_of d1 j = parent_of d j) by (intros j J; unfold parent_of; rewrite C by exact J; destruct (p =? j)%nat; reflexivity).
  assert (G : Grows d d1) by (split; [lia|]; intros j J; rewrite I by exact J; apply like_refl).
  assert (K : forall j, kids_of d1 j = if (p =? j)%nat then l else kids_of d j).
  { intro j. unfold kids_of. destruct (Nat.lt_ge_cases j (List.length d)) as [J|J].
    - rewrite C by exact J. destruct (p =? j)%nat; reflexivity.
    - assert (NE : (p =? j)%nat = false) by (apply PeanoNat.Nat.eqb_neq; lia). rewrite NE. rewrite (cell_past d j) by exact J.
      destruct (Nat.eq_dec j (List.length d)) as [->|M]; [now rewrite N|]. rewrite cell_past by lia. reflexivity. }
  split; [|split; [exact G|split; [reflexivity|split; [exact L|now rewrite N]]]].
  constructor.
  - destruct (A_roots d A) as (R1 & R2 & R3). rewrite L, !I by lia. split; [lia|]. auto.
  - intros q k I1. rewrite K in I1. destruct (p =? q)%nat eqn:E.
    + apply PeanoNat.Nat.eqb_eq in E. subst q. apply (Permutation_in _ P) in I1. destruct I1 as [<-|I1].
      * destruct (A_roots d A) as (R1 & _). rewrite L. split; [lia|]. unfold parent_of. now rewrite N.
      * destruct (A_kids d A p k I1) as [K1 K2]. rewrite L, Q by lia. split; [lia|exact K2].
    + destruct (A_kids d A q k I1) as [K1 K2]. rewrite L, Q by lia. split; [lia|exact K2].
  - intro q. rewrite K. destruct (p =? q)%nat; [|apply (A_once d A)]. apply (Permutation_NoDup (Permutation_sym P)). constructor; [|apply (A_once d A)].
    intro C1. apply (A_kids d A) in C1. lia.
  - intros j J. destruct (Nat.eq_dec j (List.length d)) as [->|M].
    + unfold parent_of. rewrite N. cbn [c_parent]. apply (host_grows d); [exact G|]. now split.
    + rewrite Q by lia. apply (host_grows d); [exact G|]. apply (A_host d A). lia.
  - assert (D : forall k j, Depth d k j -> (j < List.length d)%nat -> Depth d1 k j).
    { intros k j D. induction D; intro J; [now constructor|]. constructor; [assumption|]. rewrite Q by exact J. apply IHD. apply (A_host d A). exact J. }
    intros j J. destruct (Nat.eq_dec j (List.length d)) as [->|M].
    + destruct (A_deep d A p H1) as [k D1]. destruct (A_roots d A) as (R1 & _). exists (S k). constructor; [lia|]. unfold parent_of. rewrite N. cbn [c_parent]. now apply D.
    + destruct (A_deep d A j ltac:(lia)) as [k D1]. exists k. apply D; [exact D1|lia].
  - intros j J. destruct (Nat.eq_dec j (List.length d)) as [->|M]; [now rewrite N|]. rewrite I by lia. apply (A_info d A). lia.
Qed.

(** a node that is in no list of children *)
Lemma create_arena : forall d x d1 n, Arena d -> info_ok x -> create d x = (d1, n) ->
  Arena d1 /\ Grows d d1 /\ n = List.length d /\ List.length d1 = S (List.length d) /\ c_info (cell_of d1 n) = x.
Proof.
  intros d x d1 n A X E. unfold create in E. injection E as <- <-. set (d1 := d ++ [Cell x the_temporary []]).
  destruct (A_roots d A) as (R1 & R2 & R3).
  assert (L : List.length d1 = S (List.length d)) by (unfold d1; rewrite app_length; cbn; lia).
  assert (C : forall j, (j < List.length d)%nat -> cell_of d1 j = cell_of d j).
  { intros j J. unfold d1. rewrite cell_app. apply PeanoNat.Nat.ltb_lt in J. now rewrite J. }
  assert (N : cell_of d1 (List.length d) = Cell x the_temporary []).
  { unfold d1. rewrite cell_app, PeanoNat.Nat.ltb_irrefl, PeanoNat.Nat.sub_diag. reflexivity. }
  assert (Q : forall j, (j < List.length d)%nat -> parent_of d1 j = parent_of d j) by (intros j J; unfold parent_of; now rewrite C).
  assert (G : Grows d d1) by (split; [lia|]; intros j J; rewrite C by exact J; apply like_refl).
  assert (K : forall j, kids_of d1 j = kids_of d j).
  { intro j. unfold kids_of. destruct (Nat.lt_ge_cases j (List.length d)) as [J|J]; [now rewrite C|]. rewrite (cell_past d j) by exact J.
    destruct (Nat.eq_dec j (List.length d)) as [->|M]; [now rewrite N|]. rewrite cell_past by lia. reflexivity. }
  split; [|split; [exact G|split; [reflexivity|split; [exact L|now rewrite N]]]].
  constructor.
  - rewrite L, !C by lia. split; [lia|]. auto.
  - intros q k I1. rewrite K in I1. destruct (A_kids d A q k I1) as [K1 K2]. rewrite L, Q by lia. split; [lia|exact K2].
  - intro q. rewrite K. apply (A_once d A).
  - intros j J. destruct (Nat.eq_dec j (List.length d)) as [->|M].
    + unfold parent_of. rewrite N. split; [cbn; unfold the_temporary; lia|]. cbn [c_parent]. unfold the_temporary. rewrite C, R3 by lia. exact I.
    + rewrite Q by lia. apply (host_grows d); [exact G|]. apply (A_host d A). lia.
  - assert (D : forall k j, Depth d k j -> (j < List.length d)%nat -> Depth d1 k j).
    { intros k j D. induction D; intro J; [now constructor|]. constructor; [assumption|]. rewrite Q by exact J. apply IHD. apply (A_host d A). exact J. }
    intros j J. destruct (Nat.eq_dec j (List.length d)) as [->|M].
    + exists 1%nat. constructor; [lia|]. unfold parent_of. rewrite N. constructor. cbn. unfold the_temporary. lia.
    + destruct (A_deep d A j ltac:(lia)) as [k D1]. exists k. apply D; [exact D1|lia].
  - intros j J. destruct (Nat.eq_dec j (List.length d)) as [->|M]; [now rewrite N|]. rewrite C by lia. apply (A_info d A). lia.
Qed.

(** the value of a node *)
Lemma info_arena : forall d i f, Arena d -> (forall c, c_kids (f c) = c_kids c /\ c_parent (f c) = c_parent c) ->
  (forall c, info_ok (c_info c) -> like (c_info c) (c_info (f c)) /\ info_ok (c_info (f c))) -> Arena (change d i f) /\ Grows d (change d i f).
Proof.
  intros d i f A F1 F2.
  assert (C : forall j, cell_of (change d i f) j = if (i =? j)%nat && (j <? List.length d)%nat then f (cell_of d j) else cell_of d j) by (intro; apply cell_change).
  assert (K : forall j, kids_of (change d i f) j = kids_of d j) by (intro j; unfold kids_of; rewrite C; destruct (_ && _); [apply F1|reflexivity]).
  assert (Q : forall j, parent_of (change d i f) j = parent_of d j) by (intro j; unfold parent_of; rewrite C; destruct (_ && _); [apply F1|reflexivity]).
  assert (I : forall j, (j < List.length d)%nat -> like (c_info (cell_of d j)) (c_info (cell_of (change d i f) j)) /\ info_ok (c_info (cell_of (change d i f) j))).
  { intros j J. rewrite C. destruct (_ && _); [now apply F2, (A_info d A)|]. split; [apply like_refl|now apply (A_info d A)]. }
  assert (G : Grows d (change d i f)) by (split; [rewrite change_length; lia|]; intros j J; now apply I).
  split; [|exact G]. destruct (A_roots d A) as (R1 & R2 & R3). constructor.
  - rewrite change_length. split; [exact R1|]. destruct (I 0%nat ltac:(lia)) as [I0 _]. destruct (I 1%nat ltac:(lia)) as [I1 _]. rewrite R2 in I0. rewrite R3 in I1.
    split; [destruct (c_info (cell_of (change d i f) 0))|destruct (c_info (cell_of (change d i f) 1))]; cbn in *; tauto.
  - intros p k I1. rewrite K in I1. rewrite change_length, Q. now apply (A_kids d A).
  - intro p. rewrite K. apply (A_once d A).
  - intros j J. rewrite change_length in J. rewrite Q. apply (host_grows d); [exact G|]. now apply (A_host d A).
  - intros j J. rewrite change_length in J. destruct (A_deep d A j J) as [k D]. exists k. apply (depth_same d); [|exact D]. intros. apply Q.
  - intros j J. rewrite change_length in J. now apply I.
Qed.

(** fewer children *)
Lemma without_in : forall n l k, In k (without n l) <-> In k l /\ k <> n.
Proof. intros n l k. unfold without. rewrite filter_In, negb_true_iff, PeanoNat.Nat.eqb_neq. reflexivity. Qed.
Lemma without_arena : forall d q n, Arena d -> let d1 := change d q (fun c => set_kids (without n (c_kids c)) c) in
  Arena d1 /\ Grows d d1 /\ (forall j, c_info (cell_of d1 j) = c_info (cell_of d j)) /\ (forall j, parent_of d1 j = parent_of d j) /\
  (forall j, kids_of d1 j = if (q =? j)%nat then without n (kids_of d j) else kids_of d j) /\ List.length d1 = List.length d.
Proof.
  intros d q n A d1.
  assert (C : forall j, cell_of d1 j = if (q =? j)%nat && (j <? List.length d)%nat then set_kids (without n (c_kids (cell_of d j))) (cell_of d j) else cell_of d j) by (intro j; exact (cell_change d q (fun c => set_kids (without n (c_kids c)) c) j)).
  assert (L : List.length d1 = List.length d) by apply change_length.
  assert (I : forall j, c_info (cell_of d1 j) = c_info (cell_of d j)) by (intro j; rewrite C; destruct (_ && _); reflexivity).
  assert (Q : forall j, parent_of d1 j = parent_of d j) by (intro j; unfold parent_of; rewrite C; destruct (_ && _); reflexivity).
  assert (K : forall j, kids_of d1 j = if (q =? j)%nat then without n (kids_of d j) else kids_of d j).
  { intro j. unfold kids_of. rewrite C. destruct (q =? j)%nat; [|reflexivity]. cbn [andb]. destruct (j <? List.length d)%nat eqn:E; [reflexivity|].
    apply PeanoNat.Nat.ltb_ge in E. rewrite cell_past by exact E. reflexivity. }
  assert (G : Grows d d1) by (split; [lia|]; intros j J; rewrite I; apply like_refl).
  split; [|split; [exact G|]; auto]. destruct (A_roots d A) as (R1 & R2 & R3). constructor.
  - rewrite L, !I. auto.
  - intros p k I1. rewrite L, Q. rewrite K in I1. destruct (q =? p)%nat; [apply without_in in I1; destruct I1 as [I1 _]|]; now apply (A_kids d A).
  - intro p. rewrite K. destruct (q =? p)%nat; [apply NoDup_filter|]; apply (A_once d A).
  - intros j J. rewrite L in J. rewrite Q. apply (host_grows d); [exact G|]. now apply (A_host d A).
  - intros j J. rewrite L in J. destruct (A_deep d A j J) as [k D]. exists k. apply (depth_same d); [|exact D]. intros. apply Q.
  - intros j J. rewrite L in J. rewrite I. now apply (A_info d A).
Qed.
Lemma erase_arena : forall d n, Arena d -> Arena (erase d n) /\ Grows d (erase d n).
Proof. intros d n A. destruct (without_arena d (parent_of d n) n A) as (A1 & G1 & _). auto. Qed.

(** the chain above a node is shorter than the tree *)
Lemma depth_chain : forall d k i, Arena d -> (i < List.length d)%nat -> Depth d k i ->
  exists l, List.length l = S k /\ NoDup l /\ (forall x, In x l -> (x < List.length d)%nat /\ exists j, (j <= k)%nat /\ Depth d j x).
Proof.
  intros d k i A I D. induction D as [i R|k i R D IH].
  - exists [i]. split; [reflexivity|]. split; [repeat constructor; tauto|]. intros x [<-|[]]. split; [exact I|]. exists 0%nat. split; [lia|now constructor].
  - destruct (IH) as (l & L & N & P); [apply (A_host d A); exact I|]. exists (i :: l). split; [cbn; lia|]. split.
    + constructor; [|exact N]. intro C. destruct (P _ C) as (_ & j & J & E). assert (Depth d (S k) i) by (now constructor).
      pose proof (depth_fun _ _ _ E _ H). lia.
    + intros x [<-|X]; [split; [exact I|exists (S k); split; [lia|now constructor]]|]. destruct (P x X) as (X1 & j & J & E). split; [exact X1|]. exists j. split; [lia|exact E].
Qed.
Lemma depth_short : forall d k i, Arena d -> (i < List.length d)%nat -> Depth d k i -> (k < List.length d)%nat.
Proof.
  intros d k i A I D. destruct (depth_chain d k i A I D) as (l & L & N & P).
  assert (H : (List.length l <= List.length (seq 0 (List.length d)))%nat).
  { apply NoDup_incl_length; [exact N|]. intros x X. apply in_seq. specialize (P x X). lia. }
  rewrite seq_length in H. lia.
Qed.

(** [n] is the node or above it *)
Inductive Over (d : list cell) (n : nat) : nat -> Prop :=
| Over_self : Over d n n
| Over_up : forall i, (2 <= i)%nat -> Over d n (parent_of d i) -> Over d n i.
Lemma above_over : forall d f k i n, Depth d k i -> (k <= f)%nat -> above f d n i = false -> ~ Over d n i.
Proof.
  intros d f. induction f as [|f IH]; intros k i n D K H O; cbn [above] in H; apply orb_false_elim in H; destruct H as [H1 H2]; apply PeanoNat.Nat.eqb_neq in H1.
  - inversion D; subst; [|lia]. inversion O; subst; [congruence|lia].
  - inversion D as [? R|k' i' R D']; subst.
    + inversion O; subst; [congruence|lia].
    + assert (E : (i <=? 1)%nat = false) by (apply PeanoNat.Nat.leb_gt; lia). rewrite E in H2. inversion O; subst; [congruence|].
      apply (IH k' _ n D' ltac:(lia) H2). assumption.
Qed.

Lemma move_arena : forall d p n d1, Arena d -> host d (fst p) -> (2 <= n < List.length d)%nat -> move d p n = Val d1 -> Arena d1 /\ Grows d d1 /\ List.length d1 = List.length d.
Proof.
  intros d [p b] n d2 A H N E. unfold move in E. cbn [fst snd] in *. destruct (above (List.length d) d n p) eqn:U; [discriminate|].
  destruct (without_arena d (parent_of d n) n A) as (A1 & G1 & I1 & Q1 & K1 & L1). set (d1 := change d (parent_of d n) (fun c => set_kids (without n (c_kids c)) c)) in *.
  destruct (negb _ && _); [injection E as <-; auto|].
  destruct (put b n (kids_of d1 p)) as [l|] eqn:P; [|discriminate]. injection E as <-. apply put_perm in P. destruct H as [H1 H2].
  set (d2 := change (change d1 p (set_kids l)) n (set_parent p)).
  assert (L : List.length d2 = List.length d) by (unfold d2; now rewrite !change_length).
  assert (C : forall j, cell_of d2 j = Cell (c_info (cell_of d j)) (if (n =? j)%nat then p else parent_of d j) (if (p =? j)%nat then l else kids_of d1 j)).
  { intro j. unfold d2. rewrite !cell_change, change_length, L1.
    rewrite <- (I1 j), <- (Q1 j). unfold kids_of, parent_of.
    destruct (Nat.lt_ge_cases j (List.length d)) as [J|J].
    - assert (J1 : (j <? List.length d)%nat = true) by now apply PeanoNat.Nat.ltb_lt. rewrite J1, !andb_true_r.
      destruct (n =? j)%nat, (p =? j)%nat; unfold set_parent, set_kids; cbn [c_info c_parent c_kids]; destruct (cell_of d1 j); reflexivity.
    - assert (J1 : (j <? List.length d)%nat = false) by now apply PeanoNat.Nat.ltb_ge. rewrite J1, !andb_false_r.
      assert (X : (n =? j)%nat = false) by (apply PeanoNat.Nat.eqb_neq; lia). assert (Y : (p =? j)%nat = false) by (apply PeanoNat.Nat.eqb_neq; lia). rewrite X, Y.
      destruct (cell_of d1 j); reflexivity. }
  assert (I : forall j, c_info (cell_of d2 j) = c_info (cell_of d j)) by (intro j; now rewrite C).
  assert (Q : forall j, parent_of d2 j = if (n =? j)%nat then p else parent_of d j) by (intro j; unfold parent_of at 1; now rewrite C).
  assert (K : forall j, kids_of d2 j = if (p =? j)%nat then l else kids_of d1 j) by (intro j; unfold kids_of at 1; now rewrite C).
  assert (G : Grows d d2) by (split; [lia|]; intros j J; rewrite I; apply like_refl).
  assert (NI : forall j, ~ In n (kids_of d1 j)).
  { intros j X. rewrite K1 in X. destruct (parent_of d n =? j)%nat eqn:E.
    - apply without_in in X. tauto.
    - apply PeanoNat.Nat.eqb_neq in E. apply (A_kids d A) in X. destruct X as [_ X]. congruence. }
  split; [|split; [exact G|exact L]]. destruct (A_roots d A) as (R1 & R2 & R3). constructor.
  - rewrite L, !I. auto.
  - intros q k X. rewrite L, Q. rewrite K in X. destruct (p =? q)%nat eqn:E.
    + apply PeanoNat.Nat.eqb_eq in E. subst q. apply (Permutation_in _ P) in X. destruct X as [<-|X].
      * rewrite PeanoNat.Nat.eqb_refl. split; [lia|reflexivity].
      * assert (M : (n =? k)%nat = false) by (apply PeanoNat.Nat.eqb_neq; intros ->; now apply NI in X). rewrite M.
        destruct (A_kids d1 A1 p k X) as [X1 X2]. rewrite L1 in X1. rewrite Q1 in X2. auto.
    + assert (M : (n =? k)%nat = false) by (apply PeanoNat.Nat.eqb_neq; intros ->; now apply NI in X). rewrite M.
      destruct (A_kids d1 A1 q k X) as [X1 X2]. rewrite L1 in X1. rewrite Q1 in X2. auto.
  - intro q. rewrite K. destruct (p =? q)%nat; [|apply (A_once d1 A1)]. apply (Permutation_NoDup (Permutation_sym P)). constructor; [apply NI|apply (A_once d1 A1)].
  - intros j J. rewrite L in J. rewrite Q. apply (host_grows d); [exact G|]. destruct (n =? j)%nat; [now split|]. now apply (A_host d A).
  - assert (O : ~ Over d n p).
    { destruct (A_deep d A p H1) as [k D]. apply (above_over d (List.length d) k p n D); [|exact U]. apply PeanoNat.Nat.lt_le_incl. now apply (depth_short d k p). }
    assert (D1 : forall k j, Depth d k j -> ~ Over d n j -> Depth d2 k j).
    { intros k j D. induction D as [j J|k j J D IH]; intro N1; [now constructor|]. constructor; [exact J|]. rewrite Q.
      assert (M : (n =? j)%nat = false) by (apply PeanoNat.Nat.eqb_neq; intros ->; apply N1; constructor). rewrite M. apply IH. intro O1. apply N1. now constructor. }
    assert (D2 : exists k, Depth d2 k n).
    { destruct (A_deep d A p H1) as [k D]. exists (S k). constructor; [lia|]. rewrite Q, PeanoNat.Nat.eqb_refl. now apply D1. }
    assert (D3 : forall k j, Depth d k j -> exists k', Depth d2 k' j).
    { intros k j D. induction D as [j J|k j J D IH]; [exists 0%nat; now constructor|]. destruct (Nat.eq_dec n j) as [<-|M]; [exact D2|].
      destruct IH as [k' D4]. exists (S k'). constructor; [exact J|]. rewrite Q. apply PeanoNat.Nat.eqb_neq in M. now rewrite M. }
    intros j J. rewrite L in J. destruct (A_deep d A j J) as [k D]. exact (D3 k j D).
  - intros j J. rewrite L in J. rewrite I. now apply (A_info d A).
Qed.

(** *** The state *)

(** a start tag: the number of its name and the name agree, and its attributes are kept *)
Definition tag_ok (g : stag) : Prop :=
  tname_of (tstring (g_id g)) = g_id g /\ (g_atom g = false -> tname_of (g_text g) = g_id g /\ exists x, g_id g = Other x) /\ Pa (g_attrs g).
Definition tag_full (g : stag) : Prop := tag_ok g /\ void (g_id g) = false.
Definition elem (d : list cell) (i : nat) : Prop := host d i /\ (2 <= i)%nat.
Definition entry_ok (d : list cell) (e : entry) : Prop := elem d (en_node e) /\ (ns_of d (en_node e) = ns_HTML -> tag_full (en_tag e)).
Definition active_ok (d : list cell) (f : formatting) : Prop :=
  match f with None => True | Some e => host d (en_node e) /\ ns_of d (en_node e) = ns_HTML /\ tag_full (en_tag e) end.
Definition node_ok (d : list cell) (o : option nat) : Prop := match o with None => True | Some i => elem d i end.
Record Core (d : list cell) (stack : list entry) (active : list formatting) (head form : option nat) (slots : list (list Z)) : Prop := MkCore {
  W_dom : Arena d;
  W_stack : Forall (entry_ok d) stack;
  W_active : Forall (active_ok d) active;
  W_head : node_ok d head;
  W_form : node_ok d form;
  W_slots : Forall Ps slots }.
Definition Whole (s : st) : Prop := Core (s_dom s) (s_stack s) (s_active s) (s_head s) (s_form s) (s_slots s).

Lemma entry_grows : forall d d' e, Grows d d' -> entry_ok d e -> entry_ok d' e.
Proof. intros d d' e G [H1 H2]. split; [split; [apply (host_grows d); [exact G|apply H1]|apply H1]|]. intro N. apply H2. rewrite <- N. symmetry. apply ns_grows; [exact G|apply H1]. Qed.
Lemma active_grows : forall d d' f, Grows d d' -> active_ok d f -> active_ok d' f.
Proof. intros d d' [e|] G; cbn; [|auto]. intros (H1 & H2 & H3). split; [now apply (host_grows d)|]. split; [|exact H3]. rewrite <- H2. apply ns_grows; [exact G|apply H1]. Qed.
Lemma node_grows : forall d d' o, Grows d d' -> node_ok d o -> node_ok d' o.
Proof. intros d d' [i|] G H; [split; [apply (host_grows d); [exact G|apply H]|apply H]|exact I]. Qed.

Lemma whole_dom : forall d s, Arena d -> Grows (s_dom s) d -> Whole s -> Whole (set_dom d s).
Proof.
  intros d s A G [W1 W2 W3 W4 W5 W6]. constructor; cbn.
  - exact A.
  - eapply Forall_impl; [|exact W2]. intros e. now apply entry_grows.
  - eapply Forall_impl; [|exact W3]. intros e. now apply active_grows.
  - now apply (node_grows (s_dom s)).
  - now apply (node_grows (s_dom s)).
  - exact W6.
Qed.
Lemma whole_stack : forall l s, incl l (s_stack s) -> Whole s -> Whole (set_stack l s).
Proof. intros l s I [W1 W2 W3 W4 W5 W6]. constructor; cbn; auto. rewrite Forall_forall in *. auto. Qed.
Lemma whole_push : forall e s, entry_ok (s_dom s) e -> Whole s -> Whole (set_stack (e :: s_stack s) s).
Proof. intros e s E [W1 W2 W3 W4 W5 W6]. constructor; cbn; auto. Qed.
Lemma whole_active : forall l s, incl l (s_active s) -> Whole s -> Whole (set_active l s).
Proof. intros l s I [W1 W2 W3 W4 W5 W6]. constructor; cbn; auto. rewrite Forall_forall in *. auto. Qed.
Lemma whole_head : forall i s, elem (s_dom s) i -> Whole s -> Whole (set_head (Some i) s).
Proof. intros e s E [W1 W2 W3 W4 W5 W6]. constructor; cbn; auto. Qed.
Lemma whole_form : forall i s, elem (s_dom s) i -> Whole s -> Whole (set_form (Some i) s).
Proof. intros e s E [W1 W2 W3 W4 W5 W6]. constructor; cbn; auto. Qed.
Lemma whole_no_form : forall s, Whole s -> Whole (set_form None s).
Proof. intros s [W1 W2 W3 W4 W5 W6]. constructor; cbn; auto. Qed.
Lemma whole_init : forall b, Whole (st_init b).
Proof. intro b. constructor; cbn; auto. apply arena_init. Qed.

(** less of the stack and of the list *)
Lemma drop_to_incl : forall f l, incl (drop_to f l) l.
Proof. intros f l. induction l as [|e l IH]; cbn; [apply incl_refl|]. destruct (f _); [apply incl_tl, incl_refl|]. now apply incl_tl. Qed.
Lemma drop_implied_incl : forall d n x l, incl (drop_implied d n x l) l.
Proof.
  intros d n x l. induction l as [|e l IH]; cbn; [apply incl_refl|]. destruct (match x with Some _ => _ | None => _ end); [apply incl_refl|].
  destruct (_ && _); [now apply incl_tl|apply incl_refl].
Qed.
Lemma to_table_incl : forall d l, incl (to_table d l) l.
Proof. intros d l. induction l as [|e l IH]; cbn [to_table]; [apply incl_refl|]. destruct (negb _); [apply incl_refl|]. destruct (among _ _); [apply incl_refl|now apply incl_tl]. Qed.
Lemma pop_to_incl : forall f l, keeps (fun x => incl x l) (pop_to f l).
Proof. intros f l. induction l as [|e l IH]; cbn; [exact I|]. destruct (f _); [apply incl_refl|]. eapply keeps_weak; [exact IH|]. intros x X. now apply incl_tl. Qed.
Lemma remove_first_incl : forall {A} (f : A -> bool) l r, remove_first f l = Some r -> incl r l.
Proof.
  intros A f l. induction l as [|e l IH]; intros r H; cbn in H; [discriminate|]. destruct (f e); [injection H as <-; apply incl_tl, incl_refl|].
  destruct (remove_first f l) as [x|]; [|discriminate]. injection H as <-. apply incl_cons; [now left|]. apply incl_tl. now apply IH.
Qed.
Lemma remove_front_incl : forall {A} (f : A -> bool) l r, remove_front f l = Some r -> incl r l.
Proof.
  intros A f l r H. unfold remove_front in H. destruct (remove_first f (rev l)) as [x|] eqn:E; [|discriminate]. injection H as <-. apply remove_first_incl in E.
  intros y Y. apply in_rev in Y. apply E in Y. now apply in_rev in Y.
Qed.
Lemma to_marker_incl : forall l, incl (to_marker l) l.
Proof. induction l as [|[e|] l IH]; cbn; [apply incl_refl|now apply incl_tl|apply incl_tl, incl_refl]. Qed.
Lemma erase_earliest_incl : forall d i l n, incl (erase_earliest d i n l) l.
Proof.
  intros d i l. induction l as [|[e|] l IH]; intro n; cbn; try apply incl_refl. destruct (same_element _ _ _).
  - destruct n as [|[|n]]; try (apply incl_tl, incl_refl); (apply incl_cons; [now left|]; apply incl_tl, IH).
  - apply incl_cons; [now left|]. apply incl_tl, IH.
Qed.
Lemma breakout_incl : forall d l, keeps (fun x => incl x l) (breakout d l).
Proof.
  intros d l. induction l as [|e l IH]; cbn; [exact I|]. destruct l as [|f l]; [exact I|]. destruct (_ || _); [apply incl_tl, incl_refl|].
  eapply keeps_weak; [exact IH|]. intros x X. now apply incl_tl.
Qed.

Lemma whole_pop_until : forall t s, Whole s -> Whole (pop_until t s).
Proof. intros. apply whole_stack; [apply drop_to_incl|assumption]. Qed.
Lemma whole_pop_until_any : forall t s, Whole s -> Whole (pop_until_any t s).
Proof. intros. apply whole_stack; [apply drop_to_incl|assumption]. Qed.
Lemma whole_pop_until_node : forall t s, Whole s -> Whole (pop_until_node t s).
Proof. intros. apply whole_stack; [apply drop_to_incl|assumption]. Qed.
Lemma whole_implied : forall t s, Whole s -> Whole (implied_except t s).
Proof. intros. apply whole_stack; [apply drop_implied_incl|assumption]. Qed.
Lemma whole_implied_end : forall s, Whole s -> Whole (implied_end_tags s).
Proof. intros. now apply whole_implied. Qed.
Lemma whole_thoroughly : forall s, Whole s -> Whole (implied_thoroughly s).
Proof. intros. apply whole_stack; [apply drop_implied_incl|assumption]. Qed.
Lemma whole_to_table : forall s, Whole s -> Whole (to_table_context s).
Proof. intros. apply whole_stack; [apply to_table_incl|assumption]. Qed.
Lemma whole_clear : forall s, Whole s -> Whole (clear_formatting s).
Proof. intros. apply whole_active; [apply to_marker_incl|assumption]. Qed.
Lemma whole_marker : forall s, Whole s -> Whole (push_marker s).
Proof. intros s [W1 W2 W3 W4 W5 W6]. constructor; cbn; auto. constructor; [exact I|auto]. Qed.
Lemma whole_remove_list : forall i s, Whole s -> Whole (remove_list i s).
Proof. intros i s W. unfold remove_list. destruct (remove_front _ _) as [l|] eqn:E; [|exact W]. apply whole_active; [now apply remove_front_incl in E|exact W]. Qed.
Lemma whole_close_p : forall s, Whole s -> Whole (close_p s).
Proof. intros. now apply whole_pop_until, whole_implied. Qed.
Lemma whole_close_cell : forall s, Whole s -> Whole (close_cell s).
Proof. intros s W. apply (whole_clear (pop_until_any [T_td; T_th] (implied_end_tags s))). now apply whole_pop_until_any, whole_implied_end. Qed.
Lemma whole_stop : forall s, Whole s -> Whole (stop_parsing s).
Proof. intros. apply whole_stack; [intros x []|assumption]. Qed.
Lemma whole_formatting : forall i g s, host (s_dom s) i -> ns_of (s_dom s) i = ns_HTML -> tag_full g -> Whole s -> Whole (push_formatting i g s).
Proof.
  intros i g s H N T [W1 W2 W3 W4 W5 W6]. unfold push_formatting. constructor; cbn [s_dom s_stack s_active s_head s_form s_slots set_active]; auto. constructor; [now split|].
  match goal with |- context [if ?b then _ else _] => destruct b end; [|exact W3]. rewrite Forall_forall in *. intros x X. apply W3. now apply erase_earliest_incl in X.
Qed.

Lemma keep_pop : forall s, Whole s -> keeps Whole (pop s).
Proof. intros s W. unfold pop. destruct (s_stack s) as [|e l] eqn:E; [exact I|]. apply whole_stack; [rewrite E; apply incl_tl, incl_refl|exact W]. Qed.
Lemma keep_remove_stack : forall i s, Whole s -> keeps Whole (remove_stack i s).
Proof. intros i s W. unfold remove_stack. destruct (remove_front _ _) as [l|] eqn:E; [|exact I]. apply whole_stack; [now apply remove_front_incl in E|exact W]. Qed.
Lemma keep_to_body : forall s, Whole s -> keeps Whole (to_body_context s).
Proof. intros s W. eapply keeps_run; [apply pop_to_incl|]. intros l L. now apply whole_stack. Qed.
Lemma keep_to_row : forall s, Whole s -> keeps Whole (to_row_context s).
Proof. intros s W. eapply keeps_run; [apply pop_to_incl|]. intros l L. now apply whole_stack. Qed.
Lemma keep_p_closed : forall s, Whole s -> keeps Whole (p_closed s).
Proof. intros s W. unfold p_closed. destruct (in_scope _ _ _) as [[]| |]; try exact I; [now apply whole_close_p|exact W]. Qed.
Lemma keep_pop_template : forall s, Whole s -> keeps Whole (pop_template s).
Proof. intros s W. unfold pop_template. destruct (s_templates s); [exact I|exact W]. Qed.
Lemma keep_reset : forall s, Whole s -> keeps Whole (reset_mode s).
Proof. intros s W. unfold reset_mode. destruct (reset_from s (s_stack s)); try exact I. exact W. Qed.
Lemma keep_other_end : forall t s, Whole s -> keeps Whole (other_end t s).
Proof.
  intros t s W. unfold other_end. induction (s_stack s) as [|e l IH]; cbn; [exact I|]. destruct (is_html _ _ _); [now apply whole_pop_until_node, whole_implied|].
  destruct (is_special _ _); [exact W|exact IH].
Qed.
Lemma keep_dd : forall l s, Whole s -> keeps Whole (dd_from l s).
Proof.
  intros l s W. induction l as [|e l IH]; cbn; [exact I|]. destruct (is_html T_dd _ _); [now apply whole_pop_until, whole_implied|].
  destruct (is_html T_dt _ _); [now apply whole_pop_until, whole_implied|]. destruct (_ && _); [exact W|exact IH].
Qed.

(** *** Insertion *)

Lemma whole_parent : forall s i, Whole s -> host (s_dom s) i -> host (s_dom s) (parent_of (s_dom s) i).
Proof. intros s i W H. apply (A_host _ (W_dom _ _ _ _ _ _ W)). apply H. Qed.
Lemma whole_in : forall s e, Whole s -> In e (s_stack s) -> entry_ok (s_dom s) e.
Proof. intros s e W I. pose proof (W_stack _ _ _ _ _ _ W) as F. rewrite Forall_forall in F. now apply F. Qed.
Lemma keep_cur : forall s, Whole s -> keeps (elem (s_dom s)) (cur s).
Proof. intros s W. unfold cur. destruct (s_stack s) as [|e l] eqn:E; [exact I|]. apply (whole_in s e W). rewrite E. now left. Qed.
Lemma last_entry : forall (l : list entry) e, In (last l e) (e :: l).
Proof. induction l as [|x l IH]; intro e; [now left|]. cbn [last]. destruct l as [|y l]; [right; now left|]. destruct (IH e) as [H|H]; [rewrite <- H; now left|]. right. right. exact H. Qed.
Lemma keep_front : forall s, Whole s -> keeps (elem (s_dom s)) (front s).
Proof.
  intros s W. unfold front. destruct (s_stack s) as [|e l] eqn:E; [exact I|]. apply (whole_in s _ W). rewrite E. apply last_entry.
Qed.
Lemma keep_second : forall s, Whole s -> keeps (elem (s_dom s)) (second s).
Proof.
  intros s W. unfold second. destruct (rev (s_stack s)) as [|e [|f l]] eqn:E; try exact I. apply (whole_in s _ W). apply in_rev. rewrite E. right. now left.
Qed.
Lemma keep_place : forall i s, Whole s -> elem (s_dom s) i -> keeps (fun p => host (s_dom s) (fst p)) (place_for i s).
Proof.
  intros i s W H. unfold place_for. destruct (_ && _); [|apply H]. destruct (index_of _ _) as [k|].
  - assert (T : host (s_dom s) (match nth_error (s_stack s) k with Some e => en_node e | None => O end)).
    { destruct (nth_error (s_stack s) k) as [e|] eqn:E; [apply (whole_in s e W); now apply nth_error_In in E|].
      destruct (A_roots _ (W_dom _ _ _ _ _ _ W)) as (R1 & R2 & _). split; [lia|]. now rewrite R2. }
    set (t := match nth_error (s_stack s) k with Some e => en_node e | None => O end) in *. clearbody t.
    assert (Q : forall o, (forall e, o = Some e -> In e (s_stack s)) -> keeps (fun p => host (s_dom s) (fst p))
      (match o with Some e => Val (at_end (en_node e)) | None => if (parent_of (s_dom s) t =? the_document)%nat then match nth_error (s_stack s) (S k) with Some e => Val (at_end (en_node e)) | None => Bad end else Val (parent_of (s_dom s) t, Some t) end)).
    { intros [e|] O; [apply (whole_in s e W); now apply O|]. destruct (_ =? _)%nat.
      - destruct (nth_error (s_stack s) (S k)) as [e|] eqn:E; [|exact I]. apply (whole_in s e W). now apply nth_error_In in E.
      - now apply whole_parent. }
    apply Q. intros e E. destruct (index_of _ _) as [j|]; [|discriminate]. destruct (j <? k)%nat; [|discriminate]. now apply nth_error_In in E.
  - eapply keeps_run; [now apply keep_front|]. intros f F. apply F.
Qed.
Lemma element_ok : forall g, tag_ok g -> keeps (fun x => exists l, x = IElement ns_HTML (g_id g) l /\ info_ok x) (element_for g ns_HTML).
Proof.
  intros g (G1 & G2 & G3). unfold element_for.
  assert (F : Pd (map (fun a => Attr (ta_ns a) (ta_prefix a) (ta_name a) (ta_value a)) (filter (fun a => negb (ta_omitted a)) (g_attrs g)))).
  { now apply Pa_Pd. }
  destruct (g_atom g).
  - eexists. split; [reflexivity|]. split; [exact F|]. auto.
  - destruct (G2 eq_refl) as [G4 _]. destruct (g_text g); [exact I|]. rewrite <- G4. eexists. split; [reflexivity|]. split; [exact F|]. intros _. now rewrite G4.
Qed.
(** a new element of HTML *)
Definition Fresh (g : stag) (p : st * nat) : Prop :=
  Whole (fst p) /\ elem (s_dom (fst p)) (snd p) /\ ns_of (s_dom (fst p)) (snd p) = ns_HTML.
Lemma keep_insert_el : forall g s, tag_full g -> Whole s -> keeps (Fresh g) (insert_el g s).
Proof.
  intros g s [T V] W. unfold insert_el, insert_foreign. eapply keeps_run; [now apply keep_cur|]. intros c C. eapply keeps_run; [now apply keep_place|]. intros p P.
  eapply keeps_run; [now apply element_ok|]. intros x (l & X & X1). destruct (insert (s_dom s) p x) as [[d i]| |] eqn:E; try exact I. cbn [keeps].
  apply insert_arena in E; [|apply W|exact P|exact X1]. destruct E as (A & G & -> & L & N).
  assert (H : elem d (List.length (s_dom s))). { split; [split; [lia|]; rewrite N, X; intros _; exact V|]. apply (A_roots _ (W_dom _ _ _ _ _ _ W)). }
  assert (M : ns_of d (List.length (s_dom s)) = ns_HTML) by (unfold ns_of; now rewrite N, X).
  split; [|split; assumption]. apply (whole_push (Entry g (List.length (s_dom s))) (set_dom d s)); [|now apply whole_dom].
  split; [exact H|]. intros _. now split.
Qed.
Lemma keep_insert : forall g s, tag_full g -> Whole s -> keeps Whole (insert_el' g s).
Proof. intros g s T W. unfold insert_el'. eapply keeps_run2; [now apply keep_insert_el|]. intros x y Q. apply Q. Qed.
Lemma keep_void : forall g s, tag_ok g -> Whole s -> keeps Whole (insert_void g s).
Proof.
  intros g s T W. unfold insert_void, insert_el', insert_el, insert_foreign, cur. destruct (s_stack s) as [|e r] eqn:S; [exact I|]. rewrite <- S.
  destruct (place_for (en_node e) s) as [p| |] eqn:P; try exact I. pose proof (element_ok g T) as X. destruct (element_for g ns_HTML) as [x| |]; try exact I.
  destruct (insert (s_dom s) p x) as [[d i]| |] eqn:E; try exact I. cbn [keeps pop s_stack set_stack set_dom].
  destruct X as (l & X & X1). assert (H : elem (s_dom s) (en_node e)) by (apply (whole_in s e W); rewrite S; now left).
  pose proof (keep_place _ _ W H) as Q. rewrite P in Q. apply insert_arena in E; [|apply W|exact Q|exact X1]. destruct E as (A & G & _).
  pose proof (whole_dom d s A G W) as R. exact R.
Qed.
Lemma keep_foreign : forall g ns s, ns <> ns_HTML -> Pd (map (fun a => Attr (ta_ns a) (ta_prefix a) (ta_name a) (ta_value a)) (filter (fun a => negb (ta_omitted a)) (g_attrs g))) -> Whole s ->
  keeps (fun p => Whole (fst p)) (insert_foreign g ns s).
Proof.
  intros g ns s N F W. unfold insert_foreign. eapply keeps_run; [now apply keep_cur|]. intros c C. eapply keeps_run; [now apply keep_place|]. intros p P.
  assert (X : keeps (fun x => exists t l, x = IElement ns t l /\ info_ok x) (element_for g ns)).
  { assert (F1 : Pd (map (fun a => Attr (ta_ns a) (ta_prefix a) (ta_name a) (ta_value a)) (filter (fun a => negb (ta_omitted a)) (g_attrs g)))).
    { exact F. }
    unfold element_for. destruct (g_atom g); [|destruct (g_text g); [exact I|]]; (eexists; eexists; split; [reflexivity|]; split; [exact F1|]; tauto). }
  eapply keeps_run; [exact X|]. intros x (t & l & X0 & X1). destruct (insert (s_dom s) p x) as [[d i]| |] eqn:E; try exact I. cbn [keeps fst].
  apply insert_arena in E; [|apply W|exact P|exact X1]. destruct E as (A & G & -> & L & M).
  apply (whole_push (Entry g (List.length (s_dom s))) (set_dom d s)); [|now apply whole_dom].
  assert (O : ns_of d (List.length (s_dom s)) = ns) by (unfold ns_of; now rewrite M, X0).
  split.
  - split; [|apply (A_roots _ (W_dom _ _ _ _ _ _ W))]. split; [cbn; lia|]. cbn [en_node s_dom set_dom]. rewrite M, X0. intro. contradiction.
  - intro K. cbn [en_node s_dom set_dom] in K. congruence.
Qed.
Lemma keep_plain : forall p x s, (forall ns t l, x <> IElement ns t l) -> Whole s -> host (s_dom s) (fst p) -> keeps Whole (run (d, _) <- insert (s_dom s) p x; Val (set_dom d s)).
Proof.
  intros p x s X W P. destruct (insert (s_dom s) p x) as [[d i]| |] eqn:E; try exact I. cbn [keeps].
  apply insert_arena in E; [|apply W|exact P|]. destruct E as (A & G & _). now apply whole_dom. destruct x; try exact I. now specialize (X ns t attrs).
Qed.
Lemma keep_char : forall c s, Whole s -> keeps Whole (insert_char c s).
Proof.
  intros c s W. unfold insert_char. eapply keeps_run; [now apply keep_cur|]. intros i C. eapply keeps_run; [now apply keep_place|]. intros p P.
  destruct (_ =? _)%nat; [exact W|]. destruct (before_place _ _) as [[t|]|]; try exact I; [|now apply keep_plain].
  destruct (c_info (cell_of (s_dom s) t)) eqn:T; try (now apply keep_plain). cbn [keeps].
  set (f := set_info (IText (data ++ [c]))).
  assert (Z : Arena (change (s_dom s) t f) /\ Grows (s_dom s) (change (s_dom s) t f)).
  { assert (Y : change (s_dom s) t f = change (s_dom s) t (fun x => match c_info x with IText _ => f x | _ => x end)).
    { assert (L : (List.length (s_dom s) <= t \/ t < List.length (s_dom s))%nat) by lia. clear - T L. revert t T L. unfold cell_of. induction (s_dom s) as [|x l IH]; intros [|t] T L; cbn in *; try reflexivity.
      - now rewrite T.
      - f_equal. apply IH; [exact T|lia]. }
    rewrite Y. apply info_arena; [apply W| |].
    - intro x. destruct (c_info x); auto.
    - intros x X. destruct (c_info x) eqn:Q; rewrite ?Q; try (split; [apply like_refl|exact X]). }
  destruct Z as [Z1 Z2]. now apply whole_dom.
Qed.
Lemma keep_comment_at : forall x p s, Whole s -> host (s_dom s) (fst p) -> keeps Whole (insert_comment_at x p s).
Proof. intros x p s W P. now apply keep_plain. Qed.
Lemma keep_comment : forall x s, Whole s -> keeps Whole (insert_comment x s).
Proof. intros x s W. unfold insert_comment. eapply keeps_run; [now apply keep_cur|]. intros c C. eapply keeps_run; [now apply keep_place|]. intros p P. now apply keep_comment_at. Qed.
Lemma host_document : forall s, Whole s -> host (s_dom s) the_document.
Proof. intros s W. destruct (A_roots _ (W_dom _ _ _ _ _ _ W)) as (R1 & R2 & _). unfold the_document. split; [lia|]. now rewrite R2. Qed.
Lemma keep_raw_text : forall g s, tag_full g -> Whole s -> keeps Whole (raw_text g s).
Proof. intros g s T W. unfold raw_text. eapply keeps_run; [now apply keep_insert|]. intros x X. exact X. Qed.
Lemma keep_rcdata : forall g s, tag_full g -> Whole s -> keeps Whole (rcdata g s).
Proof. intros g s T W. unfold rcdata. eapply keeps_run; [now apply keep_insert|]. intros x X. exact X. Qed.

Lemma keep_reconstruct : forall s, Whole s -> keeps Whole (reconstruct s).
Proof.
  intros s W. unfold reconstruct.
  assert (T : forall l, let (a, b) := to_open s l in l = map Some a ++ b).
  { induction l as [|[e|] l IH]; cbn; try reflexivity. destruct (on_stack _ _); [reflexivity|]. destruct (to_open s l). cbn. now rewrite <- IH. }
  specialize (T (s_active s)). destruct (to_open s (s_active s)) as [a b].
  pose proof (W_active _ _ _ _ _ _ W) as F. rewrite T in F. apply Forall_app in F. destruct F as [F1 F2].
  assert (G : forall l done s0, Forall (fun e => tag_full (en_tag e)) l -> Forall (active_ok (s_dom s0)) done -> Whole s0 -> keeps Whole (reopen l done s0)).
  { clear - Pa_Pd. induction l as [|e l IH]; intros done s0 F1 F2 W; cbn [reopen].
    - cbn [keeps]. destruct W as [W1 W2 W3 W4 W5 W6]. constructor; cbn; auto.
    - inversion F1 as [|? ? T F3]; subst. pose proof (keep_insert_el (en_tag e) s0 T W) as K. destruct (insert_el (en_tag e) s0) as [[s1 i]| |] eqn:E; try exact I.
      destruct K as (K1 & K2 & K3). apply IH; [exact F3| |exact K1]. constructor; [split; [apply K2|now split]|].
      assert (G : Grows (s_dom s0) (s_dom s1)).
      { unfold insert_el, insert_foreign in E. pose proof (keep_cur s0 W) as C. destruct (cur s0) as [c| |]; try discriminate.
        pose proof (keep_place c s0 W C) as P. destruct (place_for c s0) as [p| |]; try discriminate. pose proof (element_ok (en_tag e) (proj1 T)) as X.
        destruct (element_for (en_tag e) ns_HTML) as [x| |]; try discriminate. destruct X as (l0 & _ & X).
        destruct (insert (s_dom s0) p x) as [[d n]| |] eqn:Q; try discriminate. injection E as <- <-. apply insert_arena in Q; [|apply W|exact P|exact X]. apply Q. }
      eapply Forall_impl; [|exact F2]. intros f. now apply active_grows. }
  destruct a as [|e a]; [exact W|]. apply G; [| |exact W].
  - apply Forall_rev. rewrite Forall_forall in *. intros x X. assert (Y : In (Some x) (map Some (e :: a))) by now apply in_map. apply F1 in Y. apply Y.
  - exact F2.
Qed.
Lemma keep_other_start : forall g s, tag_full g -> Whole s -> keeps Whole (other_start g s).
Proof. intros g s T W. unfold other_start. eapply keeps_run; [now apply keep_reconstruct|]. intros x X. now apply keep_insert. Qed.

Lemma add_attrs_ok : forall g l, Pa (g_attrs g) -> Pd l -> Pd (add_attrs g l).
Proof. exact H_add. Qed.
Lemma whole_merge : forall g i s, Pa (g_attrs g) -> Whole s -> Whole (merge_attrs g i s).
Proof.
  intros g i s F W. unfold merge_attrs. destruct (info_arena (s_dom s) i (fun c => match c_info c with IElement ns t l => set_info (IElement ns t (add_attrs g l)) c | _ => c end)) as [A G].
  - apply W.
  - intro c. destruct (c_info c); auto.
  - intros c C. destruct (c_info c) eqn:E; rewrite ?E; try (split; [apply like_refl|exact C]). cbn [set_info c_info like]. split; [split; reflexivity|].
    destruct C as [C1 C2]. split; [now apply add_attrs_ok|exact C2].
  - now apply whole_dom.
Qed.
Lemma keep_body_html : forall g s, Pa (g_attrs g) -> Whole s -> keeps Whole (body_html g s).
Proof. intros g s F W. unfold body_html. destruct (contains _ _); [exact W|]. destruct (front s); try exact I. now apply whole_merge. Qed.
End Kept.
