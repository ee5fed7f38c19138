(** Insertion of elements, characters and comments; formatting elements reopened; attributes added. *)
From Coq Require Import ZArith List Bool String Lia.
From Verif Require Import M_infra M_encoding M_labels M_html M_html_serialize M_dom_names M_dom M_dom2 L_dom L_dom2 L_dom30 L_dom31 L_dom36.
Import ListNotations.
Open Scope Z_scope.
Open Scope dom_scope.
Open Scope list_scope.

(** *** Elements and comments *)

(** the element for a token: its name, and the attributes that stand in it *)
Definition Element_of (g : stag) (ns : Z) (x : info) : Prop :=
  exists t, (if g_atom g then t = g_id g else g_text g <> [] /\ t = tname_of (g_text g)) /\
    x = IElement ns t (map (fun a => Attr (ta_ns a) (ta_prefix a) (ta_name a) (ta_value a)) (filter (fun a => negb (ta_omitted a)) (g_attrs g))).
Lemma element_for_of : forall g ns x, element_for g ns = Val x -> Element_of g ns x.
Proof.
  intros g ns x H. unfold element_for in H. unfold Element_of. destruct (g_atom g).
  - injection H as <-. eauto.
  - destruct (g_text g) as [|c l]; [discriminate|]. injection H as <-. eexists. split; [split; [discriminate|reflexivity]|reflexivity].
Qed.
(** every place that is asked for is in a node of the tree *)
Definition In_tree (s : st) : Prop :=
  Forall (fun e => (en_node e < List.length (s_dom s))%nat) (s_stack s) /\
  (forall i, (i < List.length (s_dom s))%nat -> (parent_of (s_dom s) i < List.length (s_dom s))%nat).
Lemma in_tree_place : forall s e r p, In_tree s -> s_stack s = e :: r -> place_for (en_node e) s = Val p -> (fst p < List.length (s_dom s))%nat.
Proof.
  intros s e r p [A B] Z H.
  assert (N : forall f, In f (s_stack s) -> (en_node f < List.length (s_dom s))%nat) by (intros f F; rewrite Forall_forall in A; now apply A).
  assert (T : forall k f, nth_error (s_stack s) k = Some f -> (en_node f < List.length (s_dom s))%nat) by (intros k f F; apply N; eapply nth_error_In; exact F).
  unfold place_for in H. destruct (s_foster s && _); [|injection H as <-; apply N; rewrite Z; now left].
  destruct (index_of (is_html T_table (s_dom s)) (s_stack s)) as [k|] eqn:K.
  - apply index_last in K. destruct K as (f & K & _). rewrite K in H.
    destruct (match index_of _ _ with Some j => _ | None => _ end) as [g|] eqn:G.
    + injection H as <-. cbn [fst at_end]. destruct (index_of (is_html T_template (s_dom s)) (s_stack s)) as [j|]; [|discriminate].
      destruct (j <? k)%nat; [|discriminate]. now apply (T j).
    + destruct (parent_of (s_dom s) (en_node f) =? the_document)%nat.
      * destruct (nth_error (s_stack s) (S k)) as [h|] eqn:Q; [|discriminate]. injection H as <-. now apply (T (S k)).
      * injection H as <-. apply B. now apply (T k).
  - destruct (front s) as [i| |] eqn:R; try discriminate. injection H as <-. apply front_last in R. destruct R as (q & g & R & <-).
    apply N. rewrite R. apply in_or_app. right. now left.
Qed.
Lemma element_put : forall g ns s s1 i, In_tree s -> insert_foreign g ns s = Val (s1, i) ->
  exists e r p x d1, s_stack s = e :: r /\ place_for (en_node e) s = Val p /\ Element_of g ns x /\ Put_at (s_dom s) p x d1 i /\
    s1 = set_stack (Entry g i :: s_stack s) (set_dom d1 s).
Proof.
  intros g ns s s1 i W H. unfold insert_foreign, cur in H. destruct (s_stack s) as [|e r] eqn:S; [discriminate|].
  destruct (place_for (en_node e) s) as [p| |] eqn:P; try discriminate. destruct (element_for g ns) as [x| |] eqn:X; try discriminate.
  destruct (insert (s_dom s) p x) as [[d1 n]| |] eqn:I; try discriminate. injection H as <- <-.
  exists e, r, p, x, d1. split; [reflexivity|]. split; [exact P|]. split; [now apply element_for_of|]. split; [|reflexivity].
  apply insert_put; [|exact I]. now apply (in_tree_place s e r p).
Qed.
Lemma comment_put : forall data s s1, In_tree s -> insert_comment data s = Val s1 ->
  exists e r p d1 i, s_stack s = e :: r /\ place_for (en_node e) s = Val p /\ Put_at (s_dom s) p (IComment data) d1 i /\ s1 = set_dom d1 s.
Proof.
  intros data s s1 W H. unfold insert_comment, cur in H. destruct (s_stack s) as [|e r] eqn:S; [discriminate|].
  destruct (place_for (en_node e) s) as [p| |] eqn:P; try discriminate. unfold insert_comment_at in H.
  destruct (insert (s_dom s) p (IComment data)) as [[d1 n]| |] eqn:I; try discriminate. injection H as <-.
  exists e, r, p, d1, n. split; [reflexivity|]. split; [exact P|]. split; [|reflexivity].
  apply insert_put; [|exact I]. now apply (in_tree_place s e r p).
Qed.

(** *** Characters *)

(** the text [t] stands right in front of the place *)
Definition Text_before (d : list cell) (p : place) (t : nat) (data : list Z) : Prop :=
  exists a b, Lies p d (a ++ [t]) b /\ c_info (cell_of d t) = IText data.
(** only the value of one node is another *)
Definition Only_info (d : list cell) (t : nat) (x : info) (d1 : list cell) : Prop :=
  List.length d1 = List.length d /\ c_info (cell_of d1 t) = x /\
  forall i, parent_of d1 i = parent_of d i /\ kids_of d1 i = kids_of d i /\ (i <> t -> c_info (cell_of d1 i) = c_info (cell_of d i)).

Lemma in_front_split : forall b l prev x, in_front b l prev = Some x ->
  exists a r, l = a ++ r /\ hd_error r = Some b /\ ~ In b a /\ x = match rev a with y :: _ => Some y | [] => prev end.
Proof.
  intros b l. induction l as [|y l IH]; intros prev x H; [discriminate|]. cbn in H. destruct (y =? b)%nat eqn:E.
  - apply PeanoNat.Nat.eqb_eq in E. subst y. injection H as <-. exists [], (b :: l). repeat split; auto.
  - destruct (IH _ _ H) as (a & r & -> & R & A & ->). exists (y :: a), r. repeat split; auto.
    + intros [C|C]; [subst; now rewrite PeanoNat.Nat.eqb_refl in E|auto].
    + cbn [rev]. destruct (rev a); reflexivity.
Qed.
Lemma rev_cons : forall {A} (a : list A) y l, rev a = y :: l -> a = rev l ++ [y].
Proof. intros A a y l H. rewrite <- (rev_involutive a), H. reflexivity. Qed.
Lemma before_place_lies : forall d p x, before_place d p = Some x ->
  exists a b, Lies p d a b /\ match x with Some t => exists a1, a = a1 ++ [t] | None => a = [] end.
Proof.
  intros d p x H. unfold before_place, Lies in *. destruct (snd p) as [b|].
  - apply in_front_split in H. destruct H as (a & r & K & R & N & ->). exists a, r. split; [auto|].
    destruct (rev a) as [|y l] eqn:E; [now apply (f_equal (@rev nat)) in E; rewrite rev_involutive in E|]. exists (rev l). now apply rev_cons.
  - injection H as <-. exists (kids_of d (fst p)), []. split; [rewrite app_nil_r; auto|].
    destruct (kids_of d (fst p)) as [|y l]; [reflexivity|]. exists (removelast (y :: l)). change (match l with [] => y | _ :: _ => last l 0%nat end) with (last (y :: l) 0%nat). apply app_removelast_last. discriminate.
Qed.
Lemma lies_once : forall p d a b a1 b1, Lies p d a b -> Lies p d a1 b1 -> a = a1.
Proof.
  intros p d a b a1 b1 [A B] [C D]. rewrite A in C. clear A. destruct (snd p) as [r|].
  - destruct B as [B1 B2], D as [D1 D2]. destruct b as [|x b]; [discriminate|]. injection B1 as ->. destruct b1 as [|y b1]; [discriminate|]. injection D1 as ->.
    revert a1 C D2. induction a as [|z a IH]; intros [|w a1] C D2; try reflexivity; injection C as E C.
    + exfalso. apply D2. left. congruence.
    + exfalso. apply B2. left. congruence.
    + subst w. f_equal. apply (IH (fun X => B2 (or_intror X))); [exact C|]. intro X. apply D2. now right.
  - subst. rewrite !app_nil_r in C. exact C.
Qed.
Lemma char_put : forall c s s1, In_tree s -> (forall i k, In k (kids_of (s_dom s) i) -> (k < List.length (s_dom s))%nat) ->
  insert_char c s = Val s1 ->
  exists e r p, s_stack s = e :: r /\ place_for (en_node e) s = Val p /\
    ((fst p = the_document /\ s1 = s) \/
     (fst p <> the_document /\ exists t data d1, Text_before (s_dom s) p t data /\ Only_info (s_dom s) t (IText (data ++ [c])) d1 /\ s1 = set_dom d1 s) \/
     (fst p <> the_document /\ (forall t data, ~ Text_before (s_dom s) p t data) /\ exists d1 i, Put_at (s_dom s) p (IText [c]) d1 i /\ s1 = set_dom d1 s)).
Proof.
  intros c s s1 W K H. unfold insert_char, cur in H. destruct (s_stack s) as [|e r] eqn:S; [discriminate|].
  destruct (place_for (en_node e) s) as [p| |] eqn:P; try discriminate. exists e, r, p. split; [reflexivity|]. split; [exact P|].
  assert (L : (fst p < List.length (s_dom s))%nat) by (now apply (in_tree_place s e r p)).
  destruct (fst p =? the_document)%nat eqn:D; [apply PeanoNat.Nat.eqb_eq in D; injection H as <-; auto|]. apply PeanoNat.Nat.eqb_neq in D. right.
  destruct (before_place (s_dom s) p) as [prev|] eqn:B; [|discriminate]. apply before_place_lies in B. destruct B as (a & b & B & X).
  assert (Q : forall y d2, match insert (s_dom s) p (IText [c]) with Val p0 => let (d, _) := p0 in Val (set_dom d s) | Bad => Bad | NoFuel => NoFuel end = Val s1 ->
    y = d2 :> nat -> exists d1 i, Put_at (s_dom s) p (IText [c]) d1 i /\ s1 = set_dom d1 s).
  { intros y d2 J _. destruct (insert (s_dom s) p (IText [c])) as [[d1 n]| |] eqn:I; try discriminate. injection J as <-. exists d1, n.
    split; [now apply insert_put|reflexivity]. }
  destruct prev as [t|].
  - destruct X as (a1 & ->). destruct (c_info (cell_of (s_dom s) t)) as [|ns n at_|x|x|n0 n1 n2] eqn:I.
    3: { left. split; [exact D|]. injection H as <-. eexists t, x, _. split; [exists a1, b; split; [exact B|exact I]|]. split; [|reflexivity].
         assert (T : (t < List.length (s_dom s))%nat). { apply (K (fst p)). destruct B as [B _]. rewrite B. apply in_or_app. left. apply in_or_app. right. now left. }
         unfold Only_info, parent_of, kids_of. rewrite change_length. split; [reflexivity|]. split.
         - rewrite cell_change, PeanoNat.Nat.eqb_refl. apply PeanoNat.Nat.ltb_lt in T. now rewrite T.
         - intro i. rewrite cell_change. destruct ((t =? i)%nat && _) eqn:E; [|repeat split; auto]. repeat split; auto.
           intro N. apply andb_prop in E. destruct E as [E _]. apply PeanoNat.Nat.eqb_eq in E. congruence. }
    all: right; split; [exact D|]; split; [|now apply (Q O O H)];
      intros u data (a2 & b2 & Y & Z); pose proof (lies_once _ _ _ _ _ _ B Y) as E; apply app_inj_tail in E; destruct E as [_ <-]; congruence.
  - subst a. right. split; [exact D|]. split; [|now apply (Q O O H)].
    intros u data (a2 & b2 & Y & Z). pose proof (lies_once _ _ _ _ _ _ B Y) as E. now destruct a2.
Qed.

(** *** The list of active formatting elements reopened *)

(** elements are inserted one after the other, for these tokens; [new] are the entries *)
Inductive Inserted : list stag -> st -> list entry -> st -> Prop :=
| Ins_nil : forall s, Inserted [] s [] s
| Ins_cons : forall g l s s1 i new s2, insert_el g s = Val (s1, i) -> Inserted l s1 new s2 -> Inserted (g :: l) s (Entry g i :: new) s2.
Lemma insert_el_keeps : forall g s s1 i, insert_el g s = Val (s1, i) -> s_stack s1 = Entry g i :: s_stack s /\ s_active s1 = s_active s.
Proof.
  intros g s s1 i H. unfold insert_el, insert_foreign in H. destruct (cur s) as [c| |]; try discriminate. destruct (place_for c s) as [p| |]; try discriminate.
  destruct (element_for g ns_HTML) as [x| |]; try discriminate. destruct (insert (s_dom s) p x) as [[d j]| |]; try discriminate.
  injection H as <- <-. split; reflexivity.
Qed.
Lemma insert_el_active : forall g s l s1 i, insert_el g s = Val (s1, i) -> insert_el g (set_active l s) = Val (set_active l s1, i).
Proof.
  intros g s l s1 i H. unfold insert_el, insert_foreign in *. change (cur (set_active l s)) with (cur s). destruct (cur s) as [c| |]; try discriminate.
  change (place_for c (set_active l s)) with (place_for c s). destruct (place_for c s) as [p| |]; try discriminate.
  destruct (element_for g ns_HTML) as [x| |]; try discriminate. change (s_dom (set_active l s)) with (s_dom s).
  destruct (insert (s_dom s) p x) as [[d j]| |]; try discriminate. injection H as <- <-. reflexivity.
Qed.
Lemma reopen_inserted : forall l done s s1, reopen l done s = Val s1 ->
  exists new s2, Inserted (map en_tag l) s new s2 /\ s1 = set_active (map Some (rev new) ++ done) s2.
Proof.
  induction l as [|e l IH]; intros done s s1 H; cbn [reopen] in H.
  - injection H as <-. exists [], s. split; [constructor|reflexivity].
  - destruct (insert_el (en_tag e) s) as [[s2 i]| |] eqn:E; try discriminate. apply IH in H. destruct H as (new & s3 & A & ->).
    exists (Entry (en_tag e) i :: new), s3. split; [econstructor; eauto|]. cbn [rev]. rewrite map_app. cbn [map]. now rewrite <- app_assoc.
Qed.
Lemma to_open_split : forall s l a b, to_open s l = (a, b) ->
  l = map Some a ++ b /\ (forall e, In e a -> on_stack (en_node e) s = false) /\
  match b with [] => True | None :: _ => True | Some e :: _ => on_stack (en_node e) s = true end.
Proof.
  intros s l. induction l as [|[e|] l IH]; intros a b H; cbn in H.
  - injection H as <- <-. repeat split. intros e [].
  - destruct (on_stack (en_node e) s) eqn:E.
    + injection H as <- <-. repeat split; [intros x []|exact E].
    + destruct (to_open s l) as [a1 b1]. injection H as <- <-. destruct (IH a1 b1 eq_refl) as (A & B & C). repeat split; [cbn; now rewrite A| |exact C].
      intros x [<-|X]; auto.
  - injection H as <- <-. repeat split. intros x [].
Qed.
Lemma inserted_stack : forall l s new s1, Inserted l s new s1 -> s_stack s1 = rev new ++ s_stack s /\ map en_tag new = l.
Proof.
  intros l s new s1 H. induction H as [|g l s s1 i new s2 H _ [IH1 IH2]]; [split; reflexivity|]. apply insert_el_keeps in H. destruct H as [H _].
  rewrite IH1, H. cbn [rev map en_tag]. rewrite <- app_assoc. split; [reflexivity|]. now rewrite IH2.
Qed.
Lemma set_active_same : forall s, set_active (s_active s) s = s.
Proof. intros []. reflexivity. Qed.
Lemma reconstruct_std : forall s s1, reconstruct s = Val s1 ->
  exists closed rest new s2,
    s_active s = map Some (rev closed) ++ rest /\
    (forall e, In e closed -> on_stack (en_node e) s = false) /\
    match rest with [] => True | None :: _ => True | Some e :: _ => on_stack (en_node e) s = true end /\
    Inserted (map en_tag closed) s new s2 /\ s1 = set_active (map Some (rev new) ++ rest) s2 /\
    s_stack s1 = rev new ++ s_stack s /\ map en_tag new = map en_tag closed.
Proof.
  intros s s1 H. unfold reconstruct in H. destruct (to_open s (s_active s)) as [a b] eqn:E. apply to_open_split in E. destruct E as (A & B & C).
  assert (R : (exists new s2, Inserted (map en_tag (rev a)) s new s2 /\ s1 = set_active (map Some (rev new) ++ b) s2)).
  { destruct a as [|e a]; [|now apply reopen_inserted]. injection H as <-. exists [], s. split; [constructor|]. cbn in A |- *. rewrite <- A. now rewrite set_active_same. }
  destruct R as (new & s2 & R & ->). exists (rev a), b, new, s2. rewrite rev_involutive. split; [exact A|].
  split; [intros e X; apply B; now apply in_rev|]. split; [exact C|]. split; [exact R|]. split; [reflexivity|].
  apply inserted_stack in R. cbn [s_stack set_active]. exact R.
Qed.

(** *** Attributes added to an element *)

Definition key (a : attr) : Z * list Z * list Z := (at_ns a, at_prefix a, at_local a).
Definition attr_of (a : tattr) : attr := Attr (ta_ns a) (ta_prefix a) (ta_name a) (ta_value a).
Lemma same_str_eq : forall a b, same_str a b = true <-> a = b.
Proof.
  induction a as [|x a IH]; intros [|y b]; cbn; try (split; [discriminate|discriminate]); [tauto|].
  rewrite andb_true_iff, Z.eqb_eq, IH. split; [intros [-> ->]; reflexivity|intro H; injection H as -> ->; auto].
Qed.
Lemma same_attr_key : forall a b, same_attr a b = true <-> key a = key b.
Proof.
  intros a b. unfold same_attr, key. rewrite !andb_true_iff, Z.eqb_eq, !same_str_eq. split; [intros [[-> ->] ->]; reflexivity|].
  intro H. injection H as -> -> ->. auto.
Qed.
Lemma add_attrs_std : forall g l, exists added,
  add_attrs g l = l ++ added /\
  (forall x, In x added -> ~ In (key x) (map key l) /\ exists a, In a (g_attrs g) /\ ta_omitted a = false /\ x = attr_of a) /\
  (forall a, In a (g_attrs g) -> ta_omitted a = false -> In (key (attr_of a)) (map key (l ++ added))) /\
  NoDup (map key added).
Proof.
  intros g l. unfold add_attrs. generalize (g_attrs g). intro t.
  assert (G : forall t l, exists added,
    fold_left (fun l a => if ta_omitted a then l else let x := Attr (ta_ns a) (ta_prefix a) (ta_name a) (ta_value a) in if existsb (same_attr x) l then l else l ++ [x]) t l = l ++ added /\
    (forall x, In x added -> ~ In (key x) (map key l) /\ exists a, In a t /\ ta_omitted a = false /\ x = attr_of a) /\
    (forall a, In a t -> ta_omitted a = false -> In (key (attr_of a)) (map key (l ++ added))) /\ NoDup (map key added)).
  { clear. intro t. induction t as [|a t IH]; intro l.
    - exists []. rewrite app_nil_r. cbn. repeat split; try tauto; constructor.
    - cbn [fold_left]. destruct (ta_omitted a) eqn:O.
      + destruct (IH l) as (ad & A & B & C & D). exists ad. split; [exact A|]. split; [|split; [|exact D]].
        * intros x X. destruct (B x X) as [B1 (y & Y & B2)]. split; [exact B1|]. exists y. split; [now right|exact B2].
        * intros x [<-|X] N; [congruence|auto].
      + cbv zeta. change (Attr (ta_ns a) (ta_prefix a) (ta_name a) (ta_value a)) with (attr_of a). destruct (existsb (same_attr (attr_of a)) l) eqn:E.
        * apply existsb_exists in E. destruct E as (z & Z1 & Z2). apply same_attr_key in Z2.
          destruct (IH l) as (ad & A & B & C & D). exists ad. split; [exact A|]. split; [|split; [|exact D]].
          -- intros x X. destruct (B x X) as [B1 (y & Y & B2)]. split; [exact B1|]. exists y. split; [now right|exact B2].
          -- intros x [<-|X] N; [|auto]. rewrite Z2, map_app. apply in_or_app. left. now apply in_map.
        * destruct (IH (l ++ [attr_of a])) as (ad & A & B & C & D). exists (attr_of a :: ad).
          assert (N : ~ In (key (attr_of a)) (map key l)).
          { intro X. apply in_map_iff in X. destruct X as (z & Z1 & Z2). assert (Y : existsb (same_attr (attr_of a)) l = true) by (apply existsb_exists; exists z; split; [exact Z2|now apply same_attr_key]). congruence. }
          rewrite <- app_assoc in A. cbn [app] in A. split; [exact A|]. split; [|split].
          -- intros x [<-|X]; [split; [exact N|exists a; split; [now left|auto]]|]. destruct (B x X) as [B1 (y & Y & B2)]. split.
             ++ intro Q. apply B1. rewrite map_app. apply in_or_app. now left.
             ++ exists y. split; [now right|exact B2].
          -- intros x [<-|X] M; [rewrite map_app; apply in_or_app; right; now left|]. specialize (C x X M). rewrite <- app_assoc in C. exact C.
          -- cbn [map]. constructor; [|exact D]. intro X. apply in_map_iff in X. destruct X as (z & Z1 & Z2). destruct (B z Z2) as [B1 _].
             apply B1. rewrite Z1, map_app. apply in_or_app. right. now left. }
  apply G.
Qed.
