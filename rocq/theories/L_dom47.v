(** The attributes of an element are told apart by namespace, prefix and local name. *)
From Coq Require Import ZArith List Bool String Lia.
From Verif Require Import M_infra M_encoding M_labels M_html M_html_ncr M_html_serialize M_dom_names M_dom M_dom2 L_dom L_dom2 L_dom37 L_dom41.
From Verif Require L_dom45 L_dom46.
Import ListNotations.
Open Scope Z_scope.
Open Scope list_scope.

(** the names of the attributes that are kept *)
Definition kept_attrs (l : list tattr) : list tattr := filter (fun a => negb (ta_omitted a)) l.
Definition kept_names (l : list tattr) : list (list Z) := map ta_name (kept_attrs l).
Definition lower_case (n : list Z) : Prop := map cp_lower n = n.
(** after the names have been adjusted *)
Definition separate (l : list tattr) : Prop := NoDup (kept_names l) /\ Forall (fun a => ta_ns a = 0) l.
(** as they come from the tokeniser *)
Definition arriving (l : list tattr) : Prop := separate l /\ Forall lower_case (kept_names l).
Definition distinct (l : list attr) : Prop := NoDup (map key l).
Definition sent (l : list attribute) : Prop :=
  NoDup (map a_name (filter (fun a => negb (a_omitted a)) l)) /\ Forall lower_case (map a_name (filter (fun a => negb (a_omitted a)) l)).

Lemma nodup_map : forall {A B C} (f : A -> B) (g : A -> C) l, (forall x y, In x l -> In y l -> g x = g y -> f x = f y) ->
  NoDup (map f l) -> NoDup (map g l).
Proof.
  intros A B C f g l. induction l as [|x l IH]; intros I N; [constructor|]. cbn [map] in *. inversion N as [|? ? N1 N2]; subst. constructor.
  - intro X. apply N1. apply in_map_iff in X. destruct X as (y & Y1 & Y2). apply in_map_iff. exists y. split; [|exact Y2].
    apply I; [now right|now left|exact Y1].
  - apply IH; [|exact N2]. intros y z Y Z. apply I; now right.
Qed.
Lemma kept_in : forall a l, In a (kept_attrs l) -> In a l /\ ta_omitted a = false.
Proof. intros a l H. apply filter_In in H. now rewrite negb_true_iff in H. Qed.

Lemma separate_distinct : forall l, separate l -> distinct (map (fun a => Attr (ta_ns a) (ta_prefix a) (ta_name a) (ta_value a)) (filter (fun a => negb (ta_omitted a)) l)).
Proof. intros l [N _]. unfold distinct. rewrite map_map. apply (nodup_map ta_name); [|exact N]. intros x y _ _ E. now injection E. Qed.

Lemma add_distinct : forall g l, distinct l -> distinct (add_attrs g l).
Proof.
  intros g l D. destruct (add_attrs_std g l) as (added & -> & B & _ & N). unfold distinct in *. rewrite map_app.
  assert (X : forall k, In k (map key added) -> ~ In k (map key l)).
  { intros k K. apply in_map_iff in K. destruct K as (x & <- & X). apply (B x X). }
  clear B. induction (map key l) as [|k r IH]; cbn [app]; [exact N|]. inversion D as [|? ? D1 D2]; subst. constructor.
  - intro I. apply in_app_or in I. destruct I as [I|I]; [now apply D1|]. apply (X k I). now left.
  - apply IH; [exact D2|]. intros k' K I. apply (X k' K). now right.
Qed.

(** renaming *)
Lemma kept_rename : forall f l, (forall a, ta_omitted (f a) = ta_omitted a) -> kept_attrs (map f l) = map f (kept_attrs l).
Proof.
  intros f l O. unfold kept_attrs. induction l as [|a l IH]; [reflexivity|]. cbn [map filter]. rewrite O. destruct (ta_omitted a); cbn [negb map]; now rewrite IH.
Qed.
Lemma renamed_separate : forall f l, (forall a, ta_omitted (f a) = ta_omitted a) -> (forall a, ta_ns (f a) = ta_ns a) ->
  (forall a, lower_case (ta_name a) -> map cp_lower (ta_name (f a)) = ta_name a) -> arriving l -> separate (map f l).
Proof.
  intros f l O S L [[N Z] C]. split.
  - unfold kept_names in *. rewrite kept_rename by exact O. rewrite map_map. apply (nodup_map ta_name); [|exact N]. intros x y X Y E.
    rewrite Forall_forall in C. assert (C' : forall z, In z (kept_attrs l) -> lower_case (ta_name z)) by (intros z I; apply C; now apply in_map).
    rewrite <- (L x (C' x X)), <- (L y (C' y Y)). now rewrite E.
  - apply Forall_map. eapply Forall_impl; [|exact Z]. intros a A. cbv beta. now rewrite S.
Qed.
Lemma mathml_separate : forall g, arriving (g_attrs g) -> separate (g_attrs (adjust_mathml g)).
Proof.
  intros g. unfold adjust_mathml, rename. cbn [g_attrs]. apply renamed_separate.
  - intro a. now destruct (same_str _ _).
  - intro a. now destruct (same_str _ _).
  - intros a A. destruct (same_str _ _) eqn:E; [|exact A]. apply same_str_eq in E. rewrite E. vm_compute. reflexivity.
Qed.
Lemma svg_separate : forall g, arriving (g_attrs g) -> separate (g_attrs (adjust_svg g)).
Proof.
  intros g. unfold adjust_svg, rename. cbn [g_attrs]. apply renamed_separate; [reflexivity|reflexivity|].
  intros a A. cbn [ta_name renamed]. unfold cased. destruct (find _ svg_attributes) as [x|] eqn:F; [|exact A].
  apply find_some in F. destruct F as [_ F]. apply same_str_eq in F. now rewrite F.
Qed.

(** foreign attributes: the names in the table have different replacements, none of them without a namespace *)
Definition foreign_key (p : string * (Z * string * string)) : Z * list Z * list Z := let '(_, (ns, q, n)) := p in (ns, lit q, lit n).
Definition key_eqb (a b : Z * list Z * list Z) : bool :=
  let '(x, y, z) := a in let '(u, v, w) := b in (x =? u) && same_str y v && same_str z w.
Lemma key_eqb_refl : forall k, key_eqb k k = true.
Proof. intros [[x y] z]. cbn. rewrite Z.eqb_refl. assert (forall l, same_str l l = true) by (intro; now apply same_str_eq). now rewrite !H. Qed.
Lemma foreign_keys : forallb (fun p => negb (fst (fst (foreign_key p)) =? 0) &&
  forallb (fun q => negb (key_eqb (foreign_key p) (foreign_key q)) || same_str (lit (fst p)) (lit (fst q))) foreign_attributes) foreign_attributes = true.
Proof. vm_compute. reflexivity. Qed.
Lemma foreign_distinct : forall g, separate (g_attrs g) ->
  distinct (map (fun a => Attr (ta_ns a) (ta_prefix a) (ta_name a) (ta_value a)) (filter (fun a => negb (ta_omitted a)) (g_attrs (adjust_foreign g)))) /\
  Forall (fun _ => True) (map ta_prefix (g_attrs (adjust_foreign g))).
Proof.
  intros g [N Z]. split; [|now apply Forall_forall]. unfold adjust_foreign, rename. cbn [g_attrs].
  set (f := fun a : tattr => match find (fun p => same_str (ta_name a) (lit (fst p))) foreign_attributes with
    | Some (_, (ns, p, n)) => TAttr ns (lit p) (lit n) (ta_value a) (ta_omitted a) | None => a end).
  change (filter (fun a => negb (ta_omitted a)) (map f (g_attrs g))) with (kept_attrs (map f (g_attrs g))). rewrite kept_rename.
  2:{ intro a. unfold f. destruct (find _ _) as [[? [[? ?] ?]]|]; reflexivity. }
  unfold distinct. rewrite !map_map. apply (nodup_map ta_name); [|exact N].
  rewrite Forall_forall in Z. pose proof foreign_keys as K. rewrite forallb_forall in K.
  assert (Q : forall a, In a (kept_attrs (g_attrs g)) -> let k := key (Attr (ta_ns (f a)) (ta_prefix (f a)) (ta_name (f a)) (ta_value (f a))) in
    (exists p, In p foreign_attributes /\ ta_name a = lit (fst p) /\ k = foreign_key p) \/ (fst (fst k) = 0 /\ snd k = ta_name a)).
  { intros a A. apply kept_in in A. destruct A as [A _]. cbv zeta. unfold f. destruct (find _ _) as [[n [[ns p] m]]|] eqn:F.
    - left. apply find_some in F. destruct F as [F1 F2]. apply same_str_eq in F2. eexists. split; [exact F1|]. split; [exact F2|reflexivity].
    - right. split; [exact (Z a A)|reflexivity]. }
  intros a b A B E. pose proof (Q a A) as QA. pose proof (Q b B) as QB. cbv zeta in QA, QB.
  destruct QA as [(p & P1 & P2 & P3)|[P1 P2]]; destruct QB as [(q & Q1 & Q2 & Q3)|[Q1 Q2]].
  - apply K in P1. apply andb_true_iff in P1. destruct P1 as [_ P1]. rewrite forallb_forall in P1. apply P1 in Q1.
    assert (X : foreign_key p = foreign_key q) by (rewrite <- P3, <- Q3; exact E). rewrite X, key_eqb_refl in Q1. cbn [negb orb] in Q1.
    apply same_str_eq in Q1. now rewrite P2, Q2.
  - apply K in P1. apply andb_true_iff in P1. destruct P1 as [P1 _]. apply negb_true_iff, Z.eqb_neq in P1. exfalso. apply P1. rewrite <- P3, <- Q1. now rewrite E.
  - apply K in Q1. apply andb_true_iff in Q1. destruct Q1 as [Q1 _]. apply negb_true_iff, Z.eqb_neq in Q1. exfalso. apply Q1. rewrite <- Q3, <- P1. now rewrite E.
  - rewrite <- P2, <- Q2. now rewrite E.
Qed.
Lemma fill_names : forall l slots, kept_names (fill slots l) = map a_name (filter (fun a => negb (a_omitted a)) l).
Proof.
  unfold kept_names, kept_attrs. induction l as [|a l IH]; intro slots; [reflexivity|]. cbn [fill filter ta_omitted]. destruct (a_omitted a); cbn [negb map ta_name]; now rewrite IH.
Qed.
Lemma fill_ns : forall l slots, Forall (fun a => ta_ns a = 0) (fill slots l).
Proof. induction l as [|a l IH]; intro slots; constructor; [reflexivity|apply IH]. Qed.
Lemma fill_arriving : forall slots l, sent l -> arriving (fill slots l).
Proof. intros slots l [S1 S2]. split; [split|]; rewrite ?fill_names; [exact S1|apply fill_ns|exact S2]. Qed.

Lemma built_distinct : forall listed fuel fragment l s, (forall g, In (TStart g) l -> sent (g_attributes g)) ->
  construct listed fuel (st_init fragment) l = Val s -> forall i ns t a, c_info (cell_of (s_dom s) i) = IElement ns t a -> distinct a.
Proof.
  intros listed fuel fragment l s F H i ns t a E.
  pose proof (L_dom46.keep_construct arriving distinct separate (fun _ => True) sent
    (fun l H => separate_distinct l (proj1 H)) (fun g l _ => add_distinct g l)
    (conj (conj (NoDup_nil _) (Forall_nil _)) (Forall_nil _)) (fun l H => proj1 H) (fun slots l _ => fill_arriving slots l)) as K.
  specialize (K mathml_separate svg_separate foreign_distinct listed fuel l (st_init fragment) (L_dom45.whole_init _ _ _ _)).
  rewrite H in K. assert (W : L_dom45.Whole arriving distinct (fun _ => True) s).
  { apply K. apply Forall_forall. intros [d|g|g|x|c|] T; cbn; auto. }
  pose proof (L_dom45.W_dom _ _ _ _ _ _ _ _ _ W) as A.
  destruct (Compare_dec.le_lt_dec (List.length (s_dom s)) i) as [L|L]; [unfold cell_of in E; rewrite nth_overflow in E by exact L; discriminate E|].
  apply (L_dom45.A_info _ _ A) in L. rewrite E in L. apply L.
Qed.
