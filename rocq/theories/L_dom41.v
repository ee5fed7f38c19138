(** The cells of tree construction as a tree, and the tree as a value. *)
From Coq Require Import ZArith List Bool String Lia Permutation.
From Verif Require Import M_infra M_encoding M_labels M_html M_html_ncr M_html_serialize M_dom_names M_dom M_dom2 L_dom L_dom2 L_dom21 L_dom37 L_dom39 L_dom40.
Import ListNotations.
Open Scope Z_scope.
Open Scope dom_scope.
Open Scope list_scope.

(** *** Spec *)

(** the names of the elements that have no content *)
Definition empty_elements : list string :=
  ["area"; "base"; "basefont"; "bgsound"; "br"; "col"; "embed"; "frame"; "hr"; "img"; "input"; "keygen"; "link"; "meta"; "param"; "source"; "track"; "wbr"]%string.
(** from a node up to one of the two documents, that of the page and that of nodes not yet in it *)
Inductive Up (d : list cell) : nat -> Prop :=
| Up_root : forall i, (i <= 1)%nat -> Up d i
| Up_step : forall i, (2 <= i)%nat -> Up d (c_parent (nth i d no_cell)) -> Up d i.
Definition inner_node (x : info) : Prop :=
  match x with
  | IDocument => True
  | IElement ns t _ => ~ (ns = ns_HTML /\ In (tstring t) (strings empty_elements))
  | _ => False
  end.
Record Forest (d : list cell) : Prop := MkForest {
  F_child : forall p k, In k (c_kids (nth p d no_cell)) -> (2 <= k < List.length d)%nat /\ c_parent (nth k d no_cell) = p;
  F_once : forall p, NoDup (c_kids (nth p d no_cell));
  F_up : forall i, (i < List.length d)%nat -> Up d i;
  F_inner : forall p, c_kids (nth p d no_cell) <> [] -> inner_node (c_info (nth p d no_cell)) }.
(** a node of the cells, and the value it stands for *)
Inductive Reads (d : list cell) : nat -> node -> Prop :=
| Re_document : forall i l, c_info (nth i d no_cell) = IDocument -> Reads_all d (c_kids (nth i d no_cell)) l -> Reads d i (NDocument l)
| Re_element : forall i ns t a l, c_info (nth i d no_cell) = IElement ns t a -> Reads_all d (c_kids (nth i d no_cell)) l ->
    Reads d i (NElement ns [] (tstring t) a l)
| Re_text : forall i x, c_info (nth i d no_cell) = IText x -> c_kids (nth i d no_cell) = [] -> Reads d i (NText x)
| Re_comment : forall i x, c_info (nth i d no_cell) = IComment x -> c_kids (nth i d no_cell) = [] -> Reads d i (NComment x)
| Re_doctype : forall i n p s, c_info (nth i d no_cell) = IDoctype n p s -> c_kids (nth i d no_cell) = [] -> Reads d i (NDoctype n)
with Reads_all (d : list cell) : list nat -> list node -> Prop :=
| Ra_nil : Reads_all d [] []
| Ra_cons : forall i is n ns, Reads d i n -> Reads_all d is ns -> Reads_all d (i :: is) (n :: ns).

(** *** Proofs *)

Lemma void_in : forall t, void t = true <-> In t void_names.
Proof.
  intro t. unfold void, among. rewrite existsb_exists. split.
  - intros (x & X1 & X2). apply teqb_eq in X2. now subst.
  - intro I. exists t. split; [exact I|]. now apply teqb_eq.
Qed.
Lemma void_strings : map tstring void_names = strings empty_elements.
Proof. vm_compute. reflexivity. Qed.
Lemma void_tstring : forall t, tname_of (tstring t) = t -> In (tstring t) (strings empty_elements) -> void t = true.
Proof.
  intros t E I. apply void_in. rewrite <- void_strings in I. apply in_map_iff in I. destruct I as (x & X1 & X2). rewrite <- E, <- X1.
  assert (F : forallb (fun y => teqb (tname_of (tstring y)) y) void_names = true) by (vm_compute; reflexivity).
  rewrite forallb_forall in F. specialize (F x X2). apply teqb_eq in F. now rewrite F.
Qed.
Section Arena.
Variable Pd : attr -> Prop.
Lemma depth_up : forall d k i, Depth d k i -> Up d i.
Proof. intros d k i H. induction H; [now constructor|now apply Up_step]. Qed.
Lemma host_inner : forall d i, Arena Pd d -> host d i -> inner_node (c_info (nth i d no_cell)).
Proof.
  intros d i A [H1 H2]. unfold cell_of in H2. pose proof (A_info Pd d A i H1) as O. unfold cell_of in O. destruct (c_info (nth i d no_cell)); cbn [inner_node info_ok] in *; auto.
  destruct O as [_ O]. intros [-> I]. specialize (H2 eq_refl). rewrite (void_tstring _ (O eq_refl) I) in H2. discriminate.
Qed.
Lemma arena_forest : forall d, Arena Pd d -> Forest d.
Proof.
  intros d A. constructor.
  - exact (A_kids Pd d A).
  - exact (A_once Pd d A).
  - intros i I. destruct (A_deep Pd d A i I) as [k K]. now apply depth_up in K.
  - intros p P. destruct (c_kids (nth p d no_cell)) as [|k l] eqn:K; [contradiction|]. apply host_inner; [exact A|].
    destruct (A_kids Pd d A p k) as [K1 K2]; [unfold kids_of, cell_of; rewrite K; now left|]. rewrite <- K2. apply (A_host Pd d A). lia.
Qed.
Lemma arena_reads : forall d, Arena Pd d -> forall f k i, (i < List.length d)%nat -> Depth d k i -> (List.length d <= f + k)%nat -> Reads d i (tree_of f d i).
Proof.
  intros d A f. induction f as [|f IH]; intros k i I D L.
  - apply (depth_short Pd d k i A I) in D. lia.
  - cbn [tree_of]. assert (R : Reads_all d (kids_of d i) (map (tree_of f d) (kids_of d i))).
    { assert (S : incl (kids_of d i) (kids_of d i)) by apply incl_refl. revert S. generalize (kids_of d i) at 1 3 4. induction l as [|j l IHl]; intro S; cbn [map]; constructor.
      - destruct (A_kids Pd d A i j) as [J1 J2]; [apply S; now left|]. apply (IH (Datatypes.S k)); [lia| |lia]. constructor; [lia|]. now rewrite J2.
      - apply IHl. intros x X. apply S. now right. }
    assert (N : forall x, c_info (nth i d no_cell) = x -> ~ inner_node x -> c_kids (nth i d no_cell) = []).
    { intros x X N. destruct (c_kids (nth i d no_cell)) eqn:K; [reflexivity|]. exfalso. apply N. rewrite <- X. apply (F_inner d (arena_forest d A)). rewrite K. discriminate. }
    unfold cell_of. destruct (c_info (nth i d no_cell)) eqn:C.
    + now constructor.
    + now constructor.
    + constructor; [exact C|]. now apply (N _ eq_refl).
    + constructor; [exact C|]. now apply (N _ eq_refl).
    + econstructor; [exact C|]. now apply (N _ eq_refl).
Qed.
Lemma arena_document : forall d, Arena Pd d -> Reads d the_document (tree_of (List.length d) d the_document).
Proof.
  intros d A. pose proof (proj1 (A_roots Pd d A)) as R. apply (arena_reads d A _ 0 the_document); [unfold the_document; lia|constructor; unfold the_document; lia|lia].
Qed.
End Arena.
Lemma reads_kids : forall d is l, Reads_all d is l -> forall c, In c l -> exists i, In i is /\ Reads d i c.
Proof.
  intros d is l H. induction H as [|i is n l R H IH]; intros c C; [contradiction|]. destruct C as [<-|C]; [exists i; split; [now left|exact R]|].
  destruct (IH c C) as (j & J & K). exists j. split; [now right|exact K].
Qed.
Lemma reads_child : forall d i n c, Reads d i n -> In c (children n) -> exists j, In j (c_kids (nth i d no_cell)) /\ Reads d j c.
Proof. intros d i n c R C. destruct R; cbn [children] in C; try contradiction; now apply (reads_kids d _ l). Qed.
Lemma reads_within : forall d i n m, Reads d i n -> Within n m -> exists j, Reads d j m.
Proof.
  intros d i n m R H. induction H as [|p c H (j & J) C]; [now exists i|]. destruct (reads_child d j p c J C) as (k & _ & K). now exists k.
Qed.
Lemma reads_all_nil : forall d is l, Reads_all d is l -> (is = [] <-> l = []).
Proof. intros d is l []; split; auto; discriminate. Qed.
Lemma empty_value : forall d i ns p n a l, Forest d -> Reads d i (NElement ns p n a l) -> ns = ns_HTML -> In n (strings empty_elements) -> l = [].
Proof.
  intros d i ns p n a l F R -> N. inversion R; subst. destruct l as [|c l]; [reflexivity|]. exfalso.
  match goal with H : Reads_all _ _ _ |- _ => apply reads_all_nil in H; destruct H as [Hn _] end.
  assert (K : c_kids (nth i d no_cell) <> []) by (intro K; apply Hn in K; discriminate). apply (F_inner d F) in K.
  match goal with H : c_info _ = _ |- _ => rewrite H in K end. cbn in K. tauto.
Qed.

(** *** Runs *)

Definition any_tattr (_ : tattr) : Prop := True.
Definition any_attr (_ : attr) : Prop := True.
Definition any_string (_ : list Z) : Prop := True.
Lemma all_true : forall {A} (l : list A), Forall (fun _ => True) l.
Proof. intros A l. now apply Forall_forall. Qed.
Lemma built_whole : forall listed fuel fragment l s, construct listed fuel (st_init fragment) l = Val s -> Whole any_tattr any_attr any_string s.
Proof.
  intros listed fuel fragment l s H.
  pose proof (keep_construct any_tattr any_attr any_string (fun _ => True) (fun _ _ => I) (fun _ _ _ _ => I) I (fun _ _ => all_true _) (fun _ _ => all_true _)
    (fun _ _ => conj (all_true _) (all_true _)) listed fuel l (st_init fragment) (whole_init _ _ _ _)) as K.
  rewrite H in K. apply K. apply Forall_forall. intros [] _; cbn; auto using all_true.
Qed.
Lemma built_forest : forall listed fuel fragment l s, construct listed fuel (st_init fragment) l = Val s -> Forest (s_dom s) /\ Reads (s_dom s) the_document (document s).
Proof.
  intros listed fuel fragment l s H. apply built_whole in H. pose proof (W_dom _ _ _ _ _ _ _ _ _ H) as A. split; [now apply arena_forest in A|].
  apply (arena_document _ _ A).
Qed.
Lemma parsed_built : forall listed ncr steps fuel text s, parse_text listed ncr steps fuel text = Val s -> exists l, construct listed fuel (st_init false) l = Val s.
Proof. intros listed ncr steps fuel text s H. unfold parse_text in H. destruct (tokenize _ _ _ _ _ _) as [l| |]; try discriminate. now exists l. Qed.
Lemma built_in_tree : forall listed fuel fragment l s, construct listed fuel (st_init fragment) l = Val s ->
  In_tree s /\ forall i k, In k (kids_of (s_dom s) i) -> (k < List.length (s_dom s))%nat.
Proof.
  intros listed fuel fragment l s H. apply built_whole in H. pose proof (W_dom _ _ _ _ _ _ _ _ _ H) as A. split.
  - split.
    + pose proof (W_stack _ _ _ _ _ _ _ _ _ H) as F. eapply Forall_impl; [|exact F]. intros e [[[E _] _] _]. exact E.
    + intros i I. apply (A_host _ _ A i I).
  - intros i k K. apply (A_kids _ _ A) in K. lia.
Qed.

(** *** Prefixes *)

(** the attributes that get a prefix in foreign elements *)
Definition prefixed : list string :=
  ["xlink:actuate"; "xlink:arcrole"; "xlink:href"; "xlink:role"; "xlink:show"; "xlink:title"; "xlink:type"; "xml:lang"; "xml:space"; "xmlns:xlink"]%string.
Definition no_prefixed (t : token) : Prop :=
  match t with TStart g => Forall (fun a => ~ In (a_name a) (strings prefixed)) (g_attributes g) | _ => True end.
Definition plain_tattr (a : tattr) : Prop := ta_prefix a = [] /\ ~ In (ta_name a) (strings prefixed).
Definition plain_attr (a : attr) : Prop := at_prefix a = [].
Definition no_prefix (l : list Z) : Prop := l = [].
Definition outside (l : list string) : bool := forallb (fun x => negb (existsb (same_str (lit x)) (strings prefixed))) l.
Lemma outside_in : forall l x, outside l = true -> In x l -> ~ In (lit x) (strings prefixed).
Proof.
  intros l x O I N. unfold outside in O. rewrite forallb_forall in O. apply O in I. apply negb_true_iff in I.
  assert (E : existsb (same_str (lit x)) (strings prefixed) = true) by (apply existsb_exists; exists (lit x); split; [exact N|now apply same_str_eq]). congruence.
Qed.
Lemma rename_all : forall (P Q : tattr -> Prop) f g, (forall a, P a -> Q (f a)) -> Forall P (g_attrs g) -> Forall Q (g_attrs (rename f g)).
Proof. intros P Q f g H F. unfold rename. cbn [g_attrs]. apply Forall_map. eapply Forall_impl; [|exact F]. exact H. Qed.
Lemma plain_mathml : forall g, Forall plain_tattr (g_attrs g) -> Forall plain_tattr (g_attrs (adjust_mathml g)).
Proof.
  intros g. apply rename_all. intros a [A1 A2]. destruct (same_str _ _); [|now split]. split; [exact A1|]. cbn [ta_name renamed].
  apply (outside_in ["definitionURL"%string]); [vm_compute; reflexivity|now left].
Qed.
Lemma plain_svg : forall g, Forall plain_tattr (g_attrs g) -> Forall plain_tattr (g_attrs (adjust_svg g)).
Proof.
  intros g. apply rename_all. intros a [A1 A2]. split; [exact A1|]. cbn [ta_name renamed]. unfold cased. destruct (find _ svg_attributes) as [x|] eqn:F; [|exact A2].
  apply find_some in F. destruct F as [F _]. apply (outside_in svg_attributes); [vm_compute; reflexivity|exact F].
Qed.
Lemma foreign_prefix : forallb (fun p => existsb (same_str (lit (fst p))) (strings prefixed) || same_str (lit (snd (fst (snd p)))) []) foreign_attributes = true.
Proof. vm_compute. reflexivity. Qed.
Lemma plain_foreign : forall g, Forall plain_tattr (g_attrs g) ->
  Forall plain_attr (map (fun a => Attr (ta_ns a) (ta_prefix a) (ta_name a) (ta_value a)) (g_attrs (adjust_foreign g))) /\
  Forall no_prefix (map ta_prefix (g_attrs (adjust_foreign g))).
Proof.
  intros g F. assert (Q : Forall (fun a => ta_prefix a = []) (g_attrs (adjust_foreign g))).
  { revert F. apply rename_all. intros a [A1 A2]. destruct (find _ foreign_attributes) as [[n [[ns p] m]]|] eqn:X; [|exact A1]. cbn [ta_prefix].
    apply find_some in X. destruct X as [X1 X2]. cbn [fst] in X2. apply same_str_eq in X2. pose proof foreign_prefix as Y. rewrite forallb_forall in Y. apply Y in X1. cbn [fst snd] in X1.
    apply orb_true_iff in X1. destruct X1 as [X1|X1]; [|now apply same_str_eq in X1]. exfalso. apply A2. rewrite X2. apply existsb_exists in X1. destruct X1 as (y & Y1 & Y2).
    apply same_str_eq in Y2. now rewrite Y2. }
  split; apply Forall_map; (eapply Forall_impl; [|exact Q]); auto.
Qed.
Lemma plain_whole : forall listed fuel fragment l s, Forall no_prefixed l -> construct listed fuel (st_init fragment) l = Val s -> Whole plain_tattr plain_attr no_prefix s.
Proof.
  intros listed fuel fragment l s F H.
  pose proof (keep_construct plain_tattr plain_attr no_prefix (fun a => ~ In (a_name a) (strings prefixed))) as K.
  specialize (K ltac:(intros a [A _]; exact A) ltac:(intros p a P A; split; assumption) eq_refl plain_mathml plain_svg plain_foreign listed fuel l (st_init fragment) (whole_init _ _ _ _)).
  rewrite H in K. apply K. exact F.
Qed.
Lemma plain_prefixes : forall listed fuel fragment l s ns p n attrs kids, Forall no_prefixed l -> construct listed fuel (st_init fragment) l = Val s ->
  Within (document s) (NElement ns p n attrs kids) -> Forall (fun a => at_prefix a = []) attrs.
Proof.
  intros listed fuel fragment l s ns p n attrs kids F H W. pose proof (built_forest _ _ _ _ _ H) as [Fo R]. destruct (reads_within _ _ _ _ R W) as [i Q]. inversion Q; subst.
  apply plain_whole in H; [|exact F]. pose proof (W_dom _ _ _ _ _ _ _ _ _ H) as A.
  destruct (Compare_dec.le_lt_dec (List.length (s_dom s)) i) as [L|L]; [match goal with E : c_info (nth i _ _) = _ |- _ => rewrite nth_overflow in E by exact L; discriminate E end|].
  apply (A_info _ _ A) in L. unfold cell_of in L. match goal with E : c_info (nth i _ _) = _ |- _ => rewrite E in L end. apply L.
Qed.
