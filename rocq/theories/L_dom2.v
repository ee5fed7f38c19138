(** How a forest lies in the cells: the nodes in the order of the document behind each other. *)
From Coq Require Import ZArith List Bool String Lia.
From Verif Require Import M_infra M_encoding M_labels M_html M_html_serialize M_dom_names M_dom M_dom2 L_html_serialize L_dom.
Import ListNotations.
Open Scope Z_scope.
Open Scope list_scope.

(** *** Changing a cell *)

Lemma change_length : forall d i f, List.length (change d i f) = List.length d.
Proof. induction d as [|c d IH]; intros [|i] f; cbn; try reflexivity. now rewrite IH. Qed.
Lemma change_app : forall d i f x, (i < List.length d)%nat -> change (d ++ x) i f = change d i f ++ x.
Proof.
  induction d as [|c d IH]; intros [|i] f x H; cbn in *; try lia; [reflexivity|]. rewrite IH; [reflexivity|lia].
Qed.
Lemma change_behind : forall d i f x, change (d ++ x) (List.length d + i) f = d ++ change x i f.
Proof. induction d as [|c d IH]; intros i f x; cbn; [reflexivity|]. now rewrite IH. Qed.
Lemma change_at : forall d f x, change (d ++ x) (List.length d) f = d ++ change x 0 f.
Proof. intros. rewrite <- (PeanoNat.Nat.add_0_r (List.length d)). apply change_behind. Qed.
Lemma change_change : forall d i f g, change (change d i f) i g = change d i (fun c => g (f c)).
Proof. induction d as [|c d IH]; intros [|i] f g; cbn; try reflexivity. now rewrite IH. Qed.
Lemma change_ext : forall d i f g, (forall c, f c = g c) -> change d i f = change d i g.
Proof. induction d as [|c d IH]; intros [|i] f g H; cbn; try reflexivity; [now rewrite H|]. now rewrite (IH i f g H). Qed.
Lemma cell_change : forall d i j f, cell_of (change d i f) j = if (i =? j)%nat && (j <? List.length d)%nat then f (cell_of d j) else cell_of d j.
Proof.
  unfold cell_of. induction d as [|c d IH]; intros [|i] [|j] f; cbn [change nth]; try reflexivity.
  - now rewrite andb_false_r.
  - rewrite IH. reflexivity.
Qed.
Lemma cell_app1 : forall d x j, (j < List.length d)%nat -> cell_of (d ++ x) j = cell_of d j.
Proof. intros. unfold cell_of. now rewrite app_nth1. Qed.
Lemma cell_app2 : forall d x j, cell_of (d ++ x) (List.length d + j) = cell_of x j.
Proof. intros. unfold cell_of. rewrite app_nth2 by lia. f_equal. lia. Qed.

(** *** Forests as cells *)

Fixpoint ids (base : nat) (l : list node) : list nat :=
  match l with [] => [] | n :: r => base :: ids (base + size n) r end.
Definition lays (lay : nat -> nat -> node -> list cell) : nat -> nat -> list node -> list cell :=
  fix go base parent l := match l with [] => [] | n :: r => lay base parent n ++ go (base + size n)%nat parent r end.
Fixpoint lay (base parent : nat) (n : node) {struct n} : list cell :=
  match n with
  | NElement ns _ l attrs kids =>
      Cell (IElement ns (tname_of l) attrs) parent (ids (S base) kids) :: lays lay (S base) base kids
  | NText d => [Cell (IText d) parent []]
  | NComment d => [Cell (IComment d) parent []]
  | NDoctype n => [Cell (IDoctype n [] []) parent []]
  | _ => [Cell IDocument parent []]
  end.
Definition row (base parent : nat) (l : list node) : list cell := lays lay base parent l.
Definition add_kids (k : list nat) (c : cell) : cell := set_kids (c_kids c ++ k) c.
(** the cells with a forest put at the end of node [c] *)
Definition grow (d : list cell) (c : nat) (l : list node) : list cell :=
  change d c (add_kids (ids (List.length d) l)) ++ row (List.length d) c l.

Lemma ids_app : forall a b base, ids base (a ++ b) = ids base a ++ ids (base + sizes a) b.
Proof.
  induction a as [|n a IH]; intros b base; cbn [app ids].
  - unfold sizes. cbn. now rewrite PeanoNat.Nat.add_0_r.
  - rewrite IH. unfold sizes. cbn [map list_sum fold_right]. cbn. do 3 f_equal. unfold list_sum. lia.
Qed.
Lemma row_app : forall a b base p, row base p (a ++ b) = row base p a ++ row (base + sizes a) p b.
Proof.
  induction a as [|n a IH]; intros b base p; unfold row in *; cbn [app lays].
  - unfold sizes. cbn. now rewrite PeanoNat.Nat.add_0_r.
  - rewrite IH, app_assoc. do 2 f_equal. unfold sizes. cbn. unfold list_sum. lia.
Qed.
Lemma lay_length : forall n base p, List.length (lay base p n) = size n.
Proof.
  apply (node_ind' (fun n => forall base p, List.length (lay base p n) = size n)); try reflexivity.
  intros ns p l a c F base q. rewrite size_element. cbn [lay List.length]. f_equal.
  revert F. generalize (S base). intros b F. revert b. induction F as [|n c H F IH]; intro b; [reflexivity|].
  cbn [lays]. rewrite app_length, H, IH. unfold sizes. cbn. reflexivity.
Qed.
Lemma row_length : forall l base p, List.length (row base p l) = sizes l.
Proof.
  induction l as [|n l IH]; intros base p; [reflexivity|]. unfold row in *. cbn [lays]. rewrite app_length, lay_length, IH. reflexivity.
Qed.
Lemma row_one : forall n base p, row base p [n] = lay base p n.
Proof. intros. unfold row. cbn. apply app_nil_r. Qed.
Lemma sizes_one : forall n, sizes [n] = size n.
Proof. intro. unfold sizes. cbn. lia. Qed.

Lemma grow_nil : forall d c, grow d c [] = d.
Proof.
  intros. unfold grow, row. cbn. rewrite app_nil_r. rewrite (change_ext d c _ (fun x => x)).
  - revert c. induction d as [|x d IH]; intros [|c]; cbn; try reflexivity. now rewrite IH.
  - intros [i p k]. unfold add_kids, set_kids. cbn. now rewrite app_nil_r.
Qed.
Lemma grow_length : forall d c l, List.length (grow d c l) = (List.length d + sizes l)%nat.
Proof. intros. unfold grow. now rewrite app_length, change_length, row_length. Qed.
Lemma grow_app : forall d c a b, (c < List.length d)%nat -> grow d c (a ++ b) = grow (grow d c a) c b.
Proof.
  intros d c a b H. unfold grow at 1 2. rewrite grow_length. unfold grow. rewrite ids_app, row_app, app_assoc. f_equal.
  rewrite change_app by now rewrite change_length. f_equal. rewrite change_change. apply change_ext.
  intros [i p k]. unfold add_kids, set_kids. cbn. now rewrite app_assoc.
Qed.
(** an element put at the end, with its children put at its end *)
Lemma grow_element : forall d c ns p l attrs kids, (c < List.length d)%nat ->
  grow (change d c (add_kids [List.length d]) ++ [Cell (IElement ns (tname_of l) attrs) c []]) (List.length d) kids =
  grow d c [NElement ns p l attrs kids].
Proof.
  intros d c ns p l attrs kids H. unfold grow. cbn [ids]. rewrite row_one. cbn [lay].
  rewrite app_length, change_length. cbn [List.length]. rewrite PeanoNat.Nat.add_1_r.
  set (d1 := change d c (add_kids [List.length d])). replace (List.length d) with (List.length d1) at 1 by apply change_length.
  rewrite change_at. rewrite <- app_assoc. reflexivity.
Qed.
Lemma grow_leaf : forall d c n x, lay (List.length d) c n = [Cell x c []] ->
  grow d c [n] = change d c (add_kids [List.length d]) ++ [Cell x c []].
Proof. intros d c n x E. unfold grow. rewrite row_one, E. reflexivity. Qed.

(** nodes that were there stay what they were *)
Lemma info_grow : forall d c l i, (i < List.length d)%nat -> c_info (cell_of (grow d c l) i) = c_info (cell_of d i).
Proof.
  intros d c l i H. unfold grow. rewrite cell_app1 by now rewrite change_length. rewrite cell_change.
  destruct ((c =? i)%nat && (i <? List.length d)%nat); reflexivity.
Qed.
Lemma name_grow : forall d c l i, (i < List.length d)%nat -> name_of (grow d c l) i = name_of d i.
Proof. intros. unfold name_of. now rewrite info_grow. Qed.
Lemma ns_grow : forall d c l i, (i < List.length d)%nat -> ns_of (grow d c l) i = ns_of d i.
Proof. intros. unfold ns_of. now rewrite info_grow. Qed.

(** *** Inserting at the end *)

Lemma insert_end : forall d c x,
  insert d (at_end c) x = Val (change d c (add_kids [List.length d]) ++ [Cell x c []], List.length d).
Proof.
  intros. unfold insert, at_end. cbn [fst snd put]. do 3 f_equal.
  unfold kids_of, cell_of. revert c. induction d as [|y d IH]; intros [|c]; cbn [change nth]; try reflexivity.
  cbn [List.length]. f_equal. specialize (IH c). 
  assert (G : forall (e : list cell) i k, change e i (set_kids (c_kids (nth i e no_cell) ++ [k])) = change e i (add_kids [k])).
  { clear. induction e as [|z e IH]; intros [|i] k; cbn; try reflexivity. now rewrite IH. }
  apply G.
Qed.

(** *** The names *)

Lemma find_tnames : forall s t n, find (fun p => same_str s (lit (snd p))) tnames = Some (t, n) -> s = lit n /\ In (t, n) tnames.
Proof. intros s t n E. apply find_some in E. destruct E as [I E]. cbn [snd] in E. apply same_str_eq in E. now split. Qed.
Lemma tnames_string : forallb (fun p => same_str (tstring (fst p)) (lit (snd p))) tnames = true.
Proof. vm_compute. reflexivity. Qed.
Lemma tstring_of : forall s, tstring (tname_of s) = s.
Proof.
  intro s. unfold tname_of. destruct (find _ tnames) as [[t n]|] eqn:E; [|reflexivity].
  apply find_tnames in E. destruct E as [-> I]. pose proof tnames_string as H. rewrite forallb_forall in H. apply H in I.
  cbn [fst snd] in I. now apply same_str_eq in I.
Qed.

(** *** The tree in the cells *)

(** what the parser can make *)
Inductive Plain : node -> Prop :=
| Plain_element : forall ns l attrs kids, Forall Plain kids -> Plain (NElement ns [] l attrs kids)
| Plain_text : forall d, Plain (NText d)
| Plain_comment : forall d, Plain (NComment d)
| Plain_doctype : forall n, Plain (NDoctype n).

Definition segment (d : list cell) (base : nat) (x : list cell) : Prop :=
  exists a b, d = a ++ x ++ b /\ List.length a = base.
Lemma segment_app : forall d base x y, segment d base (x ++ y) -> segment d base x /\ segment d (base + List.length x) y.
Proof.
  intros d base x y (a & b & E & L). split.
  - exists a, (y ++ b). rewrite E, <- app_assoc. now split.
  - exists (a ++ x), b. rewrite E, app_length, <- !app_assoc. split; [reflexivity|lia].
Qed.
Lemma segment_cell : forall d base c x, segment d base (c :: x) -> cell_of d base = c.
Proof.
  intros d base c x (a & b & -> & <-). rewrite <- (PeanoNat.Nat.add_0_r (List.length a)). rewrite cell_app2. reflexivity.
Qed.
Lemma tree_of_row : forall f d, (forall n base p, Plain n -> segment d base (lay base p n) -> (size n <= f)%nat -> tree_of f d base = n) ->
  forall l base p, Forall Plain l -> segment d base (row base p l) -> (sizes l <= f)%nat -> map (tree_of f d) (ids base l) = l.
Proof.
  intros f d H. induction l as [|n l IH]; intros base p P S L; [reflexivity|]. inversion P as [|? ? P1 P2]; subst.
  unfold row in S. cbn [lays] in S. apply segment_app in S. destruct S as [S1 S2]. rewrite lay_length in S2.
  unfold sizes in L. cbn in L. cbn [ids map]. rewrite (H n base p P1 S1) by lia. rewrite (IH (base + size n)%nat p P2 S2); [reflexivity|].
  unfold sizes, list_sum. lia.
Qed.
Lemma tree_of_lay : forall f d n base p, Plain n -> segment d base (lay base p n) -> (size n <= f)%nat -> tree_of f d base = n.
Proof.
  induction f as [|f IH]; intros d n base p P S L.
  - destruct n; cbn in L; lia.
  - inversion P; subst; cbn [lay] in S; try (cbn [tree_of]; rewrite (segment_cell _ _ _ _ S); reflexivity).
    rewrite size_element in L. change (Cell (IElement ns (tname_of l) attrs) p (ids (Datatypes.S base) kids) :: lays lay (Datatypes.S base) base kids) with
      ([Cell (IElement ns (tname_of l) attrs) p (ids (Datatypes.S base) kids)] ++ row (Datatypes.S base) base kids) in S.
    apply segment_app in S. destruct S as [S1 S2]. cbn [List.length] in S2. rewrite PeanoNat.Nat.add_1_r in S2.
    cbn [tree_of]. unfold kids_of. rewrite (segment_cell _ _ _ _ S1). cbn [c_info c_kids].
    rewrite (tree_of_row f d (fun n b q => IH d n b q) kids (Datatypes.S base) base H S2) by lia. now rewrite tstring_of.
Qed.
Lemma document_grow : forall s l, Forall Plain l -> s_dom s = grow tree_init the_document l -> document s = NDocument l.
Proof.
  intros s l P E. unfold document. rewrite E, grow_length. cbn [List.length tree_init Nat.add]. cbn [tree_of].
  assert (S : segment (grow tree_init the_document l) 2 (row 2 the_document l)).
  { exists (change tree_init the_document (add_kids (ids 2 l))), []. rewrite app_nil_r. split; [reflexivity|apply change_length]. }
  unfold kids_of. assert (C : cell_of (grow tree_init the_document l) the_document = Cell IDocument the_document (ids 2 l)).
  { unfold grow. rewrite cell_app1 by (rewrite change_length; cbn; unfold the_document; lia). reflexivity. }
  rewrite C. cbn [c_info c_kids]. f_equal.
  refine (tree_of_row (Datatypes.S (sizes l)) _ (fun n b q => tree_of_lay _ _ n b q) l 2%nat the_document P S _). lia.
Qed.
