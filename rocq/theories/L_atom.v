(** Atoms of HTML: the tables agree, so that atoms compare as the strings they stand for; attributes are found by their names. *)
From Coq Require Import ZArith List Bool String Lia.
From Verif Require Import M_infra M_encoding M_labels M_html_serialize M_dom M_atom_tbl M_atom L_dom.
Import ListNotations.
Open Scope Z_scope.
Open Scope dom_scope.
Open Scope list_scope.

(** *** Spec *)

(** what a number stands for; 0 stands for the empty string *)
Definition name_at (T : tables) (i : Z) (s : list Z) : Prop := 0 <= i /\ exists x, nth_error (t_strings T) (Z.to_nat i) = Some x /\ s = lit x.
(** the atoms that the constructors make, and the strings they stand for *)
Inductive Stands (T : tables) : atom -> list Z -> Prop :=
| st_empty : Stands T atom_empty []
| st_string : forall s, Stands T (atom_of_string T s) s
| st_number : forall i s, name_at T i s -> Stands T (atom_of_number i) s.
(** the tables are inverse to each other *)
Definition Inverse (T : tables) : Prop :=
  (forall i s, i <> 0 -> name_at T i s -> m_i (atom_of_string T s) = i) /\
  (forall s, m_i (atom_of_string T s) <> 0 -> name_at T (m_i (atom_of_string T s)) s) /\
  name_at T 0 [] /\ (forall i s, name_at T i s -> s = [] -> i = 0).
(** what an attribute is called: namespace, prefix, local name *)
Inductive Called : sattr -> list Z * list Z * list Z -> Prop :=
| called : forall ns p n v s t, Stands namespaces ns s -> Stands attributes n t -> Called (SAttr ns p n v) (s, p, t).

(** *** The tables *)

(** the numbers count from [k], the names are the strings *)
Fixpoint counts (k : Z) (l : list (string * Z)) (r : list string) : bool :=
  match l, r with
  | [], [] => true
  | (s, i) :: l', x :: r' => (s =? x)%string && (i =? k) && counts (k + 1) l' r'
  | _, _ => false
  end.
Fixpoint less (a b : list Z) : bool :=
  match a, b with
  | [], _ :: _ => true
  | x :: a', y :: b' => (x <? y) || ((x =? y) && less a' b')
  | _, _ => false
  end.
Fixpoint rising (l : list (list Z)) : bool :=
  match l with
  | x :: (y :: _) as r => less x y && rising r
  | _ => true
  end.
Lemma less_trans : forall a b c, less a b = true -> less b c = true -> less a c = true.
Proof.
  induction a as [|x a IH]; intros [|y b] [|z c] H G; cbn in *; try discriminate; try reflexivity.
  apply orb_true_iff in H, G. apply orb_true_iff. destruct H as [H|H], G as [G|G].
  - left. lia.
  - apply andb_prop in G. left. lia.
  - apply andb_prop in H. left. lia.
  - apply andb_prop in H, G. right. apply andb_true_intro. split; [lia|]. apply (IH b); tauto.
Qed.
Lemma less_irr : forall a, less a a = false.
Proof. induction a as [|x a IH]; [reflexivity|]. cbn. rewrite IH, Z.ltb_irrefl, andb_false_r. reflexivity. Qed.
Lemma rising_cons : forall x l, rising (x :: l) = true -> rising l = true /\ forall y, In y l -> less x y = true.
Proof.
  intros x l. revert x. induction l as [|z l IH]; intros x H; [split; [reflexivity|intros y []]|].
  change (less x z && rising (z :: l) = true) in H. apply andb_prop in H. destruct H as [H1 H2]. split; [exact H2|]. intros y [<-|Y]; [exact H1|].
  apply (less_trans x z); [exact H1|]. now apply IH.
Qed.
Lemma rising_nodup : forall l, rising l = true -> NoDup l.
Proof.
  induction l as [|x l IH]; intro H; [constructor|]. apply rising_cons in H. destruct H as [H1 H2]. constructor; [|now apply IH].
  intro I. apply H2 in I. rewrite less_irr in I. discriminate.
Qed.
Lemma counts_nth : forall l r k n s, counts k l r = true -> nth_error r n = Some s -> nth_error l n = Some (s, k + Z.of_nat n).
Proof.
  induction l as [|[x i] l IH]; intros [|y r] k n s C H; cbn [counts] in C; try discriminate; [destruct n; discriminate|].
  apply andb_prop in C. destruct C as [C C3]. apply andb_prop in C. destruct C as [C1 C2]. apply String.eqb_eq in C1. apply Z.eqb_eq in C2. subst.
  destruct n; cbn [nth_error] in *; [injection H as <-; do 2 f_equal; lia|]. rewrite (IH r (k + 1) n s C3 H). do 2 f_equal. lia.
Qed.
Lemma counts_back : forall l r k n s i, counts k l r = true -> nth_error l n = Some (s, i) -> nth_error r n = Some s /\ i = k + Z.of_nat n.
Proof.
  induction l as [|[x j] l IH]; intros [|y r] k n s i C H; cbn [counts] in C; try discriminate; [destruct n; discriminate|].
  apply andb_prop in C. destruct C as [C C3]. apply andb_prop in C. destruct C as [C1 C2]. apply String.eqb_eq in C1. apply Z.eqb_eq in C2. subst.
  destruct n; cbn [nth_error] in *; [injection H as <- <-; split; [reflexivity|lia]|]. destruct (IH r (k + 1) n s i C3 H) as [H1 H2]. split; [exact H1|lia].
Qed.
Definition keys (l : list (string * Z)) : list (list Z) := map (fun p => lit (fst p)) l.
Lemma find_key : forall l n s i, NoDup (keys l) -> nth_error l n = Some (s, i) -> find (fun p => same_str (lit (fst p)) (lit s)) l = Some (s, i) \/
  exists s', find (fun p => same_str (lit (fst p)) (lit s)) l = Some (s', i).
Proof.
  induction l as [|[x j] l IH]; intros n s i N H; [destruct n; discriminate|]. cbn [find fst]. inversion N; subst. destruct n; cbn [nth_error] in H.
  - injection H as -> ->. left. assert (E : same_str (lit s) (lit s) = true) by now apply same_str_eq. now rewrite E.
  - destruct (same_str (lit x) (lit s)) eqn:E; [|now apply (IH n)]. apply same_str_eq in E. exfalso. cbn [fst] in *. apply H2. rewrite E.
    apply nth_error_In in H. apply in_map_iff. now exists (s, i).
Qed.
Lemma inverse : forall l r, counts 1 l r = true -> NoDup (keys l) -> existsb (fun s => same_str s []) (keys l) = false -> Inverse (Tables l (EmptyString :: r)).
Proof.
  intros l r C N Z0. set (T := Tables l (EmptyString :: r)).
  assert (At : forall i s, i <> 0 -> name_at T i s -> exists n x, i = 1 + Z.of_nat n /\ s = lit x /\ nth_error l n = Some (x, i)).
  { intros i s I (I0 & x & H & ->). destruct (Z.to_nat i) as [|n] eqn:E; [lia|]. cbn [t_strings T nth_error] in H. exists n, x. assert (i = 1 + Z.of_nat n) by lia.
    split; [assumption|]. split; [reflexivity|]. rewrite (counts_nth l r 1 n x C H). now subst i. }
  split; [|split; [|split]].
  - intros i s I H. destruct (At i s I H) as (n & x & E & -> & F). cbn [m_i atom_of_string t_numbers T].
    destruct (find_key l n x i N F) as [G|(y & G)]; now rewrite G.
  - intros s H. cbn [m_i atom_of_string t_numbers T] in *. destruct (find _ l) as [[x i]|] eqn:F; [|contradiction]. cbn [snd] in *. apply find_some in F. destruct F as [F1 F2].
    apply same_str_eq in F2. cbn [fst] in F2. apply In_nth_error in F1. destruct F1 as [n F1]. destruct (counts_back l r 1 n x i C F1) as [F3 F4].
    split; [lia|]. exists x. split; [|now symmetry]. subst i. replace (Z.to_nat (1 + Z.of_nat n)) with (S n) by lia. exact F3.
  - split; [lia|]. exists EmptyString. split; reflexivity.
  - intros i s H E. destruct (Z.eq_dec i 0) as [|I]; [assumption|]. destruct (At i s I H) as (n & x & _ & E2 & F). exfalso.
    assert (Q : existsb (fun t => same_str t []) (keys l) = true); [|congruence]. apply existsb_exists. exists (lit x). apply nth_error_In in F. split.
    + apply in_map_iff. now exists (x, i).
    + apply same_str_eq. now rewrite <- E2.
Qed.
Lemma tags_inverse : Inverse tags.
Proof.
  apply (inverse tag_atom_tbl (tl tag_name_tbl)); [vm_compute; reflexivity| |vm_compute; reflexivity]. apply rising_nodup. vm_compute. reflexivity.
Qed.
Lemma attributes_inverse : Inverse attributes.
Proof.
  apply (inverse attribute_atom_tbl (tl attribute_name_tbl)); [vm_compute; reflexivity| |vm_compute; reflexivity]. apply rising_nodup. vm_compute. reflexivity.
Qed.
Lemma namespaces_inverse : Inverse namespaces.
Proof.
  apply (inverse ns_uri_atom_tbl (tl ns_uri_tbl)); [vm_compute; reflexivity| |vm_compute; reflexivity].
  assert (Q : forall l : list (list Z), (fix go l := match l with [] => true | x :: r => negb (existsb (same_str x) r) && go r end) l = true -> NoDup l).
  { induction l as [|x l IH]; intro H; [constructor|]. apply andb_prop in H. destruct H as [H1 H2]. constructor; [|now apply IH]. intro I.
    apply negb_true_iff in H1. assert (X : existsb (same_str x) l = true) by (apply existsb_exists; exists x; split; [exact I|now apply same_str_eq]). congruence. }
  apply Q. vm_compute. reflexivity.
Qed.

(** *** Atoms *)

Lemma name_unique : forall T i s t, name_at T i s -> name_at T i t -> s = t.
Proof. intros T i s t (_ & x & X1 & ->) (_ & y & Y1 & ->). congruence. Qed.
Lemma stands_string : forall T a s, Inverse T -> Stands T a s -> atom_string T a = Val s.
Proof.
  intros T a s (I1 & I2 & I3 & I4) H. destruct H as [|s|i s (H1 & x & H2 & ->)].
  - destruct I3 as (_ & x & X1 & X2). unfold atom_string, atom_empty. cbn [m_string m_i Z.ltb Z.compare]. now rewrite X1, <- X2.
  - unfold atom_string. cbn [m_string atom_of_string]. destruct s as [|c s]; [|reflexivity].
    assert (Z0 : m_i (atom_of_string T []) = 0).
    { destruct (Z.eq_dec (m_i (atom_of_string T [])) 0) as [E|E]; [exact E|]. apply (I4 _ []); [now apply I2|reflexivity]. }
    fold (atom_of_string T []). rewrite Z0. destruct I3 as (_ & x & X1 & X2). cbn [Z.ltb Z.compare]. now rewrite X1, <- X2.
  - unfold atom_string. cbn [m_string m_i atom_of_number]. assert (E : (i <? 0) = false) by lia. now rewrite E, H2.
Qed.
Lemma stands_number : forall T a s, Inverse T -> Stands T a s -> m_i a = m_i (atom_of_string T s).
Proof.
  intros T a s (I1 & I2 & I3 & I4) H. destruct H as [|s|i s H]; [|reflexivity|].
  - cbn [m_i atom_empty]. destruct (Z.eq_dec (m_i (atom_of_string T [])) 0) as [E|E]; [now symmetry|]. symmetry. apply (I4 _ []); [now apply I2|reflexivity].
  - cbn [m_i atom_of_number]. destruct (Z.eq_dec i 0) as [->|N]; [|symmetry; now apply I1]. assert (S0 : s = []) by now apply (name_unique T 0). subst s.
    destruct (Z.eq_dec (m_i (atom_of_string T [])) 0) as [E|E]; [now symmetry|]. symmetry. apply (I4 _ []); [now apply I2|reflexivity].
Qed.
Lemma stands_eq : forall T a b s t, Inverse T -> Stands T a s -> Stands T b t -> atom_eq T a b = Val (same_str s t).
Proof.
  intros T a b s t I A B. unfold atom_eq. rewrite (stands_string T a s I A), (stands_string T b t I B).
  rewrite (stands_number T a s I A), (stands_number T b t I B). destruct (negb _ && negb _) eqn:E; [|reflexivity].
  apply andb_prop in E. destruct E as [E1 E2]. apply negb_true_iff, Z.eqb_neq in E1, E2. destruct I as (I1 & I2 & I3 & I4). f_equal.
  destruct (same_str s t) eqn:Q.
  - apply same_str_eq in Q. subst. apply Z.eqb_refl.
  - apply Z.eqb_neq. intro X. apply I2 in E1. apply I2 in E2. rewrite X in E1. rewrite (name_unique T _ _ _ E1 E2) in Q.
    assert (same_str t t = true) by now apply same_str_eq. congruence.
Qed.

(** *** Attributes *)

Definition same_name (x y : list Z * list Z * list Z) : bool :=
  same_str (fst (fst x)) (fst (fst y)) && same_str (snd (fst x)) (snd (fst y)) && same_str (snd x) (snd y).
Lemma same_name_eq : forall x y, same_name x y = true <-> x = y.
Proof.
  intros [[a b] c] [[a' b'] c']. unfold same_name. cbn [fst snd]. rewrite !andb_true_iff, !same_str_eq. split; [intros [[-> ->] ->]; reflexivity|]. intro H. injection H as -> -> ->. auto.
Qed.
Lemma attr_eq_called : forall a b x y, Called a x -> Called b y -> attr_eq a b = Val (same_name x y).
Proof.
  intros a b x y [ns p n v s t S1 S2] [ns' p' n' v' s' t' S3 S4]. unfold attr_eq, same_name. cbn [sa_ns sa_prefix sa_name fst snd].
  rewrite (stands_eq namespaces _ _ _ _ namespaces_inverse S1 S3), (stands_eq attributes _ _ _ _ attributes_inverse S2 S4).
  destruct (same_str s s'); cbn [negb andb]; [|reflexivity]. destruct (same_str p p'); reflexivity.
Qed.
(** the first one of a name *)
Inductive First {A} (y : A) : list A -> nat -> Prop :=
| first_here : forall l, First y (y :: l) O
| first_next : forall x l k, x <> y -> First y l k -> First y (x :: l) (S k).
Lemma find_called : forall l xs a y, Forall2 Called l xs -> Called a y ->
  exists k, find_attr l a = Val k /\ match k with Some i => First y xs i | None => ~ In y xs end.
Proof.
  intros l xs a y F A. induction F as [|b x l xs B F (k & K1 & K2)]; [exists None; split; [reflexivity|auto]|]. cbn [find_attr].
  rewrite (attr_eq_called b a x y B A). destruct (same_name x y) eqn:E.
  - apply same_name_eq in E. subst. exists (Some O). split; [reflexivity|constructor].
  - assert (N : x <> y) by (intro Q; apply same_name_eq in Q; congruence). rewrite K1. eexists. split; [reflexivity|]. destruct k as [i|]; [now constructor|].
    intros [I|I]; [contradiction|now apply K2].
Qed.
Lemma all_found_called : forall l xs r ys, Forall2 Called l xs -> Forall2 Called r ys -> exists b, all_found l r = Val b /\ (b = true <-> incl xs ys).
Proof.
  intros l xs r ys F R. induction F as [|a x l xs A F (b & B1 & B2)]; [exists true; split; [reflexivity|split; [intros _ z []|auto]]|]. cbn [all_found].
  destruct (find_called r ys a x R A) as (k & K1 & K2). rewrite K1. destruct k as [i|].
  - rewrite B1. exists b. split; [reflexivity|]. rewrite B2. assert (Y : In x ys) by (clear - K2; induction K2; [now left|now right]).
    split; [now apply incl_cons|]. intros H z Z0. apply H. now right.
  - exists false. split; [reflexivity|]. split; [discriminate|]. intro H. exfalso. apply K2, H. now left.
Qed.
Lemma called_length : forall l xs, Forall2 Called l xs -> List.length l = List.length xs.
Proof. intros l xs F. induction F; cbn; congruence. Qed.
Lemma element_eq_called : forall e f xs ys, Forall2 Called (se_attrs e) xs -> Forall2 Called (se_attrs f) ys ->
  exists b, element_eq e f = Val b /\ (b = true <-> List.length xs = List.length ys /\ incl xs ys).
Proof.
  intros e f xs ys F G. unfold element_eq. pose proof (called_length _ _ F) as L1. pose proof (called_length _ _ G) as L2. rewrite L1, L2.
  destruct (List.length xs =? List.length ys)%nat eqn:E; cbn [negb].
  - apply PeanoNat.Nat.eqb_eq in E. destruct (all_found_called _ _ _ _ F G) as (b & B1 & B2). exists b. split; [exact B1|]. tauto.
  - apply PeanoNat.Nat.eqb_neq in E. exists false. split; [reflexivity|]. split; [discriminate|tauto].
Qed.
