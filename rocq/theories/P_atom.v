(** C123-C125: atoms of HTML, attributes found by name, elements compared. *)
From Coq Require Import ZArith List Bool String Lia.
From Verif Require Import M_infra M_encoding M_labels M_html_serialize M_dom M_atom_tbl M_atom L_dom L_atom.
Import ListNotations.
Open Scope Z_scope.
Open Scope list_scope.

(** *** C123: the tables of names are inverse to each other, and atoms compare as the strings they stand for *)
Theorem C123_tables : forall T, In T [tags; attributes; namespaces] ->
  (** a string whose number is i is the one that stands at i, and the other way round; only the empty string stands at 0 *)
  (forall s i, i <> 0 -> (atom_number (atom_of_string T s) = i <-> (0 <= i /\ exists x, nth_error (t_strings T) (Z.to_nat i) = Some x /\ s = lit x))) /\
  (forall i x, nth_error (t_strings T) i = Some x -> (lit x = [] <-> i = O)).
Proof.
  intros T H. assert (I : Inverse T) by (destruct H as [<-|[<-|[<-|[]]]]; [apply tags_inverse|apply attributes_inverse|apply namespaces_inverse]).
  destruct I as (I1 & I2 & I3 & I4). split.
  - intros s i N. split; [intros <-; now apply I2|]. intro Q. now apply I1.
  - intros i x X. split.
    + intro E. assert (Q : Z.of_nat i = 0); [|lia]. apply (I4 _ (lit x)); [|exact E]. split; [lia|]. exists x. rewrite Nat2Z.id. auto.
    + intros ->. destruct I3 as (_ & y & Y1 & Y2). cbn [Z.to_nat] in Y1. congruence.
Qed.
Print Assumptions C123_tables.
Example C123_tables_ex : atom_number (atom_of_string tags (lit "a")) = 1 /\ nth_error (t_strings tags) 1 = Some "a"%string /\ atom_number (atom_of_string tags (lit "my-tag")) = 0.
Proof. split; [vm_compute; reflexivity|]. split; vm_compute; reflexivity. Qed.

Theorem C123_compare : forall T a b s t, In T [tags; attributes; namespaces] -> Stands T a s -> Stands T b t ->
  atom_string T a = Val s /\
  (atom_eq T a b = Val true <-> s = t) /\ (atom_eq T a b = Val false <-> s <> t) /\
  atom_number a = atom_number (atom_of_string T s) /\
  (atom_eq_string T a t = Val true <-> s = t).
Proof.
  intros T a b s t H A B. assert (I : Inverse T) by (destruct H as [<-|[<-|[<-|[]]]]; [apply tags_inverse|apply attributes_inverse|apply namespaces_inverse]).
  assert (Q : forall v, Val (same_str s t) = Val v <-> same_str s t = v) by (intro v; split; [intro E; now injection E|congruence]).
  unfold atom_eq_string. rewrite (stands_eq T a b s t I A B), (stands_eq T a _ s t I A (st_string T t)), !Q, same_str_eq.
  split; [now apply stands_string|]. split; [tauto|]. split; [|split; [now apply stands_number|tauto]].
  split; intro E; [intro X; apply same_str_eq in X; congruence|]. destruct (same_str s t) eqn:Y; [|reflexivity]. apply same_str_eq in Y. contradiction.
Qed.
Print Assumptions C123_compare.
Example C123_compare_ex :
  Stands tags (atom_of_number 1) (lit "a") /\ Stands tags (atom_of_string tags (lit "my-tag")) (lit "my-tag") /\
  atom_eq tags (atom_of_number 1) (atom_of_string tags (lit "a")) = Val true /\ atom_eq tags (atom_of_number 1) (atom_of_string tags (lit "my-tag")) = Val false /\
  atom_eq tags (atom_of_string tags (lit "my-tag")) (atom_of_string tags (lit "my-tag")) = Val true.
Proof.
  split; [constructor; split; [lia|]; exists "a"%string; split; reflexivity|]. split; [constructor|]. split; [vm_compute; reflexivity|]. split; vm_compute; reflexivity.
Qed.

(** *** C124: an attribute is found by its namespace, prefix and local name, its value being ignored: the first one of that name *)
Theorem C124_find : forall e xs, Forall2 Called (se_attrs e) xs -> forall a y, Called a y ->
  exists k, element_find e a = Val k /\
    match k with
    | Some i => nth_error xs i = Some y /\ forall j, (j < i)%nat -> nth_error xs j <> Some y
    | None => ~ In y xs
    end.
Proof.
  intros e xs F a y A. destruct (find_called _ _ _ _ F A) as (k & K1 & K2). exists k. split; [exact K1|]. destruct k as [i|]; [|exact K2]. clear - K2.
  induction K2 as [|x l k N K [IH1 IH2]]; [split; [reflexivity|lia]|]. split; [exact IH1|]. intros [|j] J; cbn [nth_error]; [congruence|]. apply IH2. lia.
Qed.
Print Assumptions C124_find.
Theorem C124_by_name : forall e xs, Forall2 Called (se_attrs e) xs -> forall name,
  (exists k, element_find_string e name = Val k /\ (k <> None <-> In ([], [], name) xs)) /\
  (forall i, name_at attributes i name -> element_find_number e i = element_find_string e name) /\
  (forall ns uri prefix, name_at namespaces ns uri -> exists k, element_find_ns e ns prefix name = Val k /\ (k <> None <-> In (uri, prefix, name) xs)) /\
  (forall i ns uri prefix, name_at attributes i name -> name_at namespaces ns uri ->
    exists k, element_find_ns_number e ns prefix i = Val k /\ (k <> None <-> In (uri, prefix, name) xs)).
Proof.
  intros e xs F name.
  assert (G : forall ns uri prefix n, name_at namespaces ns uri -> Stands attributes n name -> exists k, find_attr (se_attrs e) (SAttr (atom_of_number ns) prefix n []) = Val k /\
     (k <> None <-> In (uri, prefix, name) xs)).
  { intros ns uri prefix n H1 H2. destruct (find_called (se_attrs e) xs (SAttr (atom_of_number ns) prefix n []) (uri, prefix, name) F) as (k & K1 & K2).
    - constructor; [now constructor|exact H2].
    - exists k. split; [exact K1|]. destruct k as [i|].
      + split; [intros _|discriminate]. clear - K2. induction K2; [now left|now right].
      + split; [congruence|]. intro X. contradiction. }
  assert (Z0 : name_at namespaces 0 []) by apply namespaces_inverse.
  split; [|split; [|split]].
  - apply (G 0 [] []); [exact Z0|constructor].
  - intros i H. unfold element_find_number, element_find_string, element_find_ns_number, element_find_ns, attr_ns_number, attr_ns_string. clear G. induction F as [|b x l xs B F IH]; [reflexivity|].
    cbn [find_attr]. rewrite (attr_eq_called b _ x ([], [], name) B (called (atom_of_number 0) [] (atom_of_number i) [] [] name (st_number namespaces 0 [] Z0) (st_number attributes i name H))).
    rewrite (attr_eq_called b _ x ([], [], name) B (called (atom_of_number 0) [] (atom_of_string attributes name) [] [] name (st_number namespaces 0 [] Z0) (st_string attributes name))).
    now rewrite IH.
  - intros ns uri prefix H. apply (G ns uri prefix); [exact H|constructor].
  - intros i ns uri prefix H1 H2. apply (G ns uri prefix); [exact H2|now constructor].
Qed.
Print Assumptions C124_by_name.
(** what the constructors make is called by what they were given *)
Theorem C124_called : forall ns uri prefix i name v, name_at namespaces ns uri -> name_at attributes i name ->
  Called (attr_ns_number ns prefix i v) (uri, prefix, name) /\ Called (attr_ns_string ns prefix name v) (uri, prefix, name) /\
  Called (attr_number i v) ([], [], name) /\ Called (attr_string name v) ([], [], name) /\
  sa_value (attr_ns_number ns prefix i v) = v /\ sa_value (attr_ns_string ns prefix name v) = v /\ sa_value (attr_number i v) = v /\ sa_value (attr_string name v) = v.
Proof.
  intros ns uri prefix i name v N A. assert (Z0 : name_at namespaces 0 []) by apply namespaces_inverse.
  split; [constructor; now constructor|]. split; [constructor; now constructor|]. split; [constructor; now constructor|]. split; [constructor; now constructor|]. auto.
Qed.
Print Assumptions C124_called.
Example C124_called_ex : name_at namespaces 4 (lit "http://www.w3.org/1999/xlink") /\ name_at attributes 1 (lit "abbr").
Proof. split; (split; [lia|]); eexists; split; reflexivity. Qed.
Definition two_attrs : selement :=
  SElement (atom_of_number 1) [] (atom_of_number 1) [attr_string (lit "href") (lit "x"); attr_ns_string 4 (lit "xlink") (lit "href") (lit "y")].
Example C124_ex : Forall2 Called (se_attrs two_attrs) [([], [], lit "href"); (lit "http://www.w3.org/1999/xlink", lit "xlink", lit "href")] /\
  element_find_string two_attrs (lit "href") = Val (Some O) /\ element_find_ns two_attrs 4 (lit "xlink") (lit "href") = Val (Some 1%nat) /\
  element_find_string two_attrs (lit "class") = Val None.
Proof.
  split; [|split; [vm_compute; reflexivity|split; vm_compute; reflexivity]].
  constructor; [constructor; [constructor; split; [lia|exists EmptyString; split; reflexivity]|constructor]|].
  constructor; [constructor; [constructor; split; [lia|exists "http://www.w3.org/1999/xlink"%string; split; reflexivity]|constructor]|constructor].
Qed.

(** *** C125: two elements compare equal when their attributes do, whatever the elements are called; repeated attributes break symmetry *)
Theorem C125_compare_partial : forall e f xs ys, Forall2 Called (se_attrs e) xs -> Forall2 Called (se_attrs f) ys ->
  exists b, element_eq e f = Val b /\ (b = true <-> List.length xs = List.length ys /\ incl xs ys).
Proof. exact element_eq_called. Qed.
Print Assumptions C125_compare_partial.
Theorem C125_unique_partial : forall e f xs ys, Forall2 Called (se_attrs e) xs -> Forall2 Called (se_attrs f) ys -> NoDup xs -> NoDup ys ->
  (element_eq e f = Val true <-> forall n, In n xs <-> In n ys) /\ element_eq e f = element_eq f e.
Proof.
  intros e f xs ys F G N M. destruct (element_eq_called e f xs ys F G) as (b & B1 & B2). destruct (element_eq_called f e ys xs G F) as (c & C1 & C2).
  assert (X : (List.length xs = List.length ys /\ incl xs ys) <-> (forall n, In n xs <-> In n ys)).
  { split.
    - intros [L I] n. split; [apply I|]. apply NoDup_length_incl; [exact N|lia|exact I].
    - intro Q. split; [|intros n; apply Q]. apply PeanoNat.Nat.le_antisymm; apply NoDup_incl_length; try assumption; intros n; apply Q. }
  assert (Y : (List.length ys = List.length xs /\ incl ys xs) <-> (forall n, In n xs <-> In n ys)).
  { split.
    - intros [L I] n. split; [|apply I]. apply NoDup_length_incl; [exact M|lia|exact I].
    - intro Q. split; [|intros n; apply Q]. apply PeanoNat.Nat.le_antisymm; apply NoDup_incl_length; try assumption; intros n; apply Q. }
  rewrite X in B2. rewrite Y in C2. rewrite B1, C1. split.
  - split; [intro E; injection E as E; now apply B2|]. intro E. f_equal. now apply B2.
  - f_equal. destruct b, c; try reflexivity; [symmetry; apply C2; now apply B2|apply B2; now apply C2].
Qed.
Print Assumptions C125_unique_partial.
Definition two_a : selement := SElement (atom_of_number 1) [] (atom_of_string tags (lit "p")) [attr_string (lit "a") []; attr_string (lit "a") []].
Definition a_and_b : selement := SElement (atom_of_number 1) [] (atom_of_string tags (lit "p")) [attr_string (lit "a") []; attr_string (lit "b") []].
(** elements of different names are equal; equality is not symmetric *)
Theorem C125_refuted :
  (exists e f, atom_eq tags (se_name e) (se_name f) = Val false /\ element_eq e f = Val true) /\
  (exists e f, atom_eq namespaces (se_ns e) (se_ns f) = Val false /\ element_eq e f = Val true) /\
  (exists e f, element_eq e f = Val true /\ element_eq f e = Val false).
Proof.
  split; [|split].
  - exists (SElement (atom_of_number 1) [] (atom_of_string tags (lit "p")) []), (SElement (atom_of_number 1) [] (atom_of_string tags (lit "b")) []). split; vm_compute; reflexivity.
  - exists (SElement (atom_of_number 1) [] (atom_of_string tags (lit "a")) []), (SElement (atom_of_number 3) [] (atom_of_string tags (lit "a")) []). split; vm_compute; reflexivity.
  - exists two_a, a_and_b. split; vm_compute; reflexivity.
Qed.
Print Assumptions C125_refuted.
Example C125_ex : Forall2 Called (se_attrs a_and_b) [([], [], lit "a"); ([], [], lit "b")] /\ NoDup [(@nil Z, @nil Z, lit "a"); ([], [], lit "b")] /\ element_eq a_and_b a_and_b = Val true.
Proof.
  split; [|split; [|vm_compute; reflexivity]].
  - constructor; [constructor; [constructor; split; [lia|exists EmptyString; split; reflexivity]|constructor]|].
    constructor; [constructor; [constructor; split; [lia|exists EmptyString; split; reflexivity]|constructor]|constructor].
  - constructor; [intros [H|[]]; discriminate H|]. constructor; [intros []|constructor].
Qed.
