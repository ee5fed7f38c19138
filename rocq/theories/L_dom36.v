(** What insertion does to the tree, and where nodes go. *)
From Coq Require Import ZArith List Bool String Lia.
From Verif Require Import M_infra M_encoding M_labels M_html M_html_serialize M_dom_names M_dom M_dom2 L_dom L_dom2 L_dom30 L_dom31.
Import ListNotations.
Open Scope Z_scope.
Open Scope dom_scope.
Open Scope list_scope.

(** *** The tree *)

(** A place lies in a list of children between [a] and [b]: at the end, or in front of the child it names. *)
Definition Lies (p : place) (d : list cell) (a b : list nat) : Prop :=
  kids_of d (fst p) = a ++ b /\ match snd p with None => b = [] | Some r => hd_error b = Some r /\ ~ In r a end.
(** the tree [d1] is the tree [d] with a new node [n], of value [x] and without children, at the place [p] *)
Record Put_at (d : list cell) (p : place) (x : info) (d1 : list cell) (n : nat) : Prop := {
  put_new : n = List.length d /\ List.length d1 = S n;
  put_node : cell_of d1 n = Cell x (fst p) [];
  put_kids : exists a b, Lies p d a b /\ kids_of d1 (fst p) = a ++ n :: b;
  put_rest : forall i, (i < n)%nat ->
    c_info (cell_of d1 i) = c_info (cell_of d i) /\ parent_of d1 i = parent_of d i /\ (i <> fst p -> kids_of d1 i = kids_of d i) }.

Lemma put_before_split : forall r n l l1, put_before r n l = Some l1 -> exists a b, l = a ++ b /\ l1 = a ++ n :: b /\ hd_error b = Some r /\ ~ In r a.
Proof.
  intros r n l. induction l as [|x l IH]; intros l1 H; [discriminate|]. cbn in H. destruct (x =? r)%nat eqn:E.
  - apply PeanoNat.Nat.eqb_eq in E. subst x. injection H as <-. exists [], (r :: l). repeat split; auto.
  - destruct (put_before r n l) as [l2|]; [|discriminate]. injection H as <-. destruct (IH l2 eq_refl) as (a & b & -> & -> & B & A).
    exists (x :: a), b. repeat split; auto. intros [C|C]; [subst; now rewrite PeanoNat.Nat.eqb_refl in E|auto].
Qed.
Lemma put_before_none : forall r n l, put_before r n l = None <-> ~ In r l.
Proof.
  intros r n l. induction l as [|x l IH]; [cbn; tauto|]. cbn [put_before In]. destruct (x =? r)%nat eqn:E.
  - apply PeanoNat.Nat.eqb_eq in E. split; [discriminate|]. intro H. exfalso. auto.
  - apply PeanoNat.Nat.eqb_neq in E. destruct (put_before r n l); split; try discriminate; try tauto.
    intro H. exfalso. assert (X : ~ In r l) by tauto. apply IH in X. discriminate.
Qed.
Lemma insert_put : forall d p x d1 n, (fst p < List.length d)%nat -> insert d p x = Val (d1, n) -> Put_at d p x d1 n.
Proof.
  intros d p x d1 n L H. unfold insert in H. destruct (put (snd p) (List.length d) (kids_of d (fst p))) as [l|] eqn:E; [|discriminate].
  injection H as <- <-.
  assert (K : forall i, (i < List.length d)%nat -> cell_of (change d (fst p) (set_kids l) ++ [Cell x (fst p) []]) i = cell_of (change d (fst p) (set_kids l)) i).
  { intros i I. unfold cell_of. apply app_nth1. now rewrite change_length. }
  constructor.
  - split; [reflexivity|]. rewrite app_length, change_length. cbn. lia.
  - unfold cell_of. rewrite app_nth2; rewrite change_length; [|lia]. now rewrite PeanoNat.Nat.sub_diag.
  - assert (S : exists a b, Lies p d a b /\ l = a ++ List.length d :: b).
    { unfold Lies. destruct (snd p) as [r|]; cbn [put] in E.
      - apply put_before_split in E. destruct E as (a & b & A & B & C & D). exists a, b. auto.
      - injection E as <-. exists (kids_of d (fst p)), []. rewrite app_nil_r. auto. }
    destruct S as (a & b & A & ->). exists a, b. split; [exact A|]. unfold kids_of at 1. rewrite (K _ L), cell_change, PeanoNat.Nat.eqb_refl.
    apply PeanoNat.Nat.ltb_lt in L. now rewrite L.
  - intros i I. unfold parent_of, kids_of. rewrite (K _ I), cell_change. destruct ((fst p =? i)%nat && (i <? List.length d)%nat) eqn:B.
    + apply andb_prop in B. destruct B as [B _]. apply PeanoNat.Nat.eqb_eq in B. repeat split; auto. intro N. congruence.
    + repeat split; auto.
Qed.
Lemma insert_bad : forall d p x, insert d p x = Bad <-> exists r, snd p = Some r /\ ~ In r (kids_of d (fst p)).
Proof.
  intros d p x. unfold insert. destruct (snd p) as [r|]; cbn [put].
  - destruct (put_before r (List.length d) (kids_of d (fst p))) eqn:E.
    + split; [discriminate|]. intros (q & Q & N). injection Q as <-. apply (put_before_none _ (List.length d)) in N. congruence.
    + split; [|reflexivity]. intros _. apply put_before_none in E. eauto.
  - split; [discriminate|]. intros (q & Q & _). discriminate.
Qed.

(** *** The appropriate place for inserting a node, 13.2.6.1 *)

(** the last element of this name on the stack: [k] elements are newer *)
Definition Last (t : tname) (s : st) (k : nat) (e : entry) : Prop :=
  nth_error (s_stack s) k = Some e /\ one_of [t] s e = true /\
  forall j f, (j < k)%nat -> nth_error (s_stack s) j = Some f -> one_of [t] s f = false.
Definition Never (t : tname) (s : st) : Prop := forall e, In e (s_stack s) -> one_of [t] s e = false.
Definition fostering (target : nat) (s : st) : bool :=
  s_foster s && (ns_of (s_dom s) target =? ns_HTML) && existsb (teqb (name_of (s_dom s) target)) [T_table; T_tbody; T_tfoot; T_thead; T_tr].
Inductive Place (target : nat) (s : st) : place -> Prop :=
| In_target : fostering target s = false -> Place target s (target, None)
| In_template : forall k e, fostering target s = true -> Last T_template s k e -> (forall j f, Last T_table s j f -> (k < j)%nat) ->
    Place target s (en_node e, None)
| In_root : forall r e, fostering target s = true -> Never T_table s -> Never T_template s -> s_stack s = r ++ [e] -> Place target s (en_node e, None)
| Before_table : forall k e, fostering target s = true -> Last T_table s k e -> (forall j f, Last T_template s j f -> (k < j)%nat) ->
    parent_of (s_dom s) (en_node e) <> the_document -> Place target s (parent_of (s_dom s) (en_node e), Some (en_node e))
| Before_table_on_stack : forall k e f, fostering target s = true -> Last T_table s k e -> (forall j f, Last T_template s j f -> (k < j)%nat) ->
    parent_of (s_dom s) (en_node e) = the_document -> nth_error (s_stack s) (S k) = Some f -> Place target s (en_node f, None).

Lemma index_last : forall t s k, index_of (is_html t (s_dom s)) (s_stack s) = Some k -> exists e, Last t s k e.
Proof.
  intros t s. unfold Last. induction (s_stack s) as [|e l IH]; intros k H; [discriminate|]. cbn in H.
  destruct (is_html t (s_dom s) (en_node e)) eqn:E.
  - injection H as <-. exists e. split; [reflexivity|]. split; [now rewrite one_of_one|]. intros j f J. lia.
  - destruct (index_of _ l) as [j|]; [|discriminate]. injection H as <-. destruct (IH j eq_refl) as (f & F1 & F2 & F3).
    exists f. split; [exact F1|]. split; [exact F2|]. intros [|i] g I G; [injection G as <-; now rewrite one_of_one|]. apply (F3 i g); [lia|exact G].
Qed.
Lemma index_never : forall t s, index_of (is_html t (s_dom s)) (s_stack s) = None -> Never t s.
Proof.
  intros t s. unfold Never. induction (s_stack s) as [|e l IH]; intros H x X; [destruct X|]. cbn in H.
  destruct (is_html t (s_dom s) (en_node e)) eqn:E; [discriminate|]. destruct (index_of _ l) as [j|]; [discriminate|].
  destruct X as [<-|X]; [now rewrite one_of_one|now apply IH].
Qed.
Lemma last_unique : forall t s k e j f, Last t s k e -> Last t s j f -> k = j /\ e = f.
Proof.
  intros t s k e j f (A1 & A2 & A3) (B1 & B2 & B3).
  assert (k = j). { destruct (Compare_dec.lt_eq_lt_dec k j) as [[H|H]|H]; auto; [rewrite (B3 _ _ H A1) in A2|rewrite (A3 _ _ H B1) in B2]; discriminate. }
  subst j. rewrite A1 in B1. injection B1 as <-. auto.
Qed.
Lemma never_last : forall t s k e, Never t s -> Last t s k e -> False.
Proof. intros t s k e N (A & B & _). apply nth_error_In in A. rewrite (N e A) in B. discriminate. Qed.
Lemma front_last : forall s i, front s = Val i -> exists r e, s_stack s = r ++ [e] /\ en_node e = i.
Proof.
  intros s i H. rewrite front_rev in H. destruct (rev (s_stack s)) as [|e l] eqn:E; [discriminate|]. injection H as <-.
  exists (rev l), e. split; [|reflexivity]. rewrite <- (rev_involutive (s_stack s)), E. reflexivity.
Qed.
(** template and table are told apart *)
Lemma last_other : forall s k e j f, Last T_template s k e -> Last T_table s j f -> k <> j.
Proof.
  intros s k e j f (A & B & _) (C & D & _) ->. rewrite A in C. injection C as <-. unfold one_of in *. cbn [existsb] in *.
  rewrite orb_false_r in *. apply andb_prop in B, D. destruct B as [_ B], D as [_ D]. destruct (name_of _ _); discriminate.
Qed.
Lemma place_std : forall target s p, place_for target s = Val p ->
  ~ (fostering target s = true /\ Never T_table s /\ ~ Never T_template s) -> Place target s p.
Proof.
  intros target s p H N. unfold place_for in H.
  assert (F : s_foster s && is_html_in [T_table; T_tbody; T_tfoot; T_thead; T_tr] (s_dom s) target = fostering target s).
  { unfold fostering, is_html_in, among. now rewrite andb_assoc. }
  rewrite F in H. destruct (fostering target s) eqn:E; [|injection H as <-; now apply In_target]. clear F.
  destruct (index_of (is_html T_table (s_dom s)) (s_stack s)) as [k|] eqn:T.
  - apply index_last in T. destruct T as (e & T). assert (T1 := T). destruct T1 as (T1 & _ & _). rewrite T1 in H.
    destruct (index_of (is_html T_template (s_dom s)) (s_stack s)) as [j|] eqn:M.
    + apply index_last in M. destruct M as (f & M). assert (M1 := M). destruct M1 as (M1 & _ & _). rewrite M1 in H.
      destruct (j <? k)%nat eqn:L.
      * injection H as <-. apply PeanoNat.Nat.ltb_lt in L. apply (In_template _ _ j f); auto. intros i g G.
        destruct (last_unique _ _ _ _ _ _ T G) as [<- _]. exact L.
      * apply PeanoNat.Nat.ltb_ge in L.
        assert (O : forall i g, Last T_template s i g -> (k < i)%nat).
        { intros i g G. destruct (last_unique _ _ _ _ _ _ M G) as [<- _]. pose proof (last_other _ _ _ _ _ M T). lia. }
        destruct (parent_of (s_dom s) (en_node e) =? the_document)%nat eqn:P.
        -- apply PeanoNat.Nat.eqb_eq in P. destruct (nth_error (s_stack s) (S k)) as [g|] eqn:G; [|discriminate]. injection H as <-.
           now apply (Before_table_on_stack _ _ k e g).
        -- apply PeanoNat.Nat.eqb_neq in P. injection H as <-. now apply (Before_table _ _ k e).
    + apply index_never in M.
      assert (O : forall i g, Last T_template s i g -> (k < i)%nat) by (intros i g G; destruct (never_last _ _ _ _ M G)).
      destruct (parent_of (s_dom s) (en_node e) =? the_document)%nat eqn:P.
      * apply PeanoNat.Nat.eqb_eq in P. destruct (nth_error (s_stack s) (S k)) as [g|] eqn:G; [|discriminate]. injection H as <-.
        now apply (Before_table_on_stack _ _ k e g).
      * apply PeanoNat.Nat.eqb_neq in P. injection H as <-. now apply (Before_table _ _ k e).
  - apply index_never in T. destruct (front s) as [i| |] eqn:R; try discriminate. injection H as <-. apply front_last in R.
    destruct R as (r & e & R & <-). apply (In_root _ _ r e); auto.
    destruct (index_of (is_html T_template (s_dom s)) (s_stack s)) as [j|] eqn:M; [|now apply index_never].
    exfalso. apply N. split; [reflexivity|]. split; [exact T|]. intro V. apply index_last in M. destruct M as (f & M). exact (never_last _ _ _ _ V M).
Qed.
(** a node has one such place *)
Lemma place_unique : forall target s p q, Place target s p -> Place target s q -> p = q.
Proof.
  intros target s p q A B. destruct A; inversion B; subst; try congruence;
    repeat match goal with
    | H1 : Last ?t s ?k ?e, H2 : Last ?t s ?j ?f |- _ =>
        lazymatch e with f => fail | _ => destruct (last_unique _ _ _ _ _ _ H1 H2) as [? ?]; subst end
    | H1 : Never ?t s, H2 : Last ?t s _ _ |- _ => destruct (never_last _ _ _ _ H1 H2)
    end; try congruence.
  all: try (match goal with H1 : s_stack ?s = _ ++ [_], H2 : s_stack ?s = _ ++ [_] |- _ => rewrite H1 in H2; apply app_inj_tail in H2; destruct H2 as [_ ->]; reflexivity end).
  all: try (exfalso; match goal with
    | H1 : Last ?t ?s ?k _, H2 : Last ?u ?s ?j _, A : (forall j f, Last ?t ?s j f -> _), B : (forall j f, Last ?u ?s j f -> _) |- _ =>
        pose proof (A _ _ H1); pose proof (B _ _ H2); lia end).
Qed.
