(** The adoption agency algorithm with a furthest block, 13.2.6.4.7. *)
From Coq Require Import ZArith List Bool String Lia.
From Verif Require Import M_infra M_encoding M_labels M_html M_html_serialize M_dom_names M_dom M_dom2 L_dom L_dom2 L_dom30 L_dom31 L_dom35 L_dom36 L_dom38 L_dom39.
Import ListNotations.
Open Scope Z_scope.
Open Scope dom_scope.
Open Scope list_scope.

(** *** The standard *)

Definition forget (i : nat) (l : list formatting) : list formatting := filter (fun f => negb (node_is i f)) l.
(** the entry of an element now stands for another one *)
Definition exchange (i n : nat) (l : list formatting) : list formatting :=
  map (fun f => if node_is i f then option_map (fun e => Entry (en_tag e) n) f else f) l.
(** a new entry right behind that of an element (the newest entry is the first) *)
Fixpoint beside (i : nat) (x : formatting) (l : list formatting) : list formatting :=
  match l with [] => [] | f :: r => if node_is i f then x :: f :: r else f :: beside i x r end.
(** step 14: the elements between the furthest block and the formatting element, the newest first; [last] is the last node,
    [mark] the element behind whose entry the bookmark stands, if it was moved. Yields the elements that stay. *)
Fixpoint climb (count : nat) (between : list entry) (d : list cell) (active : list formatting) (last : nat) (mark : option nat)
  : outcome (list entry * list cell * list formatting * nat * option nat) :=
  match between with
  | [] => Val ([], d, active, last, mark)
  | e :: r =>
      let active := if (3 <? count)%nat then forget (en_node e) active else active in
      if existsb (node_is (en_node e)) active then
        run x <- element_for (en_tag e) ns_HTML;
        let (d1, n) := create d x in
        run d2 <- move d1 (at_end n) last;
        run q <- climb (S count) r d2 (exchange (en_node e) n active) n (match mark with None => Some n | Some m => Some m end);
        let '(stay, d3, a, l, m) := q in Val (Entry (en_tag e) n :: stay, d3, a, l, m)
      else climb (S count) r d active last mark
  end.
(** steps 10 and 12 to 20 for the formatting element [i] *)
Definition Round (i : nat) (s s' : st) : Prop :=
  exists above fb between fe ca rest, s_stack s = above ++ fb :: between ++ fe :: ca :: rest /\ en_node fe = i /\
    special s fb = true /\ Forall (fun e => special s e = false) between /\
  exists stay d a last m, climb 1 between (s_dom s) (s_active s) (en_node fb) None = Val (stay, d, a, last, m) /\
  exists p d1, place_for (en_node ca) (set_active a (set_stack (above ++ fb :: stay ++ fe :: ca :: rest) (set_dom d s))) = Val p /\
    move d p last = Val d1 /\
  exists x d2 el d3 d4, element_for (en_tag fe) ns_HTML = Val x /\ create d1 x = (d2, el) /\
    move_all d2 (kids_of d2 (en_node fb)) el = Val d3 /\ move d3 (at_end (en_node fb)) el = Val d4 /\
  let new := Entry (en_tag fe) el in
  s' = set_active (match m with
                   | None => map (fun f => if node_is i f then Some new else f) a
                   | Some n => beside n (Some new) (forget i a)
                   end) (set_stack (above ++ new :: fb :: stay ++ ca :: rest) (set_dom d4 s)).
(** steps 3 to 21; [true]: go on as any other end tag *)
Inductive Agency (t : tname) : nat -> st -> st -> bool -> Prop :=
| ag_spent s : Agency t O s s false
| ag_none n s : formatting_element t s = None -> Agency t (S n) s s true
| ag_closed n s i : formatting_element t s = Some i -> ~ In i (map en_node (s_stack s)) ->
    Agency t (S n) s (set_active (forget i (s_active s)) s) false
| ag_hidden n s i : formatting_element t s = Some i -> In i (map en_node (s_stack s)) ->
    scoped In_default (fun e => (en_node e =? i)%nat) s = false -> Agency t (S n) s s false
| ag_inline n s i : formatting_element t s = Some i -> In i (map en_node (s_stack s)) ->
    scoped In_default (fun e => (en_node e =? i)%nat) s = true -> Forall (fun e => special s e = false) (newer i s) ->
    Agency t (S n) s (popped_through (fun e => (en_node e =? i)%nat) (set_active (forget i (s_active s)) s)) false
| ag_block n s s1 s2 i b : formatting_element t s = Some i ->
    scoped In_default (fun e => (en_node e =? i)%nat) s = true -> Round i s s1 -> Agency t n s1 s2 b -> Agency t (S n) s s2 b.

(** *** Positions *)

Local Notation "a <| e |> b" := (@app formatting a (@cons formatting (@Some entry e) b)) (at level 60).

Lemma index_by_app : forall {A} (f : A -> bool) a b, index_by f (a ++ b) = match index_by f b with Some k => Some (List.length a + k)%nat | None => index_by f a end.
Proof. intros A f a b. induction a as [|x a IH]; cbn; [destruct (index_by f b); reflexivity|]. rewrite IH. destruct (index_by f b); reflexivity. Qed.
Lemma index_by_none : forall {A} (f : A -> bool) l, index_by f l = None <-> existsb f l = false.
Proof. intros A f l. induction l as [|x l IH]; cbn; [tauto|]. destruct (index_by f l); destruct (existsb f l); destruct (f x); cbn; intuition congruence. Qed.
Lemma index_by_split : forall {A} (f : A -> bool) l k, index_by f l = Some k -> exists a x b, l = a ++ x :: b /\ List.length a = k /\ f x = true /\ existsb f b = false.
Proof.
  intros A f l. induction l as [|x l IH]; cbn; intros k H; [discriminate|]. destruct (index_by f l) as [j|] eqn:E.
  - injection H as <-. destruct (IH j eq_refl) as (a & y & b & -> & L & F & N). exists (x :: a), y, b. cbn. auto.
  - destruct (f x) eqn:F; [|discriminate]. injection H as <-. exists [], x, l. apply index_by_none in E. auto.
Qed.
Lemma index_by_here : forall {A} (f : A -> bool) a x b, f x = true -> existsb f b = false -> index_by f (a ++ x :: b) = Some (List.length a).
Proof. intros A f a x b F N. apply index_by_none in N. rewrite index_by_app. cbn. now rewrite N, F, Nat.add_0_r. Qed.
Lemma index_by_map : forall {A} (f : A -> bool) g l, (forall x, In x l -> f (g x) = f x) -> index_by f (map g l) = index_by f l.
Proof. intros A f g l. induction l as [|x l IH]; cbn; intro H; [reflexivity|]. rewrite IH by auto. rewrite H by auto. reflexivity. Qed.
Lemma replace_nth_app : forall {A} (f : A -> A) a x b, replace_nth (List.length a) f (a ++ x :: b) = a ++ f x :: b.
Proof. intros A f a x b. induction a as [|y a IH]; cbn; [reflexivity|]. now rewrite IH. Qed.
Lemma put_at_app : forall {A} (x : A) a b, put_at (List.length a) x (a ++ b) = a ++ x :: b.
Proof. intros A x a b. unfold put_at. rewrite firstn_app, skipn_app, Nat.sub_diag, firstn_all, skipn_all. cbn. now rewrite app_nil_r. Qed.
Lemma nth_error_here : forall {A} (a : list A) x b, nth_error (a ++ x :: b) (List.length a) = Some x.
Proof. intros A a x b. rewrite nth_error_app2, Nat.sub_diag by lia. reflexivity. Qed.
Lemma nth_error_next : forall {A} (a : list A) x y b, nth_error (a ++ x :: y :: b) (S (List.length a)) = Some y.
Proof. intros A a x y b. rewrite nth_error_app2 by lia. replace (S (List.length a) - List.length a)%nat with 1%nat by lia. reflexivity. Qed.

Definition on (i : nat) (e : entry) : bool := (en_node e =? i)%nat.
Lemma on_none : forall i l, ~ In i (map en_node l) -> existsb (on i) l = false.
Proof. intros i l N. destruct (existsb (on i) l) eqn:E; [|reflexivity]. apply existsb_exists in E. destruct E as (e & I & O). apply Nat.eqb_eq in O. exfalso. apply N. subst i. now apply in_map. Qed.
Lemma split_nodup : forall a (e : entry) b, NoDup (map en_node (a ++ e :: b)) -> ~ In (en_node e) (map en_node a) /\ ~ In (en_node e) (map en_node b).
Proof. intros a e b N. rewrite map_app in N. cbn [map] in N. apply NoDup_remove_2 in N. rewrite in_app_iff in N. tauto. Qed.
Lemma stack_index_here : forall s a e b, s_stack s = a ++ e :: b -> NoDup (map en_node (s_stack s)) -> stack_index (en_node e) s = Some (List.length a).
Proof.
  intros s a e b S N. unfold stack_index. rewrite S in *. apply split_nodup in N. apply index_by_here; [apply Nat.eqb_refl|]. now apply (on_none (en_node e)).
Qed.
Lemma before_here : forall s a e x b, s_stack s = a ++ e :: x :: b -> NoDup (map en_node (s_stack s)) -> entry_before (en_node e) s = Val (en_node x).
Proof. intros s a e x b S N. unfold entry_before. rewrite (stack_index_here s a e (x :: b) S N), S, nth_error_next. reflexivity. Qed.
Lemma on_stack_in : forall s i, on_stack i s = true <-> In i (map en_node (s_stack s)).
Proof.
  intros s i. unfold on_stack. rewrite existsb_exists, in_map_iff. split; intros (e & H).
  - exists e. rewrite Nat.eqb_eq in H. tauto.
  - exists e. rewrite Nat.eqb_eq. tauto.
Qed.
Lemma remove_first_here : forall {A} (f : A -> bool) a x b, existsb f a = false -> f x = true -> remove_first f (a ++ x :: b) = Some (a ++ b).
Proof. intros A f a x b. induction a as [|y a IH]; cbn; intros N F; [now rewrite F|]. apply orb_false_iff in N as [N1 N2]. rewrite N1, IH by assumption. reflexivity. Qed.
Lemma existsb_rev : forall {A} (f : A -> bool) l, existsb f (rev l) = existsb f l.
Proof. intros A f l. induction l as [|x l IH]; [reflexivity|]. cbn. rewrite existsb_app, IH. cbn. rewrite orb_false_r. apply orb_comm. Qed.
Lemma remove_front_here : forall {A} (f : A -> bool) a x b, existsb f b = false -> f x = true -> remove_front f (a ++ x :: b) = Some (a ++ b).
Proof.
  intros A f a x b N F. unfold remove_front. rewrite rev_app_distr. cbn [rev]. rewrite <- app_assoc. cbn [app].
  rewrite remove_first_here; [|now rewrite existsb_rev|exact F]. now rewrite <- rev_app_distr, rev_involutive.
Qed.
Lemma remove_stack_here : forall s a e b, s_stack s = a ++ e :: b -> NoDup (map en_node (s_stack s)) -> remove_stack (en_node e) s = Val (set_stack (a ++ b) s).
Proof.
  intros s a e b S N. unfold remove_stack. rewrite S in *. apply split_nodup in N. rewrite remove_front_here; [reflexivity|now apply (on_none (en_node e))|apply Nat.eqb_refl].
Qed.

(** *** The list of active formatting elements *)

Definition single (l : list formatting) : Prop := forall i, (List.length (filter (node_is i) l) <= 1)%nat.
Lemma single_split : forall l i k, single l -> index_by (is_entry i) l = Some k -> exists a e b, l = a <| e |> b /\ List.length a = k /\ en_node e = i /\
  existsb (node_is i) a = false /\ existsb (node_is i) b = false.
Proof.
  intros l i k U H. destruct (index_by_split _ _ _ H) as (a & [e|] & b & -> & L & F & N); [|discriminate]. exists a, e, b.
  apply Nat.eqb_eq in F. split; [reflexivity|]. split; [exact L|]. split; [exact F|]. split; [|exact N].
  specialize (U i). rewrite filter_app in U. cbn [filter node_is] in U. rewrite (proj2 (Nat.eqb_eq _ _) F) in U. rewrite app_length in U. cbn in U.
  destruct (existsb (node_is i) a) eqn:E; [|reflexivity]. apply existsb_exists in E. destruct E as (f & I & X).
  assert (Y : In f (filter (node_is i) a)) by (apply filter_In; auto). destruct (filter (node_is i) a); [destruct Y|]. cbn in U. lia.
Qed.
Lemma forget_none : forall i l, existsb (node_is i) l = false -> forget i l = l.
Proof. intros i l. unfold forget. induction l as [|f l IH]; cbn; intro H; [reflexivity|]. apply orb_false_iff in H as [-> H]. cbn [negb]. now rewrite IH. Qed.
Lemma forget_here : forall i a e b, en_node e = i -> existsb (node_is i) a = false -> existsb (node_is i) b = false -> forget i (a <| e |> b) = a ++ b.
Proof.
  intros i a e b E A B. unfold forget. rewrite filter_app. cbn [filter node_is]. rewrite (proj2 (Nat.eqb_eq _ _) E). cbn [negb].
  fold (forget i a). fold (forget i b). now rewrite !forget_none.
Qed.
Lemma exchange_none : forall i n l, existsb (node_is i) l = false -> exchange i n l = l.
Proof. intros i n l. unfold exchange. induction l as [|f l IH]; cbn; intro H; [reflexivity|]. apply orb_false_iff in H as [-> H]. now rewrite IH. Qed.
Lemma exchange_here : forall i n a e b, en_node e = i -> existsb (node_is i) a = false -> existsb (node_is i) b = false ->
  exchange i n (a <| e |> b) = a <| Entry (en_tag e) n |> b.
Proof.
  intros i n a e b E A B. unfold exchange. rewrite map_app. cbn [map node_is]. rewrite (proj2 (Nat.eqb_eq _ _) E). cbn [option_map].
  fold (exchange i n a). fold (exchange i n b). now rewrite !exchange_none.
Qed.
Lemma filter_le : forall {A} (f g : A -> bool) l, (List.length (filter f (filter g l)) <= List.length (filter f l))%nat.
Proof. intros A f g l. induction l as [|x l IH]; cbn; [lia|]. destruct (g x); cbn; destruct (f x); cbn; lia. Qed.
Lemma single_forget : forall i l, single l -> single (forget i l).
Proof. intros i l U j. unfold forget. eapply Nat.le_trans; [apply filter_le|apply U]. Qed.
Lemma filter_none : forall i l, existsb (node_is i) l = false <-> filter (node_is i) l = [].
Proof. intros i l. induction l as [|f l IH]; cbn; [tauto|]. destruct (node_is i f); cbn; [split; discriminate|exact IH]. Qed.
Lemma single_put : forall n e a b x, en_node x = n -> existsb (node_is n) (a ++ b) = false -> single (a <| e |> b) -> single (a <| x |> b).
Proof.
  intros n e a b x E N U j. specialize (U j). rewrite filter_app, app_length in *. cbn [filter node_is] in *. destruct (en_node x =? j)%nat eqn:X.
  - apply Nat.eqb_eq in X. assert (Z : n = j) by congruence. rewrite Z, existsb_app in N. apply orb_false_iff in N as [N1 N2]. apply filter_none in N1, N2. rewrite N1, N2. cbn. lia.
  - destruct (en_node e =? j)%nat; cbn in *; lia.
Qed.
Definition below (n : nat) (l : list formatting) : Prop := Forall (fun f => match f with Some e => (en_node e < n)%nat | None => True end) l.
Lemma below_none : forall n l, below n l -> existsb (node_is n) l = false.
Proof. intros n l H. induction H as [|[e|] l B H IH]; cbn; auto. rewrite IH, orb_false_r. apply Nat.eqb_neq. lia. Qed.
Lemma below_forget : forall n i l, below n l -> below n (forget i l).
Proof. intros n i l H. unfold forget, below. apply Forall_forall. intros f I. apply filter_In in I as [I _]. unfold below in H. rewrite Forall_forall in H. now apply H. Qed.
Lemma below_up : forall n m l, (n <= m)%nat -> below n l -> below m l.
Proof. intros n m l L H. eapply Forall_impl; [|exact H]. intros [e|]; cbn; lia. Qed.
Lemma marked_forget : forall i b s, single (s_active s) -> in_list i s = true -> exists j, list_index i s = Some j /\
  remove_marked i b s = (set_active (forget i (s_active s)) s,
    match b with None => None | Some k => if (S j =? k)%nat then None else if (S j <? k)%nat then Some (pred k) else Some k end).
Proof.
  intros i b s U H. unfold remove_marked. destruct (list_index i s) as [j|] eqn:E.
  - exists j. split; [reflexivity|]. unfold forget. rewrite <- (remove_list_filter i s (U i)). reflexivity.
  - exfalso. unfold list_index in E. apply index_by_none in E. unfold in_list in H. congruence.
Qed.
(** the position of an entry when another one is forgotten *)
Lemma index_forget : forall l i j m k, single l -> index_by (is_entry i) l = Some j -> index_by (is_entry m) l = Some k -> m <> i ->
  S j = k \/ ((S j < k)%nat /\ index_by (is_entry m) (forget i l) = Some (pred k)) \/ ((k < S j)%nat /\ index_by (is_entry m) (forget i l) = Some k).
Proof.
  intros l i j m k U I M N. destruct (single_split l i j U I) as (a & e & b & -> & L & E & A & B). rewrite (forget_here i a e b E A B).
  rewrite index_by_app in M |- *. cbn [index_by] in M. destruct (index_by (is_entry m) b) as [q|] eqn:Q.
  - injection M as <-. destruct q; [left; lia|right; left]. split; [lia|]. f_equal. lia.
  - cbn [is_entry] in M. destruct (en_node e =? m)%nat eqn:X; [apply Nat.eqb_eq in X; congruence|].
    destruct (index_by_split _ _ _ M) as (a1 & x & a2 & -> & L1 & _). rewrite app_length in L. cbn in L. right. right. split; [lia|exact M].
Qed.

(** *** The state during the algorithm *)

Definition info_of (d : list cell) (i : nat) : info := c_info (cell_of d i).
(** the cells are still there with the same contents *)
Definition Extends (d d' : list cell) : Prop := (List.length d <= List.length d')%nat /\ forall i, (i < List.length d)%nat -> info_of d' i = info_of d i.
Lemma ext_refl : forall d, Extends d d.
Proof. intro d. split; [lia|auto]. Qed.
Lemma ext_trans : forall a b c, Extends a b -> Extends b c -> Extends a c.
Proof. intros a b c [L H] [M G]. split; [lia|]. intros i I. rewrite G by lia. now apply H. Qed.
Lemma ext_change : forall d i f, (forall c, c_info (f c) = c_info c) -> Extends d (change d i f) /\ List.length (change d i f) = List.length d.
Proof.
  intros d i f H. rewrite change_length. split; [|reflexivity]. split; [rewrite change_length; lia|]. intros j _. unfold info_of. rewrite cell_change.
  destruct ((i =? j)%nat && (j <? List.length d)%nat); [apply H|reflexivity].
Qed.
Lemma ext_create : forall d x d1 n, create d x = (d1, n) -> Extends d d1 /\ n = List.length d /\ List.length d1 = S n /\ info_of d1 n = x.
Proof.
  intros d x d1 n [= <- <-]. rewrite app_length. cbn [List.length]. split; [split; [rewrite app_length; lia|]|split; [reflexivity|split; [lia|]]].
  - intros i I. unfold info_of. rewrite cell_app. now rewrite (proj2 (Nat.ltb_lt _ _) I).
  - unfold info_of. rewrite cell_app, Nat.ltb_irrefl, Nat.sub_diag. reflexivity.
Qed.
Lemma ext_move : forall d p n d1, move d p n = Val d1 -> Extends d d1 /\ List.length d1 = List.length d.
Proof.
  intros d p n d1 H. unfold move in H. destruct (above _ _ _ _); [discriminate|]. cbv zeta in H.
  set (q := parent_of d n) in *. set (dd := change d q _) in *.
  assert (A : Extends d dd /\ List.length dd = List.length d) by (apply ext_change; reflexivity). destruct A as [A1 A2].
  destruct (negb _ && _); [injection H as <-; auto|]. destruct (put _ _ _) as [l|]; [|discriminate]. injection H as <-.
  assert (B := ext_change dd (fst p) (set_kids l) (fun _ => eq_refl)). destruct B as [B1 B2].
  assert (C := ext_change (change dd (fst p) (set_kids l)) n (set_parent (fst p)) (fun _ => eq_refl)). destruct C as [C1 C2].
  split; [exact (ext_trans _ _ _ A1 (ext_trans _ _ _ B1 C1))|congruence].
Qed.
Lemma ext_move_all : forall l d to d1, move_all d l to = Val d1 -> Extends d d1 /\ List.length d1 = List.length d.
Proof.
  intros l. induction l as [|x l IH]; cbn; intros d to d1 H; [injection H as <-; split; [apply ext_refl|reflexivity]|].
  destruct (move d (at_end to) x) as [d2| |] eqn:M; try discriminate. apply ext_move in M as [M1 M2]. apply IH in H as [H1 H2].
  split; [exact (ext_trans _ _ _ M1 H1)|congruence].
Qed.
Lemma ns_info : forall d i, ns_of d i = match info_of d i with IElement ns _ _ => ns | _ => ns_of d i end.
Proof. intros. unfold ns_of, info_of. destruct (c_info (cell_of d i)); reflexivity. Qed.

(** the members on which the algorithm depends; with [p] only elements of HTML are open *)
Record Fit (p : bool) (d : list cell) (stack : list entry) (active : list formatting) : Prop := MkFit {
  F_html : p = true -> Forall (fun e => ns_of d (en_node e) = ns_HTML) stack;
  F_once : NoDup (map en_node stack);
  F_single : single active;
  F_stack : Forall (fun e => (en_node e < List.length d)%nat) stack;
  F_active : below (List.length d) active }.
Lemma ext_ns : forall d d' i, Extends d d' -> (i < List.length d)%nat -> ns_of d' i = ns_of d i.
Proof. intros d d' i [_ H] I. specialize (H i I). unfold ns_of, info_of in *. now rewrite H. Qed.
Lemma fit_ext : forall p d d' l a, Extends d d' -> Fit p d l a -> Fit p d' l a.
Proof.
  intros p d d' l a E [H1 H2 H3 H4 H5]. split; auto.
  - intro Hp. specialize (H1 Hp). rewrite Forall_forall in *. intros e I. rewrite (ext_ns d d'); auto.
  - eapply Forall_impl; [|exact H4]. cbn. intros e X. destruct E. lia.
  - apply (below_up (List.length d)); [apply E|exact H5].
Qed.
Lemma fit_drop : forall p d a e b l, Fit p d (a ++ e :: b) l -> Fit p d (a ++ b) l.
Proof.
  intros p d a e b l [H1 H2 H3 H4 H5]. split; auto.
  - intro Hp. specialize (H1 Hp). apply Forall_app in H1 as [A B]. inversion B. now apply Forall_app.
  - rewrite map_app in *. cbn [map] in H2. now apply NoDup_remove_1 in H2.
  - apply Forall_app in H4 as [A B]. inversion B. now apply Forall_app.
Qed.
Lemma fit_forget : forall p d l a i, Fit p d l a -> Fit p d l (forget i a).
Proof. intros p d l a i [H1 H2 H3 H4 H5]. split; auto; [now apply single_forget|now apply below_forget]. Qed.
(** a new element in the stack, in the place of another one or between two *)
Lemma fit_stack : forall p d d1 x n tg a b l, Fit p d (a ++ b) l -> create d x = (d1, n) -> (exists t q, x = IElement ns_HTML t q) -> Fit p d1 (a ++ Entry tg n :: b) l.
Proof.
  intros p d d1 x n tg a b l H C (t & q & ->). destruct (ext_create _ _ _ _ C) as (E & -> & L & I). apply (fit_ext p d d1) in H as G; [|exact E].
  destruct G as [H1 H2 H3 H4 H5]. split; auto.
  - intro Hp. specialize (H1 Hp). apply Forall_app in H1 as [A B]. apply Forall_app. split; [exact A|]. constructor; [|exact B]. cbn [en_node]. unfold ns_of. unfold info_of in I. now rewrite I.
  - rewrite map_app in *. cbn [map en_node]. apply NoDup_Add with (a := List.length d) (l := map en_node a ++ map en_node b); [apply Add_app|]. split; [exact H2|].
    rewrite <- map_app. intro X. apply in_map_iff in X as (e & X & Y). pose proof (F_stack _ _ _ _ H) as Z. rewrite Forall_forall in Z. specialize (Z e Y). lia.
  - apply Forall_app in H4 as [A B]. apply Forall_app. split; [exact A|]. constructor; [cbn; lia|exact B].
Qed.
Lemma fit_exchange : forall p d l a e b n tg, Fit p d l (a <| e |> b) -> existsb (node_is n) (a ++ b) = false -> (n < List.length d)%nat -> Fit p d l (a <| Entry tg n |> b).
Proof.
  intros p d l a e b n tg [H1 H2 H3 H4 H5] N L. split; auto.
  - now apply (single_put n e a b (Entry tg n)).
  - apply Forall_app in H5 as [A B]. apply Forall_app. split; [exact A|]. inversion B. constructor; [exact L|assumption].
Qed.
Lemma element_for_html : forall g x, element_for g ns_HTML = Val x -> exists t q, x = IElement ns_HTML t q.
Proof. intros g x. unfold element_for. destruct (g_atom g); [|destruct (g_text g); [discriminate|]]; intros [= <-]; eauto. Qed.

(** the bookmark of the library against that of the standard *)
Definition Marks (b : bookmark) (mark : option nat) (fe : nat) (l : list formatting) : Prop :=
  b = None \/ (b <> None /\ b = index_by (is_entry (match mark with Some n => n | None => fe end)) l).
Lemma active_same : forall s, set_active (s_active s) s = s.
Proof. intros []. reflexivity. Qed.
Lemma marks_forget : forall b mark fe l i j, Marks b mark fe l -> single l -> index_by (is_entry i) l = Some j -> match mark with Some n => n | None => fe end <> i ->
  Marks (match b with None => None | Some k => if (S j =? k)%nat then None else if (S j <? k)%nat then Some (pred k) else Some k end) mark fe (forget i l).
Proof.
  intros b mark fe l i j M U I N. destruct b as [k|]; [|now left]. destruct M as [M|[_ M]]; [discriminate|]. symmetry in M.
  destruct (index_forget l i j _ k U I M N) as [E|[[E X]|[E X]]].
  - rewrite (proj2 (Nat.eqb_eq _ _) E). now left.
  - replace (S j =? k)%nat with false by (symmetry; apply Nat.eqb_neq; lia). rewrite (proj2 (Nat.ltb_lt _ _) E). right. split; [discriminate|now symmetry].
  - replace (S j =? k)%nat with false by (symmetry; apply Nat.eqb_neq; lia). replace (S j <? k)%nat with false by (symmetry; apply Nat.ltb_ge; lia).
    right. split; [discriminate|now symmetry].
Qed.
Lemma marks_exchange : forall b mark fe l i n, Marks b mark fe l -> match mark with Some m => m | None => fe end <> i -> match mark with Some m => m | None => fe end <> n ->
  Marks b mark fe (exchange i n l).
Proof.
  intros b mark fe l i n [M|[N M]] A B; [now left|right]. split; [exact N|]. rewrite M. unfold exchange. symmetry. apply index_by_map. intros f _.
  destruct (node_is i f) eqn:E; [|reflexivity]. destruct f as [e|]; [|discriminate]. cbn in *. apply Nat.eqb_eq in E.
  rewrite (proj2 (Nat.eqb_neq n _)) by congruence. symmetry. apply Nat.eqb_neq. congruence.
Qed.

Lemma inner_climb : forall pl f fe fb mid pre feE post count node last prev b s mark s' last' b',
  Fit pl (s_dom s) (s_stack s) (s_active s) -> s_stack s = pre ++ mid ++ feE :: post -> en_node feE = fe -> In fb (map en_node pre) ->
  (if on_stack node s then entry_before node s else match prev with Some p => Val p | None => Bad end) = Val (en_node (hd feE mid)) ->
  Marks b mark fe (s_active s) -> (forall m, mark = Some m -> In m (map en_node pre)) -> (last = fb <-> mark = None) ->
  inner f fe fb count node last prev b s = Val (s', last', b') ->
  exists stay d a m, climb (S count) mid (s_dom s) (s_active s) last mark = Val (stay, d, a, last', m) /\
    s' = set_active a (set_stack (pre ++ stay ++ feE :: post) (set_dom d s)) /\ Fit pl d (pre ++ stay ++ feE :: post) a /\ Marks b' m fe a /\
    Extends (s_dom s) d /\ (forall x, m = Some x -> In x (map en_node (pre ++ stay))).
Proof.
  intro pl. induction f as [|f IH]; intros fe fb mid pre feE post count node last prev b s mark s' last' b' F S Ef Fb R M Mp Ml H; [discriminate H|].
  cbn [inner] in H. cbv zeta in H. rewrite R in H. destruct mid as [|e mid].
  { cbn [hd] in H. rewrite Ef, Nat.eqb_refl in H. injection H as <- <- <-. exists [], (s_dom s), (s_active s), mark. cbn [climb app] in *.
    split; [reflexivity|]. split; [rewrite <- S; destruct s; reflexivity|]. rewrite <- S. split; [exact F|]. split; [exact M|]. split; [apply ext_refl|].
    intros x X. rewrite app_nil_r. now apply Mp. }
  cbn [hd app] in *. pose proof (F_once _ _ _ _ F) as U. rewrite S in U. destruct (split_nodup _ _ _ U) as [U1 U2].
  assert (Ne : en_node e <> fe) by (intro X; apply U2; rewrite X, <- Ef, map_app, in_app_iff; right; now left).
  rewrite (proj2 (Nat.eqb_neq _ _) Ne) in H.
  assert (Nm : match mark with Some m => m | None => fe end <> en_node e).
  { destruct mark as [m|]; [|congruence]. intros ->. apply U1, Mp. reflexivity. }
  cbn [climb]. cbv zeta.
  assert (P : exists a1 b1, (if (3 <? Datatypes.S count)%nat && in_list (en_node e) s then remove_marked (en_node e) b s else (s, b)) = (set_active a1 s, b1) /\
    a1 = (if (3 <? Datatypes.S count)%nat then forget (en_node e) (s_active s) else s_active s) /\ Marks b1 mark fe a1 /\ Fit pl (s_dom s) (s_stack s) a1).
  { destruct (3 <? Datatypes.S count)%nat; cbn [andb].
    - destruct (in_list (en_node e) s) eqn:I.
      + destruct (marked_forget (en_node e) b s (F_single _ _ _ _ F) I) as (j & J & ->). eexists; eexists. split; [reflexivity|]. split; [reflexivity|].
        split; [|now apply fit_forget]. apply marks_forget; auto. exact (F_single _ _ _ _ F).
      + exists (s_active s), b. split; [now rewrite active_same|]. split; [symmetry; now apply forget_none|]. auto.
    - exists (s_active s), b. split; [now rewrite active_same|]. auto. }
  destruct P as (a1 & b1 & P & Ea & M1 & F1). rewrite P in H. rewrite <- Ea. clear P Ea M.
  assert (Hd : exists y, mid ++ feE :: post = hd feE mid :: y) by (destruct mid; eexists; reflexivity). destruct Hd as (y & Hd).
  unfold list_index in H. cbn [s_active set_active] in H. destruct (index_by (is_entry (en_node e)) a1) as [j|] eqn:J.
  - assert (X : existsb (node_is (en_node e)) a1 = true).
    { destruct (existsb (node_is (en_node e)) a1) eqn:X; [reflexivity|]. apply index_by_none in X. unfold node_is in X. unfold is_entry in J. congruence. }
    rewrite X.
    assert (K : stack_index (en_node e) (set_active a1 s) = Some (List.length pre)) by (apply (stack_index_here _ pre e (mid ++ feE :: post)); cbn [s_stack set_active]; [exact S|now rewrite S]).
    rewrite K in H. cbn [s_stack set_active] in H. rewrite S, nth_error_here in H. destruct (element_for (en_tag e) ns_HTML) as [x| |] eqn:El; try discriminate.
    cbn [s_dom set_active] in H. destruct (create (s_dom s) x) as [d1 n] eqn:Cr. cbn [s_stack s_dom s_active set_stack set_dom set_active] in H.
    rewrite replace_nth_app in H.
    destruct (single_split a1 (en_node e) j (F_single _ _ _ _ F1) J) as (u & e1 & v & Ev & Lu & Ee & Nu & Nv).
    assert (Ex : replace_nth j (option_map (fun e0 : entry => Entry (en_tag e0) n)) a1 = exchange (en_node e) n a1).
    { rewrite Ev, (exchange_here (en_node e) n u e1 v Ee Nu Nv), <- Lu. rewrite (replace_nth_app _ u). reflexivity. }
    rewrite Ex in H. destruct (move d1 (at_end n) last) as [d2| |] eqn:Mv; try discriminate.
    destruct (ext_create _ _ _ _ Cr) as (E1 & En & L1 & I1). destruct (ext_move _ _ _ _ Mv) as (E2 & L2).
    assert (E12 : Extends (s_dom s) d2) by exact (ext_trans _ _ _ E1 E2).
    assert (Bn : existsb (node_is n) a1 = false) by (rewrite En; apply below_none, (F_active _ _ _ _ F1)).
    assert (Ns : forall i, In i (map en_node (s_stack s)) -> (i < n)%nat).
    { intros i I. apply in_map_iff in I as (z & <- & I). pose proof (F_stack _ _ _ _ F) as Z. rewrite Forall_forall in Z. rewrite En. now apply Z. }
    set (s2 := set_dom d2 _) in H.
    assert (F2 : Fit pl d2 (pre ++ Entry (en_tag e) n :: mid ++ feE :: post) (exchange (en_node e) n a1)).
    { apply (fit_ext pl d1); [exact E2|]. rewrite Ev, (exchange_here (en_node e) n u e1 v Ee Nu Nv). apply (fit_exchange pl d1 _ u e1 v n (en_tag e1)); [|rewrite Ev, existsb_app in Bn; cbn in Bn|lia].
      - apply (fit_stack pl (s_dom s) d1 x n); [|exact Cr|exact (element_for_html _ _ El)]. rewrite S, Ev in F1. now apply fit_drop in F1.
      - apply orb_false_iff in Bn as [B1 B2]. apply orb_false_iff in B2 as [_ B2]. rewrite existsb_app. unfold node_is in *. now rewrite B1, B2. }
    destruct (IH fe fb mid (pre ++ [Entry (en_tag e) n]) feE post (Datatypes.S count) n n prev (if (last =? fb)%nat then Some j else b1) s2
                 (match mark with None => Some n | Some m => Some m end) s' last' b') as (stay & d & a & m & C & Es & Fs & Ms & Xs & Ps).
    + exact F2.
    + subst s2. cbn. rewrite <- app_assoc. reflexivity.
    + exact Ef.
    + rewrite map_app, in_app_iff. now left.
    + assert (On : on_stack n s2 = true) by (apply on_stack_in; subst s2; cbn; rewrite map_app, in_app_iff; right; now left). rewrite On.
      apply (before_here s2 pre (Entry (en_tag e) n) (hd feE mid) y); [subst s2; cbn; now rewrite Hd|exact (F_once _ _ _ _ F2)].
    + subst s2. cbn [s_active set_dom set_active]. destruct (Nat.eqb_spec last fb) as [El'|Nl].
      * apply Ml in El'. subst mark. right. split; [discriminate|]. rewrite Ev, (exchange_here (en_node e) n u e1 v Ee Nu Nv).
        rewrite <- Lu. symmetry. apply index_by_here; [cbn; apply Nat.eqb_refl|]. rewrite Ev, existsb_app in Bn. cbn in Bn.
        apply orb_false_iff in Bn as [_ B2]. now apply orb_false_iff in B2 as [_ B2].
      * destruct mark as [m|]; [|destruct Nl; now apply Ml]. apply (marks_exchange b1 (Some m) fe); [exact M1|exact Nm|].
        intros ->. specialize (Ns n). assert (Z : In n (map en_node (s_stack s))) by (rewrite S, map_app, in_app_iff; left; now apply Mp). specialize (Ns Z). lia.
    + intros m Em. rewrite map_app, in_app_iff. destruct mark as [m0|]; injection Em as <-; [left; now apply Mp|right; now left].
    + split; [|destruct mark; discriminate]. intros ->. specialize (Ns fb). assert (Z : In fb (map en_node (s_stack s))) by (rewrite S, map_app, in_app_iff; now left). specialize (Ns Z). lia.
    + exact H.
    + exists (Entry (en_tag e) n :: stay), d, a, m. subst s2. cbn [s_dom s_active set_dom set_active set_stack] in C, Xs. rewrite C.
      split; [reflexivity|]. rewrite <- app_assoc in Es, Fs, Ps. cbn [app] in *. split; [rewrite Es; destruct s; reflexivity|]. split; [exact Fs|]. split; [exact Ms|].
      split; [exact (ext_trans _ _ _ E12 Xs)|exact Ps].
  - assert (X : existsb (node_is (en_node e)) a1 = false) by (apply index_by_none in J; exact J). rewrite X.
    assert (Bf : entry_before (en_node e) (set_active a1 s) = Val (en_node (hd feE mid))).
    { apply (before_here _ pre e (hd feE mid) y); cbn [s_stack set_active]; [now rewrite S, Hd|now rewrite S]. }
    rewrite Bf in H. rewrite (remove_stack_here (set_active a1 s) pre e (mid ++ feE :: post)) in H; [|exact S|cbn [s_stack set_active]; now rewrite S].
    set (s2 := set_stack _ _) in H. rewrite S in F1.
    destruct (IH fe fb mid pre feE post (Datatypes.S count) (en_node e) last (Some (en_node (hd feE mid))) b1 s2 mark s' last' b') as (stay & d & a & m & C & Es & Fs & Ms & Xs & Ps).
    + exact (fit_drop _ _ _ _ _ _ F1).
    + reflexivity.
    + exact Ef.
    + exact Fb.
    + assert (On : on_stack (en_node e) s2 = false).
      { destruct (on_stack (en_node e) s2) eqn:On; [|reflexivity]. apply on_stack_in in On. subst s2. cbn [s_stack set_stack] in On. rewrite map_app, in_app_iff in On. tauto. }
      now rewrite On.
    + exact M1.
    + exact Mp.
    + exact Ml.
    + exact H.
    + exists stay, d, a, m. split; [exact C|]. split; [rewrite Es; destruct s; reflexivity|]. auto.
Qed.

Lemma lead_split : forall {A} (f : A -> bool) l, exists r, l = lead f l ++ r /\ Forall (fun x => f x = true) (lead f l) /\ (forall x, hd_error r = Some x -> f x = false).
Proof.
  intros A f l. induction l as [|x l (r & E & F & N)]; [exists []; repeat split; [constructor|discriminate]|]. cbn [lead]. destruct (f x) eqn:X.
  - exists r. cbn [app]. split; [now f_equal|]. split; [now constructor|exact N].
  - exists (x :: l). split; [reflexivity|]. split; [constructor|]. cbn. intros y [= <-]. exact X.
Qed.
Lemma find_split : forall {A} (f : A -> bool) l x, find f l = Some x -> exists a b, l = a ++ x :: b /\ f x = true /\ Forall (fun y => f y = false) a.
Proof.
  intros A f l. induction l as [|y l IH]; cbn; intros x H; [discriminate|]. destruct (f y) eqn:E.
  - injection H as <-. exists [], l. auto.
  - destruct (IH x H) as (a & b & -> & X & Y). exists (y :: a), b. auto.
Qed.
Lemma newer_split : forall s i, In i (map en_node (s_stack s)) -> exists fe r, s_stack s = newer i s ++ fe :: r /\ en_node fe = i.
Proof.
  intros s i I. unfold newer. destruct (lead_split (fun e => negb (en_node e =? i)%nat) (s_stack s)) as (r & E & F & N). destruct r as [|fe r].
  - exfalso. rewrite app_nil_r in E. rewrite E in I. apply in_map_iff in I as (e & X & Y). rewrite Forall_forall in F. specialize (F e Y).
    apply (proj2 (Nat.eqb_eq _ _)) in X. rewrite X in F. discriminate.
  - exists fe, r. split; [exact E|]. specialize (N fe eq_refl). apply negb_false_iff in N. now apply Nat.eqb_eq.
Qed.
Lemma beside_put : forall n x l k, single l -> index_by (is_entry n) l = Some k -> put_at k x l = beside n x l.
Proof.
  intros n x l k U H. destruct (single_split l n k U H) as (a & e & b & -> & L & E & A & _). rewrite <- L, (put_at_app x a). clear L U H.
  induction a as [|f a IH]; cbn.
  - now rewrite (proj2 (Nat.eqb_eq _ _) E).
  - cbn in A. apply orb_false_iff in A as [-> A]. now rewrite <- IH.
Qed.
Lemma replaced_put : forall i x l k, single l -> index_by (is_entry i) l = Some k -> put_at k x (forget i l) = map (fun f => if node_is i f then x else f) l.
Proof.
  intros i x l k U H. destruct (single_split l i k U H) as (a & e & b & -> & L & E & A & B). rewrite (forget_here i a e b E A B), <- L, (put_at_app x a).
  rewrite map_app. cbn [map node_is]. rewrite (proj2 (Nat.eqb_eq _ _) E).
  assert (G : forall l, existsb (node_is i) l = false -> map (fun f => if node_is i f then x else f) l = l).
  { clear. induction l as [|f l IH]; cbn; intro H; [reflexivity|]. apply orb_false_iff in H as [-> H]. now rewrite IH. }
  now rewrite (G a A), (G b B).
Qed.
Lemma put_at_in : forall {A} (x : A) k l, exists a b, l = a ++ b /\ put_at k x l = a ++ x :: b.
Proof. intros A x k l. exists (firstn k l), (skipn k l). split; [symmetry; apply firstn_skipn|reflexivity]. Qed.
Lemma single_more : forall a b x n, en_node x = n -> existsb (node_is n) (a ++ b) = false -> single (a ++ b) -> single (a <| x |> b).
Proof.
  intros a b x n E N U j. specialize (U j). rewrite filter_app, app_length in *. cbn [filter node_is]. destruct (en_node x =? j)%nat eqn:X; [|exact U].
  apply Nat.eqb_eq in X. assert (Z : n = j) by congruence. rewrite Z, existsb_app in N. apply orb_false_iff in N as [N1 N2]. apply filter_none in N1, N2. rewrite N1, N2. cbn. lia.
Qed.

Definition Fits (p : bool) (s : st) : Prop := Fit p (s_dom s) (s_stack s) (s_active s).
Definition Same_rest (s s' : st) : Prop := s' = set_active (s_active s') (set_stack (s_stack s') (set_dom (s_dom s') s)) /\ Extends (s_dom s) (s_dom s').
Lemma rest_refl : forall s, Same_rest s s.
Proof. intros []. split; [reflexivity|apply ext_refl]. Qed.
Lemma rest_trans : forall a b c, Same_rest a b -> Same_rest b c -> Same_rest a c.
Proof. intros a b c [A1 A2] [B1 B2]. split; [|exact (ext_trans _ _ _ A2 B2)]. transitivity (set_active (s_active c) (set_stack (s_stack c) (set_dom (s_dom c) b))); [exact B1|]. rewrite A1. reflexivity. Qed.
Lemma fit_skip : forall p d k l a, Fit p d l a -> Fit p d (skipn k l) a.
Proof.
  intros p d k. induction k as [|k IH]; intros l a H; [exact H|]. destruct l as [|e l]; [exact H|]. cbn [skipn]. apply IH. exact (fit_drop p d [] e l a H).
Qed.
Lemma fit_through : forall p i s, Fits p s -> Fits p (popped_through (fun e => (en_node e =? i)%nat) (set_active (forget i (s_active s)) s)).
Proof. intros p i s F. unfold Fits, popped_through. cbn [s_dom s_stack s_active set_stack set_active]. now apply fit_skip, fit_forget. Qed.
Lemma outer_std : forall pl n t s s' b, Fits pl s -> outer n t s = Val (s', b) -> Fits pl s' /\ Same_rest s s' /\ (pl = true -> Agency t n s s' b).
Proof.
  intro pl. induction n as [|n IH]; intros t s s' b F H; cbn [outer] in H.
  { injection H as <- <-. split; [exact F|]. split; [apply rest_refl|constructor]. }
  rewrite named_back_find in H. fold (formatting_element t s) in H. destruct (formatting_element t s) as [i|] eqn:FE; [|injection H as <- <-; split; [exact F|]; split; [apply rest_refl|now constructor]].
  assert (Rl : forall x, s_active x = s_active s -> remove_list i x = set_active (forget i (s_active s)) x).
  { intros x X. unfold forget. rewrite <- X. apply remove_list_filter. rewrite X. apply (F_single _ _ _ _ F). }
  destruct (on_stack i s) eqn:O; cbn [negb] in H.
  2: { injection H as <- <-. rewrite (Rl s eq_refl). split; [now apply fit_forget|]. split; [split; [destruct s; reflexivity|apply ext_refl]|]. intros _. apply ag_closed; [exact FE|]. intro X. apply on_stack_in in X. congruence. }
  apply on_stack_in in O. destruct (in_scope_node default_scope i s) as [sc| |] eqn:Sc; try discriminate.
  assert (Se : pl = true -> scoped In_default (fun e => (en_node e =? i)%nat) s = sc)
    by (intro Hp; exact (scoped_eq In_default (fun e => (en_node e =? i)%nat) (fun n => (n =? i)%nat) s sc (F_html _ _ _ _ F Hp) (fun e => eq_refl) Sc)).
  destruct sc; cbn [negb] in H; [|injection H as <- <-; split; [exact F|]; split; [apply rest_refl|]; intro Hp; apply (ag_hidden t n s i); auto].
  unfold furthest in H. rewrite (after_node_newer i (s_stack s) (F_once _ _ _ _ F) O) in H. fold (newer i s) in H.
  destruct (find (fun e => is_special (s_dom s) (en_node e)) (rev (newer i s))) as [fb|] eqn:Fu.
  2: { injection H as <- <-. rewrite (Rl (pop_until_node i s) eq_refl).
       assert (E : set_active (forget i (s_active s)) (pop_until_node i s) = popped_through (fun e => (en_node e =? i)%nat) (set_active (forget i (s_active s)) s))
         by (rewrite pop_until_node_eq; reflexivity).
       rewrite E. split; [now apply fit_through|]. split; [split; [destruct s; reflexivity|apply ext_refl]|]. intro Hp. apply (ag_inline t n s i FE O (Se Hp)). apply Forall_forall. intros e I. rewrite special_eq. apply (find_none _ _ Fu). now apply -> in_rev. }
  destruct (newer_split s i O) as (fe & r & S & Ei). destruct (find_split _ _ _ Fu) as (u & v & Er & Sp & Ns).
  apply (f_equal (@rev entry)) in Er. rewrite rev_involutive, rev_app_distr in Er. cbn [rev] in Er. rewrite <- app_assoc in Er. cbn [app] in Er. rewrite Er in S.
  set (up := rev v) in *. set (mid := rev u) in *. rewrite <- app_assoc in S. cbn [app] in S.
  assert (U := F_once _ _ _ _ F).
  unfold entry_before in H. assert (K : stack_index i s = Some (List.length (up ++ fb :: mid))).
  { rewrite <- Ei. apply (stack_index_here s (up ++ fb :: mid) fe r); [rewrite <- app_assoc; exact S|exact U]. }
  rewrite K in H. destruct r as [|ca r]; [exfalso; replace (s_stack s) with ((up ++ fb :: mid) ++ [fe]) in H by (rewrite <- app_assoc; now symmetry);
    rewrite (proj2 (nth_error_None _ _)) in H by (rewrite !app_length; cbn; lia); discriminate|].
  replace (nth_error (s_stack s) (Datatypes.S (List.length (up ++ fb :: mid)))) with (Some ca) in H
    by (rewrite S; replace (up ++ fb :: mid ++ fe :: ca :: r) with ((up ++ fb :: mid) ++ fe :: ca :: r) by (now rewrite <- app_assoc); now rewrite nth_error_next).
  unfold list_index in H.
  assert (Fi : exists j, index_by (is_entry i) (s_active s) = Some j).
  { unfold formatting_element in FE. match type of FE with context [find ?g ?z] => destruct (find g z) as [[e|]|] eqn:X end; try discriminate. injection FE as <-. apply find_some in X as [X _].
    destruct (lead_split (fun f => match f with Some _ => true | None => false end) (s_active s)) as (z & Z & _). fold (since (s_active s)) in Z.
    destruct (index_by (is_entry (en_node e)) (s_active s)) eqn:Y; [eauto|]. apply index_by_none in Y. exfalso.
    assert (W : existsb (is_entry (en_node e)) (s_active s) = true) by (apply existsb_exists; exists (Some e); split; [rewrite Z; apply in_or_app; now left|cbn; apply Nat.eqb_refl]). congruence. }
  destruct Fi as (j & J). rewrite J in H. destruct (inner _ _ _ _ _ _ _ _ _) as [[[s1 last] b1]| |] eqn:Inn; try discriminate.
  destruct (inner_climb pl (Datatypes.S (List.length (s_stack s))) i (en_node fb) mid (up ++ [fb]) fe (ca :: r) 0%nat (en_node fb) (en_node fb) None (Some j) s None s1 last b1) as (stay & d & a & m & C & Es & Fs & Ms & Xs & Ps).
  { exact F. }
  { rewrite <- app_assoc. exact S. }
  { exact Ei. }
  { rewrite map_app, in_app_iff. right. now left. }
  { assert (On : on_stack (en_node fb) s = true) by (apply on_stack_in; rewrite S, map_app, in_app_iff; right; now left). rewrite On.
    assert (Hd : exists y, mid ++ fe :: ca :: r = hd fe mid :: y) by (destruct mid; eexists; reflexivity). destruct Hd as (y & Hd).
    apply (before_here s up fb (hd fe mid) y); [now rewrite S, Hd|exact U]. }
  { right. split; [discriminate|now symmetry]. }
  { discriminate. }
  { tauto. }
  { exact Inn. }
  assert (Q : (up ++ [fb]) ++ stay ++ fe :: ca :: r = up ++ fb :: stay ++ fe :: ca :: r) by now rewrite <- app_assoc.
  rewrite Q in Es, Fs. destruct (place_for (en_node ca) s1) as [p| |] eqn:Pl; try discriminate.
  assert (D1 : s_dom s1 = d) by now rewrite Es. rewrite D1 in H. destruct (move d p last) as [d1| |] eqn:Mv; try discriminate.
  set (s2 := set_dom d1 s1) in H.
  assert (S2 : s_stack s2 = (up ++ fb :: stay) ++ fe :: ca :: r) by (subst s2; rewrite Es, <- app_assoc; reflexivity).
  assert (A2 : s_active s2 = a) by (subst s2; now rewrite Es).
  assert (U2 : NoDup (map en_node (s_stack s2))) by (rewrite S2, <- app_assoc; exact (F_once _ _ _ _ Fs)).
  rewrite <- Ei in H at 1. rewrite (stack_index_here s2 _ fe _ S2 U2) in H. rewrite S2, nth_error_here in H.
  destruct (element_for (en_tag fe) ns_HTML) as [x| |] eqn:El; try discriminate. replace (s_dom s2) with d1 in H by reflexivity.
  destruct (create d1 x) as [d2 el] eqn:Cr. destruct (move_all d2 (kids_of d2 (en_node fb)) el) as [d3| |] eqn:Ma; try discriminate.
  destruct (move d3 (at_end (en_node fb)) el) as [d4| |] eqn:Me; try discriminate.
  destruct (ext_move _ _ _ _ Mv) as (X1 & L1). destruct (ext_create _ _ _ _ Cr) as (X2 & En & L2 & I2). destruct (ext_move_all _ _ _ _ Ma) as (X3 & L3). destruct (ext_move _ _ _ _ Me) as (X4 & L4).
  assert (X24 : Extends d2 d4) by exact (ext_trans _ _ _ X3 X4).
  set (s3 := set_dom d4 s2) in H. assert (A3 : s_active s3 = a) by exact A2.
  destruct (remove_marked i b1 s3) as [s4 b4] eqn:Rm. destruct b4 as [k|]; [|discriminate].
  assert (Nn : match m with Some n => n | None => i end = i \/ match m with Some n => n | None => i end <> i) by (destruct m; [destruct (Nat.eq_dec n0 i)|]; auto).
  (* the list of active formatting elements *)
  assert (Rq : s4 = set_active (forget i a) s3 /\ put_at k (Some (Entry (en_tag fe) el)) (forget i a) =
     match m with None => map (fun f => if node_is i f then Some (Entry (en_tag fe) el) else f) a | Some n => beside n (Some (Entry (en_tag fe) el)) (forget i a) end).
  { unfold remove_marked in Rm. unfold list_index in Rm. rewrite A3 in Rm.
    assert (Rs : remove_list i s3 = set_active (forget i a) s3) by (unfold forget; rewrite <- A3; apply remove_list_filter; rewrite A3; apply (F_single _ _ _ _ Fs)).
    destruct m as [n0|].
    - assert (Dn : n0 <> i).
      { intros ->. assert (Z := F_once _ _ _ _ Fs). rewrite <- Ei in Ps. specialize (Ps (en_node fe) eq_refl).
        replace (up ++ fb :: stay ++ fe :: ca :: r) with ((up ++ fb :: stay) ++ fe :: ca :: r) in Z by (now rewrite <- app_assoc).
        apply split_nodup in Z as [Z _]. apply Z. rewrite <- app_assoc in Ps. exact Ps. }
      destruct (index_by (is_entry i) a) as [q|] eqn:Qi.
      + assert (Rm1 := f_equal fst Rm). assert (Rm2 := f_equal snd Rm). cbn [fst snd] in Rm1, Rm2. clear Rm. rewrite Rs in Rm1. split; [now symmetry|]. destruct b1 as [k1|]; [|discriminate]. destruct Ms as [Ms|[_ Ms]]; [discriminate|]. symmetry in Ms.
        destruct (index_forget a i q n0 k1 (F_single _ _ _ _ Fs) Qi Ms Dn) as [E|[[E Y]|[E Y]]].
        * rewrite (proj2 (Nat.eqb_eq _ _) E) in Rm2. discriminate.
        * replace (Datatypes.S q =? k1)%nat with false in Rm2 by (symmetry; apply Nat.eqb_neq; lia). rewrite (proj2 (Nat.ltb_lt _ _) E) in Rm2. injection Rm2 as <-.
          apply beside_put; [apply single_forget, (F_single _ _ _ _ Fs)|exact Y].
        * replace (Datatypes.S q =? k1)%nat with false in Rm2 by (symmetry; apply Nat.eqb_neq; lia). replace (Datatypes.S q <? k1)%nat with false in Rm2 by (symmetry; apply Nat.ltb_ge; lia).
          injection Rm2 as <-. apply beside_put; [apply single_forget, (F_single _ _ _ _ Fs)|exact Y].
      + injection Rm as <- ->. apply index_by_none in Qi. assert (Fo : forget i a = a) by now apply forget_none. rewrite Fo.
        split; [rewrite <- A3; now rewrite active_same|]. destruct Ms as [Ms|[_ Ms]]; [discriminate|]. apply beside_put; [apply (F_single _ _ _ _ Fs)|now symmetry].
    - destruct (index_by (is_entry i) a) as [q|] eqn:Qi.
      + assert (Rm1 := f_equal fst Rm). assert (Rm2 := f_equal snd Rm). cbn [fst snd] in Rm1, Rm2. clear Rm. rewrite Rs in Rm1. split; [now symmetry|]. destruct b1 as [k1|]; [|discriminate]. destruct Ms as [Ms|[_ Ms]]; [discriminate|]. rewrite Qi in Ms. injection Ms as ->.
        replace (Datatypes.S q =? q)%nat with false in Rm2 by (symmetry; apply Nat.eqb_neq; lia). replace (Datatypes.S q <? q)%nat with false in Rm2 by (symmetry; apply Nat.ltb_ge; lia).
        injection Rm2 as <-. apply replaced_put; [apply (F_single _ _ _ _ Fs)|exact Qi].
      + injection Rm as <- ->. destruct Ms as [Ms|[_ Ms]]; [discriminate|congruence]. }
  destruct Rq as [-> Pa]. cbn [s_active set_active] in H. rewrite Pa in H.
  set (act := match m with Some _ => _ | None => _ end) in *.
  (* the stack *)
  rewrite <- Ei in H at 1. rewrite (remove_stack_here _ (up ++ fb :: stay) fe (ca :: r)) in H; [|exact S2|exact U2].
  set (s5 := set_stack ((up ++ fb :: stay) ++ ca :: r) _) in H.
  assert (S5 : s_stack s5 = up ++ fb :: stay ++ ca :: r) by (subst s5; cbn [s_stack set_stack]; now rewrite <- app_assoc).
  assert (F5 : Fit pl d (up ++ fb :: stay ++ ca :: r) a).
  { replace (up ++ fb :: stay ++ ca :: r) with ((up ++ fb :: stay) ++ ca :: r) by (now rewrite <- app_assoc). apply (fit_drop pl d _ fe). now rewrite <- app_assoc. }
  assert (U5 : NoDup (map en_node (s_stack s5))) by (rewrite S5; exact (F_once _ _ _ _ F5)).
  rewrite (stack_index_here s5 up fb _ S5 U5), S5, (put_at_app _ up) in H.
  assert (Rd : Round i s (set_stack (up ++ Entry (en_tag fe) el :: fb :: stay ++ ca :: r) s5)).
  { exists up, fb, mid, fe, ca, r. split; [exact S|]. split; [exact Ei|]. split; [now rewrite special_eq|]. split.
    { apply Forall_forall. intros e I. rewrite special_eq. rewrite Forall_forall in Ns. apply Ns. subst mid. now apply in_rev. }
    exists stay, d, a, last, m. split; [exact C|]. exists p, d1. split; [rewrite <- Es; exact Pl|]. split; [exact Mv|].
    exists x, d2, el, d3, d4. split; [exact El|]. split; [exact Cr|]. split; [exact Ma|]. split; [exact Me|].
    cbv zeta. fold act. subst s5 s3 s2. rewrite Es. destruct s; reflexivity. }
  assert (Nx : Fits pl (set_stack (up ++ Entry (en_tag fe) el :: fb :: stay ++ ca :: r) s5)).
  2: { destruct (IH _ _ _ _ Nx H) as (N1 & N2 & N3). split; [exact N1|]. split; [|intro Hp; exact (ag_block t n s _ s' i b FE (Se Hp) Rd (N3 Hp))].
       apply (rest_trans s (set_stack (up ++ Entry (en_tag fe) el :: fb :: stay ++ ca :: r) s5)); [|exact N2]. split.
       - subst s5 s3 s2. rewrite Es. destruct s; reflexivity.
       - change (Extends (s_dom s) d4). exact (ext_trans _ _ _ Xs (ext_trans _ _ _ X1 (ext_trans _ _ _ X2 X24))). }
  (* the next round *)
  assert (Ga : Fit pl d1 (up ++ fb :: stay ++ ca :: r) a) by (apply (fit_ext pl d); assumption).
  assert (G : Fit pl d4 (up ++ Entry (en_tag fe) el :: fb :: stay ++ ca :: r) a).
  { apply (fit_ext pl d2); [exact X24|]. apply (fit_stack pl d1 d2 x el); [exact Ga|exact Cr|exact (element_for_html _ _ El)]. }
  unfold Fits. replace (s_dom (set_stack (up ++ Entry (en_tag fe) el :: fb :: stay ++ ca :: r) s5)) with d4 by reflexivity.
  change (s_stack (set_stack (up ++ Entry (en_tag fe) el :: fb :: stay ++ ca :: r) s5)) with (up ++ Entry (en_tag fe) el :: fb :: stay ++ ca :: r).
  change (s_active (set_stack (up ++ Entry (en_tag fe) el :: fb :: stay ++ ca :: r) s5)) with act.
  destruct (@put_at_in formatting (Some (Entry (en_tag fe) el)) k (forget i a)) as (g1 & g2 & Eg & Ep).
  assert (Ea : act = g1 <| Entry (en_tag fe) el |> g2) by exact (eq_trans (eq_sym Pa) Ep). rewrite Ea.
  destruct G as [G1 G2 G3 G4 G5]. assert (Bl : below el (forget i a)) by (apply below_forget; rewrite En; exact (F_active _ _ _ _ Ga)).
  split; auto.
  - apply (single_more g1 g2 (Entry (en_tag fe) el) el eq_refl); rewrite <- Eg; [now apply below_none|now apply single_forget].
  - apply (below_forget _ i) in G5. rewrite Eg in G5. apply Forall_app in G5 as [B1 B2]. apply Forall_app. split; [exact B1|]. constructor; [cbn; lia|exact B2].
Qed.
Lemma agency_full : forall pl t s s' b, Fits pl s -> agency t s = Val (s', b) -> Fits pl s' /\ Same_rest s s' /\ (pl = true ->
  if holds (Current [t]) s && match s_stack s with e :: _ => negb (existsb (node_is (en_node e)) (s_active s)) | [] => false end
  then s' = set_stack (tl (s_stack s)) s /\ b = false else Agency t 8 s s' b).
Proof.
  intros pl t s s' b F H. unfold agency, cur in H. cbn [holds]. destruct (s_stack s) as [|e l] eqn:S; [discriminate|].
  rewrite one_of_one. change (in_list (en_node e) s) with (existsb (node_is (en_node e)) (s_active s)) in H.
  destruct (is_html t (s_dom s) (en_node e) && negb (existsb (node_is (en_node e)) (s_active s))) eqn:C.
  - unfold pop in H. rewrite S in H. injection H as <- <-. split; [|split; [split; [destruct s; reflexivity|apply ext_refl]|auto]].
    unfold Fits in *. cbn [s_dom s_stack s_active set_stack]. rewrite S in F. exact (fit_skip pl (s_dom s) 1 _ _ F).
  - now apply outer_std.
Qed.
