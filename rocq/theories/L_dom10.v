(** What stays true of the tree and of the stack while any tokens are read: every node is among the children of its
    parent, parts of tables are in tables, and there is one html, one head and one body. *)
From Coq Require Import ZArith List Bool String Lia Permutation.
From Verif Require Import M_infra M_encoding M_labels M_html M_html_serialize M_dom_names M_dom M_dom2 L_html_serialize L_dom L_dom2.
Import ListNotations.
Open Scope Z_scope.
Open Scope list_scope.

(** *** Outcomes *)

Definition okay {A} (Q : A -> Prop) (r : outcome A) : Prop := match r with Val x => Q x | _ => False end.
Lemma okay_run : forall {A B} (Q : A -> Prop) (P : B -> Prop) (r : outcome A) (f : A -> outcome B),
  okay Q r -> (forall x, Q x -> okay P (f x)) -> okay P (match r with Val x => f x | Bad => Bad | NoFuel => NoFuel end).
Proof. intros A B Q P [x| |] f H K; cbn in *; auto. Qed.
Lemma okay_run2 : forall {A B C} (Q : A * B -> Prop) (P : C -> Prop) (r : outcome (A * B)) (f : A -> B -> outcome C),
  okay Q r -> (forall x y, Q (x, y) -> okay P (f x y)) -> okay P (match r with Val (x, y) => f x y | Bad => Bad | NoFuel => NoFuel end).
Proof. intros A B C Q P [[x y]| |] f H K; cbn in *; auto. Qed.
Lemma okay_weak : forall {A} (Q P : A -> Prop) (r : outcome A), okay Q r -> (forall x, Q x -> P x) -> okay P r.
Proof. intros A Q P [x| |] H K; cbn in *; auto. Qed.

(** *** The tree *)

(** the names of the parents in which an element may be *)
Definition under (t : tname) : option (list tname) :=
  match t with
  | T_td | T_th => Some [T_tr]
  | T_tr => Some [T_tbody; T_tfoot; T_thead]
  | T_tbody | T_tfoot | T_thead | T_caption | T_colgroup => Some [T_table]
  | T_col => Some [T_colgroup]
  | T_head | T_body => Some [T_html]
  | _ => None
  end.
Definition in_family (d : list cell) (ns : Z) (t : tname) (p : nat) : Prop :=
  ns = ns_HTML -> match under t with Some l => is_html_in l d p = true | None => True end /\ (t = T_html -> p = the_document) /\
    tname_of (tstring t) = t.

Record Tree (d : list cell) : Prop := MkTree {
  T_first : c_info (cell_of d 0) = IDocument;
  T_other : c_info (cell_of d 1) = IDocument;
  T_two : (2 <= List.length d)%nat;
  T_parent : forall j, (2 <= j < List.length d)%nat -> In j (kids_of d (parent_of d j));
  T_kids : forall i j, In j (kids_of d i) -> (2 <= j < List.length d)%nat /\ parent_of d j = i;
  T_nodup : forall i, NoDup (kids_of d i);
  T_before : forall j, (2 <= j < List.length d)%nat -> (parent_of d j < j)%nat;
  T_family : forall j, (2 <= j < List.length d)%nat -> in_family d (ns_of d j) (name_of d j) (parent_of d j) }.

(** how many HTML elements have the name *)
Definition count (t : tname) (d : list cell) : nat := List.length (filter (is_html t d) (seq 0 (List.length d))).

(** the nodes of one tree are nodes of the other, with the same names *)
Definition Ext (d d' : list cell) : Prop :=
  (List.length d <= List.length d')%nat /\
  forall i, (i < List.length d)%nat -> ns_of d' i = ns_of d i /\ name_of d' i = name_of d i.
Lemma Ext_refl : forall d, Ext d d.
Proof. intro d. split; [lia|]. auto. Qed.
Lemma Ext_trans : forall a b c, Ext a b -> Ext b c -> Ext a c.
Proof. intros a b c [H1 H2] [K1 K2]. split; [lia|]. intros i I. destruct (H2 i I), (K2 i ltac:(lia)). split; congruence. Qed.

Lemma ns_HTML_0 : ns_HTML <> 0.
Proof. discriminate. Qed.
Lemma html_node : forall d i, ns_of d i = ns_HTML -> (i < List.length d)%nat.
Proof.
  intros d i H. destruct (Nat.lt_ge_cases i (List.length d)) as [L|L]; [exact L|].
  unfold ns_of, cell_of in H. rewrite nth_overflow in H by exact L. now destruct ns_HTML_0.
Qed.
Lemma is_html_ns : forall t d i, is_html t d i = true -> ns_of d i = ns_HTML /\ name_of d i = t.
Proof.
  intros t d i H. unfold is_html, is_el in H. apply andb_prop in H. destruct H as [H1 H2].
  apply Z.eqb_eq in H1. apply teqb_eq in H2. auto.
Qed.
Lemma is_html_eq : forall t d i, ns_of d i = ns_HTML -> is_html t d i = teqb (name_of d i) t.
Proof. intros. unfold is_html, is_el. now rewrite H. Qed.
Lemma is_html_in_eq : forall l d i, ns_of d i = ns_HTML -> is_html_in l d i = among (name_of d i) l.
Proof. intros. unfold is_html_in. now rewrite H. Qed.
Lemma tree_two : forall d i, Tree d -> ns_of d i = ns_HTML -> (2 <= i < List.length d)%nat.
Proof.
  intros d i W H. pose proof (html_node d i H). split; [|assumption].
  unfold ns_of in H. destruct i as [|[|i]]; [| |lia].
  - rewrite (T_first d W) in H. now destruct ns_HTML_0.
  - rewrite (T_other d W) in H. now destruct ns_HTML_0.
Qed.

(** *** Insertion *)

Lemma put_before_spec : forall b n l, In b l -> exists u v, l = u ++ b :: v /\ put_before b n l = Some (u ++ n :: b :: v).
Proof.
  induction l as [|x l IH]; intro I; [destruct I|]. cbn [put_before]. destruct (x =? b)%nat eqn:E.
  - apply Nat.eqb_eq in E. subst. exists [], l. auto.
  - destruct I as [<-|I]; [now rewrite Nat.eqb_refl in E|]. destruct (IH I) as (u & v & -> & P).
    exists (x :: u), v. now rewrite P.
Qed.
Definition good_place (d : list cell) (p : place) : Prop :=
  (fst p < List.length d)%nat /\ match snd p with None => True | Some b => In b (kids_of d (fst p)) end.
Lemma put_good : forall d p n, good_place d p -> exists l, put (snd p) n (kids_of d (fst p)) = Some l /\ Permutation l (n :: kids_of d (fst p)).
Proof.
  intros d [i [b|]] n [H K]; cbn [fst snd put] in *.
  - destruct (put_before_spec b n _ K) as (u & v & E & P). exists (u ++ n :: b :: v). split; [exact P|].
    rewrite E. symmetry. apply Permutation_middle.
  - eexists. split; [reflexivity|]. symmetry. apply Permutation_cons_append.
Qed.
Definition joined (d : list cell) (i : nat) (l : list nat) (x : info) : list cell := change d i (set_kids l) ++ [Cell x i []].
Lemma joined_length : forall d i l x, List.length (joined d i l x) = S (List.length d).
Proof. intros. unfold joined. rewrite app_length, change_length. cbn. lia. Qed.
Lemma joined_old : forall d i l x j, (j < List.length d)%nat ->
  cell_of (joined d i l x) j = if (i =? j)%nat then set_kids l (cell_of d j) else cell_of d j.
Proof.
  intros. unfold joined. rewrite cell_app1 by (now rewrite change_length). rewrite cell_change.
  destruct (i =? j)%nat; [|reflexivity]. apply Nat.ltb_lt in H. now rewrite H.
Qed.
Lemma joined_new : forall d i l x, cell_of (joined d i l x) (List.length d) = Cell x i [].
Proof.
  intros. unfold joined. rewrite <- (change_length d i (set_kids l)). rewrite <- (Nat.add_0_r (List.length _)).
  rewrite cell_app2. reflexivity.
Qed.
Lemma joined_info : forall d i l x j, (j < List.length d)%nat -> c_info (cell_of (joined d i l x) j) = c_info (cell_of d j).
Proof. intros. rewrite joined_old by assumption. now destruct (i =? j)%nat. Qed.
Lemma joined_par : forall d i l x j, (j < List.length d)%nat -> parent_of (joined d i l x) j = parent_of d j.
Proof. intros. unfold parent_of. rewrite joined_old by assumption. now destruct (i =? j)%nat. Qed.
Lemma joined_kids : forall d i l x j, (j < List.length d)%nat ->
  kids_of (joined d i l x) j = if (i =? j)%nat then l else kids_of d j.
Proof. intros. unfold kids_of. rewrite joined_old by assumption. now destruct (i =? j)%nat. Qed.
Lemma joined_ext : forall d i l x, Ext d (joined d i l x).
Proof.
  intros. split; [rewrite joined_length; lia|]. intros j J. unfold ns_of, name_of. now rewrite joined_info.
Qed.
Lemma kids_end : forall d j, (List.length d <= j)%nat -> kids_of d j = [].
Proof. intros. unfold kids_of, cell_of. now rewrite nth_overflow. Qed.
Lemma joined_ns : forall d i l x j, (j < List.length d)%nat -> ns_of (joined d i l x) j = ns_of d j.
Proof. intros. unfold ns_of. now rewrite joined_info. Qed.
Lemma joined_name : forall d i l x j, (j < List.length d)%nat -> name_of (joined d i l x) j = name_of d j.
Proof. intros. unfold name_of. now rewrite joined_info. Qed.
Lemma ext_in : forall d d' l i, Ext d d' -> (i < List.length d)%nat -> is_html_in l d' i = is_html_in l d i.
Proof. intros d d' l i [_ E] I. unfold is_html_in. destruct (E i I) as [-> ->]. reflexivity. Qed.
Lemma ext_is : forall d d' t i, Ext d d' -> (i < List.length d)%nat -> is_html t d' i = is_html t d i.
Proof. intros d d' t i [_ E] I. unfold is_html, is_el. destruct (E i I) as [-> ->]. reflexivity. Qed.

Definition info_ns (x : info) : Z := match x with IElement ns _ _ => ns | _ => 0 end.
Definition info_name (x : info) : tname := match x with IElement _ t _ => t | _ => Other [] end.
Lemma insert_tree : forall d p x, Tree d -> good_place d p -> in_family d (info_ns x) (info_name x) (fst p) ->
  exists d', insert d p x = Val (d', List.length d) /\ Tree d' /\ Ext d d' /\ List.length d' = S (List.length d) /\
    c_info (cell_of d' (List.length d)) = x.
Proof.
  intros d p x W G F. destruct (put_good d p (List.length d) G) as (l & P & M).
  destruct G as [G _]. unfold insert. rewrite P. fold (joined d (fst p) l x).
  exists (joined d (fst p) l x). split; [reflexivity|]. split; [|split; [apply joined_ext|split; [apply joined_length|now rewrite joined_new]]].
  assert (L : forall j, In j (kids_of d (fst p)) -> In j l).
  { intros j J. apply (Permutation_in _ (Permutation_sym M)). now right. }
  assert (N : In (List.length d) l) by (apply (Permutation_in _ (Permutation_sym M)); now left).
  pose proof (T_two d W) as T2.
  constructor.
  - rewrite joined_info by lia. apply W.
  - rewrite joined_info by lia. apply W.
  - rewrite joined_length. lia.
  - intros j J. rewrite joined_length in J. destruct (Nat.eq_dec j (List.length d)) as [->|D].
    + unfold parent_of. rewrite joined_new. cbn [c_parent]. rewrite joined_kids by exact G. now rewrite Nat.eqb_refl.
    + rewrite joined_par by lia. pose proof (T_before d W j ltac:(lia)). rewrite joined_kids by lia.
      pose proof (T_parent d W j ltac:(lia)) as I. destruct (fst p =? parent_of d j)%nat eqn:E; [|exact I].
      apply Nat.eqb_eq in E. rewrite <- E in I. auto.
  - intros i j I. rewrite joined_length. destruct (Nat.lt_ge_cases i (List.length d)) as [Li|Li].
    + rewrite joined_kids in I by exact Li. destruct (fst p =? i)%nat eqn:E.
      * apply Nat.eqb_eq in E. subst i. apply (Permutation_in _ M) in I. destruct I as [<-|I].
        -- split; [lia|]. unfold parent_of. now rewrite joined_new.
        -- destruct (T_kids d W _ _ I). split; [lia|]. rewrite joined_par by lia. assumption.
      * destruct (T_kids d W _ _ I). split; [lia|]. rewrite joined_par by lia. assumption.
    + destruct (Nat.eq_dec i (List.length d)) as [->|D].
      * unfold kids_of in I. rewrite joined_new in I. destruct I.
      * rewrite kids_end in I by (rewrite joined_length; lia). destruct I.
  - intro i. destruct (Nat.lt_ge_cases i (List.length d)) as [Li|Li].
    + rewrite joined_kids by exact Li. destruct (fst p =? i)%nat eqn:E; [|apply W].
      apply (Permutation_NoDup (Permutation_sym M)). constructor; [|apply W].
      intro I. apply (T_kids d W) in I. lia.
    + destruct (Nat.eq_dec i (List.length d)) as [->|D].
      * unfold kids_of. rewrite joined_new. constructor.
      * rewrite kids_end by (rewrite joined_length; lia). constructor.
  - intros j J. rewrite joined_length in J. destruct (Nat.eq_dec j (List.length d)) as [->|D].
    + unfold parent_of. rewrite joined_new. exact G.
    + rewrite joined_par by lia. apply (T_before d W). lia.
  - intros j J. rewrite joined_length in J. destruct (Nat.eq_dec j (List.length d)) as [->|D].
    + unfold ns_of, name_of, parent_of. rewrite joined_new. cbn [c_info c_parent]. intro E.
      destruct (F E) as [F1 F2]. split; [|exact F2]. change (match x with IElement _ t _ => t | _ => Other [] end) with (info_name x).
      destruct (under (info_name x)); [|exact I]. rewrite (ext_in d); [exact F1|apply joined_ext|exact G].
    + rewrite joined_ns, joined_name, joined_par by lia. intro E.
      destruct (T_family d W j ltac:(lia) E) as [F1 F2]. split; [|exact F2].
      destruct (under (name_of d j)); [|exact I]. rewrite (ext_in d); [exact F1|apply joined_ext|].
      pose proof (T_before d W j ltac:(lia)). lia.
Qed.
Lemma count_insert : forall t d d' , Ext d d' -> List.length d' = S (List.length d) ->
  count t d' = (count t d + (if is_html t d' (List.length d) then 1 else 0))%nat.
Proof.
  intros t d d' E L. unfold count. rewrite L, seq_S, filter_app, app_length. cbn [filter Nat.add].
  f_equal; [|now destruct (is_html t d' (List.length d))].
  f_equal. apply filter_ext_in. intros i I. apply in_seq in I. apply ext_is; [exact E|lia].
Qed.

(** the text of a text node, or the attributes of an element, are changed *)
Definition same_kind (x y : info) : Prop := info_ns x = info_ns y /\ info_name x = info_name y /\ (x = IDocument <-> y = IDocument).
Lemma change_tree : forall d i (f : cell -> cell), Tree d ->
  (forall c, c_kids (f c) = c_kids c /\ c_parent (f c) = c_parent c) -> same_kind (c_info (cell_of d i)) (c_info (f (cell_of d i))) ->
  Tree (change d i f) /\ Ext d (change d i f) /\ List.length (change d i f) = List.length d /\ (forall t, count t (change d i f) = count t d).
Proof.
  intros d i f W F K.
  assert (L := change_length d i f).
  assert (Hk : forall j, kids_of (change d i f) j = kids_of d j).
  { intro j. unfold kids_of. rewrite cell_change. destruct (_ && _); [apply F|reflexivity]. }
  assert (Hp : forall j, parent_of (change d i f) j = parent_of d j).
  { intro j. unfold parent_of. rewrite cell_change. destruct (_ && _); [apply F|reflexivity]. }
  assert (Hi : forall j, same_kind (c_info (cell_of d j)) (c_info (cell_of (change d i f) j))).
  { intro j. rewrite cell_change. destruct ((i =? j)%nat && _) eqn:E; [|repeat split; auto].
    apply andb_prop in E. destruct E as [E _]. apply Nat.eqb_eq in E. now subst. }
  assert (Hn : forall j, ns_of (change d i f) j = ns_of d j) by (intro j; symmetry; apply (Hi j)).
  assert (Ht : forall j, name_of (change d i f) j = name_of d j) by (intro j; symmetry; apply (Hi j)).
  assert (HE : Ext d (change d i f)) by (split; [lia|auto]).
  split; [|split; [exact HE|split; [exact L|]]].
  - constructor.
    + apply (Hi 0%nat). apply W.
    + apply (Hi 1%nat). apply W.
    + rewrite L. apply W.
    + intros j J. rewrite L in J. rewrite Hp, Hk. now apply W.
    + intros a j J. rewrite Hk in J. rewrite L, Hp. now apply W.
    + intro a. rewrite Hk. apply W.
    + intros j J. rewrite L in J. rewrite Hp. now apply W.
    + intros j J. rewrite L in J. rewrite Hn, Ht, Hp. intro E. destruct (T_family d W j J E) as [F1 F2]. split; [|exact F2].
      destruct (under (name_of d j)); [|exact I]. unfold is_html_in. rewrite Hn, Ht. exact F1.
  - intro t. unfold count. rewrite L. f_equal. apply filter_ext. intro a. unfold is_html, is_el. now rewrite Hn, Ht.
Qed.

(** *** The stack *)

(** the other names: they may be anywhere, and the end tag of one of them or of a block may close them *)
Definition firm : list tname :=
  [T_td; T_th; T_tr; T_tbody; T_tfoot; T_thead; T_caption; T_colgroup; T_col; T_table; T_select; T_body; T_head; T_html;
   T_template; T_frameset].
Definition loose (t : tname) : Prop := among t firm = false.
Definition good_tag (g : stag) : Prop :=
  (g_atom g = true \/ (g_text g <> [] /\ tname_of (g_text g) = g_id g)) /\ tname_of (tstring (g_id g)) = g_id g.
Definition nm (d : list cell) (e : entry) : tname := name_of d (en_node e).
Definition names (s : st) : list tname := map (nm (s_dom s)) (s_stack s).

Record World (s : st) : Prop := MkWorld {
  W_tree : Tree (s_dom s);
  W_stack : Forall (fun e => ns_of (s_dom s) (en_node e) = ns_HTML) (s_stack s);
  W_active : Forall (fun f => match f with Some e => good_tag (en_tag e) /\ loose (g_id (en_tag e)) | None => True end) (s_active s);
  W_fragment : s_fragment s = false;
  W_templates : s_templates s = [];
  W_form : match s_form s with Some i => is_html T_form (s_dom s) i = true | None => True end;
  W_head : match s_head s with Some i => is_html T_head (s_dom s) i = true | None => True end }.

Definition ones : list tname := [T_html; T_head; T_body].
Record Same (s s' : st) : Prop := MkSame {
  Same_mode : s_mode s' = s_mode s; Same_original : s_original s' = s_original s; Same_foster : s_foster s' = s_foster s;
  Same_head : s_head s' = s_head s; Same_pending : s_pending s' = s_pending s;
  Same_count : forall t, In t ones -> count t (s_dom s') = count t (s_dom s); Same_ext : Ext (s_dom s) (s_dom s') }.
Lemma Same_refl : forall s, Same s s.
Proof. intro s. constructor; auto using Ext_refl. Qed.
Lemma Same_trans : forall a b c, Same a b -> Same b c -> Same a c.
Proof.
  intros a b c [] []. constructor; try congruence.
  - intros t I. rewrite Same_count1, Same_count0 by exact I. reflexivity.
  - eauto using Ext_trans.
Qed.

Lemma names_ext : forall d d' l, Ext d d' -> Forall (fun e => ns_of d (en_node e) = ns_HTML) l ->
  map (nm d') l = map (nm d) l /\ Forall (fun e => ns_of d' (en_node e) = ns_HTML) l.
Proof.
  intros d d' l [_ E]. induction l as [|e l IH]; intro H; [auto|]. inversion H as [|? ? H1 H2]; subst.
  destruct (IH H2) as [I1 I2]. destruct (E _ (html_node _ _ H1)) as [E1 E2]. split.
  - cbn [map]. unfold nm at 1 3. now rewrite E2, I1.
  - constructor; [congruence|exact I2].
Qed.

(** a place for a node *)
Lemma index_of_spec : forall f l k, index_of f l = Some k -> exists e, nth_error l k = Some e /\ f (en_node e) = true.
Proof.
  induction l as [|e l IH]; intros k H; [discriminate|]. cbn [index_of] in H. destruct (f (en_node e)) eqn:E.
  - injection H as <-. exists e. auto.
  - destruct (index_of f l) as [j|]; [|discriminate]. injection H as <-. destruct (IH j eq_refl) as (x & X). exists x. exact X.
Qed.
Lemma last_in : forall {A} (l : list A) x, last l x = x \/ In (last l x) l.
Proof.
  induction l as [|y l IH]; intro x; [now left|]. right. destruct l as [|z l]; [now left|].
  change (last (y :: z :: l) x) with (last (z :: l) x). destruct (IH x) as [E|I]; [|now right].
  right. clear IH. revert z E. induction l as [|q l IH]; intros z E; [now left|].
  change (last (z :: q :: l) x) with (last (q :: l) x) in *. right. now apply IH.
Qed.
Definition Rooted (s : st) : Prop := exists u, names s = u ++ [T_html].
Lemma front_ok : forall s, World s -> names s <> [] -> okay (fun i => ns_of (s_dom s) i = ns_HTML) (front s).
Proof.
  intros s W N. unfold front, names in *. destruct (s_stack s) as [|e r] eqn:E; [now elim N|]. cbn [okay].
  pose proof (W_stack s W) as F. rewrite E, Forall_forall in F. destruct (last_in r e) as [->|I]; apply F; [now left|now right].
Qed.
Lemma place_ok : forall t s, World s -> Rooted s -> ns_of (s_dom s) t = ns_HTML ->
  okay (fun p => good_place (s_dom s) p /\ (s_foster s = false -> p = at_end t)) (place_for t s).
Proof.
  intros t s W (u & N) H. pose proof (W_tree s W) as T. unfold place_for.
  destruct (s_foster s) eqn:Ef; cbn [andb].
  2:{ cbn. split; [|reflexivity]. split; [now apply html_node|exact I]. }
  destruct (is_html_in _ _ t).
  2:{ cbn. split; [|discriminate]. split; [now apply html_node|exact I]. }
  assert (F : forall e, In e (s_stack s) -> ns_of (s_dom s) (en_node e) = ns_HTML)
    by (apply Forall_forall; apply W).
  destruct (index_of (is_html T_table (s_dom s)) (s_stack s)) as [k|] eqn:Ek.
  - destruct (index_of_spec _ _ _ Ek) as (e & E1 & E2). rewrite E1.
    assert (G : forall r : outcome place, okay (fun p => good_place (s_dom s) p /\ (true = false -> p = at_end t)) r ->
      okay (fun p => good_place (s_dom s) p /\ (true = false -> p = at_end t))
        match match index_of (is_html T_template (s_dom s)) (s_stack s) with
              | Some j => if (j <? k)%nat then nth_error (s_stack s) j else None | None => None end with
        | Some x => Val (at_end (en_node x)) | None => r end).
    { intros r R. destruct (index_of (is_html T_template (s_dom s)) (s_stack s)) as [j|] eqn:Ej; [|exact R].
      destruct (j <? k)%nat; [|exact R]. destruct (index_of_spec _ _ _ Ej) as (x & X1 & X2). rewrite X1. cbn.
      split; [|discriminate]. split; [|exact I]. apply html_node. apply F. now apply nth_error_In in X1. }
    apply G. clear G.
    assert (L : (2 <= en_node e < List.length (s_dom s))%nat) by (apply tree_two; [exact T|apply F; now apply nth_error_In in E1]).
    destruct (parent_of (s_dom s) (en_node e) =? the_document)%nat eqn:Ed.
    + apply Nat.eqb_eq in Ed. destruct (nth_error (s_stack s) (S k)) as [x|] eqn:X.
      * cbn. split; [|discriminate]. split; [|exact I]. apply html_node. apply F. now apply nth_error_In in X.
      * exfalso. apply nth_error_None in X. assert (k < List.length (s_stack s))%nat by (apply nth_error_Some; congruence).
        assert (K : nth_error (names s) k = Some T_table).
        { unfold names. erewrite map_nth_error by exact E1. f_equal. now apply is_html_ns in E2. }
        assert (Q : List.length (names s) = List.length (s_stack s)) by apply map_length.
        rewrite N in K, Q. rewrite app_length in Q. cbn in Q. rewrite nth_error_app2 in K by lia.
        replace (k - List.length u)%nat with O in K by lia. discriminate.
    + cbn. split; [|discriminate]. split; cbn [fst snd].
      * pose proof (T_before _ T _ L). lia.
      * apply T. exact L.
  - assert (N1 : names s <> []) by (rewrite N; destruct u; discriminate).
    apply (okay_run _ _ _ _ (front_ok s W N1)). intros i Hi. cbn. split; [|discriminate]. split; [now apply html_node|exact I].
Qed.

(** *** Insertions *)

Lemma element_ok : forall g ns, good_tag g -> exists l, element_for g ns = Val (IElement ns (g_id g) l).
Proof.
  intros g ns [[H|[H1 H2]] _]; unfold element_for.
  - rewrite H. eauto.
  - destruct (g_atom g); [eauto|]. destruct (g_text g) eqn:E; [now elim H1|]. rewrite H2. eauto.
Qed.
Definition fits (s : st) (t : tname) : Prop :=
  (under t = None /\ t <> T_html) \/
  (t <> T_html /\ s_foster s = false /\ exists a r l, names s = a :: r /\ under t = Some l /\ among a l = true).
Definition Grown (t : tname) (s s' : st) : Prop :=
  World s' /\ names s' = t :: names s /\ Ext (s_dom s) (s_dom s') /\
  (forall u, count u (s_dom s') = (count u (s_dom s) + (if teqb t u then 1 else 0))%nat) /\
  exists e d, s' = set_stack (e :: s_stack s) (set_dom d s) /\ is_html t d (en_node e) = true.
Lemma rooted_names : forall s, Rooted s -> exists e r, s_stack s = e :: r.
Proof. intros s (u & N). unfold names in N. destruct (s_stack s) as [|e r]; [destruct u; discriminate|eauto]. Qed.
Lemma insert_el_ok : forall g s, World s -> Rooted s -> good_tag g -> fits s (g_id g) ->
  okay (fun p => Grown (g_id g) s (fst p) /\ is_html (g_id g) (s_dom (fst p)) (snd p) = true) (insert_el g s).
Proof.
  intros g s W R G F. unfold insert_el, insert_foreign. destruct (rooted_names s R) as (c & r & Es).
  assert (Hc : ns_of (s_dom s) (en_node c) = ns_HTML).
  { pose proof (W_stack s W) as A. rewrite Es in A. now inversion A. }
  unfold cur. rewrite Es. cbv beta iota.
  apply (okay_run _ _ _ _ (place_ok (en_node c) s W R Hc)). intros p [P1 P2].
  destruct (element_ok g ns_HTML G) as (l & ->). cbv beta iota.
  destruct (insert_tree (s_dom s) p (IElement ns_HTML (g_id g) l) (W_tree s W) P1) as (d & -> & T & X & L & I).
  { cbn [info_ns info_name]. intros _. destruct F as [[F1 F2]|(F0 & F1 & a & q & m & F2 & F3 & F4)].
    - rewrite F1. split; [exact Logic.I|]. split; [intro; contradiction|apply G].
    - rewrite F3. rewrite (P2 F1). cbn [fst at_end]. split; [|split; [intro; contradiction|apply G]].
      unfold names in F2. rewrite Es in F2. injection F2 as F2 _. rewrite is_html_in_eq by exact Hc. unfold nm in F2. now rewrite F2. }
  cbv beta iota. cbn [okay fst snd]. rewrite <- ?Es.
  assert (Hn : ns_of d (List.length (s_dom s)) = ns_HTML) by (unfold ns_of; now rewrite I).
  assert (Ht : name_of d (List.length (s_dom s)) = g_id g) by (unfold name_of; now rewrite I).
  destruct (names_ext _ _ _ X (W_stack s W)) as [N1 N2].
  assert (Hh : is_html (g_id g) d (List.length (s_dom s)) = true) by (rewrite is_html_eq by exact Hn; rewrite Ht; apply teqb_refl).
  assert (old : forall i t, is_html t (s_dom s) i = true -> is_html t d i = true).
  { intros i t H. rewrite (ext_is (s_dom s)); [exact H|exact X|]. apply is_html_ns in H. now apply html_node. }
  split; [|cbn; exact Hh]. split; [|split; [|split; [|split]]].
  - destruct W. constructor; cbn; auto.
    + destruct (s_form s); auto.
    + destruct (s_head s); auto.
  - cbn. unfold names. cbn. unfold nm at 1. cbn. now rewrite Ht, N1.
  - exact X.
  - intro t. cbn [s_dom set_stack set_dom]. rewrite (count_insert t _ _ X L). rewrite is_html_eq by exact Hn. now rewrite Ht.
  - eexists _, d. split; [reflexivity|]. exact Hh.
Qed.
Lemma insert_el'_ok : forall g s, World s -> Rooted s -> good_tag g -> fits s (g_id g) ->
  okay (Grown (g_id g) s) (insert_el' g s).
Proof.
  intros. unfold insert_el'. apply (okay_run2 _ _ _ _ (insert_el_ok g s H H0 H1 H2)). intros x y [K _]. exact K.
Qed.
Lemma grown_same : forall t s s', Grown t s s' -> among t ones = false -> Same s s'.
Proof.
  intros t s s' (W & N & X & C & e & d & E & H) A. subst s'. constructor; try reflexivity; [|exact X].
  intros u U. rewrite C. destruct (teqb t u) eqn:T; [|lia]. apply teqb_eq in T. subst u. apply among_In in U. congruence.
Qed.
(** an element is put in and taken off the stack *)
Definition Still (s s' : st) : Prop := World s' /\ s_stack s' = s_stack s /\ names s' = names s /\ Same s s'.
Lemma Still_refl : forall s, World s -> Still s s.
Proof. intros s W. split; [exact W|]. split; [reflexivity|]. split; [reflexivity|apply Same_refl]. Qed.
Lemma insert_void_ok : forall g s, World s -> Rooted s -> good_tag g -> fits s (g_id g) -> among (g_id g) ones = false ->
  okay (Still s) (insert_void g s).
Proof.
  intros g s W R G F A. unfold insert_void. apply (okay_run _ _ _ _ (insert_el'_ok g s W R G F)). intros s1 K.
  pose proof (grown_same _ _ _ K A) as K1. destruct K as (W1 & N & X & C & e & d & -> & H). cbn in N.
  unfold pop. cbn [s_stack set_stack]. cbv beta iota. cbn [okay]. split; [|split; [reflexivity|split]].
  - destruct W1. constructor; cbn in *; auto. now inversion W_stack0.
  - unfold names in *. cbn in *. now injection N.
  - destruct K1. constructor; auto.
Qed.

Lemma in_front_ok : forall b l prev, In b l -> exists r, in_front b l prev = Some r /\ (forall t, r = Some t -> prev = Some t \/ In t l).
Proof.
  induction l as [|x l IH]; intros prev I; [destruct I|]. cbn [in_front]. destruct (x =? b)%nat eqn:E.
  - exists prev. auto.
  - destruct I as [->|I]; [now rewrite Nat.eqb_refl in E|]. destruct (IH (Some x) I) as (r & R & Q). exists r. split; [exact R|].
    intros t T. destruct (Q t T) as [Q1|Q1]; right; [left; congruence|now right].
Qed.
Lemma text_ok : forall x p s, World s -> good_place (s_dom s) p -> info_ns x = 0 ->
  okay (fun q => Still s (set_dom (fst q) s)) (insert (s_dom s) p x).
Proof.
  intros x p s W P Hx. destruct (insert_tree (s_dom s) p x (W_tree s W) P) as (d & -> & T & X & L & I).
  { intro E. rewrite E in Hx. discriminate. }
  cbn [okay fst].
  destruct (names_ext _ _ _ X (W_stack s W)) as [N1 N2].
  assert (old : forall i t, is_html t (s_dom s) i = true -> is_html t d i = true).
  { intros i t H. rewrite (ext_is (s_dom s)); [exact H|exact X|]. apply is_html_ns in H. now apply html_node. }
  split; [|split; [reflexivity|split; [exact N1|]]].
  - destruct W. constructor; cbn; auto.
    + destruct (s_form s); auto.
    + destruct (s_head s); auto.
  - constructor; try reflexivity; [|exact X]. intros t _. cbn [s_dom set_stack set_dom]. rewrite (count_insert t _ _ X L).
    assert (E : is_html t d (List.length (s_dom s)) = false).
    { unfold is_html, is_el, ns_of. rewrite I. change (match x with IElement ns _ _ => ns | _ => 0 end) with (info_ns x). now rewrite Hx. }
    rewrite E. lia.
Qed.
Lemma still_change : forall i f s, World s -> (forall c, c_kids (f c) = c_kids c /\ c_parent (f c) = c_parent c) ->
  same_kind (c_info (cell_of (s_dom s) i)) (c_info (f (cell_of (s_dom s) i))) -> Still s (set_dom (change (s_dom s) i f) s).
Proof.
  intros i f s W F K. destruct (change_tree _ i f (W_tree s W) F K) as (T & X & L & C).
  destruct (names_ext _ _ _ X (W_stack s W)) as [N1 N2].
  assert (old : forall j t, is_html t (s_dom s) j = true -> is_html t (change (s_dom s) i f) j = true).
  { intros j t H. rewrite (ext_is (s_dom s)); [exact H|exact X|]. apply is_html_ns in H. now apply html_node. }
  split; [|split; [reflexivity|split; [exact N1|]]].
  - destruct W. constructor; cbn; auto.
    + destruct (s_form s); auto.
    + destruct (s_head s); auto.
  - constructor; try reflexivity; [|exact X]. intros t _. apply C.
Qed.
Lemma insert_char_ok : forall c s, World s -> Rooted s -> okay (Still s) (insert_char c s).
Proof.
  intros c s W R. destruct (rooted_names s R) as (e & r & Es).
  assert (Hc : ns_of (s_dom s) (en_node e) = ns_HTML).
  { pose proof (W_stack s W) as A. rewrite Es in A. now inversion A. }
  unfold insert_char, cur. rewrite Es. cbv beta iota.
  apply (okay_run _ _ _ _ (place_ok (en_node e) s W R Hc)). intros p [P1 P2].
  destruct (fst p =? the_document)%nat; [cbn; now apply Still_refl|].
  assert (B : exists r, before_place (s_dom s) p = Some r).
  { destruct P1 as [_ P1]. unfold before_place. destruct (snd p) as [b|]; [|eauto].
    destruct (in_front_ok b _ None P1) as (q & Q & _). eauto. }
  destruct B as (q & ->).
  assert (K : okay (Still s) (run (d, _) <- insert (s_dom s) p (IText [c]); Val (set_dom d s))).
  { apply (okay_run2 _ _ _ _ (text_ok (IText [c]) p s W P1 eq_refl)). intros x y Q. exact Q. }
  destruct q as [t|]; [|exact K].
  destruct (c_info (cell_of (s_dom s) t)) eqn:E; try exact K.
  cbn [okay]. apply still_change; [exact W|intros []; split; reflexivity|].
  rewrite E. cbn. split; [reflexivity|]. split; [reflexivity|]. split; discriminate.
Qed.
Lemma insert_comment_at_ok : forall x p s, World s -> good_place (s_dom s) p -> okay (Still s) (insert_comment_at x p s).
Proof.
  intros x p s W P. unfold insert_comment_at. apply (okay_run2 _ _ _ _ (text_ok (IComment x) p s W P eq_refl)).
  intros d y Q. exact Q.
Qed.
Lemma insert_comment_ok : forall x s, World s -> Rooted s -> okay (Still s) (insert_comment x s).
Proof.
  intros x s W R. destruct (rooted_names s R) as (e & r & Es).
  assert (Hc : ns_of (s_dom s) (en_node e) = ns_HTML).
  { pose proof (W_stack s W) as A. rewrite Es in A. now inversion A. }
  unfold insert_comment, cur. rewrite Es. cbv beta iota.
  apply (okay_run _ _ _ _ (place_ok (en_node e) s W R Hc)). intros p [P1 P2]. now apply insert_comment_at_ok.
Qed.
