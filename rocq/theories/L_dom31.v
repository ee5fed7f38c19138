(** The insertion modes of the library take the steps of the standard. *)
From Coq Require Import ZArith List Bool String Lia.
From Verif Require Import M_infra M_encoding M_labels M_html M_html_serialize M_dom_names M_dom M_dom2 L_dom L_dom30.
Import ListNotations.
Open Scope Z_scope.
Open Scope dom_scope.
Open Scope list_scope.

(** *** Words *)

Lemma one_of_one : forall t s e, one_of [t] s e = is_html t (s_dom s) (en_node e).
Proof. intros. unfold one_of, is_html, is_el. cbn [existsb]. now rewrite orb_false_r. Qed.
Lemma one_of_in : forall l s e, one_of l s e = is_html_in l (s_dom s) (en_node e).
Proof. reflexivity. Qed.
Lemma lead_ext : forall {A} (f g : A -> bool) l, (forall x, f x = g x) -> lead f l = lead g l.
Proof. intros A f g l H. induction l as [|x l IH]; [reflexivity|]. cbn. now rewrite H, IH. Qed.
Lemma find_ext : forall {A} (f g : A -> bool) l, (forall x, f x = g x) -> find f l = find g l.
Proof. intros A f g l H. induction l as [|x l IH]; [reflexivity|]. cbn. now rewrite H, IH. Qed.
Lemma find_ext_in : forall {A} (f g : A -> bool) l, (forall x, In x l -> f x = g x) -> find f l = find g l.
Proof.
  intros A f g l H. induction l as [|x l IH]; [reflexivity|]. cbn. rewrite (H x) by now left.
  rewrite IH; [reflexivity|]. intros y Y. apply H. now right.
Qed.
Lemma drop_to_lead : forall f l, drop_to f l = skipn (S (List.length (lead (fun e => negb (f (en_node e))) l))) l.
Proof. intros f l. induction l as [|e l IH]; [reflexivity|]. cbn. destruct (f (en_node e)); cbn [negb]; [reflexivity|]. exact IH. Qed.
Lemma pop_until_eq : forall t s, pop_until t s = popped_through (one_of [t] s) s.
Proof.
  intros. unfold pop_until, popped_through. rewrite drop_to_lead. do 4 f_equal. apply lead_ext. intro e. now rewrite one_of_one.
Qed.
Lemma pop_until_any_eq : forall l s, pop_until_any l s = popped_through (one_of l s) s.
Proof. intros. unfold pop_until_any, popped_through. now rewrite drop_to_lead. Qed.
Lemma pop_until_node_eq : forall i s, pop_until_node i s = popped_through (fun e => (en_node e =? i)%nat) s.
Proof. intros. unfold pop_until_node, popped_through. now rewrite drop_to_lead. Qed.
Lemma drop_implied_lead : forall s l except x,
  drop_implied (s_dom s) l except x =
  skipn (List.length (lead (fun e => one_of l s e && negb (one_of (match except with Some t => [t] | None => [] end) s e)) x)) x.
Proof.
  intros s l except x. induction x as [|e x IH]; [reflexivity|]. cbn [drop_implied lead].
  assert (E : one_of match except with Some t => [t] | None => [] end s e =
              (ns_of (s_dom s) (en_node e) =? ns_HTML) && match except with Some u => teqb (name_of (s_dom s) (en_node e)) u | None => false end).
  { destruct except; unfold one_of; cbn [existsb]; now rewrite ?orb_false_r, ?andb_false_r. }
  rewrite E. unfold one_of at 1. change (existsb (teqb (name_of (s_dom s) (en_node e))) l) with (among (name_of (s_dom s) (en_node e)) l).
  set (x0 := match except with Some u => teqb (name_of (s_dom s) (en_node e)) u | None => false end). clearbody x0.
  destruct (ns_of (s_dom s) (en_node e) =? ns_HTML); cbn [andb].
  - destruct x0; cbn [negb]; [now rewrite andb_false_r|]. rewrite andb_true_r.
    destruct (among _ l); [|reflexivity]. cbn [List.length skipn]. exact IH.
  - destruct x0; reflexivity.
Qed.
Lemma implied_except_eq : forall t s, implied_except (Some t) s = implying may_imply [t] s.
Proof.
  intros. unfold implied_except, implying, popped_to. rewrite drop_implied_lead. do 3 f_equal. apply lead_ext. intro e. now rewrite negb_involutive.
Qed.
Lemma implied_eq : forall s, implied_end_tags s = implying may_imply [] s.
Proof.
  intros. unfold implied_end_tags, implied_except, implying, popped_to. rewrite drop_implied_lead. do 3 f_equal. apply lead_ext. intro e.
  now rewrite negb_involutive.
Qed.
Lemma thoroughly_eq : forall s, implied_thoroughly s = implying may_imply_all [] s.
Proof.
  intros. unfold implied_thoroughly, implying, popped_to. rewrite drop_implied_lead. do 3 f_equal. apply lead_ext. intro e. now rewrite negb_involutive.
Qed.
Lemma clear_eq : forall s, clear_formatting s =
  set_active (skipn (S (List.length (lead (fun f => match f with Some _ => true | None => false end) (s_active s)))) (s_active s)) s.
Proof.
  intros. unfold clear_formatting. f_equal. induction (s_active s) as [|[e|] l IH]; [reflexivity| |reflexivity]. cbn. exact IH.
Qed.
Lemma pop_to_lead : forall f l r, pop_to f l = Val r -> r = skipn (List.length (lead (fun e => negb (f (en_node e))) l)) l.
Proof.
  intros f l. induction l as [|e l IH]; intros r H; [discriminate|]. cbn in *. destruct (f (en_node e)); cbn [negb]; [now injection H|].
  cbn. now apply IH.
Qed.
Lemma white_eq : forall c, white c = is_ascii_white_space c.
Proof. intro c. unfold white, is_ascii_white_space. cbn [existsb]. rewrite orb_false_r. now rewrite !orb_assoc. Qed.
Lemma front_rev : forall s, front s = match rev (s_stack s) with e :: _ => Val (en_node e) | [] => Bad end.
Proof.
  intro s. unfold front. destruct (s_stack s) as [|e r]; [reflexivity|].
  assert (H : forall r (e : entry), rev (e :: r) = last r e :: rev (removelast (e :: r))).
  { clear. induction r as [|x r IH]; intro e; [reflexivity|].
    change (rev (e :: x :: r)) with (rev (x :: r) ++ [e]). rewrite IH.
    change (removelast (e :: x :: r)) with (e :: removelast (x :: r)). cbn [rev].
    rewrite app_comm_cons. f_equal. f_equal. destruct r; [reflexivity|].
    change (last (x :: e0 :: r) e) with (last (e0 :: r) e). clear. revert e x e0. induction r as [|y r IH]; intros; [reflexivity|].
    change (last (e0 :: y :: r) x) with (last (y :: r) x). change (last (e0 :: y :: r) e) with (last (y :: r) e). apply IH. }
  now rewrite H.
Qed.
Lemma contains_holds : forall t s, holds (On_stack t) s = contains t s.
Proof.
  intros. unfold holds, contains. induction (s_stack s) as [|e l IH]; [reflexivity|]. cbn [existsb]. now rewrite IH, one_of_one.
Qed.
Lemma cur_is_holds : forall t s b, cur_is t s = Val b -> holds (Current [t]) s = b.
Proof.
  intros t s b H. unfold cur_is, cur in H. cbn [holds]. destruct (s_stack s) as [|e r]; [discriminate|]. injection H as <-. apply one_of_one.
Qed.

(** *** Scopes *)

Lemma scope_find : forall d tgt sc l b, scope_from d tgt sc l = Val b ->
  b = match find (fun e => tgt (en_node e) || sc (en_node e)) l with Some e => tgt (en_node e) | None => false end.
Proof.
  intros d tgt sc l. induction l as [|e l IH]; intros b H; [discriminate|]. cbn in *.
  destruct (tgt (en_node e)) eqn:T; cbn [orb]; [now injection H as <-|]. destruct (sc (en_node e)); [injection H as <-; now rewrite T|now apply IH].
Qed.
Definition scope_fun (c : scope) : list cell -> nat -> bool :=
  match c with
  | In_default => default_scope | In_list_item => list_item_scope | In_button => button_scope | In_table => table_scope
  | In_select => select_scope
  end.
Lemma ends_scope_eq : forall c s e, ns_of (s_dom s) (en_node e) = ns_HTML -> ends_scope c s e = scope_fun c (s_dom s) (en_node e).
Proof.
  intros c s e H.
  assert (D : listed_el default_list s e = default_scope (s_dom s) (en_node e)).
  { unfold listed_el, default_list, default_scope. cbn [existsb fst snd]. rewrite H. cbn [andb].
    change (ns_HTML =? ns_HTML) with true. change (ns_HTML =? ns_MathML) with false. change (ns_HTML =? ns_SVG) with false. cbn [andb].
    unfold among. cbn [existsb]. now rewrite !orb_false_r. }
  destruct c; unfold ends_scope, scope_list, scope_fun.
  - exact D.
  - change (listed_el ((ns_HTML, [T_ol; T_ul]) :: default_list) s e) with
      ((ns_of (s_dom s) (en_node e) =? ns_HTML) && existsb (teqb (name_of (s_dom s) (en_node e))) [T_ol; T_ul] || listed_el default_list s e).
    rewrite D. unfold list_item_scope, is_html, is_el. rewrite H. change (ns_HTML =? ns_HTML) with true. cbn [andb existsb].
    destruct (teqb _ T_ol), (teqb _ T_ul), (default_scope _ _); reflexivity.
  - change (listed_el ((ns_HTML, [T_button]) :: default_list) s e) with
      ((ns_of (s_dom s) (en_node e) =? ns_HTML) && existsb (teqb (name_of (s_dom s) (en_node e))) [T_button] || listed_el default_list s e).
    rewrite D. unfold button_scope, is_html, is_el. rewrite H. change (ns_HTML =? ns_HTML) with true. cbn [andb existsb].
    destruct (teqb _ T_button), (default_scope _ _); reflexivity.
  - unfold listed_el, table_scope, is_html, is_el. cbn [existsb fst snd]. rewrite H. change (ns_HTML =? ns_HTML) with true. cbn [andb]. now rewrite !orb_false_r, orb_assoc.
  - unfold listed_el, select_scope, is_html, is_el. cbn [existsb fst snd]. rewrite H. change (ns_HTML =? ns_HTML) with true. cbn [andb]. now rewrite !orb_false_r.
Qed.
Lemma scoped_eq : forall c f g s b, plain_stack s -> (forall e, f e = g (en_node e)) ->
  scope_from (s_dom s) g (scope_fun c (s_dom s)) (s_stack s) = Val b -> scoped c f s = b.
Proof.
  intros c f g s b P F H. apply scope_find in H. subst b. unfold scoped.
  rewrite (find_ext_in (fun e => f e || ends_scope c s e) (fun e => g (en_node e) || scope_fun c (s_dom s) (en_node e))).
  - destruct (find _ _); [apply F|reflexivity].
  - intros e I. rewrite F, ends_scope_eq; [reflexivity|]. unfold plain_stack in P. rewrite Forall_forall in P. now apply P.
Qed.
Lemma in_scope_holds : forall c t s b, plain_stack s -> in_scope (scope_fun c) t s = Val b -> holds (In_scope c [t]) s = b.
Proof. intros c t s b P H. cbn [holds]. eapply scoped_eq; [exact P| |exact H]. intro e. apply one_of_one. Qed.
Lemma in_scope_any_holds : forall c l s b, plain_stack s -> in_scope_any (scope_fun c) l s = Val b -> holds (In_scope c l) s = b.
Proof. intros c l s b P H. cbn [holds]. eapply scoped_eq; [exact P| |exact H]. intro e. reflexivity. Qed.

(** the elements off the stack take nothing with them *)
Lemma plain_skip : forall n s, plain_stack s -> plain_stack (set_stack (skipn n (s_stack s)) s).
Proof.
  intros n s P. unfold plain_stack in *. cbn [s_stack s_dom set_stack]. rewrite <- (firstn_skipn n (s_stack s)) in P. apply Forall_app in P. apply P.
Qed.
Lemma plain_through : forall f s, plain_stack s -> plain_stack (popped_through f s).
Proof. intros. now apply plain_skip. Qed.
Lemma plain_to : forall f s, plain_stack s -> plain_stack (popped_to f s).
Proof. intros. now apply plain_skip. Qed.

(** *** Special elements and the loops over the stack *)

Lemma special_eq : forall s e, special s e = is_special (s_dom s) (en_node e).
Proof.
  intros s e. unfold special, listed_el, special_list, is_special, among, mathml_texts, special_html. cbn [existsb fst snd app].
  destruct (ns_of (s_dom s) (en_node e) =? ns_HTML) eqn:H.
  - apply Z.eqb_eq in H. rewrite H. change (ns_HTML =? ns_MathML) with false. change (ns_HTML =? ns_SVG) with false. cbn [andb].
    now rewrite !orb_false_r.
  - cbn [andb orb]. destruct (ns_of (s_dom s) (en_node e) =? ns_MathML) eqn:M.
    + apply Z.eqb_eq in M. rewrite M. change (ns_MathML =? ns_SVG) with false. cbn [andb]. now rewrite !orb_false_r.
    + cbn [andb orb]. destruct (ns_of (s_dom s) (en_node e) =? ns_SVG); [|reflexivity]. cbn [andb]. now rewrite !orb_false_r.
Qed.
Lemma other_end_perform : forall t s s', other_end t s = Val s' -> perform (Other_end t) s = Val s'.
Proof.
  intros t s s' H. unfold other_end in H. cbn [perform].
  assert (G : forall l, other_end_from t l s = Val s' ->
    match find (fun e => one_of [t] s e || special s e) l with
    | Some e => if one_of [t] s e then Val (popped_through (fun f => (en_node f =? en_node e)%nat) (implying may_imply [t] s)) else Val s
    | None => Bad end = Val s').
  { induction l as [|e l IH]; intro K; [discriminate|]. cbn [other_end_from find] in *. rewrite one_of_one, special_eq.
    destruct (is_html t (s_dom s) (en_node e)) eqn:T; cbn [orb].
    - rewrite one_of_one, T. now rewrite implied_except_eq, pop_until_node_eq in K.
    - destruct (is_special _ _); [|now apply IH]. now rewrite one_of_one, T. }
  now apply G.
Qed.
Lemma item_perform : forall s s', dd_from (s_stack s) s = Val s' -> perform (Close_item [T_dd; T_dt]) s = Val s'.
Proof.
  intros s s' H. cbn [perform]. unfold item_found.
  assert (G : forall l, dd_from l s = Val s' ->
    match find (fun e => one_of [T_dd; T_dt] s e || special s e && negb (one_of [T_address; T_div; T_p] s e)) l with
    | Some e => if one_of [T_dd; T_dt] s e
                then Val (popped_through (one_of [named_entry s e] (implying may_imply [named_entry s e] s)) (implying may_imply [named_entry s e] s))
                else Val s
    | None => Bad end = Val s').
  { induction l as [|e l IH]; intro K; [discriminate|]. cbn [dd_from find] in *. rewrite special_eq.
    assert (E : one_of [T_dd; T_dt] s e = is_html T_dd (s_dom s) (en_node e) || is_html T_dt (s_dom s) (en_node e)).
    { unfold one_of, is_html, is_el. cbn [existsb]. rewrite orb_false_r. now rewrite andb_orb_distrib_r. }
    assert (N : forall t, is_html t (s_dom s) (en_node e) = true -> named_entry s e = t).
    { intros t T. unfold is_html, is_el in T. apply andb_prop in T. destruct T as [_ T]. now apply teqb_eq in T. }
    rewrite E. destruct (is_html T_dd (s_dom s) (en_node e)) eqn:T1; cbn [orb].
    - rewrite E. cbn [orb]. rewrite (N _ T1). now rewrite implied_except_eq, pop_until_eq in K.
    - destruct (is_html T_dt (s_dom s) (en_node e)) eqn:T2; cbn [orb].
      + rewrite E. cbn [orb]. rewrite (N _ T2). now rewrite implied_except_eq, pop_until_eq in K.
      + destruct (is_special (s_dom s) (en_node e) && negb (is_html_in _ _ _)) eqn:S.
        * rewrite one_of_in, S. rewrite E. exact K.
        * rewrite one_of_in, S. now apply IH. }
  now apply G.
Qed.

(** *** Insertions *)

Lemma insert_el_top : forall g s s1 i, insert_el g s = Val (s1, i) -> insert_el' g s = Val s1 /\ (exists e r, s_stack s1 = e :: r /\ en_node e = i) /\ s_mode s1 = s_mode s.
Proof.
  intros g s s1 i H. unfold insert_el'. rewrite H. split; [reflexivity|]. unfold insert_el, insert_foreign in H.
  destruct (cur s) as [c| |]; try discriminate. destruct (place_for c s) as [p| |]; try discriminate. destruct (element_for g ns_HTML) as [x| |]; try discriminate.
  destruct (insert (s_dom s) p x) as [[d j]| |]; try discriminate. injection H as <- <-. split; [|reflexivity]. eexists _, _. split; reflexivity.
Qed.
Lemma insert_el'_mode : forall g s s1, insert_el' g s = Val s1 -> s_mode s1 = s_mode s.
Proof.
  intros g s s1 H. unfold insert_el' in H. destruct (insert_el g s) as [[x i]| |] eqn:E; try discriminate. injection H as <-.
  now apply insert_el_top in E.
Qed.
Lemma reconstruct_mode : forall s s1, reconstruct s = Val s1 -> s_mode s1 = s_mode s.
Proof.
  intros s s1 H. unfold reconstruct in H. destruct (to_open s (s_active s)) as [a b].
  assert (G : forall l done s, reopen l done s = Val s1 -> s_mode s1 = s_mode s).
  { induction l as [|e l IH]; intros done x K; cbn [reopen] in K; [now injection K as <-|].
    destruct (insert_el (en_tag e) x) as [[y i]| |] eqn:E; try discriminate. apply IH in K. rewrite K. now apply insert_el_top in E. }
  destruct a; [now injection H as <-|]. now apply G in H.
Qed.
