(** The body and the parts of tables, as the standard has them. *)
From Coq Require Import ZArith List Bool String Lia.
From Verif Require Import M_infra M_encoding M_labels M_html M_html_serialize M_dom_names M_dom M_dom2 L_dom L_dom2 L_dom30 L_dom31 L_dom32.
Import ListNotations.
Open Scope Z_scope.
Open Scope dom_scope.
Open Scope list_scope.

Lemma lead_twice : forall {A} (f g : A -> bool) l, (forall x, g x = true -> f x = true) ->
  skipn (S (List.length (lead f (skipn (List.length (lead g l)) l)))) (skipn (List.length (lead g l)) l) = skipn (S (List.length (lead f l))) l.
Proof.
  intros A f g l H. induction l as [|x l IH]; [reflexivity|]. cbn [lead]. destruct (g x) eqn:G; [|reflexivity].
  cbn [List.length skipn]. rewrite (H x G). cbn [List.length]. exact IH.
Qed.
Lemma implied_through : forall t s, s_stack (popped_through (one_of [t] (implying may_imply [t] s)) (implying may_imply [t] s)) =
  s_stack (popped_through (one_of [t] s) s).
Proof.
  intros t s. unfold popped_through, implying, popped_to. cbn [s_stack set_stack s_dom].
  rewrite (lead_ext (fun e => negb (negb (one_of may_imply s e && negb (one_of [t] s e)))) (fun e => one_of may_imply s e && negb (one_of [t] s e)) (s_stack s))
    by (intro; apply negb_involutive).
  apply (lead_twice (fun e => negb (one_of [t] s e))). intros e E. apply andb_prop in E. apply E.
Qed.
Lemma settled_end : forall t s s', settled t s = true -> other_end t (pop_until t (implied_except (Some t) s)) = Val s' ->
  s' = pop_until t (implied_except (Some t) s).
Proof.
  intros t s s' S H. apply other_end_perform in H. cbn [perform] in H. unfold other_end_steps in H.
  set (x := pop_until t (implied_except (Some t) s)) in *.
  assert (E : s_stack x = s_stack (popped_through (one_of [t] s) s)).
  { unfold x. rewrite implied_except_eq, pop_until_eq. apply implied_through. }
  assert (D : s_dom x = s_dom s) by reflexivity.
  unfold settled in S. rewrite E in H. unfold one_of, special, listed_el in *. rewrite D in H.
  destruct (find _ _) as [e|]; [|discriminate]. apply negb_true_iff in S. rewrite S in H. now injection H as <-.
Qed.
Lemma hidden_eq : forall g, hidden g = is_hidden g.
Proof. intro g. unfold hidden, is_hidden, find_attr. destruct (find _ _); reflexivity. Qed.
Lemma dd_plain : forall l s s', plain_stack s -> dd_from l s = Val s' -> plain_stack s'.
Proof.
  induction l as [|e l IH]; intros s s' P H; [discriminate|]. cbn [dd_from] in H.
  destruct (is_html T_dd _ _); [injection H as <-; rewrite implied_except_eq, pop_until_eq; now apply plain_through, plain_to|].
  destruct (is_html T_dt _ _); [injection H as <-; rewrite implied_except_eq, pop_until_eq; now apply plain_through, plain_to|].
  destruct (_ && _); [now injection H as <-|]. now apply (IH s s').
Qed.

Lemma change_ns : forall d j l i, ns_of (change d j (set_kids l)) i = ns_of d i.
Proof.
  intros d j l i. unfold ns_of, cell_of. revert d j. induction i as [|i IH]; intros [|c d] [|j]; try reflexivity. cbn [change nth]. apply IH.
Qed.
Lemma insert_ns : forall d p x d1 n i, insert d p x = Val (d1, n) -> ns_of d i = ns_HTML -> ns_of d1 i = ns_HTML.
Proof.
  intros d p x d1 n i H N. unfold insert in H. destruct (put _ _ _) as [l|]; [|discriminate]. injection H as <- _.
  rewrite <- (change_ns d (fst p) l i) in N. unfold ns_of, cell_of in *. rewrite app_nth1; [exact N|].
  destruct (Compare_dec.lt_dec i (List.length (change d (fst p) (set_kids l)))) as [L|L]; [exact L|].
  rewrite nth_overflow in N; [discriminate N|]. apply PeanoNat.Nat.nlt_ge. exact L.
Qed.
Lemma insert_here : forall d p ns t a d1 n, insert d p (IElement ns t a) = Val (d1, n) -> ns_of d1 n = ns.
Proof.
  intros d p ns t a d1 n H. unfold insert in H. destruct (put _ _ _) as [l|]; [|discriminate]. injection H as <- <-.
  unfold ns_of, cell_of. rewrite app_nth2; [|rewrite change_length; apply le_n]. now rewrite change_length, PeanoNat.Nat.sub_diag.
Qed.
Lemma insert_el_plain : forall g s s1 i, plain_stack s -> insert_el g s = Val (s1, i) -> plain_stack s1.
Proof.
  intros g s s1 i P H. unfold insert_el, insert_foreign in H. destruct (cur s) as [c| |]; try discriminate. destruct (place_for c s) as [p| |]; try discriminate.
  assert (X : element_for g ns_HTML = Bad \/ exists t a, element_for g ns_HTML = Val (IElement ns_HTML t a)).
  { unfold element_for. destruct (g_atom g); [right; eauto|]. destruct (g_text g); [now left|right; eauto]. }
  destruct X as [X|(t & a & X)]; rewrite X in H; [discriminate|].
  destruct (insert (s_dom s) p _) as [[d j]| |] eqn:E; try discriminate. injection H as <- <-. unfold plain_stack in *. cbn [s_stack set_stack s_dom set_dom].
  constructor; [exact (insert_here _ _ _ _ _ _ _ E)|]. eapply Forall_impl; [|exact P]. intros f F. exact (insert_ns _ _ _ _ _ _ E F).
Qed.
Lemma reopen_plain : forall l done s s1, plain_stack s -> reopen l done s = Val s1 -> plain_stack s1.
Proof.
  induction l as [|e l IH]; intros done s s1 P H; cbn [reopen] in H; [injection H as <-; exact P|].
  destruct (insert_el (en_tag e) s) as [[s2 i]| |] eqn:E; try discriminate. eapply IH; [|exact H]. exact (insert_el_plain _ _ _ _ P E).
Qed.
Lemma reconstruct_plain : forall s s1, plain_stack s -> reconstruct s = Val s1 -> plain_stack s1.
Proof.
  intros s s1 P H. unfold reconstruct in H. destruct (to_open s (s_active s)) as [a b]. destruct a; [now injection H as <-|]. exact (reopen_plain _ _ _ _ P H).
Qed.

Section Body.
Variable listed : list Z -> bool.
Variable emit : st -> ktok -> outcome st.
Variable use : mode -> st -> ktok -> outcome st.
Notation obeys := (obey emit use).
Hypothesis use_head : forall s k s', on_in_head emit s k = Val s' -> use M_in_head s k = Val s'.

Lemma obey_if : forall c r q s, obeys (If c r q) s = if holds c s then obeys r s else obeys q s.
Proof. reflexivity. Qed.
Lemma close_p_std : forall r s s1, plain_stack s -> p_closed s = Val s1 -> obeys (Close_p r) s = obeys r s1.
Proof.
  intros r s s1 P H. unfold p_closed in H. destruct (in_scope button_scope T_p s) as [b| |] eqn:E; try discriminate. injection H as <-.
  unfold Close_p. cbn [obey]. rewrite (in_scope_holds In_button T_p s b P E). destruct b; [|reflexivity].
  cbn [performs perform]. unfold close_p. now rewrite implied_except_eq, pop_until_eq.
Qed.
Lemma scope_if : forall c t r q s b, plain_stack s -> in_scope (scope_fun c) t s = Val b ->
  obeys (If (In_scope c [t]) r q) s = if b then obeys r s else obeys q s.
Proof. intros c t r q s b P E. cbn [obey]. now rewrite (in_scope_holds c t s b P E). Qed.
Lemma scope_any_if : forall c l r q s b, plain_stack s -> in_scope_any (scope_fun c) l s = Val b ->
  obeys (If (In_scope c l) r q) s = if b then obeys r s else obeys q s.
Proof. intros c t r q s b P E. cbn [obey]. now rewrite (in_scope_any_holds c t s b P E). Qed.
Lemma cur_when : forall t r s b, cur_is t s = Val b -> obeys (When (Current [t]) [Pop] r) s = run s1 <- (if b then pop s else Val s); obeys r s1.
Proof.
  intros t r s b E. cbn [obey]. rewrite (cur_is_holds t s b E). destruct b; [|reflexivity]. cbn [performs perform]. destruct (pop s); reflexivity.
Qed.
Lemma imply_through : forall l r s, obeys (Imply ;; Pop_through l ;; r) s = obeys r (pop_until_any l (implied_end_tags s)).
Proof. intros. cbn [obey perform]. now rewrite implied_eq, pop_until_any_eq. Qed.
Lemma imply_through1 : forall t r s, obeys (Imply ;; Pop_through [t] ;; r) s = obeys r (pop_until t (implied_end_tags s)).
Proof. intros. cbn [obey perform]. now rewrite implied_eq, pop_until_eq. Qed.
Lemma imply_but_through : forall t r s, obeys (Imply_but t ;; Pop_through [t] ;; r) s = obeys r (pop_until t (implied_except (Some t) s)).
Proof. intros. cbn [obey perform]. now rewrite implied_except_eq, pop_until_eq. Qed.
Lemma clear_std : forall r s, obeys (Clear_formatting ;; r) s = obeys r (clear_formatting s).
Proof. intros. cbn [obey perform]. now rewrite clear_eq. Qed.
Lemma through_std : forall t r s, obeys (Pop_through [t] ;; r) s = obeys r (pop_until t s).
Proof. intros. cbn [obey perform]. now rewrite pop_until_eq. Qed.

Lemma template_eof_std : forall s s', template_eof emit s = Val s' -> obeys rules_template_eof s = Val s'.
Proof.
  intros s s' H. unfold template_eof, rules_template_eof in *. rewrite obey_if, contains_holds.
  destruct (contains T_template s); cbn [negb] in H; [|exact H].
  rewrite through_std, clear_std. cbn [obey]. change (perform Pop_template_mode ?x) with (pop_template x). fin H.
Qed.

Lemma ruby_std : forall g l (f : st -> st) s s', plain_stack s ->
  (forall x, performs l x = Val (f x)) ->
  (run b <- in_scope default_scope T_ruby s; insert_el' g (if b then f s else s)) = Val s' ->
  obeys (When (In_scope In_default [T_ruby]) l (Insert g ;; Done)) s = Val s'.
Proof.
  intros g l f s s' P F H. destruct (in_scope default_scope T_ruby s) as [b| |] eqn:E; try discriminate H.
  cbn [obey]. rewrite (in_scope_holds In_default T_ruby s b P E). destruct b; [rewrite F|]; cbn [obey perform]; now rewrite H.
Qed.
Lemma form_std : forall g s s', plain_stack s ->
  (run s1 <- p_closed s; run (s2, i) <- insert_el g s1; Val (if contains T_template s2 then s2 else set_form (Some i) s2)) = Val s' ->
  obeys (Close_p (Insert g ;; Unless (On_stack T_template) [Note_form] Done)) s = Val s'.
Proof.
  intros g s s' P H. runs H. erewrite close_p_std; [|exact P|eassumption]. known. cbn [obey]. cbn [perform]. rewrite H0.
  rewrite contains_holds. destruct (contains T_template _); [exact H|]. cbn [performs perform]. rewrite H1. exact H.
Qed.

Lemma obey_do : forall a r s, obeys (Do a r) s = run s1 <- perform a s; obeys r s1.
Proof. reflexivity. Qed.
Lemma dd_std : forall g s s', plain_stack s ->
  (run s1 <- dd_from (s_stack (set_frameset_ok false s)) (set_frameset_ok false s); run s2 <- p_closed s1; insert_el' g s2) = Val s' ->
  obeys (Not_ok ;; Close_item [T_dd; T_dt] ;; Close_p (Insert g ;; Done)) s = Val s'.
Proof.
  intros g s s' P H. destruct (dd_from _ _) as [s1| |] eqn:E; try discriminate H.
  destruct (p_closed s1) as [s2| |] eqn:E1; try discriminate H.
  assert (P1 : plain_stack s1) by (eapply dd_plain; [|exact E]; exact P).
  rewrite obey_do. change (perform Not_ok s) with (Val (set_frameset_ok false s)). cbv iota beta.
  rewrite obey_do, (item_perform _ _ E). erewrite close_p_std; [|exact P1|exact E1]. now fin H.
Qed.

Lemma li_perform : forall e s, item_found [T_li] s = Some e ->
  perform (Close_item [T_li]) s = Val (if one_of [T_li] s e then pop_until T_li (implied_except (Some T_li) s) else s).
Proof.
  intros e s F. cbn [perform]. rewrite F. destruct (one_of [T_li] s e) eqn:E; [|reflexivity].
  assert (N : named_entry s e = T_li).
  { unfold named_entry. rewrite one_of_one in E. unfold is_html, is_el in E. apply andb_prop in E. now apply teqb_eq. }
  rewrite N. cbv zeta. now rewrite implied_except_eq, pop_until_eq.
Qed.
Lemma quiet_p : forall s b, plain_stack s -> quiet s = true -> in_scope button_scope T_p s = Val b -> b = false.
Proof. intros s b P Q E. unfold quiet in Q. apply andb_prop in Q. destruct Q as [Q _]. rewrite (in_scope_holds In_button T_p s b P E) in Q. now destruct b. Qed.
Lemma quiet_close : forall r s, quiet s = true -> obeys (Close_p r) s = obeys r s.
Proof.
  intros r s Q. unfold quiet in Q. apply andb_prop in Q. destruct Q as [Q _]. apply negb_true_iff in Q. unfold Close_p. cbn [obey]. now rewrite Q.
Qed.
Lemma quiet_reconstruct : forall s, quiet s = true -> reconstruct s = Val s.
Proof.
  intros s Q. unfold quiet in Q. apply andb_prop in Q. destruct Q as [_ Q]. unfold reconstruct. destruct (s_active s) as [|[e|] l] eqn:A; try reflexivity.
  cbn [to_open]. change (on_stack (en_node e) s) with (existsb (fun f => (en_node f =? en_node e)%nat) (s_stack s)). now rewrite Q.
Qed.
Lemma li_std : forall g s s', plain_stack s -> g_id g = T_li -> odd_start s g = false -> body_start emit s g = Val s' ->
  obeys (Not_ok ;; Close_item [T_li] ;; Close_p (Insert g ;; Done)) s = Val s'.
Proof.
  intros g s s' P G D H. unfold odd_start in D. unfold body_start in H. rewrite G in D, H. cbv zeta in H.
  rewrite obey_do. change (perform Not_ok s) with (Val (set_frameset_ok false s)). cbv iota beta.
  set (x := set_frameset_ok false s) in *.
  change (item_found [T_li] s) with (item_found [T_li] x) in D. change (holds (Current [T_li]) s) with (holds (Current [T_li]) x) in D.
  change (quiet (popped_through (one_of [T_li] s) s)) with (quiet (popped_through (one_of [T_li] x) x)) in D.
  change (one_of [T_li] s) with (one_of [T_li] x) in D. change (holds (Current [T_address; T_div; T_p]) s) with (holds (Current [T_address; T_div; T_p]) x) in D.
  change (quiet s) with (quiet x) in D. assert (P1 : plain_stack x) by exact P. clearbody x. clear P s. rename x into s. rename P1 into P.
  destruct (item_found [T_li] s) as [e|] eqn:F; [|discriminate D]. rewrite obey_do, (li_perform e s F). cbn [holds] in D.
  destruct (s_stack s) as [|c l] eqn:S; [unfold item_found in F; rewrite S in F; discriminate F|].
  rewrite one_of_one in D. destruct (is_html T_li (s_dom s) (en_node c)) eqn:L.
  - apply negb_false_iff in D. assert (E : e = c).
    { unfold item_found in F. rewrite S in F. cbn [find] in F. rewrite one_of_one, L in F. cbn [orb] in F. now injection F. }
    subst e. rewrite one_of_one, L.
    assert (Q : quiet (pop_until T_li (implied_except (Some T_li) s)) = true).
    { rewrite implied_except_eq, pop_until_eq. pose proof (implied_through T_li s) as I.
      unfold quiet in *. cbn [holds] in *. unfold scoped in *. rewrite I. exact D. }
    rewrite (quiet_close _ _ Q). unfold other_start in H. rewrite (quiet_reconstruct _ Q) in H. now fin H.
  - apply orb_false_iff in D. destruct D as [D1 D2]. rewrite D1. rewrite one_of_in in D2.
    destruct (is_html_in [T_address; T_div; T_p] (s_dom s) (en_node c)) eqn:A.
    + cbn [andb] in D2. apply negb_false_iff in D2. rewrite (quiet_close _ _ D2).
      assert (X : is_special (s_dom s) (en_node c) = true).
      { rewrite <- special_eq. unfold is_html_in, is_el in A. apply andb_prop in A. destruct A as [A1 A2]. unfold special, listed_el. cbn [special_list existsb fst snd].
        rewrite A1. cbn [andb]. unfold among in A2. cbn [existsb] in A2. 
        destruct (name_of (s_dom s) (en_node c)); try discriminate A2; reflexivity. }
      rewrite X in H. cbn [andb] in H. unfold other_start in H. rewrite (quiet_reconstruct _ D2) in H. now fin H.
    + rewrite andb_false_r in H. destruct (p_closed s) as [s1| |] eqn:E1; try discriminate H.
      erewrite close_p_std; [|exact P|exact E1]. now fin H.
Qed.
Lemma last_a_eq : forall s, last_a (s_dom s) (s_active s) = listed_a s.
Proof.
  intro s. unfold listed_a. induction (s_active s) as [|[e|] l IH]; [reflexivity| |reflexivity]. cbn [last_a lead find]. rewrite one_of_one.
  destruct (is_html T_a (s_dom s) (en_node e)); [reflexivity|exact IH].
Qed.
Lemma note_std : forall g s s', (run (s2, i) <- insert_el g s; Val (push_formatting i g s2)) = Val s' -> obeys (Insert g ;; Note_formatting g ;; Done) s = Val s'.
Proof. intros g s s' H. now fin H. Qed.
Lemma a_std : forall g s s', plain_stack s -> g_id g = T_a -> odd_start s g = false -> body_start emit s g = Val s' ->
  obeys (Adopt_a ;; Reconstruct ;; Insert g ;; Note_formatting g ;; Done) s = Val s'.
Proof.
  intros g s s' P G D H. unfold odd_start in D. unfold body_start in H. rewrite G in D, H. cbv zeta in H. rewrite last_a_eq in H.
  assert (K : forall x, (run s1 <- reconstruct x; run (s2, i) <- insert_el g s1; Val (push_formatting i g s2)) = Val s' ->
    obeys (Reconstruct ;; Insert g ;; Note_formatting g ;; Done) x = Val s').
  { intros x X. rewrite obey_do. cbn [perform]. destruct (reconstruct x); try discriminate X. now apply note_std. }
  rewrite obey_do. cbn [perform]. destruct (listed_a s) as [i|]; [|now apply K]. unfold adopt_all.
  destruct (agency T_a s) as [[s1 any]| |]; try discriminate H. subst any.
  destruct (on_stack i (remove_list i s1)); [|now apply K]. destruct (remove_stack i (remove_list i s1)); try discriminate H. now apply K.
Qed.
Lemma nobr_std : forall g s s', plain_stack s -> g_id g = T_nobr -> odd_start s g = false -> body_start emit s g = Val s' ->
  obeys (Reconstruct ;; When (In_scope In_default [T_nobr]) [Adopt_all T_nobr; Reconstruct] (Insert g ;; Note_formatting g ;; Done)) s = Val s'.
Proof.
  intros g s s' P G D H. unfold odd_start in D. unfold body_start in H. rewrite G in D, H. cbv zeta in H.
  rewrite obey_do. cbn [perform]. destruct (reconstruct s) as [s1| |] eqn:R; try discriminate H. apply (reconstruct_plain s s1 P) in R. clear P. rename R into P.
  destruct (in_scope default_scope T_nobr s1) as [b| |] eqn:E; try discriminate H.
  rewrite (in_scope_holds In_default T_nobr s1 b P E) in D.
  change (obeys (When (In_scope In_default [T_nobr]) [Adopt_all T_nobr; Reconstruct] (Insert g ;; Note_formatting g ;; Done)) s1) with
    (run s2 <- (if holds (In_scope In_default [T_nobr]) s1 then performs [Adopt_all T_nobr; Reconstruct] s1 else Val s1); obeys (Insert g ;; Note_formatting g ;; Done) s2).
  rewrite (in_scope_holds In_default T_nobr s1 b P E). destruct b; [|now apply note_std].
  cbn [performs perform]. unfold adopt_all. destruct (agency T_nobr s1) as [[s2 any]| |]; try discriminate H. cbn [andb] in D. subst any.
  destruct (reconstruct s2) as [s3| |]; try discriminate H. now apply note_std.
Qed.
Lemma svg_same : forall g, existsb (fun a => same_str (ta_name a) (lit "definitionurl") || negb (same_str (cased svg_attributes (ta_name a)) (ta_name a))) (g_attrs g) = false ->
  adjust_mathml g = adjust_svg g.
Proof.
  intros g H. unfold adjust_mathml, adjust_svg, rename. f_equal. induction (g_attrs g) as [|a l IH]; [reflexivity|]. cbn [existsb map] in *.
  apply orb_false_iff in H. destruct H as [H H1]. rewrite (IH H1). f_equal. apply orb_false_iff in H. destruct H as [H2 H3]. rewrite H2.
  apply negb_false_iff in H3. apply same_str_eq in H3. rewrite H3. now destruct a.
Qed.
Lemma body_start_std : forall s g s', plain_stack s -> odd_start s g = false -> body_start emit s g = Val s' ->
  obeys (rules_in_body s (KStart g)) s = Val s'.
Proof.
  intros s g s' P D H. unfold body_start in H. cbn [rules_in_body]. rewrite hidden_eq.
  destruct (g_id g) eqn:G; pick;
    try (now apply li_std; [..|unfold body_start; rewrite G]); try (now apply a_std; [..|unfold body_start; rewrite G]);
    try (now apply nobr_std; [..|unfold body_start; rewrite G]); unfold other_start, insert_void in H;
    try (now apply html_std); try (cbn [obey performs]; now rewrite (use_head _ _ _ H)); try (now fin H);
    try (runs H; erewrite close_p_std; [|exact P|eassumption]; now fin H).
  all: try (apply (ruby_std g [Imply] implied_end_tags s s' P); [intro x; cbn; now rewrite implied_eq|exact H]).
  all: try (apply (ruby_std g [Imply_but T_rtc] (implied_except (Some T_rtc)) s s' P); [intro x; cbn; now rewrite implied_except_eq|exact H]).
  all: try (destruct (cur_is T_option s) as [b| |] eqn:E; try discriminate H; rewrite (cur_when T_option _ s b E);
    destruct b; [destruct (pop s) eqn:E1; try discriminate H|]; now fin H).
  all: try (destruct (p_closed s) as [s1| |] eqn:E; try discriminate H; erewrite close_p_std; [|exact P|exact E];
    unfold cur in H; cbn [obey holds]; destruct (s_stack s1) as [|e r] eqn:E1; try discriminate H; rewrite one_of_in;
    change heading_names with headings;
    destruct (is_html_in headings (s_dom s1) (en_node e)); [cbn [performs perform]; destruct (pop s1) eqn:E2; try discriminate H|]; now fin H).
  all: try (now apply dd_std).
  - unfold odd_start in D. rewrite G, contains_holds in D. rewrite obey_if, contains_holds. rewrite obey_if. cbn [holds]. unfold second in H.
    destruct (List.length (s_stack s) =? 1)%nat eqn:L; cbn [negb andb] in D.
    + apply PeanoNat.Nat.eqb_eq in L. injection H as <-. destruct (s_stack s) as [|e [|f r]]; try discriminate L. cbn [rev app]. destruct (contains T_template s); reflexivity.
    + apply negb_false_iff in D. rewrite D in *. destruct (rev (s_stack s)) as [|e [|f r]]; try discriminate H. rewrite orb_true_r in H. exact H.
  - unfold odd_start in D. rewrite G in D.
    change (obeys (When (In_scope In_default [T_button]) [Imply; Pop_through [T_button]] (Reconstruct ;; Insert g ;; Not_ok ;; Done)) s) with
      (run s1 <- (if holds (In_scope In_default [T_button]) s then performs [Imply; Pop_through [T_button]] s else Val s); obeys (Reconstruct ;; Insert g ;; Not_ok ;; Done) s1).
    destruct (in_scope default_scope T_p s) as [b| |] eqn:E; try discriminate H. rewrite (in_scope_holds In_default T_p s b P E) in D.
    apply xorb_eq in D. rewrite <- D. destruct b; [|now fin H]. cbn [performs perform]. rewrite <- implied_eq, <- pop_until_eq. now fin H.
  - cbv zeta. rewrite obey_if, contains_holds. destruct (contains T_template s) eqn:C.
    + destruct (s_form s); cbn [negb] in H; now apply form_std.
    + rewrite obey_if. cbn [holds]. destruct (s_form s); cbn [negb] in H; [now injection H as <-|]. now apply form_std.
  - unfold odd_start in D. rewrite G in D. rewrite obey_if. cbn [holds]. unfold second in H.
    destruct (List.length (s_stack s) =? 1)%nat eqn:L; cbn [negb andb] in D.
    + apply PeanoNat.Nat.eqb_eq in L. injection H as <-. destruct (s_stack s) as [|e [|f r]]; try discriminate L. reflexivity.
    + destruct (rev (s_stack s)) as [|e [|f r]]; try discriminate H. rewrite one_of_one. rewrite obey_if. cbn [holds]. rewrite D in *.
      destruct (is_html T_body (s_dom s) (en_node f)); exact H.
  - destruct (is_hidden g); now fin H.
  - destruct (reconstruct s) as [s1| |] eqn:E; try discriminate H. rewrite obey_do. cbn [perform]. rewrite E, obey_do. cbn [perform].
    destruct (insert_foreign _ _ _) as [[s2 i]| |]; try discriminate H. destruct (g_self g); [|exact H]. cbn [obey perform]. now rewrite H.
  - runs H. follow. cbn [s_mode set_frameset_ok] in H.
    rewrite (insert_el'_mode _ _ _ E0), (reconstruct_mode _ _ E) in H. exact H.
  - unfold odd_start in D. rewrite G in D. rewrite (svg_same g D) in H.
    destruct (reconstruct s) as [s1| |] eqn:E; try discriminate H. rewrite obey_do. cbn [perform]. rewrite E, obey_do. cbn [perform].
    destruct (insert_foreign _ _ _) as [[s2 i]| |]; try discriminate H. destruct (g_self g); [|exact H]. cbn [obey perform]. now rewrite H.
  - cbv zeta. rewrite obey_if. cbn [holds]. destruct (s_quirks s); [now fin H|].
    destruct (p_closed s) as [s1| |] eqn:E; try discriminate H. erewrite close_p_std; [|exact P|exact E]. now fin H.
Qed.
Lemma scope_then : forall c t q s s1 (b : bool), plain_stack s -> in_scope (scope_fun c) t s = Val b ->
  (b = true -> obeys q s = Val s1) -> (b = false -> s = s1) -> obeys (If (In_scope c [t]) q Done) s = Val s1.
Proof. intros c t q s s1 b P E H1 H2. rewrite (scope_if c t q Done s b P E). destruct b; [now apply H1|]. cbn. now rewrite H2. Qed.

Lemma other_end_std : forall t s s', other_end t s = Val s' -> obeys (Other_end t ;; Done) s = Val s'.
Proof. intros t s s' H. rewrite obey_do, (other_end_perform _ _ _ H). reflexivity. Qed.
Lemma adopt_std : forall t s s', (run (s1, any) <- agency t s; if any : bool then other_end t s1 else Val s1) = Val s' ->
  obeys (Adopt t (Other_end t ;; Done)) s = Val s'.
Proof.
  intros t s s' H. change (obeys (Adopt t (Other_end t ;; Done)) s) with
    (run (s1, any) <- agency t s; if any : bool then obeys (Other_end t ;; Done) s1 else Val s1).
  destruct (agency t s) as [[s1 any]| |]; try discriminate H. destruct any; [now apply other_end_std|exact H].
Qed.
Lemma form_end_std : forall s s', plain_stack s -> body_end emit s T_form = Val s' ->
  obeys (If (On_stack T_template) (If (In_scope In_default [T_form]) (Imply ;; Pop_through [T_form] ;; Done) Done) (End_form ;; Done)) s = Val s'.
Proof.
  intros s s' P H. cbn [body_end] in H. rewrite obey_if, contains_holds. destruct (contains T_template s); cbn [negb] in H.
  - destruct (in_scope default_scope T_form s) as [b| |] eqn:E; try discriminate H.
    apply (scope_then In_default T_form _ s s' b P E); intros ->; [|now injection H as <-]. rewrite imply_through1. exact H.
  - rewrite obey_do. cbn [perform]. destruct (s_form s) as [i|]; [|now injection H as <-].
    destruct (in_scope_node default_scope i (set_form None s)) as [b| |] eqn:E; try discriminate H.
    assert (P1 : plain_stack (set_form None s)) by exact P.
    rewrite (scoped_eq In_default (fun e => (en_node e =? i)%nat) (fun n => (n =? i)%nat) (set_form None s) b P1 (fun e => eq_refl) E).
    destruct b; [rewrite <- implied_eq; destruct (remove_stack i _); try discriminate H|]; exact H.
Qed.
Lemma body_end_std : forall s t s', plain_stack s -> existsb (teqb t) [T_dd; T_dt] && negb (settled t s) = false -> body_end emit s t = Val s' ->
  obeys (rules_in_body s (KEnd t)) s = Val s'.
Proof.
  intros s t s' P D H. cbn [rules_in_body].
  destruct t eqn:G; pick; try (now apply form_end_std); unfold body_end in H;
    try (now apply other_end_std); try (now apply adopt_std);
    try (cbn [obey performs]; now rewrite (use_head _ _ _ H));
    try exact H.
  all: try (match type of H with match in_scope default_scope ?t _ with Val _ => _ | Bad => _ | NoFuel => _ end = _ => destruct (in_scope default_scope t s) as [b| |] eqn:E; try discriminate H;
     apply (scope_then In_default t _ s s' b P E); intros ->; [|now injection H as <-] end;
     rewrite ?imply_through1, ?clear_std; try (now injection H as <-); try exact H).
  all: try (destruct (in_scope_any default_scope headings s) as [b| |] eqn:E; try discriminate H;
    rewrite (scope_any_if In_default headings _ _ s b P E); destruct b; [change heading_names with headings; rewrite imply_through|]; exact H).
  - cbn [existsb teqb tcode Z.eqb Pos.eqb orb andb] in D. apply negb_false_iff in D. rewrite imply_but_through.
    apply (settled_end _ _ _ D) in H. now subst s'.
  - cbn [existsb teqb tcode Z.eqb Pos.eqb orb andb] in D. apply negb_false_iff in D. rewrite imply_but_through.
    apply (settled_end _ _ _ D) in H. now subst s'.
  - destruct (in_scope list_item_scope T_li s) as [b| |] eqn:E; try discriminate H.
    apply (scope_then In_list_item T_li _ s s' b P E); intros ->; [|now injection H as <-]. rewrite imply_but_through. exact H.
  - destruct (in_scope button_scope T_p s) as [b| |] eqn:E; try discriminate H.
    change (obeys (Unless (In_scope In_button [T_p]) [Insert (bare T_p)] (Imply_but T_p ;; Pop_through [T_p] ;; Done)) s) with
      (run s1 <- (if holds (In_scope In_button [T_p]) s then Val s else performs [Insert (bare T_p)] s); obeys (Imply_but T_p ;; Pop_through [T_p] ;; Done) s1).
    rewrite (in_scope_holds In_button T_p s b P E). destruct b.
    + rewrite imply_but_through. exact H.
    + cbn [performs perform]. change (bare T_p) with (made_tag T_p). destruct (insert_el' (made_tag T_p) s); try discriminate H.
      rewrite imply_but_through. exact H.
Qed.

Lemma in_body_std : forall s k s', plain_stack s -> departs M_in_body s k = false -> on_in_body emit s k = Val s' ->
  obeys (rules_in_body s k) s = Val s'.
Proof.
  intros s k s' P D H. destruct k as [d|g|t|d|c|]; cbn [on_in_body departs] in *.
  - exact H.
  - now apply body_start_std.
  - now apply body_end_std.
  - cbn [rules_in_body]. now fin H.
  - cbn [rules_in_body]. rewrite white_eq. destruct (c =? 0); [exact H|]. destruct (is_ascii_white_space c); now fin H.
  - cbn [rules_in_body]. rewrite obey_if. cbn [holds]. destruct (s_templates s); [exact H|]. now apply template_eof_std.
Qed.
Lemma text_std : forall s k s', on_text emit s k = Val s' -> obeys (rules_text k) s = Val s'.
Proof. intros s k s' H. destruct k; cbn [on_text rules_text] in *; now fin H. Qed.
End Body.
