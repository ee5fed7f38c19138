(** No element is on the stack of open elements twice and none is twice in the list of active formatting elements, whatever the tokens. *)
From Coq Require Import ZArith List Bool String Lia.
From Verif Require Import M_infra M_encoding M_labels M_html M_html_serialize M_dom_names M_dom M_dom2 L_dom L_dom2 L_dom38 L_dom39 L_dom40 L_dom43.
Import ListNotations.
Open Scope Z_scope.
Open Scope dom_scope.
Open Scope list_scope.

(** a list with some members left out *)
Inductive Sub {A} : list A -> list A -> Prop :=
| Sub_nil : Sub [] []
| Sub_skip : forall x r l, Sub r l -> Sub r (x :: l)
| Sub_keep : forall x r l, Sub r l -> Sub (x :: r) (x :: l).
Lemma sub_refl : forall {A} (l : list A), Sub l l.
Proof. intros A l. induction l; now constructor. Qed.
Lemma sub_none : forall {A} (l : list A), Sub [] l.
Proof. intros A l. induction l; now constructor. Qed.
Lemma sub_app : forall {A} (a b c d : list A), Sub a b -> Sub c d -> Sub (a ++ c) (b ++ d).
Proof. intros A a b c d H G. induction H; cbn; [exact G| |]; now constructor. Qed.
Lemma sub_rev : forall {A} (r l : list A), Sub r l -> Sub (rev r) (rev l).
Proof.
  intros A r l H. induction H; cbn; [constructor| |].
  - rewrite <- (app_nil_r (rev r)). apply sub_app; [exact IHSub|apply sub_none].
  - apply sub_app; [exact IHSub|apply sub_refl].
Qed.
Lemma sub_incl : forall {A} (r l : list A), Sub r l -> incl r l.
Proof. intros A r l H. induction H; [apply incl_refl|now apply incl_tl|]. apply incl_cons; [now left|now apply incl_tl]. Qed.
Lemma sub_map : forall {A B} (f : A -> B) r l, Sub r l -> Sub (map f r) (map f l).
Proof. intros A B f r l H. induction H; cbn; now constructor. Qed.
Lemma sub_filter : forall {A} (f : A -> bool) r l, Sub r l -> Sub (filter f r) (filter f l).
Proof. intros A f r l H. induction H; cbn; [constructor| |]; destruct (f x); try (now constructor); exact IHSub. Qed.
Lemma sub_filtered : forall {A} (f : A -> bool) l, Sub (filter f l) l.
Proof. intros A f l. induction l as [|x l IH]; cbn; [constructor|]. destruct (f x); now constructor. Qed.
Lemma sub_length : forall {A} (r l : list A), Sub r l -> (List.length r <= List.length l)%nat.
Proof. intros A r l H. induction H; cbn; lia. Qed.
Lemma sub_nodup : forall {A} (r l : list A), Sub r l -> NoDup l -> NoDup r.
Proof.
  intros A r l H. induction H; intro N; [exact N| |]; inversion N; subst; [auto|]. constructor; [|auto]. intro I. apply sub_incl in H. apply H in I. contradiction.
Qed.
Lemma sub_all : forall {A} (P : A -> Prop) r l, Sub r l -> Forall P l -> Forall P r.
Proof. intros A P r l H F. rewrite Forall_forall in *. intros x X. apply F. now apply (sub_incl r). Qed.

Definition inside (d : list cell) (i : nat) : Prop := (i < List.length d)%nat.
Definition but (x : option nat) (l : list entry) : list nat :=
  map en_node (filter (fun e => match x with Some i => negb (en_node e =? i)%nat | None => true end) l).
(** every node but [x] is on the stack once at most *)
Record Apart_ (x : option nat) (d : list cell) (stack : list entry) (active : list formatting) (head : option nat) : Prop := MkApart {
  A_but : NoDup (but x stack);
  A_single : single active;
  A_stack : Forall (fun e => inside d (en_node e)) stack;
  A_active : below (List.length d) active;
  A_head : match head with Some h => inside d h | None => True end }.
Definition Apart (x : option nat) (s : st) : Prop := Apart_ x (s_dom s) (s_stack s) (s_active s) (s_head s).

Lemma sub_drop_to : forall f l, Sub (drop_to f l) l.
Proof. intros f l. induction l as [|e l IH]; cbn; [constructor|]. destruct (f _); apply Sub_skip; [apply sub_refl|exact IH]. Qed.
Lemma sub_drop_implied : forall d n x l, Sub (drop_implied d n x l) l.
Proof.
  intros d n x l. induction l as [|e l IH]; cbn; [constructor|]. destruct (match x with Some _ => _ | None => _ end); [apply sub_refl|].
  destruct (_ && _); [now apply Sub_skip|apply sub_refl].
Qed.
Lemma sub_to_table : forall d l, Sub (to_table d l) l.
Proof. intros d l. induction l as [|e l IH]; cbn [to_table]; [constructor|]. destruct (negb _); [apply sub_refl|]. destruct (among _ _); [apply sub_refl|now apply Sub_skip]. Qed.
Lemma sub_pop_to : forall f l, keeps (fun x => Sub x l) (pop_to f l).
Proof. intros f l. induction l as [|e l IH]; cbn; [exact I|]. destruct (f _); [apply sub_refl|]. eapply keeps_weak; [exact IH|]. intros x X. now apply Sub_skip. Qed.
Lemma sub_remove_first : forall {A} (f : A -> bool) l r, remove_first f l = Some r -> Sub r l.
Proof.
  intros A f l. induction l as [|e l IH]; intros r H; cbn in H; [discriminate|]. destruct (f e); [injection H as <-; apply Sub_skip, sub_refl|].
  destruct (remove_first f l) as [x|]; [|discriminate]. injection H as <-. apply Sub_keep. now apply IH.
Qed.
Lemma sub_remove_front : forall {A} (f : A -> bool) l r, remove_front f l = Some r -> Sub r l.
Proof.
  intros A f l r H. unfold remove_front in H. destruct (remove_first f (rev l)) as [x|] eqn:E; [|discriminate]. injection H as <-. apply sub_remove_first in E.
  apply sub_rev in E. now rewrite rev_involutive in E.
Qed.
Lemma sub_to_marker : forall l, Sub (to_marker l) l.
Proof. induction l as [|[e|] l IH]; cbn; [constructor|now apply Sub_skip|apply Sub_skip, sub_refl]. Qed.
Lemma sub_erase_earliest : forall d i l n, Sub (erase_earliest d i n l) l.
Proof.
  intros d i l. induction l as [|[e|] l IH]; intro n; cbn; try apply sub_refl. destruct (same_element _ _ _).
  - destruct n as [|[|n]]; [apply Sub_keep, IH|apply Sub_skip, sub_refl|apply Sub_keep, IH].
  - apply Sub_keep, IH.
Qed.
Lemma sub_breakout : forall d l, keeps (fun x => Sub x l) (breakout d l).
Proof.
  intros d l. induction l as [|e l IH]; cbn; [exact I|]. destruct l as [|f l]; [exact I|]. destruct (_ || _); [apply Sub_skip, sub_refl|].
  eapply keeps_weak; [exact IH|]. intros x X. now apply Sub_skip.
Qed.
Lemma single_sub : forall r l, Sub r l -> single l -> single r.
Proof. intros r l H S i. specialize (S i). apply (sub_filter (node_is i)) in H. apply sub_length in H. lia. Qed.
Lemma below_sub : forall n r l, Sub r l -> below n l -> below n r.
Proof. intros n r l H B. exact (sub_all _ r l H B). Qed.
Lemma single_cons : forall i g l, existsb (node_is i) l = false -> single l -> single (Some (Entry g i) :: l).
Proof. intros i g l E S. exact (single_more [] l (Entry g i) i eq_refl E S). Qed.
Lemma single_none : forall l, single l -> single (None :: l).
Proof. intros l S i. cbn. apply S. Qed.

Section Kept.
Variable x : option nat.
Notation Whole := (Apart x).

Lemma apart_dom : forall d s, (List.length (s_dom s) <= List.length d)%nat -> Whole s -> Whole (set_dom d s).
Proof.
  intros d s L [A2 A3 A4 A5 A6]. constructor; cbn; auto.
  - eapply Forall_impl; [|exact A4]. unfold inside. intros; lia.
  - now apply (below_up (List.length (s_dom s))).
  - destruct (s_head s); [|exact I]. unfold inside in *. lia.
Qed.
Lemma apart_stack : forall l s, Sub l (s_stack s) -> Whole s -> Whole (set_stack l s).
Proof.
  intros l s L [A2 A3 A4 A5 A6]. constructor; cbn; auto.
  - apply (sub_nodup _ (but x (s_stack s))); [|exact A2]. now apply sub_map, sub_filter.
  - now apply (sub_all _ l (s_stack s)).
Qed.
Lemma apart_active : forall l s, Sub l (s_active s) -> Whole s -> Whole (set_active l s).
Proof. intros l s L [A2 A3 A4 A5 A6]. constructor; cbn; auto; [now apply (single_sub l (s_active s))|now apply (below_sub _ l (s_active s))]. Qed.
Lemma apart_head : forall i s, inside (s_dom s) i -> Whole s -> Whole (set_head (Some i) s).
Proof. intros i s L [A2 A3 A4 A5 A6]. constructor; cbn; auto. Qed.
Lemma apart_form : forall i s, Whole s -> Whole (set_form i s).
Proof. intros i s H. exact H. Qed.
Lemma apart_slots : forall g s, Whole s -> Whole (keep_slots g s).
Proof. intros i s H. exact H. Qed.
Lemma apart_cond : forall (b : bool) s s', Whole s -> Whole s' -> Whole (if b then s else s').
Proof. now intros []. Qed.

Lemma apart_pop_until : forall t s, Whole s -> Whole (pop_until t s).
Proof. intros. apply apart_stack; [apply sub_drop_to|assumption]. Qed.
Lemma apart_pop_until_any : forall t s, Whole s -> Whole (pop_until_any t s).
Proof. intros. apply apart_stack; [apply sub_drop_to|assumption]. Qed.
Lemma apart_pop_until_node : forall t s, Whole s -> Whole (pop_until_node t s).
Proof. intros. apply apart_stack; [apply sub_drop_to|assumption]. Qed.
Lemma apart_implied : forall t s, Whole s -> Whole (implied_except t s).
Proof. intros. apply apart_stack; [apply sub_drop_implied|assumption]. Qed.
Lemma apart_implied_end : forall s, Whole s -> Whole (implied_end_tags s).
Proof. intros. now apply apart_implied. Qed.
Lemma apart_thoroughly : forall s, Whole s -> Whole (implied_thoroughly s).
Proof. intros. apply apart_stack; [apply sub_drop_implied|assumption]. Qed.
Lemma apart_to_table : forall s, Whole s -> Whole (to_table_context s).
Proof. intros. apply apart_stack; [apply sub_to_table|assumption]. Qed.
Lemma apart_clear : forall s, Whole s -> Whole (clear_formatting s).
Proof. intros. apply apart_active; [apply sub_to_marker|assumption]. Qed.
Lemma apart_marker : forall s, Whole s -> Whole (push_marker s).
Proof. intros s [A2 A3 A4 A5 A6]. constructor; try assumption. constructor; [exact I|exact A5]. Qed.
Lemma apart_remove_list : forall i s, Whole s -> Whole (remove_list i s).
Proof. intros i s W. unfold remove_list. destruct (remove_front _ _) as [l|] eqn:E; [|exact W]. apply apart_active; [now apply sub_remove_front in E|exact W]. Qed.
Lemma apart_close_p : forall s, Whole s -> Whole (close_p s).
Proof. intros. now apply apart_pop_until, apart_implied. Qed.
Lemma apart_close_cell : forall s, Whole s -> Whole (close_cell s).
Proof. intros s W. apply (apart_clear (pop_until_any [T_td; T_th] (implied_end_tags s))). now apply apart_pop_until_any, apart_implied_end. Qed.
Lemma apart_stop : forall s, Whole s -> Whole (stop_parsing s).
Proof. intros. apply apart_stack; [apply sub_none|assumption]. Qed.
Lemma apart_formatting : forall i g s, inside (s_dom s) i -> below i (s_active s) -> Whole s -> Whole (push_formatting i g s).
Proof.
  intros i g s H N [A2 A3 A4 A5 A6]. unfold push_formatting; cbv zeta. match goal with |- context [if ?b then ?p else ?q] => set (l := if b then p else q) end.
  assert (L : Sub l (s_active s)) by (unfold l; destruct (_ <=? _)%nat; [apply sub_erase_earliest|apply sub_refl]).
  constructor; cbn [s_dom s_stack s_active s_head set_active]; auto.
  - apply single_cons; [apply below_none; now apply (below_sub _ l (s_active s))|now apply (single_sub l (s_active s))].
  - constructor; [apply H|now apply (below_sub _ l (s_active s))].
Qed.
Lemma apart_merge : forall g i s, Whole s -> Whole (merge_attrs g i s).
Proof. intros g i s W. unfold merge_attrs. apply apart_dom; [|exact W]. now rewrite change_length. Qed.

Lemma kept_pop : forall s, Whole s -> keeps Whole (pop s).
Proof. intros s W. unfold pop. destruct (s_stack s) as [|e l] eqn:E; [exact I|]. apply apart_stack; [rewrite E; apply Sub_skip, sub_refl|exact W]. Qed.
Lemma kept_remove_stack : forall i s, Whole s -> keeps Whole (remove_stack i s).
Proof. intros i s W. unfold remove_stack. destruct (remove_front _ _) as [l|] eqn:E; [|exact I]. apply apart_stack; [now apply sub_remove_front in E|exact W]. Qed.
Lemma kept_to_body : forall s, Whole s -> keeps Whole (to_body_context s).
Proof. intros s W. eapply keeps_run; [apply sub_pop_to|]. intros l L. now apply apart_stack. Qed.
Lemma kept_to_row : forall s, Whole s -> keeps Whole (to_row_context s).
Proof. intros s W. eapply keeps_run; [apply sub_pop_to|]. intros l L. now apply apart_stack. Qed.
Lemma kept_p_closed : forall s, Whole s -> keeps Whole (p_closed s).
Proof. intros s W. unfold p_closed. destruct (in_scope _ _ _) as [[]| |]; try exact I; [now apply apart_close_p|exact W]. Qed.
Lemma kept_pop_template : forall s, Whole s -> keeps Whole (pop_template s).
Proof. intros s W. unfold pop_template. destruct (s_templates s); [exact I|exact W]. Qed.
Lemma kept_reset : forall s, Whole s -> keeps Whole (reset_mode s).
Proof. intros s W. unfold reset_mode. destruct (reset_from s (s_stack s)); try exact I. exact W. Qed.
Lemma kept_other_end : forall t s, Whole s -> keeps Whole (other_end t s).
Proof.
  intros t s W. unfold other_end. induction (s_stack s) as [|e l IH]; cbn; [exact I|]. destruct (is_html _ _ _); [now apply apart_pop_until_node, apart_implied|].
  destruct (is_special _ _); [exact W|exact IH].
Qed.
Lemma kept_dd : forall l s, Whole s -> keeps Whole (dd_from l s).
Proof.
  intros l s W. induction l as [|e l IH]; cbn; [exact I|]. destruct (is_html T_dd _ _); [now apply apart_pop_until, apart_implied|].
  destruct (is_html T_dt _ _); [now apply apart_pop_until, apart_implied|]. destruct (_ && _); [exact W|exact IH].
Qed.
Lemma insert_next : forall d p y d1 n, insert d p y = Val (d1, n) -> n = List.length d /\ List.length d1 = S (List.length d).
Proof.
  intros d p y d1 n H. unfold insert in H. destruct (put _ _ _); [|discriminate]. injection H as <- <-. split; [reflexivity|].
  rewrite app_length, change_length. cbn. lia.
Qed.
Lemma apart_push : forall g d p y i s, insert (s_dom s) p y = Val (d, i) -> Whole s -> Whole (set_stack (Entry g i :: s_stack s) (set_dom d s)).
Proof.
  intros g d p y i s E W. apply insert_next in E as [-> L]. pose proof (apart_dom d s ltac:(lia) W) as [A2 A3 A4 A5 A6]. cbn [s_dom s_stack s_active s_head set_dom] in *.
   pose proof (A_stack _ _ _ _ _ W) as S2.
  constructor; cbn [s_dom s_stack s_active s_head set_stack set_dom]; auto.
  - unfold but in *. cbn [filter en_node]. destruct (match x with Some _ => _ | None => _ end); cbn [map]; [|exact A2]. constructor; [|exact A2]. cbn [en_node]. intro Q.
    apply in_map_iff in Q. destruct Q as (e & Q1 & Q2). apply filter_In in Q2. rewrite Forall_forall in S2. pose proof (S2 e (proj1 Q2)) as B. unfold inside in B. lia.
  - constructor; [|exact A4]. cbn. unfold inside. lia.
Qed.
Definition New (p : st * nat) : Prop := Whole (fst p) /\ inside (s_dom (fst p)) (snd p) /\ below (snd p) (s_active (fst p)).
Lemma kept_foreign : forall g ns s, Whole s -> keeps New (insert_foreign g ns s).
Proof.
  intros g ns s W. unfold insert_foreign. destruct (cur s) as [c| |]; try exact I. destruct (place_for c s) as [p| |]; try exact I. destruct (element_for g ns) as [y| |]; try exact I.
  destruct (insert (s_dom s) p y) as [[d i]| |] eqn:E; try exact I. cbn [keeps]. split; [now apply (apart_push g d p y i s)|]. cbn [fst snd].
  apply insert_next in E as [-> L].  split; [cbn; unfold inside; cbn; lia|]. cbn. apply W.
Qed.
Lemma kept_insert_el : forall g s, Whole s -> keeps New (insert_el g s).
Proof. intros g s W. now apply kept_foreign. Qed.
Lemma kept_insert : forall g s, Whole s -> keeps Whole (insert_el' g s).
Proof. intros g s W. unfold insert_el'. eapply keeps_run2; [now apply kept_insert_el|]. intros a b Q. apply Q. Qed.
Lemma kept_void : forall g s, Whole s -> keeps Whole (insert_void g s).
Proof. intros g s W. unfold insert_void. eapply keeps_run; [now apply kept_insert|]. intros a Q. now apply kept_pop. Qed.
Lemma kept_plain : forall p y s, Whole s -> keeps Whole (run (d, _) <- insert (s_dom s) p y; Val (set_dom d s)).
Proof. intros p y s W. destruct (insert (s_dom s) p y) as [[d i]| |] eqn:E; try exact I. cbn [keeps]. apply insert_next in E as [_ L]. apply apart_dom; [lia|exact W]. Qed.
Lemma kept_char : forall c s, Whole s -> keeps Whole (insert_char c s).
Proof.
  intros c s W. unfold insert_char. destruct (cur s) as [i| |]; try exact I. destruct (place_for i s) as [p| |]; try exact I.
  destruct (_ =? _)%nat; [exact W|]. destruct (before_place _ _) as [[t|]|]; try exact I; [|now apply kept_plain].
  destruct (c_info (cell_of (s_dom s) t)); try (now apply kept_plain). cbn [keeps]. apply apart_dom; [|exact W]. now rewrite change_length.
Qed.
Lemma kept_comment_at : forall y p s, Whole s -> keeps Whole (insert_comment_at y p s).
Proof. intros y p s W. now apply kept_plain. Qed.
Lemma kept_comment : forall y s, Whole s -> keeps Whole (insert_comment y s).
Proof. intros y s W. unfold insert_comment. destruct (cur s) as [i| |]; try exact I. destruct (place_for i s) as [p| |]; try exact I. now apply kept_comment_at. Qed.
Lemma kept_raw_text : forall g s, Whole s -> keeps Whole (raw_text g s).
Proof. intros g s W. unfold raw_text. eapply keeps_run; [now apply kept_insert|]. intros a Q. exact Q. Qed.
Lemma kept_rcdata : forall g s, Whole s -> keeps Whole (rcdata g s).
Proof. intros g s W. unfold rcdata. eapply keeps_run; [now apply kept_insert|]. intros a Q. exact Q. Qed.
Lemma kept_reopen : forall l done s, single done -> below (List.length (s_dom s)) done -> Whole s -> keeps Whole (reopen l done s).
Proof.
  induction l as [|e l IH]; intros done s S B W; cbn [reopen].
  - cbn [keeps]. destruct W as [A2 A3 A4 A5 A6]. constructor; cbn; auto.
  - unfold insert_el, insert_foreign. destruct (cur s) as [c| |]; try exact I. destruct (place_for c s) as [p| |]; try exact I. destruct (element_for _ _) as [y| |]; try exact I.
    destruct (insert (s_dom s) p y) as [[d i]| |] eqn:E; try exact I. pose proof (apart_push (en_tag e) d p y i s E W) as Q. apply insert_next in E as [-> L]. apply IH; [| |exact Q].
    + apply single_cons; [now apply below_none|exact S].
    + cbn [s_dom set_stack set_dom]. constructor; [cbn; lia|]. apply (below_up (List.length (s_dom s))); [lia|exact B].
Qed.
Lemma to_open_sub : forall s l, Sub (snd (to_open s l)) l.
Proof.
  intros s l. induction l as [|[e|] l IH]; cbn; try apply sub_refl. destruct (on_stack _ _); [apply sub_refl|]. destruct (to_open s l). cbn in *. now apply Sub_skip.
Qed.
Lemma kept_reconstruct : forall s, Whole s -> keeps Whole (reconstruct s).
Proof.
  intros s W. unfold reconstruct. pose proof (to_open_sub s (s_active s)) as T. destruct (to_open s (s_active s)) as [a b]. cbn [snd] in T. destruct a; [exact W|].
  apply kept_reopen; [|now apply (below_sub _ b (s_active s)); [|apply W]|exact W]. apply (single_sub b (s_active s)); [exact T|apply W].
Qed.
Lemma kept_other_start : forall g s, Whole s -> keeps Whole (other_start g s).
Proof. intros g s W. unfold other_start. eapply keeps_run; [now apply kept_reconstruct|]. intros a Q. now apply kept_insert. Qed.
Lemma kept_body_html : forall g s, Whole s -> keeps Whole (body_html g s).
Proof. intros g s W. unfold body_html. destruct (contains _ _); [exact W|]. destruct (front s); try exact I. now apply apart_merge. Qed.
Lemma kept_foreign_end : forall t b l s, Whole s -> keeps (fun p => Whole (fst p)) (foreign_end t b l s).
Proof.
  intros t b l. induction l as [|e l IH]; intros s W; cbn [foreign_end]; [exact I|]. destruct (_ =? b)%nat; [exact W|].
  destruct (same_str _ _); [now apply apart_pop_until_node|]. destruct l as [|f r]; [exact I|]. destruct (negb _); [now apply IH|exact W].
Qed.
End Kept.

Lemma apart_fits : forall s, Apart None s -> Fits false s.
Proof.
  intros s [A2 A3 A4 A5 A6]. constructor; auto; [discriminate|].
  assert (Z : but None (s_stack s) = map en_node (s_stack s)); [|now rewrite <- Z]. unfold but. f_equal. induction (s_stack s) as [|e l IH]; [reflexivity|]. cbn. f_equal.
  apply IH; [now inversion A2|now inversion A4].
Qed.

(** *** The modes *)
Ltac whole :=
  repeat first
  [ assumption
  | apply apart_cond
  | apply apart_pop_until | apply apart_pop_until_any | apply apart_pop_until_node | apply apart_implied | apply apart_implied_end
  | apply apart_thoroughly | apply apart_to_table | apply apart_clear | apply apart_marker | apply apart_remove_list
  | apply apart_close_p | apply apart_close_cell | apply apart_stop | apply apart_form | apply apart_merge
  | match goal with
    | |- Apart ?x (set_mode _ ?s) => change (Apart x s)
    | |- Apart ?x (set_frameset_ok _ ?s) => change (Apart x s)
    | |- Apart ?x (set_omit_lf _ ?s) => change (Apart x s)
    | |- Apart ?x (set_quirks _ ?s) => change (Apart x s)
    | |- Apart ?x (set_templates _ ?s) => change (Apart x s)
    | |- Apart ?x (set_foster _ ?s) => change (Apart x s)
    | |- Apart ?x (set_original _ ?s) => change (Apart x s)
    | |- Apart ?x (set_pending _ ?s) => change (Apart x s)
    | |- Apart ?x (set_wanted _ ?s) => change (Apart x s)
    | |- Apart ?x (to_text ?s) => change (Apart x s)
    | |- Apart ?x (want _ ?s) => change (Apart x s)
    end
  | apply apart_head; [assumption|]
  | apply apart_formatting; [assumption|assumption|] ].
Ltac leaf :=
  first
  [ exact I
  | match goal with
    | |- keeps _ (Val _) => cbn [keeps]; whole
    | E : forall s k, Apart ?x s -> keeps (Apart ?x) (?e s k) |- keeps _ (?e _ _) => apply E; whole
    | |- keeps _ (pop _) => apply kept_pop; whole
    | |- keeps _ (remove_stack _ _) => apply kept_remove_stack; whole
    | |- keeps _ (to_body_context _) => apply kept_to_body; whole
    | |- keeps _ (to_row_context _) => apply kept_to_row; whole
    | |- keeps _ (p_closed _) => apply kept_p_closed; whole
    | |- keeps _ (pop_template _) => apply kept_pop_template; whole
    | |- keeps _ (reset_mode _) => apply kept_reset; whole
    | |- keeps _ (other_end _ _) => apply kept_other_end; whole
    | |- keeps _ (dd_from _ _) => apply kept_dd; whole
    | |- keeps _ (reconstruct _) => apply kept_reconstruct; whole
    | |- keeps _ (insert_char _ _) => apply kept_char; whole
    | |- keeps _ (insert_comment _ _) => apply kept_comment; whole
    | |- keeps _ (insert_comment_at _ _ _) => apply kept_comment_at; whole
    | |- keeps _ (insert_el' _ _) => apply kept_insert; whole
    | |- keeps _ (insert_void _ _) => apply kept_void; whole
    | |- keeps _ (raw_text _ _) => apply kept_raw_text; whole
    | |- keeps _ (rcdata _ _) => apply kept_rcdata; whole
    | |- keeps _ (other_start _ _) => apply kept_other_start; whole
    | |- keeps _ (body_html _ _) => apply kept_body_html; whole
    end ].
Lemma kept_agency : forall t s, Apart None s -> keeps (fun p => Apart None (fst p)) (agency t s).
Proof.
  intros t s W. destruct (agency t s) as [[s' b]| |] eqn:A; try exact I. cbn [keeps fst]. pose proof (apart_fits s W) as F.
  destruct (agency_full false t s s' b F A) as ([F1 F2 F3 F4 F5] & [R [X _]] & _). constructor; auto.
  - unfold but. assert (Z : forall l : list entry, filter (fun _ => true) l = l) by (induction l as [|e l IH]; [reflexivity|cbn; now rewrite IH]). rewrite Z. exact F2.
  - rewrite R. cbn [s_head set_active set_stack set_dom s_dom]. pose proof (A_head _ _ _ _ _ W) as H. destruct (s_head s); [unfold inside in *; lia|exact I].
Qed.
Ltac go :=
  repeat first
  [ leaf
  | match goal with
    | |- keeps (Apart ?x) (match ?r with Val _ => _ | Bad => _ | NoFuel => _ end) =>
        lazymatch type of r with
        | outcome st => apply (keeps_run (Apart x)); [|intros ? ?]
        | outcome bool => destruct r; [|exact I|exact I]
        | outcome nat => destruct r; [|exact I|exact I]
        | outcome (st * nat) => eapply keeps_run2; [apply (kept_insert_el x); whole|intros ? ? (? & ? & ?); cbn [fst snd] in *]
        | outcome (st * bool) => eapply keeps_run2; [apply kept_agency; whole|intros ? ? ?; cbn [fst snd] in *]
        end
    | |- keeps _ (if ?b then _ else _) => destruct b
    | |- keeps _ (match ?o with Some _ => _ | None => _ end) => destruct o
    | |- keeps _ (match ?o with [] => _ | _ :: _ => _ end) => destruct o
    end ].
Lemma kept_in_head : forall x emit, (forall s k, Apart x s -> keeps (Apart x) (emit s k)) ->
  forall s k, Apart x s -> keeps (Apart x) (on_in_head emit s k).
Proof. intros x emit E s k W. unfold on_in_head; cbv zeta. destruct k; go; [destruct (g_id g)|destruct t]; go. Qed.
Section Modes.
Variable listed : list Z -> bool.
Variable emit : st -> ktok -> outcome st.
Notation Whole := (Apart None).
Hypothesis E : forall s k, Whole s -> keeps Whole (emit s k).

Lemma kept_initial : forall s k, Whole s -> keeps Whole (on_initial listed emit s k).
Proof.
  intros s k W. unfold on_initial; cbv zeta. destruct k; go.
  destruct (insert _ _ _) as [[d1 i]| |] eqn:X; try exact I. cbn [keeps]. apply insert_next in X as [_ X].
  assert (Whole (set_dom d1 s)) by (apply apart_dom; [lia|exact W]). whole.
Qed.
Lemma kept_before_html : forall s k, Whole s -> keeps Whole (on_before_html emit s k).
Proof.
  intros s k W. unfold on_before_html; cbv zeta.
  assert (R : keeps Whole (run (d, i) <- insert (s_dom s) (at_end the_document) (IElement ns_HTML T_html []);
    emit (set_mode M_before_head (set_stack (Entry empty_tag i :: s_stack s) (set_dom d s))) k)).
  { destruct (insert _ _ _) as [[d1 i]| |] eqn:X; try exact I. apply E. exact (apart_push None empty_tag _ _ _ _ s X W). }
  destruct k; try exact R; go; try exact R.
  - destruct (g_id g); try exact R. clear R. destruct (element_for g ns_HTML) as [y| |]; try exact I.
    destruct (insert _ _ _) as [[d1 i]| |] eqn:Y; try exact I. cbn [keeps]. exact (apart_push None g _ _ _ _ s Y W).
  - destruct t; first [exact R|go].
Qed.
Lemma kept_before_head : forall s k, Whole s -> keeps Whole (on_before_head emit s k).
Proof. intros s k W. unfold on_before_head; cbv zeta. destruct k; go; [destruct (g_id g)|destruct t]; go. Qed.
Lemma kept_in_head_noscript : forall s k, Whole s -> keeps Whole (on_in_head_noscript emit s k).
Proof.
  intros s k W. pose proof (kept_in_head None emit E s k W) as H. unfold on_in_head_noscript; cbv zeta.
  destruct k; try exact H; go; try exact H; [destruct (g_id g)|destruct t]; try exact H; go.
Qed.
(** the tags for which the head element is put back on the stack *)
Lemma kept_with_head : forall s g h, Whole s -> s_head s = Some h ->
  on_in_head emit (set_stack (Entry empty_tag h :: s_stack s) s) (KStart g) = on_in_head (fun _ _ => Bad) (set_stack (Entry empty_tag h :: s_stack s) s) (KStart g) ->
  keeps Whole (run s1 <- on_in_head emit (set_stack (Entry empty_tag h :: s_stack s) s) (KStart g);
               Val (set_stack (filter (fun e => negb (en_node e =? h)%nat) (s_stack s1)) s1)).
Proof.
  intros s g h W H Q. rewrite Q. clear Q. apply (keeps_run (Apart (Some h))).
  - apply kept_in_head; [intros ? ? ?; exact I|]. destruct W as [A2 A3 A4 A5 A6]. rewrite H in A6. constructor; cbn [s_dom s_stack s_active s_head set_stack]; auto; [|now rewrite H].
    unfold but. cbn [filter en_node]. rewrite PeanoNat.Nat.eqb_refl. cbn [negb].
    apply (sub_nodup _ (but None (s_stack s))); [|exact A2]. apply sub_map. clear. induction (s_stack s) as [|e l IH]; cbn; [constructor|]. destruct (negb _); now constructor.
  - intros s1 [A2 A3 A4 A5 A6]. cbn [keeps]. constructor; cbn [s_dom s_stack s_active s_head set_stack]; auto.
    + unfold but in *. assert (Z : forall l : list entry, filter (fun _ => true) l = l) by (induction l as [|e l IH]; [reflexivity|cbn; now rewrite IH]). rewrite Z. exact A2.
    + apply (sub_all _ _ (s_stack s1)); [apply sub_filtered|exact A4].
Qed.
Lemma kept_after_head : forall s k, Whole s -> keeps Whole (on_after_head emit s k).
Proof.
  intros s k W. pose proof (kept_in_head None emit E s k W) as H. unfold on_after_head; cbv zeta.
  destruct k; go; [|destruct t; try exact H; go].
  destruct (g_id g) eqn:G;
    first [solve [destruct (s_head s) as [h|] eqn:HH; [|exact I]; apply kept_with_head; [exact W|exact HH|unfold on_in_head; rewrite G; reflexivity]]|go].
Qed.
Lemma kept_template_eof : forall s, Whole s -> keeps Whole (template_eof emit s).
Proof. intros s W. unfold template_eof; cbv zeta. go. Qed.
Lemma kept_math : forall g ns s, Whole s ->
  keeps Whole (run s1 <- reconstruct s;
      let g1 := adjust_foreign (adjust_mathml g) in
      run (s2, _) <- insert_foreign g1 ns (keep_slots g1 s1);
      if g_self g then pop s2 else Val s2).
Proof.
  intros g ns s W. apply (keeps_run Whole); [leaf|]. intros s1 W1. cbv zeta. eapply keeps_run2; [apply (kept_foreign None); exact W1|].
  intros s2 i (W2 & _). cbn [fst] in W2. go.
Qed.
Lemma kept_frameset : forall g s, Whole s -> keeps Whole (
      if (List.length (s_stack s) =? 1)%nat then Val s
      else run i <- second s;
           if is_html T_body (s_dom s) i then Val s
           else if negb (s_frameset_ok s) then Val s
           else
             let p := parent_of (s_dom s) i in
             let s1 := if (parent_of (s_dom s) p =? the_document)%nat then s else set_dom (erase (s_dom s) p) s in
             run l <- pop_to (is_html T_html (s_dom s1)) (s_stack s1);
             run s2 <- insert_el' g (set_stack l s1);
             Val (set_mode M_in_frameset s2)).
Proof.
  intros g s W. destruct (_ =? 1)%nat; [exact W|]. destruct (second s) as [i| |]; try exact I. destruct (is_html T_body _ _); [exact W|]. destruct (negb _); [exact W|].
  cbv zeta. match goal with |- context [if ?b then s else ?t] => set (s1 := if b then s else t) end.
  assert (W1 : Whole s1) by (unfold s1; destruct (_ =? the_document)%nat; [exact W|]; apply apart_dom; [unfold erase; rewrite change_length; lia|exact W]).
  eapply keeps_run; [apply sub_pop_to|]. intros l L. assert (W2 : Whole (set_stack l s1)) by now apply apart_stack. go.
Qed.
Lemma kept_body_start : forall s g, Whole s -> keeps Whole (body_start emit s g).
Proof.
  intros s g W. pose proof (kept_in_head None emit E s (KStart g) W) as H. unfold body_start; cbv zeta.
  destruct (g_id g); try exact H; try (apply kept_frameset; exact W); try (apply kept_math; exact W); cbv zeta; go.
Qed.
Lemma kept_body_end : forall s t, Whole s -> keeps Whole (body_end emit s t).
Proof. intros s t W. pose proof (kept_in_head None emit E s (KEnd t) W) as H. unfold body_end; cbv zeta. destruct t; try exact H; go. Qed.
Lemma kept_in_body : forall s k, Whole s -> keeps Whole (on_in_body emit s k).
Proof. intros s k W. unfold on_in_body; cbv zeta. destruct k; go; first [now apply kept_body_start|now apply kept_body_end|now apply kept_template_eof]. Qed.
Ltac mode := intros s k W; pose proof (kept_in_head None emit E s k W) as H; pose proof (kept_in_body s k W) as B.
Ltac cases H B :=
  match goal with k : ktok |- _ => destruct k as [?|g|t|?|?|] end; try exact B; try exact H; go; try exact B; try exact H;
  match goal with
  | |- keeps _ (match g_id ?g with _ => _ end) => destruct (g_id g)
  | |- keeps _ (match ?t with T_a => _ | _ => _ end) => destruct t
  | |- _ => idtac
  end; first [exact B|exact H|go].
Lemma kept_text : forall s k, Whole s -> keeps Whole (on_text emit s k).
Proof. intros s k W. unfold on_text; cbv zeta. destruct k; go. Qed.
Lemma kept_fostered : forall s k, Whole s -> keeps Whole (run s1 <- on_in_body emit (set_foster true s) k; Val (set_foster false s1)).
Proof. intros s k W. apply (keeps_run Whole); [apply kept_in_body; exact W|]. intros s1 W1. exact W1. Qed.
Lemma kept_in_table : forall s k, Whole s -> keeps Whole (on_in_table emit s k).
Proof.
  mode. unfold on_in_table; cbv zeta.
  destruct k as [?|g|t|?|?|]; try exact B; go; try (apply kept_in_body; whole);
    [destruct (g_id g)|destruct t]; first [exact H|go]; apply kept_in_body; whole.
Qed.
Lemma kept_table_text : forall b l s, Whole s -> keeps Whole (table_text emit b l s).
Proof.
  intros b l. induction l as [|c l IH]; intros s W; cbn [table_text]; [exact W|]. apply (keeps_run Whole); [|intros s1 W1; now apply IH].
  destruct b; [now apply kept_fostered|leaf].
Qed.
Lemma kept_in_table_text : forall s k, Whole s -> keeps Whole (on_in_table_text emit s k).
Proof.
  intros s k W. unfold on_in_table_text; cbv zeta.
  assert (Q : keeps Whole (run s1 <- table_text emit (negb (forallb is_ascii_white_space (s_pending s))) (s_pending s) s; emit (set_mode (s_original s1) s1) k)).
  { apply (keeps_run Whole); [now apply kept_table_text|]. intros s1 W1. now apply E. }
  destruct k; try exact Q. go.
Qed.
Lemma kept_in_caption : forall s k, Whole s -> keeps Whole (on_in_caption emit s k).
Proof. mode. unfold on_in_caption; cbv zeta. cases H B. Qed.
Lemma kept_in_column_group : forall s k, Whole s -> keeps Whole (on_in_column_group emit s k).
Proof. mode. unfold on_in_column_group; cbv zeta. cases H B. Qed.
Lemma kept_in_table_body : forall s k, Whole s -> keeps Whole (on_in_table_body emit s k).
Proof. mode. clear B. pose proof (kept_in_table s k W) as B. unfold on_in_table_body; cbv zeta. cases H B. Qed.
Lemma kept_in_row : forall s k, Whole s -> keeps Whole (on_in_row emit s k).
Proof. mode. clear B. pose proof (kept_in_table s k W) as B. unfold on_in_row; cbv zeta. cases H B. Qed.
Lemma kept_in_cell : forall s k, Whole s -> keeps Whole (on_in_cell emit s k).
Proof. mode. unfold on_in_cell; cbv zeta. cases H B. Qed.
Lemma kept_in_select : forall s k, Whole s -> keeps Whole (on_in_select emit s k).
Proof. mode. unfold on_in_select; cbv zeta. cases H B. Qed.
Lemma kept_in_select_in_table : forall s k, Whole s -> keeps Whole (on_in_select_in_table emit s k).
Proof. mode. clear B. pose proof (kept_in_select s k W) as B. unfold on_in_select_in_table; cbv zeta. cases H B. Qed.
Lemma kept_in_template : forall s k, Whole s -> keeps Whole (on_in_template emit s k).
Proof. mode. pose proof (kept_template_eof s W) as Q. unfold on_in_template; cbv zeta. destruct k; try exact Q; try exact B; [destruct (g_id g)|destruct t]; first [exact H|go]. Qed.
Lemma kept_after_body : forall s k, Whole s -> keeps Whole (on_after_body emit s k).
Proof.
  mode. unfold on_after_body; cbv zeta. destruct k; try (go; fail).
  - destruct (g_id g); go.
  - destruct t; go.
  - go. exact B.
Qed.
Lemma kept_in_frameset : forall s k, Whole s -> keeps Whole (on_in_frameset emit s k).
Proof. mode. unfold on_in_frameset; cbv zeta. cases H B. Qed.
Lemma kept_after_frameset : forall s k, Whole s -> keeps Whole (on_after_frameset emit s k).
Proof. mode. unfold on_after_frameset; cbv zeta. cases H B. Qed.
Lemma kept_after_after_body : forall s k, Whole s -> keeps Whole (on_after_after_body emit s k).
Proof. mode. unfold on_after_after_body; cbv zeta. cases H B. Qed.
Lemma kept_after_after_frameset : forall s k, Whole s -> keeps Whole (on_after_after_frameset emit s k).
Proof. mode. unfold on_after_after_frameset; cbv zeta. cases H B. Qed.
Lemma kept_mode : forall s k, Whole s -> keeps Whole (in_mode listed emit s k).
Proof.
  intros s k W. unfold in_mode. destruct (s_mode s);
  first [apply kept_initial|apply kept_before_html|apply kept_before_head|now apply kept_in_head|apply kept_in_head_noscript|apply kept_after_head|apply kept_in_body
  |apply kept_text|apply kept_in_table|apply kept_in_table_text|apply kept_in_caption|apply kept_in_column_group|apply kept_in_table_body|apply kept_in_row
  |apply kept_in_cell|apply kept_in_select|apply kept_in_select_in_table|apply kept_in_template|apply kept_after_body|apply kept_in_frameset|apply kept_after_frameset
  |apply kept_after_after_body|apply kept_after_after_frameset]; assumption.
Qed.
Lemma kept_on_foreign : forall s k, Whole s -> keeps Whole (on_foreign listed emit s k).
Proof.
  intros s k W. unfold on_foreign; cbv zeta. destruct k; try (go; fail).
  - match goal with |- context [if ?b then _ else _] => destruct b end.
    + apply (keeps_run Whole); [leaf|]. intros s1 W1. eapply keeps_run; [apply sub_breakout|]. intros l L. apply E. now apply apart_stack.
    + unfold foreign_start. destruct (adjusted s) as [e| |]; try exact I. cbv zeta.
      eapply keeps_run2; [apply (kept_foreign None); exact W|]. intros s2 i (W2 & _). cbn [fst] in W2. go.
  - destruct (cur s) as [i| |]; try exact I. destruct (_ && _); [leaf|]. destruct (front s) as [b| |]; try exact I.
    eapply keeps_run2; [apply (kept_foreign_end None _ _ _ s W)|]. intros s1 [] W1; [now apply kept_mode|exact W1].
Qed.
Lemma kept_dispatch : forall s k, Whole s -> keeps Whole (dispatch listed emit s k).
Proof.
  intros s0 k W0. unfold dispatch; cbv zeta. set (s := set_omit_lf false s0). assert (W : Whole s) by exact W0.
  assert (Q : keeps Whole (in_mode listed emit s k)) by now apply kept_mode.
  assert (N : keeps Whole (on_foreign listed emit s k)) by now apply kept_on_foreign.
  destruct k; repeat match goal with
    | |- keeps _ (match ?o with [] => _ | _ :: _ => _ end) => destruct o
    | |- keeps _ (match ?r with Val _ => _ | Bad => _ | NoFuel => _ end) => destruct r
    | |- keeps _ (if ?b then _ else _) => destruct b
    | |- _ => first [exact Q|exact N|exact W|exact I]
    end.
Qed.
End Modes.

Lemma kept_process : forall listed f s k, Apart None s -> keeps (Apart None) (process listed f s k).
Proof. intros listed f. induction f as [|f IH]; intros s k W; cbn [process]; [exact I|]. now apply kept_dispatch. Qed.
Lemma kept_construct : forall listed f l s, Apart None s -> keeps (Apart None) (construct listed f s l).
Proof.
  intros listed f l. induction l as [|t l IH]; intros s W; cbn [construct]; [exact W|]. apply (keeps_run (Apart None)).
  - unfold feed. now apply kept_process.
  - intros s1 W1. now apply IH.
Qed.
Lemma apart_init : forall b, Apart None (st_init b).
Proof. intro b. exact (MkApart None _ [] [] None (NoDup_nil _) (fun i => le_S _ _ (le_n _)) (Forall_nil _) (Forall_nil _) I). Qed.
Lemma built_apart : forall listed fuel fragment l s, construct listed fuel (st_init fragment) l = Val s ->
  NoDup (map en_node (s_stack s)) /\ single (s_active s) /\ Forall (fun e => (en_node e < List.length (s_dom s))%nat) (s_stack s) /\ below (List.length (s_dom s)) (s_active s).
Proof.
  intros listed fuel fragment l s H. pose proof (kept_construct listed fuel l (st_init fragment) (apart_init _)) as K. rewrite H in K. cbn [keeps] in K.
  apply apart_fits in K. destruct K as [F1 F2 F3 F4 F5]. split; [exact F2|]. split; [exact F3|]. split; [exact F4|exact F5].
Qed.
