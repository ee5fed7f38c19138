(** Texts and comments. *)
From Coq Require Import ZArith List Bool String Lia.
From Verif Require Import M_infra M_encoding M_labels M_html M_html_serialize M_dom_names M_dom M_dom2 L_html_serialize L_dom L_dom2 L_dom3 L_dom4 L_dom5 L_dom6.
Import ListNotations.
Open Scope Z_scope.
Open Scope dom_scope.
Open Scope list_scope.

(** the last child is not a text *)
Definition no_text (d : list cell) (c : nat) : Prop :=
  match kids_of d c with [] => True | (_ :: _) as l => forall x, c_info (cell_of d (last l O)) <> IText x end.
Lemma kids_grow : forall d c l, (c < List.length d)%nat -> kids_of (grow d c l) c = kids_of d c ++ ids (List.length d) l.
Proof.
  intros d c l H. unfold kids_of, grow. rewrite cell_app1 by now rewrite change_length. rewrite cell_change, PeanoNat.Nat.eqb_refl.
  apply PeanoNat.Nat.ltb_lt in H. rewrite H. reflexivity.
Qed.
Lemma kids_grow_one : forall d c n, (c < List.length d)%nat -> kids_of (grow d c [n]) c = kids_of d c ++ [List.length d].
Proof. intros. now rewrite kids_grow. Qed.
Lemma cell_grow_one : forall d c n, cell_of (grow d c [n]) (List.length d) = hd no_cell (lay (List.length d) c n).
Proof.
  intros d c n. unfold grow. rewrite row_one. rewrite <- (PeanoNat.Nat.add_0_r (List.length d)) at 3.
  rewrite <- (change_length d c (add_kids (ids (List.length d) [n]))) at 3. rewrite cell_app2. unfold cell_of. now destruct (lay (List.length d) c n).
Qed.
Lemma last_snoc : forall (l : list nat) x y, match l ++ [x] with [] => None | (_ :: _) as m => Some (last m y) end = Some x.
Proof. intros l x y. destruct (l ++ [x]) eqn:E; [now destruct l|]. rewrite <- E. f_equal. apply last_last. Qed.
Lemma no_text_grow : forall d c n, (c < List.length d)%nat -> is_text n = false -> no_text (grow d c [n]) c.
Proof.
  intros d c n H T. unfold no_text. rewrite kids_grow_one by exact H. destruct (kids_of d c ++ [List.length d]) eqn:E; [exact I|]. rewrite <- E, last_last.
  rewrite cell_grow_one. destruct n; cbn; try discriminate; discriminate T.
Qed.
Lemma cell_new : forall d c f y, cell_of (change d c f ++ [y]) (List.length d) = y.
Proof.
  intros d c f y. unfold cell_of. rewrite app_nth2; rewrite change_length; [|lia]. now rewrite PeanoNat.Nat.sub_diag.
Qed.
Lemma change_new : forall d c f y g, change (change d c f ++ [y]) (List.length d) g = change d c f ++ [g y].
Proof. intros d c f y g. rewrite <- (change_length d c f) at 1. rewrite change_at. reflexivity. Qed.
Lemma no_text_new : forall d c x, no_text (change d c (add_kids [List.length d]) ++ [Cell x c []]) (List.length d).
Proof. intros d c x. unfold no_text, kids_of. now rewrite cell_new. Qed.

(** *** One character *)

Lemma char_first : forall s c, s_foster s = false -> s_stack s <> [] -> (1 <= top s)%nat -> no_text (s_dom s) (top s) ->
  insert_char c s = Val (appended [NText [c]] s).
Proof.
  intros s c F N B NT. unfold insert_char, appended, cur, place_for, no_text, top in *. destruct (s_stack s) as [|e st]; [contradiction|]. cbv beta iota.
  rewrite F. cbn [andb]. cbv beta iota. unfold at_end at 1. cbn [fst].
  replace (en_node e =? the_document)%nat with false by (symmetry; apply PeanoNat.Nat.eqb_neq; unfold the_document; lia).
  unfold before_place. cbn [snd at_end fst].
  rewrite (grow_leaf (s_dom s) (en_node e) (NText [c]) (IText [c]) eq_refl).
  destruct (kids_of (s_dom s) (en_node e)) as [|k l].
  - now rewrite insert_end.
  - destruct (c_info (cell_of (s_dom s) (last (k :: l) O))) eqn:E; try now rewrite insert_end. now elim (NT data).
Qed.
Lemma char_more : forall s d x c, s_foster s = false -> s_stack s <> [] -> (1 <= top s)%nat -> (top s < List.length d)%nat ->
  s_dom s = grow d (top s) [NText x] -> insert_char c s = Val (set_dom (grow d (top s) [NText (x ++ [c])]) s).
Proof.
  intros s d x c F N B B2 E. unfold insert_char, cur, place_for, top in *. destruct (s_stack s) as [|e st]; [contradiction|]. cbv beta iota.
  rewrite F. cbn [andb]. cbv beta iota. unfold at_end at 1. cbn [fst].
  replace (en_node e =? the_document)%nat with false by (symmetry; apply PeanoNat.Nat.eqb_neq; unfold the_document; lia).
  unfold before_place. cbn [snd at_end fst]. rewrite E, kids_grow_one by exact B2. rewrite last_snoc. rewrite cell_grow_one. cbn [lay hd c_info].
  do 2 f_equal. rewrite !(grow_leaf _ _ (NText _) (IText _) eq_refl).
  rewrite change_new. reflexivity.
Qed.

Fixpoint insert_chars (l : list Z) (s : st) : outcome st :=
  match l with [] => Val s | c :: r => run s1 <- insert_char c s; insert_chars r s1 end.
Lemma table_text_chars : forall emit l s, table_text emit false l s = insert_chars l s.
Proof. induction l as [|c l IH]; intro s; [reflexivity|]. cbn [table_text insert_chars]. destruct (insert_char c s); [apply IH|reflexivity|reflexivity]. Qed.
Lemma chars_more : forall l s d x, s_foster s = false -> s_stack s <> [] -> (1 <= top s)%nat -> (top s < List.length d)%nat ->
  s_dom s = grow d (top s) [NText x] -> insert_chars l s = Val (set_dom (grow d (top s) [NText (x ++ l)]) s).
Proof.
  induction l as [|c l IH]; intros s d x F N B B2 E; cbn [insert_chars].
  - rewrite app_nil_r, <- E. now destruct s.
  - rewrite (char_more s d x c F N B B2 E). cbv beta iota. rewrite (IH _ d (x ++ [c])); try assumption; [|reflexivity].
    unfold top. cbn [s_stack set_dom]. rewrite <- app_assoc. destruct s; reflexivity.
Qed.
Lemma chars_first : forall l s, l <> [] -> s_foster s = false -> s_stack s <> [] -> (1 <= top s < List.length (s_dom s))%nat -> no_text (s_dom s) (top s) ->
  insert_chars l s = Val (appended [NText l] s).
Proof.
  intros [|c l] s NE F N B NT; [contradiction|]. cbn [insert_chars]. rewrite char_first; try assumption; [|lia]. cbv beta iota.
  rewrite (chars_more l _ (s_dom s) [c]); try assumption; try reflexivity; unfold top in *; cbn [s_stack appended set_dom]; try lia.
Qed.
Lemma comment_put : forall anc s d, Good anc s -> insert_comment d s = Val (appended [NComment d] s).
Proof.
  intros anc s d G. unfold insert_comment. rewrite (cur_top _ _ G). cbv beta iota. rewrite (place_end _ _ G). cbv beta iota.
  unfold insert_comment_at. rewrite insert_end. cbv beta iota. unfold appended. now rewrite (grow_leaf _ _ (NComment d) (IComment d) eq_refl).
Qed.
Lemma good_stack : forall anc s, Good anc s -> s_stack s <> [].
Proof. intros anc s G. destruct (stack_cons _ _ G) as (e & st & t & an & E & _). rewrite E. discriminate. Qed.

(** *** Feeding *)

(** before a token *)
Definition rest (s : st) : st := set_omit_lf false (set_wanted None s).
Lemma good_rest : forall anc s, Good anc s -> Good anc (rest s).
Proof. intros anc s G. now apply (good_same anc s). Qed.

Section Feed.
Variable listed : list Z -> bool.

Lemma adjusted_html : forall s e st t, s_stack s = e :: st -> s_fragment s = false -> is_named (s_dom s) e t -> 
  adjusted s = Val e /\ ns_of (s_dom s) (en_node e) =? ns_HTML = true.
Proof.
  intros s e st t E F N. unfold adjusted. rewrite E, F. split; [reflexivity|]. rewrite (named_ns _ _ _ N). reflexivity.
Qed.
Lemma dispatch_html : forall emit s k e st t, s_stack s = e :: st -> s_fragment s = false -> is_named (s_dom s) e t ->
  (s_omit_lf s = true -> k <> KChar 0xA) -> dispatch listed emit s k = in_mode listed emit (set_omit_lf false s) k.
Proof.
  intros emit s k e st t E F N L.
  destruct (adjusted_html (set_omit_lf false s) e st t E F N) as [A H]. unfold dispatch. cbn [s_stack set_omit_lf]. rewrite E, A. cbv beta iota zeta. rewrite H.
  destruct k; try reflexivity. cbn [orb]. destruct (s_omit_lf s && (c =? 0xA)) eqn:X; [|reflexivity].
  apply andb_prop in X. destruct X as [X Y]. apply Z.eqb_eq in Y. subst c. now elim (L X).
Qed.
Lemma feed_html : forall f s k e st t, s_stack s = e :: st -> s_fragment s = false -> is_named (s_dom s) e t -> s_slots s = [] ->
  (s_omit_lf s = true -> k <> TChar 0xA) -> feed listed (Datatypes.S f) s k = in_mode listed (process listed f) (rest s) (tok_of [] k).
Proof.
  intros f s k e st t E F N SL L. unfold feed. cbn [process]. rewrite SL.
  rewrite (dispatch_html _ (set_wanted None s) (tok_of [] k) e st t E F N); [reflexivity|]. intros H K. apply (L H). destruct k; try discriminate K.
  injection K as ->. reflexivity.
Qed.
Lemma feed_good : forall f anc s k, Good anc s -> (s_omit_lf s = true -> k <> TChar 0xA) ->
  feed listed (Datatypes.S f) s k = in_mode listed (process listed f) (rest s) (tok_of [] k).
Proof.
  intros f anc s k G L. destruct (stack_cons _ _ G) as (e & st & t & an & E & _ & N & _).
  apply (feed_html f s k e st t E); try assumption; apply G.
Qed.

(** *** Texts in tables are put in later *)

Definition waiting (anc : list tname) (d : list Z) (s : st) : st := set_pending d (set_mode M_in_table_text (set_original (mode_of anc) s)).
Inductive Late (anc : list tname) : st -> st -> Prop :=
| Late_now : forall s, Late anc s s
| Late_text : forall s d, Good anc s -> no_text (s_dom s) (top s) -> d <> [] -> forallb is_ascii_white_space d = true ->
    s_omit_lf s = false -> s_wanted s = None ->
    Late anc (waiting anc d s) (set_mode (mode_of anc) (appended [NText d] (waiting anc d s))).

Lemma late_feed : forall f anc s s0 k, Good anc s0 -> Late anc s s0 -> (forall c, k <> TChar c) -> exists emit,
  feed listed (Datatypes.S (Datatypes.S f)) s k = in_mode listed emit (rest s0) (tok_of [] k).
Proof.
  intros f anc s s0 k G L K. destruct L as [s|s d G1 NT NE W Om Wa].
  - exists (process listed (Datatypes.S f)). apply (feed_good _ anc); [exact G|]. intros _. apply K.
  - exists (process listed f).
    destruct (stack_cons _ _ G1) as (e & st & t & an & E & _ & N & _).
    rewrite (feed_html _ (waiting anc d s) k e st t E (G_fragment _ _ G1) N (G_slots _ _ G1)) by (intros _; apply K).
    assert (ER : rest (waiting anc d s) = waiting anc d s) by (destruct s; cbn in Om, Wa; subst; reflexivity).
    rewrite ER. unfold in_mode. change (s_mode (waiting anc d s)) with M_in_table_text. cbv iota. unfold on_in_table_text.
    change (s_pending (waiting anc d s)) with d. rewrite W. cbn [negb]. rewrite table_text_chars.
    rewrite (chars_first d (waiting anc d s)); try assumption.
    + cbv beta iota. cbn [process].
      destruct (stack_cons _ _ G) as (e2 & st2 & t2 & an2 & E2 & _ & N2 & _).
      assert (D := dispatch_html (process listed f) _ (tok_of [] k) e2 st2 t2 E2 (G_fragment _ _ G) N2). 
      change (set_mode (s_original (appended [NText d] (waiting anc d s))) (appended [NText d] (waiting anc d s)))
        with (set_mode (mode_of anc) (appended [NText d] (waiting anc d s))).
      destruct (tok_of [] k) eqn:Ek; try (rewrite D by discriminate; destruct s; cbn in Wa; subst; reflexivity).
      destruct k; try discriminate Ek. now elim (K c0).
    + apply (G_foster _ _ G1).
    + exact (good_stack _ _ G1).
    + pose proof (top_bounds _ _ G1). unfold top in *. cbn. lia.
Qed.
End Feed.
