(** A row of nodes as it is read back. *)
From Coq Require Import ZArith List Bool String Lia.
From Verif Require Import M_infra M_encoding M_labels M_html M_html_serialize L_html_serialize L_html8 L_html9 M_dom_names M_dom M_dom2 L_dom L_dom2 L_dom3 L_dom4 L_dom5 L_dom6 L_dom7.
Import ListNotations.
Open Scope Z_scope.
Open Scope dom_scope.
Open Scope list_scope.

(** *** Tags as tokens *)

Lemma attrs_back : forall attrs ats, AttrsRead attrs ats -> forallb plain_attr attrs = true ->
  map (fun a => Attr (ta_ns a) (ta_prefix a) (ta_name a) (ta_value a)) (filter (fun a => negb (ta_omitted a)) (fill [] ats)) = attrs.
Proof.
  induction 1 as [|a l name r AN NA AR IH NI]; intro P; [reflexivity|]. cbn [forallb] in P. apply andb_prop in P. destruct P as [P1 P2].
  cbn. rewrite (IH P2). f_equal. unfold plain_attr in P1. apply andb_prop in P1. destruct P1 as [P1 P3]. apply Z.eqb_eq in P1.
  destruct AN; cbn in *; try discriminate P1; try contradiction. destruct p; [reflexivity|discriminate P3].
Qed.
Lemma element_back : forall name attrs ats, AttrsRead attrs ats -> forallb plain_attr attrs = true -> name <> [] ->
  element_for (emitted [] (Tag name false ats)) ns_HTML = Val (IElement ns_HTML (tname_of name) attrs).
Proof.
  intros name attrs ats A P N. unfold element_for, emitted. cbn [g_attrs g_atom g_text g_id g_name g_attributes].
  rewrite (attrs_back _ _ A P). destruct (has_atom name); [reflexivity|]. destruct name; [contradiction|reflexivity].
Qed.

(** *** Runs *)

Section Runs.
Variable listed : list Z -> bool.
Variable f : nat.
Notation fuel := (Datatypes.S (Datatypes.S f)).

(** what the tokenizer is told after a start tag is what the name says *)
Definition told (k : token) (s : st) : Prop := match k with TStart (Tag _ false _) => option_map state_of (s_wanted s) = by_name [k] | _ => True end.
Inductive Run : st -> list token -> st -> Prop :=
| Run_nil : forall s, Run s [] s
| Run_cons : forall s k s1 r s2, feed listed fuel s k = Val s1 -> told k s1 -> Run s1 r s2 -> Run s (k :: r) s2.
Lemma run_app : forall s a s1, Run s a s1 -> forall b s2, Run s1 b s2 -> Run s (a ++ b) s2.
Proof. induction 1; intros b s3 R; [exact R|]. cbn. econstructor; eauto. Qed.
Lemma run_one : forall s k s1, feed listed fuel s k = Val s1 -> told k s1 -> Run s [k] s1.
Proof. intros. econstructor; eauto. constructor. Qed.

(** *** Texts *)

Definition table_mode (m : mode) : bool := match m with M_in_table | M_in_table_body | M_in_row => true | _ => false end.
Lemma run_val : forall (A : Type) (x : outcome A), (run y <- x; Val y) = x.
Proof. now destruct x. Qed.
Lemma char_mode : forall emit anc s c, Good anc s -> text_allowed anc [c] = true -> table_mode (mode_of anc) = false ->
  exists b : bool, in_mode listed emit s (KChar c) = run s1 <- insert_char c s; Val (if b then set_frameset_ok false s1 else s1).
Proof.
  intros emit anc s c G A M. unfold in_mode. rewrite (G_mode _ _ G). unfold text_allowed in A. cbn [forallb] in A. rewrite ?andb_true_r in A.
  assert (B : negb (c =? 0) = true -> exists b : bool, on_in_body emit s (KChar c) = run s1 <- insert_char c s; Val (if b then set_frameset_ok false s1 else s1)).
  { intro Z0. apply negb_true_iff in Z0. exists (negb (is_ascii_white_space c)). cbn [on_in_body]. rewrite Z0. rewrite (reconstruct_id _ _ G). cbv beta iota.
    destruct (insert_char c s); try reflexivity. now destruct (is_ascii_white_space c). }
  destruct (mode_of anc) eqn:E; try discriminate A; try discriminate M; rewrite ?andb_true_r in A.
  - exists false. unfold on_in_head. rewrite A. symmetry. apply run_val.
  - now apply B.
  - now apply B.
  - exists false. unfold on_in_column_group. rewrite A. symmetry. apply run_val.
  - now apply B.
  - exists false. unfold on_in_select. apply negb_true_iff in A. rewrite A. symmetry. apply run_val.
  - exists false. unfold on_in_select_in_table, on_in_select. apply negb_true_iff in A. rewrite A. symmetry. apply run_val.
Qed.
Lemma text_allowed_cons : forall anc c r, text_allowed anc (c :: r) = true -> text_allowed anc [c] = true /\ text_allowed anc r = true.
Proof.
  intros anc c r H. unfold text_allowed in *. destruct (mode_of anc); try discriminate H; cbn [forallb] in *; apply andb_prop in H; destruct H as [H1 H2];
    rewrite H1, H2; split; reflexivity.
Qed.
Lemma text_more : forall r anc s0 x s, Good anc s0 -> Good anc s -> s_stack s = s_stack s0 -> s_dom s = grow (s_dom s0) (top s0) [NText x] -> s_omit_lf s = false ->
  text_allowed anc r = true -> table_mode (mode_of anc) = false ->
  exists s', Run s (map TChar r) s' /\ Good anc s' /\ s_stack s' = s_stack s0 /\ s_dom s' = grow (s_dom s0) (top s0) [NText (x ++ r)] /\ s_omit_lf s' = false.
Proof.
  induction r as [|c r IH]; intros anc s0 x s G0 G Es Ed Om A M.
  - exists s. rewrite app_nil_r. split; [constructor|]. auto.
  - apply text_allowed_cons in A. destruct A as [A1 A2].
    destruct (char_mode (process listed (Datatypes.S f)) anc (rest s) c (good_rest _ _ G) A1 M) as (b & E).
    pose proof (top_bounds _ _ G0) as TB.
    assert (Et : top s = top s0) by (unfold top; now rewrite Es).
    rewrite (char_more (rest s) (s_dom s0) x c) in E; try (unfold top in *; cbn [rest s_stack set_omit_lf set_wanted]; rewrite ?Es; lia).
    2:{ apply (G_foster _ _ G). }
    2:{ exact (good_stack _ _ G). }
    2:{ change (top (rest s)) with (top s). rewrite Et. exact Ed. }
    cbv beta iota in E. change (top (rest s)) with (top s) in E. rewrite Et in E.
    set (s1 := if b then set_frameset_ok false (set_dom (grow (s_dom s0) (top s0) [NText (x ++ [c])]) (rest s)) else set_dom (grow (s_dom s0) (top s0) [NText (x ++ [c])]) (rest s)) in E.
    assert (S1 : Good anc s1 /\ s_stack s1 = s_stack s0 /\ s_dom s1 = grow (s_dom s0) (top s0) [NText (x ++ [c])] /\ s_omit_lf s1 = false).
    { assert (G1 : Good anc (set_dom (grow (s_dom s0) (top s0) [NText (x ++ [c])]) (rest s))).
      { destruct G, G0. constructor; try assumption. cbn [s_dom s_stack set_dom rest set_omit_lf set_wanted]. rewrite Es. now apply names_grow. }
      subst s1. destruct b; (split; [try apply good_frameset; exact G1|]); repeat split; exact Es. }
    destruct S1 as (G1 & Es1 & Ed1 & Om1).
    destruct (IH anc s0 (x ++ [c]) s1 G0 G1 Es1 Ed1 Om1 A2 M) as (s' & R & H). rewrite <- app_assoc in H.
    exists s'. split; [|exact H]. cbn [map]. apply (Run_cons s (TChar c) s1); [|exact I|exact R].
    rewrite <- E. apply (feed_good listed _ anc); [exact G|]. rewrite Om. discriminate.
Qed.
Lemma text_first : forall d anc s0, Good anc s0 -> d <> [] -> no_text (s_dom s0) (top s0) -> (s_omit_lf s0 = true -> starts_lf [NText d] = false) ->
  text_allowed anc d = true -> table_mode (mode_of anc) = false ->
  exists s', Run s0 (map TChar d) s' /\ Good anc s' /\ s_stack s' = s_stack s0 /\ s_dom s' = grow (s_dom s0) (top s0) [NText d] /\ s_omit_lf s' = false.
Proof.
  intros [|c r] anc s0 G NE NT Om A M; [contradiction|]. apply text_allowed_cons in A. destruct A as [A1 A2].
  destruct (char_mode (process listed (Datatypes.S f)) anc (rest s0) c (good_rest _ _ G) A1 M) as (b & E).
  pose proof (top_bounds _ _ G) as TB.
  rewrite (char_first (rest s0) c) in E; try assumption; [|apply (G_foster _ _ G)|exact (good_stack _ _ G)|change (top (rest s0)) with (top s0); lia].
  cbv beta iota in E. set (s1 := if b then set_frameset_ok false (appended [NText [c]] (rest s0)) else appended [NText [c]] (rest s0)) in E.
  assert (S1 : Good anc s1 /\ s_stack s1 = s_stack s0 /\ s_dom s1 = grow (s_dom s0) (top s0) [NText [c]] /\ s_omit_lf s1 = false).
  { assert (G1 := good_grow anc (rest s0) [NText [c]] (good_rest _ _ G)).
    subst s1. destruct b; (split; [try apply good_frameset; exact G1|]); repeat split. }
  destruct S1 as (G1 & Es1 & Ed1 & Om1).
  destruct (text_more r anc s0 [c] s1 G G1 Es1 Ed1 Om1 A2 M) as (s' & R & H).
  exists s'. split; [|exact H]. cbn [map]. apply (Run_cons s0 (TChar c) s1); [|exact I|exact R].
  rewrite <- E. apply (feed_good listed _ anc); [exact G|]. intros O K. injection K as ->. specialize (Om O). discriminate Om.
Qed.

Lemma white_not_zero : forall c, is_ascii_white_space c = true -> c =? 0 = false.
Proof. intros c H. destruct (Z.eqb_spec c 0) as [->|]; [discriminate H|reflexivity]. Qed.
Lemma table_text_more : forall r anc x s, Good anc s -> s_omit_lf s = false -> s_wanted s = None -> forallb is_ascii_white_space r = true ->
  Run (waiting anc x s) (map TChar r) (waiting anc (x ++ r) s).
Proof.
  induction r as [|c r IH]; intros anc x s G Om Wa W; [rewrite app_nil_r; constructor|]. cbn [forallb] in W. apply andb_prop in W. destruct W as [W1 W2].
  cbn [map]. apply (Run_cons _ _ (waiting anc (x ++ [c]) s)); [|exact I|change (c :: r) with ([c] ++ r); rewrite app_assoc; now apply IH].
  destruct (stack_cons _ _ G) as (e & st & t & an & E & _ & N & _).
  rewrite (feed_html listed _ (waiting anc x s) (TChar c) e st t E (G_fragment _ _ G) N (G_slots _ _ G)).
  - cbn [tok_of]. unfold in_mode. change (s_mode (rest (waiting anc x s))) with M_in_table_text. cbv iota. unfold on_in_table_text.
    rewrite (white_not_zero c W1). destruct s; cbn in Om, Wa; subst; reflexivity.
  - change (s_omit_lf (waiting anc x s)) with (s_omit_lf s). rewrite Om. discriminate.
Qed.
Lemma table_text_first : forall d anc s0, Good anc s0 -> d <> [] -> forallb is_ascii_white_space d = true -> table_mode (mode_of anc) = true ->
  (s_omit_lf s0 = true -> starts_lf [NText d] = false) -> Run s0 (map TChar d) (waiting anc d (rest s0)).
Proof.
  intros [|c r] anc s0 G NE W M Om; [contradiction|]. cbn [forallb] in W. apply andb_prop in W. destruct W as [W1 W2].
  cbn [map]. apply (Run_cons _ _ (waiting anc [c] (rest s0))); [|exact I|exact (table_text_more r anc [c] (rest s0) (good_rest _ _ G) eq_refl eq_refl W2)].
  rewrite (feed_good listed _ anc s0 _ G) by (intros O K; injection K as ->; specialize (Om O); discriminate Om). cbn [tok_of].
  assert (GR := good_rest _ _ G). destruct (stack_cons _ _ GR) as (e & st & t & an & E & Ea & N & _).
  assert (K : on_in_table (process listed (Datatypes.S f)) (rest s0) (KChar c) = Val (waiting anc [c] (rest s0))).
  { unfold on_in_table. rewrite (cur_top _ _ GR). cbv beta iota.
    replace (is_html_in [T_table; T_tbody; T_tfoot; T_thead; T_tr] (s_dom (rest s0)) (top (rest s0))) with true.
    - cbn [process]. set (s2 := set_mode M_in_table_text (set_original (s_mode (rest s0)) (set_pending [] (rest s0)))).
      rewrite (dispatch_html listed _ s2 (KChar c) e st t E (G_fragment _ _ GR) N) by discriminate.
      unfold in_mode. change (s_mode (set_omit_lf false s2)) with M_in_table_text. cbv iota. unfold on_in_table_text. rewrite (white_not_zero c W1).
      subst s2. unfold waiting. rewrite <- (G_mode _ _ G). reflexivity.
    - symmetry. unfold top. rewrite E, (named_in _ _ _ _ N). pose proof (table_head anc (G_ok _ _ G)) as H.
      destruct (mode_of anc); try discriminate M; rewrite Ea in H.
      + destruct H as (a & H). injection H as -> ->. reflexivity.
      + destruct H as (u & a & H & Hu). injection H as -> ->. destruct u; try discriminate Hu; reflexivity.
      + destruct H as (a & H). injection H as -> ->. reflexivity. }
  unfold in_mode. rewrite (G_mode _ _ GR). destruct (mode_of anc); try discriminate M; exact K.
Qed.

(** *** Elements that hold text *)

Section Raw.
Variables (s1 : st) (e : entry) (st0 : list entry) (t : tname).
Hypothesis Es : s_stack s1 = e :: st0.
Hypothesis Fr : s_fragment s1 = false.
Hypothesis Fo : s_foster s1 = false.
Hypothesis Sl : s_slots s1 = [].
Hypothesis Mo : s_mode s1 = M_text.
Hypothesis Na : is_named (s_dom s1) e t.
Let c := en_node e.
Definition holding (x : list Z) : st := set_dom (grow (s_dom s1) c [NText x]) (rest s1).
Lemma holding_named : forall x, is_named (s_dom (holding x)) e t.
Proof.
  intro x. destruct Na as ((B1 & B2) & a & E). split.
  - cbn [holding s_dom set_dom]. rewrite grow_length. lia.
  - exists a. cbn [holding s_dom set_dom]. now rewrite info_grow.
Qed.
Lemma holding_more : forall r x, Run (holding x) (map TChar r) (holding (x ++ r)).
Proof.
  induction r as [|k r IH]; intro x; [rewrite app_nil_r; constructor|]. cbn [map].
  apply (Run_cons _ _ (holding (x ++ [k]))); [|exact I|change (k :: r) with ([k] ++ r); rewrite app_assoc; apply IH].
  rewrite (feed_html listed _ (holding x) (TChar k) e st0 t Es Fr (holding_named x) Sl) by discriminate.
  cbn [tok_of]. unfold in_mode. change (s_mode (rest (holding x))) with (s_mode s1). rewrite Mo. cbn [on_text].
  destruct Na as ((B1 & B2) & _).
  rewrite (char_more (rest (holding x)) (s_dom s1) x k).
  - unfold top. change (s_stack (rest (holding x))) with (s_stack s1). rewrite Es. reflexivity.
  - exact Fo.
  - change (s_stack (rest (holding x))) with (s_stack s1). rewrite Es. discriminate.
  - unfold top. change (s_stack (rest (holding x))) with (s_stack s1). rewrite Es. lia.
  - unfold top. change (s_stack (rest (holding x))) with (s_stack s1). rewrite Es. lia.
  - unfold top. change (s_stack (rest (holding x))) with (s_stack s1). rewrite Es. reflexivity.
Qed.
Lemma holding_first : forall k r, no_text (s_dom s1) c -> (s_omit_lf s1 = true -> k <> 0xA) -> Run s1 (map TChar (k :: r)) (holding (k :: r)).
Proof.
  intros k r NT Om. cbn [map]. apply (Run_cons _ _ (holding [k])); [|exact I|exact (holding_more r [k])].
  rewrite (feed_html listed _ s1 (TChar k) e st0 t Es Fr Na Sl) by (intros H K; injection K as ->; now apply (Om H)).
  cbn [tok_of]. unfold in_mode. change (s_mode (rest s1)) with (s_mode s1). rewrite Mo. cbn [on_text].
  destruct Na as ((B1 & B2) & _).
  rewrite (char_first (rest s1) k).
  - unfold appended, top. change (s_stack (rest s1)) with (s_stack s1). rewrite Es. reflexivity.
  - exact Fo.
  - change (s_stack (rest s1)) with (s_stack s1). rewrite Es. discriminate.
  - unfold top. change (s_stack (rest s1)) with (s_stack s1). rewrite Es. lia.
  - unfold top. change (s_stack (rest s1)) with (s_stack s1). rewrite Es. exact NT.
Qed.
Lemma holding_end : forall s2 name, s2 = s1 \/ (exists x, s2 = holding x) ->
  feed listed fuel s2 (TEnd name) = Val (set_mode (s_original s2) (set_stack st0 (rest s2))).
Proof.
  intros s2 name H.
  assert (K : s_stack s2 = e :: st0 /\ s_fragment s2 = false /\ is_named (s_dom s2) e t /\ s_slots s2 = [] /\ s_mode s2 = M_text).
  { destruct H as [->|[x ->]]; [now repeat split; try apply Na|]. split; [exact Es|]. split; [exact Fr|]. split; [apply holding_named|]. split; [exact Sl|exact Mo]. }
  destruct K as (K1 & K2 & K3 & K4 & K5).
  rewrite (feed_html listed _ s2 _ e st0 t K1 K2 K3 K4) by discriminate. cbn [tok_of]. unfold in_mode.
  change (s_mode (rest s2)) with (s_mode s2). rewrite K5. cbn [on_text]. unfold pop. change (s_stack (rest s2)) with (s_stack s2). rewrite K1. reflexivity.
Qed.
End Raw.

Lemma raw_run : forall anc s0 g t l attrs s1 kids d name, Good anc s0 -> t = tname_of l -> InText anc (rest s0) g t attrs s1 ->
  (kids = [] /\ d = [] \/ kids = [NText d] /\ d <> []) -> (s_omit_lf s1 = true -> starts_lf kids = false) ->
  exists s', Run s1 (map TChar d ++ [TEnd name]) s' /\ Good anc s' /\ s_stack s' = s_stack s0 /\
    s_dom s' = grow (s_dom s0) (top s0) [NElement ns_HTML [] l attrs kids] /\ s_omit_lf s' = false.
Proof.
  intros anc s0 g t l attrs s1 kids d name G Et (I1 & I2 & I3 & I4 & I5 & I6 & I7 & I8 & I9 & I10 & I11 & I12) K Om.
  cbn [opened s_stack s_dom set_stack set_dom rest set_omit_lf set_wanted] in I1, I2. change (top (rest s0)) with (top s0) in I2.
  cbn [s_active s_form s_foster s_fragment s_templates s_slots rest set_omit_lf set_wanted] in I3, I4, I7, I8, I9, I10.
  pose proof (top_bounds _ _ G) as TB.
  assert (Na : is_named (s_dom s1) (Entry g (List.length (s_dom s0))) t).
  { split; cbn [en_node].
    - rewrite I2, app_length, change_length. cbn [List.length]. lia.
    - exists attrs. rewrite I2, cell_new. reflexivity. }
  assert (Fr : s_fragment s1 = false) by (rewrite I8; apply G). assert (Fo : s_foster s1 = false) by (rewrite I7; apply G).
  assert (Sl : s_slots s1 = []) by (rewrite I10; apply G).
  assert (FIN : forall s2 d2, s_stack s2 = s_stack s1 -> s_active s2 = s_active s1 -> s_form s2 = s_form s1 -> s_original s2 = s_original s1 ->
    s_foster s2 = s_foster s1 -> s_fragment s2 = s_fragment s1 -> s_templates s2 = s_templates s1 -> s_slots s2 = s_slots s1 ->
    s_dom s2 = grow (s_dom s0) (top s0) [NElement ns_HTML [] l attrs d2] ->
    Good anc (set_mode (s_original s2) (set_stack (s_stack s0) (rest s2)))).
  { intros s2 d2 J1 J2 J3 J4 J5 J6 J7 J8 J9. destruct G. constructor; try assumption; cbn [s_stack s_active s_form s_mode s_foster s_fragment s_templates s_slots s_dom
      set_mode set_stack rest set_omit_lf set_wanted]; try congruence.
    all: first [rewrite J9; now apply names_grow | rewrite J2, I3; exact G_act | rewrite J3, I4; exact G_form]. }
  destruct K as [[-> ->]|[-> NE]].
  - cbn [map app]. assert (D1 : s_dom s1 = grow (s_dom s0) (top s0) [NElement ns_HTML [] l attrs []]).
    { rewrite I2, Et, <- grow_element by lia. now rewrite grow_nil. }
    exists (set_mode (s_original s1) (set_stack (s_stack s0) (rest s1))). split; [|split; [|split; [reflexivity|split; [exact D1|reflexivity]]]].
    + apply run_one; [|exact I]. apply (holding_end s1 (Entry g (List.length (s_dom s0))) (s_stack s0) t I1 Fr Sl I5 Na). now left.
    + now apply (FIN s1 []).
  - destruct d as [|k r]; [contradiction|].
    assert (D1 : s_dom (holding s1 (Entry g (List.length (s_dom s0))) (k :: r)) = grow (s_dom s0) (top s0) [NElement ns_HTML [] l attrs [NText (k :: r)]]).
    { cbn [holding s_dom set_dom en_node]. rewrite I2, Et. rewrite grow_element with (p := []) by lia. reflexivity. }
    exists (set_mode (s_original (holding s1 (Entry g (List.length (s_dom s0))) (k :: r))) (set_stack (s_stack s0) (rest (holding s1 (Entry g (List.length (s_dom s0))) (k :: r))))).
    split; [|split; [|split; [reflexivity|split; [exact D1|reflexivity]]]].
    + eapply run_app.
      * apply (holding_first s1 (Entry g (List.length (s_dom s0))) (s_stack s0) t I1 Fr Fo Sl I5 Na).
        -- cbn [en_node]. rewrite I2. apply no_text_new.
        -- intros H ->. specialize (Om H). discriminate Om.
      * apply run_one; [|exact I]. apply (holding_end s1 (Entry g (List.length (s_dom s0))) (s_stack s0) t I1 Fr Sl I5 Na). right. now eexists.
    + now apply (FIN (holding s1 (Entry g (List.length (s_dom s0))) (k :: r)) [NText (k :: r)]).
Qed.

(** *** Nodes *)

Definition first_text (l : list node) : bool := match l with n :: _ => is_text n | [] => false end.
Definition NodeBack (n : node) (toks : list token) : Prop := forall anc s s0, Good anc s0 -> Late anc s s0 -> fits anc n = true ->
  (is_text n = true -> s = s0 /\ no_text (s_dom s0) (top s0)) -> (s_omit_lf s0 = true -> starts_lf [n] = false) ->
  exists s' s0', Run s toks s' /\ Late anc s' s0' /\ Good anc s0' /\ s_stack s0' = s_stack s0 /\
    s_dom s0' = grow (s_dom s0) (top s0) [n] /\ s_omit_lf s0' = false /\ (is_text n = false -> s' = s0').
Definition RowBack (l : list node) (toks : list token) : Prop := forall anc s s0, Good anc s0 -> Late anc s s0 ->
  forallb (fits anc) l = true -> texts_apart l = true ->
  (first_text l = true -> s = s0 /\ no_text (s_dom s0) (top s0)) -> (s_omit_lf s0 = true -> starts_lf l = false) ->
  exists s' s0', Run s toks s' /\ Late anc s' s0' /\ Good anc s0' /\ s_stack s0' = s_stack s0 /\ s_dom s0' = grow (s_dom s0) (top s0) l.

Lemma row_back_nil : RowBack [] [].
Proof.
  intros anc s s0 G L _ _ _ _. exists s, s0. split; [constructor|]. split; [exact L|]. split; [exact G|]. split; [reflexivity|]. now rewrite grow_nil.
Qed.
Lemma row_back_cons : forall n l a b, NodeBack n a -> RowBack l b -> RowBack (n :: l) (a ++ b).
Proof.
  intros n l a b Hn Hl anc s s0 G L F T NT Om. cbn [forallb] in F. apply andb_prop in F. destruct F as [F1 F2].
  cbn [texts_apart] in T. apply andb_prop in T. destruct T as [T1 T2].
  destruct (Hn anc s s0 G L F1) as (s1 & s01 & R1 & L1 & G1 & E1 & D1 & O1 & N1).
  { exact NT. }
  { intro H. specialize (Om H). destruct n; try reflexivity; exact Om. }
  pose proof (top_bounds _ _ G) as TB.
  assert (Et : top s01 = top s0) by (unfold top; now rewrite E1).
  destruct (Hl anc s1 s01 G1 L1 F2 T2) as (s2 & s02 & R2 & L2 & G2 & E2 & D2).
  - intro H. destruct (is_text n) eqn:X.
    + cbn [andb negb] in T1. unfold first_text in H. destruct l; [discriminate H|]. rewrite H in T1. discriminate T1.
    + split; [now apply N1|]. rewrite Et, D1. apply no_text_grow; [lia|exact X].
  - rewrite O1. discriminate.
  - exists s2, s02. split; [eapply run_app; eassumption|]. split; [exact L2|]. split; [exact G2|]. split; [congruence|].
    rewrite D2, Et, D1. rewrite <- grow_app by lia. reflexivity.
Qed.

Lemma text_back : forall d, NodeBack (NText d) (map TChar d).
Proof.
  intros d anc s s0 G L F NT Om. destruct (NT eq_refl) as [-> NT0]. cbn [fits] in F. apply andb_prop in F. destruct F as [NE A].
  assert (ND : d <> []) by (destruct d; [discriminate NE|discriminate]).
  destruct (table_mode (mode_of anc)) eqn:M.
  - assert (W : forallb is_ascii_white_space d = true) by (unfold text_allowed in A; destruct (mode_of anc); try discriminate M; exact A).
    assert (GR := good_rest _ _ G).
    exists (waiting anc d (rest s0)), (set_mode (mode_of anc) (appended [NText d] (waiting anc d (rest s0)))).
    split; [now apply table_text_first|]. split; [now apply Late_text|]. split; [|repeat split; discriminate].
    apply (good_same anc (appended [NText d] (rest s0))); try reflexivity; [now apply good_grow|]. symmetry. exact (G_mode _ _ G).
  - destruct (text_first d anc s0 G ND NT0 Om A M) as (s' & R & G1 & E & D & O). exists s', s'. split; [exact R|]. split; [constructor|].
    split; [exact G1|]. split; [exact E|]. split; [exact D|]. split; [exact O|]. reflexivity.
Qed.
Lemma comment_mode : forall emit anc s d, Good anc s -> in_mode listed emit s (KComment d) = Val (appended [NComment d] s).
Proof.
  intros emit anc s d G. pose proof (comment_put anc s d G) as E. unfold in_mode. rewrite (G_mode _ _ G).
  assert (K : match mode_of anc with M_in_head | M_in_body | M_in_table | M_in_caption | M_in_column_group | M_in_table_body | M_in_row | M_in_cell
              | M_in_select | M_in_select_in_table => true | _ => false end = true).
  { generalize (G_ok _ _ G). clear. induction 1 as [| |t anc O IH A T]; try reflexivity.
    destruct (passing t) eqn:P; [now rewrite (mode_passing _ _ P A T)|]. unfold passing in P. apply negb_false_iff, among_In in P. cbn [In] in P.
    repeat match type of P with _ \/ _ => destruct P as [P|P] end; try contradiction; subst t; try reflexivity.
    cbn. destruct (mode_of anc); reflexivity. }
  destruct (mode_of anc); try discriminate K; exact E.
Qed.
Lemma comment_back : forall d, NodeBack (NComment d) [TComment d].
Proof.
  intros d anc s s0 G L F NT Om. destruct (late_feed listed f anc s s0 (TComment d) G L) as (emit & E); [discriminate|].
  cbn [tok_of] in E. rewrite (comment_mode emit anc (rest s0) d (good_rest _ _ G)) in E.
  exists (appended [NComment d] (rest s0)), (appended [NComment d] (rest s0)).
  split; [apply run_one; [exact E|exact I]|]. split; [constructor|]. split; [apply good_grow, good_rest, G|]. repeat split.
Qed.

Lemma name_string : forall l t, tname_of l = t -> l = tstring t.
Proof. intros l t <-. symmetry. apply tstring_of. Qed.
Lemma tname_void : forall l, In l (map lit void_names) <-> among (tname_of l) void_tnames = true.
Proof.
  intro l. split; intro H.
  - cbn [map In void_names] in H. repeat match type of H with _ \/ _ => destruct H as [H|H] end; try contradiction; rewrite <- H; vm_compute; reflexivity.
  - apply among_In in H. cbn [In void_tnames] in H. repeat match type of H with _ \/ _ => destruct H as [H|H] end; try contradiction;
      symmetry in H; apply name_string in H; rewrite H; vm_compute; tauto.
Qed.
Lemma tname_text : forall l, among (tname_of l) text_names = true -> In l (map lit special_names).
Proof.
  intros l H. apply among_In in H. cbn [In text_names] in H. repeat match type of H with _ \/ _ => destruct H as [H|H] end; try contradiction;
      symmetry in H; apply name_string in H; rewrite H; vm_compute; tauto.
Qed.
Lemma fits_element : forall anc ns p l attrs kids, fits anc (NElement ns p l attrs kids) = true ->
  ns = 1 /\ p = [] /\ forallb plain_attr attrs = true /\ allowed anc (tname_of l) = true /\ texts_apart kids = true /\
  (among (tname_of l) [T_pre; T_listing; T_textarea] = true -> starts_lf kids = false) /\
  (if among (tname_of l) text_names then forallb (fun k => match k with NText d => nonempty d | _ => false end) kids
   else if among (tname_of l) void_tnames then match kids with [] => true | _ => false end
   else forallb (fits (tname_of l :: anc)) kids) = true.
Proof.
  intros anc ns p l attrs kids F. cbn [fits] in F. rewrite !andb_true_iff in F. destruct F as ((((((F1 & F2) & F3) & F4) & F5) & F6) & F7).
  split; [now apply Z.eqb_eq in F1|]. split; [destruct p; [reflexivity|discriminate F2]|]. split; [exact F3|]. split; [exact F4|]. split; [exact F5|].
  split; [|exact F7]. intro H. rewrite H in F6. cbn [andb] in F6. now apply negb_true_iff in F6.
Qed.
Lemma named_one : forall p l a c name, Named (NElement 1 p l a c) name -> name = l.
Proof. intros p l a c name H. symmetry. exact (named_listed 1 p l a c name [] H eq_refl). Qed.
Lemma by_name_one : forall k, by_name [k] = by_name ([] ++ [k]).
Proof. reflexivity. Qed.

Lemma void_back : forall ns p l attrs name ats, Void (NElement ns p l attrs []) -> Named (NElement ns p l attrs []) name -> AttrsRead attrs ats ->
  NodeBack (NElement ns p l attrs []) [TStart (Tag name false ats)].
Proof.
  intros ns p l attrs name ats [_ V] Nm AR anc s s0 G L F NT Om. destruct (fits_element _ _ _ _ _ _ F) as (-> & -> & PA & A & _ & _ & _).
  apply named_one in Nm. subst name. pose proof V as V2. apply tname_void in V2.
  assert (NE : l <> []) by (intros ->; vm_compute in V; intuition discriminate).
  destruct (late_feed listed f anc s s0 (TStart (Tag l false ats)) G L) as (emit & E); [discriminate|]. cbn [tok_of] in E.
  destruct (void_ok listed emit anc (rest s0) (emitted [] (Tag l false ats)) [] l attrs (good_rest _ _ G) A V2 eq_refl (element_back l attrs ats AR PA NE))
    as (s1 & E1 & G1 & S1 & D1 & W1 & O1).
  rewrite E1 in E. exists s1, s1. split.
  - apply run_one; [exact E|]. cbn [told]. rewrite W1. cbn [option_map rest s_wanted set_omit_lf set_wanted]. rewrite by_name_one. symmetry. apply by_name_none.
    intro K. clear - V2 K. vm_compute in K. repeat match type of K with _ \/ _ => destruct K as [K|K] end; try contradiction; subst l; vm_compute in V2; discriminate V2.
  - split; [constructor|]. split; [exact G1|]. split; [exact S1|]. split; [exact D1|]. split; [exact O1|]. reflexivity.
Qed.
Lemma element_back_ok : forall ns p l attrs c name ats toks, ~ Void (NElement ns p l attrs c) -> Named (NElement ns p l attrs c) name ->
  AttrsRead attrs ats -> tag_name_ok name -> ~ In name (map lit special_names) -> RowBack c toks ->
  NodeBack (NElement ns p l attrs c) (TStart (Tag name false ats) :: toks ++ [TEnd (Tag name false [])]).
Proof.
  intros ns p l attrs c name ats toks V Nm AR TN SN IH anc s s0 G L F NT Om. destruct (fits_element _ _ _ _ _ _ F) as (-> & -> & PA & A & TA & SL & K).
  apply named_one in Nm. subst name.
  assert (NV : among (tname_of l) void_tnames = false).
  { destruct (among (tname_of l) void_tnames) eqn:X; [|reflexivity]. elim V. split; [reflexivity|]. now apply tname_void. }
  assert (NX : among (tname_of l) text_names = false).
  { destruct (among (tname_of l) text_names) eqn:X; [|reflexivity]. elim SN. now apply tname_text. }
  assert (T : among (tname_of l) (text_names ++ void_tnames) = false) by (unfold among in *; rewrite existsb_app, NV, NX; reflexivity).
  rewrite NV, NX in K. assert (NE : l <> []) by (destruct TN as (x & y & -> & _); discriminate).
  destruct (late_feed listed f anc s s0 (TStart (Tag l false ats)) G L) as (emit & E); [discriminate|]. cbn [tok_of] in E.
  assert (GR := good_rest _ _ G). pose proof (top_bounds _ _ G) as TB.
  destruct (start_ok listed emit anc (rest s0) (emitted [] (Tag l false ats)) (tname_of l) attrs GR A T eq_refl (element_back l attrs ats AR PA NE) eq_refl)
    as (s1 & E1 & G1 & S1 & D1 & W1 & O1).
  cbn [opened s_stack s_dom set_stack set_dom rest set_omit_lf set_wanted] in S1, D1. change (top (rest s0)) with (top s0) in D1.
  assert (Et : top s1 = List.length (s_dom s0)) by (unfold top; now rewrite S1).
  destruct (IH (tname_of l :: anc) s1 s1 G1 (Late_now _ _) K TA) as (s2 & s02 & R2 & L2 & G2 & E2 & D2).
  { intros _. split; [reflexivity|]. rewrite Et, D1. apply no_text_new. }
  { intro H. apply SL. specialize (O1 H). apply among_In in O1. cbn [In] in O1. destruct O1 as [<-|[<-|[]]]; reflexivity. }
  destruct (late_feed listed f (tname_of l :: anc) s2 s02 (TEnd (Tag l false [])) G2 L2) as (emit2 & E3); [discriminate|]. cbn [tok_of g_name] in E3.
  rewrite S1 in E2.
  destruct (end_ok listed emit2 anc (tname_of l) (rest s02) (Entry (emitted [] (Tag l false ats)) (List.length (s_dom s0))) (s_stack s0) (good_rest _ _ G2) (G_ok _ _ G) A T E2 eq_refl)
    as (s3 & E4 & G3 & S3 & D3 & _ & O3).
  rewrite E1 in E. rewrite E4 in E3.
  exists s3, s3. split.
  { apply (Run_cons _ _ s1); [exact E| |].
    - cbn [told]. rewrite W1. cbn [option_map rest s_wanted set_omit_lf set_wanted]. rewrite by_name_one. symmetry. now apply by_name_none.
    - eapply run_app; [exact R2|]. apply run_one; [exact E3|exact I]. }
  split; [constructor|]. split; [exact G3|].
  split. { rewrite S3. cbn [rest s_stack set_omit_lf set_wanted]. now rewrite E2. }
  split. { rewrite D3. cbn [rest s_dom set_omit_lf set_wanted]. rewrite D2, Et, D1. apply grow_element. lia. }
  split; [exact O3|]. reflexivity.
Qed.

Lemma texts_one : forall kids d, Texts kids d -> texts_apart kids = true -> forallb (fun k => match k with NText d => nonempty d | _ => false end) kids = true ->
  kids = [] /\ d = [] \/ kids = [NText d] /\ d <> [].
Proof.
  intros kids d H A F. destruct H as [|a l d H]; [now left|]. right. destruct l as [|b l].
  - inversion H. subst. rewrite app_nil_r. split; [reflexivity|]. cbn [forallb] in F. destruct a; [discriminate F|discriminate].
  - inversion H. subst. discriminate A.
Qed.
Lemma raw_back : forall p l attrs c ats d st0, AttrsRead attrs ats -> Texts c d -> among (tname_of l) text_names = true ->
  by_name [TStart (Tag l false ats)] = Some st0 -> st0 = state_of (reading_of (tname_of l)) -> l <> [] ->
  NodeBack (NElement 1 p l attrs c) (TStart (Tag l false ats) :: map TChar d ++ [TEnd (Tag l false [])]).
Proof.
  intros p l attrs c ats d st0 AR TX T B EB NE anc s s0 G L F NT Om. destruct (fits_element _ _ _ _ _ _ F) as (_ & -> & PA & A & TA & SL & K).
  rewrite T in K. pose proof (texts_one _ _ TX TA K) as C.
  destruct (late_feed listed f anc s s0 (TStart (Tag l false ats)) G L) as (emit & E); [discriminate|]. cbn [tok_of] in E.
  destruct (text_ok listed emit anc (rest s0) (emitted [] (Tag l false ats)) (tname_of l) attrs (good_rest _ _ G) A T eq_refl (element_back l attrs ats AR PA NE) eq_refl)
    as (s1 & E1 & IT). rewrite E1 in E.
  destruct (raw_run anc s0 _ _ l attrs s1 c d (Tag l false []) G eq_refl IT C) as (s2 & R & G2 & S2 & D2 & O2).
  { intro H. apply SL. destruct IT as (_ & _ & _ & _ & _ & _ & _ & _ & _ & _ & _ & H2). rewrite (H2 H). reflexivity. }
  exists s2, s2. split.
  { apply (Run_cons _ _ s1); [exact E| |exact R]. cbn [told]. destruct IT as (_ & _ & _ & _ & _ & _ & _ & _ & _ & _ & W & _). rewrite W, B, EB. reflexivity. }
  split; [constructor|]. split; [exact G2|]. split; [exact S2|]. split; [exact D2|]. split; [exact O2|]. reflexivity.
Qed.

Theorem all_back : (forall n toks, Reads n toks -> NodeBack n toks) /\ (forall l toks, Row l toks -> RowBack l toks).
Proof.
  apply Reads_both.
  - intros. now apply void_back.
  - intros. now apply element_back_ok.
  - intros ns p l attrs c name ats d Nm AR In1 TX FA anc s s0 G L F. destruct (fits_element _ _ _ _ _ _ F) as (-> & _).
    apply named_one in Nm. subst name. revert anc s s0 G L F. change (NodeBack (NElement 1 p l attrs c) (TStart (Tag l false ats) :: map TChar d ++ [TEnd (Tag l false [])])).
    pose proof (by_name_rcdata [] l ats In1) as B.
    cbn [map In rcdata_names] in In1. destruct In1 as [X|[X|[]]]; subst l; eapply raw_back; try eassumption; try (vm_compute; reflexivity); vm_compute; discriminate.
  - intros p l attrs c ats d AR In1 TX FA NC. pose proof (by_name_raw [] l ats In1) as B.
    cbn [map In rawtext_names] in In1. repeat match type of In1 with _ \/ _ => destruct In1 as [In1|In1] end; try contradiction; subst l;
      eapply raw_back; try eassumption; try (vm_compute; reflexivity); vm_compute; discriminate.
  - intros p attrs c ats d AR TX FA NC N2. eapply raw_back; try eassumption; try (vm_compute; reflexivity); vm_compute; discriminate.
  - intros d _. apply text_back.
  - intros d _. apply comment_back.
  - intros t d _ anc s s0 G L F. discriminate F.
  - intros n _ _ anc s s0 G L F. discriminate F.
  - apply row_back_nil.
  - intros n l a b _ Hn _ Hl. now apply row_back_cons.
Qed.
End Runs.
