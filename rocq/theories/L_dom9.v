(** A whole document as it is read back. *)
From Coq Require Import ZArith List Bool String Lia.
From Verif Require Import M_infra M_encoding M_labels M_html M_html_ncr M_html_serialize L_html_serialize L_html8 L_html9 M_dom_names M_dom M_dom2 L_dom L_dom2 L_dom3 L_dom4 L_dom5 L_dom6 L_dom7 L_dom8.
Import ListNotations.
Open Scope Z_scope.
Open Scope dom_scope.
Open Scope list_scope.

(** *** Ordinary documents *)

Definition is_comment (n : node) : bool := match n with NComment _ => true | _ => false end.
(** what stands between head and body *)
Definition is_gap (n : node) : bool :=
  match n with NComment _ => true | NText d => nonempty d && forallb is_ascii_white_space d | _ => false end.
Definition is_type (l : list node) : Prop := l = [] \/ exists n, l = [NDoctype n].

(** Comments, a document type that may be missing, and an html element that holds a head and a body. *)
Inductive Ordinary : node -> Prop :=
| Ordinary_intro : forall c0 dt c1 ha h0 da dk mid ba bk h1 c2,
    forallb is_comment c0 = true -> is_type dt -> forallb is_comment c1 = true ->
    forallb plain_attr ha = true -> forallb is_comment h0 = true ->
    forallb plain_attr da = true -> texts_apart dk = true -> forallb (fits [T_head; T_html]) dk = true ->
    texts_apart mid = true -> forallb is_gap mid = true ->
    forallb plain_attr ba = true -> texts_apart bk = true -> forallb (fits [T_body; T_html]) bk = true ->
    forallb is_comment h1 = true -> forallb is_comment c2 = true ->
    Ordinary (NDocument (c0 ++ dt ++ c1 ++
      NElement ns_HTML [] (lit "html") ha
        (h0 ++ NElement ns_HTML [] (lit "head") da dk :: mid ++ NElement ns_HTML [] (lit "body") ba bk :: h1) :: c2)).

Lemma row_app_inv : forall a b toks, Row (a ++ b) toks -> exists x y, toks = x ++ y /\ Row a x /\ Row b y.
Proof.
  induction a as [|n a IH]; intros b toks H.
  - exists [], toks. split; [reflexivity|]. split; [constructor|exact H].
  - inversion H as [|n' l' x y R1 R2]. subst. destruct (IH b y R2) as (x2 & y2 & -> & A & B). exists (x ++ x2), y2. rewrite app_assoc.
    split; [reflexivity|]. split; [now constructor|exact B].
Qed.
Lemma row_cons_inv : forall n b toks, Row (n :: b) toks -> exists x y, toks = x ++ y /\ Reads n x /\ Row b y.
Proof. intros n b toks H. inversion H as [|n' l' x y R1 R2]. subst. exists x, y. auto. Qed.
Lemma reads_element : forall p l attrs c toks, Reads (NElement 1 p l attrs c) toks -> among (tname_of l) [T_html; T_head; T_body] = true ->
  exists ats tk, toks = TStart (Tag l false ats) :: tk ++ [TEnd (Tag l false [])] /\ AttrsRead attrs ats /\ ~ In l (map lit special_names) /\ Row c tk.
Proof.
  intros p l attrs c toks H A. apply among_In in A.
  assert (L : l = lit "html" \/ l = lit "head" \/ l = lit "body").
  { cbn [In] in A. destruct A as [A|[A|[A|[]]]]; symmetry in A; apply name_string in A; rewrite A; vm_compute; tauto. }
  clear A. inversion H; subst.
  - match goal with V : Void _ |- _ => destruct V as [_ V]; destruct L as [L|[L|L]]; rewrite L in V; vm_compute in V; intuition discriminate end.
  - match goal with V : Named _ _ |- _ => apply named_one in V; subst end. eauto 8.
  - match goal with V : Named _ _ |- _ => apply named_one in V; subst end.
    match goal with V : In l _ |- _ => destruct L as [L|[L|L]]; rewrite L in V; vm_compute in V; intuition discriminate end.
  - match goal with V : In l _ |- _ => destruct L as [L|[L|L]]; rewrite L in V; vm_compute in V; intuition discriminate end.
  - destruct L as [L|[L|L]]; vm_compute in L; discriminate L.
Qed.

(** *** Between the tags of a document *)

Record Phase (m : mode) (es : list entry) (names : list tname) (s : st) : Prop := {
  Ph_mode : s_mode s = m;
  Ph_stack : s_stack s = es;
  Ph_names : Names (s_dom s) es names;
  Ph_nodup : NoDup (map en_node es);
  Ph_active : s_active s = [];
  Ph_form : s_form s = None;
  Ph_foster : s_foster s = false;
  Ph_fragment : s_fragment s = false;
  Ph_templates : s_templates s = [];
  Ph_slots : s_slots s = [];
  Ph_omit : s_omit_lf s = false;
  Ph_root : (2 <= List.length (s_dom s))%nat }.
Lemma phase_rest : forall m es names s, Phase m es names s -> Phase m es names (rest s).
Proof. intros m es names s []. now constructor. Qed.
Lemma phase_grow : forall m es names s c l, Phase m es names s -> Phase m es names (set_dom (grow (s_dom s) c l) s).
Proof.
  intros m es names s c l []. constructor; try assumption.
  - cbn [s_dom set_dom]. now apply names_grow.
  - cbn [s_dom set_dom]. rewrite grow_length. lia.
Qed.

Section Document.
Variable listed : list Z -> bool.
Variable f : nat.
Notation fuel := (Datatypes.S (Datatypes.S f)).
Notation Run := (Run listed f).

Lemma empty_dispatch : forall emit s k, s_stack s = [] -> s_omit_lf s = false -> dispatch listed emit s k = in_mode listed emit (set_omit_lf false s) k.
Proof. intros emit s k E O. unfold dispatch. cbn [s_stack set_omit_lf]. rewrite E, O. cbn [andb]. now destruct k. Qed.
Lemma phase_feed : forall m es names s k, Phase m es names s -> feed listed fuel s k = in_mode listed (process listed (Datatypes.S f)) (rest s) (tok_of [] k).
Proof.
  intros m es names s k P. destruct es as [|e es].
  - unfold feed. rewrite (Ph_slots _ _ _ _ P). cbn [process]. apply empty_dispatch; [exact (Ph_stack _ _ _ _ P)|exact (Ph_omit _ _ _ _ P)].
  - destruct P. inversion Ph_names0 as [|e' t es' an N1 N2]. subst. apply (feed_html listed _ s k e es t); try assumption. rewrite Ph_omit0. discriminate.
Qed.

(** a mode that puts comments at the end of node [c] *)
Definition Commenting (m : mode) (es : list entry) (names : list tname) (c : nat) : Prop := forall emit s d, Phase m es names s ->
  in_mode listed emit s (KComment d) = Val (set_dom (grow (s_dom s) c [NComment d]) s).
Lemma comment_at : forall d c s, insert_comment_at d (at_end c) s = Val (set_dom (grow (s_dom s) c [NComment d]) s).
Proof. intros. unfold insert_comment_at. rewrite insert_end. cbv beta iota. now rewrite (grow_leaf _ _ (NComment d) (IComment d) eq_refl). Qed.
Lemma comment_top : forall d e es s, s_stack s = e :: es -> s_foster s = false -> insert_comment d s = Val (set_dom (grow (s_dom s) (en_node e) [NComment d]) s).
Proof. intros d e es s E F. unfold insert_comment, cur, place_for. rewrite E. cbv beta iota. rewrite F. cbn [andb]. cbv beta iota. apply comment_at. Qed.
Lemma c_initial : Commenting M_initial [] [] the_document.
Proof. intros emit s d P. unfold in_mode. rewrite (Ph_mode _ _ _ _ P). apply comment_at. Qed.
Lemma c_before_html : Commenting M_before_html [] [] the_document.
Proof. intros emit s d P. unfold in_mode. rewrite (Ph_mode _ _ _ _ P). apply comment_at. Qed.
Lemma c_before_head : forall e, Commenting M_before_head [e] [T_html] (en_node e).
Proof. intros e emit s d P. unfold in_mode. rewrite (Ph_mode _ _ _ _ P). apply (comment_top d e []); apply P. Qed.
Lemma c_after_head : forall e, Commenting M_after_head [e] [T_html] (en_node e).
Proof. intros e emit s d P. unfold in_mode. rewrite (Ph_mode _ _ _ _ P). apply (comment_top d e []); apply P. Qed.
Lemma c_after_body : forall b e, Commenting M_after_body [b; e] [T_body; T_html] (en_node e).
Proof.
  intros b e emit s d P. unfold in_mode. rewrite (Ph_mode _ _ _ _ P). cbn [on_after_body]. unfold front. rewrite (Ph_stack _ _ _ _ P). cbn [last].
  apply comment_at.
Qed.
Lemma c_after_after_body : forall b e, Commenting M_after_after_body [b; e] [T_body; T_html] the_document.
Proof. intros b e emit s d P. unfold in_mode. rewrite (Ph_mode _ _ _ _ P). apply comment_at. Qed.

Lemma comment_step : forall m es names c d s, Commenting m es names c -> Phase m es names s ->
  exists s', Run s [TComment d] s' /\ Phase m es names s' /\ s_dom s' = grow (s_dom s) c [NComment d].
Proof.
  intros m es names c d s C P. exists (set_dom (grow (s_dom s) c [NComment d]) (rest s)). split.
  - apply run_one; [|exact I]. rewrite (phase_feed _ _ _ _ _ P). cbn [tok_of]. rewrite (C _ _ _ (phase_rest _ _ _ _ P)). reflexivity.
  - split; [exact (phase_grow _ _ _ _ c [NComment d] (phase_rest _ _ _ _ P))|reflexivity].
Qed.
Lemma comments_row : forall m es names c, Commenting m es names c -> forall l toks, Row l toks -> forallb is_comment l = true ->
  forall s, Phase m es names s -> (c < List.length (s_dom s))%nat ->
  exists s', Run s toks s' /\ Phase m es names s' /\ s_dom s' = grow (s_dom s) c l.
Proof.
  intros m es names c C l toks R. induction R as [|n l a b Rn R IH]; intros F s P B.
  - exists s. split; [constructor|]. split; [exact P|]. now rewrite grow_nil.
  - cbn [forallb] in F. apply andb_prop in F. destruct F as [F1 F2]. destruct n; try discriminate F1. inversion Rn. subst.
    destruct (comment_step _ _ _ _ data s C P) as (s1 & R1 & P1 & D1).
    destruct (IH F2 s1 P1) as (s2 & R2 & P2 & D2); [rewrite D1, grow_length; lia|].
    exists s2. split; [eapply run_app; eassumption|]. split; [exact P2|]. rewrite D2, D1. now rewrite <- grow_app.
Qed.

(** *** Between head and body *)

Lemma gap_more : forall r e s d0 x, Phase M_after_head [e] [T_html] s -> (en_node e < List.length d0)%nat -> s_dom s = grow d0 (en_node e) [NText x] ->
  forallb is_ascii_white_space r = true ->
  exists s', Run s (map TChar r) s' /\ Phase M_after_head [e] [T_html] s' /\ s_dom s' = grow d0 (en_node e) [NText (x ++ r)].
Proof.
  induction r as [|c r IH]; intros e s d0 x P B D W.
  - exists s. rewrite app_nil_r. split; [constructor|]. auto.
  - cbn [forallb] in W. apply andb_prop in W. destruct W as [W1 W2].
    assert (N : (2 <= en_node e)%nat) by (destruct P as [_ _ N _ _ _ _ _ _ _ _ _]; inversion N as [|? ? ? ? [N1 _] _]; subst; lia).
    assert (Et : top (rest s) = en_node e) by (unfold top; cbn [rest s_stack set_omit_lf set_wanted]; now rewrite (Ph_stack _ _ _ _ P)).
    assert (E : feed listed fuel s (TChar c) = Val (set_dom (grow d0 (en_node e) [NText (x ++ [c])]) (rest s))).
    { rewrite (phase_feed _ _ _ _ _ P). cbn [tok_of]. unfold in_mode. rewrite (Ph_mode _ _ _ _ (phase_rest _ _ _ _ P)). cbn [on_after_head]. rewrite W1.
      rewrite (char_more (rest s) d0 x c); rewrite ?Et; try lia; try reflexivity; try exact D.
      - apply P.
      - cbn [rest s_stack set_omit_lf set_wanted]. rewrite (Ph_stack _ _ _ _ P). discriminate. }
    destruct (IH e (set_dom (grow d0 (en_node e) [NText (x ++ [c])]) (rest s)) d0 (x ++ [c])) as (s' & R & P2 & D2).
    + destruct P. constructor; try assumption; try reflexivity.
      * cbn [s_dom set_dom]. rewrite D in Ph_names0. inversion Ph_names0 as [|? ? ? ? [N1 (a & N2)] N3]. subst. constructor; [|constructor]. split.
        -- rewrite grow_length. lia.
        -- exists a. rewrite info_grow in * by exact B. exact N2.
      * cbn [s_dom set_dom]. rewrite grow_length. lia.
    + exact B.
    + reflexivity.
    + exact W2.
    + exists s'. split; [|split; [exact P2|]]; [cbn [map]; eapply Run_cons; [exact E|exact I|exact R]|]. rewrite D2, <- app_assoc. reflexivity.
Qed.
Lemma gap_first : forall d e s, Phase M_after_head [e] [T_html] s -> no_text (s_dom s) (en_node e) -> d <> [] ->
  forallb is_ascii_white_space d = true ->
  exists s', Run s (map TChar d) s' /\ Phase M_after_head [e] [T_html] s' /\ s_dom s' = grow (s_dom s) (en_node e) [NText d].
Proof.
  intros [|c r] e s P NT NE W; [contradiction|]. cbn [forallb] in W. apply andb_prop in W. destruct W as [W1 W2].
  assert (N : (2 <= en_node e < List.length (s_dom s))%nat) by (destruct P as [_ _ N _ _ _ _ _ _ _ _ _]; inversion N as [|? ? ? ? [N1 _] _]; subst; lia).
  assert (Et : top (rest s) = en_node e) by (unfold top; cbn [rest s_stack set_omit_lf set_wanted]; now rewrite (Ph_stack _ _ _ _ P)).
  assert (E : feed listed fuel s (TChar c) = Val (set_dom (grow (s_dom s) (en_node e) [NText [c]]) (rest s))).
  { rewrite (phase_feed _ _ _ _ _ P). cbn [tok_of]. unfold in_mode. rewrite (Ph_mode _ _ _ _ (phase_rest _ _ _ _ P)). cbn [on_after_head]. rewrite W1.
    rewrite (char_first (rest s) c); rewrite ?Et; try lia.
    - unfold appended. rewrite Et. reflexivity.
    - apply P.
    - cbn [rest s_stack set_omit_lf set_wanted]. rewrite (Ph_stack _ _ _ _ P). discriminate.
    - exact NT. }
  destruct (gap_more r e (set_dom (grow (s_dom s) (en_node e) [NText [c]]) (rest s)) (s_dom s) [c]) as (s' & R & P2 & D2); try assumption; try lia; try reflexivity.
  - exact (phase_grow _ _ _ _ _ _ (phase_rest _ _ _ _ P)).
  - exists s'. split; [|split; [exact P2|exact D2]]. cbn [map]. eapply Run_cons; [exact E|exact I|exact R].
Qed.
Lemma gap_row : forall e l toks, Row l toks -> forallb is_gap l = true -> texts_apart l = true ->
  forall s, Phase M_after_head [e] [T_html] s -> (first_text l = true -> no_text (s_dom s) (en_node e)) ->
  exists s', Run s toks s' /\ Phase M_after_head [e] [T_html] s' /\ s_dom s' = grow (s_dom s) (en_node e) l.
Proof.
  intros e l toks R. induction R as [|n l a b Rn R IH]; intros F T s P NT.
  - exists s. split; [constructor|]. split; [exact P|]. now rewrite grow_nil.
  - cbn [forallb] in F. apply andb_prop in F. destruct F as [F1 F2]. cbn [texts_apart] in T. apply andb_prop in T. destruct T as [T1 T2].
    assert (N : (2 <= en_node e < List.length (s_dom s))%nat) by (destruct P as [_ _ N _ _ _ _ _ _ _ _ _]; inversion N as [|? ? ? ? [N1 _] _]; subst; lia).
    assert (K : exists s1, Run s a s1 /\ Phase M_after_head [e] [T_html] s1 /\ s_dom s1 = grow (s_dom s) (en_node e) [n]).
    { destruct n; try discriminate F1; inversion Rn; subst.
      - cbn [is_gap] in F1. apply andb_prop in F1. destruct F1 as [F1 F3]. apply gap_first; try assumption; [now apply NT|]. destruct data; [discriminate F1|discriminate].
      - apply comment_step; [apply c_after_head|exact P]. }
    destruct K as (s1 & R1 & P1 & D1).
    destruct (IH F2 T2 s1 P1) as (s2 & R2 & P2 & D2).
    { intro H. rewrite D1. apply no_text_grow; [lia|]. destruct (is_text n); [|reflexivity]. unfold first_text in H. destruct l; [discriminate H|].
      cbn [andb] in T1. rewrite H in T1. discriminate T1. }
    exists s2. split; [eapply run_app; eassumption|]. split; [exact P2|]. rewrite D2, D1. rewrite <- grow_app by lia. reflexivity.
Qed.

(** *** The tags of a document *)

Lemma names_below : forall g t attrs c d es names, Names d es names -> (2 <= List.length d)%nat ->
  Names (change d c (add_kids [List.length d]) ++ [Cell (IElement ns_HTML t attrs) c []]) (Entry g (List.length d) :: es) (t :: names).
Proof.
  intros g t attrs c d es names N B. constructor.
  - split.
    + cbn [en_node]. rewrite app_length, change_length. cbn [List.length]. lia.
    + exists attrs. cbn [en_node]. now rewrite cell_new.
  - now apply names_open.
Qed.
Lemma nodup_below : forall g d es names, Names d es names -> NoDup (map en_node es) -> NoDup (map en_node (Entry g (List.length d) :: es)).
Proof. intros g d es names N U. cbn [map en_node]. constructor; [|exact U]. intro I. apply (names_bound _ _ _ _ N) in I. lia. Qed.

Section Html.
Variables (attrs : list attr) (ats : list attribute) (name : list Z) (t : tname).
Hypothesis AR : AttrsRead attrs ats.
Hypothesis PA : forallb plain_attr attrs = true.
Hypothesis NS : ~ In name (map lit special_names).
Hypothesis Et : tname_of name = t.
Hypothesis Nn : name <> [].
Let g := emitted [] (Tag name false ats).
Let x := IElement ns_HTML t attrs.
Lemma x_made : element_for g ns_HTML = Val x.
Proof. subst g x. rewrite <- Et. now apply element_back. Qed.
Lemma id_made : g_id g = t.
Proof. exact Et. Qed.
Lemma told_none : forall s, s_wanted s = None -> told (TStart (Tag name false ats)) s.
Proof. intros s W. cbn [told]. rewrite W. cbn [option_map]. rewrite by_name_one. symmetry. now apply by_name_none. Qed.

Lemma html_mode : forall emit s, t = T_html -> Phase M_before_html [] [] s -> in_mode listed emit s (KStart g) =
  Val (set_mode M_before_head (set_stack [Entry g (List.length (s_dom s))] (set_dom (change (s_dom s) the_document (add_kids [List.length (s_dom s)]) ++ [Cell x the_document []]) s))).
Proof.
  intros emit s T P. unfold in_mode. rewrite (Ph_mode _ _ _ _ P). unfold on_before_html. rewrite id_made, T. cbv beta iota zeta.
  rewrite x_made. cbv beta iota. rewrite insert_end. cbv beta iota. rewrite (Ph_stack _ _ _ _ P). reflexivity.
Qed.
Lemma html_step : forall m s, t = T_html -> m = M_initial \/ m = M_before_html -> Phase m [] [] s ->
  exists s1, Run s [TStart (Tag name false ats)] s1 /\ Phase M_before_head [Entry g (List.length (s_dom s))] [T_html] s1 /\
    s_dom s1 = change (s_dom s) the_document (add_kids [List.length (s_dom s)]) ++ [Cell x the_document []].
Proof.
  intros m s T M P.
  assert (Q : exists s0, Phase M_before_html [] [] s0 /\ s_dom s0 = s_dom s /\ s_wanted s0 = None /\ exists emit,
    feed listed fuel s (TStart (Tag name false ats)) = in_mode listed emit s0 (KStart g)).
  { destruct M as [->| ->].
    - exists (set_omit_lf false (set_mode M_before_html (set_quirks true (rest s)))). split; [destruct P; now constructor|]. split; [reflexivity|]. split; [reflexivity|].
      exists (process listed f). rewrite (phase_feed _ _ _ _ _ P). cbn [tok_of]. unfold in_mode at 1. rewrite (Ph_mode _ _ _ _ (phase_rest _ _ _ _ P)).
      unfold on_initial. cbv zeta. cbn [process]. apply empty_dispatch; [|reflexivity]. exact (Ph_stack _ _ _ _ P).
    - exists (rest s). split; [now apply phase_rest|]. split; [reflexivity|]. split; [reflexivity|]. eexists. rewrite (phase_feed _ _ _ _ _ P). reflexivity. }
  destruct Q as (s0 & P0 & D0 & W0 & emit & E). rewrite (html_mode emit s0 T P0), D0 in E.
  eexists. split; [apply run_one; [exact E|apply told_none; exact W0]|]. split; [|reflexivity].
  destruct P0. constructor; try assumption; try reflexivity.
  - cbn [s_dom set_mode set_stack set_dom]. subst x. rewrite T. rewrite D0 in *. now apply names_below.
  - constructor; [intros []|constructor].
  - cbn [s_dom set_mode set_stack set_dom]. rewrite app_length, change_length. rewrite D0 in *. cbn [List.length]. lia.
Qed.

(** an element opened below the html element *)
Definition inside (e : entry) (m : mode) (s s1 : st) : Prop :=
  s_dom s1 = change (s_dom s) (en_node e) (add_kids [List.length (s_dom s)]) ++ [Cell x (en_node e) []] /\
  s_stack s1 = [Entry g (List.length (s_dom s)); e] /\ s_mode s1 = m /\ s_wanted s1 = None /\ s_omit_lf s1 = false.
Lemma inside_good : forall e m m0 s s1, Phase m0 [e] [T_html] s -> inside e m s s1 -> s_active s1 = s_active s -> s_form s1 = s_form s -> s_foster s1 = s_foster s ->
  s_fragment s1 = s_fragment s -> s_templates s1 = s_templates s -> s_slots s1 = s_slots s -> m = mode_of [t; T_html] -> Ok [t; T_html] ->
  among t marker_names = false -> t <> T_form -> Good [t; T_html] s1.
Proof.
  intros e m m0 s s1 P (D & S1 & M1 & _ & _) A1 F1 Fo1 Fr1 T1 Sl1 M O Mk NF. destruct P. constructor; try congruence; try assumption.
  - rewrite S1, D. now apply names_below.
  - rewrite S1. now apply (nodup_below g (s_dom s) [e] [T_html]).
  - rewrite S1, A1, Ph_active0. apply Act_skip; [exact Mk|]. apply Act_skip; [reflexivity|constructor].
  - rewrite S1, F1, Ph_form0. apply Form_none. intros [K|[K|[]]]; [now elim NF|discriminate K].
Qed.
Lemma head_step : forall e s, t = T_head -> Phase M_before_head [e] [T_html] s -> exists s1, Run s [TStart (Tag name false ats)] s1 /\
  Good [T_head; T_html] s1 /\ inside e M_in_head s s1.
Proof.
  intros e s T P. assert (PR := phase_rest _ _ _ _ P).
  set (s1 := set_mode M_in_head (set_head (Some (List.length (s_dom s))) (opened g x (rest s)))).
  assert (I1 : inside e M_in_head s s1).
  { subst s1. unfold inside, opened, top. cbn [s_dom s_stack set_mode set_head set_stack set_dom rest set_omit_lf set_wanted s_mode s_wanted s_omit_lf].
    rewrite (Ph_stack _ _ _ _ P). repeat split. }
  exists s1. split.
  - apply run_one; [|apply told_none; reflexivity]. rewrite (phase_feed _ _ _ _ _ P). cbn [tok_of]. fold g. unfold in_mode. rewrite (Ph_mode _ _ _ _ PR).
    unfold on_before_head. rewrite id_made, T. cbv beta iota zeta.
    unfold insert_el, insert_foreign, cur, place_for. rewrite (Ph_stack _ _ _ _ PR). cbv beta iota. rewrite (Ph_foster _ _ _ _ PR). cbn [andb]. cbv beta iota.
    rewrite x_made. cbv beta iota. rewrite insert_end. cbv beta iota. subst s1. unfold opened, top. rewrite (Ph_stack _ _ _ _ PR). reflexivity.
  - split; [|exact I1]. rewrite <- T at 1. apply (inside_good e M_in_head M_before_head s s1); try assumption; try reflexivity; try (rewrite T; try reflexivity; try discriminate).
    apply Ok_head.
Qed.
Lemma body_step : forall e s, t = T_body -> Phase M_after_head [e] [T_html] s -> exists s1, Run s [TStart (Tag name false ats)] s1 /\
  Good [T_body; T_html] s1 /\ inside e M_in_body s s1.
Proof.
  intros e s T P. assert (PR := phase_rest _ _ _ _ P).
  set (s1 := set_mode M_in_body (set_frameset_ok false (opened g x (rest s)))).
  assert (I1 : inside e M_in_body s s1).
  { subst s1. unfold inside, opened, top. cbn [s_dom s_stack set_mode set_frameset_ok set_stack set_dom rest set_omit_lf set_wanted s_mode s_wanted s_omit_lf].
    rewrite (Ph_stack _ _ _ _ P). repeat split. }
  exists s1. split.
  - apply run_one; [|apply told_none; reflexivity]. rewrite (phase_feed _ _ _ _ _ P). cbn [tok_of]. fold g. unfold in_mode. rewrite (Ph_mode _ _ _ _ PR).
    unfold on_after_head. rewrite id_made, T. cbv beta iota zeta.
    rewrite (insert_any (rest s) g x); [reflexivity|apply PR| |exact x_made]. rewrite (Ph_stack _ _ _ _ PR). discriminate.
  - split; [|exact I1]. rewrite <- T at 1. apply (inside_good e M_in_body M_after_head s s1); try assumption; try reflexivity; try (rewrite T; try reflexivity; try discriminate).
    apply Ok_body.
Qed.
End Html.

Lemma good_calm : forall anc s, Good anc s -> (forall t, In t anc -> among t marker_names = false /\ among t formatting_names = false /\ t <> T_form) ->
  s_active s = [] /\ s_form s = None.
Proof.
  intros anc s G N. destruct G. split.
  - clear - G_act N. revert N. induction G_act as [|e t st anc ac M A IH|e t st anc ac g F A IH|e t st anc ac M A IH]; intro N.
    + reflexivity.
    + apply IH. intros; apply N; now right.
    + destruct (N t (or_introl eq_refl)) as (_ & K & _). congruence.
    + destruct (N t (or_introl eq_refl)) as (K & _ & _). congruence.
  - clear - G_form N. revert N. induction G_form as [|e st anc H|e st t anc f T F IH]; intro N.
    + reflexivity.
    + now destruct (N T_form (or_introl eq_refl)) as (_ & _ & K).
    + apply IH. intros; apply N; now right.
Qed.
Lemma head_end : forall s s0 eh e name, Good [T_head; T_html] s0 -> Late [T_head; T_html] s s0 -> s_stack s0 = [eh; e] -> tname_of name = T_head ->
  exists s1, Run s [TEnd (Tag name false [])] s1 /\ Phase M_after_head [e] [T_html] s1 /\ s_dom s1 = s_dom s0.
Proof.
  intros s s0 eh e name G L E Tn. destruct (late_feed listed f _ s s0 (TEnd (Tag name false [])) G L) as (emit & F); [discriminate|]. cbn [tok_of g_name] in F.
  rewrite Tn in F.
  destruct (good_calm _ _ G) as (A & Fm). { intros t [<-|[<-|[]]]; repeat split; discriminate. }
  destruct G. unfold in_mode in F. change (s_mode (rest s0)) with (s_mode s0) in F. rewrite G_mode in F. cbn [mode_of] in F.
  rewrite E in G_names, G_nodup. inversion G_names as [|? ? ? ? N1 N2]. subst.
  assert (B : on_in_head emit (rest s0) (KEnd T_head) = Val (set_mode M_after_head (set_stack [e] (rest s0)))).
  { unfold on_in_head. unfold cur_is, cur. change (s_stack (rest s0)) with (s_stack s0). rewrite E. cbv beta iota.
    change (s_dom (rest s0)) with (s_dom s0). rewrite (named_is _ _ _ T_head N1). change (teqb T_head T_head) with true. cbv beta iota.
    unfold pop. change (s_stack (rest s0)) with (s_stack s0). rewrite E. reflexivity. }
  rewrite B in F. eexists. split; [apply run_one; [exact F|exact I]|]. split; [|reflexivity].
  constructor; try assumption; try reflexivity.
  - now inversion G_nodup.
  - cbn [s_dom set_mode set_stack rest set_omit_lf set_wanted]. inversion N2 as [|? ? ? ? [N3 _] _]. subst. lia.
Qed.
Lemma body_closed : forall s s0 b e name, Good [T_body; T_html] s0 -> Late [T_body; T_html] s s0 -> s_stack s0 = [b; e] -> tname_of name = T_body ->
  exists s1, Run s [TEnd (Tag name false [])] s1 /\ Phase M_after_body [b; e] [T_body; T_html] s1 /\ s_dom s1 = s_dom s0.
Proof.
  intros s s0 b e name G L E Tn. destruct (late_feed listed f _ s s0 (TEnd (Tag name false [])) G L) as (emit & F); [discriminate|]. cbn [tok_of g_name] in F.
  rewrite Tn in F.
  destruct (good_calm _ _ G) as (A & Fm). { intros t [<-|[<-|[]]]; repeat split; discriminate. }
  destruct G. unfold in_mode in F. change (s_mode (rest s0)) with (s_mode s0) in F. rewrite G_mode in F. cbn [mode_of] in F.
  rewrite E in G_names, G_nodup. inversion G_names as [|? ? ? ? N1 N2]. subst.
  assert (B : on_in_body emit (rest s0) (KEnd T_body) = Val (set_mode M_after_body (rest s0))).
  { cbn [on_in_body body_end]. unfold in_scope. change (s_stack (rest s0)) with (s_stack s0). rewrite E. cbn [scope_from].
    change (s_dom (rest s0)) with (s_dom s0). rewrite (named_is _ _ _ T_body N1). change (teqb T_body T_body) with true. reflexivity. }
  rewrite B in F. eexists. split; [apply run_one; [exact F|exact I]|]. split; [|reflexivity].
  constructor; try assumption; try reflexivity.
  cbn [s_dom set_mode rest set_omit_lf set_wanted]. destruct N1 as [N1 _]. lia.
Qed.
Lemma html_end : forall s b e name, Phase M_after_body [b; e] [T_body; T_html] s -> tname_of name = T_html ->
  exists s1, Run s [TEnd (Tag name false [])] s1 /\ Phase M_after_after_body [b; e] [T_body; T_html] s1 /\ s_dom s1 = s_dom s.
Proof.
  intros s b e name P Tn. exists (set_mode M_after_after_body (rest s)). split.
  - apply run_one; [|exact I]. rewrite (phase_feed _ _ _ _ _ P). cbn [tok_of g_name]. rewrite Tn. unfold in_mode. rewrite (Ph_mode _ _ _ _ (phase_rest _ _ _ _ P)).
    cbn [on_after_body]. rewrite (Ph_fragment _ _ _ _ (phase_rest _ _ _ _ P)). reflexivity.
  - split; [|reflexivity]. destruct P. now constructor.
Qed.
Lemma type_step : forall n s, Phase M_initial [] [] s -> exists s1, Run s [TDoctype (Doctype n [] [] false)] s1 /\
  Phase M_before_html [] [] s1 /\ s_dom s1 = grow (s_dom s) the_document [NDoctype n].
Proof.
  intros n s P. exists (set_mode M_before_html (if in_quirks listed (Doctype n [] [] false) then set_quirks true (set_dom (grow (s_dom s) the_document [NDoctype n]) (rest s))
    else set_dom (grow (s_dom s) the_document [NDoctype n]) (rest s))). split.
  - apply run_one; [|exact I]. rewrite (phase_feed _ _ _ _ _ P). cbn [tok_of]. unfold in_mode. rewrite (Ph_mode _ _ _ _ (phase_rest _ _ _ _ P)).
    cbn [on_initial]. rewrite insert_end. cbv beta iota zeta. rewrite (grow_leaf _ _ (NDoctype n) (IDoctype n [] []) eq_refl). reflexivity.
  - split; [|now destruct (in_quirks listed (Doctype n [] [] false))].
    pose proof (phase_grow _ _ _ _ the_document [NDoctype n] (phase_rest _ _ _ _ P)) as [].
    destruct (in_quirks listed (Doctype n [] [] false)); now constructor.
Qed.

(** *** The document *)

Theorem document_run : forall n toks, Ordinary n -> Row (children n) toks -> forall s, Phase M_initial [] [] s -> s_dom s = tree_init ->
  exists s1 b e, Run s toks s1 /\ Phase M_after_after_body [b; e] [T_body; T_html] s1 /\ s_dom s1 = grow tree_init the_document (children n).
Proof.
  intros n toks Hn R s P D. destruct Hn as [c0 dt c1 ha h0 da dk mid ba bk h1 c2 C0 DT C1 HA H0 DA DT2 DK MT MG BA BT BK H1 C2].
  cbn [children] in *.
  apply row_app_inv in R. destruct R as (k0 & r0 & -> & R0 & R).
  apply row_app_inv in R. destruct R as (k1 & r1 & -> & R1 & R).
  apply row_app_inv in R. destruct R as (k2 & r2 & -> & R2 & R).
  apply row_cons_inv in R. destruct R as (k3 & k4 & -> & R3 & R4).
  apply reads_element in R3; [|reflexivity]. destruct R3 as (hats & hk & -> & HAR & HS & R3).
  apply row_app_inv in R3. destruct R3 as (k5 & r5 & -> & R5 & R).
  apply row_cons_inv in R. destruct R as (k6 & r6 & -> & R6 & R).
  apply reads_element in R6; [|reflexivity]. destruct R6 as (dats & dtk & -> & DAR & DS & R6).
  apply row_app_inv in R. destruct R as (k7 & r7 & -> & R7 & R).
  apply row_cons_inv in R. destruct R as (k8 & k9 & -> & R8 & R9).
  apply reads_element in R8; [|reflexivity]. destruct R8 as (bats & btk & -> & BAR & BS & R8).
  (* before the html element *)
  destruct (comments_row _ _ _ _ c_initial c0 k0 R0 C0 s P) as (s0 & Q0 & P0 & D0); [rewrite D; cbn; unfold the_document; lia|].
  assert (X1 : exists m s1, (m = M_initial \/ m = M_before_html) /\ Run s0 (k1 ++ k2) s1 /\ Phase m [] [] s1 /\ s_dom s1 = grow (s_dom s0) the_document (dt ++ c1)).
  { pose proof (Ph_root _ _ _ _ P0) as B0. destruct DT as [->|[nm ->]].
    - inversion R1. subst. destruct (comments_row _ _ _ _ c_initial c1 k2 R2 C1 s0 P0) as (s2 & Q2 & P2 & D2); [unfold the_document; lia|].
      exists M_initial, s2. auto.
    - apply row_cons_inv in R1. destruct R1 as (a1 & b1 & -> & R1 & Z1). inversion Z1. inversion R1. subst.
      destruct (type_step nm s0 P0) as (s1 & Q1 & P1 & D1). pose proof (Ph_root _ _ _ _ P1) as B1.
      destruct (comments_row _ _ _ _ c_before_html c1 k2 R2 C1 s1 P1) as (s2 & Q2 & P2 & D2); [unfold the_document; lia|].
      exists M_before_html, s2. split; [now right|]. split; [rewrite app_nil_r; eapply run_app; eassumption|]. split; [exact P2|].
      rewrite D2, D1. rewrite <- grow_app by (unfold the_document; lia). reflexivity. }
  destruct X1 as (m & s1 & M & Q1 & P1 & D1). pose proof (Ph_root _ _ _ _ P1) as B1.
  (* its start tag *)
  destruct (html_step ha hats (lit "html") T_html HAR HA HS eq_refl ltac:(discriminate) m s1 eq_refl M P1) as (s2 & Q2 & P2 & D2).
  set (e := Entry (emitted [] (Tag (lit "html") false hats)) (List.length (s_dom s1))) in *.
  assert (Be : forall m es names s, Phase m es names s -> In e es -> (2 <= en_node e < List.length (s_dom s))%nat).
  { intros m' es names s' P' I'. destruct P' as [_ _ N _ _ _ _ _ _ _ _ _]. clear - N I'. induction N as [|? ? ? ? [N1 _] N IH]; [destruct I'|].
    destruct I' as [->|I']; [exact N1|now apply IH]. }
  destruct (comments_row _ _ _ _ (c_before_head e) h0 k5 R5 H0 s2 P2) as (s3 & Q3 & P3 & D3); [exact (proj2 (Be _ _ _ _ P2 (or_introl eq_refl)))|].
  (* the head *)
  destruct (head_step da dats (lit "head") T_head DAR DA DS eq_refl ltac:(discriminate) e s3 eq_refl P3) as (s4 & Q4 & G4 & D4 & S4 & M4 & W4 & O4).
  destruct (proj2 (all_back listed f) dk dtk R6 [T_head; T_html] s4 s4 G4 (Late_now _ _) DK DT2) as (s5 & s05 & Q5 & L5 & G5 & S5 & D5).
  { intros _. split; [reflexivity|]. unfold top. rewrite S4, D4. apply no_text_new. }
  { rewrite O4. discriminate. }
  rewrite S4 in S5.
  destruct (head_end s5 s05 _ e (lit "head") G5 L5 S5 eq_refl) as (s6 & Q6 & P6 & D6).
  pose proof (Be _ _ _ _ P3 (or_introl eq_refl)) as B3.
  assert (E6 : s_dom s6 = grow (s_dom s3) (en_node e) [NElement ns_HTML [] (lit "head") da dk]).
  { rewrite D6, D5. unfold top. rewrite S4. cbn [en_node]. rewrite D4. apply (grow_element (s_dom s3) (en_node e) ns_HTML [] (lit "head") da dk). lia. }
  (* up to the body *)
  destruct (gap_row e mid k7 R7 MG MT s6 P6) as (s7 & Q7 & P7 & D7).
  { intros _. rewrite E6. apply no_text_grow; [lia|reflexivity]. }
  destruct (body_step ba bats (lit "body") T_body BAR BA BS eq_refl ltac:(discriminate) e s7 eq_refl P7) as (s8 & Q8 & G8 & D8 & S8 & M8 & W8 & O8).
  destruct (proj2 (all_back listed f) bk btk R8 [T_body; T_html] s8 s8 G8 (Late_now _ _) BK BT) as (s9 & s09 & Q9 & L9 & G9 & S9 & D9).
  { intros _. split; [reflexivity|]. unfold top. rewrite S8, D8. apply no_text_new. }
  { rewrite O8. discriminate. }
  rewrite S8 in S9.
  destruct (body_closed s9 s09 _ e (lit "body") G9 L9 S9 eq_refl) as (s10 & Q10 & P10 & D10).
  pose proof (Be _ _ _ _ P7 (or_introl eq_refl)) as B7.
  assert (E10 : s_dom s10 = grow (s_dom s7) (en_node e) [NElement ns_HTML [] (lit "body") ba bk]).
  { rewrite D10, D9. unfold top. rewrite S8. cbn [en_node]. rewrite D8. apply (grow_element (s_dom s7) (en_node e) ns_HTML [] (lit "body") ba bk). lia. }
  set (b := Entry (emitted [] (Tag (lit "body") false bats)) (List.length (s_dom s7))) in *.
  destruct (comments_row _ _ _ _ (c_after_body b e) h1 k9 R9 H1 s10 P10) as (s11 & Q11 & P11 & D11); [exact (proj2 (Be _ _ _ _ P10 (or_intror (or_introl eq_refl))))|].
  destruct (html_end s11 b e (lit "html") P11 eq_refl) as (s12 & Q12 & P12 & D12). pose proof (Ph_root _ _ _ _ P12) as B12.
  destruct (comments_row _ _ _ _ (c_after_after_body b e) c2 k4 R4 C2 s12 P12) as (s13 & Q13 & P13 & D13); [unfold the_document; lia|].
  exists s13, b, e. split; [|split; [exact P13|]].
  - pose proof (run_app _ _ _ _ _ Q12 _ _ Q13) as Z. apply (run_app _ _ _ _ _ Q11) in Z. apply (run_app _ _ _ _ _ Q10) in Z.
    apply (run_app _ _ _ _ _ Q9) in Z. apply (run_app _ _ _ _ _ Q8) in Z. apply (run_app _ _ _ _ _ Q7) in Z. apply (run_app _ _ _ _ _ Q6) in Z.
    apply (run_app _ _ _ _ _ Q5) in Z. apply (run_app _ _ _ _ _ Q4) in Z. apply (run_app _ _ _ _ _ Q3) in Z. apply (run_app _ _ _ _ _ Q2) in Z.
    apply (run_app _ _ _ _ _ Q1) in Z. apply (run_app _ _ _ _ _ Q0) in Z.
    match type of Z with L_dom8.Run _ _ _ ?l _ => match goal with |- L_dom8.Run _ _ _ ?l2 _ => replace l2 with l; [exact Z|] end end.
    repeat (rewrite <- !app_assoc; cbn [app]). reflexivity.
  - rewrite D13, D12, D11, E10, D7, E6, D3.
    pose proof (Be _ _ _ _ P2 (or_introl eq_refl)) as B2.
    rewrite <- (grow_app (s_dom s2)) by lia. rewrite <- (grow_app (s_dom s2)) by lia. rewrite <- (grow_app (s_dom s2)) by lia. rewrite <- (grow_app (s_dom s2)) by lia.
    rewrite D2. unfold e. cbn [en_node].
    rewrite (grow_element (s_dom s1) the_document ns_HTML [] (lit "html") ha) by (unfold the_document; lia).
    rewrite <- (grow_app (s_dom s1)) by (unfold the_document; lia). rewrite D1, D0, D.
    rewrite <- !grow_app by (try rewrite !grow_length; cbn; unfold the_document; lia).
    f_equal. rewrite <- !app_assoc. reflexivity.
Qed.
End Document.

(** *** Reading what was written *)

Lemma fits_plain : forall n anc, fits anc n = true -> Plain n.
Proof.
  apply (node_ind' (fun n => forall anc, fits anc n = true -> Plain n)); try (intros; constructor); try discriminate.
  intros ns p l attrs kids IH anc F. destruct (fits_element _ _ _ _ _ _ F) as (_ & -> & _ & _ & _ & _ & K). constructor.
  rewrite Forall_forall in *. intros n I.
  destruct (among (tname_of l) text_names).
  - rewrite forallb_forall in K. specialize (K n I). destruct n; try discriminate K. constructor.
  - destruct (among (tname_of l) void_tnames); [destruct kids; [destruct I|discriminate K]|].
    rewrite forallb_forall in K. eapply IH; eauto.
Qed.
Lemma all_plain : forall (p : node -> bool), (forall n, p n = true -> Plain n) -> forall l, forallb p l = true -> Forall Plain l.
Proof. intros p H l F. rewrite forallb_forall in F. apply Forall_forall. auto. Qed.
Lemma ordinary_plain : forall n, Ordinary n -> Forall Plain (children n).
Proof.
  intros n O. destruct O as [c0 dt c1 ha h0 da dk mid ba bk h1 c2 C0 DT C1 HA H0 DA DT2 DK MT MG BA BT BK H1 C2]. cbn [children].
  assert (C : forall l, forallb is_comment l = true -> Forall Plain l) by (apply all_plain; intros []; try discriminate; constructor).
  assert (M : forall l, forallb is_gap l = true -> Forall Plain l) by (apply all_plain; intros []; try discriminate; constructor).
  assert (T : Forall Plain dt) by (destruct DT as [->|[x ->]]; repeat constructor).
  pose proof (all_plain _ (fun n => fits_plain n _) _ DK) as PD. pose proof (all_plain _ (fun n => fits_plain n _) _ BK) as PB.
  repeat (apply Forall_app; split); auto. constructor; [|auto]. constructor. apply Forall_app; split; auto. constructor; [now constructor|].
  apply Forall_app; split; auto. constructor; [now constructor|auto].
Qed.

Lemma run_construct : forall listed f s l s1, Run listed f s l s1 -> forall r, construct listed (S (S f)) s (l ++ r) = construct listed (S (S f)) s1 r.
Proof. induction 1 as [|s k s1 r s2 E T R IH]; intro l; [reflexivity|]. cbn [app construct]. rewrite E. apply IH. Qed.
Lemma run_told : forall listed f l s k r s2, Run listed f s (l ++ k :: r) s2 -> exists s1, construct listed (S (S f)) s (l ++ [k]) = Val s1 /\ told k s1.
Proof.
  intros listed f. induction l as [|x l IH]; intros s k r s2 R; cbn [app] in *; inversion R; subst.
  - eexists. cbn [construct]. match goal with E : feed _ _ _ _ = Val _ |- _ => rewrite E end. split; [reflexivity|assumption].
  - cbn [construct]. match goal with E : feed _ _ _ _ = Val _ |- _ => rewrite E end. eapply IH. eassumption.
Qed.
Lemma by_name_last : forall l k, by_name (l ++ [k]) = by_name [k].
Proof. intros l k. unfold by_name. now rewrite last_last. Qed.
Lemma switch_states : forall listed fuel b l s, switch_of listed fuel b l = Some s ->
  s = RCDATA_state \/ s = RAWTEXT_state \/ s = script_data_state \/ s = PLAINTEXT_state.
Proof.
  intros listed fuel b l s H. unfold switch_of in H. destruct (construct listed fuel (st_init b) l) as [x| |]; try discriminate H.
  destruct (s_wanted x) as [[]|]; try discriminate H; injection H as <-; cbn; auto.
Qed.

Theorem read_back : forall listed n toks fuel1 steps fuel, Ordinary n -> Row (children n) toks -> (sizes (children n) < fuel1)%nat -> (2 <= fuel)%nat ->
  exists text, to_string fuel1 n = Val text /\
    ((24 * List.length text + 13 <= steps)%nat -> parse listed match_ncr steps fuel text = Val n).
Proof.
  intros listed n toks fuel1 steps fuel O R F1 F2. destruct fuel as [|[|f]]; [lia|lia|].
  assert (P0 : Phase M_initial [] [] (st_init false)).
  { constructor; try reflexivity; try constructor. }
  destruct (document_run listed f n toks O R (st_init false) P0 eq_refl) as (s1 & b & e & Q & P & D).
  destruct (tree_round_trip_at (switch_of listed (S (S f)) false) (switch_states listed (S (S f)) false) (cdata_of listed (S (S f)) false) toks) with (n := n) (toks := toks) (fuel1 := fuel1) (fuel2 := steps)
    as (text & W & T); try assumption.
  - intros l name ats r E. rewrite E in Q. destruct (run_told _ _ _ _ _ _ _ Q) as (s2 & C & K). unfold switch_of. rewrite C, by_name_last. exact K.
  - reflexivity.
  - right. destruct O as [c0 dt c1 ha h0 da dk mid ba bk h1 c2 C0 DT C1 HA H0 DA DT2 DK MT MG BA BT BK H1 C2]. cbn [children]. intros d I.
    assert (C : forall l, forallb is_comment l = true -> ~ In (NText d) l) by (intros l F J; rewrite forallb_forall in F; specialize (F _ J); discriminate F).
    rewrite !in_app_iff in I. cbn [In] in I. destruct I as [I|[I|[I|[I|I]]]]; try (now apply C in I); try discriminate I.
    destruct DT as [->|[x ->]]; [destruct I|destruct I as [I|[]]; discriminate I].
  - destruct O. intros [].
  - destruct O. intros [].
  - exists text. split; [exact W|]. intro B. unfold parse, parse_text. rewrite (T B). cbv beta iota. rewrite (run_construct _ _ _ _ _ Q).
    cbn [construct]. rewrite (phase_feed _ _ _ _ _ _ _ P). cbn [tok_of]. unfold in_mode. rewrite (Ph_mode _ _ _ _ (phase_rest _ _ _ _ P)).
    cbn [on_after_after_body]. cbv beta iota. f_equal.
    rewrite (document_grow (stop_parsing (rest s1)) (children n)).
    + destruct O. reflexivity.
    + now apply ordinary_plain.
    + exact D.
Qed.
