(** The tags that are emitted: their names, and the names of their attributes. *)
From Coq Require Import ZArith List Bool Lia String.
From Verif Require Import M_infra M_encoding M_labels M_html M_html_ncr M_html_serialize L_html_names L_html1 L_html2 L_html5 L_html3 L_html4 L_html6 L_html7 L_html8 L_html9 L_html10.
Import ListNotations.
Open Scope Z_scope.
Open Scope html_scope.

(** the name of an attribute: it has an equals sign only if it begins with it *)
Definition attr_name_ok (n : list Z) : Prop := exists c r, n = c :: r /\ name_char c /\ Forall (fun x => name_char x /\ x <> 0x3D) r.
(** the attributes of a tag: those that are not left out have different names *)
Definition settled (l : list attribute) : Prop :=
  NoDup (map a_name (filter (fun a => negb (a_omitted a)) l)) /\ Forall (fun a => attr_name_ok (a_name a)) l.
Definition tag_ok (g : tag) : Prop := tag_name_ok (g_name g) /\ settled (g_attributes g).
Definition token_ok (k : token) : Prop := match k with TStart g | TEnd g => tag_ok g | _ => True end.

(** states in which a name has just begun *)
Definition naming (s : state) : bool :=
  match s with
  | tag_name_state | RCDATA_end_tag_name_state | RAWTEXT_end_tag_name_state | script_data_end_tag_name_state
  | script_data_escaped_end_tag_name_state => true
  | _ => false
  end.
Definition name_inv (n : list Z) (s : state) (i : option Z) : Prop :=
  tag_name_ok n \/ (n = [] /\ naming s = true /\ exists c, i = Some c /\ is_ascii_alpha c = true).
Definition fresh_char (c : Z) : Prop := is_space c = false /\ c <> 0x2F /\ c <> 0x3E /\ c <> 0x3D.
Definition attr_inv (l : list attribute) (s : state) (i : option Z) : Prop :=
  match s with
  | attribute_name_state => exists l0 a, l = l0 ++ [a] /\ settled l0 /\
      (attr_name_ok (a_name a) \/ (a_name a = [] /\ exists c, i = Some c /\ fresh_char c))
  | after_attribute_name_state => i = None \/ settled l
  | _ => settled l
  end.
Definition plain_state (s : state) : bool :=
  match s with attribute_name_state | after_attribute_name_state => false | _ => negb (naming s) end.
Record TagInv (t : tok) (i : option Z) : Prop := MkTagInv {
  TI_tag : forall g, current_tag t = Some g -> name_inv (g_name g) (t_state t) i /\ attr_inv (g_attributes g) (t_state t) i;
  TI_return : forall s, t_return t = Some s -> plain_state s = true;
  TI_out : Forall token_ok (t_out t) }.

Lemma plain_inv s i j n l s' : plain_state s' = true -> plain_state s = true ->
  name_inv n s i /\ attr_inv l s i -> name_inv n s' j /\ attr_inv l s' j.
Proof.
  intros P' P [[H|(H & N & _)] A]; [|exfalso; destruct s; discriminate].
  split; [now left|]. destruct s; try discriminate P; destruct s'; try discriminate P'; exact A.
Qed.
Lemma settled_nil : settled [].
Proof. split; constructor. Qed.
Lemma on_tag f t t1 : on_current_tag f t = Some t1 -> exists g g1, current_tag t = Some g /\ f g = Some g1 /\ current_tag t1 = Some g1 /\
  t_out t1 = t_out t /\ t_state t1 = t_state t /\ t_return t1 = t_return t.
Proof.
  unfold on_current_tag. destruct (current_tag t) as [g|] eqn:E; [|discriminate]. destruct (f g) as [g1|] eqn:F; [|discriminate].
  intro H; inversion H; subst. exists g, g1. split; [reflexivity|]. split; [exact F|]. unfold current_tag, set_current_tag in *.
  destruct (t_id t =? 2) eqn:E2; cbn; rewrite ?E2; [auto|]. destruct (t_id t =? 3) eqn:E3; [auto|]. discriminate E.
Qed.
Lemma map_last_some {A} (f : A -> A) l l1 : map_last f l = Some l1 -> exists l0 a, l = l0 ++ [a] /\ l1 = l0 ++ [f a].
Proof.
  revert l1. induction l as [|x l IH]; intros l1 H; [discriminate|]. destruct l as [|y l].
  - cbn in H. inversion H. exists [], x. auto.
  - change (map_last f (x :: y :: l)) with (do r1 <- map_last f (y :: l); Some (x :: r1)) in H. destruct (map_last f (y :: l)) as [q|] eqn:E; [|discriminate]. cbn in H. inversion H; subst.
    destruct (IH q eq_refl) as (l0 & a & E1 & E2). rewrite E1, E2. exists (x :: l0), a. auto.
Qed.
(** a change of the last attribute that keeps its name and whether it is left out *)
Lemma settled_last l a b : a_name b = a_name a -> a_omitted b = a_omitted a -> settled (l ++ [a]) -> settled (l ++ [b]).
Proof.
  intros N O [H1 H2]. split.
  - rewrite filter_app, map_app in *. cbn [filter] in *. rewrite O. destruct (a_omitted a); cbn in *; rewrite ?N; exact H1.
  - apply Forall_app in H2. destruct H2 as [H2 H3]. apply Forall_app. split; [exact H2|]. inversion H3; subst. constructor; [now rewrite N|constructor].
Qed.
Lemma settled_unify l a : settled l -> attr_name_ok (a_name a) ->
  settled (l ++ [Attribute (a_name a) (a_value a) (if existsb (fun b => eq_str (a_name b) (a_name a)) l then true else a_omitted a)]).
Proof.
  intros [H1 H2] N. split; [|apply Forall_app; split; [exact H2|constructor; [exact N|constructor]]].
  rewrite filter_app, map_app. cbn [filter a_omitted]. destruct (existsb _ l) eqn:E; cbn [negb]; [now rewrite app_nil_r|].
  destruct (a_omitted a); cbn [negb map app]; [now rewrite app_nil_r|]. cbn [a_name].
  apply NoDup_rev in H1. rewrite <- rev_involutive. apply NoDup_rev. rewrite rev_app_distr. cbn [rev app]. constructor; [|exact H1].
  intro I. apply in_rev, in_map_iff in I. destruct I as (b & Eb & Ib). apply filter_In in Ib. destruct Ib as [Ib _].
  assert (existsb (fun b => eq_str (a_name b) (a_name a)) l = true); [|congruence]. apply existsb_exists. exists b. split; [exact Ib|].
  apply eq_str_spec. exact Eb.
Qed.

Section Tags.
Variable switch : list token -> option state.
Hypothesis switch_text : text_switch switch.

Lemma emit_tag_inv t t1 : emit_tag switch t = Some t1 -> plain_state (t_state t) = true -> exists g k, current_tag t = Some g /\
  t_out t1 = t_out t ++ [k] /\ (k = TStart g \/ k = TEnd g) /\ current_tag t1 = Some g /\ t_return t1 = t_return t /\ plain_state (t_state t1) = true.
Proof.
  unfold emit_tag, current_tag. destruct (t_id t =? 2) eqn:E.
  - intro H; inversion H; subst; clear H. intro P. exists (t_start t), (TStart (t_start t)).
    destruct (switch _) as [s|] eqn:Es; cbn; rewrite E; (split; [reflexivity|split; [reflexivity|split; [now left|split; [reflexivity|split; [reflexivity|]]]]]).
    + destruct (switch_text _ _ Es) as [->|[->|[->| ->]]]; reflexivity.
    + exact P.
  - destruct (t_id t =? 3) eqn:E3; [|discriminate]. intro H; inversion H; subst; clear H. intro P. exists (t_end t), (TEnd (t_end t)).
    cbn. rewrite E, E3. auto 10.
Qed.
Lemma flush_inv t t1 : flush_reference t = Some t1 -> exists l, t_out t1 = t_out t ++ map TChar l /\ t_state t1 = t_state t /\ t_return t1 = t_return t /\
  (forall g1, current_tag t1 = Some g1 -> exists g, current_tag t = Some g /\ g_name g1 = g_name g /\
     (settled (g_attributes g) -> settled (g_attributes g1))).
Proof.
  unfold flush_reference. destruct (t_tmp t) as [|c s] eqn:E.
  - intro H; inversion H; subst. exists []. rewrite app_nil_r. split; [auto|split; [auto|split; [auto|]]]. intros g1 G. exists g1. auto.
  - destruct (consumed_as_part_of_attribute t).
    + intro H. apply on_tag in H. destruct H as (g & g1 & G & F & G1 & O & S1 & R). exists []. rewrite app_nil_r.
      split; [exact O|split; [exact S1|split; [exact R|]]]. intros g2 G2. rewrite G1 in G2. inversion G2; subst g2; clear G2. exists g. split; [exact G|].
      destruct (map_last _ (g_attributes g)) as [l|] eqn:L; [|discriminate]. inversion F; subst. split; [reflexivity|]. cbn.
      destruct (map_last_some _ _ _ L) as (l0 & a & E1 & E2). rewrite E1, E2. now apply settled_last.
    + intro H; inversion H; subst. exists (c :: s). split; [reflexivity|]. split; [reflexivity|]. split; [reflexivity|].
      intros g G. exists g. auto.
Qed.
Lemma chars_ok l : Forall token_ok (map TChar l).
Proof. induction l; constructor; [exact I|assumption]. Qed.

(** what one character does *)
Definition tag_step (i : option Z) (r : option (tok * bool)) : Prop :=
  forall t1 b, r = Some (t1, b) -> Forall token_ok (t_out t1) /\ (b = true -> TagInv t1 i) /\ (b = false -> i <> None -> forall j, TagInv t1 j).
Lemma alpha_lower c : is_ascii_alpha c = true -> is_ascii_upper_alpha c = true -> name_start (c + 0x20).
Proof. unfold is_ascii_upper_alpha, name_start. lia. Qed.
Lemma alpha_low c : is_ascii_alpha c = true -> is_ascii_upper_alpha c = false -> name_start c.
Proof. unfold is_ascii_alpha, is_ascii_upper_alpha, is_ascii_lower_alpha, name_start. lia. Qed.
Lemma fffd_char : name_char 0xFFFD.
Proof. unfold name_char. lia. Qed.
Lemma upper_char c : is_ascii_upper_alpha c = true -> name_char (c + 0x20) /\ c + 0x20 <> 0x3D.
Proof. unfold is_ascii_upper_alpha, name_char. lia. Qed.
Lemma lower_char c : is_ascii_lower_alpha c = true -> name_char c.
Proof. unfold is_ascii_lower_alpha, name_char. lia. Qed.
Lemma other_char c : c <> 0xD -> is_space c = false -> (c =? 0x2F) = false -> (c =? 0x3E) = false -> (c =? 0) = false -> is_ascii_upper_alpha c = false -> name_char c.
Proof. unfold is_space, is_ascii_upper_alpha, name_char. lia. Qed.
Lemma name_push n s c d : name_inv n s (Some c) -> (is_ascii_alpha c = true -> name_start d) -> name_char d -> tag_name_ok (n ++ [d]).
Proof.
  intros [(x & r & -> & X & Rr)|(-> & _ & c' & E & A)] H1 H2.
  - exists x, (r ++ [d]). split; [reflexivity|]. split; [exact X|]. apply Forall_app. auto.
  - inversion E; subst c'. exists d, []. auto.
Qed.
Lemma attr_push n d : attr_name_ok n -> name_char d -> d <> 0x3D -> attr_name_ok (n ++ [d]).
Proof. intros (c & r & -> & C & Rr) H1 H2. exists c, (r ++ [d]). split; [reflexivity|]. split; [exact C|]. apply Forall_app. auto. Qed.
Lemma attr_one d : name_char d -> attr_name_ok ([] ++ [d]).
Proof. intro H. exists d, []. auto. Qed.
Lemma named_settled n s i : naming s = false -> name_inv n s i -> tag_name_ok n.
Proof. intros N [H|(_ & H & _)]; [exact H|congruence]. Qed.

Ltac unfolds H :=
  cbv beta delta [on_data on_RCDATA on_RAWTEXT on_script_data on_PLAINTEXT on_tag_open on_end_tag_open on_tag_name
    on_less_than_sign on_text_end_tag_open on_text_end_tag_name on_script_data_less_than_sign
    on_script_data_escape_start on_script_data_escape_start_dash on_script_data_escaped on_script_data_escaped_dash
    on_script_data_escaped_dash_dash on_script_data_escaped_less_than_sign on_script_data_double_escape
    on_script_data_double_escaped on_script_data_double_escaped_dash on_script_data_double_escaped_dash_dash
    on_script_data_double_escaped_less_than_sign on_before_attribute_name on_attribute_name on_after_attribute_name
    on_before_attribute_value on_attribute_value_quoted on_attribute_value_unquoted on_after_attribute_value_quoted
    on_self_closing_start_tag on_bogus_comment on_comment_start on_comment_start_dash on_comment
    on_comment_less_than_sign on_comment_less_than_sign_bang on_comment_less_than_sign_bang_dash
    on_comment_less_than_sign_bang_dash_dash on_comment_end_dash on_comment_end on_comment_end_bang on_DOCTYPE
    on_before_DOCTYPE_name on_DOCTYPE_name on_after_DOCTYPE_keyword on_before_DOCTYPE_identifier
    on_DOCTYPE_identifier on_after_DOCTYPE_public_identifier on_between_DOCTYPE_identifiers
    on_after_DOCTYPE_system_identifier on_bogus_DOCTYPE on_CDATA_section on_CDATA_section_bracket
    on_CDATA_section_end on_character_reference on_ambiguous_ampersand on_numeric_character_reference
    on_reference_start on_hexadecimal_character_reference on_decimal_character_reference
    stay go again again_return stay'] in H.

Ltac split_ifs H :=
  repeat (cbv beta iota zeta in H;
    match type of H with
    | context [if ?b then _ else _] => destruct b eqn:?
    | context [match ?e with Some _ => _ | None => _ end] => destruct e eqn:?
    end); try discriminate H.

(** the current tag is whole *)
Definition solid (t : tok) : Prop := forall g, current_tag t = Some g -> tag_ok g.
Lemma solid_inv g s j : s <> attribute_name_state -> tag_ok g -> name_inv (g_name g) s j /\ attr_inv (g_attributes g) s j.
Proof. intros N [H1 H2]. split; [now left|]. destruct s; try exact H2; [now elim N|now right]. Qed.
Lemma solid_all t : solid t -> t_state t <> attribute_name_state -> (forall s, t_return t = Some s -> plain_state s = true) ->
  Forall token_ok (t_out t) -> forall j, TagInv t j.
Proof. intros S1 N R O j. constructor; auto. intros g G. apply solid_inv; auto. Qed.
Lemma plain_solid t i : TagInv t i -> plain_state (t_state t) = true -> solid t.
Proof.
  intros K P g G. destruct (TI_tag _ _ K g G) as [Q1 Q2]. split.
  - eapply named_settled; [|exact Q1]. destruct (t_state t); try discriminate P; reflexivity.
  - destruct (t_state t); try discriminate P; exact Q2.
Qed.
Lemma left_solid t i : TagInv t i -> naming (t_state t) = true -> (forall c, i = Some c -> is_ascii_alpha c = false) -> solid t.
Proof.
  intros K P A g G. destruct (TI_tag _ _ K g G) as [Q1 Q2]. split.
  - destruct Q1 as [Q1|(_ & _ & c & E & Q1)]; [exact Q1|]. rewrite (A c E) in Q1. discriminate.
  - destruct (t_state t); try discriminate P; exact Q2.
Qed.
Lemma after_solid t c : TagInv t (Some c) -> t_state t = after_attribute_name_state -> solid t.
Proof.
  intros K P g G. destruct (TI_tag _ _ K g G) as [Q1 Q2]. rewrite P in *. split; [now apply (named_settled _ after_attribute_name_state (Some c))|].
  destruct Q2 as [Q2|Q2]; [discriminate|exact Q2].
Qed.
(** what becomes of the current tag *)
Record Kept (t t1 : tok) : Prop := MkKept { Kp_out : t_out t1 = t_out t; Kp_state : t_state t1 = t_state t; Kp_return : t_return t1 = t_return t }.
Lemma push_name_tag d t t1 c : push_tag_name d t = Some t1 -> TagInv t (Some c) -> naming (t_state t) = true ->
  (is_ascii_alpha c = true -> name_start d) -> name_char d -> solid t1 /\ Kept t t1.
Proof.
  intros H K P A D. apply on_tag in H. destruct H as (g & g1 & G & F & G1 & O & S1 & R). split; [|constructor; auto].
  intros g2 G2. rewrite G1 in G2. inversion G2; subst g2; clear G2. inversion F; subst g1; clear F. destruct (TI_tag _ _ K g G) as [Q1 Q2]. split; cbn.
  - eapply name_push; eassumption.
  - destruct (t_state t); try discriminate P; exact Q2.
Qed.
Lemma self_tag t t1 : set_self_closing t = Some t1 -> solid t -> solid t1 /\ Kept t t1.
Proof.
  intros H K. apply on_tag in H. destruct H as (g & g1 & G & F & G1 & O & S1 & R). split; [|constructor; auto].
  intros g2 G2. rewrite G1 in G2. inversion G2; subst g2; clear G2. inversion F; subst g1; clear F. exact (K g G).
Qed.
Lemma value_tag d t t1 : push_attribute_value d t = Some t1 -> solid t -> solid t1 /\ Kept t t1.
Proof.
  intros H K. apply on_tag in H. destruct H as (g & g1 & G & F & G1 & O & S1 & R). split; [|constructor; auto].
  intros g2 G2. rewrite G1 in G2. inversion G2; subst g2; clear G2. destruct (map_last _ (g_attributes g)) as [l|] eqn:L; [|discriminate].
  inversion F; subst g1; clear F. destruct (K g G) as [Q1 Q2]. split; [exact Q1|]. cbn.
  destruct (map_last_some _ _ _ L) as (l0 & a & E1 & E2). rewrite E1 in Q2. rewrite E2. now apply (settled_last l0 a).
Qed.
(** an attribute has been begun: nothing of its name has been read, or some of it *)
Definition begun (t : tok) (named : bool) : Prop := forall g, current_tag t = Some g -> tag_name_ok (g_name g) /\
  exists l a, g_attributes g = l ++ [a] /\ settled l /\ if named then attr_name_ok (a_name a) else a_name a = [].
Lemma begun_inv t b : begun t b -> t_state t = attribute_name_state -> (forall s, t_return t = Some s -> plain_state s = true) ->
  Forall token_ok (t_out t) -> forall j, (b = false -> exists c, j = Some c /\ fresh_char c) -> TagInv t j.
Proof.
  intros B Es R O j F. constructor; auto. intros g G. destruct (B g G) as (Q1 & l & a & Q2 & Q3 & Q4). rewrite Es. split; [now left|].
  exists l, a. split; [exact Q2|]. split; [exact Q3|]. destruct b; auto.
Qed.
Lemma inv_begun t c : TagInv t (Some c) -> t_state t = attribute_name_state -> begun t true \/
  (fresh_char c /\ forall g, current_tag t = Some g -> tag_name_ok (g_name g) /\ exists l a, g_attributes g = l ++ [a] /\ settled l /\ (attr_name_ok (a_name a) \/ a_name a = [])).
Proof.
  intros K Es. destruct (current_tag t) as [g|] eqn:G.
  - destruct (TI_tag _ _ K g G) as [Q1 Q2]. rewrite Es in *. destruct Q2 as (l & a & E1 & E2 & [E3|(E3 & c' & E4 & E5)]).
    + left. intros g' G'. rewrite G in G'. inversion G'; subst g'. split; [now apply (named_settled _ attribute_name_state (Some c))|]. exists l, a. auto.
    + right. inversion E4; subst c'. split; [exact E5|]. intros g' G'. inversion G'; subst g'.
      split; [now apply (named_settled _ attribute_name_state (Some c))|]. exists l, a. auto.
  - left. intros g' G'. congruence.
Qed.
Lemma create_tag t t1 : create_attribute t = Some t1 -> solid t -> begun t1 false /\ Kept t t1.
Proof.
  intros H K. apply on_tag in H. destruct H as (g & g1 & G & F & G1 & O & S1 & R). split; [|constructor; auto].
  intros g2 G2. rewrite G1 in G2. inversion G2; subst g2; clear G2. inversion F; subst g1; clear F. destruct (K g G) as [Q1 Q2]. cbn. split; [exact Q1|].
  exists (g_attributes g), attribute_clear. auto.
Qed.
Lemma push_attr_tag d t t1 : push_attribute_name d t = Some t1 -> name_char d ->
  (forall g, current_tag t = Some g -> tag_name_ok (g_name g) /\ exists l a, g_attributes g = l ++ [a] /\ settled l /\ ((attr_name_ok (a_name a) /\ d <> 0x3D) \/ a_name a = [])) ->
  begun t1 true /\ Kept t t1.
Proof.
  intros H D K. apply on_tag in H. destruct H as (g & g1 & G & F & G1 & O & S1 & R). split; [|constructor; auto].
  intros g2 G2. rewrite G1 in G2. inversion G2; subst g2; clear G2. destruct (map_last _ (g_attributes g)) as [l|] eqn:L; [|discriminate].
  inversion F; subst g1; clear F. destruct (K g G) as (Q1 & l1 & a1 & Q2 & Q3 & Q4). split; [exact Q1|]. cbn.
  destruct (map_last_some _ _ _ L) as (l0 & a & E1 & E2). rewrite Q2 in E1. apply app_inj_tail in E1. destruct E1 as [<- <-]. exists l1; eexists. split; [exact E2|].
  split; [exact Q3|]. cbn. destruct Q4 as [[Q4 Q5]|Q4]; [now apply attr_push|]. rewrite Q4. now apply attr_one.
Qed.
Lemma unify_tag t t1 : unify_attribute t = Some t1 -> begun t true -> solid t1 /\ Kept t t1.
Proof.
  intros H K. apply on_tag in H. destruct H as (g & g1 & G & F & G1 & O & S1 & R). split; [|constructor; auto].
  intros g2 G2. rewrite G1 in G2. inversion G2; subst g2; clear G2. cbv zeta in F. destruct (map_last _ (g_attributes g)) as [l|] eqn:L; [|discriminate].
  inversion F; subst g1; clear F. destruct (K g G) as (Q1 & l1 & a1 & Q2 & Q3 & Q4). split; [exact Q1|]. cbn.
  destruct (map_last_some _ _ _ L) as (l0 & a & E1 & E2). rewrite Q2 in E1. apply app_inj_tail in E1. destruct E1 as [<- <-]. rewrite E2, Q2.
  rewrite removelast_last, last_last. now apply settled_unify.
Qed.
Lemma emit_solid t t1 : emit_tag switch t = Some t1 -> plain_state (t_state t) = true -> solid t -> (forall s, t_return t = Some s -> plain_state s = true) ->
  Forall token_ok (t_out t) -> forall j, TagInv t1 j.
Proof.
  intros H P S1 R O j. destruct (emit_tag_inv t t1 H P) as (g & k & G & Ou & Hk & G1 & R1 & P1). apply solid_all.
  - intros g' G'. rewrite G1 in G'. inversion G'; subst g'. exact (S1 g G).
  - intro E. rewrite E in P1. discriminate.
  - rewrite R1. exact R.
  - rewrite Ou. apply Forall_app. split; [exact O|]. constructor; [|constructor]. destruct Hk as [-> | ->]; exact (S1 g G).
Qed.
Lemma flush_solid t t1 : flush_reference t = Some t1 -> solid t -> Forall token_ok (t_out t) -> solid t1 /\ t_state t1 = t_state t /\ t_return t1 = t_return t /\
  Forall token_ok (t_out t1).
Proof.
  intros H S1 O. destruct (flush_inv t t1 H) as (l & Ou & Es & R & G). split; [|split; [exact Es|split; [exact R|]]].
  - intros g1 G1. destruct (G g1 G1) as (g & Hg & N & A). destruct (S1 g Hg) as [Q1 Q2]. split; [now rewrite N|auto].
  - rewrite Ou. apply Forall_app. split; [exact O|apply chars_ok].
Qed.
Lemma return_solid t t1 : to_return t = Some t1 -> solid t -> (forall s, t_return t = Some s -> plain_state s = true) -> Forall token_ok (t_out t) ->
  forall j, TagInv t1 j.
Proof.
  unfold to_return. intros H S1 R O j. destruct (t_return t) as [s|] eqn:E; [|discriminate]. inversion H; subst t1; clear H. apply solid_all.
  - exact S1.
  - cbn. intro Q. specialize (R s eq_refl). rewrite Q in R. discriminate.
  - cbn. rewrite E. exact R.
  - exact O.
Qed.
Lemma done t1 i (b : bool) : (forall j, TagInv t1 j) ->
  Forall token_ok (t_out t1) /\ (b = true -> TagInv t1 i) /\ (b = false -> i <> None -> forall j, TagInv t1 j).
Proof. intro H. split; [apply (H None)|]. auto. Qed.
Lemma not_alpha c : is_space c = true \/ (c =? 0x2F) = true \/ (c =? 0x3E) = true \/ (is_ascii_upper_alpha c = false /\ is_ascii_lower_alpha c = false) ->
  is_ascii_alpha c = false.
Proof. unfold is_ascii_alpha, is_space, is_ascii_upper_alpha, is_ascii_lower_alpha. lia. Qed.

Ltac outs := repeat first [ assumption | apply chars_ok | apply Forall_app; split | apply Forall_nil | apply Forall_cons; [exact Logic.I|] ].
(** nothing about the current tag changes *)
Ltac state_now Es :=
  lazymatch goal with |- name_inv _ ?s _ /\ attr_inv _ _ _ =>
    let s' := eval cbn in s in change s with s'; try rewrite Es; lazymatch goal with |- name_inv ?n _ ?i /\ attr_inv ?l ?s1 ?j => change (name_inv n s1 i /\ attr_inv l s1 j) end end.
Ltac flat K Es H t1 b :=
  inversion H; subst t1 b; clear H; split; [cbn; outs; apply K|split; [intros E0; try discriminate E0|intros E0 NN; try discriminate E0; try (now elim NN); intro j];
    (constructor; [|first [apply K|cbn; intros s0 Hs0; inversion Hs0; subst s0; reflexivity]|cbn; outs; apply K];
     intros g Hg; pose proof (TI_tag _ _ K g Hg) as Q; rewrite Es in Q; state_now Es; first [exact Q|eapply plain_inv; [reflexivity| |exact Q]; reflexivity])].
Ltac num := unfold fresh_char, is_ascii_alpha, is_ascii_upper_alpha, is_ascii_lower_alpha, is_space, name_start, name_char in *; lia.
Lemma ordinary_tags t i : TagInv t i -> i <> Some 0xD -> tag_step i (ordinary switch t i).
Proof.
  intros K CR t1 b H. unfold ordinary in H.
  destruct (t_state t) eqn:Es; try discriminate H; unfolds H; destruct i as [c|]; split_ifs H;
    try (flat K Es H t1 b; fail).
  all: inversion H; subst t1 b; clear H.
  all: pose proof (TI_return _ _ K) as KR; pose proof (TI_out _ _ K) as KO.
  (* a tag begins *)
  all: try (split; [cbn; exact KO|split; [intros _|discriminate]]; constructor; [|exact KR|exact KO]; intros g Hg; inversion Hg; subst g;
    split; [right; split; [reflexivity|split; [reflexivity|eauto]]|exact settled_nil]; fail).
  (* its name ends *)
  all: try (apply done; intro j; apply solid_all; [|cbn; discriminate|exact KR|cbn; outs; exact KO]; apply (left_solid t _ K); [now rewrite Es|];
    intros c0 Hc; inversion Hc; try subst c0; apply not_alpha; auto; fail).
  all: try match goal with E : emit_tag switch _ = Some _ |- _ => apply done; intro j; apply (emit_solid _ _ E); [reflexivity| |exact KR|exact KO];
    first [apply (left_solid t _ K); [now rewrite Es|]; intros c0 Hc; inversion Hc; try subst c0; apply not_alpha; auto; fail
          |apply (plain_solid t _ K); now rewrite Es|apply (after_solid t _ K); exact Es] end.
  (* its name goes on *)
  all: try match goal with E : push_tag_name ?d _ = Some ?t0 |- _ =>
    assert (c <> 0xD) by congruence;
    assert (Q : solid t0 /\ Kept t t0) by (apply (push_name_tag d t t0 c E K); [now rewrite Es|now num|now num]);
    destruct Q as [Q1 [Q2 Q3 Q4]]; apply done; intro j; apply solid_all; [exact Q1|cbn; rewrite Q3, Es; discriminate|cbn; rewrite Q4; exact KR|cbn; rewrite Q2; exact KO] end.
  (* values and references *)
  all: try match goal with E : push_attribute_value ?d _ = Some ?t0 |- _ =>
    destruct (value_tag d t t0 E) as [Q1 [Q2 Q3 Q4]]; [apply (plain_solid t _ K); now rewrite Es|];
    apply done; intro j; apply solid_all; [exact Q1|cbn; rewrite Q3, Es; discriminate|cbn; rewrite Q4; exact KR|cbn; rewrite Q2; exact KO] end.
  all: try match goal with E : flush_reference ?x = Some ?t0 |- _ =>
    destruct (flush_solid x t0 E) as (Q1 & Q3 & Q4 & Q2); [apply (plain_solid t _ K); now rewrite Es|exact KO|] end.
  all: try match goal with E : to_return ?x = Some ?t2 |- _ =>
    apply done; intro j; apply (return_solid x t2 E); first [assumption|rewrite Q4; exact KR|exact KR|exact KO|apply (plain_solid t _ K); now rewrite Es] end.
  all: try match goal with E : set_self_closing _ = Some ?t0, E1 : emit_tag switch _ = Some _ |- _ =>
    destruct (self_tag t t0 E) as [Q1 [Q2 Q3 Q4]]; [apply (plain_solid t _ K); now rewrite Es|];
    apply done; intro j; apply (emit_solid _ _ E1); [reflexivity|exact Q1|cbn; rewrite Q4; exact KR|cbn; rewrite Q2; exact KO] end.
  (* attributes *)
  all: try (apply done; intro j; apply solid_all; [first [apply (after_solid t _ K Es)|apply (plain_solid t _ K); now rewrite Es]|cbn; rewrite ?Es; discriminate|exact KR|exact KO]; fail).
  all: try match goal with E : create_attribute _ = Some ?t0, E1 : push_attribute_name _ ?t0 = Some ?t2 |- _ =>
    destruct (create_tag t t0 E) as [B1 [B2 B3 B4]]; [apply (plain_solid t _ K); now rewrite Es|];
    destruct (push_attr_tag c t0 t2 E1) as [Q1 [Q2 Q3 Q4]];
      [now num|intros g Hg; destruct (B1 g Hg) as (D1 & l & a & D2 & D3 & D4); split; [exact D1|]; exists l, a; auto|];
    apply done; intro j; apply (begun_inv (set_state attribute_name_state t2) true); [exact Q1|reflexivity|cbn; rewrite Q4, B4; exact KR|cbn; rewrite Q2, B2; exact KO|discriminate] end.
  all: try match goal with E : create_attribute _ = Some ?t0 |- _ =>
    destruct (create_tag t t0 E) as [B1 [B2 B3 B4]]; [first [apply (after_solid t _ K Es)|apply (plain_solid t _ K); now rewrite Es]|];
    split; [cbn; rewrite B2; exact KO|split; [intros _|discriminate]];
    apply (begun_inv (set_state attribute_name_state t0) false); [exact B1|reflexivity|cbn; rewrite B4; exact KR|cbn; rewrite B2; exact KO|];
    intros _; exists c; split; [reflexivity|]; unfold fresh_char; split; [assumption|]; lia end.
  all: try match goal with E : unify_attribute _ = Some ?t0 |- _ =>
    destruct (unify_tag t t0 E) as [Q1 [Q2 Q3 Q4]]; [destruct (inv_begun t c K Es) as [B|[B _]]; [exact B|exfalso; now num]|];
    apply done; intro j; apply solid_all; [exact Q1|cbn; discriminate|cbn; rewrite Q4; exact KR|cbn; rewrite Q2; exact KO] end.
  1-3: assert (H0 : c <> 0xD) by congruence.
  1: assert (D : name_char 0xFFFD /\ 0xFFFD <> 0x3D) by now num.
  2: assert (D : name_char (c + 0x20) /\ c + 0x20 <> 0x3D) by now num.
  3: assert (D : name_char c /\ c <> 0x3D) by now num.
  1-3: destruct D as [D D']; destruct (push_attr_tag _ t t0 Heqo D) as [Q1 [Q2 Q3 Q4]];
    [destruct (inv_begun t c K Es) as [B|[_ B]]; intros g Hg; destruct (B g Hg) as (D1 & l & a & D2 & D3 & D4); (split; [exact D1|]); exists l, a; intuition|];
    apply done; intro j; apply (begun_inv t0 true); [exact Q1|now rewrite Q3|rewrite Q4; exact KR|rewrite Q2; exact KO|discriminate].
  split; [exact KO|split; [intros _|discriminate]]. constructor; [|exact KR|exact KO]. intros g Hg. destruct (TI_tag _ _ K g Hg) as [Q1 _]. rewrite Es in Q1.
  split; [left; now apply (named_settled _ attribute_name_state None)|now left].
Qed.

Variable cdata : list token -> bool.
Variable ncr : list Z -> option (nat * list Z).
Lemma skipn_in {A} (x : A) n l : In x (skipn n l) -> In x l.
Proof. intro H. rewrite <- (firstn_skipn n l). apply in_or_app. now right. Qed.
Lemma pstep_tags t rest : TagInv t (hd_error rest) -> ~ In 0xD rest ->
  match pstep switch cdata ncr t rest with
  | Some (Next t1 r1) => TagInv t1 (hd_error r1) /\ ~ In 0xD r1
  | Some (Halt t1) => Forall token_ok (t_out t1)
  | None => True
  end.
Proof.
  intros K N. assert (NS : forall n, ~ In 0xD (skipn n rest)) by (intros n H; apply N; eapply skipn_in; exact H).
  pose proof (TI_return _ _ K) as KR. pose proof (TI_out _ _ K) as KO.
  destruct (t_state t) eqn:Es.
  all: try match type of Es with _ = markup_declaration_open_state =>
    assert (S1 : solid t) by (apply (plain_solid t _ K); now rewrite Es);
    unfold pstep; rewrite Es; repeat match goal with |- context [if ?b then _ else _] => destruct b end;
    (split; [apply solid_all; [exact S1|cbn; discriminate|exact KR|exact KO]|auto]) end.
  all: try match type of Es with _ = after_DOCTYPE_name_state =>
    assert (S1 : solid t) by (apply (plain_solid t _ K); now rewrite Es);
    unfold pstep; rewrite Es; destruct rest as [|c r]; [cbn; outs; exact KO|];
    assert (NR : ~ In 0xD r) by (intro; apply N; now right);
    repeat match goal with |- context [if ?b then _ else _] => destruct b end;
    (split; [apply solid_all; [exact S1|cbn; rewrite ?Es; discriminate|exact KR|cbn; outs; exact KO]|auto]) end.
  all: try match type of Es with _ = numeric_character_reference_end_state =>
    assert (S1 : solid t) by (apply (plain_solid t _ K); now rewrite Es);
    unfold pstep; rewrite Es;
    destruct (flush_reference (set_tmp [reference_code (t_code t)] (set_code (reference_code (t_code t)) t))) as [t1|] eqn:E1; [|exact Logic.I];
    destruct (flush_solid _ t1 E1 S1 KO) as (Q1 & Q2 & Q3 & Q4);
    destruct (to_return t1) as [t2|] eqn:E2; [|exact Logic.I];
    split; [apply (return_solid t1 t2 E2 Q1); [rewrite Q3; exact KR|exact Q4]|exact N] end.
  all: try match type of Es with _ = named_character_reference_state =>
    assert (S1 : solid t) by (apply (plain_solid t _ K); now rewrite Es);
    unfold pstep; rewrite Es; destruct (ncr rest) as [[len a]|]; [|exact Logic.I]; destruct len as [|k];
    [destruct (flush_reference t) as [t1|] eqn:E1; [|exact Logic.I];
     destruct (flush_solid _ t1 E1 S1 KO) as (Q1 & Q2 & Q3 & Q4);
     split; [apply solid_all; [exact Q1|cbn; discriminate|cbn; rewrite Q3; exact KR|exact Q4]|exact N]
    |destruct (nth_error rest k) as [tail|]; [|exact Logic.I]; cbv zeta;
     match goal with |- context [flush_reference ?x] => destruct (flush_reference x) as [t3|] eqn:E1; [|exact Logic.I] end;
     assert (Q : solid t3 /\ t_return t3 = t_return t /\ Forall token_ok (t_out t3)) by
       (revert E1; match goal with |- context [if ?b then _ else _] => destruct b end; intro E1;
        destruct (flush_solid _ t3 E1 S1 KO) as (Q1 & Q2 & Q3 & Q4); auto);
     destruct Q as (Q1 & Q3 & Q4);
     destruct (to_return t3) as [t4|] eqn:E2; [|exact Logic.I];
     split; [apply (return_solid t3 t4 E2 Q1); [rewrite Q3; exact KR|exact Q4]|apply NS]] end.
  all: unfold pstep; rewrite Es; destruct rest as [|c r];
    [pose proof (ordinary_tags t None K ltac:(discriminate)) as Q; destruct (ordinary switch t None) as [[t1 [|]]|]; [|exact (proj1 (Q t1 false eq_refl))|exact Logic.I];
     split; [exact (proj1 (proj2 (Q t1 true eq_refl)) eq_refl)|exact N]
    |assert (NC : Some c <> Some 0xD) by (intro Q; inversion Q; apply N; now left);
     assert (NR : ~ In 0xD r) by (intro; apply N; now right);
     pose proof (ordinary_tags t (Some c) K NC) as Q; destruct (ordinary switch t (Some c)) as [[t1 [|]]|]; [| |exact Logic.I];
     [split; [exact (proj1 (proj2 (Q t1 true eq_refl)) eq_refl)|exact N]
     |split; [exact (proj2 (proj2 (Q t1 false eq_refl)) eq_refl ltac:(discriminate) _)|exact NR]]].
Qed.
Lemma phalts_tags t rest t' : TagInv t (hd_error rest) -> ~ In 0xD rest -> phalts switch cdata ncr t rest t' -> Forall token_ok (t_out t').
Proof.
  intros K N (t1 & r1 & P & H). revert K N H. induction P as [|t r t1 r1 t2 r2 E P IH]; intros K N H.
  - pose proof (pstep_tags t r K N) as Q. rewrite H in Q. exact Q.
  - pose proof (pstep_tags t r K N) as Q. rewrite E in Q. destruct Q as [Q1 Q2]. exact (IH Q1 Q2 H).
Qed.
End Tags.

Lemma init_tags j : TagInv tok_init j.
Proof. constructor; [intros g H; discriminate|discriminate|constructor]. Qed.

(** Every tag that is emitted is well named. *)
Theorem tokenize_tags switch cdata text fuel : text_switch switch -> (forall p s, newlines text = p ++ 0x26 :: s -> match_ncr s <> None) ->
  (forall p s, newlines text <> p ++ 0x26 :: 0x23 :: s) -> last text 0 <> 0xD -> fuel_for fuel text ->
  exists l, tokenize switch cdata match_ncr fuel tok_init text = Val (l ++ [TEof]) /\ ~ In TEof l /\ Forall token_ok l.
Proof.
  intros Sw H N L F. destruct (tokenize_once switch Sw cdata text fuel H N L F) as (l & E & Ne). exists l. split; [exact E|split; [exact Ne|]].
  destruct (init_halts switch Sw cdata _ H) as (t' & Ht). destruct (tokenize_reads switch Sw cdata fuel tok_init text t' I Ht F) as (l' & E' & K).
  specialize (K (init_numfree switch Sw cdata _ H N) L).
  pose proof (phalts_tags switch Sw cdata match_ncr tok_init _ t' (init_tags _) (newlines_nocr text) Ht) as Q.
  rewrite E' in E. rewrite K in E. inversion E as [E2]. rewrite E2 in Q. apply Forall_app in Q. apply Q.
Qed.
