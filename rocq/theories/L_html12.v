(** The tags that are emitted stand in the text. *)
From Coq Require Import ZArith List Bool Lia String.
From Verif Require Import M_infra M_encoding M_labels M_html M_html_ncr M_html_serialize L_html_names L_html1 L_html2 L_html5 L_html3 L_html4 L_html6 L_html7 L_html8 L_html9 L_html10 L_html11.
Import ListNotations.
Open Scope Z_scope.
Open Scope html_scope.

(** how a character is put into the name of a tag *)
Definition low (c : Z) : Z := if c =? 0 then 0xFFFD else if (0x41 <=? c) && (c <=? 0x5A) then c + 0x20 else c.
Definition letter (c : Z) : bool := ((0x41 <=? c) && (c <=? 0x5A)) || ((0x61 <=? c) && (c <=? 0x7A)).
(** the name stands in the text behind the opening, and no letter comes next *)
Definition spelled (text opening name : list Z) : Prop :=
  exists p w c r, text = p ++ opening ++ w ++ c :: r /\ map low w = name /\ letter c = false.
Definition token_spelled (text : list Z) (k : token) : Prop :=
  match k with TStart g => spelled text (lit "<") (g_name g) | TEnd g => spelled text (lit "</") (g_name g) | _ => True end.

Definition opening (t : tok) : list Z := if t_id t =? 2 then lit "<" else lit "</".
Definition tag_name (t : tok) : option (list Z * list Z) := match current_tag t with Some g => Some (opening t, g_name g) | None => None end.
(** states behind an opening *)
Definition opened (s : state) : option (list Z) :=
  match s with
  | tag_open_state | RCDATA_less_than_sign_state | RAWTEXT_less_than_sign_state | script_data_less_than_sign_state
  | script_data_escaped_less_than_sign_state => Some (lit "<")
  | end_tag_open_state | RCDATA_end_tag_open_state | RAWTEXT_end_tag_open_state | script_data_end_tag_open_state
  | script_data_escaped_end_tag_open_state => Some (lit "</")
  | _ => None
  end.
Definition quiet (s : state) : bool := negb (naming s) && match opened s with None => true | _ => false end.

Record TextInv (text : list Z) (t : tok) (p rest : list Z) : Prop := MkTextInv {
  X_text : text = p ++ rest;
  X_open : match opened (t_state t) with Some o => exists q, p = q ++ o | None => True end;
  X_name : if naming (t_state t) then forall o n, tag_name t = Some (o, n) -> exists q w, p = q ++ o ++ w /\ map low w = n
           else rest = [] \/ forall o n, tag_name t = Some (o, n) -> spelled text o n;
  X_return : forall s, t_return t = Some s -> quiet s = true;
  X_out : Forall (token_spelled text) (t_out t) }.

Lemma named_on f t t1 : on_current_tag f t = Some t1 -> (forall g g1, f g = Some g1 -> g_name g1 = g_name g) ->
  tag_name t1 = tag_name t /\ t_out t1 = t_out t /\ t_state t1 = t_state t /\ t_return t1 = t_return t.
Proof.
  unfold on_current_tag. destruct (current_tag t) as [g|] eqn:E; [|discriminate]. destruct (f g) as [g1|] eqn:F; [|discriminate].
  intros H K; inversion H; subst. specialize (K g g1 F). unfold tag_name. rewrite E. unfold current_tag, set_current_tag, opening in *.
  destruct (t_id t =? 2) eqn:E2; cbn; rewrite ?E2; [rewrite K; auto|]. destruct (t_id t =? 3) eqn:E3; [rewrite K; auto|]. discriminate E.
Qed.
Record Quiet (t t1 : tok) : Prop := MkQuiet {
  Q_name : tag_name t1 = tag_name t; Q_out : t_out t1 = t_out t; Q_state : t_state t1 = t_state t; Q_return : t_return t1 = t_return t }.
Lemma quiet_on f t t1 : on_current_tag f t = Some t1 -> (forall g g1, f g = Some g1 -> g_name g1 = g_name g) -> Quiet t t1.
Proof. intros H K. destruct (named_on f t t1 H K) as (A & B & C & D). now constructor. Qed.
Ltac same_name := intros g g1 F; cbv beta zeta in F; repeat match type of F with context [match ?e with Some _ => _ | None => _ end] => destruct e end; inversion F; reflexivity.
Lemma quiet_self t t1 : set_self_closing t = Some t1 -> Quiet t t1.
Proof. intro H. eapply quiet_on; [exact H|same_name]. Qed.
Lemma quiet_create t t1 : create_attribute t = Some t1 -> Quiet t t1.
Proof. intro H. eapply quiet_on; [exact H|same_name]. Qed.
Lemma quiet_push d t t1 : push_attribute_name d t = Some t1 -> Quiet t t1.
Proof. intro H. eapply quiet_on; [exact H|same_name]. Qed.
Lemma quiet_value d t t1 : push_attribute_value d t = Some t1 -> Quiet t t1.
Proof. intro H. eapply quiet_on; [exact H|same_name]. Qed.
Lemma quiet_unify t t1 : unify_attribute t = Some t1 -> Quiet t t1.
Proof. intro H. eapply quiet_on; [exact H|same_name]. Qed.
Lemma flush_name t t1 : flush_reference t = Some t1 -> tag_name t1 = tag_name t /\ t_state t1 = t_state t /\ t_return t1 = t_return t /\
  exists l, t_out t1 = t_out t ++ map TChar l.
Proof.
  unfold flush_reference. destruct (t_tmp t) as [|c s] eqn:E.
  - intro H; inversion H; subst. split; [auto|split; [auto|split; [auto|]]]. exists []. now rewrite app_nil_r.
  - destruct (consumed_as_part_of_attribute t).
    + intro H. apply quiet_on in H; [|same_name]. destruct H as [A B C D]. split; [exact A|split; [exact C|split; [exact D|]]].
      exists []. now rewrite app_nil_r.
    + intro H; inversion H; subst. split; [reflexivity|]. split; [reflexivity|]. split; [reflexivity|]. now exists (c :: s).
Qed.
Lemma chars_spelled text l : Forall (token_spelled text) (map TChar l).
Proof. induction l; constructor; [exact I|assumption]. Qed.
Lemma push_spelled d t t1 : push_tag_name d t = Some t1 -> (forall o n, tag_name t1 = Some (o, n) -> exists m, n = m ++ [d] /\ tag_name t = Some (o, m)) /\
  t_out t1 = t_out t /\ t_state t1 = t_state t /\ t_return t1 = t_return t.
Proof.
  unfold push_tag_name, on_current_tag. destruct (current_tag t) as [g|] eqn:E; [|discriminate]. intro H; inversion H; subst; clear H.
  unfold tag_name. rewrite E. unfold current_tag, set_current_tag, opening in *. destruct (t_id t =? 2) eqn:E2; cbn; rewrite ?E2.
  - split; [|auto]. intros o n H. inversion H; subst. eauto.
  - destruct (t_id t =? 3) eqn:E3; [|discriminate E]. split; [|auto]. intros o n H. inversion H; subst. eauto.
Qed.

Section Spelled.
Variable switch : list token -> option state.
Hypothesis switch_text : text_switch switch.
Variable text : list Z.

Lemma emit_spelled t t1 : emit_tag switch t = Some t1 -> quiet (t_state t) = true ->
  (forall o n, tag_name t = Some (o, n) -> spelled text o n) -> Forall (token_spelled text) (t_out t) ->
  quiet (t_state t1) = true /\ tag_name t1 = tag_name t /\ t_return t1 = t_return t /\ Forall (token_spelled text) (t_out t1).
Proof.
  unfold emit_tag, tag_name, current_tag, opening. destruct (t_id t =? 2) eqn:E.
  - intros H Q S1 O; inversion H; subst; clear H. specialize (S1 _ _ eq_refl).
    assert (O1 : Forall (token_spelled text) (t_out t ++ [TStart (t_start t)])) by (apply Forall_app; split; [exact O|constructor; [exact S1|constructor]]).
    destruct (switch _) as [s|] eqn:Es; cbn; rewrite E; (split; [|split; [reflexivity|split; [reflexivity|exact O1]]]).
    + destruct (switch_text _ _ Es) as [->|[->|[->| ->]]]; reflexivity.
    + exact Q.
  - destruct (t_id t =? 3) eqn:E3; [|discriminate]. intros H Q S1 O; inversion H; subst; clear H. specialize (S1 _ _ eq_refl).
    assert (O1 : Forall (token_spelled text) (t_out t ++ [TEnd (t_end t)])) by (apply Forall_app; split; [exact O|constructor; [exact S1|constructor]]).
    cbn. rewrite E, E3. auto.
Qed.

Lemma quiet_text t p rest : text = p ++ rest -> quiet (t_state t) = true -> (rest = [] \/ forall o n, tag_name t = Some (o, n) -> spelled text o n) ->
  (forall s, t_return t = Some s -> quiet s = true) -> Forall (token_spelled text) (t_out t) -> TextInv text t p rest.
Proof.
  intros E Q N R O. unfold quiet in Q. apply andb_prop in Q. destruct Q as [Q1 Q2]. apply negb_true_iff in Q1.
  constructor; auto; [|now rewrite Q1]. destruct (opened (t_state t)); [discriminate|exact I].
Qed.

Ltac unfolds H :=
  cbv beta delta [on_data on_RCDATA on_RAWTEXT on_script_data on_PLAINTEXT on_tag_open on_end_tag_open on_tag_name
    on_less_than_sign on_text_end_tag_open on_text_end_tag_name on_script_data_less_than_sign
    on_script_data_escape_start on_script_data_escape_start_dash on_script_data_escaped on_script_data_escaped_dash
    on_script_data_escaped_dash_dash on_script_data_escaped_less_than_sign on_script_data_double_escape
    on_script_data_double_escaped on_script_data_double_escaped_dash on_script_data_double_escaped_dash_dash
    on_script_data_double_escaped_less_than_sign on_before_attribute_name on_attribute_name on_after_attribute_name
    on_before_attribute_value on_attribute_value_quoted on_attribute_value_unquoted on_after_attribute_value_quoted
    on_self_closing_start_tag on_bogus_comment on_comment_start on_comment_start_dash on_comment
    on_comment_less_than_sign on_comment_less_than_sign_bang on_comment_less_than_sign_bang_dash
    on_comment_less_than_sign_bang_dash_dash on_comment_end_dash on_comment_end on_comment_end_bang on_DOCTYPE
    on_before_DOCTYPE_name on_DOCTYPE_name on_after_DOCTYPE_keyword on_before_DOCTYPE_identifier
    on_DOCTYPE_identifier on_after_DOCTYPE_public_identifier on_between_DOCTYPE_identifiers
    on_after_DOCTYPE_system_identifier on_bogus_DOCTYPE on_CDATA_section on_CDATA_section_bracket
    on_CDATA_section_end on_character_reference on_ambiguous_ampersand on_numeric_character_reference
    on_reference_start on_hexadecimal_character_reference on_decimal_character_reference
    stay go again again_return stay'] in H.

Ltac split_ifs H :=
  repeat (cbv beta iota zeta in H;
    match type of H with
    | context [if ?b then _ else _] => destruct b eqn:?
    | context [match ?e with Some _ => _ | None => _ end] => destruct e eqn:?
    end); try discriminate H.

Ltac outs := repeat first [ assumption | apply chars_spelled | apply Forall_app; split | apply Forall_nil | apply Forall_cons; [exact Logic.I|] ].
Ltac quiet_now Es := cbn; rewrite ?Es; reflexivity.
Ltac return_now KR := first [exact KR|cbn; intros s0 Hs0; inversion Hs0; subst s0; reflexivity].

Lemma name_ends t p c r : TextInv text t p (c :: r) -> naming (t_state t) = true -> letter c = false ->
  forall o n, tag_name t = Some (o, n) -> spelled text o n.
Proof.
  intros K P L o n H. pose proof (X_name _ _ _ _ K) as N. rewrite P in N. destruct (N o n H) as (q & w & E & M).
  exists q, w, c, r. split; [|auto]. rewrite (X_text _ _ _ _ K), E, <- !app_assoc. reflexivity.
Qed.
Lemma name_goes t p c r d t1 : TextInv text t p (c :: r) -> naming (t_state t) = true -> push_tag_name d t = Some t1 -> low c = d ->
  TextInv text t1 (p ++ [c]) r.
Proof.
  intros K P H L. pose proof (X_name _ _ _ _ K) as N. rewrite P in N. destruct (push_spelled d t t1 H) as (Q1 & Q2 & Q3 & Q4).
  constructor.
  - rewrite (X_text _ _ _ _ K), <- app_assoc. reflexivity.
  - rewrite Q3. destruct (t_state t); try discriminate P; exact I.
  - rewrite Q3, P. intros o n Hn. destruct (Q1 o n Hn) as (m & -> & Hm). destruct (N o m Hm) as (q & w & E & M).
    exists q, (w ++ [c]). split; [rewrite E, <- !app_assoc; reflexivity|]. rewrite map_app, M. cbn. now rewrite L.
  - rewrite Q4. apply K.
  - rewrite Q2. apply K.
Qed.
Lemma low_upper c : is_ascii_upper_alpha c = true -> low c = c + 0x20.
Proof. unfold is_ascii_upper_alpha, low. intro H. destruct (c =? 0) eqn:E; [lia|]. destruct ((65 <=? c) && (c <=? 90)) eqn:F; [reflexivity|lia]. Qed.
Lemma low_lower c : is_ascii_lower_alpha c = true -> low c = c.
Proof. unfold is_ascii_lower_alpha, low. intro H. destruct (c =? 0) eqn:E; [lia|]. destruct ((65 <=? c) && (c <=? 90)) eqn:F; [lia|reflexivity]. Qed.
Lemma low_other c : (c =? 0) = false -> is_ascii_upper_alpha c = false -> low c = c.
Proof. unfold is_ascii_upper_alpha, low. intros -> H. destruct ((65 <=? c) && (c <=? 90)) eqn:F; [lia|reflexivity]. Qed.
Lemma no_letter c : is_space c = true \/ (c =? 0x2F) = true \/ (c =? 0x3E) = true \/ (is_ascii_upper_alpha c = false /\ is_ascii_lower_alpha c = false) ->
  letter c = false.
Proof. unfold letter, is_space, is_ascii_upper_alpha, is_ascii_lower_alpha. lia. Qed.

Lemma ordinary_text t p rest t1 b : TextInv text t p rest -> ordinary switch t (hd_error rest) = Some (t1, b) ->
  match rest with
  | [] => Forall (token_spelled text) (t_out t1) /\ (b = true -> TextInv text t1 p [])
  | c :: r => if b then TextInv text t1 p (c :: r) else TextInv text t1 (p ++ [c]) r
  end.
Proof.
  intros K H. pose proof (X_text _ _ _ _ K) as KT. pose proof (X_open _ _ _ _ K) as KS. pose proof (X_name _ _ _ _ K) as KN.
  pose proof (X_return _ _ _ _ K) as KR. pose proof (X_out _ _ _ _ K) as KO. unfold ordinary in H.
  assert (KT1 : forall c r, rest = c :: r -> text = (p ++ [c]) ++ r) by (intros c r ->; rewrite KT, <- app_assoc; reflexivity).
  destruct (t_state t) eqn:Es; try discriminate H; unfolds H; (destruct rest as [|c r]; cbn [hd_error] in H;
    [|specialize (KT1 c r eq_refl)]); split_ifs H; cbn [naming opened] in KN, KS.
  (* at the end of the text *)
  all: try (inversion H; subst t1 b; clear H; split; [cbn; outs|intro Hb; try discriminate Hb];
    (apply quiet_text; [exact KT|quiet_now Es|now left|return_now KR|cbn; outs]); fail).
  (* nothing happens to the tag *)
  all: try (destruct KN as [KN|KN]; [discriminate KN|]; inversion H; subst t1 b; clear H; cbv iota;
    apply quiet_text; [first [exact KT|exact KT1]|quiet_now Es|right; first [exact KN|intros o0 n0 Hn; discriminate Hn]|return_now KR|cbn; outs]; fail).
  (* an opening *)
  all: try (destruct KN as [KN|KN]; [discriminate KN|]; inversion H; subst t1 b; clear H; cbv iota;
    constructor; [exact KT1| |right; exact KN|exact KR|exact KO]; cbn [opened t_state set_state];
    match goal with E : (_ =? _) = true |- _ => apply Z.eqb_eq in E; subst c end;
    first [now exists p|destruct KS as [q ->]; exists q; rewrite <- app_assoc; reflexivity]; fail).
  (* a tag begins *)
  all: try (inversion H; subst t1 b; clear H; cbv iota; constructor; [exact KT|exact Logic.I| |exact KR|exact KO];
    cbn [naming t_state set_state]; intros o n Hn; cbn in Hn; inversion Hn; subst o n; destruct KS as [q ->]; exists q, []; split; [reflexivity|reflexivity]; fail).
  (* its name ends *)
  all: try (assert (KE : forall o n, tag_name t = Some (o, n) -> spelled text o n) by
      (apply (name_ends t p c r K); [now rewrite Es|apply no_letter; auto]);
    first [inversion H; subst t1 b; clear H; cbv iota;
           apply quiet_text; [first [exact KT|exact KT1]|quiet_now Es|right; exact KE|exact KR|cbn; outs]
          |match goal with E : emit_tag switch _ = Some ?t2 |- _ =>
             destruct (emit_spelled _ t2 E) as (E1 & E2 & E3 & E4); [reflexivity|exact KE|exact KO|];
             inversion H; subst t1 b; clear H; cbv iota;
             apply quiet_text; [exact KT1|exact E1|right; rewrite E2; exact KE|rewrite E3; exact KR|exact E4] end]; fail).
  (* its name goes on *)
  all: try match goal with E : push_tag_name ?d _ = Some ?t2 |- _ =>
    assert (G : TextInv text t2 (p ++ [c]) r) by
      (apply (name_goes t p c r d t2 K); [now rewrite Es|exact E|first [now apply low_upper|now apply low_lower|now apply low_other|
         match goal with E0 : (_ =? 0) = true |- _ => apply Z.eqb_eq in E0; subst c; reflexivity end]]);
    inversion H; subst t1 b; clear H; cbv iota; destruct G; constructor; assumption end.
  (* its attributes *)
  all: try match goal with E : create_attribute _ = Some ?t0, E1 : push_attribute_name _ ?t0 = Some ?t2 |- _ =>
    destruct KN as [KN|KN]; [discriminate KN|]; destruct (quiet_create _ _ E) as [A1 A2 A3 A4]; destruct (quiet_push _ _ _ E1) as [B1 B2 B3 B4];
    inversion H; subst t1 b; clear H; cbv iota;
    apply quiet_text; [exact KT1|reflexivity|right; change (tag_name (set_state attribute_name_state t2)) with (tag_name t2); rewrite B1, A1; exact KN
      |cbn; rewrite B4, A4; exact KR|cbn; rewrite B2, A2; exact KO] end.
  all: try match goal with E : set_self_closing _ = Some ?t0, E1 : emit_tag switch _ = Some ?t2 |- _ =>
    destruct KN as [KN|KN]; [discriminate KN|]; destruct (quiet_self _ _ E) as [A1 A2 A3 A4];
    destruct (emit_spelled _ t2 E1) as (E2 & E3 & E4 & E5); [reflexivity|change (forall o n, tag_name t0 = Some (o, n) -> spelled text o n); rewrite A1; exact KN|cbn; rewrite A2; exact KO|];
    change (tag_name t2 = tag_name t0) in E3; cbn in E4;
    inversion H; subst t1 b; clear H; cbv iota;
    apply quiet_text; [exact KT1|exact E2|right; rewrite E3, A1; exact KN|rewrite E4, A4; exact KR|exact E5] end.
  all: try match goal with E : emit_tag switch _ = Some ?t2 |- _ =>
    destruct KN as [KN|KN]; [discriminate KN|]; destruct (emit_spelled _ t2 E) as (E1 & E2 & E3 & E4); [reflexivity|exact KN|exact KO|];
    inversion H; subst t1 b; clear H; cbv iota;
    apply quiet_text; [exact KT1|exact E1|right; rewrite E2; exact KN|rewrite E3; exact KR|exact E4] end.
  all: try (destruct KN as [KN|KN]; [discriminate KN|];
    match goal with
    | E : create_attribute _ = Some ?t0 |- _ => destruct (quiet_create _ _ E) as [A1 A2 A3 A4]
    | E : push_attribute_name _ _ = Some ?t0 |- _ => destruct (quiet_push _ _ _ E) as [A1 A2 A3 A4]
    | E : push_attribute_value _ _ = Some ?t0 |- _ => destruct (quiet_value _ _ _ E) as [A1 A2 A3 A4]
    | E : unify_attribute _ = Some ?t0 |- _ => destruct (quiet_unify _ _ E) as [A1 A2 A3 A4]
    end;
    inversion H; subst t1 b; clear H; cbv iota;
    (apply quiet_text; [first [exact KT|exact KT1]|cbn; rewrite ?A3, ?Es; reflexivity
      |right; match goal with |- forall o n, tag_name ?x = _ -> _ => change (tag_name x) with (tag_name t0) end; rewrite A1; exact KN
      |cbn; rewrite A4; exact KR|cbn; rewrite A2; exact KO]); fail).
  (* references *)
  all: try match goal with E : flush_reference ?x = Some ?t0 |- _ =>
    destruct (flush_name x t0 E) as (F1 & F2 & F3 & l & F4); change (tag_name t0 = tag_name t) in F1; cbn in F3, F4 end.
  all: try match goal with E : to_return ?x = Some ?t2 |- _ => unfold to_return in E; destruct (t_return x) as [s0|] eqn:Er; [|discriminate E]; inversion E; subst t2; clear E end.
  all: inversion H; subst t1 b; clear H; cbv iota.
  all: assert (Q : quiet s0 = true) by (apply KR; congruence).
  all: match goal with |- context [set_state _ ?x] =>
    assert (O : Forall (token_spelled text) (t_out (set_state s0 x))) by (cbn; try rewrite F4; outs);
    assert (R0 : forall s, t_return (set_state s0 x) = Some s -> quiet s = true) by (cbn; rewrite ?F3; intros s1 Hs1; apply KR; congruence);
    assert (N : tag_name (set_state s0 x) = tag_name t) by (change (tag_name (set_state s0 x)) with (tag_name x); first [exact F1|reflexivity])
    end.
  all: try (split; [exact O|intros _]).
  all: apply quiet_text; [exact KT|exact Q|rewrite N; exact KN|exact R0|exact O].
Qed.

Variable cdata : list token -> bool.
Variable ncr : list Z -> option (nat * list Z).
Lemma same_text t p rest q : TextInv text t p rest -> text = q ++ rest -> quiet (t_state t) = true -> TextInv text t q rest.
Proof. intros K E Q. destruct K. constructor; auto; unfold quiet in Q; apply andb_prop in Q; destruct Q as [Q1 Q2]; [|apply negb_true_iff in Q1; now rewrite Q1 in *]. destruct (opened (t_state t)); [discriminate|exact I]. Qed.
Lemma pstep_text t p rest : TextInv text t p rest ->
  match pstep switch cdata ncr t rest with
  | Some (Next t1 r1) => exists p1, TextInv text t1 p1 r1
  | Some (Halt t1) => Forall (token_spelled text) (t_out t1)
  | None => True
  end.
Proof.
  intros K. pose proof (X_text _ _ _ _ K) as KT. pose proof (X_name _ _ _ _ K) as KN.
  pose proof (X_return _ _ _ _ K) as KR. pose proof (X_out _ _ _ _ K) as KO.
  assert (NS : forall n, exists q, text = q ++ skipn n rest) by
    (intro n; exists (p ++ firstn n rest); rewrite KT at 1; rewrite <- app_assoc, firstn_skipn; reflexivity).
  assert (N0 : forall n, rest = [] -> skipn n rest = []) by (intros n ->; destruct n; reflexivity).
  destruct (t_state t) eqn:Es.
  all: try match type of Es with _ = markup_declaration_open_state =>
    unfold pstep; rewrite Es; cbn [naming] in KN; repeat match goal with |- context [if ?b then _ else _] => destruct b end;
    match goal with
    | |- exists p1, TextInv _ _ p1 (skipn ?n _) => destruct (NS n) as [q Hq]; exists q;
        apply quiet_text; [exact Hq|reflexivity|destruct KN as [KN|KN]; [left; now apply N0|right; exact KN]|exact KR|exact KO]
    | _ => exists p; apply quiet_text; [exact KT|reflexivity|exact KN|exact KR|exact KO]
    end end.
  all: try match type of Es with _ = after_DOCTYPE_name_state =>
    unfold pstep; rewrite Es; cbn [naming] in KN; destruct rest as [|c r]; [cbn; outs|];
    destruct KN as [KN|KN]; [discriminate KN|]; destruct (NS 1%nat) as [q1 Hq1];
    destruct (is_space c); [exists q1; apply quiet_text; [exact Hq1|now rewrite Es|right; exact KN|exact KR|exact KO]|];
    destruct (c =? 0x3E); [exists q1; apply quiet_text; [exact Hq1|reflexivity|right; exact KN|exact KR|cbn; outs]|];
    repeat match goal with |- context [if ?b then _ else _] => destruct b end;
    [destruct (NS 6%nat) as [q Hq]; exists q|destruct (NS 6%nat) as [q Hq]; exists q|exists p];
    (apply quiet_text; [assumption|reflexivity|right; exact KN|exact KR|cbn; outs]) end.
  all: try match type of Es with _ = numeric_character_reference_end_state =>
    unfold pstep; rewrite Es; cbn [naming] in KN;
    destruct (flush_reference (set_tmp [reference_code (t_code t)] (set_code (reference_code (t_code t)) t))) as [t1|] eqn:E1; [|exact Logic.I];
    destruct (flush_name _ t1 E1) as (F1 & F2 & F3 & l & F4); change (tag_name t1 = tag_name t) in F1; cbn in F3, F4;
    destruct (to_return t1) as [t2|] eqn:E2; [|exact Logic.I]; unfold to_return in E2; destruct (t_return t1) as [s0|] eqn:Er; [|discriminate E2];
    inversion E2; subst t2; clear E2; exists p;
    (apply quiet_text; [exact KT|apply (KR s0); congruence|change (tag_name (set_state s0 t1)) with (tag_name t1); rewrite F1; exact KN
      |cbn; rewrite Er; intros s1 Hs1; apply KR; congruence|cbn; rewrite F4; outs]) end.
  all: try match type of Es with _ = named_character_reference_state =>
    unfold pstep; rewrite Es; cbn [naming] in KN; destruct (ncr rest) as [[len a]|]; [|exact Logic.I]; destruct len as [|k];
    [destruct (flush_reference t) as [t1|] eqn:E1; [|exact Logic.I];
     destruct (flush_name _ t1 E1) as (F1 & F2 & F3 & l & F4); exists p;
     (apply quiet_text; [exact KT|reflexivity|change (tag_name (set_state ambiguous_ampersand_state t1)) with (tag_name t1); rewrite F1; exact KN
      |cbn; rewrite F3; exact KR|cbn; rewrite F4; outs])
    |destruct (nth_error rest k) as [tail|]; [|exact Logic.I]; cbv zeta;
     match goal with |- context [flush_reference ?x] => destruct (flush_reference x) as [t3|] eqn:E1; [|exact Logic.I] end;
     assert (Q : tag_name t3 = tag_name t /\ t_return t3 = t_return t /\ Forall (token_spelled text) (t_out t3)) by
       (revert E1; match goal with |- context [if ?b then _ else _] => destruct b end; intro E1;
        destruct (flush_name _ t3 E1) as (F1 & F2 & F3 & l & F4); (split; [exact F1|split; [exact F3|]]); cbn in F4; rewrite F4; outs);
     destruct Q as (Q1 & Q3 & Q4);
     destruct (to_return t3) as [t4|] eqn:E2; [|exact Logic.I]; unfold to_return in E2; destruct (t_return t3) as [s0|] eqn:Er; [|discriminate E2];
     inversion E2; subst t4; clear E2; destruct (NS (S k)) as [q Hq]; exists q;
     (apply quiet_text; [exact Hq|apply (KR s0); congruence|change (tag_name (set_state s0 t3)) with (tag_name t3); rewrite Q1; destruct KN as [KN|KN]; [left; now apply N0|right; exact KN]
      |cbn; rewrite Er; intros s1 Hs1; apply KR; congruence|exact Q4])] end.
  all: pose proof (ordinary_text t p rest) as Q; unfold pstep; rewrite Es; destruct rest as [|c r]; cbn [hd_error] in Q;
    [destruct (ordinary switch t None) as [[t1 b]|]; [|exact Logic.I]; destruct (Q t1 b K eq_refl) as [Q1 Q2]; destruct b; [exists p; now apply Q2|exact Q1]
    |destruct (ordinary switch t (Some c)) as [[t1 b]|]; [|exact Logic.I]; specialize (Q t1 b K eq_refl); destruct b; eexists; exact Q].
Qed.
Lemma phalts_text t p rest t' : TextInv text t p rest -> phalts switch cdata ncr t rest t' -> Forall (token_spelled text) (t_out t').
Proof.
  intros K (t1 & r1 & P & H). revert p K H. induction P as [|t r t1 r1 t2 r2 E P IH]; intros p K H.
  - pose proof (pstep_text t p r K) as Q. rewrite H in Q. exact Q.
  - pose proof (pstep_text t p r K) as Q. rewrite E in Q. destruct Q as [p1 Q]. exact (IH p1 Q H).
Qed.
End Spelled.

(** Every tag that is emitted stands in the text, and is well named. *)
Theorem tokenize_spelled switch cdata text fuel : text_switch switch -> (forall p s, newlines text = p ++ 0x26 :: s -> match_ncr s <> None) ->
  (forall p s, newlines text <> p ++ 0x26 :: 0x23 :: s) -> last text 0 <> 0xD -> fuel_for fuel text ->
  exists l, tokenize switch cdata match_ncr fuel tok_init text = Val (l ++ [TEof]) /\ ~ In TEof l /\ Forall token_ok l /\ Forall (token_spelled (newlines text)) l.
Proof.
  intros Sw H N L F. destruct (tokenize_tags switch cdata text fuel Sw H N L F) as (l & E & Ne & T). exists l. split; [exact E|split; [exact Ne|split; [exact T|]]].
  destruct (init_halts switch Sw cdata _ H) as (t' & Ht). destruct (tokenize_reads switch Sw cdata fuel tok_init text t' I Ht F) as (l' & E' & K).
  specialize (K (init_numfree switch Sw cdata _ H N) L).
  assert (Q : Forall (token_spelled (newlines text)) (t_out t')).
  { apply (phalts_text switch Sw (newlines text) cdata match_ncr tok_init [] (newlines text)); [|exact Ht].
    apply quiet_text; [reflexivity|reflexivity|right; intros o n Hn; discriminate Hn|discriminate|constructor]. }
  rewrite E' in E. rewrite K in E. inversion E as [E2]. rewrite E2 in Q. apply Forall_app in Q. apply Q.
Qed.
