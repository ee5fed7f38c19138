(** Every handler: what it adds to the output, how far reconsumption can go, and the invariant that keeps it safe. *)
From Coq Require Import ZArith List Bool Lia.
From Verif Require Import M_infra M_encoding M_html L_html1.
Import ListNotations.
Open Scope Z_scope.
Open Scope html_scope.

Section Handlers.
Variable switch : list token -> option state.
Hypothesis switch_text : forall l s, switch l = Some s ->
  s = RCDATA_state \/ s = RAWTEXT_state \/ s = script_data_state \/ s = PLAINTEXT_state.

Lemma on_current_tag_same f t t1 : on_current_tag f t = Some t1 -> same_but_tag t t1.
Proof.
  unfold on_current_tag. destruct (current_tag t); [|discriminate]. destruct (f t0); [|discriminate].
  intro H; inversion H. apply same_set_tag.
Qed.

Lemma emit_tag_cases t t1 : emit_tag switch t = Some t1 ->
  exists k, t_out t1 = t_out t ++ [k] /\ k <> TEof /\ t_return t1 = t_return t /\ t_id t1 = t_id t /\ idok t /\
    t_tmp t1 = t_tmp t /\ t_code t1 = t_code t /\ t_comment t1 = t_comment t /\ t_doctype t1 = t_doctype t /\
    t_start t1 = t_start t /\ t_end t1 = t_end t /\
    (t_state t1 = t_state t \/ (t_id t = 2 /\ (t_state t1 = RCDATA_state \/ t_state t1 = RAWTEXT_state \/ t_state t1 = script_data_state \/ t_state t1 = PLAINTEXT_state))).
Proof.
  unfold emit_tag. destruct (t_id t =? 2) eqn:E.
  - intro H; inversion H; subst; clear H. exists (TStart (t_start t)).
    destruct (switch _) as [s|] eqn:Es; cbn.
    + pose proof (switch_text _ _ Es). repeat split; try discriminate; [left; lia|]. right. split; [lia|assumption].
    + repeat split; try discriminate; [left; lia|]. left; reflexivity.
  - destruct (t_id t =? 3) eqn:E3; [|discriminate]. intro H; inversion H; subst; clear H. exists (TEnd (t_end t)).
    cbn. repeat split; try discriminate; [right; lia|]. left; reflexivity.
Qed.

Lemma flush_reference_cases t t1 : flush_reference t = Some t1 ->
  exists l, t_out t1 = t_out t ++ l /\ no_eof l /\ t_state t1 = t_state t /\ t_return t1 = t_return t /\ t_id t1 = t_id t.
Proof.
  unfold flush_reference. destruct (t_tmp t) as [|c s] eqn:E.
  - intro H; inversion H; subst. exists []. rewrite app_nil_r. repeat split. constructor.
  - destruct (consumed_as_part_of_attribute t).
    + intro H. apply on_current_tag_same in H. destruct H as (A1&A2&A3&A4&A5&A6&A7&A8&A9). exists []. rewrite app_nil_r.
      repeat split; auto. constructor.
    + intro H; inversion H; subst. eexists. split; [reflexivity|]. repeat split. apply (no_eof_chars (c :: s)).
Qed.

(** ** Output *)
Definition out_spec (t : tok) (i : option Z) (t1 : tok) (b : bool) : Prop :=
  exists l, t_out t1 = t_out t ++ l /\
    match i, b with
    | None, false => exists l0, l = l0 ++ [TEof] /\ no_eof l0
    | _, _ => no_eof l
    end.

Ltac unfolds H :=
  cbv beta delta [on_data on_RCDATA on_RAWTEXT on_script_data on_PLAINTEXT on_tag_open on_end_tag_open on_tag_name
    on_less_than_sign on_text_end_tag_open on_text_end_tag_name on_script_data_less_than_sign
    on_script_data_escape_start on_script_data_escape_start_dash on_script_data_escaped on_script_data_escaped_dash
    on_script_data_escaped_dash_dash on_script_data_escaped_less_than_sign on_script_data_double_escape
    on_script_data_double_escaped on_script_data_double_escaped_dash on_script_data_double_escaped_dash_dash
    on_script_data_double_escaped_less_than_sign on_before_attribute_name on_attribute_name on_after_attribute_name
    on_before_attribute_value on_attribute_value_quoted on_attribute_value_unquoted on_after_attribute_value_quoted
    on_self_closing_start_tag on_bogus_comment on_comment_start on_comment_start_dash on_comment
    on_comment_less_than_sign on_comment_less_than_sign_bang on_comment_less_than_sign_bang_dash
    on_comment_less_than_sign_bang_dash_dash on_comment_end_dash on_comment_end on_comment_end_bang on_DOCTYPE
    on_before_DOCTYPE_name on_DOCTYPE_name on_after_DOCTYPE_keyword on_before_DOCTYPE_identifier
    on_DOCTYPE_identifier on_after_DOCTYPE_public_identifier on_between_DOCTYPE_identifiers
    on_after_DOCTYPE_system_identifier on_bogus_DOCTYPE on_CDATA_section on_CDATA_section_bracket
    on_CDATA_section_end on_character_reference on_ambiguous_ampersand on_numeric_character_reference
    on_reference_start on_hexadecimal_character_reference on_decimal_character_reference
    stay go again again_return stay'] in H.

Ltac split_ifs H :=
  repeat (cbv beta iota zeta in H;
    match type of H with
    | context [if ?b then _ else _] => destruct b eqn:?
    | context [match ?e with Some _ => _ | None => _ end] => destruct e eqn:?
    end); try discriminate H.

Ltac no_eof_tac :=
  repeat first [ apply no_eof_chars | apply Forall_app; split | apply Forall_nil | apply Forall_cons; [first [assumption | discriminate]|] ].

Ltac out_facts :=
  repeat match goal with
  | H : emit_tag switch _ = Some _ |- _ => apply emit_tag_cases in H; destruct H as (? & ? & ? & ? & ? & ? & ? & ? & ? & ? & ? & ? & ?)
  | H : flush_reference _ = Some _ |- _ => apply flush_reference_cases in H; destruct H as (? & ? & ? & ? & ? & ?)
  | H : to_return _ = Some _ |- _ => unfold to_return in H
  | H : push_tag_name _ _ = Some _ |- _ => apply on_current_tag_same in H; destruct H as (?&?&?&?&?&?&?&?&?)
  | H : set_self_closing _ = Some _ |- _ => apply on_current_tag_same in H; destruct H as (?&?&?&?&?&?&?&?&?)
  | H : create_attribute _ = Some _ |- _ => apply on_current_tag_same in H; destruct H as (?&?&?&?&?&?&?&?&?)
  | H : unify_attribute _ = Some _ |- _ => apply on_current_tag_same in H; destruct H as (?&?&?&?&?&?&?&?&?)
  | H : push_attribute_name _ _ = Some _ |- _ => apply on_current_tag_same in H; destruct H as (?&?&?&?&?&?&?&?&?)
  | H : push_attribute_value _ _ = Some _ |- _ => apply on_current_tag_same in H; destruct H as (?&?&?&?&?&?&?&?&?)
  | H : (match ?e with Some _ => _ | None => _ end) = Some _ |- _ => destruct e eqn:?; [|discriminate H]
  | H : Some _ = Some _ |- _ => inversion H; clear H; subst
  end.

Ltac finish_out :=
  unfold out_spec; cbn in *;
  repeat match goal with H : t_out _ = _ |- _ => rewrite H; clear H end;
  rewrite <- ?app_assoc; cbn [app];
  first [ eexists; split; [reflexivity|]; solve [no_eof_tac; assumption]
        | eexists; split; [reflexivity|]; eexists (_ :: _ :: []); split; [reflexivity|no_eof_tac]
        | eexists; split; [reflexivity|]; eexists (_ :: []); split; [reflexivity|no_eof_tac]
        | eexists; split; [reflexivity|]; eexists []; split; [reflexivity|no_eof_tac]
        | exists []; split; [symmetry; apply app_nil_r|]; no_eof_tac ].

Lemma ordinary_out t i t1 b : ordinary switch t i = Some (t1, b) -> out_spec t i t1 b.
Proof.
  intro H. unfold ordinary in H.
  destruct (t_state t) eqn:Es; try discriminate H; unfolds H; destruct i as [c|]; split_ifs H; out_facts;
    try (inversion H; subst; clear H); out_facts; try finish_out.
Qed.

(** ** Reconsumption ends *)
Definition ends_attribute (i : option Z) : bool :=
  match i with None => true | Some c => is_space c || (c =? 0x2F) || (c =? 0x3E) end.
Definition rank (s : state) (i : option Z) : nat :=
  match s with
  | tag_open_state | end_tag_open_state
  | RCDATA_less_than_sign_state | RAWTEXT_less_than_sign_state | script_data_less_than_sign_state
  | RCDATA_end_tag_name_state | RAWTEXT_end_tag_name_state | script_data_end_tag_name_state
  | script_data_escape_start_state | script_data_escape_start_dash_state
  | script_data_escaped_end_tag_name_state | script_data_double_escape_start_state
  | script_data_double_escaped_less_than_sign_state | script_data_double_escape_end_state
  | before_attribute_value_state
  | comment_start_state | comment_start_dash_state | comment_less_than_sign_state | comment_less_than_sign_bang_state
  | comment_end_dash_state | comment_end_state | comment_end_bang_state
  | DOCTYPE_state | after_DOCTYPE_name_state | after_DOCTYPE_public_keyword_state | before_DOCTYPE_public_identifier_state
  | after_DOCTYPE_public_identifier_state | between_DOCTYPE_public_and_system_identifiers_state
  | after_DOCTYPE_system_keyword_state | before_DOCTYPE_system_identifier_state | after_DOCTYPE_system_identifier_state
  | CDATA_section_bracket_state | CDATA_section_end_state
  | ambiguous_ampersand_state | numeric_character_reference_end_state | markup_declaration_open_state => 1
  | attribute_name_state => if ends_attribute i then 1 else 0
  | after_attribute_name_state =>
      if ends_attribute i || match i with Some c => c =? 0x3D | None => false end then 0 else 1
  | RCDATA_end_tag_open_state | RAWTEXT_end_tag_open_state | script_data_end_tag_open_state
  | script_data_escaped_end_tag_open_state | script_data_escaped_less_than_sign_state
  | before_attribute_name_state
  | comment_less_than_sign_bang_dash_state | comment_less_than_sign_bang_dash_dash_state
  | named_character_reference_state | hexadecimal_character_reference_state | decimal_character_reference_state => 2
  | after_attribute_value_quoted_state | self_closing_start_tag_state
  | character_reference_state | hexadecimal_character_reference_start_state | decimal_character_reference_start_state => 3
  | numeric_character_reference_state => 4
  | _ => 0
  end.

Lemma rank_le s i : (rank s i <= 4)%nat.
Proof. destruct s; cbn; try lia; repeat (match goal with |- context [if ?b then _ else _] => destruct b end); lia. Qed.

(** ** What keeps the handlers safe *)
Definition retok (t : tok) : Prop :=
  match t_return t with
  | Some data_state | Some RCDATA_state => True
  | Some attribute_value_double_quoted_state | Some attribute_value_single_quoted_state
  | Some attribute_value_unquoted_state => attrok t
  | _ => False
  end.

Definition safe (t : tok) (i : option Z) : Prop :=
  match t_state t with
  | RCDATA_end_tag_name_state | RAWTEXT_end_tag_name_state | script_data_end_tag_name_state
  | script_data_escaped_end_tag_name_state => t_id t = 3
  | tag_name_state | before_attribute_name_state | after_attribute_value_quoted_state | self_closing_start_tag_state
  | script_data_state | script_data_less_than_sign_state | script_data_end_tag_open_state
  | script_data_escape_start_state | script_data_escape_start_dash_state | script_data_escaped_state
  | script_data_escaped_dash_state | script_data_escaped_dash_dash_state | script_data_escaped_less_than_sign_state
  | script_data_escaped_end_tag_open_state | script_data_double_escape_start_state
  | script_data_double_escaped_state | script_data_double_escaped_dash_state | script_data_double_escaped_dash_dash_state
  | script_data_double_escaped_less_than_sign_state | script_data_double_escape_end_state => idok t
  | attribute_name_state | before_attribute_value_state | attribute_value_double_quoted_state
  | attribute_value_single_quoted_state | attribute_value_unquoted_state => attrok t
  | after_attribute_name_state =>
      idok t /\ (attrok t \/ match i with None => True | Some c => c = 0x2F \/ c = 0x3E end)
  | character_reference_state | named_character_reference_state | ambiguous_ampersand_state
  | numeric_character_reference_state | hexadecimal_character_reference_start_state
  | decimal_character_reference_start_state | hexadecimal_character_reference_state
  | decimal_character_reference_state | numeric_character_reference_end_state => retok t
  | _ => True
  end.

Lemma attrok_ext t t1 : t_id t1 = t_id t -> t_start t1 = t_start t -> t_end t1 = t_end t -> attrok t -> attrok t1.
Proof. intros A B C (g & H & N). exists g. split; [|exact N]. unfold current_tag in *. rewrite A, B, C. exact H. Qed.
Lemma retok_ext t t1 : t_return t1 = t_return t -> t_id t1 = t_id t -> t_start t1 = t_start t -> t_end t1 = t_end t ->
  retok t -> retok t1.
Proof.
  intros A B C D. unfold retok. rewrite A. destruct (t_return t) as [[]|]; auto; apply attrok_ext; assumption.
Qed.

Definition waits (s : state) : bool :=
  match s with markup_declaration_open_state | after_DOCTYPE_name_state | named_character_reference_state
  | numeric_character_reference_end_state => true | _ => false end.

Lemma flush_reference_ok t : retok t -> exists t1, flush_reference t = Some t1 /\ retok t1 /\
  t_state t1 = t_state t /\ t_return t1 = t_return t /\ t_id t1 = t_id t.
Proof.
  intro R. unfold flush_reference. destruct (t_tmp t) as [|c s]; [exists t; auto|].
  destruct (consumed_as_part_of_attribute t) eqn:E.
  - assert (A : attrok t). { revert R E. unfold retok, consumed_as_part_of_attribute. destruct (t_return t) as [[]|]; auto; discriminate. }
    destruct (attr_fun_ok (fun a => Attribute (a_name a) (a_value a ++ c :: s) (a_omitted a)) t A) as (t1 & B & C & D).
    exists t1. destruct C as (C1&C2&C3&C4&C5&C6&C7&C8&C9). split; [exact B|]. repeat split; auto.
    revert R. unfold retok. rewrite C2. destruct (t_return t) as [[]|]; auto.
  - eexists. split; [reflexivity|]. split; [revert R; apply retok_ext; reflexivity|auto].
Qed.
Lemma to_return_ok t : retok t -> exists t1, to_return t = Some t1 /\ safe t1 None /\ (forall c, safe t1 (Some c)) /\
  (forall i, rank (t_state t1) i = 0%nat) /\ waits (t_state t1) = false /\ t_out t1 = t_out t /\ t_return t1 = t_return t.
Proof.
  unfold retok, to_return. destruct (t_return t) as [s|] eqn:Er; [|intros []]. intro R. eexists. split; [reflexivity|].
  assert (A : attrok t -> attrok (set_state s t)) by (apply attrok_ext; reflexivity).
  destruct s; try contradiction; unfold safe; cbn [t_state set_state]; repeat split; auto.
Qed.

Lemma emit_tag_ok t : idok t -> exists t1, emit_tag switch t = Some t1.
Proof. unfold emit_tag. intros [E|E]; rewrite E; cbn; eauto. Qed.

Ltac tag_facts :=
  repeat match goal with
  | H : emit_tag switch _ = Some _ |- _ => apply emit_tag_cases in H; destruct H as (? & ? & ? & ? & ? & ? & ? & ? & ? & ? & ? & ? & ?)
  end.

Lemma head_slash c : (c =? 0x2F) || (c =? 0x3E) = true -> c = 0x2F \/ c = 0x3E.
Proof. intro H. apply orb_true_iff in H. lia. Qed.

(** A handler that is safe does not fail; what it leaves is safe for the same character when it reconsumes, with a
    smaller rank, and safe for every character when it does not. *)
Definition step_spec (t : tok) (i : option Z) (r : option (tok * bool)) : Prop :=
  exists t1 b, r = Some (t1, b) /\
    (if b : bool then safe t1 i /\ (rank (t_state t1) i < rank (t_state t) i)%nat
     else safe t1 None /\ match i with None => waits (t_state t1) = false | Some _ => forall c, safe t1 (Some c) end).

Lemma safe_flat t t1 i j : safe t i -> t_id t1 = t_id t -> t_start t1 = t_start t -> t_end t1 = t_end t ->
  t_return t1 = t_return t -> t_state t1 = t_state t -> t_state t <> after_attribute_name_state -> safe t1 j.
Proof.
  intros S A B C D E N. unfold safe, idok in *. rewrite E, A. destruct (t_state t); auto.
  all: try (revert S; apply attrok_ext; assumption).
  all: try (revert S; apply retok_ext; assumption).
  contradiction.
Qed.


Ltac unfolds_goal :=
  cbv beta delta [on_data on_RCDATA on_RAWTEXT on_script_data on_PLAINTEXT on_tag_open on_end_tag_open on_tag_name
    on_less_than_sign on_text_end_tag_open on_text_end_tag_name on_script_data_less_than_sign
    on_script_data_escape_start on_script_data_escape_start_dash on_script_data_escaped on_script_data_escaped_dash
    on_script_data_escaped_dash_dash on_script_data_escaped_less_than_sign on_script_data_double_escape
    on_script_data_double_escaped on_script_data_double_escaped_dash on_script_data_double_escaped_dash_dash
    on_script_data_double_escaped_less_than_sign on_before_attribute_name on_attribute_name on_after_attribute_name
    on_before_attribute_value on_attribute_value_quoted on_attribute_value_unquoted on_after_attribute_value_quoted
    on_self_closing_start_tag on_bogus_comment on_comment_start on_comment_start_dash on_comment
    on_comment_less_than_sign on_comment_less_than_sign_bang on_comment_less_than_sign_bang_dash
    on_comment_less_than_sign_bang_dash_dash on_comment_end_dash on_comment_end on_comment_end_bang on_DOCTYPE
    on_before_DOCTYPE_name on_DOCTYPE_name on_after_DOCTYPE_keyword on_before_DOCTYPE_identifier
    on_DOCTYPE_identifier on_after_DOCTYPE_public_identifier on_between_DOCTYPE_identifiers
    on_after_DOCTYPE_system_identifier on_bogus_DOCTYPE on_CDATA_section on_CDATA_section_bracket
    on_CDATA_section_end on_character_reference on_ambiguous_ampersand on_numeric_character_reference
    on_reference_start on_hexadecimal_character_reference on_decimal_character_reference
    stay go again again_return stay'].

Ltac id_tac :=
  unfold idok in *; cbn [t_id set_state set_id create_end_tag create_start_tag set_end set_start set_tmp set_last set_out emit emit_char emit_chars] in *;
  first [ assumption | lia | (apply attrok_id; assumption) | (match goal with H : attrok _ |- _ => apply attrok_id in H; unfold idok in H; lia end) ].
Ltac attr_tac :=
  first [ assumption
        | match goal with H : attrok ?a |- attrok ?b => solve [revert H; apply attrok_ext; (reflexivity || congruence)] end ].

Lemma cons_attr t : consumed_as_part_of_attribute t = true -> retok t -> attrok t.
Proof. unfold retok, consumed_as_part_of_attribute. destruct (t_return t) as [[]|]; auto; discriminate. Qed.
Lemma appropriate_ok t : t_id t = 3 -> exists b, is_appropriate_end_tag t = Some b.
Proof. unfold is_appropriate_end_tag. intros ->. cbn. eauto. Qed.

Ltac same_tac := match goal with H : same_but_tag _ _ |- _ => destruct H as (?&?&?&?&?&?&?&?&?) end.

Ltac peel :=
  repeat (cbv beta iota zeta;
  match goal with
  | |- step_spec _ _ (if ?b then _ else _) => destruct b eqn:?
  | |- step_spec _ _ (match (if ?b then _ else _) with Some _ => _ | None => _ end) => destruct b eqn:?
  | |- step_spec _ _ (match push_tag_name ?c ?t with Some _ => _ | None => _ end) =>
      let t1 := fresh "t1" in let E := fresh "E" in let H := fresh "Hs" in
      destruct (push_name_ok c t) as (t1 & E & H); [id_tac|]; rewrite E; clear E; same_tac
  | |- step_spec _ _ (match set_self_closing ?t with Some _ => _ | None => _ end) =>
      let t1 := fresh "t1" in let E := fresh "E" in let H := fresh "Hs" in
      destruct (self_closing_ok t) as (t1 & E & H); [id_tac|]; rewrite E; clear E; same_tac
  | |- step_spec _ _ (match create_attribute ?t with Some _ => _ | None => _ end) =>
      let t1 := fresh "t1" in let E := fresh "E" in let H := fresh "Hs" in
      destruct (create_ok t) as (t1 & E & H & ?); [id_tac|]; rewrite E; clear E; same_tac
  | |- step_spec _ _ (match unify_attribute ?t with Some _ => _ | None => _ end) =>
      let t1 := fresh "t1" in let E := fresh "E" in let H := fresh "Hs" in
      destruct (unify_ok t) as (t1 & E & H & ?); [attr_tac|]; rewrite E; clear E; same_tac
  | |- step_spec _ _ (match push_attribute_name ?c ?t with Some _ => _ | None => _ end) =>
      let t1 := fresh "t1" in let E := fresh "E" in let H := fresh "Hs" in
      destruct (attr_fun_ok (fun a => Attribute (a_name a ++ [c]) (a_value a) (a_omitted a)) t) as (t1 & E & H & ?); [attr_tac|];
      unfold push_attribute_name; rewrite E; clear E; same_tac
  | |- step_spec _ _ (match push_attribute_value ?c ?t with Some _ => _ | None => _ end) =>
      let t1 := fresh "t1" in let E := fresh "E" in let H := fresh "Hs" in
      destruct (attr_fun_ok (fun a => Attribute (a_name a) (a_value a ++ [c]) (a_omitted a)) t) as (t1 & E & H & ?); [first [attr_tac | (apply cons_attr; assumption)]|];
      unfold push_attribute_value; rewrite E; clear E; same_tac
  | |- step_spec _ _ (match is_appropriate_end_tag ?t with Some _ => _ | None => _ end) =>
      let b := fresh "b" in let E := fresh "E" in
      destruct (appropriate_ok t) as (b & E); [assumption|]; rewrite E; clear E; destruct b
  | |- step_spec _ _ (match emit_tag switch ?t with Some _ => _ | None => _ end) =>
      let t1 := fresh "t1" in let E := fresh "E" in
      destruct (emit_tag_ok t) as (t1 & E); [id_tac|]; rewrite E;
      apply emit_tag_cases in E; destruct E as (? & ? & ? & ? & ? & ? & ? & ? & ? & ? & ? & ? & ?)
  | |- step_spec _ _ (match flush_reference ?t with Some _ => _ | None => _ end) =>
      let t1 := fresh "t1" in let E := fresh "E" in
      destruct (flush_reference_ok t) as (t1 & E & ? & ? & ? & ?);
        [match goal with H : retok _ |- _ => solve [revert H; apply retok_ext; reflexivity] end|]; rewrite E; clear E
  | |- step_spec _ _ (match to_return ?t with Some _ => _ | None => _ end) =>
      let t1 := fresh "t1" in let E := fresh "E" in
      destruct (to_return_ok t) as (t1 & E & ? & ? & ? & ? & ? & ?); [assumption|]; rewrite E; clear E
  end).

Ltac tails :=
  match goal with
  | |- step_spec _ _ (Some (?t1, ?b)) => exists t1, b; split; [reflexivity|]
  end.

Lemma ordinary_safe t i : safe t i -> waits (t_state t) = false -> step_spec t i (ordinary switch t i).
Proof.
  intros S W. unfold ordinary, safe in *.
  destruct (t_state t) eqn:Es; try discriminate W; clear W.
  all: unfolds_goal; destruct i as [c|].
  all: try match goal with H : idok _ /\ _ |- _ => destruct H as [? S] end.
  all: peel; cbv beta iota zeta.
  all: tails; cbv beta iota; try rewrite Es.
  all: try match goal with H : forall i, rank (t_state ?x) i = _ |- _ => rewrite H; split; [auto|cbn; lia] end.
  all: repeat match goal with
       | H : _ \/ (_ /\ (_ \/ _)) |- _ => destruct H as [H|(? & [H|[H|[H|H]]])]
       end.
  all: try match goal with |- context [eq_str ?a ?b] => destruct (eq_str a b) end.
  all: unfold safe;
       repeat match goal with
       | H : t_state ?x = _ |- context [t_state ?x] => rewrite H
       | |- context [t_state (?f ?x)] => progress cbn [t_state set_state set_tmp set_comment set_out set_doctype set_code set_return
            emit emit_char emit_chars emit_eof emit_comment emit_doctype set_quirks push_doctype_name set_public set_system
            create_start_tag create_end_tag set_id set_start set_end]
       end; rewrite ?Es; cbv beta iota.
  all: cbn [rank waits].
  all: repeat split; intros.
  all: try exact I; try reflexivity; try lia.
  all: try solve [id_tac | attr_tac].
  all: try match goal with H : retok _ |- retok _ => solve [revert H; apply retok_ext; reflexivity] end.
  all: cbn [ends_attribute] in *; try lia.
  all: try (destruct (is_space c), (c =? 47) eqn:?, (c =? 61) eqn:?, (c =? 62) eqn:?; cbn in *; (discriminate || lia)).
  all: try (cbn; lia).
  all: try solve [left; attr_tac].
  all: try solve [destruct S as [S|[S|S]]; [first [left; attr_tac | attr_tac]|subst; discriminate|subst; discriminate]].
  all: unfold retok in *; match goal with H : t_return ?x = _ |- context [t_return ?x] => rewrite H end;
       destruct (t_return t) as [[]|]; auto.
Qed.

(** ** How the reference states are entered *)
Definition numeric (s : state) : bool :=
  match s with
  | numeric_character_reference_state | hexadecimal_character_reference_start_state | decimal_character_reference_start_state
  | hexadecimal_character_reference_state | decimal_character_reference_state | numeric_character_reference_end_state => true
  | _ => false
  end.
Definition entered (t : tok) (i : option Z) (b : bool) (s : state) : Prop :=
  match s with
  | character_reference_state => i = Some 0x26 /\ b = false
  | named_character_reference_state => t_state t = character_reference_state /\ b = true
  | numeric_character_reference_state => t_state t = character_reference_state /\ i = Some 0x23 /\ b = false
  | _ => numeric s = true -> numeric (t_state t) = true
  end.

Ltac entry_facts :=
  repeat match goal with
  | H : emit_tag switch _ = Some _ |- _ => apply emit_tag_cases in H; destruct H as (? & _ & _ & _ & _ & _ & _ & _ & _ & _ & _ & _ & ?)
  | H : flush_reference _ = Some _ |- _ => apply flush_reference_cases in H; destruct H as (? & _ & _ & ? & ? & _)
  | H : to_return _ = Some _ |- _ => unfold to_return in H
  | H : push_tag_name _ _ = Some _ |- _ => apply on_current_tag_same in H; destruct H as (?&_)
  | H : set_self_closing _ = Some _ |- _ => apply on_current_tag_same in H; destruct H as (?&_)
  | H : create_attribute _ = Some _ |- _ => apply on_current_tag_same in H; destruct H as (?&_)
  | H : unify_attribute _ = Some _ |- _ => apply on_current_tag_same in H; destruct H as (?&_)
  | H : push_attribute_name _ _ = Some _ |- _ => apply on_current_tag_same in H; destruct H as (?&_)
  | H : push_attribute_value _ _ = Some _ |- _ => apply on_current_tag_same in H; destruct H as (?&_)
  | H : (match ?e with Some _ => _ | None => _ end) = Some _ |- _ => destruct e eqn:?; [|discriminate H]
  | H : Some _ = Some _ |- _ => inversion H; clear H; subst
  end.

Lemma ordinary_entry t i t1 b : ordinary switch t i = Some (t1, b) -> safe t i -> entered t i b (t_state t1).
Proof.
  intros H Hs. unfold ordinary, safe in *.
  destruct (t_state t) eqn:Es; try discriminate H; unfolds H; destruct i as [c|]; split_ifs H; entry_facts;
    try (inversion H; subst; clear H); entry_facts.
  all: repeat match goal with
       | H : _ \/ (_ /\ (_ \/ _)) |- _ => destruct H as [H|(? & [H|[H|[H|H]]])]
       end.
  all: cbn [t_state set_state set_tmp set_comment set_out set_doctype set_code set_return
            emit emit_char emit_chars emit_eof emit_comment emit_doctype set_quirks push_doctype_name set_public set_system
            create_start_tag create_end_tag set_id set_start set_end t_return] in *.
  all: repeat match goal with
       | H : t_state ?x = _ |- context [t_state ?x] => rewrite H
       end; rewrite ?Es; cbn [entered numeric].
  all: try solve [intros; discriminate | intros; assumption].
  all: try solve [unfold entered; rewrite ?Es; repeat split; try reflexivity; repeat f_equal; lia].
  all: try match goal with |- context [eq_str ?a ?b] => destruct (eq_str a b) end; cbn [t_state set_state set_tmp]; rewrite ?Es; cbn [entered numeric]; try solve [intros; discriminate].
  all: unfold retok in Hs;
       first [ match goal with H : Some ?s = t_return _ |- entered _ _ _ ?s => rewrite <- H in Hs; clear H; destruct s end
             | match goal with H : t_return _ = Some ?s |- entered _ _ _ ?s => rewrite H in Hs; clear H; destruct s end ];
       try contradiction; cbn; intros; discriminate.
Qed.
End Handlers.
