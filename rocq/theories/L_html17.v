(** Scripts without "<!--": nothing but characters comes before the end tag of the script. *)
From Coq Require Import ZArith List Bool Lia String.
From Verif Require Import M_infra M_encoding M_labels M_html M_html_ncr L_html_names L_html_ncr3 L_html1 L_html2 L_html3 L_html4 L_html6 L_html9 L_html10 L_html13.
Import ListNotations.
Open Scope Z_scope.
Open Scope list_scope.
Open Scope html_scope.

(** characters, and the end of the input *)
Definition quiet (l : list token) : Prop := Forall (fun k => k = TEof \/ exists c, k = TChar c) l.
(** "<!--" stands nowhere in it *)
Definition unescaped (s : list Z) : Prop := forall p q, s <> p ++ lit "<!--" ++ q.

Lemma quiet_app a b : quiet a -> quiet b -> quiet (a ++ b).
Proof. intros. apply Forall_app. auto. Qed.
Lemma quiet_chars l : quiet (map TChar l).
Proof. induction l as [|c l IH]; constructor; [right; eauto|exact IH]. Qed.

Lemma Next_inj' {A} (x y : A) : Some x = Some y -> y = x.
Proof. congruence. Qed.

Section Script.
Variable switch : list token -> option state.
Hypothesis switch_text : text_switch switch.
Variable cdata : list token -> bool.
Notation pstep := (L_html1.pstep switch cdata match_ncr).
Notation psteps := (L_html1.psteps switch cdata match_ncr).
Notation ordinary := (M_html.ordinary switch).
Notation emit_tag := (M_html.emit_tag switch).
Variable out0 : list token.
Variable name : list Z.

Definition Pend (t : tok) : Prop := (exists l, t_out t = out0 ++ l /\ quiet l) /\ t_last t = name.
Definition Ended (t : tok) : Prop := exists l g b, t_out t = out0 ++ l ++ TEnd g :: b /\ quiet l /\ g_name g = name.
(** the end tag of the script is being read *)
Definition Cl (t : tok) : Prop := Pend t /\ t_id t = 3 /\ g_name (t_end t) = name.
Definition attr (t : tok) : Prop := consumed_as_part_of_attribute t = true.
Definition phase_in (s : state) (t : tok) (pre : list Z) : Prop :=
  match s with
  | script_data_state | script_data_end_tag_open_state => Pend t
  | script_data_less_than_sign_state => Pend t /\ exists p, pre = p ++ [0x3C]
  | script_data_escape_start_state => Pend t /\ exists p, pre = p ++ [0x3C; 0x21]
  | script_data_escape_start_dash_state => Pend t /\ exists p, pre = p ++ [0x3C; 0x21; 0x2D]
  | script_data_end_tag_name_state => Pend t /\ t_id t = 3
  | before_attribute_name_state | attribute_name_state | after_attribute_name_state | before_attribute_value_state | attribute_value_double_quoted_state
  | attribute_value_single_quoted_state | attribute_value_unquoted_state | after_attribute_value_quoted_state | self_closing_start_tag_state => Cl t
  | character_reference_state | named_character_reference_state | ambiguous_ampersand_state | numeric_character_reference_state
  | hexadecimal_character_reference_start_state | decimal_character_reference_start_state | hexadecimal_character_reference_state
  | decimal_character_reference_state | numeric_character_reference_end_state => Cl t /\ attr t
  | _ => False
  end.
Definition phase (t : tok) (pre : list Z) : Prop := phase_in (t_state t) t pre.
Lemma phase_at s t pre : t_state t = s -> phase_in s t pre -> phase t pre.
Proof. intros <-. auto. Qed.

Lemma pend_more t t1 l : Pend t -> t_out t1 = t_out t ++ l -> quiet l -> t_last t1 = t_last t -> Pend t1.
Proof. intros [(l0 & E & Q) L] O K La. split; [|congruence]. exists (l0 ++ l). rewrite O, E, app_assoc. split; [reflexivity|now apply quiet_app]. Qed.
Lemma pend_char c t : Pend t -> Pend (emit_char c t).
Proof. intro H. eapply pend_more; [exact H|reflexivity|constructor; [right; eauto|constructor]|reflexivity]. Qed.
Lemma pend_chars l t : Pend t -> Pend (emit_chars l t).
Proof. intro H. eapply pend_more; [exact H|reflexivity|apply quiet_chars|reflexivity]. Qed.
Lemma pend_eof t : Pend t -> Pend (emit_eof t).
Proof. intro H. eapply pend_more; [exact H|reflexivity|constructor; [now left|constructor]|reflexivity]. Qed.
Lemma cl_eof t : Cl t -> Cl (emit_eof t).
Proof. intros (P & I & N). split; [now apply pend_eof|auto]. Qed.

Lemma tag3 f t t1 : on_current_tag f t = Some t1 -> t_id t = 3 -> exists g1, f (t_end t) = Some g1 /\ t1 = set_end g1 t.
Proof.
  unfold on_current_tag, current_tag, set_current_tag. intros H E. rewrite E in H. cbn in H. destruct (f (t_end t)) as [g1|]; [|discriminate]. injection H as <-. eauto.
Qed.
Lemma cl_tag f t t1 : (forall g g1, f g = Some g1 -> g_name g1 = g_name g) -> on_current_tag f t = Some t1 -> Cl t ->
  Cl t1 /\ t_state t1 = t_state t /\ t_return t1 = t_return t.
Proof.
  intros K H (P & I & N). destruct (tag3 _ _ _ H I) as (g1 & F & ->). split; [|auto]. split; [exact P|]. split; [exact I|]. cbn [set_end t_end]. rewrite (K _ _ F). exact N.
Qed.
Lemma cl_self t t1 : set_self_closing t = Some t1 -> Cl t -> Cl t1 /\ t_state t1 = t_state t /\ t_return t1 = t_return t.
Proof. apply cl_tag. intros g g1 [= <-]. reflexivity. Qed.
Lemma cl_create t t1 : create_attribute t = Some t1 -> Cl t -> Cl t1 /\ t_state t1 = t_state t /\ t_return t1 = t_return t.
Proof. apply cl_tag. intros g g1 [= <-]. reflexivity. Qed.
Lemma cl_attr f t t1 : on_current_attribute f t = Some t1 -> Cl t -> Cl t1 /\ t_state t1 = t_state t /\ t_return t1 = t_return t.
Proof. apply cl_tag. intros g g1. destruct (map_last f (g_attributes g)); [|discriminate]. intros [= <-]. reflexivity. Qed.
Lemma cl_unify t t1 : unify_attribute t = Some t1 -> Cl t -> Cl t1 /\ t_state t1 = t_state t /\ t_return t1 = t_return t.
Proof. apply cl_tag. intros g g1. cbv zeta. destruct (map_last _ (g_attributes g)); [|discriminate]. intros [= <-]. reflexivity. Qed.
Lemma cl_flush t t1 : flush_reference t = Some t1 -> Cl t -> attr t -> Cl t1 /\ t_return t1 = t_return t.
Proof.
  unfold flush_reference, attr. intros H C A. destruct (t_tmp t); [injection H as <-; auto|]. rewrite A in H. destruct (cl_attr _ _ _ H C) as (X & _ & Y). auto.
Qed.
Lemma cl_return t t1 pre : to_return t = Some t1 -> Cl t -> attr t -> phase t1 pre.
Proof.
  unfold to_return, attr, consumed_as_part_of_attribute. destruct (t_return t) as [s|] eqn:E; [|discriminate]. intros H C A. injection H as <-. unfold phase. cbn [set_state t_state]. destruct s; try discriminate A; exact C.
Qed.
Lemma cl_emit t t1 : emit_tag t = Some t1 -> Cl t -> Ended t1.
Proof.
  unfold M_html.emit_tag. intros H (((l & O & Q) & La) & I & N). rewrite I in H. cbn in H. injection H as <-.
  exists l, (t_end t), []. cbn [emit set_out t_out]. rewrite O, <- app_assoc. auto.
Qed.
Lemma appropriate t : is_appropriate_end_tag t = Some true -> Pend t -> t_id t = 3 -> Cl t.
Proof.
  unfold is_appropriate_end_tag. intros H P I. rewrite I in H. cbn in H. injection H as H. split; [exact P|]. split; [exact I|]. destruct P as [_ <-].
  apply negb_true_iff, orb_false_iff in H. destruct H as [_ H]. apply negb_false_iff, eq_str_spec in H. congruence.
Qed.

Ltac crack H :=
  repeat (cbv beta iota zeta in H; match type of H with
    | (if ?b then _ else _) = Some _ => let E := fresh "Eb" in destruct b eqn:E
    | match ?x with Some _ => _ | None => None end = Some _ => let E := fresh "Eo" in destruct x eqn:E; [|discriminate H]
    end).
Ltac ends := match goal with
  | H : emit_tag ?t = Some ?t1 |- _ => right; apply (cl_emit _ _ H)
  end.

Lemma ord_step t i t1 b pre : phase t pre -> ordinary t i = Some (t1, b) -> (forall c, i = Some c -> b = false -> unescaped (pre ++ [c])) ->
  phase t1 (match i with Some c => if b then pre else pre ++ [c] | None => pre end) \/ Ended t1.
Proof.
  intros P H U. unfold phase in P. unfold M_html.ordinary in H. destruct (t_state t) eqn:Es; cbn [phase_in] in P; try (exfalso; exact P).
  all: cbv beta iota delta [on_script_data on_script_data_less_than_sign on_text_end_tag_open on_text_end_tag_name on_script_data_escape_start on_script_data_escape_start_dash
    on_before_attribute_name on_attribute_name on_after_attribute_name on_before_attribute_value on_attribute_value_quoted on_attribute_value_unquoted
    on_after_attribute_value_quoted on_self_closing_start_tag on_character_reference on_ambiguous_ampersand on_numeric_character_reference on_reference_start
    on_hexadecimal_character_reference on_decimal_character_reference stay stay' go again again_return] in H; try discriminate H.
  all: destruct i as [c|]; [specialize (U c eq_refl)|clear U]; crack H; injection H as <- <-.
  all: try (match goal with E : emit_tag _ = Some _ |- _ => right; refine (cl_emit _ _ E _) end; first [exact P|match goal with E : set_self_closing _ = Some _ |- _ => exact (proj1 (cl_self _ _ E P)) end]).
  all: repeat match goal with
    | E : create_attribute ?u = Some ?v, C : Cl ?u |- _ => destruct (cl_create _ _ E C) as (? & ? & ?); clear E
    | E : unify_attribute ?u = Some ?v, C : Cl ?u |- _ => destruct (cl_unify _ _ E C) as (? & ? & ?); clear E
    | E : push_attribute_name _ ?u = Some ?v, C : Cl ?u |- _ => destruct (cl_attr _ _ _ E C) as (? & ? & ?); clear E
    | E : push_attribute_value _ ?u = Some ?v, C : Cl ?u |- _ => destruct (cl_attr _ _ _ E C) as (? & ? & ?); clear E
    | E : push_attribute_value _ ?u = Some ?v, C : Cl ?u /\ attr ?u |- _ => destruct C as [C ?]; destruct (cl_attr _ _ _ E C) as (? & ? & ?); clear E
    end.
  all: try (left; first [eapply phase_at; [first [exact Es|etransitivity; [eassumption|exact Es]]|]|eapply phase_at; [reflexivity|]]; cbn [phase_in];
    first [assumption|exact P|exact (proj1 P)|exact (pend_char _ _ P)|exact (pend_char _ _ (proj1 P))|exact (pend_eof _ P)|exact (cl_eof _ P)|exact (pend_char _ _ (pend_char _ _ P))
      |exact (pend_chars _ _ (pend_char _ _ (pend_char _ _ (proj1 P))))|exact (conj (proj1 P) (proj2 P))|exact (conj P eq_refl)]).
  all: try (match goal with F : flush_reference _ = Some ?u, R : to_return ?u = Some ?v |- phase ?v _ \/ _ => left; eapply cl_return; [exact R| |];
    destruct P as [C A]; destruct (cl_flush _ _ F C A) as [C1 R1]; [exact C1|unfold attr, consumed_as_part_of_attribute in *; rewrite R1; exact A] end).
  all: try (match goal with R : to_return ?u = Some ?v |- phase ?v _ \/ _ => left; destruct P as [C A]; exact (cl_return _ _ _ R C A) end).
  all: repeat match goal with E : (_ =? _) = true |- _ => apply Z.eqb_eq in E; subst end.
  - left. apply (phase_at script_data_less_than_sign_state); [reflexivity|]. split; [exact P|]. exists pre. reflexivity.
  - left. apply (phase_at script_data_escape_start_state); [reflexivity|]. destruct P as (P & p & ->). split; [do 2 apply pend_char; exact P|]. exists p. rewrite <- app_assoc. reflexivity.
  - left. apply (phase_at before_attribute_name_state); [reflexivity|]. destruct P. now apply appropriate.
  - left. apply (phase_at self_closing_start_tag_state); [reflexivity|]. destruct P. now apply appropriate.
  - right. destruct P. match goal with E : emit_tag _ = Some _ |- _ => refine (cl_emit _ _ E _) end. now apply appropriate.
  - left. destruct P as [P I]. match goal with E : push_tag_name _ _ = Some _ |- _ => destruct (tag3 _ _ _ E I) as (g1 & _ & ->) end. eapply phase_at; [exact Es|]. split; [exact P|exact I].
  - left. destruct P as [P I]. match goal with E : push_tag_name _ _ = Some _ |- _ => destruct (tag3 _ _ _ E I) as (g1 & _ & ->) end. eapply phase_at; [exact Es|]. split; [exact P|exact I].
  - left. apply (phase_at script_data_escape_start_dash_state); [reflexivity|]. destruct P as (P & p & ->). split; [apply pend_char; exact P|]. exists p. rewrite <- app_assoc. reflexivity.
  - exfalso. destruct P as (P & p & ->). apply (U eq_refl p []). rewrite <- app_assoc. reflexivity.
  - left. eapply phase_at; [etransitivity; [eassumption|exact Es]|]. cbn [phase_in]. split; [assumption|]. unfold attr, consumed_as_part_of_attribute in *.
    match goal with R : t_return _ = t_return _ |- _ => rewrite R end. assumption.
  - exfalso. destruct P as [_ A]. unfold attr in A. congruence.
Qed.

Lemma wait_step t r p pre : phase t pre -> waits (t_state t) = true -> pstep t r = Some p -> exists t1 d r1, p = Next t1 r1 /\ r = d ++ r1 /\ phase t1 (pre ++ d).
Proof.
  intros P Wt H. unfold phase in P. unfold L_html1.pstep in H. destruct (t_state t) eqn:Es; try discriminate Wt; cbn [phase_in] in P; try (exfalso; exact P); destruct P as [C A].
  - destruct (match_ncr r) as [[len a]|]; [|discriminate]. destruct len as [|k].
    + destruct (flush_reference t) as [t1|] eqn:F; [|discriminate]. injection H as <-. exists (set_state ambiguous_ampersand_state t1), [], r. split; [reflexivity|]. split; [reflexivity|].
      destruct (cl_flush _ _ F C A) as [C1 R1]. apply (phase_at ambiguous_ampersand_state); [reflexivity|]. split; [exact C1|]. unfold attr, consumed_as_part_of_attribute in *.
      cbn [set_state t_return]. rewrite R1. exact A.
    + destruct (nth_error r k) as [tail|]; [|discriminate]. cbv zeta in H.
      match type of H with match flush_reference ?u with Some _ => _ | None => None end = _ => destruct (flush_reference u) as [t3|] eqn:F; [|discriminate]; assert (X : Cl u /\ attr u) by (destruct (match skipn (S k) r with [] => _ | _ => _ end); split; assumption) end.
      destruct (to_return t3) as [t4|] eqn:R; [|discriminate]. apply Next_inj' in H. subst p. exists t4, (firstn (S k) r), (skipn (S k) r). split; [reflexivity|]. split; [symmetry; apply firstn_skipn|].
      destruct X as [C0 A0]. destruct (cl_flush _ _ F C0 A0) as [C1 R1]. eapply cl_return; [exact R|exact C1|]. unfold attr, consumed_as_part_of_attribute in *. rewrite R1. exact A0.
  - cbv zeta in H. match type of H with match flush_reference ?u with Some _ => _ | None => None end = _ => destruct (flush_reference u) as [t3|] eqn:F; [|discriminate] end.
    destruct (to_return t3) as [t4|] eqn:R; [|discriminate]. injection H as <-. exists t4, [], r. split; [reflexivity|]. split; [reflexivity|].
    destruct (cl_flush _ _ F C A) as [C1 R1]. eapply cl_return; [exact R|exact C1|]. unfold attr, consumed_as_part_of_attribute in *. rewrite R1. exact A.
Qed.

Lemma ended_more t t1 l : Ended t -> t_out t1 = t_out t ++ l -> Ended t1.
Proof. intros (l0 & g & b & E & Q & N) O. exists l0, g, (b ++ l). rewrite O, E, <- !app_assoc. auto. Qed.

Variable R : list Z.
Hypothesis free : unescaped R.
Definition Rd (t : tok) (r : list Z) : Prop := Ended t \/ exists pre, R = pre ++ r /\ phase t pre.

Lemma rd_next t r t1 r1 : Rd t r -> pstep t r = Some (Next t1 r1) -> Rd t1 r1.
Proof.
  intros [E|(pre & W & P)] H.
  - left. pose proof (pstep_out switch switch_text cdata match_ncr _ _ _ H) as (l & O & _). eapply ended_more; eassumption.
  - destruct (waits (t_state t)) eqn:Wt.
    + destruct (wait_step _ _ _ _ P Wt H) as (u & d & r2 & E & -> & P1). injection E as <- <-. right. exists (pre ++ d). rewrite <- app_assoc. auto.
    + rewrite pstep_ordinary in H by exact Wt. destruct r as [|c r].
      * destruct (ordinary t None) as [[u b]|] eqn:E; [|discriminate]. destruct b; [|discriminate]. injection H as <- <-.
        destruct (ord_step _ _ _ _ _ P E) as [Q|Q]; [discriminate|right; eauto|now left].
      * destruct (ordinary t (Some c)) as [[u b]|] eqn:E; [|discriminate]. apply Next_inj' in H. injection H as -> ->.
        destruct (ord_step _ _ _ _ _ P E) as [Q|Q].
        -- intros x [= <-] -> p q K. apply (free p (q ++ r)). rewrite W. change (c :: r) with ([c] ++ r). rewrite app_assoc, K, <- !app_assoc. reflexivity.
        -- right. destruct b; [eauto|]. exists (pre ++ [c]). rewrite <- app_assoc. auto.
        -- now left.
Qed.
Lemma rd_halt t t1 : Rd t [] -> pstep t [] = Some (Halt t1) -> Rd t1 [].
Proof.
  intros [E|(pre & W & P)] H.
  - left. pose proof (pstep_out switch switch_text cdata match_ncr _ _ _ H) as (l & O & _). eapply ended_more; eassumption.
  - destruct (waits (t_state t)) eqn:Wt.
    + destruct (wait_step _ _ _ _ P Wt H) as (u & d & r2 & E & _). discriminate E.
    + rewrite pstep_ordinary in H by exact Wt. destruct (ordinary t None) as [[u b]|] eqn:E; [|discriminate]. destruct b; [discriminate|]. injection H as <-.
      destruct (ord_step _ _ _ _ _ P E) as [Q|Q]; [discriminate|right; eauto|now left].
Qed.
Lemma rd_out t r : Rd t r -> exists l, t_out t = out0 ++ l /\ (quiet l \/ exists a g b, l = a ++ TEnd g :: b /\ quiet a /\ g_name g = name).
Proof.
  intros [(l & g & b & E & Q & N)|(pre & _ & P)]; [exists (l ++ TEnd g :: b); split; [exact E|right; eauto 6]|].
  assert (K : Pend t).
  { unfold phase in P. destruct (t_state t); cbn [phase_in] in P; try (exfalso; exact P); try exact P; try exact (proj1 P); exact (proj1 (proj1 P)). }
  destruct K as [(l & E & Q) _]. eauto.
Qed.
End Script.

(** A text in which the script data state is reached: behind that point there are only characters, or characters, an end tag with the name of the last start
    tag, and whatever. *)
Theorem script_quiet switch cdata text fuel tokens t R : text_switch switch -> tokenize switch cdata match_ncr fuel tok_init text = Val tokens ->
  psteps switch cdata match_ncr tok_init (newlines text) t R -> t_state t = script_data_state -> unescaped R ->
  (exists x, t_out t = tokens ++ x) \/
  exists l, tokens = t_out t ++ l /\ (quiet l \/ exists a g b, l = a ++ TEnd g :: b /\ quiet a /\ g_name g = t_last t).
Proof.
  intros Sw H S Es U.
  assert (S0 : Rd (t_out t) (t_last t) R t R).
  { right. exists []. split; [reflexivity|]. apply (phase_at _ _ script_data_state); [exact Es|]. split; [|reflexivity]. exists []. rewrite app_nil_r. split; [reflexivity|constructor]. }
  destruct (carried switch cdata tok_init text fuel tokens (fun u r => psteps switch cdata match_ncr u r t R \/ Rd (t_out t) (t_last t) R u r) H) as (u & r & K & ->).
  - left. exact S.
  - intros u r u1 r1 [K|K] P.
    + inversion K as [|? ? u2 r2 ? ? A B]; subst.
      * right. eapply rd_next; eauto.
      * rewrite P in A. apply Next_inj' in A. injection A as -> ->. left. exact B.
    + right. eapply rd_next; eauto.
  - intros u u1 [K|K] P.
    + right. inversion K; subst; [|congruence]. eapply rd_halt; eauto.
    + right. eapply rd_halt; eauto.
  - destruct K as [K|K].
    + left. destruct (psteps_out switch Sw cdata match_ncr _ _ _ _ K) as (l & E & _). eauto.
    + right. exact (rd_out _ _ _ _ _ K).
Qed.
