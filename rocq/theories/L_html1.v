(** The HTML tokeniser as a machine that reads a whole text (spec), and first facts about the handlers. *)
From Coq Require Import ZArith List Bool Lia.
From Verif Require Import M_infra M_encoding M_html.
Import ListNotations.
Open Scope Z_scope.
Open Scope html_scope.

(** Line breaks: CR LF and CR both become LF. *)
Fixpoint newlines (text : list Z) : list Z :=
  match text with
  | [] => []
  | 0xD :: r => 0xA :: match r with 0xA :: r1 => newlines r1 | _ => newlines r end
  | c :: r => c :: newlines r
  end.

Section Pull.
Variable switch : list token -> option state.
Variable cdata : list token -> bool.
Variable ncr : list Z -> option (nat * list Z).

(** One step of reading: a new state and the rest of the text, or the end (the end of the text was consumed). *)
Inductive pull := Next (t : tok) (rest : list Z) | Halt (t : tok).

Definition pstep (t : tok) (rest : list Z) : option pull :=
  match t_state t with
  | markup_declaration_open_state =>
      Some (if match_label str_dashes rest false then Next (set_state comment_start_state (set_comment [] t)) (skipn 2 rest)
            else if match_label str_doctype rest true then Next (set_state DOCTYPE_state t) (skipn 7 rest)
            else if match_label str_cdata rest false then
              (if cdata (t_out t) then Next (set_state CDATA_section_state t) (skipn 7 rest)
               else Next (set_state bogus_comment_state (set_comment str_cdata t)) (skipn 7 rest))
            else Next (set_state bogus_comment_state (set_comment [] t)) rest)
  | after_DOCTYPE_name_state =>
      Some (match rest with
            | [] => Halt (emit_eof (emit_doctype (set_quirks t)))
            | c :: r =>
                if is_space c then Next t r
                else if c =? 0x3E then Next (emit_doctype (set_state data_state t)) r
                else if match_label str_public rest true then Next (set_state after_DOCTYPE_public_keyword_state t) (skipn 6 rest)
                else if match_label str_system rest true then Next (set_state after_DOCTYPE_system_keyword_state t) (skipn 6 rest)
                else Next (set_state bogus_DOCTYPE_state (set_quirks t)) rest
            end)
  | named_character_reference_state =>
      do (len, a) <- ncr rest;
      match len with
      | O => do t1 <- flush_reference t; Some (Next (set_state ambiguous_ampersand_state t1) rest)
      | S k =>
          do tail <- nth_error rest k;
          let t1 := set_tmp (t_tmp t ++ firstn len rest) t in
          let keep :=
            match skipn len rest with
            | [] => false
            | c :: _ => consumed_as_part_of_attribute t1 && negb (tail =? 0x3B) && ((c =? 0x3D) || is_ascii_alphanumeric c)
            end in
          do t3 <- flush_reference (if keep then t1 else set_tmp a t1);
          do t4 <- to_return t3;
          Some (Next t4 (skipn len rest))
      end
  | numeric_character_reference_end_state =>
      let x := reference_code (t_code t) in
      do t1 <- flush_reference (set_tmp [x] (set_code x t));
      do t2 <- to_return t1;
      Some (Next t2 rest)
  | _ =>
      match rest with
      | [] => do (t1, b) <- ordinary switch t None; Some (if b : bool then Next t1 [] else Halt t1)
      | c :: r => do (t1, b) <- ordinary switch t (Some c); Some (Next t1 (if b : bool then c :: r else r))
      end
  end.

Inductive psteps : tok -> list Z -> tok -> list Z -> Prop :=
| ps_refl : forall t r, psteps t r t r
| ps_step : forall t r t1 r1 t2 r2, pstep t r = Some (Next t1 r1) -> psteps t1 r1 t2 r2 -> psteps t r t2 r2.

Definition phalts (t : tok) (r : list Z) (t' : tok) : Prop :=
  exists t1 r1, psteps t r t1 r1 /\ pstep t1 r1 = Some (Halt t').

Lemma ps_trans t r t1 r1 t2 r2 : psteps t r t1 r1 -> psteps t1 r1 t2 r2 -> psteps t r t2 r2.
Proof. induction 1; intro; [assumption|]. econstructor; eauto. Qed.
Lemma ps_one t r t1 r1 : pstep t r = Some (Next t1 r1) -> psteps t r t1 r1.
Proof. intro; econstructor; [eassumption|constructor]. Qed.
Lemma ph_trans t r t1 r1 t' : psteps t r t1 r1 -> phalts t1 r1 t' -> phalts t r t'.
Proof. intros H (t2 & r2 & A & B). exists t2, r2. split; [eapply ps_trans; eauto|assumption]. Qed.
Lemma ph_halt t r t' : pstep t r = Some (Halt t') -> phalts t r t'.
Proof. intro; exists t, r; split; [constructor|assumption]. Qed.
Lemma ps_det_halt t r t1 r1 : psteps t r t1 r1 -> forall t', phalts t r t' -> phalts t1 r1 t'.
Proof.
  induction 1; intros t' H1; [assumption|]. apply IHpsteps.
  destruct H1 as (a & b & A & B). inversion A; subst.
  - congruence.
  - exists a, b. rewrite H in H1. inversion H1; subst. split; assumption.
Qed.
Lemma ph_det t r t' t'' : phalts t r t' -> phalts t r t'' -> t' = t''.
Proof.
  intros (a & b & A & B) H. pose proof (ps_det_halt _ _ _ _ A _ H) as (a1 & b1 & A1 & B1).
  inversion A1; subst; congruence.
Qed.

(** ** The tag under construction *)
Definition idok (t : tok) : Prop := t_id t = 2 \/ t_id t = 3.
Definition attrok (t : tok) : Prop := exists g, current_tag t = Some g /\ g_attributes g <> [].

(** What the tag helpers leave alone. *)
Definition same_but_tag (t t1 : tok) : Prop :=
  t_state t1 = t_state t /\ t_return t1 = t_return t /\ t_tmp t1 = t_tmp t /\ t_doctype t1 = t_doctype t /\
  t_comment t1 = t_comment t /\ t_id t1 = t_id t /\ t_last t1 = t_last t /\ t_code t1 = t_code t /\ t_out t1 = t_out t.

Lemma attrok_id t : attrok t -> idok t.
Proof.
  intros (g & H & _). unfold current_tag in H. unfold idok. revert H.
  destruct (t_id t =? 2) eqn:E; [intros _; left; lia|]. destruct (t_id t =? 3) eqn:E1; [intros _; right; lia|discriminate].
Qed.
Lemma current_tag_ok t : idok t -> exists g, current_tag t = Some g.
Proof. unfold current_tag. intros [-> | ->]; cbn; eauto. Qed.
Lemma current_set_tag g t : idok t -> current_tag (set_current_tag g t) = Some g.
Proof. unfold current_tag, set_current_tag. intros [E|E]; rewrite E; cbn; rewrite E; reflexivity. Qed.
Lemma same_set_tag g t : same_but_tag t (set_current_tag g t).
Proof. unfold set_current_tag. destruct (t_id t =? 2); repeat split. Qed.

Lemma on_current_tag_ok f t g g1 : current_tag t = Some g -> f g = Some g1 ->
  exists t1, on_current_tag f t = Some t1 /\ current_tag t1 = Some g1 /\ same_but_tag t t1.
Proof.
  intros H H1. unfold on_current_tag. rewrite H, H1. eexists. split; [reflexivity|]. split; [|apply same_set_tag].
  apply current_set_tag. unfold current_tag in H. unfold idok.
  destruct (t_id t =? 2) eqn:E; [left; lia|]. destruct (t_id t =? 3) eqn:E1; [right; lia|discriminate].
Qed.

Lemma push_tag_name_ok c t g : current_tag t = Some g ->
  exists t1, push_tag_name c t = Some t1 /\ same_but_tag t t1 /\
    current_tag t1 = Some (Tag (g_name g ++ [c]) (g_self_closing g) (g_attributes g)).
Proof. intros H. destruct (on_current_tag_ok (fun g => Some (Tag (g_name g ++ [c]) (g_self_closing g) (g_attributes g))) t g _ H eq_refl) as (t1 & A & B & C). eauto. Qed.
Lemma set_self_closing_ok t g : current_tag t = Some g ->
  exists t1, set_self_closing t = Some t1 /\ same_but_tag t t1 /\
    current_tag t1 = Some (Tag (g_name g) true (g_attributes g)).
Proof. intros H. destruct (on_current_tag_ok (fun g => Some (Tag (g_name g) true (g_attributes g))) t g _ H eq_refl) as (t1 & A & B & C). eauto. Qed.
Lemma create_attribute_ok t g : current_tag t = Some g ->
  exists t1, create_attribute t = Some t1 /\ same_but_tag t t1 /\
    current_tag t1 = Some (Tag (g_name g) (g_self_closing g) (g_attributes g ++ [attribute_clear])).
Proof. intros H. destruct (on_current_tag_ok (fun g => Some (Tag (g_name g) (g_self_closing g) (g_attributes g ++ [attribute_clear]))) t g _ H eq_refl) as (t1 & A & B & C). eauto. Qed.

Lemma map_last_snoc A (f : A -> A) l a : map_last f (l ++ [a]) = Some (l ++ [f a]).
Proof.
  induction l as [|x l IH]; [reflexivity|]. cbn. rewrite IH. destruct (l ++ [a]) eqn:E; [|reflexivity].
  destruct l; discriminate.
Qed.
Lemma snoc_of A (l : list A) : l <> [] -> exists l1 a, l = l1 ++ [a].
Proof. intro H. destruct (exists_last H) as (l1 & a & E). eauto. Qed.

Lemma on_current_attribute_ok f t g l a : current_tag t = Some g -> g_attributes g = l ++ [a] ->
  exists t1, on_current_attribute f t = Some t1 /\ same_but_tag t t1 /\
    current_tag t1 = Some (Tag (g_name g) (g_self_closing g) (l ++ [f a])).
Proof.
  intros H H1. unfold on_current_attribute.
  destruct (on_current_tag_ok (fun g => do l <- map_last f (g_attributes g); Some (Tag (g_name g) (g_self_closing g) l)) t g
     (Tag (g_name g) (g_self_closing g) (l ++ [f a])) H) as (t1 & A & B & C).
  - cbv beta. rewrite H1, map_last_snoc. reflexivity.
  - eauto.
Qed.

Lemma eq_str_spec a b : eq_str a b = true <-> a = b.
Proof.
  revert b. induction a as [|x a IH]; intros [|y b]; cbn; try (split; congruence).
  rewrite andb_true_iff, IH, Z.eqb_eq. split; [intros [-> ->]; reflexivity|intro H; inversion H; auto].
Qed.

Lemma unify_attribute_ok t g l a : current_tag t = Some g -> g_attributes g = l ++ [a] ->
  exists t1, unify_attribute t = Some t1 /\ same_but_tag t t1 /\
    current_tag t1 = Some (Tag (g_name g) (g_self_closing g)
      (l ++ [Attribute (a_name a) (a_value a) (if existsb (fun b => eq_str (a_name b) (a_name a)) l then true else a_omitted a)])).
Proof.
  intros H H1. unfold unify_attribute.
  match goal with |- exists t1, on_current_tag ?f t = _ /\ _ => set (F := f) end.
  edestruct (on_current_tag_ok F t g) as (t1 & A & B & C); [exact H| |eauto].
  unfold F. cbv zeta. rewrite H1, last_last, removelast_last, map_last_snoc. reflexivity.
Qed.

Lemma attr_fun_ok f t : attrok t -> exists t1, on_current_attribute f t = Some t1 /\ same_but_tag t t1 /\ attrok t1.
Proof.
  intros (g & H & N). destruct (snoc_of _ _ N) as (l & a & E).
  destruct (on_current_attribute_ok f t g l a H E) as (t1 & A & B & C). exists t1. split; [exact A|]. split; [exact B|].
  eexists. split; [exact C|]. cbn. destruct l; discriminate.
Qed.
Lemma unify_ok t : attrok t -> exists t1, unify_attribute t = Some t1 /\ same_but_tag t t1 /\ attrok t1.
Proof.
  intros (g & H & N). destruct (snoc_of _ _ N) as (l & a & E).
  destruct (unify_attribute_ok t g l a H E) as (t1 & A & B & C). exists t1. split; [exact A|]. split; [exact B|].
  eexists. split; [exact C|]. cbn. destruct l; discriminate.
Qed.
Lemma create_ok t : idok t -> exists t1, create_attribute t = Some t1 /\ same_but_tag t t1 /\ attrok t1.
Proof.
  intro H. destruct (current_tag_ok t H) as (g & E). destruct (create_attribute_ok t g E) as (t1 & A & B & C).
  exists t1. split; [exact A|]. split; [exact B|]. eexists. split; [exact C|]. cbn. destruct (g_attributes g); discriminate.
Qed.
Lemma push_name_ok c t : idok t -> exists t1, push_tag_name c t = Some t1 /\ same_but_tag t t1.
Proof. intro H. destruct (current_tag_ok t H) as (g & E). destruct (push_tag_name_ok c t g E) as (t1 & A & B & C). eauto. Qed.
Lemma self_closing_ok t : idok t -> exists t1, set_self_closing t = Some t1 /\ same_but_tag t t1.
Proof. intro H. destruct (current_tag_ok t H) as (g & E). destruct (set_self_closing_ok t g E) as (t1 & A & B & C). eauto. Qed.
Lemma same_id t t1 : same_but_tag t t1 -> idok t -> idok t1.
Proof. unfold same_but_tag, idok. intuition congruence. Qed.

(** ** The text and end-of-file part of the output *)
Definition no_eof (l : list token) : Prop := Forall (fun k => k <> TEof) l.
Lemma no_eof_chars s : no_eof (map TChar s).
Proof. apply Forall_forall. intros k H. apply in_map_iff in H. destruct H as (c & <- & _). discriminate. Qed.

(** what an ordinary handler adds to the output *)
Definition adds (t t1 : tok) (l : list token) : Prop := t_out t1 = t_out t ++ l.
End Pull.
