(** Reading back each kind of markup: text, tags with attributes, comments, processing instructions, doctypes. *)
From Coq Require Import ZArith List Bool Lia String.
From Verif Require Import M_infra M_encoding M_labels M_html M_html_ncr M_html_serialize L_html_names L_html1 L_html2 L_html3 L_html4 L_html6.
Import ListNotations.
Open Scope Z_scope.
Open Scope html_scope.

Ltac zc :=
  repeat match goal with
  | |- context [Z.eqb ?a ?b] => first [rewrite (proj2 (Z.eqb_neq a b)) by lia | rewrite (proj2 (Z.eqb_eq a b)) by lia]
  | |- context [Z.leb ?a ?b] => first [rewrite (proj2 (Z.leb_le a b)) by lia | rewrite (proj2 (Z.leb_gt a b)) by lia]
  end; cbn [orb andb negb].

(** the references the serialiser writes *)
Definition written : list (list Z * list Z) :=
  [(lit "amp;", [0x26]); (lit "nbsp;", [0xA0]); (lit "quot;", [0x22]); (lit "lt;", [0x3C]); (lit "gt;", [0x3E])].
Lemma written_standard e : In e written -> In e standard_names.
Proof.
  intro H. assert (K : forallb (fun e => existsb (fun f => eq_str (fst e) (fst f) && eq_str (snd e) (snd f)) standard_names) written = true) by (vm_compute; reflexivity).
  rewrite forallb_forall in K. specialize (K e H). apply existsb_exists in K. destruct K as (f & Hf & E). apply andb_true_iff in E.
  destruct E as [E1 E2]. apply eq_str_spec in E1. apply eq_str_spec in E2. destruct e, f; cbn [fst snd] in E1, E2; subst; exact Hf.
Qed.

Section Read.
Variable switch : list token -> option state.
Variable cdata : list token -> bool.
Notation nsteps := (nsteps switch cdata).
Notation ordinary := (ordinary switch).

Lemma written_read t n cps r : In (n, cps) written -> waits (t_state t) = false ->
  ordinary t (Some 0x26) = Some (set_state character_reference_state (set_return (t_state t) t), false) ->
  match t_state t with
  | data_state | RCDATA_state => exists t1, nsteps t (0x26 :: n ++ r) t1 r /\ text_like t t1 cps
  | attribute_value_double_quoted_state => attrok t -> exists t1, nsteps t (0x26 :: n ++ r) t1 r /\ value_like t t1 cps
  | _ => True
  end.
Proof.
  intros H W O. apply read_reference; [apply written_standard; exact H| | | |exact W|exact O].
  - cbn [written In] in H. destruct H as [H|[H|[H|[H|[H|[]]]]]]; inversion H; subst; reflexivity.
  - cbn [written In] in H. destruct H as [H|[H|[H|[H|[H|[]]]]]]; inversion H; subst; discriminate.
  - cbn [written In] in H. destruct H as [H|[H|[H|[H|[H|[]]]]]]; inversion H; subst; eexists; eexists; (split; [reflexivity|reflexivity]).
Qed.

(** ** Text *)
Lemma text_like_refl t : text_like t t [].
Proof. split; [reflexivity|]. split; [cbn; rewrite app_nil_r; reflexivity|reflexivity]. Qed.
Lemma text_like_trans t t1 t2 a b : text_like t t1 a -> text_like t1 t2 b -> text_like t t2 (a ++ b).
Proof. intros (A & B & C) (D & E & F). split; [congruence|]. split; [rewrite E, B, map_app, app_assoc; reflexivity|congruence]. Qed.

Definition in_text (s : state) (c : Z) : Prop :=
  match s with data_state => c <> 0xD | RCDATA_state => c <> 0 /\ c <> 0xD | _ => False end.

Lemma read_char t c r : in_text (t_state t) c -> exists t1, nsteps t (escape_code_point false c ++ r) t1 r /\ text_like t t1 [c].
Proof.
  intro H. assert (W : waits (t_state t) = false) by (destruct (t_state t); try (exfalso; exact H); reflexivity).
  assert (O : ordinary t (Some 0x26) = Some (set_state character_reference_state (set_return (t_state t) t), false)).
  { unfold M_html.ordinary. destruct (t_state t); try (exfalso; exact H); reflexivity. }
  assert (K : forall n cps, In (n, cps) written -> exists t1, nsteps t (0x26 :: n ++ r) t1 r /\ text_like t t1 cps).
  { intros n cps Hn. pose proof (written_read t n cps r Hn W O) as K. destruct (t_state t); try (exfalso; exact H); exact K. }
  unfold escape_code_point.
  destruct (Z.eqb_spec c 0x26); [subst; apply (K (lit "amp;")); cbn; tauto|].
  destruct (Z.eqb_spec c 0xA0); [subst; apply (K (lit "nbsp;")); cbn; tauto|].
  destruct (Z.eqb_spec c 0x3C); [subst; apply (K (lit "lt;")); cbn; tauto|].
  destruct (Z.eqb_spec c 0x3E); [subst; apply (K (lit "gt;")); cbn; tauto|].
  exists (emit_char c t). split; [|repeat split].
  apply (step_c switch cdata t c r (emit_char c t) false W). unfold M_html.ordinary.
  destruct (t_state t); try (exfalso; exact H); cbn in H.
  - unfold on_data. zc. reflexivity.
  - unfold on_RCDATA. zc. reflexivity.
Qed.

Lemma read_text s : forall t r, Forall (in_text (t_state t)) s -> exists t1, nsteps t (escape_string s false ++ r) t1 r /\ text_like t t1 s.
Proof.
  induction s as [|c s IH]; intros t r F.
  - exists t. split; [constructor|apply text_like_refl].
  - inversion F as [|? ? Fc Fs]; subst. cbn [escape_string flat_map]. rewrite <- app_assoc.
    destruct (read_char t c (escape_string s false ++ r) Fc) as (t1 & H1 & L1).
    destruct (IH t1 r) as (t2 & H2 & L2); [rewrite (proj1 L1); exact Fs|].
    exists t2. split; [eapply ns_trans; eassumption|]. exact (text_like_trans _ _ _ _ _ L1 L2).
Qed.

(** Raw text: nothing is escaped; [<] may not be followed by [/], and in a script not by an exclamation mark. *)
Fixpoint no_follow (x : Z) (s : list Z) : Prop :=
  match s with
  | [] => True
  | c :: r => (c = 0x3C -> match r with d :: _ => d <> x | [] => True end) /\ no_follow x r
  end.
Definition no_close : list Z -> Prop := no_follow 0x2F.
Definition raw_state (s : state) : Prop := s = RAWTEXT_state \/ s = script_data_state.
Definition after_lt (s : state) : state := match s with RAWTEXT_state => RAWTEXT_less_than_sign_state | _ => script_data_less_than_sign_state end.
Lemma read_raw s : forall t r, raw_state (t_state t) -> Forall (fun c => c <> 0 /\ c <> 0xD) s -> no_close s ->
  (t_state t = script_data_state -> no_follow 0x21 s) -> (forall u d, r = d :: u -> d <> 0x2F /\ d <> 0x21) ->
  exists t1, nsteps t (s ++ r) t1 r /\ text_like t t1 s.
Proof.
  induction s as [|c s IH]; intros t r Hs F N Sc Hr.
  - exists t. split; [constructor|apply text_like_refl].
  - inversion F as [|? ? [F1 F2] F3]; subst. destruct N as [N1 N2].
    assert (K : exists t1, nsteps t ((c :: s) ++ r) t1 (s ++ r) /\ text_like t t1 [c]).
    { cbn [app]. destruct (Z.eq_dec c 0x3C) as [->|Nc].
      - set (t2 := set_state (after_lt (t_state t)) t). set (t3 := set_state (t_state t) (emit_char 0x3C t2)).
        exists t3. split; [|repeat split].
        eapply ns_trans; [apply (step_c switch cdata t 0x3C (s ++ r) t2 false); [destruct Hs as [-> | ->]; reflexivity|unfold M_html.ordinary, t2; destruct Hs as [Hs|Hs]; rewrite Hs; reflexivity]|].
        assert (D : forall d u, s ++ r = d :: u -> d <> 0x2F /\ (t_state t = script_data_state -> d <> 0x21)).
        { intros d u E. destruct s as [|x s']; [destruct (Hr u d E) as [A B]; split; [exact A|intros _; exact B]|]. inversion E; subst. split; [apply N1; reflexivity|].
          intro X. destruct (Sc X) as [A _]. apply A. reflexivity. }
        destruct (s ++ r) as [|d u] eqn:E.
        + apply ns_one; [unfold t2; destruct Hs as [Hs|Hs]; rewrite Hs; discriminate|]. unfold t3, t2. destruct Hs as [Hs|Hs]; rewrite Hs; reflexivity.
        + destruct (D d u eq_refl) as [D1 D2].
          apply (step_c switch cdata t2 d u t3 true); [unfold t2; destruct Hs as [-> | ->]; reflexivity|].
          unfold M_html.ordinary, t3, t2. cbn [t_state set_state]. destruct Hs as [Hs|Hs]; rewrite Hs; cbn [after_lt].
          * unfold on_less_than_sign. zc. reflexivity.
          * specialize (D2 Hs). unfold on_script_data_less_than_sign. zc. reflexivity.
      - exists (emit_char c t). split; [|repeat split].
        apply (step_c switch cdata t c (s ++ r) (emit_char c t) false); [destruct Hs as [-> | ->]; reflexivity|].
        unfold M_html.ordinary. destruct Hs as [-> | ->]; [unfold on_RAWTEXT|unfold on_script_data]; zc; reflexivity. }
    destruct K as (t1 & H1 & L1).
    destruct (IH t1 r) as (t2 & H2 & L2); [rewrite (proj1 L1); exact Hs|exact F3|exact N2| |exact Hr|].
    { rewrite (proj1 L1). intros E. apply (Sc E). }
    exists t2. split; [eapply ns_trans; eassumption|]. exact (text_like_trans _ _ _ _ _ L1 L2).
Qed.

(** ** Tags *)
(** a tag of kind [id] (2: start, 3: end) under construction since [t0] *)
Definition intag (t0 t : tok) (id : Z) (g : tag) (s : state) : Prop :=
  t_state t = s /\ t_id t = id /\ t_out t = t_out t0 /\ t_last t = t_last t0 /\ current_tag t = Some g.
Definition name_start (c : Z) : Prop := 0x61 <= c <= 0x7A.
Definition name_char (c : Z) : Prop :=
  c <> 0 /\ c <> 0x9 /\ c <> 0xA /\ c <> 0xC /\ c <> 0xD /\ c <> 0x20 /\ c <> 0x2F /\ c <> 0x3E /\ ~ (0x41 <= c <= 0x5A).

Lemma intag_same t0 t t1 id g g1 s : intag t0 t id g s -> same_but_tag t t1 -> current_tag t1 = Some g1 -> intag t0 t1 id g1 s.
Proof.
  intros (A & B & C & D & E) (S1 & S2 & S3 & S4 & S5 & S6 & S7 & S8 & S9) H. repeat split; try congruence.
Qed.
Lemma intag_state t0 t id g s s1 : intag t0 t id g s -> intag t0 (set_state s1 t) id g s1.
Proof. intros (A & B & C & D & E). repeat split; assumption. Qed.

Lemma read_tag_name n : forall t0 t r id g, intag t0 t id g tag_name_state -> Forall name_char n ->
  exists t1, nsteps t (n ++ r) t1 r /\ intag t0 t1 id (Tag (g_name g ++ n) (g_self_closing g) (g_attributes g)) tag_name_state.
Proof.
  induction n as [|c n IH]; intros t0 t r id g I F.
  - exists t. split; [constructor|]. rewrite app_nil_r. destruct g; exact I.
  - inversion F as [|? ? Fc Fn]; subst. destruct (push_tag_name_ok c t g) as (t1 & E1 & S1 & C1); [apply I|].
    pose proof (intag_same _ _ _ _ _ _ _ I S1 C1) as I1. destruct (IH _ _ r _ _ I1 Fn) as (t2 & H2 & I2). cbn [g_name g_self_closing g_attributes] in I2.
    exists t2. rewrite <- app_assoc in I2. split; [|exact I2]. cbn [app]. eapply ns_trans; [|exact H2].
    destruct I as (Es & _). apply (step_c switch cdata t c (n ++ r) t1 false); [rewrite Es; reflexivity|].
    unfold M_html.ordinary. rewrite Es. unfold on_tag_name, is_space, is_ascii_upper_alpha. unfold name_char in Fc. rewrite E1.
    assert (U : (0x41 <=? c) && (c <=? 0x5A) = false) by lia. rewrite U. zc. reflexivity.
Qed.

(** the text between a name and its closing quote *)
Lemma read_value_char t c r : t_state t = attribute_value_double_quoted_state -> attrok t -> c <> 0 -> c <> 0xD ->
  exists t1, nsteps t (escape_code_point true c ++ r) t1 r /\ value_like t t1 [c].
Proof.
  intros Es At N0 ND. assert (W : waits (t_state t) = false) by (rewrite Es; reflexivity).
  assert (O : ordinary t (Some 0x26) = Some (set_state character_reference_state (set_return (t_state t) t), false)).
  { unfold M_html.ordinary. rewrite Es. reflexivity. }
  assert (K : forall n cps, In (n, cps) written -> exists t1, nsteps t (0x26 :: n ++ r) t1 r /\ value_like t t1 cps).
  { intros n cps Hn. pose proof (written_read t n cps r Hn W O) as K. rewrite Es in K. exact (K At). }
  unfold escape_code_point.
  destruct (Z.eqb_spec c 0x26); [subst; apply (K (lit "amp;")); cbn; tauto|].
  destruct (Z.eqb_spec c 0xA0); [subst; apply (K (lit "nbsp;")); cbn; tauto|].
  destruct (Z.eqb_spec c 0x22); [subst; apply (K (lit "quot;")); cbn; tauto|].
  destruct At as (g & Hg & Na). destruct (snoc_of _ _ Na) as (l & a & El).
  destruct (on_current_attribute_ok (fun a => Attribute (a_name a) (a_value a ++ [c]) (a_omitted a)) t g l a Hg El) as (t1 & E1 & B1 & C1).
  exists t1. split.
  - apply (step_c switch cdata t c r t1 false W). unfold M_html.ordinary. rewrite Es. unfold on_attribute_value_quoted, push_attribute_value. zc. rewrite E1. reflexivity.
  - destruct B1 as (B1 & B2 & B3 & B4 & B5 & B6 & B7 & B8 & B9). split; [exact B1|]. split; [exact B9|]. split; [exact B7|]. split; [exact B6|].
    intros g' l' a' Hg' El'. rewrite Hg in Hg'. inversion Hg'; subst g'. rewrite El in El'. apply app_inj_tail in El'. destruct El' as [<- <-]. exact C1.
Qed.

Lemma read_value v : forall t0 t r id g l a, intag t0 t id g attribute_value_double_quoted_state -> g_attributes g = l ++ [a] ->
  Forall (fun c => c <> 0 /\ c <> 0xD) v ->
  exists t1, nsteps t (escape_string v true ++ r) t1 r /\
    intag t0 t1 id (Tag (g_name g) (g_self_closing g) (l ++ [Attribute (a_name a) (a_value a ++ v) (a_omitted a)])) attribute_value_double_quoted_state.
Proof.
  induction v as [|c v IH]; intros t0 t r id g l a I E F.
  - exists t. split; [constructor|]. rewrite app_nil_r. destruct g as [gn gs ga], a; cbn [g_attributes] in E; subst; exact I.
  - inversion F as [|? ? [F1 F2] F3]; subst. cbn [escape_string flat_map]. rewrite <- app_assoc. pose proof I as (Es & Ei & Eo & El & Eg).
    destruct (read_value_char t c (escape_string v true ++ r) Es) as (t1 & H1 & V1); [exists g; split; [exact Eg|rewrite E; destruct l; discriminate]|exact F1|exact F2|].
    destruct V1 as (V1 & V2 & V3 & V4 & V5).
    assert (I1 : intag t0 t1 id (Tag (g_name g) (g_self_closing g) (l ++ [Attribute (a_name a) (a_value a ++ [c]) (a_omitted a)])) attribute_value_double_quoted_state).
    { repeat split; try congruence. apply V5; assumption. }
    destruct (IH t0 t1 r id _ l _ I1 eq_refl F3) as (t2 & H2 & I2). cbn [g_name g_self_closing a_name a_value a_omitted] in I2. rewrite <- app_assoc in I2.
    exists t2. split; [eapply ns_trans; eassumption|exact I2].
Qed.

Definition attr_char (c : Z) : Prop := name_char c /\ c <> 0x3D.
Lemma read_attr_name n : forall t0 t r id g l a, intag t0 t id g attribute_name_state -> g_attributes g = l ++ [a] -> Forall attr_char n ->
  exists t1, nsteps t (n ++ r) t1 r /\
    intag t0 t1 id (Tag (g_name g) (g_self_closing g) (l ++ [Attribute (a_name a ++ n) (a_value a) (a_omitted a)])) attribute_name_state.
Proof.
  induction n as [|c n IH]; intros t0 t r id g l a I E F.
  - exists t. split; [constructor|]. rewrite app_nil_r. destruct g as [gn gs ga], a; cbn [g_attributes] in E; subst; exact I.
  - inversion F as [|? ? [Fc F2] Fn]; subst. pose proof I as (Es & Ei & Eo & El & Eg).
    destruct (on_current_attribute_ok (fun a => Attribute (a_name a ++ [c]) (a_value a) (a_omitted a)) t g l a Eg E) as (t1 & E1 & B1 & C1).
    pose proof (intag_same _ _ _ _ _ _ _ I B1 C1) as I1.
    destruct (IH t0 t1 r id _ l _ I1 eq_refl Fn) as (t2 & H2 & I2). cbn [g_name g_self_closing a_name a_value a_omitted] in I2. rewrite <- app_assoc in I2.
    exists t2. split; [|exact I2]. cbn [app]. eapply ns_trans; [|exact H2].
    apply (step_c switch cdata t c (n ++ r) t1 false); [rewrite Es; reflexivity|].
    unfold M_html.ordinary. rewrite Es. unfold on_attribute_name, is_space, is_ascii_upper_alpha, push_attribute_name. unfold name_char in Fc. rewrite E1.
    assert (U : (0x41 <=? c) && (c <=? 0x5A) = false) by lia. rewrite U. zc. reflexivity.
Qed.

Definition between_attrs (s : state) : Prop := s = tag_name_state \/ s = after_attribute_value_quoted_state.
Definition fresh (name : list Z) (l : list attribute) : Prop := forall a, In a l -> a_name a <> name.

Lemma read_attr t0 t r id g s name value : intag t0 t id g s -> between_attrs s -> name <> [] -> Forall attr_char name ->
  Forall (fun c => c <> 0 /\ c <> 0xD) value -> fresh name (g_attributes g) ->
  exists t1, nsteps t (0x20 :: name ++ lit "=""" ++ escape_string value true ++ lit """" ++ r) t1 r /\
    intag t0 t1 id (Tag (g_name g) (g_self_closing g) (g_attributes g ++ [Attribute name value false])) after_attribute_value_quoted_state.
Proof.
  intros I B Nn Fn Fv Fr. pose proof I as (Es & _). cbn [lit app].
  (* the space *)
  assert (H1 : nsteps t (0x20 :: name ++ 0x3D :: 0x22 :: escape_string value true ++ 0x22 :: r) (set_state before_attribute_name_state t)
    (name ++ 0x3D :: 0x22 :: escape_string value true ++ 0x22 :: r)).
  { apply (step_c switch cdata t 0x20 _ (set_state before_attribute_name_state t) false); [rewrite Es; destruct B as [-> | ->]; reflexivity|].
    unfold M_html.ordinary. rewrite Es. destruct B as [-> | ->]; reflexivity. }
  apply (intag_state _ _ _ _ _ before_attribute_name_state) in I. set (ta := set_state before_attribute_name_state t) in *. clearbody ta.
  (* a new attribute *)
  destruct name as [|c n]; [contradiction|]. inversion Fn as [|? ? [Fc Fc2] Fn2]; subst.
  destruct (create_attribute_ok ta g) as (tb & Eb & Sb & Cb); [apply I|].
  assert (H2 : nsteps ta ((c :: n) ++ 0x3D :: 0x22 :: escape_string value true ++ 0x22 :: r) (set_state attribute_name_state tb)
    ((c :: n) ++ 0x3D :: 0x22 :: escape_string value true ++ 0x22 :: r)).
  { cbn [app]. apply (step_c switch cdata ta c _ (set_state attribute_name_state tb) true); [rewrite (proj1 I); reflexivity|].
    unfold M_html.ordinary. rewrite (proj1 I). unfold on_before_attribute_name, is_space. unfold name_char in Fc. rewrite Eb. zc. reflexivity. }
  pose proof (intag_same _ _ _ _ _ _ _ I Sb Cb) as Ib. apply (intag_state _ _ _ _ _ attribute_name_state) in Ib.
  set (tc := set_state attribute_name_state tb) in *. clearbody tc.
  destruct (read_attr_name (c :: n) t0 tc (0x3D :: 0x22 :: escape_string value true ++ 0x22 :: r) id _ _ _ Ib eq_refl Fn) as (td & H3 & Id).
  cbn [g_name g_self_closing a_name a_value a_omitted app attribute_clear] in Id.
  (* the equals sign *)
  destruct (unify_attribute_ok td _ (g_attributes g) (Attribute (c :: n) [] false) (proj2 (proj2 (proj2 (proj2 Id)))) eq_refl) as (te & Ee & Se & Ce).
  assert (Ex : existsb (fun b => eq_str (a_name b) (a_name (Attribute (c :: n) [] false))) (g_attributes g) = false).
  { destruct (existsb _ _) eqn:X; [|reflexivity]. apply existsb_exists in X. destruct X as (b & Hb & X). apply eq_str_spec in X. destruct (Fr b Hb X). }
  rewrite Ex in Ce. cbn [a_omitted a_name a_value g_name g_self_closing] in Ce.
  assert (H4 : nsteps td (0x3D :: 0x22 :: escape_string value true ++ 0x22 :: r) (set_state before_attribute_value_state te) (0x22 :: escape_string value true ++ 0x22 :: r)).
  { apply (step_c switch cdata td 0x3D _ (set_state before_attribute_value_state te) false); [rewrite (proj1 Id); reflexivity|].
    unfold M_html.ordinary. rewrite (proj1 Id). unfold on_attribute_name. cbn [is_space Z.eqb Pos.eqb orb]. rewrite Ee. reflexivity. }
  pose proof (intag_same _ _ _ _ _ _ _ Id Se Ce) as Ie. apply (intag_state _ _ _ _ _ before_attribute_value_state) in Ie.
  set (tf := set_state before_attribute_value_state te) in *. clearbody tf.
  (* the quote, the value, the quote *)
  assert (H5 : nsteps tf (0x22 :: escape_string value true ++ 0x22 :: r) (set_state attribute_value_double_quoted_state tf) (escape_string value true ++ 0x22 :: r)).
  { apply (step_c switch cdata tf 0x22 _ (set_state attribute_value_double_quoted_state tf) false); [rewrite (proj1 Ie); reflexivity|].
    unfold M_html.ordinary. rewrite (proj1 Ie). reflexivity. }
  apply (intag_state _ _ _ _ _ attribute_value_double_quoted_state) in Ie. set (tg := set_state attribute_value_double_quoted_state tf) in *. clearbody tg.
  destruct (read_value value t0 tg (0x22 :: r) id _ _ _ Ie eq_refl Fv) as (th & H6 & Ih). cbn [g_name g_self_closing a_name a_value a_omitted app] in Ih.
  assert (H7 : nsteps th (0x22 :: r) (set_state after_attribute_value_quoted_state th) r).
  { apply (step_c switch cdata th 0x22 r (set_state after_attribute_value_quoted_state th) false); [rewrite (proj1 Ih); reflexivity|].
    unfold M_html.ordinary. rewrite (proj1 Ih). reflexivity. }
  exists (set_state after_attribute_value_quoted_state th). split.
  - repeat (eapply ns_trans; [eassumption|]). constructor.
  - eapply intag_state. exact Ih.
Qed.

Definition named_attr (a : attr) (name : list Z) : Prop := name <> [] /\ Forall attr_char name /\ Forall (fun c => c <> 0 /\ c <> 0xD) (at_value a).
Definition attr_token (a : attr) : attribute := Attribute (get_attributes_serialized_name a) (at_value a) false.
Lemma read_attrs l : forall t0 t r id g s, intag t0 t id g s -> between_attrs s ->
  Forall (fun a => named_attr a (get_attributes_serialized_name a)) l ->
  NoDup (map a_name (g_attributes g) ++ map get_attributes_serialized_name l) ->
  exists t1 s1, nsteps t (attributes_text l ++ r) t1 r /\ between_attrs s1 /\
    intag t0 t1 id (Tag (g_name g) (g_self_closing g) (g_attributes g ++ map attr_token l)) s1.
Proof.
  induction l as [|a l IH]; intros t0 t r id g s I B F N.
  - exists t, s. split; [constructor|]. split; [exact B|]. cbn. rewrite app_nil_r. destruct g; exact I.
  - inversion F as [|? ? (F1 & F2 & F3) Fl]; subst. cbn [map] in N.
    destruct (read_attr t0 t (attributes_text l ++ r) id g s (get_attributes_serialized_name a) (at_value a) I B F1 F2 F3) as (t1 & H1 & I1).
    { intros b Hb E. apply NoDup_remove_2 in N. apply N. apply in_or_app. left. rewrite <- E. apply in_map. exact Hb. }
    destruct (IH t0 t1 r id _ _ I1 (or_intror eq_refl) Fl) as (t2 & s2 & H2 & B2 & I2).
    { cbn [g_attributes]. rewrite map_app, <- app_assoc. exact N. }
    exists t2, s2. cbn [g_name g_self_closing g_attributes] in I2. rewrite <- app_assoc in I2. split; [|split; [exact B2|exact I2]].
    eapply ns_trans; [|exact H2]. unfold attributes_text in *. cbn [flat_map]. cbn [lit app] in H1.
    rewrite <- !app_assoc in *. cbn [app] in *. rewrite <- !app_assoc in *. cbn [app] in *. rewrite <- !app_assoc. exact H1.
Qed.
End Read.
