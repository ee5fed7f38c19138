(** Reading back whole tags, comments, processing instructions and doctypes. *)
From Coq Require Import ZArith List Bool Lia String.
From Verif Require Import M_infra M_encoding M_labels M_html M_html_ncr M_html_serialize L_html1 L_html2 L_html3 L_html6 L_html7.
Import ListNotations.
Open Scope Z_scope.
Open Scope html_scope.

Section Read.
Variable switch : list token -> option state.
Variable cdata : list token -> bool.
Notation nsteps := (nsteps switch cdata).
Notation ordinary := (ordinary switch).
Notation pstep := (pstep switch cdata match_ncr).

Definition tag_name_ok (n : list Z) : Prop := exists c r, n = c :: r /\ name_start c /\ Forall name_char r.
Lemma tag_name_chars n : tag_name_ok n -> Forall name_char n.
Proof. intros (c & r & -> & H & F). constructor; [unfold name_start, name_char in *; lia|exact F]. Qed.

Lemma between_waits s : between_attrs s -> waits s = false.
Proof. intros [-> | ->]; reflexivity. Qed.

(** the sign that ends a tag *)
Lemma read_start_end t0 t r g s : intag t0 t 2 g s -> between_attrs s ->
  exists t1, nsteps t (0x3E :: r) t1 r /\ t_out t1 = t_out t0 ++ [TStart g] /\ t_last t1 = g_name g /\
    t_state t1 = match switch (t_out t0 ++ [TStart g]) with Some s => s | None => data_state end.
Proof.
  intros (Es & Ei & Eo & El & Eg) B. unfold current_tag in Eg. rewrite Ei in Eg. cbn in Eg. assert (Eg1 : t_start t = g) by congruence. clear Eg.
  set (t1 := match switch (t_out t0 ++ [TStart g]) with
    | Some s => set_state s (emit (TStart g) (set_last (g_name g) (set_state data_state t)))
    | None => emit (TStart g) (set_last (g_name g) (set_state data_state t)) end).
  exists t1. split.
  - apply (step_c switch cdata t 0x3E r t1 false); [rewrite Es; apply between_waits; exact B|].
    unfold M_html.ordinary. rewrite Es. assert (E : emit_tag switch (set_state data_state t) = Some t1).
    { unfold emit_tag. change (t_id (set_state data_state t)) with (t_id t). rewrite Ei. cbn [Z.eqb Pos.eqb].
      change (t_start (set_state data_state t)) with (t_start t). rewrite Eg1.
      change (t_out (emit (TStart g) (set_last (g_name g) (set_state data_state t)))) with (t_out t ++ [TStart g]). rewrite Eo. unfold t1. reflexivity. }
    destruct B as [-> | ->]; [unfold on_tag_name|unfold on_after_attribute_value_quoted]; cbn [is_space Z.eqb Pos.eqb orb]; rewrite E; reflexivity.
  - unfold t1. destruct (switch _); cbn; rewrite Eo; repeat split.
Qed.

Lemma read_start t r name attrs : t_state t = data_state -> tag_name_ok name ->
  Forall (fun a => named_attr a (get_attributes_serialized_name a)) attrs -> NoDup (map get_attributes_serialized_name attrs) ->
  exists t1, nsteps t (0x3C :: name ++ attributes_text attrs ++ 0x3E :: r) t1 r /\
    t_out t1 = t_out t ++ [TStart (Tag name false (map attr_token attrs))] /\ t_last t1 = name /\
    t_state t1 = match switch (t_out t ++ [TStart (Tag name false (map attr_token attrs))]) with Some s => s | None => data_state end.
Proof.
  intros Es Hn Fa Nd. pose proof (tag_name_chars _ Hn) as Fn. destruct Hn as (c & n & -> & Hc & _).
  set (t1 := set_state tag_open_state t).
  assert (H1 : nsteps t (0x3C :: (c :: n) ++ attributes_text attrs ++ 0x3E :: r) t1 ((c :: n) ++ attributes_text attrs ++ 0x3E :: r)).
  { apply (step_c switch cdata t 0x3C _ t1 false); [rewrite Es; reflexivity|]. unfold M_html.ordinary. rewrite Es. reflexivity. }
  set (t2 := set_state tag_name_state (create_start_tag t1)).
  assert (H2 : nsteps t1 ((c :: n) ++ attributes_text attrs ++ 0x3E :: r) t2 ((c :: n) ++ attributes_text attrs ++ 0x3E :: r)).
  { cbn [app]. apply (step_c switch cdata t1 c _ t2 true); [reflexivity|]. unfold M_html.ordinary. cbn [t_state set_state t1].
    unfold on_tag_open. unfold name_start in Hc. assert (A : is_ascii_alpha c = true) by (unfold is_ascii_alpha, is_ascii_upper_alpha, is_ascii_lower_alpha; lia).
    rewrite A. zc. reflexivity. }
  assert (I2 : intag t t2 2 tag_clear tag_name_state) by (repeat split).
  destruct (read_tag_name switch cdata (c :: n) t t2 (attributes_text attrs ++ 0x3E :: r) 2 _ I2 Fn) as (t3 & H3 & I3).
  destruct (read_attrs switch cdata attrs t t3 (0x3E :: r) 2 _ _ I3 (or_introl eq_refl) Fa) as (t4 & s4 & H4 & B4 & I4); [exact Nd|].
  destruct (read_start_end t t4 r _ s4 I4 B4) as (t5 & H5 & R).
  exists t5. split; [repeat (eapply ns_trans; [eassumption|]); constructor|exact R].
Qed.

Lemma read_end t r name : t_state t = data_state -> tag_name_ok name ->
  exists t1, nsteps t (0x3C :: 0x2F :: name ++ 0x3E :: r) t1 r /\ t_out t1 = t_out t ++ [TEnd (Tag name false [])] /\ t_state t1 = data_state.
Proof.
  intros Es Hn. pose proof (tag_name_chars _ Hn) as Fn. destruct Hn as (c & n & -> & Hc & _).
  set (t1 := set_state tag_open_state t).
  assert (H1 : nsteps t (0x3C :: 0x2F :: (c :: n) ++ 0x3E :: r) t1 (0x2F :: (c :: n) ++ 0x3E :: r)).
  { apply (step_c switch cdata t 0x3C _ t1 false); [rewrite Es; reflexivity|]. unfold M_html.ordinary. rewrite Es. reflexivity. }
  set (t2 := set_state end_tag_open_state t1).
  assert (H2 : nsteps t1 (0x2F :: (c :: n) ++ 0x3E :: r) t2 ((c :: n) ++ 0x3E :: r)).
  { apply (step_c switch cdata t1 0x2F _ t2 false); reflexivity. }
  set (t3 := set_state tag_name_state (create_end_tag t2)).
  assert (H3 : nsteps t2 ((c :: n) ++ 0x3E :: r) t3 ((c :: n) ++ 0x3E :: r)).
  { cbn [app]. apply (step_c switch cdata t2 c _ t3 true); [reflexivity|]. unfold M_html.ordinary. cbn [t_state set_state t2].
    unfold on_end_tag_open. unfold name_start in Hc. assert (A : is_ascii_alpha c = true) by (unfold is_ascii_alpha, is_ascii_upper_alpha, is_ascii_lower_alpha; lia).
    rewrite A. reflexivity. }
  assert (I3 : intag t t3 3 tag_clear tag_name_state) by (repeat split).
  destruct (read_tag_name switch cdata (c :: n) t t3 (0x3E :: r) 3 _ I3 Fn) as (t4 & H4 & I4). cbn [g_name g_self_closing g_attributes tag_clear app] in I4.
  destruct I4 as (Es4 & Ei4 & Eo4 & El4 & Eg4). unfold current_tag in Eg4. rewrite Ei4 in Eg4. cbn in Eg4. assert (Eg : t_end t4 = Tag (c :: n) false []) by congruence. clear Eg4.
  exists (emit (TEnd (t_end t4)) (set_state data_state t4)). split.
  - repeat (eapply ns_trans; [eassumption|]). apply (step_c switch cdata t4 0x3E r _ false); [rewrite Es4; reflexivity|].
    unfold M_html.ordinary. rewrite Es4. unfold on_tag_name. cbn [is_space Z.eqb Pos.eqb orb]. unfold emit_tag.
    change (t_id (set_state data_state t4)) with (t_id t4). rewrite Ei4. reflexivity.
  - cbn. rewrite Eo4, Eg. repeat split.
Qed.

(** the end tag after raw or escapable raw text *)
Definition lt_state (s : state) : state := match s with RCDATA_state => RCDATA_less_than_sign_state | RAWTEXT_state => RAWTEXT_less_than_sign_state | _ => script_data_less_than_sign_state end.
Definition open_state (s : state) : state := match s with RCDATA_state => RCDATA_end_tag_open_state | RAWTEXT_state => RAWTEXT_end_tag_open_state | _ => script_data_end_tag_open_state end.
Definition name_state (s : state) : state := match s with RCDATA_state => RCDATA_end_tag_name_state | RAWTEXT_state => RAWTEXT_end_tag_name_state | _ => script_data_end_tag_name_state end.
Definition text_state (s : state) : Prop := s = RCDATA_state \/ s = RAWTEXT_state \/ s = script_data_state.

Lemma read_text_tag_name s n : text_state s -> forall t0 t r g, intag t0 t 3 g (name_state s) -> Forall name_start n ->
  exists t1, nsteps t (n ++ r) t1 r /\ intag t0 t1 3 (Tag (g_name g ++ n) (g_self_closing g) (g_attributes g)) (name_state s).
Proof.
  intro Hs. induction n as [|c n IH]; intros t0 t r g I F.
  - exists t. split; [constructor|]. rewrite app_nil_r. destruct g; exact I.
  - inversion F as [|? ? Fc Fn]; subst. destruct (push_tag_name_ok c t g) as (t1 & E1 & S1 & C1); [apply I|].
    pose proof (intag_same _ _ _ _ _ _ _ I S1 C1) as I1.
    assert (I1' : intag t0 (set_tmp (t_tmp t1 ++ [c]) t1) 3 (Tag (g_name g ++ [c]) (g_self_closing g) (g_attributes g)) (name_state s)).
    { destruct I1 as (A & B & C & D & E). repeat split; assumption. }
    destruct (IH _ _ r _ I1' Fn) as (t2 & H2 & I2). cbn [g_name g_self_closing g_attributes] in I2.
    exists t2. rewrite <- app_assoc in I2. split; [|exact I2]. cbn [app]. eapply ns_trans; [|exact H2].
    destruct I as (Es & _). apply (step_c switch cdata t c (n ++ r) (set_tmp (t_tmp t1 ++ [c]) t1) false); [rewrite Es; destruct Hs as [-> |[-> | ->]]; reflexivity|].
    unfold name_start in Fc.
    assert (K : forall x, on_text_end_tag_name switch x t (Some c) = Some (set_tmp (t_tmp t1 ++ [c]) t1, false)).
    { intro x. unfold on_text_end_tag_name, is_space, is_ascii_upper_alpha, is_ascii_lower_alpha. rewrite E1.
      assert (U : (0x41 <=? c) && (c <=? 0x5A) = false) by lia. rewrite U. zc. reflexivity. }
    unfold M_html.ordinary. rewrite Es. destruct Hs as [-> |[-> | ->]]; apply K.
Qed.

Lemma read_text_end t r name : text_state (t_state t) -> t_last t = name -> name <> [] -> Forall name_start name ->
  exists t1, nsteps t (0x3C :: 0x2F :: name ++ 0x3E :: r) t1 r /\ t_out t1 = t_out t ++ [TEnd (Tag name false [])] /\ t_state t1 = data_state.
Proof.
  intros Hs El Nn Fn. destruct name as [|c n]; [contradiction|]. pose proof (Forall_inv Fn) as Hc. unfold name_start in Hc.
  remember (t_state t) as s eqn:Es. symmetry in Es.
  set (t1 := set_state (lt_state s) t).
  assert (H1 : nsteps t (0x3C :: 0x2F :: (c :: n) ++ 0x3E :: r) t1 (0x2F :: (c :: n) ++ 0x3E :: r)).
  { apply (step_c switch cdata t 0x3C _ t1 false); [rewrite Es; destruct Hs as [-> |[-> | ->]]; reflexivity|]. unfold M_html.ordinary, t1. rewrite Es.
    destruct Hs as [-> |[-> | ->]]; reflexivity. }
  set (t2 := set_state (open_state s) (set_tmp [] t1)).
  assert (H2 : nsteps t1 (0x2F :: (c :: n) ++ 0x3E :: r) t2 ((c :: n) ++ 0x3E :: r)).
  { apply (step_c switch cdata t1 0x2F _ t2 false); unfold t2, t1; destruct Hs as [-> |[-> | ->]]; reflexivity. }
  set (t3 := set_state (name_state s) (create_end_tag t2)).
  assert (H3 : nsteps t2 ((c :: n) ++ 0x3E :: r) t3 ((c :: n) ++ 0x3E :: r)).
  { cbn [app]. assert (A : is_ascii_alpha c = true) by (unfold is_ascii_alpha, is_ascii_upper_alpha, is_ascii_lower_alpha; lia).
    apply (step_c switch cdata t2 c _ t3 true); [unfold t2; destruct Hs as [-> |[-> | ->]]; reflexivity|]. unfold M_html.ordinary, t3.
    unfold t2 at 1. cbn [t_state set_state].
    destruct Hs as [-> |[-> | ->]]; cbn [open_state name_state]; unfold on_text_end_tag_open; rewrite A; reflexivity. }
  assert (I3 : intag t t3 3 tag_clear (name_state s)) by (repeat split).
  destruct (read_text_tag_name s (c :: n) Hs t t3 (0x3E :: r) _ I3 Fn) as (t4 & H4 & I4). cbn [g_name g_self_closing g_attributes tag_clear app] in I4.
  destruct I4 as (Es4 & Ei4 & Eo4 & El4 & Eg4). unfold current_tag in Eg4. rewrite Ei4 in Eg4. cbn in Eg4. assert (Eg : t_end t4 = Tag (c :: n) false []) by congruence. clear Eg4.
  exists (emit (TEnd (t_end t4)) (set_state data_state t4)). split.
  - repeat (eapply ns_trans; [eassumption|]).
    assert (K : forall x, on_text_end_tag_name switch x t4 (Some 0x3E) = Some (emit (TEnd (t_end t4)) (set_state data_state t4), false)).
    { intro x. unfold on_text_end_tag_name. cbn [is_space Z.eqb Pos.eqb orb]. unfold is_appropriate_end_tag. rewrite Ei4, El4, El, Eg. cbn [Z.eqb Pos.eqb g_name].
      rewrite (proj2 (eq_str_spec (c :: n) (c :: n)) eq_refl). cbn [eq_str orb negb]. unfold emit_tag.
      change (t_id (set_state data_state t4)) with (t_id t4). rewrite Ei4. cbn [Z.eqb Pos.eqb stay' stay]. change (t_end (set_state data_state t4)) with (t_end t4). rewrite Eg. reflexivity. }
    apply (step_c switch cdata t4 0x3E r _ false); [rewrite Es4; destruct Hs as [-> |[-> | ->]]; reflexivity|].
    unfold M_html.ordinary. rewrite Es4. destruct Hs as [-> |[-> | ->]]; apply K.
  - cbn. rewrite Eo4, Eg. repeat split.
Qed.

(** ** Processing instructions are read as comments *)
Lemma read_bogus d : forall t r, t_state t = bogus_comment_state -> Forall (fun c => c <> 0 /\ c <> 0xD /\ c <> 0x3E) d ->
  exists t1, nsteps t (d ++ 0x3E :: r) t1 r /\ t_out t1 = t_out t ++ [TComment (t_comment t ++ d)] /\ t_state t1 = data_state.
Proof.
  induction d as [|c d IH]; intros t r Es F.
  - eexists. split; [apply (step_c switch cdata t 0x3E r _ false); [rewrite Es; reflexivity|unfold M_html.ordinary; rewrite Es; reflexivity]|].
    cbn. rewrite app_nil_r. split; reflexivity.
  - inversion F as [|? ? (F1 & F2 & F3) Fd]; subst. set (t1 := set_comment (t_comment t ++ [c]) t).
    destruct (IH t1 r Es Fd) as (t2 & H2 & O2 & S2). exists t2. split; [|split; [rewrite O2; cbn; rewrite <- app_assoc; reflexivity|exact S2]].
    cbn [app]. eapply ns_trans; [|exact H2]. apply (step_c switch cdata t c _ t1 false); [rewrite Es; reflexivity|].
    unfold M_html.ordinary. rewrite Es. unfold on_bogus_comment. zc. reflexivity.
Qed.
Lemma read_instruction t r d : t_state t = data_state -> Forall (fun c => c <> 0 /\ c <> 0xD /\ c <> 0x3E) d ->
  exists t1, nsteps t (0x3C :: 0x3F :: d ++ 0x3E :: r) t1 r /\ t_out t1 = t_out t ++ [TComment (0x3F :: d)] /\ t_state t1 = data_state.
Proof.
  intros Es F. set (t1 := set_state tag_open_state t). set (t2 := set_state bogus_comment_state (set_comment [] t1)).
  destruct (read_bogus (0x3F :: d) t2 r eq_refl) as (t3 & H3 & O3 & S3); [constructor; [lia|exact F]|].
  exists t3. split; [|split; [exact O3|exact S3]]. eapply ns_trans; [apply (step_c switch cdata t 0x3C _ t1 false); [rewrite Es; reflexivity|unfold M_html.ordinary; rewrite Es; reflexivity]|].
  eapply ns_trans; [|exact H3]. apply (step_c switch cdata t1 0x3F _ t2 true); reflexivity.
Qed.

(** ** Doctypes *)
Definition doctype_char (c : Z) : Prop :=
  c <> 0 /\ c <> 0x9 /\ c <> 0xA /\ c <> 0xC /\ c <> 0xD /\ c <> 0x20 /\ c <> 0x3E /\ ~ (0x41 <= c <= 0x5A).
Lemma read_doctype_name n : forall t r, t_state t = DOCTYPE_name_state -> Forall doctype_char n ->
  exists t1, nsteps t (n ++ 0x3E :: r) t1 r /\ t_state t1 = data_state /\
    t_out t1 = t_out t ++ [TDoctype (Doctype (d_name (t_doctype t) ++ n) (d_public (t_doctype t)) (d_system (t_doctype t)) (d_quirks (t_doctype t)))].
Proof.
  induction n as [|c n IH]; intros t r Es F.
  - eexists. split; [apply (step_c switch cdata t 0x3E r _ false); [rewrite Es; reflexivity|unfold M_html.ordinary; rewrite Es; reflexivity]|].
    cbn. rewrite app_nil_r. split; [reflexivity|]. destruct (t_doctype t); reflexivity.
  - inversion F as [|? ? Fc Fn]; subst. set (t1 := push_doctype_name c t).
    destruct (IH t1 r Es Fn) as (t2 & H2 & S2 & O2). exists t2. split; [|split; [exact S2|rewrite O2; cbn; rewrite <- app_assoc; reflexivity]].
    cbn [app]. eapply ns_trans; [|exact H2]. apply (step_c switch cdata t c _ t1 false); [rewrite Es; reflexivity|].
    unfold M_html.ordinary. rewrite Es. unfold on_DOCTYPE_name, is_space, is_ascii_upper_alpha. unfold doctype_char in Fc.
    assert (U : (0x41 <=? c) && (c <=? 0x5A) = false) by lia. rewrite U. zc. reflexivity.
Qed.
Lemma read_doctype t r n : t_state t = data_state -> n <> [] -> Forall doctype_char n ->
  exists t1, nsteps t (lit "<!DOCTYPE " ++ n ++ 0x3E :: r) t1 r /\ t_out t1 = t_out t ++ [TDoctype (Doctype n [] [] false)] /\ t_state t1 = data_state.
Proof.
  intros Es Nn F. destruct n as [|c n]; [contradiction|]. inversion F as [|? ? Fc Fn]; subst.
  set (t1 := set_state tag_open_state t). set (t2 := set_state markup_declaration_open_state t1). set (t3 := set_state DOCTYPE_state t2).
  set (t4 := set_state before_DOCTYPE_name_state t3). set (t5 := set_state DOCTYPE_name_state (push_doctype_name c (set_doctype doctype_clear t4))).
  destruct (read_doctype_name n t5 r eq_refl Fn) as (t6 & H6 & S6 & O6). exists t6. split; [|split; [exact O6|exact S6]].
  eapply ns_trans; [apply (step_c switch cdata t 0x3C _ t1 false); [rewrite Es; reflexivity|unfold M_html.ordinary; rewrite Es; reflexivity]|].
  eapply ns_trans; [apply (step_c switch cdata t1 0x21 _ t2 false); reflexivity|].
  eapply ns_trans; [apply (ns_one switch cdata t2 _ t3 (0x20 :: (c :: n) ++ 0x3E :: r)); [discriminate|reflexivity]|].
  eapply ns_trans; [apply (step_c switch cdata t3 0x20 _ t4 false); reflexivity|].
  cbn [app]. eapply ns_trans; [|exact H6]. apply (step_c switch cdata t4 c _ t5 false); [reflexivity|].
  unfold M_html.ordinary. cbn [t_state set_state t4]. unfold on_before_DOCTYPE_name, is_space, is_ascii_upper_alpha. unfold doctype_char in Fc.
  assert (U : (0x41 <=? c) && (c <=? 0x5A) = false) by lia. rewrite U. zc. reflexivity.
Qed.

(** ** Comments *)
(** what has been read of the comment but is not in the token yet *)
Definition held (s : state) : list Z :=
  match s with
  | comment_start_dash_state | comment_less_than_sign_bang_dash_state | comment_end_dash_state => [0x2D]
  | comment_less_than_sign_bang_dash_dash_state | comment_end_state => [0x2D; 0x2D]
  | comment_end_bang_state => [0x2D; 0x2D; 0x21]
  | _ => []
  end.
Definition shape (s : state) (pre : list Z) : Prop :=
  match s with
  | comment_start_state => pre = []
  | comment_start_dash_state => pre = [0x2D]
  | comment_state => last pre 0 <> 0x2D
  | comment_less_than_sign_state => exists p, pre = p ++ [0x3C]
  | comment_less_than_sign_bang_state => exists p, pre = p ++ [0x21]
  | comment_less_than_sign_bang_dash_state => exists p, pre = p ++ [0x2D] /\ last p 0 = 0x21
  | comment_less_than_sign_bang_dash_dash_state | comment_end_state => exists p, pre = p ++ [0x2D; 0x2D]
  | comment_end_dash_state => exists p, pre = p ++ [0x2D] /\ last p 0 <> 0x2D
  | comment_end_bang_state => exists p, pre = p ++ [0x2D; 0x2D; 0x21]
  | _ => False
  end.
Definition incomment (t0 t : tok) (pre : list Z) : Prop :=
  t_out t = t_out t0 /\ t_comment t ++ held (t_state t) = pre /\ shape (t_state t) pre.

Lemma comment_char t0 t c r pre : t_state t = comment_state -> t_out t = t_out t0 -> t_comment t = pre -> c <> 0 ->
  (c = 0x2D -> last pre 0 <> 0x2D) -> exists t1, nsteps t (c :: r) t1 r /\ incomment t0 t1 (pre ++ [c]).
Proof.
  intros Es Eo Ec N0 Nd. assert (W : waits (t_state t) = false) by (rewrite Es; reflexivity).
  destruct (Z.eq_dec c 0x3C) as [->|N1].
  - eexists. split; [apply (step_c switch cdata t _ r _ false W); unfold M_html.ordinary; rewrite Es; reflexivity|].
    split; [exact Eo|]. cbn. split; [rewrite Ec, app_nil_r; reflexivity|]. exists pre. reflexivity.
  - destruct (Z.eq_dec c 0x2D) as [->|N2].
    + eexists. split; [apply (step_c switch cdata t _ r _ false W); unfold M_html.ordinary; rewrite Es; reflexivity|].
      split; [exact Eo|]. cbn. split; [rewrite Ec; reflexivity|]. exists pre. split; [reflexivity|]. apply Nd. reflexivity.
    + exists (set_comment (t_comment t ++ [c]) t). split.
      * apply (step_c switch cdata t c r _ false W). unfold M_html.ordinary. rewrite Es. unfold on_comment. zc. reflexivity.
      * split; [exact Eo|]. cbn. rewrite Es. cbn. split; [rewrite Ec, app_nil_r; reflexivity|]. rewrite last_last. exact N2.
Qed.

Lemma comment_step t0 t c r pre : incomment t0 t pre -> c <> 0 ->
  (c = 0x3E -> pre <> [] /\ pre <> [0x2D] /\ (forall p, pre <> p ++ [0x2D; 0x2D]) /\ (forall p, pre <> p ++ [0x2D; 0x2D; 0x21])) ->
  exists t1, nsteps t (c :: r) t1 r /\ incomment t0 t1 (pre ++ [c]).
Proof.
  intros (Eo & Ec & Sh) N0 Ok. destruct (t_state t) eqn:Es; cbn [shape held] in *; try contradiction;
    (assert (W : waits (t_state t) = false) by (rewrite Es; reflexivity)).
  - (* start *) rewrite app_nil_r in Ec. rewrite Sh in *. clear pre Sh.
    destruct (Z.eq_dec c 0x2D) as [->|N1].
    + eexists. split; [apply (step_c switch cdata t _ r _ false W); unfold M_html.ordinary; rewrite Es; reflexivity|].
      split; [exact Eo|]. cbn. rewrite Ec. split; reflexivity.
    + destruct (Z.eq_dec c 0x3E) as [->|N2]; [destruct (Ok eq_refl) as (K & _); contradiction|].
      destruct (comment_char t0 (set_state comment_state t) c r [] eq_refl Eo Ec N0) as (t1 & H1 & I1); [intros _; discriminate|].
      exists t1. split; [|exact I1]. eapply ns_trans; [apply (step_c switch cdata t c r (set_state comment_state t) true W)|exact H1].
      unfold M_html.ordinary. rewrite Es. unfold on_comment_start. zc. reflexivity.
  - (* start dash *) rewrite Sh in *. clear pre Sh. assert (Ec' : t_comment t = []) by (clear - Ec; destruct (t_comment t) as [|a [|b l]]; [reflexivity|discriminate|destruct l; discriminate]). clear Ec. rename Ec' into Ec.
    destruct (Z.eq_dec c 0x2D) as [->|N1].
    + eexists. split; [apply (step_c switch cdata t _ r _ false W); unfold M_html.ordinary; rewrite Es; reflexivity|].
      split; [exact Eo|]. cbn. rewrite Ec. split; [reflexivity|]. exists []. reflexivity.
    + destruct (Z.eq_dec c 0x3E) as [->|N2]; [destruct (Ok eq_refl) as (_ & K & _); contradiction|].
      destruct (comment_char t0 (set_state comment_state (set_comment (t_comment t ++ [0x2D]) t)) c r [0x2D] eq_refl Eo) as (t1 & H1 & I1);
        [cbn; rewrite Ec; reflexivity|exact N0|intro; contradiction|].
      exists t1. split; [|exact I1]. eapply ns_trans; [apply (step_c switch cdata t c r (set_state comment_state (set_comment (t_comment t ++ [0x2D]) t)) true W)|exact H1].
      unfold M_html.ordinary. rewrite Es. unfold on_comment_start_dash. zc. reflexivity.
  - (* comment *) apply (comment_char t0 t c r pre Es Eo); [rewrite <- Ec, app_nil_r; reflexivity|exact N0|intros _; exact Sh].
  - (* less than *) rewrite app_nil_r in Ec. destruct Sh as (p & Sh).
    destruct (Z.eq_dec c 0x21) as [->|N1].
    + eexists. split; [apply (step_c switch cdata t _ r _ false W); unfold M_html.ordinary; rewrite Es; reflexivity|].
      split; [exact Eo|]. cbn. split; [rewrite Ec, app_nil_r; reflexivity|]. exists pre. reflexivity.
    + destruct (Z.eq_dec c 0x3C) as [->|N2].
      * eexists. split; [apply (step_c switch cdata t _ r _ false W); unfold M_html.ordinary; rewrite Es; reflexivity|].
        split; [exact Eo|]. cbn. rewrite Es. cbn. split; [rewrite Ec, app_nil_r; reflexivity|]. exists pre. reflexivity.
      * destruct (comment_char t0 (set_state comment_state t) c r pre eq_refl Eo Ec N0) as (t1 & H1 & I1); [intros _; rewrite Sh, last_last; discriminate|].
        exists t1. split; [|exact I1]. eapply ns_trans; [apply (step_c switch cdata t c r (set_state comment_state t) true W)|exact H1].
        unfold M_html.ordinary. rewrite Es. unfold on_comment_less_than_sign. zc. reflexivity.
  - (* bang *) rewrite app_nil_r in Ec. destruct Sh as (p & Sh).
    destruct (Z.eq_dec c 0x2D) as [->|N1].
    + eexists. split; [apply (step_c switch cdata t _ r _ false W); unfold M_html.ordinary; rewrite Es; reflexivity|].
      split; [exact Eo|]. cbn. split; [rewrite Ec; reflexivity|]. exists pre. split; [reflexivity|]. rewrite Sh, last_last. reflexivity.
    + destruct (comment_char t0 (set_state comment_state t) c r pre eq_refl Eo Ec N0) as (t1 & H1 & I1); [intro; contradiction|].
      exists t1. split; [|exact I1]. eapply ns_trans; [apply (step_c switch cdata t c r (set_state comment_state t) true W)|exact H1].
      unfold M_html.ordinary. rewrite Es. unfold on_comment_less_than_sign_bang. zc. reflexivity.
  - (* bang dash *) destruct Sh as (p & -> & Sh). apply app_inj_tail in Ec. destruct Ec as [Ec _].
    destruct (Z.eq_dec c 0x2D) as [->|N1].
    + eexists. split; [apply (step_c switch cdata t _ r _ false W); unfold M_html.ordinary; rewrite Es; reflexivity|].
      split; [exact Eo|]. cbn. split; [rewrite Ec, <- app_assoc; reflexivity|]. exists p. rewrite <- app_assoc. reflexivity.
    + set (t1 := set_state comment_end_dash_state t). set (t2 := set_state comment_state (set_comment (t_comment t1 ++ [0x2D]) t1)).
      destruct (comment_char t0 t2 c r (p ++ [0x2D]) eq_refl Eo) as (t3 & H1 & I1); [cbn; rewrite Ec; reflexivity|exact N0|intro; contradiction|].
      exists t3. split; [|exact I1]. eapply ns_trans; [apply (step_c switch cdata t c r t1 true W)|].
      { unfold M_html.ordinary. rewrite Es. unfold on_comment_less_than_sign_bang_dash. zc. reflexivity. }
      eapply ns_trans; [apply (step_c switch cdata t1 c r t2 true eq_refl)|exact H1].
      unfold M_html.ordinary. cbn [t_state set_state t1]. unfold on_comment_end_dash. zc. reflexivity.
  - (* bang dash dash *) destruct Sh as (p & ->). change [0x2D; 0x2D] with ([0x2D] ++ [0x2D]) in Ec. rewrite !app_assoc in Ec.
    apply app_inj_tail in Ec. destruct Ec as [Ec _]. apply app_inj_tail in Ec. destruct Ec as [Ec _].
    set (t1 := set_state comment_end_state t).
    assert (H0 : nsteps t (c :: r) t1 (c :: r)).
    { apply (step_c switch cdata t c r t1 true W). unfold M_html.ordinary. rewrite Es. reflexivity. }
    destruct (Z.eq_dec c 0x3E) as [->|N1]; [destruct (Ok eq_refl) as (_ & _ & K & _); destruct (K p); reflexivity|].
    destruct (Z.eq_dec c 0x21) as [->|N2].
    { eexists. split; [eapply ns_trans; [exact H0|]; apply (step_c switch cdata t1 _ r _ false eq_refl); reflexivity|].
      split; [exact Eo|]. cbn. split; [rewrite Ec, <- app_assoc; reflexivity|]. exists p. rewrite <- app_assoc. reflexivity. }
    destruct (Z.eq_dec c 0x2D) as [->|N3].
    { eexists. split; [eapply ns_trans; [exact H0|]; apply (step_c switch cdata t1 _ r _ false eq_refl); reflexivity|].
      split; [exact Eo|]. cbn. split; [rewrite Ec, <- !app_assoc; reflexivity|]. exists (p ++ [0x2D]). rewrite <- !app_assoc. reflexivity. }
    set (t2 := set_state comment_state (set_comment (t_comment t1 ++ [0x2D; 0x2D]) t1)).
    destruct (comment_char t0 t2 c r (p ++ [0x2D; 0x2D]) eq_refl Eo) as (t3 & H1 & I1); [cbn; rewrite Ec; reflexivity|exact N0|intro; contradiction|].
    exists t3. split; [|exact I1]. eapply ns_trans; [exact H0|]. eapply ns_trans; [apply (step_c switch cdata t1 c r t2 true eq_refl)|exact H1].
    unfold M_html.ordinary. cbn [t_state set_state t1]. unfold on_comment_end. zc. reflexivity.
  - (* end dash *) destruct Sh as (p & -> & Sh). apply app_inj_tail in Ec. destruct Ec as [Ec _].
    destruct (Z.eq_dec c 0x2D) as [->|N1].
    + eexists. split; [apply (step_c switch cdata t _ r _ false W); unfold M_html.ordinary; rewrite Es; reflexivity|].
      split; [exact Eo|]. cbn. split; [rewrite Ec, <- app_assoc; reflexivity|]. exists p. rewrite <- app_assoc. reflexivity.
    + set (t2 := set_state comment_state (set_comment (t_comment t ++ [0x2D]) t)).
      destruct (comment_char t0 t2 c r (p ++ [0x2D]) eq_refl Eo) as (t3 & H1 & I1); [cbn; rewrite Ec; reflexivity|exact N0|intro; contradiction|].
      exists t3. split; [|exact I1]. eapply ns_trans; [apply (step_c switch cdata t c r t2 true W)|exact H1].
      unfold M_html.ordinary. rewrite Es. unfold on_comment_end_dash. zc. reflexivity.
  - (* end *) destruct Sh as (p & ->). change [0x2D; 0x2D] with ([0x2D] ++ [0x2D]) in Ec. rewrite !app_assoc in Ec.
    apply app_inj_tail in Ec. destruct Ec as [Ec _]. apply app_inj_tail in Ec. destruct Ec as [Ec _].
    destruct (Z.eq_dec c 0x3E) as [->|N1]; [destruct (Ok eq_refl) as (_ & _ & K & _); destruct (K p); reflexivity|].
    destruct (Z.eq_dec c 0x21) as [->|N2].
    { eexists. split; [apply (step_c switch cdata t _ r _ false W); unfold M_html.ordinary; rewrite Es; reflexivity|].
      split; [exact Eo|]. cbn. split; [rewrite Ec, <- app_assoc; reflexivity|]. exists p. rewrite <- app_assoc. reflexivity. }
    destruct (Z.eq_dec c 0x2D) as [->|N3].
    { eexists. split; [apply (step_c switch cdata t _ r _ false W); unfold M_html.ordinary; rewrite Es; reflexivity|].
      split; [exact Eo|]. cbn. rewrite Es. cbn. split; [rewrite Ec, <- !app_assoc; reflexivity|]. exists (p ++ [0x2D]). rewrite <- !app_assoc. reflexivity. }
    set (t2 := set_state comment_state (set_comment (t_comment t ++ [0x2D; 0x2D]) t)).
    destruct (comment_char t0 t2 c r (p ++ [0x2D; 0x2D]) eq_refl Eo) as (t3 & H1 & I1); [cbn; rewrite Ec; reflexivity|exact N0|intro; contradiction|].
    exists t3. split; [|exact I1]. eapply ns_trans; [apply (step_c switch cdata t c r t2 true W)|exact H1].
    unfold M_html.ordinary. rewrite Es. unfold on_comment_end. zc. reflexivity.
  - (* end bang *) destruct Sh as (p & ->). change [0x2D; 0x2D; 0x21] with (([0x2D] ++ [0x2D]) ++ [0x21]) in Ec. rewrite !app_assoc in Ec.
    apply app_inj_tail in Ec. destruct Ec as [Ec _]. apply app_inj_tail in Ec. destruct Ec as [Ec _]. apply app_inj_tail in Ec. destruct Ec as [Ec _].
    destruct (Z.eq_dec c 0x3E) as [->|N1]; [destruct (Ok eq_refl) as (_ & _ & _ & K); destruct (K p); reflexivity|].
    destruct (Z.eq_dec c 0x2D) as [->|N2].
    { eexists. split; [apply (step_c switch cdata t _ r _ false W); unfold M_html.ordinary; rewrite Es; reflexivity|].
      split; [exact Eo|]. cbn. split; [rewrite Ec; reflexivity|]. exists (p ++ [0x2D; 0x2D; 0x21]). split; [reflexivity|].
      change [0x2D; 0x2D; 0x21] with ([0x2D; 0x2D] ++ [0x21]). rewrite app_assoc, last_last. discriminate. }
    set (t2 := set_state comment_state (set_comment (t_comment t ++ [0x2D; 0x2D; 0x21]) t)).
    destruct (comment_char t0 t2 c r (p ++ [0x2D; 0x2D; 0x21]) eq_refl Eo) as (t3 & H1 & I1); [cbn; rewrite Ec; reflexivity|exact N0|intro; contradiction|].
    exists t3. split; [|exact I1]. eapply ns_trans; [apply (step_c switch cdata t c r t2 true W)|exact H1].
    unfold M_html.ordinary. rewrite Es. unfold on_comment_end_bang. zc. reflexivity.
Qed.

(** comments that can be written: no [>] or [->] at the front, no [-->] and no [--!>] inside *)
Definition comment_ok (d : list Z) : Prop :=
  Forall (fun c => c <> 0 /\ c <> 0xD) d /\ (forall r, d <> lit ">" ++ r) /\ (forall r, d <> lit "->" ++ r) /\
  (forall p r, d <> p ++ lit "-->" ++ r) /\ (forall p r, d <> p ++ lit "--!>" ++ r).

Lemma comment_steps d : comment_ok d -> forall s t0 t r pre, incomment t0 t pre -> pre ++ s = d ++ [0x2D; 0x2D] ->
  exists t1, nsteps t (s ++ r) t1 r /\ incomment t0 t1 (d ++ [0x2D; 0x2D]).
Proof.
  intros (F & O1 & O2 & O3 & O4). induction s as [|c s IH]; intros t0 t r pre I E.
  - exists t. rewrite app_nil_r in E. subst pre. split; [constructor|exact I].
  - assert (C : c <> 0).
    { assert (Hin : In c (d ++ [0x2D; 0x2D])) by (rewrite <- E; apply in_or_app; right; left; reflexivity).
      apply in_app_or in Hin. rewrite Forall_forall in F. destruct Hin as [H|H]; [apply F in H; tauto|cbn in H; lia]. }
    assert (K : c = 0x3E -> exists u, d = pre ++ 0x3E :: u).
    { intros ->. assert (L : (List.length pre < List.length d)%nat).
      { destruct (Nat.lt_ge_cases (List.length pre) (List.length d)) as [L|L]; [exact L|]. exfalso.
        assert (E1 : nth_error (d ++ [0x2D; 0x2D]) (List.length pre) = Some 0x3E) by (rewrite <- E, nth_error_app2, Nat.sub_diag by lia; reflexivity).
        rewrite nth_error_app2 in E1 by exact L. destruct (List.length pre - List.length d)%nat as [|[|n]]; cbn in E1; try discriminate. destruct n; discriminate. }
      assert (E1 : firstn (List.length pre) d = pre).
      { assert (X : firstn (List.length pre) (d ++ [0x2D; 0x2D]) = pre) by (rewrite <- E, firstn_app, Nat.sub_diag, firstn_all, app_nil_r; reflexivity).
        rewrite firstn_app in X. replace (List.length pre - List.length d)%nat with O in X by lia. cbn in X. rewrite app_nil_r in X. exact X. }
      exists (skipn (S (List.length pre)) d). rewrite <- E1 at 1. rewrite <- (firstn_skipn (List.length pre) d) at 1. f_equal.
      assert (E2 : nth_error d (List.length pre) = Some 0x3E).
      { assert (X : nth_error (d ++ [0x2D; 0x2D]) (List.length pre) = Some 0x3E) by (rewrite <- E, nth_error_app2, Nat.sub_diag by lia; reflexivity).
        rewrite nth_error_app1 in X by exact L. exact X. }
      clear - E2. revert E2. generalize (List.length pre) as n. intro n. revert d. induction n; intros [|x d] E2; cbn in *; try discriminate; [inversion E2; reflexivity|]. apply IHn. exact E2. }
    destruct (comment_step t0 t c (s ++ r) pre I C) as (t1 & H1 & I1).
    { intro Ec. destruct (K Ec) as (u & Eu). subst d. repeat split.
      - intros ->. apply (O1 u). reflexivity.
      - intros ->. apply (O2 u). reflexivity.
      - intros p ->. apply (O3 p u). rewrite <- app_assoc. reflexivity.
      - intros p ->. apply (O4 p u). rewrite <- app_assoc. reflexivity. }
    destruct (IH t0 t1 r (pre ++ [c]) I1) as (t2 & H2 & I2); [rewrite <- app_assoc; exact E|].
    exists t2. split; [|exact I2]. cbn [app]. eapply ns_trans; eassumption.
Qed.

Lemma read_comment t r d : t_state t = data_state -> comment_ok d ->
  exists t1, nsteps t (lit "<!--" ++ d ++ lit "-->" ++ r) t1 r /\ t_out t1 = t_out t ++ [TComment d] /\ t_state t1 = data_state.
Proof.
  intros Es Ok. set (t1 := set_state tag_open_state t). set (t2 := set_state markup_declaration_open_state t1).
  set (t3 := set_state comment_start_state (set_comment [] t2)).
  assert (I3 : incomment t t3 []) by (split; [reflexivity|]; split; reflexivity).
  destruct (comment_steps d Ok (d ++ [0x2D; 0x2D]) t t3 (0x3E :: r) [] I3 eq_refl) as (t4 & H4 & Eo & Ec & Sh).
  assert (K : (t_state t4 = comment_end_state \/ t_state t4 = comment_less_than_sign_bang_dash_dash_state) /\ t_comment t4 = d).
  { change [0x2D; 0x2D] with ([0x2D] ++ [0x2D]) in Sh, Ec. rewrite app_assoc in Sh, Ec.
    destruct (t_state t4); cbn [shape held] in Sh, Ec; try contradiction Sh.
    - exfalso. destruct d; discriminate.
    - exfalso. destruct d as [|a [|b d]]; discriminate.
    - exfalso. rewrite last_last in Sh. contradiction.
    - exfalso. destruct Sh as (p & Sh). apply app_inj_tail in Sh. destruct Sh; discriminate.
    - exfalso. destruct Sh as (p & Sh). apply app_inj_tail in Sh. destruct Sh; discriminate.
    - exfalso. destruct Sh as (p & Sh & L). apply app_inj_tail in Sh. destruct Sh as [<- _]. rewrite last_last in L. discriminate.
    - split; [auto|]. change [0x2D; 0x2D] with ([0x2D] ++ [0x2D]) in Ec. rewrite app_assoc in Ec. apply app_inj_tail in Ec. destruct Ec as [Ec _]. apply app_inj_tail in Ec. tauto.
    - exfalso. destruct Sh as (p & Sh & L). apply app_inj_tail in Sh. destruct Sh as [<- _]. rewrite last_last in L. contradiction.
    - split; [auto|]. change [0x2D; 0x2D] with ([0x2D] ++ [0x2D]) in Ec. rewrite app_assoc in Ec. apply app_inj_tail in Ec. destruct Ec as [Ec _]. apply app_inj_tail in Ec. tauto.
    - exfalso. destruct Sh as (p & Sh). change [0x2D; 0x2D; 0x21] with ([0x2D; 0x2D] ++ [0x21]) in Sh. rewrite app_assoc in Sh. apply app_inj_tail in Sh. destruct Sh; discriminate. }
  destruct K as [Ks Kc].
  assert (Hl : exists t5, nsteps t4 (0x3E :: r) t5 r /\ t_out t5 = t_out t ++ [TComment d] /\ t_state t5 = data_state).
  { destruct Ks as [Ks|Ks].
    - eexists. split; [apply (step_c switch cdata t4 _ r _ false); [rewrite Ks; reflexivity|unfold M_html.ordinary; rewrite Ks; reflexivity]|].
      cbn. rewrite Eo, Kc. split; reflexivity.
    - eexists. split; [eapply ns_trans; [apply (step_c switch cdata t4 _ r (set_state comment_end_state t4) true); [rewrite Ks; reflexivity|unfold M_html.ordinary; rewrite Ks; reflexivity]|];
        apply (step_c switch cdata (set_state comment_end_state t4) _ r _ false); reflexivity|].
      cbn. rewrite Eo, Kc. split; reflexivity. }
  destruct Hl as (t5 & H5 & R5). exists t5. split; [|exact R5].
  eapply ns_trans; [apply (step_c switch cdata t 0x3C _ t1 false); [rewrite Es; reflexivity|unfold M_html.ordinary; rewrite Es; reflexivity]|].
  eapply ns_trans; [apply (step_c switch cdata t1 0x21 _ t2 false); reflexivity|].
  eapply ns_trans; [apply (ns_one switch cdata t2 _ t3 (d ++ lit "-->" ++ r)); [discriminate|reflexivity]|].
  replace (d ++ lit "-->" ++ r) with ((d ++ [0x2D; 0x2D]) ++ 0x3E :: r) by (rewrite <- app_assoc; reflexivity).
  eapply ns_trans; eassumption.
Qed.
End Read.
