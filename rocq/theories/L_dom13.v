(** The tokens of the body, whatever they are, keep what is true before and after every token. *)
From Coq Require Import ZArith List Bool String Lia.
From Verif Require Import M_infra M_encoding M_labels M_html M_html_serialize M_dom_names M_dom M_dom2 L_html_serialize L_dom L_dom2
  L_dom10 L_dom11 L_dom12.
Import ListNotations.
Open Scope Z_scope.
Open Scope list_scope.

Lemma merge_ok : forall g i s, World s -> Still s (merge_attrs g i s).
Proof.
  intros g i s W. unfold merge_attrs. apply still_change; [exact W| |].
  - intros [[] ? ?]; split; reflexivity.
  - destruct (cell_of (s_dom s) i) as [[] ? ?]; cbn; repeat split; auto; discriminate.
Qed.
Lemma body_html_ok : forall g s, World s -> Rooted s -> okay (Still s) (body_html g s).
Proof.
  intros g s W R. unfold body_html. destruct (contains T_template s); [cbn; now apply Still_refl|].
  destruct (rooted_names s R) as (e & r & E).
  assert (N : names s <> []) by (unfold names; rewrite E; discriminate).
  apply (okay_run _ _ _ _ (front_ok s W N)). intros i _. cbn. now apply merge_ok.
Qed.
Lemma second_ok : forall s, Rooted s -> (List.length (s_stack s) =? 1)%nat = false -> exists i, second s = Val i.
Proof.
  intros s R H. destruct (rooted_names s R) as (e & r & E). unfold second. rewrite E in *.
  destruct (rev (e :: r)) as [|a [|b x]] eqn:Q; [| |eauto]; apply (f_equal (@List.length _)) in Q; rewrite rev_length in Q; cbn in *.
  - discriminate.
  - injection Q as Q. rewrite Q in H. discriminate.
Qed.

Ltac body_steps F :=
  repeat (match goal with
  | |- okay _ (match p_closed ?x with _ => _ end) => eapply okay_run; [eapply (p_closed_from _ _ F); eassumption|intros ? ?; cbv beta iota]
  | |- okay _ (match reconstruct ?x with _ => _ end) => eapply okay_run; [eapply (reconstruct_from _ _ F); eassumption|intros ? ?; cbv beta iota]
  end).

Section Tokens.
Variable listed : list Z -> bool.
Variable emit : st -> ktok -> outcome st.
Variable R : nat.
Hypothesis emit_ok : forall s k, Inv s -> Tame k -> Calm s k -> (rank (s_mode s) k < R)%nat -> okay (Post s k) (emit s k).

Ltac irr := (eapply irrelevant_from; [eassumption|reflexivity..]).

Lemma head_loose : forall x i, is_html_in headings (s_dom x) i = true -> loose (name_of (s_dom x) i).
Proof.
  intros x i H. unfold is_html_in in H. apply andb_prop in H. destruct H as [_ H]. apply among_In in H. cbn in H.
  repeat match type of H with _ \/ _ => destruct H as [H|H]; [rewrite <- H; reflexivity|] end. destruct H.
Qed.
Ltac headings F X :=
  body_steps F; eapply lands; [exact X|];
  match goal with K : Stay _ _ ?y |- okay _ (match cur ?y with _ => _ end) =>
    pose proof (pop_if_ok _ _ F (is_html_in headings (s_dom y)) _ y K (head_loose y)) as O;
    destruct (cur y) as [i| |]; cbv beta iota in *; try contradiction;
    eapply okay_run; [exact O|]; intros ? ?; eapply (insert_from _ _ F); eassumption
  end.
Lemma option_loose : forall t x i, loose t -> is_html t (s_dom x) i = true -> loose (name_of (s_dom x) i).
Proof. intros t x i L H. apply is_html_ns in H. destruct H as [_ ->]. exact L. Qed.
Ltac options F X :=
  eapply lands; [exact X|];
  match goal with K : Stay _ _ ?y |- okay _ (match cur_is _ ?y with _ => _ end) =>
    pose proof (pop_if_ok _ _ F (is_html T_option (s_dom y)) _ y K (fun i => option_loose T_option y i eq_refl)) as O;
    unfold cur_is; destruct (cur y) as [i| |]; cbv beta iota in *; try contradiction;
    eapply okay_run; [exact O|]; intros ? ?; eapply (other_start_from _ _ F); eassumption
  end.
(** the tokens that go to the head *)
Lemma raw_ok : forall m w g s s1 x, Ctx m w s -> Stay w s s1 -> good_tag g -> loose (g_id g) ->
  okay (Post' s) (run s2 <- insert_el' g s1; Val (to_text (want x s2))).
Proof.
  intros m w g s s1 x X K G L. pose proof (stay_body _ _ _ K) as B.
  apply (okay_run _ _ _ _ (insert_el'_ok g s1 (proj1 B) (body_root m w s1 (X_floor _ _ _ X) B) G (loose_fits s1 _ L))).
  intros s2 Q. cbn. pose proof (grown_same _ _ _ Q (proj2 (proj2 (loose_free _ L)))) as Sm.
  apply (land_text m w s s1 s2 _ (g_id g) X K Q L); [constructor; reflexivity|reflexivity|].
  cbn. rewrite (Same_mode _ _ Sm). apply (proj2 K).
Qed.
Lemma head_in_body : forall m w g s, Ctx m w s -> good_tag g ->
  In (g_id g) [T_base; T_basefont; T_bgsound; T_link; T_meta; T_noframes; T_script; T_style; T_title] ->
  okay (Post' s) (on_in_head emit s (KStart g)).
Proof.
  intros m w g s X G I. pose proof (X_floor _ _ _ X) as F. pose proof (stay_refl w s (X_body _ _ _ X)) as K.
  cbn [on_in_head]. cbn in I.
  repeat match type of I with _ \/ _ => destruct I as [E|I] end; try contradiction; rewrite <- E;
    try (eapply lands; [exact X|]; eapply (void_from m w F); [exact G|rewrite <- E; reflexivity|exact K]);
    unfold raw_text, rcdata; apply (raw_ok m w g s s _ X K G); rewrite <- E; reflexivity.
Qed.

Lemma body_start_ok : forall m w s g, Ctx m w s -> Tame (KStart g) -> (g_id g = T_table -> In m [M_in_body; M_in_cell; M_in_caption]) ->
  (rank (s_mode s) (KStart g) <= R)%nat -> okay (Post' s) (body_start emit s g).
Proof.
  intros m w s g X (G & Wd & Im) HT HR. pose proof (X_floor _ _ _ X) as F. pose proof (X_body _ _ _ X) as B.
  pose proof (stay_refl w s B) as K. pose proof (body_root m w s F B) as Rt.
  assert (other : loose (g_id g) -> okay (Post' s) (other_start g s)).
  { intro L. eapply lands; [exact X|]. now apply (other_start_from m w F). }
  assert (ign : okay (Post' s) (Val s)) by (eapply lands; [exact X|]; cbn; exact K).
  unfold body_start.
  destruct (g_id g) eqn:E; try discriminate Wd; try exact ign;
    try (apply other; reflexivity);
    try (apply (head_in_body m w g s X G); rewrite E; cbn; tauto);
    assert (L : g_id g = g_id g) by reflexivity; 
    try (assert (L' : loose (g_id g)) by (rewrite E; reflexivity); clear L; rename L' into L).
  all: try (body_steps F; eapply lands; [exact X|]; eapply (insert_from m w F); eassumption).
  all: try (body_steps F; eapply lands; [exact X|]; eapply okay_run; [eapply (void_from m w F); eassumption|intros ? ?; cbn; irr]).
  all: try (body_steps F; eapply lands; [exact X|]; eapply okay_run; [eapply (insert_from m w F); eassumption|intros ? ?; cbn; irr]).
  all: try (body_steps F; eapply lands; [exact X|]; eapply (void_from m w F); eassumption).
  all: idtac.
  all: try (body_steps F; eapply lands; [exact X|]; eapply okay_run; [eapply (insert_from m w F); eassumption|intros ? ?; cbn];
            eapply irrelevant_from; [eapply marker_from; eassumption|reflexivity..]).
  all: try (body_steps F; eapply lands; [exact X|]; eapply okay_run2; [eapply (insert2_from m w F); eassumption|];
            intros ? ? [K2 _]; cbn [fst] in K2; cbn; eapply formatting_from; eassumption).
  all: try (eapply lands; [exact X|]; cbv zeta;
            eapply okay_run; [eapply (dd_from' m w F s); irr|intros ? ?; cbv beta iota]; body_steps F; eapply (insert_from m w F); eassumption).
  all: try (body_steps F; eapply lands; [exact X|]; eapply okay_run; [eapply (void_from m w F); eassumption|intros ? ?; cbn]; destruct (is_hidden g); [assumption|irr]).
  all: try (apply (raw_ok m w g s _ _ X); [irr|assumption|assumption]).
  all: try (body_steps F; apply (raw_ok m w g s _ _ X); [irr|assumption|assumption]).
  (* body *)
  - destruct (List.length (s_stack s) =? 1)%nat eqn:Q; [exact ign|]. destruct (second_ok s Rt Q) as (i & ->). cbv beta iota.
    destruct (is_html T_body (s_dom s) i || contains T_template s); [exact ign|].
    eapply lands; [exact X|]. cbn. assert (K1 : Stay w s (set_frameset_ok false s)) by irr.
    apply (stay_trans w s _ _ K1). apply still_stay; [now apply (stay_body w s)|]. apply merge_ok. apply (stay_body _ _ _ K1).
  (* form *)
  - destruct (match s_form s with Some _ => negb (contains T_template s) | None => false end); [exact ign|].
    body_steps F. eapply lands; [exact X|]. eapply okay_run2; [eapply (insert2_from m w F); eassumption|].
    intros s2 i [K2 Q2]. cbn [fst snd] in K2, Q2. cbn. destruct (contains T_template s2); [exact K2|].
    apply (stay_trans w s s2 _ K2). apply stay_form; [now apply (stay_body w s)|]. cbn. rewrite <- E. exact Q2.
  (* headings *)
  - headings F X.
  - headings F X.
  - headings F X.
  - headings F X.
  - headings F X.
  - headings F X.
  (* html *)
  - eapply lands; [exact X|]. apply (okay_weak _ _ _ (body_html_ok g s (proj1 B) Rt)). intros s' Q. now apply still_stay.
  (* image *)
  - apply (emit_ok s (KStart (STag T_img (g_atom g) (g_text g) (g_self g) (g_attrs g)))).
    + now apply (inv_ctx m w).
    + split; [split; [left; now apply Im|reflexivity]|]. split; [reflexivity|discriminate].
    + intros _. split; [cbn; auto|]. apply (main_listed _ m). apply X.
    + unfold rank in *. cbn [g_id]. rewrite E in HR. destruct (X_main _ _ _ X) as [[-> Q]|[_ Q]]; cbn in Q;
        repeat match type of Q with _ \/ _ => destruct Q as [Q|Q] end; try contradiction; rewrite <- Q in *; cbn in *; lia.
  (* li *)
  - cbv zeta. assert (K1 : Stay w s (set_frameset_ok false s)) by irr. set (s1 := set_frameset_ok false s) in *. clearbody s1.
    pose proof (stay_body _ _ _ K1) as B1. destruct (rooted_names s1 (body_root m w s1 F B1)) as (e & r & Es). rewrite Es.
    eapply lands; [exact X|].
    destruct (is_html T_li (s_dom s1) (en_node e)) eqn:Q.
    + apply (other_start_from m w F); [assumption..|]. apply (stay_trans w s s1 _ K1).
      apply (close_named m); [exact F|exact B1| |now right]. destruct (body_split w s1 B1) as (U & W & Sp). assert (Sp' := Sp).
      destruct Sp' as (E1 & N & LU). destruct U as [|x U].
      * exfalso. cbn in E1. destruct (floor_stack m w s1 [] W F Sp) as (y & q & EW & Ny). rewrite E1, EW in Es. injection Es as -> ->.
        destruct (floor_head m w F) as (t & z & -> & A & _). cbn in Ny. apply is_html_ns in Q. destruct Q as [_ Q]. unfold nm in Ny.
        rewrite Q in Ny. rewrite <- Ny in A. discriminate A.
      * exists (x :: U), W, x. split; [exact Sp|]. split; [now left|]. cbn in E1. rewrite E1 in Es. injection Es as -> _. exact Q.
    + destruct (_ && _).
      * now apply (other_start_from m w F).
      * body_steps F. eapply (insert_from m w F); eassumption.
  (* optgroup, option *)
  - options F X.
  - options F X.
  (* ruby *)
  - eapply lands; [exact X|]. eapply okay_run; [apply (in_scope_ok m w default_scope T_ruby s default_wide eq_refl F B)|].
    intros b _. apply (insert_from m w F); [assumption..|]. destruct b; [now apply (implied_from m)|exact K].
  - eapply lands; [exact X|]. eapply okay_run; [apply (in_scope_ok m w default_scope T_ruby s default_wide eq_refl F B)|].
    intros b _. apply (insert_from m w F); [assumption..|]. destruct b; [now apply (implied_from m)|exact K].
  - eapply lands; [exact X|]. eapply okay_run; [apply (in_scope_ok m w default_scope T_ruby s default_wide eq_refl F B)|].
    intros b _. apply (insert_from m w F); [assumption..|]. destruct b; [now apply (implied_from m)|exact K].
  - eapply lands; [exact X|]. eapply okay_run; [apply (in_scope_ok m w default_scope T_ruby s default_wide eq_refl F B)|].
    intros b _. apply (insert_from m w F); [assumption..|]. destruct b; [now apply (implied_from m)|exact K].
  (* select *)
  - body_steps F. match goal with Q : Stay w s ?x |- okay _ (match insert_el' g ?x with _ => _ end) => rename x into s1; rename Q into K1 end.
    pose proof (stay_body _ _ _ K1) as B1.
    eapply okay_run; [apply (insert_el'_ok g s1 (proj1 B1) (body_root m w s1 F B1) G); rewrite E; left; split; [reflexivity|discriminate]|].
    intros s2 Gr. rewrite E in Gr. cbn. eapply (land_select m w s s1 s2); [exact X|exact K1|exact Gr|constructor; reflexivity|].
    cbn. destruct (s_mode s2); cbn; auto.
  (* table *)
  - assert (O : okay (Stay w s) (if s_quirks s then Val s else p_closed s)).
    { destruct (s_quirks s); [exact K|]. now apply (p_closed_from m w F). }
    eapply okay_run; [exact O|]. intros s1 K1. pose proof (stay_body _ _ _ K1) as B1. cbv beta.
    eapply okay_run; [apply (insert_el'_ok g s1 (proj1 B1) (body_root m w s1 F B1) G); rewrite E; left; split; [reflexivity|discriminate]|].
    intros s2 Gr. rewrite E in Gr. cbn. eapply (land_table m w s s1 s2); [exact X|now apply HT|exact K1|exact Gr|constructor; reflexivity|reflexivity].
  (* textarea *)
  - pose proof (insert_el'_ok g s (proj1 B) Rt G (loose_fits s _ L)) as O. eapply okay_run; [exact O|]. intros s2 Q. cbn.
    pose proof (grown_same _ _ _ Q (proj2 (proj2 (loose_free _ L)))) as Sm.
    apply (land_text m w s s s2 _ (g_id g) X K Q L); [constructor; reflexivity|reflexivity|]. cbn. apply (Same_mode _ _ Sm).
Qed.

(** *** End tags *)

Lemma grown_has : forall m w t s s', Floor m w -> Body w s -> loose t -> Grown t s s' -> Stay w s s' /\ Has (is_html t (s_dom s')) w s'.
Proof.
  intros m w t s s' F B L Q. pose proof (grown_same _ _ _ Q (proj2 (proj2 (loose_free _ L)))) as Sm.
  assert (Q' := Q). destruct Q' as (W' & N & _ & _ & e & d & -> & H). split.
  - split; [|exact Sm]. split; [exact W'|]. destruct B as (_ & u & Nu & Lu). exists (t :: u). rewrite N, Nu. split; [reflexivity|now constructor].
  - destruct B as (_ & u & Nu & Lu).
    assert (B' : Body w (set_stack (e :: s_stack s) (set_dom d s))).
    { split; [exact W'|]. exists (t :: u). rewrite N, Nu. split; [reflexivity|now constructor]. }
    destruct (body_split w _ B') as (U & W & Sp). assert (Sp' := Sp). destruct Sp' as (E1 & N1 & LU).
    destruct U as [|x U].
    + exfalso. cbn in E1. destruct (floor_stack m w _ [] W F Sp) as (y & q & EW & Ny). rewrite EW in E1. injection E1 as -> _.
      destruct (floor_head m w F) as (t' & z & -> & A & _). cbn in Ny. apply is_html_ns in H. destruct H as [_ H]. unfold nm in Ny.
      cbn in Ny. rewrite H in Ny. subst t'. unfold loose in L. congruence.
    + exists (x :: U), W, x. split; [exact Sp|]. split; [now left|]. injection E1 as -> _. exact H.
Qed.
Lemma floor_names : forall m w t, Floor m w -> In t w -> t <> T_template.
Proof.
  intros m w t F. revert t. induction F as [|m u w M F IH L|w F IH|t w I F IH|w F IH|t w I F IH]; intros x X.
  - cbn in X. destruct X as [<-|[<-|[]]]; discriminate.
  - destruct X as [<-|X]; [discriminate|]. apply in_app_or in X. destruct X as [X|X]; [|auto]. rewrite Forall_forall in L.
    intros ->. apply L in X. discriminate X.
  - destruct X as [<-|X]; [discriminate|auto].
  - destruct X as [<-|X]; [|auto]. destruct I as [<-|[<-|[<-|[]]]]; discriminate.
  - destruct X as [<-|X]; [discriminate|auto].
  - destruct X as [<-|X]; [|auto]. destruct I as [<-|[<-|[]]]; discriminate.
Qed.
Lemma names_contains : forall t s, ~ In t (names s) -> contains t s = false.
Proof.
  intros t s H. unfold contains. destruct (existsb _ _) eqn:E; [|reflexivity]. elim H. apply existsb_exists in E.
  destruct E as (e & I & E). apply is_html_ns in E. destruct E as [_ E]. unfold names. apply in_map_iff. exists e. auto.
Qed.
Lemma no_template : forall m w s, Floor m w -> Body w s -> contains T_template s = false.
Proof.
  intros m w s F (_ & u & N & L). apply names_contains. rewrite N. intro I. apply in_app_or in I. destruct I as [I|I].
  - rewrite Forall_forall in L. apply L in I. discriminate I.
  - now apply (floor_names m w T_template F I).
Qed.
Lemma scope_total : forall m w t s, Floor m w -> Body w s -> okay (fun _ => True) (in_scope default_scope t s).
Proof.
  intros m w t s F B. destruct (body_root m w s F B) as (v & N). destruct B as ([] & _). unfold in_scope.
  assert (H : exists e, In e (s_stack s) /\ default_scope (s_dom s) (en_node e) = true).
  { assert (I : In T_html (names s)) by (rewrite N; apply in_or_app; right; now left). unfold names in I. apply in_map_iff in I.
    destruct I as (e & En & I). exists e. split; [exact I|]. unfold default_scope. rewrite Forall_forall in W_stack. rewrite W_stack by exact I.
    unfold nm in En. now rewrite En. }
  destruct H as (e & I & H). clear - I H. induction (s_stack s) as [|x l IH]; [destruct I|]. cbn [scope_from].
  destruct (is_html _ _ _); [exact Logic.I|]. destruct (default_scope (s_dom s) (en_node x)) eqn:E; [exact Logic.I|].
  destruct I as [->|I]; [congruence|]. now apply IH.
Qed.

Lemma after_ctx : forall m w s, Ctx m w s -> s_mode s = M_in_body -> Ctx m w (set_mode M_after_body s).
Proof.
  intros m w s [M F B C] E. assert (m = M_in_body).
  { rewrite E in M. destruct M as [[<- _]|[-> _]]; reflexivity. } subst m.
  constructor; [right; cbn; auto|exact F| |exact C]. destruct B as ([] & B). split; [constructor; assumption|exact B].
Qed.
Lemma body_end_ok : forall m w s t, Ctx m w s -> Tame (KEnd t) -> (t <> T_body -> hd T_a w <> t) ->
  (In t [T_body; T_html] -> s_mode s = M_in_body /\ s_foster s = false) ->
  (In t [T_br; T_html] -> (rank (s_mode s) (KEnd t) <= R)%nat) -> okay (Post' s) (body_end emit s t).
Proof.
  intros m w s t X Ta Hd HB HR. pose proof (X_floor _ _ _ X) as F. pose proof (X_body _ _ _ X) as B.
  pose proof (stay_refl w s B) as K. pose proof (body_root m w s F B) as Rt. pose proof (no_template m w s F B) as NT.
  assert (other : t <> T_body -> okay (Post' s) (other_end t s)).
  { intro D. eapply lands; [exact X|]. apply (other_end_from' m w F); [now apply Hd|exact K]. }
  assert (ign : okay (Post' s) (Val s)) by (eapply lands; [exact X|]; cbn; exact K).
  assert (plain : loose t -> among t implied = false -> okay (Post' s) (run b <- in_scope default_scope t s; Val (if b then pop_until t (implied_end_tags s) else s))).
  { intros L A. eapply lands; [exact X|]. eapply okay_run; [apply (in_scope_ok m w default_scope t s default_wide L F B)|].
    intros [] H; cbn; [|exact K]. apply (close_named m); auto. }
  assert (hs : okay (Post' s) (run b <- in_scope_any default_scope headings s; Val (if b then pop_until_any headings (implied_end_tags s) else s))).
  { eapply lands; [exact X|]. eapply okay_run; [apply (in_scope_any_ok m w default_scope headings s default_wide); [|exact F|exact B]|].
    - unfold headings. repeat constructor.
    - intros [] H; cbn; [|exact K]. apply (close_any m); auto. }
  assert (ob : loose t -> among t implied = false -> okay (Post' s) (run b <- in_scope default_scope t s; Val (if b then clear_formatting (pop_until t (implied_end_tags s)) else s))).
  { intros L A. eapply lands; [exact X|]. eapply okay_run; [apply (in_scope_ok m w default_scope t s default_wide L F B)|].
    intros [] H; cbn; [|exact K]. apply clear_from. apply (close_named m); auto. }
  assert (ddt : loose t -> t <> T_body -> okay (Post' s) (run b <- in_scope default_scope t s; if b : bool then other_end t (pop_until t (implied_except (Some t) s)) else Val s)).
  { intros L D. eapply lands; [exact X|]. eapply okay_run; [apply (in_scope_ok m w default_scope t s default_wide L F B)|].
    intros [] H; [|exact K]. apply (other_end_from' m w F); [now apply Hd|]. apply (close_named m); auto. }
  unfold body_end. destruct t; try discriminate Ta; try (apply other; discriminate); try exact ign; try exact hs;
    try (apply plain; reflexivity); try (apply ob; reflexivity); try (apply ddt; [reflexivity|discriminate]).
  (* body *)
  - destruct HB as [M Fo]; [cbn; auto|]. eapply okay_run; [now apply (scope_total m w)|]. intros b _. cbn. destruct b; [|exact ign].
    split; [|cbn; auto]. apply (inv_ctx m w). apply after_ctx; assumption.
  (* br *)
  - apply (emit_ok s (KStart (made_tag T_br))).
    + now apply (inv_ctx m w).
    + split; [split; [left; reflexivity|reflexivity]|]. split; [reflexivity|discriminate].
    + intros _. split; [cbn; auto|]. apply (main_listed _ m). apply X.
    + specialize (HR ltac:(cbn; auto)). unfold rank in *. cbn [g_id made_tag]. destruct (X_main _ _ _ X) as [[-> Q]|[_ Q]]; cbn in Q;
        repeat match type of Q with _ \/ _ => destruct Q as [Q|Q] end; try contradiction; rewrite <- Q in *; cbn in *; lia.
  (* form *)
  - rewrite NT. cbn [negb]. cbv zeta.
    assert (K1 : Stay w s (set_form None s)) by (apply stay_form; [exact B|exact I]).
    destruct (s_form s) as [i|] eqn:Fi; [|eapply lands; [exact X|exact K1]].
    pose proof (W_form s (proj1 B)) as Wf. rewrite Fi in Wf.
    eapply okay_weak; [apply (form_end_ok m w i (set_form None s) F (stay_body _ _ _ K1) Wf)|].
    intros s' (w' & F' & K'). apply (land m w w' s s' X F'). split; [apply K'|]. eapply Same_trans; [apply (proj2 K1)|apply (proj2 K')].
  (* html *)
  - destruct HB as [M Fo]; [cbn; auto|]. eapply okay_run; [now apply (scope_total m w)|]. intros b _. destruct b; [|exact ign].
    apply (emit_ok (set_mode M_after_body s) (KEnd T_html)).
    + apply (inv_ctx m w). apply after_ctx; assumption.
    + reflexivity.
    + intro Q. cbn in Q. congruence.
    + specialize (HR ltac:(cbn; auto)). rewrite M in HR. cbn in *. lia.
  (* li *)
  - eapply lands; [exact X|]. eapply okay_run; [apply (in_scope_ok m w list_item_scope T_li s list_item_wide eq_refl F B)|].
    intros [] H; cbn; [|exact K]. apply (close_named m); auto.
  (* p *)
  - eapply lands; [exact X|]. eapply okay_run; [apply (in_scope_ok m w button_scope T_p s button_wide eq_refl F B)|]. intros b Hb.
    assert (O : okay (fun s1 => Stay w s s1 /\ Has (is_html T_p (s_dom s1)) w s1) (if b then Val s else insert_el' (made_tag T_p) s)).
    { destruct b; [cbn; auto|]. eapply okay_weak; [apply (insert_el'_ok (made_tag T_p) s (proj1 B) Rt); [split; [now left|reflexivity]|now apply loose_fits]|].
      intros s1 Q. cbn [g_id made_tag] in Q. apply (grown_has m w T_p s s1 F B eq_refl Q). }
    eapply okay_run; [exact O|]. intros s1 [K1 H1]. cbn. apply (stay_trans w s s1 _ K1). apply (close_named m); auto.
    now apply (stay_body w s).
  (* template *)
  - cbn [on_in_head]. rewrite NT. exact ign.
Qed.
End Tokens.
