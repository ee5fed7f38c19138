(** The tokens of the head, of texts and of the body; any token, and any list of tokens. *)
From Coq Require Import ZArith List Bool String Lia.
From Verif Require Import M_infra M_encoding M_labels M_html M_html_serialize M_dom_names M_dom M_dom2 L_html_serialize L_dom L_dom2
  L_dom10 L_dom11 L_dom12 L_dom13 L_dom14 L_dom15 L_dom16 L_dom17 L_dom18.
Import ListNotations.
Open Scope Z_scope.
Open Scope list_scope.

Section Tokens.
Variable listed : list Z -> bool.
Variable emit : st -> ktok -> outcome st.
Variable R : nat.
Hypothesis emit_ok : forall s k, Inv s -> Tame k -> Calm s k -> (rank (s_mode s) k < R)%nat -> okay (Post s k) (emit s k).

(** what the head does with its elements *)
Lemma head_element : forall s g, Inv s -> Rooted s -> plain (s_mode s) -> good_tag g ->
  In (g_id g) [T_base; T_basefont; T_bgsound; T_link; T_meta; T_noframes; T_script; T_style; T_title] ->
  okay (Post' s) (on_in_head emit s (KStart g)).
Proof.
  intros s g V Rt Pl G I. assert (L : loose (g_id g)).
  { cbn in I. repeat match type of I with _ \/ _ => destruct I as [<-|I] end; try reflexivity; destruct I. }
  assert (vd : okay (Post' s) (insert_void g s)).
  { eapply stills; [exact V|]. apply insert_void_ok; [apply V|exact Rt|exact G|now apply loose_fits|now apply loose_free]. }
  assert (rw : forall x, okay (Post' s) (run s2 <- insert_el' g s; Val (to_text (want x s2)))) by (intro x; now apply raw_any).
  cbn [on_in_head]. cbn in I. repeat match type of I with _ \/ _ => destruct I as [E|I] end; try contradiction; rewrite <- E;
    try exact vd; apply rw.
Qed.
Lemma in_head_ok : forall s k, Inv s -> s_mode s = M_in_head -> Tame k -> Calm s k -> (rank M_in_head k <= R)%nat ->
  okay (Post s k) (on_in_head emit s k).
Proof.
  intros s k V Em T C HR. pose proof (calm_head s k M_in_head C Em ltac:(cbn; intuition discriminate)) as Fo. pose proof (post_self s V) as Ig.
  assert (V' := V). destruct V' as (W & H). rewrite Em in H. destruct H as (P1 & P2 & P3). cbn in P1.
  assert (Rt : Rooted s) by (now exists [T_head]).
  assert (Pl : plain (s_mode s)) by (rewrite Em; split; discriminate).
  assert (out : okay (fun s1 => Inv (set_mode M_after_head s1) /\ s_foster s1 = false) (pop s)).
  { eapply okay_weak; [apply (pop_near s T_head [T_html] W P1)|]. intros s1 [N1 E1]. split; [|now rewrite (N_foster _ _ N1)].
    split; [apply (alike_world s1); [constructor; reflexivity|apply N1]|]. split; [exact E1|].
    split; [exact (N_count _ _ N1 M_after_head P2)|]. cbn [HeadOK s_mode set_mode] in *. change (s_head (set_mode M_after_head s1)) with (s_head s1).
    now rewrite (N_head _ _ N1). }
  assert (Cu : cur_is T_head s = Val true) by (now rewrite (cur_named s T_head T_head [T_html] W P1)).
  assert (rest : (rank M_after_head k < rank M_in_head k)%nat -> okay (Post s k) (run b <- cur_is T_head s;
    if b then run s1 <- pop s; emit (set_mode M_after_head s1) k else Bad)).
  { intro R2. rewrite Cu. cbv beta iota. eapply okay_run; [exact out|]. intros s1 [V1 Fo1]. apply (emit_head emit R emit_ok); auto. cbn [s_mode set_mode]. lia. }
  assert (NT : contains T_template s = false) by (apply names_contains; rewrite P1; cbn; intuition discriminate).
  destruct k as [d|g|t|d|c|]; try exact Ig.
  - assert (R3 : (rank M_after_head (KStart g) < rank M_in_head (KStart g))%nat) by (unfold rank; lia).
    destruct T as (G & Wd & Imag).
    assert (he : In (g_id g) [T_base; T_basefont; T_bgsound; T_link; T_meta; T_noframes; T_script; T_style; T_title] -> okay (Post s (KStart g)) (on_in_head emit s (KStart g))).
    { intro I. now apply head_element. }
    cbn [on_in_head] in *. destruct (g_id g) eqn:Eg; try discriminate Wd; try (now apply rest); try exact Ig;
      try (apply he; clear; cbn; auto 12; fail).
    + eapply stills; [exact V|]. now apply body_html_ok.
    + eapply okay_run; [apply (insert_el'_ok g s W Rt G); rewrite Eg; now apply loose_fits|]. intros s1 Q. rewrite Eg in Q. cbn [okay Post].
      assert (N : Near s s1) by (apply (near_grown T_noscript); [exact Q|reflexivity]).
      split; [|cbn; rewrite (N_foster _ _ N); auto].
      split; [apply (alike_world s1); [constructor; reflexivity|apply N]|]. split; [|split].
      * cbn [Stand s_mode set_mode]. change (names (set_mode M_in_head_noscript s1)) with (names s1). now rewrite (grown_names _ _ _ Q), P1.
      * exact (N_count _ _ N M_in_head P2).
      * cbn [HeadOK s_mode set_mode] in *. change (s_head (set_mode M_in_head_noscript s1)) with (s_head s1). now rewrite (N_head _ _ N).
  - cbn [on_in_head]. destruct t; try exact Ig; try (apply rest; cbn; lia).
    + rewrite Cu. cbv beta iota. eapply okay_run; [exact out|]. intros s1 [V1 Fo1]. cbn [okay Post]. split; [exact V1|]. cbn. congruence.
    + rewrite NT. exact Ig.
  - cbn [on_in_head]. eapply stills; [exact V|]. now apply insert_comment_ok.
  - cbn [on_in_head]. destruct (is_ascii_white_space c); [|apply rest; cbn; lia]. eapply stills; [exact V|]. now apply insert_char_ok.
  - cbn [on_in_head]. apply rest; cbn; lia.
Qed.
Lemma in_head_noscript_ok : forall s k, Inv s -> s_mode s = M_in_head_noscript -> Tame k -> Calm s k -> (rank M_in_head_noscript k <= R)%nat ->
  okay (Post s k) (on_in_head_noscript emit s k).
Proof.
  intros s k V Em T C HR. pose proof (calm_head s k M_in_head_noscript C Em ltac:(cbn; intuition discriminate)) as Fo. pose proof (post_self s V) as Ig.
  assert (V' := V). destruct V' as (W & H). rewrite Em in H. destruct H as (P1 & P2 & P3). cbn in P1.
  assert (Rt : Rooted s) by (now exists [T_noscript; T_head]).
  assert (Pl : plain (s_mode s)) by (rewrite Em; split; discriminate).
  assert (out : okay (fun s1 => Inv s1 /\ s_foster s1 = false /\ s_mode s1 = M_in_head) (run b <- cur_is T_noscript s;
    if b then run s1 <- pop s; run h <- cur_is T_head s1; if h then Val (set_mode M_in_head s1) else Bad else Bad)).
  { rewrite (cur_named s T_noscript T_noscript [T_head; T_html] W P1). cbv beta iota. change (teqb T_noscript T_noscript) with true. cbv beta iota.
    eapply okay_run; [apply (pop_near s T_noscript [T_head; T_html] W P1)|]. intros s1 [N1 E1].
    rewrite (cur_named s1 T_head T_head [T_html] (N_world _ _ N1) E1). cbv beta iota. change (teqb T_head T_head) with true. cbv beta iota. cbn [okay].
    split; [|split; [cbn; now rewrite (N_foster _ _ N1)|reflexivity]].
    split; [apply (alike_world s1); [constructor; reflexivity|apply N1]|]. split; [exact E1|].
    split; [exact (N_count _ _ N1 M_in_head P2)|]. cbn [HeadOK s_mode set_mode] in *. change (s_head (set_mode M_in_head s1)) with (s_head s1).
    now rewrite (N_head _ _ N1). }
  assert (rest : (rank M_in_head k < rank M_in_head_noscript k)%nat -> okay (Post s k) (run s1 <- (run b <- cur_is T_noscript s;
    if b then run s1 <- pop s; run h <- cur_is T_head s1; if h then Val (set_mode M_in_head s1) else Bad else Bad); emit s1 k)).
  { intro R2. eapply okay_run; [exact out|]. intros s1 (V1 & Fo1 & M1). apply (emit_head emit R emit_ok); auto. rewrite M1. lia. }
  destruct k as [d|g|t|d|c|]; cbn [on_in_head_noscript]; try exact Ig.
  - assert (R3 : (rank M_in_head (KStart g) < rank M_in_head_noscript (KStart g))%nat) by (unfold rank; lia).
    assert (G := proj1 T).
    destruct (g_id g) eqn:Eg; try (now apply rest); try exact Ig;
      try (apply head_element; auto; rewrite Eg; clear; cbn; auto 12; fail).
    eapply stills; [exact V|]. now apply body_html_ok.
  - destruct t; try exact Ig; try (apply rest; cbn; lia).
    eapply okay_weak; [exact out|]. intros s1 (V1 & Fo1 & M1). cbn [Post]. split; [exact V1|]. congruence.
  - cbn [on_in_head]. eapply stills; [exact V|]. now apply insert_comment_ok.
  - destruct (is_ascii_white_space c) eqn:Ws; [|apply rest; cbn; lia]. cbn [on_in_head]. rewrite Ws. eapply stills; [exact V|]. now apply insert_char_ok.
  - apply rest; cbn; lia.
Qed.

(** after the head: its elements go there all the same *)
Lemma after_head_ok : forall s k, Inv s -> s_mode s = M_after_head -> Tame k -> Calm s k -> (rank M_after_head k <= R)%nat ->
  okay (Post s k) (on_after_head emit s k).
Proof.
  intros s k V Em T C HR. pose proof (calm_head s k M_after_head C Em ltac:(cbn; intuition discriminate)) as Fo. pose proof (post_self s V) as Ig.
  assert (V' := V). destruct V' as (W & H). rewrite Em in H. destruct H as (P1 & P2 & P3). cbn in P1.
  assert (Rt : Rooted s) by (now exists []).
  assert (body : forall g, good_tag g -> g_id g = T_body -> okay (fun s1 => World s1 /\ s_foster s1 = false /\ names s1 = [T_body; T_html] /\
    Counted M_in_body (s_dom s1)) (insert_el' g s)).
  { intros g G Eg. eapply okay_weak; [apply (insert_el'_ok g s W Rt G)|].
    - right. rewrite Eg. split; [discriminate|]. split; [exact Fo|]. exists T_html, [], [T_html]. auto.
    - intros s1 Q. rewrite Eg in Q. split; [apply Q|]. split; [|split].
      + destruct Q as (_ & _ & _ & _ & e & d & -> & _). exact Fo.
      + now rewrite (grown_names _ _ _ Q), P1.
      + unfold Counted in *. rewrite (counted_grown _ _ _ Q). cbn [map ones] in *. injection P2 as A1 A2 A3. rewrite A1, A2, A3. reflexivity. }
  assert (inb : forall s1, World s1 -> names s1 = [T_body; T_html] -> Counted M_in_body (s_dom s1) -> s_mode s1 = M_in_body -> Inv s1).
  { intros s1 W1 N1 C1 M1. split; [exact W1|]. rewrite M1. split; [|split; [exact C1|exact I]]. exists [T_body; T_html]. split; [constructor|].
    exists []. rewrite N1. split; [reflexivity|constructor]. }
  assert (rest : (rank M_in_body k < rank M_after_head k)%nat -> okay (Post s k) (run s1 <- insert_el' (made_tag T_body) s; emit (set_mode M_in_body s1) k)).
  { intro R2. eapply okay_run; [apply (body (made_tag T_body)); [split; [now left|reflexivity]|reflexivity]|]. intros s1 (W1 & F1 & N1 & C1).
    apply (emit_head emit R emit_ok); auto.
    - apply inb; [apply (alike_world s1); [constructor; reflexivity|exact W1]|exact N1|exact C1|reflexivity].
    - cbn [s_mode set_mode]. lia. }
  assert (NT : contains T_template s = false) by (apply names_contains; rewrite P1; cbn; intuition discriminate).
  destruct k as [d|g|t|d|c|]; try exact Ig.
  - assert (R3 : (rank M_in_body (KStart g) < rank M_after_head (KStart g))%nat) by (unfold rank; lia).
    destruct T as (G & Wd & Imag).
    assert (he : In (g_id g) [T_base; T_basefont; T_bgsound; T_link; T_meta; T_noframes; T_script; T_style; T_title] -> okay (Post' s)
      match s_head s with
      | None => Bad
      | Some h => run s1 <- on_in_head emit (set_stack (Entry empty_tag h :: s_stack s) s) (KStart g);
                  Val (set_stack (filter (fun e => negb (en_node e =? h)%nat) (s_stack s1)) s1)
      end).
    { intro I. cbn [HeadOK] in P3. pose proof (W_head s W) as Wh. destruct (s_head s) as [h|] eqn:Eh; [|now elim P3].
      assert (L : loose (g_id g)).
      { cbn in I. repeat match type of I with _ \/ _ => destruct I as [<-|I] end; try reflexivity; destruct I. }
      set (s0 := set_stack (Entry empty_tag h :: s_stack s) s).
      assert (W0 : World s0).
      { destruct W. constructor; auto. constructor; [|assumption]. cbn [en_node]. now apply is_html_ns in Wh. }
      assert (N0 : names s0 = [T_head; T_html]).
      { unfold s0, names. cbn [s_dom s_stack set_stack map]. change (map (nm (s_dom s)) (s_stack s)) with (names s). rewrite P1.
        unfold nm. cbn [en_node]. apply is_html_ns in Wh. destruct Wh as [_ ->]. reflexivity. }
      assert (Rt0 : Rooted s0) by (now exists [T_head]).
      assert (nh : forall d, Ext (s_dom s) d -> is_html T_head d h = true).
      { intros d X. rewrite (ext_is (s_dom s)); [exact Wh|exact X|]. apply is_html_ns in Wh. now apply html_node. }
      assert (vd : okay (Post' s) (run s1 <- insert_void g s0; Val (set_stack (filter (fun e => negb (en_node e =? h)%nat) (s_stack s1)) s1))).
      { eapply okay_run; [apply (insert_void_ok g s0 W0 Rt0 G); [now apply loose_fits|now apply loose_free]|]. intros s1 St. cbn [okay].
        destruct St as (W1 & Es & En & Sm). rewrite Es. unfold s0 at 1. cbn [s_stack set_stack filter en_node]. rewrite Nat.eqb_refl. cbn [negb].
        assert (Nh : map (nm (s_dom s1)) (s_stack s) = [T_html]).
        { pose proof En as En'. unfold names in En'. rewrite Es in En'. unfold s0 in En'. cbn [s_stack set_stack map] in En'.
          injection En' as _ En'. rewrite En'. exact P1. }
        rewrite (filter_keeps (s_dom s1) h).
        2:{ apply nh. apply Sm. }
        2:{ destruct (s_stack s) as [|e [|]]; try discriminate. constructor; [|constructor]. injection Nh as ->. discriminate. }
        assert (N1 : Near s (set_stack (s_stack s) s1)).
        { apply (near_trans s s0); [constructor; auto|]. apply (near_trans s0 s1); [now apply near_same|]. apply near_cut; [exact W1|].
          rewrite Es. now apply incl_tl, incl_refl. }
        split; [|rewrite (N_foster _ _ N1); auto]. split; [apply N1|]. cbn [s_mode set_stack]. rewrite (Same_mode _ _ Sm).
        change (s_mode s0) with (s_mode s). rewrite Em. split; [exact Nh|]. split; [exact (N_count _ _ N1 M_after_head P2)|].
        unfold HeadOK. rewrite (N_head _ _ N1). now rewrite Eh. }
      assert (rw : forall x, okay (Post' s) (run s1 <- (run s2 <- insert_el' g s0; Val (to_text (want x s2)));
        Val (set_stack (filter (fun e => negb (en_node e =? h)%nat) (s_stack s1)) s1))).
      { intro x. assert (O := insert_el'_ok g s0 W0 Rt0 G (loose_fits s0 _ L)). destruct (insert_el' g s0) as [s2| |]; cbn [okay] in O; try contradiction.
        pose proof (grown_same _ _ _ O (proj2 (proj2 (loose_free _ L)))) as Sm.
        cbv beta iota. cbn [okay]. assert (O' := O). destruct O' as (W2 & N2 & X2 & _ & e & d & E2 & He).
        set (s3 := set_stack _ _).
        assert (E3 : s3 = set_stack (e :: s_stack s) (to_text (want x s2))).
        { unfold s3. f_equal. change (s_stack (to_text (want x s2))) with (s_stack s2). rewrite E2. unfold s0. cbn [s_stack set_stack set_dom filter en_node].
          rewrite Nat.eqb_refl. cbn [negb].
          assert (Nl : map (nm d) (e :: s_stack s) = [g_id g; T_html]).
          { rewrite E2 in N2. unfold names in N2. unfold s0 in N2. cbn [s_stack s_dom set_stack set_dom map] in N2.
            assert (N0' := N0). unfold names, s0 in N0'. cbn [s_stack s_dom set_stack map] in N0'. injection N2 as A1 A2 A3. cbn [map]. rewrite A1.
            destruct (names_ext (s_dom s) d (s_stack s)) as [B1 _]; [rewrite E2 in X2; exact X2|apply W|]. rewrite B1. f_equal. exact P1. }
          change (e :: s_stack s) with ([e] ++ s_stack s). 
          pose proof (filter_keeps d h (e :: s_stack s)) as FK. cbn [filter] in FK. cbn [app]. apply FK.
          - apply nh. rewrite E2 in X2. exact X2.
          - destruct (s_stack s) as [|e' [|]]; try discriminate. injection Nl as A1 A2. constructor; [|constructor; [|constructor]].
            + rewrite A1. intro Z. rewrite Z in L. discriminate L.
            + rewrite A2. discriminate. }
        rewrite E3. assert (N3 : Near s (set_stack (e :: s_stack s) (to_text (want x s2)))).
        { apply (near_trans s s0); [constructor; auto|]. apply (near_trans s0 s2); [apply near_same; [exact W2|exact Sm]|].
          apply (near_trans s2 (to_text (want x s2))); [apply near_alike; [exact W2|constructor; reflexivity]|].
          apply near_cut; [apply (alike_world s2); [constructor; reflexivity|exact W2]|].
          change (s_stack (to_text (want x s2))) with (s_stack s2). rewrite E2. unfold s0. cbn [s_stack set_stack set_dom].
          intros y [->|Y]; [now left|]. right. now right. }
        split; [|rewrite (N_foster _ _ N3); auto]. split; [apply N3|]. cbn [s_mode set_stack to_text set_mode].
        exists (g_id g), [T_html].
        assert (Nl : names (set_stack (e :: s_stack s) (to_text (want x s2))) = [g_id g; T_html]).
        { unfold names. cbn [s_stack set_stack map]. change (s_dom (set_stack (e :: s_stack s) (to_text (want x s2)))) with (s_dom s2).
          rewrite E2 in N2. unfold names in N2. unfold s0 in N2. cbn [s_stack s_dom set_stack set_dom map] in N2. injection N2 as A1 A2 A3.
          rewrite E2. cbn [s_dom set_stack set_dom]. rewrite A1. f_equal.
          destruct (names_ext (s_dom s) d (s_stack s)) as [B1 _]; [rewrite E2 in X2; exact X2|apply W|]. rewrite B1. exact P1. }
        split; [exact Nl|]. split; [discriminate|]. split; [exact L|].
        change (s_original (set_stack (e :: s_stack s) (to_text (want x s2)))) with (s_mode s2). rewrite (Same_mode _ _ Sm).
        change (s_mode s0) with (s_mode s). rewrite Em. split; [reflexivity|]. split; [exact (N_count _ _ N3 M_after_head P2)|].
        unfold HeadOK. rewrite (N_head _ _ N3). now rewrite Eh. }
      cbn [on_in_head]. cbn in I. repeat match type of I with _ \/ _ => destruct I as [E|I] end; try contradiction; rewrite <- E;
        try exact vd; apply rw. }
    cbn [on_after_head]. destruct (g_id g) eqn:Eg; try discriminate Wd; try (now apply rest); try exact Ig;
      try (apply he; clear; cbn; auto 12; fail).
    + eapply okay_run; [now apply (body g)|]. intros s1 (W1 & F1 & N1 & C1). cbn [okay Post]. split; [|cbn; congruence].
      apply inb; [apply (alike_world s1); [constructor; reflexivity|exact W1]|exact N1|exact C1|reflexivity].
    + eapply stills; [exact V|]. now apply body_html_ok.
  - cbn [on_after_head]. destruct t; try exact Ig; try (apply rest; cbn; lia). cbn [on_in_head]. rewrite NT. exact Ig.
  - cbn [on_after_head]. eapply stills; [exact V|]. now apply insert_comment_ok.
  - cbn [on_after_head]. destruct (is_ascii_white_space c); [|apply rest; cbn; lia]. eapply stills; [exact V|]. now apply insert_char_ok.
  - cbn [on_after_head]. apply rest; cbn; lia.
Qed.
End Tokens.
