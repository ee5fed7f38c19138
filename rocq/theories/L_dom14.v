(** The tokens in tables, in captions and cells, and in select elements. *)
From Coq Require Import ZArith List Bool String Lia.
From Verif Require Import M_infra M_encoding M_labels M_html M_html_serialize M_dom_names M_dom M_dom2 L_html_serialize L_dom L_dom2
  L_dom10 L_dom11 L_dom12 L_dom13.
Import ListNotations.
Open Scope Z_scope.
Open Scope list_scope.

(** *** The stack as a list of names *)

Fixpoint after (q : tname -> bool) (l : list tname) : list tname :=
  match l with [] => [] | t :: r => if q t then r else after q r end.
Fixpoint upto (q : tname -> bool) (l : list tname) : list tname :=
  match l with [] => [] | t :: r => if q t then l else upto q r end.
Lemma drop_names : forall (f : nat -> bool) q d l, (forall e, In e l -> f (en_node e) = q (nm d e)) ->
  map (nm d) (drop_to f l) = after q (map (nm d) l) /\ incl (drop_to f l) l.
Proof.
  intros f q d l. induction l as [|e l IH]; intro H; [split; [reflexivity|apply incl_refl]|]. cbn [drop_to map after].
  rewrite (H e) by now left. destruct (q (nm d e)).
  - split; [reflexivity|now apply incl_tl, incl_refl].
  - destruct IH as [I1 I2]; [intros; apply H; now right|]. split; [exact I1|now apply incl_tl].
Qed.
Lemma pop_to_names : forall (f : nat -> bool) q d l, (forall e, In e l -> f (en_node e) = q (nm d e)) -> existsb q (map (nm d) l) = true ->
  okay (fun l' => map (nm d) l' = upto q (map (nm d) l) /\ incl l' l) (pop_to f l).
Proof.
  intros f q d l. induction l as [|e l IH]; intros H K; [discriminate|]. cbn [pop_to map upto existsb] in *.
  rewrite (H e) by now left. destruct (q (nm d e)).
  - cbn. split; [reflexivity|apply incl_refl].
  - apply (okay_weak _ _ _ (IH (fun e I => H e (or_intror I)) K)). intros l' [I1 I2]. split; [exact I1|now apply incl_tl].
Qed.
Lemma to_table_names : forall d l, Forall (fun e => ns_of d (en_node e) = ns_HTML) l ->
  map (nm d) (to_table d l) = upto (fun t => among t [T_table; T_template; T_html]) (map (nm d) l) /\ incl (to_table d l) l.
Proof.
  intros d l. induction l as [|e l IH]; intro H; [split; [reflexivity|apply incl_refl]|]. inversion H as [|? ? H1 H2]; subst.
  cbn [to_table map upto]. rewrite H1, Z.eqb_refl. cbn [negb]. unfold nm at 2. destruct (among (name_of d (en_node e)) _).
  - split; [reflexivity|apply incl_refl].
  - destruct (IH H2) as [I1 I2]. split; [exact I1|now apply incl_tl].
Qed.
Lemma is_named : forall s t, World s -> forall e, In e (s_stack s) -> is_html t (s_dom s) (en_node e) = teqb (nm (s_dom s) e) t.
Proof. intros s t W e I. apply is_html_eq. pose proof (W_stack s W) as F. rewrite Forall_forall in F. auto. Qed.
Lemma is_named_in : forall s l, World s -> forall e, In e (s_stack s) -> is_html_in l (s_dom s) (en_node e) = among (nm (s_dom s) e) l.
Proof. intros s t W e I. apply is_html_in_eq. pose proof (W_stack s W) as F. rewrite Forall_forall in F. auto. Qed.
Lemma after_loose : forall q u w, (forall t, q t = true -> among t firm = true) -> Forall loose u -> after q (u ++ w) = after q w.
Proof.
  intros q u w H. induction 1 as [|t u L K IH]; [reflexivity|]. cbn [app after]. destruct (q t) eqn:E; [|exact IH].
  apply H in E. unfold loose in L. congruence.
Qed.
Lemma upto_loose : forall q u w, (forall t, q t = true -> among t firm = true) -> Forall loose u -> upto q (u ++ w) = upto q w.
Proof.
  intros q u w H. induction 1 as [|t u L K IH]; [reflexivity|]. cbn [app upto]. destruct (q t) eqn:E; [|exact IH].
  apply H in E. unfold loose in L. congruence.
Qed.
(** a scope that ends at the root always has an answer *)
Lemma scope_ends : forall d (target scope : nat -> bool) l, existsb (fun e => scope (en_node e)) l = true ->
  okay (fun _ => True) (scope_from d target scope l).
Proof.
  intros d target scope l. induction l as [|e l IH]; intro H; [discriminate|]. cbn [scope_from existsb] in *.
  destruct (target (en_node e)); [exact I|]. destruct (scope (en_node e)); [exact I|]. now apply IH.
Qed.
Lemma rooted_scope : forall s (scope : nat -> bool), World s -> Rooted s ->
  (forall i, is_html T_html (s_dom s) i = true -> scope i = true) -> existsb (fun e => scope (en_node e)) (s_stack s) = true.
Proof.
  intros s scope W (u & N) H. apply existsb_exists. assert (I : In T_html (names s)) by (rewrite N; apply in_or_app; right; now left).
  unfold names in I. apply in_map_iff in I. destruct I as (e & E & I). exists e. split; [exact I|]. apply H.
  rewrite (is_named s T_html W e I). rewrite E. reflexivity.
Qed.
Lemma table_total : forall t s, World s -> Rooted s -> okay (fun _ => True) (in_scope table_scope t s).
Proof.
  intros t s W Rt. apply scope_ends. apply rooted_scope; auto. intros i H. unfold table_scope. now rewrite H.
Qed.
Lemma table_any_total : forall l s, World s -> Rooted s -> okay (fun _ => True) (in_scope_any table_scope l s).
Proof.
  intros t s W Rt. apply scope_ends. apply rooted_scope; auto. intros i H. unfold table_scope. now rewrite H.
Qed.
Lemma select_total : forall t s, World s -> Rooted s -> okay (fun _ => True) (in_scope select_scope t s).
Proof.
  intros t s W Rt. apply scope_ends. apply rooted_scope; auto. intros i H. unfold select_scope. apply is_html_ns in H.
  destruct H as [H1 H2]. rewrite !is_html_eq, H2 by exact H1. reflexivity.
Qed.

(** *** Near states *)

Record Near (s s' : st) : Prop := MkNear {
  N_world : World s'; N_count : forall m, Counted m (s_dom s) -> Counted m (s_dom s'); N_foster : s_foster s' = s_foster s;
  N_head : s_head s' = s_head s }.
Lemma near_refl : forall s, World s -> Near s s.
Proof. intros s W. constructor; auto. Qed.
Lemma near_trans : forall a b c, Near a b -> Near b c -> Near a c.
Proof. intros a b c [] []. constructor; auto; congruence. Qed.
Lemma near_same : forall s s', World s' -> Same s s' -> Near s s'.
Proof. intros s s' W Sm. constructor; [exact W| |apply Sm|apply Sm]. intros m C. now apply (counted_same _ s). Qed.
Lemma near_stay : forall w s s', Stay w s s' -> Near s s'.
Proof. intros w s s' [B Sm]. apply near_same; [apply B|exact Sm]. Qed.
Lemma near_still : forall s s', Still s s' -> Near s s'.
Proof. intros s s' (W & _ & _ & Sm). now apply near_same. Qed.
Lemma near_grown : forall t s s', Grown t s s' -> among t ones = false -> Near s s'.
Proof. intros t s s' G A. apply near_same; [apply G|]. now apply (grown_same t). Qed.
Lemma near_alike : forall s s', World s -> Alike s s' -> Near s s'.
Proof. intros s s' W A. constructor; [now apply (alike_world s)| |apply A|apply A]. intros m C. now rewrite (A_dom _ _ A). Qed.
Lemma near_cut : forall s l, World s -> incl l (s_stack s) -> Near s (set_stack l s).
Proof. intros s l W I. apply near_same; [now apply world_stack|apply same_stack]. Qed.
Lemma near_active : forall s l, World s -> good_active l -> Near s (set_active l s).
Proof. intros s l [] G. constructor; auto. constructor; auto. Qed.
Lemma near_form : forall s f, World s -> match f with Some i => is_html T_form (s_dom s) i = true | None => True end -> Near s (set_form f s).
Proof. intros s l [] G. constructor; auto. constructor; auto. Qed.
Lemma near_foster : forall s b, World s -> World (set_foster b s).
Proof. intros s b []. constructor; auto. Qed.
Lemma inv_foster : forall s b, Inv s -> Inv (set_foster b s).
Proof. intros s b (W & H). split; [now apply near_foster|]. exact H. Qed.
Lemma ctx_near : forall m w s s', Near s s' -> Counted M_in_body (s_dom s) -> Main (s_mode s') m -> Floor m w -> Above w (names s') -> Ctx m w s'.
Proof. intros m w s s' [] C M F (u & N & L). constructor; auto. split; [assumption|]. exists u. auto. Qed.
Lemma post_near : forall s s' k x, Near s s' -> Post s' k x -> Post s k x.
Proof. intros s s' k x N H. destruct k; cbn in *; auto; destruct H as [H1 H2]; (split; [exact H1|]); rewrite <- (N_foster _ _ N); auto. Qed.
Lemma post_ctx : forall m w s s', Near s s' -> Ctx m w s' -> Post' s s'.
Proof. intros m w s s' N X. split; [now apply (inv_ctx m w)|]. rewrite (N_foster _ _ N). auto. Qed.

(** *** The floors of tables *)

Lemma floor_tabled : forall m w, Floor m w -> In m [M_in_table; M_in_table_body; M_in_row] ->
  exists v u0 w0 m0, w = v ++ T_table :: u0 ++ w0 /\ Floor m0 w0 /\ In m0 [M_in_body; M_in_cell; M_in_caption] /\ Forall loose u0 /\
    Forall (fun t => In t [T_tbody; T_tfoot; T_thead; T_tr]) v.
Proof.
  assert (A : forall w, Floor M_in_table w -> exists u0 w0 m0, w = T_table :: u0 ++ w0 /\ Floor m0 w0 /\ In m0 [M_in_body; M_in_cell; M_in_caption] /\ Forall loose u0).
  { intros w F. inversion F; subst. eexists _, _, _. eauto. }
  assert (B : forall w, Floor M_in_table_body w -> exists t u0 w0 m0, w = t :: T_table :: u0 ++ w0 /\ In t sections /\ Floor m0 w0 /\ In m0 [M_in_body; M_in_cell; M_in_caption] /\ Forall loose u0).
  { intros w F. inversion F as [| | |t v It Fv| |]; subst. destruct (A v Fv) as (u0 & w0 & m0 & -> & F0 & I0 & L0). exists t, u0, w0, m0. auto. }
  intros m w F I. destruct I as [<-|[<-|[<-|[]]]].
  - destruct (A w F) as (u0 & w0 & m0 & -> & F0 & I0 & L0). exists [], u0, w0, m0. auto.
  - destruct (B w F) as (t & u0 & w0 & m0 & -> & It & F0 & I0 & L0). exists [t], u0, w0, m0. split; [reflexivity|]. repeat split; auto.
    constructor; [|constructor]. cbn in *. tauto.
  - inversion F as [| | | |v Fv|]; subst. destruct (B v Fv) as (t & u0 & w0 & m0 & -> & It & F0 & I0 & L0). exists [T_tr; t], u0, w0, m0.
    split; [reflexivity|]. repeat split; auto. constructor; [cbn; tauto|]. constructor; [|constructor]. cbn in *. tauto.
Qed.
Lemma floor_two : forall m w, Floor m w -> exists a b r, w = a :: b :: r.
Proof.
  intros m w F. destruct F as [|m u w M F L|w F|t w I F|w F|t w I F]; try (eauto; fail);
    try (destruct (floor_head _ _ F) as (a & r & -> & _); eauto; fail).
  destruct (floor_head _ _ F) as (a & r & -> & _). destruct u; cbn; eauto.
Qed.
Lemma reset_ok : forall m w s, Floor m w -> Body w s -> reset_mode s = Val (set_mode m s).
Proof.
  intros m w s F B. destruct (body_split w s B) as (U & W & E & N & L). unfold reset_mode. rewrite E.
  assert (A : Forall (fun e => ns_of (s_dom s) (en_node e) = ns_HTML) (U ++ W)) by (rewrite <- E; apply B).
  assert (Fr : s_fragment s = false) by apply B.
  assert (Wn : W <> []) by (destruct (floor_two m w F) as (a & b & r & ->); intros ->; discriminate).
  enough (G : reset_from s (U ++ W) = Val m) by now rewrite G.
  clear E B. induction U as [|e U IH].
  - cbn [app] in *. destruct (floor_two m w F) as (a & b & r & Ew). rewrite Ew in N.
    destruct W as [|e1 [|e2 W]]; try discriminate. injection N as N1 N2 N3. cbn [reset_from]. rewrite Fr. cbn [andb negb].
    inversion A as [|? ? A1 A2]; subst e1 l. rewrite !is_html_eq by exact A1. unfold nm in N1. rewrite N1.
    clear - F Ew. destruct F as [|m u w M F L|w F|t w I F|w F|t w I F]; injection Ew as <- Ew; try reflexivity.
    + destruct I as [<-|[<-|[<-|[]]]]; reflexivity.
    + destruct I as [<-|[<-|[]]]; reflexivity.
  - cbn [app] in *. inversion A as [|? ? A1 A2]; subst. inversion L as [|? ? L1 L2]; subst. specialize (IH L2 A2).
    assert (Q : exists x y, U ++ W = x :: y) by (destruct U; destruct W; cbn; eauto; now elim Wn).
    destruct Q as (x & y & Q). rewrite Q in *. cbn [reset_from]. rewrite Fr. cbn [andb].
    rewrite !is_html_eq by exact A1. unfold nm in L1.
    assert (D : forall t, among t firm = true -> teqb (name_of (s_dom s) (en_node e)) t = false).
    { intros t T. destruct (teqb _ t) eqn:Z; [|reflexivity]. apply teqb_eq in Z. unfold loose in L1. congruence. }
    rewrite !D by reflexivity. cbn [reset_from] in IH. rewrite Fr in IH. exact IH.
Qed.

Section Tokens.
Variable listed : list Z -> bool.
Variable emit : st -> ktok -> outcome st.
Variable R : nat.
Hypothesis emit_ok : forall s k, Inv s -> Tame k -> Calm s k -> (rank (s_mode s) k < R)%nat -> okay (Post s k) (emit s k).

Lemma emit_near : forall m w s s' k, Near s s' -> Ctx m w s' -> Tame k -> s_foster s = false -> (rank (s_mode s') k < R)%nat ->
  okay (Post s k) (emit s' k).
Proof.
  intros m w s s' k N X T Fo Rk. eapply okay_weak; [apply emit_ok; [now apply (inv_ctx m w)|exact T| |exact Rk]|].
  - intro Q. rewrite (N_foster _ _ N) in Q. congruence.
  - intros x. now apply post_near.
Qed.

(** *** The body *)

Lemma body_char : forall m w c s, Floor m w -> Body w s -> okay (Stay w s) (on_in_body emit s (KChar c)).
Proof.
  intros m w c s F B. pose proof (stay_refl w s B) as K. cbn [on_in_body]. destruct (c =? 0); [exact K|]. body_steps F.
  eapply okay_run; [eapply (char_from m w F); eassumption|]. intros s2 K2. cbn. destruct (is_ascii_white_space c); [exact K2|].
  eapply irrelevant_from; [exact K2|reflexivity..].
Qed.
Lemma done_stop : forall s, World s -> Counted M_in_body (s_dom s) -> Done (stop_parsing s).
Proof. intros s W C. split; [apply W|exact C]. Qed.
Lemma body_eof : forall s, World s -> Counted M_in_body (s_dom s) -> okay Done (on_in_body emit s KEof).
Proof. intros s W C. cbn [on_in_body]. rewrite (W_templates s W). now apply done_stop. Qed.
Definition Allowed (m : mode) (w : list tname) (s : st) (k : ktok) : Prop :=
  match k with
  | KStart g => (g_id g = T_table -> In m [M_in_body; M_in_cell; M_in_caption]) /\ (rank (s_mode s) k <= R)%nat
  | KEnd t => (t <> T_body -> hd T_a w <> t) /\ (In t [T_body; T_html] -> s_mode s = M_in_body /\ s_foster s = false) /\
      (In t [T_br; T_html] -> (rank (s_mode s) k <= R)%nat)
  | _ => True
  end.
Lemma in_body_ok : forall m w s k, Ctx m w s -> Tame k -> Allowed m w s k -> okay (Post s k) (on_in_body emit s k).
Proof.
  intros m w s k X T A. pose proof (X_floor _ _ _ X) as F. pose proof (X_body _ _ _ X) as B. pose proof (stay_refl w s B) as K.
  destruct k as [d|g|t|d|c|].
  - eapply lands; [exact X|exact K].
  - cbn [on_in_body Post]. apply (body_start_ok emit R emit_ok m w s g X T); apply A.
  - cbn [on_in_body Post]. apply (body_end_ok emit R emit_ok m w s t X T); apply A.
  - eapply lands; [exact X|]. cbn [on_in_body]. now apply (comment_from m w F).
  - eapply lands; [exact X|]. now apply (body_char m).
  - apply body_eof; [apply B|apply X].
Qed.
Lemma foster_ok : forall m w s k, Ctx m w s -> Tame k -> Allowed m w (set_foster true s) k -> k <> KEof ->
  okay (Post s k) (run s1 <- on_in_body emit (set_foster true s) k; Val (set_foster false s1)).
Proof.
  intros m w s k [M F B C] T A NE.
  assert (X : Ctx m w (set_foster true s)).
  { constructor; auto. destruct B as (W & B). split; [now apply near_foster|exact B]. }
  eapply okay_run; [apply (in_body_ok m w _ k X T A)|]. intros s1 P. cbn [okay].
  destruct k; try (now elim NE); cbn [Post] in *; (split; [apply inv_foster; apply P|discriminate]).
Qed.

(** *** Tables *)

Lemma grow_at : forall g s a r l, World s -> Rooted s -> s_foster s = false -> good_tag g -> names s = a :: r -> under (g_id g) = Some l ->
  among a l = true -> among (g_id g) ones = false -> okay (fun s' => Grown (g_id g) s s' /\ Near s s') (insert_el' g s).
Proof.
  intros g s a r l W Rt Fo G N U A O. eapply okay_weak; [apply (insert_el'_ok g s W Rt G)|].
  - right. split; [intro Z; rewrite Z in O; discriminate O|]. split; [exact Fo|]. exists a, r, l. auto.
  - intros s' Q. split; [exact Q|]. now apply (near_grown (g_id g)).
Qed.
Lemma calm_start : forall s g, Calm s (KStart g) -> among (g_id g) [T_img; T_br] = false -> s_foster s = false.
Proof.
  intros s g C A. destruct (s_foster s) eqn:E; [|reflexivity]. destruct (C E) as [I _]. apply among_In in I. congruence.
Qed.
Lemma calm_other : forall s k, Calm s k -> match k with KStart _ => False | _ => True end -> s_foster s = false.
Proof. intros s k C A. destruct (s_foster s) eqn:E; [|reflexivity]. destruct (C E) as [I _]. destruct k; contradiction. Qed.
Lemma table_hd : forall m w, Floor m w -> In m [M_in_table; M_in_table_body; M_in_row] ->
  In (hd T_a w) [T_table; T_tbody; T_tfoot; T_thead; T_tr].
Proof.
  intros m w F I. destruct (floor_tabled m w F I) as (v & u0 & w0 & m0 & -> & _ & _ & _ & H). destruct v as [|t v]; [cbn; auto|].
  inversion H; subst. cbn [hd app]. cbn in *. tauto.
Qed.
(** the table is closed *)
Lemma leave_table : forall m w s, Ctx m w s -> In m [M_in_table; M_in_table_body; M_in_row] ->
  exists m0 w0, reset_mode (pop_until T_table s) = Val (set_mode m0 (pop_until T_table s)) /\
    In m0 [M_in_body; M_in_cell; M_in_caption] /\ Near s (set_mode m0 (pop_until T_table s)) /\ Ctx m0 w0 (set_mode m0 (pop_until T_table s)).
Proof.
  intros m w s X I. pose proof (X_floor _ _ _ X) as F. pose proof (X_body _ _ _ X) as B. destruct B as (W & u & N & L).
  destruct (floor_tabled m w F I) as (v & u0 & w0 & m0 & Ew & F0 & I0 & L0 & Lv).
  destruct (drop_names _ (fun t => teqb t T_table) (s_dom s) (s_stack s) (is_named s T_table W)) as [D1 D2].
  assert (Q : names (pop_until T_table s) = u0 ++ w0).
  { unfold pop_until, names. cbn [s_dom s_stack set_stack]. rewrite D1. change (map (nm (s_dom s)) (s_stack s)) with (names s). rewrite N, Ew.
    rewrite after_loose; [|intros t T; apply teqb_eq in T; subst; reflexivity|exact L].
    clear - Lv. induction Lv as [|t v H K IH]; [reflexivity|]. cbn [app after].
    destruct (teqb t T_table) eqn:E; [|exact IH]. apply teqb_eq in E. subst t. cbn in H.
    repeat match type of H with _ \/ _ => destruct H as [H|H] end; try discriminate; destruct H. }
  assert (N1 : Near s (pop_until T_table s)) by (apply near_cut; assumption).
  assert (B1 : Body w0 (pop_until T_table s)) by (split; [apply N1|]; exists u0; auto).
  exists m0, w0. split; [now apply (reset_ok m0 w0)|]. split; [exact I0|].
  assert (N2 : Near s (set_mode m0 (pop_until T_table s))).
  { apply (near_trans _ _ _ N1). apply near_alike; [apply N1|]. constructor; reflexivity. }
  split; [exact N2|]. apply (ctx_near m0 w0 s); [exact N2|apply X| |exact F0|exists u0; auto].
  apply main_self. cbn in *. tauto.
Qed.
Lemma table_context : forall w s, Ctx M_in_table w s -> Near s (to_table_context s) /\ names (to_table_context s) = w /\ exists r, w = T_table :: r.
Proof.
  intros w s X. pose proof (X_floor _ _ _ X) as F. destruct (X_body _ _ _ X) as (W & u & N & L).
  destruct (to_table_names (s_dom s) (s_stack s) (W_stack s W)) as [D1 D2].
  assert (Ew : exists r, w = T_table :: r) by (inversion F; eauto). destruct Ew as (r & ->).
  split; [now apply near_cut|]. split; [|eauto]. unfold to_table_context, names. cbn [s_dom s_stack set_stack].
  rewrite D1. change (map (nm (s_dom s)) (s_stack s)) with (names s). rewrite N. rewrite upto_loose; [reflexivity| |exact L].
  intros t T. destruct t; try discriminate T; reflexivity.
Qed.
(** an element is put into the table *)
Lemma in_context : forall w s g, Ctx M_in_table w s -> s_foster s = false -> good_tag g -> under (g_id g) = Some [T_table] -> among (g_id g) ones = false ->
  okay (fun s1 => Near s s1 /\ names s1 = g_id g :: w) (insert_el' g (to_table_context s)).
Proof.
  intros w s g X Fo G U O. destruct (table_context w s X) as (N & E & r & Er).
  eapply okay_weak; [apply (grow_at g (to_table_context s) T_table r [T_table])|]; auto.
  - apply N.
  - unfold Rooted. rewrite E. apply (floor_root M_in_table). apply X.
  - now rewrite E.
  - intros s1 [Q1 Q2]. split; [now apply (near_trans _ _ _ N)|]. rewrite (grown_names _ _ _ Q1), E. reflexivity.
Qed.
Lemma to_section : forall w s g, Ctx M_in_table w s -> s_foster s = false -> good_tag g -> In (g_id g) sections ->
  okay (fun s1 => Near s (set_mode M_in_table_body s1) /\ Ctx M_in_table_body (g_id g :: w) (set_mode M_in_table_body s1))
    (insert_el' g (to_table_context s)).
Proof.
  intros w s g X Fo G I. eapply okay_weak; [apply (in_context w s g X Fo G); destruct I as [<-|[<-|[<-|[]]]]; reflexivity|].
  intros s1 [N1 E1].
  assert (N2 : Near s (set_mode M_in_table_body s1)) by (apply (near_trans _ _ _ N1); apply near_alike; [apply N1|constructor; reflexivity]).
  split; [exact N2|]. apply (ctx_near _ _ s); [exact N2|apply X|apply main_self; cbn; tauto|constructor; [exact I|apply X]|].
  exists []. split; [exact E1|constructor].
Qed.
Definition table_tags : list tname := [T_caption; T_col; T_colgroup; T_tbody; T_tfoot; T_thead; T_td; T_th; T_tr].
Definition Kept (m : mode) (k : ktok) : Prop :=
  m <> M_in_table -> match k with KStart g => among (g_id g) table_tags = false | KEnd t => t <> T_table | _ => True end.
Ltac again :=
  match goal with mt : _ -> ?m = M_in_table, C : Calm ?s (KStart ?g), E : g_id ?g = _, X : Ctx ?m ?w ?s |- _ =>
    rewrite (mt eq_refl) in *; pose proof (calm_start s g C ltac:(rewrite E; reflexivity)) as Fo;
    eapply okay_run; [apply (to_section w s (made_tag T_tbody) X Fo); [split; [now left|reflexivity]|cbn; tauto]|]; intros s1 [N1 X1];
    apply (emit_near M_in_table_body _ _ _ _ N1 X1); [split; [assumption|rewrite E; split; [reflexivity|discriminate]]|exact Fo|];
    match goal with HR : (rank _ _ <= R)%nat |- _ => cbn in HR |- *; rewrite E in *; lia end
  end.
Lemma in_table_ok : forall m w s k, Ctx m w s -> s_mode s = m -> In m [M_in_table; M_in_table_body; M_in_row] -> Tame k -> Calm s k ->
  Kept m k -> (rank m k <= R)%nat -> okay (Post s k) (on_in_table emit s k).
Proof.
  intros m w s k X Em Im T C Ke HR. pose proof (X_floor _ _ _ X) as F. pose proof (X_body _ _ _ X) as B. pose proof (stay_refl w s B) as K.
  pose proof (body_root m w s F B) as Rt.
  assert (ign : k <> KEof -> okay (Post s k) (Val s)).
  { intro NE. destruct k; try (now elim NE); eapply lands; try exact X; exact K. }
  assert (fost : k <> KEof -> Allowed m w (set_foster true s) k -> okay (Post s k) (run s1 <- on_in_body emit (set_foster true s) k; Val (set_foster false s1))).
  { intros NE A. apply (foster_ok m w); assumption. }
  pose proof (table_hd m w F Im) as Hh.
  destruct k as [d|g|t|d|c|].
  - now apply ign.
  - assert (fs : g_id g <> T_table -> okay (Post s (KStart g)) (run s1 <- on_in_body emit (set_foster true s) (KStart g); Val (set_foster false s1))).
    { intro D. apply fost; [discriminate|]. split; [intro; contradiction|]. cbn [s_mode set_foster]. now rewrite Em. }
    assert (mt : among (g_id g) table_tags = true -> m = M_in_table).
    { intro H. destruct m; try reflexivity; exfalso; assert (Ke' := Ke ltac:(discriminate)); cbv beta iota in Ke'; congruence. }
    cbn [on_in_table]. destruct T as (G & Wd & Imag).
    destruct (g_id g) eqn:E; try discriminate Wd; try (apply fs; discriminate).
    (* caption *)
    + rewrite (mt eq_refl) in *. destruct (table_context w s X) as (N & Ec & r & Er).
      pose proof (calm_start s g C ltac:(rewrite E; reflexivity)) as Fo.
      assert (N1 : Near s (push_marker (to_table_context s))).
      { apply (near_trans _ _ _ N). apply near_active; [apply N|]. constructor; [exact I|]. apply N. }
      eapply okay_run; [apply (grow_at g (push_marker (to_table_context s)) T_table r [T_table])|].
      * apply N1.
      * unfold Rooted. change (names (push_marker (to_table_context s))) with (names (to_table_context s)). rewrite Ec. apply (floor_root M_in_table). apply X.
      * now rewrite (N_foster _ _ N1).
      * exact G.
      * change (names (push_marker (to_table_context s))) with (names (to_table_context s)). now rewrite Ec.
      * now rewrite E.
      * reflexivity.
      * now rewrite E.
      * intros s1 [Q1 Q2]. cbn. assert (N2 : Near s (set_mode M_in_caption s1)).
        { apply (near_trans _ _ _ N1). apply (near_trans _ _ _ Q2). apply near_alike; [apply Q2|constructor; reflexivity]. }
        apply (post_ctx M_in_caption (T_caption :: w)); [exact N2|].
        apply (ctx_near _ _ s); [exact N2|apply X|apply main_self; cbn; tauto|now constructor|]. exists []. split; [|constructor].
        change (names (set_mode M_in_caption s1)) with (names s1). rewrite (grown_names _ _ _ Q1), E.
        change (names (push_marker (to_table_context s))) with (names (to_table_context s)). now rewrite Ec.
    (* col *)
    + rewrite (mt eq_refl) in *. pose proof (calm_start s g C ltac:(rewrite E; reflexivity)) as Fo.
      eapply okay_run; [apply (in_context w s (made_tag T_colgroup) X Fo); [split; [now left|reflexivity]|reflexivity..]|]. intros s1 [N1 E1].
      assert (N2 : Near s (set_mode M_in_column_group s1)) by (apply (near_trans _ _ _ N1); apply near_alike; [apply N1|constructor; reflexivity]).
      eapply okay_weak; [apply emit_ok|intros x; now apply (post_near _ _ (KStart g))].
      * split; [apply N2|]. cbn [s_mode set_mode]. split; [|split; [apply N2; apply X|exact I]]. cbn. exists w. split; [exact E1|exact F].
      * split; [exact G|]. rewrite E. split; [reflexivity|discriminate].
      * intro Q. rewrite (N_foster _ _ N2) in Q. congruence.
      * cbn in HR |- *. rewrite E in *. lia.
    (* colgroup *)
    + rewrite (mt eq_refl) in *. pose proof (calm_start s g C ltac:(rewrite E; reflexivity)) as Fo.
      eapply okay_run; [apply (in_context w s g X Fo G); rewrite E; reflexivity|]. intros s1 [N1 E1]. cbn.
      assert (N2 : Near s (set_mode M_in_column_group s1)) by (apply (near_trans _ _ _ N1); apply near_alike; [apply N1|constructor; reflexivity]).
      split; [|rewrite (N_foster _ _ N2); auto].
      split; [apply N2|]. cbn [s_mode set_mode]. split; [|split; [apply N2; apply X|exact I]]. cbn. exists w. split; [rewrite E in E1; exact E1|exact F].
    (* form *)
    + rewrite (no_template m w s F B). cbn [orb]. destruct (s_form s); [now apply ign|]. eapply lands; [exact X|].
      eapply okay_run2; [apply (insert_el_ok g s (proj1 B) Rt G); rewrite E; now apply loose_fits|]. intros s1 i [Q1 Q2]. cbn [fst snd] in *.
      rewrite E in *. destruct (grown_has m w T_form s s1 F B eq_refl Q1) as [K1 _].
      assert (K2 : Stay w s (set_form (Some i) s1)) by (apply (stay_trans _ _ _ _ K1); apply stay_form; [apply K1|exact Q2]).
      assert (Q1' := Q1). destruct Q1' as (_ & Nn & _ & _ & e & d & E1 & _). unfold pop.
      assert (Es : s_stack (set_form (Some i) s1) = e :: s_stack s) by (rewrite E1; reflexivity). rewrite Es. cbn [okay].
      apply (stay_trans _ _ _ _ K2). apply (top_loose m w F _ e (s_stack s)); [apply K2|exact Es|].
      unfold names in Nn. change (s_stack s1) with (s_stack (set_form (Some i) s1)) in Nn. rewrite Es in Nn. injection Nn as Nn _.
      change (s_dom (set_form (Some i) s1)) with (s_dom s1). rewrite Nn. reflexivity.
    (* input *)
    + destruct (is_hidden g); [|apply fs; discriminate]. eapply lands; [exact X|]. apply (void_from m w F); [exact G|rewrite E; reflexivity|exact K].
    (* script, style *)
    + apply (head_in_body emit m w g s X G). rewrite E. clear. cbn. auto 12.
    + apply (head_in_body emit m w g s X G). rewrite E. clear. cbn. auto 12.
    (* table *)
    + pose proof (calm_start s g C ltac:(rewrite E; reflexivity)) as Fo.
      eapply okay_run; [now apply table_total; [apply B|]|]. intros [] _; [|now apply ign].
      destruct (leave_table m w s X Im) as (m0 & w0 & -> & I0 & N0 & X0). cbv beta iota.
      apply (emit_near m0 w0); auto.
      * split; [exact G|]. rewrite E. split; [reflexivity|discriminate].
      * assert (Q : rank m0 (KStart g) = 1%nat).
        { cbn. rewrite E. destruct I0 as [<-|[<-|[<-|[]]]]; reflexivity. }
        cbn [s_mode set_mode]. rewrite Q. cbn in HR. rewrite E in HR. destruct Im as [<-|[<-|[<-|[]]]]; lia.
    (* tbody *)
    + rewrite (mt eq_refl) in *. pose proof (calm_start s g C ltac:(rewrite E; reflexivity)) as Fo.
      eapply okay_run; [apply (to_section w s g X Fo G); rewrite E; cbn; tauto|]. intros s1 [N1 X1]. now apply (post_ctx _ _ _ _ N1 X1).
    (* td *)
    + again.
    (* tfoot *)
    + rewrite (mt eq_refl) in *. pose proof (calm_start s g C ltac:(rewrite E; reflexivity)) as Fo.
      eapply okay_run; [apply (to_section w s g X Fo G); rewrite E; cbn; tauto|]. intros s1 [N1 X1]. now apply (post_ctx _ _ _ _ N1 X1).
    (* th *)
    + again.
    (* thead *)
    + rewrite (mt eq_refl) in *. pose proof (calm_start s g C ltac:(rewrite E; reflexivity)) as Fo.
      eapply okay_run; [apply (to_section w s g X Fo G); rewrite E; cbn; tauto|]. intros s1 [N1 X1]. now apply (post_ctx _ _ _ _ N1 X1).
    (* tr *)
    + again.
  - pose proof (calm_other s _ C I) as Fo.
    assert (fs : hd T_a w <> t -> among t [T_body; T_html] = false -> okay (Post s (KEnd t)) (run s1 <- on_in_body emit (set_foster true s) (KEnd t); Val (set_foster false s1))).
    { intros D1 D2. apply fost; [discriminate|]. split; [intros _; exact D1|]. split; [intro Q; apply among_In in Q; congruence|]. intros _. cbn [s_mode set_foster]. now rewrite Em. }
    cbn [on_in_table].
    assert (D : teqb t T_table = false -> among t [T_tbody; T_tfoot; T_thead; T_tr] = false -> hd T_a w <> t).
    { intros D1 D2 D3. rewrite D3 in Hh. cbn in Hh. repeat match type of Hh with _ \/ _ => destruct Hh as [Hh|Hh] end; try contradiction; subst t; discriminate. }
    specialize (ign ltac:(discriminate)). destruct t; try exact ign; try (apply fs; [apply D; reflexivity|reflexivity]).
    eapply okay_run; [now apply table_total; [apply B|]|]. intros [] _; [|exact ign].
    destruct (leave_table m w s X Im) as (m0 & w0 & -> & I0 & N0 & X0). cbv beta iota.
    eapply okay_weak; [apply (foster_ok m0 w0); [exact X0|exact T| |discriminate]|intros x; now apply (post_near _ _ (KEnd T_table))].
    split; [|split; [cbn; intuition discriminate|cbn; intuition discriminate]].
    clear - X0 I0. intros _. pose proof (X_floor _ _ _ X0) as F. destruct F; cbn; try discriminate; cbn in I0; try (intuition discriminate).
    destruct H as [<-|[<-|[]]]; discriminate.
  - cbn [on_in_table]. eapply lands; [exact X|]. now apply (comment_from m w F).
  - pose proof (calm_other s _ C I) as Fo. cbn [on_in_table]. destruct (rooted_names s Rt) as (e & r & Es). unfold cur. rewrite Es. cbv beta iota.
    destruct (is_html_in _ _ _); [|now apply fost].
    set (s1 := set_mode M_in_table_text (set_original (s_mode s) (set_pending [] s))).
    assert (N1 : Near s s1) by (apply near_alike; [apply B|constructor; reflexivity]).
    eapply okay_weak; [apply (emit_ok s1 (KChar c))|intros x; now apply (post_near _ _ (KChar c))].
    + split; [apply N1|]. cbn [s1 s_mode set_mode]. change (s_original s1) with (s_mode s). rewrite Em. split; [exact Im|].
      split; [|split; [apply N1; destruct Im as [<-|[<-|[<-|[]]]]; apply X|destruct Im as [<-|[<-|[<-|[]]]]; exact I]].
      change (names s1) with (names s). destruct B as (_ & B). destruct Im as [<-|[<-|[<-|[]]]]; exists w; auto.
    + exact I.
    + intro Q. change (s_foster s1) with (s_foster s) in Q. congruence.
    + cbn in *. destruct Im as [<-|[<-|[<-|[]]]]; cbn in HR; lia.
  - cbn [on_in_table]. apply body_eof; [apply B|apply X].
Qed.
End Tokens.
