(** The stack while any tokens are read: below, the parts of tables in their order; above, other elements. What the body
    of a document does leaves the lower part alone. *)
From Coq Require Import ZArith List Bool String Lia.
From Verif Require Import M_infra M_encoding M_labels M_html M_html_serialize M_dom_names M_dom M_dom2 L_html_serialize L_dom L_dom2
  L_dom10.
Import ListNotations.
Open Scope Z_scope.
Open Scope list_scope.

Definition sections : list tname := [T_tbody; T_tfoot; T_thead].
(** the lower part of the stack and the insertion mode that belongs to it *)
Inductive Floor : mode -> list tname -> Prop :=
| F_body : Floor M_in_body [T_body; T_html]
| F_table : forall m u w, In m [M_in_body; M_in_cell; M_in_caption] -> Floor m w -> Forall loose u -> Floor M_in_table (T_table :: u ++ w)
| F_caption : forall w, Floor M_in_table w -> Floor M_in_caption (T_caption :: w)
| F_section : forall t w, In t sections -> Floor M_in_table w -> Floor M_in_table_body (t :: w)
| F_row : forall w, Floor M_in_table_body w -> Floor M_in_row (T_tr :: w)
| F_cell : forall t w, In t [T_td; T_th] -> Floor M_in_row w -> Floor M_in_cell (t :: w).
Definition Body (w : list tname) (s : st) : Prop := World s /\ exists u, names s = u ++ w /\ Forall loose u.
Definition Stay (w : list tname) (s s' : st) : Prop := Body w s' /\ Same s s'.

Lemma floor_root : forall m w, Floor m w -> exists v, w = v ++ [T_html].
Proof.
  induction 1 as [|m u w M F (v & ->)|w F (v & ->)|t w I F (v & ->)|w F (v & ->)|t w I F (v & ->)].
  - exists [T_body]. reflexivity.
  - exists (T_table :: u ++ v). cbn. now rewrite app_assoc.
  - now exists (T_caption :: v).
  - now exists (t :: v).
  - now exists (T_tr :: v).
  - now exists (t :: v).
Qed.
Lemma body_root : forall m w s, Floor m w -> Body w s -> Rooted s.
Proof.
  intros m w s F (W & u & N & L). destruct (floor_root m w F) as (v & ->). exists (u ++ v). now rewrite N, app_assoc.
Qed.
Lemma floor_head : forall m w, Floor m w -> exists t r, w = t :: r /\ among t firm = true /\ among t special_html = true /\
  among t implied = false /\ among t [T_address; T_div; T_p] = false.
Proof.
  intros m w F. destruct F as [|m u w M F L|w F|t w I F|w F|t w I F]; try (eexists _, _; repeat split; reflexivity).
  - exists t, w. destruct I as [<-|[<-|[<-|[]]]]; repeat split.
  - exists t, w. destruct I as [<-|[<-|[]]]; repeat split.
Qed.
Lemma loose_not : forall t u, loose t -> among u firm = true -> t <> u.
Proof. intros t u H K ->. unfold loose in H. congruence. Qed.

Definition LooseIn (d : list cell) (U : list entry) : Prop := Forall (fun e => loose (nm d e)) U.
Definition Split (w : list tname) (s : st) (U W : list entry) : Prop :=
  s_stack s = U ++ W /\ map (nm (s_dom s)) W = w /\ LooseIn (s_dom s) U.
Lemma body_split : forall w s, Body w s -> exists U W, Split w s U W.
Proof.
  intros w s (Wd & u & N & L). unfold names in N. apply map_eq_app in N. destruct N as (U & W & E & <- & <-).
  exists U, W. split; [exact E|]. split; [reflexivity|]. unfold LooseIn. rewrite Forall_map in L. exact L.
Qed.
Lemma split_body : forall w s U W, World s -> Split w s U W -> Body w s.
Proof.
  intros w s U W Wd (E & <- & L). split; [exact Wd|]. exists (map (nm (s_dom s)) U). unfold names. rewrite E, map_app.
  split; [reflexivity|]. rewrite Forall_map. exact L.
Qed.
Lemma world_stack : forall s l, World s -> incl l (s_stack s) -> World (set_stack l s).
Proof.
  intros s l [] I. constructor; cbn; auto. rewrite Forall_forall in *. auto.
Qed.
Lemma same_stack : forall s l, Same s (set_stack l s).
Proof. intros s l. constructor; try reflexivity. apply Ext_refl. Qed.
Lemma body_cut : forall w s U W U', World s -> Split w s U W -> incl U' U ->
  Split w (set_stack (U' ++ W) s) U' W /\ Stay w s (set_stack (U' ++ W) s).
Proof.
  intros w s U W U' Wd (E & N & L) I.
  assert (Sp : Split w (set_stack (U' ++ W) s) U' W).
  { split; [reflexivity|]. split; [exact N|]. unfold LooseIn in *. rewrite Forall_forall in *. cbn. auto. }
  split; [exact Sp|]. split; [|apply same_stack]. apply (split_body w _ U' W); [|exact Sp].
  apply world_stack; [exact Wd|]. rewrite E. intros x X. apply in_app_or in X. apply in_or_app. destruct X; auto.
Qed.

(** an element above the lower part satisfies [P] *)
Definition Has (P : nat -> bool) (w : list tname) (s : st) : Prop :=
  exists U W e, Split w s U W /\ In e U /\ P (en_node e) = true.
Lemma drop_to_has : forall P U W e, In e U -> P (en_node e) = true -> exists U', drop_to P (U ++ W) = U' ++ W /\ incl U' U.
Proof.
  intros P U W. induction U as [|x U IH]; intros e I H; [destruct I|]. cbn [drop_to app]. destruct (P (en_node x)) eqn:E.
  - exists U. split; [reflexivity|]. now apply incl_tl, incl_refl.
  - destruct I as [->|I]; [congruence|]. destruct (IH e I H) as (U' & D & K). exists U'. split; [exact D|now apply incl_tl].
Qed.
Lemma drop_stay : forall P w s, World s -> Has P w s -> Stay w s (set_stack (drop_to P (s_stack s)) s).
Proof.
  intros P w s Wd (U & W & e & Sp & I & H). destruct (drop_to_has P U W e I H) as (U' & D & K).
  destruct Sp as (E & Q). rewrite E, D. apply (body_cut w s U W U' Wd (conj E Q) K).
Qed.
Lemma drop_implied_loose : forall d l ex U W, (forall e r, W = e :: r -> ns_of d (en_node e) = ns_HTML -> among (nm d e) l = false) ->
  W <> [] -> Forall (fun e => ns_of d (en_node e) = ns_HTML) (U ++ W) ->
  exists U', drop_implied d l ex (U ++ W) = U' ++ W /\ incl U' U /\
    (forall e, In e U -> among (nm d e) l = false \/ ex = Some (nm d e) -> In e U').
Proof.
  intros d l ex U W HW NW. induction U as [|x U IH]; intro F.
  - exists []. cbn [app]. destruct W as [|e r]; [now elim NW|]. cbn [drop_implied].
    inversion F as [|? ? F1 F2]; subst. assert (A := HW e r eq_refl F1). unfold nm in A. rewrite F1, A. rewrite andb_false_r.
    split; [|split; [apply incl_refl|intros ? []]]. now destruct (match ex with Some u => _ | None => _ end).
  - cbn [app] in F. inversion F as [|? ? F1 F2]; subst. destruct (IH F2) as (U' & D & K & Q).
    cbn [app drop_implied]. rewrite F1.
    destruct (match ex with Some u => teqb (name_of d (en_node x)) u | None => false end) eqn:Ex.
    + exists (x :: U). split; [reflexivity|]. split; [apply incl_refl|auto].
    + rewrite Z.eqb_refl. cbn [andb]. destruct (among (name_of d (en_node x)) l) eqn:A.
      * exists U'. split; [exact D|]. split; [now apply incl_tl|]. intros e [<-|I] [N|N].
        -- unfold nm in N. congruence.
        -- subst ex. unfold nm in Ex. now rewrite teqb_refl in Ex.
        -- apply Q; auto.
        -- apply Q; auto.
      * exists (x :: U). split; [reflexivity|]. split; [apply incl_refl|auto].
Qed.
Lemma floor_stack : forall m w s U W, Floor m w -> Split w s U W -> exists e r, W = e :: r /\ nm (s_dom s) e = hd T_a w.
Proof.
  intros m w s U W F (E & N & L). destruct (floor_head m w F) as (t & r & -> & _). destruct W as [|e W]; [discriminate|].
  injection N as N1 N2. exists e, W. split; [reflexivity|]. exact N1.
Qed.
Lemma implied_split : forall m w s U W ex, Floor m w -> World s -> Split w s U W ->
  exists U', implied_except ex s = set_stack (U' ++ W) s /\ incl U' U /\
    (forall e, In e U -> among (nm (s_dom s) e) implied = false \/ ex = Some (nm (s_dom s) e) -> In e U').
Proof.
  intros m w s U W ex F Wd Sp. destruct (floor_stack m w s U W F Sp) as (e & r & EW & Nh).
  destruct (floor_head m w F) as (t & q & -> & _ & _ & A & _). cbn in Nh.
  destruct Sp as (E & N & L).
  destruct (drop_implied_loose (s_dom s) implied ex U W) as (U' & D & K & Q).
  - intros x y X _. rewrite EW in X. injection X as <- <-. now rewrite Nh.
  - rewrite EW. discriminate.
  - rewrite <- E. apply Wd.
  - exists U'. unfold implied_except. rewrite E, D. auto.
Qed.
Lemma implied_stay : forall m w s ex, Floor m w -> Body w s -> Stay w s (implied_except ex s).
Proof.
  intros m w s ex F B. destruct (body_split w s B) as (U & W & Sp). destruct B as (Wd & _).
  destruct (implied_split m w s U W ex F Wd Sp) as (U' & -> & K & _). now apply (body_cut w s U W U').
Qed.
Lemma implied_has : forall m w s ex P, Floor m w -> World s -> Has P w s ->
  (forall i, P i = true -> among (name_of (s_dom s) i) implied = false \/ ex = Some (name_of (s_dom s) i)) ->
  Has P w (implied_except ex s).
Proof.
  intros m w s ex P F Wd (U & W & e & Sp & I & H) K.
  destruct (implied_split m w s U W ex F Wd Sp) as (U' & -> & J & Q).
  exists U', W, e. split; [apply (body_cut w s U W U' Wd Sp J)|]. split; [|exact H]. apply Q; [exact I|]. now apply K.
Qed.
Lemma stay_trans : forall w a b c, Stay w a b -> Stay w b c -> Stay w a c.
Proof. intros w a b c [_ S1] [B S2]. split; [exact B|]. eauto using Same_trans. Qed.
Lemma stay_body : forall w a b, Stay w a b -> Body w b.
Proof. now intros w a b []. Qed.
Lemma stay_refl : forall w s, Body w s -> Stay w s s.
Proof. intros. split; [assumption|apply Same_refl]. Qed.
Lemma implied_dom : forall ex s, s_dom (implied_except ex s) = s_dom s.
Proof. reflexivity. Qed.
(** generate implied end tags and pop *)
Lemma close_stay : forall m w s ex P, Floor m w -> Body w s -> Has P w s ->
  (forall i, P i = true -> among (name_of (s_dom s) i) implied = false \/ ex = Some (name_of (s_dom s) i)) ->
  Stay w s (set_stack (drop_to P (s_stack (implied_except ex s))) (implied_except ex s)).
Proof.
  intros m w s ex P F B H K. apply (stay_trans w _ _ _ (implied_stay m w s ex F B)). apply drop_stay.
  - apply (stay_body _ _ _ (implied_stay m w s ex F B)).
  - apply (implied_has m); auto. apply B.
Qed.

(** *** Scopes *)

Lemma scope_split : forall d target scope U W, scope_from d target scope W = Val false ->
  okay (fun b => b = true -> exists e, In e U /\ target (en_node e) = true) (scope_from d target scope (U ++ W)).
Proof.
  intros d target scope U W H. induction U as [|x U IH].
  - cbn [app]. rewrite H. cbn. discriminate.
  - cbn [app scope_from]. destruct (target (en_node x)) eqn:T.
    + cbn. intros _. exists x. split; [now left|exact T].
    + destruct (scope (en_node x)); [cbn; discriminate|]. apply (okay_weak _ _ _ IH). intros b K B.
      destruct (K B) as (e & E1 & E2). exists e. split; [now right|exact E2].
Qed.
Lemma floor_scope : forall m w d (target scope : nat -> bool) W, Floor m w -> map (nm d) W = w ->
  Forall (fun e => ns_of d (en_node e) = ns_HTML) W ->
  (forall i, target i = true -> loose (name_of d i)) -> (forall i, default_scope d i = true -> scope i = true) ->
  scope_from d target scope W = Val false.
Proof.
  intros m w d target scope W F N A T C.
  assert (nt : forall e, ns_of d (en_node e) = ns_HTML -> among (nm d e) firm = true -> target (en_node e) = false).
  { intros e _ K. destruct (target (en_node e)) eqn:E; [|reflexivity]. apply T in E. unfold loose in E. unfold nm in K. congruence. }
  assert (sc : forall e, ns_of d (en_node e) = ns_HTML ->
    among (nm d e) [T_applet; T_caption; T_html; T_table; T_td; T_th; T_marquee; T_object; T_template] = true -> scope (en_node e) = true).
  { intros e H K. apply C. unfold default_scope. rewrite H. exact K. }
  assert (stop : forall e r, ns_of d (en_node e) = ns_HTML -> among (nm d e) firm = true ->
    among (nm d e) [T_applet; T_caption; T_html; T_table; T_td; T_th; T_marquee; T_object; T_template] = true ->
    scope_from d target scope (e :: r) = Val false).
  { intros e r H K1 K2. cbn [scope_from]. now rewrite nt, sc. }
  assert (pass : forall e r, ns_of d (en_node e) = ns_HTML -> among (nm d e) firm = true -> scope_from d target scope r = Val false ->
    scope_from d target scope (e :: r) = Val false).
  { intros e r H K1 K2. cbn [scope_from]. rewrite nt by assumption. destruct (scope (en_node e)); [reflexivity|exact K2]. }
  assert (tbl : forall u r x, map (nm d) x = T_table :: u ++ r -> Forall (fun e => ns_of d (en_node e) = ns_HTML) x ->
    scope_from d target scope x = Val false).
  { intros u r x X Y. destruct x as [|e x]; [discriminate|]. injection X as X1 X2. inversion Y; subst.
    apply stop; [assumption| |]; rewrite X1; reflexivity. }
  assert (sec : forall t v x, In t sections -> Floor M_in_table v -> map (nm d) x = t :: v -> Forall (fun e => ns_of d (en_node e) = ns_HTML) x ->
    scope_from d target scope x = Val false).
  { intros t v x I G X Y. destruct x as [|e x]; [discriminate|]. injection X as X1 X2. inversion Y; subst.
    apply pass; [assumption| |].
    - destruct I as [<-|[<-|[<-|[]]]]; reflexivity.
    - inversion G; subst. eapply tbl; [|eassumption]. symmetry; eassumption. }
  destruct F as [|m u w M F L|w F|t w I F|w F|t w I F].
  - destruct W as [|e1 [|e2 [|]]]; try discriminate. injection N as N1 N2. inversion A as [|? ? A1 A2]; subst.
    inversion A2 as [|? ? A3 A4]; subst. apply pass; [assumption|rewrite N1; reflexivity|].
    apply stop; [assumption|rewrite N2; reflexivity|rewrite N2; reflexivity].
  - eapply tbl; eassumption.
  - destruct W as [|e W]; [discriminate|]. injection N as N1 N2. inversion A; subst. apply stop; [assumption| |]; rewrite N1; reflexivity.
  - eapply sec; eassumption.
  - destruct W as [|e W]; [discriminate|]. injection N as N1 N2. inversion A; subst. apply pass; [assumption|rewrite N1; reflexivity|].
    inversion F; subst. eapply sec; try eassumption. symmetry; eassumption.
  - destruct W as [|e W]; [discriminate|]. injection N as N1 N2. inversion A; subst.
    apply stop; [assumption| |]; destruct I as [<-|[<-|[]]]; reflexivity.
Qed.
Lemma scope_has : forall m w s (target scope : nat -> bool), Floor m w -> Body w s ->
  (forall i, target i = true -> loose (name_of (s_dom s) i)) -> (forall i, default_scope (s_dom s) i = true -> scope i = true) ->
  okay (fun b => b = true -> Has target w s) (scope_from (s_dom s) target scope (s_stack s)).
Proof.
  intros m w s target scope F B T C. destruct (body_split w s B) as (U & W & Sp). destruct B as (Wd & _).
  assert (Sp' := Sp). destruct Sp' as (E & N & L).
  rewrite E. eapply okay_weak.
  - apply scope_split. apply (floor_scope m w); auto. pose proof (W_stack s Wd) as A. rewrite E in A. now apply Forall_app in A.
  - cbn. intros b K B. destruct (K B) as (e & E1 & E2). now exists U, W, e.
Qed.
Definition wide (scope : list cell -> nat -> bool) : Prop := forall d i, default_scope d i = true -> scope d i = true.
Lemma default_wide : wide default_scope. Proof. intros d i H. exact H. Qed.
Lemma button_wide : wide button_scope. Proof. intros d i H. unfold button_scope. now rewrite H. Qed.
Lemma list_item_wide : wide list_item_scope. Proof. intros d i H. unfold list_item_scope. now rewrite H. Qed.
Lemma in_scope_ok : forall m w scope t s, wide scope -> loose t -> Floor m w -> Body w s ->
  okay (fun b => b = true -> Has (is_html t (s_dom s)) w s) (in_scope scope t s).
Proof.
  intros m w scope t s Hw L F B. apply (scope_has m w); auto. intros i H. apply is_html_ns in H. destruct H as [_ ->]. exact L.
Qed.
Lemma in_scope_any_ok : forall m w scope l s, wide scope -> Forall loose l -> Floor m w -> Body w s ->
  okay (fun b => b = true -> Has (is_html_in l (s_dom s)) w s) (in_scope_any scope l s).
Proof.
  intros m w scope l s Hw L F B. apply (scope_has m w); auto. intros i H. unfold is_html_in in H. apply andb_prop in H.
  destruct H as [_ H]. apply among_In in H. rewrite Forall_forall in L. auto.
Qed.
Lemma close_named : forall m w s ex t, Floor m w -> Body w s -> Has (is_html t (s_dom s)) w s -> among t implied = false \/ ex = Some t ->
  Stay w s (pop_until t (implied_except ex s)).
Proof.
  intros m w s ex t F B H K. unfold pop_until. rewrite implied_dom. apply (close_stay m); auto.
  intros i Hi. apply is_html_ns in Hi. destruct Hi as [_ ->]. exact K.
Qed.
Lemma close_any : forall m w s ex l, Floor m w -> Body w s -> Has (is_html_in l (s_dom s)) w s -> forallb (fun t => negb (among t implied)) l = true ->
  Stay w s (pop_until_any l (implied_except ex s)).
Proof.
  intros m w s ex l F B H K. unfold pop_until_any. rewrite implied_dom. apply (close_stay m); auto.
  intros i Hi. unfold is_html_in in Hi. apply andb_prop in Hi. destruct Hi as [_ Hi]. apply among_In in Hi.
  rewrite forallb_forall in K. apply K in Hi. left. now apply negb_true_iff.
Qed.
Lemma p_closed_ok : forall m w s, Floor m w -> Body w s -> okay (Stay w s) (p_closed s).
Proof.
  intros m w s F B. unfold p_closed. apply (okay_run _ _ _ _ (in_scope_ok m w button_scope T_p s button_wide eq_refl F B)).
  intros [|] H; cbn; [|now apply stay_refl]. unfold close_p. apply (close_named m); auto.
Qed.

(** *** What the body inserts *)

Lemma loose_free : forall t, loose t -> under t = None /\ t <> T_html /\ among t ones = false.
Proof. intros t L. unfold loose in L. destruct t; try (cbn in L; discriminate L); (split; [reflexivity|split; [discriminate|reflexivity]]). Qed.
Lemma loose_fits : forall s t, loose t -> fits s t.
Proof. intros s t L. destruct (loose_free t L) as (A & B & _). left. auto. Qed.
Lemma insert_loose2 : forall m w g s, Floor m w -> Body w s -> good_tag g -> loose (g_id g) ->
  okay (fun p => Stay w s (fst p) /\ is_html (g_id g) (s_dom (fst p)) (snd p) = true) (insert_el g s).
Proof.
  intros m w g s F B G L.
  apply (okay_weak _ _ _ (insert_el_ok g s (proj1 B) (body_root m w s F B) G (loose_fits s _ L))). intros [s1 i] [K1 K2]. cbn [fst snd] in *.
  split; [|exact K2]. split; [|apply (grown_same _ _ _ K1); now apply loose_free].
  destruct K1 as (W1 & N & _). split; [exact W1|]. destruct B as (_ & u & E & U). exists (g_id g :: u). rewrite N, E. split; [reflexivity|].
  now constructor.
Qed.
Lemma insert_loose : forall m w g s, Floor m w -> Body w s -> good_tag g -> loose (g_id g) -> okay (Stay w s) (insert_el' g s).
Proof.
  intros m w g s F B G L. unfold insert_el'. apply (okay_run2 _ _ _ _ (insert_loose2 m w g s F B G L)). intros x y [K _]. exact K.
Qed.
Lemma still_stay : forall w s s', Body w s -> Still s s' -> Stay w s s'.
Proof.
  intros w s s' (W & u & N & L) (W1 & _ & N1 & S1). split; [|exact S1]. split; [exact W1|]. exists u. split; [congruence|exact L].
Qed.
Lemma void_loose : forall m w g s, Floor m w -> Body w s -> good_tag g -> loose (g_id g) -> okay (Stay w s) (insert_void g s).
Proof.
  intros m w g s F B G L. eapply okay_weak.
  - apply (insert_void_ok g s (proj1 B) (body_root m w s F B) G (loose_fits s _ L)). now apply loose_free.
  - intros x. now apply still_stay.
Qed.
(** members that the stack and the tree do not depend on *)
Lemma body_irrelevant : forall w s s', Body w s -> s_dom s' = s_dom s -> s_stack s' = s_stack s -> s_active s' = s_active s ->
  s_fragment s' = s_fragment s -> s_templates s' = s_templates s -> s_form s' = s_form s -> s_head s' = s_head s -> Body w s'.
Proof.
  intros w s s' (W & u & N & L) E1 E2 E3 E4 E5 E6 E7. split.
  - destruct W. constructor; rewrite ?E1, ?E2, ?E3, ?E4, ?E5, ?E6, ?E7; assumption.
  - exists u. unfold names in *. rewrite E1, E2. auto.
Qed.
Lemma same_irrelevant : forall s s', s_dom s' = s_dom s -> s_mode s' = s_mode s -> s_original s' = s_original s -> s_foster s' = s_foster s ->
  s_head s' = s_head s -> s_pending s' = s_pending s -> Same s s'.
Proof. intros. constructor; auto. - intros. congruence. - rewrite H. apply Ext_refl. Qed.
Lemma stay_irrelevant : forall w s s', Body w s -> s_dom s' = s_dom s -> s_stack s' = s_stack s -> s_active s' = s_active s ->
  s_fragment s' = s_fragment s -> s_templates s' = s_templates s -> s_form s' = s_form s -> s_head s' = s_head s ->
  s_mode s' = s_mode s -> s_original s' = s_original s -> s_foster s' = s_foster s -> s_pending s' = s_pending s -> Stay w s s'.
Proof. intros. split; [eapply body_irrelevant; eassumption|now apply same_irrelevant]. Qed.
Definition good_active (l : list formatting) : Prop :=
  Forall (fun f => match f with Some e => good_tag (en_tag e) /\ loose (g_id (en_tag e)) | None => True end) l.
Lemma stay_active : forall w s l, Body w s -> good_active l -> Stay w s (set_active l s).
Proof.
  intros w s l (W & u & N & L) G. split; [|now apply same_irrelevant]. split; [|exists u; auto].
  destruct W. now constructor.
Qed.
Lemma stay_form : forall w s f, Body w s -> match f with Some i => is_html T_form (s_dom s) i = true | None => True end -> Stay w s (set_form f s).
Proof.
  intros w s f (W & u & N & L) G. split; [|now apply same_irrelevant]. split; [|exists u; auto].
  destruct W. now constructor.
Qed.
Lemma good_marker : forall l, good_active l -> good_active (to_marker l).
Proof. induction l as [|[e|] l IH]; intro H; [exact H| |]; inversion H; subst; cbn; auto. Qed.
Lemma good_erase : forall d i l n, good_active l -> good_active (erase_earliest d i n l).
Proof.
  induction l as [|[e|] l IH]; intros n H; [exact H| |exact H]. inversion H as [|? ? H1 H2]; subst. cbn [erase_earliest].
  destruct (same_element d i (en_node e)).
  - assert (A : good_active (Some e :: erase_earliest d i (pred n) l)) by (constructor; [exact H1|now apply IH]).
    destruct n as [|[|n]]; auto.
  - constructor; [exact H1|now apply IH].
Qed.
Lemma push_formatting_ok : forall w i g s, Body w s -> good_tag g -> loose (g_id g) -> Stay w s (push_formatting i g s).
Proof.
  intros w i g s B G L. unfold push_formatting. apply stay_active; [exact B|]. constructor; [cbn; auto|].
  destruct (3 <=? _)%nat; [apply good_erase|]; apply B.
Qed.
Lemma to_open_good : forall s l a b, good_active l -> to_open s l = (a, b) ->
  Forall (fun e => good_tag (en_tag e) /\ loose (g_id (en_tag e))) a /\ good_active b.
Proof.
  induction l as [|[e|] l IH]; intros a b H E; cbn [to_open] in E.
  - injection E as <- <-. auto.
  - destruct (on_stack (en_node e) s); [injection E as <- <-; auto|].
    destruct (to_open s l) as [a1 b1]. injection E as <- <-. inversion H as [|? ? H1 H2]; subst.
    destruct (IH a1 b1 H2 eq_refl). split; [now constructor|assumption].
  - injection E as <- <-. auto.
Qed.
Lemma reopen_ok : forall m w, Floor m w -> forall l done s, Body w s -> good_active done ->
  Forall (fun e => good_tag (en_tag e) /\ loose (g_id (en_tag e))) l -> okay (Stay w s) (reopen l done s).
Proof.
  intros m w F. induction l as [|e l IH]; intros done s B G H; cbn [reopen].
  - cbn. now apply stay_active.
  - inversion H as [|? ? [H1 H2] H3]; subst.
    apply (okay_run2 _ _ _ _ (insert_loose2 m w (en_tag e) s F B H1 H2)). intros s1 i [K _]. cbn [fst] in K.
    apply (okay_weak _ _ _ (IH (Some (Entry (en_tag e) i) :: done) s1 (stay_body _ _ _ K) ltac:(constructor; [cbn; auto|exact G]) H3)).
    intros s2. now apply stay_trans.
Qed.
Lemma reconstruct_ok : forall m w s, Floor m w -> Body w s -> okay (Stay w s) (reconstruct s).
Proof.
  intros m w s F B. unfold reconstruct. destruct (to_open s (s_active s)) as [a b] eqn:E.
  destruct (to_open_good s _ a b (W_active s (proj1 B)) E) as [H1 H2].
  destruct a as [|e a]; [cbn; now apply stay_refl|]. apply (reopen_ok m w F); [exact B|exact H2|].
  now apply Forall_rev.
Qed.
Lemma other_start_ok : forall m w g s, Floor m w -> Body w s -> good_tag g -> loose (g_id g) -> okay (Stay w s) (other_start g s).
Proof.
  intros m w g s F B G L. unfold other_start. apply (okay_run _ _ _ _ (reconstruct_ok m w s F B)). intros s1 K.
  apply (okay_weak _ _ _ (insert_loose m w g s1 F (stay_body _ _ _ K) G L)). intros s2. now apply stay_trans.
Qed.
(** *** What the body closes *)

Lemma split_html : forall w s U W e, World s -> Split w s U W -> In e (U ++ W) -> ns_of (s_dom s) (en_node e) = ns_HTML.
Proof.
  intros w s U W e Wd (E & _) I. rewrite <- E in I. pose proof (W_stack s Wd) as A. rewrite Forall_forall in A. now apply A.
Qed.
Lemma other_end_from_ok : forall m w t s U W, Floor m w -> Body w s -> Split w s U W -> hd T_a w <> t -> forall X V, U = V ++ X ->
  okay (Stay w s) (other_end_from t (X ++ W) s).
Proof.
  intros m w t s U W F B Sp D. induction X as [|e X IH]; intros V E.
  - cbn [app]. destruct (floor_stack m w s U W F Sp) as (e & r & EW & N). destruct (floor_head m w F) as (n & q & -> & A1 & A2 & A3 & _).
    cbn in N, D. subst W. cbn [other_end_from].
    assert (H : ns_of (s_dom s) (en_node e) = ns_HTML) by (apply (split_html _ _ _ _ _ (proj1 B) Sp); apply in_or_app; right; now left).
    rewrite is_html_eq by exact H. unfold nm in N. rewrite N. destruct (teqb n t) eqn:T; [apply teqb_eq in T; now elim D|].
    unfold is_special. rewrite H, N. cbn [Z.eqb]. rewrite A2. cbn. now apply stay_refl.
  - cbn [app other_end_from].
    assert (Ie : In e U) by (rewrite E; apply in_or_app; right; now left).
    assert (H : ns_of (s_dom s) (en_node e) = ns_HTML) by (apply (split_html _ _ _ _ _ (proj1 B) Sp); apply in_or_app; now left).
    destruct (is_html t (s_dom s) (en_node e)) eqn:T.
    + cbn. unfold pop_until_node. apply (close_stay m); [exact F|exact B| |].
      * exists U, W, e. split; [exact Sp|]. split; [exact Ie|]. apply Nat.eqb_refl.
      * intros i Hi. apply Nat.eqb_eq in Hi. subst i. right. f_equal. apply is_html_ns in T. now destruct T.
    + destruct (is_special (s_dom s) (en_node e)); [cbn; now apply stay_refl|].
      apply (IH (V ++ [e])). now rewrite <- app_assoc.
Qed.
Lemma other_end_ok : forall m w t s, Floor m w -> Body w s -> hd T_a w <> t -> okay (Stay w s) (other_end t s).
Proof.
  intros m w t s F B D. destruct (body_split w s B) as (U & W & Sp). unfold other_end. rewrite (proj1 Sp).
  apply (other_end_from_ok m w t s U W F B Sp D U []). reflexivity.
Qed.
Lemma dd_from_ok : forall m w s U W, Floor m w -> Body w s -> Split w s U W -> forall X V, U = V ++ X ->
  okay (Stay w s) (dd_from (X ++ W) s).
Proof.
  intros m w s U W F B Sp. induction X as [|e X IH]; intros V E.
  - cbn [app]. destruct (floor_stack m w s U W F Sp) as (e & r & EW & N). destruct (floor_head m w F) as (n & q & -> & A1 & A2 & A3 & A4).
    cbn in N. subst W. cbn [dd_from].
    assert (H : ns_of (s_dom s) (en_node e) = ns_HTML) by (apply (split_html _ _ _ _ _ (proj1 B) Sp); apply in_or_app; right; now left).
    rewrite !is_html_eq by exact H. rewrite is_html_in_eq by exact H. unfold is_special. rewrite H. unfold nm in N. rewrite N.
    change (ns_HTML =? ns_HTML) with true. cbv iota. rewrite A2, A4. 
    destruct (teqb n T_dd) eqn:T; [apply teqb_eq in T; rewrite T in A1; discriminate A1|].
    destruct (teqb n T_dt) eqn:T2; [apply teqb_eq in T2; rewrite T2 in A1; discriminate A1|].
    cbn. now apply stay_refl.
  - cbn [app dd_from].
    assert (Ie : In e U) by (rewrite E; apply in_or_app; right; now left).
    destruct (is_html T_dd (s_dom s) (en_node e)) eqn:T.
    { cbn. apply (close_named m); auto. exists U, W, e. auto. }
    destruct (is_html T_dt (s_dom s) (en_node e)) eqn:T2.
    { cbn. apply (close_named m); auto. exists U, W, e. auto. }
    destruct (is_special (s_dom s) (en_node e) && _); [cbn; now apply stay_refl|].
    apply (IH (V ++ [e])). now rewrite <- app_assoc.
Qed.
Lemma dd_ok : forall m w s, Floor m w -> Body w s -> okay (Stay w s) (dd_from (s_stack s) s).
Proof.
  intros m w s F B. destruct (body_split w s B) as (U & W & Sp). rewrite (proj1 Sp).
  apply (dd_from_ok m w s U W F B Sp U []). reflexivity.
Qed.
Lemma remove_first_spec : forall {A} (f : A -> bool) l r, remove_first f l = Some r -> exists a x b, l = a ++ x :: b /\ f x = true /\ r = a ++ b.
Proof.
  induction l as [|x l IH]; intros r H; [discriminate|]. cbn [remove_first] in H. destruct (f x) eqn:E.
  - injection H as <-. exists [], x, l. auto.
  - destruct (remove_first f l) as [q|]; [|discriminate]. injection H as <-. destruct (IH q eq_refl) as (a & y & b & -> & F & ->).
    exists (x :: a), y, b. auto.
Qed.
Lemma remove_first_some : forall {A} (f : A -> bool) l, existsb f l = true -> exists r, remove_first f l = Some r.
Proof.
  induction l as [|x l IH]; intro H; [discriminate|]. cbn in *. destruct (f x); [eauto|]. destruct (IH H) as (r & ->). eauto.
Qed.
Lemma remove_front_ok : forall {A} (f : A -> bool) l, (exists x, In x l /\ f x = true) -> exists r, remove_front f l = Some r.
Proof.
  intros A f l (x & I & H). unfold remove_front. destruct (remove_first_some f (rev l)) as (r & ->); [|eauto].
  apply existsb_exists. exists x. split; [now apply in_rev in I|exact H].
Qed.
Lemma remove_front_spec : forall {A} (f : A -> bool) l r, remove_front f l = Some r -> exists a x b, l = a ++ x :: b /\ f x = true /\ r = a ++ b.
Proof.
  intros A f l r H. unfold remove_front in H. destruct (remove_first f (rev l)) as [q|] eqn:E; [|discriminate]. injection H as <-.
  destruct (remove_first_spec f _ _ E) as (a & x & b & E1 & F & ->). exists (rev b), x, (rev a).
  split; [|split; [exact F|apply rev_app_distr]].
  rewrite <- (rev_involutive l), E1, rev_app_distr. cbn. now rewrite <- app_assoc.
Qed.

Lemma app_mid : forall {A} (a b u v : list A) x, a ++ x :: b = u ++ v ->
  (exists c, u = a ++ x :: c /\ b = c ++ v) \/ (exists c, v = c ++ x :: b /\ a = u ++ c).
Proof.
  induction a as [|y a IH]; intros b [|z u] v x E; cbn in E.
  - right. exists []. auto.
  - injection E as E1 E2. subst. left. exists u. auto.
  - subst v. right. exists (y :: a). auto.
  - injection E as <- E. destruct (IH b u v x E) as [(c & -> & ->)|(c & -> & ->)]; [left|right]; exists c; auto.
Qed.
Lemma floor_remove : forall m w, Floor m w -> forall a b t, w = a ++ t :: b -> loose t -> Floor m (a ++ b).
Proof.
  intros m w F.
  assert (cons : forall x w' a b t, among x firm = true -> x :: w' = a ++ t :: b -> loose t -> exists a', a = x :: a' /\ w' = a' ++ t :: b).
  { intros x w' [|y a] b t K E L; cbn in E; injection E as E1 E2.
    - subst. unfold loose in L. congruence.
    - subst. eauto. }
  induction F as [|m u w M F IH L|w F IH|t' w I F IH|w F IH|t' w I F IH]; intros a b t E Lt.
  - destruct (cons T_body _ _ _ _ eq_refl E Lt) as (a1 & -> & E1). destruct (cons T_html _ _ _ _ eq_refl E1 Lt) as (a2 & -> & E2).
    destruct a2; discriminate.
  - destruct (cons T_table _ _ _ _ eq_refl E Lt) as (a1 & -> & E1). symmetry in E1. apply app_mid in E1.
    destruct E1 as [(c & -> & ->)|(c & -> & ->)].
    + cbn [app]. rewrite app_assoc. apply (F_table m); auto. apply Forall_app in L. destruct L as [L1 L2]. inversion L2; subst.
      apply Forall_app. auto.
    + cbn [app]. rewrite <- app_assoc. apply (F_table m); auto. now apply (IH c b t).
  - destruct (cons T_caption _ _ _ _ eq_refl E Lt) as (a1 & -> & E1). cbn [app]. apply F_caption. now apply (IH _ _ t).
  - assert (K : among t' firm = true) by (destruct I as [<-|[<-|[<-|[]]]]; reflexivity).
    destruct (cons _ _ _ _ _ K E Lt) as (a1 & -> & E1). cbn [app]. apply F_section; [exact I|]. now apply (IH _ _ t).
  - destruct (cons T_tr _ _ _ _ eq_refl E Lt) as (a1 & -> & E1). cbn [app]. apply F_row. now apply (IH _ _ t).
  - assert (K : among t' firm = true) by (destruct I as [<-|[<-|[]]]; reflexivity).
    destruct (cons _ _ _ _ _ K E Lt) as (a1 & -> & E1). cbn [app]. apply F_cell; [exact I|]. now apply (IH _ _ t).
Qed.
(** an element is taken out of the stack *)
Lemma remove_ok : forall m w i s, Floor m w -> Body w s -> loose (name_of (s_dom s) i) -> (exists e, In e (s_stack s) /\ en_node e = i) ->
  okay (fun s' => exists w', Floor m w' /\ Stay w' s s') (remove_stack i s).
Proof.
  intros m w i s F B L (e & I & N). unfold remove_stack.
  destruct (remove_front_ok (fun e => (en_node e =? i)%nat) (s_stack s)) as (r & R).
  { exists e. split; [exact I|]. now apply Nat.eqb_eq. }
  rewrite R. cbn. destruct (remove_front_spec _ _ _ R) as (a & x & b & E & H & ->). apply Nat.eqb_eq in H.
  destruct B as (W & u & K & Lu).
  assert (W1 : World (set_stack (a ++ b) s)).
  { apply world_stack; [exact W|]. rewrite E. intros y Y. apply in_app_or in Y. apply in_or_app. destruct Y; [now left|right; now right]. }
  unfold names in K. rewrite E, map_app in K. cbn [map] in K. unfold nm at 2 in K. rewrite H in K.
  apply app_mid in K. destruct K as [(c & -> & K)|(c & K1 & K2)].
  - exists w. split; [exact F|]. split; [|apply same_stack]. split; [exact W1|].
    exists (map (nm (s_dom s)) a ++ c). unfold names. cbn. rewrite map_app, K. split; [now rewrite app_assoc|].
    apply Forall_app in Lu. destruct Lu as [L1 L2]. inversion L2; subst. apply Forall_app. auto.
  - exists (c ++ map (nm (s_dom s)) b). split; [apply (floor_remove m w F _ _ (name_of (s_dom s) i) K1 L)|].
    split; [|apply same_stack]. split; [exact W1|]. exists u. unfold names. cbn. rewrite map_app, K2. split; [now rewrite app_assoc|exact Lu].
Qed.
Lemma form_end_ok : forall m w i s, Floor m w -> Body w s -> is_html T_form (s_dom s) i = true ->
  okay (fun s' => exists w', Floor m w' /\ Stay w' s s')
    (run b <- in_scope_node default_scope i s; if b : bool then remove_stack i (implied_end_tags s) else Val s).
Proof.
  intros m w i s F B H. apply is_html_ns in H. destruct H as [H1 H2].
  assert (G : okay (fun b => b = true -> Has (fun j => (j =? i)%nat) w s) (in_scope_node default_scope i s)).
  { apply (scope_has m w); auto. intros j J. apply Nat.eqb_eq in J. subst j. rewrite H2. reflexivity. }
  apply (okay_run _ _ _ _ G). intros [|] K; [|cbn; exists w; split; [exact F|now apply stay_refl]].
  pose proof (implied_stay m w s None F B) as St.
  pose proof (implied_has m w s None _ F (proj1 B) (K eq_refl)) as K1.
  destruct K1 as (U & W & e & Sp & I & J).
  { intros j J. apply Nat.eqb_eq in J. subst j. left. rewrite H2. reflexivity. }
  apply Nat.eqb_eq in J.
  eapply okay_weak.
  - apply (remove_ok m w i (implied_end_tags s) F (stay_body _ _ _ St)).
    + cbn. rewrite H2. reflexivity.
    + exists e. split; [|exact J]. change (implied_end_tags s) with (implied_except None s). rewrite (proj1 Sp). apply in_or_app. now left.
  - intros s' (w' & F' & S1 & S2). exists w'. split; [exact F'|]. split; [exact S1|]. apply (Same_trans _ _ _ (proj2 St) S2).
Qed.
