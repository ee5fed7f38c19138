(** What is true before and after every token, whatever the tokens are, and that the tokens of the body keep it. *)
From Coq Require Import ZArith List Bool String Lia.
From Verif Require Import M_infra M_encoding M_labels M_html M_html_serialize M_dom_names M_dom M_dom2 L_html_serialize L_dom L_dom2
  L_dom10 L_dom11.
Import ListNotations.
Open Scope Z_scope.
Open Scope list_scope.

Definition Above (w N : list tname) : Prop := exists u, N = u ++ w /\ Forall loose u.
(** the names on the stack in each insertion mode *)
Definition Stand (m : mode) (N : list tname) : Prop :=
  match m with
  | M_initial | M_before_html => N = []
  | M_before_head | M_after_head => N = [T_html]
  | M_in_head => N = [T_head; T_html]
  | M_in_head_noscript => N = [T_noscript; T_head; T_html]
  | M_in_body | M_after_body | M_after_after_body => exists w, Floor M_in_body w /\ Above w N
  | M_in_table | M_in_caption | M_in_table_body | M_in_row | M_in_cell => exists w, Floor m w /\ Above w N
  | M_in_column_group => exists w, N = T_colgroup :: w /\ Floor M_in_table w
  | M_in_select | M_in_select_in_table =>
      exists o r m w, N = o ++ T_select :: r /\ Forall (fun t => In t [T_option; T_optgroup]) o /\ Floor m w /\ Above w r
  | _ => False
  end.
(** how many html, head and body elements there are *)
Definition counts (m : mode) : list nat :=
  match m with
  | M_initial | M_before_html => [0; 0; 0]
  | M_before_head => [1; 0; 0]
  | M_in_head | M_in_head_noscript | M_after_head => [1; 1; 0]
  | _ => [1; 1; 1]
  end%nat.
Definition Counted (m : mode) (d : list cell) : Prop := map (fun t => count t d) ones = counts m.
Definition HeadOK (m : mode) (s : st) : Prop :=
  match m with M_in_head | M_in_head_noscript | M_after_head => s_head s <> None | _ => True end.
Definition Placed (m : mode) (s : st) (N : list tname) : Prop := Stand m N /\ Counted m (s_dom s) /\ HeadOK m s.
Definition Inv (s : st) : Prop :=
  World s /\
  match s_mode s with
  | M_text => exists t v, names s = t :: v /\ v <> [] /\ loose t /\ Placed (s_original s) s v
  | M_in_table_text => In (s_original s) [M_in_table; M_in_table_body; M_in_row] /\ Placed (s_original s) s (names s)
  | m => Placed m s (names s)
  end.

(** the tokens: no templates, framesets or foreign elements, and nothing that closes a formatting element *)
Definition formatting_names : list tname :=
  [T_a; T_b; T_big; T_code; T_em; T_font; T_i; T_nobr; T_s; T_small; T_strike; T_strong; T_tt; T_u].
Definition wild : list tname := [T_template; T_svg; T_math; T_frameset; T_button; T_a; T_nobr].
Definition Tame (k : ktok) : Prop :=
  match k with
  | KStart g => good_tag g /\ among (g_id g) wild = false /\ (g_id g = T_image -> g_atom g = true)
  | KEnd t => among t formatting_names = false
  | _ => True
  end.
(** while foster parenting is on, only this is processed again *)
Definition Calm (s : st) (k : ktok) : Prop :=
  s_foster s = true -> match k with KStart g => In (g_id g) [T_img; T_br] | _ => False end /\
    In (s_mode s) [M_in_body; M_in_table; M_in_caption; M_in_table_body; M_in_row; M_in_cell; M_after_body; M_after_after_body].
Definition rank (m : mode) (k : ktok) : nat :=
  (match k with
   | KStart g => match g_id g with T_image => 20 | _ => 0 end
   | KEnd T_br => 20
   | _ => 0
   end +
   match m with
   | M_text => 13
   | M_initial => 12
   | M_before_html => 11
   | M_before_head | M_in_head_noscript => 10
   | M_in_head => 9
   | M_after_head | M_in_select | M_in_select_in_table => 8
   | M_in_table_text => match k with KChar _ => 0 | _ => 7 end
   | M_in_cell | M_in_caption => match k with KStart g => match g_id g with T_table => 1 | _ => 6 end | _ => 6 end
   | M_in_row => match k with KStart g => match g_id g with T_td | T_th => 1 | _ => 5 end | _ => 5 end
   | M_in_column_group => match k with KStart g => match g_id g with T_col => 0 | _ => 5 end | _ => 5 end
   | M_in_table_body => match k with KStart g => match g_id g with T_td | T_th | T_tr => 2 | _ => 4 end | _ => 4 end
   | M_in_table => 3
   | M_after_after_body => 2
   | M_after_body => match k with KEnd T_html => 0 | _ => 2 end
   | M_in_body => 1
   | _ => 0
   end)%nat.

(** after the end of the file the stack is empty *)
Definition Done (s : st) : Prop := Tree (s_dom s) /\ Counted M_in_body (s_dom s).
Definition Post' (s s' : st) : Prop := Inv s' /\ (s_foster s' = true -> s_foster s = true).
Definition Post (s : st) (k : ktok) (s' : st) : Prop := match k with KEof => Done s' | _ => Post' s s' end.

(** *** The modes of the body and of tables *)

Definition Main (md m : mode) : Prop :=
  (md = m /\ In m [M_in_body; M_in_table; M_in_caption; M_in_table_body; M_in_row; M_in_cell]) \/
  (m = M_in_body /\ In md [M_after_body; M_after_after_body]).
Lemma main_self : forall m, In m [M_in_body; M_in_table; M_in_caption; M_in_table_body; M_in_row; M_in_cell] -> Main m m.
Proof. intros. left. auto. Qed.
Lemma main_listed : forall md m, Main md m ->
  In md [M_in_body; M_in_table; M_in_caption; M_in_table_body; M_in_row; M_in_cell; M_after_body; M_after_after_body].
Proof.
  intros md m [[-> I]|[_ I]]; cbn in *; repeat match type of I with _ \/ _ => destruct I as [<-|I] end; try contradiction; auto 10.
Qed.
Record Ctx (m : mode) (w : list tname) (s : st) : Prop := MkCtx {
  X_main : Main (s_mode s) m; X_floor : Floor m w; X_body : Body w s; X_count : Counted M_in_body (s_dom s) }.
Lemma inv_ctx : forall m w s, Ctx m w s -> Inv s.
Proof.
  intros m w s [M F B C]. destruct B as (W & u & N & L). split; [exact W|].
  assert (A : Above w (names s)) by (exists u; auto).
  destruct M as [[E I]|[E I]].
  - rewrite E. cbn in I. repeat match type of I with _ \/ _ => destruct I as [<-|I] end; [..|destruct I];
      (split; [cbn; exists w; auto|split; [exact C|exact Logic.I]]).
  - subst m. cbn in I. repeat match type of I with _ \/ _ => destruct I as [<-|I] end; [..|destruct I];
      (split; [cbn; exists w; auto|split; [exact C|exact Logic.I]]).
Qed.
Lemma ctx_inv : forall md m s, s_mode s = md -> Main md m -> Inv s -> exists w, Ctx m w s.
Proof.
  intros md m s E M (W & K). rewrite E in K.
  assert (G : exists w, Floor m w /\ Above w (names s) /\ Counted M_in_body (s_dom s)).
  { destruct M as [[-> I]|[-> I]].
    - cbn in I. repeat match type of I with _ \/ _ => destruct I as [<-|I] end; [..|destruct I];
        (unfold Placed in K; cbn [Stand] in K; destruct K as ((w & F & A) & C & _); exists w; auto).
    - cbn in I. repeat match type of I with _ \/ _ => destruct I as [<-|I] end; [..|destruct I];
        (unfold Placed in K; cbn [Stand] in K; destruct K as ((w & F & A) & C & _); exists w; auto). }
  destruct G as (w & F & A & C). exists w. constructor; auto; [now rewrite E|]. split; [exact W|exact A].
Qed.
Lemma counted_same : forall m s s', Counted m (s_dom s) -> Same s s' -> Counted m (s_dom s').
Proof.
  intros m s s' C H. unfold Counted in *. rewrite <- C. cbn [map ones]. pose proof (Same_count _ _ H) as K.
  rewrite !K by (cbn; auto). reflexivity.
Qed.
Lemma ctx_stay : forall m w w' s s', Ctx m w s -> Floor m w' -> Stay w' s s' -> Ctx m w' s'.
Proof.
  intros m w w' s s' [M F B C] F' [B' Sm]. constructor; auto.
  - now rewrite (Same_mode _ _ Sm).
  - now apply (counted_same _ s).
Qed.
Lemma land : forall m w w' s s', Ctx m w s -> Floor m w' -> Stay w' s s' -> Post' s s'.
Proof.
  intros m w w' s s' X F' K. split.
  - apply (inv_ctx m w'). now apply (ctx_stay m w w' s).
  - destruct K as [_ K]. rewrite (Same_foster _ _ K). auto.
Qed.
Lemma lands : forall m w s r, Ctx m w s -> okay (Stay w s) r -> okay (Post' s) r.
Proof. intros m w s r X K. apply (okay_weak _ _ _ K). intros s'. apply (land m w w s s' X). apply X. Qed.

(** *** Steps *)

Section Steps.
Variables (m : mode) (w : list tname).
Hypothesis F : Floor m w.

Lemma p_closed_from : forall s s1, Stay w s s1 -> okay (Stay w s) (p_closed s1).
Proof. intros s s1 K. apply (okay_weak _ _ _ (p_closed_ok m w s1 F (stay_body _ _ _ K))). intros x. now apply stay_trans. Qed.
Lemma reconstruct_from : forall s s1, Stay w s s1 -> okay (Stay w s) (reconstruct s1).
Proof. intros s s1 K. apply (okay_weak _ _ _ (reconstruct_ok m w s1 F (stay_body _ _ _ K))). intros x. now apply stay_trans. Qed.
Lemma insert_from : forall g s s1, good_tag g -> loose (g_id g) -> Stay w s s1 -> okay (Stay w s) (insert_el' g s1).
Proof. intros g s s1 G L K. apply (okay_weak _ _ _ (insert_loose m w g s1 F (stay_body _ _ _ K) G L)). intros x. now apply stay_trans. Qed.
Lemma insert2_from : forall g s s1, good_tag g -> loose (g_id g) -> Stay w s s1 ->
  okay (fun p => Stay w s (fst p) /\ is_html (g_id g) (s_dom (fst p)) (snd p) = true) (insert_el g s1).
Proof.
  intros g s s1 G L K. apply (okay_weak _ _ _ (insert_loose2 m w g s1 F (stay_body _ _ _ K) G L)).
  intros x [X1 X2]. split; [|exact X2]. now apply (stay_trans w s s1).
Qed.
Lemma void_from : forall g s s1, good_tag g -> loose (g_id g) -> Stay w s s1 -> okay (Stay w s) (insert_void g s1).
Proof. intros g s s1 G L K. apply (okay_weak _ _ _ (void_loose m w g s1 F (stay_body _ _ _ K) G L)). intros x. now apply stay_trans. Qed.
Lemma other_start_from : forall g s s1, good_tag g -> loose (g_id g) -> Stay w s s1 -> okay (Stay w s) (other_start g s1).
Proof. intros g s s1 G L K. apply (okay_weak _ _ _ (other_start_ok m w g s1 F (stay_body _ _ _ K) G L)). intros x. now apply stay_trans. Qed.
Lemma other_end_from' : forall t s s1, hd T_a w <> t -> Stay w s s1 -> okay (Stay w s) (other_end t s1).
Proof. intros t s s1 D K. apply (okay_weak _ _ _ (other_end_ok m w t s1 F (stay_body _ _ _ K) D)). intros x. now apply stay_trans. Qed.
Lemma dd_from' : forall s s1, Stay w s s1 -> okay (Stay w s) (dd_from (s_stack s1) s1).
Proof. intros s s1 K. apply (okay_weak _ _ _ (dd_ok m w s1 F (stay_body _ _ _ K))). intros x. now apply stay_trans. Qed.
Lemma char_from : forall c s s1, Stay w s s1 -> okay (Stay w s) (insert_char c s1).
Proof.
  intros c s s1 K. pose proof (stay_body _ _ _ K) as B. apply (okay_weak _ _ _ (insert_char_ok c s1 (proj1 B) (body_root m w s1 F B))).
  intros x Q. apply (stay_trans w s s1 x K). now apply still_stay.
Qed.
Lemma comment_from : forall c s s1, Stay w s s1 -> okay (Stay w s) (insert_comment c s1).
Proof.
  intros c s s1 K. pose proof (stay_body _ _ _ K) as B. apply (okay_weak _ _ _ (insert_comment_ok c s1 (proj1 B) (body_root m w s1 F B))).
  intros x Q. apply (stay_trans w s s1 x K). now apply still_stay.
Qed.
Lemma implied_from : forall ex s s1, Stay w s s1 -> Stay w s (implied_except ex s1).
Proof. intros ex s s1 K. apply (stay_trans w s s1 _ K). apply (implied_stay m); [exact F|now apply (stay_body w s)]. Qed.
Lemma irrelevant_from : forall s s1 s', Stay w s s1 -> s_dom s' = s_dom s1 -> s_stack s' = s_stack s1 -> s_active s' = s_active s1 ->
  s_fragment s' = s_fragment s1 -> s_templates s' = s_templates s1 -> s_form s' = s_form s1 -> s_head s' = s_head s1 ->
  s_mode s' = s_mode s1 -> s_original s' = s_original s1 -> s_foster s' = s_foster s1 -> s_pending s' = s_pending s1 -> Stay w s s'.
Proof. intros s s1 s' K. intros. apply (stay_trans w s s1 s' K). apply stay_irrelevant; auto. now apply (stay_body w s). Qed.
Lemma active_from : forall l s s1, Stay w s s1 -> good_active l -> Stay w s (set_active l s1).
Proof. intros l s s1 K G. apply (stay_trans w s s1 _ K). apply stay_active; [now apply (stay_body w s)|exact G]. Qed.
Lemma clear_from : forall s s1, Stay w s s1 -> Stay w s (clear_formatting s1).
Proof. intros s s1 K. apply active_from; [exact K|]. apply good_marker. apply (stay_body _ _ _ K). Qed.
Lemma marker_from : forall s s1, Stay w s s1 -> Stay w s (push_marker s1).
Proof. intros s s1 K. apply active_from; [exact K|]. constructor; [exact I|]. apply (stay_body _ _ _ K). Qed.
Lemma formatting_from : forall i g s s1, good_tag g -> loose (g_id g) -> Stay w s s1 -> Stay w s (push_formatting i g s1).
Proof.
  intros i g s s1 G L K. apply (stay_trans w s s1 _ K). apply push_formatting_ok; [now apply (stay_body w s)|exact G|exact L].
Qed.
(** the element on top is taken off *)
Lemma top_loose : forall s e r, Body w s -> s_stack s = e :: r -> loose (nm (s_dom s) e) -> Stay w s (set_stack r s).
Proof.
  intros s e r B E L. destruct (body_split w s B) as (U & W & Sp). assert (Sp' := Sp). destruct Sp' as (E1 & N & LU).
  destruct U as [|x U].
  - exfalso. cbn in E1. destruct (floor_stack m w s [] W F Sp) as (y & q & EW & Ny). rewrite E1, EW in E. injection E as -> ->.
    destruct (floor_head m w F) as (t & z & -> & A & _). cbn in Ny. rewrite Ny in L. unfold loose in L. congruence.
  - cbn in E1. rewrite E1 in E. injection E as -> <-. apply (body_cut w s (e :: U) W U (proj1 B) Sp). now apply incl_tl, incl_refl.
Qed.
Lemma pop_if_ok : forall (f : nat -> bool) s s1, Stay w s s1 -> (forall i, f i = true -> loose (name_of (s_dom s1) i)) ->
  okay (Stay w s) (run i <- cur s1; if f i then pop s1 else Val s1).
Proof.
  intros f s s1 K H. pose proof (stay_body _ _ _ K) as B. destruct (rooted_names s1 (body_root m w s1 F B)) as (e & r & E).
  unfold cur, pop. rewrite E. cbv beta iota. destruct (f (en_node e)) eqn:T; [|cbn; exact K]. cbn.
  apply (stay_trans w s s1 _ K). apply (top_loose s1 e r B E). now apply H.
Qed.
End Steps.

(** *** Landing in other modes *)

Lemma stay_near : forall w s s', Stay w s s' -> Counted M_in_body (s_dom s) -> Counted M_in_body (s_dom s').
Proof. intros w s s' [_ K] C. now apply (counted_same _ s). Qed.
Lemma grown_world : forall t s s', Grown t s s' -> World s'.
Proof. now intros t s s' (W & _). Qed.
Lemma grown_names : forall t s s', Grown t s s' -> names s' = t :: names s.
Proof. now intros t s s' (_ & N & _). Qed.
(** the same tree and stack *)
Record Alike (s s' : st) : Prop := MkAlike {
  A_dom : s_dom s' = s_dom s; A_stack : s_stack s' = s_stack s; A_active : s_active s' = s_active s;
  A_fragment : s_fragment s' = s_fragment s; A_templates : s_templates s' = s_templates s; A_form : s_form s' = s_form s;
  A_head : s_head s' = s_head s; A_foster : s_foster s' = s_foster s }.
Lemma alike_world : forall s s', Alike s s' -> World s -> World s'.
Proof. intros s s' [] []. constructor; rewrite ?A_dom0, ?A_stack0, ?A_active0, ?A_fragment0, ?A_templates0, ?A_form0, ?A_head0; assumption. Qed.
Lemma alike_names : forall s s', Alike s s' -> names s' = names s.
Proof. intros s s' []. unfold names. now rewrite A_dom0, A_stack0. Qed.

Lemma land_text : forall m w s s1 s2 s3 t, Ctx m w s -> Stay w s s1 -> Grown t s1 s2 -> loose t -> Alike s2 s3 ->
  s_mode s3 = M_text -> s_original s3 = s_mode s -> Post' s s3.
Proof.
  intros m w s s1 s2 s3 t X K G L A M O. pose proof (grown_same _ _ _ G (proj2 (proj2 (loose_free t L)))) as Sm.
  pose proof (alike_names _ _ A) as N. rewrite (grown_names _ _ _ G) in N. split.
  - split; [apply (alike_world s2); [exact A|now apply (grown_world t s1)]|]. rewrite M. exists t, (names s1).
    assert (X1 : Ctx m w s1) by (apply (ctx_stay m w w s); [exact X|apply X|exact K]).
    split; [exact N|]. split; [|split; [exact L|]].
    + destruct (rooted_names s1 (body_root m w s1 (X_floor _ _ _ X1) (X_body _ _ _ X1))) as (e & r & E). unfold names. rewrite E. discriminate.
    + rewrite O, <- (Same_mode _ _ (proj2 K)). pose proof (inv_ctx _ _ _ X1) as (_ & Q).
      assert (P1 : Placed (s_mode s1) s1 (names s1)).
      { destruct (X_main _ _ _ X1) as [[E I]|[E I]]; [rewrite E in *; subst; cbn in I|cbn in I];
          repeat match type of I with _ \/ _ => destruct I as [I|I] end; try contradiction; rewrite <- ?I in *; exact Q. }
      destruct P1 as (P1 & P2 & P3). split; [exact P1|]. split.
      * rewrite (A_dom _ _ A). now apply (counted_same _ s1).
      * unfold HeadOK in *. rewrite (A_head _ _ A). rewrite (Same_head _ _ Sm). exact P3.
  - rewrite (A_foster _ _ A), (Same_foster _ _ Sm), (Same_foster _ _ (proj2 K)). auto.
Qed.
Lemma land_table : forall m w s s1 s2 s3, Ctx m w s -> In m [M_in_body; M_in_cell; M_in_caption] -> Stay w s s1 -> Grown T_table s1 s2 -> Alike s2 s3 ->
  s_mode s3 = M_in_table -> Post' s s3.
Proof.
  intros m w s s1 s2 s3 X H K G A M. pose proof (grown_same _ _ _ G eq_refl) as Sm.
  pose proof (alike_names _ _ A) as N. rewrite (grown_names _ _ _ G) in N. split.
  - destruct K as [(_ & u & Nu & Lu) Sm1].
    apply (inv_ctx M_in_table (T_table :: u ++ w)). constructor.
    + rewrite M. apply main_self. cbn; auto.
    + apply (F_table m); [exact H|apply X|exact Lu].
    + split; [apply (alike_world s2); [exact A|now apply (grown_world T_table s1)]|]. exists []. rewrite N, Nu. auto.
    + rewrite (A_dom _ _ A). apply (counted_same _ s1); [|exact Sm]. apply (counted_same _ s); [apply X|exact Sm1].
  - rewrite (A_foster _ _ A), (Same_foster _ _ Sm), (Same_foster _ _ (proj2 K)). auto.
Qed.
Lemma land_select : forall m w s s1 s2 s3, Ctx m w s -> Stay w s s1 -> Grown T_select s1 s2 -> Alike s2 s3 ->
  In (s_mode s3) [M_in_select; M_in_select_in_table] -> Post' s s3.
Proof.
  intros m w s s1 s2 s3 X K G A M. pose proof (grown_same _ _ _ G eq_refl) as Sm.
  pose proof (alike_names _ _ A) as N. rewrite (grown_names _ _ _ G) in N. split.
  - destruct K as [(_ & u & Nu & Lu) Sm1].
    assert (C : Counted M_in_body (s_dom s3)).
    { rewrite (A_dom _ _ A). apply (counted_same _ s1); [|exact Sm]. apply (counted_same _ s); [apply X|exact Sm1]. }
    assert (E : Stand M_in_select (names s3)).
    { exists [], (names s1), m, w. split; [exact N|]. split; [constructor|]. split; [apply X|]. exists u. auto. }
    split; [apply (alike_world s2); [exact A|now apply (grown_world T_select s1)]|].
    destruct M as [<-|[<-|[]]]; (split; [exact E|split; [exact C|exact I]]).
  - rewrite (A_foster _ _ A), (Same_foster _ _ Sm), (Same_foster _ _ (proj2 K)). auto.
Qed.
