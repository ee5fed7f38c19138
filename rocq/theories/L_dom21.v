(** What the tree looks like when the tokens are over. *)
From Coq Require Import ZArith List Bool String Lia Permutation.
From Verif Require Import M_infra M_encoding M_labels M_html M_html_ncr M_html_serialize M_dom_names M_dom M_dom2 L_html_serialize L_html1 L_html10 L_html11 L_html12 L_dom L_dom2
  L_dom10 L_dom11 L_dom12 L_dom20.
Import ListNotations.
Open Scope Z_scope.
Open Scope list_scope.

(** *** What is asked of the tokens and of the tree *)

Definition strings (l : list string) : list (list Z) := map lit l.
(** no templates, framesets, foreign elements or buttons, no links and nobr elements, and no end tags of formatting elements *)
Definition tame_token (t : token) : Prop :=
  match t with
  | TStart g => g_name g <> [] /\ ~ In (g_name g) (strings ["template"; "svg"; "math"; "frameset"; "button"; "a"; "nobr"]%string)
  | TEnd g => ~ In (g_name g) (strings ["a"; "b"; "big"; "code"; "em"; "font"; "i"; "nobr"; "s"; "small"; "strike"; "strong"; "tt"; "u"]%string)
  | TEof => False
  | _ => True
  end.

(** the nodes of a tree *)
Inductive Within (n : node) : node -> Prop :=
| Wi_self : Within n n
| Wi_child : forall p c, Within n p -> In c (children p) -> Within n c.
Definition named (x : string) (n : node) : Prop :=
  match n with NElement ns _ l _ _ => ns = ns_HTML /\ l = lit x | _ => False end.
Definition one_of (l : list string) (n : node) : Prop := exists x, In x l /\ named x n.
(** elements, and the only elements they may be children of *)
Definition parents : list (list string * list string) :=
  [(["td"; "th"], ["tr"]); (["tr"], ["tbody"; "tfoot"; "thead"]); (["tbody"; "tfoot"; "thead"; "caption"; "colgroup"], ["table"]);
   (["col"], ["colgroup"]); (["head"; "body"], ["html"])]%string.
Definition only_one (x : string) (l : list node) (n : node) : Prop :=
  exists a b, l = a ++ n :: b /\ named x n /\ Forall (fun m => ~ named x m) (a ++ b).
Record Sound (d : node) : Prop := MkSound {
  So_parents : forall p c cs ps, Within d p -> In c (children p) -> In (cs, ps) parents -> one_of cs c -> one_of ps p;
  So_html : forall p c, Within d p -> In c (children p) -> named "html" c -> p = d;
  So_one : exists h x y, only_one "html" (children d) h /\ only_one "head" (children h) x /\ only_one "body" (children h) y }.

(** *** Reading the cells *)

Lemma tree_kids : forall f d i, Tree d -> incl (children (tree_of (S f) d i)) (map (tree_of f d) (kids_of d i)).
Proof. intros f d i W x. cbn [tree_of]. destruct (c_info (cell_of d i)); cbn [children]; try contradiction; auto. Qed.
Lemma within_cells : forall d n, Tree d -> Within (tree_of (List.length d) d 0) n ->
  exists f i, n = tree_of (S f) d i /\ (i < List.length d)%nat /\ (List.length d - i <= S f)%nat /\ (i = 0 \/ 2 <= i)%nat.
Proof.
  intros d n W H. pose proof (T_two d W) as T2. induction H as [|p c H (f & i & -> & I1 & I2 & I3) C].
  - exists (List.length d - 1)%nat, 0%nat. split; [f_equal; lia|]. lia.
  - apply (tree_kids f d i W) in C. apply in_map_iff in C. destruct C as (j & <- & J). destruct (T_kids d W i j J) as [J1 J2].
    pose proof (T_before d W j J1) as J3. rewrite J2 in J3. destruct f as [|f]; [lia|]. exists f, j. split; [reflexivity|]. lia.
Qed.
Lemma child_cells : forall d f i c, Tree d -> (List.length d - i <= S f)%nat -> In c (children (tree_of (S f) d i)) ->
  exists f' j, f = S f' /\ c = tree_of (S f') d j /\ In j (kids_of d i) /\ (2 <= j < List.length d)%nat /\ parent_of d j = i.
Proof.
  intros d f i c W I C. apply (tree_kids f d i W) in C. apply in_map_iff in C. destruct C as (j & <- & J).
  destruct (T_kids d W i j J) as [J1 J2]. pose proof (T_before d W j J1) as J3. rewrite J2 in J3. destruct f as [|f]; [lia|].
  exists f, j. auto.
Qed.
Lemma named_is : forall x d f i, Tree d -> (i < List.length d)%nat -> (i = 0 \/ 2 <= i)%nat ->
  named x (tree_of (S f) d i) <-> is_html (tname_of (lit x)) d i = true.
Proof.
  intros x d f i W I I0. unfold is_html, is_el, ns_of, name_of. cbn [tree_of].
  assert (F : (2 <= i)%nat -> in_family d (ns_of d i) (name_of d i) (parent_of d i)) by (intro; apply (T_family d W); lia).
  unfold ns_of, name_of in F. destruct I0 as [->|I0].
  - rewrite (T_first d W). cbn. split; [contradiction|]. intro H. discriminate H.
  - specialize (F I0). destruct (c_info (cell_of d i)) as [|ns t attrs| | |]; cbn [named]; try (split; [contradiction|discriminate]).
    rewrite andb_true_iff, Z.eqb_eq, teqb_eq. split; intros [H1 H2]; (split; [exact H1|]); destruct (F H1) as (_ & _ & F1).
    + now rewrite <- H2, F1.
    + now rewrite H2, tstring_of.
Qed.
Lemma kids_cells : forall d f i, c_info (cell_of d i) = IDocument \/ ns_of d i = ns_HTML ->
  children (tree_of (S f) d i) = map (tree_of f d) (kids_of d i).
Proof.
  intros d f i [H|H]; unfold ns_of in H; cbn [tree_of]; [now rewrite H|]. destruct (c_info (cell_of d i)); try (now destruct ns_HTML_0). reflexivity.
Qed.
Lemma among_one : forall t l, among t l = true -> In t l.
Proof. intros t l H. unfold among in H. apply existsb_exists in H. destruct H as (x & X & E). apply teqb_eq in E. now subst. Qed.

Lemma one_html : forall d t, count t d = 1%nat -> exists i, is_html t d i = true /\ forall j, is_html t d j = true -> j = i.
Proof.
  intros d t H. unfold count in H. destruct (filter (is_html t d) (seq 0 (List.length d))) as [|i [|]] eqn:E; try discriminate H.
  assert (I : forall j, is_html t d j = true <-> j = i).
  { intro j. split; intro J.
    - assert (In j [i]) as [->|[]]; [|reflexivity]. rewrite <- E. apply filter_In. split; [|exact J]. apply in_seq.
      apply is_html_ns in J. destruct J as [J _]. apply html_node in J. lia.
    - subst j. assert (K : In i (filter (is_html t d) (seq 0 (List.length d)))) by (rewrite E; now left). apply filter_In in K. apply K. }
  exists i. split; [now apply I|]. intro j. apply I.
Qed.
Lemma only_cells : forall d f p i x, Tree d -> (List.length d - p <= S f)%nat ->
  (p < List.length d)%nat -> c_info (cell_of d p) = IDocument \/ ns_of d p = ns_HTML ->
  In i (kids_of d p) -> is_html (tname_of (lit x)) d i = true -> (forall j, is_html (tname_of (lit x)) d j = true -> j = i) ->
  only_one x (children (tree_of (S f) d p)) (tree_of f d i).
Proof.
  intros d f p i x W F P K I H U. rewrite kids_cells by exact K. pose proof (T_nodup d W p) as ND.
  pose proof (T_kids d W p) as TK. destruct (in_split _ _ I) as (a & b & E). rewrite E in *.
  exists (map (tree_of f d) a), (map (tree_of f d) b). rewrite map_app. cbn [map].
  assert (Q : forall j, In j (a ++ i :: b) -> (exists f', f = S f') /\ (2 <= j < List.length d)%nat).
  { intros j J. destruct (TK j J) as [J1 J2]. pose proof (T_before d W j J1). split; [|exact J1]. destruct f; [lia|]. eauto. }
  split; [reflexivity|]. split.
  - destruct (Q i) as [[f' ->] J]; [apply in_or_app; right; now left|]. apply named_is; auto; lia.
  - rewrite <- map_app. apply Forall_forall. intros m M N. apply in_map_iff in M. destruct M as (j & <- & J).
    assert (J' : In j (a ++ i :: b)) by (apply in_app_or in J; apply in_or_app; destruct J; [left|right; right]; assumption).
    destruct (Q j J') as [[f' ->] J1]. apply named_is in N; [|auto|lia|lia]. apply U in N. subst j.
    apply NoDup_remove_2 in ND. contradiction.
Qed.

Theorem done_sound : forall s, Done s -> Sound (document s).
Proof.
  intros s [W C]. unfold document, the_document. set (d := s_dom s) in *. pose proof (T_two d W) as T2. constructor.
  - intros p c cs ps Hp Hc Hin (x & X & N). destruct (within_cells d p W Hp) as (f & i & -> & I1 & I2 & I3).
    destruct (child_cells d f i c W I2 Hc) as (f' & j & -> & -> & J1 & J2 & J3).
    apply named_is in N; [|auto|lia|lia]. destruct (is_html_ns _ _ _ N) as [N1 N2].
    destruct (T_family d W j J2 N1) as (F & _ & _). rewrite N2, J3 in F.
    assert (G : forall l, is_html_in (map (fun y => tname_of (lit y)) l) d i = true -> one_of l (tree_of (S (S f')) d i)).
    { intros l L. unfold is_html_in in L. apply andb_prop in L. destruct L as [L1 L2]. apply Z.eqb_eq in L1. apply among_one in L2.
      apply in_map_iff in L2. destruct L2 as (y & Y1 & Y2). exists y. split; [exact Y2|]. apply named_is; auto.
      rewrite is_html_eq by exact L1. apply teqb_eq. now symmetry. }
    cbn in Hin. repeat (destruct Hin as [Hin|Hin]; [inversion Hin; subst cs ps; clear Hin; cbn in X;
      repeat (destruct X as [X|X]; [subst x; apply G; exact F|]); destruct X|]). destruct Hin.
  - intros p c Hp Hc N. destruct (within_cells d p W Hp) as (f & i & -> & I1 & I2 & I3).
    destruct (child_cells d f i c W I2 Hc) as (f' & j & -> & -> & J1 & J2 & J3).
    apply named_is in N; [|auto|lia|lia]. destruct (is_html_ns _ _ _ N) as [N1 N2].
    destruct (T_family d W j J2 N1) as (_ & F & _). rewrite N2, J3 in F. specialize (F eq_refl). unfold the_document in F. rewrite F in *.
    (* the tree does not depend on the fuel *)
    assert (G : forall a b k, (k < List.length d)%nat -> (List.length d - k <= a)%nat -> (List.length d - k <= b)%nat -> tree_of a d k = tree_of b d k).
    { induction a as [|a IH]; intros b k K1 K2 K3; [lia|]. destruct b as [|b]; [lia|]. cbn [tree_of].
      assert (E : map (tree_of a d) (kids_of d k) = map (tree_of b d) (kids_of d k)).
      { apply map_ext_in. intros m M. destruct (T_kids d W k m M) as [M1 M2]. pose proof (T_before d W m M1). rewrite M2 in *. apply IH; lia. }
      now rewrite E. }
    apply G; lia.
  - unfold Counted, ones, counts in C. cbn [map] in C. injection C as C1 C2 C3.
    destruct (one_html d T_html C1) as (h & H1 & H2). destruct (one_html d T_head C2) as (x & X1 & X2).
    destruct (one_html d T_body C3) as (y & Y1 & Y2).
    destruct (is_html_ns _ _ _ H1) as [Hn Hm]. pose proof (tree_two d h W Hn) as Hb.
    destruct (T_family d W h Hb Hn) as (_ & F & _). specialize (F Hm).
    assert (U : forall k t, In t [T_head; T_body] -> is_html t d k = true -> In k (kids_of d h)).
    { intros k t T K. destruct (is_html_ns _ _ _ K) as [Kn Km]. pose proof (tree_two d k W Kn) as Kb.
      destruct (T_family d W k Kb Kn) as (Fk & _ & _). rewrite Km in Fk.
      assert (E : parent_of d k = h).
      { apply H2. unfold is_html_in in Fk. unfold is_html, is_el. destruct T as [<-|[<-|[]]]; cbn in Fk; now rewrite orb_false_r in Fk. }
      rewrite <- E. apply (T_parent d W k Kb). }
    pose proof (T_parent d W h Hb) as Hk. rewrite F in Hk. unfold the_document in Hk.
    assert (L : exists f, List.length d = S (S f)) by (destruct (List.length d) as [|[|f]]; [lia|lia|eauto]). destruct L as [f L]. rewrite L.
    exists (tree_of (S f) d h), (tree_of f d x), (tree_of f d y). split; [|split].
    + apply only_cells; auto; try lia. left. exact (T_first d W).
    + apply only_cells; auto; try lia. apply (U x T_head); auto. now left.
    + apply only_cells; auto; try lia. apply (U y T_body); auto. right; now left.
Qed.

(** *** Reading tokens *)

Lemma init_inv : Inv (st_init false).
Proof.
  split; [|cbn; split; [reflexivity|split; reflexivity]]. constructor; cbn; auto; [|constructor..].
  constructor; cbn; auto; try lia; intros i.
  - intros j. destruct i as [|[|i]]; cbn; try contradiction. destruct i; contradiction.
  - destruct i as [|[|i]]; cbn; try constructor. destruct i; constructor.
Qed.
Lemma not_among : forall n l, ~ In n (strings l) -> among (tname_of n) (map (fun x => tname_of (lit x)) l) = false.
Proof.
  intros n l H. destruct (among (tname_of n) (map (fun x => tname_of (lit x)) l)) eqn:E; [|reflexivity]. exfalso. apply H.
  apply among_one in E. apply in_map_iff in E. destruct E as (x & E & X). unfold strings. apply in_map_iff. exists x. split; [|exact X].
  rewrite <- (tstring_of n), <- E. symmetry. apply tstring_of.
Qed.
Lemma tame_tok : forall slots t, tame_token t -> Tame (tok_of slots t) /\ tok_of slots t <> KEof.
Proof.
  intros slots [d|g|g|x|c|] H; cbn [tok_of]; (split; [|discriminate || (destruct H)]); cbn [Tame tame_token] in *; auto.
  - destruct H as [H1 H2]. split; [|split].
    + split; [right; split; [exact H1|reflexivity]|]. cbn. now rewrite tstring_of.
    + apply not_among in H2. exact H2.
    + intro E. apply (f_equal tstring) in E. cbn [g_id g_atom emitted] in *. rewrite tstring_of in E. rewrite E. vm_compute. reflexivity.
  - apply not_among in H. exact H.
Qed.
Lemma feed_ok : forall listed fuel s t, Inv s -> s_foster s = false -> (34 <= fuel)%nat -> (t = TEof \/ tame_token t) ->
  okay (fun s' => if match t with TEof => true | _ => false end then Done s' else Inv s' /\ s_foster s' = false) (feed listed fuel s t).
Proof.
  intros listed fuel s t V F L T. unfold feed.
  assert (T' : Tame (tok_of (s_slots s) t)) by (destruct T as [->|T]; [exact I|apply (tame_tok _ _ T)]).
  assert (V1 : Inv (set_wanted None s)) by (apply (alike_inv s); try reflexivity; [constructor; reflexivity|exact V]).
  assert (P : okay (Post (set_wanted None s) (tok_of (s_slots s) t)) (process listed fuel (set_wanted None s) (tok_of (s_slots s) t))).
  { apply process_ok; auto.
    - intro Q. cbn in Q. congruence.
    - pose proof (rank_bound (s_mode (set_wanted None s)) (tok_of (s_slots s) t)). lia. }
  eapply okay_weak; [exact P|]. intros s' Q.
  assert (G : Post' (set_wanted None s) s' -> Inv s' /\ s_foster s' = false).
  { intros [Q1 Q2]. split; [exact Q1|]. destruct (s_foster s') eqn:E; [|reflexivity]. specialize (Q2 eq_refl). cbn in Q2. congruence. }
  destruct t; cbn in Q; auto.
Qed.
Lemma construct_ok : forall listed fuel l s, (34 <= fuel)%nat -> Inv s -> s_foster s = false -> Forall tame_token l ->
  exists s', construct listed fuel s l = Val s' /\ Inv s' /\ s_foster s' = false.
Proof.
  intros listed fuel l. induction l as [|t l IH]; intros s L V F T; [exists s; auto|]. inversion T as [|? ? T1 T2]; subst.
  pose proof (feed_ok listed fuel s t V F L (or_intror T1)) as Q. cbn [construct]. destruct (feed listed fuel s t) as [s1| |]; try contradiction.
  cbn [okay] in Q. destruct t; cbn in T1; try contradiction; destruct Q as [Q1 Q2]; now apply IH.
Qed.
Lemma construct_app : forall listed fuel a b s, construct listed fuel s (a ++ b) = run s1 <- construct listed fuel s a; construct listed fuel s1 b.
Proof.
  intros listed fuel a b. induction a as [|t a IH]; intro s; [reflexivity|]. cbn [app construct]. destruct (feed listed fuel s t); [apply IH|reflexivity|reflexivity].
Qed.
Theorem tokens_sound : forall listed fuel l, (34 <= fuel)%nat -> Forall tame_token l ->
  exists s, construct listed fuel (st_init false) (l ++ [TEof]) = Val s /\ Sound (document s).
Proof.
  intros listed fuel l L T. destruct (construct_ok listed fuel l (st_init false) L init_inv eq_refl T) as (s & E & V & F).
  rewrite construct_app, E. cbv beta iota. cbn [construct]. pose proof (feed_ok listed fuel s TEof V F L (or_introl eq_refl)) as Q.
  destruct (feed listed fuel s TEof) as [s1| |]; try contradiction. exists s1. split; [reflexivity|]. now apply done_sound.
Qed.
Lemma switch_text : forall listed fuel b, text_switch (switch_of listed fuel b).
Proof.
  intros listed fuel b l s H. unfold switch_of in H. destruct (construct listed fuel (st_init b) l) as [x| |]; try discriminate H.
  destruct (s_wanted x) as [[]|]; cbn in H; inversion H; auto.
Qed.

(** *** Reading texts *)

(** none of the tags that [tame_token] forbids is spelled in the text *)
Definition tame_text (text : list Z) : Prop :=
  (forall x, In x ["template"; "svg"; "math"; "frameset"; "button"; "a"; "nobr"]%string -> ~ spelled text (lit "<") (lit x)) /\
  (forall x, In x ["a"; "b"; "big"; "code"; "em"; "font"; "i"; "nobr"; "s"; "small"; "strike"; "strong"; "tt"; "u"]%string -> ~ spelled text (lit "</") (lit x)).
Lemma tame_tokens : forall text l, tame_text text -> ~ In TEof l -> Forall token_ok l -> Forall (token_spelled text) l -> Forall tame_token l.
Proof.
  intros text l [A B] N T S1. rewrite Forall_forall in *. intros k K. specialize (T k K). specialize (S1 k K). destruct k as [d|g|g|x|c|]; cbn [tame_token]; auto.
  - split; [destruct T as [(c & r & -> & _) _]; discriminate|]. intro H. unfold strings in H. apply in_map_iff in H. destruct H as (x & X & H).
    apply (A x H). now rewrite X.
  - intro H. unfold strings in H. apply in_map_iff in H. destruct H as (x & X & H). apply (B x H). now rewrite X.
Qed.
Theorem text_sound : forall listed text steps fuel, whole_references (newlines text) -> (forall p s, newlines text <> p ++ lit "&#" ++ s) -> last text 0 <> 0xD ->
  tame_text (newlines text) -> (24 * List.length text + 13 <= steps)%nat -> (34 <= fuel)%nat ->
  exists d, parse listed match_ncr steps fuel text = Val d /\ Sound d.
Proof.
  intros listed text steps fuel H N L T F G.
  destruct (tokenize_spelled (switch_of listed fuel false) (cdata_of listed fuel false) text steps (switch_text _ _ _) (in_table_whole _ H) N L F) as (l & E & Ne & K1 & K2).
  destruct (tokens_sound listed fuel l G (tame_tokens _ l T Ne K1 K2)) as (s & E1 & S1).
  exists (document s). split; [|exact S1]. unfold parse, parse_text. rewrite E. cbv beta iota. rewrite E1. reflexivity.
Qed.
