(** The adoption agency algorithm when there is no furthest block, and the choice between HTML and foreign content. *)
From Coq Require Import ZArith List Bool String Lia.
From Verif Require Import M_infra M_encoding M_labels M_html M_html_serialize M_dom_names M_dom M_dom2 L_dom L_dom2 L_dom30 L_dom31 L_dom35 L_dom36.
Import ListNotations.
Open Scope Z_scope.
Open Scope dom_scope.
Open Scope list_scope.

(** *** The adoption agency, 13.2.6.4.7 *)

(** the entries behind the last marker, the newest first *)
Definition since (l : list formatting) : list formatting := lead (fun f => match f with Some _ => true | None => false end) l.
Definition node_is (i : nat) (f : formatting) : bool := match f with Some e => (en_node e =? i)%nat | None => false end.
(** the last entry of this name behind the last marker *)
Definition formatting_element (t : tname) (s : st) : option nat :=
  match find (fun f => match f with Some e => teqb (name_of (s_dom s) (en_node e)) t | None => false end) (since (s_active s)) with
  | Some (Some e) => Some (en_node e)
  | _ => None
  end.
(** the elements of the stack that are newer than this one *)
Definition newer (i : nat) (s : st) : list entry := lead (fun e => negb (en_node e =? i)%nat) (s_stack s).
(** what the algorithm does if no special element is newer than the formatting element; [true]: go on as any other end tag *)
Definition agency_simple (t : tname) (s : st) : outcome (st * bool) :=
  if holds (Current [t]) s && match s_stack s with e :: _ => negb (existsb (node_is (en_node e)) (s_active s)) | [] => false end
  then Val (set_stack (tl (s_stack s)) s, false)
  else match formatting_element t s with
  | None => Val (s, true)
  | Some i =>
      let forgotten := set_active (filter (fun f => negb (node_is i f)) (s_active s)) s in
      if negb (existsb (fun e => (en_node e =? i)%nat) (s_stack s)) then Val (forgotten, false)
      else if negb (scoped In_default (fun e => (en_node e =? i)%nat) s) then Val (s, false)
      else Val (popped_through (fun e => (en_node e =? i)%nat) forgotten, false)
  end.

Lemma named_back_find : forall d t l, named_back d t l =
  match find (fun f => match f with Some e => teqb (name_of d (en_node e)) t | None => false end) (since l) with Some (Some e) => Some (en_node e) | _ => None end.
Proof. intros d t l. induction l as [|[e|] l IH]; try reflexivity. cbn. destruct (teqb _ t); [reflexivity|exact IH]. Qed.
Lemma remove_first_filter : forall {A} (f : A -> bool) l, (List.length (filter f l) <= 1)%nat ->
  match remove_first f l with Some r => r = filter (fun x => negb (f x)) l | None => filter (fun x => negb (f x)) l = l end.
Proof.
  intros A f l. induction l as [|x l IH]; intro H; [reflexivity|]. cbn [remove_first filter] in *. destruct (f x) eqn:E; cbn [negb].
  - cbn [List.length] in H. assert (Z : filter f l = []) by (destruct (filter f l); [reflexivity|cbn in H; lia]).
    clear IH H. induction l as [|y l IH]; [reflexivity|]. cbn in *. destruct (f y); [discriminate|]. cbn [negb]. now rewrite <- IH.
  - specialize (IH H). destruct (remove_first f l); now rewrite IH.
Qed.
Lemma filter_rev : forall {A} (f : A -> bool) l, filter f (rev l) = rev (filter f l).
Proof. intros A f l. induction l as [|x l IH]; [reflexivity|]. cbn. rewrite filter_app, IH. cbn. destruct (f x); cbn; [reflexivity|now rewrite app_nil_r]. Qed.
Lemma remove_list_filter : forall i s, (List.length (filter (node_is i) (s_active s)) <= 1)%nat ->
  remove_list i s = set_active (filter (fun f => negb (node_is i f)) (s_active s)) s.
Proof.
  intros i s H. unfold remove_list, remove_front.
  assert (X : (List.length (filter (is_entry i) (rev (s_active s))) <= 1)%nat) by (rewrite filter_rev, rev_length; exact H).
  apply (remove_first_filter (is_entry i)) in X. destruct (remove_first (is_entry i) (rev (s_active s))) as [r|].
  - subst r. rewrite filter_rev, rev_involutive. reflexivity.
  - rewrite filter_rev in X. apply (f_equal (@rev formatting)) in X. rewrite !rev_involutive in X.
    change (fun x => negb (is_entry i x)) with (fun f => negb (node_is i f)) in X. rewrite X. destruct s; reflexivity.
Qed.
Lemma after_node_newer : forall i l, NoDup (map en_node l) -> In i (map en_node l) -> after_node i (rev l) = rev (lead (fun e => negb (en_node e =? i)%nat) l).
Proof.
  intros i l. assert (G : forall a b, ~ In i (map en_node a) -> forall e, en_node e = i -> after_node i (a ++ e :: b) = b).
  { clear. induction a as [|x a IH]; intros b N e E; cbn.
    - apply PeanoNat.Nat.eqb_eq in E. now rewrite E.
    - destruct (en_node x =? i)%nat eqn:X; [apply PeanoNat.Nat.eqb_eq in X; exfalso; apply N; now left|]. apply IH; [|exact E]. intro C. apply N. now right. }
  intros N I. apply in_map_iff in I. destruct I as (e & E & I). apply in_split in I. destruct I as (a & b & ->).
  assert (A : lead (fun e => negb (en_node e =? i)%nat) (a ++ e :: b) = a).
  { rewrite map_app in N. cbn [map] in N. apply NoDup_remove_2 in N. clear G.
    assert (Z : ~ In i (map en_node a)) by (intro C; apply N; subst i; apply in_or_app; now left). clear N.
    induction a as [|x a IH]; cbn.
    - apply PeanoNat.Nat.eqb_eq in E. now rewrite E.
    - destruct (en_node x =? i)%nat eqn:X; [apply PeanoNat.Nat.eqb_eq in X; exfalso; apply Z; now left|]. cbn [negb]. f_equal. apply IH. intro C. apply Z. now right. }
  rewrite A, rev_app_distr. cbn [rev]. rewrite <- app_assoc. cbn [app]. apply G; [|exact E].
  rewrite map_app in N. cbn [map] in N. apply NoDup_remove_2 in N. intro C. apply N. subst i. apply in_or_app. right. rewrite map_rev in C. now apply in_rev.
Qed.
Lemma agency_std : forall t s r, plain_stack s -> NoDup (map en_node (s_stack s)) ->
  (forall i, (List.length (filter (node_is i) (s_active s)) <= 1)%nat) ->
  (forall i, formatting_element t s = Some i -> forall e, In e (newer i s) -> special s e = false) ->
  agency t s = Val r -> agency_simple t s = Val r.
Proof.
  intros t s r P U V F H. unfold agency, agency_simple, cur in *. cbn [holds]. destruct (s_stack s) as [|e l] eqn:S; [discriminate|].
  rewrite one_of_one. change (in_list (en_node e) s) with (existsb (node_is (en_node e)) (s_active s)) in H.
  destruct (is_html t (s_dom s) (en_node e) && negb (existsb (node_is (en_node e)) (s_active s))) eqn:C.
  - unfold pop in H. rewrite S in H. exact H.
  - change (outer 8 t s) with (match named_back (s_dom s) t (s_active s) with None => Val (s, true) | Some _ => outer 8 t s end) in H || idtac.
    cbn [outer] in H. rewrite named_back_find in H. fold (formatting_element t s) in H. destruct (formatting_element t s) as [i|] eqn:FE; [|exact H].
    cbv zeta. rewrite <- (remove_list_filter i s (V i)). unfold on_stack in H. rewrite S in H.
    destruct (existsb (fun e0 => (en_node e0 =? i)%nat) (e :: l)) eqn:O; cbn [negb] in *; [|exact H].
    destruct (in_scope_node default_scope i s) as [b| |] eqn:B; try discriminate H.
    rewrite (scoped_eq In_default (fun e => (en_node e =? i)%nat) (fun n => (n =? i)%nat) s b P (fun e => eq_refl) B).
    destruct b; cbn [negb] in *; [|exact H].
    assert (N : furthest (s_dom s) i (e :: l) = None).
    { unfold furthest. rewrite after_node_newer; [| |].
      - specialize (F i eq_refl). unfold newer in F. rewrite S in F.
        destruct (find _ (rev (lead (fun e0 => negb (en_node e0 =? i)%nat) (e :: l)))) as [x|] eqn:X; [|reflexivity]. exfalso.
        apply find_some in X. destruct X as [X1 X2]. apply in_rev in X1. specialize (F x X1). rewrite special_eq in F. congruence.
      - exact U.
      - apply existsb_exists in O. destruct O as (x & X1 & X2). apply PeanoNat.Nat.eqb_eq in X2. rewrite <- X2. now apply in_map. }
    rewrite N in H. injection H as <-. rewrite pop_until_node_eq. unfold remove_list, popped_through. cbn [s_active s_stack set_stack].
    destruct (remove_front (is_entry i) (s_active s)); reflexivity.
Qed.

(** *** The dispatcher, 13.2.6 *)

Definition at_mathml_text (d : list cell) (e : entry) : bool :=
  (ns_of d (en_node e) =? ns_MathML) && existsb (teqb (name_of d (en_node e))) [T_mi; T_mo; T_mn; T_ms; T_mtext].
Definition encoding (g : stag) : option (list Z) :=
  match find (fun a => negb (ta_omitted a) && same_str (lit "encoding") (ta_name a)) (g_attrs g) with Some a => Some (map cp_lower (ta_value a)) | None => None end.
Definition at_html (d : list cell) (e : entry) : bool :=
  ((ns_of d (en_node e) =? ns_MathML) && teqb (name_of d (en_node e)) T_annotation_xml &&
   match encoding (en_tag e) with Some v => existsb (same_str v) [lit "text/html"; lit "application/xhtml+xml"] | None => false end)
  || ((ns_of d (en_node e) =? ns_SVG) && existsb (teqb (name_of d (en_node e))) [T_foreignObject; T_desc; T_title]).
(** the conditions under which a token is processed by the rules of the insertion mode *)
Definition by_mode (s : st) (k : ktok) : bool :=
  match s_stack s, k with
  | [], _ => true
  | _, KEof => true
  | e :: _, _ =>
      (ns_of (s_dom s) (en_node e) =? ns_HTML)
      || match k with
         | KStart g =>
             (at_mathml_text (s_dom s) e && negb (existsb (teqb (g_id g)) [T_mglyph; T_malignmark]))
             || ((ns_of (s_dom s) (en_node e) =? ns_MathML) && teqb (name_of (s_dom s) (en_node e)) T_annotation_xml && teqb (g_id g) T_svg)
             || at_html (s_dom s) e
         | KChar _ => at_mathml_text (s_dom s) e || at_html (s_dom s) e
         | _ => false
         end
  end.
(** the element annotation-xml of SVG is taken for that of MathML *)
Definition odd_annotation (s : st) : Prop :=
  exists e r, s_stack s = e :: r /\ ns_of (s_dom s) (en_node e) <> ns_MathML /\ ns_of (s_dom s) (en_node e) <> ns_HTML /\ name_of (s_dom s) (en_node e) = T_annotation_xml.
Lemma html_point_eq : forall d e, html_point d e = at_html d e.
Proof.
  intros d e. unfold html_point, at_html, encoding, find_attr, among. destruct (ns_of d (en_node e) =? ns_MathML) eqn:M; cbn [andb].
  - apply Z.eqb_eq in M. rewrite M. change (ns_MathML =? ns_SVG) with false. cbn [andb]. rewrite orb_false_r.
    destruct (teqb (name_of d (en_node e)) T_annotation_xml); [|reflexivity]. cbn [andb]. destruct (find _ _); [|reflexivity].
    cbn [existsb]. now rewrite orb_false_r.
  - reflexivity.
Qed.
Lemma dispatch_std : forall listed emit s k s', s_fragment s = false -> ~ odd_annotation s -> dispatch listed emit s k = Val s' ->
  let s0 := set_omit_lf false s in
  (s_omit_lf s = true /\ k = KChar 0xA /\ s' = s0) \/
  (~ (s_omit_lf s = true /\ k = KChar 0xA) /\ by_mode s k = true /\ in_mode listed emit s0 k = Val s') \/
  (~ (s_omit_lf s = true /\ k = KChar 0xA) /\ by_mode s k = false /\ on_foreign listed emit s0 k = Val s').
Proof.
  intros listed emit s k s' F O H s0.
  assert (A : forall e r g, s_stack s = e :: r -> (ns_of (s_dom s) (en_node e) =? ns_HTML) = false ->
     teqb (name_of (s_dom s) (en_node e)) T_annotation_xml && teqb (g_id g) T_svg =
     (ns_of (s_dom s) (en_node e) =? ns_MathML) && teqb (name_of (s_dom s) (en_node e)) T_annotation_xml && teqb (g_id g) T_svg).
  { intros e r g S N. destruct (teqb (name_of (s_dom s) (en_node e)) T_annotation_xml) eqn:E.
    - destruct (ns_of (s_dom s) (en_node e) =? ns_MathML) eqn:M; [reflexivity|]. exfalso. apply O. exists e, r. split; [exact S|].
      apply Z.eqb_neq in M, N. split; [exact M|]. split; [exact N|].
      unfold teqb in E. destruct (name_of (s_dom s) (en_node e)); try discriminate E; reflexivity.
    - now rewrite andb_false_r. }
  unfold dispatch in H. unfold by_mode, adjusted in *. change (s_stack (set_omit_lf false s)) with (s_stack s) in H. change (s_dom (set_omit_lf false s)) with (s_dom s) in H.
  change (s_fragment (set_omit_lf false s)) with (s_fragment s) in H. rewrite F in H. fold s0 in H.
  destruct k as [d|g|t|d|c|].
  all: try (destruct (s_stack s) as [|e r]; [right; left; split; [intros [_ X]; discriminate X|auto]|]; cbn [andb] in H;
    rewrite ?orb_false_r, ?orb_true_r in H |- *; rewrite ?html_point_eq in H).
  5: { destruct (s_omit_lf s) eqn:L; cbn [andb] in H.
       - destruct (c =? 10) eqn:C; [left; apply Z.eqb_eq in C; subst c; injection H as <-; auto|]. right.
         assert (N : ~ (true = true /\ KChar c = KChar 10)) by (intros [_ X]; injection X as ->; discriminate C).
         destruct (s_stack s) as [|e r]; [left; auto|]. cbn [andb] in H. rewrite html_point_eq in H. unfold at_mathml_text.
         change (mathml_text_point (s_dom s) (en_node e)) with (at_mathml_text (s_dom s) e) in H. fold (at_mathml_text (s_dom s) e). rewrite <- orb_assoc in H.
         destruct (_ || _); [left|right]; auto.
       - right. assert (N : ~ (false = true /\ KChar c = KChar 10)) by (intros [X _]; discriminate X).
         destruct (s_stack s) as [|e r]; [left; auto|]. cbn [andb] in H. rewrite html_point_eq in H.
         change (mathml_text_point (s_dom s) (en_node e)) with (at_mathml_text (s_dom s) e) in H. rewrite <- orb_assoc in H.
         destruct (_ || _); [left|right]; auto. }
  all: right.
  2: { assert (A1 := A e r g eq_refl). change (mathml_text_point (s_dom s) (en_node e)) with (at_mathml_text (s_dom s) e) in H. unfold among in H.
       assert (N : ~ (s_omit_lf s = true /\ KStart g = KChar 10)) by (intros [_ X]; discriminate X).
       destruct (ns_of (s_dom s) (en_node e) =? ns_HTML); [left; auto|]. rewrite (A1 eq_refl) in H. cbn [orb] in H |- *.
       destruct (_ || _); [left|right]; auto. }
  1-3: match goal with |- (~ (_ /\ ?k = _) /\ _) \/ _ => assert (N : ~ (s_omit_lf s = true /\ k = KChar 10)) by (intros [_ X]; discriminate X) end;
       destruct (ns_of (s_dom s) (en_node e) =? ns_HTML); [left|right]; auto.
  left. rewrite orb_true_r in H. split; [intros [_ X]; discriminate X|auto].
Qed.

(** *** End tags in foreign content, 13.2.6.5 *)

Definition named_like (t : tname) (s : st) (e : entry) : bool := same_str (map cp_lower (tstring (name_of (s_dom s) (en_node e)))) (tstring t).
(** the elements [a] have other names and are foreign but for the newest; the walk ends at [e] *)
Definition Walked (t : tname) (s : st) (a : list entry) (e : entry) (r : list entry) : Prop :=
  s_stack s = a ++ e :: r /\ Forall (fun x => named_like t s x = false) a /\
  Forall (fun x => ns_of (s_dom s) (en_node x) <> ns_HTML) (tl (a ++ [e])).
Lemma drop_to_node : forall a e r, ~ In (en_node e) (map en_node a) -> drop_to (fun j => (j =? en_node e)%nat) (a ++ e :: r) = r.
Proof.
  induction a as [|x a IH]; intros e r N; cbn.
  - now rewrite PeanoNat.Nat.eqb_refl.
  - destruct (en_node x =? en_node e)%nat eqn:E; [apply PeanoNat.Nat.eqb_eq in E; exfalso; apply N; now left|]. apply IH. intro C. apply N. now right.
Qed.
Lemma foreign_end_std : forall t s s' again b, front s = Val b -> NoDup (map en_node (s_stack s)) -> foreign_end t b (s_stack s) s = Val (s', again) ->
  exists a e r, Walked t s a e r /\
    ((r = [] /\ s' = s /\ again = false) \/
     (r <> [] /\ named_like t s e = true /\ s' = set_stack r s /\ again = false) \/
     (r <> [] /\ named_like t s e = false /\ (exists f q, r = f :: q /\ ns_of (s_dom s) (en_node f) = ns_HTML) /\ s' = s /\ again = true)).
Proof.
  intros t s s' again b F U H.
  assert (L : forall l pre, s_stack s = pre ++ l -> Forall (fun x => named_like t s x = false) pre ->
    match pre with [] => True | _ => Forall (fun x => ns_of (s_dom s) (en_node x) <> ns_HTML) (tl (pre ++ match l with e :: _ => [e] | [] => [] end)) end ->
    foreign_end t b l s = Val (s', again) ->
    exists a e r, Walked t s a e r /\
    ((r = [] /\ s' = s /\ again = false) \/
     (r <> [] /\ named_like t s e = true /\ s' = set_stack r s /\ again = false) \/
     (r <> [] /\ named_like t s e = false /\ (exists f q, r = f :: q /\ ns_of (s_dom s) (en_node f) = ns_HTML) /\ s' = s /\ again = true))).
  { induction l as [|e l IH]; intros pre S P Q K; [discriminate|]. cbn [foreign_end] in K.
    assert (W : Walked t s pre e l). { split; [exact S|]. split; [exact P|]. destruct pre; [constructor|exact Q]. }
    apply front_last in F. destruct F as (q & z & Z & ZB).
    assert (N : (en_node e =? b)%nat = true <-> l = []).
    { rewrite PeanoNat.Nat.eqb_eq. split.
      - intro E. destruct l as [|f l]; [reflexivity|]. exfalso.
        destruct (@exists_last _ (f :: l)) as (m & y & M); [discriminate|]. rewrite M in S. rewrite S in Z.
        change (pre ++ e :: m ++ [y]) with (pre ++ (e :: m) ++ [y]) in Z. rewrite app_assoc in Z. apply app_inj_tail in Z. destruct Z as [_ ->].
        rewrite S in U. rewrite map_app in U. cbn [map] in U. apply NoDup_remove_2 in U. apply U. apply in_or_app. right. rewrite map_app. apply in_or_app. right. left. congruence.
      - intros ->. rewrite S in Z. apply app_inj_tail in Z. destruct Z as [_ ->]. exact ZB. }
    destruct (en_node e =? b)%nat eqn:E.
    - injection K as <- <-. exists pre, e, l. split; [exact W|]. left. split; [now apply N|auto].
    - assert (R : l <> []) by (intro X; apply N in X; discriminate X).
      change (same_str (map cp_lower (tstring (name_of (s_dom s) (en_node e)))) (tstring t)) with (named_like t s e) in K. destruct (named_like t s e) eqn:M.
      + injection K as <- <-. exists pre, e, l. split; [exact W|]. right. left. split; [exact R|]. split; [exact M|]. split; [|reflexivity].
        unfold pop_until_node. rewrite S. rewrite drop_to_node; [reflexivity|]. rewrite S, map_app in U. cbn [map] in U. apply NoDup_remove_2 in U. intro X. apply U. apply in_or_app. now left.
      + destruct l as [|f l]; [congruence|]. destruct (ns_of (s_dom s) (en_node f) =? ns_HTML) eqn:G; cbn [negb] in K.
        * injection K as <- <-. exists pre, e, (f :: l). split; [exact W|]. right. right. split; [exact R|]. split; [exact M|]. split; [|auto].
          exists f, l. split; [reflexivity|]. now apply Z.eqb_eq.
        * apply (IH (pre ++ [e])); auto.
          -- rewrite S, <- app_assoc. reflexivity.
          -- apply Forall_app. split; [exact P|]. constructor; [exact M|constructor].
          -- apply Z.eqb_neq in G. destruct pre as [|x pre]; cbn; [constructor; [exact G|constructor]|]. cbn in Q.
             apply Forall_app. split; [exact Q|]. constructor; [exact G|constructor]. }
  apply (L (s_stack s) []); auto.
Qed.
