(** What holds of properties C99, C100, C101 and C105, which are refuted in P_dom.v, and how far the refutations reach: for every
    state and not only for one document. *)
From Coq Require Import ZArith List Bool String Lia.
From Verif Require Import M_infra M_encoding M_labels M_html M_html_ncr M_html_serialize M_dom_names M_dom M_dom2 L_dom L_dom2 L_dom37 P_dom.
Import ListNotations.
Open Scope Z_scope.
Open Scope list_scope.

(** the entry is of an element of HTML with this name *)
Definition open_html (s : st) (e : entry) (t : tname) : Prop := exists l, c_info (cell_of (s_dom s) (en_node e)) = IElement ns_HTML t l.

Lemma open_is : forall s e t u, open_html s e t -> is_html u (s_dom s) (en_node e) = teqb t u.
Proof. intros s e t u [l H]. unfold is_html, is_el, ns_of, name_of. rewrite H. reflexivity. Qed.
Lemma open_name : forall s e t, open_html s e t -> name_of (s_dom s) (en_node e) = t /\ ns_of (s_dom s) (en_node e) = ns_HTML.
Proof. intros s e t [l H]. unfold ns_of, name_of. rewrite H. split; reflexivity. Qed.

(** *** C100 *)

(** The attributes of a further html start tag: those of the root stay as they are and in front, every attribute of the tag is
    there afterwards, none is added twice or beside one of its name, and nothing else of the state changes. *)
Theorem C100_html_partial : forall emit s g low e ns t l,
  s_stack s = low ++ [e] -> c_info (cell_of (s_dom s) (en_node e)) = IElement ns t l -> (en_node e < List.length (s_dom s))%nat ->
  (forall x, In x (s_stack s) -> is_html T_template (s_dom s) (en_node x) = false) -> g_id g = T_html ->
  exists added s', on_in_body emit s (KStart g) = Val s' /\ s' = set_dom (s_dom s') s /\
  c_info (cell_of (s_dom s') (en_node e)) = IElement ns t (l ++ added) /\
  (forall x, In x added -> ~ In (key x) (map key l) /\ exists a, In a (g_attrs g) /\ ta_omitted a = false /\ x = attr_of a) /\
  (forall a, In a (g_attrs g) -> ta_omitted a = false -> In (key (attr_of a)) (map key (l ++ added))) /\
  NoDup (map key added) /\
  List.length (s_dom s') = List.length (s_dom s) /\
  (forall i, kids_of (s_dom s') i = kids_of (s_dom s) i /\ parent_of (s_dom s') i = parent_of (s_dom s) i) /\
  (forall i, i <> en_node e -> cell_of (s_dom s') i = cell_of (s_dom s) i).
Proof.
  intros emit s g low e ns t l S I N T G. destruct (add_attrs_std g l) as (added & A & B & C & D).
  exists added, (merge_attrs g (en_node e) s). split.
  { unfold on_in_body, body_start. rewrite G. unfold body_html, contains.
    replace (existsb (fun x => is_html T_template (s_dom s) (en_node x)) (s_stack s)) with false.
    - unfold front. destruct low as [|a low]; cbn [app] in S; rewrite S; [reflexivity|]. now rewrite last_last.
    - symmetry. apply not_true_iff_false. intro X. apply existsb_exists in X. destruct X as (x & X1 & X2). now rewrite (T x X1) in X2. }
  split; [reflexivity|]. unfold merge_attrs. cbn [s_dom set_dom]. split.
  { rewrite cell_change, Nat.eqb_refl. replace (en_node e <? List.length (s_dom s))%nat with true by (symmetry; now apply Nat.ltb_lt).
    cbn [andb]. rewrite I. cbn [c_info set_info]. now rewrite A. }
  split; [exact B|]. split; [exact C|]. split; [exact D|]. split; [now rewrite change_length|]. split.
  - intro i. unfold kids_of, parent_of. rewrite cell_change. destruct ((en_node e =? i)%nat && (i <? List.length (s_dom s))%nat); [|split; reflexivity].
    destruct (c_info (cell_of (s_dom s) i)); split; reflexivity.
  - intros i X. rewrite cell_change. replace (en_node e =? i)%nat with false; [reflexivity|]. symmetry. apply Nat.eqb_neq. congruence.
Qed.
Print Assumptions C100_html_partial.

(** A further body start tag, wherever the second entry is the body, changes nothing at all, whatever its attributes. *)
Theorem C100_body_never : forall emit s g low b h, s_stack s = low ++ [b; h] -> open_html s b T_body -> g_id g = T_body ->
  on_in_body emit s (KStart g) = Val s.
Proof.
  intros emit s g low b h S B G. unfold on_in_body, body_start. rewrite G.
  replace (List.length (s_stack s) =? 1)%nat with false by (symmetry; rewrite S, app_length; cbn [List.length]; apply Nat.eqb_neq; lia).
  unfold second. rewrite S, rev_app_distr. cbn [rev app]. rewrite (open_is _ _ _ _ B). reflexivity.
Qed.
Print Assumptions C100_body_never.

(** *** C105 *)

Definition table_parts : list tname := [T_caption; T_table; T_tbody; T_tfoot; T_thead; T_tr; T_td; T_th].
Definition options (s : st) (l : list entry) : Prop := Forall (fun e => open_html s e T_option \/ open_html s e T_optgroup) l.

(** the mode for the innermost open part of the table *)
Definition part_mode (t : tname) : option mode :=
  match t with
  | T_td | T_th => Some M_in_cell | T_tr => Some M_in_row | T_tbody | T_tfoot | T_thead => Some M_in_table_body
  | T_caption => Some M_in_caption | T_table => Some M_in_table | _ => None
  end.

(** A start tag of a part of the table closes the select, with the options in it, and is handled by the mode of the part of the
    table around the select. *)
Theorem C105_start_partial : forall emit s g l e p q rest m, s_stack s = l ++ e :: p :: q :: rest -> options s l -> open_html s e T_select ->
  In (g_id g) table_parts -> (exists t, open_html s p t /\ part_mode t = Some m) ->
  on_in_select_in_table emit s (KStart g) = emit (set_mode m (set_stack (p :: q :: rest) s)) (KStart g).
Proof.
  intros emit s g l e p q rest m S O E G (t & P & M).
  assert (D : pop_until T_select s = set_stack (p :: q :: rest) s).
  { unfold pop_until. rewrite S. f_equal. clear S. induction O as [|x l X O IH]; cbn [drop_to app].
    - rewrite (open_is _ _ _ _ E). reflexivity.
    - destruct X as [X|X]; rewrite (open_is _ _ _ _ X); exact IH. }
  assert (R : reset_mode (set_stack (p :: q :: rest) s) = Val (set_mode m (set_stack (p :: q :: rest) s))).
  { unfold reset_mode. cbn [s_stack set_stack reset_from s_dom s_fragment andb negb]. rewrite !(open_is _ _ _ _ P).
    destruct t; try discriminate M; injection M as <-; reflexivity. }
  unfold on_in_select_in_table. rewrite D. rewrite R. unfold table_parts in G. cbn [In] in G.
  destruct G as [<-|[<-|[<-|[<-|[<-|[<-|[<-|[<-|[]]]]]]]]]; reflexivity.
Qed.
Print Assumptions C105_start_partial.

(** An end tag of a part of the table is ignored wherever a select is open, whatever is around it. *)
Theorem C105_end_ignored : forall emit s l e rest t, s_stack s = l ++ e :: rest -> options s l -> open_html s e T_select -> In t table_parts ->
  on_in_select_in_table emit s (KEnd t) = Val s.
Proof.
  intros emit s l e rest t S O E T.
  assert (I : in_scope select_scope t s = Val false).
  { unfold in_scope. rewrite S. clear S. induction O as [|x l X O IH]; cbn [scope_from app].
    - unfold select_scope. rewrite !(open_is _ _ _ _ E). unfold table_parts in T. cbn [In] in T.
      destruct T as [<-|[<-|[<-|[<-|[<-|[<-|[<-|[<-|[]]]]]]]]]; reflexivity.
    - unfold select_scope at 1. destruct X as [X|X]; rewrite !(open_is _ _ _ _ X); rewrite IH; unfold table_parts in T; cbn [In] in T;
        destruct T as [<-|[<-|[<-|[<-|[<-|[<-|[<-|[<-|[]]]]]]]]]; reflexivity. }
  unfold on_in_select_in_table. rewrite I. unfold table_parts in T. cbn [In] in T.
  destruct T as [<-|[<-|[<-|[<-|[<-|[<-|[<-|[<-|[]]]]]]]]]; reflexivity.
Qed.
Print Assumptions C105_end_ignored.

(** *** C99 *)

(** An li that is the current node is closed by the start tag of the next; what then follows is done on the rest of the stack. *)
Theorem C99_current_partial : forall emit s g e rest, s_stack s = e :: rest -> open_html s e T_li -> g_id g = T_li ->
  on_in_body emit s (KStart g) = other_start g (set_stack rest (set_frameset_ok false s)).
Proof.
  intros emit s g e rest S E G. unfold on_in_body, body_start. rewrite G. cbn [s_stack set_frameset_ok s_dom]. rewrite S.
  rewrite (open_is _ _ _ _ E). cbn [teqb]. destruct (open_name _ _ _ E) as [N _].
  unfold pop_until, implied_except. cbn [s_stack set_frameset_ok s_dom set_stack]. rewrite S. cbn [drop_implied]. rewrite N.
  change (teqb T_li T_li) with true. cbn [drop_to]. rewrite (open_is _ _ _ _ E). reflexivity.
Qed.
Print Assumptions C99_current_partial.

(** With a p, address or div as the current node nothing is closed, whatever li is open below it. *)
Theorem C99_below_never : forall emit s g e rest t, s_stack s = e :: rest -> open_html s e t -> In t [T_p; T_address; T_div] -> g_id g = T_li ->
  on_in_body emit s (KStart g) = other_start g (set_frameset_ok false s).
Proof.
  intros emit s g e rest t S E T G. unfold on_in_body, body_start. rewrite G. cbn [s_stack set_frameset_ok s_dom]. rewrite S.
  destruct (open_name _ _ _ E) as [N1 N2]. unfold is_special, is_html_in. rewrite !(open_is _ _ _ _ E), N1, N2.
  cbn [In] in T. destruct T as [<-|[<-|[<-|[]]]]; reflexivity.
Qed.
Print Assumptions C99_below_never.

(** With any other element as the current node no li is closed either: without an open p in button scope the new li becomes a
    child of the current node, the stack being as it was. *)
Theorem C99_other_never : forall emit s g e rest t s', s_stack s = e :: rest -> open_html s e t -> ~ In t [T_li; T_p; T_address; T_div] -> g_id g = T_li ->
  in_scope button_scope T_p s = Val false -> on_in_body emit s (KStart g) = Val s' -> exists n, s_stack s' = n :: e :: rest.
Proof.
  intros emit s g e rest t s' S E T G B H. unfold on_in_body, body_start in H. rewrite G in H. cbn [s_stack set_frameset_ok s_dom] in H. rewrite S in H.
  destruct (open_name _ _ _ E) as [N1 N2]. rewrite (open_is _ _ _ _ E) in H.
  assert (X : forall u, In u [T_li; T_p; T_address; T_div] -> teqb t u = false).
  { intros u U. apply not_true_iff_false. intro Q. apply teqb_eq in Q. subst. contradiction. }
  rewrite (X T_li) in H by (cbn; tauto).
  replace (is_html_in [T_address; T_div; T_p] (s_dom s) (en_node e)) with false in H.
  2:{ symmetry. unfold is_html_in, among. rewrite N1, N2. cbn [existsb]. rewrite !X by (cbn; tauto). reflexivity. }
  rewrite andb_false_r in H. unfold p_closed in H.
  change (in_scope button_scope T_p (set_frameset_ok false s)) with (in_scope button_scope T_p s) in H. rewrite B in H.
  unfold insert_el', insert_el, insert_foreign, cur in H. cbn [s_stack set_frameset_ok s_dom] in H. rewrite S in H.
  destruct (place_for (en_node e) (set_frameset_ok false s)) as [p| |]; try discriminate H.
  destruct (element_for g ns_HTML) as [x| |]; try discriminate H.
  destruct (insert (s_dom s) p x) as [[d i]| |]; try discriminate H.
  injection H as <-. eexists. cbn [s_stack set_stack set_dom set_frameset_ok]. try rewrite S. reflexivity.
Qed.
Print Assumptions C99_other_never.

(** *** C101 *)

(** The start tag of a cell in a row is inserted below the innermost tr, table or html; a template in between does not stop it,
    so that the cell leaves every template that holds no tr or table. *)
Theorem C101_cell : forall emit s g l e rest t, s_stack s = l ++ e :: rest ->
  (forall x, In x l -> exists u, open_html s x u /\ ~ In u [T_tr; T_table; T_html]) -> open_html s e t -> In t [T_tr; T_table; T_html] ->
  In (g_id g) [T_td; T_th] ->
  on_in_row emit s (KStart g) = match insert_el g (set_stack (e :: rest) s) with
    | Val (s2, _) => Val (push_marker (set_mode M_in_cell s2)) | Bad => Bad | NoFuel => NoFuel end.
Proof.
  intros emit s g l e rest t S L E T G.
  assert (R : to_row_context s = Val (set_stack (e :: rest) s)).
  { unfold to_row_context. rewrite S. clear S. induction l as [|x l IH]; cbn [app pop_to].
    - destruct (open_name _ _ _ E) as [N1 N2]. unfold is_html_in. rewrite N1, N2.
      cbn [In] in T. destruct T as [<-|[<-|[<-|[]]]]; reflexivity.
    - destruct (L x (or_introl eq_refl)) as (u & U & V). destruct (open_name _ _ _ U) as [N1 N2]. unfold is_html_in at 1. rewrite N1, N2.
      replace (among u [T_tr; T_table; T_html]) with false.
      + apply IH. intros y Y. apply L. now right.
      + symmetry. apply not_true_iff_false. intro A. apply V. unfold among in A. apply existsb_exists in A. destruct A as (v & V1 & V2).
        apply teqb_eq in V2. now subst. }
  unfold on_in_row. rewrite R. unfold insert_el'. cbn [In] in G. destruct G as [G|[G|[]]]; rewrite <- G; destruct (insert_el g (set_stack (e :: rest) s)) as [[s2 n]| |]; reflexivity.
Qed.
Print Assumptions C101_cell.

(** A start tag that is neither of a part of a table nor one of those of the head is handled in a template as in the body, with
    the template still the current node. *)
Theorem C101_other_partial : forall emit s g m r, s_templates s = m :: r ->
  ~ In (g_id g) (T_col :: T_colgroup :: table_parts) \/ g_id g = T_table ->
  ~ In (g_id g) [T_base; T_basefont; T_bgsound; T_link; T_meta; T_noframes; T_script; T_style; T_template; T_title] ->
  on_in_template emit s (KStart g) = emit (set_mode M_in_body (set_templates (M_in_body :: r) s)) (KStart g).
Proof.
  intros emit s g m r S N H. unfold on_in_template, pop_template. rewrite S. unfold table_parts in N.
  destruct (g_id g); try reflexivity; exfalso; try (apply H; cbn [In]; tauto); (destruct N as [N|N]; [apply N; cbn [In]; tauto|discriminate N]).
Qed.
Print Assumptions C101_other_partial.

(** *** States that meet the hypotheses *)

Definition opened (l : list string) : st :=
  match construct (fun _ => false) 60 (st_init false) (map (fun n => TStart (Tag (lit n) false [])) l) with Val s => s | _ => st_init false end.
Definition tag_with (t : tname) (n v : string) : stag := STag t true [] false [TAttr 0 [] (lit n) (lit v) false].

Example C100_html_ex : let s := opened ["p"; "b"]%string in
  exists low e, s_stack s = low ++ [e] /\ c_info (cell_of (s_dom s) (en_node e)) = IElement ns_HTML T_html [] /\
  (en_node e < List.length (s_dom s))%nat /\ (forall x, In x (s_stack s) -> is_html T_template (s_dom s) (en_node x) = false) /\
  g_id (tag_with T_html "a" "b") = T_html.
Proof.
  cbv zeta. exists (removelast (s_stack (opened ["p"; "b"]%string))), (last (s_stack (opened ["p"; "b"]%string)) (Entry empty_tag 0)).
  split; [vm_compute; reflexivity|]. split; [vm_compute; reflexivity|]. split; [vm_compute; lia|]. split; [|reflexivity].
  apply Forall_forall. vm_compute. repeat constructor.
Qed.
Example C100_body_ex : let s := opened ["p"; "b"]%string in
  exists low b h, s_stack s = low ++ [b; h] /\ open_html s b T_body /\ g_id (tag_with T_body "a" "b") = T_body.
Proof.
  cbv zeta. set (r := rev (s_stack (opened ["p"; "b"]%string))). exists (rev (skipn 2 r)), (nth 1 r (Entry empty_tag 0)), (nth 0 r (Entry empty_tag 0)).
  split; [vm_compute; reflexivity|]. split; [|reflexivity]. exists []. vm_compute. reflexivity.
Qed.
Definition selecting : st := opened ["table"; "td"; "select"; "optgroup"; "option"]%string.
Example C105_ex : s_mode selecting = M_in_select_in_table /\
  exists l e p q rest, s_stack selecting = l ++ e :: p :: q :: rest /\ List.length l = 2%nat /\ options selecting l /\ open_html selecting e T_select /\
  open_html selecting p T_td /\ part_mode T_td = Some M_in_cell /\ In T_tr table_parts.
Proof.
  split; [vm_compute; reflexivity|]. set (z := Entry empty_tag 0). set (r := s_stack selecting).
  exists (firstn 2 r), (nth 2 r z), (nth 3 r z), (nth 4 r z), (skipn 5 r).
  split; [vm_compute; reflexivity|]. split; [vm_compute; reflexivity|]. split.
  { assert (F : firstn 2 r = [nth 0 r z; nth 1 r z]) by (vm_compute; reflexivity). rewrite F. constructor; [left; exists []; vm_compute; reflexivity|].
    constructor; [right; exists []; vm_compute; reflexivity|constructor]. }
  split; [exists []; vm_compute; reflexivity|]. split; [exists []; vm_compute; reflexivity|]. split; [reflexivity|]. cbn. tauto.
Qed.
Example C99_current_ex : let s := opened ["ul"; "li"]%string in exists e rest, s_stack s = e :: rest /\ open_html s e T_li.
Proof.
  cbv zeta. set (r := s_stack (opened ["ul"; "li"]%string)). exists (nth 0 r (Entry empty_tag 0)), (tl r).
  split; [vm_compute; reflexivity|]. exists []. vm_compute. reflexivity.
Qed.
Example C99_below_ex : let s := opened ["ul"; "li"; "p"]%string in
  exists e f rest, s_stack s = e :: f :: rest /\ open_html s e T_p /\ open_html s f T_li.
Proof.
  cbv zeta. set (r := s_stack (opened ["ul"; "li"; "p"]%string)). exists (nth 0 r (Entry empty_tag 0)), (nth 1 r (Entry empty_tag 0)), (tl (tl r)).
  split; [vm_compute; reflexivity|]. split; exists []; vm_compute; reflexivity.
Qed.
Definition cell_template : st :=
  match opened ["template"; "div"]%string with s => set_mode M_in_row s end.
Example C101_cell_ex : exists l e rest, s_stack cell_template = l ++ e :: rest /\ (exists x, In x l /\ open_html cell_template x T_template) /\
  (forall x, In x l -> exists u, open_html cell_template x u /\ ~ In u [T_tr; T_table; T_html]) /\ open_html cell_template e T_html.
Proof.
  set (z := Entry empty_tag 0). set (r := s_stack cell_template).
  exists [nth 0 r z; nth 1 r z; nth 2 r z], (nth 3 r z), (skipn 4 r). split; [vm_compute; reflexivity|]. split; [|split].
  - exists (nth 1 r z). split; [cbn; tauto|]. exists []. vm_compute. reflexivity.
  - intros x [<-|[<-|[<-|[]]]]; [exists T_div|exists T_template|exists T_head]; (split; [exists []; vm_compute; reflexivity|]); cbn; intuition discriminate.
  - exists []. vm_compute. reflexivity.
Qed.
Example C101_other_ex : s_mode (opened ["template"]%string) = M_in_template /\ s_templates (opened ["template"]%string) = [M_in_template] /\
  ~ In T_div (T_col :: T_colgroup :: table_parts).
Proof. split; [vm_compute; reflexivity|]. split; [vm_compute; reflexivity|]. cbn. intuition discriminate. Qed.
Example C99_other_ex : let s := opened ["ul"; "li"; "b"]%string in
  exists e f rest, s_stack s = e :: f :: rest /\ open_html s e T_b /\ open_html s f T_li /\ in_scope button_scope T_p s = Val false /\
  exists s', on_in_body (fun s _ => Val s) s (KStart (made_tag T_li)) = Val s'.
Proof.
  cbv zeta. set (r := s_stack (opened ["ul"; "li"; "b"]%string)). exists (nth 0 r (Entry empty_tag 0)), (nth 1 r (Entry empty_tag 0)), (tl (tl r)).
  split; [vm_compute; reflexivity|]. split; [exists []; vm_compute; reflexivity|]. split; [exists []; vm_compute; reflexivity|].
  split; [vm_compute; reflexivity|]. eexists. vm_compute. reflexivity.
Qed.
