(** Properties C115-C118: what tree construction does for one token, held against the HTML standard. *)
From Coq Require Import ZArith List Bool String Lia.
From Verif Require Import M_infra M_encoding M_labels M_html M_html_ncr M_html_serialize M_dom_names M_dom M_dom2 L_dom L_dom2.
From Verif Require Import L_dom30 L_dom31 L_dom35 L_dom36 L_dom37 L_dom38 P_dom.
Import ListNotations.
Open Scope Z_scope.
Open Scope list_scope.

(** States for examples: the tokens one after the other. *)
Definition tag (n : string) : ktok := KStart (STag (tname_of (lit n)) true (lit n) false []).
Definition end_tag (n : string) : ktok := KEnd (tname_of (lit n)).
Definition none (l : list Z) : bool := false.
Fixpoint fed (s : st) (l : list ktok) : st :=
  match l with [] => s | k :: r => match process none 20 s k with Val s1 => fed s1 r | _ => st_init false end end.
Definition after (l : list ktok) : st := fed (st_init false) l.

(** C115: for every token, each insertion mode takes the steps that the standard prescribes (the tables of L_dom30.v), as long
    as only elements of HTML are open, and except where the library [departs]: the start tags body, frameset, li, button, a,
    nobr and svg in the states where the defects C94, C96, C99 and C100 show ([odd_start]), and corners of tables and of the
    end tags dd, dt and those of a select in a table. The reprocessing of tokens is process itself. *)
Theorem C115_modes_partial : forall listed f s k s', s_fragment s = false -> plain_stack s -> departs (s_mode s) (set_omit_lf false s) k = false ->
  process listed (S f) s k = Val s' ->
  if s_omit_lf s && match k with KChar c => c =? 0xA | _ => false end then s' = set_omit_lf false s
  else standard listed 4 (process listed f) (s_mode s) (set_omit_lf false s) k = Val s'.
Proof.
  intros listed f s k s' F P D H. cbn [process] in H.
  assert (B : by_mode s k = true).
  { unfold by_mode. unfold plain_stack in P. destruct (s_stack s) as [|e r]; [reflexivity|]. inversion P as [|? ? P1 P2]; subst. rewrite P1.
    destruct k; reflexivity. }
  assert (O : ~ odd_annotation s).
  { intros (e & r & S & M & N & _). unfold plain_stack in P. rewrite S in P. inversion P as [|? ? P1 P2]; subst. now apply N. }
  apply (dispatch_std listed (process listed f) s k s' F O) in H. cbv zeta in H.
  destruct (s_omit_lf s && match k with KChar c => c =? 0xA | _ => false end) eqn:E.
  - apply andb_true_iff in E. destruct E as [E1 E2]. destruct k as [c| | | | | ]; try discriminate E2. apply Z.eqb_eq in E2. subst c.
    destruct H as [(_ & _ & H)|[(N & _)|(N & _)]]; [exact H|exfalso; now apply N|exfalso; now apply N].
  - destruct H as [(H1 & H2 & _)|[(_ & _ & H)|(_ & C & _)]].
    + exfalso. subst k. rewrite H1 in E. discriminate E.
    + exact (modes_std listed (process listed f) (set_omit_lf false s) k s' P D H).
    + congruence.
Qed.
Print Assumptions C115_modes_partial.

(** a paragraph with an open emphasis, then hr; and a table cell, then a row *)
Definition in_p : st := after [tag "p"; tag "em"; KChar 0x61].
Definition in_td : st := after [tag "table"; tag "td"; KChar 0x61].
Example C115_modes_ex :
  (s_fragment in_p = false /\ plain_stack in_p /\ departs (s_mode in_p) (set_omit_lf false in_p) (tag "hr") = false /\ exists s', process none 20 in_p (tag "hr") = Val s') /\
  (s_mode in_td = M_in_cell /\ plain_stack in_td /\ departs (s_mode in_td) (set_omit_lf false in_td) (tag "tr") = false /\ exists s', process none 20 in_td (tag "tr") = Val s' /\ s_mode s' = M_in_row).
Proof.
  split; (split; [vm_compute; reflexivity|]); (split; [unfold plain_stack; vm_compute; repeat constructor|]); (split; [vm_compute; reflexivity|]); eexists.
  - vm_compute. reflexivity.
  - split; vm_compute; reflexivity.
Qed.
(** and the tags with departures elsewhere: a second item of a list, a button, a link behind a link, an svg element *)
Definition in_li : st := after [tag "ul"; tag "li"].
Definition in_a : st := after [tag "p"; tag "a"; tag "em"].
Example C115_odd_ex :
  let fine s k := s_fragment s = false /\ plain_stack s /\ departs (s_mode s) (set_omit_lf false s) k = false /\ exists s', process none 20 s k = Val s' in
  fine in_li (tag "li") /\ fine in_li (tag "button") /\ fine in_a (tag "a") /\ fine in_a (tag "nobr") /\ fine in_p (tag "svg") /\ fine in_p (tag "math").
Proof.
  cbv zeta. split; [|split; [|split; [|split; [|split]]]];
    (split; [vm_compute; reflexivity|]; split; [unfold plain_stack; vm_compute; repeat constructor|]; split; [vm_compute; reflexivity|]; eexists; vm_compute; reflexivity).
Qed.

(** C116: how a node is put into the tree. *)

(** An insertion gives the new node the value, the parent and the position that were asked for and changes nothing else. *)
Theorem C116_insert : forall d p x d1 n, (fst p < List.length d)%nat -> insert d p x = Val (d1, n) -> Put_at d p x d1 n.
Proof. exact insert_put. Qed.
Print Assumptions C116_insert.
(** It fails exactly if the node that is to follow is not there. *)
Theorem C116_insert_bad : forall d p x, insert d p x = Bad <-> exists r, snd p = Some r /\ ~ In r (kids_of d (fst p)).
Proof. exact insert_bad. Qed.
Print Assumptions C116_insert_bad.
(** The place of a node is the appropriate place of the standard, with foster parents, unless a template but no table is open. *)
Theorem C116_place_partial : forall target s p, place_for target s = Val p ->
  ~ (fostering target s = true /\ Never T_table s /\ ~ Never T_template s) -> Place target s p.
Proof. exact place_std. Qed.
Print Assumptions C116_place_partial.
Theorem C116_place_unique : forall target s p q, Place target s p -> Place target s q -> p = q.
Proof. exact place_unique. Qed.
Print Assumptions C116_place_unique.
(** Text in a table goes in front of the table: the table is node 6 and the paragraph around it node 5. *)
Definition in_table : st := after [tag "p"; tag "table"].
Example C116_place_ex : let s := set_foster true in_table in
  place_for 6 s = Val (5%nat, Some 6%nat) /\ ~ (fostering 6 s = true /\ Never T_table s /\ ~ Never T_template s) /\ place_for 6 in_table = Val (6%nat, None) /\
  (5 < List.length (s_dom s))%nat /\ (exists d1 n, insert (s_dom s) (5%nat, Some 6%nat) (IText (lit "x")) = Val (d1, n)) /\
  insert (s_dom s) (5%nat, Some 4%nat) (IText (lit "x")) = Bad.
Proof.
  cbv zeta. split; [vm_compute; reflexivity|]. split.
  { intros (_ & N & _). specialize (N (hd (Entry empty_tag 0%nat) (s_stack in_table))). vm_compute in N. discriminate N. now left. }
  split; [vm_compute; reflexivity|]. split; [vm_compute; lia|]. split; [|vm_compute; reflexivity]. eexists. eexists. vm_compute. reflexivity.
Qed.
(** A template without a table: the standard puts the misplaced text into the template, the library at the end of the
    html element. *)
Theorem C116_place_refuted : forall listed,
  made listed "<template><tbody>x" = Val (NDocument [el "html" [el "head" [el "template" [el "tbody" []]]; txt "x"; el "body" []]]) /\
  made listed "<template><tbody>x" <> Val (NDocument [el "html" [el "head" [el "template" [el "tbody" []; txt "x"]]; el "body" []]]).
Proof. intro. split; [vm_compute; reflexivity|vm_compute; intro H; discriminate H]. Qed.
Print Assumptions C116_place_refuted.

(** An element is made of its token (the duplicates among the attributes dropped), put in the place for the current node, and
    becomes the current node. *)
Theorem C116_element : forall g ns s s1 i, In_tree s -> insert_foreign g ns s = Val (s1, i) ->
  exists e r p x d1, s_stack s = e :: r /\ place_for (en_node e) s = Val p /\ Element_of g ns x /\ Put_at (s_dom s) p x d1 i /\
    s1 = set_stack (Entry g i :: s_stack s) (set_dom d1 s).
Proof. exact element_put. Qed.
Print Assumptions C116_element.
Theorem C116_comment : forall data s s1, In_tree s -> insert_comment data s = Val s1 ->
  exists e r p d1 i, s_stack s = e :: r /\ place_for (en_node e) s = Val p /\ Put_at (s_dom s) p (IComment data) d1 i /\ s1 = set_dom d1 s.
Proof. exact comment_put. Qed.
Print Assumptions C116_comment.
(** A character is added to the text right in front of its place if there is one, and is a new text otherwise. *)
Theorem C116_char : forall c s s1, In_tree s -> (forall i k, In k (kids_of (s_dom s) i) -> (k < List.length (s_dom s))%nat) ->
  insert_char c s = Val s1 ->
  exists e r p, s_stack s = e :: r /\ place_for (en_node e) s = Val p /\
    ((fst p = the_document /\ s1 = s) \/
     (fst p <> the_document /\ exists t data d1, Text_before (s_dom s) p t data /\ Only_info (s_dom s) t (IText (data ++ [c])) d1 /\ s1 = set_dom d1 s) \/
     (fst p <> the_document /\ (forall t data, ~ Text_before (s_dom s) p t data) /\ exists d1 i, Put_at (s_dom s) p (IText [c]) d1 i /\ s1 = set_dom d1 s)).
Proof. exact char_put. Qed.
Print Assumptions C116_char.
Example C116_char_ex : In_tree in_p /\ (forall i k, In k (kids_of (s_dom in_p) i) -> (k < List.length (s_dom in_p))%nat) /\
  (exists s1, insert_char 0x62 in_p = Val s1) /\ (exists s1, insert_comment (lit "c") in_p = Val s1) /\ (exists s1 i, insert_foreign (made_tag T_b) ns_HTML in_p = Val (s1, i)).
Proof.
  split.
  { split; [vm_compute; repeat constructor|]. intros i I. vm_compute in I. do 8 (destruct i as [|i]; [vm_compute; lia|]). lia. }
  split.
  { intros i k K. do 8 (destruct i as [|i]; [vm_compute in K; vm_compute; decompose sum K; try contradiction; subst; lia|]). destruct i; vm_compute in K; contradiction. }
  split; [eexists; vm_compute; reflexivity|]. split; [eexists; vm_compute; reflexivity|]. eexists. eexists. vm_compute. reflexivity.
Qed.
(** The formatting elements that are closed behind the last open one or marker are opened again, oldest first, and take
    their places in the list. *)
Theorem C116_reconstruct : forall s s1, reconstruct s = Val s1 ->
  exists closed rest new s2,
    s_active s = map Some (rev closed) ++ rest /\
    (forall e, In e closed -> on_stack (en_node e) s = false) /\
    match rest with [] => True | None :: _ => True | Some e :: _ => on_stack (en_node e) s = true end /\
    Inserted (map en_tag closed) s new s2 /\ s1 = set_active (map Some (rev new) ++ rest) s2 /\
    s_stack s1 = rev new ++ s_stack s /\ map en_tag new = map en_tag closed.
Proof. exact reconstruct_std. Qed.
Print Assumptions C116_reconstruct.
Definition closed_b : st := after [tag "p"; tag "b"; tag "i"; end_tag "p"].
Example C116_reconstruct_ex : exists s1, reconstruct closed_b = Val s1 /\ List.length (s_stack s1) = (List.length (s_stack closed_b) + 2)%nat.
Proof. eexists. split; vm_compute; reflexivity. Qed.
(** A repeated html or body tag adds the attributes that are not there yet and leaves the others. *)
Theorem C116_attrs : forall g l, exists added,
  add_attrs g l = l ++ added /\
  (forall x, In x added -> ~ In (key x) (map key l) /\ exists a, In a (g_attrs g) /\ ta_omitted a = false /\ x = attr_of a) /\
  (forall a, In a (g_attrs g) -> ta_omitted a = false -> In (key (attr_of a)) (map key (l ++ added))) /\
  NoDup (map key added).
Proof. exact add_attrs_std. Qed.
Print Assumptions C116_attrs.
Example C116_attrs_ex :
  add_attrs (STag T_html true [] false [TAttr 0 [] (lit "a") (lit "1") false; TAttr 0 [] (lit "b") (lit "2") false; TAttr 0 [] (lit "b") (lit "3") true]) [Attr 0 [] (lit "a") (lit "0")]
  = [Attr 0 [] (lit "a") (lit "0"); Attr 0 [] (lit "b") (lit "2")].
Proof. vm_compute. reflexivity. Qed.

(** C117: the end tag of a formatting element, the adoption agency algorithm, if no special element is newer than the
    formatting element: what it does is written out in [agency_simple] (L_dom38.v). *)
Theorem C117_agency_partial : forall t s r, plain_stack s -> NoDup (map en_node (s_stack s)) ->
  (forall i, (List.length (filter (node_is i) (s_active s)) <= 1)%nat) ->
  (forall i, formatting_element t s = Some i -> forall e, In e (newer i s) -> special s e = false) ->
  agency t s = Val r -> agency_simple t s = Val r.
Proof. exact agency_std. Qed.
Print Assumptions C117_agency_partial.
Definition in_b : st := after [tag "p"; tag "b"; tag "i"; KChar 0x61].
Example C117_agency_ex : plain_stack in_b /\ NoDup (map en_node (s_stack in_b)) /\
  (forall i, (List.length (filter (node_is i) (s_active in_b)) <= 1)%nat) /\
  (forall i, formatting_element T_b in_b = Some i -> forall e, In e (newer i in_b) -> special in_b e = false) /\
  exists r, agency T_b in_b = Val r.
Proof.
  split; [unfold plain_stack; vm_compute; repeat constructor|].
  split; [vm_compute; repeat (constructor; [cbn [In]; lia|]); constructor|].
  split.
  { intro i. assert (Z : s_active in_b = [Some (Entry (STag T_i true (lit "i") false []) 7%nat); Some (Entry (STag T_b true (lit "b") false []) 6%nat)]) by (vm_compute; reflexivity).
    rewrite Z. cbn [filter node_is en_node]. destruct (7 =? i)%nat eqn:A; destruct (6 =? i)%nat eqn:B; cbn [List.length]; try lia.
    apply PeanoNat.Nat.eqb_eq in A, B. lia. }
  split; [|eexists; vm_compute; reflexivity].
  assert (Z : formatting_element T_b in_b = Some 6%nat) by (vm_compute; reflexivity).
  assert (N : forallb (fun e => negb (special in_b e)) (newer 6 in_b) = true) by (vm_compute; reflexivity).
  intros i I. rewrite Z in I. injection I as <-. intros e E. rewrite forallb_forall in N. specialize (N e E). cbv beta in N. destruct (special in_b e); [discriminate N|reflexivity].
Qed.

(** C118: which rules a token goes to: those of the insertion mode or those of foreign content, 13.2.6; except for an
    element annotation-xml outside MathML. *)
Theorem C118_dispatch_partial : forall listed emit s k s', s_fragment s = false -> ~ odd_annotation s -> dispatch listed emit s k = Val s' ->
  let s0 := set_omit_lf false s in
  (s_omit_lf s = true /\ k = KChar 0xA /\ s' = s0) \/
  (~ (s_omit_lf s = true /\ k = KChar 0xA) /\ by_mode s k = true /\ in_mode listed emit s0 k = Val s') \/
  (~ (s_omit_lf s = true /\ k = KChar 0xA) /\ by_mode s k = false /\ on_foreign listed emit s0 k = Val s').
Proof. exact dispatch_std. Qed.
Print Assumptions C118_dispatch_partial.
Definition in_svg : st := after [tag "p"; tag "svg"; tag "g"; tag "g"].
Example C118_dispatch_ex : s_fragment in_svg = false /\ ~ odd_annotation in_svg /\ by_mode in_svg (tag "a") = false /\
  exists s', dispatch none (process none 20) in_svg (tag "a") = Val s'.
Proof.
  split; [vm_compute; reflexivity|]. split; [|split; [vm_compute; reflexivity|eexists; vm_compute; reflexivity]].
  assert (Z : match s_stack in_svg with e :: _ => teqb (name_of (s_dom in_svg) (en_node e)) T_annotation_xml | [] => false end = false) by (vm_compute; reflexivity).
  intros (e & r & S & _ & _ & N). rewrite S, N in Z. rewrite teqb_refl in Z. discriminate Z.
Qed.
(** In an SVG element of that name a start tag svg goes to the insertion mode, and its attributes get no capitals. *)
Definition annotated : st := after [tag "p"; tag "svg"; tag "annotation-xml"].
Definition viewbox : ktok := KStart (STag T_svg true (lit "svg") false [TAttr 0 [] (lit "viewbox") (lit "x") false]).
Theorem C118_dispatch_refuted : exists s k, (exists l, s = after l) /\ by_mode s k = false /\
  dispatch none (process none 20) s k = in_mode none (process none 20) s k /\
  dispatch none (process none 20) s k <> on_foreign none (process none 20) s k.
Proof.
  exists annotated, viewbox. split; [eexists; reflexivity|]. split; [vm_compute; reflexivity|]. split; [vm_compute; reflexivity|].
  vm_compute. intro H. discriminate H.
Qed.
Print Assumptions C118_dispatch_refuted.
(** Characters, comments and document types in foreign content. *)
Theorem C118_foreign_char : forall listed emit s c,
  (c = 0 -> on_foreign listed emit s (KChar c) = insert_char 0xFFFD s) /\
  (In c [0x9; 0xA; 0xC; 0xD; 0x20] -> on_foreign listed emit s (KChar c) = insert_char c s) /\
  (c <> 0 -> ~ In c [0x9; 0xA; 0xC; 0xD; 0x20] -> forall s', on_foreign listed emit s (KChar c) = Val s' <->
     exists s1, insert_char c s = Val s1 /\ s' = set_frameset_ok false s1) /\
  (forall d, on_foreign listed emit s (KComment d) = insert_comment d s) /\
  (forall d, on_foreign listed emit s (KDoctype d) = Val s).
Proof.
  intros listed emit s c. cbn [on_foreign]. assert (W : is_ascii_white_space c = true <-> In c [0x9; 0xA; 0xC; 0xD; 0x20]).
  { unfold is_ascii_white_space. rewrite !orb_true_iff, !Z.eqb_eq. cbn [In]. intuition auto. }
  split; [now intros ->|]. split; [|split; [|split; reflexivity]].
  - intro I. assert (N : (c =? 0) = false) by (apply Z.eqb_neq; intros ->; cbn [In] in I; lia).
    apply W in I. rewrite N, I. destruct (insert_char c s); reflexivity.
  - intros N I s'. apply Z.eqb_neq in N. rewrite N. destruct (is_ascii_white_space c) eqn:E; [exfalso; now apply I, W|].
    destruct (insert_char c s) as [s1| |]; split; try (intros (? & ? & _); discriminate); try discriminate.
    + intro H. injection H as <-. eauto.
    + intros (x & X & ->). injection X as ->. reflexivity.
Qed.
Print Assumptions C118_foreign_char.
(** An end tag in foreign content closes the newest element of its name, up to case, if only foreign elements are newer;
    it goes to the insertion mode when an element of HTML is met before, and is ignored at the bottom of the stack. *)
Theorem C118_foreign_end : forall listed emit s t s', NoDup (map en_node (s_stack s)) -> on_foreign listed emit s (KEnd t) = Val s' ->
  (exists e r, s_stack s = e :: r /\ t = T_script /\ ns_of (s_dom s) (en_node e) = ns_SVG /\ name_of (s_dom s) (en_node e) = T_script /\ s' = set_stack r s) \/
  exists a e r, Walked t s a e r /\
    ((r = [] /\ s' = s) \/ (r <> [] /\ named_like t s e = true /\ s' = set_stack r s) \/
     (r <> [] /\ named_like t s e = false /\ (exists f q, r = f :: q /\ ns_of (s_dom s) (en_node f) = ns_HTML) /\ in_mode listed emit s (KEnd t) = Val s')).
Proof.
  intros listed emit s t s' U H. cbn [on_foreign] in H. unfold cur in H. destruct (s_stack s) as [|e0 r0] eqn:S; [discriminate|].
  destruct (teqb t T_script && is_el ns_SVG T_script (s_dom s) (en_node e0)) eqn:X.
  - left. exists e0, r0. apply andb_true_iff in X. destruct X as [X1 X2]. unfold is_el in X2. apply andb_true_iff in X2. destruct X2 as [X2 X3].
    apply Z.eqb_eq in X2. apply teqb_eq in X1, X3. unfold pop in H. rewrite S in H. injection H as <-. auto.
  - right. destruct (front s) as [b| |] eqn:F; try discriminate. rewrite <- S in U, H. destruct (foreign_end t b (s_stack s) s) as [[s1 again]| |] eqn:K; try discriminate.
    destruct (foreign_end_std t s s1 again b F U K) as (a & e & r & W & D). exists a, e, r. split; [exact W|].
    destruct D as [(R & -> & ->)|[(R & N & -> & ->)|(R & N & Q & -> & ->)]]; [left|right; left|right; right].
    + injection H as <-. auto.
    + injection H as <-. auto.
    + auto.
Qed.
Print Assumptions C118_foreign_end.
Example C118_foreign_end_ex : NoDup (map en_node (s_stack in_svg)) /\ (exists s', on_foreign none (process none 20) in_svg (end_tag "svg") = Val s') /\
  exists s', on_foreign none (process none 20) in_svg (end_tag "p") = Val s'.
Proof.
  split; [vm_compute; repeat (constructor; [cbn [In]; lia|]); constructor|].
  split; eexists; vm_compute; reflexivity.
Qed.
