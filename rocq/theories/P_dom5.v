(** Properties C119 and C120: the trees of tree construction; and what holds of C95, C96, C97 and C116. *)
From Coq Require Import ZArith List Bool String Lia.
From Verif Require Import M_infra M_encoding M_labels M_html M_html_ncr M_html_serialize M_dom_names M_dom M_dom2 L_dom L_dom2 L_dom21.
From Verif Require Import L_dom36 L_dom37 L_dom38 L_dom39 L_dom40 L_dom41 L_dom42 P_dom P_dom4.
Import ListNotations.
Open Scope Z_scope.
Open Scope list_scope.

(** C119: whatever the tokens are, the nodes are a forest: every child knows its parent, stands in no list twice, the parents
    lead up to a document, and only documents and elements with content have children. The value of the document is read
    off the nodes without leaving one out. *)
Theorem C119_forest : forall listed fuel fragment l s, construct listed fuel (st_init fragment) l = Val s ->
  Forest (s_dom s) /\ Reads (s_dom s) the_document (document s).
Proof. exact built_forest. Qed.
Print Assumptions C119_forest.
Theorem C119_text : forall listed ncr steps fuel text s, parse_text listed ncr steps fuel text = Val s ->
  Forest (s_dom s) /\ Reads (s_dom s) the_document (document s).
Proof. intros listed ncr steps fuel text s H. destruct (parsed_built _ _ _ _ _ _ H) as [l L]. now apply built_forest in L. Qed.
Print Assumptions C119_text.
(** No node is its own descendant, so each is reached at most once. *)
Theorem C119_acyclic : forall listed fuel fragment l s i p, construct listed fuel (st_init fragment) l = Val s ->
  (exists path, path <> [] /\ hd_error (rev path) = Some p /\
     (fix down (a : nat) (q : list nat) : Prop := match q with [] => True | b :: r => In b (c_kids (nth a (s_dom s) no_cell)) /\ down b r end) i path) -> i <> p.
Proof.
  intros listed fuel fragment l s i p H (path & N & L & D) <-. apply built_whole in H. pose proof (W_dom _ _ _ _ _ _ _ _ _ H) as A. set (d := s_dom s) in *.
  assert (G : forall path a k, Depth d k a -> (fix down (a : nat) (q : list nat) : Prop := match q with [] => True | b :: r => In b (c_kids (nth a d no_cell)) /\ down b r end) a path ->
     forall z, hd_error (rev path) = Some z -> exists k', (k < k')%nat /\ Depth d k' z).
  { clear path N L D. induction path as [|b r IH]; intros a k Dp Dn z Z; [discriminate|]. destruct Dn as [D1 D2].
    destruct (A_kids _ d A a b D1) as [B1 B2]. assert (Db : Depth d (S k) b) by (constructor; [lia|]; now rewrite B2).
    cbn [rev] in Z. destruct r as [|c r]; [injection Z as <-; exists (S k); split; [lia|exact Db]|].
    assert (Z' : hd_error (rev (c :: r)) = Some z) by (cbn [rev] in *; destruct (rev r ++ [c]) eqn:Q; [destruct (rev r); discriminate|]; exact Z).
    destruct (IH b (S k) Db D2 z Z') as (k' & K1 & K2). exists k'. split; [lia|exact K2]. }
  destruct path as [|b path]; [contradiction|]. pose proof D as [D1 _]. assert (I : (i < List.length d)%nat).
  { destruct (Compare_dec.le_lt_dec (List.length d) i) as [Q|Q]; [|exact Q]. rewrite nth_overflow in D1 by exact Q. destruct D1. }
  destruct (A_deep _ d A i I) as [k K]. destruct (G (b :: path) i k K D i L) as (k' & K1 & K2). pose proof (depth_fun d k i K k' K2). lia.
Qed.
Print Assumptions C119_acyclic.
Definition toks (text : string) : list token :=
  match tokenize (switch_of none 20 false) (cdata_of none 20 false) match_ncr 400 tok_init (lit text) with Val l => l | _ => [] end.
Example C119_ex : exists s, construct none 20 (st_init false) (toks "<p>a<b>b<div>c</b>d<table>e<tr><td><img>f") = Val s /\
  document s = page [el "p" [txt "a"; el "b" [txt "b"]]; el "div" [el "b" [txt "c"]; txt "de"; el "table" [el "tbody" [el "tr" [el "td" [el "img" []; txt "f"]]]]]] /\
  (exists path, path <> [] /\ hd_error (rev path) = Some 5%nat /\
     (fix down (a : nat) (q : list nat) : Prop := match q with [] => True | b :: r => In b (c_kids (nth a (s_dom s) no_cell)) /\ down b r end) the_document path).
Proof. eexists. split; [vm_compute; reflexivity|]. split; [vm_compute; reflexivity|]. exists [2; 4; 5]%nat. split; [discriminate|]. split; [reflexivity|]. vm_compute. tauto. Qed.

(** C120: elements without content are empty in every tree. *)
Theorem C120_empty : forall listed fuel fragment l s p n attrs kids, construct listed fuel (st_init fragment) l = Val s ->
  Within (document s) (NElement ns_HTML p n attrs kids) -> In n (strings empty_elements) -> kids = [].
Proof.
  intros listed fuel fragment l s p n attrs kids H W N. destruct (built_forest _ _ _ _ _ H) as [F R]. destruct (reads_within _ _ _ _ R W) as [i Q].
  now apply (empty_value _ _ _ _ _ _ _ F Q).
Qed.
Print Assumptions C120_empty.
Theorem C120_text : forall listed ncr steps fuel text s p n attrs kids, parse_text listed ncr steps fuel text = Val s ->
  Within (document s) (NElement ns_HTML p n attrs kids) -> In n (strings empty_elements) -> kids = [].
Proof. intros listed ncr steps fuel text s p n attrs kids H. destruct (parsed_built _ _ _ _ _ _ H) as [l L]. now apply C120_empty with (1 := L). Qed.
Print Assumptions C120_text.
Example C120_ex : exists s, parse_text none match_ncr 400 20 (lit "<br>x") = Val s /\ Within (document s) (el "br" []) /\ In (lit "br") (strings empty_elements).
Proof.
  eexists. split; [vm_compute; reflexivity|]. assert (Z : forall s, document s = page [el "br" []; txt "x"] -> Within (document s) (el "br" [])).
  { intros s ->. eapply Wi_child; [eapply Wi_child; [eapply Wi_child; [apply Wi_self|]|]|]; cbn [children]; [left; reflexivity|right; left; reflexivity|left; reflexivity]. }
  split; [apply Z; vm_compute; reflexivity|]. vm_compute. tauto.
Qed.

(** C97: if no start tag has an attribute that gets a prefix in foreign elements, no attribute of the tree has one. *)
Theorem C97_prefix_partial : forall listed fuel fragment l s ns p n attrs kids, Forall no_prefixed l -> construct listed fuel (st_init fragment) l = Val s ->
  Within (document s) (NElement ns p n attrs kids) -> Forall (fun a => at_prefix a = []) attrs.
Proof. exact plain_prefixes. Qed.
Print Assumptions C97_prefix_partial.
Example C97_ex : Forall no_prefixed (toks "<svg xmlns=a><g viewbox=b></svg><a href=c>") /\
  exists s, construct none 20 (st_init false) (toks "<svg xmlns=a><g viewbox=b></svg><a href=c>") = Val s /\
  document s = page [NElement ns_SVG [] (lit "svg") [Attr ns_XMLNS [] (lit "xmlns") (lit "a")] [NElement ns_SVG [] (lit "g") [Attr 0 [] (lit "viewBox") (lit "b")] []];
                     NElement ns_HTML [] (lit "a") [Attr 0 [] (lit "href") (lit "c")] []].
Proof.
  split.
  - assert (Z : forallb (fun t => match t with TStart g => forallb (fun a => negb (existsb (same_str (a_name a)) (strings prefixed))) (g_attributes g) | _ => true end)
      (toks "<svg xmlns=a><g viewbox=b></svg><a href=c>") = true) by (vm_compute; reflexivity).
    rewrite forallb_forall in Z. apply Forall_forall. intros t T. specialize (Z t T). clear T. destruct t; cbn [no_prefixed]; try exact I. rewrite forallb_forall in Z. apply Forall_forall. intros a A N.
    specialize (Z a A). apply negb_true_iff in Z. assert (E : existsb (same_str (a_name a)) (strings prefixed) = true) by (apply existsb_exists; exists (a_name a); split; [exact N|now apply same_str_eq]). congruence.
  - eexists. split; vm_compute; reflexivity.
Qed.

(** C116: the states between tokens meet the hypotheses of the theorems on insertion. *)
Theorem C116_reached : forall listed fuel fragment l s, construct listed fuel (st_init fragment) l = Val s ->
  In_tree s /\ forall i k, In k (kids_of (s_dom s) i) -> (k < List.length (s_dom s))%nat.
Proof. exact built_in_tree. Qed.
Print Assumptions C116_reached.
Example C116_reached_ex : exists s, construct none 20 (st_init false) (toks "<p>a") = Val s.
Proof. eexists. vm_compute. reflexivity. Qed.

(** C95: if the element below the current one is foreign and no integration point, a start tag that ends foreign content
    closes the current element and all behind it up to an HTML element or an integration point, and is then handled again. *)
Theorem C95_breakout_partial : forall listed emit s g n e e2 r s', s_fragment s = false -> g_id g = tname_of n -> In n (map lit leaving) ->
  s_stack s = e :: e2 :: r -> stops (s_dom s) e2 = false -> on_foreign listed emit s (KStart g) = Val s' ->
  exists a b, s_stack s = e :: a ++ b /\ Forall (fun x => stops (s_dom s) x = false) a /\
    (exists e1 b1, b = e1 :: b1 /\ stops (s_dom s) e1 = true) /\ emit (set_stack b s) (KStart g) = Val s'.
Proof. exact leave_std. Qed.
Print Assumptions C95_breakout_partial.
Example C95_ex : s_fragment in_svg = false /\ (exists e e2 r, s_stack in_svg = e :: e2 :: r /\ stops (s_dom in_svg) e2 = false) /\ In (lit "div") (map lit leaving) /\
  exists s', on_foreign none (process none 20) in_svg (tag "div") = Val s'.
Proof.
  split; [vm_compute; reflexivity|]. split; [eexists; eexists; eexists; split; [vm_compute; reflexivity|vm_compute; reflexivity]|].
  split; [vm_compute; tauto|]. eexists. vm_compute. reflexivity.
Qed.

(** C96: any other start tag in foreign content makes an element of the namespace of the current one, with the name of the
    token and the attributes adjusted by the tables of the standard, unless the name is one of the 37 with capitals. *)
Theorem C96_foreign_partial : forall listed emit s g n e r s', s_fragment s = false -> In_tree s -> Plain_tag n g -> s_stack s = e :: r ->
  ~ In n (map lit leaving) -> (n = lit "font" -> forall x, In x ["Color"; "Face"; "Size"]%string -> ~ has_attribute x g) ->
  (ns_of (s_dom s) (en_node e) = ns_SVG -> ~ In n (map lit svg_capitals)) -> on_foreign listed emit s (KStart g) = Val s' ->
  Foreign_put (ns_of (s_dom s) (en_node e)) n g s s'.
Proof. exact stay_std. Qed.
Print Assumptions C96_foreign_partial.
(** The elements svg and math: the attributes of math are those of the standard, those of svg if none has capitals. *)
Theorem C96_root_partial : forall listed fuel fragment l emit s g n s', construct listed fuel (st_init fragment) l = Val s ->
  n = lit "svg" \/ n = lit "math" -> Plain_tag n g ->
  (n = lit "svg" -> Forall (fun a => entry_of (ta_name a) svg_cases = None /\ ta_name a <> lit "definitionurl") (g_attrs g)) ->
  on_in_body emit s (KStart g) = Val s' ->
  exists s1, reconstruct s = Val s1 /\ Foreign_put (if same_str n (lit "svg") then ns_SVG else ns_MathML) n g s1 s'.
Proof.
  intros listed fuel fragment l emit s g n s' B D P A H. apply (root_std emit s g n s' D P); [|exact A|exact H].
  intros s1 R. apply built_whole in B. pose proof (keep_reconstruct any_tattr any_attr any_string (fun _ _ => I) s B) as K. rewrite R in K. cbn [keeps] in K.
  split.
  - pose proof (W_stack _ _ _ _ _ _ _ _ _ K) as F. eapply Forall_impl; [|exact F]. intros e [[[E _] _] _]. exact E.
  - intros i J. apply (A_host _ _ (W_dom _ _ _ _ _ _ _ _ _ K) i J).
Qed.
Print Assumptions C96_root_partial.
Definition linked : stag := STag (tname_of (lit "use")) (has_atom (lit "use")) (lit "use") true
  [TAttr 0 [] (lit "xlink:href") (lit "a") false; TAttr 0 [] (lit "viewbox") (lit "b") false; TAttr 0 [] (lit "viewbox") (lit "c") true].
Example C96_ex : In_tree in_svg /\ Plain_tag (lit "use") linked /\ ~ In (lit "use") (map lit leaving) /\ ~ In (lit "use") (map lit svg_capitals) /\
  (exists s', on_foreign none (process none 20) in_svg (KStart linked) = Val s') /\
  map (fun a => foreign_attribute ns_SVG (ta_name a) (ta_value a)) (filter (fun a => negb (ta_omitted a)) (g_attrs linked)) =
    [Attr ns_XLink (lit "xlink") (lit "href") (lit "a"); Attr 0 [] (lit "viewBox") (lit "b")].
Proof.
  split.
  { split; [vm_compute; repeat constructor|]. intros i I. vm_compute in I. do 12 (destruct i as [|i]; [vm_compute; lia|]). lia. }
  split. { split; [discriminate|]. split; [reflexivity|]. split; [reflexivity|]. split; [reflexivity|]. repeat constructor. }
  assert (Z : existsb (same_str (lit "use")) (map lit leaving ++ map lit svg_capitals) = false) by (vm_compute; reflexivity).
  assert (N : ~ In (lit "use") (map lit leaving ++ map lit svg_capitals)).
  { intro K. assert (E : existsb (same_str (lit "use")) (map lit leaving ++ map lit svg_capitals) = true) by (apply existsb_exists; exists (lit "use"); split; [exact K|now apply same_str_eq]). congruence. }
  split; [intro K; apply N, in_or_app; now left|]. split; [intro K; apply N, in_or_app; now right|].
  split; [eexists; vm_compute; reflexivity|vm_compute; reflexivity].
Qed.
