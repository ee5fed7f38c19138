(** Properties C93-C106: HTML tree construction (M_dom.v, M_dom2.v). A text is read by the tokenizer, which asks tree
    construction for its state, and the tokens are made into a tree. Where a statement says what the HTML standard asks for,
    the tree that it asks for is written out. *)
From Coq Require Import ZArith List Bool String Lia.
From Verif Require Import M_infra M_encoding M_labels M_html M_html_ncr M_html_serialize M_dom_names M_dom M_dom2 L_dom.
Import ListNotations.
Open Scope Z_scope.
Open Scope list_scope.

(** The tree for a text; enough fuel for the texts below. No text has a document type, so the table of quirks is not
    looked at. *)
Definition made (listed : list Z -> bool) (text : string) : outcome node := parse listed match_ncr 400 20 (lit text).
(** Trees: an HTML element, one of SVG, a text, and a document with a head and a body. *)
Definition el (name : string) (kids : list node) : node := NElement ns_HTML [] (lit name) [] kids.
Definition el_with (name a v : string) (kids : list node) : node :=
  NElement ns_HTML [] (lit name) [Attr 0 [] (lit a) (lit v)] kids.
Definition svg (name : string) (kids : list node) : node := NElement ns_SVG [] (lit name) [] kids.
Definition svg_with (name a v : string) (kids : list node) : node :=
  NElement ns_SVG [] (lit name) [Attr 0 [] (lit a) (lit v)] kids.
Definition txt (s : string) : node := NText (lit s).
Definition page (kids : list node) : node := NDocument [el "html" [el "head" []; el "body" kids]].

(** an example of a text that is made into the right tree *)
Example made_right : forall listed,
  made listed "<title>a<b></title><p>x<b>y<i>z</b>w</i><table>t<td>u" =
  Val (NDocument [el "html" [el "head" [el "title" [txt "a<b>"]];
    el "body" [el "p" [txt "x"; el "b" [txt "y"; el "i" [txt "z"]]; el "i" [txt "w"]; txt "t";
      el "table" [el "tbody" [el "tr" [el "td" [txt "u"]]]]]]]]).
Proof. intro. vm_compute. reflexivity. Qed.

(** C93: a document that was written (to_string, C60-C63) is read back as the same tree: refuted for a button in a p, and
    for elements of SVG with capitals in their names. *)
Theorem C93_written_refuted : forall listed,
  (exists n text, n = page [el "p" [el "button" []]] /\ to_string 100 n = Val text /\ parse listed match_ncr 400 20 text = Bad) /\
  (exists n text, n = page [svg "svg" [svg "linearGradient" []]] /\
     to_string 100 n = Val text /\ parse listed match_ncr 400 20 text <> Val n).
Proof.
  intro. split.
  - exists (page [el "p" [el "button" []]]), (lit "<html><head></head><body><p><button></button></p></body></html>").
    split; [reflexivity|]. split; vm_compute; reflexivity.
  - exists (page [svg "svg" [svg "linearGradient" []]]).
    eexists. split; [reflexivity|]. split; [vm_compute; reflexivity|]. vm_compute. discriminate.
Qed.
Print Assumptions C93_written_refuted.

(** C94: tree construction gets through every text: refuted. A button start tag while a p is open looks for an open button
    to close and empties the stack (2554-2563); the adoption agency uses an iterator to an erased entry (3238-3290). *)
Theorem C94_defined_refuted : forall listed,
  made listed "<p><button>" = Bad /\ made listed "<b><i><span><span><span><div></b>" = Bad.
Proof. intro. split; vm_compute; reflexivity. Qed.
Print Assumptions C94_defined_refuted.
(** Texts that differ little go through. *)
Example C94_other : forall listed,
  made listed "<div><button>" = Val (page [el "div" [el "button" []]]) /\
  made listed "<b><i><span><span><div></b>" = Val (page [el "b" [el "i" [el "span" [el "span" []]]]; el "i" [el "div" [el "b" []]]]).
Proof. intro. split; vm_compute; reflexivity. Qed.

(** C95: a start tag that ends foreign content leaves all foreign elements and no other: refuted. One element more is
    taken from the stack (4857-4867), and font is looked up with attribute names in upper case (4852-4854). *)
Theorem C95_breakout_refuted : forall listed,
  made listed "<svg><p>a" = Val (NDocument [el "html" [el "head" []; el "body" [svg "svg" []]; el "p" [txt "a"]]]) /\
  made listed "<svg><p>a" <> Val (page [svg "svg" []; el "p" [txt "a"]]) /\
  made listed "<svg><font color=a>" = Val (page [svg "svg" [svg_with "font" "color" "a" []]]) /\
  made listed "<svg><font color=a>" <> Val (page [svg "svg" []; el_with "font" "color" "a" []]).
Proof. intro. repeat match goal with |- _ /\ _ => split end; vm_compute; solve [reflexivity | discriminate]. Qed.
Print Assumptions C95_breakout_refuted.

(** C96: names of SVG elements and attributes get the case that SVG gives them: refuted for elements (the text of the token
    is replaced, but the number of the name is used, 4885-4889) and for the attributes of svg itself (3050). A foreignObject
    is therefore never an integration point. *)
Theorem C96_case_refuted : forall listed,
  made listed "<svg><lineargradient>" = Val (page [svg "svg" [svg "lineargradient" []]]) /\
  made listed "<svg><lineargradient>" <> Val (page [svg "svg" [svg "linearGradient" []]]) /\
  made listed "<svg viewbox=1>" = Val (page [svg_with "svg" "viewbox" "1" []]) /\
  made listed "<svg viewbox=1>" <> Val (page [svg_with "svg" "viewBox" "1" []]) /\
  made listed "<svg><foreignobject><div>x" = Val (page [svg "svg" [svg "foreignobject" []]; el "div" [txt "x"]]) /\
  made listed "<svg><foreignobject><div>x" <> Val (page [svg "svg" [svg "foreignObject" [el "div" [txt "x"]]]]).
Proof. intro. repeat match goal with |- _ /\ _ => split end; vm_compute; solve [reflexivity | discriminate]. Qed.
Print Assumptions C96_case_refuted.
(** The attributes of the elements in svg are right. *)
Example C96_attribute : forall listed, made listed "<svg><g viewbox=1>" = Val (page [svg "svg" [svg_with "g" "viewBox" "1" []]]).
Proof. intro. vm_compute. reflexivity. Qed.

(** C97: the attributes of an HTML element have no prefix: refuted, prefixes of an earlier foreign start tag stay in the
    token (token.hpp:60-66). *)
Theorem C97_prefix_refuted : forall listed,
  made listed "<svg xlink:href=a></svg><a href=b>" =
  Val (page [NElement ns_SVG [] (lit "svg") [Attr ns_XLink (lit "xlink") (lit "href") (lit "a")] [];
             NElement ns_HTML [] (lit "a") [Attr 0 (lit "xlink") (lit "href") (lit "b")] []]).
Proof. intro. vm_compute. reflexivity. Qed.
Print Assumptions C97_prefix_refuted.

(** C98: no more than three equal elements are open in the list of active formatting elements (the Noah's Ark clause). The
    parser keeps no more than three that are equal in its sense. *)
Theorem C98_at_most_three : forall i g s, (alike (s_dom s) i (s_active s) <= 3)%nat ->
  (List.length (filter (fun e => same_element (s_dom s) i (en_node e)) (since_marker (s_active (push_formatting i g s)))) <= 3)%nat.
Proof.
  intros i g s A. fold (alike (s_dom s) i (s_active (push_formatting i g s))). unfold push_formatting. cbn [s_active set_active].
  rewrite count_same_alike.
  assert (H : forall l, (alike (s_dom s) i l <= 2)%nat -> (alike (s_dom s) i (Some (Entry g i) :: l) <= 3)%nat).
  { intros l B. unfold alike in *. cbn [since_marker filter]. destruct (same_element _ _ _); cbn [List.length]; lia. }
  apply H. destruct (3 <=? alike (s_dom s) i (s_active s))%nat eqn:E.
  - rewrite (erase_earliest_alike (s_dom s) i (s_active s) _ eq_refl); apply PeanoNat.Nat.leb_le in E; lia.
  - apply PeanoNat.Nat.leb_gt in E. lia.
Qed.
Print Assumptions C98_at_most_three.
Example C98_example : exists s, (alike (s_dom s) 0 (s_active s) <= 3)%nat.
Proof. exists (st_init false). vm_compute. lia. Qed.
(** Refuted in the sense of the standard: elements with other names and other values count as equal (simple_node.hpp:168-173
    and 566-578), so that of four formatting elements without attributes the first is not reopened, and a second nobr start
    tag is dropped when three others came between (2738-2753). *)
Theorem C98_noah_refuted : forall listed,
  made listed "<p><b><i><u><s></p>x" =
    Val (page [el "p" [el "b" [el "i" [el "u" [el "s" []]]]]; el "i" [el "u" [el "s" [txt "x"]]]]) /\
  made listed "<p><b><i><u><s></p>x" <>
    Val (page [el "p" [el "b" [el "i" [el "u" [el "s" []]]]]; el "b" [el "i" [el "u" [el "s" [txt "x"]]]]]) /\
  made listed "<p><font size=1><font size=2><font size=3><font size=4></p>x" =
    Val (page [el "p" [el_with "font" "size" "1" [el_with "font" "size" "2" [el_with "font" "size" "3" [el_with "font" "size" "4" []]]]];
               el_with "font" "size" "2" [el_with "font" "size" "3" [el_with "font" "size" "4" [txt "x"]]]]) /\
  made listed "<nobr><b><i><u><nobr>x" = Val (page [el "nobr" [el "b" [el "i" [el "u" [txt "x"]]]]]).
Proof. intro. repeat match goal with |- _ /\ _ => split end; vm_compute; solve [reflexivity | discriminate]. Qed.
Print Assumptions C98_noah_refuted.

(** C99: a start tag li closes the li that is open: refuted unless the li is the current node, the loop over the stack ends
    after one turn (2474-2502). *)
Theorem C99_li_refuted : forall listed,
  made listed "<ul><li>b<p>c<li>d" = Val (page [el "ul" [el "li" [txt "b"; el "p" [txt "c"; el "li" [txt "d"]]]]]) /\
  made listed "<ul><li>b<p>c<li>d" <> Val (page [el "ul" [el "li" [txt "b"; el "p" [txt "c"]]; el "li" [txt "d"]]]) /\
  made listed "<ul><li><b>c<li>d" = Val (page [el "ul" [el "li" [el "b" [txt "c"; el "li" [txt "d"]]]]]) /\
  made listed "<ul><li><b>c<li>d" <> Val (page [el "ul" [el "li" [el "b" [txt "c"]]; el "li" [el "b" [txt "d"]]]]).
Proof. intro. repeat match goal with |- _ /\ _ => split end; vm_compute; solve [reflexivity | discriminate]. Qed.
Print Assumptions C99_li_refuted.
Example C99_current : forall listed,
  made listed "<ul><li>b<li>d" = Val (page [el "ul" [el "li" [txt "b"]; el "li" [txt "d"]]]).
Proof. intro. vm_compute. reflexivity. Qed.

(** C100: the attributes of a further body start tag are added to the body: refuted, the test for the body is the wrong way
    round (2274-2290). *)
Theorem C100_body_refuted : forall listed,
  made listed "x<body a=b>" = Val (page [txt "x"]) /\
  made listed "x<body a=b>" <> Val (NDocument [el "html" [el "head" []; el_with "body" "a" "b" [txt "x"]]]).
Proof. intro. split; vm_compute; solve [reflexivity | discriminate]. Qed.
Print Assumptions C100_body_refuted.
(** Those of a further html start tag are. *)
Example C100_html : forall listed,
  made listed "x<html a=b>" = Val (NDocument [el_with "html" "a" "b" [el "head" []; el "body" [txt "x"]]]).
Proof. intro. vm_compute. reflexivity. Qed.

(** C101: what is in a template stays in it: refuted for a cell, clearing the stack back to a row does not stop at the
    template (4016-4028). *)
Theorem C101_template_refuted : forall listed,
  made listed "<template><td>x" = Val (NDocument [el "html" [el "head" [el "template" []]; el "td" [txt "x"]]]) /\
  made listed "<template><td>x" <> Val (NDocument [el "html" [el "head" [el "template" [el "td" [txt "x"]]]; el "body" []]]).
Proof. intro. split; vm_compute; solve [reflexivity | discriminate]. Qed.
Print Assumptions C101_template_refuted.
Example C101_row : forall listed,
  made listed "<template><tr><td>x" =
  Val (NDocument [el "html" [el "head" [el "template" [el "tr" [el "td" [txt "x"]]]]; el "body" []]]).
Proof. intro. vm_compute. reflexivity. Qed.

(** C102: an element is in a scope as the standard says: walking down from the current node it comes before any node of the
    scope's list. Here for names; [Ends] is that the walk ends. *)
Definition named (s : st) (t : tname) (i : nat) : Prop := ns_of (s_dom s) i = ns_HTML /\ name_of (s_dom s) i = t.
Definition ids (s : st) : list nat := map en_node (s_stack s).
(** HTML standard, 13.2.4.2 *)
Definition Default_scope (d : list cell) (i : nat) : Prop :=
  ns_of d i = ns_HTML /\ In (name_of d i) [T_applet; T_caption; T_html; T_table; T_td; T_th; T_marquee; T_object; T_template]
  \/ ns_of d i = ns_MathML /\ In (name_of d i) [T_mi; T_mo; T_mn; T_ms; T_mtext; T_annotation_xml]
  \/ ns_of d i = ns_SVG /\ In (name_of d i) [T_foreignObject; T_desc; T_title].
Definition List_item_scope d i := Default_scope d i \/ ns_of d i = ns_HTML /\ In (name_of d i) [T_ol; T_ul].
Definition Button_scope d i := Default_scope d i \/ ns_of d i = ns_HTML /\ name_of d i = T_button.
Definition Table_scope (d : list cell) (i : nat) : Prop := ns_of d i = ns_HTML /\ In (name_of d i) [T_html; T_table; T_template].
Definition Select_scope (d : list cell) (i : nat) : Prop := ~ (ns_of d i = ns_HTML /\ In (name_of d i) [T_optgroup; T_option]).

Definition no_factorial (d : list cell) (i : nat) : Prop := ~ (ns_of d i = ns_SVG /\ name_of d i = T_factorial).
Lemma is_html_named : forall t d i, is_html t d i = true <-> ns_of d i = ns_HTML /\ name_of d i = t.
Proof. intros. unfold is_html, is_el. now rewrite andb_true_iff, Z.eqb_eq, teqb_eq. Qed.
Lemma default_scope_list : forall d i, no_factorial d i -> (default_scope d i = true <-> Default_scope d i).
Proof.
  intros d i N. unfold default_scope, Default_scope, no_factorial in *.
  destruct (ns_of d i =? ns_HTML) eqn:H; [apply Z.eqb_eq in H; rewrite among_In, H; intuition discriminate|].
  destruct (ns_of d i =? ns_MathML) eqn:M; [apply Z.eqb_eq in M; rewrite among_In, M; cbn [app mathml_texts]; intuition discriminate|].
  destruct (ns_of d i =? ns_SVG) eqn:S; [apply Z.eqb_eq in S; rewrite among_In, S in *|]; apply Z.eqb_neq in H, M.
  - cbn [In] in *. split; [|intuition discriminate]. intro K. right. right. split; [reflexivity|].
    destruct K as [K|K]; [elim N; split; congruence|exact K].
  - apply Z.eqb_neq in S. split; [discriminate|]. tauto.
Qed.
Theorem C102_lists : forall d i,
  (no_factorial d i -> (default_scope d i = true <-> Default_scope d i)) /\
  (no_factorial d i -> (list_item_scope d i = true <-> List_item_scope d i)) /\
  (no_factorial d i -> (button_scope d i = true <-> Button_scope d i)) /\
  (table_scope d i = true <-> Table_scope d i) /\ (select_scope d i = true <-> Select_scope d i).
Proof.
  intros d i. repeat match goal with |- _ /\ _ => split end.
  - apply default_scope_list.
  - intro N. unfold list_item_scope, List_item_scope. rewrite !orb_true_iff, !is_html_named, (default_scope_list d i N).
    cbn [In]. intuition congruence.
  - intro N. unfold button_scope, Button_scope. rewrite !orb_true_iff, !is_html_named, (default_scope_list d i N). reflexivity.
  - unfold table_scope, Table_scope. rewrite !orb_true_iff, !is_html_named. cbn [In]. intuition congruence.
  - unfold select_scope, Select_scope. rewrite negb_true_iff, <- not_true_iff_false, orb_true_iff, !is_html_named. cbn [In].
    intuition congruence.
Qed.
Print Assumptions C102_lists.
Example C102_lists_example : exists d, no_factorial d 0 /\ default_scope d 0 = true.
Proof.
  exists [Cell (IElement ns_HTML T_td []) 0%nat []]. split; [|vm_compute; reflexivity]. intros [E _]. vm_compute in E. discriminate.
Qed.
(** The default list has one entry too many, the element factorial of SVG (707). *)
Theorem C102_factorial_refuted : exists d i, default_scope d i = true /\ ~ Default_scope d i.
Proof.
  exists [Cell (IElement ns_SVG T_factorial []) 0%nat []], 0%nat. split; [vm_compute; reflexivity|].
  unfold Default_scope. cbn. intuition discriminate.
Qed.
Print Assumptions C102_factorial_refuted.
Theorem C102_in_scope : forall scope t s,
  Ends (named s t) (fun i => scope (s_dom s) i = true) (ids s) ->
  exists b, in_scope scope t s = Val b /\ (b = true <-> In_scope (named s t) (fun i => scope (s_dom s) i = true) (ids s)).
Proof.
  intros scope t s (i & I & K).
  destruct (scope_from_spec (s_dom s) (is_html t (s_dom s)) (scope (s_dom s)) (s_stack s)) as (b & E & B).
  { exists i. split; [exact I|]. destruct K as [K|K]; [left; now apply is_html_named|now right]. }
  exists b. split; [exact E|]. rewrite B. unfold In_scope. split; intros (up & j & down & E1 & T & U); exists up, j, down.
  - split; [exact E1|]. split; [now apply is_html_named|]. intros k Ik. destruct (U k Ik) as [U1 U2]. split; [|exact U2].
    intro N. apply U1. now apply is_html_named.
  - split; [exact E1|]. split; [now apply is_html_named|]. intros k Ik. destruct (U k Ik) as [U1 U2]. split; [|exact U2].
    intro N. apply U1. now apply is_html_named in N.
Qed.
Print Assumptions C102_in_scope.
(** A walk that does not end is not answered "no" but runs into an assertion (632-671). *)
Theorem C102_no_end : forall scope t s,
  ~ Ends (named s t) (fun i => scope (s_dom s) i = true) (ids s) -> in_scope scope t s = Bad.
Proof.
  intros scope t s N. apply scope_from_bad. intros (i & I & K). apply N. exists i. split; [exact I|].
  destruct K as [K|K]; [left; now apply is_html_named in K|now right].
Qed.
Print Assumptions C102_no_end.
Definition with_stack (names : list tname) : st :=
  set_stack (map (Entry empty_tag) (seq 2 (List.length names)))
    (set_dom (tree_init ++ map (fun t => Cell (IElement ns_HTML t []) 0%nat []) names) (st_init false)).
Example C102_example :
  Ends (named (with_stack [T_b; T_p; T_td; T_p; T_html]) T_p)
       (fun i => button_scope (s_dom (with_stack [T_b; T_p; T_td; T_p; T_html])) i = true) (ids (with_stack [T_b; T_p; T_td; T_p; T_html])) /\
  in_scope button_scope T_p (with_stack [T_b; T_p; T_td; T_p; T_html]) = Val true /\
  in_scope button_scope T_p (with_stack [T_b; T_td; T_p; T_html]) = Val false /\
  in_scope button_scope T_p (with_stack [T_b; T_b]) = Bad.
Proof. split; [|vm_compute; auto]. exists 3%nat. split; [vm_compute; auto|]. left. split; reflexivity. Qed.

(** C103: the insertion mode to which the parser is reset is that of the standard (13.2.4.1), unless it parses a fragment. *)
Theorem C103_reset : forall s, s_fragment s = false -> s_stack s <> [] ->
  exists m, Reset s (ids s) m /\
            reset_mode s = match m with Val x => Val (set_mode x s) | Bad => Bad | NoFuel => NoFuel end.
Proof.
  intros s F N. exists (reset_from s (s_stack s)). split; [now apply reset_from_spec|]. unfold reset_mode.
  destruct (reset_from s (s_stack s)); reflexivity.
Qed.
Print Assumptions C103_reset.
Example C103_example :
  reset_mode (with_stack [T_b; T_td; T_tr; T_html]) = Val (set_mode M_in_cell (with_stack [T_b; T_td; T_tr; T_html])) /\
  reset_mode (with_stack [T_select; T_div; T_table; T_html]) =
    Val (set_mode M_in_select_in_table (with_stack [T_select; T_div; T_table; T_html])) /\
  reset_mode (with_stack [T_b; T_html]) = Val (set_mode M_before_head (with_stack [T_b; T_html])).
Proof. vm_compute. auto. Qed.
(** For a fragment the bottom of the stack is asked of a null pointer. *)
Theorem C103_fragment_refuted : exists s, s_fragment s = true /\ s_stack s <> [] /\ reset_mode s = Bad.
Proof. exists (set_fragment true (with_stack [T_b; T_html])). split; [reflexivity|]. split; [discriminate|]. vm_compute. reflexivity. Qed.
Print Assumptions C103_fragment_refuted.

(** C104: generating implied end tags takes from the stack the elements dd, dt, li, optgroup, option, p, rb, rp, rt and rtc
    that are the current node, one after the other, except those named, and nothing else. *)
Definition implied_names : list tname := [T_dd; T_dt; T_li; T_optgroup; T_option; T_p; T_rb; T_rp; T_rt; T_rtc].
Theorem C104_implied : forall except s,
  Implied (s_dom s) implied_names except (ids s) (ids (implied_except except s)) /\
  (exists up, s_stack s = up ++ s_stack (implied_except except s)) /\
  implied_except except s = set_stack (s_stack (implied_except except s)) s.
Proof.
  intros except s. split; [apply drop_implied_spec|]. split; [apply drop_implied_suffix|]. reflexivity.
Qed.
Print Assumptions C104_implied.
Theorem C104_thoroughly : forall s,
  Implied (s_dom s) (implied_names ++ [T_caption; T_colgroup; T_tbody; T_td; T_tfoot; T_th; T_thead; T_tr]) None
    (ids s) (ids (implied_thoroughly s)) /\
  (exists up, s_stack s = up ++ s_stack (implied_thoroughly s)) /\
  implied_thoroughly s = set_stack (s_stack (implied_thoroughly s)) s.
Proof.
  intros s. split; [apply drop_implied_spec|]. split; [apply drop_implied_suffix|]. reflexivity.
Qed.
Print Assumptions C104_thoroughly.
Example C104_example :
  ids (implied_except (Some T_li) (with_stack [T_rt; T_p; T_li; T_p; T_html])) = [4; 5; 6]%nat /\
  ids (implied_except None (with_stack [T_rt; T_p; T_li; T_p; T_html])) = [6]%nat.
Proof. vm_compute. auto. Qed.

(** C105: the end tag of a table ends a select in it: refuted, the table is looked for in select scope (4283-4320). *)
Theorem C105_select_refuted : forall listed,
  made listed "<table><td><select>a</table>b" =
    Val (page [el "table" [el "tbody" [el "tr" [el "td" [el "select" [txt "ab"]]]]]]) /\
  made listed "<table><td><select>a</table>b" <>
    Val (page [el "table" [el "tbody" [el "tr" [el "td" [el "select" [txt "a"]]]]]; txt "b"]).
Proof. intro. split; vm_compute; solve [reflexivity | discriminate]. Qed.
Print Assumptions C105_select_refuted.
Example C105_start : forall listed,
  made listed "<table><td><select>a<td>b" =
    Val (page [el "table" [el "tbody" [el "tr" [el "td" [el "select" [txt "a"]]; el "td" [txt "b"]]]]]).
Proof. intro. vm_compute. reflexivity. Qed.

(** C106: CDATA sections are read in foreign content and nowhere else: refuted, it is the other way round
    (tokenization.hpp:1587-1600). *)
Theorem C106_cdata_refuted : forall listed,
  made listed "<svg><![CDATA[x]]>" = Val (page [svg "svg" [NComment (lit "[CDATA[x]]")]]) /\
  made listed "<svg><![CDATA[x]]>" <> Val (page [svg "svg" [txt "x"]]) /\
  made listed "<p><![CDATA[x]]>" = Val (page [el "p" [txt "x"]]) /\
  made listed "<p><![CDATA[x]]>" <> Val (page [el "p" [NComment (lit "[CDATA[x]]")]]).
Proof. intro. repeat match goal with |- _ /\ _ => split end; vm_compute; solve [reflexivity | discriminate]. Qed.
Print Assumptions C106_cdata_refuted.
