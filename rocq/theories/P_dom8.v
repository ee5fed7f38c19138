(** Property C127: no element has two attributes of the same name. *)
From Coq Require Import ZArith List Bool String Lia.
From Verif Require Import M_infra M_encoding M_labels M_html M_html_ncr M_html_serialize M_dom_names M_dom M_dom2 L_dom L_dom2 L_dom21 L_dom37 L_dom41 L_dom47 P_dom P_html2.
Import ListNotations.
Open Scope Z_scope.
Open Scope list_scope.

Lemma good_lower : forall n, good_attribute n -> map cp_lower n = n.
Proof.
  intros n (_ & _ & F). induction F as [|c n [_ C] F IH]; [reflexivity|]. cbn [map]. rewrite IH. f_equal. unfold cp_lower, is_ascii_upper_alpha.
  destruct ((0x41 <=? c) && (c <=? 0x5A)) eqn:E; [|reflexivity]. apply andb_true_iff in E. rewrite !Z.leb_le in E. contradiction.
Qed.
Lemma good_sent : forall g, good_tag g -> sent (g_attributes g).
Proof. intros g (_ & A & N). split; [exact N|]. eapply Forall_impl; [|exact A]. exact good_lower. Qed.
Lemma within_distinct : forall listed fuel fragment l s ns p n attrs kids, (forall g, In (TStart g) l -> sent (g_attributes g)) ->
  construct listed fuel (st_init fragment) l = Val s -> Within (document s) (NElement ns p n attrs kids) -> distinct attrs.
Proof.
  intros listed fuel fragment l s ns p n attrs kids F H W. pose proof (built_forest _ _ _ _ _ H) as [_ R]. destruct (reads_within _ _ _ _ R W) as [i Q].
  inversion Q; subst. eapply built_distinct; [exact F|exact H|]. unfold cell_of, no_cell. eassumption.
Qed.

(** For every list of tokens whose start tags have different names of attributes in lower case, apart from those left out. *)
Theorem C127_tokens_partial : forall listed fuel fragment l s ns p n attrs kids,
  (forall g, In (TStart g) l -> NoDup (attribute_names g) /\ Forall (fun x => map cp_lower x = x) (attribute_names g)) ->
  construct listed fuel (st_init fragment) l = Val s -> Within (document s) (NElement ns p n attrs kids) ->
  NoDup (map (fun a => (at_ns a, at_prefix a, at_local a)) attrs).
Proof. intros listed fuel fragment l s ns p n attrs kids F H W. exact (within_distinct listed fuel fragment l s ns p n attrs kids F H W). Qed.
Print Assumptions C127_tokens_partial.

(** For every text: no element of the document has two attributes with the same namespace, prefix and local name. *)
Theorem C127_text_partial : forall listed steps fuel text s ns p n attrs kids, parse_text listed match_ncr steps fuel text = Val s ->
  Within (document s) (NElement ns p n attrs kids) -> NoDup (map (fun a => (at_ns a, at_prefix a, at_local a)) attrs).
Proof.
  intros listed steps fuel text s ns p n attrs kids H W. unfold parse_text in H. destruct (tokenize _ _ _ _ _ _) as [l| |] eqn:E; try discriminate.
  apply (within_distinct listed fuel false l s ns p n attrs kids); [|exact H|exact W]. intros g G. apply good_sent.
  exact (proj1 (proj1 (C108_tags _ _ _ _ _ (switch_text _ _ _) E g) G)).
Qed.
Print Assumptions C127_text_partial.

(** Where no start tag has an attribute that gets a prefix, the namespace and the local name tell the attributes apart, as the
    standard has it. *)
Theorem C127_plain_partial : forall listed steps fuel text l s ns p n attrs kids,
  tokenize (switch_of listed fuel false) (cdata_of listed fuel false) match_ncr steps tok_init text = Val l -> Forall no_prefixed l ->
  parse_text listed match_ncr steps fuel text = Val s -> Within (document s) (NElement ns p n attrs kids) ->
  NoDup (map (fun a => (at_ns a, at_local a)) attrs).
Proof.
  intros listed steps fuel text l s ns p n attrs kids T F H W. pose proof (C127_text_partial _ _ _ _ _ _ _ _ _ _ H W) as N.
  unfold parse_text in H. rewrite T in H. pose proof (plain_prefixes listed fuel false l s ns p n attrs kids F H W) as P. rewrite Forall_forall in P.
  eapply nodup_map; [|exact N]. intros x y X Y E. cbv beta in *. rewrite (P x X), (P y Y). injection E as -> ->. reflexivity.
Qed.
Print Assumptions C127_plain_partial.

(** Without that condition they do not: the prefix xlink stays in the token after the svg element, the attribute of the further
    html start tag gets it and is taken for another one. *)
Theorem C127_name_refuted : forall listed, exists text s ns p n attrs kids,
  parse_text listed match_ncr 400 20 text = Val s /\ Within (document s) (NElement ns p n attrs kids) /\
  ~ NoDup (map (fun a => (at_ns a, at_local a)) attrs).
Proof.
  intro listed. exists (lit "<html a=b><svg xlink:href=x></svg><html a=c>"). eexists. exists ns_HTML, [], (lit "html"),
    [Attr 0 [] (lit "a") (lit "b"); Attr 0 (lit "xlink") (lit "a") (lit "c")]. eexists.
  split; [vm_compute; reflexivity|]. split.
  - eapply Wi_child; [apply Wi_self|]. vm_compute. left. reflexivity.
  - intro N. cbn [map] in N. inversion N as [|? ? X _]; subst. apply X. now left.
Qed.
Print Assumptions C127_name_refuted.

Example C127_text_ex : forall listed, exists s ns p n attrs kids,
  parse_text listed match_ncr 400 20 (lit "<p a=1 A=2 b=3><svg viewbox=1 viewBox=2 xlink:href=x>") = Val s /\
  Within (document s) (NElement ns p n attrs kids) /\ List.length attrs = 2%nat /\ ns = ns_SVG.
Proof.
  intro listed. eexists. exists ns_SVG, [], (lit "svg"). eexists. eexists. split; [vm_compute; reflexivity|]. split.
  - eapply Wi_child; [eapply Wi_child; [eapply Wi_child; [eapply Wi_child; [apply Wi_self|]|]|]|].
    + vm_compute. left. reflexivity.
    + cbn [children]. right. left. reflexivity.
    + cbn [children]. left. reflexivity.
    + cbn [children]. left. reflexivity.
  - split; reflexivity.
Qed.
Example C127_plain_ex : forall listed, exists l,
  tokenize (switch_of listed 20 false) (cdata_of listed 20 false) match_ncr 400 tok_init (lit "<p a=1 A=2 b=3>") = Val l /\ Forall no_prefixed l /\
  exists g, In (TStart g) l /\ List.length (g_attributes g) = 3%nat.
Proof.
  intro listed. eexists. split; [vm_compute; reflexivity|]. split.
  - constructor; [|repeat constructor]. cbn [no_prefixed g_attributes]. repeat constructor; vm_compute; intuition discriminate.
  - eexists. split; [left; reflexivity|reflexivity].
Qed.
Example C127_tokens_ex : let g := Tag (lit "p") false [Attribute (lit "a") [] false; Attribute (lit "b") [] false; Attribute (lit "a") [] true] in
  NoDup (attribute_names g) /\ Forall (fun x => map cp_lower x = x) (attribute_names g) /\
  exists s, construct (fun _ => false) 20 (st_init false) [TStart g] = Val s.
Proof.
  cbv zeta. split; [vm_compute; repeat constructor; cbn; intuition discriminate|]. split; [vm_compute; repeat constructor|].
  eexists. vm_compute. reflexivity.
Qed.
