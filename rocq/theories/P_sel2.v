(** Theorems on the matching of CSS selectors and on queries. *)
From Coq Require Import String.
From Coq Require Import ZArith List Bool Lia.
From Coq Require Import Sorting.Sorted.
From Verif Require Import M_unicode M_infra M_encoding M_labels L_unicode L_infra M_css M_cssp L_cssp P_cssp M_sel L_sel P_sel L_sel2.
Import ListNotations.
Open Scope list_scope.
Open Scope Z_scope.

(** Every value of an attribute is a string of [char32_t]. *)
Definition strings (F : forest) : Prop := forall p k, kind_at F p = Some k -> ranged_kind k.
(** No universal selector without a prefix (C86_any_refuted). *)
Definition no_bare_any (s : complex) : Prop := forall cs, In (Comp cs) s -> ~ In (PType (TAny None)) cs.

(** The document for the examples: a document of HTML without quirks, <html><body class="x y"><p id="i" lang="en-US">, text, <p>, <b>. *)
Definition at_ns (n v : string) : attr := Attr [] [] (lit n) (lit v).
Definition el (n : string) (l : list attr) (ch : list tree) : tree := Node (KElement (Element html_ns (lit n) l)) ch.
Definition page (mode : Z) : forest :=
  [Node (KDocument 2 mode)
     [el "html" [] [el "body" [at_ns "class" "x y"] [el "p" [at_ns "id" "i"; at_ns "lang" "en-US"] [el "i" [] []]; Node KOther []; el "p" [] []; el "b" [] []]]]].
Definition plain_page := page 1.
Definition body : pointer := [0; 0; 0]%nat.
Lemma page_strings m : strings (page m).
Proof.
  intros p k H e ->. unfold kind_at in H.
  assert (G : forall n (q : pointer) t, (List.length q <= n)%nat -> at_ (page m) q = Some t -> In t
    [nth 0 (page m) (Node KOther []); el "html" [] [el "body" [at_ns "class" "x y"] [el "p" [at_ns "id" "i"; at_ns "lang" "en-US"] [el "i" [] []]; Node KOther []; el "p" [] []; el "b" [] []]];
     el "body" [at_ns "class" "x y"] [el "p" [at_ns "id" "i"; at_ns "lang" "en-US"] [el "i" [] []]; Node KOther []; el "p" [] []; el "b" [] []]; el "p" [at_ns "id" "i"; at_ns "lang" "en-US"] [el "i" [] []];
     el "i" [] []; Node KOther []; el "p" [] []; el "b" [] []]).
  { induction n as [|n IH]; intros q t L E; [destruct q; [discriminate|cbn in L; lia]|]. destruct q as [|i [|j q]]; [discriminate| |].
    - cbn [at_] in E. destruct i as [|i]; [injection E as <-; now left|]. destruct i; discriminate.
    - rewrite at_cons in E. destruct (at_ (page m) (j :: q)) as [u|] eqn:U; [|discriminate]. apply IH in U; [|cbn in *; lia]. cbn [nth page] in U. cbn [In] in U.
      repeat (destruct U as [<-|U]; [cbn [t_children el] in E; repeat (destruct i as [|i]; [injection E as <-; cbn [In]; tauto|]); destruct i; discriminate|]). destruct U. }
  destruct (at_ (page m) p) as [t|] eqn:E; [|discriminate]. specialize (G _ p t (le_n _) E). injection H as H. cbn [In nth page] in G.
  repeat (destruct G as [<-|G]; [try discriminate H; injection H as <-; intros a I; cbn in I; repeat (destruct I as [<-|I]; [cbn; repeat constructor; lia|]); destruct I|]). destruct G.
Qed.

(** * C85: the combinators *)

Theorem C85_combinators D E x F c s p : allowed_mode c -> strings F -> g_complex D E x s -> no_bare_any s -> node F p ->
  exists b, match_complex F c s p = Some b /\ (b = true <-> chain F (holds_at F c) s p).
Proof.
  intros M R G N P. unfold match_complex. rewrite asserted_ok by exact M. destruct (reverse_spec F c (rev s)) with (p := p) as (b & B & I).
  - now apply (complex_backwards D E x).
  - intros cs q k H K. apply in_rev in H. pose proof (cx_good D E x s G N cs H) as Q. destruct (compound_spec cs k c M (R q k K) Q) as (b & -> & _). discriminate.
  - exact P.
  - exists b. split; [exact B|]. now rewrite I, chain_rev.
Qed.
(** [html > body i], [p ~ b], [p + b] and [i + b] in a document. *)
Definition ty (n : string) : item := Comp [PType (TName None (lit n))].
Example C85_combinators_ex : strings plain_page /\ node plain_page [0; 0; 0; 0; 0]%nat /\
  match_complex plain_page (Context 2 1 []) [ty "html"; Comb 0x3E; ty "body"; Comb 0x20; ty "i"] [0; 0; 0; 0; 0]%nat = Some true /\
  match_complex plain_page (Context 2 1 []) [ty "html"; Comb 0x3E; ty "i"] [0; 0; 0; 0; 0]%nat = Some false /\
  match_complex plain_page (Context 2 1 []) [ty "p"; Comb 0x2B; ty "p"; Comb 0x2B; ty "b"] [3; 0; 0; 0]%nat = Some true /\
  match_complex plain_page (Context 2 1 []) [ty "p"; Comb 0x7E; ty "b"] [3; 0; 0; 0]%nat = Some true /\
  match_complex plain_page (Context 2 1 []) [ty "b"; Comb 0x7E; ty "p"] [2; 0; 0; 0]%nat = Some false.
Proof. split; [apply page_strings|]. split; [now eexists|wit]. Qed.
Print Assumptions C85_combinators.

(** A selector list holds where one of its selectors does. *)
Theorem C85_lists F c l p : allowed_mode c -> strings F -> (forall s, In s l -> (exists D E x, g_complex D E x s) /\ no_bare_any s) -> node F p ->
  exists b, match_list F c l p = Some b /\ (b = true <-> exists s, In s l /\ chain F (holds_at F c) s p).
Proof.
  intros M R G P. unfold match_list. rewrite asserted_ok by exact M. destruct (any_spec (fun s => match_complex F c s p) l) as (b & B & I).
  - intros s H. destruct (G s H) as ((D & E & x & Gx) & N). destruct (C85_combinators D E x F c s p M R Gx N P) as (b & -> & _). discriminate.
  - exists b. split; [exact B|]. rewrite I. split; intros (s & H & K); exists s; (split; [exact H|]); destruct (G s H) as ((D & E & x & Gx) & N); destruct (C85_combinators D E x F c s p M R Gx N P) as (b' & B' & I').
    + rewrite B' in K. injection K as ->. now apply I'.
    + rewrite B'. f_equal. now apply I'.
Qed.
Example C85_lists_ex : match_list plain_page (Context 2 1 []) [[ty "i"]; [ty "body"; Comb 0x3E; ty "p"]] [2; 0; 0; 0]%nat = Some true /\ match_list plain_page (Context 2 1 []) [] [2; 0; 0; 0]%nat = Some false.
Proof. wit. Qed.
Print Assumptions C85_lists.

(** A compound selector holds where every one of its parts does. *)
Theorem C85_compounds D E x cs c k : allowed_mode c -> ranged_kind k -> g_compound D E x cs -> ~ In (PType (TAny None)) cs ->
  exists b, match_compound cs k c = Some b /\ (b = true <-> forall p, In p cs -> match_part p k c = Some true).
Proof. intros M R G N. apply compound_spec; [exact M|exact R|]. now apply (comp_good D E x). Qed.
Example C85_compounds_ex : match_compound [PType (TName None (lit "p")); PSub (SId (lit "i"))] (KElement (Element html_ns (lit "p") [at_ns "id" "i"])) (Context 2 1 []) = Some true /\
  match_compound [PType (TName None (lit "p")); PSub (SId (lit "i"))] (KElement (Element html_ns (lit "p") [at_ns "id" "j"])) (Context 2 1 []) = Some false.
Proof. wit. Qed.
Print Assumptions C85_compounds.

(** * C86: the simple selectors *)

(** Strings are compared without the case in a document with quirks. *)
Definition same_in (c : context) (a b : list Z) : Prop := if c_mode c =? 2 then fold_case a = fold_case b else a = b.
(** What a part of a compound selector asks of an element; a pseudo-class other than [:root] and a pseudo-element ask too much. *)
Definition part_says (c : context) (p : part) (e : element) : Prop :=
  match p with
  | PType t => type_says c t e
  | PSub (SId v) => exists a, In a (e_attrs e) /\ named c (lit "id") a /\ same_in c (a_value a) v
  | PSub (SClass n) => exists a, In a (e_attrs e) /\ named c (lit "class") a /\ exists w, words (a_value a) w /\ same_in c w n
  | PSub (SAttr s) => exists a, In a (e_attrs e) /\ attr_name_says c (at_prefix s) (at_name s) a /\ value_says (at_matcher s) (at_value s) (at_modifier s) (a_value a)
  | PSub (SPseudo _) | PElement _ | PClass _ => False
  end.
(** Outside of the cases of the refutations. *)
Definition usual (c : context) (e : element) (p : part) : Prop :=
  match p with
  | PType t => t <> TAny None
  | PSub (SId v) => c_mode c = 2 -> fold_case v = v
  | PSub (SClass n) => c_mode c = 2
  | PSub (SAttr s) =>
      good_attr s /\ (In (at_matcher s) [0x5E; 0x24; 0x2A] -> at_value s <> []) /\
      (at_matcher s = 0x7C -> forall a, In a (e_attrs e) -> folded (at_modifier s) (a_value a) <> folded (at_modifier s) (at_value s)) /\
      forall a b, In a (e_attrs e) -> In b (e_attrs e) -> attr_name_says c (at_prefix s) (at_name s) a -> attr_name_says c (at_prefix s) (at_name s) b -> a = b
  | PSub (SPseudo q) | PClass q => forall n, q <> PName n 1
  | PElement _ => True
  end.
Lemma pseudo_false q e c : allowed_mode c -> (forall n, q <> PName n 1) -> match_pseudo_class q (KElement e) c = Some false.
Proof.
  intros M U. unfold match_pseudo_class. rewrite asserted_ok by exact M. destruct q as [n id|n a]; [|reflexivity]. destruct (id =? 1) eqn:I; [|reflexivity]. apply Z.eqb_eq in I. subst id. now specialize (U n).
Qed.
Theorem C86_simple_partial c e p : allowed_mode c -> ranged e -> usual c e p -> exists b, match_part p (KElement e) c = Some b /\ (b = true <-> part_says c p e).
Proof.
  intros M R U. destruct p as [t|[v|n|s|q]|q|q]; cbn [match_part part_says usual] in *; try (unfold match_subclass; rewrite asserted_ok by exact M).
  - now apply type_spec.
  - destruct (id_spec c v e M) as (b & B & I). exists b. split; [exact B|]. rewrite I. unfold same_in. split; intros (a & A & N & E); exists a; (split; [exact A|]); (split; [exact N|]); destruct (c_mode c =? 2) eqn:Q; try exact E; apply Z.eqb_eq in Q; specialize (U Q); congruence.
  - destruct (class_spec c n e M R) as (b & B & I). exists b. split; [exact B|]. rewrite I. unfold same_in. rewrite U. cbn [Z.eqb Pos.eqb]. split.
    + intros (a & A & N & w & W & E). exists a. split; [exact A|]. split; [exact N|]. apply (words_fold (a_value a) w (R a A)) in W. destruct W as (v & W & ->). rewrite fold_fold in E. eauto.
    + intros (a & A & N & w & W & E). exists a. split; [exact A|]. split; [exact N|]. exists (fold_case w). split; [apply (words_fold (a_value a) _ (R a A)); eauto|now rewrite fold_fold].
  - destruct U as ((G1 & G2) & V & B & Un). unfold match_attr. rewrite asserted_ok by exact M. destruct (find_attr_spec c (at_prefix s) (at_name s) (e_attrs e)) as ([a|] & -> & H); cbn [obind].
    + destruct H as (x & y & L & N & _). assert (A : In a (e_attrs e)) by (rewrite L; apply in_elt). destruct (value_spec (at_matcher s) (at_value s) (at_modifier s) (a_value a) G1 G2 (R a A)) as (b & -> & I). exists b. split; [reflexivity|].
      assert (T : b = true <-> value_says (at_matcher s) (at_value s) (at_modifier s) (a_value a)).
      { rewrite I. clear I. cbn [In] in *. unfold value_says. specialize (fun K => B K a A).
        destruct G1 as [K|[K|[K|[K|[K|[K|[K|[]]]]]]]]; rewrite <- K in *; cbv iota; try reflexivity; unfold value_says;
          (split; [intros H|intros [H|[H|[H|[H|[H|[H|H]]]]]]; try discriminate H; destruct H as [? H]; try discriminate]).
        - right; right; right; left. auto.
        - destruct H as [H|H]; [now destruct (B eq_refl)|exact H].
        - right; right; right; right; left. auto.
        - now destruct H.
        - right; right; right; right; right; left. split; [reflexivity|]. split; [apply V; tauto|exact H].
        - now destruct H.
        - right; right; right; right; right; right. split; [reflexivity|]. split; [apply V; tauto|exact H].
        - now destruct H. }
      rewrite T. split; [intros K; exists a; auto|]. intros (a' & A' & N' & K). now rewrite (Un a a' A A' N N').
    + exists false. split; [reflexivity|]. split; [discriminate|]. intros (a & A & N & _). now destruct (H a A).
  - rewrite pseudo_false by assumption. exists false. split; [reflexivity|]. split; [discriminate|intros []].
  - unfold match_pseudo_element. rewrite asserted_ok by exact M. exists false. split; [reflexivity|]. split; [discriminate|intros []].
  - rewrite pseudo_false by assumption. exists false. split; [reflexivity|]. split; [discriminate|intros []].
Qed.
Example C86_simple_partial_ex :
  match_part (PSub (SAttr (AttrSel None (lit "LANG") 0x7C (lit "EN") 0x69))) (KElement (Element html_ns (lit "p") [at_ns "lang" "en-US"])) (Context 2 1 []) = Some true /\
  match_part (PSub (SAttr (AttrSel None (lit "lang") 0x7C (lit "EN") 0))) (KElement (Element html_ns (lit "p") [at_ns "lang" "en-US"])) (Context 2 1 []) = Some false /\
  match_part (PSub (SClass (lit "y"))) (KElement (Element html_ns (lit "p") [at_ns "class" "X Y"])) (Context 2 2 []) = Some true /\
  match_part (PType (TName (Some (lit "h")) (lit "P"))) (KElement (Element html_ns (lit "p") [])) (Context 2 1 [(lit "h", html_ns)]) = Some true /\
  match_part (PType (TName (Some []) (lit "p"))) (KElement (Element html_ns (lit "p") [])) (Context 2 1 []) = Some false /\
  usual (Context 2 1 []) (Element html_ns (lit "p") [at_ns "lang" "en-US"]) (PSub (SAttr (AttrSel None (lit "LANG") 0x7C (lit "EN") 0x69))).
Proof.
  do 5 (split; [wit|]). split; [split; [cbn; tauto|discriminate]|]. split; [intros _; discriminate|]. split; [intros _ a [<-|[]]; discriminate|]. intros a b [<-|[]] [<-|[]] _ _. reflexivity.
Qed.
Print Assumptions C86_simple_partial.

(** Only elements match. *)
Theorem C86_elements D E x cs c k : allowed_mode c -> g_compound D E x cs -> (forall e, k <> KElement e) -> match_compound cs k c = Some false.
Proof.
  intros M G N. assert (Q : cs <> []) by (intros ->; inversion G; try (now destruct l)). unfold match_compound. rewrite asserted_ok by exact M. destruct cs as [|p r]; [congruence|]. cbn [all_parts].
  assert (K : match_part p k c = Some false).
  { destruct k as [e|t m|]; [now destruct (N e)| |]; destruct p as [t0|[v|n|s|q]|q|q]; cbn [match_part]; unfold match_subclass, match_type, match_id, match_class, match_attr, match_pseudo_class, match_pseudo_element; rewrite !asserted_ok by exact M; try reflexivity; destruct q as [n id|n a]; cbn; try reflexivity; now destruct (id =? 1). }
  now rewrite K.
Qed.
Example C86_elements_ex : match_compound [PClass (PName (lit "root") 1)] (KDocument 2 1) (Context 2 1 []) = Some false /\ match_compound [PType (TAny None)] KOther (Context 2 1 []) = Some false.
Proof. wit. Qed.
Print Assumptions C86_elements.

(** What compound selectors say, and the combinators with it: the meaning of the whole. *)
Definition says_at (F : forest) (c : context) (cs : compound) (p : pointer) : Prop := exists e, kind_at F p = Some (KElement e) /\ forall q, In q cs -> part_says c q e.
Lemma chain_mono F (f g : compound -> pointer -> Prop) s p : (forall cs p, In (Comp cs) s -> f cs p -> g cs p) -> chain F f s p -> chain F g s p.
Proof.
  intros H G. induction G as [cs p G|l k cs q p G IH L Hp]; [constructor; apply H; [now left|exact G]|]. apply (chain_more F g l k cs q p); [|exact L|].
  - apply IH. intros cs' p' I. apply H. apply in_or_app. now left.
  - apply H; [|exact Hp]. apply in_or_app. right. right. now left.
Qed.
Lemma cx_comp D E x s cs : g_complex D E x s -> In (Comp cs) s -> exists y, g_compound D E y cs.
Proof. intros G. induction G; cbn [In]; [intros [[= <-]|[]]; eauto|]. intros [[= <-]|[K|I]]; [eauto|discriminate|auto]. Qed.
Theorem C86_complex_partial D E x F c s p : allowed_mode c -> strings F -> g_complex D E x s -> node F p ->
  (forall cs q e part, In (Comp cs) s -> kind_at F q = Some (KElement e) -> In part cs -> usual c e part) -> no_bare_any s ->
  exists b, match_complex F c s p = Some b /\ (b = true <-> chain F (says_at F c) s p).
Proof.
  intros M R G P U N. destruct (C85_combinators D E x F c s p M R G N P) as (b & B & I). exists b. split; [exact B|]. rewrite I.
  assert (Q : forall cs q, In (Comp cs) s -> (holds_at F c cs q <-> says_at F c cs q)).
  { intros cs q Hc. destruct (cx_comp D E x s cs G Hc) as [y Gy]. unfold holds_at, says_at. split.
    - intros (k & K & H). destruct (C85_compounds D E y cs c k M (R q k K) Gy (N cs Hc)) as (b' & B' & I'). rewrite B' in H. injection H as ->. specialize (proj1 I' eq_refl) as A.
      destruct k as [e|t m|]; [|exfalso; rewrite (C86_elements D E y cs c _ M Gy) in B'; [discriminate|discriminate]|exfalso; rewrite (C86_elements D E y cs c _ M Gy) in B'; [discriminate|discriminate]].
      exists e. split; [exact K|]. intros part Hp. destruct (C86_simple_partial c e part M (R q _ K e eq_refl) (U cs q e part Hc K Hp)) as (b2 & B2 & I2). apply I2. specialize (A part Hp). congruence.
    - intros (e & K & A). exists (KElement e). split; [exact K|]. destruct (C85_compounds D E y cs c _ M (R q _ K) Gy (N cs Hc)) as (b' & -> & I'). f_equal. apply I'. intros part Hp.
      destruct (C86_simple_partial c e part M (R q _ K e eq_refl) (U cs q e part Hc K Hp)) as (b2 & -> & I2). f_equal. apply I2. auto. }
  split; apply chain_mono; intros cs q Hc; now apply Q.
Qed.
Example C86_complex_partial_ex : match_complex plain_page (Context 2 1 []) [ty "body"; Comb 0x20; Comp [PType (TName None (lit "P")); PSub (SAttr (AttrSel None (lit "lang") 0x5E (lit "en") 0))]] [0; 0; 0; 0]%nat = Some true /\
  match_complex plain_page (Context 2 1 []) [ty "body"; Comb 0x20; Comp [PType (TName None (lit "P")); PSub (SAttr (AttrSel None (lit "lang") 0x5E (lit "en") 0))]] [2; 0; 0; 0]%nat = Some false.
Proof. wit. Qed.
Print Assumptions C86_complex_partial.

Ltac chars := repeat (apply Forall_cons; [unfold ws; intuition discriminate|]); apply Forall_nil.
(** Outside of quirks, [.x] takes no notice of its name: it matches class="y" and does not match class="x y". *)
Theorem C86_class_refuted : exists e1 e2 c, e1 = Element html_ns (lit "p") [at_ns "class" "y"] /\ e2 = Element html_ns (lit "p") [at_ns "class" "x y"] /\ c = Context 2 1 [] /\
  match_part (PSub (SClass (lit "x"))) (KElement e1) c = Some true /\ ~ part_says c (PSub (SClass (lit "x"))) e1 /\
  match_part (PSub (SClass (lit "x"))) (KElement e2) c = Some false /\ part_says c (PSub (SClass (lit "x"))) e2.
Proof.
  do 3 eexists. do 3 (split; [reflexivity|]). split; [wit|]. split.
  - intros (a & [<-|[]] & _ & w & (l & W & I) & K). cbv in K. subst w. assert (W1 : Words (lit "y") [lit "y"]) by (apply (Words_cons [] (lit "y") [] []); [chars|discriminate|chars|now left|apply Words_nil; chars]).
    rewrite (Words_fun _ l W _ W1) in I. destruct I as [I|[]]. discriminate I.
  - split; [wit|]. eexists. split; [now left|]. split; [reflexivity|]. exists (lit "x"). split; [|reflexivity]. exists [lit "x"; lit "y"]. split; [|now left].
    apply (Words_cons [] (lit "x") (lit " y") [lit "y"]); [chars|discriminate|chars|right; do 2 eexists; split; [reflexivity|unfold ws; vm_compute; intuition discriminate]|].
    apply (Words_cons (lit " ") (lit "y") [] []); [chars|discriminate|chars|now left|apply Words_nil; chars].
Qed.
Print Assumptions C86_class_refuted.
(** In quirks, an identifier with a capital letter does not match itself. *)
Theorem C86_id_refuted : exists e c, e = Element html_ns (lit "p") [at_ns "id" "A"] /\ c = Context 2 2 [] /\ match_part (PSub (SId (lit "A"))) (KElement e) c = Some false /\ part_says c (PSub (SId (lit "A"))) e.
Proof. do 2 eexists. do 2 (split; [reflexivity|]). split; [wit|]. eexists. split; [now left|]. split; reflexivity. Qed.
Print Assumptions C86_id_refuted.
(** The universal selector without a prefix reads what is not there, with every element. *)
Theorem C86_any_refuted : exists t, t = TAny None /\ parse_selector 20 [] (lit "*") = Val [[Comp [PType t]]] /\ forall c e, match_part (PType t) (KElement e) c = None.
Proof. eexists. split; [reflexivity|]. split; [wit|]. intros c e. cbn [match_part match_type obind]. unfold match_type, asserted. now destruct (_ && _). Qed.
Print Assumptions C86_any_refuted.
(** [[lang|=en]] does not match lang="en"; [[a^=""]], [[a$=""]] and [[a*=""]] match what they should not. *)
Theorem C86_value_refuted : exists e c, e = Element html_ns (lit "p") [at_ns "lang" "en"] /\ c = Context 2 1 [] /\
  (let s := PSub (SAttr (AttrSel None (lit "lang") 0x7C (lit "en") 0)) in match_part s (KElement e) c = Some false /\ part_says c s e) /\
  forall k, In k [0x5E; 0x24; 0x2A] -> let s := PSub (SAttr (AttrSel None (lit "lang") k [] 0)) in match_part s (KElement e) c = Some true /\ ~ part_says c s e.
Proof.
  do 2 eexists. do 2 (split; [reflexivity|]). split.
  - split; [wit|]. eexists. split; [now left|]. split; [now split|]. right; right; right; left. split; [reflexivity|]. now left.
  - cbn [In]. intros k [<-|[<-|[<-|[]]]]; (split; [wit|]); intros (a & _ & _ & [H|[H|[H|[H|[H|[H|H]]]]]]); try discriminate H; cbn [at_matcher at_value] in H; destruct H as [E H]; try discriminate E; now destruct H.
Qed.
Print Assumptions C86_value_refuted.
(** [[*|a=y]] only looks at the first attribute of that name. *)
Theorem C86_first_refuted : exists e c s, e = Element html_ns (lit "p") [at_ns "a" "x"; Attr (lit "u") [] (lit "a") (lit "y")] /\ c = Context 2 1 [] /\ s = PSub (SAttr (AttrSel (Some (lit "*")) (lit "a") 0x3D (lit "y") 0)) /\
  match_part s (KElement e) c = Some false /\ part_says c s e.
Proof.
  do 3 eexists. do 3 (split; [reflexivity|]). split; [wit|]. eexists. split; [right; now left|]. split; [split; [now left|reflexivity]|]. right; left. now split.
Qed.
Print Assumptions C86_first_refuted.
(** [:root] is any element of HTML named html, and is not the root of another document. *)
Theorem C86_root_refuted : exists F G c s, F = [Node (KDocument 2 1) [el "html" [] [el "html" [] []]]] /\ G = [Node (KDocument 1 1) [Node (KElement (Element [] (lit "r") [])) []]] /\ c = Context 2 1 [] /\
  s = [Comp [PClass (PName (lit "root") 1)]] /\ match_complex F c s [0; 0; 0]%nat = Some true /\ match_complex G (Context 1 1 []) s [0; 0]%nat = Some false.
Proof. do 4 eexists. do 4 (split; [reflexivity|]). wit. Qed.
Print Assumptions C86_root_refuted.

(** * C87: queries *)

Lemma parsed_complex fuel m src l s : parse_selector fuel m src = Val l -> In s l -> exists x, g_complex (declared_code m) end_code x s.
Proof.
  unfold parse_selector. destruct (normalize_into_token_stream fuel src) as [t| |]; try discriminate. cbn [pbind]. destruct (parse_list_of_component_values fuel t) as [v| |]; try discriminate. cbn [pbind].
  rewrite selector_list_val. cbn [pbind]. destruct (list_val _ _ _ v) as [[l1 r1]|] eqn:E; intros H; injection H as H; subst l; [|intros []].
  apply (list_sound _ _ _ _ (cx_val m) (cx_sound m) (cx_solid _ _)) in E. destruct E as (_ & x & _ & G). clear - G. induction G as [x a s0 G _|x a s0 t y l G _ _ _ IH]; [intros [<-|[]]; eauto|]. intros [<-|I]; [eauto|auto].
Qed.
(** The proper descendants of [p]. *)
Definition inside (p q : pointer) : Prop := exists a, a <> [] /\ q = a ++ p.
(** The document that a query at [p] is in has type [fst] and mode [snd]. *)
Definition query_context (F : forest) (p : pointer) (c : context) : Prop := exists r t m, tree_root F p = Some r /\ r <> [] /\ document_of F r = Some (t, m) /\ c = Context t m [].
Theorem C87_all F p c src fuel l : strings F -> node F p -> query_context F p c -> allowed_mode c -> parse_selector fuel [] src = Val l -> (forall s, In s l -> no_bare_any s) ->
  exists out N, (forall n, (N <= n)%nat -> query_selector_all fuel n F p src = Val out) /\ StronglySorted before out /\ NoDup out /\
    forall q, In q out <-> node F q /\ inside p q /\ exists s, In s l /\ chain F (holds_at F c) s q.
Proof.
  intros R P (r & t & m & T & Nr & Dc & ->) M L U. destruct (tree_root_suffix F p r T) as [a Ea].
  assert (Np : p <> []) by (intros ->; destruct P as [u Q]; discriminate Q).
  assert (Pr : node F r) by (apply (node_down F a r Nr); now rewrite <- Ea). destruct Pr as [tr Tr].
  assert (Df : forall q, node F q -> exists b, match_list F (Context t m []) l q = Some b /\ (b = true <-> exists s, In s l /\ chain F (holds_at F (Context t m [])) s q)).
  { intros q Q. apply C85_lists; [exact M|exact R| |exact Q]. intros s S. split; [|now apply U]. destruct (parsed_complex fuel [] src l s L S) as [x X]. now exists (declared_code []), end_code, x. }
  set (g := fun q => match chosen F (Context t m []) l p q with Some true => true | _ => false end).
  assert (W : all_below F [r] = walk r tr) by (unfold all_below; cbn [map concat]; rewrite app_nil_r; unfold tree_at; now rewrite Tr).
  assert (So : StronglySorted before (filter g (walk r tr))) by (apply filter_sorted, (walk_sorted (size tr)); lia).
  exists (filter g (walk r tr)), (size tr). split.
  - intros n Hn. unfold query_selector_all. rewrite T. cbn [popt pbind]. rewrite L. cbn [pbind]. destruct r as [|i r0]; [congruence|]. unfold match_selector. rewrite Dc. cbn [popt pbind]. rewrite loop_spec; [now rewrite W|..].
    + intros q Q. destruct (Df q Q) as (b & -> & _). discriminate.
    + constructor; [|constructor]. split; [discriminate|now exists tr].
    + rewrite W, (walk_length (size tr)); lia.
  - split; [exact So|]. split; [now apply sorted_nodup|]. intros q. rewrite filter_In, (walk_in (size tr) F tr r q) by (auto; lia). unfold g, chosen. destruct p as [|ip pp] eqn:Ep; [congruence|]. rewrite <- Ep in *. clear Ep.
    assert (In2 : below p (parent q) = true <-> inside p q).
    { rewrite below_iff by exact Np. unfold inside, parent. split.
      - intros [b B]. destruct q as [|j q]; [cbn in B; destruct b; [cbn in B; congruence|discriminate]|]. exists (j :: b). split; [discriminate|]. cbn in B |- *. now rewrite B.
      - intros ([|j b] & Nb & ->); [congruence|]. now exists b. }
    split.
    + intros ((Q & _) & H). destruct (below p (parent q)) eqn:B; [|discriminate]. destruct (Df q Q) as (b & E & I). rewrite E in H. destruct b; [|discriminate]. split; [exact Q|]. split; [now apply In2|now apply I].
    + intros (Q & J & H). pose proof (proj2 In2 J) as B. rewrite B. destruct (Df q Q) as (b & E & I). rewrite E. rewrite (proj2 I H). split; [|reflexivity]. split; [exact Q|]. destruct J as (b' & _ & ->). exists (b' ++ a). rewrite Ea at 1. now rewrite app_assoc.
Qed.
Example C87_all_ex : query_context plain_page body (Context 2 1 []) /\ query_selector_all 60 20 plain_page body (lit "html p,b, i") = Val [[0; 0; 0; 0]; [0; 0; 0; 0; 0]; [2; 0; 0; 0]; [3; 0; 0; 0]]%nat /\
  query_selector_all 60 20 plain_page [0]%nat (lit "body") = Val [body] /\ query_selector_all 60 20 plain_page body (lit "body") = Val [].
Proof. split; [exists [0; 0]%nat, 2, 1; repeat split; discriminate|wit]. Qed.
Print Assumptions C87_all.

(** The first one in the order of the document, if there is one. *)
Theorem C87_first F p c src fuel l q : strings F -> node F p -> query_context F p c -> allowed_mode c -> parse_selector fuel [] src = Val l -> (forall s, In s l -> no_bare_any s) ->
  node F q -> inside p q -> (exists s, In s l /\ chain F (holds_at F c) s q) ->
  exists f N, (forall n, (N <= n)%nat -> query_selector fuel n F p src = Val f) /\ node F f /\ inside p f /\ (exists s, In s l /\ chain F (holds_at F c) s f) /\ (f = q \/ before f q).
Proof.
  intros R P C M L U Q J H. destruct (C87_all F p c src fuel l R P C M L U) as (out & N & E & So & _ & I). assert (K : In q out) by (apply I; auto). destruct out as [|f out]; [destruct K|]. exists f, N.
  split; [intros n Hn; unfold query_selector; now rewrite (E n Hn)|]. destruct (proj1 (I f) (or_introl eq_refl)) as (A & B & D). repeat (split; [assumption|]). destruct K as [->|K]; [now left|right].
  inversion So as [|? ? _ Hf]; subst. rewrite Forall_forall in Hf. now apply Hf.
Qed.
Example C87_first_ex : query_selector 60 20 plain_page body (lit "b, p + p") = Val [2; 0; 0; 0]%nat.
Proof. wit. Qed.
Print Assumptions C87_first.

(** When nothing matches, the first element of an empty vector is read. *)
Theorem C87_none_refuted : exists src, src = lit "table" /\ query_selector_all 60 20 plain_page body src = Val [] /\ forall n, (20 <= n)%nat -> query_selector 60 n plain_page body src = Bad.
Proof.
  eexists. split; [reflexivity|]. split; [wit|]. intros n L. replace n with (20 + (n - 20))%nat by lia. unfold query_selector, query_selector_all.
  change (tree_root plain_page body) with (Some [0; 0]%nat). cbn [popt pbind]. replace (parse_selector 60 [] (lit "table")) with (Val [[ty "table"]]) by (symmetry; vm_compute; reflexivity). cbn [pbind].
  set (k := (n - 20)%nat). unfold match_selector. change (document_of plain_page [0; 0]%nat) with (Some (2, 1)). cbn [popt pbind]. clearbody k. cbv. reflexivity.
Qed.
Print Assumptions C87_none_refuted.
(** A query below no element of HTML named html asserts; so do those in documents of other languages. *)
Theorem C87_root_refuted : exists F src, F = [Node (KDocument 1 1) [Node (KElement (Element [] (lit "r") [])) [Node (KElement (Element [] (lit "a") [])) []]]] /\ src = lit "a" /\
  query_selector_all 60 20 F [0]%nat src = Val [[0; 0; 0]%nat] /\ forall n, query_selector_all 60 n F [0; 0]%nat src = Bad.
Proof.
  do 2 eexists. do 2 (split; [reflexivity|]). split; [wit|]. intros n. unfold query_selector_all. change (tree_root _ [0; 0]%nat) with (Some (@nil nat)). cbn [popt pbind]. replace (parse_selector 60 [] (lit "a")) with (Val [[ty "a"]]) by (symmetry; vm_compute; reflexivity). reflexivity.
Qed.
Print Assumptions C87_root_refuted.
(** What is no selector gives no error, and what follows a selector is left out (C84_rest_refuted). *)
Theorem C87_error_refuted : exists bad ts, bad = lit "..a" /\ tokenize 60 bad = Val ts /\ (forall l, ~ g_list (g_complex (declared []) end_standard) (map Tok ts) l) /\
  (forall n, (20 <= n)%nat -> query_selector_all 60 n plain_page body bad = Val []) /\ query_selector_all 60 20 plain_page body (lit "p !") = Val [[0; 0; 0; 0]; [2; 0; 0; 0]]%nat.
Proof.
  eexists _, [Delim 0x2E; Delim 0x2E; Ident [0x61]]. split; [reflexivity|]. split; [wit|]. split.
  - intros l G. apply C84_standard_partial in G; [|clean]. rewrite selector_list_val in G. discriminate G.
  - split; [|wit]. intros n L. replace n with (20 + (n - 20))%nat by lia. unfold query_selector_all. change (tree_root plain_page body) with (Some [0; 0]%nat). cbn [popt pbind].
    replace (parse_selector 60 [] (lit "..a")) with (Val (@nil complex)) by (symmetry; vm_compute; reflexivity). cbn [pbind]. set (k := (n - 20)%nat). clearbody k. cbv. reflexivity.
Qed.
Print Assumptions C87_error_refuted.
