(** Theorems on the parser of CSS selectors. *)
From Coq Require Import String.
From Coq Require Import ZArith List Bool Lia.
From Verif Require Import M_unicode M_infra M_encoding M_labels M_css M_cssp L_cssp L_cssp2 P_cssp M_sel L_sel.
Import ListNotations.
Open Scope list_scope.
Open Scope Z_scope.

Ltac wit := repeat split; vm_compute; reflexivity.

(** * C83: one selector *)

(** [f] reads the longest beginning of [s] that [P] describes, with the meaning given there; it reads nothing only when there is none. *)
Definition reads {A : Type} (f : list prim -> outcome (parsed A)) (P : list prim -> A -> Prop) (s : list prim) : Prop :=
  exists o, f s = Val o /\ (forall a r, o = Some (a, r) <-> longest P s a r) /\ (o = None <-> forall x a r, s = x ++ r -> ~ P x a).

Theorem C83_reads m s : fine s ->
  reads (simple_selector m) (g_simple (declared_code m) end_code) s /\ reads (compound_selector m) (g_compound (declared_code m) end_code) s /\
  reads (complex_selector m) (g_complex (declared_code m) end_code) s /\ reads (relative_selector m) (g_relative (declared_code m) end_code) s.
Proof.
  intros F. repeat apply conj.
  - exists (simple_of m s). exact (item_iff _ _ _ _ (simple_val m) (simple_sound m) (simple_exact m) (simple_reach m) (simple_tight _ _) s F).
  - exists (comp_of m s). exact (item_iff _ _ _ _ (comp_val m) (comp_sound m) (comp_ends m) (comp_reach m) (comp_tight _ _) s F).
  - exists (cx_of m s). exact (item_iff _ _ _ _ (cx_val m) (cx_sound m) (cx_exact m) (cx_reach m) (cx_tight _ _) s F).
  - exists (rel_of m s). exact (item_iff _ _ _ _ (rel_val m) (rel_sound m) (rel_exact m) (rel_reach m) (rel_tight _ _) s F).
Qed.
Ltac clean := apply fine_no_star; cbn; intuition discriminate.
Definition example : list prim :=
  [ident (lit "a"); bar; ident (lit "b"); dot; ident (lit "c"); colon; ident (lit "Root"); colon; ident (lit "before"); Tok Whitespace; Tok (Delim 0x3E); Tok Whitespace;
   Blk 0x5B [ident (lit "d"); Tok (Delim 0x7E); equals; Tok (Str (lit "e")); Tok Whitespace; ident (lit "I")]; Tok Whitespace; Tok CloseParen].
Example C83_reads_ex : fine example /\
  complex_selector [(lit "a", lit "u")] example =
  Val (Some ([Comp [PType (TName (Some (lit "a")) (lit "b")); PSub (SClass (lit "c")); PSub (SPseudo (PName (lit "Root") 1)); PElement (PName (lit "before") 0)]; Comb 0x3E;
              Comp [PSub (SAttr (AttrSel None (lit "d") 0x7E (lit "e") 0x69))]], [Tok Whitespace; Tok CloseParen])).
Proof. split; [clean|wit]. Qed.
Print Assumptions C83_reads.

(** No input, fine or not, makes a parser fail or run on, and what is read is a beginning of the input that the grammar describes. *)
Theorem C83_sound m s :
  (exists o, simple_selector m s = Val o /\ forall a r, o = Some (a, r) -> exists x, s = x ++ r /\ g_simple (declared_code m) end_code x a) /\
  (exists o, compound_selector m s = Val o /\ forall a r, o = Some (a, r) -> exists x, s = x ++ r /\ g_compound (declared_code m) end_code x a) /\
  (exists o, complex_selector m s = Val o /\ forall a r, o = Some (a, r) -> exists x, s = x ++ r /\ g_complex (declared_code m) end_code x a) /\
  (exists o, relative_selector m s = Val o /\ forall a r, o = Some (a, r) -> exists x, s = x ++ r /\ g_relative (declared_code m) end_code x a).
Proof.
  repeat apply conj; eexists; split; [apply simple_val|apply simple_sound|apply comp_val|apply comp_sound|apply cx_val|apply cx_sound|apply rel_val|apply rel_sound].
Qed.
Example C83_sound_ex : compound_selector [] [star; bar; bar; ident [0x61]] = Val None /\ compound_selector [] [star; dot; ident [0x61]; bar] = Val (Some ([PType (TAny None); PSub (SClass [0x61])], [bar])).
Proof. wit. Qed.
Print Assumptions C83_sound.

(** A text has at most one meaning. *)
Theorem C83_unambiguous m x : fine x ->
  (forall a b, g_compound (declared_code m) end_code x a -> g_compound (declared_code m) end_code x b -> a = b) /\
  (forall a b, g_complex (declared_code m) end_code x a -> g_complex (declared_code m) end_code x b -> a = b).
Proof.
  intros F. rewrite <- (app_nil_r x) in F. split; intros a b H1 H2.
  - exact (P_one _ _ _ (comp_ends m) (comp_tight _ _) x a b [] H1 H2 F).
  - exact (P_one _ _ _ (cx_exact m) (cx_tight _ _) x a b [] H1 H2 F).
Qed.
Example C83_unambiguous_ex : fine [ident [0x61]; Tok Whitespace; Tok (Delim 0x2B); ident [0x62]] /\
  g_complex (declared_code []) end_code [ident [0x61]; Tok Whitespace; Tok (Delim 0x2B); ident [0x62]] [Comp [PType (TName None [0x61])]; Comb 0x2B; Comp [PType (TName None [0x62])]].
Proof.
  split; [clean|]. apply (g_more _ _ [ident [0x61]] _ [Tok Whitespace; Tok (Delim 0x2B)] _ [ident [0x62]]).
  - apply (g_with_type _ _ [ident [0x61]] _ [] []); repeat constructor.
  - apply (g_sign [Tok Whitespace] [Tok (Delim 0x2B)] []); repeat constructor.
  - constructor. apply (g_with_type _ _ [ident [0x62]] _ [] []); repeat constructor.
Qed.
Print Assumptions C83_unambiguous.

(** The namespace of any name cannot be followed by the combinator of columns: [*||a] is no selector. *)
Theorem C83_column_refuted : exists x l, x = [star; bar; bar; ident [0x61]] /\ (forall m, g_complex (declared m) end_standard x l) /\ forall m, complex_selector m x = Val None.
Proof.
  exists [star; bar; bar; ident [0x61]], [Comp [PType (TAny None)]; Comb 0x7C; Comp [PType (TName None [0x61])]]. split; [reflexivity|]. split.
  - intros m. apply (g_more _ _ [star] _ [bar; bar] _ [ident [0x61]]).
    + apply (g_with_type _ _ [star] _ [] []); repeat constructor.
    + apply (g_sign [] [bar; bar] []); repeat constructor.
    + constructor. apply (g_with_type _ _ [ident [0x61]] _ [] []); repeat constructor.
  - intros m. rewrite cx_val. unfold cx_of, comp_of. assert (N : ns_prefix m [star; bar; bar; ident [0x61]] = Some ([0x2A], [bar; ident [0x61]])) by (apply prefix_iff; exists [star; bar]; split; [reflexivity|constructor]).
    unfold type_selector, wq_name. rewrite N. reflexivity.
Qed.
Print Assumptions C83_column_refuted.

(** [[a=b )]] is taken for [[a=b]]. *)
Theorem C83_attribute_refuted : exists v a, v = [ident [0x61]; equals; ident [0x62]; Tok Whitespace; Tok CloseParen] /\
  complex_selector [] [Blk 0x5B v] = Val (Some ([Comp [PSub (SAttr a)]], [])) /\ complex_selector [] [Blk 0x5B [ident [0x61]; equals; ident [0x62]]] = Val (Some ([Comp [PSub (SAttr a)]], [])) /\
  forall m b, ~ g_body (declared m) end_standard v b.
Proof.
  exists [ident [0x61]; equals; ident [0x62]; Tok Whitespace; Tok CloseParen], (AttrSel None [0x61] 0x3D [0x62] 0). split; [reflexivity|]. split; [wit|]. split; [wit|].
  intros m b G.
  assert (L : forall (v : list prim) a, v = [ident [0x61]; equals; ident [0x62]; Tok Whitespace; Tok CloseParen] -> g_body (declared m) end_standard v a -> False); [|exact (L _ _ eq_refl G)].
  clear b G. intros v a E G. destruct G as [s1 x s2 p n S1 W S2|s1 x s2 y s3 z s4 w p n k v0 i S1 W S2 M S3 Z S4 En].
  - destruct s2 as [|q s2 _] using rev_ind.
    + rewrite app_nil_r in E. assert (T : forall x p n, g_wq (declared m) x p n -> exists u c, x = u ++ [ident c]) by (intros ? ? ? [c|u q c _]; [exists [], c|exists u, c]; reflexivity).
      destruct (T _ _ _ W) as (u & c & ->). rewrite app_assoc in E. change [ident [0x61]; equals; ident [0x62]; Tok Whitespace; Tok CloseParen] with ([ident [0x61]; equals; ident [0x62]; Tok Whitespace] ++ [Tok CloseParen]) in E.
      apply app_inj_tail in E. now destruct E.
    + unfold spaces in S2. apply Forall_app in S2. destruct S2 as [_ S2]. inversion S2; subst q. rewrite !app_assoc in E.
      change [ident [0x61]; equals; ident [0x62]; Tok Whitespace; Tok CloseParen] with ([ident [0x61]; equals; ident [0x62]; Tok Whitespace] ++ [Tok CloseParen]) in E. apply app_inj_tail in E. now destruct E.
  - assert (I : In (Tok CloseParen) (z :: s4 ++ w) -> False).
    { intros [I|I]; [destruct Z; congruence|]. apply in_app_iff in I. unfold spaces in S4. rewrite Forall_forall in S4. destruct I as [I|I]; [now apply S4 in I|].
      destruct En as [[-> _]|(n0 & s & -> & _ & S)]; [exact I|]. destruct I as [I|I]; [discriminate|]. unfold spaces in S. rewrite Forall_forall in S. now apply S in I. }
    apply I. assert (Last : exists u q, z :: s4 ++ w = u ++ [q]) by (destruct (exists_last (l := z :: s4 ++ w)) as (u & q & ->); [discriminate|eauto]). destruct Last as (u & q & Eq). rewrite Eq in *. rewrite !app_assoc in E.
    change [ident [0x61]; equals; ident [0x62]; Tok Whitespace; Tok CloseParen] with ([ident [0x61]; equals; ident [0x62]; Tok Whitespace] ++ [Tok CloseParen]) in E. apply app_inj_tail in E. destruct E as [_ ->]. rewrite in_app_iff. right. now left.
Qed.
Print Assumptions C83_attribute_refuted.

(** The name [\*] before a bar is taken for a star: it need not be declared. *)
Theorem C83_prefix_refuted : exists x, x = [ident [0x2A]; bar; ident [0x61]] /\ type_selector [] x = Some (TName (Some [0x2A]) [0x61], []) /\
  (forall p n, ~ g_wq (declared []) x p n) /\ type_selector [] [star; bar; ident [0x61]] = Some (TName (Some [0x2A]) [0x61], []).
Proof.
  eexists. split; [reflexivity|]. split; [wit|]. split; [|wit]. intros p n G. inversion G as [n0 E|x p0 n0 P E]. destruct P as [n1 [u []]| |]; discriminate E.
Qed.
Print Assumptions C83_prefix_refuted.

(** * C84: lists of selectors *)

(** [f] reads the longest list, unless a comma stands behind it; it reads nothing exactly when there is no such list. *)
Definition reads_list {A : Type} (f : list prim -> outcome (parsed (list A))) (P : list prim -> A -> Prop) (s : list prim) : Prop :=
  exists o, f s = Val o /\ forall l r, o = Some (l, r) <-> longest (g_list P) s l r /\ forall t, r <> Tok Comma :: t.
Theorem C84_lists m s : fine s ->
  reads_list (simple_selector_list m) (g_simple (declared_code m) end_code) s /\ reads_list (compound_selector_list m) (g_compound (declared_code m) end_code) s /\
  reads_list (complex_selector_list m) (g_complex (declared_code m) end_code) s /\ reads_list (relative_selector_list m) (g_relative (declared_code m) end_code) s.
Proof.
  intros F. repeat apply conj.
  - eexists. split; [exact (list_of_val _ _ _ _ (simple_val m) (simple_sound m) (simple_solid _ _) s)|]. intros l r.
    exact (list_iff _ _ _ _ (simple_val m) (simple_sound m) (simple_exact m) (simple_reach m) (simple_solid _ _) (simple_tight _ _) s l r F).
  - eexists. split; [exact (list_of_val _ _ _ _ (comp_val m) (comp_sound m) (comp_solid _ _) s)|]. intros l r.
    exact (list_iff _ _ _ _ (comp_val m) (comp_sound m) (comp_ends m) (comp_reach m) (comp_solid _ _) (comp_tight _ _) s l r F).
  - eexists. split; [exact (list_of_val _ _ _ _ (cx_val m) (cx_sound m) (cx_solid _ _) s)|]. intros l r.
    exact (list_iff _ _ _ _ (cx_val m) (cx_sound m) (cx_exact m) (cx_reach m) (cx_solid _ _) (cx_tight _ _) s l r F).
  - eexists. split; [exact (list_of_val _ _ _ _ (rel_val m) (rel_sound m) (rel_solid _ _) s)|]. intros l r.
    exact (list_iff _ _ _ _ (rel_val m) (rel_sound m) (rel_exact m) (rel_reach m) (rel_solid _ _) (rel_tight _ _) s l r F).
Qed.
Example C84_lists_ex : fine [ident [0x61]; Tok Whitespace; Tok Comma; dot; ident [0x62]; Tok Whitespace; Tok CloseParen] /\
  complex_selector_list [] [ident [0x61]; Tok Whitespace; Tok Comma; dot; ident [0x62]; Tok Whitespace; Tok CloseParen] =
  Val (Some ([[Comp [PType (TName None [0x61])]]; [Comp [PSub (SClass [0x62])]]], [Tok CloseParen])) /\
  complex_selector_list [] [ident [0x61]; Tok Comma; Tok CloseParen] = Val None.
Proof. split; [clean|wit]. Qed.
Print Assumptions C84_lists.

Lemma selector_list_val m s : selector_list m s = Val (match list_val _ (complex_selector m) (cx_of m) s with Some x => x | None => ([], s) end).
Proof.
  unfold selector_list, complex_selector_list. rewrite (list_of_val _ _ _ _ (cx_val m) (cx_sound m) (cx_solid _ _) s). cbn [pbind]. now destruct (list_val _ _ _ s).
Qed.
(** Every list of selectors of the standard in which no star stands before the combinator of columns is read to its end, with its meaning. *)
Theorem C84_standard_partial m s l : fine s -> g_list (g_complex (declared m) end_standard) s l -> selector_list m s = Val (l, []).
Proof.
  intros F G. apply complex_list_code in G. rewrite selector_list_val.
  now rewrite (list_complete _ _ _ _ (cx_val m) (cx_sound m) (cx_exact m) (cx_reach m) (cx_solid _ _) (cx_tight _ _) s l G F).
Qed.
Example C84_standard_ex : fine [dot; ident [0x62]; Tok Whitespace] /\ g_list (g_complex (declared []) end_standard) [dot; ident [0x62]; Tok Whitespace] [[Comp [PSub (SClass [0x62])]]].
Proof.
  split; [clean|]. apply (g_last _ [dot; ident [0x62]] _ [Tok Whitespace]); [|repeat constructor]. constructor. apply g_without; [|discriminate]. apply (g_cons_sub _ _ [dot; ident [0x62]] _ [] []); constructor.
Qed.
Print Assumptions C84_standard_partial.

(** What is read is a list of selectors of the standard, when the names before bars are declared and the blocks are attributes. *)
Theorem C84_sound_partial m s l r : regular m s -> selector_list m s = Val (l, r) -> (l = [] /\ r = s) \/ exists x, s = x ++ r /\ g_list (g_complex (declared m) end_standard) x l.
Proof.
  intros R H. rewrite selector_list_val in H. destruct (list_val _ _ _ s) as [[l1 r1]|] eqn:E; injection H as <- <-; [right|left; auto].
  apply (list_sound _ _ _ _ (cx_val m) (cx_sound m) (cx_solid _ _)) in E. destruct E as (_ & x & -> & G). exists x. split; [reflexivity|]. apply complex_list_standard; [|exact G].
  apply (regular_part m [] x r1). exact R.
Qed.
Example C84_sound_ex : regular [] [dot; ident [0x62]; Tok CloseParen] /\ selector_list [] [dot; ident [0x62]; Tok CloseParen] = Val ([[Comp [PSub (SClass [0x62])]]], [Tok CloseParen]).
Proof.
  split; [|wit]. split; [|intros v I; cbn in I; intuition discriminate]. intros a n r E _. exfalso. destruct a as [|? [|? [|? [|? a]]]]; discriminate E.
Qed.
Print Assumptions C84_sound_partial.

(** So the lists that are read to the end are those of the standard. *)
Theorem C84_whole_partial m s l : fine s -> regular m s -> l <> [] -> (selector_list m s = Val (l, []) <-> g_list (g_complex (declared m) end_standard) s l).
Proof.
  intros F R N. split; [|now apply C84_standard_partial]. intros H. destruct (C84_sound_partial m s l [] R H) as [[-> _]|(x & -> & G)]; [congruence|]. now rewrite app_nil_r.
Qed.
Example C84_whole_ex : fine [dot; ident [0x62]] /\ selector_list [] [dot; ident [0x62]] = Val ([[Comp [PSub (SClass [0x62])]]], []).
Proof. split; [clean|wit]. Qed.
Print Assumptions C84_whole_partial.

(** From the text: the tokens are nested, and the list at the beginning is taken; whatever stands behind it is dropped. *)
Theorem C84_text m s buf n ts fuel : filter_code_points s = (buf, n) -> tokenize fuel (firstn n buf) = Val ts -> (2 * List.length ts + 2 <= fuel)%nat -> fine (nest ends_any (map Tok ts)) ->
  exists l, parse_selector fuel m s = Val l /\
    ((exists r, longest (g_list (g_complex (declared_code m) end_code)) (nest ends_any (map Tok ts)) l r /\ forall t, r <> Tok Comma :: t) \/
     (l = [] /\ forall l' r, longest (g_list (g_complex (declared_code m) end_code)) (nest ends_any (map Tok ts)) l' r -> exists t, r = Tok Comma :: t)).
Proof.
  intros Fi T L F. unfold parse_selector, normalize_into_token_stream. rewrite Fi, T. cbn [pbind]. rewrite C79_values; [|exact (tokenize_no_eof _ _ _ T)|now rewrite map_length]. cbn [pbind]. rewrite selector_list_val. cbn [pbind].
  set (v := nest ends_any (map Tok ts)) in *. pose proof (fun l r => list_iff _ _ _ _ (cx_val m) (cx_sound m) (cx_exact m) (cx_reach m) (cx_solid _ _) (cx_tight _ _) v l r F) as I.
  destruct (list_val _ _ _ v) as [[l r]|].
  - exists l. split; [reflexivity|]. left. exists r. now apply I.
  - exists []. split; [reflexivity|]. right. split; [reflexivity|]. intros l' r G. assert (D : (exists t, r = Tok Comma :: t) \/ forall t, r <> Tok Comma :: t).
    { destruct r as [|p r]; [right; discriminate|]. destruct p as [[]| |]; try (right; discriminate). left; eauto. }
    destruct D as [D|D]; [exact D|]. pose proof (proj2 (I l' r) (conj G D)). discriminate.
Qed.
Example C84_text_ex : parse_selector 60 [] (lit "a > b.c, #d [e='f']") =
  Val [[Comp [PType (TName None (lit "a"))]; Comb 0x3E; Comp [PType (TName None (lit "b")); PSub (SClass (lit "c"))]];
       [Comp [PSub (SId (lit "d"))]; Comb 0x20; Comp [PSub (SAttr (AttrSel None (lit "e") 0x3D (lit "f") 0))]]].
Proof. wit. Qed.
Print Assumptions C84_text.

(** What stands behind the list is not looked at: ["a )"], ["a !"] and ["b|a"] with no namespace [b] are taken for ["a"] and ["b"]. *)
Theorem C84_rest_refuted : exists v, v = [ident [0x61]; Tok Whitespace; Tok CloseParen] /\ parse_selector 60 [] (lit "a )") = Val [[Comp [PType (TName None [0x61])]]] /\
  parse_selector 60 [] (lit "a !") = Val [[Comp [PType (TName None [0x61])]]] /\ parse_selector 60 [] (lit "b|a") = Val [[Comp [PType (TName None [0x62])]]] /\
  (forall m l, ~ g_list (g_complex (declared m) end_standard) v l) /\ forall l, ~ g_list (g_complex (declared []) end_standard) [ident [0x62]; bar; ident [0x61]] l.
Proof.
  eexists. split; [reflexivity|]. split; [wit|]. split; [wit|]. split; [wit|]. split.
  - intros m l G. apply C84_standard_partial in G; [|clean]. assert (E : selector_list m [ident [0x61]; Tok Whitespace; Tok CloseParen] = Val ([[Comp [PType (TName None [0x61])]]], [Tok CloseParen])) by reflexivity. congruence.
  - intros l G. apply C84_standard_partial in G; [|clean]. assert (E : selector_list [] [ident [0x62]; bar; ident [0x61]] = Val ([[Comp [PType (TName None [0x62])]]], [bar; ident [0x61]])) by reflexivity. congruence.
Qed.
Print Assumptions C84_rest_refuted.

(** Spaces before a list of selectors make it empty; so do spaces behind the first combinator of a relative selector. *)
Theorem C84_space_refuted : exists s, s = [Tok Whitespace; dot; ident [0x61]] /\ parse_selector 60 [] (lit " .a") = Val [] /\ parse_selector 60 [] (lit ".a") = Val [[Comp [PSub (SClass [0x61])]]] /\
  (forall m, selector_list m s = Val ([], s)) /\ parse_relative_selector 60 [] (lit "> a") = Val [] /\ parse_relative_selector 60 [] (lit ">a") = Val [[Comb 0x3E; Comp [PType (TName None [0x61])]]].
Proof. eexists. split; [reflexivity|]. split; [wit|]. split; [wit|]. split; [intros m; rewrite selector_list_val; reflexivity|wit]. Qed.
Print Assumptions C84_space_refuted.
