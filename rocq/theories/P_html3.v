(** C47, C56, C94 and C107 for texts with references of any kind. *)
From Coq Require Import ZArith List Bool String Lia.
From Verif Require Import M_infra M_encoding M_labels M_html M_html_ncr M_html_serialize L_html_names L_html1 L_html10 L_html12 L_html13 M_dom_names M_dom M_dom2 L_dom L_dom21.
Import ListNotations.
Open Scope Z_scope.
Open Scope list_scope.

(** C47: the tokens of a text are those of the text with the newlines replaced, in whatever state the tokeniser starts; a CR may not be the last
    code point. *)
Theorem C47_newlines_any_partial : forall switch cdata t0 text fuel, last text 0 <> 0xD ->
  tokenize switch cdata match_ncr fuel t0 text = tokenize switch cdata match_ncr fuel t0 (newlines text).
Proof. exact tokens_newlines. Qed.
Print Assumptions C47_newlines_any_partial.
Example C47_newlines_any_ex : last (lit "&#65;b" ++ [0xD; 0xA; 0xD] ++ lit "&ampc") 0 <> 0xD /\
  tokenize (fun _ => None) (fun _ => false) match_ncr 1000 tok_init (lit "&#65;b" ++ [0xD; 0xA; 0xD] ++ lit "&ampc") =
    Val (map TChar (lit "Ab" ++ [0xA; 0xA] ++ lit "&c") ++ [TEof]).
Proof. split; [vm_compute; discriminate|vm_compute; reflexivity]. Qed.
(** with a CR at the end they are not *)
Theorem C47_final_refuted : exists text, tokenize (fun _ => None) (fun _ => false) match_ncr 1000 tok_init text <>
  tokenize (fun _ => None) (fun _ => false) match_ncr 1000 tok_init (newlines text).
Proof. exists (lit "&amp" ++ [0xD]). vm_compute. discriminate. Qed.
Print Assumptions C47_final_refuted.

(** C56: the end-of-file token stands at the end and nowhere else, when there is one; a CR may not be the last code point. *)
Theorem C56_last_partial : forall switch cdata text fuel l, text_switch switch -> tokenize switch cdata match_ncr fuel tok_init text = Val l -> last text 0 <> 0xD ->
  forall a b, l = a ++ TEof :: b -> b = [] /\ ~ In TEof a.
Proof.
  intros switch cdata text fuel l Sw H L a b E. destruct (eof_last switch Sw cdata text fuel l H L) as [N|(l0 & E0 & N)].
  - exfalso. apply N. rewrite E. apply in_or_app. right. now left.
  - destruct b as [|x b] using rev_ind.
    + rewrite E in E0. apply app_inj_tail in E0. destruct E0 as [-> _]. auto.
    + exfalso. rewrite E in E0. change (a ++ TEof :: b ++ [x] = l0 ++ [TEof]) in E0. rewrite app_comm_cons, app_assoc in E0. apply app_inj_tail in E0. destruct E0 as [E0 _].
      apply N. rewrite <- E0. apply in_or_app. right. now left.
Qed.
Print Assumptions C56_last_partial.
Example C56_last_ex : last (lit "&#65;&lt;b&#66;") 0 <> 0xD /\ text_switch (fun _ => None) /\
  tokenize (fun _ => None) (fun _ => false) match_ncr 1000 tok_init (lit "&#65;&lt;") = Val [TChar 0x41; TChar 0x3C; TEof] /\
  tokenize (fun _ => None) (fun _ => false) match_ncr 1000 tok_init (lit "&#65;&lt;b&#66;") = Val (map TChar (lit "A<bB")).
Proof. split; [vm_compute; discriminate|]. split; [intros l s H; discriminate H|]. split; vm_compute; reflexivity. Qed.

(** C94 and C107 for any text that is tokenised, with references of any kind, in which none of the tags is spelled that [tame_token] forbids: it is read
    into a tree, and when the end of the text has been delivered the tree has the parts that it must have. *)
Lemma any_text : forall listed text steps fuel l, tokenize (switch_of listed fuel false) (cdata_of listed fuel false) match_ncr steps tok_init text = Val l ->
  last text 0 <> 0xD -> tame_text (newlines text) -> (34 <= fuel)%nat ->
  exists d, parse listed match_ncr steps fuel text = Val d /\ (In TEof l -> Sound d).
Proof.
  intros listed text steps fuel l E L T G. pose proof (switch_text listed fuel false) as Sw.
  destruct (tags_carried _ Sw _ text steps l E) as [K1 K2]. unfold parse, parse_text. rewrite E. cbv beta iota.
  destruct (eof_last _ Sw _ text steps l E L) as [N|(l0 & -> & N)].
  - destruct (construct_ok listed fuel l (st_init false) G init_inv eq_refl (tame_tokens _ l T N K1 K2)) as (s & -> & _). exists (document s). split; [reflexivity|]. contradiction.
  - apply Forall_app in K1, K2. destruct (tokens_sound listed fuel l0 G (tame_tokens _ l0 T N (proj1 K1) (proj1 K2))) as (s & -> & S1). exists (document s). auto.
Qed.
Theorem C94_any_partial : forall listed text steps fuel l, tokenize (switch_of listed fuel false) (cdata_of listed fuel false) match_ncr steps tok_init text = Val l ->
  last text 0 <> 0xD -> tame_text (newlines text) -> (34 <= fuel)%nat -> exists d, parse listed match_ncr steps fuel text = Val d.
Proof. intros listed text steps fuel l E L T G. destruct (any_text listed text steps fuel l E L T G) as (d & D & _). eauto. Qed.
Print Assumptions C94_any_partial.
Theorem C107_any_partial : forall listed text steps fuel l d, tokenize (switch_of listed fuel false) (cdata_of listed fuel false) match_ncr steps tok_init text = Val l ->
  In TEof l -> last text 0 <> 0xD -> tame_text (newlines text) -> (34 <= fuel)%nat -> parse listed match_ncr steps fuel text = Val d -> Sound d.
Proof.
  intros listed text steps fuel l d E I L T G D. destruct (any_text listed text steps fuel l E L T G) as (d' & D' & S1). rewrite D in D'. inversion D'. now apply S1.
Qed.
Print Assumptions C107_any_partial.
Definition with_number : list Z := lit "&#65;&lt;x".
Example C107_any_ex : forall listed, tokenize (switch_of listed 40 false) (cdata_of listed 40 false) match_ncr 1000 tok_init with_number = Val (map TChar (lit "A<x") ++ [TEof]) /\
  last with_number 0 <> 0xD /\ tame_text (newlines with_number).
Proof.
  intro listed. split; [vm_compute; reflexivity|]. split; [vm_compute; discriminate|].
  assert (N : ~ In 0x3C (newlines with_number)) by (vm_compute; intuition discriminate).
  split; intros x _ (p & w & c & r & E & _); apply N; rewrite E; apply in_or_app; right; now left.
Qed.
