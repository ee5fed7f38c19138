(** Properties C94 and C107, as far as they hold: tree construction gets through whatever tokens come, and the tree has the
    parts that it must have where they must be. *)
From Coq Require Import ZArith List Bool String Lia.
From Verif Require Import M_infra M_encoding M_labels M_html M_html_ncr M_html_serialize L_html1 L_html10 L_html12 M_dom_names M_dom M_dom2 L_dom L_dom21.
Import ListNotations.
Open Scope Z_scope.
Open Scope list_scope.

(** C94: tree construction gets through any tokens, in any order, if none of them is a start tag of template, svg, math,
    frameset, button, a or nobr, or an end tag of a formatting element ([tame_token], L_dom21.v). *)
Theorem C94_tokens_partial : forall listed fuel l, (34 <= fuel)%nat -> Forall tame_token l ->
  exists s, construct listed fuel (st_init false) (l ++ [TEof]) = Val s.
Proof. intros listed fuel l F T. destruct (tokens_sound listed fuel l F T) as (s & E & _). eauto. Qed.
Print Assumptions C94_tokens_partial.

(** C94: any text is read into a tree, under the conditions of C56 and if none of these tags is spelled in it. *)
Theorem C94_text_partial : forall listed text steps fuel, whole_references (newlines text) -> (forall p s, newlines text <> p ++ lit "&#" ++ s) ->
  last text 0 <> 0xD -> tame_text (newlines text) -> (24 * List.length text + 13 <= steps)%nat -> (34 <= fuel)%nat ->
  exists d, parse listed match_ncr steps fuel text = Val d.
Proof. intros listed text steps fuel H N L T S1 F. destruct (text_sound listed text steps fuel H N L T S1 F) as (d & E & _). eauto. Qed.
Print Assumptions C94_text_partial.

(** C107: in the tree there is one html in the document, one head and one body in it and none anywhere else, and the parts of
    tables are where they may be ([Sound], L_dom21.v): for any tokens that are tame. *)
Theorem C107_tokens_partial : forall listed fuel l s, (34 <= fuel)%nat -> Forall tame_token l ->
  construct listed fuel (st_init false) (l ++ [TEof]) = Val s -> Sound (document s).
Proof. intros listed fuel l s F T E. destruct (tokens_sound listed fuel l F T) as (s' & E' & H). rewrite E in E'. inversion E'. exact H. Qed.
Print Assumptions C107_tokens_partial.

(** C107 for texts. *)
Theorem C107_text_partial : forall listed text steps fuel d, whole_references (newlines text) -> (forall p s, newlines text <> p ++ lit "&#" ++ s) ->
  last text 0 <> 0xD -> tame_text (newlines text) -> (24 * List.length text + 13 <= steps)%nat -> (34 <= fuel)%nat ->
  parse listed match_ncr steps fuel text = Val d -> Sound d.
Proof.
  intros listed text steps fuel d H N L T S1 F E. destruct (text_sound listed text steps fuel H N L T S1 F) as (d' & E' & K).
  rewrite E in E'. inversion E'. exact K.
Qed.
Print Assumptions C107_text_partial.

(** a search for tags in a text *)
Definition spelled_at (text opening name : list Z) (k : nat) : bool :=
  let s := skipn k text in
  same_str (firstn (List.length opening) s) opening &&
  same_str (map low (firstn (List.length name) (skipn (List.length opening) s))) name &&
  match skipn (List.length name) (skipn (List.length opening) s) with c :: _ => negb (letter c) | [] => false end.
Lemma not_spelled : forall text opening name, forallb (fun k => negb (spelled_at text opening name k)) (seq 0 (List.length text + 1)) = true ->
  ~ spelled text opening name.
Proof.
  intros text o n H (p & w & c & r & E & M & L). rewrite forallb_forall in H. specialize (H (List.length p)).
  assert (I : In (List.length p) (seq 0 (List.length text + 1))) by (apply in_seq; rewrite E, !app_length; cbn; lia).
  specialize (H I). apply negb_true_iff in H. unfold spelled_at in H. rewrite E in H.
  rewrite skipn_app, skipn_all, PeanoNat.Nat.sub_diag in H. cbn [app skipn] in H.
  rewrite firstn_app, firstn_all, PeanoNat.Nat.sub_diag, firstn_O, app_nil_r in H.
  rewrite skipn_app, skipn_all, PeanoNat.Nat.sub_diag in H. cbn [app skipn] in H.
  assert (Ln : List.length n = List.length w) by (rewrite <- M; apply map_length). rewrite Ln in H.
  rewrite firstn_app, firstn_all, PeanoNat.Nat.sub_diag, firstn_O, app_nil_r in H.
  rewrite skipn_app, skipn_all, PeanoNat.Nat.sub_diag in H. cbn [app skipn] in H.
  rewrite M, L in H. rewrite !(proj2 (same_str_eq _ _) eq_refl) in H. discriminate H.
Qed.
(** An example: a text in which nearly everything stands where it may not stand. *)
Definition mess : list Z :=
  lit "<td>a<table>b<caption>c<td>d</table><col>e<b><select><input></body><li></html>f<tr></p></select>".
Example C107_text_ex : tame_text (newlines mess) /\ whole_references (newlines mess) /\ (forall p s, newlines mess <> p ++ lit "&#" ++ s) /\ last mess 0 <> 0xD.
Proof.
  assert (N : forall p s, newlines mess <> p ++ 0x26 :: s).
  { intros p s H. assert (I : In 0x26 (newlines mess)) by (rewrite H; apply in_or_app; right; now left). vm_compute in I. intuition discriminate. }
  split; [|split; [|split; [exact (fun p s => N p (0x23 :: s))|vm_compute; discriminate]]].
  - split; intros x X; apply not_spelled; cbn in X; repeat (destruct X as [<-|X]; [vm_compute; reflexivity|]); destruct X.
  - intros p s H. now destruct (N p s).
Qed.
Definition el (name : string) (kids : list node) : node := NElement ns_HTML [] (lit name) [] kids.
Definition txt (s : string) : node := NText (lit s).
Example C107_tree_ex : forall listed, parse listed match_ncr 5000 34 mess =
  Val (NDocument [el "html" [el "head" []; el "body" [txt "ab";
    el "table" [el "caption" [txt "c"]; el "tbody" [el "tr" [el "td" [txt "d"]]]];
    txt "e"; el "b" [el "select" []; el "input" []; el "li" [txt "f"; el "p" []]]]]]).
Proof. intro. vm_compute. reflexivity. Qed.
Example C94_tokens_ex : Forall tame_token [TEnd (Tag (lit "td") false []); TStart (Tag (lit "select") false []); TStart (Tag (lit "caption") false []); TEnd (Tag (lit "br") false [])].
Proof. repeat (apply Forall_cons; [cbn; repeat split; try discriminate; intuition discriminate|]). apply Forall_nil. Qed.
