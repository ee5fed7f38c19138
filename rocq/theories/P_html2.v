(** The tags that the HTML tokeniser emits: C108 and C109. *)
From Coq Require Import ZArith List Bool String Lia.
From Verif Require Import M_infra M_encoding M_labels M_html M_html_ncr M_html_serialize M_dom M_dom2 L_html_names L_html1 L_html7 L_html8 L_html_ncr3 L_html9 L_html10 L_html11 L_html12 L_html13 L_dom21.
Import ListNotations.
Open Scope Z_scope.
Open Scope list_scope.

(** * C108 *)

(** Names as the grammar asks for them. *)
Definition good_name (n : list Z) : Prop :=
  (exists c r, n = c :: r /\ 0x61 <= c <= 0x7A) /\
  Forall (fun c => ~ In c [0; 0x9; 0xA; 0xC; 0xD; 0x20; 0x2F; 0x3E] /\ ~ 0x41 <= c <= 0x5A) n.
Definition good_attribute (n : list Z) : Prop :=
  n <> [] /\ ~ In 0x3D (tl n) /\ Forall (fun c => ~ In c [0; 0x9; 0xA; 0xC; 0xD; 0x20; 0x2F; 0x3E] /\ ~ 0x41 <= c <= 0x5A) n.
Definition attribute_names (g : tag) : list (list Z) := map a_name (filter (fun a => negb (a_omitted a)) (g_attributes g)).
Definition good_tag (g : tag) : Prop :=
  good_name (g_name g) /\ Forall good_attribute (attribute_names g) /\ NoDup (attribute_names g).

Lemma good_chars : forall c, name_char c -> ~ In c [0; 0x9; 0xA; 0xC; 0xD; 0x20; 0x2F; 0x3E] /\ ~ 0x41 <= c <= 0x5A.
Proof. unfold name_char. intros c H. cbn [In]. lia. Qed.
Lemma tag_ok_good : forall g, tag_ok g -> good_tag g.
Proof.
  intros g [(c & r & E & C & R) [N A]]. split; [|split; [|exact N]].
  - split; [exists c, r; split; [exact E|exact C]|]. rewrite E. constructor; [apply good_chars; unfold name_start, name_char in *; lia|].
    eapply Forall_impl; [|exact R]. exact good_chars.
  - unfold attribute_names. apply Forall_forall. intros n H. apply in_map_iff in H. destruct H as (a & <- & H). apply filter_In in H.
    rewrite Forall_forall in A. destruct (A a (proj1 H)) as (d & q & Ea & D & Q). rewrite Ea. split; [discriminate|]. cbn [tl]. split.
    + intro I. rewrite Forall_forall in Q. destruct (Q _ I) as [_ X]. now apply X.
    + constructor; [now apply good_chars|]. eapply Forall_impl; [|exact Q]. intros x [X _]. now apply good_chars.
Qed.

(** For every text, with references of any kind in it: whatever the tokeniser has emitted. *)
Theorem C108_tags : forall switch cdata text fuel l, text_switch switch -> tokenize switch cdata match_ncr fuel tok_init text = Val l ->
  forall g, (In (TStart g) l -> good_tag g /\ spelled (newlines text) (lit "<") (g_name g)) /\
            (In (TEnd g) l -> good_tag g /\ spelled (newlines text) (lit "</") (g_name g)).
Proof.
  intros switch cdata text fuel l Sw E. destruct (tags_carried switch Sw cdata text fuel l E) as [T S1].
  rewrite Forall_forall in T, S1. intro g. split; intro I; (split; [apply tag_ok_good; exact (T _ I)|exact (S1 _ I)]).
Qed.
Print Assumptions C108_tags.
(** An example: upper case, a slash within, an attribute that is given twice, an equals sign in front, a newline of two characters, references by number. *)
Definition odd_text : list Z := lit "<DIV ID=a =x=1 id=b/c>" ++ [0xD; 0xA] ++ lit "&#65;&lt;</DIV x><br/" ++ [0xD].
Example C108_tags_ex : tokenize (fun _ => None) (fun _ => false) match_ncr 1000 tok_init odd_text =
  Val [TStart (Tag (lit "div") false [Attribute (lit "id") (lit "a") false; Attribute (lit "=x") (lit "1") false; Attribute (lit "id") (lit "b/c") true]);
       TChar 0xA; TChar 0x41; TChar 0x3C; TEnd (Tag (lit "div") false [Attribute (lit "x") [] false]); TEof; TEof] /\
  text_switch (fun _ => None).
Proof. split; [vm_compute; reflexivity|]. intros l s H; discriminate H. Qed.

(** * C109 *)

(** In a script nothing but the end tag of the script is a tag: refuted. The state that looks for a script within a comment goes to
    the attributes of a tag when it finds another name (tokenization.hpp:1048), and what follows is put into the start tag of the script,
    which is emitted again. *)
Theorem C109_script_refuted : forall listed, exists text a b,
  tokenize (switch_of listed 40 false) (cdata_of listed 40 false) match_ncr 1000 tok_init text =
    Val (TStart (Tag (lit "script") false []) :: a ++ TStart (Tag (lit "script") false [Attribute (lit "x") [] false]) :: b) /\
  ~ (exists g, In (TEnd g) a) /\ spelled text (lit "<") (lit "script") /\
  forall p q, text = p ++ lit "<script" ++ q -> p = [].
Proof.
  intro listed. exists (lit "<script><!--<b x>y"), (map TChar (lit "<!--<b ")), [TChar 0x79; TEof]. split; [vm_compute; reflexivity|]. split; [|split].
  - intros (g & H). apply in_map_iff in H. destruct H as (x & H & _). discriminate H.
  - exists [], (lit "script"), 0x3E, (lit "<!--<b x>y"). split; [reflexivity|]. split; reflexivity.
  - intros p q H. destruct p as [|c p]; [reflexivity|exfalso]. vm_compute in H.
    repeat (injection H as _ H; destruct p as [|? p]; [discriminate H|]). discriminate H.
Qed.
Print Assumptions C109_script_refuted.
