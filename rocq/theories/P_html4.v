(** C126: every state of the tokeniser does what the HTML standard says, and the four places where one does not. *)
From Coq Require Import ZArith List Bool String Lia.
From Verif Require Import M_infra M_encoding M_labels M_html M_html_ncr L_html_names L_html_ncr3 L_html_serialize L_html7 L_html1 L_html10 L_html14 L_html15.
Import ListNotations.
Open Scope Z_scope.
Open Scope list_scope.

(** One character, or the end of the text, in any state of the standard's table: the handler does what the table says exactly where it does not depart
    from it. *)
Theorem C126_states_partial : forall switch t i r, ordinary switch t i = Some r -> (std_step switch t i = Some r <-> ~ Departs t i).
Proof.
  intros switch t i r H. split.
  - intros K D. exact (departs_differ switch t i r H D K).
  - intro D. destruct i as [c|]; [exact (std_char switch t c r H D)|exact (std_eof switch t r H)].
Qed.
Print Assumptions C126_states_partial.
(** ["<"] in the data state, U+0000 in a comment *)
Example C126_states_ex :
  (exists r, ordinary (fun _ => None) tok_init (Some 0x3C) = Some r /\ std_step (fun _ => None) tok_init (Some 0x3C) = Some r) /\
  (exists r, ordinary (fun _ => None) (put comment_state tok_init) (Some 0) = Some r /\ std_step (fun _ => None) (put comment_state tok_init) (Some 0) <> Some r).
Proof. split; eexists; (split; [vm_compute; reflexivity|vm_compute]); [reflexivity|discriminate]. Qed.

(** One step of reading, with the states that look ahead. *)
Theorem C126_steps_partial : forall switch cdata t r p, pstep switch cdata match_ncr t r = Some p -> ~ Departs t (hd_error r) -> Forall (fun c => 0 <= c < 2 ^ 32) r ->
  forall q, StdStep switch cdata t r q <-> q = p.
Proof.
  intros switch cdata t r p H D B q. pose proof (step_ok switch cdata t r p H D B) as K. split; [intro Q; exact (step_one switch cdata t r _ _ Q K)|intros ->; exact K].
Qed.
Print Assumptions C126_steps_partial.
(** [!DocType] *)
Example C126_steps_ex : exists p, pstep (fun _ => None) (fun _ => false) match_ncr (put markup_declaration_open_state tok_init) (lit "DocType a>") = Some p /\
  p = Next (put DOCTYPE_state tok_init) (lit " a>") /\ ~ Departs (put markup_declaration_open_state tok_init) (hd_error (lit "DocType a>")) /\
  Forall (fun c => 0 <= c < 2 ^ 32) (lit "DocType a>").
Proof.
  eexists. split; [vm_compute; reflexivity|]. split; [vm_compute; reflexivity|]. split; [intro D; inversion D; subst; discriminate|].
  repeat constructor; vm_compute; discriminate.
Qed.

(** The standard says one thing only. *)
Theorem C126_one : forall switch cdata t r a b, StdReads switch cdata t r a -> StdReads switch cdata t r b -> a = b.
Proof. exact reads_one. Qed.
Print Assumptions C126_one.

(** A whole text. Where references are written out with their semicolons and none is numeric, and the text does not end in CR, the tokens are those of the
    standard unless one of the four departures is met on the way. *)
Theorem C126_text_partial : forall switch cdata text fuel, text_switch switch -> whole_references (newlines text) ->
  (forall p s, newlines text <> p ++ 0x26 :: 0x23 :: s) -> last text 0 <> 0xD -> fuel_for fuel text -> Forall (fun c => 0 <= c < 2 ^ 32) (newlines text) ->
  (forall t r, StdSteps switch cdata tok_init (newlines text) t r -> ~ Departs t (hd_error r)) ->
  exists t, StdReads switch cdata tok_init (newlines text) t /\ tokenize switch cdata match_ncr fuel tok_init text = Val (t_out t).
Proof. intros switch cdata text fuel Sw. apply (reads_whole switch cdata Sw). Qed.
Print Assumptions C126_text_partial.

(** Without U+0000 and without scripts there is no departure to meet. *)
Theorem C126_script_free_partial : forall switch cdata text fuel, text_switch switch -> (forall l, switch l <> Some script_data_state) -> whole_references (newlines text) ->
  (forall p s, newlines text <> p ++ 0x26 :: 0x23 :: s) -> last text 0 <> 0xD -> fuel_for fuel text -> Forall (fun c => 0 <= c < 2 ^ 32) (newlines text) -> ~ In 0 text ->
  exists t, StdReads switch cdata tok_init (newlines text) t /\ tokenize switch cdata match_ncr fuel tok_init text = Val (t_out t).
Proof. intros switch cdata text fuel Sw N. exact (script_free_reads switch cdata Sw N text fuel). Qed.
Print Assumptions C126_script_free_partial.
Definition none (_ : list token) : option state := None.
Definition never (_ : list token) : bool := false.
Definition page : list Z := lit "<!doctype html><p class=a>x &amp; y<!-- c --></p>".
Lemma none_text : text_switch none.
Proof. intros l s H. discriminate H. Qed.
Lemma page_whole : whole_references (newlines page).
Proof.
  intros p s E. vm_compute in E.
  repeat (destruct p as [|? p]; [first [discriminate E|injection E as <-; left; exists (lit "amp;"), [0x26]; eexists; split; [vm_compute; reflexivity|split; [|reflexivity]]]|
    injection E as _ E]).
  - apply written_standard. left. reflexivity.
  - destruct p; discriminate E.
Qed.
Lemma page_numbers : forall p s, newlines page <> p ++ 0x26 :: 0x23 :: s.
Proof. intros p s E. vm_compute in E. repeat (destruct p as [|? p]; [discriminate E|injection E as _ E]). destruct p; discriminate E. Qed.
Example C126_script_free_ex : text_switch none /\ (forall l, none l <> Some script_data_state) /\ whole_references (newlines page) /\
  (forall p s, newlines page <> p ++ 0x26 :: 0x23 :: s) /\ last page 0 <> 0xD /\ fuel_for 2000 page /\ Forall (fun c => 0 <= c < 2 ^ 32) (newlines page) /\ ~ In 0 page /\
  tokenize none never match_ncr 2000 tok_init page = Val (TDoctype (Doctype (lit "html") [] [] false) :: TStart (Tag (lit "p") false [Attribute (lit "class") (lit "a") false])
    :: map TChar (lit "x & y") ++ [TComment (lit " c "); TEnd (Tag (lit "p") false []); TEof]).
Proof.
  split; [exact none_text|]. split; [discriminate|]. split; [exact page_whole|]. split; [exact page_numbers|]. split; [vm_compute; discriminate|].
  split; [vm_compute; repeat constructor|]. split; [|split; [|vm_compute; reflexivity]].
  - apply Forall_forall. intros c H. vm_compute in H. repeat (destruct H as [<-|H]; [lia|]). destruct H.
  - intro H. vm_compute in H. intuition discriminate.
Qed.
(** the reading of a short text by the standard *)
Example C126_text_ex : exists t, StdReads none never tok_init (newlines (lit "<a>")) t /\ tokenize none never match_ncr 500 tok_init (lit "<a>") = Val (t_out t).
Proof.
  eexists. split; [|shelve]. do 2 eexists. split.
  - repeat (eapply Ss_more; [eapply Ss_char; vm_compute; reflexivity|vm_compute]). apply Ss_refl.
  - apply Ss_eof. vm_compute. reflexivity.
  Unshelve. vm_compute. reflexivity.
Qed.

(** ** The departures *)

(** U+0000 in a comment: the program emits U+FFFD as a character and leaves the comment as it is; the standard appends U+FFFD to the comment. *)
Definition null_comment : list Z := lit "<!--" ++ [0] ++ lit "-->".
Ltac walk := repeat (eapply Ss_more; [first [eapply Ss_char; vm_compute; reflexivity|eapply (Ss_comment _ _ _ (0 :: lit "-->")); reflexivity]|vm_compute]).
Theorem C126_null_refuted : exists t, StdReads none never tok_init null_comment t /\ t_out t = [TComment [0xFFFD]; TEof] /\
  tokenize none never match_ncr 500 tok_init null_comment = Val [TChar 0xFFFD; TComment []; TEof].
Proof.
  eexists. split; [|split; [shelve|vm_compute; reflexivity]]. do 2 eexists. split.
  - walk. apply Ss_refl.
  - apply Ss_eof. vm_compute. reflexivity.
  Unshelve. vm_compute. reflexivity.
Qed.
Print Assumptions C126_null_refuted.

(** A tag inside an escaped script: the program leaves the script and reads attributes; the [">"] that follows emits the start tag of the script again. *)
Definition after_tag (l : list token) : option state := match l with [TStart _] => Some script_data_state | _ => None end.
Definition escaped_script : list Z := lit "<script><!--<b >".
Theorem C126_script_refuted : exists t, StdReads after_tag never tok_init escaped_script t /\
  t_out t = TStart (Tag (lit "script") false []) :: map TChar (lit "<!--<b >") ++ [TEof] /\
  tokenize after_tag never match_ncr 500 tok_init escaped_script =
    Val (TStart (Tag (lit "script") false []) :: map TChar (lit "<!--<b ") ++ [TStart (Tag (lit "script") false []); TEof]).
Proof.
  eexists. split; [|split; [shelve|vm_compute; reflexivity]]. do 2 eexists. split.
  - walk. apply Ss_refl.
  - apply Ss_eof. vm_compute. reflexivity.
  Unshelve. vm_compute. reflexivity.
Qed.
Print Assumptions C126_script_refuted.

(** A number of more than 32 bits: the program reads 2^32 + 65 as the number 65, in hexadecimal and in decimal; for the standard it is out of range.
    (That the end token is missing is C56.) *)
Theorem C126_number_refuted : exists text t, StdReads none never tok_init text t /\ t_out t = [TChar 0xFFFD; TChar 0x2E; TEof] /\
  tokenize none never match_ncr 500 tok_init text = Val [TChar 0x41; TChar 0x2E].
Proof.
  exists (lit "&#x100000041;.").
  eexists. split; [|split; [shelve|vm_compute; reflexivity]]. do 2 eexists. split.
  - walk. eapply Ss_more; [eapply Ss_number; [vm_compute; reflexivity|apply Nm_large; vm_compute; reflexivity|vm_compute; reflexivity|vm_compute; reflexivity]|vm_compute].
    walk. apply Ss_refl.
  - apply Ss_eof. vm_compute. reflexivity.
  Unshelve. vm_compute. reflexivity.
Qed.
Print Assumptions C126_number_refuted.
Theorem C126_decimal_refuted : tokenize none never match_ncr 500 tok_init (lit "&#4294967361;.") = Val [TChar 0x41; TChar 0x2E] /\
  exists t, StdReads none never tok_init (lit "&#4294967361;.") t /\ t_out t = [TChar 0xFFFD; TChar 0x2E; TEof].
Proof.
  split; [vm_compute; reflexivity|]. eexists. split; [|shelve]. do 2 eexists. split.
  - walk. eapply Ss_more; [eapply Ss_number; [vm_compute; reflexivity|apply Nm_large; vm_compute; reflexivity|vm_compute; reflexivity|vm_compute; reflexivity]|vm_compute].
    walk. apply Ss_refl.
  - apply Ss_eof. vm_compute. reflexivity.
  Unshelve. vm_compute. reflexivity.
Qed.
Print Assumptions C126_decimal_refuted.
