(** C106 and C109: what holds of CDATA sections and of scripts. *)
From Coq Require Import ZArith List Bool String Lia.
From Verif Require Import M_infra M_encoding M_labels M_html M_html_ncr L_html1 L_html6 L_html10 L_html16 L_html17 M_html_serialize M_dom_names M_dom M_dom2.
Import ListNotations.
Open Scope Z_scope.
Open Scope list_scope.

(** C106: where the tokeniser is told that sections are allowed, one is read as the text in it, whatever that is and whatever came before; *)
Theorem C106_section_partial : forall switch cdata pre t s fuel, text_switch switch -> (forall r, nsteps switch cdata tok_init (pre ++ r) t r) -> t_state t = data_state ->
  cdata (t_out t) = true -> (forall p q, s ++ lit "]]" <> p ++ lit "]]>" ++ q) -> ~ In 0xD pre -> ~ In 0xD s -> fuel_for fuel (pre ++ lit "<![CDATA[" ++ s ++ lit "]]>") ->
  tokenize switch cdata match_ncr fuel tok_init (pre ++ lit "<![CDATA[" ++ s ++ lit "]]>") = Val (t_out t ++ map TChar s ++ [TEof]).
Proof. intros switch cdata pre t s fuel Sw. exact (section_whole switch Sw cdata pre t s fuel). Qed.
Print Assumptions C106_section_partial.
(** where it is told that they are not, it is a comment up to the first [">"]. *)
Theorem C106_comment_partial : forall switch cdata pre t s fuel, text_switch switch -> (forall r, nsteps switch cdata tok_init (pre ++ r) t r) -> t_state t = data_state ->
  cdata (t_out t) = false -> ~ In 0x3E s -> ~ In 0xD pre -> ~ In 0xD s -> fuel_for fuel (pre ++ lit "<![CDATA[" ++ s ++ lit ">") ->
  tokenize switch cdata match_ncr fuel tok_init (pre ++ lit "<![CDATA[" ++ s ++ lit ">") =
    Val (t_out t ++ [TComment (lit "[CDATA[" ++ map (fun c => if c =? 0 then 0xFFFD else c) s); TEof]).
Proof. intros switch cdata pre t s fuel Sw. exact (comment_whole switch Sw cdata pre t s fuel). Qed.
Print Assumptions C106_comment_partial.
(** It is told so exactly where the innermost open element is one of HTML, which is the wrong way round. *)
Theorem C106_told : forall listed fuel fragment l s e rest, construct listed fuel (st_init fragment) l = Val s -> s_stack s = e :: rest ->
  (cdata_of listed fuel fragment l = true <-> ns_of (s_dom s) (en_node e) = ns_HTML).
Proof. intros listed fuel fragment l s e rest H E. unfold cdata_of. rewrite H, E. apply Z.eqb_eq. Qed.
Print Assumptions C106_told.
Definition none (_ : list token) : option state := None.
Lemma reads_p cdata r : nsteps none cdata tok_init (lit "<p>" ++ r) (emit (TStart (Tag (lit "p") false [])) (set_last (lit "p") (set_start (Tag (lit "p") false []) (set_id 2 tok_init)))) r.
Proof.
  change (lit "<p>" ++ r) with (0x3C :: 0x70 :: 0x3E :: r). do 3 (eapply ns_trans; [eapply step_c; reflexivity|cbv iota]).
  eapply (step_c none cdata _ 0x3E r _ false); reflexivity.
Qed.
Example C106_section_ex : text_switch none /\ (forall cdata, exists t, (forall r, nsteps none cdata tok_init (lit "<p>" ++ r) t r) /\ t_state t = data_state) /\
  (forall p q, lit "a]>&<b>]" ++ lit "]]" <> p ++ lit "]]>" ++ q) /\
  tokenize none (fun _ => true) match_ncr 1000 tok_init (lit "<p><![CDATA[a]>&<b>]]]>") = Val (TStart (Tag (lit "p") false []) :: map TChar (lit "a]>&<b>]") ++ [TEof]) /\
  tokenize none (fun _ => false) match_ncr 1000 tok_init (lit "<p><![CDATA[a]]>") = Val [TStart (Tag (lit "p") false []); TComment (lit "[CDATA[a]]"); TEof].
Proof.
  split; [intros l s H; discriminate H|]. split; [intro cdata; eexists; split; [exact (reads_p cdata)|reflexivity]|]. split; [|split; vm_compute; reflexivity].
  intros p q E. vm_compute in E. repeat (destruct p as [|? p]; [discriminate E|injection E as _ E]). destruct p; discriminate E.
Qed.

(** C109: from where the script data state is reached, in a text that has no "<!--" behind it, every start tag comes after an end tag of the name of the script. *)
Theorem C109_script_partial : forall switch cdata text fuel tokens t rest, text_switch switch -> tokenize switch cdata match_ncr fuel tok_init text = Val tokens ->
  psteps switch cdata match_ncr tok_init (newlines text) t rest -> t_state t = script_data_state -> (forall p q, rest <> p ++ lit "<!--" ++ q) ->
  forall a g b, tokens = t_out t ++ a ++ TStart g :: b -> exists a1 g1 a2, a = a1 ++ TEnd g1 :: a2 /\ g_name g1 = t_last t /\ forall k, In k a1 -> k = TEof \/ exists c, k = TChar c.
Proof.
  intros switch cdata text fuel tokens t rest Sw H S Es U a g b E. destruct (script_quiet _ _ _ _ _ _ _ Sw H S Es U) as [(x & X)|(l & L & K)].
  - exfalso. rewrite E in X. apply (f_equal (@List.length token)) in X. rewrite !app_length in X. cbn in X. lia.
  - rewrite L in E. apply app_inv_head in E. subst l. destruct K as [Q|(a0 & g1 & b0 & E & Q & N)].
    + exfalso. apply Forall_app in Q. destruct Q as [_ Q]. inversion Q as [|? ? [K|(c & K)] _]; discriminate K.
    + symmetry in E. clear L. revert a E. induction Q as [|k a0 Hk Q IH]; intros a E.
      * destruct a as [|y a]; [discriminate E|]. injection E as <- E. exists [], g1, a. split; [reflexivity|]. split; [exact N|]. intros k [].
      * destruct a as [|y a]; [injection E as -> _; destruct Hk as [Hk|(c & Hk)]; discriminate Hk|]. injection E as <- E. destruct (IH _ E) as (a1 & g2 & a2 & -> & N2 & F).
        exists (k :: a1), g2, a2. split; [reflexivity|]. split; [exact N2|]. intros j [<-|J]; auto.
Qed.
Print Assumptions C109_script_partial.
Definition in_script (l : list token) : option state := match l with [TStart _] => Some script_data_state | _ => None end.
Definition page : list Z := lit "<s>if(a<b)c='<p>';</s><p>".
Example C109_script_ex : text_switch in_script /\ (exists t, psteps in_script (fun _ => false) match_ncr tok_init (newlines page) t (lit "if(a<b)c='<p>';</s><p>") /\
    t_state t = script_data_state /\ t_last t = lit "s") /\ (forall p q, lit "if(a<b)c='<p>';</s><p>" <> p ++ lit "<!--" ++ q) /\
  tokenize in_script (fun _ => false) match_ncr 1000 tok_init page =
    Val (TStart (Tag (lit "s") false []) :: map TChar (lit "if(a<b)c='<p>';") ++ [TEnd (Tag (lit "s") false []); TStart (Tag (lit "p") false []); TEof]).
Proof.
  split; [intros l s H; destruct l as [|[] [|]]; try discriminate H; injection H as <-; auto|]. split; [|split; [|vm_compute; reflexivity]].
  - eexists. split; [do 4 (eapply ps_step; [vm_compute; reflexivity|]); apply ps_refl|split; vm_compute; reflexivity].
  - intros p q E. vm_compute in E. repeat (destruct p as [|? p]; [discriminate E|injection E as _ E]). destruct p; discriminate E.
Qed.
