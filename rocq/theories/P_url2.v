(** What the URL parser makes of absolute URLs, and the round trip of records: C66, C67, C68, C69. *)
From Coq Require Import String.
From Coq Require Import ZArith List Bool Lia.
From Verif Require Import M_unicode M_infra M_percent M_ip M_encoding M_labels M_url.
From Verif Require Import L_unicode L_url L_url2 L_url3 L_url4 L_url5 L_url6 L_url7 L_url8 L_url9.
From Verif Require L_ip.
Import ListNotations.
Open Scope string_scope.
Open Scope list_scope.
Open Scope Z_scope.

Ltac wit := repeat (match goal with |- _ /\ _ => split end); (vm_compute; reflexivity).
Ltac fz :=
  match goal with |- Forall ?P ?l => let x := eval vm_compute in l in change (Forall P x) end;
  repeat (apply Forall_cons; [unfold scalar; lia|]); apply Forall_nil.
Tactic Notation "fl" tactic3(t) :=
  match goal with |- Forall ?P ?l => let x := eval vm_compute in l in change (Forall P x) end;
  repeat (apply Forall_cons; [t|]); apply Forall_nil.
(** An IDNA conversion for the examples: it changes nothing. *)
Definition same (s : list Z) : option (list Z) := Some s.

(** * The statements' vocabulary *)

(** The set in which the query of a URL is encoded. *)
Definition query_chars (sc : list Z) : Z -> bool :=
  if is_special_scheme sc then is_special_query_percent_encode_set else is_query_percent_encode_set.
(** What separates segments. *)
Definition segment_end (sc : list Z) (c : Z) : bool := (c =? 0x2F) || (is_special_scheme sc && (c =? 0x5C)).
(** The path of the text [b]: its segments, percent-encoded, without the dot segments. *)
Definition path_of (sc b : list Z) : list (list Z) :=
  match b with
  | [] => if is_special_scheme sc then [[]] else []
  | c :: r => resolve (eqs sc (lit "file")) [] (map (pe is_path_percent_encode_set) (split_at (segment_end sc) (if segment_end sc c then r else b)))
  end.
(** Path, query and fragment of a record are those of the text. *)
Definition has_tail (v : url) (b : list Z) (oq of : option (list Z)) : Prop :=
  path v = path_of (scheme v) b /\ query v = option_map (pe (query_chars (scheme v))) oq /\ fragment v = option_map (pe is_fragment_percent_encode_set) of.
(** User name and password of a record are those of the text before the at sign. *)
Definition has_user (v : url) (ou : option (list Z)) : Prop :=
  match ou with
  | None => username v = [] /\ password v = []
  | Some us => username v = pe is_userinfo_percent_encode_set (fst (colon us)) /\
      password v = match snd (colon us) with Some p => pe is_userinfo_percent_encode_set p | None => [] end
  end.
Definition has_port (v : url) (od : option (list Z)) : Prop :=
  match od with
  | None | Some [] => port v = None
  | Some d => (usual (scheme v) (decimal d) -> port v = None) /\ (~ usual (scheme v) (decimal d) -> port v = Some (decimal d))
  end.
(** The text of an authority: no delimiter of another part, no colon in the host but between brackets, digits in the port. *)
Definition authority_text (special : bool) (ou : option (list Z)) (h : list Z) (od : option (list Z)) : Prop :=
  Forall (fun c => scalar c /\ ~ In c [0xA; 0x2F; 0x3F; 0x23] /\ (special = true -> c <> 0x5C)) (utext ou ++ h ++ ptext od) /\
  ~ In 0x40 (h ++ ptext od) /\ colon_free false h /\ (od <> None -> in_brackets false h = false) /\
  match od with Some d => Forall (fun c => 0x30 <= c <= 0x39) d | None => True end /\
  (special = true \/ ou <> None \/ od <> None -> h <> []).
(** The text of path, query and fragment. *)
Definition tail_text (sc b : list Z) (oq of : option (list Z)) : Prop :=
  Forall (fun c => scalar c /\ c <> 0xA) (b ++ qtext oq ++ ftext of) /\ ~ In 0x3F b /\ ~ In 0x23 b /\ match oq with Some q => ~ In 0x23 q | None => True end.
Definition begins_path (sc b : list Z) : Prop := b = [] \/ exists c r, b = c :: r /\ segment_end sc c = true.

Lemma tail_text_ok sc b oq of : tail_text sc b oq of -> tail_ok b oq of.
Proof. exact (fun H => H). Qed.
Lemma authority_text_ok sc ou h od : authority_text (is_special_scheme (map cp_lower sc)) ou h od -> authority_ok (scheme_url sc) ou h od.
Proof.
  intros (A & B). split; [|exact B]. revert A. apply Forall_impl. intros c (S & N & K). cbn [In] in N. assert (c <> 0xA) by lia. split; [split; assumption|].
  unfold ends_authority, is_special, EOF. change (scheme (scheme_url sc)) with (map cp_lower sc). destruct (is_special_scheme (map cp_lower sc)) eqn:Sp.
  - specialize (K eq_refl). cbn [andb]. lia.
  - cbn [andb]. lia.
Qed.
Lemma begins_path_ok sc b : begins_path (map cp_lower sc) b -> starts_path (scheme_url sc) b.
Proof. exact (fun H => H). Qed.
Lemma finish_fields w b oq of : query w = None -> fragment w = None -> has_tail (finish w b oq of) b oq of.
Proof.
  intros Q F. assert (Sc : scheme (finish w b oq of) = scheme w) by (unfold finish; destruct oq, of; reflexivity). unfold has_tail. rewrite Sc.
  assert (E : path_of (scheme w) b = set_path_value w b) by (destruct b; reflexivity). rewrite E. unfold finish.
  destruct oq as [q|], of as [f|]; cbn [with_query with_fragment option_map]; repeat split; assumption.
Qed.
Lemma finish_scheme w b oq of : scheme (finish w b oq of) = scheme w /\ username (finish w b oq of) = username w /\ password (finish w b oq of) = password w /\
  uhost (finish w b oq of) = uhost w /\ port (finish w b oq of) = port w /\ cannot_be_base (finish w b oq of) = cannot_be_base w.
Proof. unfold finish. destruct oq, of; repeat split. Qed.
Lemma userinfo_fields ou w : username w = [] -> password w = [] -> has_user (userinfo ou w) ou.
Proof.
  intros U P. destruct ou as [us|]; [|split; assumption]. cbn [userinfo has_user]. unfold with_userinfo. destruct (colon us) as [x [y|]]; cbn [fst snd].
  - change (username (set_pass _ ?w)) with (username w). cbn [username set_user set_pass password]. rewrite U, P. split; reflexivity.
  - cbn [username set_user password]. rewrite U, P. split; reflexivity.
Qed.
Lemma userinfo_rest ou w : uhost (userinfo ou w) = uhost w /\ port (userinfo ou w) = port w /\ query (userinfo ou w) = query w /\ fragment (userinfo ou w) = fragment w /\ cannot_be_base (userinfo ou w) = cannot_be_base w.
Proof. destruct ou as [us|]; [|repeat split]. cbn [userinfo]. unfold with_userinfo. destruct (colon us) as [x [y|]]; repeat split. Qed.
Lemma port_fields od w : port w = None -> has_port (the_port od w) od /\ scheme (the_port od w) = scheme w /\ username (the_port od w) = username w /\ password (the_port od w) = password w /\
  uhost (the_port od w) = uhost w /\ query (the_port od w) = query w /\ fragment (the_port od w) = fragment w /\ cannot_be_base (the_port od w) = cannot_be_base w.
Proof.
  intros P. destruct od as [[|c d]|]; cbn [the_port with_port has_port]; try (repeat split; assumption). split; [|repeat split].
  cbn [scheme set_port port]. destruct (kept_port_usual w (decimal (c :: d))) as [[A B]|[A B]]; rewrite B; split; tauto.
Qed.
Lemma authority_fields sc ou h od b oq of : let v := authority_url (scheme_url sc) ou h od b oq of in
  scheme v = map cp_lower sc /\ has_user v ou /\ uhost v = Some h /\ has_port v od /\ has_tail v b oq of /\ cannot_be_base v = false.
Proof.
  cbv zeta. unfold authority_url. set (w0 := scheme_url sc). set (w1 := userinfo ou w0). set (w2 := set_host (Some h) w1). set (w3 := the_port od w2).
  destruct (userinfo_rest ou w0) as (R1 & R2 & R3 & R4 & R5). fold w1 in R1, R2, R3, R4, R5.
  destruct (port_fields od w2 R2) as (P0 & P1 & P2 & P3 & P4 & P5 & P6 & P7). fold w3 in P0, P1, P2, P3, P4, P5, P6, P7.
  destruct (finish_scheme w3 b oq of) as (F1 & F2 & F3 & F4 & F5 & F6).
  assert (Sc1 : scheme w1 = map cp_lower sc) by (unfold w1; rewrite userinfo_scheme; reflexivity).
  split; [rewrite F1, P1; exact Sc1|]. split.
  { pose proof (userinfo_fields ou w0 eq_refl eq_refl) as U. fold w1 in U. unfold has_user in *. rewrite F2, F3, P2, P3. exact U. }
  split; [rewrite F4, P4; reflexivity|]. split; [unfold has_port in *; rewrite F1, F5; exact P0|].
  split; [|rewrite F6, P7; exact R5]. apply finish_fields; [rewrite P5; exact R3|rewrite P6; exact R4].
Qed.

(** * C66 *)

(** A URL with an authority is split at its delimiters: the scheme in lower case, user name and password before the last at sign, the host
    that the host parser gives, the port unless it is the usual one of the scheme, the path without dot segments, the query and the
    fragment, each percent-encoded with its own set. It is rejected when the host parser rejects the host, or when the port is too long or
    too large. Special schemes: any number of slashes and backslashes after the colon, two slashes first when the base has the scheme. *)
Theorem C66_special idna base fuel steps s sc sl ou h od b oq of hh : Forall scalar s ->
  (8 * List.length s + 8 < fuel)%nat -> (18 * (List.length s + 2) <= steps)%nat ->
  without_newlines (trim s) = sc ++ 0x3A :: sl ++ (utext ou ++ h ++ ptext od) ++ b ++ qtext oq ++ ftext of ->
  scheme_text sc -> is_special_scheme (map cp_lower sc) = true -> map cp_lower sc <> lit "file" -> Forall (fun c => c = 0x2F \/ c = 0x5C) sl ->
  (forall v, base = Some v -> scheme v = map cp_lower sc -> exists sl', sl = 0x2F :: 0x2F :: sl') ->
  authority_text true ou h od -> begins_path (map cp_lower sc) b -> tail_text (map cp_lower sc) b oq of ->
  parse_host idna fuel h false = Val hh ->
  (hh = HNone \/ (exists d, od = Some d /\ d <> [] /\ ((5 < List.length d)%nat \/ 65535 <= decimal d)) -> basic_parse idna fuel steps s base UTF_8 = Val None) /\
  (hh <> HNone -> (forall d, od = Some d -> (List.length d <= 5)%nat /\ decimal d < 65535) ->
   exists v, basic_parse idna fuel steps s base UTF_8 = Val (Some v) /\
     scheme v = map cp_lower sc /\ has_user v ou /\ uhost v = Some hh /\ has_port v od /\ has_tail v b oq of /\ cannot_be_base v = false).
Proof.
  intros S F St Ei Sc Sp Nf Sl Sb At Bp Tt Ph.
  assert (Fu : (List.length (without_newlines (trim s)) + 1 < fuel)%nat) by (pose proof (cleaned_length s); lia).
  assert (K : gives idna (without_newlines (trim s)) base fuel (start None UTF_8 empty_url) (if host_none hh || port_bad od then None else Some (authority_url (scheme_url sc) ou hh od b oq of))).
  { apply (parse_special idna _ base fuel Fu sc sl ou h od b oq of hh Ei Sc Sp).
    - unfold is_file, eqs. destruct (list_eq_dec _ _ _) as [e|]; [destruct (Nf e)|reflexivity].
    - revert Sl. apply Forall_impl. unfold is_slash. intros c X. lia.
    - unfold same_scheme. destruct base as [v|]; [|discriminate]. unfold eqs. destruct (list_eq_dec Z.eq_dec _ _) as [e|]; [|discriminate]. intros _. exact (Sb v eq_refl e).
    - apply authority_text_ok. rewrite Sp. exact At.
    - exact Bp.
    - exact Tt.
    - exact Ph. }
  apply parse_gives with (steps := steps) in K; [|exact S|split; assumption].
  assert (Pb : port_bad od = true <-> exists d, od = Some d /\ d <> [] /\ ((5 < List.length d)%nat \/ 65535 <= decimal d)).
  { unfold port_bad, port_fits, zlen. destruct od as [[|c d]|]; split; intros X; try discriminate X.
    - destruct X as (d & E & N & _). congruence.
    - exists (c :: d). split; [reflexivity|]. split; [discriminate|]. lia.
    - destruct X as (d' & E & _ & X). injection E as <-. lia.
    - destruct X as (d & E & _). discriminate E. }
  split.
  - intros X. rewrite K. replace (host_none hh || port_bad od) with true; [reflexivity|]. symmetry. apply orb_true_iff. destruct X as [->|X]; [now left|right; now apply Pb].
  - intros Nh Pd. replace (host_none hh || port_bad od) with false in K; [exists (authority_url (scheme_url sc) ou hh od b oq of); split; [exact K|apply authority_fields]|].
    symmetry. apply orb_false_iff. split; [destruct hh; reflexivity || congruence|]. apply not_true_iff_false. intros X. apply Pb in X as (d & E & N & X). specialize (Pd d E). lia.
Qed.
Print Assumptions C66_special.

Example C66_special_ex : exists s sc sl ou h od b oq of,
  without_newlines (trim s) = sc ++ 0x3A :: sl ++ (utext ou ++ h ++ ptext od) ++ b ++ qtext oq ++ ftext of /\
  s = lit " HTTP:/\u@v:p@h:81\a/./b/../c?q r#f " /\ Forall scalar s /\ scheme_text sc /\ is_special_scheme (map cp_lower sc) = true /\
  ou = Some (lit "u@v:p") /\ authority_text true ou h od /\ begins_path (map cp_lower sc) b /\ tail_text (map cp_lower sc) b oq of /\
  parse_host same 500 h false = Val (HDomain (lit "h")) /\ basic_parse same 500 900 s None UTF_8 =
    Val (Some (Url (lit "http") (lit "u%40v") (lit "p") (Some (HDomain (lit "h"))) (Some 81) [lit "a"; lit "c"] (Some (lit "q%20r")) (Some (lit "f")) false)).
Proof.
  exists (lit " HTTP:/\u@v:p@h:81\a/./b/../c?q r#f "), (lit "HTTP"), (lit "/\"), (Some (lit "u@v:p")), (lit "h"), (Some (lit "81")), (lit "\a/./b/../c"), (Some (lit "q r")), (Some (lit "f")).
  split; [vm_compute; reflexivity|]. split; [reflexivity|]. split; [fz|]. split; [split; [reflexivity|repeat constructor]|]. split; [reflexivity|]. split; [reflexivity|].
  split.
  { split.
    - fl (split; [unfold scalar; lia|split; [cbn; lia|lia]]).
    - cbn. repeat split; try lia; try discriminate; try reflexivity. fl lia. }
  split; [right; exists 0x5C, (lit "a/./b/../c"); split; reflexivity|]. split.
  { split; [fl (split; [unfold scalar; lia|lia])|]. repeat split; cbn; lia. }
  split; vm_compute; reflexivity.
Qed.

(** Other schemes: two slashes after the colon, and the opaque-host parser. *)
Theorem C66_other idna base fuel steps s sc ou h od b oq of hh : Forall scalar s ->
  (8 * List.length s + 8 < fuel)%nat -> (18 * (List.length s + 2) <= steps)%nat ->
  without_newlines (trim s) = sc ++ 0x3A :: 0x2F :: 0x2F :: (utext ou ++ h ++ ptext od) ++ b ++ qtext oq ++ ftext of ->
  scheme_text sc -> is_special_scheme (map cp_lower sc) = false ->
  authority_text false ou h od -> begins_path (map cp_lower sc) b -> tail_text (map cp_lower sc) b oq of ->
  parse_host idna fuel h true = Val hh ->
  (hh = HNone \/ (exists d, od = Some d /\ d <> [] /\ ((5 < List.length d)%nat \/ 65535 <= decimal d)) -> basic_parse idna fuel steps s base UTF_8 = Val None) /\
  (hh <> HNone -> (forall d, od = Some d -> (List.length d <= 5)%nat /\ decimal d < 65535) ->
   exists v, basic_parse idna fuel steps s base UTF_8 = Val (Some v) /\
     scheme v = map cp_lower sc /\ has_user v ou /\ uhost v = Some hh /\ has_port v od /\ has_tail v b oq of /\ cannot_be_base v = false).
Proof.
  intros S F St Ei Sc Sp At Bp Tt Ph.
  assert (Fu : (List.length (without_newlines (trim s)) + 1 < fuel)%nat) by (pose proof (cleaned_length s); lia).
  assert (K : gives idna (without_newlines (trim s)) base fuel (start None UTF_8 empty_url) (if host_none hh || port_bad od then None else Some (authority_url (scheme_url sc) ou hh od b oq of))).
  { apply (parse_other_authority idna _ base fuel Fu sc ou h od b oq of hh Ei Sc Sp).
    - apply authority_text_ok. rewrite Sp. exact At.
    - exact Bp.
    - exact Tt.
    - exact Ph. }
  apply parse_gives with (steps := steps) in K; [|exact S|split; assumption].
  assert (Pb : port_bad od = true <-> exists d, od = Some d /\ d <> [] /\ ((5 < List.length d)%nat \/ 65535 <= decimal d)).
  { unfold port_bad, port_fits, zlen. destruct od as [[|c d]|]; split; intros X; try discriminate X.
    - destruct X as (d & E & N & _). congruence.
    - exists (c :: d). split; [reflexivity|]. split; [discriminate|]. lia.
    - destruct X as (d' & E & _ & X). injection E as <-. lia.
    - destruct X as (d & E & _). discriminate E. }
  split.
  - intros X. rewrite K. replace (host_none hh || port_bad od) with true; [reflexivity|]. symmetry. apply orb_true_iff. destruct X as [->|X]; [now left|right; now apply Pb].
  - intros Nh Pd. replace (host_none hh || port_bad od) with false in K; [exists (authority_url (scheme_url sc) ou hh od b oq of); split; [exact K|apply authority_fields]|].
    symmetry. apply orb_false_iff. split; [destruct hh; reflexivity || congruence|]. apply not_true_iff_false. intros X. apply Pb in X as (d & E & N & X). specialize (Pd d E). lia.
Qed.
Print Assumptions C66_other.
Example C66_other_ex : exists s sc ou h od b oq of,
  without_newlines (trim s) = sc ++ 0x3A :: 0x2F :: 0x2F :: (utext ou ++ h ++ ptext od) ++ b ++ qtext oq ++ ftext of /\
  s = lit "a+b://u@H%41:0/x\y/../z" /\ Forall scalar s /\ scheme_text sc /\ is_special_scheme (map cp_lower sc) = false /\
  authority_text false ou h od /\ begins_path (map cp_lower sc) b /\ tail_text (map cp_lower sc) b oq of /\
  parse_host same 500 h true = Val (HOpaque (lit "H%41")) /\ basic_parse same 500 900 s None UTF_8 =
    Val (Some (Url (lit "a+b") (lit "u") [] (Some (HOpaque (lit "H%41"))) (Some 0) [lit "z"] None None false)).
Proof.
  exists (lit "a+b://u@H%41:0/x\y/../z"), (lit "a+b"), (Some (lit "u")), (lit "H%41"), (Some (lit "0")), (lit "/x\y/../z"), None, None.
  split; [vm_compute; reflexivity|]. split; [reflexivity|]. split; [fz|]. split; [split; [reflexivity|repeat constructor]|]. split; [reflexivity|].
  split.
  { split.
    - fl (split; [unfold scalar; lia|split; [cbn; lia|discriminate]]).
    - cbn. repeat split; try lia; try discriminate; try reflexivity. fl lia. }
  split; [right; exists 0x2F, (lit "x\y/../z"); split; reflexivity|]. split.
  { split; [fl (split; [unfold scalar; lia|lia])|]. repeat split; cbn; lia. }
  split; vm_compute; reflexivity.
Qed.

(** * C67 *)

(** A URL of another scheme with one slash after the colon, and something after it, has that path and no host. *)
Theorem C67_path_partial idna base fuel steps s sc b oq of : Forall scalar s ->
  (8 * List.length s + 8 < fuel)%nat -> (18 * (List.length s + 2) <= steps)%nat ->
  without_newlines (trim s) = sc ++ 0x3A :: 0x2F :: b ++ qtext oq ++ ftext of ->
  scheme_text sc -> is_special_scheme (map cp_lower sc) = false -> hd 0 b <> 0x2F -> tail_text (map cp_lower sc) b oq of ->
  b ++ qtext oq ++ ftext of <> [] ->
  exists v, basic_parse idna fuel steps s base UTF_8 = Val (Some v) /\ scheme v = map cp_lower sc /\ username v = [] /\ password v = [] /\
    uhost v = None /\ port v = None /\ has_tail v (0x2F :: b) oq of /\ cannot_be_base v = false.
Proof.
  intros S F St Ei Sc Sp Hd Tt Ne. assert (Fu : (List.length (without_newlines (trim s)) + 1 < fuel)%nat) by (pose proof (cleaned_length s); lia).
  pose proof (parse_other_path idna _ base fuel Fu sc b oq of Ei Sc Sp Ne Hd Tt) as K. apply parse_gives with (steps := steps) in K; [|exact S|split; assumption].
  eexists. split; [exact K|]. destruct (finish_scheme (scheme_url sc) (0x2F :: b) oq of) as (F1 & F2 & F3 & F4 & F5 & F6). cbv zeta in *.
  rewrite F1, F2, F3, F4, F5, F6. repeat (split; [reflexivity|]). split; [apply finish_fields; reflexivity|reflexivity].
Qed.
Print Assumptions C67_path_partial.
Example C67_path_ex : exists s b, without_newlines (trim s) = lit "a" ++ 0x3A :: 0x2F :: b ++ qtext (Some (lit "q")) ++ ftext None /\
  s = lit "a:/b/./../c?q" /\ Forall scalar s /\ scheme_text (lit "a") /\ is_special_scheme (map cp_lower (lit "a")) = false /\ hd 0 b <> 0x2F /\
  tail_text (lit "a") b (Some (lit "q")) None /\ basic_parse same 300 500 s None UTF_8 = Val (Some (Url (lit "a") [] [] None None [lit "c"] (Some (lit "q")) None false)).
Proof.
  exists (lit "a:/b/./../c?q"), (lit "b/./../c"). split; [vm_compute; reflexivity|]. split; [reflexivity|]. split; [fz|]. split; [split; [reflexivity|constructor]|]. split; [reflexivity|].
  split; [discriminate|]. split; [|vm_compute; reflexivity].
  split; [fl (split; [unfold scalar; lia|lia])|]. repeat split; cbn; lia.
Qed.

(** Without a slash after the colon the path is one opaque string. *)
Theorem C67_opaque idna base fuel steps s sc b oq of : Forall scalar s ->
  (8 * List.length s + 8 < fuel)%nat -> (18 * (List.length s + 2) <= steps)%nat ->
  without_newlines (trim s) = sc ++ 0x3A :: b ++ qtext oq ++ ftext of ->
  scheme_text sc -> is_special_scheme (map cp_lower sc) = false -> hd 0 b <> 0x2F -> tail_text (map cp_lower sc) b oq of ->
  exists v, basic_parse idna fuel steps s base UTF_8 = Val (Some v) /\ scheme v = map cp_lower sc /\ username v = [] /\ password v = [] /\
    uhost v = None /\ port v = None /\ path v = [pe is_c0_control_percent_encode_set b] /\ query v = option_map (pe is_query_percent_encode_set) oq /\
    fragment v = option_map (pe is_fragment_percent_encode_set) of /\ cannot_be_base v = true.
Proof.
  intros S F St Ei Sc Sp Hd Tt. assert (Fu : (List.length (without_newlines (trim s)) + 1 < fuel)%nat) by (pose proof (cleaned_length s); lia).
  pose proof (parse_opaque idna _ base fuel Fu sc b oq of Ei Sc Sp (or_introl Hd) Tt) as K. apply parse_gives with (steps := steps) in K; [|exact S|split; assumption].
  eexists. split; [exact K|]. unfold opaque_url.
  assert (Q : forall x y z, scheme (set_path x (set_cannot y (scheme_url z))) = map cp_lower z) by reflexivity.
  destruct oq as [q|], of as [f|]; cbn [with_query with_fragment option_map]; unfold query_set, is_special; rewrite ?Q, ?Sp; repeat split.
Qed.
Print Assumptions C67_opaque.
Example C67_opaque_ex : exists s b, without_newlines (trim s) = lit "Mailto" ++ 0x3A :: b ++ qtext (Some (lit "q 'r'")) ++ ftext None /\
  s = lit "Mailto:x y@z/../w?q 'r'" /\ Forall scalar s /\ scheme_text (lit "Mailto") /\ is_special_scheme (map cp_lower (lit "Mailto")) = false /\ hd 0 b <> 0x2F /\
  tail_text (lit "mailto") b (Some (lit "q 'r'")) None /\ basic_parse same 300 500 s None UTF_8 =
    Val (Some (Url (lit "mailto") [] [] None None [lit "x y@z/../w"] (Some (lit "q%20'r'")) None true)).
Proof.
  exists (lit "Mailto:x y@z/../w?q 'r'"), (lit "x y@z/../w"). split; [vm_compute; reflexivity|]. split; [reflexivity|]. split; [fz|]. split; [split; [reflexivity|repeat constructor]|]. split; [reflexivity|].
  split; [discriminate|]. split; [|vm_compute; reflexivity].
  split; [fl (split; [unfold scalar; lia|lia])|]. repeat split; cbn; lia.
Qed.

(** When the slash is the last character (url.cpp tests a distance of more than two), the path is opaque. *)
Theorem C67_lone_slash_refuted : exists s v, s = lit "a:/" /\ Forall scalar s /\ basic_parse same 300 500 s None UTF_8 = Val (Some v) /\
  cannot_be_base v = true /\ path v = [lit "/"].
Proof. eexists (lit "a:/"), _. split; [reflexivity|]. split; [fz|]. split; [vm_compute; reflexivity|]. split; reflexivity. Qed.
Print Assumptions C67_lone_slash_refuted.

(** * C68 *)

(** A file URL with two slashes or backslashes: an empty host when there is none or when it is localhost, the host otherwise;
    a Windows drive letter in place of the host is the first segment of the path. *)
Theorem C68_file idna base fuel steps s sc x y h b oq of hh : Forall scalar s ->
  (8 * List.length s + 8 < fuel)%nat -> (18 * (List.length s + 2) <= steps)%nat ->
  without_newlines (trim s) = sc ++ 0x3A :: x :: y :: h ++ b ++ qtext oq ++ ftext of ->
  scheme_text sc -> map cp_lower sc = lit "file" -> x = 0x2F \/ x = 0x5C -> y = 0x2F \/ y = 0x5C ->
  Forall (fun c => scalar c /\ ~ In c [0xA; 0x2F; 0x3F; 0x23; 0x5C]) h -> begins_path (lit "file") b -> tail_text (lit "file") b oq of ->
  (h <> [] -> is_windows_drive_letter h = false -> parse_host idna fuel h false = Val hh /\ (hh = HNone \/ exists d, hh = HDomain d)) ->
  (is_windows_drive_letter h = true -> exists v, basic_parse idna fuel steps s base UTF_8 = Val (Some v) /\
     scheme v = lit "file" /\ has_user v None /\ uhost v = Some HEmpty /\ port v = None /\ has_tail v (0x2F :: h ++ b) oq of /\ cannot_be_base v = false) /\
  (is_windows_drive_letter h = false -> h <> [] -> hh = HNone -> basic_parse idna fuel steps s base UTF_8 = Val None) /\
  (is_windows_drive_letter h = false -> h = [] \/ hh <> HNone -> exists v, basic_parse idna fuel steps s base UTF_8 = Val (Some v) /\
     scheme v = lit "file" /\ has_user v None /\ (h = [] \/ hh = HDomain (lit "localhost") -> uhost v = Some HEmpty) /\
     (h <> [] -> hh <> HDomain (lit "localhost") -> uhost v = Some hh) /\ port v = None /\ has_tail v b oq of /\ cannot_be_base v = false).
Proof.
  intros S F St Ei Sc Fi Hx Hy Hh Bp Tt Ph. assert (Fu : (List.length (without_newlines (trim s)) + 1 < fuel)%nat) by (pose proof (cleaned_length s); lia).
  assert (K : gives idna (without_newlines (trim s)) base fuel (start None UTF_8 empty_url) (file_authority hh h b oq of)).
  { apply (parse_file idna _ base fuel Fu sc x y h b oq of hh Ei Sc).
    - unfold is_file, scheme_url. cbn [scheme set_scheme]. rewrite Fi. reflexivity.
    - unfold is_slash. lia.
    - unfold is_slash. lia.
    - revert Hh. apply Forall_impl. intros c (X & N). cbn [In] in N. split; [split; [exact X|lia]|]. unfold is_slash. lia.
    - exact Bp.
    - exact Tt.
    - intros N D. destruct (Ph N D) as [P [->|[d ->]]]; auto. }
  apply parse_gives with (steps := steps) in K; [|exact S|split; assumption]. unfold file_authority in K.
  assert (Fld : forall w t, scheme w = lit "file" -> username w = [] -> password w = [] -> port w = None -> query w = None -> fragment w = None -> cannot_be_base w = false ->
    scheme (finish w t oq of) = lit "file" /\ has_user (finish w t oq of) None /\ uhost (finish w t oq of) = uhost w /\ port (finish w t oq of) = None /\ has_tail (finish w t oq of) t oq of /\ cannot_be_base (finish w t oq of) = false).
  { intros w t A1 A2 A3 A4 A5 A6 A7. destruct (finish_scheme w t oq of) as (F1 & F2 & F3 & F4 & F5 & F6). unfold has_user. rewrite F1, F2, F3, F4, F5, F6. repeat (split; [assumption || (split; assumption) || reflexivity|]). split; [now apply finish_fields|assumption]. }
  split; [|split].
  - intros D. rewrite D in K. eexists. split; [exact K|]. destruct (Fld file_url (0x2F :: h ++ b)) as (G1 & G2 & G3 & G4 & G5 & G6); try reflexivity. repeat (split; [assumption|]). assumption.
  - intros D N E. rewrite D in K. destruct h as [|c h]; [congruence|]. subst hh. exact K.
  - intros D E. rewrite D in K. destruct h as [|c h].
    + eexists. split; [exact K|]. destruct (Fld file_url b) as (G1 & G2 & G3 & G4 & G5 & G6); try reflexivity. split; [exact G1|]. split; [exact G2|]. split; [intros _; exact G3|]. split; [congruence|]. auto.
    + destruct (Ph ltac:(discriminate) D) as [_ [X|[d X]]]; [destruct E as [E|E]; congruence|]. rewrite X in K. eexists. split; [exact K|].
      destruct (Fld (set_host (Some (if eqs d (lit "localhost") then HEmpty else HDomain d)) file_url) b) as (G1 & G2 & G3 & G4 & G5 & G6); try reflexivity.
      split; [exact G1|]. split; [exact G2|]. split; [|split; [|auto]].
      * intros [Y|Y]; [discriminate Y|]. rewrite G3. rewrite X in Y. injection Y as ->. reflexivity.
      * intros _ Y. rewrite G3. cbn [uhost set_host]. unfold eqs. destruct (list_eq_dec Z.eq_dec d (lit "localhost")) as [e|]; [rewrite X, e in Y; congruence|now rewrite X].
Qed.
Print Assumptions C68_file.
Example C68_file_ex :
  (exists s, Forall scalar s /\ s = lit "file:///C|/../a" /\ basic_parse same 300 500 s None UTF_8 = Val (Some (Url (lit "file") [] [] (Some HEmpty) None [lit "C:"; lit "a"] None None false))) /\
  (is_windows_drive_letter (lit "c|") = true /\ basic_parse same 300 500 (lit "FILE:\/c|\x/../..") None UTF_8 = Val (Some (Url (lit "file") [] [] (Some HEmpty) None [lit "c:"; []] None None false))) /\
  (is_windows_drive_letter (lit "localhost") = false /\ parse_host same 300 (lit "localhost") false = Val (HDomain (lit "localhost")) /\
   basic_parse same 300 500 (lit "file://localhost/x") None UTF_8 = Val (Some (Url (lit "file") [] [] (Some HEmpty) None [lit "x"] None None false))).
Proof.
  split; [exists (lit "file:///C|/../a"); split; [fz|]; wit|]. split; wit.
Qed.

(** * C69 *)

(** Every record that meets the conditions of [proper] can be written, and reading what is written gives the record, with any base. *)
Theorem C69_written_read_partial idna u base : proper idna u -> exists t, serialize_url u false = Some t /\
  forall fuel steps, (8 * List.length t + 8 < fuel)%nat -> (18 * (List.length t + 2) <= steps)%nat -> basic_parse idna fuel steps t base UTF_8 = Val (Some u).
Proof.
  intros P. destruct (proper_written idna u P) as [t E]. exists t. split; [exact E|]. intros fuel steps F S. exact (written_read idna u t base fuel steps P E (conj F S)).
Qed.
Print Assumptions C69_written_read_partial.
Example C69_written_read_ex :
  proper same (Url (lit "http") (lit "u") (lit "p") (Some (HIpv4 16909060)) (Some 81) [lit "a"; []; lit "b"] (Some (lit "q")) (Some (lit "f")) false) /\
  proper same (Url (lit "a") [] [] None None [[]; lit "x"; lit "y"] None None false) /\
  proper same (Url (lit "mailto") [] [] None None [lit "x@y"] None (Some []) true) /\
  proper same (Url (lit "file") [] [] (Some HEmpty) None [lit "C:"; lit "x"] None None false).
Proof.
  assert (Sg : forall u x, forallb (fun c => negb (is_path_percent_encode_set c) && negb (path_sep u c)) x && negb (is_single_dot_path_segment x) && negb (is_double_dot_path_segment x) = true -> segment_ok u x).
  { intros u x H. apply andb_prop in H as [H A]. apply andb_prop in H as [H B]. apply negb_true_iff in A, B. rewrite forallb_forall in H. split; [|split; [|auto]].
    - apply Forall_forall. intros c C. specialize (H c C). apply andb_prop in H as [H _]. now apply negb_true_iff.
    - apply Forall_forall. intros c C. specialize (H c C). apply andb_prop in H as [_ H]. now apply negb_true_iff. }
  split; [|split; [|split]].
  - split; [split; [reflexivity|repeat constructor]|]. split; [reflexivity|]. split; [repeat constructor|]. split; [repeat constructor|]. cbn [cannot_be_base path uhost].
    split; [repeat constructor; apply Sg; reflexivity|]. split; [discriminate|]. cbn. split; [split; [reflexivity|split; [lia|reflexivity]]|]. repeat split; try (repeat constructor); try discriminate; lia.
  - split; [split; [reflexivity|repeat constructor]|]. split; [reflexivity|]. split; [exact I|]. split; [exact I|]. cbn [cannot_be_base path uhost].
    split; [repeat constructor; apply Sg; reflexivity|]. repeat split; discriminate.
  - split; [split; [reflexivity|repeat constructor]|]. split; [reflexivity|]. split; [exact I|]. split; [constructor|]. cbn [cannot_be_base path uhost]. repeat (split; [reflexivity|]).
    exists (lit "x@y"). split; [reflexivity|]. split; [fl lia|]. split; [left; discriminate|]. discriminate.
  - split; [split; [reflexivity|repeat constructor]|]. split; [reflexivity|]. split; [exact I|]. split; [exact I|]. cbn [cannot_be_base path uhost].
    split; [repeat constructor; apply Sg; reflexivity|]. split; [discriminate|]. change (is_file _) with true. cbv iota. repeat (split; [reflexivity|]). split; [now left|reflexivity].
Qed.

(** A record that the parser itself gives, and that is read as another record when it is written: the path of one empty segment. *)
Theorem C69_lone_slash_refuted : exists s u t v, Forall scalar s /\ basic_parse same 300 500 s None UTF_8 = Val (Some u) /\ serialize_url u false = Some t /\
  basic_parse same 300 500 t None UTF_8 = Val (Some v) /\ u <> v.
Proof. exists (lit "a:/."). do 3 eexists. split; [fz|]. split; [vm_compute; reflexivity|]. split; [vm_compute; reflexivity|]. split; [vm_compute; reflexivity|]. discriminate. Qed.
Print Assumptions C69_lone_slash_refuted.
(** The same with an IPv6 address whose zeros are not in their first place. *)
Theorem C69_ipv6_refuted : exists s u t v, Forall scalar s /\ basic_parse same 400 900 s None UTF_8 = Val (Some u) /\ serialize_url u false = Some t /\
  basic_parse same 400 900 t None UTF_8 = Val v /\ v <> Some u.
Proof. exists (lit "http://[0:0:1:0:2:0:0:3]/"). do 3 eexists. split; [fz|]. split; [vm_compute; reflexivity|]. split; [vm_compute; reflexivity|]. split; [vm_compute; reflexivity|]. discriminate. Qed.
Print Assumptions C69_ipv6_refuted.
(** The same with a host that looks like a Windows drive letter once its percent sign is decoded. *)
Theorem C69_drive_refuted : exists s u t v, Forall scalar s /\ basic_parse same 300 500 s None UTF_8 = Val (Some u) /\ serialize_url u false = Some t /\
  basic_parse same 300 500 t None UTF_8 = Val (Some v) /\ u <> v.
Proof. exists (lit "file://c%7C/x"). do 3 eexists. split; [fz|]. split; [vm_compute; reflexivity|]. split; [vm_compute; reflexivity|]. split; [vm_compute; reflexivity|]. discriminate. Qed.
Print Assumptions C69_drive_refuted.
