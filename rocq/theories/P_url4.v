(** What the URL parser makes of references, with a base: C75, C76. *)
From Coq Require Import String.
From Coq Require Import ZArith List Bool Lia.
From Verif Require Import M_unicode M_infra M_percent M_ip M_encoding M_labels M_url.
From Verif Require Import L_unicode L_url L_url2 L_url3 L_url4 L_url5 L_url6 L_url7 L_url8 L_url13 P_url2.
Import ListNotations.
Open Scope string_scope.
Open Scope list_scope.
Open Scope Z_scope.

(** * The statements' vocabulary *)

(** The text of the parser: without the spaces and controls at its ends, and without tabs and newlines. *)
Definition text_of (s : list Z) : list Z := without_newlines (trim s).
(** [t] is what the text [w] says to a base of the scheme [sb]: all of it when it has no scheme; what follows the colon when the scheme is
    the base's, special, and no two slashes follow. *)
Definition says (sb w t : list Z) : Prop :=
  (w = t /\ forall sc r, w = sc ++ 0x3A :: r -> ~ scheme_text sc) \/
  (exists sc, w = sc ++ 0x3A :: t /\ scheme_text sc /\ map cp_lower sc = sb /\ is_special_scheme sb = true /\ forall t', t <> 0x2F :: 0x2F :: t').
(** Path, query and fragment are cut at the first question mark and number sign. *)
Definition cut_ok (x : list Z) (oq : option (list Z)) : Prop := ~ In 0x3F x /\ ~ In 0x23 x /\ match oq with Some q => ~ In 0x23 q | None => True end.
Definition steps_ok (s : list Z) (fuel steps : nat) : Prop := (8 * List.length s + 8 < fuel)%nat /\ (18 * (List.length s + 2) <= steps)%nat.
(** The segments of a path, percent-encoded. *)
Definition segments_of (sc x : list Z) : list (list Z) := map (pe is_path_percent_encode_set) (split_at (segment_end sc) x).
Definition query_of (sc : list Z) (oq : option (list Z)) : option (list Z) := option_map (pe (query_chars sc)) oq.
Definition fragment_of (of : option (list Z)) : option (list Z) := option_map (pe is_fragment_percent_encode_set) of.

Lemma text_visible s : Forall scalar s -> Forall visible (text_of s).
Proof.
  intros S. pose proof (cleaned_scalar s S) as C. rewrite Forall_forall in *. intros c H. split; [exact (C c H)|].
  unfold text_of, without_newlines in H. apply filter_In in H as [_ H]. intros ->. discriminate H.
Qed.
Lemma says_tail sb w t : says sb w t -> exists a, w = a ++ t.
Proof. intros [[-> _]|(sc & -> & _)]; [now exists []|]. exists (sc ++ [0x3A]). now rewrite <- app_assoc. Qed.
Lemma says_ok s sb t z x oq of : Forall scalar s -> says sb (text_of s) t -> t = z ++ x ++ qtext oq ++ ftext of -> cut_ok x oq -> tail_ok x oq of.
Proof.
  intros S Sy E C. split; [|exact C]. destruct (says_tail _ _ _ Sy) as [a W]. pose proof (text_visible s S) as V. rewrite W, E in V. apply Forall_app in V as [_ V]. now apply Forall_app in V as [_ V].
Qed.
Lemma fuel_ok s fuel steps : steps_ok s fuel steps -> (List.length (text_of s) + 1 < fuel)%nat.
Proof. intros [F _]. pose proof (cleaned_length s). unfold text_of. lia. Qed.

(** ** How the text reaches the relative state *)
Lemma says_relative idna b s fuel steps t o : steps_ok s fuel steps -> Forall scalar s -> cannot_be_base b = false -> scheme b <> lit "file" -> says (scheme b) (text_of s) t ->
  (forall a u, text_of s = a ++ t -> set_scheme (scheme b) u = bare b -> gives idna (text_of s) (Some b) fuel (here Relative [] a u) o) ->
  basic_parse idna fuel steps s (Some b) UTF_8 = Val o.
Proof.
  intros St S Cb Nf Sy K. pose proof (fuel_ok _ _ _ St) as Fu. apply parse_gives; [exact S|exact St|]. fold (text_of s).
  assert (F : is_file b = false) by (unfold is_file, eqs; destruct (list_eq_dec _ _ _); [congruence|reflexivity]).
  destruct Sy as [[W N]|(sc & W & Sc & Es & Sp & Nt)].
  - apply (gives_from _ _ _ _ _ (here Relative [] [] empty_url)).
    + intros r. now apply (run_to_relative idna _ _ fuel Fu b).
    + now apply K.
  - apply (gives_from _ _ _ _ _ (here Relative [] (sc ++ [0x3A]) (bare b))).
    + intros r. apply (run_same_scheme idna _ _ fuel Fu b sc t r W Sc eq_refl); auto.
    + apply K; [now rewrite <- app_assoc|reflexivity].
Qed.

(** * C75 *)

(** A reference has no meaning without a base. *)
Theorem C75_no_base idna s fuel steps : Forall scalar s -> steps_ok s fuel steps ->
  (forall sc r, text_of s = sc ++ 0x3A :: r -> ~ scheme_text sc) -> basic_parse idna fuel steps s None UTF_8 = Val None.
Proof. intros S St N. apply parse_gives; [exact S|exact St|]. exact (no_base idna _ None fuel (fuel_ok _ _ _ St) N eq_refl). Qed.
Print Assumptions C75_no_base.
Example C75_no_base_ex : exists s, s = lit "1http://h/" /\ Forall scalar s /\ steps_ok s 200 500 /\ (forall sc r, text_of s = sc ++ 0x3A :: r -> ~ scheme_text sc) /\
  basic_parse same 200 500 s None UTF_8 = Val None.
Proof.
  exists (lit "1http://h/"). split; [reflexivity|]. split; [fz|]. split; [cbv; lia|]. split; [|vm_compute; reflexivity].
  intros sc r E. change (text_of (lit "1http://h/")) with (lit "1http://h/") in E. destruct sc as [|c sc]; [discriminate E|]. injection E as <- _. intros [H _]. discriminate H.
Qed.

(** With a base whose path is opaque, only a fragment: everything else is rejected. *)
Theorem C75_opaque_base idna b s fuel steps : Forall scalar s -> steps_ok s fuel steps -> cannot_be_base b = true ->
  (forall f, text_of s = 0x23 :: f -> basic_parse idna fuel steps s (Some b) UTF_8 =
     Val (Some (Url (scheme b) [] [] None None (path b) (query b) (Some (pe is_fragment_percent_encode_set f)) true))) /\
  ((forall sc r, text_of s = sc ++ 0x3A :: r -> ~ scheme_text sc) -> (forall f, text_of s <> 0x23 :: f) -> basic_parse idna fuel steps s (Some b) UTF_8 = Val None).
Proof.
  intros S St C. pose proof (fuel_ok _ _ _ St) as Fu. split.
  - intros f E. apply parse_gives; [exact S|exact St|]. pose proof (text_visible s S) as V. rewrite E in V. exact (opaque_base_fragment idna _ _ fuel Fu b f E eq_refl C ltac:(now inversion V)).
  - intros N H. apply parse_gives; [exact S|exact St|]. apply (opaque_base idna _ _ fuel Fu b N eq_refl C). unfold text_of in *. intros X.
    destruct (without_newlines (trim s)) as [|c f]; [discriminate X|]. apply (H f). cbn [hd] in X. now subst c.
Qed.
Print Assumptions C75_opaque_base.
Example C75_opaque_base_ex : exists b, b = Url (lit "mailto") [] [] None None [lit "x@y"] (Some (lit "q")) (Some (lit "g")) true /\ cannot_be_base b = true /\
  basic_parse same 200 500 (lit " #f ") (Some b) UTF_8 = Val (Some (Url (lit "mailto") [] [] None None [lit "x@y"] (Some (lit "q")) (Some (lit "f")) true)) /\
  text_of (lit "?q") <> [] /\ basic_parse same 200 500 (lit "?q") (Some b) UTF_8 = Val None.
Proof. eexists. split; [reflexivity|]. split; [reflexivity|]. split; [vm_compute; reflexivity|]. split; [discriminate|vm_compute; reflexivity]. Qed.

(** A reference without a path is the base with another query and fragment; an empty reference is the base without its fragment. *)
Theorem C75_same_path idna b s fuel steps t oq of : Forall scalar s -> steps_ok s fuel steps -> cannot_be_base b = false -> scheme b <> lit "file" ->
  says (scheme b) (text_of s) t -> t = qtext oq ++ ftext of -> cut_ok [] oq ->
  basic_parse idna fuel steps s (Some b) UTF_8 = Val (Some (Url (scheme b) (username b) (password b) (uhost b) (port b) (path b)
    (match oq with Some _ => query_of (scheme b) oq | None => query b end) (fragment_of of) false)).
Proof.
  intros S St Cb Nf Sy Et C. pose proof (says_ok s _ t [] [] oq of S Sy Et C) as Ok. apply (says_relative idna b s fuel steps t); auto. intros a u W Ub. rewrite Et in W.
  pose proof (relative_same idna _ (Some b) fuel (fuel_ok _ _ _ St) b a u eq_refl Ub oq of W Ok) as K.
  destruct oq, of; exact K.
Qed.
Print Assumptions C75_same_path.

(** A path that does not begin with a slash takes the place of the last segment of the base's. *)
Theorem C75_path idna b s fuel steps t x oq of : Forall scalar s -> steps_ok s fuel steps -> cannot_be_base b = false -> scheme b <> lit "file" ->
  says (scheme b) (text_of s) t -> t = x ++ qtext oq ++ ftext of -> cut_ok x oq -> x <> [] -> segment_end (scheme b) (hd 0 x) = false ->
  basic_parse idna fuel steps s (Some b) UTF_8 = Val (Some (Url (scheme b) (username b) (password b) (uhost b) (port b)
    (resolve false (removelast (path b)) (segments_of (scheme b) x)) (query_of (scheme b) oq) (fragment_of of) false)).
Proof.
  intros S St Cb Nf Sy Et C Nx Hx. pose proof (says_ok s _ t [] x oq of S Sy Et C) as Ok. apply (says_relative idna b s fuel steps t); auto. intros a u W Ub. rewrite Et in W.
  pose proof (relative_path idna _ (Some b) fuel (fuel_ok _ _ _ St) b a u eq_refl Ub x oq of W Nx Hx Ok) as K.
  replace (is_file b) with false in K by (unfold is_file, eqs; destruct (list_eq_dec _ _ _); [congruence|reflexivity]).
  destruct oq, of; exact K.
Qed.
Print Assumptions C75_path.

(** A path that begins with one slash takes the place of the base's path. *)
Theorem C75_root idna b s fuel steps t c x oq of : Forall scalar s -> steps_ok s fuel steps -> cannot_be_base b = false -> scheme b <> lit "file" ->
  says (scheme b) (text_of s) t -> t = c :: x ++ qtext oq ++ ftext of -> cut_ok x oq -> segment_end (scheme b) c = true -> segment_end (scheme b) (hd 0 x) = false ->
  basic_parse idna fuel steps s (Some b) UTF_8 = Val (Some (Url (scheme b) (username b) (password b) (uhost b) (port b)
    (resolve false [] (segments_of (scheme b) x)) (query_of (scheme b) oq) (fragment_of of) false)).
Proof.
  intros S St Cb Nf Sy Et C Hc Hx. pose proof (says_ok s _ t [c] x oq of S Sy Et C) as Ok. apply (says_relative idna b s fuel steps t); auto. intros a u W Ub. rewrite Et in W.
  pose proof (relative_root idna _ (Some b) fuel (fuel_ok _ _ _ St) b a u c x oq of eq_refl Ub W Hc Hx Ok) as K.
  replace (is_file b) with false in K by (unfold is_file, eqs; destruct (list_eq_dec _ _ _); [congruence|reflexivity]).
  destruct oq, of; exact K.
Qed.
Print Assumptions C75_root.

(** Two slashes: everything but the scheme is the reference's. *)
Lemma bare_authority_ok b ou h od : authority_text (is_special_scheme (scheme b)) ou h od -> authority_ok (bare b) ou h od.
Proof.
  intros (A & B). split; [|exact B]. revert A. apply Forall_impl. intros c (S & N & K). cbn [In] in N. assert (c <> 0xA) by lia. split; [split; assumption|].
  unfold ends_authority, is_special, EOF. change (scheme (bare b)) with (scheme b). destruct (is_special_scheme (scheme b)) eqn:Sp.
  - specialize (K eq_refl). cbn [andb]. lia.
  - cbn [andb]. lia.
Qed.
Lemma bare_authority_fields sb ou h od b oq of : let v := authority_url (bare sb) ou h od b oq of in
  scheme v = scheme sb /\ has_user v ou /\ uhost v = Some h /\ has_port v od /\ has_tail v b oq of /\ cannot_be_base v = false.
Proof.
  cbv zeta. unfold authority_url. set (w0 := bare sb). set (w1 := userinfo ou w0). set (w2 := set_host (Some h) w1). set (w3 := the_port od w2).
  destruct (userinfo_rest ou w0) as (R1 & R2 & R3 & R4 & R5). fold w1 in R1, R2, R3, R4, R5.
  destruct (port_fields od w2 R2) as (P0 & P1 & P2 & P3 & P4 & P5 & P6 & P7). fold w3 in P0, P1, P2, P3, P4, P5, P6, P7.
  destruct (finish_scheme w3 b oq of) as (F1 & F2 & F3 & F4 & F5 & F6).
  assert (Sc1 : scheme w1 = scheme sb) by (unfold w1; rewrite userinfo_scheme; reflexivity).
  split; [rewrite F1, P1; exact Sc1|]. split.
  { pose proof (userinfo_fields ou w0 eq_refl eq_refl) as U. fold w1 in U. unfold has_user in *. rewrite F2, F3, P2, P3. exact U. }
  split; [rewrite F4, P4; reflexivity|]. split; [unfold has_port in *; rewrite F1, F5; exact P0|].
  split; [|rewrite F6, P7; exact R5]. apply finish_fields; [rewrite P5; exact R3|rewrite P6; exact R4].
Qed.
Lemma port_bad_iff od : port_bad od = true <-> exists d, od = Some d /\ d <> [] /\ ((5 < List.length d)%nat \/ 65535 <= decimal d).
Proof.
  unfold port_bad, port_fits, zlen. destruct od as [[|c d]|]; split; intros X; try discriminate X.
  - destruct X as (d & E & N & _). congruence.
  - exists (c :: d). split; [reflexivity|]. split; [discriminate|]. lia.
  - destruct X as (d' & E & _ & X). injection E as <-. lia.
  - destruct X as (d & E & _). discriminate E.
Qed.
Theorem C75_authority idna b s fuel steps t c d sl ou h od x oq of hh : Forall scalar s -> steps_ok s fuel steps -> cannot_be_base b = false -> scheme b <> lit "file" ->
  says (scheme b) (text_of s) t -> t = c :: d :: sl ++ (utext ou ++ h ++ ptext od) ++ x ++ qtext oq ++ ftext of -> cut_ok x oq ->
  segment_end (scheme b) c = true -> segment_end (scheme b) d = true -> Forall (fun c => c = 0x2F \/ c = 0x5C) sl -> (is_special_scheme (scheme b) = false -> sl = []) ->
  authority_text (is_special_scheme (scheme b)) ou h od -> begins_path (scheme b) x -> parse_host idna fuel h (negb (is_special_scheme (scheme b))) = Val hh ->
  (hh = HNone \/ (exists d, od = Some d /\ d <> [] /\ ((5 < List.length d)%nat \/ 65535 <= decimal d)) -> basic_parse idna fuel steps s (Some b) UTF_8 = Val None) /\
  (hh <> HNone -> (forall d, od = Some d -> (List.length d <= 5)%nat /\ decimal d < 65535) ->
   exists v, basic_parse idna fuel steps s (Some b) UTF_8 = Val (Some v) /\
     scheme v = scheme b /\ has_user v ou /\ uhost v = Some hh /\ has_port v od /\ has_tail v x oq of /\ cannot_be_base v = false).
Proof.
  intros S St Cb Nf Sy Et C Hc Hd Sl Ns At Bp Ph.
  assert (Ok : tail_ok x oq of).
  { apply (says_ok s _ t (c :: d :: sl ++ (utext ou ++ h ++ ptext od)) x oq of S Sy); [|exact C]. rewrite Et. cbn [app]. rewrite <- !app_assoc. reflexivity. }
  assert (K : basic_parse idna fuel steps s (Some b) UTF_8 = Val (if host_none hh || port_bad od then None else Some (authority_url (bare b) ou hh od x oq of))).
  { apply (says_relative idna b s fuel steps t); auto. intros a u W Ub. rewrite Et in W.
    apply (relative_authority idna _ (Some b) fuel (fuel_ok _ _ _ St) b a u c d sl ou h od x oq of hh eq_refl Ub W Hc Hd); auto.
    - revert Sl. apply Forall_impl. unfold is_slash. intros y Y. lia.
    - now apply bare_authority_ok. }
  split.
  - intros X. rewrite K. replace (host_none hh || port_bad od) with true; [reflexivity|]. symmetry. apply orb_true_iff. destruct X as [->|X]; [now left|right; now apply port_bad_iff].
  - intros Nh Pd. replace (host_none hh || port_bad od) with false in K; [exists (authority_url (bare b) ou hh od x oq of); split; [exact K|apply bare_authority_fields]|].
    symmetry. apply orb_false_iff. split; [destruct hh; reflexivity || congruence|]. apply not_true_iff_false. intros X. apply port_bad_iff in X as (d' & E & N & X). specialize (Pd d' E). lia.
Qed.
Print Assumptions C75_authority.

(** A base, and references of each kind. *)
Definition base_ex : url := Url (lit "http") (lit "u") (lit "p") (Some (HDomain (lit "h"))) (Some 81) [lit "a"; lit "b"; lit "c"] (Some (lit "q")) (Some (lit "f")) false.
Example C75_ex : exists b, b = base_ex /\ cannot_be_base b = false /\ scheme b <> lit "file" /\
  (says (scheme b) (text_of (lit "HTTP:?x")) (lit "?x") /\ lit "?x" = qtext (Some (lit "x")) ++ ftext None /\ cut_ok [] (Some (lit "x")) /\
   basic_parse same 200 500 (lit "HTTP:?x") (Some b) UTF_8 = Val (Some (Url (lit "http") (lit "u") (lit "p") (Some (HDomain (lit "h"))) (Some 81) [lit "a"; lit "b"; lit "c"] (Some (lit "x")) None false))) /\
  (says (scheme b) (text_of (lit "../x/./y#z")) (lit "../x/./y#z") /\ lit "../x/./y#z" = lit "../x/./y" ++ qtext None ++ ftext (Some (lit "z")) /\ cut_ok (lit "../x/./y") None /\ segment_end (scheme b) 0x2E = false /\
   basic_parse same 300 500 (lit "../x/./y#z") (Some b) UTF_8 = Val (Some (Url (lit "http") (lit "u") (lit "p") (Some (HDomain (lit "h"))) (Some 81) [lit "a"; lit "x"; lit "y"] None (Some (lit "z")) false))) /\
  (says (scheme b) (text_of (lit "\x/..")) (lit "\x/..") /\ cut_ok (lit "x/..") None /\ segment_end (scheme b) 0x5C = true /\
   basic_parse same 300 500 (lit "\x/..") (Some b) UTF_8 = Val (Some (Url (lit "http") (lit "u") (lit "p") (Some (HDomain (lit "h"))) (Some 81) [[]] None None false))) /\
  (says (scheme b) (text_of (lit "/\//i:80?y")) (lit "/\//i:80?y") /\ lit "/\//i:80?y" = 0x2F :: 0x5C :: lit "//" ++ (utext None ++ lit "i" ++ ptext (Some (lit "80"))) ++ [] ++ qtext (Some (lit "y")) ++ ftext None /\
   authority_text true None (lit "i") (Some (lit "80")) /\ begins_path (scheme b) [] /\ parse_host same 300 (lit "i") false = Val (HDomain (lit "i")) /\
   basic_parse same 300 500 (lit "/\//i:80?y") (Some b) UTF_8 = Val (Some (Url (lit "http") [] [] (Some (HDomain (lit "i"))) None [[]] (Some (lit "y")) None false))).
Proof.
  assert (Ns : forall c w, text_of (c :: w) = c :: w -> is_ascii_alpha c = false -> c <> 0x3A -> says (scheme base_ex) (text_of (c :: w)) (c :: w)).
  { intros c w E A N. left. split; [exact E|]. intros sc r H. rewrite E in H. destruct sc as [|y sc]; cbn [app] in H; [congruence|]. injection H as <- _. intros [X _]. congruence. }
  exists base_ex. split; [reflexivity|]. split; [reflexivity|]. split; [discriminate|]. split; [|split; [|split]].
  - split; [right; exists (lit "HTTP"); repeat split; try reflexivity; try (repeat constructor); discriminate|]. split; [reflexivity|]. split; [repeat split; cbn; lia|]. vm_compute. reflexivity.
  - split; [apply Ns; [reflexivity|reflexivity|vm_compute; discriminate]|]. split; [reflexivity|]. split; [repeat split; cbn; lia|]. split; [reflexivity|]. vm_compute. reflexivity.
  - split; [apply Ns; [reflexivity|reflexivity|vm_compute; discriminate]|]. split; [repeat split; cbn; lia|]. split; [reflexivity|]. vm_compute. reflexivity.
  - split; [apply Ns; [reflexivity|reflexivity|vm_compute; discriminate]|]. split; [reflexivity|]. split.
    { split; [fl (split; [unfold scalar; lia|split; [cbn; lia|lia]])|]. cbn. repeat split; try lia; try discriminate; try reflexivity. fl lia. }
    split; [now left|]. split; vm_compute; reflexivity.
Qed.

(** * C76 *)

(** [t] is what the text [w] says of a file: all of it when it has no scheme and the base is a file; what follows the colon when the
    scheme is file, whatever the base. *)
Definition says_file (base : option url) (w t : list Z) : Prop :=
  (exists b, base = Some b /\ scheme b = lit "file" /\ cannot_be_base b = false /\ w = t /\ forall sc r, w = sc ++ 0x3A :: r -> ~ scheme_text sc) \/
  (exists sc, w = sc ++ 0x3A :: t /\ scheme_text sc /\ map cp_lower sc = lit "file").
(** A letter, a colon or a bar, and the end or a slash. *)
Definition drive_first (x : list Z) : bool :=
  match x with
  | a :: c :: r => is_ascii_alpha a && ((c =? 0x3A) || (c =? 0x7C)) && match r with [] => true | d :: _ => (d =? 0x2F) || (d =? 0x5C) end
  | _ => false
  end.
(** A letter and a colon. *)
Definition drive_segment (x : list Z) : bool := match x with [a; c] => is_ascii_alpha a && (c =? 0x3A) | _ => false end.
(** The path of the base without its last segment, unless this is the drive. *)
Definition without_last (p : list (list Z)) : list (list Z) := match p with [x] => if drive_segment x then [x] else [] | _ => removelast p end.

Lemma drive_first_text x oq of : ~ In 0x3F x -> ~ In 0x23 x -> starts_with_windows_drive_letter (x ++ qtext oq ++ ftext of) = drive_first x.
Proof.
  intros N1 N2. destruct x as [|a [|c [|d r]]]; cbn [app drive_first].
  - destruct oq as [[|y q]|]; cbn [qtext app]; [destruct of as [[|z f]|]; reflexivity|reflexivity|]. destruct of as [[|z f]|]; reflexivity.
  - destruct oq as [[|y q]|]; cbn [qtext app starts_with_windows_drive_letter is_windows_drive_letter].
    + destruct (ftext of); rewrite andb_false_r; reflexivity.
    + rewrite andb_false_r. reflexivity.
    + destruct of as [[|z f]|]; cbn [ftext starts_with_windows_drive_letter is_windows_drive_letter]; rewrite ?andb_false_r; reflexivity.
  - cbn [starts_with_windows_drive_letter is_windows_drive_letter]. destruct oq as [q|]; cbn [qtext app]; [change (0x3F =? 0x3F) with true; now rewrite !orb_true_r|].
    destruct of as [f|]; cbn [ftext]; [|reflexivity]. change (0x23 =? 0x23) with true. now rewrite !orb_true_r.
  - cbn [starts_with_windows_drive_letter is_windows_drive_letter]. replace (d =? 0x3F) with false by (symmetry; apply Z.eqb_neq; intros ->; apply N1; right; right; now left).
    replace (d =? 0x23) with false by (symmetry; apply Z.eqb_neq; intros ->; apply N2; right; right; now left). now rewrite !orb_false_r.
Qed.
Lemma without_last_shorten p : shorten true p = without_last p.
Proof. destruct p as [|x [|y p]]; reflexivity. Qed.
Lemma says_file_ok s base t z x oq of : Forall scalar s -> says_file base (text_of s) t -> t = z ++ x ++ qtext oq ++ ftext of -> cut_ok x oq -> tail_ok x oq of.
Proof.
  intros S Sy E C. split; [|exact C]. assert (exists a, text_of s = a ++ t) as [a W].
  { destruct Sy as [(b & _ & _ & _ & -> & _)|(sc & -> & _)]; [now exists []|]. exists (sc ++ [0x3A]). now rewrite <- app_assoc. }
  pose proof (text_visible s S) as V. rewrite W, E in V. apply Forall_app in V as [_ V]. now apply Forall_app in V as [_ V].
Qed.
Lemma says_file_run idna base s fuel steps t o : steps_ok s fuel steps -> Forall scalar s -> says_file base (text_of s) t ->
  (forall a u, text_of s = a ++ t -> set_host (Some HEmpty) (set_scheme (lit "file") u) = file_url -> gives idna (text_of s) base fuel (here File [] a u) o) ->
  basic_parse idna fuel steps s base UTF_8 = Val o.
Proof.
  intros St S Sy K. pose proof (fuel_ok _ _ _ St) as Fu. apply parse_gives; [exact S|exact St|]. fold (text_of s).
  destruct Sy as [(b & B & Fb & Cb & W & N)|(sc & W & Sc & Es)].
  - apply (gives_from _ _ _ _ _ (here File [] [] empty_url)).
    + intros r. apply (run_to_file idna _ _ fuel Fu b); auto. unfold is_file. rewrite Fb. reflexivity.
    + now apply K.
  - apply (gives_from _ _ _ _ _ (here File [] (sc ++ [0x3A]) (scheme_url sc))).
    + intros r. apply (run_file_start idna _ _ fuel Fu sc t r W Sc). unfold is_file, scheme_url. cbn [scheme set_scheme]. rewrite Es. reflexivity.
    + apply K; [now rewrite <- app_assoc|reflexivity].
Qed.
Lemma file_base_some b : scheme b = lit "file" -> file_base (Some b) = Some b.
Proof. intros E. unfold file_base, is_file. rewrite E. reflexivity. Qed.
Lemma file_base_none base : (forall b, base = Some b -> scheme b <> lit "file") -> file_base base = None.
Proof. intros E. unfold file_base, is_file, eqs. destruct base as [b|]; [|reflexivity]. destruct (list_eq_dec _ _ _) as [e|]; [destruct (E b eq_refl e)|reflexivity]. Qed.

(** References to a file from a file: without a path; *)
Theorem C76_same_path idna b s fuel steps t oq of : Forall scalar s -> steps_ok s fuel steps -> scheme b = lit "file" ->
  says_file (Some b) (text_of s) t -> t = qtext oq ++ ftext of -> cut_ok [] oq ->
  basic_parse idna fuel steps s (Some b) UTF_8 = Val (Some (Url (lit "file") [] [] (uhost b) None (path b)
    (match oq with Some _ => query_of (lit "file") oq | None => query b end) (fragment_of of) false)).
Proof.
  intros S St Fb Sy Et C. pose proof (says_file_ok s _ t [] [] oq of S Sy Et C) as Ok. apply (says_file_run idna (Some b) s fuel steps t); auto. intros a u W Ub. rewrite Et in W.
  pose proof (file_same idna _ (Some b) fuel (fuel_ok _ _ _ St) a u Ub b oq of (file_base_some b Fb) W Ok) as K.
  destruct oq, of; exact K.
Qed.
Print Assumptions C76_same_path.
(** with a path that does not begin with a slash: it takes the place of the last segment, and of all segments when it begins with a drive; *)
Theorem C76_path idna b s fuel steps t x oq of : Forall scalar s -> steps_ok s fuel steps -> scheme b = lit "file" ->
  says_file (Some b) (text_of s) t -> t = x ++ qtext oq ++ ftext of -> cut_ok x oq -> x <> [] -> hd 0 x <> 0x2F -> hd 0 x <> 0x5C ->
  basic_parse idna fuel steps s (Some b) UTF_8 = Val (Some (Url (lit "file") [] [] (uhost b) None
    (resolve true (if drive_first x then [] else without_last (path b)) (segments_of (lit "file") x)) (query_of (lit "file") oq) (fragment_of of) false)).
Proof.
  intros S St Fb Sy Et C Nx Hx Hy. pose proof (says_file_ok s _ t [] x oq of S Sy Et C) as Ok. apply (says_file_run idna (Some b) s fuel steps t); auto. intros a u W Ub. rewrite Et in W.
  pose proof (file_path idna _ (Some b) fuel (fuel_ok _ _ _ St) a u Ub b x oq of (file_base_some b Fb) W Nx ltac:(unfold is_slash; lia) Ok) as K.
  unfold drive_dir in K. rewrite drive_first_text, without_last_shorten in K by apply C. destruct oq, of; exact K.
Qed.
Print Assumptions C76_path.
(** with a path that begins with one slash: it takes the place of the path, but for a drive in the base and none in the reference. *)
Theorem C76_root idna b s fuel steps t c x oq of : Forall scalar s -> steps_ok s fuel steps -> scheme b = lit "file" ->
  says_file (Some b) (text_of s) t -> t = c :: x ++ qtext oq ++ ftext of -> cut_ok x oq -> c = 0x2F \/ c = 0x5C -> hd 0 x <> 0x2F -> hd 0 x <> 0x5C ->
  basic_parse idna fuel steps s (Some b) UTF_8 = Val (Some (Url (lit "file") [] [] (uhost b) None
    (resolve true (match path b with d :: _ => if drive_segment d && negb (drive_first x) then [d] else [] | [] => [] end) (segments_of (lit "file") x))
    (query_of (lit "file") oq) (fragment_of of) false)).
Proof.
  intros S St Fb Sy Et C Hc Hx Hy. pose proof (says_file_ok s _ t [c] x oq of S Sy Et C) as Ok. apply (says_file_run idna (Some b) s fuel steps t); auto. intros a u W Ub. rewrite Et in W.
  pose proof (file_root idna _ (Some b) fuel (fuel_ok _ _ _ St) a u c x oq of Ub W ltac:(unfold is_slash; lia) ltac:(unfold is_slash; lia) Ok) as K.
  rewrite (file_base_some b Fb) in K. unfold drive_root in K. rewrite drive_first_text in K by apply C.
  assert (E : match path b with d :: _ => if negb (drive_first x) && is_normalized_windows_drive_letter d then [d] else [] | [] => [] end =
              match path b with d :: _ => if drive_segment d && negb (drive_first x) then [d] else [] | [] => [] end) by (destruct (path b); [reflexivity|rewrite andb_comm; reflexivity]).
  rewrite E in K. destruct oq, of; exact K.
Qed.
Print Assumptions C76_root.
(** A file URL without two slashes, when the base is not a file: an empty host, and the path of the text. *)
Theorem C76_alone idna base s fuel steps t z x oq of : Forall scalar s -> steps_ok s fuel steps -> (forall b, base = Some b -> scheme b <> lit "file") ->
  says_file base (text_of s) t -> t = z ++ x ++ qtext oq ++ ftext of -> cut_ok x oq -> z = [] \/ z = [0x2F] \/ z = [0x5C] -> hd 0 x <> 0x2F -> hd 0 x <> 0x5C ->
  basic_parse idna fuel steps s base UTF_8 = Val (Some (Url (lit "file") [] [] (Some HEmpty) None
    (resolve true [] (segments_of (lit "file") x)) (query_of (lit "file") oq) (fragment_of of) false)).
Proof.
  intros S St Fb Sy Et C Hz Hx Hy. pose proof (says_file_ok s _ t z x oq of S Sy Et C) as Ok. apply (says_file_run idna base s fuel steps t); auto. intros a u W Ub. rewrite Et in W.
  destruct Hz as [->|Hz].
  - pose proof (file_path_alone idna _ base fuel (fuel_ok _ _ _ St) a u Ub x oq of (file_base_none base Fb) W ltac:(unfold is_slash; lia) Ok) as K. destruct oq, of; exact K.
  - assert (exists c, z = [c] /\ is_slash c = true) as (c & -> & Hc) by (destruct Hz as [->| ->]; eexists; split; reflexivity).
    pose proof (file_root idna _ base fuel (fuel_ok _ _ _ St) a u c x oq of Ub W Hc ltac:(unfold is_slash; lia) Ok) as K.
    rewrite (file_base_none base Fb) in K. destruct oq, of; exact K.
Qed.
Print Assumptions C76_alone.
(** Two slashes from a file: the host is the reference's. *)
Theorem C76_host idna b s fuel steps x y h p oq of hh : Forall scalar s -> steps_ok s fuel steps -> scheme b = lit "file" -> cannot_be_base b = false ->
  text_of s = x :: y :: h ++ p ++ qtext oq ++ ftext of -> x = 0x2F \/ x = 0x5C -> y = 0x2F \/ y = 0x5C -> cut_ok p oq ->
  Forall (fun c => ~ In c [0x2F; 0x3F; 0x23; 0x5C]) h -> begins_path (lit "file") p ->
  (h <> [] -> is_windows_drive_letter h = false -> parse_host idna fuel h false = Val hh /\ (hh = HNone \/ exists d, hh = HDomain d)) ->
  (is_windows_drive_letter h = true -> exists v, basic_parse idna fuel steps s (Some b) UTF_8 = Val (Some v) /\
     scheme v = lit "file" /\ has_user v None /\ uhost v = Some HEmpty /\ port v = None /\ has_tail v (0x2F :: h ++ p) oq of /\ cannot_be_base v = false) /\
  (is_windows_drive_letter h = false -> h <> [] -> hh = HNone -> basic_parse idna fuel steps s (Some b) UTF_8 = Val None) /\
  (is_windows_drive_letter h = false -> h = [] \/ hh <> HNone -> exists v, basic_parse idna fuel steps s (Some b) UTF_8 = Val (Some v) /\
     scheme v = lit "file" /\ has_user v None /\ (h = [] \/ hh = HDomain (lit "localhost") -> uhost v = Some HEmpty) /\
     (h <> [] -> hh <> HDomain (lit "localhost") -> uhost v = Some hh) /\ port v = None /\ has_tail v p oq of /\ cannot_be_base v = false).
Proof.
  intros S St Fb Cb Ei Hx Hy C Hh Bp Ph.
  assert (Sy : says_file (Some b) (text_of s) (text_of s)).
  { left. exists b. repeat (split; [assumption || reflexivity|]). intros sc r E. rewrite Ei in E. destruct sc as [|z sc]; [injection E as E _; lia|]. injection E as <- _. intros [A _].
    unfold is_ascii_alpha, is_ascii_upper_alpha, is_ascii_lower_alpha in A. lia. }
  assert (Ok : tail_ok p oq of) by (apply (says_file_ok s _ _ (x :: y :: h) p oq of S Sy); [rewrite Ei; reflexivity|exact C]).
  assert (K : basic_parse idna fuel steps s (Some b) UTF_8 = Val (file_authority hh h p oq of)).
  { apply (says_file_run idna (Some b) s fuel steps (text_of s)); auto. intros a u W Ub.
    apply (run_file_all idna _ (Some b) fuel (fuel_ok _ _ _ St) a u x y h p oq of hh); auto.
    - rewrite W at 1. rewrite Ei. reflexivity.
    - unfold is_slash. lia.
    - unfold is_slash. lia.
    - pose proof (text_visible s S) as V. rewrite Ei in V. inversion V as [|? ? _ V1]; subst. inversion V1 as [|? ? _ V2]; subst. apply Forall_app in V2 as [V2 _]. rewrite Forall_forall in *. intros c I. specialize (Hh c I). cbn [In] in Hh. split; [now apply V2|]. unfold is_slash. lia.
    - intros N D. destruct (Ph N D) as [P [->|[d ->]]]; auto. }
  unfold file_authority in K.
  assert (Fld : forall w t, scheme w = lit "file" -> username w = [] -> password w = [] -> port w = None -> query w = None -> fragment w = None -> cannot_be_base w = false ->
    scheme (finish w t oq of) = lit "file" /\ has_user (finish w t oq of) None /\ uhost (finish w t oq of) = uhost w /\ port (finish w t oq of) = None /\ has_tail (finish w t oq of) t oq of /\ cannot_be_base (finish w t oq of) = false).
  { intros w t A1 A2 A3 A4 A5 A6 A7. destruct (finish_scheme w t oq of) as (F1 & F2 & F3 & F4 & F5 & F6). unfold has_user. rewrite F1, F2, F3, F4, F5, F6. repeat (split; [assumption || (split; assumption) || reflexivity|]). split; [now apply finish_fields|assumption]. }
  split; [|split].
  - intros D. rewrite D in K. eexists. split; [exact K|]. destruct (Fld file_url (0x2F :: h ++ p)) as (G1 & G2 & G3 & G4 & G5 & G6); try reflexivity. repeat (split; [assumption|]). assumption.
  - intros D N E. rewrite D in K. destruct h as [|c h]; [congruence|]. subst hh. exact K.
  - intros D E. rewrite D in K. destruct h as [|c h].
    + eexists. split; [exact K|]. destruct (Fld file_url p) as (G1 & G2 & G3 & G4 & G5 & G6); try reflexivity. split; [exact G1|]. split; [exact G2|]. split; [intros _; exact G3|]. split; [congruence|]. auto.
    + destruct (Ph ltac:(discriminate) D) as [_ [X|[d X]]]; [destruct E as [E|E]; congruence|]. rewrite X in K. eexists. split; [exact K|].
      destruct (Fld (set_host (Some (if eqs d (lit "localhost") then HEmpty else HDomain d)) file_url) p) as (G1 & G2 & G3 & G4 & G5 & G6); try reflexivity.
      split; [exact G1|]. split; [exact G2|]. split; [|split; [|auto]].
      * intros [Y|Y]; [discriminate Y|]. rewrite G3. rewrite X in Y. injection Y as ->. reflexivity.
      * intros _ Y. rewrite G3. cbn [uhost set_host]. unfold eqs. destruct (list_eq_dec Z.eq_dec d (lit "localhost")) as [e|]; [rewrite X, e in Y; congruence|now rewrite X].
Qed.
Print Assumptions C76_host.

Definition file_ex : url := Url (lit "file") [] [] (Some (HDomain (lit "h"))) None [lit "C:"; lit "a"; lit "b"] (Some (lit "q")) (Some (lit "f")) false.
Example C76_ex : exists b, b = file_ex /\ scheme b = lit "file" /\ cannot_be_base b = false /\
  (says_file (Some b) (text_of []) [] /\ basic_parse same 200 500 [] (Some b) UTF_8 = Val (Some (Url (lit "file") [] [] (Some (HDomain (lit "h"))) None [lit "C:"; lit "a"; lit "b"] (Some (lit "q")) None false))) /\
  (says_file (Some b) (text_of (lit "File:../../../x")) (lit "../../../x") /\ drive_first (lit "../../../x") = false /\ cut_ok (lit "../../../x") None /\
   basic_parse same 300 600 (lit "File:../../../x") (Some b) UTF_8 = Val (Some (Url (lit "file") [] [] (Some (HDomain (lit "h"))) None [lit "C:"; lit "x"] None None false))) /\
  (says_file (Some b) (text_of (lit "\x?")) (lit "\x?") /\ drive_first (lit "x") = false /\
   basic_parse same 300 600 (lit "\x?") (Some b) UTF_8 = Val (Some (Url (lit "file") [] [] (Some (HDomain (lit "h"))) None [lit "C:"; lit "x"] (Some []) None false))) /\
  (says_file (Some b) (text_of (lit "/d|/x")) (lit "/d|/x") /\ drive_first (lit "d|/x") = true /\
   basic_parse same 300 600 (lit "/d|/x") (Some b) UTF_8 = Val (Some (Url (lit "file") [] [] (Some (HDomain (lit "h"))) None [lit "d:"; lit "x"] None None false))) /\
  (says_file None (text_of (lit "file:x")) (lit "x") /\
   basic_parse same 300 600 (lit "file:x") None UTF_8 = Val (Some (Url (lit "file") [] [] (Some HEmpty) None [lit "x"] None None false))) /\
  (text_of (lit "//i/x") = 0x2F :: 0x2F :: lit "i" ++ lit "/x" ++ qtext None ++ ftext None /\ parse_host same 300 (lit "i") false = Val (HDomain (lit "i")) /\
   basic_parse same 300 600 (lit "//i/x") (Some b) UTF_8 = Val (Some (Url (lit "file") [] [] (Some (HDomain (lit "i"))) None [lit "x"] None None false))).
Proof.
  assert (Ns : forall w, text_of w = w -> match w with c :: _ => is_ascii_alpha c = false /\ c <> 0x3A | [] => True end -> says_file (Some file_ex) (text_of w) w).
  { intros w E A. left. exists file_ex. repeat (split; [reflexivity || exact E|]). intros sc r H. rewrite E in H. destruct w as [|c w]; [destruct sc; discriminate H|]. destruct A as [A N].
    destruct sc as [|y sc]; cbn [app] in H; [congruence|]. injection H as <- _. intros [X _]. congruence. }
  exists file_ex. split; [reflexivity|]. split; [reflexivity|]. split; [reflexivity|]. split; [|split; [|split; [|split; [|split]]]].
  - split; [now apply Ns|]. vm_compute. reflexivity.
  - split; [right; exists (lit "File"); repeat split; try reflexivity; repeat constructor|]. split; [reflexivity|]. split; [repeat split; cbn; lia|]. vm_compute. reflexivity.
  - split; [apply Ns; [reflexivity|split; [reflexivity|vm_compute; discriminate]]|]. wit.
  - split; [apply Ns; [reflexivity|split; [reflexivity|vm_compute; discriminate]]|]. wit.
  - split; [right; exists (lit "file"); repeat split; try reflexivity; repeat constructor|]. vm_compute. reflexivity.
  - wit.
Qed.
