(** What the URL parser gives, for every text and every base: C77. The record is [url_of] of L_url14: the text is cut at its delimiters,
    without the parser's states, pointer and buffer. *)
From Coq Require Import String.
From Coq Require Import ZArith List Bool Lia.
From Verif Require Import M_unicode M_infra M_percent M_ip M_encoding M_labels M_url.
From Verif Require Import L_unicode L_url L_url2 L_url3 L_url4 L_url5 L_url6 L_url7 L_url8 L_url13 P_url2 P_url4 L_url14.
Import ListNotations.
Open Scope string_scope.
Open Scope list_scope.
Open Scope Z_scope.

(** * C77 *)

(** Every text, with every base: the parser gives the record that the cutting gives, or rejects the text when the cutting does. *)
Theorem C77_parse idna fuel steps s base o : Forall scalar s -> steps_ok s fuel steps ->
  url_of (parse_host idna fuel) (text_of s) base = Val o -> basic_parse idna fuel steps s base UTF_8 = Val o.
Proof.
  intros S St H. apply parse_gives; [exact S|exact St|]. fold (text_of s). exact (parser_here idna _ base fuel (fuel_ok _ _ _ St) (text_visible s S) o H).
Qed.
Print Assumptions C77_parse.

(** The cutting says something of every text for which the host parser does, but for a file URL whose host is an address. *)
Definition hosts_read (host_of : list Z -> bool -> outcome host) : Prop := forall h o, exists hh, host_of h o = Val hh.
Definition names_read (host_of : list Z -> bool -> outcome host) : Prop := forall h hh, host_of h false = Val hh -> match hh with HNone | HDomain _ => True | _ => False end.
Definition no_file (w : list Z) (base : option url) : Prop :=
  (forall s t, scheme_cut w = Some (s, t) -> map cp_lower s <> lit "file") /\ (forall b, base = Some b -> scheme b <> lit "file").

Lemma authority_defined host_of sc t : hosts_read host_of -> exists o, authority_at host_of sc t = Val o.
Proof.
  intros Hr. unfold authority_at. destruct (cut _ t) as [a rest]. destruct (tail_parts rest) as [[b oq] of].
  destruct (match last_at a with Some (x, y) => (Some x, y) | None => (None, a) end) as [ou hp].
  destruct (match ou, hp with Some _, [] => true | _, _ => false end); [eexists; reflexivity|]. destruct (port_cut false hp) as [h od].
  destruct (match h with [] => _ | _ => _ end); [eexists; reflexivity|].
  destruct (Hr h (negb (special_of sc))) as [hh ->]. cbn [obind]. destruct hh; try (eexists; reflexivity); destruct (port_ok od); eexists; reflexivity.
Qed.
Lemma relative_defined host_of v t : hosts_read host_of -> exists o, relative_at host_of v t = Val o.
Proof.
  intros Hr. unfold relative_at. cbv zeta. destruct t as [|c r].
  - destruct (tail_parts []) as [[x oq] of]. eexists; reflexivity.
  - destruct (segment_end _ c).
    + destruct r as [|d r]; [eexists; reflexivity|]. destruct (segment_end _ d); [now apply authority_defined|]. destruct (tail_parts _) as [[x oq] of]. eexists; reflexivity.
    + destruct (tail_parts _) as [[x oq] of]. eexists; reflexivity.
Qed.
Lemma file_defined host_of v t : hosts_read host_of -> names_read host_of -> exists o, file_at host_of v t = Val o.
Proof.
  intros Hr Nr. unfold file_at. cbv zeta.
  assert (Pl : exists o, (let '(x, oq, of) := tail_parts t in
    match v, x with
    | Some b, [] => Val (Some (Url (lit "file") [] [] (match v with Some b => uhost b | None => Some HEmpty end) None (path b) (match oq with Some _ => query_of (lit "file") oq | None => query b end) (fragment_of of) false))
    | Some b, _ => Val (Some (Url (lit "file") [] [] (match v with Some b => uhost b | None => Some HEmpty end) None (resolve true (if drive_first x then [] else without_last (path b)) (segments_of (lit "file") x)) (query_of (lit "file") oq) (fragment_of of) false))
    | None, _ => Val (Some (Url (lit "file") [] [] (match v with Some b => uhost b | None => Some HEmpty end) None (resolve true [] (segments_of (lit "file") x)) (query_of (lit "file") oq) (fragment_of of) false))
    end) = Val o).
  { destruct (tail_parts t) as [[x oq] of]. destruct v as [b|]; [destruct x|]; eexists; reflexivity. }
  destruct t as [|c r]; [exact Pl|]. destruct (is_slash c); [|exact Pl]. clear Pl.
  destruct r as [|d r]; [eexists; reflexivity|]. destruct (is_slash d); [|destruct (tail_parts _) as [[x oq] of]; eexists; reflexivity].
  unfold file_host_at. cbv zeta. destruct (cut _ r) as [h rest]. destruct (tail_parts rest) as [[b oq] of]. destruct (is_windows_drive_letter h); [eexists; reflexivity|].
  destruct h as [|y h]; [eexists; reflexivity|]. destruct (Hr (y :: h) false) as [hh E]. rewrite E. cbn [obind]. specialize (Nr _ _ E). destruct hh; try destruct Nr; eexists; reflexivity.
Qed.
Lemma eqs_neq a b : a <> b -> eqs a b = false.
Proof. intros N. unfold eqs. destruct (list_eq_dec Z.eq_dec a b); congruence. Qed.
Theorem C77_defined host_of w base : hosts_read host_of -> names_read host_of \/ no_file w base -> exists o, url_of host_of w base = Val o.
Proof.
  intros Hr D. unfold url_of. destruct (scheme_cut w) as [[s t]|] eqn:Cu.
  - cbv zeta. destruct (eqs (map cp_lower s) (lit "file")) eqn:E.
    { destruct D as [D|[D _]]; [now apply file_defined|]. apply eqs_eq in E. destruct (D s t Cu E). }
    destruct (special_of _).
    + destruct (same_only base _) as [b|]; [|now apply authority_defined]. destruct (two_slashes t); [now apply authority_defined|now apply relative_defined].
    + assert (Op : exists o, opaque_at (map cp_lower s) t = Val o) by (unfold opaque_at; destruct (tail_parts t) as [[x oq] of]; eexists; reflexivity).
      destruct t as [|c [|d r]]; try exact Op. destruct (c =? 0x2F); [|exact Op]. destruct (d =? 0x2F); [now apply authority_defined|]. destruct (tail_parts _) as [[x oq] of]. eexists; reflexivity.
  - destruct base as [b|]; [|eexists; reflexivity]. destruct (cannot_be_base b); [destruct w; eexists; reflexivity|].
    destruct (eqs (scheme b) (lit "file")) eqn:E; [|now apply relative_defined]. destruct D as [D|[_ D]]; [now apply file_defined|]. apply eqs_eq in E. destruct (D b eq_refl E).
Qed.
Print Assumptions C77_defined.

(** The hypotheses and the record, on texts that take every road. *)
Definition C77_base : url := Url (lit "http") (lit "u") [] (Some (HDomain (lit "h"))) (Some 81) [lit "a"; lit "b"] (Some (lit "q")) None false.
Definition C77_file : url := Url (lit "file") [] [] (Some (HDomain (lit "h"))) None [lit "C:"; lit "b"] (Some (lit "q")) None false.
Definition reads (s : string) (base o : option url) : Prop :=
  Forall scalar (lit s) /\ steps_ok (lit s) 400 800 /\ url_of (parse_host same 400) (text_of (lit s)) base = Val o /\ basic_parse same 400 800 (lit s) base UTF_8 = Val o.
Ltac rd := unfold reads; split; [fz|]; split; [cbv; lia|]; split; vm_compute; reflexivity.
Example C77_authority_ex :
  reads "HTTP:\\u:p@q@h:80/a/../%2e/b?x#y" None (Some (Url (lit "http") (lit "u") (lit "p%40q") (Some (HDomain (lit "h"))) None [lit "b"] (Some (lit "x")) (Some (lit "y")) false)) /\
  reads "http:h:443" None (Some (Url (lit "http") [] [] (Some (HDomain (lit "h"))) (Some 443) [[]] None None false)) /\
  reads "http://h:65536" None None /\ reads "http://h:8a" None None /\ reads "http://u@/" None None /\ reads "http://:80" None None /\ reads "http://" None None /\
  reads "x://" None (Some (Url (lit "x") [] [] (Some (HOpaque [])) None [] None None false)) /\
  reads "x://h\a" None None /\
  reads "http://0x7f.1/" None (Some (Url (lit "http") [] [] (Some (HIpv4 2130706433)) None [[]] None None false)).
Proof. repeat match goal with |- reads _ _ _ /\ _ => split end; rd. Qed.
Example C77_other_ex :
  reads "x:/a?b" None (Some (Url (lit "x") [] [] None None [lit "a"] (Some (lit "b")) None false)) /\
  reads "x:/" None (Some (Url (lit "x") [] [] None None [lit "/"] None None true)) /\
  reads "mailto:a b#c" None (Some (Url (lit "mailto") [] [] None None [lit "a b"] None (Some (lit "c")) true)) /\
  reads "x" None None /\ reads "1:x" None None.
Proof. repeat match goal with |- reads _ _ _ /\ _ => split end; rd. Qed.
Example C77_reference_ex :
  reads "" (Some C77_base) (Some C77_base) /\
  reads "http:c" (Some C77_base) (Some (Url (lit "http") (lit "u") [] (Some (HDomain (lit "h"))) (Some 81) [lit "a"; lit "c"] None None false)) /\
  reads "\c" (Some C77_base) (Some (Url (lit "http") (lit "u") [] (Some (HDomain (lit "h"))) (Some 81) [lit "c"] None None false)) /\
  reads "//g?" (Some C77_base) (Some (Url (lit "http") [] [] (Some (HDomain (lit "g"))) None [[]] (Some []) None false)) /\
  reads "http:///g" (Some C77_base) (Some (Url (lit "http") [] [] (Some (HDomain (lit "g"))) None [[]] None None false)) /\
  reads "https:g" (Some C77_base) (Some (Url (lit "https") [] [] (Some (HDomain (lit "g"))) None [[]] None None false)).
Proof. repeat match goal with |- reads _ _ _ /\ _ => split end; rd. Qed.
Example C77_file_ex :
  reads "/x" (Some C77_file) (Some (Url (lit "file") [] [] (Some (HDomain (lit "h"))) None [lit "C:"; lit "x"] None None false)) /\
  reads "D|/x" (Some C77_file) (Some (Url (lit "file") [] [] (Some (HDomain (lit "h"))) None [lit "D:"; lit "x"] None None false)) /\
  reads "file://localhost/x" (Some C77_file) (Some (Url (lit "file") [] [] (Some HEmpty) None [lit "x"] None None false)) /\
  reads "file://C|/x" (Some C77_file) (Some (Url (lit "file") [] [] (Some HEmpty) None [lit "C:"; lit "x"] None None false)).
Proof. repeat match goal with |- reads _ _ _ /\ _ => split end; rd. Qed.
Example C77_defined_ex : let host_of := fun (h : list Z) (o : bool) => Val (HDomain h) in
  hosts_read host_of /\ names_read host_of /\ no_file (lit "http://h") None /\ exists o, url_of host_of (lit "file://h/x") None = Val o.
Proof.
  cbv zeta. assert (H : hosts_read (fun (h : list Z) (o : bool) => Val (HDomain h))) by (intros h o; eexists; reflexivity).
  assert (N : names_read (fun (h : list Z) (o : bool) => Val (HDomain h))) by (intros h hh E; injection E as <-; exact I).
  split; [exact H|]. split; [exact N|]. split; [|now apply C77_defined; [|left]]. split; [|discriminate]. intros s t E. vm_compute in E. injection E as <- <-. vm_compute. discriminate.
Qed.
