(** The URL parser and the URL class: C41, C42, C43. *)
From Coq Require Import String.
From Coq Require Import ZArith List Bool Lia.
From Verif Require Import M_unicode M_infra M_percent M_ip M_encoding M_labels M_url.
From Verif Require Import L_unicode L_url L_url2 L_url3 L_url4 L_url5 L_url6.
Import ListNotations.
Open Scope string_scope.
Open Scope list_scope.
Open Scope Z_scope.

Ltac wit := repeat (match goal with |- _ /\ _ => split end); (vm_compute; reflexivity).
Ltac fz :=
  match goal with |- Forall ?P ?l => let x := eval vm_compute in l in change (Forall P x) end;
  repeat (apply Forall_cons; [unfold scalar; lia|]); apply Forall_nil.

(** An IDNA conversion for the examples: it changes nothing. *)
Definition same (s : list Z) : option (list Z) := Some s.

(** * C41 *)

(** Whatever the string, the base and the IDNA conversion, the parser ends within a number of steps that is linear in the length
    of the string: 18 steps for each code point, and 36. *)
Theorem C41_parse_terminates idna s base fuel steps : Forall scalar s ->
  (8 * List.length s + 8 < fuel)%nat -> (18 * (List.length s + 2) <= steps)%nat ->
  basic_parse idna fuel steps s base UTF_8 <> NoFuel.
Proof. exact (parse_ends_linear idna s base fuel steps). Qed.
Print Assumptions C41_parse_terminates.
Example C41_parse_terminates_ex : Forall scalar (lit "http://u@h:1/a/../b?q#f") /\
  exists u, basic_parse same 200 450 (lit "http://u@h:1/a/../b?q#f") None UTF_8 = Val (Some u) /\ path u = [lit "b"].
Proof. split; [fz|]. eexists. wit. Qed.

(** The same for a run that starts from a state of the setters. *)
Theorem C41_setter_terminates idna s u o fuel steps : Forall scalar s -> In o [SchemeStart; Host; Hostname; Port; PathStart; Query; Fragment] ->
  (o = Query -> query u <> None) -> (o = Fragment -> fragment u <> None) ->
  (8 * List.length s + 8 < fuel)%nat -> (18 * (List.length s + 2) <= steps)%nat ->
  modify idna fuel steps s u o <> NoFuel.
Proof. exact (modify_ends_linear idna s u o fuel steps). Qed.
Print Assumptions C41_setter_terminates.
Example C41_setter_terminates_ex : In Host [SchemeStart; Host; Hostname; Port; PathStart; Query; Fragment] /\
  exists u, modify same 100 450 (lit "example.org:8080/x") (set_scheme (lit "http") empty_url) Host = Val u /\ port u = Some 8080.
Proof. split; [cbn; tauto|]. eexists. wit. Qed.

(** Nothing is read outside the string and nothing undefined happens when the string has no "[" and the IDNA conversion gives only
    names that start neither with a digit nor with a full stop. *)
Theorem C41_parse_defined_partial idna s base fuel steps : Forall scalar s ->
  (8 * List.length s + 8 < fuel)%nat -> (18 * (List.length s + 2) <= steps)%nat ->
  ~ In 0x5B s ->
  (forall x a, idna x = Some a -> Forall (fun c => 0 <= c < 2 ^ 32) a /\ match a with [] => False | c :: _ => c <> 0x2E /\ ~ (0x30 <= c <= 0x39) end) ->
  exists r, basic_parse idna fuel steps s base UTF_8 = Val r.
Proof. exact (parse_defined idna s base fuel steps). Qed.
Print Assumptions C41_parse_defined_partial.
(** A conversion that meets the hypothesis: it refuses everything else. *)
Definition names_only (s : list Z) : option (list Z) :=
  match s with c :: r => if (0x61 <=? c) && (c <=? 0x7A) then Some [c] else None | [] => None end.
Example C41_parse_defined_partial_ex :
  (forall x a, names_only x = Some a -> Forall (fun c => 0 <= c < 2 ^ 32) a /\ match a with [] => False | c :: _ => c <> 0x2E /\ ~ (0x30 <= c <= 0x39) end) /\
  exists u, basic_parse names_only 200 450 (lit "ftp://b/c") None UTF_8 = Val (Some u) /\ uhost u = Some (HDomain (lit "b")).
Proof.
  split; [|eexists; wit]. intros [|c r] a H; [discriminate|]. cbn in H. destruct ((0x61 <=? c) && (c <=? 0x7A)) eqn:E; [|discriminate].
  injection H as <-. apply andb_true_iff in E as [E1 E2]. apply Z.leb_le in E1, E2. repeat constructor; lia.
Qed.

(** Where the host of a URL whose scheme is "file" is an IPv4 address, the comparison with "localhost" asserts. *)
Theorem C41_file_ipv4_refuted : exists s, Forall scalar s /\ basic_parse same 500 900 s None UTF_8 = Bad.
Proof. exists (lit "file://1.2.3.4/"). split; [fz|]. vm_compute. reflexivity. Qed.
Print Assumptions C41_file_ipv4_refuted.
(** The same for an IPv6 address, whatever the IDNA conversion. *)
Theorem C41_file_ipv6_refuted : exists s, Forall scalar s /\ forall idna, basic_parse idna 500 900 s None UTF_8 = Bad.
Proof. exists (lit "file://[::1]/"). split; [fz|]. intros. vm_compute. reflexivity. Qed.
Print Assumptions C41_file_ipv6_refuted.
(** An octal number with the digit 8 makes the IPv4 parser use an uninitialised number. *)
Theorem C41_octal_refuted : exists s, Forall scalar s /\ basic_parse same 500 900 s None UTF_8 = Bad.
Proof. exists (lit "http://08/"). split; [fz|]. vm_compute. reflexivity. Qed.
Print Assumptions C41_octal_refuted.
(** An IPv4 address inside an IPv6 address makes the IPv6 parser read outside the string. *)
Theorem C41_embedded_refuted : exists s, Forall scalar s /\ forall idna, basic_parse idna 500 900 s None UTF_8 = Bad.
Proof. exists (lit "http://[1:2:3:4:5:6:1.2.3.4]/"). split; [fz|]. intros. vm_compute. reflexivity. Qed.
Print Assumptions C41_embedded_refuted.
(** With ISO-2022-JP as the encoding of the query the parser does not end on a code point that is not in its repertoire. *)
Theorem C41_query_encoding_refuted : exists s base, Forall scalar s /\
  forall idna fuel steps, basic_parse idna fuel steps s (Some base) ISO_2022_JP = NoFuel.
Proof. exists [0x3F; 0xE9], plain_base. split; [repeat constructor; unfold scalar; lia|]. exact jp_parse_stuck. Qed.
Print Assumptions C41_query_encoding_refuted.

(** * C42 *)

(** The string as the class takes it: without tabs and newlines, and without the sign that introduces the component. *)
Definition cleaned (sign : Z) (s : list Z) : list Z :=
  filter (fun c => negb ((c =? 0x9) || (c =? 0xA) || (c =? 0xD))) (match s with c :: r => if c =? sign then r else s | [] => [] end).
(** What a getter gives for a component that is introduced by a sign. *)
Definition shown (sign : Z) (s : list Z) : list Z := match s with [] => [] | _ => sign :: s end.

Theorem C42_hash idna fuel steps u s : Forall scalar s -> (8 * List.length s + 8 < fuel)%nat -> (18 * (List.length s + 2) <= steps)%nat ->
  exists v, set_hash idna fuel steps u s = Val v /\
    scheme v = scheme u /\ username v = username u /\ password v = password u /\ uhost v = uhost u /\ port v = port u /\
    path v = path u /\ query v = query u /\ cannot_be_base v = cannot_be_base u /\
    fragment v = (match s with [] => None | _ => Some (pe is_fragment_percent_encode_set (cleaned 0x23 s)) end) /\
    get_hash v = shown 0x23 (pe is_fragment_percent_encode_set (cleaned 0x23 s)).
Proof. exact (hash_set_get idna fuel steps u s). Qed.
Print Assumptions C42_hash.
Example C42_hash_ex : Forall scalar (lit "#a b") /\
  exists v, set_hash same 100 200 (set_fragment (Some (lit "x")) plain_base) (lit "#a b") = Val v /\ get_hash v = lit "#a%20b".
Proof. split; [fz|]. eexists. wit. Qed.

Theorem C42_search idna fuel steps u s : Forall scalar s -> (8 * List.length s + 8 < fuel)%nat -> (18 * (List.length s + 2) <= steps)%nat ->
  let set := if existsb (fun x => if list_eq_dec Z.eq_dec x (scheme u) then true else false) [lit "ftp"; lit "file"; lit "http"; lit "https"; lit "ws"; lit "wss"]
             then is_special_query_percent_encode_set else is_query_percent_encode_set in
  exists v, set_search idna fuel steps u s = Val v /\
    scheme v = scheme u /\ username v = username u /\ password v = password u /\ uhost v = uhost u /\ port v = port u /\
    path v = path u /\ fragment v = fragment u /\ cannot_be_base v = cannot_be_base u /\
    query v = (match s with [] => None | _ => Some (pe set (cleaned 0x3F s)) end) /\
    get_search v = shown 0x3F (pe set (cleaned 0x3F s)).
Proof. exact (search_set_get idna fuel steps u s). Qed.
Print Assumptions C42_search.
Example C42_search_ex : Forall scalar (lit "?a'b#c") /\
  exists v, set_search same 100 200 plain_base (lit "?a'b#c") = Val v /\ get_search v = lit "?a%27b%23c".
Proof. split; [fz|]. eexists. wit. Qed.

(** The host is a domain or an opaque host that is not empty, and the scheme is not "file". *)
Definition may_have_credentials (u : url) : Prop :=
  cannot_be_base u = false /\ scheme u <> lit "file" /\ exists a, a <> [] /\ (uhost u = Some (HDomain a) \/ uhost u = Some (HOpaque a)).

Theorem C42_username fuel u s : Forall scalar s -> (List.length s < fuel)%nat -> may_have_credentials u ->
  exists v, set_username fuel u s = Val v /\ username v = pe is_userinfo_percent_encode_set s /\
    scheme v = scheme u /\ password v = password u /\ uhost v = uhost u /\ port v = port u /\
    path v = path u /\ query v = query u /\ fragment v = fragment u /\ cannot_be_base v = cannot_be_base u.
Proof. exact (username_set_get fuel u s). Qed.
Print Assumptions C42_username.
Theorem C42_password fuel u s : Forall scalar s -> (List.length s < fuel)%nat -> may_have_credentials u ->
  exists v, set_password fuel u s = Val v /\ password v = pe is_userinfo_percent_encode_set s /\
    scheme v = scheme u /\ username v = username u /\ uhost v = uhost u /\ port v = port u /\
    path v = path u /\ query v = query u /\ fragment v = fragment u /\ cannot_be_base v = cannot_be_base u.
Proof. exact (password_set_get fuel u s). Qed.
Print Assumptions C42_password.
Example C42_username_ex : Forall scalar (lit "a:b") /\ may_have_credentials plain_base /\
  exists v, set_username 10 plain_base (lit "a:b") = Val v /\ username v = lit "a%3Ab".
Proof.
  split; [fz|]. split; [|eexists; wit]. split; [reflexivity|]. split; [vm_compute; discriminate|].
  exists (lit "a"). split; [vm_compute; discriminate|now left].
Qed.

(** A record whose host is missing or an empty string keeps its user name and password. *)
Theorem C42_credentials_kept fuel u s : (uhost u = None \/ uhost u = Some (HDomain []) \/ uhost u = Some (HOpaque [])) ->
  set_username fuel u s = Val u /\ set_password fuel u s = Val u.
Proof. exact (credentials_kept fuel u s). Qed.
Print Assumptions C42_credentials_kept.
Example C42_credentials_kept_ex : set_username 10 (set_host None plain_base) (lit "a") = Val (set_host None plain_base).
Proof. reflexivity. Qed.

(** The user name setter asserts when the host is the empty host, as in every "file" URL without a host. *)
Theorem C42_username_empty_host_refuted : exists u s, Forall scalar s /\ basic_parse same 200 400 (lit "file:///x") None UTF_8 = Val (Some u) /\
  forall fuel, set_username fuel u s = Bad.
Proof. eexists _, (lit "a"). split; [fz|]. split; [vm_compute; reflexivity|]. intros fuel. reflexivity. Qed.
Print Assumptions C42_username_empty_host_refuted.
(** The user name setter asserts when the host is an address. *)
Theorem C42_username_refuted : exists u s, Forall scalar s /\ forall fuel, set_username fuel u s = Bad.
Proof.
  exists (set_host (Some (HIpv4 0x7F000001)) plain_base), (lit "a"). split; [fz|]. intros fuel. reflexivity.
Qed.
Print Assumptions C42_username_refuted.

(** The path setter replaces the path by the segments of the string, with dot segments resolved, and changes nothing else; it does
    not touch a URL that cannot be a base. *)
Theorem C42_pathname idna fuel steps u s : Forall scalar s -> (8 * List.length s + 8 < fuel)%nat -> (18 * (List.length s + 2) <= steps)%nat ->
  exists v, set_pathname idna fuel steps u s = Val v /\
    scheme v = scheme u /\ username v = username u /\ password v = password u /\ uhost v = uhost u /\ port v = port u /\
    query v = query u /\ fragment v = fragment u /\ cannot_be_base v = cannot_be_base u /\
    path v = if cannot_be_base u then path u else set_path_value u (cleaned 0xA s).
Proof. exact (pathname_set_get idna fuel steps u s). Qed.
Print Assumptions C42_pathname.
Example C42_pathname_ex : Forall scalar (lit "/a/./b/../c d") /\
  exists v, set_pathname same 200 300 plain_base (lit "/a/./b/../c d") = Val v /\ get_pathname v = Some (lit "/a/c%20d").
Proof. split; [fz|]. eexists. wit. Qed.

(** The other setters: whatever they do, they change only the components that they are for. No bound on the fuel is needed. *)
Theorem C42_protocol_frame idna fuel steps u s v : set_protocol idna fuel steps u s = Val v ->
  username v = username u /\ password v = password u /\ uhost v = uhost u /\ path v = path u /\ query v = query u /\
  fragment v = fragment u /\ cannot_be_base v = cannot_be_base u.
Proof. intros H. apply frame_protocol in H. unfold but_scheme_port in H. injection H. auto 10. Qed.
Print Assumptions C42_protocol_frame.
Example C42_protocol_frame_ex : exists v, set_protocol same 100 100 plain_base (lit "https") = Val v /\ scheme v = lit "https".
Proof. eexists. wit. Qed.

Theorem C42_host_frame idna fuel steps u s v : set_host_ idna fuel steps u s = Val v ->
  scheme v = scheme u /\ username v = username u /\ password v = password u /\ path v = path u /\ query v = query u /\
  fragment v = fragment u /\ cannot_be_base v = cannot_be_base u.
Proof. intros H. apply frame_host in H. unfold but_host_port in H. injection H. auto 10. Qed.
Print Assumptions C42_host_frame.
Example C42_host_frame_ex : exists v, set_host_ same 100 300 plain_base (lit "b:81") = Val v /\ get_host v = Some (lit "b:81").
Proof. eexists. wit. Qed.

Theorem C42_hostname_frame idna fuel steps u s v : set_hostname idna fuel steps u s = Val v ->
  scheme v = scheme u /\ username v = username u /\ password v = password u /\ port v = port u /\ path v = path u /\ query v = query u /\
  fragment v = fragment u /\ cannot_be_base v = cannot_be_base u.
Proof. intros H. apply frame_hostname in H. unfold but_host in H. injection H. auto 10. Qed.
Print Assumptions C42_hostname_frame.
Example C42_hostname_frame_ex : exists v, set_hostname same 100 300 plain_base (lit "b:81") = Val v /\ get_host v = Some (lit "b").
Proof. eexists. wit. Qed.

Theorem C42_port_frame idna fuel steps u s v : set_port_ idna fuel steps u s = Val v ->
  scheme v = scheme u /\ username v = username u /\ password v = password u /\ uhost v = uhost u /\ path v = path u /\ query v = query u /\
  fragment v = fragment u /\ cannot_be_base v = cannot_be_base u.
Proof. intros H. apply frame_port in H. unfold but_port in H. injection H. auto 10. Qed.
Print Assumptions C42_port_frame.
Example C42_port_frame_ex : exists v, set_port_ same 100 300 plain_base (lit "81") = Val v /\ get_port v = lit "81".
Proof. eexists. wit. Qed.

(** The host setter of a "file" URL takes the first code point of the string twice. *)
Theorem C42_file_host_refuted : exists u s v, Forall scalar s /\ set_host_ same 100 300 u s = Val v /\ scheme u = lit "file" /\
  s = lit "abc" /\ get_hostname v = Some (lit "aabc").
Proof. exists (set_scheme (lit "file") plain_base), (lit "abc"). eexists. split; [fz|]. wit. Qed.
Print Assumptions C42_file_host_refuted.

(** * C43 *)

Definition is_digit (c : Z) : Prop := 0x30 <= c <= 0x39.
(** The number that a string of digits stands for. *)
Definition number (s : list Z) : Z := fold_left (fun n c => n * 10 + (c - 0x30)) s 0.
(** The default ports. *)
Definition usual_port (s : list Z) (n : Z) : Prop :=
  (s = lit "ftp" /\ n = 21) \/ (s = lit "http" /\ n = 80) \/ (s = lit "https" /\ n = 443) \/ (s = lit "ws" /\ n = 80) \/ (s = lit "wss" /\ n = 443).

(** A number below 65535 that is written with at most five digits is stored, or dropped when it is the default. *)
Theorem C43_accepted idna fuel steps u d r : Forall is_digit d -> d <> [] -> (List.length d <= 5)%nat -> number d < 65535 ->
  Forall scalar r -> Forall (fun c => c <> 0x9 /\ c <> 0xA /\ c <> 0xD) r -> match r with [] => True | c :: _ => ~ is_digit c end -> may_have_credentials u ->
  (8 * List.length (d ++ r) + 8 < fuel)%nat -> (18 * (List.length (d ++ r) + 2) <= steps)%nat ->
  exists v, set_port_ idna fuel steps u (d ++ r) = Val v /\
    ((usual_port (scheme u) (number d) /\ port v = None) \/ (~ usual_port (scheme u) (number d) /\ port v = Some (number d))).
Proof. exact (port_accepted idna fuel steps u d r). Qed.
Print Assumptions C43_accepted.
Example C43_accepted_ex : Forall is_digit (lit "65534") /\ number (lit "65534") < 65535 /\
  exists v, set_port_ same 100 300 plain_base (lit "65534x") = Val v /\ port v = Some 65534.
Proof. split; [match goal with |- Forall ?P ?l => let x := eval vm_compute in l in change (Forall P x) end; repeat constructor; unfold is_digit; lia|]. split; [reflexivity|]. eexists. wit. Qed.

(** A number from 65535 on, or one that is written with more than five digits, leaves the record as it is. *)
Theorem C43_rejected idna fuel steps u d r : Forall is_digit d -> d <> [] -> (5 < List.length d)%nat \/ 65535 <= number d ->
  Forall scalar r -> Forall (fun c => c <> 0x9 /\ c <> 0xA /\ c <> 0xD) r -> match r with [] => True | c :: _ => ~ is_digit c end -> may_have_credentials u ->
  (8 * List.length (d ++ r) + 8 < fuel)%nat -> (18 * (List.length (d ++ r) + 2) <= steps)%nat ->
  set_port_ idna fuel steps u (d ++ r) = Val u.
Proof. exact (port_rejected idna fuel steps u d r). Qed.
Print Assumptions C43_rejected.
Example C43_rejected_ex : number (lit "4294967376") = 2 ^ 32 + 80 /\ set_port_ same 200 300 plain_base (lit "4294967376") = Val plain_base.
Proof. wit. Qed.

(** 65535 is a port number, but the setter ignores it and the parser fails. *)
Theorem C43_65535_refuted : (exists u, may_have_credentials u /\ port u = None /\ set_port_ same 100 300 u (lit "65535") = Val u) /\
  basic_parse same 300 500 (lit "http://a:65535/") None UTF_8 = Val None.
Proof.
  split; [|vm_compute; reflexivity]. exists plain_base. split; [|wit]. split; [reflexivity|]. split; [vm_compute; discriminate|].
  exists (lit "a"). split; [vm_compute; discriminate|now left].
Qed.
Print Assumptions C43_65535_refuted.
(** So is 81 written with leading zeros. *)
Theorem C43_zeros_refuted : number (lit "000081") = 81 /\ basic_parse same 300 500 (lit "http://a:000081/") None UTF_8 = Val None.
Proof. wit. Qed.
Print Assumptions C43_zeros_refuted.
