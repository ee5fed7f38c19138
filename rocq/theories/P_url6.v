(** What the setters of the URL class make of a record, for every record and every string: C78. The records are those of L_url15: the string is
    cut at its delimiters, without the parser's states, pointer and buffer. *)
From Coq Require Import String.
From Coq Require Import ZArith List Bool Lia.
From Verif Require Import M_unicode M_infra M_percent M_ip M_encoding M_labels M_url.
From Verif Require Import L_unicode L_url L_url2 L_url3 L_url4 L_url5 L_url6 L_url7 L_url8 L_url13 P_url2 P_url4 L_url14 L_url15.
Import ListNotations.
Open Scope string_scope.
Open Scope list_scope.
Open Scope Z_scope.

(** * C78 *)

(** The protocol: the scheme in front of the first colon, in lower case. Special stays special, a file has no credentials and no port, and a file
    without a host stays a file. *)
Theorem C78_protocol idna fuel steps u s v : Forall scalar s -> steps_ok (s ++ [0x3A]) fuel steps ->
  protocol_of u (without_newlines s) = Val v -> set_protocol idna fuel steps u s = Val v.
Proof. exact (protocol_setter_is idna fuel steps u s v). Qed.
Print Assumptions C78_protocol.
Definition shop : url := Url (lit "http") [] [] (Some (HDomain (lit "a.b"))) (Some 443) [lit "x"] None None false.
Example C78_protocol_ex : Forall scalar (lit "HTtpS:z") /\ steps_ok (lit "HTtpS:z" ++ [0x3A]) 200 400 /\
  protocol_of shop (without_newlines (lit "HTtpS:z")) = Val (Url (lit "https") [] [] (Some (HDomain (lit "a.b"))) None [lit "x"] None None false) /\
  protocol_of shop (without_newlines (lit "mailto")) = Val shop /\ protocol_of shop (without_newlines (lit "h_s")) = Val shop /\
  protocol_of shop (without_newlines (lit "file")) = Val shop.
Proof. split; [fz|]. split; [unfold steps_ok; vm_compute; lia|]. repeat split; vm_compute; reflexivity. Qed.

(** The host, and a port after it. *)
Theorem C78_host idna fuel steps u s v : Forall scalar s -> steps_ok s fuel steps ->
  host_setter (parse_host idna fuel) true u (without_newlines s) = Val v -> set_host_ idna fuel steps u s = Val v.
Proof. exact (host_setter_is idna fuel steps true u s v). Qed.
Print Assumptions C78_host.
Example C78_host_ex : Forall scalar (lit "c.d:8080/e") /\ steps_ok (lit "c.d:8080/e") 200 400 /\
  host_setter (parse_host same 200) true shop (without_newlines (lit "c.d:8080/e")) = Val (Url (lit "http") [] [] (Some (HDomain (lit "c.d"))) (Some 8080) [lit "x"] None None false) /\
  host_setter (parse_host same 200) true shop (without_newlines (lit "c.d:99999")) = Val (Url (lit "http") [] [] (Some (HDomain (lit "c.d"))) (Some 443) [lit "x"] None None false) /\
  host_setter (parse_host same 200) true shop (without_newlines (lit "[::1]:80")) = Val (Url (lit "http") [] [] (Some (HIpv6 [0; 0; 0; 0; 0; 0; 0; 1])) None [lit "x"] None None false) /\
  host_setter (parse_host same 200) true shop (without_newlines (lit ":80")) = Val shop /\
  host_setter (parse_host same 200) true (Url (lit "file") [] [] (Some HEmpty) None [lit "x"] None None false) (without_newlines (lit "ab/c")) =
    Val (Url (lit "file") [] [] (Some (HDomain (lit "aab"))) None [lit "x"] None None false).
Proof. split; [fz|]. split; [unfold steps_ok; vm_compute; lia|]. repeat split; vm_compute; reflexivity. Qed.

(** The host name; the setter stops at a colon. *)
Theorem C78_hostname idna fuel steps u s v : Forall scalar s -> steps_ok s fuel steps ->
  host_setter (parse_host idna fuel) false u (without_newlines s) = Val v -> set_hostname idna fuel steps u s = Val v.
Proof. exact (host_setter_is idna fuel steps false u s v). Qed.
Print Assumptions C78_hostname.
Example C78_hostname_ex : Forall scalar (lit "c.d:8080/e") /\ steps_ok (lit "c.d:8080/e") 200 400 /\
  host_setter (parse_host same 200) false shop (without_newlines (lit "c.d:8080/e")) = Val (Url (lit "http") [] [] (Some (HDomain (lit "c.d"))) (Some 443) [lit "x"] None None false) /\
  host_setter (parse_host same 200) false (Url (lit "ab") [] [] (Some (HDomain (lit "a"))) None [lit "x"] None None false) (without_newlines (lit "/")) =
    Val (Url (lit "ab") [] [] (Some (HOpaque [])) None [lit "x"] None None false).
Proof. split; [fz|]. split; [unfold steps_ok; vm_compute; lia|]. repeat split; vm_compute; reflexivity. Qed.

(** The port: the digits at the front; the empty string takes the port away. *)
Theorem C78_port idna fuel steps u s v : Forall scalar s -> steps_ok s fuel steps ->
  port_setter u s (without_newlines s) = Val v -> set_port_ idna fuel steps u s = Val v.
Proof. exact (port_setter_is idna fuel steps u s v). Qed.
Print Assumptions C78_port.
Example C78_port_ex : Forall scalar (lit "90x1") /\ steps_ok (lit "90x1") 200 400 /\
  port_setter shop (lit "90x1") (without_newlines (lit "90x1")) = Val (Url (lit "http") [] [] (Some (HDomain (lit "a.b"))) (Some 90) [lit "x"] None None false) /\
  port_setter shop [] [] = Val (Url (lit "http") [] [] (Some (HDomain (lit "a.b"))) None [lit "x"] None None false) /\
  port_setter shop [0xA] (without_newlines [0xA]) = Val shop.
Proof. split; [fz|]. split; [unfold steps_ok; vm_compute; lia|]. repeat split; vm_compute; reflexivity. Qed.

(** The host and host name setters are described for every string, when the host parser says something of every host and the URL is no file. *)
Theorem C78_defined host_of ports u t : (forall h o, exists hh, host_of h o = Val hh) -> scheme u <> lit "file" -> exists v, host_setter host_of ports u t = Val v.
Proof.
  intros D Nf. unfold host_setter. destruct (cannot_be_base u); [eauto|]. unfold eqs. destruct (list_eq_dec _ _ _); [congruence|].
  assert (P : forall h k, exists v, put_host host_of h u k = Val v) by (intros h k; unfold put_host; destruct (D h (negb (special_of (scheme u)))) as [hh ->]; cbn [obind]; destruct hh; eauto).
  unfold host_at. destruct (host_cut _ _ _) as [h rest]. destruct rest as [|c r].
  - destruct h; [destruct (_ || _)|]; eauto.
  - destruct (c =? 0x3A); destruct h; eauto. destruct (_ || _); eauto.
Qed.
Print Assumptions C78_defined.
Example C78_defined_ex : (forall h o, exists hh, (fun (h : list Z) (o : bool) => @Val host (HDomain h)) h o = Val hh) /\ scheme shop <> lit "file" /\
  host_setter (fun h o => Val (HDomain h)) true shop (lit "c:1") = Val (Url (lit "http") [] [] (Some (HDomain (lit "c"))) (Some 1) [lit "x"] None None false).
Proof. split; [eauto|]. split; [vm_compute; discriminate|]. vm_compute. reflexivity. Qed.
