(** C14, C15: percent encoding. Theorems only; proofs in L_percent. *)
From Coq Require Import ZArith List Lia.
From Verif Require Import M_infra M_percent L_percent.
Import ListNotations.
Open Scope Z_scope.

(** C14 *)
Theorem C14_encode_byte : forall b, 0 <= b < 256 ->
  percent_encode b = [0x25; hex_char (b / 16); hex_char (b mod 16)].
Proof. exact percent_encode_spec. Qed.
Print Assumptions C14_encode_byte.

Theorem C14_roundtrip : forall set s, set 0x25 = true -> Forall (fun b => 0 <= b < 256) s ->
  percent_decode_bytes (percent_encode_bytes set false s) = Some s.
Proof. exact percent_roundtrip. Qed.
Print Assumptions C14_roundtrip.

Theorem C14_roundtrip_no_percent : forall set s, ~ In 0x25 s -> Forall (fun b => 0 <= b < 256) s ->
  percent_decode_bytes (percent_encode_bytes set false s) = Some s.
Proof. exact percent_roundtrip_no_percent. Qed.
Print Assumptions C14_roundtrip_no_percent.

Theorem C14_injective : forall set s t, set 0x25 = true ->
  Forall (fun b => 0 <= b < 256) s -> Forall (fun b => 0 <= b < 256) t ->
  percent_encode_bytes set false s = percent_encode_bytes set false t -> s = t.
Proof. exact percent_injective. Qed.
Print Assumptions C14_injective.

Theorem C14_characters : forall set s, Forall (fun b => 0 <= b < 256) s ->
  Forall (fun c => set c = false \/ c = 0x25 \/ 0x30 <= c <= 0x39 \/ 0x41 <= c <= 0x46)
    (percent_encode_bytes set false s).
Proof. exact percent_encode_chars. Qed.
Print Assumptions C14_characters.

(** Decoding never fails, whatever the input. *)
Theorem C14_decode_total : forall fuel s, (length s <= fuel)%nat -> exists out, percent_decode fuel s = Some out.
Proof. exact percent_decode_total. Qed.
Print Assumptions C14_decode_total.

Example C14_ex : is_component_percent_encode_set 0x25 = true /\
  percent_encode_bytes is_component_percent_encode_set false [0x61; 0x25; 0x0A; 0xE9] =
    [0x61; 0x25; 0x32; 0x35; 0x25; 0x30; 0x41; 0x25; 0x45; 0x39] /\
  percent_decode_bytes [0x61; 0x25; 0x32; 0x35; 0x25; 0x30; 0x41; 0x25; 0x45; 0x39; 0x25; 0x7A; 0x31]
    = Some [0x61; 0x25; 0x0A; 0xE9; 0x25; 0x7A; 0x31].
Proof. repeat split. Qed.

(** C15. [S_…] are the conditions written in the URL standard. *)
Theorem C15_sets : forall c, 0 <= c ->
  (is_c0_control_percent_encode_set c = true <-> S_c0 c) /\
  (is_fragment_percent_encode_set c = true <-> S_fragment c) /\
  (is_query_percent_encode_set c = true <-> S_query c) /\
  (is_special_query_percent_encode_set c = true <-> S_special_query c) /\
  (is_path_percent_encode_set c = true <-> S_path c) /\
  (is_userinfo_percent_encode_set c = true <-> S_userinfo c) /\
  (is_component_percent_encode_set c = true <-> S_component c) /\
  (is_form_percent_encode_set c = true <-> S_form c).
Proof. exact sets_match. Qed.
Print Assumptions C15_sets.

Theorem C15_nested : forall c,
  (is_c0_control_percent_encode_set c = true -> is_fragment_percent_encode_set c = true /\ is_query_percent_encode_set c = true) /\
  (is_fragment_percent_encode_set c = true -> is_path_percent_encode_set c = true) /\
  (is_query_percent_encode_set c = true -> is_special_query_percent_encode_set c = true /\ is_path_percent_encode_set c = true) /\
  (is_path_percent_encode_set c = true -> is_userinfo_percent_encode_set c = true) /\
  (is_userinfo_percent_encode_set c = true -> is_component_percent_encode_set c = true) /\
  (is_component_percent_encode_set c = true -> is_form_percent_encode_set c = true).
Proof. exact sets_nested. Qed.
Print Assumptions C15_nested.

Example C15_ex : is_userinfo_percent_encode_set 0x40 = true /\ is_path_percent_encode_set 0x40 = false /\
  is_form_percent_encode_set 0x2A = false.
Proof. repeat split. Qed.
