(** C07, C08, C09: UTF conversions. Theorems only; proofs in L_unicode. *)
From Coq Require Import ZArith List Lia.
From Verif Require Import M_unicode L_unicode.
Import ListNotations.
Open Scope Z_scope.

(** C07: the bytes written are those of the Unicode standard ([utf8_spec], by division). *)
Theorem C07_utf8_write : forall cp, 0 <= cp < 0x200000 -> utf8_to_string cp = Some (utf8_spec cp).
Proof. exact utf8_to_string_spec. Qed.
Print Assumptions C07_utf8_write.

Theorem C07_utf8_roundtrip : forall cp rest, 0 <= cp < 0x200000 ->
  exists u, utf8_to_string cp = Some u /\ utf8_to_code_point (u ++ rest) = Some (cp, rest) /\
    (1 <= length u <= 4)%nat /\ Forall (fun b => 0 <= b < 256) u.
Proof. exact utf8_roundtrip. Qed.
Print Assumptions C07_utf8_roundtrip.

Theorem C07_utf8_prefix_free : forall a b ua ub ra rb, 0 <= a < 0x200000 -> 0 <= b < 0x200000 ->
  utf8_to_string a = Some ua -> utf8_to_string b = Some ub -> ua ++ ra = ub ++ rb ->
  a = b /\ ra = rb.
Proof. exact utf8_prefix_free. Qed.
Print Assumptions C07_utf8_prefix_free.

Example C07_ex : utf8_to_string 0x1F600 = Some [0xF0; 0x9F; 0x98; 0x80] /\
  utf8_to_code_point [0xF0; 0x9F; 0x98; 0x80; 0x41] = Some (0x1F600, [0x41]).
Proof. vm_compute. auto. Qed.

(** C08 *)
Theorem C08_utf16_write : forall cp, 0 <= cp <= 0x10FFFF -> utf16_to_string cp = Some (utf16_spec cp).
Proof. exact utf16_to_string_spec. Qed.
Print Assumptions C08_utf16_write.

Theorem C08_utf16_roundtrip : forall cp rest, scalar cp ->
  exists u, utf16_to_string cp = Some u /\ utf16_to_code_point (u ++ rest) = Some (cp, rest) /\
    (1 <= length u <= 2)%nat /\ Forall (fun b => 0 <= b < 65536) u.
Proof. exact utf16_roundtrip. Qed.
Print Assumptions C08_utf16_roundtrip.

Example C08_ex : scalar 0x1F600 /\ utf16_to_string 0x1F600 = Some [0xD83D; 0xDE00] /\
  utf16_to_code_point [0xD83D; 0xDE00; 0xD800] = Some (0x1F600, [0xD800]).
Proof. split; [unfold scalar; lia|]. vm_compute. auto. Qed.

(** C09: [is_utf C] says C is one of utf8, utf16, utf32; [enc C s] is the string s in that form. *)
Theorem C09_cast_lossless : forall C D s, is_utf C -> is_utf D -> Forall scalar s ->
  exists u v, enc C s = Some u /\ enc D s = Some v /\
    encoding_cast C D u = Some v /\ encoding_cast D C v = Some u.
Proof. exact cast_scalar. Qed.
Print Assumptions C09_cast_lossless.

Theorem C09_cast_concat : forall C D s t u v, is_utf C -> is_utf D -> Forall scalar s -> Forall scalar t ->
  enc C s = Some u -> enc C t = Some v ->
  exists a b, encoding_cast C D u = Some a /\ encoding_cast C D v = Some b /\
    encoding_cast C D (u ++ v) = Some (a ++ b).
Proof. exact cast_app. Qed.
Print Assumptions C09_cast_concat.

Example C09_ex : Forall scalar [0x41; 0xE9; 0x20AC; 0x1F600] /\
  encoding_cast utf8 utf16 [0x41; 0xC3; 0xA9; 0xE2; 0x82; 0xAC; 0xF0; 0x9F; 0x98; 0x80]
    = Some [0x41; 0xE9; 0x20AC; 0xD83D; 0xDE00].
Proof. split; [repeat constructor; unfold scalar; lia|vm_compute; reflexivity]. Qed.
