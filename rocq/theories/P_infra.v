(** C10, C11, C12, C13: string functions of the Infra standard. Theorems only; proofs in L_infra.
    Throughout, [enc C s = Some u] says: [u] is the code point string [s] stored in the form C
    (one of UTF-8, UTF-16, UTF-32). [None] as a result is undefined behaviour or a failed assert. *)
From Coq Require Import ZArith List Lia.
From Verif Require Import M_unicode L_unicode M_infra L_infra.
Import ListNotations.
Open Scope Z_scope.

(** C10. [nl_spec] is the documented result. The function is right when every code point fits in one
    unit of the output and the input does not end with CR; a final CR is dropped instead of becoming LF. *)
Theorem C10_normalize_newlines : forall C D s u, is_utf C -> Forall scalar s -> enc C s = Some u ->
  Forall (fun c => c < c_unit D) s ->
  exists v, normalize_newlines C D u = Some v /\
    ((~ exists r, s = r ++ [0xD]) -> v = nl_spec s) /\
    ((exists r, s = r ++ [0xD]) -> nl_spec s = v ++ [0xA]).
Proof. exact normalize_utf. Qed.
Print Assumptions C10_normalize_newlines.

Theorem C10_spec_no_cr : forall s, ~ In 0xD (nl_spec s).
Proof. exact nl_spec_no_cr. Qed.
Print Assumptions C10_spec_no_cr.

(** "a CR" becomes "a": the line break at the end is lost. *)
Theorem C10_trailing_cr_refuted : exists s u, Forall scalar s /\ enc utf8 s = Some u /\
  normalize_newlines utf8 utf8 u <> Some (nl_spec s).
Proof.
  exists [0x61; 0xD], [0x61; 0xD]. split; [repeat constructor; unfold scalar; lia|].
  split; [reflexivity|]. vm_compute. discriminate.
Qed.
Print Assumptions C10_trailing_cr_refuted.

(** U+3042 written to a UTF-8 output is cut to the single byte 0x42. *)
Theorem C10_non_ascii_refuted : exists s u, Forall scalar s /\ enc utf8 s = Some u /\ ~ In 0xD s /\ ~ In 0xA s /\
  normalize_newlines utf8 utf8 u = Some [0x42].
Proof.
  exists [0x3042], [0xE3; 0x81; 0x82]. split; [repeat constructor; unfold scalar; lia|].
  split; [reflexivity|]. split; [cbn; lia|]. split; [cbn; lia|]. reflexivity.
Qed.
Print Assumptions C10_non_ascii_refuted.

Theorem C10_strip_newlines : forall C D s u, Forall (ok_cp C) s -> enc C s = Some u ->
  strip_newlines C D u = enc D (filter (fun c => negb (orb (c =? 0xA) (c =? 0xD))) s).
Proof. exact strip_newlines_enc. Qed.
Print Assumptions C10_strip_newlines.

Example C10_ex : nl_spec [0x61; 0xD; 0xA; 0xD; 0x62; 0xD; 0xD; 0xA; 0x63] = [0x61; 0xA; 0xA; 0x62; 0xA; 0xA; 0x63] /\
  normalize_newlines utf8 utf8 [0x61; 0xD; 0xA; 0xD; 0x62; 0xD; 0xD; 0xA; 0x63] =
    Some [0x61; 0xA; 0xA; 0x62; 0xA; 0xA; 0x63].
Proof. split; reflexivity. Qed.

(** C11. [Trimmed s m]: m is what lies between the outermost non-whitespace code points of s. *)
Theorem C11_strip : forall C D s u, is_utf C -> Forall scalar s -> enc C s = Some u ->
  exists m, Trimmed s m /\ (forall m', Trimmed s m' -> m' = m) /\
    (s = [] \/ ~ Forall ws s -> strip_ws C D u = enc D m) /\
    (s <> [] -> Forall ws s -> strip_ws C D u = None).
Proof. exact strip_utf. Qed.
Print Assumptions C11_strip.

Theorem C11_strip_idempotent : forall s m, Trimmed s m -> Trimmed m m.
Proof. exact Trimmed_idem. Qed.
Print Assumptions C11_strip_idempotent.

(** A single space: undefined behaviour (the loop starts behind its end). *)
Theorem C11_all_whitespace_refuted : exists s u, Forall scalar s /\ enc utf8 s = Some u /\ strip_ws utf8 utf8 u = None.
Proof.
  exists [0x20], [0x20]. split; [repeat constructor; unfold scalar; lia|]. split; reflexivity.
Qed.
Print Assumptions C11_all_whitespace_refuted.

(** [Words s l]: l is the list of maximal whitespace-free substrings. *)
Theorem C11_collapse : forall C D s u, is_utf C -> Forall scalar s -> enc C s = Some u ->
  exists l, Words s l /\ (forall l', Words s l' -> l' = l) /\
    strip_and_collapse C D u = enc D (join 0x20 l) /\
    Words (join 0x20 l) l.
Proof. exact collapse_utf. Qed.
Print Assumptions C11_collapse.

Example C11_ex : strip_ws utf8 utf8 [0x20; 0x61; 0x20; 0x62; 0x9] = Some [0x61; 0x20; 0x62] /\
  strip_and_collapse utf8 utf8 [0x20; 0x61; 0x20; 0x9; 0x62; 0x9] = Some [0x61; 0x20; 0x62].
Proof. split; reflexivity. Qed.

(** C12 *)
Theorem C12_split_whitespace : forall C s u, is_utf C -> Forall scalar s -> enc C s = Some u ->
  exists l, Words s l /\ (forall l', Words s l' -> l' = l) /\ split_on_ws C u = enc_all C l.
Proof. exact split_ws_utf. Qed.
Print Assumptions C12_split_whitespace.

(** The delimiter must occupy one code unit. *)
Theorem C12_strict_split : forall C d s u, is_utf C -> Forall scalar s -> enc C s = Some u -> c_enc C d = Some [d] ->
  exists l, l <> [] /\ Forall (fun p => ~ In d p) l /\ join d l = s /\
    (forall l', l' <> [] -> Forall (fun p => ~ In d p) l' -> join d l' = s -> l' = l) /\
    strictly_split C d u = enc_all C l.
Proof. exact strictly_split_utf. Qed.
Print Assumptions C12_strict_split.

(** [Commas s l]: l are the pieces between commas, a last empty piece not counted (as in the standard). *)
Theorem C12_commas : forall C s u l ms, is_utf C -> Forall scalar s -> enc C s = Some u ->
  Commas s l -> Forall (fun p => p = [] \/ ~ Forall ws p) l -> Forall2 Trimmed l ms ->
  split_on_commas C u = enc_all C ms.
Proof. exact split_commas_utf. Qed.
Print Assumptions C12_commas.

(** "aéb" split on é in UTF-8: only one byte of the delimiter is skipped, the piece "b" is not returned. *)
Theorem C12_wide_delimiter_refuted : exists s u, Forall scalar s /\ enc utf8 s = Some u /\
  join 0xE9 [[0x61]; [0x62]] = s /\ strictly_split utf8 0xE9 u <> Some [[0x61]; [0x62]].
Proof.
  exists [0x61; 0xE9; 0x62], [0x61; 0xC3; 0xA9; 0x62]. split; [repeat constructor; unfold scalar; lia|].
  split; [reflexivity|]. split; [reflexivity|]. vm_compute. discriminate.
Qed.
Print Assumptions C12_wide_delimiter_refuted.

(** "a, ,b" *)
Theorem C12_blank_piece_refuted : exists s u, Forall scalar s /\ enc utf8 s = Some u /\
  Commas s [[0x61]; [0x20]; [0x62]] /\ split_on_commas utf8 u = None.
Proof.
  exists [0x61; 0x2C; 0x20; 0x2C; 0x62], [0x61; 0x2C; 0x20; 0x2C; 0x62].
  split; [repeat constructor; unfold scalar; lia|]. split; [reflexivity|]. split; [|reflexivity].
  apply (Commas_cons [0x61]); [cbn; lia|]. apply (Commas_cons [0x20]); [cbn; lia|].
  apply Commas_last; [discriminate|cbn; lia].
Qed.
Print Assumptions C12_blank_piece_refuted.

Example C12_ex : split_on_ws utf8 [0x20; 0x61; 0x62; 0x20; 0x9; 0xC3; 0xA9] = Some [[0x61; 0x62]; [0xC3; 0xA9]] /\
  strictly_split utf8 0x3B [0x61; 0x3B; 0x3B; 0x62] = Some [[0x61]; []; [0x62]] /\
  split_on_commas utf8 [0x20; 0x61; 0x2C; 0x2C; 0x62; 0x20; 0x2C] = Some [[0x61]; []; [0x62]].
Proof. repeat split. Qed.

(** C13 *)
Theorem C13_case : forall C D s, is_utf C -> is_utf D -> Forall scalar s ->
  exists u, enc C s = Some u /\
    to_ascii_lowercase C D u = enc D (map cp_lower s) /\ to_ascii_uppercase C D u = enc D (map cp_upper s).
Proof. exact case_scalar. Qed.
Print Assumptions C13_case.

Theorem C13_case_changes : forall cp,
  (cp_lower cp <> cp <-> 0x41 <= cp <= 0x5A) /\ (cp_upper cp <> cp <-> 0x61 <= cp <= 0x7A) /\
  (0x41 <= cp <= 0x5A -> cp_lower cp = cp + 0x20) /\ (0x61 <= cp <= 0x7A -> cp_upper cp = cp - 0x20).
Proof. exact case_changes. Qed.
Print Assumptions C13_case_changes.

Theorem C13_case_cancel : forall cp,
  cp_lower (cp_lower cp) = cp_lower cp /\ cp_upper (cp_upper cp) = cp_upper cp /\
  cp_lower (cp_upper cp) = cp_lower cp /\ cp_upper (cp_lower cp) = cp_upper cp.
Proof. exact case_idem. Qed.
Print Assumptions C13_case_cancel.

Theorem C13_match : forall C1 C2 s t, is_utf C1 -> is_utf C2 -> Forall scalar s -> Forall scalar t ->
  exists u v b, enc C1 s = Some u /\ enc C2 t = Some v /\
    is_ascii_case_insensitive_match C1 C2 u v = Some b /\ (b = true <-> map cp_lower s = map cp_lower t).
Proof. exact ci_match_scalar. Qed.
Print Assumptions C13_match.

Theorem C13_isomorphic : forall s, Forall (fun b => 0 <= b < 256) s ->
  isomorphic_encode (isomorphic_decode s) = Some s /\ isomorphic_decode s = s.
Proof. exact isomorphic_roundtrip. Qed.
Print Assumptions C13_isomorphic.

(** The byte functions. *)
Theorem C13_bytes : forall s t, Forall (fun b => 0 <= b < 256) s -> Forall (fun b => 0 <= b < 256) t ->
  to_byte_lowercase s = map cp_lower s /\ to_byte_uppercase s = map cp_upper s /\
  (is_byte_case_insensitive_match s t = true <-> map cp_lower s = map cp_lower t).
Proof. exact byte_case. Qed.
Print Assumptions C13_bytes.

Example C13_bytes_ex : to_byte_uppercase [0x61; 0xE9; 0x7B] = [0x41; 0xE9; 0x7B] /\
  to_byte_lowercase [0x41; 0xC9; 0x5B] = [0x61; 0xC9; 0x5B] /\ is_byte_case_insensitive_match [0x61] [0x41] = true.
Proof. repeat (match goal with |- _ /\ _ => split end); vm_compute; reflexivity. Qed.

Example C13_ex : to_ascii_lowercase utf8 utf16 [0x41; 0xC3; 0x89; 0x5B] = Some [0x61; 0xC9; 0x5B] /\
  is_ascii_case_insensitive_match utf8 utf16 [0x41; 0xC3; 0x89] [0x61; 0xC9] = Some true.
Proof. split; reflexivity. Qed.
