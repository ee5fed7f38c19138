(** C16, C17, C18, C19: IPv4 and IPv6 text. Theorems only; proofs in L_ip. *)
From Coq Require Import ZArith List Lia.
From Verif Require Import M_infra L_infra M_percent L_percent M_ip L_ip.
Import ListNotations.
Open Scope Z_scope.

(** C16 *)
Theorem C16_roundtrip : forall n e, 0 <= n < 2 ^ 32 -> parse_ipv4 (serialize_ipv4 n) e = Some (HIpv4 n, e).
Proof. exact ipv4_roundtrip. Qed.
Print Assumptions C16_roundtrip.

Example C16_ex : serialize_ipv4 3232235777 = [0x31; 0x39; 0x32; 0x2E; 0x31; 0x36; 0x38; 0x2E; 0x31; 0x2E; 0x31] /\
  parse_ipv4 [0x31; 0x39; 0x32; 0x2E; 0x31; 0x36; 0x38; 0x2E; 0x31; 0x2E; 0x31] EcNone = Some (HIpv4 3232235777, EcNone).
Proof. split; vm_compute; reflexivity. Qed.

(** C17. [Dig base c d]: character c is the digit d; [value base ds 0]: the number written by the digits ds. *)
Theorem C17_decimal : forall s ds, Forall2 (Dig 10) s ds -> ds <> [] -> (forall r, ds = 0 :: r -> r = []) ->
  value 10 ds 0 < 2 ^ 32 -> parse_ipv4_number s = Some (Some (value 10 ds 0), false).
Proof. exact number_decimal. Qed.
Print Assumptions C17_decimal.

Theorem C17_octal : forall s ds, Forall2 (Dig 8) s ds -> ds <> [] -> value 8 ds 0 < 2 ^ 32 ->
  parse_ipv4_number (0x30 :: s) = Some (Some (value 8 ds 0), true).
Proof. exact number_octal. Qed.
Print Assumptions C17_octal.

Theorem C17_hexadecimal : forall x s ds, x = 0x78 \/ x = 0x58 -> Forall2 (Dig 16) s ds -> ds <> [] ->
  value 16 ds 0 < 2 ^ 32 -> parse_ipv4_number (0x30 :: x :: s) = Some (Some (value 16 ds 0), true).
Proof. exact number_hex. Qed.
Print Assumptions C17_hexadecimal.

Theorem C17_reject_decimal : forall a s c, a <> 0x30 -> In c (a :: s) -> ~ (0x30 <= c <= 0x39) ->
  parse_ipv4_number (a :: s) = Some (None, false).
Proof. exact number_reject_decimal. Qed.
Print Assumptions C17_reject_decimal.

(** '8' is wrongly taken as an octal digit, so it is not covered here. *)
Theorem C17_reject_octal : forall a s c, a <> 0x78 -> a <> 0x58 -> In c (a :: s) -> ~ (0x30 <= c <= 0x38) ->
  parse_ipv4_number (0x30 :: a :: s) = Some (None, true).
Proof. exact number_reject_octal. Qed.
Print Assumptions C17_reject_octal.

Theorem C17_reject_hexadecimal : forall x s c, x = 0x78 \/ x = 0x58 -> In c s ->
  ~ (0x30 <= c <= 0x39) -> ~ (0x41 <= c <= 0x46) -> ~ (0x61 <= c <= 0x66) ->
  parse_ipv4_number (0x30 :: x :: s) = Some (None, true).
Proof. exact number_reject_hex. Qed.
Print Assumptions C17_reject_hexadecimal.

(** "08" reads an uninitialised variable. *)
Theorem C17_octal_8_refuted : exists s, parse_ipv4_number s = None /\ s = [0x30; 0x38].
Proof. exists [0x30; 0x38]. split; vm_compute; reflexivity. Qed.
Print Assumptions C17_octal_8_refuted.

(** "018" has an invalid digit but is accepted, as 1. *)
Theorem C17_octal_digit_refuted : exists s, parse_ipv4_number s = Some (Some 1, true) /\ s = [0x30; 0x31; 0x38].
Proof. exists [0x30; 0x31; 0x38]. split; vm_compute; reflexivity. Qed.
Print Assumptions C17_octal_digit_refuted.

(** "4294967296" (too large) reads an uninitialised variable. *)
Theorem C17_overflow_refuted : exists s, parse_ipv4_number s = None /\
  s = [0x34; 0x32; 0x39; 0x34; 0x39; 0x36; 0x37; 0x32; 0x39; 0x36].
Proof. eexists. split; [|reflexivity]. vm_compute. reflexivity. Qed.
Print Assumptions C17_overflow_refuted.

Example C17_ex : parse_ipv4_number [0x30; 0x78; 0x46; 0x66] = Some (Some 255, true) /\
  Forall2 (Dig 16) [0x46; 0x66] [15; 15] /\ value 16 [15; 15] 0 = 255.
Proof. split; [vm_compute; reflexivity|]. split; [|reflexivity]. repeat constructor; unfold Dig; lia. Qed.

(** C18. Exact condition: the place chosen for "::" is a zero piece; in particular every address with at
    most two separate runs of zero pieces is fine. *)
Theorem C18_roundtrip_exact : forall a e, length a = 8%nat -> Forall (fun p => 0 <= p < 65536) a ->
  (parse_ipv6 (serialize_ipv6 a) e = Some (HIpv6 a, e) <-> index_ok (map (Z.eqb 0) a) = true).
Proof. exact ipv6_roundtrip. Qed.
Print Assumptions C18_roundtrip_exact.

Theorem C18_roundtrip_two_runs : forall a e, length a = 8%nat -> Forall (fun p => 0 <= p < 65536) a ->
  (length (zero_runs (map (Z.eqb 0) a) 0) <= 2)%nat ->
  parse_ipv6 (serialize_ipv6 a) e = Some (HIpv6 a, e).
Proof. exact ipv6_roundtrip_two. Qed.
Print Assumptions C18_roundtrip_two_runs.

(** [carry_free]: no sum of skipped runs beats the best run. *)
Theorem C18_roundtrip_carry_free : forall a e, length a = 8%nat -> Forall (fun p => 0 <= p < 65536) a ->
  carry_free 0 0 (zero_runs (map (Z.eqb 0) a) 0) = true ->
  parse_ipv6 (serialize_ipv6 a) e = Some (HIpv6 a, e).
Proof. exact ipv6_roundtrip_carry. Qed.
Print Assumptions C18_roundtrip_carry_free.

(** 0:0:1:0:2:0:0:3 is written as "0:0:1:0::3" and read back as another address. *)
Theorem C18_roundtrip_refuted : exists a, length a = 8%nat /\ Forall (fun p => 0 <= p < 65536) a /\
  parse_ipv6 (serialize_ipv6 a) EcNone = Some (HIpv6 [0; 0; 1; 0; 0; 0; 0; 3], EcNone) /\
  a = [0; 0; 1; 0; 2; 0; 0; 3].
Proof.
  eexists. split; [|split; [|split; [|reflexivity]]].
  - reflexivity.
  - repeat constructor; lia.
  - vm_compute. reflexivity.
Qed.
Print Assumptions C18_roundtrip_refuted.

(** The text: the first longest run of two or more zero pieces is written "::", other pieces in lower-case hexadecimal. *)
Theorem C18_text : forall a, length a = 8%nat -> carry_free 0 0 (zero_runs (map (Z.eqb 0) a) 0) = true ->
  let z := map (Z.eqb 0) a in
  (forall i, best_run z i -> serialize_ipv6 a = colons (firstn i a) ++ [0x3A; 0x3A] ++ colons (skipn (i + run_at z i) a)) /\
  ((forall j, (j < 8)%nat -> (run_at z j < 2)%nat) -> serialize_ipv6 a = colons a).
Proof. exact serialize_ipv6_text. Qed.
Print Assumptions C18_text.

Example C18_text_ex : carry_free 0 0 (zero_runs (map (Z.eqb 0) [1; 0; 2; 0; 0; 0; 3; 4]) 0) = true /\
  run_at (map (Z.eqb 0) [1; 0; 2; 0; 0; 0; 3; 4]) 3 = 3%nat /\
  serialize_ipv6 [1; 0; 2; 0; 0; 0; 3; 4] = [0x31; 0x3A; 0x30; 0x3A; 0x32; 0x3A; 0x3A; 0x33; 0x3A; 0x34] /\
  serialize_ipv6 [1; 0; 2; 3; 4; 5; 6; 7] = colons [1; 0; 2; 3; 4; 5; 6; 7].
Proof. repeat (match goal with |- _ /\ _ => split end); vm_compute; reflexivity. Qed.

Example C18_ex : (length (zero_runs (map (Z.eqb 0) ([0x2001; 0xDB8; 0; 0; 1; 0; 0; 1])%Z) 0) = 2)%nat /\
  serialize_ipv6 [0x2001; 0xDB8; 0; 0; 1; 0; 0; 1] =
    [0x32; 0x30; 0x30; 0x31; 0x3A; 0x64; 0x62; 0x38; 0x3A; 0x3A; 0x31; 0x3A; 0x30; 0x3A; 0x30; 0x3A; 0x31].
Proof. split; vm_compute; reflexivity. Qed.

(** C19. Embedded IPv4 is undefined behaviour for every address written with six pieces and four bytes. *)
Theorem C19_embedded_undefined : forall ps b1 b2 b3 b4 e, length ps = 6%nat -> Forall (fun p => 0 <= p < 65536) ps ->
  0 <= b1 < 256 -> 0 <= b2 < 256 -> 0 <= b3 < 256 -> 0 <= b4 < 256 ->
  parse_ipv6 (flat_map (fun p => to_chars 16 p ++ [0x3A]) ps ++
              join 0x2E [to_chars 10 b1; to_chars 10 b2; to_chars 10 b3; to_chars 10 b4]) e = None.
Proof. exact embedded_ub. Qed.
Print Assumptions C19_embedded_undefined.

(** "::1.2.3.4" *)
Theorem C19_embedded_refuted : exists s, s = [0x3A; 0x3A; 0x31; 0x2E; 0x32; 0x2E; 0x33; 0x2E; 0x34] /\
  parse_ipv6 s EcNone = None.
Proof. eexists. split; [reflexivity|]. vm_compute. reflexivity. Qed.
Print Assumptions C19_embedded_refuted.

Example C19_ex : parse_ipv6 (flat_map (fun p => to_chars 16 p ++ [0x3A]) [1; 2; 3; 4; 5; 6] ++
  join 0x2E [to_chars 10 127; to_chars 10 0; to_chars 10 0; to_chars 10 1]) EcNone = None.
Proof. vm_compute. reflexivity. Qed.
