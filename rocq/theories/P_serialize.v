(** C01, C02: integer serialisation. Theorems only; proofs in L_serialize. *)
From Coq Require Import ZArith List Lia.
From Verif Require Import M_serialize L_serialize.
Import ListNotations.
Open Scope Z_scope.

(** C01: the bytes written. [be_value] reads a byte list as a base-256 number, most significant first. *)
Theorem C01_serialize_bytes : forall (w : nat) (x : Z),
  length (serialize w x) = w /\
  Forall (fun b => 0 <= b < 256) (serialize w x) /\
  be_value (serialize w x) = x mod 2 ^ (8 * Z.of_nat w).
Proof. exact (fun w x => conj (serialize_length w x) (conj (serialize_bytes w x) (serialize_value w x))). Qed.
Print Assumptions C01_serialize_bytes.

Example C01_serialize_bytes_ex : serialize 4 0x01234567 = [1; 35; 69; 103] /\ serialize 2 (-2) = [255; 254].
Proof. vm_compute. auto. Qed.

(** C01: reading back, unsigned and signed, with arbitrary data behind. *)
Theorem C01_roundtrip_unsigned : forall (w : nat) (x : Z) (rest : list Z),
  0 <= x < 2 ^ (8 * Z.of_nat w) ->
  deserialize w (serialize w x ++ rest) = (x, rest).
Proof.
  exact (fun w x rest H =>
    eq_trans (deserialize_serialize w x rest) (f_equal (fun y => (y, rest)) (Z.mod_small _ _ H))).
Qed.
Print Assumptions C01_roundtrip_unsigned.

Theorem C01_roundtrip_signed : forall (w : nat) (x : Z) (rest : list Z),
  - 2 ^ (8 * Z.of_nat w) <= 2 * x < 2 ^ (8 * Z.of_nat w) ->
  deserialize_signed w (serialize w x ++ rest) = (x, rest).
Proof. exact deserialize_signed_serialize. Qed.
Print Assumptions C01_roundtrip_signed.

Example C01_roundtrip_ex :
  deserialize 8 (serialize 8 0xFEDCBA9876543210 ++ [7; 8]) = (0xFEDCBA9876543210, [7; 8]) /\
  deserialize_signed 2 (serialize 2 (-32768) ++ [1]) = (-32768, [1]) /\
  - 2 ^ (8 * Z.of_nat 2) <= 2 * (-32768) < 2 ^ (8 * Z.of_nat 2).
Proof. vm_compute. repeat split; discriminate. Qed.

(** C01: the other direction, so the two functions are inverse bijections. *)
Theorem C01_roundtrip_bytes : forall (w : nat) (l rest : list Z),
  Forall (fun b => 0 <= b < 256) l -> length l = w ->
  serialize w (fst (deserialize w (l ++ rest))) = l.
Proof. exact serialize_deserialize. Qed.
Print Assumptions C01_roundtrip_bytes.

(** C01: an input shorter than the type is consumed entirely. *)
Theorem C01_short_input : forall (w : nat) (l : list Z),
  Forall (fun b => 0 <= b < 256) l -> (length l <= w)%nat ->
  deserialize w l = (be_value l, []).
Proof. exact deserialize_short. Qed.
Print Assumptions C01_short_input.

Example C01_short_input_ex : deserialize 4 [1; 2] = (258, []).
Proof. reflexivity. Qed.

(** C02: positional overload. *)
Theorem C02_positional : forall (w : nat) (x : Z) (k : nat),
  serialize_at w x k = nth_error (serialize w x) k.
Proof. exact serialize_at_nth. Qed.
Print Assumptions C02_positional.

Example C02_positional_ex : serialize_at 4 0x01234567 2 = Some 0x45.
Proof. reflexivity. Qed.

(** C02: walking a container through the serialising iterator (element widths 1, 2, 4, 8 divide 2^32). *)
Theorem C02_serialize_iterator : forall (w : nat) (v : list Z) (fuel : nat),
  (0 < w)%nat -> (Z.of_nat w | 2 ^ 32) -> (w * length v < fuel)%nat ->
  ser_walk fuel w v ser_begin = Some (Some (concat (map (serialize w) v))).
Proof. exact ser_walk_ok. Qed.
Print Assumptions C02_serialize_iterator.

(** C02: walking the bytes through the deserialising iterator gives the container back. *)
Theorem C02_deserialize_iterator : forall (w : nat) (v : list Z) (fuel : nat),
  (0 < w)%nat -> (length v < fuel)%nat ->
  des_walk fuel w (concat (map (serialize w) v)) = Some (Some (map (fun x => x mod 2 ^ (8 * Z.of_nat w)) v)).
Proof. exact (fun w v fuel Hw => des_walk_ok w v Hw fuel). Qed.
Print Assumptions C02_deserialize_iterator.

Example C02_iterators_ex :
  ser_walk 9 4 [0x1234567; 0x89ABCDEF] ser_begin = Some (Some [0x1; 0x23; 0x45; 0x67; 0x89; 0xAB; 0xCD; 0xEF]) /\
  des_walk 3 4 [0x1; 0x23; 0x45; 0x67; 0x89; 0xAB; 0xCD; 0xEF] = Some (Some [0x1234567; 0x89ABCDEF]).
Proof. vm_compute. auto. Qed.
