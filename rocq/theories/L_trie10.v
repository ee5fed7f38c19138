(** Trie images and atoms. *)
From Coq Require Import ZArith List Bool Lia Sorting.Sorted.
From Verif Require Import M_serialize L_serialize M_trie L_trie L_trie2 L_trie3 L_trie4 L_trie5 L_trie6 L_trie7 L_trie8 L_trie9.
Import ListNotations.
Open Scope Z_scope.

(** ** Images *)
Definition is32 (x : Z) : Prop := - 2 ^ 31 <= x < 2 ^ 31.
Definition node32 (n : Z * Z) : Prop := is32 (fst n) /\ is32 (snd n).

Lemma int32_back x : is32 x -> int32 (x mod 2 ^ 32) = x.
Proof.
  unfold is32, int32. intros H. rewrite Z.mod_mod by lia. destruct (Z.ltb_spec x 0).
  - replace (x mod 2 ^ 32) with (x + 2 ^ 32) by (apply (Z.mod_unique_pos x (2 ^ 32) (-1)); lia). destruct (Z.ltb_spec (x + 2 ^ 32) (2 ^ 31)); lia.
  - rewrite Z.mod_small by lia. destruct (Z.ltb_spec x (2 ^ 31)); lia.
Qed.

Lemma assign32_loop h : Forall node32 h -> forall fuel, (length (ivalues h) < fuel)%nat -> th_assign_loop fuel 1 32 (ivalues h) = Some h.
Proof.
  induction 1 as [|[b k] h [N1 N2] _ IH]; intros fuel Hf; (destruct fuel as [|f]; [cbn in Hf; lia|]); [easy|].
  change (ivalues ((b, k) :: h)) with ((b mod 2 ^ 32) :: (k mod 2 ^ 32) :: ivalues h) in *. cbn [th_assign_loop Nat.eqb]. cbn [length] in Hf. rewrite IH by lia. now rewrite !int32_back.
Qed.
Lemma assign32_ok h : Forall node32 h -> th_assign 1 32 (ivalues h) = Some h.
Proof. intros H. unfold th_assign. apply assign32_loop; [easy|lia]. Qed.

Lemma gather_deser n : forall acc input, gather n 8 acc input = deserialize_loop 4 n acc input.
Proof. induction n as [|n IH]; intros acc [|x r]; try easy. cbn [gather deserialize_loop]. now rewrite IH. Qed.
Lemma gather4 x rest : gather 4 8 0 (serialize 4 x ++ rest) = (x mod 2 ^ 32, rest).
Proof. rewrite gather_deser. exact (deserialize_serialize 4 x rest). Qed.
Lemma image_len h : length (concat (map (serialize 4) (ivalues h))) = (8 * length h)%nat.
Proof. induction h as [|[b k] h IH]; [easy|]. change (ivalues ((b, k) :: h)) with ((b mod 2 ^ 32) :: (k mod 2 ^ 32) :: ivalues h). cbn [map concat]. rewrite !app_length, !serialize_length, IH. cbn. lia. Qed.
Lemma assign8_loop h : Forall node32 h -> forall fuel, (length h < fuel)%nat -> th_assign_loop fuel 4 8 (concat (map (serialize 4) (ivalues h))) = Some h.
Proof.
  induction 1 as [|[b k] h [N1 N2] _ IH]; intros fuel Hf; (destruct fuel as [|f]; [cbn in Hf; lia|]); [easy|].
  change (ivalues ((b, k) :: h)) with ((b mod 2 ^ 32) :: (k mod 2 ^ 32) :: ivalues h). cbn [map concat]. cbn [length] in Hf. cbn [th_assign_loop Nat.eqb].
  assert (Ne : exists c r, serialize 4 (b mod 2 ^ 32) ++ serialize 4 (k mod 2 ^ 32) ++ concat (map (serialize 4) (ivalues h)) = c :: r) by (eexists; eexists; reflexivity).
  destruct Ne as (c & r & Ne). rewrite Ne at 1. rewrite gather4. rewrite gather4. rewrite IH by lia. rewrite !Z.mod_mod by lia. now rewrite !int32_back.
Qed.
Lemma assign8_ok h : Forall node32 h -> th_assign 4 8 (concat (map (serialize 4) (ivalues h))) = Some h.
Proof. intros H. unfold th_assign. apply assign8_loop; [easy|rewrite image_len; lia]. Qed.

Lemma read_loop_ok h : Forall node32 h -> forall fuel n, (length h <= fuel)%nat -> limit h <= n ->
  th_read_loop fuel n (concat (map (serialize 4) (ivalues h))) = Some (h, []).
Proof.
  induction 1 as [|[b k] h [N1 N2] _ IH]; intros fuel n Hf Hn; [now destruct fuel|].
  change (ivalues ((b, k) :: h)) with ((b mod 2 ^ 32) :: (k mod 2 ^ 32) :: ivalues h). cbn [map concat]. rewrite limit_length in Hn. cbn [length] in Hf, Hn. destruct fuel as [|f]; [lia|].
  assert (Ne : exists c r, serialize 4 (b mod 2 ^ 32) ++ serialize 4 (k mod 2 ^ 32) ++ concat (map (serialize 4) (ivalues h)) = c :: r) by (eexists; eexists; reflexivity).
  destruct Ne as (c & r & Ne). cbn [th_read_loop]. rewrite Ne at 1. rewrite (proj2 (Z.ltb_lt 0 n)) by lia.
  assert (D : forall x rest, is32 x -> deserialize_signed 4 (serialize 4 (x mod 2 ^ 32) ++ rest) = (x, rest)).
  { intros x rest X. unfold deserialize_signed. rewrite deserialize_serialize. f_equal. change (modulus 4) with (2 ^ 32). unfold to_signed. change (modulus 4) with (2 ^ 32).
    pose proof (int32_back x X) as I. unfold int32 in I. rewrite !Z.mod_mod in * by lia. destruct (Z.ltb_spec (x mod 2 ^ 32) (2 ^ 31)), (Z.ltb_spec (2 * (x mod 2 ^ 32)) (2 ^ 32)); lia. }
  rewrite D by easy. rewrite D by easy. rewrite IH; [easy|lia|rewrite limit_length; lia].
Qed.
Lemma read_ok h : Forall node32 h -> limit h < 2 ^ 61 -> th_read (th_write h) = Some (h, []).
Proof.
  intros H L. unfold th_read, th_write. rewrite deserialize_serialize. change (modulus 8) with (2 ^ 64). rewrite limit_length in *. rewrite Z.mod_small by lia.
  apply read_loop_ok; [easy| |rewrite limit_length; lia]. rewrite app_length, serialize_length, image_len. lia.
Qed.

(** ** Atoms *)
Lemma atom_find h fl M k v : StRep h fl M -> Forall byte k -> get M k = Some v ->
  exists idx id, st_find h k = Some idx /\ atom_of h k = Some id /\ walk h k = Some idx /\ walk h (k ++ [256]) = Some id /\ 2 <= id /\ atom_at_id h id = Some idx /\ it_string h idx = Some k.
Proof.
  intros R Fk G. pose proof (sr_hi _ _ _ R) as H. destruct (st_find_ok h fl M k R Fk) as (idx & E & X). rewrite G in X. destruct X as [W I2].
  destruct (st_value_ok h fl M k v idx R G W) as (t & Et & T & B & NS). exists idx, t. split; [easy|].
  pose proof (walk_alloc _ _ H _ _ W) as Ai. pose proof (alloc_inb _ _ _ (hi_fl _ _ H) Ai) as Ii. pose proof (walk_alloc _ _ H _ _ T) as At. pose proof (alloc_inb _ _ _ (hi_fl _ _ H) At) as It.
  assert (T' := T). rewrite walk_snoc, W in T'. apply step_some in T' as (T1 & T2 & T3 & T4). unfold inb in *.
  split; [|split; [easy|split; [easy|split; [lia|split]]]].
  - unfold atom_of. rewrite E. unfold atom_id. destruct (Z.eqb_spec idx 0); [lia|]. rewrite g_base_ok by easy. unfold null_value. rewrite <- T3.
    rewrite (proj2 (Z.ltb_lt 1 t)), (proj2 (Z.ltb_lt t (limit h))) by lia. cbn [andb]. rewrite g_check_ok by easy. rewrite T4, Z.eqb_refl. easy.
  - unfold atom_at_id. rewrite g_check_ok by easy. rewrite T4. rewrite (proj2 (Z.ltb_lt 1 idx)), (proj2 (Z.ltb_lt idx (limit h))) by lia. cbn [andb]. rewrite g_base_ok by easy. unfold null_value. rewrite <- T3, Z.eqb_refl. easy.
  - now apply (it_string_ok h fl).
Qed.
Lemma atom_absent h fl M k : StRep h fl M -> Forall byte k -> get M k = None -> atom_of h k = Some 0.
Proof. intros R Fk G. destruct (st_find_ok h fl M k R Fk) as (idx & E & X). rewrite G in X. subst idx. unfold atom_of. now rewrite E. Qed.

Lemma atom_insert_ok h fl M k : StRep h fl M -> Forall byte k -> limit h + 257 * (Z.of_nat (length k) + 1) <= 2 ^ 31 ->
  exists h' fl' idx id, atom_insert h k = Some (h', idx) /\ limit h' <= limit h + 257 * (Z.of_nat (length k) + 1) /\
    (k = [] -> h' = h /\ fl' = fl /\ idx = 0) /\
    (k <> [] -> StRep h' fl' (upd k id M) /\ atom_of h' k = Some id /\ st_find h' k = Some idx /\ 2 <= id).
Proof.
  intros R Fk Hl. unfold atom_insert. destruct (st_insert_ok h fl M k 0 R Fk) as (h1 & fl1 & it & E & R1 & L1 & X1 & X2); [lia|]. rewrite E. destruct k as [|c k'] eqn:Ek.
  - rewrite X1 by easy. cbn [st_insert] in E. change (0 <=? 2147483647) with true in E. cbn match in E. injection E as <- _. cbn. exists h, fl, 0, 0. split; [easy|]. split; [lia|]. split; easy.
  - rewrite <- Ek in *. assert (Nk : k <> []) by congruence. destruct (X2 Nk) as [W I2]. rewrite (st_bool_ok h1 fl1 (ins k 0 M) k it R1 Fk W).
    assert (G : exists v, get (ins k 0 M) k = Some v). { unfold ins. rewrite Ek. destruct (get M (c :: k')) eqn:G; [eauto|]. cbn [get]. rewrite eqw_refl. eauto. }
    destruct G as [v G]. assert (Hh : has (ins k 0 M) k = true) by (apply has_get; eauto). rewrite Hh.
    destruct (st_value_ok h1 fl1 (ins k 0 M) k v it R1 G W) as (t & Et & T & _). pose proof (walk_alloc _ _ (sr_hi _ _ _ R1) _ _ T) as At. pose proof (alloc_inb _ _ _ (hi_fl _ _ (sr_hi _ _ _ R1)) At) as It. unfold inb in It.
    destruct (st_set_node h1 fl1 (ins k 0 M) k t v it R1 Fk G W) as (t' & h' & E1 & E2 & R' & L'); [lia|]. assert (t' = t) by congruence. subst t'. rewrite Et, E2. exists h', fl1, it, t. split; [easy|]. split; [lia|].
    split; [easy|]. intros _. assert (U : upd k t (ins k 0 M) = upd k t M). { unfold ins. rewrite Ek. destruct (get M (c :: k')) eqn:G'; [easy|]. now apply upd_cons. }
    rewrite U in R'. split; [easy|]. destruct (atom_find h' fl1 (upd k t M) k t R' Fk) as (i2 & id2 & F1 & F2 & F3 & F4 & F5 & _); [now rewrite get_upd, eqw_refl|].
    assert (Wk : forall u, walk h' u = walk h1 u).
    { unfold proxy_set in E2. destruct (Z.ltb_spec t 0); [easy|]. destruct (st_value_ok h1 fl1 (ins k 0 M) k v it R1 G W) as (t'' & Et'' & T'' & B & NS). assert (t'' = t) by congruence. subst t''.
      destruct (setB_obs h1 fl1 _ _ (- t) (sr_hi _ _ _ R1) T NS) as (E3 & H3 & W3 & O3); [lia|]. rewrite E3 in E2. injection E2 as <-. exact W3. }
    rewrite Wk in F3, F4. assert (i2 = it) by congruence. assert (id2 = t) by congruence. subst. easy.
Qed.

Lemma atom_erase_ok h fl M k v : StRep h fl M -> Forall byte k -> get M k = Some v ->
  exists id h' fl', atom_of h k = Some id /\ atom_erase h id = Some h' /\ StRep h' fl' (del k M) /\ limit h' <= limit h.
Proof.
  intros R Fk G. destruct (atom_find h fl M k v R Fk G) as (idx & id & F1 & F2 & F3 & F4 & F5 & F6 & F7). destruct (st_erase_ok h fl M k R Fk) as (h' & fl' & E & R' & L). exists id, h', fl'.
  split; [easy|]. split; [|easy]. unfold atom_erase. destruct (Z.eqb_spec id 0); [lia|]. rewrite F6. unfold st_erase in E. now rewrite F1 in E.
Qed.
