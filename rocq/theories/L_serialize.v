(** Lemmas for M_serialize. *)
From Coq Require Import ZArith List Lia Bool.
From Verif Require Import M_serialize.
Import ListNotations.
Open Scope Z_scope.

(** Independent reading of a big-endian byte string. *)
Definition be_value (l : list Z) : Z := fold_left (fun a b => a * 256 + b) l 0.
Definition is_byte (b : Z) : Prop := 0 <= b < 256.

Lemma modulus_pos w : 0 < modulus w.
Proof. unfold modulus. apply Z.pow_pos_nonneg; lia. Qed.

Lemma modulus_256 w : modulus w = 256 ^ Z.of_nat w.
Proof. unfold modulus. rewrite Z.pow_mul_r by lia. reflexivity. Qed.

Lemma modulus_S w : modulus (S w) = 256 * modulus w.
Proof. rewrite !modulus_256. rewrite Nat2Z.inj_succ, Z.pow_succ_r by lia. reflexivity. Qed.

Lemma shift_land n k : Z.land (Z.shiftr n (Z.of_nat (k * 8))) 255 = (n / modulus k) mod 256.
Proof.
  rewrite Z.shiftr_div_pow2 by lia.
  change 255 with (Z.ones 8). rewrite Z.land_ones by lia.
  unfold modulus. replace (Z.of_nat (k * 8)) with (8 * Z.of_nat k) by lia. reflexivity.
Qed.

Lemma serialize_byte_eq w n i : serialize_byte w n i = (n / modulus (w - i - 1)) mod 256.
Proof. apply shift_land. Qed.

Lemma div_modulus_S n k : n / modulus (S k) = n / modulus k / 256.
Proof.
  rewrite modulus_S, Z.mul_comm. pose proof (modulus_pos k).
  rewrite Z.div_div by lia. reflexivity.
Qed.

(** The k least significant bytes, read after the prefix n / 256^k, give n. *)
Lemma fold_digits w n k : (k <= w)%nat ->
  fold_left (fun a b => a * 256 + b) (map (serialize_byte w n) (seq (w - k) k)) (n / modulus k) = n.
Proof.
  induction k as [|k IH]; intros Hk.
  - cbn. unfold modulus. cbn. apply Z.div_1_r.
  - cbn [seq map fold_left]. rewrite serialize_byte_eq.
    replace (w - (w - S k) - 1)%nat with k by lia.
    replace (S (w - S k)) with (w - k)%nat by lia.
    rewrite div_modulus_S.
    replace (n / modulus k / 256 * 256 + (n / modulus k) mod 256) with (n / modulus k)
      by (rewrite (Z.div_mod (n / modulus k) 256) at 1; lia).
    apply IH. lia.
Qed.

Lemma serialize_value w x : be_value (serialize w x) = x mod modulus w.
Proof.
  unfold be_value, serialize, to_unsigned.
  pose proof (fold_digits w (x mod modulus w) w (le_n w)) as H.
  rewrite Nat.sub_diag in H. rewrite Z.div_small in H.
  - exact H.
  - apply Z.mod_pos_bound, modulus_pos.
Qed.

Lemma serialize_length w x : length (serialize w x) = w.
Proof. unfold serialize. now rewrite map_length, seq_length. Qed.

Lemma serialize_bytes w x : Forall is_byte (serialize w x).
Proof.
  apply Forall_forall. intros b Hb. unfold serialize in Hb.
  apply in_map_iff in Hb. destruct Hb as (i & <- & _).
  rewrite serialize_byte_eq. unfold is_byte. apply Z.mod_pos_bound. lia.
Qed.

(** be_value is injective on byte strings of equal length: determines [serialize] uniquely. *)
Lemma be_value_bound_gen l : Forall is_byte l -> forall a, 0 <= a ->
  a * modulus (length l) <= fold_left (fun a b => a * 256 + b) l a < (a + 1) * modulus (length l).
Proof.
  induction 1 as [|b l Hb Hl IH]; intros a Ha.
  - cbn. unfold modulus. cbn. lia.
  - cbn [fold_left length]. rewrite modulus_S. unfold is_byte in Hb.
    specialize (IH (a * 256 + b) ltac:(lia)). pose proof (modulus_pos (length l)). nia.
Qed.

Lemma be_value_bound l : Forall is_byte l -> 0 <= be_value l < modulus (length l).
Proof. intros H. pose proof (be_value_bound_gen l H 0 ltac:(lia)). unfold be_value. lia. Qed.

Lemma fold_acc l : forall a,
  fold_left (fun a b => a * 256 + b) l a = a * modulus (length l) + be_value l.
Proof.
  unfold be_value. induction l as [|b l IH]; intros a.
  - cbn. unfold modulus. cbn. lia.
  - cbn [fold_left length]. rewrite (IH (a * 256 + b)), (IH (0 * 256 + b)), modulus_S. ring.
Qed.

Lemma be_value_cons b l : be_value (b :: l) = b * modulus (length l) + be_value l.
Proof. unfold be_value at 1. cbn [fold_left]. rewrite fold_acc. f_equal. Qed.

Lemma be_value_inj l1 l2 : Forall is_byte l1 -> Forall is_byte l2 ->
  length l1 = length l2 -> be_value l1 = be_value l2 -> l1 = l2.
Proof.
  intros H1; revert l2. induction H1 as [|b l1 Hb Hl IH]; intros l2 H2 Hlen Hv.
  - destruct l2; [reflexivity|discriminate].
  - destruct l2 as [|b2 l2]; [discriminate|]. inversion H2 as [|? ? Hb2 Hl2]; subst.
    injection Hlen as Hlen. rewrite !be_value_cons in Hv. rewrite <- Hlen in Hv.
    pose proof (be_value_bound _ Hl) as B1. pose proof (be_value_bound _ Hl2) as B2.
    rewrite <- Hlen in B2. unfold is_byte in *.
    assert (b = b2) by nia. subst. f_equal. apply IH; auto. lia.
Qed.

Lemma deserialize_loop_ok w l : Forall is_byte l -> forall buf rest,
  0 <= buf -> (buf + 1) * modulus (length l) <= modulus w ->
  deserialize_loop w (length l) buf (l ++ rest) =
    (fold_left (fun a b => a * 256 + b) l buf, rest).
Proof.
  induction 1 as [|b l Hb Hl IH]; intros buf rest H0 Hbuf.
  - reflexivity.
  - cbn [length deserialize_loop app fold_left].
    cbn [length] in Hbuf. rewrite modulus_S in Hbuf.
    pose proof (modulus_pos (length l)). unfold is_byte in Hb.
    rewrite (Z.mod_small b) by lia.
    rewrite Z.mod_small by nia.
    apply IH; nia.
Qed.

Lemma deserialize_bytes w l rest : Forall is_byte l -> length l = w ->
  deserialize w (l ++ rest) = (be_value l, rest).
Proof.
  intros Hl Hw. unfold deserialize. rewrite <- Hw at 2.
  rewrite deserialize_loop_ok; [reflexivity|assumption|lia|]. rewrite Hw. lia.
Qed.

Lemma deserialize_serialize w x rest :
  deserialize w (serialize w x ++ rest) = (x mod modulus w, rest).
Proof.
  rewrite deserialize_bytes.
  - now rewrite serialize_value.
  - apply serialize_bytes.
  - apply serialize_length.
Qed.

Lemma serialize_deserialize w l rest : Forall is_byte l -> length l = w ->
  serialize w (fst (deserialize w (l ++ rest))) = l.
Proof.
  intros Hl Hw. rewrite deserialize_bytes by assumption. cbn [fst].
  apply be_value_inj.
  - apply serialize_bytes.
  - assumption.
  - now rewrite serialize_length.
  - rewrite serialize_value. apply Z.mod_small. rewrite <- Hw. now apply be_value_bound.
Qed.

Lemma to_signed_id w x : - modulus w <= 2 * x < modulus w -> to_signed w (x mod modulus w) = x.
Proof.
  intros H. pose proof (modulus_pos w) as Hp. unfold to_signed. rewrite Z.mod_mod by lia.
  destruct (Z.ltb_spec (2 * (x mod modulus w)) (modulus w)) as [Hlt|Hge].
  - destruct (Z_lt_le_dec x 0) as [Hn|Hn].
    + replace (x mod modulus w) with (x + modulus w) in *.
      2:{ symmetry. rewrite <- (Z.mod_small (x + modulus w) (modulus w)) by lia.
          rewrite <- Z.add_mod_idemp_r, Z.mod_same, Z.add_0_r by lia. reflexivity. }
      lia.
    + apply Z.mod_small. lia.
  - destruct (Z_lt_le_dec x 0) as [Hn|Hn].
    + replace (x mod modulus w) with (x + modulus w) in *.
      2:{ symmetry. rewrite <- (Z.mod_small (x + modulus w) (modulus w)) by lia.
          rewrite <- Z.add_mod_idemp_r, Z.mod_same, Z.add_0_r by lia. reflexivity. }
      lia.
    + rewrite Z.mod_small in Hge by lia. lia.
Qed.

Lemma deserialize_signed_serialize w x rest : - modulus w <= 2 * x < modulus w ->
  deserialize_signed w (serialize w x ++ rest) = (x, rest).
Proof.
  intros H. unfold deserialize_signed. rewrite deserialize_serialize.
  rewrite to_signed_id by assumption. reflexivity.
Qed.

(** A short input is consumed entirely and gives its big-endian value. *)
Lemma deserialize_loop_short w l : Forall is_byte l -> forall k buf,
  (length l <= k)%nat -> 0 <= buf -> (buf + 1) * modulus (length l) <= modulus w ->
  deserialize_loop w k buf l = (fold_left (fun a b => a * 256 + b) l buf, []).
Proof.
  induction 1 as [|b l Hb Hl IH]; intros k buf Hk H0 Hbuf.
  - destruct k; reflexivity.
  - destruct k as [|k]; [cbn in Hk; lia|].
    cbn [length deserialize_loop fold_left].
    cbn [length] in Hbuf. rewrite modulus_S in Hbuf.
    pose proof (modulus_pos (length l)). unfold is_byte in Hb.
    rewrite (Z.mod_small b) by lia.
    rewrite Z.mod_small by nia.
    apply IH; cbn in Hk; nia.
Qed.

Lemma modulus_mono a b : (a <= b)%nat -> modulus a <= modulus b.
Proof. intros. unfold modulus. apply Z.pow_le_mono_r; lia. Qed.

Lemma deserialize_short w l : Forall is_byte l -> (length l <= w)%nat ->
  deserialize w l = (be_value l, []).
Proof.
  intros Hl Hw. unfold deserialize. rewrite deserialize_loop_short; auto; try lia.
  pose proof (modulus_mono _ _ Hw). lia.
Qed.

Lemma serialize_at_nth w x k : serialize_at w x k = nth_error (serialize w x) k.
Proof.
  unfold serialize_at, serialize. destruct (Nat.ltb_spec k w) as [H|H].
  - erewrite map_nth_error with (d := k).
    + reflexivity.
    + rewrite nth_error_nth' with (d := 0%nat) by (rewrite seq_length; lia).
      rewrite seq_nth by lia. reflexivity.
  - symmetry. apply nth_error_None. rewrite map_length, seq_length. lia.
Qed.

(** * Iterators *)

Definition flatten (w : nat) (v : list Z) : list Z := concat (map (serialize w) v).

Lemma mod_two32 w i : (0 < w)%nat -> (Z.of_nat w | two32) ->
  ((i + 1) mod two32) mod Z.of_nat w = (i + 1) mod Z.of_nat w.
Proof.
  intros Hw (q & Hq). rewrite Hq.
  assert (0 < q) by (unfold two32 in Hq; nia).
  rewrite (Z.mul_comm q). rewrite Z.rem_mul_r by lia.
  rewrite Z.mul_comm, Z.mod_add, Z.mod_mod by lia. reflexivity.
Qed.

(** Walking the last j bytes of element p and then the rest. *)
Lemma ser_walk_gen w v : (0 < w)%nat -> (Z.of_nat w | two32) ->
  forall fuel p k i,
  (p <= length v)%nat -> (k < w)%nat -> i mod Z.of_nat w = Z.of_nat k -> 
  (p = length v -> k = 0%nat) ->
  (w * (length v - p) - k < fuel)%nat ->
  ser_walk fuel w v (SerIter p i) = Some (Some (skipn (w * p + k) (flatten w v))).
Proof.
  intros Hw Hdiv.
  assert (Hlen : length (flatten w v) = (w * length v)%nat).
  { unfold flatten. clear. induction v as [|x v IH]; cbn [map concat length].
    - lia.
    - rewrite app_length, serialize_length, IH. lia. }
  assert (Hnth : forall v p k x, (k < w)%nat -> nth_error v p = Some x ->
            nth_error (flatten w v) (w * p + k) = nth_error (serialize w x) k).
  { clear - Hw. induction v as [|y v IH]; intros p k x Hk Hx.
    - now destruct p.
    - unfold flatten. cbn [map concat]. destruct p as [|p].
      + injection Hx as ->. rewrite nth_error_app1 by (rewrite serialize_length; lia).
        f_equal. lia.
      + rewrite nth_error_app2 by (rewrite serialize_length; nia).
        rewrite serialize_length. cbn in Hx.
        replace (w * S p + k - w)%nat with (w * p + k)%nat by nia.
        apply (IH p k x Hk Hx). }
  induction fuel as [|fuel IH]; intros p k i Hp Hk Hi Hend Hf; [lia|].
  cbn [ser_walk]. unfold ser_neq, ser_end. cbn [si_pos si_index].
  rewrite Z.mod_0_l by lia. rewrite Hi.
  destruct (Nat.eqb_spec p (length v)) as [->|Hne].
  - rewrite Hend by reflexivity. cbn. rewrite skipn_all2 by (rewrite Hlen; lia). reflexivity.
  - cbn [negb orb]. unfold ser_deref. cbn [si_pos si_index].
    destruct (nth_error v p) as [x|] eqn:Hx.
    2:{ apply nth_error_None in Hx. lia. }
    assert (Hb : nth_error (flatten w v) (w * p + k) =
                 Some (Z.land (Z.shiftr (to_unsigned w x) ((Z.of_nat w - 1 - i mod Z.of_nat w) * 8)) 255)).
    { rewrite (Hnth v p k x Hk Hx), <- serialize_at_nth. unfold serialize_at.
      destruct (Nat.ltb_spec k w); [|lia]. do 3 f_equal. rewrite Hi. lia. }
    unfold ser_next. cbn [si_pos si_index].
    assert (Hskip : forall l j (y : Z), nth_error l j = Some y -> skipn j l = y :: skipn (S j) l).
    { clear. induction l as [|a l IHl]; intros [|j] y H; cbn in *; try discriminate.
      - now injection H as ->.
      - now apply IHl. }
    rewrite (Hskip _ _ _ Hb).
    rewrite mod_two32 by assumption.
    assert (Hi1 : (i + 1) mod Z.of_nat w = Z.of_nat (S k) mod Z.of_nat w).
    { rewrite <- Z.add_mod_idemp_l, Hi by lia. f_equal. lia. }
    rewrite Hi1.
    destruct (Nat.eq_dec (S k) w) as [He|He].
    + rewrite He, Z.mod_same by lia. rewrite Z.eqb_refl.
      rewrite (IH (S p) 0%nat); try lia.
      * repeat f_equal. lia.
      * rewrite mod_two32 by assumption. rewrite Hi1, He, Z.mod_same by lia. reflexivity.
      * assert (w * (length v - p) = w + w * (length v - S p))%nat by nia. nia.
    + rewrite Z.mod_small by lia.
      destruct (Z.eqb_spec (Z.of_nat (S k)) 0); [lia|].
      rewrite (IH p (S k)); try lia.
      * repeat f_equal. lia.
      * rewrite mod_two32 by assumption. rewrite Hi1. apply Z.mod_small. lia.
      * assert (w <= w * (length v - p))%nat by nia. lia.
Qed.

Lemma ser_walk_ok w v fuel : (0 < w)%nat -> (Z.of_nat w | two32) -> (w * length v < fuel)%nat ->
  ser_walk fuel w v ser_begin = Some (Some (flatten w v)).
Proof.
  intros Hw Hd Hf. unfold ser_begin.
  rewrite (ser_walk_gen w v Hw Hd fuel 0 0 0); try lia.
  - now rewrite Nat.mul_0_r.
  - rewrite Z.mod_0_l by lia. reflexivity.
Qed.

Lemma des_deref_loop_eq w k : forall v l rest, length l = k ->
  des_deref_loop w k v (l ++ rest) = Some (fst (deserialize_loop w k v (l ++ rest))).
Proof.
  induction k as [|k IH]; intros v l rest H; destruct l as [|c l]; try discriminate; cbn [app des_deref_loop deserialize_loop].
  - reflexivity.
  - apply IH. now injection H.
Qed.

Lemma des_next_app l rest : des_next (length l) (l ++ rest) = Some rest.
Proof. induction l; cbn; auto. Qed.

Lemma des_walk_ok w v : (0 < w)%nat -> forall fuel, (length v < fuel)%nat ->
  des_walk fuel w (flatten w v) = Some (Some (map (to_unsigned w) v)).
Proof.
  intros Hw. induction v as [|x v IH]; intros fuel Hf; destruct fuel as [|fuel]; cbn [length] in Hf; try lia.
  - reflexivity.
  - unfold flatten. cbn [map concat]. cbn [des_walk].
    destruct (serialize w x ++ concat (map (serialize w) v)) eqn:E.
    { apply (f_equal (@length Z)) in E. rewrite app_length, serialize_length in E. cbn in E. lia. }
    rewrite <- E. clear E. unfold des_deref.
    rewrite des_deref_loop_eq by apply serialize_length.
    pose proof (deserialize_serialize w x (concat (map (serialize w) v))) as D.
    unfold deserialize in D. rewrite D. cbn [fst].
    replace (des_next w (serialize w x ++ concat (map (serialize w) v)))
      with (Some (concat (map (serialize w) v))).
    2:{ symmetry. rewrite <- (serialize_length w x) at 1. apply des_next_app. }
    fold (flatten w v). rewrite IH by lia. reflexivity.
Qed.
