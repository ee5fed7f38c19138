(** Lemmas for M_percent. *)
From Coq Require Import ZArith List Bool Lia ZifyBool.
From Verif Require Import M_unicode L_unicode M_infra L_infra M_percent.
Import ListNotations.
Open Scope Z_scope.

(** * Finite checks over bytes *)
Fixpoint zfrom (k : nat) (i : Z) : list Z := match k with O => [] | S k' => i :: zfrom k' (i + 1) end.
Definition zrange (n : Z) : list Z := zfrom (Z.to_nat n) 0.
Lemma zfrom_in k : forall i x, i <= x < i + Z.of_nat k -> In x (zfrom k i).
Proof.
  induction k as [|k IH]; intros i x H; [lia|]. cbn [zfrom In].
  destruct (Z.eq_dec i x); [now left|right]. apply IH. lia.
Qed.
Lemma zrange_in n x : 0 <= x < n -> In x (zrange n).
Proof. intros H. apply zfrom_in. lia. Qed.
Lemma zrange_forall n (f : Z -> bool) : forallb f (zrange n) = true -> forall x, 0 <= x < n -> f x = true.
Proof. intros H x Hx. rewrite forallb_forall in H. apply H. now apply zrange_in. Qed.

(** * Digits *)
Lemma digit_val_char d : 0 <= d < 36 -> digit_val (digit_char d) = Some d.
Proof.
  intros H. unfold digit_val, digit_char. destruct (Z.ltb_spec d 10);
  repeat match goal with |- context [if ?b then _ else _] => destruct b eqn:? end; f_equal; lia.
Qed.

(** Value of a digit string. *)
Fixpoint value (base : Z) (ds : list Z) (v : Z) : Z :=
  match ds with [] => v | d :: r => value base r (v * base + d) end.

Lemma digits_prefix_app base ds : forall s v n, Forall (fun d => 0 <= d < base) ds -> base <= 36 ->
  digits_prefix base (map digit_char ds ++ s) v n = digits_prefix base s (value base ds v) (n + length ds).
Proof.
  induction ds as [|d ds IH]; intros s v n H Hb; cbn [map app digits_prefix value length].
  - now rewrite Nat.add_0_r.
  - inversion H; subst. rewrite digit_val_char by lia.
    destruct (Z.ltb_spec d base); [|lia]. rewrite IH by assumption. f_equal. lia.
Qed.

Lemma to_chars_loop_spec base : 2 <= base <= 36 -> forall fuel n acc, 0 <= n < 2 ^ Z.of_nat fuel -> (0 < fuel)%nat ->
  exists ds, to_chars_loop fuel base n acc = map digit_char ds ++ acc /\
    Forall (fun d => 0 <= d < base) ds /\ value base ds 0 = n /\ ds <> [] /\
    (forall r, ds = 0 :: r -> n = 0 /\ r = []) /\ (length ds <= fuel)%nat.
Proof.
  intros Hb. induction fuel as [|fuel IH]; intros n acc Hn Hf; [lia|].
  cbn [to_chars_loop]. destruct (Z.ltb_spec n base) as [Hlt|Hge].
  - exists [n]. rewrite Z.mod_small by lia. repeat split; cbn; auto; try lia.
    + constructor; auto. lia.
    + discriminate.
    + congruence.
    + now injection H.
  - assert (Hpow : n / base < 2 ^ Z.of_nat fuel).
    { apply Z.div_lt_upper_bound; [lia|]. rewrite Nat2Z.inj_succ, Z.pow_succ_r in Hn by lia. nia. }
    assert (Hd : 0 < n / base) by (apply Z.div_str_pos; lia).
    assert (Hf' : (0 < fuel)%nat).
    { destruct fuel; [|lia]. exfalso. cbn in Hpow. lia. }
    destruct (IH (n / base) (digit_char (n mod base) :: acc) ltac:(lia) Hf') as (ds & E & H1 & H2 & H3 & H4 & H5).
    exists (ds ++ [n mod base]). rewrite E. split; [rewrite map_app, <- app_assoc; reflexivity|]. repeat split; auto.
    + apply Forall_app. split; auto. constructor; auto. apply Z.mod_pos_bound. lia.
    + assert (V : forall l v x, value base (l ++ [x]) v = value base l v * base + x).
      { induction l as [|y l IHl]; intros v x; cbn; auto. }
      rewrite V, H2. rewrite (Z.div_mod n base) at 3 by lia. lia.
    + destruct ds; discriminate.
    + destruct ds as [|d ds]; [congruence|]. cbn in H. injection H as -> _.
      destruct (H4 _ eq_refl). lia.
    + destruct ds as [|d ds]; [congruence|]. cbn in H. injection H as -> _.
      destruct (H4 _ eq_refl). lia.
    + rewrite app_length. cbn. lia.
Qed.

(** [to_chars base n] is the digit string of n, without leading zeros. *)
Lemma to_chars_spec base n : 2 <= base <= 36 -> 0 <= n ->
  exists ds, to_chars base n = map digit_char ds /\
    Forall (fun d => 0 <= d < base) ds /\ value base ds 0 = n /\ ds <> [] /\
    (forall r, ds = 0 :: r -> n = 0 /\ r = []).
Proof.
  intros Hb Hn. unfold to_chars.
  destruct (to_chars_loop_spec base Hb (S (Z.to_nat (Z.log2 n))) n []) as (ds & E & H1 & H2 & H3 & H4 & H5).
  - split; [assumption|]. rewrite Nat2Z.inj_succ, Z2Nat.id by apply Z.log2_nonneg.
    destruct (Z.eq_dec n 0) as [->|]; [reflexivity|]. apply Z.log2_spec. lia.
  - lia.
  - rewrite app_nil_r in E. eauto 8.
Qed.

Lemma from_to_chars base maxv n s : 2 <= base <= 36 -> 0 <= n <= maxv ->
  (match s with [] => True | c :: _ => match digit_val c with Some d => base <= d | None => True end end) ->
  from_chars base maxv (to_chars base n ++ s) = Some n.
Proof.
  intros Hb Hn Hs. destruct (to_chars_spec base n Hb ltac:(lia)) as (ds & E & H1 & H2 & H3 & _).
  unfold from_chars. rewrite E, digits_prefix_app by (auto; lia). rewrite H2.
  assert (P : digits_prefix base s n (0 + length ds) = (n, (0 + length ds)%nat)).
  { destruct s as [|c s]; [reflexivity|]. cbn [digits_prefix]. destruct (digit_val c); [|reflexivity].
    destruct (Z.ltb_spec z base); [lia|reflexivity]. }
  rewrite P. destruct ds; [congruence|]. cbn. destruct (Z.leb_spec n maxv); [reflexivity|lia].
Qed.

(** * Percent encoding *)

Definition hex_char (d : Z) : Z := if d <? 10 then 0x30 + d else 0x41 + (d - 10).

Lemma percent_encode_spec b : 0 <= b < 256 -> percent_encode b = [0x25; hex_char (b / 16); hex_char (b mod 16)].
Proof.
  intros H.
  assert (F : (if list_eq_dec Z.eq_dec (percent_encode b) [0x25; hex_char (b / 16); hex_char (b mod 16)] then true else false) = true).
  { revert b H. apply zrange_forall. vm_compute. reflexivity. }
  now destruct (list_eq_dec _ _ _).
Qed.

Lemma percent_decode_encoded b s fuel out : 0 <= b < 256 -> percent_decode fuel s = Some out ->
  percent_decode (S fuel) (percent_encode b ++ s) = Some (b :: out).
Proof.
  intros H E. rewrite percent_encode_spec by assumption. cbn [app percent_decode].
  assert (F : starts_with_percent_encoded_byte (37 :: hex_char (b / 16) :: hex_char (b mod 16) :: s) = true /\
     from_chars 16 255 [hex_char (b / 16); hex_char (b mod 16)] = Some b).
  { cbn [starts_with_percent_encoded_byte]. clear s E.
    assert (G : (is_ascii_hex_digit (hex_char (b / 16)) && is_ascii_hex_digit (hex_char (b mod 16)) &&
       match from_chars 16 255 [hex_char (b / 16); hex_char (b mod 16)] with Some v => v =? b | None => false end) = true).
    { revert b H. apply zrange_forall. vm_compute. reflexivity. }
    apply andb_prop in G. destruct G as [G1 G2]. split; [exact G1|].
    destruct (from_chars _ _ _); [|discriminate]. f_equal. lia. }
  destruct F as [F1 F2]. rewrite F1, F2, E. reflexivity.
Qed.

Lemma percent_decode_plain b s fuel out : b <> 0x25 -> percent_decode fuel s = Some out ->
  percent_decode (S fuel) (b :: s) = Some (b :: out).
Proof.
  intros H E. cbn [percent_decode].
  assert (F : starts_with_percent_encoded_byte (b :: s) = false).
  { cbn. destruct s as [|x [|y s]]; auto. destruct (Z.eqb_spec b 37); [contradiction|reflexivity]. }
  rewrite F, E. reflexivity.
Qed.

(** More fuel does not change a result. *)
Lemma percent_decode_mono fuel : forall s out, percent_decode fuel s = Some out ->
  forall fuel', (fuel <= fuel')%nat -> percent_decode fuel' s = Some out.
Proof.
  induction fuel as [|fuel IH]; intros s out E fuel' H.
  - destruct s; [|discriminate]. destruct fuel'; exact E.
  - destruct fuel' as [|fuel']; [lia|]. destruct s as [|a r]; [exact E|].
    cbn [percent_decode] in *. destruct (starts_with_percent_encoded_byte (a :: r)).
    + destruct r as [|b [|c r']]; try discriminate.
      destruct (from_chars 16 255 [b; c]); [|discriminate].
      destruct (percent_decode fuel r') as [o|] eqn:E1; [|discriminate].
      rewrite (IH _ _ E1 fuel') by lia. exact E.
    + destruct (percent_decode fuel r) as [o|] eqn:E1; [|discriminate].
      rewrite (IH _ _ E1 fuel') by lia. exact E.
Qed.

Lemma percent_decode_total fuel : forall s, (length s <= fuel)%nat -> exists out, percent_decode fuel s = Some out.
Proof.
  induction fuel as [|fuel IH]; intros s H.
  - destruct s; [|cbn in H; lia]. eexists; reflexivity.
  - destruct s as [|a r]; [eexists; reflexivity|]. cbn [percent_decode].
    destruct (starts_with_percent_encoded_byte (a :: r)) eqn:E.
    + cbn in E. destruct r as [|b [|c r']]; try discriminate.
      destruct (IH r') as [o Ho]; [cbn in H; lia|]. rewrite Ho.
      assert (F : exists v, from_chars 16 255 [b; c] = Some v).
      { assert (Hhex : forall x, is_ascii_hex_digit x = true -> exists d, digit_val x = Some d /\ 0 <= d < 16).
        { intros x. unfold is_ascii_hex_digit, is_ascii_upper_hex_digit, is_ascii_lower_hex_digit, is_ascii_digit, digit_val.
          intros. repeat match goal with |- context [if ?b then _ else _] => destruct b eqn:? end;
            try (eexists; split; [reflexivity|lia]). lia. }
        apply andb_prop in E. destruct E as [E Ec]. apply andb_prop in E. destruct E as [_ Eb].
        destruct (Hhex b Eb) as (x & Hx & Rx). destruct (Hhex c Ec) as (y & Hy & Ry).
        unfold from_chars. cbn [digits_prefix]. rewrite Hx, Hy.
        destruct (Z.ltb_spec x 16); [|lia]. destruct (Z.ltb_spec y 16); [|lia].
        destruct (Z.leb_spec ((0 * 16 + x) * 16 + y) 255); [eauto|lia]. }
      destruct F as [v ->]. eauto.
    + destruct (IH r) as [o Ho]; [cbn in H; lia|]. rewrite Ho. eauto.
Qed.

(** Encoding with a set that contains '%', then decoding, is the identity on bytes. *)
Lemma percent_roundtrip set s : set 0x25 = true -> Forall (fun b => 0 <= b < 256) s ->
  percent_decode_bytes (percent_encode_bytes set false s) = Some s.
Proof.
  intros Hset Hs. unfold percent_decode_bytes.
  assert (G : percent_decode (length s) (percent_encode_bytes set false s) = Some s /\
     (length s <= length (percent_encode_bytes set false s))%nat).
  { induction Hs as [|b s Hb Hs [IH1 IH2]]; [split; cbn; auto|].
    cbn [percent_encode_bytes flat_map length]. fold (percent_encode_bytes set false s).
    unfold percent_encode_byte. cbn [andb]. destruct (set b) eqn:E.
    - split; [now apply percent_decode_encoded|]. rewrite app_length, percent_encode_spec by assumption. cbn. lia.
    - split; [|cbn; lia]. cbn [app]. apply percent_decode_plain; auto. intros ->. congruence. }
  destruct G as [G1 G2]. eapply percent_decode_mono; eauto.
Qed.

(** Without '%' in the set the same holds for input that has no '%'. *)
Lemma percent_roundtrip_no_percent set s : ~ In 0x25 s -> Forall (fun b => 0 <= b < 256) s ->
  percent_decode_bytes (percent_encode_bytes set false s) = Some s.
Proof.
  intros Hp Hs. unfold percent_decode_bytes.
  assert (G : percent_decode (length s) (percent_encode_bytes set false s) = Some s /\
     (length s <= length (percent_encode_bytes set false s))%nat).
  { induction Hs as [|b s Hb Hs IH]; [split; cbn; auto|].
    destruct IH as [IH1 IH2]; [intros Hin; apply Hp; now right|].
    cbn [percent_encode_bytes flat_map length]. fold (percent_encode_bytes set false s).
    unfold percent_encode_byte. cbn [andb]. destruct (set b) eqn:E.
    - split; [now apply percent_decode_encoded|]. rewrite app_length, percent_encode_spec by assumption. cbn. lia.
    - split; [|cbn; lia]. cbn [app]. apply percent_decode_plain; auto. intros ->. apply Hp. now left. }
  destruct G as [G1 G2]. eapply percent_decode_mono; eauto.
Qed.

(** The characters of the encoded text. *)
Lemma percent_encode_chars set s : Forall (fun b => 0 <= b < 256) s ->
  Forall (fun c => set c = false \/ c = 0x25 \/ 0x30 <= c <= 0x39 \/ 0x41 <= c <= 0x46)
    (percent_encode_bytes set false s).
Proof.
  induction 1 as [|b s Hb Hs IH]; cbn [percent_encode_bytes flat_map]; [constructor|].
  apply Forall_app. split; [|exact IH]. unfold percent_encode_byte. cbn [andb].
  destruct (set b) eqn:E; [|constructor; auto].
  rewrite percent_encode_spec by assumption.
  assert (Hh : forall d, 0 <= d < 16 -> 48 <= hex_char d <= 57 \/ 65 <= hex_char d <= 70).
  { intros d Hd. unfold hex_char. destruct (Z.ltb_spec d 10); lia. }
  assert (0 <= b / 16 < 16) by (split; [apply Z.div_pos; lia|apply Z.div_lt_upper_bound; lia]).
  assert (0 <= b mod 16 < 16) by (apply Z.mod_pos_bound; lia).
  constructor; [now right; left|]. constructor; [now right; right; apply Hh|].
  constructor; [now right; right; apply Hh|]. constructor.
Qed.

(** Space as plus. *)
Lemma percent_encode_app set p s t :
  percent_encode_bytes set p (s ++ t) = percent_encode_bytes set p s ++ percent_encode_bytes set p t.
Proof. apply flat_map_app. Qed.

(** Injectivity follows from the round trip. *)
Lemma percent_injective set s t : set 0x25 = true ->
  Forall (fun b => 0 <= b < 256) s -> Forall (fun b => 0 <= b < 256) t ->
  percent_encode_bytes set false s = percent_encode_bytes set false t -> s = t.
Proof.
  intros H Hs Ht E. pose proof (percent_roundtrip set s H Hs) as R1.
  pose proof (percent_roundtrip set t H Ht) as R2. rewrite E in R1. congruence.
Qed.

(** * The sets, against the lists of the standard *)

(** Standard's definitions, written as plain conditions. *)
Definition S_c0 (c : Z) : Prop := 0 <= c <= 0x1F \/ c > 0x7E.
Definition S_fragment (c : Z) : Prop := S_c0 c \/ c = 32 \/ c = 34 \/ c = 60 \/ c = 62 \/ c = 96.
Definition S_query (c : Z) : Prop := S_c0 c \/ c = 32 \/ c = 34 \/ c = 35 \/ c = 60 \/ c = 62.
Definition S_special_query (c : Z) : Prop := S_query c \/ c = 39.
Definition S_path (c : Z) : Prop := S_query c \/ c = 63 \/ c = 96 \/ c = 123 \/ c = 125.
Definition S_userinfo (c : Z) : Prop :=
  S_path c \/ c = 47 \/ c = 58 \/ c = 59 \/ c = 61 \/ c = 64 \/ 91 <= c <= 94 \/ c = 124.
Definition S_component (c : Z) : Prop := S_userinfo c \/ 36 <= c <= 38 \/ c = 43 \/ c = 44.
Definition S_form (c : Z) : Prop := S_component c \/ c = 33 \/ 39 <= c <= 41 \/ c = 126.

Ltac sets := unfold S_form, S_component, S_userinfo, S_path, S_special_query, S_query, S_fragment, S_c0,
  is_form_percent_encode_set, is_component_percent_encode_set, is_userinfo_percent_encode_set,
  is_path_percent_encode_set, is_special_query_percent_encode_set, is_query_percent_encode_set,
  is_fragment_percent_encode_set, is_c0_control_percent_encode_set, is_c0_control, one_of; cbn [existsb].

Lemma sets_match c : 0 <= c ->
  (is_c0_control_percent_encode_set c = true <-> S_c0 c) /\
  (is_fragment_percent_encode_set c = true <-> S_fragment c) /\
  (is_query_percent_encode_set c = true <-> S_query c) /\
  (is_special_query_percent_encode_set c = true <-> S_special_query c) /\
  (is_path_percent_encode_set c = true <-> S_path c) /\
  (is_userinfo_percent_encode_set c = true <-> S_userinfo c) /\
  (is_component_percent_encode_set c = true <-> S_component c) /\
  (is_form_percent_encode_set c = true <-> S_form c).
Proof. intros H. sets. repeat split; lia. Qed.

Lemma sets_nested c :
  (is_c0_control_percent_encode_set c = true -> is_fragment_percent_encode_set c = true /\ is_query_percent_encode_set c = true) /\
  (is_fragment_percent_encode_set c = true -> is_path_percent_encode_set c = true) /\
  (is_query_percent_encode_set c = true -> is_special_query_percent_encode_set c = true /\ is_path_percent_encode_set c = true) /\
  (is_path_percent_encode_set c = true -> is_userinfo_percent_encode_set c = true) /\
  (is_userinfo_percent_encode_set c = true -> is_component_percent_encode_set c = true) /\
  (is_component_percent_encode_set c = true -> is_form_percent_encode_set c = true).
Proof. sets. repeat split; lia. Qed.
