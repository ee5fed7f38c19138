(** Lemmas for M_unicode. *)
From Coq Require Import ZArith List Bool Lia ZifyBool.
From Verif Require Import M_unicode.
Import ListNotations.
Open Scope Z_scope.

(** * Specification: the UTF encodings as in the Unicode standard, by division and remainder *)

Definition scalar (cp : Z) : Prop := 0 <= cp < 0xD800 \/ 0xDFFF < cp <= 0x10FFFF.

Definition utf8_spec (cp : Z) : list Z :=
  if cp <? 0x80 then [cp]
  else if cp <? 0x800 then [0xC0 + cp / 64; 0x80 + cp mod 64]
  else if cp <? 0x10000 then [0xE0 + cp / 4096; 0x80 + cp / 64 mod 64; 0x80 + cp mod 64]
  else [0xF0 + cp / 262144; 0x80 + cp / 4096 mod 64; 0x80 + cp / 64 mod 64; 0x80 + cp mod 64].

Definition utf16_spec (cp : Z) : list Z :=
  if cp <? 0x10000 then [cp]
  else [0xD800 + (cp - 0x10000) / 1024; 0xDC00 + (cp - 0x10000) mod 1024].

(** * Bit masks *)

Lemma land_field x k n : 0 <= k -> 0 <= n ->
  Z.land x ((2 ^ n - 1) * 2 ^ k) = ((x / 2 ^ k) mod 2 ^ n) * 2 ^ k.
Proof.
  intros Hk Hn. rewrite <- !Z.shiftl_mul_pow2 by lia.
  replace (2 ^ n - 1) with (Z.ones n) by (rewrite Z.ones_equiv; lia).
  rewrite <- Z.shiftr_div_pow2, <- Z.land_ones by lia.
  apply Z.bits_inj'. intros i Hi. rewrite Z.land_spec, !Z.shiftl_spec by lia.
  rewrite Z.land_spec. destruct (Z_lt_le_dec i k) as [H|H].
  - rewrite (Z.testbit_neg_r _ (i - k)) by lia. rewrite andb_false_r.
    rewrite (Z.testbit_neg_r _ (i - k)) by lia. reflexivity.
  - rewrite Z.shiftr_spec by lia. now replace (i - k + k) with i by lia.
Qed.

Lemma land_80 x : Z.land x 0x80 = (x / 128 mod 2) * 128. Proof. exact (land_field x 7 1 ltac:(lia) ltac:(lia)). Qed.
Lemma land_C0 x : Z.land x 0xC0 = (x / 64 mod 4) * 64. Proof. exact (land_field x 6 2 ltac:(lia) ltac:(lia)). Qed.
Lemma land_E0 x : Z.land x 0xE0 = (x / 32 mod 8) * 32. Proof. exact (land_field x 5 3 ltac:(lia) ltac:(lia)). Qed.
Lemma land_F0 x : Z.land x 0xF0 = (x / 16 mod 16) * 16. Proof. exact (land_field x 4 4 ltac:(lia) ltac:(lia)). Qed.
Lemma land_F8 x : Z.land x 0xF8 = (x / 8 mod 32) * 8. Proof. exact (land_field x 3 5 ltac:(lia) ltac:(lia)). Qed.
Lemma land_1F x : Z.land x 0x1F = x mod 32. Proof. exact (Z.land_ones x 5 ltac:(lia)). Qed.
Lemma land_3F x : Z.land x 0x3F = x mod 64. Proof. exact (Z.land_ones x 6 ltac:(lia)). Qed.
Lemma land_F x : Z.land x 0xF = x mod 16. Proof. exact (Z.land_ones x 4 ltac:(lia)). Qed.
Lemma land_7 x : Z.land x 0x7 = x mod 8. Proof. exact (Z.land_ones x 3 ltac:(lia)). Qed.
Lemma land_FF x : Z.land x 0xFF = x mod 256. Proof. exact (Z.land_ones x 8 ltac:(lia)). Qed.
Lemma land_FC0 x : Z.land x 0xFC0 = (x / 64 mod 64) * 64. Proof. exact (land_field x 6 6 ltac:(lia) ltac:(lia)). Qed.
Lemma land_3F000 x : Z.land x 0x3F000 = (x / 4096 mod 64) * 4096. Proof. exact (land_field x 12 6 ltac:(lia) ltac:(lia)). Qed.
Lemma land_FC00 x : Z.land x 0xFC00 = (x / 1024 mod 64) * 1024. Proof. exact (land_field x 10 6 ltac:(lia) ltac:(lia)). Qed.
Lemma land_FFFFFF80 x : Z.land x 0xFFFFFF80 = (x / 128 mod 33554432) * 128. Proof. exact (land_field x 7 25 ltac:(lia) ltac:(lia)). Qed.
Lemma land_FFFFF800 x : Z.land x 0xFFFFF800 = (x / 2048 mod 2097152) * 2048. Proof. exact (land_field x 11 21 ltac:(lia) ltac:(lia)). Qed.
Lemma land_FFFF0000 x : Z.land x 0xFFFF0000 = (x / 65536 mod 65536) * 65536. Proof. exact (land_field x 16 16 ltac:(lia) ltac:(lia)). Qed.
Lemma land_FFE00000 x : Z.land x 0xFFE00000 = (x / 2097152 mod 2048) * 2097152. Proof. exact (land_field x 21 11 ltac:(lia) ltac:(lia)). Qed.
Lemma shl_6 x : Z.shiftl x 6 = x * 64. Proof. exact (Z.shiftl_mul_pow2 x 6 ltac:(lia)). Qed.
Lemma shl_12 x : Z.shiftl x 12 = x * 4096. Proof. exact (Z.shiftl_mul_pow2 x 12 ltac:(lia)). Qed.
Lemma shl_18 x : Z.shiftl x 18 = x * 262144. Proof. exact (Z.shiftl_mul_pow2 x 18 ltac:(lia)). Qed.
Lemma shr_6 x : Z.shiftr x 6 = x / 64. Proof. exact (Z.shiftr_div_pow2 x 6 ltac:(lia)). Qed.
Lemma shr_12 x : Z.shiftr x 12 = x / 4096. Proof. exact (Z.shiftr_div_pow2 x 12 ltac:(lia)). Qed.
Lemma shr_18 x : Z.shiftr x 18 = x / 262144. Proof. exact (Z.shiftr_div_pow2 x 18 ltac:(lia)). Qed.

Ltac zdiv := Z.to_euclidean_division_equations; lia.
Ltac leq := repeat match goal with
  | |- Some _ = Some _ => apply f_equal
  | |- _ :: _ = _ :: _ => apply f_equal2
  | |- (_, _) = (_, _) => apply f_equal2
  | |- ?x = ?x => reflexivity
  end; zdiv.

(** * Writing *)

Lemma utf8_to_string_spec cp : 0 <= cp < 0x200000 -> utf8_to_string cp = Some (utf8_spec cp).
Proof.
  intros H. unfold utf8_to_string, utf8_spec.
  rewrite land_FFFFFF80, land_FFFFF800, land_FFFF0000, land_FFE00000.
  rewrite !land_3F, !land_FC0, !land_3F000, !shr_6, !shr_12, !shr_18.
  destruct (Z.ltb_spec cp 0x80).
  { destruct (Z.eqb_spec (cp / 128 mod 33554432 * 128) 0); [|zdiv]. leq. }
  destruct (Z.eqb_spec (cp / 128 mod 33554432 * 128) 0); [zdiv|].
  destruct (Z.ltb_spec cp 0x800).
  { destruct (Z.eqb_spec (cp / 2048 mod 2097152 * 2048) 0); [|zdiv].
    leq. }
  destruct (Z.eqb_spec (cp / 2048 mod 2097152 * 2048) 0); [zdiv|].
  destruct (Z.ltb_spec cp 0x10000).
  { destruct (Z.eqb_spec (cp / 65536 mod 65536 * 65536) 0); [|zdiv].
    leq. }
  destruct (Z.eqb_spec (cp / 65536 mod 65536 * 65536) 0); [zdiv|].
  destruct (Z.eqb_spec (cp / 2097152 mod 2048 * 2097152) 0); [|zdiv].
  leq.
Qed.

Lemma utf16_to_string_spec cp : 0 <= cp <= 0x10FFFF -> utf16_to_string cp = Some (utf16_spec cp).
Proof.
  intros H. unfold utf16_to_string, utf16_spec. rewrite land_FFFF0000, land_FFE00000.
  destruct (Z.ltb_spec cp 0x10000).
  { destruct (Z.eqb_spec (cp / 65536 mod 65536 * 65536) 0); [|zdiv]. leq. }
  destruct (Z.eqb_spec (cp / 65536 mod 65536 * 65536) 0); [zdiv|].
  destruct (Z.eqb_spec (cp / 2097152 mod 2048 * 2097152) 0); [|zdiv].
  leq.
Qed.

(** * Reading back *)

Lemma utf8_read_1 a rest : 0 <= a < 128 -> utf8_to_code_point (a :: rest) = Some (a, rest).
Proof.
  intros H. unfold utf8_to_code_point. rewrite land_80.
  destruct (Z.eqb_spec (a mod 256 / 128 mod 2 * 128) 0); [|zdiv]. leq.
Qed.

Lemma utf8_read_2 a b rest : 0 <= a < 32 -> 0 <= b < 64 ->
  utf8_to_code_point ((0xC0 + a) :: (0x80 + b) :: rest) = Some (a * 64 + b, rest).
Proof.
  intros Ha Hb. unfold utf8_to_code_point.
  rewrite (Z.mod_small (0xC0 + a)), (Z.mod_small (0x80 + b)) by lia.
  rewrite land_80, land_C0, land_E0, land_1F, land_3F, shl_6.
  destruct (Z.eqb_spec ((0xC0 + a) / 128 mod 2 * 128) 0); [zdiv|].
  destruct (Z.eqb_spec ((0x80 + b) / 64 mod 4 * 64) 128); [|zdiv]. cbn [negb].
  destruct (Z.eqb_spec ((0xC0 + a) / 32 mod 8 * 32) 192); [|zdiv].
  leq.
Qed.

Lemma utf8_read_3 a b c rest : 0 <= a < 16 -> 0 <= b < 64 -> 0 <= c < 64 ->
  utf8_to_code_point ((0xE0 + a) :: (0x80 + b) :: (0x80 + c) :: rest) = Some (a * 4096 + b * 64 + c, rest).
Proof.
  intros Ha Hb Hc. unfold utf8_to_code_point.
  rewrite (Z.mod_small (0xE0 + a)), (Z.mod_small (0x80 + b)), (Z.mod_small (0x80 + c)) by lia.
  rewrite !land_80, !land_C0, !land_E0, !land_F0, !land_F, !land_3F, !shl_6, !shl_12.
  destruct (Z.eqb_spec ((0xE0 + a) / 128 mod 2 * 128) 0); [zdiv|].
  destruct (Z.eqb_spec ((0x80 + b) / 64 mod 4 * 64) 128); [|zdiv]. cbn [negb].
  destruct (Z.eqb_spec ((0xE0 + a) / 32 mod 8 * 32) 192); [zdiv|].
  destruct (Z.eqb_spec ((0x80 + c) / 64 mod 4 * 64) 128); [|zdiv]. cbn [negb].
  destruct (Z.eqb_spec ((0xE0 + a) / 16 mod 16 * 16) 224); [|zdiv].
  leq.
Qed.

Lemma utf8_read_4 a b c d rest : 0 <= a < 8 -> 0 <= b < 64 -> 0 <= c < 64 -> 0 <= d < 64 ->
  utf8_to_code_point ((0xF0 + a) :: (0x80 + b) :: (0x80 + c) :: (0x80 + d) :: rest)
    = Some (a * 262144 + b * 4096 + c * 64 + d, rest).
Proof.
  intros Ha Hb Hc Hd. unfold utf8_to_code_point.
  rewrite (Z.mod_small (0xF0 + a)), (Z.mod_small (0x80 + b)), (Z.mod_small (0x80 + c)), (Z.mod_small (0x80 + d)) by lia.
  rewrite !land_80, !land_C0, !land_E0, !land_F0, !land_F8, !land_7, !land_3F, !shl_6, !shl_12, !shl_18.
  destruct (Z.eqb_spec ((0xF0 + a) / 128 mod 2 * 128) 0); [zdiv|].
  destruct (Z.eqb_spec ((0x80 + b) / 64 mod 4 * 64) 128); [|zdiv]. cbn [negb].
  destruct (Z.eqb_spec ((0xF0 + a) / 32 mod 8 * 32) 192); [zdiv|].
  destruct (Z.eqb_spec ((0x80 + c) / 64 mod 4 * 64) 128); [|zdiv]. cbn [negb].
  destruct (Z.eqb_spec ((0xF0 + a) / 16 mod 16 * 16) 224); [zdiv|].
  destruct (Z.eqb_spec ((0x80 + d) / 64 mod 4 * 64) 128); [|zdiv]. cbn [negb].
  destruct (Z.eqb_spec ((0xF0 + a) / 8 mod 32 * 8) 240); [|zdiv].
  leq.
Qed.

Lemma utf8_read cp rest : 0 <= cp < 0x200000 ->
  utf8_to_code_point (utf8_spec cp ++ rest) = Some (cp, rest).
Proof.
  intros H. unfold utf8_spec.
  destruct (Z.ltb_spec cp 0x80); [now apply utf8_read_1|].
  destruct (Z.ltb_spec cp 0x800).
  { cbn [app]. rewrite utf8_read_2 by zdiv. leq. }
  destruct (Z.ltb_spec cp 0x10000).
  { cbn [app]. rewrite utf8_read_3 by zdiv. leq. }
  cbn [app]. rewrite utf8_read_4 by zdiv. leq.
Qed.

Lemma utf16_read cp rest : scalar cp ->
  utf16_to_code_point (utf16_spec cp ++ rest) = Some (cp, rest).
Proof.
  intros H. unfold scalar in H. unfold utf16_spec, utf16_to_code_point.
  destruct (Z.ltb_spec cp 0x10000).
  - cbn [app]. rewrite (Z.mod_small cp) by lia. rewrite land_FC00.
    destruct (Z.eqb_spec (cp / 1024 mod 64 * 1024) 0xD800); [zdiv|]. reflexivity.
  - cbn [app]. assert (0 <= (cp - 0x10000) / 1024 < 1024) by zdiv.
    assert (0 <= (cp - 0x10000) mod 1024 < 1024) by zdiv.
    rewrite (Z.mod_small (0xD800 + _)), (Z.mod_small (0xDC00 + _)) by lia. rewrite !land_FC00.
    destruct (Z.eqb_spec ((0xD800 + (cp - 0x10000) / 1024) / 1024 mod 64 * 1024) 0xD800); [|zdiv].
    destruct (Z.eqb_spec ((0xDC00 + (cp - 0x10000) mod 1024) / 1024 mod 64 * 1024) 0xDC00); [|zdiv].
    cbn [negb]. leq.
Qed.

(** * Codecs in general *)

(** Code points for which the conversion pair of a codec is inverse. *)
Definition ok_cp (C : codec) (cp : Z) : Prop :=
  exists u, c_enc C cp = Some u /\ u <> [] /\ forall rest, c_dec C (u ++ rest) = Some (cp, rest).

(** Encoding of a whole string; [None] if some code point cannot be written. *)
Fixpoint enc (C : codec) (s : list Z) : option (list Z) :=
  match s with
  | [] => Some []
  | cp :: r =>
      match c_enc C cp, enc C r with
      | Some u, Some v => Some (u ++ v)
      | _, _ => None
      end
  end.

Definition is_utf (C : codec) : Prop := C = utf8 \/ C = utf16 \/ C = utf32.

Lemma ok_utf8 cp : 0 <= cp < 0x200000 -> ok_cp utf8 cp.
Proof.
  intros H. exists (utf8_spec cp). split; [now apply utf8_to_string_spec|]. split.
  - unfold utf8_spec. destruct (cp <? 128), (cp <? 2048), (cp <? 65536); discriminate.
  - intros. now apply utf8_read.
Qed.

Lemma ok_utf16 cp : scalar cp -> ok_cp utf16 cp.
Proof.
  intros H. exists (utf16_spec cp). split; [apply utf16_to_string_spec; unfold scalar in H; lia|]. split.
  - unfold utf16_spec. destruct (cp <? 65536); discriminate.
  - intros. now apply utf16_read.
Qed.

Lemma ok_utf32 cp : 0 <= cp < 2 ^ 32 -> ok_cp utf32 cp.
Proof.
  intros H. exists [cp]. split; [reflexivity|]. split; [discriminate|].
  intros rest. cbn. now rewrite Z.mod_small.
Qed.

Lemma ok_scalar C cp : is_utf C -> scalar cp -> ok_cp C cp.
Proof.
  unfold scalar. intros [-> | [-> | ->]] H; [apply ok_utf8|apply ok_utf16|apply ok_utf32]; unfold scalar; lia.
Qed.

Lemma enc_ok C s : Forall (ok_cp C) s -> exists u, enc C s = Some u.
Proof.
  induction 1 as [|cp s (u & Hu & _) _ (v & Hv)]; cbn; [eauto|]. rewrite Hu, Hv. eauto.
Qed.

Lemma enc_app C s t : enc C (s ++ t) =
  match enc C s, enc C t with Some u, Some v => Some (u ++ v) | _, _ => None end.
Proof.
  induction s as [|cp s IH]; cbn [enc app].
  - now destruct (enc C t).
  - rewrite IH. destruct (c_enc C cp), (enc C s), (enc C t); try reflexivity. now rewrite app_assoc.
Qed.

Lemma enc_length C s u : Forall (ok_cp C) s -> enc C s = Some u -> (length s <= length u)%nat.
Proof.
  intros H. revert u. induction H as [|cp s Hu0 _ IH]; intros u Hu; cbn in *; [lia|]. destruct Hu0 as (v & Hv & Hne & _).
  rewrite Hv in Hu. destruct (enc C s) as [w|]; [|discriminate]. injection Hu as <-.
  specialize (IH w eq_refl). rewrite app_length. destruct v; [congruence|]. cbn. lia.
Qed.

(** Decoding step on an encoded string. *)
Lemma dec_enc_cons C cp s u : ok_cp C cp -> enc C (cp :: s) = Some u ->
  exists v, enc C s = Some v /\ c_dec C u = Some (cp, v) /\ u <> [] /\ (length v < length u)%nat.
Proof.
  intros (w & Hw & Hne & Hd) Hu. cbn in Hu. rewrite Hw in Hu.
  destruct (enc C s) as [v|]; [|discriminate]. injection Hu as <-.
  exists v. repeat split; auto.
  - destruct w; [congruence|discriminate].
  - rewrite app_length. destruct w; [congruence|cbn; lia].
Qed.

(** Loop bodies folded over code points. *)
Fixpoint fold_cps {S : Type} (body : S -> Z -> option S) (st : S) (s : list Z) : option S :=
  match s with
  | [] => Some st
  | cp :: r => match body st cp with None => None | Some st' => fold_cps body st' r end
  end.

Lemma cp_fold_enc {S} C (body : S -> Z -> option S) s : Forall (ok_cp C) s ->
  forall u fuel st, enc C s = Some u -> (length u <= fuel)%nat ->
  cp_fold C fuel body st u = fold_cps body st s.
Proof.
  induction 1 as [|cp s Hcp Hs IH]; intros u fuel st Hu Hf.
  - cbn in Hu. injection Hu as <-. destruct fuel; reflexivity.
  - destruct (dec_enc_cons C cp s u Hcp Hu) as (v & Hv & Hd & Hne & Hlt).
    destruct fuel as [|fuel]; [lia|]. destruct u as [|x u]; [congruence|].
    cbn [cp_fold fold_cps]. rewrite Hd. destruct (body st cp); [|reflexivity]. apply IH; [assumption|lia].
Qed.

Lemma fold_emit D s : forall out,
  fold_cps (emit D) out s = match enc D s with Some v => Some (out ++ v) | None => None end.
Proof.
  induction s as [|cp s IH]; intros out; cbn [fold_cps enc].
  - now rewrite app_nil_r.
  - unfold emit at 1. destruct (c_enc D cp) as [u|]; [|reflexivity]. rewrite IH.
    destruct (enc D s); [|reflexivity]. now rewrite app_assoc.
Qed.

Lemma encoding_cast_enc C D s u : Forall (ok_cp C) s -> enc C s = Some u ->
  encoding_cast C D u = enc D s.
Proof.
  intros Hs Hu. unfold encoding_cast. rewrite (cp_fold_enc C _ s Hs u _ _ Hu) by lia.
  rewrite fold_emit. now destruct (enc D s).
Qed.

Lemma scalar_ok C s : is_utf C -> Forall scalar s -> Forall (ok_cp C) s.
Proof. intros HC. apply Forall_impl. intros cp. now apply ok_scalar. Qed.

Lemma cast_scalar C D s : is_utf C -> is_utf D -> Forall scalar s ->
  exists u v, enc C s = Some u /\ enc D s = Some v /\
    encoding_cast C D u = Some v /\ encoding_cast D C v = Some u.
Proof.
  intros HC HD Hs.
  destruct (enc_ok C s (scalar_ok C s HC Hs)) as [u Hu].
  destruct (enc_ok D s (scalar_ok D s HD Hs)) as [v Hv].
  exists u, v. repeat split; auto.
  - rewrite (encoding_cast_enc C D s u); auto using scalar_ok.
  - rewrite (encoding_cast_enc D C s v); auto using scalar_ok.
Qed.

Lemma cast_app C D s t u v : is_utf C -> is_utf D -> Forall scalar s -> Forall scalar t ->
  enc C s = Some u -> enc C t = Some v ->
  exists a b, encoding_cast C D u = Some a /\ encoding_cast C D v = Some b /\
    encoding_cast C D (u ++ v) = Some (a ++ b).
Proof.
  intros HC HD Hs Ht Hu Hv.
  destruct (enc_ok D s (scalar_ok D s HD Hs)) as [a Ha].
  destruct (enc_ok D t (scalar_ok D t HD Ht)) as [b Hb].
  exists a, b. rewrite (encoding_cast_enc C D s u), (encoding_cast_enc C D t v); auto using scalar_ok.
  repeat split; auto.
  rewrite (encoding_cast_enc C D (s ++ t)).
  - rewrite enc_app, Ha, Hb. reflexivity.
  - apply Forall_app. auto using scalar_ok.
  - now rewrite enc_app, Hu, Hv.
Qed.

Lemma roundtrip C cp rest : is_utf C -> scalar cp ->
  exists u, c_enc C cp = Some u /\ u <> [] /\ c_dec C (u ++ rest) = Some (cp, rest).
Proof. intros HC H. destruct (ok_scalar C cp HC H) as (u & H1 & H2 & H3). eauto. Qed.

Lemma utf8_prefix_free a b ua ub ra rb : 0 <= a < 0x200000 -> 0 <= b < 0x200000 ->
  utf8_to_string a = Some ua -> utf8_to_string b = Some ub -> ua ++ ra = ub ++ rb ->
  a = b /\ ra = rb.
Proof.
  intros Ha Hb Hua Hub H. rewrite utf8_to_string_spec in Hua, Hub by assumption.
  injection Hua as <-. injection Hub as <-.
  pose proof (utf8_read a ra Ha) as H1. rewrite H, utf8_read in H1 by assumption.
  injection H1 as -> ->. auto.
Qed.

Lemma utf8_roundtrip cp rest : 0 <= cp < 0x200000 ->
  exists u, utf8_to_string cp = Some u /\ utf8_to_code_point (u ++ rest) = Some (cp, rest) /\
    (1 <= length u <= 4)%nat /\ Forall (fun b => 0 <= b < 256) u.
Proof.
  intros H. exists (utf8_spec cp). split; [now apply utf8_to_string_spec|]. split; [now apply utf8_read|].
  unfold utf8_spec.
  destruct (Z.ltb_spec cp 0x80); [split; [cbn; lia|repeat constructor; zdiv]|].
  destruct (Z.ltb_spec cp 0x800); [split; [cbn; lia|repeat constructor; zdiv]|].
  destruct (Z.ltb_spec cp 0x10000); (split; [cbn; lia|repeat constructor; zdiv]).
Qed.

Lemma utf16_roundtrip cp rest : scalar cp ->
  exists u, utf16_to_string cp = Some u /\ utf16_to_code_point (u ++ rest) = Some (cp, rest) /\
    (1 <= length u <= 2)%nat /\ Forall (fun b => 0 <= b < 65536) u.
Proof.
  intros H. exists (utf16_spec cp). split; [apply utf16_to_string_spec; unfold scalar in H; lia|].
  split; [now apply utf16_read|]. unfold utf16_spec, scalar in *.
  destruct (Z.ltb_spec cp 0x10000); (split; [cbn; lia|repeat constructor; zdiv]).
Qed.
