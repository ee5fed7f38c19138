(** UTF-8 encoder, UTF-16 decoder, decimal numbers, encoding with character references. *)
From Coq Require Import ZArith List Bool Lia.
From Verif Require Import M_unicode L_unicode M_infra M_percent M_encoding L_encoding L_encoding2 L_enc_utf8 L_enc_codec L_enc_tables L_enc_multi.
Import ListNotations.
Open Scope Z_scope.

(** * UTF-8 *)

Lemma eats_char cp : scalar cp -> exists k, forall m, eats m D0 (utf8_spec cp) [cp] D0 k.
Proof.
  intros S.
  assert (F : Forall byte (utf8_spec cp)).
  { unfold byte.
    destruct (utf8_shape cp S) as [(a & E & ?)|[(a & b & E & ?)|[(a & b & c & E & ?)|(a & b & c & d & E & ?)]]];
      rewrite E; repeat constructor; ifs; lia. }
  assert (N : utf8_spec cp <> []).
  { destruct (utf8_shape cp S) as [(a & E & ?)|[(a & b & E & ?)|[(a & b & c & E & ?)|(a & b & c & d & E & ?)]]];
      rewrite E; discriminate. }
  destruct (head_step _ F N) as [(cp2 & rest & k & S2 & E & R)|(sub & rest & E & _ & _ & C & _)].
  - rewrite <- (app_nil_r (utf8_spec cp)) in E. destruct (utf8_prefix_free _ _ _ _ S S2 E) as [-> _]. now exists k.
  - exfalso. rewrite <- E in C. apply (C cp [] S). now rewrite app_nil_r.
Qed.

Lemma lor_80 x : 0 <= x < 64 -> Z.lor 0x80 x = 0x80 + x.
Proof.
  intros H. assert (L : Z.land 0x80 x = 0).
  { rewrite Z.land_comm, land_80. replace (x / 128) with 0 by zdiv. reflexivity. }
  rewrite <- Z.lxor_lor by exact L. rewrite <- Z.add_nocarry_lxor by exact L. reflexivity.
Qed.

Lemma same_out (a b : list Z) : a = b -> Some (Out a, UTF8_encoder, @nil item) = Some (Out b, UTF8_encoder, []).
Proof. now intros ->. Qed.

Lemma utf8_encoder_spec v : scalar v -> run UTF8_encoder [] (Item v false) = Some (Out (utf8_spec v), UTF8_encoder, []).
Proof.
  intros S. apply scalar_ge in S. cbn [run]. unfold utf8_encoder_run, utf8_spec, is_ascii, in_range. cbn [eoq value].
  destruct (v <? 0x80) eqn:E1.
  { zq. cbn [andb]. rewrite Z.mod_small by lia. reflexivity. }
  replace (v <=? 0x7F) with false by lia. rewrite andb_false_r. replace (0x80 <=? v) with true by lia. cbn [andb].
  unfold utf8_bytes, utf8_tail. cbn [Z.of_nat Pos.of_succ_nat Pos.succ Z.mul Pos.mul Pos.add].
  rewrite ?Z.shiftr_0_r, ?shr_6, ?shr_12, ?shr_18, ?land_3F, ?lor_80 by (apply Z.mod_pos_bound; lia).
  destruct (v <? 0x800) eqn:E2.
  { replace (v <=? 0x7FF) with true by lia. apply same_out; leq. }
  replace (v <=? 0x7FF) with false by lia. replace (0x800 <=? v) with true by lia. cbn [andb].
  destruct (v <? 0x10000) eqn:E3.
  { replace (v <=? 0xFFFF) with true by lia. apply same_out; leq. }
  replace (v <=? 0xFFFF) with false by lia. replace (0x10000 <=? v) with true by lia.
  replace (v <=? 0x10FFFF) with true by lia. cbn [andb]. apply same_out; leq.
Qed.

Lemma utf8_back : decodes_back UTF8_encoder D0 scalar (fun v => v).
Proof.
  intros v l S H. rewrite utf8_encoder_spec in H by exact S. injection H as <-. apply eats_char, S.
Qed.

(** * UTF-16 *)

(** The two bytes of a code unit. *)
Definition unit_bytes (be : bool) (u : Z) : list Z := if be then [u / 256; u mod 256] else [u mod 256; u / 256].
Definition utf16_bytes (be : bool) (cp : Z) : list Z := flat_map (unit_bytes be) (utf16_spec cp).
Notation U16 be := (UTF16_decoder be None None).

Lemma unit_first be ls u : 0 <= u < 65536 ->
  exists b, run (UTF16_decoder be None ls) [] (Item (hd 0 (unit_bytes be u)) false)
            = Some (Continue, UTF16_decoder be (Some b) ls, plain []) /\
    b = hd 0 (unit_bytes be u) /\ 0 <= b < 256.
Proof.
  intros U. exists (hd 0 (unit_bytes be u)). unfold unit_bytes. destruct be; cbn [hd run]; unfold utf16_run; cbn [eoq value andb negb];
    cbv zeta; rewrite Z.mod_small by zdiv; (split; [reflexivity|]; split; [reflexivity|zdiv]).
Qed.

Definition second (be : bool) (u : Z) : Z := nth 1 (unit_bytes be u) 0.
Definition first (be : bool) (u : Z) : Z := nth 0 (unit_bytes be u) 0.
Lemma unit_two be u : unit_bytes be u = [first be u; second be u].
Proof. destruct be; reflexivity. Qed.

Lemma first_run be ls u : 0 <= u < 65536 ->
  run (UTF16_decoder be None ls) [] (Item (first be u) false) = Some (Continue, UTF16_decoder be (Some (first be u)) ls, plain []).
Proof.
  intros U. unfold first, unit_bytes. destruct be; cbn [nth run]; unfold utf16_run; cbn [eoq value andb negb];
    cbv zeta; rewrite Z.mod_small by zdiv; reflexivity.
Qed.

Lemma unit_join (be : bool) u : 0 <= u < 65536 ->
  (if be then first be u * 256 + second be u mod 256 else second be u mod 256 * 256 + first be u) = u.
Proof.
  intros U. unfold first, second, unit_bytes. destruct be; cbn [nth]; rewrite Z.mod_small by zdiv; zdiv.
Qed.

Lemma second_plain be u : 0 <= u < 65536 -> u < 0xD800 \/ 0xDFFF < u ->
  run (UTF16_decoder be (Some (first be u)) None) [] (Item (second be u) false) = Some (Out [u], U16 be, plain []).
Proof.
  intros U N. cbn [run]. unfold utf16_run. cbn [eoq value andb negb]. cbv zeta. rewrite unit_join by exact U.
  unfold in_range. replace ((0xD800 <=? u) && (u <=? 0xDBFF)) with false by lia.
  replace ((0xDC00 <=? u) && (u <=? 0xDFFF)) with false by lia. reflexivity.
Qed.
Lemma second_lead be u : 0xD800 <= u <= 0xDBFF ->
  run (UTF16_decoder be (Some (first be u)) None) [] (Item (second be u) false)
  = Some (Continue, UTF16_decoder be None (Some u), plain []).
Proof.
  intros U. cbn [run]. unfold utf16_run. cbn [eoq value andb negb]. cbv zeta. rewrite unit_join by lia.
  unfold in_range. replace ((0xD800 <=? u) && (u <=? 0xDBFF)) with true by lia. reflexivity.
Qed.
Lemma second_lone be u : 0xDC00 <= u <= 0xDFFF ->
  run (UTF16_decoder be (Some (first be u)) None) [] (Item (second be u) false) = Some (Error no_cp, U16 be, plain []).
Proof.
  intros U. cbn [run]. unfold utf16_run. cbn [eoq value andb negb]. cbv zeta. rewrite unit_join by lia.
  unfold in_range. replace ((0xD800 <=? u) && (u <=? 0xDBFF)) with false by lia.
  replace ((0xDC00 <=? u) && (u <=? 0xDFFF)) with true by lia. reflexivity.
Qed.
Lemma second_trail be lead u : 0xDC00 <= u <= 0xDFFF ->
  run (UTF16_decoder be (Some (first be u)) (Some lead)) [] (Item (second be u) false)
  = Some (Out [0x10000 + (lead - 0xD800) * 1024 + (u - 0xDC00)], U16 be, plain []).
Proof.
  intros U. cbn [run]. unfold utf16_run. cbn [eoq value andb negb]. cbv zeta. rewrite unit_join by lia.
  unfold in_range. replace ((0xDC00 <=? u) && (u <=? 0xDFFF)) with true by lia. reflexivity.
Qed.
(** The code unit that is put back after an unpaired lead surrogate. *)
Definition mangled (u : Z) : Z := if 8 <? u then 256 + u mod 256 else u.
Lemma second_unpaired be lead u : 0 <= u < 65536 -> u < 0xDC00 \/ 0xDFFF < u ->
  run (UTF16_decoder be (Some (first be u)) (Some lead)) [] (Item (second be u) false)
  = Some (Error no_cp, U16 be, plain (unit_bytes be (mangled u))).
Proof.
  intros U N. cbn [run]. unfold utf16_run. cbn [eoq value andb negb]. cbv zeta. rewrite unit_join by lia.
  unfold in_range. replace ((0xDC00 <=? u) && (u <=? 0xDFFF)) with false by lia.
  unfold q_prepend_values. rewrite app_nil_r. unfold mangled. destruct (8 <? u) eqn:E.
  - assert (Ha : (256 + u mod 256) / 256 = 1) by zdiv. assert (Hb : (256 + u mod 256) mod 256 = u mod 256) by zdiv.
    destruct be; cbn [unit_bytes]; rewrite Ha, Hb; reflexivity.
  - assert (Ha : u / 256 = 0) by zdiv. destruct be; cbn [unit_bytes]; rewrite Ha; reflexivity.
Qed.

Lemma utf16_char be cp : scalar cp -> exists k, forall m, eats m (U16 be) (utf16_bytes be cp) [cp] (U16 be) k.
Proof.
  intros S. unfold utf16_bytes, utf16_spec. unfold scalar in S. destruct (cp <? 0x10000) eqn:E.
  - exists 2%nat. intros m. cbn [flat_map app]. rewrite unit_two. eapply eat1; [apply first_run; lia|].
    cbn [app]. apply eat_out, second_plain; lia.
  - exists 4%nat. intros m. cbn [flat_map]. rewrite !unit_two. cbn [app].
    set (h := 55296 + (cp - 65536) / 1024). set (t := 56320 + (cp - 65536) mod 1024).
    assert (H : 0xD800 <= h <= 0xDBFF) by (subst h; zdiv). assert (T : 0xDC00 <= t <= 0xDFFF) by (subst t; zdiv).
    eapply eat1; [apply first_run; lia|]. eapply eat1; [apply second_lead; exact H|].
    eapply eat1; [apply first_run; lia|].
    replace cp with (0x10000 + (h - 0xD800) * 1024 + (t - 0xDC00)) by (subst h t; zdiv).
    apply eat_out, second_trail, T.
Qed.

Lemma utf16_string be s : Forall scalar s ->
  exists k, forall m, eats m (U16 be) (flat_map (utf16_bytes be) s) s (U16 be) k.
Proof.
  induction 1 as [|cp s S _ [k2 H2]]; [exists 0%nat; constructor|].
  destruct (utf16_char be cp S) as [k1 H1]. exists (k1 + k2)%nat. intros m. cbn [flat_map].
  exact (eats_app _ _ _ _ _ _ (H1 m) _ _ _ _ (H2 m)).
Qed.

Lemma utf16_ends be m : ends m (U16 be) [] (Some Finished) 0.
Proof. apply ends_fin. intros q. reflexivity. Qed.

(** A lead surrogate, then a unit that is not a trail surrogate. *)
Lemma utf16_unpaired be lead u m : 0xD800 <= lead <= 0xDBFF -> 0 <= u < 65536 -> u < 0xDC00 \/ 0xDFFF < u ->
  goes m (Error no_cp) = true -> forall rest o c k,
  eats m (U16 be) (unit_bytes be (mangled u) ++ rest) o c k ->
  eats m (U16 be) (unit_bytes be lead ++ unit_bytes be u ++ rest) (emit m (Error no_cp) ++ o) c (4 + k).
Proof.
  intros L U N G rest o c k H. rewrite (unit_two be lead), (unit_two be u). cbn [app].
  eapply eat1; [apply first_run; lia|]. eapply eat1; [apply second_lead; exact L|].
  eapply eat1; [apply first_run; exact U|].
  exact (eats_cons m _ _ rest (Error no_cp) _ (unit_bytes be (mangled u)) _ _ _ (second_unpaired be lead u U N) G H).
Qed.

(** * Decimal numbers *)

(** The digits of [n] without leading zeros. *)
Definition decimal (n : Z) (l : list Z) : Prop :=
  l <> [] /\ Forall (fun c => 0x30 <= c <= 0x39) l /\ fold_left (fun a c => a * 10 + (c - 0x30)) l 0 = n
  /\ (hd 0 l = 0x30 -> l = [0x30]).

Lemma to_chars_loop_spec f : forall n acc, 0 <= n < 2 ^ Z.of_nat f ->
  exists ds, to_chars_loop f 10 n acc = ds ++ acc /\ (0 < f -> decimal n ds)%nat.
Proof.
  induction f as [|f IH]; intros n acc H.
  - exists []. split; [reflexivity|]. lia.
  - cbn [to_chars_loop]. cbv zeta.
    assert (D : digit_char (n mod 10) = 0x30 + n mod 10) by (unfold digit_char; replace (n mod 10 <? 10) with true by (symmetry; zdiv); reflexivity).
    rewrite D. destruct (n <? 10) eqn:E.
    + exists [0x30 + n mod 10]. split; [reflexivity|]. intros _. unfold decimal. rewrite Z.mod_small by lia.
      split; [discriminate|]. split; [repeat constructor; lia|]. cbn [fold_left hd]. split; [lia|].
      intros ->. reflexivity.
    + rewrite Nat2Z.inj_succ, Z.pow_succ_r in H by lia.
      destruct (IH (n / 10) (0x30 + n mod 10 :: acc)) as (ds & Hd & Dec); [zdiv|].
      exists (ds ++ [0x30 + n mod 10]). split; [rewrite Hd, <- app_assoc; reflexivity|]. intros _.
      destruct f as [|f]; [cbn in H; lia|]. destruct (Dec ltac:(lia)) as (N & F & V & Z).
      split; [destruct ds; discriminate|]. split; [apply Forall_app; split; [exact F|repeat constructor; zdiv]|].
      split; [rewrite fold_left_app, V; cbn [fold_left]; zdiv|].
      intros Hh. destruct ds as [|x ds]; [congruence|]. cbn [app hd] in Hh. cbn [hd] in Z. specialize (Z Hh).
      injection Z as -> ->. cbn in V. exfalso. zdiv.
Qed.

Lemma to_chars_decimal n : 0 <= n -> decimal n (to_chars 10 n).
Proof.
  intros H. unfold to_chars.
  destruct (to_chars_loop_spec (S (Z.to_nat (Z.log2 n))) n []) as (ds & E & D).
  - split; [exact H|]. rewrite Nat2Z.inj_succ, Z2Nat.id by apply Z.log2_nonneg.
    destruct (Z.eq_dec n 0) as [->|N]; [reflexivity|]. apply Z.log2_spec. lia.
  - rewrite E, app_nil_r. apply D. lia.
Qed.
