(** Specification and lemmas for CSS preprocessing, escapes and tokenisation (model: M_css). *)
From Coq Require Import ZArith List Bool Lia.
From Verif Require Import M_unicode M_infra M_percent M_encoding M_labels M_css L_unicode.
Import ListNotations.
Open Scope Z_scope.

(** * Preprocessing *)

(** What preprocessing makes of a text, read from the left (CSS Syntax 3.3). *)
Inductive Preprocessed : list Z -> list Z -> Prop :=
| pre_nil : Preprocessed [] []
| pre_crlf r o : Preprocessed r o -> Preprocessed (0x0D :: 0x0A :: r) (0x0A :: o)
| pre_cr r o : hd_error r <> Some 0x0A -> Preprocessed r o -> Preprocessed (0x0D :: r) (0x0A :: o)
| pre_ff r o : Preprocessed r o -> Preprocessed (0x0C :: r) (0x0A :: o)
| pre_nul r o : Preprocessed r o -> Preprocessed (0x00 :: r) (0xFFFD :: o)
| pre_surrogate c r o : 0xD800 <= c <= 0xDFFF -> Preprocessed r o -> Preprocessed (c :: r) (0xFFFD :: o)
| pre_other c r o : c <> 0x0D -> c <> 0x0C -> c <> 0x00 -> ~ (0xD800 <= c <= 0xDFFF) ->
    Preprocessed r o -> Preprocessed (c :: r) (c :: o).

(** The same as a function, for the proofs. *)
Fixpoint pre (s : list Z) : list Z :=
  match s with
  | [] => []
  | cp :: r =>
      if cp =? 0x0D then
        match r with
        | 0x0A :: _ => pre r
        | _ => 0x0A :: pre r
        end
      else if cp =? 0x0C then 0x0A :: pre r
      else if cp =? 0x00 then 0xFFFD :: pre r
      else (if is_surrogate cp then 0xFFFD else cp) :: pre r
  end.

Lemma surrogate_iff c : is_surrogate c = true <-> 0xD800 <= c <= 0xDFFF.
Proof. unfold is_surrogate. rewrite andb_true_iff, !Z.leb_le. reflexivity. Qed.

Lemma hd_case (r : list Z) : (exists r', r = 0x0A :: r') \/ hd_error r <> Some 0x0A.
Proof.
  destruct r as [|x r]; [right; cbn; congruence|].
  destruct (Z.eq_dec x 0x0A) as [->|N]; [left; eauto|right; cbn; congruence].
Qed.

Lemma pre_cr_lf r : pre (0x0D :: 0x0A :: r) = 0x0A :: pre r.
Proof. reflexivity. Qed.
Lemma match_lf {A} (r : list Z) (a b : A) : hd_error r <> Some 0x0A ->
  match r with 0x0A :: _ => a | _ => b end = b.
Proof.
  intros N. destruct r as [|x r]; [reflexivity|]. cbn in N.
  destruct x as [|p|p]; try reflexivity. do 4 (destruct p as [p|p|]; try reflexivity). congruence.
Qed.
Lemma pre_cr_alone r : hd_error r <> Some 0x0A -> pre (0x0D :: r) = 0x0A :: pre r.
Proof. intros N. cbn [pre]. exact (match_lf r _ _ N). Qed.

Lemma pre_ok s : Preprocessed s (pre s).
Proof.
  remember (length s) as n eqn:L. revert s L. induction n as [n IH] using lt_wf_ind. intros s ->.
  destruct s as [|c r]; [constructor|].
  destruct (Z.eqb_spec c 0x0D) as [->|N1].
  { destruct (hd_case r) as [(r' & ->)|N].
    - rewrite pre_cr_lf. constructor. eapply IH; [|reflexivity]. cbn; lia.
    - rewrite pre_cr_alone by exact N. apply pre_cr; [exact N|]. eapply IH; [|reflexivity]. cbn; lia. }
  assert (H : Preprocessed r (pre r)) by (eapply IH; [|reflexivity]; cbn; lia).
  cbn [pre]. destruct (Z.eqb_spec c 0x0D) as [|_]; [congruence|].
  destruct (Z.eqb_spec c 0x0C) as [->|N2]; [now constructor|].
  destruct (Z.eqb_spec c 0x00) as [->|N3]; [now constructor|].
  destruct (is_surrogate c) eqn:E.
  - apply surrogate_iff in E. now constructor.
  - apply pre_other; auto. rewrite <- surrogate_iff. congruence.
Qed.

Lemma pre_unique s o : Preprocessed s o -> o = pre s.
Proof.
  induction 1 as [|r o H IH|r o N H IH|r o H IH|r o H IH|c r o B H IH|c r o N1 N2 N3 N4 H IH].
  - reflexivity.
  - rewrite pre_cr_lf. now f_equal.
  - rewrite pre_cr_alone by exact N. now f_equal.
  - cbn. now f_equal.
  - cbn. now f_equal.
  - cbn [pre]. rewrite (proj2 (surrogate_iff c) B).
    destruct (Z.eqb_spec c 0x0D); [lia|]. destruct (Z.eqb_spec c 0x0C); [lia|]. destruct (Z.eqb_spec c 0x00); [lia|].
    now f_equal.
  - cbn [pre]. destruct (Z.eqb_spec c 0x0D); [lia|]. destruct (Z.eqb_spec c 0x0C); [lia|].
    destruct (Z.eqb_spec c 0x00); [lia|]. destruct (is_surrogate c) eqn:E; [apply surrogate_iff in E; lia|]. now f_equal.
Qed.

(** Not left behind by preprocessing: CR, FF, NUL and surrogates. *)
Definition clean (c : Z) : Prop := c <> 0x0D /\ c <> 0x0C /\ c <> 0x00 /\ ~ (0xD800 <= c <= 0xDFFF).

Lemma pre_clean s : Forall clean (pre s).
Proof.
  generalize (pre_ok s). generalize (pre s). intros o H.
  induction H; constructor; auto; unfold clean; repeat split; try lia.
Qed.
Lemma pre_id s : Forall clean s -> pre s = s.
Proof.
  intros H. symmetry. apply pre_unique. induction H as [|c s (A & B & C & D) F IH]; constructor; auto.
Qed.
Lemma pre_short s : (length (pre s) <= length s)%nat.
Proof.
  generalize (pre_ok s). generalize (pre s). intros o H. induction H; cbn [length]; lia.
Qed.

(** The in-place loop: what is read is still unwritten. *)
Lemma set_at_length i v l : length (set_at i v l) = length l.
Proof. revert i. induction l as [|x l IH]; intros [|i]; cbn; auto. Qed.
Lemma set_at_skipn i v l k : (i < k)%nat -> skipn k (set_at i v l) = skipn k l.
Proof.
  revert i k. induction l as [|x l IH]; intros [|i] [|k] H; cbn; auto; try lia.
  apply IH. lia.
Qed.
Lemma set_at_firstn i v l : (i < length l)%nat -> firstn (S i) (set_at i v l) = firstn i l ++ [v].
Proof.
  revert i. induction l as [|x l IH]; intros [|i] H; cbn [length] in H; try lia; [reflexivity|].
  cbn [set_at firstn app]. f_equal. apply IH. lia.
Qed.
Lemma nth_skipn (l : list Z) k c r : skipn k l = c :: r -> nth_error l k = Some c /\ skipn (S k) l = r /\ (k < length l)%nat.
Proof.
  revert k. induction l as [|x l IH]; intros [|k] H; cbn in *; try discriminate.
  - injection H as -> ->. repeat split. lia.
  - destruct (IH k H) as (A & B & C). repeat split; auto. lia.
Qed.
Lemma nth_skipn_nil (l : list Z) k : skipn k l = [] -> nth_error l k = None.
Proof.
  revert k. induction l as [|x l IH]; intros [|k] H; cbn in *; try discriminate; auto.
Qed.
Lemma hd_nth (l : list Z) k : nth_error l k = hd_error (skipn k l).
Proof. revert k. induction l as [|x l IH]; intros [|k]; cbn; auto. Qed.

Lemma filter_loop_ok fuel : forall s buf first out acc, (out <= first)%nat -> (length s <= fuel)%nat ->
  skipn first buf = s -> firstn out buf = acc -> length acc = out ->
  exists buf' , filter_loop fuel buf first out = (buf', (out + length (pre s))%nat) /\
    length buf' = length buf /\ firstn (out + length (pre s)) buf' = acc ++ pre s.
Proof.
  induction fuel as [|f IH]; intros s buf first out acc Ho Hf Hs Ha Hl.
  - destruct s; [|cbn in Hf; lia]. cbn [pre length filter_loop]. exists buf. rewrite Nat.add_0_r, app_nil_r. auto.
  - cbn [filter_loop]. destruct s as [|c r].
    + rewrite (nth_skipn_nil _ _ Hs). cbn [pre length]. exists buf. rewrite Nat.add_0_r, app_nil_r. auto.
    + destruct (nth_skipn _ _ _ _ Hs) as (N & Sk & Lt). rewrite N. cbv zeta.
      assert (Put : forall v, (pre (c :: r) = v :: pre r) ->
        exists buf', filter_loop f (set_at out v buf) (S first) (S out) = (buf', (out + length (pre (c :: r)))%nat) /\
          length buf' = length buf /\ firstn (out + length (pre (c :: r))) buf' = acc ++ pre (c :: r)).
      { intros v E. rewrite E. cbn [length].
        destruct (IH r (set_at out v buf) (S first) (S out) (acc ++ [v])) as (b' & B1 & B2 & B3).
        - lia.
        - cbn in Hf. lia.
        - rewrite set_at_skipn by lia. exact Sk.
        - rewrite set_at_firstn by lia. now rewrite Ha.
        - rewrite app_length. cbn. lia.
        - exists b'. replace (out + S (length (pre r)))%nat with (S out + length (pre r))%nat by lia.
          rewrite B1, B2, B3, set_at_length, <- app_assoc. auto. }
      destruct (Z.eqb_spec c 0x0D) as [->|N1].
      { rewrite hd_nth, Sk. destruct (hd_case r) as [(r' & ->)|Nh].
        - cbn [hd_error]. rewrite pre_cr_lf. change (0x0A :: pre r') with (pre (0x0A :: r')).
          apply (IH (0x0A :: r') buf (S first) out acc); auto; cbn in *; lia.
        - specialize (Put 0x0A (pre_cr_alone r Nh)).
          destruct (hd_error r) as [x|] eqn:Eh; [|exact Put].
          assert (x <> 0x0A) by congruence.
          destruct x as [|p|p]; try exact Put. do 4 (destruct p as [p|p|]; try exact Put). congruence. }
      assert (E1 : (c =? 0x0D) = false) by now apply Z.eqb_neq.
      destruct (Z.eqb_spec c 0x0C) as [->|N2]; [apply Put; reflexivity|].
      destruct (Z.eqb_spec c 0x00) as [->|N3]; [apply Put; reflexivity|].
      apply Put. cbn [pre]. rewrite E1.
      destruct (Z.eqb_spec c 0x0C); [lia|]. destruct (Z.eqb_spec c 0x00); [lia|]. reflexivity.
Qed.

Lemma filter_ok s : exists buf n, filter_code_points s = (buf, n) /\ length buf = length s /\ firstn n buf = pre s /\ n = length (pre s).
Proof.
  unfold filter_code_points. destruct (filter_loop_ok (length s) s s 0 0 []) as (b & A & B & C); auto.
  exists b, (length (pre s)). auto.
Qed.

(** * Character classes and escapes *)

Definition dec_digit (c : Z) : Prop := 0x30 <= c <= 0x39.
Definition hex_digit (c : Z) : Prop := 0x30 <= c <= 0x39 \/ 0x41 <= c <= 0x46 \/ 0x61 <= c <= 0x66.
Definition white (c : Z) : Prop := c = 0x0A \/ c = 0x09 \/ c = 0x20.
(** Value of one hexadecimal digit and of a digit string. *)
Definition hex_value (c : Z) : Z := if c <=? 0x39 then c - 0x30 else if c <=? 0x46 then c - 0x37 else c - 0x57.
Definition number_of (base : Z) (ds : list Z) : Z := fold_left (fun v c => base * v + hex_value c) ds 0.
(** The code point an escape with value [v] stands for. *)
Definition escape_value (v : Z) : Z :=
  if (v =? 0) || ((0xD800 <=? v) && (v <=? 0xDFFF)) || (0x10FFFF <? v) then 0xFFFD else v.

Lemma is_digit_iff c : is_digit c = true <-> dec_digit c.
Proof. unfold is_digit, dec_digit. rewrite andb_true_iff, !Z.leb_le. reflexivity. Qed.
Lemma is_hex_iff c : is_hex_digit c = true <-> hex_digit c.
Proof.
  unfold is_hex_digit, is_digit, hex_digit. rewrite !orb_true_iff, !andb_true_iff, !Z.leb_le. tauto.
Qed.
Lemma is_white_iff c : is_whitespace c = true <-> white c.
Proof. unfold is_whitespace, is_newline, white. rewrite !orb_true_iff, !Z.eqb_eq. tauto. Qed.

Lemma digit_val_hex c : hex_digit c -> digit_val (c mod 256) = Some (hex_value c) /\ 0 <= hex_value c < 16.
Proof.
  intros H. unfold hex_digit in H. rewrite Z.mod_small by lia. unfold digit_val, hex_value.
  destruct (Z.leb_spec 0x30 c); destruct (Z.leb_spec c 0x39); destruct (Z.leb_spec 0x61 c); destruct (Z.leb_spec c 0x7A);
    destruct (Z.leb_spec 0x41 c); destruct (Z.leb_spec c 0x5A); destruct (Z.leb_spec c 0x46); cbn [andb]; split; try lia; f_equal; lia.
Qed.
Lemma dec_value c : dec_digit c -> hex_value c = c - 0x30 /\ 0 <= hex_value c < 10.
Proof. unfold dec_digit, hex_value. intros H. destruct (Z.leb_spec c 0x39); lia. Qed.

Lemma prefix_number base ds : forall v n, 0 < base <= 16 -> Forall (fun c => hex_digit c /\ hex_value c < base) ds ->
  digits_prefix base (map (fun c => c mod 256) ds) v n
  = (fold_left (fun v c => base * v + hex_value c) ds v, (n + length ds)%nat).
Proof.
  induction ds as [|c ds IH]; intros v n Hb F; cbn [map digits_prefix fold_left length].
  - f_equal. lia.
  - inversion F as [|x y [H1 H2] F']; subst. destruct (digit_val_hex c H1) as [-> R].
    destruct (Z.ltb_spec (hex_value c) base); [|lia]. rewrite IH by auto. f_equal; [f_equal; lia|lia].
Qed.

Lemma fold_bound base ds : forall v, 0 < base -> Forall (fun c => 0 <= hex_value c < base) ds -> 0 <= v ->
  0 <= fold_left (fun v c => base * v + hex_value c) ds v < (v + 1) * base ^ Z.of_nat (length ds).
Proof.
  induction ds as [|c ds IH]; intros v Hb F Hv; cbn [fold_left length].
  - change (Z.of_nat 0) with 0. rewrite Z.pow_0_r. lia.
  - inversion F as [|x y H1 F']; subst. rewrite Nat2Z.inj_succ, Z.pow_succ_r by lia.
    destruct (IH (base * v + hex_value c) Hb F') as [A B]; [nia|]. split; [exact A|].
    eapply Z.lt_le_trans; [exact B|].
    assert (0 < base ^ Z.of_nat (length ds)) by (apply Z.pow_pos_nonneg; lia). nia.
Qed.

Lemma from_hex ds : ds <> [] -> (length ds <= 6)%nat -> Forall hex_digit ds ->
  from_chars 16 (2 ^ 32 - 1) (map (fun c => c mod 256) ds) = Some (number_of 16 ds).
Proof.
  intros N L F. unfold from_chars. rewrite prefix_number; [|lia|].
  2: { eapply Forall_impl; [|exact F]. cbn. intros c H. split; [exact H|]. now apply digit_val_hex in H. }
  cbn [Nat.add]. destruct ds as [|c ds]; [congruence|]. fold (number_of 16 (c :: ds)).
  cbn [length]. destruct (Z.leb_spec (number_of 16 (c :: ds)) (2 ^ 32 - 1)) as [_|B]; [reflexivity|].
  exfalso. destruct (fold_bound 16 (c :: ds) 0) as [_ U]; [lia| |lia|].
  { eapply Forall_impl; [|exact F]. cbn. intros x H. now apply digit_val_hex in H. }
  fold (number_of 16 (c :: ds)) in U.
  assert (16 ^ Z.of_nat (length (c :: ds)) <= 16 ^ 6) by (apply Z.pow_le_mono_r; lia).
  assert (16 ^ 6 = 16777216) by reflexivity. lia.
Qed.

Lemma hex_run_ok n : forall ds s, Forall hex_digit ds -> (length ds <= n)%nat ->
  (length ds = n \/ (forall c, hd_error s = Some c -> ~ hex_digit c)) -> hex_run n (ds ++ s) = (ds, s).
Proof.
  induction n as [|n IH]; intros ds s F L H.
  - destruct ds; [|cbn in L; lia]. cbn. destruct s; reflexivity.
  - destruct ds as [|d ds].
    + destruct H as [H|H]; [discriminate|]. cbn [app]. destruct s as [|c s]; [reflexivity|].
      cbn [hex_run]. destruct (is_hex_digit c) eqn:E; [|reflexivity].
      apply is_hex_iff in E. destruct (H c eq_refl E).
    + inversion F as [|x y H1 H2]; subst. cbn [app hex_run]. rewrite (proj2 (is_hex_iff d) H1).
      rewrite IH; auto; cbn in L; [lia|]. destruct H as [H|H]; [left; cbn in H; lia|right; exact H].
Qed.

Lemma hex_run_inv n : forall s ds r, hex_run n s = (ds, r) -> s = ds ++ r /\ Forall hex_digit ds /\ (length ds <= n)%nat /\
  (length ds = n \/ forall c, hd_error r = Some c -> ~ hex_digit c).
Proof.
  induction n as [|n IH]; intros s ds r H.
  - destruct s; cbn in H; injection H as <- <-; repeat split; auto.
  - destruct s as [|c s]; cbn [hex_run] in H.
    + injection H as <- <-. repeat split; auto; [cbn; lia|]. right. cbn. discriminate.
    + destruct (is_hex_digit c) eqn:E.
      * destruct (hex_run n s) as [a b] eqn:R. injection H as <- <-. destruct (IH s a b R) as (-> & F & L & M).
        repeat split; [constructor; [now apply is_hex_iff|exact F]|cbn; lia|].
        destruct M as [M|M]; [left; cbn; lia|right; exact M].
      * injection H as <- <-. repeat split; auto; [cbn; lia|]. right. cbn. intros x [= <-] X.
        apply is_hex_iff in X. congruence.
Qed.

(** The text after an escape's digits with one whitespace dropped. *)
Inductive AfterEscape : list Z -> list Z -> Prop :=
| after_white w r : white w -> AfterEscape (w :: r) r
| after_none r : (forall c, hd_error r = Some c -> ~ white c) -> AfterEscape r r.

(** CSS Syntax 4.3.7, after the backslash: text, code point, rest. *)
Inductive Escape : list Z -> Z -> list Z -> Prop :=
| esc_end : Escape [] 0xFFFD []
| esc_char c r : ~ hex_digit c -> Escape (c :: r) c r
| esc_hex ds t r : (1 <= length ds <= 6)%nat -> Forall hex_digit ds ->
    (length ds = 6%nat \/ forall c, hd_error t = Some c -> ~ hex_digit c) -> AfterEscape t r ->
    Escape (ds ++ t) (escape_value (number_of 16 ds)) r.

Lemma skip_one_after t : AfterEscape t (skip_one_whitespace t).
Proof.
  destruct t as [|c t]; cbn [skip_one_whitespace]; [constructor; discriminate|].
  destruct (is_whitespace c) eqn:E; constructor; [now apply is_white_iff|].
  cbn. intros x [= <-] W. apply is_white_iff in W. congruence.
Qed.
Lemma after_skip t r : AfterEscape t r -> r = skip_one_whitespace t.
Proof.
  intros H. destruct H as [w r W|r N].
  - cbn. now rewrite (proj2 (is_white_iff w) W).
  - destruct r as [|c r]; [reflexivity|]. cbn. destruct (is_whitespace c) eqn:E; [|reflexivity].
    apply is_white_iff in E. destruct (N c eq_refl E).
Qed.

Lemma escape_ok s : exists c r, consume_escaped_code_point s = Some (c, r) /\ Escape s c r.
Proof.
  destruct s as [|c s]; [exists 0xFFFD, []; split; [reflexivity|constructor]|].
  unfold consume_escaped_code_point. destruct (is_hex_digit c) eqn:E.
  - destruct (hex_run 5 s) as [ds t] eqn:R. destruct (hex_run_inv 5 s ds t R) as (-> & F & L & M).
    apply is_hex_iff in E. assert (F1 : Forall hex_digit (c :: ds)) by now constructor.
    rewrite (from_hex (c :: ds)); [|discriminate|cbn; lia|exact F1].
    exists (escape_value (number_of 16 (c :: ds))), (skip_one_whitespace t). split.
    + unfold escape_value, is_surrogate. destruct (_ || _); reflexivity.
    + change (c :: ds ++ t) with ((c :: ds) ++ t). apply esc_hex; auto; [cbn; lia| |apply skip_one_after].
      destruct M as [M|M]; [left; cbn; lia|right; exact M].
  - exists c, s. split; [reflexivity|]. constructor. rewrite <- is_hex_iff. congruence.
Qed.

Lemma escape_det s c r : Escape s c r -> consume_escaped_code_point s = Some (c, r).
Proof.
  intros H. destruct H as [|c r N|ds t r L F M A].
  - reflexivity.
  - unfold consume_escaped_code_point. destruct (is_hex_digit c) eqn:E; [|reflexivity]. apply is_hex_iff in E. contradiction.
  - destruct ds as [|d ds]; [cbn in L; lia|]. inversion F as [|x y H1 H2]; subst. cbn [app consume_escaped_code_point].
    rewrite (proj2 (is_hex_iff d) H1). rewrite (hex_run_ok 5 ds t); auto; [|cbn in L; lia|].
    2: { destruct M as [M|M]; [left; cbn in M; lia|right; exact M]. }
    rewrite (from_hex (d :: ds)); [|discriminate|cbn in *; lia|exact F]. rewrite (after_skip t r A).
    unfold escape_value, is_surrogate. destruct (_ || _); reflexivity.
Qed.

Lemma number16_nonneg ds : Forall hex_digit ds -> 0 <= number_of 16 ds.
Proof.
  intros F. apply (fold_bound 16 ds 0); [lia| |lia].
  eapply Forall_impl; [|exact F]. cbn. intros x H. now apply digit_val_hex in H.
Qed.
Lemma escape_value_scalar v : 0 <= v -> scalar (escape_value v) /\ escape_value v <> 0.
Proof.
  intros H. unfold escape_value, scalar.
  destruct (Z.eqb_spec v 0); cbn [orb]; [lia|].
  destruct (Z.leb_spec 0xD800 v); destruct (Z.leb_spec v 0xDFFF); cbn [andb orb]; destruct (Z.ltb_spec 0x10FFFF v); lia.
Qed.
Lemma escape_scalar s c r : Escape s c r -> Forall scalar s -> scalar c /\ Forall scalar r.
Proof.
  intros H F. destruct H as [|c r N|ds t r L D M A].
  - split; [unfold scalar; lia|constructor].
  - inversion F; auto.
  - split; [apply escape_value_scalar, number16_nonneg, D|]. apply Forall_app in F as [_ F].
    destruct A as [w r W|r N]; [inversion F; auto|exact F].
Qed.
