(** Strings, identifiers, numbers and urls are read as written (model: M_css). *)
From Coq Require Import ZArith List Bool Lia.
From Verif Require Import M_unicode M_infra M_percent M_encoding M_labels M_css L_unicode L_css L_css2 L_css3.
Import ListNotations.
Open Scope Z_scope.

(** [Spelled ok cont rest t v]: the text [t], followed by [rest], spells the code points [v]: a code point allowed
    by [ok] stands for itself, a backslash escape stands for the code point it names, and with [cont] a
    backslash before a newline stands for nothing. *)
Inductive Spelled (ok : Z -> Prop) (cont : bool) (rest : list Z) : list Z -> list Z -> Prop :=
| sp_nil : Spelled ok cont rest [] []
| sp_raw c t v : ok c -> Spelled ok cont rest t v -> Spelled ok cont rest (c :: t) (c :: v)
| sp_char c t v : ~ hex_digit c -> c <> 0x0A -> Spelled ok cont rest t v -> Spelled ok cont rest (0x5C :: c :: t) (c :: v)
| sp_hex_white ds w t v : (1 <= length ds <= 6)%nat -> Forall hex_digit ds -> white w -> Spelled ok cont rest t v ->
    Spelled ok cont rest (0x5C :: ds ++ w :: t) (escape_value (number_of 16 ds) :: v)
| sp_hex ds t v : (1 <= length ds <= 6)%nat -> Forall hex_digit ds ->
    (length ds = 6%nat \/ forall c, hd_error (t ++ rest) = Some c -> ~ hex_digit c) ->
    (forall c, hd_error (t ++ rest) = Some c -> ~ white c) -> Spelled ok cont rest t v ->
    Spelled ok cont rest (0x5C :: ds ++ t) (escape_value (number_of 16 ds) :: v)
| sp_newline t v : cont = true -> Spelled ok cont rest t v -> Spelled ok cont rest (0x5C :: 0x0A :: t) v.

Lemma white_not_hex w : white w -> ~ hex_digit w.
Proof. unfold white, hex_digit. lia. Qed.
Lemma esc_white ds w t : (1 <= length ds <= 6)%nat -> Forall hex_digit ds -> white w ->
  Escape (ds ++ w :: t) (escape_value (number_of 16 ds)) t.
Proof.
  intros L F W. apply esc_hex; auto; [|now constructor]. right. cbn. intros c [= <-]. now apply white_not_hex.
Qed.
Lemma esc_plain ds t : (1 <= length ds <= 6)%nat -> Forall hex_digit ds ->
  (length ds = 6%nat \/ forall c, hd_error t = Some c -> ~ hex_digit c) -> (forall c, hd_error t = Some c -> ~ white c) ->
  Escape (ds ++ t) (escape_value (number_of 16 ds)) t.
Proof. intros L F M W. apply esc_hex; auto. now constructor. Qed.

(** One escape, seen from the spelling. *)
Lemma spelled_escape ok cont rest s ch r' t v : Escape s ch r' -> s <> [] -> hd_error s <> Some 0x0A -> r' = t ++ rest ->
  Spelled ok cont rest t v -> exists t', s = t' ++ rest /\ Spelled ok cont rest (0x5C :: t') (ch :: v).
Proof.
  intros H N Nl -> Sp. inversion H as [E1|c1 r1 N1 E1 E2 E3|ds u r1 Ln F M A E1 E2 E3]; subst.
  - congruence.
  - exists (ch :: t). split; [reflexivity|]. apply sp_char; auto. cbn in Nl. congruence.
  - inversion A as [w r2 W E4 E5|r2 W E4 E5]; subst.
    + exists (ds ++ w :: t). split; [rewrite <- app_assoc; reflexivity|]. now apply sp_hex_white.
    + exists (ds ++ t). split; [rewrite <- app_assoc; reflexivity|]. now apply sp_hex.
Qed.

(** * Strings *)

Definition string_char (q c : Z) : Prop := c <> q /\ c <> 0x0A /\ c <> 0x5C.

Lemma nl_iff c : is_newline c = true <-> c = 0x0A.
Proof. apply Z.eqb_eq. Qed.

(** The rest of the text and the token for the three ways a string ends. *)
Inductive StringEnd (q : Z) : list Z -> (list Z -> token) -> list Z -> Prop :=
| se_quote r : StringEnd q (q :: r) Str r
| se_newline r : q <> 0x0A -> StringEnd q (0x0A :: r) (fun _ => BadString) (0x0A :: r)
| se_eof : StringEnd q [] Str []
| se_backslash : q <> 0x5C -> StringEnd q [0x5C] Str [].

Lemma string_end q e k r f acc : StringEnd q e k r -> (length e <= f)%nat -> consume_string_loop f q acc e = Some (k acc, r).
Proof.
  intros H L. destruct H as [r|r N| |N].
  - destruct f; [cbn in L; lia|]. cbn. now rewrite Z.eqb_refl.
  - destruct f; [cbn in L; lia|]. cbn [consume_string_loop]. destruct (Z.eqb_spec 0x0A q); [congruence|]. reflexivity.
  - destruct f; reflexivity.
  - destruct f; [cbn in L; lia|]. cbn [consume_string_loop]. destruct (Z.eqb_spec 0x5C q); [congruence|]. destruct f; reflexivity.
Qed.

Lemma string_spelled q e k r : q <> 0x5C -> StringEnd q e k r -> forall t v, Spelled (string_char q) true e t v ->
  forall f acc, (length (t ++ e) <= f)%nat -> consume_string_loop f q acc (t ++ e) = Some (k (acc ++ v), r).
Proof.
  intros Q E. induction 1 as [|c t v (A & B & C) Sp IH|c t v N1 N2 Sp IH|ds w t v Ln F W Sp IH|ds t v Ln F M W Sp IH|t v _ Sp IH]; intros f acc L.
  - rewrite app_nil_r. now apply string_end.
  - cbn [app] in *. destruct f; [cbn in L; lia|]. cbn [consume_string_loop]. destruct (Z.eqb_spec c q); [congruence|].
    destruct (is_newline c) eqn:X; [apply nl_iff in X; congruence|]. destruct (Z.eqb_spec c 0x5C); [congruence|].
    rewrite IH by (cbn in L; lia). now rewrite <- app_assoc.
  - cbn [app] in *. destruct f; [cbn in L; lia|]. cbn [consume_string_loop]. destruct (Z.eqb_spec 0x5C q); [congruence|].
    change (is_newline 0x5C) with false. cbv iota. rewrite Z.eqb_refl.
    destruct (is_newline c) eqn:X; [apply nl_iff in X; congruence|].
    rewrite (escape_det (c :: t ++ e) c (t ++ e)) by now constructor.
    rewrite IH by (cbn in L; lia). now rewrite <- app_assoc.
  - destruct f; [cbn in L; lia|].
    assert (Es : Escape (ds ++ w :: t ++ e) (escape_value (number_of 16 ds)) (t ++ e)) by now apply esc_white.
    cbn [app] in *. rewrite <- app_assoc in *. cbn [app] in *. cbn [consume_string_loop].
    destruct (Z.eqb_spec 0x5C q); [congruence|].
    change (is_newline 0x5C) with false. cbv iota. rewrite Z.eqb_refl.
    destruct ds as [|d ds]; [cbn in Ln; lia|]. cbn [app] in *. inversion F as [|x y D F']; subst.
    destruct (is_newline d) eqn:X; [apply nl_iff in X; unfold hex_digit in D; lia|].
    rewrite (escape_det _ _ _ Es). rewrite IH; [now rewrite <- app_assoc|].
    cbn [length] in L. rewrite app_length in L. cbn [length] in L. lia.
  - destruct f; [cbn in L; lia|].
    assert (Es : Escape (ds ++ t ++ e) (escape_value (number_of 16 ds)) (t ++ e)) by now apply esc_plain.
    cbn [app] in *. rewrite <- app_assoc in *. cbn [consume_string_loop].
    destruct (Z.eqb_spec 0x5C q); [congruence|].
    change (is_newline 0x5C) with false. cbv iota. rewrite Z.eqb_refl.
    destruct ds as [|d ds]; [cbn in Ln; lia|]. cbn [app] in *. inversion F as [|x y D F']; subst.
    destruct (is_newline d) eqn:X; [apply nl_iff in X; unfold hex_digit in D; lia|].
    rewrite (escape_det _ _ _ Es). rewrite IH; [now rewrite <- app_assoc|].
    cbn [length] in L. rewrite app_length in L. lia.
  - cbn [app] in *. destruct f; [cbn in L; lia|]. cbn [consume_string_loop]. destruct (Z.eqb_spec 0x5C q); [congruence|].
    change (is_newline 0x5C) with false. cbv iota. rewrite Z.eqb_refl. change (is_newline 0x0A) with true. cbv iota.
    apply IH. cbn in L. lia.
Qed.

(** Every text is spelled out up to one of the ends. *)
Lemma string_split q : q <> 0x5C -> q <> 0x0A -> forall n s, (length s <= n)%nat ->
  exists t e k r v, s = t ++ e /\ StringEnd q e k r /\ Spelled (string_char q) true e t v.
Proof.
  intros Q1 Q2. induction n as [|n IH]; intros s L.
  - destruct s; [|cbn in L; lia]. exists [], [], Str, [], []. repeat split; constructor.
  - destruct s as [|c s]; [exists [], [], Str, [], []; repeat split; constructor|].
    destruct (Z.eq_dec c q) as [->|Nq]; [exists [], (q :: s), Str, s, []; repeat split; constructor|].
    destruct (Z.eq_dec c 0x0A) as [->|Nn]; [exists [], (0x0A :: s), (fun _ => BadString), (0x0A :: s), []; repeat split; constructor; auto|].
    destruct (Z.eq_dec c 0x5C) as [->|Nb].
    + destruct s as [|d s]; [exists [], [0x5C], Str, [], []; repeat split; constructor; auto|].
      destruct (Z.eq_dec d 0x0A) as [->|Nd].
      * destruct (IH s) as (t & e & k & r & v & -> & E & Sp); [cbn in L; lia|].
        exists (0x5C :: 0x0A :: t), e, k, r, v. repeat split; auto. now constructor.
      * destruct (escape_ok (d :: s)) as (ch & r' & _ & Es). assert (Lr := escape_strict _ _ _ Es ltac:(discriminate)).
        destruct (IH r') as (t & e & k & r & v & Er & E & Sp); [cbn in *; lia|].
        destruct (spelled_escape (string_char q) true e _ _ _ t v Es) as (t' & Et & Sp'); auto; try discriminate; [cbn; congruence|].
        exists (0x5C :: t'), e, k, r, (ch :: v). repeat split; auto. rewrite Et. reflexivity.
    + destruct (IH s) as (t & e & k & r & v & -> & E & Sp); [cbn in L; lia|].
      exists (c :: t), e, k, r, (c :: v). repeat split; auto. constructor; auto. unfold string_char. auto.
Qed.

Lemma quote_token q s : q = 0x22 \/ q = 0x27 -> consume_token (q :: s) = consume_string_token q s.
Proof.
  intros Q. unfold consume_token. rewrite comments_id by (destruct Q as [-> | ->]; discriminate).
  destruct Q as [-> | ->]; reflexivity.
Qed.

(** * Identifiers *)

Definition ident_start (c : Z) : Prop := 0x41 <= c <= 0x5A \/ 0x61 <= c <= 0x7A \/ 0x80 <= c <= 0x10FFFF \/ c = 0x5F.
Definition ident_char (c : Z) : Prop := ident_start c \/ dec_digit c \/ c = 0x2D.

Lemma ident_start_iff c : is_identifier_start_code_point c = true <-> ident_start c.
Proof.
  unfold is_identifier_start_code_point, is_letter, is_uppercase_letter, is_lowercase_letter, is_non_ascii_code_point, ident_start.
  rewrite !orb_true_iff, !andb_true_iff, !Z.leb_le, Z.eqb_eq. tauto.
Qed.
Lemma ident_char_iff c : is_identifier_code_point c = true <-> ident_char c.
Proof.
  unfold is_identifier_code_point, ident_char. rewrite !orb_true_iff, ident_start_iff, is_digit_iff, Z.eqb_eq. tauto.
Qed.
Lemma ident_char_not c : ~ ident_char c -> is_identifier_code_point c = false.
Proof. intros H. destruct (is_identifier_code_point c) eqn:E; [apply ident_char_iff in E; contradiction|reflexivity]. Qed.

(** The identifier stops here: no identifier code point and no escape. *)
Definition IdentEnd (rest : list Z) : Prop :=
  (forall c, hd_error rest = Some c -> ~ ident_char c) /\ (forall c r, rest = 0x5C :: c :: r -> c = 0x0A).

Lemma valid_escape_false rest : (forall c r, rest = 0x5C :: c :: r -> c = 0x0A) -> starts_with_valid_escape rest = false.
Proof.
  intros H. destruct rest as [|a [|b r]]; try reflexivity. cbn. destruct (Z.eqb_spec a 0x5C) as [->|]; [|reflexivity].
  cbn. now rewrite (H b r eq_refl).
Qed.
Lemma valid_escape_true c r : c <> 0x0A -> starts_with_valid_escape (0x5C :: c :: r) = true.
Proof. intros H. cbn. unfold is_newline. now destruct (Z.eqb_spec c 0x0A). Qed.

Lemma ident_end rest f acc : IdentEnd rest -> consume_identifier_loop f acc rest = Some (acc, rest).
Proof.
  intros [A B]. destruct f; [reflexivity|]. destruct rest as [|c r]; [reflexivity|]. cbn [consume_identifier_loop].
  rewrite (ident_char_not c) by now apply A. now rewrite (valid_escape_false _ B).
Qed.

Lemma ident_spelled rest : IdentEnd rest -> forall t v, Spelled ident_char false rest t v ->
  forall f acc, (length (t ++ rest) <= f)%nat -> consume_identifier_loop f acc (t ++ rest) = Some (acc ++ v, rest).
Proof.
  intros E. induction 1 as [|c t v A Sp IH|c t v N1 N2 Sp IH|ds w t v Ln F W Sp IH|ds t v Ln F M W Sp IH|t v X Sp IH]; intros f acc L.
  - rewrite app_nil_r. cbn [app]. now apply ident_end.
  - cbn [app] in *. destruct f; [cbn in L; lia|]. cbn [consume_identifier_loop]. rewrite (proj2 (ident_char_iff c) A).
    rewrite IH by (cbn in L; lia). now rewrite <- app_assoc.
  - cbn [app] in *. destruct f; [cbn in L; lia|]. cbn [consume_identifier_loop].
    change (is_identifier_code_point 0x5C) with false. cbv iota. rewrite valid_escape_true by exact N2.
    rewrite (escape_det (c :: t ++ rest) c (t ++ rest)) by now constructor.
    rewrite IH by (cbn in L; lia). now rewrite <- app_assoc.
  - destruct f; [cbn in L; lia|].
    assert (Es : Escape (ds ++ w :: t ++ rest) (escape_value (number_of 16 ds)) (t ++ rest)) by now apply esc_white.
    cbn [app] in *. rewrite <- app_assoc in *. cbn [app] in *. cbn [consume_identifier_loop].
    change (is_identifier_code_point 0x5C) with false. cbv iota.
    destruct ds as [|d ds]; [cbn in Ln; lia|]. cbn [app] in *. inversion F as [|x y D F']; subst.
    rewrite valid_escape_true by (unfold hex_digit in D; lia).
    rewrite (escape_det _ _ _ Es). rewrite IH; [now rewrite <- app_assoc|].
    cbn [length] in L. rewrite app_length in L. cbn [length] in L. lia.
  - destruct f; [cbn in L; lia|].
    assert (Es : Escape (ds ++ t ++ rest) (escape_value (number_of 16 ds)) (t ++ rest)) by now apply esc_plain.
    cbn [app] in *. rewrite <- app_assoc in *. cbn [consume_identifier_loop].
    change (is_identifier_code_point 0x5C) with false. cbv iota.
    destruct ds as [|d ds]; [cbn in Ln; lia|]. cbn [app] in *. inversion F as [|x y D F']; subst.
    rewrite valid_escape_true by (unfold hex_digit in D; lia).
    rewrite (escape_det _ _ _ Es). rewrite IH; [now rewrite <- app_assoc|].
    cbn [length] in L. rewrite app_length in L. lia.
  - discriminate.
Qed.
Lemma identifier_ok rest t v : IdentEnd rest -> Spelled ident_char false rest t v -> consume_identifier (t ++ rest) = Some (v, rest).
Proof. intros E Sp. unfold consume_identifier. now rewrite (ident_spelled rest E t v Sp). Qed.

Lemma ident_split : forall n s, (length s <= n)%nat -> exists t rest v, s = t ++ rest /\ IdentEnd rest /\ Spelled ident_char false rest t v.
Proof.
  induction n as [|n IH]; intros s L.
  - destruct s; [|cbn in L; lia]. exists [], [], []. repeat split; try constructor; discriminate.
  - destruct s as [|c s]; [exists [], [], []; repeat split; try constructor; discriminate|].
    destruct (is_identifier_code_point c) eqn:I.
    { apply ident_char_iff in I. destruct (IH s) as (t & rest & v & -> & E & Sp); [cbn in L; lia|].
      exists (c :: t), rest, (c :: v). repeat split; try apply E. now constructor. }
    destruct (starts_with_valid_escape (c :: s)) eqn:V.
    + destruct s as [|d s]; [discriminate|]. cbn in V. apply andb_true_iff in V as [V1 V2]. apply Z.eqb_eq in V1 as ->.
      apply negb_true_iff in V2. assert (d <> 0x0A) by (intros ->; discriminate).
      destruct (escape_ok (d :: s)) as (ch & r' & _ & Es). assert (Lr := escape_strict _ _ _ Es ltac:(discriminate)).
      destruct (IH r') as (t & rest & v & Er & E & Sp); [cbn in *; lia|].
      destruct (spelled_escape ident_char false rest _ _ _ t v Es) as (t' & Et & Sp'); auto; try discriminate; [cbn; congruence|].
      exists (0x5C :: t'), rest, (ch :: v). split; [now rewrite Et|]. auto.
    + exists [], (c :: s), []. split; [reflexivity|]. split; [|constructor]. split.
      * cbn. intros x [= <-] X. apply ident_char_iff in X. congruence.
      * intros d r [= -> ->]. cbn in V. unfold is_newline in V. destruct (Z.eqb_spec d 0x0A); [assumption|discriminate].
Qed.

(** Would start an identifier (CSS Syntax 4.3.9). *)
Inductive IdentStart : list Z -> Prop :=
| is_start c r : ident_start c -> IdentStart (c :: r)
| is_escape c r : c <> 0x0A -> IdentStart (0x5C :: c :: r)
| is_dash_start c r : ident_start c \/ c = 0x2D -> IdentStart (0x2D :: c :: r)
| is_dash_escape c r : c <> 0x0A -> IdentStart (0x2D :: 0x5C :: c :: r).

Lemma starts_with_identifier_iff s : starts_with_identifier s = true <-> IdentStart s.
Proof.
  split.
  - destruct s as [|c s]; [discriminate|]. cbn [starts_with_identifier]. destruct (Z.eqb_spec c 0x2D) as [->|N].
    + destruct s as [|d s]; [discriminate|]. destruct (is_identifier_start_code_point d || (d =? 0x2D)) eqn:E.
      * intros _. apply is_dash_start. apply orb_true_iff in E as [E|E]; [left; now apply ident_start_iff|right; now apply Z.eqb_eq].
      * destruct s as [|e s]; [discriminate|]. cbn. intros X. apply andb_true_iff in X as [X Y]. apply Z.eqb_eq in X as ->.
        apply is_dash_escape. intros ->. discriminate.
    + destruct (is_identifier_start_code_point c) eqn:E; [intros _; apply is_start; now apply ident_start_iff|].
      destruct (Z.eqb_spec c 0x5C) as [->|]; [|discriminate]. destruct s as [|e s]; [discriminate|]. cbn. intros Y.
      apply is_escape. intros ->. discriminate.
  - intros H. destruct H as [c r C|c r C|c r C|c r C].
    + apply start_ident. now apply ident_start_iff.
    + cbn [starts_with_identifier]. change (0x5C =? 0x2D) with false. change (is_identifier_start_code_point 0x5C) with false.
      cbv iota. rewrite Z.eqb_refl. now apply valid_escape_true.
    + cbn [starts_with_identifier]. rewrite Z.eqb_refl. destruct C as [C| ->]; [|now rewrite orb_true_r].
      now rewrite (proj2 (ident_start_iff c) C).
    + cbn [starts_with_identifier]. rewrite Z.eqb_refl. change (is_identifier_start_code_point 0x5C || (0x5C =? 0x2D)) with false.
      cbv iota. now apply valid_escape_true.
Qed.
Lemma ident_start_app t r : IdentStart t -> IdentStart (t ++ r).
Proof. intros H. destruct H; cbn [app]; now constructor. Qed.

(** * Tokens that carry an identifier *)

Lemma at_keyword_ok rest t v : IdentEnd rest -> IdentStart t -> Spelled ident_char false rest t v ->
  consume_token (0x40 :: t ++ rest) = Some (AtKeyword v, rest).
Proof.
  intros E St Sp. unfold consume_token. rewrite comments_id by discriminate.
  unfold consume_token_at. cbn -[starts_with_identifier consume_identifier].
  rewrite (proj2 (starts_with_identifier_iff _) (ident_start_app t rest St)), (identifier_ok rest t v E Sp). reflexivity.
Qed.

Lemma hash_ok rest t v : IdentEnd rest -> t <> [] -> Spelled ident_char false rest t v ->
  exists b, consume_token (0x23 :: t ++ rest) = Some (Hash v b, rest) /\ (b = true <-> IdentStart (t ++ rest)).
Proof.
  intros E N Sp. unfold consume_token. rewrite comments_id by discriminate.
  unfold consume_token_at. cbn -[starts_with_identifier consume_identifier is_identifier_code_point starts_with_valid_escape app].
  assert (K : exists c r, t ++ rest = c :: r /\ (is_identifier_code_point c = true \/ starts_with_valid_escape (t ++ rest) = true)).
  { destruct Sp as [|c t v A Sp|c t v N1 N2 Sp|ds w t v Ln F W Sp|ds t v Ln F M W Sp|t v X Sp].
    - congruence.
    - exists c, (t ++ rest). split; [reflexivity|]. left. now apply ident_char_iff.
    - do 2 eexists. split; [reflexivity|]. right. now apply valid_escape_true.
    - destruct ds as [|d ds]; [cbn in Ln; lia|]. do 2 eexists. split; [reflexivity|]. right. inversion F as [|x y D F']; subst.
      apply valid_escape_true. unfold hex_digit in D; lia.
    - destruct ds as [|d ds]; [cbn in Ln; lia|]. do 2 eexists. split; [reflexivity|]. right. inversion F as [|x y D F']; subst.
      apply valid_escape_true. unfold hex_digit in D; lia.
    - discriminate. }
  rewrite (identifier_ok rest t v E Sp).
  destruct K as (c & r & Ec & K). rewrite Ec in *.
  assert (B : is_identifier_code_point c || starts_with_valid_escape (c :: r) = true) by (apply orb_true_iff; exact K).
  rewrite B. exists (starts_with_identifier (c :: r)). split; [reflexivity|]. apply starts_with_identifier_iff.
Qed.

(** Matches "url" whatever the case of its letters. *)
Definition is_url (v : list Z) : Prop := map cp_lower v = [0x75; 0x72; 0x6C].

Lemma url_match v : Forall (fun c => 0 <= c < 2 ^ 32) v ->
  exists b, is_ascii_case_insensitive_match utf32 utf32 v [0x75; 0x72; 0x6C] = Some b /\ (b = true <-> is_url v).
Proof.
  intros R. unfold is_url, is_ascii_case_insensitive_match.
  enough (G : forall u, Forall (fun c => 0 <= c < 2 ^ 32) u -> exists b, ci_match (length v) utf32 utf32 v u = Some b /\ (b = true <-> map cp_lower v = map cp_lower u)).
  { destruct (G [0x75; 0x72; 0x6C]) as (b & A & B); [repeat apply Forall_cons; try apply Forall_nil; lia|]. eauto. }
  induction v as [|x v IH]; intros [|y u] U; cbn [length ci_match map].
  - exists true. split; [reflexivity|]. tauto.
  - exists false. split; [reflexivity|]. split; discriminate.
  - exists false. split; [reflexivity|]. split; discriminate.
  - inversion R as [|? ? R1 R2]; subst. inversion U as [|? ? U1 U2]; subst.
    change (c_dec utf32) with utf32_to_code_point. cbn [utf32_to_code_point].
    rewrite !Z.mod_small by assumption. destruct (Z.eqb_spec (cp_lower x) (cp_lower y)) as [E|Ne].
    + destruct (IH R2 u U2) as (b & A & B). exists b. split; [exact A|]. rewrite B, E. split; [now intros ->|now intros [= ->]].
    + exists false. split; [reflexivity|]. split; [discriminate|]. intros [= X Y]. congruence.
Qed.

(** Where the tokeniser sees an identifier: an extra condition holds after a first hyphen. *)
Definition TokenStart (t : list Z) : Prop := IdentStart t /\ forall u, t = 0x2D :: u -> IdentStart u.

Lemma ident_like_reached s : TokenStart s -> consume_token s = consume_ident_like_token s.
Proof.
  intros [St D]. unfold consume_token. rewrite comments_id.
  2: { intros r ->. inversion St as [c r' C|c r' C|c r' C|c r' C]; unfold ident_start in C; lia. }
  inversion St as [c r C|c r C|c r C|c r C]; subst.
  - unfold consume_token_at. cbv zeta.
    assert (W : is_whitespace c = false).
    { destruct (is_whitespace c) eqn:X; [apply is_white_iff in X; unfold white, ident_start in *; lia|reflexivity]. }
    assert (Dg : is_digit c = false).
    { destruct (is_digit c) eqn:X; [apply is_digit_iff in X; unfold dec_digit, ident_start in *; lia|reflexivity]. }
    rewrite W, Dg, (proj2 (ident_start_iff c) C).
    repeat match goal with |- context [c =? ?k] => destruct (Z.eqb_spec c k); [unfold ident_start in C; lia|] end.
    reflexivity.
  - unfold consume_token_at. cbn -[consume_ident_like_token starts_with_valid_escape]. now rewrite valid_escape_true.
  - specialize (D (c :: r) eq_refl). unfold consume_token_at.
    cbn -[consume_ident_like_token starts_with_valid_escape starts_with_identifier starts_with_number].
    rewrite (proj2 (starts_with_identifier_iff _) D).
    assert (Nn : starts_with_number (c :: r) = false).
    { destruct (starts_with_number (c :: r)) eqn:X; [|reflexivity]. apply starts_with_number_iff in X.
      inversion X; subst; inversion D; subst; unfold dec_digit, ident_start in *; lia. }
    rewrite Nn, (cdc_match (c :: r) (fun r' => Some (CDC, r'))). destruct r as [|b r]; [reflexivity|].
    destruct (Z.eqb_spec c 0x2D) as [->|]; [|reflexivity]. destruct (Z.eqb_spec b 0x3E) as [->|]; [|reflexivity].
    inversion D; subst; unfold ident_start in *; lia.
  - specialize (D (0x5C :: c :: r) eq_refl). unfold consume_token_at.
    cbn -[consume_ident_like_token starts_with_valid_escape starts_with_identifier].
    rewrite (proj2 (starts_with_identifier_iff _) D). reflexivity.
Qed.
Lemma token_start_app t r : TokenStart t -> TokenStart (t ++ r).
Proof.
  intros [A B]. split; [now apply ident_start_app|]. intros u E. destruct t as [|c t]; [inversion A|].
  cbn in E. injection E as -> <-. apply ident_start_app. now apply B.
Qed.

Lemma ident_token_ok rest t v : IdentEnd rest -> TokenStart t -> Spelled ident_char false rest t v -> Forall (fun c => 0 <= c < 2 ^ 32) v ->
  hd_error rest <> Some 0x28 -> rest <> [] \/ ~ is_url v -> consume_token (t ++ rest) = Some (Ident v, rest).
Proof.
  intros E St Sp R Np Nu. rewrite (ident_like_reached _ (token_start_app t rest St)). unfold consume_ident_like_token.
  rewrite (identifier_ok rest t v E Sp). destruct (url_match v R) as (b & -> & B).
  assert (P : match rest with c :: r' => if c =? 0x28 then Some (Function v, r') else Some (Ident v, rest) | [] => Some (Ident v, rest) end = Some (Ident v, rest)).
  { destruct rest as [|c r]; [reflexivity|]. destruct (Z.eqb_spec c 0x28) as [->|]; [destruct Np; reflexivity|reflexivity]. }
  destruct b; [|exact P]. destruct rest as [|c r]; [destruct Nu as [X|X]; [congruence|destruct X; now apply B]|].
  destruct (Z.eqb_spec c 0x28) as [->|]; [destruct Np; reflexivity|reflexivity].
Qed.
Lemma function_token_ok rest t v : TokenStart t -> Spelled ident_char false (0x28 :: rest) t v -> Forall (fun c => 0 <= c < 2 ^ 32) v ->
  ~ is_url v -> consume_token (t ++ 0x28 :: rest) = Some (Function v, rest).
Proof.
  intros St Sp R Nu. rewrite (ident_like_reached _ (token_start_app t _ St)). unfold consume_ident_like_token.
  assert (E : IdentEnd (0x28 :: rest)).
  { split; [cbn; intros c [= <-]; unfold ident_char, ident_start, dec_digit; lia|discriminate]. }
  rewrite (identifier_ok _ t v E Sp). destruct (url_match v R) as (b & -> & B).
  destruct b; [destruct Nu; now apply B|]. reflexivity.
Qed.

(** * Unquoted urls *)

(** May stand unescaped in an unquoted url. *)
Definition url_char (c : Z) : Prop :=
  ~ white c /\ c <> 0x29 /\ c <> 0x22 /\ c <> 0x27 /\ c <> 0x28 /\ c <> 0x5C /\
  ~ (0 <= c <= 0x08) /\ c <> 0x0B /\ ~ (0x0E <= c <= 0x1F) /\ c <> 0x7F.

Lemma not_white c : ~ white c -> is_whitespace c = false.
Proof. intros H. destruct (is_whitespace c) eqn:E; [apply is_white_iff in E; contradiction|reflexivity]. Qed.
Lemma white_true w : Forall white w -> Forall (fun c => is_whitespace c = true) w.
Proof. intros H. eapply Forall_impl; [|exact H]. intros c. apply is_white_iff. Qed.

Lemma url_loop_ok (w2 rest : list Z) : Forall white w2 -> forall u f acc, Forall url_char u -> (length (u ++ w2 ++ 0x29%Z :: rest) <= f)%nat ->
  consume_url_loop f acc (u ++ w2 ++ 0x29 :: rest) = Some (Url (acc ++ u), rest).
Proof.
  intros W. induction u as [|c u IH]; intros f acc F L.
  - cbn [app] in *. rewrite app_nil_r. destruct w2 as [|w w2].
    + cbn [app] in *. destruct f; [cbn in L; lia|]. reflexivity.
    + cbn [app] in *. destruct f; [cbn in L; lia|]. cbn [consume_url_loop]. inversion W as [|x y W1 W2]; subst.
      destruct (Z.eqb_spec w 0x29) as [->|]; [unfold white in W1; lia|]. rewrite (proj2 (is_white_iff w) W1).
      rewrite (span_app is_whitespace w2 (0x29 :: rest)); [|now apply white_true|cbn; now intros c [= <-]].
      cbn [snd]. rewrite Z.eqb_refl. reflexivity.
  - cbn [app] in *. destruct f; [cbn in L; lia|]. cbn [consume_url_loop]. inversion F as [|x y F1 F2]; subst.
    destruct F1 as (A1 & A2 & A3 & A4 & A5 & A6 & A7 & A8 & A9 & A10).
    destruct (Z.eqb_spec c 0x29); [congruence|]. rewrite (not_white c A1).
    destruct (Z.eqb_spec c 0x22); [congruence|]. destruct (Z.eqb_spec c 0x27); [congruence|].
    destruct (Z.eqb_spec c 0x28); [congruence|]. destruct (Z.eqb_spec c 0x5C); [congruence|].
    assert (Np : is_non_printable_code_point c = false).
    { unfold is_non_printable_code_point. destruct (Z.leb_spec 0 c); destruct (Z.leb_spec c 0x08); destruct (Z.eqb_spec c 0x0B);
        destruct (Z.leb_spec 0x0E c); destruct (Z.leb_spec c 0x1F); destruct (Z.eqb_spec c 0x7F); cbn; try reflexivity; lia. }
    rewrite Np. cbn [orb]. rewrite IH; [now rewrite <- app_assoc|exact F2|cbn in L; lia].
Qed.

Lemma skip_two_app : forall w1 p s, Forall white w1 -> (forall c, hd_error s = Some c -> ~ white c) -> s <> [] ->
  exists p' w', skip_two_whitespace p (w1 ++ s) = (p', w' ++ s) /\ (w' = [] \/ exists w, white w /\ w' = [w]).
Proof.
  induction w1 as [|w w1 IH]; intros p s F N Ne.
  - cbn [app]. destruct s as [|c s]; [congruence|]. exists p, []. split; [|now left]. cbn [skip_two_whitespace].
    destruct s as [|d s]; [reflexivity|]. now rewrite (not_white c (N c eq_refl)).
  - inversion F as [|x y F1 F2]; subst. cbn [app skip_two_whitespace]. destruct w1 as [|w' w1].
    + cbn [app]. destruct s as [|c s]; [congruence|]. rewrite (not_white c (N c eq_refl)), andb_false_r.
      exists p, [w]. split; [reflexivity|]. right. eauto.
    + cbn [app]. inversion F2 as [|x' y' F3 F4]; subst. rewrite (proj2 (is_white_iff w) F1), (proj2 (is_white_iff w') F3).
      cbn [andb]. apply (IH w s F2 N Ne).
Qed.

Lemma url_token_plain t v w1 u w2 rest : TokenStart t -> is_url v -> Forall (fun c => 0 <= c < 2 ^ 32) v ->
  Spelled ident_char false (0x28 :: w1 ++ u ++ w2 ++ 0x29 :: rest) t v ->
  Forall white w1 -> Forall url_char u -> Forall white w2 ->
  consume_token (t ++ 0x28 :: w1 ++ u ++ w2 ++ 0x29 :: rest) = Some (Url u, rest).
Proof.
  intros St Uv R Sp W1 U W2. rewrite (ident_like_reached _ (token_start_app t _ St)). unfold consume_ident_like_token.
  assert (E : forall r, IdentEnd (0x28 :: r)).
  { intros r. split; [cbn; intros c [= <-]; unfold ident_char, ident_start, dec_digit; lia|discriminate]. }
  rewrite (identifier_ok _ t v (E _) Sp). destruct (url_match v R) as (b & -> & B). rewrite (proj2 B Uv). rewrite Z.eqb_refl.
  assert (K : exists w3 s, w1 ++ u ++ w2 ++ 0x29 :: rest = w3 ++ s /\ Forall white w3 /\ (forall c, hd_error s = Some c -> ~ white c /\ c <> 0x22 /\ c <> 0x27) /\ s <> [] /\
              exists w4, s = u ++ w4 ++ 0x29 :: rest /\ Forall white w4).
  { destruct u as [|c u].
    - exists (w1 ++ w2), (0x29 :: rest). split; [now rewrite <- app_assoc|]. split; [apply Forall_app; auto|].
      split; [cbn; intros c [= <-]; unfold white; lia|]. split; [discriminate|]. exists []. auto.
    - exists w1, ((c :: u) ++ w2 ++ 0x29 :: rest). split; [reflexivity|]. split; [exact W1|].
      inversion U as [|x y U1 U2]; subst. destruct U1 as (A1 & A2 & A3 & A4 & _).
      split; [cbn; intros d [= <-]; auto|]. split; [discriminate|]. exists w2. auto. }
  destruct K as (w3 & s & -> & W3 & N & Ne & w4 & Es & W4).
  destruct (skip_two_app w3 0x28 s W3 (fun c X => proj1 (N c X)) Ne) as (p' & w' & -> & Hw).
  assert (Wn : Forall white w') by (destruct Hw as [-> | (w & Hw & ->)]; auto).
  assert (Q : quote_follows (w' ++ s) = false).
  { destruct s as [|c s]; [congruence|]. destruct (N c eq_refl) as (N1 & N2 & N3).
    assert (Iq : is_quote c = false) by (unfold is_quote; rewrite orb_false_iff, !Z.eqb_neq; auto).
    destruct Hw as [-> | (w & Hw & ->)]; cbn [app quote_follows].
    - now rewrite Iq, (not_white c N1).
    - rewrite Iq, andb_false_r, orb_false_r. unfold is_quote. rewrite orb_false_iff, !Z.eqb_neq. unfold white in Hw. lia. }
  rewrite Q. unfold consume_url_token. rewrite (span_app is_whitespace w' s); [|now apply white_true|].
  2: { intros c X. apply not_white. now apply N. }
  cbn [snd]. rewrite Es. rewrite (url_loop_ok w4 rest W4 u); auto.
Qed.

(** * Numbers *)

Definition sign (sg : list Z) : Prop := sg = [] \/ sg = [0x2B] \/ sg = [0x2D].
(** The text of a number: sign, integer digits, fraction digits, exponent (letter, sign, digits). *)
Definition number_text (sg ip : list Z) (fr : option (list Z)) (ex : option (Z * list Z * list Z)) : list Z :=
  sg ++ ip ++ match fr with Some ds => 0x2E :: ds | None => [] end
     ++ match ex with Some (e, esg, eds) => e :: esg ++ eds | None => [] end.
Definition fraction_digits (fr : option (list Z)) : list Z := match fr with Some ds => ds | None => [] end.
Definition exponent_digits (ex : option (Z * list Z * list Z)) : list Z := match ex with Some (_, _, ds) => ds | None => [] end.
Definition exponent_sign (ex : option (Z * list Z * list Z)) : list Z := match ex with Some (_, sg, _) => sg | None => [] end.
Definition is_minus (sg : list Z) : bool := match sg with c :: _ => c =? 0x2D | [] => false end.
(** Well-formed parts. *)
Definition NumberParts (sg ip : list Z) (fr : option (list Z)) (ex : option (Z * list Z * list Z)) : Prop :=
  sign sg /\ Forall dec_digit ip /\ (ip <> [] \/ fr <> None) /\
  (forall ds, fr = Some ds -> ds <> [] /\ Forall dec_digit ds) /\
  (forall e esg eds, ex = Some (e, esg, eds) -> (e = 0x45 \/ e = 0x65) /\ sign esg /\ eds <> [] /\ Forall dec_digit eds).
(** The number ends here: no part of it continues in [rest]. *)
Definition NumberEnd (fr : option (list Z)) (ex : option (Z * list Z * list Z)) (rest : list Z) : Prop :=
  (forall c, hd_error rest = Some c -> ~ dec_digit c) /\
  (fr = None -> ex = None -> forall d r, rest = 0x2E :: d :: r -> ~ dec_digit d) /\
  (ex = None -> forall e sg d r, (e = 0x45 \/ e = 0x65) -> sign sg -> rest = e :: sg ++ d :: r -> ~ dec_digit d).

Lemma digits_true ds : Forall dec_digit ds -> Forall (fun c => is_digit c = true) ds.
Proof. intros H. eapply Forall_impl; [|exact H]. intros c. apply is_digit_iff. Qed.
Lemma not_digit c : ~ dec_digit c -> is_digit c = false.
Proof. intros H. destruct (is_digit c) eqn:E; [apply is_digit_iff in E; contradiction|reflexivity]. Qed.
Lemma is_e_iff c : is_e c = true <-> c = 0x45 \/ c = 0x65.
Proof. unfold is_e. rewrite orb_true_iff, !Z.eqb_eq. reflexivity. Qed.
Lemma span_digits ds r : Forall dec_digit ds -> (forall c, hd_error r = Some c -> ~ dec_digit c) -> span is_digit (ds ++ r) = (ds, r).
Proof. intros F N. apply span_app; [now apply digits_true|]. intros c X. apply not_digit. auto. Qed.

Lemma sign_cases sg : sign sg -> sg = [] \/ exists c, sg = [c] /\ is_sign c = true.
Proof. intros [->|[-> | ->]]; [now left|right; eauto|right; eauto]. Qed.

Lemma take_exponent_ok ex rest : (forall e esg eds, ex = Some (e, esg, eds) -> (e = 0x45 \/ e = 0x65) /\ sign esg /\ eds <> [] /\ Forall dec_digit eds) ->
  (forall c, hd_error rest = Some c -> ~ dec_digit c) ->
  (ex = None -> forall e sg d r, (e = 0x45 \/ e = 0x65) -> sign sg -> rest = e :: sg ++ d :: r -> ~ dec_digit d) ->
  take_exponent (match ex with Some (e, esg, eds) => e :: esg ++ eds | None => [] end ++ rest)
  = (match ex with Some (e, esg, eds) => e :: esg ++ eds | None => [] end, rest).
Proof.
  intros W N M. destruct ex as [[[e esg] eds]|].
  - destruct (W e esg eds eq_refl) as (He & Hs & Hn & Hd). apply is_e_iff in He. destruct eds as [|d eds]; [congruence|].
    inversion Hd as [|x y D1 D2]; subst. assert (Sd := span_digits eds rest D2 N). apply is_digit_iff in D1.
    destruct Hs as [->|Hs].
    + cbn [app take_exponent]. now rewrite He, D1, Sd.
    + assert (K : exists c, esg = [c] /\ is_sign c = true /\ is_digit c = false) by (destruct Hs as [-> | ->]; eauto).
      destruct K as (c & -> & Sg & Dc). cbn [app take_exponent]. rewrite He, Dc, Sg, D1, Sd. reflexivity.
  - cbn [app]. specialize (M eq_refl). destruct rest as [|c [|d r]]; try reflexivity. cbn [take_exponent].
    destruct (is_e c) eqn:E; cbn [andb].
    + apply is_e_iff in E. rewrite (not_digit d) by (apply (M c [] d r E); [now left|reflexivity]).
      destruct r as [|d2 r]; [reflexivity|]. destruct (is_sign d) eqn:Sg; [|reflexivity]. cbn [andb].
      apply is_sign_iff in Sg. rewrite (not_digit d2); [reflexivity|]. apply (M c [d] d2 r E); [|reflexivity].
      destruct Sg as [-> | ->]; [right; now left|right; now right].
    + destruct r; reflexivity.
Qed.

Lemma number_repr_ok sg ip fr ex rest : NumberParts sg ip fr ex -> NumberEnd fr ex rest ->
  number_repr (number_text sg ip fr ex ++ rest)
  = (number_text sg ip fr ex, match fr, ex with None, None => Tinteger | _, _ => Tnumber end, rest).
Proof.
  intros (P1 & P2 & P3 & P4 & P5) (N1 & N2 & N3). unfold number_repr, number_text.
  set (E := match ex with Some (e, esg, eds) => e :: esg ++ eds | None => [] end).
  set (F := match fr with Some ds => 0x2E :: ds | None => [] end).
  assert (NE : forall c, hd_error (E ++ rest) = Some c -> ~ dec_digit c /\ (c = 0x2E -> ex = None) /\ (is_sign c = true -> ex = None)).
  { unfold E. destruct ex as [[[e esg] eds]|]; [|intros c X; repeat split; auto].
    destruct (P5 e esg eds eq_refl) as (He & _). cbn. intros c [= <-].
    destruct He as [-> | ->]; unfold dec_digit; repeat split; try lia; discriminate. }
  assert (NF : forall c, hd_error (F ++ E ++ rest) = Some c -> ~ dec_digit c).
  { unfold F. destruct fr; [cbn; intros c [= <-]; unfold dec_digit; lia|]. cbn [app]. intros c X. now apply NE. }
  assert (T1 : take_sign ((sg ++ ip ++ F ++ E) ++ rest) = (sg, ip ++ F ++ E ++ rest)).
  { rewrite <- !app_assoc. destruct P1 as [->|[-> | ->]]; try reflexivity. cbn [app].
    destruct ip as [|d ip].
    - cbn [app]. unfold F. destruct fr as [ds|]; [reflexivity|]. destruct P3 as [X|X]; congruence.
    - inversion P2 as [|x y D1 D2]; subst. apply is_digit_iff in D1. cbn [app take_sign].
      now destruct (digit_not_sign d D1) as (-> & _). }
  rewrite T1. rewrite (span_digits ip (F ++ E ++ rest) P2 NF).
  assert (T2 : take_fraction (F ++ E ++ rest) = (F, E ++ rest)).
  { unfold F. destruct fr as [ds|].
    - destruct (P4 ds eq_refl) as [Dn Df]. destruct ds as [|d ds]; [congruence|]. inversion Df as [|x y D1 D2]; subst.
      cbn [app take_fraction]. apply is_digit_iff in D1. rewrite D1. change ((0x2E =? 0x2E) && true) with true. cbv iota.
      rewrite (span_digits ds (E ++ rest) D2); [reflexivity|]. intros c X. now apply NE.
    - cbn [app]. destruct (E ++ rest) as [|c [|d r]] eqn:Er; try reflexivity. cbn [take_fraction].
      destruct (Z.eqb_spec c 0x2E) as [->|]; [|reflexivity]. destruct (NE 0x2E eq_refl) as (_ & X & _). specialize (X eq_refl).
      subst ex. cbn [E app] in Er. cbn [andb]. rewrite (not_digit d); [reflexivity|]. exact (N2 eq_refl eq_refl d r Er). }
  rewrite T2. unfold E at 1. rewrite (take_exponent_ok ex rest P5 N1 N3). fold E.
  f_equal. f_equal. unfold F, E. destruct fr as [ds|]; [reflexivity|]. destruct ex as [[[e esg] eds]|]; reflexivity.
Qed.

Definition number_parts_value (sg ip : list Z) (fr : option (list Z)) (ex : option (Z * list Z * list Z)) : number :=
  mk_number (is_minus sg) (number_of 10 ip) (number_of 10 (fraction_digits fr)) (length (fraction_digits fr))
    (is_minus (exponent_sign ex)) (number_of 10 (exponent_digits ex)).

Lemma consume_number_ok sg ip fr ex rest : NumberParts sg ip fr ex -> NumberEnd fr ex rest ->
  consume_number (number_text sg ip fr ex ++ rest)
  = if (number_of 10 ip <? 2 ^ 32) && (number_of 10 (fraction_digits fr) <? 2 ^ 32) && (number_of 10 (exponent_digits ex) <? 2 ^ 32)
    then Some (number_parts_value sg ip fr ex, match fr, ex with None, None => Tinteger | _, _ => Tnumber end, rest)
    else None.
Proof.
  intros P N. unfold consume_number. rewrite (number_repr_ok sg ip fr ex rest P N). destruct P as (P1 & P2 & P3 & P4 & P5).
  assert (C : convert_string_to_number (number_text sg ip fr ex) =
    match u32_of_digits ip, u32_of_digits (fraction_digits fr), u32_of_digits (exponent_digits ex) with
    | Some i, Some f, Some e => Some (mk_number (is_minus sg) i f (length (fraction_digits fr)) (is_minus (exponent_sign ex)) e)
    | _, _, _ => None
    end).
  { unfold number_text, is_minus.
    assert (Ff : Forall (fun c => is_digit c = true) (fraction_digits fr)) by (destruct fr as [ds|]; cbn; auto; apply digits_true, P4; reflexivity).
    assert (Fe : Forall (fun c => is_digit c = true) (exponent_digits ex)) by (destruct ex as [[[e esg] eds]|]; cbn; auto; apply digits_true; eapply P5; reflexivity).
    assert (Se : exponent_sign ex = [] \/ exists c, exponent_sign ex = [c] /\ is_sign c = true) by (destruct ex as [[[e esg] eds]|]; cbn; auto; apply sign_cases; eapply P5; reflexivity).
    rewrite <- (convert_parts sg ip (fraction_digits fr) (match fr with Some _ => true | None => false end)
      (match ex with Some (e, _, _) => e | None => 0x65 end) (exponent_sign ex) (exponent_digits ex) (match ex with Some _ => true | None => false end)); auto.
    - destruct fr; destruct ex as [[[e esg] eds]|]; reflexivity.
    - now apply sign_cases.
    - now apply digits_true.
    - destruct ex as [[[e esg] eds]|]; [|reflexivity]. apply is_e_iff. now destruct (P5 e esg eds eq_refl).
    - destruct fr; [discriminate|reflexivity].
    - destruct ex; [discriminate|split; reflexivity].
    - destruct ex as [[[e esg] eds]|]; [|discriminate]. intros _. cbn. eapply P5; reflexivity. }
  rewrite C.
  assert (U : forall ds, Forall dec_digit ds -> u32_of_digits ds = if number_of 10 ds <? 2 ^ 32 then Some (number_of 10 ds) else None).
  { intros ds F. destruct (Z.ltb_spec (number_of 10 ds) (2 ^ 32)); [apply u32_small; auto; now apply digits_true|apply u32_large; auto; now apply digits_true]. }
  rewrite (U ip P2), (U (fraction_digits fr)), (U (exponent_digits ex)).
  - destruct (number_of 10 ip <? 2 ^ 32); cbn [andb]; [|reflexivity].
    destruct (number_of 10 (fraction_digits fr) <? 2 ^ 32); cbn [andb]; [|reflexivity].
    destruct (number_of 10 (exponent_digits ex) <? 2 ^ 32); reflexivity.
  - destruct ex as [[[e esg] eds]|]; cbn; auto. eapply P5; reflexivity.
  - destruct fr as [ds|]; cbn; auto. apply P4; reflexivity.
Qed.

(** The token made from a number by what follows it. *)
Inductive AfterNumber (v : number) (ty : type_flag) : list Z -> token -> list Z -> Prop :=
| an_percent r : AfterNumber v ty (0x25 :: r) (Percentage v) r
| an_unit rest t u : IdentStart (t ++ rest) -> IdentEnd rest -> Spelled ident_char false rest t u ->
    AfterNumber v ty (t ++ rest) (Dimension v u ty) rest
| an_none r : ~ IdentStart r -> hd_error r <> Some 0x25 -> AfterNumber v ty r (Number v ty) r.

Lemma numeric_reached sg ip fr ex rest : NumberParts sg ip fr ex ->
  consume_token (number_text sg ip fr ex ++ rest) = consume_numeric_token (number_text sg ip fr ex ++ rest).
Proof.
  intros (P1 & P2 & P3 & P4 & _).
  assert (K : exists c r, number_text sg ip fr ex ++ rest = c :: r /\ (dec_digit c \/ (c = 0x2B \/ c = 0x2D \/ c = 0x2E) /\ starts_with_number r = true)).
  { unfold number_text. set (E := match ex with Some (e, esg, eds) => e :: esg ++ eds | None => [] end).
    assert (J : forall r, exists c r', (ip ++ match fr with Some ds => 0x2E :: ds | None => [] end ++ E) ++ r = c :: r' /\ NumberStart (c :: r') /\
             (dec_digit c \/ c = 0x2E /\ NumberStart r')).
    { intros r. destruct ip as [|d ip].
      - destruct fr as [ds|]; [|destruct P3; congruence]. destruct (P4 ds eq_refl) as [Dn Df]. destruct ds as [|d ds]; [congruence|].
        inversion Df as [|x y D1 D2]; subst. cbn. do 2 eexists. split; [reflexivity|]. split; [now constructor|]. right. split; [reflexivity|]. now constructor.
      - inversion P2 as [|x y D1 D2]; subst. cbn. do 2 eexists. split; [reflexivity|]. split; [now constructor|]. now left. }
    destruct (J rest) as (c & r & Er & Ns & Hc). destruct P1 as [->|[-> | ->]]; cbn [app]; rewrite Er.
    - exists c, r. split; [reflexivity|]. destruct Hc as [Hc|[-> Hc]]; [now left|right]. split; [auto|]. now apply starts_with_number_iff.
    - exists 0x2B, (c :: r). split; [reflexivity|]. right. split; [auto|]. now apply starts_with_number_iff.
    - exists 0x2D, (c :: r). split; [reflexivity|]. right. split; [auto|]. now apply starts_with_number_iff. }
  destruct K as (c & r & -> & K). unfold consume_token. rewrite comments_id.
  2: { intros r' [= -> ->]. unfold dec_digit in K. lia. }
  destruct K as [D|[C W]].
  - unfold consume_token_at. cbv zeta.
    rewrite (not_white c) by (unfold white, dec_digit in *; lia). rewrite (proj2 (is_digit_iff c) D).
    repeat match goal with |- context [c =? ?k] => destruct (Z.eqb_spec c k); [unfold dec_digit in D; lia|] end. reflexivity.
  - destruct C as [->|[-> | ->]]; unfold consume_token_at; cbn -[starts_with_number consume_numeric_token]; now rewrite W.
Qed.

Lemma number_token_ok sg ip fr ex rest tok r : NumberParts sg ip fr ex -> NumberEnd fr ex rest ->
  AfterNumber (number_parts_value sg ip fr ex) (match fr, ex with None, None => Tinteger | _, _ => Tnumber end) rest tok r ->
  number_of 10 ip < 2 ^ 32 -> number_of 10 (fraction_digits fr) < 2 ^ 32 -> number_of 10 (exponent_digits ex) < 2 ^ 32 ->
  consume_token (number_text sg ip fr ex ++ rest) = Some (tok, r).
Proof.
  intros P N A B1 B2 B3. rewrite (numeric_reached _ _ _ _ _ P). unfold consume_numeric_token. rewrite (consume_number_ok _ _ _ _ _ P N).
  rewrite (proj2 (Z.ltb_lt _ _) B1), (proj2 (Z.ltb_lt _ _) B2), (proj2 (Z.ltb_lt _ _) B3). cbn [andb].
  destruct A as [r|rest t u St En Sp|r Ni Np].
  - reflexivity.
  - rewrite (proj2 (starts_with_identifier_iff _) St), (identifier_ok _ _ _ En Sp). reflexivity.
  - destruct (starts_with_identifier r) eqn:W; [apply starts_with_identifier_iff in W; contradiction|].
    destruct r as [|c r]; [reflexivity|]. destruct (Z.eqb_spec c 0x25) as [->|]; [destruct Np; reflexivity|reflexivity].
Qed.
Lemma number_assert sg ip fr ex rest : NumberParts sg ip fr ex -> NumberEnd fr ex rest ->
  2 ^ 32 <= number_of 10 ip \/ 2 ^ 32 <= number_of 10 (fraction_digits fr) \/ 2 ^ 32 <= number_of 10 (exponent_digits ex) ->
  consume_token (number_text sg ip fr ex ++ rest) = None.
Proof.
  intros P N B. rewrite (numeric_reached _ _ _ _ _ P). unfold consume_numeric_token. rewrite (consume_number_ok _ _ _ _ _ P N).
  destruct (Z.ltb_spec (number_of 10 ip) (2 ^ 32)); destruct (Z.ltb_spec (number_of 10 (fraction_digits fr)) (2 ^ 32));
    destruct (Z.ltb_spec (number_of 10 (exponent_digits ex)) (2 ^ 32)); cbn [andb]; try reflexivity. lia.
Qed.

Lemma number_of_app ip fds : number_of 10 (ip ++ fds) = number_of 10 ip * 10 ^ Z.of_nat (length fds) + number_of 10 fds.
Proof.
  unfold number_of. rewrite fold_left_app. generalize (fold_left (fun v c => 10 * v + hex_value c) ip 0). intros a.
  enough (G : forall b, fold_left (fun v c => 10 * v + hex_value c) fds (a + b) = a * 10 ^ Z.of_nat (length fds) + fold_left (fun v c => 10 * v + hex_value c) fds b).
  { specialize (G 0). now rewrite Z.add_0_r in G. }
  clear. revert a. induction fds as [|c fds IH]; intros a b; cbn [fold_left length].
  - change (Z.of_nat 0) with 0. rewrite Z.pow_0_r. lia.
  - rewrite Nat2Z.inj_succ, Z.pow_succ_r by lia. replace (10 * (a + b) + hex_value c) with (10 * a + (10 * b + hex_value c)) by lia.
    rewrite IH. lia.
Qed.
