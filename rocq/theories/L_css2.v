(** The tokeniser consumes its input from the left: suffix and totality lemmas (model: M_css). *)
From Coq Require Import ZArith List Bool Lia.
From Verif Require Import M_unicode M_infra M_percent M_encoding M_labels M_css L_unicode L_css.
Import ListNotations.
Open Scope Z_scope.

Definition Suffix (r s : list Z) : Prop := exists a, s = a ++ r.

Lemma suffix_refl s : Suffix s s.
Proof. now exists []. Qed.
Lemma suffix_trans a b c : Suffix a b -> Suffix b c -> Suffix a c.
Proof. intros [x ->] [y ->]. exists (y ++ x). now rewrite app_assoc. Qed.
Lemma suffix_cons c r s : Suffix r s -> Suffix r (c :: s).
Proof. intros [x ->]. now exists (c :: x). Qed.
Lemma suffix_tail c r s : Suffix (c :: r) s -> Suffix r s.
Proof. intros [x ->]. exists (x ++ [c]). now rewrite <- app_assoc. Qed.
Lemma suffix_nil s : Suffix [] s.
Proof. exists s. now rewrite app_nil_r. Qed.
Lemma suffix_app a s : Suffix s (a ++ s).
Proof. now exists a. Qed.
Lemma suffix_length r s : Suffix r s -> (length r <= length s)%nat.
Proof. intros [x ->]. rewrite app_length. lia. Qed.
Lemma suffix_eq r s : Suffix r s -> length r = length s -> r = s.
Proof. intros [x ->] H. rewrite app_length in H. destruct x; [reflexivity|cbn in H; lia]. Qed.
Lemma suffix_strict c r s : Suffix r s -> r <> c :: s.
Proof. intros H E. apply suffix_length in H. rewrite E in H. cbn in H. lia. Qed.
#[export] Hint Resolve suffix_refl suffix_cons suffix_nil suffix_app : css.

Lemma span_ok p s : forall a b, span p s = (a, b) ->
  s = a ++ b /\ Forall (fun c => p c = true) a /\ (forall c, hd_error b = Some c -> p c = false).
Proof.
  induction s as [|c s IH]; intros a b H; cbn [span] in H.
  - injection H as <- <-. repeat split; auto. discriminate.
  - destruct (p c) eqn:E.
    + destruct (span p s) as [x y] eqn:Sp. injection H as <- <-. destruct (IH x y eq_refl) as (-> & A & B).
      repeat split; auto.
    + injection H as <- <-. repeat split; auto. cbn. now intros x [= <-].
Qed.
Lemma span_app p a b : Forall (fun c => p c = true) a -> (forall c, hd_error b = Some c -> p c = false) -> span p (a ++ b) = (a, b).
Proof.
  intros F H. induction F as [|c a E F IH]; cbn [app].
  - destruct b as [|c b]; [reflexivity|]. cbn. now rewrite (H c eq_refl).
  - cbn [span]. now rewrite E, IH.
Qed.
Lemma span_suffix p s : Suffix (snd (span p s)) s.
Proof. destruct (span p s) as [a b] eqn:E. apply span_ok in E as (-> & _). cbn. auto with css. Qed.
#[export] Hint Resolve span_suffix : css.

Lemma after_comment_cases c r : (exists r', c = 0x2A /\ r = 0x2F :: r' /\ after_comment (c :: r) = r') \/
  after_comment (c :: r) = after_comment r.
Proof.
  cbn [after_comment].
  destruct (Z.eq_dec c 0x2A) as [->|N].
  - destruct r as [|d r]; [right; reflexivity|]. destruct (Z.eq_dec d 0x2F) as [->|M]; [left; eauto|right].
    destruct d as [|p|p]; try reflexivity. do 6 (destruct p as [p|p|]; try reflexivity). congruence.
  - right. destruct c as [|p|p]; try reflexivity. do 6 (destruct p as [p|p|]; try reflexivity). congruence.
Qed.
Lemma after_comment_suffix s : Suffix (after_comment s) s.
Proof.
  induction s as [|c r IH]; [auto with css|].
  destruct (after_comment_cases c r) as [(r' & -> & -> & E)|E]; rewrite ?E; auto with css.
Qed.

Lemma comments_cases f s : consume_comments_loop (S f) s =
  match s with
  | a :: b :: r => if (a =? 0x2F) && (b =? 0x2A) then consume_comments_loop f (after_comment r) else s
  | _ => s
  end.
Proof.
  cbn [consume_comments_loop]. destruct s as [|a [|b r]]; try reflexivity.
  - destruct a as [|p|p]; try reflexivity. do 6 (destruct p as [p|p|]; try reflexivity).
  - destruct (Z.eqb_spec a 0x2F) as [->|N]; cbn [andb].
    + destruct (Z.eqb_spec b 0x2A) as [->|M]; [reflexivity|].
      destruct b as [|p|p]; try reflexivity. do 6 (destruct p as [p|p|]; try reflexivity). congruence.
    + destruct a as [|p|p]; try reflexivity. do 6 (destruct p as [p|p|]; try reflexivity). congruence.
Qed.
Lemma comments_suffix f : forall s, Suffix (consume_comments_loop f s) s.
Proof.
  induction f as [|f IH]; intros s; [cbn; auto with css|]. rewrite comments_cases.
  destruct s as [|a [|b r]]; auto with css. destruct (_ && _); [|auto with css].
  apply suffix_cons, suffix_cons. eapply suffix_trans; [apply IH|apply after_comment_suffix].
Qed.
(** Enough rounds: what is left does not start a comment. *)
Lemma comments_done f : forall s, (length s <= f)%nat -> forall r, consume_comments_loop f s <> 0x2F :: 0x2A :: r.
Proof.
  induction f as [|f IH]; intros s L r.
  - destruct s; [|cbn in L; lia]. cbn. discriminate.
  - rewrite comments_cases. destruct s as [|a [|b s]]; try discriminate.
    destruct (Z.eqb_spec a 0x2F) as [->|N]; cbn [andb]; [|congruence].
    destruct (Z.eqb_spec b 0x2A) as [->|M]; [|congruence].
    apply IH. pose proof (suffix_length _ _ (after_comment_suffix s)). cbn in L. lia.
Qed.
Lemma comments_id s : (forall r, s <> 0x2F :: 0x2A :: r) -> consume_comments s = s.
Proof.
  intros H. unfold consume_comments. destruct s as [|a s]; [reflexivity|]. cbn [length]. rewrite comments_cases.
  destruct s as [|b s]; [reflexivity|]. destruct (Z.eqb_spec a 0x2F) as [->|]; [|reflexivity].
  destruct (Z.eqb_spec b 0x2A) as [->|]; [|reflexivity]. destruct (H s eq_refl).
Qed.

Lemma escape_suffix s c r : Escape s c r -> Suffix r s.
Proof.
  intros H. destruct H as [|c r N|ds t r L F M A]; auto with css.
  eapply suffix_trans; [|apply suffix_app]. destruct A; auto with css.
Qed.
Lemma escape_strict s c r : Escape s c r -> s <> [] -> (length r < length s)%nat.
Proof.
  intros H N. destruct H as [|c r N'|ds t r L F M A].
  - congruence.
  - cbn. lia.
  - rewrite app_length. assert (length r <= length t)%nat by (destruct A; cbn; lia). lia.
Qed.

(** * Identifiers *)

Lemma ident_loop_ok f : forall acc s, (length s <= f)%nat ->
  exists n r, consume_identifier_loop f acc s = Some (acc ++ n, r) /\ Suffix r s /\
    (r = s -> n = [] /\ (forall c, hd_error s = Some c -> is_identifier_code_point c = false) /\ starts_with_valid_escape s = false) /\
    (forall c, hd_error r = Some c -> is_identifier_code_point c = false) /\ starts_with_valid_escape r = false.
Proof.
  induction f as [|f IH]; intros acc s L.
  - destruct s; [|cbn in L; lia]. exists [], []. cbn. rewrite app_nil_r. repeat split; auto with css; discriminate.
  - destruct s as [|c s].
    { exists [], []. cbn. rewrite app_nil_r. repeat split; auto with css; discriminate. }
    cbn [consume_identifier_loop]. cbn in L. destruct (is_identifier_code_point c) eqn:E.
    + destruct (IH (acc ++ [c]) s) as (n & r & A & B & C & D & D'); [lia|]. exists (c :: n), r.
      rewrite A, <- app_assoc. split; [reflexivity|]. split; [auto with css|]. split; [|auto].
      intros ->. destruct (suffix_strict c _ _ B eq_refl).
    + destruct (starts_with_valid_escape (c :: s)) eqn:V.
      * destruct (escape_ok s) as (ch & r' & -> & Es).
        pose proof (escape_suffix _ _ _ Es) as Sx. pose proof (suffix_length _ _ Sx).
        destruct (IH (acc ++ [ch]) r') as (n & r & A & B & C & D & D'); [lia|]. exists (ch :: n), r.
        assert (B' : Suffix r s) by (eapply suffix_trans; eauto).
        rewrite A, <- app_assoc. split; [reflexivity|]. split; [auto with css|]. split; [|auto].
        intros ->. destruct (suffix_strict c _ _ B' eq_refl).
      * exists [], (c :: s). rewrite app_nil_r.
        assert (Q : forall x, hd_error (c :: s) = Some x -> is_identifier_code_point x = false) by (cbn; congruence).
        repeat split; auto with css.
Qed.

Lemma ident_ok s : exists n r, consume_identifier s = Some (n, r) /\ Suffix r s /\
    (r = s -> n = [] /\ (forall c, hd_error s = Some c -> is_identifier_code_point c = false) /\ starts_with_valid_escape s = false) /\
    (forall c, hd_error r = Some c -> is_identifier_code_point c = false) /\ starts_with_valid_escape r = false.
Proof.
  unfold consume_identifier. destruct (ident_loop_ok (length s) [] s (Nat.le_refl _)) as (n & r & A & B & C & D & D').
  exists n, r. auto.
Qed.

(** A text that would start an identifier is consumed in part. *)
Lemma ident_strict s n r : consume_identifier s = Some (n, r) -> starts_with_identifier s = true -> Suffix r s /\ r <> s.
Proof.
  intros H W. destruct (ident_ok s) as (n' & r' & A & B & C & _). rewrite A in H. injection H as -> ->.
  split; [exact B|]. intros E. destruct (C E) as (_ & N & V). destruct s as [|c s]; [discriminate|].
  specialize (N c eq_refl). unfold is_identifier_code_point in N. apply orb_false_iff in N as [N1 N2].
  apply orb_false_iff in N1 as [N1 _]. cbn [starts_with_identifier] in W. rewrite N2, N1 in W.
  destruct (c =? 0x5C); [|discriminate]. congruence.
Qed.

(** * Strings and urls *)

Lemma string_ok f : forall q acc s, (length s <= f)%nat ->
  exists t r, consume_string_loop f q acc s = Some (t, r) /\ Suffix r s /\ (t = BadString \/ exists v, t = Str v).
Proof.
  induction f as [|f IH]; intros q acc s L.
  - destruct s; [|cbn in L; lia]. cbn. do 2 eexists. split; [reflexivity|]. eauto with css.
  - destruct s as [|c s]; [cbn; do 2 eexists; split; [reflexivity|]; eauto with css|].
    cbn [consume_string_loop]. cbn in L. destruct (c =? q); [do 2 eexists; split; [reflexivity|]; eauto with css|].
    destruct (is_newline c); [do 2 eexists; split; [reflexivity|]; eauto with css|].
    destruct (c =? 0x5C).
    + destruct s as [|d s'].
      * destruct (IH q acc []) as (t & r & A & B & C); [cbn; lia|]. exists t, r. rewrite A. auto with css.
      * destruct (is_newline d).
        -- destruct (IH q acc s') as (t & r & A & B & C); [cbn in L; lia|]. exists t, r. rewrite A. auto with css.
        -- destruct (escape_ok (d :: s')) as (ch & r' & -> & Es). pose proof (escape_suffix _ _ _ Es) as Sx.
           pose proof (suffix_length _ _ Sx).
           destruct (IH q (acc ++ [ch]) r') as (t & r & A & B & C); [lia|]. exists t, r. rewrite A.
           repeat split; auto. apply suffix_cons. eapply suffix_trans; eauto.
    + destruct (IH q (acc ++ [c]) s) as (t & r & A & B & C); [lia|]. exists t, r. rewrite A. auto with css.
Qed.
Lemma string_token_ok q s : exists t r, consume_string_token q s = Some (t, r) /\ Suffix r s /\ (t = BadString \/ exists v, t = Str v).
Proof. apply string_ok. lia. Qed.

Lemma bad_url_ok f : forall s, (length s <= f)%nat -> exists r, bad_url_loop f s = Some r /\ Suffix r s.
Proof.
  induction f as [|f IH]; intros s L.
  - destruct s; [|cbn in L; lia]. exists []. auto with css.
  - destruct s as [|c s]; [exists []; auto with css|]. cbn [bad_url_loop]. cbn in L.
    destruct (c =? 0x29); [exists s; auto with css|]. destruct (starts_with_valid_escape (c :: s)).
    + destruct (escape_ok s) as (ch & r' & -> & Es). pose proof (escape_suffix _ _ _ Es) as Sx.
      pose proof (suffix_length _ _ Sx). destruct (IH r') as (r & A & B); [lia|]. exists r. split; [exact A|].
      apply suffix_cons. eapply suffix_trans; eauto.
    + destruct (IH s) as (r & A & B); [lia|]. exists r. auto with css.
Qed.
Lemma bad_url_token_ok s : exists r, bad_url s = Some (BadUrl, r) /\ Suffix r s.
Proof.
  unfold bad_url, consume_remnants_of_bad_url. destruct (bad_url_ok (length s) s (Nat.le_refl _)) as (r & -> & B). eauto.
Qed.

Lemma url_ok f : forall acc s, (length s <= f)%nat ->
  exists t r, consume_url_loop f acc s = Some (t, r) /\ Suffix r s /\ (t = BadUrl \/ exists v, t = Url v).
Proof.
  induction f as [|f IH]; intros acc s L.
  - destruct s; [|cbn in L; lia]. cbn. do 2 eexists. split; [reflexivity|]. eauto with css.
  - destruct s as [|c s]; [cbn; do 2 eexists; split; [reflexivity|]; eauto with css|].
    cbn [consume_url_loop]. cbn in L. destruct (c =? 0x29); [do 2 eexists; split; [reflexivity|]; eauto with css|].
    destruct (is_whitespace c).
    { pose proof (span_suffix is_whitespace s) as Sx. destruct (snd (span is_whitespace s)) as [|d r'].
      - do 2 eexists. split; [reflexivity|]. eauto with css.
      - destruct (d =? 0x29).
        + do 2 eexists. split; [reflexivity|]. split; [apply suffix_cons; eapply suffix_tail; eauto|eauto].
        + destruct (bad_url_token_ok (d :: r')) as (r & -> & B). do 2 eexists. split; [reflexivity|].
          split; [apply suffix_cons; eapply suffix_trans; eauto|auto]. }
    assert (Bu : exists t r, bad_url s = Some (t, r) /\ Suffix r (c :: s) /\ (t = BadUrl \/ exists v, t = Url v)).
    { destruct (bad_url_token_ok s) as (r & -> & B). do 2 eexists. split; [reflexivity|]. auto with css. }
    destruct (_ || _); [exact Bu|]. destruct (c =? 0x5C).
    + destruct (starts_with_valid_escape s); [|exact Bu]. destruct (escape_ok s) as (ch & r' & -> & Es).
      destruct (IH (acc ++ [ch]) s) as (t & r & A & B & C); [lia|]. exists t, r. rewrite A. auto with css.
    + destruct (IH (acc ++ [c]) s) as (t & r & A & B & C); [lia|]. exists t, r. rewrite A. auto with css.
Qed.
Lemma url_token_ok s : exists t r, consume_url_token s = Some (t, r) /\ Suffix r s /\ (t = BadUrl \/ exists v, t = Url v).
Proof.
  unfold consume_url_token. destruct (url_ok (length (snd (span is_whitespace s))) [] _ (Nat.le_refl _)) as (t & r & A & B & C).
  exists t, r. repeat split; auto. eapply suffix_trans; [exact B|apply span_suffix].
Qed.

(** * Numbers *)

Lemma take_sign_app s a b : take_sign s = (a, b) -> s = a ++ b.
Proof. destruct s as [|c s]; cbn; [now intros [= <- <-]|]. destruct (is_sign c); now intros [= <- <-]. Qed.
Lemma take_fraction_app s a b : take_fraction s = (a, b) -> s = a ++ b.
Proof.
  destruct s as [|c [|d s]]; cbn [take_fraction]; try now intros [= <- <-].
  destruct (_ && _); [|now intros [= <- <-]]. destruct (span is_digit s) as [x y] eqn:E.
  apply span_ok in E as (-> & _). now intros [= <- <-].
Qed.
Lemma take_exponent_app s a b : take_exponent s = (a, b) -> s = a ++ b.
Proof.
  destruct s as [|c [|d s]]; cbn [take_exponent]; try now intros [= <- <-].
  destruct (_ && _).
  - destruct (span is_digit s) as [x y] eqn:E. apply span_ok in E as (-> & _). now intros [= <- <-].
  - destruct s as [|d2 s]; [now intros [= <- <-]|]. destruct (_ && _); [|now intros [= <- <-]].
    destruct (span is_digit s) as [x y] eqn:E. apply span_ok in E as (-> & _). now intros [= <- <-].
Qed.
Lemma number_repr_app s a t b : number_repr s = (a, t, b) -> s = a ++ b.
Proof.
  unfold number_repr. destruct (take_sign s) as [sg s1] eqn:E1. destruct (span is_digit s1) as [ip s2] eqn:E2.
  destruct (take_fraction s2) as [fp s3] eqn:E3. destruct (take_exponent s3) as [ep s4] eqn:E4. intros [= <- _ <-].
  apply take_sign_app in E1. apply span_ok in E2 as (E2 & _). apply take_fraction_app in E3. apply take_exponent_app in E4.
  subst. now rewrite <- !app_assoc.
Qed.

(** A number starts here: a digit, a dot and a digit, or either after a sign. *)
Inductive NumberStart : list Z -> Prop :=
| ns_digit d r : dec_digit d -> NumberStart (d :: r)
| ns_dot d r : dec_digit d -> NumberStart (0x2E :: d :: r)
| ns_sign c d r : c = 0x2B \/ c = 0x2D -> dec_digit d -> NumberStart (c :: d :: r)
| ns_sign_dot c d r : c = 0x2B \/ c = 0x2D -> dec_digit d -> NumberStart (c :: 0x2E :: d :: r).

Lemma is_sign_iff c : is_sign c = true <-> c = 0x2B \/ c = 0x2D.
Proof. unfold is_sign. rewrite orb_true_iff, !Z.eqb_eq. reflexivity. Qed.
Lemma digit_not_sign c : is_digit c = true -> is_sign c = false /\ (c =? 0x2E) = false /\ is_e c = false.
Proof.
  rewrite is_digit_iff. unfold dec_digit, is_sign, is_e. intros H. rewrite !orb_false_iff, !Z.eqb_neq. lia.
Qed.

Lemma starts_with_number_iff s : starts_with_number s = true <-> NumberStart s.
Proof.
  split.
  - destruct s as [|c s]; [discriminate|]. cbn [starts_with_number]. destruct (is_sign c) eqn:Sg; unfold is_sign in Sg; rewrite Sg.
    + fold (is_sign c) in Sg. apply is_sign_iff in Sg. destruct s as [|d s]; [discriminate|].
      destruct (is_digit d) eqn:D; [intros _; apply ns_sign; [exact Sg|now apply is_digit_iff]|].
      destruct (Z.eqb_spec d 0x2E) as [->|]; [|discriminate]. destruct s as [|e s]; [discriminate|].
      intros E. apply ns_sign_dot; [exact Sg|now apply is_digit_iff].
    + destruct (Z.eqb_spec c 0x2E) as [->|N].
      * destruct s as [|d s]; [discriminate|]. intros E. apply ns_dot. now apply is_digit_iff.
      * intros E. apply ns_digit. now apply is_digit_iff.
  - intros H. destruct H as [d r D|d r D|c d r C D|c d r C D]; apply is_digit_iff in D; cbn [starts_with_number].
    + destruct (digit_not_sign d D) as (A & B & _). unfold is_sign in A. now rewrite A, B.
    + exact D.
    + apply is_sign_iff in C. unfold is_sign in C. now rewrite C, D.
    + apply is_sign_iff in C. unfold is_sign in C. rewrite C. change (is_digit 0x2E) with false. now rewrite Z.eqb_refl, D.
Qed.

(** Where the tokeniser stays in place: a dot before something that starts a number but not with a digit. *)
Inductive Stuck : list Z -> Prop :=
| stuck_dot d r : dec_digit d -> Stuck (0x2E :: 0x2E :: d :: r)
| stuck_sign c d r : c = 0x2B \/ c = 0x2D -> dec_digit d -> Stuck (0x2E :: c :: d :: r)
| stuck_sign_dot c d r : c = 0x2B \/ c = 0x2D -> dec_digit d -> Stuck (0x2E :: c :: 0x2E :: d :: r).

Lemma repr_sign c s : is_sign c = true -> exists a t b, number_repr (c :: s) = (c :: a, t, b).
Proof.
  intros H. unfold number_repr, take_sign. rewrite H. destruct (span is_digit s) as [ip s2].
  destruct (take_fraction s2) as [fp s3]. destruct (take_exponent s3) as [ep s4]. cbn [app]. eauto.
Qed.
Lemma repr_digit c s : is_digit c = true -> exists a t b, number_repr (c :: s) = (c :: a, t, b).
Proof.
  intros H. unfold number_repr, take_sign. destruct (digit_not_sign c H) as (-> & _). cbn [span]. rewrite H.
  destruct (span is_digit s) as [ip s2].
  destruct (take_fraction s2) as [fp s3]. destruct (take_exponent s3) as [ep s4]. cbn [app]. eauto.
Qed.
Lemma repr_dot d s : is_digit d = true -> exists a t b, number_repr (0x2E :: d :: s) = (0x2E :: a, t, b).
Proof.
  intros H. unfold number_repr. change (take_sign (0x2E :: d :: s)) with (@nil Z, 0x2E :: d :: s). cbv iota beta.
  change (span is_digit (0x2E :: d :: s)) with (@nil Z, 0x2E :: d :: s). cbv iota beta.
  unfold take_fraction. rewrite H. change ((0x2E =? 0x2E) && true) with true. cbv iota.
  destruct (span is_digit s) as [ip s2].
  destruct (take_exponent s2) as [ep s4]. cbn [app]. eauto.
Qed.
Lemma repr_stuck s : Stuck s -> number_repr s = ([], Tinteger, s).
Proof.
  intros H. destruct H as [d r D|c d r C D|c d r C D]; unfold number_repr; cbn -[is_digit is_sign].
  - reflexivity.
  - destruct C as [-> | ->]; reflexivity.
  - destruct C as [-> | ->]; reflexivity.
Qed.

(** Text and parts of a number. *)
Lemma take_fraction_digits s a b : take_fraction s = (a, b) ->
  (a = [] /\ b = s) \/ exists ds, a = 0x2E :: ds /\ ds <> [] /\ Forall (fun c => is_digit c = true) ds /\ s = 0x2E :: ds ++ b.
Proof.
  destruct s as [|c [|d s]]; cbn [take_fraction]; try (intros [= <- <-]; now left).
  destruct (Z.eqb_spec c 0x2E) as [->|]; cbn [andb]; [|intros [= <- <-]; now left].
  destruct (is_digit d) eqn:D; [|intros [= <- <-]; now left].
  destruct (span is_digit s) as [x y] eqn:E. apply span_ok in E as (-> & F & _). intros [= <- <-].
  right. exists (d :: x). repeat split; auto. discriminate.
Qed.
Lemma take_exponent_digits s a b : take_exponent s = (a, b) ->
  (a = [] /\ b = s) \/ exists e sg ds, a = e :: sg ++ ds /\ is_e e = true /\ (sg = [] \/ exists c, sg = [c] /\ is_sign c = true) /\
    ds <> [] /\ Forall (fun c => is_digit c = true) ds /\ s = a ++ b.
Proof.
  intros H. assert (App := take_exponent_app s a b H). revert H.
  destruct s as [|c [|d s]]; cbn [take_exponent]; try (intros [= <- <-]; now left).
  destruct (is_e c) eqn:E; cbn [andb].
  - destruct (is_digit d) eqn:D.
    + destruct (span is_digit s) as [x y] eqn:Sp. apply span_ok in Sp as (-> & F & _). intros [= <- <-].
      right. exists c, [], (d :: x). repeat split; auto. discriminate.
    + destruct s as [|d2 s]; [intros [= <- <-]; now left|]. destruct (is_sign d) eqn:Sg; cbn [andb]; [|intros [= <- <-]; now left].
      destruct (is_digit d2) eqn:D2; [|intros [= <- <-]; now left].
      destruct (span is_digit s) as [x y] eqn:Sp. apply span_ok in Sp as (-> & F & _). intros [= <- <-].
      right. exists c, [d], (d2 :: x). repeat split; eauto. discriminate.
  - destruct s as [|d2 s]; intros [= <- <-]; now left.
Qed.

Lemma read_sign_take s sg r : take_sign s = (sg, r) -> exists neg, read_sign s = (neg, r) /\
  neg = match sg with c :: _ => c =? 0x2D | [] => false end.
Proof.
  destruct s as [|c s]; cbn; [intros [= <- <-]; eauto|]. unfold is_sign.
  destruct (Z.eqb_spec c 0x2B) as [->|N]; cbn [orb]; [intros [= <- <-]; eauto|].
  destruct (Z.eqb_spec c 0x2D) as [->|N2]; intros [= <- <-]; eauto.
Qed.

(** Reading back the text [sg ++ ip ++ fp ++ ep]. *)
Lemma convert_parts sg ip fds (hasf : bool) ex esg eds (hase : bool) :
  (sg = [] \/ exists c, sg = [c] /\ is_sign c = true) ->
  Forall (fun c => is_digit c = true) ip -> Forall (fun c => is_digit c = true) fds -> Forall (fun c => is_digit c = true) eds ->
  is_e ex = true -> (esg = [] \/ exists c, esg = [c] /\ is_sign c = true) ->
  (hasf = false -> fds = []) -> (hase = false -> esg = [] /\ eds = []) -> (hase = true -> eds <> []) ->
  convert_string_to_number (sg ++ ip ++ (if hasf then 0x2E :: fds else []) ++ (if hase then ex :: esg ++ eds else []))
  = match u32_of_digits ip, u32_of_digits fds, u32_of_digits eds with
    | Some i, Some f, Some e => Some (mk_number (match sg with c :: _ => c =? 0x2D | [] => false end) i f (length fds)
                                        (match esg with c :: _ => c =? 0x2D | [] => false end) e)
    | _, _, _ => None
    end.
Proof.
  intros Hsg Hip Hf He Hex Hesg Nf Ne Pe. unfold convert_string_to_number.
  set (E := if hase then ex :: esg ++ eds else []). set (F := (if hasf then 0x2E :: fds else []) ++ E).
  assert (NE : forall c, hd_error E = Some c -> is_digit c = false /\ is_sign c = false /\ (c =? 0x2E) = false).
  { unfold E. destruct hase; cbn; [|discriminate]. intros c [= <-]. unfold is_e in Hex.
    apply orb_true_iff in Hex as [X|X]; apply Z.eqb_eq in X as ->; repeat split. }
  assert (NF : forall c, hd_error F = Some c -> is_digit c = false /\ is_sign c = false).
  { unfold F. destruct hasf; cbn; [intros c [= <-]; split; reflexivity|]. intros c X. destruct (NE c X) as (A & B & _). auto. }
  assert (R1 : read_sign (sg ++ ip ++ F) = (match sg with c :: _ => c =? 0x2D | [] => false end, ip ++ F)).
  { destruct Hsg as [-> | (c & -> & Hc)].
    - cbn [app]. destruct ip as [|x ip].
      + cbn [app]. destruct F as [|c F']; [reflexivity|]. destruct (NF c eq_refl) as [_ B].
        unfold is_sign in B. apply orb_false_iff in B as [B1 B2]. cbn. now rewrite B1, B2.
      + inversion Hip as [|y z D _]; subst. destruct (digit_not_sign x D) as (B & _).
        unfold is_sign in B. apply orb_false_iff in B as [B1 B2]. cbn. now rewrite B1, B2.
    - cbn. unfold is_sign in Hc. destruct (Z.eqb_spec c 0x2B) as [X|X]; [now rewrite X|]. cbn in Hc. now rewrite Hc. }
  rewrite R1.
  assert (R2 : span is_digit (ip ++ F) = (ip, F)).
  { apply span_app; [exact Hip|]. intros c X. now apply NF. }
  rewrite R2.
  assert (R3 : (match F with c :: r => if c =? 0x2E then r else F | [] => [] end) = fds ++ E).
  { unfold F. destruct hasf; [reflexivity|]. rewrite (Nf eq_refl). cbn [app]. destruct E as [|c E']; [reflexivity|].
    destruct (NE c eq_refl) as (_ & _ & ->). reflexivity. }
  rewrite R3.
  assert (R4 : span is_digit (fds ++ E) = (fds, E)).
  { apply span_app; [exact Hf|]. intros c X. now apply NE. }
  rewrite R4.
  assert (R5 : (match E with c :: r => if is_e c then r else E | [] => [] end) = esg ++ eds).
  { unfold E. destruct hase; [now rewrite Hex|]. destruct (Ne eq_refl) as [-> ->]. reflexivity. }
  rewrite R5.
  assert (R6 : read_sign (esg ++ eds) = (match esg with c :: _ => c =? 0x2D | [] => false end, eds)).
  { destruct Hesg as [-> | (c & -> & Hc)].
    - cbn [app]. destruct eds as [|x eds]; [reflexivity|]. inversion He as [|y z D _]; subst.
      destruct (digit_not_sign x D) as (B & _). unfold is_sign in B. apply orb_false_iff in B as [B1 B2]. cbn. now rewrite B1, B2.
    - cbn. unfold is_sign in Hc. destruct (Z.eqb_spec c 0x2B) as [X|X]; [now rewrite X|]. cbn in Hc. now rewrite Hc. }
  rewrite R6.
  assert (R7 : span is_digit eds = (eds, [])).
  { rewrite <- (app_nil_r eds) at 1. apply span_app; [exact He|discriminate]. }
  rewrite R7. reflexivity.
Qed.

(** Every number text has this form. *)
Lemma number_repr_parts s a t b : number_repr s = (a, t, b) ->
  exists sg ip (hasf : bool) fds (hase : bool) ex esg eds,
    a = sg ++ ip ++ (if hasf then 0x2E :: fds else []) ++ (if hase then ex :: esg ++ eds else []) /\ s = a ++ b /\
    (sg = [] \/ exists c, sg = [c] /\ is_sign c = true) /\
    Forall (fun c => is_digit c = true) ip /\ Forall (fun c => is_digit c = true) fds /\ Forall (fun c => is_digit c = true) eds /\
    is_e ex = true /\ (esg = [] \/ exists c, esg = [c] /\ is_sign c = true) /\
    (hasf = false -> fds = []) /\ (hase = false -> esg = [] /\ eds = []) /\ (hase = true -> eds <> []) /\
    t = (if hasf then Tnumber else if hase then Tnumber else Tinteger).
Proof.
  intros H. assert (App := number_repr_app s a t b H). unfold number_repr in H.
  destruct (take_sign s) as [sg s1] eqn:E1. destruct (span is_digit s1) as [ip s2] eqn:E2.
  destruct (take_fraction s2) as [fp s3] eqn:E3. destruct (take_exponent s3) as [ep s4] eqn:E4. injection H as <- <- <-.
  assert (S1 : sg = [] \/ exists c, sg = [c] /\ is_sign c = true).
  { destruct s as [|c s]; cbn in E1; [injection E1 as <- _; now left|].
    destruct (is_sign c) eqn:Sg; injection E1 as <- _; [right; eauto|now left]. }
  apply span_ok in E2 as (_ & Fi & _).
  apply take_fraction_digits in E3. apply take_exponent_digits in E4.
  destruct E3 as [[-> _]|(fds & -> & Nf & Ff & _)]; destruct E4 as [[-> _]|(ex & esg & eds & -> & Ex & Es & Nd & Fe & _)].
  - exists sg, ip, false, [], false, 0x65, [], []. repeat split; auto; discriminate.
  - exists sg, ip, false, [], true, ex, esg, eds. repeat split; auto; try discriminate; congruence.
  - exists sg, ip, true, fds, false, 0x65, [], []. repeat split; auto; discriminate.
  - exists sg, ip, true, fds, true, ex, esg, eds. repeat split; auto; try discriminate; congruence.
Qed.

Lemma u32_small ds : Forall (fun c => is_digit c = true) ds -> number_of 10 ds < 2 ^ 32 -> u32_of_digits ds = Some (number_of 10 ds).
Proof.
  intros F B. destruct ds as [|d ds]; [reflexivity|]. unfold u32_of_digits, from_chars.
  rewrite prefix_number; [|lia|].
  - cbn [Nat.add length]. fold (number_of 10 (d :: ds)). destruct (Z.leb_spec (number_of 10 (d :: ds)) (2 ^ 32 - 1)); [reflexivity|lia].
  - eapply Forall_impl; [|exact F]. cbn. intros c H. apply is_digit_iff in H. destruct (dec_value c H).
    split; [|lia]. unfold hex_digit, dec_digit in *. lia.
Qed.
Lemma u32_large ds : Forall (fun c => is_digit c = true) ds -> 2 ^ 32 <= number_of 10 ds -> u32_of_digits ds = None.
Proof.
  intros F B. destruct ds as [|d ds]; [cbn in B; lia|]. unfold u32_of_digits, from_chars.
  rewrite prefix_number; [|lia|].
  - cbn [Nat.add length]. fold (number_of 10 (d :: ds)). destruct (Z.leb_spec (number_of 10 (d :: ds)) (2 ^ 32 - 1)); [lia|reflexivity].
  - eapply Forall_impl; [|exact F]. cbn. intros c H. apply is_digit_iff in H. destruct (dec_value c H).
    split; [|lia]. unfold hex_digit, dec_digit in *. lia.
Qed.
Lemma short_small ds : Forall (fun c => is_digit c = true) ds -> (length ds <= 9)%nat -> number_of 10 ds < 2 ^ 32.
Proof.
  intros F L. destruct (fold_bound 10 ds 0) as [_ U]; [lia| |lia|].
  { eapply Forall_impl; [|exact F]. cbn. intros c H. apply is_digit_iff in H. now apply dec_value. }
  fold (number_of 10 ds) in U. assert (10 ^ Z.of_nat (length ds) <= 10 ^ 9) by (apply Z.pow_le_mono_r; lia).
  assert (10 ^ 9 = 1000000000) by reflexivity. lia.
Qed.

(** No more than nine digits in a row anywhere. *)
Definition short_numbers (s : list Z) : Prop :=
  forall a ds b, s = a ++ ds ++ b -> Forall dec_digit ds -> (length ds <= 9)%nat.

Lemma consume_number_short s : short_numbers s -> exists v t r, consume_number s = Some (v, t, r).
Proof.
  intros Sh. unfold consume_number. destruct (number_repr s) as [[a t] b] eqn:E.
  destruct (number_repr_parts s a t b E) as (sg & ip & hasf & fds & hase & ex & esg & eds & -> & App & H1 & H2 & H3 & H4 & H5 & H6 & H7 & H8 & H9 & _).
  assert (K : forall x ds y, s = x ++ ds ++ y -> Forall (fun c => is_digit c = true) ds -> u32_of_digits ds = Some (number_of 10 ds)).
  { intros x ds y Eq F. apply u32_small; [exact F|]. apply short_small; [exact F|]. apply (Sh x ds y Eq).
    eapply Forall_impl; [|exact F]. intros c. apply is_digit_iff. }
  rewrite convert_parts by assumption.
  rewrite (K sg ip ((if hasf then 0x2E :: fds else []) ++ (if hase then ex :: esg ++ eds else []) ++ b)); [|rewrite App, <- !app_assoc; reflexivity|exact H2].
  destruct hasf.
  - rewrite (K (sg ++ ip ++ [0x2E]) fds ((if hase then ex :: esg ++ eds else []) ++ b)); [|rewrite App, <- !app_assoc; reflexivity|exact H3].
    destruct hase.
    + rewrite (K (sg ++ ip ++ (0x2E :: fds) ++ ex :: esg) eds b); [eauto| |exact H4].
      rewrite App. rewrite <- !app_assoc. cbn [app]. rewrite <- !app_assoc. reflexivity.
    + destruct (H8 eq_refl) as [-> ->]. cbn. eauto.
  - rewrite (H7 eq_refl). cbn [u32_of_digits]. destruct hase.
    + rewrite (K (sg ++ ip ++ ex :: esg) eds b); [eauto| |exact H4].
      rewrite App. rewrite <- !app_assoc. cbn [app]. rewrite <- !app_assoc. reflexivity.
    + destruct (H8 eq_refl) as [-> ->]. cbn. eauto.
Qed.

Lemma consume_number_inv s v t r : consume_number s = Some (v, t, r) -> exists a, number_repr s = (a, t, r) /\ s = a ++ r.
Proof.
  unfold consume_number. destruct (number_repr s) as [[a t'] b] eqn:E. destruct (convert_string_to_number a); [|discriminate].
  intros [= <- <- <-]. exists a. split; [reflexivity|]. eapply number_repr_app; eauto.
Qed.

Lemma numeric_suffix s t r : consume_numeric_token s = Some (t, r) -> forall a ty b, number_repr s = (a, ty, b) -> Suffix r b /\ t <> Eof.
Proof.
  unfold consume_numeric_token. destruct (consume_number s) as [[[v ty] r0]|] eqn:E; [|discriminate].
  intros H a ty' b N. destruct (consume_number_inv s v ty r0 E) as (a' & E' & _). rewrite E' in N. injection N as -> -> ->.
  destruct (starts_with_identifier b).
  - destruct (consume_identifier b) as [[u r']|] eqn:C; [|discriminate]. injection H as <- <-.
    destruct (ident_ok b) as (n & r2 & A & B & _). rewrite A in C. injection C as -> ->. split; [exact B|discriminate].
  - destruct b as [|c b]; [injection H as <- <-; split; [auto with css|discriminate]|].
    destruct (c =? 0x25); injection H as <- <-; (split; [auto with css|discriminate]).
Qed.
Lemma numeric_strict s c a t r ty b : consume_numeric_token s = Some (t, r) -> number_repr s = (c :: a, ty, b) -> Suffix r s /\ r <> s /\ t <> Eof.
Proof.
  intros H N. destruct (numeric_suffix s t r H (c :: a) ty b N) as [B Ne]. pose proof (number_repr_app _ _ _ _ N) as ->.
  assert (Suffix r (a ++ b)) by (eapply suffix_trans; [exact B|apply suffix_app]).
  repeat split; auto; [cbn; auto with css|]. apply suffix_strict. auto.
Qed.

(** * Identifier-like tokens *)

Lemma skip_two_suffix : forall s p p' s', skip_two_whitespace p s = (p', s') -> Suffix (p' :: s') (p :: s).
Proof.
  induction s as [|a r IH]; intros p p' s' H; cbn [skip_two_whitespace] in H.
  - injection H as <- <-. auto with css.
  - destruct r as [|b r].
    + injection H as <- <-. auto with css.
    + destruct (_ && _); [|injection H as <- <-; auto with css]. apply suffix_cons. eapply IH; exact H.
Qed.

Lemma utf32_match_total a b : exists v, is_ascii_case_insensitive_match utf32 utf32 a b = Some v.
Proof.
  unfold is_ascii_case_insensitive_match. revert b. induction a as [|x a IH]; intros [|y b]; cbn; eauto.
  destruct (_ =? _); eauto.
Qed.

Lemma ident_like_suffix s t r : consume_ident_like_token s = Some (t, r) ->
  (starts_with_identifier s = true -> r <> s) /\ Suffix r s /\ t <> Eof.
Proof.
  unfold consume_ident_like_token. destruct (ident_ok s) as (n & b & A & B & _). rewrite A. intros H.
  assert (L : starts_with_identifier s = true -> (length b < length s)%nat).
  { intros W. destruct (ident_strict s n b A W) as [_ N]. pose proof (suffix_length _ _ B).
    destruct (Nat.eq_dec (length b) (length s)) as [E|]; [|lia]. destruct N. now apply suffix_eq. }
  assert (Done : Suffix r b -> (starts_with_identifier s = true -> r <> s) /\ Suffix r s).
  { intros X. split; [|eapply suffix_trans; eauto]. intros W ->. apply suffix_length in X. specialize (L W). lia. }
  assert (Plain : match b with c :: r' => if c =? 0x28 then Some (Function n, r') else Some (Ident n, b) | [] => Some (Ident n, b) end = Some (t, r) ->
    Suffix r b /\ t <> Eof).
  { destruct b as [|c b']; [intros [= <- <-]; split; [auto with css|discriminate]|].
    destruct (c =? 0x28); intros [= <- <-]; (split; [auto with css|discriminate]). }
  destruct (utf32_match_total n [0x75; 0x72; 0x6C]) as [[|] M]; rewrite M in H.
  - destruct b as [|c r1]; [discriminate|]. destruct (c =? 0x28) eqn:Ec; [|destruct (Plain H); destruct Done; auto].
    destruct (skip_two_whitespace c r1) as [p r2] eqn:Sk. apply skip_two_suffix in Sk.
    destruct (quote_follows r2).
    + injection H as <- <-. destruct Done; [exact Sk|]. repeat split; auto; discriminate.
    + destruct (url_token_ok r2) as (t' & r' & U1 & U2 & U3). rewrite U1 in H. injection H as <- <-.
      destruct Done; [eapply suffix_trans; [exact U2|eapply suffix_tail; exact Sk]|].
      split; [auto|]. split; [auto|]. destruct U3 as [-> | (v & ->)]; discriminate.
  - destruct (Plain H). destruct Done; auto.
Qed.
