(** The CSS tokeniser against CSS Syntax 4.3: which token is taken from a text, and what is left of it. *)
From Coq Require Import ZArith List Bool Lia Wf_nat.
From Verif Require Import M_unicode M_infra M_percent M_encoding M_labels M_css L_unicode L_infra L_css L_css2 L_css3 L_css4.
Import ListNotations.
Open Scope Z_scope.

(** * The standard *)

(** 4.3.2: the text behind the comments in front. *)
Definition no_end (b : list Z) : Prop := forall p q, b <> p ++ 0x2A :: 0x2F :: q.
Inductive Uncommented : list Z -> list Z -> Prop :=
| uc_none s : (forall r, s <> 0x2F :: 0x2A :: r) -> Uncommented s s
| uc_closed b s r : no_end (b ++ [0x2A]) -> Uncommented s r -> Uncommented (0x2F :: 0x2A :: b ++ 0x2A :: 0x2F :: s) r
| uc_open b : no_end b -> Uncommented (0x2F :: 0x2A :: b) [].

(** 4.3.9: starts an identifier; a backslash at the very end is a valid escape (4.3.8). *)
Definition starts_ident (s : list Z) : Prop := IdentStart s \/ s = [0x5C] \/ s = [0x2D; 0x5C].
(** 4.3.12: what an identifier ends at. *)
Definition stops_ident (rest : list Z) : Prop := IdentEnd rest /\ rest <> [0x5C].
(** The text [t], with [rest] behind it, is a name with value [v]. *)
Definition Name (t rest v : list Z) : Prop := Spelled ident_char false rest t v /\ stops_ident rest.

(** 4.3.3: what is behind a number makes it a percentage, a dimension or a number. *)
Inductive Numeric (v : number) (ty : type_flag) : list Z -> token -> list Z -> Prop :=
| nu_percent r : Numeric v ty (0x25 :: r) (Percentage v) r
| nu_unit rest t u : starts_ident (t ++ rest) -> Name t rest u -> Numeric v ty (t ++ rest) (Dimension v u ty) rest
| nu_none r : ~ starts_ident r -> hd_error r <> Some 0x25 -> Numeric v ty r (Number v ty) r.

(** 4.3.14: the remnants of a bad url. *)
Inductive Remnants : list Z -> list Z -> Prop :=
| rm_end : Remnants [] []
| rm_close r : Remnants (0x29 :: r) r
| rm_escape s c r r' : hd_error s <> Some 0x0A -> Escape s c r -> Remnants r r' -> Remnants (0x5C :: s) r'
| rm_other c s r : c <> 0x29 -> (c = 0x5C -> hd_error s = Some 0x0A) -> Remnants s r -> Remnants (c :: s) r.

Definition quote (c : Z) : Prop := c = 0x22 \/ c = 0x27.
Definition non_printable (c : Z) : Prop := 0 <= c <= 0x08 \/ c = 0x0B \/ 0x0E <= c <= 0x1F \/ c = 0x7F.
(** 4.3.6: an unquoted url behind the white space after its parenthesis; a backslash at the very end is an escape. *)
Inductive UrlRest : list Z -> token -> list Z -> Prop :=
| ur_close t v w r : Spelled url_char false (w ++ 0x29 :: r) t v -> Forall white w -> UrlRest (t ++ w ++ 0x29 :: r) (Url v) r
| ur_end t v w : Spelled url_char false w t v -> Forall white w -> UrlRest (t ++ w) (Url v) []
| ur_white t v w c b r : Spelled url_char false (w ++ c :: b) t v -> Forall white w -> w <> [] -> ~ white c -> c <> 0x29 ->
    Remnants (c :: b) r -> UrlRest (t ++ w ++ c :: b) BadUrl r
| ur_bad t v c b r : Spelled url_char false (c :: b) t v -> quote c \/ c = 0x28 \/ non_printable c -> Remnants b r ->
    UrlRest (t ++ c :: b) BadUrl r
| ur_backslash t v b r : Spelled url_char false (0x5C :: b) t v -> hd_error b = Some 0x0A -> Remnants b r ->
    UrlRest (t ++ 0x5C :: b) BadUrl r.

(** 4.3.1: the tokens of one code point. *)
Definition marks : list (Z * token) :=
  [(0x28, OpenParen); (0x29, CloseParen); (0x2C, Comma); (0x3A, Colon); (0x3B, Semicolon); (0x5B, OpenSquare); (0x5D, CloseSquare);
   (0x7B, OpenCurly); (0x7D, CloseCurly)].
(** The code points that may start something else than themselves. *)
Definition opens (c : Z) : Prop :=
  white c \/ quote c \/ In c (map fst marks) \/ In c [0x23; 0x2B; 0x2D; 0x2E; 0x3C; 0x40; 0x5C] \/ dec_digit c \/ ident_start c.
Definition cdc (r : list Z) : list Z := 0x2D :: 0x2D :: 0x3E :: r.
Definition cdo (r : list Z) : list Z := 0x3C :: 0x21 :: 0x2D :: 0x2D :: r.
(** The token taken from a text without a comment in front, and the rest. *)
Inductive Taken : list Z -> token -> list Z -> Prop :=
| tk_eof : Taken [] Eof []
| tk_white c w r : white c -> Forall white w -> (forall d, hd_error r = Some d -> ~ white d) -> Taken (c :: w ++ r) Whitespace r
| tk_string q t e v k r : quote q -> Spelled (string_char q) true e t v -> StringEnd q e k r -> Taken (q :: t ++ e) (k v) r
| tk_mark c k r : In (c, k) marks -> Taken (c :: r) k r
| tk_hash t rest v id : t <> [] -> Name t rest v -> (id = true <-> starts_ident (t ++ rest)) -> Taken (0x23 :: t ++ rest) (Hash v id) rest
| tk_number_sign r : stops_ident r -> Taken (0x23 :: r) (Delim 0x23) r
| tk_number sg ip fr ex rest k r : NumberParts sg ip fr ex -> NumberEnd fr ex rest ->
    Numeric (number_parts_value sg ip fr ex) (match fr, ex with None, None => Tinteger | _, _ => Tnumber end) rest k r ->
    Taken (number_text sg ip fr ex ++ rest) k r
| tk_sign c r : c = 0x2B \/ c = 0x2E -> ~ NumberStart (c :: r) -> Taken (c :: r) (Delim c) r
| tk_minus r : ~ NumberStart (0x2D :: r) -> ~ starts_ident (0x2D :: r) -> Taken (0x2D :: r) (Delim 0x2D) r
| tk_cdc r : Taken (cdc r) CDC r
| tk_cdo r : Taken (cdo r) CDO r
| tk_less r : (forall u, 0x3C :: r <> cdo u) -> Taken (0x3C :: r) (Delim 0x3C) r
| tk_at t rest v : starts_ident (t ++ rest) -> Name t rest v -> Taken (0x40 :: t ++ rest) (AtKeyword v) rest
| tk_at_sign r : ~ starts_ident r -> Taken (0x40 :: r) (Delim 0x40) r
| tk_backslash r : hd_error r = Some 0x0A -> Taken (0x5C :: r) (Delim 0x5C) r
| tk_ident t rest v : starts_ident (t ++ rest) -> (forall u, t ++ rest <> cdc u) -> Name t rest v -> hd_error rest <> Some 0x28 ->
    Taken (t ++ rest) (Ident v) rest
| tk_function t r v : starts_ident (t ++ 0x28 :: r) -> Name t (0x28 :: r) v -> ~ is_url v -> Taken (t ++ 0x28 :: r) (Function v) r
| tk_url_quoted t v w q r : starts_ident (t ++ 0x28 :: w ++ q :: r) -> Name t (0x28 :: w ++ q :: r) v -> is_url v -> Forall white w -> quote q ->
    Taken (t ++ 0x28 :: w ++ q :: r) (Function v) (match w with [] => [] | _ => [last w 0] end ++ q :: r)
| tk_url t v w u k r : starts_ident (t ++ 0x28 :: w ++ u) -> Name t (0x28 :: w ++ u) v -> is_url v -> Forall white w ->
    (forall c, hd_error u = Some c -> ~ white c /\ ~ quote c) -> UrlRest u k r -> Taken (t ++ 0x28 :: w ++ u) k r
| tk_other c r : ~ opens c -> Taken (c :: r) (Delim c) r.
Definition Token (s : list Z) (k : token) (r : list Z) : Prop := exists u, Uncommented s u /\ Taken u k r.

(** * Where the code departs from it *)

Inductive Departs : list Z -> Prop :=
| dp_hash : Departs [0x23]
| dp_sign c r : c = 0x2B \/ c = 0x2D \/ c = 0x2E -> NumberStart r -> ~ NumberStart (c :: r) -> Departs (c :: r)
| dp_dashes r : hd_error r <> Some 0x3E -> ~ IdentStart (0x2D :: r) -> Departs (0x2D :: 0x2D :: r)
| dp_url_end t v : is_url v -> Spelled ident_char false [] t v -> Departs t
| dp_url_quote t v w q r : is_url v -> Spelled ident_char false (0x28 :: w ++ q :: r) t v -> Forall white w -> quote q ->
    Departs (t ++ 0x28 :: w ++ q :: r)
| dp_url_escape t v w u c r : is_url v -> Spelled ident_char false (0x28 :: w ++ u ++ 0x5C :: c :: r) t v -> Forall white w -> Forall url_char u ->
    c <> 0x0A -> Departs (t ++ 0x28 :: w ++ u ++ 0x5C :: c :: r)
| dp_large sg ip fr ex rest : NumberParts sg ip fr ex -> NumberEnd fr ex rest ->
    2 ^ 32 <= number_of 10 ip \/ 2 ^ 32 <= number_of 10 (fraction_digits fr) \/ 2 ^ 32 <= number_of 10 (exponent_digits ex) ->
    Departs (number_text sg ip fr ex ++ rest).

(** * Comments *)

Lemma no_end_cons c b : no_end (c :: b) -> no_end b.
Proof. intros H p q ->. exact (H (c :: p) q eq_refl). Qed.
Lemma after_cons c r : after_comment (c :: r) = match r with d :: r' => if (c =? 0x2A) && (d =? 0x2F) then r' else after_comment r | [] => [] end.
Proof.
  cbn [after_comment]. destruct r as [|d r].
  - destruct c as [|p|p]; try reflexivity. do 6 (destruct p as [p|p|]; try reflexivity).
  - destruct (Z.eqb_spec c 0x2A) as [->|N].
    + destruct (Z.eqb_spec d 0x2F) as [->|M]; [reflexivity|]. cbn [andb].
      destruct d as [|p|p]; try reflexivity. do 6 (destruct p as [p|p|]; try reflexivity). congruence.
    + cbn [andb]. destruct c as [|p|p]; try reflexivity. do 6 (destruct p as [p|p|]; try reflexivity). congruence.
Qed.
Lemma after_open b : no_end b -> after_comment b = [].
Proof.
  induction b as [|c b IH]; intros H; [reflexivity|]. rewrite after_cons. destruct b as [|d b]; [reflexivity|].
  destruct (Z.eqb_spec c 0x2A) as [->|]; [destruct (Z.eqb_spec d 0x2F) as [->|]; [destruct (H [] b eq_refl)|]|]; cbn [andb]; apply IH, (no_end_cons _ _ H).
Qed.
Lemma after_closed s b : no_end (b ++ [0x2A]) -> after_comment (b ++ 0x2A :: 0x2F :: s) = s.
Proof.
  induction b as [|c b IH]; intros H; [reflexivity|]. cbn [app]. rewrite after_cons. destruct b as [|d b].
  - cbn [app]. change (0x2A =? 0x2F) with false. rewrite andb_false_r. reflexivity.
  - cbn [app] in *. destruct (Z.eqb_spec c 0x2A) as [->|]; [destruct (Z.eqb_spec d 0x2F) as [->|]; [destruct (H [] (b ++ [0x2A]) eq_refl)|]|]; cbn [andb]; apply IH, (no_end_cons _ _ H).
Qed.
Lemma comment_split : forall b, no_end b \/ exists a s, b = a ++ 0x2A :: 0x2F :: s /\ no_end (a ++ [0x2A]).
Proof.
  induction b as [|c b [IH|(a & s & -> & IH)]].
  - left. intros [|x p] q H; discriminate H.
  - destruct (Z.eq_dec c 0x2A) as [->|N].
    + destruct b as [|d b]; [left; intros [|x [|y p]] q H; discriminate H|]. destruct (Z.eq_dec d 0x2F) as [->|M].
      * right. exists [], b. split; [reflexivity|]. intros [|x [|y p]] q H; discriminate H.
      * left. intros [|x p] q H; injection H as H1 H2; [congruence|]. exact (IH p q H2).
    + left. intros [|x p] q H; injection H as H1 H2; [congruence|]. exact (IH p q H2).
  - destruct (Z.eq_dec c 0x2A) as [->|N].
    + destruct a as [|d a].
      * right. exists [0x2A], s. split; [reflexivity|]. intros [|x [|y [|z p]]] q H; discriminate H.
      * destruct (Z.eq_dec d 0x2F) as [->|M].
        -- right. exists [], (a ++ 0x2A :: 0x2F :: s). split; [reflexivity|]. intros [|x [|y p]] q H; discriminate H.
        -- right. exists (0x2A :: d :: a), s. split; [reflexivity|]. intros [|x p] q H; injection H as H1 H2; [congruence|]. exact (IH p q H2).
    + right. exists (c :: a), s. split; [reflexivity|]. intros [|x p] q H; injection H as H1 H2; [congruence|]. exact (IH p q H2).
Qed.

Lemma comments_loop_none f s : (forall r, s <> 0x2F :: 0x2A :: r) -> consume_comments_loop f s = s.
Proof.
  intros H. destruct f; [reflexivity|]. cbn [consume_comments_loop]. destruct s as [|a [|b s]]; try reflexivity.
  - destruct a as [|p|p]; try reflexivity. do 6 (destruct p as [p|p|]; try reflexivity).
  - destruct a as [|p|p]; try reflexivity. do 6 (destruct p as [p|p|]; try reflexivity).
    destruct b as [|p|p]; try reflexivity. do 6 (destruct p as [p|p|]; try reflexivity). destruct (H s eq_refl).
Qed.
Lemma uncommented_loop s u : Uncommented s u -> forall f, (length s <= f)%nat -> consume_comments_loop f s = u.
Proof.
  induction 1 as [s N|b s r N H IH|b N]; intros f L.
  - now apply comments_loop_none.
  - destruct f; [cbn in L; lia|]. cbn [consume_comments_loop]. rewrite (after_closed s b N). apply IH. cbn [length] in L. rewrite app_length in L. cbn [length] in L. lia.
  - destruct f; [cbn in L; lia|]. cbn [consume_comments_loop]. rewrite (after_open b N). destruct f; reflexivity.
Qed.
Lemma uncommented_ok s u : Uncommented s u -> consume_comments s = u.
Proof. intros H. apply (uncommented_loop s u H). lia. Qed.
Lemma uncommented_total : forall n s, (length s <= n)%nat -> exists u, Uncommented s u.
Proof.
  induction n as [|n IH]; intros s L.
  - destruct s; [|cbn in L; lia]. exists []. constructor. discriminate.
  - destruct s as [|a [|b s]]; [exists []; constructor; discriminate|exists [a]; constructor; discriminate|].
    destruct (Z.eq_dec a 0x2F) as [->|N]; [|exists (a :: b :: s); constructor; congruence].
    destruct (Z.eq_dec b 0x2A) as [->|N]; [|exists (0x2F :: b :: s); constructor; congruence].
    destruct (comment_split s) as [E|(x & r & -> & E)]; [exists []; now constructor|].
    destruct (IH r) as (u & U); [cbn [length] in L; rewrite app_length in L; cbn [length] in L; lia|]. exists u. now constructor.
Qed.
Lemma uncommented_front s u : Uncommented s u -> forall r, u <> 0x2F :: 0x2A :: r.
Proof. induction 1; auto. discriminate. Qed.
Lemma uncommented_token s u : Uncommented s u -> consume_token s = consume_token u.
Proof. intros H. unfold consume_token. now rewrite (uncommented_ok s u H), (comments_id u (uncommented_front s u H)). Qed.

(** * Names *)

Lemma starts_ident_dec s : starts_ident s \/ ~ starts_ident s.
Proof.
  destruct (starts_with_identifier s) eqn:E; [left; left; now apply starts_with_identifier_iff|].
  destruct (list_eq_dec Z.eq_dec s [0x5C]) as [->|N]; [left; right; now left|].
  destruct (list_eq_dec Z.eq_dec s [0x2D; 0x5C]) as [->|M]; [left; right; now right|].
  right. intros [H|[H|H]]; try contradiction. apply starts_with_identifier_iff in H. congruence.
Qed.
Lemma spelled_nonempty_name t rest v : Name t rest v -> starts_ident (t ++ rest) -> IdentStart (t ++ rest) /\ t <> [].
Proof.
  intros (Sp & (E1 & E2) & Ne) [H|H].
  - split; [exact H|]. intros ->. cbn [app] in H. inversion Sp; subst. inversion H as [c r C|c r C|c r C|c r C]; subst.
    + apply (E1 c eq_refl). now left.
    + apply C, (E2 c r eq_refl).
    + apply (E1 0x2D eq_refl). right. now right.
    + apply (E1 0x2D eq_refl). right. now right.
  - exfalso. destruct Sp as [|c t v A Sp|c t v N1 N2 Sp|ds w t v Ln F W Sp|ds t v Ln F M W Sp|t v X Sp].
    + cbn [app] in H. destruct H as [->| ->]; [congruence|]. apply (E1 0x2D eq_refl). right. now right.
    + cbn [app] in H. destruct H as [H|H]; injection H as -> H.
      * destruct A as [A|[A|A]]; unfold ident_start, dec_digit in A; lia.
      * inversion Sp; subst; cbn [app] in H; try congruence.
        -- injection H as -> H. match goal with K : ident_char 0x5C |- _ => destruct K as [K|[K|K]]; unfold ident_start, dec_digit in K; lia end.
        -- destruct ds as [|d ds]; [cbn in *; lia|discriminate H].
        -- destruct ds as [|d ds]; [cbn in *; lia|discriminate H].
    + cbn [app] in H. destruct H as [H|H]; discriminate H.
    + destruct ds as [|d ds]; [cbn in Ln; lia|]. destruct H as [H|H]; discriminate H.
    + destruct ds as [|d ds]; [cbn in Ln; lia|]. destruct H as [H|H]; discriminate H.
    + discriminate X.
Qed.

(** Every text is a name up to where it stops, unless a backslash is the last code point. *)
Lemma last_suffix (a b : list Z) : b <> [] -> last (a ++ b) 0 = last b 0.
Proof. intros H. induction a as [|x a IH]; [reflexivity|]. cbn [app last]. destruct (a ++ b) eqn:E; [apply app_eq_nil in E as [_ E]; congruence|]. exact IH. Qed.
Lemma name_split s : last s 0 <> 0x5C -> exists t rest v, s = t ++ rest /\ Name t rest v.
Proof.
  intros L. destruct (ident_split (length s) s (Nat.le_refl _)) as (t & rest & v & -> & E & Sp). exists t, rest, v. split; [reflexivity|].
  split; [exact Sp|]. split; [exact E|]. intros ->. apply L. now rewrite last_suffix.
Qed.
Lemma name_value t rest v : Name t rest v -> consume_identifier (t ++ rest) = Some (v, rest).
Proof. intros (Sp & E & _). now apply identifier_ok. Qed.

Lemma escape_value_range n : 0 <= n -> 0 <= escape_value n <= 0x10FFFF.
Proof. intros H. unfold escape_value. destruct (_ || _) eqn:E; [lia|]. apply orb_false_iff in E as [_ E]. apply Z.ltb_ge in E. lia. Qed.
Lemma number_of_pos ds : Forall hex_digit ds -> 0 <= number_of 16 ds.
Proof.
  unfold number_of. intros F. enough (G : forall a, 0 <= a -> 0 <= fold_left (fun v c => 16 * v + hex_value c) ds a) by (apply G; lia).
  induction F as [|c ds C F IH]; intros a A; cbn [fold_left]; [exact A|]. apply IH.
  unfold hex_value, hex_digit in *. destruct (Z.leb_spec c 0x39); destruct (Z.leb_spec c 0x46); lia.
Qed.
Definition in_range (s : list Z) : Prop := Forall (fun c => 0 <= c <= 0x10FFFF) s.
Lemma spelled_range ok cont rest t v : Spelled ok cont rest t v -> in_range t -> in_range v.
Proof.
  unfold in_range. induction 1 as [|c t v A Sp IH|c t v N1 N2 Sp IH|ds w t v Ln F W Sp IH|ds t v Ln F M W Sp IH|t v X Sp IH]; intros R.
  - constructor.
  - inversion R; subst. constructor; auto.
  - inversion R as [|? ? _ R1]; subst. inversion R1; subst. constructor; auto.
  - inversion R as [|? ? _ R1]; subst. apply Forall_app in R1 as [_ R1]. inversion R1; subst. constructor; [apply escape_value_range, number_of_pos, F|auto].
  - inversion R as [|? ? _ R1]; subst. apply Forall_app in R1 as [_ R1]. constructor; [apply escape_value_range, number_of_pos, F|auto].
  - inversion R as [|? ? _ R1]; subst. inversion R1; subst. auto.
Qed.
Lemma range_wide v : in_range v -> Forall (fun c => 0 <= c < 2 ^ 32) v.
Proof. apply Forall_impl. intros c H. lia. Qed.

(** * What the standard takes the code takes *)

Lemma remnants_ok s r : Remnants s r -> forall f, (length s <= f)%nat -> bad_url_loop f s = Some r.
Proof.
  induction 1 as [|r|s c r r' N Es H IH|c s r N1 N2 H IH]; intros f L.
  - destruct f; reflexivity.
  - destruct f; [cbn in L; lia|]. reflexivity.
  - destruct f; [cbn in L; lia|]. cbn [bad_url_loop]. change (0x5C =? 0x29) with false. cbv iota. destruct s as [|d s].
    + inversion Es; subst; [|now destruct ds; [cbn in *; lia|discriminate]]. inversion H; subst. destruct f; reflexivity.
    + rewrite valid_escape_true by (cbn in N; congruence). rewrite (escape_det _ _ _ Es).
      apply IH. assert (X := escape_strict _ _ _ Es ltac:(discriminate)). cbn [length] in *. lia.
  - destruct f; [cbn in L; lia|]. cbn [bad_url_loop]. destruct (Z.eqb_spec c 0x29); [congruence|].
    rewrite valid_escape_false; [apply IH; cbn in L; lia|]. intros d u [= -> ->]. specialize (N2 eq_refl). cbn in N2. congruence.
Qed.
Lemma bad_url_ok s r : Remnants s r -> bad_url s = Some (BadUrl, r).
Proof. intros H. unfold bad_url, consume_remnants_of_bad_url. now rewrite (remnants_ok s r H). Qed.
Lemma remnants_total : forall n s, (length s <= n)%nat -> exists r, Remnants s r.
Proof.
  induction n as [|n IH]; intros s L.
  - destruct s; [|cbn in L; lia]. exists []. constructor.
  - destruct s as [|c s]; [exists []; constructor|]. destruct (Z.eq_dec c 0x29) as [->|N]; [exists s; constructor|].
    destruct (Z.eq_dec c 0x5C) as [->|M].
    + destruct s as [|d s]; [exists []; apply (rm_escape [] 0xFFFD []); [discriminate|constructor|constructor]|].
      destruct (Z.eq_dec d 0x0A) as [->|E].
      * destruct (IH (0x0A :: s)) as (r & R); [cbn in *; lia|]. exists r. apply rm_other; auto.
      * destruct (escape_ok (d :: s)) as (c & r & _ & Es). assert (X := escape_strict _ _ _ Es ltac:(discriminate)).
        destruct (IH r) as (r' & R); [cbn in *; lia|]. exists r'. apply (rm_escape (d :: s) c r r'); auto. cbn. congruence.
    + destruct (IH s) as (r & R); [cbn in L; lia|]. exists r. apply rm_other; auto. congruence.
Qed.

Lemma url_char_step c f acc s : url_char c -> consume_url_loop (S f) acc (c :: s) = consume_url_loop f (acc ++ [c]) s.
Proof.
  intros (A1 & A2 & A3 & A4 & A5 & A6 & A7 & A8 & A9 & A10). cbn [consume_url_loop].
  destruct (Z.eqb_spec c 0x29); [congruence|]. rewrite (not_white c A1).
  destruct (Z.eqb_spec c 0x22); [congruence|]. destruct (Z.eqb_spec c 0x27); [congruence|].
  destruct (Z.eqb_spec c 0x28); [congruence|]. destruct (Z.eqb_spec c 0x5C); [congruence|].
  assert (Np : is_non_printable_code_point c = false).
  { unfold is_non_printable_code_point. destruct (Z.leb_spec 0 c); destruct (Z.leb_spec c 0x08); destruct (Z.eqb_spec c 0x0B);
      destruct (Z.leb_spec 0x0E c); destruct (Z.leb_spec c 0x1F); destruct (Z.eqb_spec c 0x7F); cbn; try reflexivity; lia. }
  rewrite Np. reflexivity.
Qed.
Lemma url_chars_step u : forall f acc e, Forall url_char u -> (length (u ++ e) <= f)%nat ->
  exists f', (length e <= f')%nat /\ consume_url_loop f acc (u ++ e) = consume_url_loop f' (acc ++ u) e.
Proof.
  induction u as [|c u IH]; intros f acc e F L.
  - exists f. rewrite app_nil_r. auto.
  - inversion F; subst. cbn [app] in *. destruct f; [cbn in L; lia|]. rewrite url_char_step by assumption.
    destruct (IH f (acc ++ [c]) e) as (f' & A & B); [assumption|cbn in L; lia|]. exists f'. split; [exact A|]. rewrite B, <- app_assoc. reflexivity.
Qed.
Lemma non_printable_iff c : is_non_printable_code_point c = true <-> non_printable c.
Proof.
  unfold is_non_printable_code_point, non_printable. rewrite !orb_true_iff, !andb_true_iff, !Z.leb_le, !Z.eqb_eq. tauto.
Qed.
Lemma url_plain t e v : Spelled url_char false e t v ->
  (Forall url_char t /\ v = t) \/ exists u c x, t = u ++ 0x5C :: c :: x /\ Forall url_char u /\ c <> 0x0A.
Proof.
  induction 1 as [|c t v A Sp IH|c t v N1 N2 Sp IH|ds w t v Ln F W Sp IH|ds t v Ln F M W Sp IH|t v X Sp IH].
  - left. split; constructor.
  - destruct IH as [[F ->]|(u & d & x & -> & F & N)]; [left; split; [now constructor|reflexivity]|].
    right. exists (c :: u), d, x. split; [reflexivity|]. split; [now constructor|exact N].
  - right. exists [], c, t. split; [reflexivity|]. split; [constructor|exact N2].
  - right. destruct ds as [|d ds]; [cbn in Ln; lia|]. inversion F as [|? ? D _]; subst. exists [], d, (ds ++ w :: t). split; [reflexivity|].
    split; [constructor|unfold hex_digit in D; lia].
  - right. destruct ds as [|d ds]; [cbn in Ln; lia|]. inversion F as [|? ? D _]; subst. exists [], d, (ds ++ t). split; [reflexivity|].
    split; [constructor|unfold hex_digit in D; lia].
  - discriminate X.
Qed.

(** An unquoted url without an escape is read as the standard says. *)
Lemma url_rest_ok s k r : UrlRest s k r -> (forall u c x, s = u ++ 0x5C :: c :: x -> Forall url_char u -> c = 0x0A) ->
  forall f, (length s <= f)%nat -> consume_url_loop f [] s = Some (k, r).
Proof.
  intros H Ne f L.
  assert (P : forall t e v, s = t ++ e -> Spelled url_char false e t v -> Forall url_char t /\ v = t).
  { intros t e v -> Sp. destruct (url_plain t e v Sp) as [X|(u & c & x & -> & F & N)]; [exact X|]. exfalso. apply N.
    apply (Ne u c (x ++ e)); [|exact F]. rewrite <- app_assoc. reflexivity. }
  assert (Wh : forall w e, Forall white w -> (forall c, hd_error e = Some c -> ~ white c) -> span is_whitespace (w ++ e) = (w, e)).
  { intros w e F N. apply span_app; [now apply white_true|]. intros c X. apply not_white. auto. }
  destruct H as [t v w r Sp W|t v w Sp W|t v w c b r Sp W Nw Nc Np R|t v c b r Sp C R|t v b r Sp C R];
    destruct (P _ _ _ eq_refl Sp) as [F ->].
  - now rewrite (url_loop_ok w r W t f [] F L).
  - destruct (url_chars_step t f [] w F L) as (f' & L' & ->). cbn [app]. destruct w as [|c w]; [destruct f'; reflexivity|].
    destruct f'; [cbn in L'; lia|]. inversion W; subst. cbn [consume_url_loop].
    destruct (Z.eqb_spec c 0x29) as [->|]; [unfold white in *; lia|]. rewrite (proj2 (is_white_iff c)) by assumption.
    rewrite <- (app_nil_r w) at 1. rewrite Wh by (try assumption; discriminate). reflexivity.
  - destruct (url_chars_step t f [] _ F L) as (f' & L' & ->). cbn [app]. destruct w as [|d w]; [congruence|]. cbn [app] in *.
    destruct f'; [cbn in L'; lia|]. inversion W; subst. cbn [consume_url_loop].
    destruct (Z.eqb_spec d 0x29) as [->|]; [unfold white in *; lia|]. rewrite (proj2 (is_white_iff d)) by assumption.
    rewrite Wh by (try assumption; cbn; intros x [= <-]; assumption). cbn [snd]. destruct (Z.eqb_spec c 0x29); [congruence|]. now apply bad_url_ok.
  - destruct (url_chars_step t f [] _ F L) as (f' & L' & ->). cbn [app]. destruct f'; [cbn in L'; lia|]. cbn [consume_url_loop].
    assert (c <> 0x29) by (unfold quote, non_printable in C; lia).
    assert (Nw : ~ white c) by (unfold quote, non_printable, white in *; lia).
    destruct (Z.eqb_spec c 0x29); [congruence|]. rewrite (not_white c Nw).
    assert (B : (c =? 0x22) || (c =? 0x27) || (c =? 0x28) || is_non_printable_code_point c = true).
    { rewrite !orb_true_iff, !Z.eqb_eq, non_printable_iff. unfold quote in C. tauto. }
    rewrite B. now apply bad_url_ok.
  - destruct (url_chars_step t f [] _ F L) as (f' & L' & ->). cbn [app]. destruct f'; [cbn in L'; lia|]. cbn [consume_url_loop].
    destruct b as [|d b]; [discriminate|]. cbn in C. injection C as ->.
    change (0x5C =? 0x29) with false. change (is_whitespace 0x5C) with false.
    change ((0x5C =? 0x22) || (0x5C =? 0x27) || (0x5C =? 0x28) || is_non_printable_code_point 0x5C) with false. change (0x5C =? 0x5C) with true. cbv iota.
    replace (starts_with_valid_escape (0x0A :: b)) with false by (destruct b; reflexivity).
    now apply bad_url_ok.
Qed.

(** The identifier is reached where the standard sees one. *)
Lemma token_start s : IdentStart s -> (forall u, s <> cdc u) -> ~ Departs s -> TokenStart s.
Proof.
  intros H Nc Nd. split; [exact H|]. intros u ->. inversion H as [c r C|c r C|c r C|c r C]; subst.
  - unfold ident_start in C. lia.
  - destruct C as [C| ->]; [now constructor|]. destruct (starts_with_identifier (0x2D :: r)) eqn:E; [now apply starts_with_identifier_iff|].
    exfalso. apply Nd. apply dp_dashes.
    + intros X. destruct r as [|d r]; [discriminate|]. injection X as ->. exact (Nc r eq_refl).
    + intros X. apply starts_with_identifier_iff in X. congruence.
  - now constructor.
Qed.
Lemma open_paren_end r : stops_ident (0x28 :: r).
Proof. split; [|discriminate]. split; [cbn; intros c [= <-]; unfold ident_char, ident_start, dec_digit; lia|discriminate]. Qed.

Lemma skip_two_white : forall w p, Forall white w -> exists p' w', skip_two_whitespace p w = (p', w') /\ Forall white w'.
Proof.
  induction w as [|a w IH]; intros p F; [exists p, []; auto|]. cbn [skip_two_whitespace]. destruct w as [|b w]; [exists p, [a]; auto|].
  inversion F as [|? ? A F1]; subst. destruct (_ && _); [now apply IH|]. exists p, (a :: b :: w). auto.
Qed.

Lemma url_reached t v w u k r : TokenStart (t ++ 0x28 :: w ++ u) -> Name t (0x28 :: w ++ u) v -> in_range t -> is_url v -> Forall white w ->
  (forall c, hd_error u = Some c -> ~ white c /\ ~ quote c) -> UrlRest u k r -> (forall x c y, u = x ++ 0x5C :: c :: y -> Forall url_char x -> c = 0x0A) ->
  consume_token (t ++ 0x28 :: w ++ u) = Some (k, r).
Proof.
  intros St Na R Uv W N U Ne. rewrite (ident_like_reached _ St). unfold consume_ident_like_token. rewrite (name_value _ _ _ Na).
  destruct (url_match v (range_wide v (spelled_range _ _ _ _ _ (proj1 Na) R))) as (b & -> & B). rewrite (proj2 B Uv), Z.eqb_refl.
  assert (K : exists p' w', skip_two_whitespace 0x28 (w ++ u) = (p', w' ++ u) /\ Forall white w' /\ quote_follows (w' ++ u) = false).
  { destruct u as [|c u].
    - rewrite app_nil_r. destruct (skip_two_white w 0x28 W) as (p' & w' & E & F). exists p', w'. rewrite app_nil_r. split; [exact E|]. split; [exact F|].
      destruct F as [|a w' A F]; [reflexivity|]. cbn [quote_follows].
      assert (Q : forall x, white x -> is_quote x = false) by (intros x X; unfold is_quote; rewrite orb_false_iff, !Z.eqb_neq; unfold white in X; lia).
      rewrite (Q a A). destruct F as [|b' w' A' F]; [now rewrite andb_false_r|]. now rewrite (Q b' A'), andb_false_r.
    - destruct (N c eq_refl) as (N1 & N2).
      destruct (skip_two_app w 0x28 (c :: u) W) as (p' & w' & E & Hw); [cbn; intros d [= <-]; exact N1|discriminate|].
      exists p', w'. split; [exact E|]. split; [destruct Hw as [->|(x & Hx & ->)]; auto|].
      assert (Iq : is_quote c = false) by (unfold is_quote; rewrite orb_false_iff, !Z.eqb_neq; unfold quote in N2; lia).
      destruct Hw as [-> | (x & Hx & ->)]; cbn [app quote_follows].
      + now rewrite Iq, (not_white c N1).
      + rewrite Iq, andb_false_r, orb_false_r. unfold is_quote. rewrite orb_false_iff, !Z.eqb_neq. unfold white in Hx. lia. }
  destruct K as (p' & w' & -> & F & ->). unfold consume_url_token. rewrite (span_app is_whitespace w' u); [|now apply white_true|].
  2: { intros c X. apply not_white. now apply N. }
  cbn [snd]. apply url_rest_ok; auto.
Qed.

Lemma numeric_ok sg ip fr ex rest k r : NumberParts sg ip fr ex -> NumberEnd fr ex rest ->
  Numeric (number_parts_value sg ip fr ex) (match fr, ex with None, None => Tinteger | _, _ => Tnumber end) rest k r ->
  ~ Departs (number_text sg ip fr ex ++ rest) -> consume_token (number_text sg ip fr ex ++ rest) = Some (k, r).
Proof.
  intros P N A D. apply number_token_ok; auto.
  - destruct A as [r|rest t u St Na|r Ni Np].
    + constructor.
    + destruct (spelled_nonempty_name t rest u Na St) as [I _]. destruct Na as (Sp & E & _). now constructor.
    + constructor; [|exact Np]. intros I. apply Ni. now left.
  - destruct (Z.lt_ge_cases (number_of 10 ip) (2 ^ 32)); [assumption|]. destruct D. apply dp_large; auto.
  - destruct (Z.lt_ge_cases (number_of 10 (fraction_digits fr)) (2 ^ 32)); [assumption|]. destruct D. apply dp_large; auto.
  - destruct (Z.lt_ge_cases (number_of 10 (exponent_digits ex)) (2 ^ 32)); [assumption|]. destruct D. apply dp_large; auto.
Qed.

Lemma token_at c r : (forall u, c :: r <> 0x2F :: 0x2A :: u) -> consume_token (c :: r) = consume_token_at c r.
Proof. intros H. unfold consume_token. now rewrite comments_id. Qed.

Lemma number_start_dec s : NumberStart s \/ ~ NumberStart s.
Proof.
  destruct (starts_with_number s) eqn:E; [left; now apply starts_with_number_iff|right]. intros H. apply starts_with_number_iff in H. congruence.
Qed.
Lemma not_number_behind c r : c = 0x2B \/ c = 0x2D \/ c = 0x2E -> ~ NumberStart (c :: r) -> ~ Departs (c :: r) -> starts_with_number r = false.
Proof.
  intros C N D. destruct (starts_with_number r) eqn:E; [|reflexivity]. apply starts_with_number_iff in E. destruct D. now apply dp_sign.
Qed.

Lemma taken_ok s k r : Taken s k r -> (forall u, s <> 0x2F :: 0x2A :: u) -> in_range s -> ~ Departs s -> consume_token s = Some (k, r).
Proof.
  intros H Nc R D. destruct H as [|c w r C W N|q t e v k r Q Sp E|c k r I|t rest v id Ne Na Id|r E|sg ip fr ex rest k r P N A|c r C N|r N1 N2|r|r|r N
    |t rest v St Na|r N|r N|t rest v St Ncdc Na Np|t r v St Na Nu|t v w q r St Na U W Q|t v w u k r St Na U W N Ur|c r N].
  - reflexivity.
  - rewrite token_at by exact Nc. unfold consume_token_at. cbv zeta. rewrite (proj2 (is_white_iff c) C).
    rewrite (span_app is_whitespace w r); [reflexivity|now apply white_true|]. intros d X. apply not_white. auto.
  - rewrite (quote_token q _ Q). unfold consume_string_token. rewrite (string_spelled q e k r) with (v := v); auto. unfold quote in Q. lia.
  - rewrite token_at by exact Nc. unfold marks in I. cbn [In] in I.
    repeat destruct I as [I|I]; try (injection I as <- <-; reflexivity). destruct I.
  - assert (Na' := Na). destruct Na as (Sp & E & _). destruct (hash_ok rest t v E Ne Sp) as (b & -> & B).
    assert (X : b = true <-> id = true).
    { rewrite B, Id. split; [now left|]. intros Y. exact (proj1 (spelled_nonempty_name t rest v Na' Y)). }
    assert (Y : b = id) by (destruct b, id; intuition congruence). now rewrite Y.
  - rewrite token_at by exact Nc. unfold consume_token_at. cbn -[is_identifier_code_point starts_with_valid_escape consume_identifier].
    destruct r as [|c r]; [destruct D; constructor|]. destruct E as ((E1 & E2) & _).
    rewrite (ident_char_not c) by now apply E1. rewrite (valid_escape_false _ E2). reflexivity.
  - now apply numeric_ok.
  - rewrite token_at by exact Nc.
    assert (Sn : starts_with_number r = false) by (apply (not_number_behind c); auto; tauto).
    destruct C as [-> | ->]; unfold consume_token_at; cbn -[starts_with_number]; now rewrite Sn.
  - rewrite token_at by exact Nc.
    assert (Sn : starts_with_number r = false) by (apply (not_number_behind 0x2D); auto).
    assert (Si : starts_with_identifier r = false).
    { destruct (starts_with_identifier r) eqn:X; [|reflexivity]. destruct N2. left. apply starts_with_identifier_iff. now apply dash_ident. }
    unfold consume_token_at. cbn -[starts_with_number starts_with_identifier]. rewrite Sn, Si, (cdc_match r (fun r' => Some (CDC, r'))).
    destruct r as [|a [|b r]]; try reflexivity. destruct (Z.eqb_spec a 0x2D) as [->|]; [|reflexivity].
    destruct N2. left. apply is_dash_start. now right.
  - unfold cdc in *. rewrite token_at by exact Nc. reflexivity.
  - unfold cdo in *. rewrite token_at by exact Nc. reflexivity.
  - rewrite token_at by exact Nc. unfold consume_token_at. cbn. rewrite (cdo_match r (fun r' => Some (CDO, r'))).
    destruct r as [|a [|b [|c r]]]; try reflexivity. destruct (Z.eqb_spec a 0x21) as [->|]; [|reflexivity].
    destruct (Z.eqb_spec b 0x2D) as [->|]; [|reflexivity]. destruct (Z.eqb_spec c 0x2D) as [->|]; [|reflexivity]. destruct (N r eq_refl).
  - rewrite token_at by exact Nc. destruct (spelled_nonempty_name t rest v Na St) as [I _]. unfold consume_token_at.
    cbn -[starts_with_identifier consume_identifier]. rewrite (proj2 (starts_with_identifier_iff _) I), (name_value _ _ _ Na). reflexivity.
  - rewrite token_at by exact Nc. unfold consume_token_at. cbn -[starts_with_identifier consume_identifier].
    destruct (starts_with_identifier r) eqn:X; [|reflexivity]. destruct N. left. now apply starts_with_identifier_iff.
  - rewrite token_at by exact Nc. unfold consume_token_at. cbn -[starts_with_valid_escape consume_ident_like_token].
    rewrite valid_escape_false; [reflexivity|]. intros c u [= ->]. cbn in N. congruence.
  - destruct (spelled_nonempty_name t rest v Na St) as [I _]. rewrite (ident_like_reached _ (token_start _ I Ncdc D)). unfold consume_ident_like_token.
    rewrite (name_value _ _ _ Na). apply Forall_app in R as [R _].
    destruct (url_match v (range_wide v (spelled_range _ _ _ _ _ (proj1 Na) R))) as (b & -> & B).
    destruct rest as [|c rest].
    + destruct b; [|reflexivity]. destruct D. rewrite app_nil_r. apply (dp_url_end t v); [now apply B|]. apply Na.
    + destruct (Z.eqb_spec c 0x28) as [->|]; [destruct Np; reflexivity|]. destruct b; reflexivity.
  - destruct (spelled_nonempty_name t _ v Na St) as [I _].
    assert (Ncdc : forall u, t ++ 0x28 :: r <> cdc u).
    { intros u X. destruct Na as (Sp & _). destruct Sp; cbn [app cdc] in X; try discriminate X.
      injection X as -> X. destruct Sp; cbn [app] in X; try discriminate X. injection X as -> X. destruct Sp; cbn [app] in X; try discriminate X.
      injection X as -> X. match goal with K : ident_char 0x3E |- _ => destruct K as [K|[K|K]]; unfold ident_start, dec_digit in K; lia end. }
    rewrite (ident_like_reached _ (token_start _ I Ncdc D)). unfold consume_ident_like_token.
    rewrite (name_value _ _ _ Na). apply Forall_app in R as [R _].
    destruct (url_match v (range_wide v (spelled_range _ _ _ _ _ (proj1 Na) R))) as (b & -> & B).
    destruct b; [destruct Nu; now apply B|]. reflexivity.
  - destruct D. eapply dp_url_quote; eauto. apply Na.
  - destruct (spelled_nonempty_name t _ v Na St) as [I _].
    assert (Ncdc : forall x, t ++ 0x28 :: w ++ u <> cdc x).
    { intros x X. destruct Na as (Sp & _). destruct Sp; cbn [app cdc] in X; try discriminate X.
      injection X as -> X. destruct Sp; cbn [app] in X; try discriminate X. injection X as -> X. destruct Sp; cbn [app] in X; try discriminate X.
      injection X as -> X. match goal with K : ident_char 0x3E |- _ => destruct K as [K|[K|K]]; unfold ident_start, dec_digit in K; lia end. }
    apply (url_reached t v w u k r); auto.
    + now apply token_start.
    + now apply Forall_app in R as [R _].
    + intros x c y -> F. destruct (Z.eq_dec c 0x0A); [assumption|]. destruct D. eapply dp_url_escape; eauto. apply Na.
  - rewrite token_at by exact Nc. unfold consume_token_at. cbv zeta. unfold opens, quote, marks in N. cbn [map fst In] in N.
    rewrite (not_white c) by tauto. rewrite (not_digit c) by tauto.
    assert (Si : is_identifier_start_code_point c = false).
    { destruct (is_identifier_start_code_point c) eqn:X; [|reflexivity]. apply ident_start_iff in X. tauto. }
    rewrite Si.
    repeat match goal with |- context [c =? ?k] => destruct (Z.eqb_spec c k) as [->|]; [exfalso; apply N; clear; tauto|] end.
    reflexivity.
Qed.

(** * Every text has a token *)

Lemma digits_split : forall s, exists ds r, s = ds ++ r /\ Forall dec_digit ds /\ (forall c, hd_error r = Some c -> ~ dec_digit c).
Proof.
  induction s as [|c s (ds & r & -> & F & N)]; [exists [], []; repeat split; [constructor|discriminate]|].
  destruct (is_digit c) eqn:D.
  - apply is_digit_iff in D. exists (c :: ds), r. split; [reflexivity|]. split; [now constructor|exact N].
  - exists [], (c :: ds ++ r). repeat split; [constructor|]. cbn. intros x [= <-] X. apply is_digit_iff in X. congruence.
Qed.
Lemma number_split s : NumberStart s -> exists sg ip fr ex rest, s = number_text sg ip fr ex ++ rest /\ NumberParts sg ip fr ex /\ NumberEnd fr ex rest.
Proof.
  intros H.
  assert (Sg : exists sg u, s = sg ++ u /\ sign sg /\ ((exists d x, u = d :: x /\ dec_digit d) \/ exists d x, u = 0x2E :: d :: x /\ dec_digit d)).
  { destruct H as [d r D|d r D|c d r C D|c d r C D].
    - exists [], (d :: r). repeat split; [now left|]. left. eauto.
    - exists [], (0x2E :: d :: r). repeat split; [now left|]. right. eauto.
    - exists [c], (d :: r). repeat split; [destruct C as [-> | ->]; [right; now left|right; now right]|]. left. eauto.
    - exists [c], (0x2E :: d :: r). repeat split; [destruct C as [-> | ->]; [right; now left|right; now right]|]. right. eauto. }
  clear H. destruct Sg as (sg & u & -> & Hs & Hu).
  assert (Ip : exists ip fr x, u = ip ++ match fr with Some ds => 0x2E :: ds | None => [] end ++ x /\ Forall dec_digit ip /\ (ip <> [] \/ fr <> None) /\
    (forall ds, fr = Some ds -> ds <> [] /\ Forall dec_digit ds) /\ (forall c, hd_error x = Some c -> ~ dec_digit c) /\
    (fr = None -> forall d r, x = 0x2E :: d :: r -> ~ dec_digit d)).
  { destruct (digits_split u) as (ip & x & -> & F & N).
    assert (Fr : (exists d y, x = 0x2E :: d :: y /\ dec_digit d) \/ forall d y, x = 0x2E :: d :: y -> ~ dec_digit d).
    { destruct x as [|c [|d y]]; try (right; discriminate). destruct (Z.eq_dec c 0x2E) as [->|]; [|right; congruence].
      destruct (is_digit d) eqn:D; [left; exists d, y; split; [reflexivity|now apply is_digit_iff]|].
      right. intros d' y' [= <- <-] X. apply is_digit_iff in X. congruence. }
    destruct Fr as [(d & y & -> & D)|Fr].
    - destruct (digits_split y) as (ds & r & -> & G & M). exists ip, (Some (d :: ds)), r.
      split; [reflexivity|]. split; [exact F|]. split; [right; discriminate|]. split; [intros e [= <-]; split; [discriminate|now constructor]|]. split; [exact M|discriminate].
    - exists ip, None, x. split; [reflexivity|]. split; [exact F|]. split; [|split; [discriminate|split; [exact N|intros _; exact Fr]]].
      left. intros ->. cbn [app] in *. destruct Hu as [(d & y & -> & D)|(d & y & -> & D)]; [exact (N d eq_refl D)|exact (Fr d y eq_refl D)]. }
  destruct Ip as (ip & fr & x & -> & F1 & F2 & F3 & F4 & F5).
  assert (Ex : (exists e esg d y, x = e :: esg ++ d :: y /\ (e = 0x45 \/ e = 0x65) /\ sign esg /\ dec_digit d) \/
    forall e esg d y, (e = 0x45 \/ e = 0x65) -> sign esg -> x = e :: esg ++ d :: y -> ~ dec_digit d).
  { destruct x as [|e [|d y]]; try (right; intros e' [|? [|? ?]] d' y' _ S X; (discriminate X || (destruct S as [S|[S|S]]; discriminate S))).
    destruct (is_e e) eqn:E; [apply is_e_iff in E|right; intros e' esg d' y' C _ [= <- _] _; apply is_e_iff in C; congruence].
    destruct (is_digit d) eqn:D; [apply is_digit_iff in D; left; exists e, [], d, y; exact (conj eq_refl (conj E (conj (or_introl eq_refl) D)))|].
    assert (Nd : ~ dec_digit d) by (intros X; apply is_digit_iff in X; congruence).
    destruct (is_sign d) eqn:G.
    - apply is_sign_iff in G. destruct y as [|d2 y].
      + right. intros e' esg d' y' _ S X. destruct S as [->|[-> | ->]]; cbn [app] in X; try discriminate X. injection X as _ <- _. exact Nd.
      + destruct (is_digit d2) eqn:D2.
        * apply is_digit_iff in D2. left. exists e, [d], d2, y. split; [reflexivity|]. split; [exact E|]. split; [|exact D2]. destruct G as [-> | ->]; [right; now left|right; now right].
        * right. intros e' esg d' y' _ S X. destruct S as [->|[-> | ->]]; cbn [app] in X; injection X; intros; subst; try exact Nd;
            intros Y; apply is_digit_iff in Y; congruence.
    - right. intros e' esg d' y' _ S X. destruct S as [->|[-> | ->]]; cbn [app] in X; injection X; intros; subst; try exact Nd; discriminate G. }
  destruct Ex as [(e & esg & d & y & -> & E1 & E2 & D)|Ex].
  - destruct (digits_split y) as (ds & r & -> & G & M). exists sg, ip, fr, (Some (e, esg, d :: ds)), r. split; [|split; [|split]].
    + unfold number_text. rewrite <- !app_assoc. do 3 f_equal. cbn [app]. rewrite <- app_assoc. reflexivity.
    + split; [exact Hs|]. split; [exact F1|]. split; [exact F2|]. split; [exact F3|]. intros e' esg' eds' [= <- <- <-]. split; [exact E1|]. split; [exact E2|]. split; [discriminate|now constructor].
    + exact M.
    + split; discriminate.
  - exists sg, ip, fr, None, x. split; [|split; [|split]].
    + unfold number_text. rewrite app_nil_r, <- !app_assoc. reflexivity.
    + split; [exact Hs|]. split; [exact F1|]. split; [exact F2|]. split; [exact F3|]. discriminate.
    + exact F4.
    + split; [intros Hf _; exact (F5 Hf)|intros _; exact Ex].
Qed.
Lemma last_app (a b : list Z) : last (a ++ b) 0 <> 0x5C -> last b 0 <> 0x5C.
Proof. intros H. destruct b as [|c b]; [cbn; lia|]. rewrite last_suffix in H by discriminate. exact H. Qed.
Lemma last_cons (c : Z) b : last (c :: b) 0 <> 0x5C -> last b 0 <> 0x5C.
Proof. exact (last_app [c] b). Qed.

Lemma numeric_total' v ty s : last s 0 <> 0x5C -> exists k r, Numeric v ty s k r.
Proof.
  intros L. destruct (starts_ident_dec s) as [St|N].
  - destruct (name_split s L) as (t & rest & u & -> & Na). exists (Dimension v u ty), rest. now constructor.
  - destruct s as [|c s]; [exists (Number v ty), []; constructor; [exact N|discriminate]|].
    destruct (Z.eq_dec c 0x25) as [->|M]; [exists (Percentage v), s; constructor|].
    exists (Number v ty), (c :: s). constructor; [exact N|cbn; congruence].
Qed.

Lemma url_char_dec c : url_char c \/ white c \/ c = 0x29 \/ (quote c \/ c = 0x28 \/ non_printable c) \/ c = 0x5C.
Proof. unfold url_char, white, quote, non_printable. lia. Qed.
Lemma url_split : forall n s, (length s <= n)%nat -> exists t e v, s = t ++ e /\ Spelled url_char false e t v /\
  forall c, hd_error e = Some c -> ~ url_char c /\ (c = 0x5C -> exists b, e = [0x5C] \/ e = 0x5C :: 0x0A :: b).
Proof.
  induction n as [|n IH]; intros s L.
  - destruct s; [|cbn in L; lia]. exists [], [], []. repeat split; try constructor; discriminate.
  - destruct s as [|c s]; [exists [], [], []; repeat split; try constructor; discriminate|].
    destruct (url_char_dec c) as [U|O].
    { destruct (IH s) as (t & e & v & -> & Sp & E); [cbn in L; lia|]. exists (c :: t), e, (c :: v). split; [reflexivity|]. split; [now constructor|exact E]. }
    assert (Stop : (c = 0x5C -> s = [] \/ exists b, s = 0x0A :: b) -> exists t e v, c :: s = t ++ e /\ Spelled url_char false e t v /\
      forall d, hd_error e = Some d -> ~ url_char d /\ (d = 0x5C -> exists b, e = [0x5C] \/ e = 0x5C :: 0x0A :: b)).
    { intros Q. exists [], (c :: s), []. split; [reflexivity|]. split; [constructor|]. cbn. intros d [= <-]. split.
      - unfold url_char, white, quote, non_printable in *. lia.
      - intros ->. destruct (Q eq_refl) as [-> | (b & ->)]; [exists []; now left|exists b; now right]. }
    destruct (Z.eq_dec c 0x5C) as [->|Nb]; [|apply Stop; congruence].
    destruct s as [|d s]; [apply Stop; auto|]. destruct (Z.eq_dec d 0x0A) as [->|Nd]; [apply Stop; eauto|].
    destruct (escape_ok (d :: s)) as (ch & r' & _ & Es). assert (Lr := escape_strict _ _ _ Es ltac:(discriminate)).
    destruct (IH r') as (t & e & v & Er & Sp & E); [cbn in *; lia|].
    destruct (spelled_escape url_char false e _ _ _ t v Es) as (t' & Et & Sp'); auto; try discriminate; [cbn; congruence|].
    exists (0x5C :: t'), e, (ch :: v). split; [now rewrite Et|]. auto.
Qed.
Lemma white_split : forall s, exists w r, s = w ++ r /\ Forall white w /\ (forall c, hd_error r = Some c -> ~ white c).
Proof.
  induction s as [|c s (w & r & -> & F & N)]; [exists [], []; repeat split; [constructor|discriminate]|].
  destruct (is_whitespace c) eqn:D.
  - apply is_white_iff in D. exists (c :: w), r. split; [reflexivity|]. split; [now constructor|exact N].
  - exists [], (c :: w ++ r). repeat split; [constructor|]. cbn. intros x [= <-] X. apply is_white_iff in X. congruence.
Qed.
Lemma url_rest_total s : last s 0 <> 0x5C -> exists k r, UrlRest s k r.
Proof.
  intros L. destruct (url_split (length s) s (Nat.le_refl _)) as (t & e & v & -> & Sp & E).
  destruct e as [|c e]; [exists (Url v), []; now apply ur_end|]. destruct (E c eq_refl) as (Nu & Nb).
  destruct (url_char_dec c) as [U|[W|[-> |[B| ->]]]].
  - contradiction.
  - destruct (white_split (c :: e)) as (w & r & Er & F & N). rewrite Er in *. destruct r as [|d r].
    + rewrite app_nil_r in *. exists (Url v), []. now apply ur_end.
    + destruct (Z.eq_dec d 0x29) as [->|Nd]; [exists (Url v), r; now apply ur_close|].
      destruct (remnants_total (length (d :: r)) (d :: r) (Nat.le_refl _)) as (x & R). exists BadUrl, x. apply (ur_white t v w d r x); auto.
      intros ->. cbn [app] in Er. injection Er as -> _. now apply (N d).
  - exists (Url v), e. apply (ur_close t v [] e); auto.
  - destruct (remnants_total (length e) e (Nat.le_refl _)) as (x & R). exists BadUrl, x. now apply (ur_bad t v c e x).
  - destruct (Nb eq_refl) as (b & [X|X]); injection X as ->; [exfalso; apply (last_app t) in L; now apply L|].
    destruct (remnants_total (length (0x0A :: b)) (0x0A :: b) (Nat.le_refl _)) as (x & R). exists BadUrl, x. now apply (ur_backslash t v (0x0A :: b) x).
Qed.

Lemma is_url_dec v : is_url v \/ ~ is_url v.
Proof. unfold is_url. destruct (list_eq_dec Z.eq_dec (map cp_lower v) [0x75; 0x72; 0x6C]); auto. Qed.
Lemma ident_total s : last s 0 <> 0x5C -> starts_ident s -> (forall u, s <> cdc u) -> exists k r, Taken s k r.
Proof.
  intros L St Nc. destruct (name_split s L) as (t & rest & v & -> & Na).
  destruct rest as [|c rest]; [exists (Ident v), []; constructor; auto; discriminate|].
  destruct (Z.eq_dec c 0x28) as [->|N]; [|exists (Ident v), (c :: rest); constructor; auto; cbn; congruence].
  destruct (is_url_dec v) as [U|U]; [|exists (Function v), rest; now constructor].
  destruct (white_split rest) as (w & r & -> & F & M). destruct r as [|d r].
  - destruct (url_rest_total []) as (k & x & R); [cbn; lia|]. exists k, x. apply (tk_url t v w [] k x); auto. discriminate.
  - destruct (Z.eq_dec d 0x22) as [->|N1]; [eexists; eexists; apply (tk_url_quoted t v w 0x22 r); auto; now left|].
    destruct (Z.eq_dec d 0x27) as [->|N2]; [eexists; eexists; apply (tk_url_quoted t v w 0x27 r); auto; now right|].
    destruct (url_rest_total (d :: r)) as (k & x & R); [apply (last_app t), (last_app (0x28 :: w)) in L; exact L|].
    exists k, x. apply (tk_url t v w (d :: r) k x); auto. cbn. intros y [= <-]. split; [now apply M|]. unfold quote. lia.
Qed.
Lemma number_total s : last s 0 <> 0x5C -> NumberStart s -> exists k r, Taken s k r.
Proof.
  intros L H. destruct (number_split s H) as (sg & ip & fr & ex & rest & -> & P & N).
  destruct (numeric_total' (number_parts_value sg ip fr ex) (match fr, ex with None, None => Tinteger | _, _ => Tnumber end) rest) as (k & r & Q).
  - now apply last_app in L.
  - exists k, r. now apply tk_number.
Qed.

Lemma taken_total s : last s 0 <> 0x5C -> exists k r, Taken s k r.
Proof.
  intros L. destruct s as [|c s]; [exists Eof, []; constructor|]. assert (L' := last_cons c s L).
  destruct (is_whitespace c) eqn:W.
  { apply is_white_iff in W. destruct (white_split s) as (w & r & -> & F & N). exists Whitespace, r. now constructor. }
  assert (Nw : ~ white c) by (intros X; apply is_white_iff in X; congruence). clear W.
  assert (Qt : quote c -> exists k r, Taken (c :: s) k r).
  { intros Q. assert (c <> 0x5C /\ c <> 0x0A) as [Q1 Q2] by (unfold quote in Q; lia).
    destruct (string_split c Q1 Q2 (length s) s (Nat.le_refl _)) as (t & e & k & r & v & -> & E & Sp). exists (k v), r. now apply (tk_string c t e v k r). }
  destruct (Z.eq_dec c 0x22) as [->|N1]; [apply Qt; now left|]. destruct (Z.eq_dec c 0x27) as [->|N2]; [apply Qt; now right|]. clear Qt.
  assert (Mk : forall k, In (c, k) marks -> exists k r, Taken (c :: s) k r) by (intros k I; exists k, s; now constructor).
  destruct (in_dec Z.eq_dec c (map fst marks)) as [I|Nm].
  { apply in_map_iff in I as ((c' & k) & Ec & I). cbn in Ec. subst c'. exact (Mk k I). }
  clear Mk.
  destruct (Z.eq_dec c 0x23) as [->|N3].
  { destruct (name_split s L') as (t & rest & v & -> & Na). destruct t as [|x t]; [exists (Delim 0x23), rest; apply tk_number_sign; apply Na|].
    destruct (starts_ident_dec ((x :: t) ++ rest)) as [Y|Y].
    - exists (Hash v true), rest. apply tk_hash; [discriminate|exact Na|tauto].
    - exists (Hash v false), rest. apply tk_hash; [discriminate|exact Na|]. split; [discriminate|intros X; destruct (Y X)]. }
  destruct (number_start_dec (c :: s)) as [Nu|Nn]; [now apply number_total|].
  destruct (Z.eq_dec c 0x2B) as [->|N4]; [exists (Delim 0x2B), s; apply tk_sign; auto|].
  destruct (Z.eq_dec c 0x2E) as [->|N5]; [exists (Delim 0x2E), s; apply tk_sign; auto|].
  destruct (Z.eq_dec c 0x2D) as [->|N6].
  { assert (Cd : (exists u, 0x2D :: s = cdc u) \/ forall u, 0x2D :: s <> cdc u).
    { destruct s as [|a [|b s]]; try (right; discriminate). destruct (Z.eq_dec a 0x2D) as [->|]; [|right; unfold cdc; congruence].
      destruct (Z.eq_dec b 0x3E) as [->|]; [left; now exists s|right; unfold cdc; congruence]. }
    destruct Cd as [(u & ->)|Cd]; [exists CDC, u; apply tk_cdc|].
    destruct (starts_ident_dec (0x2D :: s)) as [Y|Y]; [now apply ident_total|]. exists (Delim 0x2D), s. now apply tk_minus. }
  destruct (Z.eq_dec c 0x3C) as [->|N7].
  { assert (Cd : (exists u, 0x3C :: s = cdo u) \/ forall u, 0x3C :: s <> cdo u).
    { destruct s as [|a [|b [|d s]]]; try (right; discriminate). destruct (Z.eq_dec a 0x21) as [->|]; [|right; unfold cdo; congruence].
      destruct (Z.eq_dec b 0x2D) as [->|]; [|right; unfold cdo; congruence].
      destruct (Z.eq_dec d 0x2D) as [->|]; [left; now exists s|right; unfold cdo; congruence]. }
    destruct Cd as [(u & ->)|Cd]; [exists CDO, u; apply tk_cdo|]. exists (Delim 0x3C), s. now apply tk_less. }
  destruct (Z.eq_dec c 0x40) as [->|N8].
  { destruct (starts_ident_dec s) as [Y|Y]; [|exists (Delim 0x40), s; now apply tk_at_sign].
    destruct (name_split s L') as (t & rest & v & -> & Na). exists (AtKeyword v), rest. now apply tk_at. }
  assert (Ncdc : forall u, c :: s <> cdc u) by (unfold cdc; congruence).
  destruct (Z.eq_dec c 0x5C) as [->|N9].
  { destruct s as [|d s]; [destruct (L eq_refl)|]. destruct (Z.eq_dec d 0x0A) as [->|M]; [exists (Delim 0x5C), (0x0A :: s); now apply tk_backslash|].
    apply ident_total; auto. left. now constructor. }
  destruct (is_identifier_start_code_point c) eqn:I.
  { apply ident_start_iff in I. apply ident_total; auto. left. now constructor. }
  exists (Delim c), s. apply tk_other. unfold opens, quote. cbn [In]. intros O.
  assert (Nd : ~ dec_digit c) by (intros X; apply Nn; now constructor).
  assert (Ni : ~ ident_start c) by (intros X; apply ident_start_iff in X; congruence).
  intuition congruence.
Qed.

(** * The token, and all tokens *)

Lemma uncommented_suffix s u : Uncommented s u -> Suffix u s.
Proof. intros H. rewrite <- (uncommented_ok s u H). apply comments_suffix. Qed.
Lemma last_of u s : Suffix u s -> last s 0 <> 0x5C -> last u 0 <> 0x5C.
Proof. intros (a & ->). apply last_app. Qed.
Lemma range_of u s : Suffix u s -> in_range s -> in_range u.
Proof. intros (a & ->) R. now apply Forall_app in R as [_ R]. Qed.

Lemma token_ok s k r : Token s k r -> in_range s -> (forall u, Uncommented s u -> ~ Departs u) -> consume_token s = Some (k, r).
Proof.
  intros (u & U & T) R D. rewrite (uncommented_token s u U). apply taken_ok; auto.
  - exact (uncommented_front s u U).
  - exact (range_of u s (uncommented_suffix s u U) R).
Qed.
Lemma token_total s : last s 0 <> 0x5C -> exists k r, Token s k r.
Proof.
  intros L. destruct (uncommented_total (length s) s (Nat.le_refl _)) as (u & U).
  destruct (taken_total u (last_of u s (uncommented_suffix s u U) L)) as (k & r & T). exists k, r, u. auto.
Qed.

Inductive Tokens : list Z -> list token -> Prop :=
| tks_end s r : Token s Eof r -> Tokens s []
| tks_next s k r ts : Token s k r -> k <> Eof -> Tokens r ts -> Tokens s (k :: ts).
(** The places where tokens begin. *)
Inductive Reached (s : list Z) : list Z -> Prop :=
| re_start : Reached s s
| re_next u k r : Reached s u -> Token u k r -> k <> Eof -> Reached s r.
Definition Follows (s : list Z) : Prop := forall u v, Reached s u -> Uncommented u v -> ~ Departs v.
Lemma reached_trans s u v : Reached s u -> Reached u v -> Reached s v.
Proof. intros A B. induction B as [|x k r B IH T N]; [exact A|]. exact (re_next s x k r IH T N). Qed.

Lemma stuck_departs s : Stuck s -> Departs s.
Proof.
  intros H. destruct H as [d r D|c d r C D|c d r C D]; apply dp_sign; auto; try (now constructor); intros X; inversion X; subst; unfold dec_digit in *; lia.
Qed.

Lemma tokens_ok : forall n s, (length s <= n)%nat -> in_range s -> last s 0 <> 0x5C -> Follows s ->
  exists ts, Tokens s ts /\ (forall us, Tokens s us -> us = ts) /\ forall fuel, (n < fuel)%nat -> tokenize fuel s = Val ts.
Proof.
  induction n as [n IH] using lt_wf_ind. intros s L R La F. destruct (token_total s La) as (k & r & T).
  assert (D : forall u, Uncommented s u -> ~ Departs u) by (intros u U; exact (F s u (re_start s) U)).
  assert (E := token_ok s k r T R D).
  assert (Un : forall k' r', Token s k' r' -> k' = k /\ r' = r) by (intros k' r' T'; assert (X := token_ok s k' r' T' R D); rewrite E in X; now injection X as -> ->).
  destruct (token_progress s k r E) as (Sx & _ & St).
  assert (Ke : k = Eof \/ k <> Eof) by (destruct k; auto; right; discriminate).
  destruct Ke as [-> |Ke].
  - exists []. split; [exact (tks_end s r T)|]. split.
    + intros us H. destruct H as [s0 r0 H|s0 k0 r0 ts H N0 H']; [reflexivity|]. destruct (Un _ _ H) as [-> _]. congruence.
    + intros [|fuel] Lf; [lia|]. cbn [tokenize]. now rewrite E.
  - assert (Ls : (length r < length s)%nat).
    { pose proof (suffix_length _ _ Sx). destruct (Nat.eq_dec (length r) (length s)) as [El|]; [|lia]. exfalso.
      assert (Es : r = s) by (apply suffix_eq; [exact Sx|exact El]). specialize (St Es Ke).
      apply (D s); [|now apply stuck_departs]. constructor. intros x ->. inversion St. }
    destruct (IH (length r)) with (s := r) as (ts & A & B & C); [lia|lia|exact (range_of r s Sx R)|exact (last_of r s Sx La)| |].
    { intros u v X. apply F. apply (reached_trans s r u); [|exact X]. exact (re_next s s k r (re_start s) T Ke). }
    exists (k :: ts). split; [exact (tks_next s k r ts T Ke A)|]. split.
    + intros us H. destruct H as [s0 r0 H|s0 k0 r0 us H N0 H']; [destruct (Un _ _ H) as [X _]; congruence|].
      destruct (Un _ _ H) as [-> ->]. now rewrite (B us H').
    + intros [|fuel] Lf; [lia|]. cbn [tokenize]. rewrite E, (C fuel ltac:(lia)). destruct k; try reflexivity. congruence.
Qed.
