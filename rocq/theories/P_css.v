(** CSS input preprocessing and tokenisation: C44, C45, C46, C50, C51, C52, C53. *)
From Coq Require Import String.
From Coq Require Import ZArith List Bool Lia.
From Verif Require Import M_unicode M_infra M_percent M_encoding M_labels M_css L_unicode L_infra L_css L_css2 L_css3 L_css4 L_css5.
Import ListNotations.
Open Scope string_scope.
Open Scope list_scope.
Open Scope Z_scope.

Ltac wit := repeat (match goal with |- _ /\ _ => split end); (vm_compute; reflexivity).
Ltac lits := repeat match goal with |- context [lit ?s] => let x := eval vm_compute in (lit s) in change (lit s) with x end.

(** * C44 *)

(** The code points before the returned iterator are the preprocessed text, which is unique, free of CR, FF, NUL
    and surrogates, and no longer than the input; the buffer keeps its size. *)
Theorem C44_filter s : exists buf n,
  filter_code_points s = (buf, n) /\ length buf = length s /\ (n <= length s)%nat /\
  length (firstn n buf) = n /\ Preprocessed s (firstn n buf) /\ Forall clean (firstn n buf) /\
  forall o, Preprocessed s o -> o = firstn n buf.
Proof.
  destruct (filter_ok s) as (buf & n & E & L & F & N). exists buf, n. rewrite F, N.
  split; [now rewrite <- N|]. split; [exact L|]. split; [apply pre_short|]. split; [reflexivity|]. split; [apply pre_ok|].
  split; [apply pre_clean|]. intros o. apply pre_unique.
Qed.
Example C44_filter_ex :
  filter_code_points [0x61; 0x0D; 0x0A; 0x0D; 0x0D; 0x0A; 0x0C; 0x00; 0xD800; 0x1F600]
  = ([0x61; 0x0A; 0x0A; 0x0A; 0x0A; 0xFFFD; 0xFFFD; 0x1F600; 0xD800; 0x1F600], 8%nat).
Proof. vm_compute. reflexivity. Qed.
Print Assumptions C44_filter.

(** Filtering a text without CR, FF, NUL and surrogates, such as a filtered text, changes nothing. *)
Theorem C44_idempotent s : Forall clean s -> filter_code_points s = (s, length s).
Proof.
  intros H. destruct (filter_ok s) as (buf & n & E & L & F & N). rewrite E. rewrite (pre_id s H) in F, N. subst n.
  rewrite <- L in F. rewrite firstn_all in F. now rewrite F.
Qed.
Example C44_idempotent_ex : Forall clean [0x61; 0x0A; 0x1F600].
Proof. lits; repeat apply Forall_cons; try apply Forall_nil; unfold clean; lia. Qed.
Print Assumptions C44_idempotent.

(** * C45 *)

(** A token takes a prefix of the text. It takes at least one code point, or is the end of file token on the end
    of the text, unless the text starts with a dot followed by a signed number or a number that starts with a
    dot. *)
Theorem C45_progress_partial s t r : consume_token s = Some (t, r) ->
  (exists taken, s = taken ++ r) /\ (t = Eof -> r = []) /\ (t <> Eof -> ~ Stuck s -> (length r < length s)%nat).
Proof.
  intros H. destruct (token_progress s t r H) as (A & B & C). split; [exact A|]. split; [exact B|].
  intros N K. pose proof (suffix_length _ _ A). destruct (Nat.eq_dec (length r) (length s)) as [E|]; [|lia].
  destruct K. apply C; [now apply suffix_eq|exact N].
Qed.
Example C45_progress_ex : exists t r, consume_token [0x2E; 0x35; 0x3B] = Some (t, r) /\ ~ Stuck [0x2E; 0x35; 0x3B] /\ length r = 1%nat.
Proof.
  do 2 eexists. split; [vm_compute; reflexivity|]. split; [|reflexivity].
  intros H. inversion H; subst; unfold dec_digit in *; lia.
Qed.
Print Assumptions C45_progress_partial.

(** Tokenising ends, after at most one token for each code point and the end of file token, when no part of the
    text is of that form. *)
Theorem C45_terminates_partial s fuel : (forall u, Suffix u s -> ~ Stuck u) -> (length s < fuel)%nat ->
  tokenize fuel s <> NoFuel /\ tokenize fuel s = tokenize (S (length s)) s.
Proof.
  intros K L. assert (N := tokenize_ends (S (length s)) s (Nat.lt_succ_diag_r _) K).
  assert (E : tokenize fuel s = tokenize (S (length s)) s).
  { replace fuel with (S (length s) + (fuel - S (length s)))%nat by lia. apply tokenize_mono, N. }
  split; [now rewrite E|exact E].
Qed.
Example C45_terminates_ex : forall u, Suffix u [0x61; 0x2E; 0x35] -> ~ Stuck u.
Proof.
  intros u [a E] K.
  do 4 (destruct a as [|? a]; cbn in E; [subst u; inversion K; subst; unfold dec_digit in *; lia|try discriminate E; injection E as _ E]).
Qed.
Print Assumptions C45_terminates_partial.

(** When the text also ends with a semicolon and has no more than nine digits in a row, no assert fails and
    nothing is read past the end: a list of tokens results. *)
Theorem C45_total_partial s : (forall u, Suffix u (s ++ [0x3B]) -> ~ Stuck u) -> short_numbers (s ++ [0x3B]) ->
  exists ts, forall fuel, (length (s ++ [0x3B%Z]) < fuel)%nat -> tokenize fuel (s ++ [0x3B]) = Val ts.
Proof.
  intros K Sh. destruct (tokenize (S (length (s ++ [0x3B]))) (s ++ [0x3B])) as [ts| |] eqn:E.
  - exists ts. intros fuel L. destruct (C45_terminates_partial _ fuel K L) as [_ ->]. exact E.
  - exfalso. apply (tokenize_safe _ (s ++ [0x3B])) in E; eauto.
  - exfalso. apply tokenize_ends in E; auto.
Qed.
Example C45_total_ex : tokenize 20 (lit "a{b:url( x )};") =
  Val [Ident (lit "a"); OpenCurly; Ident (lit "b"); Colon; Url (lit "x"); CloseCurly; Semicolon].
Proof. vm_compute. reflexivity. Qed.
Print Assumptions C45_total_partial.

(** ..5 is tokenised for ever. *)
Theorem C45_refuted : exists s, forall fuel, tokenize fuel s = NoFuel.
Proof. exists [0x2E; 0x2E; 0x35]. intros fuel. apply stuck_forever. constructor. unfold dec_digit. lia. Qed.
Print Assumptions C45_refuted.

(** So is every text of that form, alone or after a comment. *)
Theorem C45_stuck s fuel : Stuck s -> tokenize fuel s = NoFuel.
Proof. apply stuck_forever. Qed.
Example C45_stuck_ex : Stuck (lit ".+.5px").
Proof. apply (stuck_sign_dot 0x2B 0x35 (lit "px")); [now left|unfold dec_digit; lia]. Qed.
Print Assumptions C45_stuck.

(** A number sign at the end, or the identifier url at the end, reads past the end. *)
Theorem C45_end_refuted : exists s1 s2, s1 = lit "#" /\ s2 = lit "a:url" /\
  tokenize 10 s1 = Bad /\ tokenize 10 s2 = Bad.
Proof. exists (lit "#"), (lit "a:url"). wit. Qed.
Print Assumptions C45_end_refuted.

(** * C46 *)

(** The escape consumed is the one written, and there is only one reading. *)
Theorem C46_escape s : exists c r, consume_escaped_code_point s = Some (c, r) /\ Escape s c r /\
  forall c' r', Escape s c' r' -> c' = c /\ r' = r.
Proof.
  destruct (escape_ok s) as (c & r & A & B). exists c, r. split; [exact A|]. split; [exact B|].
  intros c' r' H. apply escape_det in H. rewrite A in H. injection H as <- <-. auto.
Qed.
Example C46_escape_ex : consume_escaped_code_point (lit "0000411 z") = Some (0x41, lit "1 z")
  /\ consume_escaped_code_point (lit "41 z") = Some (0x41, lit "z") /\ consume_escaped_code_point (lit "d800  ") = Some (0xFFFD, lit " ")
  /\ consume_escaped_code_point (lit "110000") = Some (0xFFFD, []) /\ consume_escaped_code_point (lit "zz") = Some (0x7A, lit "z").
Proof. wit. Qed.
Print Assumptions C46_escape.

(** The result is a scalar value when the text is made of scalar values, and an escape by number is never NUL. *)
Theorem C46_scalar s c r : consume_escaped_code_point s = Some (c, r) -> Forall scalar s ->
  scalar c /\ Forall scalar r /\ (exists taken, s = taken ++ r) /\
  ((forall x, hd_error s = Some x -> hex_digit x) -> c <> 0).
Proof.
  intros H F. destruct (escape_ok s) as (c' & r' & A & E). rewrite A in H. injection H as -> ->.
  destruct (escape_scalar s c r E F). split; [assumption|]. split; [assumption|]. split; [now apply escape_suffix in E|].
  intros X. destruct E as [|c r N|ds t r L D M Ae]; [lia|destruct N; now apply X|].
  apply escape_value_scalar, number16_nonneg, D.
Qed.
Example C46_scalar_ex : Forall scalar (lit "0 x").
Proof. lits; repeat apply Forall_cons; try apply Forall_nil; unfold scalar; lia. Qed.
Print Assumptions C46_scalar.

(** * C50 *)

(** A given encoding wins. *)
Theorem C50_given s e : determine_fallback_encoding s (Some e) = Some e.
Proof. reflexivity. Qed.
Example C50_given_ex : determine_fallback_encoding [] (Some EUC_JP) = Some EUC_JP.
Proof. reflexivity. Qed.
Print Assumptions C50_given.

(** A charset rule within the first 1024 bytes with a label that is empty or not all whitespace gives the encoding
    the label names, and UTF-8 if it names none. *)
Theorem C50_label_partial label rest : Forall label_byte label ->
  (length (at_charset ++ label ++ [0x22%Z; 0x3B%Z]) <= 1024)%nat -> label = [] \/ ~ Forall ws label ->
  exists e, determine_fallback_encoding (at_charset ++ label ++ 0x22 :: 0x3B :: rest) None = Some e /\
    (Names label e \/ e = UTF_8 /\ forall n, ~ Names label n).
Proof. intros F L. apply charset_label; [exact F|]. rewrite !app_length in L. cbn in L. lia. Qed.
Example C50_label_ex : determine_fallback_encoding (lit "@charset ""Shift_JIS"";a{}") None = Some Shift_JIS
  /\ determine_fallback_encoding (lit "@charset ""nope"";a{}") None = Some UTF_8.
Proof. wit. Qed.
Print Assumptions C50_label_partial.

(** For a text of ASCII bytes any other result than UTF-8 comes from such a rule (within 1025 bytes). *)
Theorem C50_only_partial s e : Forall (fun b => 0 <= b <= 0x7F) s -> determine_fallback_encoding s None = Some e -> e <> UTF_8 ->
  exists label rest, s = at_charset ++ label ++ 0x22 :: 0x3B :: rest /\ Forall label_byte label /\
    (length (at_charset ++ label ++ [0x22%Z; 0x3B%Z]) <= 1025)%nat /\ Names label e.
Proof.
  intros F H N. destruct (charset_only s e F H N) as (label & rest & A & B & C & D). exists label, rest.
  repeat split; auto. rewrite !app_length. cbn. lia.
Qed.
Example C50_only_ex : determine_fallback_encoding (at_charset ++ lit "koi8-r" ++ [0x22; 0x3B]) None = Some KOI8_R.
Proof. vm_compute. reflexivity. Qed.
Print Assumptions C50_only_partial.

(** A label naming UTF-16 is not turned into UTF-8 (CSS Syntax 3.2, step 2); a rule whose 1025th byte is the
    semicolon is accepted; a label of spaces is undefined behaviour. *)
Theorem C50_refuted : exists l1 l2 l3,
  l1 = lit "utf-16be" /\ determine_fallback_encoding (at_charset ++ l1 ++ [0x22; 0x3B]) None = Some UTF_16BE /\
  length (at_charset ++ l2 ++ [0x22; 0x3B]) = 1025%nat /\ determine_fallback_encoding (at_charset ++ l2 ++ [0x22; 0x3B]) None = Some KOI8_R /\
  l3 = lit " " /\ determine_fallback_encoding (at_charset ++ l3 ++ [0x22; 0x3B]) None = None.
Proof. exists (lit "utf-16be"), (lit "koi8-r" ++ repeat 0x20 1007), (lit " "). wit. Qed.
Print Assumptions C50_refuted.

(** * C51 *)

(** A number is tokenised with the parts written, when each digit string is below 2^32; a percent sign or an
    identifier after it makes a percentage or a dimension. *)
Theorem C51_number_partial sg ip fr ex rest tok r : NumberParts sg ip fr ex -> NumberEnd fr ex rest ->
  let v := mk_number (is_minus sg) (number_of 10 ip) (number_of 10 (fraction_digits fr)) (length (fraction_digits fr))
             (is_minus (exponent_sign ex)) (number_of 10 (exponent_digits ex)) in
  AfterNumber v (match fr, ex with None, None => Tinteger | _, _ => Tnumber end) rest tok r ->
  number_of 10 ip < 2 ^ 32 -> number_of 10 (fraction_digits fr) < 2 ^ 32 -> number_of 10 (exponent_digits ex) < 2 ^ 32 ->
  consume_token (number_text sg ip fr ex ++ rest) = Some (tok, r).
Proof. intros P N v. apply number_token_ok; assumption. Qed.
Example C51_number_ex : consume_token (number_text (lit "-") (lit "12") (Some (lit "50")) (Some (0x65, lit "+", lit "3")) ++ lit "px;")
  = Some (Dimension (mk_number true 12 50 2 false 3) (lit "px") Tnumber, lit ";")
  /\ NumberParts (lit "-") (lit "12") (Some (lit "50")) (Some (0x65, lit "+", lit "3"))
  /\ NumberEnd (Some (lit "50")) (Some (0x65, lit "+", lit "3")) (lit "px;").
Proof.
  split; [vm_compute; reflexivity|]. split.
  - split; [right; right; reflexivity|]. split; [lits; repeat apply Forall_cons; try apply Forall_nil; unfold dec_digit; lia|].
    split; [left; discriminate|]. split.
    + intros ds [= <-]. split; [discriminate|]. lits; repeat apply Forall_cons; try apply Forall_nil; unfold dec_digit; lia.
    + intros e esg eds [= <- <- <-]. split; [now right|]. split; [right; now left|]. split; [discriminate|].
      lits; repeat apply Forall_cons; try apply Forall_nil; unfold dec_digit; lia.
  - split; [cbn; intros c [= <-]; unfold dec_digit; lia|]. split; [discriminate|discriminate].
Qed.
Print Assumptions C51_number_partial.

(** Integer and fraction digits together are the significand. *)
Theorem C51_significand ip fds : number_of 10 ip * 10 ^ Z.of_nat (length fds) + number_of 10 fds = number_of 10 (ip ++ fds).
Proof. symmetry. apply number_of_app. Qed.
Example C51_significand_ex : number_of 10 (lit "1250") = 1250.
Proof. reflexivity. Qed.
Print Assumptions C51_significand.

(** Any other number fails an assert. *)
Theorem C51_assert sg ip fr ex rest : NumberParts sg ip fr ex -> NumberEnd fr ex rest ->
  2 ^ 32 <= number_of 10 ip \/ 2 ^ 32 <= number_of 10 (fraction_digits fr) \/ 2 ^ 32 <= number_of 10 (exponent_digits ex) ->
  consume_token (number_text sg ip fr ex ++ rest) = None.
Proof. exact (number_assert sg ip fr ex rest). Qed.
Example C51_assert_ex : 2 ^ 32 <= number_of 10 (lit "4294967296").
Proof. vm_compute. discriminate. Qed.
Print Assumptions C51_assert.

(** 3.14159265359 fails an assert. *)
Theorem C51_refuted : exists s, s = lit "3.14159265359" /\ consume_token s = None.
Proof. exists (lit "3.14159265359"). wit. Qed.
Print Assumptions C51_refuted.

(** ++5 is the number 0 and the number 5 instead of a delimiter and a number. *)
Theorem C51_sign_refuted : exists s, s = lit "++5" /\
  tokenize 10 s = Val [Number (mk_number false 0 0 0 false 0) Tinteger; Number (mk_number false 5 0 0 false 0) Tinteger].
Proof. exists (lit "++5"). wit. Qed.
Print Assumptions C51_sign_refuted.

(** * C52 *)

(** A quoted string: every text is spelled code points up to a closing quote, a newline, or the end, and the token is
    the string spelled, or a bad string at a newline, which is left to be read. *)
Theorem C52_string q s : q = 0x22 \/ q = 0x27 -> exists t e v k r,
  s = t ++ e /\ Spelled (string_char q) true e t v /\ StringEnd q e k r /\ consume_token (q :: s) = Some (k v, r).
Proof.
  intros Q. destruct (string_split q) with (n := length s) (s := s) as (t & e & k & r & v & E & H & Sp); try lia.
  exists t, e, v, k, r. repeat split; auto. rewrite (quote_token q s Q), E. unfold consume_string_token.
  rewrite (string_spelled q e k r) with (v := v); auto; lia.
Qed.
Example C52_string_ex : consume_token (0x22 :: lit "a\" ++ [0x0A] ++ lit "b\41 c\'" ++ 0x22 :: lit "x") = Some (Str (lit "abAc'"), lit "x").
Proof. vm_compute. reflexivity. Qed.
Print Assumptions C52_string.

(** Any spelling of a string, closed by its quote, is read as that string. *)
Theorem C52_string_spelled q t v rest : q = 0x22 \/ q = 0x27 -> Spelled (string_char q) true (q :: rest) t v ->
  consume_token (q :: t ++ q :: rest) = Some (Str v, rest).
Proof.
  intros Q Sp. rewrite (quote_token q _ Q). unfold consume_string_token.
  rewrite (string_spelled q (q :: rest) Str rest) with (v := v); auto; [lia|constructor].
Qed.
Example C52_string_spelled_ex : Spelled (string_char 0x22) true [0x22] (lit "\41 b") (lit "Ab").
Proof.
  change (lit "\41 b") with (0x5C :: lit "41" ++ 0x20 :: lit "b"). apply (sp_hex_white _ _ _ (lit "41") 0x20 (lit "b") (lit "b")).
  - lits. cbn. lia.
  - lits; repeat apply Forall_cons; try apply Forall_nil; unfold hex_digit; lia.
  - right. now right.
  - lits; apply sp_raw; [unfold string_char; lia|constructor].
Qed.
Print Assumptions C52_string_spelled.

(** Every text begins with a spelled identifier, possibly empty, and that is what is read. *)
Theorem C52_identifier s : exists t rest v,
  s = t ++ rest /\ IdentEnd rest /\ Spelled ident_char false rest t v /\ consume_identifier s = Some (v, rest).
Proof.
  destruct (ident_split (length s) s (Nat.le_refl _)) as (t & rest & v & E & En & Sp). exists t, rest, v.
  repeat split; try assumption; try apply En. rewrite E. now apply identifier_ok.
Qed.
Example C52_identifier_ex : consume_identifier (lit "-a\66 oo\{+") = Some (lit "-afoo{", lit "+").
Proof. vm_compute. reflexivity. Qed.
Print Assumptions C52_identifier.

(** Identifiers, functions, at-keywords and hashes carry the name spelled. The identifier must not begin with two
    hyphens followed by neither a hyphen nor a name start, and the text must not end after the name url. *)
Theorem C52_names_partial rest t v : IdentEnd rest -> Spelled ident_char false rest t v -> Forall (fun c => 0 <= c < 2 ^ 32) v ->
  (IdentStart t -> (forall u, t = 0x2D :: u -> IdentStart u) -> hd_error rest <> Some 0x28 -> rest <> [] \/ ~ is_url v ->
     consume_token (t ++ rest) = Some (Ident v, rest)) /\
  (IdentStart t -> (forall u, t = 0x2D :: u -> IdentStart u) -> ~ is_url v -> forall r, rest = 0x28 :: r ->
     consume_token (t ++ rest) = Some (Function v, r)) /\
  (IdentStart t -> consume_token (0x40 :: t ++ rest) = Some (AtKeyword v, rest)) /\
  (t <> [] -> exists b, consume_token (0x23 :: t ++ rest) = Some (Hash v b, rest) /\ (b = true <-> IdentStart (t ++ rest))).
Proof.
  intros E Sp R. repeat split.
  - intros St D Np Nu. apply ident_token_ok; auto. now split.
  - intros St D Nu r ->. apply function_token_ok; auto. now split.
  - intros St. now apply at_keyword_ok.
  - intros N. now apply hash_ok.
Qed.
Example C52_names_ex : consume_token (lit "-a\66 b;") = Some (Ident (lit "-afb"), lit ";") /\
  consume_token (lit "calc(1") = Some (Function (lit "calc"), lit "1") /\
  consume_token (lit "@media ") = Some (AtKeyword (lit "media"), lit " ") /\ consume_token (lit "#1a;") = Some (Hash (lit "1a") false, lit ";").
Proof. wit. Qed.
Print Assumptions C52_names_partial.

(** The identifier -- is read as two delimiters, and the identifier --1 as two numbers. *)
Theorem C52_refuted : exists s1 s2, s1 = lit "--;" /\ s2 = lit "--1;" /\
  tokenize 10 s1 = Val [Delim 0x2D; Delim 0x2D; Semicolon] /\
  tokenize 10 s2 = Val [Number (mk_number true 0 0 0 false 0) Tinteger; Number (mk_number true 1 0 0 false 0) Tinteger; Semicolon].
Proof. exists (lit "--;"), (lit "--1;"). wit. Qed.
Print Assumptions C52_refuted.

(** * C53 *)

(** An unquoted url without escapes, with whitespace around it, is read as that url. *)
Theorem C53_url_partial t v w1 u w2 rest : IdentStart t -> (forall x, t = 0x2D :: x -> IdentStart x) -> is_url v ->
  Forall (fun c => 0 <= c < 2 ^ 32) v -> Spelled ident_char false (0x28 :: w1 ++ u ++ w2 ++ 0x29 :: rest) t v ->
  Forall white w1 -> Forall url_char u -> Forall white w2 ->
  consume_token (t ++ 0x28 :: w1 ++ u ++ w2 ++ 0x29 :: rest) = Some (Url u, rest).
Proof. intros A B. apply url_token_plain. now split. Qed.
Example C53_url_ex : consume_token (lit "uRl(  a.png  );") = Some (Url (lit "a.png"), lit ";") /\
  consume_token (lit "ur\6c();") = Some (Url [], lit ";").
Proof. wit. Qed.
Print Assumptions C53_url_partial.

(** An escape in an unquoted url makes a bad url, and after the function token of a quoted url the parenthesis is
    tokenised again. *)
Theorem C53_refuted : exists s1 s2, s1 = lit "url(\61);" /\ s2 = lit "url('a')" /\
  tokenize 10 s1 = Val [BadUrl; Semicolon] /\
  tokenize 10 s2 = Val [Function (lit "url"); OpenParen; Str (lit "a"); CloseParen].
Proof. exists (lit "url(\61);"), (lit "url('a')"). wit. Qed.
Print Assumptions C53_refuted.
