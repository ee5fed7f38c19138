(** Progress, termination and safety of the tokeniser loop (model: M_css). *)
From Coq Require Import ZArith List Bool Lia.
From Verif Require Import M_unicode M_infra M_percent M_encoding M_labels M_css L_unicode L_css L_css2.
Import ListNotations.
Open Scope Z_scope.

Lemma cdc_match {A} (r : list Z) (f : list Z -> A) d :
  match r with 0x2D :: 0x3E :: r' => f r' | _ => d end
  = match r with a :: b :: r' => if (a =? 0x2D) && (b =? 0x3E) then f r' else d | _ => d end.
Proof.
  destruct r as [|a [|b r]]; try reflexivity.
  - destruct a as [|p|p]; try reflexivity. do 6 (destruct p as [p|p|]; try reflexivity).
  - destruct (Z.eqb_spec a 0x2D) as [->|N]; cbn [andb].
    + destruct (Z.eqb_spec b 0x3E) as [->|M]; [reflexivity|].
      destruct b as [|p|p]; try reflexivity. do 6 (destruct p as [p|p|]; try reflexivity). congruence.
    + destruct a as [|p|p]; try reflexivity. do 6 (destruct p as [p|p|]; try reflexivity). congruence.
Qed.
Lemma cdo_match {A} (r : list Z) (f : list Z -> A) d :
  match r with 0x21 :: 0x2D :: 0x2D :: r' => f r' | _ => d end
  = match r with a :: b :: c :: r' => if (a =? 0x21) && (b =? 0x2D) && (c =? 0x2D) then f r' else d | _ => d end.
Proof.
  destruct r as [|a [|b [|c r]]]; try reflexivity.
  - destruct a as [|p|p]; try reflexivity. do 6 (destruct p as [p|p|]; try reflexivity).
  - destruct a as [|p|p]; try reflexivity. do 6 (destruct p as [p|p|]; try reflexivity).
    destruct b as [|p|p]; try reflexivity. do 6 (destruct p as [p|p|]; try reflexivity).
  - destruct (Z.eqb_spec a 0x21) as [->|N]; cbn [andb].
    + destruct (Z.eqb_spec b 0x2D) as [->|M]; cbn [andb].
      * destruct (Z.eqb_spec c 0x2D) as [->|O1]; [reflexivity|].
        destruct c as [|p|p]; try reflexivity. do 6 (destruct p as [p|p|]; try reflexivity). congruence.
      * destruct b as [|p|p]; try reflexivity. do 6 (destruct p as [p|p|]; try reflexivity). congruence.
    + destruct a as [|p|p]; try reflexivity. do 6 (destruct p as [p|p|]; try reflexivity). congruence.
Qed.

Lemma dash_ident r : starts_with_identifier r = true -> starts_with_identifier (0x2D :: r) = true.
Proof.
  destruct r as [|c r]; [discriminate|]. intros H. cbn [starts_with_identifier].
  change (0x2D =? 0x2D) with true. cbv iota. cbn [starts_with_identifier] in H.
  destruct (c =? 0x2D); [now rewrite orb_true_r|]. destruct (is_identifier_start_code_point c); [reflexivity|].
  cbn [orb]. destruct (c =? 0x5C); [exact H|discriminate].
Qed.
Lemma backslash_ident r : starts_with_valid_escape (0x5C :: r) = true -> starts_with_identifier (0x5C :: r) = true.
Proof. intros H. exact H. Qed.
Lemma start_ident c r : is_identifier_start_code_point c = true -> starts_with_identifier (c :: r) = true.
Proof.
  intros H. cbn [starts_with_identifier]. rewrite H. destruct (Z.eqb_spec c 0x2D) as [->|]; [discriminate|reflexivity].
Qed.

Lemma token_at_progress cp r t r' : consume_token_at cp r = Some (t, r') ->
  t <> Eof /\ Suffix r' (cp :: r) /\ (r' = cp :: r -> Stuck (cp :: r)).
Proof.
  intros H.
  assert (P : forall t0 r0, Some (t0, r0) = Some (t, r') -> t0 <> Eof -> Suffix r0 r ->
    t <> Eof /\ Suffix r' (cp :: r) /\ (r' = cp :: r -> Stuck (cp :: r))).
  { intros t0 r0 [= <- <-] N Sx. repeat split; auto with css. intros E. destruct (suffix_strict cp _ _ Sx E). }
  assert (St : forall q, consume_string_token q r = Some (t, r') ->
    t <> Eof /\ Suffix r' (cp :: r) /\ (r' = cp :: r -> Stuck (cp :: r))).
  { intros q X. destruct (string_token_ok q r) as (t0 & r0 & A & B & C). rewrite A in X. eapply P; eauto.
    destruct C as [-> | (v & ->)]; discriminate. }
  assert (Nu : forall c a ty b, consume_numeric_token (cp :: r) = Some (t, r') -> number_repr (cp :: r) = (c :: a, ty, b) ->
    t <> Eof /\ Suffix r' (cp :: r) /\ (r' = cp :: r -> Stuck (cp :: r))).
  { intros c a ty b X E. destruct (numeric_strict _ _ _ _ _ _ _ X E) as (A & B & C). repeat split; auto. congruence. }
  assert (Il : consume_ident_like_token (cp :: r) = Some (t, r') -> starts_with_identifier (cp :: r) = true ->
    t <> Eof /\ Suffix r' (cp :: r) /\ (r' = cp :: r -> Stuck (cp :: r))).
  { intros X W. destruct (ident_like_suffix _ _ _ X) as (A & B & C). repeat split; auto. intros E. destruct (A W E). }
  assert (Id : forall k, match consume_identifier r with None => None | Some (n, r0) => Some (k n, r0) end = Some (t, r') ->
    (forall n, k n <> Eof) -> t <> Eof /\ Suffix r' (cp :: r) /\ (r' = cp :: r -> Stuck (cp :: r))).
  { intros k X K. destruct (ident_ok r) as (n & r0 & A & B & _). rewrite A in X. eapply P; eauto. }
  unfold consume_token_at in H. cbv zeta in H.
  destruct (is_whitespace cp); [eapply P; eauto with css; discriminate|].
  destruct (cp =? 0x22); [eauto|].
  destruct (cp =? 0x23).
  { destruct r as [|c r1]; [discriminate|]. destruct (_ || _); [|eapply P; eauto with css; discriminate].
    apply (Id (fun n => Hash n (starts_with_identifier (c :: r1)))); [exact H|discriminate]. }
  destruct (cp =? 0x27); [eauto|].
  destruct (cp =? 0x28); [eapply P; eauto with css; discriminate|].
  destruct (cp =? 0x29); [eapply P; eauto with css; discriminate|].
  destruct (Z.eqb_spec cp 0x2B) as [->|_].
  { destruct (starts_with_number r); [|eapply P; eauto with css; discriminate].
    destruct (repr_sign 0x2B r eq_refl) as (a & ty & b & E). eapply Nu; eauto. }
  destruct (cp =? 0x2C); [eapply P; eauto with css; discriminate|].
  destruct (Z.eqb_spec cp 0x2D) as [->|_].
  { destruct (starts_with_number r).
    { destruct (repr_sign 0x2D r eq_refl) as (a & ty & b & E). eapply Nu; eauto. }
    rewrite (cdc_match r (fun r' => Some (CDC, r'))) in H.
    assert (Else : (if starts_with_identifier r then consume_ident_like_token (0x2D :: r) else Some (Delim 0x2D, r)) = Some (t, r') ->
      t <> Eof /\ Suffix r' (0x2D :: r) /\ (r' = 0x2D :: r -> Stuck (0x2D :: r))).
    { destruct (starts_with_identifier r) eqn:W; [|intros X; eapply P; eauto with css; discriminate].
      intros X. apply Il; [exact X|now apply dash_ident]. }
    destruct r as [|a [|b r1]]; auto. destruct (_ && _); auto. eapply P; eauto; [discriminate|auto with css]. }
  destruct (Z.eqb_spec cp 0x2E) as [->|_].
  { destruct (starts_with_number r) eqn:W; [|eapply P; eauto with css; discriminate].
    apply starts_with_number_iff in W. destruct W as [d r D|d r D|c d r C D|c d r C D].
    - apply is_digit_iff in D. destruct (repr_dot d r D) as (a & ty & b & E). eapply Nu; eauto.
    - assert (K : Stuck (0x2E :: 0x2E :: d :: r)) by now constructor.
      destruct (numeric_suffix _ _ _ H _ _ _ (repr_stuck _ K)). auto.
    - assert (K : Stuck (0x2E :: c :: d :: r)) by now constructor.
      destruct (numeric_suffix _ _ _ H _ _ _ (repr_stuck _ K)). auto.
    - assert (K : Stuck (0x2E :: c :: 0x2E :: d :: r)) by now constructor.
      destruct (numeric_suffix _ _ _ H _ _ _ (repr_stuck _ K)). auto. }
  destruct (cp =? 0x3A); [eapply P; eauto with css; discriminate|].
  destruct (cp =? 0x3B); [eapply P; eauto with css; discriminate|].
  destruct (cp =? 0x3C).
  { rewrite (cdo_match r (fun r' => Some (CDO, r'))) in H.
    destruct r as [|a [|b [|c r1]]]; try (eapply P; eauto with css; discriminate).
    destruct (_ && _); eapply P; eauto with css; discriminate. }
  destruct (cp =? 0x40).
  { destruct (starts_with_identifier r); [|eapply P; eauto with css; discriminate]. apply (Id AtKeyword); [exact H|discriminate]. }
  destruct (cp =? 0x5B); [eapply P; eauto with css; discriminate|].
  destruct (Z.eqb_spec cp 0x5C) as [->|_].
  { destruct (starts_with_valid_escape (0x5C :: r)) eqn:W; [|eapply P; eauto with css; discriminate].
    apply Il; [exact H|exact W]. }
  destruct (cp =? 0x5D); [eapply P; eauto with css; discriminate|].
  destruct (cp =? 0x7B); [eapply P; eauto with css; discriminate|].
  destruct (cp =? 0x7D); [eapply P; eauto with css; discriminate|].
  destruct (is_digit cp) eqn:D.
  { destruct (repr_digit cp r D) as (a & ty & b & E). eapply Nu; eauto. }
  destruct (is_identifier_start_code_point cp) eqn:W; [|eapply P; eauto with css; discriminate].
  apply Il; [exact H|now apply start_ident].
Qed.

(** A token leaves a suffix, shorter unless the text is stuck; end of file leaves nothing. *)
Lemma token_progress s t r : consume_token s = Some (t, r) ->
  Suffix r s /\ (t = Eof -> r = []) /\ (r = s -> t <> Eof -> Stuck s).
Proof.
  unfold consume_token. pose proof (comments_suffix (length s) s) as Sx. fold (consume_comments s) in Sx.
  destruct (consume_comments s) as [|cp b] eqn:E.
  - intros [= <- <-]. repeat split; auto with css. congruence.
  - intros H. destruct (token_at_progress cp b t r H) as (A & B & C).
    assert (Sr : Suffix r s) by (eapply suffix_trans; eauto).
    split; [exact Sr|]. split; [congruence|]. intros -> _.
    assert (Eq : cp :: b = s).
    { apply suffix_eq; [exact Sx|]. pose proof (suffix_length _ _ Sx). pose proof (suffix_length _ _ B). lia. }
    rewrite Eq in *. now apply C.
Qed.

Lemma stuck_token s : Stuck s -> consume_token s = Some (Number (mk_number false 0 0 0 false 0) Tinteger, s).
Proof.
  intros K. unfold consume_token. rewrite comments_id by (destruct K; discriminate).
  assert (E : exists r, s = 0x2E :: r /\ starts_with_number r = true).
  { destruct K as [d r D|c d r C D|c d r C D]; eexists; (split; [reflexivity|]); apply starts_with_number_iff; now constructor. }
  destruct E as (r & -> & W). unfold consume_token_at. cbn -[starts_with_number consume_numeric_token]. rewrite W.
  unfold consume_numeric_token, consume_number. rewrite (repr_stuck _ K). cbn [convert_string_to_number read_sign span u32_of_digits length].
  reflexivity.
Qed.

Lemma stuck_forever fuel s : Stuck s -> tokenize fuel s = NoFuel.
Proof.
  intros K. induction fuel as [|f IH]; [reflexivity|]. cbn [tokenize]. rewrite (stuck_token s K), IH. reflexivity.
Qed.

Lemma tokenize_ends fuel : forall s, (length s < fuel)%nat -> (forall u, Suffix u s -> ~ Stuck u) -> tokenize fuel s <> NoFuel.
Proof.
  induction fuel as [|f IH]; intros s L K; [lia|]. cbn [tokenize].
  destruct (consume_token s) as [[t r]|] eqn:E; [|discriminate].
  destruct (token_progress s t r E) as (A & B & C).
  destruct t; try discriminate;
  (assert (L' : (length r < f)%nat);
   [pose proof (suffix_length _ _ A); destruct (Nat.eq_dec (length r) (length s)) as [El|]; [|lia];
    exfalso; apply (K s (suffix_refl s)); apply C; [now apply suffix_eq|discriminate]|
    assert (N := IH r L' (fun u U => K u (suffix_trans _ _ _ U A))); destruct (tokenize f r); congruence]).
Qed.

Lemma tokenize_mono fuel : forall s, tokenize fuel s <> NoFuel -> forall k, tokenize (fuel + k) s = tokenize fuel s.
Proof.
  induction fuel as [|f IH]; intros s N k; [now destruct N|]. cbn [tokenize Nat.add] in *.
  destruct (consume_token s) as [[t r]|]; [|reflexivity].
  destruct t; try reflexivity; rewrite IH; try reflexivity; intros E; rewrite E in N; now destruct N.
Qed.

(** * No assert fails *)

Lemma short_suffix r s : Suffix r s -> short_numbers s -> short_numbers r.
Proof. intros [x ->] H a ds b -> F. apply (H (x ++ a) ds b); [now rewrite <- app_assoc|exact F]. Qed.
Lemma semicolon_suffix r s : Suffix r (s ++ [0x3B]) -> r = [] \/ exists r0, r = r0 ++ [0x3B].
Proof.
  intros [x E]. destruct r; [now left|right].
  - destruct (exists_last (l := z :: r)) as (r0 & c & Er); [discriminate|].
  exists r0. rewrite Er in *. rewrite app_assoc in E. apply app_inj_tail in E as [_ <-]. reflexivity.
Qed.

Lemma ident_semicolon f : forall acc s0 n, consume_identifier_loop f acc (s0 ++ [0x3B]) = Some (n, []) -> exists n0, n = n0 ++ [0x3B].
Proof.
  induction f as [|f IH]; intros acc s0 n H.
  - cbn in H. injection H as _ H. destruct s0; discriminate.
  - destruct (s0 ++ [0x3B]) as [|c s] eqn:E; [destruct s0; discriminate|].
    assert (Sx : Suffix s (s0 ++ [0x3B])) by (rewrite E; auto with css).
    cbn [consume_identifier_loop] in H. destruct (is_identifier_code_point c) eqn:I.
    + destruct (semicolon_suffix s s0 Sx) as [-> | (r0 & ->)].
      * destruct s0 as [|x [|y s0]]; try discriminate. injection E as <-. discriminate I.
      * eauto.
    + destruct (starts_with_valid_escape (c :: s)) eqn:V; [|discriminate].
      destruct (escape_ok s) as (ch & r' & X & Es). rewrite X in H.
      pose proof (escape_suffix _ _ _ Es) as Sr.
      destruct (semicolon_suffix r' s0) as [-> | (r0 & ->)]; [eapply suffix_trans; eauto| |eauto].
      assert (Hn : n = acc ++ [ch]) by (destruct f; cbn in H; congruence). subst n.
      exists acc. f_equal. f_equal.
      destruct (semicolon_suffix s s0 Sx) as [-> | (s1 & ->)]; [discriminate V|].
      inversion Es as [E1|c1 r1 N1 E1 E2 E3|ds t r1 Ln F M A E1 E2 E3].
      * destruct s1; discriminate.
      * destruct s1 as [|x s1]; cbn in E1; [congruence|]. exfalso. destruct s1; cbn in E1; congruence.
      * exfalso. inversion A as [w r2 W E4 E5|r2 W E4 E5]; subst.
        -- apply app_inj_tail in E1 as [_ E1]. unfold white in W. lia.
        -- rewrite app_nil_r in E1. rewrite E1 in F. apply Forall_app in F as [_ F]. inversion F as [|y z Y]; subst.
           unfold hex_digit in Y. lia.
Qed.

Lemma utf32_match_true a : forall b, is_ascii_case_insensitive_match utf32 utf32 a b = Some true ->
  map (fun c => cp_lower (c mod 2 ^ 32)) a = map (fun c => cp_lower (c mod 2 ^ 32)) b.
Proof.
  unfold is_ascii_case_insensitive_match. induction a as [|x a IH]; intros [|y b] H; cbn [length ci_match] in H; try discriminate; [reflexivity|].
  change (c_dec utf32) with utf32_to_code_point in H. cbn [utf32_to_code_point] in H.
  destruct (Z.eqb_spec (cp_lower (x mod 2 ^ 32)) (cp_lower (y mod 2 ^ 32))) as [E|]; [|discriminate].
  cbn [map]. f_equal; auto.
Qed.

Lemma ident_like_total s0 : exists t r, consume_ident_like_token (s0 ++ [0x3B]) = Some (t, r).
Proof.
  unfold consume_ident_like_token. destruct (ident_ok (s0 ++ [0x3B])) as (n & b & A & B & _). rewrite A.
  assert (Plain : exists t r, match b with c :: r' => if c =? 0x28 then Some (Function n, r') else Some (Ident n, b) | [] => Some (Ident n, b) end = Some (t, r)).
  { destruct b as [|c b]; [eauto|]. destruct (c =? 0x28); eauto. }
  destruct (utf32_match_total n [0x75; 0x72; 0x6C]) as [[|] M]; rewrite M; [|exact Plain].
  destruct b as [|c r1].
  - exfalso. destruct (ident_semicolon _ _ _ _ A) as (n0 & ->). apply utf32_match_true in M. rewrite map_app in M.
    change (map (fun c => cp_lower (c mod 2 ^ 32)) [0x75; 0x72; 0x6C]) with ([0x75; 0x72] ++ [0x6C]) in M.
    change (map (fun c => cp_lower (c mod 2 ^ 32)) [0x3B]) with [0x3B] in M. apply app_inj_tail in M as [_ M]. discriminate.
  - destruct (c =? 0x28); [|exact Plain]. destruct (skip_two_whitespace c r1) as [p r2].
    destruct (quote_follows r2); [eauto|]. destruct (url_token_ok r2) as (t & r & -> & _). eauto.
Qed.

Lemma numeric_total s : short_numbers s -> exists t r, consume_numeric_token s = Some (t, r).
Proof.
  intros H. unfold consume_numeric_token. destruct (consume_number_short s H) as (v & ty & r & ->).
  destruct (starts_with_identifier r).
  - destruct (ident_ok r) as (n & r' & -> & _). eauto.
  - destruct r as [|c r]; [eauto|]. destruct (c =? 0x25); eauto.
Qed.

Lemma token_at_total cp r s0 : cp :: r = s0 ++ [0x3B] -> short_numbers (cp :: r) -> consume_token_at cp r <> None.
Proof.
  intros E Sh. destruct (ident_like_total s0) as (ti & ri & Il). rewrite <- E in Il.
  destruct (numeric_total _ Sh) as (tn & rn & Nu).
  assert (Id : exists n r', consume_identifier r = Some (n, r')) by (destruct (ident_ok r) as (n & r' & X & _); eauto).
  destruct Id as (n & r1 & Id).
  unfold consume_token_at. cbv zeta. rewrite Il, Nu, Id.
  destruct (is_whitespace cp); [discriminate|].
  destruct (cp =? 0x22); [destruct (string_token_ok cp r) as (? & ? & -> & _); discriminate|].
  destruct (Z.eqb_spec cp 0x23) as [->|_].
  { destruct r as [|c r]; [destruct s0 as [|x [|y s0]]; discriminate|]. destruct (_ || _); discriminate. }
  destruct (cp =? 0x27); [destruct (string_token_ok cp r) as (? & ? & -> & _); discriminate|].
  rewrite (cdc_match r (fun r' => Some (CDC, r'))), (cdo_match r (fun r' => Some (CDO, r'))).
  repeat match goal with |- (if ?b then _ else _) <> None => destruct b; try discriminate end.
  all: destruct r as [|a [|b [|c r]]]; repeat match goal with |- context [if ?b then _ else _] => destruct b end; discriminate.
Qed.

Lemma tokenize_safe fuel : forall s, (s = [] \/ exists s0, s = s0 ++ [0x3B]) -> short_numbers s -> tokenize fuel s <> Bad.
Proof.
  induction fuel as [|f IH]; intros s E Sh; [discriminate|]. cbn [tokenize].
  assert (Tot : consume_token s <> None).
  { unfold consume_token. pose proof (comments_suffix (length s) s) as Sx. fold (consume_comments s) in Sx.
    destruct (consume_comments s) as [|cp b] eqn:Ec; [discriminate|].
    destruct E as [-> | (s0 & ->)]; [discriminate Ec|].
    destruct (semicolon_suffix _ _ Sx) as [X | (r0 & X)]; [discriminate|]. eapply token_at_total; eauto.
    eapply short_suffix; eauto. }
  destruct (consume_token s) as [[t r]|] eqn:T; [|congruence]. clear Tot.
  destruct (token_progress s t r T) as (A & _ & _).
  assert (N : tokenize f r <> Bad).
  { apply IH; [|eapply short_suffix; eauto]. destruct E as [-> | (s0 & ->)].
    - left. destruct A as [x X]. symmetry in X. now apply app_eq_nil in X.
    - now apply semicolon_suffix with s0. }
  destruct t; try discriminate; destruct (tokenize f r); congruence.
Qed.
