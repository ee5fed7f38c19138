(** The CSS parser over lists of tokens. *)
From Coq Require Import String.
From Coq Require Import ZArith List Bool Lia.
From Verif Require Import M_unicode M_infra M_percent M_encoding M_labels M_css M_cssp L_cssp L_cssp2.
Import ListNotations.
Open Scope list_scope.
Open Scope Z_scope.

Ltac wit := repeat split; vm_compute; reflexivity.
Ltac no := repeat constructor; try discriminate; try (eexists; reflexivity).

(** * C79: component values *)

(** The list of component values is what one pass over the tokens with a stack nests: every closing token ends the innermost block. *)
Theorem C79_values t fuel : no_eof t -> (2 * List.length t + 2 <= fuel)%nat -> parse_list_of_component_values fuel t = Val (nest ends_any t).
Proof. intros N L. exact (values_all fuel (token_stream t) t false [] (token_stream_at t) N L). Qed.
Example C79_values_ex : no_eof [Tok OpenSquare; Tok (Ident [0x61]); Tok (Function [0x66]); Tok CloseSquare; Tok CloseParen] /\
  nest ends_any [Tok OpenSquare; Tok (Ident [0x61]); Tok (Function [0x66]); Tok CloseSquare; Tok CloseParen] = [Blk 0x5B [Tok (Ident [0x61]); Fun [0x66] [Tok CloseSquare]]].
Proof. split; [no|wit]. Qed.
Print Assumptions C79_values.

(** This is what the standard says, by which a block is ended by its own closing token, exactly when no block meets a wrong one. *)
Theorem C79_standard_partial t fuel : no_eof t -> (2 * List.length t + 2 <= fuel)%nat -> (parse_list_of_component_values fuel t = Val (nest ends_own t) <-> matched [] t = true).
Proof. intros N L. rewrite C79_values by assumption. rewrite <- matched_iff. split; [intros H; now injection H|now intros ->]. Qed.
Example C79_standard_ex : matched [] [Tok OpenSquare; Tok (Function [0x66]); Tok CloseSquare; Tok CloseParen; Tok CloseSquare; Tok CloseCurly] = true.
Proof. reflexivity. Qed.
Print Assumptions C79_standard_partial.

(** In [[)a]] the block should hold both; it is ended by the parenthesis. *)
Theorem C79_refuted : exists t, t = [Tok OpenSquare; Tok CloseParen; Tok (Ident [0x61]); Tok CloseSquare] /\
  parse_list_of_component_values 20 t = Val [Blk 0x5B []; Tok (Ident [0x61]); Tok CloseSquare] /\ nest ends_own t = [Blk 0x5B [Tok CloseParen; Tok (Ident [0x61])]].
Proof. eexists. wit. Qed.
Print Assumptions C79_refuted.

(** The values written out again are the tokens, and the closing tokens that were missing; they are read as the same values. *)
Theorem C79_written t fuel fuel' : Forall (fun p => exists k, p = Tok k) t -> no_eof t -> matched [] t = true -> (2 * List.length t + 2 <= fuel)%nat -> (4 * List.length t + 2 <= fuel')%nat ->
  exists v, parse_list_of_component_values fuel t = Val v /\ flat v = t ++ missing t /\ (still_open ends_any t = false -> flat v = t) /\ parse_list_of_component_values fuel' (flat v) = Val v.
Proof.
  intros F N M L L'. exists (nest ends_own t). split; [now apply C79_standard_partial|]. rewrite flat_nest by exact F. split; [reflexivity|]. split.
  - intros O. rewrite (proj2 (missing_closed t M) O). apply app_nil_r.
  - assert (Le : (List.length (missing t) <= List.length t)%nat).
    { unfold missing. rewrite map_length. assert (G : forall t top st, (List.length (snd (nested ends_own (top, st) t)) <= List.length st + List.length t)%nat).
      { clear. induction t as [|p t IH]; intros top st; [cbn; lia|]. rewrite nested_cons. unfold nstep. destruct (opens p) as [g|]; [specialize (IH top ((g, []) :: st)); cbn [fst snd List.length] in *; lia|].
        assert (P : forall c st0, (List.length (snd (put c (top, st0))) = List.length st0)%nat) by (intros c [|[g w] st0]; reflexivity).
        destruct st as [|[g w] st]; [|destruct (ends_own g p)].
        - specialize (IH (fst (put p (top, []))) (snd (put p (top, [])))). rewrite <- surjective_pairing, P in IH. cbn [List.length] in *. lia.
        - specialize (IH (fst (put (made g w) (top, st))) (snd (put (made g w) (top, st)))). rewrite <- surjective_pairing, P in IH. cbn [List.length] in *. lia.
        - specialize (IH (fst (put p (top, (g, w) :: st))) (snd (put p (top, (g, w) :: st)))). rewrite <- surjective_pairing, P in IH. cbn [List.length] in *. lia. }
      specialize (G t [] []). cbn [List.length] in G. lia. }
    pose proof (proj2 (C79_standard_partial (t ++ missing t) fuel' (no_eof_missing t N) ltac:(rewrite app_length; lia)) (matched_missing t M)) as H. rewrite H. f_equal. unfold nest at 1. rewrite nest_missing. unfold finish. cbn [fst snd wrap]. apply app_nil_r.
Qed.
Example C79_written_ex : let t := [Tok OpenCurly; Tok (Ident [0x61]); Tok OpenParen; Tok Comma] in
  matched [] t = true /\ missing t = [Tok CloseParen; Tok CloseCurly] /\ nest ends_any t = [Blk 0x7B [Tok (Ident [0x61]); Blk 0x28 [Tok Comma]]].
Proof. wit. Qed.
Print Assumptions C79_written.

(** Values that were read once are read again as themselves. *)
Theorem C79_again t fuel fuel' : no_eof t -> (2 * List.length t + 2 <= fuel)%nat -> (2 * List.length t + 2 <= fuel')%nat ->
  exists v, parse_list_of_component_values fuel t = Val v /\ parse_list_of_component_values fuel' v = Val v.
Proof.
  intros N L L'. exists (nest ends_any t). split; [now apply C79_values|]. pose proof (nest_length t _ (le_n _) N). rewrite C79_values by (try lia; now apply (nest_no_eof t _ (le_n _))). f_equal. apply nest_flat, nest_heads.
Qed.
Example C79_again_ex : parse_list_of_component_values 10 [Blk 0x5B [Tok Comma]; Tok CloseParen] = Val [Blk 0x5B [Tok Comma]; Tok CloseParen].
Proof. reflexivity. Qed.
Print Assumptions C79_again.

(** The list separated by commas is that list, split at its commas; there is always one part more than there are commas. *)
Theorem C79_commas t fuel : no_eof t -> (2 * List.length t + 2 <= fuel)%nat ->
  exists ls, parse_comma_separated_list_of_component_values fuel t = Val ls /\ ls <> [] /\ Forall (fun l => ~ In (Tok Comma) l) ls /\
    nest ends_any t = match ls with [] => [] | l :: r => l ++ flat_map (cons (Tok Comma)) r end.
Proof.
  intros N L. exists (commas [] (nest ends_any t)). split; [exact (commas_all fuel (token_stream t) t false [] [] (token_stream_at t) N L)|]. set (v := nest ends_any t). clearbody v.
  assert (G : forall v cur, ~ In (Tok Comma) cur -> commas cur v <> [] /\ Forall (fun l => ~ In (Tok Comma) l) (commas cur v) /\ cur ++ v = match commas cur v with [] => [] | l :: r => l ++ flat_map (cons (Tok Comma)) r end).
  { clear. induction v as [|c v IH]; intros cur H; [cbn [commas flat_map]; split; [discriminate|]; split; [constructor; [exact H|constructor]|now rewrite !app_nil_r]|].
    assert (D : c = Tok Comma \/ (c <> Tok Comma /\ commas cur (c :: v) = commas (cur ++ [c]) v)) by (destruct c as [[]| |]; try (now left); right; (split; [discriminate|reflexivity])).
    destruct D as [-> | [Nc ->]].
    - cbn [commas]. destruct (IH [] ltac:(intros [])) as (A & B & C). split; [discriminate|]. split; [now constructor|]. f_equal. cbn [app] in C. destruct (commas [] v) as [|l r]; [now contradiction A|]. cbn [flat_map app]. now rewrite <- C.
    - destruct (IH (cur ++ [c])) as (A & B & C); [intros I; apply in_app_or in I as [I|[I|[]]]; [now apply H|now apply Nc]|]. split; [exact A|]. split; [exact B|]. rewrite <- C. now rewrite <- app_assoc. }
  apply (G v []). intros [].
Qed.
Example C79_commas_ex : parse_comma_separated_list_of_component_values 20 [Tok (Function [0x66]); Tok Comma; Tok CloseParen; Tok Comma] = Val [[Fun [0x66] [Tok Comma]]; []].
Proof. reflexivity. Qed.
Print Assumptions C79_commas.

(** * C80: style sheets *)

(** Every list of tokens is a style sheet: its rules are what one pass over its values finds. *)
Theorem C80_stylesheet t fuel : no_eof t -> (2 * List.length t + 3 <= fuel)%nat -> parse_stylesheet fuel t = Val (rules_of None (nest ends_any t)) /\ parse_list_of_rules fuel t = Val (rules_of None (nest ends_any t)).
Proof. intros N L. pose proof (rules_all fuel (token_stream t) t false [] (token_stream_at t) N L) as H. split; exact H. Qed.
Example C80_stylesheet_ex : rules_of None (nest ends_any [Tok CDO; Tok (AtKeyword [0x61]); Tok Comma; Tok Semicolon; Tok (Ident [0x62]); Tok OpenCurly; Tok Colon; Tok CloseCurly; Tok (Ident [0x63])])
  = [AtRule [0x61] [Tok Comma] None; Rule [Tok (Ident [0x62])] (0x7B, [Tok Colon])].
Proof. reflexivity. Qed.
Print Assumptions C80_stylesheet.

(** From text: every text that can be split into tokens is a style sheet. *)
Theorem C80_text s buf n ts fuel : filter_code_points s = (buf, n) -> tokenize fuel (firstn n buf) = Val ts -> (2 * List.length ts + 3 <= fuel)%nat -> parse_stylesheet_text fuel s = Val (rules_of None (nest ends_any (map Tok ts))).
Proof.
  intros F T L. unfold parse_stylesheet_text, normalize_into_token_stream. rewrite F, T. cbn [pbind]. apply C80_stylesheet; [exact (tokenize_no_eof _ _ _ T)|]. rewrite map_length. exact L.
Qed.
Example C80_text_ex : parse_stylesheet_text 60 (lit "@import 'a';b,c{d:e}") =
  Val [AtRule (lit "import") [Tok Whitespace; Tok (Str (lit "a"))] None; Rule [Tok (Ident (lit "b")); Tok Comma; Tok (Ident (lit "c"))] (0x7B, [Tok (Ident (lit "d")); Tok Colon; Tok (Ident (lit "e"))])].
Proof. wit. Qed.
Print Assumptions C80_text.

(** Every block in braces at the top is the block of one rule, in order; none is lost. *)
Theorem C80_blocks t fuel : no_eof t -> (2 * List.length t + 3 <= fuel)%nat -> exists rs, parse_stylesheet fuel t = Val rs /\ flat_map block_in rs = flat_map braces (nest ends_any t).
Proof. intros N L. exists (rules_of None (nest ends_any t)). split; [now apply C80_stylesheet|]. apply rules_blocks. Qed.
Example C80_blocks_ex : flat_map braces (nest ends_any [Tok OpenCurly; Tok OpenCurly; Tok CloseCurly; Tok CloseCurly; Tok Semicolon; Tok OpenCurly]) = [[Blk 0x7B []]; []].
Proof. reflexivity. Qed.
Print Assumptions C80_blocks.

(** Sheets one after another: when the first ends with a block in braces, the rules are those of the one and those of the other. *)
Theorem C80_two a b v w fuel : no_eof a -> no_eof b -> still_open ends_any a = false -> nest ends_any a = v ++ [Blk 0x7B w] -> (2 * List.length (a ++ b) + 3 <= fuel)%nat ->
  exists ra rb, parse_stylesheet fuel a = Val ra /\ parse_stylesheet fuel b = Val rb /\ parse_stylesheet fuel (a ++ b) = Val (ra ++ rb).
Proof.
  intros Na Nb O E L. rewrite app_length in L. exists (rules_of None (nest ends_any a)), (rules_of None (nest ends_any b)). split; [apply C80_stylesheet; [exact Na|lia]|]. split; [apply C80_stylesheet; [exact Nb|lia]|].
  replace (rules_of None (nest ends_any a) ++ rules_of None (nest ends_any b)) with (rules_of None (nest ends_any (a ++ b))); [apply C80_stylesheet; [now apply Forall_app|rewrite app_length; lia]|].
  rewrite nest_two, E, <- app_assoc by exact O. apply rules_two.
Qed.
Example C80_two_ex : still_open ends_any [Tok (Ident [0x61]); Tok OpenCurly; Tok CloseCurly] = false /\ nest ends_any [Tok (Ident [0x61]); Tok OpenCurly; Tok CloseCurly] = [Tok (Ident [0x61])] ++ [Blk 0x7B []].
Proof. wit. Qed.
Print Assumptions C80_two.

(** A list of rules is not at the top level: [<!--] belongs to the prelude of the rule. It is dropped as in a style sheet. *)
Theorem C80_list_of_rules_refuted : exists t, t = [Tok CDO; Tok OpenCurly; Tok CloseCurly] /\ parse_list_of_rules 20 t = Val [Rule [] (0x7B, [])] /\ fst (rule_of [] (nest ends_own t)) = Some (Rule [Tok CDO] (0x7B, [])).
Proof. eexists. wit. Qed.
Print Assumptions C80_list_of_rules_refuted.

(** * C81: declarations *)

(** What parsing a list of declarations gives, for every list of tokens. *)
Theorem C81_declarations t fuel : no_eof t -> (2 * List.length t + 4 <= fuel)%nat -> parse_list_of_declarations fuel t = decls_of (still_open ends_any t) None (nest ends_any t).
Proof. intros N L. unfold parse_list_of_declarations. rewrite (declarations_all fuel (token_stream t) t false [] (token_stream_at t) N L). unfold opened. cbn [orb]. destruct (decls_of _ None _); reflexivity. Qed.
Example C81_declarations_ex : parse_list_of_declarations 60 (map Tok [Ident (lit "a"); Colon; Whitespace; Ident (lit "b"); Delim 0x21; Ident (lit "IMPORTANT"); Semicolon; Comma; Semicolon; Ident (lit "c"); Whitespace; Colon; Comma; Whitespace])
  = Val [Decl (lit "a") [Tok (Ident (lit "b"))] true; Decl (lit "c") [Tok Comma] false].
Proof. wit. Qed.
Print Assumptions C81_declarations.

(** One declaration: an identifier, a colon and a value that is neither empty nor only [important]. *)
Theorem C81_declaration t fuel : no_eof t -> (2 * List.length t + 1 <= fuel)%nat -> parse_declaration fuel t = one_declaration (still_open ends_any t) (nest ends_any t).
Proof. exact (parse_declaration_all fuel t). Qed.
Example C81_declaration_ex : parse_declaration 60 (map Tok [Whitespace; Ident (lit "a"); Whitespace; Colon; Comma; Whitespace]) = Val (Some (Decl (lit "a") [Tok Comma] false)).
Proof. wit. Qed.
Print Assumptions C81_declaration.

(** The value: without the white space around it, and without an exclamation mark and [important] at its end. *)
Theorem C81_value n v w1 w2 w3 w4 bang imp : Forall (eq (Tok Whitespace)) (w1 ++ w2 ++ w3 ++ w4) -> v <> [] -> hd_error v <> Some (Tok Whitespace) -> hd_error (rev v) <> Some (Tok Whitespace) -> says_important imp = true -> bang = Tok (Delim 0x21) ->
  decl_of false n (w1 ++ [Tok Colon] ++ w2 ++ v ++ w3 ++ [bang] ++ w4 ++ [Tok (Ident imp)]) = Val (Some (Decl n v true)).
Proof.
  intros W Nv H1 H2 Im ->. repeat apply Forall_app in W as [? W].
  assert (D : forall w r, Forall (eq (Tok Whitespace)) w -> drop_ws (w ++ r) = drop_ws r) by (induction 1 as [|c w <- _ IH]; [reflexivity|exact IH]).
  assert (K : forall v r, v <> [] -> hd_error v <> Some (Tok Whitespace) -> drop_ws (v ++ r) = v ++ r) by (intros [|c u] r Ne Hd; [congruence|]; cbn [app]; apply drop_ws_other; cbn in Hd; congruence).
  unfold decl_of. rewrite D by assumption. cbn [app drop_ws]. rewrite D, K by assumption. unfold declared. rewrite !rev_app_distr. cbn [rev app drop_ws]. rewrite rev_app_distr. cbn [rev app]. rewrite <- !app_assoc. cbn [app drop_ws].
  rewrite Im. rewrite D by now apply Forall_rev. cbn [drop_ws]. change (0x21 =? 0x21) with true. cbv iota. rewrite D by now apply Forall_rev.
  replace (drop_ws (rev v)) with (rev v) by (rewrite <- (app_nil_r (rev v)) at 2; rewrite K; [now rewrite app_nil_r|intros E; apply Nv; now apply (f_equal (@rev prim)) in E; rewrite rev_involutive in E|exact H2]). now rewrite rev_involutive.
Qed.
Example C81_value_ex : decl_of false (lit "a") [Tok Whitespace; Tok Colon; Tok Whitespace; Tok Comma; Tok Whitespace; Tok (Delim 0x21); Tok Whitespace; Tok (Ident (lit "imPortant"))] = Val (Some (Decl (lit "a") [Tok Comma] true)).
Proof. wit. Qed.
Print Assumptions C81_value.

(** A declaration without a value, or whose value is [important], is read out of range; the standard has them as declarations. *)
Theorem C81_refuted : exists t1 t2, t1 = map Tok [Ident (lit "a"); Colon] /\ t2 = map Tok [Ident (lit "a"); Colon; Ident (lit "important")] /\
  parse_declaration 20 t1 = Bad /\ parse_declaration 20 t2 = Bad /\ parse_list_of_declarations 20 t1 = Bad /\ parse_list_of_declarations 20 t2 = Bad.
Proof. do 2 eexists. wit. Qed.
Print Assumptions C81_refuted.

(** An open parenthesis in a value: the token after the end is asked for. *)
Theorem C81_open_refuted : exists t, t = map Tok [Ident (lit "a"); Colon; OpenParen] /\ parse_declaration 20 t = Bad /\ parse_list_of_declarations 20 t = Bad.
Proof. eexists. wit. Qed.
Print Assumptions C81_open_refuted.

(** What does not begin with an identifier is no declaration; it is returned as a declaration of nothing. *)
Theorem C81_none_refuted : exists t, t = map Tok [Comma] /\ parse_declaration 20 t = Val (Some (Decl [] [] false)).
Proof. eexists. wit. Qed.
Print Assumptions C81_none_refuted.

(** * C82: one rule, one value *)

Theorem C82_rule t fuel : no_eof t -> (2 * List.length t + 2 <= fuel)%nat -> parse_rule fuel t = one_rule (still_open ends_any t) (nest ends_any t).
Proof. exact (rule_all fuel t). Qed.
Example C82_rule_ex : parse_rule 40 (map Tok [Whitespace; Ident (lit "a"); OpenCurly; CloseCurly; Whitespace]) = Val (Some (Rule [Tok (Ident (lit "a"))] (0x7B, []))) /\ parse_rule 40 (map Tok [Ident (lit "a"); OpenCurly; CloseCurly; Comma]) = Val None.
Proof. wit. Qed.
Print Assumptions C82_rule.

Theorem C82_value t fuel : no_eof t -> (2 * List.length t + 2 <= fuel)%nat -> parse_component_value fuel t = value_of (still_open ends_any t) (nest ends_any t).
Proof. exact (value_all fuel t). Qed.
Example C82_value_ex : parse_component_value 40 (map Tok [Whitespace; Function (lit "a"); Comma; CloseParen; Whitespace]) = Val (Some (Fun (lit "a") [Tok Comma])) /\ parse_component_value 40 (map Tok [Comma; Comma]) = Val None.
Proof. wit. Qed.
Print Assumptions C82_value.

(** A rule or a value that the end of the text ends is read past the end: [@import 'a'], [a{], [f(]. *)
Theorem C82_refuted : exists t1 t2 t3, t1 = map Tok [AtKeyword (lit "import"); Str (lit "a")] /\ t2 = map Tok [Ident (lit "a"); OpenCurly] /\ t3 = map Tok [Function (lit "f")] /\
  parse_rule 20 t1 = Bad /\ parse_rule 20 t2 = Bad /\ parse_component_value 20 t3 = Bad.
Proof. do 3 eexists. wit. Qed.
Print Assumptions C82_refuted.
