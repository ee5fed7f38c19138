(** HTML tokenisation, character references and serialisation: C47, C54 to C65. *)
From Coq Require Import String.
From Coq Require Import ZArith List Bool Lia.
From Verif Require Import M_unicode M_infra M_encoding M_labels M_html M_html_ncr M_html_serialize M_html_meta.
From Verif Require Import L_unicode L_infra L_css5 L_html_names L_html1 L_html7 L_html8 L_html_ncr3 L_html_serialize L_html9 L_html_unique L_html10 L_html_meta.
Import ListNotations.
Open Scope string_scope.
Open Scope list_scope.
Open Scope Z_scope.

Ltac wit := repeat (match goal with |- _ /\ _ => split end); (vm_compute; reflexivity).

Ltac fz :=
  match goal with |- Forall ?P ?l => let x := eval vm_compute in l in change (Forall P x) end;
  repeat (apply Forall_cons; [unfold scalar, attr_char, name_char, doctype_char, name_start; lia|]); apply Forall_nil.

(** no switch of state, no CDATA sections *)
Definition never (l : list token) : option state := None.
Definition nowhere (l : list token) : bool := false.
Lemma never_text : text_switch never.
Proof. intros l s H. discriminate. Qed.

(** * C47 *)

(** In the PLAINTEXT state every code point that arrives is emitted (U+0000 as U+FFFD): what arrives is the text with CR LF
    and CR replaced by LF, whatever the text and wherever the CRs are; then the end of the input, once. *)
Theorem C47_plaintext switch cdata fuel text : (1 <= fuel)%nat ->
  tokenize switch cdata match_ncr fuel (set_state PLAINTEXT_state tok_init) text
  = Val (map (fun c => TChar (if c =? 0 then 0xFFFD else c)) (newlines text) ++ [TEof]).
Proof. exact (plaintext_delivers switch cdata fuel text). Qed.
Example C47_plaintext_ex : newlines [0x61; 0xD; 0xA; 0xD; 0xD; 0xA; 0xA; 0x62; 0xD] = [0x61; 0xA; 0xA; 0xA; 0xA; 0x62; 0xA].
Proof. reflexivity. Qed.
Print Assumptions C47_plaintext.

(** From the data state: the tokens of a text are those of the text with the newlines replaced. *)
Theorem C47_newlines_partial switch cdata text fuel : text_switch switch -> whole_references (newlines text) ->
  (forall p s, newlines text <> p ++ lit "&#" ++ s) -> last text 0 <> 0xD -> fuel_for fuel text ->
  tokenize switch cdata match_ncr fuel tok_init text = tokenize switch cdata match_ncr fuel tok_init (newlines text).
Proof. intros S H N L F. apply (tokenize_newlines switch S cdata text fuel); [apply in_table_whole; exact H|exact N|exact L|exact F]. Qed.
Example C47_newlines_ex : tokenize never nowhere match_ncr 200 tok_init [0x61; 0xD; 0xA; 0xD; 0x62]
  = Val [TChar 0x61; TChar 0xA; TChar 0xA; TChar 0x62; TEof].
Proof. vm_compute. reflexivity. Qed.
Print Assumptions C47_newlines_partial.

(** * C54 *)

(** The encoding is the one named by the label in the content attribute, and there is none when there is no such label or
    it names none; the quoted label may not be only whitespace. *)
Theorem C54_meta_charset_partial s fuel : Forall scalar s -> (length s < fuel)%nat ->
  (forall l, Charset (map cp_lower s) l -> l = [] \/ ~ Forall ws l) ->
  exists r, extract_from_meta fuel s = Val r /\ forall e, r = Some e <-> exists l, Charset (map cp_lower s) l /\ Names l e.
Proof. apply extract_ok. Qed.
Example C54_meta_charset_ex : extract_from_meta 50 (lit "text/html; Charset = Shift_JIS; x") = Val (Some Shift_JIS) /\
  extract_from_meta 50 (lit "charset charset=""utf-8""") = Val (Some UTF_8) /\ extract_from_meta 50 (lit "charset=""utf-8") = Val None.
Proof. wit. Qed.
Print Assumptions C54_meta_charset_partial.

(** A quoted label of whitespace reads before the start of an empty string. *)
Theorem C54_meta_charset_refuted : exists s, Forall scalar s /\ Charset (map cp_lower s) [0x20] /\ extract_from_meta (S (length s)) s = Bad.
Proof.
  exists (lit "charset="" """). split; [fz|]. split; [|vm_compute; reflexivity].
  apply (label_charset 50). vm_compute. reflexivity.
Qed.
Print Assumptions C54_meta_charset_refuted.

(** * C55 *)

(** The tokeniser finishes and no assertion or bad read happens, for every text in which each [&] is followed by a whole name,
    by an ASCII character that starts no name, or by the end. *)
Theorem C55_tokenizer_total_partial switch cdata text fuel : text_switch switch -> whole_references (newlines text) -> fuel_for fuel text ->
  exists l, tokenize switch cdata match_ncr fuel tok_init text = Val l.
Proof. intros S H F. apply (tokenize_total switch S cdata text fuel); [apply in_table_whole; exact H|exact F]. Qed.
Example C55_tokenizer_total_ex : tokenize never nowhere match_ncr 2000 tok_init (lit "<a b=c d='e'>&amp; & f</a ><!-- g -->")
  = Val ([TStart (Tag (lit "a") false [Attribute (lit "b") (lit "c") false; Attribute (lit "d") (lit "e") false])] ++
         map TChar (lit "& & f") ++ [TEnd (Tag (lit "a") false []); TComment (lit " g "); TEof]).
Proof. vm_compute. reflexivity. Qed.
Print Assumptions C55_tokenizer_total_partial.

(** The walk of a name reads outside the table. *)
Theorem C55_tokenizer_total_refuted : exists text fuel, fuel_for fuel text /\ tokenize never nowhere match_ncr fuel tok_init text = Bad.
Proof. exists (lit "&zwnj<"), 1000%nat. split; [unfold fuel_for; cbn; lia|]. vm_compute. reflexivity. Qed.
Print Assumptions C55_tokenizer_total_refuted.

(** * C56 *)

Theorem C56_eof_once_partial switch cdata text fuel : text_switch switch -> whole_references (newlines text) ->
  (forall p s, newlines text <> p ++ lit "&#" ++ s) -> last text 0 <> 0xD -> fuel_for fuel text ->
  exists l, tokenize switch cdata match_ncr fuel tok_init text = Val (l ++ [TEof]) /\ ~ In TEof l.
Proof. intros S H N L F. apply (tokenize_once switch S cdata text fuel); [apply in_table_whole; exact H|exact N|exact L|exact F]. Qed.
Example C56_eof_once_ex : tokenize never nowhere match_ncr 500 tok_init (lit "<!-- <a b") = Val [TComment (lit " <a b"); TEof].
Proof. vm_compute. reflexivity. Qed.
Print Assumptions C56_eof_once_partial.

(** After a reference by number at the end of the text the end token never comes. *)
Theorem C56_eof_missing_refuted : exists text l, tokenize never nowhere match_ncr 1000 tok_init text = Val l /\ ~ In TEof l.
Proof. exists (lit "&#65;"), [TChar 0x41]. split; [vm_compute; reflexivity|]. intros [H|[]]. discriminate H. Qed.
Print Assumptions C56_eof_missing_refuted.

(** A CR at the end of the text, read while a name is awaited, gives two end tokens. *)
Theorem C56_eof_twice_refuted : exists text l a b, tokenize never nowhere match_ncr 1000 tok_init text = Val l /\ l = a ++ TEof :: b /\ In TEof b.
Proof.
  exists (lit "&amp" ++ [0xD]). eexists. exists [TChar 0x26; TChar 0xA], [TEof].
  split; [vm_compute; reflexivity|]. split; [reflexivity|left; reflexivity].
Qed.
Print Assumptions C56_eof_twice_refuted.

(** * C57 *)

(** Text that was escaped for output is read back unchanged. *)
Theorem C57_text_round_trip switch cdata s e fuel : text_switch switch -> Chars false s e -> Forall (fun c => c <> 0xD) s -> fuel_for fuel e ->
  tokenize switch cdata match_ncr fuel tok_init e = Val (map TChar s ++ [TEof]).
Proof. intro S. apply (text_reads switch S). Qed.
Example C57_text_round_trip_ex : Chars false [0x61; 0x3C; 0x26; 0xA0; 0x3E; 0] (lit "a&lt;&amp;&nbsp;&gt;" ++ [0]).
Proof. apply (chars_spec false [0x61; 0x3C; 0x26; 0xA0; 0x3E; 0]). Qed.
Print Assumptions C57_text_round_trip.

(** The function that writes text for output gives that escaped form, and nothing else is one. *)
Theorem C57_escape b s e : e = escape_string s b <-> Chars b s e.
Proof. split; [intros ->; apply chars_spec|apply chars_fun]. Qed.
Example C57_escape_ex : escape_string [0x22; 0x3C; 0x26] true = lit "&quot;<&amp;".
Proof. reflexivity. Qed.
Print Assumptions C57_escape.

(** * C58 *)

(** A start tag with attributes is read back: the name, and the attributes with their values in order. *)
Theorem C58_start_tag_round_trip switch cdata name attrs ats a fuel : text_switch switch -> tag_name_ok name -> AttrsRead attrs ats -> Attrs attrs a ->
  fuel_for fuel (lit "<" ++ name ++ a ++ lit ">") ->
  tokenize switch cdata match_ncr fuel tok_init (lit "<" ++ name ++ a ++ lit ">") = Val [TStart (Tag name false ats); TEof].
Proof. intro S. apply (tag_reads switch S). Qed.
Example C58_start_tag_round_trip_ex :
  let attrs := [Attr 0 [] (lit "id") (lit "a""<>&"); Attr 4 [] (lit "href") []] in
  tag_name_ok (lit "svg") /\ AttrsRead attrs [Attribute (lit "id") (lit "a""<>&") false; Attribute (lit "xlink:href") [] false] /\
  Attrs attrs (lit " id=""a&quot;<>&amp;"" xlink:href=""""").
Proof.
  split; [exists 0x73, (lit "vg"); split; [reflexivity|]; split; [unfold name_start; lia|]; fz|].
  split; [|apply (attrs_spec [Attr 0 [] (lit "id") (lit "a""<>&"); Attr 4 [] (lit "href") []])].
  assert (K : forall a n, get_attributes_serialized_name a = n -> AttrNamed a n) by (intros a n <-; apply attr_named_spec).
  repeat (first [apply AR_nil | apply AR_cons]); try (apply K; reflexivity);
    try (split; [discriminate|]; split; [fz|fz]).
  - intros [].
  - intros [H|[]]. discriminate H.
Qed.
Print Assumptions C58_start_tag_round_trip.

Theorem C58_end_tag_round_trip switch cdata name fuel : text_switch switch -> tag_name_ok name -> fuel_for fuel (lit "</" ++ name ++ lit ">") ->
  tokenize switch cdata match_ncr fuel tok_init (lit "</" ++ name ++ lit ">") = Val [TEnd (Tag name false []); TEof].
Proof. intro S. apply (end_tag_reads switch S). Qed.
Example C58_end_tag_round_trip_ex : tag_name_ok (lit "h1").
Proof. exists 0x68, (lit "1"). split; [reflexivity|]. split; [unfold name_start; lia|]. fz. Qed.
Print Assumptions C58_end_tag_round_trip.

(** * C59 *)

(** Every comment that the syntax allows, without U+0000 and CR, is read back unchanged. *)
Theorem C59_comment_round_trip switch cdata d fuel : text_switch switch -> comment_ok d -> fuel_for fuel (lit "<!--" ++ d ++ lit "-->") ->
  tokenize switch cdata match_ncr fuel tok_init (lit "<!--" ++ d ++ lit "-->") = Val [TComment d; TEof].
Proof. intro S. apply (comment_reads switch S). Qed.
Example C59_comment_round_trip_ex : comment_ok (lit "<!-").
Proof.
  split; [fz|]. split; [intros r H; discriminate H|]. split; [intros r H; discriminate H|].
  split; intros [|a [|b [|c [|d p]]]] r H; try discriminate H; destruct p; discriminate H.
Qed.
Print Assumptions C59_comment_round_trip.

(** A U+0000 in a comment becomes a character token instead of a part of the comment. *)
Theorem C59_comment_null_refuted : exists d, tokenize never nowhere match_ncr 1000 tok_init (lit "<!--" ++ d ++ lit "-->") <> Val [TComment (map (fun c => if c =? 0 then 0xFFFD else c) d); TEof].
Proof. exists [0x61; 0; 0x62]. vm_compute. discriminate. Qed.
Print Assumptions C59_comment_null_refuted.

(** * C60 *)

Theorem C60_doctype_round_trip switch cdata n fuel : text_switch switch -> n <> [] -> Forall doctype_char n -> fuel_for fuel (lit "<!DOCTYPE " ++ n ++ lit ">") ->
  tokenize switch cdata match_ncr fuel tok_init (lit "<!DOCTYPE " ++ n ++ lit ">") = Val [TDoctype (Doctype n [] [] false); TEof].
Proof. intro S. apply (doctype_reads switch S). Qed.
Example C60_doctype_round_trip_ex : Forall doctype_char (lit "html").
Proof. fz. Qed.
Print Assumptions C60_doctype_round_trip.

(** * C61 *)

(** The lookup gives the longest name of the standard's table that the text starts with, and its code points. *)
Theorem C61_longest_name_partial b len cps : Forall (fun c => 0 <= c < 2^32) b -> match_ncr b = Some (len, cps) -> longest b len cps.
Proof. apply match_longest. Qed.
Example C61_longest_name_ex : match_ncr (lit "notit;") = Some (3%nat, [0xAC]) /\ match_ncr (lit "notin;") = Some (6%nat, [0x2209]) /\ match_ncr (lit "xyz") = Some (0%nat, []).
Proof. wit. Qed.
Print Assumptions C61_longest_name_partial.

(** Each name is found, whatever follows its semicolon. *)
Theorem C61_every_name n cps r : In (n, cps) standard_names -> last n 0 = 0x3B -> match_ncr (n ++ r) = Some (length n, cps).
Proof. apply match_semicolon. Qed.
Theorem C61_every_name_alone n cps : In (n, cps) standard_names -> match_ncr n = Some (length n, cps).
Proof. apply match_whole. Qed.
Example C61_every_name_ex : length standard_names = 2231%nat /\ In (lit "amp;", [0x26]) standard_names.
Proof. split; [vm_compute; reflexivity|]. apply written_standard. left. reflexivity. Qed.
Print Assumptions C61_every_name.
Print Assumptions C61_every_name_alone.

(** Text with references by name is read as the code points they stand for. *)
Theorem C61_references_in_text switch cdata e s fuel : text_switch switch -> Mixed e s -> fuel_for fuel e ->
  tokenize switch cdata match_ncr fuel tok_init e = Val (map TChar s ++ [TEof]).
Proof. intro S. apply (mixed_reads switch S). Qed.
Example C61_references_in_text_ex : Mixed (lit "a&lt;&nbsp;b") [0x61; 0x3C; 0xA0; 0x62].
Proof.
  apply Mx_char; [lia..|]. apply (Mx_name (lit "lt;") [0x3C] (lit "&nbsp;b") [0xA0; 0x62]); [apply written_standard; vm_compute; auto 10|reflexivity|].
  apply (Mx_name (lit "nbsp;") [0xA0] (lit "b") [0x62]); [apply written_standard; vm_compute; auto 10|reflexivity|]. apply Mx_char; [lia..|]. apply Mx_nil.
Qed.
Print Assumptions C61_references_in_text.

(** There is text on which the lookup reads outside its table. *)
Theorem C61_lookup_total_refuted : exists b, Forall (fun c => 0 <= c < 0x110000) b /\ match_ncr b = None.
Proof. exists (lit "zwnj<"). split; [fz|]. vm_compute. reflexivity. Qed.
Print Assumptions C61_lookup_total_refuted.

(** * C62 *)

(** What a number stands for (spec), HTML standard 13.2.5.80. *)
Inductive Stands : Z -> Z -> Prop :=
| St_null : Stands 0 0xFFFD
| St_large : forall c, 0x10FFFF < c -> Stands c 0xFFFD
| St_surrogate : forall c, 0xD800 <= c <= 0xDFFF -> Stands c 0xFFFD
| St_control : forall c x, In (c, x)
    [(0x80, 0x20AC); (0x82, 0x201A); (0x83, 0x0192); (0x84, 0x201E); (0x85, 0x2026); (0x86, 0x2020); (0x87, 0x2021);
     (0x88, 0x02C6); (0x89, 0x2030); (0x8A, 0x0160); (0x8B, 0x2039); (0x8C, 0x0152); (0x8E, 0x017D); (0x91, 0x2018);
     (0x92, 0x2019); (0x93, 0x201C); (0x94, 0x201D); (0x95, 0x2022); (0x96, 0x2013); (0x97, 0x2014); (0x98, 0x02DC);
     (0x99, 0x2122); (0x9A, 0x0161); (0x9B, 0x203A); (0x9C, 0x0153); (0x9E, 0x017E); (0x9F, 0x0178)] -> Stands c x
| St_same : forall c, 0 < c <= 0x10FFFF -> ~ (0xD800 <= c <= 0xDFFF) ->
    ~ (0x80 <= c <= 0x9F /\ ~ In c [0x81; 0x8D; 0x8F; 0x90; 0x9D]) -> Stands c c.

Theorem C62_code_partial c : 0 <= c < 2^32 -> Stands c (reference_code c) /\ forall x, Stands c x -> x = reference_code c.
Proof.
  intro H.
  assert (T : forall x, In (c, x) character_reference_code_tbl -> x = reference_code c /\ 0x80 <= c <= 0x9F /\ ~ In c [0x81; 0x8D; 0x8F; 0x90; 0x9D]).
  { intros x Hin.
    assert (K : forallb (fun e => (snd e =? reference_code (fst e)) && (0x80 <=? fst e) && (fst e <=? 0x9F) &&
      forallb (fun y => negb (y =? fst e)) [0x81; 0x8D; 0x8F; 0x90; 0x9D]) character_reference_code_tbl = true) by (vm_compute; reflexivity).
    rewrite forallb_forall in K. apply K in Hin. cbn [fst snd] in Hin. rewrite !andb_true_iff in Hin. destruct Hin as [[[A B] C] D].
    split; [lia|]. split; [lia|]. intro X. rewrite forallb_forall in D. apply D in X. rewrite Z.eqb_refl in X. discriminate. }
  destruct (find (fun e => fst e =? c) character_reference_code_tbl) as [[c1 x1]|] eqn:E.
  - pose proof E as E0. apply find_some in E. destruct E as [E1 E2]. cbn [fst] in E2. apply Z.eqb_eq in E2. subst c1. destruct (T _ E1) as (Ex & Hr & Ni).
    rewrite <- Ex. split; [apply St_control; exact E1|]. intros x S. destruct S as [|c L|c R|c x Hin|c L R K]; try lia.
    + apply T in Hin. destruct Hin as [-> _]. symmetry. exact Ex.
    + exfalso. apply K. split; assumption.
  - assert (Nin : forall x, ~ In (c, x) character_reference_code_tbl).
    { intros x Hin. apply (find_none _ _ E) in Hin. cbn [fst] in Hin. rewrite Z.eqb_refl in Hin. discriminate. }
    assert (Nc : ~ (0x80 <= c <= 0x9F /\ ~ In c [0x81; 0x8D; 0x8F; 0x90; 0x9D])).
    { intros [Hr Ni]. assert (K : forallb (fun i => let c := Z.of_nat i in existsb (fun y => y =? c) [0x81; 0x8D; 0x8F; 0x90; 0x9D] ||
        existsb (fun e => fst e =? c) character_reference_code_tbl) (seq 0x80 32) = true) by (vm_compute; reflexivity).
      rewrite forallb_forall in K. specialize (K (Z.to_nat c)). cbv zeta in K. rewrite Z2Nat.id in K by lia.
      assert (K1 := K ltac:(apply in_seq; lia)). apply orb_true_iff in K1. destruct K1 as [K1|K1]; apply existsb_exists in K1.
      - destruct K1 as (y & Hy & Ey). apply Z.eqb_eq in Ey. subst y. contradiction.
      - destruct K1 as ([y x] & Hy & Ey). cbn [fst] in Ey. apply Z.eqb_eq in Ey. subst y. eapply Nin; exact Hy. }
    unfold reference_code. rewrite E. unfold is_surrogate.
    destruct (Z.eqb_spec c 0) as [->|N0]; [split; [constructor|]; intros x S; inversion S as [| | |y z Hin|]; subst; try lia; try reflexivity; exfalso; eapply Nin; exact Hin|].
    destruct (Z.ltb_spec 0x10FFFF c) as [L|L].
    + replace ((0xD800 <=? c) && (c <=? 0xDFFF)) with false by lia. split; [constructor; exact L|].
      intros x S; inversion S as [| | |y z Hin|]; subst; try lia; try reflexivity; exfalso; eapply Nin; exact Hin.
    + destruct ((0xD800 <=? c) && (c <=? 0xDFFF)) eqn:Su.
      * split; [apply St_surrogate; lia|]. intros x S; inversion S as [| | |y z Hin|]; subst; try lia; try reflexivity; exfalso; eapply Nin; exact Hin.
      * split; [apply St_same; [lia|lia|exact Nc]|]. intros x S; inversion S as [| | |y z Hin|]; subst; try lia; try reflexivity; exfalso; eapply Nin; exact Hin.
Qed.
Example C62_code_ex : reference_code 0x80 = 0x20AC /\ reference_code 0x41 = 0x41 /\ reference_code 0xDABC = 0xFFFD.
Proof. wit. Qed.
Print Assumptions C62_code_partial.

(** The number wraps around at 2^32: a reference to no code point is read as a letter. *)
Theorem C62_overflow_refuted : exists text l, text = lit "&#x100000041;x" /\ tokenize never nowhere match_ncr 1000 tok_init text = Val l /\ In (TChar 0x41) l.
Proof. eexists. eexists. split; [reflexivity|]. split; [vm_compute; reflexivity|]. vm_compute. auto. Qed.
Print Assumptions C62_overflow_refuted.

(** Characters after references by number are lost. *)
Theorem C62_lost_refuted : exists text, text = lit "&#65;b&#66;cd" /\ tokenize never nowhere match_ncr 1000 tok_init text <> Val (map TChar (lit "AbBcd") ++ [TEof]).
Proof. eexists. split; [reflexivity|]. vm_compute. discriminate. Qed.
Print Assumptions C62_lost_refuted.

(** * C63 *)

(** The text written for a tree is read as the tokens of the tree, in order. *)
Theorem C63_tree_round_trip cdata n toks fuel1 fuel2 : Row (children n) toks -> is_element n = true \/ (forall d, ~ In (NText d) (children n)) ->
  ~ Raw n -> ~ Void n -> (sizes (children n) < fuel1)%nat ->
  exists out, to_string fuel1 n = Val out /\
    (fuel_for fuel2 out -> tokenize by_name cdata match_ncr fuel2 tok_init out = Val (toks ++ [TEof])).
Proof. apply (tree_round_trip cdata). Qed.
Definition sample : node :=
  NDocument [NDoctype (lit "html");
    NElement 1 [] (lit "p") [Attr 0 [] (lit "id") (lit "a&b")]
      [NText (lit "x<y"); NElement 1 [] (lit "br") [] []; NComment (lit "-c"); NElement 1 [] (lit "style") [] [NText (lit "a>b")];
       NElement 1 [] (lit "title") [] [NText (lit "<b>")]; NInstruction (lit "t") (lit "d")]].
Example C63_tree_round_trip_ex :
  to_string 100 sample = Val (lit "<!DOCTYPE html><p id=""a&amp;b"">x&lt;y<br><!---c--><style>a>b</style><title>&lt;b&gt;</title><?t d></p>") /\
  Row (children sample) ([TDoctype (Doctype (lit "html") [] [] false)] ++
    (TStart (Tag (lit "p") false [Attribute (lit "id") (lit "a&b") false]) ::
     (map TChar (lit "x<y") ++ [TStart (Tag (lit "br") false [])] ++ [TComment (lit "-c")] ++
      (TStart (Tag (lit "style") false []) :: map TChar (lit "a>b") ++ [TEnd (Tag (lit "style") false [])]) ++
      (TStart (Tag (lit "title") false []) :: map TChar (lit "<b>") ++ [TEnd (Tag (lit "title") false [])]) ++
      [TComment (lit "?" ++ lit "t" ++ lit " " ++ lit "d")] ++ []) ++ [TEnd (Tag (lit "p") false [])]) ++ []).
Proof.
  assert (K : forall a n, get_attributes_serialized_name a = n -> AttrNamed a n) by (intros a n <-; apply attr_named_spec).
  assert (Nm : forall l a c, Named (NElement 1 [] l a c) l) by (intros; constructor; auto).
  split; [vm_compute; reflexivity|]. unfold sample. cbn [children].
  apply Row_cons; [apply R_doctype; [discriminate|fz]|].
  apply Row_cons; [|apply Row_nil].
  apply R_element.
  - intros [_ H]. vm_compute in H. intuition discriminate.
  - apply Nm.
  - apply AR_cons; [apply K; reflexivity| |apply AR_nil|intros []]. split; [discriminate|]. split; fz.
  - exists 0x70, []. split; [reflexivity|]. split; [unfold name_start; lia|constructor].
  - vm_compute. intuition discriminate.
  - apply Row_cons; [apply R_text; fz|].
    apply Row_cons; [apply R_void; [split; [reflexivity|vm_compute; tauto]|apply Nm|apply AR_nil]|].
    apply Row_cons.
    { apply R_comment. split; [fz|]. split; [intros r H; discriminate H|]. split; [intros r H; discriminate H|].
      split; intros [|a [|b [|c p]]] r H; try discriminate H; destruct p; discriminate H. }
    apply Row_cons; [apply (R_raw [] (lit "style") [] [NText (lit "a>b")] [] (lit "a>b")); [apply AR_nil|vm_compute; tauto|apply (Tx_cons (lit "a>b") [] []); constructor|fz|vm_compute; repeat split; try lia; intros; discriminate]|].
    apply Row_cons; [apply (R_rcdata 1 [] (lit "title") [] [NText (lit "<b>")] (lit "title") [] (lit "<b>")); [apply Nm|apply AR_nil|vm_compute; tauto|apply (Tx_cons (lit "<b>") [] []); constructor|fz]|].
    apply Row_cons; [apply R_instruction; fz|apply Row_nil].
Qed.
Print Assumptions C63_tree_round_trip.

(** * C64 *)

(** The serialiser writes the markup of the children of a node, and that is determined. *)
Theorem C64_serialize_partial n fuel : forallb (good n) (children n) = true -> Tidies (children n) -> ~ Void n -> (sizes (children n) < fuel)%nat ->
  exists out, to_string fuel n = Val out /\ Inside n (children n) out /\ forall other, Inside n (children n) other -> other = out.
Proof.
  intros G T V F. destruct (to_string_markup n fuel G T V F) as (out & E & I). exists out. split; [exact E|]. split; [exact I|].
  intros other H. exact (proj2 markup_fun _ _ _ H _ I).
Qed.
Example C64_serialize_ex : forallb (good sample) (children sample) = true /\ (sizes (children sample) < 100)%nat /\ Tidies (children sample).
Proof.
  split; [vm_compute; reflexivity|]. split; [vm_compute; lia|]. repeat constructor; cbn [Tidy]; intros [_ H]; vm_compute in H; intuition discriminate.
Qed.
Print Assumptions C64_serialize_partial.

(** Text directly in a document or fragment is an assertion failure. *)
Theorem C64_text_in_fragment_refuted : exists n, (exists out, Inside n (children n) out) /\ to_string 100 n = Bad.
Proof.
  exists (NDocument [NText (lit "a")]). split; [|vm_compute; reflexivity]. exists (lit "a" ++ []). apply In_cons; [|apply In_nil].
  apply Mk_text; [intros []|apply (chars_spec false (lit "a"))].
Qed.
Print Assumptions C64_text_in_fragment_refuted.

(** The children of a void element are written. *)
Theorem C64_void_children_refuted : exists n out other, to_string 100 n = Val out /\ Inside n (children n) other /\ out <> other.
Proof.
  exists (NDocument [NElement 1 [] (lit "br") [] [NComment (lit "a")]]), (lit "<br><!--a-->"), (lit "<br>" ++ []).
  split; [vm_compute; reflexivity|]. split; [|vm_compute; discriminate]. apply In_cons; [|apply In_nil].
  apply (Mk_void _ _ (lit "br") [] [] 1 [] (lit "br") [NComment (lit "a")]); [reflexivity|constructor; auto|constructor|split; [reflexivity|vm_compute; tauto]].
Qed.
Print Assumptions C64_void_children_refuted.

(** * C65 *)

(** Between the tags of a script, every code point arrives as a character, unless [<] is followed by [/] or an exclamation mark. *)
Theorem C65_script_partial cdata d fuel : Forall (fun c => c <> 0 /\ c <> 0xD) d -> no_follow 0x2F d -> no_follow 0x21 d ->
  fuel_for fuel (lit "<script>" ++ d ++ lit "</script>") ->
  tokenize by_name cdata match_ncr fuel tok_init (lit "<script>" ++ d ++ lit "</script>")
  = Val (TStart (Tag (lit "script") false []) :: map TChar d ++ [TEnd (Tag (lit "script") false []); TEof]).
Proof.
  intros F N1 N2 Fu. set (n := NDocument [NElement 1 [] (lit "script") [] [NText d]]).
  assert (R : Row (children n) ((TStart (Tag (lit "script") false []) :: map TChar d ++ [TEnd (Tag (lit "script") false [])]) ++ [])).
  { apply Row_cons; [|apply Row_nil]. apply R_script; [apply AR_nil| |exact F|exact N1|exact N2].
    assert (E : d = d ++ []) by (rewrite app_nil_r; reflexivity). rewrite E at 2. apply Tx_cons. constructor. }
  assert (V : forall l, ~ Void (NDocument l)) by (intros l H; exact H).
  destruct (C63_tree_round_trip cdata n _ 100 fuel R) as (out & E & H).
  - right. intros x [K|[]]. discriminate K.
  - intro K; exact K.
  - apply V.
  - vm_compute. lia.
  - assert (G : forallb (good n) (children n) = true) by reflexivity.
    assert (T : Tidies (children n)) by (repeat constructor; cbn [Tidy]; intros [_ K]; vm_compute in K; intuition discriminate).
    destruct (to_string_markup n 100 G T (V _)) as (out' & E' & I); [vm_compute; lia|].
    rewrite E in E'. injection E' as <-.
    assert (I2 : Inside n (children n) (lit "<script>" ++ d ++ lit "</script>")).
    { assert (Q : lit "<script>" ++ d ++ lit "</script>" = (lit "<" ++ lit "script" ++ [] ++ lit ">" ++ (d ++ []) ++ lit "</" ++ lit "script" ++ lit ">") ++ [])
        by (rewrite !app_nil_r; reflexivity).
      rewrite Q. apply In_cons; [|apply In_nil].
      eapply Mk_element; [reflexivity|constructor; auto|constructor| |apply In_cons; [apply Mk_raw|apply In_nil]].
      - intros [_ K]. vm_compute in K. intuition discriminate.
      - split; [reflexivity|vm_compute; tauto]. }
    pose proof (proj2 markup_fun _ _ _ I2 _ I) as Q. rewrite <- Q in H. rewrite (H Fu). rewrite app_nil_r. cbn [app]. rewrite <- app_assoc. reflexivity.
Qed.
Example C65_script_ex : Forall (fun c => c <> 0 /\ c <> 0xD) (lit "if(a<b)&amp;") /\ no_follow 0x2F (lit "if(a<b)&amp;") /\ no_follow 0x21 (lit "if(a<b)&amp;").
Proof. split; [fz|]. split; vm_compute; repeat split; intros; discriminate. Qed.
Print Assumptions C65_script_partial.

(** In the script data double escape start state anything that is not a letter goes to the attribute states: what follows in the
    script is read as attributes of the start tag, and that tag is emitted again. *)
Theorem C65_second_start_refuted : exists text l a b, text = lit "<script><!--<b x>y--></script>" /\
  tokenize by_name nowhere match_ncr 1000 tok_init text = Val l /\
  l = TStart (Tag (lit "script") false []) :: a ++ TStart (Tag (lit "script") false [Attribute (lit "x") [] false]) :: b.
Proof.
  exists (lit "<script><!--<b x>y--></script>").
  destruct (tokenize by_name nowhere match_ncr 1000 tok_init (lit "<script><!--<b x>y--></script>")) as [l| |] eqn:E; vm_compute in E; try discriminate E.
  exists l. injection E as <-.
  let r := eval vm_compute in (map TChar (lit "<!--<b ")) in exists r. eexists. split; [reflexivity|]. split; [reflexivity|]. vm_compute. reflexivity.
Qed.
Print Assumptions C65_second_start_refuted.
