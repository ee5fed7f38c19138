(** Reading a whole text as the HTML standard says, the states that look ahead included, and the tokeniser held against it. *)
From Coq Require Import ZArith List Bool Lia String.
From Verif Require Import M_infra M_encoding M_labels M_html M_html_ncr L_html_names L_html_ncr3 L_html1 L_html2 L_html3 L_html4 L_html6 L_html9 L_html10 L_html14.
Import ListNotations.
Open Scope string_scope.
Open Scope list_scope.
Open Scope Z_scope.
Open Scope html_scope.

Definition lower (c : Z) : Z := if between 0x41 0x5A c then c + 0x20 else c.
(** a prefix of the text, ASCII case-insensitively *)
Definition word (w : string) (p : list Z) : Prop := map lower p = lit w.

(** What a number stands for, 13.2.5.80. *)
Inductive Number : Z -> Z -> Prop :=
| Nm_null : Number 0 0xFFFD
| Nm_large : forall c, 0x10FFFF < c -> Number c 0xFFFD
| Nm_surrogate : forall c, 0xD800 <= c <= 0xDFFF -> Number c 0xFFFD
| Nm_control : forall c x, In (c, x)
    [(0x80, 0x20AC); (0x82, 0x201A); (0x83, 0x0192); (0x84, 0x201E); (0x85, 0x2026); (0x86, 0x2020); (0x87, 0x2021);
     (0x88, 0x02C6); (0x89, 0x2030); (0x8A, 0x0160); (0x8B, 0x2039); (0x8C, 0x0152); (0x8E, 0x017D); (0x91, 0x2018);
     (0x92, 0x2019); (0x93, 0x201C); (0x94, 0x201D); (0x95, 0x2022); (0x96, 0x2013); (0x97, 0x2014); (0x98, 0x02DC);
     (0x99, 0x2122); (0x9A, 0x0161); (0x9B, 0x203A); (0x9C, 0x0153); (0x9E, 0x017E); (0x9F, 0x0178)] -> Number c x
| Nm_same : forall c, c <> 0 -> c <= 0x10FFFF -> ~ (0xD800 <= c <= 0xDFFF) ->
    ~ (0x80 <= c <= 0x9F /\ ~ In c [0x81; 0x8D; 0x8F; 0x90; 0x9D]) -> Number c c.

Section Read.
Variable switch : list token -> option state.
Variable cdata : list token -> bool.

(** the character after a name: "=" or an ASCII alphanumeric *)
Definition goes_on (r : list Z) : Prop := exists c q, r = c :: q /\ (c = 0x3D \/ holds Alnum c = true).

(** One step of reading. *)
Inductive StdStep (t : tok) : list Z -> pull -> Prop :=
| Ss_char : forall c r t1 b, std_step switch t (Some c) = Some (t1, b) -> StdStep t (c :: r) (Next t1 (if b : bool then c :: r else r))
| Ss_eof_again : forall t1, std_step switch t None = Some (t1, true) -> StdStep t [] (Next t1 [])
| Ss_eof : forall t1, std_step switch t None = Some (t1, false) -> StdStep t [] (Halt t1)
(* 13.2.5.42, markup declaration open *)
| Ss_comment : forall r, t_state t = markup_declaration_open_state ->
    StdStep t (lit "--" ++ r) (Next (put comment_start_state (with_comment (fun _ => []) t)) r)
| Ss_doctype : forall w r, t_state t = markup_declaration_open_state -> word "doctype" w -> StdStep t (w ++ r) (Next (put DOCTYPE_state t) r)
| Ss_cdata : forall r, t_state t = markup_declaration_open_state -> cdata (t_out t) = true -> StdStep t (lit "[CDATA[" ++ r) (Next (put CDATA_section_state t) r)
| Ss_no_cdata : forall r, t_state t = markup_declaration_open_state -> cdata (t_out t) = false ->
    StdStep t (lit "[CDATA[" ++ r) (Next (put bogus_comment_state (with_comment (fun _ => lit "[CDATA[") t)) r)
| Ss_bogus : forall r, t_state t = markup_declaration_open_state -> (forall q, r <> lit "--" ++ q) -> (forall w q, word "doctype" w -> r <> w ++ q) ->
    (forall q, r <> lit "[CDATA[" ++ q) -> StdStep t r (Next (put bogus_comment_state (with_comment (fun _ => []) t)) r)
(* 13.2.5.56, after DOCTYPE name *)
| Ss_after_eof : t_state t = after_DOCTYPE_name_state ->
    StdStep t [] (Halt (let t1 := with_doctype (fun d => Doctype (d_name d) (d_public d) (d_system d) true) t in out_more [TDoctype (t_doctype t1); TEof] t1))
| Ss_after_space : forall c r, t_state t = after_DOCTYPE_name_state -> In c spaces -> StdStep t (c :: r) (Next t r)
| Ss_after_end : forall r, t_state t = after_DOCTYPE_name_state -> StdStep t (0x3E :: r) (Next (out_more [TDoctype (t_doctype t)] (put data_state t)) r)
| Ss_public : forall w r, t_state t = after_DOCTYPE_name_state -> word "public" w -> StdStep t (w ++ r) (Next (put after_DOCTYPE_public_keyword_state t) r)
| Ss_system : forall w r, t_state t = after_DOCTYPE_name_state -> word "system" w -> StdStep t (w ++ r) (Next (put after_DOCTYPE_system_keyword_state t) r)
| Ss_after_other : forall c r, t_state t = after_DOCTYPE_name_state -> ~ In c spaces -> c <> 0x3E -> (forall w q, word "public" w -> c :: r <> w ++ q) ->
    (forall w q, word "system" w -> c :: r <> w ++ q) ->
    StdStep t (c :: r) (Next (put bogus_DOCTYPE_state (with_doctype (fun d => Doctype (d_name d) (d_public d) (d_system d) true) t)) (c :: r))
(* 13.2.5.73, named character reference *)
| Ss_no_name : forall r t1, t_state t = named_character_reference_state -> longest r 0 [] -> flush_buffer t = Some t1 ->
    StdStep t r (Next (put ambiguous_ampersand_state t1) r)
| Ss_legacy : forall n r cps s t1, t_state t = named_character_reference_state -> n <> [] -> longest (n ++ r) (List.length n) cps ->
    in_attribute t = true -> last n 0 <> 0x3B -> goes_on r -> t_return t = Some s -> flush_buffer (with_tmp (fun b => b ++ n) t) = Some t1 ->
    StdStep t (n ++ r) (Next (put s t1) r)
| Ss_name : forall n r cps s t1, t_state t = named_character_reference_state -> n <> [] -> longest (n ++ r) (List.length n) cps ->
    ~ (in_attribute t = true /\ last n 0 <> 0x3B /\ goes_on r) -> t_return t = Some s -> flush_buffer (with_tmp (fun _ => cps) t) = Some t1 ->
    StdStep t (n ++ r) (Next (put s t1) r)
(* 13.2.5.80, numeric character reference end *)
| Ss_number : forall r x s t1, t_state t = numeric_character_reference_end_state -> Number (t_code t) x -> t_return t = Some s ->
    flush_buffer (with_tmp (fun _ => [x]) (with_code (fun _ => x) t)) = Some t1 -> StdStep t r (Next (put s t1) r).

Inductive StdSteps : tok -> list Z -> tok -> list Z -> Prop :=
| Ss_refl : forall t r, StdSteps t r t r
| Ss_more : forall t r t1 r1 t2 r2, StdStep t r (Next t1 r1) -> StdSteps t1 r1 t2 r2 -> StdSteps t r t2 r2.
(** The text is read to its end. *)
Definition StdReads (t : tok) (r : list Z) (t' : tok) : Prop := exists t1 r1, StdSteps t r t1 r1 /\ StdStep t1 r1 (Halt t').

(** ** The labels *)
Lemma label_exact l b : match_label l b false = true <-> exists q, b = l ++ q.
Proof.
  revert b. induction l as [|x l IH]; intro b; cbn [match_label]; [split; [intros _; exists b; reflexivity|reflexivity]|]. destruct b as [|c b]; [split; [discriminate|intros (q & H); discriminate H]|].
  cbn [andb]. rewrite andb_true_iff, IH, Z.eqb_eq. split.
  - intros (E & y & K). subst. exists y. reflexivity.
  - intros (y & H). injection H as E K. subst. split; [reflexivity|]. exists y. reflexivity.
Qed.
Lemma label_word l b : match_label l b true = true <-> exists w q, b = w ++ q /\ map lower w = l.
Proof.
  revert b. induction l as [|x l IH]; intro b; cbn [match_label].
  - split; [exists [], b; auto|reflexivity].
  - destruct b as [|c b]; [split; [discriminate|intros (w & q & H & K); destruct w; [discriminate K|discriminate H]]|]. cbn [andb].
    change (if is_ascii_upper_alpha c then c + 0x20 else c) with (lower c). rewrite andb_true_iff, IH, Z.eqb_eq. split.
    + intros (E & w & q & -> & K). exists (c :: w), q. split; [reflexivity|]. cbn [map]. congruence.
    + intros (w & q & H & K). destruct w as [|d w]; [discriminate K|]. cbn [map] in K. injection K as K1 K2. injection H as -> ->. split; [exact K1|]. eauto.
Qed.
Lemma label_none l b : match_label l b true = false -> forall w q, map lower w = l -> b <> w ++ q.
Proof. intros H w q K E. assert (X : match_label l b true = true) by (apply label_word; eauto). congruence. Qed.
Lemma label_not l b : match_label l b false = false -> forall q, b <> l ++ q.
Proof. intros H q E. assert (X : match_label l b false = true) by (apply label_exact; eauto). congruence. Qed.
Lemma skip_word l w q : map lower w = l -> skipn (List.length l) (w ++ q) = q.
Proof. intros <-. rewrite map_length, skipn_app, Nat.sub_diag, skipn_all. reflexivity. Qed.

Lemma number_of c : Number c (reference_code c).
Proof.
  unfold reference_code. destruct (find (fun e => fst e =? c) character_reference_code_tbl) as [[a x]|] eqn:E.
  - apply find_some in E. destruct E as [E K]. cbn [fst snd] in *. apply Z.eqb_eq in K. subst a. apply Nm_control. exact E.
  - assert (T : ~ (0x80 <= c <= 0x9F /\ ~ In c [0x81; 0x8D; 0x8F; 0x90; 0x9D])).
    { intros [R N]. pose proof (find_none _ _ E) as F. cbn [In] in N.
      assert (c = 128 \/ c = 130 \/ c = 131 \/ c = 132 \/ c = 133 \/ c = 134 \/ c = 135 \/ c = 136 \/ c = 137 \/ c = 138 \/ c = 139 \/ c = 140 \/ c = 142 \/ c = 145 \/ c = 146 \/ c = 147 \/ c = 148
        \/ c = 149 \/ c = 150 \/ c = 151 \/ c = 152 \/ c = 153 \/ c = 154 \/ c = 155 \/ c = 156 \/ c = 158 \/ c = 159) as X by lia.
      clear R N. repeat (destruct X as [X|X]; [subst c; discriminate E|]). subst c. discriminate E. }
    cbv zeta. unfold is_surrogate. destruct ((0xD800 <=? c) && (c <=? 0xDFFF)) eqn:S1; [apply Nm_surrogate; lia|].
    destruct (0x10FFFF <? c) eqn:S2; [apply Nm_large; lia|]. destruct (c =? 0) eqn:S3; [assert (c = 0) as -> by lia; apply Nm_null|]. apply Nm_same; try lia. exact T.
Qed.

Lemma firstn_split {A} n (l : list A) : l = firstn n l ++ skipn n l.
Proof. symmetry. apply firstn_skipn. Qed.
Lemma nth_last (r : list Z) k x : nth_error r k = Some x -> firstn (S k) r <> [] /\ last (firstn (S k) r) 0 = x /\ List.length (firstn (S k) r) = S k.
Proof.
  revert r. induction k as [|k IH]; intros [|c r] H; try discriminate H; cbn [nth_error] in H.
  - injection H as ->. cbn. split; [discriminate|auto].
  - destruct (IH r H) as (A & B & C). rewrite (firstn_cons (S k)). split; [discriminate|]. split; [|cbn [List.length]; lia]. destruct (firstn (S k) r) eqn:E; [contradiction|]. exact B.
Qed.
Lemma with_attr_return f t t1 : with_attr f t = Some t1 -> t_return t1 = t_return t.
Proof. apply with_tag_return. Qed.

Lemma some_inj {A} (x y : A) : Some x = Some y -> y = x.
Proof. congruence. Qed.
Lemma step_ok t r p : pstep switch cdata match_ncr t r = Some p -> ~ Departs t (hd_error r) -> Forall (fun c => 0 <= c < 2 ^ 32) r -> StdStep t r p.
Proof.
  intros H D W. destruct (waits (t_state t)) eqn:Ew.
  - unfold pstep in H. destruct (t_state t) eqn:Es; try discriminate Ew; clear Ew D.
    + apply some_inj in H; subst p. destruct (match_label str_dashes r false) eqn:E1.
      { apply label_exact in E1. destruct E1 as (q & ->). rewrite set_put. replace (set_comment [] t) with (with_comment (fun _ => []) t) by (destruct t; reflexivity). exact (Ss_comment t q Es). }
      destruct (match_label str_doctype r true) eqn:E2.
      { apply label_word in E2. destruct E2 as (w & q & -> & K). assert (X := skip_word _ w q K). cbn [List.length str_doctype] in X. rewrite X, set_put. apply Ss_doctype; [exact Es|exact K]. }
      destruct (match_label str_cdata r false) eqn:E3.
      { apply label_exact in E3. destruct E3 as (q & ->). rewrite !set_put. destruct (cdata (t_out t)) eqn:Ec; [exact (Ss_cdata t q Es Ec)|].
        replace (set_comment str_cdata t) with (with_comment (fun _ => str_cdata) t) by (destruct t; reflexivity). exact (Ss_no_cdata t q Es Ec). }
      rewrite set_put. replace (set_comment [] t) with (with_comment (fun _ => []) t) by (destruct t; reflexivity).
      apply Ss_bogus; [exact Es|exact (label_not _ _ E1)|exact (label_none _ _ E2)|exact (label_not _ _ E3)].
    + apply some_inj in H; subst p. destruct r as [|c r].
      { replace (emit_eof (emit_doctype (set_quirks t))) with (let t1 := with_doctype (fun d => Doctype (d_name d) (d_public d) (d_system d) true) t in out_more [TDoctype (t_doctype t1); TEof] t1).
        - apply Ss_after_eof, Es.
        - destruct t. unfold emit_eof, emit_doctype, emit, set_quirks, set_out. cbn. rewrite <- app_assoc. reflexivity. }
      assert (Sp : is_space c = true <-> In c spaces).
      { rewrite <- among_spaces. cbn [holds]. destruct (in_dec Z.eq_dec c spaces); split; auto; discriminate. }
      destruct (is_space c) eqn:E0; [apply Ss_after_space; [exact Es|apply Sp; reflexivity]|].
      destruct (c =? 0x3E) eqn:E1.
      { apply Z.eqb_eq in E1. subst c. replace (emit_doctype (set_state data_state t)) with (out_more [TDoctype (t_doctype t)] (put data_state t)) by (destruct t; reflexivity). apply Ss_after_end, Es. }
      destruct (match_label str_public (c :: r) true) eqn:E2.
      { apply label_word in E2. destruct E2 as (w & q & E & K). rewrite E. assert (X := skip_word _ w q K). cbn [List.length str_public] in X. rewrite X, set_put. apply Ss_public; [exact Es|exact K]. }
      destruct (match_label str_system (c :: r) true) eqn:E3.
      { apply label_word in E3. destruct E3 as (w & q & E & K). rewrite E. assert (X := skip_word _ w q K). cbn [List.length str_system] in X. rewrite X, set_put. apply Ss_system; [exact Es|exact K]. }
      replace (set_state bogus_DOCTYPE_state (set_quirks t)) with (put bogus_DOCTYPE_state (with_doctype (fun d => Doctype (d_name d) (d_public d) (d_system d) true) t)) by (destruct t; reflexivity).
      apply Ss_after_other; [exact Es|intro I; apply Sp in I; discriminate|lia|exact (label_none _ _ E2)|exact (label_none _ _ E3)].
    + destruct (match_ncr r) as [[[|k] a]|] eqn:Em; [| |discriminate H].
      * pose proof (match_longest _ _ _ W Em) as L. rewrite flush_same in H. destruct (flush_buffer t) as [t1|] eqn:Ef; [|discriminate H]. apply some_inj in H; subst p. rewrite set_put.
        assert (a = []) as ->. { destruct L as [(_ & L & _)|(n & I & _ & Ln & _)]; [exact L|]. destruct n; [|discriminate Ln]. pose proof (match_whole _ _ I) as Q. vm_compute in Q. congruence. }
        exact (Ss_no_name t r t1 Es L Ef).
      * pose proof (match_longest _ _ _ W Em) as L. destruct (nth_error r k) as [x|] eqn:En; [|discriminate H]. destruct (nth_last _ _ _ En) as (N1 & N2 & N3). cbv zeta in H.
        rewrite flush_same in H. change consumed_as_part_of_attribute with in_attribute in H.
        assert (L2 : longest (firstn (S k) r ++ skipn (S k) r) (List.length (firstn (S k) r)) a) by (rewrite firstn_skipn, N3; exact L).
        rewrite (firstn_split (S k) r) at 1. set (n := firstn (S k) r) in *. set (q := skipn (S k) r) in *.
        assert (Ia : in_attribute (set_tmp (t_tmp t ++ n) t) = in_attribute t) by (destruct t; reflexivity). rewrite Ia in H.
        match type of H with context [if ?b then _ else _] => set (keep := b) in H end.
        assert (Kp : keep = true <-> in_attribute t = true /\ last n 0 <> 0x3B /\ goes_on q).
        { unfold keep. rewrite N2. destruct q as [|c q']; [split; [discriminate|intros (_ & _ & c & q & X & _); discriminate X]|].
          rewrite !andb_true_iff, orb_true_iff, negb_true_iff. change (is_ascii_alphanumeric c) with (between 48 57 c || (between 65 90 c || between 97 122 c)).
          split.
          - intros ((A & B) & C). split; [exact A|]. split; [lia|]. exists c, q'. split; [reflexivity|]. cbn [holds]. rewrite <- orb_assoc. destruct C as [C|C]; [left; lia|right; exact C].
          - intros (A & B & c0 & q0 & X & C). injection X as <- <-. cbn [holds] in C. rewrite <- orb_assoc in C. split; [split; [exact A|lia]|]. destruct C as [C|C]; [left; lia|right; exact C]. }
        destruct keep.
        -- destruct (proj1 Kp eq_refl) as (A & B & C). replace (set_tmp (t_tmp t ++ n) t) with (with_tmp (fun b => b ++ n) t) in H by (destruct t; reflexivity).
           destruct (flush_buffer (with_tmp (fun b => b ++ n) t)) as [t3|] eqn:Ef; [|discriminate H]. pose proof (flush_return _ _ Ef) as R.
           replace (t_return (with_tmp (fun b => b ++ n) t)) with (t_return t) in R by (destruct t; reflexivity).
           unfold to_return in H. rewrite R in H. destruct (t_return t) as [s|] eqn:Er; [|discriminate H]. apply some_inj in H; subst p. rewrite set_put. exact (Ss_legacy t n q a s t3 Es N1 L2 A B C Er Ef).
        -- replace (set_tmp a (set_tmp (t_tmp t ++ n) t)) with (with_tmp (fun _ => a) t) in H by (destruct t; reflexivity).
           destruct (flush_buffer (with_tmp (fun _ => a) t)) as [t3|] eqn:Ef; [|discriminate H]. pose proof (flush_return _ _ Ef) as R.
           replace (t_return (with_tmp (fun _ => a) t)) with (t_return t) in R by (destruct t; reflexivity).
           unfold to_return in H. rewrite R in H. destruct (t_return t) as [s|] eqn:Er; [|discriminate H]. apply some_inj in H; subst p. rewrite set_put.
           apply (Ss_name t n q a s t3 Es N1 L2); [|exact Er|exact Ef]. intro X. apply Kp in X. discriminate X.
    + cbv zeta in H. rewrite flush_same in H. set (x := reference_code (t_code t)) in *.
      replace (set_tmp [x] (set_code x t)) with (with_tmp (fun _ => [x]) (with_code (fun _ => x) t)) in H by (destruct t; reflexivity).
      destruct (flush_buffer _) as [t3|] eqn:Ef; [|discriminate H]. pose proof (flush_return _ _ Ef) as R.
      replace (t_return (with_tmp (fun _ => [x]) (with_code (fun _ => x) t))) with (t_return t) in R by (destruct t; reflexivity).
      unfold to_return in H. rewrite R in H. destruct (t_return t) as [s|] eqn:Er; [|discriminate H]. apply some_inj in H; subst p. rewrite set_put.
      exact (Ss_number t r x s t3 Es (number_of (t_code t)) Er Ef).
  - rewrite pstep_ordinary in H by exact Ew. destruct r as [|c r].
    + destruct (ordinary switch t None) as [[t1 b]|] eqn:Eo; [|discriminate H]. apply some_inj in H; subst p. apply std_eof in Eo. destruct b; [apply Ss_eof_again|apply Ss_eof]; exact Eo.
    + destruct (ordinary switch t (Some c)) as [[t1 b]|] eqn:Eo; [|discriminate H]. apply some_inj in H; subst p. apply Ss_char. apply std_char; [exact Eo|exact D].
Qed.

(** ** The standard leaves no choice *)
Lemma longest_one b l c l1 c1 : longest b l c -> longest b l1 c1 -> l = l1 /\ c = c1.
Proof.
  intros [(-> & -> & A)|(n & I & S & -> & M)] [(-> & -> & A1)|(n1 & I1 & S1 & -> & M1)].
  - auto.
  - destruct (A _ _ I1 S1).
  - destruct (A1 _ _ I S).
  - pose proof (M _ _ I1 S1). pose proof (M1 _ _ I S). assert (L : List.length n = List.length n1) by lia.
    assert (n = n1) as <-.
    { destruct S as (x & E), S1 as (y & E1). rewrite E in E1. clear - L E1. revert n1 L E1. induction n as [|c n IH]; intros [|d n1] L E; try discriminate L; [reflexivity|].
      injection E as -> E. f_equal. apply IH; [cbn in L; lia|exact E]. }
    split; [reflexivity|]. pose proof (match_whole _ _ I) as Q. rewrite (match_whole _ _ I1) in Q. congruence.
Qed.
Lemma app_same {A} (a b c d : list A) : List.length a = List.length b -> a ++ c = b ++ d -> a = b /\ c = d.
Proof. revert b. induction a as [|x a IH]; intros [|y b] L E; try discriminate L; [auto|]. injection E as -> E. cbn in L. destruct (IH b ltac:(lia) E) as [-> ->]. auto. Qed.
Lemma word_length w p : word w p -> List.length p = List.length (lit w).
Proof. unfold word. intros <-. now rewrite map_length. Qed.
Lemma word_head w p x l : word w p -> lit w = x :: l -> exists c q, p = c :: q /\ lower c = x.
Proof. unfold word. intros H E. rewrite E in H. destruct p as [|c q]; [discriminate H|]. cbn in H. injection H as H _. eauto. Qed.
Lemma word_head_eq w p x l c r q : word w p -> lit w = x :: l -> c :: r = p ++ q -> lower c = x.
Proof. intros H E K. destruct (word_head _ _ _ _ H E) as (d & y & -> & L). injection K as -> _. exact L. Qed.
Lemma number_one c x y : Number c x -> Number c y -> x = y.
Proof.
  assert (G : forall x, Number c x -> x = reference_code c).
  { clear x y. intros x N. destruct N as [|c H|c H|c x H|c H1 H2 H3 H4]; [reflexivity| | | |].
    - unfold reference_code. destruct (find _ _) as [[a x]|] eqn:E.
      + apply find_some in E. destruct E as [E K]. cbn [fst] in K. apply Z.eqb_eq in K. subst a. exfalso. cbn in E. repeat (destruct E as [E|E]; [injection E as E _; lia|]). exact E.
      + cbv zeta. unfold is_surrogate. destruct ((0xD800 <=? c) && (c <=? 0xDFFF)); [reflexivity|]. destruct (0x10FFFF <? c) eqn:L; [reflexivity|lia].
    - unfold reference_code. destruct (find _ _) as [[a x]|] eqn:E.
      + apply find_some in E. destruct E as [E K]. cbn [fst] in K. apply Z.eqb_eq in K. subst a. exfalso. cbn in E. repeat (destruct E as [E|E]; [injection E as E _; lia|]). exact E.
      + cbv zeta. unfold is_surrogate. destruct ((0xD800 <=? c) && (c <=? 0xDFFF)) eqn:L; [reflexivity|lia].
    - cbn in H. repeat (destruct H as [H|H]; [injection H as <- <-; reflexivity|]). destruct H.
    - unfold reference_code. destruct (find _ _) as [[a x]|] eqn:E.
      + apply find_some in E. destruct E as [E K]. cbn [fst] in K. apply Z.eqb_eq in K. subst a. destruct H4. cbn in E |- *. repeat (destruct E as [E|E]; [injection E as E _; lia|]). destruct E.
      + cbv zeta. unfold is_surrogate. destruct ((0xD800 <=? c) && (c <=? 0xDFFF)) eqn:L; [lia|]. destruct (0x10FFFF <? c) eqn:L1; [lia|]. destruct (c =? 0) eqn:L2; [lia|]. reflexivity. }
  intros A B. rewrite (G x A), (G y B). reflexivity.
Qed.
Lemma std_none t i s : t_state t = s -> standard s = None -> std_step switch t i = None.
Proof. intros E H. unfold std_step. now rewrite E, H. Qed.

Lemma step_one t r p q : StdStep t r p -> StdStep t r q -> p = q.
Proof.
  intros H K.
  assert (Tb : standard (t_state t) = None -> forall i x, std_step switch t i <> Some x) by (intros E i x; unfold std_step; rewrite E; discriminate).
  destruct (waits (t_state t)) eqn:Ew.
  - assert (Ns : standard (t_state t) = None) by (destruct (t_state t); try discriminate Ew; reflexivity). specialize (Tb Ns). clear Ns.
    inversion H; clear H; subst; try (exfalso; eapply Tb; eassumption); (inversion K; clear K; subst; try (exfalso; eapply Tb; eassumption)); try congruence.
    all: clear Tb Ew.
    all: repeat match goal with
      | A : word ?w ?x, B : word ?w ?y, C : ?x ++ _ = ?y ++ _ |- _ => destruct (app_same _ _ _ _ (eq_trans (word_length _ _ A) (eq_sym (word_length _ _ B))) C); clear C end; subst; try congruence.
    all: try solve [exfalso; match goal with
      | A : word ?w ?x, C : _ :: _ = ?x ++ _ |- _ => eapply word_head_eq in C; [|exact A|reflexivity]; cbn in C; first [discriminate C|subst; discriminate|lia]
      | A : word ?w ?x, C : ?x ++ _ = _ :: _ |- _ => symmetry in C; eapply word_head_eq in C; [|exact A|reflexivity]; cbn in C; first [discriminate C|subst; discriminate|lia] end].
    all: try solve [exfalso; match goal with
      | A : word ?w ?x, N : forall w0 q, word ?w w0 -> _ <> w0 ++ q |- _ => first [exact (N _ _ A eq_refl)|eapply (N _ _ A); eassumption|eapply (N _ _ A); symmetry; eassumption] end].
    all: try solve [exfalso; match goal with A : word ?w ?x |- _ => let c := fresh in let q := fresh in let L := fresh in
      destruct (word_head _ _ _ _ A eq_refl) as (c & q & -> & L); cbn [app] in *; first [discriminate|
        match goal with C : _ :: _ = _ :: _ |- _ => injection C as <- _ | C : _ :: _ = _ ++ _ |- _ => idtac | C : _ ++ _ = _ :: _ |- _ => symmetry in C end];
        match goal with
        | B : In c spaces |- _ => cbn in B; intuition (subst; discriminate)
        | B : word _ ?y, C : _ :: _ = ?y ++ _ |- _ => eapply word_head_eq in C; [|exact B|reflexivity]; rewrite L in C; discriminate C end end].
    all: try solve [exfalso; match goal with B : In _ spaces |- _ => cbn in B; intuition discriminate end].
    all: try (match goal with A : longest ?b ?l ?c, B : longest ?b ?l1 ?c1 |- _ => let X := fresh "X" in let Y := fresh "Y" in destruct (longest_one _ _ _ _ _ A B) as [X Y] end).
    all: try solve [exfalso; match goal with N : ?n <> [], X : _ = _ |- _ => apply N, length_zero_iff_nil; congruence end].
    all: try (match goal with C : ?n ++ ?r = ?m ++ ?q, A : longest (?n ++ ?r) _ _, B : longest (?m ++ ?q) _ _ |- _ =>
      rewrite <- C in B; destruct (longest_one _ _ _ _ _ A B) as [X Y]; destruct (app_same _ _ _ _ X C) end); subst; try congruence; try tauto.
    all: match goal with A : Number ?c ?x, B : Number ?c ?y |- _ => pose proof (number_one _ _ _ A B); subst; congruence end.
  - inversion H; clear H; subst; try (match goal with E : t_state ?u = _, X : waits (t_state ?u) = false |- _ => rewrite E in X; discriminate X end);
      (inversion K; clear K; subst; try (match goal with E : t_state ?u = _, X : waits (t_state ?u) = false |- _ => rewrite E in X; discriminate X end)).
    all: repeat match goal with A : std_step switch ?u ?i = Some _, B : std_step switch ?u ?i = Some _ |- _ => rewrite A in B; injection B; clear B; intros; subst end; first [reflexivity|discriminate|congruence].
Qed.

Lemma steps_trans t r t1 r1 t2 r2 : StdSteps t r t1 r1 -> StdSteps t1 r1 t2 r2 -> StdSteps t r t2 r2.
Proof. induction 1; [auto|]. intro. econstructor; eauto. Qed.
Lemma reads_one t r x y : StdReads t r x -> StdReads t r y -> x = y.
Proof.
  intros (t1 & r1 & S & H) (t2 & r2 & S2 & H2). revert t2 r2 S2 H2. induction S as [t r|t r t1 r1 t2 r2 A S IH]; intros t3 r3 S2 H2.
  - destruct S2 as [t r|t r t1 r1 t2 r2 B S2]; [pose proof (step_one _ _ _ _ H H2); congruence|pose proof (step_one _ _ _ _ H B); congruence].
  - destruct S2 as [t r|t r t4 r4 t5 r5 B S2]; [pose proof (step_one _ _ _ _ A H2); congruence|]. pose proof (step_one _ _ _ _ A B) as E. injection E as <- <-. eapply IH; eassumption.
Qed.

(** ** A whole text *)
Notation pstep := (L_html1.pstep switch cdata match_ncr).
Notation psteps := (L_html1.psteps switch cdata match_ncr).
Notation phalts := (L_html1.phalts switch cdata match_ncr).
Notation wide := (Forall (fun c => 0 <= c < 2 ^ 32)).

Hypothesis switch_text : text_switch switch.

Section Whole.
Variable W : list Z.
Hypothesis inside : forall p s, W = p ++ 0x26 :: s -> match_ncr s <> None.
Hypothesis broad : wide W.
Hypothesis stays : forall t r, INV W t r -> StdSteps tok_init W t r -> ~ Departs t (hd_error r).

Lemma inv_wide t r : INV W t r -> wide r.
Proof. intros (_ & pre & E & _). rewrite E in broad. apply Forall_app in broad. tauto. Qed.
Lemma follow_steps t r t1 r1 : psteps t r t1 r1 -> INV W t r -> StdSteps tok_init W t r -> StdSteps tok_init W t1 r1 /\ INV W t1 r1.
Proof.
  induction 1 as [t r|t r t1 r1 t2 r2 A S IH]; intros J K; [auto|].
  pose proof (step_ok _ _ _ A (stays _ _ J K) (inv_wide _ _ J)) as Q.
  apply IH; [|eapply steps_trans; [exact K|]; econstructor; [exact Q|constructor]].
  exact (proj1 (pstep_INV switch switch_text cdata match_ncr (fun b len a X => proj1 (match_length b len a X)) W inside _ _ _ _ A J)).
Qed.
Lemma follow_reads t' : phalts tok_init W t' -> StdReads tok_init W t'.
Proof.
  intros (t & r & S & H). destruct (follow_steps _ _ _ _ S (init_inv W inside) (Ss_refl _ _)) as [K J]. exists t, r. split; [exact K|].
  exact (step_ok _ _ _ H (stays _ _ J K) (inv_wide _ _ J)).
Qed.
End Whole.

Lemma reads_whole text fuel : whole_references (newlines text) -> (forall p s, newlines text <> p ++ 0x26 :: 0x23 :: s) -> last text 0 <> 0xD -> fuel_for fuel text ->
  wide (newlines text) -> (forall t r, StdSteps tok_init (newlines text) t r -> ~ Departs t (hd_error r)) ->
  exists t, StdReads tok_init (newlines text) t /\ tokenize switch cdata match_ncr fuel tok_init text = Val (t_out t).
Proof.
  intros H N L F B St. pose proof (in_table_whole _ H) as T. destruct (init_halts switch switch_text cdata _ T) as (t' & Ht).
  destruct (tokenize_reads switch switch_text cdata fuel tok_init text t' I Ht F) as (l & E & K). exists t'. split; [apply follow_reads; auto|].
  rewrite E. f_equal. apply K; [|exact L]. apply (init_numfree switch switch_text cdata); assumption.
Qed.

(** ** Texts without scripts *)
Definition scripted (s : state) : bool :=
  match s with
  | script_data_state | script_data_less_than_sign_state | script_data_end_tag_open_state | script_data_end_tag_name_state | script_data_escape_start_state
  | script_data_escape_start_dash_state | script_data_escaped_state | script_data_escaped_dash_state | script_data_escaped_dash_dash_state
  | script_data_escaped_less_than_sign_state | script_data_escaped_end_tag_open_state | script_data_escaped_end_tag_name_state
  | script_data_double_escape_start_state | script_data_double_escaped_state | script_data_double_escaped_dash_state | script_data_double_escaped_dash_dash_state
  | script_data_double_escaped_less_than_sign_state | script_data_double_escape_end_state => true
  | _ => false
  end.
Hypothesis no_script : forall l, switch l <> Some script_data_state.
Definition calm (t : tok) : Prop := scripted (t_state t) = false /\ forall s, t_return t = Some s -> scripted s = false.
Definition fine_act (a : act) : bool := match a with ReturnTo s => negb (scripted s) | _ => true end.
Definition fine_dest (d : dest) : bool := match d with To s | Re s => negb (scripted s) | _ => true end.
Definition fine (p : list act * dest) : bool := forallb fine_act (fst p) && fine_dest (snd p).
Definition fine_table (tb : table) : bool := forallb (fun w => fine (snd (fst w), snd w)) (rows tb) && fine (other tb) && fine (at_eof tb).
Lemma tables_fine s tb : standard s = Some tb -> scripted s = false -> fine_table tb = true.
Proof. intros H N. destruct s; try discriminate N; try discriminate H; injection H as <-; reflexivity. Qed.
Lemma calm_tag f t t1 : with_tag f t = Some t1 -> calm t -> calm t1.
Proof. destruct t. unfold with_tag, calm. destruct (_ =? 2); [|destruct (_ =? 3); [|discriminate]]; destruct (f _); try discriminate; intro H; injection H as <-; auto. Qed.
Lemma calm_put s t : calm t -> scripted s = false -> calm (put s t).
Proof. destruct t. unfold calm. cbn. tauto. Qed.
Lemma calm_tmp f t : calm t -> calm (with_tmp f t).
Proof. destruct t. auto. Qed.
Lemma calm_flush t t1 : flush_buffer t = Some t1 -> calm t -> calm t1.
Proof.
  unfold flush_buffer. destruct (same_text _ _); [intros [= <-]; auto|]. destruct (in_attribute t); [apply calm_tag|]. intros [= <-]. destruct t. auto.
Qed.
Lemma calm_emit t t1 : emit_the_tag switch t = Some t1 -> calm t -> calm t1.
Proof.
  destruct t. unfold emit_the_tag, calm. destruct (_ =? 2); [|destruct (_ =? 3); [|discriminate]]; intros [= <-]; cbn; [|auto]. intros [A B]. split; [|exact B].
  destruct (switch _) as [s|] eqn:E; [|exact A]. destruct (switch_text _ _ E) as [->| [->| [->| ->]]]; try reflexivity. destruct (no_script _ E).
Qed.
Lemma calm_perform c a t t1 : perform switch c a t = Some t1 -> fine_act a = true -> calm t -> calm t1.
Proof.
  destruct a; cbn [perform]; intros H F; try (apply some_inj in H; subst t1; destruct t; solve [auto]); try exact (calm_tag _ _ _ H); try exact (calm_emit _ _ H); try exact (calm_flush _ _ H).
  all: destruct t; injection H as <-; unfold calm; cbn; auto. intros [A B]. split; [exact A|]. intros s0 [= <-]. cbn in F. now apply negb_true_iff.
Qed.
Lemma calm_performs c l : forall t t1, performs switch c l t = Some t1 -> forallb fine_act l = true -> calm t -> calm t1.
Proof.
  induction l as [|a l IH]; cbn [performs forallb]; intros t t1 H F C; [injection H as <-; exact C|]. destruct (perform switch c a t) as [t2|] eqn:E; [|discriminate]. apply andb_true_iff in F. destruct F as [F1 F2].
  eapply IH; [exact H|exact F2|]. eapply calm_perform; eassumption.
Qed.
Lemma calm_follow c p t t1 b : follow switch c p t = Some (t1, b) -> fine p = true -> calm t -> calm t1.
Proof.
  unfold follow, fine. intros H F C. apply andb_true_iff in F. destruct F as [F1 F2].
  assert (G : forall t0 b0, match performs switch c (fst p) t0 with Some t2 => Some (t2, b0) | None => None end = Some (t1, b) -> calm t0 -> calm t1).
  { intros t0 b0 K C0. destruct (performs switch c (fst p) t0) as [t2|] eqn:E; [|discriminate]. injection K as <- _. eapply calm_performs; eassumption. }
  destruct (snd p); cbn [fine_dest] in F2; try apply negb_true_iff in F2.
  - eapply G; [exact H|exact C].
  - eapply G; [exact H|apply calm_put; assumption].
  - eapply G; [exact H|apply calm_put; assumption].
  - destruct (t_return t) as [s|] eqn:R; [|discriminate]. eapply G; [exact H|apply calm_put; [exact C|apply C, R]].
Qed.
Lemma calm_pick c t l p : forallb (fun w => fine (snd (fst w), snd w)) l = true -> fine p = true -> fine (pick c t l p) = true.
Proof.
  induction l as [|[[[k g] a] d] l IH]; cbn [pick forallb]; intros F P; [exact P|]. apply andb_true_iff in F. destruct F as [F1 F2]. destruct (holds k c && permits g t); [exact F1|auto].
Qed.
Lemma calm_std t i t1 b : std_step switch t i = Some (t1, b) -> calm t -> calm t1.
Proof.
  unfold std_step. intros H C. destruct (standard (t_state t)) as [tb|] eqn:E; [|discriminate]. pose proof (tables_fine _ _ E (proj1 C)) as F. unfold fine_table in F. apply andb_true_iff in F. destruct F as [F F3].
  apply andb_true_iff in F. destruct F as [F1 F2]. destruct i as [c|]; (eapply calm_follow; [exact H| |exact C]); [apply calm_pick; assumption|exact F3].
Qed.
Lemma calm_step t r t1 r1 : StdStep t r (Next t1 r1) -> calm t -> calm t1.
Proof.
  intros H C. inversion H; subst; try (eapply calm_std; eassumption);
    try solve [destruct t1; exact C]; try solve [destruct t; destruct C; split; [reflexivity|assumption]].
  all: try (apply calm_put; [|first [reflexivity|match goal with R : t_return _ = Some _ |- _ => apply C, R end]]); try assumption.
  all: match goal with Fl : flush_buffer _ = Some _ |- _ => apply (calm_flush _ _ Fl) end; destruct t; exact C.
Qed.
Lemma calm_steps t r t1 r1 : StdSteps t r t1 r1 -> calm t -> calm t1.
Proof. induction 1; [auto|]. intro. eauto using calm_step. Qed.

Lemma newlines_null text : In 0 (newlines text) -> In 0 text.
Proof.
  enough (G : forall n text, (List.length text <= n)%nat -> In 0 (newlines text) -> In 0 text) by (apply (G _ text (le_n _))). clear text.
  induction n as [|n IH]; intros [|c r] L H; cbn [newlines List.length] in *; [exact H|lia|exact H|].
  destruct (Z.eq_dec c 0xD) as [->|E].
  - destruct H as [H|H]; [discriminate H|]. right. destruct r as [|d r]; [exact H|]. destruct (Z.eq_dec d 0xA) as [->|E1].
    + right. apply IH; [cbn [List.length] in L; lia|exact H].
    + apply IH; [cbn [List.length] in *; lia|]. destruct d as [|q|q]; try exact H. do 4 (destruct q as [q|q|]; try exact H). contradiction.
  - assert (K : In 0 (c :: newlines r)).
    { destruct c as [|q|q]; try exact H. do 4 (destruct q as [q|q|]; try exact H). contradiction. }
    destruct K as [K|K]; [now left|right]. apply IH; [lia|exact K].
Qed.
Lemma script_free_reads text fuel : whole_references (newlines text) -> (forall p s, newlines text <> p ++ 0x26 :: 0x23 :: s) -> last text 0 <> 0xD -> fuel_for fuel text ->
  wide (newlines text) -> ~ In 0 text -> exists t, StdReads tok_init (newlines text) t /\ tokenize switch cdata match_ncr fuel tok_init text = Val (t_out t).
Proof.
  intros H N L F B Z0. pose proof (in_table_whole _ H) as T. destruct (init_halts switch switch_text cdata _ T) as (t' & Ht).
  destruct (tokenize_reads switch switch_text cdata fuel tok_init text t' I Ht F) as (l & E & K). exists t'. split.
  - apply follow_reads; [exact T|exact B| |exact Ht]. intros t r J S D. pose proof (INV_numeric _ _ _ J N) as Nm.
    assert (C : calm t) by (eapply calm_steps; [exact S|split; [reflexivity|discriminate]]).
    inversion D; subst.
    + destruct J as (_ & pre & Ew & _). apply Z0, newlines_null. rewrite Ew. apply in_or_app. right. destruct r as [|c r]; [discriminate|]. cbn [hd_error] in *. left. congruence.
    + destruct C as [C _]. match goal with X : t_state _ = _ |- _ => rewrite X in C; discriminate C end.
    + match goal with X : t_state _ = _ |- _ => rewrite X in Nm; discriminate Nm end.
    + match goal with X : t_state _ = _ |- _ => rewrite X in Nm; discriminate Nm end.
  - rewrite E. f_equal. apply K; [|exact L]. apply (init_numfree switch switch_text cdata); assumption.
Qed.
End Read.
