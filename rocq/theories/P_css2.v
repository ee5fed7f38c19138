(** The CSS tokeniser against CSS Syntax 4.3: C121. *)
From Coq Require Import String.
From Coq Require Import ZArith List Bool Lia.
From Verif Require Import M_unicode M_infra M_percent M_encoding M_labels M_css L_unicode L_infra L_css L_css2 L_css3 L_css4 L_css6.
Import ListNotations.
Open Scope string_scope.
Open Scope list_scope.
Open Scope Z_scope.

(** * C121 *)

(** A text that does not end in a backslash has one token by the standard, with one rest, and the tokeniser takes it,
    unless the text behind the comments in front is one of those where the code departs. *)
Theorem C121_token_partial s : in_range s -> last s 0 <> 0x5C -> (forall u, Uncommented s u -> ~ Departs u) ->
  exists k r, Token s k r /\ consume_token s = Some (k, r) /\ forall k' r', Token s k' r' -> k' = k /\ r' = r.
Proof.
  intros R L D. destruct (token_total s L) as (k & r & T). exists k, r. assert (E := token_ok s k r T R D).
  split; [exact T|]. split; [exact E|]. intros k' r' T'. assert (X := token_ok s k' r' T' R D). rewrite E in X. now injection X as -> ->.
Qed.

(** A sufficient condition for the examples: nothing departs in front of most code points. *)
Lemma calm c s : dec_digit c \/ In c [0x23; 0x2B; 0x2D; 0x2E; 0x55; 0x75; 0x5C] \/ ~ Departs (c :: s).
Proof.
  destruct (is_digit c) eqn:D; [left; now apply is_digit_iff|]. assert (Nd : ~ dec_digit c) by (intros X; apply is_digit_iff in X; congruence).
  destruct (in_dec Z.eq_dec c [0x23; 0x2B; 0x2D; 0x2E; 0x55; 0x75; 0x5C]) as [I|N]; [now right; left|]. right; right. intros H.
  assert (Ul : forall t v rest, is_url v -> Spelled ident_char false rest t v -> exists d t', t = d :: t' /\ In d [0x55; 0x75; 0x5C]).
  { intros t v rest U Sp. unfold is_url in U. destruct Sp as [|d t v O Sp| | | |]; cbn [map] in U; try discriminate U; (eexists; eexists; split; [reflexivity|]); cbn [In]; auto.
    injection U as U _. revert U. unfold cp_lower. destruct (is_ascii_upper_alpha d); intros U; [left|right; left]; lia. }
  assert (Nm : forall sg ip fr ex, NumberParts sg ip fr ex -> exists d t', number_text sg ip fr ex = d :: t' /\ (dec_digit d \/ In d [0x2B; 0x2D; 0x2E])).
  { intros sg ip fr ex (A & B & C & _). unfold number_text. destruct A as [->|[-> | ->]]; try (eexists; eexists; split; [reflexivity|]; right; cbn; auto; fail).
    destruct ip as [|d ip]; [|inversion B; eexists; eexists; split; [reflexivity|]; now left].
    destruct fr as [ds|]; [eexists; eexists; split; [reflexivity|]; right; cbn; auto|]. destruct C as [C|C]; now destruct C. }
  inversion H as [E|x r C _ _ E|r _ _ E|t v U Sp E|t v w q r U Sp _ _ E|t v w u x r U Sp _ _ _ E|sg ip fr ex rest P _ _ E]; subst; cbn [In] in N.
  - apply N. auto.
  - apply N. destruct C as [-> |[-> | ->]]; auto.
  - apply N. auto.
  - destruct (Ul _ _ _ U Sp) as (d & t' & Et & I). injection Et as -> ->. cbn [In] in I. intuition.
  - destruct (Ul _ _ _ U Sp) as (d & t' & -> & I). injection E as -> _. cbn [In] in I. intuition.
  - destruct (Ul _ _ _ U Sp) as (d & t' & -> & I). injection E as -> _. cbn [In] in I. intuition.
  - destruct (Nm _ _ _ _ P) as (d & t' & Et & I). rewrite Et in E. injection E as -> _. cbn [In] in I. intuition.
Qed.
Example C121_token_ex : in_range (lit "/* 1 */foo(x") /\ last (lit "/* 1 */foo(x") 0 <> 0x5C /\
  (forall u, Uncommented (lit "/* 1 */foo(x") u -> ~ Departs u) /\ Token (lit "/* 1 */foo(x") (Function (lit "foo")) (lit "x").
Proof.
  assert (R : in_range (lit "/* 1 */foo(x")) by (apply Forall_forall; intros c H; cbn in H; lia).
  assert (D : forall u, Uncommented (lit "/* 1 */foo(x") u -> ~ Departs u).
  { intros u U. apply uncommented_ok in U. vm_compute in U. subst u. destruct (calm 102 [111; 111; 40; 120]) as [X|[X|X]]; [unfold dec_digit in X; lia|cbn in X; lia|exact X]. }
  assert (L : last (lit "/* 1 */foo(x") 0 <> 0x5C) by (cbn; lia).
  split; [exact R|]. split; [exact L|]. split; [exact D|].
  destruct (C121_token_partial _ R L D) as (k & r & T & E & _). vm_compute in E. injection E as <- <-. exact T.
Qed.
Print Assumptions C121_token_partial.

(** A whole text: when nothing departs at the places where its tokens begin, the standard gives it one list of tokens,
    and that is what the tokeniser makes of it. *)
Theorem C121_text_partial s : in_range s -> last s 0 <> 0x5C -> Follows s ->
  exists ts, Tokens s ts /\ (forall us, Tokens s us -> us = ts) /\ forall fuel, (length s < fuel)%nat -> tokenize fuel s = Val ts.
Proof. exact (tokens_ok (length s) s (Nat.le_refl _)). Qed.
Lemma follows_step s k r : in_range s -> consume_token s = Some (k, r) -> (forall u, Uncommented s u -> ~ Departs u) -> (k <> Eof -> Follows r) -> Follows s.
Proof.
  intros R E D F u v X. assert (Y : u = s \/ (k <> Eof /\ Reached r u)).
  { induction X as [|u k' r' X IH T N]; [now left|]. right. destruct IH as [-> |[Nk IH]].
    - assert (Z := token_ok s k' r' T R D). rewrite E in Z. injection Z as <- <-. split; [exact N|constructor].
    - split; [exact Nk|]. exact (re_next r u k' r' IH T N). }
  destruct Y as [-> |[Nk Y]]; [apply D|exact (F Nk u v Y)].
Qed.
Lemma follows_end : Follows [].
Proof.
  apply (follows_step [] Eof []); [constructor|reflexivity| |congruence]. intros u U. apply uncommented_ok in U. vm_compute in U. subst u.
  intros H. remember [] as z eqn:Ez. destruct H as [|x r C _ _|r _ _|t v V Sp|t v w q r V Sp _ _|t v w u x r V Sp _ _ _|sg ip fr ex rest P _ _]; try discriminate Ez; try (destruct t; discriminate Ez).
  - subst t. inversion Sp; subst. discriminate V.
  - apply app_eq_nil in Ez as [E ->]. destruct P as (A & B & C & _). unfold number_text in E. apply app_eq_nil in E as [_ E]. apply app_eq_nil in E as [E1 E].
    apply app_eq_nil in E as [E2 _]. destruct fr; [discriminate E2|]. destruct C as [C|C]; now destruct C.
Qed.
Ltac one c := match goal with |- Follows ?s => let z := eval vm_compute in (consume_token s) in match z with Some (?k, ?r) =>
  apply (follows_step s k r); [apply Forall_forall; let x := fresh in let H := fresh in intros x H; cbn in H; lia|vm_compute; reflexivity| |intros _];
  [let U := fresh in intros ? U; apply uncommented_ok in U; vm_compute in U; subst;
   match goal with |- ~ Departs (?a :: ?b) => let X := fresh in destruct (calm a b) as [X|[X|X]]; [unfold dec_digit in X; lia|cbn in X; lia|exact X] end|] end end.
Example C121_text_ex : in_range (lit "a {b:'x'/*y*/; @c}") /\ last (lit "a {b:'x'/*y*/; @c}") 0 <> 0x5C /\ Follows (lit "a {b:'x'/*y*/; @c}") /\
  tokenize 30 (lit "a {b:'x'/*y*/; @c}") =
    Val [Ident (lit "a"); Whitespace; OpenCurly; Ident (lit "b"); Colon; Str (lit "x"); Semicolon; Whitespace; AtKeyword (lit "c"); CloseCurly].
Proof.
  split; [apply Forall_forall; intros c H; cbn in H; lia|]. split; [cbn; lia|]. split; [|vm_compute; reflexivity].
  do 10 one 0. exact follows_end.
Qed.
Print Assumptions C121_text_partial.

(** A backslash at the very end starts an identifier by the standard, U+FFFD; in the code it is a delimiter. *)
Theorem C121_backslash_refuted : exists s, starts_ident s /\ consume_token s = Some (Delim 0x5C, []).
Proof. exists [0x5C]. split; [right; now left|vm_compute; reflexivity]. Qed.
Print Assumptions C121_backslash_refuted.
