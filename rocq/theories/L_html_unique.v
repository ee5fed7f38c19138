(** The description of the markup determines it. *)
From Coq Require Import ZArith List Bool String Lia.
From Verif Require Import M_infra M_encoding M_labels M_html_serialize L_html_serialize L_html9.
Import ListNotations.
Open Scope Z_scope.

Lemma char_fun b c e : Char b c e -> e = escape_code_point b c.
Proof.
  destruct 1 as [| |H|H|H|c A B C D]; try (destruct b; reflexivity); try (subst b; reflexivity). unfold escape_code_point.
  rewrite (proj2 (Z.eqb_neq _ _) A), (proj2 (Z.eqb_neq _ _) B). destruct b.
  - rewrite (proj2 (Z.eqb_neq _ _) (C eq_refl)). reflexivity.
  - destruct (D eq_refl) as [D1 D2]. rewrite (proj2 (Z.eqb_neq _ _) D1), (proj2 (Z.eqb_neq _ _) D2). reflexivity.
Qed.
Lemma chars_fun b s e : Chars b s e -> e = escape_string s b.
Proof. induction 1 as [|c s e r H _ IH]; [reflexivity|]. apply char_fun in H. subst. reflexivity. Qed.
Lemma attrs_fun l s : Attrs l s -> s = attributes_text l.
Proof.
  induction 1 as [|a l name value r Hn Hv _ IH]; [reflexivity|]. apply attr_named_fun in Hn. apply chars_fun in Hv. subst.
  unfold attributes_text. cbn [flat_map lit app]. f_equal. rewrite <- !app_assoc. f_equal. cbn [app]. f_equal. f_equal. rewrite <- app_assoc. reflexivity.
Qed.
Scheme Markup_row := Induction for Markup Sort Prop with Inside_row := Induction for Inside Sort Prop.
Combined Scheme Markup_both from Markup_row, Inside_row.

Lemma markup_fun : (forall P n a, Markup P n a -> forall b, Markup P n b -> a = b) /\ (forall P l a, Inside P l a -> forall b, Inside P l b -> a = b).
Proof.
  apply Markup_both.
  - intros P n name attrs a inner ns p l c En Hn Ha NV _ IH b Hb. subst n.
    inversion Hb as [? ? name1 attrs1 a1 inner1 ns1 p1 l1 c1 E1 Hn1 Ha1 NV1 I1|? ? ? ? ? ? ? ? ? ? ? ? V1| | | | |]; subst; [|contradiction].
    apply named_fun in Hn. apply named_fun in Hn1. assert (name1 = name) by congruence. subst name1. inversion E1; subst.
    apply attrs_fun in Ha. apply attrs_fun in Ha1. rewrite (IH _ I1), Ha, Ha1. reflexivity.
  - intros P n name attrs a ns p l c En Hn Ha V b Hb. subst n.
    inversion Hb as [? ? ? ? ? ? ? ? ? ? ? ? ? NV1|? ? name1 attrs1 a1 ns1 p1 l1 c1 E1 Hn1 Ha1 V1| | | | |]; subst; [contradiction|].
    apply named_fun in Hn. apply named_fun in Hn1. assert (name1 = name) by congruence. subst name1. inversion E1; subst.
    apply attrs_fun in Ha. apply attrs_fun in Ha1. rewrite Ha, Ha1. reflexivity.
  - intros P d e NR He b Hb. inversion Hb; subst; try contradiction; try discriminate. apply chars_fun in He. symmetry. rewrite He. apply chars_fun. assumption.
  - intros P d R b Hb. inversion Hb; subst; try contradiction; try discriminate. reflexivity.
  - intros P d b Hb. inversion Hb; subst; try discriminate. reflexivity.
  - intros P t d b Hb. inversion Hb; subst; try discriminate. reflexivity.
  - intros P n b Hb. inversion Hb; subst; try discriminate. reflexivity.
  - intros P b Hb. inversion Hb. reflexivity.
  - intros P n l a b _ IH1 _ IH2 s Hs. inversion Hs; subst. f_equal; auto.
Qed.
