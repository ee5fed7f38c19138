(** What selectors match, and lemmas on the matching of M_sel. *)
From Coq Require Import String.
From Coq Require Import ZArith List Bool Lia.
From Coq Require Import Sorting.Sorted.
From Verif Require Import M_unicode M_infra M_encoding M_labels L_unicode L_infra M_css M_cssp L_cssp M_sel L_sel.
Import ListNotations.
Open Scope list_scope.
Open Scope Z_scope.

(** * Nodes *)

Definition node (F : forest) (p : pointer) : Prop := exists t, at_ F p = Some t.
(** [q] is an ancestor of [p]. *)
Definition ancestor (q p : pointer) : Prop := q <> [] /\ exists a, a <> [] /\ p = a ++ q.
Definition is_element (F : forest) (p : pointer) : Prop := exists e, kind_at F p = Some (KElement e).
(** Children of the same node, [q] before [p]. *)
Definition earlier (q p : pointer) : Prop := exists i j t, t <> [] /\ p = i :: t /\ q = j :: t /\ (j < i)%nat.
(** The combinators, from the compound selector on the left at [q] to the one on the right at [p]. *)
Definition related (F : forest) (k : Z) (q p : pointer) : Prop :=
  (k = 0x20 /\ ancestor q p) \/ (k = 0x3E /\ q <> [] /\ exists i, p = i :: q) \/
  (k = 0x2B /\ earlier q p /\ is_element F q /\ forall r, earlier r p -> earlier q r -> ~ is_element F r) \/ (k = 0x7E /\ earlier q p /\ is_element F q).
(** A complex selector holds at [p] when there are nodes for its compound selectors, the last one [p], that are so related. *)
Inductive chain (F : forest) (holds : compound -> pointer -> Prop) : complex -> pointer -> Prop :=
| chain_one c p : holds c p -> chain F holds [Comp c] p
| chain_more l k c q p : chain F holds l q -> related F k q p -> holds c p -> chain F holds (l ++ [Comb k; Comp c]) p.
Definition holds_at (F : forest) (c : context) (cs : compound) (p : pointer) : Prop := exists k, kind_at F p = Some k /\ match_compound cs k c = Some true.
(** The order of the document: a node before its descendants and before those of its later siblings. *)
Definition before (p q : pointer) : Prop := (exists a, a <> [] /\ q = a ++ p) \/ exists a b i j t, (i < j)%nat /\ p = a ++ i :: t /\ q = b ++ j :: t.

Lemma at_cons F i j q : at_ F (i :: j :: q) = match at_ F (j :: q) with Some t => nth_error (t_children t) i | None => None end.
Proof. reflexivity. Qed.
Lemma node_up F i q : q <> [] -> node F (i :: q) -> node F q.
Proof. intros N [t H]. destruct q as [|j q]; [congruence|]. rewrite at_cons in H. destruct (at_ F (j :: q)) as [u|] eqn:E; [|discriminate]. now exists u. Qed.
Lemma node_down F a q : q <> [] -> node F (a ++ q) -> node F q.
Proof. intros N. induction a as [|i a IH]; intros H; [exact H|]. apply IH. apply (node_up F i); [|exact H]. destruct a; [exact N|discriminate]. Qed.
Lemma node_kind F p : node F p <-> exists k, kind_at F p = Some k.
Proof.
  unfold node, kind_at. split.
  - intros [t ->]. cbn. eauto.
  - intros [k H]. destruct (at_ F p) as [t|]; [eauto|discriminate].
Qed.
Lemma nth_less {A : Type} (l : list A) i j x : nth_error l i = Some x -> (j < i)%nat -> exists y, nth_error l j = Some y.
Proof.
  intros H L. destruct (nth_error l j) as [y|] eqn:E; [eauto|]. apply nth_error_None in E. assert (nth_error l i <> None) by congruence. apply nth_error_Some in H0. lia.
Qed.
Lemma node_less F i j q : node F (i :: q) -> (j < i)%nat -> node F (j :: q).
Proof.
  intros [t H] L. destruct q as [|k q].
  - cbn [at_] in H. destruct (nth_less _ _ _ _ H L) as [y Y]. now exists y.
  - rewrite at_cons in H. destruct (at_ F (k :: q)) as [u|] eqn:E; [|discriminate]. destruct (nth_less _ _ _ _ H L) as [y Y]. exists y. rewrite at_cons. now rewrite E.
Qed.

(** * The combinators *)

Section Walks.
Variable F : forest.
Variable f : pointer -> option bool.
Hypothesis f_some : forall p, node F p -> f p <> None.
Lemma up_spec p : (p = [] \/ node F p) -> exists b, up f p = Some b /\ (b = true <-> exists a q, p = a ++ q /\ q <> [] /\ f q = Some true).
Proof.
  induction p as [|i p IH]; intros N.
  - exists false. split; [reflexivity|]. split; [discriminate|]. intros (a & q & E & NE & _). destruct a; [cbn in E; congruence|discriminate].
  - destruct N as [N|N]; [discriminate|]. cbn [up]. pose proof (f_some _ N) as S. destruct (f (i :: p)) as [[|]|] eqn:E; [| |congruence]; cbn [obind].
    + exists true. split; [reflexivity|]. split; [|reflexivity]. intros _. exists [], (i :: p). repeat split; [discriminate|exact E].
    + destruct IH as (b & U & I). { destruct p as [|j p]; [now left|right]. apply (node_up F i); [discriminate|exact N]. }
      exists b. split; [exact U|]. rewrite I. split.
      * intros (a & q & -> & NE & H). exists (i :: a), q. auto.
      * intros (a & q & E1 & NE & H). destruct a as [|j a]; [cbn in E1; subst q; congruence|]. injection E1 as -> ->. exists a, q. auto.
Qed.
Lemma back_spec once q i : q <> [] -> (i = O \/ node F (pred i :: q)) ->
  exists b, back F once f q i = Some b /\
  (b = true <-> exists j, (j < i)%nat /\ is_element F (j :: q) /\ f (j :: q) = Some true /\ (once = true -> forall r, (j < r < i)%nat -> ~ is_element F (r :: q))).
Proof.
  intros NQ. induction i as [|i IH]; intros N.
  - exists false. split; [reflexivity|]. split; [discriminate|]. intros (j & L & _). lia.
  - destruct N as [N|N]; [discriminate|]. cbn [pred] in N. cbn [back]. destruct (proj1 (node_kind F (i :: q)) N) as [k K]. rewrite K. cbn [obind].
    assert (IH' : exists b, back F once f q i = Some b /\
      (b = true <-> exists j, (j < i)%nat /\ is_element F (j :: q) /\ f (j :: q) = Some true /\ (once = true -> forall r, (j < r < i)%nat -> ~ is_element F (r :: q)))).
    { apply IH. destruct i as [|i]; [now left|right]. apply (node_less F (S i)); [exact N|cbn; lia]. }
    pose proof (f_some _ N) as S0.
    assert (Other : (forall e, k <> KElement e) -> exists b, back F once f q i = Some b /\
      (b = true <-> exists j, (j < S i)%nat /\ is_element F (j :: q) /\ f (j :: q) = Some true /\ (once = true -> forall r, (j < r < S i)%nat -> ~ is_element F (r :: q)))).
    { intros NE. destruct IH' as (b & B & I). exists b. split; [exact B|]. rewrite I. split; intros (j & L & El & H & O); exists j.
      - split; [lia|]. split; [exact El|]. split; [exact H|]. intros OT r LR. destruct (Nat.eq_dec r i) as [->|Nr]; [|apply O; auto; lia]. intros [e E]. rewrite K in E. injection E as ->. now apply (NE e).
      - assert (j <> i) by (intros ->; destruct El as [e E]; rewrite K in E; injection E as ->; now apply (NE e)). split; [lia|]. split; [exact El|]. split; [exact H|]. intros OT r LR. apply O; auto; lia. }
    destruct k as [e|t d|]; [clear Other|apply Other; discriminate..].
    assert (El : is_element F (i :: q)) by (exists e; exact K). destruct (f (i :: q)) as [[|]|] eqn:E; [| |congruence].
    + exists true. split; [now destruct once|]. split; [|reflexivity]. intros _. exists i. split; [lia|]. split; [exact El|]. split; [exact E|]. intros _ r L. lia.
    + destruct once.
      * exists false. split; [reflexivity|]. split; [discriminate|]. intros (j & L & Ej & H & O). exfalso. destruct (Nat.eq_dec j i) as [->|Nj]; [congruence|]. apply (O eq_refl i); [lia|exact El].
      * cbn [obind]. destruct IH' as (b & B & I). exists b. split; [exact B|]. rewrite I. split; intros (j & L & Ej & H & O); exists j.
        -- split; [lia|]. repeat split; auto. discriminate.
        -- assert (j <> i) by (intros ->; congruence). split; [lia|]. repeat split; auto. discriminate.
Qed.
End Walks.

(** The list from its end. *)
Inductive backwards : list item -> Prop :=
| b_one c : backwards [Comp c]
| b_more c k l : backwards l -> backwards (Comp c :: Comb k :: l).
Inductive rchain (F : forest) (holds : compound -> pointer -> Prop) : list item -> pointer -> Prop :=
| rc_one c p : holds c p -> rchain F holds [Comp c] p
| rc_more l k c q p : rchain F holds l q -> related F k q p -> holds c p -> rchain F holds (Comp c :: Comb k :: l) p.
Lemma chain_rev F h s p : chain F h s p <-> rchain F h (rev s) p.
Proof.
  split.
  - induction 1 as [c p H|l k c q p _ IH R H]; [now constructor|]. rewrite rev_app_distr. cbn [rev app]. econstructor; eauto.
  - intros H. rewrite <- (rev_involutive s). remember (rev s) as l eqn:E. clear s E. induction H as [c p H|l k c q p _ IH R H]; [now constructor|]. cbn [rev]. rewrite <- app_assoc. cbn [app]. econstructor; eauto.
Qed.
Lemma complex_backwards D E x l : g_complex D E x l -> backwards (rev l).
Proof.
  induction 1 as [x c _|x c s k y l _ _ _ IH]; [constructor|]. cbn [rev]. rewrite <- app_assoc. cbn [app]. revert IH. generalize (rev l). intros r B.
  induction B as [c0|c0 k0 l0 B IH]; cbn [app]; [constructor; constructor|now constructor].
Qed.
Lemma related_node F k q p : node F p -> related F k q p -> node F q.
Proof.
  intros N [(_ & NQ & a & _ & ->)|[(_ & NQ & i & ->)|[(_ & (i & j & t & NT & -> & -> & L) & _)|(_ & (i & j & t & NT & -> & -> & L) & _)]]].
  - now apply (node_down F a).
  - now apply (node_up F i).
  - now apply (node_less F i).
  - now apply (node_less F i).
Qed.
Lemma reverse_spec F c l : backwards l -> (forall cs p k, In (Comp cs) l -> kind_at F p = Some k -> match_compound cs k c <> None) ->
  forall p, node F p -> exists b, match_reverse F c l p = Some b /\ (b = true <-> rchain F (holds_at F c) l p).
Proof.
  induction 1 as [cs|cs k l B IH]; intros Df p N; destruct (proj1 (node_kind F p) N) as [kd K].
  - cbn [match_reverse]. rewrite K. cbn [obind]. pose proof (Df cs p kd (or_introl eq_refl) K) as S. destruct (match_compound cs kd c) as [[|]|] eqn:M; [| |congruence]; cbn [obind negb].
    + exists true. split; [reflexivity|]. split; [|reflexivity]. intros _. constructor. exists kd. auto.
    + exists false. split; [reflexivity|]. split; [discriminate|]. intros H. inversion H as [? ? (kd' & K' & M')|]; subst. congruence.
  - assert (IH' : forall p, node F p -> exists b, match_reverse F c l p = Some b /\ (b = true <-> rchain F (holds_at F c) l p)) by (apply IH; intros cs0 p0 k0 I; apply Df; cbn; auto). clear IH.
    assert (FS : forall p, node F p -> match_reverse F c l p <> None) by (intros q NQ; destruct (IH' q NQ) as (b & -> & _); discriminate).
    assert (FT : forall p, node F p -> (match_reverse F c l p = Some true <-> rchain F (holds_at F c) l p)).
    { intros q NQ. destruct (IH' q NQ) as (b & -> & I). rewrite <- I. split; [intros H; now injection H|now intros ->]. }
    assert (Inv : rchain F (holds_at F c) (Comp cs :: Comb k :: l) p <-> holds_at F c cs p /\ exists q, related F k q p /\ rchain F (holds_at F c) l q).
    { split; [intros H; inversion H; subst; eauto|intros (H & q & R & C); econstructor; eauto]. }
    cbn [match_reverse]. rewrite K. cbn [obind]. pose proof (Df cs p kd (or_introl eq_refl) K) as S. destruct (match_compound cs kd c) as [[|]|] eqn:M; [| |congruence]; cbn [obind negb].
    2: { exists false. split; [reflexivity|]. split; [discriminate|]. rewrite Inv. intros ((kd' & K' & M') & _). congruence. }
    assert (Hp : holds_at F c cs p) by (exists kd; auto).
    assert (Inv' : rchain F (holds_at F c) (Comp cs :: Comb k :: l) p <-> exists q, related F k q p /\ match_reverse F c l q = Some true).
    { rewrite Inv. split; [intros (_ & q & R & C)|intros (q & R & C); split; [exact Hp|]]; exists q; (split; [exact R|]); apply FT; eauto using related_node. }
    setoid_rewrite Inv'. clear Inv Inv' Hp M. set (g := match_reverse F c l) in *. clearbody g. clear IH' FT.
    destruct (Z.eqb_spec k 0x20) as [->|N1].
    { assert (NP : parent p = [] \/ node F (parent p)). { destruct p as [|i [|j q]]; [left; reflexivity|left; reflexivity|right]. apply (node_up F i); [discriminate|exact N]. }
      destruct (up_spec F g FS (parent p) NP) as (b & U & I). exists b. split; [exact U|]. rewrite I. split.
      - intros (a & q & E & NE & H). exists q. split; [|exact H]. left. split; [reflexivity|]. split; [exact NE|]. destruct p as [|i p]; [cbn in E; destruct a; [cbn in E; congruence|discriminate]|]. cbn [parent tl] in E. exists (i :: a). split; [discriminate|]. now subst p.
      - intros (q & R & H). destruct R as [(_ & NE & a & NA & ->)|[(X & _)|[(X & _)|(X & _)]]]; [|discriminate X..]. destruct a as [|i a]; [congruence|]. exists a, q. auto. }
    destruct (Z.eqb_spec k 0x3E) as [->|N2].
    { destruct p as [|i [|j q]]; [destruct N as [t T]; discriminate| |].
      - exists false. split; [reflexivity|]. split; [discriminate|]. intros (q & R & H). destruct R as [(X & _)|[(_ & NE & i0 & E)|[(X & _)|(X & _)]]]; try discriminate X. injection E as _ <-. congruence.
      - cbn [parent tl]. assert (NQ : node F (j :: q)) by (apply (node_up F i); [discriminate|exact N]). pose proof (FS _ NQ) as S1. destruct (g (j :: q)) as [b|] eqn:G; [|congruence]. exists b. split; [reflexivity|]. split.
        + intros ->. exists (j :: q). split; [|exact G]. right. left. split; [reflexivity|]. split; [discriminate|]. eauto.
        + intros (q1 & R & H). destruct R as [(X & _)|[(_ & NE & i0 & E)|[(X & _)|(X & _)]]]; try discriminate X. injection E as _ <-. congruence. }
    assert (Sib : forall once : bool, (if once then k = 0x2B else k = 0x7E) -> exists b, match p with i :: q => match q with [] => Some false | _ => back F once g q i end | [] => Some false end = Some b /\
      (b = true <-> exists q, related F k q p /\ g q = Some true)).
    { intros once KO. destruct p as [|i [|j q]]; [destruct N as [t T]; discriminate| |].
      - exists false. split; [reflexivity|]. split; [discriminate|]. intros (q & R & H). exfalso.
        destruct R as [(X & _)|[(X & _)|[(_ & (i1 & j1 & t & NT & E & _) & _)|(_ & (i1 & j1 & t & NT & E & _) & _)]]]; [congruence|congruence|injection E as _ <-; congruence|injection E as _ <-; congruence].
      - destruct (back_spec F g FS once (j :: q) i) as (b & Bk & I); [discriminate|destruct i as [|i]; [now left|right; apply (node_less F (Datatypes.S i)); [exact N|cbn; lia]]|]. exists b. split; [exact Bk|]. rewrite I. split.
        + intros (j1 & L & El & H & O). exists (j1 :: j :: q). split; [|exact H]. assert (EA : earlier (j1 :: j :: q) (i :: j :: q)) by (exists i, j1, (j :: q); repeat split; [discriminate|exact L]).
          right. right. destruct once; [left|right]; (split; [exact KO|]); (split; [exact EA|]); [split; [exact El|]|exact El]. intros r (i2 & j2 & t2 & _ & E2 & -> & L2) (i3 & j3 & t3 & _ & E3 & E4 & L3).
          injection E2 as <- <-. injection E3 as <- <-. injection E4 as <-. apply (O eq_refl). lia.
        + intros (q1 & R & H). destruct once; destruct R as [(X & _)|[(X & _)|[(X & (i1 & j1 & t & NT & E & -> & L) & El & O)|(X & (i1 & j1 & t & NT & E & -> & L) & El)]]]; try congruence; injection E as <- <-; exists j1; (split; [exact L|]); (split; [exact El|]); (split; [exact H|]); [|discriminate].
          intros _ r LR ER. apply (O (r :: j :: q)); [| |exact ER]; [exists i, r, (j :: q)|exists r, j1, (j :: q)]; repeat split; try discriminate; lia. }
    destruct (Z.eqb_spec k 0x2B) as [E3|N3]; [exact (Sib true E3)|]. destruct (Z.eqb_spec k 0x7E) as [E4|N4]; [exact (Sib false E4)|].
    exists false. split; [reflexivity|]. split; [discriminate|]. intros (q & [(X & _)|[(X & _)|[(X & _)|(X & _)]]] & _); congruence.
Qed.

(** * Strings *)

(** The values of [char32_t]. *)
Definition range (s : list Z) : Prop := Forall (fun c => 0 <= c < 2 ^ 32) s.
Lemma enc32 s : enc utf32 s = Some s.
Proof. induction s as [|c s IH]; [reflexivity|]. cbn [enc]. rewrite IH. reflexivity. Qed.
Lemma enc_all32 l : enc_all utf32 l = Some l.
Proof. induction l as [|w l IH]; [reflexivity|]. cbn [enc_all]. now rewrite enc32, IH. Qed.
Lemma words32 s : range s -> exists l, Words s l /\ split_on_ws utf32 s = Some l.
Proof.
  intros R. destruct (Words_ex s) as [l W]. exists l. split; [exact W|]. rewrite (split_on_ws_enc utf32 s s l); [apply enc_all32| |apply enc32|exact W].
  revert R. apply Forall_impl. intros c H. exists [c]. split; [reflexivity|]. split; [discriminate|]. intros rest. change (c_dec utf32 ([c] ++ rest)) with (Some (c mod 2 ^ 32, rest)). now rewrite Z.mod_small.
Qed.
Lemma same_text_iff a : forall b, same_text a b = true <-> a = b.
Proof.
  induction a as [|x a IH]; intros [|y b]; cbn [same_text]; [easy|easy|easy|]. rewrite andb_true_iff, IH, Z.eqb_eq. split; [intros [-> ->]; reflexivity|intros E; injection E; auto].
Qed.
Definition fold_case (s : list Z) : list Z := map low_letter s.
Lemma same_ci_eq a b : same_ci a b = Some (eqb_str (fold_case a) (fold_case b)).
Proof.
  unfold same_ci. rewrite match_eq. f_equal. change (map low a) with (fold_case a). change (map low b) with (fold_case b). apply eq_true_iff_eq. now rewrite same_text_iff, eqb_str_iff.
Qed.
Lemma lower_eq s : lower s = Some (fold_case s). Proof. apply lower32. Qed.
Definition words (s : list Z) (w : list Z) : Prop := exists l, Words s l /\ In w l.
Lemma any_spec {A : Type} (f : A -> option bool) l : (forall x, In x l -> f x <> None) -> exists b, any f l = Some b /\ (b = true <-> exists x, In x l /\ f x = Some true).
Proof.
  induction l as [|x l IH]; intros H; [exists false; split; [reflexivity|]; split; [discriminate|intros (x & [] & _)]|].
  cbn [any]. pose proof (H x (or_introl eq_refl)) as S. destruct (f x) as [[|]|] eqn:E; [| |congruence]; cbn [obind].
  - exists true. split; [reflexivity|]. split; [|reflexivity]. intros _. exists x. split; [now left|exact E].
  - destruct IH as (b & B & I); [intros y Y; apply H; now right|]. exists b. split; [exact B|]. rewrite I. split; intros (y & Y & G); exists y; (split; [|exact G]); [now right|]. destruct Y as [<-|Y]; [congruence|exact Y].
Qed.
Lemma begins_iff p : forall s, begins p s = true <-> exists r, s = p ++ r.
Proof.
  induction p as [|x p IH]; intros s; [cbn; split; [eauto|reflexivity]|]. destruct s as [|y s]; cbn [begins]; [split; [discriminate|intros [r E]; discriminate]|].
  rewrite andb_true_iff, IH, Z.eqb_eq. split; [intros (-> & r & ->); now exists r|intros [r E]; injection E as -> ->; eauto].
Qed.
Lemma contains_iff p s : contains p s = true <-> exists a r, s = a ++ p ++ r.
Proof.
  induction s as [|y s IH]; cbn [contains]; rewrite orb_true_iff, begins_iff.
  - split; [intros [[r E]|E]; [|discriminate]; exists [], r; exact E|intros (a & r & E); left; destruct a; [eauto|discriminate]].
  - rewrite IH. split.
    + intros [[r E]|(a & r & E)]; [exists [], r; exact E|exists (y :: a), r; now rewrite E].
    + intros (a & r & E). destruct a as [|z a]; [left; eauto|right]. injection E as -> ->. eauto.
Qed.

(** * Attributes *)

(** What the operator [k] asks of the value [s], by the text and without the case if [i]. *)
Definition folded (i : Z) (s : list Z) : list Z := if i =? 0x69 then fold_case s else s.
Definition value_says (k : Z) (v : list Z) (i : Z) (s : list Z) : Prop :=
  k = 0 \/ (k = 0x3D /\ folded i s = folded i v) \/ (k = 0x7E /\ exists w, words s w /\ folded i w = folded i v) \/
  (k = 0x7C /\ (folded i s = folded i v \/ exists r, folded i s = folded i v ++ 0x2D :: r)) \/
  (k = 0x5E /\ v <> [] /\ exists r, folded i s = folded i v ++ r) \/ (k = 0x24 /\ v <> [] /\ exists r, folded i s = r ++ folded i v) \/
  (k = 0x2A /\ v <> [] /\ exists a r, folded i s = a ++ folded i v ++ r).
Lemma folded_length i s : List.length (folded i s) = List.length s. Proof. unfold folded. destruct (i =? _); [apply map_length|reflexivity]. Qed.
Lemma folded_app i a b : folded i (a ++ b) = folded i a ++ folded i b. Proof. unfold folded, fold_case. destruct (i =? _); [apply map_app|reflexivity]. Qed.
Lemma folded_rev i s : folded i (rev s) = rev (folded i s). Proof. unfold folded, fold_case. destruct (i =? _); [apply map_rev|reflexivity]. Qed.
Lemma folded_firstn i n s : folded i (firstn n s) = firstn n (folded i s). Proof. unfold folded, fold_case. destruct (i =? _); [symmetry; apply firstn_map|reflexivity]. Qed.
Lemma low_dash c : 0 <= c < 2 ^ 32 -> (low_letter c = 0x2D <-> c = 0x2D).
Proof. intros R. unfold low_letter. rewrite Z.mod_small by exact R. cbv zeta. destruct ((65 <=? c) && (c <=? 90)) eqn:Q; [|easy]. apply andb_true_iff in Q. rewrite !Z.leb_le in Q. lia. Qed.
Lemma compare_eq i a b : (if i =? 0x69 then same_ci a b else Some (eqb_str a b)) = Some (eqb_str (folded i a) (folded i b)).
Proof. unfold folded. destruct (i =? 0x69); [apply same_ci_eq|reflexivity]. Qed.
Lemma starts_iff (v s : list Z) : v = firstn (List.length v) s <-> exists r, s = v ++ r.
Proof.
  split; [intros E; exists (skipn (List.length v) s); rewrite E at 1; symmetry; apply firstn_skipn|]. intros [r ->]. rewrite firstn_app, Nat.sub_diag, firstn_all, firstn_O. now rewrite app_nil_r.
Qed.
Lemma value_spec k v i s : In k [0; 0x3D; 0x7E; 0x7C; 0x5E; 0x24; 0x2A] -> (k = 0 -> v = []) -> range s ->
  exists b, attr_value_matches k v i s = Some b /\
    (b = true <-> match k with
                  | 0x7C => exists r, folded i s = folded i v ++ 0x2D :: r
                  | 0x5E => exists r, folded i s = folded i v ++ r
                  | 0x24 => exists r, folded i s = r ++ folded i v
                  | 0x2A => exists a r, folded i s = a ++ folded i v ++ r
                  | _ => value_says k v i s
                  end).
Proof.
  intros K V R. unfold attr_value_matches. cbv zeta. cbn [In] in K. destruct K as [<-|[<-|[<-|[<-|[<-|[<-|[<-|[]]]]]]]].
  - rewrite (V eq_refl). exists true. split; [reflexivity|]. unfold value_says. tauto.
  - rewrite compare_eq. eexists. split; [reflexivity|]. rewrite eqb_str_iff. unfold value_says. split; [intros E; right; left; auto|].
    intros [X|[[_ E]|[[X _]|[[X _]|[[X _]|[[X _]|[X _]]]]]]]; [discriminate X|now symmetry|discriminate X..].
  - destruct (words32 s R) as (l & W & ->). change (0x7E =? 0) with false. change (0x7E =? 0x3D) with false. change (0x7E =? 0x7E) with true. cbv iota. cbn [obind].
    destruct (any_spec (fun w => obind (if i =? 0x69 then same_ci v w else Some false) (fun b : bool => if b then Some true else Some (eqb_str v w))) l) as (b & -> & I).
    { intros w _. rewrite same_ci_eq. destruct (i =? 0x69); cbn [obind]; [destruct (eqb_str _ _)|]; discriminate. }
    exists b. split; [reflexivity|]. rewrite I. clear I.
    assert (E : forall w, obind (if i =? 0x69 then same_ci v w else Some false) (fun b : bool => if b then Some true else Some (eqb_str v w)) = Some true <-> folded i w = folded i v).
    { intros w. unfold folded. rewrite same_ci_eq. destruct (i =? 0x69); cbn [obind].
      - destruct (eqb_str (fold_case v) (fold_case w)) eqn:Q; [apply eqb_str_iff in Q; easy|]. split; [intros H; injection H as H; apply eqb_str_iff in H; congruence|].
        intros H. symmetry in H. apply eqb_str_iff in H. congruence.
      - split; [intros H; injection H as H; apply eqb_str_iff in H; congruence|intros ->; now rewrite eqb_str_refl]. }
    unfold value_says, words. split.
    + intros (w & Iw & H). apply E in H. right. right. left. split; [reflexivity|]. exists w. split; [eauto|exact H].
    + intros [X|[[X _]|[(_ & w & (l' & W' & Iw) & H)|[[X _]|[[X _]|[[X _]|[X _]]]]]]]; try discriminate X. rewrite (Words_fun s l' W' l W) in Iw. exists w. split; [exact Iw|]. now apply E.
  - change (0x7C =? 0) with false. change (0x7C =? 0x3D) with false. change (0x7C =? 0x7E) with false. change (0x7C =? 0x7C) with true. cbv iota. destruct (Nat.ltb_spec (List.length v) (List.length s)) as [L|L].
    + rewrite compare_eq. cbn [obind]. eexists. split; [reflexivity|]. rewrite andb_true_iff, eqb_str_iff, Z.eqb_eq, folded_firstn.
      destruct (nth_split s 0 L) as (a & r & E & LA). set (c := nth (List.length v) s 0) in *. clearbody c. rewrite E.
      assert (FA : firstn (List.length v) (folded i (a ++ c :: r)) = folded i a).
      { rewrite folded_app, <- LA, <- (folded_length i a), firstn_app, Nat.sub_diag, firstn_all, firstn_O. apply app_nil_r. }
      rewrite FA. assert (RC : 0 <= c < 2 ^ 32) by (unfold range in R; rewrite Forall_forall in R; apply R; rewrite E, in_app_iff; right; now left).
      rewrite folded_app. change (c :: r) with ([c] ++ r). rewrite folded_app. assert (FC : folded i [c] = [if i =? 0x69 then low_letter c else c]) by (unfold folded; now destruct (i =? 0x69)). rewrite FC. cbn [app]. split.
      * intros [-> ->]. exists (folded i r). f_equal. f_equal. now destruct (i =? 0x69).
      * intros [q H]. assert (LE : List.length (folded i a) = List.length (folded i v)) by (rewrite !folded_length; exact LA).
        assert (HH : folded i a = folded i v /\ (if i =? 0x69 then low_letter c else c) = 0x2D).
        { revert H LE. generalize (folded i a), (folded i v). induction l as [|x l IH]; intros [|y l0] H LE; try discriminate LE; [injection H as H _; auto|]. injection H as -> H. injection LE as LE. destruct (IH l0 H LE) as [-> ?]. auto. }
        destruct HH as [-> HC]. split; [reflexivity|]. destruct (i =? 0x69); [now apply low_dash|exact HC].
    + exists false. split; [reflexivity|]. split; [discriminate|]. intros [q H]. exfalso. apply (f_equal (@List.length Z)) in H. rewrite app_length, !folded_length in H. cbn in H. lia.
  - change (0x5E =? 0) with false. change (0x5E =? 0x3D) with false. change (0x5E =? 0x7E) with false. change (0x5E =? 0x7C) with false. change (0x5E =? 0x5E) with true. cbv iota. destruct (Nat.leb_spec (List.length v) (List.length s)) as [L|L].
    + rewrite compare_eq. eexists. split; [reflexivity|]. rewrite eqb_str_iff, folded_firstn, <- (folded_length i v). apply starts_iff.
    + exists false. split; [reflexivity|]. split; [discriminate|]. intros [q H]. exfalso. apply (f_equal (@List.length Z)) in H. rewrite app_length, !folded_length in H. lia.
  - change (0x24 =? 0) with false. change (0x24 =? 0x3D) with false. change (0x24 =? 0x7E) with false. change (0x24 =? 0x7C) with false. change (0x24 =? 0x5E) with false. change (0x24 =? 0x24) with true. cbv iota.
    destruct (Nat.ltb_spec (List.length s) (List.length v)) as [L|L].
    + exists false. split; [reflexivity|]. split; [discriminate|]. intros [q H]. exfalso. apply (f_equal (@List.length Z)) in H. rewrite app_length, !folded_length in H. lia.
    + rewrite compare_eq. eexists. split; [reflexivity|]. rewrite eqb_str_iff, folded_firstn, !folded_rev. rewrite <- (folded_length i v), <- (rev_length (folded i v)). rewrite starts_iff. split; intros [r H].
      * exists (rev r). apply (f_equal (@rev Z)) in H. now rewrite rev_involutive, rev_app_distr, rev_involutive in H.
      * exists (rev r). now rewrite H, rev_app_distr.
  - change (0x2A =? 0) with false. change (0x2A =? 0x3D) with false. change (0x2A =? 0x7E) with false. change (0x2A =? 0x7C) with false. change (0x2A =? 0x5E) with false. change (0x2A =? 0x24) with false. change (0x2A =? 0x2A) with true. cbv iota.
    unfold folded. destruct (i =? 0x69); [rewrite !lower_eq; cbn [obind]|]; eexists; (split; [reflexivity|]); apply contains_iff.
Qed.

(** The namespace that the prefix [q] stands for is [u]. *)
Definition stands_for (m : namespaces) (q u : list Z) : Prop := exists a r, m = a ++ (q, u) :: r /\ forall w, ~ In (q, w) a.
Lemma find_stands m q u : find_ns m q = Some u <-> stands_for m q u.
Proof.
  unfold stands_for. induction m as [|[p w] m IH]; cbn [find_ns].
  - split; [discriminate|]. intros (a & r & E & _). destruct a; discriminate.
  - destruct (eqb_str p q) eqn:Q.
    + apply eqb_str_iff in Q. subst p. split.
      * intros [= ->]. exists [], m. auto.
      * intros (a & r & E & N). destruct a as [|[p0 w0] a]; [injection E as -> _; reflexivity|]. injection E as <- <- _. exfalso. apply (N w). now left.
    + rewrite IH. assert (NE : p <> q) by (rewrite <- eqb_str_iff; congruence). split.
      * intros (a & r & -> & N). exists ((p, w) :: a), r. split; [reflexivity|]. intros w0 [E|I]; [congruence|now apply (N w0)].
      * intros (a & r & E & N). destruct a as [|[p0 w0] a]; [injection E as -> _; congruence|]. injection E as -> -> ->. exists a, r. split; [reflexivity|]. intros w1 I. apply (N w1). now right.
Qed.
Lemma find_none m q : find_ns m q = None <-> forall u, ~ In (q, u) m.
Proof.
  induction m as [|[p w] m IH]; cbn [find_ns In]; [split; [auto|reflexivity]|]. destruct (eqb_str p q) eqn:Q.
  - apply eqb_str_iff in Q. subst p. split; [discriminate|]. intros H. destruct (H w). now left.
  - rewrite IH. assert (NE : p <> q) by (rewrite <- eqb_str_iff; congruence). split; [intros H u [E|I]; [congruence|now apply (H u)]|intros H u I; apply (H u); now right].
Qed.
(** Whether the namespace [ns] is the one that a prefix asks for. *)
Definition prefix_says (m : namespaces) (q ns : list Z) : Prop := q = [0x2A] \/ (q = [] /\ ns = []) \/ (q <> [0x2A] /\ q <> [] /\ stands_for m q ns).
(** Without a prefix, an attribute is in no namespace; an element is in the default one, if there is one. *)
Definition attr_name_says (c : context) (p : option (list Z)) (n : list Z) (a : attr) : Prop :=
  match p with Some q => prefix_says (c_ns c) q (a_ns a) | None => a_ns a = [] end /\ if c_type c =? 1 then a_name a = n else fold_case (a_name a) = fold_case n.
Definition type_says (c : context) (t : type_sel) (e : element) : Prop :=
  match (match t with TName p _ => p | TAny p => p end) with
  | Some q => prefix_says (c_ns c) q (e_ns e)
  | None => stands_for (c_ns c) [] (e_ns e) \/ forall u, ~ In ([], u) (c_ns c)
  end /\ match t with TName _ n => if c_type c =? 2 then fold_case (e_name e) = fold_case n else e_name e = n | TAny _ => True end.
Lemma prefix_says_iff m q ns : (if eqb_str q [0x2A] then true else if eqb_str q [] then match ns with [] => true | _ => false end else match find_ns m q with Some u => eqb_str u ns | None => false end) = true
  <-> prefix_says m q ns.
Proof.
  unfold prefix_says. destruct (eqb_str q [0x2A]) eqn:Q1; [apply eqb_str_iff in Q1; tauto|]. assert (N1 : q <> [0x2A]) by (rewrite <- eqb_str_iff; congruence).
  destruct (eqb_str q []) eqn:Q2.
  - apply eqb_str_iff in Q2. split.
    + destruct ns; [intros _; right; left; auto|discriminate].
    + intros [E|[[_ ->]|[_ [N _]]]]; [contradiction|reflexivity|contradiction].
  - assert (N2 : q <> []) by (rewrite <- eqb_str_iff; congruence). rewrite <- find_stands. destruct (find_ns m q) as [u|].
    + rewrite eqb_str_iff. split; [intros ->; right; right; auto|intros [E|[[E _]|(_ & _ & E)]]; [contradiction|contradiction|now injection E]].
    + split; [discriminate|]. intros [E|[[E _]|(_ & _ & E)]]; [contradiction|contradiction|discriminate].
Qed.
Lemma attr_name_spec c p n a : exists b, attr_matches_name c p n a = Some b /\ (b = true <-> attr_name_says c p n a).
Proof.
  unfold attr_matches_name, attr_name_says.
  assert (NS : (match p with Some q => if eqb_str q [0x2A] then true else if eqb_str q [] then match a_ns a with [] => true | _ => false end else match find_ns (c_ns c) q with Some u => eqb_str u (a_ns a) | None => false end
    | None => match a_ns a with [] => true | _ => false end end) = true <-> match p with Some q => prefix_says (c_ns c) q (a_ns a) | None => a_ns a = [] end).
  { destruct p as [q|]; [apply prefix_says_iff|]. destruct (a_ns a); split; congruence. }
  destruct (match p with Some q => _ | None => _ end) eqn:B.
  - rewrite same_ci_eq. destruct (c_type c =? 1); eexists; (split; [reflexivity|]); rewrite eqb_str_iff; (split; [intros E; split; [now apply NS|congruence]|intros [_ E]; congruence]).
  - exists false. split; [reflexivity|]. split; [discriminate|]. intros [H _]. apply NS in H. discriminate.
Qed.
Lemma find_attr_spec c p n l : exists o, find_attr c p n l = Some o /\
  match o with Some a => exists x y, l = x ++ a :: y /\ attr_name_says c p n a /\ forall b, In b x -> ~ attr_name_says c p n b | None => forall b, In b l -> ~ attr_name_says c p n b end.
Proof.
  induction l as [|a l IH]; [exists None; split; [reflexivity|intros b []]|]. cbn [find_attr]. destruct (attr_name_spec c p n a) as ([|] & -> & I); cbn [obind].
  - exists (Some a). split; [reflexivity|]. exists [], l. split; [reflexivity|]. split; [now apply I|intros b []].
  - assert (N : ~ attr_name_says c p n a) by (rewrite <- I; discriminate). destruct IH as (o & -> & H). exists o. split; [reflexivity|]. destruct o as [a1|].
    + destruct H as (x & y & -> & S & H). exists (a :: x), y. split; [reflexivity|]. split; [exact S|]. intros b [<-|I1]; auto.
    + intros b [<-|I1]; auto.
Qed.
Definition allowed_mode (c : context) : Prop := ~ (c_type c = 1 /\ (c_mode c = 2 \/ c_mode c = 3)).
Lemma asserted_ok {A : Type} c (x : option A) : allowed_mode c -> asserted c x = x.
Proof.
  unfold allowed_mode, asserted. intros H. destruct (c_type c =? 1) eqn:E1; [|reflexivity]. apply Z.eqb_eq in E1. cbn [andb]. destruct (c_mode c =? 3) eqn:E2; [apply Z.eqb_eq in E2; tauto|]. destruct (c_mode c =? 2) eqn:E3; [apply Z.eqb_eq in E3; tauto|reflexivity].
Qed.
(** The strings of an element. *)
Definition ranged (e : element) : Prop := forall a, In a (e_attrs e) -> range (a_value a).
Definition good_attr (a : attribute_sel) : Prop := In (at_matcher a) [0; 0x3D; 0x7E; 0x7C; 0x5E; 0x24; 0x2A] /\ (at_matcher a = 0 -> at_value a = []).
Lemma attr_defined a e c : allowed_mode c -> ranged e -> good_attr a -> match_attr a (KElement e) c <> None.
Proof.
  intros M R [G1 G2]. unfold match_attr. rewrite asserted_ok by exact M. destruct (find_attr_spec c (at_prefix a) (at_name a) (e_attrs e)) as (o & -> & H). cbn [obind]. destruct o as [x|]; [|discriminate].
  destruct H as (l1 & l2 & E & _). destruct (value_spec (at_matcher a) (at_value a) (at_modifier a) (a_value x)) as (b & -> & _); auto; [|discriminate]. apply R. rewrite E, in_app_iff. right. now left.
Qed.
Lemma type_spec c t e : allowed_mode c -> t <> TAny None -> exists b, match_type t (KElement e) c = Some b /\ (b = true <-> type_says c t e).
Proof.
  intros M N. unfold match_type. rewrite asserted_ok by exact M. unfold type_says.
  set (P := match (match t with TName p _ => p | TAny p => p end) with Some q => prefix_says (c_ns c) q (e_ns e) | None => stands_for (c_ns c) [] (e_ns e) \/ forall u, ~ In ([], u) (c_ns c) end).
  set (ns := fun opt : option (list Z) => match opt with
           | Some q => if eqb_str q [0x2A] then true else if eqb_str q [] then match e_ns e with [] => true | _ => false end else match find_ns (c_ns c) q with Some u => eqb_str u (e_ns e) | None => false end
           | None => match find_ns (c_ns c) [] with Some u => eqb_str u (e_ns e) | None => true end end).
  assert (NS : ns (match t with TName p _ => p | TAny p => p end) = true <-> P).
  { unfold ns, P. destruct (match t with TName p _ => p | TAny p => p end) as [q|]; [apply prefix_says_iff|]. rewrite <- find_stands, <- find_none. destruct (find_ns (c_ns c) []) as [u|].
    - rewrite eqb_str_iff. split; [intros ->; auto|intros [E|E]; [now injection E|discriminate]].
    - split; auto. }
  assert (E : match t with TName p _ => Some p | TAny (Some p) => Some (Some p) | TAny None => None end = Some (match t with TName p _ => p | TAny p => p end)) by (destruct t as [p n|[p|]]; congruence).
  rewrite E. cbn [obind]. cbv zeta. fold (ns (match t with TName p _ => p | TAny p => p end)). destruct (ns _) eqn:B; cbn [negb].
  - destruct t as [p n|p]; [|exists true; split; [reflexivity|]; split; [intros _; split; [now apply NS|exact I]|reflexivity]].
    rewrite same_ci_eq. destruct (c_type c =? 2); eexists; (split; [reflexivity|]); rewrite eqb_str_iff; (split; [intros Q; split; [now apply NS|congruence]|intros [_ Q]; congruence]).
  - exists false. split; [reflexivity|]. split; [discriminate|]. intros [H _]. apply NS in H. discriminate.
Qed.

(** * Identifiers and classes *)

(** The attribute of this name; its name is compared as HTML does in a document of HTML. *)
Definition named (c : context) (n : list Z) (a : attr) : Prop := if c_type c =? 2 then fold_case (qualified_name a) = n else qualified_name a = n.
Lemma named_spec c a n : exists b, attr_name_is c a n = Some b /\ (b = true <-> named c n a).
Proof. unfold attr_name_is, named. rewrite lower_eq. destruct (c_type c =? 2); cbn [obind]; eexists; (split; [reflexivity|]); apply eqb_str_iff. Qed.
Lemma id_spec c v e : allowed_mode c -> exists b, match_id v (KElement e) c = Some b /\
  (b = true <-> exists a, In a (e_attrs e) /\ named c (lit "id") a /\ (if c_mode c =? 2 then fold_case (a_value a) else a_value a) = v).
Proof.
  intros M. unfold match_id. rewrite asserted_ok by exact M. change (lit "id") with [0x69; 0x64]. induction (e_attrs e) as [|a l IH]; [exists false; split; [reflexivity|]; split; [discriminate|intros (a & [] & _)]|].
  cbn [id_loop]. destruct IH as (b0 & B0 & I0). destruct (named_spec c a [0x69; 0x64]) as ([|] & -> & I); cbn [obind].
  - rewrite lower_eq. assert (E : (if c_mode c =? 2 then Some (fold_case (a_value a)) else Some (a_value a)) = Some (if c_mode c =? 2 then fold_case (a_value a) else a_value a)) by (now destruct (c_mode c =? 2)). rewrite E. cbn [obind].
    destruct (eqb_str _ v) eqn:Q.
    + apply eqb_str_iff in Q. exists true. split; [reflexivity|]. split; [|reflexivity]. intros _. exists a. split; [now left|]. split; [now apply I|exact Q].
    + exists b0. split; [exact B0|]. rewrite I0. split; intros (x & X & H); exists x; (split; [|exact H]); [now right|]. destruct X as [<-|X]; [|exact X]. destruct H as [_ H]. apply eqb_str_iff in H. congruence.
  - exists b0. split; [exact B0|]. rewrite I0. split; intros (x & X & H); exists x; (split; [|exact H]); [now right|]. destruct X as [<-|X]; [|exact X]. destruct H as [H _]. apply I in H. discriminate.
Qed.
Lemma fold_range s : range (fold_case s).
Proof.
  unfold range, fold_case. apply Forall_map, Forall_forall. intros c _. unfold low_letter. pose proof (Z.mod_pos_bound c (2 ^ 32)). cbv zeta. destruct ((65 <=? c mod 2 ^ 32) && (c mod 2 ^ 32 <=? 90)) eqn:Q; [|lia].
  apply andb_true_iff in Q. rewrite !Z.leb_le in Q. lia.
Qed.
Lemma class_spec c n e : allowed_mode c -> ranged e -> exists b, match_class n (KElement e) c = Some b /\
  (b = true <-> exists a, In a (e_attrs e) /\ named c (lit "class") a /\
    if c_mode c =? 2 then exists w, words (fold_case (a_value a)) w /\ fold_case w = fold_case n else words (a_value a) (a_value a)).
Proof.
  intros M R. unfold match_class. rewrite asserted_ok by exact M. change (lit "class") with [0x63; 0x6C; 0x61; 0x73; 0x73]. unfold ranged in R. induction (e_attrs e) as [|a l IH]; [exists false; split; [reflexivity|]; split; [discriminate|intros (a & [] & _)]|].
  cbn [class_loop]. destruct IH as (b0 & B0 & I0); [intros x X; apply R; now right|]. destruct (named_spec c a [0x63; 0x6C; 0x61; 0x73; 0x73]) as ([|] & -> & I); cbn [obind negb].
  - rewrite lower_eq. assert (E : (if c_mode c =? 2 then Some (fold_case (a_value a)) else Some (a_value a)) = Some (if c_mode c =? 2 then fold_case (a_value a) else a_value a)) by (now destruct (c_mode c =? 2)). rewrite E. cbn [obind].
    assert (Ra : range (if c_mode c =? 2 then fold_case (a_value a) else a_value a)) by (destruct (c_mode c =? 2); [apply fold_range|apply R; now left]). destruct (words32 _ Ra) as (ws & W & ->). cbn [obind].
    destruct (any_spec (fun s => if c_mode c =? 2 then same_ci s n else Some (eqb_str s (if c_mode c =? 2 then fold_case (a_value a) else a_value a))) ws) as (b1 & -> & I1); [intros w _; rewrite same_ci_eq; now destruct (c_mode c =? 2)|].
    assert (Q : b1 = true <-> if c_mode c =? 2 then exists w, words (fold_case (a_value a)) w /\ fold_case w = fold_case n else words (a_value a) (a_value a)).
    { rewrite I1. unfold words. destruct (c_mode c =? 2); split.
      - intros (w & Iw & H). rewrite same_ci_eq in H. injection H as H. apply eqb_str_iff in H. exists w. eauto.
      - intros (w & (l' & W' & Iw) & H). rewrite (Words_fun _ l' W' ws W) in Iw. exists w. split; [exact Iw|]. rewrite same_ci_eq. f_equal. now apply eqb_str_iff.
      - intros (w & Iw & H). injection H as H. apply eqb_str_iff in H. subst w. eauto.
      - intros (l' & W' & Iw). rewrite (Words_fun _ l' W' ws W) in Iw. exists (a_value a). split; [exact Iw|]. now rewrite eqb_str_refl. }
    destruct b1; cbn [obind].
    + exists true. split; [reflexivity|]. split; [|reflexivity]. intros _. exists a. split; [now left|]. split; [now apply I|now apply Q].
    + exists b0. split; [exact B0|]. rewrite I0. split; intros (x & X & H); exists x; (split; [|exact H]); [now right|]. destruct X as [<-|X]; [|exact X]. destruct H as [_ H]. apply Q in H. discriminate.
  - exists b0. split; [exact B0|]. rewrite I0. split; intros (x & X & H); exists x; (split; [|exact H]); [now right|]. destruct X as [<-|X]; [|exact X]. destruct H as [H _]. apply I in H. discriminate.
Qed.

(** * Compound selectors: when matching is defined *)

Definition good_part (p : part) : Prop := p <> PType (TAny None) /\ forall a, p = PSub (SAttr a) -> good_attr a.
Definition ranged_kind (k : kind) : Prop := forall e, k = KElement e -> ranged e.
Lemma part_defined p k c : allowed_mode c -> ranged_kind k -> good_part p -> match_part p k c <> None.
Proof.
  intros M R [G1 G2]. destruct p as [t|[v|n|a|p]|p|p]; cbn [match_part]; unfold match_subclass.
  - destruct k as [e| |]; try (unfold match_type; rewrite asserted_ok by exact M; discriminate). destruct (type_spec c t e M) as (b & -> & _); [congruence|discriminate].
  - rewrite asserted_ok by exact M. destruct k as [e| |]; try (unfold match_id; rewrite asserted_ok by exact M; discriminate). destruct (id_spec c v e M) as (b & -> & _). discriminate.
  - rewrite asserted_ok by exact M. destruct k as [e| |]; try (unfold match_class; rewrite asserted_ok by exact M; discriminate). destruct (class_spec c n e M) as (b & -> & _); [now apply R|discriminate].
  - rewrite asserted_ok by exact M. destruct k as [e| |]; try (unfold match_attr; rewrite asserted_ok by exact M; discriminate). apply attr_defined; auto.
  - rewrite asserted_ok by exact M. unfold match_pseudo_class. rewrite asserted_ok by exact M. discriminate.
  - unfold match_pseudo_element. rewrite asserted_ok by exact M. discriminate.
  - unfold match_pseudo_class. rewrite asserted_ok by exact M. discriminate.
Qed.
Lemma compound_spec l k c : allowed_mode c -> ranged_kind k -> Forall good_part l -> exists b, match_compound l k c = Some b /\ (b = true <-> forall p, In p l -> match_part p k c = Some true).
Proof.
  intros M R G. unfold match_compound. rewrite asserted_ok by exact M. induction G as [|p l Gp _ IH]; [exists true; split; [reflexivity|]; split; [intros _ p []|reflexivity]|].
  cbn [all_parts]. pose proof (part_defined p k c M R Gp) as D. destruct (match_part p k c) as [[|]|] eqn:E; [| |congruence]; cbn [obind].
  - destruct IH as (b & -> & I). exists b. split; [reflexivity|]. rewrite I. split; [intros H q [<-|Q]; auto|intros H q Q; apply H; now right].
  - exists false. split; [reflexivity|]. split; [discriminate|]. intros H. specialize (H p (or_introl eq_refl)). congruence.
Qed.
(** What the parser makes has these forms. *)
Lemma matcher_good y k : g_matcher y k -> In k [0; 0x3D; 0x7E; 0x7C; 0x5E; 0x24; 0x2A].
Proof. intros [|c H]; [cbn; auto|]. cbn in *. intuition. Qed.
Lemma body_good D E v a : g_body D E v a -> good_attr a.
Proof. intros []; unfold good_attr; cbn [at_matcher at_value]; [cbn; auto|]. split; [now apply matcher_good in H2|]. intros ->. inversion H2; subst. cbn in H7. intuition discriminate. Qed.
Lemma sub_good D E x u : g_sub D E x u -> good_part (PSub u).
Proof. intros []; split; try discriminate; intros a0 Q; try discriminate. injection Q as <-. now apply body_good in H. Qed.
Lemma tail_good D E b x l : g_tail D E b x l -> Forall good_part l.
Proof. induction 1; constructor; eauto using sub_good; split; discriminate. Qed.
Lemma comp_good D E x c : g_compound D E x c -> ~ In (PType (TAny None)) c -> Forall good_part c.
Proof.
  intros [x0 t y l T F|y l F _] N; apply tail_good in F; [|exact F]. constructor; [|exact F]. split; [|discriminate]. intros H. apply N. rewrite H. now left.
Qed.
Lemma cx_good D E x l : g_complex D E x l -> (forall cs, In (Comp cs) l -> ~ In (PType (TAny None)) cs) -> forall cs, In (Comp cs) l -> Forall good_part cs.
Proof.
  induction 1 as [x c C|x c s k y l C _ _ IH]; intros N cs I.
  - destruct I as [[= <-]|[]]. apply (comp_good _ _ _ _ C). apply N. now left.
  - destruct I as [[= <-]|[I|I]]; [|discriminate|]; [apply (comp_good _ _ _ _ C); apply N; now left|]. apply IH; [|exact I]. intros cs' I'. apply N. right. now right.
Qed.

(** * The traversal *)

(** The nodes of a tree in the order of the document. *)
Fixpoint walk (p : pointer) (t : tree) : list pointer :=
  match t with Node _ l => p :: (fix go (i : nat) (l : list tree) : list pointer := match l with [] => [] | t :: r => walk (i :: p) t ++ go (S i) r end) O l end.
Fixpoint walks (p : pointer) (i : nat) (l : list tree) : list pointer := match l with [] => [] | t :: r => walk (i :: p) t ++ walks p (S i) r end.
Lemma walk_eq p k l : walk p (Node k l) = p :: walks p 0 l.
Proof. cbn [walk]. f_equal. generalize O. induction l as [|t l IH]; intros i; [reflexivity|]. cbn [walks]. now rewrite <- IH. Qed.
Fixpoint size (t : tree) : nat := match t with Node _ l => S (list_sum (map size l)) end.
Lemma size_in t l : In t l -> (size t <= list_sum (map size l))%nat.
Proof. induction l as [|u l IH]; [intros []|]. unfold list_sum in *. cbn [map fold_right]. intros [->|I]; [lia|]. specialize (IH I). lia. Qed.
Lemma walk_length : forall n t p, (size t <= n)%nat -> List.length (walk p t) = size t.
Proof.
  induction n as [|n IH]; intros [k l] p L; [cbn in L; lia|]. rewrite walk_eq. cbn [size List.length] in *. f_equal. apply le_S_n in L. revert L. generalize O. induction l as [|t l IHl]; intros i L; [reflexivity|].
  cbn [walks map] in *. unfold list_sum in *. cbn [fold_right] in *. rewrite app_length, IH, IHl by lia. reflexivity.
Qed.
Definition tree_at (F : forest) (p : pointer) : tree := match at_ F p with Some t => t | None => Node KOther [] end.
Definition all_below (F : forest) (stack : list pointer) : list pointer := concat (map (fun p => walk p (tree_at F p)) stack).
Lemma child_at F p t i : p <> [] -> at_ F p = Some t -> at_ F (i :: p) = nth_error (t_children t) i.
Proof. intros N E. destruct p as [|j p]; [congruence|]. rewrite at_cons, E. reflexivity. Qed.
Lemma walks_children F p t : p <> [] -> at_ F p = Some t -> walks p 0 (t_children t) = all_below F (children F p).
Proof.
  intros N E. unfold all_below, children. rewrite E. assert (G : forall l i, (forall j u, nth_error l j = Some u -> at_ F ((i + j)%nat :: p) = Some u) ->
    walks p i l = concat (map (fun p => walk p (tree_at F p)) (map (fun i => i :: p) (seq i (List.length l))))).
  { induction l as [|u l IH]; intros i H; [reflexivity|]. cbn [walks List.length seq map concat]. f_equal.
    - unfold tree_at. specialize (H O u eq_refl). rewrite Nat.add_0_r in H. now rewrite H.
    - apply IH. intros j w J. replace (S i + j)%nat with (i + S j)%nat by lia. now apply H. }
  apply G. intros j u J. cbn [Nat.add]. now rewrite (child_at F p t j N E).
Qed.
Lemma children_nodes F p : p <> [] -> Forall (fun q => q <> [] /\ node F q) (children F p).
Proof.
  intros N. unfold children. destruct (at_ F p) as [t|] eqn:E; [|constructor]. apply Forall_map, Forall_forall. intros i I. apply in_seq in I. split; [discriminate|]. unfold node. rewrite (child_at F p t i N E).
  destruct (nth_error (t_children t) i) as [u|] eqn:Q; [eauto|]. apply nth_error_None in Q. lia.
Qed.
Definition chosen (F : forest) (c : context) (l : list complex) (root p : pointer) : option bool := match root with [] => match_list F c l p | _ => if below root (parent p) then match_list F c l p else Some false end.
Lemma loop_spec F c l root : (forall p, node F p -> match_list F c l p <> None) -> forall fuel stack out, Forall (fun q => q <> [] /\ node F q) stack -> (List.length (all_below F stack) <= fuel)%nat ->
  match_loop fuel F c l root stack out = Val (out ++ filter (fun p => match chosen F c l root p with Some true => true | _ => false end) (all_below F stack)).
Proof.
  intros Df. induction fuel as [|n IH]; intros stack out S L.
  - destruct stack as [|p r]; [cbn; now rewrite app_nil_r|]. exfalso. unfold all_below in L. cbn [map concat] in L. rewrite app_length in L. destruct (tree_at F p). rewrite walk_eq in L. cbn in L. lia.
  - destruct stack as [|p r]; [cbn; now rewrite app_nil_r|]. inversion S as [|? ? [N [t T]] S']; subst. cbn [match_loop]. fold (chosen F c l root p).
    assert (D : chosen F c l root p <> None). { unfold chosen. pose proof (Df p (ex_intro _ t T)). destruct root; [assumption|]. destruct (below _ _); [assumption|discriminate]. }
    assert (E : all_below F (p :: r) = p :: all_below F (children F p ++ r)).
    { unfold all_below at 1. cbn [map concat]. unfold tree_at at 1. rewrite T. destruct t as [k ch]. rewrite walk_eq. cbn [app]. f_equal. change ch with (t_children (Node k ch)). rewrite (walks_children F p _ N T).
      unfold all_below. now rewrite map_app, concat_app. }
    rewrite E in *. cbn [List.length] in L. destruct (chosen F c l root p) as [b|] eqn:C; [|congruence]. cbn [popt pbind]. rewrite IH; [|apply Forall_app; split; [now apply children_nodes|exact S']|lia].
    cbn [filter]. rewrite C. destruct b; [now rewrite <- app_assoc|reflexivity].
Qed.
Lemma at_app F r t a : r <> [] -> at_ F r = Some t -> at_ F (a ++ r) = at_ [t] (a ++ [O]).
Proof.
  intros N E. induction a as [|i a IH]; [exact E|]. cbn [app]. destruct (a ++ r) as [|j q] eqn:Q; [destruct a; [cbn in Q; congruence|discriminate]|]. destruct (a ++ [O]) as [|j' q'] eqn:Q'; [destruct a; discriminate|]. rewrite !at_cons. now rewrite IH.
Qed.
Lemma walk_in : forall n F t p q, (size t <= n)%nat -> p <> [] -> at_ F p = Some t -> (In q (walk p t) <-> node F q /\ exists a, q = a ++ p).
Proof.
  induction n as [|n IH]; intros F [k l] p q L N T; [cbn in L; lia|]. cbn [size] in L. apply le_S_n in L. rewrite walk_eq. cbn [In].
  assert (G : forall l0 i, (forall j u, nth_error l0 j = Some u -> at_ F ((i + j)%nat :: p) = Some u) -> (list_sum (map size l0) <= n)%nat ->
    (In q (walks p i l0) <-> exists j a, (j < List.length l0)%nat /\ node F q /\ q = a ++ (i + j)%nat :: p)).
  { induction l0 as [|u l0 IHl]; intros i H L0; cbn [walks List.length]; [split; [intros []|intros (j & a & X & _); lia]|].
    rewrite in_app_iff. cbn [map] in L0. unfold list_sum in L0. cbn [fold_right] in L0. fold (list_sum (map size l0)) in L0. rewrite (IH F u (i :: p) q); [|lia|discriminate|].
    - rewrite IHl; [|intros j w J; replace (S i + j)%nat with (i + S j)%nat by lia; now apply H|lia]. split.
      + intros [(Nq & a & ->)|(j & a & X & Nq & E)]; [exists O, a; rewrite Nat.add_0_r; repeat split; auto; lia|exists (S j), a; replace (i + S j)%nat with (S i + j)%nat by lia; repeat split; auto; lia].
      + intros (j & a & X & Nq & E). destruct j as [|j]; [left; rewrite Nat.add_0_r in E; split; [exact Nq|eauto]|right; exists j, a; replace (i + S j)%nat with (S i + j)%nat in E by lia; repeat split; auto; lia].
    - specialize (H O u eq_refl). now rewrite Nat.add_0_r in H. }
  rewrite G; [|intros j u J; cbn [Nat.add]; now rewrite (child_at F p _ j N T)|exact L]. split.
  - intros [<-|(j & a & X & Nq & E)]; [split; [now exists (Node k l)|exists []; reflexivity]|]. split; [exact Nq|]. exists (a ++ [j]). rewrite <- app_assoc. exact E.
  - intros (Nq & a & E). destruct a as [|j a _] using rev_ind; [left; now symmetry|right]. rewrite <- app_assoc in E. cbn [app] in E. exists j, a. split; [|split; [exact Nq|exact E]].
    rewrite E in Nq. apply (node_down F a) in Nq; [|discriminate]. destruct Nq as [u U]. rewrite (child_at F p _ j N T) in U. apply nth_error_Some. cbn [t_children] in U. congruence.
Qed.
Lemma before_child p a : before p (a ++ p) \/ a = [].
Proof. destruct a as [|i a]; [now right|left]. left. exists (i :: a). split; [discriminate|reflexivity]. Qed.
Lemma walk_under : forall n t p q, (size t <= n)%nat -> In q (walk p t) -> exists a, q = a ++ p.
Proof.
  induction n as [|n IH]; intros [k l] p q L I; [cbn in L; lia|]. cbn [size] in L. apply le_S_n in L. rewrite walk_eq in I. destruct I as [<-|I]; [now exists []|].
  revert I L. generalize O. induction l as [|u l IHl]; intros i I L; [destruct I|]. cbn [walks] in I. cbn [map] in L. unfold list_sum in L. cbn [fold_right] in L. fold (list_sum (map size l)) in L. apply in_app_iff in I. destruct I as [I|I].
  - destruct (IH u (i :: p) q) as [a ->]; [lia|exact I|]. exists (a ++ [i]). now rewrite <- app_assoc.
  - apply (IHl (S i)); [exact I|lia].
Qed.
Lemma walks_under l : forall i p q, In q (walks p i l) -> exists j a, (i <= j)%nat /\ q = a ++ j :: p.
Proof.
  induction l as [|u l IH]; intros i p q I; [destruct I|]. cbn [walks] in I. apply in_app_iff in I. destruct I as [I|I].
  - destruct (walk_under (size u) u (i :: p) q) as [a ->]; [lia|exact I|]. exists i, a. auto.
  - destruct (IH (S i) p q I) as (j & a & L & ->). exists j, a. split; [lia|reflexivity].
Qed.
Lemma sorted_app {A : Type} (R : A -> A -> Prop) l1 l2 : StronglySorted R l1 -> StronglySorted R l2 -> (forall x y, In x l1 -> In y l2 -> R x y) -> StronglySorted R (l1 ++ l2).
Proof.
  induction 1 as [|x l1 S IH H]; intros S2 C; [exact S2|]. cbn [app]. constructor; [apply IH; [exact S2|intros; apply C; [now right|assumption]]|]. apply Forall_app. split; [exact H|]. apply Forall_forall. intros y Y. apply C; [now left|exact Y].
Qed.
Lemma walk_sorted : forall n t p, (size t <= n)%nat -> StronglySorted before (walk p t).
Proof.
  induction n as [|n IH]; intros [k l] p L; [cbn in L; lia|]. cbn [size] in L. apply le_S_n in L. rewrite walk_eq. constructor.
  - revert L. generalize O. induction l as [|u l IHl]; intros i L; [constructor|]. cbn [walks]. cbn [map] in L. unfold list_sum in L. cbn [fold_right] in L. fold (list_sum (map size l)) in L. apply sorted_app.
    + apply IH. lia.
    + apply IHl. lia.
    + intros x y X Y. destruct (walk_under (size u) u (i :: p) x) as [a ->]; [lia|exact X|]. destruct (walks_under l (S i) p y Y) as (j & b & Lj & ->). right. exists a, b, i, j, p. split; [lia|auto].
  - apply Forall_forall. intros q Q. destruct (walks_under l 0 p q Q) as (j & a & _ & ->). left. exists (a ++ [j]). split; [now destruct a|]. now rewrite <- app_assoc.
Qed.
Lemma filter_sorted {A : Type} (R : A -> A -> Prop) f l : StronglySorted R l -> StronglySorted R (filter f l).
Proof.
  induction 1 as [|x l S IH H]; [constructor|]. cbn [filter]. destruct (f x); [|exact IH]. constructor; [exact IH|]. rewrite Forall_forall in *. intros y Y. apply filter_In in Y. now apply H.
Qed.
Lemma below_iff root p : root <> [] -> (below root p = true <-> exists a, p = a ++ root).
Proof.
  intros N. induction p as [|i p IH]; cbn [below].
  - split; [discriminate|]. intros [a E]. destruct a; [cbn in E; congruence|discriminate].
  - destruct (list_eq_dec Nat.eq_dec (i :: p) root) as [<-|NE]; [split; [intros _; now exists []|reflexivity]|]. rewrite IH. split; [intros [a ->]; now exists (i :: a)|].
    intros [a E]. destruct a as [|j a]; [cbn in E; congruence|]. injection E as -> ->. now exists a.
Qed.
(** No node is before itself, so that the sorted lists have no node twice. *)
Lemma before_irrefl p : ~ before p p.
Proof.
  intros [(a & N & E)|(a & b & i & j & t & L & E1 & E2)].
  - apply N. apply (f_equal (@List.length nat)) in E. rewrite app_length in E. destruct a; [reflexivity|cbn in E; lia].
  - rewrite E1 in E2. assert (LE : List.length a = List.length b) by (apply (f_equal (@List.length nat)) in E2; rewrite !app_length in E2; cbn in E2; lia).
    revert b E2 LE. clear E1. induction a as [|x a IH]; intros [|y b] E LE; try discriminate LE; [injection E as ->; lia|]. injection E as _ E. injection LE as LE. exact (IH b E LE).
Qed.
Lemma sorted_nodup l : StronglySorted before l -> NoDup l.
Proof. induction 1 as [|x l S IH H]; constructor; [|exact IH]. intros I. rewrite Forall_forall in H. now apply (before_irrefl x), H. Qed.
Lemma root_of_suffix F p r : root_of F p = Some r -> exists a, p = a ++ r.
Proof.
  revert r. induction p as [|i p IH]; intros r H; [injection H as <-; now exists []|]. cbn [root_of] in H. destruct (kind_at F (i :: p)) as [k|]; [|discriminate]. cbn [obind] in H.
  destruct (is_root k); [injection H as <-; now exists []|]. destruct (IH r H) as [a ->]. now exists (i :: a).
Qed.
Lemma tree_root_suffix F p r : tree_root F p = Some r -> exists a, p = a ++ r.
Proof.
  unfold tree_root. destruct (kind_at F p) as [k|]; [|discriminate]. cbn [obind]. destruct k; try apply root_of_suffix. intros [= <-]. now exists [].
Qed.

(** * The words of a value without the case *)

Lemma low_ws c : 0 <= c < 2 ^ 32 -> (ws (low_letter c) <-> ws c).
Proof. intros R. unfold low_letter, ws. rewrite Z.mod_small by exact R. cbv zeta. destruct ((65 <=? c) && (c <=? 90)) eqn:Q; [|easy]. apply andb_true_iff in Q. rewrite !Z.leb_le in Q. lia. Qed.
Lemma fold_words s l : range s -> Words s l -> Words (fold_case s) (map fold_case l).
Proof.
  intros R W. induction W as [pre H|pre w rest l H N C B W IH]; unfold range in R.
  - apply Words_nil. unfold fold_case. apply Forall_map. rewrite Forall_forall in *. intros c I. apply low_ws; auto.
  - apply Forall_app in R. destruct R as [R1 R]. apply Forall_app in R. destruct R as [R2 R3]. unfold fold_case. rewrite !map_app. fold (fold_case rest). cbn [map]. apply Words_cons.
    + apply Forall_map. rewrite Forall_forall in *. intros c I. apply low_ws; auto.
    + destruct w; [congruence|discriminate].
    + apply Forall_map. rewrite Forall_forall in *. intros c I K. apply (C c I). now apply low_ws; [apply R2|].
    + destruct B as [->|(c & r & -> & K)]; [now left|right]. exists (low_letter c), (fold_case r). split; [reflexivity|]. apply low_ws; [now inversion R3|exact K].
    + now apply IH.
Qed.
Lemma words_fold s w : range s -> (words (fold_case s) w <-> exists v, words s v /\ w = fold_case v).
Proof.
  intros R. unfold words. destruct (Words_ex s) as [l W]. pose proof (fold_words s l R W) as W'. split.
  - intros (l' & L & I). rewrite (Words_fun _ l' L _ W') in I. apply in_map_iff in I. destruct I as (v & <- & I). eauto.
  - intros (v & (l' & L & I) & ->). rewrite (Words_fun _ l' L _ W) in I. exists (map fold_case l). split; [exact W'|]. now apply in_map.
Qed.
Lemma low_low c : low_letter (low_letter c) = low_letter c.
Proof.
  unfold low_letter. cbv zeta. pose proof (Z.mod_pos_bound c (2 ^ 32)). destruct ((65 <=? c mod 2 ^ 32) && (c mod 2 ^ 32 <=? 90)) eqn:Q.
  - apply andb_true_iff in Q. rewrite !Z.leb_le in Q. rewrite Z.mod_small by lia. destruct ((65 <=? c mod 2 ^ 32 + 32) && (c mod 2 ^ 32 + 32 <=? 90)) eqn:Q2; [|reflexivity]. apply andb_true_iff in Q2. rewrite !Z.leb_le in Q2. lia.
  - rewrite Z.mod_small by lia. now rewrite Q.
Qed.
Lemma fold_fold s : fold_case (fold_case s) = fold_case s.
Proof. unfold fold_case. rewrite map_map. apply map_ext. apply low_low. Qed.
