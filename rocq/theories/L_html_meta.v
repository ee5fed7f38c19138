(** The encoding named by a meta element's content attribute. *)
From Coq Require Import ZArith List Bool Lia String.
From Verif Require Import M_unicode M_infra M_encoding M_labels M_html_meta L_unicode L_infra L_enc_queue L_css5.
Import ListNotations.
Open Scope Z_scope.

(** [q] is what follows the first occurrence of [w] in [s] *)
Definition First (w q s : list Z) : Prop :=
  exists p, s = p ++ w ++ q /\ forall p1 q1, s = p1 ++ w ++ q1 -> (List.length p <= List.length p1)%nat.
Definition stops (P : Z -> Prop) (s : list Z) : Prop := match s with [] => True | c :: _ => ~ P c end.

(** The label in a content attribute, in lower case (spec). *)
Inductive Charset : list Z -> list Z -> Prop :=
| Cs_again : forall s w r l, First (lit "charset") (w ++ r) s -> Forall ws w -> stops ws r -> stops (fun c => c = 0x3D) r ->
    Charset r l -> Charset s l
| Cs_quoted : forall s w v q l r, First (lit "charset") (w ++ lit "=" ++ v ++ [q] ++ l ++ [q] ++ r) s -> Forall ws w -> Forall ws v ->
    q = 0x22 \/ q = 0x27 -> ~ In q l -> Charset s l
| Cs_plain : forall s w v l r, First (lit "charset") (w ++ lit "=" ++ v ++ l ++ r) s -> Forall ws w -> Forall ws v -> l ++ r <> [] ->
    stops (fun c => ws c \/ c = 0x22 \/ c = 0x27) (l ++ r) -> Forall (fun c => c <> 0x3B /\ ~ ws c) l ->
    stops (fun c => c <> 0x3B /\ ~ ws c) r -> Charset s l.

(** ** The pieces of the model *)
Lemma is_ws_spec c : is_ascii_white_space c = true <-> ws c.
Proof. unfold is_ascii_white_space, ws. rewrite !orb_true_iff, !Z.eqb_eq. tauto. Qed.
Lemma is_ws_false c : is_ascii_white_space c = false <-> ~ ws c.
Proof. rewrite <- is_ws_spec. destruct (is_ascii_white_space c); split; intro; congruence. Qed.

Fixpoint drop_ws (s : list Z) : list Z := match s with [] => [] | c :: r => if is_ascii_white_space c then drop_ws r else s end.
Lemma skip_ws_drop s : Forall scalar s -> skip_ws utf32 s = Some (drop_ws s).
Proof.
  intro F. unfold skip_ws. assert (H : forall fuel, (List.length s <= fuel)%nat -> skip_ws_loop fuel utf32 s = Some (drop_ws s)); [|apply H; lia].
  induction F as [|c s Hc F IH]; intros fuel L; [destruct fuel; reflexivity|]. destruct fuel as [|f]; [cbn in L; lia|]. cbn [skip_ws_loop].
  change (c_dec utf32 (c :: s)) with (Some (c mod 2 ^ 32, s)). rewrite Z.mod_small by (unfold scalar in Hc; lia). cbn [drop_ws]. destruct (is_ascii_white_space c); [apply IH; cbn in L; lia|reflexivity].
Qed.
Lemma drop_ws_ok s : exists w, s = w ++ drop_ws s /\ Forall ws w /\ stops ws (drop_ws s).
Proof.
  induction s as [|c s (w & E & F & S)]; [exists []; cbn; auto|]. cbn [drop_ws]. destruct (is_ascii_white_space c) eqn:K.
  - exists (c :: w). cbn [app]. rewrite <- E. split; [reflexivity|]. split; [constructor; [apply is_ws_spec; exact K|exact F]|exact S].
  - exists []. split; [reflexivity|]. split; [constructor|]. apply is_ws_false. exact K.
Qed.
Lemma drop_ws_app w r : Forall ws w -> stops ws r -> drop_ws (w ++ r) = r.
Proof.
  intros F S. induction F as [|c w H _ IH]; cbn [app].
  - destruct r as [|c r]; [reflexivity|]. cbn [drop_ws]. apply is_ws_false in S. rewrite S. reflexivity.
  - cbn [drop_ws]. apply is_ws_spec in H. rewrite H. exact IH.
Qed.
Lemma drop_ws_length s : (List.length (drop_ws s) <= List.length s)%nat.
Proof. induction s as [|c s IH]; [reflexivity|]. cbn [drop_ws]. destruct (is_ascii_white_space c); cbn; lia. Qed.

Lemma match_front_spec w s r : match_front w s = Some r <-> s = w ++ r.
Proof.
  revert s. induction w as [|x w IH]; intros s; [cbn; split; congruence|]. destruct s as [|y s]; cbn; [split; discriminate|].
  destruct (Z.eqb_spec x y); [subst; rewrite IH; split; [intros ->; reflexivity|intro H; inversion H; reflexivity]|split; [discriminate|intro H; inversion H; congruence]].
Qed.
Lemma search_after_spec w : w <> [] -> forall s r, search_after w s = Some r <-> First w r s.
Proof.
  intro Nw. assert (U : forall r r1 s, First w r s -> First w r1 s -> r = r1).
  { intros r r1 s (p & E & H) (p1 & E1 & H1). pose proof (H _ _ E1). pose proof (H1 _ _ E). rewrite E in E1.
    assert (L : List.length p = List.length p1) by lia. clear - L E1. revert p1 L E1. induction p as [|x p IH]; intros [|y p1] L E; try discriminate.
    - cbn in E. apply app_inv_head in E. exact E.
    - cbn in E. inversion E. eapply IH; [|eassumption]. cbn in L. lia. }
  assert (K : forall s r, search_after w s = Some r -> First w r s).
  { induction s as [|c s IH]; intros r H; cbn [search_after] in H.
    - destruct (match_front w []) as [q|] eqn:M; [|discriminate]. assert (q = r) by congruence. subst q. apply match_front_spec in M. exists []. split; [exact M|]. intros; cbn; lia.
    - destruct (match_front w (c :: s)) as [q|] eqn:M.
      + assert (q = r) by congruence. subst q. apply match_front_spec in M. exists []. split; [exact M|]. intros; cbn; lia.
      + apply IH in H. destruct H as (p & E & H). exists (c :: p). split; [rewrite E; reflexivity|]. intros [|y p1] q1 E1.
        * exfalso. cbn [app] in E1. apply match_front_spec in E1. congruence.
        * cbn [app] in E1. inversion E1; subst. cbn. apply H in H2. lia. }
  intros s r. split; [apply K|]. intro H. destruct (search_after w s) as [q|] eqn:E; [f_equal; eapply U; [apply K; exact E|exact H]|].
  exfalso. destruct H as (p & Es & _). subst s. induction p as [|c p IH]; cbn [app] in E.
  - pose proof (proj2 (match_front_spec w (w ++ r) r) eq_refl) as M. destruct (w ++ r); cbn [search_after] in E; rewrite M in E; discriminate.
  - cbn [search_after] in E. destruct (match_front w _); [discriminate|]. apply IH. exact E.
Qed.
Lemma search_shorter w s r : w <> [] -> search_after w s = Some r -> (List.length r < List.length s)%nat.
Proof. intros N H. apply (search_after_spec w N) in H. destruct H as (p & -> & _). rewrite !app_length. destruct w; [contradiction|]. cbn; lia. Qed.

Lemma split_at_ok p s : let (a, b) := split_at p s in s = a ++ b /\ Forall (fun c => p c = false) a /\ stops (fun c => p c = false) b.
Proof.
  induction s as [|c s IH]; cbn [split_at]; [cbn; auto|]. destruct (p c) eqn:E.
  - split; [reflexivity|]. split; [constructor|]. cbn. congruence.
  - destruct (split_at p s) as [a b]. destruct IH as (A & B & C). split; [cbn; congruence|]. split; [constructor; assumption|exact C].
Qed.
Lemma split_at_app p a b : Forall (fun c => p c = false) a -> stops (fun c => p c = false) b -> split_at p (a ++ b) = (a, b).
Proof.
  intros F S. induction F as [|c a H _ IH]; cbn [app].
  - destruct b as [|c b]; [reflexivity|]. cbn [split_at stops] in *. destruct (p c); [reflexivity|congruence].
  - cbn [split_at]. rewrite H, IH. reflexivity.
Qed.

(** ** The loop *)
Fixpoint label_of (fuel : nat) (s : list Z) : option (list Z) :=
  match fuel with
  | O => None
  | S f =>
      match search_after (lit "charset") s with
      | None => None
      | Some p1 =>
          match drop_ws p1 with
          | [] => label_of f []
          | c :: p2 =>
              if negb (c =? 0x3D) then label_of f (c :: p2)
              else match drop_ws p2 with
                   | [] => None
                   | q :: p3 =>
                       if (q =? 0x22) || (q =? 0x27) then
                         match split_at (fun c => c =? q) p3 with (_, []) => None | (label, _ :: _) => Some label end
                       else Some (fst (split_at (fun c => (c =? 0x3B) || is_ascii_white_space c) (q :: p3)))
                   end
          end
      end
  end.
Lemma meta_loop_label fuel : forall s, Forall scalar s -> (List.length s < fuel)%nat ->
  meta_loop fuel s = match label_of fuel s with None => Val None | Some l => lookup l end.
Proof.
  induction fuel as [|f IH]; intros s F L; [lia|]. cbn [meta_loop label_of].
  destruct (search_after (lit "charset") s) as [p1|] eqn:E; [|reflexivity].
  assert (F1 : Forall scalar p1).
  { apply search_after_spec in E; [|discriminate]. destruct E as (p & -> & _). rewrite !Forall_app in F. tauto. }
  apply search_shorter in E; [|discriminate].
  rewrite skip_ws_drop by exact F1. pose proof (drop_ws_length p1). destruct (drop_ws_ok p1) as (w & Ew & _). rewrite Ew in F1. apply Forall_app in F1. destruct F1 as [_ F1].
  clear Ew. destruct (drop_ws p1) as [|c p2]; [apply IH; [constructor|cbn; lia]|].
  destruct (negb (c =? 0x3D)); [apply IH; [exact F1|cbn in *; lia]|]. rewrite skip_ws_drop by (inversion F1; assumption). destruct (drop_ws p2) as [|q p3]; [reflexivity|].
  destruct ((q =? 0x22) || (q =? 0x27)); [|reflexivity]. destruct (split_at (fun c0 => c0 =? q) p3) as [a [|b r]]; reflexivity.
Qed.

Lemma label_charset fuel : forall s l, label_of fuel s = Some l -> Charset s l.
Proof.
  induction fuel as [|f IH]; intros s l H; [discriminate|]. cbn [label_of] in H.
  destruct (search_after (lit "charset") s) as [p1|] eqn:E; [|discriminate]. apply search_after_spec in E; [|discriminate].
  destruct (drop_ws_ok p1) as (w & Ew & Fw & Sw). rewrite Ew in E.
  destruct (drop_ws p1) as [|c p2] eqn:D; [eapply Cs_again; [exact E|exact Fw|exact Sw|exact I|apply IH; exact H]|].
  destruct (Z.eqb_spec c 0x3D) as [->|Nc]; cbn [negb] in H.
  - destruct (drop_ws_ok p2) as (v & Ev & Fv & Sv). rewrite Ev in E. destruct (drop_ws p2) as [|q p3] eqn:D2; [discriminate|].
    destruct ((q =? 0x22) || (q =? 0x27)) eqn:Q.
    + pose proof (split_at_ok (fun c => c =? q) p3) as Sp. destruct (split_at (fun c => c =? q) p3) as [a [|b r]]; [discriminate|].
      assert (a = l) by congruence. subst a. destruct Sp as (Ep & Fp & Sp). cbn [stops] in Sp.
      assert (b = q) by (destruct (Z.eqb_spec b q); [assumption|exfalso; apply Sp; reflexivity]). subst b p3.
      apply (Cs_quoted s w v q l r); [exact E|exact Fw|exact Fv|rewrite orb_true_iff, !Z.eqb_eq in Q; exact Q|].
      intro K. rewrite Forall_forall in Fp. apply Fp in K. rewrite Z.eqb_refl in K. discriminate.
    + pose proof (split_at_ok (fun c => (c =? 0x3B) || is_ascii_white_space c) (q :: p3)) as Sp.
      destruct (split_at _ (q :: p3)) as [a b]. cbn [fst] in H. assert (a = l) by congruence. subst a. destruct Sp as (Ep & Fp & Sp).
      apply (Cs_plain s w v l b); [rewrite <- Ep; exact E|exact Fw|exact Fv|rewrite <- Ep; discriminate| | |].
      * rewrite <- Ep. cbn [stops] in *. apply orb_false_iff in Q. rewrite !Z.eqb_neq in Q. tauto.
      * eapply Forall_impl; [|exact Fp]. cbn. intros c K. apply orb_false_iff in K. rewrite Z.eqb_neq, is_ws_false in K. exact K.
      * destruct b as [|c b]; [exact I|]. cbn [stops] in *. intro K. apply Sp. apply orb_false_iff. rewrite Z.eqb_neq, is_ws_false. exact K.
  - eapply Cs_again; [exact E|exact Fw|exact Sw|exact Nc|apply IH; exact H].
Qed.
Lemma charset_label_of s l : Charset s l -> forall fuel, (List.length s < fuel)%nat -> label_of fuel s = Some l.
Proof.
  assert (N0 : lit "charset" <> []) by discriminate.
  induction 1 as [s w r l Hf Fw Sw Se _ IH|s w v q l r Hf Fw Fv Hq Nq|s w v l r Hf Fw Fv Ne Sv Fl Sr]; intros fuel L; (destruct fuel as [|f]; [lia|]); cbn [label_of];
    apply (search_after_spec _ N0) in Hf; pose proof (search_shorter _ _ _ N0 Hf) as Sh; rewrite Hf.
  - rewrite (drop_ws_app w r Fw Sw). rewrite app_length in Sh. destruct r as [|c r]; [apply IH; cbn; lia|]. cbn [stops] in Se.
    rewrite (proj2 (Z.eqb_neq _ _) Se). cbn [negb]. apply IH. lia.
  - rewrite (drop_ws_app w _ Fw) by (cbn; unfold ws; lia). cbn [lit app negb Z.eqb]. change (negb (61 =? 61)) with false. cbv iota.
    rewrite (drop_ws_app v (q :: l ++ q :: r) Fv) by (cbn; unfold ws; lia).
    replace ((q =? 0x22) || (q =? 0x27)) with true by (symmetry; rewrite orb_true_iff, !Z.eqb_eq; exact Hq).
    rewrite split_at_app; [reflexivity| |cbn; rewrite Z.eqb_refl; discriminate]. apply Forall_forall. intros c K. apply Z.eqb_neq. intros ->. contradiction.
  - rewrite (drop_ws_app w _ Fw) by (cbn; unfold ws; lia). cbn [lit app]. change (negb (61 =? 61)) with false. cbv iota.
    assert (Sv1 : stops ws (l ++ r)) by (destruct (l ++ r); [exact I|cbn in *; tauto]).
    rewrite (drop_ws_app v (l ++ r) Fv Sv1). destruct (l ++ r) as [|q p3] eqn:Elr; [contradiction|]. cbn [stops] in Sv.
    replace ((q =? 0x22) || (q =? 0x27)) with false by (symmetry; apply orb_false_iff; rewrite !Z.eqb_neq; tauto).
    rewrite <- Elr, split_at_app; [reflexivity| |].
    + eapply Forall_impl; [|exact Fl]. cbn. intros c [K1 K2]. apply orb_false_iff. rewrite Z.eqb_neq, is_ws_false. auto.
    + destruct r as [|c r]; [exact I|]. cbn [stops] in *. intro K. apply Sr. apply orb_false_iff in K. rewrite Z.eqb_neq, is_ws_false in K. exact K.
Qed.

Lemma lower_scalar c : scalar c -> scalar (cp_lower c).
Proof. unfold scalar, cp_lower, is_ascii_upper_alpha. destruct ((0x41 <=? c) && (c <=? 0x5A)) eqn:E; [|auto]. intro; lia. Qed.
Lemma charset_scalar s l : Charset s l -> Forall scalar s -> Forall scalar l.
Proof.
  assert (S : forall w q s, First w q s -> Forall scalar s -> Forall scalar q).
  { intros w q s0 (p & -> & _) F. apply Forall_app in F. destruct F as [_ F]. apply Forall_app in F. apply F. }
  induction 1 as [s w r l Hf Fw Sw Se _ IH|s w v q l r Hf Fw Fv Hq Nq|s w v l r Hf Fw Fv Ne Sv Fl Sr]; intro F; apply (S _ _ _ Hf) in F.
  - apply Forall_app in F. apply IH. apply F.
  - rewrite !Forall_app in F. tauto.
  - rewrite !Forall_app in F. tauto.
Qed.

(** The whole function: the encoding is the one that the label names. *)
Theorem extract_ok s fuel : Forall scalar s -> (List.length s < fuel)%nat ->
  (forall l, Charset (map cp_lower s) l -> l = [] \/ ~ Forall ws l) ->
  exists r, extract_from_meta fuel s = Val r /\ forall e, r = Some e <-> exists l, Charset (map cp_lower s) l /\ Names l e.
Proof.
  intros F L Q. unfold extract_from_meta.
  destruct (case_scalar utf32 utf32 s (or_intror (or_intror eq_refl)) (or_intror (or_intror eq_refl)) F) as (u & E & Lw & _).
  rewrite enc32 in E. assert (u = s) by congruence. subst u. rewrite Lw, enc32.
  assert (Fl : Forall scalar (map cp_lower s)) by (apply Forall_map; eapply Forall_impl; [|exact F]; exact lower_scalar).
  rewrite meta_loop_label by (try exact Fl; rewrite map_length; exact L).
  destruct (label_of fuel (map cp_lower s)) as [l|] eqn:El.
  - apply label_charset in El. assert (Fs : Forall scalar l).
    { eapply charset_scalar; [exact El|]. apply Forall_map. eapply Forall_impl; [|exact F]. exact lower_scalar. }
    destruct (label_lookup l Fs (Q l El)) as (m & T & U & r & G & R). unfold lookup. rewrite G. exists r. split; [reflexivity|].
    intro e. rewrite R. split.
    + intro K. exists l. split; [exact El|]. exists m. split; [exact T|exact K].
    + intros (l1 & C1 & m1 & T1 & K). assert (El1 : l1 = l).
      { apply charset_label_of with (fuel := S (List.length (map cp_lower s))) in C1; [|lia]. apply charset_label_of with (fuel := S (List.length (map cp_lower s))) in El; [|lia]. congruence. }
      subst l1. rewrite (U _ T1) in K. exact K.
  - exists None. split; [reflexivity|]. intro e. split; [discriminate|]. intros (l & C & _).
    apply charset_label_of with (fuel := fuel) in C; [congruence|rewrite map_length; exact L].
Qed.
