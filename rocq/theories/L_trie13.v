(** Iteration over a trie with labels of several bytes: children in order, the pre-order walk, keys. *)
From Coq Require Import ZArith List Bool Lia Sorting.Sorted.
From Verif Require Import M_serialize L_serialize M_trie L_trie L_trie2 L_trie3 L_trie4 L_trie5 L_trie6 L_trie7 L_trie8 L_trie9 L_trie10 L_trie11 M_trie2 L_trie12.
Import ListNotations.
Open Scope Z_scope.
Local Arguments Z.opp : simpl never.
Local Arguments Z.add : simpl never.
Local Arguments Z.sub : simpl never.

Lemma filter_short {A} (f : A -> bool) l : (length (filter f l) <= length l)%nat.
Proof. induction l as [|x l IH]; [easy|]. cbn [filter]. destruct (f x); cbn [length]; lia. Qed.

Lemma mod_gap w a b : (0 < w)%nat -> (a mod w = 0)%nat -> ((a + b) mod w = 0)%nat -> (0 < b)%nat -> (w <= b)%nat.
Proof. intros Hw A B C. destruct (Nat.le_gt_cases w b) as [|G]; [easy|]. rewrite <- Nat.add_mod_idemp_l, A, Nat.mod_small in B by lia. lia. Qed.

Section Wi.
Variables (w : nat) (h : heap) (fl : list Z).
Hypothesis Hw : (0 < w)%nat.
Hypothesis H : HI h fl.
(** every word is continued to a whole number of labels *)
Hypothesis Full : forall u n, Forall byte u -> walk h u <> None -> (n < w)%nat -> ((length u + n) mod w = 0)%nat ->
  exists t, length t = n /\ Forall byte t /\ walk h (u ++ t) <> None.

Definition Words (n : nat) (u t : list Z) : Prop := length t = n /\ Forall byte t /\ walk h (u ++ t) <> None.
Definition least (P : list Z -> Prop) (t : list Z) : Prop := P t /\ forall t', P t' -> t = t' \/ lexlt t t'.

Lemma words_cons n u c t : Words (S n) u (c :: t) -> byte c /\ Words n (u ++ [c]) t.
Proof. intros (L & F & W). inversion F; subst. injection L as L. split; [easy|]. split; [easy|]. split; [easy|]. now rewrite <- app_assoc. Qed.
Lemma words_snoc n u c t : Words (S n) u (t ++ [c]) -> Words n u t /\ byte c.
Proof.
  intros (L & F & W). apply Forall_app in F as [F C]. inversion C; subst. rewrite app_length in L. cbn in L. split; [|easy]. split; [lia|]. split; [easy|]. intros N. apply W. rewrite app_assoc, walk_snoc, N. easy.
Qed.
Lemma walk_step u p c : walk h u = Some p -> walk h (u ++ [c]) = step h p c. Proof. intros W. now rewrite walk_snoc, W. Qed.
Lemma words_step n u p c t : walk h u = Some p -> Words (S n) u (c :: t) -> step h p c <> None.
Proof. intros W X. apply words_cons in X as (_ & _ & _ & X). intros N. apply X. unfold walk. rewrite walk_from_app. fold (walk h (u ++ [c])). rewrite (walk_step u p c W), N. easy. Qed.

Lemma find_first u p : walk h u = Some p -> 1 <= Bs h p ->
  exists r, it_find h (Bs h p) (Bs h p + null_value) p = Some r /\
    ((r = 0 /\ forall l, 0 <= l < 256 -> step h p l = None) \/
     (exists l, 0 <= l < 256 /\ step h p l = Some r /\ r <> 0 /\ forall l', 0 <= l' < l -> step h p l' = None)).
Proof.
  intros W B. pose proof (walk_alloc _ _ H _ _ W) as Ap. pose proof (hi_base _ _ H p Ap) as Bl. unfold null_value. destruct (it_find_ok h (Bs h p) (Bs h p + 256) p) as (r & E & R); [lia|lia|].
  exists r. split; [easy|]. assert (X := first_child h fl H u p 0 r W). rewrite Z.add_0_r in X. destruct (X ltac:(lia) B R) as [Y|(l & Y)]; [now left|]. right. exists l. tauto.
Qed.
Lemma step_base p c q : step h p c = Some q -> 1 <= Bs h p. Proof. intros S. now apply step_some in S. Qed.

Lemma down_ok n : forall u p, walk h u = Some p -> Forall byte u -> (n < w)%nat -> ((length u + n) mod w = 0)%nat ->
  exists t, least (Words n u) t /\ wi_down n h p = walk h (u ++ t) /\ wi_begin n h p = walk h (u ++ t).
Proof.
  induction n as [|n IH]; intros u p W F Hn Hm.
  - exists []. rewrite app_nil_r, W. split; [|easy]. split; [split; [easy|]; split; [constructor|rewrite app_nil_r; congruence]|]. intros [|c t'] (L & _); [now left|easy].
  - destruct (Full u (S n) F) as (t0 & T0); [congruence|easy|easy|]. destruct t0 as [|c0 t0]; [destruct T0; easy|]. fold (Words (S n) u (c0 :: t0)) in T0. pose proof (words_step n u p c0 t0 W T0) as S0. destruct (step h p c0) as [q0|] eqn:E0; [|easy]. pose proof (step_base p c0 q0 E0) as B.
    pose proof (walk_alloc _ _ H _ _ W) as Ap. pose proof (alloc_inb _ _ _ (hi_fl _ _ H) Ap) as Ip. pose proof (alloc_ge _ _ _ Ap) as P1.
    destruct (find_first u p W B) as (r & E & [[-> N]|(l & L1 & L2 & L3 & L4)]).
    { exfalso. apply words_cons in T0 as [C0 _]. rewrite (N c0) in E0 by (unfold byte in C0; lia). easy. }
    destruct (IH (u ++ [l]) r) as (t & [T M] & D1 & D2); [now rewrite (walk_step u p l W)|apply Forall_app; split; [easy|]; constructor; [unfold byte; lia|constructor]|lia|rewrite app_length; cbn [length]; rewrite <- Hm; f_equal; lia|].
    exists (l :: t). rewrite <- app_assoc in D1, D2. cbn [app] in D1, D2. split; [split|].
    + destruct T as (T1 & T2 & T3). split; [cbn; lia|]. split; [constructor; [unfold byte; lia|easy]|]. rewrite <- app_assoc in T3. exact T3.
    + intros [|c' t'] X; [now destruct X|]. pose proof (words_step n u p c' t' W X) as S'. apply words_cons in X as [C' X]. cbn [lexlt]. destruct (Z.lt_trichotomy l c') as [|[-> |]]; [auto| |].
      * destruct (M t' X) as [-> |]; auto.
      * exfalso. apply S', L4. unfold byte in C'. lia.
    + cbn [wi_down wi_begin]. rewrite (proj2 (Z.eqb_neq p 0)) by lia. rewrite g_base_ok by easy. rewrite (proj2 (Z.leb_le 1 (Bs h p)) B), E. rewrite (proj2 (Z.eqb_neq r 0)) by easy. cbn [negb]. rewrite D1, D2. easy.
Qed.
Lemma wi_begin_0 n : wi_begin n h 0 = Some 0. Proof. now destruct n. Qed.
Lemma begin_ok u p : walk h u = Some p -> Forall byte u -> (length u mod w = 0)%nat ->
  exists r, wi_begin w h p = Some r /\ ((r = 0 /\ forall t, ~ Words w u t) \/ exists t, least (Words w u) t /\ walk h (u ++ t) = Some r).
Proof.
  intros W F Hm. assert (Ew : exists n, w = S n) by (exists (pred w); lia). destruct Ew as [n Ew]. rewrite Ew. pose proof (walk_alloc _ _ H _ _ W) as Ap. pose proof (alloc_inb _ _ _ (hi_fl _ _ H) Ap) as Ip. pose proof (alloc_ge _ _ _ Ap) as P1.
  cbn [wi_begin]. rewrite (proj2 (Z.eqb_neq p 0)) by lia. rewrite g_base_ok by easy.
  assert (N0 : (forall l, 0 <= l < 256 -> step h p l = None) -> forall t, ~ Words (S n) u t).
  { intros N [|c t] X; [now destruct X|]. apply (words_step n u p c t W) in X as Y. apply words_cons in X as [C _]. apply Y, N. unfold byte in C. lia. }
  destruct (Z.leb_spec 1 (Bs h p)) as [B|B].
  - destruct (find_first u p W B) as (r & E & [[-> N]|(l & L1 & L2 & L3 & L4)]); rewrite E.
    + rewrite wi_begin_0. exists 0. split; [easy|]. left. split; [easy|]. now apply N0.
    + destruct (down_ok n (u ++ [l]) r) as (t & [T M] & _ & D2); [now rewrite (walk_step u p l W)|apply Forall_app; split; [easy|]; constructor; [unfold byte; lia|constructor]|lia| |].
      { rewrite app_length. cbn [length]. replace (length u + 1 + n)%nat with (length u + 1 * w)%nat by lia. rewrite Nat.mod_add by lia. easy. }
      rewrite D2. rewrite <- app_assoc in *. cbn [app] in *. destruct (walk h (u ++ l :: t)) as [i|] eqn:Wi; [|exfalso; destruct T as (_ & _ & T); rewrite <- app_assoc in T; cbn [app] in T; congruence].
      exists i. split; [easy|]. right. exists (l :: t). split; [split|easy].
      * destruct T as (T1 & T2 & T3). split; [cbn; lia|]. split; [constructor; [unfold byte; lia|easy]|congruence].
      * intros [|c' t'] X; [now destruct X|]. pose proof (words_step n u p c' t' W X) as S'. apply words_cons in X as [C' X]. cbn [lexlt]. destruct (Z.lt_trichotomy l c') as [|[-> |]]; [auto| |].
        -- destruct (M t' X) as [-> |]; auto.
        -- exfalso. apply S', L4. unfold byte in C'. lia.
  - rewrite wi_begin_0. exists 0. split; [easy|]. left. split; [easy|]. apply N0. intros l _. destruct (step h p l) eqn:S; [|easy]. apply step_base in S. lia.
Qed.

(** to the right *)
Lemma right_ok u : forall s i lv, walk h (u ++ s) = Some i -> Forall byte s ->
  exists j lv', wi_right (length s) h i lv = Some (j, lv') /\
  ((j = 0 /\ forall t, Words (length s) u t -> ~ lexlt s t) \/
   (exists s1 c c' s2, s = s1 ++ c :: s2 /\ c < c' /\ byte c' /\ lv' = (lv + length s2)%nat /\ walk h (u ++ s1 ++ [c']) = Some j /\ j <> 0 /\
      forall t, Words (length s) u t -> lexlt s t -> s1 ++ [c'] = firstn (S (length s1)) t \/ lexlt (s1 ++ [c']) (firstn (S (length s1)) t))).
Proof.
  induction s as [|c s IH] using rev_ind; intros i lv W F.
  - exists 0, lv. split; [easy|]. left. split; [easy|]. intros t (L & _) X. destruct t; easy.
  - apply Forall_app in F as [F C]. inversion C as [|? ? C0 _]; subst. rewrite app_length, Nat.add_comm. cbn [length Nat.add wi_right]. rewrite app_assoc, walk_snoc in W. destruct (walk h (u ++ s)) as [p|] eqn:Wp; [|easy].
    pose proof (walk_alloc _ _ H _ _ Wp) as Ap. pose proof (alloc_inb _ _ _ (hi_fl _ _ H) Ap) as Ip. pose proof (alloc_ge _ _ _ Ap) as P1.
    destruct (step_alloc h fl p c i H Ap W) as [Ai I2]. pose proof (alloc_inb _ _ _ (hi_fl _ _ H) Ai) as Ii. apply step_some in W as (W1 & B & Ei & Ki). rewrite g_check_ok by easy. rewrite Ki, g_base_ok by easy.
    unfold byte in C0. unfold inb in Ii. unfold null_value. destruct (it_find_ok h (i + 1) (Bs h p + 256) p) as (r & E & R); [lia|lia|]. rewrite E.
    destruct (first_child h fl H (u ++ s) p (c + 1) r Wp) as [[-> N]|(l & L1 & L2 & L3 & L4 & L5)]; [lia|easy|replace (Bs h p + (c + 1)) with (i + 1) by lia; exact R| |].
    + change (0 =? 0) with true. cbn [negb]. destruct (IH p (S lv) eq_refl F) as (j & lv' & E' & X). exists j, lv'. split; [easy|]. clear IH.
      assert (Up : forall t, Words (S (length s)) u t -> lexlt (s ++ [c]) t -> exists t' d, t = t' ++ [d] /\ Words (length s) u t' /\ lexlt s t').
      { intros t T Lt. destruct t as [|d t _] using rev_ind; [now destruct T|]. apply words_snoc in T as Q. destruct Q as [Q D]. exists t, d. split; [easy|]. split; [easy|].
        apply lex_split in Lt; [|now destruct Q]. destruct Lt as [|[-> Lt]]; [easy|]. exfalso. cbn in Lt. destruct T as (_ & _ & T). apply T. rewrite app_assoc, (walk_step _ p d Wp). apply N. unfold byte in D. lia. }
      destruct X as [[-> X]|(s1 & a & c' & s2 & -> & X1 & X2 & X3 & X4 & X5 & X6)].
      * left. split; [easy|]. intros t T Lt. destruct (Up t T Lt) as (t' & d & -> & T' & Lt'). now apply (X t').
      * right. exists s1, a, c', (s2 ++ [c]). split; [now rewrite <- app_assoc|]. split; [easy|]. split; [easy|]. split; [rewrite app_length; cbn; lia|]. split; [easy|]. split; [easy|].
        intros t T Lt. destruct (Up t T Lt) as (t' & d & -> & T' & Lt'). rewrite firstn_app. assert (Lq : (S (length s1) <= length t')%nat) by (destruct T' as [-> _]; rewrite app_length; cbn; lia). replace (S (length s1) - length t')%nat with 0%nat by lia. rewrite app_nil_r. now apply X6.
    + rewrite (proj2 (Z.eqb_neq r 0)) by easy. cbn [negb]. exists r, lv. split; [easy|]. right. exists s, c, l, []. split; [easy|]. split; [lia|]. split; [unfold byte; lia|]. split; [cbn; lia|]. split; [rewrite app_assoc, (walk_step _ p l Wp); easy|]. split; [easy|].
      intros t T Lt. destruct t as [|d t _] using rev_ind; [now destruct T|]. apply words_snoc in T as Q. destruct Q as [Q D]. rewrite firstn_all2 by (rewrite app_length; destruct Q as [-> _]; cbn; lia).
      rewrite lex_split in Lt by (now destruct Q). rewrite lex_split by (now destruct Q). destruct Lt as [|[-> Lt]]; [right; now left|]. cbn in Lt. destruct Lt as [Lt|[_ []]].
      destruct (Z.lt_trichotomy l d) as [|[-> |]]; [right; right; split; [easy|now left]|now left|]. exfalso. destruct T as (_ & _ & T). apply T. rewrite app_assoc, (walk_step _ p d Wp). apply L5. lia.
Qed.
Lemma next_ok u s i : walk h (u ++ s) = Some i -> Forall byte u -> Forall byte s -> length s = w -> (length u mod w = 0)%nat ->
  exists r, wi_next w h i = Some r /\ ((r = 0 /\ forall t, Words w u t -> ~ lexlt s t) \/
    exists t, least (fun t => Words w u t /\ lexlt s t) t /\ walk h (u ++ t) = Some r).
Proof.
  intros W Fu Fs Ls Hm. unfold wi_next. destruct (right_ok u s i 0%nat W Fs) as (j & lv & E & X). rewrite Ls in E, X. rewrite E. destruct X as [[-> X]|(s1 & c & c' & s2 & -> & X1 & X2 & X3 & X4 & X5 & X6)].
  - exists 0. split; [easy|]. now left.
  - rewrite (proj2 (Z.eqb_neq j 0)) by easy. cbn [negb]. cbn in X3. subst lv. rewrite app_length in Ls. cbn [length] in Ls. apply Forall_app in Fs as [Fs1 _].
    assert (Fv : Forall byte (u ++ s1 ++ [c'])) by (apply Forall_app; split; [easy|]; apply Forall_app; split; [easy|]; now constructor).
    destruct (down_ok (length s2) (u ++ s1 ++ [c']) j X4 Fv) as (t & [T M] & D & _); [lia| |].
    { rewrite !app_length. cbn [length]. replace (length u + (length s1 + 1) + length s2)%nat with (length u + 1 * w)%nat by lia. now rewrite Nat.mod_add by lia. }
    rewrite D. rewrite <- !app_assoc. cbn [app]. destruct T as (T1 & T2 & T3). rewrite <- !app_assoc in T3. cbn [app] in T3. destruct (walk h (u ++ s1 ++ c' :: t)) as [r|] eqn:Wr; [|easy]. exists r. split; [easy|]. right. exists (s1 ++ c' :: t). split; [split; [split|]|easy].
    + split; [rewrite app_length; cbn; lia|]. split; [|congruence]. apply Forall_app. split; [easy|]. now constructor.
    + apply lex_app. cbn. now left.
    + intros t' [T' Lt]. specialize (X6 t' T' Lt). rewrite <- (firstn_skipn (S (length s1)) t'). assert (Lf : length (firstn (S (length s1)) t') = S (length s1)) by (rewrite firstn_length; destruct T' as [-> _]; lia).
      replace (s1 ++ c' :: t) with ((s1 ++ [c']) ++ t) by (now rewrite <- app_assoc). rewrite lex_split by (rewrite Lf, app_length; cbn; lia). destruct X6 as [X6|X6]; [|right; now left]. rewrite <- X6.
      destruct (M (skipn (S (length s1)) t')) as [-> |Y]; [|now left|right; right; easy]. destruct T' as (Q1 & Q2 & Q3). split; [rewrite skipn_length; lia|]. split.
      * rewrite <- (firstn_skipn (S (length s1)) t') in Q2. apply Forall_app in Q2. easy.
      * rewrite X6, <- app_assoc, firstn_skipn. easy.
Qed.

(** ** Children *)
Lemma node_some u i : walk h u = Some i -> node h u = i. Proof. unfold node. now intros ->. Qed.
Lemma node_pos u i : walk h u = Some i -> i <> 0. Proof. intros W. pose proof (alloc_ge _ _ _ (walk_alloc _ _ H _ _ W)). lia. Qed.
Lemma sorted_mid {A} (R : A -> A -> Prop) a x b : StronglySorted R (a ++ x :: b) -> Forall (R x) b /\ (forall y, In y a -> R y x).
Proof.
  induction a as [|y a IH]; intros S; cbn in S; inversion S as [|? ? S' F]; subst; [split; [easy|intros ? []]|]. destruct (IH S') as [B C]. split; [easy|]. intros z [<-|Z0]; [|auto]. rewrite Forall_forall in F. apply F, in_or_app. right. now left.
Qed.
Lemma wi_children_ok u p : walk h u = Some p -> Forall byte u -> (length u mod w = 0)%nat ->
  exists L, wi_children w h p = Some (map (node h) L) /\ StronglySorted lexlt L /\ forall v, In v L <-> exists t, v = u ++ t /\ Words w u t.
Proof.
  intros W Fu Hm. destruct (traverse_ok h fl H u p Fu W) as (ws & Bw & _). pose proof (below_len h fl H u ws Bw) as Lw. destruct Bw as [Sw I].
  set (L := filter (fun v => (length v =? length u + w)%nat) ws).
  assert (LI : forall v, In v L <-> exists t, v = u ++ t /\ Words w u t).
  { intros v. unfold L. rewrite filter_In, I, prefix_iff, Nat.eqb_eq. split.
    - intros [([t ->] & F & N) Lv]. exists t. split; [easy|]. rewrite app_length in Lv. apply Forall_app in F. split; [lia|easy].
    - intros (t & -> & Lt & F & N). rewrite app_length. split; [|lia]. split; [eauto|]. split; [apply Forall_app; easy|easy]. }
  assert (LS : StronglySorted lexlt L) by now apply sorted_filter.
  assert (LL : (length L <= length h)%nat) by (unfold L; pose proof (filter_short (fun v => (length v =? length u + w)%nat) ws); lia).
  exists L. split; [|easy].
  assert (Chain : forall L2 L1, L = L1 ++ L2 -> forall fuel, (length L2 < fuel)%nat -> wi_from fuel w h (match L2 with [] => 0 | v :: _ => node h v end) = Some (map (node h) L2)).
  { induction L2 as [|v L2 IH]; intros L1 EL fuel Hf; (destruct fuel as [|f]; [cbn in Hf; lia|]); [easy|]. cbn [length] in Hf. cbn [wi_from map].
    destruct (proj1 (LI v)) as (s & -> & Ls & Fs & Ns); [rewrite EL; apply in_or_app; right; now left|]. destruct (walk h (u ++ s)) as [i|] eqn:Wi; [|easy]. rewrite (node_some _ _ Wi). rewrite (proj2 (Z.eqb_neq i 0)) by (now apply (node_pos (u ++ s))).
    destruct (next_ok u s i Wi Fu Fs Ls Hm) as (r & E & X). rewrite E. specialize (IH (L1 ++ [u ++ s])). rewrite <- app_assoc in IH. specialize (IH EL f ltac:(lia)).
    rewrite EL in LS. destruct (sorted_mid _ _ _ _ LS) as [A B]. rewrite Forall_forall in A.
    assert (Er : r = match L2 with [] => 0 | v :: _ => node h v end).
    { destruct X as [[-> X]|(t & [[T Lt] M] & Wt)].
      - destruct L2 as [|y L2]; [easy|]. exfalso. assert (Iy : In y L) by (rewrite EL; apply in_or_app; right; right; now left). apply LI in Iy as (t & -> & T). apply (X t T). apply (lex_app u). apply A. now left.
      - assert (It : In (u ++ t) L) by (apply LI; eauto). rewrite EL in It. apply in_app_or in It as [It|[It|It]].
        + exfalso. apply B in It. apply (lex_app u) in Lt. eapply lex_irrefl, lex_trans; eauto.
        + exfalso. apply app_inv_head in It. subst. now apply lex_irrefl in Lt.
        + destruct L2 as [|y L2]; [easy|]. assert (Iy : In y L) by (rewrite EL; apply in_or_app; right; right; now left). apply LI in Iy as (ty & -> & Ty).
          assert (Ly : lexlt s ty) by (apply (lex_app u), A; now left). destruct (M ty (conj Ty Ly)) as [-> |Y]; [now rewrite (node_some _ _ Wt)|]. exfalso.
          assert (LS2 : StronglySorted lexlt ((L1 ++ [u ++ s]) ++ (u ++ ty) :: L2)) by (now rewrite <- app_assoc). destruct (sorted_mid _ _ _ _ LS2) as [A2 _]. rewrite Forall_forall in A2.
          destruct It as [It|It]; [apply app_inv_head in It; subst; now apply lex_irrefl in Y|]. apply A2 in It. apply lex_app in It. eapply lex_irrefl, lex_trans; eauto. }
    rewrite Er, IH. easy. }
  unfold wi_children. destruct (begin_ok u p W Fu Hm) as (r & E & X). rewrite E. rewrite <- (Chain L [] eq_refl (S (length h)) ltac:(lia)). f_equal.
  destruct X as [[-> X]|(t & [T M] & Wt)].
  - destruct L as [|y L']; [easy|]. exfalso. destruct (proj1 (LI y) (or_introl eq_refl)) as (t & _ & T). now apply (X t).
  - assert (It : In (u ++ t) L) by (apply LI; eauto). destruct L as [|y L']; [easy|]. destruct (proj1 (LI y) (or_introl eq_refl)) as (ty & -> & Ty). destruct (M ty Ty) as [-> |Y]; [now rewrite (node_some _ _ Wt)|]. exfalso.
    inversion LS as [|? ? _ A]; subst. rewrite Forall_forall in A. destruct It as [It|It]; [apply app_inv_head in It; subst; now apply lex_irrefl in Y|]. apply A in It. apply lex_app in It. eapply lex_irrefl, lex_trans; eauto.
Qed.

(** ** The pre-order walk *)
Definition WBelow (u : list Z) (ws : list (list Z)) : Prop :=
  StronglySorted lexlt ws /\ forall v, In v ws <-> (is_prefix u v = true /\ Forall byte v /\ walk h v <> None /\ (length v mod w = 0)%nat).
Lemma mod_app (u t : list Z) : (length u mod w = 0)%nat -> length t = w -> (length (u ++ t) mod w = 0)%nat.
Proof. intros A B. rewrite app_length, B. replace (length u + w)%nat with (length u + 1 * w)%nat by lia. now rewrite Nat.mod_add by lia. Qed.
Lemma wi_traverse_sub : forall d u p, Forall byte u -> walk h u = Some p -> (length u mod w = 0)%nat -> limit h <= Z.of_nat (length u) + Z.of_nat d ->
  exists ws, WBelow u ws /\ forall fuel st r, wi_traverse fuel w h st = Some r -> wi_traverse (length ws + fuel) w h (p :: st) = Some (map (node h) ws ++ r).
Proof.
  induction d as [|d IH]; intros u p Fu W Hm Hd; [pose proof (walk_short h fl u p H W); lia|].
  destruct (wi_children_ok u p W Fu Hm) as (L & Ec & Ss & Sl).
  assert (X : forall L, StronglySorted lexlt L -> (forall v, In v L -> exists t, v = u ++ t /\ Words w u t) ->
    exists ws, StronglySorted lexlt ws /\ (forall v, In v ws <-> exists l, In l L /\ is_prefix l v = true /\ Forall byte v /\ walk h v <> None /\ (length v mod w = 0)%nat) /\
      forall fuel st r, wi_traverse fuel w h st = Some r -> wi_traverse (length ws + fuel) w h (map (node h) L ++ st) = Some (map (node h) ws ++ r)).
  { clear L Ec Ss Sl. induction L as [|l L IHl]; intros Ss Sl.
    - exists []. split; [constructor|]. split; [|easy]. intros v. split; [easy|]. intros (l & [] & _).
    - inversion Ss as [|? ? Ss' Fs]; subst. destruct (IHl Ss') as (ws2 & S2 & I2 & T2); [intros; apply Sl; now right|].
      destruct (Sl l (or_introl eq_refl)) as (t & -> & Lt & Ft & Nt). destruct (walk h (u ++ t)) as [q|] eqn:Wq; [|easy].
      destruct (IH (u ++ t) q) as (ws1 & [S1 I1] & T1); [apply Forall_app; split; easy|easy|now apply mod_app|rewrite app_length; lia|].
      exists (ws1 ++ ws2). split; [|split].
      + apply sorted_app; auto. intros x y Hx Hy. apply I1 in Hx as (Hx & _). apply I2 in Hy as (l' & J & Hy & _). rewrite Forall_forall in Fs. specialize (Fs l' J). destruct (Sl l' (or_intror J)) as (t' & -> & Lt' & _).
        apply prefix_iff in Hx as [a ->]. apply prefix_iff in Hy as [b ->]. apply lex_app in Fs. rewrite <- !app_assoc. apply lex_app, lex_split; [lia|]. now left.
      + intros v. rewrite in_app_iff, I1, I2. split.
        * intros [A|(l' & A & B)]; [exists (u ++ t); split; [now left|easy]|exists l'; split; [now right|easy]].
        * intros (l' & [<-|A] & B); [now left|right; eauto].
      + intros fuel st r T. cbn [map app]. rewrite app_length, map_app, <- Nat.add_assoc, <- app_assoc. rewrite (node_some _ _ Wq). apply T1, T2, T. }
  destruct (X L Ss) as (ws & Sw & Iw & Tw). { intros v V. now apply Sl. }
  exists (u :: ws). split.
  - split.
    + constructor; [easy|]. apply Forall_forall. intros v V. apply Iw in V as (l & J & V & _). apply Sl in J as (t & -> & Lt & _). apply prefix_iff in V as [a ->]. rewrite <- app_assoc. apply lex_prefix. destruct t; [cbn in Lt; lia|easy].
    + intros v. cbn [In]. rewrite Iw. split.
      * intros [<-|(l & J & P & F & V & M)]; [split; [apply prefix_refl|]; split; [easy|]; split; [congruence|easy]|]. split; [|easy]. apply Sl in J as (t & -> & _). eapply prefix_trans; [apply prefix_app|exact P].
      * intros (P & F & V & M). apply prefix_iff in P as [t ->]. destruct t as [|c t]; [left; now rewrite app_nil_r|]. right.
        assert (Lt : (w <= length (c :: t))%nat).
        { rewrite app_length in M. apply (mod_gap w (length u)); [easy|easy|easy|cbn; lia]. }
        assert (L1 : length (firstn w (c :: t)) = w) by (rewrite firstn_length; lia). rewrite <- (firstn_skipn w (c :: t)) in F, V, M |- *. revert L1 F V M. generalize (firstn w (c :: t)) (skipn w (c :: t)). intros t1 t2 L1 F V M.
        exists (u ++ t1). split; [|split; [rewrite app_assoc; apply prefix_app|easy]].
        apply Sl. exists t1. split; [easy|]. apply Forall_app in F as [_ F]. apply Forall_app in F as [F _]. split; [easy|]. split; [easy|]. intros N. apply V. destruct (walk h (u ++ t1 ++ t2)) as [i|] eqn:E; [|easy]. rewrite app_assoc in E. apply walk_prefix in E as [j E]. congruence.
  - intros fuel st r T. cbn [length Nat.add wi_traverse]. rewrite Ec. rewrite (Tw fuel st r T). cbn [map app]. now rewrite (node_some _ _ W).
Qed.
Lemma wi_traverse_mono fuel : forall st r, wi_traverse fuel w h st = Some r -> wi_traverse (S fuel) w h st = Some r.
Proof.
  induction fuel as [|f IH]; intros [|i st] r E; try easy. cbn [wi_traverse] in E. change (wi_traverse (S (S f)) w h (i :: st)) with (match wi_children w h i with Some c => match wi_traverse (S f) w h (c ++ st) with Some r => Some (i :: r) | None => None end | None => None end).
  destruct (wi_children w h i) as [c|]; [|easy]. destruct (wi_traverse f w h (c ++ st)) eqn:T; [|easy]. rewrite (IH _ _ T). easy.
Qed.
Lemma wi_traverse_ok u p : Forall byte u -> walk h u = Some p -> (length u mod w = 0)%nat -> exists ws, WBelow u ws /\ wi_traverse (S (length h)) w h [p] = Some (map (node h) ws).
Proof.
  intros Fu W Hm. destruct (wi_traverse_sub (length h) u p Fu W Hm) as (ws & B & T); [rewrite limit_length; lia|]. exists ws. split; [easy|].
  assert (L : (length ws <= length h)%nat).
  { destruct (traverse_ok h fl H u p Fu W) as (ws0 & B0 & _). pose proof (below_len h fl H u ws0 B0) as L0. destruct B as [S I], B0 as [S0 I0].
    assert (Ew : ws = filter (fun v => (length v mod w =? 0)%nat) ws0).
    { apply lex_sorted_unique; [easy|now apply sorted_filter|]. intros v. rewrite I, filter_In, I0, Nat.eqb_eq. tauto. }
    rewrite Ew. pose proof (filter_short (fun v => (length v mod w =? 0)%nat) ws0). lia. }
  specialize (T 0%nat [] [] eq_refl). rewrite app_nil_r, Nat.add_0_r in T.
  assert (X : forall k, wi_traverse (k + length ws) w h [p] = Some (map (node h) ws)) by (induction k as [|k IH]; [easy|]; cbn [Nat.add]; now apply wi_traverse_mono).
  specialize (X (S (length h) - length ws)%nat). rewrite Nat.sub_add in X by lia. easy.
Qed.
End Wi.

(** ** Labels and keys *)
Section Wk.
Variables (w : nat) (sgn : bool) (h : heap) (fl : list Z).
Hypothesis Hw : (0 < w)%nat.
Hypothesis H : HI h fl.

Lemma be_snoc t c : be_value (t ++ [c]) = be_value t * 256 + c. Proof. unfold be_value. now rewrite fold_left_app. Qed.
Lemma deref_loop_ok : forall t u i idx res, walk h (u ++ t) = Some idx -> Forall byte t -> (i + length t <= 4)%nat ->
  wi_deref_loop w (length t) i h idx (res mod modulus w) = Some ((res + be_value t * 2 ^ Z.of_nat (i * 8)) mod modulus w).
Proof.
  induction t as [|c t IH] using rev_ind; intros u i idx res W F Hi.
  - cbn [length wi_deref_loop]. unfold be_value. cbn [fold_left]. now rewrite Z.mul_0_l, Z.add_0_r.
  - apply Forall_app in F as [F C]. rewrite app_length, Nat.add_comm in *. cbn [length Nat.add wi_deref_loop] in *. rewrite app_assoc, walk_snoc in W. destruct (walk h (u ++ t)) as [p|] eqn:Wp; [|easy].
    pose proof (walk_alloc _ _ H _ _ Wp) as Ap. pose proof (alloc_inb _ _ _ (hi_fl _ _ H) Ap) as Ip. pose proof (alloc_ge _ _ _ Ap) as P1. pose proof (hi_base _ _ H p Ap) as Bl.
    destruct (step_alloc h fl p c idx H Ap W) as [Ai I2]. pose proof (alloc_inb _ _ _ (hi_fl _ _ H) Ai) as Ii. apply step_some in W as (W1 & B & Ei & Ki). rewrite g_check_ok by easy. rewrite Ki. unfold inb in Ip.
    rewrite (proj2 (Z.leb_le 1 p)), (proj2 (Z.ltb_lt p (limit h))) by lia. cbn [andb]. rewrite g_base_ok by (unfold inb; lia). rewrite (proj2 (Z.leb_le 1 (Bs h p))), (proj2 (Z.ltb_lt (Bs h p) (limit h))) by lia. cbn [andb].
    rewrite (proj2 (Nat.ltb_lt (i * 8) 32)) by lia. replace (idx - Bs h p) with c by lia. rewrite Z.add_mod_idemp_l by (pose proof (modulus_pos w); lia).
    rewrite (IH u (S i) p _ Wp F) by lia. f_equal. f_equal. rewrite be_snoc. replace (Z.of_nat (S i * 8)) with (Z.of_nat (i * 8) + 8) by lia. rewrite Z.pow_add_r by lia. change (2 ^ 8) with 256. lia.
Qed.
Lemma wi_deref_ok u x i : (w <= 4)%nat -> label w sgn x -> walk h (u ++ serialize w x) = Some i -> wi_deref w sgn h i = Some x.
Proof.
  intros W4 L W. pose proof (walk_alloc _ _ H _ _ W) as Ai. pose proof (alloc_inb _ _ _ (hi_fl _ _ H) Ai) as Ii. unfold inb in Ii. assert (I2 : i <> 1).
  { intros ->. assert (X : u ++ serialize w x = []) by (eapply walk_inj; [exact H|exact W|easy]). apply (f_equal (@length Z)) in X. rewrite app_length, serialize_length in X. cbn in X. lia. }
  pose proof (alloc_ge _ _ _ Ai). unfold wi_deref. rewrite (proj2 (Z.ltb_lt 1 i)), (proj2 (Z.ltb_lt i (limit h))) by lia. cbn [andb].
  pose proof (deref_loop_ok (serialize w x) u 0 i 0 W (serialize_byte_ok w Hw x)) as E. rewrite serialize_length in E. specialize (E ltac:(lia)). rewrite Z.mod_0_l in E by (pose proof (modulus_pos w); lia). rewrite E. f_equal.
  change (2 ^ Z.of_nat (0 * 8)) with 1. rewrite Z.mul_1_r, Z.add_0_l, serialize_value, Z.mod_mod by (pose proof (modulus_pos w); lia). now apply (unlabel_label w sgn).
Qed.
Lemma wi_parent_ok : forall t u i, walk h (u ++ t) = Some i -> wi_parent (length t) h i = walk h u.
Proof.
  induction t as [|c t IH] using rev_ind; intros u i W; [now rewrite app_nil_r in W|]. rewrite app_length, Nat.add_comm. cbn [length Nat.add wi_parent]. rewrite app_assoc, walk_snoc in W. destruct (walk h (u ++ t)) as [p|] eqn:Wp; [|easy].
  pose proof (walk_alloc _ _ H _ _ Wp) as Ap. pose proof (alloc_inb _ _ _ (hi_fl _ _ H) Ap) as Ip. pose proof (alloc_ge _ _ _ Ap) as P1. destruct (step_alloc h fl p c i H Ap W) as [Ai I2]. pose proof (alloc_inb _ _ _ (hi_fl _ _ H) Ai) as Ii.
  apply step_some in W as (_ & _ & _ & Ki). rewrite g_check_ok by easy. rewrite Ki. unfold inb in Ip. rewrite (proj2 (Z.leb_le 1 p)), (proj2 (Z.ltb_lt p (limit h))) by lia. cbn [andb]. now apply IH.
Qed.
Lemma wi_string_rev_ok k : (w <= 4)%nat -> forall fuel p, labels w sgn k -> walk h (wide w k) = Some p -> (length k < fuel)%nat -> wi_string_rev fuel w sgn h p = Some (rev k).
Proof.
  intros W4. induction k as [|x k IH] using rev_ind; intros fuel p Lk W Hf; (destruct fuel as [|f]; [lia|]); cbn [wi_string_rev].
  - injection W as <-. easy.
  - apply Forall_app in Lk as [Lk Lx]. inversion Lx; subst. rewrite app_length in Hf. cbn [length] in Hf. rewrite wide_app, wide_one in W.
    pose proof (walk_alloc _ _ H _ _ W) as Ai. pose proof (alloc_ge _ _ _ Ai). assert (p <> 1).
    { intros ->. assert (X : wide w k ++ serialize w x = []) by (eapply walk_inj; [exact H|exact W|easy]). apply (f_equal (@length Z)) in X. rewrite app_length, serialize_length in X. cbn in X. lia. }
    rewrite (proj2 (Z.ltb_lt 1 p)) by lia. rewrite (wi_deref_ok (wide w k) x p) by easy. pose proof (wi_parent_ok (serialize w x) (wide w k) p W) as E. rewrite serialize_length in E. rewrite E.
    destruct (walk_prefix h _ _ _ W) as [q Q]. rewrite Q. rewrite (IH f q) by (easy || lia). now rewrite rev_unit.
Qed.
Lemma wi_string_ok k p : (w <= 4)%nat -> labels w sgn k -> walk h (wide w k) = Some p -> wi_string w sgn h p = Some k.
Proof.
  intros W4 Lk W. unfold wi_string. rewrite (wi_string_rev_ok k) by (try easy; pose proof (walk_short h fl _ p H W) as Sh; rewrite limit_length, wide_length in Sh; nia). now rewrite rev_involutive.
Qed.

(** operator[] *)
Lemma wi_at_ok u p x : walk h u = Some p ->
  match wi_at w h p x with Some r => r = match walk h (u ++ serialize w x) with Some i => i | None => 0 end | None => walk h (u ++ serialize w x) = None /\ ~ (forall q, alloc h fl q -> Bs h q + 255 < limit h) end.
Proof.
  intros W. unfold wi_at. pose proof (walk_alloc _ _ H _ _ W) as Ap0. pose proof (alloc_inb _ _ _ (hi_fl _ _ H) Ap0) as Ip0. pose proof (alloc_ge _ _ _ Ap0) as P10. unfold inb in Ip0.
  rewrite (proj2 (Z.leb_le 1 p)), (proj2 (Z.ltb_lt p (limit h))) by lia. cbn [andb]. clear Ap0 Ip0 P10. pose proof (serialize_byte_ok w Hw x) as F. revert u p W F. generalize (serialize w x) as l.
  induction l as [|c l IH]; intros u p W F; [cbn [wi_at_loop]; now rewrite app_nil_r, W|]. inversion F as [|? ? C F']; subst. cbn [wi_at_loop].
  pose proof (walk_alloc _ _ H _ _ W) as Ap. pose proof (alloc_inb _ _ _ (hi_fl _ _ H) Ap) as Ip. pose proof (alloc_ge _ _ _ Ap) as P1. rewrite g_base_ok by easy. unfold byte in C.
  assert (Ew : walk h (u ++ c :: l) = match step h p c with Some q => walk_from h q l | None => None end) by (unfold walk in *; rewrite walk_from_app, W; easy).
  destruct (Z.leb_spec (Bs h p) 0) as [B|B].
  - rewrite Ew. destruct (step h p c) eqn:S; [apply step_some in S; lia|easy].
  - assert (Nl : limit h <= Bs h p + c -> step h p c = None).
    { intros L. destruct (step h p c) as [q|] eqn:S; [|easy]. destruct (step_alloc h fl p c q H Ap S) as [Aq _]. apply step_some in S as (_ & _ & -> & _). pose proof (alloc_inb _ _ _ (hi_fl _ _ H) Aq) as Iq. unfold inb in Iq. lia. }
    destruct (Z_lt_le_dec (Bs h p + c) (limit h)) as [L|L].
    + rewrite g_check_ok by (unfold inb; lia). destruct (Z.eqb_spec (Ks h (Bs h p + c)) p) as [e|e]; cbn [negb].
      * assert (S : step h p c = Some (Bs h p + c)) by (apply step_some; repeat split; lia). specialize (IH (u ++ [c]) (Bs h p + c)). rewrite <- app_assoc in IH. cbn [app] in IH. apply IH; [|easy]. rewrite walk_snoc, W. easy.
      * rewrite Ew. destruct (step h p c) eqn:S; [|easy]. apply step_some in S as (_ & _ & -> & S). easy.
    + assert (G : g_check h (Bs h p + c) = None).
      { unfold g_check, node_at. rewrite (proj2 (Z.ltb_ge (Bs h p + c) 0)) by lia. rewrite (proj2 (nth_error_None h (Z.to_nat (Bs h p + c)))); [easy|]. rewrite limit_length in L. lia. }
      rewrite G, Ew, (Nl L). split; [easy|]. intros X. specialize (X p Ap). lia.
Qed.

(** ** Reading the keys off *)
Hypothesis Full : forall u n, Forall byte u -> walk h u <> None -> (n < w)%nat -> ((length u + n) mod w = 0)%nat ->
  exists t, length t = n /\ Forall byte t /\ walk h (u ++ t) <> None.
Lemma wi_strings_ok it_bool P : (w <= 4)%nat -> (forall u i, Forall byte u -> walk h u = Some i -> it_bool h i = Some (P u)) ->
  forall ks, Forall (fun k => labels w sgn k /\ walk h (wide w k) <> None) ks -> wi_strings it_bool w sgn h (map (node h) (map (wide w) ks)) = Some (filter (fun k => P (wide w k)) ks).
Proof.
  intros W4 Hb. induction ks as [|k ks IH]; intros F; [easy|]. inversion F as [|? ? [Lk Wk] Fs]; subst. cbn [map wi_strings filter]. unfold node at 1 3. destruct (walk h (wide w k)) as [i|] eqn:W; [|easy].
  rewrite (Hb _ i (wide_byte w Hw k) W), (IH Fs). destruct (P (wide w k)); [|easy]. now rewrite (wi_string_ok k i W4 Lk W).
Qed.
Lemma wi_enumerate_ok it_bool P k0 p : (w <= 4)%nat -> (forall u i, Forall byte u -> walk h u = Some i -> it_bool h i = Some (P u)) ->
  (forall k, labels w sgn k -> P (wide w k) = true -> walk h (wide w k) <> None) -> labels w sgn k0 -> walk h (wide w k0) = Some p ->
  exists ks, wi_enumerate it_bool w sgn h p = Some ks /\ StronglySorted (ulex w) ks /\ forall k, In k ks <-> labels w sgn k /\ kprefix k0 k /\ P (wide w k) = true.
Proof.
  intros W4 Hb HP L0 W. destruct (wi_traverse_ok w h fl Hw H Full (wide w k0) p (wide_byte w Hw k0) W (wide_mod w Hw k0)) as (ws & [S I] & T).
  assert (X : forall ws, (forall v, In v ws -> Forall byte v /\ (length v mod w = 0)%nat) -> exists ks, map (wide w) ks = ws /\ Forall (labels w sgn) ks).
  { clear - Hw. intros ws. induction ws as [|v ws IH]; intros F; [exists []; split; [easy|constructor]|]. destruct (IH (fun v V => F v (or_intror V))) as (ks & E & G). destruct (F v (or_introl eq_refl)) as [Fv Mv].
    destruct (wide_surj w sgn Hw v Fv Mv) as (k & Lk & Ek). exists (k :: ks). split; [cbn; now rewrite Ek, E|now constructor]. }
  destruct (X ws) as (ks & E & G); [intros v V; apply I in V; tauto|]. subst ws. rewrite Forall_forall in G. exists (filter (fun k => P (wide w k)) ks). unfold wi_enumerate. rewrite T. split; [|split].
  - apply wi_strings_ok; [easy|easy|]. apply Forall_forall. intros k K. split; [now apply G|]. apply (I (wide w k)). now apply in_map.
  - apply sorted_filter. clear - S Hw. induction ks as [|k ks IH]; [constructor|]. cbn [map] in S. inversion S as [|? ? S' F]; subst. constructor; [now apply IH|]. rewrite Forall_forall in *. intros x Hx. apply (wide_lex w Hw). apply F. now apply in_map.
  - intros k. rewrite filter_In. split.
    + intros [K P1]. pose proof (G k K) as Lk. split; [easy|]. split; [|easy]. apply (in_map (wide w)) in K. apply I in K as (K & _). now apply (wide_prefix w sgn Hw).
    + intros (Lk & [t ->] & P1). split; [|easy]. assert (J : In (wide w (k0 ++ t)) (map (wide w) ks)).
      { apply I. split; [rewrite wide_app; apply prefix_app|]. split; [now apply wide_byte|]. split; [now apply HP|now apply wide_mod]. }
      apply in_map_iff in J as (k' & E & J). apply (wide_inj w sgn Hw) in E; [now subst|now apply G|easy].
Qed.
End Wk.

(** ** The two tries *)
Lemma full_of w h M : (0 < w)%nat -> (forall u, Forall byte u -> u <> [] -> walk h u <> None -> pre M u = true) ->
  (forall k, In k (map fst M) -> Forall byte k /\ walk h k <> None /\ (length k mod w = 0)%nat) ->
  forall u n, Forall byte u -> walk h u <> None -> (n < w)%nat -> ((length u + n) mod w = 0)%nat -> exists t, length t = n /\ Forall byte t /\ walk h (u ++ t) <> None.
Proof.
  intros Hw A B u n Fu Wu Hn Hm. destruct u as [|c u].
  - cbn [length Nat.add] in Hm. rewrite Nat.mod_small in Hm by easy. subst n. exists []. split; [easy|]. split; [constructor|easy].
  - specialize (A (c :: u) Fu ltac:(easy) Wu). apply pre_iff in A as (k & v & I & P). apply prefix_iff in P as [t ->]. destruct (B ((c :: u) ++ t)) as (Fk & Wk & Mk); [apply in_map_iff; now exists ((c :: u) ++ t, v)|].
    remember (c :: u) as u0. rewrite app_length in Mk. assert (Lt : (n <= length t)%nat).
    { destruct (Nat.le_gt_cases n (length t)) as [|G]; [easy|]. pose proof (mod_gap w (length u0 + length t) (n - length t) Hw Mk) as X. replace (length u0 + length t + (n - length t))%nat with (length u0 + n)%nat in X by lia. specialize (X Hm). lia. }
    exists (firstn n t). split; [rewrite firstn_length; lia|]. apply Forall_app in Fk as [_ Ft]. rewrite <- (firstn_skipn n t) in Ft. apply Forall_app in Ft as [Ft _]. split; [easy|].
    intros N. apply Wk. rewrite <- (firstn_skipn n t), app_assoc. destruct (walk h ((u0 ++ firstn n t) ++ skipn n t)) as [i|] eqn:E; [|easy]. apply walk_prefix in E as [j E]. congruence.
Qed.
Lemma in_keys_get (M : fmap) k : In k (map fst M) <-> get M k <> None.
Proof. pose proof (get_none M k). destruct (get M k); [|tauto]. split; [easy|]. intros _. destruct (in_dec (list_eq_dec Z.eq_dec) k (map fst M)); [easy|]. exfalso. assert (Some z = None) by tauto. easy. Qed.

(** What the two tries share after a history *)
Record WRep (w : nat) (sgn : bool) (h : heap) (fl : list Z) (m : kvmap) : Prop := {
  wr_hi : HI h fl;
  wr_full : forall u n, Forall byte u -> walk h u <> None -> (n < w)%nat -> ((length u + n) mod w = 0)%nat -> exists t, length t = n /\ Forall byte t /\ walk h (u ++ t) <> None;
  wr_lab : forall k, m k <> None -> labels w sgn k;
  wr_walk : forall k, labels w sgn k -> (walk h (wide w k) <> None <-> k = [] \/ exists k', kprefix k k' /\ m k' <> None) }.
Lemma wr_of w sgn h fl M m : (0 < w)%nat -> HI h fl -> (forall u, Forall byte u -> u <> [] -> walk h u <> None -> pre M u = true) ->
  (forall k, has M k = true -> Forall byte k /\ walk h k <> None) ->
  (forall v, get M v <> None -> exists k, labels w sgn k /\ v = wide w k) -> (forall k, m k <> None -> labels w sgn k) -> (forall k, labels w sgn k -> (get M (wide w k) = None <-> m k = None)) ->
  WRep w sgn h fl m.
Proof.
  intros Hw H A B K Lm D. split; [easy| |easy|].
  - apply (full_of w h M Hw A). intros k I. apply in_keys_get in I. destruct (K k I) as (k' & _ & E). destruct (B k) as [B1 B2]; [unfold has; now destruct (get M k)|]. split; [easy|]. split; [easy|]. rewrite E. now apply wide_mod.
  - intros k Lk. split.
    + intros W. destruct k as [|x k]; [now left|]. right. remember (x :: k) as k0. assert (N0 : wide w k0 <> []) by (intros N; apply (proj1 (wide_nil w Hw k0)) in N; congruence). specialize (A _ (wide_byte w Hw k0) N0 W). apply pre_iff in A as (kk & v & I & P).
      assert (G : get M kk <> None) by (apply in_keys_get, in_map_iff; now exists (kk, v)). destruct (K kk G) as (k' & L' & ->). exists k'. split; [now apply (wide_prefix w sgn Hw)|]. intros N. apply G. now apply D.
    + intros [-> |(k' & [t ->] & N)]; [easy|]. assert (Lt := Lm _ N). destruct (B (wide w (k ++ t))) as [_ B2]; [unfold has; destruct (get M (wide w (k ++ t))) eqn:G; [easy|]; apply (D _ Lt) in G; easy|].
      intros N2. apply B2. rewrite wide_app. destruct (walk h (wide w k ++ wide w t)) as [i|] eqn:E; [|easy]. apply walk_prefix in E as [j E]. congruence.
Qed.
Lemma wr_st w sgn h fl M m : (0 < w)%nat -> StRep h fl M -> sim w sgn (get M) m -> WRep w sgn h fl m.
Proof.
  intros Hw R (S1 & S2 & S3). apply (wr_of w sgn h fl M m Hw (sr_hi _ _ _ R)); [|intros k; now apply (has_walk_st h fl)|easy|easy|intros k Lk; now rewrite S1].
  intros u Fu Nu Wu. destruct u as [|c u _] using rev_ind; [easy|]. assert (C : c <> 256) by (apply Forall_app in Fu as [_ Fu]; inversion Fu; unfold byte in *; lia). assert (O := sr_node _ _ _ R u c C). destruct (pre M (u ++ [c])); [easy|]. unfold obs in O. destruct (walk h (u ++ [c])); easy.
Qed.
Lemma wr_tb w sgn h fl M m : (0 < w)%nat -> PRep h fl M -> (forall k, labels w sgn k -> (get M (wide w k) = None <-> m k = None)) ->
  (forall v, get M v <> None -> exists k, labels w sgn k /\ v = wide w k) -> (forall k, m k <> None -> labels w sgn k) -> WRep w sgn h fl m.
Proof.
  intros Hw R S1 S2 S3. apply (wr_of w sgn h fl M m Hw (pt_hi _ _ _ R)); [|intros k; now apply (has_walk_tb h fl)|easy|easy|easy].
  intros u Fu Nu Wu. destruct u as [|c u _] using rev_ind; [easy|]. assert (C : c <> 256) by (apply Forall_app in Fu as [_ Fu]; inversion Fu; unfold byte in *; lia). pose proof (pt_none h fl M u c R C) as O. destruct (pre M (u ++ [c])); [easy|]. destruct O as [_ O]. specialize (O eq_refl). unfold obs in O. destruct (walk h (u ++ [c])); easy.
Qed.
Section Wr.
Variables (w : nat) (sgn : bool) (h : heap) (fl : list Z) (m : kvmap).
Hypothesis Hw : (0 < w)%nat.
Hypothesis R : WRep w sgn h fl m.
Definition begun (k : key) : Prop := k = [] \/ exists k', kprefix k k' /\ m k' <> None.
Lemma wr_search k : labels w sgn k -> exists i, bt_search w h k = Some i /\ (i <> 0 <-> begun k) /\ (i <> 0 -> walk h (wide w k) = Some i).
Proof.
  intros Lk. rewrite (bt_search_ok w Hw h fl k (wr_hi _ _ _ _ _ R)). eexists. split; [reflexivity|]. unfold begun. rewrite <- (wr_walk _ _ _ _ _ R k Lk). destruct (walk h (wide w k)) as [i|] eqn:W; [|easy]. pose proof (alloc_ge _ _ _ (walk_alloc _ _ (wr_hi _ _ _ _ _ R) _ _ W)). split; [split; [easy|lia]|easy].
Qed.
Lemma wr_lookup k : labels w sgn k -> exists a b i, k = a ++ b /\ bt_lookup w h k = Some (i, b) /\ begun a /\ bt_search w h a = Some i /\ (forall x r, b = x :: r -> ~ begun (a ++ [x])).
Proof.
  intros Lk. destruct (bt_lookup_ok w Hw h fl k (wr_hi _ _ _ _ _ R)) as (a & b & q & Ek & E & W & N). exists a, b, q. split; [easy|]. split; [easy|]. rewrite Ek in Lk. apply Forall_app in Lk as [La Lb]. split; [apply (wr_walk _ _ _ _ _ R a La); congruence|]. split; [rewrite (bt_search_ok w Hw h fl a (wr_hi _ _ _ _ _ R)), W; easy|].
  intros x r Eb B. apply (wr_walk _ _ _ _ _ R (a ++ [x])) in B; [apply B; now apply (N x r)|]. subst b. inversion Lb; subst. apply Forall_app. split; [easy|]. now constructor.
Qed.
Lemma wr_enum it_bool P k0 i : (w <= 4)%nat -> (forall u i, Forall byte u -> walk h u = Some i -> it_bool h i = Some (P u)) -> (forall k, labels w sgn k -> (P (wide w k) = true <-> m k <> None)) ->
  labels w sgn k0 -> walk h (wide w k0) = Some i ->
  exists ks, wi_enumerate it_bool w sgn h i = Some ks /\ StronglySorted (ulex w) ks /\ forall k, In k ks <-> kprefix k0 k /\ m k <> None.
Proof.
  intros W4 Hb HP L0 W. destruct (wi_enumerate_ok w sgn h fl Hw (wr_hi _ _ _ _ _ R) (wr_full _ _ _ _ _ R) it_bool P k0 i W4 Hb) as (ks & E & S & I); [|easy|easy|].
  - intros k Lk Pk. apply (wr_walk _ _ _ _ _ R k Lk). right. exists k. split; [exists []; now rewrite app_nil_r|now apply HP].
  - exists ks. split; [easy|]. split; [easy|]. intros k. rewrite I. split; [intros (Lk & X & Y); split; [easy|now apply HP]|]. intros (X & Y). pose proof (wr_lab _ _ _ _ _ R k Y) as Lk. split; [easy|]. split; [easy|now apply HP].
Qed.
Lemma wr_at k i x : labels w sgn k -> label w sgn x -> bt_search w h k = Some i -> i <> 0 ->
  match wi_at w h i x with Some r => bt_search w h (k ++ [x]) = Some r | None => ~ begun (k ++ [x]) end.
Proof.
  intros Lk Lx E N. destruct (wr_search k Lk) as (i' & E' & _ & W). rewrite E in E'. injection E' as <-. pose proof (wi_at_ok w h fl Hw (wr_hi _ _ _ _ _ R) (wide w k) i x (W N)) as X.
  assert (Lk' : labels w sgn (k ++ [x])) by (apply Forall_app; split; [easy|now constructor]). pose proof (bt_search_ok w Hw h fl (k ++ [x]) (wr_hi _ _ _ _ _ R)) as Y. rewrite wide_app, wide_one in Y.
  destruct (wi_at w h i x) as [r|]; [now rewrite Y, X|]. intros B. apply (wr_walk _ _ _ _ _ R _ Lk') in B. apply B. rewrite wide_app, wide_one. apply X.
Qed.
End Wr.
