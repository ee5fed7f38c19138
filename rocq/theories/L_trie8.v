(** Iterators: labels, parents, children in order, keys; the pre-order walk. *)
From Coq Require Import ZArith List Bool Lia Sorting.Sorted.
From Verif Require Import M_trie L_trie L_trie2 L_trie3 L_trie4 L_trie5 L_trie6 L_trie7.
Import ListNotations.
Open Scope Z_scope.
Local Arguments Z.opp : simpl never.
Local Arguments Z.add : simpl never.
Local Arguments Z.sub : simpl never.

(** ** find *)
Lemma find_loop_ok h check : forall n first tail, 0 <= first <= tail -> tail <= limit h -> tail - first < Z.of_nat n ->
  exists r, find_loop n h first tail check = Some r /\ first <= r <= tail /\ (forall i, first <= i < r -> Ks h i <> check) /\ (r < tail -> Ks h r = check).
Proof.
  induction n as [|n IH]; intros first tail H1 H2 H3; [lia|]. cbn [find_loop]. destruct (Z.ltb_spec first tail) as [L|L].
  - rewrite g_check_ok by (unfold inb; lia). destruct (Z.eqb_spec (Ks h first) check) as [e|e].
    + exists first. split; [easy|]. split; [lia|]. split; [lia|easy].
    + destruct (IH (first + 1) tail) as (r & E & R1 & R2 & R3); try lia. exists r. split; [easy|]. split; [lia|]. split; [|easy]. intros i Hi. destruct (Z.eq_dec i first) as [-> |]; [easy|]. apply R2. lia.
  - exists first. split; [easy|]. split; [lia|]. split; lia.
Qed.
Lemma it_find_ok h first lst check : 1 <= first <= lst -> first <= limit h ->
  exists r, it_find h first lst check = Some r /\
    ((r = 0 /\ forall i, first <= i < lst -> i < limit h -> Ks h i <> check) \/ (first <= r < lst /\ Ks h r = check /\ forall i, first <= i < r -> Ks h i <> check)).
Proof.
  intros H1 H2. unfold it_find. cbn zeta. destruct (find_loop_ok h check (S (length h)) first (Z.min lst (limit h))) as (r & E & R1 & R2 & R3); try lia.
  { rewrite limit_length in *. lia. }
  rewrite E. eexists. split; [reflexivity|]. destruct (Z.eqb_spec r (Z.min lst (limit h))) as [e|e]; cbn [negb].
  - left. split; [easy|]. intros i I1 I2. apply R2. lia.
  - right. split; [lia|]. split; [apply R3; lia|easy].
Qed.

(** ** Labels and parents *)
Section It.
Variables (h : heap) (fl : list Z).
Hypothesis H : HI h fl.

Lemma limit_pos : 2 <= limit h. Proof. apply (fl_lim _ _ (hi_fl _ _ H)). Qed.

Lemma it_parent_ok w p c q : walk h w = Some p -> step h p c = Some q -> it_parent h q = Some p.
Proof.
  intros W S. pose proof (walk_alloc _ _ H _ _ W) as Ap. destruct (step_alloc h fl p c q H Ap S) as [Aq Q]. unfold it_parent. rewrite (proj2 (Z.leb_le 1 q)) by lia.
  rewrite g_check_ok by (eapply alloc_inb; [apply H|easy]). apply step_some in S. f_equal. tauto.
Qed.
Lemma it_base_ok w p c q : walk h w = Some p -> step h p c = Some q -> it_mother h q = Some p /\ it_base h q = Some (Bs h p).
Proof.
  intros W S. pose proof (walk_alloc _ _ H _ _ W) as Ap. destruct (step_alloc h fl p c q H Ap S) as [Aq Q]. apply step_some in S as (S1 & S2 & S3 & S4).
  pose proof (alloc_inb _ _ _ (hi_fl _ _ H) Aq) as Iq. pose proof (alloc_ge _ _ _ Ap) as P1. pose proof (alloc_inb _ _ _ (hi_fl _ _ H) Ap) as Ip. unfold inb in Iq.
  assert (E : it_mother h q = Some p).
  { unfold it_mother. rewrite (proj2 (Z.leb_le 1 q)), (proj2 (Z.ltb_lt q (limit h))) by lia. cbn [andb]. rewrite g_check_ok by (unfold inb; lia). rewrite S4. rewrite (proj2 (Z.leb_le 1 p)) by lia. easy. }
  split; [easy|]. unfold it_base. rewrite E. destruct (Z.eqb_spec p 0); [lia|]. cbn [negb]. rewrite g_base_ok by easy. now rewrite (proj2 (Z.leb_le 1 (Bs h p))) by lia.
Qed.
Lemma it_value_ok w p c q : walk h w = Some p -> step h p c = Some q -> byte c -> it_value h q = Some c.
Proof.
  intros W S C. destruct (it_base_ok w p c q W S) as [_ E]. unfold it_value. rewrite E. apply step_some in S as (S1 & S2 & S3 & S4). unfold byte, null_value in *.
  rewrite (proj2 (Z.leb_le _ _)), (proj2 (Z.ltb_lt _ _)) by lia. cbn [andb]. f_equal. rewrite S3. replace (Bs h p + c - Bs h p) with c by lia. apply Z.mod_small. lia.
Qed.
Lemma it_string_rev_ok w : forall fuel p, Forall byte w -> walk h w = Some p -> (length w < fuel)%nat -> it_string_rev fuel h p = Some (rev w).
Proof.
  induction w as [|c w IH] using rev_ind; intros fuel p Fw W Hf; (destruct fuel as [|f]; [lia|]); cbn [it_string_rev].
  - injection W as <-. easy.
  - rewrite walk_snoc in W. destruct (walk h w) as [q|] eqn:Wq; [|easy]. apply Forall_app in Fw as [Fw Fc]. inversion Fc; subst. rewrite app_length in Hf. cbn [length] in Hf.
    destruct (step_alloc h fl q c p H (walk_alloc _ _ H _ _ Wq) W) as [_ P2]. rewrite (proj2 (Z.ltb_lt 1 p)) by lia.
    rewrite (it_value_ok w q c p) by easy. rewrite (it_parent_ok w q c p) by easy. rewrite IH by (easy || lia). now rewrite rev_unit.
Qed.
Lemma it_string_ok w p : Forall byte w -> walk h w = Some p -> it_string h p = Some w.
Proof.
  intros Fw W. unfold it_string. rewrite (it_string_rev_ok w) by (try easy; pose proof (walk_short h fl w p H W) as Sh; rewrite limit_length in Sh; lia). now rewrite rev_involutive.
Qed.
(** operator[] *)
Lemma it_at_ok w p c : walk h w = Some p -> byte c -> it_at h p c = Some (match step h p c with Some q => q | None => 0 end).
Proof.
  intros W C. pose proof (walk_alloc _ _ H _ _ W) as Ap. pose proof (alloc_inb _ _ _ (hi_fl _ _ H) Ap) as Ip. unfold it_at. rewrite g_base_ok by easy. unfold byte in C.
  destruct (Z.leb_spec 1 (Bs h p)) as [B|B].
  - destruct (Z.ltb_spec (Bs h p + c) (limit h)) as [L|L].
    + rewrite g_check_ok by (unfold inb; lia). f_equal. destruct (Z.eqb_spec (Ks h (Bs h p + c)) p) as [e|e].
      * rewrite (proj2 (step_some h p c (Bs h p + c))); [easy|]. repeat split; lia || easy.
      * destruct (step h p c) eqn:S; [|easy]. apply step_some in S as (_ & _ & -> & S). easy.
    + destruct (step h p c) as [q|] eqn:S; [|easy]. destruct (step_alloc h fl p c q H Ap S) as [Aq _]. apply step_some in S as (_ & _ & -> & _).
      pose proof (alloc_inb _ _ _ (hi_fl _ _ H) Aq) as Iq. unfold inb in Iq. lia.
  - destruct (step h p c) as [q|] eqn:S; [|easy]. apply step_some in S. lia.
Qed.

(** ** Children in order *)
Definition after (p b : Z) (ls : list Z) : Prop := StronglySorted Z.lt ls /\ forall l, In l ls <-> (b <= l < 256 /\ step h p l <> None).
Lemma first_child w p b r : walk h w = Some p -> 0 <= b <= 256 -> 1 <= Bs h p ->
  ((r = 0 /\ forall i, Bs h p + b <= i < Bs h p + 256 -> i < limit h -> Ks h i <> p) \/
   (Bs h p + b <= r < Bs h p + 256 /\ Ks h r = p /\ forall i, Bs h p + b <= i < r -> Ks h i <> p)) ->
  (r = 0 /\ forall l, b <= l < 256 -> step h p l = None) \/
  (exists l, b <= l < 256 /\ step h p l = Some r /\ r = Bs h p + l /\ r <> 0 /\ forall l', b <= l' < l -> step h p l' = None).
Proof.
  intros W Hb HB [[-> N]|(R1 & R2 & R3)]; pose proof (walk_alloc _ _ H _ _ W) as Ap.
  - left. split; [easy|]. intros l L. destruct (step h p l) as [q|] eqn:S; [|easy]. exfalso. destruct (step_alloc h fl p l q H Ap S) as [Aq _]. apply step_some in S as (_ & _ & -> & S).
    pose proof (alloc_inb _ _ _ (hi_fl _ _ H) Aq) as Iq. unfold inb in Iq. apply (N (Bs h p + l)); lia || easy.
  - right. exists (r - Bs h p). split; [lia|]. split; [apply step_some; repeat split; lia|]. split; [lia|]. split; [lia|]. intros l' L. destruct (step h p l') as [q|] eqn:S; [|easy]. exfalso.
    apply step_some in S as (_ & _ & -> & S). apply (R3 (Bs h p + l')); lia || easy.
Qed.
Lemma it_children_ok w p : walk h w = Some p -> exists ls, it_children h p = Some (map (Z.add (Bs h p)) ls) /\ after p 0 ls.
Proof.
  intros W. pose proof (walk_alloc _ _ H _ _ W) as Ap. pose proof (alloc_inb _ _ _ (hi_fl _ _ H) Ap) as Ip. pose proof (alloc_ge _ _ _ Ap). unfold it_children, it_begin.
  rewrite (proj2 (Z.leb_le 1 p)) by easy. rewrite g_base_ok by easy. destruct (Z.leb_spec 1 (Bs h p)) as [B|B].
  - pose proof (hi_base _ _ H p Ap) as Bl. unfold null_value. destruct (it_find_ok h (Bs h p) (Bs h p + 256) p) as (r & E & R); [lia|lia|]. rewrite E.
    assert (X := first_child w p 0 r W). rewrite Z.add_0_r in X. specialize (X ltac:(lia) B R).
    destruct X as [[-> N]|X].
    + exists []. split; [easy|]. split; [constructor|]. intros l. split; [easy|]. intros [X Y]. apply Y, N, X.
    + (* the fuel: the remaining labels of this node lie below the limit *)
      destruct X as (l & L1 & L2 & L3 & L4 & L5).
      assert (F : forall n b r fuel, (limit h - (Bs h p + b) <= Z.of_nat n) -> 0 <= b <= 256 -> (n < fuel)%nat ->
        ((r = 0 /\ forall l, b <= l < 256 -> step h p l = None) \/
         (exists l, b <= l < 256 /\ step h p l = Some r /\ r = Bs h p + l /\ r <> 0 /\ forall l', b <= l' < l -> step h p l' = None)) ->
        exists ls, it_from fuel h r = Some (map (Z.add (Bs h p)) ls) /\ after p b ls).
      { induction n as [|n IH]; intros b r0 fuel Hn Hb Hf [[-> N]|(l0 & M1 & M2 & M3 & M4 & M5)].
        1, 3: exists []; destruct fuel; [lia|]; cbn; split; [easy|]; split; [constructor|]; intros l0; split; [easy|]; intros [X Y]; apply Y, N, X.
        - exfalso. destruct (step_alloc h fl p l0 r0 H Ap M2) as [Ar _]. pose proof (alloc_inb _ _ _ (hi_fl _ _ H) Ar) as Ir. unfold inb in Ir. lia.
        - destruct fuel as [|f]; [lia|]. cbn [it_from]. destruct (Z.eqb_spec r0 0); [easy|]. unfold it_advance. destruct (it_base_ok w p l0 r0 W M2) as [E1 E2]. rewrite E1, E2. unfold null_value.
          destruct (step_alloc h fl p l0 r0 H Ap M2) as [Ar _]. pose proof (alloc_inb _ _ _ (hi_fl _ _ H) Ar) as Ir. unfold inb in Ir.
          destruct (it_find_ok h (r0 + 1) (Bs h p + 256) p) as (r' & E' & R'); [lia|lia|]. rewrite E'.
          destruct (IH (l0 + 1) r' f) as (ls & El & A1 & A2); [lia|lia|lia| |].
          { apply (first_child w); auto; [lia|]. replace (Bs h p + (l0 + 1)) with (r0 + 1) by lia. easy. }
          rewrite El. exists (l0 :: ls). split; [cbn [map]; now rewrite <- M3|]. split.
          + constructor; [easy|]. apply Forall_forall. intros x X. apply A2 in X. lia.
          + intros x. cbn [In]. rewrite A2. split.
            * intros [<-|[X Y]]; [split; [lia|congruence]|split; [lia|easy]].
            * intros [X Y]. destruct (Z.eq_dec l0 x) as [|]; [now left|]. right. split; [|easy]. destruct (Z_lt_ge_dec x l0); [|lia]. exfalso. apply Y, M5. lia. }
      apply (F (length h)); [rewrite limit_length; lia|lia|lia|]. right. exists l. auto.
  - exists []. split; [easy|]. split; [constructor|]. intros l. split; [easy|]. intros [X Y]. exfalso. apply Y. destruct (step h p l) eqn:S; [|easy]. apply step_some in S. lia.
Qed.
End It.

(** ** Lexicographic order *)
Fixpoint lexlt (a b : list Z) : Prop :=
  match a, b with
  | [], _ :: _ => True
  | x :: a', y :: b' => x < y \/ (x = y /\ lexlt a' b')
  | _, [] => False
  end.
Lemma lex_app w a b : lexlt (w ++ a) (w ++ b) <-> lexlt a b.
Proof. induction w as [|x w IH]; [easy|]. cbn. rewrite IH. split; [intros [?|[_ ?]]; [lia|easy]|auto]. Qed.
Lemma lex_prefix w t : t <> [] -> lexlt w (w ++ t).
Proof. intros N. rewrite <- (app_nil_r w) at 1. apply lex_app. now destruct t. Qed.
Lemma lex_irrefl a : ~ lexlt a a. Proof. induction a as [|x a IH]; cbn; [easy|]. intros [?|[_ ?]]; [lia|easy]. Qed.
Lemma lex_trans a : forall b c, lexlt a b -> lexlt b c -> lexlt a c.
Proof.
  induction a as [|x a IH]; intros [|y b] [|z c]; cbn; try easy. intros [?|[-> ?]] [?|[-> ?]]; [left; lia|left; lia|left; lia|right; split; [easy|]; eauto].
Qed.
Lemma lex_total a : forall b, lexlt a b \/ a = b \/ lexlt b a.
Proof.
  induction a as [|x a IH]; intros [|y b]; cbn; auto. destruct (Z.lt_trichotomy x y) as [|[-> |]]; auto. destruct (IH b) as [|[-> |]]; auto.
Qed.
(** A list of keys in order is determined by its members *)
Lemma lex_sorted_unique a : forall b, StronglySorted lexlt a -> StronglySorted lexlt b -> (forall k, In k a <-> In k b) -> a = b.
Proof.
  induction a as [|x a IH]; intros [|y b] Sa Sb E; auto.
  - exfalso. apply (E y). now left.
  - exfalso. apply (E x). now left.
  - inversion Sa as [|? ? Sa' Fa]; inversion Sb as [|? ? Sb' Fb]; subst. rewrite Forall_forall in Fa, Fb. assert (x = y).
    { destruct (proj1 (E x)) as [|X]; [now left|easy|]. destruct (proj2 (E y)) as [|Y]; [now left|easy|]. apply Fb in X. apply Fa in Y. exfalso. eapply lex_irrefl, lex_trans; eauto. }
    subst y. f_equal. apply IH; auto. intros k. specialize (E k). cbn [In] in E. split; intros K.
    + destruct (proj1 E) as [<-|]; auto. exfalso. apply (lex_irrefl x). now apply Fa.
    + destruct (proj2 E) as [<-|]; auto. exfalso. apply (lex_irrefl x). now apply Fb.
Qed.
Lemma sorted_app {A} (R : A -> A -> Prop) a b : StronglySorted R a -> StronglySorted R b -> (forall x y, In x a -> In y b -> R x y) -> StronglySorted R (a ++ b).
Proof.
  induction 1 as [|x a Sa IH Fa]; intros Sb X; [easy|]. cbn. constructor; [apply IH; [easy|]; intros; apply X; [now right|easy]|].
  apply Forall_app. split; [easy|]. apply Forall_forall. intros y Y. apply X; [now left|easy].
Qed.

(** ** The pre-order walk *)
Section Walk.
Variables (h : heap) (fl : list Z).
Hypothesis H : HI h fl.
Definition node (u : list Z) : Z := match walk h u with Some i => i | None => 0 end.
Definition Below (w : list Z) (ws : list (list Z)) : Prop :=
  StronglySorted lexlt ws /\ forall u, In u ws <-> (is_prefix w u = true /\ Forall byte u /\ walk h u <> None).

Lemma traverse_sub : forall d w p, Forall byte w -> walk h w = Some p -> limit h <= Z.of_nat (length w) + Z.of_nat d ->
  exists ws, Below w ws /\ forall fuel st r, traverse fuel h st = Some r -> traverse (length ws + fuel) h (p :: st) = Some (map node ws ++ r).
Proof.
  induction d as [|d IH]; intros w p Fw W Hd; [pose proof (walk_short h fl w p H W); lia|].
  destruct (it_children_ok h fl H w p W) as (ls & Ec & [Ss Sl]).
  assert (X : forall ls, StronglySorted Z.lt ls -> (forall l, In l ls -> 0 <= l < 256 /\ step h p l <> None) ->
    exists ws, StronglySorted lexlt ws /\ (forall u, In u ws <-> exists l, In l ls /\ is_prefix (w ++ [l]) u = true /\ Forall byte u /\ walk h u <> None) /\
      forall fuel st r, traverse fuel h st = Some r -> traverse (length ws + fuel) h (map (Z.add (Bs h p)) ls ++ st) = Some (map node ws ++ r)).
  { clear ls Ec Ss Sl. induction ls as [|l ls IHl]; intros Ss Sl.
    - exists []. split; [constructor|]. split; [|easy]. intros u. split; [easy|]. intros (l & [] & _).
    - inversion Ss as [|? ? Ss' Fs]; subst. destruct (IHl Ss') as (ws2 & S2 & I2 & T2); [intros; apply Sl; now right|].
      destruct (Sl l (or_introl eq_refl)) as [L1 L2]. destruct (step h p l) as [q|] eqn:Sq; [|easy].
      assert (Wq : walk h (w ++ [l]) = Some q) by (rewrite walk_snoc, W; easy). assert (Eq : q = Bs h p + l) by (apply step_some in Sq; tauto).
      destruct (IH (w ++ [l]) q) as (ws1 & [S1 I1] & T1); [apply Forall_app; split; [easy|]; constructor; [unfold byte; lia|constructor]|easy|rewrite app_length; cbn [length]; lia|].
      exists (ws1 ++ ws2). split; [|split].
      + apply sorted_app; auto. intros x y X Y. apply I1 in X as (X & _). apply I2 in Y as (l' & J & Y & _). rewrite Forall_forall in Fs. apply Fs in J.
        apply prefix_iff in X as [a ->]. apply prefix_iff in Y as [b ->]. rewrite <- !app_assoc. apply lex_app. cbn. now left.
      + intros u. rewrite in_app_iff, I1, I2. split.
        * intros [A|(l' & A & B)]; [exists l; split; [now left|easy]|exists l'; split; [now right|easy]].
        * intros (l' & [<-|A] & B); [now left|right; eauto].
      + intros fuel st r T. cbn [map app]. rewrite app_length, map_app, <- Nat.add_assoc, <- app_assoc. rewrite <- Eq. apply T1, T2, T. }
  destruct (X ls Ss) as (ws & Sw & Iw & Tw). { intros l L. apply Sl in L. easy. }
  exists (w :: ws). split.
  - split.
    + constructor; [easy|]. apply Forall_forall. intros u U. apply Iw in U as (l & _ & U & _). apply prefix_iff in U as [t ->]. rewrite <- app_assoc. now apply lex_prefix.
    + intros u. cbn [In]. rewrite Iw. split.
      * intros [<-|(l & L & P & F & V)]; [split; [apply prefix_refl|]; split; [easy|congruence]|]. split; [|easy]. eapply prefix_trans; [apply prefix_app|exact P].
      * intros (P & F & V). destruct (prefix_next _ _ P) as [|[l Q]]; [now left; congruence|]. right. exists l. split; [|easy]. apply Sl.
        assert (byte l) by (rewrite Forall_forall in F; apply F; eapply prefix_in; [exact Q|apply in_or_app; right; now left]). unfold byte in H0. split; [lia|].
        apply prefix_iff in Q as [t ->]. destruct (walk h ((w ++ [l]) ++ t)) as [i|] eqn:E; [|easy]. destruct (walk_prefix h (w ++ [l]) t i E) as [j J]. rewrite walk_snoc, W in J. congruence.
  - intros fuel st r T. cbn [length Nat.add traverse]. rewrite Ec. rewrite (Tw fuel st r T). cbn [map app]. unfold node at 2. now rewrite W.
Qed.

(** The nodes visited are distinct, so their number is below the limit *)
Lemma below_len w ws : Below w ws -> (length ws <= length h)%nat.
Proof.
  intros [S I]. rewrite <- (map_length node). assert (ND : NoDup (map node ws)).
  { assert (Nw : NoDup ws) by (clear I; induction S as [|x l S IH F]; constructor; auto; intros X; rewrite Forall_forall in F; apply F in X; now apply lex_irrefl in X).
    assert (Inj : forall x y, In x ws -> In y ws -> node x = node y -> x = y).
    { intros x y X Y E. apply I in X as (_ & _ & X). apply I in Y as (_ & _ & Y). unfold node in E. destruct (walk h x) eqn:Wx; [|easy]. destruct (walk h y) eqn:Wy; [|easy]. subst. eapply walk_inj; eauto. }
    clear I S. induction Nw as [|x l N Nl IH]; cbn; constructor.
    - intros X. apply in_map_iff in X as (y & E & Y). apply N. rewrite <- (Inj y x); auto; [now right|now left].
    - apply IH. intros; apply Inj; auto; now right. }
  assert (In' : incl (map node ws) (map Z.of_nat (seq 0 (length h)))).
  { intros i X. apply in_map_iff in X as (u & E & U). apply I in U as (_ & _ & U). unfold node in E. destruct (walk h u) as [j|] eqn:W; [|easy]. subst j.
    pose proof (alloc_inb _ _ _ (hi_fl _ _ H) (walk_alloc _ _ H _ _ W)) as B. unfold inb in B. rewrite limit_length in B. apply in_map_iff. exists (Z.to_nat i). split; [lia|]. apply in_seq. lia. }
  apply NoDup_incl_length in In'; [|easy]. now rewrite (map_length Z.of_nat), seq_length in In'.
Qed.
Lemma traverse_mono fuel : forall st r, traverse fuel h st = Some r -> traverse (S fuel) h st = Some r.
Proof.
  induction fuel as [|f IH]; intros [|i st] r E; try easy. cbn [traverse] in E. change (traverse (S (S f)) h (i :: st)) with (match it_children h i with Some c => match traverse (S f) h (c ++ st) with Some r => Some (i :: r) | None => None end | None => None end).
  destruct (it_children h i) as [c|]; [|easy]. destruct (traverse f h (c ++ st)) eqn:T; [|easy]. rewrite (IH _ _ T). easy.
Qed.
Lemma traverse_ok w p : Forall byte w -> walk h w = Some p -> exists ws, Below w ws /\ traverse (S (length h)) h [p] = Some (map node ws).
Proof.
  intros Fw W. destruct (traverse_sub (length h) w p Fw W) as (ws & B & T); [rewrite limit_length; lia|]. exists ws. split; [easy|].
  pose proof (below_len w ws B) as L. specialize (T 0%nat [] [] eq_refl). rewrite app_nil_r, Nat.add_0_r in T.
  assert (X : forall k, traverse (k + length ws) h [p] = Some (map node ws)) by (induction k as [|k IH]; [easy|]; cbn [Nat.add]; now apply traverse_mono).
  specialize (X (S (length h) - length ws)%nat). rewrite Nat.sub_add in X by lia. easy.
Qed.

(** Reading the keys off *)
Lemma strings_ok it_bool P : (forall u i, Forall byte u -> walk h u = Some i -> it_bool h i = Some (P u)) ->
  forall ws, Forall (fun u => Forall byte u /\ walk h u <> None) ws -> strings it_bool h (map node ws) = Some (filter P ws).
Proof.
  intros Hb. induction ws as [|u ws IH]; intros F; [easy|]. inversion F as [|? ? [Fu Wu] Fs]; subst. cbn [map strings filter]. unfold node at 1 3. destruct (walk h u) as [i|] eqn:W; [|easy].
  rewrite (Hb u i Fu W), (IH Fs). destruct (P u); [|easy]. now rewrite (it_string_ok h fl H u i Fu W).
Qed.
Lemma sorted_filter {A} (R : A -> A -> Prop) f l : StronglySorted R l -> StronglySorted R (filter f l).
Proof. induction 1 as [|x l S IH F]; cbn; [constructor|]. destruct (f x); [|easy]. constructor; [easy|]. rewrite Forall_forall in *. intros y Y. apply filter_In in Y. now apply F. Qed.
Lemma enumerate_ok it_bool P w p : (forall u i, Forall byte u -> walk h u = Some i -> it_bool h i = Some (P u)) ->
  (forall u, P u = true -> Forall byte u /\ walk h u <> None) ->
  Forall byte w -> walk h w = Some p ->
  exists ks, enumerate it_bool h p = Some ks /\ StronglySorted lexlt ks /\ forall k, In k ks <-> is_prefix w k = true /\ P k = true.
Proof.
  intros Hb HP Fw W. destruct (traverse_ok w p Fw W) as (ws & [S I] & T). exists (filter P ws). unfold enumerate. rewrite T. split; [|split].
  - apply strings_ok; [easy|]. apply Forall_forall. intros u U. apply I in U. easy.
  - now apply sorted_filter.
  - intros k. rewrite filter_In, I. split; [tauto|]. intros [A B]. split; [|easy]. split; [easy|]. now apply HP.
Qed.
End Walk.

(** ** The two tries *)
Lemma st_bool_ok h fl M u i : StRep h fl M -> Forall byte u -> walk h u = Some i -> st_it_bool h i = Some (has M u).
Proof.
  intros R Fu W. pose proof (sr_hi _ _ _ R) as H. pose proof (hi_fl _ _ H) as F. pose proof (walk_alloc _ _ H _ _ W) as Ai. pose proof (alloc_inb _ _ _ F Ai) as Ii. unfold st_it_bool.
  assert (G := st_get_walk h fl M u i R W). fold (has M u) in G. destruct (Z.ltb_spec 1 i) as [L|L].
  - rewrite g_base_ok by easy. unfold null_value. assert (B : 1 <= Bs h i).
    { destruct u as [|c u _] using rev_ind; [injection W as <-; lia|]. assert (c <> 256). { apply Forall_app in Fu as [_ Fu]. inversion Fu. unfold byte in *. lia. }
      assert (O := sr_node _ _ _ R u c H0). rewrite (obs_bs _ _ _ W) in O. destruct (pre M (u ++ [c])); [|easy]. injection O as O. lia. }
    destruct (Z.ltb_spec (Bs h i + 256) (limit h)) as [B2|B2].
    + rewrite g_check_ok by (unfold inb; lia). f_equal. rewrite <- G. destruct (Z.eqb_spec (Ks h (Bs h i + 256)) i) as [e|e].
      * rewrite (proj2 (step_some h i 256 (Bs h i + 256))); [easy|]. repeat split; lia || easy.
      * destruct (step h i 256) eqn:S; [|easy]. apply step_some in S as (_ & _ & -> & S). easy.
    + f_equal. rewrite <- G. destruct (step h i 256) as [q|] eqn:S; [|easy]. destruct (step_alloc h fl i 256 q H Ai S) as [Aq _]. apply step_some in S as (_ & _ & -> & _).
      pose proof (alloc_inb _ _ _ F Aq) as Iq. unfold inb in Iq. lia.
  - pose proof (alloc_ge _ _ _ Ai). assert (i = 1) by lia. subst i. f_equal. assert (u = []) by (eapply walk_inj; [exact H|exact W|easy]). subst u. unfold has.
    destruct (get M []) as [v|] eqn:E; [|easy]. apply get_in, (wf_key _ (sr_wf _ _ _ R)) in E. easy.
Qed.
Lemma tb_bool_ok h fl M u i : PRep h fl M -> Forall byte u -> walk h u = Some i -> tb_it_bool h i = Some (has M u).
Proof.
  intros R Fu W. pose proof (pt_hi _ _ _ R) as H. pose proof (hi_fl _ _ H) as F. pose proof (walk_alloc _ _ H _ _ W) as Ai. pose proof (alloc_inb _ _ _ F Ai) as Ii. unfold tb_it_bool.
  rewrite <- (tb_tail_ok h fl M u i R Fu W). destruct (Z.leb_spec i 1) as [L|L].
  - pose proof (alloc_ge _ _ _ Ai). assert (i = 1) by lia. subst i. now rewrite (root_tail h fl M R).
  - rewrite (is_tail_ok h fl) by (easy || lia). rewrite g_base_ok by easy. unfold null_value. destruct (Z.leb_spec (Bs h i) 0) as [B|B]; [easy|]. cbn [orb].
    destruct (Z.ltb_spec (Bs h i + 256) (limit h)) as [B2|B2].
    + rewrite g_check_ok by (unfold inb; lia). f_equal. destruct (Z.eqb_spec (Ks h (Bs h i + 256)) i) as [e|e].
      * rewrite (proj2 (step_some h i 256 (Bs h i + 256))); [easy|]. repeat split; lia || easy.
      * destruct (step h i 256) eqn:S; [|easy]. apply step_some in S as (_ & _ & -> & S). easy.
    + f_equal. destruct (step h i 256) as [q|] eqn:S; [|easy]. destruct (step_alloc h fl i 256 q H Ai S) as [Aq _]. apply step_some in S as (_ & _ & -> & _).
      pose proof (alloc_inb _ _ _ F Aq) as Iq. unfold inb in Iq. lia.
Qed.

Lemma search_ok h fl w : HI h fl -> Forall byte w -> exists i, t_search h w = Some i /\ (match walk h w with Some j => i = j /\ 1 <= i | None => i = 0 end).
Proof.
  intros H Fw. unfold t_search. destruct (lookup_walk h fl w H (byte_label _ Fw)) as (q & rest & E & R1 & R2). rewrite E. destruct rest as [|c r].
  - exists q. rewrite (R2 eq_refl). split; [easy|]. split; [easy|]. apply (alloc_ge h fl), (walk_alloc h fl H w), R2. easy.
  - exists 0. split; [easy|]. destruct (walk h w); [|easy]. exfalso. assert (c :: r = []) by (apply R1; easy). easy.
Qed.
Lemma has_walk_st h fl M u : StRep h fl M -> has M u = true -> Forall byte u /\ walk h u <> None.
Proof.
  intros R G. apply has_get in G as [v G]. split; [apply get_in, (wf_key _ (sr_wf _ _ _ R)) in G; tauto|]. intros X. rewrite (st_get_nowalk h fl M u R X) in G. easy.
Qed.
Lemma has_walk_tb h fl M u : PRep h fl M -> has M u = true -> Forall byte u /\ walk h u <> None.
Proof.
  intros R G. assert (Fu : Forall byte u) by (apply has_get in G as [v G]; apply get_in, (wf_key _ (pt_wf _ _ _ R)) in G; tauto). split; [easy|]. intros X. rewrite (pt_nowalk h fl M u R Fu X) in G. easy.
Qed.
(** Enumeration below a prefix: nothing is found exactly when no key starts with it *)
Lemma st_enum h fl M w : StRep h fl M -> Forall byte w -> exists i, t_search h w = Some i /\
  (i = 0 -> forall k, has M k = true -> is_prefix w k = false) /\
  (i <> 0 -> exists ks, enumerate st_it_bool h i = Some ks /\ StronglySorted lexlt ks /\ forall k, In k ks <-> is_prefix w k = true /\ has M k = true).
Proof.
  intros R Fw. pose proof (sr_hi _ _ _ R) as H. destruct (search_ok h fl w H Fw) as (i & E & X). exists i. split; [easy|]. split.
  - intros -> k G. destruct (is_prefix w k) eqn:P; [|easy]. exfalso. apply (has_walk_st h fl M k R) in G as [_ G]. apply prefix_iff in P as [t ->].
    destruct (walk h (w ++ t)) as [j|] eqn:Wk; [|easy]. destruct (walk_prefix h w t j Wk) as [j' J]. rewrite J in X. lia.
  - intros N. destruct (walk h w) as [j|] eqn:W; [|easy]. destruct X as [-> _]. apply (enumerate_ok h fl H st_it_bool (has M) w j); auto.
    + intros. now apply (st_bool_ok h fl).
    + intros. now apply (has_walk_st h fl M).
Qed.
Lemma tb_enum h fl M w : PRep h fl M -> Forall byte w -> exists i, t_search h w = Some i /\
  (i = 0 -> forall k, has M k = true -> is_prefix w k = false) /\
  (i <> 0 -> exists ks, enumerate tb_it_bool h i = Some ks /\ StronglySorted lexlt ks /\ forall k, In k ks <-> is_prefix w k = true /\ has M k = true).
Proof.
  intros R Fw. pose proof (pt_hi _ _ _ R) as H. destruct (search_ok h fl w H Fw) as (i & E & X). exists i. split; [easy|]. split.
  - intros -> k G. destruct (is_prefix w k) eqn:P; [|easy]. exfalso. apply (has_walk_tb h fl M k R) in G as [_ G]. apply prefix_iff in P as [t ->].
    destruct (walk h (w ++ t)) as [j|] eqn:Wk; [|easy]. destruct (walk_prefix h w t j Wk) as [j' J]. rewrite J in X. lia.
  - intros N. destruct (walk h w) as [j|] eqn:W; [|easy]. destruct X as [-> _]. apply (enumerate_ok h fl H tb_it_bool (has M) w j); auto.
    + intros. now apply (tb_bool_ok h fl).
    + intros. now apply (has_walk_tb h fl M).
Qed.
