(** Reading a whole text always ends, in a safe way, with one end-of-file token; and pushing code points one at a time
    makes the same steps. *)
From Coq Require Import ZArith List Bool Lia.
From Verif Require Import M_infra M_encoding M_html L_html1 L_html2.
Import ListNotations.
Open Scope Z_scope.
Open Scope html_scope.

Section Reading.
Variable switch : list token -> option state.
Hypothesis switch_text : forall l s, switch l = Some s ->
  s = RCDATA_state \/ s = RAWTEXT_state \/ s = script_data_state \/ s = PLAINTEXT_state.
Variable cdata : list token -> bool.
Variable ncr : list Z -> option (nat * list Z).
Hypothesis ncr_length : forall b len a, ncr b = Some (len, a) -> (len <= length b)%nat.

Definition head (r : list Z) : option Z := match r with [] => None | c :: _ => Some c end.
Definition SAFE (t : tok) (r : list Z) : Prop := safe t (head r).
Definition weight (t : tok) (r : list Z) : nat := (8 * length r + rank (t_state t) (head r))%nat.

Lemma weight_shorter t r t1 r1 : (length r1 < length r)%nat -> (weight t1 r1 < weight t r)%nat.
Proof. intro H. unfold weight. pose proof (rank_le (t_state t1) (head r1)). lia. Qed.

Lemma match_label_length l b ci : match_label l b ci = true -> (length l <= length b)%nat.
Proof.
  revert b. induction l as [|x l IH]; intros [|c b] H; cbn in *; try discriminate; try lia.
  apply andb_true_iff in H. destruct H as [_ H]. apply IH in H. lia.
Qed.

Lemma safe_any t r : safe t None -> (forall c, safe t (Some c)) -> SAFE t r.
Proof. unfold SAFE. destruct r; cbn; auto. Qed.

Ltac nostate := unfold SAFE, safe; cbn; exact I.

Definition halted (t : tok) : Prop :=
  t_state t <> markup_declaration_open_state /\ t_state t <> named_character_reference_state /\
  t_state t <> numeric_character_reference_end_state.

Lemma pstep_ordinary t r : waits (t_state t) = false -> pstep switch cdata ncr t r =
  match r with
  | [] => do (t1, b) <- ordinary switch t None; Some (if b : bool then Next t1 [] else Halt t1)
  | c :: r0 => do (t1, b) <- ordinary switch t (Some c); Some (Next t1 (if b : bool then c :: r0 else r0))
  end.
Proof. unfold pstep. destruct (t_state t); intro H; (discriminate H || reflexivity). Qed.

Definition step_ok (t : tok) (r : list Z) (p : pull) : Prop :=
  match p with
  | Next t1 r1 => SAFE t1 r1 /\ (weight t1 r1 < weight t r)%nat
  | Halt t1 => safe t1 None /\ halted t1 /\ r = []
  end.

Lemma pstep_ok t r : SAFE t r -> (t_state t = named_character_reference_state -> ncr r <> None) ->
  exists p, pstep switch cdata ncr t r = Some p /\ step_ok t r p.
Proof.
  intros HS N. destruct (waits (t_state t)) eqn:W.
  - unfold pstep. unfold SAFE, safe in HS. destruct (t_state t) eqn:Es; try discriminate W; clear W.
    + (* markup *)
      eexists. split; [reflexivity|].
      destruct (match_label str_dashes r false) eqn:E1.
      { apply match_label_length in E1. split; [nostate|]. apply weight_shorter. rewrite skipn_length. cbn in E1. lia. }
      destruct (match_label str_doctype r true) eqn:E2.
      { apply match_label_length in E2. split; [nostate|]. apply weight_shorter. rewrite skipn_length. cbn in E2. lia. }
      destruct (match_label str_cdata r false) eqn:E3.
      { apply match_label_length in E3. destruct (cdata (t_out t)); (split; [nostate|]);
          apply weight_shorter; rewrite skipn_length; cbn in E3; lia. }
      split; [nostate|]. unfold weight. rewrite Es. cbn. lia.
    + (* after DOCTYPE name *)
      eexists. split; [reflexivity|]. destruct r as [|c r].
      { cbn. unfold safe, halted. cbn. rewrite Es. repeat split; discriminate. }
      destruct (is_space c). { split; [unfold SAFE, safe; rewrite Es; exact I|]. apply weight_shorter. cbn. lia. }
      destruct (c =? 0x3E). { split; [nostate|]. apply weight_shorter. cbn. lia. }
      destruct (match_label str_public (c :: r) true) eqn:E1.
      { apply match_label_length in E1. split; [nostate|]. apply weight_shorter. rewrite skipn_length. cbn in *. lia. }
      destruct (match_label str_system (c :: r) true) eqn:E2.
      { apply match_label_length in E2. split; [nostate|]. apply weight_shorter. rewrite skipn_length. cbn in *. lia. }
      split; [nostate|]. unfold weight. rewrite Es. cbn. lia.
    + (* named *)
      destruct (ncr r) as [[len a]|] eqn:En; [|exfalso; apply N; auto].
      pose proof (ncr_length _ _ _ En) as L.
      destruct len as [|k].
      * destruct (flush_reference_ok _ HS) as (t1 & -> & R1 & _). eexists. split; [reflexivity|]. split.
        -- unfold SAFE, safe. cbn [t_state set_state]. revert R1. apply retok_ext; reflexivity.
        -- unfold weight. rewrite Es. cbn [t_state set_state rank]. lia.
      * destruct (nth_error r k) as [tail|] eqn:Et; [|apply nth_error_None in Et; lia].
        set (keep := match skipn (S k) r with [] => false | _ => _ end).
        destruct (flush_reference_ok (if keep then set_tmp (t_tmp t ++ firstn (S k) r) t else set_tmp a (set_tmp (t_tmp t ++ firstn (S k) r) t)))
          as (t1 & -> & R1 & _).
        { destruct keep; revert HS; apply retok_ext; reflexivity. }
        destruct (to_return_ok _ R1) as (t2 & -> & A & B & _). eexists. split; [reflexivity|]. split; [apply safe_any; assumption|].
        apply weight_shorter. rewrite skipn_length. lia.
    + (* numeric end *)
      destruct (flush_reference_ok (set_tmp [reference_code (t_code t)] (set_code (reference_code (t_code t)) t))) as (t1 & -> & R1 & _).
      { revert HS. apply retok_ext; reflexivity. }
      destruct (to_return_ok _ R1) as (t2 & -> & A & B & C & _). eexists. split; [reflexivity|]. split; [apply safe_any; assumption|].
      unfold weight. rewrite C, Es. cbn. lia.
  - rewrite pstep_ordinary by exact W. destruct r as [|c r].
    + destruct (ordinary_safe switch switch_text t None HS W) as (t1 & b & -> & H). eexists. split; [reflexivity|].
      destruct b; cbn.
      * destruct H as [H1 H2]. split; [exact H1|]. unfold weight. cbn. lia.
      * destruct H as [H1 H2]. split; [exact H1|]. split; [|reflexivity].
        unfold halted. repeat split; intro E; rewrite E in H2; discriminate.
    + destruct (ordinary_safe switch switch_text t (Some c) HS W) as (t1 & b & -> & H). eexists. split; [reflexivity|].
      destruct b; unfold step_ok.
      * destruct H as [H1 H2]. split; [exact H1|]. unfold weight. cbn in *. lia.
      * destruct H as [H1 H2]. split; [apply safe_any; assumption|]. apply weight_shorter. cbn. lia.
Qed.

(** ** Output of a step *)
Definition step_out (t : tok) (p : pull) : Prop :=
  match p with
  | Next t1 _ => exists l, t_out t1 = t_out t ++ l /\ no_eof l
  | Halt t1 => exists l, t_out t1 = t_out t ++ l ++ [TEof] /\ no_eof l
  end.

Lemma to_return_out t t1 : to_return t = Some t1 -> t_out t1 = t_out t.
Proof. unfold to_return. destruct (t_return t); [|discriminate]. intro H; inversion H; reflexivity. Qed.

Lemma out_nil t t1 : t_out t1 = t_out t -> exists l, t_out t1 = t_out t ++ l /\ no_eof l.
Proof. intro H. exists []. rewrite app_nil_r. split; [exact H|constructor]. Qed.

Lemma pstep_out t r p : pstep switch cdata ncr t r = Some p -> step_out t p.
Proof.
  destruct (waits (t_state t)) eqn:W.
  - unfold pstep. destruct (t_state t) eqn:Es; try discriminate W; clear W.
    + repeat match goal with |- context [if ?b then _ else _] => destruct b end; intro H; inversion H; subst; apply out_nil; reflexivity.
    + destruct r as [|c r].
      { intro H; inversion H; subst. cbn. eexists [TDoctype _]. split; [rewrite <- app_assoc; reflexivity|]. constructor; [discriminate|constructor]. }
      repeat match goal with |- context [if ?b then _ else _] => destruct b end; intro H; inversion H; subst; try (apply out_nil; reflexivity).
      eexists [TDoctype _]. split; [reflexivity|]. constructor; [discriminate|constructor].
    + destruct (ncr r) as [[len a]|]; [|discriminate]. destruct len as [|k].
      * destruct (flush_reference t) as [t1|] eqn:Ef; [|discriminate]. intro H; inversion H; subst.
        apply flush_reference_cases in Ef. destruct Ef as (l & A & B & _). exists l. auto.
      * destruct (nth_error r k); [|discriminate].
        match goal with |- context [flush_reference ?x] => destruct (flush_reference x) as [t1|] eqn:Ef end; [|discriminate].
        destruct (to_return t1) as [t2|] eqn:Er; [|discriminate]. intro H; inversion H; subst.
        apply flush_reference_cases in Ef. destruct Ef as (l & A & B & _). exists l.
        rewrite (to_return_out _ _ Er), A. split; [|exact B]. f_equal.
        destruct (skipn (S k) r) as [|c0 ?]; [reflexivity|].
        match goal with |- context [if ?b then _ else _] => destruct b end; reflexivity.
    + destruct (flush_reference _) as [t1|] eqn:Ef; [|discriminate]. destruct (to_return t1) as [t2|] eqn:Er; [|discriminate].
      intro H; inversion H; subst. apply flush_reference_cases in Ef. destruct Ef as (l & A & B & _). exists l.
      rewrite (to_return_out _ _ Er), A. split; [reflexivity|exact B].
  - rewrite pstep_ordinary by exact W. destruct r as [|c r].
    + destruct (ordinary switch t None) as [[t1 b]|] eqn:E; [|discriminate]. intro H; inversion H; subst.
      apply ordinary_out in E; [|exact switch_text]. destruct E as (l & A & B). destruct b; cbn in *.
      * eauto.
      * destruct B as (l0 & -> & C). eauto.
    + destruct (ordinary switch t (Some c)) as [[t1 b]|] eqn:E; [|discriminate]. intro H; inversion H; subst.
      apply ordinary_out in E; [|exact switch_text]. destruct E as (l & A & B). destruct b; cbn in *; eauto.
Qed.

Lemma psteps_out t r t1 r1 : psteps switch cdata ncr t r t1 r1 -> exists l, t_out t1 = t_out t ++ l /\ no_eof l.
Proof.
  induction 1 as [|t r t1 r1 t2 r2 H _ (l & A & B)]; [apply out_nil; reflexivity|].
  apply pstep_out in H. destruct H as (l0 & C & D). exists (l0 ++ l). rewrite A, C, app_assoc. split; [reflexivity|].
  apply Forall_app; split; assumption.
Qed.

Lemma phalts_out t r t' : phalts switch cdata ncr t r t' -> exists l, t_out t' = t_out t ++ l ++ [TEof] /\ no_eof l.
Proof.
  intros (t1 & r1 & H & H1). apply psteps_out in H. apply pstep_out in H1. destruct H as (l & A & B), H1 as (l1 & C & D).
  exists (l ++ l1). rewrite C, A, <- !app_assoc. split; [reflexivity|]. apply Forall_app; split; assumption.
Qed.

(** ** Where in the text the machine is: what was read before the reference states *)
Definition after (pre : list Z) (t : tok) : Prop :=
  (t_state t = character_reference_state \/ t_state t = named_character_reference_state -> exists p, pre = p ++ [0x26]) /\
  (numeric (t_state t) = true -> exists p q, pre = p ++ 0x26 :: 0x23 :: q).

Lemma after_other pre t : t_state t <> character_reference_state -> t_state t <> named_character_reference_state ->
  numeric (t_state t) = false -> after pre t.
Proof. intros A B C. split; [intros [H|H]; contradiction|rewrite C; discriminate]. Qed.

Lemma after_return pre t t1 : retok t -> to_return t = Some t1 -> after pre t1.
Proof.
  unfold retok, to_return. destruct (t_return t) as [s|]; [|intros []]. intros R H. inversion H; subst.
  destruct s; try contradiction; apply after_other; (discriminate || reflexivity).
Qed.

Lemma firstn_skipn_of (n : nat) (r : list Z) : exists d, r = d ++ skipn n r.
Proof. exists (firstn n r). symmetry. apply firstn_skipn. Qed.

Lemma Next_inj t r t1 r1 : Some (Next t r) = Some (Next t1 r1) -> t = t1 /\ r = r1.
Proof. intro H. split; congruence. Qed.

Lemma pstep_after pre t r t1 r1 : SAFE t r -> after pre t -> pstep switch cdata ncr t r = Some (Next t1 r1) ->
  exists d, r = d ++ r1 /\ after (pre ++ d) t1.
Proof.
  intros HS A. destruct (waits (t_state t)) eqn:W.
  - unfold pstep. unfold SAFE, safe in HS. destruct (t_state t) eqn:Es; try discriminate W; clear W.
    + repeat match goal with |- context [if ?b then _ else _] => destruct b end; intro H; apply Next_inj in H; destruct H as [<- <-].
      all: first [ (match goal with |- context [skipn ?n ?x] => destruct (firstn_skipn_of n x) as (d & Hd); exists d; split; [exact Hd|] end) | (exists []; split; [reflexivity|]) ].
      all: apply after_other; cbn; (discriminate || reflexivity).
    + destruct r as [|c r]; [discriminate|].
      destruct (is_space c).
      { intro H; inversion H; subst. exists [c]. split; [reflexivity|]. apply after_other; rewrite Es; (discriminate || reflexivity). }
      destruct (c =? 0x3E).
      { intro H; inversion H; subst. exists [c]. split; [reflexivity|]. apply after_other; cbn; (discriminate || reflexivity). }
      destruct (match_label str_public (c :: r) true).
      { intro H. assert (E : t1 = set_state after_DOCTYPE_public_keyword_state t /\ r1 = skipn 6 (c :: r)) by (split; congruence).
        destruct E as [-> ->]. destruct (firstn_skipn_of 6 (c :: r)) as (d & Hd). exists d; split; [exact Hd|]. apply after_other; cbn; (discriminate || reflexivity). }
      destruct (match_label str_system (c :: r) true).
      { intro H. assert (E : t1 = set_state after_DOCTYPE_system_keyword_state t /\ r1 = skipn 6 (c :: r)) by (split; congruence).
        destruct E as [-> ->]. destruct (firstn_skipn_of 6 (c :: r)) as (d & Hd). exists d; split; [exact Hd|]. apply after_other; cbn; (discriminate || reflexivity). }
      intro H; inversion H; subst. exists []. split; [reflexivity|]. apply after_other; cbn; (discriminate || reflexivity).
    + destruct (ncr r) as [[len a]|] eqn:En; [|discriminate]. destruct len as [|k].
      * destruct (flush_reference_ok _ HS) as (t2 & -> & _). intro H; inversion H; subst. exists []. split; [reflexivity|].
        apply after_other; cbn; (discriminate || reflexivity).
      * destruct (nth_error r k) as [tail|]; [|discriminate].
        match goal with |- context [flush_reference ?x] => destruct (flush_reference_ok x) as (t2 & -> & R1 & _) end.
        { match goal with |- retok (if ?b then _ else _) => destruct b end; revert HS; apply retok_ext; reflexivity. }
        destruct (to_return t2) as [t3|] eqn:Er; [|discriminate]. intro H; inversion H; subst.
        destruct (firstn_skipn_of (S k) r) as (d & Hd). exists d. split; [exact Hd|]. eapply after_return; eassumption.
    + match goal with |- context [flush_reference ?x] => destruct (flush_reference_ok x) as (t2 & -> & R1 & _) end.
      { revert HS. apply retok_ext; reflexivity. }
      destruct (to_return t2) as [t3|] eqn:Er; [|discriminate]. intro H; inversion H; subst. exists []. split; [reflexivity|].
      eapply after_return; eassumption.
  - rewrite pstep_ordinary by exact W.
    assert (K : forall i b (d r1 : list Z), ordinary switch t i = Some (t1, b) -> safe t i ->
      d = (if b then [] else match i with Some c => [c] | None => [] end) -> after (pre ++ d) t1).
    { intros i b d r2 Ho Hs ->. pose proof (ordinary_entry switch switch_text _ _ _ _ Ho Hs) as En. unfold entered in En. destruct A as [A1 A2]. split.
      - intros [E|E]; rewrite E in En.
        + destruct En as [-> ->]. eauto.
        + destruct En as [En ->]. rewrite app_nil_r. apply A1. auto.
      - intro E. assert (N : t_state t1 = numeric_character_reference_state \/ numeric (t_state t) = true).
        { destruct (t_state t1); try discriminate E; auto. }
        destruct N as [N|N].
        + rewrite N in En. destruct En as (E1 & -> & ->). destruct (A1 (or_introl E1)) as (p & ->). exists p, []. rewrite <- app_assoc. reflexivity.
        + destruct (A2 N) as (p & q & ->). rewrite <- app_assoc. cbn. eauto. }
    destruct r as [|c r].
    + destruct (ordinary switch t None) as [[t2 b]|] eqn:E; [|discriminate]. destruct b; intro H; inversion H; subst.
      exists []. split; [reflexivity|]. eapply K; [exact []|exact E|exact HS|reflexivity].
    + destruct (ordinary switch t (Some c)) as [[t2 b]|] eqn:E; [|discriminate]. intro H; inversion H; subst.
      exists (if b then [] else [c]). split; [destruct b; reflexivity|]. eapply K; [exact []|exact E|exact HS|reflexivity].
Qed.

(** ** Reading always ends *)
Variable W : list Z.
(** no walk of a name in this text leaves the table *)
Hypothesis in_table : forall p s, W = p ++ 0x26 :: s -> ncr s <> None.

Definition INV (t : tok) (r : list Z) : Prop := SAFE t r /\ exists pre, W = pre ++ r /\ after pre t.

Lemma INV_ncr t r : INV t r -> t_state t = named_character_reference_state -> ncr r <> None.
Proof.
  intros (_ & pre & E & A & _) N. destruct (A (or_intror N)) as (p & ->). apply (in_table p). rewrite E, <- app_assoc. reflexivity.
Qed.

Lemma pstep_INV t r t1 r1 : pstep switch cdata ncr t r = Some (Next t1 r1) -> INV t r -> INV t1 r1 /\ (weight t1 r1 < weight t r)%nat.
Proof.
  intros H I. pose proof I as (HS & pre & E & A). destruct (pstep_ok t r HS (INV_ncr _ _ I)) as (p & E1 & K). rewrite H in E1. inversion E1; subst.
  destruct K as [K1 K2]. split; [|exact K2]. split; [exact K1|].
  destruct (pstep_after _ _ _ _ _ HS A H) as (d & -> & A1). exists (pre ++ d). rewrite <- app_assoc. auto.
Qed.
Lemma psteps_safe t r t1 r1 : psteps switch cdata ncr t r t1 r1 -> INV t r -> INV t1 r1 /\ (weight t1 r1 <= weight t r)%nat.
Proof.
  induction 1 as [|t r t1 r1 t2 r2 H _ IH]; intro I; [auto|].
  destruct (pstep_INV _ _ _ _ H I) as [K1 K2]. destruct (IH K1). split; [assumption|lia].
Qed.

Lemma phalts_total t r : INV t r -> exists t', phalts switch cdata ncr t r t'.
Proof.
  remember (weight t r) as w eqn:E. revert t r E. induction w as [w IH] using lt_wf_ind. intros t r -> I.
  destruct (pstep_ok t r (proj1 I) (INV_ncr _ _ I)) as (p & E & K). destruct p as [t1 r1|t1].
  - destruct (pstep_INV _ _ _ _ E I) as [K1 K2]. destruct (IH _ K2 t1 r1 eq_refl K1) as (t' & H). exists t'.
    eapply ph_trans; [apply ps_one; eassumption|assumption].
  - exists t1. apply ph_halt. assumption.
Qed.

(** Without [&#] in the text, no numeric reference is read. *)
Lemma INV_numeric t r : INV t r -> (forall p s, W <> p ++ 0x26 :: 0x23 :: s) -> numeric (t_state t) = false.
Proof.
  intros (_ & pre & E & _ & A) N. destruct (numeric (t_state t)); [|reflexivity]. destruct (A eq_refl) as (p & q & ->).
  destruct (N p (q ++ r)). rewrite E, <- app_assoc. reflexivity.
Qed.
End Reading.
