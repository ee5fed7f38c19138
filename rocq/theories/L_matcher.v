(** Lemmas for M_matcher. *)
From Coq Require Import ZArith List Bool Lia.
From Verif Require Import M_matcher.
Import ListNotations.

(** States reachable by obeying the documented protocol (matcher.hpp:79: after an answer other than
    partial only [clear] may be called). [reach pats t m]: text [t] has been fed since the last clear. *)
Inductive reach (pats : list (list Z)) : list Z -> matcher -> Prop :=
| reach_init : reach pats [] (matcher_make pats)
| reach_push t m c m' : reach pats t m -> matcher_push m c = (m', partial) -> reach pats (t ++ [c]) m'
| reach_clear t m : reach pats t m -> reach pats [] (matcher_clear m)
| reach_push_clear t m c m' r : reach pats t m -> matcher_push m c = (m', r) ->
    reach pats [] (matcher_clear m').

Definition is_prefix (a b : list Z) : Prop := exists r, b = a ++ r.

(** Flags describe exactly the entries the text is not a prefix of. *)
Definition entry_ok (t : list Z) (e : entry) : Prop :=
  e_failed e = false <-> is_prefix t (e_str e).

Definition inv (pats : list (list Z)) (t : list Z) (m : matcher) : Prop :=
  map e_str (m_c m) = pats /\ m_s m = t /\ Forall (entry_ok t) (m_c m).

Lemma is_prefix_snoc t c s : is_prefix (t ++ [c]) s <-> is_prefix t s /\ nth_error s (length t) = Some c.
Proof.
  split.
  - intros [r ->]. rewrite <- app_assoc. split; [now eexists|].
    rewrite nth_error_app2, Nat.sub_diag by lia. reflexivity.
  - intros [[r ->] H]. rewrite nth_error_app2, Nat.sub_diag in H by lia.
    destruct r as [|x r]; [discriminate|]. injection H as ->.
    exists r. now rewrite <- app_assoc.
Qed.

Lemma mismatch_spec t c e : entry_ok t e ->
  (entry_mismatch e (length t) c = false <-> is_prefix (t ++ [c]) (e_str e)).
Proof.
  intros He. unfold entry_mismatch. rewrite is_prefix_snoc.
  rewrite !orb_false_iff. unfold entry_ok in He. rewrite He.
  destruct (nth_error (e_str e) (length t)) as [x|] eqn:Hx.
  - assert (length t < length (e_str e))%nat by (apply nth_error_Some; congruence).
    rewrite negb_false_iff, Z.eqb_eq, Nat.eqb_neq. split.
    + intros [[H1 _] ->]. auto.
    + intros [H1 [=]]. repeat split; auto. lia.
  - split; [intros [_ [=]]|intros [_ [=]]].
Qed.

(** The out-of-range branch of [entry_mismatch] is not reached. *)
Lemma entry_in_range t e : entry_ok t e -> e_failed e = false ->
  length (e_str e) <> length t -> nth_error (e_str e) (length t) <> None.
Proof.
  intros He Hf Hl. apply He in Hf. destruct Hf as [r Hr]. rewrite Hr.
  apply nth_error_Some. rewrite Hr, app_length in Hl. rewrite app_length. lia.
Qed.

Lemma prefix_same_length t s : is_prefix t s -> length t = length s -> t = s.
Proof.
  intros [r ->] H. rewrite app_length in H. destruct r; [now rewrite app_nil_r|cbn in H; lia].
Qed.

Lemma push_loop_spec t c : forall es n es' n' b,
  Forall (entry_ok t) es ->
  push_loop (length (t ++ [c])) (length t) c n es = (es', n', b) ->
  map e_str es' = map e_str es /\
  (b = true <-> In (t ++ [c]) (map e_str es)) /\
  (b = false -> Forall (entry_ok (t ++ [c])) es' /\ (n' <= n + length es)%nat /\
      (n' = (n + length es)%nat <-> forall e, In e es -> ~ is_prefix (t ++ [c]) (e_str e))).
Proof.
  induction es as [|e es IH]; intros n es' n' b Hok H; cbn [push_loop] in H.
  - injection H as <- <- <-. cbn. repeat split; auto; try lia; try discriminate; try easy.
  - inversion Hok as [|? ? He Hes]; subst.
    destruct (entry_mismatch e (length t) c) eqn:Hm.
    + destruct (push_loop _ _ _ (S n) es) as [[r n1] b1] eqn:Hp.
      injection H as <- <- <-. destruct (IH _ _ _ _ Hes Hp) as (H1 & H2 & H3).
      assert (Hnp : ~ is_prefix (t ++ [c]) (e_str e)).
      { intros Hc. apply (mismatch_spec _ _ _ He) in Hc. congruence. }
      split; [cbn; now rewrite H1|]. split.
      * rewrite H2. cbn. split; [auto|]. intros [Heq|]; [|assumption].
        exfalso. apply Hnp. rewrite Heq. exists []. now rewrite app_nil_r.
      * intros Hb. destruct (H3 Hb) as (H4 & H5 & H6). cbn [length]. repeat split.
        -- constructor; [|assumption]. unfold entry_ok. cbn. split; [discriminate|]. intros Hc. now elim Hnp.
        -- lia.
        -- intros Hn e' [<-|Hin]; [assumption|]. apply H6; [lia|assumption].
        -- intros Hall. replace (n + S (length es))%nat with (S n + length es)%nat by lia.
           apply H6. intros; apply Hall. now right.
    + assert (Hpre := proj1 (mismatch_spec _ _ _ He) Hm).
      destruct (Nat.eqb_spec (length (t ++ [c])) (length (e_str e))) as [Hl|Hl].
      * injection H as <- <- <-. repeat split; auto; try discriminate.
        intros _. left. symmetry. now apply prefix_same_length.
      * destruct (push_loop _ _ _ n es) as [[r n1] b1] eqn:Hp.
        injection H as <- <- <-. destruct (IH _ _ _ _ Hes Hp) as (H1 & H2 & H3).
        split; [cbn; now rewrite H1|]. split.
        -- rewrite H2. cbn. split; [auto|]. intros [Heq|]; [|assumption]. rewrite Heq in Hl. lia.
        -- intros Hb. destruct (H3 Hb) as (H4 & H5 & H6). cbn [length]. repeat split.
           ++ constructor; [|assumption]. split; [auto|]. intros _.
              unfold entry_mismatch in Hm. apply orb_false_iff in Hm. destruct Hm as [Hm _].
              apply orb_false_iff in Hm. apply Hm.
           ++ lia.
           ++ intros Hn. lia.
           ++ intros Hall. exfalso. apply (Hall e); [now left|assumption].
Qed.

Lemma push_spec pats t m c m' r : inv pats t m -> matcher_push m c = (m', r) ->
  map e_str (m_c m') = pats /\ m_s m' = t ++ [c] /\
  (r = succeed <-> In (t ++ [c]) pats) /\
  (r = failed <-> forall p, In p pats -> ~ is_prefix (t ++ [c]) p) /\
  (r = partial -> inv pats (t ++ [c]) m').
Proof.
  intros (Hp & Hs & Hok) H. unfold matcher_push in H. rewrite Hs in H.
  destruct (push_loop _ _ _ 0 (m_c m)) as [[es n] b] eqn:Hl.
  injection H as <- <-. destruct (push_loop_spec _ _ _ _ _ _ _ Hok Hl) as (H1 & H2 & H3).
  rewrite Hp in *. cbn [m_c m_s]. split; [assumption|]. split; [reflexivity|].
  assert (Hpre : forall P : list Z -> Prop, (forall e, In e (m_c m) -> P (e_str e)) <-> (forall p, In p pats -> P p)).
  { intros P. rewrite <- Hp. split.
    - intros Hx p Hin. apply in_map_iff in Hin. destruct Hin as (e & <- & Hin). auto.
    - intros Hx e Hin. apply Hx. now apply in_map. }
  destruct b.
  - assert (Hin : In (t ++ [c]) pats) by now apply H2.
    repeat split; auto; try discriminate. intros Hall. exfalso.
    apply (Hall _ Hin). exists []. now rewrite app_nil_r.
  - destruct (H3 eq_refl) as (H4 & H5 & H6). rewrite Nat.add_0_l in *.
    rewrite (Hpre (fun s => ~ is_prefix (t ++ [c]) s)) in H6.
    assert (Hni : ~ In (t ++ [c]) pats) by (intros Hin; apply H2 in Hin; discriminate).
    destruct (Nat.eqb_spec n (length (m_c m))) as [Hn|Hn].
    + split; [split; [discriminate|intros; contradiction]|].
      split; [split; [intros _; now apply H6|reflexivity]|]. discriminate.
    + split; [split; [discriminate|intros; contradiction]|].
      split; [split; [discriminate|intros Hx; elim Hn; now apply H6]|].
      intros _. repeat split; assumption.
Qed.

Lemma clear_inv pats m : map e_str (m_c m) = pats -> inv pats [] (matcher_clear m).
Proof.
  intros H. unfold inv, matcher_clear. cbn. rewrite map_map. cbn. repeat split; auto.
  apply Forall_forall. intros e Hin. apply in_map_iff in Hin. destruct Hin as (e' & <- & _).
  split; auto. intros _. now exists (e_str e').
Qed.

Lemma reach_inv pats t m : reach pats t m -> inv pats t m.
Proof.
  induction 1 as [|t m c m' _ IH Hp|t m _ IH|t m c m' r _ IH Hp].
  - unfold matcher_make, inv. cbn. rewrite map_map. cbn. rewrite map_id. repeat split; auto.
    apply Forall_forall. intros e Hin. apply in_map_iff in Hin. destruct Hin as (s & <- & _).
    split; auto. intros _. now exists s.
  - destruct (push_spec _ _ _ _ _ _ IH Hp) as (_ & _ & _ & _ & H). now apply H.
  - apply clear_inv. apply IH.
  - apply clear_inv. destruct (push_spec _ _ _ _ _ _ IH Hp) as (H & _). exact H.
Qed.

Lemma matcher_answer pats t m c m' r :
  reach pats t m -> matcher_push m c = (m', r) ->
  (r = succeed <-> In (t ++ [c]) pats) /\
  (r = failed <-> forall p, In p pats -> ~ exists rest, p = (t ++ [c]) ++ rest) /\
  m_s m' = t ++ [c].
Proof.
  intros Hr Hp. apply reach_inv in Hr.
  destruct (push_spec _ _ _ _ _ _ Hr Hp) as (_ & H1 & H2 & H3 & _). auto.
Qed.

(** Whole runs: feeding a text until the first decisive answer. *)
Fixpoint feed (m : matcher) (text : list Z) : match_result * list Z :=
  match text with
  | [] => (partial, [])
  | c :: rest =>
      match matcher_push m c with
      | (m', partial) => feed m' rest
      | (m', r) => (r, rest)
      end
  end.

Lemma feed_spec pats text : forall t m, reach pats t m -> 
  match feed m text with
  | (succeed, rest) => exists u, text = u ++ rest /\ u <> [] /\ In (t ++ u) pats /\
        forall v w, u = v ++ w -> v <> [] -> w <> [] -> ~ In (t ++ v) pats
  | (failed, rest) => exists u, text = u ++ rest /\ u <> [] /\ 
        (forall p, In p pats -> ~ is_prefix (t ++ u) p) /\
        forall v w, u = v ++ w -> v <> [] -> ~ In (t ++ v) pats
  | (partial, rest) => rest = [] /\ forall v w, text = v ++ w -> v <> [] -> 
        ~ In (t ++ v) pats /\ exists p, In p pats /\ is_prefix (t ++ v) p
  end.
Proof.
  induction text as [|c text IH]; intros t m Hr; cbn [feed].
  - split; [reflexivity|]. intros [|? ?] w; [congruence|discriminate].
  - destruct (matcher_push m c) as [m' r] eqn:Hp.
    destruct (push_spec _ _ _ _ _ _ (reach_inv _ _ _ Hr) Hp) as (Hpats & _ & Hs & Hf & _).
    destruct r.
    + assert (Hr' : reach pats (t ++ [c]) m') by (eapply reach_push; eauto).
      assert (Hni : ~ In (t ++ [c]) pats) by (intros Hx; apply Hs in Hx; discriminate).
      assert (Hex : exists p, In p pats /\ is_prefix (t ++ [c]) p).
      { destruct (Exists_dec (fun p => is_prefix (t ++ [c]) p) pats) as [He|He].
        - intros p. destruct (list_eq_dec Z.eq_dec (firstn (length (t ++ [c])) p) (t ++ [c])) as [E|E].
          + left. exists (skipn (length (t ++ [c])) p). now rewrite <- E at 1; rewrite firstn_skipn.
          + right. intros [q ->]. apply E. rewrite firstn_app, Nat.sub_diag, firstn_all, firstn_O, app_nil_r. reflexivity.
        - apply Exists_exists in He. exact He.
        - exfalso. assert (Hx : partial = failed); [|discriminate].
          apply Hf. intros p Hin Hc. apply He. apply Exists_exists. eauto. }
      specialize (IH _ _ Hr'). destruct (feed m' text) as [[] rest].
      * destruct IH as [-> IH]. split; [reflexivity|]. intros v w Hvw Hv.
        destruct v as [|x v]; [congruence|]. injection Hvw as <- Hvw.
        destruct v as [|y v]; [now split|].
        specialize (IH (y :: v) w Hvw ltac:(discriminate)). rewrite <- app_assoc in IH. exact IH.
      * destruct IH as (u & -> & Hu & Hin & Hmin). exists (c :: u).
        rewrite <- app_assoc in Hin. repeat split; auto; try discriminate.
        intros v w Hvw Hv Hw. destruct v as [|x v]; [congruence|]. injection Hvw as <- Hvw.
        destruct v as [|y v]; [assumption|].
        specialize (Hmin (y :: v) w Hvw ltac:(discriminate) Hw). now rewrite <- app_assoc in Hmin.
      * destruct IH as (u & -> & Hu & Hin & Hmin). exists (c :: u).
        repeat split; auto; try discriminate.
        { intros p Hp' Hc. apply (Hin p Hp'). rewrite <- app_assoc. exact Hc. }
        intros v w Hvw Hv. destruct v as [|x v]; [congruence|]. injection Hvw as <- Hvw.
        destruct v as [|y v]; [assumption|].
        specialize (Hmin (y :: v) w Hvw ltac:(discriminate)). now rewrite <- app_assoc in Hmin.
    + exists [c]. repeat split; auto; try discriminate.
      * now apply Hs.
      * intros [|x v] [|y w] Hvw Hv Hw; try congruence. injection Hvw as <- Hvw. destruct v; discriminate.
    + exists [c]. repeat split; auto; try discriminate.
      * now apply Hf.
      * intros [|x v] w Hvw Hv Hin; try congruence. injection Hvw as <- Hvw.
        symmetry in Hvw. apply app_eq_nil in Hvw. destruct Hvw as [-> ->].
        apply Hs in Hin. discriminate.
Qed.
