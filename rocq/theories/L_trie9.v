(** Bulk assignment of a sorted list of keys. *)
From Coq Require Import ZArith List Bool Lia Sorting.Sorted.
From Verif Require Import M_trie L_trie L_trie2 L_trie3 L_trie4 L_trie5 L_trie6 L_trie7 L_trie8.
Import ListNotations.
Open Scope Z_scope.
Local Arguments Z.opp : simpl never.
Local Arguments Z.add : simpl never.
Local Arguments Z.sub : simpl never.

(** ** Strings below a word *)
Definition glue (w : list Z) (e : Z * list Z) : list Z := w ++ fst e :: snd e.
Definition plt (e e' : Z * list Z) : Prop := lexlt (fst e :: snd e) (fst e' :: snd e').

Fixpoint dropc (c : Z) (L : list (Z * list Z)) : list (Z * list Z) :=
  match L with e :: L' => if c =? fst e then dropc c L' else L | [] => [] end.

Lemma nth_glue w e : nth_error (glue w e) (length w) = Some (fst e).
Proof. unfold glue. rewrite nth_error_app2, Nat.sub_diag by lia. easy. Qed.
Lemma len_glue w e : length (glue w e) = (length w + S (length (snd e)))%nat.
Proof. unfold glue. now rewrite app_length. Qed.
Lemma skip_glue w c L : li_skip c (length w) (map (glue w) L) = Some (map (glue w) (dropc c L)).
Proof. induction L as [|e L IH]; [easy|]. cbn [map li_skip dropc]. rewrite nth_glue. destruct (c =? fst e); [apply IH|easy]. Qed.
Lemma plt_le e e' : plt e e' -> fst e <= fst e'. Proof. unfold plt. cbn. lia. Qed.
Lemma dropc_len c L : (length (dropc c L) <= length L)%nat.
Proof. induction L as [|e L IH]; cbn; [lia|]. destruct (c =? fst e); cbn; lia. Qed.
Lemma dropc_split c L : StronglySorted plt L -> (forall e, In e L -> c <= fst e) ->
  L = filter (fun e => fst e =? c) L ++ dropc c L /\ (forall e, In e (dropc c L) -> c < fst e) /\ StronglySorted plt (dropc c L).
Proof.
  induction 1 as [|e L S IH F]; intros Hc; [split; [easy|]; split; [easy|constructor]|]. cbn [filter dropc]. rewrite (Z.eqb_sym c). destruct (Z.eqb_spec (fst e) c) as [E|E].
  - destruct IH as (I1 & I2 & I3); [intros; apply Hc; now right|]. split; [cbn; now f_equal|auto].
  - assert (X : forall e', In e' (e :: L) -> c < fst e').
    { assert (c < fst e) by (specialize (Hc e (or_introl eq_refl)); lia). intros e' [<-|I]; [easy|]. rewrite Forall_forall in F. apply F, plt_le in I. lia. }
    split; [|split; [easy|now constructor]]. replace (filter (fun e0 => fst e0 =? c) L) with (@nil (Z * list Z)); [easy|]. symmetry.
    assert (Y : forall e', In e' L -> c < fst e') by (intros; apply X; now right). clear -Y. induction L as [|e' L IH]; [easy|]. cbn. destruct (Z.eqb_spec (fst e') c) as [E|]; [specialize (Y e' (or_introl eq_refl)); lia|].
    apply IH. intros; apply Y; now right.
Qed.
Lemma filter_filter_ne {A} (p q : A -> bool) L : (forall x, p x = true -> q x = false) -> filter q (filter p L) = [].
Proof. intros X. induction L as [|x L IH]; [easy|]. cbn. destruct (p x) eqn:P; cbn; [|easy]. now rewrite (X x P). Qed.

(** ** The children of one node *)
Definition QR (w : list Z) (L : list (Z * list Z)) (l : Z) (it : list_iter) : Prop :=
  li_level it = Z.of_nat (length w) /\ exists rest, li_range it = map (glue w) (filter (fun e => fst e =? l) L) ++ map (glue w) rest /\ Forall (fun e => fst e <> l) rest.

Lemma ci_loop_ok w : forall n L, (length L <= n)%nat -> StronglySorted plt L ->
  exists ls lq qs, ci_loop n (LI (map (glue w) L) (Z.of_nat (length w))) = Some (ls, qs) /\
    StronglySorted Z.lt ls /\ (forall l, In l ls <-> exists t, In (l, t) L) /\
    StronglySorted Z.lt lq /\ (forall l, In l lq <-> exists t, t <> [] /\ In (l, t) L) /\ Forall2 (QR w L) lq qs.
Proof.
  induction n as [|n IH]; intros L Hn S.
  - destruct L; [|cbn in Hn; lia]. exists [], [], []. split; [easy|]. split; [constructor|]. split; [intros; split; [easy|intros [? []]]|]. split; [constructor|]. split; [intros; split; [easy|intros [? [_ []]]]|constructor].
  - destruct L as [|[c t] L1].
    { exists [], [], []. split; [easy|]. split; [constructor|]. split; [intros; split; [easy|intros [? []]]|]. split; [constructor|]. split; [intros; split; [easy|intros [? [_ []]]]|constructor]. }
    set (L := (c, t) :: L1) in *. set (it := LI (map (glue w) L) (Z.of_nat (length w))). assert (S' := S). unfold L in S'. inversion S' as [|? ? S1 F1]; subst. rewrite Forall_forall in F1.
    assert (Hc : forall e, In e L -> c <= fst e). { intros e [<-|I]; [cbn; lia|]. apply F1, plt_le in I. cbn in I. easy. }
    destruct (dropc_split c L S Hc) as (D1 & D2 & D3). set (B := dropc c L) in *.
    assert (Ed : li_drop (length w) (map (glue w) L) = map (glue w) L).
    { unfold L. cbn [map li_drop]. rewrite len_glue. destruct (Nat.leb_spec (length w + Datatypes.S (length (snd (c, t)))) (length w)); [lia|easy]. }
    assert (Ev : li_value it = Some c).
    { unfold li_value, it. cbn [li_level li_range]. rewrite (proj2 (Z.leb_le 0 _)) by lia. rewrite Nat2Z.id, Ed. unfold L. cbn [map]. rewrite len_glue. rewrite (proj2 (Z.leb_le _ _)) by lia. cbn [andb]. apply nth_glue. }
    assert (En : li_next it = Some (map (glue w) B)).
    { unfold li_next, it. cbn [li_level li_range]. rewrite Nat2Z.id, Ed. unfold L at 1 2. cbn [map]. rewrite nth_glue. change (glue w (c, t) :: map (glue w) L1) with (map (glue w) L). apply skip_glue. }
    assert (Eh : exists b, li_has_child it = Some b /\ (b = true <-> exists t', t' <> [] /\ In (c, t') L)).
    { unfold li_has_child. rewrite Ev. unfold it. cbn [li_level li_range]. rewrite Nat2Z.id. unfold L at 1. cbn [map]. rewrite len_glue. cbn [snd]. destruct (Nat.eqb_spec (Datatypes.S (length w)) (length w + Datatypes.S (length t))) as [E|E].
      - assert (t = []) by (destruct t; [easy|cbn in E; lia]). subst t. destruct L1 as [|[c' t'] L2]; cbn [map].
        + exists false. split; [easy|]. split; [easy|]. intros (t' & N & [X|[]]). injection X as <-. easy.
        + rewrite nth_glue. cbn [fst]. eexists. split; [reflexivity|]. rewrite Z.eqb_eq. assert (P := F1 (c', t') (or_introl eq_refl)). unfold plt in P. cbn [fst snd lexlt] in P. split.
          * intros <-. exists t'. split; [|right; now left]. intros ->. destruct P as [|[_ P]]; [lia|easy].
          * intros (t'' & N & [X|[X|X]]); [injection X as <-; easy|now injection X|]. inversion S1 as [|? ? S2 F2]; subst. rewrite Forall_forall in F2. apply F2, plt_le in X. cbn in X. lia.
      - unfold L. cbn [map]. rewrite nth_glue. cbn [fst]. rewrite Z.eqb_refl. exists true. split; [easy|]. split; [|easy]. intros _. exists t. split; [|now left]. intros ->. cbn in E. lia. }
    destruct Eh as (bb & Eh & Hb).
    assert (LB : (length B <= n)%nat).
    { pose proof (dropc_len c L1). cbn in Hn. unfold B, L. cbn [dropc fst]. rewrite Z.eqb_refl. lia. }
    destruct (IH B LB D3) as (ls & lq & qs & El & A1 & A2 & A3 & A4 & A5).
    assert (Step : ci_loop (Datatypes.S n) it = Some (c :: ls, if bb then it :: qs else qs)).
    { unfold it, L. cbn [ci_loop map li_range]. change (glue w (c, t) :: map (glue w) L1) with (map (glue w) L). fold it. rewrite Ev, Eh, En. change (li_level it) with (Z.of_nat (length w)). rewrite El. easy. }
    fold it. rewrite Step. exists (c :: ls), (if bb then c :: lq else lq), (if bb then it :: qs else qs).
    assert (InB : forall l t', l <> c -> In (l, t') L <-> In (l, t') B).
    { intros l t' N. split; intros I; [|rewrite D1; apply in_or_app; now right]. rewrite D1 in I. apply in_app_or in I as [I|I]; [|easy]. apply filter_In in I as [_ I]. cbn in I. apply Z.eqb_eq in I. congruence. }
    split; [easy|]. split; [|split; [|split; [|split]]].
    + constructor; [easy|]. apply Forall_forall. intros l I. apply A2 in I as [t' I]. apply D2 in I. easy.
    + intros l. cbn [In]. rewrite A2. split.
      * intros [<-|[t' I]]; [exists t; now left|exists t'; rewrite D1; apply in_or_app; now right].
      * intros [t' I]. destruct (Z.eq_dec c l) as [|N]; [now left|right]. exists t'. apply InB; congruence.
    + assert (X : StronglySorted Z.lt (c :: lq)) by (constructor; [easy|]; apply Forall_forall; intros l I; apply A4 in I as (t' & _ & I); now apply D2 in I). destruct bb; [easy|now inversion X].
    + intros l. assert (X : In l lq -> exists t', t' <> [] /\ In (l, t') L) by (rewrite A4; intros (t' & N & I); exists t'; split; [easy|]; rewrite D1; apply in_or_app; now right).
      assert (Y : l <> c -> (exists t', t' <> [] /\ In (l, t') L) -> In l lq) by (intros N (t' & N' & I); apply A4; exists t'; split; [easy|]; now apply InB). split.
      * destruct bb; [intros [<-|I]; [now apply Hb|auto]|auto].
      * intros I. destruct (Z.eq_dec l c) as [-> |N]; [apply Hb in I; subst bb; now left|]. destruct bb; [right|]; auto.
    + assert (X : Forall2 (QR w L) lq qs).
      { clear -A5 A4 D1 D2. assert (G : forall l, In l lq -> l <> c) by (intros l I; apply A4 in I as (t' & _ & I); apply D2 in I; cbn in I; lia). clear A4.
        induction A5 as [|l q lq qs Q A IH]; [constructor|]. constructor; [|apply IH; intros; apply G; now right]. destruct Q as (Q1 & rest & Q2 & Q3). split; [easy|]. exists rest. split; [|easy].
        rewrite D1, filter_app, filter_filter_ne; [easy|]. intros e E. apply Z.eqb_eq in E. specialize (G l (or_introl eq_refl)). destruct (Z.eqb_spec (fst e) l); [lia|easy]. }
      destruct bb; [|easy]. constructor; [|easy]. split; [easy|]. exists B. split; [unfold it; cbn [li_range]; rewrite <- map_app; f_equal; exact D1|]. apply Forall_forall. intros e I. apply D2 in I. lia.
Qed.

(** ** Keys *)
Section Bulk.
Variable K : list (list Z).
Hypothesis Ks_sorted : StronglySorted lexlt K.
Hypothesis Ks_byte : forall k, In k K -> k <> [] /\ Forall byte k.

Definition kmap : fmap := map (fun k => (k, 0)) K.
Notation M := kmap.
Lemma in_kmap k v : In (k, v) M <-> In k K /\ v = 0.
Proof. unfold kmap. rewrite in_map_iff. split; [intros (x & E & I); injection E as -> <-; easy|intros [I ->]; exists k; easy]. Qed.
Lemma keys_nodup : NoDup K.
Proof. clear Ks_byte. induction Ks_sorted as [|x l S IH F]; constructor; auto. intros X. rewrite Forall_forall in F. apply F in X. now apply lex_irrefl in X. Qed.
Lemma kmap_wf : Wf M.
Proof.
  constructor.
  - unfold kmap. rewrite map_map. cbn. rewrite map_id. apply keys_nodup.
  - intros k v I. apply in_kmap in I as [I ->]. destruct (Ks_byte k I). split; [easy|]. split; [easy|lia].
Qed.
Lemma get_kmap_in k : In k K -> get M k = Some 0. Proof. intros I. apply in_get; [apply kmap_wf|]. now apply in_kmap. Qed.
Lemma get_kmap_out k : ~ In k K -> get M k = None. Proof. intros N. destruct (get M k) as [v|] eqn:G; [|easy]. apply get_in, in_kmap in G. tauto. Qed.
Lemma get_kmap_some k v : get M k = Some v -> In k K /\ v = 0. Proof. intros G. now apply get_in, in_kmap in G. Qed.

(** the strings below [w] *)
Fixpoint strip (w k : list Z) : option (list Z) :=
  match w, k with
  | [], _ => Some k
  | a :: w', b :: k' => if a =? b then strip w' k' else None
  | _, [] => None
  end.
Lemma strip_ok w : forall k t, strip w k = Some t <-> k = w ++ t.
Proof.
  induction w as [|a w IH]; intros k t; cbn; [split; congruence|]. destruct k as [|b k]; [easy|]. destruct (Z.eqb_spec a b) as [-> |N]; [rewrite IH|]; split; congruence.
Qed.
Definition tails (w : list Z) : list (Z * list Z) := flat_map (fun k => match strip w k with Some (c :: t) => [(c, t)] | _ => [] end) K.
Lemma in_tails w c t : In (c, t) (tails w) <-> In (w ++ c :: t) K.
Proof.
  unfold tails. rewrite in_flat_map. split.
  - intros (k & I & X). destruct (strip w k) as [[|c' t']|] eqn:E; try easy. destruct X as [X|[]]. injection X as <- <-. apply strip_ok in E. now subst.
  - intros I. exists (w ++ c :: t). split; [easy|]. rewrite (proj2 (strip_ok w _ (c :: t)) eq_refl). now left.
Qed.
Lemma tails_sorted w : StronglySorted plt (tails w).
Proof.
  unfold tails. clear Ks_byte. induction Ks_sorted as [|k l S IH F]; [constructor|]. cbn [flat_map]. apply sorted_app; auto.
  - destruct (strip w k) as [[|c t]|]; repeat constructor.
  - intros [c t] [c' t'] X Y. destruct (strip w k) as [[|c0 t0]|] eqn:E; try easy. destruct X as [X|[]]. injection X as -> ->. apply strip_ok in E. subst k.
    apply in_flat_map in Y as (k' & I & Y). destruct (strip w k') as [[|c1 t1]|] eqn:E; try easy. destruct Y as [Y|[]]. injection Y as -> ->. apply strip_ok in E. subst k'.
    rewrite Forall_forall in F. apply F in I. now apply lex_app in I.
Qed.
Definition own (w : list Z) : list (list Z) := if in_dec (list_eq_dec Z.eq_dec) w K then [w] else [].
Lemma glue_sorted w L : StronglySorted plt L -> StronglySorted lexlt (map (glue w) L).
Proof.
  induction 1 as [|e L S IH F]; cbn; constructor; auto. apply Forall_forall. intros k I. apply in_map_iff in I as (e' & <- & I). rewrite Forall_forall in F. apply F in I. now apply lex_app.
Qed.
Lemma group_eq w c : map (glue w) (filter (fun e => fst e =? c) (tails w)) = own (w ++ [c]) ++ map (glue (w ++ [c])) (tails (w ++ [c])).
Proof.
  apply lex_sorted_unique.
  - apply glue_sorted, sorted_filter, tails_sorted.
  - apply sorted_app; [unfold own; destruct (in_dec _ _ _); repeat constructor|apply glue_sorted, tails_sorted|]. intros x y X Y. unfold own in X. destruct (in_dec _ _ _); [|easy]. destruct X as [<-|[]].
    apply in_map_iff in Y as (e & <- & _). unfold glue. now apply lex_prefix.
  - intros k. rewrite in_app_iff, !in_map_iff. split.
    + intros ([c' t] & <- & I). apply filter_In in I as [I E]. cbn [fst] in E. apply Z.eqb_eq in E. subst c'. apply in_tails in I. unfold glue. cbn [fst snd]. destruct t as [|d t].
      * left. unfold own. destruct (in_dec _ _ _) as [|N]; [now left|]. exfalso. apply N. easy.
      * right. exists (d, t). cbn [fst snd]. rewrite <- app_assoc. split; [easy|]. apply in_tails. rewrite <- app_assoc. easy.
    + intros [I|([d t] & <- & I)].
      * unfold own in I. destruct (in_dec _ _ _) as [J|]; [|easy]. destruct I as [<-|[]]. exists (c, []). split; [easy|]. apply filter_In. split; [now apply in_tails|cbn; apply Z.eqb_refl].
      * apply in_tails in I. rewrite <- app_assoc in I. exists (c, d :: t). unfold glue. cbn [fst snd]. rewrite <- app_assoc. split; [easy|]. apply filter_In. split; [now apply in_tails|cbn; apply Z.eqb_refl].
Qed.

Definition QE (w : list Z) (it : list_iter) : Prop :=
  li_level it = Z.of_nat (length w) - 1 /\
  match w with
  | [] => li_range it = map (glue []) (tails []) \/ li_range it = [] :: map (glue []) (tails [])
  | _ => exists w' c rest, w = w' ++ [c] /\ li_range it = own w ++ map (glue w) (tails w) ++ map (glue w') rest /\ Forall (fun e => fst e <> c) rest
  end.

Lemma pre_tails w c : pre M (w ++ [c]) = true <-> exists t, In (c, t) (tails w).
Proof.
  rewrite pre_iff. split.
  - intros (k & v & I & P). apply in_kmap in I as [I _]. apply prefix_iff in P as [t ->]. exists t. apply in_tails. now rewrite <- app_assoc in I.
  - intros [t I]. apply in_tails in I. exists (w ++ c :: t), 0. split; [now apply in_kmap|]. apply prefix_iff. exists t. now rewrite <- app_assoc.
Qed.
Lemma ext_tails w c : ext M (w ++ [c]) = true <-> exists t, t <> [] /\ In (c, t) (tails w).
Proof.
  rewrite ext_iff. split.
  - intros (k & v & I & P & N). apply in_kmap in I as [I _]. apply prefix_iff in P as [t ->]. exists t. split; [intros ->; apply N; now rewrite app_nil_r|]. apply in_tails. now rewrite <- app_assoc in I.
  - intros (t & N & I). apply in_tails in I. exists (w ++ c :: t), 0. split; [now apply in_kmap|]. split; [apply prefix_iff; exists t; now rewrite <- app_assoc|].
    intros E. apply app_inv_head in E. injection E as ->. easy.
Qed.
Lemma ext_some w : ext M w = true <-> tails w <> [].
Proof.
  rewrite ext_pre. split.
  - intros [c P]. apply pre_tails in P as [t P]. destruct (tails w); easy.
  - intros N. destruct (tails w) as [|[c t] L] eqn:E; [easy|]. exists c. apply pre_tails. exists t. rewrite E. now left.
Qed.

Lemma skip_group w c rest L : Forall (fun e => fst e <> c) rest -> li_skip c (length w) (own (w ++ [c]) ++ map (glue (w ++ [c])) L ++ map (glue w) rest) = Some (map (glue w) rest).
Proof.
  intros F. assert (X : forall e, nth_error (glue (w ++ [c]) e) (length w) = Some c) by (intros e; unfold glue; rewrite <- app_assoc, nth_error_app2, Nat.sub_diag by lia; easy).
  assert (Y : li_skip c (length w) (map (glue w) rest) = Some (map (glue w) rest)).
  { destruct F as [|e r N F]; [easy|]. cbn [map li_skip]. rewrite nth_glue. destruct (Z.eqb_spec c (fst e)); [congruence|easy]. }
  assert (Z' : li_skip c (length w) (map (glue (w ++ [c])) L ++ map (glue w) rest) = Some (map (glue w) rest)).
  { induction L as [|e L IH]; [easy|]. cbn [map app li_skip]. rewrite X, Z.eqb_refl. apply IH. }
  unfold own. destruct (in_dec _ _ _); [|easy]. cbn [app li_skip]. rewrite nth_error_app2, Nat.sub_diag by lia. cbn. now rewrite Z.eqb_refl.
Qed.

Lemma ci_children_ok w it : QE w it -> (w = [] \/ ext M w = true) ->
  exists ls lq qs, ci_children it = Some (ls, qs) /\ StronglySorted Z.lt ls /\
    (forall l, In l ls <-> (l <> 256 /\ pre M (w ++ [l]) = true) \/ (l = 256 /\ In w K)) /\
    NoDup lq /\ (forall l, In l lq <-> ext M (w ++ [l]) = true) /\ Forall2 QE (map (fun l => w ++ [l]) lq) qs.
Proof.
  intros [Q1 Q2] Hw. set (it1 := LI (map (glue w) (tails w)) (Z.of_nat (length w))).
  assert (B : li_begin it = Some it1 /\ exists b, li_has_null it = Some b /\ (b = true <-> In w K)).
  { unfold li_begin, li_has_null. rewrite Q1. replace (Z.to_nat (Z.of_nat (length w) - 1 + 1)) with (length w) by lia. destruct w as [|x w'] eqn:Ew.
    - change (Z.of_nat (length []) - 1 =? -1) with true. cbn match. split.
      + f_equal. unfold it1. cbn [length]. f_equal. destruct Q2 as [-> | ->]; [|easy]. destruct (tails []) as [|e L]; [easy|]. cbn [map]. easy.
      + exists false. split; [easy|]. split; [easy|]. intros I. apply Ks_byte in I. easy.
    - rewrite <- Ew in *. assert (Lw : (0 < length w)%nat) by (rewrite Ew; cbn; lia). destruct (Z.eqb_spec (Z.of_nat (length w) - 1) (-1)); [lia|].
      destruct Q2 as (w0 & c & rest & E & R & F). assert (L0 : (length w = S (length w0))%nat) by (rewrite E, app_length; cbn; lia).
      replace (Z.to_nat (Z.of_nat (length w) - 1)) with (length w0) by lia.
      destruct Hw as [Hw|Hw]; [congruence|]. apply ext_some in Hw. destruct (tails w) as [|e L] eqn:ET; [easy|].
      assert (Nx : li_next it = Some (map (glue w0) rest)).
      { unfold li_next. rewrite Q1, R. replace (Z.to_nat (Z.of_nat (length w) - 1)) with (length w0) by lia.
        assert (D : li_drop (length w0) (own w ++ map (glue w) (e :: L) ++ map (glue w0) rest) = own w ++ map (glue w) (e :: L) ++ map (glue w0) rest).
        { unfold own. destruct (in_dec _ _ _); cbn [app map li_drop]; [|rewrite len_glue].
          - destruct (Nat.leb_spec (length w) (length w0)); [lia|easy].
          - destruct (Nat.leb_spec (length w + S (length (snd e))) (length w0)); [lia|easy]. }
        rewrite D. rewrite E. assert (G : forall r, li_skip c (length w0) (own (w0 ++ [c]) ++ map (glue (w0 ++ [c])) (e :: L) ++ map (glue w0) rest) = r ->
          match own (w0 ++ [c]) ++ map (glue (w0 ++ [c])) (e :: L) ++ map (glue w0) rest with [] => None | s :: _ => do ch <- nth_error s (length w0); li_skip ch (length w0) (own (w0 ++ [c]) ++ map (glue (w0 ++ [c])) (e :: L) ++ map (glue w0) rest) end = r).
        { intros r Er. remember (own (w0 ++ [c]) ++ map (glue (w0 ++ [c])) (e :: L) ++ map (glue w0) rest) as R0 eqn:ER. destruct R0 as [|s R0]; [unfold own in ER; now destruct (in_dec _ _ _)|].
          assert (Es : nth_error s (length w0) = Some c).
          { unfold own in ER. destruct (in_dec _ _ _); cbn [app map] in ER; injection ER as -> _; [|unfold glue; rewrite <- app_assoc]; rewrite nth_error_app2, Nat.sub_diag by lia; easy. }
          now rewrite Es. }
        rewrite (G _ (skip_group w0 c rest (e :: L) F)). remember (own (w0 ++ [c]) ++ map (glue (w0 ++ [c])) (e :: L) ++ map (glue w0) rest) as R0 eqn:ER. destruct R0; [unfold own in ER; now destruct (in_dec _ _ _)|easy]. }
      rewrite Nx, R. split.
      + assert (I1 : match own w ++ map (glue w) (e :: L) ++ map (glue w0) rest with [] => [] | s :: r => if (length w =? length s)%nat then r else own w ++ map (glue w) (e :: L) ++ map (glue w0) rest end = map (glue w) (e :: L) ++ map (glue w0) rest).
        { unfold own. destruct (in_dec _ _ _); cbn [app map]; [now rewrite Nat.eqb_refl|]. rewrite len_glue. destruct (Nat.eqb_spec (length w) (length w + S (length (snd e)))); [lia|easy]. }
        rewrite I1, app_length. destruct (Nat.eqb_spec (length (map (glue w) (e :: L)) + length (map (glue w0) rest)) (length (map (glue w0) rest))) as [X|_]; [cbn in X; lia|].
        rewrite Nat.add_sub, firstn_app, Nat.sub_diag, firstn_all. cbn [firstn]. rewrite app_nil_r. unfold it1. rewrite <- Ew, ET. do 2 f_equal. lia.
      + rewrite <- L0. unfold own. destruct (in_dec _ _ _) as [I|I]; cbn [app map].
        * exists true. rewrite Nat.eqb_refl. easy.
        * rewrite len_glue. exists false. split; [|easy]. f_equal. destruct (Nat.eqb_spec (length w) (length w + S (length (snd e)))); [lia|easy]. }
  destruct B as [B (b & Eb & Hb)]. unfold ci_children. rewrite B, Eb.
  destruct (ci_loop_ok w (length (li_range it1)) (tails w)) as (ls & lq & qs & E & A1 & A2 & A3 & A4 & A5); [unfold it1; cbn; now rewrite map_length|apply tails_sorted|].
  unfold it1 at 2. rewrite E.
  assert (Hbyte : forall l, (exists t, In (l, t) (tails w)) -> byte l).
  { intros l [t I]. apply in_tails, Ks_byte in I as [_ I]. apply Forall_app in I as [_ I]. now inversion I. }
  exists (if b then ls ++ [null_value] else ls), lq, qs. split; [now destruct b|]. split; [|split; [|split; [|split]]].
  - destruct b; [|easy]. apply sorted_app; [easy|repeat constructor|]. intros x y X [<-|[]]. apply A2, Hbyte in X. unfold byte, null_value in *. lia.
  - intros l. assert (X : In l ls <-> pre M (w ++ [l]) = true) by (rewrite A2, pre_tails; easy). assert (Y : In l ls -> l <> 256) by (intros I; apply A2, Hbyte in I; unfold byte in I; lia).
    assert (Z' : In l (if b then ls ++ [null_value] else ls) <-> In l ls \/ (b = true /\ l = 256)).
    { destruct b; [rewrite in_app_iff; cbn [In]; unfold null_value|]; intuition. }
    rewrite Z', Hb, X. split; [intros [P|P]; [left; split; [apply Y, X, P|easy]|right; easy]|intros [P|P]; [left|right]; easy].
  - clear -A3. induction A3 as [|x l S IH F]; constructor; auto. intros I. rewrite Forall_forall in F. apply F in I. lia.
  - intros l. now rewrite A4, ext_tails.
  - clear -A5 Ks_sorted. induction A5 as [|l q lq qs Q A IH]; [constructor|]. cbn [map]. constructor; [|easy]. destruct Q as (Q1 & rest & Q2 & Q3). split; [rewrite app_length; cbn; lia|].
    destruct (w ++ [l]) eqn:E; [now destruct w|]. rewrite <- E. exists w, l, rest. split; [easy|]. split; [|easy]. now rewrite Q2, group_eq, <- app_assoc.
Qed.

(** ** The loop *)
Lemma nodup_app {A} (l1 l2 : list A) : NoDup l1 -> NoDup l2 -> (forall a, In a l1 -> ~ In a l2) -> NoDup (l1 ++ l2).
Proof.
  induction 1 as [|x l N H IH]; intros H2 F; [easy|]. cbn. constructor.
  - rewrite in_app_iff. intros [I|I]; [easy|]. apply (F x); [now left|easy].
  - apply IH; [easy|]. intros a I. apply F. now right.
Qed.
Notation inw := (in_dec (list_eq_dec Z.eq_dec)).
Record Bulk (h : heap) (fl : list Z) (D W : list (list Z)) (queue : list list_iter) : Prop := {
  bk_hi : HI h fl;
  bk_size : Bs h 0 = 0;
  bk_root : obs h [] = Some (if inw [] D then 1 else 0);
  bk_node : forall u c, c <> 256 -> obs h (u ++ [c]) =
    if inw u D then if pre M (u ++ [c]) then Some (if inw (u ++ [c]) D then 1 else 0) else None else None;
  bk_term : forall u, obs h (u ++ [256]) = if inw u D then if inw u K then Some 0 else None else None;
  bk_queue : Forall2 QE W queue;
  bk_nodup : NoDup (D ++ W);
  bk_ext : forall u, In u (D ++ W) -> ext M u = true;
  bk_par : forall u c, In (u ++ [c]) (D ++ W) -> In u D;
  bk_pend : forall u, ext M u = true -> (u = [] \/ exists v c, u = v ++ [c] /\ In v D) -> In u (D ++ W)
}.

(** proper prefixes of the keys *)
Definition inner : list (list Z) := flat_map (fun k => map (fun n => firstn n k) (seq 0 (length k))) K.
Lemma inner_len : length inner = length (concat K).
Proof. unfold inner. clear. induction K as [|k l IH]; [easy|]. cbn [flat_map concat]. rewrite !app_length, map_length, seq_length, IH. easy. Qed.
Lemma inner_in u : ext M u = true -> In u inner.
Proof.
  rewrite ext_iff. intros (k & v & I & P & N). apply in_kmap in I as [I _]. apply in_flat_map. exists k. split; [easy|]. apply prefix_iff in P as [t ->].
  apply in_map_iff. exists (length u). split; [rewrite firstn_app, firstn_all, Nat.sub_diag; cbn; apply app_nil_r|]. apply in_seq. rewrite app_length. destruct t; [exfalso; apply N; apply app_nil_r|]. cbn. lia.
Qed.

Lemma QE_string w it : QE w it -> ext M w = true -> li_string it = Some w.
Proof.
  intros [Q1 Q2] X. apply ext_some in X. unfold li_string. rewrite Q1. replace (Z.to_nat (Z.of_nat (length w) - 1 + 1)) with (length w) by lia. destruct (tails w) as [|e L] eqn:ET; [easy|]. destruct w as [|x w'].
  - destruct Q2 as [-> | ->]; [rewrite ET|]; easy.
  - destruct Q2 as (w0 & c & rest & E & R & F). rewrite R. unfold own. destruct (inw (x :: w') K) as [I|I]; cbn [app map]; f_equal; [apply firstn_all|].
    unfold glue. rewrite firstn_app, firstn_all, Nat.sub_diag. apply app_nil_r.
Qed.
Lemma ext_byte u : ext M u = true -> Forall byte u.
Proof. rewrite ext_iff. intros (k & v & I & P & N). apply in_kmap in I as [I _]. apply Ks_byte in I as [_ I]. apply prefix_iff in P as [t ->]. now apply Forall_app in I. Qed.
Lemma in_snoc_nil {A} (u : list A) c : u ++ [c] <> []. Proof. now destruct u. Qed.

Lemma bulk_ok : forall fuel h fl D W queue, Bulk h fl D W queue -> (length D + fuel = S (length inner))%nat ->
  exists h' fl' D', (do st <- ci_assign queue; bulk_loop fuel h st) = Some h' /\ Bulk h' fl' D' [] [].
Proof.
  induction fuel as [|f IH]; intros h fl D W queue B Hf.
  - exfalso. assert (N : NoDup D) by (pose proof (bk_nodup _ _ _ _ _ B) as N; now apply nodup_app_inv in N).
    assert (incl D inner) by (intros u U; apply inner_in, (bk_ext _ _ _ _ _ B), in_or_app; now left). apply (NoDup_incl_length N) in H. lia.
  - pose proof (bk_queue _ _ _ _ _ B) as Q. destruct Q as [|w it W queue Qw Q].
    + cbn. exists h, fl, D. split; [easy|exact B].
    + assert (Xw : ext M w = true) by (apply (bk_ext _ _ _ _ _ B), in_or_app; right; now left).
      assert (Nw : ~ In w D /\ ~ In w W).
      { pose proof (bk_nodup _ _ _ _ _ B) as N. apply NoDup_remove in N as [_ N]. rewrite in_app_iff in N. tauto. }
      destruct Nw as [NwD NwW].
      destruct (ci_children_ok w it Qw (or_intror Xw)) as (ls & lq & qs & Ec & Ls & Li & Lqn & Lqi & Lq). cbn [ci_assign]. rewrite Ec. cbn [app bulk_loop].
      assert (Nls : ls <> []). { intros ->. apply ext_pre in Xw as [c P]. assert (c <> 256) by (intros ->; rewrite (no_null_prefix M w kmap_wf) in P; easy). apply (Li c). left. easy. }
      destruct ls as [|l0 ls'] eqn:Els; [easy|]. rewrite <- Els in *. rewrite (QE_string w it Qw Xw).
      pose proof (bk_hi _ _ _ _ _ B) as H. pose proof (ext_byte w Xw) as Fw.
      assert (Ow : obs h w = Some 0).
      { destruct w as [|c u _] using rev_ind; [rewrite (bk_root _ _ _ _ _ B); now destruct (inw [] D)|]. assert (c <> 256) by (apply Forall_app in Fw as [_ Fc]; inversion Fc; unfold byte in *; lia).
        rewrite (bk_node _ _ _ _ _ B) by easy. assert (In u D) by (apply (bk_par _ _ _ _ _ B u c), in_or_app; right; now left). destruct (inw u D); [|easy]. destruct (inw (u ++ [c]) D); [easy|]. rewrite (pre_ext _ _ kmap_wf), Xw. easy. }
      destruct (walk h w) as [p|] eqn:Wp; [|unfold obs in Ow; now rewrite Wp in Ow]. assert (Bp : Bs h p <= 0) by (rewrite (obs_bs _ _ _ Wp) in Ow; injection Ow as Ow; lia).
      destruct (lookup_walk h fl w H (byte_label _ Fw)) as (q & rest & El & R1 & R2). assert (rest = []) by (apply R1; congruence). subst rest. assert (q = p) by (specialize (R2 eq_refl); congruence). subst q. rewrite El.
      pose proof (walk_alloc _ _ H _ _ Wp) as Ap. pose proof (alloc_ge _ _ _ Ap). destruct (Z.eqb_spec p 0); [lia|].
      assert (Hno : forall l, In l ls -> step h p l = None).
      { intros l I. apply (obs_step h w p l Wp). apply Li in I as [[I _]|[-> _]]; [rewrite (bk_node _ _ _ _ _ B) by easy|rewrite (bk_term _ _ _ _ _ B)]; now destruct (inw w D). }
      assert (Hls : forall l, In l ls -> 0 <= l <= 256).
      { intros l I. apply Li in I as [[_ P]|[-> _]]; [|lia]. apply pre_iff in P as (k & v & I & P). apply in_kmap in I as [I _]. apply Ks_byte in I as [_ I]. rewrite Forall_forall in I.
        assert (byte l) by (apply I; eapply prefix_in; [exact P|apply in_or_app; right; now left]). unfold byte in *. lia. }
      destruct (add_ok h fl p ls H Ap) as (h1 & fl1 & b & Ea & Ad); auto; [intros X; lia|]. rewrite Ea.
      pose proof (add_HI H Ap Hls Hno Ad Wp) as H1. pose proof (add_obs H Ap Hls Hno Ad Wp) as O1.
      assert (I1 : forall l, In (w ++ [l]) (map (fun l => w ++ [l]) ls) <-> In l ls).
      { intros l. rewrite in_map_iff. split; [intros (l' & E & I); apply app_inj_tail in E as [_ E]; now subst|intros I; now exists l]. }
      assert (I2 : forall u l, u <> w -> ~ In (u ++ [l]) (map (fun l => w ++ [l]) ls)).
      { intros u l N I. apply in_map_iff in I as (l' & E & _). apply app_inj_tail in E as [E _]. now subst. }
      apply (IH h1 fl1 (w :: D) (W ++ map (fun l => w ++ [l]) lq) (queue ++ qs)); [|cbn; lia]. constructor.
      * exact H1.
      * rewrite (ad_zero _ _ _ _ _ _ _ Ad). apply (bk_size _ _ _ _ _ B).
      * rewrite O1. destruct (list_eq_dec Z.eq_dec [] w) as [<-|N].
        -- destruct (inw [] ([] :: D)) as [|X]; [easy|]. exfalso. apply X. now left.
        -- destruct (inw [] (map (fun l => w ++ [l]) ls)) as [X|_]; [apply in_map_iff in X as (l & X & _); now apply in_snoc_nil in X|]. rewrite (bk_root _ _ _ _ _ B).
           destruct (inw [] (w :: D)) as [X|X], (inw [] D) as [Y|Y]; try easy; exfalso; [destruct X; [congruence|easy]|apply X; now right].
      * intros u c Hc. rewrite O1. destruct (list_eq_dec Z.eq_dec (u ++ [c]) w) as [E|N].
        -- assert (Du : In u D) by (apply (bk_par _ _ _ _ _ B u c); rewrite E; apply in_or_app; right; now left). destruct (inw u (w :: D)) as [_|X]; [|exfalso; apply X; now right].
           rewrite E. rewrite (pre_ext _ _ kmap_wf), Xw. cbn [orb]. destruct (inw w (w :: D)) as [|X]; [easy|exfalso; apply X; now left].
        -- assert (Dc : (if inw (u ++ [c]) (w :: D) then 1 else 0) = (if inw (u ++ [c]) D then 1 else 0)).
           { destruct (inw (u ++ [c]) (w :: D)) as [X|X], (inw (u ++ [c]) D) as [Y|Y]; try easy; exfalso; [destruct X; [congruence|easy]|apply X; now right]. }
           rewrite Dc. destruct (list_eq_dec Z.eq_dec u w) as [-> |Nu].
           ++ destruct (inw w (w :: D)) as [_|X]; [|exfalso; apply X; now left]. destruct (inw (w ++ [c]) (map (fun l => w ++ [l]) ls)) as [X|X].
              ** apply I1, Li in X as [[_ P]|[P _]]; [|easy]. rewrite P. destruct (inw (w ++ [c]) D) as [Y|_]; [|easy]. exfalso.
                 apply NwD, (bk_par _ _ _ _ _ B w c), in_or_app. now left.
              ** destruct (pre M (w ++ [c])) eqn:P; [exfalso; apply X, I1, Li; now left|]. rewrite (bk_node _ _ _ _ _ B) by easy. now destruct (inw w D).
           ++ destruct (inw (u ++ [c]) (map (fun l => w ++ [l]) ls)) as [X|_]; [now apply I2 in X|]. rewrite (bk_node _ _ _ _ _ B) by easy.
              destruct (inw u (w :: D)) as [X|X], (inw u D) as [Y|Y]; try easy; exfalso; [destruct X; [congruence|easy]|apply X; now right].
      * intros u. rewrite O1. assert (Xt : forall v, ext M (v ++ [256]) = false) by (intros v; apply ext_null, kmap_wf).
        destruct (list_eq_dec Z.eq_dec (u ++ [256]) w) as [E|N]; [exfalso; rewrite <- E, Xt in Xw; easy|].
        destruct (list_eq_dec Z.eq_dec u w) as [-> |Nu].
        -- destruct (inw w (w :: D)) as [_|X]; [|exfalso; apply X; now left]. destruct (inw (w ++ [256]) (map (fun l => w ++ [l]) ls)) as [X|X].
           ++ apply I1, Li in X as [[X _]|[_ X]]; [easy|]. now destruct (inw w K).
           ++ destruct (inw w K) as [P|P]; [exfalso; apply X, I1, Li; now right|]. rewrite (bk_term _ _ _ _ _ B). now destruct (inw w D).
        -- destruct (inw (u ++ [256]) (map (fun l => w ++ [l]) ls)) as [X|_]; [now apply I2 in X|]. rewrite (bk_term _ _ _ _ _ B).
           destruct (inw u (w :: D)) as [X|X], (inw u D) as [Y|Y]; try easy; exfalso; [destruct X; [congruence|easy]|apply X; now right].
      * apply Forall2_app; easy.
      * pose proof (bk_nodup _ _ _ _ _ B) as N. change (NoDup (w :: (D ++ (W ++ map (fun l => w ++ [l]) lq)))). rewrite app_assoc. apply (NoDup_Add (Add_app w (D ++ []) _)) in N || idtac.
        assert (N' : NoDup (D ++ W) /\ ~ In w (D ++ W)) by now apply NoDup_remove. destruct N' as [N1 N2].
        assert (F : forall u, In u (D ++ W) -> forall l, u = w ++ [l] -> False).
        { intros u I l ->. apply (NwD), (bk_par _ _ _ _ _ B w l). apply in_app_or in I as [I|I]; apply in_or_app; [now left|right; now right]. }
        constructor.
        -- rewrite in_app_iff. intros [I|I]; [easy|]. apply in_map_iff in I as (l & I & _). apply (f_equal (@length Z)) in I. rewrite app_length in I. cbn in I. lia.
        -- apply nodup_app; [easy| |].
           ++ clear -Lqn. induction Lqn as [|x l N _ IH]; cbn; constructor; auto. intros I. apply in_map_iff in I as (y & E & I). apply app_inj_tail in E as [_ ->]. easy.
           ++ intros u U V. apply in_map_iff in V as (l & <- & _). now apply (F _ U l).
      * intros u I. apply in_app_or in I as [[<-|I]|I]; [easy| |apply in_app_or in I as [I|I]].
        -- apply (bk_ext _ _ _ _ _ B), in_or_app. now left.
        -- apply (bk_ext _ _ _ _ _ B), in_or_app. right. now right.
        -- apply in_map_iff in I as (l & <- & I). now apply Lqi.
      * intros u c I. apply in_app_or in I as [[I|I]|I]; [| |apply in_app_or in I as [I|I]].
        -- right. apply (bk_par _ _ _ _ _ B u c), in_or_app. right. now left.
        -- right. apply (bk_par _ _ _ _ _ B u c), in_or_app. now left.
        -- right. apply (bk_par _ _ _ _ _ B u c), in_or_app. right. now right.
        -- apply in_map_iff in I as (l & I & _). apply app_inj_tail in I as [<- _]. now left.
      * intros u X [-> |(v & c & -> & I)].
        -- destruct (in_app_or _ _ _ (bk_pend _ _ _ _ _ B [] X (or_introl eq_refl))) as [I|[I|I]]; [apply in_or_app; left; now right|apply in_or_app; left; now left|].
           apply in_or_app. right. apply in_or_app. now left.
        -- destruct I as [<-|I].
           ++ apply in_or_app. right. apply in_or_app. right. apply in_map_iff. exists c. split; [easy|]. now apply Lqi.
           ++ destruct (in_app_or _ _ _ (bk_pend _ _ _ _ _ B (v ++ [c]) X (or_intror (ex_intro _ v (ex_intro _ c (conj eq_refl I)))))) as [J|[J|J]]; [apply in_or_app; left; now right|apply in_or_app; left; now left|].
              apply in_or_app. right. apply in_or_app. now left.
Qed.

Lemma bulk_done h fl D : Bulk h fl D [] [] -> forall u, ext M u = true <-> In u D.
Proof.
  intros B u. split; [|intros I; apply (bk_ext _ _ _ _ _ B), in_or_app; now left]. induction u as [|c u IH] using rev_ind; intros X.
  - pose proof (bk_pend _ _ _ _ _ B [] X (or_introl eq_refl)) as I. now rewrite app_nil_r in I.
  - assert (I : In u D) by (apply IH; revert X; apply ext_mono, prefix_app). pose proof (bk_pend _ _ _ _ _ B (u ++ [c]) X (or_intror (ex_intro _ u (ex_intro _ c (conj eq_refl I))))) as J. now rewrite app_nil_r in J.
Qed.

Lemma bulk_obs h fl D : Bulk h fl D [] [] ->
  obs h [] = Some (if pre M [] then 1 else 0) /\
  (forall w, obs h (w ++ [256]) = if ext M w then option_map Z.opp (get M w) else None) /\
  (forall u c, c <> 256 -> obs h (u ++ [c]) = if ext M (u ++ [c]) then Some 1 else option_map Z.opp (get M (u ++ [c]))).
Proof.
  intros B. pose proof (bulk_done _ _ _ B) as Dn. assert (Db : forall u, (if inw u D then true else false) = ext M u).
  { intros u. destruct (inw u D) as [I|I]; [symmetry; now apply Dn|]. destruct (ext M u) eqn:X; [|easy]. apply Dn in X. easy. }
  assert (Gt : forall u, get M u = if inw u K then Some 0 else None) by (intros u; destruct (inw u K); [now apply get_kmap_in|now apply get_kmap_out]).
  split; [|split].
  - rewrite (bk_root _ _ _ _ _ B). rewrite (pre_ext _ _ kmap_wf), <- Db. unfold has. rewrite (get_nil _ kmap_wf). now destruct (inw [] D).
  - intros w. rewrite (bk_term _ _ _ _ _ B), <- Db, Gt. destruct (inw w D), (inw w K); easy.
  - intros u c Hc. rewrite (bk_node _ _ _ _ _ B) by easy. rewrite <- Db, Gt. destruct (inw (u ++ [c]) D) as [I|I].
    + assert (J : In u D) by (apply (bk_par _ _ _ _ _ B u c), in_or_app; now left). destruct (inw u D); [|easy]. rewrite (pre_ext _ _ kmap_wf), <- Db. now destruct (inw (u ++ [c]) D).
    + rewrite (pre_ext _ _ kmap_wf), <- Db. destruct (inw (u ++ [c]) D); [easy|]. cbn [orb]. unfold has. rewrite Gt. destruct (inw (u ++ [c]) K) as [J|J]; [|now destruct (inw u D)].
      destruct (inw u D) as [|N]; [easy|]. exfalso. apply N, Dn. apply ext_iff. exists (u ++ [c]), 0. split; [now apply in_kmap|]. split; [apply prefix_app|]. intros E. apply (f_equal (@length Z)) in E. rewrite app_length in E. cbn in E. lia.
Qed.

(** the whole of the sorted branch; [keys] is K, with or without the empty string in front *)
Lemma bulk_all keys : keys = K \/ keys = [] :: K ->
  exists h fl, (do st <- ci_assign [LI keys (-1)]; bulk_loop (S (length (concat keys))) th_clear st) = Some h /\
    HI h fl /\ Bs h 0 = 0 /\
    obs h [] = Some (if pre M [] then 1 else 0) /\
    (forall w, obs h (w ++ [256]) = if ext M w then option_map Z.opp (get M w) else None) /\
    (forall u c, c <> 256 -> obs h (u ++ [c]) = if ext M (u ++ [c]) then Some 1 else option_map Z.opp (get M (u ++ [c]))).
Proof.
  intros HK. assert (Ek : map (glue []) (tails []) = K).
  { apply lex_sorted_unique; [apply glue_sorted, tails_sorted|easy|]. intros k. rewrite in_map_iff. split.
    - intros ([c t] & <- & I). now apply in_tails in I.
    - intros I. destruct k as [|c t]; [now apply Ks_byte in I|]. exists (c, t). split; [easy|]. now apply in_tails. }
  assert (Q : QE [] (LI keys (-1))) by (split; [easy|]; cbn [li_range]; rewrite Ek; easy).
  assert (Ec : concat keys = concat K) by (destruct HK as [-> | ->]; easy). rewrite Ec, <- inner_len.
  destruct (ext M []) eqn:X.
  - destruct (bulk_ok (S (length inner)) th_clear [] [] [[]] [LI keys (-1)]) as (h & fl & D & E & B); [|easy|].
    + constructor; try easy.
      * apply clear_HI.
      * intros u c _. rewrite clear_obs. now destruct (u ++ [c]) eqn:E; [destruct u|].
      * intros u. rewrite clear_obs. now destruct (u ++ [256]) eqn:E; [destruct u|].
      * constructor; [exact Q|constructor].
      * repeat constructor; easy.
      * intros u [<-|[]]; easy.
      * intros u c [I|[]]. now destruct u.
      * intros u _ [-> |(v & c & _ & [])]. now left.
    + exists h, fl. split; [exact E|]. split; [apply (bk_hi _ _ _ _ _ B)|]. split; [apply (bk_size _ _ _ _ _ B)|]. now apply (bulk_obs h fl D).
  - assert (EK : K = []).
    { assert (NK : forall k, ~ In k K); [|destruct K as [|k r]; [easy|exfalso; apply (NK k); now left]]. intros k I. assert (Y : ext M [] = true); [|congruence]. apply ext_iff. exists k, 0. split; [now apply in_kmap|]. split; [easy|]. now apply Ks_byte. }
    destruct (ci_children_ok [] _ Q (or_introl eq_refl)) as (ls & lq & qs & Ech & _ & Li & _ & Lqi & Lq).
    assert (ls = []). { destruct ls as [|l ls]; [easy|]. exfalso. destruct (proj1 (Li l) (or_introl eq_refl)) as [[_ P]|[_ P]]; [|now rewrite EK in P]. unfold kmap in P. now rewrite EK in P. }
    subst ls. exists th_clear, []. cbn [ci_assign]. rewrite Ech. split; [cbn; now destruct qs|]. split; [apply clear_HI|]. split; [easy|].
    assert (EM : M = []) by (unfold kmap; now rewrite EK). rewrite EM. split; [easy|]. split; intros; rewrite clear_obs; now destruct w || destruct u.
Qed.
End Bulk.

(** ** tb_assign *)
Lemma lexltb_iff a : forall b, lexltb a b = true <-> lexlt a b.
Proof.
  induction a as [|x a IH]; intros [|y b]; cbn; try easy. rewrite orb_true_iff, andb_true_iff, Z.ltb_lt, Z.eqb_eq, IH. easy.
Qed.
Lemma sorted_unique_iff ks : sorted_unique ks = true <-> StronglySorted lexlt ks.
Proof.
  induction ks as [|a [|b r] IH].
  - split; [constructor|easy].
  - split; [repeat constructor|easy].
  - change (sorted_unique (a :: b :: r)) with (lexltb a b && sorted_unique (b :: r)). rewrite andb_true_iff, lexltb_iff, IH. split.
    + intros [L S]. constructor; [easy|]. inversion S as [|? ? S' F]; subst. constructor; [easy|]. rewrite Forall_forall in *. intros x X. apply lex_trans with b; auto.
    + intros S. inversion S as [|? ? S' F]; subst. inversion F; subst. easy.
Qed.

(** what inserting the strings one by one gives *)
Definition ins_all (keys : list (list Z)) (M : fmap) : fmap := fold_left (fun M k => ins k 0 M) keys M.
Lemma tb_insert_all_ok keys : forall h fl M, PRep h fl M -> Forall (Forall byte) keys ->
  exists h' fl', tb_insert_all h keys = Some h' /\ PRep h' fl' (ins_all keys M).
Proof.
  induction keys as [|k r IH]; intros h fl M R F; [exists h, fl; easy|]. inversion F as [|? ? Fk Fr]; subst. cbn [tb_insert_all].
  destruct (tb_insert_ok h fl M k 0 R Fk) as (h1 & fl1 & i1 & E & R1 & _); [lia|]. rewrite E. apply (IH h1 fl1); easy.
Qed.
Lemma ins_all_wf keys : forall M, Wf M -> Forall (Forall byte) keys -> Wf (ins_all keys M).
Proof.
  induction keys as [|k r IH]; intros M W F; [easy|]. inversion F as [|? ? Fk Fr]; subst. cbn. apply IH; [|easy]. unfold ins. destruct k as [|c k]; [easy|]. destruct (get M (c :: k)) eqn:G; [easy|]. now apply wf_cons.
Qed.
Lemma get_ins_all keys : forall M k, get (ins_all keys M) k = match get M k with Some v => Some v | None => if in_dec (list_eq_dec Z.eq_dec) k keys then match k with [] => None | _ => Some 0 end else None end.
Proof.
  induction keys as [|x r IH]; intros M k; [cbn; now destruct (get M k)|]. cbn [ins_all fold_left]. fold (ins_all r (ins x 0 M)). rewrite IH.
  assert (G : get (ins x 0 M) k = match get M k with Some v => Some v | None => if eqw x k then match k with [] => None | _ => Some 0 end else None end).
  { unfold ins. destruct x as [|c x]; [destruct (get M k), k; easy|]. destruct (get M (c :: x)) eqn:G.
    - destruct (eqw_spec (c :: x) k) as [e|e]; [subst k; now rewrite G|now destruct (get M k)].
    - cbn [get]. destruct (eqw_spec (c :: x) k) as [e|e]; [subst k; now rewrite G|now destruct (get M k)]. }
  rewrite G. destruct (get M k); [easy|]. destruct (eqw_spec x k) as [e|N]; [subst x; rename k into x|].
  - destruct (in_dec _ x (x :: r)) as [_|X]; [|exfalso; apply X; now left]. destruct x; [destruct (in_dec _ _ _); easy|easy].
  - destruct (in_dec _ k r) as [I|I], (in_dec _ k (x :: r)) as [J|J]; try easy; exfalso; [apply J; now right|destruct J; easy].
Qed.

(** The sorted branch stores exactly the given strings with value 0, but counts the empty string in size() *)
Lemma tb_assign_bulk K keys : StronglySorted lexlt K -> Forall (Forall byte) K -> ~ In [] K -> keys = K \/ keys = [] :: K ->
  exists h0 fl h1, PRep h0 fl (kmap K) /\ tb_assign keys = Some h1 /\ Bs h1 0 = Z.of_nat (length keys) /\ HI h1 fl /\ (forall v, obs h1 v = obs h0 v) /\ (keys = K -> h1 = h0).
Proof.
  intros S F N HK. assert (Kb : forall k, In k K -> k <> [] /\ Forall byte k) by (intros k I; split; [congruence|rewrite Forall_forall in F; auto]).
  destruct (bulk_all K S Kb keys HK) as (h & fl & E & H & B0 & O1 & O2 & O3). unfold tb_assign.
  assert (S' : sorted_unique keys = true). { apply sorted_unique_iff. destruct HK as [-> | ->]; [easy|]. constructor; [easy|]. apply Forall_forall. intros k I. destruct k; [easy|exact Logic.I]. }
  rewrite S'. destruct (ci_assign [LI keys (-1)]) as [st|]; [|easy]. rewrite E.
  assert (A : forall n, s_base h 0 n = add_size h n). { intros n. unfold add_size. pose proof (fl_lim _ _ (hi_fl _ _ H)). rewrite g_base_ok by (unfold inb; lia). now rewrite B0. }
  destruct (size_obs h fl (Z.of_nat (length K)) H) as (h0 & E0 & H0 & _ & C0 & _ & _ & _ & _ & P0).
  destruct (size_obs h fl (Z.of_nat (length keys)) H) as (h1 & E1 & H1 & _ & C1 & _ & _ & _ & _ & P1).
  exists h0, fl, h1. rewrite A, E1. split; [|split; [easy|split; [lia|split; [easy|split]]]].
  - constructor; [easy|now apply kmap_wf|rewrite C0, B0; unfold kmap; now rewrite map_length|rewrite P0; apply O1|intros; rewrite P0; apply O2|intros; rewrite P0; now apply O3].
  - intros v. now rewrite P0, P1.
  - intros ->. congruence.
Qed.
