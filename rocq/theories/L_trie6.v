(** The plain trie (trie_base) against a finite map. *)
From Coq Require Import ZArith List Bool Lia Sorting.Sorted.
From Verif Require Import M_trie L_trie L_trie2 L_trie3 L_trie4 L_trie5.
Import ListNotations.
Open Scope Z_scope.
Local Arguments Z.opp : simpl never.
Local Arguments Z.add : simpl never.
Local Arguments Z.sub : simpl never.

(** Some key of M extends w properly *)
Definition ext (M : fmap) (w : list Z) : bool := existsb (fun e => is_prefix w (fst e) && negb (eqw (fst e) w)) M.
Definition has (M : fmap) (k : list Z) : bool := match get M k with Some _ => true | None => false end.

Lemma ext_iff M w : ext M w = true <-> exists k v, In (k, v) M /\ is_prefix w k = true /\ k <> w.
Proof.
  unfold ext. rewrite existsb_exists. split.
  - intros ([k v] & A & B). cbn in B. apply andb_true_iff in B as [B C]. exists k, v. split; [easy|]. split; [easy|]. destruct (eqw_spec k w); easy.
  - intros (k & v & A & B & C). exists (k, v). split; [easy|]. cbn. rewrite B. destruct (eqw_spec k w); easy.
Qed.
Lemma ext_pre M w : ext M w = true <-> exists c, pre M (w ++ [c]) = true.
Proof.
  rewrite ext_iff. split.
  - intros (k & v & A & B & C). destruct (prefix_next _ _ B) as [|[c P]]; [easy|]. exists c. apply pre_iff. eauto.
  - intros [c P]. apply pre_iff in P as (k & v & A & B). exists k, v. split; [easy|]. split; [eapply prefix_trans; [apply prefix_app|exact B]|].
    intros ->. apply prefix_len in B. rewrite app_length in B. cbn in B. lia.
Qed.
Lemma pre_ext M w : Wf M -> pre M w = ext M w || has M w.
Proof.
  intros Wm. apply eq_true_iff_eq. rewrite orb_true_iff, pre_iff, ext_iff. unfold has. split.
  - intros (k & v & A & B). destruct (eqw_spec k w) as [-> |N]; [right; now rewrite (in_get M w v (wf_nodup _ Wm) A)|left; eauto].
  - intros [(k & v & A & B & _)|G]; [eauto|]. destruct (get M w) as [v|] eqn:E; [|easy]. exists w, v. split; [now apply get_in|apply prefix_refl].
Qed.
Lemma ext_mono M u v : is_prefix u v = true -> ext M v = true -> ext M u = true.
Proof.
  rewrite !ext_iff. intros P (k & x & A & B & C). exists k, x. split; [easy|]. split; [eapply prefix_trans; eauto|]. intros ->.
  apply C. now apply prefix_anti.
Qed.
Lemma ext_proper M u v : is_prefix u v = true -> u <> v -> pre M v = true -> ext M u = true.
Proof.
  rewrite pre_iff, ext_iff. intros P N (k & x & A & B). exists k, x. split; [easy|]. split; [eapply prefix_trans; eauto|]. intros ->. apply N. now apply prefix_anti.
Qed.
Lemma ext_null M w : Wf M -> ext M (w ++ [256]) = false.
Proof. intros Wm. destruct (ext M (w ++ [256])) eqn:E; [|easy]. apply ext_pre in E as [c E]. assert (X := no_null_prefix M w Wm). rewrite (pre_mono M _ _ (prefix_app _ [c]) E) in X. easy. Qed.
Lemma get_null M w : Wf M -> get M (w ++ [256]) = None.
Proof. intros Wm. destruct (get M (w ++ [256])) eqn:G; [|easy]. apply pre_get in G. rewrite no_null_prefix in G; easy. Qed.
Lemma get_nil M : Wf M -> get M [] = None.
Proof. intros Wm. destruct (get M []) eqn:G; [|easy]. apply get_in, (wf_key _ Wm) in G. easy. Qed.
Lemma has_get M k : has M k = true <-> exists v, get M k = Some v.
Proof. unfold has. destruct (get M k); split; eauto; easy || (intros [? ?]; easy). Qed.

Record PRep (h : heap) (fl : list Z) (M : fmap) : Prop := {
  pt_hi : HI h fl;
  pt_wf : Wf M;
  pt_size : Bs h 0 = Z.of_nat (length M);
  pt_root : obs h [] = Some (if pre M [] then 1 else 0);
  pt_term : forall w, obs h (w ++ [256]) = if ext M w then option_map Z.opp (get M w) else None;
  pt_node : forall u c, c <> 256 -> obs h (u ++ [c]) = if ext M (u ++ [c]) then Some 1 else option_map Z.opp (get M (u ++ [c]))
}.

Lemma pt_none h fl M u c : PRep h fl M -> c <> 256 -> (obs h (u ++ [c]) = None <-> pre M (u ++ [c]) = false).
Proof.
  intros R N. rewrite (pt_node _ _ _ R) by easy. rewrite (pre_ext _ _ (pt_wf _ _ _ R)). unfold has. destruct (ext M (u ++ [c])); cbn [orb]; [easy|].
  destruct (get M (u ++ [c])); cbn; easy.
Qed.
Lemma pt_inner h fl M w p : PRep h fl M -> walk h w = Some p -> 1 <= Bs h p -> ext M w = true.
Proof.
  intros R W Hb. assert (O : obs h w = Some 1) by (rewrite (obs_bs _ _ _ W); f_equal; lia). pose proof (pt_wf _ _ _ R) as Wm.
  destruct w as [|c w _] using rev_ind.
  - rewrite (pt_root _ _ _ R) in O. destruct (pre M []) eqn:P; [|easy]. rewrite (pre_ext _ _ Wm) in P. unfold has in P. rewrite (get_nil _ Wm), orb_false_r in P. easy.
  - destruct (Z.eq_dec c 256) as [-> |N].
    + rewrite (pt_term _ _ _ R) in O. destruct (ext M w); [|easy]. destruct (get M w) as [v|] eqn:G; [|easy]. cbn in O. apply get_in, (wf_key _ Wm) in G. injection O as O. lia.
    + rewrite (pt_node _ _ _ R) in O by easy. destruct (ext M (w ++ [c])); [easy|]. destruct (get M (w ++ [c])) as [v|] eqn:G; [|easy]. cbn in O. apply get_in, (wf_key _ Wm) in G. injection O as O. lia.
Qed.
Lemma pt_child h fl M w p : PRep h fl M -> walk h w = Some p ->
  ((exists l q, 0 <= l <= 255 /\ step h p l = Some q) <-> ext M w = true).
Proof.
  intros R W. rewrite ext_pre. split.
  - intros (l & q & L & S). exists l. destruct (pre M (w ++ [l])) eqn:P; [easy|]. apply (pt_none h fl M w l R) in P; [|lia]. apply (obs_step _ _ _ _ W) in P. congruence.
  - intros [c P]. assert (Hc : 0 <= c <= 255).
    { apply pre_iff in P as (k & v & I & Q). apply (wf_key _ (pt_wf _ _ _ R)) in I as (_ & Fk & _). rewrite Forall_forall in Fk. apply Fk. eapply prefix_in; [exact Q|]. apply in_or_app. right. now left. }
    exists c. destruct (step h p c) as [q|] eqn:S; [eauto|]. exfalso. apply (obs_step _ _ _ _ W) in S. apply (pt_none h fl M w c R) in S; [congruence|lia].
Qed.
Lemma pt_live h fl M w p : PRep h fl M -> walk h w = Some p -> Live h p.
Proof. intros R W Hb. apply (pt_inner h fl M w p R W) in Hb. apply (pt_child h fl M w p R W) in Hb as (l & q & _ & S). eauto. Qed.
Lemma pt_null h fl M w p : PRep h fl M -> walk h w = Some p ->
  match step h p 256 with Some _ => true | None => false end = ext M w && has M w.
Proof.
  intros R W. assert (X := pt_term _ _ _ R w). unfold has. destruct (step h p 256) as [t|] eqn:S.
  - assert (obs h (w ++ [256]) <> None) by (rewrite (obs_step _ _ _ _ W); congruence). rewrite X in H. destruct (ext M w); [|easy]. destruct (get M w); easy.
  - apply (obs_step _ _ _ _ W) in S. rewrite X in S. destruct (ext M w); [|easy]. destruct (get M w); easy.
Qed.
Lemma byte_last k : Forall byte k -> k <> [] -> exists u c, k = u ++ [c] /\ c <> 256.
Proof.
  intros F N. destruct k as [|c k _] using rev_ind; [easy|]. exists k, c. split; [easy|]. apply Forall_app in F as [_ F]. inversion F. unfold byte in *. lia.
Qed.
Lemma pt_walk h fl M k : PRep h fl M -> Forall byte k -> k <> [] -> (walk h k = None <-> pre M k = false).
Proof. intros R Fk Nk. destruct (byte_last k Fk Nk) as (u & c & -> & Nc). rewrite <- obs_none. now apply (pt_none h fl). Qed.
Lemma pt_leaf h fl M k p : PRep h fl M -> Forall byte k -> k <> [] -> walk h k = Some p -> ext M k = false -> exists v, get M k = Some v /\ Bs h p = - v /\ 0 <= v <= 2147483647.
Proof.
  intros R Fk Nk W X. destruct (byte_last k Fk Nk) as (u & c & -> & Nc). assert (O := pt_node _ _ _ R u c Nc). rewrite X in O. rewrite (obs_bs _ _ _ W) in O.
  destruct (get M (u ++ [c])) as [v|] eqn:G; [|easy]. exists v. apply get_in, (wf_key _ (pt_wf _ _ _ R)) in G. cbn in O. injection O as O. split; [easy|]. lia.
Qed.

(** ** insert *)
Lemma ext_cons M k v w : ext ((k, v) :: M) w = ext M w || (is_prefix w k && negb (eqw k w)).
Proof. unfold ext. cbn [existsb fst]. apply orb_comm. Qed.

Lemma tb_insert_ok h fl M k value : PRep h fl M -> Forall byte k -> 0 <= value <= 2147483647 ->
  exists h' fl' idx, tb_insert h k value = Some (h', idx) /\ PRep h' fl' (ins k value M) /\
    limit h <= limit h' <= limit h + 257 * (Z.of_nat (length k) + 1) /\
    (k = [] -> idx = 0) /\ (k <> [] -> walk h' k = Some idx /\ 2 <= idx).
Proof.
  intros R Fk Hv. pose proof (pt_hi _ _ _ R) as H. pose proof (pt_wf _ _ _ R) as Wm. unfold tb_insert. rewrite (proj2 (Z.leb_le value 2147483647)) by lia.
  destruct k as [|k0 k1]; [exists h, fl, 0; repeat (split; [easy || lia|]); easy|]. remember (k0 :: k1) as k. assert (Nk : k <> []) by (now subst).
  assert (Ins : get M k = None -> ins k value M = (k, value) :: M) by (intros G; unfold ins; rewrite Heqk in *; now rewrite G).
  assert (Ins' : has M k = true -> ins k value M = M) by (intros G; unfold has in G; unfold ins; rewrite Heqk in *; now destruct (get M (k0 :: k1))).
  clear Heqk k0 k1. pose proof (byte_label _ Fk) as Lk.
  destruct (lookup_ok h fl k H Lk [] 1 eq_refl) as (q & u & rest & E & Ek & W & N). cbn [app] in W. rewrite E. cbn zeta.
  pose proof (walk_alloc _ _ H _ _ W) as Aq. destruct rest as [|c0 r0]; cbn [length Nat.eqb negb andb].
  - (* the node exists *)
    rewrite app_nil_r in Ek. subst u. assert (Hq : q <> 1). { intros ->. apply Nk. eapply walk_inj; [exact H|exact W|easy]. }
    assert (Q2 : 2 <= q) by (destruct Aq; [easy|lia]).
    destruct (has_child_ok h fl q H Aq) as (ch & Ec & Hc). rewrite Ec. rewrite (has_null_ok h fl) by easy. rewrite (pt_null h fl M k q R W).
    rewrite (pt_child h fl M k q R W) in Hc.
    assert (Old : has M k = true -> exists h' fl' idx, (do (h3, b, p) <- add_key h 0 q []; do h4 <- (if negb (b =? 0) then do b0 <- g_base h3 p; assert (b0 =? 0); s_base h3 p (- value) else Some h3); assert (negb (p =? 1)); Some (h4, p)) = Some (h', idx) /\ PRep h' fl' (ins k value M) /\
        limit h <= limit h' <= limit h + 257 * (Z.of_nat (length k) + 1) /\ (k = [] -> idx = 0) /\ (k <> [] -> walk h' k = Some idx /\ 2 <= idx)).
    { intros G. exists h, fl, q. cbn [add_key]. change (0 =? 0) with true. cbn [negb]. destruct (Z.eqb_spec q 1); [easy|]. cbn [negb]. rewrite (Ins' G). split; [easy|]. split; [easy|]. split; [lia|]. split; easy. }
    destruct ch.
    + assert (Xk : ext M k = true) by now apply Hc. rewrite Xk. cbn [andb]. destruct (has M k) eqn:G; cbn [negb].
      * now apply Old.
      * assert (Gn : get M k = None) by (unfold has in G; destruct (get M k); easy).
        assert (S256 : step h q 256 = None). { pose proof (pt_null h fl M k q R W) as X. rewrite G, andb_false_r in X. destruct (step h q 256); easy. }
        assert (Hls : forall l, In l [256] -> 0 <= l <= 256) by (intros l [<-|[]]; lia).
        assert (Hno : forall l, In l [256] -> step h q l = None) by (intros l [<-|[]]; easy).
        destruct (add_ok h fl q [256] H Aq (pt_live h fl M k q R W)) as (h2 & fl2 & b2 & E2 & Ad); auto; [repeat constructor|easy|]. unfold null_value. rewrite E2.
        pose proof (add_HI H Aq Hls Hno Ad W) as H2.
        assert (Wn : walk h2 (k ++ [256]) = Some (b2 + 256)) by (apply (add_walk_new H Aq Hls Hno Ad W); now left).
        destruct (ad_new _ _ _ _ _ _ _ Ad 256) as (An & _ & Bn & _); [now left|]. assert (Ib : inb h2 (b2 + 256)) by (eapply alloc_inb; [apply H2|easy]).
        rewrite g_base_ok by easy. rewrite Bn. change (0 =? 0) with true.
        assert (NS : forall l, step h2 (b2 + 256) l = None) by (intros l; destruct (step h2 (b2 + 256) l) eqn:S; [apply step_some in S; lia|easy]).
        destruct (setB_obs h2 fl2 _ _ (- value) H2 Wn NS) as (E3 & H3 & W3 & O3); [lia|]. rewrite E3. set (h3 := setB h2 (b2 + 256) (- value)) in *.
        destruct (size_obs h3 fl2 1 H3) as (h4 & E4 & H4 & L4 & B4 & _ & _ & _ & W4 & O4). rewrite E4. cbn [add_key]. change (0 =? 0) with true. cbn [negb].
        destruct (Z.eqb_spec q 1); [easy|]. cbn [negb]. pose proof (ad_lim _ _ _ _ _ _ _ Ad) as L2. destruct (ad_b _ _ _ _ _ _ _ Ad) as [Bb _].
        assert (O : forall v, obs h4 v = if eqw v (k ++ [256]) then Some (- value) else obs h v).
        { intros v. rewrite O4, O3. destruct (eqw_spec v (k ++ [256])) as [|Nv]; [easy|]. rewrite (add_obs H Aq Hls Hno Ad W).
          destruct (list_eq_dec Z.eq_dec v k) as [-> |Nv2].
          - destruct (byte_last k Fk Nk) as (u & c & Eu & Nc). rewrite Eu. rewrite (pt_node _ _ _ R) by easy. rewrite <- Eu, Xk. easy.
          - cbn [map]. destruct (in_dec _ v [k ++ [256]]) as [[I|[]]|_]; [congruence|easy]. }
        exists h4, fl2, q. split; [easy|]. rewrite (Ins Gn). split; [|split; [|split; [easy|]]].
        -- constructor.
           ++ easy.
           ++ now apply wf_cons.
           ++ rewrite B4. unfold h3. rewrite Bs_setB by easy. destruct (Z.eqb_spec 0 (b2 + 256)); [lia|]. rewrite (ad_zero _ _ _ _ _ _ _ Ad), (pt_size _ _ _ R). cbn [length]. lia.
           ++ rewrite O. destruct (eqw_spec [] (k ++ [256])) as [e|_]; [now destruct k|]. rewrite (pt_root _ _ _ R). cbn [pre existsb fst is_prefix orb].
              assert (X : pre M [] = true). { rewrite (pre_ext _ _ Wm). rewrite (ext_mono M [] k eq_refl Xk). easy. } now rewrite X.
           ++ intros w. rewrite O, ext_cons. cbn [get]. destruct (eqw_spec k w) as [<-|Nw].
              ** rewrite eqw_refl, Xk. easy.
              ** destruct (eqw_spec (w ++ [256]) (k ++ [256])) as [e|_]; [apply app_inj_tail in e as [e _]; congruence|]. cbn [negb]. rewrite andb_true_r.
                 destruct (is_prefix w k) eqn:P; [|rewrite orb_false_r; apply R]. rewrite (pt_term _ _ _ R), (ext_mono M w k P Xk). easy.
           ++ intros w c Nc. rewrite O, ext_cons. cbn [get]. destruct (eqw_spec (w ++ [c]) (k ++ [256])) as [e|_]; [apply app_inj_tail in e as [_ e]; easy|].
              rewrite (pt_node _ _ _ R) by easy. destruct (eqw_spec k (w ++ [c])) as [<-|Nw]; [now rewrite Xk|]. cbn [negb]. rewrite andb_true_r.
              destruct (is_prefix (w ++ [c]) k) eqn:P; [|now rewrite orb_false_r]. rewrite (ext_mono M _ k P Xk). easy.
        -- rewrite L4. unfold h3. rewrite limit_setB. lia.
        -- intros _. split; [|easy]. rewrite W4, W3. now apply (add_walk_parent H Aq Hno Ad W).
    + rewrite !andb_false_r. apply Old. assert (Xk : ext M k = false) by (destruct (ext M k); [assert (false = true) by now apply Hc|]; easy).
      destruct (pt_leaf h fl M k q R Fk Nk W Xk) as (v & G & _). apply has_get. eauto.
  - (* new transitions *)
    set (rest := c0 :: r0) in *. assert (Nr : rest <> []) by easy.
    assert (Wk : walk h k = None). { rewrite Ek. unfold walk in *. rewrite walk_from_app, W. cbn. now rewrite (N c0 r0). }
    assert (Pk : pre M k = false) by now apply (pt_walk h fl M k R Fk Nk).
    assert (Gn : get M k = None). { rewrite (pre_ext _ _ Wm) in Pk. apply orb_false_iff in Pk as [_ Pk]. unfold has in Pk. destruct (get M k); easy. }
    assert (Xk : ext M k = false). { rewrite (pre_ext _ _ Wm) in Pk. now apply orb_false_iff in Pk as [Pk _]. }
    assert (Fu : Forall byte u /\ Forall byte rest) by (rewrite Ek in Fk; now apply Forall_app in Fk). destruct Fu as [Fu Fr].
    destruct (size_obs h fl 1 H) as (h1 & E1 & H1 & L1 & B1 & B1' & K1 & S1 & W1 & O1). rewrite E1.
    assert (Al : forall j, alloc h1 fl j <-> alloc h fl j) by (intros; unfold alloc; now rewrite L1).
    assert (W1q : walk h1 u = Some q) by now rewrite W1. assert (Aq1 : alloc h1 fl q) by now apply Al. assert (Q1 : 1 <= q) by now apply alloc_ge in Aq.
    destruct (has_child_ok h1 fl q H1 Aq1) as (ch & Ec & Hc). rewrite Ec. rewrite (has_null_ok h1 fl) by easy. rewrite S1 by lia. rewrite (pt_null h fl M u q R W).
    assert (Hc' : ch = true <-> ext M u = true).
    { rewrite Hc. rewrite <- (pt_child h fl M u q R W). split; intros (l & x & A & B); exists l, x; (split; [easy|]); [rewrite S1 in B by lia|rewrite S1 by lia]; easy. }
    (* after making room at the branching node *)
    assert (G2 : exists h2 fl2, (if ch then Some h1
           else if negb (q =? 1) && negb (ext M u && has M u) && true then
             do v <- g_base h1 q; assert (v <=? 0); do (h2, b) <- add h1 q [null_value]; do b0 <- g_base h2 (b + null_value); assert (b0 =? 0); s_base h2 (b + null_value) v
           else Some h1) = Some h2 /\ HI h2 fl2 /\ walk h2 u = Some q /\ Live h2 q /\ Bs h2 0 = Bs h 0 + 1 /\ limit h <= limit h2 <= limit h + 257 /\
           (forall v, v <> u -> obs h2 v = if eqw v (u ++ [256]) then option_map Z.opp (get M u) else obs h v)).
    { destruct ch.
      - assert (Xu : ext M u = true) by now apply Hc'. exists h1, fl. split; [easy|]. split; [easy|]. split; [easy|]. split.
        { intros Hb. rewrite B1' in Hb by lia. destruct (pt_live h fl M u q R W Hb) as (l & x & S). exists l, x. rewrite S1; [easy|lia]. }
        split; [easy|]. split; [lia|]. intros v _. rewrite O1. destruct (eqw_spec v (u ++ [256])) as [-> |]; [|easy]. rewrite (pt_term _ _ _ R), Xu. easy.
      - assert (Xu : ext M u = false) by (destruct (ext M u); [assert (false = true) by now apply Hc'|]; easy). rewrite Xu. cbn [andb negb]. rewrite !andb_true_r.
        assert (Lv1 : Live h1 q).
        { intros Hb. rewrite B1' in Hb by lia. apply (pt_inner h fl M u q R W) in Hb. congruence. }
        destruct (Z.eqb_spec q 1) as [Hq|Hq]; cbn [negb].
        + exists h1, fl. split; [easy|]. split; [easy|]. split; [easy|]. split; [easy|]. split; [easy|]. split; [lia|].
          intros v _. rewrite O1. assert (u = []) by (eapply walk_inj; [exact H|exact W|now rewrite Hq]). subst u. destruct (eqw_spec v ([] ++ [256])) as [-> |]; [|easy].
          rewrite (pt_term _ _ _ R), Xu, (get_nil _ Wm). easy.
        + assert (Nu : u <> []) by (intros ->; cbn in W; congruence).
          destruct (pt_leaf h fl M u q R Fu Nu W Xu) as (vu & Gu & Bu & Vu). assert (Iq : inb h1 q) by (eapply alloc_inb; [apply H1|easy]).
          rewrite g_base_ok by easy. rewrite B1', Bu by lia. rewrite (proj2 (Z.leb_le (- vu) 0)) by lia.
          assert (S256 : step h1 q 256 = None) by (destruct (step h1 q 256) eqn:S; [apply step_some in S; rewrite B1' in S; lia|easy]).
          assert (Hls : forall l, In l [256] -> 0 <= l <= 256) by (intros l [<-|[]]; lia).
          assert (Hno : forall l, In l [256] -> step h1 q l = None) by (intros l [<-|[]]; easy).
          destruct (add_ok h1 fl q [256] H1 Aq1 Lv1) as (h2 & fl2 & b2 & E2 & Ad); auto; [repeat constructor|easy|]. unfold null_value. rewrite E2.
          pose proof (add_HI H1 Aq1 Hls Hno Ad W1q) as H2.
          assert (Wn : walk h2 (u ++ [256]) = Some (b2 + 256)) by (apply (add_walk_new H1 Aq1 Hls Hno Ad W1q); now left).
          assert (Wp : walk h2 u = Some q) by (apply (add_walk_parent H1 Aq1 Hno Ad W1q)).
          destruct (ad_new _ _ _ _ _ _ _ Ad 256) as (An & _ & Bn & _); [now left|]. assert (Ib : inb h2 (b2 + 256)) by (eapply alloc_inb; [apply H2|easy]).
          rewrite g_base_ok by easy. rewrite Bn. change (0 =? 0) with true.
          assert (NS : forall l, step h2 (b2 + 256) l = None) by (intros l; destruct (step h2 (b2 + 256) l) eqn:S; [apply step_some in S; lia|easy]).
          destruct (setB_obs h2 fl2 _ _ (- vu) H2 Wn NS) as (E3 & H3 & W3 & O3); [lia|]. rewrite E3. set (h3 := setB h2 (b2 + 256) (- vu)) in *.
          pose proof (ad_lim _ _ _ _ _ _ _ Ad) as L2. destruct (ad_b _ _ _ _ _ _ _ Ad) as [Bb _].
          exists h3, fl2. split; [easy|]. split; [easy|]. split; [now rewrite W3|]. split; [|split; [|split]].
          * intros _. exists 256, (b2 + 256). assert (X : walk h3 (u ++ [256]) = Some (b2 + 256)) by now rewrite W3. rewrite walk_snoc, W3, Wp in X. easy.
          * unfold h3. rewrite Bs_setB by easy. destruct (Z.eqb_spec 0 (b2 + 256)); [lia|]. rewrite (ad_zero _ _ _ _ _ _ _ Ad), B1. easy.
          * unfold h3. rewrite limit_setB. lia.
          * intros v Nv. rewrite O3. destruct (eqw_spec v (u ++ [256])) as [|Nv']; [now rewrite Gu|]. rewrite (add_obs H1 Aq1 Hls Hno Ad W1q).
            destruct (list_eq_dec Z.eq_dec v u) as [|_]; [easy|]. cbn [map]. destruct (in_dec _ v [u ++ [256]]) as [[I|[]]|_]; [congruence|apply O1]. }
    destruct G2 as (h2 & fl2 & E2 & H2 & W2 & Lv2 & B2 & L2 & O2). rewrite E2. clear E2.
    assert (Hs2 : forall c r, rest = c :: r -> step h2 q c = None).
    { intros c r e. apply (obs_step h2 u q c W2). assert (Hc0 : c <> 256) by (rewrite e in Fr; inversion Fr; unfold byte in *; lia).
      rewrite O2; [|intros x; apply (f_equal (@length Z)) in x; rewrite app_length in x; cbn in x; lia].
      destruct (eqw_spec (u ++ [c]) (u ++ [256])) as [x|_]; [apply app_inj_tail in x as [_ x]; easy|]. apply (obs_step h u q c W). eapply N; eauto. }
    destruct (add_key_ok rest h2 fl2 u q 0 H2 W2 Lv2 (byte_label _ Fr) Hs2) as (h3 & fl3 & b3 & p & E3 & H3 & W3 & B3 & L3 & _ & Obs). rewrite E3.
    destruct (Obs Nr) as (Hb3 & Bp & O3). clear Obs. rewrite <- Ek in W3, O3. pose proof (walk_alloc _ _ H3 _ _ W3) as Ap.
    assert (Hp : p <> 1). { intros ->. apply Nk. eapply walk_inj; [exact H3|exact W3|easy]. }
    destruct (Z.eqb_spec b3 0); [lia|]. cbn [negb]. assert (Ip : inb h3 p) by (eapply alloc_inb; [apply H3|easy]). rewrite g_base_ok by easy. rewrite Bp. change (0 =? 0) with true.
    assert (NS : forall l, step h3 p l = None) by (intros l; destruct (step h3 p l) eqn:S; [apply step_some in S; lia|easy]).
    destruct (setB_obs h3 fl3 _ _ (- value) H3 W3 NS) as (E4 & H4 & W4 & O4); [lia|]. rewrite E4. set (h4 := setB h3 p (- value)) in *.
    destruct (Z.eqb_spec p 1); [easy|]. cbn [negb]. assert (P2 : 2 <= p) by (destruct Ap; [easy|lia]).
    assert (Pu : is_prefix u k = true) by (rewrite Ek; apply prefix_app). assert (Nuk : u <> k). { intros x. assert (y := f_equal (@length Z) Ek). rewrite app_length, <- x in y. unfold rest in y. cbn in y. lia. }
    assert (O : forall v, obs h4 v = if eqw v k then Some (- value) else if is_prefix v k then Some 1 else if eqw v (u ++ [256]) then option_map Z.opp (get M u) else obs h v).
    { intros v. rewrite O4. destruct (eqw_spec v k) as [|Nv]; [easy|]. rewrite O3. destruct (eqw_spec v k); [easy|].
      destruct (is_prefix v k) eqn:P.
      - rewrite andb_true_r. destruct (is_prefix u v) eqn:Q; [easy|]. destruct (prefix_total u v k Pu P) as [X|X]; [congruence|].
        apply (obs_proper h2 fl2 v u q H2 W2 X). intros ->. rewrite prefix_refl in Q. easy.
      - rewrite andb_false_r. apply O2. intros ->. congruence. }
    exists h4, fl3, p. split; [easy|]. rewrite (Ins Gn). split; [|split; [|split; [easy|]]].
    + constructor.
      * easy.
      * now apply wf_cons.
      * unfold h4. rewrite Bs_setB by easy. destruct (Z.eqb_spec 0 p); [lia|]. rewrite B3, B2, (pt_size _ _ _ R). cbn [length]. lia.
      * rewrite O. destruct (eqw_spec [] k) as [e|_]; [congruence|]. easy.
      * intros w. rewrite O, ext_cons. cbn [get]. destruct (eqw_spec (w ++ [256]) k) as [e|_].
        { exfalso. rewrite <- e in Fk. apply Forall_app in Fk as [_ Fk]. inversion Fk. unfold byte in *. lia. }
        destruct (prefix_spec (w ++ [256]) k) as [P|_].
        { exfalso. apply prefix_iff in P. assert (X : In 256 k) by (eapply prefix_in; [exact P|apply in_or_app; right; now left]). rewrite Forall_forall in Fk. apply Fk in X. unfold byte in X. lia. }
        destruct (eqw_spec (w ++ [256]) (u ++ [256])) as [e|Nw].
        { apply app_inj_tail in e as [-> _]. destruct (eqw_spec k u); [congruence|]. rewrite Pu. cbn [negb andb]. now rewrite orb_true_r. }
        assert (Nwu : w <> u) by congruence. rewrite (pt_term _ _ _ R). destruct (eqw_spec k w) as [<-|Nwk].
        { rewrite Xk. cbn [negb]. rewrite andb_false_r. easy. }
        cbn [negb]. rewrite andb_true_r. destruct (is_prefix w k) eqn:P; [|now rewrite orb_false_r]. rewrite orb_true_r.
        destruct (prefix_total u w k Pu P) as [X|X].
        { (* between the branching node and the key: nothing there *)
          assert (Pw : pre M w = false).
          { destruct (prefix_next _ _ X) as [|[c Q]]; [congruence|]. destruct (pre M w) eqn:Z; [|easy]. exfalso.
            assert (c = c0). { assert (Y : is_prefix (u ++ [c]) k = true) by (eapply prefix_trans; eauto). rewrite Ek in Y. apply prefix_iff in Y as [t Y]. rewrite <- app_assoc in Y. apply app_inv_head in Y. injection Y as Y _. congruence. }
            subst c. assert (Y : pre M (u ++ [c0]) = true) by (eapply pre_mono; eauto). assert (Hc0 : c0 <> 256) by (inversion Fr; unfold byte in *; lia).
            assert (Z2 : step h q c0 = None) by now apply (N c0 r0). apply (obs_step h u q c0 W) in Z2. apply (pt_none h fl M u c0 R Hc0) in Z2. congruence. }
          rewrite (pre_ext _ _ Wm) in Pw. apply orb_false_iff in Pw as [Y Z]. rewrite Y. unfold has in Z. destruct (get M w); easy. }
        assert (Y : ext M w = true); [|now rewrite Y]. destruct (ext M u) eqn:Xu; [now apply (ext_mono M w u)|].
        assert (Nu : u <> []) by (intros ->; destruct w; [easy|discriminate X]).
        destruct (pt_leaf h fl M u q R Fu Nu W Xu) as (vu & Gu & _). apply (ext_proper M w u X Nwu). now apply pre_get in Gu.
      * intros w c Nc. rewrite O, ext_cons. cbn [get]. destruct (eqw_spec (w ++ [c]) k) as [e|Nw].
        { rewrite e, eqw_refl, Xk. cbn [negb]. rewrite andb_false_r. easy. }
        destruct (eqw_spec k (w ++ [c])) as [|_]; [congruence|]. cbn [negb]. rewrite andb_true_r.
        destruct (is_prefix (w ++ [c]) k); [now rewrite orb_true_r|]. rewrite orb_false_r.
        destruct (eqw_spec (w ++ [c]) (u ++ [256])) as [e|_]; [apply app_inj_tail in e as [_ e]; easy|]. now apply R.
    + unfold h4. rewrite limit_setB. rewrite Ek, app_length. lia.
    + intros _. split; [|easy]. now rewrite W4.
Qed.
