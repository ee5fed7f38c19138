(** The stable trie (stable_trie_base) against a finite map. *)
From Coq Require Import ZArith List Bool Lia Sorting.Sorted.
From Verif Require Import M_trie L_trie L_trie2 L_trie3 L_trie4.
Import ListNotations.
Open Scope Z_scope.
Local Arguments Z.opp : simpl never.
Local Arguments Z.add : simpl never.
Local Arguments Z.sub : simpl never.

(** ** Prefixes *)
Fixpoint is_prefix (u v : list Z) : bool :=
  match u, v with
  | [], _ => true
  | a :: u', b :: v' => (a =? b) && is_prefix u' v'
  | _ :: _, [] => false
  end.
Lemma prefix_iff u : forall v, is_prefix u v = true <-> exists t, v = u ++ t.
Proof.
  induction u as [|a u IH]; intros [|b v]; cbn; try (split; [eauto|easy]).
  - split; [easy|]. intros [t E]. discriminate.
  - rewrite andb_true_iff, Z.eqb_eq, IH. split; [intros [-> [t ->]]; eauto|intros [t E]; injection E as -> ->; eauto].
Qed.
Lemma prefix_spec u v : reflect (exists t, v = u ++ t) (is_prefix u v).
Proof. apply iff_reflect. symmetry. apply prefix_iff. Qed.
Lemma prefix_refl u : is_prefix u u = true. Proof. apply prefix_iff. exists []. now rewrite app_nil_r. Qed.
Lemma prefix_app u t : is_prefix u (u ++ t) = true. Proof. apply prefix_iff. eauto. Qed.
Lemma prefix_trans u v w : is_prefix u v = true -> is_prefix v w = true -> is_prefix u w = true.
Proof. rewrite !prefix_iff. intros [a ->] [b ->]. exists (a ++ b). now rewrite app_assoc. Qed.
Lemma prefix_snoc v w c : is_prefix v (w ++ [c]) = eqw v (w ++ [c]) || is_prefix v w.
Proof.
  apply eq_true_iff_eq. rewrite orb_true_iff, !prefix_iff. split.
  - intros [t E]. destruct t as [|x t _] using rev_ind; [left; rewrite app_nil_r in E; subst; apply eqw_refl|right].
    rewrite app_assoc in E. apply app_inj_tail in E as [-> _]. eauto.
  - intros [X|[t ->]]; [destruct (eqw_spec v (w ++ [c])) as [-> |]; [exists []; now rewrite app_nil_r|easy]|].
    exists (t ++ [c]). now rewrite app_assoc.
Qed.
Lemma prefix_len u v : is_prefix u v = true -> (length u <= length v)%nat.
Proof. rewrite prefix_iff. intros [t ->]. rewrite app_length. lia. Qed.
Lemma prefix_next w v : is_prefix w v = true -> v = w \/ exists c, is_prefix (w ++ [c]) v = true.
Proof.
  rewrite prefix_iff. intros [[|c t] ->]; [left; now rewrite app_nil_r|right]. exists c. apply prefix_iff. exists t. now rewrite <- app_assoc.
Qed.
Lemma prefix_anti u v : is_prefix u v = true -> is_prefix v u = true -> u = v.
Proof.
  rewrite !prefix_iff. intros [a ->] [b E]. rewrite <- app_assoc in E. rewrite <- (app_nil_r u) in E at 1. apply app_inv_head in E.
  destruct a; [now rewrite app_nil_r|discriminate].
Qed.
Lemma prefix_in u v x : is_prefix u v = true -> In x u -> In x v.
Proof. rewrite prefix_iff. intros [t ->] H. apply in_or_app. now left. Qed.

(** ** Finite maps from keys to values as association lists *)
Definition fmap := list (list Z * Z).
Fixpoint get (M : fmap) (k : list Z) : option Z :=
  match M with [] => None | (k', v) :: r => if eqw k' k then Some v else get r k end.
Definition del (k : list Z) (M : fmap) : fmap := filter (fun e => negb (eqw (fst e) k)) M.
Definition ins (k : list Z) (v : Z) (M : fmap) : fmap :=
  match k with [] => M | _ => match get M k with Some _ => M | None => (k, v) :: M end end.
Definition upd (k : list Z) (v : Z) (M : fmap) : fmap := (k, v) :: del k M.
Definition pre (M : fmap) (u : list Z) : bool := existsb (fun e => is_prefix u (fst e)) M.

Definition byte (c : Z) : Prop := 0 <= c <= 255.
(** keys are distinct non-empty byte strings, values are non-negative 32-bit numbers *)
Record Wf (M : fmap) : Prop := {
  wf_nodup : NoDup (map fst M);
  wf_key : forall k v, In (k, v) M -> k <> [] /\ Forall byte k /\ 0 <= v <= 2147483647
}.

Lemma get_in M k v : get M k = Some v -> In (k, v) M.
Proof. induction M as [|[k' v'] M IH]; cbn; [easy|]. destruct (eqw_spec k' k) as [-> |]; [intros E; injection E as ->; now left|right; auto]. Qed.
Lemma in_get M k v : NoDup (map fst M) -> In (k, v) M -> get M k = Some v.
Proof.
  induction M as [|[k' v'] M IH]; cbn; [easy|]. intros N [E|I].
  - injection E as -> ->. now rewrite eqw_refl.
  - inversion N as [|? ? N1 N2]; subst. destruct (eqw_spec k' k) as [-> |]; [|now apply IH]. exfalso. apply N1. apply in_map_iff. exists (k, v). easy.
Qed.
Lemma get_none M k : get M k = None <-> ~ In k (map fst M).
Proof.
  induction M as [|[k' v'] M IH]; cbn; [easy|]. destruct (eqw_spec k' k) as [-> |]; [split; [easy|intros H; exfalso; auto]|]. rewrite IH. intuition.
Qed.
Lemma del_cons k k' v' M : del k ((k', v') :: M) = if eqw k' k then del k M else (k', v') :: del k M.
Proof. unfold del. cbn [filter fst]. now destruct (eqw k' k). Qed.
Lemma get_del M k q : get (del k M) q = if eqw q k then None else get M q.
Proof.
  induction M as [|[k' v'] M IH]; [cbn; now destruct (eqw q k)|]. rewrite del_cons. cbn [get]. destruct (eqw_spec k' k) as [e|N]; cbn [get]; rewrite IH.
  - subst k'. destruct (eqw_spec q k) as [e|e]; [easy|]. destruct (eqw_spec k q); [congruence|easy].
  - destruct (eqw_spec k' q) as [e|e]; [|easy]. subst k'. destruct (eqw_spec q k); [congruence|easy].
Qed.
Lemma pre_iff M u : pre M u = true <-> exists k v, In (k, v) M /\ is_prefix u k = true.
Proof.
  unfold pre. rewrite existsb_exists. split; [intros ([k v] & A & B); eauto|intros (k & v & A & B); exists (k, v); easy].
Qed.
Lemma pre_mono M u v : is_prefix u v = true -> pre M v = true -> pre M u = true.
Proof. rewrite !pre_iff. intros P (k & x & A & B). exists k, x. split; [easy|]. eapply prefix_trans; eauto. Qed.
Lemma pre_get M k v : get M k = Some v -> pre M k = true.
Proof. intros G. apply pre_iff. exists k, v. split; [now apply get_in|apply prefix_refl]. Qed.
Lemma del_in k M e : In e (del k M) <-> In e M /\ fst e <> k.
Proof. unfold del. rewrite filter_In. destruct (eqw_spec (fst e) k); cbn; intuition congruence. Qed.
Lemma pre_del M k u : Wf M -> pre M u = pre (del k M) u || (match get M k with Some _ => is_prefix u k | None => false end).
Proof.
  intros Wm. apply eq_true_iff_eq. rewrite orb_true_iff, !pre_iff. split.
  - intros (q & v & A & B). destruct (eqw_spec q k) as [-> |N].
    + right. now rewrite (in_get M k v (wf_nodup _ Wm) A).
    + left. exists q, v. split; [now apply del_in|easy].
  - intros [(q & v & A & B)|X]; [exists q, v; split; [now apply del_in in A|easy]|]. destruct (get M k) as [v|] eqn:G; [|easy]. exists k, v. split; [now apply get_in|easy].
Qed.
Lemma nodup_filter (f : list Z * Z -> bool) (M : fmap) : NoDup (map fst M) -> NoDup (map fst (filter f M)).
Proof.
  induction M as [|[k v] M IH]; cbn; intros N; [constructor|]. inversion N as [|? ? N1 N2]; subst. destruct (f (k, v)); [|now apply IH]. cbn. constructor; [|now apply IH].
  intros X. apply N1. apply in_map_iff in X as ([k' v'] & <- & X). apply filter_In in X as [X _]. apply in_map_iff. exists (k', v'). easy.
Qed.
Lemma wf_del k M : Wf M -> Wf (del k M).
Proof.
  intros [A B]. constructor; [now apply nodup_filter|]. intros q v X. apply del_in in X as [X _]. now apply B.
Qed.
Lemma del_length M k v : NoDup (map fst M) -> get M k = Some v -> length M = S (length (del k M)).
Proof.
  induction M as [|[k' v'] M IH]; cbn; [easy|]. intros N G. inversion N as [|? ? N1 N2]; subst. destruct (eqw_spec k' k) as [-> |]; cbn.
  - f_equal. symmetry. clear -N1. induction M as [|[q x] M IH]; cbn; [easy|]. cbn in N1. destruct (eqw_spec q k) as [-> |]; [exfalso; apply N1; now left|]. cbn. f_equal. apply IH. tauto.
  - f_equal. now apply IH.
Qed.
Lemma del_absent M k : get M k = None -> del k M = M.
Proof.
  intros G. apply get_none in G. induction M as [|[q x] M IH]; cbn; [easy|]. cbn in G. destruct (eqw_spec q k) as [-> |]; [exfalso; apply G; now left|]. cbn. f_equal. apply IH. tauto.
Qed.
Lemma wf_cons M k v : Wf M -> get M k = None -> k <> [] -> Forall byte k -> 0 <= v <= 2147483647 -> Wf ((k, v) :: M).
Proof.
  intros [A B] G N F V. constructor; [cbn; constructor; [now apply get_none|easy]|]. intros q x [E|X]; [injection E as <- <-; easy|now apply (B q x)].
Qed.
Lemma byte_label k : Forall byte k -> Forall (fun l => 0 <= l <= 256) k.
Proof. apply Forall_impl. unfold byte. lia. Qed.

(** ** Adding the transitions of a key *)
Lemma add_key_ok rest : forall h fl w p b0, HI h fl -> walk h w = Some p -> Live h p -> Forall (fun l => 0 <= l <= 256) rest ->
  (forall c r, rest = c :: r -> step h p c = None) ->
  exists h' fl' b' p', add_key h b0 p rest = Some (h', b', p') /\ HI h' fl' /\ walk h' (w ++ rest) = Some p' /\
    Bs h' 0 = Bs h 0 /\ limit h <= limit h' <= limit h + 257 * Z.of_nat (length rest) /\
    (rest = [] -> h' = h /\ b' = b0 /\ p' = p) /\
    (rest <> [] -> 1 <= b' /\ Bs h' p' = 0 /\
      forall v, obs h' v = if eqw v (w ++ rest) then Some 0 else if is_prefix w v && is_prefix v (w ++ rest) then Some 1 else obs h v).
Proof.
  induction rest as [|c r IH]; intros h fl w p b0 H W Lv Fo Hs; cbn [add_key].
  - exists h, fl, b0, p. rewrite app_nil_r. split; [easy|]. split; [easy|]. split; [easy|]. split; [easy|]. split; [cbn; lia|]. split; easy.
  - inversion Fo as [|? ? Fc Fr]; subst. pose proof (walk_alloc _ _ H _ _ W) as Hp.
    assert (Hls : forall l, In l [c] -> 0 <= l <= 256) by (intros l [<-|[]]; easy).
    assert (Hno : forall l, In l [c] -> step h p l = None) by (intros l [<-|[]]; now apply (Hs c r)).
    destruct (add_ok h fl p [c] H Hp Lv) as (h1 & fl1 & b & E1 & Ad); auto; [repeat constructor|easy|]. rewrite E1.
    pose proof (add_HI H Hp Hls Hno Ad W) as H1.
    assert (Wn : walk h1 (w ++ [c]) = Some (b + c)) by (apply (add_walk_new H Hp Hls Hno Ad W); now left).
    destruct (ad_new _ _ _ _ _ _ _ Ad c) as (An & _ & Bn & _); [now left|].
    assert (Ob : forall v, obs h1 v = if eqw v w then Some 1 else if eqw v (w ++ [c]) then Some 0 else obs h v).
    { intros v. rewrite (add_obs H Hp Hls Hno Ad W). unfold eqw at 1. destruct (list_eq_dec Z.eq_dec v w); [easy|].
      cbn [map]. destruct (in_dec _ v [w ++ [c]]) as [I|I], (eqw_spec v (w ++ [c])) as [e|e]; auto; exfalso.
      - destruct I as [I|[]]; congruence.
      - apply I. now left. }
    destruct (IH h1 fl1 (w ++ [c]) (b + c) b H1 Wn) as (h' & fl' & b' & p' & E & H' & W' & B0 & Lm & Nil & Obs).
    { intros X. lia. } { easy. } { intros c' r' _. destruct (step h1 (b + c) c') eqn:S; [|easy]. apply step_some in S. lia. }
    rewrite <- app_assoc in W'. cbn [app] in W'. pose proof (ad_lim _ _ _ _ _ _ _ Ad) as L1. pose proof (ad_b _ _ _ _ _ _ _ Ad) as Bb.
    exists h', fl', b', p'. split; [easy|]. split; [easy|]. split; [easy|]. split; [rewrite B0; apply (ad_zero _ _ _ _ _ _ _ Ad)|].
    split; [cbn [length]; lia|]. split; [easy|]. intros _. destruct r as [|d r].
    + destruct (Nil eq_refl) as (-> & -> & ->). split; [lia|]. split; [easy|]. intros v. rewrite Ob.
      destruct (eqw_spec v w) as [-> |N].
      * destruct (eqw_spec w (w ++ [c])) as [e|_]; [apply (f_equal (@length Z)) in e; rewrite app_length in e; cbn in e; lia|].
        now rewrite prefix_refl, prefix_app.
      * destruct (eqw_spec v (w ++ [c])) as [-> |N2]; [easy|]. rewrite prefix_snoc.
        destruct (eqw_spec v (w ++ [c])) as [|_]; [easy|]. cbn [orb]. destruct (prefix_spec w v) as [P|P]; cbn [andb]; [|easy].
        destruct (prefix_spec v w) as [Q|Q]; [|easy]. exfalso. apply N. apply prefix_anti; now apply prefix_iff.
    + destruct Obs as (B1 & B2 & Obs); [easy|]. split; [easy|]. split; [easy|]. intros v. rewrite Obs. rewrite <- app_assoc. cbn [app].
      destruct (eqw_spec v (w ++ c :: d :: r)) as [|N]; [easy|]. rewrite Ob.
      destruct (eqw_spec v w) as [-> |N1].
      * destruct (prefix_spec (w ++ [c]) w) as [[t e]|_]; [apply (f_equal (@length Z)) in e; rewrite !app_length in e; cbn in e; lia|]. cbn [andb].
        now rewrite prefix_refl, prefix_app.
      * destruct (eqw_spec v (w ++ [c])) as [-> |N2].
        { rewrite prefix_refl, prefix_app. replace (w ++ c :: d :: r) with ((w ++ [c]) ++ d :: r) by now rewrite <- app_assoc. now rewrite prefix_app. }
        destruct (prefix_spec v (w ++ c :: d :: r)) as [P|P]; [|now rewrite !andb_false_r]. rewrite !andb_true_r.
        destruct (prefix_spec (w ++ [c]) v) as [[t ->]|Q].
        { rewrite <- app_assoc, prefix_app. easy. }
        destruct (prefix_spec w v) as [[t ->]|Q']; [|easy]. exfalso. destruct P as [t' P]. rewrite <- app_assoc in P. apply app_inv_head in P.
        destruct t as [|x t]; [apply N1; now rewrite app_nil_r|]. cbn in P. injection P as <- _. apply Q. exists t. now rewrite <- app_assoc.
Qed.

(** ** The representation relation *)
Record StRep (h : heap) (fl : list Z) (M : fmap) : Prop := {
  sr_hi : HI h fl;
  sr_wf : Wf M;
  sr_size : Bs h 0 = Z.of_nat (length M);
  sr_root : obs h [] = Some (if pre M [] then 1 else 0);
  sr_term : forall k, obs h (k ++ [256]) = option_map Z.opp (get M k);
  sr_node : forall u c, c <> 256 -> obs h (u ++ [c]) = if pre M (u ++ [c]) then Some 1 else None
}.

Lemma no_null_prefix M u : Wf M -> pre M (u ++ [256]) = false.
Proof.
  intros Wm. destruct (pre M (u ++ [256])) eqn:P; [|easy]. apply pre_iff in P as (k & v & I & Q). apply (wf_key _ Wm) in I as (_ & Fk & _).
  exfalso. assert (X : In 256 k) by (eapply prefix_in; [exact Q|apply in_or_app; right; now left]). rewrite Forall_forall in Fk. apply Fk in X. unfold byte in X. lia.
Qed.

Lemma obs_bs h u i : walk h u = Some i -> obs h u = Some (Z.min 1 (Bs h i)).
Proof. intros W. unfold obs. now rewrite W. Qed.

Lemma st_live h fl M w p : StRep h fl M -> walk h w = Some p -> Live h p.
Proof.
  intros R W Hb. assert (O : obs h w = Some 1) by (rewrite (obs_bs _ _ _ W); f_equal; lia).
  assert (P : pre M w = true /\ (w = [] \/ True)).
  { destruct w as [|c w _] using rev_ind.
    - rewrite (sr_root _ _ _ R) in O. destruct (pre M []); [auto|easy].
    - destruct (Z.eq_dec c 256) as [-> |N].
      + rewrite (sr_term _ _ _ R) in O. destruct (get M w) as [v|] eqn:G; [|easy]. cbn in O. apply get_in, (wf_key _ (sr_wf _ _ _ R)) in G. injection O as O. lia.
      + rewrite (sr_node _ _ _ R) in O by easy. destruct (pre M (w ++ [c])); [auto|easy]. }
  destruct P as [P _]. assert (X : exists l, obs h (w ++ [l]) <> None).
  { apply pre_iff in P as (k & v & I & Q). destruct (prefix_next _ _ Q) as [-> |[c Q']].
    - exists 256. rewrite (sr_term _ _ _ R). now rewrite (in_get M w v (wf_nodup _ (sr_wf _ _ _ R)) I).
    - exists c. assert (c <> 256).
      { intros ->. assert (pre M (w ++ [256]) = true) by (apply pre_iff; eauto). rewrite (no_null_prefix M w (sr_wf _ _ _ R)) in H. easy. }
      rewrite (sr_node _ _ _ R) by easy. now rewrite (proj2 (pre_iff M (w ++ [c]))) by eauto. }
  destruct X as [l X]. rewrite (obs_step h w p l W) in X. exists l. destruct (step h p l) eqn:S; [eauto|easy].
Qed.

Lemma st_get_walk h fl M k q : StRep h fl M -> walk h k = Some q ->
  (match step h q 256 with Some _ => true | None => false end) = (match get M k with Some _ => true | None => false end).
Proof.
  intros R W. assert (X := sr_term _ _ _ R k). rewrite (obs_bs h (k ++ [256])) in X || idtac.
  destruct (step h q 256) as [t|] eqn:S, (get M k) as [v|] eqn:G; try easy; exfalso.
  - assert (obs h (k ++ [256]) = None) by (rewrite X; easy). apply (obs_step h k q 256 W) in H. congruence.
  - assert (obs h (k ++ [256]) <> None) by (rewrite X; easy). apply H. now apply (obs_step h k q 256 W).
Qed.
Lemma st_get_nowalk h fl M k : StRep h fl M -> walk h k = None -> get M k = None.
Proof.
  intros R W. destruct (get M k) as [v|] eqn:G; [|easy]. assert (X := sr_term _ _ _ R k). rewrite G in X. cbn in X.
  unfold obs in X. rewrite walk_snoc, W in X. easy.
Qed.

Lemma st_find_ok h fl M k : StRep h fl M -> Forall byte k ->
  exists idx, st_find h k = Some idx /\
    (match get M k with Some _ => walk h k = Some idx /\ 2 <= idx | None => idx = 0 end).
Proof.
  intros R Fk. pose proof (sr_hi _ _ _ R) as H. unfold st_find. destruct (lookup_walk h fl k H (byte_label _ Fk)) as (q & rest & E & R1 & R2). rewrite E. destruct rest as [|c r].
  - specialize (R2 eq_refl). pose proof (walk_alloc _ _ H _ _ R2) as Aq. rewrite (has_null_ok h fl) by easy. rewrite (st_get_walk h fl M k q R R2).
    destruct (get M k) as [v|] eqn:G; [|exists 0; easy]. exists q. split; [easy|]. split; [easy|].
    destruct Aq as [-> |Aq]; [|lia]. exfalso. assert (k = []) by (eapply walk_inj; [exact H|exact R2|easy]). subst k. apply get_in, (wf_key _ (sr_wf _ _ _ R)) in G. easy.
  - exists 0. split; [easy|]. destruct (get M k) eqn:G; [|easy]. exfalso. assert (walk h k = None) by (destruct (walk h k); [exfalso; assert (c :: r = []) by (apply R1; easy); easy|easy]).
    rewrite (st_get_nowalk h fl M k R) in G by easy. easy.
Qed.
Lemma st_contains_ok h fl M k : StRep h fl M -> Forall byte k ->
  st_contains h k = Some (match get M k with Some _ => true | None => false end).
Proof.
  intros R Fk. pose proof (sr_hi _ _ _ R) as H. unfold st_contains. destruct (lookup_walk h fl k H (byte_label _ Fk)) as (q & rest & E & R1 & R2). rewrite E. destruct rest as [|c r].
  - specialize (R2 eq_refl). pose proof (walk_alloc _ _ H _ _ R2) as Aq. rewrite (has_null_ok h fl) by easy. now rewrite (st_get_walk h fl M k q R R2).
  - assert (walk h k = None) by (destruct (walk h k); [exfalso; assert (c :: r = []) by (apply R1; easy); easy|easy]).
    now rewrite (st_get_nowalk h fl M k R).
Qed.
(** The node of the value *)
Lemma st_value_ok h fl M k v idx : StRep h fl M -> get M k = Some v -> walk h k = Some idx ->
  exists t, st_value_index h idx = Some t /\ walk h (k ++ [256]) = Some t /\ Bs h t = - v /\ (forall l, step h t l = None).
Proof.
  intros R G W. pose proof (sr_hi _ _ _ R) as H. pose proof (hi_fl _ _ H) as F. pose proof (walk_alloc _ _ H _ _ W) as Ai.
  assert (X := sr_term _ _ _ R k). rewrite G in X. cbn in X. unfold obs in X. destruct (walk h (k ++ [256])) as [t|] eqn:T; [|easy].
  pose proof (walk_alloc _ _ H _ _ T) as At. rewrite walk_snoc, W in T. destruct (step_alloc h fl idx 256 t H Ai T) as [_ T2]. apply step_some in T as (_ & T3 & T4 & T5).
  apply (alloc_inb _ _ _ F) in At, Ai. exists t. unfold st_value_index, null_value. rewrite g_base_ok by easy. rewrite <- T4.
  unfold inb in At. rewrite (proj2 (Z.ltb_lt 1 t)), (proj2 (Z.ltb_lt t (limit h))) by lia. split; [easy|]. split; [easy|].
  apply get_in, (wf_key _ (sr_wf _ _ _ R)) in G. assert (Bs h t = - v) by (injection X as X; lia). split; [easy|].
  intros l. destruct (step h t l) eqn:S; [|easy]. apply step_some in S. lia.
Qed.
Lemma st_get_ok h fl M k : StRep h fl M -> Forall byte k -> st_get h k = Some (get M k).
Proof.
  intros R Fk. pose proof (sr_hi _ _ _ R) as H. unfold st_get. destruct (st_find_ok h fl M k R Fk) as (idx & E & X). rewrite E.
  destruct (get M k) as [v|] eqn:G; [|subst idx; easy]. destruct X as [W I2]. destruct (Z.eqb_spec idx 0); [lia|].
  destruct (st_value_ok h fl M k v idx R G W) as (t & Et & T & B & _). rewrite Et. unfold proxy_get.
  pose proof (walk_alloc _ _ H _ _ T) as At. rewrite g_base_ok by (eapply alloc_inb; [apply H|easy]). rewrite B.
  apply get_in, (wf_key _ (sr_wf _ _ _ R)) in G. rewrite (proj2 (Z.leb_le (- v) 0)) by lia. do 2 f_equal. lia.
Qed.

(** ** insert *)
Lemma sr_eq h fl M : forall h', StRep h fl M -> HI h' fl -> Bs h' 0 = Bs h 0 -> (forall v, obs h' v = obs h v) -> StRep h' fl M.
Proof. intros h' [A B C D E F] H' S O. constructor; auto; intros; rewrite ?S, ?O; auto. Qed.

(** the words observed after inserting k *)
Definition ins_obs (h : heap) (k : list Z) (value : Z) (v : list Z) : option Z :=
  if eqw v (k ++ [256]) then Some (- value) else if is_prefix v k then Some 1 else obs h v.

Lemma st_insert_rep h fl M k value h' fl' : StRep h fl M -> Forall byte k -> k <> [] -> get M k = None -> 0 <= value <= 2147483647 ->
  HI h' fl' -> Bs h' 0 = Bs h 0 + 1 -> (forall v, obs h' v = ins_obs h k value v) -> StRep h' fl' ((k, value) :: M).
Proof.
  intros R Fk Nk G V H' B0 O. unfold ins_obs in O. constructor.
  - easy.
  - now apply wf_cons; [apply R| | | |].
  - rewrite B0, (sr_size _ _ _ R). cbn [length]. lia.
  - rewrite O. destruct (eqw_spec [] (k ++ [256])) as [e|_]; [now destruct k|]. easy.
  - intros q. rewrite O. cbn [get]. destruct (eqw_spec k q) as [<-|N].
    + now rewrite eqw_refl.
    + destruct (eqw_spec (q ++ [256]) (k ++ [256])) as [e|_]; [apply app_inj_tail in e as [-> _]; easy|].
      destruct (prefix_spec (q ++ [256]) k) as [P|_]; [|apply (sr_term _ _ _ R)]. exfalso. apply prefix_iff in P.
      assert (X : In 256 k) by (eapply prefix_in; [exact P|apply in_or_app; right; now left]). rewrite Forall_forall in Fk. apply Fk in X. unfold byte in X. lia.
  - intros u c N. rewrite O. destruct (eqw_spec (u ++ [c]) (k ++ [256])) as [e|_]; [apply app_inj_tail in e as [_ e]; easy|].
    cbn [pre existsb]. cbn [fst]. destruct (is_prefix (u ++ [c]) k); [easy|]. cbn [orb]. apply (sr_node _ _ _ R); easy.
Qed.

Lemma obs_inner h fl v c t i : HI h fl -> walk h (v ++ c :: t) = Some i -> obs h v = Some 1.
Proof.
  intros H W. replace (v ++ c :: t) with ((v ++ [c]) ++ t) in W by now rewrite <- app_assoc. apply walk_prefix in W as [j W]. rewrite walk_snoc in W.
  unfold obs. destruct (walk h v) as [p|]; [|easy]. apply step_some in W. f_equal. lia.
Qed.
Lemma obs_proper h fl v u q : HI h fl -> walk h u = Some q -> is_prefix v u = true -> v <> u -> obs h v = Some 1.
Proof.
  intros H W P N. apply prefix_iff in P as [[|c t] ->]; [exfalso; apply N; now rewrite app_nil_r|]. eapply obs_inner; eauto.
Qed.
Lemma prefix_total u v k : is_prefix u k = true -> is_prefix v k = true -> is_prefix u v = true \/ is_prefix v u = true.
Proof.
  revert v k. induction u as [|a u IH]; intros [|b v] [|c k]; cbn; auto; try easy.
  rewrite !andb_true_iff, !Z.eqb_eq. intros [-> A] [-> B]. destruct (IH v k A B); auto.
Qed.

Lemma st_extend h fl M k value u q rest : StRep h fl M -> Forall byte k -> k <> [] -> 0 <= value <= 2147483647 ->
  k = u ++ rest -> walk h u = Some q -> (forall c r, rest = c :: r -> step h q c = None) -> get M k = None ->
  exists h' fl' idx,
    (do (h1, _, p) <- add_key h 0 q rest; assert (negb (p =? 1)); do (h2, b) <- add h1 p [null_value];
     do h3 <- s_base h2 (b + null_value) (- value); do h4 <- add_size h3 1; Some (h4, p)) = Some (h', idx) /\
    StRep h' fl' ((k, value) :: M) /\ limit h <= limit h' <= limit h + 257 * (Z.of_nat (length k) + 1) /\
    walk h' k = Some idx /\ 2 <= idx.
Proof.
  intros R Fk Nk Hv Ek W N G. pose proof (sr_hi _ _ _ R) as H. pose proof (byte_label _ Fk) as Lk.
  destruct (add_key_ok rest h fl u q 0 H W (st_live h fl M u q R W)) as (h1 & fl1 & b1 & p & E1 & H1 & W1 & B1 & L1 & Nil & Obs); [|easy|].
  { rewrite Ek in Lk. apply Forall_app in Lk. tauto. }
  rewrite E1. rewrite <- Ek in W1. pose proof (walk_alloc _ _ H1 _ _ W1) as Ap.
  assert (p <> 1). { intros ->. apply Nk. eapply walk_inj; [exact H1|exact W1|easy]. }
  destruct (Z.eqb_spec p 1); [easy|]. cbn [negb].
  assert (Lv : Live h1 p /\ step h1 p 256 = None /\ forall v, v <> k -> v <> k ++ [256] -> obs h1 v = if is_prefix v k then Some 1 else obs h v).
  { destruct rest as [|c r].
    - destruct (Nil eq_refl) as (-> & _ & ->). rewrite app_nil_r in Ek. subst u. split; [eapply st_live; eauto|]. split.
      + pose proof (st_get_walk h fl M k q R W) as X. rewrite G in X. destruct (step h q 256); [discriminate X|reflexivity].
      + intros v V1 _. destruct (is_prefix v k) eqn:P; [|easy]. eapply obs_proper; eauto.
    - destruct Obs as (_ & B0 & Obs); [easy|]. split; [intros X; lia|]. split; [destruct (step h1 p 256) eqn:S; [apply step_some in S; lia|easy]|].
      intros v V1 _. rewrite Obs, <- Ek. destruct (eqw_spec v k); [easy|]. destruct (is_prefix v k) eqn:P; [|now rewrite andb_false_r]. rewrite andb_true_r.
      destruct (is_prefix u v) eqn:Q; [easy|]. destruct (prefix_total u v k) as [X|X]; [rewrite Ek; apply prefix_app|easy|congruence|].
      apply (obs_proper h fl v u q H W X). intros ->. rewrite prefix_refl in Q. easy. }
  destruct Lv as (Lv & S256 & Ob1).
  assert (Hls : forall l, In l [256] -> 0 <= l <= 256) by (intros l [<-|[]]; lia).
  assert (Hno : forall l, In l [256] -> step h1 p l = None) by (intros l [<-|[]]; easy).
  destruct (add_ok h1 fl1 p [256] H1 Ap Lv) as (h2 & fl2 & b2 & E2 & Ad); auto; [repeat constructor|easy|]. unfold null_value. rewrite E2.
  pose proof (add_HI H1 Ap Hls Hno Ad W1) as H2.
  assert (Wn : walk h2 (k ++ [256]) = Some (b2 + 256)) by (apply (add_walk_new H1 Ap Hls Hno Ad W1); now left).
  destruct (ad_new _ _ _ _ _ _ _ Ad 256) as (An & _ & Bn & _); [now left|].
  assert (NS : forall l, step h2 (b2 + 256) l = None) by (intros l; destruct (step h2 (b2 + 256) l) eqn:S; [apply step_some in S; lia|easy]).
  destruct (setB_obs h2 fl2 _ _ (- value) H2 Wn NS) as (E3 & H3 & W3 & O3); [lia|]. rewrite E3. set (h3 := setB h2 (b2 + 256) (- value)) in *.
  destruct (size_obs h3 fl2 1 H3) as (h4 & E4 & H4 & L4 & B4 & _ & _ & _ & W4 & O4). rewrite E4.
  pose proof (ad_lim _ _ _ _ _ _ _ Ad) as L2.
  assert (Ib : inb h2 (b2 + 256)) by (eapply alloc_inb; [apply H2|easy]).
  assert (A2 : 2 <= b2 + 256) by (destruct (ad_b _ _ _ _ _ _ _ Ad); lia).
  exists h4, fl2, p. split; [easy|]. split; [|split; [|split]].
  - apply (st_insert_rep h fl M k value); auto.
    + rewrite B4. unfold h3. rewrite Bs_setB by easy. destruct (Z.eqb_spec 0 (b2 + 256)); [lia|]. rewrite (ad_zero _ _ _ _ _ _ _ Ad), B1. easy.
    + intros v. rewrite O4, O3. unfold ins_obs. destruct (eqw_spec v (k ++ [256])) as [|Nv]; [easy|].
      rewrite (add_obs H1 Ap Hls Hno Ad W1). destruct (list_eq_dec Z.eq_dec v k) as [-> |Nv2]; [now rewrite prefix_refl|].
      cbn [map]. destruct (in_dec _ v [k ++ [256]]) as [[I|[]]|_]; [congruence|]. now apply Ob1.
  - rewrite L4. unfold h3. rewrite limit_setB. rewrite Ek, app_length. lia.
  - rewrite W4, W3. now apply (add_walk_parent H1 Ap Hno Ad W1).
  - destruct Ap as [|Ap]; [easy|lia].
Qed.

Lemma st_insert_ok h fl M k value : StRep h fl M -> Forall byte k -> 0 <= value <= 2147483647 ->
  exists h' fl' idx, st_insert h k value = Some (h', idx) /\ StRep h' fl' (ins k value M) /\
    limit h <= limit h' <= limit h + 257 * (Z.of_nat (length k) + 1) /\
    (k = [] -> idx = 0) /\ (k <> [] -> walk h' k = Some idx /\ 2 <= idx).
Proof.
  intros R Fk Hv. pose proof (sr_hi _ _ _ R) as H. unfold st_insert. rewrite (proj2 (Z.leb_le value 2147483647)) by lia.
  destruct k as [|k0 k1]; [exists h, fl, 0; repeat (split; [easy || lia|]); easy|]. remember (k0 :: k1) as k. assert (Nk : k <> []) by (now subst).
  destruct (lookup_ok h fl k H (byte_label _ Fk) [] 1 eq_refl) as (q & u & rest & E & Ek & W & N). cbn [app] in W. rewrite E.
  pose proof (walk_alloc _ _ H _ _ W) as Aq. rewrite (has_null_ok h fl) by easy. rewrite (st_get_walk h fl M u q R W).
  assert (Gr : rest <> [] -> get M k = None).
  { intros Nr. destruct rest as [|c r]; [easy|]. apply (st_get_nowalk h fl M k R). rewrite Ek. unfold walk in *. rewrite walk_from_app, W. cbn. now rewrite (N c r). }
  assert (Go : get M k = None -> exists h' fl' idx,
    (do (h1, _, p) <- add_key h 0 q rest; assert (negb (p =? 1)); do (h2, b) <- add h1 p [null_value];
     do h3 <- s_base h2 (b + null_value) (- value); do h4 <- add_size h3 1; Some (h4, p)) = Some (h', idx) /\
    StRep h' fl' (ins k value M) /\ limit h <= limit h' <= limit h + 257 * (Z.of_nat (length k) + 1) /\
    (k = [] -> idx = 0) /\ (k <> [] -> walk h' k = Some idx /\ 2 <= idx)).
  { intros G. destruct (st_extend h fl M k value u q rest) as (h' & fl' & idx & A & B & C & D & X); auto. exists h', fl', idx.
    split; [exact A|]. split; [unfold ins; rewrite Heqk in *; now rewrite G|]. split; [easy|]. split; easy. }
  destruct (get M u) as [vu|] eqn:Gu; [destruct rest as [|c r]|]; cbn [negb orb length Nat.eqb].
  - (* present *)
    rewrite app_nil_r in Ek. subst u. exists h, fl, q. split; [easy|]. split; [unfold ins; rewrite Heqk in *; now rewrite Gu|]. split; [lia|]. split; [easy|].
    intros _. split; [easy|]. destruct Aq as [-> |]; [|lia]. exfalso. apply Nk. eapply walk_inj; eauto.
  - apply Go. now apply Gr.
  - apply Go. destruct rest as [|c r]; [rewrite app_nil_r in Ek; congruence|now apply Gr].
Qed.

(** ** erase *)
Lemma no_steps h p : step h p 256 = None -> ~ (exists l q, 0 <= l <= 255 /\ step h p l = Some q) -> forall l, step h p l = None.
Proof.
  intros A B l. destruct (step h p l) as [q|] eqn:S; [|easy]. exfalso. assert (0 <= l <= 256) by (apply step_some in S; tauto).
  destruct (Z.eq_dec l 256) as [-> |]; [congruence|]. apply B. exists l, q. split; [lia|easy].
Qed.

Lemma st_prune_ok M' : Wf M' -> forall w fuel h fl idx, HI h fl -> walk h w = Some idx -> Forall byte w -> (length w < fuel)%nat ->
  (forall q, obs h (q ++ [256]) = option_map Z.opp (get M' q)) ->
  (forall u c, c <> 256 -> obs h (u ++ [c]) = if pre M' (u ++ [c]) || is_prefix (u ++ [c]) w then Some 1 else None) ->
  exists h' fl', st_prune fuel h idx = Some h' /\ HI h' fl' /\ limit h' = limit h /\ Bs h' 0 = Bs h 0 /\ obs h' [] = obs h [] /\
    (forall q, obs h' (q ++ [256]) = option_map Z.opp (get M' q)) /\
    (forall u c, c <> 256 -> obs h' (u ++ [c]) = if pre M' (u ++ [c]) then Some 1 else None).
Proof.
  intros Wm w. induction w as [|c w IH] using rev_ind; intros fuel h fl idx H W Fw Hf T N; (destruct fuel as [|f]; [lia|]); cbn [st_prune].
  - injection W as <-. change (1 =? 1) with true. exists h, fl. repeat (split; [easy|]). intros u c Hc. rewrite N by easy.
    destruct (prefix_spec (u ++ [c]) []) as [[t e]|_]; [|now rewrite orb_false_r]. destruct u; discriminate.
  - pose proof (walk_alloc _ _ H _ _ W) as Ai. destruct (Z.eqb_spec idx 1) as [-> |Hi1].
    { exfalso. assert (w ++ [c] = []) by (eapply walk_inj; [exact H|exact W|easy]). now destruct w. }
    rewrite (has_null_ok h fl) by easy.
    assert (Keep : pre M' (w ++ [c]) = true -> exists h' fl', Some h = Some h' /\ HI h' fl' /\ limit h' = limit h /\ Bs h' 0 = Bs h 0 /\ obs h' [] = obs h [] /\
      (forall q, obs h' (q ++ [256]) = option_map Z.opp (get M' q)) /\
      (forall u c, c <> 256 -> obs h' (u ++ [c]) = if pre M' (u ++ [c]) then Some 1 else None)).
    { intros P. exists h, fl. repeat (split; [easy|]). intros u d Hd. rewrite N by easy. destruct (is_prefix (u ++ [d]) (w ++ [c])) eqn:Q; [|now rewrite orb_false_r].
      rewrite (pre_mono M' _ _ Q P). easy. }
    destruct (step h idx 256) as [t|] eqn:S256.
    { apply Keep. assert (X : obs h ((w ++ [c]) ++ [256]) <> None) by (rewrite (obs_step _ _ _ _ W); congruence). rewrite T in X.
      destruct (get M' (w ++ [c])) as [v|] eqn:G; [|easy]. now apply pre_get in G. }
    destruct (has_child_ok h fl idx H Ai) as (r & E & Hr). rewrite E. destruct r.
    { apply Keep. destruct (proj1 Hr eq_refl) as (l & q & L1 & S). assert (X : obs h ((w ++ [c]) ++ [l]) <> None) by (rewrite (obs_step _ _ _ _ W); congruence).
      rewrite N in X by lia. destruct (pre M' ((w ++ [c]) ++ [l])) eqn:P; [eapply pre_mono; [|exact P]; apply prefix_app|]. cbn [orb] in X.
      destruct (prefix_spec ((w ++ [c]) ++ [l]) (w ++ [c])) as [[t e]|_]; [|easy]. apply (f_equal (@length Z)) in e. rewrite !app_length in e. cbn in e. lia. }
    assert (NS : forall l, step h idx l = None) by (apply no_steps; [easy|]; intros X; apply Hr in X; easy).
    assert (Np : pre M' (w ++ [c]) = false).
    { destruct (pre M' (w ++ [c])) eqn:P; [|easy]. exfalso. apply pre_iff in P as (k & v & I & Q). destruct (prefix_next _ _ Q) as [e|[l Q']].
      - subst k. apply (in_get _ _ _ (wf_nodup _ Wm)) in I. assert (X := T (w ++ [c])). rewrite I in X. cbn [option_map] in X. assert (obs h ((w ++ [c]) ++ [256]) = None) by (apply (obs_step _ _ _ _ W); easy). congruence.
      - assert (Hl : l <> 256). { intros ->. assert (pre M' ((w ++ [c]) ++ [256]) = true) by (apply pre_iff; eauto). rewrite no_null_prefix in H0; easy. }
        assert (X := N (w ++ [c]) l Hl). rewrite (proj2 (pre_iff M' ((w ++ [c]) ++ [l]))) in X by eauto. cbn in X.
        assert (obs h ((w ++ [c]) ++ [l]) = None) by (apply (obs_step _ _ _ _ W); easy). congruence. }
    pose proof (alloc_inb _ _ _ (hi_fl _ _ H) Ai) as Ii. rewrite g_check_ok by easy.
    destruct (free_obs h fl (w ++ [c]) idx H W) as (h1 & b & fl1 & E1 & H1 & L1 & B1 & W1 & O1 & _); [now destruct w|easy|]. rewrite E1.
    rewrite walk_snoc in W. destruct (walk h w) as [p|] eqn:Wp; [|easy]. assert (Kp : Ks h idx = p) by (apply step_some in W; tauto). rewrite Kp.
    apply Forall_app in Fw as [Fw Fc]. rewrite app_length in Hf. cbn [length] in Hf.
    assert (Hc : c <> 256) by (inversion Fc; unfold byte in *; lia).
    destruct (IH f h1 fl1 p H1) as (h' & fl' & E' & H' & L' & B' & R' & T' & N').
    { rewrite W1. destruct (eqw_spec w (w ++ [c])) as [e|_]; [apply (f_equal (@length Z)) in e; rewrite app_length in e; cbn in e; lia|easy]. }
    { easy. } { lia. }
    { intros q. rewrite O1. destruct (eqw_spec (q ++ [256]) (w ++ [c])) as [e|_]; [apply app_inj_tail in e as [_ e]; congruence|apply T]. }
    { intros u d Hd. rewrite O1. destruct (eqw_spec (u ++ [d]) (w ++ [c])) as [e|e].
      - rewrite e, Np. cbn [orb]. destruct (prefix_spec (w ++ [c]) w) as [[t e']|_]; [|easy]. apply (f_equal (@length Z)) in e'. rewrite !app_length in e'. cbn in e'. lia.
      - rewrite N by easy. rewrite prefix_snoc. destruct (eqw_spec (u ++ [d]) (w ++ [c])); [easy|]. easy. }
    exists h', fl'. split; [easy|]. split; [easy|]. split; [lia|]. split; [lia|]. split; [|easy].
    rewrite R', O1. destruct (eqw_spec [] (w ++ [c])) as [e|_]; [now destruct w|easy].
Qed.

Lemma st_rep_clear : StRep th_clear [] [].
Proof.
  constructor; try easy.
  - apply clear_HI.
  - constructor; [constructor|easy].
  - intros k. rewrite clear_obs. now destruct k.
  - intros u c _. rewrite clear_obs. now destruct u.
Qed.

Lemma st_erase_ok h fl M k : StRep h fl M -> Forall byte k ->
  exists h' fl', st_erase h k = Some h' /\ StRep h' fl' (del k M) /\ limit h' <= limit h.
Proof.
  intros R Fk. pose proof (sr_hi _ _ _ R) as H. pose proof (hi_fl _ _ H) as F. pose proof (fl_lim _ _ F) as Lm. unfold st_erase.
  destruct (st_find_ok h fl M k R Fk) as (idx & E & X). rewrite E. unfold st_erase_at.
  destruct (get M k) as [v|] eqn:G.
  2: { subst idx. change (0 <=? 0) with true. rewrite (proj2 (Z.ltb_lt 0 (limit h))) by lia. cbn [andb]. change (0 <=? 1) with true. exists h, fl.
       split; [easy|]. split; [|lia]. now rewrite (del_absent M k G). }
  destruct X as [W I2]. pose proof (walk_alloc _ _ H _ _ W) as Ai. pose proof (alloc_inb _ _ _ F Ai) as Ii. unfold inb in Ii.
  rewrite (proj2 (Z.leb_le 0 idx)), (proj2 (Z.ltb_lt idx (limit h))) by lia. cbn [andb]. destruct (Z.leb_spec idx 1); [lia|].
  rewrite (has_null_ok h fl) by easy. rewrite (st_get_walk h fl M k idx R W), G. cbn [negb].
  destruct (st_value_ok h fl M k v idx R G W) as (t & Et & T & Bt & NS).
  rewrite g_base_ok by (unfold inb; lia). cbn zeta. unfold null_value.
  assert (St : step h idx 256 = Some t) by (rewrite walk_snoc, W in T; easy). apply step_some in St as St'. destruct St' as (_ & S2 & S3 & S4). rewrite <- S3.
  destruct (step_alloc h fl idx 256 t H Ai St) as [At _]. rewrite g_check_ok by (eapply alloc_inb; eauto). rewrite S4, Z.eqb_refl.
  destruct (free_obs h fl (k ++ [256]) t H T) as (h1 & b & fl1 & E1 & H1 & L1 & B1 & W1 & O1 & _); [now destruct k|easy|]. rewrite E1.
  assert (Wm' : Wf (del k M)) by (apply wf_del, R).
  assert (W1k : walk h1 k = Some idx). { rewrite W1. destruct (eqw_spec k (k ++ [256])) as [e|_]; [apply (f_equal (@length Z)) in e; rewrite app_length in e; cbn in e; lia|easy]. }
  destruct (st_prune_ok (del k M) Wm' k (S (length h)) h1 fl1 idx H1 W1k Fk) as (h2 & fl2 & E2 & H2 & L2 & B2 & R2 & T2 & N2).
  { pose proof (walk_short h fl k idx H W) as Sh. rewrite limit_length in Sh. lia. }
  { intros q. rewrite O1, get_del. destruct (eqw_spec q k) as [-> |Nq]; [now rewrite eqw_refl|].
    destruct (eqw_spec (q ++ [256]) (k ++ [256])) as [e|_]; [apply app_inj_tail in e as [e _]; easy|]. apply (sr_term _ _ _ R). }
  { intros u c Hc. rewrite O1. destruct (eqw_spec (u ++ [c]) (k ++ [256])) as [e|_]; [apply app_inj_tail in e as [_ e]; easy|].
    rewrite (sr_node _ _ _ R) by easy. rewrite (pre_del M k) by apply R. now rewrite G. }
  rewrite E2. destruct (size_obs h2 fl2 (-1) H2) as (h3 & E3 & H3 & L3 & B3 & _ & _ & _ & W3 & O3). rewrite E3.
  unfold t_size. rewrite g_base_ok by (unfold inb; lia).
  pose proof (del_length M k v (wf_nodup _ (sr_wf _ _ _ R)) G) as Ln. pose proof (sr_size _ _ _ R) as Sz.
  assert (B3' : Bs h3 0 = Z.of_nat (length (del k M))) by lia. rewrite B3'.
  destruct (Z.eqb_spec (Z.of_nat (length (del k M))) 0) as [e|e].
  - destruct (del k M); [|cbn in e; lia]. exists th_clear, []. split; [easy|]. split; [apply st_rep_clear|]. change (limit th_clear) with 2. lia.
  - exists h3, fl2. split; [easy|]. split; [|lia]. constructor; auto.
    + rewrite O3, R2, O1. destruct (eqw_spec [] (k ++ [256])) as [e'|_]; [now destruct k|].
      rewrite (sr_root _ _ _ R). destruct (del k M) as [|[q x] D] eqn:Ed; [easy|]. assert (X : pre M [] = true).
      { apply pre_iff. exists k, v. split; [now apply get_in|easy]. }
      rewrite X. easy.
    + intros q. now rewrite O3.
    + intros u c Hc. now rewrite O3, N2.
Qed.

(** ** Writing through operator[] *)
Lemma pre_upd M k v u : Wf M -> get M k <> None -> pre (upd k v M) u = pre M u.
Proof.
  intros Wm G. rewrite (pre_del M k u Wm). unfold upd, pre at 1. cbn [existsb fst]. fold (pre (del k M) u). destruct (get M k); [apply orb_comm|easy].
Qed.
Lemma get_upd M k v q : get (upd k v M) q = if eqw k q then Some v else get M q.
Proof. unfold upd. cbn [get]. destruct (eqw_spec k q) as [|N]; [easy|]. rewrite get_del. destruct (eqw_spec q k); [congruence|easy]. Qed.
Lemma wf_upd M k v : Wf M -> k <> [] -> Forall byte k -> 0 <= v <= 2147483647 -> Wf (upd k v M).
Proof. intros Wm N Fk V. apply wf_cons; auto; [now apply wf_del|]. now rewrite get_del, eqw_refl. Qed.

Lemma st_set_node h fl M k v v0 idx : StRep h fl M -> Forall byte k -> get M k = Some v0 -> walk h k = Some idx -> 0 <= v <= 2147483647 ->
  exists t h', st_value_index h idx = Some t /\ proxy_set h t v = Some h' /\ StRep h' fl (upd k v M) /\ limit h' = limit h.
Proof.
  intros R Fk G W Hv. pose proof (sr_hi _ _ _ R) as H. destruct (st_value_ok h fl M k v0 idx R G W) as (t & Et & T & B & NS).
  exists t, (setB h t (- v)). split; [easy|]. unfold proxy_set. destruct (Z.ltb_spec v 0); [lia|].
  destruct (setB_obs h fl _ _ (- v) H T NS) as (E3 & H3 & W3 & O3); [lia|]. split; [easy|]. split; [|apply limit_setB].
  assert (Nk : k <> []) by (apply get_in, (wf_key _ (sr_wf _ _ _ R)) in G; tauto).
  assert (Gn : get M k <> None) by congruence. pose proof (walk_alloc _ _ H _ _ T) as At. pose proof (alloc_inb _ _ _ (hi_fl _ _ H) At) as It. pose proof (alloc_ge _ _ _ At).
  constructor.
  - easy.
  - now apply wf_upd; [apply R| | |].
  - rewrite Bs_setB by easy. destruct (Z.eqb_spec 0 t); [lia|]. rewrite (sr_size _ _ _ R). unfold upd. cbn [length]. f_equal. eapply del_length; [apply R|eauto].
  - rewrite O3. destruct (eqw_spec [] (k ++ [256])) as [e|_]; [now destruct k|]. rewrite (pre_upd M k v) by (easy || apply R). apply R.
  - intros q. rewrite O3, get_upd. destruct (eqw_spec (q ++ [256]) (k ++ [256])) as [e|e].
    + apply app_inj_tail in e as [-> _]. now rewrite eqw_refl.
    + destruct (eqw_spec k q) as [-> |]; [easy|]. apply R.
  - intros u c Hc. rewrite O3. destruct (eqw_spec (u ++ [c]) (k ++ [256])) as [e|_]; [apply app_inj_tail in e as [_ e]; easy|].
    rewrite (pre_upd M k v) by (easy || apply R). now apply R.
Qed.

Lemma upd_cons M k v0 v : get M k = None -> upd k v ((k, v0) :: M) = upd k v M.
Proof. intros G. unfold upd. rewrite del_cons, eqw_refl. easy. Qed.

Lemma st_set_ok h fl M k v : StRep h fl M -> Forall byte k -> k <> [] -> 0 <= v <= 2147483647 ->
  exists h' fl', st_set h k v = Some h' /\ StRep h' fl' (upd k v M) /\ limit h' <= limit h + 257 * (Z.of_nat (length k) + 1).
Proof.
  intros R Fk Nk Hv. unfold st_set. destruct (st_find_ok h fl M k R Fk) as (idx & E & X). rewrite E. destruct (get M k) as [v0|] eqn:G.
  - destruct X as [W I2]. destruct (Z.eqb_spec idx 0); [lia|]. destruct (st_set_node h fl M k v v0 idx R Fk G W Hv) as (t & h' & E1 & E2 & R' & L').
    rewrite E1. exists h', fl. split; [easy|]. split; [easy|lia].
  - subst idx. change (0 =? 0) with true. destruct (st_insert_ok h fl M k 0 R Fk) as (h1 & fl1 & idx & E1 & R1 & L1 & _ & W1); [lia|]. rewrite E1.
    destruct (W1 Nk) as [W I2]. assert (Ei : ins k 0 M = (k, 0) :: M) by (unfold ins; destruct k; [easy|]; now rewrite G). rewrite Ei in R1.
    destruct (st_set_node h1 fl1 ((k, 0) :: M) k v 0 idx R1 Fk) as (t & h' & E2 & E3 & R' & L'); auto; [cbn; now rewrite eqw_refl|].
    rewrite E2. exists h', fl1. split; [easy|]. split; [now rewrite upd_cons in R'|lia].
Qed.
