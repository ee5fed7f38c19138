(** The plain trie: searching, erasing, writing. *)
From Coq Require Import ZArith List Bool Lia Sorting.Sorted.
From Verif Require Import M_trie L_trie L_trie2 L_trie3 L_trie4 L_trie5 L_trie6.
Import ListNotations.
Open Scope Z_scope.
Local Arguments Z.opp : simpl never.
Local Arguments Z.add : simpl never.
Local Arguments Z.sub : simpl never.

Lemma len_snoc (w : list Z) c : w <> w ++ [c].
Proof. intros e. apply (f_equal (@length Z)) in e. rewrite app_length in e. cbn in e. lia. Qed.

Lemma root_tail h fl M : PRep h fl M -> is_tail h 1 = Some false.
Proof.
  intros R. pose proof (pt_hi _ _ _ R) as H. pose proof (hi_fl _ _ H) as F. pose proof (fl_lim _ _ F) as Lm. unfold is_tail.
  change (1 <=? 1) with true. rewrite (proj2 (Z.ltb_lt 1 (limit h))) by lia. cbn [andb]. rewrite g_base_ok by (unfold inb; lia).
  change (1 =? 1) with true. cbn [negb]. rewrite andb_false_r. unfold null_value. destruct (Z.leb_spec 1 (Bs h 1)) as [Hb|Hb]; cbn [andb]; [|easy].
  destruct (Z.ltb_spec (Bs h 1 + 256) (limit h)); [|easy]. rewrite g_check_ok by (unfold inb; lia). f_equal.
  destruct (Z.eqb_spec (Ks h (Bs h 1 + 256)) 1) as [e|]; [|easy]. exfalso.
  assert (S : step h 1 256 = Some (Bs h 1 + 256)) by (apply step_some; repeat split; lia || easy).
  pose proof (pt_null h fl M [] 1 R eq_refl) as X. rewrite S in X. unfold has in X. rewrite (get_nil _ (pt_wf _ _ _ R)), andb_false_r in X. easy.
Qed.

Lemma tb_tail_ok h fl M k idx : PRep h fl M -> Forall byte k -> walk h k = Some idx -> is_tail h idx = Some (has M k).
Proof.
  intros R Fk W. pose proof (pt_hi _ _ _ R) as H. pose proof (walk_alloc _ _ H _ _ W) as Ai. destruct k as [|k0 k1].
  - injection W as <-. rewrite (root_tail h fl M R). unfold has. now rewrite (get_nil _ (pt_wf _ _ _ R)).
  - remember (k0 :: k1) as k. assert (Nk : k <> []) by now subst. assert (idx <> 1) by (intros ->; apply Nk; eapply walk_inj; [exact H|exact W|easy]).
    rewrite (is_tail_ok h fl) by easy. rewrite (pt_null h fl M k idx R W). f_equal. destruct (ext M k) eqn:X; cbn [andb].
    + destruct (Z.leb_spec (Bs h idx) 0) as [B|B]; [|easy]. exfalso. apply (pt_child h fl M k idx R W) in X as (l & q & _ & S). apply step_some in S. lia.
    + destruct (pt_leaf h fl M k idx R Fk Nk W X) as (v & G & B & V). unfold has. rewrite G. rewrite (proj2 (Z.leb_le _ 0)) by lia. easy.
Qed.
Lemma pt_nowalk h fl M k : PRep h fl M -> Forall byte k -> walk h k = None -> has M k = false.
Proof.
  intros R Fk W. destruct k as [|k0 k1]; [easy|]. apply (pt_walk h fl M _ R Fk) in W; [|easy]. rewrite (pre_ext _ _ (pt_wf _ _ _ R)) in W. now apply orb_false_iff in W.
Qed.
Lemma tb_contains_ok h fl M k : PRep h fl M -> Forall byte k -> tb_contains h k = Some (has M k).
Proof.
  intros R Fk. pose proof (pt_hi _ _ _ R) as H. unfold tb_contains. destruct (lookup_walk h fl k H (byte_label _ Fk)) as (q & rest & E & R1 & R2). rewrite E. destruct rest as [|c r].
  - now apply (tb_tail_ok h fl M k q R Fk), R2.
  - assert (walk h k = None) by (destruct (walk h k); [exfalso; assert (c :: r = []) by (apply R1; easy); easy|easy]). now rewrite (pt_nowalk h fl M k R Fk).
Qed.
Lemma tb_find_ok h fl M k : PRep h fl M -> Forall byte k ->
  exists idx, tb_find h k = Some idx /\
    (match get M k with Some _ => walk h k = Some idx /\ 2 <= idx | None => idx = 0 end).
Proof.
  intros R Fk. pose proof (pt_hi _ _ _ R) as H. unfold tb_find. destruct (lookup_walk h fl k H (byte_label _ Fk)) as (q & rest & E & R1 & R2). rewrite E. destruct rest as [|c r].
  - specialize (R2 eq_refl). rewrite (tb_tail_ok h fl M k q R Fk R2). unfold has. destruct (get M k) as [v|] eqn:G; [|exists 0; easy]. exists q. split; [easy|]. split; [easy|].
    pose proof (walk_alloc _ _ H _ _ R2) as Aq. destruct Aq as [-> |Aq]; [|lia]. exfalso. assert (k = []) by (eapply walk_inj; [exact H|exact R2|easy]). subst k. rewrite (get_nil _ (pt_wf _ _ _ R)) in G. easy.
  - exists 0. split; [easy|]. assert (walk h k = None) by (destruct (walk h k); [exfalso; assert (c :: r = []) by (apply R1; easy); easy|easy]).
    assert (X := pt_nowalk h fl M k R Fk H0). unfold has in X. now destruct (get M k).
Qed.
(** The node of the value *)
Lemma tb_value_ok h fl M k v idx : PRep h fl M -> Forall byte k -> get M k = Some v -> walk h k = Some idx ->
  exists t, tb_value_index h idx = Some t /\ walk h (if ext M k then k ++ [256] else k) = Some t /\ Bs h t = - v /\ (forall l, step h t l = None).
Proof.
  intros R Fk G W. pose proof (pt_hi _ _ _ R) as H. pose proof (hi_fl _ _ H) as F. pose proof (walk_alloc _ _ H _ _ W) as Ai.
  assert (Nk : k <> []) by (intros ->; rewrite (get_nil _ (pt_wf _ _ _ R)) in G; easy). unfold tb_value_index. rewrite g_base_ok by (eapply alloc_inb; eauto).
  destruct (ext M k) eqn:X.
  - assert (Hb : 1 <= Bs h idx) by (apply (pt_child h fl M k idx R W) in X as (l & q & _ & S); apply step_some in S; tauto).
    destruct (Z.leb_spec (Bs h idx) 0); [lia|]. assert (Y := pt_null h fl M k idx R W). unfold has in Y. rewrite X, G in Y. cbn in Y.
    destruct (step h idx 256) as [t|] eqn:S; [|easy]. exists t. apply step_some in S as S'. destruct S' as (_ & _ & -> & _).
    split; [easy|]. assert (T : walk h (k ++ [256]) = Some (Bs h idx + 256)) by (rewrite walk_snoc, W; easy). split; [easy|].
    assert (O := pt_term _ _ _ R k). rewrite X, G, (obs_bs _ _ _ T) in O. cbn in O. injection O as O. apply get_in, (wf_key _ (pt_wf _ _ _ R)) in G.
    split; [lia|]. intros l. destruct (step h (Bs h idx + 256) l) eqn:S2; [|easy]. apply step_some in S2. lia.
  - destruct (pt_leaf h fl M k idx R Fk Nk W X) as (v' & G' & B & V). assert (v' = v) by congruence. subst v'. rewrite (proj2 (Z.leb_le _ 0)) by lia.
    exists idx. split; [easy|]. split; [easy|]. split; [easy|]. intros l. destruct (step h idx l) eqn:S2; [|easy]. apply step_some in S2. lia.
Qed.
Lemma tb_get_ok h fl M k : PRep h fl M -> Forall byte k -> tb_get h k = Some (get M k).
Proof.
  intros R Fk. pose proof (pt_hi _ _ _ R) as H. unfold tb_get. destruct (tb_find_ok h fl M k R Fk) as (idx & E & X). rewrite E.
  destruct (get M k) as [v|] eqn:G; [|subst idx; easy]. destruct X as [W I2]. destruct (Z.eqb_spec idx 0); [lia|].
  destruct (tb_value_ok h fl M k v idx R Fk G W) as (t & Et & T & B & _). rewrite Et. unfold proxy_get.
  pose proof (walk_alloc _ _ H _ _ T) as At. rewrite g_base_ok by (eapply alloc_inb; [apply H|easy]). rewrite B.
  apply get_in, (wf_key _ (pt_wf _ _ _ R)) in G. rewrite (proj2 (Z.leb_le (- v) 0)) by lia. do 2 f_equal. lia.
Qed.

(** ** operator[] *)
Lemma ext_del M k w : Wf M -> ext M w = ext (del k M) w || (has M k && is_prefix w k && negb (eqw k w)).
Proof.
  intros Wm. apply eq_true_iff_eq. rewrite orb_true_iff, !ext_iff. split.
  - intros (q & v & A & B & C). destruct (eqw_spec q k) as [-> |N].
    + right. unfold has. rewrite (in_get M k v (wf_nodup _ Wm) A), B. destruct (eqw_spec k w); easy.
    + left. exists q, v. split; [now apply del_in|easy].
  - intros [(q & v & A & B & C)|X]; [exists q, v; split; [now apply del_in in A|easy]|]. apply andb_true_iff in X as [X C]. apply andb_true_iff in X as [X B].
    apply has_get in X as [v G]. exists k, v. split; [now apply get_in|]. split; [easy|]. destruct (eqw_spec k w); easy.
Qed.
Lemma ext_upd M k v w : Wf M -> has M k = true -> ext (upd k v M) w = ext M w.
Proof. intros Wm G. unfold upd. rewrite ext_cons, (ext_del M k w Wm), G. easy. Qed.

Lemma tb_set_node h fl M k v v0 idx : PRep h fl M -> Forall byte k -> get M k = Some v0 -> walk h k = Some idx -> 0 <= v <= 2147483647 ->
  exists t h', tb_value_index h idx = Some t /\ proxy_set h t v = Some h' /\ PRep h' fl (upd k v M) /\ limit h' = limit h.
Proof.
  intros R Fk G W Hv. pose proof (pt_hi _ _ _ R) as H. pose proof (pt_wf _ _ _ R) as Wm. destruct (tb_value_ok h fl M k v0 idx R Fk G W) as (t & Et & T & B & NS).
  exists t, (setB h t (- v)). split; [easy|]. unfold proxy_set. destruct (Z.ltb_spec v 0); [lia|].
  destruct (setB_obs h fl _ _ (- v) H T NS) as (E3 & H3 & W3 & O3); [lia|]. split; [easy|]. split; [|apply limit_setB].
  assert (Nk : k <> []) by (apply get_in, (wf_key _ Wm) in G; tauto).
  assert (Gh : has M k = true) by (apply has_get; eauto). pose proof (walk_alloc _ _ H _ _ T) as At. pose proof (alloc_inb _ _ _ (hi_fl _ _ H) At) as It. pose proof (alloc_ge _ _ _ At).
  constructor.
  - easy.
  - now apply wf_upd.
  - rewrite Bs_setB by easy. destruct (Z.eqb_spec 0 t); [lia|]. rewrite (pt_size _ _ _ R). unfold upd. cbn [length]. f_equal. eapply del_length; [apply Wm|eauto].
  - rewrite O3. rewrite (pre_upd M k v) by (easy || congruence). rewrite <- (pt_root _ _ _ R). destruct (eqw_spec [] (if ext M k then k ++ [256] else k)) as [e|_]; [|easy].
    destruct (ext M k); [now destruct k|congruence].
  - intros w. rewrite O3, get_upd, (ext_upd M k v w Wm Gh). destruct (eqw_spec k w) as [<-|Nw].
    + destruct (ext M k) eqn:X; [now rewrite eqw_refl|]. destruct (eqw_spec (k ++ [256]) k) as [e|_]; [symmetry in e; now apply len_snoc in e|].
      rewrite (pt_term _ _ _ R), X. easy.
    + destruct (eqw_spec (w ++ [256]) (if ext M k then k ++ [256] else k)) as [e|_]; [|apply R]. exfalso. destruct (ext M k); [apply app_inj_tail in e as [e _]; congruence|].
      rewrite <- e in Fk. apply Forall_app in Fk as [_ Fk]. inversion Fk. unfold byte in *. lia.
  - intros u c Hc. rewrite O3, get_upd, (ext_upd M k v _ Wm Gh). rewrite (pt_node _ _ _ R) by easy. destruct (eqw_spec k (u ++ [c])) as [e|Nw].
    + rewrite <- e. destruct (ext M k) eqn:X; [|now rewrite eqw_refl]. destruct (eqw_spec k (k ++ [256])) as [e'|_]; [now apply len_snoc in e'|easy].
    + destruct (eqw_spec (u ++ [c]) (if ext M k then k ++ [256] else k)) as [e|_]; [|easy]. exfalso. destruct (ext M k); [apply app_inj_tail in e as [_ e]; congruence|congruence].
Qed.
Lemma tb_set_ok h fl M k v : PRep h fl M -> Forall byte k -> k <> [] -> 0 <= v <= 2147483647 ->
  exists h' fl', tb_set h k v = Some h' /\ PRep h' fl' (upd k v M) /\ limit h' <= limit h + 257 * (Z.of_nat (length k) + 1).
Proof.
  intros R Fk Nk Hv. unfold tb_set. destruct (tb_find_ok h fl M k R Fk) as (idx & E & X). rewrite E. destruct (get M k) as [v0|] eqn:G.
  - destruct X as [W I2]. destruct (Z.eqb_spec idx 0); [lia|]. destruct (tb_set_node h fl M k v v0 idx R Fk G W Hv) as (t & h' & E1 & E2 & R' & L').
    rewrite E1. exists h', fl. split; [easy|]. split; [easy|lia].
  - subst idx. change (0 =? 0) with true. destruct (tb_insert_ok h fl M k 0 R Fk) as (h1 & fl1 & idx & E1 & R1 & L1 & _ & W1); [lia|]. rewrite E1.
    destruct (W1 Nk) as [W I2]. assert (Ei : ins k 0 M = (k, 0) :: M) by (unfold ins; destruct k; [easy|]; now rewrite G). rewrite Ei in R1.
    destruct (tb_set_node h1 fl1 ((k, 0) :: M) k v 0 idx R1 Fk) as (t & h' & E2 & E3 & R' & L'); auto; [cbn; now rewrite eqw_refl|].
    rewrite E2. exists h', fl1. split; [easy|]. split; [now rewrite upd_cons in R'|lia].
Qed.

(** ** erase: the map left behind.  A key that is a proper prefix of the erased key and of no other key gets the value 0. *)
Definition reset (k : list Z) (M : fmap) : fmap :=
  map (fun e => if is_prefix (fst e) k && negb (ext (del k M) (fst e)) then (fst e, 0) else e) (del k M).

Lemma map_keys (f : list Z * Z -> list Z * Z) (M : fmap) : (forall e, fst (f e) = fst e) -> map fst (map f M) = map fst M.
Proof. intros H. rewrite map_map. apply map_ext. easy. Qed.
Lemma reset_fst k M e : fst (if is_prefix (fst e) k && negb (ext (del k M) (fst e)) then (fst e, 0) else e) = fst e.
Proof. now destruct (_ && _). Qed.
Lemma reset_keys k M : map fst (reset k M) = map fst (del k M). Proof. apply map_keys. intros. apply reset_fst. Qed.
Lemma ext_keys M N w : map fst M = map fst N -> ext M w = ext N w.
Proof. revert N. induction M as [|[k v] M IH]; intros [|[k' v'] N] E; try easy. injection E as -> E. unfold ext. cbn [existsb fst]. f_equal. now apply IH. Qed.
Lemma pre_keys M N w : map fst M = map fst N -> pre M w = pre N w.
Proof. revert N. induction M as [|[k v] M IH]; intros [|[k' v'] N] E; try easy. injection E as -> E. unfold pre. cbn [existsb fst]. f_equal. now apply IH. Qed.
Lemma get_map (f : list Z * Z -> list Z * Z) (M : fmap) q : (forall e, fst (f e) = fst e) -> get (map f M) q = option_map (fun v => snd (f (q, v))) (get M q).
Proof.
  intros H. induction M as [|[k v] M IH]; cbn [map get]; [easy|]. destruct (f (k, v)) as [k' v'] eqn:E. assert (k' = k) by (specialize (H (k, v)); rewrite E in H; easy). subst k'.
  destruct (eqw_spec k q) as [-> |]; [cbn; now rewrite E|easy].
Qed.
Lemma get_reset k M q : get (reset k M) q = option_map (fun v => if is_prefix q k && negb (ext (del k M) q) then 0 else v) (get (del k M) q).
Proof. unfold reset. rewrite get_map by (intros; apply reset_fst). destruct (get (del k M) q); [|easy]. cbn [option_map fst]. f_equal. now destruct (_ && _). Qed.
Lemma wf_reset k M : Wf M -> Wf (reset k M).
Proof.
  intros Wm. pose proof (wf_del k M Wm) as Wd. constructor; [rewrite reset_keys; apply Wd|]. intros q v I. unfold reset in I. apply in_map_iff in I as ([q' v'] & E & I).
  apply (wf_key _ Wd) in I. cbn [fst] in E. destruct (_ && _); injection E as <- <-; [split; [easy|]; split; [easy|lia]|easy].
Qed.
Lemma reset_len k M : length (reset k M) = length (del k M). Proof. apply map_length. Qed.

Record PInv (h : heap) (D : fmap) (k w : list Z) : Prop := {
  pi_pk : is_prefix w k = true;
  pi_ext : ext D w = false;
  pi_above : forall q, is_prefix w q = true -> q <> w -> is_prefix q k = true -> get D q = None;
  pi_child : forall l, l <> 256 -> obs h (w ++ [l]) = None;
  pi_null : forall q, is_prefix q w = true -> obs h (q ++ [256]) = option_map Z.opp (get D q);
  pi_term : forall q, is_prefix q w = false -> obs h (q ++ [256]) = if ext D q then option_map Z.opp (get D q) else None;
  pi_node : forall u c, c <> 256 -> is_prefix (u ++ [c]) w = false ->
    obs h (u ++ [c]) = if ext D (u ++ [c]) then Some 1 else option_map Z.opp (get D (u ++ [c]))
}.

Lemma tb_prune_ok M k : Wf M -> Forall byte k -> has M k = true -> let D := del k M in let M' := reset k M in
  forall w fuel h fl idx, HI h fl -> walk h w = Some idx -> (length w < fuel)%nat -> PInv h D k w ->
  exists h' fl', tb_prune fuel h idx = Some h' /\ HI h' fl' /\ limit h' = limit h /\ Bs h' 0 = Bs h 0 /\
    (D <> [] -> obs h' [] = Some 1 /\
      (forall q, obs h' (q ++ [256]) = if ext M' q then option_map Z.opp (get M' q) else None) /\
      (forall u c, c <> 256 -> obs h' (u ++ [c]) = if ext M' (u ++ [c]) then Some 1 else option_map Z.opp (get M' (u ++ [c])))).
Proof.
  intros Wm Fk Gk D M' w. assert (Wd : Wf D) by now apply wf_del.
  assert (XM : forall q, ext M' q = ext D q) by (intros; apply ext_keys, reset_keys).
  assert (GM : forall q, get M' q = option_map (fun v => if is_prefix q k && negb (ext D q) then 0 else v) (get D q)) by (intros; apply get_reset).
  assert (GMx : forall q, ext D q = true -> get M' q = get D q) by (intros q X; rewrite GM, X, andb_false_r; destruct (get D q); easy).
  assert (GMp : forall q, is_prefix q k = false -> get M' q = get D q) by (intros q X; rewrite GM, X; destruct (get D q); easy).
  assert (GMn : forall q, get D q = None -> get M' q = None) by (intros q X; rewrite GM, X; easy).
  induction w as [|c w IH] using rev_ind; intros fuel h fl idx H W Hf I; (destruct fuel as [|f]; [lia|]); cbn [tb_prune].
  - (* the root *)
    injection W as <-. assert (A1 : alloc h fl 1) by now left. pose proof (hi_fl _ _ H) as F. pose proof (fl_lim _ _ F) as Lm.
    assert (De : D = []). { destruct D as [|[q v] D'] eqn:Ed; [easy|]. exfalso. assert (X : ext D [] = true); [|rewrite Ed in X; rewrite (pi_ext _ _ _ _ I) in X; easy].
      rewrite Ed. apply ext_iff. exists q, v. split; [now left|]. split; [easy|]. apply (wf_key _ Wd q v). now left. }
    rewrite (has_null_ok h fl) by easy. assert (S : step h 1 256 = None). { apply (obs_step h [] 1 256 eq_refl). rewrite (pi_null _ _ _ _ I) by easy. now rewrite De. }
    rewrite S. unfold has_sibling. change (0 <=? 1) with true. rewrite (proj2 (Z.ltb_lt 1 (limit h))) by lia. cbn [andb]. change (1 <=? 1) with true. cbn match.
    rewrite g_check_ok by (unfold inb; lia). rewrite (hi_root _ _ H). change (0 <=? 0) with true. rewrite (proj2 (Z.ltb_lt 0 (limit h))) by lia. cbn [andb]. change (1 =? 1) with true. cbn [negb].
    change (0 =? 0) with true. exists h, fl. repeat (split; [easy|]). intros X. congruence.
  - pose proof (walk_alloc _ _ H _ _ W) as Ai. pose proof (hi_fl _ _ H) as F. assert (Hi1 : idx <> 1).
    { intros ->. assert (w ++ [c] = []) by (eapply walk_inj; [exact H|exact W|easy]). now destruct w. }
    assert (Ii : inb h idx) by (eapply alloc_inb; eauto). assert (Fw : Forall byte (w ++ [c])).
    { pose proof (pi_pk _ _ _ _ I) as P. apply prefix_iff in P as [t P]. rewrite P in Fk. now apply Forall_app in Fk. }
    assert (Hc : byte c) by (apply Forall_app in Fw as [_ Fw]; now inversion Fw). assert (Hc' : c <> 256) by (unfold byte in Hc; lia).
    pose proof (pi_ext _ _ _ _ I) as Xw. pose proof (pi_pk _ _ _ _ I) as Pk.
    assert (Above : forall q, is_prefix q (w ++ [c]) = false -> is_prefix q k = true -> get D q = None).
    { intros q Q1 Q2. destruct (prefix_total (w ++ [c]) q k Pk Q2) as [X|X]; [|congruence]. apply (pi_above _ _ _ _ I); auto. intros ->. rewrite prefix_refl in Q1. easy. }
    assert (GMa : forall q, is_prefix q (w ++ [c]) = false -> get M' q = get D q).
    { intros q Q. destruct (is_prefix q k) eqn:Q2; [rewrite (GMn q (Above q Q Q2)); now rewrite (Above q Q Q2)|now apply GMp]. }
    rewrite (has_null_ok h fl) by easy. destruct (step h idx 256) as [t|] eqn:S256.
    + (* the value of a shorter key *)
      assert (T : walk h ((w ++ [c]) ++ [256]) = Some t) by (rewrite walk_snoc, W; easy).
      assert (Ot := pi_null _ _ _ _ I (w ++ [c]) (prefix_refl _)). rewrite (obs_bs _ _ _ T) in Ot. destruct (get D (w ++ [c])) as [x|] eqn:Gw; [|easy]. cbn in Ot. injection Ot as Ot.
      assert (Vx : 0 <= x <= 2147483647) by (apply get_in, (wf_key _ Wd) in Gw; tauto).
      assert (NSt : forall l, step h t l = None) by (intros l; destruct (step h t l) eqn:S; [apply step_some in S; lia|easy]).
      rewrite g_base_ok by easy. cbn zeta. unfold null_value. apply step_some in S256 as S'. destruct S' as (_ & S2 & S3 & S4). rewrite <- S3.
      rewrite g_check_ok by (eapply alloc_inb; [exact F|eapply walk_alloc; eauto]). rewrite S4, Z.eqb_refl.
      destruct (free_obs h fl _ t H T) as (h1 & b & fl1 & E1 & H1 & L1 & B1 & W1 & O1 & Bo1); [now destruct w|easy|]. rewrite E1.
      assert (W1w : walk h1 (w ++ [c]) = Some idx). { rewrite W1. destruct (eqw_spec (w ++ [c]) ((w ++ [c]) ++ [256])) as [e|_]; [now apply len_snoc in e|easy]. }
      pose proof (walk_alloc _ _ H1 _ _ W1w) as Ai1.
      assert (NS1 : forall l, step h1 idx l = None).
      { apply no_steps.
        - apply (obs_step h1 _ idx 256 W1w). rewrite O1. now rewrite eqw_refl.
        - intros (l & q & L & S). assert (X : obs h1 ((w ++ [c]) ++ [l]) = None); [|apply (obs_step h1 _ idx l W1w) in X; congruence].
          rewrite O1. destruct (eqw _ _); [easy|]. apply (pi_child _ _ _ _ I). lia. }
      destruct (has_child_ok h1 fl1 idx H1 Ai1) as (r & E & Hr). rewrite E. destruct r.
      { exfalso. destruct (proj1 Hr eq_refl) as (l & q & L & S). rewrite NS1 in S. easy. }
      destruct (setB_obs h1 fl1 _ _ 0 H1 W1w NS1) as (E3 & H3 & W3 & O3); [lia|]. rewrite E3. set (h3 := setB h1 idx 0) in *.
      assert (O : forall v, obs h3 v = if eqw v (w ++ [c]) then Some 0 else if eqw v ((w ++ [c]) ++ [256]) then None else obs h v) by (intros v; rewrite O3; destruct (eqw_spec v (w ++ [c])); [easy|apply O1]).
      assert (Xp : forall v, is_prefix v (w ++ [c]) = true -> v <> w ++ [c] -> ext D v = true).
      { intros v P Nv. apply (ext_proper D v (w ++ [c]) P Nv). now apply pre_get in Gw. }
      exists h3, fl1. split; [easy|]. split; [easy|]. split; [unfold h3; rewrite limit_setB; lia|]. split.
      { unfold h3. rewrite Bs_setB; [|eapply alloc_inb; [apply H1|easy]]. destruct (Z.eqb_spec 0 idx) as [e|_]; [apply alloc_ge in Ai; lia|easy]. }
      intros _. split; [|split].
      * rewrite O. destruct (eqw_spec [] (w ++ [c])) as [e|_]; [now destruct w|]. destruct (eqw_spec [] ((w ++ [c]) ++ [256])) as [e|_]; [now destruct w|].
        apply (obs_proper h fl [] (w ++ [c]) idx H W eq_refl). now destruct w.
      * intros q. rewrite O, XM. destruct (eqw_spec (q ++ [256]) (w ++ [c])) as [e|_]; [apply app_inj_tail in e as [_ e]; congruence|].
        destruct (eqw_spec (q ++ [256]) ((w ++ [c]) ++ [256])) as [e|Nq]; [apply app_inj_tail in e as [-> _]; now rewrite Xw|].
        assert (Nq' : q <> w ++ [c]) by congruence. destruct (is_prefix q (w ++ [c])) eqn:P.
        -- rewrite (pi_null _ _ _ _ I) by easy. rewrite (Xp q P Nq'), (GMx q (Xp q P Nq')). easy.
        -- rewrite (pi_term _ _ _ _ I) by easy. rewrite (GMa q P). easy.
      * intros u d Hd. rewrite O, XM. destruct (eqw_spec (u ++ [d]) (w ++ [c])) as [e|Nu].
        { rewrite e, Xw, GM, Gw, Xw, Pk. easy. }
        destruct (eqw_spec (u ++ [d]) ((w ++ [c]) ++ [256])) as [e|_]; [apply app_inj_tail in e as [_ e]; easy|].
        destruct (is_prefix (u ++ [d]) (w ++ [c])) eqn:P.
        -- rewrite (Xp _ P Nu). exact (obs_proper h fl _ (w ++ [c]) idx H W P Nu).
        -- rewrite (pi_node _ _ _ _ I) by easy. now rewrite (GMa _ P).
    + (* no value here: the node goes *)
      assert (Gw : get D (w ++ [c]) = None).
      { assert (X := pi_null _ _ _ _ I (w ++ [c]) (prefix_refl _)). apply (obs_step h _ idx 256 W) in S256. rewrite S256 in X. destruct (get D (w ++ [c])); easy. }
      assert (NS : forall l, step h idx l = None).
      { apply no_steps; [easy|]. intros (l & q & L & S). assert (X : obs h ((w ++ [c]) ++ [l]) = None) by (apply (pi_child _ _ _ _ I); lia). apply (obs_step h _ idx l W) in X. congruence. }
      destruct (free_obs h fl _ idx H W) as (h1 & b & fl1 & E1 & H1 & L1 & B1 & W1 & O1 & Bo1); [now destruct w|easy|].
      rewrite walk_snoc in W. destruct (walk h w) as [p|] eqn:Wp; [|easy]. pose proof (walk_alloc _ _ H _ _ Wp) as Ap. pose proof (alloc_inb _ _ _ F Ap) as Ip. pose proof (alloc_ge _ _ _ Ap) as P1.
      destruct (has_sibling_ok h fl w c p idx H Wp W) as (s & Es & Hs). rewrite Es. assert (Kp : Ks h idx = p) by (apply step_some in W; tauto). rewrite g_check_ok by easy. rewrite Kp.
      assert (Hs' : s = true <-> ext D w = true).
      { rewrite Hs, ext_pre. split.
        - intros (l & q & L & Nl & S). exists l. assert (X : obs h (w ++ [l]) <> None) by (rewrite (obs_step h w p l Wp); congruence).
          assert (P : is_prefix (w ++ [l]) (w ++ [c]) = false).
          { rewrite prefix_snoc. destruct (eqw_spec (w ++ [l]) (w ++ [c])) as [e|_]; [apply app_inj_tail in e as [_ e]; easy|]. cbn [orb].
            destruct (prefix_spec (w ++ [l]) w) as [[t e]|]; [|easy]. apply (f_equal (@length Z)) in e. rewrite !app_length in e. cbn in e. lia. }
          rewrite (pi_node _ _ _ _ I) in X by (easy || lia). rewrite (pre_ext _ _ Wd). unfold has. destruct (ext D (w ++ [l])); [easy|]. destruct (get D (w ++ [l])); easy.
        - intros [l P]. assert (Hl : byte l).
          { apply pre_iff in P as (q & v & J & Q). apply (wf_key _ Wd) in J as (_ & Fq & _). rewrite Forall_forall in Fq. apply Fq. eapply prefix_in; [exact Q|]. apply in_or_app. right. now left. }
          assert (Nl : l <> c). { intros ->. rewrite (pre_ext _ _ Wd) in P. unfold has in P. rewrite Xw, Gw in P. easy. }
          assert (Q : is_prefix (w ++ [l]) (w ++ [c]) = false).
          { rewrite prefix_snoc. destruct (eqw_spec (w ++ [l]) (w ++ [c])) as [e|_]; [apply app_inj_tail in e as [_ e]; easy|]. cbn [orb].
            destruct (prefix_spec (w ++ [l]) w) as [[t e]|]; [|easy]. apply (f_equal (@length Z)) in e. rewrite !app_length in e. cbn in e. lia. }
          unfold byte in Hl. exists l. destruct (step h p l) as [q|] eqn:S; [exists q; split; [lia|easy]|]. exfalso.
          apply (obs_step h w p l Wp) in S. rewrite (pi_node _ _ _ _ I) in S by (easy || lia). rewrite (pre_ext _ _ Wd) in P. unfold has in P. destruct (ext D (w ++ [l])); [easy|]. destruct (get D (w ++ [l])); easy. }
      assert (Nw : w <> w ++ [c]) by apply len_snoc.
      destruct s.
      * assert (Xs : ext D w = true) by now apply Hs'. change (0 <=? 0) with true. pose proof (fl_lim _ _ F) as Lm. rewrite (proj2 (Z.ltb_lt 0 (limit h))) by lia. cbn [andb].
        destruct (Z.eqb_spec idx 1); [easy|]. cbn [negb]. rewrite E1. change (0 =? 0) with true.
        assert (Xp : forall v, is_prefix v (w ++ [c]) = true -> v <> w ++ [c] -> ext D v = true).
        { intros v P Nv. rewrite prefix_snoc in P. destruct (eqw_spec v (w ++ [c])); [easy|]. cbn in P. now apply (ext_mono D v w). }
        assert (Wc : walk h (w ++ [c]) = Some idx) by (rewrite walk_snoc, Wp; easy).
        exists h1, fl1. split; [easy|]. split; [easy|]. split; [easy|]. split; [easy|]. intros _. split; [|split].
        -- rewrite O1. destruct (eqw_spec [] (w ++ [c])) as [e|_]; [now destruct w|].
           apply (obs_proper h fl [] (w ++ [c]) idx H Wc eq_refl). now destruct w.
        -- intros q. rewrite O1, XM. destruct (eqw_spec (q ++ [256]) (w ++ [c])) as [e|_]; [apply app_inj_tail in e as [_ e]; congruence|].
           destruct (is_prefix q (w ++ [c])) eqn:P.
           ++ rewrite (pi_null _ _ _ _ I) by easy. destruct (eqw_spec q (w ++ [c])) as [-> |Nq]; [now rewrite Gw, Xw|]. rewrite (Xp q P Nq), (GMx q (Xp q P Nq)). easy.
           ++ rewrite (pi_term _ _ _ _ I) by easy. rewrite (GMa q P). easy.
        -- intros u d Hd. rewrite O1, XM. destruct (eqw_spec (u ++ [d]) (w ++ [c])) as [e|Nu]; [rewrite e, Xw, (GMn _ Gw); easy|].
           destruct (is_prefix (u ++ [d]) (w ++ [c])) eqn:P.
           ++ rewrite (Xp _ P Nu). exact (obs_proper h fl _ (w ++ [c]) idx H Wc P Nu).
           ++ rewrite (pi_node _ _ _ _ I) by easy. now rewrite (GMa _ P).
      * assert (Xs : ext D w = false) by (destruct (ext D w); [assert (false = true) by now apply Hs'|]; easy).
        unfold inb in Ip. rewrite (proj2 (Z.leb_le 0 p)), (proj2 (Z.ltb_lt p (limit h))) by lia. cbn [andb]. destruct (Z.eqb_spec idx 1); [easy|]. cbn [negb]. rewrite E1. destruct (Z.eqb_spec p 0); [lia|].
        rewrite app_length in Hf. cbn [length] in Hf.
        destruct (IH f h1 fl1 p H1) as (h' & fl' & E' & H' & L' & B' & R').
        { rewrite W1. destruct (eqw_spec w (w ++ [c])); easy. } { lia. }
        { assert (Pw : is_prefix w k = true) by (eapply prefix_trans; [apply prefix_app|exact Pk]). constructor.
          - easy.
          - easy.
          - intros q Q1 Q2 Q3. destruct (prefix_next _ _ Q1) as [|[d Q4]]; [congruence|].
            assert (Q5 : is_prefix (w ++ [c]) q = true).
            { destruct (prefix_total (w ++ [c]) q k Pk Q3) as [X|X]; [easy|]. rewrite prefix_snoc in X. destruct (eqw_spec q (w ++ [c])) as [-> |]; [apply prefix_refl|]. cbn in X.
              exfalso. apply Q2. symmetry. now apply prefix_anti. }
            destruct (eqw_spec q (w ++ [c])) as [-> |N]; [easy|]. now apply (pi_above _ _ _ _ I).
          - intros l Hl. rewrite O1. destruct (eqw_spec (w ++ [l]) (w ++ [c])) as [|N]; [easy|]. apply (obs_step h w p l Wp). destruct (step h p l) as [q|] eqn:S; [|easy]. exfalso.
            assert (false = true); [|easy]. apply Hs. exists l, q. assert (0 <= l <= 256) by (apply step_some in S; tauto). split; [lia|]. split; [congruence|easy].
          - intros q Q. rewrite O1. destruct (eqw_spec (q ++ [256]) (w ++ [c])) as [e|_]; [apply app_inj_tail in e as [_ e]; congruence|]. apply (pi_null _ _ _ _ I). rewrite prefix_snoc, Q. apply orb_true_r.
          - intros q Q. rewrite O1. destruct (eqw_spec (q ++ [256]) (w ++ [c])) as [e|_]; [apply app_inj_tail in e as [_ e]; congruence|].
            destruct (eqw_spec q (w ++ [c])) as [-> |N]; [rewrite (pi_null _ _ _ _ I) by apply prefix_refl; now rewrite Gw, Xw|].
            apply (pi_term _ _ _ _ I). rewrite prefix_snoc, Q. destruct (eqw_spec q (w ++ [c])); easy.
          - intros u d Hd Q. rewrite O1. destruct (eqw_spec (u ++ [d]) (w ++ [c])) as [e|N]; [rewrite e, Gw, Xw; easy|].
            apply (pi_node _ _ _ _ I); [easy|]. rewrite prefix_snoc, Q. destruct (eqw_spec (u ++ [d]) (w ++ [c])); easy. }
        exists h', fl'. split; [easy|]. split; [easy|]. split; [lia|]. split; [lia|easy].
Qed.

Lemma tb_rep_clear : PRep th_clear [] [].
Proof.
  constructor; try easy.
  - apply clear_HI.
  - constructor; [constructor|easy].
  - intros k. rewrite clear_obs. now destruct k.
  - intros u c _. rewrite clear_obs. now destruct u.
Qed.

Lemma del_ext_reset M k q : Wf M -> ext M k = true -> is_prefix q k = true -> ext (del k M) q = true.
Proof.
  intros Wm X P. apply (ext_mono _ q k P). rewrite (ext_del M k k Wm), eqw_refl in X. cbn in X. rewrite andb_false_r, orb_false_r in X. easy.
Qed.

Lemma tb_erase_ok h fl M k : PRep h fl M -> Forall byte k ->
  exists h' fl', tb_erase h k = Some h' /\ PRep h' fl' (if has M k then reset k M else M) /\ limit h' <= limit h.
Proof.
  intros R Fk. pose proof (pt_hi _ _ _ R) as H. pose proof (hi_fl _ _ H) as F. pose proof (fl_lim _ _ F) as Lm. pose proof (pt_wf _ _ _ R) as Wm. unfold tb_erase.
  destruct (tb_find_ok h fl M k R Fk) as (idx & E & X). rewrite E. unfold tb_erase_at. unfold has.
  destruct (get M k) as [v|] eqn:G.
  2: { subst idx. change (0 <=? 0) with true. rewrite (proj2 (Z.ltb_lt 0 (limit h))) by lia. cbn [andb]. change (0 <=? 1) with true. exists h, fl.
       split; [easy|]. split; [easy|lia]. }
  destruct X as [W I2]. pose proof (walk_alloc _ _ H _ _ W) as Ai. pose proof (alloc_inb _ _ _ F Ai) as Ii. unfold inb in Ii.
  rewrite (proj2 (Z.leb_le 0 idx)), (proj2 (Z.ltb_lt idx (limit h))) by lia. cbn [andb]. destruct (Z.leb_spec idx 1); [lia|].
  assert (Gh : has M k = true) by (apply has_get; eauto). rewrite (tb_tail_ok h fl M k idx R Fk W), Gh. cbn [negb].
  assert (Nk : k <> []) by (intros ->; rewrite (get_nil _ Wm) in G; easy).
  pose proof (wf_del k M Wm) as Wd. set (D := del k M) in *. set (M' := reset k M) in *.
  assert (Gd : forall q, get D q = if eqw q k then None else get M q) by (intros; apply get_del).
  assert (Xd : forall q, ext M q = ext D q || (is_prefix q k && negb (eqw k q))) by (intros; unfold D; rewrite (ext_del M k) by easy; now rewrite Gh).
  assert (XM : forall q, ext M' q = ext D q) by (intros; apply ext_keys, reset_keys).
  assert (GM : forall q, get M' q = option_map (fun v => if is_prefix q k && negb (ext D q) then 0 else v) (get D q)) by (intros; apply get_reset).
  assert (P : exists h2 fl2, tb_prune (S (length h)) h idx = Some h2 /\ HI h2 fl2 /\ limit h2 = limit h /\ Bs h2 0 = Bs h 0 /\
    (D <> [] -> obs h2 [] = Some 1 /\
      (forall q, obs h2 (q ++ [256]) = if ext M' q then option_map Z.opp (get M' q) else None) /\
      (forall u c, c <> 256 -> obs h2 (u ++ [c]) = if ext M' (u ++ [c]) then Some 1 else option_map Z.opp (get M' (u ++ [c]))))).
  { destruct (ext M k) eqn:Xk.
    - (* other keys go on from here: only the value is removed *)
      destruct (tb_value_ok h fl M k v idx R Fk G W) as (t & Et & T & Bt & NS). rewrite Xk in T.
      assert (St : step h idx 256 = Some t) by (rewrite walk_snoc, W in T; easy). apply step_some in St as St'. destruct St' as (_ & S2 & S3 & S4).
      cbn [tb_prune]. rewrite (has_null_ok h fl) by easy. rewrite St. rewrite g_base_ok by (unfold inb; lia). cbn zeta. unfold null_value. rewrite <- S3.
      rewrite g_check_ok by (eapply alloc_inb; [exact F|eapply walk_alloc; eauto]). rewrite S4, Z.eqb_refl.
      destruct (free_obs h fl (k ++ [256]) t H T) as (h1 & b & fl1 & E1 & H1 & L1 & B1 & W1 & O1 & Bo1); [now destruct k|easy|]. rewrite E1.
      assert (W1k : walk h1 k = Some idx). { rewrite W1. destruct (eqw_spec k (k ++ [256])) as [e|_]; [now apply len_snoc in e|easy]. }
      destruct (has_child_ok h1 fl1 idx H1 (walk_alloc _ _ H1 _ _ W1k)) as (r & Er & Hr). rewrite Er.
      assert (Rt : r = true).
      { apply Hr. apply (pt_child h fl M k idx R W) in Xk as (l & q & L & S). exists l. destruct (step h1 idx l) as [q'|] eqn:S'; [exists q'; split; easy|]. exfalso.
        apply (obs_step h1 k idx l W1k) in S'. rewrite O1 in S'. destruct (eqw_spec (k ++ [l]) (k ++ [256])) as [e|_]; [apply app_inj_tail in e as [_ e]; lia|]. apply (obs_step h k idx l W) in S'. congruence. }
      rewrite Rt. exists h1, fl1. split; [easy|]. split; [easy|]. split; [easy|]. split; [easy|]. intros _.
      assert (Xpk : forall q, is_prefix q k = true -> ext D q = true) by (intros; now apply del_ext_reset).
      assert (GM1 : forall q, get M' q = get D q). { intros q. rewrite GM. destruct (is_prefix q k) eqn:Q; [rewrite (Xpk q Q)|]; cbn; destruct (get D q); easy. }
      assert (XD : forall q, ext D q = ext M q). { intros q. rewrite Xd. destruct (is_prefix q k) eqn:Q; [rewrite (Xpk q Q)|rewrite orb_false_r]; easy. }
      split; [|split].
      + rewrite O1. destruct (eqw_spec [] (k ++ [256])) as [e|_]; [now destruct k|]. apply (obs_proper h fl [] k idx H W eq_refl). congruence.
      + intros q. rewrite O1, XM, GM1, XD, Gd. destruct (eqw_spec (q ++ [256]) (k ++ [256])) as [e|Nq]; [apply app_inj_tail in e as [-> _]; rewrite eqw_refl; now destruct (ext M k)|].
        destruct (eqw_spec q k); [congruence|]. apply R.
      + intros u c Hc. rewrite O1, XM, GM1, XD, Gd. destruct (eqw_spec (u ++ [c]) (k ++ [256])) as [e|_]; [apply app_inj_tail in e as [_ e]; easy|].
        rewrite (pt_node _ _ _ R) by easy. destruct (eqw_spec (u ++ [c]) k) as [-> |]; [now rewrite Xk|easy].
    - apply (tb_prune_ok M k Wm Fk Gh k (S (length h)) h fl idx H W).
      { pose proof (walk_short h fl k idx H W) as Sh. rewrite limit_length in Sh. lia. }
      fold D. assert (Xk' : ext D k = false) by (rewrite Xd in Xk; now apply orb_false_iff in Xk). constructor.
      + apply prefix_refl.
      + easy.
      + intros q Q1 Q2 Q3. exfalso. apply Q2. symmetry. now apply prefix_anti.
      + intros l Hl. apply (pt_none h fl M k l R Hl). destruct (pre M (k ++ [l])) eqn:P; [|easy]. assert (ext M k = true) by (apply ext_pre; eauto). congruence.
      + intros q Q. rewrite (pt_term _ _ _ R), Gd. destruct (eqw_spec q k) as [-> |Nq]; [now rewrite Xk|].
        assert (Y : ext M q = true) by (rewrite Xd, Q; destruct (eqw_spec k q); [congruence|apply orb_true_r]). now rewrite Y.
      + intros q Q. rewrite (pt_term _ _ _ R), Gd, Xd, Q. cbn [andb]. rewrite orb_false_r. destruct (eqw_spec q k) as [-> |]; [rewrite prefix_refl in Q; easy|easy].
      + intros u c Hc Q. rewrite (pt_node _ _ _ R), Gd, Xd, Q by easy. cbn [andb]. rewrite orb_false_r. destruct (eqw_spec (u ++ [c]) k) as [e|]; [rewrite e, prefix_refl in Q; easy|easy]. }
  destruct P as (h2 & fl2 & E2 & H2 & L2 & B2 & Rest). rewrite E2. destruct (size_obs h2 fl2 (-1) H2) as (h3 & E3 & H3 & L3 & B3 & _ & _ & _ & W3 & O3). rewrite E3.
  unfold t_size. rewrite g_base_ok by (unfold inb; lia).
  pose proof (del_length M k v (wf_nodup _ Wm) G) as Ln. fold D in Ln. pose proof (pt_size _ _ _ R) as Sz.
  assert (B3' : Bs h3 0 = Z.of_nat (length D)) by lia. rewrite B3'.
  destruct (Z.eqb_spec (Z.of_nat (length D)) 0) as [e|e].
  - assert (De : D = []) by (destruct D; [easy|cbn in e; lia]). exists th_clear, []. split; [easy|]. split; [|change (limit th_clear) with 2; lia].
    unfold M', reset. fold D. rewrite De. apply tb_rep_clear.
  - destruct Rest as (R2 & T2 & N2); [intros Y; rewrite Y in e; easy|]. exists h3, fl2. split; [easy|]. split; [|lia]. constructor.
    + easy.
    + now apply wf_reset.
    + unfold M'. rewrite reset_len. easy.
    + rewrite O3, R2. destruct M' as [|[q x] D'] eqn:Em; [|easy]. exfalso. apply e. unfold D. rewrite <- (reset_len k M). fold M'. rewrite Em. easy.
    + intros q. now rewrite O3.
    + intros u c Hc. now rewrite O3, N2.
Qed.
