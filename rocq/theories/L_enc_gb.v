(** gb18030: the four-byte part and the round trip of the basic multilingual plane. *)
From Coq Require Import ZArith List Bool Lia FMapPositive.
From Verif Require Import M_unicode L_unicode M_infra M_percent M_encoding L_encoding L_encoding2 L_enc_utf8 L_enc_codec L_enc_tables L_enc_multi.
From Verif Require Import M_index_single M_index_big5 M_index_euc_kr M_index_gb18030 M_index_jis.
Import ListNotations.
Open Scope Z_scope.

(** * Sorted lists and lower_bound *)

Fixpoint sortedb (l : list Z) : bool :=
  match l with
  | [] => true
  | x :: r => match r with [] => true | y :: _ => (x <? y) && sortedb r end
  end.

Lemma sortedb_all x l : sortedb (x :: l) = true -> Forall (fun y => x < y) l.
Proof.
  revert x. induction l as [|y l IH]; intros x H; [constructor|].
  cbn [sortedb] in H. apply andb_true_iff in H as [H1 H2]. constructor; [lia|].
  specialize (IH y H2). eapply Forall_impl; [|exact IH]. cbn. lia.
Qed.

Lemma sortedb_tail x l : sortedb (x :: l) = true -> sortedb l = true.
Proof. destruct l; [reflexivity|]. cbn [sortedb]. intros H. now apply andb_true_iff in H. Qed.

Lemma lower_bound_at l : forall i x v, sortedb l = true -> nth_error l i = Some x ->
  (v <= x) -> (forall j y, (j < i)%nat -> nth_error l j = Some y -> y < v) -> lower_bound l v = i.
Proof.
  induction l as [|a l IH]; intros i x v S E L B; [destruct i; discriminate|].
  cbn [lower_bound]. destruct i as [|i].
  - cbn in E. injection E as ->. replace (x <? v) with false by lia. reflexivity.
  - pose proof (B 0%nat a ltac:(lia) eq_refl). replace (a <? v) with true by lia. f_equal.
    eapply IH; [eapply sortedb_tail, S|exact E|exact L|]. intros j y Hj Ey. apply (B (Datatypes.S j)); [lia|exact Ey].
Qed.

Lemma sorted_nth l : forall i j x y, sortedb l = true -> nth_error l i = Some x -> nth_error l j = Some y ->
  (i < j)%nat -> x < y.
Proof.
  induction l as [|a l IH]; intros [|i] [|j] x y S E F L; cbn in *; try discriminate; try lia.
  - injection E as ->. pose proof (sortedb_all _ _ S) as A. rewrite Forall_forall in A. apply A.
    eapply nth_error_In, F.
  - eapply IH; [eapply sortedb_tail, S|exact E|exact F|lia].
Qed.

Lemma sorted_In l x : sortedb l = true -> In x l -> nth_error l (lower_bound l x) = Some x.
Proof.
  intros S I. apply In_nth_error in I as [i E].
  rewrite (lower_bound_at l i x x S E); [exact E|lia|].
  intros j y Hj Ey. exact (sorted_nth l j i y x S Ey E Hj).
Qed.

Lemma nth_map_fst (L : list (Z * Z)) i e : nth_error L i = Some e -> nth_error (map fst L) i = Some (fst e).
Proof. intros H. rewrite nth_error_map, H. reflexivity. Qed.

Lemma range_find_at L i e1 e2 v : sortedb (map fst L) = true -> nth_error L i = Some e1 -> nth_error L (S i) = Some e2 ->
  fst e1 <= v < fst e2 -> range_find L v = Some e1.
Proof.
  intros S E1 E2 R. unfold range_find. destruct (Z.eq_dec (fst e1) v) as [e|e].
  - assert (B : lower_bound (map fst L) v = i).
    { eapply lower_bound_at; [exact S|apply nth_map_fst, E1|lia|].
      intros j y Hj Ey. pose proof (sorted_nth _ _ _ _ _ S Ey (nth_map_fst _ _ _ E1) Hj). lia. }
    rewrite B, E1. replace (fst e1 =? v) with true by lia. reflexivity.
  - assert (B : lower_bound (map fst L) v = Datatypes.S i).
    { eapply lower_bound_at; [exact S|apply nth_map_fst, E2|lia|].
      intros j y Hj Ey. destruct (Nat.eq_dec j i) as [->|Hn].
      - rewrite (nth_map_fst _ _ _ E1) in Ey. injection Ey as <-. lia.
      - pose proof (sorted_nth _ _ _ _ _ S Ey (nth_map_fst _ _ _ E1) ltac:(lia)). lia. }
    rewrite B, E2. replace (fst e2 =? v) with false by lia. exact E1.
Qed.

Lemma range_exists (L : list (Z * Z)) : forall v e0 el, nth_error L 0 = Some e0 -> nth_error L (length L - 1) = Some el ->
  fst e0 <= v < fst el ->
  exists i e1 e2, nth_error L i = Some e1 /\ nth_error L (S i) = Some e2 /\ fst e1 <= v < fst e2.
Proof.
  induction L as [|a L IH]; intros v e0 el E0 El R; [discriminate|]. cbn in E0. injection E0 as ->.
  destruct L as [|b L].
  - cbn in El. injection El as ->. lia.
  - destruct (Z_lt_le_dec v (fst b)) as [H|H].
    + exists 0%nat, e0, b. repeat split; try reflexivity; lia.
    + destruct (IH v b el eq_refl) as (i & e1 & e2 & X & Y & Z).
      * cbn [length] in El |- *. replace (Datatypes.S (Datatypes.S (length L)) - 1)%nat with (Datatypes.S (length L)) in El by lia.
        replace (Datatypes.S (length L) - 1)%nat with (length L) by lia. exact El.
      * lia.
      * exists (Datatypes.S i), e1, e2. auto.
Qed.

(** * The check of the ranges against the index *)

Definition members (l : list Z) : PositiveMap.t unit :=
  fold_right (fun x m => PositiveMap.add (Z.to_pos (x + 1)) tt m) (PositiveMap.empty unit) l.
Definition mem (m : PositiveMap.t unit) (x : Z) : bool := PositiveMap.mem (Z.to_pos (x + 1)) m.

Lemma mem_In l x : Forall (fun y => 0 <= y) l -> 0 <= x -> mem (members l) x = true -> In x l.
Proof.
  intros F X. unfold mem. rewrite PositiveMap.mem_find. induction F as [|y l Y F IH]; cbn [members fold_right].
  - rewrite PositiveMap.gempty. discriminate.
  - destruct (Z.eq_dec y x) as [->|N]; [now left|]. rewrite PositiveMap.gso by lia. intros H. right. apply IH, H.
Qed.

(** Values [a] to [a + n - 1]. *)
Fixpoint all_from (n : nat) (a : Z) (f : Z -> bool) : bool :=
  match n with O => true | S n => f a && all_from n (a + 1) f end.
Lemma all_from_ok n : forall a f, all_from n a f = true -> forall x, a <= x < a + Z.of_nat n -> f x = true.
Proof.
  induction n as [|n IH]; intros a f H x R; [lia|]. cbn in H. apply andb_true_iff in H as [H1 H2].
  destruct (Z.eq_dec x a) as [->|N]; [exact H1|]. apply (IH _ _ H2). lia.
Qed.

Definition covered (m : PositiveMap.t unit) (cp : Z) : bool :=
  mem m cp || ((0xD800 <=? cp) && (cp <=? 0xDFFF)) || (cp =? 0xE5E5) || (cp =? 0xE7C7).

Definition range_ok (m : PositiveMap.t unit) (i : nat) : bool :=
  match nth_error index_pointer_gb18030_ranges i, nth_error index_pointer_gb18030_ranges (S i),
        nth_error index_code_point_gb18030_ranges i, nth_error index_code_point_gb18030_ranges (S i) with
  | Some (c, p), Some (c2, _), Some (p', c'), Some (p2, _) =>
      (p =? p') && (c =? c') && (0 <=? p) && (p + (c2 - c) <=? 126 * 12600) &&
      ((p2 <=? 39420) || (p + (c2 - c) <=? 39420)) &&
      all_from (Z.to_nat (c2 - (c + (p2 - p)))) (c + (p2 - p)) (covered m) &&
      (if (p <=? 7457) && (7457 <? p2) then covered m (c + (7457 - p)) else true)
  | _, _, _, _ => false
  end.

Lemma ranges_checked : forallb (range_ok (members index_pointer_gb18030_0))
  (seq 0 (length index_pointer_gb18030_ranges - 1)) = true.
Proof. vm_compute. reflexivity. Qed.
Lemma pointer_ranges_sorted : sortedb (map fst index_pointer_gb18030_ranges) = true.
Proof. vm_compute. reflexivity. Qed.
Lemma code_point_ranges_sorted : sortedb (map fst index_code_point_gb18030_ranges) = true.
Proof. vm_compute. reflexivity. Qed.
Lemma index_sorted : sortedb index_pointer_gb18030_0 = true.
Proof. vm_compute. reflexivity. Qed.
Lemma index_lengths : (length index_pointer_gb18030_0 =? length index_pointer_gb18030_1)%nat = true.
Proof. vm_compute. reflexivity. Qed.
Lemma index_nonneg : forallb (fun y => 0 <=? y) index_pointer_gb18030_0 = true.
Proof. vm_compute. reflexivity. Qed.

Lemma not_in_index cp : get_index_pointer index_pointer_gb18030_0 index_pointer_gb18030_1 cp = None ->
  0 <= cp -> mem (members index_pointer_gb18030_0) cp = false.
Proof.
  intros G H. destruct (mem (members index_pointer_gb18030_0) cp) eqn:M; [|reflexivity]. exfalso.
  apply mem_In in M; [|apply Forall_forall; intros y I; pose proof (proj1 (forallb_forall _ _) index_nonneg y I); cbn beta in *; lia|exact H].
  pose proof (sorted_In _ _ index_sorted M) as E. unfold get_index_pointer in G. rewrite E in G.
  rewrite Z.eqb_refl in G. apply nth_error_None in G.
  assert (lower_bound index_pointer_gb18030_0 cp < length index_pointer_gb18030_0)%nat.
  { apply nth_error_Some. rewrite E. discriminate. }
  pose proof index_lengths as L. apply Nat.eqb_eq in L. lia.
Qed.

Definition first_range : Z * Z := (128, 0).
Definition last_range : Z * Z := (65536, 57928).
Lemma ranges_first : nth_error index_pointer_gb18030_ranges 0 = Some first_range.
Proof. reflexivity. Qed.
Lemma ranges_last : nth_error index_pointer_gb18030_ranges (length index_pointer_gb18030_ranges - 1) = Some last_range.
Proof. vm_compute. reflexivity. Qed.

Lemma gb_ranges_back cp : 0x80 <= cp < 0x10000 -> scalar cp -> cp <> 0xE5E5 ->
  get_index_pointer index_pointer_gb18030_0 index_pointer_gb18030_1 cp = None ->
  exists p, get_index_gb18030_ranges_pointer cp = Some p /\ 0 <= p < 126 * 12600
    /\ get_index_gb18030_ranges_code_point p = Some (Some cp).
Proof.
  intros R Sc N G. unfold get_index_gb18030_ranges_pointer.
  destruct (cp =? 0xE7C7) eqn:E7.
  { exists 7457. split; [reflexivity|]. split; [lia|]. apply Z.eqb_eq in E7 as ->. reflexivity. }
  apply Z.eqb_neq in E7. pose proof (not_in_index cp G ltac:(lia)) as NM.
  assert (NC : covered (members index_pointer_gb18030_0) cp = false).
  { unfold covered. rewrite NM. unfold scalar in Sc. cbn [orb].
    replace ((0xD800 <=? cp) && (cp <=? 0xDFFF)) with false by lia. lia. }
  destruct (range_exists _ cp _ _ ranges_first ranges_last ltac:(cbn; lia)) as (i & e1 & e2 & X & Y & Z).
  assert (Hi : (i < length index_pointer_gb18030_ranges - 1)%nat).
  { assert (Datatypes.S i < length index_pointer_gb18030_ranges)%nat by (apply nth_error_Some; rewrite Y; discriminate). lia. }
  pose proof (proj1 (forallb_forall _ _) ranges_checked i ltac:(apply in_seq; lia)) as C. unfold range_ok in C.
  rewrite (range_find_at _ i e1 e2 cp pointer_ranges_sorted X Y Z). rewrite X, Y in C.
  destruct e1 as [c p], e2 as [c2 p2']. cbn [fst snd] in *.
  destruct (nth_error index_code_point_gb18030_ranges i) as [[p' c']|] eqn:U; [|discriminate].
  destruct (nth_error index_code_point_gb18030_ranges (S i)) as [[p2 c2']|] eqn:V; [|discriminate].
  rewrite !andb_true_iff in C. destruct C as [[[[[[C1 C2] C3] C4] C5] C6] C7].
  apply Z.eqb_eq in C1, C2. subst p' c'. apply Z.leb_le in C3, C4.
  assert (Hrun : cp < c + (p2 - p)).
  { destruct (Z_lt_le_dec cp (c + (p2 - p))) as [H|H]; [exact H|]. exfalso.
    pose proof (all_from_ok _ _ _ C6 cp ltac:(lia)). congruence. }
  exists (p + (cp - c)). split; [reflexivity|]. split; [lia|].
  unfold get_index_gb18030_ranges_code_point.
  replace ((39419 <? p + (cp - c)) && (p + (cp - c) <? 189000) || (1237575 <? p + (cp - c))) with false.
  2:{ apply orb_true_iff in C5. destruct C5 as [C5|C5]; apply Z.leb_le in C5; lia. }
  destruct (p + (cp - c) =? 7457) eqn:E5.
  { exfalso. apply Z.eqb_eq in E5. replace ((p <=? 7457) && (7457 <? p2)) with true in C7 by lia.
    replace (c + (7457 - p)) with cp in C7 by lia. congruence. }
  rewrite (range_find_at _ i (p, c) (p2, c2') _ code_point_ranges_sorted U V) by (cbn; lia).
  cbn [fst snd]. f_equal. f_equal. lia.
Qed.

Lemma gb_four p cp : 0 <= p < 126 * 12600 -> get_index_gb18030_ranges_code_point p = Some (Some cp) ->
  exists k, forall m, eats m gb0
    [((p / 12600) mod 256 + 0x81) mod 256;
     ((p mod 12600 / 1260) mod 256 + 0x30) mod 256;
     ((p mod 12600 mod 1260 / 10) mod 256 + 0x81) mod 256;
     ((p mod 12600 mod 1260 mod 10) mod 256 + 0x30) mod 256] [cp] gb0 k.
Proof.
  intros P G.
  set (a := p / 12600). set (r := p mod 12600). set (b := r / 1260). set (r2 := r mod 1260). set (c := r2 / 10). set (d := r2 mod 10).
  assert (A : 0 <= a < 126) by (subst a; zdiv).
  assert (Hr : 0 <= r < 12600) by (apply Z.mod_pos_bound; lia).
  assert (B : 0 <= b < 10) by (subst b; clearbody r; zdiv).
  assert (Hr2 : 0 <= r2 < 1260) by (apply Z.mod_pos_bound; lia).
  assert (C : 0 <= c < 126) by (subst c; clearbody r2; zdiv).
  assert (D : 0 <= d < 10) by (apply Z.mod_pos_bound; lia).
  assert (E : a * 12600 + b * 1260 + c * 10 + d = p).
  { subst a b c d. pose proof (Z.div_mod p 12600 ltac:(lia)). pose proof (Z.div_mod r 1260 ltac:(lia)).
    pose proof (Z.div_mod r2 10 ltac:(lia)). fold r in H. fold r2 in H0. lia. }
  clearbody a r b r2 c d. rewrite (Z.mod_small a), (Z.mod_small b), (Z.mod_small c), (Z.mod_small d) by lia.
  rewrite (Z.mod_small (a + 129)), (Z.mod_small (b + 48)), (Z.mod_small (c + 129)), (Z.mod_small (d + 48)) by lia.
  exists 4%nat. intros m. unfold gb0.
  eapply eat1; [dec; reflexivity|]. eapply eat1; [dec; reflexivity|]. eapply eat1; [dec; reflexivity|].
  apply eat_out. dec.
  replace ((a + 129 - 129) * 12600 + (b + 48 - 48) * 1260 + (c + 129 - 129) * 10 + (d + 48) - 48) with p by lia.
  rewrite G. reflexivity.
Qed.

Lemma gb18030_back : decodes_back (GB_encoder false) gb0 (fun v => scalar v /\ v < 0x10000) (fun v => v).
Proof.
  intros v l [S V] H. cbn [run] in H. unfold gb_encoder_run in H. cbn [eoq value] in H.
  destruct (is_ascii v) eqn:A.
  - assert (l = [v mod 256]) as -> by congruence. rewrite ascii_small by exact A. apply ascii_range in A.
    apply eat_one. unfold gb0. dec. reflexivity.
  - destruct (v =? 0xE5E5) eqn:E5; [discriminate|]. apply Z.eqb_neq in E5. cbn [andb] in H.
    destruct (get_index_pointer index_pointer_gb18030_0 index_pointer_gb18030_1 v) as [p|] eqn:P.
    + destruct (consistent_ok _ _ _ _ _ _ gb18030_ok ltac:(lia) P) as (P1 & _ & G). cbv zeta in H.
      assert (l = [(p / 190 + 0x81) mod 256; (p mod 190 + (if p mod 190 <? 0x3F then 0x40 else 0x41)) mod 256]) as -> by congruence.
      apply gb_pair; assumption.
    + destruct (gb_ranges_back v) as (p & X & Y & Z); [unfold is_ascii in A; unfold scalar in S; lia|exact S|exact E5|exact P|].
      rewrite X in H. cbv zeta in H.
      assert (l = [((p / 12600) mod 256 + 0x81) mod 256;
     ((p mod 12600 / 1260) mod 256 + 0x30) mod 256;
     ((p mod 12600 mod 1260 / 10) mod 256 + 0x81) mod 256;
     ((p mod 12600 mod 1260 mod 10) mod 256 + 0x30) mod 256]) as -> by congruence.
      apply gb_four; assumption.
Qed.

(** Every scalar value of the basic multilingual plane except U+E5E5 is encodable. *)
Lemma gb18030_total v : scalar v -> v < 0x10000 -> v <> 0xE5E5 -> encodable (GB_encoder false) v.
Proof.
  intros S V N. unfold encodable. cbn [run]. unfold gb_encoder_run. cbn [eoq value].
  destruct (is_ascii v) eqn:A; [eexists; reflexivity|].
  replace (v =? 0xE5E5) with false by lia. cbn [andb].
  destruct (get_index_pointer index_pointer_gb18030_0 index_pointer_gb18030_1 v) as [p|] eqn:P; [eexists; reflexivity|].
  destruct (gb_ranges_back v) as (p & X & Y & Z); [unfold is_ascii in A; unfold scalar in S; lia|exact S|exact N|exact P|].
  rewrite X. eexists. reflexivity.
Qed.
