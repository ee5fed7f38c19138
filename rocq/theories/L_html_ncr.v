(** The table of named character references: what a lookup finds. *)
From Coq Require Import ZArith List Bool Lia FMapPositive.
From Verif Require Import M_trie M_html_table M_html_ncr L_html_names.
Import ListNotations.
Open Scope Z_scope.

(** * A fast copy of a table *)
Section Fast.
Context {A : Type}.
Fixpoint mkt (i : positive) (l : list A) (m : PositiveMap.t A) : PositiveMap.t A :=
  match l with
  | [] => m
  | x :: r => mkt (Pos.succ i) r (PositiveMap.add i x m)
  end.
Lemma mkt_below l : forall i m j, (j < i)%positive -> PositiveMap.find j (mkt i l m) = PositiveMap.find j m.
Proof.
  induction l as [|x l IH]; intros i m j H; [reflexivity|]. cbn [mkt]. rewrite IH by lia.
  apply PositiveMap.gso. lia.
Qed.
Lemma mkt_find l : forall i m n, (forall j, (i <= j)%positive -> PositiveMap.find j m = None) ->
  PositiveMap.find (Pos.of_succ_nat n + i - 1)%positive (mkt i l m) = nth_error l n.
Proof.
  induction l as [|x l IH]; intros i m n H.
  - cbn [mkt]. rewrite H by lia. destruct n; reflexivity.
  - cbn [mkt]. destruct n as [|n].
    + replace (Pos.of_succ_nat 0 + i - 1)%positive with i by lia. rewrite mkt_below by lia.
      apply PositiveMap.gss.
    + replace (Pos.of_succ_nat (S n) + i - 1)%positive with (Pos.of_succ_nat n + Pos.succ i - 1)%positive by lia.
      rewrite IH; [reflexivity|]. intros j L. rewrite PositiveMap.gso by lia. apply H. lia.
Qed.
Definition fastt (l : list A) : PositiveMap.t A := mkt 1 l (PositiveMap.empty A).
Definition gett (m : PositiveMap.t A) (p : Z) : option A :=
  match p with Zneg _ => None | _ => PositiveMap.find (Z.to_pos (p + 1)) m end.
Lemma gett_fast l p : gett (fastt l) p = if p <? 0 then None else nth_error l (Z.to_nat p).
Proof.
  unfold gett. destruct p as [|p|p]; [..|reflexivity]; cbn [Z.ltb Z.compare].
  all: unfold fastt; rewrite <- (mkt_find l 1 (PositiveMap.empty A)); [f_equal; lia|intros j _; apply PositiveMap.gempty].
Qed.
End Fast.

(** * Paths of a double array *)
Definition bytes_of (c : Z) : list Z := map (fun k => Z.land (Z.shiftr c (8 * k)) 0xFF) [3; 2; 1; 0].

Section Paths.
Variable nd : Z -> option (Z * Z).
Hypothesis root_check : exists b, nd 1 = Some (b, 0).

Inductive Path : list Z -> Z -> Prop :=
| path_root : Path [] 1
| path_step : forall bs p ch i, Path bs p -> 0 <= ch < 256 -> byte_step nd p ch = Some i -> i <> 0 -> Path (bs ++ [ch]) i.

Lemma byte_step_inv p ch i : byte_step nd p ch = Some i -> i <> 0 ->
  exists base ck b, nd p = Some (base, ck) /\ 0 < base /\ i = base + ch /\ nd i = Some (b, p).
Proof.
  unfold byte_step. destruct (nd p) as [[base ck]|]; [|discriminate]. destruct (base <=? 0) eqn:Eb; [intros H; inversion H; subst; contradiction|].
  destruct (nd (base + ch)) as [[b c2]|] eqn:En; [|discriminate]. destruct (c2 =? p) eqn:Ec; intro H; inversion H; subst; [|contradiction].
  intros _. exists base, ck, b. apply Z.eqb_eq in Ec. subst c2. repeat split; auto; lia.
Qed.
Lemma path_pos bs i : Path bs i -> 1 <= i.
Proof. intros H. destruct H as [|bs p ch i H Hc E N]; [lia|]. destruct (byte_step_inv _ _ _ E N) as (base & ck & b & _ & B & -> & _). lia. Qed.
Lemma path_not_root bs i : Path bs i -> bs <> [] -> 1 < i.
Proof.
  intros H Nb. destruct H as [|bs p ch i H Hc E N]; [contradiction|]. destruct (byte_step_inv _ _ _ E N) as (base & ck & b & _ & B & -> & En).
  destruct (Z.eq_dec (base + ch) 1) as [E1|]; [|lia]. rewrite E1 in En. destruct root_check as (b0 & R). rewrite R in En. inversion En; subst.
  pose proof (path_pos _ _ H). lia.
Qed.
Lemma path_inj u i : Path u i -> forall v, Path v i -> u = v.
Proof.
  induction 1 as [|bs p ch i H IH Hc E N]; intros v Hv.
  - destruct v as [|x v]; [reflexivity|]. pose proof (path_not_root _ _ Hv ltac:(discriminate)). lia.
  - inversion Hv as [E0|bs2 p2 ch2 i2 H2 Hc2 E2 N2]; subst.
    + assert (Path (bs ++ [ch]) 1) as P by (econstructor; eauto). pose proof (path_not_root _ _ P ltac:(destruct bs; discriminate)). lia.
    + destruct (byte_step_inv _ _ _ E N) as (base & ck & b & A1 & B1 & C1 & D1).
      destruct (byte_step_inv _ _ _ E2 N2) as (base2 & ck2 & b2 & A2 & B2 & C2 & D2).
      assert (p2 = p) by congruence. subst p2. rewrite A1 in A2. inversion A2; subst.
      rewrite (IH _ H2). do 2 f_equal. lia.
Qed.

Lemma byte_range c k : 0 <= k -> 0 <= Z.land (Z.shiftr c (8 * k)) 0xFF < 256.
Proof. intros _. change 0xFF with (Z.ones 8). rewrite Z.land_ones by lia. apply Z.mod_pos_bound. lia. Qed.

Lemma wide_step_path n : forall bs p c i, Path bs p -> wide_step nd n c p = Some i -> i <> 0 ->
  Path (bs ++ map (fun k => Z.land (Z.shiftr c (8 * Z.of_nat k)) 0xFF) (rev (seq 0 n))) i.
Proof.
  induction n as [|n IH]; intros bs p c i H E N; cbn [wide_step] in E.
  - inversion E; subst. rewrite app_nil_r. exact H.
  - destruct (byte_step nd p _) as [idx|] eqn:Eb; [|discriminate]. destruct (idx =? 0) eqn:E0; [inversion E; subst; contradiction|].
    rewrite seq_S, rev_app_distr. cbn [rev app map Nat.add].
    replace (bs ++ Z.land (Z.shiftr c (8 * Z.of_nat n)) 255 :: map (fun k => Z.land (Z.shiftr c (8 * Z.of_nat k)) 255) (rev (seq 0 n)))
      with ((bs ++ [Z.land (Z.shiftr c (8 * Z.of_nat n)) 255]) ++ map (fun k => Z.land (Z.shiftr c (8 * Z.of_nat k)) 255) (rev (seq 0 n)))
      by (rewrite <- app_assoc; reflexivity).
    eapply IH; [|exact E|exact N]. econstructor; [exact H|apply byte_range; lia|exact Eb|lia].
Qed.
Lemma wide_path bs p c i : Path bs p -> wide_step nd 4 c p = Some i -> i <> 0 -> Path (bs ++ bytes_of c) i.
Proof. apply (wide_step_path 4). Qed.
End Paths.

Lemma cons_inj (x y : Z) l m : x :: l = y :: m -> x = y /\ l = m.
Proof. intro H. inversion H. auto. Qed.
Lemma bytes_of_inj c d : 0 <= c < 2^32 -> 0 <= d < 2^32 -> bytes_of c = bytes_of d -> c = d.
Proof.
  intros Hc Hd H. assert (forall x, 0 <= x < 2^32 ->
    x = Z.land (Z.shiftr x 24) 255 * 2^24 + Z.land (Z.shiftr x 16) 255 * 2^16 + Z.land (Z.shiftr x 8) 255 * 2^8 + Z.land (Z.shiftr x 0) 255) as K.
  { intros x Hx. change 255 with (Z.ones 8). rewrite !Z.land_ones, !Z.shiftr_div_pow2 by lia. change (2^0) with 1. rewrite Z.div_1_r.
    change (2^8) with 256. change (2^16) with 65536. change (2^24) with 16777216.
    pose proof (Z.div_mod x 256 ltac:(lia)) as A1. pose proof (Z.div_mod (x / 256) 256 ltac:(lia)) as A2.
    pose proof (Z.div_mod (x / 65536) 256 ltac:(lia)) as A3.
    rewrite Z.div_div in A2 by lia. rewrite Z.div_div in A3 by lia. change (256 * 256) with 65536 in A2. change (65536 * 256) with 16777216 in A3.
    assert (A4 : (x / 16777216) mod 256 = x / 16777216).
    { apply Z.mod_small. split; [apply Z.div_pos; lia|]. apply Z.div_lt_upper_bound; lia. }
    rewrite A4. lia. }
  unfold bytes_of in H. cbn [map] in H. apply cons_inj in H as [A H]. apply cons_inj in H as [B H]. apply cons_inj in H as [C H]. apply cons_inj in H as [D _].
  change (8 * 3) with 24 in *. change (8 * 2) with 16 in *. change (8 * 1) with 8 in *. change (8 * 0) with 0 in *.
  rewrite (K c Hc), (K d Hd), A, B, C, D. reflexivity.
Qed.
Lemma bytes_flat_inj u : forall v, Forall (fun c => 0 <= c < 2^32) u -> Forall (fun c => 0 <= c < 2^32) v ->
  flat_map bytes_of u = flat_map bytes_of v -> u = v.
Proof.
  induction u as [|c u IH]; intros [|d v] Hu Hv H; try reflexivity; try discriminate.
  inversion Hu; inversion Hv; subst. cbn [flat_map] in H.
  assert (L : bytes_of c = bytes_of d /\ flat_map bytes_of u = flat_map bytes_of v).
  { unfold bytes_of at 1 3 in H. cbn [map app] in H. apply cons_inj in H as [A H]. apply cons_inj in H as [B H]. apply cons_inj in H as [C H]. apply cons_inj in H as [D E]. split; [|exact E].
    unfold bytes_of. cbn [map]. rewrite A, B, C, D. reflexivity. }
  destruct L as [L1 L2]. f_equal; [apply bytes_of_inj; assumption|apply IH; assumption].
Qed.
Lemma bytes_flat_length u : length (flat_map bytes_of u) = (4 * length u)%nat.
Proof. induction u; [reflexivity|]. cbn [flat_map]. rewrite app_length, IHu. cbn. lia. Qed.
