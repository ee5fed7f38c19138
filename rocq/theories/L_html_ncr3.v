(** A lookup finds the longest name of the standard, as long as it stays inside the table. *)
From Coq Require Import ZArith List Bool Lia FMapPositive.
From Verif Require Import M_infra M_trie M_html_table M_html_ncr L_html_names L_html_ncr L_html_ncr2.
Import ListNotations.
Open Scope Z_scope.

Definition starts (n b : list Z) : Prop := exists r, b = n ++ r.
(** The longest entry of the list of the standard that the text starts with: its length and its code points. *)
Definition longest (b : list Z) (len : nat) (cps : list Z) : Prop :=
  (len = O /\ cps = [] /\ forall n c, In (n, c) standard_names -> ~ starts n b) \/
  (exists n, In (n, cps) standard_names /\ starts n b /\ len = length n /\
    forall n' c', In (n', c') standard_names -> starts n' b -> (length n' <= length n)%nat).

Lemma nd_eq i : gett hm i = node_at ncr_heap i.
Proof. unfold node_at, hm. apply gett_fast. Qed.
Lemma mm_eq i : gett mm i = if i <? 0 then None else nth_error ncr_map (Z.to_nat i).
Proof. unfold mm. apply gett_fast. Qed.
Lemma nm_eq i : gett nm i = if i <? 0 then None else nth_error standard_names (Z.to_nat i).
Proof. unfold nm. apply gett_fast. Qed.

Local Opaque hm mm nm RT standard_names.
Notation nd := (gett hm).
Definition R := fst RT.
Definition T := snd RT.
Lemma RT_eq : RT = (R, T).
Proof. unfold R, T. destruct RT; reflexivity. Qed.
Local Opaque R T.

Lemma all_nodes_split : gett R 1 = Some 0 /\ nodes_ok hm mm nm R T 0 ncr_heap = true.
Proof.
  pose proof all_nodes_ok as A. unfold all_nodes in A. cbv zeta in A. rewrite RT_eq in A.
  destruct (gett R 1) as [z|]; [destruct z as [|p|p]|].
  - split; [reflexivity|exact A].
  - discriminate A.
  - discriminate A.
  - discriminate A.
Qed.

Lemma node_facts i e : nd i = Some e -> node_ok hm mm nm R T i e = true.
Proof.
  intro H. rewrite nd_eq in H. unfold node_at in H. destruct (i <? 0) eqn:E; [discriminate|].
  pose proof (proj2 all_nodes_split) as A.
  assert (G : forall l k, nodes_ok hm mm nm R T k l = true -> forall n e, nth_error l n = Some e -> node_ok hm mm nm R T (k + Z.of_nat n) e = true).
  { induction l as [|x l IH]; intros k Hk n e0 Hn; [destruct n; discriminate|]. cbn [nodes_ok] in Hk. apply andb_true_iff in Hk as [K1 K2].
    destruct n as [|n]; cbn [nth_error] in Hn.
    - inversion Hn; subst. replace (k + Z.of_nat 0) with k by lia. exact K1.
    - replace (k + Z.of_nat (S n)) with (k + 1 + Z.of_nat n) by lia. apply IH; assumption. }
  replace i with (0 + Z.of_nat (Z.to_nat i)) by lia. eapply G; eassumption.
Qed.
Lemma R_root : gett R 1 = Some 0.
Proof. exact (proj1 all_nodes_split). Qed.
Lemma root_node : exists b, nd 1 = Some (b, 0).
Proof. exists 2. rewrite nd_eq. vm_compute. reflexivity. Qed.

Notation Path := (Path nd).
Lemma path_R bs i : Path bs i -> gett R i = Some (Z.of_nat (length bs)).
Proof.
  induction 1 as [|bs p ch i H IH Hc E N]; [exact R_root|].
  destruct (byte_step_inv _ _ _ _ E N) as (base & ck & b & A & B & C & D). pose proof (node_facts _ _ D) as F.
  unfold node_ok in F. apply andb_true_iff in F as [F _]. pose proof (path_pos nd _ _ H) as P.
  replace (1 <=? p) with true in F by lia. rewrite IH, A in F.
  replace ((0 <? base) && (base <=? i) && (i <? base + 256)) with true in F by lia.
  destruct (gett R i) as [d|]; [|discriminate]. f_equal. rewrite app_length. cbn. lia.
Qed.
Lemma path_short bs i : Path bs i -> (length bs <= 128)%nat.
Proof.
  intro H. pose proof (path_R _ _ H) as Hr.
  assert (exists e, nd i = Some e) as [e D].
  { destruct H as [|bs p ch i H Hc E N]; [destruct root_node; eauto|]. destruct (byte_step_inv _ _ _ _ E N) as (base & ck & b & A & B & C & D). eauto. }
  pose proof (node_facts _ _ D) as F. unfold node_ok in F. destruct e. rewrite Hr in F. apply andb_true_iff in F as [_ F].
  apply andb_true_iff in F as [F _]. lia.
Qed.
Lemma path_at_end bs i : Path bs i -> at_end nd lim i <> None.
Proof.
  intro H. pose proof (path_R _ _ H) as Hr.
  assert (exists e, nd i = Some e) as [e D].
  { destruct H as [|bs p ch i H Hc E N]; [destruct root_node; eauto|]. destruct (byte_step_inv _ _ _ _ E N) as (base & ck & b & A & B & C & D). eauto. }
  pose proof (node_facts _ _ D) as F. unfold node_ok in F. destruct e. rewrite Hr in F. apply andb_true_iff in F as [_ F].
  apply andb_true_iff in F as [_ F]. intro K. rewrite K in F. discriminate.
Qed.

(** ** Names and nodes *)
Definition names_node (n cps : list Z) (i : Z) : Prop :=
  wwalk nd 1 n = Some i /\ i <> 0 /\ at_end nd lim i = Some true /\ (exists v, leaf_value nd i = Some v /\ codes mm v = Some cps) /\
  n <> [] /\ (length n <= 32)%nat /\ Forall (fun c => 0 <= c < 0x80) n /\
  (last n 0 = 0x3B -> exists b k, nd i = Some (b, k) /\ b <= 0).
Lemma name_node n cps : In (n, cps) standard_names -> exists i, names_node n cps i.
Proof.
  intro H. pose proof all_names_ok as A. unfold all_names in A. cbv zeta in A. rewrite forallb_forall in A. specialize (A _ H).
  unfold name_ok in A. destruct (wwalk nd 1 n) as [i|] eqn:E; [|discriminate]. exists i.
  repeat (apply andb_true_iff in A as [A ?]). unfold names_node.
  destruct (at_end nd lim i) as [[]|]; try discriminate. destruct (leaf_value nd i) as [v|]; [|discriminate].
  destruct (codes mm v) as [l|] eqn:Ec; [|discriminate].
  split; [exact E|]. split; [lia|]. split; [reflexivity|].
  split. { exists v. split; [reflexivity|]. rewrite Ec. f_equal. apply eqz_eq. assumption. }
  split. { intros ->. discriminate. }
  split. { apply PeanoNat.Nat.leb_le. assumption. }
  split. { apply Forall_forall. intros c Hc. match goal with K : forallb _ n = true |- _ => rewrite forallb_forall in K; specialize (K _ Hc) end. lia. }
  intro L. rewrite L in *. cbn [Z.eqb Pos.eqb] in *. destruct (nd i) as [[b k]|]; [|discriminate]. exists b, k. split; [reflexivity|]. lia.
Qed.

Lemma wwalk_path cs : forall bs p i, Path bs p -> wwalk nd p cs = Some i -> i <> 0 -> Path (bs ++ flat_map bytes_of cs) i.
Proof.
  induction cs as [|c cs IH]; intros bs p i H E N; cbn [wwalk] in E.
  - inversion E; subst. rewrite app_nil_r. exact H.
  - destruct (wide_step nd 4 c p) as [k|] eqn:Ew; [|discriminate]. destruct (k =? 0) eqn:Ek; [inversion E; subst; contradiction|].
    cbn [flat_map]. rewrite app_assoc. eapply IH; [|exact E|exact N]. eapply wide_path; [exact H|exact Ew|lia].
Qed.
Lemma wwalk_app u : forall p v, wwalk nd p (u ++ v) = match wwalk nd p u with Some i => if i =? 0 then (match u with [] => wwalk nd p v | _ => Some 0 end) else wwalk nd i v | None => None end.
Proof.
  induction u as [|c u IH]; intros p v; cbn [app wwalk].
  - destruct (p =? 0) eqn:E; [|reflexivity]. reflexivity.
  - destruct (wide_step nd 4 c p) as [k|]; [|reflexivity]. destruct (k =? 0) eqn:Ek; [reflexivity|]. rewrite IH.
    destruct (wwalk nd k u) as [i|] eqn:Eu; [|reflexivity]. destruct (i =? 0) eqn:Ei; [|reflexivity]. destruct u; [|reflexivity].
    cbn in Eu. inversion Eu; subst. lia.
Qed.
Lemma ascii_wide n : Forall (fun c => 0 <= c < 0x80) n -> Forall (fun c => 0 <= c < 2^32) n.
Proof. apply Forall_impl. intros; lia. Qed.

Lemma node_name cs i : Forall (fun c => 0 <= c < 2^32) cs -> wwalk nd 1 cs = Some i -> at_end nd lim i = Some true ->
  exists cps v, In (cs, cps) standard_names /\ leaf_value nd i = Some v /\ codes mm v = Some cps.
Proof.
  intros Fc E A. assert (i <> 0). { intros ->. discriminate. }
  assert (P : Path (flat_map bytes_of cs) i) by (apply (wwalk_path cs [] 1); [constructor|exact E|assumption]).
  pose proof (path_R _ _ P) as Hr. rewrite bytes_flat_length in Hr.
  assert (exists e, nd i = Some e) as [e D].
  { unfold at_end in A. destruct (i <=? 1); [discriminate|]. destruct (nd i); [eauto|discriminate]. }
  pose proof (node_facts _ _ D) as F. unfold node_ok in F. destruct e as [b ck]. rewrite Hr in F. apply andb_true_iff in F as [_ F].
  apply andb_true_iff in F as [_ F]. rewrite A in F.
  replace (Z.of_nat (4 * length cs) mod 4 =? 0) with true in F.
  2:{ symmetry. apply Z.eqb_eq. replace (Z.of_nat (4 * length cs)) with (Z.of_nat (length cs) * 4) by lia. apply Z.mod_mul. lia. }
  destruct (gett T i) as [k|]; [|discriminate]. destruct (gett nm k) as [[name cps]|] eqn:En; [|discriminate].
  apply andb_true_iff in F as [F1 F2]. destruct (wwalk nd 1 name) as [j|] eqn:Ew; [|discriminate].
  assert (j = i) by lia. subst j. destruct (leaf_value nd i) as [v|] eqn:El; [|discriminate]. destruct (codes mm v) as [l|] eqn:Ec; [|discriminate].
  apply eqz_eq in F2. subst l.
  assert (Hin : In (name, cps) standard_names).
  { rewrite nm_eq in En. destruct (k <? 0); [discriminate|]. eapply nth_error_In; exact En. }
  destruct (name_node _ _ Hin) as (i2 & E2 & _ & _ & _ & _ & _ & Fn & _).
  assert (P2 : Path (flat_map bytes_of name) i) by (apply (wwalk_path name [] 1); [constructor|exact Ew|assumption]).
  assert (cs = name).
  { apply bytes_flat_inj; [exact Fc|apply ascii_wide; exact Fn|]. eapply path_inj; [exact root_node|exact P|exact P2]. }
  subst name. eauto.
Qed.

(** ** The scan *)
Notation scan := (scan_names nd lim).
(** what [tail] and [j] say about the characters read *)
Definition tail_ok (pre : list Z) (tail : Z) (j : nat) : Prop :=
  (tail = 1 /\ j = O) \/
  (tail <> 1 /\ (0 < j)%nat /\ (j <= length pre)%nat /\ wwalk nd 1 (firstn j pre) = Some tail /\ at_end nd lim tail = Some true).
Definition tail_last (pre : list Z) (j : nat) : Prop :=
  forall n c, In (n, c) standard_names -> starts n pre -> (length n <= j)%nat.

Lemma tail_ok_app pre x tail j : tail_ok pre tail j -> tail_ok (pre ++ x) tail j.
Proof.
  intros [H|(A & B & C & D & E)]; [left; exact H|right]. split; [exact A|]. split; [exact B|]. split; [rewrite app_length; lia|].
  rewrite firstn_app. replace (j - length pre)%nat with O by lia. rewrite app_nil_r. auto.
Qed.
Lemma starts_app n pre x : starts n (pre ++ x) -> starts n pre \/ exists y z, y <> [] /\ n = pre ++ y /\ x = y ++ z.
Proof.
  revert n. induction pre as [|a pre IH]; intros n [r H].
  - destruct n as [|c n]; [left; exists []; reflexivity|]. right. exists (c :: n), r. repeat split; [discriminate|exact H].
  - destruct n as [|c n]; [left; eexists; reflexivity|]. cbn in H. inversion H; subst. destruct (IH n (ex_intro _ r H2)) as [[q ->]|(y & z & A & -> & B)].
    + left. exists q. reflexivity.
    + right. exists y, z. repeat split; auto.
Qed.
Lemma dead_end pre x j : wwalk nd 1 pre = Some 0 -> tail_last pre j -> tail_last (pre ++ x) j.
Proof.
  intros W L n c Hn St. destruct (starts_app _ _ _ St) as [S1|(y & z & A & -> & B)]; [eapply L; eassumption|].
  destruct (name_node _ _ Hn) as (i & E & N & _). rewrite wwalk_app, W in E. cbn in E. destruct pre; [discriminate W|]. congruence.
Qed.

Lemma scan_ok b : forall pre it tail j res, scan b (length pre) it tail j = Some res -> wwalk nd 1 pre = Some it -> tail_ok pre tail j ->
  tail_ok (pre ++ b) (fst res) (snd res).
Proof.
  induction b as [|c b IH]; intros pre it tail j res H W K; cbn [scan_names] in H.
  - inversion H; subst. rewrite app_nil_r. exact K.
  - destruct (it =? 0) eqn:E0; [inversion H; subst; apply tail_ok_app; exact K|].
    destruct (wide_step nd 4 c it) as [it1|] eqn:Ew; [|discriminate].
    assert (W1 : wwalk nd 1 (pre ++ [c]) = Some it1).
    { rewrite wwalk_app, W, E0. cbn [wwalk]. rewrite Ew. destruct (it1 =? 0) eqn:E1; [f_equal; lia|reflexivity]. }
    destruct (at_end nd lim it1) as [e|] eqn:Ee; [|discriminate].
    replace (S (length pre)) with (length (pre ++ [c])) in H by (rewrite app_length; cbn; lia).
    replace (pre ++ c :: b) with ((pre ++ [c]) ++ b) by (rewrite <- app_assoc; reflexivity).
    destruct e; (eapply IH; [exact H|exact W1|]); [|apply tail_ok_app; exact K].
    right. assert (it1 <> 1). { intros ->. discriminate. }
    rewrite app_length. cbn. split; [assumption|]. split; [lia|]. split; [lia|].
    replace (length pre + 1)%nat with (length (pre ++ [c])) by (rewrite app_length; reflexivity).
    rewrite firstn_all. auto.
Qed.

Lemma scan_last b : forall pre it tail j res, scan b (length pre) it tail j = Some res -> wwalk nd 1 pre = Some it ->
  (j <= length pre)%nat -> tail_last pre j -> tail_last (pre ++ b) (snd res).
Proof.
  induction b as [|c b IH]; intros pre it tail j res H W Kj K; cbn [scan_names] in H.
  - inversion H; subst. rewrite app_nil_r. exact K.
  - destruct (it =? 0) eqn:E0. { inversion H; subst. apply dead_end; [rewrite W; f_equal; lia|exact K]. }
    destruct (wide_step nd 4 c it) as [it1|] eqn:Ew; [|discriminate].
    assert (W1 : wwalk nd 1 (pre ++ [c]) = Some it1).
    { rewrite wwalk_app, W, E0. cbn [wwalk]. rewrite Ew. destruct (it1 =? 0) eqn:E1; [f_equal; lia|reflexivity]. }
    destruct (at_end nd lim it1) as [e|] eqn:Ee; [|discriminate].
    assert (Hl : length (pre ++ [c]) = S (length pre)) by (rewrite app_length; cbn; lia).
    rewrite <- Hl in H.
    replace (pre ++ c :: b) with ((pre ++ [c]) ++ b) by (rewrite <- app_assoc; reflexivity).
    assert (St : forall n x, In (n, x) standard_names -> starts n (pre ++ [c]) -> starts n pre \/ (n = pre ++ [c] /\ e = true)).
    { intros n x Hn S1. destruct (starts_app _ _ _ S1) as [S2|(y & z & A & -> & B)]; [auto|]. right.
      destruct y as [|y1 [|]]; [contradiction| |discriminate]. inversion B; subst. split; [reflexivity|].
      destruct (name_node _ _ Hn) as (i & E & N & Ae & _). rewrite W1 in E. inversion E; subst. rewrite Ee in Ae. congruence. }
    destruct e.
    + eapply IH; [exact H|exact W1|lia|]. intros n x Hn S1. destruct S1 as [q S1]. rewrite S1, app_length. lia.
    + eapply IH; [exact H|exact W1|lia|]. intros n x Hn S1. destruct (St _ _ Hn S1) as [S2|[_ S2]]; [eapply K; eassumption|discriminate].
Qed.

(** ** The lookup *)
Lemma match_ncr_eq b : match_ncr b = match_names nd lim ncr_map b.
Proof.
  assert (B : forall p c, byte_step (node_at ncr_heap) p c = byte_step nd p c).
  { intros. unfold byte_step. rewrite <- nd_eq. destruct (nd p) as [[]|]; [|reflexivity]. rewrite <- nd_eq. reflexivity. }
  assert (Wd : forall n c p, wide_step (node_at ncr_heap) n c p = wide_step nd n c p).
  { induction n; intros; [reflexivity|]. cbn [wide_step]. rewrite B. destruct (byte_step nd p _); [|reflexivity]. destruct (z =? 0); [reflexivity|apply IHn]. }
  assert (Ae : forall i, at_end (node_at ncr_heap) lim i = at_end nd lim i).
  { intros. unfold at_end. rewrite <- nd_eq. destruct (i <=? 1); [reflexivity|]. destruct (nd i) as [[]|]; [|reflexivity]. rewrite <- nd_eq. reflexivity. }
  assert (Sc : forall l i it tail j, scan_names (node_at ncr_heap) lim l i it tail j = scan l i it tail j).
  { induction l; intros; [reflexivity|]. cbn [scan_names]. rewrite Wd. destruct (it =? 0); [reflexivity|]. destruct (wide_step nd 4 a it); [|reflexivity].
    rewrite Ae. destruct (at_end nd lim z) as [[]|]; auto. }
  unfold match_ncr. rewrite lim_ok. unfold match_names. rewrite Sc. destruct (scan b 0 1 1 0) as [[tail j]|]; [|reflexivity].
  unfold leaf_value. rewrite <- nd_eq. destruct (nd tail) as [[base k]|]; [|reflexivity]. rewrite <- nd_eq. reflexivity.
Qed.

Lemma codes_nth v l : 0 <= v -> codes mm v = Some l ->
  exists x y, nth_error ncr_map (Z.to_nat v) = Some (x, y) /\ l = x :: if y =? 0 then [] else [y].
Proof.
  intros V H. unfold codes in H. rewrite mm_eq in H. replace (v <? 0) with false in H by lia.
  destruct (nth_error ncr_map (Z.to_nat v)) as [[x y]|]; [|discriminate]. inversion H. eauto.
Qed.
Lemma leaf_nonneg i v : leaf_value nd i = Some v -> 0 <= v.
Proof.
  unfold leaf_value. destruct (nd i) as [[b k]|]; [|discriminate]. destruct (nd _) as [[w ?]|]; [|discriminate].
  destruct (w <=? 0) eqn:E; intro H; inversion H. lia.
Qed.

Lemma tail_start : tail_ok [] 1 0.
Proof. left. auto. Qed.
Lemma last_start : tail_last [] 0.
Proof. intros n c _ [r H]. destruct n; [cbn; lia|discriminate]. Qed.

Theorem match_longest b len cps : Forall (fun c => 0 <= c < 2^32) b -> match_ncr b = Some (len, cps) -> longest b len cps.
Proof.
  intros F H. rewrite match_ncr_eq in H. unfold match_names in H. destruct (scan b 0 1 1 0) as [[tail j]|] eqn:Es; [|discriminate].
  pose proof (scan_ok b [] 1 1 0 _ Es eq_refl tail_start) as K. pose proof (scan_last b [] 1 1 0%nat _ Es eq_refl (le_n _) last_start) as L.
  cbn [app fst snd] in K, L. destruct K as [(-> & ->)|(A & B & C & D & E)].
  - cbn in H. inversion H; subst. left. split; [reflexivity|]. split; [reflexivity|]. intros n c Hn St. specialize (L _ _ Hn St).
    destruct (name_node _ _ Hn) as (i & _ & _ & _ & _ & N & _). destruct n; [contradiction|cbn in L; lia].
  - replace (tail =? 1) with false in H by lia. right.
    assert (Ff : Forall (fun c => 0 <= c < 2^32) (firstn j b)).
    { apply Forall_forall. intros x Hx. rewrite Forall_forall in F. apply F. rewrite <- (firstn_skipn j b). apply in_or_app. left. exact Hx. }
    destruct (node_name _ _ Ff D E) as (cps2 & v & Hin & Hl & Hc). rewrite Hl in H.
    destruct (codes_nth _ _ (leaf_nonneg _ _ Hl) Hc) as (x & y & Hn & ->). rewrite Hn in H. inversion H; subst.
    exists (firstn len b). split; [exact Hin|]. assert (Len : length (firstn len b) = len) by (rewrite firstn_length; lia).
    split; [exists (skipn len b); symmetry; apply firstn_skipn|]. rewrite Len. split; [reflexivity|]. intros n' c' Hn' St. eapply L; eassumption.
Qed.

Theorem match_length b len cps : match_ncr b = Some (len, cps) -> (len <= length b)%nat /\ (len <= 32)%nat.
Proof.
  intro H. rewrite match_ncr_eq in H. unfold match_names in H. destruct (scan b 0 1 1 0) as [[tail j]|] eqn:Es; [|discriminate].
  pose proof (scan_ok b [] 1 1 0 _ Es eq_refl tail_start) as K. cbn [app fst snd] in K.
  destruct (tail =? 1). { inversion H; subst. lia. }
  destruct (leaf_value nd tail); [|discriminate]. destruct (nth_error ncr_map _) as [[]|]; [|discriminate]. inversion H; subst.
  destruct K as [(-> & ->)|(A & B & C & D & E)]; [lia|]. split; [exact C|].
  assert (tail <> 0) by (intros ->; discriminate).
  assert (P : Path (flat_map bytes_of (firstn len b)) tail) by (apply (wwalk_path (firstn len b) [] 1); [constructor|exact D|assumption]).
  apply path_short in P. rewrite bytes_flat_length, firstn_length in P. lia.
Qed.

(** ** Only the first 33 characters matter *)
Lemma scan_app b r : forall it i tail j, b <> [] -> it <> 0 -> (wwalk nd it b = Some 0 \/ wwalk nd it b = None) ->
  scan (b ++ r) i it tail j = scan b i it tail j.
Proof.
  induction b as [|c b IH]; intros it i tail j Nb N W; [contradiction|]. cbn [app scan_names wwalk] in *.
  replace (it =? 0) with false by lia. destruct (wide_step nd 4 c it) as [k|] eqn:Ew; [|reflexivity].
  destruct (at_end nd lim k) as [e|] eqn:Ea; [|reflexivity].
  destruct (k =? 0) eqn:Ek.
  - assert (k = 0) by lia. subst k. assert (Z0 : forall l i tail j, scan l i 0 tail j = Some (tail, j)) by (intros [|? ?]; reflexivity).
    destruct e; rewrite !Z0; reflexivity.
  - assert (b <> []). { intros ->. cbn in W. destruct W as [W|W]; [inversion W; lia|discriminate]. }
    destruct e; apply IH; auto; lia.
Qed.
Theorem match_local b r : length b = 33%nat -> match_ncr (b ++ r) = match_ncr b.
Proof.
  intro L. rewrite !match_ncr_eq. unfold match_names. rewrite scan_app; [reflexivity| |lia|].
  - intros ->. discriminate.
  - destruct (wwalk nd 1 b) as [i|] eqn:E; [left|right; reflexivity]. destruct (Z.eq_dec i 0) as [->|N]; [reflexivity|].
    assert (P : Path (flat_map bytes_of b) i) by (apply (wwalk_path b [] 1); [constructor|exact E|exact N]).
    apply path_short in P. rewrite bytes_flat_length in P. lia.
Qed.

(** ** A complete name is found, whatever follows its semicolon *)
Lemma scan_through n : forall pre it tail j r i, wwalk nd 1 pre = Some it -> it <> 0 -> wwalk nd it n = Some i -> i <> 0 -> n <> [] ->
  at_end nd lim i = Some true ->
  scan (n ++ r) (length pre) it tail j = scan r (length pre + length n) i i (length pre + length n).
Proof.
  induction n as [|c n IH]; intros pre it tail j r i W N Wn Ni Nn Ae; [contradiction|].
  cbn [app scan_names wwalk] in *. replace (it =? 0) with false by lia.
  destruct (wide_step nd 4 c it) as [k|] eqn:Ew; [|discriminate]. destruct (k =? 0) eqn:Ek; [inversion Wn; congruence|].
  assert (W1 : wwalk nd 1 (pre ++ [c]) = Some k).
  { rewrite wwalk_app, W. replace (it =? 0) with false by lia. cbn [wwalk]. rewrite Ew, Ek. reflexivity. }
  assert (Hl : length (pre ++ [c]) = S (length pre)) by (rewrite app_length; cbn; lia).
  destruct n as [|c1 n].
  - cbn in Wn. inversion Wn; subst k. rewrite Ae. cbn [app length]. replace (length pre + 1)%nat with (S (length pre)) by lia. reflexivity.
  - assert (P : Path (flat_map bytes_of (pre ++ [c])) k) by (apply (wwalk_path (pre ++ [c]) [] 1); [constructor|exact W1|lia]).
    pose proof (path_at_end _ _ P) as Pa. replace (length pre + length (c :: c1 :: n))%nat with (length (pre ++ [c]) + length (c1 :: n))%nat by (cbn [length] in *; lia).
    rewrite <- Hl. destruct (at_end nd lim k) as [[]|]; [..|contradiction]; apply (IH (pre ++ [c])); auto; try lia; discriminate.
Qed.
Lemma found n cps i tail j : names_node n cps i -> tail = i -> j = length n ->
  (if tail =? 1 then Some (O, []) else match leaf_value nd tail with
   | None => None | Some v => match nth_error ncr_map (Z.to_nat v) with None => None | Some (x, y) => Some (j, x :: if y =? 0 then [] else [y]) end end)
  = Some (length n, cps).
Proof.
  intros (_ & N & Ae & (v & Hl & Hc) & _) -> ->. assert (i <> 1) by (intros ->; discriminate Ae). replace (i =? 1) with false by lia.
  rewrite Hl. destruct (codes_nth _ _ (leaf_nonneg _ _ Hl) Hc) as (x & y & -> & ->). reflexivity.
Qed.
Theorem match_semicolon n cps r : In (n, cps) standard_names -> last n 0 = 0x3B -> match_ncr (n ++ r) = Some (length n, cps).
Proof.
  intros Hin L. destruct (name_node _ _ Hin) as (i & K). pose proof K as (W & N & Ae & _ & Nn & _ & _ & Le). destruct (Le L) as (b & k & Hb & B0).
  rewrite match_ncr_eq. unfold match_names. pose proof (scan_through n [] 1 1 0%nat r i eq_refl ltac:(lia) W N Nn Ae) as Hs. cbn [length Nat.add] in Hs. rewrite Hs.
  destruct r as [|c r]; [cbn [scan_names]; eapply found; eauto|]. cbn [scan_names]. replace (i =? 0) with false by lia.
  cbn [wide_step]. unfold byte_step. rewrite Hb. replace (b <=? 0) with true by lia. cbn [Z.eqb]. cbn [at_end Z.leb Z.compare].
  destruct r as [|c1 r]; cbn [scan_names]; eapply found; eauto.
Qed.
Theorem match_whole n cps : In (n, cps) standard_names -> match_ncr n = Some (length n, cps).
Proof.
  intros Hin. destruct (name_node _ _ Hin) as (i & K). pose proof K as (W & N & Ae & _ & Nn & _).
  rewrite match_ncr_eq. unfold match_names. pose proof (scan_through n [] 1 1 0%nat [] i eq_refl ltac:(lia) W N Nn Ae) as Hs. rewrite app_nil_r in Hs. cbn [length Nat.add] in Hs. rewrite Hs.
  cbn [scan_names]. eapply found; eauto.
Qed.

(** ** A character that starts no name *)
Definition no_start (c : Z) : bool := negb (is_ascii_alphanumeric c) && (0 <=? c) && (c <? 0x80).
Lemma no_start_checked : forallb (fun i => let c := Z.of_nat i in negb (no_start c) ||
  match wide_step (node_at ncr_heap) 4 c 1 with Some 0 => true | _ => false end) (seq 0 128) = true.
Proof. vm_compute. reflexivity. Qed.
Lemma match_other c r : no_start c = true -> match_ncr (c :: r) = Some (O, []).
Proof.
  intro H. pose proof no_start_checked as K. rewrite forallb_forall in K. assert (Hc : 0 <= c < 128) by (unfold no_start in H; lia).
  specialize (K (Z.to_nat c)). cbv zeta in K. rewrite Z2Nat.id in K by lia. rewrite H in K. cbn [negb orb] in K.
  unfold match_ncr, match_names. cbn [scan_names]. change (1 =? 0) with false. cbv iota.
  destruct (wide_step (node_at ncr_heap) 4 c 1) as [[|p|p]|]; try (exfalso; assert (false = true) by (apply K; apply in_seq; lia); discriminate).
  cbn [at_end Z.leb Z.compare]. destruct r; reflexivity.
Qed.
