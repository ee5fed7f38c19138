(** The index tables are consistent: every pointer the encoders find leads back to its code point. *)
From Coq Require Import ZArith List Bool Lia FMapPositive.
From Verif Require Import M_encoding L_encoding.
From Verif Require Import M_index_single M_index_big5 M_index_euc_kr M_index_gb18030 M_index_jis.
Import ListNotations.
Open Scope Z_scope.

(** * A fast copy of a table *)

Fixpoint mk (i : positive) (l : list Z) (m : PositiveMap.t Z) : PositiveMap.t Z :=
  match l with
  | [] => m
  | x :: r => mk (Pos.succ i) r (PositiveMap.add i x m)
  end.

Lemma mk_below l : forall i m j, (j < i)%positive -> PositiveMap.find j (mk i l m) = PositiveMap.find j m.
Proof.
  induction l as [|x l IH]; intros i m j H; [reflexivity|]. cbn [mk]. rewrite IH by lia.
  apply PositiveMap.gso. lia.
Qed.

Lemma mk_find l : forall i m n, (forall j, (i <= j)%positive -> PositiveMap.find j m = None) ->
  PositiveMap.find (Pos.of_succ_nat n + i - 1)%positive (mk i l m) = nth_error l n.
Proof.
  induction l as [|x l IH]; intros i m n H.
  - cbn [mk]. rewrite H by lia. destruct n; reflexivity.
  - cbn [mk]. destruct n as [|n].
    + replace (Pos.of_succ_nat 0 + i - 1)%positive with i by lia. rewrite mk_below by lia.
      apply PositiveMap.gss.
    + replace (Pos.of_succ_nat (S n) + i - 1)%positive with (Pos.of_succ_nat n + Pos.succ i - 1)%positive by lia.
      rewrite IH; [reflexivity|]. intros j L. rewrite PositiveMap.gso by lia. apply H. lia.
Qed.

Definition fast (l : list Z) : PositiveMap.t Z := mk 1 l (PositiveMap.empty Z).
Definition get (m : PositiveMap.t Z) (p : Z) : option Z := PositiveMap.find (Z.to_pos (p + 1)) m.

Lemma get_fast l p : 0 <= p -> get (fast l) p = nth_error l (Z.to_nat p).
Proof.
  intros H. unfold get, fast. rewrite <- (mk_find l 1 (PositiveMap.empty Z) (Z.to_nat p)).
  - f_equal. lia.
  - intros j _. apply PositiveMap.gempty.
Qed.

(** * Checking a pair of tables *)

Definition consistent (t t0 t1 : list Z) (lim : Z) : bool :=
  let m := fast t in
  forallb (fun e : Z * Z => let '(cp, p) := e in
    (0 <=? p) && (p <? lim) && (0x80 <=? cp) && (cp <? 0x110000) &&
    match get m p with Some x => x =? cp | None => false end) (combine t0 t1).

Lemma nth_combine {A B} (a : list A) : forall (b : list B) n x y,
  nth_error a n = Some x -> nth_error b n = Some y -> In (x, y) (combine a b).
Proof.
  induction a as [|u a IH]; intros [|v b] [|n] x y; cbn; try discriminate.
  - intros [= ->] [= ->]. now left.
  - intros E F. right. eauto.
Qed.

Lemma consistent_ok t t0 t1 lim cp p : consistent t t0 t1 lim = true -> lim <= 65536 ->
  get_index_pointer t0 t1 cp = Some p ->
  0 <= p < lim /\ 0x80 <= cp < 0x110000 /\ get_index_code_point t p = Some cp.
Proof.
  intros C L H. unfold get_index_pointer in H.
  destruct (nth_error t0 (lower_bound t0 cp)) as [y|] eqn:E; [|discriminate].
  destruct (y =? cp) eqn:Y; [|discriminate]. apply Z.eqb_eq in Y as ->.
  pose proof (nth_combine _ _ _ _ _ E H) as I. unfold consistent in C. rewrite forallb_forall in C.
  specialize (C _ I). cbn beta iota in C. rewrite !andb_true_iff in C.
  destruct C as [[[[C1 C2] C3] C4] C5].
  apply Z.leb_le in C1, C3. apply Z.ltb_lt in C2, C4. split; [lia|]. split; [lia|].
  rewrite get_fast in C5 by lia. unfold get_index_code_point. rewrite Z.mod_small by lia.
  destruct (nth_error t (Z.to_nat p)) as [x|]; [|discriminate]. apply Z.eqb_eq in C5 as ->.
  replace (cp =? 4294967295) with false by lia. reflexivity.
Qed.

(** * The tables *)

Lemma euc_kr_ok : consistent index_code_point_euc_kr index_pointer_euc_kr_0 index_pointer_euc_kr_1 23940 = true.
Proof. vm_compute. reflexivity. Qed.
Lemma gb18030_ok : consistent index_code_point_gb18030 index_pointer_gb18030_0 index_pointer_gb18030_1 23940 = true.
Proof. vm_compute. reflexivity. Qed.
Lemma jis0208_ok : consistent index_code_point_jis0208 index_pointer_jis0208_0 index_pointer_jis0208_1 8836 = true.
Proof. vm_compute. reflexivity. Qed.
Lemma big5_ok : consistent index_code_point_big5 index_pointer_big5_0 index_pointer_big5_1 19782 = true.
Proof. vm_compute. reflexivity. Qed.
Lemma sjis_ok : consistent index_code_point_jis0208 index_pointer_Shift_JIS_0 index_pointer_Shift_JIS_1 11280 = true.
Proof. vm_compute. reflexivity. Qed.

(** No entry of the Shift_JIS table is in the range of end-user-defined characters. *)
Lemma sjis_no_eudc : forallb (fun p => (p <? 8836) || (10715 <? p)) index_pointer_Shift_JIS_1 = true.
Proof. vm_compute. reflexivity. Qed.
