(** The pointers that the encoders find are the least ones of the indexes. *)
From Coq Require Import ZArith List Bool Lia FMapPositive.
From Verif Require Import M_unicode L_unicode M_infra M_percent M_encoding L_encoding L_encoding2 L_enc_utf8 L_enc_misc L_enc_codec L_enc_tables L_enc_multi L_enc_gb L_enc_jp L_enc_single L_decoders L_decoders2 L_decoders3.
From Verif Require Import M_index_single M_index_big5 M_index_euc_kr M_index_gb18030 M_index_jis.
Import ListNotations.
Open Scope Z_scope.

(** The first place of a code point in an index, from a lower limit on. *)
Definition least (t : list Z) (lo v p : Z) : Prop :=
  lo <= p /\ entry t p = Some v /\ forall p', lo <= p' -> entry t p' = Some v -> p <= p'.
Definition absent (t : list Z) (lo v : Z) : Prop := forall p, lo <= p -> entry t p <> Some v.

Fixpoint risingb (l : list Z) : bool :=
  match l with
  | [] => true
  | x :: r => match r with [] => true | y :: _ => (x <=? y) && risingb r end
  end.
Fixpoint assoc (l : list (Z * Z)) (v : Z) : option Z :=
  match l with [] => None | (x, p) :: r => if x =? v then Some p else assoc r v end.
Lemma risingb_all x l : risingb (x :: l) = true -> Forall (fun y => x <= y) l.
Proof.
  revert x. induction l as [|y l IH]; intros x H; [constructor|]. cbn [risingb] in H. apply andb_true_iff in H as [H1 H2]. constructor; [lia|].
  specialize (IH y H2). eapply Forall_impl; [|exact IH]. cbn. lia.
Qed.
Lemma risingb_tail x l : risingb (x :: l) = true -> risingb l = true.
Proof. destruct l; [reflexivity|]. cbn [risingb]. intros H. now apply andb_true_iff in H. Qed.
Lemma assoc_above l v : Forall (fun e => v < fst e) l -> assoc l v = None.
Proof. induction 1 as [|[x p] l H _ IH]; [reflexivity|]. cbn [assoc fst] in *. replace (x =? v) with false by lia. exact IH. Qed.
Lemma pointer_assoc t0 : forall t1 v, risingb t0 = true -> length t0 = length t1 -> get_index_pointer t0 t1 v = assoc (combine t0 t1) v.
Proof.
  induction t0 as [|y t0 IH]; intros [|p t1] v R L; cbn in L; try discriminate; [reflexivity|]. cbn [combine assoc]. unfold get_index_pointer. cbn [lower_bound].
  destruct (y <? v) eqn:C.
  - replace (y =? v) with false by lia. cbn [nth_error]. rewrite <- IH; [reflexivity|eapply risingb_tail, R|lia].
  - cbn [nth_error]. destruct (y =? v) eqn:E; [reflexivity|]. symmetry. apply assoc_above. apply risingb_all in R. apply Forall_forall. intros [x q] I. apply in_combine_l in I. rewrite Forall_forall in R. specialize (R x I). cbn [fst]. lia.
Qed.

Definition pairs_map (l : list (Z * Z)) : PositiveMap.t Z := fold_right (fun e m => PositiveMap.add (Z.to_pos (fst e + 1)) (snd e) m) (PositiveMap.empty Z) l.
Lemma pairs_find l v : Forall (fun e => 0 <= fst e) l -> 0 <= v -> PositiveMap.find (Z.to_pos (v + 1)) (pairs_map l) = assoc l v.
Proof.
  intros F V. induction F as [|[x p] l H _ IH]; [apply PositiveMap.gempty|]. cbn [pairs_map fold_right assoc fst snd] in *. destruct (x =? v) eqn:E.
  - apply Z.eqb_eq in E. subst x. apply PositiveMap.gss.
  - rewrite PositiveMap.gso by lia. exact IH.
Qed.

(** Every code point of the index, from the place [lo] on, is found, at that place or before. *)
Fixpoint all_found (m : PositiveMap.t Z) (lo p : Z) (l : list Z) : bool :=
  match l with
  | [] => true
  | x :: r =>
      (if (x =? 4294967295) || (p <? lo) then true
       else match PositiveMap.find (Z.to_pos (x + 1)) m with Some q => q <=? p | None => false end)
      && all_found m lo (p + 1) r
  end.
Definition exact_tables (t t0 t1 : list Z) (lo : Z) : bool :=
  risingb t0 && (length t0 =? length t1)%nat && forallb (fun x => 0 <=? x) t0 && forallb (fun p => lo <=? p) t1 && forallb (fun x => 0 <=? x) t
  && all_found (pairs_map (combine t0 t1)) lo 0 t.

Lemma all_found_at m lo l : forall p i x, all_found m lo p l = true -> nth_error l i = Some x -> x <> 4294967295 -> lo <= p + Z.of_nat i ->
  exists q, PositiveMap.find (Z.to_pos (x + 1)) m = Some q /\ q <= p + Z.of_nat i.
Proof.
  induction l as [|y l IH]; intros p [|i] x A E N L; cbn [nth_error] in E; try discriminate; cbn [all_found] in A; apply andb_true_iff in A as [A1 A2].
  - injection E as ->. replace (x =? 4294967295) with false in A1 by lia. replace (p <? lo) with false in A1 by lia. cbn [orb] in A1. destruct (PositiveMap.find _ m) as [q|]; [|discriminate]. exists q. split; [reflexivity|]. lia.
  - destruct (IH (p + 1) i x A2 E N ltac:(lia)) as (q & Q1 & Q2). exists q. split; [exact Q1|]. lia.
Qed.

Lemma entry_some t p v : entry t p = Some v -> nth_error t (Z.to_nat p) = Some v /\ v <> 4294967295.
Proof. unfold entry. destruct (nth_error t (Z.to_nat p)) as [x|]; [|discriminate]. destruct (x =? 4294967295) eqn:E; [discriminate|]. intros [= ->]. split; [reflexivity|lia]. Qed.

Lemma exact_pointer t t0 t1 lo lim : consistent t t0 t1 lim = true -> lim <= 65536 -> exact_tables t t0 t1 lo = true -> 0 <= lo ->
  forall v, match get_index_pointer t0 t1 v with Some p => 0 <= p < lim /\ least t lo v p | None => absent t lo v end.
Proof.
  intros C Lim X Lo v. unfold exact_tables in X. rewrite !andb_true_iff in X. destruct X as [[[[[X1 X2] X3] X4] X5] X6]. apply Nat.eqb_eq in X2.
  assert (F0 : Forall (fun e => 0 <= fst e) (combine t0 t1)).
  { apply Forall_forall. intros [x q] I. apply in_combine_l in I. rewrite forallb_forall in X3. specialize (X3 x I). cbn [fst]. lia. }
  assert (Found : forall p, lo <= p -> entry t p = Some v -> exists q, get_index_pointer t0 t1 v = Some q /\ q <= p).
  { intros p Hp E. apply entry_some in E as [E N]. assert (V : 0 <= v). { rewrite forallb_forall in X5. specialize (X5 v (nth_error_In _ _ E)). lia. }
    destruct (all_found_at _ _ _ _ _ _ X6 E N ltac:(lia)) as (q & Q1 & Q2). exists q. rewrite (pointer_assoc t0 t1 v X1 X2), <- (pairs_find _ _ F0 V). split; [exact Q1|lia]. }
  destruct (get_index_pointer t0 t1 v) as [p|] eqn:G.
  - destruct (consistent_ok _ _ _ _ _ _ C Lim G) as (P & R & K). split; [exact P|]. split; [|split].
    + rewrite (pointer_assoc t0 t1 v X1 X2) in G. assert (I : In p t1).
      { clear - G. revert G. induction (combine t0 t1) as [|[x q] l IH] eqn:E in t0, t1 |- *; [discriminate|]. destruct t0 as [|y t0]; [discriminate|]. destruct t1 as [|z t1]; [discriminate|]. cbn [combine] in E. injection E as <- <- E. cbn [assoc]. destruct (y =? v); [intros [= ->]; now left|]. intros K. right. eapply IH; eauto. }
      rewrite forallb_forall in X4. specialize (X4 p I). lia.
    + rewrite <- entry_model by lia. exact K.
    + intros p' L' E'. destruct (Found p' L' E') as (q & Q1 & Q2). congruence.
  - intros p Hp E. destruct (Found p Hp E) as (q & Q1 & _). congruence.
Qed.

Lemma euc_kr_exact : exact_tables index_code_point_euc_kr index_pointer_euc_kr_0 index_pointer_euc_kr_1 0 = true.
Proof. vm_compute. reflexivity. Qed.
Lemma gb18030_exact : exact_tables index_code_point_gb18030 index_pointer_gb18030_0 index_pointer_gb18030_1 0 = true.
Proof. vm_compute. reflexivity. Qed.
Lemma jis0208_exact : exact_tables index_code_point_jis0208 index_pointer_jis0208_0 index_pointer_jis0208_1 0 = true.
Proof. vm_compute. reflexivity. Qed.
Lemma sjis_exact : exact_tables index_code_point_jis0208 index_pointer_Shift_JIS_0 index_pointer_Shift_JIS_1 0 = true.
Proof. vm_compute. reflexivity. Qed.
Lemma big5_exact : exact_tables index_code_point_big5 index_pointer_big5_0 index_pointer_big5_1 5024 = true.
Proof. vm_compute. reflexivity. Qed.

(** * What is written for one code point *)

(** A decimal character reference. *)
Definition reference (v : Z) (b : list Z) : Prop := exists ds, decimal v ds /\ b = [0x26; 0x23] ++ ds ++ [0x3B].
(** The bytes of the first place of the index, or a reference. *)
Definition by_index (t : list Z) (lo : Z) (bytes : Z -> list Z) (v : Z) (b : list Z) : Prop :=
  (exists p, least t lo v p /\ b = bytes p) \/ (absent t lo v /\ reference v b).
Definition euc_kr_bytes (p : Z) : list Z := [p / 190 + 0x81; p mod 190 + 0x41].
Definition gb_bytes (p : Z) : list Z := [p / 190 + 0x81; p mod 190 + (if p mod 190 <? 0x3F then 0x40 else 0x41)].
Definition gb_four_bytes (p : Z) : list Z := [p / 12600 + 0x81; p mod 12600 / 1260 + 0x30; p mod 1260 / 10 + 0x81; p mod 10 + 0x30].
Definition big5_bytes (p : Z) : list Z := [p / 157 + 0x81; p mod 157 + (if p mod 157 <? 0x3F then 0x40 else 0x62)].
Definition euc_jp_bytes (p : Z) : list Z := [p / 94 + 0xA1; p mod 94 + 0xA1].
Definition sjis_bytes (p : Z) : list Z := [p / 188 + (if p / 188 <? 0x1F then 0x81 else 0xC1); p mod 188 + (if p mod 188 <? 0x3F then 0x40 else 0x41)].
Definition wide_minus (v : Z) : Z := if v =? 0x2212 then 0xFF0D else v.

Definition euc_kr_writes (v : Z) (b : list Z) : Prop :=
  if v <=? 0x7F then b = [v] else by_index index_code_point_euc_kr 0 euc_kr_bytes v b.
Definition gbk_writes (v : Z) (b : list Z) : Prop :=
  if v <=? 0x7F then b = [v]
  else if v =? 0xE5E5 then reference v b
  else if v =? 0x20AC then b = [0x80]
  else by_index index_code_point_gb18030 0 gb_bytes v b.
Definition gb18030_writes (v : Z) (b : list Z) : Prop :=
  if v <=? 0x7F then b = [v]
  else if v =? 0xE5E5 then reference v b
  else if v =? 0x10000 then b = gb_four_bytes 57928
  else (exists p, least index_code_point_gb18030 0 v p /\ b = gb_bytes p) \/
       (absent index_code_point_gb18030 0 v /\ exists p, 0 <= p /\ range_cp p = Some v /\ b = gb_four_bytes p).
Definition big5_writes (v : Z) (b : list Z) : Prop :=
  if v <=? 0x7F then b = [v] else by_index index_code_point_big5 5024 big5_bytes v b.
Definition euc_jp_writes (v : Z) (b : list Z) : Prop :=
  if v <=? 0x7F then b = [v]
  else if v =? 0xA5 then b = [0x5C]
  else if v =? 0x203E then b = [0x7E]
  else if within 0xFF61 v 0xFF9F then b = [0x8E; v - 0xFF61 + 0xA1]
  else by_index index_code_point_jis0208 0 euc_jp_bytes (wide_minus v) b.
Definition sjis_writes (v : Z) (b : list Z) : Prop :=
  if v <=? 0x80 then b = [v]
  else if v =? 0xA5 then b = [0x5C]
  else if v =? 0x203E then b = [0x7E]
  else if within 0xFF61 v 0xFF9F then b = [v - 0xFF61 + 0xA1]
  else by_index index_code_point_jis0208 0 sjis_bytes (wide_minus v) b.
Definition single_writes (t : list Z) (v : Z) (b : list Z) : Prop :=
  if v <=? 0x7F then b = [v] else by_index t 0 (fun p => [p + 0x80]) v b.
Definition user_writes (v : Z) (b : list Z) : Prop :=
  if v <=? 0x7F then b = [v] else if within 0xF780 v 0xF7FF then b = [v - 0xF780 + 0x80] else reference v b.

(** A text is written code point by code point. *)
Definition encodes (n : encoding_name) (w : Z -> list Z -> Prop) (s : list Z) : Prop := exists N ps, Forall2 w s ps /\
  forall fuel, (N <= fuel)%nat -> exists c q, encode fuel (to_queue s) n [] = Val (Finished, c, q, to_queue (concat ps)).

Lemma encodes_by n e w s : get_encoding_encoder n = Some e -> is_enc e ->
  (forall v, In v s -> exists r, run e [] (Item v false) = Some (r, e, []) /\ w v (emit Html r)) -> encodes n w s.
Proof.
  intros E Ie H. exists (S (length s)), (map (one Html e) s).
  assert (D : Forall (fun v => run e [] (Item v false) <> None) s).
  { apply Forall_forall. intros v Hv. destruct (H v Hv) as (r & R & _). rewrite R. discriminate. }
  split.
  - clear D. induction s as [|v s IH]; [constructor|]. cbn [map]. constructor; [|apply IH; intros u Hu; apply H; now right].
    destruct (H v (or_introl eq_refl)) as (r & R & W). unfold one. rewrite R. exact W.
  - intros fuel L. unfold encode. rewrite E. rewrite <- flat_map_concat_map.
    destruct (proc_finish _ _ _ _ _ _ _ _ (enc_html e s Ie D) (enc_ends Html e Ie) fuel ltac:(lia)) as (c & q & R).
    exists c, q. rewrite app_nil_r in R. exact R.
Qed.

Lemma reference_html v : 0 <= v -> reference v (emit Html (Error v)).
Proof. intros V. exists (to_chars 10 v). split; [apply to_chars_decimal, V|reflexivity]. Qed.
Lemma ascii_le v : 0 <= v -> is_ascii v = (v <=? 0x7F).
Proof. unfold is_ascii. lia. Qed.

Lemma euc_kr_enc v : 0 <= v -> exists r, run EUC_KR_encoder [] (Item v false) = Some (r, EUC_KR_encoder, []) /\ euc_kr_writes v (emit Html r).
Proof.
  intros V. cbn [run]. unfold euc_kr_encoder_run, euc_kr_writes. cbn [eoq value]. cbv zeta. rewrite (ascii_le v V). destruct (v <=? 0x7F) eqn:A.
  - eexists. split; [reflexivity|]. cbn [emit]. rewrite Z.mod_small by lia. reflexivity.
  - pose proof (exact_pointer _ _ _ _ _ euc_kr_ok ltac:(lia) euc_kr_exact ltac:(lia) v) as X. destruct (get_index_pointer _ _ v) as [p|].
    + destruct X as [B L]. eexists. split; [reflexivity|]. left. exists p. split; [exact L|]. cbn [emit]. unfold euc_kr_bytes. rewrite !(Z.mod_small _ 256) by zdiv. reflexivity.
    + eexists. split; [reflexivity|]. right. split; [exact X|apply reference_html, V].
Qed.

Lemma gbk_enc v : 0 <= v -> exists r, run (GB_encoder true) [] (Item v false) = Some (r, GB_encoder true, []) /\ gbk_writes v (emit Html r).
Proof.
  intros V. cbn [run]. unfold gb_encoder_run, gbk_writes. cbn [eoq value andb]. cbv zeta. rewrite (ascii_le v V). destruct (v <=? 0x7F) eqn:A.
  - eexists. split; [reflexivity|]. cbn [emit]. rewrite Z.mod_small by lia. reflexivity.
  - destruct (v =? 0xE5E5); [eexists; split; [reflexivity|apply reference_html, V]|]. destruct (v =? 0x20AC); [eexists; split; reflexivity|].
    pose proof (exact_pointer _ _ _ _ _ gb18030_ok ltac:(lia) gb18030_exact ltac:(lia) v) as X. destruct (get_index_pointer _ _ v) as [p|].
    + destruct X as [B L]. eexists. split; [reflexivity|]. left. exists p. split; [exact L|]. cbn [emit]. unfold gb_bytes. rewrite !(Z.mod_small _ 256) by (destruct (p mod 190 <? 0x3F); zdiv). reflexivity.
    + eexists. split; [reflexivity|]. right. split; [exact X|apply reference_html, V].
Qed.

Lemma four_mods p : 0 <= p < 126 * 12600 ->
  [((p / 12600) mod 256 + 0x81) mod 256; ((p mod 12600 / 1260) mod 256 + 0x30) mod 256;
   ((p mod 12600 mod 1260 / 10) mod 256 + 0x81) mod 256; ((p mod 12600 mod 1260 mod 10) mod 256 + 0x30) mod 256] = gb_four_bytes p.
Proof.
  intros P. unfold gb_four_bytes. assert (M1 : p mod 12600 mod 1260 = p mod 1260).
  { change 12600 with (10 * 1260). rewrite Z.mul_comm, Z.rem_mul_r by lia. rewrite Z.mul_comm, Z.mod_add by lia. apply Z.mod_mod. lia. }
  assert (M2 : p mod 1260 mod 10 = p mod 10).
  { change 1260 with (10 * 126). rewrite Z.rem_mul_r by lia. rewrite Z.mul_comm, Z.mod_add by lia. apply Z.mod_mod. lia. }
  rewrite M1, M2.
  assert (0 <= p / 12600 < 126) by zdiv. assert (0 <= p mod 12600 / 1260 < 10).
  { pose proof (Z.mod_pos_bound p 12600 ltac:(lia)) as B. revert B. generalize (p mod 12600). intros; zdiv. }
  assert (0 <= p mod 1260 / 10 < 126).
  { pose proof (Z.mod_pos_bound p 1260 ltac:(lia)) as B. revert B. generalize (p mod 1260). intros; zdiv. }
  pose proof (Z.mod_pos_bound p 10 ltac:(lia)).
  rewrite (Z.mod_small (p / 12600) 256), (Z.mod_small (p mod 12600 / 1260) 256), (Z.mod_small (p mod 1260 / 10) 256), (Z.mod_small (p mod 10) 256) by lia.
  rewrite !(Z.mod_small (_ + _) 256) by lia. reflexivity.
Qed.
Lemma gb18030_enc v : scalar v -> v <= 0x10000 -> exists r, run (GB_encoder false) [] (Item v false) = Some (r, GB_encoder false, []) /\ gb18030_writes v (emit Html r).
Proof.
  intros Sc M. assert (V : 0 <= v) by (unfold scalar in Sc; lia). destruct (Z.eq_dec v 0x10000) as [->|Ne].
  { eexists. split; [vm_compute; reflexivity|]. vm_compute. reflexivity. }
  cbn [run]. unfold gb_encoder_run, gb18030_writes. cbn [eoq value andb]. cbv zeta. rewrite (ascii_le v V). destruct (v <=? 0x7F) eqn:A.
  - eexists. split; [reflexivity|]. cbn [emit]. rewrite Z.mod_small by lia. reflexivity.
  - destruct (v =? 0xE5E5) eqn:E5; [eexists; split; [reflexivity|apply reference_html, V]|]. replace (v =? 0x10000) with false by lia.
    pose proof (exact_pointer _ _ _ _ _ gb18030_ok ltac:(lia) gb18030_exact ltac:(lia) v) as X. destruct (get_index_pointer _ _ v) as [p|] eqn:P.
    + destruct X as [B L]. eexists. split; [reflexivity|]. left. exists p. split; [exact L|]. cbn [emit]. unfold gb_bytes. rewrite !(Z.mod_small _ 256) by (destruct (p mod 190 <? 0x3F); zdiv). reflexivity.
    + destruct (gb_ranges_back v ltac:(lia) Sc ltac:(lia) P) as (p & X1 & X2 & X3). rewrite X1. eexists. split; [reflexivity|]. right. split; [exact X|]. exists p. split; [lia|]. split.
      * pose proof (range_model p ltac:(lia)) as R. rewrite X3 in R. destruct (within 189001 p 1237575); [discriminate|]. congruence.
      * cbn [emit]. apply four_mods, X2.
Qed.
(** Above U+10000 the search for the range runs off the table. *)
Lemma gb18030_breaks v : 0x10000 < v -> run (GB_encoder false) [] (Item v false) = None.
Proof.
  intros V. cbn [run]. unfold gb_encoder_run. cbn [eoq value andb]. cbv zeta. rewrite (ascii_le v) by lia. replace (v <=? 0x7F) with false by lia. replace (v =? 0xE5E5) with false by lia.
  pose proof (exact_pointer _ _ _ _ _ gb18030_ok ltac:(lia) gb18030_exact ltac:(lia) v) as X. destruct (get_index_pointer _ _ v) as [p|] eqn:P.
  - exfalso. destruct X as [B (_ & E & _)]. apply entry_some in E as [E _]. apply nth_error_In in E.
    assert (K : forallb (fun x => (x <=? 0x10000) || (x =? 4294967295)) index_code_point_gb18030 = true) by (vm_compute; reflexivity).
    pose proof (consistent_ok _ _ _ _ _ _ gb18030_ok ltac:(lia) P) as (_ & R & _). rewrite forallb_forall in K. specialize (K v E). lia.
  - unfold get_index_gb18030_ranges_pointer. replace (v =? 0xE7C7) with false by lia. unfold range_find.
    assert (K : forallb (fun x => x <=? 0x10000) (map fst index_pointer_gb18030_ranges) = true) by (vm_compute; reflexivity).
    assert (Lb : forall l, forallb (fun x => x <=? 0x10000) l = true -> lower_bound l v = length l).
    { clear - V. induction l as [|x l IH]; [reflexivity|]. cbn [forallb lower_bound length]. intros H. apply andb_true_iff in H as [H1 H2]. replace (x <? v) with true by lia. now rewrite IH. }
    rewrite (Lb _ K). rewrite (proj2 (nth_error_None _ _)) by (rewrite map_length; lia). reflexivity.
Qed.

Lemma big5_enc v : 0 <= v -> exists r, run Big5_encoder [] (Item v false) = Some (r, Big5_encoder, []) /\ big5_writes v (emit Html r).
Proof.
  intros V. cbn [run]. unfold big5_encoder_run, big5_writes. cbn [eoq value]. cbv zeta. rewrite (ascii_le v V). destruct (v <=? 0x7F) eqn:A.
  - eexists. split; [reflexivity|]. cbn [emit]. rewrite Z.mod_small by lia. reflexivity.
  - pose proof (exact_pointer _ _ _ _ _ big5_ok ltac:(lia) big5_exact ltac:(lia) v) as X. destruct (get_index_pointer _ _ v) as [p|].
    + destruct X as [B L]. eexists. split; [reflexivity|]. left. exists p. split; [exact L|]. cbn [emit]. unfold big5_bytes.
      assert (0 <= p / 157 < 126) by zdiv. pose proof (Z.mod_pos_bound p 157 ltac:(lia)). rewrite (Z.mod_small (p mod 157) 256) by lia.
      rewrite !(Z.mod_small _ 256) by (destruct (p mod 157 <? 0x3F) eqn:?; lia). reflexivity.
    + eexists. split; [reflexivity|]. right. split; [exact X|apply reference_html, V].
Qed.

Lemma wide_minus_error v : 0 <= v -> absent index_code_point_jis0208 0 (wide_minus v) -> wide_minus v = v.
Proof.
  unfold wide_minus. intros V A. destruct (v =? 0x2212); [|reflexivity]. exfalso. apply (A 60); [lia|]. vm_compute. reflexivity.
Qed.
Lemma wide_minus_pos v : 0 <= v -> 0 <= wide_minus v.
Proof. unfold wide_minus. destruct (v =? 0x2212); lia. Qed.
Lemma euc_jp_enc v : 0 <= v -> exists r, run EUC_JP_encoder [] (Item v false) = Some (r, EUC_JP_encoder, []) /\ euc_jp_writes v (emit Html r).
Proof.
  intros V. cbn [run]. unfold euc_jp_encoder_run, euc_jp_writes. cbn [eoq value]. cbv zeta. rewrite (ascii_le v V). destruct (v <=? 0x7F) eqn:A.
  - eexists. split; [reflexivity|]. cbn [emit]. rewrite Z.mod_small by lia. reflexivity.
  - destruct (v =? 0xA5); [eexists; split; reflexivity|]. destruct (v =? 0x203E); [eexists; split; reflexivity|]. change (in_range 0xFF61 v 0xFF9F) with (within 0xFF61 v 0xFF9F).
    destruct (within 0xFF61 v 0xFF9F) eqn:W; [eexists; split; [reflexivity|]; cbn [emit]; unfold within in W; rewrite Z.mod_small by lia; reflexivity|].
    fold (wide_minus v). pose proof (wide_minus_pos v V) as V'.
    pose proof (exact_pointer _ _ _ _ _ jis0208_ok ltac:(lia) jis0208_exact ltac:(lia) (wide_minus v)) as X. destruct (get_index_pointer _ _ (wide_minus v)) as [p|].
    + destruct X as [B L]. eexists. split; [reflexivity|]. left. exists p. split; [exact L|]. cbn [emit]. unfold euc_jp_bytes. rewrite !(Z.mod_small _ 256) by zdiv. reflexivity.
    + eexists. split; [reflexivity|]. right. split; [exact X|apply reference_html, V'].
Qed.
Lemma sjis_enc v : 0 <= v -> exists r, run SJIS_encoder [] (Item v false) = Some (r, SJIS_encoder, []) /\ sjis_writes v (emit Html r).
Proof.
  intros V. cbn [run]. unfold sjis_encoder_run, sjis_writes. cbn [eoq value]. cbv zeta. replace (is_ascii v || (v =? 0x80)) with (v <=? 0x80) by (unfold is_ascii; lia). destruct (v <=? 0x80) eqn:A.
  - eexists. split; [reflexivity|]. cbn [emit]. rewrite Z.mod_small by lia. reflexivity.
  - destruct (v =? 0xA5); [eexists; split; reflexivity|]. destruct (v =? 0x203E); [eexists; split; reflexivity|]. change (in_range 0xFF61 v 0xFF9F) with (within 0xFF61 v 0xFF9F).
    destruct (within 0xFF61 v 0xFF9F) eqn:W; [eexists; split; [reflexivity|]; cbn [emit]; unfold within in W; rewrite Z.mod_small by lia; reflexivity|].
    fold (wide_minus v). pose proof (wide_minus_pos v V) as V'.
    pose proof (exact_pointer _ _ _ _ _ sjis_ok ltac:(lia) sjis_exact ltac:(lia) (wide_minus v)) as X. destruct (get_index_pointer _ _ (wide_minus v)) as [p|].
    + destruct X as [B L]. eexists. split; [reflexivity|]. left. exists p. split; [exact L|]. cbn [emit]. unfold sjis_bytes.
      assert (0 <= p / 188 < 60) by zdiv. pose proof (Z.mod_pos_bound p 188 ltac:(lia)). rewrite (Z.mod_small (p / 188) 256), (Z.mod_small (p mod 188) 256) by lia.
      rewrite !(Z.mod_small _ 256) by (destruct (p / 188 <? 0x1F) eqn:?, (p mod 188 <? 0x3F) eqn:?; lia). reflexivity.
    + eexists. split; [reflexivity|]. right. split; [exact X|apply reference_html, V'].
Qed.
Lemma user_enc v : 0 <= v -> exists r, run User_encoder [] (Item v false) = Some (r, User_encoder, []) /\ user_writes v (emit Html r).
Proof.
  intros V. cbn [run]. unfold user_encoder_run, user_writes. cbn [eoq value]. cbv zeta. rewrite (ascii_le v V). destruct (v <=? 0x7F) eqn:A.
  - eexists. split; [reflexivity|]. cbn [emit]. rewrite Z.mod_small by lia. reflexivity.
  - change (in_range 0xF780 v 0xF7FF) with (within 0xF780 v 0xF7FF). destruct (within 0xF780 v 0xF7FF) eqn:W; eexists; (split; [reflexivity|]); [|apply reference_html, V].
    cbn [emit]. unfold within in W. rewrite Z.mod_small by lia. reflexivity.
Qed.

(** The single-byte tables. *)
Definition single_exact (n : encoding_name) : bool :=
  match get_encoding_decoder n, get_encoding_encoder n with
  | Single_decoder t, Some (Single_encoder t0 t1) => consistent t t0 t1 128 && exact_tables t t0 t1 0
  | Single_decoder t, _ => false
  | _, _ => true
  end.
Lemma singles_exact n : single_exact n = true.
Proof. destruct n; vm_compute; reflexivity. Qed.
Lemma single_enc t t0 t1 v : consistent t t0 t1 128 = true -> exact_tables t t0 t1 0 = true -> 0 <= v ->
  exists r, run (Single_encoder t0 t1) [] (Item v false) = Some (r, Single_encoder t0 t1, []) /\ single_writes t v (emit Html r).
Proof.
  intros C X V. cbn [run]. unfold single_encoder_run, single_writes. cbn [eoq value]. cbv zeta. rewrite (ascii_le v V). destruct (v <=? 0x7F) eqn:A.
  - eexists. split; [reflexivity|]. cbn [emit]. rewrite Z.mod_small by lia. reflexivity.
  - pose proof (exact_pointer _ _ _ _ _ C ltac:(lia) X ltac:(lia) v) as Y. destruct (get_index_pointer _ _ v) as [p|].
    + destruct Y as [B L]. eexists. split; [reflexivity|]. left. exists p. split; [exact L|]. cbn [emit]. rewrite Z.mod_small by lia. reflexivity.
    + eexists. split; [reflexivity|]. right. split; [exact Y|apply reference_html, V].
Qed.
