(** Each multi-byte decoder reads back what its encoder writes for one code point. *)
From Coq Require Import ZArith List Bool Lia.
From Verif Require Import M_unicode L_unicode M_infra M_percent M_encoding L_encoding L_encoding2 L_enc_utf8 L_enc_codec L_enc_tables.
From Verif Require Import M_index_single M_index_big5 M_index_euc_kr M_index_gb18030 M_index_jis.
Import ListNotations.
Open Scope Z_scope.

Lemma eat2 d d1 a b cp : run d [] (Item a false) = Some (Continue, d1, plain []) ->
  run d1 [] (Item b false) = Some (Out cp, d, plain []) -> exists k, forall m, eats m d [a; b] cp d k.
Proof.
  intros A B. exists 2%nat. intros m. eapply eat1; [exact A|]. apply eat_out, B.
Qed.

Lemma eat_one d a cp : run d [] (Item a false) = Some (Out cp, d, plain []) -> exists k, forall m, eats m d [a] cp d k.
Proof. intros A. exists 1%nat. intros m. apply eat_out, A. Qed.

Lemma ascii_small v : is_ascii v = true -> v mod 256 = v.
Proof. unfold is_ascii. intros H. apply Z.mod_small. lia. Qed.
Lemma ascii_range v : is_ascii v = true -> 0 <= v <= 0x7F.
Proof. unfold is_ascii. lia. Qed.

(** Decide the comparisons of the goal. *)
Ltac zq := repeat match goal with
  | |- context [?a <=? ?b] => first [ replace (a <=? b) with true by (symmetry; apply Z.leb_le; zdiv)
                                    | replace (a <=? b) with false by (symmetry; apply Z.leb_gt; zdiv) ]
  | |- context [?a <? ?b] => first [ replace (a <? b) with true by (symmetry; apply Z.ltb_lt; zdiv)
                                    | replace (a <? b) with false by (symmetry; apply Z.ltb_ge; zdiv) ]
  | |- context [?a =? ?b] => first [ replace (a =? b) with true by (symmetry; apply Z.eqb_eq; zdiv)
                                   | replace (a =? b) with false by (symmetry; apply Z.eqb_neq; zdiv) ]
  end.
Ltac op := cbn [run]; unfold euc_kr_decoder_run, euc_jp_decoder_run, sjis_decoder_run, big5_decoder_run, gb_decoder_run,
  user_decoder_run, single_decoder_run, is_ascii, in_range;
  cbn [eoq value andb negb]; cbv zeta; rewrite ?(Z.mod_small _ 256) by zdiv.
Ltac dec := op; zq; cbn [andb orb negb].

(** * EUC-KR *)

Lemma euc_kr_pair p cp : 0 <= p < 23940 -> get_index_code_point index_code_point_euc_kr p = Some cp ->
  exists k, forall m, eats m (EUC_KR_decoder 0) [(p / 190 + 0x81) mod 256; (p mod 190 + 0x41) mod 256] [cp] (EUC_KR_decoder 0) k.
Proof.
  intros P G. apply eat2 with (d1 := EUC_KR_decoder (p / 190 + 0x81)); dec; [reflexivity|].
  replace ((p / 190 + 129 - 129) * 190 + (p mod 190 + 65 - 65)) with p by zdiv.
  rewrite (Z.mod_small p 65536) by lia. rewrite G. reflexivity.
Qed.

Lemma euc_kr_back : decodes_back EUC_KR_encoder (EUC_KR_decoder 0) (fun _ => True) (fun v => v).
Proof.
  intros v l _ H. cbn [run] in H. unfold euc_kr_encoder_run in H. cbn [eoq value] in H.
  destruct (is_ascii v) eqn:A.
  - assert (l = [v mod 256]) as -> by congruence. rewrite ascii_small by exact A. apply ascii_range in A.
    apply eat_one. dec. reflexivity.
  - destruct (get_index_pointer index_pointer_euc_kr_0 index_pointer_euc_kr_1 v) as [p|] eqn:P; [|discriminate].
    destruct (consistent_ok _ _ _ _ _ _ euc_kr_ok ltac:(lia) P) as (P1 & _ & G).
    assert (l = [(p / 190 + 0x81) mod 256; (p mod 190 + 0x41) mod 256]) as -> by congruence.
    apply euc_kr_pair; assumption.
Qed.

(** * GBK and the two-byte part of gb18030 *)

Definition gb0 := GB_decoder 0 0 0.

Lemma gb_pair p cp : 0 <= p < 23940 -> get_index_code_point index_code_point_gb18030 p = Some cp ->
  exists k, forall m, eats m gb0 [(p / 190 + 0x81) mod 256; (p mod 190 + (if p mod 190 <? 0x3F then 0x40 else 0x41)) mod 256]
    [cp] gb0 k.
Proof.
  intros P G. apply eat2 with (d1 := GB_decoder (p / 190 + 0x81) 0 0); unfold gb0.
  - dec. reflexivity.
  - destruct (p mod 190 <? 0x3F) eqn:T; apply Z.ltb_lt in T || apply Z.ltb_ge in T; dec.
    + replace ((p / 190 + 129 - 129) * 190 + (p mod 190 + 64 - 64)) with p by zdiv. rewrite G. reflexivity.
    + replace ((p / 190 + 129 - 129) * 190 + (p mod 190 + 65 - 65)) with p by zdiv. rewrite G. reflexivity.
Qed.

Lemma gbk_back : decodes_back (GB_encoder true) gb0 (fun _ => True) (fun v => v).
Proof.
  intros v l _ H. cbn [run] in H. unfold gb_encoder_run in H. cbn [eoq value] in H.
  destruct (is_ascii v) eqn:A.
  - assert (l = [v mod 256]) as -> by congruence. rewrite ascii_small by exact A. apply ascii_range in A.
    apply eat_one. unfold gb0. dec. reflexivity.
  - destruct (v =? 0xE5E5); [discriminate|]. cbn [andb] in H. destruct (v =? 0x20AC) eqn:E.
    { assert (l = [0x80]) as -> by congruence. apply Z.eqb_eq in E as ->. apply eat_one. reflexivity. }
    destruct (get_index_pointer index_pointer_gb18030_0 index_pointer_gb18030_1 v) as [p|] eqn:P; [|discriminate].
    destruct (consistent_ok _ _ _ _ _ _ gb18030_ok ltac:(lia) P) as (P1 & _ & G). cbv zeta in H.
    assert (l = [(p / 190 + 0x81) mod 256; (p mod 190 + (if p mod 190 <? 0x3F then 0x40 else 0x41)) mod 256]) as -> by congruence.
    apply gb_pair; assumption.
Qed.

(** * EUC-JP *)

Definition jp_norm (v : Z) : Z :=
  if v =? 0xA5 then 0x5C else if v =? 0x203E then 0x7E else if v =? 0x2212 then 0xFF0D else v.

Lemma euc_jp_pair p cp : 0 <= p < 8836 -> get_index_code_point index_code_point_jis0208 p = Some cp ->
  exists k, forall m, eats m (EUC_JP_decoder false 0) [(p / 94 + 0xA1) mod 256; (p mod 94 + 0xA1) mod 256] [cp] (EUC_JP_decoder false 0) k.
Proof.
  intros P G. apply eat2 with (d1 := EUC_JP_decoder false (p / 94 + 0xA1)); dec; [reflexivity|].
  replace ((p / 94 + 161 - 161) * 94 + (p mod 94 + 161) - 161) with p by zdiv.
  rewrite (Z.mod_small p 65536) by lia. rewrite G. reflexivity.
Qed.

Lemma euc_jp_back : decodes_back EUC_JP_encoder (EUC_JP_decoder false 0) (fun _ => True) jp_norm.
Proof.
  intros v l _ H. cbn [run] in H. unfold euc_jp_encoder_run in H. cbn [eoq value] in H. unfold jp_norm.
  destruct (is_ascii v) eqn:A.
  - assert (l = [v mod 256]) as -> by congruence. rewrite ascii_small by exact A. apply ascii_range in A.
    replace (v =? 0xA5) with false by lia. replace (v =? 0x203E) with false by lia.
    replace (v =? 0x2212) with false by lia. apply eat_one. dec. reflexivity.
  - destruct (v =? 0xA5).
    { assert (l = [0x5C]) as -> by congruence. apply eat_one. reflexivity. }
    destruct (v =? 0x203E).
    { assert (l = [0x7E]) as -> by congruence. apply eat_one. reflexivity. }
    unfold in_range in H. destruct ((0xFF61 <=? v) && (v <=? 0xFF9F)) eqn:K.
    { replace (v =? 0x2212) with false by lia.
      assert (l = [0x8E; (v - 0xFF61 + 0xA1) mod 256]) as -> by congruence.
      apply andb_true_iff in K as [K1 K2]. apply Z.leb_le in K1, K2.
      apply eat2 with (d1 := EUC_JP_decoder false 0x8E); [reflexivity|]. dec.
      replace (0xFF61 - 0xA1 + (v - 0xFF61 + 0xA1)) with v by lia. reflexivity. }
    cbv zeta in H.
    destruct (get_index_pointer index_pointer_jis0208_0 index_pointer_jis0208_1 (if v =? 8722 then 65293 else v)) as [p|] eqn:P; [|discriminate].
    destruct (consistent_ok _ _ _ _ _ _ jis0208_ok ltac:(lia) P) as (P1 & _ & G).
    assert (l = [(p / 94 + 0xA1) mod 256; (p mod 94 + 0xA1) mod 256]) as -> by congruence.
    apply euc_jp_pair; assumption.
Qed.

(** * Shift_JIS *)

Lemma sjis_not_eudc v p : get_index_pointer index_pointer_Shift_JIS_0 index_pointer_Shift_JIS_1 v = Some p -> p < 8836 \/ 10715 < p.
Proof.
  unfold get_index_pointer. destruct (nth_error index_pointer_Shift_JIS_0 (lower_bound index_pointer_Shift_JIS_0 v)) as [y|]; [|discriminate].
  destruct (y =? v); [|discriminate]. intros H. apply nth_error_In in H.
  pose proof (proj1 (forallb_forall _ _) sjis_no_eudc p H) as X. cbn beta in X. lia.
Qed.

Lemma sjis_pair p cp : 0 <= p < 11280 -> p < 8836 \/ 10715 < p -> get_index_code_point index_code_point_jis0208 p = Some cp ->
  exists k, forall m, eats m (SJIS_decoder 0)
    [((p / 188) mod 256 + (if (p / 188) mod 256 <? 0x1F then 0x81 else 0xC1)) mod 256;
     ((p mod 188) mod 256 + (if (p mod 188) mod 256 <? 0x3F then 0x40 else 0x41)) mod 256] [cp] (SJIS_decoder 0) k.
Proof.
  intros P N G. rewrite (Z.mod_small (p / 188) 256) by zdiv. rewrite (Z.mod_small (p mod 188) 256) by zdiv.
  assert (X : (in_range 8836 p 10715) = false) by (unfold in_range; lia).
  destruct (p / 188 <? 0x1F) eqn:A; [apply Z.ltb_lt in A|apply Z.ltb_ge in A].
  - apply eat2 with (d1 := SJIS_decoder (p / 188 + 0x81)); [dec; reflexivity|].
    destruct (p mod 188 <? 0x3F) eqn:B; [apply Z.ltb_lt in B|apply Z.ltb_ge in B]; dec.
    + replace ((p / 188 + 129 - 129) * 188 + (p mod 188 + 64) - 64) with p by zdiv. rewrite (Z.mod_small p 65536) by lia.
      unfold in_range in X. rewrite X, G. reflexivity.
    + replace ((p / 188 + 129 - 129) * 188 + (p mod 188 + 65) - 65) with p by zdiv. rewrite (Z.mod_small p 65536) by lia.
      unfold in_range in X. rewrite X, G. reflexivity.
  - apply eat2 with (d1 := SJIS_decoder (p / 188 + 0xC1)); [dec; reflexivity|].
    destruct (p mod 188 <? 0x3F) eqn:B; [apply Z.ltb_lt in B|apply Z.ltb_ge in B]; dec.
    + replace ((p / 188 + 193 - 193) * 188 + (p mod 188 + 64) - 64) with p by zdiv. rewrite (Z.mod_small p 65536) by lia.
      unfold in_range in X. rewrite X, G. reflexivity.
    + replace ((p / 188 + 193 - 193) * 188 + (p mod 188 + 65) - 65) with p by zdiv. rewrite (Z.mod_small p 65536) by lia.
      unfold in_range in X. rewrite X, G. reflexivity.
Qed.

Lemma sjis_back : decodes_back SJIS_encoder (SJIS_decoder 0) (fun _ => True) jp_norm.
Proof.
  intros v l _ H. cbn [run] in H. unfold sjis_encoder_run in H. cbn [eoq value] in H. unfold jp_norm.
  destruct (is_ascii v || (v =? 0x80)) eqn:A.
  - assert (l = [v mod 256]) as -> by congruence.
    assert (0 <= v <= 0x80) by (unfold is_ascii in A; lia). rewrite Z.mod_small by lia.
    replace (v =? 0xA5) with false by lia. replace (v =? 0x203E) with false by lia.
    replace (v =? 0x2212) with false by lia. apply eat_one. op. unfold is_ascii in A. cbn [negb]. rewrite A. reflexivity.
  - destruct (v =? 0xA5).
    { assert (l = [0x5C]) as -> by congruence. apply eat_one. reflexivity. }
    destruct (v =? 0x203E).
    { assert (l = [0x7E]) as -> by congruence. apply eat_one. reflexivity. }
    unfold in_range in H. destruct ((0xFF61 <=? v) && (v <=? 0xFF9F)) eqn:K.
    { replace (v =? 0x2212) with false by lia.
      assert (l = [(v - 0xFF61 + 0xA1) mod 256]) as -> by congruence.
      apply andb_true_iff in K as [K1 K2]. apply Z.leb_le in K1, K2.
      apply eat_one. dec. replace (0xFF61 - 0xA1 + (v - 0xFF61 + 0xA1)) with v by lia. reflexivity. }
    cbv zeta in H.
    destruct (get_index_pointer index_pointer_Shift_JIS_0 index_pointer_Shift_JIS_1 (if v =? 8722 then 65293 else v)) as [p|] eqn:P; [|discriminate].
    destruct (consistent_ok _ _ _ _ _ _ sjis_ok ltac:(lia) P) as (P1 & _ & G). apply sjis_not_eudc in P.
    assert (l = [((p / 188) mod 256 + (if (p / 188) mod 256 <? 0x1F then 0x81 else 0xC1)) mod 256;
     ((p mod 188) mod 256 + (if (p mod 188) mod 256 <? 0x3F then 0x40 else 0x41)) mod 256]) as -> by congruence.
    apply sjis_pair; assumption.
Qed.

(** * Big5: only pointers whose trail byte is below 0x7F are read back *)

Definition big5_pointer := get_index_pointer index_pointer_big5_0 index_pointer_big5_1.

Lemma big5_specials : forallb (fun p => negb ((p =? 1133) || (p =? 1135) || (p =? 1164) || (p =? 1166))) index_pointer_big5_1 = true.
Proof. vm_compute. reflexivity. Qed.

Lemma big5_pair p cp : 0 <= p < 19782 -> p mod 157 < 0x3F ->
  (p =? 1133) = false -> (p =? 1135) = false -> (p =? 1164) = false -> (p =? 1166) = false ->
  get_index_code_point index_code_point_big5 p = Some cp ->
  exists k, forall m, eats m (Big5_decoder 0)
    [(p / 157 + 0x81) mod 256; ((p mod 157) mod 256 + (if (p mod 157) mod 256 <? 0x3F then 0x40 else 0x62)) mod 256] [cp] (Big5_decoder 0) k.
Proof.
  intros P T N1 N2 N3 N4 G. rewrite (Z.mod_small (p mod 157) 256) by zdiv. replace (p mod 157 <? 0x3F) with true by lia.
  apply eat2 with (d1 := Big5_decoder (p / 157 + 0x81)); dec; [reflexivity|].
  replace ((p / 157 + 129 - 129) * 157 + (p mod 157 + 64 - 64)) with p by zdiv. rewrite (Z.mod_small p 65536) by lia.
  rewrite N1, N2, N3, N4, G. reflexivity.
Qed.

Lemma big5_back : decodes_back Big5_encoder (Big5_decoder 0)
  (fun v => forall p, big5_pointer v = Some p -> p mod 157 < 0x3F) (fun v => v).
Proof.
  intros v l HP H. cbn [run] in H. unfold big5_encoder_run in H. cbn [eoq value] in H.
  destruct (is_ascii v) eqn:A.
  - assert (l = [v mod 256]) as -> by congruence. rewrite ascii_small by exact A. apply ascii_range in A.
    apply eat_one. dec. reflexivity.
  - unfold big5_pointer in HP.
    destruct (get_index_pointer index_pointer_big5_0 index_pointer_big5_1 v) as [p|] eqn:P; [|discriminate].
    destruct (consistent_ok _ _ _ _ _ _ big5_ok ltac:(lia) P) as (P1 & _ & G). cbv zeta in H.
    assert (X : negb ((p =? 1133) || (p =? 1135) || (p =? 1164) || (p =? 1166)) = true).
    { unfold get_index_pointer in P.
      destruct (nth_error index_pointer_big5_0 (lower_bound index_pointer_big5_0 v)) as [y|]; [|discriminate].
      destruct (y =? v); [|discriminate]. apply nth_error_In in P.
      exact (proj1 (forallb_forall _ _) big5_specials p P). }
    assert (l = [(p / 157 + 0x81) mod 256; ((p mod 157) mod 256 + (if (p mod 157) mod 256 <? 0x3F then 0x40 else 0x62)) mod 256]) as -> by congruence.
    apply big5_pair; try assumption; try lia. apply HP. reflexivity.
Qed.

(** * x-user-defined *)

Lemma user_back : decodes_back User_encoder User_decoder (fun _ => True) (fun v => v).
Proof.
  intros v l _ H. cbn [run] in H. unfold user_encoder_run in H. cbn [eoq value] in H.
  destruct (is_ascii v) eqn:A.
  - assert (l = [v mod 256]) as -> by congruence. rewrite ascii_small by exact A. apply ascii_range in A.
    apply eat_one. dec. reflexivity.
  - unfold in_range in H. destruct ((0xF780 <=? v) && (v <=? 0xF7FF)) eqn:K; [|discriminate].
    assert (l = [(v - 0xF780 + 0x80) mod 256]) as -> by congruence.
    apply andb_true_iff in K as [K1 K2]. apply Z.leb_le in K1, K2.
    apply eat_one. dec. replace (0xF780 + (v - 0xF780 + 0x80) - 0x80) with v by lia. reflexivity.
Qed.
