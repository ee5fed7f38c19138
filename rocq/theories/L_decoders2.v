(** Each legacy decoder follows its division of the bytes. *)
From Coq Require Import ZArith List Bool Lia.
From Verif Require Import M_unicode M_infra M_percent M_encoding L_encoding L_encoding2 L_enc_utf8 L_decoders.
From Verif Require Import M_index_single M_index_big5 M_index_euc_kr M_index_gb18030 M_index_jis.
Import ListNotations.
Open Scope Z_scope.

Lemma entry_model t p : 0 <= p < 65536 -> get_index_code_point t p = entry t p.
Proof. intros H. unfold get_index_code_point, entry. rewrite Z.mod_small by exact H. destruct (nth_error _ _); reflexivity. Qed.
Lemma ascii_byte a : byte a -> is_ascii a = (a <=? 0x7F).
Proof. unfold byte, is_ascii. intros H. replace (0 <=? a) with true by lia. reflexivity. Qed.
Lemma byte_mod a : byte a -> a mod 256 = a.
Proof. intros H. apply Z.mod_small. exact H. Qed.
Lemma bytes_cons a l : Forall byte (a :: l) -> byte a /\ Forall byte l.
Proof. intros H. inversion H. now split. Qed.
Lemma not_zero a : 0 < a -> (a =? 0) = false. Proof. lia. Qed.
Lemma prep_plain v : q_prepend_value [] v = plain [v]. Proof. reflexivity. Qed.

Ltac ev := cbn [eoq value andb orb negb]; cbv zeta.

(** * EUC-KR *)

Lemma euc_kr_first a : byte a -> run (EUC_KR_decoder 0) [] (Item a false) =
  if a <=? 0x7F then Some (Out [a], EUC_KR_decoder 0, plain []) else if within 0x81 a 0xFE then Some (Continue, EUC_KR_decoder a, plain []) else Some (Error no_cp, EUC_KR_decoder 0, plain []).
Proof. intros B. cbn [run]. unfold euc_kr_decoder_run. ev. rewrite (byte_mod a B), (ascii_byte a B). reflexivity. Qed.
Lemma euc_kr_second a b : within 0x81 a 0xFE = true -> byte b -> run (EUC_KR_decoder a) [] (Item b false) =
  match (if within 0x41 b 0xFE then entry index_code_point_euc_kr ((a - 0x81) * 190 + (b - 0x41)) else None) with
  | Some cp => Some (Out [cp], EUC_KR_decoder 0, plain [])
  | None => Some (Error no_cp, EUC_KR_decoder 0, plain (if b <=? 0x7F then [b] else []))
  end.
Proof.
  intros A B. cbn [run]. unfold euc_kr_decoder_run. ev. rewrite (byte_mod b B), (ascii_byte b B). unfold within in *. rewrite (not_zero a) by lia. cbn [negb].
  unfold in_range. destruct ((65 <=? b) && (b <=? 254)) eqn:W.
  - rewrite (Z.mod_small _ 65536), entry_model by lia. destruct (entry _ _); [reflexivity|]. destruct (b <=? 0x7F); reflexivity.
  - destruct (b <=? 0x7F); reflexivity.
Qed.
Lemma euc_kr_trace n : forall l, (length l <= n)%nat -> Forall byte l -> trace (EUC_KR_decoder 0) l (euc_kr_pieces l).
Proof.
  induction n as [|n IH]; intros [|a r] L F; cbn [length] in L; try lia; [now apply tr_end|now apply tr_end|].
  apply bytes_cons in F as [Ba F]. pose proof (euc_kr_first a Ba) as Ha. cbn [euc_kr_pieces].
  destruct (a <=? 0x7F); [eapply tr_text; [exact Ha|]; apply IH; auto; cbn; lia|].
  destruct (within 0x81 a 0xFE) eqn:Wa; [|eapply tr_wrong; [exact Ha|]; apply IH; auto; cbn; lia].
  eapply tr_more; [exact Ha|]. cbn [app]. destruct r as [|b r].
  - apply tr_cut with (c' := EUC_KR_decoder 0) (e := no_cp); auto. intros q. exists q. split; [|now left]. cbn [run]. unfold euc_kr_decoder_run, within in *. cbn [eoq andb end_of_queue]. rewrite (not_zero a) by lia. reflexivity.
  - pose proof F as F0. apply bytes_cons in F as [Bb F]. pose proof (euc_kr_second a b Wa Bb) as Hb. cbn [length] in L.
    destruct (if within 0x41 b 0xFE then _ else None) as [cp|].
    + eapply tr_text; [exact Hb|]. apply IH; auto. cbn. lia.
    + eapply tr_wrong; [exact Hb|]. destruct (b <=? 0x7F); cbn [app]; apply IH; auto; cbn [length]; lia.
Qed.

(** * Shift_JIS *)

Lemma sjis_first a : byte a -> run (SJIS_decoder 0) [] (Item a false) =
  if a <=? 0x80 then Some (Out [a], SJIS_decoder 0, plain []) else if within 0xA1 a 0xDF then Some (Out [0xFF61 + (a - 0xA1)], SJIS_decoder 0, plain [])
  else if within 0x81 a 0x9F || within 0xE0 a 0xFC then Some (Continue, SJIS_decoder a, plain []) else Some (Error no_cp, SJIS_decoder 0, plain []).
Proof.
  intros B. cbn [run]. unfold sjis_decoder_run. ev. rewrite (byte_mod a B), (ascii_byte a B). replace ((a <=? 0x7F) || (a =? 0x80)) with (a <=? 0x80) by lia.
  change (in_range 0xA1 a 0xDF) with (within 0xA1 a 0xDF). replace (0xFF61 - 0xA1 + a) with (0xFF61 + (a - 0xA1)) by lia. reflexivity.
Qed.
Lemma sjis_second a b : within 0x81 a 0x9F || within 0xE0 a 0xFC = true -> byte b -> run (SJIS_decoder a) [] (Item b false) =
  match sjis_pair a b with
  | Some cp => Some (Out [cp], SJIS_decoder 0, plain [])
  | None => Some (Error no_cp, SJIS_decoder 0, plain (if b <=? 0x7F then [b] else []))
  end.
Proof.
  intros A B. cbn [run]. unfold sjis_decoder_run. ev. rewrite (byte_mod b B), (ascii_byte b B). unfold sjis_pair, within in *. rewrite (not_zero a) by lia. cbn [negb].
  unfold in_range. destruct ((64 <=? b) && (b <=? 126) || (128 <=? b) && (b <=? 252)) eqn:W; [|destruct (b <=? 0x7F); reflexivity].
  replace (a <? 0xA0) with (a <=? 0x9F) by lia. replace (b <? 0x7F) with (b <=? 0x7E) by lia.
  set (o := if b <=? 126 then 64 else 65). set (lo := if a <=? 159 then 129 else 193).
  assert (Ho : 0 <= b - o <= 187) by (unfold o; destruct (b <=? 126) eqn:?; lia).
  assert (Hl : 0 <= a - lo <= 59) by (unfold lo; destruct (a <=? 159) eqn:?; lia).
  replace ((a - lo) * 188 + b - o) with ((a - lo) * 188 + (b - o)) by lia. rewrite (Z.mod_small _ 65536) by lia.
  destruct ((240 <=? a) && (a <=? 249)) eqn:P.
  - assert (lo = 193) by (unfold lo; destruct (a <=? 159) eqn:?; lia). replace ((8836 <=? (a - lo) * 188 + (b - o)) && ((a - lo) * 188 + (b - o) <=? 10715)) with true by lia.
    f_equal. f_equal. f_equal. f_equal. f_equal. lia.
  - replace ((8836 <=? (a - lo) * 188 + (b - o)) && ((a - lo) * 188 + (b - o) <=? 10715)) with false.
    + rewrite entry_model by lia. destruct (entry _ _); [reflexivity|]. destruct (b <=? 0x7F); reflexivity.
    + unfold lo in *. destruct (a <=? 159) eqn:?; lia.
Qed.
Lemma sjis_trace n : forall l, (length l <= n)%nat -> Forall byte l -> trace (SJIS_decoder 0) l (sjis_pieces l).
Proof.
  induction n as [|n IH]; intros [|a r] L F; cbn [length] in L; try lia; [now apply tr_end|now apply tr_end|].
  apply bytes_cons in F as [Ba F]. pose proof (sjis_first a Ba) as Ha. cbn [sjis_pieces].
  destruct (a <=? 0x80); [eapply tr_text; [exact Ha|]; apply IH; auto; cbn; lia|].
  destruct (within 0xA1 a 0xDF); [eapply tr_text; [exact Ha|]; apply IH; auto; cbn; lia|].
  destruct (within 0x81 a 0x9F || within 0xE0 a 0xFC) eqn:Wa; [|eapply tr_wrong; [exact Ha|]; apply IH; auto; cbn; lia].
  eapply tr_more; [exact Ha|]. cbn [app]. destruct r as [|b r].
  - apply tr_cut with (c' := SJIS_decoder 0) (e := no_cp); auto. intros q. exists q. split; [|now left]. cbn [run]. unfold sjis_decoder_run, within in *. cbn [eoq andb end_of_queue]. rewrite (not_zero a) by lia. reflexivity.
  - pose proof F as F0. apply bytes_cons in F as [Bb F]. pose proof (sjis_second a b Wa Bb) as Hb. cbn [length] in L.
    destruct (sjis_pair a b) as [cp|].
    + eapply tr_text; [exact Hb|]. apply IH; auto. cbn. lia.
    + eapply tr_wrong; [exact Hb|]. destruct (b <=? 0x7F); cbn [app]; apply IH; auto; cbn [length]; lia.
Qed.

(** * Big5 *)

Lemma big5_first a : byte a -> run (Big5_decoder 0) [] (Item a false) =
  if a <=? 0x7F then Some (Out [a], Big5_decoder 0, plain []) else if within 0x81 a 0xFE then Some (Continue, Big5_decoder a, plain []) else Some (Error no_cp, Big5_decoder 0, plain []).
Proof. intros B. cbn [run]. unfold big5_decoder_run. ev. rewrite (byte_mod a B), (ascii_byte a B). reflexivity. Qed.
Lemma big5_second a b : within 0x81 a 0xFE = true -> byte b -> run (Big5_decoder a) [] (Item b false) =
  match big5_pair false a b with
  | Some t => Some (Out t, Big5_decoder 0, plain [])
  | None => Some (Error no_cp, Big5_decoder 0, plain (if b <=? 0x7F then [b] else []))
  end.
Proof.
  intros A B. cbn [run]. unfold big5_decoder_run. ev. rewrite (byte_mod b B), (ascii_byte b B). unfold big5_pair, within in *. rewrite (not_zero a) by lia. cbn [negb andb]. rewrite orb_false_r.
  unfold in_range. destruct ((64 <=? b) && (b <=? 126)) eqn:W; [|destruct (b <=? 0x7F); reflexivity].
  replace (b <? 0x7F) with true by lia. replace (b <=? 0x7E) with true by lia. rewrite (Z.mod_small _ 65536) by lia.
  replace ((a - 129) * 157 + (b - 64) =? 1133) with ((a =? 0x88) && (b =? 0x62)) by lia. destruct ((a =? 0x88) && (b =? 0x62)) eqn:?; [reflexivity|].
  replace ((a - 129) * 157 + (b - 64) =? 1135) with ((a =? 0x88) && (b =? 0x64)) by lia. destruct ((a =? 0x88) && (b =? 0x64)) eqn:?; [reflexivity|].
  replace ((a - 129) * 157 + (b - 64) =? 1164) with false by lia. replace ((a - 129) * 157 + (b - 64) =? 1166) with false by lia.
  replace ((a =? 0x88) && (b =? 0xA3)) with false by lia. replace ((a =? 0x88) && (b =? 0xA5)) with false by lia.
  rewrite entry_model by lia. destruct (entry _ _); [reflexivity|]. cbn [option_map]. destruct (b <=? 0x7F); reflexivity.
Qed.
Lemma big5_trace n : forall l, (length l <= n)%nat -> Forall byte l -> trace (Big5_decoder 0) l (big5_pieces false l).
Proof.
  induction n as [|n IH]; intros [|a r] L F; cbn [length] in L; try lia; [now apply tr_end|now apply tr_end|].
  apply bytes_cons in F as [Ba F]. pose proof (big5_first a Ba) as Ha. cbn [big5_pieces].
  destruct (a <=? 0x7F); [eapply tr_text; [exact Ha|]; apply IH; auto; cbn; lia|].
  destruct (within 0x81 a 0xFE) eqn:Wa; [|eapply tr_wrong; [exact Ha|]; apply IH; auto; cbn; lia].
  eapply tr_more; [exact Ha|]. cbn [app]. destruct r as [|b r].
  - apply tr_cut with (c' := Big5_decoder 0) (e := no_cp); auto. intros q. exists q. split; [|now left]. cbn [run]. unfold big5_decoder_run, within in *. cbn [eoq andb end_of_queue]. rewrite (not_zero a) by lia. reflexivity.
  - pose proof F as F0. apply bytes_cons in F as [Bb F]. pose proof (big5_second a b Wa Bb) as Hb. cbn [length] in L.
    destruct (big5_pair false a b) as [cp|].
    + eapply tr_text; [exact Hb|]. apply IH; auto. cbn. lia.
    + eapply tr_wrong; [exact Hb|]. destruct (b <=? 0x7F); cbn [app]; apply IH; auto; cbn [length]; lia.
Qed.

(** * EUC-JP *)

Lemma euc_jp_first a : byte a -> run (EUC_JP_decoder false 0) [] (Item a false) =
  if a <=? 0x7F then Some (Out [a], EUC_JP_decoder false 0, plain []) else if (a =? 0x8E) || (a =? 0x8F) || within 0xA1 a 0xFE then Some (Continue, EUC_JP_decoder false a, plain []) else Some (Error no_cp, EUC_JP_decoder false 0, plain []).
Proof. intros B. cbn [run]. unfold euc_jp_decoder_run. ev. rewrite (byte_mod a B), (ascii_byte a B). change (0 =? 0x8E) with false. change (0 =? 0x8F) with false. reflexivity. Qed.
Definition euc_jp_two (a b : Z) : option Z :=
  if a =? 0x8E then (if within 0xA1 b 0xDF then Some (0xFF61 + (b - 0xA1)) else None)
  else if a =? 0x8F then None else kuten index_code_point_jis0208 a b.
Lemma euc_jp_second a b : (a =? 0x8E) || (a =? 0x8F) || within 0xA1 a 0xFE = true -> byte b -> (a =? 0x8F) && within 0xA1 b 0xFE = false ->
  run (EUC_JP_decoder false a) [] (Item b false) =
  match euc_jp_two a b with
  | Some cp => Some (Out [cp], EUC_JP_decoder false 0, plain [])
  | None => Some (Error no_cp, EUC_JP_decoder false 0, plain (if b <=? 0x7F then [b] else []))
  end.
Proof.
  intros A B N. cbn [run]. unfold euc_jp_decoder_run. ev. rewrite (byte_mod b B), (ascii_byte b B). unfold euc_jp_two, kuten, within in *. unfold in_range. rewrite (not_zero a) by lia. cbn [negb].
  rewrite N. destruct (a =? 0x8E) eqn:E1; cbn [andb].
  - destruct ((161 <=? b) && (b <=? 223)); [f_equal; f_equal; f_equal; f_equal; f_equal; lia|].
    replace ((161 <=? a) && (a <=? 254)) with false by lia. cbn [andb]. destruct (b <=? 0x7F); reflexivity.
  - destruct (a =? 0x8F) eqn:E2.
    + replace ((161 <=? a) && (a <=? 254)) with false by lia. cbn [andb]. destruct (b <=? 0x7F); reflexivity.
    + replace ((161 <=? a) && (a <=? 254)) with true by lia. cbn [andb]. destruct ((161 <=? b) && (b <=? 254)) eqn:W.
      * replace ((a - 161) * 94 + b - 161) with ((a - 161) * 94 + (b - 161)) by lia. rewrite (Z.mod_small _ 65536), entry_model by lia. destruct (entry _ _); [reflexivity|]. destruct (b <=? 0x7F); reflexivity.
      * destruct (b <=? 0x7F); reflexivity.
Qed.
Lemma euc_jp_mark b : within 0xA1 b 0xFE = true -> run (EUC_JP_decoder false 0x8F) [] (Item b false) = Some (Continue, EUC_JP_decoder true b, plain []).
Proof.
  intros W. assert (B : byte b) by (unfold byte, within in *; lia). cbn [run]. unfold euc_jp_decoder_run. ev. rewrite (byte_mod b B). change (0x8F =? 0x8E) with false. change (0x8F =? 0x8F) with true. cbn [andb].
  change (in_range 0xA1 b 0xFE) with (within 0xA1 b 0xFE). rewrite W. reflexivity.
Qed.
Lemma euc_jp_third b c : within 0xA1 b 0xFE = true -> byte c -> run (EUC_JP_decoder true b) [] (Item c false) =
  match kuten index_code_point_jis0212 b c with
  | Some cp => Some (Out [cp], EUC_JP_decoder false 0, plain [])
  | None => Some (Error no_cp, EUC_JP_decoder false 0, plain (if c <=? 0x7F then [c] else []))
  end.
Proof.
  intros A B. cbn [run]. unfold euc_jp_decoder_run. ev. rewrite (byte_mod c B), (ascii_byte c B). unfold kuten, within in *. unfold in_range. rewrite (not_zero b) by lia. cbn [negb].
  replace (b =? 0x8E) with false by lia. replace (b =? 0x8F) with false by lia. cbn [andb]. rewrite A. cbn [andb]. destruct ((161 <=? c) && (c <=? 254)) eqn:W.
  - replace ((b - 161) * 94 + c - 161) with ((b - 161) * 94 + (c - 161)) by lia. rewrite (Z.mod_small _ 65536), entry_model by lia. destruct (entry _ _); [reflexivity|]. destruct (c <=? 0x7F); reflexivity.
  - destruct (c <=? 0x7F); reflexivity.
Qed.
Lemma euc_jp_fin j q : run (EUC_JP_decoder j 0) q end_of_queue = Some (Finished, EUC_JP_decoder j 0, q). Proof. reflexivity. Qed.
Lemma euc_jp_trace n : forall l, (length l <= n)%nat -> Forall byte l -> trace (EUC_JP_decoder false 0) l (euc_jp_pieces l).
Proof.
  induction n as [|n IH]; intros [|a r] L F; cbn [length] in L; try lia; [now apply tr_end|now apply tr_end|].
  apply bytes_cons in F as [Ba F]. pose proof (euc_jp_first a Ba) as Ha. cbn [euc_jp_pieces].
  destruct (a <=? 0x7F); [eapply tr_text; [exact Ha|]; apply IH; auto; cbn; lia|].
  destruct ((a =? 0x8E) || (a =? 0x8F) || within 0xA1 a 0xFE) eqn:Wa; [|eapply tr_wrong; [exact Ha|]; apply IH; auto; cbn; lia].
  eapply tr_more; [exact Ha|]. cbn [app].
  assert (Cut : forall j x, 0 < x -> trace (EUC_JP_decoder j x) [] [Wrong]).
  { intros j x X. apply tr_cut with (c' := EUC_JP_decoder j 0) (e := no_cp); auto. intros q. exists q. split; [|now left]. cbn [run]. unfold euc_jp_decoder_run. cbn [eoq andb end_of_queue]. rewrite (not_zero x) by lia. reflexivity. }
  destruct r as [|b r]; [apply Cut; unfold within in Wa; lia|].
  pose proof F as F0. apply bytes_cons in F as [Bb F]. cbn [length] in L. destruct ((a =? 0x8F) && within 0xA1 b 0xFE) eqn:M.
  - apply andb_prop in M as [M1 M2]. apply Z.eqb_eq in M1. subst a. eapply tr_more; [now apply euc_jp_mark|]. cbn [app]. destruct r as [|c r]; [apply Cut; unfold within in M2; lia|].
    pose proof F as F1. apply bytes_cons in F as [Bc F]. cbn [length] in L. pose proof (euc_jp_third b c M2 Bc) as Hc. destruct (kuten index_code_point_jis0212 b c) as [cp|].
    + eapply tr_text; [exact Hc|]. apply IH; auto. cbn. lia.
    + eapply tr_wrong; [exact Hc|]. destruct (c <=? 0x7F); cbn [app]; apply IH; auto; cbn [length]; lia.
  - pose proof (euc_jp_second a b Wa Bb M) as Hb. fold (euc_jp_two a b). destruct (euc_jp_two a b) as [cp|].
    + eapply tr_text; [exact Hb|]. apply IH; auto. cbn. lia.
    + eapply tr_wrong; [exact Hb|]. destruct (b <=? 0x7F); cbn [app]; apply IH; auto; cbn [length]; lia.
Qed.
