(** gb18030, ISO-2022-JP, UTF-16 and user-defined: the decoders follow their divisions of the bytes. *)
From Coq Require Import ZArith List Bool Lia.
From Verif Require Import M_unicode M_infra M_percent M_encoding L_encoding L_encoding2 L_enc_utf8 L_enc_gb L_decoders L_decoders2.
From Verif Require Import M_index_single M_index_big5 M_index_euc_kr M_index_gb18030 M_index_jis.
Import ListNotations.
Open Scope Z_scope.

(** * gb18030 *)

Definition last_before (p : Z) (acc : option Z) (e : Z * Z) : option Z := if fst e <=? p then Some (snd e + (p - fst e)) else acc.
Lemma fold_skip p L : Forall (fun e => p < fst e) L -> forall acc, fold_left (last_before p) L acc = acc.
Proof. induction 1 as [|e L H _ IH]; intros acc; [reflexivity|]. cbn [fold_left]. rewrite IH. unfold last_before. replace (fst e <=? p) with false by lia. reflexivity. Qed.
Lemma fold_at L : forall i e1 p acc, sortedb (map fst L) = true -> nth_error L i = Some e1 -> fst e1 <= p ->
  (forall e2, nth_error L (S i) = Some e2 -> p < fst e2) -> fold_left (last_before p) L acc = Some (snd e1 + (p - fst e1)).
Proof.
  induction L as [|a L IH]; intros i e1 p acc So E H N; [destruct i; discriminate E|]. cbn [fold_left]. destruct i as [|i]; cbn [nth_error] in E.
  - injection E as ->. rewrite fold_skip.
    + unfold last_before. replace (fst e1 <=? p) with true by lia. reflexivity.
    + cbn [map] in So. pose proof (sortedb_all _ _ So) as A. apply sortedb_tail in So. destruct L as [|b L]; [constructor|]. specialize (N b eq_refl). constructor; [exact N|].
      cbn [map] in So. pose proof (sortedb_all _ _ So) as A2. rewrite Forall_map in A2. revert A2. apply Forall_impl. intros x. lia.
  - apply (IH i); auto. cbn [map] in So. now apply sortedb_tail in So.
Qed.

Lemma last_range_entry : nth_error index_code_point_gb18030_ranges (length index_code_point_gb18030_ranges - 1) = Some (189000, 65536).
Proof. vm_compute. reflexivity. Qed.
Lemma first_range_entry : nth_error index_code_point_gb18030_ranges 0 = Some (0, 128).
Proof. vm_compute. reflexivity. Qed.
Lemma ranges_number : length index_code_point_gb18030_ranges = 207%nat.
Proof. vm_compute. reflexivity. Qed.

Lemma range_model p : 0 <= p -> get_index_gb18030_ranges_code_point p = if within 189001 p 1237575 then None else Some (range_cp p).
Proof.
  intros P. unfold get_index_gb18030_ranges_code_point, range_cp. fold (last_before p).
  destruct (within 189001 p 1237575) eqn:W; unfold within in *.
  - replace (((39419 <? p) && (p <? 189000)) || (1237575 <? p)) with false by lia. replace (p =? 7457) with false by lia.
    unfold range_find. assert (G : nth_error index_code_point_gb18030_ranges (lower_bound (map fst index_code_point_gb18030_ranges) p) = None); [|rewrite G; reflexivity].
    apply nth_error_None. assert (forall l, Forall (fun x => x < p) l -> lower_bound l p = length l) as Lb.
    { clear. induction 1 as [|x l H _ IH]; [reflexivity|]. cbn [lower_bound length]. replace (x <? p) with true by lia. now rewrite IH. }
    rewrite Lb; [rewrite map_length; lia|]. apply Forall_forall. intros x X. apply In_nth_error in X as [i X].
    assert (Li : (i < length (map fst index_code_point_gb18030_ranges))%nat) by (apply nth_error_Some; congruence). rewrite map_length in Li.
    pose proof (nth_map_fst _ _ _ last_range_entry) as La. cbn [fst] in La. destruct (Nat.eq_dec i (length index_code_point_gb18030_ranges - 1)) as [->|Ne].
    + rewrite La in X. injection X as <-. lia.
    + pose proof (sorted_nth _ _ _ _ _ code_point_ranges_sorted X La ltac:(lia)). lia.
  - destruct (((39419 <? p) && (p <? 189000)) || (1237575 <? p)) eqn:O.
    + replace (p =? 7457) with false by lia. replace ((p <=? 39419) || (189000 <=? p) && (p <=? 1237575)) with false by lia. reflexivity.
    + destruct (p =? 7457) eqn:E7; [reflexivity|]. replace ((p <=? 39419) || (189000 <=? p) && (p <=? 1237575)) with true by lia.
      destruct (Z.eq_dec p 189000) as [->|Ne].
      * vm_compute. reflexivity.
      * destruct (range_exists index_code_point_gb18030_ranges p _ _ first_range_entry last_range_entry) as (i & e1 & e2 & E1 & E2 & R); [cbn [fst]; lia|].
        rewrite (range_find_at _ _ _ _ _ code_point_ranges_sorted E1 E2 R). rewrite (fold_at _ i e1 p None code_point_ranges_sorted E1 ltac:(lia)); [reflexivity|]. intros e E. rewrite E2 in E. injection E as <-. lia.
Qed.

Notation GB := GB_decoder.
Lemma gb_first a : byte a -> run (GB 0 0 0) [] (Item a false) =
  if a <=? 0x7F then Some (Out [a], GB 0 0 0, plain []) else if a =? 0x80 then Some (Out [0x20AC], GB 0 0 0, plain [])
  else if within 0x81 a 0xFE then Some (Continue, GB a 0 0, plain []) else Some (Error no_cp, GB 0 0 0, plain []).
Proof. intros B. cbn [run]. unfold gb_decoder_run. ev. rewrite (byte_mod a B), (ascii_byte a B). reflexivity. Qed.
Lemma gb_second a b : 0 < a -> within 0x81 a 0xFE = true -> byte b -> run (GB a 0 0) [] (Item b false) =
  if within 0x30 b 0x39 then Some (Continue, GB a b 0, plain []) else
  match gb_two a b with
  | Some cp => Some (Out [cp], GB 0 0 0, plain [])
  | None => Some (Error no_cp, GB 0 0 0, plain (if b <=? 0x7F then [b] else []))
  end.
Proof.
  intros P A B. cbn [run]. unfold gb_decoder_run. ev. rewrite (byte_mod b B), (ascii_byte b B). rewrite (not_zero a P). change (0 =? 0) with true. cbn [negb]. unfold gb_two, within, in_range in *.
  destruct ((48 <=? b) && (b <=? 57)); [reflexivity|]. replace (b <? 0x7F) with (b <=? 0x7E) by lia.
  destruct ((64 <=? b) && (b <=? 126) || (128 <=? b) && (b <=? 254)) eqn:W; [|destruct (b <=? 0x7F); reflexivity].
  rewrite entry_model by (destruct (b <=? 126) eqn:?; lia). destruct (entry _ _); [reflexivity|]. destruct (b <=? 0x7F); reflexivity.
Qed.
Lemma gb_third a b c : 0 < b -> byte b -> byte c -> run (GB a b 0) [] (Item c false) =
  if within 0x81 c 0xFE then Some (Continue, GB a b c, plain []) else Some (Error no_cp, GB 0 0 0, plain [b; c]).
Proof. intros P Bb B. cbn [run]. unfold gb_decoder_run. ev. rewrite (byte_mod c B), (not_zero b P). change (0 =? 0) with true. cbn [negb]. reflexivity. Qed.
Lemma gb_fourth a b c d : within 0x81 a 0xFE = true -> within 0x30 b 0x39 = true -> within 0x81 c 0xFE = true -> byte d -> run (GB a b c) [] (Item d false) =
  if within 0x30 d 0x39 then
    if within 189001 (gb_number a b c d) 1237575 then None
    else match range_cp (gb_number a b c d) with
         | Some cp => Some (Out [cp], GB 0 0 0, plain [])
         | None => Some (Error no_cp, GB 0 0 0, plain [])
         end
  else Some (Error no_cp, GB 0 0 0, plain [b; c; d]).
Proof.
  intros A Bb Cc D. cbn [run]. unfold gb_decoder_run. ev. rewrite (byte_mod d D), (not_zero c) by (unfold within in Cc; lia). cbn [negb].
  change (in_range 0x30 d 0x39) with (within 0x30 d 0x39). destruct (within 0x30 d 0x39) eqn:W; cbn [negb]; [|reflexivity].
  replace ((a - 129) * 12600 + (b - 48) * 1260 + (c - 129) * 10 + d - 48) with (gb_number a b c d) by (unfold gb_number; lia).
  rewrite range_model by (unfold gb_number, within in *; lia). destruct (within 189001 _ _); [reflexivity|]. destruct (range_cp _); reflexivity.
Qed.
Lemma gb_trace n : forall l, (length l <= n)%nat -> Forall byte l -> trace (GB 0 0 0) l (gb_pieces false l).
Proof.
  induction n as [|n IH]; intros [|a r] L F; cbn [length] in L; try lia; [now apply tr_end|now apply tr_end|].
  apply bytes_cons in F as [Ba F]. pose proof (gb_first a Ba) as Ha. cbn [gb_pieces].
  destruct (a <=? 0x7F) eqn:Ea; [eapply tr_text; [exact Ha|]; apply IH; auto; cbn; lia|].
  destruct (a =? 0x80); [eapply tr_text; [exact Ha|]; apply IH; auto; cbn; lia|].
  destruct (within 0x81 a 0xFE) eqn:Wa; [|eapply tr_wrong; [exact Ha|]; apply IH; auto; cbn; lia].
  assert (Pa : 0 < a) by lia. eapply tr_more; [exact Ha|]. cbn [app].
  assert (Cut : forall y z, trace (GB a y z) [] [Wrong]).
  { intros y z. apply tr_cut with (c' := GB 0 0 0) (e := no_cp); auto. intros q. exists q. split; [|now left]. cbn [run]. unfold gb_decoder_run. cbn [eoq end_of_queue]. rewrite (not_zero a Pa). reflexivity. }
  destruct r as [|b r2]; [apply Cut|].
  pose proof F as F0. apply bytes_cons in F as [Bb F]. cbn [length] in L. pose proof (gb_second a b Pa Wa Bb) as Hb. destruct (within 0x30 b 0x39) eqn:Wb.
  - assert (Pb : 0 < b) by (unfold within in Wb; lia). eapply tr_more; [exact Hb|]. cbn [app]. destruct r2 as [|c r3]; [apply Cut|].
    pose proof F as F1. apply bytes_cons in F as [Bc F]. cbn [length] in L. pose proof (gb_third a b c Pb Bb Bc) as Hc. destruct (within 0x81 c 0xFE) eqn:Wc.
    + eapply tr_more; [exact Hc|]. cbn [app]. destruct r3 as [|d r4]; [apply Cut|]. apply bytes_cons in F as [Bd F]. cbn [length] in L.
      pose proof (gb_fourth a b c d Wa Wb Wc Bd) as Hd. destruct (within 0x30 d 0x39).
      * cbn [negb andb]. destruct (within 189001 (gb_number a b c d) 1237575); [now apply tr_broken|]. destruct (range_cp (gb_number a b c d)).
        -- eapply tr_text; [exact Hd|]. apply IH; auto. cbn. lia.
        -- eapply tr_wrong; [exact Hd|]. apply IH; auto. cbn. lia.
      * eapply tr_wrong; [exact Hd|]. apply IH; auto. cbn. lia.
    + eapply tr_wrong; [exact Hc|]. apply IH; auto. cbn. lia.
  - destruct (gb_two a b) as [cp|].
    + eapply tr_text; [exact Hb|]. apply IH; auto. cbn. lia.
    + eapply tr_wrong; [exact Hb|]. destruct (b <=? 0x7F); cbn [app]; apply IH; auto; cbn [length]; lia.
Qed.

(** * ISO-2022-JP *)

Notation JP := JP_decoder.
Definition state_of (s : charset) : jp_state := match s with Ascii => J_ascii | Roman => J_roman | Katakana => J_katakana | Jis => J_lead end.
Lemma jp_esc s lead f : run (JP (state_of s) (state_of s) lead f) [] (Item 0x1B false) = Some (Continue, JP J_escape_start (state_of s) lead f, plain []).
Proof. destruct s; reflexivity. Qed.
Lemma jp_esc2 o lead f b : byte b -> run (JP J_escape_start o lead f) [] (Item b false) =
  if (b =? 0x24) || (b =? 0x28) then Some (Continue, JP J_escape o b f, plain []) else Some (Error no_cp, JP o o lead false, plain [b]).
Proof. intros B. cbn [run]. unfold jp_decoder_run. ev. rewrite (byte_mod b B). reflexivity. Qed.
Lemma jp_esc3 o f b c : (b =? 0x24) || (b =? 0x28) = true -> byte c -> run (JP J_escape o b f) [] (Item c false) =
  match escape_set b c with
  | Some t => Some (if f then Error no_cp else Continue, JP (state_of t) (state_of t) 0 true, plain [])
  | None => Some (Error no_cp, JP o o 0 false, plain [b; c])
  end.
Proof.
  intros Hb B. cbn [run]. unfold jp_decoder_run. ev. rewrite (byte_mod c B). unfold escape_set.
  assert (b = 0x24 \/ b = 0x28) as [-> | ->] by lia.
  - change (0x24 =? 0x28) with false. change (0x24 =? 0x24) with true. cbn [andb]. destruct ((c =? 64) || (c =? 66)); reflexivity.
  - change (0x28 =? 0x28) with true. change (0x28 =? 0x24) with false. cbn [andb]. destruct (c =? 66); [reflexivity|]. destruct (c =? 74); [reflexivity|]. destruct (c =? 73); reflexivity.
Qed.
Lemma jp_one s lead f a : byte a -> a <> 0x1B -> s <> Jis -> run (JP (state_of s) (state_of s) lead f) [] (Item a false) =
  match jp_single s a with
  | Some cp => Some (Out [cp], JP (state_of s) (state_of s) lead false, plain [])
  | None => Some (Error no_cp, JP (state_of s) (state_of s) lead false, plain [])
  end.
Proof.
  intros B N J. destruct s; [| | |congruence]; cbn [run state_of]; unfold jp_decoder_run; ev; rewrite (byte_mod a B); replace (a =? 0x1B) with false by lia; unfold jp_single, within, in_range; cbn [negb]; rewrite ?andb_true_r.
  - replace (0x7F <? a) with (negb (a <=? 0x7F)) by lia. destruct (a <=? 0x7F); [|reflexivity]. cbn [negb orb andb]. destruct (a =? 14); [reflexivity|]. destruct (a =? 15); reflexivity.
  - replace (0x7F <? a) with (negb (a <=? 0x7F)) by lia. destruct (a =? 0x5C) eqn:E1; [replace (a <=? 127) with true by lia; replace (a =? 14) with false by lia; replace (a =? 15) with false by lia; reflexivity|].
    destruct (a =? 0x7E) eqn:E2; [replace (a <=? 127) with true by lia; replace (a =? 14) with false by lia; replace (a =? 15) with false by lia; reflexivity|].
    destruct (a <=? 0x7F); [|reflexivity]. cbn [negb orb andb]. destruct (a =? 14); [reflexivity|]. destruct (a =? 15); reflexivity.
  - destruct ((33 <=? a) && (a <=? 95)); [|reflexivity]. replace (65377 - 33 + a) with (65377 + (a - 33)) by lia. reflexivity.
Qed.
Lemma jp_lead lead f a : byte a -> a <> 0x1B -> run (JP J_lead J_lead lead f) [] (Item a false) =
  if within 0x21 a 0x7E then Some (Continue, JP J_trail J_lead a false, plain []) else Some (Error no_cp, JP J_lead J_lead lead false, plain []).
Proof. intros B N. cbn [run]. unfold jp_decoder_run. ev. rewrite (byte_mod a B). replace (a =? 0x1B) with false by lia. reflexivity. Qed.
Lemma jp_trail a b : within 0x21 a 0x7E = true -> byte b -> run (JP J_trail J_lead a false) [] (Item b false) =
  if b =? 0x1B then Some (Error no_cp, JP J_escape_start J_lead a false, plain [])
  else match (if within 0x21 b 0x7E then entry index_code_point_jis0208 ((a - 0x21) * 94 + (b - 0x21)) else None) with
       | Some cp => Some (Out [cp], JP J_lead J_lead a false, plain [])
       | None => Some (Error no_cp, JP J_lead J_lead a false, plain [])
       end.
Proof.
  intros A B. cbn [run]. unfold jp_decoder_run. ev. rewrite (byte_mod b B). destruct (b =? 0x1B); [reflexivity|]. unfold within, in_range in *. destruct ((33 <=? b) && (b <=? 126)) eqn:W; [|reflexivity].
  replace ((a - 33) * 94 + b - 33) with ((a - 33) * 94 + (b - 33)) by lia. rewrite (Z.mod_small _ 65536), entry_model by lia. destruct (entry _ _); reflexivity.
Qed.
Lemma jp_fin s lead f q : run (JP (state_of s) (state_of s) lead f) q end_of_queue = Some (Finished, JP (state_of s) (state_of s) lead f, q).
Proof. destruct s; reflexivity. Qed.

(** After an escape byte, in the state that the byte leads to. *)
Definition after_escape (s : charset) (fresh : bool) (r : list Z) : list piece :=
  match r with
  | [] => [Wrong]
  | b :: r2 =>
      if (b =? 0x24) || (b =? 0x28) then
        match r2 with
        | [] => [Broken]
        | c :: r3 =>
            match escape_set b c with
            | Some t => if fresh then Wrong :: jp_pieces false t true r3 else jp_pieces false t true r3
            | None => Wrong :: jp_pieces false s false r
            end
        end
      else Wrong :: jp_pieces false s false r
  end.
Lemma jp_trace n :
  (forall l s lead f, (length l <= n)%nat -> Forall byte l -> trace (JP (state_of s) (state_of s) lead f) l (jp_pieces false s f l)) /\
  (forall r s lead f, (length r < n)%nat -> Forall byte r -> trace (JP J_escape_start (state_of s) lead f) r (after_escape s f r)).
Proof.
  induction n as [|n [IH IE]].
  { split; [|intros; lia]. intros [|a r] s lead f L F; [|cbn in L; lia]. apply tr_end. apply jp_fin. }
  assert (IE' : forall r s lead f, (length r < S n)%nat -> Forall byte r -> trace (JP J_escape_start (state_of s) lead f) r (after_escape s f r)).
  { intros [|b r2] s lead f L F.
    { cbn [after_escape]. apply tr_cut with (c' := JP (state_of s) (state_of s) lead false) (e := no_cp); auto; [|apply jp_fin]. intros q. exists q. split; [reflexivity|now left]. }
    pose proof F as F0. apply bytes_cons in F as [Bb F]. cbn [length] in L. cbn [after_escape]. pose proof (jp_esc2 (state_of s) lead f b Bb) as Hb. destruct ((b =? 0x24) || (b =? 0x28)) eqn:W.
    - eapply tr_more; [exact Hb|]. cbn [app]. destruct r2 as [|c r3]; [apply tr_broken_end; reflexivity|].
      apply bytes_cons in F as [Bc F]. cbn [length] in L. pose proof (jp_esc3 (state_of s) f b c W Bc) as Hc. destruct (escape_set b c) as [t|].
      + destruct f; [eapply tr_wrong|eapply tr_more]; try exact Hc; cbn [app]; apply IH; auto; lia.
      + eapply tr_wrong; [exact Hc|]. cbn [app]. apply IH; auto. cbn [length]. lia.
    - eapply tr_wrong; [exact Hb|]. cbn [app]. apply IH; auto. cbn [length]. lia. }
  split; [|exact IE']. intros [|a r] s lead f L F; [apply tr_end, jp_fin|]. apply bytes_cons in F as [Ba F]. cbn [length] in L. cbn [jp_pieces].
  destruct (a =? 0x1B) eqn:E.
  - apply Z.eqb_eq in E. subst a. eapply tr_more; [apply jp_esc|]. cbn [app]. apply (IE' r s lead f); auto. 
  - assert (Na : a <> 0x1B) by lia. destruct s.
    { pose proof (jp_one Ascii lead f a Ba Na ltac:(discriminate)) as Ha. destruct (jp_single Ascii a); [eapply tr_text|eapply tr_wrong]; try exact Ha; cbn [app]; apply (IH r Ascii); auto; lia. }
    { pose proof (jp_one Roman lead f a Ba Na ltac:(discriminate)) as Ha. destruct (jp_single Roman a); [eapply tr_text|eapply tr_wrong]; try exact Ha; cbn [app]; apply (IH r Roman); auto; lia. }
    { pose proof (jp_one Katakana lead f a Ba Na ltac:(discriminate)) as Ha. destruct (jp_single Katakana a); [eapply tr_text|eapply tr_wrong]; try exact Ha; cbn [app]; apply (IH r Katakana); auto; lia. }
    pose proof (jp_lead lead f a Ba Na) as Ha. cbn [state_of]. destruct (within 0x21 a 0x7E) eqn:W.
    + eapply tr_more; [exact Ha|]. cbn [app]. destruct r as [|b r2].
      * apply tr_cut with (c' := JP J_lead J_lead a false) (e := no_cp); auto. intros q. exists (end_of_queue :: q). split; [reflexivity|now right].
      * pose proof F as F0. apply bytes_cons in F as [Bb F]. cbn [length] in L. pose proof (jp_trail a b W Bb) as Hb. destruct (b =? 0x1B) eqn:Eb.
        -- eapply tr_wrong; [exact Hb|]. cbn [app]. apply Z.eqb_eq in Eb. subst b. cbn [jp_pieces]. change (0x1B =? 0x1B) with true. cbv iota. apply (IE' r2 Jis a false); auto. lia.
        -- destruct (if within 0x21 b 0x7E then _ else None).
           ++ eapply tr_text; [exact Hb|]. cbn [app]. apply (IH r2 Jis); auto. lia.
           ++ eapply tr_wrong; [exact Hb|]. cbn [app]. apply (IH r2 Jis); auto. lia.
    + eapply tr_wrong; [exact Ha|]. cbn [app]. apply (IH r Jis); auto. lia.
Qed.

(** * UTF-16 *)

Lemma u16_first be ls a : byte a -> run (UTF16_decoder be None ls) [] (Item a false) = Some (Continue, UTF16_decoder be (Some a) ls, plain []).
Proof. intros B. cbn [run]. unfold utf16_run. ev. rewrite (byte_mod a B). reflexivity. Qed.
Lemma u16_second be a b : byte b -> run (UTF16_decoder be (Some a) None) [] (Item b false) =
  if is_low (unit_of be a b) then Some (Error no_cp, UTF16_decoder be None None, plain [])
  else if is_high (unit_of be a b) then Some (Continue, UTF16_decoder be None (Some (unit_of be a b)), plain [])
  else Some (Out [unit_of be a b], UTF16_decoder be None None, plain []).
Proof.
  intros B. cbn [run]. unfold utf16_run. ev. rewrite (byte_mod b B). fold (unit_of be a b). change (in_range 0xD800 (unit_of be a b) 0xDBFF) with (is_high (unit_of be a b)). change (in_range 0xDC00 (unit_of be a b) 0xDFFF) with (is_low (unit_of be a b)).
  destruct (is_high (unit_of be a b)) eqn:H; [|reflexivity]. replace (is_low (unit_of be a b)) with false; [reflexivity|]. unfold is_high, is_low, within in *. lia.
Qed.
Lemma u16_fourth be u c d : byte d -> run (UTF16_decoder be (Some c) (Some u)) [] (Item d false) =
  let v := unit_of be c d in
  if is_low v then Some (Out [0x10000 + (u - 0xD800) * 1024 + (v - 0xDC00)], UTF16_decoder be None None, plain [])
  else Some (Error no_cp, UTF16_decoder be None None, plain (if be then [if 8 <? v then 1 else 0; v mod 256] else [v mod 256; if 8 <? v then 1 else 0])).
Proof.
  intros B. cbn [run]. unfold utf16_run. ev. rewrite (byte_mod d B). fold (unit_of be c d). change (in_range 0xDC00 (unit_of be c d) 0xDFFF) with (is_low (unit_of be c d)). destruct (is_low (unit_of be c d)); [reflexivity|]. destruct be; reflexivity.
Qed.
Lemma utf16_trace be n : forall l, (length l <= n)%nat -> Forall byte l -> trace (UTF16_decoder be None None) l (utf16_pieces false be l).
Proof.
  induction n as [|n IH]; intros [|a r] L F; cbn [length] in L; try lia; [now apply tr_end|now apply tr_end|].
  assert (Cut : forall x y, (x <> None \/ y <> None) -> trace (UTF16_decoder be x y) [] [Wrong]).
  { intros x y N. apply tr_cut with (c' := UTF16_decoder be None None) (e := no_cp); auto. intros q. exists q. split; [|now left]. cbn [run]. unfold utf16_run. cbn [eoq end_of_queue]. destruct x, y; try reflexivity. destruct N; congruence. }
  apply bytes_cons in F as [Ba F]. destruct r as [|b r]; [eapply tr_more; [now apply u16_first|]; cbn [app]; apply Cut; left; discriminate|].
  apply bytes_cons in F as [Bb F]. cbn [length] in L. eapply tr_more; [now apply u16_first|]. cbn [app utf16_pieces]. cbv zeta. pose proof (u16_second be a b Bb) as Hb.
  destruct (is_low (unit_of be a b)); [eapply tr_wrong; [exact Hb|]; apply IH; auto; cbn; lia|].
  destruct (is_high (unit_of be a b)) eqn:Hi; [|eapply tr_text; [exact Hb|]; apply IH; auto; cbn; lia].
  eapply tr_more; [exact Hb|]. cbn [app]. destruct r as [|c r]; [apply Cut; right; discriminate|].
  apply bytes_cons in F as [Bc F]. destruct r as [|d r]; [eapply tr_more; [now apply u16_first|]; cbn [app]; apply Cut; left; discriminate|].
  apply bytes_cons in F as [Bd F]. cbn [length] in L. eapply tr_more; [now apply u16_first|]. cbn [app].
  pose proof (u16_fourth be (unit_of be a b) c d Bd) as Hd. cbv zeta in Hd. destruct (is_low (unit_of be c d)) eqn:Lo; [eapply tr_text; [exact Hd|]; apply IH; auto; cbn; lia|].
  set (v := unit_of be c d) in *. eapply tr_wrong; [exact Hd|].
  assert (Bv : byte (v mod 256)) by (unfold byte; apply Z.mod_pos_bound; lia).
  assert (B1 : byte (if 8 <? v then 1 else 0)) by (unfold byte; destruct (8 <? v); lia).
  assert (Eu : unit_of be (if be then (if 8 <? v then 1 else 0) else v mod 256) (if be then v mod 256 else (if 8 <? v then 1 else 0)) = (if 8 <? v then 256 else 0) + v mod 256).
  { unfold unit_of. destruct be; destruct (8 <? v); lia. }
  replace (if be then [if 8 <? v then 1 else 0; v mod 256] else [v mod 256; if 8 <? v then 1 else 0]) with [if be then (if 8 <? v then 1 else 0) else v mod 256; if be then v mod 256 else (if 8 <? v then 1 else 0)] by (destruct be; reflexivity).
  set (x := if be then (if 8 <? v then 1 else 0) else v mod 256) in *. set (y := if be then v mod 256 else (if 8 <? v then 1 else 0)) in *.
  assert (Bx : byte x) by (unfold x; destruct be; assumption). assert (By : byte y) by (unfold y; destruct be; assumption).
  cbn [app]. eapply tr_more; [now apply u16_first|]. cbn [app]. pose proof (u16_second be x y By) as Hy. rewrite Eu in Hy.
  replace (is_low ((if 8 <? v then 256 else 0) + v mod 256)) with false in Hy by (unfold is_low, within, byte in *; destruct (8 <? v); lia).
  replace (is_high ((if 8 <? v then 256 else 0) + v mod 256)) with false in Hy by (unfold is_high, within, byte in *; destruct (8 <? v); lia).
  eapply tr_text; [exact Hy|]. apply IH; auto. cbn. lia.
Qed.
