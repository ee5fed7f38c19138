(** What the encoders write for every text: C74. *)
From Coq Require Import ZArith List Bool Lia.
From Verif Require Import M_unicode L_unicode M_infra M_percent M_encoding L_encoding L_encoding2 L_enc_utf8 L_enc_misc L_enc_codec L_decoders L_encoders L_encoders2.
From Verif Require Import M_index_single M_index_big5 M_index_euc_kr M_index_gb18030 M_index_jis.
Import ListNotations.
Open Scope Z_scope.

Lemma scalars_pos s v : Forall scalar s -> In v s -> 0 <= v.
Proof. intros F H. rewrite Forall_forall in F. specialize (F v H). unfold scalar in F. lia. Qed.

(** EUC-KR, GBK, EUC-JP, the single-byte encodings and x-user-defined follow the standard. *)
Theorem C74_euc_kr s : Forall scalar s -> encodes EUC_KR euc_kr_writes s.
Proof. intros F. apply (encodes_by _ EUC_KR_encoder); [reflexivity|exact I|]. intros v H. apply euc_kr_enc, (scalars_pos s v F H). Qed.
Print Assumptions C74_euc_kr.
Theorem C74_gbk s : Forall scalar s -> encodes GBK gbk_writes s.
Proof. intros F. apply (encodes_by _ (GB_encoder true)); [reflexivity|exact I|]. intros v H. apply gbk_enc, (scalars_pos s v F H). Qed.
Print Assumptions C74_gbk.
Theorem C74_euc_jp s : Forall scalar s -> encodes EUC_JP euc_jp_writes s.
Proof. intros F. apply (encodes_by _ EUC_JP_encoder); [reflexivity|exact I|]. intros v H. apply euc_jp_enc, (scalars_pos s v F H). Qed.
Print Assumptions C74_euc_jp.
Theorem C74_single n t s : get_encoding_decoder n = Single_decoder t -> Forall scalar s -> encodes n (single_writes t) s.
Proof.
  intros D F. pose proof (singles_exact n) as X. unfold single_exact in X. rewrite D in X. destruct (get_encoding_encoder n) as [e|] eqn:E; [|discriminate]. destruct e; try discriminate.
  apply andb_true_iff in X as [X1 X2]. eapply encodes_by; [exact E|exact I|]. intros v H. apply single_enc; auto. apply (scalars_pos s v F H).
Qed.
Print Assumptions C74_single.
Theorem C74_user_defined s : Forall scalar s -> encodes x_user_defined user_writes s.
Proof. intros F. apply (encodes_by _ User_encoder); [reflexivity|exact I|]. intros v H. apply user_enc, (scalars_pos s v F H). Qed.
Print Assumptions C74_user_defined.

(** gb18030 follows the standard below U+10000; U+10000 gets the bytes of another number, and every later code point fails an assertion. *)
Theorem C74_gb18030_partial s : Forall scalar s ->
  (Forall (fun v => v <= 0x10000) s -> encodes gb18030 gb18030_writes s) /\
  (Exists (fun v => 0x10000 < v) s -> exists N, forall fuel, (N <= fuel)%nat -> encode fuel (to_queue s) gb18030 [] = Bad).
Proof.
  intros F. split.
  - intros B. apply (encodes_by _ (GB_encoder false)); [reflexivity|exact I|]. intros v H. rewrite Forall_forall in F, B. apply gb18030_enc; auto.
  - intros E. exists (S (length s)). unfold encode. cbn [get_encoding_encoder]. rewrite to_queue_spec.
    enough (H : forall out fuel, (S (length s) <= fuel)%nat -> process_queue fuel (GB_encoder false) (plain s ++ [end_of_queue]) out Html = Bad) by (intros fuel L; apply H, L).
    induction F as [|v s Sv F IH]; [inversion E|]. intros out fuel L. destruct fuel as [|fuel]; [cbn in L; lia|]. cbn [process_queue plain map app]. cbn [q_read eoq]. unfold process_item. rewrite run_plain.
    destruct (Z_le_gt_dec v 0x10000) as [B|B]; [|rewrite gb18030_breaks by lia; reflexivity].
    destruct (gb18030_enc v Sv B) as (r & R & _). pose proof (enc_step (GB_encoder false) v I) as St. rewrite R in St |- *. destruct St as (_ & _ & St). cbn [app].
    assert (E' : Exists (fun v => 0x10000 < v) s) by (inversion E; subst; [lia|assumption]). destruct St as [[l ->]|[x ->]]; apply IH; auto; cbn in L; lia.
Qed.
Print Assumptions C74_gb18030_partial.

(** Shift_JIS writes the first place of the index, where the standard passes over the places 8272 to 8835. *)
Theorem C74_shift_jis_partial s : Forall scalar s -> encodes Shift_JIS sjis_writes s.
Proof. intros F. apply (encodes_by _ SJIS_encoder); [reflexivity|exact I|]. intros v H. apply sjis_enc, (scalars_pos s v F H). Qed.
Print Assumptions C74_shift_jis_partial.
(** Big5 writes the first place from 5024 on, where the standard takes the last one for six code points. *)
Theorem C74_big5_partial s : Forall scalar s -> encodes Big5 big5_writes s.
Proof. intros F. apply (encodes_by _ Big5_encoder); [reflexivity|exact I|]. intros v H. apply big5_enc, (scalars_pos s v F H). Qed.
Print Assumptions C74_big5_partial.

(** ISO-2022-JP: every text is either written as [jp_text] says, or meets a code point outside the index while ASCII or Roman is chosen, and the encoder never ends. *)
Theorem C74_iso_2022_jp_partial s : Forall scalar s ->
  (exists b N, jp_text Ascii s b /\ forall fuel, (N <= fuel)%nat -> exists c q, encode fuel (to_queue s) ISO_2022_JP [] = Val (Finished, c, q, to_queue b)) \/
  (jp_stuck Ascii s /\ forall fuel, encode fuel (to_queue s) ISO_2022_JP [] = NoFuel).
Proof.
  intros F. assert (F' : Forall (fun v => 0 <= v) s) by (eapply Forall_impl; [|exact F]; unfold scalar; cbn; lia).
  unfold encode. cbn [get_encoding_encoder]. rewrite to_queue_spec. destruct (jp_encodes s F' JE_ascii) as [[K H]|(b & N & T & H)]; [right|left].
  - split; [exact K|]. intros fuel. apply H.
  - exists b, N. split; [exact T|]. intros fuel L. apply H, L.
Qed.
Print Assumptions C74_iso_2022_jp_partial.

(** The places of a code point in an index. *)
Fixpoint places (v p : Z) (t : list Z) : list Z := match t with [] => [] | x :: r => if x =? v then p :: places v (p + 1) r else places v (p + 1) r end.
Lemma places_all v t : forall p i, nth_error t i = Some v -> In (p + Z.of_nat i) (places v p t).
Proof.
  induction t as [|x t IH]; intros p [|i] E; cbn [nth_error] in E; try discriminate; cbn [places].
  - injection E as ->. rewrite Z.eqb_refl. left. lia.
  - specialize (IH (p + 1) i E). replace (p + Z.of_nat (S i)) with (p + 1 + Z.of_nat i) by lia. destruct (x =? v); [right|]; exact IH.
Qed.
Lemma entry_places t v p : 0 <= p -> entry t p = Some v -> In p (places v 0 t).
Proof. intros P E. apply entry_some in E as [E _]. apply (places_all v t 0) in E. replace (0 + Z.of_nat (Z.to_nat p)) with p in E by lia. exact E. Qed.

(** U+2170 must be written as FA 40 in Shift_JIS: of its places only 10716 is outside 8272 to 8835. The encoder writes EE EF. *)
Theorem C74_shift_jis_refuted : exists v p, scalar v /\ entry index_code_point_jis0208 p = Some v /\
  (forall p', 0 <= p' -> entry index_code_point_jis0208 p' = Some v -> 8272 <= p' <= 8835 \/ p' = p) /\
  sjis_bytes p = [0xFA; 0x40] /\ exists c q, encode 9 (to_queue [v]) Shift_JIS [] = Val (Finished, c, q, to_queue [0xEE; 0xEF]).
Proof.
  exists 0x2170, 10716. split; [unfold scalar; lia|]. split; [vm_compute; reflexivity|]. split; [|split; [reflexivity|do 2 eexists; vm_compute; reflexivity]].
  intros p P E. apply (entry_places _ _ _ P) in E. replace (places _ _ _) with [8634; 10716] in E by (vm_compute; reflexivity). destruct E as [<-|[<-|[]]]; lia.
Qed.
Print Assumptions C74_shift_jis_refuted.
(** U+5341 must be written with the last of its places, as A4 51. The encoder writes A2 CC. *)
Theorem C74_big5_refuted : exists v p, In v [0x2550; 0x255E; 0x2561; 0x256A; 0x5341; 0x5345] /\ entry index_code_point_big5 p = Some v /\
  (forall p', 0 <= p' -> entry index_code_point_big5 p' = Some v -> p' <= p) /\
  big5_bytes p = [0xA4; 0x51] /\ exists c q, encode 9 (to_queue [v]) Big5 [] = Val (Finished, c, q, to_queue [0xA2; 0xCC]).
Proof.
  exists 0x5341, 5512. split; [cbn; tauto|]. split; [vm_compute; reflexivity|]. split; [|split; [reflexivity|do 2 eexists; vm_compute; reflexivity]].
  intros p P E. apply (entry_places _ _ _ P) in E. replace (places _ _ _) with [5287; 5512] in E by (vm_compute; reflexivity). destruct E as [<-|[<-|[]]]; lia.
Qed.
Print Assumptions C74_big5_refuted.
(** U+10000 must be written as 90 30 81 30 in gb18030. *)
Theorem C74_gb18030_refuted : gb_four_bytes 189000 = [0x90; 0x30; 0x81; 0x30] /\ range_cp 189000 = Some 0x10000 /\
  exists c q b, encode 9 (to_queue [0x10000]) gb18030 [] = Val (Finished, c, q, to_queue b) /\ b <> gb_four_bytes 189000.
Proof. split; [reflexivity|]. split; [vm_compute; reflexivity|]. do 2 eexists. exists (gb_four_bytes 57928). split; [vm_compute; reflexivity|]. vm_compute. discriminate. Qed.
Print Assumptions C74_gb18030_refuted.
(** After a kanji, a reference is written without leaving the kanji set. *)
Theorem C74_iso_2022_jp_refuted : exists c q, encode 9 (to_queue [0x3042; 0xE9]) ISO_2022_JP []
  = Val (Finished, c, q, to_queue (escape Jis ++ [0x24; 0x22] ++ [0x26; 0x23; 0x32; 0x33; 0x33; 0x3B] ++ escape Ascii)).
Proof. do 2 eexists. vm_compute. reflexivity. Qed.
Print Assumptions C74_iso_2022_jp_refuted.

Lemma dec_233 : reference 0xE9 [0x26; 0x23; 0x32; 0x33; 0x33; 0x3B].
Proof. apply (reference_html 0xE9). lia. Qed.
(** Texts that meet the hypotheses, and what is written for them. *)
Example C74_ex : Forall scalar [0x41; 0xAC00; 0xE9] /\
  (exists c q, encode 9 (to_queue [0x41; 0xAC00; 0xE9]) EUC_KR [] = Val (Finished, c, q, to_queue ([0x41] ++ [0xB0; 0xA1] ++ [0x26; 0x23; 0x32; 0x33; 0x33; 0x3B]))) /\
  least index_code_point_euc_kr 0 0xAC00 9026 /\ euc_kr_bytes 9026 = [0xB0; 0xA1] /\ reference 0xE9 [0x26; 0x23; 0x32; 0x33; 0x33; 0x3B].
Proof.
  split; [repeat constructor; unfold scalar; lia|]. split; [do 2 eexists; vm_compute; reflexivity|]. split; [|split; [reflexivity|exact dec_233]].
  split; [lia|]. split; [vm_compute; reflexivity|]. intros p P E. apply (entry_places _ _ _ P) in E. replace (places _ _ _) with [9026] in E by (vm_compute; reflexivity). destruct E as [<-|[]]. lia.
Qed.
Example C74_jp_ex : jp_text Ascii [0x41; 0xA5; 0x5C; 0x1B; 0x42] ([0x41] ++ (escape Roman ++ [0x5C]) ++ (escape Ascii ++ [0x5C]) ++ [0x26; 0x23; 0x36; 0x35; 0x35; 0x33; 0x33; 0x3B] ++ [0x42] ++ []) /\
  (jp_stuck Ascii [0x41; 0xE9]).
Proof.
  split.
  - eapply t_next; [exact (w_ascii Ascii 0x41 ltac:(lia) eq_refl)|]. eapply t_next; [exact (w_yen Ascii)|]. eapply t_next; [exact (w_ascii Roman 0x5C ltac:(lia) eq_refl)|].
    eapply t_next; [apply (w_shift_code Ascii 0x1B _ eq_refl), (reference_html 0xFFFD); lia|]. eapply t_next; [exact (w_ascii Ascii 0x42 ltac:(lia) eq_refl)|]. exact (t_end Ascii).
  - eapply k_later; [exact (w_ascii Ascii 0x41 ltac:(lia) eq_refl)|]. apply k_here. repeat split; try lia; [discriminate|].
    intros p P E. apply (entry_places _ _ _ P) in E. replace (places _ _ _) with (@nil Z) in E by (vm_compute; reflexivity). destruct E.
Qed.
