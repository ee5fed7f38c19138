(** What the legacy decoders give for every byte string: C73. *)
From Coq Require Import ZArith List Bool Lia.
From Verif Require Import M_unicode M_infra M_percent M_encoding L_encoding L_encoding2 L_enc_utf8 L_decoders L_decoders2 L_decoders3.
From Verif Require Import M_index_single.
Import ListNotations.
Open Scope Z_scope.

(** A decoder answers a byte string as a division of it says. With errors replaced, the output is the code points of all characters (nothing is written for an error, see C34), unless an assertion fails; with fatal errors, it is the code points before the first error. *)
Definition broken (p : piece) : bool := match p with Broken => true | _ => false end.
Definition answers (d : coder) (l : list Z) (ps : list piece) : Prop := exists N, forall fuel, (N <= fuel)%nat ->
  (forall m, m = Replacement \/ m = M_none ->
     if existsb broken ps then process_queue fuel d (to_queue l) [] m = Bad
     else exists c q, process_queue fuel d (to_queue l) [] m = Val (Finished, c, q, to_queue (texts ps))) /\
  match before_fault ps with
  | (t, None) => exists c q, process_queue fuel d (to_queue l) [] Fatal = Val (Finished, c, q, to_queue t)
  | (t, Some Broken) => process_queue fuel d (to_queue l) [] Fatal = Bad
  | (t, Some _) => exists c q, process_queue fuel d (to_queue l) [] Fatal = Val (Error no_cp, c, q, map (fun v => Item v false) t)
  end.

Lemma traced d l ps : trace d l ps -> answers d l ps.
Proof.
  intros T. destruct (trace_quiet Replacement d l ps (or_introl eq_refl) T) as [N1 H1]. destruct (trace_quiet M_none d l ps (or_intror eq_refl) T) as [N2 H2]. destruct (trace_fatal d l ps T) as [N3 H3].
  exists (N1 + N2 + N3)%nat. intros fuel L. rewrite to_queue_spec. split.
  - intros m [-> | ->]; [exact (H1 fuel [] ltac:(lia))|exact (H2 fuel [] ltac:(lia))].
  - specialize (H3 fuel [] ltac:(lia)). destruct (before_fault ps) as [t [w|]]; [|exact H3].
    assert (E : q_push_values [] t = map (fun v => Item v false) t) by (exact (q_push_values_open t [])). destruct w; [| |exact H3]; rewrite E in H3; exact H3.
Qed.

(** EUC-KR, Shift_JIS and EUC-JP follow the standard. *)
Theorem C73_euc_kr l : Forall byte l -> answers (get_encoding_decoder EUC_KR) l (euc_kr_pieces l).
Proof. intros F. apply traced, (euc_kr_trace (length l)); auto. Qed.
Print Assumptions C73_euc_kr.
Theorem C73_shift_jis l : Forall byte l -> answers (get_encoding_decoder Shift_JIS) l (sjis_pieces l).
Proof. intros F. apply traced, (sjis_trace (length l)); auto. Qed.
Print Assumptions C73_shift_jis.
Theorem C73_euc_jp l : Forall byte l -> answers (get_encoding_decoder EUC_JP) l (euc_jp_pieces l).
Proof. intros F. apply traced, (euc_jp_trace (length l)); auto. Qed.
Print Assumptions C73_euc_jp.

(** The single-byte encodings and x-user-defined. *)
Theorem C73_single n t l : get_encoding_decoder n = Single_decoder t -> Forall byte l ->
  answers (get_encoding_decoder n) l (map (fun a => if a <=? 0x7F then Text [a] else match entry t (a - 0x80) with Some cp => Text [cp] | None => Wrong end) l).
Proof.
  intros E F. rewrite E. apply traced. induction F as [|a l B _ IH]; [now apply tr_end|]. cbn [map].
  assert (H : run (Single_decoder t) [] (Item a false) = if a <=? 0x7F then Some (Out [a], Single_decoder t, plain []) else match entry t (a - 0x80) with Some cp => Some (Out [cp], Single_decoder t, plain []) | None => Some (Error no_cp, Single_decoder t, plain []) end).
  { cbn [run]. unfold single_decoder_run. cbn [eoq value]. cbv zeta. rewrite (byte_mod a B), (ascii_byte a B). destruct (a <=? 0x7F) eqn:A; [reflexivity|]. rewrite entry_model by (unfold byte in B; lia). reflexivity. }
  destruct (a <=? 0x7F); [eapply tr_text; [exact H|exact IH]|]. destruct (entry t (a - 0x80)); [eapply tr_text|eapply tr_wrong]; try exact H; exact IH.
Qed.
Print Assumptions C73_single.
Theorem C73_user_defined l : Forall byte l -> answers (get_encoding_decoder x_user_defined) l [Text (map (fun a => if a <=? 0x7F then a else 0xF780 + (a - 0x80)) l)] .
Proof.
  intros F. destruct (traced User_decoder l (map (fun a => Text [if a <=? 0x7F then a else 0xF780 + (a - 0x80)]) l)) as [N H].
  - induction F as [|a l B _ IH]; [now apply tr_end|]. cbn [map]. eapply tr_text with (p := []); [|exact IH].
    cbn [run]. unfold user_decoder_run. cbn [eoq value]. cbv zeta. rewrite (byte_mod a B), (ascii_byte a B). destruct (a <=? 0x7F); [reflexivity|]. replace (0xF780 + a - 0x80) with (0xF780 + (a - 0x80)) by lia. reflexivity.
  - exists N. intros fuel L. specialize (H fuel L). set (f := fun a => if a <=? 0x7F then a else 0xF780 + (a - 0x80)) in *.
    assert (E1 : existsb broken (map (fun a => Text [f a]) l) = false) by (clear; induction l as [|a l IH]; [reflexivity|exact IH]).
    assert (E2 : texts (map (fun a => Text [f a]) l) = map f l) by (clear; induction l as [|a l IH]; [reflexivity|cbn [map texts app]; now rewrite IH]).
    assert (E3 : before_fault (map (fun a => Text [f a]) l) = (map f l, None)) by (clear; induction l as [|a l IH]; [reflexivity|cbn [map before_fault]; now rewrite IH]).
    change (fun a => Text [if a <=? 0x7F then a else 0xF780 + (a - 0x80)]) with (fun a => Text [f a]) in H. rewrite E1, E2, E3 in H. cbn [existsb broken orb texts before_fault]. rewrite app_nil_r. exact H.
Qed.
Print Assumptions C73_user_defined.

(** Big5 follows the standard with the trail bytes A1 to FE rejected. *)
Theorem C73_big5_partial l : Forall byte l -> answers (get_encoding_decoder Big5) l (big5_pieces false l).
Proof. intros F. apply traced, (big5_trace (length l)); auto. Qed.
Print Assumptions C73_big5_partial.
(** gb18030 and GBK follow the standard up to U+10000; the four bytes of any later code point fail an assertion. *)
Theorem C73_gb18030_partial n l : n = gb18030 \/ n = GBK -> Forall byte l -> answers (get_encoding_decoder n) l (gb_pieces false l).
Proof. intros [-> | ->] F; apply traced, (gb_trace (length l)); auto. Qed.
Print Assumptions C73_gb18030_partial.
(** ISO-2022-JP follows the standard unless the bytes end after the second byte of an escape sequence, which fails an assertion. *)
Theorem C73_iso_2022_jp_partial l : Forall byte l -> answers (get_encoding_decoder ISO_2022_JP) l (jp_pieces false Ascii false l).
Proof. intros F. apply traced. apply (proj1 (jp_trace (length l)) l Ascii 0 false); auto. Qed.
Print Assumptions C73_iso_2022_jp_partial.
(** UTF-16 follows the standard except that a unit after an unpaired high surrogate loses its high byte. *)
Theorem C73_utf16_partial (be : bool) l : Forall byte l -> answers (get_encoding_decoder (if be then UTF_16BE else UTF_16LE)) l (utf16_pieces false be l).
Proof. intros F. destruct be; apply traced; [apply (utf16_trace true (length l))|apply (utf16_trace false (length l))]; auto. Qed.
Print Assumptions C73_utf16_partial.

Ltac bz := repeat (apply Forall_cons; [unfold byte; lia|]); apply Forall_nil.

(** A kanji and an ASCII letter read again after a bad lead byte; katakana, JIS X 0212, a cut-off character; gb18030 with one, two and four bytes; escape sequences. *)
Example C73_ex :
  Forall byte [0xA4; 0xA2; 0xB0; 0x41] /\
  euc_jp_pieces [0xA4; 0xA2; 0x8E; 0xB1; 0x8F; 0xB0; 0xA1; 0xB0; 0x41; 0xB0] = [Text [0x3042]; Text [0xFF71]; Text [0x4E02]; Wrong; Text [0x41]; Wrong] /\
  euc_kr_pieces [0x41; 0xB0; 0xA1; 0xC9; 0xA1; 0xFF] = [Text [0x41]; Text [0xAC00]; Wrong; Wrong] /\
  sjis_pieces [0x82; 0xA0; 0xB1; 0x80; 0xF0; 0x40; 0x81; 0x30] = [Text [0x3042]; Text [0xFF71]; Text [0x80]; Text [0xE000]; Wrong; Text [0x30]] /\
  big5_pieces false [0xA4; 0x40; 0x88; 0x62] = [Text [0x4E00]; Text [0xCA; 0x304]] /\
  gb_pieces false [0x41; 0x80; 0xD2; 0xBB; 0x81; 0x30; 0x81; 0x30; 0x81; 0x30; 0x81; 0x41] = [Text [0x41]; Text [0x20AC]; Text [0x4E00]; Text [0x80]; Wrong; Text [0x30]; Text [0x4E04]] /\
  jp_pieces false Ascii false [0x41; 0x1B; 0x24; 0x42; 0x24; 0x22; 0x1B; 0x28; 0x4A; 0x5C] = [Text [0x41]; Text [0x3042]; Text [0xA5]] /\
  utf16_pieces false true [0xD8; 0x3D; 0xDE; 0x00; 0; 0x41; 0] = [Text [0x1F600]; Text [0x41]; Wrong] /\
  map (fun a => if a <=? 0x7F then Text [a] else match entry index_code_point_windows_1252 (a - 0x80) with Some cp => Text [cp] | None => Wrong end) [0x41; 0x80] = [Text [0x41]; Text [0x20AC]].
Proof. split; [bz|]. vm_compute. repeat split. Qed.

(** The divisions of the standard differ from these. *)
Theorem C73_decoders_refuted :
  (exists l, Forall byte l /\ big5_pieces true l = [Text [0x4E11]] /\ texts (big5_pieces false l) = []) /\
  (exists l, Forall byte l /\ gb_pieces true l = [Text [0x1F600]] /\ gb_pieces false l = [Broken]) /\
  (exists l, Forall byte l /\ jp_pieces true Ascii false l = [Wrong; Text [0x28]] /\ jp_pieces false Ascii false l = [Broken]) /\
  (exists l, Forall byte l /\ utf16_pieces true true l = [Wrong; Text [0x3042]] /\ utf16_pieces false true l = [Wrong; Text [0x142]]).
Proof.
  split; [exists [0xA4; 0xA1]|split; [exists [0x94; 0x39; 0xFC; 0x36]|split; [exists [0x1B; 0x28]|exists [0xD8; 0; 0x30; 0x42]]]]; (split; [bz|]); vm_compute; repeat split.
Qed.
Print Assumptions C73_decoders_refuted.
