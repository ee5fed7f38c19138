(** Theorems about the encodings: C33 to C40, C48 and C49. *)
From Coq Require Import String.
From Coq Require Import ZArith List Bool Lia.
From Verif Require Import M_unicode L_unicode M_infra L_infra M_percent M_encoding M_labels.
From Verif Require Import L_encoding L_encoding2 L_enc_utf8 L_enc_codec L_enc_tables L_enc_multi L_enc_gb L_enc_single L_enc_misc L_enc_jp L_enc_queue.
Import ListNotations.
Open Scope string_scope.
Open Scope list_scope.
Open Scope Z_scope.

Ltac wit := repeat (match goal with |- _ /\ _ => split end); (vm_compute; reflexivity).

(** * C33: the UTF-8 decoder in fatal mode *)

Lemma divided_chars s : Forall scalar s -> divided (flat_map utf8_spec s) (map Some s).
Proof. induction 1 as [|c s S _ IH]; [constructor|]. cbn [flat_map map]. now constructor. Qed.

Lemma all_chars l its : divided l its -> ~ In None its -> l = flat_map utf8_spec (chars its) /\ Forall scalar (chars its) /\ outs Fatal its = chars its.
Proof.
  induction 1 as [|cp rest its S D IH|sub rest its N St C M D IH]; intros I.
  - repeat split; constructor.
  - destruct IH as (-> & F & O); [intros X; apply I; now right|]. split; [reflexivity|]. split; [constructor; assumption|].
    change (cp :: outs Fatal its = cp :: chars its). now rewrite O.
  - destruct I. now left.
Qed.

Lemma opt_dec (a b : option Z) : {a = b} + {a <> b}. Proof. decide equality. apply Z.eq_dec. Qed.

Theorem C33_fatal l : Forall byte l -> exists N, forall fuel, (N <= fuel)%nat -> exists r c q out,
  utf8_decode_without_bom_or_fail fuel (to_queue l) [] = Val (r, c, q, out) /\
  ((r = Finished /\ exists s, Forall scalar s /\ l = flat_map utf8_spec s /\ out = to_queue s) \/
   (r = Error no_cp /\ ~ exists s, Forall scalar s /\ l = flat_map utf8_spec s)).
Proof.
  intros F. destruct (utf8_main _ l (le_n _) F) as (its & D & G & B).
  destruct (List.in_dec opt_dec None its) as [I|I].
  - assert (NS : ~ exists s, Forall scalar s /\ l = flat_map utf8_spec s).
    { intros (s & S & ->). rewrite (divided_unique _ _ D _ (divided_chars s S)) in I.
      apply in_map_iff in I as (x & X & _). discriminate. }
    destruct (B I) as [(o & k & X)|(o & c1 & k & X & Y)].
    + exists (S k). intros fuel L. destruct (proc_error _ _ _ _ _ _ X fuel ltac:(lia)) as (c & q & R).
      exists (Error no_cp), c, q, (q_push_values [] o). split; [exact R|]. right. split; [reflexivity|exact NS].
    + exists (S k). intros fuel L. destruct (proc_end_error _ _ _ _ _ _ _ _ _ X Y fuel ltac:(lia)) as (c & q & R).
      eexists _, c, q, _. split; [exact R|]. right. split; [reflexivity|exact NS].
  - destruct (G Fatal (or_intror I)) as (o & c1 & k & oe & ke & X & Y & Z).
    destruct (all_chars _ _ D I) as (E & Sc & O). exists (S (k + ke)). intros fuel L.
    destruct (proc_finish _ _ _ _ _ _ _ _ X Y fuel ltac:(lia)) as (c & q & R).
    exists Finished, c, q, (to_queue (o ++ oe)). split; [exact R|]. left. split; [reflexivity|].
    exists (chars its). rewrite Z, O. auto.
Qed.
Example C33_fatal_ex :
  (exists c q, utf8_decode_without_bom_or_fail 20 (to_queue [0x41; 0xE3; 0x81; 0x82; 0xF0; 0x9F; 0x98; 0x80]) [] = Val (Finished, c, q, to_queue [0x41; 0x3042; 0x1F600])) /\
  (exists c q o, utf8_decode_without_bom_or_fail 20 (to_queue [0x41; 0xED; 0xA0; 0x80]) [] = Val (Error no_cp, c, q, o)) /\
  (exists c q o, utf8_decode_without_bom_or_fail 20 (to_queue [0xC0; 0x80]) [] = Val (Error no_cp, c, q, o)) /\
  (exists c q o, utf8_decode_without_bom_or_fail 20 (to_queue [0xE3; 0x81]) [] = Val (Error no_cp, c, q, o)).
Proof. repeat split; repeat eexists; vm_compute; reflexivity. Qed.

(** The UTF-8 encoder writes the UTF-8 form of every string of scalar values. *)
Theorem C33_encode s : Forall scalar s -> exists N, forall fuel, (N <= fuel)%nat -> exists c q,
  utf8_encode fuel (to_queue s) [] = Val (Finished, c, q, to_queue (flat_map utf8_spec s)).
Proof.
  intros F. assert (H : eats Html UTF8_encoder s (flat_map utf8_spec s) UTF8_encoder (length s)).
  { induction F as [|v s S _ IH]; [constructor|].
    exact (eats_cons Html _ v s (Out (utf8_spec v)) _ [] _ _ _ (utf8_encoder_spec v S) eq_refl IH). }
  exists (S (length s)). intros fuel L.
  destruct (proc_finish _ _ _ _ _ _ _ _ H (enc_ends Html UTF8_encoder I) fuel ltac:(lia)) as (c & q & R).
  exists c, q. rewrite app_nil_r in R. exact R.
Qed.
Example C33_encode_ex : exists c q,
  utf8_encode 9 (to_queue [0x41; 0x3042; 0x1F600]) [] = Val (Finished, c, q, to_queue [0x41; 0xE3; 0x81; 0x82; 0xF0; 0x9F; 0x98; 0x80]).
Proof. repeat eexists. Qed.

(** * C34: replacement of malformed input *)

(** Byte 0xFF alone decodes to the empty string instead of U+FFFD, with every decoder entry point. *)
Theorem C34_refuted :
  divided [0xFF] [None] /\ replaced [None] = [0xFFFD] /\
  (exists c q, utf8_decode_without_bom 9 (to_queue [0xFF]) [] = Val (Finished, c, q, to_queue [])) /\
  (exists c q, decode 9 (to_queue [0xFF]) UTF_8 [] = Val (Finished, c, q, to_queue [])) /\
  (exists d, new_text_decoder UTF_8 false false = Some d /\ exists d', td_decode 9 d [0xFF] false = Val (Some ([], d'))).
Proof.
  split.
  { assert (NS : forall t, ~ starts (0xFF :: t)).
    { intros t (cp & u & S & E).
      destruct (utf8_shape cp S) as [(a & X & ?)|[(a & b & X & ?)|[(a & b & c & X & ?)|(a & b & c & d & X & ?)]]];
        rewrite X in E; injection E; intros; subst; lia. }
    apply (divided_bad [0xFF] [] []); [discriminate|now right| |discriminate|constructor].
    intros cp t S E. apply (NS []). exists cp, (tl (utf8_spec cp)). split; [exact S|].
    destruct (utf8_shape cp S) as [(a & X & ?)|[(a & b & X & ?)|[(a & b & c & X & ?)|(a & b & c & d & X & ?)]]];
      rewrite X in E |- *; cbn in E |- *; congruence. }
  split; [reflexivity|]. repeat split; repeat eexists; vm_compute; reflexivity.
Qed.

(** In replacement mode every maximal ill-formed part is dropped and every character is kept. *)
Theorem C34_utf8_partial l : Forall byte l -> exists its, divided l its /\ (forall its', divided l its' -> its' = its) /\
  exists N, forall fuel, (N <= fuel)%nat -> exists c q,
  utf8_decode_without_bom fuel (to_queue l) [] = Val (Finished, c, q, to_queue (chars its)).
Proof.
  intros F. destruct (utf8_main _ l (le_n _) F) as (its & D & G & _). exists its. split; [exact D|].
  split; [intros its' D'; exact (divided_unique _ _ D' _ D)|].
  destruct (G Replacement (or_introl eq_refl)) as (o & c1 & k & oe & ke & X & Y & Z).
  exists (S (k + ke)). intros fuel L. destruct (proc_finish _ _ _ _ _ _ _ _ X Y fuel ltac:(lia)) as (c & q & R).
  exists c, q. rewrite Z in R. exact R.
Qed.
Example C34_utf8_ex : exists c q,
  utf8_decode_without_bom 20 (to_queue [0x41; 0xE3; 0x81; 0x42; 0xFF; 0x43]) [] = Val (Finished, c, q, to_queue [0x41; 0x42; 0x43]).
Proof. repeat eexists. Qed.

(** No decoder in replacement mode ever reports an error. *)
Lemma replacement_ends c o w k : ends Replacement c o w k -> w = None \/ w = Some Finished.
Proof. induction 1 as [| |c c1 t E G H|]; auto. discriminate. Qed.
Lemma replacement_stops c l o w k : stops Replacement c l o w k -> w = None \/ w = Some Finished.
Proof. induction 1 as [|c v l r c1 p E G|]; auto. destruct r; try discriminate; auto. Qed.

Theorem C34_total_partial n l : n <> replacement -> exists N, forall fuel, (N <= fuel)%nat ->
  match process_queue fuel (get_encoding_decoder n) (to_queue l) [] Replacement with
  | Val (r, _, _, _) => r = Finished
  | Bad => True
  | NoFuel => False
  end.
Proof.
  intros E. pose proof (dec_ok n E) as K. destruct (total Replacement _ l K) as [(o & c1 & k & H & K1)|(o & w & k & H & W)].
  - destruct (ends_total Replacement _ K1) as (oe & w & ke & He). exists (S (k + ke)). intros fuel L.
    destruct (replacement_ends _ _ _ _ He) as [-> | ->].
    + rewrite to_queue_spec. replace fuel with (k + (ke + S (fuel - k - ke - 1)))%nat by lia.
      rewrite (eats_process _ _ _ _ _ _ H).
      destruct (ends_process _ _ _ _ _ He (fuel - k - ke - 1) [] (q_push_values [] o)) as (q' & c' & R). rewrite R. exact I.
    + destruct (proc_finish _ _ _ _ _ _ _ _ H He fuel ltac:(lia)) as (c & q & R). rewrite R. reflexivity.
  - exists (S k). intros fuel L. rewrite to_queue_spec. replace fuel with (k + S (fuel - k - 1))%nat by lia.
    destruct (stops_process _ _ _ _ _ _ H W (fuel - k - 1) [end_of_queue] []) as (q' & c' & R). rewrite R.
    destruct (replacement_stops _ _ _ _ _ H) as [-> | ->]; [exact I|reflexivity].
Qed.
Example C34_total_ex : exists c q, process_queue 20 (get_encoding_decoder Shift_JIS) (to_queue [0x41; 0x81; 0xFF]) [] Replacement
  = Val (Finished, c, q, to_queue [0x41]).
Proof. repeat eexists; vm_compute; reflexivity. Qed.

(** * C35: streaming *)

Theorem C35_chunking n fatal ib d chunks last : new_text_decoder n fatal ib = Some d ->
  exists N R, forall fuel, (N <= fuel)%nat ->
  decode_chunks fuel d chunks last = R /\ decode_chunks fuel d [] (concat chunks ++ last) = R /\ R <> NoFuel.
Proof.
  intros H. apply chunking; unfold new_text_decoder in H; destruct n; try discriminate; injection H as <-; cbn; congruence.
Qed.
Example C35_chunking_ex :
  let d := TD Shift_JIS Error_encoder [] false false Replacement false in
  new_text_decoder Shift_JIS false false = Some d /\
  decode_chunks 20 d [[0x41; 0x82]; [0xA0; 0x82]] [0xA2] = Val (Some [0x41; 0x3042; 0x3044]) /\
  decode_chunks 20 d [] [0x41; 0x82; 0xA0; 0x82; 0xA2] = Val (Some [0x41; 0x3042; 0x3044]).
Proof. cbv zeta. wit. Qed.

(** Any decoder whose last call had the stream flag unset starts afresh. *)
Theorem C35_reuse d chunks last : td_do_not_flush d = false -> td_encoding d <> replacement ->
  exists N R, forall fuel, (N <= fuel)%nat ->
  decode_chunks fuel d chunks last = R /\ decode_chunks fuel d [] (concat chunks ++ last) = R /\ R <> NoFuel.
Proof. apply chunking. Qed.

(** * C36: single-byte encodings *)

Lemma single_parts n : In n single_names -> exists t t0 t1, get_encoding_decoder n = Single_decoder t /\
  get_encoding_encoder n = Some (Single_encoder t0 t1) /\ consistent t t0 t1 128 = true /\ inverse t t0 t1 = true.
Proof.
  intros H. pose proof (proj1 (forallb_forall _ _) singles_ok n H) as X. unfold single_ok in X.
  destruct (get_encoding_decoder n); try discriminate. destruct (get_encoding_encoder n) as [[]|]; try discriminate.
  apply andb_true_iff in X as [A B]. eauto 10.
Qed.

Theorem C36_encode_decode n e s b fuel c q : In n single_names -> get_encoding_encoder n = Some e ->
  process_queue fuel e (to_queue s) [] Fatal = Val (Finished, c, q, to_queue b) ->
  exists N, forall fuel m, (N <= fuel)%nat -> exists c' q',
  process_queue fuel (get_encoding_decoder n) (to_queue b) [] m = Val (Finished, c', q', to_queue s).
Proof.
  intros H E R. destruct (single_parts n H) as (t & t0 & t1 & D & E' & C & _). rewrite E' in E. injection E as <-. rewrite D.
  assert (Ed : forall m, ends m (Single_decoder t) [] (Some Finished) 0) by (intros m; apply ends_fin; reflexivity).
  destruct (round_trip (Single_encoder t0 t1) _ _ _ I (single_back t t0 t1 C) Ed s b fuel c q) as [N X]; [apply Forall_forall; auto|exact R|].
  exists N. intros f m L. destruct (X f m L) as (c' & q' & Y). rewrite map_id in Y. eauto.
Qed.
Example C36_encode_decode_ex : exists c q, In windows_1252 single_names /\
  process_queue 9 (match get_encoding_encoder windows_1252 with Some e => e | None => Error_encoder end) (to_queue [0x41; 0x20AC; 0xE9]) [] Fatal = Val (Finished, c, q, to_queue [0x41; 0x80; 0xE9]).
Proof. eexists _, _. split; [cbn; tauto|]. vm_compute. reflexivity. Qed.

Theorem C36_decode_encode n e l s fuel c q : In n single_names -> get_encoding_encoder n = Some e -> Forall byte l ->
  process_queue fuel (get_encoding_decoder n) (to_queue l) [] Fatal = Val (Finished, c, q, to_queue s) ->
  exists N, forall fuel m, (N <= fuel)%nat -> exists c' q',
  process_queue fuel e (to_queue s) [] m = Val (Finished, c', q', to_queue l).
Proof.
  intros H E F R. destruct (single_parts n H) as (t & t0 & t1 & D & E' & _ & V). rewrite E' in E. injection E as <-. rewrite D in R.
  rewrite (to_queue_spec l) in R. destruct (single_decode_inv t l fuel [] c q (to_queue s) R) as (s' & X & F2).
  apply to_queue_inj in X. cbn [app] in X. subst s'.
  pose proof (single_forth_string t t0 t1 l s V F F2) as G. exists (S (length s)). intros f m L.
  destruct (proc_finish m _ _ _ _ _ _ _ (G m) (enc_ends m (Single_encoder t0 t1) I) f ltac:(lia)) as (c' & q' & Y). rewrite app_nil_r in Y. eauto.
Qed.
Example C36_decode_encode_ex : exists c q, In KOI8_R single_names /\
  process_queue 9 (get_encoding_decoder KOI8_R) (to_queue [0x41; 0xC1; 0xFF]) [] Fatal = Val (Finished, c, q, to_queue [0x41; 0x430; 0x42A]).
Proof. eexists _, _. split; [cbn; tauto|]. vm_compute. reflexivity. Qed.

(** Every list of encodings has been covered: the 28 names are those whose decoder is a table. *)
Theorem C36_names n : In n single_names <-> exists t, get_encoding_decoder n = Single_decoder t.
Proof.
  split; [intros H; destruct (single_parts n H) as (t & _ & _ & D & _); eauto|].
  intros [t H]. destruct n; try discriminate; cbn; tauto.
Qed.

(** * C37: multi-byte encodings *)

(** What is encoded without an error decodes to the string [norm] of it, in every error mode. *)
Definition reads_back (n : encoding_name) (P : Z -> Prop) (norm : Z -> Z) : Prop :=
  forall e s b fuel c q, get_encoding_encoder n = Some e -> Forall P s ->
  process_queue fuel e (to_queue s) [] Fatal = Val (Finished, c, q, to_queue b) ->
  exists N, forall fuel m, (N <= fuel)%nat -> exists c' q',
  process_queue fuel (get_encoding_decoder n) (to_queue b) [] m = Val (Finished, c', q', to_queue (map norm s)).

Ltac back L := intros e s b fuel c q E F R; injection E as <-;
  refine (round_trip _ _ _ _ _ L _ s b fuel c q F R); [exact I|intros m; apply ends_fin; reflexivity].

Theorem C37_euc_kr : reads_back EUC_KR (fun _ => True) (fun v => v). Proof. back euc_kr_back. Qed.
Theorem C37_gbk : reads_back GBK (fun _ => True) (fun v => v). Proof. back gbk_back. Qed.
(** U+00A5 is read as a backslash, U+203E as a tilde, U+2212 as U+FF0D. *)
Theorem C37_euc_jp : reads_back EUC_JP (fun _ => True)
  (fun v => if v =? 0xA5 then 0x5C else if v =? 0x203E then 0x7E else if v =? 0x2212 then 0xFF0D else v).
Proof. back euc_jp_back. Qed.
Theorem C37_shift_jis : reads_back Shift_JIS (fun _ => True)
  (fun v => if v =? 0xA5 then 0x5C else if v =? 0x203E then 0x7E else if v =? 0x2212 then 0xFF0D else v).
Proof. back sjis_back. Qed.
Theorem C37_user_defined : reads_back x_user_defined (fun _ => True) (fun v => v). Proof. back user_back. Qed.
(** gb18030: the scalar values below U+10000 *)
Theorem C37_gb18030_partial : reads_back gb18030 (fun v => scalar v /\ v < 0x10000) (fun v => v). Proof. back gb18030_back. Qed.
(** Big5: the code points whose trail byte is 0x40 to 0x7E *)
Theorem C37_big5_partial : reads_back Big5 (fun v => forall p, big5_pointer v = Some p -> p mod 157 < 0x3F) (fun v => v).
Proof. back big5_back. Qed.

Definition enc_of (n : encoding_name) : coder := match get_encoding_encoder n with Some e => e | None => Error_encoder end.
Example C37_ex : exists c1 q1 c2 q2 c3 q3 c4 q4 c5 q5 c6 q6 c7 q7,
  process_queue 9 (enc_of EUC_KR) (to_queue [0x41; 0xAC00]) [] Fatal = Val (Finished, c1, q1, to_queue [0x41; 0xB0; 0xA1]) /\
  process_queue 9 (enc_of GBK) (to_queue [0x4E00; 0x20AC]) [] Fatal = Val (Finished, c2, q2, to_queue [0xD2; 0xBB; 0x80]) /\
  process_queue 9 (enc_of EUC_JP) (to_queue [0x3042; 0xA5]) [] Fatal = Val (Finished, c3, q3, to_queue [0xA4; 0xA2; 0x5C]) /\
  process_queue 9 (enc_of Shift_JIS) (to_queue [0x3042; 0xFF71]) [] Fatal = Val (Finished, c4, q4, to_queue [0x82; 0xA0; 0xB1]) /\
  process_queue 9 (enc_of x_user_defined) (to_queue [0xF7FF]) [] Fatal = Val (Finished, c5, q5, to_queue [0xFF]) /\
  process_queue 9 (enc_of gb18030) (to_queue [0x4E00; 0xE9; 0xFFFF]) [] Fatal = Val (Finished, c6, q6, to_queue [0xD2; 0xBB; 0xA8; 0xA6; 0x84; 0x31; 0xA4; 0x39]) /\
  process_queue 9 (enc_of Big5) (to_queue [0x4E00]) [] Fatal = Val (Finished, c7, q7, to_queue [0xA4; 0x40]).
Proof. do 14 eexists. wit. Qed.

(** Every scalar value below U+10000 except U+E5E5 has a gb18030 form. *)
Theorem C37_gb18030_total_partial s : Forall (fun v => scalar v /\ v < 0x10000 /\ v <> 0xE5E5) s ->
  exists N b, forall fuel, (N <= fuel)%nat -> exists c q,
  process_queue fuel (GB_encoder false) (to_queue s) [] Fatal = Val (Finished, c, q, to_queue b).
Proof.
  intros F. assert (A : Forall (encodable (GB_encoder false)) s).
  { eapply Forall_impl; [|exact F]. intros v (A & B & C). now apply gb18030_total. }
  exists (S (length s)), (flat_map (one Fatal (GB_encoder false)) s). intros fuel L.
  destruct (proc_finish _ _ _ _ _ _ _ _ (enc_all Fatal (GB_encoder false) s I A) (enc_ends Fatal (GB_encoder false) I) fuel ltac:(lia)) as (c & q & R).
  rewrite app_nil_r in R. eauto.
Qed.

(** ISO-2022-JP: strings of the repertoire ([jp_known]) are encoded and read back, with halfwidth katakana made fullwidth. *)
Theorem C37_iso_2022_jp s : Forall jp_known s -> exists N b,
  (forall fuel m, (N <= fuel)%nat -> exists c q, process_queue fuel (enc_of ISO_2022_JP) (to_queue s) [] m = Val (Finished, c, q, to_queue b)) /\
  (forall fuel m, (N <= fuel)%nat -> exists c q, process_queue fuel (get_encoding_decoder ISO_2022_JP) (to_queue b) [] m
     = Val (Finished, c, q, to_queue (map kana_norm s))).
Proof. apply jp_round_trip. Qed.
Example C37_iso_2022_jp_ex : Forall jp_known [0x41; 0x5C; 0xA5; 0x3042; 0xFF71; 0x42] /\ map kana_norm [0x41; 0x5C; 0xA5; 0x3042; 0xFF71; 0x42] = [0x41; 0x5C; 0xA5; 0x3042; 0x30A2; 0x42] /\
  exists c q, process_queue 30 (enc_of ISO_2022_JP) (to_queue [0x41; 0x5C; 0xA5; 0x3042; 0xFF71; 0x42]) [] Fatal
    = Val (Finished, c, q, to_queue [0x41; 0x5C; 0x1B; 0x28; 0x4A; 0x5C; 0x1B; 0x24; 0x42; 0x24; 0x22; 0x25; 0x22; 0x1B; 0x28; 0x42; 0x42]).
Proof.
  split; [|split; [vm_compute; reflexivity|repeat eexists; vm_compute; reflexivity]].
  repeat apply Forall_cons; try apply Forall_nil; try (left; unfold jp_plain; lia); try (right; left; now left).
  - right. right. eexists. vm_compute. reflexivity.
  - right. right. eexists. vm_compute. reflexivity.
Qed.

(** Big5 and gb18030 do not read back everything they write: U+6709 is written in Big5 with trail byte 0xB3, which the
    decoder rejects, and U+10000 is written in gb18030 but not read. *)
Theorem C37_refuted :
  (exists v b c q, process_queue 9 (enc_of Big5) (to_queue [v]) [] Fatal = Val (Finished, c, q, to_queue b) /\
     forall s c q, process_queue 9 (get_encoding_decoder Big5) (to_queue b) [] Fatal <> Val (Finished, c, q, to_queue s)) /\
  (exists b c q, process_queue 9 (enc_of gb18030) (to_queue [0x10000]) [] Fatal = Val (Finished, c, q, to_queue b) /\
     forall s c q, process_queue 9 (get_encoding_decoder gb18030) (to_queue b) [] Fatal <> Val (Finished, c, q, to_queue s)) /\
  process_queue 9 (enc_of gb18030) (to_queue [0x10FFFF]) [] Fatal = Bad.
Proof.
  split; [|split].
  - exists 0x6709, [0xA6; 0xB3]. vm_compute. do 2 eexists. split; [reflexivity|]. intros s c q. discriminate.
  - exists [133; 53; 251; 56]. vm_compute. do 2 eexists. split; [reflexivity|]. intros s c q. discriminate.
  - vm_compute. reflexivity.
Qed.

(** * C38: UTF-16 *)

(** Every sequence of scalar values is read from its UTF-16 bytes, in both byte orders. *)
Theorem C38_valid (be : bool) s : Forall scalar s -> exists N, forall fuel m, (N <= fuel)%nat -> exists c q,
  process_queue fuel (get_encoding_decoder (if be then UTF_16BE else UTF_16LE))
    (to_queue (flat_map (fun cp => flat_map (fun u => if be then [u / 256; u mod 256] else [u mod 256; u / 256]) (utf16_spec cp)) s)) [] m
  = Val (Finished, c, q, to_queue s).
Proof.
  intros F. destruct (utf16_string be s F) as [k H]. exists (S k). intros fuel m L.
  destruct (proc_finish m _ _ _ _ _ _ _ (H m) (utf16_ends be m) fuel ltac:(lia)) as (c & q & R).
  exists c, q. rewrite app_nil_r in R. destruct be; exact R.
Qed.
Example C38_valid_ex : exists c q, process_queue 9 (get_encoding_decoder UTF_16LE) (to_queue [0x41; 0; 0x3D; 0xD8; 0; 0xDE]) [] Fatal
  = Val (Finished, c, q, to_queue [0x41; 0x1F600]).
Proof. repeat eexists. Qed.

(** An unpaired lead surrogate reports an error and changes the unit after it: the high byte becomes 1. *)
Theorem C38_unpaired_partial (be : bool) lead u s : 0xD800 <= lead <= 0xDBFF -> 0 <= u < 65536 -> u < 0xDC00 \/ 0xDFFF < u ->
  Forall scalar s -> exists N, forall fuel, (N <= fuel)%nat -> exists c q,
  process_queue fuel (get_encoding_decoder (if be then UTF_16BE else UTF_16LE))
    (to_queue (unit_bytes be lead ++ unit_bytes be u ++ flat_map (utf16_bytes be) s)) [] Replacement
  = Val (Finished, c, q, to_queue ((if 8 <? u then 256 + u mod 256 else u) :: s)).
Proof.
  intros L U N F. destruct (utf16_string be s F) as [k H].
  assert (M : 0 <= mangled u < 0xD800).
  { unfold mangled. destruct (8 <? u) eqn:E; [|lia]. pose proof (Z.mod_pos_bound u 256). lia. }
  destruct (utf16_char be (mangled u)) as [k1 H1]; [unfold scalar; lia|].
  assert (X : utf16_bytes be (mangled u) = unit_bytes be (mangled u)).
  { unfold utf16_bytes, utf16_spec. replace (mangled u <? 0x10000) with true by lia. cbn. apply app_nil_r. }
  pose proof (eats_app _ _ _ _ _ _ (H1 Replacement) _ _ _ _ (H Replacement)) as Y. rewrite X in Y.
  pose proof (utf16_unpaired be lead u Replacement L U N eq_refl _ _ _ _ Y) as Z.
  exists (S (4 + (k1 + k))). intros fuel Lf.
  destruct (proc_finish _ _ _ _ _ _ _ _ Z (utf16_ends be Replacement) fuel ltac:(lia)) as (c & q & R).
  exists c, q. rewrite app_nil_r in R. destruct be; exact R.
Qed.
Example C38_unpaired_ex : exists c q, process_queue 20 (get_encoding_decoder UTF_16BE) (to_queue [0xD8; 0; 0x30; 0x42; 0; 0x41]) [] Replacement
  = Val (Finished, c, q, to_queue [0x142; 0x41]).
Proof. repeat eexists. Qed.

(** D800 0041 in big endian: U+0041 should remain, the decoder gives U+0141. *)
Theorem C38_refuted : exists c q, process_queue 20 (get_encoding_decoder UTF_16BE) (to_queue [0xD8; 0; 0; 0x41]) [] Replacement
  = Val (Finished, c, q, to_queue [0x141]) /\ [0x141] <> [0x41] /\ [0x141] <> [0xFFFD; 0x41].
Proof. do 2 eexists. split; [vm_compute; reflexivity|]. split; discriminate. Qed.

(** * C39: encoders *)

Lemma enc_defined n e v : get_encoding_encoder n = Some e -> n <> ISO_2022_JP -> scalar v -> (n = gb18030 -> v <= 0x10000) ->
  is_enc e /\ run e [] (Item v false) <> None.
Proof.
  intros E N S G.
  destruct n; try discriminate; injection E as <-; try congruence; (split; [exact I|]);
  lazymatch goal with
  | |- run (Single_encoder _ _) _ _ <> None => cbn [run]; unfold single_encoder_run; cbn [eoq value]
  | _ => idtac end;
  try (destruct (is_ascii v); [discriminate|]; destruct (get_index_pointer _ _ v); discriminate).
  - rewrite utf8_encoder_spec by exact S. discriminate.
  - cbn [run]. unfold gb_encoder_run. cbn [eoq value]. cbv zeta. brk; discriminate.
  - specialize (G eq_refl). destruct (Z.eq_dec v 0x10000) as [->|A]; [vm_compute; discriminate|].
    destruct (Z.eq_dec v 0xE5E5) as [->|B]; [vm_compute; discriminate|].
    destruct (gb18030_total v S ltac:(lia) B) as [l H]. rewrite H. discriminate.
  - cbn [run]. unfold big5_encoder_run. cbn [eoq value]. cbv zeta. brk; discriminate.
  - cbn [run]. unfold euc_jp_encoder_run. cbn [eoq value]. cbv zeta. brk; discriminate.
  - cbn [run]. unfold sjis_encoder_run. cbn [eoq value]. cbv zeta. brk; discriminate.
  - cbn [run]. unfold euc_kr_encoder_run. cbn [eoq value]. cbv zeta. brk; discriminate.
  - cbn [run]. unfold user_encoder_run. cbn [eoq value]. cbv zeta. brk; discriminate.
Qed.

(** The part of the output for [v]: its bytes, or a decimal reference when encoding it alone fails. *)
Definition part_of (e : coder) (v : Z) (p : list Z) : Prop :=
  (exists c q, process_queue 2 e (to_queue [v]) [] Fatal = Val (Finished, c, q, to_queue p)) \/
  ((exists c q, process_queue 2 e (to_queue [v]) [] Fatal = Val (Error v, c, q, [])) /\
   exists ds, decimal v ds /\ p = [0x26; 0x23] ++ ds ++ [0x3B]).

Lemma part_ok e v : is_enc e -> 0 <= v -> run e [] (Item v false) <> None -> part_of e v (one Html e v).
Proof.
  intros Ie V N. unfold one. pose proof (enc_step e v Ie) as S. pose proof (enc_error e v Ie) as Er.
  destruct (run e [] (Item v false)) as [[[r c] p]|] eqn:E; [|congruence]. destruct S as (-> & -> & [[l ->]|[x ->]]).
  - left. destruct (proc_finish Fatal e [v] l e 1 [] 0 (eat_out _ _ _ _ _ E) (enc_ends Fatal e Ie) 2 ltac:(lia)) as (c & q & R).
    rewrite app_nil_r in R. eauto.
  - right. subst x. split.
    + destruct (proc_error Fatal e [v] [] v 0 (stops_res Fatal _ _ _ _ _ _ E eq_refl) 2 ltac:(lia)) as (c & q & R). eauto.
    + exists (to_chars 10 v). split; [apply to_chars_decimal, V|reflexivity].
Qed.

(** Every encoder but ISO-2022-JP terminates; gb18030 is limited to U+10000. *)
Theorem C39_encode_partial n e s : get_encoding_encoder n = Some e -> n <> ISO_2022_JP -> Forall scalar s ->
  (n = gb18030 -> Forall (fun v => v <= 0x10000) s) ->
  exists N ps, Forall2 (part_of e) s ps /\ forall fuel, (N <= fuel)%nat -> exists c q,
  encode fuel (to_queue s) n [] = Val (Finished, c, q, to_queue (concat ps)).
Proof.
  intros E N F G. exists (S (length s)), (map (one Html e) s).
  assert (Ie : is_enc e).
  { destruct (enc_defined n e 0 E N) as [X _]; [unfold scalar; lia|lia|exact X]. }
  assert (D : Forall (fun v => run e [] (Item v false) <> None) s).
  { apply Forall_forall. intros v Hv. rewrite Forall_forall in F. apply (enc_defined n e v E N (F v Hv)).
    intros X. specialize (G X). rewrite Forall_forall in G. apply G, Hv. }
  split.
  - clear G. induction F as [|v s S F IH]; [constructor|]. inversion D as [|x y D1 D2]; subst. cbn [map]. constructor; [|apply IH, D2].
    apply part_ok; [exact Ie|unfold scalar in S; lia|exact D1].
  - intros fuel L. unfold encode. rewrite E. rewrite <- flat_map_concat_map.
    destruct (proc_finish _ _ _ _ _ _ _ _ (enc_html e s Ie D) (enc_ends Html e Ie) fuel ltac:(lia)) as (c & q & R).
    exists c, q. rewrite app_nil_r in R. exact R.
Qed.
Example C39_encode_ex : exists c q, encode 9 (to_queue [0x41; 0x3042; 0xE9]) windows_1252 []
  = Val (Finished, c, q, to_queue [0x41; 0x26; 0x23; 0x31; 0x32; 0x33; 0x35; 0x34; 0x3B; 0xE9]).
Proof. repeat eexists; vm_compute; reflexivity. Qed.

(** ISO-2022-JP loops for ever on a code point that is not in its repertoire. *)
Theorem C39_iso_2022_jp_refuted : exists s, Forall scalar s /\ forall fuel, encode fuel (to_queue s) ISO_2022_JP [] = NoFuel.
Proof.
  exists [0x1F600]. split; [repeat constructor; unfold scalar; lia|]. intros fuel. unfold encode. cbn [get_encoding_encoder].
  change (to_queue [0x1F600]) with (Item 0x1F600 false :: [end_of_queue]).
  apply jp_loop; [lia|unfold jp_yen; lia|vm_compute; reflexivity|vm_compute; reflexivity].
Qed.
(** The loop is met after any encodable text that leaves the encoder in the ASCII or Roman state. *)
Theorem C39_iso_2022_jp_ascii_refuted a v r : Forall jp_plain a -> ~ 0 <= v < 0x80 -> v <> 0xA5 -> v <> 0x203E -> kana_norm v = v ->
  jis_pointer v = None -> forall fuel, encode fuel (to_queue (a ++ v :: r)) ISO_2022_JP [] = NoFuel.
Proof.
  intros F A Y1 Y2 K P. unfold encode. cbn [get_encoding_encoder]. rewrite to_queue_spec, plain_app, <- app_assoc.
  enough (H : forall out fuel, process_queue fuel (JP_encoder JE_ascii) (plain a ++ plain (v :: r) ++ [end_of_queue]) out Html = NoFuel)
    by (intros fuel; apply H).
  induction F as [|c a C F IH]; intros out fuel.
  - cbn [plain map app]. apply jp_loop; auto. intros [H|H]; auto.
  - destruct fuel as [|fuel]; [reflexivity|]. cbn [process_queue plain map app q_read eoq]. unfold process_item.
    rewrite run_plain. rewrite (enc_direct JE_ascii c [c] c (holds_ascii c C)). cbn [plain map app]. apply IH.
Qed.
Example C39_iso_2022_jp_ex : Forall jp_plain [0x41; 0x42] /\ kana_norm 0xE9 = 0xE9 /\ jis_pointer 0xE9 = None.
Proof. split; [repeat constructor; lia|]. split; vm_compute; reflexivity. Qed.

(** gb18030 fails an assert above U+10000. *)
Theorem C39_gb18030_refuted : exists s, Forall scalar s /\ encode 9 (to_queue s) gb18030 [] = Bad.
Proof. exists [0x1F600]. split; [repeat constructor; unfold scalar; lia|vm_compute; reflexivity]. Qed.

(** * C40: labels *)

(** A label is looked up by its lower case form without leading and trailing white space; the 219 labels are distinct. *)
Theorem C40_lookup s : Forall scalar s -> s = [] \/ ~ Forall ws s ->
  exists m, Trimmed s m /\ (forall m', Trimmed s m' -> m' = m) /\
  exists r, get_encoding_name s = Some r /\
  forall n, r = Some n <-> In (map (fun c => if (0x41 <=? c) && (c <=? 0x5A) then c + 32 else c) m, n) encoding_label_map.
Proof. exact (label_lookup s). Qed.
Example C40_lookup_ex : get_encoding_name (lit " UTF-8 ") = Some (Some UTF_8) /\ get_encoding_name (lit "utf-9") = Some None
  /\ In (lit "utf-8", UTF_8) encoding_label_map.
Proof. split; [vm_compute; reflexivity|]. split; [vm_compute; reflexivity|]. cbn. tauto. Qed.

Theorem C40_distinct : NoDup (map fst encoding_label_map) /\ length encoding_label_map = 219%nat.
Proof. split; [exact labels_nodup|vm_compute; reflexivity]. Qed.

Theorem C40_label_partial n : n <> ISO_8859_15 -> get_encoding_name (get_encoding_label n) = Some (Some n).
Proof. intros H. destruct n; try congruence; vm_compute; reflexivity. Qed.

(** The label of ISO-8859-15 is that of ISO-8859-14; looking up a label of white space only is undefined. *)
Theorem C40_refuted :
  (exists n, get_encoding_name (get_encoding_label n) = Some (Some ISO_8859_14) /\ n = ISO_8859_15) /\
  (exists s, s = [0x20] /\ get_encoding_name s = None).
Proof. split; [exists ISO_8859_15|exists [0x20]]; split; vm_compute; reflexivity. Qed.

(** * C48: the queue *)

(** Answers and contents in every history of pushes, prepends of values, reads and waiting tests. *)
Theorem C48_history h : ~ In (ReadN 0) h ->
  model_run h [] = let '(l, (vs, closed)) := spec_run h ([], false) in
                   Some (l, map (fun v => Item v false) vs ++ (if closed then [end_of_queue] else [])).
Proof.
  intros N. pose proof (history_ok h N ([], false)) as H. change (concrete ([], false)) with (@nil item) in H. rewrite H.
  destruct (spec_run h ([], false)) as [l [vs b]]. reflexivity.
Qed.
Example C48_history_ex : ~ In (ReadN 0) [Push 1; Read; Read; PushEnd; Push 2; Prepend 3; ReadN 2; Read; Read] /\
  spec_run [Push 1; Read; Read; PushEnd; Push 2; Prepend 3; ReadN 2; Read; Read] ([], false)
  = ([Done; Items [1]; Wait; Done; Done; Done; Items [3; 2]; AtEnd; AtEnd], ([], true)).
Proof. split; [|reflexivity]. cbn. intuition discriminate. Qed.

(** read(0) is undefined; peek(1) returns more than one item; a prepended end-of-queue hides later values. *)
Theorem C48_refuted :
  (exists q, model_step (ReadN 0) q = None) /\
  (exists q l, q_peek 1 q = Val (Some l) /\ (1 < length l)%nat) /\
  (exists q, q_push_value (q_prepend (to_queue []) end_of_queue) 1 = q /\ q = [end_of_queue; Item 1 false; end_of_queue] /\
     q_read q = Some (end_of_queue, q)).
Proof.
  split; [exists (to_queue [1]); reflexivity|]. split.
  - exists (to_queue [1; 2]), [Item 1 false; Item 2 false]. split; [reflexivity|cbn; lia].
  - eexists. split; [reflexivity|]. split; reflexivity.
Qed.

(** * C49: byte order marks *)

(** decode: a byte order mark selects the encoding and is removed. *)
Theorem C49_bom b n r name fuel : bom b n ->
  decode fuel (to_queue (b ++ r)) name [] = process_queue fuel (get_encoding_decoder n) (to_queue r) [] Replacement.
Proof. intros B. unfold decode. rewrite (sniff_bom b n r B), (read_bom b n r B). reflexivity. Qed.
Example C49_bom_ex : bom [0xFE; 0xFF] UTF_16BE /\ exists c q, decode 9 (to_queue [0xFE; 0xFF; 0; 0x41]) UTF_8 [] = Val (Finished, c, q, to_queue [0x41]).
Proof. split; [constructor|]. repeat eexists. Qed.

Theorem C49_no_bom l name fuel : Forall byte l -> (forall b n r, bom b n -> l <> b ++ r) ->
  decode fuel (to_queue l) name [] = process_queue fuel (get_encoding_decoder name) (to_queue l) [] Replacement.
Proof. intros F N. unfold decode. rewrite (sniff_none l F N). reflexivity. Qed.
Example C49_no_bom_ex : (forall b n r, bom b n -> [0xFE; 0x41] <> b ++ r) /\
  exists c q, decode 9 (to_queue [0xFE; 0x41]) windows_1252 [] = Val (Finished, c, q, to_queue [0xFE; 0x41]).
Proof. split; [intros b n r []; discriminate|]. repeat eexists. Qed.

(** utf8_decode removes the UTF-8 mark only. *)
Theorem C49_utf8 l fuel : utf8_decode fuel (to_queue ([0xEF; 0xBB; 0xBF] ++ l)) [] = utf8_decode_without_bom fuel (to_queue l) [] /\
  (Forall byte l -> (forall r, l <> [0xEF; 0xBB; 0xBF] ++ r) -> utf8_decode fuel (to_queue l) [] = utf8_decode_without_bom fuel (to_queue l) []).
Proof.
  split.
  - unfold utf8_decode. destruct (peek3 ([0xEF; 0xBB; 0xBF] ++ l)) as (r & -> & ->). cbn [plain map app].
    change (value (Item 239 false) mod 256 =? 0xEF) with true. change (value (Item 187 false) mod 256 =? 0xBB) with true.
    change (value (Item 191 false) mod 256 =? 0xBF) with true. cbn [andb].
    pose proof (read_bom _ _ l bom_utf8) as R. cbn [app] in R. rewrite R. reflexivity.
  - intros F N. unfold utf8_decode. destruct (peek3 l) as (r & -> & ->).
    destruct l as [|a [|b [|c l]]]; try reflexivity. cbn [plain map].
    inversion F as [|? ? A F1]; subst. inversion F1 as [|? ? B F2]; subst. inversion F2 as [|? ? C F3]; subst. unfold byte in *.
    cbn [value]. rewrite !(Z.mod_small _ 256) by lia.
    destruct ((a =? 0xEF) && (b =? 0xBB) && (c =? 0xBF)) eqn:E; [|reflexivity].
    exfalso. apply (N l). assert (a = 0xEF /\ b = 0xBB /\ c = 0xBF) as (-> & -> & ->) by lia. reflexivity.
Qed.
Example C49_utf8_ex : exists c q, utf8_decode 9 (to_queue [0xEF; 0xBB; 0xBF; 0x41]) [] = Val (Finished, c, q, to_queue [0x41]).
Proof. repeat eexists. Qed.

(** TextDecoder on well-formed UTF-8 gives the string without one leading U+FEFF, unless told to keep it. *)
Theorem C49_text_decoder fatal ib d s : new_text_decoder UTF_8 fatal ib = Some d -> Forall scalar s ->
  exists N, forall fuel, (N <= fuel)%nat ->
  decode_chunks fuel d [] (flat_map utf8_spec s) = Val (Some (match s with 0xFEFF :: r => if ib then s else r | _ => s end)).
Proof.
  intros H F. assert (X : exists k, forall m, eats m D0 (flat_map utf8_spec s) s D0 k).
  { clear H. induction F as [|c s S _ [k2 H2]]; [exists 0%nat; constructor|]. destruct (eats_char c S) as [k1 H1].
    exists (k1 + k2)%nat. intros m. exact (eats_app _ _ _ _ _ _ (H1 m) _ _ _ _ (H2 m)). }
  destruct X as [k X]. exists (S k). intros fuel L. cbn in H. injection H as <-.
  rewrite chunks_fresh by reflexivity. cbn [td_encoding td_ignore_bom td_mode get_encoding_decoder].
  rewrite (decode_last_ends fuel UTF_8 ib _ D0 false _ s D0 k [] (Some Finished) 0 (X _) (ends_D0 _)) by lia.
  rewrite app_nil_r. cbn [last_val]. f_equal. f_equal.
  assert (Y : forall l, fst (serialize_io_queue UTF_8 ib true l) = l /\ fst (serialize_io_queue UTF_8 true false l) = l).
  { induction l as [|v l [I1 I2]]; [split; reflexivity|]. cbn [serialize_io_queue has_bom andb negb].
    rewrite andb_false_r. destruct (serialize_io_queue UTF_8 ib true l), (serialize_io_queue UTF_8 true false l).
    cbn [fst] in *. subst. split; reflexivity. }
  destruct ib; [rewrite (proj2 (Y s)); destruct s as [|v s]; [reflexivity|]; destruct v as [|v|v]; try reflexivity;
    repeat (destruct v as [v|v|]; try reflexivity)|].
  destruct s as [|v s]; [reflexivity|]. cbn [serialize_io_queue has_bom andb negb].
  destruct (Y s) as [Y1 _]. destruct (serialize_io_queue UTF_8 false true s) as [t u]. cbn [fst] in Y1. subst t.
  destruct (v =? 0xFEFF) eqn:E; cbn [fst].
  - apply Z.eqb_eq in E as ->. reflexivity.
  - apply Z.eqb_neq in E. destruct v as [|v|v]; try reflexivity.
    repeat (destruct v as [v|v|]; try reflexivity). congruence.
Qed.
Example C49_text_decoder_ex :
  new_text_decoder UTF_8 true false = Some (TD UTF_8 Error_encoder [] false false Fatal false) /\
  decode_chunks 20 (TD UTF_8 Error_encoder [] false false Fatal false) [[0xEF]; [0xBB]] [0xBF; 0xEF; 0xBB; 0xBF; 0x41] = Val (Some [0xFEFF; 0x41]).
Proof. wit. Qed.

Print Assumptions C33_fatal.
Print Assumptions C33_encode.
Print Assumptions C34_refuted.
Print Assumptions C34_utf8_partial.
Print Assumptions C34_total_partial.
Print Assumptions C35_chunking.
Print Assumptions C35_reuse.
Print Assumptions C36_encode_decode.
Print Assumptions C36_decode_encode.
Print Assumptions C36_names.
Print Assumptions C37_euc_kr.
Print Assumptions C37_gbk.
Print Assumptions C37_euc_jp.
Print Assumptions C37_shift_jis.
Print Assumptions C37_user_defined.
Print Assumptions C37_gb18030_partial.
Print Assumptions C37_big5_partial.
Print Assumptions C37_gb18030_total_partial.
Print Assumptions C37_iso_2022_jp.
Print Assumptions C37_refuted.
Print Assumptions C38_valid.
Print Assumptions C38_unpaired_partial.
Print Assumptions C38_refuted.
Print Assumptions C39_encode_partial.
Print Assumptions C39_iso_2022_jp_refuted.
Print Assumptions C39_iso_2022_jp_ascii_refuted.
Print Assumptions C39_gb18030_refuted.
Print Assumptions C40_lookup.
Print Assumptions C40_distinct.
Print Assumptions C40_label_partial.
Print Assumptions C40_refuted.
Print Assumptions C48_history.
Print Assumptions C48_refuted.
Print Assumptions C49_bom.
Print Assumptions C49_no_bom.
Print Assumptions C49_utf8.
Print Assumptions C49_text_decoder.
