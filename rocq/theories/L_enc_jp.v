(** ISO-2022-JP: the decoder reads back what the encoder writes, and the encoder's endless loop. *)
From Coq Require Import ZArith List Bool Lia.
From Verif Require Import M_unicode L_unicode M_infra M_percent M_encoding L_encoding L_encoding2 L_enc_utf8 L_enc_codec L_enc_tables L_enc_multi.
From Verif Require Import M_index_single M_index_jis.
Import ListNotations.
Open Scope Z_scope.

Definition jis_pointer := get_index_pointer index_pointer_jis0208_0 index_pointer_jis0208_1.
(** U+2212 becomes U+FF0D and halfwidth katakana becomes fullwidth. *)
Definition kana_norm (v : Z) : Z :=
  if v =? 0x2212 then 0xFF0D
  else if in_range 0xFF61 v 0xFF9F then nth (Z.to_nat (v - 0xFF61)) index_code_point_iso_2022_jp_katakana 0 else v.
Definition jp_plain (v : Z) : Prop := 0 <= v < 0x80 /\ v <> 0xE /\ v <> 0xF /\ v <> 0x1B.
Definition jp_yen (v : Z) : Prop := v = 0xA5 \/ v = 0x203E.
Definition jp_known (v : Z) : Prop := jp_plain v \/ jp_yen v \/ exists p, jis_pointer (kana_norm v) = Some p.

Definition code_of (e : jpe_state) : jp_state := match e with JE_ascii => J_ascii | JE_roman => J_roman | JE_jis0208 => J_lead end.
Definition escape_to (e : jpe_state) : list Z :=
  match e with JE_ascii => [0x1B; 0x28; 0x42] | JE_roman => [0x1B; 0x28; 0x4A] | JE_jis0208 => [0x1B; 0x24; 0x42] end.
Definition decoder_at (e : jpe_state) (lead : Z) (flag : bool) : coder := JP_decoder (code_of e) (code_of e) lead flag.

Lemma dec_escape e e' lead : exists k, forall m, eats m (decoder_at e lead false) (escape_to e') [] (decoder_at e' 0 true) k.
Proof.
  exists 3%nat. intros m. destruct e; destruct e'; cbn [escape_to];
    (eapply eat1; [reflexivity|]); (eapply eat1; [reflexivity|]); (eapply eat1; [reflexivity|]); apply eats_nil.
Qed.

(** What is written for one code point in a state that can hold it. *)
Inductive holds : jpe_state -> Z -> list Z -> Z -> Prop :=
| holds_ascii v : jp_plain v -> holds JE_ascii v [v] v
| holds_roman v : jp_plain v -> v <> 0x5C -> v <> 0x7E -> holds JE_roman v [v] v
| holds_yen : holds JE_roman 0xA5 [0x5C] 0xA5
| holds_line : holds JE_roman 0x203E [0x7E] 0x203E
| holds_jis v p : jis_pointer (kana_norm v) = Some p -> ~ jp_plain v -> ~ jp_yen v ->
    holds JE_jis0208 v [p / 94 + 0x21; p mod 94 + 0x21] (kana_norm v).

Lemma dec_holds e v o w lead flag : holds e v o w -> exists lead' k, forall m,
  eats m (decoder_at e lead flag) o [w] (decoder_at e lead' false) k.
Proof.
  destruct 1 as [v (H & A & B & C)|v (H & A & B & C) D E| | |v p P A B]; unfold decoder_at; cbn [code_of].
  - exists lead, 1%nat. intros m. apply eat_out. cbn [run]. unfold jp_decoder_run. cbn [eoq value].
    rewrite (Z.mod_small v 256) by lia. zq. reflexivity.
  - exists lead, 1%nat. intros m. apply eat_out. cbn [run]. unfold jp_decoder_run. cbn [eoq value].
    rewrite (Z.mod_small v 256) by lia. zq. reflexivity.
  - exists lead, 1%nat. intros m. apply eat_out. reflexivity.
  - exists lead, 1%nat. intros m. apply eat_out. reflexivity.
  - destruct (consistent_ok _ _ _ _ _ _ jis0208_ok ltac:(lia) P) as (P1 & _ & G).
    exists (p / 94 + 0x21), 2%nat. intros m.
    eapply eat1; [|apply eat_out].
    + cbn [run]. unfold jp_decoder_run, in_range. cbn [eoq value]. rewrite (Z.mod_small (p / 94 + 0x21) 256) by zdiv. zq. reflexivity.
    + cbn [run]. unfold jp_decoder_run, in_range. cbn [eoq value]. rewrite (Z.mod_small (p mod 94 + 0x21) 256) by zdiv. zq. cbn [andb].
      replace ((p / 94 + 33 - 33) * 94 + (p mod 94 + 33) - 33) with p by zdiv.
      rewrite (Z.mod_small p 65536) by lia. rewrite G. reflexivity.
Qed.

Lemma kana_table : forallb (fun x => (0x3000 <=? x) && (x <=? 0x30FF)) index_code_point_iso_2022_jp_katakana = true
  /\ length index_code_point_iso_2022_jp_katakana = 63%nat.
Proof. split; vm_compute; reflexivity. Qed.

Lemma kana_value v : in_range 0xFF61 v 0xFF9F = true -> 0x3000 <= kana_norm v <= 0x30FF /\
  get_index_code_point index_code_point_iso_2022_jp_katakana (v - 0xFF61) = Some (kana_norm v).
Proof.
  unfold in_range. intros H. destruct kana_table as [T L].
  unfold kana_norm, in_range. rewrite H. replace (v =? 0x2212) with false by lia.
  assert (X : (Z.to_nat (v - 0xFF61) < length index_code_point_iso_2022_jp_katakana)%nat) by (rewrite L; lia).
  pose proof (proj1 (forallb_forall _ _) T _ (nth_In _ 0 X)) as B. cbn beta in B. split; [lia|].
  unfold get_index_code_point. rewrite (Z.mod_small (v - 0xFF61) 65536) by lia. rewrite (nth_error_nth' _ 0 X).
  match goal with |- (if ?c then _ else _) = _ => replace c with false by lia end. reflexivity.
Qed.

Lemma kana_idem v : kana_norm (kana_norm v) = kana_norm v.
Proof.
  destruct (in_range 0xFF61 v 0xFF9F) eqn:K.
  - apply kana_value in K as [K _]. unfold kana_norm at 1. unfold in_range. zq. reflexivity.
  - unfold kana_norm at 2 3. rewrite K. destruct (v =? 0x2212) eqn:E; [reflexivity|]. unfold kana_norm. rewrite E, K. reflexivity.
Qed.

Lemma kana_high v : ~ jp_yen v -> ~ jp_yen (kana_norm v).
Proof.
  intros N [H|H]; unfold kana_norm in H; destruct (v =? 0x2212); try discriminate.
  - destruct (in_range 0xFF61 v 0xFF9F) eqn:K; [|apply N; now left]. pose proof (kana_value v K) as [B _].
    unfold kana_norm in B. rewrite K in B. destruct (v =? 0x2212); lia.
  - destruct (in_range 0xFF61 v 0xFF9F) eqn:K; [|apply N; now right]. pose proof (kana_value v K) as [B _].
    unfold kana_norm in B. rewrite K in B. destruct (v =? 0x2212); lia.
Qed.

(** The tail of the encoder, for code points that are not ASCII, U+00A5 or U+203E. *)
Lemma enc_tail e v : ~ 0 <= v < 0x80 -> ~ jp_yen v -> run (JP_encoder e) [] (Item v false) =
  match jis_pointer (kana_norm v) with
  | None => if negb (is_je_jis0208 e) then Some (Out (escape_to JE_ascii), JP_encoder JE_ascii, plain [kana_norm v])
            else Some (Error (kana_norm v), JP_encoder e, [])
  | Some p => if negb (is_je_jis0208 e) then Some (Out (escape_to JE_jis0208), JP_encoder JE_jis0208, plain [kana_norm v])
              else Some (Out [(p / 94 + 0x21) mod 256; (p mod 94 + 0x21) mod 256], JP_encoder e, [])
  end.
Proof.
  intros A Y. cbn [run]. unfold jp_encoder_run. cbn [eoq value andb]. cbv zeta. unfold is_ascii.
  assert (A' : (0 <=? v) && (v <=? 0x7F) = false) by lia. 
  assert (Y' : (v =? 0xA5) || (v =? 0x203E) = false) by (unfold jp_yen in Y; lia).
  assert (X : (v =? 0xE) || (v =? 0xF) || (v =? 0x1B) = false) by lia.
  rewrite A', Y', X. rewrite !andb_false_r. cbn [andb orb negb].
  replace (is_je_roman e && false) with false by (destruct e; reflexivity).
  assert (K : (if in_range 0xFF61 (if v =? 0x2212 then 0xFF0D else v) 0xFF9F
     then get_index_code_point index_code_point_iso_2022_jp_katakana ((if v =? 0x2212 then 0xFF0D else v) - 0xFF61)
     else Some (if v =? 0x2212 then 0xFF0D else v)) = Some (kana_norm v)).
  { destruct (v =? 0x2212) eqn:E; [unfold kana_norm; rewrite E; reflexivity|].
    destruct (in_range 0xFF61 v 0xFF9F) eqn:R; [apply (kana_value v R)|].
    unfold kana_norm. rewrite E, R. reflexivity. }
  rewrite K. fold jis_pointer. destruct (jis_pointer (kana_norm v)); destruct e; reflexivity.
Qed.

Lemma enc_direct e v o w : holds e v o w -> run (JP_encoder e) [] (Item v false) = Some (Out o, JP_encoder e, plain []).
Proof.
  destruct 1 as [v (H & A & B & C)|v (H & A & B & C) D E| | |v p P A B].
  - cbn [run]. unfold jp_encoder_run, is_ascii. cbn [eoq value andb orb is_je_ascii]. cbv zeta.
    rewrite (Z.mod_small v 256) by lia. zq. reflexivity.
  - cbn [run]. unfold jp_encoder_run, is_ascii. cbn [eoq value andb orb is_je_ascii is_je_roman]. cbv zeta.
    rewrite (Z.mod_small v 256) by lia. zq. reflexivity.
  - reflexivity.
  - reflexivity.
  - destruct (consistent_ok _ _ _ _ _ _ jis0208_ok ltac:(lia) P) as (P1 & R & G).
    rewrite enc_tail; [|intros L|exact B].
    + rewrite P. cbn [is_je_jis0208 negb]. rewrite !(Z.mod_small _ 256) by zdiv. reflexivity.
    + unfold kana_norm, in_range in R. replace (v =? 0x2212) with false in R by lia.
      replace ((0xFF61 <=? v) && (v <=? 0xFF9F)) with false in R by lia. lia.
Qed.

Lemma enc_switch e v : jp_known v -> (exists o w, holds e v o w /\ w = kana_norm v) \/
  exists e' v' o w, run (JP_encoder e) [] (Item v false) = Some (Out (escape_to e'), JP_encoder e', plain [v']) /\
    holds e' v' o w /\ w = kana_norm v.
Proof.
  assert (KA : forall x, jp_plain x -> kana_norm x = x).
  { intros x (H & _). unfold kana_norm, in_range. zq. reflexivity. }
  intros [K|[K|[p K]]].
  - pose proof K as (H & A & B & C). destruct e.
    + left. exists [v], v. split; [constructor; exact K|]. symmetry. apply KA, K.
    + destruct (Z.eq_dec v 0x5C) as [->|D]; [|destruct (Z.eq_dec v 0x7E) as [->|E]].
      * right. exists JE_ascii, 0x5C, [0x5C], 0x5C. split; [reflexivity|]. split; [constructor; exact K|reflexivity].
      * right. exists JE_ascii, 0x7E, [0x7E], 0x7E. split; [reflexivity|]. split; [constructor; exact K|reflexivity].
      * left. exists [v], v. split; [constructor; assumption|]. symmetry. apply KA, K.
    + right. exists JE_ascii, v, [v], v. split; [|split; [constructor; exact K|symmetry; apply KA, K]].
      cbn [run]. unfold jp_encoder_run, is_ascii. cbn [eoq value andb orb negb is_je_ascii is_je_roman]. cbv zeta. zq. reflexivity.
  - destruct e.
    + right. destruct K as [-> | ->]; [exists JE_roman, 0xA5, [0x5C], 0xA5|exists JE_roman, 0x203E, [0x7E], 0x203E];
        (split; [reflexivity|]); (split; [constructor|reflexivity]).
    + left. destruct K as [-> | ->]; [exists [0x5C], 0xA5|exists [0x7E], 0x203E]; (split; [constructor|reflexivity]).
    + right. destruct K as [-> | ->]; [exists JE_roman, 0xA5, [0x5C], 0xA5|exists JE_roman, 0x203E, [0x7E], 0x203E];
        (split; [reflexivity|]); (split; [constructor|reflexivity]).
  - destruct (consistent_ok _ _ _ _ _ _ jis0208_ok ltac:(lia) K) as (P1 & R & G).
    assert (N : ~ 0 <= v < 0x80).
    { intros L. unfold kana_norm, in_range in R. replace (v =? 0x2212) with false in R by lia.
      replace ((0xFF61 <=? v) && (v <=? 0xFF9F)) with false in R by lia. lia. }
    assert (Y : {jp_yen v} + {~ jp_yen v}).
    { unfold jp_yen. destruct (Z.eq_dec v 0xA5); [left; auto|]. destruct (Z.eq_dec v 0x203E); [left; auto|right; tauto]. }
    destruct Y as [[Y|Y]|Y].
    + subst v. vm_compute in K. discriminate.
    + subst v. vm_compute in K. discriminate.
    + assert (NP : ~ jp_plain v) by (intros (L & _); auto).
      destruct (is_je_jis0208 e) eqn:J.
      * left. destruct e; try discriminate. eexists _, _. split; [|reflexivity]. eapply holds_jis; eassumption.
      * right. exists JE_jis0208, (kana_norm v), [p / 94 + 0x21; p mod 94 + 0x21], (kana_norm (kana_norm v)).
        split; [|split; [|apply kana_idem]].
        -- rewrite enc_tail by assumption. rewrite K, J. reflexivity.
        -- apply holds_jis; [rewrite kana_idem; exact K| |apply kana_high, Y].
           intros (L & _). lia.
Qed.

Lemma jp_one e v : jp_known v -> exists e' o k, (forall m, eats m (JP_encoder e) [v] o (JP_encoder e') k) /\
  forall lead, exists lead' k', forall m, eats m (decoder_at e lead false) o [kana_norm v] (decoder_at e' lead' false) k'.
Proof.
  intros K. destruct (enc_switch e v K) as [(o & w & H & ->)|(e' & v' & o & w & R & H & ->)].
  - exists e, o, 1%nat. split; [intros m; apply eat_out, (enc_direct _ _ _ _ H)|]. intros lead. apply dec_holds with (1 := H).
  - exists e', (escape_to e' ++ o), 2%nat. split.
    + intros m. apply (eats_cons m _ _ [] (Out (escape_to e')) (JP_encoder e') [v'] o _ 1 R eq_refl).
      apply eat_out, (enc_direct _ _ _ _ H).
    + intros lead. destruct (dec_escape e e' lead) as [k1 H1]. destruct (dec_holds _ _ _ _ 0 true H) as (lead' & k2 & H2).
      exists lead', (k1 + k2)%nat. intros m. exact (eats_app _ _ _ _ _ _ (H1 m) _ _ _ _ (H2 m)).
Qed.

Lemma jp_string s : Forall jp_known s -> forall e, exists e' o k, (forall m, eats m (JP_encoder e) s o (JP_encoder e') k) /\
  forall lead, exists lead' k', forall m, eats m (decoder_at e lead false) o (map kana_norm s) (decoder_at e' lead' false) k'.
Proof.
  induction 1 as [|v s K F IH]; intros e.
  - exists e, [], 0%nat. split; [intros m; constructor|]. intros lead. exists lead, 0%nat. intros m. constructor.
  - destruct (jp_one e v K) as (e1 & o1 & k1 & E1 & D1). destruct (IH e1) as (e2 & o2 & k2 & E2 & D2).
    exists e2, (o1 ++ o2), (k1 + k2)%nat. split.
    + intros m. exact (eats_app _ _ _ _ _ _ (E1 m) _ _ _ _ (E2 m)).
    + intros lead. destruct (D1 lead) as (l1 & j1 & H1). destruct (D2 l1) as (l2 & j2 & H2). exists l2, (j1 + j2)%nat.
      intros m. exact (eats_app _ _ _ _ _ _ (H1 m) _ _ _ _ (H2 m)).
Qed.

Lemma jp_end m e : ends m (decoder_at e 0 true) [] (Some Finished) 0.
Proof. apply ends_fin. intros q. destruct e; reflexivity. Qed.
Lemma jp_end' m e lead flag : ends m (decoder_at e lead flag) [] (Some Finished) 0.
Proof. apply ends_fin. intros q. destruct e; reflexivity. Qed.

(** The encoder at the end of the queue. *)
Lemma jp_enc_end e f q out m : exists q', process_queue (S (S f)) (JP_encoder e) (end_of_queue :: q) out m =
  Val (Finished, JP_encoder JE_ascii, q', q_push (q_push_values out (if is_je_ascii e then [] else escape_to JE_ascii)) end_of_queue).
Proof. destruct e; cbn; eexists; reflexivity. Qed.

Theorem jp_round_trip s : Forall jp_known s -> exists N b,
  (forall fuel m, (N <= fuel)%nat -> exists c q, process_queue fuel (JP_encoder JE_ascii) (to_queue s) [] m = Val (Finished, c, q, to_queue b)) /\
  (forall fuel m, (N <= fuel)%nat -> exists c q, process_queue fuel (JP_decoder J_ascii J_ascii 0 false) (to_queue b) [] m
     = Val (Finished, c, q, to_queue (map kana_norm s))).
Proof.
  intros K. destruct (jp_string s K JE_ascii) as (e & o & k & E & D). destruct (D 0) as (lead & k' & D').
  set (t := if is_je_ascii e then [] else escape_to JE_ascii).
  assert (X : exists d2 k2, forall m, eats m (decoder_at JE_ascii 0 false) (o ++ t) (map kana_norm s) d2 k2 /\ ends m d2 [] (Some Finished) 0).
  { subst t. destruct (is_je_ascii e).
    - exists (decoder_at e lead false), k'. intros m. rewrite app_nil_r. split; [apply D'|apply jp_end'].
    - destruct (dec_escape e JE_ascii lead) as [k3 H3]. exists (decoder_at JE_ascii 0 true), (k' + k3)%nat. intros m.
      split; [|apply jp_end]. rewrite <- (app_nil_r (map kana_norm s)). exact (eats_app _ _ _ _ _ _ (D' m) _ _ _ _ (H3 m)). }
  destruct X as (d2 & k2 & X). exists (S (S (k + k2))), (o ++ t). split.
  - intros fuel m L. rewrite (to_queue_spec s). 
    replace fuel with (k + S (S (fuel - k - 2)))%nat by lia.
    rewrite (eats_process m _ _ _ _ _ (E m)). destruct (jp_enc_end e (fuel - k - 2) [] (q_push_values [] o) m) as (q & R).
    eexists _, q. rewrite R. rewrite <- q_push_values_app. reflexivity.
  - intros fuel m L. destruct (X m) as [X1 X2].
    destruct (proc_finish m _ _ _ _ _ _ _ X1 X2 fuel ltac:(lia)) as (c' & q' & R). exists c', q'. rewrite app_nil_r in R. exact R.
Qed.

(** A code point outside the repertoire in the ASCII state makes the encoder write escape sequences for ever. *)
Lemma jp_loop v : ~ 0 <= v < 0x80 -> ~ jp_yen v -> kana_norm v = v -> jis_pointer v = None ->
  forall fuel q out m, process_queue fuel (JP_encoder JE_ascii) (Item v false :: q) out m = NoFuel.
Proof.
  intros A Y K N. induction fuel as [|f IH]; intros q out m; [reflexivity|].
  cbn [process_queue q_read eoq]. unfold process_item.
  rewrite run_plain. rewrite (enc_tail JE_ascii v A Y), K, N. cbn [is_je_jis0208 negb]. cbn [plain map app]. apply IH.
Qed.
