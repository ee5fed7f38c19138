(** Lemmas for M_encoding: stateless encoders and round trips over strings. *)
From Coq Require Import ZArith List Bool Lia.
From Verif Require Import M_unicode L_unicode M_infra M_percent M_encoding L_encoding L_encoding2 L_enc_utf8.
From Verif Require Import M_index_single M_index_big5 M_index_euc_kr M_index_gb18030 M_index_jis.
Import ListNotations.
Open Scope Z_scope.

Definition is_enc (c : coder) : Prop :=
  match c with
  | UTF8_encoder | Single_encoder _ _ | GB_encoder _ | Big5_encoder | EUC_JP_encoder | SJIS_encoder
  | EUC_KR_encoder | User_encoder => True
  | _ => False
  end.

Lemma enc_step c v : is_enc c ->
  match run c [] (Item v false) with
  | None => True
  | Some (r, c', p) => c' = c /\ p = [] /\ ((exists l, r = Out l) \/ (exists e, r = Error e))
  end.
Proof.
  destruct c; cbn [is_enc]; try contradiction; intros _; open_run; cbn [eoq value andb negb]; cbv zeta; brk;
    try exact I; (split; [reflexivity|]; split; [reflexivity|]; first [left; eexists; reflexivity | right; eexists; reflexivity]).
Qed.

Lemma minus_208 : get_index_pointer index_pointer_jis0208_0 index_pointer_jis0208_1 0xFF0D <> None.
Proof. vm_compute. discriminate. Qed.
Lemma minus_sjis : get_index_pointer index_pointer_Shift_JIS_0 index_pointer_Shift_JIS_1 0xFF0D <> None.
Proof. vm_compute. discriminate. Qed.

Lemma enc_error c v : is_enc c ->
  match run c [] (Item v false) with Some (Error e, _, _) => e = v | _ => True end.
Proof.
  destruct c; cbn [is_enc]; try contradiction; intros _; open_run; cbn [eoq value andb negb]; cbv zeta.
  1-4, 7-8: brk; first [exact I | reflexivity].
  - destruct (v =? 0x2212) eqn:E.
    + pose proof minus_208. brk; try exact I; congruence.
    + brk; first [exact I | reflexivity].
  - destruct (v =? 0x2212) eqn:E.
    + pose proof minus_sjis. brk; try exact I; congruence.
    + brk; first [exact I | reflexivity].
Qed.

Lemma enc_end c q : is_enc c -> run c q end_of_queue = Some (Finished, c, q).
Proof. destruct c; cbn [is_enc]; try contradiction; reflexivity. Qed.

Lemma enc_ends m c : is_enc c -> ends m c [] (Some Finished) 0.
Proof. intros H. apply ends_fin. intros q. now apply enc_end. Qed.

(** The bytes a coder gives for one value. *)
Definition one (m : mode) (c : coder) (v : Z) : list Z :=
  match run c [] (Item v false) with Some (r, _, _) => emit m r | None => [] end.

Definition encodable (c : coder) (v : Z) : Prop := exists l, run c [] (Item v false) = Some (Out l, c, []).

Lemma enc_html c s : is_enc c -> Forall (fun v => run c [] (Item v false) <> None) s ->
  eats Html c s (flat_map (one Html c) s) c (length s).
Proof.
  intros I. induction 1 as [|v s H _ IH]; [constructor|]. cbn [flat_map length]. unfold one at 1.
  pose proof (enc_step c v I) as S. destruct (run c [] (Item v false)) as [[[r c'] p]|] eqn:E; [|congruence].
  destruct S as (-> & -> & S). eapply (eats_cons Html c v s r c []); [exact E| |exact IH].
  destruct S as [[l ->]|[e ->]]; reflexivity.
Qed.

Lemma enc_all m c s : is_enc c -> Forall (encodable c) s -> eats m c s (flat_map (one m c) s) c (length s).
Proof.
  intros I. induction 1 as [|v s [l H] _ IH]; [constructor|]. cbn [flat_map length]. unfold one at 1. rewrite H.
  exact (eats_cons m c v s (Out l) c [] _ _ _ H eq_refl IH).
Qed.

Lemma encodable_one m m' c v : encodable c v -> one m c v = one m' c v.
Proof. intros [l H]. unfold one. rewrite H. reflexivity. Qed.

Lemma fatal_inv c s : is_enc c -> forall fuel o c' q' out,
  process_queue fuel c (plain s ++ [end_of_queue]) (plain o) Fatal = Val (Finished, c', q', out) ->
  Forall (encodable c) s /\ out = to_queue (o ++ flat_map (one Fatal c) s).
Proof.
  intros I. induction s as [|v s IH]; intros fuel o c' q' out E; (destruct fuel as [|fuel]; [discriminate|]).
  - cbn [plain map app process_queue q_read end_of_queue eoq] in E. fold end_of_queue in E. unfold process_item in E.
    rewrite enc_end in E by exact I. split; [constructor|]. cbn [flat_map]. rewrite app_nil_r.
    assert (out = q_push (plain o) end_of_queue) as -> by congruence.
    rewrite q_push_open by apply plain_open. symmetry. apply to_queue_spec.
  - cbn [process_queue] in E. rewrite q_read_plain in E. unfold process_item in E. rewrite run_plain in E.
    pose proof (enc_step c v I) as S. cbn [flat_map]. unfold one at 1.
    destruct (run c [] (Item v false)) as [[[r c1] p]|] eqn:R; [|discriminate].
    destruct S as (-> & -> & [[l ->]|[e ->]]); [|discriminate]. cbn [app] in E.
    rewrite q_push_values_open in E. destruct (IH _ _ _ _ _ E) as [F ->].
    split; [constructor; [now exists l|exact F]|]. cbn [emit]. now rewrite app_assoc.
Qed.

Lemma fatal_encode_inv c s fuel c' q' out : is_enc c ->
  process_queue fuel c (to_queue s) [] Fatal = Val (Finished, c', q', out) ->
  Forall (encodable c) s /\ out = to_queue (flat_map (one Fatal c) s).
Proof.
  intros I E. rewrite to_queue_spec in E. exact (fatal_inv c s I fuel [] c' q' out E).
Qed.

(** [d] decodes what [e] writes for each value in [P], up to [norm], and returns to its state. *)
Definition decodes_back (e d : coder) (P : Z -> Prop) (norm : Z -> Z) : Prop :=
  forall v l, P v -> run e [] (Item v false) = Some (Out l, e, []) ->
  exists k, forall m, eats m d l [norm v] d k.

Lemma decodes_string e d P norm s : decodes_back e d P norm -> Forall P s -> Forall (encodable e) s ->
  exists k, forall m, eats m d (flat_map (one Fatal e) s) (map norm s) d k.
Proof.
  intros B FP F. induction F as [|v s [l H] _ IH].
  - exists 0%nat. intros m. constructor.
  - inversion FP as [|x y Pv Fs]; subst. destruct (IH Fs) as [k2 H2]. destruct (B v l Pv H) as [k1 H1].
    exists (k1 + k2)%nat. intros m. cbn [flat_map map]. unfold one at 1. rewrite H. cbn [emit].
    apply (eats_app _ _ _ _ _ _ (H1 m) _ _ _ _ (H2 m)).
Qed.

Lemma to_queue_inj a b : to_queue a = to_queue b -> a = b.
Proof.
  rewrite !to_queue_spec. intros E. apply (f_equal from_queue) in E.
  rewrite !from_queue_plain in E. exact E.
Qed.

Theorem round_trip e d P norm : is_enc e -> decodes_back e d P norm -> (forall m, ends m d [] (Some Finished) 0) ->
  forall s b fuel c q, Forall P s ->
  process_queue fuel e (to_queue s) [] Fatal = Val (Finished, c, q, to_queue b) ->
  exists N, forall fuel m, (N <= fuel)%nat -> exists c' q',
  process_queue fuel d (to_queue b) [] m = Val (Finished, c', q', to_queue (map norm s)).
Proof.
  intros I B Ed s b fuel c q FP E. destruct (fatal_encode_inv _ _ _ _ _ _ I E) as [F X].
  apply to_queue_inj in X as ->. destruct (decodes_string _ _ _ _ _ B FP F) as [k H].
  exists (S k). intros f m L. destruct (proc_finish m d _ _ _ _ _ _ (H m) (Ed m) f ltac:(lia)) as (c' & q' & R).
  exists c', q'. rewrite app_nil_r in R. exact R.
Qed.
