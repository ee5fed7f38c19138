(** Lemmas for M_encoding: the queue, the generic behaviour of coders, termination of decoders. *)
From Coq Require Import ZArith List Bool Lia.
From Verif Require Import M_unicode M_infra M_percent M_encoding.
Import ListNotations.
Open Scope Z_scope.

Definition plain (l : list Z) : queue := map (fun v => Item v false) l.

Lemma plain_app a b : plain (a ++ b) = plain a ++ plain b. Proof. apply map_app. Qed.
Lemma plain_values l : map value (plain l) = l.
Proof. unfold plain. rewrite map_map. apply map_id. Qed.

(** * The queue *)

Lemma q_push_open q i : q_closed q = false -> q_push q i = q ++ [i].
Proof.
  unfold q_closed, q_push. destruct (rev q) as [|b r]; [reflexivity|]. intros ->. reflexivity.
Qed.

Lemma q_push_closed q i : eoq i = false -> q_push (q ++ [end_of_queue]) i = q ++ [i; end_of_queue].
Proof.
  intros H. unfold q_push. rewrite rev_app_distr. cbn. rewrite H, rev_involutive. reflexivity.
Qed.

Lemma q_push_end_closed q : q_push (q ++ [end_of_queue]) end_of_queue = q ++ [end_of_queue].
Proof. unfold q_push. rewrite rev_app_distr. reflexivity. Qed.

Lemma q_push_values_cons q v l : q_push_values q (v :: l) = q_push_values (q_push_value q v) l.
Proof. reflexivity. Qed.

Lemma q_push_values_closed l : forall q,
  q_push_values (q ++ [end_of_queue]) l = (q ++ plain l) ++ [end_of_queue].
Proof.
  induction l as [|v l IH]; intros q.
  - cbn. now rewrite app_nil_r.
  - rewrite q_push_values_cons. unfold q_push_value. rewrite q_push_closed by reflexivity.
    change [Item v false; end_of_queue] with ([Item v false] ++ [end_of_queue]).
    rewrite app_assoc, IH, <- !app_assoc. reflexivity.
Qed.

Lemma plain_open l : q_closed (plain l) = false.
Proof.
  unfold q_closed, plain. rewrite <- map_rev. destruct (rev l); reflexivity.
Qed.

Lemma q_push_values_open l : forall a, q_push_values (plain a) l = plain (a ++ l).
Proof.
  induction l as [|v l IH]; intros a.
  - cbn. now rewrite app_nil_r.
  - rewrite q_push_values_cons. unfold q_push_value. rewrite q_push_open by apply plain_open.
    change [Item v false] with (plain [v]). rewrite <- plain_app, IH, <- app_assoc. reflexivity.
Qed.

Lemma to_queue_spec l : to_queue l = plain l ++ [end_of_queue].
Proof.
  unfold to_queue. change (@nil item) with (plain []). rewrite q_push_values_open.
  apply q_push_open, plain_open.
Qed.

Lemma q_prefix_plain l q : q_prefix (plain l ++ end_of_queue :: q) = plain l.
Proof. induction l; cbn; [reflexivity|]. f_equal. exact IHl. Qed.

Lemma q_prefix_open l : q_prefix (plain l) = plain l.
Proof. induction l; cbn; [reflexivity|]. f_equal. exact IHl. Qed.

Lemma from_queue_plain l q : from_queue (plain l ++ end_of_queue :: q) = l.
Proof. unfold from_queue. rewrite q_prefix_plain. apply plain_values. Qed.

(** * One step on a plain item does not look at the rest of the queue *)

Ltac brk := repeat match goal with
  | |- context [match ?x with _ => _ end] =>
      lazymatch x with
      | context [match _ with _ => _ end] => fail
      | _ => destruct x
      end
  | |- context [if ?x then _ else _] => destruct x
  end.

Ltac open_run := cbn [run]; unfold utf8_run, utf8_encoder_run, single_decoder_run, single_encoder_run,
  gb_decoder_run, gb_encoder_run, big5_decoder_run, big5_encoder_run, euc_jp_decoder_run, euc_jp_encoder_run,
  jp_decoder_run, jp_encoder_run, sjis_decoder_run, sjis_encoder_run, euc_kr_decoder_run, euc_kr_encoder_run,
  replacement_run, utf16_run, user_decoder_run, user_encoder_run.

Definition values (q : queue) : list Z := map value q.

Lemma run_plain c q v :
  run c q (Item v false) =
  match run c [] (Item v false) with
  | None => None
  | Some (r, c', p) => Some (r, c', p ++ q)
  end.
Proof.
  destruct c; open_run; cbn [eoq value andb negb]; cbv zeta; brk; try reflexivity.
Qed.

Lemma run_prep_aux c v :
  match run c [] (Item v false) with
  | Some (_, _, p) => p = plain (values p)
  | None => True
  end.
Proof.
  destruct c; open_run; cbn [eoq value andb negb]; cbv zeta; brk; first [exact I | reflexivity].
Qed.
Lemma run_prep c v r c' p : run c [] (Item v false) = Some (r, c', p) -> p = plain (values p).
Proof. intros E. pose proof (run_prep_aux c v) as H. rewrite E in H. exact H. Qed.

(** * Decoders: kind, weight, progress *)

Definition basic (s : jp_state) : Prop :=
  match s with J_ascii | J_roman | J_katakana | J_lead => True | _ => False end.

Definition ok_dec (c : coder) : Prop :=
  match c with
  | UTF8_decoder _ | Single_decoder _ | GB_decoder _ _ _ | Big5_decoder _ | EUC_JP_decoder _ _
  | SJIS_decoder _ | EUC_KR_decoder _ | UTF16_decoder _ _ _ | User_decoder => True
  | JP_decoder _ out _ _ => basic out
  | _ => False
  end.

Definition nz (z w : Z) : Z := if z =? 0 then 0 else w.
Definition weight (c : coder) : Z :=
  match c with
  | UTF8_decoder s => nz (u8_needed s) 1
  | GB_decoder f s t => if negb (t =? 0) then 9 else if negb (s =? 0) then 6 else nz f 3
  | Big5_decoder l | EUC_JP_decoder _ l | SJIS_decoder l | EUC_KR_decoder l => nz l 1
  | UTF16_decoder _ lb ls =>
      match lb with Some _ => 3 | None => 0 end + match ls with Some _ => 6 | None => 0 end
  | JP_decoder s _ _ _ => match s with J_trail | J_escape_start => 3 | J_escape => 6 | _ => 0 end
  | _ => 0
  end.

Lemma weight_nonneg c : 0 <= weight c <= 9.
Proof. destruct c; cbn [weight]; unfold nz; brk; lia. Qed.

Ltac brkE := repeat match goal with
  | |- context [match ?x with _ => _ end] =>
      lazymatch x with
      | context [match _ with _ => _ end] => fail
      | _ => destruct x eqn:?
      end
  | |- context [if ?x then _ else _] => destruct x eqn:?
  end.

Ltac tidy := repeat match goal with
  | H : andb _ _ = true |- _ => apply andb_prop in H; destruct H
  | H : negb _ = true |- _ => apply negb_true_iff in H
  | H : negb _ = false |- _ => apply negb_false_iff in H
  | H : (_ =? _) = true |- _ => apply Z.eqb_eq in H
  | H : (_ =? _) = false |- _ => apply Z.eqb_neq in H
  | H : (_ <=? _) = true |- _ => apply Z.leb_le in H
  | H : (_ <=? _) = false |- _ => apply Z.leb_gt in H
  | H : (_ <? _) = true |- _ => apply Z.ltb_lt in H
  | H : (_ <? _) = false |- _ => apply Z.ltb_ge in H
  end.

Lemma weight_basic o l f : forall s, s = o -> basic o -> weight (JP_decoder s o l f) = 0.
Proof. intros s ->. destruct o; cbn; tauto. Qed.

Definition dec_progress (c : coder) : Prop := forall v,
  match run c [] (Item v false) with
  | Some (r, c', p) =>
      ok_dec c' /\ r <> Finished /\ 4 * Z.of_nat (length p) + weight c' < 4 + weight c
  | None => True
  end.

Ltac stepc := lazymatch goal with
  | |- context [match ?x with _ => _ end] =>
      lazymatch x with
      | context [match ?y with _ => _ end] => destruct y eqn:?
      | _ => destruct x eqn:?
      end
  end.
Ltac prog := intros v; cbn [weight]; unfold nz; open_run; cbn [eoq value andb negb]; cbv zeta;
  repeat stepc; try exact I;
  (split; [exact I|split; [discriminate|]]);
  cbn [weight length q_prepend_value q_prepend q_prepend_values map app u8_needed]; unfold nz;
  repeat match goal with H : in_range _ _ _ = _ |- _ => unfold in_range in H end; tidy;
  repeat match goal with |- context [if ?x then _ else _] => destruct x eqn:? end; tidy; try lia;
  try (unfold utf8_init in *; cbn [u8_needed] in *; congruence).
Lemma utf8_progress s : dec_progress (UTF8_decoder s). Proof. prog. Qed.
Lemma single_progress s : dec_progress (Single_decoder s). Proof. prog. Qed.
Lemma gb_progress f s t : dec_progress (GB_decoder f s t). Proof. prog. Qed.
Lemma big5_progress l : dec_progress (Big5_decoder l). Proof. prog. Qed.
Lemma euc_jp_progress j l : dec_progress (EUC_JP_decoder j l). Proof. prog. Qed.
Lemma sjis_progress l : dec_progress (SJIS_decoder l). Proof. prog. Qed.
Lemma euc_kr_progress l : dec_progress (EUC_KR_decoder l). Proof. prog. Qed.
Lemma utf16_progress be lb ls : dec_progress (UTF16_decoder be lb ls). Proof. prog. Qed.
Lemma user_progress : dec_progress User_decoder. Proof. prog. Qed.
Lemma jp_progress s o l f : basic o -> dec_progress (JP_decoder s o l f).
Proof.
  intros K v; cbn [weight]; open_run; cbn [eoq value andb negb]; cbv zeta.
  assert (W : weight (JP_decoder o o l false) = 0) by (apply weight_basic; auto).
  assert (W0 : weight (JP_decoder o o 0 false) = 0) by (apply weight_basic; auto).
  destruct s; cbv beta iota; repeat (stepc; cbv beta iota); try exact I;
    try (split; [first [exact K | exact I]|split; [discriminate|]];
         cbn [weight length q_prepend_value q_prepend q_prepend_values map app] in *; lia).
  all: assert (B : basic j) by (repeat match type of Heqo0 with
         | (if ?x then _ else _) = _ => destruct x
         | Some _ = Some _ => injection Heqo0 as <-; exact I
         | None = _ => discriminate Heqo0
         end);
    (split; [exact B|split; [discriminate|]]);
    destruct j; cbn [basic] in B; try contradiction B; cbn [weight length]; lia.
Qed.

Lemma dec_step c v r c' p : ok_dec c -> run c [] (Item v false) = Some (r, c', p) ->
  ok_dec c' /\ r <> Finished /\ 4 * Z.of_nat (length p) + weight c' < 4 + weight c.
Proof.
  intros K E.
  assert (H : dec_progress c).
  { destruct c; try contradiction K; cbn [ok_dec] in K;
      auto using utf8_progress, single_progress, gb_progress, big5_progress, euc_jp_progress, sjis_progress,
        euc_kr_progress, utf16_progress, user_progress, jp_progress. }
  specialize (H v). rewrite E in H. exact H.
Qed.

(** At the end of the queue a decoder finishes, or reports an error and loses weight, or fails an assert. *)
Lemma dec_end c q : ok_dec c ->
  match run c q end_of_queue with
  | None => exists o l f, c = JP_decoder J_escape o l f
  | Some (r, c', q') =>
      (r = Finished /\ c' = c /\ q' = q) \/
      (r = Error no_cp /\ ok_dec c' /\ weight c' < weight c /\ (q' = q \/ q' = end_of_queue :: q))
  end.
Proof.
  destruct c; cbn [ok_dec]; intros K; try contradiction; cbn [weight]; unfold nz; open_run;
    cbn [eoq value andb negb end_of_queue]; cbv zeta; repeat stepc; try (eauto; fail);
    try (left; now auto); right; (split; [reflexivity|]);
    (split; [first [exact K | exact I]|]); cbn [weight u8_needed]; unfold nz; cbn [Z.eqb negb]; tidy;
    try (split; [try lia|auto]); try (destruct output_state; cbn in K |- *; lia).
Qed.
