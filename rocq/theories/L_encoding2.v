(** Lemmas for M_encoding: runs over plain input, totality of decoders, streaming. *)
From Coq Require Import ZArith List Bool Lia.
From Verif Require Import M_unicode M_infra M_percent M_encoding L_encoding.
Import ListNotations.
Open Scope Z_scope.

(** What process_item appends to the output, and whether the loop goes on. *)
Definition emit (m : mode) (r : result) : list Z :=
  match r with
  | Out l => l
  | Error cp => match m with Html => [0x26; 0x23] ++ to_chars 10 cp ++ [0x3B] | _ => [] end
  | _ => []
  end.
Definition goes (m : mode) (r : result) : bool :=
  match r with
  | Finished => false
  | Error _ => match m with Fatal => false | _ => true end
  | _ => true
  end.

Lemma q_push_values_app q a b : q_push_values q (a ++ b) = q_push_values (q_push_values q a) b.
Proof. apply fold_left_app. Qed.

Lemma process_item_goes i c q out m r c' q' : run c q i = Some (r, c', q') -> goes m r = true ->
  process_item i c q out m = Some (Continue, c', q', q_push_values out (emit m r)).
Proof.
  intros E G. unfold process_item. rewrite E. destruct r; cbn in G; try discriminate; cbn [emit].
  - reflexivity.
  - reflexivity.
  - destruct m; try discriminate; cbn [emit]; try reflexivity.
    rewrite !q_push_values_app. reflexivity.
Qed.

Inductive eats (m : mode) : coder -> list Z -> list Z -> coder -> nat -> Prop :=
| eats_nil c : eats m c [] [] c 0
| eats_cons c v l r c1 p o c2 k :
    run c [] (Item v false) = Some (r, c1, plain p) -> goes m r = true ->
    eats m c1 (p ++ l) o c2 k -> eats m c (v :: l) (emit m r ++ o) c2 (S k).

Inductive stops (m : mode) : coder -> list Z -> list Z -> option result -> nat -> Prop :=
| stops_bad c v l : run c [] (Item v false) = None -> stops m c (v :: l) [] None 0
| stops_res c v l r c1 p : run c [] (Item v false) = Some (r, c1, p) -> goes m r = false ->
    stops m c (v :: l) [] (Some r) 0
| stops_cons c v l r c1 p o w k :
    run c [] (Item v false) = Some (r, c1, plain p) -> goes m r = true ->
    stops m c1 (p ++ l) o w k -> stops m c (v :: l) (emit m r ++ o) w (S k).

Lemma eats_app m c l o c1 k : eats m c l o c1 k -> forall l2 o2 c2 k2,
  eats m c1 l2 o2 c2 k2 -> eats m c (l ++ l2) (o ++ o2) c2 (k + k2).
Proof.
  induction 1 as [|c v l r c1 p o c2 k E G H IH]; intros l2 o2 c3 k2 H2; [exact H2|].
  cbn. rewrite <- app_assoc. eapply eats_cons; [exact E|exact G|].
  rewrite app_assoc. apply IH, H2.
Qed.

Lemma eats_stops m c l o c1 k : eats m c l o c1 k -> forall l2 o2 w k2,
  stops m c1 l2 o2 w k2 -> stops m c (l ++ l2) (o ++ o2) w (k + k2).
Proof.
  induction 1 as [|c v l r c1 p o c2 k E G H IH]; intros l2 o2 w k2 H2; [exact H2|].
  cbn. rewrite <- app_assoc. eapply stops_cons; [exact E|exact G|].
  rewrite app_assoc. apply IH, H2.
Qed.

Lemma stops_app m c l o w k : stops m c l o w k -> forall l2, stops m c (l ++ l2) o w k.
Proof.
  induction 1 as [c v l E|c v l r c1 p E G|c v l r c1 p o w k E G H IH]; intros l2; cbn.
  - now apply stops_bad.
  - eapply stops_res; eauto.
  - eapply stops_cons; [exact E|exact G|]. rewrite app_assoc. apply IH.
Qed.

Lemma total_aux n : forall c l m, ok_dec c -> 4 * Z.of_nat (length l) + weight c < Z.of_nat n ->
  (exists o c' k, eats m c l o c' k /\ ok_dec c') \/ (exists o w k, stops m c l o w k /\ w <> Some Finished).
Proof.
  induction n as [|n IH]; intros c l m K W.
  { pose proof (weight_nonneg c). lia. }
  destruct l as [|v l]; [left; exists [], c, 0%nat; split; [constructor|exact K]|].
  destruct (run c [] (Item v false)) as [[[r c1] p]|] eqn:E.
  2:{ right. exists [], None, 0%nat. split; [now constructor|discriminate]. }
  destruct (dec_step _ _ _ _ _ K E) as (K1 & F & D).
  destruct (goes m r) eqn:G.
  2:{ right. exists [], (Some r), 0%nat. split; [eapply stops_res; eauto|congruence]. }
  rewrite (run_prep _ _ _ _ _ E) in E.
  destruct (IH c1 (values p ++ l) m K1) as [(o & c' & k & H & K')|(o & w & k & H & Hw)].
  { rewrite app_length. unfold values. rewrite map_length. cbn [length] in W. lia. }
  - left. exists (emit m r ++ o), c', (S k). split; [|exact K']. eapply eats_cons; eauto.
  - right. exists (emit m r ++ o), w, (S k). split; [|exact Hw]. eapply stops_cons; eauto.
Qed.

Lemma total m c l : ok_dec c ->
  (exists o c' k, eats m c l o c' k /\ ok_dec c') \/ (exists o w k, stops m c l o w k /\ w <> Some Finished).
Proof.
  intros K. apply (total_aux (Z.to_nat (4 * Z.of_nat (length l) + weight c + 1))); [exact K|].
  pose proof (weight_nonneg c). lia.
Qed.

(** * The two loops *)

Lemma q_read_plain v l q : q_read (plain (v :: l) ++ q) = Some (Item v false, plain l ++ q).
Proof. reflexivity. Qed.

Lemma eats_process m c l o c' k : eats m c l o c' k -> forall f q out,
  process_queue (k + f) c (plain l ++ q) out m = process_queue f c' q (q_push_values out o) m.
Proof.
  induction 1 as [|c v l r c1 p o c2 k E G H IH]; intros f q out; [reflexivity|].
  cbn [Nat.add process_queue]. rewrite q_read_plain.
  assert (E' : run c (plain l ++ q) (Item v false) = Some (r, c1, plain (p ++ l) ++ q)).
  { rewrite run_plain, E, plain_app, <- app_assoc. reflexivity. }
  rewrite (process_item_goes _ _ _ _ _ _ _ _ E' G), IH, q_push_values_app. reflexivity.
Qed.

Lemma eats_td m c l o c' k : eats m c l o c' k -> forall f fl q out,
  td_loop (k + f) fl m c (plain l ++ q) out = td_loop f fl m c' q (q_push_values out o).
Proof.
  induction 1 as [|c v l r c1 p o c2 k E G H IH]; intros f fl q out; [reflexivity|].
  cbn [Nat.add td_loop]. rewrite q_read_plain. cbn [eoq andb].
  assert (E' : run c (plain l ++ q) (Item v false) = Some (r, c1, plain (p ++ l) ++ q)).
  { rewrite run_plain, E, plain_app, <- app_assoc. reflexivity. }
  rewrite (process_item_goes _ _ _ _ _ _ _ _ E' G), IH, q_push_values_app. reflexivity.
Qed.

Definition stop_val {A} (w : option result) : outcome (option A) :=
  match w with None => Bad | Some _ => Val None end.

Lemma stops_td m c l o w k : stops m c l o w k -> w <> Some Finished -> forall f fl q out,
  td_loop (k + S f) fl m c (plain l ++ q) out = stop_val w.
Proof.
  induction 1 as [c v l E|c v l r c1 p E G|c v l r c1 p o w k E G H IH]; intros Hw f fl q out;
    cbn [Nat.add td_loop]; rewrite q_read_plain; cbn [eoq andb].
  - unfold process_item. rewrite run_plain, E. reflexivity.
  - unfold process_item. rewrite run_plain, E. destruct r; cbn in G; try discriminate; try congruence.
    destruct m; try discriminate. reflexivity.
  - assert (E' : run c (plain l ++ q) (Item v false) = Some (r, c1, plain (p ++ l) ++ q)).
    { rewrite run_plain, E, plain_app, <- app_assoc. reflexivity. }
    rewrite (process_item_goes _ _ _ _ _ _ _ _ E' G). apply IH, Hw.
Qed.

Lemma stops_process m c l o w k : stops m c l o w k -> w <> Some Finished -> forall f q out,
  exists q' c', process_queue (k + S f) c (plain l ++ q) out m =
  match w with None => Bad | Some r => Val (r, c', q', q_push_values out o) end.
Proof.
  induction 1 as [c v l E|c v l r c1 p E G|c v l r c1 p o w k E G H IH]; intros Hw f q out;
    cbn [Nat.add process_queue]; rewrite q_read_plain.
  - exists [], c. unfold process_item. rewrite run_plain, E. reflexivity.
  - exists (p ++ plain l ++ q), c1. unfold process_item. rewrite run_plain, E.
    destruct r; cbn in G; try discriminate; try congruence.
    destruct m; try discriminate. reflexivity.
  - assert (E' : run c (plain l ++ q) (Item v false) = Some (r, c1, plain (p ++ l) ++ q)).
    { rewrite run_plain, E, plain_app, <- app_assoc. reflexivity. }
    rewrite (process_item_goes _ _ _ _ _ _ _ _ E' G).
    destruct (IH Hw f q (q_push_values out (emit m r))) as (q' & c' & R). exists q', c'.
    rewrite R. destruct w; [|reflexivity]. rewrite q_push_values_app. reflexivity.
Qed.

(** * End of the input *)

(** The decoder at the end of the queue: [Some (Some o)] finished with output [o], [Some None] an error stops
    it, [None] an assert. *)
Inductive ends (m : mode) : coder -> list Z -> option result -> nat -> Prop :=
| ends_fin c : (forall q, run c q end_of_queue = Some (Finished, c, q)) -> ends m c [] (Some Finished) 0
| ends_bad c : (forall q, run c q end_of_queue = None) -> ends m c [] None 0
| ends_err c c1 t : (forall q, run c q end_of_queue = Some (Error no_cp, c1, t ++ q)) ->
    goes m (Error no_cp) = false -> (t = [] \/ t = [end_of_queue]) -> ends m c [] (Some (Error no_cp)) 0
| ends_step c c1 t o w k : (forall q, run c q end_of_queue = Some (Error no_cp, c1, t ++ q)) ->
    goes m (Error no_cp) = true -> (t = [] \/ t = [end_of_queue]) ->
    ends m c1 o w k -> ends m c (emit m (Error no_cp) ++ o) w (S k).


Lemma run_end_app c q : run c q end_of_queue =
  match run c [] end_of_queue with Some (r, c', t) => Some (r, c', t ++ q) | None => None end.
Proof.
  destruct c; open_run; cbn [eoq value andb negb end_of_queue]; cbv zeta; brk; reflexivity.
Qed.

Lemma ends_total_aux n : forall m c, ok_dec c -> weight c < Z.of_nat n -> exists o w k, ends m c o w k.
Proof.
  induction n as [|n IH]; intros m c K W.
  { pose proof (weight_nonneg c). lia. }
  pose proof (dec_end c [] K) as D.
  destruct (run c [] end_of_queue) as [[[r c1] t]|] eqn:E.
  - destruct D as [(-> & -> & ->)|(-> & K1 & W1 & Ht)].
    + exists [], (Some Finished), 0%nat. apply ends_fin. intros q. rewrite run_end_app, E. reflexivity.
    + destruct (goes m (Error no_cp)) eqn:G.
      * destruct (IH m c1 K1 ltac:(lia)) as (o & w & k & H).
        exists (emit m (Error no_cp) ++ o), w, (S k). eapply ends_step; eauto.
        intros q. rewrite run_end_app, E. reflexivity.
      * exists [], (Some (Error no_cp)), 0%nat. eapply ends_err; eauto.
        intros q. rewrite run_end_app, E. reflexivity.
  - exists [], None, 0%nat. apply ends_bad. intros q. rewrite run_end_app, E. reflexivity.
Qed.

Lemma ends_total m c : ok_dec c -> exists o w k, ends m c o w k.
Proof.
  intros K. apply (ends_total_aux (Z.to_nat (weight c + 1))); [exact K|]. pose proof (weight_nonneg c). lia.
Qed.


Lemma ends_process m c o w k : ends m c o w k -> forall f q out, exists q' c',
  process_queue (k + S f) c (end_of_queue :: q) out m =
  match w with
  | None => Bad
  | Some Finished => Val (Finished, c', q', q_push (q_push_values out o) end_of_queue)
  | Some r => Val (r, c', q', q_push_values out o)
  end.
Proof.
  induction 1 as [c E|c E|c c1 t E G Ht|c c1 t o w k E G Ht H IH]; intros f q out;
    cbn [Nat.add process_queue q_read end_of_queue eoq].
  - exists (end_of_queue :: q), c. unfold process_item. fold end_of_queue. rewrite E. reflexivity.
  - exists [], c. unfold process_item. fold end_of_queue. rewrite E. reflexivity.
  - exists (t ++ end_of_queue :: q), c1. unfold process_item. fold end_of_queue. rewrite E.
    destruct m; try discriminate. reflexivity.
  - fold end_of_queue. rewrite (process_item_goes _ _ _ _ _ _ _ _ (E _) G).
    assert (exists q2, t ++ end_of_queue :: q = end_of_queue :: q2) as [q2 ->]
      by (destruct Ht as [-> | ->]; eexists; reflexivity).
    destruct (IH f q2 (q_push_values out (emit m (Error no_cp)))) as (q' & c' & R). exists q', c'.
    rewrite R. rewrite !q_push_values_app. reflexivity.
Qed.

Lemma ends_td m c o w k : ends m c o w k -> forall f q out, exists q' c',
  td_loop (k + S f) false m c (end_of_queue :: q) out =
  match w with
  | None => Bad
  | Some Finished => Val (Some (c', q', q_push (q_push_values out o) end_of_queue))
  | Some _ => Val None
  end.
Proof.
  induction 1 as [c E|c E|c c1 t E G Ht|c c1 t o w k E G Ht H IH]; intros f q out;
    cbn [Nat.add td_loop q_read end_of_queue eoq andb].
  - exists (end_of_queue :: q), c. unfold process_item. fold end_of_queue. rewrite E. reflexivity.
  - exists [], c. unfold process_item. fold end_of_queue. rewrite E. reflexivity.
  - exists (t ++ end_of_queue :: q), c1. unfold process_item. fold end_of_queue. rewrite E.
    destruct m; try discriminate. reflexivity.
  - fold end_of_queue. rewrite (process_item_goes _ _ _ _ _ _ _ _ (E _) G).
    assert (exists q2, t ++ end_of_queue :: q = end_of_queue :: q2) as [q2 ->]
      by (destruct Ht as [-> | ->]; eexists; reflexivity).
    destruct (IH f q2 (q_push_values out (emit m (Error no_cp)))) as (q' & c' & R). exists q', c'.
    rewrite R. rewrite !q_push_values_app. reflexivity.
Qed.

Lemma ends_not_finished m c o w k : ends m c o w k -> w <> Some Continue /\ (forall l, w <> Some (Out l)).
Proof. induction 1; split; intros; try discriminate; apply IHends. Qed.

(** * Streaming *)

Fixpoint decode_chunks (fuel : nat) (d : text_decoder) (chunks : list (list Z)) (last : list Z)
  : outcome (option (list Z)) :=
  match chunks with
  | [] =>
      match td_decode fuel d last false with
      | Val (Some (s, _)) => Val (Some s)
      | Val None => Val None
      | Bad => Bad
      | NoFuel => NoFuel
      end
  | x :: r =>
      match td_decode fuel d x true with
      | Val (Some (s, d')) =>
          match decode_chunks fuel d' r last with
          | Val (Some t) => Val (Some (s ++ t))
          | e => e
          end
      | Val None => Val None
      | Bad => Bad
      | NoFuel => NoFuel
      end
  end.

Lemma serialize_app n ib l : forall seen l2,
  serialize_io_queue n ib seen (l ++ l2) =
  let '(s, b) := serialize_io_queue n ib seen l in
  let '(s2, b2) := serialize_io_queue n ib b l2 in (s ++ s2, b2).
Proof.
  induction l as [|v l IH]; intros seen l2.
  - cbn. destruct (serialize_io_queue n ib seen l2); reflexivity.
  - cbn [app serialize_io_queue]. destruct (has_bom n && negb ib && negb seen).
    + rewrite IH. destruct (serialize_io_queue n ib true l) as [s b].
      destruct (serialize_io_queue n ib b l2) as [s2 b2]. destruct (v =? 0xFEFF); reflexivity.
    + rewrite IH. destruct (serialize_io_queue n ib seen l) as [s b].
      destruct (serialize_io_queue n ib b l2) as [s2 b2]. reflexivity.
Qed.

Definition ser (d : text_decoder) (l : list Z) := serialize_io_queue (td_encoding d) (td_ignore_bom d) (td_bom_seen d) l.

(** A decoder between two calls with the stream flag set. *)
Definition mid (n : encoding_name) (ib : bool) (m : mode) (c : coder) (seen : bool) : text_decoder :=
  TD n c [end_of_queue] ib seen m true.

Lemma push_from l : q_push_values (q_push [] end_of_queue) l = plain l ++ [end_of_queue].
Proof. change (q_push [] end_of_queue) with ([] ++ [end_of_queue]). rewrite q_push_values_closed. reflexivity. Qed.

Lemma td_decode_mid_eats fuel n ib m c seen l o c1 k : eats m c l o c1 k -> (k < fuel)%nat ->
  td_decode fuel (mid n ib m c seen) l true =
  Val (Some (fst (serialize_io_queue n ib seen o), mid n ib m c1 (snd (serialize_io_queue n ib seen o)))).
Proof.
  intros H L. unfold td_decode, mid. cbn [td_do_not_flush td_queue td_mode td_decoder td_encoding td_ignore_bom td_bom_seen].
  change [end_of_queue] with ([] ++ [end_of_queue]) at 1. rewrite q_push_values_closed. cbn [app].
  replace fuel with (k + S (fuel - k - 1))%nat by lia. rewrite (eats_td _ _ _ _ _ _ H).
  cbn [td_loop q_read end_of_queue eoq andb]. rewrite push_from, q_prefix_plain, plain_values.
  destruct (serialize_io_queue n ib seen o); reflexivity.
Qed.

Lemma td_decode_mid_stops fuel n ib m c seen l o w k fl : stops m c l o w k -> w <> Some Finished -> (k < fuel)%nat ->
  td_decode fuel (mid n ib m c seen) l fl = stop_val w.
Proof.
  intros H W L. unfold td_decode, mid. cbn [td_do_not_flush td_queue td_mode td_decoder td_encoding td_ignore_bom td_bom_seen].
  change [end_of_queue] with ([] ++ [end_of_queue]) at 1. rewrite q_push_values_closed. cbn [app].
  replace fuel with (k + S (fuel - k - 1))%nat by lia. rewrite (stops_td _ _ _ _ _ _ H W).
  destruct w; reflexivity.
Qed.

Definition last_val (w : option result) (s : list Z) : outcome (option (list Z)) :=
  match w with None => Bad | Some Finished => Val (Some s) | Some _ => Val None end.

Lemma decode_last_ends fuel n ib m c seen l o c1 k oe w ke : eats m c l o c1 k -> ends m c1 oe w ke ->
  (k + ke < fuel)%nat ->
  decode_chunks fuel (mid n ib m c seen) [] l = last_val w (fst (serialize_io_queue n ib seen (o ++ oe))).
Proof.
  intros H He L. cbn [decode_chunks]. unfold td_decode, mid.
  cbn [td_do_not_flush td_queue td_mode td_decoder td_encoding td_ignore_bom td_bom_seen].
  change [end_of_queue] with ([] ++ [end_of_queue]) at 1. rewrite q_push_values_closed. cbn [app].
  replace fuel with (k + (ke + S (fuel - k - ke - 1)))%nat by lia. rewrite (eats_td _ _ _ _ _ _ H).
  destruct (ends_td _ _ _ _ _ He (fuel - k - ke - 1) [] (q_push_values (q_push [] end_of_queue) o)) as (q' & c' & R).
  rewrite R. destruct w as [[| | |]|]; try reflexivity.
  rewrite <- q_push_values_app, push_from, q_push_end_closed, q_prefix_plain, plain_values.
  cbn [last_val]. destruct (serialize_io_queue n ib seen (o ++ oe)); reflexivity.
Qed.

Lemma decode_last_stops fuel n ib m c seen l o w k : stops m c l o w k -> w <> Some Finished -> (k < fuel)%nat ->
  decode_chunks fuel (mid n ib m c seen) [] l = stop_val w.
Proof.
  intros H W L. cbn [decode_chunks]. rewrite (td_decode_mid_stops _ _ _ _ _ _ _ _ _ _ _ H W L).
  destruct w; reflexivity.
Qed.

Lemma chunks_mid chunks : forall last n ib m c seen, ok_dec c -> exists N R, forall fuel, (N <= fuel)%nat ->
  decode_chunks fuel (mid n ib m c seen) chunks last = R /\
  decode_chunks fuel (mid n ib m c seen) [] (concat chunks ++ last) = R /\ R <> NoFuel.
Proof.
  induction chunks as [|x r IH]; intros last n ib m c seen K.
  - cbn [concat app].
    destruct (total m c last K) as [(o & c1 & k & H & K1)|(o & w & k & H & Hw)].
    + destruct (ends_total m c1 K1) as (oe & w & ke & He).
      exists (S (k + ke)). eexists. intros fuel L.
      split; [apply (decode_last_ends fuel n ib m c seen last o c1 k oe w ke H He); lia|].
      split; [apply (decode_last_ends fuel n ib m c seen last o c1 k oe w ke H He); lia|].
      destruct w as [[| | |]|]; discriminate.
    + exists (S k), (stop_val w). intros fuel L.
      split; [apply (decode_last_stops fuel n ib m c seen last o w k H Hw); lia|].
      split; [apply (decode_last_stops fuel n ib m c seen last o w k H Hw); lia|].
      destruct w; discriminate.
  - cbn [concat]. rewrite <- app_assoc.
    destruct (total m c x K) as [(o & c1 & k & H & K1)|(o & w & k & H & Hw)].
    + destruct (IH last n ib m c1 (snd (serialize_io_queue n ib seen o)) K1) as (N & R & HR).
      set (l2 := concat r ++ last) in *.
      destruct (total m c1 l2 K1) as [(o2 & c2 & k2 & H2 & K2)|(o2 & w & k2 & H2 & Hw)].
      * destruct (ends_total m c2 K2) as (oe & w & ke & He).
        exists (S (k + k2 + ke + N)).
        exists (last_val w (fst (serialize_io_queue n ib seen ((o ++ o2) ++ oe)))). intros fuel L.
        split; [|split].
        -- cbn [decode_chunks]. rewrite (td_decode_mid_eats _ _ _ _ _ seen _ _ _ _ H) by lia.
           destruct (HR fuel ltac:(lia)) as (-> & Q & _).
           rewrite (decode_last_ends fuel n ib m c1 _ l2 o2 c2 k2 oe w ke H2 He) in Q by lia.
           rewrite <- Q. rewrite <- app_assoc, (serialize_app n ib o seen).
           destruct (serialize_io_queue n ib seen o) as [s b]. cbn [fst snd].
           destruct (serialize_io_queue n ib b (o2 ++ oe)) as [s2 b2]. destruct w as [[| | |]|]; reflexivity.
        -- apply (decode_last_ends fuel n ib m c seen (x ++ l2) (o ++ o2) c2 (k + k2) oe w ke); [|exact He|lia].
           eapply eats_app; eauto.
        -- destruct w as [[| | |]|]; discriminate.
      * exists (S (k + k2 + N)). exists (stop_val w). intros fuel L.
        split; [|split].
        -- cbn [decode_chunks]. rewrite (td_decode_mid_eats _ _ _ _ _ seen _ _ _ _ H) by lia.
           destruct (HR fuel ltac:(lia)) as (-> & Q & _).
           rewrite (decode_last_stops fuel n ib m c1 _ l2 o2 w k2 H2 Hw) in Q by lia.
           rewrite <- Q. destruct w; reflexivity.
        -- apply (decode_last_stops fuel n ib m c seen (x ++ l2) (o ++ o2) w (k + k2)); [|exact Hw|lia].
           eapply eats_stops; eauto.
        -- destruct w; discriminate.
    + exists (S k), (stop_val w). intros fuel L. split; [|split].
      * cbn [decode_chunks]. rewrite (td_decode_mid_stops _ _ _ _ _ seen _ _ _ _ _ H Hw) by lia.
        destruct w; reflexivity.
      * apply (decode_last_stops fuel n ib m c seen _ o w k); [|exact Hw|lia]. apply stops_app, H.
      * destruct w; discriminate.
Qed.

(** A fresh call (do_not_flush unset) behaves like a middle one in the initial state. *)
Lemma td_decode_fresh fuel d l fl : td_do_not_flush d = false ->
  td_decode fuel d l fl =
  td_decode fuel (mid (td_encoding d) (td_ignore_bom d) (td_mode d) (get_encoding_decoder (td_encoding d)) false) l fl.
Proof. intros H. unfold td_decode. rewrite H. reflexivity. Qed.

Lemma chunks_fresh fuel d chunks last : td_do_not_flush d = false ->
  decode_chunks fuel d chunks last =
  decode_chunks fuel (mid (td_encoding d) (td_ignore_bom d) (td_mode d) (get_encoding_decoder (td_encoding d)) false) chunks last.
Proof. intros H. destruct chunks; cbn [decode_chunks]; rewrite td_decode_fresh by exact H; reflexivity. Qed.

Lemma dec_ok n : n <> replacement -> ok_dec (get_encoding_decoder n).
Proof. destruct n; try congruence; intros _; exact I. Qed.

Theorem chunking d chunks last : td_do_not_flush d = false -> td_encoding d <> replacement ->
  exists N R, forall fuel, (N <= fuel)%nat ->
  decode_chunks fuel d chunks last = R /\ decode_chunks fuel d [] (concat chunks ++ last) = R /\ R <> NoFuel.
Proof.
  intros F E.
  destruct (chunks_mid chunks last (td_encoding d) (td_ignore_bom d) (td_mode d)
              (get_encoding_decoder (td_encoding d)) false (dec_ok _ E)) as (N & R & H).
  exists N, R. intros fuel L. rewrite (chunks_fresh fuel d chunks last F), (chunks_fresh fuel d [] _ F). apply H, L.
Qed.
