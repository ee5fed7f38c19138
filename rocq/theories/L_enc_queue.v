(** Lemmas for the I/O queue, the labels, BOM sniffing and TextDecoder. *)
From Coq Require Import ZArith List Bool Lia.
From Verif Require Import M_unicode L_unicode M_infra L_infra M_percent M_encoding M_labels L_encoding L_encoding2 L_enc_utf8 L_enc_codec L_enc_misc.
Import ListNotations.
Open Scope Z_scope.

(** * Histories of a queue *)

Inductive op := Push (v : Z) | PushEnd | Prepend (v : Z) | PrependAll (l : list Z) | Read | ReadN (n : nat) | Peek.
(** What an operation answers: nothing, wait, the end of the queue, items. *)
Inductive answer := Done | Wait | AtEnd | Items (l : list Z).

(** The queue as a list of values and whether the end is known. *)
Definition spec_step (o : op) (s : list Z * bool) : answer * (list Z * bool) :=
  let '(l, closed) := s in
  match o with
  | Push v => (Done, (l ++ [v], closed))
  | PushEnd => (Done, (l, true))
  | Prepend v => (Done, (v :: l, closed))
  | PrependAll vs => (Done, (vs ++ l, closed))
  | Read => match l with
            | [] => (if closed then AtEnd else Wait, s)
            | v :: r => (Items [v], (r, closed))
            end
  | ReadN n => if (length l + (if closed then 1 else 0) <? n)%nat then (Wait, s)
               else (Items (firstn n l), (skipn n l, closed))
  | Peek => (match l with [] => if closed then Items [] else Wait | _ => Items l end, s)
  end.

Definition model_step (o : op) (q : queue) : option (answer * queue) :=
  match o with
  | Push v => Some (Done, q_push_value q v)
  | PushEnd => Some (Done, q_push q end_of_queue)
  | Prepend v => Some (Done, q_prepend_value q v)
  | PrependAll vs => Some (Done, q_prepend_values q vs)
  | Read => match q_read q with
            | None => Some (Wait, q)
            | Some (i, q') => Some (if eoq i then AtEnd else Items [value i], q')
            end
  | ReadN n => match q_read_n n q with
               | Val (None, q') => Some (Wait, q')
               | Val (Some l, q') => Some (Items (map value l), q')
               | _ => None
               end
  | Peek => match q_peek 1 q with
            | Val None => Some (Wait, q)
            | Val (Some l) => Some (Items (map value l), q)
            | _ => None
            end
  end.

Fixpoint spec_run (h : list op) (s : list Z * bool) : list answer * (list Z * bool) :=
  match h with
  | [] => ([], s)
  | o :: h => let '(a, s) := spec_step o s in let '(l, s) := spec_run h s in (a :: l, s)
  end.
Fixpoint model_run (h : list op) (q : queue) : option (list answer * queue) :=
  match h with
  | [] => Some ([], q)
  | o :: h => match model_step o q with
              | None => None
              | Some (a, q) => match model_run h q with None => None | Some (l, q) => Some (a :: l, q) end
              end
  end.

Definition concrete (s : list Z * bool) : queue := plain (fst s) ++ (if snd s then [end_of_queue] else []).

Lemma reads_plain n : forall l e, (n <= length l)%nat -> q_reads n (plain l ++ e) = (plain (firstn n l), plain (skipn n l) ++ e).
Proof.
  induction n as [|n IH]; intros l e H; [reflexivity|]. destruct l as [|v l]; [cbn in H; lia|].
  cbn [q_reads]. rewrite q_read_plain. rewrite IH by (cbn in H; lia). reflexivity.
Qed.

Lemma reads_end l : q_reads (S (length l)) (plain l ++ [end_of_queue]) = (plain l ++ [end_of_queue], [end_of_queue]).
Proof.
  induction l as [|v l IH]; [reflexivity|]. change (q_reads (S (length (v :: l))) (plain (v :: l) ++ [end_of_queue]))
    with (match q_read (plain (v :: l) ++ [end_of_queue]) with
          | None => ([], plain (v :: l) ++ [end_of_queue])
          | Some (i, q') => let '(l', q'') := q_reads (S (length l)) q' in (i :: l', q'') end).
  rewrite q_read_plain, IH. reflexivity.
Qed.

Lemma plain_last l : match rev (plain l) with [] => True | b :: _ => eoq b = false end.
Proof. unfold plain. rewrite <- map_rev. destruct (rev l); cbn; auto. Qed.

Lemma peek_ok s : q_peek 1 (concrete s) =
  Val (match fst s with [] => if snd s then Some [] else None | _ => Some (plain (fst s)) end).
Proof.
  destruct s as [l b]. unfold q_peek, concrete. cbn [fst snd Nat.eqb].
  destruct l as [|v l]; destruct b; cbn [plain map app length]; try reflexivity.
  - cbn [Nat.ltb Nat.leb andb]. change (Item v false :: map (fun v0 : Z => Item v0 false) l ++ [end_of_queue]) with (plain (v :: l) ++ [end_of_queue]).
    rewrite q_prefix_plain. reflexivity.
  - cbn [Nat.ltb Nat.leb andb]. rewrite app_nil_r.
    change (Item v false :: map (fun v0 : Z => Item v0 false) l) with (plain (v :: l)). rewrite q_prefix_open. reflexivity.
Qed.

Lemma step_ok o s : (o <> ReadN 0) -> model_step o (concrete s) =
  let '(a, s') := spec_step o s in Some (a, concrete s').
Proof.
  intros N. destruct s as [l b]. destruct o as [v| |v|vs| |n|]; unfold concrete; cbn [model_step spec_step fst snd].
  - destruct b.
    + unfold q_push_value. rewrite q_push_closed by reflexivity. rewrite plain_app, <- app_assoc. reflexivity.
    + rewrite !app_nil_r. unfold q_push_value. rewrite q_push_open by apply plain_open. rewrite plain_app. reflexivity.
  - destruct b.
    + rewrite q_push_end_closed. reflexivity.
    + rewrite app_nil_r, q_push_open by apply plain_open. reflexivity.
  - reflexivity.
  - unfold q_prepend_values. rewrite plain_app, <- app_assoc. reflexivity.
  - destruct l as [|v l]; [destruct b; reflexivity|]. rewrite q_read_plain. reflexivity.
  - unfold q_read_n. rewrite app_length. unfold plain at 1. rewrite map_length.
    replace (length (if b then [end_of_queue] else [])) with (if b then 1 else 0)%nat by (destruct b; reflexivity).
    destruct (length l + (if b then 1 else 0) <? n)%nat eqn:E; [reflexivity|]. apply Nat.ltb_ge in E.
    destruct (Nat.le_gt_cases n (length l)) as [H|H].
    + rewrite reads_plain by exact H. pose proof (plain_last (firstn n l)) as P.
      destruct (rev (plain (firstn n l))) as [|x r] eqn:R.
      * exfalso. apply (f_equal (@length item)) in R. rewrite rev_length in R. unfold plain in R.
        rewrite map_length, firstn_length in R. cbn in R. assert (n = 0%nat) by lia. congruence.
      * rewrite P, plain_values. reflexivity.
    + destruct b; [|lia]. assert (n = S (length l)) as -> by lia. rewrite reads_end, rev_app_distr. cbn [rev app eoq end_of_queue].
      rewrite rev_involutive, plain_values. rewrite firstn_all2, skipn_all2 by lia. reflexivity.
  - pose proof (peek_ok (l, b)) as P. unfold concrete in P. cbn [fst snd] in P. rewrite P.
    destruct l; destruct b; cbn [fst snd]; rewrite ?plain_values; reflexivity.
Qed.

Lemma history_ok h : ~ In (ReadN 0) h -> forall s,
  model_run h (concrete s) = let '(l, s') := spec_run h s in Some (l, concrete s').
Proof.
  induction h as [|o h IH]; intros N s; [reflexivity|]. cbn [model_run spec_run].
  rewrite step_ok by (intros ->; apply N; now left). destruct (spec_step o s) as [a s'].
  rewrite IH by (intros I; apply N; now right). destruct (spec_run h s') as [l s'']. reflexivity.
Qed.

(** * Labels *)

Fixpoint nodupb (l : list (list Z)) : bool :=
  match l with
  | [] => true
  | x :: r => negb (existsb (fun y => if list_eq_dec Z.eq_dec x y then true else false) r) && nodupb r
  end.
Lemma nodupb_ok l : nodupb l = true -> NoDup l.
Proof.
  induction l as [|x l IH]; intros H; [constructor|]. cbn in H. apply andb_true_iff in H as [H1 H2].
  constructor; [|auto]. intros I. apply negb_true_iff in H1.
  assert (existsb (fun y => if list_eq_dec Z.eq_dec x y then true else false) l = true); [|congruence].
  apply existsb_exists. exists x. split; [exact I|]. destruct (list_eq_dec Z.eq_dec x x); congruence.
Qed.

Lemma labels_nodup : NoDup (map fst encoding_label_map).
Proof. apply nodupb_ok. vm_compute. reflexivity. Qed.

Lemma find_label_iff s n : find_label s = Some n <-> In (s, n) encoding_label_map.
Proof.
  unfold find_label. pose proof labels_nodup as N. induction encoding_label_map as [|[k m] L IH].
  - cbn. split; [discriminate|tauto].
  - cbn [map fst] in N. inversion N as [|x y N1 N2]; subst. cbn [find fst]. destruct (list_eq_dec Z.eq_dec k s) as [->|D].
    + cbn. split; [intros [= ->]; now left|]. intros [[= ->]|I]; [reflexivity|]. destruct N1. apply (in_map fst) in I. exact I.
    + rewrite (IH N2). cbn. split; [now right|]. intros [[= ? ?]|I]; [congruence|exact I].
Qed.

Lemma enc32 s : enc utf32 s = Some s.
Proof. induction s as [|c s IH]; [reflexivity|]. cbn [enc]. rewrite IH. reflexivity. Qed.

Lemma trimmed_scalar s m : Forall scalar s -> Trimmed s m -> Forall scalar m.
Proof.
  intros F (a & b & -> & _). apply Forall_app in F as [_ F]. now apply Forall_app in F as [F _].
Qed.

Lemma label_lookup s : Forall scalar s -> s = [] \/ ~ Forall ws s ->
  exists m, Trimmed s m /\ (forall m', Trimmed s m' -> m' = m) /\
  exists r, get_encoding_name s = Some r /\ forall n, r = Some n <-> In (map cp_lower m, n) encoding_label_map.
Proof.
  intros F H. assert (U : is_utf utf32) by (right; right; reflexivity).
  destruct (strip_utf utf32 utf32 s s U F (enc32 s)) as (m & T & Un & S & _). specialize (S H).
  exists m. split; [exact T|]. split; [exact Un|]. unfold get_encoding_name. rewrite S, enc32.
  destruct (case_scalar utf32 utf32 m U U (trimmed_scalar s m F T)) as (u & E & L & _).
  rewrite enc32 in E. injection E as <-. rewrite L, enc32.
  eexists. split; [reflexivity|]. intros n. apply find_label_iff.
Qed.

(** * BOM sniffing *)

Lemma bytes_small b : 0 <= b < 256 -> b mod 256 = b. Proof. apply Z.mod_small. Qed.

Lemma peek3 l : exists r, q_peek 3 (to_queue l) = Val (Some r) /\ r = plain l.
Proof.
  rewrite to_queue_spec. unfold q_peek. cbn [Nat.eqb]. unfold q_closed. rewrite rev_app_distr. cbn [rev app eoq end_of_queue].
  rewrite andb_false_r. exists (plain l). split; [|reflexivity]. rewrite (q_prefix_plain l []). reflexivity.
Qed.

(** The encoding and length of the byte order mark. *)
Inductive bom : list Z -> encoding_name -> Prop :=
| bom_utf8 : bom [0xEF; 0xBB; 0xBF] UTF_8
| bom_be : bom [0xFE; 0xFF] UTF_16BE
| bom_le : bom [0xFF; 0xFE] UTF_16LE.

Lemma read_bom b n r : bom b n -> q_read_n (match n with UTF_8 => 3 | _ => 2 end) (to_queue (b ++ r)) = Val (Some (plain b), to_queue r).
Proof.
  intros B. rewrite !to_queue_spec, plain_app, <- app_assoc. destruct B; unfold q_read_n; cbn [plain map app length];
    (replace (_ <? _)%nat with false by (symmetry; apply Nat.ltb_ge; lia)); reflexivity.
Qed.

Lemma sniff_bom b n r : bom b n -> bom_sniff (to_queue (b ++ r)) = Some (Some n).
Proof.
  intros B. unfold bom_sniff. destruct (peek3 (b ++ r)) as (q & -> & ->). destruct B; cbn [app plain map nth_error value]; reflexivity.
Qed.

Lemma sniff_none l : Forall (fun b => 0 <= b < 256) l -> (forall b n r, bom b n -> l <> b ++ r) -> bom_sniff (to_queue l) = Some None.
Proof.
  intros F N. unfold bom_sniff. destruct (peek3 l) as (q & -> & ->).
  assert (V : forall k, match nth_error (plain l) k with Some i => value i mod 256 | None => 0 end = nth k l 0).
  { intros k. unfold plain. rewrite nth_error_map. destruct (nth_error l k) as [x|] eqn:E.
    - cbn. rewrite (nth_error_nth _ _ _ E). apply Z.mod_small. rewrite Forall_forall in F. apply F. eapply nth_error_In, E.
    - cbn. apply nth_error_None in E. symmetry. apply nth_overflow, E. }
  cbv zeta. rewrite !V.
  assert (X : forall a b, 0 < a -> 0 < b -> (nth 0 l 0 =? a) && (nth 1 l 0 =? b) = true -> exists r, l = [a; b] ++ r).
  { intros a b A B H. apply andb_true_iff in H as [H1 H2]. apply Z.eqb_eq in H1, H2.
    destruct l as [|x [|y l]]; cbn in H1, H2; try lia. subst. exists l. reflexivity. }
  destruct ((nth 0 l 0 =? 239) && (nth 1 l 0 =? 187) && (nth 2 l 0 =? 191)) eqn:E1.
  { exfalso. apply andb_true_iff in E1 as [E1 E2]. apply X in E1 as [r ->]; [|lia|lia]. apply Z.eqb_eq in E2.
    destruct r as [|z r]; cbn in E2; [lia|]. subst z. exact (N _ _ r bom_utf8 eq_refl). }
  destruct ((nth 0 l 0 =? 254) && (nth 1 l 0 =? 255)) eqn:E2.
  { exfalso. apply X in E2 as [r ->]; [|lia|lia]. exact (N _ _ r bom_be eq_refl). }
  destruct ((nth 0 l 0 =? 255) && (nth 1 l 0 =? 254)) eqn:E3; [|reflexivity].
  exfalso. apply X in E3 as [r ->]; [|lia|lia]. exact (N _ _ r bom_le eq_refl).
Qed.
