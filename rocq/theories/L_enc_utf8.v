(** Lemmas for the UTF-8 decoder and encoder of M_encoding. *)
From Coq Require Import ZArith List Bool Lia.
From Verif Require Import M_unicode L_unicode M_infra M_percent M_encoding L_encoding L_encoding2.
Import ListNotations.
Open Scope Z_scope.

(** * Whole runs *)

Lemma to_queue_nil_push o : q_push (q_push_values [] o) end_of_queue = to_queue o.
Proof. reflexivity. Qed.

Lemma proc_finish m c l o c1 k oe ke : eats m c l o c1 k -> ends m c1 oe (Some Finished) ke ->
  forall fuel, (k + ke < fuel)%nat -> exists c' q',
  process_queue fuel c (to_queue l) [] m = Val (Finished, c', q', to_queue (o ++ oe)).
Proof.
  intros H He fuel L. rewrite to_queue_spec.
  replace fuel with (k + (ke + S (fuel - k - ke - 1)))%nat by lia.
  rewrite (eats_process _ _ _ _ _ _ H).
  destruct (ends_process _ _ _ _ _ He (fuel - k - ke - 1) [] (q_push_values [] o)) as (q' & c' & R).
  exists c', q'. rewrite R, <- q_push_values_app. reflexivity.
Qed.

Lemma proc_end_error m c l o c1 k oe e ke : eats m c l o c1 k -> ends m c1 oe (Some (Error e)) ke ->
  forall fuel, (k + ke < fuel)%nat -> exists c' q',
  process_queue fuel c (to_queue l) [] m = Val (Error e, c', q', q_push_values [] (o ++ oe)).
Proof.
  intros H He fuel L. rewrite to_queue_spec.
  replace fuel with (k + (ke + S (fuel - k - ke - 1)))%nat by lia.
  rewrite (eats_process _ _ _ _ _ _ H).
  destruct (ends_process _ _ _ _ _ He (fuel - k - ke - 1) [] (q_push_values [] o)) as (q' & c' & R).
  exists c', q'. rewrite R, <- q_push_values_app. reflexivity.
Qed.

Lemma proc_error m c l o e k : stops m c l o (Some (Error e)) k ->
  forall fuel, (k < fuel)%nat -> exists c' q',
  process_queue fuel c (to_queue l) [] m = Val (Error e, c', q', q_push_values [] o).
Proof.
  intros H fuel L. rewrite to_queue_spec. replace fuel with (k + S (fuel - k - 1))%nat by lia.
  destruct (stops_process _ _ _ _ _ _ H ltac:(discriminate) (fuel - k - 1) [end_of_queue] []) as (q' & c' & R).
  exists c', q'. exact R.
Qed.

(** * One byte *)

Definition byte (b : Z) : Prop := 0 <= b < 256.
Notation D0 := (UTF8_decoder utf8_init).

Ltac zb := repeat match goal with
  | |- context [?a <=? ?b] => first [ replace (a <=? b) with true by (symmetry; apply Z.leb_le; lia)
                                    | replace (a <=? b) with false by (symmetry; apply Z.leb_gt; lia) ]
  | |- context [?a =? ?b] => first [ replace (a =? b) with true by (symmetry; apply Z.eqb_eq; lia)
                                   | replace (a =? b) with false by (symmetry; apply Z.eqb_neq; lia) ]
  end.

Ltac u8run := cbn [run]; unfold utf8_run, in_range, utf8_init; cbn [eoq value andb u8_needed u8_cp u8_seen u8_lower u8_upper];
  rewrite ?(Z.mod_small _ 256) by lia; cbv zeta; zb; cbn [andb negb].

Lemma run_ascii b : 0 <= b <= 0x7F -> run D0 [] (Item b false) = Some (Out [b], D0, plain []).
Proof. intros H. u8run. reflexivity. Qed.
Lemma run_lead2 b : 0xC2 <= b <= 0xDF ->
  run D0 [] (Item b false) = Some (Continue, UTF8_decoder (U8 (b - 0xC0) 0 1 0x80 0xBF), plain []).
Proof. intros H. u8run. rewrite land_1F. replace (b mod 32) with (b - 0xC0) by zdiv. reflexivity. Qed.
Lemma run_lead3 b : 0xE0 <= b <= 0xEF ->
  run D0 [] (Item b false) = Some (Continue, UTF8_decoder (U8 (b - 0xE0) 0 2
     (if b =? 0xE0 then 0xA0 else 0x80) (if b =? 0xED then 0x9F else 0xBF)), plain []).
Proof.
  intros H. u8run. rewrite land_F. replace (b mod 16) with (b - 0xE0) by zdiv.
  destruct (b =? 0xE0), (b =? 0xED); reflexivity.
Qed.
Lemma run_lead4 b : 0xF0 <= b <= 0xF4 ->
  run D0 [] (Item b false) = Some (Continue, UTF8_decoder (U8 (b - 0xF0) 0 3
     (if b =? 0xF0 then 0x90 else 0x80) (if b =? 0xF4 then 0x8F else 0xBF)), plain []).
Proof.
  intros H. u8run. rewrite land_7. replace (b mod 8) with (b - 0xF0) by zdiv.
  destruct (b =? 0xF0), (b =? 0xF4); reflexivity.
Qed.
Lemma run_bad_lead b : 0x80 <= b <= 0xC1 \/ 0xF5 <= b < 256 ->
  run D0 [] (Item b false) = Some (Error no_cp, D0, plain []).
Proof. intros [H|H]; u8run; reflexivity. Qed.

Lemma lor_cont c b : 0 <= c < 0x10000 -> 0x80 <= b <= 0xBF ->
  Z.lor (Z.shiftl c 6 mod 2 ^ 32) (Z.land b 0x3F) = c * 64 + (b - 0x80).
Proof.
  intros H B. rewrite land_3F, Z.shiftl_mul_pow2 by lia. rewrite Z.mod_small by lia.
  replace (b mod 64) with (b - 0x80) by zdiv.
  assert (L : Z.land (c * 2 ^ 6) (b - 128) = 0).
  { rewrite <- Z.shiftl_mul_pow2 by lia. apply Z.bits_inj'. intros i Hi.
    rewrite Z.land_spec, Z.bits_0, Z.shiftl_spec by lia. destruct (Z_lt_le_dec i 6).
    - rewrite (Z.testbit_neg_r c) by lia. reflexivity.
    - rewrite (Z.bits_above_log2 (b - 128) i); [apply andb_false_r|lia|].
      destruct (Z.eq_dec (b - 128) 0) as [e|e]; [rewrite e; cbn; lia|].
      assert (Z.log2 (b - 128) < 6); [|lia]. apply Z.log2_lt_pow2; lia. }
  rewrite <- Z.lxor_lor by exact L. rewrite <- Z.add_nocarry_lxor by exact L. lia.
Qed.

Lemma run_cont_bad cp seen n lo hi b : byte b -> n <> 0 -> b < lo \/ hi < b ->
  run (UTF8_decoder (U8 cp seen n lo hi)) [] (Item b false) = Some (Error no_cp, D0, plain [b]).
Proof.
  unfold byte. intros B N H. u8run. destruct H as [H|H].
  - zb. reflexivity.
  - zb. rewrite andb_false_r. reflexivity.
Qed.

Lemma run_cont_more cp seen n lo hi b : 0 <= cp < 0x10000 -> n <> 0 -> 0x80 <= lo -> hi <= 0xBF -> lo <= b <= hi ->
  seen + 1 <> n ->
  run (UTF8_decoder (U8 cp seen n lo hi)) [] (Item b false)
  = Some (Continue, UTF8_decoder (U8 (cp * 64 + (b - 0x80)) (seen + 1) n 0x80 0xBF), plain []).
Proof. intros C N L H B S. u8run. rewrite lor_cont by lia. reflexivity. Qed.

Lemma run_cont_last cp seen n lo hi b : 0 <= cp < 0x10000 -> n <> 0 -> 0x80 <= lo -> hi <= 0xBF -> lo <= b <= hi ->
  seen + 1 = n ->
  run (UTF8_decoder (U8 cp seen n lo hi)) [] (Item b false) = Some (Out [cp * 64 + (b - 0x80)], D0, plain []).
Proof. intros C N L H B S. u8run. rewrite lor_cont by lia. reflexivity. Qed.

Lemma run_end_mid cp seen n lo hi q : n <> 0 ->
  run (UTF8_decoder (U8 cp seen n lo hi)) q end_of_queue
  = Some (Error no_cp, UTF8_decoder (U8 cp seen 0 lo hi), q).
Proof. intros N. cbn [run]. unfold utf8_run. cbn [eoq end_of_queue u8_needed u8_cp u8_seen u8_lower u8_upper].
  zb. reflexivity. Qed.

(** * Specification of decoding with replacement (Unicode standard, chapter 3.9) *)

(** [l] is an initial part of some well-formed sequence. *)
Definition starts (l : list Z) : Prop := exists cp t, scalar cp /\ utf8_spec cp = l ++ t.

(** The division of a byte string into characters ([Some]) and maximal ill-formed parts ([None]). *)
Inductive divided : list Z -> list (option Z) -> Prop :=
| divided_nil : divided [] []
| divided_char cp rest its : scalar cp -> divided rest its ->
    divided (utf8_spec cp ++ rest) (Some cp :: its)
| divided_bad sub rest its :
    sub <> [] -> (starts sub \/ length sub = 1%nat) ->
    (forall cp t, scalar cp -> sub ++ rest <> utf8_spec cp ++ t) ->
    (forall b t, rest = b :: t -> ~ starts (sub ++ [b])) ->
    divided rest its ->
    divided (sub ++ rest) (None :: its).

Definition chars (its : list (option Z)) : list Z := flat_map (fun i => match i with Some c => [c] | None => [] end) its.
Definition replaced (its : list (option Z)) : list Z := map (fun i => match i with Some c => c | None => 0xFFFD end) its.

Lemma scalar_ge cp : scalar cp -> 0 <= cp <= 0x10FFFF. Proof. unfold scalar; lia. Qed.

(** The shape of the well-formed sequences (Unicode table 3-7). *)
Lemma utf8_shape cp : scalar cp ->
  (exists a, utf8_spec cp = [a] /\ 0 <= a <= 0x7F /\ cp = a) \/
  (exists a b, utf8_spec cp = [a; b] /\ 0xC2 <= a <= 0xDF /\ 0x80 <= b <= 0xBF /\ cp = (a - 0xC0) * 64 + (b - 0x80)) \/
  (exists a b c, utf8_spec cp = [a; b; c] /\ 0xE0 <= a <= 0xEF
     /\ (if a =? 0xE0 then 0xA0 else 0x80) <= b <= (if a =? 0xED then 0x9F else 0xBF) /\ 0x80 <= c <= 0xBF
     /\ cp = ((a - 0xE0) * 64 + (b - 0x80)) * 64 + (c - 0x80)) \/
  (exists a b c d, utf8_spec cp = [a; b; c; d] /\ 0xF0 <= a <= 0xF4
     /\ (if a =? 0xF0 then 0x90 else 0x80) <= b <= (if a =? 0xF4 then 0x8F else 0xBF) /\ 0x80 <= c <= 0xBF
     /\ 0x80 <= d <= 0xBF
     /\ cp = (((a - 0xF0) * 64 + (b - 0x80)) * 64 + (c - 0x80)) * 64 + (d - 0x80)).
Proof.
  intros S. unfold utf8_spec. unfold scalar in S.
  destruct (cp <? 0x80) eqn:E1; [left; eexists; split; [reflexivity|]; lia|].
  destruct (cp <? 0x800) eqn:E2.
  { right; left. do 2 eexists. split; [reflexivity|]. zdiv. }
  destruct (cp <? 0x10000) eqn:E3.
  { right; right; left. do 3 eexists. split; [reflexivity|].
    destruct (0xE0 + cp / 4096 =? 0xE0) eqn:F1, (0xE0 + cp / 4096 =? 0xED) eqn:F2; zdiv. }
  right; right; right. do 4 eexists. split; [reflexivity|].
  destruct (0xF0 + cp / 262144 =? 0xF0) eqn:F1, (0xF0 + cp / 262144 =? 0xF4) eqn:F2; zdiv.
Qed.

Lemma utf8_make1 a : 0 <= a <= 0x7F -> scalar a /\ utf8_spec a = [a].
Proof. intros H. unfold scalar, utf8_spec. replace (a <? 0x80) with true by lia. split; [lia|reflexivity]. Qed.

Lemma utf8_make2 a b : 0xC2 <= a <= 0xDF -> 0x80 <= b <= 0xBF ->
  scalar ((a - 0xC0) * 64 + (b - 0x80)) /\ utf8_spec ((a - 0xC0) * 64 + (b - 0x80)) = [a; b].
Proof.
  intros A B. set (cp := (a - 0xC0) * 64 + (b - 0x80)). assert (0x80 <= cp < 0x800) by lia.
  unfold scalar, utf8_spec. replace (cp <? 0x80) with false by lia. replace (cp <? 0x800) with true by lia.
  split; [lia|]. leq.
Qed.

Lemma utf8_make3 a b c : 0xE0 <= a <= 0xEF ->
  (if a =? 0xE0 then 0xA0 else 0x80) <= b <= (if a =? 0xED then 0x9F else 0xBF) -> 0x80 <= c <= 0xBF ->
  let cp := ((a - 0xE0) * 64 + (b - 0x80)) * 64 + (c - 0x80) in
  scalar cp /\ utf8_spec cp = [a; b; c].
Proof.
  intros A B C cp. assert (0x800 <= cp < 0x10000 /\ scalar cp /\ 0x80 <= b <= 0xBF) as (R & S & B').
  { unfold scalar, cp. destruct (a =? 0xE0) eqn:F1, (a =? 0xED) eqn:F2; lia. }
  split; [exact S|]. unfold utf8_spec. replace (cp <? 0x80) with false by lia. replace (cp <? 0x800) with false by lia.
  replace (cp <? 0x10000) with true by lia. clear S B. leq.
Qed.

Lemma utf8_make4 a b c d : 0xF0 <= a <= 0xF4 ->
  (if a =? 0xF0 then 0x90 else 0x80) <= b <= (if a =? 0xF4 then 0x8F else 0xBF) -> 0x80 <= c <= 0xBF -> 0x80 <= d <= 0xBF ->
  let cp := (((a - 0xF0) * 64 + (b - 0x80)) * 64 + (c - 0x80)) * 64 + (d - 0x80) in
  scalar cp /\ utf8_spec cp = [a; b; c; d].
Proof.
  intros A B C D cp. assert (0x10000 <= cp < 0x110000 /\ scalar cp /\ 0x80 <= b <= 0xBF) as (R & S & B').
  { unfold scalar, cp. destruct (a =? 0xF0) eqn:F1, (a =? 0xF4) eqn:F2; lia. }
  split; [exact S|]. unfold utf8_spec. replace (cp <? 0x80) with false by lia. replace (cp <? 0x800) with false by lia.
  replace (cp <? 0x10000) with false by lia. clear S B. leq.
Qed.

Ltac ifs := repeat match goal with
  | H : context [if ?b then _ else _] |- _ => destruct b eqn:?
  | |- context [if ?b then _ else _] => destruct b eqn:?
  end.

(** Contradiction from an equation with a well-formed sequence. *)
Ltac shape S E := let Eq := fresh in
  destruct (utf8_shape _ S) as [(?a & Eq & ?)|[(?a & ?b & Eq & ?)|[(?a & ?b & ?c & Eq & ?)|(?a & ?b & ?c & ?d & Eq & ?)]]];
  rewrite Eq in E; cbn [app] in E; try discriminate E; injection E; clear E Eq; intros; subst; ifs; lia.

Definition no_char (l : list Z) : Prop := forall cp t, scalar cp -> l <> utf8_spec cp ++ t.
Definition maximal (sub rest : list Z) : Prop := forall b t, rest = b :: t -> ~ starts (sub ++ [b]).

Lemma starts2 a : 0xC2 <= a <= 0xDF -> starts [a].
Proof. intros H. destruct (utf8_make2 a 0x80 H ltac:(lia)) as [S E]. eexists _, [0x80]. split; [exact S|exact E]. Qed.
Lemma starts3b a b : 0xE0 <= a <= 0xEF ->
  (if a =? 0xE0 then 0xA0 else 0x80) <= b <= (if a =? 0xED then 0x9F else 0xBF) -> starts [a; b].
Proof. intros H B. destruct (utf8_make3 a b 0x80 H B ltac:(lia)) as [S E]. eexists _, [0x80]. split; [exact S|exact E]. Qed.
Lemma starts3a a : 0xE0 <= a <= 0xEF -> starts [a].
Proof.
  intros H. destruct (starts3b a (if a =? 0xE0 then 0xA0 else 0x80) H) as (cp & t & S & E).
  { ifs; lia. }
  exists cp, ((if a =? 0xE0 then 0xA0 else 0x80) :: t). split; [exact S|exact E].
Qed.
Lemma starts4c a b c : 0xF0 <= a <= 0xF4 ->
  (if a =? 0xF0 then 0x90 else 0x80) <= b <= (if a =? 0xF4 then 0x8F else 0xBF) -> 0x80 <= c <= 0xBF -> starts [a; b; c].
Proof. intros H B C. destruct (utf8_make4 a b c 0x80 H B C ltac:(lia)) as [S E]. eexists _, [0x80]. split; [exact S|exact E]. Qed.
Lemma starts4b a b : 0xF0 <= a <= 0xF4 ->
  (if a =? 0xF0 then 0x90 else 0x80) <= b <= (if a =? 0xF4 then 0x8F else 0xBF) -> starts [a; b].
Proof.
  intros H B. destruct (starts4c a b 0x80 H B ltac:(lia)) as (cp & t & S & E).
  exists cp, (0x80 :: t). split; [exact S|exact E].
Qed.
Lemma starts4a a : 0xF0 <= a <= 0xF4 -> starts [a].
Proof.
  intros H. destruct (starts4b a (if a =? 0xF0 then 0x90 else 0x80) H) as (cp & t & S & E).
  { ifs; lia. }
  exists cp, ((if a =? 0xF0 then 0x90 else 0x80) :: t). split; [exact S|exact E].
Qed.

(** How the decoder reports an ill-formed part. *)
Inductive reports (sub rest : list Z) : Prop :=
| rep_lead b : sub = [b] -> run D0 [] (Item b false) = Some (Error no_cp, D0, plain []) -> reports sub rest
| rep_cont c1 k b t : rest = b :: t -> (forall m, eats m D0 sub [] c1 k) ->
    run c1 [] (Item b false) = Some (Error no_cp, D0, plain [b]) -> reports sub rest
| rep_end c1 c2 k : rest = [] -> (forall m, eats m D0 sub [] c1 k) ->
    (forall q, run c1 q end_of_queue = Some (Error no_cp, c2, q)) ->
    (forall q, run c2 q end_of_queue = Some (Finished, c2, q)) -> reports sub rest.

Definition head_char (l : list Z) : Prop :=
  exists cp rest k, scalar cp /\ l = utf8_spec cp ++ rest /\ forall m, eats m D0 (utf8_spec cp) [cp] D0 k.
Definition head_bad (l : list Z) : Prop :=
  exists sub rest, l = sub ++ rest /\ sub <> [] /\ (starts sub \/ length sub = 1%nat) /\ no_char (sub ++ rest)
    /\ maximal sub rest /\ reports sub rest.

Lemma eat1 m c v c1 : run c [] (Item v false) = Some (Continue, c1, plain []) ->
  forall l o c2 k, eats m c1 l o c2 k -> eats m c (v :: l) o c2 (S k).
Proof. intros E l o c2 k H. exact (eats_cons m c v l Continue c1 [] o c2 k E eq_refl H). Qed.
Lemma eat_out m c v c1 o : run c [] (Item v false) = Some (Out o, c1, plain []) -> eats m c [v] o c1 1.
Proof. intros E. pose proof (eats_cons m c v [] (Out o) c1 [] [] c1 0 E eq_refl (eats_nil m c1)) as H.
  cbn [emit] in H. rewrite app_nil_r in H. exact H. Qed.

Lemma end_done cp seen lo hi q : run (UTF8_decoder (U8 cp seen 0 lo hi)) q end_of_queue
  = Some (Finished, UTF8_decoder (U8 cp seen 0 lo hi), q).
Proof. reflexivity. Qed.

Ltac nochar := let S := fresh "S" in let E := fresh "E" in intros ?cp ?t S E; cbn [app] in E; shape S E.
Ltac maxi := let S := fresh "S" in let E := fresh "E" in
  intros ?x ?t E (?cp & ?t2 & S & ?E2);
  try discriminate E; try (injection E; clear E; intros); subst;
  match goal with H : utf8_spec _ = _ |- _ => symmetry in H; cbn [app] in H; shape S H end.
Ltac bad sub rest := right; exists sub, rest; split; [reflexivity|]; split; [discriminate|];
  split; [first [left; eauto using starts2, starts3a, starts3b, starts4a, starts4b, starts4c; fail | right; reflexivity]|];
  split; [nochar|]; split; [maxi|].

Definition lo3 a := if a =? 0xE0 then 0xA0 else 0x80.
Definition hi3 a := if a =? 0xED then 0x9F else 0xBF.
Definition lo4 a := if a =? 0xF0 then 0x90 else 0x80.
Definition hi4 a := if a =? 0xF4 then 0x8F else 0xBF.
Lemma lohi a : 0x80 <= lo3 a /\ hi3 a <= 0xBF /\ 0x80 <= lo4 a /\ hi4 a <= 0xBF.
Proof. unfold lo3, hi3, lo4, hi4. ifs; lia. Qed.

Lemma in_dec lo b hi : (lo <= b <= hi) \/ (b < lo \/ hi < b). Proof. lia. Qed.

Lemma head_step l : Forall byte l -> l <> [] -> head_char l \/ head_bad l.
Proof.
  intros F N. destruct l as [|a l]; [congruence|]. inversion F as [|x y A F1]; subst. unfold byte in A. clear F N.
  destruct (lohi a) as (LH1 & LH2 & LH3 & LH4).
  destruct (Z_le_gt_dec a 0x7F) as [H1|H1].
  { left. destruct (utf8_make1 a ltac:(lia)) as [S E]. exists a, l, 1%nat. rewrite E.
    split; [exact S|]. split; [reflexivity|]. intros m. apply eat_out, run_ascii; lia. }
  destruct (Z_le_gt_dec a 0xC1) as [H2|H2].
  { bad [a] l. eapply rep_lead; [reflexivity|apply run_bad_lead; lia]. }
  destruct (Z_le_gt_dec 0xF5 a) as [H3|H3].
  { bad [a] l. eapply rep_lead; [reflexivity|apply run_bad_lead; lia]. }
  destruct (Z_le_gt_dec a 0xDF) as [H4|H4].
  { (* two bytes *)
    assert (HA : 0xC2 <= a <= 0xDF) by lia. pose proof (run_lead2 a HA) as R1.
    destruct l as [|b l].
    { bad [a] (@nil Z). eapply (rep_end _ _ _ _ 1); [reflexivity| | |].
      - intros m. eapply eat1; [exact R1|constructor].
      - intros q. apply run_end_mid. lia.
      - intros q. apply end_done. }
    inversion F1 as [|x y B F2]; subst. unfold byte in B.
    destruct (in_dec 0x80 b 0xBF) as [HB|HB].
    - left. destruct (utf8_make2 a b HA HB) as [S E]. eexists _, l, 2%nat. rewrite E.
      split; [exact S|]. split; [reflexivity|]. intros m. eapply eat1; [exact R1|].
      apply eat_out, run_cont_last; lia.
    - bad [a] (b :: l). eapply (rep_cont _ _ _ 1); [reflexivity| |].
      + intros m. eapply eat1; [exact R1|constructor].
      + apply run_cont_bad; [exact B|lia|exact HB]. }
  destruct (Z_le_gt_dec a 0xEF) as [H5|H5].
  { (* three bytes *)
    assert (HA : 0xE0 <= a <= 0xEF) by lia. pose proof (run_lead3 a HA) as R1. fold (lo3 a) (hi3 a) in R1.
    destruct l as [|b l].
    { bad [a] (@nil Z). eapply (rep_end _ _ _ _ 1); [reflexivity| | |].
      - intros m. eapply eat1; [exact R1|constructor].
      - intros q. apply run_end_mid. lia.
      - intros q. apply end_done. }
    inversion F1 as [|x y B F2]; subst. unfold byte in B.
    destruct (in_dec (lo3 a) b (hi3 a)) as [HB|HB].
    2:{ unfold lo3, hi3 in HB. bad [a] (b :: l). fold (lo3 a) (hi3 a) in HB. eapply (rep_cont _ _ _ 1); [reflexivity| |].
        - intros m. eapply eat1; [exact R1|constructor].
        - apply run_cont_bad; [exact B|lia|exact HB]. }
    assert (R2 : run (UTF8_decoder (U8 (a - 0xE0) 0 2 (lo3 a) (hi3 a))) [] (Item b false) = Some (Continue, UTF8_decoder
      (U8 ((a - 0xE0) * 64 + (b - 0x80)) (0 + 1) 2 0x80 0xBF), plain [])) by (apply run_cont_more; lia).
    pose proof HB as HB'. unfold lo3, hi3 in HB'.
    destruct l as [|c l].
    { bad [a; b] (@nil Z). eapply (rep_end _ _ _ _ 2); [reflexivity| | |].
      - intros m. eapply eat1; [exact R1|]. eapply eat1; [exact R2|constructor].
      - intros q. apply run_end_mid. lia.
      - intros q. apply end_done. }
    inversion F2 as [|x y C F3]; subst. unfold byte in C.
    destruct (in_dec 0x80 c 0xBF) as [HC|HC].
    - left. destruct (utf8_make3 a b c HA HB' HC) as [S E]. eexists _, l, 3%nat. rewrite E.
      split; [exact S|]. split; [reflexivity|]. intros m. eapply eat1; [exact R1|]. eapply eat1; [exact R2|].
      apply eat_out, run_cont_last; lia.
    - bad [a; b] (c :: l). eapply (rep_cont _ _ _ 2); [reflexivity| |].
      + intros m. eapply eat1; [exact R1|]. eapply eat1; [exact R2|constructor].
      + apply run_cont_bad; [exact C|lia|exact HC]. }
  (* four bytes *)
  assert (HA : 0xF0 <= a <= 0xF4) by lia. pose proof (run_lead4 a HA) as R1. fold (lo4 a) (hi4 a) in R1.
  destruct l as [|b l].
  { bad [a] (@nil Z). eapply (rep_end _ _ _ _ 1); [reflexivity| | |].
    - intros m. eapply eat1; [exact R1|constructor].
    - intros q. apply run_end_mid. lia.
    - intros q. apply end_done. }
  inversion F1 as [|x y B F2]; subst. unfold byte in B.
  destruct (in_dec (lo4 a) b (hi4 a)) as [HB|HB].
  2:{ unfold lo4, hi4 in HB. bad [a] (b :: l). fold (lo4 a) (hi4 a) in HB. eapply (rep_cont _ _ _ 1); [reflexivity| |].
      - intros m. eapply eat1; [exact R1|constructor].
      - apply run_cont_bad; [exact B|lia|exact HB]. }
  assert (R2 : run (UTF8_decoder (U8 (a - 0xF0) 0 3 (lo4 a) (hi4 a))) [] (Item b false) = Some (Continue, UTF8_decoder
    (U8 ((a - 0xF0) * 64 + (b - 0x80)) (0 + 1) 3 0x80 0xBF), plain [])) by (apply run_cont_more; lia).
  pose proof HB as HB'. unfold lo4, hi4 in HB'.
  destruct l as [|c l].
  { bad [a; b] (@nil Z). eapply (rep_end _ _ _ _ 2); [reflexivity| | |].
    - intros m. eapply eat1; [exact R1|]. eapply eat1; [exact R2|constructor].
    - intros q. apply run_end_mid. lia.
    - intros q. apply end_done. }
  inversion F2 as [|x y C F3]; subst. unfold byte in C.
  destruct (in_dec 0x80 c 0xBF) as [HC|HC].
  2:{ bad [a; b] (c :: l). eapply (rep_cont _ _ _ 2); [reflexivity| |].
      - intros m. eapply eat1; [exact R1|]. eapply eat1; [exact R2|constructor].
      - apply run_cont_bad; [exact C|lia|exact HC]. }
  assert (R3 : run (UTF8_decoder (U8 ((a - 0xF0) * 64 + (b - 0x80)) (0 + 1) 3 0x80 0xBF)) [] (Item c false) =
    Some (Continue, UTF8_decoder (U8 (((a - 0xF0) * 64 + (b - 0x80)) * 64 + (c - 0x80)) (0 + 1 + 1) 3 0x80 0xBF), plain []))
    by (apply run_cont_more; lia).
  destruct l as [|d l].
  { bad [a; b; c] (@nil Z). eapply (rep_end _ _ _ _ 3); [reflexivity| | |].
    - intros m. eapply eat1; [exact R1|]. eapply eat1; [exact R2|]. eapply eat1; [exact R3|constructor].
    - intros q. apply run_end_mid. lia.
    - intros q. apply end_done. }
  inversion F3 as [|x y D F4]; subst. unfold byte in D.
  destruct (in_dec 0x80 d 0xBF) as [HD|HD].
  - left. destruct (utf8_make4 a b c d HA HB' HC HD) as [S E]. eexists _, l, 4%nat. rewrite E.
    split; [exact S|]. split; [reflexivity|]. intros m. eapply eat1; [exact R1|]. eapply eat1; [exact R2|].
    eapply eat1; [exact R3|]. apply eat_out, run_cont_last; lia.
  - bad [a; b; c] (d :: l). eapply (rep_cont _ _ _ 3); [reflexivity| |].
    + intros m. eapply eat1; [exact R1|]. eapply eat1; [exact R2|]. eapply eat1; [exact R3|constructor].
    + apply run_cont_bad; [exact D|lia|exact HD].
Qed.

Lemma utf8_prefix_free a b r s : scalar a -> scalar b -> utf8_spec a ++ r = utf8_spec b ++ s -> a = b /\ r = s.
Proof.
  intros A B E.
  assert (X : utf8_to_code_point (utf8_spec a ++ r) = utf8_to_code_point (utf8_spec b ++ s)) by (rewrite E; reflexivity).
  rewrite !utf8_read in X by (unfold scalar in *; lia). injection X. auto.
Qed.

Lemma app_longer {A} (a b c d : list A) : a ++ b = c ++ d -> (length a < length c)%nat ->
  exists x t, b = x :: t /\ exists u, c = (a ++ [x]) ++ u.
Proof.
  revert c. induction a as [|y a IH]; intros c E L.
  - destruct c as [|x c]; [cbn in L; lia|]. cbn in E. exists x, (c ++ d). split; [exact E|]. exists c. reflexivity.
  - destruct c as [|z c]; [cbn in L; lia|]. cbn in E. injection E as <- E. cbn in L.
    destruct (IH c E ltac:(lia)) as (x & t & -> & u & ->). exists x, t. split; [reflexivity|]. exists u. reflexivity.
Qed.

Lemma starts_prefix a b : starts (a ++ b) -> starts a.
Proof. intros (cp & t & S & E). exists cp, (b ++ t). split; [exact S|]. rewrite E. apply app_assoc_reverse. Qed.

Lemma bad_sub_unique sub rest sub2 rest2 : sub ++ rest = sub2 ++ rest2 ->
  sub <> [] -> starts sub2 \/ length sub2 = 1%nat -> maximal sub rest -> (length sub2 <= length sub)%nat.
Proof.
  intros E N S M. destruct (Nat.le_gt_cases (length sub2) (length sub)) as [H|H]; [exact H|]. exfalso.
  destruct (app_longer _ _ _ _ E H) as (x & t & -> & u & ->).
  destruct S as [S|S].
  - apply (M x t eq_refl). eapply starts_prefix, S.
  - destruct sub as [|y sub]; [congruence|]. rewrite !app_length in S. cbn in S. lia.
Qed.

Lemma divided_unique l i1 : divided l i1 -> forall i2, divided l i2 -> i1 = i2.
Proof.
  induction 1 as [|cp rest its S D IH|sub rest its N S C M D IH]; intros i2 D2.
  - inversion D2 as [|cp rest its S D X|sub rest its N S C M D X]; [reflexivity| |].
    + exfalso. destruct (utf8_shape cp S) as [(a & E & _)|[(a & b & E & _)|[(a & b & c & E & _)|(a & b & c & d & E & _)]]];
        rewrite E in X; discriminate.
    + destruct sub; [congruence|discriminate].
  - inversion D2 as [X|cp2 rest2 its2 S2 D3 X|sub rest2 its2 N S2 C M D3 X].
    + exfalso. destruct (utf8_shape cp S) as [(a & E & _)|[(a & b & E & _)|[(a & b & c & E & _)|(a & b & c & d & E & _)]]];
        rewrite E in X; discriminate.
    + destruct (utf8_prefix_free _ _ _ _ S2 S X) as [-> ->]. now rewrite (IH _ D3).
    + exfalso. exact (C _ _ S X).
  - inversion D2 as [X|cp2 rest2 its2 S2 D3 X|sub2 rest2 its2 N2 S2 C2 M2 D3 X].
    + destruct sub; [congruence|discriminate].
    + exfalso. exact (C _ _ S2 (eq_sym X)).
    + assert (length sub2 = length sub).
      { apply Nat.le_antisymm.
        - eapply bad_sub_unique; [exact (eq_sym X)|exact N|exact S2|exact M].
        - eapply bad_sub_unique; [exact X|exact N2|exact S|exact M2]. }
      assert (sub2 = sub /\ rest2 = rest) as [-> ->].
      { clear - X H. revert sub H X. induction sub2 as [|x sub2 IH]; intros [|y sub] H X; cbn in H; try lia.
        - split; [reflexivity|exact X].
        - cbn in X. injection X as -> X. destruct (IH sub ltac:(lia) X) as [-> ->]. split; reflexivity. }
      now rewrite (IH _ D3).
Qed.

Definition outs (m : mode) (its : list (option Z)) : list Z :=
  flat_map (fun i => match i with Some c => [c] | None => emit m (Error no_cp) end) its.

Lemma ends_D0 m : ends m D0 [] (Some Finished) 0.
Proof. apply ends_fin. intros q. reflexivity. Qed.

Lemma utf8_main n : forall l, (length l <= n)%nat -> Forall byte l -> exists its, divided l its
  /\ (forall m, goes m (Error no_cp) = true \/ ~ In None its ->
        exists o c1 k oe ke, eats m D0 l o c1 k /\ ends m c1 oe (Some Finished) ke /\ o ++ oe = outs m its)
  /\ (In None its ->
        (exists o k, stops Fatal D0 l o (Some (Error no_cp)) k) \/
        (exists o c1 k, eats Fatal D0 l o c1 k /\ ends Fatal c1 [] (Some (Error no_cp)) 0)).
Proof.
  induction n as [|n IH]; intros l L F.
  { destruct l; [|cbn in L; lia]. exists []. split; [constructor|]. split.
    - intros m _. exists [], D0, 0%nat, [], 0%nat. split; [constructor|]. split; [apply ends_D0|reflexivity].
    - intros []. }
  destruct l as [|a l].
  { exists []. split; [constructor|]. split.
    - intros m _. exists [], D0, 0%nat, [], 0%nat. split; [constructor|]. split; [apply ends_D0|reflexivity].
    - intros []. }
  destruct (head_step (a :: l) F ltac:(discriminate)) as
    [(cp & rest & k & S & E & R)|(sub & rest & E & N & St & C & M & R)]; rewrite E in *; clear E a l.
  - apply Forall_app in F as [_ F]. rewrite app_length in L.
    assert (0 < length (utf8_spec cp))%nat.
    { destruct (utf8_shape cp S) as [(a & E & _)|[(a & b & E & _)|[(a & b & c & E & _)|(a & b & c & d & E & _)]]];
        rewrite E; cbn; lia. }
    destruct (IH rest ltac:(lia) F) as (its & D & G & B). exists (Some cp :: its).
    split; [now constructor|]. split.
    + intros m Hm. destruct (G m) as (o & c1 & k1 & oe & ke & X & Y & Z).
      { destruct Hm as [Hm|Hm]; [now left|]. right. intros I. apply Hm. now right. }
      exists (cp :: o), c1, (k + k1)%nat, oe, ke. split; [apply (eats_app _ _ _ _ _ _ (R m) _ _ _ _ X)|].
      split; [exact Y|]. cbn. now rewrite Z.
    + intros [I|I]; [discriminate|]. destruct (B I) as [(o & k1 & X)|(o & c1 & k1 & X & Y)].
      * left. exists ([cp] ++ o), (k + k1)%nat. apply (eats_stops _ _ _ _ _ _ (R Fatal) _ _ _ _ X).
      * right. exists ([cp] ++ o), c1, (k + k1)%nat. split; [apply (eats_app _ _ _ _ _ _ (R Fatal) _ _ _ _ X)|exact Y].
  - apply Forall_app in F as [_ F]. rewrite app_length in L.
    assert (0 < length sub)%nat by (destruct sub; [congruence|cbn; lia]).
    destruct (IH rest ltac:(lia) F) as (its & D & G & B). exists (None :: its).
    split; [now constructor|]. split.
    + intros m Hm. assert (Hg : goes m (Error no_cp) = true).
      { destruct Hm as [Hm|Hm]; [exact Hm|]. destruct Hm. now left. }
      destruct (G m (or_introl Hg)) as (o & c1 & k1 & oe & ke & X & Y & Z).
      destruct R as [b -> R|c2 k b t -> R1 R2|c2 c3 k -> R1 R2 R3].
      * exists (emit m (Error no_cp) ++ o), c1, (1 + k1)%nat, oe, ke.
        split; [exact (eats_cons m D0 b rest _ _ [] _ _ _ R Hg X)|]. split; [exact Y|].
        rewrite <- app_assoc, Z. reflexivity.
      * exists ([] ++ emit m (Error no_cp) ++ o), c1, (k + S k1)%nat, oe, ke.
        split; [apply (eats_app _ _ _ _ _ _ (R1 m)); exact (eats_cons m c2 b t _ _ [b] _ _ _ R2 Hg X)|].
        split; [exact Y|]. cbn [app]. rewrite <- app_assoc, Z. reflexivity.
      * inversion D; subst.
        2:{ exfalso. match goal with H : utf8_spec _ ++ _ = [] |- _ => apply app_eq_nil in H as [H ?] end.
            match goal with S : scalar ?cp, H : utf8_spec ?cp = [] |- _ =>
              destruct (utf8_shape cp S) as [(a & E & _)|[(a & b & E & _)|[(a & b & c & E & _)|(a & b & c & d & E & _)]]] end;
            congruence. }
        2:{ exfalso. destruct sub0; [congruence|discriminate]. }
        exists [], c2, k, (emit m (Error no_cp) ++ []), 1%nat. rewrite app_nil_r. split; [apply R1|].
        split; [|reflexivity].
        eapply ends_step with (t := []); [intros q; cbn [app]; apply R2|exact Hg|now left|].
        apply ends_fin, R3.
    + intros _. destruct R as [b -> R|c2 k b t -> R1 R2|c2 c3 k -> R1 R2 R3].
      * left. exists [], 0%nat. eapply stops_res; [exact R|reflexivity].
      * left. exists ([] ++ []), (k + 0)%nat. apply (eats_stops _ _ _ _ _ _ (R1 Fatal)).
        eapply stops_res; [exact R2|reflexivity].
      * right. exists [], c2, k. rewrite app_nil_r. split; [apply R1|].
        eapply ends_err with (t := []); [intros q; cbn [app]; apply R2|reflexivity|now left].
Qed.
