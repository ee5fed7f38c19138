(** Lemmas for M_url: hosts and encoded text that the parser gives. *)
From Coq Require Import String.
From Coq Require Import ZArith List Bool Lia.
From Verif Require Import M_unicode M_infra M_percent M_ip M_encoding M_labels M_url.
From Verif Require Import L_unicode L_encoding L_url L_url2 L_url3 L_url4 L_url5 L_url6 L_url7 L_url8 L_url9.
From Verif Require L_percent L_ip.
Import ListNotations.
Open Scope string_scope.
Open Scope list_scope.
Open Scope Z_scope.

(** * Encoded text is outside the set *)

Lemma pe_chars set s : Forall scalar s -> Forall (fun c => (set c = false /\ 0 <= c < 256) \/ c = 0x25 \/ 0x30 <= c <= 0x39 \/ 0x41 <= c <= 0x46) (pe set s).
Proof.
  induction 1 as [|c s Hc _ IH]; [constructor|]. rewrite pe_cons. apply Forall_app. split; [|exact IH]. unfold pe. cbn [flat_map]. rewrite app_nil_r.
  pose proof (utf8_spec_bytes c Hc) as B. induction B as [|b l Hb _ IHb]; [constructor|]. cbn [flat_map]. apply Forall_app. split; [|exact IHb].
  assert (Hh : forall d, 0 <= d < 16 -> 0x30 <= L_percent.hex_char d <= 0x39 \/ 0x41 <= L_percent.hex_char d <= 0x46).
  { intros d Hd. unfold L_percent.hex_char. destruct (Z.ltb_spec d 10); lia. }
  destruct (set b) eqn:E.
  - apply Forall_cons; [right; now left|]. apply Forall_cons; [right; right; apply Hh; split; [apply Z.div_pos; lia|apply Z.div_lt_upper_bound; lia]|].
    apply Forall_cons; [right; right; apply Hh; apply Z.mod_pos_bound; lia|constructor].
  - apply Forall_cons; [left; auto|constructor].
Qed.
Definition keeps_escapes (set : Z -> bool) : Prop := set 0x25 = false /\ forall c, 0x30 <= c <= 0x39 \/ 0x41 <= c <= 0x46 -> set c = false.
Lemma pe_out set s : keeps_escapes set -> Forall scalar s -> outside set (pe set s).
Proof.
  intros [K1 K2] S. pose proof (pe_chars set s S) as F. revert F. apply Forall_impl. intros c [[H _]|[->|H]]; auto.
Qed.
Lemma one_of_no l c : (forall x, In x l -> x <> c) -> one_of l c = false.
Proof. intros H. unfold one_of. apply not_true_iff_false. intros X. apply existsb_exists in X as (x & I & E). apply Z.eqb_eq in E. apply (H x I). now symmetry. Qed.
Ltac esc := split; [reflexivity|]; intros c H; unfold is_userinfo_percent_encode_set, is_path_percent_encode_set, is_fragment_percent_encode_set, is_special_query_percent_encode_set,
  is_query_percent_encode_set, is_c0_control_percent_encode_set, is_c0_control;
  rewrite ?one_of_no by (cbn [In]; intros x X; lia); lia.
Lemma keeps_c0 : keeps_escapes is_c0_control_percent_encode_set. Proof. esc. Qed.
Lemma keeps_fragment : keeps_escapes is_fragment_percent_encode_set. Proof. esc. Qed.
Lemma keeps_query_set u : keeps_escapes (query_set u). Proof. unfold query_set. destruct (is_special u); esc. Qed.
Lemma keeps_path : keeps_escapes is_path_percent_encode_set. Proof. esc. Qed.
Lemma keeps_userinfo : keeps_escapes is_userinfo_percent_encode_set. Proof. esc. Qed.

Lemma pe_nonempty set s : s <> [] -> pe set s <> [].
Proof.
  destruct s as [|c s]; [congruence|]. intros _. rewrite pe_cons. unfold pe at 1. cbn [flat_map]. rewrite app_nil_r. unfold utf8_spec.
  destruct (c <? 0x80); [|destruct (c <? 0x800); [|destruct (c <? 0x10000)]]; cbn [flat_map]; destruct (set _); discriminate.
Qed.

Lemma utf8_high c : scalar c -> 0x80 <= c -> Forall (fun b => 0x80 <= b < 256) (utf8_spec c).
Proof.
  intros S H. pose proof (utf8_spec_bytes c S) as B. unfold scalar in S. unfold utf8_spec in *. replace (c <? 0x80) with false in * by lia.
  assert (D : forall a b, 0 < b -> 0 <= a -> 0 <= a / b) by (intros; apply Z.div_pos; lia). assert (M : forall a b, 0 < b -> 0 <= a mod b) by (intros a b Hb; pose proof (Z.mod_pos_bound a b Hb); lia).
  rewrite Forall_forall in *. intros x X. specialize (B x X). split; [|lia]. destruct (c <? 0x800); [|destruct (c <? 0x10000)]; cbn [In] in X;
  repeat (destruct X as [X|X]; [rewrite <- X; pose proof (D c 64 ltac:(lia) ltac:(lia)); pose proof (D c 4096 ltac:(lia) ltac:(lia)); pose proof (D c 262144 ltac:(lia) ltac:(lia));
    pose proof (M c 64 ltac:(lia)); pose proof (M (c / 64) 64 ltac:(lia)); pose proof (M (c / 4096) 64 ltac:(lia)); lia|]); destruct X.
Qed.

(** * Addresses that the parsers give *)

Lemma upd16_ok a i v : List.length a = 8%nat -> (i < 8)%nat -> Forall (fun p => 0 <= p < 65536) a -> List.length (upd16 a i v) = 8%nat /\ Forall (fun p => 0 <= p < 65536) (upd16 a i v).
Proof.
  intros L I F. unfold upd16. split.
  - rewrite app_length, firstn_length. cbn [List.length]. rewrite skipn_length. lia.
  - apply Forall_app. split; [rewrite Forall_forall in *; intros x X; apply F; rewrite <- (firstn_skipn i a); apply in_or_app; now left|]. constructor; [apply Z.mod_pos_bound; lia|]. rewrite Forall_forall in *. intros x X. apply F. rewrite <- (firstn_skipn (S i) a). apply in_or_app. now right.
Qed.
Lemma swaps_ok k : forall a i c s, List.length a = 8%nat -> Forall (fun p => 0 <= p < 65536) a -> (i < 8)%nat -> (c + s <= 8)%nat ->
  List.length (ipv6_swaps k a i c s) = 8%nat /\ Forall (fun p => 0 <= p < 65536) (ipv6_swaps k a i c s).
Proof.
  induction k as [|k IH]; intros a i c s L F I C; cbn [ipv6_swaps]; [auto|]. destruct (Nat.eqb i 0 || Nat.eqb s 0) eqn:E; [auto|].
  apply orb_false_elim in E as [_ E]. apply Nat.eqb_neq in E. destruct (upd16_ok a i (nth (c + s - 1) a 0) L I F) as [L1 F1].
  destruct (upd16_ok (upd16 a i (nth (c + s - 1) a 0)) (c + s - 1) (nth i a 0) L1 ltac:(lia) F1) as [L2 F2]. apply IH; auto; lia.
Qed.
Lemma ipv6_loop_ok f : forall s a i c e h e', List.length a = 8%nat -> Forall (fun p => 0 <= p < 65536) a -> (i <= 8)%nat -> match c with Some c => (c <= i)%nat | None => True end ->
  ipv6_loop f s a i c e = Some (h, e') -> h = HNone \/ exists b, h = HIpv6 b /\ List.length b = 8%nat /\ Forall (fun p => 0 <= p < 65536) b.
Proof.
  assert (Fin : forall a i c e h e', List.length a = 8%nat -> Forall (fun p => 0 <= p < 65536) a -> (i <= 8)%nat -> match c with Some c => (c <= i)%nat | None => True end ->
    ipv6_finish a i c e = Some (h, e') -> h = HNone \/ exists b, h = HIpv6 b /\ List.length b = 8%nat /\ Forall (fun p => 0 <= p < 65536) b).
  { intros a i c e h e' L F I C H. unfold ipv6_finish in H. destruct c as [c|].
    - assert (E : h = HIpv6 (ipv6_swaps 8 a 7 c (i - c))) by congruence. rewrite E. right. eexists. split; [reflexivity|]. apply swaps_ok; [exact L|exact F|lia|lia].
    - destruct (Nat.eqb i 8); injection H as <- _; [right; eexists; split; [reflexivity|auto]|now left]. }
  induction f as [|f IH]; intros s a i c e h e' L F I C H.
  - destruct s as [|x s]; cbn [ipv6_loop] in H; [eapply Fin; eauto|discriminate H].
  - destruct s as [|x s]; cbn [ipv6_loop] in H; [eapply Fin; eauto|]. destruct (Nat.eqb i 8) eqn:E8; [injection H as <- _; now left|]. apply Nat.eqb_neq in E8.
    destruct (x =? 0x3A).
    + destruct c as [c|]; [injection H as <- _; now left|]. eapply IH in H; eauto; lia.
    + destruct (hex4 4 (x :: s) 0 0) as [[v n] r]. destruct (upd16_ok a i v L ltac:(lia) F) as [L1 F1]. destruct r as [|d r].
      * eapply IH in H; eauto; [lia|]. destruct c; lia.
      * destruct (d =? 0x2E).
        { destruct (Nat.eqb n 0); [injection H as <- _; now left|]. destruct (6 <? i)%nat; [injection H as <- _; now left|]. destruct (embedded_ipv4 _); [injection H as <- _; now left|discriminate H]. }
        destruct (d =? 0x3A); [|injection H as <- _; now left]. destruct r as [|d' r]; [injection H as <- _; now left|]. eapply IH in H; eauto; [lia|]. destruct c; lia.
Qed.
Lemma parse_ipv6_ok s e h e' : parse_ipv6 s e = Some (h, e') -> h = HNone \/ exists b, h = HIpv6 b /\ List.length b = 8%nat /\ Forall (fun p => 0 <= p < 65536) b.
Proof.
  assert (Z8 : Forall (fun p => 0 <= p < 65536) (repeat 0 8)) by (cbn [repeat]; repeat constructor; lia).
  unfold parse_ipv6. destruct s as [|c r]; [intros H; eapply ipv6_loop_ok in H; eauto; lia|]. destruct (c =? 0x3A).
  - destruct r as [|d r]; [intros H; injection H as <- _; now left|]. destruct (d =? 0x3A); [|intros H; injection H as <- _; now left]. intros H. eapply ipv6_loop_ok in H; eauto; cbn; lia.
  - intros H. eapply ipv6_loop_ok in H; eauto. lia.
Qed.

Lemma digits_prefix_nonneg base s : 0 <= base -> forall v n, 0 <= v -> 0 <= fst (digits_prefix base s v n).
Proof.
  intros B. induction s as [|c s IH]; intros v n V; cbn [digits_prefix fst]; [exact V|]. destruct (digit_val c) as [d|] eqn:D; [|exact V].
  destruct (d <? base); [|exact V]. apply IH. assert (0 <= d); [|nia]. unfold digit_val in D.
  repeat match type of D with (if ?b then _ else _) = _ => destruct b eqn:? end; try discriminate D; injection D as <-; lia.
Qed.
Lemma parse_number_nonneg s n v : parse_ipv4_number s = Some (Some n, v) -> 0 <= n.
Proof.
  unfold parse_ipv4_number. intros H.
  assert (F : forall R s0, 0 <= R -> from_chars R (2 ^ 32 - 1) s0 = Some n -> 0 <= n).
  { intros R s0 HR E. unfold from_chars in E. pose proof (digits_prefix_nonneg R s0 HR 0 0 ltac:(lia)) as P. destruct (digits_prefix R s0 0 0) as [w [|k]]; [discriminate E|].
    cbn [fst] in P. destruct (w <=? _); [|discriminate E]. injection E as <-. exact P. }
  assert (G : forall (ve : bool) s0 R, 0 <= R -> match s0 with [] => Some (None, ve) | _ :: _ => if all_in (if R =? 8 then set8 else if R =? 10 then set10 else set16) s0
      then match from_chars R (2 ^ 32 - 1) s0 with Some i => Some (Some i, ve) | None => None end else Some (None, ve) end = Some (Some n, v) -> 0 <= n).
  { intros ve s0 R HR E. destruct s0 as [|c s0]; [discriminate E|]. destruct (all_in _ _); [|discriminate E]. destruct (from_chars R (2 ^ 32 - 1) (c :: s0)) as [i|] eqn:E2; [|discriminate E].
    injection E as -> _. exact (F R _ HR E2). }
  destruct s as [|a [|b r]]; [apply (G false [] 10) in H; lia|apply (G false [a] 10) in H; lia|].
  destruct ((a =? 0x30) && _); [apply (G true r 16) in H; lia|]. destruct (a =? 0x30); [apply (G true (b :: r) 8) in H; lia|apply (G false (a :: b :: r) 10) in H; lia].
Qed.
Lemma numbers_nonneg parts : forall ve ns r v, Forall (fun n => 0 <= n) ns -> ipv4_numbers parts ve ns = Some (Some (r, v)) -> Forall (fun n => 0 <= n) r.
Proof.
  induction parts as [|x parts IH]; intros ve ns r v F H; cbn [ipv4_numbers] in H; [now injection H as <- _|]. destruct x as [|c x]; [discriminate H|].
  destruct (parse_ipv4_number (c :: x)) as [[[n|] e]|] eqn:E; try discriminate H. apply IH in H; [exact H|]. apply Forall_app. split; [exact F|]. constructor; [eapply parse_number_nonneg; eauto|constructor].
Qed.
Lemma sum_range l : forall c acc, 0 <= acc < 2 ^ 32 -> 0 <= ipv4_sum l c acc < 2 ^ 32.
Proof. induction l as [|n l IH]; intros c acc H; cbn [ipv4_sum]; [exact H|]. apply IH. unfold uint32. apply Z.mod_pos_bound. lia. Qed.
Lemma parse_ipv4_ok s e h e' : parse_ipv4 s e = Some (h, e') -> h = HNone \/ h = HOpaque s \/ exists n, h = HIpv4 n /\ 0 <= n < 2 ^ 32.
Proof.
  unfold parse_ipv4. destruct (strictly_split utf32 0x2E s) as [parts|]; [|discriminate]. destruct (match rev parts with [] :: r => _ | _ => _ end) as [parts' ve].
  destruct (4 <? List.length parts')%nat; [intros H; injection H as <- _; auto|]. destruct (ipv4_numbers parts' ve []) as [[[ns v]|]|] eqn:E; [|intros H; injection H as <- _; auto|discriminate].
  pose proof (numbers_nonneg _ _ _ _ _ (Forall_nil _) E) as F. destruct (rev ns) as [|l r] eqn:Er; [discriminate|]. destruct (existsb _ (rev r)); [intros H; injection H as <- _; auto|].
  destruct (256 ^ (5 - Z.of_nat (List.length ns)) <=? l) eqn:El; [intros H; injection H as <- _; auto|]. intros H. injection H as <- _. right. right. eexists. split; [reflexivity|].
  assert (En : ns = rev r ++ [l]) by (rewrite <- (rev_involutive ns), Er; reflexivity).
  assert (L0 : 0 <= l). { rewrite Forall_forall in F. apply F. rewrite En. apply in_or_app. right. now left. }
  assert (L1 : l < 2 ^ 32).
  { assert (1 <= Z.of_nat (List.length ns)) by (rewrite En, app_length; cbn [List.length]; lia).
    assert (256 ^ (5 - Z.of_nat (List.length ns)) <= 256 ^ 4). { destruct (Z_le_gt_dec 0 (5 - Z.of_nat (List.length ns))); [apply Z.pow_le_mono_r; lia|]. rewrite Z.pow_neg_r by lia. cbn. lia. }
    change (256 ^ 4) with (2 ^ 32) in *. lia. }
  apply sum_range. lia.
Qed.

(** * Hosts that the host parser gives *)

(** A host, without the condition on the place of the zeros of an IPv6 address. *)
Definition weak_host (idna : list Z -> option (list Z)) (special : bool) (h : host) : Prop :=
  match h with
  | HIpv6 a => List.length a = 8%nat /\ Forall (fun p => 0 <= p < 65536) a
  | _ => good_host idna special h
  end.

(** What is asked of the ToASCII operation. *)
Definition idna_fine (idna : list Z -> option (list Z)) : Prop :=
  (forall x y, idna x = Some y -> y <> [] /\ Forall (fun c => 0 <= c < 0x80) y /\ idna y = Some y) /\
  (forall n, 0 <= n < 2 ^ 32 -> idna (serialize_ipv4 n) = Some (serialize_ipv4 n)).

Lemma host_sound idna fuel s special h : idna_fine idna -> Forall scalar s -> (List.length s < fuel)%nat -> parse_host idna fuel s (negb special) = Val h -> h <> HNone ->
  weak_host idna special h /\ (s <> [] -> h <> HOpaque []).
Proof.
  intros [I1 I2] S L H N.
  assert (Op : special = false -> parse_opaque_host fuel s = Val h -> weak_host idna special h /\ (s <> [] -> h <> HOpaque [])).
  { intros -> E. unfold parse_opaque_host in E. destruct (existsb _ s) eqn:X; [congruence|]. rewrite pe_spec in E by assumption. cbn [obind] in E. injection E as <-.
    split; [|intros Ns C; injection C as C; now apply (pe_nonempty is_c0_control_percent_encode_set s Ns)].
    split; [reflexivity|]. assert (Fb : forall c, In c s -> is_forbidden_host_code_point c = false \/ c = 0x25).
    { intros c C. rewrite <- not_true_iff_false in X. destruct (is_forbidden_host_code_point c) eqn:Fc; [|auto]. right. destruct (c =? 0x25) eqn:P; [lia|]. exfalso. apply X. apply existsb_exists. exists c. now rewrite Fc, P. }
    clear - Fb S. induction S as [|c s Hc _ IH]; [constructor|]. rewrite pe_cons. apply Forall_app. split; [|apply IH; intros x X; apply Fb; now right].
    specialize (Fb c (or_introl eq_refl)). assert (Hx : forall x, x = 0x25 \/ 0x30 <= x <= 0x39 \/ 0x41 <= x <= 0x46 -> 0x20 <= x <= 0x7E /\ (is_forbidden_host_code_point x = false \/ x = 0x25)).
    { intros x Hx. split; [lia|]. destruct Hx as [->|Hx]; [now right|]. left. apply one_of_no. cbn [In]. intros y Y. lia. }
    pose proof (pe_chars is_c0_control_percent_encode_set [c] (Forall_cons _ Hc (Forall_nil _))) as P. destruct (Z_lt_ge_dec c 0x80) as [Lc|Lc].
    - assert (E : utf8_spec c = [c]) by (unfold utf8_spec; replace (c <? 0x80) with true by lia; reflexivity).
      unfold pe in *. cbn [flat_map] in *. rewrite app_nil_r in *. rewrite E in *. cbn [flat_map] in *. rewrite app_nil_r in *. destruct (is_c0_control_percent_encode_set c) eqn:Ec.
      + apply Forall_forall. intros x X. rewrite Forall_forall in P. destruct (P x X) as [[A B]|A]; [|apply Hx; exact A]. apply Hx. destruct X as [<-|[<-|[<-|[]]]]; [now left| |]; right;
        assert (Hh : forall d, 0 <= d < 16 -> 0x30 <= L_percent.hex_char d <= 0x39 \/ 0x41 <= L_percent.hex_char d <= 0x46) by (intros d Hd; unfold L_percent.hex_char; destruct (Z.ltb_spec d 10); lia);
        unfold scalar in Hc; apply Hh; [split; [apply Z.div_pos; lia|apply Z.div_lt_upper_bound; lia]|apply Z.mod_pos_bound; lia].
      + constructor; [|constructor]. split; [exact (covers_c0 c Ec)|exact Fb].
    - assert (Fz : Forall (fun x => x = 0x25 \/ 0x30 <= x <= 0x39 \/ 0x41 <= x <= 0x46) (pe is_c0_control_percent_encode_set [c])).
      { unfold pe. cbn [flat_map]. rewrite app_nil_r. assert (B : Forall (fun b => 0x80 <= b < 256) (utf8_spec c)) by (apply utf8_high; assumption || lia).
        clear - B. induction B as [|b l Hb _ IH]; [constructor|]. cbn [flat_map]. replace (is_c0_control_percent_encode_set b) with true by (unfold is_c0_control_percent_encode_set, is_c0_control; lia).
        assert (Hh : forall d, 0 <= d < 16 -> 0x30 <= L_percent.hex_char d <= 0x39 \/ 0x41 <= L_percent.hex_char d <= 0x46) by (intros d Hd; unfold L_percent.hex_char; destruct (Z.ltb_spec d 10); lia).
        cbn [app]. apply Forall_cons; [now left|]. apply Forall_cons; [right; apply Hh; split; [apply Z.div_pos; lia|apply Z.div_lt_upper_bound; lia]|]. apply Forall_cons; [right; apply Hh; apply Z.mod_pos_bound; lia|exact IH]. }
      revert Fz. apply Forall_impl. exact Hx. }
  destruct s as [|c r]; cbn [parse_host] in H.
  - destruct special; cbn [negb] in H; [discriminate H|]. auto.
  - destruct (c =? 0x5B).
    + destruct (last (c :: r) 0 =? 0x5D); [|congruence]. destruct (parse_ipv6 (removelast r) EcNone) as [[h' e]|] eqn:E; [|discriminate H]. cbn [of_option obind fst] in H. injection H as <-.
      apply parse_ipv6_ok in E as [->|(b & -> & Lb & Fb)]; [congruence|]. split; [split; assumption|discriminate].
    + destruct special; cbn [negb] in H; [|auto]. unfold parse_domain in H.
      destruct (string_percent_decode fuel (c :: r)) as [bytes| |]; try discriminate H. cbn [obind] in H. destruct (utf8_decode_without_bom fuel (to_queue bytes) []) as [[[[x1 x2] x3] out]| |]; try discriminate H. cbn [obind] in H.
      destruct (idna (from_queue out)) as [y|] eqn:Ey; [|congruence]. destruct (I1 _ _ Ey) as (Ny & Ay & Iy). destruct (existsb is_forbidden_host_code_point y) eqn:Xf; [congruence|].
      destruct (parse_ipv4 y EcNone) as [[h4 e4]|] eqn:E4; [|discriminate H]. cbn [of_option obind] in H. destruct (parse_ipv4_ok _ _ _ _ E4) as [->|[->|(n & -> & Hn)]].
      * congruence.
      * injection H as <-. split; [|discriminate]. split; [reflexivity|]. split; [exact Ny|]. split; [|split; [exact Iy|eauto]]. apply Forall_forall. intros x X. rewrite Forall_forall in Ay. split; [auto|].
        rewrite <- not_true_iff_false in Xf. apply not_true_iff_false. intros C. apply Xf. apply existsb_exists. eauto.
      * injection H as <-. split; [|discriminate]. split; [reflexivity|]. split; [exact Hn|]. apply I2, Hn.
Qed.
