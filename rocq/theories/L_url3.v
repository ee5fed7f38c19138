(** Lemmas for M_url: totality of the host parser and of the entry points. *)
From Coq Require Import String.
From Coq Require Import ZArith List Bool Lia.
From Verif Require Import M_unicode M_infra M_percent M_ip M_encoding M_labels M_url.
From Verif Require Import L_unicode L_url L_url2.
Import ListNotations.
Open Scope list_scope.
Open Scope Z_scope.

(** The host parser ends; it is undefined only where one of the two address parsers is. *)
Lemma parse_host_ends idna fuel s b : Forall scalar s -> (8 * List.length s < fuel)%nat -> b = true \/ s <> [] ->
  (exists h, parse_host idna fuel s b = Val h) \/
  (parse_host idna fuel s b = Bad /\
   ((exists x a, idna x = Some a /\ parse_ipv4 a EcNone = None) \/ (exists t, s = 0x5B :: t ++ [0x5D] /\ parse_ipv6 t EcNone = None))).
Proof.
  intros S L N. destruct s as [|c r].
  { left. destruct N as [->|N]; [|congruence]. cbn [parse_host]. unfold parse_opaque_host. cbn [existsb].
    rewrite pe_spec by (exact S || lia). eexists. reflexivity. }
  cbn [parse_host]. destruct (c =? 0x5B) eqn:C.
  { apply Z.eqb_eq in C. subst c. destruct (last (0x5B :: r) 0 =? 0x5D) eqn:E; [|left; eexists; reflexivity].
    apply Z.eqb_eq in E. destruct r as [|r0 r]; [discriminate E|]. change (last (0x5B :: r0 :: r) 0) with (last (r0 :: r) 0) in E.
    pose proof (app_removelast_last 0 (l := r0 :: r) ltac:(discriminate)) as A. rewrite E in A.
    destruct (parse_ipv6 (removelast (r0 :: r)) EcNone) as [x|] eqn:P; [left; eexists; reflexivity|].
    right. split; [reflexivity|]. right. exists (removelast (r0 :: r)). split; [now rewrite <- A|exact P]. }
  destruct b.
  { left. unfold parse_opaque_host. destruct (existsb _ _); [eexists; reflexivity|]. cbn [List.length] in L.
    rewrite pe_spec by (exact S || cbn [List.length]; lia). eexists. reflexivity. }
  unfold parse_domain. destruct (spd_total fuel (c :: r) S ltac:(lia)) as (bs & -> & Lb). cbn [obind].
  destruct (decode_total fuel bs ltac:(lia)) as [[[[r1 r2] r3] out] ->]. cbn [obind].
  destruct (idna (from_queue out)) as [a|] eqn:I; [|left; eexists; reflexivity]. destruct (existsb _ _); [left; eexists; reflexivity|].
  destruct (parse_ipv4 a EcNone) as [[h e]|] eqn:P.
  - left. cbn [of_option obind]. destruct h; eexists; reflexivity.
  - right. split; [reflexivity|]. left. exists (from_queue out), a. split; assumption.
Qed.

(** The host of a special URL is a domain or an address, and is an address only in the two obvious ways. *)
Lemma parse_host_address idna fuel s h : parse_host idna fuel s false = Val h -> is_address h ->
  (exists t, s = 0x5B :: t ++ [0x5D]) \/ (exists x a n e, idna x = Some a /\ parse_ipv4 a EcNone = Some (HIpv4 n, e)).
Proof.
  intros H A. destruct s as [|c r]; cbn [parse_host] in H; [discriminate H|]. destruct (c =? 0x5B) eqn:C.
  { left. apply Z.eqb_eq in C. subst c. destruct (last (0x5B :: r) 0 =? 0x5D) eqn:E; [|injection H as <-; destruct A].
    apply Z.eqb_eq in E. destruct r as [|r0 r]; [discriminate E|]. change (last (0x5B :: r0 :: r) 0) with (last (r0 :: r) 0) in E.
    exists (removelast (r0 :: r)). f_equal. rewrite <- E. apply app_removelast_last. discriminate. }
  right. unfold parse_domain in H. destruct (string_percent_decode _ _) as [bs| |]; try discriminate H. cbn [obind] in H.
  destruct (utf8_decode_without_bom _ _ _) as [[[[r1 r2] r3] out]| |]; try discriminate H. cbn [obind] in H.
  destruct (idna (from_queue out)) as [a|] eqn:I; [|injection H as <-; destruct A]. destruct (existsb _ _); [injection H as <-; destruct A|].
  destruct (parse_ipv4 a EcNone) as [[h4 e]|] eqn:P; [|discriminate H]. cbn [of_option obind] in H.
  destruct h4; injection H as <-; try (now destruct A). exists (from_queue out), a, n, e. split; assumption.
Qed.

(** * When the address parsers are defined *)

Lemma hex4_suffix k : forall s v n v' n' r, hex4 k s v n = (v', n', r) -> exists a, s = a ++ r /\ (List.length a + n = n')%nat.
Proof.
  induction k as [|k IH]; intros s v n v' n' r H; cbn [hex4] in H.
  - injection H as <- <- <-. exists []. split; reflexivity.
  - destruct s as [|c s]; [injection H as <- <- <-; exists []; split; reflexivity|].
    destruct (is_ascii_hex_digit c); [|injection H as <- <- <-; exists []; split; reflexivity].
    destruct (IH _ _ _ _ _ _ H) as (a & -> & L). exists (c :: a). split; [reflexivity|]. cbn. lia.
Qed.

Lemma ipv6_loop_total f : forall s a i c e, (List.length s <= f)%nat -> ~ In 0x2E s -> ipv6_loop f s a i c e <> None.
Proof.
  assert (Fin : forall a i c e, ipv6_finish a i c e <> None).
  { intros. unfold ipv6_finish. destruct c; [discriminate|]. destruct (Nat.eqb _ _); discriminate. }
  induction f as [|f IH]; intros s a i c e L D; destruct s as [|x s]; cbn [List.length] in L; try lia; cbn [ipv6_loop].
  { apply Fin. }
  { apply Fin. }
  destruct (Nat.eqb i 8); [discriminate|]. destruct (x =? 0x3A).
  { destruct c; [discriminate|]. apply IH; [lia|]. intros G. apply D. now right. }
  destruct (hex4 4 (x :: s) 0 0) as [[v n] r] eqn:H. destruct (hex4_suffix _ _ _ _ _ _ _ H) as (p & E & Lp).
  destruct r as [|d r].
  { destruct f; apply Fin. }
  assert (In d (x :: s)) as Id. { rewrite E. apply in_or_app. right. now left. }
  destruct (d =? 0x2E) eqn:D2; [apply Z.eqb_eq in D2; subst d; contradiction|].
  destruct (d =? 0x3A); [|discriminate]. destruct r as [|d2 r]; [discriminate|]. apply IH.
  - apply (f_equal (@List.length Z)) in E. rewrite app_length in E. cbn [List.length] in E |- *. lia.
  - intros G. apply D. rewrite E. apply in_or_app. right. now right.
Qed.

Lemma parse_ipv6_total s e : ~ In 0x2E s -> parse_ipv6 s e <> None.
Proof.
  intros D. unfold parse_ipv6. destruct s as [|c r]; [apply ipv6_loop_total; [cbn; lia|exact D]|].
  destruct (c =? 0x3A); [|apply ipv6_loop_total; [reflexivity|exact D]].
  destruct r as [|d r]; [discriminate|]. destruct (d =? 0x3A); [|discriminate]. apply ipv6_loop_total; [cbn; lia|].
  intros G. apply D. now do 2 right.
Qed.

(** * The entry points *)

(** The inputs on which the run is undefined are among these. *)
Definition trouble (idna : list Z -> option (list Z)) (input : list Z) (base : option url) (over : option pstate) (u0 : url) : Prop :=
  (exists x a, idna x = Some a /\ parse_ipv4 a EcNone = None) \/
  (exists t, piece input over (0x5B :: t ++ [0x5D]) /\ parse_ipv6 t EcNone = None) \/
  (file_possible input base u0 /\
    (In 0x5B input \/ exists x a n e, idna x = Some a /\ parse_ipv4 a EcNone = Some (HIpv4 n, e))) \/
  (over = Some SchemeStart /\ scheme u0 = lit "file" /\ uhost u0 = None).

Lemma run_ends idna input base over fuel u0 p steps :
  Forall scalar input -> (8 * List.length input + 8 < fuel)%nat -> (steps_bound input <= steps)%nat -> Inv input base over u0 p ->
  (exists r, run_loop idna input base over fuel steps p = Val r) \/
  (trouble idna input base over u0 /\ run_loop idna input base over fuel steps p = Bad).
Proof.
  intros S F St V.
  assert (PL : forall s, piece input over s -> (List.length s <= List.length input + 1)%nat).
  { intros s [(a & b & ->)|(_ & c & r & b & E & E2)].
    - rewrite !app_length. lia.
    - apply (f_equal (@List.length Z)) in E2. rewrite app_length in E2. cbn [List.length] in E2. lia. }
  apply (loop_total idna input base over fuel u0).
  - exact S.
  - lia.
  - intros s b Ps N. pose proof (PL s Ps).
    destruct (parse_host_ends idna fuel s b (piece_scalar input over S s Ps) ltac:(lia) N) as [H1|[H1 H2]]; [left; exact H1|right].
    split; [|exact H1]. destruct H2 as [H2|(t & E & H2)]; [left; exact H2|right; left]. exists t. split; [now rewrite <- E|exact H2].
  - intros s h Ps Ph Fp A. right. right. left. split; [exact Fp|].
    destruct (parse_host_address _ _ _ _ Ph A) as [(t & E)|K]; [left|right; exact K].
    subst s. destruct Ps as [(a & b & ->)|(_ & c & r & b & E & E2)].
    + apply in_or_app. right. now left.
    + cbn [app] in E2. injection E2 as -> E3. rewrite E. now left.
  - intros O Fs Hn. do 3 right. auto.
  - exact V.
  - pose proof (bound_enough input base over fuel u0 ltac:(lia) p V). lia.
Qed.

Lemma out_utf8 : get_output_encoding_name UTF_8 = UTF_8.
Proof. reflexivity. Qed.

Lemma start_parse input base : Inv input base None empty_url (start None UTF_8 empty_url).
Proof.
  constructor; cbn [start p_pointer p_enc p_url p_state empty_url scheme].
  - unfold size. lia.
  - reflexivity.
  - discriminate.
  - cbn. split; [reflexivity|]. split; [reflexivity|]. congruence.
  - exact I.
Qed.

(** The states the class passes to the parser. *)
Definition starts_from (u : url) (o : pstate) : Prop :=
  match o with
  | SchemeStart | Host | Hostname | Port | PathStart => True
  | Query => query u <> None
  | Fragment => fragment u <> None
  | _ => False
  end.

Lemma start_modify input u o : starts_from u o -> Inv input None (Some o) u (start (Some o) UTF_8 u).
Proof.
  intros H. constructor; cbn [start p_pointer p_enc p_url p_state].
  - unfold size. lia.
  - reflexivity.
  - intros F. right. now left.
  - destruct o; cbn in H |- *; try (now destruct H).
    + split; [exists []; reflexivity|]. intros; split; reflexivity.
    + split; [exists []; reflexivity|]. intros; split; reflexivity.
    + split; [constructor|]. split; [lia|exact H].
    + split; [reflexivity|exact H].
  - destruct o; cbn in H |- *; try (now destruct H); exact I.
Qed.
