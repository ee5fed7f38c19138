(** Lemmas for M_ip. *)
From Coq Require Import ZArith List Bool Lia ZifyBool.
From Verif Require Import M_unicode L_unicode M_infra L_infra M_percent L_percent M_ip.
Import ListNotations.
Open Scope Z_scope.

(** * IPv4 round trip *)

Lemma enc_utf32 s : Forall (fun c => 0 <= c < 2 ^ 32) s -> enc utf32 s = Some s /\ Forall (ok_cp utf32) s.
Proof.
  induction 1 as [|c s Hc Hs [IH1 IH2]]; [split; [reflexivity|constructor]|].
  pose proof (ok_utf32 c Hc) as Hok. split; [|constructor; auto].
  cbn [enc]. rewrite IH1. reflexivity.
Qed.

Lemma enc_all_utf32 l : Forall (Forall (fun c => 0 <= c < 2 ^ 32)) l -> enc_all utf32 l = Some l.
Proof.
  induction 1 as [|s l Hs Hl IH]; [reflexivity|]. cbn [enc_all]. rewrite IH.
  destruct (enc_utf32 s Hs) as [-> _]. reflexivity.
Qed.

Lemma Forall_join (P : Z -> Prop) d l : P d -> Forall (Forall P) l -> Forall P (join d l).
Proof.
  intros Hd H. induction H as [|w l Hw Hl IH]; [constructor|].
  destruct l as [|x l]; [exact Hw|]. change (Forall P (w ++ d :: join d (x :: l))).
  apply Forall_app. auto.
Qed.

Lemma split_u32 d l : 0 <= d < 2 ^ 32 -> l <> [] -> Forall (Forall (fun c => 0 <= c < 2 ^ 32)) l ->
  Forall (fun p => ~ In d p) l -> strictly_split utf32 d (join d l) = Some l.
Proof.
  intros Hd Hne Hl Hnd.
  destruct (enc_utf32 (join d l)) as [E1 E2]; [now apply Forall_join|].
  rewrite (strictly_split_enc utf32 d (join d l) (join d l) l); auto.
  now apply enc_all_utf32.
Qed.

Definition byte_text_ok (b : Z) : bool :=
  forallb (fun c => (0x30 <=? c) && (c <=? 0x39)) (to_chars 10 b) &&
  match parse_ipv4_number (to_chars 10 b) with Some (Some v, false) => v =? b | _ => false end &&
  match to_chars 10 b with [] => false | _ => true end.

Lemma byte_text b : 0 <= b < 256 ->
  Forall (fun c => 0x30 <= c <= 0x39) (to_chars 10 b) /\
  parse_ipv4_number (to_chars 10 b) = Some (Some b, false) /\ to_chars 10 b <> [].
Proof.
  intros H.
  assert (E : byte_text_ok b = true) by (revert b H; apply zrange_forall; vm_compute; reflexivity).
  unfold byte_text_ok in E. apply andb_prop in E. destruct E as [E E3]. apply andb_prop in E. destruct E as [E1 E2].
  split; [|split].
  - apply Forall_forall. intros c Hc. rewrite forallb_forall in E1. specialize (E1 c Hc). lia.
  - destruct (parse_ipv4_number _) as [[[v|] []]|]; try discriminate. apply Z.eqb_eq in E2. now subst.
  - destruct (to_chars 10 b); [discriminate|discriminate].
Qed.

Lemma serialize_ipv4_join n : serialize_ipv4 n =
  join 0x2E [to_chars 10 (n / 256 / 256 / 256 mod 256); to_chars 10 (n / 256 / 256 mod 256);
             to_chars 10 (n / 256 mod 256); to_chars 10 (n mod 256)].
Proof. unfold serialize_ipv4. cbn [serialize_ipv4_loop join]. now rewrite ?app_nil_r. Qed.

Lemma rev_cons_ne {A} (l : list A) x : rev (l ++ [x]) = x :: rev l.
Proof. apply rev_unit. Qed.

Lemma ipv4_roundtrip n e : 0 <= n < 2 ^ 32 -> parse_ipv4 (serialize_ipv4 n) e = Some (HIpv4 n, e).
Proof.
  intros Hn. rewrite serialize_ipv4_join.
  set (b3 := n / 256 / 256 / 256 mod 256). set (b2 := n / 256 / 256 mod 256).
  set (b1 := n / 256 mod 256). set (b0 := n mod 256).
  assert (H3 : 0 <= b3 < 256) by (apply Z.mod_pos_bound; lia).
  assert (H2 : 0 <= b2 < 256) by (apply Z.mod_pos_bound; lia).
  assert (H1 : 0 <= b1 < 256) by (apply Z.mod_pos_bound; lia).
  assert (H0 : 0 <= b0 < 256) by (apply Z.mod_pos_bound; lia).
  assert (Hsum : b0 + b1 * 256 + b2 * 65536 + b3 * 16777216 = n).
  { unfold b0, b1, b2, b3. zdiv. }
  destruct (byte_text b3 H3) as (T3 & P3 & N3). destruct (byte_text b2 H2) as (T2 & P2 & N2).
  destruct (byte_text b1 H1) as (T1 & P1 & N1). destruct (byte_text b0 H0) as (T0 & P0 & N0).
  clearbody b0 b1 b2 b3.
  unfold parse_ipv4. rewrite split_u32.
  2:{ lia. } 2:{ discriminate. }
  2:{ repeat constructor; eapply Forall_impl; try eassumption; cbn; intros; lia. }
  2:{ repeat constructor; intros Hin; match goal with H : Forall _ ?l, Hin : In _ ?l |- _ => rewrite Forall_forall in H; specialize (H _ Hin) end; lia. }
  cbn [rev app]. destruct (to_chars 10 b0) as [|c0 r0] eqn:E0; [congruence|]. cbn [length Nat.ltb Nat.leb].
  cbn [ipv4_numbers]. rewrite P3, P2, P1, P0.
  destruct (to_chars 10 b3); [congruence|]. destruct (to_chars 10 b2); [congruence|].
  destruct (to_chars 10 b1); [congruence|].
  cbn [app orb existsb rev length].
  replace (255 <? b3) with false by lia. replace (255 <? b2) with false by lia.
  replace (255 <? b1) with false by lia. replace (255 <? b0) with false by lia. cbn [orb].
  change (256 ^ (5 - Z.of_nat 4)) with 256. destruct (Z.leb_spec 256 b0); [lia|].
  do 3 f_equal. cbn [ipv4_sum]. unfold uint32.
  change (256 ^ (3 - 0)) with 16777216. change (256 ^ (3 - (0 + 1))) with 65536. change (256 ^ (3 - (0 + 1 + 1))) with 256.
  change (2 ^ 32) with 4294967296 in *.
  rewrite (Z.mod_small (b3 * 16777216)) by lia. rewrite (Z.mod_small (b0 + _)) by lia.
  rewrite (Z.mod_small (b2 * 65536)) by lia. rewrite (Z.mod_small (b0 + _ + _)) by lia.
  rewrite (Z.mod_small (b1 * 256)) by lia. rewrite Z.mod_small by lia. lia.
Qed.

(** * IPv4 numbers *)

(** [Dig base c d]: the character c is a digit of value d in that base. *)
Definition Dig (base c d : Z) : Prop :=
  0 <= d < base /\ ((c = 0x30 + d /\ d < 10) \/ (c = 0x61 + (d - 10) /\ 10 <= d < 36) \/ (c = 0x41 + (d - 10) /\ 10 <= d < 36)).

Lemma Dig_val base c d : Dig base c d -> digit_val c = Some d /\ (d <? base) = true.
Proof.
  unfold Dig. intros H. split; [|lia]. unfold digit_val.
  repeat match goal with |- context [if ?b then _ else _] => destruct b eqn:? end; try (f_equal; lia); lia.
Qed.

Lemma digits_prefix_dig base : forall s ds v n, Forall2 (Dig base) s ds ->
  digits_prefix base s v n = (value base ds v, (n + length ds)%nat).
Proof.
  intros s ds v n H. revert v n. induction H as [|c d s ds Hcd Hs IH]; intros v n; cbn [digits_prefix value length].
  - f_equal; lia.
  - destruct (Dig_val _ _ _ Hcd) as [-> ->]. rewrite IH. f_equal; lia.
Qed.

Lemma from_chars_dig base maxv s ds : Forall2 (Dig base) s ds -> ds <> [] -> value base ds 0 <= maxv ->
  from_chars base maxv s = Some (value base ds 0).
Proof.
  intros H Hne Hv. unfold from_chars. rewrite (digits_prefix_dig base s ds 0 0 H). cbn [Nat.add].
  destruct ds; [congruence|]. cbn [length]. destruct (Z.leb_spec (value base (z :: ds) 0) maxv); [reflexivity|lia].
Qed.

Lemma all_in_10 s ds : Forall2 (Dig 10) s ds -> all_in set10 s = true.
Proof.
  intros H. unfold all_in. apply forallb_forall. intros c Hc.
  assert (E : exists d, Dig 10 c d). { clear - H Hc. induction H; cbn in Hc; [tauto|]. destruct Hc as [<-|Hc]; eauto. }
  destruct E as [d E]. unfold Dig in E. unfold set10. cbn [existsb]. lia.
Qed.
Lemma all_in_8 s ds : Forall2 (Dig 8) s ds -> all_in set8 s = true.
Proof.
  intros H. unfold all_in. apply forallb_forall. intros c Hc.
  assert (E : exists d, Dig 8 c d). { clear - H Hc. induction H; cbn in Hc; [tauto|]. destruct Hc as [<-|Hc]; eauto. }
  destruct E as [d E]. unfold Dig in E. unfold set8. cbn [existsb]. lia.
Qed.
Lemma all_in_16 s ds : Forall2 (Dig 16) s ds -> all_in set16 s = true.
Proof.
  intros H. unfold all_in. apply forallb_forall. intros c Hc.
  assert (E : exists d, Dig 16 c d). { clear - H Hc. induction H; cbn in Hc; [tauto|]. destruct Hc as [<-|Hc]; eauto. }
  destruct E as [d E]. unfold Dig in E. unfold set16, set10. cbn [existsb app]. lia.
Qed.

Lemma number_decimal s ds : Forall2 (Dig 10) s ds -> ds <> [] -> (forall r, ds = 0 :: r -> r = []) ->
  value 10 ds 0 < 2 ^ 32 -> parse_ipv4_number s = Some (Some (value 10 ds 0), false).
Proof.
  intros H Hne Hlead Hv. unfold parse_ipv4_number.
  assert (E : (match s with
    | a :: b :: r =>
        if (a =? 0x30) && ((b =? 0x78) || (b =? 0x58)) then (true, r, 16)
        else if a =? 0x30 then (true, b :: r, 8)
        else (false, s, 10)
    | _ => (false, s, 10)
    end) = (false, s, 10)).
  { destruct H as [|c d s ds Hc Hs]; [reflexivity|]. destruct Hs as [|c2 d2 s ds Hc2 Hs]; [reflexivity|].
    destruct (Z.eqb_spec c 0x30) as [->|]; [|reflexivity].
    assert (d = 0) as -> by (unfold Dig in Hc; lia). specialize (Hlead _ eq_refl). discriminate. }
  rewrite E. change (10 =? 8) with false. change (10 =? 10) with true. cbv iota.
  rewrite (all_in_10 s ds H). rewrite (from_chars_dig 10 _ s ds H Hne) by lia.
  destruct H; [congruence|reflexivity].
Qed.

Lemma number_octal s ds : Forall2 (Dig 8) s ds -> ds <> [] -> value 8 ds 0 < 2 ^ 32 ->
  parse_ipv4_number (0x30 :: s) = Some (Some (value 8 ds 0), true).
Proof.
  intros H Hne Hv. unfold parse_ipv4_number.
  destruct s as [|c s]; [inversion H; congruence|]. destruct ds as [|d ds]; [congruence|].
  assert (Hc : Dig 8 c d) by now inversion H.
  destruct (Z.eqb_spec c 0x78) as [->|]; [unfold Dig in Hc; lia|].
  destruct (Z.eqb_spec c 0x58) as [->|]; [unfold Dig in Hc; lia|].
  cbn [orb andb]. change (48 =? 48) with true. cbn [andb]. cbv iota beta.
  change (8 =? 8) with true. cbv iota.
  rewrite (all_in_8 _ _ H). now rewrite (from_chars_dig 8 _ _ _ H Hne) by lia.
Qed.

Lemma number_hex x s ds : x = 0x78 \/ x = 0x58 -> Forall2 (Dig 16) s ds -> ds <> [] -> value 16 ds 0 < 2 ^ 32 ->
  parse_ipv4_number (0x30 :: x :: s) = Some (Some (value 16 ds 0), true).
Proof.
  intros Hx H Hne Hv. unfold parse_ipv4_number.
  replace ((48 =? 48) && ((x =? 120) || (x =? 88))) with true by (destruct Hx; subst; reflexivity).
  cbv iota beta. change (16 =? 8) with false. change (16 =? 10) with false. cbv iota.
  rewrite (all_in_16 _ _ H). rewrite (from_chars_dig 16 _ _ _ H Hne) by lia.
  destruct H; [congruence|reflexivity].
Qed.

(** Rejection. *)
Lemma all_in_false set s c : In c s -> ~ In c set -> all_in set s = false.
Proof.
  intros Hc Hn. destruct (all_in set s) eqn:E; [|reflexivity]. unfold all_in in E.
  rewrite forallb_forall in E. specialize (E c Hc). rewrite existsb_exists in E.
  destruct E as (x & Hx & Ex). apply Z.eqb_eq in Ex. subst. contradiction.
Qed.

Lemma number_reject_decimal a s c : a <> 0x30 -> In c (a :: s) -> ~ (0x30 <= c <= 0x39) ->
  parse_ipv4_number (a :: s) = Some (None, false).
Proof.
  intros Ha Hc Hd. unfold parse_ipv4_number.
  assert (E : (match a :: s with
    | a :: b :: r =>
        if (a =? 0x30) && ((b =? 0x78) || (b =? 0x58)) then (true, r, 16)
        else if a =? 0x30 then (true, b :: r, 8)
        else (false, a :: s, 10)
    | _ => (false, a :: s, 10)
    end) = (false, a :: s, 10)).
  { destruct s as [|b r]; [reflexivity|]. destruct (Z.eqb_spec a 0x30); [contradiction|reflexivity]. }
  rewrite E. change (10 =? 8) with false. change (10 =? 10) with true. cbv iota.
  rewrite (all_in_false set10 (a :: s) c); auto. unfold set10. cbn [In]. lia.
Qed.

Lemma number_reject_octal a s c : a <> 0x78 -> a <> 0x58 -> In c (a :: s) -> ~ (0x30 <= c <= 0x38) ->
  parse_ipv4_number (0x30 :: a :: s) = Some (None, true).
Proof.
  intros H1 H2 Hc Hd. unfold parse_ipv4_number.
  destruct (Z.eqb_spec a 0x78); [contradiction|]. destruct (Z.eqb_spec a 0x58); [contradiction|].
  cbn [orb andb]. change (48 =? 48) with true. cbn [andb]. cbv iota beta. change (8 =? 8) with true. cbv iota.
  rewrite (all_in_false set8 (a :: s) c); auto. unfold set8. cbn [In]. lia.
Qed.

Lemma number_reject_hex x s c : x = 0x78 \/ x = 0x58 -> In c s ->
  ~ (0x30 <= c <= 0x39) -> ~ (0x41 <= c <= 0x46) -> ~ (0x61 <= c <= 0x66) ->
  parse_ipv4_number (0x30 :: x :: s) = Some (None, true).
Proof.
  intros Hx Hc H1 H2 H3. unfold parse_ipv4_number.
  replace ((48 =? 48) && ((x =? 120) || (x =? 88))) with true by (destruct Hx; subst; reflexivity).
  cbv iota beta. destruct s as [|a s]; [destruct Hc|].
  change (16 =? 8) with false. change (16 =? 10) with false. cbv iota.
  rewrite (all_in_false set16 (a :: s) c); auto. unfold set16, set10. cbn [In app]. lia.
Qed.

(** * IPv6: tokens *)

Inductive tok (A : Type) := TP (a : A) | TC.
Arguments TP {A}. Arguments TC {A}.
Inductive pres (A : Type) := PStuck | PFail | POk (l : list A).
Arguments PStuck {A}. Arguments PFail {A}. Arguments POk {A}.

Section Tokens.
Context {A : Type} (zero : A) (isz : A -> bool).
Definition updA (a : list A) (i : nat) (v : A) : list A := firstn i a ++ v :: skipn (S i) a.
Fixpoint swapsA (k : nat) (a : list A) (pieceIndex compress swaps : nat) : list A :=
  match k with
  | O => a
  | S k' =>
      if Nat.eqb pieceIndex 0 || Nat.eqb swaps 0 then a
      else
        let j := (compress + swaps - 1)%nat in
        let x := nth pieceIndex a zero in
        let y := nth j a zero in
        swapsA k' (updA (updA a pieceIndex y) j x) (pieceIndex - 1) compress (swaps - 1)
  end.
Definition finishA (a : list A) (pieceIndex : nat) (compress : option nat) : pres A :=
  match compress with
  | Some c => POk (swapsA 8 a 7 c (pieceIndex - c))
  | None => if Nat.eqb pieceIndex 8 then POk a else PFail
  end.
Fixpoint ptok (toks : list (tok A)) (a : list A) (pi : nat) (comp : option nat) : pres A :=
  match toks with
  | [] => finishA a pi comp
  | TC :: r =>
      if Nat.eqb pi 8 then PFail
      else match comp with Some _ => PFail | None => ptok r a (S pi) (Some (S pi)) end
  | TP v :: r =>
      if Nat.eqb pi 8 then PFail
      else match r with
           | [] => finishA (updA a pi v) (S pi) comp
           | TC :: [] => PFail
           | TC :: r' => ptok r' (updA a pi v) (S pi) comp
           | TP _ :: _ => PStuck
           end
  end.
Definition ptop (toks : list (tok A)) : pres A :=
  match toks with
  | TC :: TC :: r => ptok r (repeat zero 8) 1 (Some 1%nat)
  | TC :: TP _ :: _ => PFail
  | TC :: [] => PFail
  | _ => ptok toks (repeat zero 8) 0 None
  end.
Fixpoint stok (a : list A) (i : nat) (compress : option nat) (ignore0 : bool) : list (tok A) :=
  match a with
  | [] => []
  | p :: r =>
      if ignore0 && isz p then stok r (S i) compress ignore0
      else
        match compress with
        | Some c =>
            if Nat.eqb c i then
              (if Nat.eqb i 0 then [TC; TC] else [TC]) ++ stok r (S i) compress true
            else TP p :: (if Nat.eqb i 7 then [] else [TC]) ++ stok r (S i) compress false
        | None => TP p :: (if Nat.eqb i 7 then [] else [TC]) ++ stok r (S i) compress false
        end
  end.
End Tokens.

Definition render (t : list (tok Z)) : list Z :=
  flat_map (fun x => match x with TP p => to_chars 16 p | TC => [0x3A] end) t.

Lemma emit_render a : forall i c ig, ipv6_emit a i c ig = render (stok (Z.eqb 0) a i c ig).
Proof.
  assert (R : forall x y, render (x ++ y) = render x ++ render y) by (intros; apply flat_map_app).
  induction a as [|p a IH]; intros i c ig; cbn [ipv6_emit stok]; [reflexivity|].
  rewrite (Z.eqb_sym 0 p). destruct (ig && (p =? 0)); [apply IH|].
  destruct c as [c|].
  - destruct (Nat.eqb c i).
    + rewrite R, <- IH. destruct (Nat.eqb i 0); reflexivity.
    + cbn [render flat_map]. fold (render ((if Nat.eqb i 7 then [] else [TC]) ++ stok (Z.eqb 0) a (S i) (Some c) false)).
      rewrite R, <- IH. destruct (Nat.eqb i 7); reflexivity.
  - cbn [render flat_map]. fold (render ((if Nat.eqb i 7 then [] else [TC]) ++ stok (Z.eqb 0) a (S i) None false)).
    rewrite R, <- IH. destruct (Nat.eqb i 7); reflexivity.
Qed.

(** Reading one piece. *)
Definition piece_ok (p : Z) : bool :=
  let t := to_chars 16 p in
  forallb is_ascii_hex_digit t && (1 <=? length t)%nat && (length t <=? 4)%nat &&
  match hex4 4 t 0 0 with (v, n, []) => (v =? p) && Nat.eqb n (length t) | _ => false end.

Lemma piece_check p : 0 <= p < 65536 -> piece_ok p = true.
Proof. revert p. apply zrange_forall. vm_compute. reflexivity. Qed.

Lemma hex4_app t : forall k v n rest w m, forallb is_ascii_hex_digit t = true -> (length t <= k)%nat ->
  (rest = [] \/ exists c r, rest = c :: r /\ is_ascii_hex_digit c = false) ->
  hex4 k t v n = (w, m, []) -> hex4 k (t ++ rest) v n = (w, m, rest).
Proof.
  induction t as [|c t IH]; intros k v n rest w m Hh Hl Hr E.
  - cbn [app]. destruct k; cbn in E; injection E as -> ->; destruct Hr as [->|(x & r & -> & Hx)]; cbn; auto.
    now rewrite Hx.
  - destruct k as [|k]; [cbn in Hl; lia|]. cbn [forallb] in Hh. apply andb_prop in Hh. destruct Hh as [H1 H2].
    cbn [app hex4] in *. rewrite H1 in *. apply IH; auto. cbn in Hl. lia.
Qed.

Lemma read_piece p rest : 0 <= p < 65536 ->
  (rest = [] \/ exists r, rest = 0x3A :: r) ->
  exists c r n, to_chars 16 p ++ rest = c :: r /\ (c =? 0x3A) = false /\
    hex4 4 (to_chars 16 p ++ rest) 0 0 = (p, n, rest) /\ (0 < n)%nat.
Proof.
  intros Hp Hr. pose proof (piece_check p Hp) as C. unfold piece_ok in C. cbv zeta in C.
  apply andb_prop in C. destruct C as [C C4]. apply andb_prop in C. destruct C as [C C3].
  apply andb_prop in C. destruct C as [C1 C2].
  destruct (hex4 4 (to_chars 16 p) 0 0) as [[v n] q] eqn:E. destruct q; [|discriminate].
  assert (v = p /\ n = length (to_chars 16 p)) as [-> ->] by lia.
  destruct (to_chars 16 p) as [|c t] eqn:T; [cbn in C2; discriminate|].
  exists c, (t ++ rest), (length (c :: t)). split; [reflexivity|]. split.
  - cbn [forallb] in C1. apply andb_prop in C1. destruct C1 as [C1 _].
    unfold is_ascii_hex_digit, is_ascii_upper_hex_digit, is_ascii_lower_hex_digit, is_ascii_digit in C1. lia.
  - split; [|cbn; lia]. apply hex4_app; auto.
    + apply Nat.leb_le in C3. exact C3.
    + destruct Hr as [->|[r ->]]; [now left|right; eexists _, _; split; [reflexivity|reflexivity]].
Qed.

Definition good_addr (a : list Z) : Prop := length a = 8%nat /\ Forall (fun p => 0 <= p < 65536) a.

Lemma upd_good a i v : good_addr a -> (i < 8)%nat -> 0 <= v < 65536 ->
  upd16 a i v = updA a i v /\ good_addr (updA a i v).
Proof.
  intros [Hl Hf] Hi Hv. unfold upd16, updA. rewrite Z.mod_small by assumption. split; [reflexivity|]. split.
  - rewrite app_length, firstn_length. cbn [length]. rewrite skipn_length. lia.
  - apply Forall_app. split; [|constructor; auto].
    + rewrite <- (firstn_skipn i a) in Hf. now apply Forall_app in Hf.
    + rewrite <- (firstn_skipn (S i) a) in Hf. now apply Forall_app in Hf.
Qed.

Lemma nth_good a i : good_addr a -> 0 <= nth i a 0 < 65536.
Proof.
  intros [_ Hf]. destruct (nth_in_or_default i a 0) as [H| ->]; [|lia].
  rewrite Forall_forall in Hf. now apply Hf.
Qed.

Lemma swaps_tok k : forall a p c s, good_addr a -> (p < 8)%nat -> (c + s <= 8)%nat ->
  ipv6_swaps k a p c s = swapsA 0 k a p c s.
Proof.
  induction k as [|k IH]; intros a p c s Ha Hp Hc; cbn [ipv6_swaps swapsA]; [reflexivity|].
  destruct (Nat.eqb_spec p 0); [reflexivity|]. destruct (Nat.eqb_spec s 0); [reflexivity|]. cbn [orb].
  destruct (upd_good a p (nth (c + s - 1) a 0) Ha Hp (nth_good _ _ Ha)) as [E1 G1]. rewrite E1.
  destruct (upd_good (updA a p (nth (c + s - 1) a 0)) (c + s - 1) (nth p a 0) G1 ltac:(lia) (nth_good _ _ Ha)) as [E2 G2].
  rewrite E2. apply IH; auto; lia.
Qed.

(** Result correspondence. *)
Definition corr (e : ec) (r : option (host * ec)) (p : pres Z) : Prop :=
  match p with
  | PStuck => True
  | PFail => exists e', r = Some (HNone, e')
  | POk l => r = Some (HIpv6 l, e)
  end.

Definition tok_ok (t : tok Z) : Prop := match t with TP p => 0 <= p < 65536 | TC => True end.

Lemma finish_corr a pi comp e : good_addr a -> (pi <= 8)%nat -> (forall c, comp = Some c -> (c <= pi)%nat) ->
  corr e (ipv6_finish a pi comp e) (finishA 0 a pi comp).
Proof.
  intros Ha Hp Hc. unfold ipv6_finish, finishA. destruct comp as [c|].
  - cbn [corr]. specialize (Hc c eq_refl). rewrite swaps_tok by (auto; lia). reflexivity.
  - destruct (Nat.eqb pi 8); cbn [corr]; eauto.
Qed.

Lemma render_nil_inv r : render r = [] -> Forall tok_ok r -> r = [].
Proof.
  intros H Hr. destruct Hr as [|t r Ht Hr]; [reflexivity|]. cbn [render flat_map] in H. destruct t as [p|]; [|discriminate].
  cbn in Ht. destruct (read_piece p [] Ht (or_introl eq_refl)) as (c & q & n & E & _).
  rewrite app_nil_r in E. rewrite E in H. discriminate.
Qed.

Lemma loop_corr : forall n toks fuel a pi comp e, (length toks <= n)%nat -> Forall tok_ok toks ->
  (length (render toks) <= fuel)%nat -> good_addr a -> (pi <= 8)%nat -> (forall c, comp = Some c -> (c <= pi)%nat) ->
  corr e (ipv6_loop fuel (render toks) a pi comp e) (ptok 0 toks a pi comp).
Proof.
  induction n as [|n IH]; intros toks fuel a pi comp e Hn Ht Hf Ha Hp Hc.
  { destruct toks; [|cbn in Hn; lia]. cbn [render flat_map ptok]. destruct fuel; now apply finish_corr. }
  destruct toks as [|t toks].
  { cbn [render flat_map ptok]. destruct fuel; now apply finish_corr. }
  inversion Ht as [|? ? Ht1 Ht2]; subst. destruct t as [p|].
  - cbn [ptok]. destruct toks as [|t2 toks].
    + cbn [render flat_map] in *. cbn [tok_ok] in Ht1.
      destruct (read_piece p [] Ht1 (or_introl eq_refl)) as (c & q & m & E1 & E2 & E3 & E4).
      rewrite E1 in *. destruct fuel as [|fuel]; [cbn in Hf; lia|].
      cbn [ipv6_loop]. destruct (Nat.eqb_spec pi 8); [cbn; eauto|]. rewrite E2, E3.
      destruct (upd_good a pi p Ha ltac:(lia) Ht1) as [U1 U2]. rewrite U1.
      destruct fuel; apply finish_corr; auto; try lia; intros c' Hc'; specialize (Hc c' Hc'); lia.
    + destruct t2 as [p2|]; [destruct (Nat.eqb pi 8) eqn:E; [|exact I]|].
      * (* pieceIndex = 8 *)
        cbn [render flat_map] in *. cbn [tok_ok] in Ht1.
        destruct (read_piece p [] Ht1 (or_introl eq_refl)) as (c & q & m & E1 & _). rewrite app_nil_r in E1.
        rewrite E1 in *. cbn [app] in *. destruct fuel as [|fuel]; [cbn in Hf; lia|].
        cbn [ipv6_loop]. rewrite E. cbn. eauto.
      * change (render (TP p :: TC :: toks)) with (to_chars 16 p ++ 0x3A :: render toks) in *.
        cbn [tok_ok] in Ht1.
        destruct (read_piece p (0x3A :: render toks) Ht1 (or_intror (ex_intro _ _ eq_refl))) as (c & q & m & E1 & E2 & E3 & E4).
        assert (Hlen : (S (length (render toks)) < length (to_chars 16 p ++ (0x3A :: render toks)%Z))%nat).
        { rewrite app_length. cbn [length]. destruct (read_piece p [] Ht1 (or_introl eq_refl)) as (c' & q' & m' & E1' & _).
          rewrite app_nil_r in E1'. rewrite E1'. cbn [length]. lia. }
        rewrite E1 in *. destruct fuel as [|fuel]; [cbn in Hf; lia|].
        cbn [ipv6_loop]. destruct (Nat.eqb_spec pi 8); [cbn; eauto|]. rewrite E2, E3.
        change (58 =? 46) with false. change (58 =? 58) with true. cbv iota.
        destruct (upd_good a pi p Ha ltac:(lia) Ht1) as [U1 U2].
        inversion Ht2 as [|? ? _ Ht3]; subst.
        destruct toks as [|t3 toks]; [cbn; eauto|].
        destruct (render (t3 :: toks)) as [|x y] eqn:Er.
        { apply render_nil_inv in Er; [discriminate|assumption]. }
        rewrite <- Er in *. rewrite U1. cbn [length] in Hn, Hf, Hlen.
        apply IH; auto; cbn [length]; try lia.
  - cbn [ptok]. change (render (TC :: toks)) with (0x3A :: render toks) in *.
    destruct fuel as [|fuel]; [cbn in Hf; lia|]. cbn [ipv6_loop].
    destruct (Nat.eqb_spec pi 8); [cbn; eauto|]. change (58 =? 58) with true. cbv iota.
    destruct comp as [c|]; [cbn; eauto|]. cbn [length] in Hn, Hf. apply IH; auto; try lia.
    intros c Hc'. injection Hc' as <-. lia.
Qed.

Lemma top_corr toks e : Forall tok_ok toks -> corr e (parse_ipv6 (render toks) e) (ptop 0 toks).
Proof.
  intros Ht.
  assert (Ha : good_addr (repeat 0 8)).
  { split; [reflexivity|]. repeat constructor; lia. }
  unfold parse_ipv6, ptop. destruct toks as [|t toks].
  - cbn [render flat_map]. apply (loop_corr 0 []); auto; try lia. intros; discriminate.
  - destruct t as [p|].
    + inversion Ht as [|? ? Ht1 Ht2]; subst. cbn [tok_ok] in Ht1.
      assert (E : exists c q, render (TP p :: toks) = c :: q /\ (c =? 0x3A) = false).
      { destruct (read_piece p [] Ht1 (or_introl eq_refl)) as (c & q & m & E1 & E2 & _).
        rewrite app_nil_r in E1. exists c, (q ++ render toks). split; [|assumption].
        cbn [render flat_map]. fold (render toks). rewrite E1. reflexivity. }
      destruct E as (c & q & E1 & E2). rewrite E1, E2. rewrite <- E1.
      apply (loop_corr (length (TP p :: toks))); auto; try lia. intros; discriminate.
    + change (render (TC :: toks)) with (0x3A :: render toks). change (58 =? 58) with true. cbv iota.
      inversion Ht as [|? ? _ Ht2]; subst. destruct toks as [|t2 toks]; [cbn; eauto|].
      destruct t2 as [p|].
      * inversion Ht2 as [|? ? Ht3 _]; subst. cbn [tok_ok] in Ht3.
        destruct (read_piece p [] Ht3 (or_introl eq_refl)) as (c & q & m & E1 & E2 & _).
        rewrite app_nil_r in E1. cbn [render flat_map]. rewrite E1. cbn [app]. rewrite E2. cbn. eauto.
      * change (render (TC :: toks)) with (0x3A :: render toks). change (58 =? 58) with true. cbv iota.
        inversion Ht2; subst.
        apply (loop_corr (length toks)); auto; cbn; try lia. intros c Hc. injection Hc as <-. lia.
Qed.

(** Parametricity in the piece type. *)
Section Map.
Context {A B : Type} (f : A -> B) (zA : A) (zB : B) (isA : A -> bool) (isB : B -> bool).
Hypothesis Hz : f zA = zB.
Definition tmap (t : tok A) : tok B := match t with TP a => TP (f a) | TC => TC end.
Definition pmap (p : pres A) : pres B := match p with PStuck => PStuck | PFail => PFail | POk l => POk (map f l) end.

Lemma upd_map a i v : updA (map f a) i (f v) = map f (updA a i v).
Proof. unfold updA. now rewrite firstn_map, skipn_map, map_app. Qed.

Lemma swaps_map k : forall a p c s, swapsA zB k (map f a) p c s = map f (swapsA zA k a p c s).
Proof.
  induction k as [|k IH]; intros a p c s; cbn [swapsA]; [reflexivity|].
  destruct (Nat.eqb p 0 || Nat.eqb s 0); [reflexivity|].
  rewrite <- Hz, !map_nth, !upd_map. rewrite Hz. apply IH.
Qed.

Lemma finish_map a pi comp : finishA zB (map f a) pi comp = pmap (finishA zA a pi comp).
Proof.
  unfold finishA. destruct comp; [cbn [pmap]; now rewrite swaps_map|]. now destruct (Nat.eqb pi 8).
Qed.

Lemma ptok_map : forall n toks a pi comp, (length toks <= n)%nat ->
  ptok zB (map tmap toks) (map f a) pi comp = pmap (ptok zA toks a pi comp).
Proof.
  induction n as [|n IH]; intros toks a pi comp Hn.
  - destruct toks; [|cbn in Hn; lia]. apply finish_map.
  - destruct toks as [|[p|] toks]; cbn [map tmap ptok].
    + apply finish_map.
    + destruct (Nat.eqb pi 8); [reflexivity|]. destruct toks as [|[p2|] toks]; cbn [map tmap].
      * rewrite upd_map. apply finish_map.
      * reflexivity.
      * destruct toks as [|t toks]; [reflexivity|]. cbn [map]. rewrite upd_map.
        apply (IH (t :: toks)). cbn in *. lia.
    + destruct (Nat.eqb pi 8); [reflexivity|]. destruct comp; [reflexivity|]. apply IH. cbn in Hn. lia.
Qed.

Lemma ptop_map toks : ptop zB (map tmap toks) = pmap (ptop zA toks).
Proof.
  unfold ptop. assert (R : repeat zB 8 = map f (repeat zA 8)) by (cbn; now rewrite Hz).
  destruct toks as [|[p|] toks].
  - rewrite R. exact (ptok_map 0 [] _ _ _ (le_n _)).
  - cbn [map tmap]. rewrite R. exact (ptok_map _ (TP p :: toks) _ _ _ (le_n _)).
  - destruct toks as [|[p|] toks]; cbn [map tmap]; try reflexivity.
    rewrite R. exact (ptok_map _ toks _ _ _ (le_n _)).
Qed.

Lemma stok_map a : Forall (fun x => isB (f x) = isA x) a -> forall i c ig,
  stok isB (map f a) i c ig = map tmap (stok isA a i c ig).
Proof.
  induction 1 as [|x a Hx Ha IH]; intros i c ig; cbn [map stok]; [reflexivity|].
  rewrite Hx. destruct (ig && isA x); [apply IH|]. destruct c as [c|].
  - destruct (Nat.eqb c i).
    + rewrite IH, map_app. now destruct (Nat.eqb i 0).
    + rewrite IH. cbn [map tmap]. rewrite map_app. now destruct (Nat.eqb i 7).
  - rewrite IH. cbn [map tmap]. rewrite map_app. now destruct (Nat.eqb i 7).
Qed.
End Map.

(** Symbolic addresses: [None] is a zero piece, [Some i] the i-th piece, not zero. *)
Fixpoint sym (z : list bool) (i : nat) : list (option nat) :=
  match z with [] => [] | b :: r => (if b then None else Some i) :: sym r (S i) end.
Definition isN (x : option nat) : bool := match x with None => true | Some _ => false end.
Definition run_sym (z : list bool) : pres (option nat) := ptop None (stok isN (sym z 0) 0 (ipv6_compress z) false).

Fixpoint bools (n : nat) : list (list bool) :=
  match n with O => [[]] | S n' => flat_map (fun l => [true :: l; false :: l]) (bools n') end.
Lemma bools_in n : forall l, length l = n -> In l (bools n).
Proof.
  induction n as [|n IH]; intros l H.
  - destruct l; [now left|discriminate].
  - destruct l as [|b l]; [discriminate|]. cbn in H. cbn [bools]. apply in_flat_map. exists l. split; [apply IH; lia|].
    destruct b; cbn; auto.
Qed.

(** Lengths of the maximal runs of zero pieces. *)
Fixpoint zero_runs (z : list bool) (cur : nat) : list nat :=
  match z with
  | [] => match cur with O => [] | _ => [cur] end
  | true :: r => zero_runs r (S cur)
  | false :: r => match cur with O => zero_runs r 0 | _ => cur :: zero_runs r 0 end
  end.
(** The runs seen so far that did not beat [best] add up in [acc]; the address is handled correctly
    when such a sum never beats [best]. *)
Fixpoint carry_free (best acc : nat) (runs : list nat) : bool :=
  match runs with
  | [] => true
  | r :: rs =>
      if (best <? acc + r)%nat then (Nat.eqb acc 0) && carry_free r 0 rs
      else carry_free best (acc + r) rs
  end.

(** The index chosen for "::" is that of a zero piece. *)
Definition index_ok (z : list bool) : bool :=
  match ipv6_compress z with Some c => nth c z false | None => true end.
Definition check_pattern (z : list bool) : bool :=
  (negb (carry_free 0 0 (zero_runs z 0)) || index_ok z) &&
  match run_sym z with
  | POk l =>
      if index_ok z
      then if list_eq_dec (fun x y : option nat => ltac:(decide equality; apply Nat.eq_dec)) l (sym z 0) then true else false
      else negb (if list_eq_dec Bool.bool_dec (map isN l) z then true else false)
  | _ => false
  end.
Lemma patterns : forallb check_pattern (bools 8) = true.
Proof. vm_compute. reflexivity. Qed.

Lemma pattern_ok z : length z = 8%nat -> exists l, run_sym z = POk l /\
  (index_ok z = true -> l = sym z 0) /\
  (index_ok z = false -> map isN l <> z).
Proof.
  intros H. pose proof patterns as P. rewrite forallb_forall in P. specialize (P z (bools_in 8 z H)).
  unfold check_pattern in P. apply andb_prop in P. destruct P as [_ P]. destruct (run_sym z) as [| |l]; try discriminate. exists l. split; [reflexivity|].
  destruct (index_ok z).
  - destruct (list_eq_dec _ l (sym z 0)); [|discriminate]. split; [auto|discriminate].
  - destruct (list_eq_dec Bool.bool_dec (map isN l) z); [discriminate|]. split; [discriminate|auto].
Qed.

Definition lookup (a : list Z) (x : option nat) : Z := match x with None => 0 | Some i => nth i a 0 end.

Lemma lookup_sym_gen a : forall pre, map (lookup (pre ++ a)) (sym (map (Z.eqb 0) a) (length pre)) = a /\
  Forall (fun x => Z.eqb 0 (lookup (pre ++ a) x) = isN x) (sym (map (Z.eqb 0) a) (length pre)).
Proof.
  induction a as [|p a IH]; intros pre; cbn [map sym]; [split; [reflexivity|constructor]|].
  specialize (IH (pre ++ [p])). rewrite <- app_assoc in IH. cbn [app] in IH.
  rewrite app_length in IH. cbn [length] in IH. rewrite Nat.add_1_r in IH. destruct IH as [IH1 IH2].
  assert (N : nth (length pre) (pre ++ p :: a) 0 = p).
  { rewrite app_nth2, Nat.sub_diag by lia. reflexivity. }
  split.
  - rewrite IH1. f_equal. destruct (Z.eqb_spec 0 p); cbn [lookup]; auto.
  - constructor; auto. destruct (Z.eqb_spec 0 p); cbn [lookup isN]; [reflexivity|]. rewrite N. lia.
Qed.

Lemma ipv6_result a e : length a = 8%nat -> Forall (fun p => 0 <= p < 65536) a ->
  exists l, run_sym (map (Z.eqb 0) a) = POk l /\
    parse_ipv6 (serialize_ipv6 a) e = Some (HIpv6 (map (lookup a) l), e) /\
    map (lookup a) (sym (map (Z.eqb 0) a) 0) = a.
Proof.
  intros Hl Ha. destruct (lookup_sym_gen a []) as [L1 L2]. cbn [app length] in *.
  destruct (pattern_ok (map (Z.eqb 0) a)) as (l & E & _); [now rewrite map_length|].
  exists l. split; [assumption|]. split; [|assumption].
  assert (S1 : stok (Z.eqb 0) a 0 (ipv6_compress (map (Z.eqb 0) a)) false =
     map (tmap (lookup a)) (stok isN (sym (map (Z.eqb 0) a) 0) 0 (ipv6_compress (map (Z.eqb 0) a)) false)).
  { rewrite <- (stok_map (lookup a) isN (Z.eqb 0) _ L2). now rewrite L1. }
  assert (Htok : Forall tok_ok (stok (Z.eqb 0) a 0 (ipv6_compress (map (Z.eqb 0) a)) false)).
  { generalize (ipv6_compress (map (Z.eqb 0) a)) 0%nat false. clear - Ha.
    induction Ha as [|p a Hp Ha IH]; intros c i ig; cbn [stok]; [constructor|].
    destruct (ig && (0 =? p)); [apply IH|]. destruct c as [c|].
    - destruct (Nat.eqb c i).
      + apply Forall_app. split; [|apply IH]. destruct (Nat.eqb i 0); repeat constructor.
      + constructor; [exact Hp|]. apply Forall_app. split; [|apply IH]. destruct (Nat.eqb i 7); repeat constructor.
    - constructor; [exact Hp|]. apply Forall_app. split; [|apply IH]. destruct (Nat.eqb i 7); repeat constructor. }
  pose proof (top_corr _ e Htok) as C. unfold serialize_ipv6. rewrite emit_render.
  rewrite S1 in C at 2. rewrite (ptop_map (lookup a) None 0 eq_refl) in C.
  unfold run_sym in E. rewrite E in C. exact C.
Qed.

Lemma ipv6_roundtrip a e : length a = 8%nat -> Forall (fun p => 0 <= p < 65536) a ->
  (parse_ipv6 (serialize_ipv6 a) e = Some (HIpv6 a, e) <->
   index_ok (map (Z.eqb 0) a) = true).
Proof.
  intros Hl Ha. destruct (ipv6_result a e Hl Ha) as (l & E & P & L).
  destruct (pattern_ok (map (Z.eqb 0) a)) as (l' & E' & G & B); [now rewrite map_length|].
  rewrite E in E'. injection E' as <-. rewrite P. split.
  - intros H. destruct (index_ok _) eqn:C; [reflexivity|]. exfalso. specialize (B eq_refl). apply B.
    injection H as H.
    (* equal pieces have equal zero patterns; symbols of l are zero exactly when None or looked-up zero *)
    assert (F : Forall (fun x => isN x = true \/ exists i, x = Some i /\ nth i a 0 <> 0) l).
    { clear - E. unfold run_sym in E.
      assert (T : Forall (fun t => match t with TP x => isN x = true \/ exists i, x = Some i /\ nth i a 0 <> 0 | TC => True end)
         (stok isN (sym (map (Z.eqb 0) a) 0) 0 (ipv6_compress (map (Z.eqb 0) a)) false)).
      { destruct (lookup_sym_gen a []) as [_ L2]. cbn [app length] in L2.
        revert L2. generalize (sym (map (Z.eqb 0) a) 0). intros s H.
        generalize (ipv6_compress (map (Z.eqb 0) a)). intros c. generalize 0%nat. generalize false.
        intros ig i. revert i ig. induction H as [|x s Hx Hs IH]; intros i ig; cbn [stok]; [constructor|].
        destruct (ig && isN x); [apply IH|].
        assert (Hx' : isN x = true \/ exists i, x = Some i /\ nth i a 0 <> 0).
        { destruct x as [j|]; [right|now left]. exists j. split; [reflexivity|]. cbn [lookup isN] in Hx. apply Z.eqb_neq in Hx. auto. }
        destruct c as [c|].
        - destruct (Nat.eqb c i).
          + apply Forall_app. split; [|apply IH]. destruct (Nat.eqb i 0); repeat constructor.
          + constructor; [exact Hx'|]. apply Forall_app. split; [|apply IH]. destruct (Nat.eqb i 7); repeat constructor.
        - constructor; [exact Hx'|]. apply Forall_app. split; [|apply IH]. destruct (Nat.eqb i 7); repeat constructor. }
      set (Q := fun x : option nat => isN x = true \/ exists i, x = Some i /\ nth i a 0 <> 0) in *.
      assert (QU : forall b i v, Forall Q b -> Q v -> Forall Q (updA b i v)).
      { intros b i v Hb Hv. unfold updA. apply Forall_app. split.
        - rewrite <- (firstn_skipn i b) in Hb. now apply Forall_app in Hb.
        - constructor; auto. rewrite <- (firstn_skipn (S i) b) in Hb. now apply Forall_app in Hb. }
      assert (QN : forall b i, Forall Q b -> Q (nth i b None)).
      { intros b i Hb. destruct (nth_in_or_default i b None) as [Hi| ->]; [|now left].
        rewrite Forall_forall in Hb. now apply Hb. }
      assert (QS : forall k b p c s, Forall Q b -> Forall Q (swapsA None k b p c s)).
      { induction k as [|k IH]; intros b p c s Hb; cbn [swapsA]; [assumption|].
        destruct (Nat.eqb p 0 || Nat.eqb s 0); [assumption|]. apply IH. apply QU; [apply QU|]; auto. }
      assert (QF : forall b pi comp l, finishA None b pi comp = POk l -> Forall Q b -> Forall Q l).
      { intros b pi comp l0 Hf Hb. unfold finishA in Hf. destruct comp.
        - assert (E0 : swapsA None 8 b 7 n (pi - n) = l0) by congruence. rewrite <- E0. now apply QS.
        - destruct (Nat.eqb pi 8); [|discriminate]. now injection Hf as <-. }
      assert (QP : forall n toks b pi comp l, (length toks <= n)%nat -> ptok None toks b pi comp = POk l ->
         Forall (fun t => match t with TP x => Q x | TC => True end) toks -> Forall Q b -> Forall Q l).
      { induction n as [|n IH]; intros toks b pi comp l0 Hn Hp Ht Hb.
        - destruct toks; [|cbn in Hn; lia]. eapply QF; eauto.
        - destruct Ht as [|t toks Ht1 Ht2]; [eapply QF; eauto|]. destruct t as [x|]; cbn [ptok] in Hp.
          + destruct (Nat.eqb pi 8); [discriminate|]. destruct Ht2 as [|t2 toks Ht2 Ht3].
            * eapply QF; eauto.
            * destruct t2; [discriminate|]. destruct toks as [|t3 toks]; [discriminate|].
              eapply (IH (t3 :: toks)); eauto. cbn in *. lia.
          + destruct (Nat.eqb pi 8); [discriminate|]. destruct comp; [discriminate|].
            eapply IH; eauto. cbn in Hn. lia. }
      assert (Q0 : Forall Q (repeat None 8)) by (repeat constructor).
      unfold ptop in E. destruct T as [|t toks Ht1 Ht2].
      - exact (QF _ _ _ _ E Q0).
      - destruct t as [x|].
        + exact (QP _ _ _ _ _ _ (le_n _) E (Forall_cons (TP x) Ht1 Ht2) Q0).
        + destruct Ht2 as [|t2 toks Ht2 Ht3]; [discriminate|]. destruct t2; [discriminate|].
          exact (QP _ _ _ _ _ _ (le_n _) E Ht3 Q0). }
    rewrite <- H, map_map. apply map_ext_in. intros x Hx. rewrite Forall_forall in F.
    destruct (F x Hx) as [Hn|(i & -> & Hi)].
    + destruct x; [discriminate|]. reflexivity.
    + cbn [isN lookup]. symmetry. apply Z.eqb_neq. auto.
  - intros C. rewrite (G C), L. reflexivity.
Qed.

(** At most two runs of zeros are always fine. *)
Lemma two_runs_ok : forall z, (length (zero_runs z 0) <= 2)%nat -> carry_free 0 0 (zero_runs z 0) = true.
Proof.
  intros z H. assert (P : forall z c, Forall (fun r => (0 < r)%nat) (zero_runs z c)).
  { clear. induction z as [|[] z IH]; intros c; cbn [zero_runs].
    - destruct c; [constructor|constructor; [lia|constructor]].
    - apply IH.
    - destruct c; [apply IH|constructor; [lia|apply IH]]. }
  specialize (P z 0%nat). destruct (zero_runs z 0) as [|r1 [|r2 [|r3 rs]]]; cbn in H; try lia.
  - reflexivity.
  - inversion P; subst. cbn [carry_free]. destruct (Nat.ltb_spec 0 (0 + r1)); [reflexivity|lia].
  - inversion P; subst. inversion H3; subst. cbn [carry_free]. destruct (Nat.ltb_spec 0 (0 + r1)); [|lia]. cbn [Nat.eqb andb].
    destruct (r1 <? 0 + r2)%nat; reflexivity.
Qed.

Lemma carry_index z : length z = 8%nat -> carry_free 0 0 (zero_runs z 0) = true -> index_ok z = true.
Proof.
  intros H C. pose proof patterns as P. rewrite forallb_forall in P. specialize (P z (bools_in 8 z H)).
  unfold check_pattern in P. apply andb_prop in P. destruct P as [P _]. rewrite C in P. exact P.
Qed.

Lemma ipv6_roundtrip_carry a e : length a = 8%nat -> Forall (fun p => 0 <= p < 65536) a ->
  carry_free 0 0 (zero_runs (map (Z.eqb 0) a) 0) = true ->
  parse_ipv6 (serialize_ipv6 a) e = Some (HIpv6 a, e).
Proof. intros Hl Ha H. apply ipv6_roundtrip; auto. apply carry_index; auto. now rewrite map_length. Qed.

Lemma ipv6_roundtrip_two a e : length a = 8%nat -> Forall (fun p => 0 <= p < 65536) a ->
  (length (zero_runs (map (Z.eqb 0) a) 0) <= 2)%nat ->
  parse_ipv6 (serialize_ipv6 a) e = Some (HIpv6 a, e).
Proof. intros Hl Ha H. apply ipv6_roundtrip_carry; auto. now apply two_runs_ok. Qed.

(** * Embedded IPv4 is always undefined *)

Lemma ipv6_pieces_prefix ps : forall a pi comp e rest fuel, Forall (fun p => 0 <= p < 65536) ps ->
  (pi + length ps <= 8)%nat -> rest <> [] ->
  exists a', ipv6_loop (length ps + fuel) (flat_map (fun p => to_chars 16 p ++ [0x3A]) ps ++ rest) a pi comp e =
    ipv6_loop fuel rest a' (pi + length ps) comp e.
Proof.
  induction ps as [|p ps IH]; intros a pi comp e rest fuel Hps Hpi Hrest.
  - exists a. cbn. now rewrite Nat.add_0_r.
  - inversion Hps as [|? ? Hp Hps']; subst. cbn [flat_map length Nat.add].
    set (tl := flat_map (fun p => to_chars 16 p ++ [0x3A]) ps ++ rest).
    replace (((to_chars 16 p ++ [0x3A]) ++ flat_map (fun p => to_chars 16 p ++ [0x3A]) ps) ++ rest)
      with (to_chars 16 p ++ 0x3A :: tl) by (unfold tl; now rewrite <- !app_assoc).
    destruct (read_piece p (0x3A :: tl) Hp (or_intror (ex_intro _ _ eq_refl))) as (c & q & m & E1 & E2 & E3 & E4).
    rewrite E1 in *. cbn [ipv6_loop]. destruct (Nat.eqb_spec pi 8); [cbn in Hpi; lia|]. rewrite E2, E3.
    change (58 =? 46) with false. change (58 =? 58) with true. cbv iota.
    destruct tl as [|x y] eqn:Et.
    { unfold tl in Et. apply app_eq_nil in Et. destruct Et; contradiction. }
    rewrite <- Et. unfold tl.
    destruct (IH (upd16 a pi p) (S pi) comp e rest fuel Hps') as [a' Ha']; [cbn in Hpi; lia|assumption|].
    exists a'. rewrite Ha'. f_equal. lia.
Qed.

Lemma hex4_decimal b rest : 0 <= b < 256 -> exists v n, hex4 4 (to_chars 10 b ++ 0x2E :: rest) 0 0 = (v, n, 0x2E :: rest) /\ (0 < n)%nat.
Proof.
  intros Hb. destruct (byte_text b Hb) as (T & _ & N).
  assert (L : (length (to_chars 10 b) <=? 4)%nat = true).
  { clear T N; revert b Hb. apply (zrange_forall 256 (fun b => (length (to_chars 10 b) <=? 4)%nat)). vm_compute. reflexivity. }
  apply Nat.leb_le in L.
  assert (G : forall t k v n, Forall (fun c => 0x30 <= c <= 0x39) t -> (length t <= k)%nat ->
     exists w, hex4 k (t ++ 0x2E :: rest) v n = (w, (n + length t)%nat, 0x2E :: rest)).
  { induction t as [|c t IH]; intros k v n Ht Hk.
    - exists v. cbn. destruct k; cbn; now rewrite Nat.add_0_r.
    - destruct k as [|k]; [cbn in Hk; lia|]. inversion Ht; subst. cbn [app hex4].
      replace (is_ascii_hex_digit c) with true.
      2:{ unfold is_ascii_hex_digit, is_ascii_upper_hex_digit, is_ascii_lower_hex_digit, is_ascii_digit. lia. }
      destruct (IH k (v * 16 + hexv c) (S n)) as [w Hw]; auto; [cbn in Hk; lia|]. exists w. rewrite Hw. f_equal. f_equal. cbn. lia. }
  destruct (G (to_chars 10 b) 4%nat 0 0%nat T L) as [w Hw]. exists w, (0 + length (to_chars 10 b))%nat.
  split; [exact Hw|]. destruct (to_chars 10 b); [congruence|cbn; lia].
Qed.

Lemma embedded_ub ps b1 b2 b3 b4 e : length ps = 6%nat -> Forall (fun p => 0 <= p < 65536) ps ->
  0 <= b1 < 256 -> 0 <= b2 < 256 -> 0 <= b3 < 256 -> 0 <= b4 < 256 ->
  parse_ipv6 (flat_map (fun p => to_chars 16 p ++ [0x3A]) ps ++
              join 0x2E [to_chars 10 b1; to_chars 10 b2; to_chars 10 b3; to_chars 10 b4]) e = None.
Proof.
  intros Hl Hps H1 _ _ _.
  set (tail := join 0x2E [to_chars 10 b2; to_chars 10 b3; to_chars 10 b4]).
  change (join 0x2E [to_chars 10 b1; to_chars 10 b2; to_chars 10 b3; to_chars 10 b4]) with (to_chars 10 b1 ++ 0x2E :: tail).
  destruct ps as [|p ps]; [discriminate|]. inversion Hps as [|? ? Hp _]; subst.
  set (input := flat_map (fun p => to_chars 16 p ++ [0x3A]) (p :: ps) ++ to_chars 10 b1 ++ 0x2E :: tail).
  assert (E : exists c q, input = c :: q /\ (c =? 0x3A) = false).
  { unfold input. cbn [flat_map]. destruct (read_piece p [] Hp (or_introl eq_refl)) as (c & q & m & E1 & E2 & _).
    rewrite app_nil_r in E1. rewrite E1. cbn [app]. eauto. }
  destruct E as (c & q & E1 & E2). unfold parse_ipv6.
  assert (Hf : exists f, length input = (length (p :: ps) + S f)%nat).
  { assert (HL : (length (p :: ps) < length input)%nat).
    { unfold input. rewrite app_length.
      assert (G : forall l : list Z, (length l <= length (flat_map (fun p => to_chars 16 p ++ [0x3A]%Z) l))%nat).
      { induction l as [|x l IH]; cbn [flat_map length]; [lia|]. rewrite !app_length. cbn [length]. lia. }
      specialize (G (p :: ps)). rewrite app_length. cbn [length] in *. lia. }
    exists (length input - length (p :: ps) - 1)%nat. lia. }
  destruct Hf as [f Hf].
  destruct (byte_text b1 H1) as (T & _ & N).
  destruct (to_chars 10 b1) as [|d t] eqn:Et; [congruence|].
  destruct (ipv6_pieces_prefix (p :: ps) (repeat 0 8) 0 None e ((d :: t) ++ 0x2E :: tail) (S f) Hps) as [a' Ha'].
  { cbn [length] in *. lia. } { discriminate. }
  rewrite E1 at 1. rewrite E2. rewrite Hf. unfold input. rewrite Ha'. rewrite Hl.
  cbn [app ipv6_loop Nat.add Nat.eqb]. inversion T as [|? ? Hd _]; subst.
  destruct (Z.eqb_spec d 0x3A); [lia|].
  destruct (hex4_decimal b1 tail H1) as (v & k & Hh & Hn). rewrite Et in Hh. cbn [app] in Hh. rewrite Hh.
  change (46 =? 46) with true. cbv iota. destruct (Nat.eqb_spec k 0); [lia|]. cbn [Nat.ltb Nat.leb].
  cbn [embedded_ipv4]. unfold is_ascii_digit. replace ((48 <=? d) && (d <=? 57)) with true by lia. reflexivity.
Qed.

(** * The text of an IPv6 address: the first longest run of at least two zero pieces is written "::" *)
Fixpoint zrun (z : list bool) : nat := match z with true :: r => S (zrun r) | _ => 0%nat end.
Definition run_at (z : list bool) (i : nat) : nat := zrun (skipn i z).
Definition best_run (z : list bool) (i : nat) : Prop :=
  (i < length z)%nat /\ (2 <= run_at z i)%nat /\
  forall j, (j < length z)%nat -> (run_at z j <= run_at z i)%nat /\ ((j < i)%nat -> (run_at z j < run_at z i)%nat).
Definition colons (a : list Z) : list Z := join 0x3A (map (to_chars 16) a).

Definition check_best (z : list bool) : bool :=
  negb (carry_free 0 0 (zero_runs z 0)) ||
  (forallb (fun i => negb ((2 <=? run_at z i)%nat &&
       forallb (fun j => (run_at z j <=? run_at z i)%nat && (negb (j <? i)%nat || (run_at z j <? run_at z i)%nat)) (seq 0 8)) ||
       match ipv6_compress z with Some c => Nat.eqb c i | None => false end) (seq 0 8) &&
   (negb (forallb (fun j => (run_at z j <? 2)%nat) (seq 0 8)) || match ipv6_compress z with None => true | _ => false end)).
Lemma best_patterns : forallb check_best (bools 8) = true.
Proof. vm_compute. reflexivity. Qed.
Lemma compress_best z : length z = 8%nat -> carry_free 0 0 (zero_runs z 0) = true ->
  (forall i, best_run z i -> ipv6_compress z = Some i) /\
  ((forall j, (j < length z)%nat -> (run_at z j < 2)%nat) -> ipv6_compress z = None).
Proof.
  intros H Hc. pose proof best_patterns as P. rewrite forallb_forall in P. specialize (P z (bools_in 8 z H)). unfold check_best in P. rewrite Hc in P. cbn [negb orb] in P.
  apply andb_true_iff in P as [P1 P2]. rewrite forallb_forall in P1. split.
  - intros i (I1 & I2 & I3). rewrite H in *. specialize (P1 i). rewrite in_seq in P1. specialize (P1 ltac:(lia)). apply orb_true_iff in P1 as [P1|P1].
    + exfalso. rewrite negb_true_iff in P1. rewrite (proj2 (Nat.leb_le 2 (run_at z i))) in P1 by lia. cbn [andb] in P1.
      match type of P1 with ?b = false => assert (b = true); [|congruence] end. apply forallb_forall. intros j J. apply in_seq in J. destruct (I3 j) as [J1 J2]; [lia|].
      rewrite (proj2 (Nat.leb_le _ _) J1). cbn [andb]. destruct (Nat.ltb_spec j i) as [J3|J3]; [|easy]. cbn [negb orb]. apply Nat.ltb_lt. auto.
    + destruct (ipv6_compress z) as [c|]; [|easy]. apply Nat.eqb_eq in P1. now subst.
  - intros N. apply orb_true_iff in P2 as [P2|P2]; [|now destruct (ipv6_compress z)]. exfalso. rewrite negb_true_iff in P2.
    match type of P2 with ?b = false => assert (b = true); [|congruence] end. apply forallb_forall. intros j J. apply in_seq in J. apply Nat.ltb_lt, N. lia.
Qed.

Lemma emit_plain a : forall i c, (i + length a = 8)%nat -> (match c with Some c => (c < i)%nat | None => True end) -> ipv6_emit a i c false = colons a.
Proof.
  induction a as [|p a IH]; intros i c H Hc; [easy|]. cbn [length] in H. cbn [ipv6_emit andb].
  assert (E : ipv6_emit a (S i) c false = colons a) by (apply IH; [lia|destruct c; [lia|easy]]).
  assert (R : to_chars 16 p ++ (if Nat.eqb i 7 then [] else [0x3A]) ++ ipv6_emit a (S i) c false = colons (p :: a)).
  { rewrite E. unfold colons. cbn [map join]. destruct (Nat.eqb_spec i 7) as [E7|E7].
    - destruct a; [cbn; now rewrite app_nil_r|cbn [length] in H; lia].
    - destruct a; [cbn [length] in H; lia|easy]. }
  destruct c as [c|]; [|exact R]. destruct (Nat.eqb_spec c i); [lia|exact R].
Qed.
Lemma emit_skip a : forall i c, (i + length a = 8)%nat -> (c < i)%nat -> ipv6_emit a i (Some c) true = colons (skipn (zrun (map (Z.eqb 0) a)) a).
Proof.
  induction a as [|p a IH]; intros i c H Hc; [easy|]. cbn [length] in H. cbn [map zrun]. destruct (Z.eqb_spec 0 p) as [<-|N].
  - cbn [ipv6_emit andb skipn]. change (0 =? 0) with true. cbn match. apply IH; lia.
  - cbn [skipn]. rewrite <- (emit_plain (p :: a) i (Some c)) by (cbn [length]; lia). cbn [ipv6_emit andb]. destruct (Z.eqb_spec p 0); [lia|]. easy.
Qed.
Lemma emit_before a : forall i c, (i + length a = 8)%nat -> (i <= c)%nat -> (c < 8)%nat -> nth (c - i) (map (Z.eqb 0) a) false = true ->
  ipv6_emit a i (Some c) false = concat (map (fun p => to_chars 16 p ++ [0x3A]) (firstn (c - i) a)) ++ (if Nat.eqb c 0 then [0x3A; 0x3A] else [0x3A]) ++
    colons (skipn (c - i + run_at (map (Z.eqb 0) a) (c - i)) a).
Proof.
  induction a as [|p a IH]; intros i c H H1 H2 Hn; [cbn [length] in H; lia|]. cbn [length] in H. cbn [ipv6_emit andb]. destruct (Nat.eqb_spec c i) as [-> |N].
  - rewrite Nat.sub_diag in *. cbn [firstn map concat app skipn nth] in *. unfold run_at. cbn [map skipn]. cbn [zrun]. rewrite Hn. cbn [Nat.add skipn]. rewrite emit_skip by lia. easy.
  - replace (c - i)%nat with (S (c - S i)) in * by lia. cbn [map nth] in Hn. rewrite IH by (lia || easy). cbn [firstn map concat]. rewrite <- !app_assoc.
    destruct (Nat.eqb_spec i 7); [lia|]. f_equal.
Qed.
Lemma colons_pre a : a <> [] -> concat (map (fun p => to_chars 16 p ++ [0x3A]) a) = colons a ++ [0x3A].
Proof.
  induction a as [|p a IH]; intros N; [easy|]. destruct a as [|q a]; [unfold colons; cbn; now rewrite app_nil_r|]. cbn [map concat]. cbn [map concat] in IH. rewrite IH by easy.
  unfold colons. cbn [map join]. now rewrite <- !app_assoc.
Qed.
Lemma zrun_pos z i : (1 <= run_at z i)%nat -> nth i z false = true.
Proof. revert i. induction z as [|b z IH]; intros [|i] H; cbn in *; try lia; [destruct b; [easy|lia]|]. now apply IH. Qed.
Lemma serialize_ipv6_text a : length a = 8%nat -> carry_free 0 0 (zero_runs (map (Z.eqb 0) a) 0) = true ->
  let z := map (Z.eqb 0) a in
  (forall i, best_run z i -> serialize_ipv6 a = colons (firstn i a) ++ [0x3A; 0x3A] ++ colons (skipn (i + run_at z i) a)) /\
  ((forall j, (j < 8)%nat -> (run_at z j < 2)%nat) -> serialize_ipv6 a = colons a).
Proof.
  intros H Hc z. assert (Hz : length z = 8%nat) by (unfold z; now rewrite map_length). destruct (compress_best z Hz Hc) as [C1 C2]. unfold serialize_ipv6. fold z. split.
  - intros i B. rewrite (C1 i B). destruct B as (B1 & B2 & _). rewrite Hz in B1. rewrite (emit_before a 0 i) by (try lia; rewrite Nat.sub_0_r; apply zrun_pos; fold z; lia).
    rewrite Nat.sub_0_r. fold z. destruct (Nat.eqb_spec i 0) as [-> |N]; [easy|]. rewrite colons_pre by (destruct a, i; easy). now rewrite <- app_assoc.
  - intros N. rewrite C2 by (rewrite Hz; easy). now apply emit_plain.
Qed.
