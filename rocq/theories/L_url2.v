(** Lemmas for M_url: the parser is total and takes a number of steps linear in the input. *)
From Coq Require Import String.
From Coq Require Import ZArith List Bool Lia.
From Verif Require Import M_unicode M_infra M_percent M_ip M_encoding M_labels M_url.
From Verif Require Import L_unicode L_url.
Import ListNotations.
Open Scope list_scope.
Open Scope Z_scope.

Definition rank (s : pstate) : Z :=
  match s with
  | SchemeStart => 0 | Scheme => 1 | NoScheme => 2 | SpecialRelativeOrAuthority => 3 | Relative => 4 | RelativeSlash => 5
  | SpecialAuthoritySlashes => 6 | SpecialAuthorityIgnoreSlashes => 7 | PathOrAuthority => 7 | Authority => 8 | Host => 9 | Hostname => 9
  | Port => 10 | File => 11 | FileSlash => 12 | FileHost => 13 | PathStart => 14 | Path => 15 | CannotBeABaseUrlPath => 15
  | Query => 16 | Fragment => 17
  end.

Definition is_address (h : host) : Prop := match h with HIpv4 _ | HIpv6 _ | HEmpty => True | _ => False end.

Lemma eqs_true a b : eqs a b = true <-> a = b.
Proof. unfold eqs. destruct (list_eq_dec Z.eq_dec a b); split; intros; congruence. Qed.

Section Total.
Variable idna : list Z -> option (list Z).
Variable input : list Z.
Variable base : option url.
Variable over : option pstate.
Variable fuel : nat.
Variable u0 : url.

(** A piece of the input; the host setter on a file URL sees the first code point twice. *)
Definition piece (s : list Z) : Prop :=
  (exists a b, input = a ++ s ++ b) \/ (over <> None /\ exists c r b, input = c :: r /\ c :: input = s ++ b).
Definition file_possible : Prop :=
  (exists b, base = Some b /\ scheme b = lit "file") \/ scheme u0 = lit "file" \/
  (exists r, map cp_lower input = lit "file" ++ 0x3A :: r).

Hypothesis Sc : Forall scalar input.
Hypothesis Fu : (List.length input + 1 < fuel)%nat.
(** What has to hold if the run is undefined. *)
Variable Trouble : Prop.
Hypothesis HH : forall s b, piece s -> b = true \/ s <> [] -> (exists h, parse_host idna fuel s b = Val h) \/ (Trouble /\ parse_host idna fuel s b = Bad).
Hypothesis HF : forall s h, piece s -> parse_host idna fuel s false = Val h -> file_possible -> is_address h -> Trouble.
Hypothesis HS : over = Some SchemeStart -> scheme u0 = lit "file" -> uhost u0 = None -> Trouble.

Definition tail_piece (p : parser) : Prop := exists a, firstn (Z.to_nat (p_pointer p)) input = a ++ p_buffer p.
Definition doubled (p : parser) : Prop := over <> None /\ exists c r, input = c :: r /\ p_buffer p = c :: firstn (Z.to_nat (p_pointer p)) input.

Definition fine (p : parser) : Prop :=
  match p_state p with
  | SchemeStart => p_pointer p = 0 /\ p_buffer p = [] /\ (over <> None -> over = Some SchemeStart /\ p_url p = u0)
  | Scheme => p_buffer p = map cp_lower (firstn (Z.to_nat (p_pointer p)) input) /\ (over <> None -> over = Some SchemeStart /\ p_url p = u0)
  | SpecialRelativeOrAuthority | Relative | RelativeSlash => p_buffer p = [] /\ base <> None
  | Authority => tail_piece p
  | Host | Hostname => tail_piece p /\ (over <> None -> scheme (p_url p) = lit "file" -> p_pointer p = 0 /\ p_buffer p = [])
  | FileHost => (tail_piece p \/ doubled p) /\ scheme (p_url p) = lit "file"
  | File => p_buffer p = [] /\ file_possible
  | FileSlash => p_buffer p = [] /\ scheme (p_url p) = lit "file"
  | Port | Path => True
  | Query => Forall scalar (p_buffer p) /\ (List.length (p_buffer p) <= Z.to_nat (p_pointer p))%nat /\ query (p_url p) <> None
  | Fragment => p_buffer p = [] /\ fragment (p_url p) <> None
  | CannotBeABaseUrlPath => p_buffer p = [] /\ path (p_url p) <> []
  | _ => p_buffer p = []
  end.

Definition noover (s : pstate) : Prop :=
  match s with
  | SchemeStart | Scheme | Host | Hostname | Port | FileHost | PathStart | Path | Query | Fragment => True
  | _ => over = None
  end.

Record Inv (p : parser) : Prop := {
  I_ptr : 0 <= p_pointer p <= size input;
  I_enc : p_enc p = UTF_8;
  I_file : scheme (p_url p) = lit "file" -> file_possible;
  I_fine : fine p;
  I_over : noover (p_state p) }.

Definition progress (p q : parser) : Prop :=
  rank (p_state p) < rank (p_state q) \/ (rank (p_state p) = rank (p_state q) /\ p_pointer q = p_pointer p + 1).
Definition good (p : parser) (r : outcome verdict) : Prop :=
  (Trouble /\ r = Bad) \/
  exists v, r = Val v /\ match v with Go q => p_pointer q < size input -> Inv (move 1 q) /\ progress p (move 1 q) | _ => True end.

Lemma good_go p q : (p_pointer q < size input -> Inv (move 1 q) /\ progress p (move 1 q)) -> good p (Val (Go q)).
Proof. intros H. right. exists (Go q). split; [reflexivity|exact H]. Qed.
Lemma good_bad p : Trouble -> good p Bad.
Proof. intros T. left. split; [exact T|reflexivity]. Qed.
Lemma good_fail p u : good p (Val (Failure u)).
Proof. right. eexists. split; [reflexivity|exact I]. Qed.
Lemma good_ret p u : good p (Val (Return u)).
Proof. right. eexists. split; [reflexivity|exact I]. Qed.

Lemma current_in p : 0 <= p_pointer p < size input ->
  nth_error input (Z.to_nat (p_pointer p)) = Some (current input p).
Proof.
  intros H. unfold current. replace (0 <=? p_pointer p) with true by lia. replace (p_pointer p <? size input) with true by lia. cbn [andb].
  apply nth_error_nth'. unfold size in H. lia.
Qed.
Lemma current_out p : p_pointer p = size input -> current input p = EOF.
Proof. intros H. unfold current. replace (p_pointer p <? size input) with false by lia. now rewrite andb_false_r. Qed.

Lemma firstn_snoc {A} (l : list A) n x : nth_error l n = Some x -> firstn (S n) l = firstn n l ++ [x].
Proof.
  revert n. induction l as [|a l IH]; intros [|n] H; cbn in H; try discriminate; cbn.
  - now injection H as ->.
  - f_equal. apply (IH n H).
Qed.

Lemma scalar_at p : 0 <= p_pointer p < size input -> scalar (current input p).
Proof. intros H. apply current_in in H. apply nth_error_In in H. rewrite Forall_forall in Sc. exact (Sc _ H). Qed.

Lemma at_total p k : 0 <= p_pointer p + k < size input -> exists a, at_ input p k = Val a.
Proof.
  intros H. unfold at_. replace (_ <? 0) with false by lia.
  destruct (nth_error input (Z.to_nat (p_pointer p + k))) eqn:E; [eexists; reflexivity|].
  apply nth_error_None in E. unfold size in H. lia.
Qed.

Lemma enc1 c set : scalar c -> utf8_percent_encode fuel [c] set = Val (pe set [c]).
Proof. intros H. apply pe_spec; [constructor; [exact H|constructor]|cbn; lia]. Qed.

Lemma credentials_total l : forall t u, Forall scalar l -> exists t' u', credentials fuel l t u = Val (t', u') /\ scheme u' = scheme u.
Proof.
  induction l as [|c l IH]; intros t u F; [exists t, u; split; reflexivity|]. inversion F as [|x y Hc Fl]; subst. cbn [credentials].
  destruct (_ && _); [apply IH, Fl|]. rewrite enc1 by exact Hc. cbn [obind].
  destruct (IH t (if t then set_pass (password u ++ pe is_userinfo_percent_encode_set [c]) u else set_user (username u ++ pe is_userinfo_percent_encode_set [c]) u) Fl) as (t' & u' & -> & E).
  exists t', u'. split; [reflexivity|]. rewrite E. now destruct t.
Qed.

Lemma percent_check_total p c : 0 <= p_pointer p -> percent_check input p c = Val tt.
Proof.
  intros H. unfold percent_check. destruct ((c =? 0x25) && (3 <=? left_ input p)) eqn:E; [|reflexivity].
  unfold left_ in E. destruct (at_total p 1 ltac:(lia)) as [a ->]. cbn [obind]. destruct (is_ascii_hex_digit a); [|reflexivity].
  destruct (at_total p 2 ltac:(lia)) as [b ->]. reflexivity.
Qed.

Lemma piece_tail p : tail_piece p -> piece (p_buffer p).
Proof.
  intros [a E]. left. exists a, (skipn (Z.to_nat (p_pointer p)) input). rewrite app_assoc, <- E. symmetry. apply firstn_skipn.
Qed.
Lemma piece_doubled p : doubled p -> piece (p_buffer p).
Proof.
  intros (O & c & r & E & B). right. split; [exact O|]. exists c, r, (skipn (Z.to_nat (p_pointer p)) input). split; [exact E|].
  rewrite B. cbn [app]. now rewrite firstn_skipn.
Qed.
Lemma piece_scalar s : piece s -> Forall scalar s.
Proof.
  intros [(a & b & E)|(_ & c & r & b & E & E2)].
  - rewrite E in Sc. apply Forall_app in Sc as [_ S]. now apply Forall_app in S as [S _].
  - assert (Forall scalar (c :: input)) as S. { constructor; [|exact Sc]. rewrite E in Sc. now inversion Sc. }
    rewrite E2 in S. now apply Forall_app in S as [S _].
Qed.
Lemma tail_length p : tail_piece p -> (List.length (p_buffer p) <= Z.to_nat (p_pointer p))%nat.
Proof.
  intros [a E]. apply (f_equal (@List.length Z)) in E. rewrite firstn_length, app_length in E. lia.
Qed.

(** Moving to the next code point. *)
Lemma next_firstn p : 0 <= p_pointer p < size input ->
  firstn (Z.to_nat (p_pointer p + 1)) input = firstn (Z.to_nat (p_pointer p)) input ++ [current input p].
Proof. intros H. replace (Z.to_nat (p_pointer p + 1)) with (S (Z.to_nat (p_pointer p))) by lia. apply firstn_snoc, current_in, H. Qed.

Lemma tail_push p q : tail_piece p -> 0 <= p_pointer p < size input -> p_pointer q = p_pointer p + 1 ->
  p_buffer q = p_buffer p ++ [current input p] -> tail_piece q.
Proof. intros [a E] H Q B. exists a. rewrite Q, B, next_firstn, E by exact H. now rewrite app_assoc. Qed.
Lemma tail_nil p : p_buffer p = [] -> tail_piece p.
Proof. intros E. eexists. now rewrite E, app_nil_r. Qed.

Lemma not_over : overridden over = false -> over = None.
Proof. unfold overridden. destruct over; [discriminate|reflexivity]. Qed.
Lemma is_over : overridden over = true -> over <> None.
Proof. unfold overridden. destruct over; [intros _ H; discriminate H|discriminate]. Qed.

Lemma file_special u : scheme u = lit "file" -> is_special u = true.
Proof. intros E. unfold is_special. rewrite E. vm_compute. reflexivity. Qed.

Ltac pj := cbn [p_state p_buffer p_at p_brackets p_token p_pointer p_enc p_url s_state s_buffer s_at s_brackets s_token s_pointer s_enc s_url
  on_url move push scheme username password uhost port path query fragment cannot_be_base
  set_scheme set_user set_pass set_host set_port set_path set_query set_fragment set_cannot] in *.
Ltac plia := repeat match goal with H : _ = true |- _ => clear H | H : _ = false |- _ => clear H | H : _ = Val _ |- _ => clear H end; lia.
Ltac prog := unfold progress; pj; match goal with E : p_state _ = _ |- _ => rewrite E end; cbn [rank]; plia.
Ltac nov := try match goal with E : p_state ?p = _ |- noover (p_state ?p) => rewrite E end; cbn [noover];
  first [exact I|assumption|apply not_over; assumption|apply not_over, negb_true_iff; assumption|idtac].
Ltac step := unfold go, stay; apply good_go; intros Q; pj; split; [constructor; pj; [plia|assumption|try assumption|unfold fine; pj; try match goal with E : p_state ?p = _ |- context [p_state ?p] => rewrite E end|nov]|try prog].
Ltac split_ifs := repeat match goal with |- good _ (if ?b then _ else _) => destruct b eqn:? end.
Ltac stop := first [apply good_fail|apply good_ret].

Lemma scheme_start_good p : p_state p = SchemeStart -> Inv p -> good p (on_scheme_start over p (current input p)).
Proof.
  intros E [Ip Ie If In Io]. unfold fine in In. rewrite E in In, Io. cbn [noover] in Io. destruct In as (P0 & B & U). unfold on_scheme_start. split_ifs.
  - assert (0 < size input).
    { destruct (Z.eq_dec (size input) 0) as [Z0|]; [|lia]. rewrite current_out in * by lia. discriminate. }
    step. split.
    + rewrite B. pose proof (next_firstn p ltac:(lia)) as N. rewrite N, P0, map_app. reflexivity.
    + exact U.
  - step. exact B.
  - stop.
Qed.

Lemma scheme_file p c : p_buffer p = map cp_lower (firstn (Z.to_nat (p_pointer p)) input) -> 0 <= p_pointer p <= size input ->
  current input p = c -> c = 0x3A -> p_buffer p = lit "file" -> file_possible.
Proof.
  intros B Ip C C2 F. right. right. assert (p_pointer p < size input) as L.
  { destruct (Z.eq_dec (p_pointer p) (size input)) as [Z0|]; [|lia]. rewrite (current_out p Z0) in C. subst c. discriminate C2. }
  pose proof (next_firstn p ltac:(lia)) as N. rewrite C, C2 in N.
  exists (map cp_lower (skipn (Z.to_nat (p_pointer p + 1)) input)).
  rewrite <- (firstn_skipn (Z.to_nat (p_pointer p + 1)) input) at 1. rewrite map_app, N, map_app, <- B, F. reflexivity.
Qed.

Lemma scheme_good p : p_state p = Scheme -> Inv p -> good p (on_scheme input base over p (current input p)).
Proof.
  intros E [Ip Ie If In Io]. unfold fine in In. rewrite E in In, Io. cbn [noover] in Io. destruct In as (B & U). unfold on_scheme.
  destruct (is_ascii_alphanumeric (current input p) || _ || _ || _) eqn:A.
  { assert (p_pointer p < size input).
    { destruct (Z.eq_dec (p_pointer p) (size input)) as [Z0|]; [|lia]. rewrite current_out in A by lia. discriminate A. }
    step. split; [|exact U]. rewrite next_firstn, map_app, B by lia. reflexivity. }
  destruct (current input p =? 0x3A) eqn:C.
  2: { destruct (overridden over) eqn:O; cbn [negb]; [stop|]. step. reflexivity. }
  apply Z.eqb_eq in C. assert (L : p_pointer p < size input).
  { destruct (Z.eq_dec (p_pointer p) (size input)) as [Z0|]; [|lia]. rewrite (current_out p Z0) in C. discriminate C. }
  cbv zeta. split_ifs; try stop.
  assert (S4 : (exists b, (if overridden over && eqs (scheme (p_url p)) (lit "file")
     then match uhost (p_url p) with None => Bad | Some HEmpty => Val true | Some _ => Val false end else Val false) = Val b) \/
     (Trouble /\ (if overridden over && eqs (scheme (p_url p)) (lit "file")
     then match uhost (p_url p) with None => Bad | Some HEmpty => Val true | Some _ => Val false end else Val false) = Bad)).
  { destruct (overridden over) eqn:O; cbn [andb]; [|left; eexists; reflexivity]. destruct (eqs (scheme (p_url p)) (lit "file")) eqn:F; [|left; eexists; reflexivity].
    apply eqs_true in F. destruct (U (is_over O)) as [Eo Eu]. rewrite Eu in *. specialize (HS Eo F).
    destruct (uhost u0) as [[]|]; try (left; eexists; reflexivity). right. split; [exact (HS eq_refl)|reflexivity]. }
  destruct S4 as [[b ->]|[T ->]]; [|now apply good_bad]. cbn [obind]. destruct b; [stop|]. destruct (overridden over) eqn:O; [stop|]. pj.
  assert (FP : p_buffer p = lit "file" -> file_possible) by (intros F; exact (scheme_file p _ B Ip eq_refl C F)).
  destruct (eqs (p_buffer p) (lit "file")) eqn:F.
  { apply eqs_true in F. 
    assert (exists a, (if left_ input (s_buffer [] (s_url (set_scheme (p_buffer p) (p_url p)) p)) <? 3 then Val 0
       else obind (at_ input (s_buffer [] (s_url (set_scheme (p_buffer p) (p_url p)) p)) 1)
          (fun a => if a =? 0x2F then at_ input (s_buffer [] (s_url (set_scheme (p_buffer p) (p_url p)) p)) 2 else Val 0)) = Val a) as [a R].
    { unfold left_. pj. destruct (_ <? 3) eqn:L3; [eexists; reflexivity|].
      destruct (at_total (s_buffer [] (s_url (set_scheme (p_buffer p) (p_url p)) p)) 1) as [a ->]; [pj; lia|]. cbn [obind].
      destruct (a =? 0x2F); [|eexists; reflexivity].
      apply at_total. pj. lia. }
    pj. rewrite R. cbn [obind]. step. split; [reflexivity|apply FP, F]. }
  unfold is_special. pj. 
  destruct (is_special_scheme (p_buffer p) && _) eqn:SB.
  { step. split; [reflexivity|]. intros N. rewrite N, andb_false_r in SB. discriminate SB. }
  destruct (is_special_scheme (p_buffer p)) eqn:SP.
  { step. reflexivity. }
  assert (exists a, (if 2 <? left_ input (s_buffer [] (s_url (set_scheme (p_buffer p) (p_url p)) p)) then
       at_ input (s_buffer [] (s_url (set_scheme (p_buffer p) (p_url p)) p)) 1 else Val 0) = Val a /\ (a = 0x2F -> p_pointer p + 2 < size input)) as (a & R & L2).
  { unfold left_. pj. destruct (2 <? _) eqn:L3; [|eexists; split; [reflexivity|discriminate]].
    destruct (at_total (s_buffer [] (s_url (set_scheme (p_buffer p) (p_url p)) p)) 1) as [a ->]; [pj; lia|].
    exists a. split; [reflexivity|]. intros _. lia. }
  pj. rewrite R. cbn [obind]. destruct (a =? 0x2F) eqn:A2.
  - step. reflexivity.
  - step. split; [reflexivity|]. destruct (path (p_url p)); discriminate.
Qed.

Lemma no_scheme_good p : p_state p = NoScheme -> Inv p -> good p (on_no_scheme base p (current input p)).
Proof.
  intros E [Ip Ie If In Io]. unfold fine in In. rewrite E in In, Io. cbn [noover] in Io. unfold on_no_scheme. destruct base as [b|] eqn:Eb; [|stop].
  assert (FP : scheme b = lit "file" -> file_possible) by (intros F; left; exists b; split; [exact Eb|exact F]).
  split_ifs; try stop.
  - step. split; [exact In|discriminate].
  - step. rewrite Eb. split; [exact In|discriminate].
  - step. split; [exact In|]. apply FP. apply eqs_true. now apply negb_false_iff.
Qed.

Lemma read_next p c : 0 <= p_pointer p ->
  exists a, (if (c =? 0x2F) && (2 <=? left_ input p) then at_ input p 1 else Val 0) = Val a /\ (a = 0x2F -> p_pointer p + 1 < size input).
Proof.
  intros H. destruct ((c =? 0x2F) && _) eqn:L; [|eexists; split; [reflexivity|discriminate]]. unfold left_ in L.
  destruct (at_total p 1 ltac:(lia)) as [a ->]. exists a. split; [reflexivity|]. lia.
Qed.

Lemma special_relative_good p : p_state p = SpecialRelativeOrAuthority -> Inv p ->
  good p (on_special_relative_or_authority input p (current input p)).
Proof.
  intros E [Ip Ie If In Io]. unfold fine in In. rewrite E in In, Io. cbn [noover] in Io. destruct In as [B N]. unfold on_special_relative_or_authority.
  destruct (read_next p (current input p) ltac:(lia)) as (a & -> & L). cbn [obind]. split_ifs.
  - step. exact B.
  - step. split; assumption.
Qed.

Lemma path_or_authority_good p : p_state p = PathOrAuthority -> Inv p -> good p (on_path_or_authority p (current input p)).
Proof.
  intros E [Ip Ie If In Io]. unfold fine in In. rewrite E in In, Io. cbn [noover] in Io. unfold on_path_or_authority. split_ifs.
  - step. apply tail_nil. exact In.
  - step. exact I.
Qed.

Lemma relative_good p : p_state p = Relative -> Inv p -> good p (on_relative base p (current input p)).
Proof.
  intros E [Ip Ie If In Io]. unfold fine in In. rewrite E in In, Io. cbn [noover] in Io. destruct In as [B N]. unfold on_relative, with_base.
  destruct base as [b|] eqn:Eb; [|congruence]. cbv zeta.
  assert (FP : scheme b = lit "file" -> file_possible) by (intros F; left; exists b; split; [exact Eb|exact F]).
  split_ifs; pj.
  - step. rewrite Eb. split; assumption.
  - step. rewrite Eb. split; assumption.
  - step. rewrite B. repeat split; [constructor|cbn; lia|discriminate].
  - step. split; [exact B|discriminate].
  - step. exact I.
  - step. rewrite Eb. split; assumption.
Qed.

Lemma relative_slash_good p : p_state p = RelativeSlash -> Inv p -> good p (on_relative_slash base p (current input p)).
Proof.
  intros E [Ip Ie If In Io]. unfold fine in In. rewrite E in In, Io. cbn [noover] in Io. destruct In as [B N]. unfold on_relative_slash, with_base.
  destruct base as [b|] eqn:Eb; [|congruence]. split_ifs; pj.
  - step. exact B.
  - step. now apply tail_nil.
  - step. exact I.
Qed.

Lemma special_slashes_good p : p_state p = SpecialAuthoritySlashes -> Inv p ->
  good p (on_special_authority_slashes input p (current input p)).
Proof.
  intros E [Ip Ie If In Io]. unfold fine in In. rewrite E in In, Io. cbn [noover] in Io. unfold on_special_authority_slashes.
  destruct (read_next p (current input p) ltac:(lia)) as (a & -> & L). cbn [obind]. split_ifs; step; exact In.
Qed.

Lemma ignore_slashes_good p : p_state p = SpecialAuthorityIgnoreSlashes -> Inv p ->
  good p (on_special_authority_ignore_slashes p (current input p)).
Proof.
  intros E [Ip Ie If In Io]. unfold fine in In. rewrite E in In, Io. cbn [noover] in Io. unfold on_special_authority_ignore_slashes. split_ifs; step.
  - now apply tail_nil.
  - exact In.
Qed.

Lemma authority_good p : p_state p = Authority -> Inv p -> good p (on_authority fuel p (current input p)).
Proof.
  intros E [Ip Ie If In Io]. unfold fine in In. rewrite E in In, Io. cbn [noover] in Io. unfold on_authority.
  pose proof (piece_scalar _ (piece_tail _ In)) as S. destruct (_ =? 0x40).
  { cbv zeta. assert (Forall scalar (if p_at p then lit "%40" ++ p_buffer p else p_buffer p)) as S2.
    { destruct (p_at p); [|exact S]. apply Forall_app. split; [|exact S]. change (lit "%40") with [0x25; 0x34; 0x30]. repeat (apply Forall_cons; [left; lia|]); apply Forall_nil. }
    destruct (credentials_total _ (p_token p) (p_url p) S2) as (t & u & -> & Eu). cbn [obind]. step.
    - rewrite Eu. exact If.
    - now apply tail_nil. }
  destruct (ends_authority _ _) eqn:EA.
  { split_ifs; [stop|]. pose proof (tail_length _ In). step. split; [now apply tail_nil|]. 
    intros O. congruence. }
  assert (p_pointer p < size input).
  { destruct (Z.eq_dec (p_pointer p) (size input)) as [Z0|]; [|lia]. rewrite current_out in EA by lia. discriminate EA. }
  step. apply (tail_push p); pj; auto; lia.
Qed.

Lemma hostname_good_st p : p_state p = Host \/ p_state p = Hostname -> Inv p -> good p (on_hostname idna over fuel p (current input p)).
Proof.
  intros E [Ip Ie If In Io]. assert (tail_piece p /\ (over <> None -> scheme (p_url p) = lit "file" -> p_pointer p = 0 /\ p_buffer p = [])) as [T OF].
  { unfold fine in In. destruct E as [E|E]; rewrite E in In; exact In. }
  clear In Io. assert (R : rank (p_state p) = 9) by (destruct E as [E|E]; rewrite E; reflexivity).
  unfold on_hostname.
  assert (W : exists q, (if overridden over && eqs (scheme (p_url p)) (lit "file") then s_state FileHost (move (-1) p) else p) = q /\
    p_buffer q = p_buffer p /\ p_url q = p_url p /\ p_brackets q = p_brackets p /\ p_enc q = p_enc p /\
    ((overridden over && eqs (scheme (p_url p)) (lit "file") = true /\ p_state q = FileHost /\ p_pointer q = p_pointer p - 1 /\ p_buffer p = [] /\ p_pointer p = 0) \/
     (overridden over && eqs (scheme (p_url p)) (lit "file") = false /\ q = p))).
  { destruct (overridden over && eqs (scheme (p_url p)) (lit "file")) eqn:O; eexists; (split; [reflexivity|]); pj; repeat (split; [reflexivity|]).
    - left. apply andb_prop in O as [O1 O2]. apply eqs_true in O2. destruct (OF (is_over O1) O2) as [P0 B0].
      split; [reflexivity|]. split; [reflexivity|]. split; [lia|]. split; assumption.
    - right. split; reflexivity. }
  destruct W as (q & -> & Qb & Qu & Qk & Qe & W). cbv zeta. rewrite Qu, Qk, Qb.
  assert (PH : p_buffer p <> [] \/ is_special (p_url p) = false -> (exists h, parse_host idna fuel (p_buffer p) (negb (is_special (p_url p))) = Val h) \/
    (Trouble /\ parse_host idna fuel (p_buffer p) (negb (is_special (p_url p))) = Bad)).
  { intros H. apply HH; [apply piece_tail, T|]. destruct H as [H|H]; [right; exact H|left; now rewrite H]. }
  destruct ((current input p =? 0x3A) && negb (p_brackets p)).
  { destruct (p_buffer p) as [|b0 b] eqn:B; cbn [nonempty negb]; [stop|].
    destruct (PH ltac:(left; discriminate)) as [[h ->]|[T2 ->]]; [|now apply good_bad]. cbn [obind].
    assert (G : good p (let p1 := s_buffer [] (on_url (set_host (Some h)) q) in
      if match over with Some Hostname => true | _ => false end then ret p1 else go Port p1)).
    { cbv zeta. split_ifs; [stop|]. destruct W as [(_ & _ & _ & B2 & _)|[_ ->]]; [discriminate|].
      unfold go. apply good_go. intros Q. pj. split; [constructor; pj; [plia|assumption|assumption|exact I|exact I]|].
      unfold progress. pj. rewrite R. cbn [rank]. lia. }
    destruct h; try exact G. stop. }
  destruct (ends_authority (p_url p) (current input p)) eqn:EA.
  { cbn [move s_pointer p_buffer]. rewrite Qb.
    destruct (is_special (p_url p) && negb (nonempty (p_buffer p))) eqn:SE; [stop|].
    destruct (overridden over && negb (nonempty (p_buffer p)) && _); [stop|].
    destruct PH as [[h ->]|[T2 ->]]; [destruct (p_buffer p); [right|left; discriminate]; destruct (is_special (p_url p)); [discriminate SE|reflexivity]| |now apply good_bad].
    cbn [obind].
    assert (G : good p (let p1 := s_buffer [] (on_url (set_host (Some h)) (move (-1) q)) in if overridden over then ret p1 else go PathStart p1)).
    { cbv zeta. destruct (overridden over) eqn:O; [stop|]. destruct W as [(W & _)|[_ ->]]; [cbn in W; discriminate W|].
      unfold go. apply good_go. intros Q. pj. split; [constructor; pj; [plia|assumption|assumption|reflexivity|exact I]|].
      unfold progress. pj. rewrite R. cbn [rank]. lia. }
    destruct h; try exact G. stop. }
  assert (L : p_pointer p < size input).
  { destruct (Z.eq_dec (p_pointer p) (size input)) as [Z0|]; [|lia]. rewrite current_out in EA by lia. discriminate EA. }
  assert (G : forall k, good p (stay (push [current input p] (s_brackets k q)))).
  { intros k. unfold stay. apply good_go. intros Q. pj. destruct W as [(W & Qs & Qp & B0 & P0)|[W ->]].
    - apply andb_prop in W as [W1 W2]. apply eqs_true in W2. split; [constructor; pj; [plia|congruence|rewrite Qu; assumption| |rewrite Qs; exact I]|].
      + unfold fine. pj. rewrite Qs, Qu. split; [|exact W2]. right. split; [exact (is_over W1)|].
        pose proof (current_in p ltac:(lia)) as N. rewrite P0 in N. destruct input as [|c r] eqn:Ei; [discriminate N|]. change (Some c = Some (current (c :: r) p)) in N. injection N as N1.
        exists c, r. split; [reflexivity|]. pj. rewrite Qb, B0, Qp, P0. change ([current (c :: r) p] = [c]). f_equal. symmetry. exact N1.
      + unfold progress. pj. rewrite R, Qs. cbn [rank]. lia.
    - assert (T2 : tail_piece (move 1 (push [current input p] (s_brackets k p)))) by (apply (tail_push p); pj; auto; lia).
      assert (OF2 : over <> None -> scheme (p_url p) = lit "file" -> False).
      { intros O F. apply eqs_true in F. rewrite F, andb_true_r in W. apply not_over in W. contradiction. }
      split; [constructor; pj; [plia|assumption|assumption| |]|].
      + unfold fine. pj. destruct E as [E|E]; rewrite E; (split; [exact T2|]; intros O F; destruct (OF2 O F)).
      + destruct E as [E|E]; rewrite E; exact I.
      + unfold progress. pj. right. split; lia. }
  destruct (current input p =? 0x5B); [|].
  - destruct (current input p =? 0x5D); [apply (G false)|apply (G true)].
  - destruct (current input p =? 0x5D); [apply (G false)|].
    specialize (G (p_brackets q)). destruct q; exact G.
Qed.

Lemma port_good p : p_state p = Port -> Inv p -> good p (on_port over p (current input p)).
Proof.
  intros E [Ip Ie If In Io]. unfold fine in In. rewrite E in In, Io. cbn [noover] in Io. unfold on_port.
  destruct (is_ascii_digit (current input p)) eqn:D.
  { step. exact I. }
  destruct (ends_authority _ _ || _); [|stop]. cbv zeta.
  destruct (nonempty (p_buffer p)) eqn:N.
  - destruct (_ || _); [stop|]. destruct (overridden over); [stop|]. step. reflexivity.
  - destruct (overridden over); [stop|]. step. destruct (p_buffer p); [reflexivity|discriminate N].
Qed.

Lemma file_good p : p_state p = File -> Inv p -> good p (on_file input base p (current input p)).
Proof.
  intros E [Ip Ie If In Io]. unfold fine in In. rewrite E in In, Io. cbn [noover] in Io. destruct In as [B FP]. unfold on_file. cbv zeta. split_ifs; pj.
  - step; [intros _; exact FP|]. split; [exact B|reflexivity].
  - assert (G : good p (go Path (move (-1) (on_url (fun u => set_host (Some HEmpty) (set_scheme (lit "file") u)) p)))).
    { step; [intros _; exact FP|exact I]. }
    destruct base as [b|]; [|exact G]. destruct (eqs _ _); [|exact G]. split_ifs; pj.
    + step; [intros _; exact FP|]. rewrite B. split; [constructor|]. split; [cbn; lia|discriminate].
    + step; [intros _; exact FP|]. split; [exact B|discriminate].
    + step; [intros _; exact FP|exact I].
    + step; [intros _; exact FP|split; assumption].
Qed.

Lemma file_slash_good p : p_state p = FileSlash -> Inv p -> good p (on_file_slash input base p (current input p)).
Proof.
  intros E [Ip Ie If In Io]. unfold fine in In. rewrite E in In, Io. cbn [noover] in Io. destruct In as [B FP]. unfold on_file_slash. cbv zeta. split_ifs; pj.
  - step. split; [left; now apply tail_nil|exact FP].
  - assert (G : forall q, p_pointer q = p_pointer p -> p_enc q = UTF_8 -> scheme (p_url q) = scheme (p_url p) -> good p (go Path (move (-1) q))).
    { intros q Qp Qe Qs. unfold go. apply good_go. intros Q. pj. split; [constructor; pj; [plia|exact Qe|rewrite Qs; exact If|exact I|exact I]|].
      prog. }
    destruct base as [b|]; [|apply G; auto]. destruct (eqs _ _); [|apply G; auto]. apply G; pj; auto.
    destruct (path b); [reflexivity|]. destruct (_ && _); reflexivity.
Qed.

Lemma file_host_good p : p_state p = FileHost -> Inv p -> good p (on_file_host idna over fuel p (current input p)).
Proof.
  intros E [Ip Ie If In Io]. unfold fine in In. rewrite E in In, Io. cbn [noover] in Io. destruct In as [T FS]. unfold on_file_host. cbv zeta.
  assert (Pc : piece (p_buffer p)) by (destruct T as [T|T]; [apply piece_tail, T|apply piece_doubled, T]).
  destruct (_ || _ || _ || _ || _) eqn:EA.
  { cbn [move s_pointer p_buffer]. destruct (negb (overridden over) && _).
    { step. exact I. }
    destruct (p_buffer p) as [|b0 b] eqn:B; cbn [nonempty negb].
    { destruct (overridden over); [stop|]. step. exact B. }
    destruct (HH (b0 :: b) (negb (is_special (p_url p))) Pc ltac:(right; discriminate)) as [[h Eh]|[T2 Eh]]; pj; rewrite Eh; cbn [obind]; [|now apply good_bad].
    rewrite (file_special _ FS) in Eh. cbn [negb] in Eh. pose proof (HF _ _ Pc Eh (If FS)) as NA.
    destruct h; cbn [is_address] in NA; try stop; cbn [host_equals of_option obind]; try (apply good_bad, NA; exact I).
    all: destruct (overridden over); [stop|]; step; reflexivity. }
  assert (L : p_pointer p < size input).
  { destruct (Z.eq_dec (p_pointer p) (size input)) as [Z0|]; [|lia]. rewrite current_out in EA by lia. discriminate EA. }
  step. split; [|exact FS]. destruct T as [T|(O & c & r & Ei & B)].
  - left. apply (tail_push p); pj; auto; lia.
  - right. split; [exact O|]. exists c, r. split; [exact Ei|]. pj. rewrite next_firstn, B by lia. reflexivity.
Qed.

Lemma path_start_good p : p_state p = PathStart -> Inv p -> good p (on_path_start over p (current input p)).
Proof.
  intros E [Ip Ie If In Io]. unfold fine in In. rewrite E in In, Io. cbn [noover] in Io. unfold on_path_start.
  assert (G : forall b : bool, good p (go Path (if b then p else move (-1) p))).
  { intros b. destruct b; step; exact I. }
  split_ifs; [apply G| | |apply G|].
  - step. rewrite In. split; [constructor|]. split; [cbn; lia|discriminate].
  - step. split; [exact In|discriminate].
  - step. exact In.
Qed.

Lemma shorten_scheme u : scheme (shorten_urls_path u) = scheme u.
Proof. unfold shorten_urls_path. destruct (path u) as [|x [|y l]]; try reflexivity. now destruct (_ && _). Qed.

Lemma path_good p : p_state p = Path -> Inv p -> good p (on_path input over fuel p (current input p)).
Proof.
  intros E [Ip Ie If In Io]. unfold fine in In. rewrite E in In, Io. cbn [noover] in Io. unfold on_path. cbv zeta.
  destruct (_ || _ || _ || _) eqn:EA.
  { match goal with |- good _ (stay (if _ then s_state Fragment (on_url _ (if _ then s_state Query (on_url _ (s_buffer [] (s_url ?v p))) else _)) else _)) => set (u := v) end.
    assert (Eu : scheme u = scheme (p_url p)).
    { subst u. destruct (is_double_dot_path_segment _); [|destruct (is_single_dot_path_segment _)].
      - match goal with |- scheme (if ?b then _ else _) = _ => destruct b end; cbn [scheme set_path]; now rewrite ?shorten_scheme.
      - match goal with |- scheme (if ?b then _ else _) = _ => destruct b end; reflexivity.
      - reflexivity. }
    clearbody u. destruct (current input p =? 0x3F), (current input p =? 0x23); pj; step; try (rewrite Eu; exact If); try exact I.
    - split; [reflexivity|discriminate].
    - split; [constructor|]. split; [cbn; lia|discriminate].
    - split; [reflexivity|discriminate]. }
  assert (L : p_pointer p < size input).
  { destruct (Z.eq_dec (p_pointer p) (size input)) as [Z0|]; [|lia]. rewrite current_out in EA by lia. discriminate EA. }
  assert (exists a, (if (current input p =? 0x25) && (2 <=? left_ input p) then at_ input p 1 else Val 0) = Val a) as [a ->].
  { destruct ((current input p =? 0x25) && (2 <=? left_ input p)) eqn:C; [|eexists; reflexivity]. unfold left_ in C. apply at_total. lia. }
  cbn [obind]. rewrite enc1 by (apply scalar_at; lia). cbn [obind]. step. exact I.
Qed.

Lemma cannot_good p : p_state p = CannotBeABaseUrlPath -> Inv p -> good p (on_cannot_be_a_base_url_path input fuel p (current input p)).
Proof.
  intros E [Ip Ie If In Io]. unfold fine in In. rewrite E in In, Io. cbn [noover] in Io. destruct In as [B N]. unfold on_cannot_be_a_base_url_path.
  split_ifs.
  - step. rewrite B. split; [constructor|]. split; [cbn; lia|discriminate].
  - step. split; [exact B|discriminate].
  - rewrite percent_check_total by lia. cbn [obind]. destruct (current input p =? EOF) eqn:C; cbn [negb].
    + step. split; assumption.
    + assert (L : p_pointer p < size input).
      { destruct (Z.eq_dec (p_pointer p) (size input)) as [Z0|]; [|lia]. rewrite current_out in C by lia. discriminate C. }
      destruct (path (p_url p)) as [|s r]; [congruence|]. rewrite enc1 by (apply scalar_at; lia). cbn [obind]. step.
      split; [exact B|discriminate].
Qed.

Lemma query_good p : p_state p = Query -> Inv p -> good p (on_query input over fuel p (current input p)).
Proof.
  intros E [Ip Ie If In Io]. unfold fine in In. rewrite E in In, Io. cbn [noover] in Io. destruct In as (S & LB & N). unfold on_query. rewrite Ie. cbv zeta.
  destruct (_ || _) eqn:EA.
  { destruct (query (p_url p)) as [q|]; [|congruence]. rewrite Ie.
    match goal with |- context [pe_after_encoding fuel UTF_8 (p_buffer p) ?set] =>
      assert (R : pe_after_encoding fuel UTF_8 (p_buffer p) set = Val (pe set (p_buffer p))) end.
    { apply pe_spec; [exact S|]. unfold size in Ip. lia. }
    rewrite R. cbn [obind]. split_ifs; step.
    - split; [reflexivity|discriminate].
    - split; [constructor|]. split; [cbn; lia|discriminate]. }
  assert (L : p_pointer p < size input).
  { destruct (Z.eq_dec (p_pointer p) (size input)) as [Z0|]; [|lia]. rewrite current_out in EA by lia. rewrite orb_true_r in EA. discriminate EA. }
  rewrite percent_check_total by lia. cbn [obind]. step. split; [|split; [|exact N]].
  - apply Forall_app. split; [exact S|]. constructor; [apply scalar_at; lia|constructor].
  - rewrite app_length. cbn [List.length]. lia.
Qed.

Lemma fragment_good p : p_state p = Fragment -> Inv p -> good p (on_fragment input fuel p (current input p)).
Proof.
  intros E [Ip Ie If In Io]. unfold fine in In. rewrite E in In, Io. cbn [noover] in Io. destruct In as (B & N). unfold on_fragment.
  destruct (current input p =? EOF) eqn:C; cbn [negb].
  { step. split; assumption. }
  assert (L : p_pointer p < size input).
  { destruct (Z.eq_dec (p_pointer p) (size input)) as [Z0|]; [|lia]. rewrite current_out in C by lia. discriminate C. }
  rewrite percent_check_total by lia. cbn [obind]. destruct (fragment (p_url p)) as [f|]; [|congruence].
  rewrite enc1 by (apply scalar_at; lia). cbn [obind]. step. split; [exact B|discriminate].
Qed.

Lemma handle_good p : Inv p -> good p (handle idna input base over fuel p).
Proof.
  intros V. unfold handle. cbv zeta. destruct (p_state p) eqn:E.
  - now apply scheme_start_good.
  - now apply scheme_good.
  - now apply no_scheme_good.
  - now apply special_relative_good.
  - now apply path_or_authority_good.
  - now apply relative_good.
  - now apply relative_slash_good.
  - now apply special_slashes_good.
  - now apply ignore_slashes_good.
  - now apply authority_good.
  - apply hostname_good_st; auto.
  - apply hostname_good_st; auto.
  - now apply port_good.
  - now apply file_good.
  - now apply file_slash_good.
  - now apply file_host_good.
  - now apply path_start_good.
  - now apply path_good.
  - now apply cannot_good.
  - now apply query_good.
  - now apply fragment_good.
Qed.

Definition measure (p : parser) : Z := (17 - rank (p_state p)) * (size input + 2) + (size input - p_pointer p).

Lemma progress_measure p q : Inv p -> Inv q -> progress p q -> measure q < measure p.
Proof.
  intros Vp Vq [H|[H1 H2]]; unfold measure.
  - pose proof (I_ptr p Vp). pose proof (I_ptr q Vq). nia.
  - rewrite H1, H2. lia.
Qed.

Lemma measure_nonneg p : Inv p -> 0 <= measure p.
Proof.
  intros V. pose proof (I_ptr p V). unfold measure. assert (rank (p_state p) <= 17) by (destruct (p_state p); cbn; lia). nia.
Qed.

Lemma loop_total n : forall p, Inv p -> measure p < Z.of_nat n -> (exists r, run_loop idna input base over fuel n p = Val r) \/ (Trouble /\ run_loop idna input base over fuel n p = Bad).
Proof.
  induction n as [|n IH]; intros p V M; [pose proof (measure_nonneg p V); lia|]. cbn [run_loop].
  destruct (handle_good p V) as [[T ->]|(v & -> & G)]; [right; split; [exact T|reflexivity]|]. cbn [obind].
  destruct v as [u|u|q]; try (left; eexists; reflexivity).
  destruct (p_pointer q <? size input) eqn:L; [|left; eexists; reflexivity].
  destruct (G ltac:(lia)) as [Vq Pr]. apply IH; [exact Vq|]. pose proof (progress_measure _ _ V Vq Pr). lia.
Qed.

Definition steps_bound : nat := 18 * (List.length input + 2).

Lemma bound_enough p : Inv p -> measure p < Z.of_nat steps_bound.
Proof.
  intros V. pose proof (I_ptr p V). unfold measure, steps_bound. assert (0 <= rank (p_state p)) by (destruct (p_state p); cbn; lia).
  unfold size in *. nia.
Qed.
End Total.
