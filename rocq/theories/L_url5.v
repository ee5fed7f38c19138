(** Lemmas for M_url: the setters of the class. *)
From Coq Require Import String.
From Coq Require Import ZArith List Bool Lia.
From Verif Require Import M_unicode M_infra M_percent M_ip M_encoding M_labels M_url.
From Verif Require Import L_unicode L_url L_url2 L_url3 L_url4.
Import ListNotations.
Open Scope list_scope.
Open Scope Z_scope.

Lemma newlines_visible s : Forall scalar s -> Forall visible (without_newlines s).
Proof.
  intros F. unfold without_newlines. apply Forall_forall. intros c I. apply filter_In in I as [I N]. rewrite Forall_forall in F.
  split; [exact (F c I)|]. intros ->. discriminate N.
Qed.
Lemma newlines_scalar s : Forall scalar s -> Forall scalar (without_newlines s).
Proof. intros F. apply Forall_forall. intros c I. apply filter_In in I as [I N]. rewrite Forall_forall in F. exact (F c I). Qed.
Lemma newlines_length s : (List.length (without_newlines s) <= List.length s)%nat.
Proof. unfold without_newlines. induction s as [|c s IH]; [reflexivity|]. cbn [filter]. destruct (negb _); cbn [List.length]; lia. Qed.

Section Setters.
Variable idna : list Z -> option (list Z).

(** Enough iterations for a string of this length. *)
Definition enough (s : list Z) (fuel steps : nat) : Prop :=
  (8 * List.length s + 8 < fuel)%nat /\ (18 * (List.length s + 2) <= steps)%nat.

(** A run that is known to end somehow, ends there when there are enough iterations. *)
Lemma modify_runs fuel steps s u o b v : Forall scalar s -> enough s fuel steps -> starts_from u o ->
  runs idna (without_newlines s) None (Some o) fuel (start (Some o) UTF_8 u) (b, v) -> modify idna fuel steps s u o = Val v.
Proof.
  intros S [F St] O R. unfold modify. pose proof (newlines_length s) as L.
  destruct (run_ends idna (without_newlines s) None (Some o) fuel u (start (Some o) UTF_8 u) steps) as [[r T]|[_ T]].
  - apply newlines_scalar, S.
  - lia.
  - unfold steps_bound. lia.
  - apply start_modify, O.
  - rewrite T. rewrite (runs_det _ _ _ _ _ _ _ _ _ R T). reflexivity.
  - exfalso. destruct R as [k R]. assert (G : forall k p j r, run_loop idna (without_newlines s) None (Some o) fuel k p = Bad ->
      run_loop idna (without_newlines s) None (Some o) fuel j p = Val r -> False).
    { clear. induction k as [|k IH]; intros p j r H H'; [discriminate H|]. destruct j as [|j]; [discriminate H'|]. cbn [run_loop] in *.
      destruct (handle _ _ _ _ _ _) as [v| |]; try discriminate. cbn [obind] in *. destruct v; try discriminate.
      destruct (_ <? _); [|discriminate]. apply (IH _ _ _ H H'). }
    exact (G _ _ _ _ T R).
Qed.

Lemma set_hash_spec fuel steps u s : Forall scalar s -> enough s fuel steps ->
  set_hash idna fuel steps u s = Val (set_fragment (match s with
    | [] => None
    | c :: r => Some (pe is_fragment_percent_encode_set (without_newlines (if c =? 0x23 then r else s))) end) u).
Proof.
  intros S E. destruct s as [|c r]; [reflexivity|]. cbn [set_hash].
  assert (S' : Forall scalar (if c =? 0x23 then r else c :: r)) by (inversion S; destruct (_ =? _); assumption).
  assert (E' : enough (if c =? 0x23 then r else c :: r) fuel steps) by (unfold enough in *; cbn [List.length] in E; destruct (_ =? _); cbn [List.length]; lia).
  set (t := if c =? 0x23 then r else c :: r) in *.
  apply (modify_runs fuel steps t (set_fragment (Some []) u) Fragment true); auto; [discriminate|].
  pose proof (newlines_length t). destruct E' as [E1 E2].
  apply (run_fragment idna (without_newlines t) None (Some Fragment) fuel ltac:(lia) (without_newlines t) (start (Some Fragment) UTF_8 (set_fragment (Some []) u)) [] []).
  - split; reflexivity.
  - apply newlines_visible, S'.
  - reflexivity.
  - reflexivity.
Qed.

Lemma set_search_spec fuel steps u s : Forall scalar s -> enough s fuel steps ->
  set_search idna fuel steps u s = Val (set_query (match s with
    | [] => None
    | c :: r => Some (pe (query_set u) (without_newlines (if c =? 0x3F then r else s))) end) u).
Proof.
  intros S E. destruct s as [|c r]; [reflexivity|]. cbn [set_search].
  assert (S' : Forall scalar (if c =? 0x3F then r else c :: r)) by (inversion S; destruct (_ =? _); assumption).
  assert (E' : enough (if c =? 0x3F then r else c :: r) fuel steps) by (unfold enough in *; cbn [List.length] in E; destruct (_ =? _); cbn [List.length]; lia).
  set (t := if c =? 0x3F then r else c :: r) in *.
  apply (modify_runs fuel steps t (set_query (Some []) u) Query true); auto; [discriminate|].
  pose proof (newlines_length t). destruct E' as [E1 E2].
  set (inp := without_newlines t) in *. assert (Fu : (List.length inp + 1 < fuel)%nat) by lia.
  set (p := start (Some Query) UTF_8 (set_query (Some []) u)).
  assert (St : stands inp p [] (inp ++ [])) by (split; [now rewrite app_nil_r|reflexivity]).
  destruct (run_query idna inp None (Some Query) fuel Fu inp p [] [] [] St) as (p' & St' & Ep & En & Up & Bp & R); auto.
  - apply newlines_visible, S'.
  - constructor.
  - discriminate.
  - apply R. cbn [app] in St'. change (p_buffer p) with (@nil Z) in Bp. cbn [app] in Bp.
    pose proof (run_query_end idna inp None (Some Query) fuel Fu p' inp [] St' Ep) as K. rewrite Up, Bp in K.
    apply K; auto. apply newlines_scalar, S'.
Qed.

(** The setters through the URL record directly. *)
Lemma set_username_spec fuel u s : Forall scalar s -> (List.length s < fuel)%nat ->
  set_username fuel u s = match cannot_have_username_or_password_or_port u with
    | None => Bad | Some true => Val u | Some false => Val (set_user (pe is_userinfo_percent_encode_set s) u) end.
Proof.
  intros S L. unfold set_username. destruct (cannot_have_username_or_password_or_port u) as [[]|]; try reflexivity. cbn [of_option obind].
  rewrite pe_spec by assumption. reflexivity.
Qed.
Lemma set_password_spec fuel u s : Forall scalar s -> (List.length s < fuel)%nat ->
  set_password fuel u s = match cannot_have_username_or_password_or_port u with
    | None => Bad | Some true => Val u | Some false => Val (set_pass (pe is_userinfo_percent_encode_set s) u) end.
Proof.
  intros S L. unfold set_password. destruct (cannot_have_username_or_password_or_port u) as [[]|]; try reflexivity. cbn [of_option obind].
  rewrite pe_spec by assumption. reflexivity.
Qed.

Lemma run_port_over inp fuel u d h : (List.length inp + 1 < fuel)%nat -> inp = d ++ h -> digits d ->
  match h with [] => True | c :: _ => ~ (0x30 <= c <= 0x39) end ->
  runs idna inp None (Some Port) fuel (start (Some Port) UTF_8 u)
    (false, match d with [] => u | _ => if (5 <? zlen d) || (0xFFFF <=? decimal d) then u else set_port (kept_port u (decimal d)) u end).
Proof.
  intros Fu E D Hh. set (p := start (Some Port) UTF_8 u).
  assert (St : stands inp p [] (d ++ h)) by (split; [exact E|reflexivity]).
  destruct (run_port_digits idna inp None (Some Port) fuel Fu d p [] h St D eq_refl) as (p' & St' & Ep & En & Up & Bp & R).
  apply R. change (p_buffer p) with (@nil Z) in Bp. cbn [app] in Bp. change (p_url p) with u in Up.
  assert (Nd : is_ascii_digit (current inp p') = false).
  { destruct h as [|c h].
    - destruct (stands_eof inp fuel Fu p' _ St') as [C _]. rewrite C. reflexivity.
    - destruct (stands_cur inp fuel Fu p' _ _ _ St') as [C _]. rewrite C. unfold is_ascii_digit. lia. }
  assert (H : handle idna inp None (Some Port) fuel p' = on_port (Some Port) p' (current inp p')) by (unfold handle; rewrite Ep; reflexivity).
  unfold on_port in H. rewrite Nd in H. cbn [overridden] in H. rewrite orb_true_r, Bp, Up in H. cbv zeta in H.
  destruct d as [|d0 d]; [apply runs_ret; rewrite H, <- Up; reflexivity|]. cbn [nonempty] in H.
  fold (zlen (d0 :: d)) in H. destruct (5 <? zlen (d0 :: d)) eqn:L5.
  - cbn [orb] in H |- *. apply runs_fail. rewrite H. unfold fail. now rewrite Up.
  - rewrite (port_value_decimal inp fuel Fu) in H by (exact D || lia). cbn [orb] in H |- *. destruct (0xFFFF <=? decimal (d0 :: d)) eqn:L6.
    + apply runs_fail. rewrite H. unfold fail. now rewrite Up.
    + apply runs_ret. rewrite H. unfold M_url.ret. pj. rewrite Up. reflexivity.
Qed.

(** The path setter starts in the path start state with an empty path. *)
Definition set_path_value (u : url) (t : list Z) : list (list Z) :=
  match t with
  | [] => if is_special u then [[]] else []
  | c :: r => resolve (is_file u) [] (segments u (if path_sep u c then r else t))
  end.

Lemma run_path_over inp fuel u : (List.length inp + 1 < fuel)%nat -> Forall visible inp ->
  runs idna inp None (Some PathStart) fuel (start (Some PathStart) UTF_8 (set_path [] u)) (true, set_path (set_path_value u inp) u).
Proof.
  intros Fu V. set (p := start (Some PathStart) UTF_8 (set_path [] u)).
  assert (St : stands inp p [] inp) by (split; reflexivity).
  assert (H : handle idna inp None (Some PathStart) fuel p = on_path_start (Some PathStart) p (current inp p)) by reflexivity.
  unfold on_path_start in H. change (is_special (p_url p)) with (is_special u) in H. cbn [overridden negb andb] in H.
  assert (G : forall q b a, stands inp q a b -> Forall visible b -> p_state q = Path -> p_url q = set_path [] u -> p_buffer q = [] ->
     runs idna inp None (Some PathStart) fuel q (true, set_path (resolve (is_file u) [] (segments u b)) u)).
  { intros q b a Sq Vb Eq Uq Bq. pose proof (run_path_end idna inp None (Some PathStart) fuel Fu b q a Sq Vb Eq ltac:(discriminate)) as K.
    rewrite Uq, Bq in K. unfold whole_path in K. change (segments (set_path [] u) b) with (segments u b) in K. rewrite prepend_nil in K by apply segments_nonempty.
    exact K. }
  destruct inp as [|c r] eqn:Ei.
  - destruct (stands_eof [] fuel Fu p _ St) as [C P]. rewrite C in H. unfold set_path_value. destruct (is_special u).
    + cbn in H. apply (runs_step idna _ None (Some PathStart) fuel Fu p _ _ H); [cbn; lia|]. apply (G _ [] []); try reflexivity; [split; reflexivity|constructor].
    + cbn in H. apply (runs_last idna _ None (Some PathStart) fuel Fu p _ H). cbn. lia.
  - destruct (stands_cur _ fuel Fu p _ _ _ St) as (C & L0 & L). rewrite C in H. cbn [set_path_value]. unfold path_sep.
    assert (Nc : (c =? EOF) = false) by (inversion V as [|x y [_ Vc] _]; unfold EOF; lia). rewrite Nc in H. cbn [negb] in H.
    assert (Vr : Forall visible r) by (now inversion V).
    assert (GS : runs idna (c :: r) None (Some PathStart) fuel (move 1 (s_state Path p)) (true, set_path (resolve (is_file u) [] (segments u r)) u)).
    { apply (G _ r [c]); try reflexivity; [|exact Vr]. split; reflexivity. }
    assert (GN : runs idna (c :: r) None (Some PathStart) fuel (move 1 (s_state Path (move (-1) p))) (true, set_path (resolve (is_file u) [] (segments u (c :: r))) u)).
    { apply (G _ (c :: r) []); try reflexivity; [|exact V]. split; reflexivity. }
    destruct (is_special u); cbn [andb].
    + destruct ((c =? 0x2F) || (c =? 0x5C)); (apply (runs_step idna _ None (Some PathStart) fuel Fu p _ _ H); [|assumption]); [exact L|]. pj. lia.
    + rewrite orb_false_r. destruct (c =? 0x2F); (apply (runs_step idna _ None (Some PathStart) fuel Fu p _ _ H); [|assumption]); [exact L|]. pj. lia.
Qed.

Lemma set_pathname_spec fuel steps u s : Forall scalar s -> enough s fuel steps ->
  set_pathname idna fuel steps u s = Val (if cannot_be_base u then u else set_path (set_path_value u (without_newlines s)) u).
Proof.
  intros S E. unfold set_pathname. destruct (cannot_be_base u); [reflexivity|].
  apply (modify_runs fuel steps s (set_path [] u) PathStart true); auto; [exact I|]. pose proof (newlines_length s). destruct E as [E1 E2].
  apply run_path_over; [lia|]. apply newlines_visible, S.
Qed.

(** * What the other setters leave alone *)

Lemma frame_run input base over fuel (SS : pstate -> Prop) (Q : url -> Prop) :
  (forall p v, SS (p_state p) -> Q (p_url p) -> handle idna input base over fuel p = Val v ->
    match v with Failure u | Return u => Q u | Go q => Q (p_url q) /\ SS (p_state q) end) ->
  forall n p b u, SS (p_state p) -> Q (p_url p) -> run_loop idna input base over fuel n p = Val (b, u) -> Q u.
Proof.
  intros H. induction n as [|n IH]; intros p b u S Qp R; [discriminate R|]. cbn [run_loop] in R.
  destruct (handle idna input base over fuel p) as [v| |] eqn:E; try discriminate R. cbn [obind] in R. specialize (H p v S Qp E).
  destruct v as [w|w|q].
  - injection R as <- <-. exact H.
  - injection R as <- <-. exact H.
  - destruct H as [H1 H2]. destruct (_ <? _); [|injection R as <- <-; exact H1].
    apply (IH (move 1 q) b u); [exact H2|exact H1|exact R].
Qed.

Lemma modify_frame fuel steps s u o v (SS : pstate -> Prop) (Q : url -> Prop) :
  (forall input p w, SS (p_state p) -> Q (p_url p) -> handle idna input None (Some o) fuel p = Val w ->
    match w with Failure u | Return u => Q u | Go q => Q (p_url q) /\ SS (p_state q) end) ->
  SS o -> Q u -> modify idna fuel steps s u o = Val v -> Q v.
Proof.
  intros H So Qu M. unfold modify in M. destruct (run_loop idna (without_newlines s) None (Some o) fuel steps (start (Some o) UTF_8 u)) as [[b w]| |] eqn:R; try discriminate M.
  cbn [obind] in M. injection M as <-. exact (frame_run _ _ _ _ SS Q (H _) _ (start (Some o) UTF_8 u) _ _ So Qu R).
Qed.

Ltac crush H := repeat match type of H with
  | Val _ = Val _ => injection H as <-
  | obind ?x _ = Val _ => destruct x eqn:?; cbn [obind] in H; [|discriminate H|discriminate H]
  | (if ?b then _ else _) = Val _ => destruct b
  | match ?x with _ => _ end = Val _ => destruct x eqn:?
  | _ => discriminate H
  end;
  repeat match goal with
  | X : (if ?b then _ else _) = Some _ |- _ => destruct b
  | X : Some _ = Some _ |- _ => injection X as <-
  | X : None = Some _ |- _ => discriminate X
  end.

Definition but_scheme_port (u : url) : url := set_scheme [] (set_port None u).
Lemma frame_protocol fuel steps u s v : set_protocol idna fuel steps u s = Val v -> but_scheme_port v = but_scheme_port u.
Proof.
  intros H. apply (modify_frame _ _ _ _ _ _ (fun s => s = SchemeStart \/ s = Scheme) (fun v => but_scheme_port v = but_scheme_port u)) in H; auto.
  clear. intros input p w [E|E] Q H; unfold handle in H; rewrite E in H.
  - unfold on_scheme_start in H. cbn [overridden negb] in H. unfold go, fail in H. crush H; pj; auto.
  - unfold on_scheme in H. cbn [overridden negb andb] in H. unfold go, fail, M_url.ret, stay in H. cbv zeta in H. crush H; pj; auto.
    destruct (port (p_url p)) as [n|], (default_port (p_buffer p)) as [d|]; try exact Q. destruct (_ =? _); exact Q.
Qed.

Definition but_host_port (u : url) : url := set_host None (set_port None u).
Lemma frame_host fuel steps u s v : set_host_ idna fuel steps u s = Val v -> but_host_port v = but_host_port u.
Proof.
  unfold set_host_. destruct (cannot_be_base u); [congruence|]. intros H.
  apply (modify_frame _ _ _ _ _ _ (fun s => s = Host \/ s = FileHost \/ s = Port) (fun v => but_host_port v = but_host_port u)) in H; auto.
  clear. intros input p w [E|[E|E]] Q H; unfold handle in H; rewrite E in H.
  - unfold on_hostname in H. cbn [overridden negb andb] in H. unfold go, fail, M_url.ret, stay in H. cbv zeta in H.
    set (p1 := if eqs (scheme (p_url p)) (lit "file") then s_state FileHost (move (-1) p) else p) in H.
    assert (E1 : (p_state p1 = Host \/ p_state p1 = FileHost \/ p_state p1 = Port) /\ but_host_port (p_url p1) = but_host_port u)
      by (subst p1; destruct (eqs _ _); pj; auto). destruct E1 as [E1 Q1]. clearbody p1.
    crush H; pj; auto; destruct (_ =? 0x5B), (_ =? 0x5D); pj; auto.
  - unfold on_file_host in H. cbn [overridden negb andb] in H. unfold go, fail, M_url.ret, stay in H. cbv zeta in H. crush H; pj; auto.
  - unfold on_port in H. cbn [overridden] in H. unfold go, fail, M_url.ret, stay in H. cbv zeta in H. crush H; pj; auto.
Qed.

Definition but_host (u : url) : url := set_host None u.
Lemma frame_hostname fuel steps u s v : set_hostname idna fuel steps u s = Val v -> but_host v = but_host u.
Proof.
  unfold set_hostname. destruct (cannot_be_base u); [congruence|]. intros H.
  apply (modify_frame _ _ _ _ _ _ (fun s => s = Hostname \/ s = FileHost) (fun v => but_host v = but_host u)) in H; auto.
  clear. intros input p w [E|E] Q H; unfold handle in H; rewrite E in H.
  - unfold on_hostname in H. cbn [overridden negb andb] in H. unfold go, fail, M_url.ret, stay in H. cbv zeta in H.
    set (p1 := if eqs (scheme (p_url p)) (lit "file") then s_state FileHost (move (-1) p) else p) in H.
    assert (E1 : (p_state p1 = Hostname \/ p_state p1 = FileHost) /\ but_host (p_url p1) = but_host u)
      by (subst p1; destruct (eqs _ _); pj; auto). destruct E1 as [E1 Q1]. clearbody p1.
    crush H; pj; auto; destruct (_ =? 0x5B), (_ =? 0x5D); pj; auto.
  - unfold on_file_host in H. cbn [overridden negb andb] in H. unfold go, fail, M_url.ret, stay in H. cbv zeta in H. crush H; pj; auto.
Qed.

Definition but_port (u : url) : url := set_port None u.
Lemma frame_port fuel steps u s v : set_port_ idna fuel steps u s = Val v -> but_port v = but_port u.
Proof.
  unfold set_port_. destruct (cannot_have_username_or_password_or_port u) as [[]|]; cbn [of_option obind]; try congruence.
  destruct s as [|c r]; [intros H; injection H as <-; reflexivity|]. intros H.
  apply (modify_frame _ _ _ _ _ _ (fun s => s = Port) (fun v => but_port v = but_port u)) in H; auto.
  clear. intros input p w E Q H; unfold handle in H; rewrite E in H.
  unfold on_port in H. cbn [overridden] in H. unfold go, fail, M_url.ret, stay in H. cbv zeta in H. crush H; pj; auto.
Qed.
End Setters.
