(** What the setters of the URL class make of every string: protocol, host, host name and port. *)
From Coq Require Import String.
From Coq Require Import ZArith List Bool Lia.
From Verif Require Import M_unicode M_infra M_percent M_ip M_encoding M_labels M_url.
From Verif Require Import L_unicode L_url L_url2 L_url3 L_url4 L_url5 L_url6 L_url7 L_url8 L_url13 L_url14.
Import ListNotations.
Open Scope string_scope.
Open Scope list_scope.
Open Scope Z_scope.

(** * The record *)

Definition has_secrets (u : url) : bool :=
  match username u, password u, port u with [], [], None => false | _, _, _ => true end.
(** The record with another scheme; a port that is usual for it is dropped. *)
Definition rescheme (b : list Z) (u : url) : url :=
  Url b (username u) (password u) (uhost u)
    (match port u, usual_port b with Some n, Some d => if n =? d then None else Some n | x, _ => x end) (path u) (query u) (fragment u) (cannot_be_base u).
Definition changed_scheme (b : list Z) (u : url) : outcome url :=
  if xorb (special_of (scheme u)) (special_of b) then Val u
  else if eqs b (lit "file") && has_secrets u then Val u
  else if eqs (scheme u) (lit "file") then match uhost u with None => Bad | Some HEmpty => Val u | Some _ => Val (rescheme b u) end
  else Val (rescheme b u).
(** [t]: the string without tabs and newlines. *)
Definition protocol_of (u : url) (t : list Z) : outcome url :=
  match scheme_cut (t ++ [0x3A]) with
  | Some (sc, _) => changed_scheme (map cp_lower sc) u
  | None => Val u
  end.

(** The digits at the front are the port; what follows them is not looked at. *)
Definition port_at (u : url) (t : list Z) : url :=
  let d := fst (cut (fun c => negb ((0x30 <=? c) && (c <=? 0x39))) t) in
  match d with
  | [] => u
  | _ => if port_ok (Some d) then Url (scheme u) (username u) (password u) (uhost u) (port_of (scheme u) (Some d)) (path u) (query u) (fragment u) (cannot_be_base u) else u
  end.

Definition host_end (sc : list Z) (c : Z) : bool := (c =? 0x2F) || (c =? 0x3F) || (c =? 0x23) || (special_of sc && (c =? 0x5C)).
(** Up to the first delimiter, or colon outside brackets. *)
Fixpoint host_cut (sc : list Z) (br : bool) (t : list Z) : list Z * list Z :=
  match t with
  | [] => ([], [])
  | c :: r =>
      if ((c =? 0x3A) && negb br) || host_end sc c then ([], t)
      else let (h, r') := host_cut sc (if c =? 0x5B then true else if c =? 0x5D then false else br) r in (c :: h, r')
  end.
Definition with_host (hh : host) (u : url) : url :=
  Url (scheme u) (username u) (password u) (Some hh) (port u) (path u) (query u) (fragment u) (cannot_be_base u).

Section Record.
Variable host_of : list Z -> bool -> outcome host.
Definition put_host (h : list Z) (u : url) (k : url -> url) : outcome url :=
  obind (host_of h (negb (special_of (scheme u)))) (fun hh => match hh with HNone => Val u | _ => Val (k (with_host hh u)) end).
(** [ports]: a port may follow. *)
Definition host_at (ports : bool) (u : url) (t : list Z) : outcome url :=
  let (h, rest) := host_cut (scheme u) false t in
  match rest with
  | c :: r =>
      if c =? 0x3A then match h with [] => Val u | _ => put_host h u (fun v => if ports then port_at v r else v) end
      else match h with [] => if special_of (scheme u) || has_secrets u then Val u else put_host h u (fun v => v) | _ => put_host h u (fun v => v) end
  | [] => match h with [] => if special_of (scheme u) || has_secrets u then Val u else put_host h u (fun v => v) | _ => put_host h u (fun v => v) end
  end.
(** A file URL: the first code point is taken twice. *)
Definition file_host_of (u : url) (t : list Z) : outcome url :=
  match t with
  | [] => Val u
  | c :: _ =>
      if (c =? 0x3A) || (c =? 0x2F) || (c =? 0x5C) || (c =? 0x3F) || (c =? 0x23) then Val u
      else
        obind (host_of (c :: fst (cut (fun c => (c =? 0x2F) || (c =? 0x5C) || (c =? 0x3F) || (c =? 0x23)) t)) false) (fun hh =>
        match hh with
        | HNone => Val u
        | HDomain d | HOpaque d => Val (with_host (if eqs d (lit "localhost") then HEmpty else hh) u)
        | _ => Bad
        end)
  end.
Definition host_setter (ports : bool) (u : url) (t : list Z) : outcome url :=
  if cannot_be_base u then Val u
  else if eqs (scheme u) (lit "file") then file_host_of u t
  else host_at ports u t.
(** Whether a record may have a port is asked of domains and opaque hosts only. *)
Definition port_setter (u : url) (s t : list Z) : outcome url :=
  match uhost u with
  | None => Val u
  | Some (HDomain d) | Some (HOpaque d) =>
      if match d with [] => true | _ => cannot_be_base u || eqs (scheme u) (lit "file") end then Val u
      else match s with
      | [] => Val (Url (scheme u) (username u) (password u) (uhost u) None (path u) (query u) (fragment u) (cannot_be_base u))
      | _ => Val (port_at u t)
      end
  | _ => Bad
  end.
End Record.

Lemma secrets_eq u : has_secrets u = includes_credentials u || match port u with Some _ => true | None => false end.
Proof. unfold has_secrets, includes_credentials. destruct (username u), (password u), (port u); reflexivity. Qed.

Lemma rescheme_eq b u :
  match port (set_scheme b u), default_port (scheme (set_scheme b u)) with Some n, Some d => if n =? d then set_port None (set_scheme b u) else set_scheme b u | _, _ => set_scheme b u end = rescheme b u.
Proof.
  unfold rescheme. rewrite usual_port_eq. change (scheme (set_scheme b u)) with b. change (port (set_scheme b u)) with (port u). unfold set_port, set_scheme.
  destruct (port u) as [n|]; [|reflexivity]. destruct (default_port b) as [d|]; [|reflexivity]. destruct (n =? d); reflexivity.
Qed.

(** * The setters compute it *)

Section Computes.
Variable idna : list Z -> option (list Z).
Variable input : list Z.
Variable o : pstate.
Variable fuel : nat.
Hypothesis Fu : (List.length input + 1 < fuel)%nat.
Hypothesis Vi : Forall visible input.

Local Notation R := (runs idna input None (Some o) fuel).
Local Notation H_ := (handle idna input None (Some o) fuel).
Local Notation ph := (parse_host idna fuel).

Lemma ostep s buf a c b u s' buf' u' r : input = a ++ c :: b -> H_ (here s buf a u) = Val (Go (here s' buf' a u')) ->
  R (here s' buf' (a ++ [c]) u') r -> R (here s buf a u) r.
Proof.
  intros Ei H K. apply (runs_step idna input None (Some o) fuel Fu _ _ r H).
  - destruct (cur input fuel Fu (here s' buf' a u') a c b (here_stands input s' buf' a u' _ Ei)) as (_ & _ & L). exact L.
  - rewrite (here_next _ _ _ c). exact K.
Qed.
Lemma ofail p u : H_ p = Val (Failure u) -> exists b, R p (b, u).
Proof. intros H. exists false. now apply runs_fail. Qed.
Lemma oret p u : H_ p = Val (Return u) -> exists b, R p (b, u).
Proof. intros H. exists false. now apply runs_ret. Qed.

(** ** Protocol *)

Lemma run_scheme_over r0 : forall a t u, input = a ++ r0 ++ t -> Forall (fun x => scheme_char x = true) r0 ->
  forall r, R (here Scheme (map cp_lower (a ++ r0)) (a ++ r0) u) r -> R (here Scheme (map cp_lower a) a u) r.
Proof.
  induction r0 as [|c r0 IH]; intros a t u Ei Sc r K; [now rewrite app_nil_r in K|]. inversion Sc as [|x0 y0 H1 H2]; subst x0 y0. cbn [app] in Ei.
  apply (ostep _ _ _ _ _ _ Scheme (map cp_lower (a ++ [c])) u _ Ei).
  - unfold handle. change (p_state (here Scheme (map cp_lower a) a u)) with Scheme. cbv iota. rewrite (hcur input fuel Fu _ _ _ _ _ _ Ei). unfold on_scheme. unfold scheme_char in H1. rewrite H1.
    unfold stay, push, s_buffer, here. pj. rewrite map_app. reflexivity.
  - apply (IH (a ++ [c]) t u); [rewrite <- app_assoc; exact Ei|exact H2|]. rewrite <- app_assoc. exact K.
Qed.

Lemma protocol_here u v t : input = t ++ [0x3A] -> protocol_of u t = Val v -> exists b, R (here SchemeStart [] [] u) (b, v).
Proof.
  intros Et. unfold protocol_of. rewrite <- Et.
  assert (N : forall w, H_ (here SchemeStart [] [] u) = Val (Failure u) -> Val u = Val w -> exists b, R (here SchemeStart [] [] u) (b, w)) by (intros w H E; apply Val_inj in E; subst w; now apply ofail).
  destruct input as [|c r] eqn:Ei; [destruct t; discriminate Et|]. unfold scheme_cut. rewrite <- Ei in *.
  assert (H0 : H_ (here SchemeStart [] [] u) = on_scheme_start (Some o) (here SchemeStart [] [] u) c) by (unfold handle; change (p_state (here SchemeStart [] [] u)) with SchemeStart; cbv iota; now rewrite (hcur input fuel Fu _ _ [] c r _ Ei)).
  unfold on_scheme_start in H0. destruct (is_ascii_alpha c) eqn:A; [|cbn [overridden negb] in H0; exact (N v H0)]. clear N.
  pose proof (cut_app (fun c => negb (scheme_char c)) r) as E. pose proof (cut_before (fun c => negb (scheme_char c)) r) as F. pose proof (cut_after (fun c => negb (scheme_char c)) r) as Fa.
  destruct (cut (fun c => negb (scheme_char c)) r) as [x y]. cbn [fst snd] in *.
  assert (Ny : y <> []).
  { intros ->. rewrite app_nil_r in E. subst x. assert (I : In 0x3A r).
    { assert (I : In 0x3A (c :: r)) by (rewrite <- Ei, Et; apply in_or_app; right; now left). destruct I as [->|I]; [discriminate A|exact I]. }
    rewrite Forall_forall in F. specialize (F _ I). discriminate F. }
  destruct y as [|d y]; [congruence|]. destruct Fa as [Fa|(d' & y' & Fa & Fd)]; [discriminate Fa|]. injection Fa as <- <-.
  assert (Ei2 : input = (c :: x) ++ d :: y) by (rewrite Ei, E; reflexivity).
  assert (G : forall r0, R (here Scheme (map cp_lower (c :: x)) (c :: x) u) r0 -> R (here SchemeStart [] [] u) r0).
  { intros r0 K. apply (ostep _ _ [] _ _ _ Scheme [cp_lower c] u _ Ei); [exact H0|]. apply (run_scheme_over x [c] (d :: y) u Ei2); [|exact K].
    revert F. apply Forall_impl. intros z Z0. now apply negb_false_iff. }
  assert (K : forall w, (exists b, R (here Scheme (map cp_lower (c :: x)) (c :: x) u) (b, w)) -> exists b, R (here SchemeStart [] [] u) (b, w)) by (intros w [b K]; exists b; now apply G).
  set (p := here Scheme (map cp_lower (c :: x)) (c :: x) u) in *.
  assert (H1 : H_ p = on_scheme input None (Some o) p d) by (unfold handle; change (p_state p) with Scheme; cbv iota; unfold p; now rewrite (hcur input fuel Fu _ _ _ d y _ Ei2)).
  unfold on_scheme in H1. unfold scheme_char in Fd. apply negb_true_iff in Fd. rewrite Fd in H1. cbn [overridden andb negb] in H1. change (p_url p) with u in H1. change (p_buffer p) with (map cp_lower (c :: x)) in H1.
  destruct (d =? 0x3A) eqn:D; [|intros E0; apply Val_inj in E0; subst v; now apply K, ofail].
  set (b := map cp_lower (c :: x)) in *. unfold changed_scheme. rewrite !special_of_eq, secrets_eq.
  intros E0. apply K.
  destruct (is_special_scheme (scheme u)) eqn:S1; destruct (is_special_scheme b) eqn:S2; cbn [xorb andb negb] in E0, H1; try (apply Val_inj in E0; subst v; now apply oret).
  all: rewrite andb_comm in E0; destruct (includes_credentials u || _); cbn [andb] in E0, H1.
  all: try (destruct (eqs b (lit "file")); [apply Val_inj in E0; subst v; now apply oret|]).
  all: destruct (eqs (scheme u) (lit "file")); [destruct (uhost u) as [[]|]; try discriminate E0; cbn [obind] in H1|cbn [obind] in H1].
  all: rewrite ?rescheme_eq in H1; apply Val_inj in E0; subst v; now apply oret.
Qed.

(** ** Port *)

Lemma port_here a u t : input = a ++ t -> exists b, R (here Port [] a u) (b, port_at u t).
Proof.
  intros Ei. unfold port_at. set (f := fun c => negb _). pose proof (cut_app f t) as E. pose proof (cut_before f t) as F. pose proof (cut_after f t) as Fa. destruct (cut f t) as [d rest]. cbn [fst snd] in *.
  assert (D : digits d) by (revert F; apply Forall_impl; intros c; unfold f; lia). rewrite E in Ei.
  destruct (run_port_digits idna input None (Some o) fuel Fu d (here Port [] a u) a rest (here_stands input _ _ _ _ _ Ei) D eq_refl) as (p' & St' & E' & En' & U' & B' & G).
  change (p_buffer (here Port [] a u) ++ d) with d in B'. change (p_url (here Port [] a u)) with u in U'.
  assert (K : forall w, (exists b, R p' (b, w)) -> exists b, R (here Port [] a u) (b, w)) by (intros w [b K]; exists b; now apply G). apply K.
  assert (Nc : is_ascii_digit (current input p') = false).
  { destruct Fa as [->|(c & r & -> & Fc)].
    - apply (eof input fuel Fu) in St' as [-> _]. reflexivity.
    - apply (cur input fuel Fu) in St' as [-> _]. unfold f in Fc. unfold is_ascii_digit. lia. }
  assert (H : H_ p' = on_port (Some o) p' (current input p')) by (unfold handle; rewrite E'; reflexivity).
  unfold on_port, fail, ret in H. rewrite Nc, orb_true_r in H. cbn [overridden] in H. rewrite B', U' in H.
  destruct d as [|d0 d]; cbn [nonempty] in H; [rewrite U' in H; now apply oret|].
  rewrite (port_ok_bad input fuel Fu (Some (d0 :: d))) by exact D. cbn [port_bad]. unfold port_fits. unfold zlen.
  destruct (5 <? Z.of_nat (List.length (d0 :: d))) eqn:L5.
  { cbn [orb] in H. replace (Z.of_nat (List.length (d0 :: d)) <=? 5) with false by lia. cbn [andb negb]. rewrite ?U' in H. now apply ofail. }
  cbn [orb] in H. replace (Z.of_nat (List.length (d0 :: d)) <=? 5) with true by lia. cbn [andb].
  rewrite (port_value_decimal input fuel Fu) in H by (exact D || (unfold zlen; lia)).
  destruct (0xFFFF <=? decimal (d0 :: d)) eqn:L6.
  { replace (decimal (d0 :: d) <? 65535) with false by lia. cbn [negb]. rewrite ?U' in H. now apply ofail. }
  replace (decimal (d0 :: d) <? 65535) with true by lia. cbn [negb].
  unfold port_of. rewrite usual_port_eq.
  match goal with |- exists b, R p' (b, ?w) => assert (Hw : H_ p' = Val (Return w)) end; [|now apply oret].
  rewrite H. unfold on_url, s_buffer, s_url. pj. rewrite U'. f_equal. f_equal. unfold set_port. destruct (default_port (scheme u)) as [n|]; [destruct (_ =? n); reflexivity|reflexivity].
Qed.

(** ** Host *)

Lemma scanned_host h : forall p a rest, stands input p a (h ++ rest) -> p_state p = Host \/ p_state p = Hostname -> eqs (scheme (p_url p)) (lit "file") = false ->
  (exists br, host_cut (scheme (p_url p)) br (h ++ rest) = (h, rest) /\ br = p_brackets p) ->
  exists p', stands input p' (a ++ h) rest /\ p_state p' = p_state p /\ p_enc p' = p_enc p /\ p_at p' = p_at p /\ p_token p' = p_token p /\ p_url p' = p_url p /\ p_buffer p' = p_buffer p ++ h /\
    ((current input p' =? 0x3A) && negb (p_brackets p') || ends_authority (p_url p') (current input p') = true) /\
    (forall r, R p' r -> R p r).
Proof.
  induction h as [|c h IH]; intros p a rest St E Nf (br & Hc & Br).
  - exists p. rewrite !app_nil_r. cbn [app] in *. repeat split; auto; try apply St. destruct rest as [|c rest].
    + apply (eof input fuel Fu) in St as [-> _]. unfold ends_authority. reflexivity.
    + apply (cur input fuel Fu) in St as [-> _]. cbn [host_cut] in Hc. destruct ((c =? 0x3A) && negb br || host_end _ c) eqn:X; [|destruct (host_cut _ _ rest); discriminate Hc].
      rewrite <- Br. apply orb_true_iff in X as [->|X]; [reflexivity|]. unfold host_end in X. rewrite special_of_eq in X. unfold ends_authority, is_special. rewrite <- !orb_assoc in *. rewrite X. now rewrite !orb_true_r.
  - cbn [app] in St, Hc. destruct (cur input fuel Fu _ _ _ _ St) as (C & L0 & L). cbn [host_cut] in Hc.
    destruct ((c =? 0x3A) && negb br || host_end _ c) eqn:X; [discriminate Hc|]. set (br' := if c =? 0x5B then _ else _) in Hc. destruct (host_cut _ br' (h ++ rest)) as [h1 r1] eqn:Hc'. injection Hc as -> ->.
    apply orb_false_iff in X as [X1 X2].
    assert (Vc : visible c) by (destruct St as [Ei _]; rewrite Ei in Vi; apply Forall_app in Vi as [_ V]; now inversion V).
    assert (Ne : ends_authority (p_url p) c = false).
    { unfold host_end in X2. rewrite special_of_eq in X2. unfold ends_authority, is_special, EOF. destruct Vc as [_ Vc]. replace (c =? 0xA) with false by lia. exact X2. }
    set (q := push [c] (let p := if c =? 0x5B then s_brackets true p else p in if c =? 0x5D then s_brackets false p else p)).
    assert (H : H_ p = Val (Go q)).
    { assert (Eh : H_ p = on_hostname idna (Some o) fuel p (current input p)) by (unfold handle; destruct E as [-> | ->]; reflexivity). rewrite Eh, C. unfold on_hostname. rewrite Nf, andb_false_r, <- Br, X1, Ne. reflexivity. }
    assert (Qb : p_brackets q = br') by (unfold q, br'; destruct (c =? 0x5B) eqn:B1, (c =? 0x5D) eqn:B2; try lia; pj; congruence).
    assert (Q : p_state q = p_state p /\ p_enc q = p_enc p /\ p_at q = p_at p /\ p_token q = p_token p /\ p_url q = p_url p /\ p_buffer q = p_buffer p ++ [c] /\ p_pointer q = p_pointer p) by (unfold q; destruct (c =? 0x5B), (c =? 0x5D); repeat split).
    destruct Q as (Q1 & Q2 & Q3 & Q4 & Q5 & Q6 & Q7).
    destruct (IH (move 1 q) (a ++ [c]) rest) as (p' & St' & A1 & A2 & A3 & A4 & A5 & A6 & A7 & A8).
    + apply (nextp input p _ _ _ _ St). unfold move, s_pointer. pj. now rewrite Q7.
    + change (p_state (move 1 q)) with (p_state q). now rewrite Q1.
    + change (p_url (move 1 q)) with (p_url q). now rewrite Q5.
    + exists br'. change (p_url (move 1 q)) with (p_url q). rewrite Q5. split; [exact Hc'|]. symmetry. exact Qb.
    + change (p_state (move 1 q)) with (p_state q) in A1. change (p_enc (move 1 q)) with (p_enc q) in A2. change (p_at (move 1 q)) with (p_at q) in A3. change (p_token (move 1 q)) with (p_token q) in A4. change (p_url (move 1 q)) with (p_url q) in A5. change (p_buffer (move 1 q)) with (p_buffer q) in A6.
      exists p'. rewrite <- app_assoc in St'. split; [exact St'|]. rewrite A1, A2, A3, A4, A5, A6, Q1, Q2, Q3, Q4, Q5, Q6, <- app_assoc. rewrite A5, Q5 in A7. repeat split; auto.
      intros r K. apply (runs_step idna input None (Some o) fuel Fu _ _ r H); [rewrite Q7; exact L|]. now apply A8.
Qed.
Lemma host_cut_app sc t : forall br, t = fst (host_cut sc br t) ++ snd (host_cut sc br t).
Proof. induction t as [|c t IH]; intros br; [reflexivity|]. cbn [host_cut]. destruct (_ || _); [reflexivity|]. set (b' := if c =? 0x5B then _ else _). specialize (IH b'). destruct (host_cut sc b' t). cbn [fst snd app] in *. now f_equal. Qed.

Lemma host_here u v t : o = Host \/ o = Hostname -> input = t -> eqs (scheme u) (lit "file") = false -> host_at ph (match o with Host => true | _ => false end) u t = Val v ->
  exists b, R (here o [] [] u) (b, v).
Proof.
  intros Ho Ei Nf. unfold host_at. pose proof (host_cut_app (scheme u) t false) as E. destruct (host_cut (scheme u) false t) as [h rest] eqn:Hc. cbn [fst snd] in E.
  set (p := here o [] [] u). assert (St : stands input p [] (h ++ rest)) by (apply here_stands; rewrite Ei; exact E).
  destruct (scanned_host h p [] rest St) as (p' & St' & A1 & A2 & A3 & A4 & A5 & A6 & A7 & A8); [exact Ho|exact Nf|exists false; rewrite <- E; split; [exact Hc|reflexivity]|].
  change (p_state p) with o in A1. change (p_url p) with u in A5. change (p_buffer p ++ h) with h in A6. cbn [app] in St'. rewrite A5 in A7.
  intros K0. cut (exists b, R p' (b, v)); [intros [b K]; exists b; now apply A8|].
  assert (H : H_ p' = on_hostname idna (Some o) fuel p' (current input p')) by (unfold handle; rewrite A1; destruct Ho as [-> | ->]; reflexivity).
  unfold on_hostname in H. rewrite A5, Nf, andb_false_r, A5 in H.
  assert (Sp : is_special u = special_of (scheme u)) by (unfold is_special; now rewrite special_of_eq). rewrite Sp in H.
  destruct ((current input p' =? 0x3A) && negb (p_brackets p')) eqn:Co.
  - (* a colon *)
    assert (exists r, rest = 0x3A :: r) as [r ->].
    { apply andb_true_iff in Co as [Co _]. apply Z.eqb_eq in Co. destruct rest as [|c r]; [apply (eof input fuel Fu) in St' as [X _]; rewrite X in Co; discriminate Co|]. apply (cur input fuel Fu) in St' as [X _]. exists r. congruence. }
    change (0x3A =? 0x3A) with true in K0. cbv iota in K0. rewrite A6 in H. destruct h as [|h0 h]; cbn [nonempty negb] in H.
    { apply Val_inj in K0. subst v. apply ofail. rewrite H. unfold fail. now rewrite A5. }
    assert (Eq : forall f, move 1 (s_state Port (s_buffer [] (on_url f p'))) = here Port [] ((h0 :: h) ++ [0x3A]) (f u)).
    { intros f. apply andb_true_iff in Co as [_ Co]. apply negb_true_iff in Co. destruct St' as [_ Ep]. unfold move, s_pointer, s_state, s_buffer, on_url, s_url, here. pj. rewrite A2, A3, A4, A5, Co, Ep, zlen_app. reflexivity. }
    destruct (cur input fuel Fu _ _ _ _ St') as (_ & _ & Lp).
    unfold put_host in K0. destruct (ph (h0 :: h) (negb (special_of (scheme u)))) as [hh| |] eqn:Ph; try discriminate K0. cbn [obind] in H, K0.
    destruct hh; cbv iota in H, K0; try (apply Val_inj in K0; subst v; apply ofail; rewrite H; unfold fail; now rewrite A5).
    all: assert (Eo : match o with Host => true | _ => false end = true /\ match o with Hostname => true | _ => false end = false \/ match o with Host => true | _ => false end = false /\ match o with Hostname => true | _ => false end = true) by (destruct Ho as [X|X]; rewrite X; [left|right]; split; reflexivity).
    all: destruct Eo as [[O1 O2]|[O1 O2]]; rewrite O1 in K0; rewrite O2 in H; cbv iota in H, K0; apply Val_inj in K0; subst v; [|apply oret; rewrite H; unfold ret, on_url, s_buffer, s_url; pj; now rewrite A5].
    all: match goal with |- exists b, _ (b, port_at ?w ?r1) => destruct (port_here ((h0 :: h) ++ [0x3A]) w r1) as [b K]; [rewrite Ei, E, <- app_assoc; reflexivity|]; exists b end.
    all: refine (runs_step idna input None (Some o) fuel Fu _ _ _ H _ _).
    all: try exact Lp.
    all: rewrite Eq; exact K.
  - cbn [orb] in A7. rewrite A7 in H. cbn [overridden andb] in H. change (p_buffer (move (-1) p')) with (p_buffer p') in H. rewrite A6 in H.
    assert (K1 : match h with [] => if special_of (scheme u) || has_secrets u then Val u else put_host ph h u (fun v => v) | _ => put_host ph h u (fun v => v) end = Val v).
    { destruct rest as [|c r]; [exact K0|]. destruct (c =? 0x3A) eqn:C3; [|exact K0]. exfalso. apply Z.eqb_eq in C3. subst c.
      destruct (cur input fuel Fu _ _ _ _ St') as (X & _ & _). rewrite X in Co, A7. unfold ends_authority in A7. destruct (is_special u); discriminate A7. }
    clear K0. rewrite secrets_eq in K1.
    assert (F1 : forall w, Val u = Val w -> H_ p' = fail (move (-1) p') -> exists b, R p' (b, w)) by (intros w W X; apply Val_inj in W; subst w; apply ofail; rewrite X; unfold fail, move, s_pointer; pj; now rewrite A5).
    assert (F2 : H_ p' = obind (ph h (negb (special_of (scheme u)))) (fun h1 => match h1 with HNone => fail (move (-1) p') | _ => ret (s_buffer [] (on_url (set_host (Some h1)) (move (-1) p'))) end) -> put_host ph h u (fun v => v) = Val v -> exists b, R p' (b, v)).
    { intros X Y. unfold put_host in Y. destruct (ph h _) as [hh| |]; try discriminate Y. cbn [obind] in X, Y. destruct hh; cbv iota in X, Y; try (now apply F1); apply Val_inj in Y; subst v; apply oret; rewrite X; unfold ret, on_url, s_buffer, s_url, move, s_pointer; pj; now rewrite A5. }
    destruct h as [|h0 h]; cbn [nonempty negb andb] in H; rewrite ?andb_false_r, ?andb_true_r in H; cbv iota in H; [|now apply F2].
    destruct (special_of (scheme u)); cbn [orb] in K1; [now apply F1|]. destruct (includes_credentials u || _); [|now apply F2].
    apply Val_inj in K1; subst v. apply oret. rewrite H. unfold ret, move, s_pointer; pj. now rewrite A5.
Qed.

(** ** Host of a file *)

Lemma run_file_host_over s : forall p a h, stands input p a (s ++ h) -> Forall inner_file s -> p_state p = FileHost ->
  exists p', stands input p' (a ++ s) h /\ p_state p' = FileHost /\ p_buffer p' = p_buffer p ++ s /\ p_url p' = p_url p /\ (forall r, R p' r -> R p r).
Proof.
  induction s as [|c s IH]; intros p a h St V E.
  - exists p. rewrite !app_nil_r. repeat split; auto; apply St.
  - cbn [app] in St. destruct (cur input fuel Fu _ _ _ _ St) as (C & L0 & L). inversion V as [|x0 y0 [[Vs Vn] (Vc & Vq & Vh)] Vb]; subst x0 y0.
    assert (H : H_ p = Val (Go (push [c] p))).
    { unfold handle. rewrite E. unfold on_file_host. rewrite C. unfold is_slash in Vc. replace (c =? EOF) with false by (unfold EOF; lia).
      replace (c =? 0x3F) with false by lia. replace (c =? 0x23) with false by lia. cbn [orb]. rewrite Vc. reflexivity. }
    destruct (IH (move 1 (push [c] p)) (a ++ [c]) h) as (p' & St' & E' & B' & U' & K); auto.
    + apply (nextp input p _ _ _ _ St). reflexivity.
    + exists p'. rewrite <- app_assoc in St'. split; [exact St'|]. split; [exact E'|]. split; [rewrite B'; pj; rewrite <- app_assoc; reflexivity|]. split; [exact U'|].
      intros r Rr. apply (runs_step idna input None (Some o) fuel Fu _ _ _ H); [exact L|]. apply K, Rr.
Qed.

Lemma file_host_here u v t0 : o = Host \/ o = Hostname -> input = t0 -> eqs (scheme u) (lit "file") = true -> file_host_of ph u t0 = Val v ->
  exists b, R (here o [] [] u) (b, v).
Proof.
  intros Ho Ei Nf. unfold file_host_of. set (p := here o [] [] u).
  assert (Sf : scheme u = lit "file") by (unfold eqs in Nf; destruct (list_eq_dec _ _ _); [assumption|discriminate Nf]).
  assert (Sp : is_special u = true) by (unfold is_special; rewrite Sf; reflexivity).
  assert (H : H_ p = on_hostname idna (Some o) fuel p (current input p)) by (unfold handle; change (p_state p) with o; destruct Ho as [X|X]; rewrite X; reflexivity).
  unfold on_hostname in H. change (p_url p) with u in H. rewrite Nf in H. cbn [overridden andb] in H. change (p_url (s_state FileHost (move (-1) p))) with u in H.
  change (p_brackets (s_state FileHost (move (-1) p))) with false in H. change (p_buffer (s_state FileHost (move (-1) p))) with (@nil Z) in H. change (p_buffer (move (-1) (s_state FileHost (move (-1) p)))) with (@nil Z) in H.
  cbn [nonempty negb] in H. rewrite Sp in H. cbn [andb] in H. rewrite andb_true_r in H. unfold ends_authority in H. rewrite Sp in H. cbn [andb] in H.
  assert (F1 : forall w, Val u = Val w -> H_ p = Val (Failure u) -> exists b, R p (b, w)) by (intros w W X; apply Val_inj in W; subst w; now apply ofail).
  destruct t0 as [|c t].
  { intros K. apply F1; [exact K|]. rewrite H. destruct (eof input fuel Fu p []) as [X _]; [split; [rewrite Ei|]; reflexivity|]. rewrite X. reflexivity. }
  set (f := fun c => _ || _).
  assert (St : stands input p [] (c :: t)) by (split; [exact Ei|reflexivity]). destruct (cur input fuel Fu _ _ _ _ St) as (C & L0 & L). rewrite C in H.
  destruct (c =? 0x3A) eqn:C1; cbn [orb]; [intros K; now apply F1|].
  assert (Vc : visible c) by (rewrite Ei in Vi; now inversion Vi).
  assert (Ec : c =? EOF = false) by (destruct Vc as [_ Vc]; unfold EOF; lia). rewrite Ec in H. cbn [orb] in H.
  change ((c =? 0x2F) || (c =? 0x5C) || (c =? 0x3F) || (c =? 0x23)) with (f c).
  replace ((c =? 0x2F) || (c =? 0x3F) || (c =? 0x23) || (c =? 0x5C)) with (f c) in H by (unfold f; destruct (c =? 0x2F), (c =? 0x3F), (c =? 0x23), (c =? 0x5C); reflexivity).
  destruct (f c) eqn:Fc; [intros K; now apply F1|].
  match type of H with _ = stay ?x => set (q := x) in H end.
  assert (Q : p_state q = FileHost /\ p_url q = u /\ p_buffer q = [c] /\ p_pointer q = -1) by (unfold q; destruct (c =? 0x5B), (c =? 0x5D); repeat split).
  destruct Q as (Q1 & Q2 & Q3 & Q4).
  pose proof (cut_app f (c :: t)) as E. pose proof (cut_before f (c :: t)) as F. pose proof (cut_after f (c :: t)) as Fa. destruct (cut f (c :: t)) as [h rest]. cbn [fst snd] in *.
  assert (Ih : Forall inner_file h).
  { assert (Vh : Forall visible h) by (rewrite Ei, E in Vi; now apply Forall_app in Vi). rewrite Forall_forall in *. intros x I. specialize (F x I). unfold f in F. split; [now apply Vh|]. unfold is_slash.
    apply orb_false_iff in F as [F F4]. apply orb_false_iff in F as [F F3]. repeat split; [exact F|lia|lia]. }
  destruct (run_file_host_over h (move 1 q) [] rest) as (p' & St' & E' & B' & U' & G).
  { split; [now rewrite Ei|]. change (p_pointer (move 1 q)) with (p_pointer q + 1). rewrite Q4. reflexivity. }
  { exact Ih. } { exact Q1. }
  change (p_buffer (move 1 q)) with (p_buffer q) in B'. change (p_url (move 1 q)) with (p_url q) in U'. rewrite Q3 in B'. rewrite Q2 in U'. cbn [app] in B', St'.
  assert (K : forall w, (exists b, R p' (b, w)) -> exists b, R p (b, w)).
  { intros w [b K]. exists b. apply (runs_step idna input None (Some o) fuel Fu _ _ _ H); [rewrite Q4; unfold size; lia|]. now apply G. }
  intros K0. apply K. clear K F1.
  assert (H1 : H_ p' = on_file_host idna (Some o) fuel p' (current input p')) by (unfold handle; rewrite E'; reflexivity).
  assert (D : (current input p' =? EOF) || (current input p' =? 0x2F) || (current input p' =? 0x5C) || (current input p' =? 0x3F) || (current input p' =? 0x23) = true).
  { destruct Fa as [->|(x & y & -> & Fx)].
    - apply (eof input fuel Fu) in St' as [-> _]. reflexivity.
    - apply (cur input fuel Fu) in St' as [-> _]. unfold f in Fx. rewrite <- !orb_assoc in *. rewrite Fx. apply orb_true_r. }
  unfold on_file_host in H1. rewrite D in H1. cbn [overridden negb andb] in H1. change (p_buffer (move (-1) p')) with (p_buffer p') in H1. change (p_url (move (-1) p')) with (p_url p') in H1.
  rewrite B', U', Sp in H1. cbn [nonempty negb] in H1. destruct (ph (c :: h) false) as [hh| |]; try discriminate K0. cbn [obind] in K0, H1.
  destruct hh; try discriminate K0; apply Val_inj in K0; subst v; [apply ofail; rewrite H1; unfold fail, move, s_pointer; pj; now rewrite U'|..].
  all: apply oret; rewrite H1; cbn [host_equals of_option obind]; unfold ret, on_url, s_url, move, s_pointer; pj; now rewrite U'.
Qed.
End Computes.

(** * The setters *)

Section Setters.
Variable idna : list Z -> option (list Z).
Variables fuel steps : nat.
Local Notation ph := (parse_host idna fuel).

Lemma modified s u o v b : Forall scalar s -> enough s fuel steps -> starts_from u o ->
  runs idna (without_newlines s) None (Some o) fuel (here o [] [] u) (b, v) -> modify idna fuel steps s u o = Val v.
Proof. exact (modify_runs idna fuel steps s u o b v). Qed.
Lemma fuel_left s : enough s fuel steps -> (List.length (without_newlines s) + 1 < fuel)%nat.
Proof. intros [F _]. pose proof (newlines_length s). lia. Qed.

Lemma protocol_setter_is u s v : Forall scalar s -> enough (s ++ [0x3A]) fuel steps -> protocol_of u (without_newlines s) = Val v -> set_protocol idna fuel steps u s = Val v.
Proof.
  intros S En K. unfold set_protocol. assert (S1 : Forall scalar (s ++ [0x3A])) by (apply Forall_app; split; [exact S|repeat constructor; unfold scalar; lia]).
  assert (W : without_newlines (s ++ [0x3A]) = without_newlines s ++ [0x3A]) by (unfold without_newlines; rewrite filter_app; reflexivity).
  destruct (protocol_here idna (without_newlines (s ++ [0x3A])) SchemeStart fuel (fuel_left _ En) (newlines_visible _ S1) u v (without_newlines s) W K) as [b R].
  apply (modified _ u SchemeStart _ _ S1 En I R).
Qed.
Lemma host_setter_is ports u s v : Forall scalar s -> enough s fuel steps -> host_setter ph ports u (without_newlines s) = Val v ->
  (if ports then set_host_ idna fuel steps u s else set_hostname idna fuel steps u s) = Val v.
Proof.
  intros S En. unfold host_setter. set (o := if ports then Host else Hostname).
  assert (E : (if ports then set_host_ idna fuel steps u s else set_hostname idna fuel steps u s) = if cannot_be_base u then Val u else modify idna fuel steps s u o) by (unfold o; destruct ports; reflexivity).
  rewrite E. destruct (cannot_be_base u); [auto|]. assert (Ho : o = Host \/ o = Hostname) by (unfold o; destruct ports; auto).
  assert (So : starts_from u o) by (destruct Ho as [-> | ->]; exact I).
  assert (Vn : Forall visible (without_newlines s)) by (apply newlines_visible, S).
  destruct (eqs (scheme u) (lit "file")) eqn:Ef; intros K.
  - destruct (file_host_here idna _ o fuel (fuel_left _ En) Vn u v _ Ho eq_refl Ef K) as [b R]. apply (modified _ _ _ _ _ S En So R).
  - destruct (host_here idna _ o fuel (fuel_left _ En) Vn u v (without_newlines s) Ho eq_refl Ef) as [b R]; [|apply (modified _ _ _ _ _ S En So R)].
    replace (match o with Host => true | _ => false end) with ports by (unfold o; destruct ports; reflexivity). exact K.
Qed.
Lemma port_setter_is u s v : Forall scalar s -> enough s fuel steps -> port_setter u s (without_newlines s) = Val v -> set_port_ idna fuel steps u s = Val v.
Proof.
  intros S En. unfold port_setter, set_port_, cannot_have_username_or_password_or_port.
  assert (M : match s with [] => Val (Url (scheme u) (username u) (password u) (uhost u) None (path u) (query u) (fragment u) (cannot_be_base u)) | _ => Val (port_at u (without_newlines s)) end = Val v ->
    match s with [] => Val (set_port None u) | _ => modify idna fuel steps s u Port end = Val v).
  { destruct s as [|c s]; [auto|]. intros K. apply Val_inj in K. subst v.
    destruct (port_here idna (without_newlines (c :: s)) Port fuel (fuel_left _ En) [] u (without_newlines (c :: s)) eq_refl) as [b R]. apply (modified _ u Port _ _ S En I R). }
  revert M. set (x := Val (Url _ _ _ _ _ _ _ _ _)). set (y := Val (port_at _ _)). clearbody x y. intros M. destruct (uhost u) as [[| | | | |]|]; cbn [host_equals]; intros K; try discriminate K; [|..|exact K].
  all: cbn [of_option obind]; rewrite <- orb_assoc.
  all: match goal with |- (if eqs ?d [] || ?e then _ else _) = _ => replace (eqs d [] || e) with (match d with [] => true | _ => e end) by (destruct d; reflexivity) end.
  all: destruct (match s0 with [] => true | _ => _ end); [exact K|exact (M K)].
Qed.
End Setters.
