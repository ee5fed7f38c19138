(** Lemmas for M_url: absolute URLs with an authority, with an opaque path, and of files. *)
From Coq Require Import String.
From Coq Require Import ZArith List Bool Lia.
From Verif Require Import M_unicode M_infra M_percent M_ip M_encoding M_labels M_url.
From Verif Require Import L_unicode L_url L_url2 L_url3 L_url4 L_url5 L_url6 L_url7.
Import ListNotations.
Open Scope string_scope.
Open Scope list_scope.
Open Scope Z_scope.

Definition utext (o : option (list Z)) : list Z := match o with Some us => us ++ [0x40] | None => [] end.
Definition ptext (o : option (list Z)) : list Z := match o with Some d => 0x3A :: d | None => [] end.
Definition userinfo (o : option (list Z)) (u : url) : url := match o with Some us => with_userinfo us u | None => u end.
Definition the_port (o : option (list Z)) (u : url) : url := match o with Some d => with_port d u | None => u end.
Definition host_none (h : host) : bool := match h with HNone => true | _ => false end.
Definition port_bad (o : option (list Z)) : bool := match o with Some [] | None => false | Some d => negb (port_fits d) end.
(** The record of an authority, then path, query and fragment. *)
Definition authority_url (u : url) (ou : option (list Z)) (h : host) (od : option (list Z)) (b : list Z) (oq of : option (list Z)) : url :=
  finish (the_port od (set_host (Some h) (userinfo ou u))) b oq of.

Definition starts_path (u : url) (b : list Z) : Prop := b = [] \/ exists c r, b = c :: r /\ path_sep u c = true.

(** Scheme text: a letter, then letters, digits, plus, minus and full stop. *)
Definition scheme_char (c : Z) : bool := is_ascii_alphanumeric c || (c =? 0x2B) || (c =? 0x2D) || (c =? 0x2E).
Definition scheme_text (sc : list Z) : Prop := match sc with c :: r => is_ascii_alpha c = true /\ Forall (fun x => scheme_char x = true) r | [] => False end.
Definition is_slash (c : Z) : bool := (c =? 0x2F) || (c =? 0x5C).

Lemma userinfo_scheme ou u : scheme (userinfo ou u) = scheme u.
Proof. destruct ou as [us|]; [|reflexivity]. cbn [userinfo]. unfold with_userinfo. destruct (colon us) as [x [y|]]; reflexivity. Qed.
Lemma userinfo_path ou u : path (userinfo ou u) = path u.
Proof. destruct ou as [us|]; [|reflexivity]. cbn [userinfo]. unfold with_userinfo. destruct (colon us) as [x [y|]]; reflexivity. Qed.

Section Abs.
Variable idna : list Z -> option (list Z).
Variable input : list Z.
Variable base : option url.
Variable fuel : nat.
Hypothesis Fu : (List.length input + 1 < fuel)%nat.

Local Notation R := (runs idna input base None fuel).
Local Notation H_ := (handle idna input base None fuel).

Definition gives (p : parser) (o : option url) : Prop :=
  match o with Some u => R p (true, u) | None => exists w, R p (false, w) end.
Lemma gives_from p q o : (forall r, R q r -> R p r) -> gives q o -> gives p o.
Proof. intros K. destruct o; cbn [gives]; [apply K|]. intros [w W]. exists w. apply K, W. Qed.

Lemma closes_of u b oq of : starts_path u b -> closes u (b ++ qtext oq ++ ftext of).
Proof.
  intros [->|(c & r & -> & P)].
  - destruct oq as [q|]; [right; exists 0x3F, (q ++ ftext of); split; [reflexivity|]; unfold ends_authority; now rewrite !orb_true_r|].
    destruct of as [f|]; [right; exists 0x23, f; split; [reflexivity|]; unfold ends_authority; now rewrite !orb_true_r|]. now left.
  - right. exists c, (r ++ qtext oq ++ ftext of). split; [reflexivity|]. unfold ends_authority. unfold path_sep in P. destruct (c =? 0x2F); [now rewrite !orb_true_r|].
    cbn [orb] in P. rewrite P. now rewrite !orb_true_r.
Qed.

Lemma run_all p a ou s od b oq of hh :
  stands input p a ((utext ou ++ s ++ ptext od) ++ b ++ qtext oq ++ ftext of) ->
  p_state p = Authority -> p_at p = false -> p_token p = false -> p_buffer p = [] -> p_brackets p = false -> p_enc p = UTF_8 ->
  Forall (inner (p_url p)) (utext ou ++ s ++ ptext od) -> ~ In 0x40 (s ++ ptext od) ->
  colon_free false s -> (od <> None -> in_brackets false s = false) -> match od with Some d => digits d | None => True end ->
  (is_special (p_url p) = true \/ ou <> None \/ od <> None -> s <> []) ->
  starts_path (p_url p) b -> tail_ok b oq of -> path (p_url p) = [] ->
  parse_host idna fuel s (negb (is_special (p_url p))) = Val hh ->
  gives p (if host_none hh || port_bad od then None else Some (authority_url (p_url p) ou hh od b oq of)).
Proof.
  intros St E At Tk Bu Br En It N40 Cf Ib Dg Ne Sp Ok Pa Ph.
  set (u := p_url p) in *. set (h := b ++ qtext oq ++ ftext of) in *. pose proof (closes_of u b oq of Sp) as Ch. fold h in Ch.
  assert (Sc : exists tok, scan (utext ou ++ s ++ ptext od) [] false false u = (s ++ ptext od, match ou with Some _ => true | None => false end, tok, userinfo ou u)).
  { destruct ou as [us|]; cbn [utext userinfo app].
    - rewrite <- app_assoc. cbn [app]. rewrite scan_at by exact N40. cbn [app]. destruct (creds us false u) as [t v] eqn:C. exists t.
      replace v with (with_userinfo us u); [reflexivity|]. rewrite <- creds_user, C. reflexivity.
    - exists false. rewrite scan_none by exact N40. reflexivity. }
  destruct Sc as [tok Sc].
  assert (A : forall r, (forall q, p_state q = Host -> p_buffer q = [] -> p_brackets q = false -> p_enc q = UTF_8 -> p_url q = userinfo ou u ->
     stands input q (a ++ utext ou) (s ++ ptext od ++ h) -> R q r) -> R p r).
  { intros r K. pose proof (run_authority idna input base fuel Fu _ p a h r St E It Ch) as G. rewrite Bu, At, Tk in G. fold u in G. rewrite Sc in G.
    apply G; [constructor|rewrite zlen_nil; apply zlen_pos| |].
    - destruct ou; [|discriminate]. intros _. intros X. apply app_eq_nil in X as [X _]. apply Ne; [right; left; discriminate|exact X].
    - intros q Q1 Q2 Q3 Q4 Q5 Q6. apply K; try congruence. split.
      + destruct St as [-> _]. rewrite <- !app_assoc. reflexivity.
      + rewrite Q6, !zlen_app. lia. }
  set (v := userinfo ou u) in *.
  assert (Sv : scheme v = scheme u) by apply userinfo_scheme.
  assert (Iv : forall c, inner u c -> inner v c) by (intros c [X Y]; split; [exact X|]; rewrite (ends_same u v c Sv); exact Y).
  assert (Cv : closes v h).
  { destruct Ch as [->|(x & y & X & Y)]; [now left|right]. exists x, y. split; [exact X|]. rewrite (ends_same u v x Sv). exact Y. }
  assert (Hs : Forall (inner v) s). { apply Forall_app in It as [_ It]. apply Forall_app in It as [It _]. revert It. apply Forall_impl. exact Iv. }
  assert (Isp : is_special v = is_special u) by (unfold is_special; now rewrite Sv).
  assert (Pv : path v = []) by (unfold v; now rewrite userinfo_path).
  destruct od as [d|]; cbn [ptext port_bad] in *.
  - (* a port *)
    assert (Ns : s <> []) by (apply Ne; right; right; discriminate).
    assert (B : forall r, (hh = HNone -> r = (false, v)) -> (hh <> HNone -> forall q, stands input q ((a ++ utext ou) ++ s ++ [0x3A]) (d ++ h) -> p_state q = Port -> p_buffer q = [] ->
       p_enc q = UTF_8 -> p_url q = set_host (Some hh) v -> R q r) -> R p r).
    { intros r F K. apply A. intros q Q1 Q2 Q3 Q4 Q5 Q6. cbn [app] in Q6.
      apply (run_host_colon idna input base fuel Fu q (a ++ utext ou) s (d ++ h) hh r); auto.
      - rewrite Q5. exact Hs.
      - apply Ib. discriminate.
      - rewrite Q5, Isp. exact Ph.
      - rewrite Q5. exact F.
      - intros D q' X1 X2 X3 X4 X5. apply (K D); auto; [congruence|]. rewrite X5, Q5. reflexivity. }
    destruct (host_none hh) eqn:Hn.
    { cbn [orb gives]. exists v. destruct hh; try discriminate. apply B; [reflexivity|congruence]. }
    assert (Dn : hh <> HNone) by (intros ->; discriminate Hn).
    set (w := set_host (Some hh) v) in *.
    assert (Cw : closes w h) by exact Cv.
    cbn [orb]. destruct d as [|x d].
    + cbn [gives]. apply B; [congruence|]. intros _ q X1 X2 X3 X4 X5. apply (run_port idna input base fuel Fu q ((a ++ utext ou) ++ s ++ [0x3A]) [] h); auto.
      * rewrite X5. exact Cw.
      * congruence.
      * intros _ q' Y1 Y2 Y3 Y4 Y5. cbn [with_port] in Y5. rewrite X5 in Y5.
        pose proof (run_tail idna input base fuel Fu q' _ b oq of Y1 Y2 Y3) as T. rewrite Y4, X4, Y5 in T. specialize (T eq_refl Pv Ok). exact T.
    + destruct (port_fits (x :: d)) eqn:Pf; cbn [negb gives].
      * apply B; [congruence|]. intros _ q X1 X2 X3 X4 X5. apply (run_port idna input base fuel Fu q ((a ++ utext ou) ++ s ++ [0x3A]) (x :: d) h); auto.
        -- rewrite X5. exact Cw.
        -- congruence.
        -- intros _ q' Y1 Y2 Y3 Y4 Y5. rewrite X5 in Y5.
           pose proof (run_tail idna input base fuel Fu q' _ b oq of Y1 Y2 Y3) as T. rewrite Y4, X4, Y5 in T. specialize (T eq_refl Pv Ok). exact T.
      * exists w. apply B; [congruence|]. intros _ q X1 X2 X3 X4 X5. apply (run_port idna input base fuel Fu q ((a ++ utext ou) ++ s ++ [0x3A]) (x :: d) h); auto.
        -- rewrite X5. exact Cw.
        -- intros _ _. now rewrite X5.
        -- intros [X|X]; [discriminate|congruence].
  - (* no port *)
    assert (B : forall r, (hh = HNone -> r = (false, v)) -> (hh <> HNone -> forall q, stands input q ((a ++ utext ou) ++ s) h -> p_state q = PathStart -> p_buffer q = [] ->
       p_enc q = UTF_8 -> p_url q = set_host (Some hh) v -> R q r) -> R p r).
    { intros r F K. apply A. intros q Q1 Q2 Q3 Q4 Q5 Q6. cbn [app] in Q6.
      apply (run_host_end idna input base fuel Fu q (a ++ utext ou) s h hh r); auto.
      - rewrite Q5. exact Hs.
      - rewrite Q5. exact Cv.
      - rewrite Q5, Isp. exact Ph.
      - rewrite Q5, Isp. intros X. apply Ne. now left.
      - rewrite Q5. exact F.
      - intros D q' X1 X2 X3 X4 X5. apply (K D); auto; [congruence|]. rewrite X5, Q5. reflexivity. }
    destruct (host_none hh) eqn:Hn.
    { cbn [orb gives]. exists v. destruct hh; try discriminate. apply B; [reflexivity|congruence]. }
    assert (Dn : hh <> HNone) by (intros ->; discriminate Hn). cbn [orb gives].
    apply B; [congruence|]. intros _ q X1 X2 X3 X4 X5.
    pose proof (run_tail idna input base fuel Fu q _ b oq of X1 X2 X3) as T. rewrite X4, X5 in T. specialize (T eq_refl Pv Ok). exact T.
Qed.

(** ** The scheme *)

Definition here (s : pstate) (buf a : list Z) (u : url) : parser := P s buf false false false (zlen a) UTF_8 u.
Ltac hp p := unfold p, here, move, push, s_pointer, s_state, s_buffer; pj; rewrite ?zlen_app, ?zlen_cons, ?zlen_nil; f_equal; lia.
Lemma here_stands s buf a u b : input = a ++ b -> stands input (here s buf a u) a b.
Proof. intros E. split; [exact E|reflexivity]. Qed.
Lemma here_next s buf a c u : move 1 (here s buf a u) = here s buf (a ++ [c]) u.
Proof. unfold here, move. pj. rewrite zlen_app, zlen_cons, zlen_nil. reflexivity. Qed.

Lemma lower_map_app x c : map cp_lower x ++ [cp_lower c] = map cp_lower (x ++ [c]).
Proof. now rewrite map_app. Qed.

Lemma run_scheme_rest r0 : forall a t, input = a ++ r0 ++ t -> Forall (fun x => scheme_char x = true) r0 ->
  forall r, R (here Scheme (map cp_lower (a ++ r0)) (a ++ r0) empty_url) r -> R (here Scheme (map cp_lower a) a empty_url) r.
Proof.
  induction r0 as [|c r0 IH]; intros a t Ei Sc r K; [now rewrite app_nil_r in K|]. inversion Sc as [|x0 y0 H1 H2]; subst x0 y0.
  assert (St : stands input (here Scheme (map cp_lower a) a empty_url) a (c :: r0 ++ t)) by (apply here_stands; rewrite Ei; reflexivity).
  destruct (cur input fuel Fu _ _ _ _ St) as (C & L0 & L).
  assert (H : H_ (here Scheme (map cp_lower a) a empty_url) = Val (Go (push [cp_lower c] (here Scheme (map cp_lower a) a empty_url)))).
  { unfold handle. change (p_state (here Scheme (map cp_lower a) a empty_url)) with Scheme. cbv iota. rewrite C. unfold on_scheme. unfold scheme_char in H1. rewrite H1. reflexivity. }
  apply (step idna input base fuel Fu _ _ _ H); [exact L|].
  replace (move 1 (push [cp_lower c] (here Scheme (map cp_lower a) a empty_url))) with (here Scheme (map cp_lower (a ++ [c])) (a ++ [c]) empty_url).
  - apply (IH (a ++ [c]) t); auto; [rewrite Ei, <- app_assoc; reflexivity|]. rewrite <- app_assoc. exact K.
  - rewrite <- lower_map_app. unfold here, move, push. pj. rewrite zlen_app, zlen_cons, zlen_nil. reflexivity.
Qed.
Lemma run_scheme sc t r : input = sc ++ t -> scheme_text sc -> t <> [] ->
  R (here Scheme (map cp_lower sc) sc empty_url) r -> R (start None UTF_8 empty_url) r.
Proof.
  intros Ei Sc Nt K. destruct sc as [|c sc]; [destruct Sc|]. destruct Sc as [Ca Sc].
  change (start None UTF_8 empty_url) with (here SchemeStart [] [] empty_url).
  assert (St : stands input (here SchemeStart [] [] empty_url) [] (c :: sc ++ t)) by (apply here_stands; exact Ei).
  destruct (cur input fuel Fu _ _ _ _ St) as (C & L0 & L).
  assert (H : H_ (here SchemeStart [] [] empty_url) = go Scheme (push [cp_lower c] (here SchemeStart [] [] empty_url))).
  { unfold handle. change (p_state (here SchemeStart [] [] empty_url)) with SchemeStart. cbv iota. rewrite C. unfold on_scheme_start. rewrite Ca. reflexivity. }
  apply (step idna input base fuel Fu _ _ _ H); [exact L|].
  change (R (here Scheme (map cp_lower [c]) [c] empty_url) r). apply (run_scheme_rest sc [c] t); auto.
Qed.

Lemma at_next p a c d b : stands input p a (c :: d :: b) -> at_ input p 1 = Val d.
Proof.
  intros [E P]. unfold at_. rewrite P, E. unfold zlen. replace (Z.of_nat (List.length a) + 1 <? 0) with false by lia.
  replace (Z.to_nat (Z.of_nat (List.length a) + 1)) with (List.length a + 1)%nat by lia. rewrite nth_error_app2 by lia.
  replace (List.length a + 1 - List.length a)%nat with 1%nat by lia. reflexivity.
Qed.
Lemma at_next2 p a c d e b : stands input p a (c :: d :: e :: b) -> at_ input p 2 = Val e.
Proof.
  intros [E P]. unfold at_. rewrite P, E. unfold zlen. replace (Z.of_nat (List.length a) + 2 <? 0) with false by lia.
  replace (Z.to_nat (Z.of_nat (List.length a) + 2)) with (List.length a + 2)%nat by lia. rewrite nth_error_app2 by lia.
  replace (List.length a + 2 - List.length a)%nat with 2%nat by lia. reflexivity.
Qed.
Lemma left_stands p a b : stands input p a b -> left_ input p = zlen b.
Proof. intros [E P]. unfold left_, size. rewrite P, E, app_length. unfold zlen. lia. Qed.

Lemma run_ignore sl : forall u a t, input = a ++ sl ++ t -> Forall (fun c => is_slash c = true) sl ->
  match t with c :: _ => is_slash c = false | [] => True end ->
  forall r, R (here Authority [] (a ++ sl) u) r -> R (here SpecialAuthorityIgnoreSlashes [] a u) r.
Proof.
  induction sl as [|c sl IH]; intros u a t Ei Sl Nt r K.
  - rewrite app_nil_r in K. set (p := here SpecialAuthorityIgnoreSlashes [] a u).
    assert (St : stands input p a t) by (apply here_stands; exact Ei).
    assert (C : is_slash (current input p) = false).
    { destruct t as [|c t]; [apply (eof input fuel Fu) in St as [-> _]; reflexivity|]. apply (cur input fuel Fu) in St as [-> _]. exact Nt. }
    assert (H : H_ p = go Authority (move (-1) p)).
    { unfold handle. change (p_state p) with SpecialAuthorityIgnoreSlashes. cbv iota. unfold on_special_authority_ignore_slashes. unfold is_slash in C. rewrite C. reflexivity. }
    apply (step idna input base fuel Fu _ _ _ H).
    + pose proof (in_bounds input fuel Fu p a t St). unfold p, here in *. pj. lia.
    + replace (move 1 (s_state Authority (move (-1) p))) with (here Authority [] a u); [exact K|]. hp p.
  - inversion Sl as [|x0 y0 H1 H2]; subst x0 y0. set (p := here SpecialAuthorityIgnoreSlashes [] a u).
    assert (St : stands input p a (c :: sl ++ t)) by (apply here_stands; exact Ei).
    destruct (cur input fuel Fu _ _ _ _ St) as (C & L0 & L).
    assert (H : H_ p = stay p).
    { unfold handle. change (p_state p) with SpecialAuthorityIgnoreSlashes. cbv iota. unfold on_special_authority_ignore_slashes. rewrite C. unfold is_slash in H1. rewrite H1. reflexivity. }
    apply (step idna input base fuel Fu _ _ _ H); [exact L|]. unfold p. rewrite (here_next _ _ _ c).
    apply (IH u (a ++ [c]) t); auto; [rewrite Ei, <- app_assoc; reflexivity|]. rewrite <- app_assoc. exact K.
Qed.

Lemma run_slashes sl u a t r : input = a ++ sl ++ t -> Forall (fun c => is_slash c = true) sl ->
  match t with c :: _ => is_slash c = false | [] => True end ->
  R (here Authority [] (a ++ sl) u) r -> R (here SpecialAuthoritySlashes [] a u) r.
Proof.
  intros Ei Sl Nt K. set (p := here SpecialAuthoritySlashes [] a u).
  assert (St : stands input p a (sl ++ t)) by (apply here_stands; exact Ei).
  pose proof (in_bounds input fuel Fu p a _ St) as Bd.
  assert (H : H_ p = on_special_authority_slashes input p (current input p)) by reflexivity.
  assert (Plain : H_ p = go SpecialAuthorityIgnoreSlashes (move (-1) p) -> R p r).
  { intros G. apply (step idna input base fuel Fu _ _ _ G); [pj; lia|].
    replace (move 1 (s_state SpecialAuthorityIgnoreSlashes (move (-1) p))) with (here SpecialAuthorityIgnoreSlashes [] a u).
    - now apply (run_ignore sl u a t).
    - hp p. }
  unfold on_special_authority_slashes in H. destruct (sl ++ t) as [|c rest] eqn:Er.
  - destruct (eof input fuel Fu _ _ St) as [C _]. rewrite C in H. apply Plain. exact H.
  - destruct (cur input fuel Fu _ _ _ _ St) as (C & L0 & L). rewrite C, (left_stands _ _ _ St) in H.
    destruct rest as [|d rest].
    + rewrite zlen_cons, zlen_nil in H. rewrite andb_false_r in H. apply Plain. exact H.
    + rewrite (at_next _ _ _ _ _ St) in H. destruct (c =? 0x2F) eqn:C1; [|apply Plain; exact H].
      replace (2 <=? zlen (c :: d :: rest)) with true in H by (rewrite !zlen_cons; pose proof (zlen_pos rest); lia). cbn [andb obind] in H.
      destruct (d =? 0x2F) eqn:D1; [|apply Plain; exact H].
      assert (exists sl', sl = c :: d :: sl') as [sl' ->].
      { destruct sl as [|x [|y sl]]; cbn [app] in Er.
        - subst t. unfold is_slash in Nt. rewrite C1 in Nt. discriminate.
        - inversion Er; subst. unfold is_slash in Nt. rewrite D1 in Nt. discriminate.
        - inversion Er; subst. now exists sl. }
      cbn [app] in Er. inversion Er as [Er']. apply (step idna input base fuel Fu _ _ _ H).
      * pj. unfold size in *. destruct St as [-> P]. rewrite P in *. rewrite app_length in *. cbn [List.length] in *. unfold zlen in *. lia.
      * replace (move 1 (s_state SpecialAuthorityIgnoreSlashes (move 1 p))) with (here SpecialAuthorityIgnoreSlashes [] (a ++ [c; d]) u).
        -- apply (run_ignore sl' u (a ++ [c; d]) t); auto.
           ++ rewrite Ei, <- Er'. rewrite <- app_assoc. reflexivity.
           ++ now inversion Sl as [|? ? ? Sl']; inversion Sl'.
           ++ rewrite <- app_assoc. exact K.
        -- hp p.
Qed.
Lemma run_slashes_base sl u a t r : input = a ++ (0x2F :: 0x2F :: sl) ++ t -> Forall (fun c => is_slash c = true) sl ->
  match t with c :: _ => is_slash c = false | [] => True end ->
  R (here Authority [] (a ++ 0x2F :: 0x2F :: sl) u) r -> R (here SpecialRelativeOrAuthority [] a u) r.
Proof.
  intros Ei Sl Nt K. set (p := here SpecialRelativeOrAuthority [] a u).
  assert (St : stands input p a (0x2F :: 0x2F :: sl ++ t)) by (apply here_stands; exact Ei).
  destruct (cur input fuel Fu _ _ _ _ St) as (C & L0 & L).
  assert (H : H_ p = go SpecialAuthorityIgnoreSlashes (move 1 p)).
  { change (H_ p) with (on_special_relative_or_authority input p (current input p)). unfold on_special_relative_or_authority. rewrite C, (left_stands _ _ _ St), (at_next _ _ _ _ _ St).
    change (0x2F =? 0x2F) with true. cbn [andb]. replace (2 <=? zlen (0x2F :: 0x2F :: sl ++ t)) with true by (rewrite !zlen_cons; pose proof (zlen_pos (sl ++ t)); lia). reflexivity. }
  apply (step idna input base fuel Fu _ _ _ H).
  - pj. unfold size in *. destruct St as [-> P]. rewrite P in *. rewrite app_length in *. cbn [List.length] in *. unfold zlen in *. lia.
  - replace (move 1 (s_state SpecialAuthorityIgnoreSlashes (move 1 p))) with (here SpecialAuthorityIgnoreSlashes [] (a ++ [0x2F; 0x2F]) u).
    + apply (run_ignore sl u (a ++ [0x2F; 0x2F]) t); auto.
      * rewrite Ei. rewrite <- app_assoc. reflexivity.
      * rewrite <- app_assoc. exact K.
    + hp p.
Qed.

(** What follows the scheme. *)
Definition same_scheme (s : list Z) : bool := match base with Some v => eqs (scheme v) s | None => false end.
Lemma colon_step sc t : input = sc ++ 0x3A :: t -> 
  let p := here Scheme (map cp_lower sc) sc empty_url in
  let q := here Scheme [] sc (set_scheme (map cp_lower sc) empty_url) in
  H_ p =
    if eqs (map cp_lower sc) (lit "file") then go File q
    else if is_special_scheme (map cp_lower sc) && same_scheme (map cp_lower sc) then go SpecialRelativeOrAuthority q
    else if is_special_scheme (map cp_lower sc) then go SpecialAuthoritySlashes q
    else if match t with c :: _ :: _ => c =? 0x2F | _ => false end then go PathOrAuthority (move 1 q)
    else go CannotBeABaseUrlPath (on_url (fun u => set_path (path u ++ [[]]) (set_cannot true u)) q).
Proof.
  intros Ei p q. assert (St : stands input p sc (0x3A :: t)) by (apply here_stands; exact Ei). assert (Sq : stands input q sc (0x3A :: t)) by (apply here_stands; exact Ei).
  destruct (cur input fuel Fu _ _ _ _ St) as (C & _ & _). change (H_ p) with (on_scheme input base None p (current input p)). unfold on_scheme. rewrite C.
  change (is_ascii_alphanumeric 0x3A || (0x3A =? 0x2B) || (0x3A =? 0x2D) || (0x3A =? 0x2E)) with false. change (0x3A =? 0x3A) with true. cbn [overridden andb obind]. cbv iota.
  change (p_buffer p) with (map cp_lower sc). change (s_buffer [] (s_url (set_scheme (map cp_lower sc) (p_url p)) p)) with q.
  change (scheme (set_scheme (map cp_lower sc) (p_url p))) with (map cp_lower sc). change (is_special (set_scheme (map cp_lower sc) (p_url p))) with (is_special_scheme (map cp_lower sc)).
  rewrite (left_stands _ _ _ Sq). rewrite zlen_cons.
  destruct (eqs (map cp_lower sc) (lit "file")).
  - destruct t as [|c [|d t]]; [reflexivity|reflexivity|]. rewrite (at_next _ _ _ _ _ Sq). rewrite !zlen_cons. pose proof (zlen_pos t).
    replace (1 + (1 + (1 + zlen t)) <? 3) with false by lia. cbn [obind]. destruct (c =? 0x2F); [|reflexivity].
    rewrite (at_next2 _ _ _ _ _ _ Sq). reflexivity.
  - unfold same_scheme. destruct (is_special_scheme (map cp_lower sc) && _); [reflexivity|]. destruct (is_special_scheme (map cp_lower sc)); [reflexivity|].
    destruct t as [|c [|d t]].
    + reflexivity.
    + reflexivity.
    + rewrite !zlen_cons. pose proof (zlen_pos t). replace (2 <? 1 + (1 + (1 + zlen t))) with true by lia. rewrite (at_next _ _ _ _ _ Sq). cbn [obind]. reflexivity.
Qed.

Definition scheme_url (sc : list Z) : url := set_scheme (map cp_lower sc) empty_url.
Lemma colon_url sc t : input = sc ++ 0x3A :: t ->
  H_ (here Scheme (map cp_lower sc) sc empty_url) =
    let u := scheme_url sc in
    if is_file u then go File (here Scheme [] sc u)
    else if is_special u && same_scheme (scheme u) then go SpecialRelativeOrAuthority (here Scheme [] sc u)
    else if is_special u then go SpecialAuthoritySlashes (here Scheme [] sc u)
    else if match t with c :: _ :: _ => c =? 0x2F | _ => false end then go PathOrAuthority (move 1 (here Scheme [] sc u))
    else go CannotBeABaseUrlPath (on_url (fun u => set_path (path u ++ [[]]) (set_cannot true u)) (here Scheme [] sc u)).
Proof. exact (colon_step sc t). Qed.

(** ** With an authority *)

Definition authority_ok (u : url) (ou : option (list Z)) (s : list Z) (od : option (list Z)) : Prop :=
  Forall (inner u) (utext ou ++ s ++ ptext od) /\ ~ In 0x40 (s ++ ptext od) /\ colon_free false s /\ (od <> None -> in_brackets false s = false) /\ match od with Some d => digits d | None => True end /\ (is_special u = true \/ ou <> None \/ od <> None -> s <> []).

Lemma run_all_here a u ou s od b oq of hh :
  input = a ++ (utext ou ++ s ++ ptext od) ++ b ++ qtext oq ++ ftext of -> authority_ok u ou s od ->
  starts_path u b -> tail_ok b oq of -> path u = [] -> parse_host idna fuel s (negb (is_special u)) = Val hh ->
  gives (here Authority [] a u) (if host_none hh || port_bad od then None else Some (authority_url u ou hh od b oq of)).
Proof.
  intros Ei (A1 & A2 & A3 & A4 & A5 & A6) Sb Ok Pa Ph.
  exact (run_all (here Authority [] a u) a ou s od b oq of hh (here_stands Authority [] a u _ Ei) eq_refl eq_refl eq_refl eq_refl eq_refl eq_refl A1 A2 A3 A4 A5 A6 Sb Ok Pa Ph).
Qed.

Lemma inner_not_slash u c : is_special u = true -> inner u c -> is_slash c = false.
Proof. intros S [_ E]. unfold ends_authority in E. rewrite S in E. unfold is_slash. cbn [andb] in E. destruct (c =? 0x2F), (c =? 0x5C); try reflexivity; rewrite ?orb_true_r in E; discriminate. Qed.

Lemma parse_special sc sl ou s od b oq of hh :
  let u := scheme_url sc in
  input = sc ++ 0x3A :: sl ++ (utext ou ++ s ++ ptext od) ++ b ++ qtext oq ++ ftext of ->
  scheme_text sc -> is_special u = true -> is_file u = false -> Forall (fun c => is_slash c = true) sl ->
  (same_scheme (scheme u) = true -> exists sl', sl = 0x2F :: 0x2F :: sl') ->
  authority_ok u ou s od -> starts_path u b -> tail_ok b oq of ->
  parse_host idna fuel s false = Val hh ->
  gives (start None UTF_8 empty_url) (if host_none hh || port_bad od then None else Some (authority_url u ou hh od b oq of)).
Proof.
  intros u Ei Sc Sp Nf Sl Bs (A1 & A2 & A3 & A4 & A5 & A6) Sb Ok Ph.
  apply (gives_from _ (here Scheme (map cp_lower sc) sc empty_url)); [intros r; apply (run_scheme sc _ r Ei Sc); discriminate|].
  set (rest := (utext ou ++ s ++ ptext od) ++ b ++ qtext oq ++ ftext of) in *.
  pose proof (colon_url sc _ Ei) as H. cbv zeta in H. fold u in H. rewrite Nf, Sp in H. cbn [andb] in H.
  assert (St : stands input (here Scheme [] sc u) sc (0x3A :: sl ++ rest)) by (apply here_stands; exact Ei).
  destruct (cur input fuel Fu _ _ _ _ St) as (_ & _ & L).
  assert (Ns : s <> []) by (apply A6; now left).
  assert (Nt : match rest with c :: _ => is_slash c = false | [] => True end).
  { unfold rest. destruct (utext ou ++ s ++ ptext od) as [|c x] eqn:E.
    - apply app_eq_nil in E as [_ E]. apply app_eq_nil in E as [E _]. congruence.
    - cbn [app]. apply (inner_not_slash u c Sp). now inversion A1. }
  assert (Ei2 : input = (sc ++ [0x3A]) ++ sl ++ rest) by (rewrite Ei, <- app_assoc; reflexivity).
  assert (G : forall st r, H_ (here Scheme (map cp_lower sc) sc empty_url) = go st (here Scheme [] sc u) -> R (here st [] (sc ++ [0x3A]) u) r -> R (here Scheme (map cp_lower sc) sc empty_url) r).
  { intros st r E K. apply (step idna input base fuel Fu _ _ _ E); [exact L|]. rewrite <- (here_next st [] sc 0x3A u) in K. exact K. }
  apply (gives_from _ (here Authority [] ((sc ++ [0x3A]) ++ sl) u)).
  - intros r K. destruct (same_scheme (scheme u)) eqn:Ss.
    + apply (G _ _ H). destruct (Bs eq_refl) as [sl' ->]. apply (run_slashes_base sl' u (sc ++ [0x3A]) rest); auto. now inversion Sl as [|x y _ Sl']; inversion Sl'.
    + apply (G _ _ H). apply (run_slashes sl u (sc ++ [0x3A]) rest); auto.
  - apply (run_all_here _ u ou s od b oq of hh); auto.
    + rewrite <- app_assoc. exact Ei2.
    + repeat split; assumption.
    + rewrite Sp. exact Ph.
Qed.

Lemma parse_other_authority sc ou s od b oq of hh :
  let u := scheme_url sc in
  input = sc ++ 0x3A :: 0x2F :: 0x2F :: (utext ou ++ s ++ ptext od) ++ b ++ qtext oq ++ ftext of ->
  scheme_text sc -> is_special u = false ->
  authority_ok u ou s od -> starts_path u b -> tail_ok b oq of ->
  parse_host idna fuel s true = Val hh ->
  gives (start None UTF_8 empty_url) (if host_none hh || port_bad od then None else Some (authority_url u ou hh od b oq of)).
Proof.
  intros u Ei Sc Sp (A1 & A2 & A3 & A4 & A5 & A6) Sb Ok Ph.
  apply (gives_from _ (here Scheme (map cp_lower sc) sc empty_url)); [intros r; apply (run_scheme sc _ r Ei Sc); discriminate|].
  set (rest := (utext ou ++ s ++ ptext od) ++ b ++ qtext oq ++ ftext of) in *.
  pose proof (colon_url sc _ Ei) as H. cbv zeta in H. fold u in H.
  assert (Nf : is_file u = false).
  { destruct (is_file u) eqn:F; [|reflexivity]. unfold is_file, eqs in F. destruct (list_eq_dec Z.eq_dec (scheme u) (lit "file")) as [E|]; [|discriminate]. unfold is_special in Sp. rewrite E in Sp. discriminate Sp. }
  rewrite Nf, Sp in H. cbn [andb] in H. change (0x2F =? 0x2F) with true in H. cbv iota in H.
  assert (St : stands input (here Scheme [] sc u) sc (0x3A :: 0x2F :: 0x2F :: rest)) by (apply here_stands; exact Ei).
  assert (Sz : size input = zlen sc + 3 + zlen rest) by (change (size input) with (zlen input); rewrite Ei, zlen_app, !zlen_cons; lia).
  pose proof (zlen_pos rest) as Zr.
  set (p2 := here PathOrAuthority [] (sc ++ [0x3A; 0x2F]) u).
  assert (St2 : stands input p2 (sc ++ [0x3A; 0x2F]) (0x2F :: rest)) by (apply here_stands; rewrite Ei, <- app_assoc; reflexivity).
  destruct (cur input fuel Fu _ _ _ _ St2) as (C2 & _ & L2).
  assert (H2 : H_ p2 = go Authority p2) by (change (H_ p2) with (on_path_or_authority p2 (current input p2)); unfold on_path_or_authority; rewrite C2; reflexivity).
  set (p3 := here Authority [] (sc ++ [0x3A; 0x2F; 0x2F]) u).
  apply (gives_from _ p3).
  - intros r K. apply (step idna input base fuel Fu _ _ _ H); [unfold here, move; pj; lia|].
    match goal with |- R ?x r => replace x with p2 by (hp p2) end.
    apply (step idna input base fuel Fu _ _ _ H2); [exact L2|]. match goal with |- R ?x r => replace x with p3; [exact K|] end.
    unfold p2. hp p3.
  - apply (run_all_here _ u ou s od b oq of hh); auto.
    + rewrite Ei, <- app_assoc. reflexivity.
    + repeat split; assumption.
    + rewrite Sp. exact Ph.
Qed.

Lemma not_special_not_file u : is_special u = false -> is_file u = false.
Proof.
  intros Sp. destruct (is_file u) eqn:F; [|reflexivity]. unfold is_file, eqs in F. destruct (list_eq_dec Z.eq_dec (scheme u) (lit "file")) as [E|]; [|discriminate].
  unfold is_special in Sp. rewrite E in Sp. discriminate Sp.
Qed.

(** ** With a path only *)

Lemma parse_other_path sc b oq of :
  let u := scheme_url sc in
  input = sc ++ 0x3A :: 0x2F :: b ++ qtext oq ++ ftext of ->
  scheme_text sc -> is_special u = false -> b ++ qtext oq ++ ftext of <> [] -> hd 0 b <> 0x2F -> tail_ok b oq of ->
  gives (start None UTF_8 empty_url) (Some (finish u (0x2F :: b) oq of)).
Proof.
  intros u Ei Sc Sp Ne Nb Ok.
  apply (gives_from _ (here Scheme (map cp_lower sc) sc empty_url)); [intros r; apply (run_scheme sc _ r Ei Sc); discriminate|].
  set (rest := b ++ qtext oq ++ ftext of) in *.
  pose proof (colon_url sc _ Ei) as H. cbv zeta in H. fold u in H. rewrite (not_special_not_file _ Sp), Sp in H. cbn [andb] in H.
  destruct rest as [|c rest'] eqn:Er; [congruence|]. change (0x2F =? 0x2F) with true in H. cbv iota in H. rewrite <- Er in *.
  assert (Sz : size input = zlen sc + 2 + zlen rest) by (change (size input) with (zlen input); rewrite Ei, zlen_app, !zlen_cons; lia).
  assert (Zr : 0 < zlen rest) by (rewrite Er, zlen_cons; pose proof (zlen_pos rest'); lia).
  set (p2 := here PathOrAuthority [] (sc ++ [0x3A; 0x2F]) u).
  assert (St2 : stands input p2 (sc ++ [0x3A; 0x2F]) (c :: rest')) by (apply here_stands; rewrite Ei, Er, <- app_assoc; reflexivity).
  destruct (cur input fuel Fu _ _ _ _ St2) as (C2 & _ & L2).
  assert (Nc : c <> 0x2F).
  { unfold rest in Er. destruct b as [|x b]; cbn [app] in Er; [|injection Er as Ex _; rewrite <- Ex; exact Nb].
    destruct oq; cbn [qtext app] in Er; [inversion Er; lia|]. destruct of; cbn [ftext app] in Er; inversion Er; lia. }
  assert (H2 : H_ p2 = go Path (move (-1) p2)).
  { change (H_ p2) with (on_path_or_authority p2 (current input p2)). unfold on_path_or_authority. rewrite C2. replace (c =? 0x2F) with false by lia. reflexivity. }
  set (p3 := here Path [] (sc ++ [0x3A; 0x2F]) u).
  apply (gives_from _ p3).
  - intros r K. apply (step idna input base fuel Fu _ _ _ H); [unfold here, move; pj; lia|].
    match goal with |- R ?x r => replace x with p2 by (hp p2) end.
    apply (step idna input base fuel Fu _ _ _ H2); [unfold p2, here, move in *; pj; lia|]. match goal with |- R ?x r => replace x with p3; [exact K|] end.
    unfold p2. hp p3.
  - assert (St3 : stands input p3 (sc ++ [0x3A; 0x2F]) (b ++ qtext oq ++ ftext of)) by (apply here_stands; rewrite Ei, <- app_assoc; reflexivity).
    pose proof (run_from_path idna input base fuel Fu b p3 _ oq of St3 eq_refl eq_refl Ok) as G. change (p_url p3) with u in G. change (p_buffer p3) with (@nil Z) in G.
    unfold whole_path in G. rewrite prepend_nil in G by apply segments_nonempty. cbn [gives]. unfold finish. unfold set_path_value.
    replace (path_sep u 0x2F) with true by reflexivity. exact G.
Qed.

(** ** With an opaque path *)

Lemma run_opaque b : forall p a x h, stands input p a (b ++ h) -> Forall visible b -> ~ In 0x3F b -> ~ In 0x23 b -> p_state p = CannotBeABaseUrlPath -> path (p_url p) = [x] ->
  exists p', stands input p' (a ++ b) h /\ p_state p' = CannotBeABaseUrlPath /\ p_enc p' = p_enc p /\ p_buffer p' = p_buffer p /\   p_url p' = set_path [x ++ pe is_c0_control_percent_encode_set b] (p_url p) /\ (forall r, R p' r -> R p r).
Proof.
  induction b as [|c b IH]; intros p a x h St V N1 N2 E Pa.
  - exists p. rewrite !app_nil_r. repeat split; auto; try apply St. destruct p as [x1 x2 x3 x4 x5 x6 x7 u]. destruct u. cbn in Pa |- *. now rewrite Pa.
  - cbn [app] in St. destruct (cur input fuel Fu _ _ _ _ St) as (C & L0 & L). inversion V as [|x0 y0 [Vs Vn] Vb]; subst x0 y0.
    assert (H : H_ p = Val (Go (on_url (set_path [x ++ pe is_c0_control_percent_encode_set [c]]) p))).
    { unfold handle. rewrite E. unfold on_cannot_be_a_base_url_path. rewrite C.
      replace (c =? 0x3F) with false by (symmetry; apply Z.eqb_neq; intros ->; apply N1; now left).
      replace (c =? 0x23) with false by (symmetry; apply Z.eqb_neq; intros ->; apply N2; now left).
      rewrite (check_ok input fuel Fu) by exact L0. cbn [obind]. replace (c =? EOF) with false by (unfold EOF; lia). cbn [negb].
      rewrite Pa, (enc_one input fuel Fu) by exact Vs. reflexivity. }
    destruct (IH (move 1 (on_url (set_path [x ++ pe is_c0_control_percent_encode_set [c]]) p)) (a ++ [c]) (x ++ pe is_c0_control_percent_encode_set [c]) h)
      as (p' & St' & E' & En' & B' & U' & K).
    + apply (nextp input p _ _ _ _ St). reflexivity.
    + exact Vb.
    + intros X. apply N1. now right.
    + intros X. apply N2. now right.
    + exact E.
    + reflexivity.
    + exists p'. rewrite <- app_assoc in St'. split; [exact St'|]. split; [exact E'|]. split; [exact En'|]. split; [exact B'|]. split.
      * rewrite U', (pe_cons _ c b), app_assoc. reflexivity.
      * intros r Rr. apply (step idna input base fuel Fu _ _ _ H); [exact L|]. apply K, Rr.
Qed.

Definition opaque_url (sc b : list Z) (oq of : option (list Z)) : url :=
  with_fragment of (with_query oq (set_path [pe is_c0_control_percent_encode_set b] (set_cannot true (scheme_url sc)))).

Lemma parse_opaque sc b oq of :
  let u := scheme_url sc in
  input = sc ++ 0x3A :: b ++ qtext oq ++ ftext of ->
  scheme_text sc -> is_special u = false -> hd 0 b <> 0x2F \/ b ++ qtext oq ++ ftext of = [0x2F] -> tail_ok b oq of ->
  gives (start None UTF_8 empty_url) (Some (opaque_url sc b oq of)).
Proof.
  intros u Ei Sc Sp Nb (V & N1 & N2 & N3).
  apply (gives_from _ (here Scheme (map cp_lower sc) sc empty_url)); [intros r; apply (run_scheme sc _ r Ei Sc); discriminate|].
  set (rest := b ++ qtext oq ++ ftext of) in *.
  pose proof (colon_url sc _ Ei) as H. cbv zeta in H. fold u in H. rewrite (not_special_not_file _ Sp), Sp in H. cbn [andb] in H.
  replace (match rest with c :: _ :: _ => c =? 0x2F | _ => false end) with false in H.
  2:{ destruct Nb as [Nb|Nb]; [|rewrite Nb; reflexivity]. symmetry. unfold rest. destruct b as [|x b]; cbn [app hd] in *.
      - destruct oq as [q|]; cbn [qtext app]; [destruct (q ++ ftext of); reflexivity|]. destruct of as [[|f0 f]|]; reflexivity.
      - destruct (b ++ qtext oq ++ ftext of); [reflexivity|]. lia. }
  assert (Sz : size input = zlen sc + 1 + zlen rest) by (change (size input) with (zlen input); rewrite Ei, zlen_app, !zlen_cons; lia). pose proof (zlen_pos rest) as Zr.
  set (v := set_path [[]] (set_cannot true u)). set (p2 := here CannotBeABaseUrlPath [] (sc ++ [0x3A]) v).
  assert (St2 : stands input p2 (sc ++ [0x3A]) (b ++ qtext oq ++ ftext of)) by (apply here_stands; rewrite Ei, <- app_assoc; reflexivity).
  apply Forall_app in V as [Vb V]. pose proof V as V0. apply Forall_app in V as [Vq Vf].
  destruct (run_opaque b p2 (sc ++ [0x3A]) [] _ St2 Vb N1 N2 eq_refl eq_refl) as (p3 & St3 & E3 & En3 & B3 & U3 & K3).
  change (p_enc p2) with UTF_8 in En3. change (p_buffer p2) with (@nil Z) in B3. change (p_url p2) with v in U3. cbn [app] in U3.
  set (w := set_path [pe is_c0_control_percent_encode_set b] v) in *.
  apply (gives_from _ p3).
  - intros r K. apply (step idna input base fuel Fu _ _ _ H); [unfold here, move, on_url; pj; lia|].
    match goal with |- R ?x r => replace x with p2 by (unfold on_url; pj; hp p2) end. apply K3, K.
  - assert (H3 : H_ p3 = on_cannot_be_a_base_url_path input fuel p3 (current input p3)) by (unfold handle; rewrite E3; reflexivity).
    change (opaque_url sc b oq of) with (with_fragment of (with_query oq w)). cbn [gives].
    destruct oq as [q|]; [|destruct of as [f|]]; cbn [qtext ftext app] in St3, V0; cbn [with_query with_fragment].
    + destruct (cur input fuel Fu _ _ _ _ St3) as (C & L0 & L). unfold on_cannot_be_a_base_url_path in H3. rewrite C in H3. change (0x3F =? 0x3F) with true in H3. cbv iota in H3.
      apply (step idna input base fuel Fu _ _ _ H3); [pj; lia|].
      match goal with |- R ?x _ => pose proof (run_from_query idna input base fuel Fu x ((((sc ++ [0x3A]) ++ b)) ++ [0x3F]) q of) as K end.
      pj. rewrite U3 in K. apply K; auto.
      * apply (nextp input p3 _ _ _ _ St3). reflexivity.
      * now inversion V0.
    + destruct (cur input fuel Fu _ _ _ _ St3) as (C & L0 & L). unfold on_cannot_be_a_base_url_path in H3. rewrite C in H3. change (0x23 =? 0x3F) with false in H3. change (0x23 =? 0x23) with true in H3. cbv iota in H3.
      apply (step idna input base fuel Fu _ _ _ H3); [pj; lia|].
      match goal with |- R ?x _ => pose proof (run_fragment idna input base None fuel Fu f x (((sc ++ [0x3A]) ++ b) ++ [0x23]) []) as K end.
      pj. rewrite U3 in K. apply K; auto.
      * apply (nextp input p3 _ _ _ _ St3). reflexivity.
      * now inversion V0.
    + destruct (eof input fuel Fu _ _ St3) as [C P]. unfold on_cannot_be_a_base_url_path in H3. rewrite C in H3. change (EOF =? 0x3F) with false in H3. change (EOF =? 0x23) with false in H3.
      cbv iota in H3. rewrite (check_ok input fuel Fu) in H3 by (rewrite P; unfold size; lia). cbn [obind] in H3. change (EOF =? EOF) with true in H3. cbn [negb] in H3. cbv iota in H3.
      rewrite <- U3. apply (last_step idna input base fuel Fu _ _ H3). lia.
Qed.

(** ** Files *)

Definition file_url : url := set_host (Some HEmpty) (set_scheme (lit "file") empty_url).
Definition inner_file (c : Z) : Prop := visible c /\ is_slash c = false /\ c <> 0x3F /\ c <> 0x23.

Lemma run_file_host s : forall p a h, stands input p a (s ++ h) -> Forall inner_file s -> p_state p = FileHost ->
  exists p', stands input p' (a ++ s) h /\ p_state p' = FileHost /\ p_enc p' = p_enc p /\ p_buffer p' = p_buffer p ++ s /\ p_url p' = p_url p /\ (forall r, R p' r -> R p r).
Proof.
  induction s as [|c s IH]; intros p a h St V E.
  - exists p. rewrite !app_nil_r. repeat split; auto; apply St.
  - cbn [app] in St. destruct (cur input fuel Fu _ _ _ _ St) as (C & L0 & L). inversion V as [|x0 y0 [[Vs Vn] (Vc & Vq & Vh)] Vb]; subst x0 y0.
    assert (H : H_ p = Val (Go (push [c] p))).
    { unfold handle. rewrite E. unfold on_file_host. rewrite C. unfold is_slash in Vc. replace (c =? EOF) with false by (unfold EOF; lia).
      replace (c =? 0x3F) with false by lia. replace (c =? 0x23) with false by lia. cbn [orb]. rewrite Vc. reflexivity. }
    destruct (IH (move 1 (push [c] p)) (a ++ [c]) h) as (p' & St' & E' & En' & B' & U' & K); auto.
    + apply (nextp input p _ _ _ _ St). reflexivity.
    + exists p'. rewrite <- app_assoc in St'. split; [exact St'|]. split; [exact E'|]. split; [exact En'|]. split; [rewrite B'; pj; rewrite <- app_assoc; reflexivity|]. split; [exact U'|].
      intros r Rr. apply (step idna input base fuel Fu _ _ _ H); [exact L|]. apply K, Rr.
Qed.

Lemma file_scheme sc : is_file (scheme_url sc) = true -> map cp_lower sc = lit "file".
Proof. unfold is_file, eqs. cbn [scheme scheme_url set_scheme]. destruct (list_eq_dec Z.eq_dec _ _); [auto|discriminate]. Qed.

Lemma run_file_start sc t r : input = sc ++ 0x3A :: t -> scheme_text sc -> is_file (scheme_url sc) = true ->
  R (here File [] (sc ++ [0x3A]) (scheme_url sc)) r -> R (start None UTF_8 empty_url) r.
Proof.
  intros Ei Sc Fi K. apply (run_scheme sc _ r Ei Sc); [discriminate|].
  pose proof (colon_url sc _ Ei) as H. cbv zeta in H. rewrite Fi in H.
  assert (St : stands input (here Scheme [] sc (scheme_url sc)) sc (0x3A :: t)) by (apply here_stands; exact Ei). destruct (cur input fuel Fu _ _ _ _ St) as (_ & _ & L).
  apply (step idna input base fuel Fu _ _ _ H); [exact L|]. rewrite <- (here_next File [] sc 0x3A) in K. exact K.
Qed.

Lemma file_closes a s h p : closes file_url h -> stands input p (a ++ s) h ->
  let c := current input p in (c =? EOF) || (c =? 0x2F) || (c =? 0x5C) || (c =? 0x3F) || (c =? 0x23) = true.
Proof.
  intros Ch St c. destruct Ch as [->|(x & y & -> & E)]; [apply (eof input fuel Fu) in St as [C _]; unfold c; rewrite C; reflexivity|].
  apply (cur input fuel Fu) in St as [C _]. unfold c. rewrite C. unfold ends_authority in E. change (is_special file_url) with true in E. cbn [andb] in E.
  destruct (x =? EOF), (x =? 0x2F), (x =? 0x5C), (x =? 0x3F), (x =? 0x23); try reflexivity; discriminate E.
Qed.

Lemma segments_prepend u s b : Forall (fun c => path_sep u c = false) s -> pe is_path_percent_encode_set s = s -> segments u (s ++ b) = prepend s (segments u b).
Proof.
  intros F P. unfold segments.
  assert (G : split_at (path_sep u) (s ++ b) = prepend s (split_at (path_sep u) b)).
  { clear P. induction F as [|c s Fc F IH]; [cbn [app]; rewrite prepend_nil by apply split_nonempty; reflexivity|]. cbn [app split_at]. rewrite Fc, IH.
    destruct (split_at (path_sep u) b); reflexivity. }
  rewrite G. destruct (split_at (path_sep u) b) as [|x l]; cbn [prepend map]; [now rewrite P|]. now rewrite pe_app, P.
Qed.

(** The host of a file URL, and the path with the drive letter. *)
Definition file_authority (hh : host) (s b : list Z) (oq of : option (list Z)) : option url :=
  if is_windows_drive_letter s then Some (finish file_url (0x2F :: s ++ b) oq of)
  else match s with
  | [] => Some (finish file_url b oq of)
  | _ => match hh with
         | HNone => None
         | HDomain d | HOpaque d => Some (finish (set_host (Some (if eqs d (lit "localhost") then HEmpty else hh)) file_url) b oq of)
         | _ => Some (finish (set_host (Some hh) file_url) b oq of)
         end
  end.

Lemma run_file_all a u x y s b oq of hh :
  input = a ++ x :: y :: s ++ b ++ qtext oq ++ ftext of ->
  set_host (Some HEmpty) (set_scheme (lit "file") u) = file_url -> is_slash x = true -> is_slash y = true ->
  Forall inner_file s -> starts_path file_url b -> tail_ok b oq of ->
  (s <> [] -> is_windows_drive_letter s = false -> parse_host idna fuel s false = Val hh /\ match hh with HNone | HDomain _ | HOpaque _ => True | _ => False end) ->
  gives (here File [] a u) (file_authority hh s b oq of).
Proof.
  intros Ei Hu Sx Sy Is Sb Ok Ph. set (h := b ++ qtext oq ++ ftext of) in *. pose proof (closes_of file_url b oq of Sb) as Ch. fold h in Ch.
  set (p0 := here File [] a u).
  assert (St0 : stands input p0 a (x :: y :: s ++ h)) by (apply here_stands; rewrite Ei; reflexivity).
  destruct (cur input fuel Fu _ _ _ _ St0) as (C0 & _ & L0).
  assert (H0 : H_ p0 = go FileSlash (s_url file_url p0)).
  { change (H_ p0) with (on_file input base p0 (current input p0)). unfold on_file. rewrite C0. unfold is_slash in Sx. rewrite Sx. unfold on_url. pj. change (p_url p0) with u. rewrite Hu. reflexivity. }
  set (p1 := here FileSlash [] (a ++ [x]) file_url).
  assert (St1 : stands input p1 (a ++ [x]) (y :: s ++ h)) by (apply here_stands; rewrite Ei, <- app_assoc; reflexivity).
  destruct (cur input fuel Fu _ _ _ _ St1) as (C1 & _ & L1).
  assert (H1 : H_ p1 = go FileHost p1).
  { change (H_ p1) with (on_file_slash input base p1 (current input p1)). unfold on_file_slash. rewrite C1. unfold is_slash in Sy. rewrite Sy. reflexivity. }
  set (p2 := here FileHost [] (a ++ [x; y]) file_url).
  assert (St2 : stands input p2 (a ++ [x; y]) (s ++ h)) by (apply here_stands; rewrite Ei, <- app_assoc; reflexivity).
  destruct (run_file_host s p2 _ _ St2 Is eq_refl) as (p3 & St3 & E3 & En3 & B3 & U3 & K3).
  change (p_enc p2) with UTF_8 in En3. change (p_buffer p2 ++ s) with s in B3. change (p_url p2) with file_url in U3.
  apply (gives_from _ p3).
  { intros r K. apply (step idna input base fuel Fu _ _ _ H0); [exact L0|].
    match goal with |- R ?z r => replace z with p1 by (unfold p0, s_url; hp p1) end.
    apply (step idna input base fuel Fu _ _ _ H1); [exact L1|].
    match goal with |- R ?z r => replace z with p2 by (unfold p1; hp p2) end. apply K3, K. }
  pose proof (file_closes _ _ _ _ Ch St3) as Ce. cbv zeta in Ce. pose proof (in_bounds input fuel Fu p3 _ _ St3) as Bd.
  assert (H3 : H_ p3 = on_file_host idna None fuel p3 (current input p3)) by (unfold handle; rewrite E3; reflexivity).
  unfold on_file_host in H3. rewrite Ce in H3. cbn [overridden negb andb] in H3. change (p_buffer (move (-1) p3)) with (p_buffer p3) in H3. change (p_url (move (-1) p3)) with (p_url p3) in H3. rewrite B3, U3 in H3.
  assert (Tail : forall q v, p_pointer q = p_pointer p3 -> p_state q = PathStart -> p_buffer q = [] -> p_enc q = UTF_8 -> p_url q = v -> path v = [] -> R q (true, finish v b oq of)).
  { intros q v Q1 Q2 Q3 Q4 Q5 Q6. rewrite <- Q5. apply (run_tail idna input base fuel Fu q ((a ++ [x; y]) ++ s) b oq of); auto; [|now rewrite Q5]. apply (samep input p3); auto. }
  unfold file_authority. destruct (is_windows_drive_letter s) eqn:Dl.
  - cbn [gives]. apply (step idna input base fuel Fu _ _ _ H3); [pj; lia|].
    match goal with |- R ?z _ => pose proof (run_from_path idna input base fuel Fu b z ((a ++ [x; y]) ++ s) oq of) as G end. pj. rewrite U3, B3 in G.
    unfold finish, set_path_value. replace (path_sep file_url 0x2F) with true by reflexivity. rewrite segments_prepend.
    + apply G; auto. apply (samep input p3); [exact St3|]. pj. lia.
    + apply Forall_forall. intros c Hc. rewrite Forall_forall in Is. destruct (Is c Hc) as (_ & X & _). unfold is_slash in X. unfold path_sep. change (is_special file_url) with true. cbn [andb]. exact X.
    + unfold is_windows_drive_letter in Dl. destruct s as [|c1 [|c2 [|c3 s]]]; try discriminate Dl. apply andb_prop in Dl as [D1 D2].
      rewrite (pe_cons _ c1), (pe_cons _ c2). change (pe is_path_percent_encode_set []) with (@nil Z).
      assert (E2 : c2 = 0x3A \/ c2 = 0x7C) by (destruct (c2 =? 0x3A) eqn:X; [left|right]; lia).
      replace (pe is_path_percent_encode_set [c2]) with [c2] by (destruct E2 as [-> | ->]; reflexivity).
      replace (pe is_path_percent_encode_set [c1]) with [c1]; [reflexivity|]. symmetry.
      assert (X : 0x41 <= c1 <= 0x5A \/ 0x61 <= c1 <= 0x7A) by (unfold is_ascii_alpha, is_ascii_upper_alpha, is_ascii_lower_alpha in D1; lia).
      clear - X. assert (Y : exists k, (k < 26)%nat /\ (c1 = 0x41 + Z.of_nat k \/ c1 = 0x61 + Z.of_nat k)).
      { destruct X; [exists (Z.to_nat (c1 - 0x41))|exists (Z.to_nat (c1 - 0x61))]; lia. }
      destruct Y as (k & Lk & Y). do 26 (destruct k as [|k]; [destruct Y as [-> | ->]; reflexivity|]). lia.
  - destruct s as [|s0 s].
    + cbn [nonempty negb] in H3. cbn [gives]. apply (step idna input base fuel Fu _ _ _ H3); [pj; lia|]. apply Tail; auto.
      * pj. lia.
      * pj. now rewrite U3.
    + destruct (Ph ltac:(discriminate) eq_refl) as [Ph1 Ph2]. cbn [nonempty negb] in H3. change (is_special file_url) with true in H3. cbn [negb] in H3. rewrite Ph1 in H3. cbn [obind] in H3.
      destruct hh as [|d|n|a6|d|]; try destruct Ph2; cbn [host_equals of_option obind] in H3.
      * cbn [gives]. eexists. apply (failed idna input base fuel). exact H3.
      * cbn [gives]. apply (step idna input base fuel Fu _ _ _ H3); [pj; lia|]. apply Tail; auto; [pj; lia|]. pj. now rewrite U3.
      * cbn [gives]. apply (step idna input base fuel Fu _ _ _ H3); [pj; lia|]. apply Tail; auto; [pj; lia|]. pj. now rewrite U3.
Qed.
Lemma parse_file sc x y s b oq of hh :
  input = sc ++ 0x3A :: x :: y :: s ++ b ++ qtext oq ++ ftext of ->
  scheme_text sc -> is_file (scheme_url sc) = true -> is_slash x = true -> is_slash y = true ->
  Forall inner_file s -> starts_path file_url b -> tail_ok b oq of ->
  (s <> [] -> is_windows_drive_letter s = false -> parse_host idna fuel s false = Val hh /\ match hh with HNone | HDomain _ | HOpaque _ => True | _ => False end) ->
  gives (start None UTF_8 empty_url) (file_authority hh s b oq of).
Proof.
  intros Ei Sc Fi Sx Sy Is Sb Ok Ph.
  apply (gives_from _ (here File [] (sc ++ [0x3A]) (scheme_url sc))); [intros r; apply (run_file_start sc _ r Ei Sc Fi)|].
  apply (run_file_all (sc ++ [0x3A]) (scheme_url sc) x y s b oq of hh); auto.
  - rewrite Ei, <- app_assoc. reflexivity.
Qed.
End Abs.

(** * The whole parser *)

Lemma parse_gives idna fuel steps s base o : Forall scalar s -> enough s fuel steps ->
  gives idna (without_newlines (trim s)) base fuel (start None UTF_8 empty_url) o -> basic_parse idna fuel steps s base UTF_8 = Val o.
Proof.
  intros S [F St] G. unfold basic_parse. pose proof (cleaned_length s) as L.
  assert (exists b v, runs idna (without_newlines (trim s)) base None fuel (start None UTF_8 empty_url) (b, v) /\ (if b then Some v else None) = o) as (b & v & R & E).
  { destruct o as [u|]; cbn [gives] in G; [exists true, u; auto|]. destruct G as [w W]. exists false, w. auto. }
  destruct (run_ends idna (without_newlines (trim s)) base None fuel empty_url (start None UTF_8 empty_url) steps) as [[r T]|[_ T]].
  - apply cleaned_scalar, S.
  - lia.
  - unfold steps_bound. lia.
  - apply start_parse.
  - rewrite T. rewrite (runs_det _ _ _ _ _ _ _ _ _ R T). cbn [obind]. now rewrite E.
  - exfalso. destruct R as [k R]. assert (K : forall k p j r, run_loop idna (without_newlines (trim s)) base None fuel k p = Bad ->
      run_loop idna (without_newlines (trim s)) base None fuel j p = Val r -> False).
    { clear. induction k as [|k IH]; intros p j r H H'; [discriminate H|]. destruct j as [|j]; [discriminate H'|]. cbn [run_loop] in *.
      destruct (handle _ _ _ _ _ _) as [v| |]; try discriminate. cbn [obind] in *. destruct v; try discriminate.
      destruct (_ <? _); [|discriminate]. apply (IH _ _ _ H H'). }
    exact (K _ _ _ _ T R).
Qed.
