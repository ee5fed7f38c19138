(** Lemmas for M_url: references without a scheme, read with a base. *)
From Coq Require Import String.
From Coq Require Import ZArith List Bool Lia.
From Verif Require Import M_unicode M_infra M_percent M_ip M_encoding M_labels M_url.
From Verif Require Import L_unicode L_url L_url2 L_url3 L_url4 L_url5 L_url6 L_url7 L_url8.
Import ListNotations.
Open Scope string_scope.
Open Scope list_scope.
Open Scope Z_scope.

(** No letter, or scheme characters that no colon follows. *)
Definition no_scheme (t : list Z) : Prop := forall sc r, t = sc ++ 0x3A :: r -> ~ scheme_text sc.

(** The record of which only the scheme is set. *)
Definition bare (b : url) : url := set_scheme (scheme b) empty_url.
(** Everything of the base but its fragment. *)
Definition copied (b : url) : url := Url (scheme b) (username b) (password b) (uhost b) (port b) (path b) (query b) None false.
(** User name, password, host and port of the base, and the path [p]. *)
Definition under (b : url) (p : list (list Z)) : url := Url (scheme b) (username b) (password b) (uhost b) (port b) p None None false.
(** The same for a base of the scheme file. *)
Definition file_copied (b : url) : url := Url (lit "file") [] [] (uhost b) None (path b) (query b) None false.
Definition file_under (h : option host) (p : list (list Z)) : url := Url (lit "file") [] [] h None p None None false.
(** Where the path of a reference begins when it starts with a slash: at the drive letter of the base. *)
Definition drive_root (b : url) (t : list Z) : list (list Z) :=
  match path b with d :: _ => if negb (starts_with_windows_drive_letter t) && is_normalized_windows_drive_letter d then [d] else [] | [] => [] end.
Definition drive_dir (b : url) (t : list Z) : list (list Z) := if starts_with_windows_drive_letter t then [] else shorten true (path b).

Section Rel.
Variable idna : list Z -> option (list Z).
Variable input : list Z.
Variable base : option url.
Variable fuel : nat.
Hypothesis Fu : (List.length input + 1 < fuel)%nat.

Local Notation R := (runs idna input base None fuel).
Local Notation H_ := (handle idna input base None fuel).
Local Notation G_ := (gives idna input base fuel).

(** Forward over a character, and staying before it. *)
Lemma hstep s buf a c b u s' buf' u' r : input = a ++ c :: b -> H_ (here s buf a u) = Val (Go (here s' buf' a u')) ->
  R (here s' buf' (a ++ [c]) u') r -> R (here s buf a u) r.
Proof.
  intros Ei H K. apply (step idna input base fuel Fu _ _ _ H).
  - destruct (cur input fuel Fu (here s' buf' a u') a c b (here_stands input s' buf' a u' _ Ei)) as (_ & _ & L). exact L.
  - rewrite (here_next _ _ _ c). exact K.
Qed.
Lemma hback s buf a b u s' buf' u' r : input = a ++ b -> H_ (here s buf a u) = Val (Go (move (-1) (here s' buf' a u'))) ->
  R (here s' buf' a u') r -> R (here s buf a u) r.
Proof.
  intros Ei H K. apply (step idna input base fuel Fu _ _ _ H).
  - pose proof (in_bounds input fuel Fu (here s' buf' a u') a b (here_stands input s' buf' a u' _ Ei)) as B. change (p_pointer (here s' buf' a u')) with (zlen a) in B. change (zlen a + -1 < size input). lia.
  - replace (move 1 (move (-1) (here s' buf' a u'))) with (here s' buf' a u'); [exact K|]. unfold move, here, s_pointer. pj. f_equal. lia.
Qed.
Lemma hcur s buf a c b u : input = a ++ c :: b -> current input (here s buf a u) = c.
Proof. intros Ei. apply (cur input fuel Fu (here s buf a u) a c b (here_stands input s buf a u _ Ei)). Qed.
Lemma heof s buf a u : input = a -> current input (here s buf a u) = EOF.
Proof. intros Ei. apply (eof input fuel Fu (here s buf a u) a). apply here_stands. now rewrite app_nil_r. Qed.
Lemma hd_cur s buf a u t : input = a ++ t -> current input (here s buf a u) = hd EOF t.
Proof. intros Ei. destruct t as [|c t]; [apply heof; now rewrite app_nil_r in Ei|exact (hcur _ _ _ _ _ _ Ei)]. Qed.

(** ** No scheme *)

Lemma span_scheme t : exists r0 t', t = r0 ++ t' /\ Forall (fun x => scheme_char x = true) r0 /\ scheme_char (hd EOF t') = false.
Proof.
  induction t as [|c t (r0 & t' & E & F & N)]; [exists [], []; repeat split; constructor|]. destruct (scheme_char c) eqn:C.
  - exists (c :: r0), t'. rewrite E. repeat split; auto.
  - exists [], (c :: t). repeat split; auto.
Qed.
Lemma run_no_scheme r : no_scheme input -> R (here NoScheme [] [] empty_url) r -> R (start None UTF_8 empty_url) r.
Proof.
  intros N K. change (start None UTF_8 empty_url) with (here SchemeStart [] [] empty_url).
  assert (P : is_ascii_alpha (hd EOF input) = false -> R (here SchemeStart [] [] empty_url) r).
  { intros A. apply (hback SchemeStart [] [] input empty_url NoScheme [] empty_url r eq_refl); [|exact K].
    unfold handle. change (p_state (here SchemeStart [] [] empty_url)) with SchemeStart. cbv iota. rewrite (hd_cur _ _ [] _ input eq_refl). unfold on_scheme_start. rewrite A. reflexivity. }
  destruct input as [|c t] eqn:Ei; [apply P; reflexivity|]. rewrite <- Ei in *. destruct (is_ascii_alpha c) eqn:A; [|apply P; rewrite Ei; exact A].
  destruct (span_scheme t) as (r0 & t' & Et & F & Nt).
  assert (Ei2 : input = [c] ++ r0 ++ t') by (rewrite Ei, Et; reflexivity).
  assert (Nc : hd EOF t' <> 0x3A).
  { destruct t' as [|x t']; [discriminate|]. cbn [hd]. intros ->. apply (N (c :: r0) t'); [exact Ei2|]. split; assumption. }
  apply (hstep SchemeStart [] [] c t empty_url Scheme [cp_lower c] empty_url r Ei).
  { unfold handle. change (p_state (here SchemeStart [] [] empty_url)) with SchemeStart. cbv iota. rewrite (hcur _ _ [] _ _ _ Ei). unfold on_scheme_start. rewrite A. reflexivity. }
  apply (run_scheme_rest idna input base fuel Fu r0 [c] t' Ei2 F).
  set (p := here Scheme (map cp_lower ([c] ++ r0)) ([c] ++ r0) empty_url).
  assert (H : H_ p = go NoScheme (s_pointer (-1) (s_buffer [] p))).
  { change (H_ p) with (on_scheme input base None p (current input p)). unfold p. rewrite (hd_cur _ _ _ _ t') by (rewrite Ei2; now rewrite <- app_assoc). unfold on_scheme.
    unfold scheme_char in Nt. rewrite Nt. replace (hd EOF t' =? 0x3A) with false by lia. reflexivity. }
  apply (step idna input base fuel Fu _ _ _ H); [pj; unfold size; lia|exact K].
Qed.

(** ** Without a base, and with a base whose path is opaque *)

Lemma no_base : no_scheme input -> base = None -> G_ (start None UTF_8 empty_url) None.
Proof.
  intros N B. exists empty_url. apply (run_no_scheme _ N). apply (failed idna input base fuel).
  change (H_ (here NoScheme [] [] empty_url)) with (on_no_scheme base (here NoScheme [] [] empty_url) (current input (here NoScheme [] [] empty_url))). unfold on_no_scheme. rewrite B. reflexivity.
Qed.
Lemma opaque_base b : no_scheme input -> base = Some b -> cannot_be_base b = true -> hd EOF input <> 0x23 -> G_ (start None UTF_8 empty_url) None.
Proof.
  intros N B C H. exists empty_url. apply (run_no_scheme _ N). apply (failed idna input base fuel).
  change (H_ (here NoScheme [] [] empty_url)) with (on_no_scheme base (here NoScheme [] [] empty_url) (current input (here NoScheme [] [] empty_url))). unfold on_no_scheme.
  rewrite B, C, (hd_cur _ _ [] _ input eq_refl). replace (hd EOF input =? 0x23) with false by lia. reflexivity.
Qed.
Lemma opaque_base_fragment b f : input = 0x23 :: f -> base = Some b -> cannot_be_base b = true -> Forall visible f ->
  G_ (start None UTF_8 empty_url) (Some (Url (scheme b) [] [] None None (path b) (query b) (Some (pe is_fragment_percent_encode_set f)) true)).
Proof.
  intros Ei B C V. cbn [gives]. apply run_no_scheme.
  { intros sc r E S. rewrite Ei in E. destruct sc as [|x sc]; [discriminate E|]. injection E as <- _. destruct S as [S _]. discriminate S. }
  set (v := Url (scheme b) [] [] None None (path b) (query b) (Some []) true).
  apply (hstep NoScheme [] [] 0x23 f empty_url Fragment [] v _ Ei).
  { change (H_ (here NoScheme [] [] empty_url)) with (on_no_scheme base (here NoScheme [] [] empty_url) (current input (here NoScheme [] [] empty_url))). unfold on_no_scheme.
    rewrite B, C, (hcur _ _ [] _ _ _ Ei). reflexivity. }
  pose proof (run_fragment idna input base None fuel Fu f (here Fragment [] [0x23] v) [0x23] []) as K.
  apply K; auto. now apply here_stands.
Qed.

(** ** Bases of other schemes than file *)

Lemma run_to_relative b r : no_scheme input -> base = Some b -> cannot_be_base b = false -> is_file b = false ->
  R (here Relative [] [] empty_url) r -> R (start None UTF_8 empty_url) r.
Proof.
  intros N B C F K. apply (run_no_scheme _ N). apply (hback NoScheme [] [] input empty_url Relative [] empty_url r eq_refl); [|exact K].
  change (H_ (here NoScheme [] [] empty_url)) with (on_no_scheme base (here NoScheme [] [] empty_url) (current input (here NoScheme [] [] empty_url))). unfold on_no_scheme.
  rewrite B, C. unfold is_file in F. rewrite F. reflexivity.
Qed.
Lemma run_to_file b r : no_scheme input -> base = Some b -> cannot_be_base b = false -> is_file b = true ->
  R (here File [] [] empty_url) r -> R (start None UTF_8 empty_url) r.
Proof.
  intros N B C F K. apply (run_no_scheme _ N). apply (hback NoScheme [] [] input empty_url File [] empty_url r eq_refl); [|exact K].
  change (H_ (here NoScheme [] [] empty_url)) with (on_no_scheme base (here NoScheme [] [] empty_url) (current input (here NoScheme [] [] empty_url))). unfold on_no_scheme.
  rewrite B, C. unfold is_file in F. rewrite F. reflexivity.
Qed.
(** A special scheme that is also the base's, and no two slashes. *)
Lemma run_same_scheme b sc t r : input = sc ++ 0x3A :: t -> scheme_text sc -> base = Some b -> scheme b = map cp_lower sc -> is_special b = true -> is_file b = false ->
  (forall t', t <> 0x2F :: 0x2F :: t') ->
  R (here Relative [] (sc ++ [0x3A]) (bare b)) r -> R (start None UTF_8 empty_url) r.
Proof.
  intros Ei Sc B Sb Sp F Nt K. apply (run_scheme idna input base fuel Fu sc _ r Ei Sc); [discriminate|].
  assert (Eb : bare b = scheme_url sc) by (unfold bare, scheme_url; now rewrite Sb). rewrite Eb in K.
  assert (Fs : is_file (scheme_url sc) = false) by (unfold is_file in *; rewrite Sb in F; exact F).
  assert (Ss : is_special (scheme_url sc) = true) by (unfold is_special in *; rewrite Sb in Sp; exact Sp).
  pose proof (colon_url idna input base fuel Fu sc t Ei) as H. cbv zeta in H. rewrite Fs, Ss in H.
  assert (Sm : same_scheme base (scheme (scheme_url sc)) = true).
  { unfold same_scheme, eqs. rewrite B, Sb. destruct (list_eq_dec _ _ _) as [|n]; [reflexivity|destruct n; reflexivity]. }
  rewrite Sm in H. cbn [andb] in H.
  apply (hstep Scheme _ sc 0x3A t empty_url SpecialRelativeOrAuthority [] (scheme_url sc) r Ei H).
  assert (Ei2 : input = (sc ++ [0x3A]) ++ t) by (rewrite Ei, <- app_assoc; reflexivity).
  apply (hback SpecialRelativeOrAuthority [] (sc ++ [0x3A]) t (scheme_url sc) Relative [] (scheme_url sc) r Ei2); [|exact K].
  set (p := here SpecialRelativeOrAuthority [] (sc ++ [0x3A]) (scheme_url sc)).
  change (H_ p) with (on_special_relative_or_authority input p (current input p)). unfold on_special_relative_or_authority.
  pose proof (here_stands input SpecialRelativeOrAuthority [] (sc ++ [0x3A]) (scheme_url sc) _ Ei2) as St. fold p in St.
  rewrite (left_stands input fuel Fu p _ _ St). unfold p at 1. rewrite (hd_cur _ _ _ _ _ Ei2).
  destruct t as [|c [|d t]]; cbn [hd].
  - reflexivity.
  - rewrite zlen_cons, zlen_nil, andb_false_r. reflexivity.
  - rewrite !zlen_cons. replace (2 <=? 1 + (1 + zlen t)) with true by (pose proof (zlen_pos t); lia). rewrite andb_true_r. destruct (c =? 0x2F) eqn:E1; [|reflexivity].
    rewrite (at_next input fuel Fu p _ _ _ _ St). cbn [obind]. destruct (d =? 0x2F) eqn:E2; [|reflexivity]. exfalso. apply (Nt t). f_equal; [lia|f_equal; lia].
Qed.

Section Relative.
Variables (b : url) (a : list Z) (u : url).
Hypothesis (B : base = Some b) (Ub : set_scheme (scheme b) u = bare b).

Lemma at_relative t : input = a ++ t -> H_ (here Relative [] a u) =
  if path_sep b (hd EOF t) then Val (Go (here RelativeSlash [] a (bare b)))
  else if hd EOF t =? 0x3F then Val (Go (here Query [] a (set_query (Some []) (copied b))))
  else if hd EOF t =? 0x23 then Val (Go (here Fragment [] a (set_fragment (Some []) (copied b))))
  else if negb (hd EOF t =? EOF) then Val (Go (move (-1) (here Path [] a (under b (removelast (path b))))))
  else Val (Go (here Relative [] a (copied b))).
Proof.
  intros Ei. change (H_ (here Relative [] a u)) with (on_relative base (here Relative [] a u) (current input (here Relative [] a u))). unfold on_relative. rewrite B.
  cbn [with_base]. rewrite (hd_cur _ _ _ _ _ Ei). unfold on_url, go, stay. change (p_url (here Relative [] a u)) with u. change (p_url (s_url ?x ?y)) with x. rewrite Ub.
  change (is_special (bare b)) with (is_special b). unfold path_sep. destruct (hd EOF t =? 0x2F); [reflexivity|]. cbn [orb].
  destruct (is_special b && (hd EOF t =? 0x5C)); [reflexivity|]. destruct (hd EOF t =? 0x3F); [reflexivity|]. destruct (hd EOF t =? 0x23); [reflexivity|].
  destruct (hd EOF t =? EOF); reflexivity.
Qed.

(** No path: that of the base, and its query unless there is one. *)
Lemma relative_same oq of : input = a ++ qtext oq ++ ftext of -> tail_ok [] oq of ->
  G_ (here Relative [] a u) (Some (with_fragment of (with_query oq (copied b)))).
Proof.
  intros Ei (V & _ & _ & N). cbn [gives]. pose proof (at_relative _ Ei) as H. cbn [app] in V.
  destruct oq as [q|]; cbn [qtext app with_query] in *.
  - inversion V as [|x y _ V']; subst x y. cbn [hd] in H. replace (path_sep b 0x3F) with false in H by (unfold path_sep; now rewrite andb_false_r).
    apply (hstep _ _ _ _ _ _ _ _ _ _ Ei H).
    pose proof (run_from_query idna input base fuel Fu (here Query [] (a ++ [0x3F]) (set_query (Some []) (copied b))) (a ++ [0x3F]) q of) as K.
    apply K; auto. apply here_stands. rewrite Ei, <- app_assoc. reflexivity.
  - destruct of as [f|]; cbn [ftext app with_fragment] in *.
    + inversion V as [|x y _ V']; subst x y. cbn [hd] in H. replace (path_sep b 0x23) with false in H by (unfold path_sep; now rewrite andb_false_r).
      apply (hstep _ _ _ _ _ _ _ _ _ _ Ei H).
      pose proof (run_fragment idna input base None fuel Fu f (here Fragment [] (a ++ [0x23]) (set_fragment (Some []) (copied b))) (a ++ [0x23]) []) as K.
      apply K; auto. apply here_stands. rewrite Ei, <- app_assoc. reflexivity.
    + cbn [hd] in H. replace (path_sep b EOF) with false in H by (unfold path_sep; now rewrite andb_false_r).
      apply (last_step idna input base fuel Fu _ _ H). change (p_pointer (here Relative [] a (copied b))) with (zlen a). rewrite app_nil_r in Ei. unfold size, zlen. rewrite Ei. lia.
Qed.

Lemma from_path v x oq of : input = a ++ x ++ qtext oq ++ ftext of -> tail_ok x oq of ->
  R (here Path [] a v) (true, with_fragment of (with_query oq (set_path (resolve (is_file v) (path v) (segments v x)) v))).
Proof.
  intros Ei Ok. pose proof (run_from_path idna input base fuel Fu x (here Path [] a v) a oq of (here_stands input _ _ _ _ _ Ei) eq_refl eq_refl Ok) as K.
  change (p_url (here Path [] a v)) with v in K. change (p_buffer (here Path [] a v)) with (@nil Z) in K. unfold whole_path in K. rewrite prepend_nil in K by apply segments_nonempty. exact K.
Qed.

(** A path that does not begin with a slash: after that of the base, without its last segment. *)
Lemma relative_path x oq of : input = a ++ x ++ qtext oq ++ ftext of -> x <> [] -> path_sep b (hd 0 x) = false -> tail_ok x oq of ->
  G_ (here Relative [] a u) (Some (with_fragment of (with_query oq (under b (resolve (is_file b) (removelast (path b)) (segments b x)))))).
Proof.
  intros Ei Nx Sx Ok. pose proof (at_relative _ Ei) as H. destruct x as [|c x]; [congruence|]. cbn [hd app] in *.
  pose proof Ok as (V & N1 & N2 & _). inversion V as [|c0 l0 [_ Vc] _]; subst c0 l0. rewrite Sx in H.
  replace (c =? 0x3F) with false in H by (symmetry; apply Z.eqb_neq; intros ->; apply N1; now left).
  replace (c =? 0x23) with false in H by (symmetry; apply Z.eqb_neq; intros ->; apply N2; now left).
  replace (c =? EOF) with false in H by (unfold EOF; lia). cbn [negb] in H.
  cbn [gives]. apply (hback _ _ _ _ _ _ _ _ _ Ei H). exact (from_path (under b (removelast (path b))) (c :: x) oq of Ei Ok).
Qed.
End Relative.

Lemma at_relative_slash b a t : base = Some b -> input = a ++ t -> H_ (here RelativeSlash [] a (bare b)) =
  if is_special b && is_slash (hd EOF t) then Val (Go (here SpecialAuthorityIgnoreSlashes [] a (bare b)))
  else if hd EOF t =? 0x2F then Val (Go (here Authority [] a (bare b)))
  else Val (Go (move (-1) (here Path [] a (under b [])))).
Proof.
  intros B Ei. change (H_ (here RelativeSlash [] a (bare b))) with (on_relative_slash base (here RelativeSlash [] a (bare b)) (current input (here RelativeSlash [] a (bare b)))).
  unfold on_relative_slash. rewrite (hd_cur _ _ _ _ _ Ei), B. change (is_special (p_url (here RelativeSlash [] a (bare b)))) with (is_special b).
  unfold is_slash. destruct (is_special b && _); [reflexivity|]. destruct (hd EOF t =? 0x2F); reflexivity.
Qed.

(** A path that begins with one slash: in place of that of the base. *)
Lemma relative_root b a u c x oq of : base = Some b -> set_scheme (scheme b) u = bare b ->
  input = a ++ c :: x ++ qtext oq ++ ftext of -> path_sep b c = true -> path_sep b (hd 0 x) = false -> tail_ok x oq of ->
  G_ (here Relative [] a u) (Some (with_fragment of (with_query oq (under b (resolve (is_file b) [] (segments b x)))))).
Proof.
  intros B Ub Ei Sc Sx Ok. pose proof (at_relative b a u B Ub _ Ei) as H. cbn [hd] in H. rewrite Sc in H. cbn [gives].
  apply (hstep _ _ _ _ _ _ _ _ _ _ Ei H).
  assert (Ei2 : input = (a ++ [c]) ++ x ++ qtext oq ++ ftext of) by (rewrite Ei, <- app_assoc; reflexivity).
  pose proof (at_relative_slash b (a ++ [c]) _ B Ei2) as H2. set (t := x ++ qtext oq ++ ftext of) in *.
  assert (Q : path_sep b (hd EOF t) = false).
  { unfold t. destruct x as [|y x]; [|exact Sx]. destruct oq; [unfold path_sep; now rewrite andb_false_r|]. destruct of; unfold path_sep; now rewrite andb_false_r. }
  unfold path_sep in Q. apply orb_false_iff in Q as [Q1 Q2]. unfold is_slash in H2. rewrite Q1 in H2. cbn [orb] in H2. rewrite Q2 in H2.
  apply (hback _ _ _ _ _ _ _ _ _ Ei2 H2). exact (from_path (a ++ [c]) (under b []) x oq of Ei2 Ok).
Qed.

(** Two slashes: an authority of the base's scheme. *)
Lemma relative_authority b a u c d sl ou s od x oq of hh : base = Some b -> set_scheme (scheme b) u = bare b ->
  input = a ++ c :: d :: sl ++ (utext ou ++ s ++ ptext od) ++ x ++ qtext oq ++ ftext of -> path_sep b c = true -> path_sep b d = true ->
  Forall (fun c => is_slash c = true) sl -> (is_special b = false -> sl = []) ->
  authority_ok (bare b) ou s od -> starts_path (bare b) x -> tail_ok x oq of -> parse_host idna fuel s (negb (is_special b)) = Val hh ->
  G_ (here Relative [] a u) (if host_none hh || port_bad od then None else Some (authority_url (bare b) ou hh od x oq of)).
Proof.
  intros B Ub Ei Sc Sd Sl Ns Au Sb Ok Ph. pose proof (at_relative b a u B Ub _ Ei) as H. cbn [hd] in H. rewrite Sc in H.
  set (rest := (utext ou ++ s ++ ptext od) ++ x ++ qtext oq ++ ftext of) in *.
  assert (Ei2 : input = (a ++ [c]) ++ d :: sl ++ rest) by (rewrite Ei, <- app_assoc; reflexivity).
  assert (Ei3 : input = ((a ++ [c]) ++ [d]) ++ sl ++ rest) by (rewrite Ei, <- !app_assoc; reflexivity).
  pose proof (at_relative_slash b (a ++ [c]) _ B Ei2) as H2. cbn [hd] in H2.
  apply (gives_from idna input base fuel _ (here Authority [] (((a ++ [c]) ++ [d]) ++ sl) (bare b))).
  - intros r K. apply (hstep _ _ _ _ _ _ _ _ _ _ Ei H). unfold path_sep in Sd. destruct (is_special b) eqn:Sp; cbn [andb] in *.
    + unfold is_slash in H2. rewrite Sd in H2. apply (hstep _ _ _ _ _ _ _ _ _ _ Ei2 H2).
      apply (run_ignore idna input base fuel Fu sl (bare b) _ rest Ei3 Sl); [|exact K].
      destruct Au as (A1 & _ & _ & _ & _ & A6). assert (Nn : s <> []) by (apply A6; now left).
      unfold rest. destruct (utext ou ++ s ++ ptext od) as [|y z] eqn:E.
      * apply app_eq_nil in E as [_ E]. apply app_eq_nil in E as [E _]. congruence.
      * cbn [app]. apply (inner_not_slash (bare b) y Sp). now inversion A1.
    + rewrite orb_false_r in Sd. rewrite Sd in H2. apply (hstep _ _ _ _ _ _ _ _ _ _ Ei2 H2). rewrite (Ns eq_refl), app_nil_r in K. exact K.
  - apply (run_all_here idna input base fuel Fu _ (bare b) ou s od x oq of hh); auto. rewrite Ei3. unfold rest. rewrite <- !app_assoc. reflexivity.
Qed.

(** ** Files *)

Section Files.
Variables (a : list Z) (u : url).
Hypothesis Uf : set_host (Some HEmpty) (set_scheme (lit "file") u) = file_url.
Definition file_base : option url := match base with Some b => if is_file b then Some b else None | None => None end.

Lemma at_file t : input = a ++ t -> H_ (here File [] a u) =
  if is_slash (hd EOF t) then Val (Go (here FileSlash [] a file_url))
  else match file_base with
  | None => Val (Go (move (-1) (here Path [] a file_url)))
  | Some b =>
      if hd EOF t =? 0x3F then Val (Go (here Query [] a (set_query (Some []) (file_copied b))))
      else if hd EOF t =? 0x23 then Val (Go (here Fragment [] a (set_fragment (Some []) (file_copied b))))
      else if negb (hd EOF t =? EOF) then Val (Go (move (-1) (here Path [] a (file_under (uhost b) (drive_dir b t)))))
      else Val (Go (here File [] a (file_copied b)))
  end.
Proof.
  intros Ei. change (H_ (here File [] a u)) with (on_file input base (here File [] a u) (current input (here File [] a u))). unfold on_file.
  rewrite (hd_cur _ _ _ _ _ Ei). unfold on_url, go, stay. change (p_url (here File [] a u)) with u. change (p_url (s_url ?x ?y)) with x. rewrite Uf.
  unfold is_slash. destruct ((hd EOF t =? 0x2F) || _); [reflexivity|]. unfold file_base, is_file. destruct base as [b|]; [|reflexivity].
  destruct (eqs (scheme b) (lit "file")); [|reflexivity]. destruct (hd EOF t =? 0x3F); [reflexivity|]. destruct (hd EOF t =? 0x23); [reflexivity|].
  destruct (hd EOF t =? EOF); [reflexivity|]. cbn [negb].
  assert (Er : forall v s, rest_ input (P s [] false false false (zlen a) UTF_8 v) = t).
  { intros v s. unfold rest_, zlen. pj. rewrite Nat2Z.id, Ei, skipn_app, skipn_all, Nat.sub_diag. reflexivity. }
  unfold here, s_url. pj. rewrite Er. unfold drive_dir. destruct (starts_with_windows_drive_letter t); [reflexivity|]. rewrite shorten_path. reflexivity.
Qed.

Lemma at_file_slash t : input = a ++ t -> H_ (here FileSlash [] a file_url) =
  if is_slash (hd EOF t) then Val (Go (here FileHost [] a file_url))
  else Val (Go (move (-1) (here Path [] a (match file_base with None => file_url | Some b => file_under (uhost b) (drive_root b t) end)))).
Proof.
  intros Ei. change (H_ (here FileSlash [] a file_url)) with (on_file_slash input base (here FileSlash [] a file_url) (current input (here FileSlash [] a file_url))). unfold on_file_slash.
  rewrite (hd_cur _ _ _ _ _ Ei). unfold is_slash. destruct ((hd EOF t =? 0x2F) || _); [reflexivity|]. unfold file_base, is_file. destruct base as [b|]; [|reflexivity].
  destruct (eqs (scheme b) (lit "file")); [|reflexivity].
  assert (Er : forall v s, rest_ input (P s [] false false false (zlen a) UTF_8 v) = t).
  { intros v s. unfold rest_, zlen. pj. rewrite Nat2Z.id, Ei, skipn_app, skipn_all, Nat.sub_diag. reflexivity. }
  unfold on_url, here, s_url. pj. rewrite ?Er. unfold drive_root. destruct (path b) as [|d l]; [reflexivity|].
  destruct (negb _ && _); reflexivity.
Qed.

Lemma file_same b oq of : file_base = Some b -> input = a ++ qtext oq ++ ftext of -> tail_ok [] oq of ->
  G_ (here File [] a u) (Some (with_fragment of (with_query oq (file_copied b)))).
Proof.
  intros Fb Ei (V & _ & _ & N). cbn [gives]. pose proof (at_file _ Ei) as H. rewrite Fb in H. cbn [app] in V.
  destruct oq as [q|]; cbn [qtext app with_query] in *.
  - inversion V as [|x y _ V']; subst x y. cbn [hd] in H. change (is_slash 0x3F) with false in H.
    apply (hstep _ _ _ _ _ _ _ _ _ _ Ei H).
    pose proof (run_from_query idna input base fuel Fu (here Query [] (a ++ [0x3F]) (set_query (Some []) (file_copied b))) (a ++ [0x3F]) q of) as K.
    apply K; auto. apply here_stands. rewrite Ei, <- app_assoc. reflexivity.
  - destruct of as [f|]; cbn [ftext app with_fragment] in *.
    + inversion V as [|x y _ V']; subst x y. cbn [hd] in H. change (is_slash 0x23) with false in H.
      apply (hstep _ _ _ _ _ _ _ _ _ _ Ei H).
      pose proof (run_fragment idna input base None fuel Fu f (here Fragment [] (a ++ [0x23]) (set_fragment (Some []) (file_copied b))) (a ++ [0x23]) []) as K.
      apply K; auto. apply here_stands. rewrite Ei, <- app_assoc. reflexivity.
    + cbn [hd] in H. change (is_slash EOF) with false in H.
      apply (last_step idna input base fuel Fu _ _ H). change (p_pointer (here File [] a (file_copied b))) with (zlen a). rewrite app_nil_r in Ei. unfold size, zlen. rewrite Ei. lia.
Qed.
Lemma file_path b x oq of : file_base = Some b -> input = a ++ x ++ qtext oq ++ ftext of -> x <> [] -> is_slash (hd 0 x) = false -> tail_ok x oq of ->
  G_ (here File [] a u) (Some (with_fragment of (with_query oq (file_under (uhost b) (resolve true (drive_dir b (x ++ qtext oq ++ ftext of)) (segments file_url x)))))).
Proof.
  intros Fb Ei Nx Sx Ok. pose proof (at_file _ Ei) as H. rewrite Fb in H. destruct x as [|c x]; [congruence|]. cbn [hd app] in *.
  pose proof Ok as (V & N1 & N2 & _). inversion V as [|c0 l0 [_ Vc] _]; subst c0 l0. rewrite Sx in H.
  replace (c =? 0x3F) with false in H by (symmetry; apply Z.eqb_neq; intros ->; apply N1; now left).
  replace (c =? 0x23) with false in H by (symmetry; apply Z.eqb_neq; intros ->; apply N2; now left).
  replace (c =? EOF) with false in H by (unfold EOF; lia). cbn [negb] in H.
  cbn [gives]. apply (hback _ _ _ _ _ _ _ _ _ Ei H). exact (from_path a (file_under (uhost b) (drive_dir b (c :: x ++ qtext oq ++ ftext of))) (c :: x) oq of Ei Ok).
Qed.
Lemma file_path_alone x oq of : file_base = None -> input = a ++ x ++ qtext oq ++ ftext of -> is_slash (hd 0 x) = false -> tail_ok x oq of ->
  G_ (here File [] a u) (Some (with_fragment of (with_query oq (file_under (Some HEmpty) (resolve true [] (segments file_url x)))))).
Proof.
  intros Fb Ei Sx Ok. pose proof (at_file _ Ei) as H. rewrite Fb in H.
  replace (is_slash (hd EOF (x ++ qtext oq ++ ftext of))) with false in H.
  - cbn [gives]. apply (hback _ _ _ _ _ _ _ _ _ Ei H). exact (from_path a file_url x oq of Ei Ok).
  - destruct x as [|y x]; [|symmetry; exact Sx]. destruct oq; [reflexivity|]. destruct of; reflexivity.
Qed.
End Files.

Lemma file_root a u c x oq of : set_host (Some HEmpty) (set_scheme (lit "file") u) = file_url -> input = a ++ c :: x ++ qtext oq ++ ftext of ->
  is_slash c = true -> is_slash (hd 0 x) = false -> tail_ok x oq of ->
  G_ (here File [] a u) (Some (with_fragment of (with_query oq (match file_base with
    | Some b => file_under (uhost b) (resolve true (drive_root b (x ++ qtext oq ++ ftext of)) (segments file_url x))
    | None => file_under (Some HEmpty) (resolve true [] (segments file_url x)) end)))).
Proof.
  intros Uf Ei Sc Sx Ok. pose proof (at_file a u Uf _ Ei) as H. cbn [hd] in H. rewrite Sc in H. cbn [gives].
  apply (hstep _ _ _ _ _ _ _ _ _ _ Ei H).
  assert (Ei2 : input = (a ++ [c]) ++ x ++ qtext oq ++ ftext of) by (rewrite Ei, <- app_assoc; reflexivity).
  pose proof (at_file_slash (a ++ [c]) _ Ei2) as H2. set (t := x ++ qtext oq ++ ftext of) in *.
  replace (is_slash (hd EOF t)) with false in H2.
  - apply (hback _ _ _ _ _ _ _ _ _ Ei2 H2). pose proof (from_path (a ++ [c]) (match file_base with None => file_url | Some b => file_under (uhost b) (drive_root b t) end) x oq of Ei2 Ok) as K.
    destruct file_base as [b|]; exact K.
  - unfold t. destruct x as [|y x]; [|symmetry; exact Sx]. destruct oq; [reflexivity|]. destruct of; reflexivity.
Qed.
End Rel.
