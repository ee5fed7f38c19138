(** What holds of every URL that comes out of the parser: C70, C71, C72. *)
From Coq Require Import String.
From Coq Require Import ZArith List Bool Lia.
From Verif Require Import M_unicode M_infra M_percent M_ip M_encoding M_labels M_url.
From Verif Require Import L_unicode L_url L_url2 L_url3 L_url4 L_url5 L_url6 L_url7 L_url8 L_url9 L_url10 L_url11 L_url12.
From Verif Require L_ip.
Import ListNotations.
Open Scope string_scope.
Open Scope list_scope.
Open Scope Z_scope.

Ltac wit := repeat (match goal with |- _ /\ _ => split end); (vm_compute; reflexivity).
Ltac fz :=
  match goal with |- Forall ?P ?l => let x := eval vm_compute in l in change (Forall P x) end;
  repeat (apply Forall_cons; [unfold scalar; lia|]); apply Forall_nil.

(** * The statements' vocabulary *)

(** The records that parsing gives, with no base or with a base that parsing gave. *)
Inductive obtained (idna : list Z -> option (list Z)) : url -> Prop :=
| from_text s fuel steps u :
    Forall scalar s -> (8 * List.length s + 8 < fuel)%nat -> (18 * (List.length s + 2) <= steps)%nat ->
    basic_parse idna fuel steps s None UTF_8 = Val (Some u) -> obtained idna u
| from_reference b s fuel steps u :
    obtained idna b -> Forall scalar s -> (8 * List.length s + 8 < fuel)%nat -> (18 * (List.length s + 2) <= steps)%nat ->
    basic_parse idna fuel steps s (Some b) UTF_8 = Val (Some u) -> obtained idna u.

(** The ToASCII operation gives a name that is not empty, in ASCII, which it does not change again, and it does not change dotted numbers. *)
Definition to_ascii_like (idna : list Z -> option (list Z)) : Prop :=
  (forall x y, idna x = Some y -> y <> [] /\ Forall (fun c => 0 <= c < 0x80) y /\ idna y = Some y) /\
  (forall n, 0 <= n < 2 ^ 32 -> idna (serialize_ipv4 n) = Some (serialize_ipv4 n)).

(** Printable ASCII other than space and the code points of a list. *)
Definition printable_but (l : list Z) (s : list Z) : Prop := Forall (fun c => 0x20 < c <= 0x7E /\ ~ In c l) s.
(** A segment that stands for the same or the upper directory. *)
Definition single_dot (s : list Z) : Prop := In (map cp_lower s) [lit "."; lit "%2e"].
Definition double_dot (s : list Z) : Prop := In (map cp_lower s) [lit ".."; lit ".%2e"; lit "%2e."; lit "%2e%2e"].

(** An IDNA conversion for the examples: names in ASCII in lower case. *)
Definition lower_ascii (s : list Z) : option (list Z) :=
  match s with [] => None | _ => if forallb (fun c => (0 <=? c) && (c <? 0x80)) s then Some (map cp_lower s) else None end.

Lemma lower_range c : 0 <= c < 0x80 -> 0 <= cp_lower c < 0x80 /\ cp_lower (cp_lower c) = cp_lower c.
Proof.
  intros H. unfold cp_lower, is_ascii_upper_alpha. destruct ((65 <=? c) && (c <=? 90)) eqn:X; [|rewrite X; lia]. split; [lia|]. destruct ((65 <=? c + 32) && (c + 32 <=? 90)) eqn:X2; lia.
Qed.
Lemma lower_ascii_like : to_ascii_like lower_ascii.
Proof.
  assert (K : forall s, s <> [] -> Forall (fun c => 0 <= c < 0x80) s -> lower_ascii s = Some (map cp_lower s)).
  { intros s N F. unfold lower_ascii. destruct s as [|c s]; [congruence|]. replace (forallb _ (c :: s)) with true; [reflexivity|]. symmetry. apply forallb_forall. intros x X. rewrite Forall_forall in F. specialize (F x X). lia. }
  split.
  - intros x y H. unfold lower_ascii in H. destruct x as [|c x]; [discriminate H|]. destruct (forallb _ (c :: x)) eqn:F; [|discriminate H]. assert (Ey : y = map cp_lower (c :: x)) by congruence. rewrite Ey. clear H Ey.
    assert (F' : Forall (fun c => 0 <= c < 0x80) (c :: x)). { apply Forall_forall. intros z Z. rewrite forallb_forall in F. specialize (F z Z). lia. }
    assert (G : Forall (fun c => 0 <= c < 0x80) (map cp_lower (c :: x))). { apply Forall_forall. intros z Z. apply in_map_iff in Z as (w & <- & W). rewrite Forall_forall in F'. apply lower_range. auto. }
    split; [discriminate|]. split; [exact G|]. rewrite (K (map cp_lower (c :: x))); [|discriminate|exact G]. f_equal. rewrite map_map. apply map_ext_in. intros a A. rewrite Forall_forall in F'. apply lower_range. auto.
  - intros n Hn. destruct (ipv4_chars n) as [C Ne]. rewrite K.
    + f_equal. clear Ne. induction C as [|c s Hc _ IH]; [reflexivity|]. cbn [map]. rewrite IH. f_equal. unfold cp_lower, is_ascii_upper_alpha. destruct ((65 <=? c) && (c <=? 90)) eqn:X; lia.
    + exact Ne.
    + revert C. apply Forall_impl. intros c X. lia.
Qed.

Lemma obtained_sound idna u : to_ascii_like idna -> obtained idna u -> sound idna u.
Proof.
  intros I H. induction H as [s fuel steps u S F T H|b s fuel steps u Hb IH S F T H].
  - apply (parsed_sound idna fuel steps s None u I S (conj F T) Logic.I H).
  - apply (parsed_sound idna fuel steps s (Some b) u I S (conj F T) IH H).
Qed.

Lemma one_of_not l c : one_of l c = false -> ~ In c l.
Proof. intros H X. exact (one_of_out l c c H X eq_refl). Qed.
Ltac sets := unfold is_userinfo_percent_encode_set, is_path_percent_encode_set, is_fragment_percent_encode_set, is_special_query_percent_encode_set, is_query_percent_encode_set, is_c0_control_percent_encode_set, is_c0_control;
  intros H; repeat match goal with X : _ || _ = false |- _ => apply orb_false_elim in X as [? ?] end;
  repeat match goal with X : one_of _ _ = false |- _ => apply one_of_not in X; cbn [In] in X end; cbn [In]; lia.
Lemma user_not c : is_userinfo_percent_encode_set c = false ->
  0x20 < c <= 0x7E /\ ~ In c [0x22; 0x23; 0x2F; 0x3A; 0x3B; 0x3C; 0x3D; 0x3E; 0x3F; 0x40; 0x5B; 0x5C; 0x5D; 0x5E; 0x60; 0x7B; 0x7C; 0x7D].
Proof. sets. Qed.
Lemma path_not c : is_path_percent_encode_set c = false -> 0x20 < c <= 0x7E /\ ~ In c [0x22; 0x23; 0x3C; 0x3E; 0x3F; 0x60; 0x7B; 0x7D].
Proof. sets. Qed.
Lemma fragment_not c : is_fragment_percent_encode_set c = false -> 0x20 < c <= 0x7E /\ ~ In c [0x22; 0x3C; 0x3E; 0x60].
Proof. sets. Qed.
Lemma query_not c : is_query_percent_encode_set c = false -> 0x20 < c <= 0x7E /\ ~ In c [0x22; 0x23; 0x3C; 0x3E].
Proof. sets. Qed.
Lemma special_query_not c : is_special_query_percent_encode_set c = false -> 0x20 < c <= 0x7E /\ ~ In c [0x22; 0x23; 0x27; 0x3C; 0x3E].
Proof. sets. Qed.

Lemma lower_other c x : cp_lower c = x -> ~ (0x61 <= x <= 0x7A) -> c = x.
Proof. unfold cp_lower, is_ascii_upper_alpha. destruct ((65 <=? c) && (c <=? 90)) eqn:X; lia. Qed.
Lemma not_single s : is_single_dot_path_segment s = false -> ~ single_dot s.
Proof.
  unfold is_single_dot_path_segment, single_dot. intros H [X|[X|[]]].
  - destruct s as [|a [|b s]]; try discriminate X. injection X as X. symmetry in X. apply lower_other in X; [|lia]. subst a. discriminate H.
  - destruct s as [|a [|b [|c [|d s]]]]; try discriminate X. injection X as X1 X2 X3. symmetry in X1, X2, X3. apply lower_other in X1; [|lia]. apply lower_other in X2; [|lia]. subst a b.
    unfold cp_lower, is_ascii_upper_alpha in X3. destruct ((65 <=? c) && (c <=? 90)) eqn:Y; [assert (c = 0x45) by lia|]; subst c; discriminate H.
Qed.
Lemma not_double s : is_double_dot_path_segment s = false -> ~ double_dot s.
Proof.
  unfold is_double_dot_path_segment, double_dot, ci. intros H X. apply orb_false_elim in H as [H H4]. apply orb_false_elim in H as [H H3]. apply orb_false_elim in H as [H1 H2].
  assert (K : forall l, eqs (map cp_lower s) (map cp_lower l) = false -> map cp_lower s <> map cp_lower l) by (intros l Y Z; apply eqs_true in Z; congruence).
  apply K in H2, H3, H4. destruct X as [X|[X|[X|[X|[]]]]]; [|now apply H2; rewrite <- X|now apply H3; rewrite <- X|now apply H4; rewrite <- X].
  destruct s as [|a [|b [|c s]]]; try discriminate X. injection X as X1 X2. symmetry in X1, X2. apply lower_other in X1; [|lia]. apply lower_other in X2; [|lia]. subst a b. discriminate H1.
Qed.

(** * C70 *)

(** Every part of a URL that comes out of the parser is written in a fixed repertoire of printable ASCII, so that no part contains a delimiter of another, and the path has no dot segment. *)
Theorem C70_repertoire idna u : to_ascii_like idna -> obtained idna u ->
  (exists c r, scheme u = c :: r /\ 0x61 <= c <= 0x7A /\ Forall (fun x => 0x61 <= x <= 0x7A \/ 0x30 <= x <= 0x39 \/ In x [0x2B; 0x2D; 0x2E]) r) /\
  printable_but [0x22; 0x23; 0x2F; 0x3A; 0x3B; 0x3C; 0x3D; 0x3E; 0x3F; 0x40; 0x5B; 0x5C; 0x5D; 0x5E; 0x60; 0x7B; 0x7C; 0x7D] (username u ++ password u) /\
  (cannot_be_base u = false -> Forall (fun s =>
     printable_but ([0x22; 0x23; 0x2F; 0x3C; 0x3E; 0x3F; 0x60; 0x7B; 0x7D] ++ (if is_special_scheme (scheme u) then [0x5C] else [])) s /\ ~ single_dot s /\ ~ double_dot s) (path u)) /\
  (cannot_be_base u = true -> Forall (Forall (fun c => 0x20 <= c <= 0x7E /\ c <> 0x3F /\ c <> 0x23)) (path u)) /\
  (forall q, query u = Some q -> printable_but ([0x22; 0x23; 0x3C; 0x3E] ++ (if is_special_scheme (scheme u) then [0x27] else [])) q) /\
  (forall f, fragment u = Some f -> printable_but [0x22; 0x3C; 0x3E; 0x60] f).
Proof.
  intros I O. destruct (obtained_sound idna u I O) as ([[St Sm] Hc] & Hq & Hf & _). split; [|split; [|split; [|split; [|split]]]].
  - destruct (scheme u) as [|c r]; [destruct St|]. exists c, r. destruct St as [S1 S2]. injection Sm as M1 M2. split; [reflexivity|]. split.
    + unfold is_ascii_alpha, is_ascii_upper_alpha, is_ascii_lower_alpha in S1. unfold cp_lower, is_ascii_upper_alpha in M1. destruct ((65 <=? c) && (c <=? 90)) eqn:X; lia.
    + clear S1 M1 Hc Hq Hf O. induction S2 as [|x r Hx _ IH]; [constructor|]. injection M2 as M1 M2. constructor; [|now apply IH].
      unfold scheme_char, is_ascii_alphanumeric, is_ascii_digit, is_ascii_alpha, is_ascii_lower_alpha in Hx. unfold cp_lower in M1. cbn [In]. destruct (is_ascii_upper_alpha x) eqn:X; [lia|]. cbn [orb] in Hx. lia.
  - assert (C : credentials_ok u).
    { destruct (cannot_be_base u); [destruct Hc as ((_ & X1 & X2 & _) & _); unfold credentials_ok; rewrite X1, X2; split; constructor|]. destruct Hc as (H & _). unfold front in H. destruct (uhost u) as [h|]; [|destruct H as (_ & X1 & X2 & _); unfold credentials_ok; rewrite X1, X2; split; constructor].
      destruct (is_file u); [destruct H as (X1 & X2 & _); unfold credentials_ok; rewrite X1, X2; split; constructor|]. apply H. }
    destruct C as [C1 C2]. apply Forall_app. split; [revert C1|revert C2]; apply Forall_impl; intros c; apply user_not.
  - intros E. rewrite E in Hc. destruct Hc as (_ & [Hp _] & _). revert Hp. apply Forall_impl. intros s (P1 & P2 & P3 & P4). split; [|split; [now apply not_single|now apply not_double]].
    apply Forall_forall. intros c C. unfold outside in P1. rewrite Forall_forall in P1, P2. specialize (P1 c C). specialize (P2 c C). apply path_not in P1 as [R N]. split; [exact R|]. unfold path_sep, is_special in P2.
    destruct (is_special_scheme (scheme u)); cbn [In app] in *; lia.
  - intros E. rewrite E in Hc. destruct Hc as (_ & s & -> & T & _). constructor; [exact T|constructor].
  - intros q E. unfold query_ok in Hq. rewrite E in Hq. unfold query_set, is_special in Hq. destruct (is_special_scheme (scheme u)); revert Hq; apply Forall_impl; intros c X.
    + apply special_query_not in X. cbn [In app] in *. lia.
    + apply query_not in X. cbn [In app] in *. lia.
  - intros f E. unfold fragment_ok in Hf. rewrite E in Hf. revert Hf. apply Forall_impl. intros c. apply fragment_not.
Qed.
Print Assumptions C70_repertoire.
Example C70_repertoire_ex :
  to_ascii_like lower_ascii /\
  obtained lower_ascii (Url (lit "http") (lit "a%40b") (lit "%22") (Some (HDomain (lit "x.y"))) (Some 81) [lit "c"; lit "%22d"; []] (Some (lit "%27")) (Some (lit "%60")) false) /\
  obtained lower_ascii (Url (lit "http") [] [] (Some (HDomain (lit "h"))) None [lit "p"; lit "r"] None None false) /\
  obtained lower_ascii (Url (lit "x") [] [] None None [lit "a b"] None (Some []) true).
Proof.
  split; [exact lower_ascii_like|]. split; [|split].
  - apply from_text with (s := lit "HTTP:\/a@b:""@X.Y:81/z/%2E%2e/c\""d/./?'#`") (fuel := 600%nat) (steps := 800%nat); [fz|cbn; lia|cbn; lia|wit].
  - apply from_reference with (b := Url (lit "http") [] [] (Some (HDomain (lit "h"))) None [lit "p"; lit "q"] None None false) (s := lit "r") (fuel := 600%nat) (steps := 800%nat); [|fz|cbn; lia|cbn; lia|wit].
    apply from_text with (s := lit "http:H/p/q") (fuel := 600%nat) (steps := 800%nat); [fz|cbn; lia|cbn; lia|wit].
  - apply from_text with (s := lit "x:a b#") (fuel := 600%nat) (steps := 800%nat); [fz|cbn; lia|cbn; lia|wit].
Qed.

(** * C71 *)

(** The parts of a URL that comes out of the parser fit together. *)
Theorem C71_structure idna u : to_ascii_like idna -> obtained idna u ->
  (cannot_be_base u = true -> is_special_scheme (scheme u) = false /\ username u = [] /\ password u = [] /\ uhost u = None /\ port u = None /\ exists s, path u = [s]) /\
  (uhost u = None -> is_special_scheme (scheme u) = false /\ username u = [] /\ password u = [] /\ port u = None) /\
  (scheme u = lit "file" -> username u = [] /\ password u = [] /\ port u = None /\ (uhost u = Some HEmpty \/ exists d, uhost u = Some (HDomain d) /\ d <> [] /\ d <> lit "localhost")) /\
  (is_special_scheme (scheme u) = true -> scheme u <> lit "file" -> exists h, uhost u = Some h /\
     ((exists d, h = HDomain d /\ d <> []) \/ (exists n, h = HIpv4 n) \/ (exists a, h = HIpv6 a))) /\
  (is_special_scheme (scheme u) = false -> forall h, uhost u = Some h -> (exists s, h = HOpaque s) \/ (exists a, h = HIpv6 a)) /\
  (username u <> [] \/ password u <> [] \/ port u <> None -> uhost u <> Some (HOpaque [])) /\
  (forall d, uhost u = Some (HDomain d) -> idna d = Some d /\ Forall (fun c => 0 <= c < 0x80 /\ ~ In c [0; 0x9; 0xA; 0xD; 0x20; 0x23; 0x25; 0x2F; 0x3A; 0x3F; 0x40; 0x5B; 0x5C; 0x5D]) d) /\
  (forall s, uhost u = Some (HOpaque s) -> Forall (fun c => 0x20 < c <= 0x7E /\ ~ In c [0x23; 0x2F; 0x3A; 0x3F; 0x40; 0x5B; 0x5C; 0x5D]) s) /\
  (forall n, uhost u = Some (HIpv4 n) -> 0 <= n < 2 ^ 32) /\
  (forall a, uhost u = Some (HIpv6 a) -> List.length a = 8%nat /\ Forall (fun x => 0 <= x < 65536) a) /\
  (forall n, port u = Some n -> 0 <= n < 65535 /\ ~ usual (scheme u) n) /\
  (is_special_scheme (scheme u) = true \/ uhost u = None -> path u <> []) /\
  (scheme u = lit "file" -> forall a b r, path u = [a; b] :: r -> is_ascii_alpha a = true -> b <> 0x7C).
Proof.
  intros I O. destruct (obtained_sound idna u I O) as ([[St Sm] Hc] & _). clear O. fold (is_special u).
  assert (Ff : is_file u = true <-> scheme u = lit "file") by apply eqs_true.
  assert (Sf : scheme u = lit "file" -> is_special u = true) by (intros X; unfold is_special; rewrite X; reflexivity).
  destruct (cannot_be_base u) eqn:Cb.
  { destruct Hc as ((H1 & H2 & H3 & H4 & H5) & s & Hp & _). rewrite H1, H2, H3, H4, H5. assert (Nf : scheme u <> lit "file") by (intros X; rewrite (Sf X) in H1; discriminate H1).
    repeat split; try discriminate; try (exfalso; congruence); eauto.
    intros _. rewrite Hp. discriminate. }
  destruct Hc as (Hfr & [_ Hdr] & Hd). split; [discriminate|]. unfold front in Hfr. destruct (uhost u) as [h|] eqn:Hh.
  2:{ destruct Hfr as (H1 & H2 & H3 & H4). rewrite H1, H2, H3, H4. assert (Nf : scheme u <> lit "file") by (intros X; rewrite (Sf X) in H1; discriminate H1).
    repeat split; try discriminate; try (exfalso; congruence); try (intros; apply Hd; now right); intuition congruence. }
  split; [discriminate|].
  assert (W : is_file u = false \/ h <> HEmpty -> weak_host idna (is_special u) h).
  { destruct (is_file u) eqn:F; [|intros _; apply Hfr]. intros [X|X]; [discriminate X|]. rewrite Sf by (apply Ff; reflexivity). destruct Hfr as (_ & _ & _ & [Y|[Y _]]); [congruence|exact Y]. }
  split.
  { intros X. rewrite (proj2 Ff X) in Hfr. destruct Hfr as (H1 & H2 & H3 & H4). repeat (split; [assumption|]). destruct H4 as [-> |(H4 & d & -> & H5)]; [now left|]. right. exists d. split; [reflexivity|]. split; [apply H4|exact H5]. }
  split.
  { intros Sp Nf. destruct (is_file u) eqn:F; [exfalso; now apply Nf, Ff|]. pose proof (W (or_introl eq_refl)) as W'. clear W. rename W' into W. exists h. split; [reflexivity|]. rewrite Sp in W. destruct h as [|d|n|a|s|]; cbn in W; [destruct W| | | | |destruct W].
    - left. exists d. split; [reflexivity|apply W].
    - right. left. eauto.
    - right. right. eauto.
    - destruct W as [W _]. discriminate W. }
  split.
  { intros Sp h' X. injection X as <-. destruct (is_file u) eqn:F; [rewrite Sf in Sp by (apply Ff; reflexivity); discriminate Sp|]. specialize (W (or_introl eq_refl)). rewrite Sp in W. destruct h as [|d|n|a|s|]; cbn in W; [destruct W| | | | |destruct W].
    - destruct W as [W _]. discriminate W.
    - destruct W as [W _]. discriminate W.
    - right. eauto.
    - left. eauto. }
  split.
  { intros X Y. injection Y as ->. destruct (is_file u) eqn:F; [destruct Hfr as (H1 & H2 & H3 & _); rewrite H1, H2, H3 in X; intuition congruence|]. destruct Hfr as (_ & _ & N & _). apply N; [|reflexivity].
    unfold includes_credentials. destruct X as [X|[X|X]]; [left|left|now right]; destruct (username u), (password u); try congruence; reflexivity. }
  split.
  { intros d X. injection X as ->. assert (W' : weak_host idna (is_special u) (HDomain d)) by (apply W; right; discriminate). destruct W' as (_ & _ & W1 & W2 & _). split; [exact W2|]. revert W1. apply Forall_impl. intros c [R N]. split; [exact R|]. now apply one_of_not. }
  split.
  { intros s X. injection X as ->. assert (W' : weak_host idna (is_special u) (HOpaque s)) by (apply W; right; discriminate). destruct W' as (_ & W1). revert W1. apply Forall_impl. intros c [R N].
    destruct N as [N| ->]; [|cbn [In]; lia]. apply one_of_not in N. cbn [In] in *. lia. }
  split.
  { intros n X. injection X as ->. assert (W' : weak_host idna (is_special u) (HIpv4 n)) by (apply W; right; discriminate). apply W'. }
  split.
  { intros a X. injection X as ->. assert (W' : weak_host idna (is_special u) (HIpv6 a)) by (apply W; right; discriminate). exact W'. }
  split.
  { intros n X. destruct (is_file u) eqn:F; [destruct Hfr as (_ & _ & H3 & _); congruence|]. destruct Hfr as (_ & _ & _ & N). rewrite X in N. destruct N as [N1 N2]. split; [exact N1|].
    intros Us. destruct (kept_port_usual u n) as [[_ K]|[K _]]; [|auto]. unfold kept_port in K. destruct (default_port (scheme u)) as [d|]; [|discriminate K]. destruct (n =? d) eqn:E; [|discriminate K]. apply N2. f_equal. lia. }
  split.
  { intros [X|X]; [apply Hd; now left|discriminate X]. }
  intros X a b r P A ->. specialize (Hdr (proj2 Ff X)). rewrite P in Hdr. cbn [hd drive] in Hdr. rewrite A in Hdr. discriminate Hdr.
Qed.
Print Assumptions C71_structure.
Example C71_structure_ex :
  obtained lower_ascii (Url (lit "file") [] [] (Some (HDomain (lit "h"))) None [lit "C:"; lit "x"] None None false) /\
  obtained lower_ascii (Url (lit "ws") (lit "u") [] (Some (HIpv4 1)) (Some 443) [[]] None None false) /\
  obtained lower_ascii (Url (lit "x") [] [] (Some (HIpv6 [0; 0; 0; 0; 0; 0; 0; 1])) (Some 80) [] (Some []) None false) /\
  obtained lower_ascii (Url (lit "x") [] [] (Some (HOpaque (lit "A%C3%A9"))) None [lit "y"] None None false) /\
  obtained lower_ascii (Url (lit "x") [] [] None None [lit "y"] None None false).
Proof.
  repeat match goal with |- _ /\ _ => split end.
  - apply from_text with (s := lit "file://H/C|/x") (fuel := 600%nat) (steps := 800%nat); [fz|cbn; lia|cbn; lia|wit].
  - apply from_text with (s := lit "ws://u:@0x1:443") (fuel := 600%nat) (steps := 800%nat); [fz|cbn; lia|cbn; lia|wit].
  - apply from_text with (s := lit "x://[::1]:80?") (fuel := 600%nat) (steps := 800%nat); [fz|cbn; lia|cbn; lia|wit].
  - apply from_text with (s := lit "x://A" ++ [0xE9] ++ lit "/y") (fuel := 600%nat) (steps := 800%nat); [fz|cbn; lia|cbn; lia|wit].
  - apply from_text with (s := lit "x:/y") (fuel := 600%nat) (steps := 800%nat); [fz|cbn; lia|cbn; lia|wit].
Qed.

(** * C72 *)

(** The records that are written in a way that reads as something else; see [C69_lone_slash_refuted], [C69_ipv6_refuted], [C69_drive_refuted] and [C72_opaque_slash_refuted]. *)
Definition misread (u : url) : Prop :=
  (cannot_be_base u = false /\ uhost u = None /\ path u = [[]] /\ query u = None /\ fragment u = None) \/
  (exists a, uhost u = Some (HIpv6 a) /\ L_ip.index_ok (map (Z.eqb 0) a) = false) \/
  (scheme u = lit "file" /\ exists d, uhost u = Some (HDomain d) /\ is_windows_drive_letter d = true) \/
  (cannot_be_base u = true /\ path u = [[0x2F]] /\ (query u <> None \/ fragment u <> None)).

Lemma sound_proper idna u : sound idna u -> ~ misread u -> proper idna u.
Proof.
  intros ([[St Sm] Hc] & Hq & Hf & Hl) N. split; [exact St|]. split; [exact Sm|]. split; [exact Hq|]. split; [exact Hf|].
  assert (W : forall sp h, uhost u = Some h -> weak_host idna sp h -> good_host idna sp h).
  { intros sp h E H. destruct h as [|d|n|a|s|]; try exact H. destruct H as [H1 H2]. split; [exact H1|]. split; [exact H2|]. destruct (L_ip.index_ok (map (Z.eqb 0) a)) eqn:X; [reflexivity|]. exfalso. apply N. right. left. eauto. }
  destruct (cannot_be_base u) eqn:Cb.
  - destruct Hc as ((H1 & H2 & H3 & H4 & H5) & s & Hp & Ht & Hs). repeat (split; [assumption|]). exists s. split; [exact Hp|]. split; [exact Ht|]. split.
    + destruct Hs as [Hs| ->]; [now left|]. right. split; [reflexivity|]. split.
      * destruct (query u) eqn:Q; [|reflexivity]. exfalso. apply N. right. right. right. repeat split; auto. left. congruence.
      * destruct (fragment u) eqn:Q; [|reflexivity]. exfalso. apply N. right. right. right. repeat split; auto. right. congruence.
    + intros Q F. specialize (Hl eq_refl Q F). rewrite Hp in Hl. exact Hl.
  - destruct Hc as (Hfr & [Hp Hdr] & Hd). split; [exact Hp|]. split; [intros X; apply Hd; now left|]. unfold front in Hfr. destruct (uhost u) as [h|] eqn:Hh.
    + destruct (is_file u) eqn:F.
      * destruct Hfr as (H1 & H2 & H3 & H4). repeat (split; [assumption|]). split; [|apply Hdr; reflexivity]. destruct H4 as [H4|(H4 & d & H5 & H6)]; [now left|]. right. split; [now apply W|]. exists d. split; [exact H5|]. split; [exact H6|].
        destruct (is_windows_drive_letter d) eqn:X; [|reflexivity]. exfalso. apply N. right. right. left. split; [now apply eqs_true in F|]. exists d. split; [congruence|exact X].
      * destruct Hfr as (H1 & [H2 H3] & H4 & H5). split; [now apply W|]. repeat (split; [assumption|]). exact H5.
    + destruct Hfr as (H1 & H2 & H3 & H4). repeat (split; [assumption|]). split; [apply Hd; now right|]. intros X. destruct (query u) eqn:Q; [left; discriminate|]. destruct (fragment u) eqn:Fr; [right; discriminate|].
      exfalso. apply N. left. auto.
Qed.

(** Writing a URL that came out of the parser, and reading it with any base, gives the same URL: parsing a second time changes nothing. *)
Theorem C72_reparse_partial idna u base : to_ascii_like idna -> obtained idna u -> ~ misread u -> exists t, serialize_url u false = Some t /\
  forall fuel steps, (8 * List.length t + 8 < fuel)%nat -> (18 * (List.length t + 2) <= steps)%nat -> basic_parse idna fuel steps t base UTF_8 = Val (Some u).
Proof.
  intros I O N. pose proof (sound_proper idna u (obtained_sound idna u I O) N) as P. destruct (proper_written idna u P) as [t E]. exists t. split; [exact E|].
  intros fuel steps F S. exact (written_read idna u t base fuel steps P E (conj F S)).
Qed.
Print Assumptions C72_reparse_partial.
Example C72_reparse_ex :
  obtained lower_ascii (Url (lit "http") (lit "a") [] (Some (HDomain (lit "x.y"))) None [lit "c"; []] (Some (lit "q")) None false) /\
  ~ misread (Url (lit "http") (lit "a") [] (Some (HDomain (lit "x.y"))) None [lit "c"; []] (Some (lit "q")) None false) /\
  serialize_url (Url (lit "http") (lit "a") [] (Some (HDomain (lit "x.y"))) None [lit "c"; []] (Some (lit "q")) None false) false = Some (lit "http://a@x.y/c/?q") /\
  obtained lower_ascii (Url (lit "a") [] [] None None [[]; lit "b"] None None false) /\
  ~ misread (Url (lit "a") [] [] None None [[]; lit "b"] None None false) /\
  serialize_url (Url (lit "a") [] [] None None [[]; lit "b"] None None false) false = Some (lit "a:/.//b").
Proof.
  split; [apply from_text with (s := lit "http:\\a@X.y:080\c/./?q") (fuel := 600%nat) (steps := 800%nat); [fz|cbn; lia|cbn; lia|]|].
  { wit. }
  split; [intros [(X & Y & _)|[(a & X & _)|[(X & _)|(X & _)]]]; cbn in *; discriminate|]. split; [wit|].
  split; [apply from_text with (s := lit "a:/..//b") (fuel := 600%nat) (steps := 800%nat); [fz|cbn; lia|cbn; lia|wit]|].
  split; [intros [(X & Y & Z & _)|[(a & X & _)|[(X & _)|(X & _)]]]; cbn in *; discriminate|]. wit.
Qed.

(** The opaque path of "a:/" is kept when a fragment is resolved against it; what is written is then read as a path from the root. *)
Theorem C72_opaque_slash_refuted : exists u t v,
  obtained lower_ascii u /\ serialize_url u false = Some t /\ t = lit "a:/#f" /\
  basic_parse lower_ascii 600 800 t None UTF_8 = Val (Some v) /\ cannot_be_base u = true /\ cannot_be_base v = false.
Proof.
  exists (Url (lit "a") [] [] None None [lit "/"] None (Some (lit "f")) true), (lit "a:/#f"), (Url (lit "a") [] [] None None [[]] None (Some (lit "f")) false).
  split; [|wit]. apply from_reference with (b := Url (lit "a") [] [] None None [lit "/"] None None true) (s := lit "#f") (fuel := 600%nat) (steps := 800%nat); [|fz|cbn; lia|cbn; lia|wit].
  apply from_text with (s := lit "a:/") (fuel := 600%nat) (steps := 800%nat); [fz|cbn; lia|cbn; lia|wit].
Qed.
Print Assumptions C72_opaque_slash_refuted.

(** Each of the other records that are misread comes out of the parser too, so that parsing is not idempotent. *)
Theorem C72_reparse_refuted :
  (exists u t, obtained lower_ascii u /\ serialize_url u false = Some t /\ t = lit "a:/" /\ basic_parse lower_ascii 600 800 t None UTF_8 <> Val (Some u)) /\
  (exists u t, obtained lower_ascii u /\ serialize_url u false = Some t /\ scheme u = lit "http" /\ basic_parse lower_ascii 600 800 t None UTF_8 <> Val (Some u)) /\
  (exists u t, obtained lower_ascii u /\ serialize_url u false = Some t /\ t = lit "file://c|/x" /\ basic_parse lower_ascii 600 800 t None UTF_8 <> Val (Some u)).
Proof.
  split; [|split].
  - exists (Url (lit "a") [] [] None None [[]] None None false), (lit "a:/"). split; [|split; [reflexivity|split; [reflexivity|vm_compute; discriminate]]].
    apply from_text with (s := lit "a:/.") (fuel := 600%nat) (steps := 800%nat); [fz|cbn; lia|cbn; lia|wit].
  - exists (Url (lit "http") [] [] (Some (HIpv6 [0; 0; 1; 0; 2; 0; 0; 3])) None [[]] None None false). eexists. split; [|split; [vm_compute; reflexivity|split; [reflexivity|vm_compute; discriminate]]].
    apply from_text with (s := lit "http://[0:0:1:0:2:0:0:3]/") (fuel := 600%nat) (steps := 800%nat); [fz|cbn; lia|cbn; lia|wit].
  - exists (Url (lit "file") [] [] (Some (HDomain (lit "c|"))) None [lit "x"] None None false), (lit "file://c|/x"). split; [|split; [reflexivity|split; [reflexivity|vm_compute; discriminate]]].
    apply from_text with (s := lit "file://c%7C/x") (fuel := 600%nat) (steps := 800%nat); [fz|cbn; lia|cbn; lia|wit].
Qed.
Print Assumptions C72_reparse_refuted.
