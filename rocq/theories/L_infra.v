(** Specifications and lemmas for M_infra. *)
From Coq Require Import ZArith List Bool Lia ZifyBool.
From Verif Require Import M_unicode L_unicode M_infra.
Import ListNotations.
Open Scope Z_scope.

(** * Specifications on plain code point strings *)

Definition ws (c : Z) : Prop := c = 0x9 \/ c = 0xA \/ c = 0xC \/ c = 0xD \/ c = 0x20.

Fixpoint nl_spec (s : list Z) : list Z :=
  match s with
  | [] => []
  | 0xD :: (0xA :: r) => 0xA :: nl_spec r
  | 0xD :: r => 0xA :: nl_spec r
  | c :: r => c :: nl_spec r
  end.

(** The trimmed string: what remains between the outermost non-whitespace code points. *)
Definition Trimmed (s m : list Z) : Prop :=
  exists a b, s = a ++ m ++ b /\ Forall ws a /\ Forall ws b /\
    (m = [] \/ (exists c r, m = c :: r /\ ~ ws c) /\ (exists r c, m = r ++ [c] /\ ~ ws c)).

(** The maximal whitespace-free substrings, in order. *)
Inductive Words : list Z -> list (list Z) -> Prop :=
| Words_nil pre : Forall ws pre -> Words pre []
| Words_cons pre w rest l : Forall ws pre -> w <> [] -> Forall (fun c => ~ ws c) w ->
    (rest = [] \/ exists c r, rest = c :: r /\ ws c) -> Words rest l ->
    Words (pre ++ w ++ rest) (w :: l).

Fixpoint join (sep : Z) (l : list (list Z)) : list Z :=
  match l with
  | [] => []
  | [w] => w
  | w :: r => w ++ sep :: join sep r
  end.

(** Comma-separated pieces: a trailing empty piece is not counted. *)
Inductive Commas : list Z -> list (list Z) -> Prop :=
| Commas_nil : Commas [] []
| Commas_last p : p <> [] -> ~ In 0x2C p -> Commas p [p]
| Commas_cons p r l : ~ In 0x2C p -> Commas r l -> Commas (p ++ 0x2C :: r) (p :: l).

(** * Basic facts *)

Lemma ws_spec c : is_ascii_white_space c = true <-> ws c.
Proof. unfold is_ascii_white_space, ws. lia. Qed.
Lemma ws_spec_f c : is_ascii_white_space c = false <-> ~ ws c.
Proof. rewrite <- ws_spec. destruct (is_ascii_white_space c); intuition congruence. Qed.

Lemma ws_scalar c : ws c -> scalar c.
Proof. unfold ws, scalar. lia. Qed.

(** * Case mapping *)

Lemma lower_spec cp : cp_lower cp = if (0x41 <=? cp) && (cp <=? 0x5A) then cp + 0x20 else cp.
Proof. reflexivity. Qed.

Lemma fold_emit_map D f s : forall out,
  fold_cps (fun out cp => emit D out (f cp)) out s =
    match enc D (map f s) with Some v => Some (out ++ v) | None => None end.
Proof.
  induction s as [|cp s IH]; intros out; cbn [fold_cps enc map].
  - now rewrite app_nil_r.
  - unfold emit at 1. destruct (c_enc D (f cp)) as [u|]; [|reflexivity]. rewrite IH.
    destruct (enc D (map f s)); [|reflexivity]. now rewrite app_assoc.
Qed.

Lemma lowercase_enc C D s u : Forall (ok_cp C) s -> enc C s = Some u ->
  to_ascii_lowercase C D u = enc D (map cp_lower s).
Proof.
  intros Hs Hu. unfold to_ascii_lowercase. rewrite (cp_fold_enc C _ s Hs u _ _ Hu) by lia.
  rewrite fold_emit_map. now destruct (enc D (map cp_lower s)).
Qed.

Lemma uppercase_enc C D s u : Forall (ok_cp C) s -> enc C s = Some u ->
  to_ascii_uppercase C D u = enc D (map cp_upper s).
Proof.
  intros Hs Hu. unfold to_ascii_uppercase. rewrite (cp_fold_enc C _ s Hs u _ _ Hu) by lia.
  rewrite fold_emit_map. now destruct (enc D (map cp_upper s)).
Qed.

Lemma case_idem cp :
  cp_lower (cp_lower cp) = cp_lower cp /\ cp_upper (cp_upper cp) = cp_upper cp /\
  cp_lower (cp_upper cp) = cp_lower cp /\ cp_upper (cp_lower cp) = cp_upper cp.
Proof.
  unfold cp_lower, cp_upper, is_ascii_upper_alpha, is_ascii_lower_alpha.
  repeat split;
    repeat match goal with
      | |- context [if ?b then _ else _] => destruct b eqn:?
      | H : context [if ?b then _ else _] |- _ => destruct b eqn:?
      end; lia.
Qed.

Lemma case_changes cp :
  (cp_lower cp <> cp <-> 0x41 <= cp <= 0x5A) /\ (cp_upper cp <> cp <-> 0x61 <= cp <= 0x7A) /\
  (0x41 <= cp <= 0x5A -> cp_lower cp = cp + 0x20) /\ (0x61 <= cp <= 0x7A -> cp_upper cp = cp - 0x20).
Proof.
  unfold cp_lower, cp_upper, is_ascii_upper_alpha, is_ascii_lower_alpha.
  repeat split;
    repeat match goal with
      | |- context [if ?b then _ else _] => destruct b eqn:?
      | H : context [if ?b then _ else _] |- _ => destruct b eqn:?
      end; lia.
Qed.

Lemma ci_match_enc C1 C2 s : Forall (ok_cp C1) s -> forall t u v fuel, Forall (ok_cp C2) t ->
  enc C1 s = Some u -> enc C2 t = Some v -> (length u <= fuel)%nat ->
  ci_match fuel C1 C2 u v = Some (if list_eq_dec Z.eq_dec (map cp_lower s) (map cp_lower t) then true else false).
Proof.
  induction 1 as [|cp s Hcp Hs IH]; intros t u v fuel Ht Hu Hv Hf.
  - cbn in Hu. injection Hu as <-. destruct Ht as [|c t Hc Ht].
    + cbn in Hv. injection Hv as <-. destruct fuel; reflexivity.
    + destruct (dec_enc_cons C2 c t v Hc Hv) as (w & _ & _ & Hne & _).
      destruct v; [congruence|]. destruct fuel; reflexivity.
  - destruct (dec_enc_cons C1 cp s u Hcp Hu) as (u' & Hu' & Hd & Hne & Hlt).
    destruct u as [|x u]; [congruence|]. destruct fuel as [|fuel]; [cbn in Hf; lia|].
    destruct Ht as [|c t Hc Ht].
    + cbn in Hv. injection Hv as <-. reflexivity.
    + destruct (dec_enc_cons C2 c t v Hc Hv) as (v' & Hv' & Hd2 & Hne2 & _).
      destruct v as [|y v]; [congruence|]. cbn [ci_match]. rewrite Hd, Hd2.
      destruct (Z.eqb_spec (cp_lower cp) (cp_lower c)) as [E|E].
      * rewrite (IH t u' v'); auto; [|lia].
        destruct (list_eq_dec Z.eq_dec (map cp_lower s) (map cp_lower t)) as [E2|E2],
          (list_eq_dec Z.eq_dec (map cp_lower (cp :: s)) (map cp_lower (c :: t))) as [E3|E3]; auto.
        -- cbn in E3. congruence.
        -- cbn in E3. congruence.
      * destruct (list_eq_dec Z.eq_dec (map cp_lower (cp :: s)) (map cp_lower (c :: t))) as [E3|E3]; auto.
        cbn in E3. congruence.
Qed.

Lemma ci_match_scalar C1 C2 s t : is_utf C1 -> is_utf C2 -> Forall scalar s -> Forall scalar t ->
  exists u v b, enc C1 s = Some u /\ enc C2 t = Some v /\
    is_ascii_case_insensitive_match C1 C2 u v = Some b /\ (b = true <-> map cp_lower s = map cp_lower t).
Proof.
  intros H1 H2 Hs Ht.
  destruct (enc_ok C1 s (scalar_ok C1 s H1 Hs)) as [u Hu].
  destruct (enc_ok C2 t (scalar_ok C2 t H2 Ht)) as [v Hv].
  exists u, v, (if list_eq_dec Z.eq_dec (map cp_lower s) (map cp_lower t) then true else false).
  split; [assumption|]. split; [assumption|]. split; [|split].
  - unfold is_ascii_case_insensitive_match. apply ci_match_enc; auto using scalar_ok.
  - destruct (list_eq_dec Z.eq_dec (map cp_lower s) (map cp_lower t)); [auto|discriminate].
  - intros E. destruct (list_eq_dec Z.eq_dec (map cp_lower s) (map cp_lower t)); [auto|contradiction].
Qed.

Lemma case_scalar C D s : is_utf C -> is_utf D -> Forall scalar s ->
  exists u, enc C s = Some u /\
    to_ascii_lowercase C D u = enc D (map cp_lower s) /\ to_ascii_uppercase C D u = enc D (map cp_upper s).
Proof.
  intros HC HD Hs. destruct (enc_ok C s (scalar_ok C s HC Hs)) as [u Hu]. exists u.
  split; [assumption|]. split; [apply lowercase_enc|apply uppercase_enc]; auto using scalar_ok.
Qed.

Lemma byte_match_spec a b : is_byte_case_insensitive_match a b = true <-> map byte_lower a = map byte_lower b.
Proof.
  unfold is_byte_case_insensitive_match, to_byte_lowercase.
  destruct (list_eq_dec Z.eq_dec (map byte_lower a) (map byte_lower b)); split; congruence.
Qed.

Lemma isomorphic_roundtrip s : Forall (fun b => 0 <= b < 256) s ->
  isomorphic_encode (isomorphic_decode s) = Some s /\ isomorphic_decode s = s.
Proof.
  induction 1 as [|b s Hb _ [IH1 IH2]]; [now split|]. cbn [isomorphic_decode map isomorphic_encode].
  fold (isomorphic_decode s). rewrite IH1, IH2, Z.mod_small by assumption.
  destruct (Z.leb_spec b 0xFF); [|lia]. now rewrite Z.mod_small by assumption.
Qed.

(** * Newlines *)

Lemma strip_newlines_enc C D s u : Forall (ok_cp C) s -> enc C s = Some u ->
  strip_newlines C D u = enc D (filter (fun c => negb ((c =? 0xA) || (c =? 0xD))) s).
Proof.
  intros Hs Hu. unfold strip_newlines. rewrite (cp_fold_enc C _ s Hs u _ _ Hu) by lia.
  enough (G : forall out, fold_cps (fun out cp => if negb (cp =? 10) && negb (cp =? 13) then emit D out cp else Some out) out s
     = match enc D (filter (fun c => negb ((c =? 10) || (c =? 13))) s) with Some v => Some (out ++ v) | None => None end).
  { rewrite G. now destruct (enc D _). }
  clear. induction s as [|cp s IH]; intros out; cbn [fold_cps filter enc].
  - now rewrite app_nil_r.
  - rewrite negb_orb. destruct (negb (cp =? 10) && negb (cp =? 13)).
    + unfold emit. cbn [enc]. destruct (c_enc D cp); [|reflexivity]. rewrite IH.
      destruct (enc D (filter _ s)); [|reflexivity]. now rewrite app_assoc.
    + apply IH.
Qed.

Lemma nl_spec_cons c r : c <> 0xD -> nl_spec (c :: r) = c :: nl_spec r.
Proof.
  intros H. destruct c as [|p|p]; try reflexivity.
  do 4 (destruct p as [p|p|]; try reflexivity). now elim H.
Qed.

Lemma nl_spec_cr r : nl_spec (0xD :: r) = 0xA :: nl_spec (match r with 0xA :: q => q | _ => r end).
Proof.
  cbn [nl_spec]. destruct r as [|c r]; [reflexivity|]. destruct c as [|p|p]; try reflexivity.
  do 4 (destruct p as [p|p|]; try reflexivity).
Qed.

(** What the loop computes: a pending CR at the end is lost. *)
Lemma nn_fold D s : Forall (fun c => c mod c_unit D = c) s -> forall cr out,
  exists cr' v, fold_cps (nn_body D) (cr, out) s = Some (cr', out ++ v) /\
    nl_spec ((if cr then [0xD] else []) ++ s) = v ++ (if cr' then [0xA] else []) /\
    (cr' = true <-> (if cr then s = [] else False) \/ exists r, s = r ++ [0xD]).
Proof.
  induction 1 as [|c s Hc Hs IH]; intros cr out.
  - exists cr, []. cbn [fold_cps]. rewrite !app_nil_r. repeat split; auto.
    + destruct cr; reflexivity.
    + destruct cr; [now left|discriminate].
    + destruct cr; [auto|]. intros [[]|([|? ?] & Hr)]; discriminate.
  - cbn [fold_cps nn_body].
    assert (Hlast : forall (r0 : list Z) x, (exists r, x :: s = r ++ [0xD]) <-> (x = 0xD /\ s = []) \/ exists r, s = r ++ [0xD]).
    { intros _ x. split.
      - intros ([|y r] & E); cbn in E; injection E as -> ->; [left; auto|right; eauto].
      - intros [[-> ->]|(r & ->)]; [now exists []|now exists (x :: r)]. }
    specialize (Hlast []).
    destruct cr; cbn [app].
    + destruct (Z.eqb_spec c 0xD) as [->|H1].
      { destruct (IH true (out ++ [0xA])) as (cr' & v & E1 & E2 & E3).
        exists cr', (0xA :: v). rewrite E1, <- app_assoc. split; [reflexivity|]. split.
        - rewrite nl_spec_cr. cbn [app] in E2. rewrite E2. reflexivity.
        - rewrite E3, Hlast. intuition (try discriminate). }
      destruct (Z.eqb_spec c 0xA) as [->|H2].
      { destruct (IH false (out ++ [0xA])) as (cr' & v & E1 & E2 & E3).
        exists cr', (0xA :: v). rewrite E1, <- app_assoc. split; [reflexivity|]. split.
        - rewrite nl_spec_cr. cbn [app] in E2. rewrite E2. reflexivity.
        - rewrite E3, Hlast. intuition (try discriminate). }
      destruct (IH false (out ++ [0xA; c mod c_unit D])) as (cr' & v & E1 & E2 & E3).
      exists cr', (0xA :: c :: v). rewrite E1, <- app_assoc, Hc. split; [reflexivity|]. split.
      * rewrite nl_spec_cr. cbn [app] in E2.
        replace (match c :: s with 10 :: q => q | _ => c :: s end) with (c :: s).
        -- rewrite nl_spec_cons, E2 by assumption. reflexivity.
        -- destruct c as [|p|p]; try reflexivity. do 4 (destruct p as [p|p|]; try reflexivity). now elim H2.
      * rewrite E3, Hlast. intuition (try discriminate).
    + destruct (Z.eqb_spec c 0xD) as [->|H1].
      { destruct (IH true out) as (cr' & v & E1 & E2 & E3).
        exists cr', v. rewrite E1. split; [reflexivity|]. split; [exact E2|].
        rewrite E3, Hlast. intuition (try discriminate). }
      destruct (Z.eqb_spec c 0xA) as [->|H2].
      { destruct (IH false (out ++ [0xA])) as (cr' & v & E1 & E2 & E3).
        exists cr', (0xA :: v). rewrite E1, <- app_assoc. split; [reflexivity|]. split.
        - rewrite nl_spec_cons by assumption. cbn [app] in E2. rewrite E2. reflexivity.
        - rewrite E3, Hlast. intuition (try discriminate). }
      destruct (IH false (out ++ [c mod c_unit D])) as (cr' & v & E1 & E2 & E3).
      exists cr', (c :: v). rewrite E1, <- app_assoc, Hc. split; [reflexivity|]. split.
      * rewrite nl_spec_cons by assumption. cbn [app] in E2. rewrite E2. reflexivity.
      * rewrite E3, Hlast. intuition (try discriminate).
Qed.

Lemma normalize_enc C D s u : Forall (ok_cp C) s -> enc C s = Some u ->
  Forall (fun c => c mod c_unit D = c) s ->
  exists v, normalize_newlines C D u = Some v /\
    ((~ exists r, s = r ++ [0xD]) -> v = nl_spec s) /\
    ((exists r, s = r ++ [0xD]) -> nl_spec s = v ++ [0xA]).
Proof.
  intros Hs Hu Hd. unfold normalize_newlines. rewrite (cp_fold_enc C _ s Hs u _ _ Hu) by lia.
  destruct (nn_fold D s Hd false []) as (cr' & v & E1 & E2 & E3). rewrite E1. cbn [app] in *.
  exists v. split; [reflexivity|]. split.
  - intros Hn. destruct cr'; [exfalso; apply Hn; destruct (proj1 E3 eq_refl) as [[]|?]; assumption|].
    now rewrite app_nil_r in E2.
  - intros He. assert (cr' = true) as -> by (apply E3; auto). exact E2.
Qed.

Lemma nl_spec_no_cr s : ~ In 0xD (nl_spec s).
Proof.
  assert (G : forall n s, (length s <= n)%nat -> ~ In 0xD (nl_spec s)).
  { induction n as [|n IH]; intros [|c r] H; cbn [length] in H; try lia; try (cbn; tauto).
    destruct (Z.eq_dec c 0xD) as [->|Hc].
    - rewrite nl_spec_cr. cbn [In]. intros [E|E]; [discriminate|]. revert E.
      destruct r as [|d r]; [cbn; tauto|].
      destruct (Z.eq_dec d 0xA) as [->|Hd].
      + apply IH. cbn in *. lia.
      + replace (match d :: r with 10 :: q => q | _ => d :: r end) with (d :: r).
        * apply IH. cbn in *. lia.
        * destruct d as [|p|p]; try reflexivity. do 4 (destruct p as [p|p|]; try reflexivity). now elim Hd.
    - rewrite nl_spec_cons by assumption. cbn [In]. intros [E|E]; [congruence|]. revert E. apply IH. lia. }
  apply (G (length s)). lia.
Qed.

(** * Whitespace *)

Lemma find_not_spec s : exists a r, s = a ++ r /\ Forall ws a /\ length a = find_not is_ascii_white_space s /\
  (r = [] \/ exists c q, r = c :: q /\ ~ ws c).
Proof.
  induction s as [|c s IH]; [now exists [], []; auto|]. cbn [find_not].
  destruct (is_ascii_white_space c) eqn:E.
  - destruct IH as (a & r & -> & H1 & H2 & H3). exists (c :: a), r. repeat split; cbn; auto.
    constructor; auto. now apply ws_spec.
  - exists [], (c :: s). repeat split; auto. right. exists c, s. split; auto. now apply ws_spec_f.
Qed.

Lemma Trimmed_ex s : exists m, Trimmed s m.
Proof.
  destruct (find_not_spec s) as (a & r & -> & Ha & _ & Hr).
  destruct (find_not_spec (rev r)) as (b & m & Hm & Hb & _ & Hm').
  exists (rev m). exists a, (rev b). apply (f_equal (@rev Z)) in Hm. rewrite rev_involutive, rev_app_distr in Hm.
  subst r. split; [reflexivity|]. split; [assumption|]. split; [now apply Forall_rev|].
  destruct Hm' as [->|(c & q & -> & Hc)]; [now left|]. right. split.
  - destruct Hr as [Hr|(x & y & Hr & Hx)].
    + cbn in Hr. rewrite <- app_assoc in Hr. destruct (rev q); discriminate.
    + cbn in *. rewrite <- app_assoc in Hr. destruct (rev q) as [|z w] eqn:Eq; cbn in *.
      * exists c, []. split; auto.
      * injection Hr as -> _. eauto.
  - exists (rev q), c. auto.
Qed.

Lemma Forall_ws_app_inv (a b c d : list Z) : Forall ws a -> Forall ws c ->
  (b = [] \/ exists x y, b = x :: y /\ ~ ws x) -> (d = [] \/ exists x y, d = x :: y /\ ~ ws x) ->
  a ++ b = c ++ d -> a = c /\ b = d.
Proof.
  intros Ha. revert c. induction Ha as [|x a Hx Ha IH]; intros c Hc Hb Hd E; cbn in E.
  - destruct Hc as [|y c Hy Hc]; [auto|]. cbn in E. subst b. destruct Hb as [Hb|(u & v & Hb & Hu)]; [discriminate|].
    injection Hb as -> _. contradiction.
  - destruct Hc as [|y c Hy Hc]; cbn in E.
    + subst d. destruct Hd as [Hd|(u & v & Hd & Hu)]; [discriminate|]. injection Hd as -> _. contradiction.
    + injection E as -> E. destruct (IH _ Hc Hb Hd E) as [-> ->]. auto.
Qed.

Lemma Trimmed_fun s m1 m2 : Trimmed s m1 -> Trimmed s m2 -> m1 = m2.
Proof.
  intros (a1 & b1 & E1 & Ha1 & Hb1 & H1) (a2 & b2 & E2 & Ha2 & Hb2 & H2).
  assert (Hall : forall m a b, m <> [] -> (m = [] \/ (exists c r, m = c :: r /\ ~ ws c) /\ (exists r c, m = r ++ [c] /\ ~ ws c)) ->
     ~ Forall ws (a ++ m ++ b)).
  { intros m a b Hne [->|[(c & r & -> & Hc) _]]; [congruence|]. intros HF.
    apply Forall_app in HF. destruct HF as [_ HF]. inversion HF; contradiction. }
  destruct m1 as [|c1 r1].
  - destruct m2 as [|c2 r2]; [reflexivity|]. exfalso. apply (Hall (c2 :: r2) a2 b2); auto; [discriminate|].
    rewrite <- E2, E1. cbn. apply Forall_app; auto.
  - destruct m2 as [|c2 r2].
    { exfalso. apply (Hall (c1 :: r1) a1 b1); auto; [discriminate|].
      rewrite <- E1, E2. cbn. apply Forall_app; auto. }
    destruct H1 as [H1|[(x & y & H1 & Hx) (p & q & H1' & Hq)]]; [discriminate|].
    destruct H2 as [H2|[(x2 & y2 & H2 & Hx2) (p2 & q2 & H2' & Hq2)]]; [discriminate|].
    rewrite E1 in E2.
    assert (E3 : (c1 :: r1) ++ b1 = (c2 :: r2) ++ b2).
    { apply (Forall_ws_app_inv a1 _ a2 _); auto.
      - right. rewrite H1. cbn. eauto.
      - right. rewrite H2. cbn. eauto. }
    rewrite H1', H2' in *. clear - E3 Hq Hq2 Hb1 Hb2.
    apply (f_equal (@rev Z)) in E3. rewrite !rev_app_distr in E3. cbn in E3.
    assert (G : rev b1 = rev b2 /\ q :: rev p = q2 :: rev p2).
    { apply Forall_ws_app_inv; auto using Forall_rev; right; eauto. }
    destruct G as [_ G]. injection G as -> G. apply (f_equal (@rev Z)) in G. rewrite !rev_involutive in G. now subst.
Qed.

Lemma strip_emit_ok D tmp : forall mid left right out fuel,
  (right = left + length mid)%nat -> firstn (length mid) (skipn left tmp) = mid -> (length mid < fuel)%nat ->
  strip_emit fuel D tmp left right out = match enc D mid with Some v => Some (out ++ v) | None => None end.
Proof.
  induction mid as [|c mid IH]; intros left right out fuel -> H Hf; destruct fuel as [|fuel]; cbn [length] in *; try lia.
  - cbn [strip_emit]. rewrite Nat.add_0_r, Nat.eqb_refl. cbn. now rewrite app_nil_r.
  - cbn [strip_emit]. destruct (Nat.eqb_spec left (left + S (length mid))); [lia|].
    destruct (skipn left tmp) as [|x r] eqn:E; [discriminate|]. cbn in H. injection H as -> H.
    assert (Hn : nth_error tmp left = Some c).
    { clear - E. revert left E. induction tmp as [|y tmp IH]; intros [|left] E; cbn in *; try discriminate; auto.
      now injection E as -> _. }
    rewrite Hn. unfold emit. cbn [enc]. destruct (c_enc D c) as [u|]; [|reflexivity].
    rewrite IH; try lia.
    + destruct (enc D mid); [|reflexivity]. now rewrite app_assoc.
    + replace (skipn (S left) tmp) with r; [assumption|].
      clear - E. revert left E. induction tmp as [|y tmp IH]; intros [|left] E; cbn in *; try discriminate; auto.
      now injection E.
Qed.

Lemma fold_collect s : forall t, fold_cps (fun t cp => Some (t ++ [cp])) t s = Some (t ++ s).
Proof.
  induction s as [|c s IH]; intros t; cbn [fold_cps]; [now rewrite app_nil_r|].
  rewrite IH, <- app_assoc. reflexivity.
Qed.

Lemma find_not_app a r : Forall ws a -> (r = [] \/ exists c q, r = c :: q /\ ~ ws c) ->
  find_not is_ascii_white_space (a ++ r) = length a.
Proof.
  induction 1 as [|c a Hc Ha IH]; intros Hr; cbn [app find_not length].
  - destruct Hr as [->|(c & q & -> & Hc)]; [reflexivity|]. cbn. apply ws_spec_f in Hc. now rewrite Hc.
  - apply ws_spec in Hc. rewrite Hc. now rewrite IH.
Qed.

(** Stripping, when there is something left or the input is empty. *)
Lemma strip_ws_enc C D s u m : Forall (ok_cp C) s -> enc C s = Some u -> Trimmed s m ->
  (s = [] \/ m <> []) -> strip_ws C D u = enc D m.
Proof.
  intros Hs Hu (a & b & E & Ha & Hb & Hm) Hne. unfold strip_ws.
  rewrite (cp_fold_enc C _ s Hs u _ _ Hu) by lia. rewrite fold_collect. cbn [app].
  destruct s as [|c0 s0].
  - symmetry in E. apply app_eq_nil in E. destruct E as [_ E]. apply app_eq_nil in E. destruct E as [-> _]. reflexivity.
  - destruct Hne as [Hne|Hne]; [discriminate|].
    destruct Hm as [Hm|[(x & y & Hm1 & Hx) (p & q & Hm2 & Hq)]]; [contradiction|].
    set (s := c0 :: s0) in *. clearbody s. subst s.
    rewrite (find_not_app a (m ++ b)) by (auto; right; rewrite Hm1; cbn; eauto).
    replace (rev (a ++ m ++ b)) with (rev b ++ (rev m ++ rev a)).
    2:{ rewrite !rev_app_distr. now rewrite app_assoc. }
    rewrite (find_not_app (rev b)).
    2:{ now apply Forall_rev. }
    2:{ right. rewrite Hm2, rev_app_distr. cbn. eauto. }
    rewrite (strip_emit_ok D (a ++ m ++ b) m).
    + now destruct (enc D m).
    + rewrite rev_length, !app_length. lia.
    + rewrite skipn_app, Nat.sub_diag, skipn_all. cbn [app skipn].
      rewrite firstn_app, Nat.sub_diag, firstn_all, firstn_O. apply app_nil_r.
    + rewrite !app_length. lia.
Qed.

(** The all-whitespace case reads past the end. *)
Lemma strip_emit_ub D tmp : forall fuel left right out, (length tmp <= left)%nat -> (right < left)%nat ->
  strip_emit fuel D tmp left right out = None.
Proof.
  intros fuel left right out H1 H2. destruct fuel; cbn [strip_emit]; destruct (Nat.eqb_spec left right); try lia; auto.
  assert (E : nth_error tmp left = None) by (apply nth_error_None; lia). now rewrite E.
Qed.

Lemma strip_ws_ub C D s u : Forall (ok_cp C) s -> enc C s = Some u -> s <> [] -> Forall ws s ->
  strip_ws C D u = None.
Proof.
  intros Hs Hu Hne Hw. unfold strip_ws.
  rewrite (cp_fold_enc C _ s Hs u _ _ Hu) by lia. rewrite fold_collect. cbn [app].
  pose proof (find_not_app s [] Hw (or_introl eq_refl)) as F1. rewrite app_nil_r in F1.
  pose proof (find_not_app (rev s) [] (Forall_rev Hw) (or_introl eq_refl)) as F2. rewrite app_nil_r in F2.
  rewrite F1, F2, rev_length. apply strip_emit_ub; destruct s; cbn in *; try congruence; lia.
Qed.

Lemma Trimmed_nil_ws s : Trimmed s [] <-> Forall ws s.
Proof.
  split.
  - intros (a & b & -> & Ha & Hb & _). apply Forall_app; auto.
  - intros H. exists s, []. rewrite !app_nil_r. auto.
Qed.

Lemma Trimmed_idem s m : Trimmed s m -> Trimmed m m.
Proof. intros (a & b & _ & _ & _ & Hm). exists [], []. rewrite app_nil_r. auto. Qed.

(** * Words *)

Lemma span_word s : exists w r, s = w ++ r /\ Forall (fun c => ~ ws c) w /\ (r = [] \/ exists c q, r = c :: q /\ ws c).
Proof.
  induction s as [|c s IH]; [now exists [], []; auto|].
  destruct (is_ascii_white_space c) eqn:E.
  - exists [], (c :: s). repeat split; auto. right. exists c, s. split; auto. now apply ws_spec.
  - destruct IH as (w & r & -> & H1 & H2). exists (c :: w), r. repeat split; auto.
    constructor; auto. now apply ws_spec_f.
Qed.

Lemma Words_ex s : exists l, Words s l.
Proof.
  assert (G : forall n s, (length s <= n)%nat -> exists l, Words s l).
  { induction n as [|n IH]; intros t Ht.
    - destruct t; [|cbn in Ht; lia]. exists []. now constructor.
    - destruct (find_not_spec t) as (a & r & -> & Ha & _ & Hr).
      destruct Hr as [->|(c & q & -> & Hc)].
      + exists []. rewrite app_nil_r. now constructor.
      + destruct (span_word (c :: q)) as (w & r & E & Hw & Hr).
        destruct w as [|x w].
        * cbn in E. subst r. destruct Hr as [Hr|(d & p & Hr & Hd)]; [discriminate|]. injection Hr as -> _. contradiction.
        * destruct (IH r) as [l Hl].
          { rewrite E in Ht. rewrite !app_length in Ht. cbn in Ht. lia. }
          exists ((x :: w) :: l). rewrite E. constructor; auto. discriminate. }
  apply (G (length s)). lia.
Qed.

Lemma nws_app_inv (a b c d : list Z) : Forall (fun x => ~ ws x) a -> Forall (fun x => ~ ws x) c ->
  (b = [] \/ exists x y, b = x :: y /\ ws x) -> (d = [] \/ exists x y, d = x :: y /\ ws x) ->
  a ++ b = c ++ d -> a = c /\ b = d.
Proof.
  intros Ha. revert c. induction Ha as [|x a Hx Ha IH]; intros c Hc Hb Hd E; cbn in E.
  - destruct Hc as [|y c Hy Hc]; [auto|]. cbn in E. subst b. destruct Hb as [Hb|(u & v & Hb & Hu)]; [discriminate|].
    injection Hb as -> _. contradiction.
  - destruct Hc as [|y c Hy Hc]; cbn in E.
    + subst d. destruct Hd as [Hd|(u & v & Hd & Hu)]; [discriminate|]. injection Hd as -> _. contradiction.
    + injection E as -> E. destruct (IH _ Hc Hb Hd E) as [-> ->]. auto.
Qed.

Lemma Words_fun s l1 : Words s l1 -> forall l2, Words s l2 -> l1 = l2.
Proof.
  induction 1 as [pre Hpre|pre w rest l Hpre Hw Hnw Hrest HW IH]; intros l2 H2.
  - inversion H2 as [|pre2 w2 rest2 l2' Hpre2 Hw2 Hnw2 Hrest2 HW2]; subst; [reflexivity|].
    exfalso. apply Forall_app in Hpre. destruct Hpre as [_ Hp]. destruct w2 as [|c w2]; [congruence|].
    inversion Hp; inversion Hnw2; contradiction.
  - inversion H2 as [pre2 Hpre2 E|pre2 w2 rest2 l2' Hpre2 Hw2 Hnw2 Hrest2 HW2 E]; subst.
    + exfalso. apply Forall_app in Hpre2. destruct Hpre2 as [_ Hp]. destruct w as [|c w]; [congruence|].
      inversion Hp; inversion Hnw; contradiction.
    + assert (G : pre2 = pre /\ w2 ++ rest2 = w ++ rest).
      { apply Forall_ws_app_inv; auto; right.
        - destruct w2; [congruence|]. inversion Hnw2; cbn; eauto.
        - destruct w; [congruence|]. inversion Hnw; cbn; eauto. }
      destruct G as [-> G].
      assert (G2 : w2 = w /\ rest2 = rest) by (apply nws_app_inv; auto).
      destruct G2 as [-> ->]. f_equal. now apply IH.
Qed.

Lemma collect_enc C D cond s : Forall (ok_cp C) s -> forall u fuel out, enc C s = Some u -> (length u <= fuel)%nat ->
  forall a b, s = a ++ b -> Forall (fun c => cond c = true) a -> (b = [] \/ exists c q, b = c :: q /\ cond c = false) ->
  collect fuel C D cond u out =
    match enc D a, enc C b with Some v, Some r => Some (out ++ v, r) | _, _ => None end.
Proof.
  induction 1 as [|cp s Hcp Hs IH]; intros u fuel out Hu Hf a b E Ha Hb.
  - symmetry in E. apply app_eq_nil in E. destruct E as [-> ->]. cbn in Hu. injection Hu as <-.
    destruct fuel; cbn; now rewrite app_nil_r.
  - destruct (dec_enc_cons C cp s u Hcp Hu) as (v & Hv & Hd & Hne & Hlt).
    destruct u as [|x u]; [congruence|]. destruct fuel as [|fuel]; [lia|].
    cbn [collect]. rewrite Hd. destruct a as [|y a].
    + cbn in E. subst b. destruct Hb as [Hb|(c & q & Hb & Hc)]; [discriminate|]. injection Hb as -> ->.
      rewrite Hc. cbn [enc] in *. rewrite Hu. now rewrite app_nil_r.
    + cbn in E. injection E as -> E. inversion Ha as [|? ? Hy Ha']; subst. rewrite Hy.
      unfold emit. cbn [enc]. destruct (c_enc D y) as [w|]; [|reflexivity].
      rewrite (IH v fuel (out ++ w) Hv ltac:(lia) a b eq_refl Ha' Hb).
      destruct (enc D a), (enc C b); try reflexivity. now rewrite app_assoc.
Qed.

Lemma skip_ws_enc C s : Forall (ok_cp C) s -> forall u fuel, enc C s = Some u -> (length u <= fuel)%nat ->
  forall a b, s = a ++ b -> Forall ws a -> (b = [] \/ exists c q, b = c :: q /\ ~ ws c) ->
  skip_ws_loop fuel C u = enc C b.
Proof.
  induction 1 as [|cp s Hcp Hs IH]; intros u fuel Hu Hf a b E Ha Hb.
  - symmetry in E. apply app_eq_nil in E. destruct E as [-> ->]. cbn in Hu. injection Hu as <-.
    now destruct fuel.
  - destruct (dec_enc_cons C cp s u Hcp Hu) as (v & Hv & Hd & Hne & Hlt).
    destruct u as [|x u]; [congruence|]. destruct fuel as [|fuel]; [lia|].
    cbn [skip_ws_loop]. rewrite Hd. destruct a as [|y a].
    + cbn in E. subst b. destruct Hb as [Hb|(c & q & Hb & Hc)]; [discriminate|]. injection Hb as -> ->.
      apply ws_spec_f in Hc. rewrite Hc. now rewrite Hu.
    + cbn in E. injection E as -> E. inversion Ha as [|? ? Hy Ha']; subst. apply ws_spec in Hy. rewrite Hy.
      exact (IH v fuel Hv ltac:(lia) a b eq_refl Ha' Hb).
Qed.

Fixpoint enc_all (C : codec) (l : list (list Z)) : option (list (list Z)) :=
  match l with
  | [] => Some []
  | w :: r => match enc C w, enc_all C r with Some u, Some v => Some (u :: v) | _, _ => None end
  end.

Lemma enc_ok_ex C s : Forall (ok_cp C) s -> exists u, enc C s = Some u.
Proof. apply enc_ok. Qed.

Lemma split_ws_loop_enc C l : forall s, Forall (ok_cp C) s -> Words s l -> (s = [] \/ exists c q, s = c :: q /\ ~ ws c) ->
  forall u fuel out, enc C s = Some u -> (length u <= fuel)%nat ->
  split_ws_loop fuel C u out = match enc_all C l with Some v => Some (out ++ v) | None => None end.
Proof.
  induction l as [|w l IH]; intros s Hs HW Hst u fuel out Hu Hf.
  - inversion HW as [pre Hpre|]; subst. destruct Hst as [->|(c & q & -> & Hc)].
    + cbn in Hu. injection Hu as <-. destruct fuel; cbn; now rewrite app_nil_r.
    + inversion Hpre; contradiction.
  - inversion HW as [|pre w' rest l' Hpre Hw Hnw Hrest HW']; subst.
    assert (pre = []) as ->.
    { destruct pre as [|p pre]; [reflexivity|]. destruct Hst as [Hst|(c & q & Hst & Hc)]; [discriminate|].
      cbn in Hst. injection Hst as -> _. inversion Hpre; contradiction. }
    cbn [app] in *. clear Hst.
    destruct w as [|c w]; [congruence|].
    assert (Hs' := Hs). apply Forall_app in Hs'. destruct Hs' as [Hsw Hsr].
    destruct (enc_ok C (c :: w) Hsw) as [uw Huw]. destruct (enc_ok C rest Hsr) as [ur Hur].
    assert (Hu' := Hu). rewrite enc_app, Huw, Hur in Hu'. injection Hu' as <-.
    pose proof (enc_length C (c :: w) uw Hsw Huw) as Hlw. cbn in Hlw.
    destruct fuel as [|fuel]; [rewrite app_length in Hf; lia|].
    cbn [split_ws_loop]. destruct (uw ++ ur) as [|x z] eqn:Ez.
    { apply (f_equal (@length Z)) in Ez. rewrite app_length in Ez. cbn in Ez. lia. }
    rewrite <- Ez in *. clear x z Ez.
    unfold collect_sequence.
    rewrite (collect_enc C C _ ((c :: w) ++ rest) Hs (uw ++ ur) (length (uw ++ ur)) [] Hu ltac:(lia) (c :: w) rest eq_refl).
    2:{ revert Hnw. apply Forall_impl. intros y Hy. apply ws_spec_f in Hy. now rewrite Hy. }
    2:{ destruct Hrest as [->|(d & q & -> & Hd)]; [now left|right]. exists d, q. split; auto. apply ws_spec in Hd. now rewrite Hd. }
    cbn [enc_all]. rewrite Huw, Hur. cbn [app].
    destruct (find_not_spec rest) as (a & b & -> & Ha & _ & Hb).
    unfold skip_ws. rewrite (skip_ws_enc C (a ++ b) Hsr ur _ Hur (le_n _) a b eq_refl Ha Hb).
    assert (Hsb := Hsr). apply Forall_app in Hsb. destruct Hsb as [Hsa Hsb].
    destruct (enc_ok C b Hsb) as [ub Hub]. rewrite Hub.
    assert (HWb : Words b l).
    { clear - HW' Ha Hb. inversion HW' as [pre Hpre E|pre w' rest' l' Hpre Hw Hnw Hrest HW E]; subst.
      - apply Forall_app in Hpre. now constructor.
      - assert (G : pre = a /\ w' ++ rest' = b).
        { apply Forall_ws_app_inv; auto. right. destruct w'; [congruence|]. inversion Hnw; cbn; eauto. }
        destruct G as [-> <-]. apply (Words_cons [] w' rest' l'); auto. }
    rewrite (IH b Hsb HWb Hb ub fuel (out ++ [uw]) Hub).
    + destruct (enc_all C l); [|reflexivity]. now rewrite <- app_assoc.
    + destruct (enc_ok C a Hsa) as [ua Hua]. rewrite enc_app, Hua, Hub in Hur. injection Hur as <-.
      rewrite !app_length in Hf. lia.
Qed.

Lemma split_on_ws_enc C s u l : Forall (ok_cp C) s -> enc C s = Some u -> Words s l ->
  split_on_ws C u = enc_all C l.
Proof.
  intros Hs Hu HW. unfold split_on_ws, skip_ws.
  destruct (find_not_spec s) as (a & b & -> & Ha & _ & Hb).
  rewrite (skip_ws_enc C (a ++ b) Hs u _ Hu (le_n _) a b eq_refl Ha Hb).
  assert (Hsb := Hs). apply Forall_app in Hsb. destruct Hsb as [Hsa Hsb].
  destruct (enc_ok C b Hsb) as [ub Hub]. rewrite Hub.
  assert (HWb : Words b l).
  { clear - HW Ha Hb. inversion HW as [pre Hpre E|pre w' rest' l' Hpre Hw Hnw Hrest HW' E]; subst.
    - apply Forall_app in Hpre. now constructor.
    - assert (G : pre = a /\ w' ++ rest' = b).
      { apply Forall_ws_app_inv; auto. right. destruct w'; [congruence|]. inversion Hnw; cbn; eauto. }
      destruct G as [-> <-]. apply (Words_cons [] w' rest' l'); auto. }
  rewrite (split_ws_loop_enc C l b Hsb HWb Hb ub _ [] Hub).
  - now destruct (enc_all C l).
  - destruct (enc_ok C a Hsa) as [ua Hua]. rewrite enc_app, Hua, Hub in Hu. injection Hu as <-.
    rewrite app_length. lia.
Qed.

(** * Collapse *)

Lemma emit_enc_nil D : enc D [] = Some []. Proof. reflexivity. Qed.

Lemma fold_collapse_ws D q s : Forall ws s -> forall out,
  fold_cps (collapse_body D) (q, out) s =
    Some (match s, q with [], _ => q | _, CStart => CLeading | _, CLeading => CLeading | _, _ => CWs end, out).
Proof.
  intros H. revert q. induction H as [|c s Hc Hs IH]; intros q out; cbn [fold_cps]; [reflexivity|].
  apply ws_spec in Hc. unfold collapse_body at 1. rewrite Hc.
  destruct q; rewrite IH; destruct s; reflexivity.
Qed.

Lemma fold_cps_app {S} (body : S -> Z -> option S) s t : forall st,
  fold_cps body st (s ++ t) = match fold_cps body st s with Some st' => fold_cps body st' t | None => None end.
Proof.
  induction s as [|c s IH]; intros st; cbn [app fold_cps]; [reflexivity|].
  destruct (body st c); [apply IH|reflexivity].
Qed.

Lemma fold_collapse_word D w : Forall (fun c => ~ ws c) w -> forall out,
  fold_cps (collapse_body D) (CNormal, out) w =
    match enc D w with Some v => Some (CNormal, out ++ v) | None => None end.
Proof.
  induction 1 as [|c w Hc Hw IH]; intros out; cbn [fold_cps enc]; [now rewrite app_nil_r|].
  apply ws_spec_f in Hc. unfold collapse_body at 1. rewrite Hc. unfold emit.
  destruct (c_enc D c) as [u|]; [|reflexivity]. rewrite IH. destruct (enc D w); [|reflexivity]. now rewrite app_assoc.
Qed.

Lemma fold_collapse_word_first D c w q : Forall (fun c => ~ ws c) (c :: w) -> (q = CStart \/ q = CLeading) -> forall out,
  fold_cps (collapse_body D) (q, out) (c :: w) =
    match enc D (c :: w) with Some v => Some (CNormal, out ++ v) | None => None end.
Proof.
  intros H Hq out. inversion H as [|? ? Hc Hw]; subst. cbn [fold_cps enc].
  apply ws_spec_f in Hc. unfold collapse_body at 1. rewrite Hc. unfold emit.
  destruct Hq as [-> | ->]; (destruct (c_enc D c) as [u|]; [|reflexivity]; rewrite fold_collapse_word by assumption;
  destruct (enc D w); [|reflexivity]; now rewrite app_assoc).
Qed.

Lemma fold_collapse_word_ws D c w : Forall (fun c => ~ ws c) (c :: w) -> forall out,
  fold_cps (collapse_body D) (CWs, out) (c :: w) =
    match enc D (0x20 :: c :: w) with Some v => Some (CNormal, out ++ v) | None => None end.
Proof.
  intros H out. inversion H as [|? ? Hc Hw]; subst. cbn [fold_cps enc].
  apply ws_spec_f in Hc. unfold collapse_body at 1. rewrite Hc. unfold emit.
  destruct (c_enc D 32) as [u0|]; [|reflexivity]. destruct (c_enc D c) as [u|]; [|reflexivity].
  rewrite fold_collapse_word by assumption.
  destruct (enc D w); [|reflexivity]. now rewrite !app_assoc.
Qed.

(** From state Normal: the rest starts with whitespace, or is empty. *)
Lemma collapse_rest D s l : Words s l -> (s = [] \/ exists c r, s = c :: r /\ ws c) -> forall out,
  exists q, fold_cps (collapse_body D) (CNormal, out) s =
    match enc D (concat (map (fun w => 0x20 :: w) l)) with Some v => Some (q, out ++ v) | None => None end.
Proof.
  induction 1 as [pre Hpre|pre w rest l Hpre Hw Hnw Hrest HW IH]; intros Hst out.
  - rewrite fold_collapse_ws by assumption. cbn. rewrite app_nil_r. eauto.
  - destruct w as [|c w]; [congruence|]. destruct pre as [|p pre].
    { destruct Hst as [Hst|(d & r & Hst & Hd)]; [discriminate|]. cbn in Hst. injection Hst as -> _. inversion Hnw; contradiction. }
    rewrite fold_cps_app, fold_collapse_ws by assumption. cbv iota beta.
    rewrite fold_cps_app, fold_collapse_word_ws by assumption.
    cbn [map concat]. change ((32 :: c :: w) ++ concat (map (fun w0 => 32 :: w0) l)) with ((32 :: c :: w) ++ concat (map (fun w0 => 32 :: w0) l)).
    rewrite enc_app. destruct (enc D (32 :: c :: w)) as [v1|].
    + destruct (IH Hrest (out ++ v1)) as [q IHq]. exists q. rewrite IHq.
      destruct (enc D (concat _)); [|reflexivity]. now rewrite app_assoc.
    + exists CNormal. reflexivity.
Qed.

Lemma join_concat w l : join 0x20 (w :: l) = w ++ concat (map (fun w => 0x20 :: w) l).
Proof.
  revert w. induction l as [|x l IH]; intros w; cbn [join map concat]; [now rewrite app_nil_r|].
  f_equal. cbn [app]. f_equal. apply IH.
Qed.

Lemma collapse_enc C D s u l : Forall (ok_cp C) s -> enc C s = Some u -> Words s l ->
  strip_and_collapse C D u = enc D (join 0x20 l).
Proof.
  intros Hs Hu HW. unfold strip_and_collapse. rewrite (cp_fold_enc C _ s Hs u _ _ Hu) by lia.
  destruct HW as [pre Hpre|pre w rest l Hpre Hw Hnw Hrest HW].
  - rewrite fold_collapse_ws by assumption. reflexivity.
  - destruct w as [|c w]; [congruence|].
    rewrite fold_cps_app, fold_collapse_ws by assumption. cbv iota beta.
    rewrite fold_cps_app, fold_collapse_word_first by (auto; destruct pre; auto).
    rewrite join_concat, enc_app. destruct (enc D (c :: w)) as [v1|]; [|reflexivity]. cbn [app].
    destruct (collapse_rest D rest l HW Hrest v1) as [q ->].
    now destruct (enc D (concat _)).
Qed.

(** Collapsing is idempotent: the joined words have the same words. *)
Lemma Words_members s l : Words s l -> Forall (fun w => w <> [] /\ Forall (fun c => ~ ws c) w) l.
Proof. induction 1; constructor; auto. Qed.

Lemma Words_join l : Forall (fun w => w <> [] /\ Forall (fun c => ~ ws c) w) l -> Words (join 0x20 l) l.
Proof.
  induction 1 as [|w l [Hne Hw] Hl IH]; [constructor; constructor|].
  rewrite join_concat. apply (Words_cons [] w _ l); auto.
  - destruct l as [|x l]; [now left|right]. cbn. eexists _, _. split; [reflexivity|]. unfold ws. lia.
  - destruct l as [|x l]; [cbn; constructor; constructor|].
    cbn [map concat app]. rewrite <- join_concat.
    remember (join 32 (x :: l)) as jj.
    inversion IH as [pre Hpre E|pre w' rest' l' Hpre Hw' Hnw Hrest HW E]; subst.
    apply (Words_cons (0x20 :: pre) x rest' l); auto. constructor; auto. unfold ws. lia.
Qed.

(** * Strict split *)

Lemma span_delim (d : Z) s : exists p r, s = p ++ r /\ ~ In d p /\ (r = [] \/ exists q, r = d :: q).
Proof.
  induction s as [|c s IH]; [exists [], []; auto|].
  destruct (Z.eq_dec c d) as [->|H].
  - exists [], (d :: s). repeat split; auto. right. eauto.
  - destruct IH as (p & r & -> & Hp & Hr). exists (c :: p), r. repeat split; auto.
    intros [E|E]; auto.
Qed.

Lemma collect_delim C d p r u : Forall (ok_cp C) (p ++ r) -> enc C (p ++ r) = Some u -> ~ In d p ->
  (r = [] \/ exists q, r = d :: q) ->
  exists up ur, enc C p = Some up /\ enc C r = Some ur /\ u = up ++ ur /\
    collect_sequence C C (fun c => negb (c =? d)) u = Some (up, ur).
Proof.
  intros Hs Hu Hp Hr. assert (Hs' := Hs). apply Forall_app in Hs'. destruct Hs' as [H1 H2].
  destruct (enc_ok C p H1) as [up Hup]. destruct (enc_ok C r H2) as [ur Hur].
  exists up, ur. repeat split; auto.
  - rewrite enc_app, Hup, Hur in Hu. congruence.
  - unfold collect_sequence. rewrite (collect_enc C C _ (p ++ r) Hs u _ [] Hu (le_n _) p r eq_refl).
    + now rewrite Hup, Hur.
    + apply Forall_forall. intros c Hc. destruct (Z.eqb_spec c d); [subst; contradiction|reflexivity].
    + destruct Hr as [->|(q & ->)]; [now left|right]. exists d, q. split; auto. now rewrite Z.eqb_refl.
Qed.

Lemma strict_loop_enc C d l : c_enc C d = Some [d] -> forall pieces_s s fuel out u,
  pieces_s = l -> Forall (fun p => ~ In d p) l -> s = concat (map (fun p => d :: p) l) ->
  Forall (ok_cp C) s -> enc C s = Some u -> (length u <= fuel)%nat ->
  strict_loop fuel C d u out = match enc_all C l with Some v => Some (out ++ v) | None => None end.
Proof.
  intros Hd. induction l as [|p l IH]; intros ? s fuel out u _ Hl Hs Hok Hu Hf.
  - subst s. cbn in Hu. injection Hu as <-. destruct fuel; cbn; now rewrite app_nil_r.
  - cbn [map concat app] in Hs. subst s.
    inversion Hl as [|? ? Hp Hl']; subst. inversion Hok as [|? ? Hdok Hok']; subst.
    destruct (dec_enc_cons C d _ u Hdok Hu) as (v & Hv & Hdec & Hne & Hlt).
    assert (u = d :: v).
    { cbn [enc] in Hu. rewrite Hd, Hv in Hu. cbn in Hu. congruence. }
    subst u. destruct fuel as [|fuel]; [cbn in Hf; lia|].
    cbn [strict_loop]. rewrite Hdec, Z.eqb_refl.
    destruct (collect_delim C d p (concat (map (fun p => d :: p) l)) v Hok' Hv Hp) as (up & ur & Hup & Hur & Ev & Hc).
    { destruct l; [now left|right]. cbn. eauto. }
    rewrite Hc. cbn [enc_all]. rewrite Hup.
    rewrite (IH l (concat (map (fun p => d :: p) l)) fuel (out ++ [up]) ur eq_refl Hl' eq_refl); auto.
    + destruct (enc_all C l); [|reflexivity]. now rewrite <- app_assoc.
    + apply Forall_app in Hok'. tauto.
    + subst v. cbn in Hf. rewrite app_length in Hf. lia.
Qed.

Lemma join_concat_d d w l : join d (w :: l) = w ++ concat (map (fun w => d :: w) l).
Proof.
  revert w. induction l as [|x l IH]; intros w; cbn [join map concat]; [now rewrite app_nil_r|].
  f_equal. cbn [app]. f_equal. apply IH.
Qed.

Lemma strictly_split_enc C d s u l : c_enc C d = Some [d] -> Forall (ok_cp C) s -> enc C s = Some u ->
  l <> [] -> Forall (fun p => ~ In d p) l -> join d l = s ->
  strictly_split C d u = enc_all C l.
Proof.
  intros Hd Hs Hu Hne Hl Hj. destruct l as [|p l]; [congruence|]. rewrite join_concat_d in Hj. subst s.
  inversion Hl as [|? ? Hp Hl']; subst. unfold strictly_split.
  destruct (collect_delim C d p (concat (map (fun p => d :: p) l)) u Hs Hu Hp) as (up & ur & Hup & Hur & Ev & Hc).
  { destruct l; [now left|right]. cbn. eauto. }
  rewrite Hc. cbn [enc_all]. rewrite Hup.
  rewrite (strict_loop_enc C d l Hd l (concat (map (fun p => d :: p) l)) _ [up] ur eq_refl Hl' eq_refl); auto.
  - apply Forall_app in Hs. tauto.
  - subst u. rewrite app_length. lia.
Qed.

(** Every string has exactly one such decomposition. *)
Lemma split_exists (d : Z) s : exists l, l <> [] /\ Forall (fun p => ~ In d p) l /\ join d l = s.
Proof.
  induction s as [|c s (l & Hne & Hl & Hj)].
  - exists [[]]. repeat split; try discriminate. repeat constructor. auto.
  - destruct l as [|p l]; [congruence|]. destruct (Z.eq_dec c d) as [->|H].
    + exists ([] :: p :: l). repeat split; try discriminate.
      * constructor; auto.
      * change (d :: join d (p :: l) = d :: s). now rewrite Hj.
    + exists ((c :: p) :: l). inversion Hl; subst. repeat split; try discriminate.
      * constructor; auto. intros [E|E]; auto.
      * rewrite !join_concat_d. reflexivity.
Qed.

Lemma delim_app_inv d (a b c e : list Z) : ~ In d a -> ~ In d c ->
  (b = [] \/ exists y, b = d :: y) -> (e = [] \/ exists y, e = d :: y) -> a ++ b = c ++ e -> a = c /\ b = e.
Proof.
  revert c. induction a as [|x a IH]; intros c Ha Hc Hb He E; cbn in E.
  - destruct c as [|y c]; [auto|]. cbn in E. subst b. destruct Hb as [Hb|(v & Hb)]; [discriminate|].
    injection Hb as -> _. elim Hc. now left.
  - destruct c as [|y c]; cbn in E.
    + subst e. destruct He as [He|(v & He)]; [discriminate|]. injection He as -> _. elim Ha. now left.
    + injection E as -> E. destruct (IH c) as [-> ->]; auto; intros Hin; [apply Ha|apply Hc]; now right.
Qed.

Lemma split_unique d l1 : forall l2, l1 <> [] -> l2 <> [] ->
  Forall (fun p => ~ In d p) l1 -> Forall (fun p => ~ In d p) l2 -> join d l1 = join d l2 -> l1 = l2.
Proof.
  induction l1 as [|p l1 IH]; intros [|q l2] H1 H2 F1 F2 E; try congruence.
  rewrite !join_concat_d in E. inversion F1; inversion F2; subst.
  destruct (delim_app_inv d p (concat (map (fun w => d :: w) l1)) q (concat (map (fun w => d :: w) l2))) as [-> E2]; auto.
  { destruct l1; [now left|right; cbn; eauto]. }
  { destruct l2; [now left|right; cbn; eauto]. }
  f_equal. destruct l1 as [|p1 l1], l2 as [|q1 l2]; try discriminate; auto.
  apply IH; auto; try discriminate. cbn [map concat app] in E2. rewrite <- !join_concat_d in E2. now injection E2.
Qed.

(** * Commas *)

Lemma Commas_ex s : exists l, Commas s l.
Proof.
  assert (G : forall n s, (length s <= n)%nat -> exists l, Commas s l).
  { induction n as [|n IH]; intros t Ht.
    - destruct t; [|cbn in Ht; lia]. exists []. constructor.
    - destruct (span_delim 0x2C t) as (p & r & -> & Hp & [->|(q & ->)]).
      + rewrite app_nil_r. destruct p; [exists []; constructor|]. eexists. apply Commas_last; [discriminate|assumption].
      + destruct (IH q) as [l Hl]; [rewrite app_length in Ht; cbn in Ht; lia|]. exists (p :: l). now apply Commas_cons. }
  apply (G (length s)). lia.
Qed.

Lemma enc_comma C : is_utf C -> c_enc C 0x2C = Some [0x2C].
Proof. intros [-> | [-> | ->]]; reflexivity. Qed.

(** Stripping all pieces; defined unless some piece is non-empty whitespace. *)
Definition strip_safe (p : list Z) : Prop := p = [] \/ ~ Forall ws p.

Lemma split_commas_enc C : is_utf C -> forall s l, Commas s l -> Forall scalar s -> Forall strip_safe l ->
  forall ms u fuel out, Forall2 Trimmed l ms -> enc C s = Some u -> (length u <= fuel)%nat ->
  split_commas_loop fuel C u out = match enc_all C ms with Some v => Some (out ++ v) | None => None end.
Proof.
  intros HC s l HCm. 
  assert (Hstrip : forall p m up, Forall scalar p -> Trimmed p m -> strip_safe p -> enc C p = Some up ->
     strip_ws C C up = enc C m).
  { intros p m up Hp Hm Hsafe Hup. apply (strip_ws_enc C C p up m); auto using scalar_ok.
    destruct Hsafe as [->|Hn]; [now left|right]. intros ->. apply Hn. now apply Trimmed_nil_ws. }
  assert (Hne : forall c r u, Forall scalar (c :: r) -> enc C (c :: r) = Some u -> exists x y, u = x :: y).
  { intros c r u Hcr Hu. destruct (dec_enc_cons C c r u) as (v & _ & _ & Hn & _); auto.
    - inversion Hcr. now apply ok_scalar.
    - destruct u; [congruence|eauto]. }
  assert (Hm_enc : forall p m, Forall scalar p -> Trimmed p m -> exists um, enc C m = Some um).
  { intros p m Hp (a & b & -> & _). apply enc_ok. apply Forall_app in Hp. destruct Hp as [_ Hp].
    apply Forall_app in Hp. apply scalar_ok; tauto. }
  induction HCm as [|p Hpne Hp|p r l Hp HCm IH]; intros Hsc Hsafe ms u fuel out HT Hu Hf.
  - inversion HT; subst. cbn in Hu. injection Hu as <-. destruct fuel; cbn; now rewrite app_nil_r.
  - inversion HT as [|? m ? ? Hm HT']; subst. inversion HT'; subst. inversion Hsafe; subst.
    destruct p as [|c p]; [congruence|]. destruct (Hne _ _ _ Hsc Hu) as (x & y & ->).
    destruct fuel as [|fuel]; [cbn in Hf; lia|]. cbn [split_commas_loop].
    destruct (collect_delim C 0x2C (c :: p) [] (x :: y)) as (up & ur & Hup & Hur & Ev & Hc); auto.
    { rewrite app_nil_r. auto using scalar_ok. } { now rewrite app_nil_r. }
    rewrite Hc. rewrite (Hstrip (c :: p) m up) by auto. cbn in Hur. injection Hur as <-.
    cbn [enc_all]. destruct (enc C m); reflexivity.
  - inversion HT as [|? m ? ms' Hm HT']; subst. inversion Hsafe as [|? ? Hs1 Hs2]; subst.
    assert (Hsp := Hsc). apply Forall_app in Hsp. destruct Hsp as [Hsp Hsr].
    assert (Hu1 : exists x y, u = x :: y).
    { destruct p as [|c p]; cbn [app] in *; exact (Hne _ _ _ Hsc Hu). }
    destruct Hu1 as (x & y & ->). destruct fuel as [|fuel]; [cbn in Hf; lia|]. cbn [split_commas_loop].
    destruct (collect_delim C 0x2C p (0x2C :: r) (x :: y)) as (up & ur & Hup & Hur & Ev & Hc); eauto using scalar_ok.
    rewrite Hc. rewrite (Hstrip p m up) by auto. cbn [enc] in Hur. rewrite (enc_comma C HC) in Hur.
    destruct (enc C r) as [w|] eqn:Hr; [|discriminate]. cbn in Hur. injection Hur as <-.
    cbn [enc_all]. destruct (Hm_enc p m Hsp Hm) as [um Hum]. rewrite Hum.
    rewrite Z.eqb_refl. inversion Hsr; subst.
    rewrite (IH ltac:(assumption) Hs2 ms' w fuel (out ++ [um]) HT' eq_refl).
    + destruct (enc_all C ms'); [|reflexivity]. now rewrite <- app_assoc.
    + rewrite Ev, app_length in Hf. cbn in Hf. lia.
Qed.

(** * Statements over the UTF codecs *)

Lemma enc_ok_utf C s : is_utf C -> Forall scalar s -> exists u, enc C s = Some u.
Proof. intros HC Hs. apply enc_ok. now apply scalar_ok. Qed.

Lemma normalize_utf C D s u : is_utf C -> Forall scalar s -> enc C s = Some u ->
  Forall (fun c => c < c_unit D) s ->
  exists v, normalize_newlines C D u = Some v /\
    ((~ exists r, s = r ++ [0xD]) -> v = nl_spec s) /\
    ((exists r, s = r ++ [0xD]) -> nl_spec s = v ++ [0xA]).
Proof.
  intros HC Hs Hu Hd. apply (normalize_enc C D s u); auto using scalar_ok.
  clear Hu. induction Hd as [|c s Hc Hd IH]; constructor.
  - apply Z.mod_small. inversion Hs as [|? ? Hsc]. unfold scalar in Hsc. lia.
  - apply IH. now inversion Hs.
Qed.

Lemma strip_utf C D s u : is_utf C -> Forall scalar s -> enc C s = Some u ->
  exists m, Trimmed s m /\ (forall m', Trimmed s m' -> m' = m) /\
    (s = [] \/ ~ Forall ws s -> strip_ws C D u = enc D m) /\
    (s <> [] -> Forall ws s -> strip_ws C D u = None).
Proof.
  intros HC Hs Hu. destruct (Trimmed_ex s) as [m Hm]. exists m. split; [assumption|]. split.
  { intros m' Hm'. eapply Trimmed_fun; eauto. }
  split.
  - intros H. apply (strip_ws_enc C D s u m); auto using scalar_ok.
    destruct H as [->|H]; [now left|right]. intros ->. apply H. now apply Trimmed_nil_ws.
  - intros Hne Hw. exact (strip_ws_ub C D s u (scalar_ok C s HC Hs) Hu Hne Hw).
Qed.

Lemma collapse_utf C D s u : is_utf C -> Forall scalar s -> enc C s = Some u ->
  exists l, Words s l /\ (forall l', Words s l' -> l' = l) /\
    strip_and_collapse C D u = enc D (join 0x20 l) /\
    Words (join 0x20 l) l.
Proof.
  intros HC Hs Hu. destruct (Words_ex s) as [l Hl]. exists l. repeat split; auto.
  - intros l' Hl'. eapply Words_fun; eauto.
  - apply (collapse_enc C D s u l); auto using scalar_ok.
  - apply Words_join. eapply Words_members; eauto.
Qed.

Lemma split_ws_utf C s u : is_utf C -> Forall scalar s -> enc C s = Some u ->
  exists l, Words s l /\ (forall l', Words s l' -> l' = l) /\ split_on_ws C u = enc_all C l.
Proof.
  intros HC Hs Hu. destruct (Words_ex s) as [l Hl]. exists l. repeat split; auto.
  - intros l' Hl'. eapply Words_fun; eauto.
  - apply (split_on_ws_enc C s u l); auto using scalar_ok.
Qed.

Lemma strictly_split_utf C d s u : is_utf C -> Forall scalar s -> enc C s = Some u -> c_enc C d = Some [d] ->
  exists l, l <> [] /\ Forall (fun p => ~ In d p) l /\ join d l = s /\
    (forall l', l' <> [] -> Forall (fun p => ~ In d p) l' -> join d l' = s -> l' = l) /\
    strictly_split C d u = enc_all C l.
Proof.
  intros HC Hs Hu Hd. destruct (split_exists d s) as (l & H1 & H2 & H3). exists l. repeat split; auto.
  - intros l' H1' H2' H3'. eapply split_unique; eauto. congruence.
  - apply (strictly_split_enc C d s u l); auto using scalar_ok.
Qed.

Lemma split_commas_utf C s u l ms : is_utf C -> Forall scalar s -> enc C s = Some u ->
  Commas s l -> Forall (fun p => p = [] \/ ~ Forall ws p) l -> Forall2 Trimmed l ms ->
  split_on_commas C u = enc_all C ms.
Proof.
  intros HC Hs Hu Hl Hsafe Hm. unfold split_on_commas.
  rewrite (split_commas_enc C HC s l Hl Hs Hsafe ms u _ [] Hm Hu (le_n _)). now destruct (enc_all C ms).
Qed.

(** Bytes *)
Lemma byte_case_one b : 0 <= b < 256 -> byte_lower b = cp_lower b /\ byte_upper b = cp_upper b.
Proof.
  intros H. unfold byte_lower, byte_upper, cp_lower, cp_upper, is_ascii_upper_alpha, is_ascii_lower_alpha. rewrite (Z.mod_small b 256) by lia. easy.
Qed.
Lemma byte_case s t : Forall (fun b => 0 <= b < 256) s -> Forall (fun b => 0 <= b < 256) t ->
  to_byte_lowercase s = map cp_lower s /\ to_byte_uppercase s = map cp_upper s /\
  (is_byte_case_insensitive_match s t = true <-> map cp_lower s = map cp_lower t).
Proof.
  intros Hs Ht. assert (L : forall l, Forall (fun b => 0 <= b < 256) l -> to_byte_lowercase l = map cp_lower l).
  { intros l Hl. apply map_ext_in. intros x Hx. apply byte_case_one. rewrite Forall_forall in Hl. auto. }
  split; [auto|]. split.
  - apply map_ext_in. intros x Hx. apply byte_case_one. rewrite Forall_forall in Hs. auto.
  - unfold is_byte_case_insensitive_match. rewrite (L s Hs), (L t Ht). destruct (list_eq_dec _ _ _); split; congruence.
Qed.
