(** Lemmas for M_url: what the parser makes of a piece of the input in the port, path, query and fragment states. *)
From Coq Require Import String.
From Coq Require Import ZArith List Bool Lia.
From Verif Require Import M_unicode M_infra M_percent M_ip M_encoding M_labels M_url.
From Verif Require Import L_unicode L_url L_url2.
Import ListNotations.
Open Scope list_scope.
Open Scope Z_scope.

Ltac pj := cbn [p_state p_buffer p_at p_brackets p_token p_pointer p_enc p_url s_state s_buffer s_at s_brackets s_token s_pointer s_enc s_url
  on_url move push scheme username password uhost port path query fragment cannot_be_base
  set_scheme set_user set_pass set_host set_port set_path set_query set_fragment set_cannot] in *.

Definition zlen {A} (l : list A) : Z := Z.of_nat (List.length l).
Lemma zlen_app {A} (a b : list A) : zlen (a ++ b) = zlen a + zlen b.
Proof. unfold zlen. rewrite app_length. lia. Qed.
Lemma zlen_cons {A} (a : A) b : zlen (a :: b) = 1 + zlen b.
Proof. unfold zlen. cbn [List.length]. lia. Qed.
Lemma zlen_nil {A} : zlen (@nil A) = 0.
Proof. reflexivity. Qed.
Lemma zlen_pos {A} (l : list A) : 0 <= zlen l.
Proof. unfold zlen. lia. Qed.

(** Code points the parser sees: scalar values other than the one standing for the end. *)
Definition visible (c : Z) : Prop := scalar c /\ c <> 0xA.

(** Splitting at separators, and resolving dot segments. *)
Fixpoint split_at (sep : Z -> bool) (s : list Z) : list (list Z) :=
  match s with
  | [] => [[]]
  | c :: r =>
      if sep c then [] :: split_at sep r
      else match split_at sep r with x :: l => (c :: x) :: l | [] => [[c]] end
  end.

Definition shorten (file : bool) (p : list (list Z)) : list (list Z) :=
  match p with
  | [d] => if file && is_normalized_windows_drive_letter d then p else []
  | _ => removelast p
  end.
Definition drive (file : bool) (p : list (list Z)) (s : list Z) : list Z :=
  match p, s with
  | [], [a; b] => if file && is_ascii_alpha a && ((b =? 0x3A) || (b =? 0x7C)) then [a; 0x3A] else s
  | _, _ => s
  end.
Fixpoint resolve (file : bool) (p : list (list Z)) (l : list (list Z)) : list (list Z) :=
  match l with
  | [] => p
  | [s] =>
      if is_double_dot_path_segment s then shorten file p ++ [[]]
      else if is_single_dot_path_segment s then p ++ [[]]
      else p ++ [drive file p s]
  | s :: r =>
      resolve file (if is_double_dot_path_segment s then shorten file p
                    else if is_single_dot_path_segment s then p
                    else p ++ [drive file p s]) r
  end.

(** One segment followed by another, and the last segment. *)
Definition seg_step (file : bool) (p : list (list Z)) (s : list Z) : list (list Z) :=
  if is_double_dot_path_segment s then shorten file p else if is_single_dot_path_segment s then p else p ++ [drive file p s].
Definition seg_last (file : bool) (p : list (list Z)) (s : list Z) : list (list Z) :=
  if is_double_dot_path_segment s then shorten file p ++ [[]] else if is_single_dot_path_segment s then p ++ [[]] else p ++ [drive file p s].

Lemma resolve_fold file l : forall p, l <> [] -> resolve file p l = seg_last file (fold_left (seg_step file) (removelast l) p) (last l []).
Proof.
  induction l as [|s l IH]; intros p N; [congruence|]. destruct l as [|t l]; [reflexivity|].
  change (resolve file p (s :: t :: l)) with (resolve file (seg_step file p s) (t :: l)).
  rewrite IH by discriminate. reflexivity.
Qed.

Lemma split_nonempty sep s : split_at sep s <> [].
Proof. destruct s as [|c r]; [discriminate|]. cbn. destruct (sep c); [discriminate|]. destruct (split_at sep r); discriminate. Qed.

Lemma set_path_id u : set_path (path u) u = u.
Proof. destruct u; reflexivity. Qed.
Lemma shorten_path u : shorten_urls_path u = set_path (shorten (eqs (scheme u) (lit "file")) (path u)) u.
Proof.
  unfold shorten_urls_path, shorten. destruct (path u) as [|x [|y l]] eqn:E.
  - cbn [removelast]. rewrite <- E, set_path_id. reflexivity.
  - destruct (_ && _); [|reflexivity]. rewrite <- E, set_path_id. reflexivity.
  - reflexivity.
Qed.
Lemma drive_eq f p s : (if f && negb (nonempty p) && is_windows_drive_letter s then firstn 1 s ++ [0x3A] else s) = drive f p s.
Proof.
  unfold drive, is_windows_drive_letter. destruct p as [|x p].
  - destruct s as [|a [|b [|c s]]]; cbn [nonempty negb firstn app]; rewrite ?andb_true_r, ?andb_false_r; try reflexivity.
    rewrite <- andb_assoc. reflexivity.
  - cbn [nonempty negb]. rewrite andb_false_r. reflexivity.
Qed.

Section Run.
Variable idna : list Z -> option (list Z).
Variable input : list Z.
Variable base : option url.
Variable over : option pstate.
Variable fuel : nat.
Hypothesis Fu : (List.length input + 1 < fuel)%nat.

Definition runs (p : parser) (r : bool * url) : Prop := exists k, run_loop idna input base over fuel k p = Val r.

Lemma run_mono k : forall p r j, run_loop idna input base over fuel k p = Val r -> run_loop idna input base over fuel (k + j) p = Val r.
Proof.
  induction k as [|k IH]; intros p r j H; [discriminate H|]. cbn [run_loop Nat.add] in *.
  destruct (handle idna input base over fuel p) as [v| |]; try discriminate H. cbn [obind] in *. destruct v; try exact H.
  destruct (_ <? _); [|exact H]. apply IH, H.
Qed.
Lemma runs_det p r n r' : runs p r -> run_loop idna input base over fuel n p = Val r' -> r' = r.
Proof.
  intros [k H] H'. apply (run_mono _ _ _ n) in H. apply (run_mono _ _ _ k) in H'. rewrite (Nat.add_comm k n) in H. congruence.
Qed.
Lemma runs_step p q r : handle idna input base over fuel p = Val (Go q) -> p_pointer q < size input -> runs (move 1 q) r -> runs p r.
Proof. intros H L [k R]. exists (S k). cbn [run_loop]. rewrite H. cbn [obind]. replace (_ <? _) with true by lia. exact R. Qed.
Lemma runs_last p q : handle idna input base over fuel p = Val (Go q) -> size input <= p_pointer q -> runs p (true, p_url q).
Proof. intros H L. exists 1%nat. cbn [run_loop]. rewrite H. cbn [obind]. replace (_ <? _) with false by lia. reflexivity. Qed.
Lemma runs_fail p u : handle idna input base over fuel p = Val (Failure u) -> runs p (false, u).
Proof. intros H. exists 1%nat. cbn [run_loop]. rewrite H. reflexivity. Qed.
Lemma runs_ret p u : handle idna input base over fuel p = Val (Return u) -> runs p (false, u).
Proof. intros H. exists 1%nat. cbn [run_loop]. rewrite H. reflexivity. Qed.

(** The parser stands between [a] and [b]. *)
Definition stands (p : parser) (a b : list Z) : Prop := input = a ++ b /\ p_pointer p = zlen a.

Lemma stands_cur p a c b : stands p a (c :: b) -> current input p = c /\ 0 <= p_pointer p /\ p_pointer p < size input.
Proof.
  intros [E P]. assert (L : 0 <= p_pointer p /\ p_pointer p < size input).
  { rewrite P, E. unfold size. fold (zlen (a ++ c :: b)). rewrite zlen_app, zlen_cons. pose proof (zlen_pos a). pose proof (zlen_pos b). lia. }
  split; [|exact L]. unfold current. replace (0 <=? p_pointer p) with true by lia. replace (p_pointer p <? size input) with true by lia. cbn [andb].
  rewrite P, E. unfold zlen. rewrite Nat2Z.id, app_nth2, Nat.sub_diag by lia. reflexivity.
Qed.
Lemma stands_eof p a : stands p a [] -> current input p = EOF /\ p_pointer p = size input.
Proof.
  intros [E P]. rewrite app_nil_r in E. assert (L : p_pointer p = size input) by (rewrite P, E; reflexivity). split; [|exact L].
  unfold current. replace (p_pointer p <? size input) with false by lia. now rewrite andb_false_r.
Qed.
Lemma stands_next p q a c b : stands p a (c :: b) -> p_pointer q = p_pointer p + 1 -> stands q (a ++ [c]) b.
Proof. intros [E P] Q. split; [rewrite <- app_assoc; exact E|]. rewrite Q, P, zlen_app. reflexivity. Qed.
Lemma stands_same p q a b : stands p a b -> p_pointer q = p_pointer p -> stands q a b.
Proof. intros [E P] Q. split; [exact E|]. now rewrite Q. Qed.
Lemma stands_bytes p a b : stands p a b -> (List.length b <= List.length input)%nat.
Proof. intros [E _]. rewrite E, app_length. lia. Qed.

Lemma enc_one c set : scalar c -> utf8_percent_encode fuel [c] set = Val (pe set [c]).
Proof. intros H. apply pe_spec; [constructor; [exact H|constructor]|cbn; lia]. Qed.

Lemma check_ok p c : 0 <= p_pointer p -> percent_check input p c = Val tt.
Proof. exact (percent_check_total input fuel Fu p c). Qed.

(** ** Fragment *)

Lemma run_fragment b : forall p a f, stands p a b -> Forall visible b -> p_state p = Fragment -> fragment (p_url p) = Some f ->
  runs p (true, set_fragment (Some (f ++ pe is_fragment_percent_encode_set b)) (p_url p)).
Proof.
  induction b as [|c b IH]; intros p a f St V E Fr.
  - destruct (stands_eof _ _ St) as [C P]. replace (set_fragment (Some (f ++ pe is_fragment_percent_encode_set [])) (p_url p)) with (p_url p).
    + apply runs_last with (q := p); [|lia]. unfold handle. rewrite E. unfold on_fragment. rewrite C. reflexivity.
    + cbn [pe flat_map]. rewrite app_nil_r. destruct p as [x1 x2 x3 x4 x5 x6 x7 u]. destruct u. cbn in Fr |- *. now rewrite Fr.
  - destruct (stands_cur _ _ _ _ St) as (C & L0 & L). inversion V as [|x y Vc Vb]; subst x y.
    assert (H : handle idna input base over fuel p = Val (Go (on_url (set_fragment (Some (f ++ pe is_fragment_percent_encode_set [c]))) p))).
    { unfold handle. rewrite E. unfold on_fragment. rewrite C. destruct Vc as [Vs Vn].
      replace (c =? EOF) with false by (unfold EOF; lia). cbn [negb]. rewrite check_ok by exact L0. cbn [obind]. rewrite Fr, enc_one by exact Vs. reflexivity. }
    apply (runs_step _ _ _ H); [exact L|].
    specialize (IH (move 1 (on_url (set_fragment (Some (f ++ pe is_fragment_percent_encode_set [c]))) p)) (a ++ [c]) (f ++ pe is_fragment_percent_encode_set [c])).
    rewrite (pe_cons _ c b), (app_assoc f). apply IH; [apply (stands_next p _ _ _ _ St); reflexivity|exact Vb|exact E|reflexivity].
Qed.

(** ** Query *)

Definition query_set (u : url) : Z -> bool := if is_special u then is_special_query_percent_encode_set else is_query_percent_encode_set.

Lemma run_query b : forall p a q h, stands p a (b ++ h) -> Forall visible b -> p_state p = Query -> query (p_url p) = Some q -> p_enc p = UTF_8 ->
  Forall scalar (p_buffer p) -> (List.length (p_buffer p) + List.length b <= List.length input)%nat ->
  (over = None -> ~ In 0x23 b) -> h = [] \/ (over = None /\ exists f, h = 0x23 :: f) ->
  exists p', stands p' (a ++ b) h /\
  p_state p' = Query /\ p_enc p' = UTF_8 /\ p_url p' = p_url p /\ p_buffer p' = p_buffer p ++ b /\
  (forall r, runs p' r -> runs p r).
Proof.
  induction b as [|c b IH]; intros p a q h St V E Qu En Sb Lb Nh Hh.
  - exists p. rewrite !app_nil_r. cbn [app] in St. repeat split; auto; apply St.
  - cbn [app] in St. destruct (stands_cur _ _ _ _ St) as (C & L0 & L). inversion V as [|x y Vc Vb]; subst x y. destruct Vc as [Vs Vn].
    assert (H : handle idna input base over fuel p = Val (Go (push [c] p))).
    { unfold handle. rewrite E. unfold on_query. rewrite C, En. replace (c =? EOF) with false by (unfold EOF; lia).
      assert (negb (overridden over) && (c =? 0x23) = false) as ->.
      { unfold overridden. destruct over; [reflexivity|]. cbn [negb andb]. apply Z.eqb_neq. intros ->. apply (Nh eq_refl). now left. }
      cbn [orb]. rewrite check_ok by exact L0. reflexivity. }
    destruct (IH (move 1 (push [c] p)) (a ++ [c]) q h) as (p' & St' & E' & En' & U' & B' & R'); auto.
    + apply (stands_next p _ _ _ _ St). reflexivity.
    + pj. apply Forall_app. split; [exact Sb|]. constructor; [exact Vs|constructor].
    + pj. rewrite app_length. cbn [List.length] in *. lia.
    + intros O I. apply (Nh O). now right.
    + exists p'. split; [rewrite <- app_assoc in St'; exact St'|]. pj. rewrite <- app_assoc in B'. repeat split; auto.
      intros r R. apply (runs_step _ _ _ H L), R', R.
Qed.

Lemma run_query_end p a q : stands p a [] -> p_state p = Query -> query (p_url p) = Some q -> p_enc p = UTF_8 ->
  Forall scalar (p_buffer p) -> (List.length (p_buffer p) <= List.length input)%nat ->
  runs p (true, set_query (Some (q ++ pe (query_set (p_url p)) (p_buffer p))) (p_url p)).
Proof.
  intros St E Qu En Sb Lb. destruct (stands_eof _ _ St) as [C P].
  apply runs_last with (q := s_buffer [] (on_url (set_query (Some (q ++ pe (query_set (p_url p)) (p_buffer p)))) p)); [|cbn; lia].
  unfold handle. rewrite E. unfold on_query. rewrite C, En. cbn [EOF Z.eqb Pos.eqb orb]. rewrite orb_true_r, Qu, En. fold (query_set (p_url p)).
  assert (R : pe_after_encoding fuel UTF_8 (p_buffer p) (query_set (p_url p)) = Val (pe (query_set (p_url p)) (p_buffer p))) by (apply pe_spec; [exact Sb|lia]).
  rewrite R. reflexivity.
Qed.

Lemma run_query_hash p a q b : over = None -> stands p a (0x23 :: b) -> p_state p = Query -> query (p_url p) = Some q -> p_enc p = UTF_8 ->
  Forall scalar (p_buffer p) -> (List.length (p_buffer p) <= List.length input)%nat -> Forall visible b ->
  runs p (true, set_fragment (Some (pe is_fragment_percent_encode_set b)) (set_query (Some (q ++ pe (query_set (p_url p)) (p_buffer p))) (p_url p))).
Proof.
  intros O St E Qu En Sb Lb Vb. destruct (stands_cur _ _ _ _ St) as (C & L0 & L).
  set (p2 := s_state Fragment (on_url (set_fragment (Some [])) (s_buffer [] (on_url (set_query (Some (q ++ pe (query_set (p_url p)) (p_buffer p)))) p)))).
  assert (H : handle idna input base over fuel p = Val (Go p2)).
  { unfold handle. rewrite E. unfold on_query. rewrite C, En, O. cbn [overridden negb andb Z.eqb Pos.eqb orb]. rewrite Qu, En. fold (query_set (p_url p)).
    assert (R : pe_after_encoding fuel UTF_8 (p_buffer p) (query_set (p_url p)) = Val (pe (query_set (p_url p)) (p_buffer p))) by (apply pe_spec; [exact Sb|lia]).
    rewrite R. reflexivity. }
  apply (runs_step _ _ _ H); [exact L|].
  apply (run_fragment b (move 1 p2) (a ++ [0x23]) []); [apply (stands_next p _ _ _ _ St); reflexivity|exact Vb|reflexivity|reflexivity].
Qed.

(** ** Path *)

Definition path_sep (u : url) (c : Z) : bool := (c =? 0x2F) || (is_special u && (c =? 0x5C)).
Definition segments (u : url) (b : list Z) : list (list Z) := map (pe is_path_percent_encode_set) (split_at (path_sep u) b).
Definition is_file (u : url) : bool := eqs (scheme u) (lit "file").

Lemma path_update u b (slash : bool) : (if is_double_dot_path_segment b then let v := shorten_urls_path u in if slash then v else set_path (path v ++ [[]]) v
      else if is_single_dot_path_segment b then if slash then u else set_path (path u ++ [[]]) u
      else set_path (path u ++ [if eqs (scheme u) (lit "file") && negb (nonempty (path u)) && is_windows_drive_letter b then firstn 1 b ++ [0x3A] else b]) u) =
  set_path ((if slash then seg_step else seg_last) (is_file u) (path u) b) u.
Proof.
  cbv zeta. rewrite drive_eq, shorten_path. fold (is_file u). unfold seg_step, seg_last.
  destruct slash; cbv beta; (destruct (is_double_dot_path_segment b); [reflexivity|]);
    (destruct (is_single_dot_path_segment b); [try (now rewrite set_path_id); reflexivity|]); reflexivity.
Qed.

Lemma path_handle_sep p c : p_state p = Path -> current input p = c -> path_sep (p_url p) c = true ->
  handle idna input base over fuel p = Val (Go (s_buffer [] (s_url (set_path (seg_step (is_file (p_url p)) (path (p_url p)) (p_buffer p)) (p_url p)) p))).
Proof.
  intros E C S. unfold handle. rewrite E. unfold on_path. rewrite C. cbv zeta. fold (path_sep (p_url p) c).
  assert (NC : (c =? 0x3F) = false /\ (c =? 0x23) = false) by (unfold path_sep in S; lia). destruct NC as [-> ->].
  replace ((c =? EOF) || (c =? 0x2F) || (is_special (p_url p) && (c =? 0x5C)) || (negb (overridden over) && (false || false))) with true
    by (unfold path_sep in S; rewrite <- (orb_assoc (c =? EOF) (c =? 47)), S, orb_true_r; reflexivity).
  rewrite S. pose proof (path_update (p_url p) (p_buffer p) true) as U. cbv zeta in U. rewrite U. reflexivity.
Qed.

Lemma path_handle_other p c : p_state p = Path -> current input p = c -> 0 <= p_pointer p < size input -> visible c -> path_sep (p_url p) c = false ->
  (over = None -> c <> 0x3F /\ c <> 0x23) ->
  handle idna input base over fuel p = Val (Go (push (pe is_path_percent_encode_set [c]) p)).
Proof.
  intros E C L [Vs Vn] S N. unfold handle. rewrite E. unfold on_path. rewrite C. cbv zeta.
  replace ((c =? EOF) || (c =? 0x2F) || (is_special (p_url p) && (c =? 0x5C)) || (negb (overridden over) && ((c =? 0x3F) || (c =? 0x23)))) with false.
  - assert (exists a, (if (c =? 0x25) && (2 <=? left_ input p) then at_ input p 1 else Val 0) = Val a) as [a ->].
    { destruct ((c =? 0x25) && (2 <=? left_ input p)) eqn:D; [|eexists; reflexivity]. unfold left_ in D. apply (at_total input fuel Fu). lia. }
    cbn [obind]. rewrite enc_one by exact Vs. reflexivity.
  - symmetry. replace (c =? EOF) with false by (unfold EOF; lia). cbn [orb].
    unfold path_sep in S. rewrite S. cbn [orb]. unfold overridden. destruct over; [reflexivity|]. destruct (N eq_refl). cbn [negb andb]. lia.
Qed.

Definition prepend (b : list Z) (l : list (list Z)) : list (list Z) := match l with x :: r => (b ++ x) :: r | [] => [b] end.
Lemma prepend_nonempty b l : prepend b l <> [].
Proof. destruct l; discriminate. Qed.
Lemma prepend_nil l : l <> [] -> prepend [] l = l.
Proof. destruct l; [congruence|reflexivity]. Qed.
Lemma segments_nonempty u b : segments u b <> [].
Proof. unfold segments. intros E. apply map_eq_nil in E. now apply split_nonempty in E. Qed.

Lemma run_path b : forall p a h, stands p a (b ++ h) -> Forall visible b -> p_state p = Path -> (over = None -> ~ In 0x3F b /\ ~ In 0x23 b) ->
  exists p', stands p' (a ++ b) h /\ p_state p' = Path /\ p_enc p' = p_enc p /\
  p_url p' = set_path (fold_left (seg_step (is_file (p_url p))) (removelast (prepend (p_buffer p) (segments (p_url p) b))) (path (p_url p))) (p_url p) /\
  p_buffer p' = last (prepend (p_buffer p) (segments (p_url p) b)) [] /\
  (forall r, runs p' r -> runs p r).
Proof.
  induction b as [|c b IH]; intros p a h St V E N.
  - exists p. rewrite app_nil_r. cbn [app] in St. repeat split; auto; try apply St.
    + cbn. now rewrite set_path_id.
    + cbn. now rewrite app_nil_r.
  - cbn [app] in St. destruct (stands_cur _ _ _ _ St) as (C & L0 & L). inversion V as [|x y Vc Vb]; subst x y.
    assert (N' : over = None -> ~ In 0x3F b /\ ~ In 0x23 b) by (intros O; destruct (N O); split; intros I; [apply H|apply H0]; now right).
    destruct (path_sep (p_url p) c) eqn:S.
    + pose proof (path_handle_sep p c E C S) as H.
      destruct (IH (move 1 (s_buffer [] (s_url (set_path (seg_step (is_file (p_url p)) (path (p_url p)) (p_buffer p)) (p_url p)) p))) (a ++ [c]) h)
        as (p' & St' & E' & En' & U' & B' & R'); auto.
      { apply (stands_next p _ _ _ _ St). reflexivity. }
      exists p'. split; [rewrite <- app_assoc in St'; exact St'|]. pj. split; [exact E'|]. split; [exact En'|].
      assert (SG : segments (p_url p) (c :: b) = [] :: segments (p_url p) b) by (unfold segments; cbn [split_at]; rewrite S; reflexivity).
      rewrite SG. change (prepend (p_buffer p) ([] :: segments (p_url p) b)) with ((p_buffer p ++ []) :: segments (p_url p) b). rewrite app_nil_r.
      change (segments (set_path (seg_step (is_file (p_url p)) (path (p_url p)) (p_buffer p)) (p_url p)) b) with (segments (p_url p) b) in *.
      rewrite prepend_nil in U', B' by apply segments_nonempty.
      split; [|split].
      * rewrite U'. destruct (segments (p_url p) b) eqn:Sg; [exfalso; apply (segments_nonempty _ _ Sg)|]. reflexivity.
      * rewrite B'. destruct (segments (p_url p) b) eqn:Sg; [exfalso; apply (segments_nonempty _ _ Sg)|]. reflexivity.
      * intros r R. apply (runs_step _ _ _ H L), R', R.
    + assert (NC : over = None -> c <> 0x3F /\ c <> 0x23) by (intros O; destruct (N O); split; intros ->; [apply H|apply H0]; now left).
      pose proof (path_handle_other p c E C (conj L0 L) Vc S NC) as H.
      destruct (IH (move 1 (push (pe is_path_percent_encode_set [c]) p)) (a ++ [c]) h) as (p' & St' & E' & En' & U' & B' & R'); auto.
      { apply (stands_next p _ _ _ _ St). reflexivity. }
      exists p'. split; [rewrite <- app_assoc in St'; exact St'|]. pj. split; [exact E'|]. split; [exact En'|].
      assert (SG : prepend (p_buffer p) (segments (p_url p) (c :: b)) = prepend (p_buffer p ++ pe is_path_percent_encode_set [c]) (segments (p_url p) b)).
      { unfold segments. cbn [split_at]. rewrite S. destruct (split_at (path_sep (p_url p)) b) as [|x l] eqn:Sp; [exfalso; apply (split_nonempty _ _ Sp)|].
        cbn [map prepend]. rewrite (pe_cons _ c x), app_assoc. reflexivity. }
      rewrite SG. split; [exact U'|]. split; [exact B'|]. intros r R. apply (runs_step _ _ _ H L), R', R.
Qed.

(** The whole path, with the end of the input, a query or a fragment behind it. *)
Definition whole_path (u : url) (buf b : list Z) : url := set_path (resolve (is_file u) (path u) (prepend buf (segments u b))) u.

Lemma whole_path_last u buf b : whole_path u buf b =
  set_path (seg_last (is_file u) (fold_left (seg_step (is_file u)) (removelast (prepend buf (segments u b))) (path u)) (last (prepend buf (segments u b)) [])) u.
Proof. unfold whole_path. rewrite resolve_fold by apply prepend_nonempty. reflexivity. Qed.

Lemma path_handle_end p c : p_state p = Path -> current input p = c -> c = EOF \/ (over = None /\ (c = 0x3F \/ c = 0x23)) ->
  handle idna input base over fuel p = Val (Go (
    let q := s_buffer [] (s_url (set_path (seg_last (is_file (p_url p)) (path (p_url p)) (p_buffer p)) (p_url p)) p) in
    if c =? 0x3F then s_state Query (on_url (set_query (Some [])) q) else if c =? 0x23 then s_state Fragment (on_url (set_fragment (Some [])) q) else q)).
Proof.
  intros E C K. unfold handle. rewrite E. unfold on_path. rewrite C. cbv zeta.
  assert (((c =? EOF) || (c =? 0x2F) || (is_special (p_url p) && (c =? 0x5C)) || (negb (overridden over) && ((c =? 0x3F) || (c =? 0x23)))) = true /\
    ((c =? 0x2F) || is_special (p_url p) && (c =? 0x5C)) = false) as [-> ->].
  { destruct K as [->|[-> [->| ->]]]; cbn; rewrite ?andb_false_r; split; reflexivity. }
  pose proof (path_update (p_url p) (p_buffer p) false) as U. cbv zeta in U. rewrite U.
  destruct K as [->|[_ [->| ->]]]; reflexivity.
Qed.

Lemma run_path_end b p a : stands p a b -> Forall visible b -> p_state p = Path -> (over = None -> ~ In 0x3F b /\ ~ In 0x23 b) ->
  runs p (true, whole_path (p_url p) (p_buffer p) b).
Proof.
  intros St V E N. rewrite <- (app_nil_r b) in St. destruct (run_path b p a [] St V E N) as (p' & St' & E' & En' & U' & B' & R').
  apply R'. destruct (stands_eof _ _ St') as [C P].
  pose proof (path_handle_end p' EOF E' C (or_introl eq_refl)) as H. cbn [EOF Z.eqb Pos.eqb] in H.
  rewrite whole_path_last, <- B'. rewrite U' in H. pj. apply (runs_last _ _ H). pj. lia.
Qed.

Lemma run_path_query b p a q h : over = None -> stands p a (b ++ 0x3F :: q ++ h) -> Forall visible b -> p_state p = Path -> ~ In 0x3F b -> ~ In 0x23 b ->
  p_enc p = UTF_8 -> Forall visible q -> ~ In 0x23 q ->
  h = [] \/ (exists f, h = 0x23 :: f /\ Forall visible f) ->
  runs p (true, let u := set_query (Some (pe (query_set (p_url p)) q)) (whole_path (p_url p) (p_buffer p) b) in
    match h with [] => u | _ :: f => set_fragment (Some (pe is_fragment_percent_encode_set f)) u end).
Proof.
  intros O St V E N1 N2 En Vq Nq Hh. destruct (run_path b p a (0x3F :: q ++ h) St V E (fun _ => conj N1 N2)) as (p' & St' & E' & En' & U' & B' & R').
  apply R'. clear R'. destruct (stands_cur _ _ _ _ St') as (C & L0 & L).
  pose proof (path_handle_end p' 0x3F E' C (or_intror (conj O (or_introl eq_refl)))) as H. cbn [Z.eqb Pos.eqb] in H.
  rewrite whole_path_last, <- B'. rewrite U' in H. pj.
  apply (runs_step _ _ _ H); [exact L|]. pj.
  match goal with |- runs ?x _ => set (p2 := x) end.
  assert (Sq : Forall scalar q) by (eapply Forall_impl; [|exact Vq]; intros x [Hx _]; exact Hx).
  assert (St2 : stands p2 ((a ++ b) ++ [0x3F]) (q ++ h)) by (apply (stands_next p' _ _ _ _ St'); reflexivity).
  assert (Lq : (List.length q <= List.length input)%nat) by (apply stands_bytes in St2; rewrite app_length in St2; lia).
  destruct (run_query q p2 _ [] h St2 Vq) as (p3 & St3 & E3 & En3 & U3 & B3 & R3); auto.
  { subst p2. pj. congruence. }
  { subst p2. constructor. }
  { destruct Hh as [->|(f & -> & _)]; [now left|right]. split; [exact O|]. exists f. reflexivity. }
  assert (B4 : p_buffer p3 = q) by (rewrite B3; reflexivity).
  assert (Q3 : query (p_url p3) = Some []) by (rewrite U3; reflexivity).
  assert (S3 : Forall scalar (p_buffer p3)) by (rewrite B4; exact Sq).
  assert (L3 : (List.length (p_buffer p3) <= List.length input)%nat) by (rewrite B4; exact Lq).
  apply R3. destruct Hh as [->|(f & -> & Vf)].
  - pose proof (run_query_end p3 _ [] St3 E3 Q3 En3 S3 L3) as K. rewrite B4, U3 in K. exact K.
  - pose proof (run_query_hash p3 _ [] f O St3 E3 Q3 En3 S3 L3 Vf) as K. rewrite B4, U3 in K. exact K.
Qed.

Lemma run_path_hash b p a f : over = None -> stands p a (b ++ 0x23 :: f) -> Forall visible b -> p_state p = Path -> ~ In 0x3F b -> ~ In 0x23 b -> Forall visible f ->
  runs p (true, set_fragment (Some (pe is_fragment_percent_encode_set f)) (whole_path (p_url p) (p_buffer p) b)).
Proof.
  intros O St V E N1 N2 Vf. destruct (run_path b p a (0x23 :: f) St V E (fun _ => conj N1 N2)) as (p' & St' & E' & En' & U' & B' & R').
  apply R'. clear R'. destruct (stands_cur _ _ _ _ St') as (C & L0 & L).
  pose proof (path_handle_end p' 0x23 E' C (or_intror (conj O (or_intror eq_refl)))) as H. cbn [Z.eqb Pos.eqb] in H.
  rewrite whole_path_last, <- B'. rewrite U' in H. pj.
  apply (runs_step _ _ _ H); [exact L|]. pj.
  match goal with |- runs ?x _ => set (p2 := x) end.
  assert (St2 : stands p2 ((a ++ b) ++ [0x23]) f) by (apply (stands_next p' _ _ _ _ St'); reflexivity).
  exact (run_fragment f p2 _ [] St2 Vf eq_refl eq_refl).
Qed.

(** ** Port *)

(** The number written by a string of decimal digits. *)
Definition decimal (s : list Z) : Z := fold_left (fun n c => n * 10 + (c - 0x30)) s 0.
Definition digits (s : list Z) : Prop := Forall (fun c => 0x30 <= c <= 0x39) s.

Lemma port_value_decimal_aux s : digits s -> forall n, 0 <= n -> fold_left (fun n c => n * 10 + (c - 0x30)) s n < 2 ^ 32 ->
  fold_left (fun n cp => (n * 10 + (cp - 0x30)) mod 2 ^ 32) s n = fold_left (fun n c => n * 10 + (c - 0x30)) s n.
Proof.
  assert (G : forall s n, digits s -> 0 <= n -> n <= fold_left (fun n c => n * 10 + (c - 0x30)) s n).
  { induction s0 as [|c s0 IH]; intros n D N; cbn [fold_left]; [lia|]. inversion D; subst. specialize (IH (n * 10 + (c - 48)) H2 ltac:(lia)). lia. }
  induction 1 as [|c s D Ds IH]; intros n N L; [reflexivity|]. cbn [fold_left] in *.
  pose proof (G s (n * 10 + (c - 48)) Ds ltac:(lia)). rewrite Z.mod_small by lia. apply IH; lia.
Qed.

Lemma decimal_bound s : digits s -> 0 <= decimal s < 10 ^ zlen s.
Proof.
  intros D. unfold decimal. assert (G : forall s n, digits s -> 0 <= n -> 0 <= fold_left (fun n c => n * 10 + (c - 0x30)) s n < (n + 1) * 10 ^ zlen s).
  { clear. induction s as [|c s IH]; intros n D N; cbn [fold_left]; [change (zlen (@nil Z)) with 0; lia|]. inversion D; subst.
    specialize (IH (n * 10 + (c - 48)) H2 ltac:(lia)). rewrite zlen_cons. rewrite Z.pow_add_r by (pose proof (zlen_pos s); lia).
    pose proof (Z.pow_pos_nonneg 10 (zlen s) ltac:(lia) (zlen_pos s)). nia. }
  specialize (G s 0 D ltac:(lia)). lia.
Qed.

Lemma port_value_decimal s : digits s -> zlen s <= 5 -> port_value s = decimal s.
Proof.
  intros D L. apply port_value_decimal_aux; [exact D|lia|]. pose proof (decimal_bound s D) as B. unfold decimal in B.
  assert (10 ^ zlen s <= 10 ^ 5) by (apply Z.pow_le_mono_r; lia). lia.
Qed.

Lemma run_port_digits b : forall p a h, stands p a (b ++ h) -> digits b -> p_state p = Port ->
  exists p', stands p' (a ++ b) h /\ p_state p' = Port /\ p_enc p' = p_enc p /\ p_url p' = p_url p /\ p_buffer p' = p_buffer p ++ b /\
  (forall r, runs p' r -> runs p r).
Proof.
  induction b as [|c b IH]; intros p a h St V E.
  - exists p. rewrite !app_nil_r. cbn [app] in St. repeat split; auto; apply St.
  - cbn [app] in St. destruct (stands_cur _ _ _ _ St) as (C & L0 & L). inversion V as [|x y Vc Vb]; subst x y.
    assert (H : handle idna input base over fuel p = Val (Go (push [c] p))).
    { unfold handle. rewrite E. unfold on_port. rewrite C. replace (is_ascii_digit c) with true by (unfold is_ascii_digit; lia). reflexivity. }
    destruct (IH (move 1 (push [c] p)) (a ++ [c]) h) as (p' & St' & E' & En' & U' & B' & R'); auto.
    { apply (stands_next p _ _ _ _ St). reflexivity. }
    exists p'. split; [rewrite <- app_assoc in St'; exact St'|]. pj. rewrite <- app_assoc in B'. repeat split; auto.
    intros r R. apply (runs_step _ _ _ H L), R', R.
Qed.

Definition kept_port (u : url) (n : Z) : option Z := match default_port (scheme u) with Some d => if n =? d then None else Some n | None => Some n end.
End Run.
