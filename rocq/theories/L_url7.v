(** Lemmas for M_url: what the parser makes of the parts of an absolute URL. *)
From Coq Require Import String.
From Coq Require Import ZArith List Bool Lia.
From Verif Require Import M_unicode M_infra M_percent M_ip M_encoding M_labels M_url.
From Verif Require Import L_unicode L_url L_url2 L_url3 L_url4 L_url5.
Import ListNotations.
Open Scope string_scope.
Open Scope list_scope.
Open Scope Z_scope.

(** * Query and fragment *)

Definition qtext (o : option (list Z)) : list Z := match o with Some q => 0x3F :: q | None => [] end.
Definition ftext (o : option (list Z)) : list Z := match o with Some f => 0x23 :: f | None => [] end.
Definition with_fragment (o : option (list Z)) (u : url) : url :=
  match o with Some f => set_fragment (Some (pe is_fragment_percent_encode_set f)) u | None => u end.
Definition with_query (o : option (list Z)) (u : url) : url :=
  match o with Some q => set_query (Some (pe (query_set u) q)) u | None => u end.
(** The path, query and fragment after the authority. *)
Definition finish (u : url) (b : list Z) (oq of : option (list Z)) : url :=
  with_fragment of (with_query oq (set_path (set_path_value u b) u)).

(** * Userinfo *)

Fixpoint creds (l : list Z) (token : bool) (u : url) : bool * url :=
  match l with
  | [] => (token, u)
  | c :: r =>
      if (c =? 0x3A) && negb token then creds r true u
      else creds r token (if token then set_pass (password u ++ pe is_userinfo_percent_encode_set [c]) u
                          else set_user (username u ++ pe is_userinfo_percent_encode_set [c]) u)
  end.
Fixpoint scan (t buf : list Z) (at_ token : bool) (u : url) : list Z * bool * bool * url :=
  match t with
  | [] => (buf, at_, token, u)
  | c :: r =>
      if c =? 0x40 then let '(tok, v) := creds (if at_ then lit "%40" ++ buf else buf) token u in scan r [] true tok v
      else scan r (buf ++ [c]) at_ token u
  end.

Lemma creds_app x : forall y token u, creds (x ++ y) token u = let '(t, v) := creds x token u in creds y t v.
Proof.
  induction x as [|c x IH]; intros y token u; [reflexivity|]. cbn [app creds]. destruct (_ && _); apply IH.
Qed.
Lemma creds_at l token u : creds (lit "%40" ++ l) token u = creds (0x40 :: l) token u.
Proof.
  change (lit "%40" ++ l) with (0x25 :: 0x34 :: 0x30 :: l). cbn [creds]. change (0x25 =? 0x3A) with false. change (0x34 =? 0x3A) with false.
  change (0x30 =? 0x3A) with false. change (0x40 =? 0x3A) with false. cbn [andb].
  change (pe is_userinfo_percent_encode_set [0x25]) with [0x25]. change (pe is_userinfo_percent_encode_set [0x34]) with [0x34].
  change (pe is_userinfo_percent_encode_set [0x30]) with [0x30]. change (pe is_userinfo_percent_encode_set [0x40]) with [0x25; 0x34; 0x30].
  destruct token; pj; rewrite <- !app_assoc; reflexivity.
Qed.
Lemma scan_none t : forall buf at_ token u, ~ In 0x40 t -> scan t buf at_ token u = (buf ++ t, at_, token, u).
Proof.
  induction t as [|c t IH]; intros buf at_ token u N; [now rewrite app_nil_r|]. cbn [scan].
  replace (c =? 0x40) with false by (symmetry; apply Z.eqb_neq; intros ->; apply N; now left).
  rewrite IH by (intros H; apply N; now right). now rewrite <- app_assoc.
Qed.
Lemma scan_at us : forall hp buf at_ token u, ~ In 0x40 hp ->
  scan (us ++ 0x40 :: hp) buf at_ token u = let '(t, v) := creds (if at_ then 0x40 :: buf ++ us else buf ++ us) token u in (hp, true, t, v).
Proof.
  assert (A : forall (at_ : bool) buf token u, creds (if at_ then lit "%40" ++ buf else buf) token u = creds (if at_ then 0x40 :: buf else buf) token u).
  { intros [] buf token u; [apply creds_at|reflexivity]. }
  induction us as [|c us IH]; intros hp buf at_ token u N.
  - rewrite app_nil_r. cbn [app scan]. change (0x40 =? 0x40) with true. cbv iota. rewrite A. destruct (creds _ token u) as [t v]. rewrite scan_none by exact N. reflexivity.
  - cbn [app scan]. destruct (c =? 0x40) eqn:C.
    + apply Z.eqb_eq in C. subst c. rewrite A. destruct (creds (if at_ then 0x40 :: buf else buf) token u) as [t v] eqn:E. rewrite IH by exact N.
      replace (if at_ then 0x40 :: buf ++ 0x40 :: us else buf ++ 0x40 :: us) with ((if at_ then 0x40 :: buf else buf) ++ 0x40 :: us) by (destruct at_; reflexivity).
      rewrite creds_app, E. reflexivity.
    + rewrite IH by exact N. rewrite <- app_assoc. reflexivity.
Qed.

(** The text before the first colon, and after it. *)
Fixpoint colon (s : list Z) : list Z * option (list Z) :=
  match s with
  | [] => ([], None)
  | c :: r => if c =? 0x3A then ([], Some r) else let '(x, y) := colon r in (c :: x, y)
  end.
Definition with_userinfo (us : list Z) (u : url) : url :=
  let '(x, y) := colon us in
  let u := set_user (username u ++ pe is_userinfo_percent_encode_set x) u in
  match y with Some p => set_pass (password u ++ pe is_userinfo_percent_encode_set p) u | None => u end.

Lemma set_user_id u : set_user (username u) u = u.
Proof. destruct u; reflexivity. Qed.
Lemma set_pass_id u : set_pass (password u) u = u.
Proof. destruct u; reflexivity. Qed.
Lemma creds_pass l : forall u, creds l true u = (true, set_pass (password u ++ pe is_userinfo_percent_encode_set l) u).
Proof.
  induction l as [|c l IH]; intros u; [cbn [creds pe flat_map]; rewrite app_nil_r, set_pass_id; reflexivity|]. cbn [creds negb]. rewrite andb_false_r.
  rewrite IH. pj. rewrite (pe_cons _ c l), app_assoc. reflexivity.
Qed.
Lemma creds_user l : forall u, snd (creds l false u) = with_userinfo l u.
Proof.
  induction l as [|c l IH]; intros u; [unfold with_userinfo; cbn [creds colon snd pe flat_map]; rewrite app_nil_r, set_user_id; reflexivity|].
  unfold with_userinfo. cbn [creds colon negb]. rewrite andb_true_r. destruct (c =? 0x3A).
  - rewrite creds_pass. cbn [snd pe flat_map]. rewrite app_nil_r, set_user_id. reflexivity.
  - rewrite IH. unfold with_userinfo. destruct (colon l) as [x y]. pj. rewrite (pe_cons _ c x), app_assoc. destruct y; reflexivity.
Qed.

Section Abs.
Variable idna : list Z -> option (list Z).
Variable input : list Z.
Variable base : option url.
Variable fuel : nat.
Hypothesis Fu : (List.length input + 1 < fuel)%nat.

Local Notation R := (runs idna input base None fuel).
Local Notation H_ := (handle idna input base None fuel).

Lemma step p q r : H_ p = Val (Go q) -> p_pointer q < size input -> R (move 1 q) r -> R p r.
Proof. intros H L K. exact (runs_step idna input base None fuel Fu p q r H L K). Qed.
Lemma last_step p q : H_ p = Val (Go q) -> size input <= p_pointer q -> R p (true, p_url q).
Proof. intros H L. exact (runs_last idna input base None fuel Fu p q H L). Qed.
Lemma failed p u : H_ p = Val (Failure u) -> R p (false, u).
Proof. intros H. exact (runs_fail idna input base None fuel p u H). Qed.
Lemma cur p a c b : stands input p a (c :: b) -> current input p = c /\ 0 <= p_pointer p /\ p_pointer p < size input.
Proof. exact (stands_cur input fuel Fu p a c b). Qed.
Lemma eof p a : stands input p a [] -> current input p = EOF /\ p_pointer p = size input.
Proof. exact (stands_eof input fuel Fu p a). Qed.
Lemma nextp p q a c b : stands input p a (c :: b) -> p_pointer q = p_pointer p + 1 -> stands input q (a ++ [c]) b.
Proof. intros X Y. eapply stands_next; eauto. Qed.
Lemma samep p q a b : stands input p a b -> p_pointer q = p_pointer p -> stands input q a b.
Proof. now apply stands_same. Qed.
Lemma in_bounds p a b : stands input p a b -> 0 <= p_pointer p <= size input.
Proof. intros [E P]. unfold size. rewrite P, E, app_length. unfold zlen. lia. Qed.

(** ** The end of the URL *)

Definition tail_ok (b : list Z) (oq of : option (list Z)) : Prop :=
  Forall visible (b ++ qtext oq ++ ftext of) /\ ~ In 0x3F b /\ ~ In 0x23 b /\ match oq with Some q => ~ In 0x23 q | None => True end.

Lemma run_from_path b p a oq of : stands input p a (b ++ qtext oq ++ ftext of) -> p_state p = Path -> p_enc p = UTF_8 -> tail_ok b oq of ->
  R p (true, with_fragment of (with_query oq (whole_path (p_url p) (p_buffer p) b))).
Proof.
  intros St E En (V & N1 & N2 & N3). apply Forall_app in V as [Vb V]. apply Forall_app in V as [Vq Vf].
  destruct oq as [q|]; cbn [qtext with_query] in *.
  - inversion Vq as [|x y _ Vq']; subst x y.
    assert (Hh : ftext of = [] \/ exists f, ftext of = 0x23 :: f /\ Forall visible f).
    { destruct of as [f|]; [right; exists f; split; [reflexivity|now inversion Vf]|now left]. }
    pose proof (run_path_query idna input base None fuel Fu b p a q (ftext of) eq_refl St Vb E N1 N2 En Vq' N3 Hh) as K.
    destruct of as [f|]; exact K.
  - destruct of as [f|]; cbn [ftext with_fragment app] in *.
    + exact (run_path_hash idna input base None fuel Fu b p a f eq_refl St Vb E N1 N2 ltac:(now inversion Vf)).
    + rewrite app_nil_r in St. exact (run_path_end idna input base None fuel Fu b p a St Vb E (fun _ => conj N1 N2)).
Qed.

Lemma run_from_query p a q of : stands input p a (q ++ ftext of) -> p_state p = Query -> p_enc p = UTF_8 -> p_buffer p = [] ->
  query (p_url p) = Some [] -> Forall visible (q ++ ftext of) -> ~ In 0x23 q ->
  R p (true, with_fragment of (set_query (Some (pe (query_set (p_url p)) q)) (p_url p))).
Proof.
  intros St E En B Qu V N. apply Forall_app in V as [Vq Vf].
  assert (L : (List.length (p_buffer p) + List.length q <= List.length input)%nat).
  { rewrite B. destruct St as [-> _]. rewrite !app_length. cbn [List.length]. lia. }
  assert (Hh : ftext of = [] \/ @None pstate = None /\ exists f, ftext of = 0x23 :: f).
  { destruct of as [f|]; [right; split; [reflexivity|now exists f]|now left]. }
  destruct (run_query idna input base None fuel Fu q p a [] (ftext of) St Vq E Qu En ltac:(rewrite B; constructor) L (fun _ => N) Hh) as (p' & St' & E' & En' & U' & B' & K).
  apply K. rewrite B in B'. cbn [app] in B'.
  assert (Sb : Forall scalar (p_buffer p')) by (rewrite B'; revert Vq; apply Forall_impl; intros c []; assumption).
  assert (Lb : (List.length (p_buffer p') <= List.length input)%nat) by (rewrite B'; lia).
  destruct of as [f|]; cbn [ftext with_fragment] in *.
  - pose proof (run_query_hash idna input base None fuel Fu p' (a ++ q) [] f eq_refl St' E' ltac:(now rewrite U') En' Sb Lb ltac:(now inversion Vf)) as G.
    rewrite U', B' in G. exact G.
  - pose proof (run_query_end idna input base None fuel Fu p' (a ++ q) [] St' E' ltac:(now rewrite U') En' Sb Lb) as G. rewrite U', B' in G. exact G.
Qed.

Lemma run_tail p a b oq of : stands input p a (b ++ qtext oq ++ ftext of) -> p_state p = PathStart -> p_buffer p = [] -> p_enc p = UTF_8 ->
  path (p_url p) = [] -> tail_ok b oq of -> R p (true, finish (p_url p) b oq of).
Proof.
  intros St E B En Pa Ok. set (u := p_url p) in *.
  assert (H : H_ p = on_path_start None p (current input p)) by (unfold handle; rewrite E; reflexivity).
  unfold on_path_start in H. fold u in H. cbn [overridden negb andb] in H.
  assert (Fin : forall q a' b', stands input q a' (b' ++ qtext oq ++ ftext of) -> p_state q = Path -> p_enc q = UTF_8 -> p_url q = u -> p_buffer q = [] ->
     tail_ok b' oq of -> set_path_value u b = resolve (is_file u) [] (segments u b') -> R q (true, finish u b oq of)).
  { intros q a' b' Sq Eq Enq Uq Bq Okq V. pose proof (run_from_path b' q a' oq of Sq Eq Enq Okq) as K. rewrite Uq, Bq in K.
    unfold whole_path in K. rewrite prepend_nil in K by apply segments_nonempty. rewrite Pa, <- V in K. exact K. }
  pose proof (in_bounds p a _ St) as Bd.
  assert (Same : H_ p = go Path (move (-1) p) -> set_path_value u b = resolve (is_file u) [] (segments u b) -> R p (true, finish u b oq of)).
  { intros G V. apply (step _ _ _ G); [pj; lia|]. apply (Fin _ a b); try assumption; try reflexivity.
    apply (samep p); [exact St|]. pj. lia. }
  destruct b as [|c b].
  - cbn [app] in St. destruct (is_special u) eqn:Sp.
    { assert (c0 : (current input p =? 0x2F) || (current input p =? 0x5C) = false).
      { destruct oq as [q|]; [|destruct of as [f|]]; cbn [qtext ftext app] in St; [apply cur in St as [-> _]|apply cur in St as [-> _]|apply eof in St as [-> _]]; reflexivity. }
      rewrite c0 in H. apply Same; [exact H|]. unfold set_path_value. rewrite Sp.
      change (segments u []) with [@nil Z]. unfold resolve. destruct (is_file u); reflexivity. }
    assert (Sv : set_path (set_path_value u []) u = u) by (unfold set_path_value; rewrite Sp, <- Pa; apply set_path_id).
    unfold finish. rewrite Sv. destruct Ok as (V & _ & _ & N).
    destruct oq as [q|]; [|destruct of as [f|]]; cbn [qtext ftext app] in St, V; cbn [with_query with_fragment].
    + destruct (cur _ _ _ _ St) as (C & L0 & L). rewrite C in H. change (0x3F =? 0x3F) with true in H. cbv iota in H.
      apply (step _ _ _ H); [pj; lia|].
      match goal with |- R ?x _ => pose proof (run_from_query x (a ++ [0x3F]) q of) as K end.
      pj. fold u in K. apply K; auto.
      * apply (nextp p); [exact St|]. reflexivity.
      * now inversion V.
    + destruct (cur _ _ _ _ St) as (C & L0 & L). rewrite C in H. change (0x23 =? 0x3F) with false in H. change (0x23 =? 0x23) with true in H. cbv iota in H.
      apply (step _ _ _ H); [pj; lia|].
      match goal with |- R ?x _ => pose proof (run_fragment idna input base None fuel Fu f x (a ++ [0x23]) []) as K end.
      pj. fold u in K. apply K; auto.
      * apply (nextp p); [exact St|]. reflexivity.
      * now inversion V.
    + destruct (eof _ _ St) as [C P]. rewrite C in H. change (EOF =? 0x3F) with false in H. change (EOF =? 0x23) with false in H. change (EOF =? EOF) with true in H. cbn [negb] in H. cbv iota in H.
      apply (last_step _ _ H). lia.
  - cbn [app] in St. destruct (cur _ _ _ _ St) as (C & L0 & L). rewrite C in H. destruct Ok as (V & N1 & N2 & N3). cbn [app] in V.
    pose proof (Forall_inv V) as [_ Vc]. pose proof (Forall_inv_tail V) as V'.
    assert (c <> 0x3F /\ c <> 0x23) as [Q1 Q2] by (split; intros ->; [apply N1|apply N2]; now left).
    assert (Ok' : tail_ok b oq of) by (split; [exact V'|]; split; [intros G; apply N1; now right|]; split; [intros G; apply N2; now right|exact N3]).
    assert (Sep : H_ p = go Path p -> path_sep u c = true -> R p (true, finish u (c :: b) oq of)).
    { intros G Ps. apply (step _ _ _ G); [pj; lia|]. apply (Fin _ (a ++ [c]) b); try assumption; try reflexivity.
      - apply (nextp p); [exact St|]. pj. lia.
      - unfold set_path_value. rewrite Ps. reflexivity. }
    destruct (path_sep u c) eqn:Ps.
    + apply Sep; [|reflexivity]. rewrite H. unfold path_sep in Ps. destruct (is_special u); cbn [andb] in Ps.
      * rewrite Ps. reflexivity.
      * rewrite orb_false_r in Ps. replace (c =? 0x3F) with false by lia. replace (c =? 0x23) with false by lia.
        replace (c =? EOF) with false by (unfold EOF; lia). cbn [negb]. rewrite Ps. reflexivity.
    + apply Same; [|unfold set_path_value; rewrite Ps; reflexivity]. rewrite H. unfold path_sep in Ps. destruct (is_special u); cbn [andb] in Ps.
      * rewrite Ps. reflexivity.
      * rewrite orb_false_r in Ps. replace (c =? 0x3F) with false by lia. replace (c =? 0x23) with false by lia.
        replace (c =? EOF) with false by (unfold EOF; lia). cbn [negb]. rewrite Ps. reflexivity.
Qed.

(** ** The authority *)

(** Code points that do not end the authority. *)
Definition inner (u : url) (c : Z) : Prop := visible c /\ ends_authority u c = false.
Definition closes (u : url) (h : list Z) : Prop := h = [] \/ exists c r, h = c :: r /\ ends_authority u c = true.

Lemma credentials_spec l : forall token u, Forall scalar l -> credentials fuel l token u = Val (creds l token u).
Proof.
  induction l as [|c l IH]; intros token u S; [reflexivity|]. inversion S; subst. cbn [credentials creds].
  destruct (_ && _); [apply IH; assumption|]. rewrite (enc_one input fuel Fu c) by assumption. cbn [obind]. apply IH. assumption.
Qed.

Lemma creds_scheme l : forall token u, scheme (snd (creds l token u)) = scheme u.
Proof. induction l as [|c l IH]; intros token u; [reflexivity|]. cbn [creds]. destruct (_ && _); rewrite IH; [reflexivity|]. destruct token; reflexivity. Qed.
Lemma scan_scheme t : forall buf at_ token u, scheme (snd (scan t buf at_ token u)) = scheme u.
Proof.
  induction t as [|c t IH]; intros buf at_ token u; [reflexivity|]. cbn [scan]. destruct (c =? 0x40); [|apply IH].
  destruct (creds _ token u) as [k v] eqn:E. rewrite IH. change v with (snd (k, v)). rewrite <- E. apply creds_scheme.
Qed.
Lemma ends_same u v c : scheme v = scheme u -> ends_authority v c = ends_authority u c.
Proof. intros E. unfold ends_authority, is_special. now rewrite E. Qed.

Lemma closes_current p a u h : stands input p a h -> closes u h -> ends_authority u (current input p) = true.
Proof.
  intros St [->|(c & r & -> & E)]; [apply eof in St as [-> _]; reflexivity|]. apply cur in St as [-> _]. exact E.
Qed.

Lemma run_authority t : forall p a h r, stands input p a (t ++ h) -> p_state p = Authority -> Forall (inner (p_url p)) t -> closes (p_url p) h ->
  Forall scalar (p_buffer p) -> zlen (p_buffer p) <= zlen a ->
  let '(buf, at_, tok, u) := scan t (p_buffer p) (p_at p) (p_token p) (p_url p) in
  (at_ = true -> buf <> []) ->
  (forall q, p_state q = Host -> p_buffer q = [] -> p_brackets q = p_brackets p -> p_enc q = p_enc p -> p_url q = u ->
     p_pointer q = zlen a + zlen t - zlen buf -> R q r) -> R p r.
Proof.
  induction t as [|c t IH]; intros p a h r St E It Ch Sb Lb.
  - cbn [scan]. intros Na K. cbn [app] in St. pose proof (in_bounds _ _ _ St) as Bd. pose proof (closes_current _ _ _ _ St Ch) as Ce.
    assert (N40 : current input p <> 0x40) by (intros G; rewrite G in Ce; unfold ends_authority in Ce; cbn in Ce; rewrite andb_false_r in Ce; discriminate Ce).
    assert (H : H_ p = Val (Go (s_state Host (s_buffer [] (move (- (Z.of_nat (List.length (p_buffer p)) + 1)) p))))).
    { unfold handle. rewrite E. unfold on_authority. replace (current input p =? 0x40) with false by lia. rewrite Ce.
      destruct (p_at p); cbn [andb]; [|reflexivity]. destruct (p_buffer p); [now destruct (Na eq_refl)|]. reflexivity. }
    apply (step _ _ _ H); [pj; lia|]. apply K; try reflexivity. pj. destruct St as [_ P]. rewrite P, zlen_nil. unfold zlen. lia.
  - cbn [app] in St. inversion It as [|x y [Vc Nc] It']; subst x y. destruct (cur _ _ _ _ St) as (C & L0 & L). cbn [scan].
    destruct (c =? 0x40) eqn:C40.
    + destruct (creds (if p_at p then lit "%40" ++ p_buffer p else p_buffer p) (p_token p) (p_url p)) as [tok v] eqn:Cr.
      set (p2 := s_buffer [] (s_token tok (s_at true (s_url v p)))).
      assert (H : H_ p = Val (Go p2)).
      { unfold handle. rewrite E. unfold on_authority. rewrite C, C40. rewrite credentials_spec.
        - rewrite Cr. reflexivity.
        - destruct (p_at p); [|exact Sb]. apply Forall_app. split; [|exact Sb]. change (lit "%40") with [0x25; 0x34; 0x30]. repeat constructor; unfold scalar; lia. }
      assert (Sv : scheme v = scheme (p_url p)). { change v with (snd (tok, v)). rewrite <- Cr. apply creds_scheme. }
      pose proof (IH (move 1 p2) (a ++ [c]) h r) as G. subst p2. pj. destruct (scan t [] true tok v) as [[[buf at_] tk] w]. intros Na K.
      apply (step _ _ _ H); [pj; lia|]. apply G; auto.
      * apply (nextp p); [exact St|]. reflexivity.
      * revert It'. apply Forall_impl. intros x [X1 X2]. split; [exact X1|]. rewrite (ends_same _ _ _ Sv). exact X2.
      * destruct Ch as [->|(x & y & -> & X)]; [now left|right]. exists x, y. split; [reflexivity|]. rewrite (ends_same _ _ _ Sv). exact X.
      * rewrite zlen_nil. apply zlen_pos.
      * intros q Q1 Q2 Q3 Q4 Q5 Q6. apply K; auto. rewrite Q6, zlen_app, !zlen_cons, zlen_nil. lia.
    + set (p2 := push [c] p).
      assert (H : H_ p = Val (Go p2)).
      { unfold handle. rewrite E. unfold on_authority. rewrite C, C40, Nc. reflexivity. }
      pose proof (IH (move 1 p2) (a ++ [c]) h r) as G. subst p2. pj.
      destruct (scan t (p_buffer p ++ [c]) (p_at p) (p_token p) (p_url p)) as [[[buf at_] tk] w]. intros Na K.
      apply (step _ _ _ H); [pj; lia|]. apply G; auto.
      * apply (nextp p); [exact St|]. reflexivity.
      * apply Forall_app. split; [exact Sb|]. constructor; [apply Vc|constructor].
      * rewrite !zlen_app, !zlen_cons, !zlen_nil. lia.
      * intros q Q1 Q2 Q3 Q4 Q5 Q6. apply K; auto. rewrite Q6, zlen_app, !zlen_cons, zlen_nil. lia.
Qed.

(** ** The host *)

(** No colon outside brackets; and whether the text ends inside brackets. *)
Fixpoint colon_free (br : bool) (s : list Z) : Prop :=
  match s with
  | [] => True
  | c :: r => (c = 0x3A -> br = true) /\ colon_free (if c =? 0x5D then false else if c =? 0x5B then true else br) r
  end.
Fixpoint in_brackets (br : bool) (s : list Z) : bool :=
  match s with [] => br | c :: r => in_brackets (if c =? 0x5D then false else if c =? 0x5B then true else br) r end.

Lemma run_host_scan s : forall p a h, stands input p a (s ++ h) -> p_state p = Host -> Forall (inner (p_url p)) s -> colon_free (p_brackets p) s ->
  exists p', stands input p' (a ++ s) h /\ p_state p' = Host /\ p_buffer p' = p_buffer p ++ s /\ p_brackets p' = in_brackets (p_brackets p) s /\
    p_enc p' = p_enc p /\ p_url p' = p_url p /\ (forall r, R p' r -> R p r).
Proof.
  induction s as [|c s IH]; intros p a h St E It Cf.
  - exists p. rewrite !app_nil_r. repeat split; auto; apply St.
  - cbn [app] in St. destruct (cur _ _ _ _ St) as (C & L0 & L). inversion It as [|x y [Vc Nc] It']; subst x y. cbn [colon_free in_brackets] in *. destruct Cf as [Cc Cf].
    set (p2 := push [c] (if c =? 0x5D then s_brackets false (if c =? 0x5B then s_brackets true p else p) else if c =? 0x5B then s_brackets true p else p)).
    assert (H : H_ p = Val (Go p2)).
    { unfold handle. rewrite E. unfold on_hostname. cbn [overridden andb]. rewrite C, Nc. replace ((c =? 0x3A) && negb (p_brackets p)) with false; [reflexivity|].
      destruct (Z.eqb_spec c 0x3A) as [X|X]; [rewrite (Cc X)|]; reflexivity. }
    assert (F : p_pointer p2 = p_pointer p /\ p_state p2 = Host /\ p_buffer p2 = p_buffer p ++ [c] /\
      p_brackets p2 = (if c =? 0x5D then false else if c =? 0x5B then true else p_brackets p) /\ p_enc p2 = p_enc p /\ p_url p2 = p_url p).
    { subst p2. destruct (c =? 0x5D), (c =? 0x5B); pj; auto 10. }
    destruct F as (F1 & F2 & F3 & F4 & F5 & F6).
    destruct (IH (move 1 p2) (a ++ [c]) h) as (p' & St' & E' & B' & Br' & En' & U' & K); pj.
    + apply (nextp p); [exact St|]. pj. lia.
    + exact F2.
    + rewrite F6. exact It'.
    + rewrite F4. exact Cf.
    + exists p'. rewrite <- app_assoc in St'. split; [exact St'|]. split; [exact E'|]. rewrite B', Br', En', U', F3, F4, F5, F6. rewrite <- app_assoc. repeat split; auto.
      intros r Rr. apply (step _ _ _ H); [lia|]. apply K, Rr.
Qed.

Lemma run_host_end p a s h hh r : stands input p a (s ++ h) -> p_state p = Host -> p_buffer p = [] -> p_brackets p = false ->
  Forall (inner (p_url p)) s -> colon_free false s -> closes (p_url p) h ->
  parse_host idna fuel s (negb (is_special (p_url p))) = Val hh -> (is_special (p_url p) = true -> s <> []) ->
  (hh = HNone -> r = (false, p_url p)) ->
  (hh <> HNone -> forall q, stands input q (a ++ s) h -> p_state q = PathStart -> p_buffer q = [] -> p_enc q = p_enc p -> p_url q = set_host (Some hh) (p_url p) -> R q r) ->
  R p r.
Proof.
  intros St E B Br It Cf Ch Ph Ne F K. destruct (run_host_scan s p a h St E It ltac:(now rewrite Br)) as (p' & St' & E' & B' & Br' & En' & U' & G).
  apply G. rewrite B in B'. cbn [app] in B'. pose proof (closes_current _ _ _ _ St' Ch) as Ce. pose proof (in_bounds _ _ _ St') as Bd.
  assert (N3A : current input p' <> 0x3A) by (intros X; rewrite X in Ce; unfold ends_authority in Ce; cbn in Ce; rewrite andb_false_r in Ce; discriminate Ce).
  assert (H : H_ p' = match hh with HNone => Val (Failure (p_url p')) | _ => Val (Go (s_state PathStart (s_buffer [] (on_url (set_host (Some hh)) (move (-1) p'))))) end).
  { unfold handle. rewrite E'. unfold on_hostname. cbn [overridden andb]. replace (current input p' =? 0x3A) with false by lia. cbn [andb]. rewrite U', Ce.
    replace (is_special (p_url p) && negb (nonempty (p_buffer (move (-1) p')))) with false.
    - change (p_buffer (move (-1) p')) with (p_buffer p'). rewrite B', Ph. cbn [obind]. unfold fail, go. pj. rewrite U'. destruct hh; reflexivity.
    - change (p_buffer (move (-1) p')) with (p_buffer p'). rewrite B'. destruct (is_special (p_url p)); [|reflexivity]. destruct s; [now destruct (Ne eq_refl)|]. reflexivity. }
  assert (D : hh = HNone \/ hh <> HNone) by (destruct hh; auto; right; discriminate).
  destruct D as [->|D].
  - rewrite (F eq_refl). rewrite <- U'. apply failed, H.
  - assert (H2 : H_ p' = Val (Go (s_state PathStart (s_buffer [] (on_url (set_host (Some hh)) (move (-1) p')))))) by (rewrite H; destruct hh; congruence || reflexivity).
    apply (step _ _ _ H2); [pj; lia|]. apply (K D); try reflexivity; pj; try assumption.
    + apply (samep p'); [exact St'|]. pj. lia.
    + now rewrite U'.
Qed.

Lemma run_host_colon p a s h hh r : stands input p a (s ++ 0x3A :: h) -> p_state p = Host -> p_buffer p = [] -> p_brackets p = false ->
  Forall (inner (p_url p)) s -> colon_free false s -> in_brackets false s = false -> s <> [] ->
  parse_host idna fuel s (negb (is_special (p_url p))) = Val hh ->
  (hh = HNone -> r = (false, p_url p)) ->
  (hh <> HNone -> forall q, stands input q (a ++ s ++ [0x3A]) h -> p_state q = Port -> p_buffer q = [] -> p_enc q = p_enc p -> p_url q = set_host (Some hh) (p_url p) -> R q r) ->
  R p r.
Proof.
  intros St E B Br It Cf Ib Ne Ph F K. destruct (run_host_scan s p a (0x3A :: h) St E It ltac:(now rewrite Br)) as (p' & St' & E' & B' & Br' & En' & U' & G).
  apply G. rewrite B in B'. cbn [app] in B'. destruct (cur _ _ _ _ St') as (C & L0 & L). rewrite Br, Ib in Br'.
  assert (H : H_ p' = match hh with HNone => Val (Failure (p_url p')) | _ => Val (Go (s_state Port (s_buffer [] (on_url (set_host (Some hh)) p')))) end).
  { unfold handle. rewrite E'. unfold on_hostname. cbn [overridden andb]. rewrite C, Br', B'. change (0x3A =? 0x3A) with true. cbn [negb andb].
    replace (nonempty s) with true by (destruct s; congruence || reflexivity). cbn [negb]. rewrite U', Ph. cbn [obind]. unfold fail, go. rewrite U'. destruct hh; reflexivity. }
  assert (D : hh = HNone \/ hh <> HNone) by (destruct hh; auto; right; discriminate).
  destruct D as [->|D].
  - rewrite (F eq_refl). rewrite <- U'. apply failed, H.
  - assert (H2 : H_ p' = Val (Go (s_state Port (s_buffer [] (on_url (set_host (Some hh)) p'))))) by (rewrite H; destruct hh; congruence || reflexivity).
    apply (step _ _ _ H2); [pj; lia|]. apply (K D); try reflexivity; pj; try assumption.
    + rewrite app_assoc. apply (nextp p'); [exact St'|]. pj. lia.
    + now rewrite U'.
Qed.

(** ** The port *)

Definition port_fits (d : list Z) : bool := negb ((5 <? zlen d) || (0xFFFF <=? decimal d)).
Definition with_port (d : list Z) (u : url) : url := match d with [] => u | _ => set_port (kept_port u (decimal d)) u end.

Lemma run_port p a d h r : stands input p a (d ++ h) -> p_state p = Port -> p_buffer p = [] -> digits d -> closes (p_url p) h ->
  (d <> [] -> port_fits d = false -> r = (false, p_url p)) ->
  (d = [] \/ port_fits d = true ->
   forall q, stands input q (a ++ d) h -> p_state q = PathStart -> p_buffer q = [] -> p_enc q = p_enc p -> p_url q = with_port d (p_url p) -> R q r) -> R p r.
Proof.
  intros St E B D Ch F K. destruct (run_port_digits idna input base None fuel Fu d p a h St D E) as (p' & St' & E' & En' & U' & B' & G).
  apply G. rewrite B in B'. cbn [app] in B'. pose proof (closes_current _ _ _ _ St' ltac:(rewrite <- U' in Ch; exact Ch)) as Ce. pose proof (in_bounds _ _ _ St') as Bd.
  assert (Nd : is_ascii_digit (current input p') = false).
  { unfold is_ascii_digit. unfold ends_authority, EOF in Ce. destruct (is_special (p_url p')); cbn [andb] in Ce; lia. }
  assert (H : H_ p' = match d with [] => Val (Go (s_state PathStart (move (-1) p')))
     | _ => if port_fits d then Val (Go (s_state PathStart (move (-1) (s_buffer [] (on_url (set_port (kept_port (p_url p) (decimal d))) p'))))) else Val (Failure (p_url p')) end).
  { unfold handle. rewrite E'. unfold on_port. rewrite Nd, Ce, B'. cbn [orb overridden]. unfold port_fits. fold (zlen d). destruct d as [|x d]; [reflexivity|]. cbn [nonempty].
    destruct (5 <? zlen (x :: d)) eqn:L5; [reflexivity|]. cbn [orb]. rewrite (port_value_decimal input fuel Fu) by (exact D || lia).
    unfold kept_port. rewrite <- U'. destruct (0xFFFF <=? decimal (x :: d)); reflexivity. }
  destruct d as [|x d].
  - apply (step _ _ _ H); [pj; lia|]. apply K; pj; auto. apply (samep p'); [exact St'|]. pj. lia.
  - destruct (port_fits (x :: d)) eqn:Pf.
    + apply (step _ _ _ H); [pj; lia|]. apply K; pj; auto.
      * apply (samep p'); [exact St'|]. pj. lia.
      * rewrite U'. reflexivity.
    + rewrite (F ltac:(discriminate) eq_refl). rewrite <- U'. apply failed, H.
Qed.
End Abs.
