(** The character iterator of tag_tree: the characters of the text nodes in order. *)
From Coq Require Import List Arith Bool Lia ZArith Sorting.Sorted Permutation.
From Verif Require Import M_tree M_tag L_tag L_tag2 L_tag3 L_tag4 L_tag5 L_tag6.
Import ListNotations.
Open Scope tree_scope.

Section L.
Context {V C : Type} (text : V -> option (list C)) (nul : C).
Notation tags := (@tags V).
Notation tr := (tr V).
Notation mark := (@mark V).

Definition m_val (k : mark) : V := let '(_, _, _, v) := k in v.
Definition m_text (k : mark) : list C := match text (m_val k) with Some s => s | None => [] end.

(** The places a character iterator can stand at, and the characters there *)
Definition cell (k : mark) : list (nat * Z) := map (fun j => (m_id k, Z.of_nat j)) (seq 0 (length (m_text k))).
Definition cells (m : list mark) : list (nat * Z) := flat_map cell m.
Definition chars (m : list mark) : list C := flat_map m_text m.

(** The texts are not empty and shorter than 2^32. *)
Definition solid (k : mark) : Prop := forall s, text (m_val k) = Some s -> s <> [] /\ (Z.of_nat (length s) < 2 ^ 32)%Z.

Lemma cells_app : forall m1 m2, cells (m1 ++ m2) = cells m1 ++ cells m2.
Proof. intros. apply flat_map_app. Qed.

Lemma at_next : forall (a : tags) m1 k m2 fr, Holds a (m1 ++ k :: m2) [] fr ->
  m_id k <> 0 /\ r_next a (m_id k) = Some (hd 0 (ids m2)) /\ r_prev a (m_id k) = Some (last (ids m1) 0) /\ r_val a (m_id k) = Some (m_val k).
Proof.
  intros a m1 k m2 fr H. pose proof (h_links _ _ _ _ H) as K. rewrite ids_app in K. cbn [ids map] in K. apply links_app in K. destruct K as (K1 & K2).
  pose proof (h_m_in H (m_id k)) as W. rewrite ids_app, in_app_iff in W. cbn [ids map In] in W. specialize (W (or_intror (or_introl eq_refl))).
  split; [lia|]. split; [apply links_hd in K2; exact K2|]. split; [apply links_last in K1; exact K1|].
  pose proof (h_marks _ _ _ _ H) as M. apply Forall_app in M. destruct M as [_ M]. inversion M as [|? ? M1 _]; subst.
  destruct k as [[[i h] t] v]. cbn in *. apply M1.
Qed.

Lemma cell_text : forall k s, text (m_val k) = Some s -> s <> [] ->
  exists r, cell k = (m_id k, 0%Z) :: r /\ last (cell k) (c_end) = (m_id k, (Z.of_nat (length s) - 1)%Z).
Proof.
  intros k s E N. unfold cell, m_text. rewrite E. destruct s as [|c s]; [congruence|]. clear N E. change (length (c :: s)) with (S (length s)).
  generalize (length s). intro n.
  exists (map (fun j => (m_id k, Z.of_nat j)) (seq 1 n)). split; [reflexivity|].
  rewrite seq_S, map_app. cbn [map]. rewrite last_snoc. rewrite Nat.add_0_l. f_equal. lia.
Qed.

Lemma cell_none : forall k, text (m_val k) = None -> cell k = [].
Proof. intros k E. unfold cell, m_text. rewrite E. reflexivity. Qed.

Lemma c_next_cells : forall (a : tags) m2 m1 fr fuel, Holds a (m1 ++ m2) [] fr -> Forall solid m2 -> length m2 < fuel ->
  c_next text fuel a (hd 0 (ids m2)) = Some (fst (hd c_end (cells m2))) /\ snd (hd c_end (cells m2)) = 0%Z.
Proof.
  intros a m2. induction m2 as [|k m2 IH]; intros m1 fr fuel H S F; destruct fuel as [|fuel]; cbn in F; try lia.
  - split; reflexivity.
  - destruct (at_next _ _ _ _ _ H) as (N & E1 & E2 & E3). cbn [ids map hd c_next]. destruct (Nat.eqb_spec (m_id k) 0); [congruence|].
    unfold is_text. rewrite E3. inversion S as [|? ? S1 S2]; subst. unfold cells. cbn [flat_map]. destruct (text (m_val k)) as [s|] eqn:E.
    + destruct (cell_text k s E) as (r & -> & _); [apply (S1 s E)|]. split; reflexivity.
    + rewrite (cell_none k E). cbn [app]. rewrite E1. apply (IH (m1 ++ [k]) fr fuel); [rewrite <- app_assoc; exact H|exact S2|lia].
Qed.

Lemma c_prev_cells : forall (a : tags) m1 m2 fr fuel, Holds a (m1 ++ m2) [] fr -> Forall solid m1 -> length m1 < fuel ->
  c_prev text fuel a (last (ids m1) 0) = Some (fst (last (cells m1) c_end)) /\
  (fst (last (cells m1) c_end) = 0 /\ last (cells m1) c_end = c_end \/ exists k s, In k m1 /\ text (m_val k) = Some s /\ s <> [] /\ m_id k <> 0 /\
     r_val a (m_id k) = Some (m_val k) /\ last (cells m1) c_end = (m_id k, (Z.of_nat (length s) - 1)%Z)).
Proof.
  intros a m1. induction m1 as [|k m1 IH] using rev_ind; intros m2 fr fuel H S F; destruct fuel as [|fuel]; try lia.
  - split; [reflexivity|]. left. split; reflexivity.
  - rewrite app_length in F. cbn in F. rewrite <- app_assoc in H. cbn [app] in H. destruct (at_next _ _ _ _ _ H) as (N & E1 & E2 & E3).
    rewrite ids_app. cbn [ids map]. rewrite last_snoc. cbn [c_prev]. destruct (Nat.eqb_spec (m_id k) 0); [congruence|].
    unfold is_text. rewrite E3. apply Forall_app in S. destruct S as [S1 S2]. inversion S2 as [|? ? S3 _]; subst.
    assert (CE : cells (m1 ++ [k]) = cells m1 ++ cell k) by (rewrite cells_app; unfold cells at 2; cbn [flat_map]; rewrite app_nil_r; reflexivity).
    rewrite CE, last_app_d. destruct (text (m_val k)) as [s|] eqn:E.
    + destruct (cell_text k s E) as (r & Q & L); [apply (S3 s E)|].
      assert (L' : last (cell k) (last (cells m1) c_end) = (m_id k, (Z.of_nat (length s) - 1)%Z)) by (rewrite Q, last_cons_d in *; exact L).
      rewrite L'. split; [reflexivity|]. right. exists k, s. repeat split; auto.
      * apply in_or_app. right. left. reflexivity.
      * apply (S3 s E).
    + rewrite (cell_none k E). cbn [last]. rewrite E2. destruct (IH (k :: m2) fr fuel H S1) as (A & B); [lia|].
      split; [exact A|]. destruct B as [B|(k' & s & I & B)]; [left; exact B|]. right. exists k', s. split; [apply in_or_app; left; exact I|exact B].
Qed.

Theorem make_cells : forall dv (a : tags) f fr m1 m2, Rep dv a f fr -> fmarks dv f = m1 ++ m2 -> Forall solid m2 ->
  c_make text a (hd 0 (ids m2)) = Some (hd c_end (cells m2)).
Proof.
  intros dv a f fr m1 m2 H E S. unfold Rep in H. rewrite E in H. pose proof (holds_length _ _ _ _ H) as L. rewrite app_length in L.
  destruct (c_next_cells a m2 m1 fr (Datatypes.S (length a)) H S) as (A & B); [lia|]. unfold c_make. rewrite A. rewrite <- B at 1.
  destruct (hd c_end (cells m2)). reflexivity.
Qed.

Lemma flat_map_split : forall {A B} (g : A -> list B) m l1 x l2, flat_map g m = l1 ++ x :: l2 ->
  exists m1 k m2 p q, m = m1 ++ k :: m2 /\ g k = p ++ x :: q /\ l1 = flat_map g m1 ++ p /\ l2 = q ++ flat_map g m2.
Proof.
  intros A B g m. induction m as [|k m IH]; intros l1 x l2 E; [destruct l1; discriminate|].
  cbn [flat_map] in E. destruct (app_app _ _ _ _ E) as [([|y l] & E1 & E2)|(l & E1 & E2)].
  - cbn in E2. rewrite app_nil_r in E1. destruct (IH [] x l2 (eq_sym E2)) as (m1 & k' & m2 & p & q & -> & F1 & F2 & F3).
    exists (k :: m1), k', m2, p, q. cbn [flat_map]. rewrite E1. symmetry in F2. apply app_eq_nil in F2. destruct F2 as (-> & ->). rewrite !app_nil_r. auto.
  - cbn in E2. injection E2 as <- ->. exists [], k, m, l1, l. auto.
  - destruct (IH l x l2 E2) as (m1 & k' & m2 & p & q & -> & F1 & F2 & F3). exists (k :: m1), k', m2, p, q. cbn [flat_map]. rewrite E1, F2, app_assoc. auto.
Qed.

Lemma map_split : forall {A B} (g : A -> B) l p x q, map g l = p ++ x :: q -> exists l1 y l2, l = l1 ++ y :: l2 /\ map g l1 = p /\ g y = x /\ map g l2 = q.
Proof.
  intros A B g l. induction l as [|y l IH]; intros p x q E; [destruct p; discriminate|]. destruct p as [|z p]; cbn in E.
  - injection E as E1 E2. exists [], y, l. auto.
  - injection E as E1 E2. destruct (IH _ _ _ E2) as (l1 & y' & l2 & -> & <- & E3 & E4). exists (y :: l1), y', l2. cbn. rewrite E1. auto.
Qed.

Lemma seq_split : forall n s l1 y l2, seq s n = l1 ++ y :: l2 -> y = s + length l1 /\ l2 = seq (S y) (n - S (length l1)) /\ length l1 < n.
Proof.
  intro n. induction n as [|n IH]; intros s l1 y l2 E; [destruct l1; discriminate|]. cbn in E. destruct l1 as [|z l1]; cbn in E.
  - injection E as <- <-. cbn. rewrite Nat.sub_0_r. repeat split; lia.
  - injection E as <- E. destruct (IH _ _ _ _ E) as (-> & -> & L). cbn. repeat split; lia.
Qed.

Lemma last_cells : forall (a : tags) m1 m2 fr, Holds a (m1 ++ m2) [] fr -> Forall solid m1 ->
  c_last text a (last (ids m1) 0) 0 = Some (last (cells m1) c_end).
Proof.
  intros a m1 m2 fr H S. pose proof (holds_length _ _ _ _ H) as L. rewrite app_length in L.
  destruct (c_prev_cells a m1 m2 fr (Datatypes.S (length a)) H S) as (B1 & B2); [lia|]. unfold c_last. rewrite B1.
  destruct B2 as [(B2 & B3)|(k & s & I & B2 & B3 & B4 & B5 & B6)].
  - rewrite B3. reflexivity.
  - rewrite B6. cbn [fst]. destruct (Nat.eqb_spec (m_id k) 0); [congruence|]. rewrite B5, B2.
    rewrite Forall_forall in S. destruct (S k I s B2) as (_ & W). destruct s; [congruence|]. cbn [length] in *. rewrite Z.mod_small by lia. reflexivity.
Qed.

Lemma dec_end : forall (a : tags) m fr, Holds a m [] fr -> Forall solid m -> c_dec text a c_end = Some (last (cells m) c_end).
Proof.
  intros a m fr H S. unfold c_dec, c_end. cbn [Nat.eqb negb]. pose proof (h_links _ _ _ _ H) as K. rewrite (links_last _ _ _ _ _ K).
  apply (last_cells a m [] fr); [rewrite app_nil_r; exact H|exact S].
Qed.

Lemma dec_first : forall (a : tags) m1 k m2 fr y q, Holds a (m1 ++ k :: m2) [] fr -> Forall solid m1 -> solid k -> cell k = y :: q ->
  c_dec text a y = Some (last (cells m1) c_end).
Proof.
  intros a m1 k m2 fr y q H S Sk E. destruct (at_next _ _ _ _ _ H) as (N & N1 & N2 & N3).
  destruct (text (m_val k)) as [s|] eqn:T; [|rewrite (cell_none k T) in E; discriminate].
  destruct (cell_text k s T) as (r & Q & _); [apply (Sk s T)|]. assert (y = (m_id k, 0%Z)) as -> by congruence.
  unfold c_dec. destruct (Nat.eqb_spec (m_id k) 0); [congruence|]. cbn [negb]. rewrite N3, T. cbn [Z.eqb negb]. rewrite N2.
  apply (last_cells a m1 (k :: m2) fr); assumption.
Qed.

(** One step from each place, and back *)
Theorem step_cells : forall dv (a : tags) f fr l1 x l2, Rep dv a f fr -> Forall solid (fmarks dv f) -> cells (fmarks dv f) = l1 ++ x :: l2 ->
  c_inc text a x = Some (hd c_end l2) /\ c_dec text a (hd c_end l2) = Some x.
Proof.
  intros dv a f fr l1 x l2 H S E. destruct (flat_map_split _ _ _ _ _ E) as (m1 & k & m2 & p & q & E1 & E2 & E3 & E4). clear E.
  unfold Rep in H. rewrite E1 in H, S. apply Forall_app in S. destruct S as [S1 S2]. inversion S2 as [|? ? S3 S4]; subst.
  unfold cell in E2. destruct (map_split _ _ _ _ _ E2) as (j1 & j & j2 & F1 & F2 & F3 & F4). destruct (seq_split _ _ _ _ _ F1) as (-> & G1 & G2). cbn [Nat.add] in *.
  set (n := length j1) in *. destruct (text (m_val k)) as [s|] eqn:T.
  2:{ unfold m_text in G2. rewrite T in G2. cbn in G2. lia. }
  unfold m_text in *. rewrite T in *. destruct (S3 s T) as (Ns & Ls). destruct (at_next _ _ _ _ _ H) as (N & N1 & N2 & N3).
  pose proof (holds_length _ _ _ _ H) as L. rewrite app_length in L. cbn [length] in L.
  assert (H' : Holds a ((m1 ++ [k]) ++ m2) [] fr) by (rewrite <- app_assoc; exact H).
  destruct (Nat.eqb_spec (m_id k) 0) as [|_]; [congruence|]. assert (K0 : (m_id k =? 0) = false) by (apply Nat.eqb_neq; exact N).
  destruct (le_lt_dec (length s) (Datatypes.S n)) as [Le|Lt].
  - assert (q = []) as -> by (rewrite <- F4, G1; replace (length s - Datatypes.S n) with 0 by lia; reflexivity). cbn [app].
    destruct (c_next_cells a m2 (m1 ++ [k]) fr (Datatypes.S (length a)) H' S4) as (A & B); [lia|]. change (flat_map cell m2) with (cells m2).
    split.
    + rewrite <- F3. unfold c_inc. rewrite K0, N3, T. rewrite Z.mod_small by lia.
      destruct (Z.ltb_spec (Z.of_nat n + 1) (Z.of_nat (length s))); [lia|]. rewrite N1, A. rewrite <- B at 1. destruct (hd c_end (cells m2)); reflexivity.
    + assert (X : x = (m_id k, (Z.of_nat (length s) - 1)%Z)) by (rewrite <- F3; f_equal; lia).
      assert (LC : last (cells (m1 ++ [k])) c_end = x).
      { rewrite cells_app, last_app_d. unfold cells at 1. cbn [flat_map]. rewrite app_nil_r. destruct (cell_text k s T Ns) as (r & Q & W). rewrite Q, last_cons_d in *. rewrite X. exact W. }
      destruct (cells m2) as [|y r] eqn:Q2.
      * cbn [hd] in *. rewrite (dec_end a ((m1 ++ [k]) ++ m2) fr); [|exact H'|].
        -- rewrite cells_app, Q2, app_nil_r. f_equal. exact LC.
        -- apply Forall_app. split; [apply Forall_app; split; [exact S1|constructor; [exact S3|constructor]]|exact S4].
      * cbn [hd] in *. destruct (flat_map_split cell m2 [] y r Q2) as (n1 & k2 & n2 & p2 & q2 & W1 & W2 & W3 & W4).
        symmetry in W3. apply app_eq_nil in W3. destruct W3 as (W3 & ->). cbn [app] in W2. subst m2.
        assert (H2 : Holds a (((m1 ++ [k]) ++ n1) ++ k2 :: n2) [] fr) by (rewrite <- !app_assoc in *; exact H').
        apply Forall_app in S4. destruct S4 as [S4 S5]. inversion S5 as [|? ? S6 _]; subst.
        rewrite (dec_first a ((m1 ++ [k]) ++ n1) k2 n2 fr y q2 H2); [| |exact S6|exact W2].
        -- rewrite cells_app. change (cells n1) with (flat_map cell n1). rewrite W3, app_nil_r. f_equal. exact LC.
        -- apply Forall_app. split; [apply Forall_app; split; [exact S1|constructor; [exact S3|constructor]]|exact S4].
  - rewrite G1 in F4. replace (length s - Datatypes.S n) with (Datatypes.S (length s - Datatypes.S (Datatypes.S n))) in F4 by lia. cbn [seq map] in F4.
    rewrite <- F4. cbn [app hd]. rewrite <- F3. split.
    + unfold c_inc. rewrite K0, N3, T, Z.mod_small by lia. destruct (Z.ltb_spec (Z.of_nat n + 1) (Z.of_nat (length s))); [|lia]. do 2 f_equal. lia.
    + unfold c_dec. rewrite K0. cbn [negb]. rewrite N3, T. destruct (Z.eqb_spec (Z.of_nat (Datatypes.S n)) 0); [lia|]. cbn [negb]. do 2 f_equal. lia.
Qed.

(** Going back from the first place leads to the end. *)
Theorem first_cells : forall dv (a : tags) f fr, Rep dv a f fr -> Forall solid (fmarks dv f) ->
  c_dec text a (hd c_end (cells (fmarks dv f))) = Some c_end.
Proof.
  intros dv a f fr H S. unfold Rep in H. destruct (cells (fmarks dv f)) as [|y r] eqn:Q; cbn [hd].
  - rewrite (dec_end a _ fr H S), Q. reflexivity.
  - destruct (flat_map_split cell _ [] y r Q) as (n1 & k2 & n2 & p2 & q2 & W1 & W2 & W3 & W4).
    symmetry in W3. apply app_eq_nil in W3. destruct W3 as (W3 & ->). cbn [app] in W2. rewrite W1 in H, S.
    apply Forall_app in S. destruct S as [S1 S2]. inversion S2 as [|? ? S3 _]; subst.
    rewrite (dec_first a n1 k2 n2 fr y q2 H S1 S3 W2). change (cells n1) with (flat_map cell n1). rewrite W3. reflexivity.
Qed.

Theorem deref_cells : forall dv (a : tags) f fr m1 m2, Rep dv a f fr -> fmarks dv f = m1 ++ m2 ->
  map (c_deref text nul a) (cells m2) = map Some (chars m2).
Proof.
  intros dv a f fr n1 n2 H E0. unfold Rep in H.
  assert (G : forall m2 m1, fmarks dv f = m1 ++ m2 -> map (c_deref text nul a) (cells m2) = map Some (chars m2)).
  { intro m2. induction m2 as [|k m2 IH]; intros m1 E; [reflexivity|]. unfold cells, chars in *. cbn [flat_map]. rewrite !map_app.
    f_equal; [|apply (IH (m1 ++ [k])); rewrite <- app_assoc; exact E]. rewrite E in H. destruct (at_next _ _ _ _ _ H) as (N & _ & _ & V1).
    unfold cell, m_text. destruct (text (m_val k)) as [s|] eqn:T; [|reflexivity]. rewrite map_map.
    assert (Z : forall j, j < length s -> c_deref text nul a (m_id k, Z.of_nat j) = nth_error s j).
    { intros j J. unfold c_deref. cbn [fst snd]. destruct (Nat.eqb_spec (m_id k) 0); [congruence|]. rewrite V1, T.
      destruct (Z.eqb_spec (Z.of_nat j) (Z.of_nat (length s))); [lia|]. destruct (Z.ltb_spec (Z.of_nat j) (Z.of_nat (length s))); [|lia]. rewrite Nat2Z.id. reflexivity. }
    rewrite (map_ext_in _ (nth_error s)); [|intros j J; apply in_seq in J; apply Z; lia]. clear. induction s as [|c s IH]; [reflexivity|].
    cbn [length seq map]. rewrite <- seq_shift, map_map. cbn. f_equal. exact IH. }
  apply (G _ n1). exact E0.
Qed.

(** A loop over the characters *)
Fixpoint c_run (fuel : nat) (a : tags) (x : nat * Z) : option (list C) :=
  match fuel with
  | O => None
  | S f =>
    if fst x =? 0 then Some []
    else do c <- c_deref text nul a x; do y <- c_inc text a x; do r <- c_run f a y; Some (c :: r)
  end.

Lemma run_cells : forall dv (a : tags) f fr, Rep dv a f fr -> Forall solid (fmarks dv f) -> forall l2 l1 r fuel, cells (fmarks dv f) = l1 ++ l2 ->
  map (c_deref text nul a) l2 = map Some r -> length l2 < fuel -> c_run fuel a (hd c_end l2) = Some r.
Proof.
  intros dv a f fr H S l2. induction l2 as [|x l2 IH]; intros l1 r fuel E D F; destruct fuel as [|fuel]; cbn in F; try lia.
  - destruct r; [reflexivity|discriminate].
  - destruct r as [|c r]; [discriminate|]. cbn [map] in D. injection D as D1 D2. cbn [hd c_run].
    destruct (step_cells dv a f fr l1 x l2 H S E) as (A & _).
    assert (N : (fst x =? 0) = false) by (destruct (fst x =? 0) eqn:N; [unfold c_deref in D1; rewrite N in D1; discriminate|reflexivity]).
    rewrite N, D1, A. rewrite (IH (l1 ++ [x]) r fuel); [reflexivity|rewrite <- app_assoc; exact E|exact D2|lia].
Qed.

(** The text of a node: its own and that of its descendants *)
Definition own (v : V) : list C := match text v with Some s => s | None => [] end.
Fixpoint tree_text (t : tr) : list C := match t with One _ v => own v | Pair _ _ v c => own v ++ flat_map tree_text c end.

Lemma chars_text : forall dv, text dv = None -> forall f, chars (fmarks dv f) = flat_map tree_text f.
Proof.
  intros dv D. assert (G : forall t, chars (marks dv t) = tree_text t).
  { intro t. induction t as [i v|s e v c IH] using tr_ind'; unfold chars in *; cbn [marks flat_map tree_text].
    - rewrite app_nil_r. reflexivity.
    - unfold m_text at 1. cbn [m_val]. fold (own v). f_equal. rewrite flat_map_app. cbn [flat_map]. unfold m_text at 2. cbn [m_val]. rewrite D, !app_nil_r.
      induction IH as [|x c Hx _ IHc]; [reflexivity|]. cbn [flat_map]. rewrite flat_map_app, Hx, IHc. reflexivity. }
  intro f. induction f as [|x f IH]; [reflexivity|]. unfold fmarks, chars in *. cbn [flat_map]. rewrite flat_map_app, IH. f_equal. apply G.
Qed.

(** No text node is empty or longer than an index can say. *)
Inductive full : tr -> Prop :=
| full_one : forall i v, (forall s, text v = Some s -> s <> [] /\ (Z.of_nat (length s) < 2 ^ 32)%Z) -> full (One i v)
| full_pair : forall s e v c, (forall s, text v = Some s -> s <> [] /\ (Z.of_nat (length s) < 2 ^ 32)%Z) -> Forall full c -> full (Pair s e v c).

Lemma full_solid : forall dv, text dv = None -> forall f, Forall full f -> Forall solid (fmarks dv f).
Proof.
  intros dv D. assert (G : forall t, full t -> Forall solid (marks dv t)).
  { intro t. induction t as [i v|s e v c IH] using tr_ind'; intro F; inversion F as [? ? F1|? ? ? ? F1 F2]; subst; cbn [marks].
    - constructor; [exact F1|constructor].
    - constructor; [exact F1|]. apply Forall_app. split; [|constructor; [intros s' W; cbn in W; congruence|constructor]]. clear F F1.
      induction IH as [|x c Hx _ IHc]; [constructor|]. inversion F2; subst. cbn [flat_map]. apply Forall_app. auto. }
  intros f F. induction F as [|x f Fx _ IH]; [constructor|]. unfold fmarks in *. cbn [flat_map]. apply Forall_app. auto.
Qed.
End L.
