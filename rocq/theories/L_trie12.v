(** Tries over labels of several bytes: the map a history describes, and lookup. *)
From Coq Require Import ZArith List Bool Lia Sorting.Sorted.
From Verif Require Import M_serialize L_serialize M_trie L_trie L_trie2 L_trie3 L_trie4 L_trie5 L_trie6 L_trie7 L_trie8 L_trie9 L_trie10 L_trie11 M_trie2.
Import ListNotations.
Open Scope Z_scope.

(** ** Specification: labels are the values of an integer type of [w] bytes *)
Definition label (w : nat) (sgn : bool) (x : Z) : Prop :=
  if sgn then - 2 ^ (8 * Z.of_nat w) <= 2 * x < 2 ^ (8 * Z.of_nat w) else 0 <= x < 2 ^ (8 * Z.of_nat w).
Definition labels (w : nat) (sgn : bool) (k : key) : Prop := Forall (label w sgn) k.

(** assign keeps what is there: it inserts *)
Inductive wop :=
| WIns (k : key) (v : Z)
| WDel (k : key)
| WSet (k : key) (v : Z)
| WClr
| WAsg (ks : list key).
Definition wapply (m : kvmap) (o : wop) : kvmap :=
  match o with
  | WIns k v => apply_op m (Ins k v)
  | WDel k => apply_op m (Del k)
  | WSet k v => apply_op m (Set_ k v)
  | WClr => fun _ => None
  | WAsg ks => fold_left (fun m k => apply_op m (Ins k 0)) ks m
  end.
Definition wmap_of (ops : list wop) : kvmap := fold_left wapply ops (fun _ => None).
Definition wop_ok (w : nat) (sgn : bool) (o : wop) : Prop :=
  match o with
  | WIns k v => labels w sgn k /\ int31 v
  | WDel k => labels w sgn k
  | WSet k v => labels w sgn k /\ k <> [] /\ int31 v
  | WClr => True
  | WAsg ks => Forall (labels w sgn) ks
  end.
Definition wno_del (o : wop) : Prop := match o with WDel _ => False | _ => True end.
Definition wst_op (w : nat) (h : heap) (o : wop) : option heap :=
  match o with
  | WIns k v => option_map fst (wst_insert w h k v)
  | WDel k => wst_erase w h k
  | WSet k v => wst_set w h k v
  | WClr => Some th_clear
  | WAsg ks => wst_assign w h ks
  end.
Definition wtb_op (w : nat) (h : heap) (o : wop) : option heap :=
  match o with
  | WIns k v => option_map fst (wtb_insert w h k v)
  | WDel k => wtb_erase w h k
  | WSet k v => wtb_set w h k v
  | WClr => Some th_clear
  | WAsg ks => wtb_assign w h ks
  end.
Fixpoint wrun (step : heap -> wop -> option heap) (h : heap) (ops : list wop) : option heap :=
  match ops with
  | [] => Some h
  | o :: r => match step h o with Some h1 => wrun step h1 r | None => None end
  end.

(** ** Bytes of a label *)
Section W.
Variables (w : nat) (sgn : bool).
Hypothesis Hw : (0 < w)%nat.

Definition unlabel (u : Z) : Z := if sgn then to_signed w u else u.
Lemma unlabel_label x : label w sgn x -> unlabel (x mod modulus w) = x.
Proof.
  unfold label, unlabel. fold (modulus w). destruct sgn; intros L; [now apply to_signed_id|]. now apply Z.mod_small.
Qed.
Lemma label_unlabel u : 0 <= u < modulus w -> label w sgn (unlabel u) /\ unlabel u mod modulus w = u.
Proof.
  intros U. pose proof (modulus_pos w). unfold label, unlabel. fold (modulus w). destruct sgn; [|split; [easy|now apply Z.mod_small]]. unfold to_signed. rewrite (Z.mod_small u) by easy. cbn zeta.
  destruct (Z.ltb_spec (2 * u) (modulus w)); [split; [lia|now apply Z.mod_small]|]. split; [lia|]. replace (u - modulus w) with (u + (-1) * modulus w) by lia. rewrite Z_mod_plus_full. now apply Z.mod_small.
Qed.
Lemma is_byte_byte l : Forall is_byte l <-> Forall byte l.
Proof. split; apply Forall_impl; unfold is_byte, byte; lia. Qed.
Lemma serialize_byte_ok x : Forall byte (serialize w x). Proof. apply is_byte_byte, serialize_bytes. Qed.
Lemma serialize_unlabel l : Forall byte l -> length l = w -> serialize w (unlabel (be_value l)) = l.
Proof.
  intros F L. apply is_byte_byte in F. pose proof (be_value_bound l F) as B. rewrite L in B. destruct (label_unlabel _ B) as [_ E].
  apply be_value_inj; [apply serialize_bytes|easy|now rewrite serialize_length|]. now rewrite serialize_value, E.
Qed.
Lemma serialize_inj x y : label w sgn x -> label w sgn y -> serialize w x = serialize w y -> x = y.
Proof.
  intros X Y E. apply (f_equal be_value) in E. rewrite !serialize_value in E. rewrite <- (unlabel_label x X), <- (unlabel_label y Y). now rewrite E.
Qed.
Lemma wide_app a b : wide w (a ++ b) = wide w a ++ wide w b. Proof. apply flat_map_app. Qed.
Lemma wide_cons x a : wide w (x :: a) = serialize w x ++ wide w a. Proof. easy. Qed.
Lemma wide_one x : wide w [x] = serialize w x. Proof. cbn. apply app_nil_r. Qed.
Lemma wide_length k : length (wide w k) = (w * length k)%nat.
Proof. induction k as [|x k IH]; [cbn; lia|]. rewrite wide_cons, app_length, serialize_length, IH. cbn [length]. lia. Qed.
Lemma wide_byte k : Forall byte (wide w k).
Proof. induction k as [|x k IH]; [constructor|]. rewrite wide_cons. apply Forall_app. split; [apply serialize_byte_ok|easy]. Qed.
Lemma app_split {A} (a b c d : list A) : length a = length c -> a ++ b = c ++ d -> a = c /\ b = d.
Proof. revert c. induction a as [|x a IH]; intros [|y c] L E; try easy. injection L as L. injection E as -> E. destruct (IH c L E) as [-> ->]. easy. Qed.
Lemma wide_inj a : forall b, labels w sgn a -> labels w sgn b -> wide w a = wide w b -> a = b.
Proof.
  induction a as [|x a IH]; intros [|y b] Fa Fb E; [easy| | |].
  - apply (f_equal (@length Z)) in E. rewrite !wide_length in E. cbn [length] in E. lia.
  - apply (f_equal (@length Z)) in E. rewrite !wide_length in E. cbn [length] in E. lia.
  - inversion Fa; inversion Fb; subst. rewrite !wide_cons in E. apply app_split in E as [E1 E2]; [|now rewrite !serialize_length]. f_equal; [now apply serialize_inj|now apply IH].
Qed.
Lemma wide_nil k : wide w k = [] <-> k = [].
Proof. split; [|now intros ->]. intros E. apply (f_equal (@length Z)) in E. rewrite wide_length in E. destruct k; [easy|]. cbn [length] in E. lia. Qed.
Lemma wide_surj_n n : forall v, Forall byte v -> length v = (w * n)%nat -> exists k, labels w sgn k /\ wide w k = v.
Proof.
  induction n as [|n IH]; intros v F L; [exists []; split; [constructor|]; destruct v; [easy|]; cbn [length] in L; lia|].
  rewrite <- (firstn_skipn w v) in F. apply Forall_app in F as [F1 F2].
  assert (L1 : length (firstn w v) = w) by (rewrite firstn_length; lia).
  destruct (IH (skipn w v) F2) as (k & Lk & E); [rewrite skipn_length; lia|].
  exists (unlabel (be_value (firstn w v)) :: k). split.
  - constructor; [|easy]. apply label_unlabel. apply is_byte_byte in F1. pose proof (be_value_bound _ F1) as B. now rewrite L1 in B.
  - rewrite wide_cons, E, serialize_unlabel by easy. apply firstn_skipn.
Qed.
Lemma wide_surj v : Forall byte v -> (length v mod w = 0)%nat -> exists k, labels w sgn k /\ wide w k = v.
Proof.
  intros F L. apply (wide_surj_n (length v / w)); [easy|]. pose proof (Nat.div_mod (length v) w). lia.
Qed.
Lemma wide_mod k : (length (wide w k) mod w = 0)%nat.
Proof. rewrite wide_length, Nat.mul_comm. apply Nat.mod_mul. lia. Qed.
Lemma wide_prefix a : forall b, labels w sgn a -> labels w sgn b -> is_prefix (wide w a) (wide w b) = true -> exists t, b = a ++ t.
Proof.
  induction a as [|x a IH]; intros b Fa Fb P; [now exists b|]. apply prefix_iff in P as [t E]. rewrite wide_cons, <- app_assoc in E.
  destruct b as [|y b]; [apply (f_equal (@length Z)) in E; rewrite !app_length, serialize_length in E; cbn [wide flat_map length] in E; lia|].
  rewrite wide_cons in E. apply app_split in E as [E1 E2]; [|now rewrite !serialize_length]. inversion Fa; inversion Fb; subst. apply serialize_inj in E1; [|easy|easy]. subst y.
  destruct (IH b) as [t' ->]; [easy|easy|apply prefix_iff; now exists t|]. now exists t'.
Qed.

(** ** Order *)
Lemma lex_split a b c d : length a = length c -> (lexlt (a ++ b) (c ++ d) <-> lexlt a c \/ a = c /\ lexlt b d).
Proof.
  revert c. induction a as [|x a IH]; intros [|y c] L; try easy; cbn [app lexlt].
  - split; [now right|]. now intros [|[_ ?]].
  - injection L as L. rewrite (IH c L). split.
    + intros [?|[-> [?|[-> ?]]]]; auto.
    + intros [[?|[-> ?]]|[E ?]]; auto. injection E as -> ->. auto.
Qed.
Lemma lex_be l1 : forall l2, Forall is_byte l1 -> Forall is_byte l2 -> length l1 = length l2 -> (lexlt l1 l2 <-> be_value l1 < be_value l2).
Proof.
  induction l1 as [|x l1 IH]; intros [|y l2] F1 F2 L; try easy. injection L as L. inversion F1 as [|? ? X F1']; inversion F2 as [|? ? Y F2']; subst. cbn [lexlt]. rewrite !be_value_cons, (IH l2) by easy. rewrite L.
  pose proof (be_value_bound l1 F1') as B1. pose proof (be_value_bound l2 F2') as B2. rewrite L in B1. unfold is_byte in *. set (m := modulus (length l2)) in *. split.
  - intros [?|[-> ?]]; nia.
  - intros E. destruct (Z.lt_trichotomy x y) as [|[-> |]]; [now left|right; split; [easy|lia]|]. exfalso. nia.
Qed.
(** the order of the keys: as sequences of unsigned numbers *)
Definition ulex (a b : key) : Prop := lexlt (map (fun x => x mod 2 ^ (8 * Z.of_nat w)) a) (map (fun x => x mod 2 ^ (8 * Z.of_nat w)) b).
Lemma wide_lex a : forall b, lexlt (wide w a) (wide w b) <-> ulex a b.
Proof.
  unfold ulex. fold (modulus w). induction a as [|x a IH]; intros b.
  - destruct b as [|y b]; [easy|]. rewrite wide_cons. pose proof (serialize_length w y). destruct (serialize w y); [cbn in H; lia|]. easy.
  - destruct b as [|y b].
    + rewrite wide_cons. pose proof (serialize_length w x). destruct (serialize w x); [cbn in H; lia|]. easy.
    + rewrite !wide_cons, lex_split by (now rewrite !serialize_length). cbn [map lexlt]. rewrite IH, lex_be, !serialize_value by (apply serialize_bytes || now rewrite !serialize_length).
      split; (intros [?|[E ?]]; [now left|right; split; [|easy]]).
      * apply (f_equal be_value) in E. now rewrite !serialize_value in E.
      * apply be_value_inj; try apply serialize_bytes; [now rewrite !serialize_length|]. now rewrite !serialize_value.
Qed.

(** ** lookup *)
Lemma bt_up_ok h fl : HI h fl -> forall t u i, walk h (u ++ t) = Some i -> bt_up (length t) h i = walk h u.
Proof.
  intros H. induction t as [|c t IH] using rev_ind; intros u i W; [now rewrite app_nil_r in W|]. rewrite app_length, Nat.add_comm. cbn [length Nat.add bt_up].
  rewrite app_assoc, walk_snoc in W. destruct (walk h (u ++ t)) as [p|] eqn:Wp; [|easy]. rewrite (it_parent_ok h fl H (u ++ t) p c i Wp W). now apply IH.
Qed.
Lemma bt_lookup_ok h fl k : HI h fl -> exists a b q, k = a ++ b /\ bt_lookup w h k = Some (q, b) /\ walk h (wide w a) = Some q /\
  (forall x r, b = x :: r -> walk h (wide w (a ++ [x])) = None).
Proof.
  intros H. destruct (lookup_ok h fl (wide w k) H (byte_label _ (wide_byte k)) [] 1 eq_refl) as (q & u & rest & E & Ek & W & N). cbn [app] in W.
  set (n := (length u / w)%nat). set (m := (length u mod w)%nat).
  assert (Em : (length u = w * n + m)%nat) by (apply Nat.div_mod; lia). assert (Hm : (m < w)%nat) by (apply Nat.mod_upper_bound; lia).
  assert (Lk : (w * length k = length u + length rest)%nat) by (rewrite <- wide_length, Ek; apply app_length).
  assert (Hn : (n <= length k)%nat) by nia.
  set (a := firstn n k). set (b := skipn n k). assert (Eab : k = a ++ b) by (symmetry; apply firstn_skipn).
  assert (La : length (wide w a) = (w * n)%nat) by (rewrite wide_length; unfold a; rewrite firstn_length, Nat.min_l; easy).
  assert (Eu : u = wide w a ++ skipn (w * n) u).
  { assert (X : firstn (w * n) (wide w k) = firstn (w * n) u) by (rewrite Ek, firstn_app; replace (w * n - length u)%nat with 0%nat by lia; now rewrite app_nil_r).
    rewrite Eab, wide_app, firstn_app, La, Nat.sub_diag, app_nil_r, <- La, firstn_all in X. rewrite X, La at 1. symmetry. apply firstn_skipn. }
  set (t := skipn (w * n) u) in *. assert (Lt : length t = m) by (unfold t; rewrite skipn_length; lia).
  rewrite Eu in W. destruct (walk_prefix h _ _ _ W) as [p P]. exists a, b, p. split; [easy|]. split; [|split; [easy|]].
  - unfold bt_lookup. rewrite E. rewrite wide_length, Lk, Nat.add_sub. fold m n. rewrite <- Lt, (bt_up_ok h fl H t (wide w a) q W), P. easy.
  - intros x r Eb. rewrite Eab, Eb, wide_app, wide_cons, Eu, <- app_assoc in Ek. apply app_inv_head in Ek.
    assert (X : serialize w x = t ++ skipn m (serialize w x)).
    { rewrite <- (firstn_skipn m (serialize w x)) at 1. f_equal. assert (Y : firstn m (serialize w x ++ wide w r) = firstn m (t ++ rest)) by now rewrite Ek.
      rewrite !firstn_app, serialize_length, Lt in Y. replace (m - w)%nat with 0%nat in Y by lia. rewrite Nat.sub_diag, !app_nil_r, <- Lt, firstn_all in Y. now rewrite Lt in Y. }
    rewrite X, <- app_assoc in Ek. apply app_inv_head in Ek. pose proof (serialize_length w x) as Ls. destruct (skipn m (serialize w x)) as [|c s] eqn:Es.
    { apply (f_equal (@length Z)) in X. rewrite app_length, Ls, Lt in X. cbn in X. lia. }
    cbn [app] in Ek. specialize (N c (s ++ wide w r) (eq_sym Ek)). rewrite wide_app, wide_one, X.
    destruct (walk h (wide w a ++ t ++ c :: s)) eqn:Z0; [|easy]. exfalso. unfold walk in Z0, W. rewrite app_assoc, walk_from_app, W in Z0. cbn [walk_from] in Z0. now rewrite N in Z0.
Qed.
Lemma bt_lookup_full h fl k q b : HI h fl -> bt_lookup w h k = Some (q, b) -> match b with [] => walk h (wide w k) = Some q | _ => walk h (wide w k) = None end.
Proof.
  intros H E. destruct (bt_lookup_ok h fl k H) as (a & b' & q' & -> & E' & W & N). rewrite E in E'. injection E' as <- <-. destruct b as [|x r]; [now rewrite app_nil_r|]. specialize (N x r eq_refl).
  destruct (walk h (wide w (a ++ x :: r))) as [i|] eqn:X; [|easy]. change (x :: r) with ([x] ++ r) in X. rewrite app_assoc, wide_app in X. apply walk_prefix in X as [j X]. congruence.
Qed.
Lemma bt_search_ok h fl k : HI h fl -> bt_search w h k = Some (match walk h (wide w k) with Some i => i | None => 0 end).
Proof.
  intros H. destruct (bt_lookup_ok h fl k H) as (a & b & q & _ & E & _). pose proof (bt_lookup_full h fl k q b H E) as X. unfold bt_search. rewrite E. destruct b; now rewrite X.
Qed.
Lemma st_tail_ok h fl M u i : StRep h fl M -> Forall byte u -> walk h u = Some i -> is_tail h i = Some (has M u).
Proof.
  intros R Fu W. pose proof (sr_hi _ _ _ R) as H. pose proof (walk_alloc _ _ H _ _ W) as Ai. pose proof (st_get_walk h fl M u i R W) as G. fold (has M u) in G. destruct (Z.eq_dec i 1) as [-> |N].
  - assert (u = []) by (eapply walk_inj; [exact H|exact W|easy]). subst u. rewrite <- G. pose proof (alloc_inb _ _ _ (hi_fl _ _ H) Ai) as Ii. unfold inb in Ii. unfold is_tail. rewrite (proj2 (Z.ltb_lt 1 (limit h))) by lia. cbn [andb Z.leb Z.eqb Z.compare Pos.compare Pos.compare_cont Pos.eqb negb]. rewrite g_base_ok by easy.
    rewrite andb_false_r. unfold null_value. destruct (Z.leb_spec 1 (Bs h 1)) as [B|B]; cbn [andb].
    + destruct (Z.ltb_spec (Bs h 1 + 256) (limit h)) as [L|L].
      * rewrite g_check_ok by (unfold inb; lia). f_equal. destruct (Z.eqb_spec (Ks h (Bs h 1 + 256)) 1) as [e|e].
        -- rewrite (proj2 (step_some h 1 256 (Bs h 1 + 256))); [easy|]. repeat split; lia || easy.
        -- destruct (step h 1 256) eqn:S; [|easy]. apply step_some in S as (_ & _ & -> & S). easy.
      * f_equal. destruct (step h 1 256) as [q|] eqn:S; [|easy]. destruct (step_alloc h fl 1 256 q H Ai S) as [Aq _]. apply step_some in S as (_ & _ & -> & _). pose proof (alloc_inb _ _ _ (hi_fl _ _ H) Aq) as Iq. unfold inb in Iq. lia.
    + f_equal. destruct (step h 1 256) eqn:S; [|easy]. apply step_some in S. lia.
  - rewrite (is_tail_ok h fl i H Ai N), G. f_equal. destruct u as [|c u _] using rev_ind; [injection W as <-; easy|]. assert (C : c <> 256) by (apply Forall_app in Fu as [_ Fu]; inversion Fu; unfold byte in *; lia).
    assert (O := sr_node _ _ _ R u c C). rewrite (obs_bs _ _ _ W) in O. destruct (pre M (u ++ [c])); [|easy]. injection O as O. rewrite (proj2 (Z.leb_gt (Bs h i) 0)) by lia. easy.
Qed.
Lemma wst_find_eq h fl M k : StRep h fl M -> bt_find w h k = st_find h (wide w k) /\ bt_contains w h k = st_contains h (wide w k).
Proof.
  intros R. pose proof (sr_hi _ _ _ R) as H. destruct (bt_lookup_ok h fl k H) as (a & b & q & _ & E & _). pose proof (bt_lookup_full h fl k q b H E) as X. unfold bt_find, bt_contains. rewrite E.
  destruct (st_find_ok h fl M (wide w k) R (wide_byte k)) as (i & Ei & G). rewrite Ei, (st_contains_ok h fl M _ R (wide_byte k)). destruct b as [|y b].
  - rewrite (st_tail_ok h fl M (wide w k) q R (wide_byte k) X). unfold has. destruct (get M (wide w k)); split; try easy; f_equal; [destruct G as [G _]; congruence|easy].
  - rewrite (st_get_nowalk h fl M _ R X) in *. split; [now rewrite G|easy].
Qed.
Lemma wtb_find_eq h fl M k : PRep h fl M -> bt_find w h k = tb_find h (wide w k) /\ bt_contains w h k = tb_contains h (wide w k).
Proof.
  intros R. pose proof (pt_hi _ _ _ R) as H. destruct (bt_lookup_ok h fl k H) as (a & b & q & _ & E & _). pose proof (bt_lookup_full h fl k q b H E) as X. unfold bt_find, bt_contains. rewrite E.
  destruct (tb_find_ok h fl M (wide w k) R (wide_byte k)) as (i & Ei & G). rewrite Ei, (tb_contains_ok h fl M _ R (wide_byte k)). destruct b as [|y b].
  - rewrite (tb_tail_ok h fl M (wide w k) q R (wide_byte k) X). unfold has. destruct (get M (wide w k)); split; try easy; f_equal; [destruct G as [G _]; congruence|easy].
  - pose proof (pt_nowalk h fl M _ R (wide_byte k) X) as Y. rewrite Y. unfold has in Y. destruct (get M (wide w k)); [easy|]. split; [now rewrite G|easy].
Qed.

(** ** Histories *)
Definition tr (o : wop) : list op :=
  match o with
  | WIns k v => [Ins (wide w k) v]
  | WDel k => [Del (wide w k)]
  | WSet k v => [Set_ (wide w k) v]
  | WClr => [Clr]
  | WAsg ks => map (fun k => Ins (wide w k) 0) ks
  end.
Definition sim (m : kvmap) (mw : kvmap) : Prop := (forall k, labels w sgn k -> m (wide w k) = mw k) /\ (forall k, mw k <> None -> labels w sgn k) /\ (forall v, m v <> None -> exists k, labels w sgn k /\ v = wide w k).
Lemma sim_ext m m' mw : (forall k, m k = m' k) -> sim m mw -> sim m' mw.
Proof. intros E (A & B & C). split; [intros k L; rewrite <- E; auto|]. split; [easy|]. intros v V. apply C. now rewrite E. Qed.
Lemma sim_upd m mw k v : sim m mw -> labels w sgn k -> sim (upd_f m (wide w k) v) (upd_f mw k v).
Proof.
  intros (A & B & C) L. unfold upd_f. split; [|split].
  - intros q Lq. destruct (keq (wide w q) (wide w k)) as [e|e], (keq q k) as [e'|e']; auto; [exfalso; apply e'; now apply wide_inj|congruence].
  - intros q. destruct (keq q k) as [-> |]; [easy|apply B].
  - intros q. destruct (keq q (wide w k)) as [-> |]; [eauto|apply C].
Qed.
Lemma sim_ins m mw k v : sim m mw -> labels w sgn k -> sim (apply_op m (Ins (wide w k) v)) (apply_op mw (Ins k v)).
Proof.
  intros S L. cbn [apply_op]. destruct (keq k []) as [-> |N]; [now destruct (keq (wide w []) [])|]. destruct (keq (wide w k) []) as [e|_]; [exfalso; apply N; revert e; apply wide_nil|].
  destruct S as (A & B & C). rewrite (A k L). destruct (mw k); [easy|]. now apply sim_upd.
Qed.
Lemma sim_op o : forall m mw, sim m mw -> wop_ok w sgn o -> sim (fold_left apply_op (tr o) m) (wapply mw o).
Proof.
  destruct o as [k v|k|k v| |ks]; intros m mw S Ok; cbn [tr fold_left wapply wop_ok] in *.
  - now apply sim_ins.
  - now apply sim_upd.
  - now apply sim_upd.
  - split; [easy|]. split; intros ? X; now destruct X.
  - revert m mw S. induction Ok as [|k ks L F IH]; intros m mw S; [easy|]. cbn [map fold_left]. apply IH. now apply sim_ins.
Qed.
Lemma sim_run ops : forall m mw, sim m mw -> Forall (wop_ok w sgn) ops -> sim (fold_left apply_op (flat_map tr ops) m) (fold_left wapply ops mw).
Proof.
  induction ops as [|o r IH]; intros m mw S F; [easy|]. inversion F; subst. cbn [flat_map fold_left]. rewrite fold_left_app. apply IH; [|easy]. now apply sim_op.
Qed.
Lemma sim_map ops : Forall (wop_ok w sgn) ops -> sim (map_of (flat_map tr ops)) (wmap_of ops).
Proof. intros F. apply sim_run; [|easy]. split; [easy|]. split; intros ? X; now destruct X. Qed.
Lemma bytes_byte k : bytes k <-> Forall byte k. Proof. easy. Qed.
Lemma tr_ok ops : Forall (wop_ok w sgn) ops -> Forall op_ok (flat_map tr ops).
Proof.
  induction 1 as [|o r Ok F IH]; [constructor|]. cbn [flat_map]. apply Forall_app. split; [|easy]. destruct o as [k v|k|k v| |ks]; cbn [tr wop_ok] in *.
  - constructor; [|constructor]. split; [apply wide_byte|apply Ok].
  - constructor; [|constructor]. apply wide_byte.
  - constructor; [|constructor]. split; [apply wide_byte|]. rewrite wide_nil. apply Ok.
  - constructor; [easy|constructor].
  - clear Ok. induction ks as [|k ks IHk]; [constructor|]. cbn [map]. constructor; [|easy]. split; [apply wide_byte|unfold int31; lia].
Qed.
Lemma tr_no_del ops : Forall wno_del ops -> Forall no_del (flat_map tr ops).
Proof.
  induction 1 as [|o r Ok F IH]; [constructor|]. cbn [flat_map]. apply Forall_app. split; [|easy]. destruct o as [k v|k|k v| |ks]; cbn [tr] in *; try easy; try (constructor; [easy|constructor]).
  clear. induction ks; constructor; easy.
Qed.
Lemma run_app step a : forall h b, run step h (a ++ b) = match run step h a with Some h1 => run step h1 b | None => None end.
Proof. induction a as [|o a IH]; intros h b; [easy|]. cbn [app run]. destruct (step h o); [apply IH|easy]. Qed.
Lemma sim_card m mw n : sim m mw -> card m n -> card mw n.
Proof.
  intros (A & B & C) (ks & N & L & I).
  assert (X : forall ks, NoDup ks -> (forall v, In v ks -> m v <> None) -> exists ks', NoDup ks' /\ map (wide w) ks' = ks /\ Forall (labels w sgn) ks').
  { clear ks N L I. induction ks as [|v ks IH]; intros N I; [exists []; split; [constructor|]; split; [easy|constructor]|]. inversion N as [|? ? N1 N2]; subst. destruct (IH N2) as (ks' & N' & E & F); [intros; apply I; now right|].
    destruct (C v) as (k & Lk & ->); [apply I; now left|]. exists (k :: ks'). split; [|split; [cbn; now rewrite E|now constructor]]. constructor; [|easy]. intros J. apply N1. rewrite <- E. now apply in_map. }
  destruct (X ks N) as (ks' & N' & E & F); [intros; now apply I|]. exists ks'. split; [easy|]. split; [rewrite <- L, <- E; symmetry; apply map_length|]. intros k. split.
  - intros J. rewrite Forall_forall in F. specialize (F k J). rewrite <- (A k F). apply I. rewrite <- E. now apply in_map.
  - intros J. pose proof (B k J) as Lk. rewrite <- (A k Lk) in J. apply I in J. rewrite <- E in J. apply in_map_iff in J as (k' & E' & J). rewrite Forall_forall in F. apply wide_inj in E'; auto. now subst.
Qed.

Lemma wst_op_eq h fl M o : StRep h fl M -> wop_ok w sgn o -> wst_op w h o = run st_op h (tr o).
Proof.
  intros R Ok. destruct o as [k v|k|k v| |ks]; cbn [wst_op tr run st_op].
  - unfold wst_insert. now destruct (st_insert h (wide w k) v) as [[h1 i]|].
  - unfold wst_erase, st_erase. rewrite (proj1 (wst_find_eq h fl M k R)). destruct (st_find h (wide w k)) as [i|]; [|easy]. now destruct (st_erase_at h i).
  - unfold wst_set, st_set, wst_insert. rewrite (proj1 (wst_find_eq h fl M k R)). now destruct (st_find h (wide w k)) as [i|]; [destruct (if i =? 0 then st_insert h (wide w k) 0 else Some (h, i)) as [[h1 i1]|]; [destruct (st_value_index h1 i1) as [j|]; [destruct (proxy_set h1 j v)|]|]|].
  - easy.
  - clear R. revert h. clear. induction ks as [|k ks IH]; intros h; [easy|]. cbn [wst_assign map run st_op]. unfold wst_insert. destruct (st_insert h (wide w k) 0) as [[h1 i]|]; cbn; [apply IH|easy].
Qed.
Lemma wtb_op_eq h fl M o : PRep h fl M -> wop_ok w sgn o -> wtb_op w h o = run tb_op h (tr o).
Proof.
  intros R Ok. destruct o as [k v|k|k v| |ks]; cbn [wtb_op tr run tb_op].
  - unfold wtb_insert. now destruct (tb_insert h (wide w k) v) as [[h1 i]|].
  - unfold wtb_erase, tb_erase. rewrite (proj1 (wtb_find_eq h fl M k R)). destruct (tb_find h (wide w k)) as [i|]; [|easy]. now destruct (tb_erase_at h i).
  - unfold wtb_set, tb_set, wtb_insert. rewrite (proj1 (wtb_find_eq h fl M k R)). now destruct (tb_find h (wide w k)) as [i|]; [destruct (if i =? 0 then tb_insert h (wide w k) 0 else Some (h, i)) as [[h1 i1]|]; [destruct (tb_value_index h1 i1) as [j|]; [destruct (proxy_set h1 j v)|]|]|].
  - easy.
  - clear R. revert h. clear. induction ks as [|k ks IH]; intros h; [easy|]. cbn [wtb_assign map run tb_op]. unfold wtb_insert. destruct (tb_insert h (wide w k) 0) as [[h1 i]|]; cbn; [apply IH|easy].
Qed.
Lemma wst_run_eq ops : forall h fl M m, StRep h fl M -> agrees M m -> Forall (wop_ok w sgn) ops -> wrun (wst_op w) h ops = run st_op h (flat_map tr ops).
Proof.
  induction ops as [|o r IH]; intros h fl M m R A F; [easy|]. inversion F as [|? ? Fo Fr]; subst. cbn [wrun flat_map]. rewrite run_app, (wst_op_eq h fl M o R Fo).
  destruct (st_run_ok (tr o) h fl M m R A) as (h1 & fl1 & M1 & E & R1 & A1 & _); [pose proof (tr_ok [o]) as X; cbn [flat_map] in X; rewrite app_nil_r in X; apply X; now constructor|]. rewrite E. now apply (IH h1 fl1 M1 _ R1 A1).
Qed.
Lemma wtb_run_eq ops : forall h fl M m, PRep h fl M -> dom_agrees M m -> Forall (wop_ok w sgn) ops -> wrun (wtb_op w) h ops = run tb_op h (flat_map tr ops).
Proof.
  induction ops as [|o r IH]; intros h fl M m R A F; [easy|]. inversion F as [|? ? Fo Fr]; subst. cbn [wrun flat_map]. rewrite run_app, (wtb_op_eq h fl M o R Fo).
  destruct (tb_run_ok (tr o) h fl M m R A) as (h1 & fl1 & M1 & E & R1 & A1 & _); [pose proof (tr_ok [o]) as X; cbn [flat_map] in X; rewrite app_nil_r in X; apply X; now constructor|]. rewrite E. now apply (IH h1 fl1 M1 _ R1 A1).
Qed.
(** The state after a history *)
Lemma wst_state ops : Forall (wop_ok w sgn) ops -> exists h fl M, wrun (wst_op w) th_clear ops = Some h /\ StRep h fl M /\ sim (get M) (wmap_of ops) /\ card (wmap_of ops) (length M).
Proof.
  intros F. rewrite (wst_run_eq ops th_clear [] [] (fun _ => None) st_rep_clear (fun _ => eq_refl) F).
  destruct (st_run_ok (flat_map tr ops) th_clear [] [] (fun _ => None) st_rep_clear (fun _ => eq_refl) (tr_ok ops F)) as (h & fl & M & E & R & A & _). exists h, fl, M. split; [easy|]. split; [easy|].
  pose proof (sim_map ops F) as S. split; [apply (sim_ext (map_of (flat_map tr ops))); [intros k; symmetry; apply A|easy]|]. apply (sim_card _ _ _ S). apply agrees_card; [apply R|easy].
Qed.
(** for the plain trie only the keys are known after an erase *)
Lemma wtb_state ops : Forall (wop_ok w sgn) ops -> exists h fl M, wrun (wtb_op w) th_clear ops = Some h /\ PRep h fl M /\
  (forall k, labels w sgn k -> (get M (wide w k) = None <-> wmap_of ops k = None)) /\ (forall v, get M v <> None -> exists k, labels w sgn k /\ v = wide w k) /\ (forall k, wmap_of ops k <> None -> labels w sgn k) /\
  card (wmap_of ops) (length M) /\ (Forall wno_del ops -> sim (get M) (wmap_of ops)).
Proof.
  intros F. rewrite (wtb_run_eq ops th_clear [] [] (fun _ => None) tb_rep_clear (fun _ => conj (fun _ => eq_refl) (fun _ => eq_refl)) F).
  destruct (tb_run_ok (flat_map tr ops) th_clear [] [] (fun _ => None) tb_rep_clear (fun _ => conj (fun _ => eq_refl) (fun _ => eq_refl)) (tr_ok ops F)) as (h & fl & M & E & R & A & B & _). exists h, fl, M. split; [easy|]. split; [easy|].
  pose proof (sim_map ops F) as S. fold (map_of (flat_map tr ops)) in A, B. split; [intros k L; rewrite (A (wide w k)), (proj1 S k L); easy|]. split.
  - intros v V. apply (proj2 (proj2 S)). now rewrite <- (A v).
  - split; [apply S|]. split; [apply (sim_card _ _ _ S); apply dom_card; [apply R|easy]|]. intros N. apply (sim_ext (map_of (flat_map tr ops))); [|easy]. intros k. symmetry. apply B; [easy|now apply tr_no_del].
Qed.
End W.
