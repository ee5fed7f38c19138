(** C110 – C114: tries over labels of several bytes (basic_trie, const_trie_iterator). *)
From Coq Require Import ZArith List Bool Lia Sorting.Sorted.
From Verif Require Import M_serialize L_serialize M_trie L_trie L_trie2 L_trie3 L_trie4 L_trie5 L_trie6 L_trie7 L_trie8 L_trie9 L_trie10 L_trie11 M_trie2 L_trie12 L_trie13.
Import ListNotations.
Open Scope Z_scope.

Ltac wit := repeat (match goal with |- _ /\ _ => split end); (vm_compute; reflexivity).
Definition val (x : option heap) : heap := match x with Some h => h | None => [] end.
Definition stored (x : option Z) : bool := match x with Some _ => true | None => false end.

(** ** C110: a finite map under every history *)
Theorem C110_stable_history (w : nat) (sgn : bool) (ops : list wop) : (0 < w)%nat -> Forall (wop_ok w sgn) ops ->
  exists h, wrun (wst_op w) th_clear ops = Some h /\
    (forall k, labels w sgn k -> wst_get w h k = Some (wmap_of ops k) /\ bt_contains w h k = Some (stored (wmap_of ops k)) /\
       exists i, bt_find w h k = Some i /\ (i = 0 <-> wmap_of ops k = None)) /\
    exists n, t_size h = Some (Z.of_nat n) /\ card (wmap_of ops) n.
Proof.
  intros Hw F. destruct (wst_state w sgn Hw ops F) as (h & fl & M & E & R & (S1 & S2 & S3) & C). exists h. split; [easy|]. split.
  - intros k Lk. pose proof (wide_byte w Hw k) as Fk. destruct (wst_find_eq w Hw h fl M k R) as [E1 E2]. unfold wst_get. rewrite E1, E2, (st_get_ok h fl M _ R Fk), (st_contains_ok h fl M _ R Fk). specialize (S1 k Lk). rewrite S1. split; [easy|]. split; [easy|].
    destruct (st_find_ok h fl M _ R Fk) as (i & Ei & X). exists i. split; [easy|]. rewrite S1 in X. destruct (wmap_of ops k); [|easy]. split; [lia|easy].
  - exists (length M). split; [|easy]. unfold t_size. pose proof (fl_lim _ _ (hi_fl _ _ (sr_hi _ _ _ R))). rewrite g_base_ok by (unfold inb; lia). now rewrite (sr_size _ _ _ R).
Qed.
Theorem C110_plain_history (w : nat) (sgn : bool) (ops : list wop) : (0 < w)%nat -> Forall (wop_ok w sgn) ops ->
  exists h, wrun (wtb_op w) th_clear ops = Some h /\
    (forall k, labels w sgn k -> bt_contains w h k = Some (stored (wmap_of ops k)) /\
       (exists v, wtb_get w h k = Some v /\ (v = None <-> wmap_of ops k = None)) /\
       exists i, bt_find w h k = Some i /\ (i = 0 <-> wmap_of ops k = None)) /\
    exists n, t_size h = Some (Z.of_nat n) /\ card (wmap_of ops) n.
Proof.
  intros Hw F. destruct (wtb_state w sgn Hw ops F) as (h & fl & M & E & R & S1 & S2 & S3 & C & _). exists h. split; [easy|]. split.
  - intros k Lk. pose proof (wide_byte w Hw k) as Fk. destruct (wtb_find_eq w Hw h fl M k R) as [E1 E2]. unfold wtb_get. rewrite E1, E2, (tb_contains_ok h fl M _ R Fk). specialize (S1 k Lk). split; [|split; [exists (get M (wide w k)); split; [now apply (tb_get_ok h fl)|easy]|]].
    + unfold has. destruct (get M (wide w k)), (wmap_of ops k); try easy; exfalso; destruct S1 as [S1 S1']; [now specialize (S1' eq_refl)|now specialize (S1 eq_refl)].
    + destruct (tb_find_ok h fl M _ R Fk) as (i & Ei & X). exists i. split; [easy|]. rewrite <- S1. destruct (get M (wide w k)); [|easy]. split; [lia|easy].
  - exists (length M). split; [|easy]. unfold t_size. pose proof (fl_lim _ _ (hi_fl _ _ (pt_hi _ _ _ R))). rewrite g_base_ok by (unfold inb; lia). now rewrite (pt_size _ _ _ R).
Qed.
Theorem C110_plain_values (w : nat) (sgn : bool) (ops : list wop) : (0 < w)%nat -> Forall (wop_ok w sgn) ops -> Forall wno_del ops ->
  exists h, wrun (wtb_op w) th_clear ops = Some h /\ forall k, labels w sgn k -> wtb_get w h k = Some (wmap_of ops k).
Proof.
  intros Hw F N. destruct (wtb_state w sgn Hw ops F) as (h & fl & M & E & R & _ & _ & _ & _ & S). specialize (S N). exists h. split; [easy|]. intros k Lk. unfold wtb_get. rewrite (tb_get_ok h fl M _ R (wide_byte w Hw k)). f_equal. now apply S.
Qed.
(** char16_t with surrogates, and wchar_t, which is signed *)
Definition whist : list wop := [WIns [0xD842; 0xDFB7] 7; WIns [0x3042] 8; WSet [0x30; 0x3044] 9; WDel [0x3042]; WIns [0xFFFF; 0] 5; WAsg [[0x3046]; [0x30]]; WSet [0x3046] 6].
Example C110_ex : Forall (wop_ok 2 false) whist /\ wmap_of whist [0x3046] = Some 6 /\ wmap_of whist [0xD842; 0xDFB7] = Some 7 /\ wmap_of whist [0x3042] = None /\
  Forall (wop_ok 4 true) [WIns [-1; 0x10FFFF] 3; WDel [5]].
Proof.
  split; [unfold whist; repeat (constructor; [repeat (match goal with |- _ /\ _ => split | _ => constructor end); unfold label, int31; cbn; try easy; lia|]); constructor|]. split; [reflexivity|]. split; [reflexivity|]. split; [reflexivity|].
  repeat (constructor; [repeat (match goal with |- _ /\ _ => split | _ => constructor end); unfold label, int31; cbn; try easy; lia|]); constructor.
Qed.

(** ** C111: search and lookup count whole labels *)
Theorem C111_search (w : nat) (sgn : bool) (ops : list wop) (k : key) : (0 < w)%nat -> Forall (wop_ok w sgn) ops -> labels w sgn k ->
  (exists h i, wrun (wst_op w) th_clear ops = Some h /\ bt_search w h k = Some i /\ (i <> 0 <-> k = [] \/ exists k', kprefix k k' /\ wmap_of ops k' <> None)) /\
  (exists h i, wrun (wtb_op w) th_clear ops = Some h /\ bt_search w h k = Some i /\ (i <> 0 <-> k = [] \/ exists k', kprefix k k' /\ wmap_of ops k' <> None)).
Proof.
  intros Hw F Lk. split.
  - destruct (wst_state w sgn Hw ops F) as (h & fl & M & E & R & S & _). destruct (wr_search w sgn h fl _ Hw (wr_st w sgn h fl M _ Hw R S) k Lk) as (i & E1 & X & _). exists h, i. easy.
  - destruct (wtb_state w sgn Hw ops F) as (h & fl & M & E & R & S1 & S2 & S3 & _). destruct (wr_search w sgn h fl _ Hw (wr_tb w sgn h fl M _ Hw R S1 S2 S3) k Lk) as (i & E1 & X & _). exists h, i. easy.
Qed.
(** lookup finds the longest beginning of the key, in labels, with which some stored key begins, and gives back the rest *)
Theorem C111_lookup (w : nat) (sgn : bool) (ops : list wop) (k : key) : (0 < w)%nat -> Forall (wop_ok w sgn) ops -> labels w sgn k ->
  let begun a := a = [] \/ exists k', kprefix a k' /\ wmap_of ops k' <> None in
  (exists h a b i, wrun (wst_op w) th_clear ops = Some h /\ k = a ++ b /\ bt_lookup w h k = Some (i, b) /\ bt_search w h a = Some i /\ begun a /\ forall x r, b = x :: r -> ~ begun (a ++ [x])) /\
  (exists h a b i, wrun (wtb_op w) th_clear ops = Some h /\ k = a ++ b /\ bt_lookup w h k = Some (i, b) /\ bt_search w h a = Some i /\ begun a /\ forall x r, b = x :: r -> ~ begun (a ++ [x])).
Proof.
  intros Hw F Lk begun. split.
  - destruct (wst_state w sgn Hw ops F) as (h & fl & M & E & R & S & _). destruct (wr_lookup w sgn h fl _ Hw (wr_st w sgn h fl M _ Hw R S) k Lk) as (a & b & i & X1 & X2 & X3 & X4 & X5). exists h, a, b, i. repeat (split; [assumption|]). exact X5.
  - destruct (wtb_state w sgn Hw ops F) as (h & fl & M & E & R & S1 & S2 & S3 & _). destruct (wr_lookup w sgn h fl _ Hw (wr_tb w sgn h fl M _ Hw R S1 S2 S3) k Lk) as (a & b & i & X1 & X2 & X3 & X4 & X5). exists h, a, b, i. repeat (split; [assumption|]). exact X5.
Qed.
(** the keys 0x3042 and 0x3044 share a byte, but no label *)
Example C111_ex : let h := val (wrun (wtb_op 2) th_clear [WIns [0x3042] 0; WIns [0x3042; 0x3044] 0]) in
  (exists i, bt_lookup 2 h [0x3044] = Some (i, [0x3044]) /\ i = 1) /\ (exists i, bt_lookup 2 h [0x3042; 0x3045; 7] = Some (i, [0x3045; 7]) /\ bt_search 2 h [0x3042] = Some i) /\ labels 2 false [0x3042; 0x3045; 7].
Proof. split; [eexists; wit|]. split; [eexists; wit|]. repeat constructor; unfold label; lia. Qed.

(** ** C112: iteration yields the keys in order, the whole trie or below a prefix *)
Theorem C112_stable (w : nat) (sgn : bool) (ops : list wop) (p : key) : (0 < w <= 4)%nat -> Forall (wop_ok w sgn) ops -> labels w sgn p ->
  exists h i, wrun (wst_op w) th_clear ops = Some h /\ bt_search w h p = Some i /\
    (i = 0 -> forall k, kprefix p k -> wmap_of ops k = None) /\
    (i <> 0 -> exists ks, wi_enumerate st_it_bool w sgn h i = Some ks /\ StronglySorted (ulex w) ks /\ forall k, In k ks <-> kprefix p k /\ wmap_of ops k <> None).
Proof.
  intros [Hw W4] F Lp. destruct (wst_state w sgn Hw ops F) as (h & fl & M & E & R & S & _). pose proof (wr_st w sgn h fl M _ Hw R S) as W. destruct (wr_search w sgn h fl _ Hw W p Lp) as (i & E1 & X & Y). exists h, i. split; [easy|]. split; [easy|]. split.
  - intros -> k P. destruct (wmap_of ops k) eqn:G; [|easy]. exfalso. assert (0 <> 0); [|lia]. apply X. right. exists k. split; [easy|congruence].
  - intros N. apply (wr_enum w sgn h fl _ Hw W st_it_bool (has M) p i W4); [intros u j Fu Wu; now apply (st_bool_ok h fl)| |easy|now apply Y].
    intros k Lk. destruct S as (S1 & _). specialize (S1 k Lk). unfold has. rewrite S1. now destruct (wmap_of ops k).
Qed.
Theorem C112_plain (w : nat) (sgn : bool) (ops : list wop) (p : key) : (0 < w <= 4)%nat -> Forall (wop_ok w sgn) ops -> labels w sgn p ->
  exists h i, wrun (wtb_op w) th_clear ops = Some h /\ bt_search w h p = Some i /\
    (i = 0 -> forall k, kprefix p k -> wmap_of ops k = None) /\
    (i <> 0 -> exists ks, wi_enumerate tb_it_bool w sgn h i = Some ks /\ StronglySorted (ulex w) ks /\ forall k, In k ks <-> kprefix p k /\ wmap_of ops k <> None).
Proof.
  intros [Hw W4] F Lp. destruct (wtb_state w sgn Hw ops F) as (h & fl & M & E & R & S1 & S2 & S3 & _). pose proof (wr_tb w sgn h fl M _ Hw R S1 S2 S3) as W. destruct (wr_search w sgn h fl _ Hw W p Lp) as (i & E1 & X & Y). exists h, i. split; [easy|]. split; [easy|]. split.
  - intros -> k P. destruct (wmap_of ops k) eqn:G; [|easy]. exfalso. assert (0 <> 0); [|lia]. apply X. right. exists k. split; [easy|congruence].
  - intros N. apply (wr_enum w sgn h fl _ Hw W tb_it_bool (has M) p i W4); [intros u j Fu Wu; now apply (tb_bool_ok h fl)| |easy|now apply Y].
    intros k Lk. rewrite <- (S1 k Lk). unfold has. now destruct (get M (wide w k)).
Qed.
(** for unsigned labels the order is the usual one *)
Theorem C112_order (w : nat) (a b : key) : labels w false a -> labels w false b -> (ulex w a b <-> lexlt a b).
Proof.
  intros La Lb. unfold ulex. assert (X : forall k, labels w false k -> map (fun x => x mod 2 ^ (8 * Z.of_nat w)) k = k).
  { clear. induction k as [|x k IH]; intros L; [easy|]. inversion L as [|? ? Lx L']; subst. cbn [map]. rewrite IH by easy. f_equal. apply Z.mod_small. exact Lx. }
  now rewrite !X.
Qed.
Example C112_ex : let h := val (wrun (wtb_op 2) th_clear [WIns [0x3044] 1; WIns [0x3042; 0x61] 2; WIns [0x3042] 3; WIns [0x62] 4]) in
  wi_enumerate tb_it_bool 2 false h 1 = Some [[0x62]; [0x3042]; [0x3042; 0x61]; [0x3044]] /\
  (exists i, bt_search 2 h [0x3042] = Some i /\ wi_enumerate tb_it_bool 2 false h i = Some [[0x3042]; [0x3042; 0x61]]) /\ Forall (wop_ok 2 false) [WIns [0x3044] 1; WIns [0x3042; 0x61] 2; WIns [0x3042] 3; WIns [0x62] 4].
Proof.
  cbn zeta. split; [vm_compute; reflexivity|]. split; [eexists; split; [vm_compute; reflexivity|]; vm_compute; reflexivity|]. repeat (constructor; [repeat (match goal with |- _ /\ _ => split | _ => constructor end); unfold label, int31; cbn; try easy; lia|]); constructor.
Qed.
(** a signed label comes after the others when it is negative *)
Example C112_ex_signed : let h := val (wrun (wtb_op 4) th_clear [WIns [-1] 1; WIns [5] 2]) in wi_enumerate tb_it_bool 4 true h 1 = Some [[5]; [-1]].
Proof. vm_compute. reflexivity. Qed.
(** with eight byte labels operator * shifts an int by 32 and more *)
Theorem C112_refuted : exists h i, wrun (wtb_op 8) th_clear [WIns [97] 1] = Some h /\ bt_search 8 h [97] = Some i /\ i <> 0 /\ wi_deref 8 false h i = None /\ wi_enumerate tb_it_bool 8 false h 1 = None.
Proof.
  exists (val (wrun (wtb_op 8) th_clear [WIns [97] 1])). exists (match bt_search 8 (val (wrun (wtb_op 8) th_clear [WIns [97] 1])) [97] with Some i => i | None => 0 end).
  split; [vm_compute; reflexivity|]. split; [vm_compute; reflexivity|]. split; [vm_compute; discriminate|]. split; vm_compute; reflexivity.
Qed.

(** ** C113: assign replaces the contents *)
(** It does for one byte labels (C30), but not for wider ones: it is insert of each string *)
Theorem C113_refuted : exists h h', wrun (wtb_op 2) th_clear [WIns [98] 5] = Some h /\ wtb_assign 2 h [[97]] = Some h' /\ bt_contains 2 h' [98] = Some true /\ t_size h' = Some 2 /\
  exists g g', wrun (wst_op 2) th_clear [WIns [98] 5] = Some g /\ wst_assign 2 g [[97]] = Some g' /\ bt_contains 2 g' [98] = Some true /\ t_size g' = Some 2.
Proof.
  set (h := val (wrun (wtb_op 2) th_clear [WIns [98] 5])). set (g := val (wrun (wst_op 2) th_clear [WIns [98] 5])). exists h, (val (wtb_assign 2 h [[97]])). split; [vm_compute; reflexivity|]. split; [vm_compute; reflexivity|]. split; [vm_compute; reflexivity|]. split; [vm_compute; reflexivity|].
  exists g, (val (wst_assign 2 g [[97]])). wit.
Qed.
(** it adds the strings, except the empty one, to what is there *)
Lemma asg_keys ks : forall (m : kvmap) k, fold_left (fun m k => apply_op m (Ins k 0)) ks m k <> None <-> m k <> None \/ (In k ks /\ k <> []).
Proof.
  induction ks as [|q ks IH]; intros m k; cbn [fold_left In]; [tauto|]. rewrite IH. clear IH. cbn [apply_op]. destruct (keq q []) as [-> |N]; [destruct k; [tauto|]; split; intros [A|[B C]]; auto; destruct B as [B|B]; [easy|auto]|].
  destruct (m q) eqn:G; unfold upd_f.
  - split; [intros [A|[B C]]; auto|]. intros [A|[[<-|B] C]]; auto. left. congruence.
  - destruct (keq k q) as [-> |N']; [split; [auto|intros _; left; discriminate]|]. split; [intros [A|[B C]]; auto|]. intros [A|[[B|B] C]]; auto.
Qed.
Theorem C113_adds_partial (w : nat) (sgn : bool) (ops : list wop) (ks : list key) : (0 < w)%nat -> Forall (wop_ok w sgn) ops -> Forall (labels w sgn) ks ->
  (exists h h', wrun (wst_op w) th_clear ops = Some h /\ wst_assign w h ks = Some h' /\
     forall k, labels w sgn k -> exists b, bt_contains w h' k = Some b /\ (b = true <-> wmap_of ops k <> None \/ (In k ks /\ k <> []))) /\
  (exists h h', wrun (wtb_op w) th_clear ops = Some h /\ wtb_assign w h ks = Some h' /\
     forall k, labels w sgn k -> exists b, bt_contains w h' k = Some b /\ (b = true <-> wmap_of ops k <> None \/ (In k ks /\ k <> []))).
Proof.
  intros Hw F G. assert (F' : Forall (wop_ok w sgn) (ops ++ [WAsg ks])) by (apply Forall_app; split; [easy|]; now constructor).
  assert (D : forall step h0 hl, wrun step h0 (ops ++ [WAsg ks]) = Some hl -> exists h, wrun step h0 ops = Some h /\ step h (WAsg ks) = Some hl).
  { clear. intros step. induction ops as [|o ops IH]; intros h0 hl E; cbn [app wrun] in *; [exists h0; split; [easy|]; now destruct (step h0 (WAsg ks))|]. destruct (step h0 o) as [h1|]; [|easy]. now apply IH. }
  assert (K : forall k, wmap_of (ops ++ [WAsg ks]) k <> None <-> wmap_of ops k <> None \/ (In k ks /\ k <> [])) by (intros k; unfold wmap_of; rewrite fold_left_app; apply asg_keys).
  split.
  - destruct (C110_stable_history w sgn _ Hw F') as (h' & E & X & _). destruct (D _ _ _ E) as (h & E1 & E2). exists h, h'. split; [easy|]. split; [easy|]. intros k Lk. destruct (X k Lk) as (_ & C & _). eexists. split; [exact C|]. rewrite <- K. now destruct (wmap_of (ops ++ [WAsg ks]) k).
  - destruct (C110_plain_history w sgn _ Hw F') as (h' & E & X & _). destruct (D _ _ _ E) as (h & E1 & E2). exists h, h'. split; [easy|]. split; [easy|]. intros k Lk. destruct (X k Lk) as (C & _). eexists. split; [exact C|]. rewrite <- K. now destruct (wmap_of (ops ++ [WAsg ks]) k).
Qed.
Example C113_ex : Forall (labels 2 false) [[97]; []; [0x3042]] /\ Forall (wop_ok 2 false) [WIns [98] 5].
Proof. split; repeat (constructor; try easy). Qed.

(** ** C114: operator[] of an iterator goes to the child with that label *)
(** What it yields, when it yields something, is right *)
Theorem C114_child_partial (w : nat) (sgn : bool) (ops : list wop) (p : key) (x : Z) : (0 < w)%nat -> Forall (wop_ok w sgn) ops -> labels w sgn p -> label w sgn x ->
  (exists h i, wrun (wst_op w) th_clear ops = Some h /\ bt_search w h p = Some i /\
     (i <> 0 -> match wi_at w h i x with Some r => bt_search w h (p ++ [x]) = Some r | None => bt_search w h (p ++ [x]) = Some 0 end)) /\
  (exists h i, wrun (wtb_op w) th_clear ops = Some h /\ bt_search w h p = Some i /\
     (i <> 0 -> match wi_at w h i x with Some r => bt_search w h (p ++ [x]) = Some r | None => bt_search w h (p ++ [x]) = Some 0 end)).
Proof.
  intros Hw F Lp Lx. assert (Lpx : labels w sgn (p ++ [x])) by (apply Forall_app; split; [easy|now constructor]). split.
  - destruct (wst_state w sgn Hw ops F) as (h & fl & M & E & R & S & _). pose proof (wr_st w sgn h fl M _ Hw R S) as W. destruct (wr_search w sgn h fl _ Hw W p Lp) as (i & E1 & _). exists h, i. split; [easy|]. split; [easy|]. intros N.
    pose proof (wr_at w sgn h fl _ Hw W p i x Lp Lx E1 N) as X. destruct (wi_at w h i x); [easy|]. destruct (wr_search w sgn h fl _ Hw W _ Lpx) as (j & E2 & Y & _). rewrite E2. f_equal. destruct (Z.eq_dec j 0) as [|J]; [easy|]. now apply Y in J.
  - destruct (wtb_state w sgn Hw ops F) as (h & fl & M & E & R & S1 & S2 & S3 & _). pose proof (wr_tb w sgn h fl M _ Hw R S1 S2 S3) as W. destruct (wr_search w sgn h fl _ Hw W p Lp) as (i & E1 & _). exists h, i. split; [easy|]. split; [easy|]. intros N.
    pose proof (wr_at w sgn h fl _ Hw W p i x Lp Lx E1 N) as X. destruct (wi_at w h i x); [easy|]. destruct (wr_search w sgn h fl _ Hw W _ Lpx) as (j & E2 & Y & _). rewrite E2. f_equal. destruct (Z.eq_dec j 0) as [|J]; [easy|]. now apply Y in J.
Qed.
(** but for a label that is not there it may read past the end of the array *)
Theorem C114_refuted : exists h, wrun (wtb_op 2) th_clear [WIns [97] 1] = Some h /\ wi_at 2 h 1 0xFFFF = None /\ bt_search 2 h [0xFFFF] = Some 0 /\ exists i, wi_at 2 h 1 97 = Some i /\ bt_search 2 h [97] = Some i.
Proof. exists (val (wrun (wtb_op 2) th_clear [WIns [97] 1])). split; [vm_compute; reflexivity|]. split; [vm_compute; reflexivity|]. split; [vm_compute; reflexivity|]. eexists. wit. Qed.
Example C114_ex : Forall (wop_ok 2 false) [WIns [97] 1] /\ labels 2 false [] /\ label 2 false 97.
Proof. repeat (constructor; try easy). Qed.

Print Assumptions C110_stable_history.
Print Assumptions C110_plain_history.
Print Assumptions C110_plain_values.
Print Assumptions C111_search.
Print Assumptions C111_lookup.
Print Assumptions C112_stable.
Print Assumptions C112_plain.
Print Assumptions C112_order.
Print Assumptions C112_refuted.
Print Assumptions C113_refuted.
Print Assumptions C113_adds_partial.
Print Assumptions C114_child_partial.
Print Assumptions C114_refuted.
