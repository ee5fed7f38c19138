(** C26 – C32: tries and atoms. *)
From Coq Require Import ZArith List Bool Lia Sorting.Sorted.
From Verif Require Import M_serialize L_serialize M_trie L_trie L_trie2 L_trie3 L_trie4 L_trie5 L_trie6 L_trie7 L_trie8 L_trie9 L_trie10 L_trie11.
Import ListNotations.
Open Scope Z_scope.

Ltac wit := repeat (match goal with |- _ /\ _ => split end); (vm_compute; reflexivity).
Definition val (x : option heap) : heap := match x with Some h => h | None => [] end.

Definition stored (x : option Z) : bool := match x with Some _ => true | None => false end.

(** ** C26: the stable trie is a finite map under every history of insert, erase, t[k] = v, clear and assign *)
Theorem C26_stable_history (ops : list op) : Forall op_ok ops ->
  exists h, run st_op th_clear ops = Some h /\
    (forall k, bytes k -> st_get h k = Some (map_of ops k) /\ st_contains h k = Some (stored (map_of ops k)) /\
       exists i, st_find h k = Some i /\ (i = 0 <-> map_of ops k = None)) /\
    exists n, t_size h = Some (Z.of_nat n) /\ card (map_of ops) n.
Proof.
  intros F. destruct (st_run_ok ops th_clear [] [] (fun _ => None) st_rep_clear (fun _ => eq_refl) F) as (h & fl & M & E & R & A & _). exists h. split; [easy|]. fold (map_of ops) in A. split.
  - intros k Fk. rewrite (st_get_ok h fl M k R Fk), (st_contains_ok h fl M k R Fk), A. split; [easy|]. split; [easy|].
    destruct (st_find_ok h fl M k R Fk) as (i & Ei & X). exists i. split; [easy|]. rewrite A in X. destruct (map_of ops k); [|easy]. split; [lia|easy].
  - exists (length M). split; [|apply agrees_card; [apply R|easy]]. unfold t_size. pose proof (fl_lim _ _ (hi_fl _ _ (sr_hi _ _ _ R))). rewrite g_base_ok by (unfold inb; lia). now rewrite (sr_size _ _ _ R).
Qed.

(** The plain trie holds the right set of keys under every history *)
Theorem C26_plain_history (ops : list op) : Forall op_ok ops ->
  exists h, run tb_op th_clear ops = Some h /\
    (forall k, bytes k -> tb_contains h k = Some (stored (map_of ops k)) /\
       (exists v, tb_get h k = Some v /\ (v = None <-> map_of ops k = None)) /\
       exists i, tb_find h k = Some i /\ (i = 0 <-> map_of ops k = None)) /\
    exists n, t_size h = Some (Z.of_nat n) /\ card (map_of ops) n.
Proof.
  intros F. destruct (tb_run_ok ops th_clear [] [] (fun _ => None) tb_rep_clear (fun _ => conj (fun _ => eq_refl) (fun _ => eq_refl)) F) as (h & fl & M & E & R & A & _). exists h. split; [easy|]. fold (map_of ops) in A. split.
  - intros k Fk. rewrite (tb_contains_ok h fl M k R Fk), (has_dom M _ k A). split; [easy|]. split; [exists (get M k); split; [now apply (tb_get_ok h fl)|apply A]|].
    destruct (tb_find_ok h fl M k R Fk) as (i & Ei & X). exists i. split; [easy|]. rewrite <- (A k). destruct (get M k); [|easy]. split; [lia|easy].
  - exists (length M). split; [|apply dom_card; [apply R|easy]]. unfold t_size. pose proof (fl_lim _ _ (hi_fl _ _ (pt_hi _ _ _ R))). rewrite g_base_ok by (unfold inb; lia). now rewrite (pt_size _ _ _ R).
Qed.
(** and the right values as long as nothing is erased (C29 tells what erase does) *)
Theorem C26_plain_values (ops : list op) : Forall op_ok ops -> Forall no_del ops ->
  exists h, run tb_op th_clear ops = Some h /\ forall k, bytes k -> tb_get h k = Some (map_of ops k).
Proof.
  intros F N. destruct (tb_run_ok ops th_clear [] [] (fun _ => None) tb_rep_clear (fun _ => conj (fun _ => eq_refl) (fun _ => eq_refl)) F) as (h & fl & M & E & R & _ & A & _). exists h. split; [easy|]. intros k Fk. specialize (A (fun _ => eq_refl) N).
  rewrite (tb_get_ok h fl M k R Fk). f_equal. apply A.
Qed.
(** The array grows by at most 257 slots for every character inserted and for every key *)
Theorem C26_growth (ops : list op) : Forall op_ok ops -> Forall (fun o => forall ks, o <> Asg ks) ops ->
  (exists h, run st_op th_clear ops = Some h /\ limit h <= total ops) /\ (exists h, run tb_op th_clear ops = Some h /\ limit h <= total ops).
Proof.
  intros F N. split.
  - destruct (st_run_ok ops th_clear [] [] (fun _ => None) st_rep_clear (fun _ => eq_refl) F) as (h & fl & M & E & _ & _ & L). exists h. split; [easy|]. apply (L N).
  - destruct (tb_run_ok ops th_clear [] [] (fun _ => None) tb_rep_clear (fun _ => conj (fun _ => eq_refl) (fun _ => eq_refl)) F) as (h & fl & M & E & _ & _ & _ & L). exists h. split; [easy|]. apply (L N).
Qed.
Definition hist : list op := [Ins [97] 7; Ins [97; 98] 8; Set_ [99] 9; Del [97; 98]; Ins [255; 0] 5; Ins [97] 1; Asg [[98]; [97]; [98]]; Set_ [98] 6].
Lemma hist_ok : Forall op_ok hist.
Proof. repeat constructor; cbn; try easy; try lia. intros [?|[?|[?|[]]]]; easy. Qed.
Example C26_ex : Forall op_ok hist /\ map_of hist [97] = Some 0 /\ map_of hist [98] = Some 6 /\ map_of hist [99] = None.
Proof. split; [apply hist_ok|]. vm_compute. auto. Qed.

(** operator[] with the empty key: in the stable trie it may overwrite another key's value, in the empty plain trie it
    overwrites size(), otherwise it indexes by size() *)
Theorem C26_empty_key_refuted : 
  (exists h h', run st_op th_clear [Ins [97] 7] = Some h /\ st_get h [97] = Some (Some 7) /\ st_set h [] 9 = Some h' /\ st_get h' [97] = Some (Some 9) /\ st_contains h' [] = Some false) /\
  (exists h', tb_set th_clear [] 9 = Some h' /\ t_size h' = Some (-9)) /\
  (exists h, run tb_op th_clear [Ins [97] 7] = Some h /\ tb_set h [] 9 = None).
Proof.
  split; [|split]; [exists (val (run st_op th_clear [Ins [97] 7])); exists (val (st_set (val (run st_op th_clear [Ins [97] 7])) [] 9)); wit|eexists; wit|eexists; wit].
Qed.

(** ** C27: the double array is well formed at any time *)
Theorem C27_well_formed (ops : list op) : Forall op_ok ops ->
  (exists h free, run st_op th_clear ops = Some h /\ well_formed h free) /\ (exists h free, run tb_op th_clear ops = Some h /\ well_formed h free).
Proof.
  intros F. split.
  - destruct (st_run_ok ops th_clear [] [] (fun _ => None) st_rep_clear (fun _ => eq_refl) F) as (h & fl & M & E & R & _). exists h, fl. split; [easy|]. apply HI_wf, R.
  - destruct (tb_run_ok ops th_clear [] [] (fun _ => None) tb_rep_clear (fun _ => conj (fun _ => eq_refl) (fun _ => eq_refl)) F) as (h & fl & M & E & R & _). exists h, fl. split; [easy|]. apply HI_wf, R.
Qed.

(** ** C28: iteration yields the keys in order, the whole trie or below a prefix *)
Theorem C28_stable (ops : list op) (w : key) : Forall op_ok ops -> bytes w ->
  exists h i, run st_op th_clear ops = Some h /\ t_search h w = Some i /\
    (i = 0 -> forall k, kprefix w k -> map_of ops k = None) /\
    (i <> 0 -> exists ks, enumerate st_it_bool h i = Some ks /\ StronglySorted lexlt ks /\ forall k, In k ks <-> kprefix w k /\ map_of ops k <> None).
Proof.
  intros F Fw. destruct (st_run_ok ops th_clear [] [] (fun _ => None) st_rep_clear (fun _ => eq_refl) F) as (h & fl & M & E & R & A & _). fold (map_of ops) in A.
  destruct (st_enum h fl M w R Fw) as (i & Ei & X0 & X1). exists h, i. split; [easy|]. split; [easy|]. assert (HM : forall k, has M k = true <-> map_of ops k <> None) by (intros k; unfold has; rewrite A; destruct (map_of ops k); easy). split.
  - intros I0 k P. apply prefix_iff in P. specialize (X0 I0 k). destruct (map_of ops k) eqn:G; [|easy]. rewrite X0 in P; [easy|]. apply HM. congruence.
  - intros N. destruct (X1 N) as (ks & E1 & S1 & I1). exists ks. split; [easy|]. split; [easy|]. intros k. unfold kprefix. rewrite I1, prefix_iff, HM. easy.
Qed.
Theorem C28_plain (ops : list op) (w : key) : Forall op_ok ops -> bytes w ->
  exists h i, run tb_op th_clear ops = Some h /\ t_search h w = Some i /\
    (i = 0 -> forall k, kprefix w k -> map_of ops k = None) /\
    (i <> 0 -> exists ks, enumerate tb_it_bool h i = Some ks /\ StronglySorted lexlt ks /\ forall k, In k ks <-> kprefix w k /\ map_of ops k <> None).
Proof.
  intros F Fw. destruct (tb_run_ok ops th_clear [] [] (fun _ => None) tb_rep_clear (fun _ => conj (fun _ => eq_refl) (fun _ => eq_refl)) F) as (h & fl & M & E & R & A & _). fold (map_of ops) in A.
  destruct (tb_enum h fl M w R Fw) as (i & Ei & X0 & X1). exists h, i. split; [easy|]. split; [easy|]. assert (HM : forall k, has M k = true <-> map_of ops k <> None) by (intros k; rewrite (has_dom M _ k A); destruct (map_of ops k); easy). split.
  - intros I0 k P. apply prefix_iff in P. specialize (X0 I0 k). destruct (map_of ops k) eqn:G; [|easy]. rewrite X0 in P; [easy|]. apply HM. congruence.
  - intros N. destruct (X1 N) as (ks & E1 & S1 & I1). exists ks. split; [easy|]. split; [easy|]. intros k. unfold kprefix. rewrite I1, prefix_iff, HM. easy.
Qed.
(** the order is strict, so no key comes twice *)
Theorem C28_no_repetition (ks : list key) : StronglySorted lexlt ks -> NoDup ks.
Proof. induction 1 as [|k l S IH F]; constructor; [|easy]. intros I. rewrite Forall_forall in F. apply F in I. now apply lex_irrefl in I. Qed.
(** beginning at the root gives the whole trie *)
Theorem C28_root (h : heap) : t_search h [] = Some 1.
Proof. reflexivity. Qed.
Example C28_ex : exists h, run tb_op th_clear [Ins [98] 1; Ins [97; 98] 2; Ins [97] 3; Ins [0] 4] = Some h /\
  enumerate tb_it_bool h 1 = Some [[0]; [97]; [97; 98]; [98]] /\ enumerate tb_it_bool h 0 = None /\
  exists i, t_search h [97] = Some i /\ enumerate tb_it_bool h i = Some [[97]; [97; 98]].
Proof.
  exists (val (run tb_op th_clear [Ins [98] 1; Ins [97; 98] 2; Ins [97] 3; Ins [0] 4])). split; [vm_compute; reflexivity|]. split; [vm_compute; reflexivity|]. split; [vm_compute; reflexivity|].
  exists (match t_search (val (run tb_op th_clear [Ins [98] 1; Ins [97; 98] 2; Ins [97] 3; Ins [0] 4])) [97] with Some i => i | None => 0 end). wit.
Qed.

(** ** C29: erasing a key and the values of the others *)
Theorem C29_stable (ops : list op) (k : key) : Forall op_ok ops -> bytes k ->
  exists h h', run st_op th_clear ops = Some h /\ st_erase h k = Some h' /\ st_get h' k = Some None /\
    forall q, bytes q -> q <> k -> st_get h' q = st_get h q.
Proof.
  intros F Fk. destruct (st_run_ok ops th_clear [] [] (fun _ => None) st_rep_clear (fun _ => eq_refl) F) as (h & fl & M & E & R & A & _). destruct (st_erase_ok h fl M k R Fk) as (h' & fl' & E' & R' & _). exists h, h'. split; [easy|]. split; [easy|]. split.
  - rewrite (st_get_ok h' fl' _ k R' Fk), get_del, eqw_refl. easy.
  - intros q Fq N. rewrite (st_get_ok h' fl' _ q R' Fq), (st_get_ok h fl M q R Fq), get_del, eqw_keq. now destruct (keq q k).
Qed.
(** In the plain trie the value of q is lost exactly when q is a proper prefix of k and of no other key *)
Theorem C29_plain_exact (ops : list op) (k : key) : Forall op_ok ops -> bytes k ->
  exists h h', run tb_op th_clear ops = Some h /\ tb_erase h k = Some h' /\ tb_get h' k = Some None /\
    (tb_get h k = Some None -> forall q, bytes q -> tb_get h' q = tb_get h q) /\
    (tb_get h k <> Some None -> forall q v, bytes q -> q <> k -> tb_get h q = Some v ->
       let alone := kprefix q k /\ forall k', k' <> k -> k' <> q -> kprefix q k' -> bytes k' -> tb_get h k' = Some None in
       (alone -> tb_get h' q = Some (option_map (fun _ => 0) v)) /\ (~ alone -> tb_get h' q = Some v)).
Proof.
  intros F Fk. destruct (tb_run_ok ops th_clear [] [] (fun _ => None) tb_rep_clear (fun _ => conj (fun _ => eq_refl) (fun _ => eq_refl)) F) as (h & fl & M & E & R & _). destruct (tb_erase_ok h fl M k R Fk) as (h' & fl' & E' & R' & _). exists h, h'. split; [easy|]. split; [easy|].
  pose proof (tb_get_ok h fl M k R Fk) as Gk. unfold has in R'. split; [|split].
  - rewrite (tb_get_ok h' fl' _ k R' Fk). destruct (get M k) eqn:G; [|now rewrite G]. rewrite get_reset, get_del, eqw_refl. easy.
  - intros X q Fq. rewrite (tb_get_ok h' fl' _ q R' Fq), (tb_get_ok h fl M q R Fq). rewrite Gk in X. injection X as X. now rewrite X.
  - intros X q v Fq N Gq. rewrite Gk in X. destruct (get M k) as [vk|] eqn:G; [|easy]. rewrite (tb_get_ok h fl M q R Fq) in Gq. injection Gq as Gq. cbn zeta.
    rewrite (tb_get_ok h' fl' _ q R' Fq), get_reset, get_del, eqw_keq. destruct (keq q k); [easy|]. rewrite Gq.
    assert (Al : is_prefix q k && negb (ext (del k M) q) = true <-> kprefix q k /\ (forall k', k' <> k -> k' <> q -> kprefix q k' -> bytes k' -> tb_get h k' = Some None)).
    { rewrite andb_true_iff, prefix_iff, negb_true_iff. unfold kprefix. split; intros [P Q]; (split; [easy|]).
      - intros k' N1 N2 P' Fk'. rewrite (tb_get_ok h fl M k' R Fk'). destruct (get M k') as [v'|] eqn:G'; [|easy]. exfalso. assert (Y : ext (del k M) q = true); [|congruence]. apply ext_iff. exists k', v'. split; [apply del_in; split; [now apply get_in|easy]|]. split; [now apply prefix_iff|easy].
      - destruct (ext (del k M) q) eqn:Y; [|easy]. apply ext_iff in Y as (k' & v' & I & P' & N'). apply del_in in I as [I N1]. cbn in N1. apply prefix_iff in P'. pose proof (wf_key _ (pt_wf _ _ _ R) _ _ I) as (_ & Fk' & _).
        specialize (Q k' N1 N' P' Fk'). rewrite (tb_get_ok h fl M k' R Fk') in Q. rewrite (in_get M k' v') in Q; [easy|apply R|easy]. }
    split; intros Y.
    + apply Al in Y. rewrite Y. easy.
    + destruct (is_prefix q k && negb (ext (del k M) q)); [exfalso; now apply Y, Al|]. now destruct v.
Qed.
Theorem C29_plain_refuted : exists h h', run tb_op th_clear [Ins [97] 1; Ins [97; 98] 2] = Some h /\ tb_get h [97] = Some (Some 1) /\
  tb_erase h [97; 98] = Some h' /\ tb_contains h' [97] = Some true /\ tb_get h' [97] = Some (Some 0).
Proof. exists (val (run tb_op th_clear [Ins [97] 1; Ins [97; 98] 2])), (val (run tb_op th_clear [Ins [97] 1; Ins [97; 98] 2; Del [97; 98]])). wit. Qed.

(** ** C30: assign from a list of strings *)
Theorem C30_assign (ks : list key) : Forall bytes ks -> ~ In [] ks ->
  exists h h', tb_assign ks = Some h /\ tb_insert_all th_clear ks = Some h' /\
    t_size h = t_size h' /\ (forall k, bytes k -> tb_get h k = tb_get h' k /\ tb_contains h k = tb_contains h' k /\ (tb_get h k = Some (Some 0) <-> In k ks) /\ (tb_get h k = Some None <-> ~ In k ks)).
Proof.
  intros F N. destruct (tb_asg_ok ks F N) as (h & fl & M & E & R & A). destruct (tb_insert_all_ok ks th_clear [] [] tb_rep_clear F) as (h' & fl' & E' & R'). exists h, h'. split; [easy|]. split; [easy|].
  set (M' := ins_all ks []) in *. assert (G : forall k, get M k = get M' k) by (intros k; rewrite (A k); symmetry; apply agrees_all). split.
  - unfold t_size. pose proof (fl_lim _ _ (hi_fl _ _ (pt_hi _ _ _ R))). pose proof (fl_lim _ _ (hi_fl _ _ (pt_hi _ _ _ R'))). rewrite !g_base_ok by (unfold inb; lia). rewrite (pt_size _ _ _ R), (pt_size _ _ _ R'). do 2 f_equal.
    assert (C : forall (M1 M2 : fmap), Wf M1 -> (forall k, get M1 k = get M2 k) -> (length M1 <= length M2)%nat).
    { intros M1 M2 W1 G12. rewrite <- (map_length fst M1), <- (map_length fst M2). apply NoDup_incl_length; [apply W1|]. intros k I. destruct (in_dec keq k (map fst M2)) as [|X]; [easy|]. exfalso. apply get_none in X. rewrite <- G12 in X. now apply get_none in X. }
    apply Nat.le_antisymm; apply C; auto; [apply R|apply R'].
  - intros k Fk. rewrite (tb_get_ok h fl M k R Fk), (tb_get_ok h' fl' M' k R' Fk), (tb_contains_ok h fl M k R Fk), (tb_contains_ok h' fl' M' k R' Fk). unfold has. rewrite G. split; [easy|]. split; [easy|].
    rewrite <- G, (A k). cbn. destruct (in_dec keq k ks) as [I|I]; [destruct (keq k []); [congruence|]|]; split; split; try easy.
Qed.
(** The empty string in front of a sorted list: nothing is stored for it, but size() counts it *)
Theorem C30_empty_string (ks : list key) : StronglySorted lexlt ks -> Forall bytes ks -> ~ In [] ks ->
  exists h h', tb_assign ([] :: ks) = Some h /\ tb_insert_all th_clear ([] :: ks) = Some h' /\
    t_size h = Some (Z.of_nat (length ks) + 1) /\ t_size h' = Some (Z.of_nat (length ks)).
Proof.
  intros S F N. destruct (tb_assign_bulk ks ([] :: ks) S F N (or_intror eq_refl)) as (h0 & fl & h1 & R & E & B & H & _). exists h1. destruct (C30_assign ks F N) as (h2 & h' & E2 & E' & T & _). exists h'. split; [easy|]. split; [easy|].
  destruct (tb_assign_bulk ks ks S F N (or_introl eq_refl)) as (_ & fl3 & h3 & _ & E3 & B3 & H3 & _). assert (h3 = h2) by congruence. subst h3. unfold t_size in *. pose proof (fl_lim _ _ (hi_fl _ _ H)). pose proof (fl_lim _ _ (hi_fl _ _ H3)).
  rewrite g_base_ok in T by (unfold inb; lia). rewrite g_base_ok by (unfold inb; lia). rewrite B. split; [f_equal; change (Z.of_nat (Datatypes.S (length ks)) = Z.of_nat (length ks) + 1); lia|]. rewrite <- T. now rewrite B3.
Qed.
Theorem C30_refuted : exists h h', tb_assign [[]; [97]] = Some h /\ tb_insert_all th_clear [[]; [97]] = Some h' /\ t_size h = Some 2 /\ t_size h' = Some 1 /\ tb_contains h [] = Some false.
Proof. do 2 eexists. wit. Qed.
Example C30_ex : Forall bytes [[97]; [97; 98]; [98]] /\ ~ In [] [[97]; [97; 98]; [98]] /\ StronglySorted lexlt [[97]; [97; 98]; [98]].
Proof. split; [repeat constructor; cbn; lia|]. split; [intros [?|[?|[?|[]]]]; easy|]. repeat constructor; cbn; lia. Qed.

(** ** C31: atoms *)
Inductive aop := AIns (k : key) | ADel (k : key) | ADelId (k : key) | AClr.
Definition a_op (h : heap) (o : aop) : option heap :=
  match o with
  | AIns k => option_map fst (atom_insert h k)
  | ADel k => st_erase h k                                      (* erase by string *)
  | ADelId k => match atom_of h k with Some id => atom_erase h id | None => None end  (* erase by identifier *)
  | AClr => Some th_clear
  end.
Definition set_of_op (s : key -> bool) (o : aop) : key -> bool :=
  match o with
  | AIns k => fun q => if keq q k then negb (if keq k [] then true else false) || s k else s q
  | ADel k | ADelId k => fun q => if keq q k then false else s q
  | AClr => fun _ => false
  end.
Definition set_of (ops : list aop) : key -> bool := fold_left set_of_op ops (fun _ => false).
Definition aop_ok (o : aop) : Prop := match o with AIns k | ADel k | ADelId k => bytes k | AClr => True end.
Definition acost (o : aop) : Z := match o with AIns k => 257 * (Z.of_nat (length k) + 1) | _ => 0 end.
Definition atotal (ops : list aop) : Z := fold_right (fun o n => acost o + n) 2 ops.
Fixpoint arun (h : heap) (ops : list aop) : option heap :=
  match ops with [] => Some h | o :: r => match a_op h o with Some h1 => arun h1 r | None => None end end.

Lemma arun_ok ops : forall h fl M s, StRep h fl M -> (forall k, has M k = s k) -> Forall aop_ok ops -> limit h - 2 + atotal ops <= 2 ^ 31 ->
  exists h' fl' M', arun h ops = Some h' /\ StRep h' fl' M' /\ forall k, has M' k = fold_left set_of_op ops s k.
Proof.
  induction ops as [|o r IH]; intros h fl M s R A F L; [exists h, fl, M; easy|]. inversion F as [|? ? Fo Fr]; subst. cbn [arun fold_left]. cbn [atotal fold_right] in L. fold (atotal r) in L.
  assert (P : 2 <= atotal r) by (clear; induction r as [|o r IH]; cbn; [lia|]; fold (atotal r); destruct o; cbn [acost]; lia).
  assert (St : exists h1 fl1 M1, a_op h o = Some h1 /\ StRep h1 fl1 M1 /\ (forall k, has M1 k = set_of_op s o k) /\ limit h1 <= limit h + acost o).
  { assert (Dl : forall k, bytes k -> exists h1 fl1 M1, st_erase h k = Some h1 /\ StRep h1 fl1 M1 /\ (forall q, has M1 q = if keq q k then false else s q) /\ limit h1 <= limit h).
    { intros k Fk. destruct (st_erase_ok h fl M k R Fk) as (h1 & fl1 & E & R1 & L1). exists h1, fl1, (del k M). split; [easy|]. split; [easy|]. split; [|easy]. intros q. unfold has. rewrite get_del, eqw_keq. destruct (keq q k); [easy|]. apply A. }
    destruct o as [k|k|k|]; cbn [aop_ok a_op acost] in *.
    - destruct (atom_insert_ok h fl M k R Fo) as (h1 & fl1 & i & id & E & L1 & X0 & X1); [lia|]. rewrite E. destruct (keq k []) as [Ek|Nk].
      + destruct (X0 Ek) as (-> & -> & ->). exists h, fl, M. split; [easy|]. split; [easy|]. split; [|lia]. intros q. cbn. destruct (keq q k) as [-> |]; [|apply A]. destruct (keq k []); [|easy]. cbn. apply A.
      + destruct (X1 Nk) as (R1 & _). exists h1, fl1, (upd k id M). split; [easy|]. split; [easy|]. split; [|easy]. intros q. unfold has. rewrite get_upd, eqw_keq. cbn. destruct (keq k q) as [<-|Nq]; [destruct (keq k k), (keq k []); easy|]. destruct (keq q k); [congruence|]. apply A.
    - destruct (Dl k Fo) as (h1 & fl1 & M1 & E & R1 & X & L1). exists h1, fl1, M1. split; [easy|]. split; [easy|]. split; [exact X|lia].
    - destruct (get M k) as [v|] eqn:G.
      + destruct (atom_erase_ok h fl M k v R Fo G) as (id & h1 & fl1 & E0 & E1 & R1 & L1). rewrite E0. exists h1, fl1, (del k M). split; [easy|]. split; [easy|]. split; [|lia]. intros q. cbn. unfold has. rewrite get_del, eqw_keq. destruct (keq q k); [easy|]. apply A.
      + rewrite (atom_absent h fl M k R Fo G). exists h, fl, M. split; [easy|]. split; [easy|]. split; [|lia]. intros q. cbn. destruct (keq q k) as [-> |]; [|apply A]. unfold has. now rewrite G.
    - exists th_clear, [], []. split; [easy|]. split; [apply st_rep_clear|]. split; [easy|]. pose proof (fl_lim _ _ (hi_fl _ _ (sr_hi _ _ _ R))). change (limit th_clear) with 2. lia. }
  destruct St as (h1 & fl1 & M1 & E & R1 & A1 & L1). rewrite E. apply (IH h1 fl1 M1); auto. lia.
Qed.

(** After any history (small enough for 32 bit indices): the set is right, every string in it has its own identifier,
    and the identifier leads back to the string *)
Theorem C31_ids_partial (ops : list aop) : Forall aop_ok ops -> atotal ops <= 2 ^ 31 ->
  exists h, arun th_clear ops = Some h /\
    (forall k, bytes k -> st_contains h k = Some (set_of ops k)) /\
    (forall k, bytes k -> set_of ops k = true -> exists id i, atom_of h k = Some id /\ 2 <= id /\ atom_at_id h id = Some i /\ st_find h k = Some i /\ it_string h i = Some k) /\
    (forall k, bytes k -> set_of ops k = false -> atom_of h k = Some 0) /\
    (forall k1 k2 id, bytes k1 -> bytes k2 -> atom_of h k1 = Some id -> atom_of h k2 = Some id -> id <> 0 -> k1 = k2).
Proof.
  intros F L. destruct (arun_ok ops th_clear [] [] (fun _ => false) st_rep_clear (fun _ => eq_refl) F) as (h & fl & M & E & R & A); [change (limit th_clear) with 2; lia|]. change (forall k, has M k = set_of ops k) in A. exists h. split; [easy|].
  assert (Pr : forall k, bytes k -> set_of ops k = true -> exists id i, atom_of h k = Some id /\ 2 <= id /\ atom_at_id h id = Some i /\ st_find h k = Some i /\ it_string h i = Some k).
  { intros k Fk X. rewrite <- A in X. apply has_get in X as [v G]. destruct (atom_find h fl M k v R Fk G) as (i & id & F1 & F2 & F3 & F4 & F5 & F6 & F7). exists id, i. easy. }
  assert (Ab : forall k, bytes k -> set_of ops k = false -> atom_of h k = Some 0).
  { intros k Fk X. apply (atom_absent h fl M k R Fk). rewrite <- A in X. unfold has in X. now destruct (get M k). }
  split; [|split; [easy|split; [easy|]]].
  - intros k Fk. rewrite (st_contains_ok h fl M k R Fk). f_equal. apply A.
  - intros k1 k2 id F1 F2 I1 I2 N. destruct (set_of ops k1) eqn:S1; [|rewrite (Ab k1 F1 S1) in I1; congruence]. destruct (set_of ops k2) eqn:S2; [|rewrite (Ab k2 F2 S2) in I2; congruence].
    destruct (Pr k1 F1 S1) as (d1 & i1 & A1 & _ & A2 & _ & A3). destruct (Pr k2 F2 S2) as (d2 & i2 & B1 & _ & B2 & _ & B3). congruence.
Qed.
Example C31_ex : Forall aop_ok [AIns [97]; AIns [97; 98]; ADelId [97]; ADel [1]] /\ atotal [AIns [97]; AIns [97; 98]; ADelId [97]; ADel [1]] <= 2 ^ 31.
Proof. split; [repeat constructor; cbn; lia|]. vm_compute. easy. Qed.
(** inserting further strings changes the identifier of a string already there *)
Theorem C31_stability_refuted : exists h h', arun th_clear [AIns [97]] = Some h /\ arun h [AIns [98]; AIns [97; 98]] = Some h' /\ atom_of h [97] = Some 257 /\ atom_of h' [97] = Some 259 /\ (exists i, atom_at_id h' 257 = Some i /\ it_string h' i = Some [97; 98]).
Proof. exists (val (arun th_clear [AIns [97]])), (val (arun th_clear [AIns [97]; AIns [98]; AIns [97; 98]])). do 4 (split; [vm_compute; reflexivity|]). exists 101. wit. Qed.

(** ** C32: images *)
(** every trie whose nodes fit 32 bits, as 32 bit integers, as bytes, and through a stream holding nothing else *)
Theorem C32_image_partial (h : heap) : Forall (fun n => (- 2 ^ 31 <= fst n < 2 ^ 31) /\ (- 2 ^ 31 <= snd n < 2 ^ 31)) h -> limit h < 2 ^ 61 ->
  th_assign 1 32 (ivalues h) = Some h /\
  th_assign 4 8 (concat (map (serialize 4) (ivalues h))) = Some h /\
  th_read (th_write h) = Some (h, []).
Proof. intros F L. split; [now apply assign32_ok|]. split; [now apply assign8_ok|]. now apply read_ok. Qed.
Example C32_ex : exists h, run st_op th_clear [Ins [97] 7] = Some h /\ forallb (fun n => (- 2 ^ 31 <=? fst n) && (fst n <? 2 ^ 31) && (- 2 ^ 31 <=? snd n) && (snd n <? 2 ^ 31)) h = true /\ limit h = 258.
Proof. exists (val (run st_op th_clear [Ins [97] 7])). wit. Qed.
(** the node made from four 16 bit units is wrong, and a reader of the stream takes what follows the trie *)
Theorem C32_refuted :
  (exists h, run st_op th_clear [Ins [97] 1] = Some h /\ exists h', th_assign 2 16 (concat (map (fun x => [x / 65536; x mod 65536]) (ivalues h))) = Some h' /\ st_get h [97] = Some (Some 1) /\ st_get h' [97] <> Some (Some 1)) /\
  (exists h', th_read (th_write th_clear ++ [1; 2; 3; 4; 5; 6; 7; 8]) = Some (h', []) /\ h' <> th_clear /\ limit h' = 3).
Proof.
  split.
  - set (h := val (run st_op th_clear [Ins [97] 1])). exists h. split; [vm_compute; reflexivity|]. exists (val (th_assign 2 16 (concat (map (fun x => [x / 65536; x mod 65536]) (ivalues h))))). split; [vm_compute; reflexivity|]. split; [vm_compute; reflexivity|]. vm_compute. discriminate.
  - eexists. split; [vm_compute; reflexivity|]. split; [discriminate|reflexivity].
Qed.

Print Assumptions C26_stable_history.
Print Assumptions C26_plain_history.
Print Assumptions C26_plain_values.
Print Assumptions C26_growth.
Print Assumptions C26_empty_key_refuted.
Print Assumptions C27_well_formed.
Print Assumptions C28_stable.
Print Assumptions C28_plain.
Print Assumptions C28_no_repetition.
Print Assumptions C28_root.
Print Assumptions C29_stable.
Print Assumptions C29_plain_exact.
Print Assumptions C29_plain_refuted.
Print Assumptions C30_assign.
Print Assumptions C30_empty_string.
Print Assumptions C30_refuted.
Print Assumptions C31_ids_partial.
Print Assumptions C31_stability_refuted.
Print Assumptions C32_image_partial.
Print Assumptions C32_refuted.
