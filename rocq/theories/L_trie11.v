(** Histories of trie operations, and the maps they are meant to describe. *)
From Coq Require Import ZArith List Bool Lia Sorting.Sorted.
From Verif Require Import M_serialize L_serialize M_trie L_trie L_trie2 L_trie3 L_trie4 L_trie5 L_trie6 L_trie7 L_trie8 L_trie9 L_trie10.
Import ListNotations.
Open Scope Z_scope.

(** ** Specification *)
Definition keq : forall a b : list Z, {a = b} + {a <> b} := list_eq_dec Z.eq_dec.
Definition key := list Z.
Definition kvmap := key -> option Z.
Definition upd_f (m : kvmap) (k : key) (v : option Z) : kvmap := fun q => if keq q k then v else m q.

Inductive op :=
| Ins (k : key) (v : Z)      (* insert; keeps the old value of a key already there; "" is ignored *)
| Del (k : key)              (* erase *)
| Set_ (k : key) (v : Z)     (* t[k] = v *)
| Clr                        (* clear *)
| Asg (ks : list key).       (* assign from a list of strings *)

Definition apply_op (m : kvmap) (o : op) : kvmap :=
  match o with
  | Ins k v => if keq k [] then m else match m k with Some _ => m | None => upd_f m k (Some v) end
  | Del k => upd_f m k None
  | Set_ k v => upd_f m k (Some v)
  | Clr => fun _ => None
  | Asg ks => fun q => if in_dec keq q ks then if keq q [] then None else Some 0 else None
  end.
Definition map_of (ops : list op) : kvmap := fold_left apply_op ops (fun _ => None).

Definition bytes (k : key) : Prop := Forall (fun c => 0 <= c <= 255) k.
Definition int31 (v : Z) : Prop := 0 <= v <= 2147483647.
Definition op_ok (o : op) : Prop :=
  match o with
  | Ins k v => bytes k /\ int31 v
  | Del k => bytes k
  | Set_ k v => bytes k /\ k <> [] /\ int31 v
  | Clr => True
  | Asg ks => Forall bytes ks /\ ~ In [] ks
  end.
Definition no_del (o : op) : Prop := match o with Del _ => False | _ => True end.

(** the number of keys of a map *)
Definition card (m : kvmap) (n : nat) : Prop := exists ks, NoDup ks /\ length ks = n /\ forall k, In k ks <-> m k <> None.
Definition kprefix (u v : key) : Prop := exists t, v = u ++ t.

(** ** The two tries run on a history *)
Definition st_op (h : heap) (o : op) : option heap :=
  match o with
  | Ins k v => option_map fst (st_insert h k v)
  | Del k => st_erase h k
  | Set_ k v => st_set h k v
  | Clr => Some th_clear
  | Asg ks => st_assign ks
  end.
Definition tb_op (h : heap) (o : op) : option heap :=
  match o with
  | Ins k v => option_map fst (tb_insert h k v)
  | Del k => tb_erase h k
  | Set_ k v => tb_set h k v
  | Clr => Some th_clear
  | Asg ks => tb_assign ks
  end.
Fixpoint run (step : heap -> op -> option heap) (h : heap) (ops : list op) : option heap :=
  match ops with
  | [] => Some h
  | o :: r => match step h o with Some h1 => run step h1 r | None => None end
  end.

(** the slots an operation may add *)
Definition cost (o : op) : Z :=
  match o with
  | Ins k _ | Set_ k _ => 257 * (Z.of_nat (length k) + 1)
  | _ => 0
  end.
Definition total (ops : list op) : Z := fold_right (fun o n => cost o + n) 2 ops.

(** ** Proofs *)
Definition agrees (M : fmap) (m : kvmap) : Prop := forall k, get M k = m k.
Lemma agrees_card M m : Wf M -> agrees M m -> card m (length M).
Proof.
  intros W A. exists (map fst M). split; [apply W|]. split; [apply map_length|]. intros k. rewrite <- A. destruct (get M k) as [v|] eqn:G.
  - split; [easy|]. intros _. apply get_in in G. apply in_map_iff. now exists (k, v).
  - split; [|easy]. intros I. now apply get_none in G.
Qed.
Lemma eqw_keq a b : eqw a b = if keq a b then true else false.
Proof. destruct (eqw_spec a b), (keq a b); easy. Qed.
Lemma agrees_ins M m k v : Wf M -> agrees M m -> agrees (ins k v M) (apply_op m (Ins k v)).
Proof.
  intros W A q. cbn. unfold ins. destruct k as [|c k]; [apply A|]. destruct (keq (c :: k) []); [easy|]. rewrite <- (A (c :: k)). destruct (get M (c :: k)) eqn:G; [apply A|]. cbn [get]. unfold upd_f.
  destruct (eqw_spec (c :: k) q) as [e|e], (keq q (c :: k)); (congruence || apply A).
Qed.
Lemma agrees_del M m k : agrees M m -> agrees (del k M) (upd_f m k None).
Proof. intros A q. rewrite get_del, eqw_keq. unfold upd_f. destruct (keq q k); [easy|]. apply A. Qed.
Lemma agrees_upd M m k v : agrees M m -> agrees (upd k v M) (upd_f m k (Some v)).
Proof. intros A q. rewrite get_upd, eqw_keq. unfold upd_f. destruct (keq k q), (keq q k); (congruence || apply A). Qed.

Lemma st_insert_all_ok ks : forall h fl M, StRep h fl M -> Forall (Forall byte) ks ->
  exists h' fl', st_insert_all h ks = Some h' /\ StRep h' fl' (ins_all ks M).
Proof.
  induction ks as [|k r IH]; intros h fl M R F; [exists h, fl; easy|]. inversion F as [|? ? Fk Fr]; subst. cbn [st_insert_all].
  destruct (st_insert_ok h fl M k 0 R Fk) as (h1 & fl1 & i1 & E & R1 & _); [lia|]. rewrite E. apply (IH h1 fl1); easy.
Qed.
Lemma agrees_all ks m : agrees (ins_all ks []) (apply_op m (Asg ks)).
Proof. intros q. rewrite get_ins_all. cbn [get apply_op]. destruct (in_dec _ q ks), (in_dec keq q ks); try easy. destruct q; [now destruct (keq [] [])|now destruct (keq (z :: q) [])]. Qed.

Lemma st_op_ok h fl M m o : StRep h fl M -> agrees M m -> op_ok o ->
  exists h' fl' M', st_op h o = Some h' /\ StRep h' fl' M' /\ agrees M' (apply_op m o) /\ ((forall ks, o <> Asg ks) -> limit h' <= limit h + cost o).
Proof.
  intros R A Ok. destruct o as [k v|k|k v| |ks]; cbn [op_ok st_op cost] in *.
  - destruct Ok as [Fk Hv]. destruct (st_insert_ok h fl M k v R Fk Hv) as (h1 & fl1 & i1 & E & R1 & L & _). exists h1, fl1, (ins k v M). rewrite E. split; [easy|]. split; [easy|]. split; [apply agrees_ins; [apply R|easy]|]. intros; lia.
  - destruct (st_erase_ok h fl M k R Ok) as (h1 & fl1 & E & R1 & L). exists h1, fl1, (del k M). split; [easy|]. split; [easy|]. split; [now apply agrees_del|]. intros; lia.
  - destruct Ok as (Fk & Nk & Hv). destruct (st_set_ok h fl M k v R Fk Nk Hv) as (h1 & fl1 & E & R1 & L). exists h1, fl1, (upd k v M). split; [easy|]. split; [easy|]. split; [now apply agrees_upd|]. intros; lia.
  - exists th_clear, [], []. split; [easy|]. split; [apply st_rep_clear|]. split; [easy|]. intros _. pose proof (fl_lim _ _ (hi_fl _ _ (sr_hi _ _ _ R))). change (limit th_clear) with 2. lia.
  - destruct Ok as [F _]. destruct (st_insert_all_ok ks th_clear [] [] st_rep_clear F) as (h1 & fl1 & E & R1). exists h1, fl1, (ins_all ks []). split; [easy|]. split; [easy|]. split; [apply agrees_all|]. intros N. now destruct (N ks).
Qed.

(** the values a plain trie keeps when [k] is erased *)
Lemma tb_asg_ok ks : Forall (Forall byte) ks -> ~ In [] ks -> exists h' fl' M', tb_assign ks = Some h' /\ PRep h' fl' M' /\ agrees M' (apply_op (fun _ => None) (Asg ks)).
Proof.
  intros F N. destruct (sorted_unique ks) eqn:S.
  - apply sorted_unique_iff in S. destruct (tb_assign_bulk ks ks S F N (or_introl eq_refl)) as (h0 & fl & h1 & R & E & _ & _ & _ & X). rewrite (X eq_refl) in E. exists h0, fl, (kmap ks). split; [easy|]. split; [easy|].
    intros q. cbn. assert (Kb : forall k, In k ks -> k <> [] /\ Forall byte k) by (intros k I; split; [congruence|rewrite Forall_forall in F; auto]).
    destruct (in_dec keq q ks) as [I|I].
    + rewrite (get_kmap_in ks S Kb q I). destruct (keq q []); [congruence|easy].
    + now rewrite (get_kmap_out ks q I).
  - unfold tb_assign. rewrite S. destruct (tb_insert_all_ok ks th_clear [] [] tb_rep_clear F) as (h1 & fl1 & E & R1). exists h1, fl1, (ins_all ks []). split; [easy|]. split; [easy|]. apply agrees_all.
Qed.

(** same keys *)
Definition dom_agrees (M : fmap) (m : kvmap) : Prop := forall k, get M k = None <-> m k = None.
Lemma dom_card M m : Wf M -> dom_agrees M m -> card m (length M).
Proof.
  intros W A. exists (map fst M). split; [apply W|]. split; [apply map_length|]. intros k. rewrite <- (A k). rewrite get_none. destruct (in_dec keq k (map fst M)); tauto.
Qed.
Lemma has_dom M m k : dom_agrees M m -> has M k = match m k with Some _ => true | None => false end.
Proof. intros A. specialize (A k). unfold has. destruct (get M k), (m k); try easy; [destruct A as [_ A]|destruct A as [A _]]; now specialize (A eq_refl). Qed.
Lemma tb_op_ok h fl M m o : PRep h fl M -> dom_agrees M m -> op_ok o ->
  exists h' fl' M', tb_op h o = Some h' /\ PRep h' fl' M' /\ dom_agrees M' (apply_op m o) /\ (agrees M m -> no_del o -> agrees M' (apply_op m o)) /\ ((forall ks, o <> Asg ks) -> limit h' <= limit h + cost o).
Proof.
  intros R A Ok. destruct o as [k v|k|k v| |ks]; cbn [op_ok tb_op cost] in *.
  - destruct Ok as [Fk Hv]. destruct (tb_insert_ok h fl M k v R Fk Hv) as (h1 & fl1 & i1 & E & R1 & L & _). exists h1, fl1, (ins k v M). rewrite E. split; [easy|]. split; [easy|]. split; [|split; [intros B _; apply agrees_ins; [apply R|easy]|intros; lia]].
    intros q. cbn. unfold ins. destruct k as [|c k]; [apply A|]. destruct (keq (c :: k) []); [easy|]. pose proof (A (c :: k)) as Ak. destruct (get M (c :: k)) eqn:G, (m (c :: k)) eqn:G'; try (destruct Ak as [A1 A2]; (now specialize (A1 eq_refl) || now specialize (A2 eq_refl))).
    + apply A.
    + cbn [get]. unfold upd_f. destruct (eqw_spec (c :: k) q) as [e|e], (keq q (c :: k)); (congruence || easy || apply A).
  - destruct (tb_erase_ok h fl M k R Ok) as (h1 & fl1 & E & R1 & L). exists h1, fl1, (if has M k then reset k M else M). split; [easy|]. split; [easy|]. split; [|split; [easy|intros; lia]].
    intros q. cbn. unfold upd_f. destruct (has M k) eqn:G.
    + rewrite get_reset, get_del, eqw_keq. destruct (keq q k); [easy|]. rewrite <- (A q). destruct (get M q); easy.
    + destruct (keq q k) as [-> |]; [|apply A]. unfold has in G. destruct (get M k); easy.
  - destruct Ok as (Fk & Nk & Hv). destruct (tb_set_ok h fl M k v R Fk Nk Hv) as (h1 & fl1 & E & R1 & L). exists h1, fl1, (upd k v M). split; [easy|]. split; [easy|]. split; [|split; [intros B _; now apply agrees_upd|intros; lia]].
    intros q. rewrite get_upd, eqw_keq. cbn. unfold upd_f. destruct (keq k q), (keq q k); (congruence || easy || apply A).
  - exists th_clear, [], []. split; [easy|]. split; [apply tb_rep_clear|]. split; [easy|]. split; [easy|]. intros _. pose proof (fl_lim _ _ (hi_fl _ _ (pt_hi _ _ _ R))). change (limit th_clear) with 2. lia.
  - destruct Ok as [F N]. destruct (tb_asg_ok ks F N) as (h1 & fl1 & M1 & E & R1 & A1). exists h1, fl1, M1. split; [easy|]. split; [easy|]. split; [intros q; now rewrite (A1 q)|]. split; [intros _ _; exact A1|]. intros X. now destruct (X ks).
Qed.

Lemma st_run_ok ops : forall h fl M m, StRep h fl M -> agrees M m -> Forall op_ok ops ->
  exists h' fl' M', run st_op h ops = Some h' /\ StRep h' fl' M' /\ agrees M' (fold_left apply_op ops m) /\ (Forall (fun o => forall ks, o <> Asg ks) ops -> limit h' <= limit h - 2 + total ops).
Proof.
  induction ops as [|o r IH]; intros h fl M m R A F; [exists h, fl, M; split; [easy|]; split; [easy|]; split; [easy|]; intros _; cbn; lia|]. inversion F as [|? ? Fo Fr]; subst.
  destruct (st_op_ok h fl M m o R A Fo) as (h1 & fl1 & M1 & E1 & R1 & A1 & L1). destruct (IH h1 fl1 M1 _ R1 A1 Fr) as (h2 & fl2 & M2 & E2 & R2 & A2 & L2). exists h2, fl2, M2. cbn [run]. rewrite E1. split; [easy|]. split; [easy|]. split; [easy|].
  intros N. inversion N as [|? ? No Nr]; subst. specialize (L1 No). specialize (L2 Nr). cbn [total fold_right]. fold (total r). lia.
Qed.
Lemma tb_run_ok ops : forall h fl M m, PRep h fl M -> dom_agrees M m -> Forall op_ok ops ->
  exists h' fl' M', run tb_op h ops = Some h' /\ PRep h' fl' M' /\ dom_agrees M' (fold_left apply_op ops m) /\ (agrees M m -> Forall no_del ops -> agrees M' (fold_left apply_op ops m)) /\
    (Forall (fun o => forall ks, o <> Asg ks) ops -> limit h' <= limit h - 2 + total ops).
Proof.
  induction ops as [|o r IH]; intros h fl M m R A F; [exists h, fl, M; split; [easy|]; split; [easy|]; split; [easy|]; split; [easy|]; intros _; cbn; lia|]. inversion F as [|? ? Fo Fr]; subst.
  destruct (tb_op_ok h fl M m o R A Fo) as (h1 & fl1 & M1 & E1 & R1 & A1 & B1 & L1). destruct (IH h1 fl1 M1 _ R1 A1 Fr) as (h2 & fl2 & M2 & E2 & R2 & A2 & B2 & L2). exists h2, fl2, M2. cbn [run]. rewrite E1. split; [easy|]. split; [easy|]. split; [easy|].
  split.
  - intros B N. inversion N as [|? ? No Nr]; subst. auto.
  - intros N. inversion N as [|? ? No Nr]; subst. specialize (L1 No). specialize (L2 Nr). cbn [total fold_right]. fold (total r). lia.
Qed.

(** ** Well-formed double array, in terms of the nodes *)
Definition base (h : heap) (i : Z) : Z := fst (nth (Z.to_nat i) h (0, 0)).
Definition check (h : heap) (i : Z) : Z := snd (nth (Z.to_nat i) h (0, 0)).
Fixpoint threaded (h : heap) (i : Z) (free : list Z) : Prop :=
  match free with
  | [] => check h i = 0
  | j :: r => check h i = - j /\ threaded h j r
  end.
(** slot [i] is the child of [p] under label [l]; label 256 is the terminator *)
Definition child (h : heap) (p l i : Z) : Prop := 0 <= l <= 256 /\ 1 <= base h p /\ i = base h p + l /\ check h i = p.
Inductive reachable (h : heap) : Z -> Prop :=
| reach_root : reachable h 1
| reach_child p l i : reachable h p -> child h p l i -> reachable h i.
Record well_formed (h : heap) (free : list Z) : Prop := {
  wf_limit : 2 <= Z.of_nat (length h);
  wf_order : StronglySorted Z.lt free;
  wf_inside : forall i, In i free -> 2 <= i < Z.of_nat (length h);
  wf_thread : threaded h 0 free;
  wf_unused : forall i, In i free -> base h i = 0;
  wf_owned : forall i, 2 <= i < Z.of_nat (length h) -> ~ In i free ->
    exists p l, child h p l i /\ 1 <= p < Z.of_nat (length h) /\ ~ In p free /\ forall p' l', child h p' l' i -> p' = p /\ l' = l;
  wf_reach : forall i, 1 <= i < Z.of_nat (length h) -> ~ In i free -> reachable h i
}.
Lemma Bs_base h i : 0 <= i -> Bs h i = base h i.
Proof. intros H. unfold Bs, base, node_at. rewrite (proj2 (Z.ltb_ge i 0)) by lia. destruct (nth_error h (Z.to_nat i)) as [n|] eqn:E; [now rewrite (nth_error_nth _ _ _ E)|]. apply nth_error_None in E. now rewrite nth_overflow. Qed.
Lemma Ks_check h i : 0 <= i -> Ks h i = check h i.
Proof. intros H. unfold Ks, check, node_at. rewrite (proj2 (Z.ltb_ge i 0)) by lia. destruct (nth_error h (Z.to_nat i)) as [n|] eqn:E; [now rewrite (nth_error_nth _ _ _ E)|]. apply nth_error_None in E. now rewrite nth_overflow. Qed.
Lemma step_child h p l q : 0 <= p -> step h p l = Some q <-> child h p l q.
Proof. intros H. rewrite step_some. unfold child. rewrite (Bs_base h p) by lia. split; intros (A & B & C & D); (split; [easy|]; split; [easy|]; split; [easy|]); [rewrite <- Ks_check by lia|rewrite Ks_check by lia]; easy. Qed.
Lemma seg_thread h l : forall i, 0 <= i -> Forall (fun i => 0 <= i) l -> seg (Ks h) i l 0 -> threaded h i l.
Proof.
  induction l as [|x l IH]; intros i Hi P S; cbn in *; rewrite Ks_check in S by easy; [lia|]. destruct S as [E S]. inversion P; subst. split; [easy|]. now apply IH.
Qed.
Lemma HI_wf h fl : HI h fl -> well_formed h fl.
Proof.
  intros H. pose proof (hi_fl _ _ H) as F. constructor.
  - apply F.
  - apply F.
  - apply F.
  - apply seg_thread; [lia| |apply F]. apply Forall_forall. intros i I. apply (fl_range _ _ F) in I. lia.
  - intros i I. rewrite <- Bs_base by (apply (fl_range _ _ F) in I; lia). now apply (hi_free _ _ H).
  - intros i I N. destruct (hi_own _ _ H i I N) as (Ap & B1 & B2). pose proof (alloc_ge _ _ _ Ap) as P1. pose proof (alloc_inb _ _ _ F Ap) as P2. unfold inb in P2. rewrite limit_length in P2.
    rewrite Ks_check in * by lia. rewrite Bs_base in * by lia. exists (check h i), (i - base h (check h i)). split; [unfold child; repeat (split; [lia|]); easy|]. split; [lia|]. split; [now apply (alloc_not_free h)|].
    intros p' l' (C1 & C2 & C3 & C4). subst p'. split; [easy|lia].
  - intros i I N. destruct (hi_reach _ _ H i) as [u U]; [unfold alloc; rewrite limit_length; destruct (Z.eq_dec i 1); [now left|right; split; [lia|easy]]|]. revert i I N U. induction u as [|l u IH] using rev_ind; intros i I N U; [injection U as <-; constructor|].
    rewrite walk_snoc in U. destruct (walk h u) as [p|] eqn:W; [|easy]. pose proof (walk_alloc _ _ H _ _ W) as Ap. pose proof (alloc_ge _ _ _ Ap). pose proof (alloc_inb _ _ _ F Ap) as P2. unfold inb in P2. rewrite limit_length in P2.
    apply reach_child with p l; [apply IH; [lia|now apply (alloc_not_free h)|easy]|]. apply step_child; [lia|easy].
Qed.
