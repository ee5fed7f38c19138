(** Lemmas on the storage of the double-array trie: reading and writing nodes, the free list. *)
From Coq Require Import ZArith List Bool Lia Sorting.Sorted.
From Verif Require Import M_trie.
Import ListNotations.
Open Scope Z_scope.
Local Arguments Z.opp : simpl never.
Local Arguments Z.add : simpl never.
Local Arguments Z.sub : simpl never.

(** Total accessors *)
Definition Bs (h : heap) (i : Z) : Z := match node_at h i with Some n => fst n | None => 0 end.
Definition Ks (h : heap) (i : Z) : Z := match node_at h i with Some n => snd n | None => 0 end.
Definition inb (h : heap) (i : Z) : Prop := 0 <= i < limit h.

Lemma node_at_inb h i : inb h i -> exists n, node_at h i = Some n.
Proof.
  unfold inb, limit, node_at; intros [H1 H2]. destruct (Z.ltb_spec i 0); [lia|].
  destruct (nth_error h (Z.to_nat i)) eqn:E; eauto. apply nth_error_None in E. lia.
Qed.
Lemma node_at_out h i : ~ inb h i -> node_at h i = None.
Proof.
  unfold inb, limit, node_at; intros H. destruct (Z.ltb_spec i 0); [easy|].
  apply nth_error_None. lia.
Qed.
Lemma Bs_out h i : ~ inb h i -> Bs h i = 0. Proof. intros; unfold Bs; now rewrite node_at_out. Qed.
Lemma Ks_out h i : ~ inb h i -> Ks h i = 0. Proof. intros; unfold Ks; now rewrite node_at_out. Qed.
Lemma g_base_ok h i : inb h i -> g_base h i = Some (Bs h i).
Proof. intros H; destruct (node_at_inb h i H) as [n E]; unfold g_base, Bs; now rewrite E. Qed.
Lemma g_check_ok h i : inb h i -> g_check h i = Some (Ks h i).
Proof. intros H; destruct (node_at_inb h i H) as [n E]; unfold g_check, Ks; now rewrite E. Qed.

Lemma set_nth_ok h : forall i f, (i < length h)%nat -> exists h', set_nth h i f = Some h' /\ length h' = length h /\
  forall j, nth_error h' j = if (j =? i)%nat then option_map f (nth_error h i) else nth_error h j.
Proof.
  induction h as [|n r IH]; intros i f H; [cbn in H; lia|]. destruct i as [|i].
  - exists (f n :: r). repeat split. intros [|j]; reflexivity.
  - cbn in H. destruct (IH i f ltac:(lia)) as (r' & E & L & N). exists (n :: r'). cbn. rewrite E. repeat split.
    + cbn; lia.
    + intros [|j]; [reflexivity|]. cbn. apply N.
Qed.

(** The heap after an assignment *)
Definition setB h i x := match s_base h i x with Some h' => h' | None => h end.
Definition setK h i x := match s_check h i x with Some h' => h' | None => h end.

Lemma set_ok (f : Z * Z -> Z * Z) h i : inb h i -> exists h', (if i <? 0 then None else set_nth h (Z.to_nat i) f) = Some h' /\
  limit h' = limit h /\ forall j, node_at h' j = if j =? i then option_map f (node_at h i) else node_at h j.
Proof.
  intros [H1 H2]. unfold limit in *. destruct (set_nth_ok h (Z.to_nat i) f ltac:(lia)) as (h' & E & L & N).
  exists h'. destruct (Z.ltb_spec i 0); [lia|]. rewrite E, L. repeat split. intros j. unfold node_at.
  destruct (Z.ltb_spec j 0).
  - destruct (Z.eqb_spec j i); [lia|easy].
  - rewrite N. destruct (Z.eqb_spec j i) as [->|Hne].
    + rewrite Nat.eqb_refl. destruct (Z.ltb_spec i 0); [lia|easy].
    + destruct (Nat.eqb_spec (Z.to_nat j) (Z.to_nat i)); [lia|easy].
Qed.
Lemma s_base_ok h i x : inb h i -> s_base h i x = Some (setB h i x).
Proof. intros H; destruct (set_ok (fun n => (x, snd n)) h i H) as (h' & E & _). unfold setB, s_base in *. now rewrite E. Qed.
Lemma s_check_ok h i x : inb h i -> s_check h i x = Some (setK h i x).
Proof. intros H; destruct (set_ok (fun n => (fst n, x)) h i H) as (h' & E & _). unfold setK, s_check in *. now rewrite E. Qed.
Lemma limit_setB h i x : limit (setB h i x) = limit h.
Proof.
  destruct (Z_lt_dec i 0); [unfold setB, s_base; now destruct (Z.ltb_spec i 0); [|lia]|].
  destruct (Z_lt_dec i (limit h)) as [l|l].
  - assert (H : inb h i) by (split; lia). destruct (set_ok (fun n => (x, snd n)) h i H) as (h' & E & L & _).
    unfold setB, s_base in *. now rewrite E.
  - unfold setB, s_base. destruct (i <? 0); [easy|].
    destruct (set_nth h (Z.to_nat i) (fun n => (x, snd n))) eqn:E; [|easy]. exfalso.
    unfold limit in l. assert (Hn : (length h <= Z.to_nat i)%nat) by lia. clear -E Hn.
    revert h0 E. remember (Z.to_nat i) as m eqn:Em; clear Em. revert h Hn.
    induction m as [|m IH]; intros [|a h] Hn h0 E; cbn in *; try easy; try lia.
    destruct (set_nth h m _) eqn:E1; [|easy]. eapply IH; [|eassumption]. lia.
Qed.
Lemma limit_setK h i x : limit (setK h i x) = limit h.
Proof.
  destruct (Z_lt_dec i 0); [unfold setK, s_check; now destruct (Z.ltb_spec i 0); [|lia]|].
  destruct (Z_lt_dec i (limit h)) as [l|l].
  - assert (H : inb h i) by (split; lia). destruct (set_ok (fun n => (fst n, x)) h i H) as (h' & E & L & _).
    unfold setK, s_check in *. now rewrite E.
  - unfold setK, s_check. destruct (i <? 0); [easy|].
    destruct (set_nth h (Z.to_nat i) (fun n => (fst n, x))) eqn:E; [|easy]. exfalso.
    unfold limit in l. assert (Hn : (length h <= Z.to_nat i)%nat) by lia. clear -E Hn.
    revert h0 E. remember (Z.to_nat i) as m eqn:Em; clear Em. revert h Hn.
    induction m as [|m IH]; intros [|a h] Hn h0 E; cbn in *; try easy; try lia.
    destruct (set_nth h m _) eqn:E1; [|easy]. eapply IH; [|eassumption]. lia.
Qed.
Lemma inb_setB h i x j : inb (setB h i x) j <-> inb h j. Proof. unfold inb; now rewrite limit_setB. Qed.
Lemma inb_setK h i x j : inb (setK h i x) j <-> inb h j. Proof. unfold inb; now rewrite limit_setK. Qed.

Lemma Bs_setB h i x j : inb h i -> Bs (setB h i x) j = if j =? i then x else Bs h j.
Proof.
  intros H. destruct (set_ok (fun n => (x, snd n)) h i H) as (h' & E & L & N). unfold setB, s_base, Bs in *. rewrite E, N.
  destruct (Z.eqb_spec j i); [|easy]. destruct (node_at_inb h i H) as [n ->]. easy.
Qed.
Lemma Ks_setB h i x j : Ks (setB h i x) j = Ks h j.
Proof.
  destruct (Z_lt_dec i 0); [unfold setB, s_base; now destruct (Z.ltb_spec i 0); [|lia]|].
  destruct (Z_lt_dec i (limit h)) as [l|l].
  - assert (H : inb h i) by (split; lia). destruct (set_ok (fun n => (x, snd n)) h i H) as (h' & E & L & N).
    unfold setB, s_base, Ks in *. rewrite E, N. destruct (Z.eqb_spec j i) as [->|]; [|easy].
    destruct (node_at_inb h i H) as [m ->]. easy.
  - destruct (Z_lt_dec j 0); [rewrite !Ks_out; try easy; rewrite ?inb_setB; unfold inb; lia|].
    unfold setB, s_base. destruct (i <? 0); [easy|].
    destruct (set_nth h (Z.to_nat i) (fun n => (x, snd n))) eqn:E; [|easy]. exfalso.
    unfold limit in l. assert (Hn : (length h <= Z.to_nat i)%nat) by lia. clear -E Hn.
    revert h0 E. remember (Z.to_nat i) as m eqn:Em; clear Em. revert h Hn.
    induction m as [|m IH]; intros [|a h] Hn h0 E; cbn in *; try easy; try lia.
    destruct (set_nth h m _) eqn:E1; [|easy]. eapply IH; [|eassumption]. lia.
Qed.
Lemma Ks_setK h i x j : inb h i -> Ks (setK h i x) j = if j =? i then x else Ks h j.
Proof.
  intros H. destruct (set_ok (fun n => (fst n, x)) h i H) as (h' & E & L & N). unfold setK, s_check, Ks in *. rewrite E, N.
  destruct (Z.eqb_spec j i); [|easy]. destruct (node_at_inb h i H) as [n ->]. easy.
Qed.
Lemma Bs_setK h i x j : inb h i -> Bs (setK h i x) j = Bs h j.
Proof.
  intros H. destruct (set_ok (fun n => (fst n, x)) h i H) as (h' & E & L & N). unfold setK, s_check, Bs in *. rewrite E, N.
  destruct (Z.eqb_spec j i) as [->|]; [|easy]. destruct (node_at_inb h i H) as [n ->]. easy.
Qed.

(** Appended nodes *)
Lemma limit_app h g : limit (h ++ g) = limit h + Z.of_nat (length g).
Proof. unfold limit. rewrite app_length. lia. Qed.
Lemma node_at_app h g i : inb h i -> node_at (h ++ g) i = node_at h i.
Proof. unfold inb, limit, node_at; intros. destruct (i <? 0); [easy|]. apply nth_error_app1. lia. Qed.
Lemma Bs_app h g i : inb h i -> Bs (h ++ g) i = Bs h i. Proof. intros; unfold Bs; now rewrite node_at_app. Qed.
Lemma Ks_app h g i : inb h i -> Ks (h ++ g) i = Ks h i. Proof. intros; unfold Ks; now rewrite node_at_app. Qed.
Lemma node_at_new h n i : ~ inb h i -> node_at (h ++ repeat (0, 0) n) i = Some (0, 0) \/ node_at (h ++ repeat (0, 0) n) i = None.
Proof.
  unfold inb, limit, node_at; intros H. destruct (Z.ltb_spec i 0); [now right|].
  rewrite nth_error_app2 by lia. destruct (nth_error _ _) eqn:E; [|now right].
  apply nth_error_In, repeat_spec in E. subst. now left.
Qed.
Lemma Bs_new h n i : ~ inb h i -> Bs (h ++ repeat (0, 0) n) i = 0.
Proof. intros H; unfold Bs; destruct (node_at_new h n i H) as [-> | ->]; easy. Qed.
Lemma Ks_new h n i : ~ inb h i -> Ks (h ++ repeat (0, 0) n) i = 0.
Proof. intros H; unfold Ks; destruct (node_at_new h n i H) as [-> | ->]; easy. Qed.

(** ** The free list threaded through the negated checks *)

(** Segments: [seg K from l to] says the links from [from] pass through [l] and then point to [to] (0 is the end) *)
Fixpoint seg (K : Z -> Z) (from : Z) (l : list Z) (to : Z) : Prop :=
  match l with
  | [] => K from = - to
  | x :: r => K from = - x /\ seg K x r to
  end.
Lemma seg_app K l1 : forall from l2 to, seg K from (l1 ++ l2) to <-> seg K from l1 (hd to l2) /\
  match l2 with [] => True | x :: r => seg K x r to end.
Proof.
  induction l1 as [|y r IH]; intros from l2 to; cbn.
  - destruct l2; cbn; tauto.
  - rewrite IH. tauto.
Qed.
Lemma seg_ext K K' l : forall from to, (forall i, i = from \/ In i l -> K' i = K i) -> seg K from l to -> seg K' from l to.
Proof.
  induction l as [|x r IH]; cbn; intros from to E H; [rewrite E; auto|]. destruct H as [H1 H2]. split; [rewrite E; auto|].
  apply IH; [|easy]. intros i Hi. apply E. intuition auto.
Qed.
Lemma seg_last K l : forall from to, seg K from l to -> K (last l from) = - to.
Proof.
  induction l as [|x r IH]; cbn; intros from to H; [easy|]. destruct H as [H1 H2]. apply IH in H2.
  destruct r; [easy|]. replace (last (z :: r) from) with (last (z :: r) x); [easy|]. clear.
  revert z; induction r as [|y r IH]; intros z; [easy|]. cbn in *. apply IH.
Qed.
Lemma last_cons {A} (l : list A) a d : last (a :: l) d = last l a.
Proof. revert a; induction l as [|b l IH]; intros a; [easy|]. cbn [last] in *. destruct l; [easy|]. apply IH. Qed.
Lemma last_in {A} (l : list A) d : l <> [] -> In (last l d) l.
Proof. intros H. rewrite (app_removelast_last d H) at 2. apply in_or_app. right. now left. Qed.
(** Changing the last link of a segment *)
Lemma seg_relink K K' l : forall from to to', NoDup (from :: l) -> seg K from l to ->
  (forall i, i = from \/ In i l -> i <> last l from -> K' i = K i) -> K' (last l from) = - to' -> seg K' from l to'.
Proof.
  induction l as [|x r IH]; intros from to to' N H E L; [exact L|].
  cbn [seg] in *. destruct H as [H1 H2]. rewrite last_cons in *. inversion N; subst. split.
  - rewrite E; auto. intros Hf. destruct r as [|y r]; cbn in Hf.
    + subst. apply H3. now left.
    + apply H3. right. rewrite Hf. change (In (last (y :: r) x) (y :: r)). apply last_in. easy.
  - eapply IH; eauto. intros i Hi Hne. apply E; [|easy]. cbn; intuition auto.
Qed.

Lemma sorted_app_lt (l1 l2 : list Z) : StronglySorted Z.lt (l1 ++ l2) -> forall a b, In a l1 -> In b l2 -> a < b.
Proof.
  induction l1 as [|x r IH]; intros H a b Ha Hb; [easy|]. cbn in H. inversion H; subst. destruct Ha as [->|Ha].
  - rewrite Forall_forall in H3. apply H3, in_or_app. auto.
  - eauto.
Qed.
Lemma sorted_app (l1 l2 : list Z) : StronglySorted Z.lt (l1 ++ l2) <-> StronglySorted Z.lt l1 /\ StronglySorted Z.lt l2 /\
  forall a b, In a l1 -> In b l2 -> a < b.
Proof.
  split.
  - intros H. split; [|split; [|now apply sorted_app_lt]].
    + induction l1 as [|x r IH]; [constructor|]. cbn in H; inversion H; subst. constructor; [auto|].
      rewrite Forall_forall in *. intros y Hy. apply H3, in_or_app. auto.
    + induction l1 as [|x r IH]; [easy|]. cbn in H; inversion H; auto.
  - intros (H1 & H2 & H3). induction l1 as [|x r IH]; [easy|]. cbn. inversion H1; subst. constructor.
    + apply IH; [easy|]. intros; apply H3; cbn; auto.
    + rewrite Forall_forall in *. intros y Hy. apply in_app_or in Hy as [Hy|Hy]; [auto|]. apply H3; cbn; auto.
Qed.
Lemma sorted_cons x (l : list Z) : StronglySorted Z.lt (x :: l) <-> StronglySorted Z.lt l /\ forall y, In y l -> x < y.
Proof.
  split; [intros H; inversion H; subst; now rewrite Forall_forall in *|].
  intros [H1 H2]; constructor; [easy|now rewrite Forall_forall].
Qed.
Lemma sorted_nodup (l : list Z) : StronglySorted Z.lt l -> NoDup l.
Proof.
  induction l as [|x r IH]; [constructor|]. rewrite sorted_cons. intros [H1 H2]. constructor; [|auto].
  intros H. specialize (H2 _ H). lia.
Qed.
Lemma nodup_app_inv {A} (l1 l2 : list A) : NoDup (l1 ++ l2) -> NoDup l1 /\ NoDup l2 /\ forall a, In a l1 -> ~ In a l2.
Proof.
  induction l1 as [|x r IH]; cbn; intros H; [repeat split; try constructor; easy|]. inversion H; subst.
  destruct (IH H3) as (A1 & A2 & A3). repeat split; auto.
  - constructor; [|easy]. intros Hx. apply H2, in_or_app. auto.
  - intros a [<-|Ha] Hb; [apply H2, in_or_app; auto|firstorder].
Qed.

(** The free list [fl] of heap [h] *)
Record FL (h : heap) (fl : list Z) : Prop := {
  fl_lim : 2 <= limit h;
  fl_sorted : StronglySorted Z.lt fl;
  fl_range : forall i, In i fl -> 2 <= i < limit h;
  fl_seg : seg (Ks h) 0 fl 0
}.
Lemma fl_nodup0 h fl : FL h fl -> NoDup (0 :: fl).
Proof. intros [A B C D]. constructor; [|now apply sorted_nodup]. intros H. apply C in H. lia. Qed.
Lemma fl_length h fl : FL h fl -> (length fl <= length h)%nat.
Proof.
  intros H. pose proof (fl_nodup0 _ _ H) as N. inversion N; subst.
  assert (L : incl fl (map Z.of_nat (seq 0 (length h)))).
  { intros x Hx. apply (fl_range _ _ H) in Hx. unfold limit in Hx. apply in_map_iff. exists (Z.to_nat x). split; [lia|].
    apply in_seq. lia. }
  apply NoDup_incl_length in L; [|easy]. now rewrite map_length, seq_length in L.
Qed.

(** last_free finds the end of a segment *)
Lemma last_free_ok h l : forall fuel b, seg (Ks h) b l 0 -> (forall i, i = b \/ In i l -> inb h i) -> ~ In 0 l -> (length l < fuel)%nat ->
  last_free fuel h b = Some (last l b).
Proof.
  induction l as [|x r IH]; intros [|f] b S R Z0 F; cbn in F; try lia; cbn [last_free seg] in *.
  - rewrite g_check_ok by auto. rewrite S. cbn. easy.
  - destruct S as [S1 S2]. rewrite g_check_ok by auto. rewrite S1, Z.opp_involutive, last_cons.
    destruct (Z.eqb_spec x 0); [subst; exfalso; apply Z0; now left|].
    assert (inb h x) by (apply R; right; now left). unfold inb in *. destruct (Z.ltb_spec x (limit h)); [|lia].
    apply IH; try easy; [|cbn in *; tauto|lia]. intros i Hi. apply R. right. cbn. intuition.
Qed.

Definition zseq (s : Z) (n : nat) : list Z := map (fun k => s + Z.of_nat k) (seq 0 n).
Lemma zseq_S s n : zseq s (S n) = s :: zseq (s + 1) n.
Proof.
  unfold zseq. cbn [seq map]. rewrite Z.add_0_r. f_equal. rewrite <- seq_shift, map_map. apply map_ext. intros; lia.
Qed.
Lemma zseq_in s n x : In x (zseq s n) <-> s <= x < s + Z.of_nat n.
Proof.
  unfold zseq. rewrite in_map_iff. split.
  - intros (k & <- & H). apply in_seq in H. lia.
  - intros H. exists (Z.to_nat (x - s)). split; [lia|]. apply in_seq. lia.
Qed.
Lemma zseq_sorted n : forall s, StronglySorted Z.lt (zseq s n).
Proof.
  induction n as [|n IH]; intros s; [constructor|]. rewrite zseq_S. apply sorted_cons. split; [auto|].
  intros y H. apply zseq_in in H. lia.
Qed.

Lemma link_new_ok n : forall h b id, inb h b -> b < id -> id + Z.of_nat n <= limit h ->
  (forall j, id <= j -> Ks h j = 0) -> Ks h b = 0 ->
  exists h', link_new n h b id = Some h' /\ limit h' = limit h /\ (forall j, Bs h' j = Bs h j) /\
    seg (Ks h') b (zseq id n) 0 /\ forall j, j < id -> j <> b -> Ks h' j = Ks h j.
Proof.
  induction n as [|n IH]; intros h b id Hb Hlt Hl Hz Hk; cbn [link_new].
  - exists h. cbn. repeat split; auto; lia.
  - rewrite s_check_ok by easy.
    destruct (IH (setK h b (- id)) id (id + 1)) as (h' & E & L & Bq & S & R).
    + apply inb_setK. unfold inb in *; lia.
    + lia.
    + rewrite limit_setK. lia.
    + intros j Hj. rewrite Ks_setK by easy. destruct (Z.eqb_spec j b); [lia|]. apply Hz. lia.
    + rewrite Ks_setK by easy. destruct (Z.eqb_spec id b); [lia|]. apply Hz. lia.
    + exists h'. rewrite limit_setK in L. split; [easy|]. split; [easy|]. split; [|split].
      * intros j. now rewrite Bq, Bs_setK.
      * rewrite zseq_S. cbn. split; [|easy]. rewrite R by lia. rewrite Ks_setK, Z.eqb_refl by easy. lia.
      * intros j Hj Hne. rewrite R by lia. rewrite Ks_setK by easy. destruct (Z.eqb_spec j b); [easy|easy].
Qed.

Lemma reserve_ok h fl n : FL h fl ->
  exists h', reserve h n 0 = Some h' /\ limit h' = limit h + Z.of_nat n /\ (forall j, Bs h' j = Bs h j) /\
    FL h' (fl ++ zseq (limit h) n) /\ forall j, j <> 0 -> ~ In j fl -> ~ In j (zseq (limit h) n) -> Ks h' j = Ks h j.
Proof.
  intros F. unfold reserve. destruct F as [F1 F2 F3 F4]. pose proof (fl_length h fl ltac:(now constructor)) as FLn.
  assert (E : ((0 <=? 0) && (0 <? limit h)) = true) by (cbn; apply Z.ltb_lt; lia). rewrite E; clear E.
  set (h1 := h ++ repeat (0, 0) n). assert (L1 : limit h1 = limit h + Z.of_nat n) by (unfold h1; now rewrite limit_app, repeat_length).
  assert (Kq : forall j, inb h j -> Ks h1 j = Ks h j) by (intros; unfold h1; now apply Ks_app).
  assert (Kn : forall j, ~ inb h j -> Ks h1 j = 0) by (intros; unfold h1; now apply Ks_new).
  assert (Bq : forall j, Bs h1 j = Bs h j).
  { intros j. unfold h1. destruct (Z_lt_dec j 0); [rewrite Bs_new, Bs_out; unfold inb; auto; lia|].
    destruct (Z_lt_dec j (limit h)); [apply Bs_app; unfold inb; lia|rewrite Bs_new, Bs_out; unfold inb; auto; lia]. }
  assert (Sg : seg (Ks h1) 0 fl 0).
  { eapply seg_ext; [|exact F4]. intros i [-> |Hi]; apply Kq; unfold inb; [lia|apply F3 in Hi; lia]. }
  assert (Rg : forall i, i = 0 \/ In i fl -> 0 <= i < limit h) by (intros i [-> |Hi]; [lia|apply F3 in Hi; lia]).
  rewrite (last_free_ok h1 fl).
  2: easy. 2:{ intros i Hi. apply Rg in Hi. unfold inb. lia. }
  2:{ intros Hi. apply F3 in Hi. lia. } 2:{ unfold h1. rewrite app_length. lia. }
  set (b := last fl 0). assert (Hb : b = 0 \/ In b fl).
  { unfold b. destruct fl; [now left|right]. apply last_in. easy. }
  destruct (link_new_ok n h1 b (limit h)) as (h' & E & L & Bq' & S & R).
  - specialize (Rg b Hb). unfold inb; lia.
  - specialize (Rg b Hb); lia.
  - lia.
  - intros j Hj. apply Kn. unfold inb; lia.
  - apply seg_last in Sg. fold b in Sg. lia.
  - exists h'. split; [easy|]. split; [lia|]. split; [intros; now rewrite Bq', Bq|]. split.
    + constructor.
      * lia.
      * apply sorted_app. split; [easy|]. split; [apply zseq_sorted|]. intros x y Hx Hy. apply F3 in Hx. apply zseq_in in Hy. lia.
      * intros i Hi. apply in_app_or in Hi as [Hi|Hi]; [apply F3 in Hi; lia|apply zseq_in in Hi; lia].
      * apply seg_app. destruct n as [|n].
        -- change (zseq (limit h) 0) with (@nil Z) in *. cbn [hd]. split; [|easy].
           eapply seg_relink; [apply fl_nodup0 with (h := h); constructor; easy|exact Sg| |].
           ++ intros i Hi Hne. apply R; [specialize (Rg _ Hi); lia|easy].
           ++ fold b. apply S.
        -- rewrite zseq_S in *. cbn [hd seg] in *. destruct S as [S1 S2]. split; [|easy].
           eapply seg_relink; [apply fl_nodup0 with (h := h); constructor; easy|exact Sg| |].
           ++ intros i Hi Hne. apply R; [specialize (Rg _ Hi); lia|easy].
           ++ exact S1.
    + intros j J0 J1 J2. assert (j <> b) by (destruct Hb as [-> |Hb]; [easy|intros ->; easy]).
      rewrite zseq_in in J2. destruct (Z_lt_dec j (limit h)) as [l|l].
      * rewrite R by lia. destruct (Z_lt_dec j 0); [rewrite Kn, Ks_out; unfold inb; auto; lia|]. apply Kq. unfold inb; lia.
      * rewrite !Ks_out; unfold inb; auto; lia.
Qed.

(** seek finds the predecessor on the free list *)
Lemma seek_ok h l1 : forall fuel i bf idx l2, seg (Ks h) i (l1 ++ idx :: l2) 0 -> i <> idx -> ~ In idx l1 ->
  (forall j, j = i \/ In j l1 -> inb h j) -> (length l1 + 1 < fuel)%nat -> seek fuel h i bf idx = Some (last l1 i).
Proof.
  induction l1 as [|x r IH]; intros fuel i bf idx l2 S N1 N2 R F; (destruct fuel as [|[|f]]; [cbn in F; lia|cbn in F; lia|]).
  - cbn [seek app seg] in *. destruct S as [S1 S2]. destruct (Z.eqb_spec i idx); [easy|].
    assert (Hi : inb h i) by auto. destruct (Z.ltb_spec i (limit h)); [|unfold inb in *; lia].
    rewrite g_check_ok by easy. rewrite S1, Z.opp_involutive, Z.eqb_refl. easy.
  - cbn [seek app seg] in *. destruct S as [S1 S2]. destruct (Z.eqb_spec i idx); [easy|].
    assert (Hi : inb h i) by auto. destruct (Z.ltb_spec i (limit h)); [|unfold inb in *; lia].
    rewrite g_check_ok by easy. rewrite S1, Z.opp_involutive. rewrite last_cons.
    assert (Hx : x <> idx) by (intros ->; apply N2; now left).
    change (seek (S f) h x i idx = Some (last r x)).
    eapply IH; eauto; [cbn in N2; tauto| |cbn in F; lia]. intros j Hj. apply R. cbn. intuition auto.
Qed.

Definition remove1 (x : Z) (l : list Z) : list Z := filter (fun y => negb (y =? x)) l.
Lemma remove1_in x l y : In y (remove1 x l) <-> In y l /\ y <> x.
Proof. unfold remove1. rewrite filter_In. destruct (Z.eqb_spec y x); cbn; intuition congruence. Qed.
Lemma remove1_id x l : ~ In x l -> remove1 x l = l.
Proof.
  induction l as [|y r IH]; cbn; [easy|]. intros H. destruct (Z.eqb_spec y x); cbn; [subst; tauto|]. f_equal. apply IH. tauto.
Qed.
Lemma remove1_split x l1 l2 : NoDup (l1 ++ x :: l2) -> remove1 x (l1 ++ x :: l2) = l1 ++ l2.
Proof.
  intros H. apply NoDup_remove_2 in H. unfold remove1. rewrite filter_app. cbn. rewrite Z.eqb_refl. cbn.
  change (remove1 x l1 ++ remove1 x l2 = l1 ++ l2). rewrite !remove1_id; [easy| |]; intros Hx; apply H, in_or_app; auto.
Qed.
Lemma sorted_filter f (l : list Z) : StronglySorted Z.lt l -> StronglySorted Z.lt (filter f l).
Proof.
  induction l as [|x r IH]; cbn; [constructor|]. rewrite sorted_cons. intros [H1 H2]. destruct (f x); [|auto].
  apply sorted_cons. split; [auto|]. intros y Hy. apply filter_In in Hy. apply H2. tauto.
Qed.

(** The allocation loop.  [ok] slots are those taken off the list. *)
Lemma allocate_loop_ok base labels : forall h fl before, FL h fl -> StronglySorted Z.lt labels ->
  (before = 0 \/ In before fl) ->
  (forall l, In l labels -> 0 < base + l < limit h) ->
  (forall l, In l labels -> In (base + l) fl \/ 1 <= Ks h (base + l)) ->
  (forall l, In l labels -> In (base + l) fl -> before < base + l) ->
  exists h' fl', allocate_loop h base labels before = Some h' /\ limit h' = limit h /\ (forall j, Bs h' j = Bs h j) /\
    FL h' fl' /\ (forall i, In i fl' <-> In i fl /\ ~ In (i - base) labels) /\
    (forall l, In l labels -> In (base + l) fl -> Ks h' (base + l) = 0) /\
    (forall j, j <> 0 -> ~ In j fl -> Ks h' j = Ks h j).
Proof.
  induction labels as [|l ls IH]; intros h fl before F So Hb Hr Ho Hlt; cbn [allocate_loop].
  - exists h, fl. do 4 (split; [easy|]). cbn. split; [tauto|]. split; [easy|easy].
  - apply sorted_cons in So as [So1 So2]. assert (Rl : 0 < base + l < limit h) by (apply Hr; now left).
    destruct (Z.ltb_spec (base + l) (limit h)); [|lia]. rewrite g_check_ok by (unfold inb; lia).
    destruct (Z.leb_spec 1 (Ks h (base + l))) as [Hk|Hk].
    + assert (Nf : ~ In (base + l) fl).
      { intros Hin. destruct (in_split _ _ Hin) as (a & b & ->). pose proof (fl_seg _ _ F) as S. apply seg_app in S as [_ S].
        destruct b as [|y b]; cbn in S; [lia|]. destruct S as [S _]. pose proof (fl_range _ _ F y). 
        assert (2 <= y < limit h) by (apply H0, in_or_app; cbn; auto). lia. }
      destruct (IH h fl before) as (h' & fl' & E & L & Bq & F' & I & Z0 & R); auto; [intros; apply Hr; now right|intros; apply Ho; now right|intros; apply Hlt; [now right|easy]|].
      exists h', fl'. repeat (split; [easy|]). split; [|split].
      * intros i. rewrite I. cbn. split; [|tauto]. intros [H1 H2]. split; [easy|]. intros [Hi|Hi]; [|easy].
        apply Nf. now replace (base + l) with i by lia.
      * intros l' [<-|Hl'] Hin; [easy|]. auto.
      * easy.
    + assert (Hin : In (base + l) fl) by (destruct (Ho l (or_introl eq_refl)); [easy|lia]).
      set (idx := base + l) in *. destruct (in_split _ _ Hin) as (l1 & l2 & Efl).
      pose proof (fl_nodup0 _ _ F) as N0. pose proof (fl_sorted _ _ F) as So. pose proof (fl_seg _ _ F) as S.
      assert (N : NoDup fl) by now inversion N0. rewrite Efl in N, So, S.
      assert (Hidx0 : idx <> 0) by (apply (fl_range _ _ F) in Hin; lia).
      assert (NI : ~ In idx l1 /\ ~ In idx l2).
      { apply NoDup_remove_2 in N. split; intros Hi; apply N, in_or_app; auto. }
      set (b := last l1 0).
      assert (Sk : seek (Datatypes.S (Datatypes.S (length h))) h before before idx = Some b).
      { assert (Hlb : before < idx) by (apply Hlt; [now left|easy]).
        pose proof (fl_length _ _ F) as FLn. rewrite Efl, app_length in FLn. cbn in FLn.
        destruct Hb as [-> |Hb].
        - eapply seek_ok with (l2 := l2); eauto; [easy| |lia]. intros j [-> |Hj]; unfold inb; [lia|].
          assert (In j fl) by (rewrite Efl; apply in_or_app; auto). apply (fl_range _ _ F) in H0. lia.
        - assert (Hb1 : In before l1).
          { rewrite Efl in Hb. apply in_app_or in Hb as [Hb|[Hb|Hb]]; [easy|lia|].
            apply sorted_app in So as (_ & So & _). apply sorted_cons in So as [_ So]. apply So in Hb. lia. }
          destruct (in_split _ _ Hb1) as (a & c & El1). unfold b. rewrite El1 in *.
          rewrite <- app_assoc in S. apply seg_app in S as [_ S]. cbn in S.
          replace (last (a ++ before :: c) 0) with (last c before).
          2:{ clear. induction a as [|y a IH]; cbn [app]; [now rewrite last_cons|]. rewrite last_cons.
              destruct a; cbn [app] in *; [now rewrite last_cons|]. rewrite last_cons in *. easy. }
          eapply seek_ok with (l2 := l2); [exact S|lia| | |].
          + intros Hc. apply (proj1 NI). apply in_or_app. right. now right.
          + intros j Hj. assert (In j fl). { rewrite Efl. apply in_or_app. left. apply in_or_app. right. destruct Hj; cbn; auto. }
            apply (fl_range _ _ F) in H0. unfold inb. lia.
          + rewrite app_length in FLn. cbn in FLn. lia. }
      rewrite Sk.
      assert (Hbb : b = 0 \/ In b l1). { unfold b. destruct l1; [now left|right]. apply last_in. easy. }
      assert (Hbr : inb h b).
      { destruct Hbb as [-> |Hbb]; unfold inb; [lia|]. assert (In b fl) by (rewrite Efl; apply in_or_app; auto).
        apply (fl_range _ _ F) in H0. lia. }
      rewrite s_check_ok by easy. rewrite s_check_ok by (apply inb_setK; unfold inb; lia).
      set (h2 := setK (setK h b (Ks h idx)) idx 0).
      assert (L2 : limit h2 = limit h) by (unfold h2; now rewrite !limit_setK).
      assert (K2 : forall j, Ks h2 j = if j =? idx then 0 else if j =? b then Ks h idx else Ks h j).
      { intros j. unfold h2. rewrite Ks_setK by (apply inb_setK; unfold inb; lia). now rewrite Ks_setK by easy. }
      assert (B2 : forall j, Bs h2 j = Bs h j).
      { intros j. unfold h2. rewrite Bs_setK by (apply inb_setK; unfold inb; lia). now rewrite Bs_setK. }
      assert (Hbi : b <> idx) by (destruct Hbb as [-> |Hbb]; [lia|intros Hx; rewrite Hx in Hbb; tauto]).
      assert (F2 : FL h2 (l1 ++ l2)).
      { constructor.
        - rewrite L2; apply F.
        - rewrite <- remove1_split with (x := idx) by easy. apply sorted_filter. easy.
        - intros i Hi. rewrite L2. apply (fl_range _ _ F). rewrite Efl. apply in_app_or in Hi. apply in_or_app. cbn. tauto.
        - apply seg_app in S as [S1 S2]. cbn [hd] in S1. apply seg_app.
          assert (Kidx : Ks h idx = - hd 0 l2) by (destruct l2; cbn in S2 |- *; tauto).
          split.
          + eapply seg_relink; [|exact S1| |].
            * constructor; [|now apply nodup_app_inv in N]. intros H0. assert (In 0 fl) by (rewrite Efl; apply in_or_app; auto).
              apply (fl_range _ _ F) in H1. lia.
            * intros i Hi Hne. rewrite K2. destruct (Z.eqb_spec i idx) as [-> |]; [destruct Hi; [lia|tauto]|].
              destruct (Z.eqb_spec i b); [subst i; easy|easy].
            * fold b. rewrite K2. destruct (Z.eqb_spec b idx); [easy|]. now rewrite Z.eqb_refl.
          + destruct l2 as [|y l2]; [easy|]. cbn in S2. destruct S2 as [_ S2]. eapply seg_ext; [|exact S2].
            intros i Hi. rewrite K2. destruct (Z.eqb_spec i idx) as [-> |]; [exfalso; apply (proj2 NI); cbn; destruct Hi; auto|].
            destruct (Z.eqb_spec i b) as [-> |]; [|easy]. exfalso. assert (In b (y :: l2)) by (cbn; destruct Hi; auto).
            destruct Hbb as [Hb0|Hbb].
            * assert (In b fl) by (rewrite Efl; apply in_or_app; cbn; cbn in H0; tauto). apply (fl_range _ _ F) in H1. lia.
            * apply nodup_app_inv in N as (_ & _ & N). apply (N b); cbn; auto. }
      assert (I2 : forall i, In i (l1 ++ l2) <-> In i fl /\ i <> idx).
      { intros i. rewrite <- remove1_split with (x := idx) by easy. rewrite remove1_in, Efl. easy. }
      destruct (IH h2 (l1 ++ l2) b) as (h' & fl' & E & L & Bq & F' & I & Z0 & R); auto.
      * destruct Hbb; [now left|right; apply in_or_app; auto].
      * intros l' Hl'. rewrite L2. apply Hr. now right.
      * intros l' Hl'. specialize (So2 _ Hl'). destruct (Ho l' (or_intror Hl')) as [H0|H0].
        -- left. apply I2. split; [easy|]. unfold idx; lia.
        -- right. rewrite K2. destruct (Z.eqb_spec (base + l') idx); [unfold idx in *; lia|].
           destruct (Z.eqb_spec (base + l') b) as [Hx|]; [|easy]. exfalso. 
           destruct Hbb as [Hb0|Hbb]; [specialize (Hr l' (or_intror Hl')); lia|].
           assert (b < idx). { apply sorted_app in So as (_ & _ & So). apply So; cbn; auto. } unfold idx in *. lia.
      * intros l' Hl' Hin'. apply I2 in Hin' as [Hin' _]. specialize (So2 _ Hl').
        assert (b < idx). { destruct Hbb as [-> |Hbb]; [lia|]. apply sorted_app in So as (_ & _ & So). apply So; cbn; auto. }
        unfold idx in *; lia.
      * exists h', fl'. split; [exact E|]. split; [lia|]. split; [intros; now rewrite Bq, B2|]. split; [easy|]. split; [|split].
        -- intros i. rewrite I, I2. cbn. unfold idx. split; [intros [[H1 H2] H3]|intros [H1 H2]].
           ++ split; [easy|]. intros [H4|H4]; [lia|easy].
           ++ split; [split; [easy|]|]; [intros ->; apply H2; left; lia|tauto].
        -- intros l' [<-|Hl'] Hin'.
           ++ fold idx. rewrite R; [|easy|rewrite I2; tauto]. rewrite K2, Z.eqb_refl. easy.
           ++ apply Z0; [easy|]. apply I2. split; [easy|]. specialize (So2 _ Hl'). unfold idx. lia.
        -- intros j J0 J1. rewrite R; [|easy|rewrite I2; tauto]. rewrite K2.
           destruct (Z.eqb_spec j idx) as [-> |]; [easy|]. destruct (Z.eqb_spec j b) as [-> |]; [|easy].
           destruct Hbb as [Hb0|Hbb]; [easy|]. exfalso. apply J1. rewrite Efl. apply in_or_app. auto.
Qed.

Lemma sorted_labels_ok l : StronglySorted Z.lt l -> sorted_labels l = true.
Proof.
  induction l as [|x [|y r] IH]; intros H; [easy|easy|]. apply sorted_cons in H as [H1 H2].
  change ((x <=? y) && sorted_labels (y :: r) = true). rewrite (IH H1), andb_true_r. apply Z.leb_le. specialize (H2 y (or_introl eq_refl)). lia.
Qed.
Lemma sorted_last l : StronglySorted Z.lt l -> forall x d, In x l -> x <= last l d.
Proof.
  induction l as [|y r IH]; intros H x d Hx; [easy|]. apply sorted_cons in H as [H1 H2]. rewrite last_cons.
  destruct Hx as [<-|Hx]; [|now apply IH]. destruct r; [cbn; lia|].
  assert (y < last (z :: r) y) by (apply H2, last_in; easy). lia.
Qed.
Lemma sorted_hd l : StronglySorted Z.lt l -> forall x d, In x l -> hd d l <= x.
Proof.
  destruct l as [|y r]; intros H x d Hx; [easy|]. apply sorted_cons in H as [H1 H2]. cbn.
  destruct Hx as [<-|Hx]; [lia|]. apply H2 in Hx. lia.
Qed.
Lemma len_nonempty {A} (l : list A) : l <> [] -> negb (length l =? 0)%nat = true.
Proof. now destruct l. Qed.

Lemma allocate_ok h fl base labels before : FL h fl -> StronglySorted Z.lt labels -> labels <> [] -> 1 <= base ->
  (before = 0 \/ In before fl) ->
  (forall l, In l labels -> 2 <= base + l) ->
  (forall l, In l labels -> limit h <= base + l \/ In (base + l) fl \/ 1 <= Ks h (base + l)) ->
  (forall l, In l labels -> In (base + l) fl -> before < base + l) ->
  exists h' fl', allocate h base labels before = Some h' /\ limit h' = Z.max (limit h) (base + last labels 0 + 1) /\
    (forall j, Bs h' j = Bs h j) /\ FL h' fl' /\
    (forall i, In i fl' <-> (In i fl \/ limit h <= i < limit h') /\ ~ In (i - base) labels) /\
    (forall l, In l labels -> In (base + l) fl \/ limit h <= base + l -> Ks h' (base + l) = 0) /\
    (forall j, j <> 0 -> ~ In j fl -> j < limit h -> Ks h' j = Ks h j).
Proof.
  intros F So Ne Hb Hbf H2 Ho Hlt. unfold allocate.
  assert (Hbl : before < limit h) by (destruct Hbf as [-> |Hbf]; [apply fl_lim in F; lia|apply (fl_range _ _ F) in Hbf; lia]).
  rewrite len_nonempty, sorted_labels_ok by easy.
  rewrite (proj2 (Z.leb_le 1 base) Hb), (proj2 (Z.ltb_lt _ _) Hbl). cbn [andb].
  assert (Hlast : In (last labels 0) labels) by (now apply last_in).
  destruct (Z.leb_spec (limit h) (base + last labels 0)) as [Hle|Hle].
  - destruct (reserve_ok h fl (Z.to_nat (base + last labels 0 + 1 - limit h)) F) as (h1 & E1 & L1 & B1 & F1 & K1).
    rewrite E1. set (nw := zseq (limit h) _) in *.
    assert (Hnw : forall i, In i nw <-> limit h <= i < limit h1) by (intros; unfold nw; rewrite zseq_in, L1; reflexivity).
    assert (L1' : limit h1 = base + last labels 0 + 1) by lia.
    assert (Hlst : forall l, In l labels -> base + l < limit h1) by (intros l Hl; pose proof (sorted_last _ So l 0 Hl); lia).
    destruct (allocate_loop_ok base labels h1 (fl ++ nw) before) as (h' & fl' & E & L & Bq & F' & I & Z0 & R); auto.
    + destruct Hbf; [now left|right; apply in_or_app; auto].
    + intros l Hl. specialize (H2 l Hl). specialize (Hlst l Hl). lia.
    + intros l Hl. destruct (Ho l Hl) as [H|[H|H]].
      * left. apply in_or_app. right. apply Hnw. specialize (Hlst l Hl). lia.
      * left. apply in_or_app. auto.
      * destruct (in_dec Z.eq_dec (base + l) (fl ++ nw)) as [Hd|Hd]; [auto|]. right. specialize (H2 l Hl).
        rewrite K1; [easy|lia|intros Hx; apply Hd, in_or_app; auto..].
    + intros l Hl Hin. apply in_app_or in Hin as [Hin|Hin]; [auto|]. apply Hnw in Hin. lia.
    + exists h', fl'. split; [easy|]. split; [lia|]. split; [intros; now rewrite Bq|]. split; [easy|]. split; [|split].
      * intros i. rewrite I, in_app_iff, Hnw, L. easy.
      * intros l Hl Hin. apply Z0; [easy|]. apply in_or_app. destruct Hin; [auto|right; apply Hnw]. specialize (Hlst l Hl). lia.
      * intros j J0 J1 J2. assert (~ In j nw) by (rewrite Hnw; lia).
        rewrite R; [apply K1; easy|easy|rewrite in_app_iff; tauto].
  - assert (Hlst : forall l, In l labels -> base + l < limit h) by (intros l Hl; pose proof (sorted_last _ So l 0 Hl); lia).
    destruct (allocate_loop_ok base labels h fl before) as (h' & fl' & E & L & Bq & F' & I & Z0 & R); auto.
    + intros l Hl. specialize (H2 l Hl). specialize (Hlst l Hl). lia.
    + intros l Hl. destruct (Ho l Hl) as [H|[H|H]]; [|auto|auto]. specialize (Hlst l Hl). lia.
    + exists h', fl'. split; [easy|]. split; [lia|]. split; [easy|]. split; [easy|]. split; [|split].
      * intros i. rewrite I. split; [tauto|]. intros [[H|H] H']; [tauto|lia].
      * intros l Hl [Hin|Hin]; [auto|]. specialize (Hlst l Hl). lia.
      * intros j J0 J1 J2. now apply R.
Qed.

(** ** Freeing *)
Lemma free_seek_ok h idx l2 c : forall fuel b, seg (Ks h) b (c ++ l2) 0 -> (forall j, In j c -> j < idx /\ j <> 0) ->
  (forall j, In j l2 -> idx < j) -> (forall j, j = b \/ In j c -> inb h j) -> (length c < fuel)%nat ->
  free_seek fuel h b idx = Some (last c b).
Proof.
  induction c as [|x r IH]; intros [|f] b S Hc Hl R Fu; try (cbn in Fu; lia); cbn [free_seek]; rewrite g_check_ok by auto.
  - cbn [app last] in *. destruct l2 as [|y l2]; cbn in S.
    + rewrite S. easy.
    + destruct S as [-> _]. rewrite Z.opp_involutive. specialize (Hl y (or_introl eq_refl)).
      destruct (Z.ltb_spec y idx); [lia|]. now rewrite andb_false_r.
  - cbn in S. destruct S as [-> S]. rewrite Z.opp_involutive. destruct (Hc x (or_introl eq_refl)) as [H1 H2].
    destruct (Z.eqb_spec x 0); [easy|]. destruct (Z.ltb_spec x idx); [|lia]. cbn [negb andb].
    assert (Hx : inb h x) by (apply R; right; now left). destruct (Z.ltb_spec x (limit h)); [|unfold inb in Hx; lia].
    rewrite last_cons. apply IH; auto; [intros; apply Hc; now right| |cbn in Fu; lia].
    intros j [-> |Hj]; [easy|]. apply R. right. now right.
Qed.

Lemma sorted_split_at idx (l : list Z) : StronglySorted Z.lt l -> ~ In idx l -> exists l1 l2, l = l1 ++ l2 /\
  (forall j, In j l1 -> j < idx) /\ (forall j, In j l2 -> idx < j).
Proof.
  induction l as [|x r IH]; intros So N; [exists [], []; easy|]. apply sorted_cons in So as [So1 So2].
  destruct (Z_lt_dec x idx) as [Hx|Hx].
  - destruct IH as (l1 & l2 & -> & H1 & H2); [easy|cbn in N; tauto|]. exists (x :: l1), l2. repeat split; auto.
    intros j [<-|Hj]; auto.
  - exists [], (x :: r). repeat split; [easy|]. assert (x <> idx) by (intros ->; apply N; now left).
    intros j [<-|Hj]; [lia|]. apply So2 in Hj. lia.
Qed.

Lemma last_app_cons {A} (a c : list A) x d : last (a ++ x :: c) d = last c x.
Proof.
  revert d; induction a as [|y a IH]; intros d; cbn [app]; rewrite last_cons; [easy|]. apply IH.
Qed.

Lemma th_free_ok h fl idx before : FL h fl -> 2 <= idx < limit h -> ~ In idx fl ->
  (before = 0 \/ In before fl /\ before < idx) ->
  exists h' b fl', th_free h idx before = Some (h', b) /\ limit h' = limit h /\
    (forall j, Bs h' j = if j =? idx then 0 else Bs h j) /\ FL h' fl' /\
    (forall i, In i fl' <-> In i fl \/ i = idx) /\ (b = 0 \/ In b fl) /\ b < idx /\
    (forall j, j <> 0 -> ~ In j fl -> j <> idx -> Ks h' j = Ks h j).
Proof.
  intros F Hi N Hb. pose proof (fl_lim _ _ F) as Lm.
  assert (Hbr : 0 <= before < limit h) by (destruct Hb as [-> |[Hb _]]; [lia|apply (fl_range _ _ F) in Hb; lia]).
  unfold th_free.
  assert (E : (1 <? idx) && (idx <? limit h) && (0 <=? before) && (before <? limit h) = true).
  { rewrite !andb_true_iff, !Z.ltb_lt, Z.leb_le. lia. }
  rewrite E; clear E.
  destruct (sorted_split_at idx fl (fl_sorted _ _ F) N) as (l1 & l2 & Efl & H1 & H2).
  pose proof (fl_seg _ _ F) as S. pose proof (fl_sorted _ _ F) as So. rewrite Efl in S, So.
  pose proof (fl_length _ _ F) as FLn. rewrite Efl, app_length in FLn.
  set (b := last l1 0). assert (Hbb : b = 0 \/ In b l1). { unfold b. destruct l1; [now left|right; now apply last_in]. }
  assert (Rg : forall j, In j l1 \/ In j l2 -> 2 <= j < limit h) by (intros j Hj; apply (fl_range _ _ F); rewrite Efl; apply in_or_app; tauto).
  assert (Sk : free_seek (Datatypes.S (length h)) h before idx = Some b).
  { destruct Hb as [-> |[Hb Hlt]].
    - eapply free_seek_ok; eauto; [|intros j [-> |Hj]; unfold inb; [lia|]|lia].
      + intros j Hj. split; [auto|]. specialize (Rg j (or_introl Hj)). lia.
      + specialize (Rg j (or_introl Hj)). lia.
    - assert (Hb1 : In before l1). { rewrite Efl in Hb. apply in_app_or in Hb as [Hb|Hb]; [easy|]. apply H2 in Hb. lia. }
      destruct (in_split _ _ Hb1) as (a & c & El1). unfold b. rewrite El1, last_app_cons.
      rewrite El1, <- app_assoc in S. apply seg_app in S as [_ S]. cbn in S.
      assert (Hc : forall j, j = before \/ In j c -> In j l1) by (intros j Hj; rewrite El1; apply in_or_app; right; cbn; destruct Hj; auto).
      eapply free_seek_ok; eauto.
      + intros j Hj. split; [apply H1; auto|]. specialize (Rg j (or_introl (Hc j (or_intror Hj)))). lia.
      + intros j Hj. specialize (Rg j (or_introl (Hc j Hj))). unfold inb; lia.
      + rewrite El1, app_length in FLn. cbn in FLn. lia. }
  rewrite Sk. assert (Hbb' : inb h b) by (destruct Hbb as [-> |Hbb]; unfold inb; [lia|specialize (Rg b (or_introl Hbb)); lia]).
  assert (Hidx : inb h idx) by (unfold inb; lia).
  rewrite s_base_ok by easy. rewrite g_check_ok by now apply inb_setB. rewrite Ks_setB.
  rewrite s_check_ok by now apply inb_setB. rewrite s_check_ok by now apply inb_setK, inb_setB.
  set (h' := setK _ b (- idx)).
  assert (Hbi : b < idx) by (destruct Hbb as [-> |Hbb]; [lia|auto]).
  assert (K' : forall j, Ks h' j = if j =? b then - idx else if j =? idx then Ks h b else Ks h j).
  { intros j. unfold h'. rewrite Ks_setK by now apply inb_setK, inb_setB. rewrite Ks_setK by now apply inb_setB. now rewrite Ks_setB. }
  assert (B' : forall j, Bs h' j = if j =? idx then 0 else Bs h j).
  { intros j. unfold h'. rewrite Bs_setK by now apply inb_setK, inb_setB. rewrite Bs_setK by now apply inb_setB. now rewrite Bs_setB. }
  assert (L' : limit h' = limit h) by (unfold h'; now rewrite !limit_setK, limit_setB).
  exists h', b, (l1 ++ idx :: l2). split; [easy|]. split; [easy|]. split; [easy|]. split; [|split; [|split; [|split]]].
  - constructor.
    + lia.
    + apply sorted_app in So as (So1 & So2 & So3). apply sorted_app. split; [easy|]. split; [apply sorted_cons; auto|].
      intros x y Hx [<-|Hy]; auto.
    + intros i Hin. rewrite L'. apply in_app_or in Hin as [Hin|[<-|Hin]]; [apply Rg; auto|easy|apply Rg; auto].
    + apply seg_app in S as [S1 S2]. apply seg_app. cbn [hd]. split.
      * eapply seg_relink; [|exact S1| |].
        -- constructor; [intros H0; specialize (Rg 0 (or_introl H0)); lia|]. apply sorted_app in So. now apply sorted_nodup.
        -- intros i Hin Hne. fold b in Hne. rewrite K'. destruct (Z.eqb_spec i b); [easy|].
           destruct (Z.eqb_spec i idx) as [-> |]; [|easy]. destruct Hin as [H0|H0]; [lia|apply H1 in H0; lia].
        -- fold b. rewrite K', Z.eqb_refl. lia.
      * assert (Kidx : Ks h' idx = - hd 0 l2).
        { rewrite K'. destruct (Z.eqb_spec idx b); [lia|]. rewrite Z.eqb_refl. apply seg_last in S1. exact S1. }
        destruct l2 as [|y l2]; cbn in *; [lia|]. split; [easy|]. eapply seg_ext; [|exact S2].
        intros i Hin. rewrite K'. assert (idx < i) by (apply H2; destruct Hin; auto).
        destruct (Z.eqb_spec i b); [lia|]. destruct (Z.eqb_spec i idx); [lia|easy].
  - intros i. rewrite Efl, !in_app_iff. cbn. intuition.
  - destruct Hbb; [now left|right]. rewrite Efl. apply in_or_app. auto.
  - easy.
  - intros j J0 J1 J2. rewrite K'. destruct (Z.eqb_spec j b) as [-> |].
    + destruct Hbb; [easy|]. exfalso; apply J1. rewrite Efl. apply in_or_app. auto.
    + destruct (Z.eqb_spec j idx); [easy|easy].
Qed.

Lemma free_loop_ok base labels : forall h fl before, FL h fl -> StronglySorted Z.lt labels ->
  (forall l, In l labels -> 2 <= base + l < limit h /\ ~ In (base + l) fl) ->
  (before = 0 \/ In before fl /\ forall l, In l labels -> before < base + l) ->
  exists h' fl', free_loop h base labels before = Some h' /\ limit h' = limit h /\
    (forall j, Bs h' j = if existsb (Z.eqb (j - base)) labels then 0 else Bs h j) /\ FL h' fl' /\
    (forall i, In i fl' <-> In i fl \/ In (i - base) labels) /\
    (forall j, j <> 0 -> ~ In j fl' -> Ks h' j = Ks h j).
Proof.
  induction labels as [|l ls IH]; intros h fl before F So Hr Hb; cbn [free_loop].
  - exists h, fl. cbn. do 4 (split; [easy|]). split; [tauto|easy].
  - apply sorted_cons in So as [So1 So2]. destruct (Hr l (or_introl eq_refl)) as [Hr1 Hr2].
    destruct (Z.ltb_spec (base + l) (limit h)); [|lia].
    destruct (th_free_ok h fl (base + l) before F Hr1 Hr2) as (h1 & b & fl1 & E1 & L1 & B1 & F1 & I1 & Hb1 & Hlt1 & K1).
    { destruct Hb as [Hb|[Hb1 Hb2]]; [now left|right]. split; [easy|]. apply Hb2. now left. }
    rewrite E1.
    destruct (IH h1 fl1 b) as (h' & fl' & E & L & Bq & F' & I & R); auto.
    + intros l' Hl'. destruct (Hr l' (or_intror Hl')) as [A1 A2]. specialize (So2 _ Hl'). split; [lia|]. rewrite I1. intros [A|A]; [easy|lia].
    + destruct Hb1 as [Hb1|Hb1]; [now left|right]. split; [apply I1; auto|]. intros l' Hl'. specialize (So2 _ Hl'). lia.
    + exists h', fl'. split; [easy|]. split; [lia|]. split; [|split; [easy|split]].
      * intros j. rewrite Bq, B1. cbn. destruct (Z.eqb_spec (j - base) l) as [A|A]; cbn.
        -- destruct (existsb _ ls); [easy|]. destruct (Z.eqb_spec j (base + l)); [easy|lia].
        -- destruct (existsb _ ls); [easy|]. destruct (Z.eqb_spec j (base + l)); [lia|easy].
      * intros i. rewrite I, I1. cbn. split; [intros [[A|A]|A]|intros [A|[A|A]]]; auto; [right; left; lia|left; right; lia].
      * intros j J0 J1. rewrite R by easy. apply K1; [easy| |]; intros A; apply J1, I; left; apply I1; auto.
Qed.

Lemma free_labels_ok base labels h fl : FL h fl -> StronglySorted Z.lt labels -> labels <> [] -> 1 <= base < limit h ->
  (forall l, In l labels -> 2 <= base + l < limit h /\ ~ In (base + l) fl) ->
  exists h' fl', free_labels h base labels = Some h' /\ limit h' = limit h /\
    (forall j, Bs h' j = if existsb (Z.eqb (j - base)) labels then 0 else Bs h j) /\ FL h' fl' /\
    (forall i, In i fl' <-> In i fl \/ In (i - base) labels) /\
    (forall j, j <> 0 -> ~ In j fl' -> Ks h' j = Ks h j).
Proof.
  intros F So Ne Hb Hr. destruct (free_loop_ok base labels h fl 0 F So Hr (or_introl eq_refl)) as (h' & fl' & E & R).
  exists h', fl'. split; [|exact R]. unfold free_labels. rewrite len_nonempty, sorted_labels_ok by easy.
  destruct (Hr (last labels 0)) as [A _]; [now apply last_in|].
  rewrite (proj2 (Z.leb_le 1 base)), (proj2 (Z.ltb_lt base (limit h))), (proj2 (Z.ltb_lt (base + last labels 0) (limit h))) by lia.
  exact E.
Qed.

(** ** Searching for a place *)
Definition placeable (h : heap) (fl : list Z) (base : Z) (labels : list Z) : Prop :=
  forall l, In l labels -> 2 <= base + l /\ (limit h <= base + l \/ In (base + l) fl).

Lemma is_free_loop_ok h fl base labels : FL h fl -> (forall i, 2 <= i < limit h -> ~ In i fl -> 1 <= Ks h i) ->
  1 <= base -> StronglySorted Z.lt labels -> (forall l, In l labels -> 0 <= l) ->
  exists b, is_free_loop h base labels = Some b /\ (b = true -> placeable h fl base labels).
Proof.
  intros F Hf Hb. induction labels as [|l ls IH]; intros So Hl; cbn [is_free_loop]; [exists true; split; [easy|]; intros _ l []|].
  apply sorted_cons in So as [So1 So2]. assert (L0 : 0 <= l) by (apply Hl; now left).
  destruct (Z.eqb_spec l 0) as [Hl0|Hl0]; cbn [andb].
  - destruct (Z.eqb_spec base 1) as [Hb1|Hb1]; [exists false; easy|].
    destruct (Z.leb_spec (limit h) (base + l)) as [Hle|Hle].
    + exists true; split; [easy|]. intros _ l' [<-|Hl']; [lia|]. apply So2 in Hl'. lia.
    + rewrite g_check_ok by (unfold inb; lia). destruct (Z.leb_spec 1 (Ks h (base + l))) as [Hk|Hk]; [exists false; easy|].
      destruct IH as (b & E & H); [easy|intros; apply Hl; now right|]. exists b. split; [easy|]. intros Hbt l' [<-|Hl']; [|now apply H].
      split; [lia|right]. destruct (in_dec Z.eq_dec (base + l) fl) as [i|n]; [easy|]. apply Hf in n; lia.
  - destruct (Z.leb_spec (limit h) (base + l)) as [Hle|Hle].
    + exists true; split; [easy|]. intros _ l' [<-|Hl']; [lia|]. apply So2 in Hl'. lia.
    + rewrite g_check_ok by (unfold inb; lia). destruct (Z.leb_spec 1 (Ks h (base + l))) as [Hk|Hk]; [exists false; easy|].
      destruct IH as (b & E & H); [easy|intros; apply Hl; now right|]. exists b. split; [easy|]. intros Hbt l' [<-|Hl']; [|now apply H].
      split; [lia|right]. destruct (in_dec Z.eq_dec (base + l) fl) as [i|n]; [easy|]. apply Hf in n; lia.
Qed.
Lemma is_free_ok h fl base labels : FL h fl -> (forall i, 2 <= i < limit h -> ~ In i fl -> 1 <= Ks h i) ->
  1 <= base -> StronglySorted Z.lt labels -> labels <> [] -> (forall l, In l labels -> 0 <= l) ->
  exists b, is_free h base labels = Some b /\ (b = true -> placeable h fl base labels).
Proof.
  intros. unfold is_free. rewrite (proj2 (Z.leb_le 1 base)), len_nonempty by easy. cbn [andb]. now apply is_free_loop_ok.
Qed.

Lemma is_free_for_loop_ok h fl parent base labels : FL h fl -> (forall i, 2 <= i < limit h -> ~ In i fl -> 1 <= Ks h i) ->
  1 <= base -> StronglySorted Z.lt labels -> (forall l, In l labels -> 0 <= l) ->
  exists b, is_free_for_loop h parent base labels = Some b /\
    (b = true -> forall l, In l labels -> 2 <= base + l /\ (limit h <= base + l \/ In (base + l) fl \/ Ks h (base + l) = parent)).
Proof.
  intros F Hf Hb. induction labels as [|l ls IH]; intros So Hl; cbn [is_free_for_loop]; [exists true; split; [easy|]; intros _ l []|].
  apply sorted_cons in So as [So1 So2]. assert (L0 : 0 <= l) by (apply Hl; now left).
  destruct ((l =? 0) && (base =? 1)) eqn:E0; [exists false; easy|].
  assert (2 <= base + l) by (destruct (Z.eqb_spec l 0), (Z.eqb_spec base 1); cbn in E0; lia).
  destruct (Z.leb_spec (limit h) (base + l)) as [Hle|Hle].
  - exists true; split; [easy|]. intros _ l' [<-|Hl']; [lia|]. apply So2 in Hl'. lia.
  - rewrite g_check_ok by (unfold inb; lia).
    destruct ((1 <=? Ks h (base + l)) && negb (parent =? Ks h (base + l))) eqn:E1; [exists false; easy|].
    destruct IH as (b & E & H'); [easy|intros; apply Hl; now right|]. exists b. split; [easy|]. intros Hbt l' [<-|Hl']; [|now apply H'].
    split; [lia|right]. destruct (in_dec Z.eq_dec (base + l) fl) as [i|n]; [auto|]. right. apply Hf in n; [|lia].
    destruct (Z.leb_spec 1 (Ks h (base + l))), (Z.eqb_spec parent (Ks h (base + l))); cbn in E1; try easy; lia.
Qed.

Lemma locate_skip_ok h offset l : forall fuel bf, seg (Ks h) bf l 0 -> (forall i, In i l -> 2 <= i < limit h) -> (length l < fuel)%nat ->
  StronglySorted Z.lt l ->
  exists c r, l = c ++ r /\ locate_skip fuel h offset (hd 0 l) bf = Some (hd 0 r, last c bf) /\
    (forall i, In i c -> i <= offset) /\ (r = [] \/ offset < hd 0 r).
Proof.
  induction l as [|x l IH]; intros [|f] bf S R Fu So; try (cbn in Fu; lia); cbn [locate_skip hd].
  - exists [], []. cbn. repeat split; auto; easy.
  - destruct S as [S1 S2]. apply sorted_cons in So as [So1 So2].
    assert (Rx : 2 <= x < limit h) by (apply R; now left). destruct (Z.ltb_spec 0 x); [|lia]. cbn [andb].
    destruct (Z.leb_spec x offset) as [Hx|Hx].
    + rewrite g_check_ok by (unfold inb; lia).
      replace (- Ks h x) with (hd 0 l) by (destruct l; cbn in S2 |- *; lia).
      destruct (IH f x) as (c & r & E & El & H1 & H2); auto; [intros; apply R; now right|cbn in Fu; lia|].
      exists (x :: c), r. rewrite last_cons. split; [cbn; now f_equal|]. split; [easy|]. split; [|easy]. intros i [<-|Hi]; auto.
    + exists [], (x :: l). cbn. repeat split; auto; easy.
Qed.

Lemma locate_fit_ok h fl labels offset l : FL h fl -> (forall i, 2 <= i < limit h -> ~ In i fl -> 1 <= Ks h i) ->
  StronglySorted Z.lt labels -> labels <> [] -> (forall l, In l labels -> 0 <= l) ->
  forall fuel bf, seg (Ks h) bf l 0 -> (forall i, In i l -> 2 <= i < limit h /\ offset < i) -> (length l < fuel)%nat ->
  exists c r, l = c ++ r /\ locate_fit fuel h labels offset (hd 0 l) bf = Some (hd 0 r, last c bf) /\
    (r = [] \/ placeable h fl (hd 0 r - offset) labels).
Proof.
  intros F Hf So Ne Hl. induction l as [|x l IH]; intros [|f] bf S R Fu; try (cbn in Fu; lia); cbn [locate_fit hd].
  - exists [], []. cbn. repeat split; auto.
  - destruct S as [S1 S2]. assert (Rx : 2 <= x < limit h /\ offset < x) by (apply R; now left).
    destruct (Z.eqb_spec x 0); [lia|].
    destruct (is_free_ok h fl (x - offset) labels) as (b & E & H); auto; [lia|]. rewrite E. destruct b.
    + exists [], (x :: l). cbn. repeat split; auto.
    + rewrite g_check_ok by (unfold inb; lia).
      replace (- Ks h x) with (hd 0 l) by (destruct l; cbn in S2 |- *; lia).
      destruct (IH f x) as (c & r & E' & El & H1); auto; [intros; apply R; now right|cbn in Fu; lia|].
      exists (x :: c), r. rewrite last_cons. split; [cbn; now f_equal|]. split; easy.
Qed.

Lemma locate_ok h fl labels : FL h fl -> (forall i, 2 <= i < limit h -> ~ In i fl -> 1 <= Ks h i) ->
  StronglySorted Z.lt labels -> labels <> [] -> (forall l, In l labels -> 0 <= l) ->
  exists base before, locate h labels = Some (base, before) /\ 1 <= base /\ base + hd 0 labels <= Z.max (limit h) (1 + hd 0 labels) /\
    placeable h fl base labels /\ (before = 0 \/ In before fl) /\ before < base + hd 0 labels.
Proof.
  intros F Hf So Ne Hl. unfold locate. rewrite len_nonempty, sorted_labels_ok by easy. cbn [andb].
  pose proof (fl_lim _ _ F) as Lm. rewrite g_check_ok by (unfold inb; lia).
  pose proof (fl_seg _ _ F) as S. pose proof (fl_length _ _ F) as FLn.
  replace (- Ks h 0) with (hd 0 fl) by (destruct fl; cbn in S |- *; lia).
  set (offset := hd 0 labels). assert (O0 : 0 <= offset) by (apply Hl; unfold offset; destruct labels; [easy|now left]).
  destruct (locate_skip_ok h offset fl (Datatypes.S (length h)) 0 S (fl_range _ _ F) ltac:(lia) (fl_sorted _ _ F)) as (c & r & Efl & E & Hc & Hr).
  rewrite E.
  assert (Hcb : last c 0 = 0 \/ In (last c 0) fl).
  { destruct c; [now left|right]. rewrite Efl. apply in_or_app. left. now apply last_in. }
  assert (Hcb' : last c 0 <= offset). { destruct c; [easy|]. apply Hc, last_in. easy. }
  assert (Hnew : placeable h fl (Z.max (limit h - offset) 1) labels).
  { intros l Hin. pose proof (sorted_hd _ So l 0 Hin). fold offset in H. lia. }
  destruct (Z.ltb_spec offset (hd 0 r)) as [Hor|Hor].
  - destruct Hr as [-> |Hr]; [cbn in Hor; lia|].
    assert (Hr0 : exists x r', r = x :: r') by (destruct r; [cbn in Hor; lia|eauto]).
    assert (Sr : seg (Ks h) (last c 0) r 0).
    { destruct Hr0 as (x & r' & ->). rewrite Efl in S. apply seg_app in S as [S1 S2]. cbn [hd] in *. cbn. split; [now apply seg_last in S1|easy]. }
    assert (Rr : forall i, In i r -> 2 <= i < limit h /\ offset < i).
    { intros i Hi. split; [apply (fl_range _ _ F); rewrite Efl; apply in_or_app; auto|].
      pose proof (fl_sorted _ _ F) as Sf. rewrite Efl in Sf. apply sorted_app in Sf as (_ & Sf & _).
      pose proof (sorted_hd _ Sf i 0 Hi). lia. }
    destruct (locate_fit_ok h fl labels offset r F Hf So Ne Hl (Datatypes.S (length h)) (last c 0) Sr Rr) as (c2 & r2 & Er & E2 & H2).
    { rewrite Efl, app_length in FLn. lia. }
    rewrite E2.
    assert (Hb2 : last c2 (last c 0) = 0 \/ In (last c2 (last c 0)) fl).
    { destruct c2; [easy|]. right. rewrite Efl, Er. apply in_or_app. right. apply in_or_app. left. now apply last_in. }
    destruct r2 as [|y r2].
    + cbn [hd]. change (0 =? 0) with true. cbn [negb]. change (0 =? 0) with true. cbv iota.
      set (base := Z.max (limit h - offset) 1) in *.
      assert (Hlt : 0 <= last c2 (last c 0) < base + offset).
      { destruct Hb2 as [-> |Hb2]; [unfold base; lia|]. apply (fl_range _ _ F) in Hb2. unfold base; lia. }
      rewrite (proj2 (Z.leb_le 1 base)), (proj2 (Z.leb_le 0 _)), (proj2 (Z.ltb_lt (last c2 (last c 0)) _)) by lia. cbn [andb].
      exists base, (last c2 (last c 0)). split; [easy|]. split; [lia|]. split; [unfold base; lia|]. split; [easy|]. split; [easy|lia].
    + destruct H2 as [H2|H2]; [easy|]. cbn [hd] in *.
      assert (Hy : 2 <= y < limit h /\ offset < y) by (apply Rr; rewrite Er; apply in_or_app; right; now left).
      destruct (Z.eqb_spec y 0); [lia|]. cbn [negb]. destruct (Z.eqb_spec (y - offset) 0); [lia|].
      assert (Hlt : 0 <= last c2 (last c 0) < y).
      { destruct Hb2 as [-> |Hb2]; [lia|]. split; [apply (fl_range _ _ F) in Hb2; lia|].
        pose proof (fl_sorted _ _ F) as Sf. rewrite Efl, Er in Sf. destruct c2 as [|z c2].
        - cbn [last]. lia.
        - apply sorted_app in Sf as (_ & Sf & _). apply sorted_app in Sf as (_ & _ & Sf). apply Sf; [now apply last_in|now left]. }
      rewrite (proj2 (Z.leb_le 1 (y - offset))), (proj2 (Z.leb_le 0 _)), (proj2 (Z.ltb_lt (last c2 (last c 0)) _)) by lia. cbn [andb].
      exists (y - offset), (last c2 (last c 0)). split; [easy|]. split; [lia|]. split; [lia|]. split; [easy|]. split; [easy|lia].
  - set (base := Z.max (limit h - offset) 1) in *. rewrite Z.eqb_refl.
    assert (Hlt : 0 <= last c 0 < base + offset).
    { split; [destruct Hcb as [-> |Hcb]; [lia|apply (fl_range _ _ F) in Hcb; lia]|]. unfold base; lia. }
    rewrite (proj2 (Z.leb_le 1 base)), (proj2 (Z.leb_le 0 _)), (proj2 (Z.ltb_lt (last c 0) _)) by lia. cbn [andb].
    exists base, (last c 0). split; [easy|]. split; [lia|]. split; [unfold base; lia|]. split; [easy|]. split; [easy|lia].
Qed.
