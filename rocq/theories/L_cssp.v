(** What the CSS parser makes of a list of tokens: nesting, rules and declarations, each by one pass over the list. *)
From Coq Require Import String.
From Coq Require Import ZArith List Bool Lia.
From Verif Require Import M_unicode M_infra M_percent M_encoding M_labels M_css M_cssp.
Import ListNotations.
Open Scope list_scope.
Open Scope Z_scope.

(** * Nesting *)

(** What is open: a block, by its character, or a function, by its name. *)
Inductive group := GBlk (o : Z) | GFun (n : list Z).
Definition opens (p : prim) : option group :=
  match p with
  | Tok OpenCurly => Some (GBlk 0x7B) | Tok OpenSquare => Some (GBlk 0x5B) | Tok OpenParen => Some (GBlk 0x28)
  | Tok (Function n) => Some (GFun n)
  | _ => None
  end.
Definition closing (p : prim) : bool := match p with Tok CloseCurly | Tok CloseSquare | Tok CloseParen => true | _ => false end.
(** As the code does: every closing token ends a block, only a parenthesis ends a function. *)
Definition ends_any (g : group) (p : prim) : bool := match g, p with GFun _, Tok CloseParen => true | GBlk _, p => closing p | _, _ => false end.
(** As the standard says: a block is ended by its own closing token. *)
Definition own (g : group) : prim := match g with GFun _ => Tok CloseParen | GBlk o => if o =? 0x7B then Tok CloseCurly else if o =? 0x5B then Tok CloseSquare else Tok CloseParen end.
Definition ends_own (g : group) (p : prim) : bool :=
  match own g, p with Tok CloseCurly, Tok CloseCurly | Tok CloseSquare, Tok CloseSquare | Tok CloseParen, Tok CloseParen => true | _, _ => false end.
Definition made (g : group) (w : list prim) : prim := match g with GBlk o => Blk o w | GFun n => Fun n w end.

(** The values at the top, and the open groups with what is in them, innermost first. *)
Definition nesting : Type := list prim * list (group * list prim).
Definition put (c : prim) (x : nesting) : nesting :=
  match x with (top, []) => (top ++ [c], []) | (top, (g, w) :: st) => (top, (g, w ++ [c]) :: st) end.
Definition nstep (ends : group -> prim -> bool) (x : nesting) (p : prim) : nesting :=
  match opens p with
  | Some g => (fst x, (g, []) :: snd x)
  | None => match x with
            | (top, (g, w) :: st) => if ends g p then put (made g w) (top, st) else put p x
            | (top, []) => put p x
            end
  end.
(** What is open at the end ends there. *)
Fixpoint wrap (st : list (group * list prim)) (inner : list prim) : list prim :=
  match st with [] => inner | (g, w) :: st => wrap st [made g (w ++ inner)] end.
Definition nested (ends : group -> prim -> bool) (x : nesting) (t : list prim) : nesting := fold_left (nstep ends) t x.
Definition finish (x : nesting) : list prim := fst x ++ wrap (snd x) [].
Definition nest (ends : group -> prim -> bool) (t : list prim) : list prim := finish (nested ends ([], []) t).
Definition still_open (ends : group -> prim -> bool) (t : list prim) : bool := match snd (nested ends ([], []) t) with [] => false | _ => true end.

Definition no_eof (t : list prim) : Prop := Forall (fun p => p <> Tok Eof) t.

(** * The stream *)

Definition zl (l : list prim) : Z := Z.of_nat (List.length l).
Lemma zl_app a b : zl (a ++ b) = zl a + zl b.
Proof. unfold zl. rewrite app_length. lia. Qed.
Lemma zl_cons p b : zl (p :: b) = 1 + zl b.
Proof. unfold zl. cbn [List.length]. lia. Qed.
Lemma zl_nil : zl [] = 0.
Proof. reflexivity. Qed.
Lemma zl_pos b : 0 <= zl b.
Proof. unfold zl. lia. Qed.

Definition at_ (s : stream) (t : list prim) : Prop := exists d, m_v s = d ++ t ++ [Tok Eof] /\ m_i s = zl d - 1.
Definition gone (s : stream) : Prop := size s - 1 <= m_i s /\ last (m_v s) (Tok Eof) = Tok Eof /\ 0 < size s.
(** [e]: the end was read. *)
Definition left_ (s : stream) (t : list prim) (e : bool) : Prop := if e then t = [] /\ gone s else at_ s t.

Lemma nth_mid d p (r : list prim) : nth (Z.to_nat (zl d)) (d ++ p :: r) (Tok Eof) = p.
Proof. unfold zl. rewrite Nat2Z.id, app_nth2 by lia. now rewrite Nat.sub_diag. Qed.

Lemma consume_at s p t : at_ s (p :: t) -> current (consume s) = p /\ at_ (consume s) t /\ reconsume (consume s) = s /\ next s = Val p.
Proof.
  intros (d & V & I). destruct s as [v i]. cbn [m_v m_i] in *. subst v i. unfold consume, reconsume, current, next, size, at_. cbn [m_v m_i]. fold (zl (d ++ (p :: t) ++ [Tok Eof])).
  rewrite !zl_app, !zl_cons, !zl_nil. pose proof (zl_pos d). pose proof (zl_pos t). replace (zl d - 1 + 1) with (zl d) by lia.
  replace (0 <=? zl d) with true by lia. cbn [app]. replace (zl d <? _) with true by lia. cbn [andb negb].
  replace (zl d - 1 <? _) with true by lia. rewrite nth_mid. repeat split.
  exists (d ++ [p]). rewrite <- app_assoc. split; [reflexivity|]. rewrite zl_app, zl_cons, zl_nil. lia.
Qed.
Lemma consume_end s : at_ s [] -> current (consume s) = Tok Eof /\ gone (consume s) /\ next s = Val (Tok Eof).
Proof.
  intros (d & V & I). destruct s as [v i]. cbn [m_v m_i] in *. subst v i. unfold consume, current, next, size, gone, size. cbn [m_v m_i app]. fold (zl (d ++ [Tok Eof])).
  rewrite !zl_app, zl_cons, zl_nil. pose proof (zl_pos d). replace (zl d - 1 + 1) with (zl d) by lia.
  replace (0 <=? zl d) with true by lia. replace (zl d <? _) with true by lia. cbn [andb negb].
  replace (zl d - 1 <? _) with true by lia. rewrite nth_mid. repeat split; try lia. now rewrite last_last.
Qed.
Lemma consume_gone s : gone s -> current (consume s) = Tok Eof /\ gone (consume s) /\ next s = Bad.
Proof.
  intros (G & L & N). destruct s as [v i]. unfold consume, current, next, gone, size in *. cbn [m_v m_i] in *.
  replace (i + 1 <? Z.of_nat (List.length v)) with false by lia. rewrite andb_false_r. cbn [negb]. replace (i <? _) with false by lia. repeat split; auto; lia.
Qed.
Lemma token_stream_at c : at_ (token_stream c) c.
Proof. exists []. split; reflexivity. Qed.

(** * Component values *)

Notation NS := (nested ends_any).
Lemma nested_app e x a b : nested e x (a ++ b) = nested e (nested e x a) b.
Proof. apply fold_left_app. Qed.
Lemma nested_cons e x p b : nested e x (p :: b) = nested e (nstep e x p) b.
Proof. reflexivity. Qed.
Lemma wrap_app st1 st ex : wrap (st1 ++ st) ex = wrap st (wrap st1 ex).
Proof. revert ex. induction st1 as [|[g w] st1 IH]; intros ex; [reflexivity|]. cbn [wrap app]. apply IH. Qed.

(** What one component value takes from the list: [used], or everything up to the end. *)
Definition takes (t : list prim) (c : prim) (t' : list prim) (e : bool) : Prop :=
  if e then t' = [] /\ exists st1, st1 <> [] /\ wrap st1 [] = [c] /\ forall top st, NS (top, st) t = (top, st1 ++ st)
  else exists used, used <> [] /\ t = used ++ t' /\ (forall x, NS x used = put c x).
Definition takes_in (g : group) (acc t v t' : list prim) (e : bool) : Prop :=
  if e then t' = [] /\ exists st1, st1 <> [] /\ wrap st1 [] = [made g v] /\ forall top st, NS (top, (g, acc) :: st) t = (top, st1 ++ st)
  else exists used, used <> [] /\ t = used ++ t' /\ (forall top st, NS (top, (g, acc) :: st) used = put (made g v) (top, st)).

(** A token that neither opens nor closes. *)
Lemma put_plain p x : opens p = None -> (forall g, ends_any g p = false) -> NS x [p] = put p x.
Proof. intros O E. unfold nested. cbn [fold_left]. unfold nstep. rewrite O. destruct x as [top [|[g w] st]]; [reflexivity|]. now rewrite E. Qed.

Lemma takes_plain p t : opens p = None -> (forall g, ends_any g p = false) -> takes (p :: t) p t false.
Proof. intros O E. exists [p]. split; [discriminate|]. split; [reflexivity|]. intros x. now apply put_plain. Qed.
Lemma takes_group p g t v t' e : opens p = Some g -> takes_in g [] t v t' e -> takes (p :: t) (made g v) t' e.
Proof.
  intros O T. destruct e; cbn [takes takes_in] in *.
  - destruct T as (-> & st1 & N & W & F). split; [reflexivity|]. exists st1. split; [exact N|]. split; [exact W|]. intros top st. rewrite nested_cons. unfold nstep. rewrite O. apply F.
  - destruct T as (used & N & -> & F). exists (p :: used). split; [discriminate|]. split; [reflexivity|]. intros [top st]. rewrite nested_cons. unfold nstep. rewrite O. apply F.
Qed.
Lemma takes_end g acc : takes_in g acc [] acc [] true.
Proof. split; [reflexivity|]. exists [(g, acc)]. split; [discriminate|]. split; [cbn [wrap]; now rewrite app_nil_r|]. reflexivity. Qed.
Lemma takes_close g acc p t : opens p = None -> ends_any g p = true -> takes_in g acc (p :: t) acc t false.
Proof. intros O E. exists [p]. split; [discriminate|]. split; [reflexivity|]. intros top st. unfold nested. cbn [fold_left]. unfold nstep. now rewrite O, E. Qed.
Lemma takes_more g acc t c t1 v t2 e : takes t c t1 false -> takes_in g (acc ++ [c]) t1 v t2 e -> takes_in g acc t v t2 e.
Proof.
  intros (u1 & N1 & -> & F1) T. destruct e; cbn [takes takes_in] in *.
  - destruct T as (-> & st1 & N & W & F). split; [reflexivity|]. exists st1. split; [exact N|]. split; [exact W|]. intros top st. rewrite nested_app, F1. apply F.
  - destruct T as (u2 & N2 & -> & F2). exists (u1 ++ u2). split; [destruct u1; [congruence|discriminate]|]. split; [now rewrite app_assoc|]. intros top st. rewrite nested_app, F1. apply F2.
Qed.
Lemma takes_last g acc t c : takes t c [] true -> takes_in g acc t (acc ++ [c]) [] true.
Proof.
  intros (_ & st1 & N & W & F). split; [reflexivity|]. exists (st1 ++ [(g, acc)]). split; [destruct st1; discriminate|]. split; [now rewrite wrap_app, W|]. intros top st. now rewrite F, <- app_assoc.
Qed.

Definition plain (p : prim) : Prop := opens p = None /\ forall g, ends_any g p = false.
Lemma takes_shorter t c t' e : takes t c t' e -> t <> [] -> (List.length t' < List.length t)%nat.
Proof. intros T N. destruct e; [destruct T as [-> _]; destruct t; [congruence|cbn; lia]|]. destruct T as (u & Nu & -> & _). rewrite app_length. destruct u; [congruence|cbn; lia]. Qed.

(** A component value is read from a list that does not begin with a closing token, or the closing token is it. *)
Definition value_ok (f : nat) : Prop := forall s p t, at_ s (p :: t) -> no_eof (p :: t) -> (2 * List.length (p :: t) <= f)%nat ->
  exists c t' e s', consume_component_value f s = Val (c, s') /\ left_ s' t' e /\ (closing p = false -> takes (p :: t) c t' e) /\ (closing p = true -> c = p /\ t' = t /\ e = false) /\ no_eof t' /\ (opens p = None -> c = p /\ t' = t /\ e = false) /\
    (List.length t' < List.length (p :: t))%nat /\ c <> Tok Eof /\ (forall g, opens p = Some g -> exists w, c = made g w).
Definition block_ok (f : nat) : Prop := forall s t o acc, at_ s t -> no_eof t -> (2 * List.length t + 1 <= f)%nat ->
  exists v t' e s', block_loop f acc s = Val (v, s') /\ left_ s' t' e /\ takes_in (GBlk o) acc t v t' e /\ no_eof t' /\ (List.length t' <= List.length t)%nat.
Definition function_ok (f : nat) : Prop := forall s t n acc, at_ s t -> no_eof t -> (2 * List.length t + 1 <= f)%nat ->
  exists v t' e s', function_loop f acc s = Val (v, s') /\ left_ s' t' e /\ takes_in (GFun n) acc t v t' e /\ no_eof t' /\ (List.length t' <= List.length t)%nat.

Lemma block_gone f acc s : gone s -> exists s', block_loop (S f) acc s = Val (acc, s') /\ gone s'.
Proof. intros G. apply consume_gone in G as (C & G & _). exists (consume s). cbn [block_loop]. rewrite C. auto. Qed.
Lemma function_gone f acc s : gone s -> exists s', function_loop (S f) acc s = Val (acc, s') /\ gone s'.
Proof. intros G. apply consume_gone in G as (C & G & _). exists (consume s). cbn [function_loop]. rewrite C. auto. Qed.

Lemma all_ok : forall f, value_ok f /\ block_ok f /\ function_ok f.
Proof.
  induction f as [|f (IV & IB & IF)].
  { split; [|split].
    - intros s p t _ _ L. cbn [List.length] in L. lia.
    - intros s t o acc _ _ L. lia.
    - intros s t o acc _ _ L. lia. }
  split; [|split].
  - intros s p t A N L. destruct (consume_at _ _ _ A) as (C & A1 & _ & _). assert (N1 : no_eof t) by now inversion N.
    assert (Np : p <> Tok Eof) by now inversion N. cbn [List.length] in *. cbn [consume_component_value]. rewrite C.
    assert (K : opens p = None -> exists c t' e s', Val (p, consume s) = Val (c, s') /\ left_ s' t' e /\ (closing p = false -> takes (p :: t) c t' e) /\ (closing p = true -> c = p /\ t' = t /\ e = false) /\ no_eof t' /\ (opens p = None -> c = p /\ t' = t /\ e = false) /\
      (List.length t' < S (List.length t))%nat /\ c <> Tok Eof /\ (forall g, opens p = Some g -> exists w, c = made g w)).
    { intros O. exists p, t, false, (consume s). split; [reflexivity|]. split; [exact A1|]. split; [|split; [auto|split; [exact N1|split; [auto|split; [lia|split; [exact Np|intros g; rewrite O; discriminate]]]]]].
      intros Cl. apply takes_plain; [exact O|]. intros [o|n]; [exact Cl|]. destruct p as [[]| |]; try reflexivity; discriminate Cl. }
    assert (KB : forall o, opens p = Some (GBlk o) -> associated p = o -> exists c t' e s', pbind (block_loop f [] (consume s)) (fun '(v, s') => Val (Blk (associated p) v, s')) = Val (c, s') /\ left_ s' t' e /\
      (closing p = false -> takes (p :: t) c t' e) /\ (closing p = true -> c = p /\ t' = t /\ e = false) /\ no_eof t' /\ (opens p = None -> c = p /\ t' = t /\ e = false) /\ (List.length t' < S (List.length t))%nat /\ c <> Tok Eof /\
      (forall g, opens p = Some g -> exists w, c = made g w)).
    { intros o O As. destruct (IB (consume s) t o [] A1 N1) as (v & t' & e & s' & E & Lf & T & N2 & Le); [lia|]. rewrite E. cbn [pbind]. exists (Blk o v), t', e, s'. rewrite As.
      split; [reflexivity|]. split; [exact Lf|]. split; [intros _; exact (takes_group p (GBlk o) t v t' e O T)|]. split; [intros Cl; destruct p as [[]| |]; discriminate|]. split; [exact N2|]. split; [rewrite O; discriminate|]. split; [lia|]. split; [discriminate|].
      intros g G. rewrite O in G. injection G as <-. exists v. reflexivity. }
    destruct p as [[]| |]; try (apply K; reflexivity); try (eapply KB; reflexivity).
    destruct (IF (consume s) t s0 [] A1 N1) as (v & t' & e & s' & E & Lf & T & N2 & Le); [lia|]. rewrite E. cbn [pbind]. exists (Fun s0 v), t', e, s'.
    split; [reflexivity|]. split; [exact Lf|]. split; [intros _; exact (takes_group (Tok (Function s0)) (GFun s0) t v t' e eq_refl T)|]. split; [discriminate|]. split; [exact N2|]. split; [discriminate|]. split; [lia|]. split; [discriminate|].
    intros g G. injection G as <-. exists v. reflexivity.
  - intros s t o acc A N L. destruct t as [|p t].
    { apply consume_end in A as (C & G & _). exists acc, [], true, (consume s). cbn [block_loop]. rewrite C. split; [reflexivity|]. split; [split; [reflexivity|exact G]|]. split; [apply takes_end|]. split; [constructor|lia]. }
    destruct (consume_at _ _ _ A) as (C & A1 & Re & _). assert (N1 : no_eof t) by now inversion N. assert (Np : p <> Tok Eof) by now inversion N. cbn [List.length] in L.
    assert (K : closing p = true -> exists v t' e s', Val (acc, consume s) = Val (v, s') /\ left_ s' t' e /\ takes_in (GBlk o) acc (p :: t) v t' e /\ no_eof t' /\ (List.length t' <= S (List.length t))%nat).
    { intros Cl. exists acc, t, false, (consume s). split; [reflexivity|]. split; [exact A1|]. split; [apply takes_close; [destruct p as [[]| |]; try discriminate Cl; reflexivity|exact Cl]|]. split; [exact N1|lia]. }
    assert (M : closing p = false -> exists v t' e s', pbind (consume_component_value f (reconsume (consume s))) (fun '(c, s) => block_loop f (acc ++ [c]) s) = Val (v, s') /\ left_ s' t' e /\ takes_in (GBlk o) acc (p :: t) v t' e /\ no_eof t' /\
      (List.length t' <= S (List.length t))%nat).
    { intros Cl. rewrite Re. destruct (IV s p t A N) as (c & t1 & e1 & s1 & E1 & L1 & T1 & _ & N2 & _ & Sh & _); [cbn [List.length]; lia|]. rewrite E1. cbn [pbind]. specialize (T1 Cl). cbn [List.length] in Sh.
      destruct e1.
      - destruct L1 as [-> G]. destruct f as [|f]; [lia|]. destruct (block_gone f (acc ++ [c]) s1 G) as (s' & E' & G'). rewrite E'. exists (acc ++ [c]), [], true, s'. split; [reflexivity|].
        split; [split; [reflexivity|exact G']|]. split; [now apply takes_last|]. split; [constructor|cbn; lia].
      - destruct (IB s1 t1 o (acc ++ [c]) L1 N2) as (v & t2 & e2 & s2 & E2 & L2 & T2 & N3 & Le2); [lia|]. rewrite E2. exists v, t2, e2, s2. split; [reflexivity|]. split; [exact L2|]. split; [exact (takes_more _ _ _ _ _ _ _ _ T1 T2)|]. split; [exact N3|lia]. }
    cbn [List.length]. cbn [block_loop]. rewrite C. destruct p as [[]| |]; try (apply M; reflexivity); try (apply K; reflexivity). congruence.
  - intros s t o acc A N L. destruct t as [|p t].
    { apply consume_end in A as (C & G & _). exists acc, [], true, (consume s). cbn [function_loop]. rewrite C. split; [reflexivity|]. split; [split; [reflexivity|exact G]|]. split; [apply takes_end|]. split; [constructor|lia]. }
    destruct (consume_at _ _ _ A) as (C & A1 & Re & _). assert (N1 : no_eof t) by now inversion N. assert (Np : p <> Tok Eof) by now inversion N. cbn [List.length] in L.
    assert (M : ends_any (GFun o) p = false -> exists v t' e s', pbind (consume_component_value f (reconsume (consume s))) (fun '(c, s) => function_loop f (acc ++ [c]) s) = Val (v, s') /\ left_ s' t' e /\ takes_in (GFun o) acc (p :: t) v t' e /\ no_eof t' /\
      (List.length t' <= S (List.length t))%nat).
    { intros Cl. rewrite Re. destruct (IV s p t A N) as (c & t1 & e1 & s1 & E1 & L1 & T1 & T1' & N2 & _ & Sh & _); [cbn [List.length]; lia|]. rewrite E1. cbn [pbind]. cbn [List.length] in Sh.
      destruct (closing p) eqn:Cp.
      - specialize (T1' eq_refl) as (-> & -> & ->). destruct (IF s1 t o (acc ++ [p]) L1 N1) as (v & t2 & e2 & s2 & E2 & L2 & T2 & N3 & Le2); [lia|]. rewrite E2. exists v, t2, e2, s2. split; [reflexivity|]. split; [exact L2|]. split; [|split; [exact N3|lia]].
        assert (Op : opens p = None) by (destruct p as [[]| |]; try discriminate Cp; reflexivity).
        destruct e2.
        + destruct T2 as (-> & st1 & Nst & W & F). split; [reflexivity|]. exists st1. split; [exact Nst|]. split; [exact W|]. intros top st. rewrite nested_cons. unfold nstep. rewrite Op, Cl. apply F.
        + destruct T2 as (u & Nu & -> & F). exists (p :: u). split; [discriminate|]. split; [reflexivity|]. intros top st. rewrite nested_cons. unfold nstep. rewrite Op, Cl. apply F.
      - specialize (T1 eq_refl). destruct e1.
        + destruct L1 as [-> G]. destruct f as [|f]; [lia|]. destruct (function_gone f (acc ++ [c]) s1 G) as (s' & E' & G'). rewrite E'. exists (acc ++ [c]), [], true, s'. split; [reflexivity|].
          split; [split; [reflexivity|exact G']|]. split; [now apply takes_last|]. split; [constructor|cbn; lia].
        + destruct (IF s1 t1 o (acc ++ [c]) L1 N2) as (v & t2 & e2 & s2 & E2 & L2 & T2 & N3 & Le2); [lia|]. rewrite E2. exists v, t2, e2, s2. split; [reflexivity|]. split; [exact L2|]. split; [exact (takes_more _ _ _ _ _ _ _ _ T1 T2)|]. split; [exact N3|lia]. }
    cbn [List.length]. cbn [function_loop]. rewrite C. destruct p as [[]| |]; try (apply M; reflexivity); [|congruence].
    exists acc, t, false, (consume s). split; [reflexivity|]. split; [exact A1|]. split; [now apply takes_close|]. split; [exact N1|lia].
Qed.

(** ** The list, value by value *)

Notation nest_ := (nest ends_any).
Notation open_ := (still_open ends_any).

Lemma nested_top e a t : forall top st, nested e (a ++ top, st) t = (a ++ fst (nested e (top, st) t), snd (nested e (top, st) t)).
Proof.
  induction t as [|p t IH]; intros top st; [reflexivity|]. rewrite !nested_cons. unfold nstep. cbn [fst snd]. destruct (opens p) as [g|]; [apply IH|].
  assert (P : forall c st, put c (a ++ top, st) = (a ++ fst (put c (top, st)), snd (put c (top, st)))) by (intros c [|[g w] st0]; cbn [put fst snd]; [now rewrite app_assoc|reflexivity]).
  destruct st as [|[g w] st]; [|destruct (e g p)]; rewrite P.
  - destruct (put p (top, [])) as [top1 st1]. cbn [fst snd]. apply IH.
  - destruct (put (made g w) (top, st)) as [top1 st1]. cbn [fst snd]. apply IH.
  - destruct (put p (top, (g, w) :: st)) as [top1 st1]. cbn [fst snd]. apply IH.
Qed.
Lemma nest_after e c t : finish (nested e ([c], []) t) = c :: nest e t.
Proof. unfold nest, finish. change [c] with ([c] ++ []). rewrite nested_top. cbn [fst snd]. now rewrite <- app_assoc. Qed.
Lemma open_after e c t : snd (nested e ([c], []) t) = snd (nested e ([], []) t).
Proof. change [c] with ([c] ++ []). now rewrite nested_top. Qed.

Definition opened (t : list prim) (e : bool) : bool := e || open_ t.
Lemma takes_nest t c t' e : takes t c t' e -> nest_ t = c :: nest_ t' /\ open_ t = opened t' e.
Proof.
  unfold opened. intros T. destruct e; cbn [takes] in T.
  - destruct T as (-> & st1 & N & W & F). unfold nest, still_open. rewrite F, app_nil_r. unfold finish. cbn [fst snd app]. rewrite W. split; [reflexivity|]. destruct st1; [congruence|reflexivity].
  - destruct T as (used & N & -> & F). unfold nest at 1, still_open at 1. rewrite nested_app, F. cbn [put app]. rewrite nest_after, open_after. auto.
Qed.
Lemma closing_nest p t : closing p = true -> nest_ (p :: t) = p :: nest_ t /\ open_ (p :: t) = open_ t.
Proof.
  intros C. assert (O : opens p = None) by (destruct p as [[]| |]; try discriminate C; reflexivity). unfold nest at 1, still_open at 1. rewrite nested_cons. unfold nstep. rewrite O. cbn [put app]. rewrite nest_after, open_after. auto.
Qed.

(** What [current] is, against what the list holds. *)
Definition head_is (p c : prim) : Prop := match opens p with None => c = p | Some g => exists w, c = made g w end.

Lemma first_value f s p t : at_ s (p :: t) -> no_eof (p :: t) -> (2 * List.length (p :: t) <= f)%nat ->
  exists c t' e s', consume_component_value f s = Val (c, s') /\ left_ s' t' e /\ nest_ (p :: t) = c :: nest_ t' /\ open_ (p :: t) = opened t' e /\ head_is p c /\ no_eof t' /\ (List.length t' < List.length (p :: t))%nat /\ c <> Tok Eof.
Proof.
  intros A N L. destruct (all_ok f) as (V & _ & _). destruct (V s p t A N L) as (c & t' & e & s' & E & Lf & T & T' & N' & Op & Sh & Ce & Mg). exists c, t', e, s'.
  assert (H : head_is p c) by (unfold head_is; destruct (opens p) as [g|]; [now apply Mg|now apply Op]).
  destruct (closing p) eqn:C.
  - destruct (T' eq_refl) as (-> & -> & ->). destruct (closing_nest p t C) as [A1 A2]. repeat split; auto.
  - destruct (takes_nest _ _ _ _ (T eq_refl)) as [A1 A2]. repeat split; auto.
Qed.
Lemma end_value f s t e : left_ s t e -> t = [] -> (1 <= f)%nat -> exists s', consume_component_value f s = Val (Tok Eof, s') /\ gone s'.
Proof.
  intros Lf -> F. destruct f as [|f]; [lia|]. exists (consume s). cbn [consume_component_value]. destruct e; [destruct Lf as [_ G]; apply consume_gone in G as (C & G & _)|apply consume_end in Lf as (C & G & _)]; rewrite C; auto.
Qed.
(** The block of a rule. *)
Lemma first_block f s t : at_ s (Tok OpenCurly :: t) -> no_eof (Tok OpenCurly :: t) -> (2 * List.length t + 1 <= f)%nat ->
  exists w t' e s', consume_simple_block f (consume s) = Val (0x7B, w, s') /\ left_ s' t' e /\ nest_ (Tok OpenCurly :: t) = Blk 0x7B w :: nest_ t' /\ open_ (Tok OpenCurly :: t) = opened t' e /\ no_eof t' /\ (List.length t' <= List.length t)%nat.
Proof.
  intros A N L. destruct (consume_at _ _ _ A) as (C & A1 & _ & _). assert (N1 : no_eof t) by now inversion N. destruct (all_ok f) as (_ & B & _).
  destruct (B (consume s) t 0x7B [] A1 N1 L) as (w & t' & e & s' & E & Lf & T & N' & Le). unfold consume_simple_block. rewrite E, C. exists w, t', e, s'.
  destruct (takes_nest _ _ _ _ (takes_group (Tok OpenCurly) (GBlk 0x7B) t w t' e eq_refl T)) as [A2 A3]. repeat split; auto.
Qed.

(** ** Lists of values *)

Lemma values_all f : forall s t e acc, left_ s t e -> no_eof t -> (2 * List.length t + 2 <= f)%nat -> values_loop f acc s = Val (acc ++ nest_ t).
Proof.
  induction f as [|f IH]; intros s t e acc Lf N L; [lia|]. cbn [values_loop]. destruct t as [|p t].
  - destruct (end_value f s [] e Lf eq_refl) as (s' & -> & _); [lia|]. cbn [pbind]. change (nest_ []) with (@nil prim). now rewrite app_nil_r.
  - assert (A : at_ s (p :: t)) by (destruct e; [destruct Lf; discriminate|exact Lf]). destruct (first_value f s p t A N) as (c & t' & e' & s' & E & Lf' & Ne & _ & _ & N' & Sh & Ce); [cbn [List.length] in *; lia|].
    rewrite E, Ne. cbn [pbind]. replace (match c with Tok Eof => Val acc | _ => values_loop f (acc ++ [c]) s' end) with (values_loop f (acc ++ [c]) s') by (destruct c as [[]| |]; congruence).
    rewrite (IH s' t' e') by (auto; cbn [List.length] in *; lia). now rewrite <- app_assoc.
Qed.

(** The pieces between commas. *)
Fixpoint commas (cur : list prim) (v : list prim) : list (list prim) :=
  match v with
  | [] => [cur]
  | Tok Comma :: r => cur :: commas [] r
  | c :: r => commas (cur ++ [c]) r
  end.
Lemma commas_all f : forall s t e ls v, left_ s t e -> no_eof t -> (2 * List.length t + 2 <= f)%nat -> comma_loop f ls v s = Val (ls ++ commas v (nest_ t)).
Proof.
  induction f as [|f IH]; intros s t e ls v Lf N L; [lia|]. cbn [comma_loop]. destruct t as [|p t].
  - destruct (end_value f s [] e Lf eq_refl) as (s' & -> & _); [lia|]. reflexivity.
  - assert (A : at_ s (p :: t)) by (destruct e; [destruct Lf; discriminate|exact Lf]). destruct (first_value f s p t A N) as (c & t' & e' & s' & E & Lf' & Ne & _ & _ & N' & Sh & Ce); [cbn [List.length] in *; lia|].
    rewrite E, Ne. cbn [pbind].
    assert (D : c = Tok Comma \/ (match c with Tok Eof => Val (ls ++ [v]) | Tok Comma => comma_loop f (ls ++ [v]) [] s' | _ => comma_loop f ls (v ++ [c]) s' end = comma_loop f ls (v ++ [c]) s' /\ commas v (c :: nest_ t') = commas (v ++ [c]) (nest_ t'))) by (destruct c as [[]| |]; try (now left); try (right; split; reflexivity); congruence).
    destruct D as [-> | [-> ->]]; [|apply (IH s' t' e'); auto; cbn [List.length] in *; lia].
    rewrite (IH s' t' e') by (auto; cbn [List.length] in *; lia). cbn [commas]. now rewrite <- app_assoc.
Qed.

(** * Rules *)

(** Up to a semicolon or a block in braces; or there is neither. *)
Fixpoint at_of (n : list Z) (pre v : list prim) : node * bool * list prim :=
  match v with
  | [] => (AtRule n pre None, true, [])
  | Tok Semicolon :: r => (AtRule n pre None, false, r)
  | c :: r => match c with
              | Blk o w => if o =? 0x7B then (AtRule n pre (Some (o, w)), false, r) else at_of n (pre ++ [c]) r
              | _ => at_of n (pre ++ [c]) r
              end
  end.
(** Up to a block in braces; without one there is no rule. *)
Fixpoint rule_of (pre v : list prim) : option node * list prim :=
  match v with
  | [] => (None, [])
  | c :: r => match c with
              | Blk o w => if o =? 0x7B then (Some (Rule pre (o, w)), r) else rule_of (pre ++ [c]) r
              | _ => rule_of (pre ++ [c]) r
              end
  end.
Inductive pending := PAt (n : list Z) (pre : list prim) | PRule (pre : list prim).
Fixpoint rules_of (pd : option pending) (v : list prim) : list node :=
  match v with
  | [] => match pd with Some (PAt n pre) => [AtRule n pre None] | _ => [] end
  | c :: r =>
      match pd, c with
      | None, Tok Whitespace | None, Tok CDO | None, Tok CDC => rules_of None r
      | None, Tok (AtKeyword n) => rules_of (Some (PAt n [])) r
      | Some (PAt n pre), Tok Semicolon => AtRule n pre None :: rules_of None r
      | Some (PAt n pre), Blk o w => if o =? 0x7B then AtRule n pre (Some (o, w)) :: rules_of None r else rules_of (Some (PAt n (pre ++ [c]))) r
      | Some (PAt n pre), _ => rules_of (Some (PAt n (pre ++ [c]))) r
      | Some (PRule pre), Blk o w => if o =? 0x7B then Rule pre (o, w) :: rules_of None r else rules_of (Some (PRule (pre ++ [c]))) r
      | Some (PRule pre), _ => rules_of (Some (PRule (pre ++ [c]))) r
      | None, Blk o w => if o =? 0x7B then Rule [] (o, w) :: rules_of None r else rules_of (Some (PRule [c])) r
      | None, _ => rules_of (Some (PRule [c])) r
      end
  end.
Lemma rules_at n v : forall pre, rules_of (Some (PAt n pre)) v = fst (fst (at_of n pre v)) :: rules_of None (snd (at_of n pre v)).
Proof. induction v as [|c v IH]; intros pre; [reflexivity|]. destruct c as [[]|?|o w]; cbn [rules_of at_of]; try apply IH; try reflexivity. destruct (o =? 0x7B); [reflexivity|apply IH]. Qed.
Lemma rules_rule v : forall pre, rules_of (Some (PRule pre)) v = add_node [] (fst (rule_of pre v)) ++ rules_of None (snd (rule_of pre v)).
Proof. induction v as [|c v IH]; intros pre; [reflexivity|]. destruct c as [[]|?|o w]; cbn [rules_of rule_of]; try apply IH; try reflexivity. destruct (o =? 0x7B); [reflexivity|apply IH]. Qed.

Ltac len := cbn [List.length] in *; lia.
Ltac ands := repeat match goal with |- _ /\ _ => split end.

Lemma left_end s e : left_ s [] e -> current (consume s) = Tok Eof /\ gone (consume s).
Proof. intros Lf. destruct e; [destruct Lf as [_ G]; apply consume_gone in G as (C & G & _)|apply consume_end in Lf as (C & G & _)]; auto. Qed.
Lemma left_more s p t e : left_ s (p :: t) e -> e = false /\ at_ s (p :: t).
Proof. intros Lf. destruct e; [destruct Lf; discriminate|auto]. Qed.
Lemma head_blk p c : head_is p c -> match c with Blk o w => p = Blk o w \/ (p = Tok OpenCurly /\ o = 0x7B) \/ (p = Tok OpenSquare /\ o = 0x5B) \/ (p = Tok OpenParen /\ o = 0x28) | Fun n w => p = Fun n w \/ p = Tok (Function n) | Tok t => p = Tok t end.
Proof. unfold head_is. destruct p as [[]| |]; cbn [opens]; intros H; try (rewrite H; auto; fail); destruct H as [w H]; cbn [made] in H; subst c; auto. Qed.

Lemma at_all f : forall s t e n pre, left_ s t e -> no_eof t -> (2 * List.length t + 2 <= f)%nat ->
  exists nd ed t' e' s', at_loop f n pre s = Val (nd, s') /\ left_ s' t' e' /\ at_of n pre (nest_ t) = (nd, ed, nest_ t') /\
    (if e' then t' = [] /\ ed || opened t e = true else ed = false /\ open_ t' = opened t e) /\ no_eof t' /\ (List.length t' <= List.length t)%nat.
Proof.
  induction f as [|f IH]; intros s t e n pre Lf N L; [lia|]. cbn [at_loop]. destruct t as [|p t].
  - destruct (left_end _ _ Lf) as [C G]. rewrite C. exists (AtRule n pre None), true, [], true, (consume s). ands; auto. now split.
  - destruct (left_more _ _ _ _ Lf) as [-> A]. destruct (consume_at _ _ _ A) as (C & A1 & Re & _). assert (N1 : no_eof t) by now inversion N. assert (Np : p <> Tok Eof) by now inversion N. rewrite C, Re.
    destruct (first_value f s p t A N) as (c & t1 & e1 & s1 & E & Lf1 & Ne & Op & Hd & N2 & Sh & Ce); [len|].
    assert (M : (forall o w, c = Blk o w -> o =? 0x7B = false) -> c <> Tok Semicolon -> exists nd ed t' e' s', pbind (consume_component_value f s) (fun '(c, s) => at_loop f n (pre ++ [c]) s) = Val (nd, s') /\ left_ s' t' e' /\ at_of n pre (nest_ (p :: t)) = (nd, ed, nest_ t') /\
      (if e' then t' = [] /\ ed || opened (p :: t) false = true else ed = false /\ open_ t' = opened (p :: t) false) /\ no_eof t' /\ (List.length t' <= List.length (p :: t))%nat).
    { intros Nb Ns. rewrite E, Ne. cbn [pbind]. destruct (IH s1 t1 e1 n (pre ++ [c]) Lf1 N2) as (nd & ed & t2 & e2 & s2 & E2 & L2 & O2 & Q2 & N3 & Le2); [len|].
      exists nd, ed, t2, e2, s2. rewrite E2. split; [reflexivity|]. split; [exact L2|]. split.
      - rewrite <- O2. destruct c as [[]|?|o w]; cbn [at_of]; try reflexivity; try congruence. now rewrite (Nb o w eq_refl).
      - unfold opened at 1 2. cbn [orb]. rewrite Op. split; [exact Q2|]. split; [exact N3|]. len. }
    apply head_blk in Hd.
    destruct p as [k|n0 w0|o0 w0].
    + destruct k; try (apply M; [intros o w ->; destruct Hd as [Hd|[[Hd _]|[[Hd _]|[Hd _]]]]; discriminate Hd|intros ->; discriminate Hd]).
      all: try (apply M; [intros o w ->; destruct Hd as [Hd|[[Hd Ho]|[[Hd Ho]|[Hd Ho]]]]; try discriminate Hd; rewrite Ho; reflexivity|intros ->; discriminate Hd]).
      * exists (AtRule n pre None), false, t, false, (consume s). split; [reflexivity|]. split; [exact A1|].
        destruct (takes_nest (Tok Semicolon :: t) (Tok Semicolon) t false) as [X Y]; [apply takes_plain; [reflexivity|intros []; reflexivity]|]. rewrite X. split; [reflexivity|]. unfold opened in *. cbn [orb] in *. rewrite Y. ands; auto; len.
      * destruct (first_block f s t A N) as (w & t2 & e2 & s2 & E2 & L2 & Ne2 & Op2 & N3 & Le); [len|]. rewrite E2. cbn [pbind]. exists (AtRule n pre (Some (0x7B, w))), false, t2, e2, s2. split; [reflexivity|]. split; [exact L2|]. rewrite Ne2. split; [reflexivity|].
        unfold opened at 1 2. cbn [orb]. rewrite Op2. unfold opened. destruct e2; [destruct L2 as [-> _]|]; ands; auto; len.
      * congruence.
    + apply M; [intros o w ->; destruct Hd as [Hd|[[Hd _]|[[Hd _]|[Hd _]]]]; discriminate Hd|intros ->; discriminate Hd].
    + destruct (o0 =? 0x7B) eqn:Eo; [|apply M; [intros o w ->; destruct Hd as [Hd|[[Hd _]|[[Hd _]|[Hd _]]]]; try discriminate Hd; congruence|intros ->; discriminate Hd]].
      exists (AtRule n pre (Some (o0, w0))), false, t, false, (consume s). split; [reflexivity|]. split; [exact A1|].
      destruct (takes_nest (Blk o0 w0 :: t) (Blk o0 w0) t false) as [X Y]; [apply takes_plain; [reflexivity|intros []; reflexivity]|]. rewrite X. cbn [at_of]. rewrite Eo. split; [reflexivity|]. unfold opened in *. cbn [orb] in *. rewrite Y. ands; auto; len.
Qed.

Lemma qualified_all f : forall s t e pre, left_ s t e -> no_eof t -> (2 * List.length t + 2 <= f)%nat ->
  exists nd t' e' s', qualified_loop f pre s = Val (nd, s') /\ left_ s' t' e' /\ rule_of pre (nest_ t) = (nd, nest_ t') /\
    (if e' then t' = [] /\ (nd = None \/ opened t e = true) else nd <> None /\ open_ t' = opened t e) /\ no_eof t' /\ (List.length t' <= List.length t)%nat /\ (t <> [] -> (List.length t' < List.length t)%nat).
Proof.
  induction f as [|f IH]; intros s t e pre Lf N L; [lia|]. cbn [qualified_loop]. destruct t as [|p t].
  - destruct (left_end _ _ Lf) as [C G]. rewrite C. exists None, [], true, (consume s). ands; auto; [now split|congruence].
  - destruct (left_more _ _ _ _ Lf) as [-> A]. destruct (consume_at _ _ _ A) as (C & A1 & Re & _). assert (N1 : no_eof t) by now inversion N. assert (Np : p <> Tok Eof) by now inversion N. rewrite C, Re.
    destruct (first_value f s p t A N) as (c & t1 & e1 & s1 & E & Lf1 & Ne & Op & Hd & N2 & Sh & Ce); [len|].
    assert (M : (forall o w, c = Blk o w -> o =? 0x7B = false) -> exists nd t' e' s', pbind (consume_component_value f s) (fun '(c, s) => qualified_loop f (pre ++ [c]) s) = Val (nd, s') /\ left_ s' t' e' /\ rule_of pre (nest_ (p :: t)) = (nd, nest_ t') /\
      (if e' then t' = [] /\ (nd = None \/ opened (p :: t) false = true) else nd <> None /\ open_ t' = opened (p :: t) false) /\ no_eof t' /\ (List.length t' <= List.length (p :: t))%nat /\ (p :: t <> [] -> (List.length t' < List.length (p :: t))%nat)).
    { intros Nb. rewrite E, Ne. cbn [pbind]. destruct (IH s1 t1 e1 (pre ++ [c]) Lf1 N2) as (nd & t2 & e2 & s2 & E2 & L2 & O2 & Q2 & N3 & Le2 & _); [len|].
      exists nd, t2, e2, s2. rewrite E2. split; [reflexivity|]. split; [exact L2|]. split.
      - rewrite <- O2. destruct c as [|?|o w]; cbn [rule_of]; try reflexivity. now rewrite (Nb o w eq_refl).
      - unfold opened at 1 2. cbn [orb]. rewrite Op. split; [exact Q2|]. split; [exact N3|]. split; [len|intros _; len]. }
    apply head_blk in Hd.
    destruct p as [k|n0 w0|o0 w0].
    + destruct k; try (apply M; intros o w ->; destruct Hd as [Hd|[[Hd Ho]|[[Hd Ho]|[Hd Ho]]]]; try discriminate Hd; rewrite Ho; reflexivity).
      * destruct (first_block f s t A N) as (w & t2 & e2 & s2 & E2 & L2 & Ne2 & Op2 & N3 & Le); [len|]. rewrite E2. cbn [pbind]. exists (Some (Rule pre (0x7B, w))), t2, e2, s2. split; [reflexivity|]. split; [exact L2|]. rewrite Ne2. split; [reflexivity|].
        unfold opened at 1 2. cbn [orb]. rewrite Op2. unfold opened. destruct e2; [destruct L2 as [-> _]|]; ands; auto; try len; discriminate.
      * congruence.
    + apply M. intros o w ->. destruct Hd as [Hd|[[Hd _]|[[Hd _]|[Hd _]]]]; discriminate Hd.
    + destruct (o0 =? 0x7B) eqn:Eo; [|apply M; intros o w ->; destruct Hd as [Hd|[[Hd _]|[[Hd _]|[Hd _]]]]; try discriminate Hd; congruence].
      exists (Some (Rule pre (o0, w0))), t, false, (consume s). split; [reflexivity|]. split; [exact A1|].
      destruct (takes_nest (Blk o0 w0 :: t) (Blk o0 w0) t false) as [X Y]; [apply takes_plain; [reflexivity|intros []; reflexivity]|]. rewrite X. cbn [rule_of]. rewrite Eo. split; [reflexivity|]. unfold opened in *. cbn [orb] in *. rewrite Y. ands; auto; try len; discriminate.
Qed.

Lemma nest_plain p t : opens p = None -> (forall g, ends_any g p = false) -> nest_ (p :: t) = p :: nest_ t /\ open_ (p :: t) = open_ t.
Proof. intros O E. exact (takes_nest (p :: t) p t false (takes_plain p t O E)). Qed.

Lemma rules_all f : forall s t e rs, left_ s t e -> no_eof t -> (2 * List.length t + 3 <= f)%nat -> rules_loop f true rs s = Val (rs ++ rules_of None (nest_ t)).
Proof.
  induction f as [|f IH]; intros s t e rs Lf N L; [lia|]. cbn [rules_loop]. destruct t as [|p t].
  - destruct (left_end _ _ Lf) as [C G]. rewrite C. change (nest_ []) with (@nil prim). cbn [rules_of]. now rewrite app_nil_r.
  - destruct (left_more _ _ _ _ Lf) as [-> A]. destruct (consume_at _ _ _ A) as (C & A1 & Re & _). assert (N1 : no_eof t) by now inversion N. assert (Np : p <> Tok Eof) by now inversion N. rewrite C, Re.
    assert (M : rules_of None (nest_ (p :: t)) = rules_of (Some (PRule [])) (nest_ (p :: t)) -> pbind (consume_qualified_rule f s) (fun '(r, s) => rules_loop f true (add_node rs r) s) = Val (rs ++ rules_of None (nest_ (p :: t)))).
    { intros ->. unfold consume_qualified_rule. destruct (qualified_all f s (p :: t) false [] A N) as (nd & t' & e' & s' & E & L' & O' & _ & N' & _ & Le); [len|]. specialize (Le ltac:(discriminate)). rewrite E. cbn [pbind]. rewrite (IH s' t' e') by (auto; len). rewrite rules_rule, O'. cbn [fst snd]. destruct nd; cbn [add_node app]; [now rewrite <- app_assoc|reflexivity]. }
    destruct (first_value f s p t A N) as (c & t1 & e1 & s1 & _ & _ & Ne & _ & Hd & _ & _ & Ce); [len|]. apply head_blk in Hd.
    assert (M' : (forall k, c = Tok k -> match k with Whitespace | CDO | CDC | AtKeyword _ => False | _ => True end) -> rules_of None (nest_ (p :: t)) = rules_of (Some (PRule [])) (nest_ (p :: t))).
    { intros H. rewrite Ne. destruct c as [k|n w|o w]; [|reflexivity|reflexivity]. specialize (H k eq_refl). destruct k; try reflexivity; destruct H. }
    destruct p as [k|n0 w0|o0 w0]; [|apply M, M'; intros k ->; discriminate Hd|apply M, M'; intros k ->; discriminate Hd].
    destruct k; try (apply M, M'; intros k ->; injection Hd as <-; exact I); try congruence.
    2, 3, 4: match goal with |- _ = Val (_ ++ rules_of None (nest_ (?q :: _))) => destruct (nest_plain q t eq_refl ltac:(intros []; reflexivity)) as [-> _]; cbn [rules_of]; apply (IH (consume s) t false); auto; len end.
    unfold consume_at_rule. rewrite C. destruct (at_all f (consume s) t false s0 [] A1 N1) as (nd & ed & t' & e' & s' & E & L' & O' & _ & N' & Le); [len|]. rewrite E. cbn [pbind]. rewrite (IH s' t' e') by (auto; len).
    destruct (nest_plain (Tok (AtKeyword s0)) t eq_refl ltac:(intros []; reflexivity)) as [-> _]. cbn [rules_of]. rewrite rules_at, O'. cbn [fst snd]. now rewrite <- app_assoc.
Qed.

(** * White space *)

Fixpoint drop_ws (v : list prim) : list prim := match v with Tok Whitespace :: r => drop_ws r | _ => v end.
Definition all_ws (v : list prim) : bool := match drop_ws v with [] => true | _ => false end.
Lemma ws_dec p : {p = Tok Whitespace} + {p <> Tok Whitespace}.
Proof. destruct p as [[]| |]; try (now left); right; discriminate. Qed.
Lemma drop_ws_other p t : p <> Tok Whitespace -> drop_ws (p :: t) = p :: t.
Proof. intros N. destruct p as [[]| |]; try reflexivity. congruence. Qed.
Lemma drop_ws_length t : (List.length (drop_ws t) <= List.length t)%nat.
Proof. induction t as [|p t IH]; [reflexivity|]. destruct (ws_dec p) as [-> | N]; [cbn [drop_ws]; len|]. now rewrite drop_ws_other. Qed.
Lemma drop_ws_head t p r : drop_ws t = p :: r -> p <> Tok Whitespace.
Proof. induction t as [|q t IH]; [discriminate|]. destruct (ws_dec q) as [-> | N]; [exact IH|]. rewrite drop_ws_other by exact N. now intros [= -> _]. Qed.
Lemma drop_ws_eof t : no_eof t -> no_eof (drop_ws t).
Proof. induction t as [|q t IH]; intros N; [exact N|]. destruct (ws_dec q) as [-> | H]; [apply IH; now inversion N|]. now rewrite drop_ws_other. Qed.

Lemma nest_head p t : no_eof (p :: t) -> exists c t', nest_ (p :: t) = c :: nest_ t' /\ head_is p c /\ no_eof t' /\ c <> Tok Eof.
Proof.
  intros N. destruct (first_value _ (token_stream (p :: t)) p t (token_stream_at _) N (le_n _)) as (c & t1 & e1 & s1 & _ & _ & Ne & _ & Hd & N1 & _ & Ce). exists c, t1. auto.
Qed.
Lemma nest_nil t : no_eof t -> nest_ t = [] -> t = [].
Proof. intros N H. destruct t as [|p t]; [reflexivity|]. destruct (nest_head p t N) as (c & t' & E & _). rewrite E in H. discriminate H. Qed.
Lemma nest_ws t : nest_ (Tok Whitespace :: t) = Tok Whitespace :: nest_ t /\ open_ (Tok Whitespace :: t) = open_ t.
Proof. apply nest_plain; [reflexivity|intros []; reflexivity]. Qed.
Lemma nest_drop t : no_eof t -> nest_ (drop_ws t) = drop_ws (nest_ t) /\ open_ (drop_ws t) = open_ t.
Proof.
  induction t as [|p t IH]; intros N; [auto|]. destruct (ws_dec p) as [-> | H].
  - cbn [drop_ws]. destruct (nest_ws t) as [-> ->]. cbn [drop_ws]. apply IH. now inversion N.
  - rewrite drop_ws_other by exact H. split; [|reflexivity]. destruct (nest_head p t N) as (c & t' & E & Hd & _). rewrite E. symmetry. apply drop_ws_other. apply head_blk in Hd. intros ->. congruence.
Qed.

Lemma skip_all f : forall s t, at_ s t -> no_eof t -> (List.length t < f)%nat -> exists s', skip_whitespace f s = Val s' /\ at_ s' (drop_ws t).
Proof.
  induction f as [|f IH]; intros s t A N L; [lia|]. cbn [skip_whitespace]. destruct t as [|p t].
  - pose proof (consume_end _ A) as (_ & _ & X). rewrite X. cbn [pbind]. exists s. auto.
  - destruct (consume_at _ _ _ A) as (_ & A1 & _ & X). rewrite X. cbn [pbind]. destruct (ws_dec p) as [-> | H].
    + cbn [drop_ws]. apply IH; [exact A1|now inversion N|len].
    + exists s. rewrite drop_ws_other by exact H. split; [|exact A]. destruct p as [[]| |]; try reflexivity. congruence.
Qed.
Lemma skip_gone f s : gone s -> (1 <= f)%nat -> skip_whitespace f s = Bad.
Proof. intros G L. destruct f as [|f]; [lia|]. cbn [skip_whitespace]. apply consume_gone in G as (_ & _ & ->). reflexivity. Qed.

(** ** The end of a rule or of a value *)

(** What follows must be white space. When nothing follows and the end has been read ([e]), the next token is asked for once more. *)
Definition last_one {A : Type} (e : bool) (r : list prim) (x : A) : outcome (option A) :=
  match r with [] => if e then Bad else Val (Some x) | _ => Val (if all_ws r then Some x else None) end.
Lemma rest_all {U : Type} f s t e (x : U) : left_ s t e -> no_eof t -> (List.length t < f)%nat ->
  pbind (skip_whitespace f s) (fun s => pbind (next s) (fun p => match p with Tok Eof => Val (Some x) | _ => Val None end)) = last_one e (nest_ t) x.
Proof.
  intros Lf N L. destruct e.
  - destruct Lf as [-> G]. rewrite skip_gone by (auto; lia). reflexivity.
  - destruct (skip_all f s t Lf N L) as (s' & E & A). rewrite E. cbn [pbind]. destruct (nest_drop t N) as [D _]. pose proof (drop_ws_eof t N) as N'.
    destruct (drop_ws t) as [|p r] eqn:Et.
    + pose proof (consume_end _ A) as (_ & _ & X). rewrite X. cbn [pbind]. change (nest_ []) with (@nil prim) in D. unfold last_one. destruct (nest_ t) as [|c v] eqn:En; [reflexivity|]. unfold all_ws. now rewrite <- D.
    + destruct (consume_at _ _ _ A) as (_ & _ & _ & X). rewrite X. cbn [pbind]. destruct (nest_head p r N') as (c & t' & Ec & _ & _ & _). rewrite Ec in D.
      replace (last_one false (nest_ t) x) with (@Val (option U) None) by (unfold last_one, all_ws; destruct (nest_ t); [discriminate D|]; now rewrite <- D).
      assert (p <> Tok Eof) by now inversion N'. destruct p as [[]| |]; try reflexivity. congruence.
Qed.

Definition value_of (opn : bool) (v : list prim) : outcome (option prim) := match drop_ws v with [] => Val None | c :: r => last_one opn r c end.
Lemma value_all f t : no_eof t -> (2 * List.length t + 2 <= f)%nat -> parse_component_value f t = value_of (open_ t) (nest_ t).
Proof.
  intros N L. unfold parse_component_value, value_of. destruct (skip_all f (token_stream t) t (token_stream_at t) N) as (s & E & A); [lia|]. rewrite E. cbn [pbind].
  destruct (nest_drop t N) as [D O]. pose proof (drop_ws_eof t N) as N'. pose proof (drop_ws_length t) as Ln. destruct (drop_ws t) as [|p r].
  - pose proof (consume_end _ A) as (_ & _ & X). rewrite X, <- D. reflexivity.
  - destruct (consume_at _ _ _ A) as (_ & _ & _ & X). rewrite X. cbn [pbind]. assert (Np : p <> Tok Eof) by now inversion N'.
    destruct (first_value f s p r A N') as (c & t1 & e1 & s1 & E1 & L1 & Ne & Op & _ & N1 & Sh & _); [len|]. rewrite <- D, Ne, <- O, Op.
    assert (R : last_one (opened t1 e1) (nest_ t1) c = last_one e1 (nest_ t1) c).
    { unfold last_one. destruct (nest_ t1) eqn:Et; [|reflexivity]. rewrite (nest_nil t1 N1 Et). unfold opened. destruct e1; reflexivity. }
    rewrite R, <- (rest_all f s1 t1 e1 c L1 N1) by len. rewrite E1. cbn [pbind]. destruct p as [[]| |]; try reflexivity. congruence.
Qed.

Definition one_rule (opn : bool) (v : list prim) : outcome (option node) :=
  match drop_ws v with
  | [] => Val None
  | Tok (AtKeyword n) :: r => let '(nd, ended, r') := at_of n [] r in last_one (ended || opn) r' nd
  | v' => match rule_of [] v' with (None, _) => Val None | (Some nd, r') => last_one opn r' nd end
  end.
Lemma rule_all f t : no_eof t -> (2 * List.length t + 2 <= f)%nat -> parse_rule f t = one_rule (open_ t) (nest_ t).
Proof.
  intros N L. unfold parse_rule, one_rule. destruct (skip_all f (token_stream t) t (token_stream_at t) N) as (s & E & A); [lia|]. rewrite E. cbn [pbind].
  destruct (nest_drop t N) as [D O]. pose proof (drop_ws_eof t N) as N'. pose proof (drop_ws_length t) as Ln. destruct (drop_ws t) as [|p r].
  - pose proof (consume_end _ A) as (_ & _ & X). rewrite X, <- D. reflexivity.
  - destruct (consume_at _ _ _ A) as (C & A1 & _ & X). rewrite X. cbn [pbind]. assert (Np : p <> Tok Eof) by now inversion N'. assert (N1 : no_eof r) by now inversion N'. rewrite <- D, <- O.
    assert (AT : (exists n, p = Tok (AtKeyword n)) \/ forall n, p <> Tok (AtKeyword n)) by (destruct p as [[]| |]; try (right; discriminate); left; eexists; reflexivity).
    destruct AT as [(n & ->)|NA].
    + destruct (nest_plain (Tok (AtKeyword n)) r eq_refl ltac:(intros []; reflexivity)) as [-> ->]. unfold consume_at_rule. rewrite C.
      destruct (at_all f (consume s) r false n [] A1 N1) as (nd & ed & t1 & e1 & s1 & E1 & L1 & O1 & Q1 & N2 & Le); [len|]. rewrite E1. cbn [pbind]. rewrite O1.
      assert (R : last_one (ed || open_ r) (nest_ t1) nd = last_one e1 (nest_ t1) nd).
      { unfold last_one. destruct (nest_ t1) eqn:Et; [|reflexivity]. unfold opened in Q1. cbn [orb] in Q1. destruct e1; destruct Q1 as [Qa Qb]; [now rewrite Qb|]. rewrite (nest_nil t1 N2 Et) in Qb. change (open_ []) with false in Qb. now rewrite Qa, <- Qb. }
      rewrite R. apply rest_all; auto. len.
    + destruct (qualified_all f s (p :: r) false [] A N') as (nd & t1 & e1 & s1 & E1 & L1 & O1 & Q1 & N2 & Le & _); [len|].
      destruct (nest_head p r N') as (c & t2 & Ec & Hd & _ & _). apply head_blk in Hd.
      assert (H : forall (T : Type) (x y : T), match p with Tok (AtKeyword _) => x | _ => y end = y) by (intros T x y; destruct p as [[]| |]; try reflexivity; edestruct NA; reflexivity).
      transitivity (match nd with None => Val None | Some nd => last_one (open_ (p :: r)) (nest_ t1) nd end).
      * assert (X1 : pbind (consume_qualified_rule f s) (fun '(r, s) => match r with None => Val None | Some r => pbind (skip_whitespace f s) (fun s => pbind (next s) (fun p => match p with Tok Eof => Val (Some r) | _ => Val None end)) end) = match nd with None => Val None | Some nd => last_one (open_ (p :: r)) (nest_ t1) nd end).
        { unfold consume_qualified_rule. rewrite E1. cbn [pbind]. destruct nd as [nd|]; [|reflexivity]. rewrite (rest_all f s1 t1 e1 nd L1 N2) by len. unfold last_one. destruct (nest_ t1) eqn:Et; [|reflexivity].
          unfold opened in Q1. cbn [orb] in Q1. destruct e1; destruct Q1 as [Qa Qb]; [destruct Qb as [Qb|Qb]; [discriminate Qb|now rewrite Qb]|]. rewrite (nest_nil t1 N2 Et) in Qb. change (open_ []) with false in Qb. now rewrite <- Qb. }
        rewrite <- X1. destruct p as [[]| |]; try reflexivity; [exfalso; eapply NA; reflexivity|congruence].
      * assert (Nc : forall n, c <> Tok (AtKeyword n)) by (intros n ->; congruence). rewrite Ec in *.
        transitivity (match rule_of [] (c :: nest_ t2) with (None, _) => Val None | (Some nd, r') => last_one (open_ (p :: r)) r' nd end); [rewrite O1; now destruct nd|]. destruct c as [[]| |]; try reflexivity. edestruct Nc; reflexivity.
Qed.

(** * Values that are nested already *)

Definition flat_top (v : list prim) : Prop := Forall (fun c => opens c = None /\ c <> Tok Eof) v.
Lemma nested_flat e v : Forall (fun c => opens c = None) v -> forall top, nested e (top, []) v = (top ++ v, []).
Proof. induction 1 as [|p v H _ IH]; intros top; [cbn; now rewrite app_nil_r|]. rewrite nested_cons. unfold nstep. rewrite H. cbn [put]. now rewrite IH, <- app_assoc. Qed.
Lemma nest_flat e v : Forall (fun c => opens c = None) v -> nest e v = v /\ still_open e v = false.
Proof. intros F. unfold nest, still_open. rewrite nested_flat by exact F. cbn [app snd]. unfold finish. cbn [fst snd wrap]. now rewrite app_nil_r. Qed.
Lemma opens_made g w : opens (made g w) = None.
Proof. destruct g; reflexivity. Qed.
Lemma nested_heads e t : forall top st, Forall (fun c => opens c = None) top -> Forall (fun c => opens c = None) (fst (nested e (top, st) t)).
Proof.
  induction t as [|p t IH]; intros top st F; [exact F|]. rewrite nested_cons. unfold nstep. destruct (opens p) eqn:O; [now apply IH|].
  assert (P : forall c st, opens c = None -> Forall (fun c => opens c = None) (fst (put c (top, st)))) by (intros c [|[g w] st0] Oc; cbn [put fst]; [apply Forall_app; auto|exact F]).
  destruct st as [|[g w] st]; [|destruct (e g p)].
  - rewrite (surjective_pairing (put p (top, []))). apply IH, P, O.
  - rewrite (surjective_pairing (put (made g w) (top, st))). apply IH, P, opens_made.
  - rewrite (surjective_pairing (put p (top, (g, w) :: st))). apply IH, P, O.
Qed.
Lemma wrap_heads st : forall i, Forall (fun c => opens c = None) i -> Forall (fun c => opens c = None) (wrap st i).
Proof. induction st as [|[g w] st IH]; intros i F; [exact F|]. cbn [wrap]. apply IH. constructor; [apply opens_made|constructor]. Qed.
Lemma nest_heads e t : Forall (fun c => opens c = None) (nest e t).
Proof. unfold nest, finish. apply Forall_app. split; [apply nested_heads; constructor|apply wrap_heads; constructor]. Qed.
Lemma nest_no_eof t : forall n, (List.length t <= n)%nat -> no_eof t -> no_eof (nest_ t).
Proof.
  intros n. revert t. induction n as [|n IH]; intros [|p t] L N; try len; try constructor.
  destruct (first_value _ (token_stream (p :: t)) p t (token_stream_at _) N (le_n _)) as (c & t1 & e1 & s1 & _ & _ & Ne & _ & _ & N1 & Sh & Ce). rewrite Ne. constructor; [exact Ce|]. apply IH; [len|exact N1].
Qed.

(** * Declarations *)

Fixpoint same_text (a b : list Z) : bool := match a, b with [], [] => true | x :: a, y :: b => (x =? y) && same_text a b | _, _ => false end.
Definition low (c : Z) : Z := let c := c mod 2 ^ 32 in if (0x41 <=? c) && (c <=? 0x5A) then c + 0x20 else c.
Definition says_important (s : list Z) : bool := same_text (map low s) [0x69; 0x6D; 0x70; 0x6F; 0x72; 0x74; 0x61; 0x6E; 0x74].
Lemma match_eq a : forall b, is_ascii_case_insensitive_match utf32 utf32 a b = Some (same_text (map low a) (map low b)).
Proof.
  unfold is_ascii_case_insensitive_match. induction a as [|x a IH]; intros [|y b]; try reflexivity. cbn [List.length ci_match map same_text].
  change (c_dec utf32) with utf32_to_code_point. cbn [utf32_to_code_point]. change (cp_lower (x mod 2 ^ 32)) with (low x). change (cp_lower (y mod 2 ^ 32)) with (low y).
  destruct (low x =? low y); cbn [andb]; [apply IH|reflexivity].
Qed.

(** The value after the colon, from its end: an exclamation mark and [important] are taken off. [None] where the text is only [important], or
    nothing. *)
Definition declared (n : list Z) (v : list prim) : option node :=
  match drop_ws (rev v) with
  | [] => None
  | Tok (Ident s) :: r =>
      if says_important s then
        match drop_ws r with
        | [] => None
        | Tok (Delim c) :: r' => Some (if c =? 0x21 then Decl n (rev (drop_ws r')) true else Decl n (rev (drop_ws (rev v))) false)
        | _ => Some (Decl n (rev (drop_ws (rev v))) false)
        end
      else Some (Decl n (rev (drop_ws (rev v))) false)
  | _ => Some (Decl n (rev (drop_ws (rev v))) false)
  end.

Lemma pop_rev v : pop_whitespace v = rev (drop_ws (rev v)).
Proof.
  induction v as [|p v IH]; [reflexivity|]. cbn [pop_whitespace rev]. rewrite IH. clear IH.
  assert (D : forall a, drop_ws (a ++ [p]) = match drop_ws a with [] => drop_ws [p] | x => x ++ [p] end).
  { induction a as [|q a IHa]; [reflexivity|]. destruct (ws_dec q) as [-> | N]; [exact IHa|]. cbn [app]. now rewrite !drop_ws_other by exact N. }
  rewrite D. destruct (drop_ws (rev v)) as [|q r].
  - cbn [rev]. destruct (ws_dec p) as [-> | N]; [reflexivity|]. rewrite drop_ws_other by exact N. destruct p as [[]| |]; try reflexivity; congruence.
  - rewrite rev_app_distr. cbn [rev app]. destruct (rev r ++ [q]) eqn:X; [destruct (rev r); discriminate X|]. reflexivity.
Qed.

(** The loop from the end is a recursion over the reversed list. *)
Fixpoint imp_rev (st : bool) (r : list prim) : outcome (option (list prim)) :=
  match r with
  | [] => Bad
  | Tok Whitespace :: r => imp_rev st r
  | Tok (Ident s) :: r => if st then Val None else if says_important s then imp_rev true r else Val None
  | Tok (Delim c) :: r => if st && (c =? 0x21) then Val (Some (rev r)) else Val None
  | _ :: r => Val None
  end.
Lemma important_rev v : forall w st, important_loop (List.length v) st (v ++ w) = imp_rev st (rev v).
Proof.
  induction v as [|p v IH] using rev_ind; intros w st; [reflexivity|]. rewrite app_length, rev_app_distr. cbn [List.length rev app]. rewrite Nat.add_1_r. cbn [important_loop].
  rewrite <- app_assoc. cbn [app]. rewrite app_nth2, Nat.sub_diag by lia. cbn [nth].
  assert (X : forall s, pbind (popt (is_ascii_case_insensitive_match utf32 utf32 s important)) (fun b => if b then important_loop (List.length v) true (v ++ p :: w) else Val None) = if says_important s then imp_rev true (rev v) else Val None).
  { intros s. rewrite match_eq. cbn [popt pbind]. change (same_text (map low s) (map low important)) with (says_important s). now rewrite IH. }
  destruct p as [[]| |]; cbn [imp_rev]; try reflexivity.
  - rewrite X. reflexivity.
  - rewrite firstn_app, firstn_all, Nat.sub_diag. cbn [firstn]. now rewrite app_nil_r, rev_involutive.
  - apply IH.
Qed.
Lemma process_all n v : pbind (process_important v) (fun r => match r with Some v => Val (Some (Decl n (pop_whitespace v) true)) | None => Val (Some (Decl n (pop_whitespace v) false)) end)
  = match declared n v with Some d => Val (Some d) | None => Bad end.
Proof.
  unfold process_important, declared. rewrite <- (app_nil_r v) at 2. rewrite important_rev, (pop_rev v).
  assert (W : forall st r, imp_rev st r = imp_rev st (drop_ws r)).
  { intros st r. induction r as [|p r IH]; [reflexivity|]. destruct (ws_dec p) as [-> | N]; [exact IH|]. now rewrite drop_ws_other. }
  rewrite W. destruct (drop_ws (rev v)) as [|p r] eqn:D1; [reflexivity|]. apply drop_ws_head in D1. destruct p as [[]| |]; try reflexivity; [|congruence].
  cbn [imp_rev]. destruct (says_important s); [|reflexivity]. rewrite W. destruct (drop_ws r) as [|q r'] eqn:D2; [reflexivity|]. apply drop_ws_head in D2. destruct q as [[]| |]; try reflexivity; [|congruence].
  cbn [imp_rev andb]. destruct (c =? 0x21); [|reflexivity]. cbn [pbind]. now rewrite pop_rev, rev_involutive.
Qed.

Lemma values_end f : forall s t e acc, left_ s t e -> no_eof t -> (2 * List.length t + 1 <= f)%nat -> value_loop f acc s = if opened t e then Bad else Val (acc ++ nest_ t).
Proof.
  induction f as [|f IH]; intros s t e acc Lf N L; [lia|]. cbn [value_loop]. destruct t as [|p t].
  - destruct e; [destruct Lf as [_ G]; apply consume_gone in G as (_ & _ & X)|pose proof (consume_end _ Lf) as (_ & _ & X)]; rewrite X; [reflexivity|]. cbn [pbind]. unfold opened. cbn. now rewrite app_nil_r.
  - destruct (left_more _ _ _ _ Lf) as [-> A]. destruct (consume_at _ _ _ A) as (_ & _ & _ & X). rewrite X. cbn [pbind]. assert (Np : p <> Tok Eof) by now inversion N.
    destruct (first_value f s p t A N) as (c & t1 & e1 & s1 & E & L1 & Ne & Op & _ & N1 & Sh & _); [len|]. rewrite Ne. unfold opened. cbn [orb]. rewrite Op.
    transitivity (pbind (consume_component_value f s) (fun '(c, s) => value_loop f (acc ++ [c]) s)); [destruct p as [[]| |]; try reflexivity; congruence|].
    rewrite E. cbn [pbind]. rewrite (IH s1 t1 e1) by (auto; len). now rewrite <- app_assoc.
Qed.

(** What is declared by an identifier and the values after it. *)
Definition decl_of (opn : bool) (n : list Z) (v : list prim) : outcome (option node) :=
  match drop_ws v with
  | Tok Colon :: r => if opn then Bad else match declared n (drop_ws r) with Some d => Val (Some d) | None => Bad end
  | _ => Val None
  end.
Lemma declaration_all f s n t : at_ s (Tok (Ident n) :: t) -> no_eof t -> (2 * List.length t + 3 <= f)%nat -> consume_declaration f s = decl_of (open_ t) n (nest_ t).
Proof.
  intros A N L. unfold consume_declaration, decl_of. destruct (consume_at _ _ _ A) as (C & A1 & _ & _). rewrite C. destruct (skip_all f (consume s) t A1 N) as (s1 & E1 & A2); [lia|]. rewrite E1. cbn [pbind].
  destruct (nest_drop t N) as [D O]. pose proof (drop_ws_eof t N) as N'. pose proof (drop_ws_length t) as Ln. rewrite <- D, <- O. destruct (drop_ws t) as [|p r].
  - pose proof (consume_end _ A2) as (_ & _ & X). rewrite X. reflexivity.
  - destruct (consume_at _ _ _ A2) as (_ & A3 & _ & X). rewrite X. cbn [pbind].
    assert (CO : p = Tok Colon \/ p <> Tok Colon) by (destruct p as [[]| |]; try (now left); right; discriminate). destruct CO as [-> | NC].
    + destruct (nest_plain (Tok Colon) r eq_refl ltac:(intros []; reflexivity)) as [-> ->]. assert (N1 : no_eof r) by now inversion N'.
      destruct (skip_all f (consume s1) r A3 N1) as (s2 & E2 & A4); [len|]. rewrite E2. cbn [pbind]. destruct (nest_drop r N1) as [D1 O1]. pose proof (drop_ws_length r).
      rewrite (values_end f s2 (drop_ws r) false [] A4 (drop_ws_eof r N1)) by len. rewrite D1. unfold opened. cbn [orb app]. rewrite O1. destruct (open_ r); [reflexivity|]. cbn [pbind]. apply process_all.
    + destruct (nest_head p r N') as (c & t2 & Ec & Hd & _ & _). apply head_blk in Hd. rewrite Ec. assert (Nc : c <> Tok Colon) by (intros ->; congruence).
      transitivity (@Val (option node) None); [destruct p as [[]| |]; try reflexivity; congruence|destruct c as [[]| |]; try reflexivity; congruence].
Qed.
Definition one_declaration (opn : bool) (v : list prim) : outcome (option node) :=
  match drop_ws v with
  | Tok (Ident n) :: r => decl_of opn n r
  | _ => Val (Some (Decl [] [] false))
  end.
Lemma parse_declaration_all f t : no_eof t -> (2 * List.length t + 1 <= f)%nat -> parse_declaration f t = one_declaration (open_ t) (nest_ t).
Proof.
  intros N L. unfold parse_declaration, one_declaration. destruct (skip_all f (token_stream t) t (token_stream_at t) N) as (s1 & E1 & A2); [lia|]. rewrite E1. cbn [pbind].
  destruct (nest_drop t N) as [D O]. pose proof (drop_ws_eof t N) as N'. pose proof (drop_ws_length t) as Ln. rewrite <- D, <- O. destruct (drop_ws t) as [|p r].
  - pose proof (consume_end _ A2) as (_ & _ & X). rewrite X. reflexivity.
  - destruct (consume_at _ _ _ A2) as (_ & A3 & _ & X). rewrite X. cbn [pbind].
    assert (CO : (exists n, p = Tok (Ident n)) \/ forall n, p <> Tok (Ident n)) by (destruct p as [[]| |]; try (right; discriminate); left; eexists; reflexivity). destruct CO as [(n & ->) | NC].
    + destruct (nest_plain (Tok (Ident n)) r eq_refl ltac:(intros []; reflexivity)) as [-> ->]. apply declaration_all; [exact A2|now inversion N'|len].
    + destruct (nest_head p r N') as (c & t2 & Ec & Hd & _ & _). apply head_blk in Hd. rewrite Ec. assert (Nc : forall n, c <> Tok (Ident n)) by (intros n ->; exact (NC n Hd)).
      transitivity (Val (Some (Decl [] [] false))); [destruct p as [[]| |]; try reflexivity; edestruct NC; reflexivity|destruct c as [[]| |]; try reflexivity; edestruct Nc; reflexivity].
Qed.

(** ** Lists of declarations *)

Fixpoint until_of (v : list prim) : list prim * list prim :=
  match v with
  | [] => ([], [])
  | Tok Semicolon :: r => ([], v)
  | c :: r => (c :: fst (until_of r), snd (until_of r))
  end.
Inductive unfinished := DAt (n : list Z) (pre : list prim) | DDecl (n : list Z) (v : list prim) | DSkip.
Definition dcons (x : outcome (option node)) (rest : outcome (list node)) : outcome (list node) :=
  pbind x (fun d => pbind rest (fun l => Val (add_node [] d ++ l))).
(** Each declaration ends at a semicolon, each rule at a semicolon or a block in braces. [opn]: a group is open at the end. *)
Fixpoint decls_of (opn : bool) (pd : option unfinished) (v : list prim) : outcome (list node) :=
  match v with
  | [] =>
      match pd with
      | None => Val []
      | Some (DAt n pre) => Val [AtRule n pre None]
      | Some (DDecl n w) => if opn then Bad else dcons (decl_of false n w) (Val [])
      | Some DSkip => if opn then Bad else Val []
      end
  | c :: r =>
      match pd, c with
      | None, Tok Whitespace | None, Tok Semicolon => decls_of opn None r
      | None, Tok (AtKeyword n) => decls_of opn (Some (DAt n [])) r
      | None, Tok (Ident n) => decls_of opn (Some (DDecl n [])) r
      | None, _ => decls_of opn (Some DSkip) r
      | Some (DAt n pre), Tok Semicolon => dcons (Val (Some (AtRule n pre None))) (decls_of opn None r)
      | Some (DAt n pre), Blk o w => if o =? 0x7B then dcons (Val (Some (AtRule n pre (Some (o, w))))) (decls_of opn None r) else decls_of opn (Some (DAt n (pre ++ [c]))) r
      | Some (DAt n pre), _ => decls_of opn (Some (DAt n (pre ++ [c]))) r
      | Some (DDecl n w), Tok Semicolon => dcons (decl_of false n w) (decls_of opn None r)
      | Some (DDecl n w), _ => decls_of opn (Some (DDecl n (w ++ [c]))) r
      | Some DSkip, Tok Semicolon => decls_of opn None r
      | Some DSkip, _ => decls_of opn (Some DSkip) r
      end
  end.

Lemma decls_at opn n v : forall pre, decls_of opn (Some (DAt n pre)) v = dcons (Val (Some (fst (fst (at_of n pre v))))) (decls_of opn None (snd (at_of n pre v))).
Proof. induction v as [|c v IH]; intros pre; [reflexivity|]. destruct c as [[]|?|o w]; cbn [decls_of at_of]; try apply IH; try reflexivity. destruct (o =? 0x7B); [reflexivity|apply IH]. Qed.
Lemma semi_dec c : {c = Tok Semicolon} + {c <> Tok Semicolon}.
Proof. destruct c as [[]| |]; try (now left); right; discriminate. Qed.
Lemma until_cons c v : c <> Tok Semicolon -> until_of (c :: v) = (c :: fst (until_of v), snd (until_of v)).
Proof. intros N. destruct c as [[]| |]; try reflexivity. congruence. Qed.
Definition at_end (opn : bool) (r : list prim) : bool := match r with [] => opn | _ => false end.
Lemma decls_decl opn n v : forall w, decls_of opn (Some (DDecl n w)) v = if at_end opn (snd (until_of v)) then Bad else dcons (decl_of false n (w ++ fst (until_of v))) (decls_of opn None (snd (until_of v))).
Proof.
  induction v as [|c v IH]; intros w; [cbn [decls_of until_of fst snd at_end]; now rewrite app_nil_r|]. destruct (semi_dec c) as [-> | N].
  - cbn [decls_of until_of fst snd at_end]. now rewrite app_nil_r.
  - rewrite until_cons by exact N. cbn [fst snd]. transitivity (decls_of opn (Some (DDecl n (w ++ [c]))) v); [destruct c as [[]| |]; try reflexivity; congruence|]. rewrite IH, <- app_assoc. reflexivity.
Qed.
Lemma decls_skip opn v : decls_of opn (Some DSkip) v = if at_end opn (snd (until_of v)) then Bad else decls_of opn None (snd (until_of v)).
Proof.
  induction v as [|c v IH]; [reflexivity|]. destruct (semi_dec c) as [-> | N]; [reflexivity|]. rewrite until_cons by exact N. cbn [snd]. rewrite <- IH. destruct c as [[]| |]; try reflexivity; congruence.
Qed.

Lemma nest_length t : forall n, (List.length t <= n)%nat -> no_eof t -> (List.length (nest_ t) <= List.length t)%nat.
Proof.
  intros n. revert t. induction n as [|n IH]; intros [|p t] L N; try len; try (cbn; lia).
  destruct (first_value _ (token_stream (p :: t)) p t (token_stream_at _) N (le_n _)) as (c & t1 & e1 & s1 & _ & _ & Ne & _ & _ & N1 & Sh & Ce). rewrite Ne. specialize (IH t1 ltac:(len) N1). len.
Qed.

Lemma until_all f : forall s t e acc, left_ s t e -> no_eof t -> (2 * List.length t + 1 <= f)%nat ->
  if at_end (opened t e) (snd (until_of (nest_ t))) then until_semicolon f acc s = Bad
  else exists s' t', until_semicolon f acc s = Val (acc ++ fst (until_of (nest_ t)), s') /\ at_ s' t' /\ no_eof t' /\ nest_ t' = snd (until_of (nest_ t)) /\ (t' <> [] -> open_ t' = opened t e) /\ (List.length t' <= List.length t)%nat /\
    (forall p r, t = p :: r -> p <> Tok Semicolon -> (List.length t' < List.length t)%nat).
Proof.
  induction f as [|f IH]; intros s t e acc Lf N L; [lia|]. cbn [until_semicolon]. destruct t as [|p t].
  - change (nest_ []) with (@nil prim). cbn [until_of fst snd at_end]. unfold opened. change (open_ []) with false. rewrite orb_false_r. destruct e.
    + destruct Lf as [_ G]; apply consume_gone in G as (_ & _ & X). now rewrite X.
    + pose proof (consume_end _ Lf) as (_ & _ & X). rewrite X. exists s, []. rewrite app_nil_r. ands; auto. discriminate.
  - destruct (left_more _ _ _ _ Lf) as [-> A]. destruct (consume_at _ _ _ A) as (_ & _ & _ & X). rewrite X. cbn [pbind]. assert (Np : p <> Tok Eof) by now inversion N.
    destruct (semi_dec p) as [-> | NS].
    + destruct (nest_plain (Tok Semicolon) t eq_refl ltac:(intros []; reflexivity)) as [En _]. rewrite En. cbn [until_of fst snd at_end]. exists s, (Tok Semicolon :: t). rewrite app_nil_r. ands; auto. intros q r [= <- _]. congruence.
    + destruct (first_value f s p t A N) as (c & t1 & e1 & s1 & E & L1 & Ne & Op & Hd & N1 & Sh & _); [len|]. apply head_blk in Hd. rewrite Ne. rewrite until_cons by (intros ->; congruence). cbn [fst snd].
      specialize (IH s1 t1 e1 (acc ++ [c]) L1 N1 ltac:(len)). unfold opened at 1 2. cbn [orb]. rewrite Op.
      replace (match p with Tok Semicolon | Tok Eof => Val (acc, s) | _ => pbind (consume_component_value f s) (fun '(c, s) => until_semicolon f (acc ++ [c]) s) end) with (until_semicolon f (acc ++ [c]) s1)
        by (rewrite E; destruct p as [[]| |]; try reflexivity; congruence).
      destruct (at_end _ _); [exact IH|]. destruct IH as (s' & t' & E' & A' & N' & Ne' & O' & Le' & _). exists s', t'. rewrite E', <- app_assoc. ands; auto; try len.
Qed.

Lemma decls_opn a b v : a = b \/ v = [] -> decls_of a None v = decls_of b None v.
Proof. intros [-> | ->]; reflexivity. Qed.

Lemma until_sub v : Forall (fun c => opens c = None /\ c <> Tok Eof) v -> Forall (fun c => opens c = None /\ c <> Tok Eof) (fst (until_of v)).
Proof. induction 1 as [|c v H _ IH]; [constructor|]. destruct (semi_dec c) as [-> | N]; [constructor|]. rewrite until_cons by exact N. cbn [fst]. now constructor. Qed.
Lemma until_len v : (List.length (fst (until_of v)) <= List.length v)%nat.
Proof. induction v as [|c v IH]; [reflexivity|]. destruct (semi_dec c) as [-> | N]; [cbn; lia|]. rewrite until_cons by exact N. cbn [fst]. len. Qed.
Lemma nest_proper t : no_eof t -> Forall (fun c => opens c = None /\ c <> Tok Eof) (nest_ t).
Proof. intros N. apply Forall_forall. intros c I. split; [exact (proj1 (Forall_forall _ _) (nest_heads _ t) c I)|exact (proj1 (Forall_forall _ _) (nest_no_eof t _ (le_n _) N) c I)]. Qed.

Lemma declarations_all f : forall s t e ds, left_ s t e -> no_eof t -> (2 * List.length t + 4 <= f)%nat ->
  declarations_loop f ds s = pbind (decls_of (opened t e) None (nest_ t)) (fun l => Val (ds ++ l)).
Proof.
  induction f as [|f IH]; intros s t e ds Lf N L; [lia|]. cbn [declarations_loop]. destruct t as [|p t].
  - destruct (left_end _ _ Lf) as [C G]. rewrite C. change (nest_ []) with (@nil prim). cbn [decls_of pbind]. now rewrite app_nil_r.
  - destruct (left_more _ _ _ _ Lf) as [-> A]. destruct (consume_at _ _ _ A) as (C & A1 & Re & _). assert (N1 : no_eof t) by now inversion N. assert (Np : p <> Tok Eof) by now inversion N. rewrite C, Re.
    destruct (nest_head p t N) as (c & t1 & Ne & Hd & Nt1 & Ce). apply head_blk in Hd.
    assert (Comb : forall s' t' e' d, left_ s' t' e' -> no_eof t' -> (List.length t' <= List.length t)%nat -> (nest_ t' <> [] -> opened t' e' = opened (p :: t) false) ->
      declarations_loop f (add_node ds d) s' = pbind (dcons (Val d) (decls_of (opened (p :: t) false) None (nest_ t'))) (fun l => Val (ds ++ l))).
    { intros s' t' e' d L' N' Le O'. rewrite (IH s' t' e') by (auto; len). rewrite (decls_opn (opened t' e') (opened (p :: t) false)) by (destruct (nest_ t'); [now right|left; apply O'; discriminate]).
      unfold dcons. cbn [pbind]. destruct (decls_of _ None (nest_ t')); cbn [pbind]; [|reflexivity|reflexivity]. destruct d; cbn [add_node app]; [now rewrite <- app_assoc|reflexivity]. }
    assert (M : decls_of (opened (p :: t) false) None (nest_ (p :: t)) = decls_of (opened (p :: t) false) (Some DSkip) (nest_ (p :: t)) -> p <> Tok Semicolon -> pbind (until_semicolon f [] s) (fun '(_, s) => declarations_loop f ds s) = pbind (decls_of (opened (p :: t) false) None (nest_ (p :: t))) (fun l => Val (ds ++ l))).
    { intros -> NS. rewrite decls_skip. pose proof (until_all f s (p :: t) false [] A N ltac:(len)) as U. destruct (at_end _ _); [now rewrite U|]. destruct U as (s' & t' & E' & A' & N' & Ne' & O' & _ & Le'). specialize (Le' p t eq_refl NS). rewrite E'. cbn [pbind].
      rewrite <- Ne'. change ds with (add_node ds None) at 1. rewrite (Comb s' t' false None) by (auto; try len; unfold opened at 1; cbn [orb]; intros H; apply O'; intros ->; now apply H).
      unfold dcons. cbn [pbind add_node app]. destruct (decls_of _ None _); reflexivity. }
    assert (M' : (forall k, c = Tok k -> match k with Whitespace | Semicolon | AtKeyword _ | Ident _ => False | _ => True end) -> decls_of (opened (p :: t) false) None (nest_ (p :: t)) = decls_of (opened (p :: t) false) (Some DSkip) (nest_ (p :: t))).
    { intros H. rewrite Ne. destruct c as [k|n w|o w]; [|reflexivity|reflexivity]. specialize (H k eq_refl). destruct k; try reflexivity; destruct H. }
    destruct p as [k|n0 w0|o0 w0]; [|apply M; [apply M'; intros k ->; discriminate Hd|discriminate]|apply M; [apply M'; intros k ->; discriminate Hd|discriminate]].
    destruct k; try (apply M; [apply M'; intros k ->; injection Hd as <-; exact I|discriminate]); try congruence.
    + destruct (nest_plain (Tok (Ident s0)) t eq_refl ltac:(intros []; reflexivity)) as [En On]. unfold opened at 1. cbn [orb]. rewrite On, En. cbn [decls_of]. rewrite decls_decl. cbn [app].
      pose proof (until_all f (consume s) t false [Tok (Ident s0)] A1 N1 ltac:(len)) as U. unfold opened in U at 1. cbn [orb] in U. destruct (at_end _ _); [now rewrite U|]. destruct U as (s' & t' & E' & A' & N' & Ne' & O' & Le' & _). rewrite E'. cbn [pbind app].
      pose proof (until_sub _ (nest_proper t N1)) as P. pose proof (until_len (nest_ t)). pose proof (nest_length t _ (le_n _) N1).
      rewrite (declaration_all f (token_stream (Tok (Ident s0) :: fst (until_of (nest_ t)))) s0 (fst (until_of (nest_ t)))); [|apply token_stream_at|eapply Forall_impl; [|exact P]; cbn; tauto|len].
      destruct (nest_flat ends_any (fst (until_of (nest_ t)))) as [-> ->]; [eapply Forall_impl; [|exact P]; cbn; tauto|].
      unfold dcons at 1. destruct (decl_of false s0 _) as [d| |]; cbn [pbind]; [|reflexivity|reflexivity]. rewrite <- Ne'.
      rewrite (Comb s' t' false d) by (auto; unfold opened; cbn [orb]; rewrite On; intros H1; rewrite O' by (intros ->; now apply H1); reflexivity).
      unfold dcons, opened. cbn [pbind orb]. now rewrite On.
    + unfold consume_at_rule. rewrite C. destruct (at_all f (consume s) t false s0 [] A1 N1) as (nd & ed & t' & e' & s' & E & L' & O' & Q & N' & Le); [len|]. rewrite E. cbn [pbind].
      destruct (nest_plain (Tok (AtKeyword s0)) t eq_refl ltac:(intros []; reflexivity)) as [En On]. rewrite En. cbn [decls_of]. rewrite decls_at, O'. cbn [fst snd]. change (ds ++ [nd]) with (add_node ds (Some nd)). apply (Comb s' t' e' (Some nd)); auto.
      intros Hn. destruct e'; [destruct Q as [-> _]; now contradiction Hn|]. destruct Q as [_ Q]. unfold opened in *. cbn [orb] in *. now rewrite Q, On.
    + destruct (nest_ws t) as [En On]. rewrite En. cbn [decls_of]. change ds with (add_node ds None) at 1. rewrite (Comb (consume s) t false None) by (auto; unfold opened; now rewrite On). unfold dcons. cbn [pbind add_node app]. destruct (decls_of _ None (nest_ t)); reflexivity.
    + destruct (nest_plain (Tok Semicolon) t eq_refl ltac:(intros []; reflexivity)) as [En On]. rewrite En. cbn [decls_of]. change ds with (add_node ds None) at 1. rewrite (Comb (consume s) t false None) by (auto; unfold opened; now rewrite On). unfold dcons. cbn [pbind add_node app]. destruct (decls_of _ None (nest_ t)); reflexivity.
Qed.
