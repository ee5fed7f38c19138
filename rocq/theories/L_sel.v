(** The grammar of CSS selectors, and lemmas on the parser of M_sel. *)
From Coq Require Import String.
From Coq Require Import ZArith List Bool Lia.
From Verif Require Import M_unicode M_infra M_encoding M_labels M_css M_cssp M_sel.
Import ListNotations.
Open Scope list_scope.
Open Scope Z_scope.

(** * The grammar of Selectors Level 4, section 17 *)

Notation star := (Tok (Delim 0x2A)).
Notation bar := (Tok (Delim 0x7C)).
Notation equals := (Tok (Delim 0x3D)).
Notation dot := (Tok (Delim 0x2E)).
Notation colon := (Tok Colon).
Notation ident n := (Tok (Ident n)).

Definition spaces (x : list prim) : Prop := Forall (eq (Tok Whitespace)) x.
(** The small letter of a [char32_t]; numbers stand for these modulo 2 ^ 32. *)
Definition low_letter (c : Z) : Z := let c := c mod 2 ^ 32 in if (65 <=? c) && (c <=? 90) then c + 32 else c.
(** The names of the pseudo-elements that are also written with one colon. *)
Definition old_name (n : list Z) : Prop := In (map low_letter n) [lit "before"; lit "after"; lit "first-line"; lit "first-letter"].
Definition root_name (n : list Z) (id : Z) : Prop := (map low_letter n = lit "root" /\ id = 1) \/ (map low_letter n <> lit "root" /\ id = 0).

Inductive g_comb : list prim -> Z -> Prop :=
| g_child : g_comb [Tok (Delim 0x3E)] 0x3E
| g_next : g_comb [Tok (Delim 0x2B)] 0x2B
| g_later : g_comb [Tok (Delim 0x7E)] 0x7E
| g_column : g_comb [bar; bar] 0x7C.
Inductive g_matcher : list prim -> Z -> Prop :=
| g_equal : g_matcher [equals] 0x3D
| g_other c : In c [0x7E; 0x7C; 0x5E; 0x24; 0x2A] -> g_matcher [Tok (Delim c); equals] c.
Inductive modifier : list Z -> Z -> Prop :=
| m_i n : n = [0x69] \/ n = [0x49] -> modifier n 0x69
| m_s n : n = [0x73] \/ n = [0x53] -> modifier n 0x73.
Inductive g_pclass : list prim -> pseudo -> Prop :=
| gc_name n id : ~ old_name n -> root_name n id -> g_pclass [colon; ident n] (PName n id)
| gc_fun n v : g_pclass [colon; Fun n v] (PFunction n v).
Inductive g_pelement : list prim -> pseudo -> Prop :=
| ge_name n id : root_name n id -> g_pelement [colon; colon; ident n] (PName n id)
| ge_fun n v : g_pelement [colon; colon; Fun n v] (PFunction n v)
| ge_old n id : old_name n -> root_name n id -> g_pelement [colon; ident n] (PName n id).

(** [D] is which prefixes may be used, [E] what may stand behind the value of an attribute and what modifier it is. *)
Section Grammar.
Variable D : list Z -> Prop.
Variable E : list prim -> Z -> Prop.

Inductive g_prefix : list prim -> list Z -> Prop :=
| gp_name n : D n -> g_prefix [ident n; bar] n
| gp_any : g_prefix [star; bar] [0x2A]
| gp_none : g_prefix [bar] [].
Inductive g_wq : list prim -> option (list Z) -> list Z -> Prop :=
| gw_plain n : g_wq [ident n] None n
| gw_ns x p n : g_prefix x p -> g_wq (x ++ [ident n]) (Some p) n.
Inductive g_body : list prim -> attribute_sel -> Prop :=
| gb_name a x b p n : spaces a -> g_wq x p n -> spaces b -> g_body (a ++ x ++ b) (AttrSel p n 0 [] 0)
| gb_value a x b y c z d w p n k v i : spaces a -> g_wq x p n -> spaces b -> g_matcher y k -> spaces c -> z = Tok (Str v) \/ z = ident v -> spaces d -> E w i ->
    g_body (a ++ x ++ b ++ y ++ c ++ z :: d ++ w) (AttrSel p n k v i).
Inductive g_sub : list prim -> subclass -> Prop :=
| gs_id v b : g_sub [Tok (Hash v b)] (SId v)
| gs_class n : g_sub [dot; ident n] (SClass n)
| gs_attr v a : g_body v a -> g_sub [Blk 0x5B v] (SAttr a)
| gs_pseudo x p : g_pclass x p -> g_sub x (SPseudo p).
Inductive g_type : list prim -> type_sel -> Prop :=
| gt_name x p n : g_wq x p n -> g_type x (TName p n)
| gt_any : g_type [star] (TAny None)
| gt_ns x p : g_prefix x p -> g_type (x ++ [star]) (TAny (Some p)).
Inductive g_simple : list prim -> simple_sel -> Prop :=
| g_simple_type x t : g_type x t -> g_simple x (SimpleType t)
| g_simple_sub x u : g_sub x u -> g_simple x (SimpleSub u).
(** Subclass selectors, then any number of pseudo-elements with pseudo-classes behind each: [true] once a pseudo-element was there. *)
Inductive g_tail : bool -> list prim -> list part -> Prop :=
| g_nil b : g_tail b [] []
| g_cons_sub x u y l : g_sub x u -> g_tail false y l -> g_tail false (x ++ y) (PSub u :: l)
| g_cons_element b x p y l : g_pelement x p -> g_tail true y l -> g_tail b (x ++ y) (PElement p :: l)
| g_cons_class x p y l : g_pclass x p -> g_tail true y l -> g_tail true (x ++ y) (PClass p :: l).
Inductive g_compound : list prim -> compound -> Prop :=
| g_with_type x t y l : g_type x t -> g_tail false y l -> g_compound (x ++ y) (PType t :: l)
| g_without y l : g_tail false y l -> l <> [] -> g_compound y l.
Inductive g_sep : list prim -> Z -> Prop :=
| g_space s : spaces s -> s <> [] -> g_sep s 0x20
| g_sign a y b k : spaces a -> g_comb y k -> spaces b -> g_sep (a ++ y ++ b) k.
Inductive g_complex : list prim -> complex -> Prop :=
| g_one x c : g_compound x c -> g_complex x [Comp c]
| g_more x c s k y l : g_compound x c -> g_sep s k -> g_complex y l -> g_complex (x ++ s ++ y) (Comp c :: Comb k :: l).
(** What the code takes for a relative selector: there is no space behind the combinator. *)
Inductive g_relative : list prim -> list item -> Prop :=
| g_rel_none x l : g_complex x l -> g_relative x l
| g_rel_comb y k x l : g_comb y k -> g_complex x l -> g_relative (y ++ x) (Comb k :: l).
End Grammar.

(** Selectors separated by commas, with spaces around these and at the end. *)
Inductive g_list {A : Type} (P : list prim -> A -> Prop) : list prim -> list A -> Prop :=
| g_last x a s : P x a -> spaces s -> g_list P (x ++ s) [a]
| g_comma x a s t y l : P x a -> spaces s -> spaces t -> g_list P y l -> g_list P (x ++ s ++ Tok Comma :: t ++ y) (a :: l).

Definition declared (m : namespaces) (p : list Z) : Prop := exists u, In (p, u) m.
(** Behind the value of an attribute there may be a modifier. *)
Definition end_standard (w : list prim) (i : Z) : Prop := (w = [] /\ i = 0) \/ exists n s, w = ident n :: s /\ modifier n i /\ spaces s.
(** What the code takes: also the names [*] and the empty one as prefixes, *)
Definition declared_code (m : namespaces) (p : list Z) : Prop := declared m p \/ p = [0x2A] \/ p = [].
(** and anything behind the value. *)
Definition end_code (w : list prim) (i : Z) : Prop :=
  (forall r, w <> Tok Whitespace :: r) /\ ((exists n r, w = ident n :: r /\ modifier n i) \/ (i = 0 /\ forall n r k, w = ident n :: r -> ~ modifier n k)).

(** The longest beginning of [s] that [P] describes is followed by [r]. *)
Definition longest {A : Type} (P : list prim -> A -> Prop) (s : list prim) (v : A) (r : list prim) : Prop :=
  exists x, s = x ++ r /\ P x v /\ forall y r' v', s = y ++ r' -> P y v' -> (List.length y <= List.length x)%nat.
(** A star and a bar are only used as a prefix. *)
Definition fine (s : list prim) : Prop := forall a r, s = a ++ star :: bar :: r -> exists p q, r = p :: q /\ (p = star \/ exists n, p = ident n).

(** * Strings *)

Lemma eqb_str_iff a b : eqb_str a b = true <-> a = b.
Proof. unfold eqb_str. destruct (list_eq_dec Z.eq_dec a b); split; congruence. Qed.
Lemma eqb_str_refl a : eqb_str a a = true. Proof. now apply eqb_str_iff. Qed.
Lemma find_ns_iff m p : (exists u, find_ns m p = Some u) <-> declared m p.
Proof.
  unfold declared. induction m as [|[q u] m IH]; cbn [find_ns In].
  - split; [intros [u H]; discriminate|intros [u []]].
  - destruct (eqb_str q p) eqn:Q.
    + apply eqb_str_iff in Q. subst q. split; [intros _; exists u; now left|intros _; now exists u].
    + rewrite IH. split; [intros [w H]; exists w; now right|]. intros [w [H|H]]; [injection H as <- <-; now rewrite eqb_str_refl in Q|now exists w].
Qed.
Lemma fold32 (f : Z -> Z) s : forall out n, (List.length s <= n)%nat -> cp_fold utf32 n (fun out cp => emit utf32 out (f cp)) out s = Some (out ++ map (fun c => f (c mod 2 ^ 32)) s).
Proof.
  induction s as [|c s IH]; intros out n L; [destruct n; cbn; now rewrite app_nil_r|]. destruct n; [cbn in L; lia|].
  cbn [List.length] in L. cbn [cp_fold]. change (c_dec utf32 (c :: s)) with (Some (c mod 2 ^ 32, s)). cbv iota beta. unfold emit.
  change (c_enc utf32 (f (c mod 2 ^ 32))) with (Some [f (c mod 2 ^ 32)]). cbv iota beta. rewrite IH by lia. cbn [map]. now rewrite <- app_assoc.
Qed.
Lemma lower32 s : to_ascii_lowercase utf32 utf32 s = Some (map low_letter s).
Proof. unfold to_ascii_lowercase. rewrite fold32 by lia. reflexivity. Qed.

(** * One selector *)

Ltac dz c n := destruct (Z.eqb_spec c n); [subst c|]; cbn [orb andb negb].
Lemma comb_iff s k r : combinator s = Some (k, r) <-> exists x, s = x ++ r /\ g_comb x k.
Proof.
  split.
  - destruct s as [|[[]| |] s]; try discriminate. cbn [combinator]. dz c 0x3E; [|dz c 0x2B; [|dz c 0x7E]].
    + intros [= <- <-]. exists [Tok (Delim 0x3E)]. split; [reflexivity|constructor].
    + intros [= <- <-]. exists [Tok (Delim 0x2B)]. split; [reflexivity|constructor].
    + intros [= <- <-]. exists [Tok (Delim 0x7E)]. split; [reflexivity|constructor].
    + dz c 0x7C; [|discriminate]. destruct s as [|[[]| |] s]; try discriminate. dz c 0x7C; [|discriminate]. intros [= <- <-]. exists [bar; bar]. split; [reflexivity|constructor].
  - intros (x & -> & []); reflexivity.
Qed.
Lemma matcher_iff s k r : attr_matcher s = Some (k, r) <-> exists x, s = x ++ r /\ g_matcher x k.
Proof.
  split.
  - destruct s as [|[[]| |] s]; try discriminate. cbn [attr_matcher]. dz c 0x3D; [intros [= <- <-]; exists [equals]; split; [reflexivity|constructor]|].
    assert (G : forall d, In d [0x7E; 0x7C; 0x5E; 0x24; 0x2A] -> match s with Tok (Delim e) :: r2 => if e =? 0x3D then Some (d, r2) else None | _ => None end = Some (k, r) ->
      exists x, Tok (Delim d) :: s = x ++ r /\ g_matcher x k).
    { intros d I H. destruct s as [|[[]| |] s]; try discriminate. dz c0 0x3D; [|discriminate]. injection H as <- <-. exists [Tok (Delim d); equals]. split; [reflexivity|now constructor]. }
    dz c 0x7E; [apply G; cbn; auto|]. dz c 0x7C; [apply G; cbn; auto|]. dz c 0x5E; [apply G; cbn; auto|]. dz c 0x24; [apply G; cbn; auto|]. dz c 0x2A; [apply G; cbn; auto 6|discriminate].
  - intros (x & -> & [|c I]); [reflexivity|]. cbn in I. destruct I as [<-|[<-|[<-|[<-|[<-|[]]]]]]; reflexivity.
Qed.
Lemma modifier_iff n k r : attr_modifier (ident n :: r) = Some (k, r) <-> modifier n k.
Proof.
  cbn [attr_modifier]. destruct (eqb_str n [0x69]) eqn:H1; [apply eqb_str_iff in H1; subst n|destruct (eqb_str n [0x49]) eqn:H2; [apply eqb_str_iff in H2; subst n|
    destruct (eqb_str n [0x73]) eqn:H3; [apply eqb_str_iff in H3; subst n|destruct (eqb_str n [0x53]) eqn:H4; [apply eqb_str_iff in H4; subst n|]]]]; cbn [orb].
  1-4: split; [intros [= <-]; constructor; auto|intros H; inversion H as [? [A|A]|? [A|A]]; subst; first [discriminate|reflexivity]].
  split; [discriminate|]. intros H. inversion H as [? [A|A]|? [A|A]]; subst; now rewrite eqb_str_refl in *.
Qed.
Lemma modifier_none n r : attr_modifier (ident n :: r) = None <-> forall k, ~ modifier n k.
Proof.
  split; [intros H k M; apply (modifier_iff n k r) in M; congruence|]. intros H. destruct (attr_modifier (ident n :: r)) as [[k q]|] eqn:A; [|reflexivity]. exfalso.
  assert (q = r) as ->. { cbn [attr_modifier] in A. destruct (_ || _); [congruence|]. destruct (_ || _); congruence. }
  apply (H k). now apply (modifier_iff n k r).
Qed.

Definition allowed (m : namespaces) (p : list Z) : bool := match find_ns m p with Some _ => true | None => false end || eqb_str p [0x2A] || eqb_str p [].
Lemma allowed_iff m p : allowed m p = true <-> declared_code m p.
Proof.
  unfold allowed, declared_code. rewrite !orb_true_iff, !eqb_str_iff, <- find_ns_iff. destruct (find_ns m p) as [u|].
  - split; eauto.
  - split; [intros [[H|H]|H]; auto; discriminate|intros [[u H]|[H|H]]; auto; discriminate].
Qed.
Lemma allowed_none m : allowed m [] = true. Proof. apply allowed_iff. unfold declared_code. auto. Qed.
Lemma allowed_star m : allowed m [0x2A] = true. Proof. apply allowed_iff. unfold declared_code. auto. Qed.

Lemma prefix_iff m s p r : ns_prefix m s = Some (p, r) <-> exists x, s = x ++ r /\ g_prefix (declared_code m) x p.
Proof.
  unfold ns_prefix. fold (allowed m).
  assert (G : forall p0 q, match q with Tok (Delim c) :: r2 => if (c =? 0x7C) && allowed m p0 then Some (p0, r2) else None | _ => None end = Some (p, r) -> p = p0 /\ q = bar :: r /\ declared_code m p0).
  { intros p0 q. destruct q as [|[[]| |] q]; try discriminate. dz c 0x7C; [|discriminate]. destruct (allowed m p0) eqn:A; [|discriminate]. intros [= <- <-]. now apply allowed_iff in A. }
  split.
  - destruct s as [|[[]| |] s]; intros H; try discriminate H.
    + destruct (G _ _ H) as (-> & -> & A). exists [ident s0; bar]. split; [reflexivity|now constructor].
    + revert H. dz c 0x2A; intros H.
      * destruct (G _ _ H) as (-> & -> & A). exists [star; bar]. split; [reflexivity|constructor].
      * destruct (G [] (Tok (Delim c) :: s) H) as (-> & A & _). injection A as -> ->. exists [bar]. split; [reflexivity|constructor].
  - intros (x & -> & [n A| |]); cbn [app]; cbv iota beta; [apply allowed_iff in A|change ((0x2A =? 0x2A)) with true; cbv iota beta; pose proof (allowed_star m) as A|change (0x7C =? 0x2A) with false; cbv iota beta; pose proof (allowed_none m) as A];
      unfold allowed in A; rewrite A; reflexivity.
Qed.
Lemma prefix_none m s : ns_prefix m s = None -> forall x p r, s = x ++ r -> ~ g_prefix (declared_code m) x p.
Proof. intros H x p r -> G. assert (A : ns_prefix m (x ++ r) = Some (p, r)) by (apply prefix_iff; eauto). congruence. Qed.

(** What stands behind a name is not a bar with a name or a star behind it. *)
Definition apart (r : list prim) : Prop := forall p q, r = bar :: p :: q -> p <> star /\ forall n, p <> ident n.
Lemma wq_sound m s p n r : wq_name m s = Some ((p, n), r) -> exists x, s = x ++ r /\ g_wq (declared_code m) x p n.
Proof.
  unfold wq_name. destruct (ns_prefix m s) as [[q r1]|] eqn:P.
  - apply prefix_iff in P. destruct P as (x & -> & P). intros H.
    assert (Back : match x ++ r1 with ident n0 :: r2 => Some ((None : option (list Z), n0), r2) | _ => None end = Some ((p, n), r) -> exists x0, x ++ r1 = x0 ++ r /\ g_wq (declared_code m) x0 p n).
    { clear H. destruct P; cbn [app]; try discriminate. intros [= <- <- <-]. exists [ident n0]. split; [reflexivity|constructor]. }
    destruct r1 as [|[[]| |] r1]; try (now apply Back in H).
    + injection H as <- <- <-. exists (x ++ [ident s]). split; [now rewrite <- app_assoc|now constructor].
    + revert H. dz c 0x2A; intros H; [discriminate|now apply Back in H].
  - intros H. destruct s as [|[[]| |] s]; try discriminate.
    + injection H as <- <- <-. exists [ident s0]. split; [reflexivity|constructor].
    + revert H. now dz c 0x2A.
Qed.
Lemma wq_complete m x p n r : g_wq (declared_code m) x p n -> (p = None -> apart r) -> wq_name m (x ++ r) = Some ((p, n), r).
Proof.
  intros [n0|x0 p0 n0 G] A.
  - cbn [app]. unfold wq_name. destruct (ns_prefix m (ident n0 :: r)) as [[q r1]|] eqn:P; [|reflexivity]. apply prefix_iff in P. destruct P as (x1 & E & P).
    destruct P; cbn [app] in E; try discriminate E. injection E as -> ->. specialize (A eq_refl).
    destruct r1 as [|[[]| |] r1]; try reflexivity; [now destruct (proj2 (A _ _ eq_refl) s)|]. dz c 0x2A; [now destruct (proj1 (A _ _ eq_refl))|reflexivity].
  - unfold wq_name. rewrite <- app_assoc. cbn [app]. assert (P : ns_prefix m (x0 ++ ident n0 :: r) = Some (p0, ident n0 :: r)) by (apply prefix_iff; eauto). now rewrite P.
Qed.

Lemma type_sound m s t r : type_selector m s = Some (t, r) -> exists x, s = x ++ r /\ g_type (declared_code m) x t.
Proof.
  unfold type_selector. destruct (wq_name m s) as [[[p n] r1]|] eqn:W.
  - intros [= <- <-]. apply wq_sound in W. destruct W as (x & -> & W). exists x. split; [reflexivity|now constructor].
  - destruct (ns_prefix m s) as [[q r1]|] eqn:P.
    + apply prefix_iff in P. destruct P as (x & -> & P). destruct r1 as [|[[]| |] r1]; try discriminate. dz c 0x2A; [|discriminate]. intros [= <- <-].
      exists (x ++ [star]). split; [now rewrite <- app_assoc|now constructor].
    + destruct s as [|[[]| |] s]; try discriminate. dz c 0x2A; [|discriminate]. intros [= <- <-]. exists [star]. split; [reflexivity|constructor].
Qed.
Lemma type_complete m x t r : g_type (declared_code m) x t -> (forall q, r = bar :: q -> x <> [star]) -> apart r -> type_selector m (x ++ r) = Some (t, r).
Proof.
  intros [x0 p n W| |x0 p P] B A; unfold type_selector.
  - now rewrite (wq_complete m x0 p n r W (fun _ => A)).
  - cbn [app]. destruct (wq_name m (star :: r)) as [[[p n] r1]|] eqn:W.
    + apply wq_sound in W. destruct W as (x1 & E & W). exfalso. destruct W as [n0|y p0 n0 G]; [discriminate E|]. rewrite <- app_assoc in E. destruct G; cbn [app] in E; try discriminate E.
      injection E as ->. exact (proj2 (A _ _ eq_refl) n0 eq_refl).
    + destruct (ns_prefix m (star :: r)) as [[q r1]|] eqn:P; [|reflexivity]. apply prefix_iff in P. destruct P as (x1 & E & P). destruct P; cbn [app] in E; try discriminate E.
      injection E as ->. now destruct (B _ eq_refl).
  - rewrite <- app_assoc. cbn [app]. assert (N : ns_prefix m (x0 ++ star :: r) = Some (p, star :: r)) by (apply prefix_iff; eauto).
    destruct (wq_name m (x0 ++ star :: r)) as [[[p1 n] r1]|] eqn:W; [|now rewrite N]. exfalso. unfold wq_name in W. now rewrite N in W.
Qed.
(** A type selector at the beginning is found, and what is read is at least as long. *)
Lemma type_reach m x t r : g_type (declared_code m) x t -> fine (x ++ r) -> exists t' r', type_selector m (x ++ r) = Some (t', r') /\ (List.length r' <= List.length r)%nat.
Proof.
  intros G F. destruct r as [|b r].
  - exists t, []. split; [|lia]. apply type_complete; [exact G|discriminate|intros p q; discriminate].
  - assert (dec : (exists p q, b :: r = bar :: p :: q /\ (p = star \/ exists n, p = ident n)) \/ apart (b :: r)).
    { destruct b as [[]| |]; try (right; intros p q; discriminate). destruct (Z.eq_dec c 0x7C) as [->|N]; [|right; intros p q; congruence].
      destruct r as [|p q]; [right; intros p q; discriminate|]. destruct p as [[]| |]; try (right; intros p0 q0 [= <- <-]; split; [discriminate|intros n; discriminate]); [left; eauto 8|].
      destruct (Z.eq_dec c 0x2A) as [->|N]; [left; eauto 8|]. right. intros p0 q0 [= <- <-]. split; [congruence|intros n; discriminate]. }
    destruct dec as [(p & q & E & P)|A].
    + rewrite E in *. clear b r E. destruct G as [x0 o n W| |x0 o W].
      * destruct W as [n0|y p0 n0 W].
        -- destruct (allowed m n0) eqn:AL.
           ++ apply allowed_iff in AL. assert (PR : g_prefix (declared_code m) [ident n0; bar] n0) by now constructor.
              destruct P as [->|[n ->]].
              ** exists (TAny (Some n0)), q. split; [|cbn; lia].
                 change (type_selector m (([ident n0; bar] ++ [star]) ++ q) = Some (TAny (Some n0), q)).
                 assert (N : ns_prefix m ([ident n0; bar] ++ star :: q) = Some (n0, star :: q)) by (apply prefix_iff; eauto).
                 unfold type_selector. rewrite <- app_assoc. cbn [app] in *. unfold wq_name. rewrite N. reflexivity.
              ** exists (TName (Some n0) n), q. split; [|cbn; lia]. unfold type_selector.
                 change ([ident n0] ++ bar :: ident n :: q) with (([ident n0; bar] ++ [ident n]) ++ q). rewrite (wq_complete m _ (Some n0) n q); [reflexivity|now constructor|discriminate].
           ++ exists (TName None n0), (bar :: p :: q). split; [|lia]. cbn [app]. unfold type_selector, wq_name.
              destruct (ns_prefix m (ident n0 :: bar :: p :: q)) as [[u v]|] eqn:PR; [|reflexivity]. exfalso. apply prefix_iff in PR. destruct PR as (x1 & E & PR). destruct PR; cbn in E; try discriminate.
              injection E as -> _. apply allowed_iff in H. congruence.
        -- exists (TName (Some p0) n0), (bar :: p :: q). split; [|lia]. unfold type_selector. now rewrite (wq_complete m _ (Some p0) n0 _ (gw_ns _ _ _ _ W)).
      * assert (PR : g_prefix (declared_code m) [star; bar] [0x2A]) by constructor. destruct P as [->|[n ->]].
        -- exists (TAny (Some [0x2A])), q. split; [|cbn; lia]. assert (N : ns_prefix m ([star; bar] ++ star :: q) = Some ([0x2A], star :: q)) by (apply prefix_iff; eauto).
           cbn [app] in *. unfold type_selector, wq_name. rewrite N. reflexivity.
        -- exists (TName (Some [0x2A]) n), q. split; [|cbn; lia]. unfold type_selector.
           change ([star] ++ bar :: ident n :: q) with (([star; bar] ++ [ident n]) ++ q). rewrite (wq_complete m _ (Some [0x2A]) n q); [reflexivity|now constructor|discriminate].
      * assert (N : ns_prefix m (x0 ++ star :: bar :: p :: q) = Some (o, star :: bar :: p :: q)) by (apply prefix_iff; eauto).
        exists (TAny (Some o)), (bar :: p :: q). split; [|lia]. rewrite <- app_assoc. cbn [app]. unfold type_selector, wq_name. now rewrite N.
    + exists t, (b :: r). split; [|lia]. apply type_complete; [exact G| |exact A]. intros q E ->. rewrite E in *. clear E. destruct (F [] q eq_refl) as (p & q' & -> & P).
      destruct (A _ _ eq_refl) as [A1 A2]. destruct P as [->|[n ->]]; [now apply A1|now apply (A2 n)].
Qed.

Lemma old_iff n : existsb (eqb_str (map low_letter n)) old_elements = true <-> old_name n.
Proof.
  unfold old_name. rewrite existsb_exists. change [lit "before"; lit "after"; lit "first-line"; lit "first-letter"] with old_elements.
  split; [intros (x & I & E); apply eqb_str_iff in E; now rewrite E|intros I; exists (map low_letter n); split; [exact I|apply eqb_str_refl]].
Qed.
Lemma root_iff n id : to_pseudo_class_id_name (map low_letter n) = id <-> root_name n id.
Proof.
  unfold to_pseudo_class_id_name, root_name. change (lit "root") with [0x72; 0x6F; 0x6F; 0x74]. destruct (eqb_str (map low_letter n) [0x72; 0x6F; 0x6F; 0x74]) eqn:Q.
  - apply eqb_str_iff in Q. rewrite Q. split; [intros <-; auto|intros [[_ ->]|[N _]]; congruence].
  - assert (map low_letter n <> [0x72; 0x6F; 0x6F; 0x74]) by (rewrite <- eqb_str_iff; congruence). split; [intros <-; auto|intros [[N _]|[_ ->]]; congruence].
Qed.
Lemma old_not_root n id : old_name n -> root_name n id -> id = 0.
Proof. intros O [[R _]|[_ ->]]; [|reflexivity]. unfold old_name in O. rewrite R in O. exfalso. revert O. vm_compute. intuition discriminate. Qed.
(** The pseudo-classes and pseudo-elements are read without any failure. *)
Definition pclass_of (s : list prim) : parsed pseudo := match pseudo_class_selector s with Val x => x | _ => None end.
Definition pelement_of (s : list prim) : parsed pseudo := match pseudo_element_selector s with Val x => x | _ => None end.
Lemma pclass_val s : pseudo_class_selector s = Val (pclass_of s).
Proof.
  unfold pclass_of. destruct s as [|[[]| |] [|[[]| |] s]]; try reflexivity. unfold pseudo_class_selector. rewrite lower32. cbn [popt pbind]. now destruct (existsb _ _).
Qed.
Lemma pclass_iff s p r : pclass_of s = Some (p, r) <-> exists x, s = x ++ r /\ g_pclass x p.
Proof.
  split.
  - intros H. pose proof (pclass_val s) as V. rewrite H in V. clear H. destruct s as [|[[]| |] [|[[]| |] s]]; try discriminate V.
    + unfold pseudo_class_selector in V. rewrite lower32 in V. cbn [popt pbind] in V. destruct (existsb _ _) eqn:O; [discriminate V|]. injection V as <- <-.
      exists [colon; ident s0]. split; [reflexivity|]. constructor; [rewrite <- old_iff; congruence|now apply root_iff].
    + injection V as <- <-. exists [colon; Fun name v]. split; [reflexivity|constructor].
  - intros (x & -> & [n id O R|n v]); [|reflexivity]. unfold pclass_of. cbn [app pseudo_class_selector]. rewrite lower32. cbn [popt pbind].
    destruct (existsb _ _) eqn:Q; [now apply old_iff in Q|]. now rewrite (proj2 (root_iff n id) R).
Qed.
Lemma pelement_val s : pseudo_element_selector s = Val (pelement_of s).
Proof.
  unfold pelement_of. destruct s as [|[[]| |] s]; try reflexivity. unfold pseudo_element_selector. rewrite pclass_val. cbn [pbind]. destruct (pclass_of s) as [[p r]|]; [reflexivity|].
  destruct (match s with Tok Colon :: r2 => r2 | _ => s end) as [|[[]| |] q]; try reflexivity. rewrite lower32. cbn [popt pbind]. now destruct (existsb _ _).
Qed.
Lemma pclass_none s : pclass_of s = None -> forall x p r, s = x ++ r -> ~ g_pclass x p.
Proof. intros H x p r -> G. assert (A : pclass_of (x ++ r) = Some (p, r)) by (apply pclass_iff; eauto). congruence. Qed.
Lemma old_dec n : old_name n \/ ~ old_name n.
Proof. rewrite <- old_iff. destruct (existsb _ _); auto. Qed.
Lemma pelement_iff s p r : pelement_of s = Some (p, r) <-> exists x, s = x ++ r /\ g_pelement x p.
Proof.
  split.
  - intros H. pose proof (pelement_val s) as V. rewrite H in V. clear H. destruct s as [|[[]| |] s]; try discriminate V. unfold pseudo_element_selector in V. rewrite pclass_val in V. cbn [pbind] in V.
    destruct (pclass_of s) as [[q r1]|] eqn:C.
    + injection V as <- <-. apply pclass_iff in C. destruct C as (x & -> & C). exists (colon :: x). split; [reflexivity|]. destruct C; now constructor.
    + destruct s as [|[[]| |] s]; try discriminate V.
      * rewrite lower32 in V. cbn [popt pbind] in V. destruct (existsb _ _) eqn:O; [|discriminate V]. injection V as <- <-. apply old_iff in O. exists [colon; ident s0].
        split; [reflexivity|]. constructor; [exact O|]. rewrite <- (old_not_root s0 _ O (proj1 (root_iff s0 _) eq_refl)). now apply root_iff.
      * destruct s as [|[[]| |] s]; try discriminate V. rewrite lower32 in V. cbn [popt pbind] in V. destruct (existsb _ _) eqn:O; [|discriminate V]. injection V as <- <-. apply old_iff in O.
        exists [colon; colon; ident s0]. split; [reflexivity|]. constructor. rewrite <- (old_not_root s0 _ O (proj1 (root_iff s0 _) eq_refl)). now apply root_iff.
  - intros (x & -> & G). unfold pelement_of. destruct G as [n id R|n v|n id O R]; cbn [app]; unfold pseudo_element_selector; rewrite pclass_val; cbn [pbind].
    + destruct (old_dec n) as [O|O].
      * destruct (pclass_of (colon :: ident n :: r)) as [[q r1]|] eqn:C.
        -- apply pclass_iff in C. destruct C as (x & Q & C). destruct C; [|discriminate Q]. injection Q as <- <-. contradiction.
        -- rewrite lower32. cbn [popt pbind]. pose proof (proj2 (old_iff n) O) as O'. rewrite O'. now rewrite (old_not_root n id O R).
      * assert (C : pclass_of ([colon; ident n] ++ r) = Some (PName n id, r)) by (apply pclass_iff; eexists; split; [reflexivity|now constructor]). cbn [app] in C. now rewrite C.
    + assert (C : pclass_of ([colon; Fun n v] ++ r) = Some (PFunction n v, r)) by (apply pclass_iff; eexists; split; [reflexivity|now constructor]). cbn [app] in C. now rewrite C.
    + destruct (pclass_of (ident n :: r)) as [[q r1]|] eqn:C; [apply pclass_iff in C; destruct C as (x & Q & C); destruct C; discriminate Q|].
      rewrite lower32. cbn [popt pbind]. rewrite (proj2 (old_iff n) O). now rewrite (old_not_root n id O R).
Qed.

(** * Spaces *)

Lemma skip_app a s : spaces a -> skip_spaces (a ++ s) = skip_spaces s.
Proof. induction 1 as [|p a <- _ IH]; [reflexivity|exact IH]. Qed.
Lemma skip_split s : exists a, s = a ++ skip_spaces s /\ spaces a /\ (forall r, skip_spaces s <> Tok Whitespace :: r) /\ (skipped s = true <-> a <> []).
Proof.
  induction s as [|p s IH]; [exists []; repeat split; [constructor|discriminate|discriminate|easy]|].
  assert (D : p = Tok Whitespace \/ (skip_spaces (p :: s) = p :: s /\ skipped (p :: s) = false /\ p <> Tok Whitespace)) by (destruct p as [[]| |]; auto; right; repeat split; discriminate).
  destruct D as [->|(H1 & H2 & H3)].
  - destruct IH as (a & E & S & N & _). exists (Tok Whitespace :: a). cbn [skip_spaces app skipped]. repeat split; [congruence|now constructor|exact N|discriminate].
  - rewrite H1, H2. exists []. repeat split; [constructor|congruence|discriminate|easy].
Qed.
Lemma skip_none p s : p <> Tok Whitespace -> skip_spaces (p :: s) = p :: s.
Proof. destruct p as [[]| |]; congruence || reflexivity. Qed.
Lemma spaces_all s : spaces s -> skip_spaces s = [].
Proof. induction 1 as [|p a <- _ IH]; [reflexivity|exact IH]. Qed.
(** Something that does not begin with a space. *)
Definition solid (x : list prim) : Prop := exists p t, x = p :: t /\ p <> Tok Whitespace.
Lemma solid_skip x r : solid x -> skip_spaces (x ++ r) = x ++ r.
Proof. intros (p & t & -> & N). cbn [app]. now apply skip_none. Qed.
Lemma skip_pre a x r : spaces a -> solid x -> skip_spaces (a ++ x ++ r) = x ++ r.
Proof. intros A X. now rewrite skip_app, solid_skip. Qed.
Lemma prefix_solid D x p : g_prefix D x p -> solid x.
Proof. intros []; eexists _, _; (split; [reflexivity|discriminate]). Qed.
Lemma wq_solid D x p n : g_wq D x p n -> solid x.
Proof.
  intros [n0|x0 p0 n0 G]; [eexists _, _; split; [reflexivity|discriminate]|]. apply prefix_solid in G. destruct G as (q & t & -> & N). exists q, (t ++ [ident n0]). auto.
Qed.
Lemma matcher_solid x k : g_matcher x k -> solid x.
Proof. intros []; eexists _, _; (split; [reflexivity|discriminate]). Qed.
Lemma matcher_none s : attr_matcher s = None -> forall x k r, s = x ++ r -> ~ g_matcher x k.
Proof. intros H x k r -> G. assert (A : attr_matcher (x ++ r) = Some (k, r)) by (apply matcher_iff; eauto). congruence. Qed.
Lemma end_code_iff w i : (forall r, w <> Tok Whitespace :: r) -> (end_code w i <-> match attr_modifier w with Some (k, _) => k | None => 0 end = i).
Proof.
  intros N. unfold end_code. assert (D : (exists n r, w = ident n :: r) \/ (attr_modifier w = None /\ forall n r, w <> ident n :: r)).
  { destruct w as [|[[]| |] w]; try (right; split; [reflexivity|intros; discriminate]); left; eauto. }
  destruct D as [(n & r & ->)|(M & D)].
  - destruct (attr_modifier (ident n :: r)) as [[k q]|] eqn:M.
    + assert (q = r) as ->. { cbn [attr_modifier] in M. destruct (_ || _); [congruence|]. destruct (_ || _); congruence. }
      apply modifier_iff in M. split.
      * intros (_ & [(n1 & r1 & [= <- <-] & M1)|(-> & F)]); [|now destruct (F _ _ k eq_refl)]. apply (modifier_iff n k r) in M. apply (modifier_iff n i r) in M1. congruence.
      * intros <-. split; [exact N|]. left. eauto.
    + rewrite modifier_none in M. split.
      * intros (_ & [(n1 & r1 & [= <- <-] & M1)|(-> & F)]); [now apply M in M1|reflexivity].
      * intros <-. split; [exact N|]. right. split; [reflexivity|]. intros n1 r1 k [= <- <-]. apply M.
  - rewrite M. split.
    + intros (_ & [(n & r & E & _)|(-> & _)]); [now apply D in E|reflexivity].
    + intros <-. split; [exact N|]. right. split; [reflexivity|]. intros n r k E. now apply D in E.
Qed.
Definition attr_body (m : namespaces) (v : list prim) : option attribute_sel := option_map fst (attribute_selector m [Blk 0x5B v]).
Lemma attr_body_eq m v r : attribute_selector m (Blk 0x5B v :: r) = option_map (fun a => (a, r)) (attr_body m v).
Proof.
  unfold attr_body, attribute_selector. change (negb (0x5B =? 0x5B)) with false. cbv iota. destruct (wq_name m (skip_spaces v)) as [[[p n] w]|]; [|reflexivity].
  destruct (attr_matcher (skip_spaces w)) as [[c u]|]; [|now destruct (skip_spaces w)]. destruct (skip_spaces u) as [|[[]| |] u']; reflexivity.
Qed.
Lemma body_iff m v a : attr_body m v = Some a <-> g_body (declared_code m) end_code v a.
Proof.
  unfold attr_body, attribute_selector. change (negb (0x5B =? 0x5B)) with false. cbv iota. split.
  - destruct (wq_name m (skip_spaces v)) as [[[p n] w]|] eqn:W; [|discriminate]. apply wq_sound in W. destruct W as (x & E & W). destruct (skip_split v) as (s1 & E1 & S1 & _). rewrite E in E1.
    destruct (skip_split w) as (s2 & E2 & S2 & _). destruct (attr_matcher (skip_spaces w)) as [[c u]|] eqn:M.
    + apply matcher_iff in M. destruct M as (y & E3 & M). rewrite E3 in E2. destruct (skip_split u) as (s3 & E4 & S3 & _).
      assert (K : forall z x0 u', skip_spaces u = z :: u' -> z = Tok (Str x0) \/ z = ident x0 -> 
        g_body (declared_code m) end_code v (AttrSel p n c x0 (match attr_modifier (skip_spaces u') with Some (k, _) => k | None => 0 end))).
      { intros z x0 u' E5 Z. rewrite E5 in E4. destruct (skip_split u') as (s4 & E6 & S4 & N4 & _).
        replace v with (s1 ++ x ++ s2 ++ y ++ s3 ++ z :: s4 ++ skip_spaces u') by (rewrite E1, E2, E4, <- E6; now rewrite <- ?app_assoc).
        econstructor; eauto. now apply end_code_iff. }
      destruct (skip_spaces u) as [|[[]| |] u']; try discriminate; intros [= <-]; eapply K; eauto.
    + destruct (skip_spaces w) as [|z w']; [|discriminate]. intros [= <-]. rewrite app_nil_r in E2. rewrite E1, E2. now constructor.
  - intros [s1 x s2 p n S1 W S2|s1 x s2 y s3 z s4 w p n k v0 i S1 W S2 M S3 Z S4 E].
    + rewrite (skip_pre _ _ _ S1 (wq_solid _ _ _ _ W)). rewrite (wq_complete m x p n s2 W); [|intros _ q t ->; inversion S2; subst; congruence].
      rewrite (spaces_all _ S2). reflexivity.
    + rewrite (skip_pre _ _ _ S1 (wq_solid _ _ _ _ W)).
      rewrite (wq_complete m x p n _ W).
      * rewrite (skip_pre _ _ _ S2 (matcher_solid _ _ M)). assert (A : attr_matcher (y ++ s3 ++ z :: s4 ++ w) = Some (k, s3 ++ z :: s4 ++ w)) by (apply matcher_iff; eauto). rewrite A.
        rewrite skip_app by exact S3. assert (W4 : skip_spaces (s4 ++ w) = w).
        { rewrite skip_app by exact S4. destruct E as [N _]. destruct w as [|q w]; [reflexivity|]. apply skip_none. intros ->. now apply (N w). }
        pose proof (proj1 (end_code_iff w i (proj1 E)) E) as I. destruct Z as [-> | ->]; cbn [skip_spaces option_map fst]; now rewrite W4, I.
      * intros _ q t E1. destruct s2 as [|q2 s2]; [|inversion S2; subst; discriminate E1]. destruct M as [|c I]; [discriminate E1|]. cbn [app] in E1. injection E1 as _ <- _.
        split; [discriminate|intros n0; discriminate].
Qed.

Definition sub_of (m : namespaces) (s : list prim) : parsed subclass := match subclass_selector m s with Val x => x | _ => None end.
Lemma sub_val m s : subclass_selector m s = Val (sub_of m s).
Proof.
  unfold sub_of, subclass_selector. destruct (id_selector s) as [[? ?]|]; [reflexivity|]. destruct (class_selector s) as [[? ?]|]; [reflexivity|]. destruct (attribute_selector m s) as [[? ?]|]; [reflexivity|].
  rewrite pclass_val. cbn [pbind]. now destruct (pclass_of s) as [[? ?]|].
Qed.
Lemma sub_iff m s u r : sub_of m s = Some (u, r) <-> exists x, s = x ++ r /\ g_sub (declared_code m) end_code x u.
Proof.
  unfold sub_of, subclass_selector. rewrite pclass_val. split.
  - destruct (id_selector s) as [[v q]|] eqn:I; [|destruct (class_selector s) as [[n q]|] eqn:C; [|destruct (attribute_selector m s) as [[a q]|] eqn:A; [|cbn [pbind]; destruct (pclass_of s) as [[p q]|] eqn:P; [|discriminate]]]].
    + destruct s as [|[[]| |] s]; try discriminate. injection I as <- <-. intros [= <- <-]. eexists [_]. split; [reflexivity|constructor].
    + destruct s as [|[[]| |] [|[[]| |] s]]; try discriminate. cbn [class_selector] in C. revert C. dz c 0x2E; [|discriminate]. intros [= <- <-] [= <- <-]. eexists [_; _]. split; [reflexivity|constructor].
    + destruct s as [|[| |o v] s]; try discriminate. destruct (Z.eq_dec o 0x5B) as [->|N].
      * rewrite attr_body_eq in A. destruct (attr_body m v) as [b|] eqn:B; [|discriminate]. injection A as <- <-. intros [= <- <-]. eexists [_]. split; [reflexivity|]. constructor. now apply body_iff.
      * exfalso. cbn [attribute_selector] in A. apply Z.eqb_neq in N. rewrite N in A. discriminate A.
    + intros [= <- <-]. apply pclass_iff in P. destruct P as (x & -> & P). exists x. split; [reflexivity|now constructor].
  - intros (x & -> & G). destruct G as [v b|n|v a B|x p P].
    + reflexivity.
    + reflexivity.
    + cbn [app id_selector class_selector]. rewrite attr_body_eq. apply body_iff in B. now rewrite B.
    + assert (A : pclass_of (x ++ r) = Some (p, r)) by (apply pclass_iff; eauto). rewrite A. destruct P; reflexivity.
Qed.

(** * Compound selectors *)

(** What the three loops do together. *)
Fixpoint tailf (n : nat) (m : namespaces) (b : bool) (v : list part) (s : list prim) : list part * list prim :=
  match n with
  | O => (v, s)
  | S n =>
      match (if b then option_map (fun '(p, r) => (PClass p, r)) (pclass_of s) else option_map (fun '(u, r) => (PSub u, r)) (sub_of m s)) with
      | Some (x, r) => tailf n m b (v ++ [x]) r
      | None => match pelement_of s with Some (p, r) => tailf n m true (v ++ [PElement p]) r | None => (v, s) end
      end
  end.
Lemma pclass_pos x p : g_pclass x p -> (0 < List.length x)%nat. Proof. intros []; cbn; lia. Qed.
Lemma pelement_pos x p : g_pelement x p -> (0 < List.length x)%nat. Proof. intros []; cbn; lia. Qed.
Lemma sub_pos D E x u : g_sub D E x u -> (0 < List.length x)%nat. Proof. intros []; cbn; try lia. now apply pclass_pos in H. Qed.
Lemma pclass_short s p r : pclass_of s = Some (p, r) -> (List.length r < List.length s)%nat.
Proof. intros H. apply pclass_iff in H. destruct H as (x & -> & G). apply pclass_pos in G. rewrite app_length. lia. Qed.
Lemma pelement_short s p r : pelement_of s = Some (p, r) -> (List.length r < List.length s)%nat.
Proof. intros H. apply pelement_iff in H. destruct H as (x & -> & G). apply pelement_pos in G. rewrite app_length. lia. Qed.
Lemma sub_short m s p r : sub_of m s = Some (p, r) -> (List.length r < List.length s)%nat.
Proof. intros H. apply sub_iff in H. destruct H as (x & -> & G). apply sub_pos in G. rewrite app_length. lia. Qed.
Lemma tailf_more m : forall n k b v s, (List.length s <= n)%nat -> tailf (k + n) m b v s = tailf n m b v s.
Proof.
  induction n as [|n IH]; intros k b v s L.
  - destruct s; [|cbn in L; lia]. destruct k; [reflexivity|]. now destruct b.
  - rewrite <- plus_n_Sm. cbn [tailf]. destruct (if b then _ else _) as [[x r]|] eqn:Q.
    + apply IH. destruct b; [destruct (pclass_of s) as [[p q]|] eqn:P; [|discriminate]; apply pclass_short in P|destruct (sub_of m s) as [[p q]|] eqn:P; [|discriminate]; apply sub_short in P]; injection Q as <- <-; lia.
    + destruct (pelement_of s) as [[p r]|] eqn:P; [|reflexivity]. apply pelement_short in P. apply IH. lia.
Qed.
Lemma classes_then m : forall n f g v s, (List.length s < f)%nat -> (List.length s <= n)%nat -> (List.length s < g)%nat ->
  pbind (classes f v s) (fun '(v, r) => elements g v r) = Val (tailf n m true v s).
Proof.
  induction n as [|n IH]; intros f g v s L1 L2 L3.
  - destruct s; [|cbn in L2; lia]. destruct f; [lia|]. destruct g; [lia|]. reflexivity.
  - destruct f; [lia|]. cbn [classes tailf]. rewrite pclass_val. cbn [pbind]. destruct (pclass_of s) as [[p r]|] eqn:P; cbn [option_map].
    + apply pclass_short in P. apply IH; lia.
    + cbn [pbind]. destruct g; [lia|]. cbn [elements]. rewrite pelement_val. cbn [pbind]. destruct (pelement_of s) as [[p r]|] eqn:Q; [|reflexivity]. apply pelement_short in Q. apply IH; lia.
Qed.
Lemma subclasses_then m : forall n f g v s, (List.length s < f)%nat -> (List.length s <= n)%nat -> (List.length s < g)%nat ->
  pbind (subclasses f m v s) (fun '(v, r) => elements g v r) = Val (tailf n m false v s).
Proof.
  induction n as [|n IH]; intros f g v s L1 L2 L3.
  - destruct s; [|cbn in L2; lia]. destruct f; [lia|]. destruct g; [lia|]. reflexivity.
  - destruct f; [lia|]. cbn [subclasses tailf]. rewrite sub_val. cbn [pbind]. destruct (sub_of m s) as [[p r]|] eqn:P; cbn [option_map].
    + apply sub_short in P. apply IH; lia.
    + cbn [pbind]. destruct g; [lia|]. cbn [elements]. rewrite pelement_val. cbn [pbind]. destruct (pelement_of s) as [[p r]|] eqn:Q; [|reflexivity]. apply pelement_short in Q. apply (classes_then m); lia.
Qed.
(** The heads of the selectors. *)
Definition head_sub (x : list prim) : Prop := exists p t, x = p :: t /\ ((exists v b, p = Tok (Hash v b)) \/ p = dot \/ (exists v, p = Blk 0x5B v) \/ p = colon).
Lemma pclass_head x p : g_pclass x p -> head_sub x. Proof. intros []; eexists _, _; split; eauto. Qed.
Lemma pelement_head x p : g_pelement x p -> head_sub x. Proof. intros []; eexists _, _; split; eauto. Qed.
Lemma sub_head D E x u : g_sub D E x u -> head_sub x.
Proof. intros []; try (eexists _, _; split; eauto 6; fail). now apply pclass_head in H. Qed.
Lemma head_app x y : head_sub x -> head_sub (x ++ y).
Proof. intros (p & t & -> & H). exists p, (t ++ y). auto. Qed.
Lemma tail_head D E b x l : g_tail D E b x l -> x = [] /\ l = [] \/ head_sub x /\ l <> [].
Proof.
  intros []; [left; auto|right..]; (split; [|discriminate]); apply head_app; eauto using sub_head, pelement_head, pclass_head.
Qed.
Lemma head_solid x : head_sub x -> solid x.
Proof. intros (p & t & -> & [(v & b & ->)|[->|[(v & ->)| ->]]]); (eexists _, _; split; [reflexivity|discriminate]). Qed.
Lemma head_no_type m x : head_sub x -> type_selector m x = None.
Proof. intros (p & t & -> & [(v & b & ->)|[->|[(v & ->)| ->]]]); reflexivity. Qed.
Lemma head_no_bar x q : head_sub x -> x <> bar :: q.
Proof. intros (p & t & -> & [(v & b & ->)|[->|[(v & ->)| ->]]]); discriminate. Qed.
Lemma head_no_comb x : head_sub x -> combinator x = None.
Proof. intros (p & t & -> & [(v & b & ->)|[->|[(v & ->)| ->]]]); reflexivity. Qed.

Lemma element_not_class x p r : g_pelement x p -> pclass_of (x ++ r) = None.
Proof.
  intros G. destruct (pclass_of (x ++ r)) as [[q t]|] eqn:C; [|reflexivity]. exfalso. apply pclass_iff in C. destruct C as (y & E & C).
  destruct G; destruct C; cbn [app] in E; try discriminate E. injection E as -> _. contradiction.
Qed.
Lemma element_not_sub m x p r : g_pelement x p -> sub_of m (x ++ r) = None.
Proof.
  intros G. pose proof (element_not_class x p r G) as C. destruct (sub_of m (x ++ r)) as [[q t]|] eqn:S; [|reflexivity]. exfalso. apply sub_iff in S. destruct S as (y & E & S).
  destruct S as [| | |y q1 C1]; try (destruct G; discriminate E). assert (A : pclass_of (x ++ r) = Some (q1, t)) by (apply pclass_iff; rewrite E; eauto). congruence.
Qed.
Lemma tail_app m b y l : g_tail (declared_code m) end_code b y l -> exists b', forall n v r, (List.length (y ++ r) <= n)%nat -> tailf n m b v (y ++ r) = tailf (List.length r) m b' (v ++ l) r.
Proof.
  induction 1 as [b|x u y l S _ IH|b x p y l P _ IH|x p y l P _ IH].
  - exists b. intros n v r L. cbn [app] in *. rewrite app_nil_r. replace n with ((n - List.length r) + List.length r)%nat by lia. now apply tailf_more.
  - destruct IH as (b' & IH). exists b'. intros n v r L. rewrite <- app_assoc in *. destruct n; [apply sub_pos in S; rewrite app_length in L; lia|]. cbn [tailf].
    pose proof (sub_pos _ _ _ _ S). rewrite app_length in L. assert (A : sub_of m (x ++ y ++ r) = Some (u, y ++ r)) by (apply sub_iff; eauto). rewrite A. cbn [option_map]. rewrite IH by lia. now rewrite <- app_assoc.
  - destruct IH as (b' & IH). exists b'. intros n v r L. rewrite <- app_assoc in *. destruct n; [apply pelement_pos in P; rewrite app_length in L; lia|]. cbn [tailf].
    rewrite (element_not_class x p (y ++ r) P), (element_not_sub m x p (y ++ r) P). assert (A : pelement_of (x ++ y ++ r) = Some (p, y ++ r)) by (apply pelement_iff; eauto). rewrite A.
    apply pelement_pos in P. rewrite app_length in L. destruct b; cbn [option_map]; rewrite IH by lia; now rewrite <- app_assoc.
  - destruct IH as (b' & IH). exists b'. intros n v r L. rewrite <- app_assoc in *. destruct n; [apply pclass_pos in P; rewrite app_length in L; lia|]. cbn [tailf].
    assert (A : pclass_of (x ++ y ++ r) = Some (p, y ++ r)) by (apply pclass_iff; eauto). rewrite A. apply pclass_pos in P. rewrite app_length in L. cbn [option_map]. rewrite IH by lia. now rewrite <- app_assoc.
Qed.
Lemma tail_sound m : forall n b v s v' r, tailf n m b v s = (v', r) -> exists x l, s = x ++ r /\ v' = v ++ l /\ g_tail (declared_code m) end_code b x l.
Proof.
  induction n as [|n IH]; intros b v s v' r H; [injection H as <- <-; exists [], []; rewrite app_nil_r; repeat split; constructor|]. cbn [tailf] in H.
  assert (K : match pelement_of s with Some (p, r) => tailf n m true (v ++ [PElement p]) r | None => (v, s) end = (v', r) ->
    exists x l, s = x ++ r /\ v' = v ++ l /\ g_tail (declared_code m) end_code b x l).
  { clear H. destruct (pelement_of s) as [[p t]|] eqn:P; intros H.
    - apply pelement_iff in P. destruct P as (x & -> & P). apply IH in H. destruct H as (y & l & -> & -> & T). exists (x ++ y), (PElement p :: l).
      rewrite <- !app_assoc. repeat split. now constructor.
    - injection H as <- <-. exists [], []. rewrite app_nil_r. repeat split; constructor. }
  destruct b.
  - destruct (pclass_of s) as [[p t]|] eqn:C; cbn [option_map] in H; [|auto]. apply pclass_iff in C. destruct C as (x & -> & C). apply IH in H. destruct H as (y & l & -> & -> & T).
    exists (x ++ y), (PClass p :: l). rewrite <- !app_assoc. repeat split. now constructor.
  - destruct (sub_of m s) as [[p t]|] eqn:C; cbn [option_map] in H; [|auto]. apply sub_iff in C. destruct C as (x & -> & C). apply IH in H. destruct H as (y & l & -> & -> & T).
    exists (x ++ y), (PSub p :: l). rewrite <- !app_assoc. repeat split. now constructor.
Qed.
Lemma tail_short m n b v s v' r : tailf n m b v s = (v', r) -> (List.length r <= List.length s)%nat.
Proof. intros H. apply tail_sound in H. destruct H as (x & l & -> & _). rewrite app_length. lia. Qed.

Definition comp_of (m : namespaces) (s : list prim) : parsed compound :=
  let '(v, r) := match type_selector m s with Some (t, r) => ([PType t], r) | None => ([], s) end in
  let '(v, r) := tailf (List.length r) m false v r in match v with [] => None | _ => Some (v, r) end.
Lemma type_short m s t r : type_selector m s = Some (t, r) -> (List.length r < List.length s)%nat.
Proof.
  intros H. apply type_sound in H. destruct H as (x & -> & G). rewrite app_length. enough (0 < List.length x)%nat by lia.
  destruct G as [x p n []| |]; rewrite ?app_length; cbn; lia.
Qed.
Lemma comp_val m s : compound_selector m s = Val (comp_of m s).
Proof.
  unfold compound_selector, comp_of.
  assert (K : forall v r, (List.length r <= List.length s)%nat -> pbind (subclasses (S (List.length s)) m v r) (fun '(v, r) => pbind (elements (S (List.length s)) v r) (fun '(v, r) => match v with [] => Val None | _ => Val (Some (v, r)) end))
    = Val (let '(v, r) := tailf (List.length r) m false v r in match v with [] => None | _ => Some (v, r) end)).
  { intros v r L. pose proof (subclasses_then m (List.length r) (S (List.length s)) (S (List.length s)) v r) as H. specialize (H ltac:(lia) ltac:(lia) ltac:(lia)).
    destruct (subclasses (S (List.length s)) m v r) as [[v1 r1]| |]; [|discriminate|discriminate]. cbn [pbind] in *. rewrite H. cbn [pbind]. destruct (tailf _ _ _ _ _) as [[|] ?]; reflexivity. }
  destruct (type_selector m s) as [[t r]|] eqn:T; [apply type_short in T|]; apply K; lia.
Qed.
Lemma comp_sound m s c r : comp_of m s = Some (c, r) -> exists x, s = x ++ r /\ g_compound (declared_code m) end_code x c.
Proof.
  unfold comp_of. destruct (type_selector m s) as [[t q]|] eqn:T.
  - apply type_sound in T. destruct T as (x & -> & T). destruct (tailf _ _ _ _ _) as [v r1] eqn:F. apply tail_sound in F. destruct F as (y & l & -> & -> & F). cbn [app]. intros [= <- <-].
    exists (x ++ y). split; [now rewrite app_assoc|now constructor].
  - destruct (tailf _ _ _ _ _) as [v r1] eqn:F. apply tail_sound in F. destruct F as (y & l & -> & -> & F). cbn [app]. destruct l as [|p l]; [discriminate|]. intros [= <- <-].
    exists y. split; [reflexivity|]. constructor; [exact F|discriminate].
Qed.
Lemma comp_reach m x c r : g_compound (declared_code m) end_code x c -> fine (x ++ r) -> exists c' r', comp_of m (x ++ r) = Some (c', r') /\ (List.length r' <= List.length r)%nat.
Proof.
  intros [x0 t y l T F|y l F N] Fi; unfold comp_of.
  - rewrite <- app_assoc in *. destruct (tail_head _ _ _ _ _ F) as [[-> ->]|[H _]].
    + cbn [app] in *. destruct (type_reach m x0 t r T Fi) as (t' & r' & E & L). rewrite E. destruct (tailf _ _ _ _ _) as [v r1] eqn:Q. pose proof (tail_short _ _ _ _ _ _ _ Q). apply tail_sound in Q.
      destruct Q as (z & k & _ & -> & _). cbn [app]. eexists _, _. split; [reflexivity|]. lia.
    + rewrite (type_complete m x0 t (y ++ r) T).
      * destruct (tail_app m false y l F) as (b' & A). rewrite A by lia. destruct (tailf _ _ _ _ _) as [v r1] eqn:Q. pose proof (tail_short _ _ _ _ _ _ _ Q). apply tail_sound in Q.
        destruct Q as (z & k & _ & -> & _). cbn [app]. eexists _, _. split; [reflexivity|]. lia.
      * intros q E. exfalso. apply (head_no_bar _ q (head_app y r H)). exact E.
      * intros p q E. exfalso. apply (head_no_bar _ (p :: q) (head_app y r H)). exact E.
  - destruct (tail_head _ _ _ _ _ F) as [[-> ->]|[H _]]; [congruence|]. rewrite (head_no_type m _ (head_app y r H)).
    destruct (tail_app m false y l F) as (b' & A). rewrite A by lia. destruct (tailf _ _ _ _ _) as [v r1] eqn:Q. pose proof (tail_short _ _ _ _ _ _ _ Q). apply tail_sound in Q.
    destruct Q as (z & k & _ & -> & _). cbn [app]. destruct l as [|p l]; [congruence|]. eexists _, _. split; [reflexivity|]. lia.
Qed.
(** What a compound selector does not go on with. *)
Definition stop (r : list prim) : Prop := ~ head_sub r /\ apart r.
Lemma stop_tail m b v r n : stop r -> tailf n m b v r = (v, r).
Proof.
  intros [S _]. destruct n; [reflexivity|]. cbn [tailf].
  assert (C : pclass_of r = None). { destruct (pclass_of r) as [[p q]|] eqn:C; [|reflexivity]. apply pclass_iff in C. destruct C as (x & -> & C). destruct S. apply head_app. now apply pclass_head in C. }
  assert (U : sub_of m r = None). { destruct (sub_of m r) as [[p q]|] eqn:U; [|reflexivity]. apply sub_iff in U. destruct U as (x & -> & U). destruct S. apply head_app. now apply sub_head in U. }
  assert (P : pelement_of r = None). { destruct (pelement_of r) as [[p q]|] eqn:P; [|reflexivity]. apply pelement_iff in P. destruct P as (x & -> & P). destruct S. apply head_app. now apply pelement_head in P. }
  rewrite C, U, P. now destruct b.
Qed.
Lemma comp_exact m x c r : g_compound (declared_code m) end_code x c -> stop r -> fine (x ++ r) -> comp_of m (x ++ r) = Some (c, r).
Proof.
  intros [x0 t y l T F|y l F N] S Fi; unfold comp_of.
  - rewrite <- app_assoc in *. rewrite (type_complete m x0 t (y ++ r) T).
    + destruct (tail_app m false y l F) as (b' & A). rewrite A by lia. rewrite (stop_tail _ _ _ _ _ S). reflexivity.
    + intros q E ->. destruct (tail_head _ _ _ _ _ F) as [[-> ->]|[H _]]; [|now apply (head_no_bar _ q (head_app y r H))]. cbn [app] in *. subst r.
      destruct (Fi [] q eq_refl) as (p & q' & -> & P). destruct (proj2 S _ _ eq_refl) as [A1 A2]. destruct P as [->|[n ->]]; [now apply A1|now apply (A2 n)].
    + destruct (tail_head _ _ _ _ _ F) as [[-> ->]|[H _]]; [exact (proj2 S)|]. intros p q E. exfalso. apply (head_no_bar _ (p :: q) (head_app y r H)). exact E.
  - destruct (tail_head _ _ _ _ _ F) as [[-> ->]|[H _]]; [congruence|]. rewrite (head_no_type m _ (head_app y r H)).
    destruct (tail_app m false y l F) as (b' & A). rewrite A by lia. rewrite (stop_tail _ _ _ _ _ S). destruct l; [congruence|reflexivity].
Qed.
(** Something that ends neither with a space nor with a bar. *)
Definition tight (x : list prim) : Prop := exists z q, x = z ++ [q] /\ q <> Tok Whitespace /\ q <> bar.
Lemma tight_app x y : tight y -> tight (x ++ y).
Proof. intros (z & q & -> & H). exists (x ++ z), q. now rewrite app_assoc. Qed.
Lemma fine_app x r : fine (x ++ r) -> tight x -> fine x.
Proof.
  intros F (z & q & E & _ & Q) a t H. destruct (F a (t ++ r)) as (p & u & E1 & P); [now rewrite H, <- app_assoc|]. destruct t as [|p1 t].
  - exfalso. rewrite E in H. replace (a ++ [star; bar]) with ((a ++ [star]) ++ [bar]) in H by now rewrite <- app_assoc. apply app_inj_tail in H. now destruct H.
  - injection E1 as -> _. eauto.
Qed.
Lemma fine_right x r : fine (x ++ r) -> fine r.
Proof. intros F a t ->. apply (F (x ++ a) t). now rewrite <- app_assoc. Qed.
Lemma tight_one q : q <> Tok Whitespace -> q <> bar -> tight [q]. Proof. exists [], q. auto. Qed.
Lemma type_tight D x t : g_type D x t -> tight x.
Proof.
  intros [x0 p n []| |x0 p H]; [apply tight_one; discriminate| |apply tight_one; discriminate|]; apply tight_app, tight_one; discriminate.
Qed.
Lemma pclass_tight x p : g_pclass x p -> tight x.
Proof. intros []; match goal with |- tight [?a; ?b] => apply (tight_app [a] [b]) end; apply tight_one; discriminate. Qed.
Lemma pelement_tight x p : g_pelement x p -> tight x.
Proof. intros []; repeat match goal with |- tight (?a :: ?b :: ?c) => apply (tight_app [a] (b :: c)) end; apply tight_one; discriminate. Qed.
Lemma sub_tight D E x u : g_sub D E x u -> tight x.
Proof. intros []; [apply tight_one; discriminate|apply (tight_app [dot] [_]), tight_one; discriminate|apply tight_one; discriminate|now apply pclass_tight in H]. Qed.
Lemma tail_tight D E b x l : g_tail D E b x l -> x = [] \/ tight x.
Proof.
  induction 1 as [b|x u y l S _ IH|b x p y l P _ IH|x p y l P _ IH]; [auto|right..]; (destruct IH as [->|IH]; [rewrite app_nil_r|now apply tight_app]); eauto using sub_tight, pelement_tight, pclass_tight.
Qed.
Lemma comp_tight D E x c : g_compound D E x c -> tight x.
Proof.
  intros [x0 t y l T F|y l F N]; destruct (tail_tight _ _ _ _ _ F) as [->|H].
  - rewrite app_nil_r. now apply type_tight in T.
  - now apply tight_app.
  - destruct (tail_head _ _ _ _ _ F) as [[_ ->]|[H _]]; [congruence|]. destruct H as (p & t & H & _). discriminate.
  - exact H.
Qed.

(** * Complex selectors *)

Lemma wq_no_comb D x p n r : g_wq D x p n -> combinator (x ++ r) = None.
Proof. intros [n0|x0 p0 n0 []]; reflexivity. Qed.
Lemma type_no_comb D x t r : g_type D x t -> combinator (x ++ r) = None.
Proof. intros [x0 p n W| |x0 p []]; try reflexivity. now apply wq_no_comb with (D := D) (p := p) (n := n). Qed.
Lemma type_solid D x t : g_type D x t -> solid x.
Proof.
  intros [x0 p n W| |x0 p W]; [now apply wq_solid in W|eexists _, _; split; [reflexivity|discriminate]|]. apply prefix_solid in W. destruct W as (q & u & -> & N). exists q, (u ++ [star]). auto.
Qed.
Lemma solid_app x y : solid x -> solid (x ++ y).
Proof. intros (p & t & -> & N). exists p, (t ++ y). auto. Qed.
Lemma comp_no_comb D E x c r : g_compound D E x c -> combinator (x ++ r) = None.
Proof.
  intros [x0 t y l T F|y l F N]; [rewrite <- app_assoc; eapply type_no_comb; eauto|]. destruct (tail_head _ _ _ _ _ F) as [[_ ->]|[H _]]; [congruence|]. now apply head_no_comb, head_app.
Qed.
Lemma comp_solid D E x c : g_compound D E x c -> solid x.
Proof. intros [x0 t y l T F|y l F N]; [apply solid_app; now apply type_solid in T|]. destruct (tail_head _ _ _ _ _ F) as [[_ ->]|[H _]]; [congruence|]. now apply head_solid. Qed.
Lemma comb_solid y k : g_comb y k -> solid y. Proof. intros []; eexists _, _; (split; [reflexivity|discriminate]). Qed.
Lemma comb_stop y k r : g_comb y k -> stop (y ++ r).
Proof.
  intros []; (split; [intros (p & t & E & [(v & b & ->)|[->|[(v & ->)| ->]]]); discriminate E|]); intros p q E; try discriminate E.
  injection E as <- <-. split; [discriminate|intros n; discriminate].
Qed.
Lemma space_stop r : stop (Tok Whitespace :: r).
Proof. split; [intros (p & t & E & [(v & b & ->)|[->|[(v & ->)| ->]]]); discriminate E|]. intros p q E; discriminate E. Qed.
Lemma comma_stop r : stop (Tok Comma :: r).
Proof. split; [intros (p & t & E & [(v & b & ->)|[->|[(v & ->)| ->]]]); discriminate E|]. intros p q E; discriminate E. Qed.
Lemma nil_stop : stop [].
Proof. split; [intros (p & t & E & _); discriminate E|]. intros p q E; discriminate E. Qed.
Lemma sep_stop s k r : g_sep s k -> stop (s ++ r).
Proof.
  intros [s0 S N|a y b k0 A Y B].
  - destruct S as [|p s0 <- S]; [congruence|]. apply space_stop.
  - destruct A as [|p a <- A]; [cbn [app]; rewrite <- !app_assoc; now apply comb_stop with (k := k0)|]. apply space_stop.
Qed.
(** The end of the input or a comma, with spaces before it. *)
Definition ends (r : list prim) : Prop := skip_spaces r = [] \/ exists t, skip_spaces r = Tok Comma :: t.
Lemma ends_stop r : ends r -> stop r.
Proof.
  intros H. destruct (skip_split r) as (a & E & S & _). destruct S as [|p a <- S]; [|rewrite E; apply space_stop].
  rewrite E. cbn [app]. destruct H as [->|[t ->]]; [apply nil_stop|apply comma_stop].
Qed.
(** The combinators and compound selectors behind the first one. *)
Inductive g_rest (D : list Z -> Prop) (E : list prim -> Z -> Prop) : list prim -> list item -> Prop :=
| r_nil : g_rest D E [] []
| r_cons s k x c y l : g_sep s k -> g_compound D E x c -> g_rest D E y l -> g_rest D E (s ++ x ++ y) (Comb k :: Comp c :: l).
Lemma complex_rest D E x l : g_complex D E x l <-> exists y z c k, x = y ++ z /\ l = Comp c :: k /\ g_compound D E y c /\ g_rest D E z k.
Proof.
  split.
  - induction 1 as [x c C|x c s k y l C S _ IH]; [exists x, [], c, []; rewrite app_nil_r; repeat split; auto; constructor|].
    destruct IH as (y1 & z1 & c1 & k1 & -> & -> & C1 & R1). exists x, (s ++ y1 ++ z1), c, (Comb k :: Comp c1 :: k1). repeat split; auto. now constructor.
  - intros (y & z & c & k & -> & -> & C & R). revert y c C. induction R as [|s k x c y l S C R IH]; intros y0 c0 C0; [rewrite app_nil_r; now constructor|].
    constructor; auto.
Qed.
Definition rest_of (m : namespaces) (v : list item) (s : list prim) : list item * list prim := match complex_loop (S (List.length s)) m v s with Val x => x | _ => (v, s) end.
Lemma skip_short s : (List.length (skip_spaces s) <= List.length s)%nat.
Proof. destruct (skip_split s) as (a & E & _). rewrite E at 2. rewrite app_length. lia. Qed.
Lemma comp_short m s c r : comp_of m s = Some (c, r) -> (List.length r < List.length s)%nat.
Proof. intros H. apply comp_sound in H. destruct H as (x & -> & G). apply comp_solid in G. destruct G as (p & t & -> & _). rewrite app_length. cbn. lia. Qed.
Lemma comb_short s k r : combinator s = Some (k, r) -> (List.length r < List.length s)%nat.
Proof. intros H. apply comb_iff in H. destruct H as (x & -> & G). apply comb_solid in G. destruct G as (p & t & -> & _). rewrite app_length. cbn. lia. Qed.
Lemma loop_step f m v s : complex_loop (S f) m v s =
  match (if negb (skipped s) && match combinator (skip_spaces s) with Some _ => false | None => true end then None
         else comp_of m (skip_spaces (match combinator (skip_spaces s) with Some (_, r) => r | None => skip_spaces s end))) with
  | Some (c, r) => complex_loop f m (v ++ [Comb (match combinator (skip_spaces s) with Some (k, _) => k | None => 0x20 end); Comp c]) r
  | None => Val (v, s)
  end.
Proof. destruct s as [|p s]; [reflexivity|]. cbn [complex_loop]. destruct (negb _ && _); [reflexivity|]. rewrite comp_val. reflexivity. Qed.
Lemma loop_short m s c r : comp_of m (skip_spaces (match combinator (skip_spaces s) with Some (_, r) => r | None => skip_spaces s end)) = Some (c, r) -> (List.length r < List.length s)%nat.
Proof.
  intros C. apply comp_short in C. destruct (combinator (skip_spaces s)) as [[k q]|] eqn:K; [apply comb_short in K|]; pose proof (skip_short s); [pose proof (skip_short q)|pose proof (skip_short (skip_spaces s))]; lia.
Qed.
Lemma loop_total m : forall n f v s, (List.length s <= n)%nat -> (List.length s < f)%nat -> exists v' r', complex_loop f m v s = Val (v', r').
Proof.
  induction n as [|n IH]; intros f v s L1 L2; (destruct f; [lia|]); rewrite loop_step; (destruct (negb _ && _); [eauto|]); destruct (comp_of m _) as [[c r]|] eqn:C; eauto; apply loop_short in C; [lia|]. apply IH; lia.
Qed.
Lemma loop_more m : forall n f v s, (List.length s <= n)%nat -> (List.length s < f)%nat -> complex_loop f m v s = Val (rest_of m v s).
Proof.
  unfold rest_of. assert (K : forall n f g v s, (List.length s <= n)%nat -> (List.length s < f)%nat -> (List.length s < g)%nat -> complex_loop f m v s = complex_loop g m v s).
  { induction n as [|n IH]; intros f g v s L1 L2 L3; (destruct f; [lia|]); (destruct g; [lia|]); rewrite !loop_step; (destruct (negb _ && _); [reflexivity|]); destruct (comp_of m _) as [[c r]|] eqn:C; auto; apply loop_short in C; [lia|].
    apply IH; lia. }
  intros n f v s L1 L2. rewrite (K n f (S (List.length s)) v s) by lia. destruct (loop_total m n (S (List.length s)) v s L1) as (v' & r' & ->); [lia|reflexivity].
Qed.
Lemma rest_step m v s : rest_of m v s =
  match (if negb (skipped s) && match combinator (skip_spaces s) with Some _ => false | None => true end then None
         else comp_of m (skip_spaces (match combinator (skip_spaces s) with Some (_, r) => r | None => skip_spaces s end))) with
  | Some (c, r) => rest_of m (v ++ [Comb (match combinator (skip_spaces s) with Some (k, _) => k | None => 0x20 end); Comp c]) r
  | None => (v, s)
  end.
Proof.
  unfold rest_of at 1. rewrite loop_step. destruct (negb _ && _); [reflexivity|]. destruct (comp_of m _) as [[c r]|] eqn:C; [|reflexivity]. pose proof (loop_short _ _ _ _ C).
  rewrite (loop_more m (List.length r)) by lia. reflexivity.
Qed.
Lemma rest_sound m : forall n v s v' r, (List.length s <= n)%nat -> rest_of m v s = (v', r) -> exists x l, s = x ++ r /\ v' = v ++ l /\ g_rest (declared_code m) end_code x l.
Proof.
  assert (Z : forall v s v' r, (v, s) = (v', r) -> exists x l, s = x ++ r /\ v' = v ++ l /\ g_rest (declared_code m) end_code x l).
  { intros v s v' r [= <- <-]. exists [], []. rewrite app_nil_r. repeat split; constructor. }
  induction n as [|n IH]; intros v s v' r L; rewrite rest_step; destruct (skip_split s) as (a & E & S & N & K).
  - destruct s; [|cbn in L; lia]. now apply Z.
  - destruct (negb _ && _) eqn:B; [apply Z|]. destruct (comp_of m _) as [[c q]|] eqn:C; [|apply Z]. pose proof (loop_short _ _ _ _ C) as LQ. intros H. apply IH in H; [|lia].
    destruct H as (y & l & -> & -> & R). apply comp_sound in C. destruct C as (x & EX & C).
    destruct (combinator (skip_spaces s)) as [[k u]|] eqn:M.
    + apply comb_iff in M. destruct M as (w & EW & M). destruct (skip_split u) as (b & EU & SU & _). exists ((a ++ w ++ b) ++ x ++ y), (Comb k :: Comp c :: l).
      split; [|split; [now rewrite <- app_assoc|]]; [rewrite E, EW, EU, EX; now rewrite <- !app_assoc|]. constructor; auto. now constructor.
    + exists (a ++ x ++ y), (Comb 0x20 :: Comp c :: l). assert (Q : skip_spaces (skip_spaces s) = skip_spaces s).
      { destruct (skip_spaces s) as [|p t] eqn:SS; [reflexivity|]. apply skip_none. intros ->. now apply (N t). }
      rewrite Q in EX. split; [rewrite E, EX; now rewrite <- !app_assoc|]. split; [now rewrite <- app_assoc|]. constructor; auto. constructor; [exact S|]. apply K. destruct (skipped s); [reflexivity|discriminate].
Qed.
Lemma rest_short m v s v' r : rest_of m v s = (v', r) -> (List.length r <= List.length s)%nat.
Proof. intros H. apply (rest_sound m (List.length s)) in H; [|lia]. destruct H as (x & l & -> & _). rewrite app_length. lia. Qed.
(** A separator with a compound selector behind it is read. *)
Lemma sep_step m v s k x c q r : g_sep s k -> solid x -> combinator (x ++ q) = None -> comp_of m (x ++ q) = Some (c, r) -> rest_of m v (s ++ x ++ q) = rest_of m (v ++ [Comb k; Comp c]) r.
Proof.
  intros S X N C. rewrite rest_step. destruct S as [s0 S NE|a y b k0 A Y B].
  - rewrite (skip_pre _ _ _ S X), N. rewrite (solid_skip _ _ X), C. destruct S as [|p s0 <- S]; [congruence|]. reflexivity.
  - rewrite <- !app_assoc. rewrite (skip_pre _ _ _ A (comb_solid _ _ Y)). assert (M : combinator (y ++ b ++ x ++ q) = Some (k0, b ++ x ++ q)) by (apply comb_iff; eauto). rewrite M.
    rewrite andb_false_r. now rewrite (skip_pre _ _ _ B X), C.
Qed.
Lemma rest_exact m x l : g_rest (declared_code m) end_code x l -> forall v r, ends r -> fine (x ++ r) -> rest_of m v (x ++ r) = (v ++ l, r).
Proof.
  induction 1 as [|s k x c y l S C R IH]; intros v r En F.
  - cbn [app]. rewrite app_nil_r. rewrite rest_step. assert (M : combinator (skip_spaces r) = None) by (destruct En as [->|[t ->]]; reflexivity). rewrite M.
    assert (C : comp_of m (skip_spaces (skip_spaces r)) = None) by (destruct En as [->|[t ->]]; reflexivity). rewrite C. now destruct (_ && _).
  - rewrite <- !app_assoc in *. apply fine_right in F. rewrite (sep_step m v s k x c (y ++ r) (y ++ r) S).
    + apply fine_right in F. rewrite (IH _ _ En F). now rewrite <- app_assoc.
    + now apply comp_solid in C.
    + eapply comp_no_comb; eauto.
    + apply comp_exact; auto. destruct R as [|s1 k1 x1 c1 y1 l1 S1 C1 R1]; [now apply ends_stop|]. rewrite <- app_assoc. eapply sep_stop; eauto.
Qed.
Lemma rest_reach m x l : g_rest (declared_code m) end_code x l -> forall v r, fine (x ++ r) -> (List.length (snd (rest_of m v (x ++ r))) <= List.length r)%nat.
Proof.
  induction 1 as [|s k x c y l S C R IH]; intros v r F.
  - cbn [app]. destruct (rest_of m v r) as [v' r'] eqn:Q. now apply rest_short in Q.
  - rewrite <- !app_assoc in *. apply fine_right in F. inversion R as [E1 E2|s1 k1 x1 c1 y1 l1 S1 C1 R1 E1 E2].
    + subst y l. cbn [app] in *. destruct (comp_reach m x c r C F) as (c' & r' & Q & L). rewrite (sep_step m v s k x c' r r' S); auto; [|now apply comp_solid in C|eapply comp_no_comb; eauto].
      destruct (rest_of m _ r') as [v2 r2] eqn:Q2. apply rest_short in Q2. cbn [snd]. lia.
    + rewrite E1. rewrite (sep_step m v s k x c (y ++ r) (y ++ r) S).
      * apply IH. now apply fine_right in F.
      * now apply comp_solid in C.
      * eapply comp_no_comb; eauto.
      * apply comp_exact; auto. rewrite <- E1, <- app_assoc. eapply sep_stop; eauto.
Qed.

Definition cx_of (m : namespaces) (s : list prim) : parsed complex := match comp_of m s with Some (c, r) => Some (rest_of m [Comp c] r) | None => None end.
Lemma cx_val m s : complex_selector m s = Val (cx_of m s).
Proof.
  unfold complex_selector, cx_of. rewrite comp_val. cbn [pbind]. destruct (comp_of m s) as [[c r]|]; [|reflexivity]. rewrite (loop_more m (List.length r)) by lia. cbn [pbind]. now destruct (rest_of m [Comp c] r).
Qed.
Lemma cx_sound m s l r : cx_of m s = Some (l, r) -> exists x, s = x ++ r /\ g_complex (declared_code m) end_code x l.
Proof.
  unfold cx_of. destruct (comp_of m s) as [[c q]|] eqn:C; [|discriminate]. apply comp_sound in C. destruct C as (x & -> & C). intros [= H]. apply (rest_sound m (List.length q)) in H; [|lia].
  destruct H as (y & k & -> & -> & R). exists (x ++ y). split; [now rewrite app_assoc|]. apply complex_rest. exists x, y, c, k. auto.
Qed.
Lemma cx_exact m x l r : g_complex (declared_code m) end_code x l -> ends r -> fine (x ++ r) -> cx_of m (x ++ r) = Some (l, r).
Proof.
  intros G En F. apply complex_rest in G. destruct G as (y & z & c & k & -> & -> & C & R). rewrite <- app_assoc in *. unfold cx_of. rewrite (comp_exact m y c (z ++ r) C); auto.
  - apply fine_right in F. now rewrite (rest_exact m z k R [Comp c] r En F).
  - destruct R as [|s1 k1 x1 c1 y1 l1 S1 C1 R1]; [now apply ends_stop|]. rewrite <- app_assoc. eapply sep_stop; eauto.
Qed.
Lemma cx_reach m x l r : g_complex (declared_code m) end_code x l -> fine (x ++ r) -> exists l' r', cx_of m (x ++ r) = Some (l', r') /\ (List.length r' <= List.length r)%nat.
Proof.
  intros G F. apply complex_rest in G. destruct G as (y & z & c & k & -> & -> & C & R). rewrite <- app_assoc in *. unfold cx_of. inversion R as [E1 E2|s1 k1 x1 c1 y1 l1 S1 C1 R1 E1 E2].
  - subst z k. cbn [app] in *. destruct (comp_reach m y c r C F) as (c' & r' & Q & L). rewrite Q. destruct (rest_of m [Comp c'] r') as [v2 r2] eqn:Q2. exists v2, r2. split; [reflexivity|]. apply rest_short in Q2. lia.
  - rewrite E1. rewrite (comp_exact m y c (z ++ r) C); auto.
    + apply fine_right in F. pose proof (rest_reach m z k R [Comp c] r F) as L. destruct (rest_of m [Comp c] (z ++ r)) as [v2 r2]. eauto.
    + rewrite <- E1, <- app_assoc. eapply sep_stop; eauto.
Qed.
Lemma cx_tight D E x l : g_complex D E x l -> tight x.
Proof. induction 1 as [x c C|x c s k y l C S G IH]; [now apply comp_tight in C|]. now apply tight_app, tight_app. Qed.
Lemma cx_solid D E x l : g_complex D E x l -> solid x.
Proof. intros []; [|apply solid_app]; eauto using comp_solid. Qed.
Lemma cx_no_comb D E x l r : g_complex D E x l -> combinator (x ++ r) = None.
Proof. intros []; rewrite <- ?app_assoc; eapply comp_no_comb; eauto. Qed.

(** * Lists *)

Section Lists.
Variable A : Type.
Variable f : list prim -> outcome (parsed A).
Variable g : list prim -> parsed A.
Variable P : list prim -> A -> Prop.
Hypothesis f_val : forall s, f s = Val (g s).
Hypothesis f_sound : forall s a r, g s = Some (a, r) -> exists x, s = x ++ r /\ P x a.
Hypothesis f_exact : forall x a r, P x a -> ends r -> fine (x ++ r) -> g (x ++ r) = Some (a, r).
Hypothesis f_reach : forall x a r, P x a -> fine (x ++ r) -> exists a' r', g (x ++ r) = Some (a', r') /\ (List.length r' <= List.length r)%nat.
Hypothesis P_solid : forall x a, P x a -> solid x.
Hypothesis P_tight : forall x a, P x a -> tight x.

Lemma P_one x a b r : P x a -> P x b -> fine (x ++ r) -> a = b.
Proof.
  intros H1 H2 F. pose proof (fine_app _ _ F (P_tight _ _ H1)) as Fx. rewrite <- (app_nil_r x) in Fx. assert (En : ends []) by now left.
  pose proof (f_exact _ _ _ H1 En Fx) as E1. pose proof (f_exact _ _ _ H2 En Fx) as E2. congruence.
Qed.
Lemma app_same (x y r t : list prim) : x ++ r = y ++ t -> List.length x = List.length y -> x = y /\ r = t.
Proof. revert y. induction x as [|p x IH]; intros [|q y] E L; try discriminate L; [auto|]. injection E as -> E. injection L as L. destruct (IH _ E L) as [-> ->]. auto. Qed.
Lemma item_iff s : fine s -> f s = Val (g s) /\ (forall a r, g s = Some (a, r) <-> longest P s a r) /\ (g s = None <-> forall x a r, s = x ++ r -> ~ P x a).
Proof.
  intros F. split; [apply f_val|]. split; [intros a r; split|split].
  - intros H. destruct (f_sound _ _ _ H) as (x & -> & G). exists x. split; [reflexivity|]. split; [exact G|]. intros y r' v' E G'.
    rewrite E in F. destruct (f_reach _ _ _ G' F) as (a1 & r1 & E1 & L). rewrite <- E, H in E1. injection E1 as <- <-. apply (f_equal (@List.length prim)) in E. rewrite !app_length in E. lia.
  - intros (x & -> & G & M). destruct (f_reach _ _ _ G F) as (a1 & r1 & E1 & L). destruct (f_sound _ _ _ E1) as (y & E & G'). specialize (M _ _ _ E G').
    pose proof (f_equal (@List.length prim) E) as EL. rewrite !app_length in EL. destruct (app_same _ _ _ _ E) as [<- <-]; [lia|]. rewrite E1. now rewrite (P_one _ _ _ _ G G' F).
  - intros H x a r -> G. destruct (f_reach _ _ _ G F) as (a1 & r1 & E1 & L). congruence.
  - intros H. destruct (g s) as [[a r]|] eqn:E; [|reflexivity]. destruct (f_sound _ _ _ E) as (x & E1 & G). destruct (H _ _ _ E1 G).
Qed.

Inductive g_commas : list prim -> list A -> Prop :=
| c_end s : spaces s -> g_commas s []
| c_cons s t x a y l : spaces s -> spaces t -> P x a -> g_commas y l -> g_commas (s ++ Tok Comma :: t ++ x ++ y) (a :: l).
Lemma list_commas x l : g_list P x l <-> exists y z a k, x = y ++ z /\ l = a :: k /\ P y a /\ g_commas z k.
Proof.
  split.
  - induction 1 as [x a s H S|x a s t y l H S T _ IH]; [exists x, s, a, []; repeat split; auto; now constructor|]. destruct IH as (y1 & z1 & a1 & k1 & -> & -> & H1 & C1).
    exists x, (s ++ Tok Comma :: t ++ y1 ++ z1), a, (a1 :: k1). repeat split; auto. now constructor.
  - intros (y & z & a & k & -> & -> & H & C). revert y a H. induction C as [s S|s t x a y l S T H C IH]; intros y0 a0 H0; constructor; auto.
Qed.
Definition lst (v : list A) (s : list prim) : parsed (list A) := match list_loop (S (List.length s)) f v s with Val x => x | _ => None end.
Lemma lloop_step n v s : list_loop (S n) f v s =
  match skip_spaces s with Tok Comma :: r => match g (skip_spaces r) with Some (x, r) => list_loop n f (v ++ [x]) r | None => Val None end | s => Val (Some (v, s)) end.
Proof. cbn [list_loop]. destruct (skip_spaces s) as [|[[]| |] q]; try reflexivity. rewrite f_val. reflexivity. Qed.
Lemma g_short s a r : g s = Some (a, r) -> (List.length r < List.length s)%nat.
Proof. intros H. apply f_sound in H. destruct H as (x & -> & G). apply P_solid in G. destruct G as (p & t & -> & _). rewrite app_length. cbn. lia. Qed.
Lemma comma_short s q a r : skip_spaces s = Tok Comma :: q -> g (skip_spaces q) = Some (a, r) -> (List.length r < List.length s)%nat.
Proof. intros E H. apply g_short in H. pose proof (skip_short s). pose proof (skip_short q). rewrite E in *. cbn in *. lia. Qed.
Lemma lloop_more : forall n k v s, (List.length s <= n)%nat -> (List.length s < k)%nat -> list_loop k f v s = Val (lst v s).
Proof.
  unfold lst. assert (K : forall n j k v s, (List.length s <= n)%nat -> (List.length s < j)%nat -> (List.length s < k)%nat -> list_loop j f v s = list_loop k f v s /\ exists o, list_loop j f v s = Val o).
  { induction n as [|n IH]; intros j k v s L1 L2 L3; (destruct j; [lia|]); (destruct k; [lia|]); rewrite !lloop_step; destruct (skip_spaces s) as [|p q] eqn:E; eauto.
    - destruct s; [discriminate|cbn in L1; lia].
    - destruct p as [[]| |]; eauto. destruct (g (skip_spaces q)) as [[a r]|] eqn:G; eauto. pose proof (comma_short _ _ _ _ E G). apply IH; lia. }
  intros n k v s L1 L2. destruct (K n k (S (List.length s)) v s) as (E & o & H); [lia..|]. rewrite <- E, H. reflexivity.
Qed.
Lemma lst_step v s : lst v s = match skip_spaces s with Tok Comma :: r => match g (skip_spaces r) with Some (x, r) => lst (v ++ [x]) r | None => None end | s => Some (v, s) end.
Proof.
  unfold lst at 1. rewrite lloop_step. destruct (skip_spaces s) as [|[[]| |] q] eqn:E; try reflexivity. destruct (g (skip_spaces q)) as [[a r]|] eqn:G; [|reflexivity]. pose proof (comma_short _ _ _ _ E G).
  rewrite (lloop_more (List.length r)) by lia. reflexivity.
Qed.
Definition quiet (r : list prim) : Prop := (forall t, r <> Tok Whitespace :: t) /\ (forall t, r <> Tok Comma :: t).
Lemma lst_quiet v s : quiet (skip_spaces s) -> lst v s = Some (v, skip_spaces s).
Proof. intros [_ Q]. rewrite lst_step. destruct (skip_spaces s) as [|[[]| |] q]; try reflexivity. now destruct (Q q). Qed.
Lemma lst_comma v s t x q : spaces s -> spaces t -> solid x -> lst v (s ++ Tok Comma :: t ++ x ++ q) = match g (x ++ q) with Some (a, r) => lst (v ++ [a]) r | None => None end.
Proof. intros S T X. rewrite lst_step. rewrite skip_app by exact S. cbn [skip_spaces]. now rewrite (skip_pre _ _ _ T X). Qed.
Lemma lst_skip v s r : spaces s -> lst v (s ++ r) = lst v r.
Proof. intros S. rewrite (lst_step v (s ++ r)), (lst_step v r). now rewrite skip_app. Qed.
Lemma lst_sound : forall n v s v' r, (List.length s <= n)%nat -> lst v s = Some (v', r) -> quiet r /\ exists x l, s = x ++ r /\ v' = v ++ l /\ g_commas x l.
Proof.
  induction n as [|n IH]; intros v s v' r L H; destruct (skip_split s) as (a & E & S & N & _).
  - destruct s; [|cbn in L; lia]. injection H as <- <-. split; [split; discriminate|]. exists [], []. split; [reflexivity|]. split; [now rewrite app_nil_r|]. constructor. constructor.
  - assert (D : (exists q, skip_spaces s = Tok Comma :: q) \/ quiet (skip_spaces s)).
    { destruct (skip_spaces s) as [|p q] eqn:Q; [right; split; discriminate|]. assert (D : p = Tok Comma \/ p <> Tok Comma) by (destruct p as [[]| |]; auto; right; discriminate).
      destruct D as [->|D]; [left; eauto|right]. split; [exact N|]. intros t [= -> _]. congruence. }
    destruct D as [(q & Q)|Q].
    + rewrite lst_step, Q in H. destruct (g (skip_spaces q)) as [[b u]|] eqn:G; [|discriminate]. pose proof (comma_short _ _ _ _ Q G). apply IH in H; [|lia]. destruct H as (QR & y & l & -> & -> & C).
      split; [exact QR|]. destruct (skip_split q) as (t & ET & T & _). apply f_sound in G. destruct G as (x & EX & G). exists (a ++ Tok Comma :: t ++ x ++ y), (b :: l).
      split; [rewrite E, Q, ET, EX; repeat (rewrite <- app_assoc; cbn [app]); reflexivity|]. split; [now rewrite <- app_assoc|]. now constructor.
    + rewrite (lst_quiet v s Q) in H. injection H as <- <-. split; [exact Q|]. exists a, []. rewrite app_nil_r. repeat split; auto. now constructor.
Qed.
Lemma lst_short v s v' r : lst v s = Some (v', r) -> (List.length r <= List.length (skip_spaces s))%nat.
Proof.
  intros H. destruct (skip_split s) as (a & E & S & _). rewrite E, lst_skip in H by exact S. apply (lst_sound (List.length (skip_spaces s))) in H; [|lia].
  destruct H as (_ & x & l & -> & _). rewrite app_length. lia.
Qed.
Lemma commas_ends y b l r : g_commas y (b :: l) -> ends (y ++ r).
Proof. intros C. inversion C as [|s t x a y1 l1 S T H C1]; subst. right. exists ((t ++ x ++ y1) ++ r). rewrite <- app_assoc, skip_app by exact S. reflexivity. Qed.
(** A piece of spaces and what follows. *)
Lemma spaces_suffix s q : spaces s -> forall x r, x ++ q = s ++ r -> (exists s', spaces s' /\ q = s' ++ r) \/ (List.length q <= List.length r)%nat.
Proof.
  induction 1 as [|p s <- S IH]; intros x r E.
  - right. apply (f_equal (@List.length prim)) in E. rewrite app_length in E. cbn in E. lia.
  - destruct x as [|p x]; [left; exists (Tok Whitespace :: s); split; [now constructor|exact E]|]. injection E as -> E. apply (IH x r E).
Qed.
Lemma suffix_skip s x q r : spaces s -> x ++ q = s ++ r -> (List.length (skip_spaces q) <= List.length r)%nat.
Proof. intros S E. destruct (spaces_suffix s q S x r E) as [(s' & S' & ->)|L]; [rewrite skip_app by exact S'; apply skip_short|pose proof (skip_short q); lia]. Qed.
Lemma after (x y q r : list prim) : x ++ r = y ++ q -> (List.length x <= List.length y)%nat -> exists z, y = x ++ z /\ r = z ++ q.
Proof. revert y. induction x as [|p x IH]; intros y E L; [exists y; auto|]. destruct y as [|p' y]; [cbn in L; lia|]. injection E as -> E. cbn in L. destruct (IH y E) as (z & -> & ->); [lia|]. now exists z. Qed.
Lemma lst_reach x l : g_commas x l -> forall v r v' r', fine (x ++ r) -> lst v (x ++ r) = Some (v', r') -> (List.length r' <= List.length r)%nat.
Proof.
  induction 1 as [s S|s t x a y l S T H C IH]; intros v r v' r' F E.
  - rewrite lst_skip in E by exact S. apply lst_short in E. pose proof (skip_short r). lia.
  - repeat (rewrite <- app_assoc in *; cbn [app] in * ). rewrite (lst_comma v s t x (y ++ r) S T (P_solid _ _ H)) in E.
    assert (Fx : fine (x ++ y ++ r)) by (apply (fine_right (s ++ Tok Comma :: t)); rewrite <- app_assoc; exact F). destruct l as [|b l].
    + inversion C as [s1 S1|]; subst s1. destruct (f_reach _ _ _ H Fx) as (a1 & r1 & E1 & L). rewrite E1 in E. destruct (f_sound _ _ _ E1) as (x1 & E2 & _). apply lst_short in E.
      pose proof (f_equal (@List.length prim) E2) as EL. rewrite !app_length in EL. rewrite !app_length in L. destruct (after x x1 r1 (y ++ r) E2) as (z & -> & E3); [lia|]. pose proof (suffix_skip y z r1 r S1 (eq_sym E3)). lia.
    + rewrite (f_exact x a (y ++ r) H (commas_ends _ _ _ _ C) Fx) in E. apply (IH _ _ _ _ (fine_right _ _ Fx) E).
Qed.
Lemma last_space (y z : list prim) s : spaces s -> y ++ z = s -> tight y -> y = [].
Proof.
  intros S <- (u & q & E & N & _). exfalso. apply N. rewrite E in S. unfold spaces in S. rewrite <- app_assoc, !Forall_app in S. destruct S as (_ & S & _). inversion S. congruence.
Qed.
Lemma tight_right (x y : list prim) : tight (x ++ y) -> y = [] \/ tight y.
Proof.
  intros (z & q & E & N). destruct y as [|p y _] using rev_ind; [now left|right]. rewrite app_assoc in E. apply app_inj_tail in E. destruct E as [_ ->]. exists y, q. auto.
Qed.
Lemma item_ok x a y l r : P x a -> g_commas y l -> fine (x ++ y ++ r) -> (forall x2 b q, x ++ y ++ r = x2 ++ q -> P x2 b -> (List.length x2 <= List.length (x ++ y))%nat) -> g (x ++ y ++ r) = Some (a, y ++ r).
Proof.
  intros H C F M. destruct l as [|b l]; [|exact (f_exact x a (y ++ r) H (commas_ends _ _ _ _ C) F)].
  inversion C as [s1 S1|]; subst s1. destruct (f_reach _ _ _ H F) as (a1 & r1 & E1 & L). destruct (f_sound _ _ _ E1) as (x1 & E2 & G). specialize (M _ _ _ E2 G).
  pose proof (f_equal (@List.length prim) E2) as EL. rewrite !app_length in EL. rewrite !app_length in L. rewrite !app_length in M. destruct (after x x1 r1 (y ++ r) E2) as (z & -> & E3); [lia|].
  assert (Z : z = []). { destruct (tight_right _ _ (P_tight _ _ G)) as [Z|Z]; [exact Z|]. rewrite app_length in M. symmetry in E3. destruct (after z y r r1 E3) as (z1 & E4 & _); [lia|]. apply (last_space z z1 y S1); auto. }
  subst z. rewrite app_nil_r in G. cbn [app] in E3. rewrite E1, <- E3. now rewrite (P_one _ _ _ _ H G F).
Qed.
Lemma lst_max x l : g_commas x l -> forall v r, fine (x ++ r) -> (forall t, r <> Tok Comma :: t) -> (forall y l' r', x ++ r = y ++ r' -> g_commas y l' -> (List.length y <= List.length x)%nat) -> lst v (x ++ r) = Some (v ++ l, r).
Proof.
  induction 1 as [s Sp|s t x a y l Sp T H C IH]; intros v r F NC M.
  - rewrite lst_skip by exact Sp. assert (Q : quiet r). { split; [|exact NC]. intros t ->. specialize (M (s ++ [Tok Whitespace]) [] t). rewrite <- app_assoc, app_length in M. cbn in M. enough (List.length s + 1 <= List.length s)%nat by lia.
      apply M; [reflexivity|]. constructor. apply Forall_app. split; [exact Sp|]. constructor; auto. }
    assert (E : skip_spaces r = r). { destruct r as [|p r]; [reflexivity|]. apply skip_none. intros ->. now apply (proj1 Q r). }
    rewrite app_nil_r. pose proof (lst_quiet v r) as K. rewrite E in K. exact (K Q).
  - repeat (rewrite <- app_assoc in *; cbn [app] in * ). rewrite (lst_comma v s t x (y ++ r) Sp T (P_solid _ _ H)).
    assert (Fx : fine (x ++ y ++ r)) by (apply (fine_right (s ++ Tok Comma :: t)); rewrite <- app_assoc; exact F).
    assert (I : g (x ++ y ++ r) = Some (a, y ++ r)).
    { apply (item_ok x a y l r H C Fx). intros x2 b q E2 G. specialize (M (s ++ Tok Comma :: t ++ x2 ++ []) [b] q). rewrite app_nil_r in M.
      rewrite !app_length in M. cbn [List.length] in M. rewrite !app_length in M. rewrite app_length. enough (List.length s + S (List.length t + List.length x2) <= List.length s + S (List.length t + (List.length x + List.length y)))%nat by lia.
      apply M; [rewrite E2; repeat (rewrite <- app_assoc; cbn [app]); reflexivity|]. rewrite <- (app_nil_r x2). constructor; auto. constructor. constructor. }
    rewrite I. rewrite (IH _ r (fine_right _ _ Fx) NC); [now rewrite <- app_assoc|]. intros y2 l2 r2 E2 C2. specialize (M (s ++ Tok Comma :: t ++ x ++ y2) (a :: l2) r2).
    rewrite !app_length in M. cbn [List.length] in M. rewrite !app_length in M. enough (List.length s + S (List.length t + (List.length x + List.length y2)) <= List.length s + S (List.length t + (List.length x + List.length y)))%nat by lia.
    apply M; [rewrite E2; repeat (rewrite <- app_assoc; cbn [app]); reflexivity|]. now constructor.
Qed.
Definition list_val (s : list prim) : parsed (list A) := match g s with Some (a, r) => lst [a] r | None => None end.
Lemma list_of_val s : list_of f s = Val (list_val s).
Proof. unfold list_of, list_val. rewrite f_val. cbn [pbind]. destruct (g s) as [[a r]|]; [|reflexivity]. apply (lloop_more (List.length r)); lia. Qed.
Lemma list_sound s l r : list_val s = Some (l, r) -> quiet r /\ exists x, s = x ++ r /\ g_list P x l.
Proof.
  unfold list_val. destruct (g s) as [[a q]|] eqn:G; [|discriminate]. intros H. apply f_sound in G. destruct G as (x & -> & G). apply (lst_sound (List.length q)) in H; [|lia].
  destruct H as (Q & y & k & -> & -> & C). split; [exact Q|]. exists (x ++ y). split; [now rewrite app_assoc|]. apply list_commas. exists x, y, a, k. auto.
Qed.
Lemma list_iff s l r : fine s -> (list_val s = Some (l, r) <-> longest (g_list P) s l r /\ forall t, r <> Tok Comma :: t).
Proof.
  intros F. split.
  - intros H. destruct (list_sound _ _ _ H) as ((_ & Q) & x & E & G). split; [|exact Q]. exists x. split; [exact E|]. split; [exact G|]. intros y r' l' E' G'.
    enough (List.length r <= List.length r')%nat by (rewrite E in E'; apply (f_equal (@List.length prim)) in E'; rewrite !app_length in E'; lia).
    apply list_commas in G'. destruct G' as (y1 & z1 & a & k & -> & -> & G1 & C1). rewrite <- app_assoc in E'. subst s. unfold list_val in H. rewrite E' in H, F. clear E'.
    destruct k as [|b k].
    + inversion C1 as [s1 S1|]; subst s1. destruct (f_reach _ _ _ G1 F) as (a1 & r1 & E1 & L). rewrite E1 in H. destruct (f_sound _ _ _ E1) as (x1 & E2 & _). apply lst_short in H.
      pose proof (f_equal (@List.length prim) E2) as EL. rewrite !app_length in EL. rewrite !app_length in L. destruct (after y1 x1 r1 (z1 ++ r') E2) as (z & -> & E3); [lia|]. pose proof (suffix_skip z1 z r1 r' S1 (eq_sym E3)). lia.
    + rewrite (f_exact y1 a (z1 ++ r') G1 (commas_ends _ _ _ _ C1) F) in H. apply (lst_reach _ _ C1 _ _ _ _ (fine_right _ _ F) H).
  - intros ((x & -> & G & M) & NC). apply list_commas in G. destruct G as (y & z & a & k & -> & -> & G & C). rewrite <- app_assoc in *. unfold list_val.
    rewrite (item_ok y a z k r G C F).
    + apply (lst_max z k C [a] r (fine_right _ _ F) NC). intros y2 l2 r2 E2 C2. specialize (M (y ++ y2) r2 (a :: l2)). rewrite !app_length in M. enough (List.length y + List.length y2 <= List.length y + List.length z)%nat by lia.
      apply M; [rewrite E2; now rewrite app_assoc|]. apply list_commas. exists y, y2, a, l2. auto.
    + intros x2 b q E2 G2. rewrite app_length in *. apply (M x2 q [b] E2). rewrite <- (app_nil_r x2). constructor; [exact G2|constructor].
Qed.
Lemma list_complete s l : g_list P s l -> fine s -> list_val s = Some (l, []).
Proof.
  intros G F. apply list_iff; [exact F|]. split; [|discriminate]. exists s. rewrite app_nil_r. split; [reflexivity|]. split; [exact G|]. intros y r' l' E _. rewrite E, app_length. lia.
Qed.
End Lists.

(** * Simple and relative selectors *)

Definition simple_of (m : namespaces) (s : list prim) : parsed simple_sel :=
  match type_selector m s with Some (t, r) => Some (SimpleType t, r) | None => option_map (fun '(u, r) => (SimpleSub u, r)) (sub_of m s) end.
Lemma simple_val m s : simple_selector m s = Val (simple_of m s).
Proof. unfold simple_selector, simple_of. destruct (type_selector m s) as [[t r]|]; [reflexivity|]. rewrite sub_val. cbn [pbind]. now destruct (sub_of m s) as [[u r]|]. Qed.
Lemma simple_sound m s a r : simple_of m s = Some (a, r) -> exists x, s = x ++ r /\ g_simple (declared_code m) end_code x a.
Proof.
  unfold simple_of. destruct (type_selector m s) as [[t q]|] eqn:T.
  - intros [= <- <-]. apply type_sound in T. destruct T as (x & -> & T). exists x. split; [reflexivity|now constructor].
  - destruct (sub_of m s) as [[u q]|] eqn:U; [|discriminate]. intros [= <- <-]. apply sub_iff in U. destruct U as (x & -> & U). exists x. split; [reflexivity|now constructor].
Qed.
Lemma simple_sub m x u r : g_sub (declared_code m) end_code x u -> simple_of m (x ++ r) = Some (SimpleSub u, r).
Proof. intros U. unfold simple_of. rewrite (head_no_type m _ (head_app x r (sub_head _ _ _ _ U))). assert (E : sub_of m (x ++ r) = Some (u, r)) by (apply sub_iff; eauto). now rewrite E. Qed.
Lemma simple_exact m x a r : g_simple (declared_code m) end_code x a -> ends r -> fine (x ++ r) -> simple_of m (x ++ r) = Some (a, r).
Proof.
  intros [x0 t T|x0 u U] En F; [|now apply simple_sub]. unfold simple_of. rewrite (type_complete m x0 t r T); [reflexivity| |exact (proj2 (ends_stop r En))].
  intros q -> _. destruct En as [En|[t0 En]]; discriminate En.
Qed.
Lemma simple_reach m x a r : g_simple (declared_code m) end_code x a -> fine (x ++ r) -> exists a' r', simple_of m (x ++ r) = Some (a', r') /\ (List.length r' <= List.length r)%nat.
Proof.
  intros [x0 t T|x0 u U] F; [|rewrite (simple_sub _ _ _ _ U); eauto]. unfold simple_of. destruct (type_reach m x0 t r T F) as (t' & r' & -> & L). eauto.
Qed.
Lemma simple_solid D E x a : g_simple D E x a -> solid x.
Proof. intros [x0 t T|x0 u U]; [now apply type_solid in T|now apply sub_head, head_solid in U]. Qed.
Lemma simple_tight D E x a : g_simple D E x a -> tight x.
Proof. intros [x0 t T|x0 u U]; [now apply type_tight in T|now apply sub_tight in U]. Qed.
Lemma comp_ends m x c r : g_compound (declared_code m) end_code x c -> ends r -> fine (x ++ r) -> comp_of m (x ++ r) = Some (c, r).
Proof. intros C En F. apply comp_exact; auto. now apply ends_stop. Qed.

Definition rel_of (m : namespaces) (s : list prim) : parsed (list item) :=
  let '(v, r) := match combinator s with Some (k, r) => ([Comb k], r) | None => ([], s) end in option_map (fun '(l, r) => (v ++ l, r)) (cx_of m r).
Lemma rel_val m s : relative_selector m s = Val (rel_of m s).
Proof. unfold relative_selector, rel_of. destruct (combinator s) as [[k r]|]; rewrite cx_val; cbn [pbind]; [destruct (cx_of m r) as [[l q]|]|destruct (cx_of m s) as [[l q]|]]; reflexivity. Qed.
Lemma rel_sound m s l r : rel_of m s = Some (l, r) -> exists x, s = x ++ r /\ g_relative (declared_code m) end_code x l.
Proof.
  unfold rel_of. destruct (combinator s) as [[k q]|] eqn:K.
  - apply comb_iff in K. destruct K as (y & -> & K). destruct (cx_of m q) as [[l1 q1]|] eqn:C; [|discriminate]. intros [= <- <-]. apply cx_sound in C. destruct C as (x & -> & C).
    exists (y ++ x). split; [now rewrite app_assoc|]. now constructor.
  - destruct (cx_of m s) as [[l1 q1]|] eqn:C; [|discriminate]. intros [= <- <-]. apply cx_sound in C. destruct C as (x & -> & C). exists x. split; [reflexivity|now constructor].
Qed.
Lemma rel_none m x l r : g_complex (declared_code m) end_code x l -> rel_of m (x ++ r) = cx_of m (x ++ r).
Proof. intros G. unfold rel_of. rewrite (cx_no_comb _ _ x l r G). now destruct (cx_of m (x ++ r)) as [[l1 q1]|]. Qed.
Lemma rel_comb m y k x l r : g_comb y k -> g_complex (declared_code m) end_code x l -> rel_of m (y ++ x ++ r) = option_map (fun '(l, r) => (Comb k :: l, r)) (cx_of m (x ++ r)).
Proof. intros K G. unfold rel_of. assert (E : combinator (y ++ x ++ r) = Some (k, x ++ r)) by (apply comb_iff; eauto). now rewrite E. Qed.
Lemma rel_exact m x a r : g_relative (declared_code m) end_code x a -> ends r -> fine (x ++ r) -> rel_of m (x ++ r) = Some (a, r).
Proof.
  intros [x0 l G|y k x0 l K G] En F; [rewrite (rel_none m x0 l r G); now apply cx_exact|]. rewrite <- app_assoc in *. rewrite (rel_comb m y k x0 l r K G). apply fine_right in F. now rewrite (cx_exact m x0 l r G En F).
Qed.
Lemma rel_reach m x a r : g_relative (declared_code m) end_code x a -> fine (x ++ r) -> exists a' r', rel_of m (x ++ r) = Some (a', r') /\ (List.length r' <= List.length r)%nat.
Proof.
  intros [x0 l G|y k x0 l K G] F; [rewrite (rel_none m x0 l r G); now apply cx_reach with (l := l)|]. rewrite <- app_assoc in *. rewrite (rel_comb m y k x0 l r K G). apply fine_right in F.
  destruct (cx_reach m x0 l r G F) as (l' & r' & -> & L). eexists _, _. split; [reflexivity|exact L].
Qed.
Lemma rel_solid D E x a : g_relative D E x a -> solid x.
Proof. intros [x0 l G|y k x0 l K G]; [now apply cx_solid in G|]. apply solid_app. now apply comb_solid in K. Qed.
Lemma rel_tight D E x a : g_relative D E x a -> tight x.
Proof. intros [x0 l G|y k x0 l K G]; [now apply cx_tight in G|]. apply tight_app. now apply cx_tight in G. Qed.

(** * The grammar of the code and the grammar of the standard *)

Section Change.
Variables D D' : list Z -> Prop.
Variables E E' : list prim -> Z -> Prop.
(** What may be changed: names with a bar behind them, and blocks. *)
Variable here : list prim -> Prop.
Hypothesis here_part : forall a x b, here (a ++ x ++ b) -> here x.
Hypothesis here_name : forall n, here [ident n; bar] -> D n -> D' n.
Hypothesis here_block : forall v a, here [Blk 0x5B v] -> g_body D E v a -> g_body D' E' v a.
Lemma here_left x y : here (x ++ y) -> here x. Proof. apply (here_part []). Qed.
Lemma here_right x y : here (x ++ y) -> here y. Proof. intros H. apply (here_part x y []). now rewrite app_nil_r. Qed.
Lemma change_prefix x p : here x -> g_prefix D x p -> g_prefix D' x p.
Proof. intros H G. revert H. destruct G; intros H'; constructor. now apply here_name. Qed.
Lemma change_wq x p n : here x -> g_wq D x p n -> g_wq D' x p n.
Proof. intros H G. revert H. destruct G as [|x0 p0 n0 G]; intros H; constructor. apply change_prefix; [now apply here_left in H|exact G]. Qed.
Lemma change_sub x u : here x -> g_sub D E x u -> g_sub D' E' x u.
Proof. intros H G. revert H. destruct G; intros H'; constructor; auto. Qed.
Lemma change_type x t : here x -> g_type D x t -> g_type D' x t.
Proof. intros H G. revert H. destruct G as [x0 p n W| |x0 p W]; intros H; constructor; [now apply change_wq|]. apply change_prefix; [now apply here_left in H|exact W]. Qed.
Lemma change_simple x a : here x -> g_simple D E x a -> g_simple D' E' x a.
Proof. intros H G. revert H. destruct G as [x0 t T|x0 u U]; intros H; constructor; [now apply change_type|now apply change_sub]. Qed.
Lemma change_tail b x l : g_tail D E b x l -> here x -> g_tail D' E' b x l.
Proof.
  induction 1 as [b|x u y l S _ IH|b x p y l P _ IH|x p y l P _ IH]; intros H; constructor; auto; try (apply IH; now apply here_right in H). apply change_sub; [now apply here_left in H|exact S].
Qed.
Lemma change_comp x c : here x -> g_compound D E x c -> g_compound D' E' x c.
Proof.
  intros H G. revert H. destruct G as [x0 t y l T F|y l F N]; intros H; constructor; auto; [apply change_type; [now apply here_left in H|exact T]|apply change_tail; [exact F|now apply here_right in H]|now apply change_tail].
Qed.
Lemma change_cx x l : g_complex D E x l -> here x -> g_complex D' E' x l.
Proof.
  induction 1 as [x c C|x c s k y l C S _ IH]; intros H; constructor; auto; [now apply change_comp|apply change_comp; [now apply here_left in H|exact C]|]. apply IH. now apply here_right, here_right in H.
Qed.
Lemma change_rel x l : g_relative D E x l -> here x -> g_relative D' E' x l.
Proof. intros [x0 l0 G|y k x0 l0 K G] H; [apply g_rel_none|apply g_rel_comb]; auto; apply change_cx; auto. now apply here_right in H. Qed.
Lemma change_list {A : Type} (P Q : list prim -> A -> Prop) x l : (forall x a, P x a -> here x -> Q x a) -> g_list P x l -> here x -> g_list Q x l.
Proof.
  intros K. induction 1 as [x a s H S|x a s t y l H S T _ IH]; intros W; constructor; auto.
  - apply K; auto. now apply here_left in W.
  - apply K; auto. now apply here_left in W.
  - apply IH. apply here_right, here_right in W. apply (here_right (Tok Comma :: t) y W).
Qed.
End Change.
Lemma body_change (D D' : list Z -> Prop) (E E' : list prim -> Z -> Prop) v a : (forall n, D n -> D' n) -> (forall w i, E w i -> E' w i) -> g_body D E v a -> g_body D' E' v a.
Proof.
  intros HD HE. assert (W : forall x p n, g_wq D x p n -> g_wq D' x p n) by (intros x p n; apply (change_wq D D' (fun _ => True)); auto). intros []; econstructor; eauto.
Qed.
Lemma end_standard_code w i : end_standard w i -> end_code w i.
Proof.
  intros [[-> ->]|(n & s & -> & M & S)]; (split; [discriminate|]); [right; split; [reflexivity|discriminate]|left; eauto].
Qed.
(** Names that are no prefixes do not stand before a bar, and every block is an attribute. *)
Definition regular (m : namespaces) (s : list prim) : Prop :=
  (forall a n r, s = a ++ ident n :: bar :: r -> n = [0x2A] \/ n = [] -> declared m n) /\ (forall v, In (Blk 0x5B v) s -> exists a, g_body (declared m) end_standard v a).
Lemma regular_part m a x b : regular m (a ++ x ++ b) -> regular m x.
Proof.
  intros [H1 H2]. split; [|intros v I; apply H2; rewrite !in_app_iff; auto]. intros a0 n r ->. apply (H1 (a ++ a0) n (r ++ b)). repeat (rewrite <- app_assoc; cbn [app]). reflexivity.
Qed.
Lemma regular_name m n : regular m [ident n; bar] -> declared_code m n -> declared m n.
Proof. intros [H _] [D|D]; [exact D|]. exact (H [] n [] eq_refl D). Qed.
Lemma regular_block m v a : regular m [Blk 0x5B v] -> g_body (declared_code m) end_code v a -> g_body (declared m) end_standard v a.
Proof.
  intros [_ H] G. destruct (H v (or_introl eq_refl)) as (b & B). enough (a = b) as -> by exact B.
  assert (C : g_body (declared_code m) end_code v b) by (apply (body_change (declared m) (declared_code m) end_standard end_code); [unfold declared_code; auto|apply end_standard_code|exact B]).
  apply body_iff in G, C. congruence.
Qed.
Lemma complex_list_standard m x l : regular m x -> g_list (g_complex (declared_code m) end_code) x l -> g_list (g_complex (declared m) end_standard) x l.
Proof.
  intros R G. apply (change_list (regular m) (regular_part m) (g_complex (declared_code m) end_code)); auto. intros y a C H.
  apply (change_cx (declared_code m) (declared m) end_code end_standard (regular m) (regular_part m)); auto; [apply regular_name|intros v b; apply regular_block].
Qed.
Lemma complex_list_code m x l : g_list (g_complex (declared m) end_standard) x l -> g_list (g_complex (declared_code m) end_code) x l.
Proof.
  intros G. apply (change_list (fun _ => True) (fun _ _ _ H => H) (g_complex (declared m) end_standard)); auto. intros y a C H.
  apply (change_cx (declared m) (declared_code m) end_standard end_code (fun _ => True)); auto; [unfold declared_code; auto|]. intros v b _ B. apply (body_change (declared m) (declared_code m) end_standard end_code); [unfold declared_code; auto|apply end_standard_code|exact B].
Qed.
Lemma fine_no_star s : ~ In star s -> fine s.
Proof. intros N a r ->. destruct N. rewrite in_app_iff. right. now left. Qed.
