(** What the small algorithms of the HTML standard's tree construction say, and that those of the parser do so: elements in
    scope, implied end tags, the insertion mode to which the parser is reset, and the list of active formatting elements. *)
From Coq Require Import ZArith List Bool String Lia.
From Verif Require Import M_infra M_encoding M_labels M_html M_html_serialize M_dom_names M_dom M_dom2.
Import ListNotations.
Open Scope Z_scope.
Open Scope list_scope.

(** *** Names *)

Lemma same_str_eq : forall a b : list Z, same_str a b = true <-> a = b.
Proof.
  induction a as [|x a IH]; intros [|y b]; cbn; split; intro E; try discriminate; try reflexivity.
  - apply andb_prop in E. destruct E as [E1 E2]. apply Z.eqb_eq in E1. apply IH in E2. congruence.
  - injection E as <- <-. rewrite Z.eqb_refl. cbn. now apply IH.
Qed.
Lemma teqb_eq : forall a b, teqb a b = true <-> a = b.
Proof.
  intros a b. split.
  - destruct a, b; cbn; intro E; try reflexivity; try discriminate. apply same_str_eq in E. congruence.
  - intros <-. destruct a; try reflexivity. cbn. now apply same_str_eq.
Qed.
Lemma teqb_refl : forall a, teqb a a = true.
Proof. intro a. now apply teqb_eq. Qed.
Lemma among_In : forall t l, among t l = true <-> In t l.
Proof.
  intros t l. unfold among. rewrite existsb_exists. split.
  - intros (x & I & E). apply teqb_eq in E. now subst.
  - intro I. exists t. split; [exact I|]. apply teqb_refl.
Qed.

(** *** Elements in scope *)

(** HTML standard, 13.2.4.2: going down from the current node, [target] is met before a node of the list [scope]. *)
Definition In_scope (target scope : nat -> Prop) (stack : list nat) : Prop :=
  exists up i down, stack = up ++ i :: down /\ target i /\ forall j, In j up -> ~ target j /\ ~ scope j.
(** The walk ends: there is a node of the one or the other kind. *)
Definition Ends (target scope : nat -> Prop) (stack : list nat) : Prop := exists i, In i stack /\ (target i \/ scope i).

Lemma scope_from_spec : forall d (target scope : nat -> bool) l,
  Ends (fun i => target i = true) (fun i => scope i = true) (map en_node l) ->
  exists b, scope_from d target scope l = Val b /\
    (b = true <-> In_scope (fun i => target i = true) (fun i => scope i = true) (map en_node l)).
Proof.
  intros d target scope. induction l as [|e l IH]; intros (i & I & K).
  - destruct I.
  - cbn [map] in I. cbn [scope_from]. destruct (target (en_node e)) eqn:T.
    + exists true. split; [reflexivity|]. split; [intros _|intros _; reflexivity].
      exists [], (en_node e), (map en_node l). repeat split; try exact T; destruct H.
    + destruct (scope (en_node e)) eqn:C.
      * exists false. split; [reflexivity|]. split; [intro; discriminate|].
        intros (up & j & down & E & Tj & U). destruct up as [|k up]; cbn in E; injection E as E1 E2.
        -- subst j. congruence.
        -- subst k. destruct (U (en_node e) (or_introl eq_refl)) as [_ U2]. now elim U2.
      * destruct I as [I|I]; [subst i; destruct K; congruence|].
        destruct IH as (b & E & S); [now exists i|].
        exists b. split; [exact E|]. rewrite S. split.
        -- intros (up & j & down & E1 & Tj & U). exists (en_node e :: up), j, down. split; [cbn; congruence|].
           split; [exact Tj|]. intros k [<-|Ik]; [split; congruence|now apply U].
        -- intros (up & j & down & E1 & Tj & U). destruct up as [|k up]; cbn in E1; injection E1 as E2 E3.
           ++ subst j. congruence.
           ++ exists up, j, down. split; [exact E3|]. split; [exact Tj|]. intros m Im. apply U. now right.
Qed.
Lemma scope_from_bad : forall d (target scope : nat -> bool) l,
  ~ Ends (fun i => target i = true) (fun i => scope i = true) (map en_node l) -> scope_from d target scope l = Bad.
Proof.
  intros d target scope. induction l as [|e l IH]; intro N; [reflexivity|]. cbn [scope_from].
  destruct (target (en_node e)) eqn:T; [elim N; exists (en_node e); split; [now left|now left]|].
  destruct (scope (en_node e)) eqn:C; [elim N; exists (en_node e); split; [now left|now right]|].
  apply IH. intros (i & I & K). apply N. exists i. split; [now right|exact K].
Qed.

(** *** Implied end tags *)

(** The elements of the stack from the current node on that have one of the names go, and only they. *)
Inductive Implied (d : list cell) (l : list tname) (except : option tname) : list nat -> list nat -> Prop :=
| Implied_stop : forall x, (forall i r, x = i :: r -> ~ (ns_of d i = ns_HTML /\ In (name_of d i) l /\ except <> Some (name_of d i))) ->
    Implied d l except x x
| Implied_pop : forall i x y, ns_of d i = ns_HTML -> In (name_of d i) l -> except <> Some (name_of d i) ->
    Implied d l except x y -> Implied d l except (i :: x) y.
Lemma drop_implied_spec : forall d l except x,
  Implied d l except (map en_node x) (map en_node (drop_implied d l except x)).
Proof.
  intros d l except. induction x as [|e x IH].
  - constructor. intros; discriminate.
  - cbn [drop_implied]. destruct (match except with Some u => teqb (name_of d (en_node e)) u | None => false end) eqn:X.
    + constructor. intros i r E (_ & _ & N). injection E as <- <-. destruct except as [u|]; [|discriminate].
      apply teqb_eq in X. congruence.
    + destruct ((ns_of d (en_node e) =? ns_HTML) && among (name_of d (en_node e)) l) eqn:A.
      * apply andb_prop in A. destruct A as [A1 A2]. apply Z.eqb_eq in A1. apply among_In in A2.
        apply Implied_pop; [exact A1|exact A2| |exact IH].
        intros ->. now rewrite teqb_refl in X.
      * constructor. intros i r E (N1 & N2 & _). injection E as <- <-. apply Z.eqb_eq in N1. apply among_In in N2.
        now rewrite N1, N2 in A.
Qed.
Lemma drop_implied_suffix : forall d l except x, exists up, x = up ++ drop_implied d l except x.
Proof.
  intros d l except. induction x as [|e x (up & IH)]; [now exists []|]. cbn [drop_implied].
  destruct (match except with Some u => teqb (name_of d (en_node e)) u | None => false end); [now exists []|].
  destruct ((ns_of d (en_node e) =? ns_HTML) && among (name_of d (en_node e)) l); [|now exists []].
  exists (e :: up). cbn. now rewrite <- IH.
Qed.

(** *** The insertion mode *)

(** HTML standard, 13.2.4.1, reset the insertion mode appropriately, for a parser that is not a fragment parser: the
    mode that a node decides, if it does, given the nodes below it. *)
Definition reset_table (s : st) (i : nat) (below : list nat) : option (outcome mode) :=
  let d := s_dom s in
  let last := match below with [] => true | _ => false end in
  if negb (ns_of d i =? ns_HTML) then (if last then Some (Val M_in_body) else None) else
  match name_of d i with
  | T_select =>
      Some (Val (match find (fun j => (ns_of d j =? ns_HTML) && (teqb (name_of d j) T_template || teqb (name_of d j) T_table)) below with
                 | Some j => if teqb (name_of d j) T_table then M_in_select_in_table else M_in_select
                 | None => M_in_select
                 end))
  | T_td | T_th => if last then Some (Val M_in_body) else Some (Val M_in_cell)
  | T_tr => Some (Val M_in_row)
  | T_tbody | T_thead | T_tfoot => Some (Val M_in_table_body)
  | T_caption => Some (Val M_in_caption)
  | T_colgroup => Some (Val M_in_column_group)
  | T_table => Some (Val M_in_table)
  | T_template => Some (match s_templates s with m :: _ => Val m | [] => Bad end)
  | T_head => if last then Some (Val M_in_body) else Some (Val M_in_head)
  | T_body => Some (Val M_in_body)
  | T_frameset => Some (Val M_in_frameset)
  | T_html => Some (Val (match s_head s with None => M_before_head | Some _ => M_after_head end))
  | _ => if last then Some (Val M_in_body) else None
  end.
Inductive Reset (s : st) : list nat -> outcome mode -> Prop :=
| Reset_here : forall i r m, reset_table s i r = Some m -> Reset s (i :: r) m
| Reset_down : forall i r m, reset_table s i r = None -> Reset s r m -> Reset s (i :: r) m.

Lemma reset_select_find : forall d l,
  reset_select d l =
  match find (fun j => (ns_of d j =? ns_HTML) && (teqb (name_of d j) T_template || teqb (name_of d j) T_table)) (map en_node l) with
  | Some j => if teqb (name_of d j) T_table then M_in_select_in_table else M_in_select
  | None => M_in_select
  end.
Proof.
  intros d. induction l as [|e l IH]; [reflexivity|]. cbn [reset_select map find]. unfold is_html, is_el.
  destruct (ns_of d (en_node e) =? ns_HTML); cbn [andb]; [|exact IH].
  destruct (teqb (name_of d (en_node e)) T_template) eqn:T; cbn [orb].
  - apply teqb_eq in T. now rewrite T.
  - destruct (teqb (name_of d (en_node e)) T_table) eqn:B; [now rewrite B|exact IH].
Qed.
Lemma map_nil : forall {A B} (f : A -> B) l (X Y : bool), (match map f l with [] => X | _ => Y end) = (match l with [] => X | _ => Y end).
Proof. intros A B f [|x l]; reflexivity. Qed.
Lemma reset_from_spec : forall s l, s_fragment s = false -> l <> [] -> Reset s (map en_node l) (reset_from s l).
Proof.
  intros s l F. induction l as [|e l IH]; intro N; [congruence|]. clear N. cbn [map reset_from]. rewrite F, andb_false_r.
  assert (D : forall m, (match l with [] => true | _ => false end) = false -> reset_table s (en_node e) (map en_node l) = None ->
              m = reset_from s l -> Reset s (en_node e :: map en_node l) m).
  { intros m L T ->. apply Reset_down; [exact T|]. apply IH. intro; subst l; discriminate. }
  assert (H : forall m, reset_table s (en_node e) (map en_node l) = Some m -> Reset s (en_node e :: map en_node l) m)
    by (intros; now apply Reset_here).
  unfold reset_table in D, H. rewrite map_nil in D, H. unfold is_html, is_el. rewrite reset_select_find.
  destruct (ns_of (s_dom s) (en_node e) =? ns_HTML); cbn [negb andb orb] in D, H |- *.
  - destruct (name_of (s_dom s) (en_node e)); cbn -[Z.eqb same_str find teqb] in D, H |- *;
      destruct l as [|e2 l2]; cbn -[reset_from teqb find] in D, H |- *;
      repeat match goal with |- context [teqb ?a ?b] => let r := eval vm_compute in (teqb a b) in change (teqb a b) with r end;
      cbn -[reset_from teqb find] in D, H |- *;
      first [ now apply H | now apply D | idtac ].
  - destruct l as [|e2 l2]; cbn -[reset_from] in D, H |- *; [now apply H|now apply D].
Qed.

(** *** The list of active formatting elements *)

(** the entries behind the last marker, from the back to the front *)
Fixpoint since_marker (l : list formatting) : list entry :=
  match l with Some e :: r => e :: since_marker r | _ => [] end.
Definition alike (d : list cell) (i : nat) (l : list formatting) : nat :=
  List.length (filter (fun e => same_element d i (en_node e)) (since_marker l)).
Lemma count_same_alike : forall d i l, count_same d i l = alike d i l.
Proof.
  intros d i. induction l as [|[e|] l IH]; [reflexivity| |reflexivity]. cbn [count_same]. unfold alike. cbn [since_marker filter].
  fold (alike d i l). destruct (same_element d i (en_node e)); cbn [List.length]; rewrite IH; reflexivity.
Qed.
Lemma erase_earliest_alike : forall d i l n, alike d i l = n -> (0 < n)%nat -> alike d i (erase_earliest d i n l) = pred n.
Proof.
  intros d i. induction l as [|[e|] l IH]; intros n A P.
  - unfold alike in A. cbn in A. lia.
  - unfold alike in A. cbn [since_marker filter] in A. cbn [erase_earliest].
    destruct (same_element d i (en_node e)) eqn:SE.
    + cbn [List.length] in A. fold (alike d i l) in A. destruct n as [|[|n]]; [lia| |].
      * cbn. lia.
      * unfold alike. cbn [since_marker filter]. rewrite SE. cbn [List.length].
        fold (alike d i (erase_earliest d i (pred (S (S n))) l)). rewrite IH by (cbn; lia). cbn. lia.
    + fold (alike d i l) in A. unfold alike. cbn [since_marker filter]. rewrite SE.
      fold (alike d i (erase_earliest d i n l)). now apply IH.
  - unfold alike in A. cbn in A. lia.
Qed.
