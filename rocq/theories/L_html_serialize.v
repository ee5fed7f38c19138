(** The serialiser against a recursive description of the markup of a tree. *)
From Coq Require Import ZArith List Bool String Lia.
From Verif Require Import M_infra M_encoding M_labels M_html_serialize.
Import ListNotations.
Open Scope Z_scope.

(** ** The markup of a tree (spec), after the HTML standard's fragment serialisation algorithm *)
Definition html_names (l : list string) (ns : Z) (local : list Z) : Prop := ns = 1 /\ In local (map lit l).
Definition void_names : list string :=
  ["area"; "base"; "br"; "col"; "embed"; "hr"; "img"; "input"; "link"; "meta"; "param"; "source"; "track"; "wbr";
   "basefont"; "bgsound"; "frame"; "keygen"]%string.
Definition raw_names : list string := ["style"; "script"; "xmp"; "iframe"; "noembed"; "noframes"; "plaintext"]%string.

Definition Void (n : node) : Prop := match n with NElement ns _ local _ _ => html_names void_names ns local | _ => False end.
Definition Raw (n : node) : Prop := match n with NElement ns _ local _ _ => html_names raw_names ns local | _ => False end.

(** the name that is written for an element *)
Inductive Named : node -> list Z -> Prop :=
| Named_local : forall ns p l a c, (ns = 1 \/ ns = 2 \/ ns = 3) -> Named (NElement ns p l a c) l
| Named_other : forall ns l a c, ~ (ns = 1 \/ ns = 2 \/ ns = 3) -> Named (NElement ns [] l a c) l
| Named_prefix : forall ns p l a c, ~ (ns = 1 \/ ns = 2 \/ ns = 3) -> p <> [] -> Named (NElement ns p l a c) (p ++ 0x3A :: l).

(** a character in text and in an attribute value *)
Inductive Char (attribute : bool) : Z -> list Z -> Prop :=
| Char_amp : Char attribute 0x26 (lit "&amp;")
| Char_nbsp : Char attribute 0xA0 (lit "&nbsp;")
| Char_quot : attribute = true -> Char attribute 0x22 (lit "&quot;")
| Char_lt : attribute = false -> Char attribute 0x3C (lit "&lt;")
| Char_gt : attribute = false -> Char attribute 0x3E (lit "&gt;")
| Char_other : forall c, c <> 0x26 -> c <> 0xA0 -> (attribute = true -> c <> 0x22) ->
    (attribute = false -> c <> 0x3C /\ c <> 0x3E) -> Char attribute c [c].
Inductive Chars (attribute : bool) : list Z -> list Z -> Prop :=
| Chars_nil : Chars attribute [] []
| Chars_cons : forall c s e r, Char attribute c e -> Chars attribute s r -> Chars attribute (c :: s) (e ++ r).

(** the name that is written for an attribute *)
Inductive AttrNamed : attr -> list Z -> Prop :=
| AN_none : forall p l v, AttrNamed (Attr 0 p l v) l
| AN_xml : forall p l v, AttrNamed (Attr 5 p l v) (lit "xml:" ++ l)
| AN_xmlns : forall p v, AttrNamed (Attr 6 p (lit "xmlns") v) (lit "xmlns")
| AN_xmlns_other : forall p l v, l <> lit "xmlns" -> AttrNamed (Attr 6 p l v) (lit "xmlns:" ++ l)
| AN_xlink : forall p l v, AttrNamed (Attr 4 p l v) (lit "xlink:" ++ l)
| AN_local : forall ns l v, ns <> 0 -> ns <> 4 -> ns <> 5 -> ns <> 6 -> AttrNamed (Attr ns [] l v) l
| AN_prefix : forall ns p l v, ns <> 0 -> ns <> 4 -> ns <> 5 -> ns <> 6 -> p <> [] -> AttrNamed (Attr ns p l v) (p ++ 0x3A :: l).
Inductive Attrs : list attr -> list Z -> Prop :=
| Attrs_nil : Attrs [] []
| Attrs_cons : forall a l name value r, AttrNamed a name -> Chars true (at_value a) value -> Attrs l r ->
    Attrs (a :: l) (0x20 :: name ++ lit "=""" ++ value ++ lit """" ++ r).

(** the markup of a node whose parent is [parent], and of a row of nodes *)
Inductive Markup : node -> node -> list Z -> Prop :=
| Mk_element : forall parent n name attrs a inner ns p l c, n = NElement ns p l attrs c -> Named n name -> Attrs attrs a -> ~ Void n ->
    Inside n c inner -> Markup parent n (lit "<" ++ name ++ a ++ lit ">" ++ inner ++ lit "</" ++ name ++ lit ">")
| Mk_void : forall parent n name attrs a ns p l c, n = NElement ns p l attrs c -> Named n name -> Attrs attrs a -> Void n ->
    Markup parent n (lit "<" ++ name ++ a ++ lit ">")
| Mk_text : forall parent d e, ~ Raw parent -> Chars false d e -> Markup parent (NText d) e
| Mk_raw : forall parent d, Raw parent -> Markup parent (NText d) d
| Mk_comment : forall parent d, Markup parent (NComment d) (lit "<!--" ++ d ++ lit "-->")
| Mk_instruction : forall parent t d, Markup parent (NInstruction t d) (lit "<?" ++ t ++ lit " " ++ d ++ lit ">")
| Mk_doctype : forall parent n, Markup parent (NDoctype n) (lit "<!DOCTYPE " ++ n ++ lit ">")
with Inside : node -> list node -> list Z -> Prop :=
| In_nil : forall parent, Inside parent [] []
| In_cons : forall parent n l a b, Markup parent n a -> Inside parent l b -> Inside parent (n :: l) (a ++ b).

(** ** The model's output *)
Definition ok_text (parent n : node) : bool := match node_text parent n with Some _ => true | None => false end.
Definition own (parent n : node) : list Z := match node_text parent n with Some s => s | None => [] end.
Definition close (n : node) : list Z := match end_tag n with Some s => s | None => [] end.

Fixpoint render (parent n : node) {struct n} : list Z :=
  own parent n ++
  match n with
  | NElement _ _ _ _ c => (fix inside (l : list node) := match l with [] => [] | m :: r => render n m ++ inside r end) c ++ close n
  | _ => []
  end.
Definition renders (parent : node) (l : list node) : list Z := flat_map (render parent) l.
Lemma render_element parent ns p l a c : render parent (NElement ns p l a c) =
  own parent (NElement ns p l a c) ++ renders (NElement ns p l a c) c ++ close (NElement ns p l a c).
Proof. reflexivity. Qed.

(** every text has an element for its parent *)
Fixpoint good (parent n : node) {struct n} : bool :=
  ok_text parent n &&
  match n with
  | NElement _ _ _ _ c => (fix all (l : list node) := match l with [] => true | m :: r => good n m && all r end) c
  | _ => true
  end.
Lemma good_element parent ns p l a c : good parent (NElement ns p l a c) = forallb (good (NElement ns p l a c)) c.
Proof. reflexivity. Qed.

Fixpoint size (n : node) : nat :=
  match n with
  | NElement _ _ _ _ c => S ((fix sum (l : list node) := match l with [] => O | m :: r => (size m + sum r)%nat end) c)
  | _ => 1%nat
  end.
Definition sizes (l : list node) : nat := list_sum (map size l).
Lemma size_element ns p l a c : size (NElement ns p l a c) = S (sizes c).
Proof. cbn [size]. f_equal. unfold sizes. induction c as [|m r IH]; [reflexivity|]. cbn [map list_sum fold_right]. unfold list_sum in IH. cbn [map fold_right]. rewrite <- IH. reflexivity. Qed.

Lemma node_ind' (P : node -> Prop)
  (He : forall ns p l a c, Forall P c -> P (NElement ns p l a c)) (Ht : forall d, P (NText d)) (Hi : forall t d, P (NInstruction t d))
  (Hc : forall d, P (NComment d)) (Hd : forall d, P (NDoctype d)) (Hdoc : forall c, P (NDocument c)) : forall n, P n.
Proof.
  fix IH 1. intros [ns p l a c|d|t d|d|d|c]; [|apply Ht|apply Hi|apply Hc|apply Hd|apply Hdoc]. apply He.
  induction c as [|n c IHc]; constructor; [apply IH|exact IHc].
Qed.

(** ** Pushing children *)
Lemma insert_end A (y : list A) l v : insert_at (List.length y) v (y ++ l) = y ++ v :: l.
Proof. unfold insert_at. rewrite firstn_app, firstn_all, skipn_app, skipn_all, Nat.sub_diag. cbn. rewrite app_nil_r. reflexivity. Qed.
Lemma push_children_rev path n y : push_children path n y = y ++ rev (pointers_from 0 path n (children n)).
Proof.
  unfold push_children. generalize (pointers_from 0 path n (children n)) as c. intro c.
  assert (H : forall l, fold_left (fun y0 c0 => insert_at (List.length y) c0 y0) c (y ++ l) = y ++ rev c ++ l).
  { induction c as [|v c IH]; intro l; [reflexivity|]. cbn [fold_left rev]. rewrite insert_end. rewrite IH, <- app_assoc. reflexivity. }
  specialize (H []). rewrite !app_nil_r in H. exact H.
Qed.

(** ** Closing *)
Lemma same_path_spec a b : same_path a b = true <-> a = b.
Proof.
  revert b. induction a as [|x a IH]; intros [|y b]; cbn; try (split; congruence).
  rewrite andb_true_iff, IH, Nat.eqb_eq. split; [intros [-> ->]; reflexivity|intro H; inversion H; auto].
Qed.
Definition deeper (p : list nat) (e : open_node) : Prop := (List.length p < List.length (fst e))%nat /\ is_element (snd e) = true.
Definition closes (xs : list open_node) : list Z := flat_map (fun e => close (snd e)) xs.
Lemma closes_app a b : closes (a ++ b) = closes a ++ closes b.
Proof. apply flat_map_app. Qed.
Lemma end_tag_element n : is_element n = true -> end_tag n = Some (close n).
Proof. unfold close, end_tag. destruct n; try discriminate. intros _. cbn [get_tag_name]. destruct (serializes_as_void _); reflexivity. Qed.
Lemma close_to_ok p P xs x : Forall (deeper p) xs -> close_to p (xs ++ (p, P) :: x) = Some (closes xs, (p, P) :: x).
Proof.
  induction 1 as [|[q n] xs [H1 H2] _ IH]; cbn [app close_to].
  - rewrite (proj2 (same_path_spec p p) eq_refl). reflexivity.
  - destruct (same_path q p) eqn:E; [apply same_path_spec in E; subst q; cbn in H1; lia|].
    cbn [fst snd] in *. rewrite (end_tag_element _ H2), IH. reflexivity.
Qed.
Lemma close_all_ok xs p P : Forall (fun e => is_element (snd e) = true) xs -> close_all (xs ++ [(p, P)]) = Some (closes xs).
Proof.
  induction 1 as [|[q n] xs H _ IH]; [reflexivity|]. cbn [app close_all closes flat_map snd] in *.
  destruct (xs ++ [(p, P)]) eqn:E; [destruct xs; discriminate|]. rewrite <- E in *. rewrite IH, (end_tag_element _ H). reflexivity.
Qed.

Lemma loop_step fuel x y cur out : serialize_loop (S fuel) x (y ++ [cur]) out =
  match close_to (tl (p_path cur)) x with
  | None => Bad
  | Some (o, x1) =>
      match node_text (p_parent cur) (p_node cur) with
      | None => Bad
      | Some s =>
          if is_element (p_node cur) then
            serialize_loop fuel ((p_path cur, p_node cur) :: x1) (push_children (p_path cur) (p_node cur) y) (out ++ o ++ s)
          else serialize_loop fuel x1 y (out ++ o ++ s)
      end
  end.
Proof.
  cbn [serialize_loop]. destruct (y ++ [cur]) as [|p0 l] eqn:E; [destruct y; discriminate|]. rewrite <- E, last_last, removelast_last. reflexivity.
Qed.

(** One node: what is written, and which nodes are left open. *)
Definition step_spec (n : node) : Prop := forall i p P x xs y out fuel, good P n = true -> Forall (deeper p) xs ->
  exists xs1 T, serialize_loop (size n + fuel) (xs ++ (p, P) :: x) (y ++ [Pointer (i :: p) P n]) out =
      serialize_loop fuel (xs1 ++ (p, P) :: x) y (out ++ T) /\
    Forall (deeper p) xs1 /\ T ++ closes xs1 = closes xs ++ render P n.

Lemma row_ok l : Forall step_spec l -> forall i p P x xs y out fuel, forallb (good P) l = true -> Forall (deeper p) xs ->
  exists xs1 T, serialize_loop (sizes l + fuel) (xs ++ (p, P) :: x) (y ++ rev (pointers_from i p P l)) out =
      serialize_loop fuel (xs1 ++ (p, P) :: x) y (out ++ T) /\
    Forall (deeper p) xs1 /\ T ++ closes xs1 = closes xs ++ renders P l.
Proof.
  induction 1 as [|n l Hn _ IH]; intros i p P x xs y out fuel G D.
  - exists xs, []. cbn. rewrite !app_nil_r. auto.
  - cbn [forallb] in G. apply andb_true_iff in G. destruct G as [G1 G2]. cbn [pointers_from rev].
    destruct (Hn i p P x xs (y ++ rev (pointers_from (S i) p P l)) out (sizes l + fuel)%nat G1 D) as (xs1 & T1 & E1 & D1 & R1).
    destruct (IH (S i) p P x xs1 y (out ++ T1) fuel G2 D1) as (xs2 & T2 & E2 & D2 & R2).
    exists xs2, (T1 ++ T2). rewrite app_assoc. replace (sizes (n :: l) + fuel)%nat with (size n + (sizes l + fuel))%nat by (change (sizes (n :: l)) with (size n + sizes l)%nat; lia).
    split; [etransitivity; [exact E1|]; etransitivity; [exact E2|]; rewrite <- app_assoc; reflexivity|]. split; [exact D2|]. rewrite <- app_assoc, R2, app_assoc, R1, <- app_assoc. reflexivity.
Qed.

Lemma node_ok : forall n, step_spec n.
Proof.
  assert (L : forall n, is_element n = false -> size n = 1%nat -> (forall P, good P n = ok_text P n) -> (forall P, render P n = own P n) -> step_spec n).
  { intros n He Hs Hg Hr i p P x xs y out fuel G D. rewrite Hs, Hr. rewrite Hg in G. cbn [Nat.add]. rewrite loop_step. cbn [p_path p_parent p_node tl].
    rewrite close_to_ok by exact D. rewrite He. unfold ok_text in G. unfold own. destruct (node_text P n) as [s|]; [|discriminate].
    exists [], (closes xs ++ s). split; [reflexivity|]. split; [constructor|]. cbn. rewrite !app_nil_r. reflexivity. }
  assert (L1 : forall n, is_element n = false -> (forall P, good P n = ok_text P n && true) -> (forall P, render P n = own P n ++ []) -> size n = 1%nat -> step_spec n).
  { intros n A B C D. apply L; [exact A|exact D|intro P; rewrite B, andb_true_r; reflexivity|intro P; rewrite C, app_nil_r; reflexivity]. }
  apply node_ind'; [|intros; apply L1; reflexivity..].
  - intros ns q l a c Hc i p P x xs y out fuel G D. rewrite good_element in G. set (n := NElement ns q l a c) in *.
    unfold n at 1. rewrite size_element. cbn [Nat.add]. rewrite loop_step. cbn [p_path p_parent p_node tl].
    rewrite close_to_ok by exact D. assert (Eo : node_text P n = Some (own P n)) by reflexivity. rewrite Eo.
    change (is_element n) with true. cbv iota. rewrite push_children_rev. change (children n) with c.
    destruct (row_ok c Hc 0%nat (i :: p) n ((p, P) :: x) [] y (out ++ closes xs ++ own P n) fuel G (Forall_nil _)) as (xs1 & T & E & D1 & R).
    cbn [app] in E. exists (xs1 ++ [(i :: p, n)]), (closes xs ++ own P n ++ T). rewrite E. split; [rewrite <- !app_assoc; reflexivity|].
    split; [apply Forall_app; split|].
    + eapply Forall_impl; [|exact D1]. intros [u v] [K1 K2]. split; [cbn in *; lia|exact K2].
    + constructor; [split; [cbn; lia|reflexivity]|constructor].
    + rewrite closes_app. change (closes [(i :: p, n)]) with (close n ++ []). rewrite app_nil_r. cbn [closes flat_map app] in R.
      unfold n at 3. rewrite render_element. fold n. rewrite <- !app_assoc. rewrite (app_assoc T), R. reflexivity.
Qed.

Theorem to_string_renders n fuel : forallb (good n) (children n) = true -> serializes_as_void n = false ->
  (sizes (children n) < fuel)%nat -> to_string fuel n = Val (renders n (children n)).
Proof.
  intros G V F. unfold to_string. rewrite V, push_children_rev. cbn [app].
  replace fuel with (sizes (children n) + S (fuel - S (sizes (children n))))%nat by lia.
  destruct (row_ok (children n) (proj2 (Forall_forall _ _) (fun m _ => node_ok m)) 0%nat [] n [] [] [] [] (S (fuel - S (sizes (children n)))) G (Forall_nil _)) as (xs1 & T & E & D & R).
  cbn [app] in E. rewrite E. cbn [serialize_loop app]. rewrite close_all_ok; [rewrite R; reflexivity|].
  eapply Forall_impl; [|exact D]. intros e [_ K]. exact K.
Qed.

(** ** The model's output is the markup *)
Lemma same_str_spec a b : same_str a b = true <-> a = b.
Proof.
  revert b. induction a as [|x a IH]; intros [|y b]; cbn; try (split; congruence).
  rewrite andb_true_iff, IH, Z.eqb_eq. split; [intros [-> ->]; reflexivity|intro H; inversion H; auto].
Qed.
Lemma one_of_spec s l : one_of s l = true <-> In s (map lit l).
Proof.
  unfold one_of. rewrite existsb_exists, in_map_iff. split; intros (x & A & B).
  - exists x. apply same_str_spec in B. auto.
  - exists x. split; [exact B|]. apply same_str_spec. auto.
Qed.
Lemma void_spec n : serializes_as_void n = true <-> Void n.
Proof.
  unfold serializes_as_void, is_void_element, Void, html_names. destruct n; cbn [orb]; try (split; [discriminate|tauto]).
  rewrite orb_true_iff, !andb_true_iff, !one_of_spec. unfold ns_HTML. rewrite Z.eqb_eq.
  unfold void_names. cbn [map In]. tauto.
Qed.
Lemma named_spec n s : get_tag_name n = Some s -> Named n s.
Proof.
  unfold get_tag_name. destruct n as [ns p l a c| | | | |]; try discriminate. unfold ns_HTML, ns_MathML, ns_SVG.
  destruct ((ns =? 1) || (ns =? 2) || (ns =? 3)) eqn:E; intro H; inversion H; subst.
  - constructor. rewrite !orb_true_iff, !Z.eqb_eq in E. tauto.
  - assert (N : ~ (ns = 1 \/ ns = 2 \/ ns = 3)) by lia. destruct p; [apply Named_other; exact N|apply Named_prefix; [exact N|discriminate]].
Qed.
Lemma char_spec b c : Char b c (escape_code_point b c).
Proof.
  unfold escape_code_point. destruct b.
  - destruct (Z.eqb_spec c 0x26); [subst; constructor|]. destruct (Z.eqb_spec c 0xA0); [subst; constructor|].
    destruct (Z.eqb_spec c 0x22); [subst; constructor; reflexivity|]. apply Char_other; auto. discriminate.
  - destruct (Z.eqb_spec c 0x26); [subst; constructor|]. destruct (Z.eqb_spec c 0xA0); [subst; constructor|].
    destruct (Z.eqb_spec c 0x3C); [subst; constructor; reflexivity|]. destruct (Z.eqb_spec c 0x3E); [subst; constructor; reflexivity|].
    apply Char_other; auto. discriminate.
Qed.
Lemma chars_spec b s : Chars b s (escape_string s b).
Proof. unfold escape_string. induction s as [|c s IH]; [constructor|]. cbn [flat_map]. constructor; [apply char_spec|exact IH]. Qed.
Lemma attr_named_spec a : AttrNamed a (get_attributes_serialized_name a).
Proof.
  destruct a as [ns p l v]. unfold get_attributes_serialized_name, ns_XML, ns_XMLNS, ns_XLink. cbn [at_ns at_local at_prefix].
  destruct (Z.eqb_spec ns 0); [subst; constructor|]. destruct (Z.eqb_spec ns 5); [subst; constructor|].
  destruct (Z.eqb_spec ns 6).
  - subst. destruct (same_str l (lit "xmlns")) eqn:E.
    + apply same_str_spec in E. subst. constructor.
    + constructor. intros ->. rewrite (proj2 (same_str_spec _ _) eq_refl) in E. discriminate.
  - destruct (Z.eqb_spec ns 4); [subst; constructor|]. destruct p; [apply AN_local; auto|apply AN_prefix; auto; discriminate].
Qed.
Lemma attrs_spec l : Attrs l (attributes_text l).
Proof.
  induction l as [|a l IH]; [constructor|]. unfold attributes_text in *. cbn [flat_map].
  replace ((0x20 :: get_attributes_serialized_name a ++ 0x3D :: 0x22 :: escape_string (at_value a) true ++ [0x22]) ++ _) with
    (0x20 :: get_attributes_serialized_name a ++ lit "=""" ++ escape_string (at_value a) true ++ lit """" ++
      flat_map (fun a0 => 0x20 :: get_attributes_serialized_name a0 ++ 0x3D :: 0x22 :: escape_string (at_value a0) true ++ [0x22]) l).
  - constructor; [apply attr_named_spec|apply chars_spec|exact IH].
  - cbn [app lit]. f_equal. rewrite <- !app_assoc. f_equal. cbn [app]. f_equal. f_equal. rewrite <- app_assoc. reflexivity.
Qed.

(** void elements have no children, and there is no document inside the tree *)
Fixpoint Tidy (n : node) : Prop :=
  match n with
  | NElement _ _ _ _ c => (Void n -> c = []) /\ (fix all (l : list node) := match l with [] => True | m :: r => Tidy m /\ all r end) c
  | NDocument _ => False
  | _ => True
  end.
Definition Tidies (l : list node) : Prop := Forall Tidy l.
Lemma Tidy_element ns p l a c : Tidy (NElement ns p l a c) <-> (Void (NElement ns p l a c) -> c = []) /\ Tidies c.
Proof.
  cbn [Tidy]. match goal with |- ?x /\ _ <-> _ => set (V := x) end. clearbody V. unfold Tidies.
  assert (H : (fix all (l0 : list node) : Prop := match l0 with [] => True | m :: r => Tidy m /\ all r end) c <-> Forall Tidy c).
  { induction c as [|m r IH]; [split; [constructor|auto]|]. rewrite IH. split; [intros [A B]; constructor; assumption|intro A; inversion A; auto]. }
  rewrite H. reflexivity.
Qed.

Lemma node_markup : forall n P, good P n = true -> Tidy n -> Markup P n (render P n).
Proof.
  apply (node_ind' (fun n => forall P, good P n = true -> Tidy n -> Markup P n (render P n))).
  - intros ns p l a c Hc P G T. rewrite good_element in G. apply Tidy_element in T. destruct T as [T1 T2]. rewrite render_element.
    set (n := NElement ns p l a c) in *.
    assert (I : Inside n c (renders n c)).
    { clear T1. revert G T2. clearbody n. unfold renders. induction Hc as [|m r Hm _ IH]; intros G T2; [constructor|]. cbn [forallb flat_map] in *.
      apply andb_true_iff in G. inversion T2; subst. constructor; [apply Hm; tauto|apply IH; tauto]. }
    destruct (get_tag_name n) as [name|] eqn:En; [|discriminate].
    assert (Eo : own P n = 0x3C :: name ++ attributes_text a ++ [0x3E]) by (unfold own, node_text, n; fold n; rewrite En; reflexivity).
    rewrite Eo. unfold close, end_tag. rewrite En. destruct (serializes_as_void n) eqn:V.
    + apply void_spec in V. rewrite (T1 V). cbn [renders flat_map app]. rewrite app_nil_r.
      apply (Mk_void P n name a _ ns p l c); [reflexivity|apply named_spec; exact En|apply attrs_spec|exact V].
    + assert (NV : ~ Void n) by (rewrite <- void_spec, V; discriminate).
      replace ((0x3C :: name ++ attributes_text a ++ [0x3E]) ++ renders n c ++ lit "</" ++ name ++ lit ">") with
        (lit "<" ++ name ++ attributes_text a ++ lit ">" ++ renders n c ++ lit "</" ++ name ++ lit ">").
      * eapply Mk_element; [reflexivity|apply named_spec; exact En|apply attrs_spec|exact NV|exact I].
      * cbn [lit app]. f_equal. rewrite <- !app_assoc. reflexivity.
  - intros d P G _. cbn [good render] in *. rewrite andb_true_r in G. rewrite app_nil_r. unfold ok_text, own, node_text in *.
    destruct P as [ns p l a c| | | | |]; try discriminate. unfold ns_HTML in *.
    destruct ((ns =? 1) && one_of l _) eqn:E.
    + apply Mk_raw. apply andb_true_iff in E. destruct E as [E1 E2]. apply one_of_spec in E2. split; [lia|exact E2].
    + apply Mk_text; [|apply chars_spec]. intros [R1 R2]. assert (K : (ns =? 1) && one_of l raw_names = true) by (apply andb_true_iff; split; [lia|apply one_of_spec; exact R2]).
      unfold raw_names in K. congruence.
  - intros t d P _ _. cbn [render]. rewrite app_nil_r. apply (Mk_instruction P t d).
  - intros d P _ _. cbn [render]. rewrite app_nil_r. apply (Mk_comment P d).
  - intros d P _ _. cbn [render]. rewrite app_nil_r. apply (Mk_doctype P d).
  - intros c P _ [].
Qed.

Theorem to_string_markup n fuel : forallb (good n) (children n) = true -> Tidies (children n) -> ~ Void n -> (sizes (children n) < fuel)%nat ->
  exists out, to_string fuel n = Val out /\ Inside n (children n) out.
Proof.
  intros G T V F. exists (renders n (children n)). split; [apply to_string_renders; [exact G| |exact F]; destruct (serializes_as_void n) eqn:E; [apply void_spec in E; contradiction|reflexivity]|].
  revert G T. generalize (children n) as c. intro c. unfold renders, Tidies. induction c as [|m r IH]; intros G T; [constructor|]. cbn [forallb flat_map] in *.
  apply andb_true_iff in G. inversion T; subst. constructor; [apply node_markup; tauto|apply IH; tauto].
Qed.
