(** Tokenising the text that the serialiser writes for a tree gives the tokens of the tree. *)
From Coq Require Import ZArith List Bool Lia String.
From Verif Require Import M_infra M_encoding M_labels M_html M_html_ncr M_html_serialize L_html_names L_html1 L_html2 L_html3 L_html4 L_html6 L_html7 L_html8 L_html_serialize.
Import ListNotations.
Open Scope Z_scope.
Open Scope html_scope.

(** ** The tokens of a tree (spec) *)
Definition rcdata_names : list string := ["title"; "textarea"]%string.
Definition rawtext_names : list string := ["style"; "xmp"; "iframe"; "noembed"; "noframes"]%string.
(** the state in which tree construction reads the inside of an element *)
Definition by_name (l : list token) : option state :=
  match last l TEof with
  | TStart g =>
      if one_of (g_name g) rcdata_names then Some RCDATA_state
      else if one_of (g_name g) rawtext_names then Some RAWTEXT_state
      else if one_of (g_name g) ["script"%string] then Some script_data_state
      else if one_of (g_name g) ["plaintext"%string] then Some PLAINTEXT_state
      else None
  | _ => None
  end.
Definition special_names : list string := (rcdata_names ++ rawtext_names ++ ["script"; "plaintext"]%string)%list.

Inductive AttrsRead : list attr -> list attribute -> Prop :=
| AR_nil : AttrsRead [] []
| AR_cons : forall a l name r, AttrNamed a name -> named_attr a name -> AttrsRead l r -> ~ In name (map a_name r) ->
    AttrsRead (a :: l) (Attribute name (at_value a) false :: r).
Inductive Texts : list node -> list Z -> Prop :=
| Tx_nil : Texts [] []
| Tx_cons : forall a l d, Texts l d -> Texts (NText a :: l) (a ++ d).

Inductive Reads : node -> list token -> Prop :=
| R_void : forall ns p l attrs name ats, Void (NElement ns p l attrs []) -> Named (NElement ns p l attrs []) name -> AttrsRead attrs ats ->
    Reads (NElement ns p l attrs []) [TStart (Tag name false ats)]
| R_element : forall ns p l attrs c name ats toks, ~ Void (NElement ns p l attrs c) -> Named (NElement ns p l attrs c) name -> AttrsRead attrs ats ->
    tag_name_ok name -> ~ In name (map lit special_names) -> Row c toks ->
    Reads (NElement ns p l attrs c) (TStart (Tag name false ats) :: toks ++ [TEnd (Tag name false [])])
| R_rcdata : forall ns p l attrs c name ats d, Named (NElement ns p l attrs c) name -> AttrsRead attrs ats ->
    In name (map lit rcdata_names) -> Texts c d -> Forall (fun c => c <> 0 /\ c <> 0xD) d ->
    Reads (NElement ns p l attrs c) (TStart (Tag name false ats) :: map TChar d ++ [TEnd (Tag name false [])])
| R_raw : forall p l attrs c ats d, AttrsRead attrs ats ->
    In l (map lit rawtext_names) -> Texts c d -> Forall (fun c => c <> 0 /\ c <> 0xD) d -> no_close d ->
    Reads (NElement 1 p l attrs c) (TStart (Tag l false ats) :: map TChar d ++ [TEnd (Tag l false [])])
| R_script : forall p attrs c ats d, AttrsRead attrs ats ->
    Texts c d -> Forall (fun c => c <> 0 /\ c <> 0xD) d -> no_follow 0x2F d -> no_follow 0x21 d ->
    Reads (NElement 1 p (lit "script") attrs c) (TStart (Tag (lit "script") false ats) :: map TChar d ++ [TEnd (Tag (lit "script") false [])])
| R_text : forall d, Forall (fun c => c <> 0xD) d -> Reads (NText d) (map TChar d)
| R_comment : forall d, comment_ok d -> Reads (NComment d) [TComment d]
| R_instruction : forall t d, Forall (fun c => c <> 0 /\ c <> 0xD /\ c <> 0x3E) (t ++ d) -> Reads (NInstruction t d) [TComment (lit "?" ++ t ++ lit " " ++ d)]
| R_doctype : forall n, n <> [] -> Forall doctype_char n -> Reads (NDoctype n) [TDoctype (Doctype n [] [] false)]
with Row : list node -> list token -> Prop :=
| Row_nil : Row [] []
| Row_cons : forall n l a b, Reads n a -> Row l b -> Row (n :: l) (a ++ b).

Scheme Reads_row := Induction for Reads Sort Prop with Row_reads := Induction for Row Sort Prop.
Combined Scheme Reads_both from Reads_row, Row_reads.

(** ** Names *)
Lemma named_fun n s : Named n s -> get_tag_name n = Some s.
Proof.
  destruct 1 as [ns p l a c H|ns l a c H|ns p l a c H Np]; unfold get_tag_name, ns_HTML, ns_MathML, ns_SVG.
  - destruct (Z.eqb_spec ns 1), (Z.eqb_spec ns 2), (Z.eqb_spec ns 3); cbn [orb]; try reflexivity. lia.
  - destruct (Z.eqb_spec ns 1), (Z.eqb_spec ns 2), (Z.eqb_spec ns 3); try lia. reflexivity.
  - destruct (Z.eqb_spec ns 1), (Z.eqb_spec ns 2), (Z.eqb_spec ns 3); try lia. unfold qualified_name. cbn [orb]. destruct p; [contradiction|reflexivity].
Qed.
Lemma attr_named_fun a s : AttrNamed a s -> get_attributes_serialized_name a = s.
Proof.
  unfold get_attributes_serialized_name, ns_XML, ns_XMLNS, ns_XLink.
  destruct 1 as [p l v|p l v|p v|p l v N|p l v|ns l v A B C D|ns p l v A B C D E]; cbn [at_ns at_local at_prefix].
  - reflexivity.
  - reflexivity.
  - reflexivity.
  - cbn [Z.eqb]. destruct (same_str l (lit "xmlns")) eqn:E; [apply same_str_spec in E; contradiction|reflexivity].
  - reflexivity.
  - destruct (Z.eqb_spec ns 0), (Z.eqb_spec ns 5), (Z.eqb_spec ns 6), (Z.eqb_spec ns 4); try contradiction. reflexivity.
  - destruct (Z.eqb_spec ns 0), (Z.eqb_spec ns 5), (Z.eqb_spec ns 6), (Z.eqb_spec ns 4); try contradiction. destruct p; [contradiction|reflexivity].
Qed.
Lemma attrs_read l ats : AttrsRead l ats -> Forall (fun a => named_attr a (get_attributes_serialized_name a)) l /\
  NoDup (map get_attributes_serialized_name l) /\ map attr_token l = ats /\ map a_name ats = map get_attributes_serialized_name l.
Proof.
  induction 1 as [|a l name r Hn Ha Hr (I1 & I2 & I3 & I4) Hf]; [repeat constructor|]. apply attr_named_fun in Hn. subst name.
  split; [constructor; assumption|]. split; [cbn; constructor; [rewrite <- I4; exact Hf|exact I2]|]. split; [cbn; rewrite I3; reflexivity|cbn; rewrite I4; reflexivity].
Qed.

Lemma not_one_of s l : ~ In s (map lit l) -> one_of s l = false.
Proof. intro H. destruct (one_of s l) eqn:E; [apply one_of_spec in E; contradiction|reflexivity]. Qed.
Lemma by_name_none l name ats : ~ In name (map lit special_names) -> by_name (l ++ [TStart (Tag name false ats)]) = None.
Proof.
  intro H. unfold special_names in H. rewrite !map_app, !in_app_iff in H. unfold by_name. rewrite last_last. cbn [g_name].
  rewrite !not_one_of; try reflexivity; try tauto; intro K; apply H; right; right; cbn [map In] in *; tauto.
Qed.
Lemma by_name_rcdata l name ats : In name (map lit rcdata_names) -> by_name (l ++ [TStart (Tag name false ats)]) = Some RCDATA_state.
Proof. intro H. unfold by_name. rewrite last_last. cbn [g_name]. rewrite (proj2 (one_of_spec _ _) H). reflexivity. Qed.
Lemma by_name_raw l name ats : In name (map lit rawtext_names) -> by_name (l ++ [TStart (Tag name false ats)]) = Some RAWTEXT_state.
Proof.
  intro H. unfold by_name. rewrite last_last. cbn [g_name]. cbn [map In rawtext_names] in H.
  repeat (destruct H as [<-|H]; [reflexivity|]). destruct H.
Qed.
Lemma by_name_text l s : by_name l = Some s -> s = RCDATA_state \/ s = RAWTEXT_state \/ s = script_data_state \/ s = PLAINTEXT_state.
Proof.
  unfold by_name. destruct (last l TEof) as [ |g| | | | ]; try discriminate.
  destruct (one_of (g_name g) rcdata_names); [intro H; inversion H; auto|]. destruct (one_of (g_name g) rawtext_names); [intro H; inversion H; auto|].
  destruct (one_of (g_name g) ["script"%string]); [intro H; inversion H; auto|]. destruct (one_of (g_name g) ["plaintext"%string]); [intro H; inversion H; auto|discriminate].
Qed.
Definition lower (c : Z) : Prop := 0x61 <= c <= 0x7A.
Lemma all_lower s : forallb (fun c => (0x61 <=? c) && (c <=? 0x7A)) s = true -> s <> [] -> Forall name_start s /\ tag_name_ok s.
Proof.
  intros H N. assert (F : Forall name_start s) by (apply Forall_forall; intros c Hc; rewrite forallb_forall in H; apply H in Hc; unfold name_start; lia).
  split; [exact F|]. destruct s as [|c r]; [contradiction|]. exists c, r. inversion F; subst. split; [reflexivity|]. split; [assumption|].
  eapply Forall_impl; [|eassumption]. unfold name_start, name_char. intros; lia.
Qed.
Lemma listed_lower l : forallb (fun n => forallb (fun c => (0x61 <=? c) && (c <=? 0x7A)) (lit n) && negb (Nat.eqb (List.length (lit n)) 0)) l = true ->
  forall s, In s (map lit l) -> s <> [] /\ Forall name_start s /\ tag_name_ok s.
Proof.
  intros H s Hs. rewrite forallb_forall in H. apply in_map_iff in Hs. destruct Hs as (x & <- & Hx). apply H in Hx. apply andb_true_iff in Hx.
  destruct Hx as [A B]. assert (N : lit x <> []) by (intro K; rewrite K in B; discriminate). split; [exact N|]. apply all_lower; assumption.
Qed.

(** ** No carriage return *)
Definition nocr (s : list Z) : Prop := ~ In 0xD s.
Lemma nocr_app a b : nocr a -> nocr b -> nocr (a ++ b).
Proof. unfold nocr. intros A B H. apply in_app_or in H. tauto. Qed.
Lemma nocr_cons c a : c <> 0xD -> nocr a -> nocr (c :: a).
Proof. unfold nocr. intros A B [H|H]; [congruence|tauto]. Qed.
Lemma nocr_nil : nocr [].
Proof. intros []. Qed.
Lemma nocr_forall (P : Z -> Prop) s : (forall c, P c -> c <> 0xD) -> Forall P s -> nocr s.
Proof. intros H F K. rewrite Forall_forall in F. apply F in K. apply H in K. contradiction. Qed.
Lemma nocr_escape b s : nocr s -> nocr (escape_string s b).
Proof.
  unfold nocr, escape_string. intros H K. apply in_flat_map in K. destruct K as (c & Hc & K). apply H. unfold escape_code_point in K.
  repeat match type of K with context [if ?x then _ else _] => destruct x; [cbn in K; intuition discriminate| ] | context [if ?x then _ else _] => destruct x end;
    try (cbn in K; destruct K as [->|[]]; exact Hc); cbn in K; intuition discriminate.
Qed.
Lemma nocr_attrs l ats : AttrsRead l ats -> nocr (attributes_text l).
Proof.
  intro H. apply attrs_read in H. destruct H as (F & _). unfold attributes_text. induction F as [|a l (N & A & V) _ IH]; [apply nocr_nil|].
  cbn [flat_map]. apply nocr_app; [|exact IH]. apply nocr_cons; [lia|]. apply nocr_app; [eapply nocr_forall; [|exact A]; unfold attr_char, name_char; intros; lia|].
  apply nocr_cons; [lia|]. apply nocr_cons; [lia|]. apply nocr_app; [|apply nocr_cons; [lia|apply nocr_nil]].
  apply nocr_escape. eapply nocr_forall; [|exact V]. intros c [_ K]; exact K.
Qed.

(** ** Elements whose inside is text *)
Lemma own_raw P d : Raw P -> own P (NText d) = d.
Proof.
  destruct P as [ns p l a c| | | | |]; cbn [Raw]; try tauto. intros [E H]. unfold own, node_text, ns_HTML.
  rewrite (proj2 (Z.eqb_eq _ _) E). change (one_of l _) with (one_of l raw_names). rewrite (proj2 (one_of_spec _ _) H). reflexivity.
Qed.
Lemma own_text P d : is_element P = true -> ~ Raw P -> own P (NText d) = escape_string d false.
Proof.
  destruct P as [ns p l a c| | | | |]; try discriminate. intros _ N. unfold own, node_text.
  destruct ((ns =? ns_HTML) && one_of l _) eqn:E; [|reflexivity]. exfalso. apply N. apply andb_true_iff in E. destruct E as [E1 E2].
  apply one_of_spec in E2. apply Z.eqb_eq in E1. split; [exact E1|exact E2].
Qed.
Lemma texts_raw P c d : Raw P -> Texts c d -> renders P c = d.
Proof. intros R. induction 1 as [|a l d _ IH]; [reflexivity|]. unfold renders in *. cbn [flat_map render]. rewrite (own_raw P a R), app_nil_r, IH. reflexivity. Qed.
Lemma texts_escaped P c d : is_element P = true -> ~ Raw P -> Texts c d -> renders P c = escape_string d false.
Proof.
  intros E R. induction 1 as [|a l d _ IH]; [reflexivity|]. unfold renders in *. cbn [flat_map render]. rewrite (own_text P a E R), app_nil_r, IH.
  unfold escape_string. rewrite flat_map_app. reflexivity.
Qed.
Lemma texts_good P c d : is_element P = true -> Texts c d -> forallb (good P) c = true.
Proof.
  intros E. induction 1 as [|a l d _ IH]; [reflexivity|]. cbn [forallb good]. rewrite IH, !andb_true_r. unfold ok_text, node_text.
  destruct P; try discriminate. destruct (_ && _); reflexivity.
Qed.

Section Tree.
Variable switch : list token -> option state.
Hypothesis switch_text : forall l s, switch l = Some s -> s = RCDATA_state \/ s = RAWTEXT_state \/ s = script_data_state \/ s = PLAINTEXT_state.
Variable cdata : list token -> bool.
Notation nsteps := (nsteps switch cdata).
(** all the tokens; the states that tree construction asks for while they come are those of the names *)
Variable whole : list token.
Hypothesis agrees : forall l name ats r, whole = l ++ TStart (Tag name false ats) :: r ->
  switch (l ++ [TStart (Tag name false ats)]) = by_name (l ++ [TStart (Tag name false ats)]).

Definition reads_back (P : node) (s : list Z) (toks : list token) : Prop := forall t r rest, t_state t = data_state ->
  whole = t_out t ++ toks ++ rest ->
  exists t1, nsteps t (s ++ r) t1 r /\ t_out t1 = t_out t ++ toks /\ t_state t1 = data_state.

Lemma element_text P ns p l a c name : get_tag_name (NElement ns p l a c) = Some name ->
  serializes_as_void (NElement ns p l a c) = false ->
  render P (NElement ns p l a c) = 0x3C :: name ++ attributes_text a ++ 0x3E :: renders (NElement ns p l a c) c ++ 0x3C :: 0x2F :: name ++ [0x3E].
Proof.
  intros En V. rewrite render_element. unfold own, node_text, close, end_tag. rewrite En, V. cbn [app lit].
  rewrite <- !app_assoc. reflexivity.
Qed.
Lemma void_text P ns p l a name : get_tag_name (NElement ns p l a []) = Some name ->
  serializes_as_void (NElement ns p l a []) = true ->
  render P (NElement ns p l a []) = 0x3C :: name ++ attributes_text a ++ [0x3E].
Proof.
  intros En V. rewrite render_element. unfold own, node_text, close, end_tag. rewrite En, V. cbn [renders flat_map app]. rewrite app_nil_r. reflexivity.
Qed.

Lemma name_nocr name : tag_name_ok name -> nocr name.
Proof. intro H. apply tag_name_chars in H. eapply nocr_forall; [|exact H]. unfold name_char. intros; lia. Qed.

(** an element read in another state than the data state *)
Lemma text_element P ns p l a c name ats d body s : get_tag_name (NElement ns p l a c) = Some name ->
  serializes_as_void (NElement ns p l a c) = false -> AttrsRead a ats -> tag_name_ok name -> Forall name_start name -> name <> [] ->
  renders (NElement ns p l a c) c = body -> nocr body -> text_state s ->
  (forall out, by_name (out ++ [TStart (Tag name false ats)]) = Some s) ->
  (forall t r, t_state t = s -> exists t1, nsteps t (body ++ 0x3C :: r) t1 (0x3C :: r) /\ text_like t t1 d) ->
  reads_back P (render P (NElement ns p l a c)) (TStart (Tag name false ats) :: map TChar d ++ [TEnd (Tag name false [])]) /\
  nocr (render P (NElement ns p l a c)).
Proof.
  intros En V Ha Hn Fn Nn Eb Cb Hs Sw Hb. rewrite (element_text P _ _ _ _ _ name En V), Eb. split.
  - intros t r rest Es Ew. apply attrs_read in Ha. destruct Ha as (F & ND & Et & _).
    destruct (read_start switch cdata t (body ++ 0x3C :: 0x2F :: name ++ 0x3E :: r) name a Es Hn F ND) as (t1 & H1 & O1 & L1 & S1).
    rewrite Et in *. rewrite (agrees (t_out t) name ats (map TChar d ++ [TEnd (Tag name false [])] ++ rest)), Sw in S1 by (rewrite Ew; cbn; rewrite <- app_assoc; reflexivity).
    destruct (Hb t1 (0x2F :: name ++ 0x3E :: r) S1) as (t2 & H2 & (T1 & T2 & T3)).
    destruct (read_text_end switch cdata t2 r name) as (t3 & H3 & O3 & S3); [rewrite T1, S1; exact Hs|congruence|exact Nn|exact Fn|].
    exists t3. split; [|split; [|exact S3]].
    + replace ((0x3C :: name ++ attributes_text a ++ 0x3E :: body ++ 0x3C :: 0x2F :: name ++ [0x3E]) ++ r) with
        (0x3C :: name ++ attributes_text a ++ 0x3E :: body ++ 0x3C :: 0x2F :: name ++ 0x3E :: r).
      * eapply ns_trans; [exact H1|]. eapply ns_trans; eassumption.
      * cbn [app]. f_equal. rewrite <- !app_assoc. f_equal. f_equal. cbn [app]. f_equal. rewrite <- !app_assoc. cbn [app]. rewrite <- !app_assoc. reflexivity.
    + rewrite O3, T2, O1, <- !app_assoc. reflexivity.
  - apply nocr_cons; [lia|]. apply nocr_app; [apply name_nocr; exact Hn|]. apply nocr_app; [eapply nocr_attrs; exact Ha|].
    apply nocr_cons; [lia|]. apply nocr_app; [exact Cb|]. apply nocr_cons; [lia|]. apply nocr_cons; [lia|].
    apply nocr_app; [apply name_nocr; exact Hn|]. apply nocr_cons; [lia|apply nocr_nil].
Qed.

Lemma named_listed ns p l a c name (names : list string) : Named (NElement ns p l a c) name -> ns = 1 -> l = name.
Proof. intros H ->. inversion H; subst; [reflexivity|lia|lia]. Qed.
Lemma disjoint_names (xs ys : list string) s :
  forallb (fun x => negb (one_of (lit x) ys)) xs = true -> In s (map lit xs) -> ~ In s (map lit ys).
Proof.
  intros H Hx Hy. apply in_map_iff in Hx. destruct Hx as (x & <- & Hx). rewrite forallb_forall in H. apply H in Hx.
  apply one_of_spec in Hy. rewrite Hy in Hx. discriminate.
Qed.

Lemma tree_reads :
  (forall n toks, Reads n toks -> forall P, is_element P = true \/ (forall d, n <> NText d) -> ~ Raw P ->
     good P n = true /\ reads_back P (render P n) toks /\ nocr (render P n)) /\
  (forall l toks, Row l toks -> forall P, is_element P = true \/ (forall d, ~ In (NText d) l) -> ~ Raw P ->
     forallb (good P) l = true /\ reads_back P (renders P l) toks /\ nocr (renders P l)).
Proof.
  apply Reads_both.
  - (* void *) intros ns p l a name ats V Hn Ha P _ _. pose proof V as Vn. apply void_spec in V. pose proof (named_fun _ _ Hn) as En.
    split; [reflexivity|]. rewrite (void_text P _ _ _ _ name En V).
    destruct Vn as [E1 E2]. pose proof (named_listed _ _ _ _ _ _ void_names Hn E1) as El. rewrite El in E2.
    destruct (listed_lower void_names eq_refl name E2) as (Nn & Fn & Tn). split.
    + intros t r rest Es Ew. pose proof (attrs_read _ _ Ha) as (F & ND & Et & _).
      destruct (read_start switch cdata t r name a Es Tn F ND) as (t1 & H1 & O1 & L1 & S1). rewrite Et in *.
      exists t1. split; [|split; [exact O1|]].
      * replace ((0x3C :: name ++ attributes_text a ++ [0x3E]) ++ r) with (0x3C :: name ++ attributes_text a ++ 0x3E :: r); [exact H1|].
        cbn [app]. rewrite <- !app_assoc. reflexivity.
      * rewrite S1, (agrees (t_out t) name ats rest Ew), by_name_none; [reflexivity|]. eapply (disjoint_names void_names); [vm_compute; reflexivity|exact E2].
    + apply nocr_cons; [lia|]. apply nocr_app; [apply name_nocr; exact Tn|]. apply nocr_app; [eapply nocr_attrs; exact Ha|apply nocr_cons; [lia|apply nocr_nil]].
  - (* ordinary *) intros ns p l a c name ats toks V Hn Ha Tn Sp Hrow IH P _ _.
    assert (V1 : serializes_as_void (NElement ns p l a c) = false) by (destruct (serializes_as_void _) eqn:E; [apply void_spec in E; contradiction|reflexivity]).
    pose proof (named_fun _ _ Hn) as En. rewrite good_element.
    destruct (IH (NElement ns p l a c)) as (G & R & C); [left; reflexivity| |].
    { intros [E1 E2]. apply Sp. pose proof (named_listed _ _ _ _ _ _ raw_names Hn E1) as El. rewrite <- El.
      revert E2. unfold special_names, raw_names, rcdata_names, rawtext_names. cbn [map In app]. tauto. }
    split; [exact G|]. rewrite (element_text P _ _ _ _ _ name En V1). set (body := renders (NElement ns p l a c) c) in *. clearbody body. split.
    + intros t r rest Es Ew. pose proof (attrs_read _ _ Ha) as (F & ND & Et & _).
      destruct (read_start switch cdata t (body ++ 0x3C :: 0x2F :: name ++ 0x3E :: r) name a Es Tn F ND) as (t1 & H1 & O1 & L1 & S1).
      rewrite Et in *. rewrite (agrees (t_out t) name ats (toks ++ [TEnd (Tag name false [])] ++ rest)), by_name_none in S1
        by first [exact Sp | rewrite Ew; cbn; rewrite <- app_assoc; reflexivity].
      destruct (R t1 (0x3C :: 0x2F :: name ++ 0x3E :: r) ([TEnd (Tag name false [])] ++ rest) S1) as (t2 & H2 & O2 & S2);
        [rewrite O1, Ew, <- !app_assoc; cbn; rewrite <- !app_assoc; reflexivity|].
      destruct (read_end switch cdata t2 r name S2 Tn) as (t3 & H3 & O3 & S3).
      exists t3. split; [|split; [|exact S3]].
      * replace ((0x3C :: name ++ attributes_text a ++ 0x3E :: body ++ 0x3C :: 0x2F :: name ++ [0x3E]) ++ r) with
          (0x3C :: name ++ attributes_text a ++ 0x3E :: body ++ 0x3C :: 0x2F :: name ++ 0x3E :: r).
        -- eapply ns_trans; [exact H1|]. eapply ns_trans; eassumption.
        -- cbn [app]. f_equal. rewrite <- !app_assoc. f_equal. f_equal. cbn [app]. f_equal. rewrite <- !app_assoc. cbn [app]. rewrite <- !app_assoc. reflexivity.
      * rewrite O3, O2, O1, <- !app_assoc. reflexivity.
    + apply nocr_cons; [lia|]. apply nocr_app; [apply name_nocr; exact Tn|]. apply nocr_app; [eapply nocr_attrs; exact Ha|].
      apply nocr_cons; [lia|]. apply nocr_app; [exact C|]. apply nocr_cons; [lia|]. apply nocr_cons; [lia|].
      apply nocr_app; [apply name_nocr; exact Tn|]. apply nocr_cons; [lia|apply nocr_nil].
  - (* rcdata *) intros ns p l a c name ats d Hn Ha Hin Ht F P _ _. rewrite good_element.
    assert (NR : ~ Raw (NElement ns p l a c)).
    { intros [E1 E2]. pose proof (named_listed _ _ _ _ _ _ raw_names Hn E1) as El. rewrite El in E2.
      revert E2. apply (disjoint_names rcdata_names); [vm_compute; reflexivity|exact Hin]. }
    assert (V1 : serializes_as_void (NElement ns p l a c) = false).
    { destruct (serializes_as_void _) eqn:E; [|reflexivity]. exfalso. apply void_spec in E. destruct E as [E1 E2].
      pose proof (named_listed _ _ _ _ _ _ raw_names Hn E1) as El. rewrite El in E2.
      revert E2. apply (disjoint_names rcdata_names); [vm_compute; reflexivity|exact Hin]. }
    destruct (listed_lower rcdata_names eq_refl name Hin) as (Nn & Fn & Tn).
    split; [eapply texts_good; [reflexivity|exact Ht]|].
    apply (text_element P ns p l a c name ats d (escape_string d false) RCDATA_state); auto.
    + apply named_fun; exact Hn.
    + apply texts_escaped; [reflexivity|exact NR|exact Ht].
    + apply nocr_escape. eapply nocr_forall; [|exact F]. intros x [_ K]; exact K.
    + left; reflexivity.
    + intro out. apply by_name_rcdata. exact Hin.
    + intros t r Es. apply read_text. rewrite Es. exact F.
  - (* raw *) intros p l a c ats d Ha Hin Ht F N P _ _. rewrite good_element.
    destruct (listed_lower rawtext_names eq_refl l Hin) as (Nn & Fn & Tn).
    assert (R : Raw (NElement 1 p l a c)) by (split; [reflexivity|]; revert Hin; unfold rawtext_names, raw_names; cbn [map In]; tauto).
    assert (V1 : serializes_as_void (NElement 1 p l a c) = false).
    { destruct (serializes_as_void _) eqn:E; [|reflexivity]. exfalso. apply void_spec in E. destruct E as [E1 E2].
      revert E2. apply (disjoint_names rawtext_names); [vm_compute; reflexivity|exact Hin]. }
    split; [eapply texts_good; [reflexivity|exact Ht]|].
    apply (text_element P 1 p l a c l ats d d RAWTEXT_state); auto.
    + apply texts_raw; assumption.
    + eapply nocr_forall; [|exact F]. intros x [_ K]; exact K.
    + right; left; reflexivity.
    + intro out. apply by_name_raw. exact Hin.
    + intros t r Es. apply read_raw; [left; exact Es|exact F|exact N|congruence|]. intros u x E. inversion E. split; lia.
  - (* script *) intros p a c ats d Ha Ht F N1 N2 P _ _. rewrite good_element.
    destruct (listed_lower ["script"%string] eq_refl (lit "script")) as (Nn & Fn & Tn); [left; reflexivity|].
    assert (R : Raw (NElement 1 p (lit "script") a c)) by (split; [reflexivity|]; right; left; reflexivity).
    split; [eapply texts_good; [reflexivity|exact Ht]|].
    apply (text_element P 1 p (lit "script") a c (lit "script") ats d d script_data_state); auto.
    + apply texts_raw; assumption.
    + eapply nocr_forall; [|exact F]. intros x [_ K]; exact K.
    + right; right; reflexivity.
    + intro out. unfold by_name. rewrite last_last. reflexivity.
    + intros t r Es. apply read_raw; [right; exact Es|exact F|exact N1|intros _; exact N2|]. intros u x E. inversion E. split; lia.
  - (* text *) intros d F P HP NR. destruct HP as [HP|HP]; [|destruct (HP d); reflexivity].
    cbn [good render]. rewrite (own_text P d HP NR), app_nil_r. split; [|split].
    + rewrite andb_true_r. unfold ok_text, node_text. destruct P; try discriminate. destruct (_ && _); reflexivity.
    + intros t r rest Es Ew. destruct (read_text switch cdata d t r) as (t1 & H1 & (A & B & C)).
      { rewrite Es. exact F. }
      exists t1. split; [exact H1|]. split; [exact B|congruence].
    + apply nocr_escape. eapply nocr_forall; [|exact F]. auto.
  - (* comment *) intros d Ok P _ _. split; [reflexivity|]. cbn [render own node_text]. unfold own, node_text. rewrite app_nil_r. split.
    + intros t r rest Es Ew. destruct (read_comment switch cdata t r d Es Ok) as (t1 & H1 & O1 & S1). exists t1. split; [|split; assumption].
      rewrite <- !app_assoc. exact H1.
    + destruct Ok as (F & _). apply nocr_app; [vm_compute; intuition discriminate|]. apply nocr_app; [|vm_compute; intuition discriminate].
      eapply nocr_forall; [|exact F]. intros x [_ K]; exact K.
  - (* instruction *) intros g d F P _ _. split; [reflexivity|]. cbn [render]. unfold own, node_text. rewrite app_nil_r.
    assert (F1 : Forall (fun c => c <> 0 /\ c <> 0xD /\ c <> 0x3E) (g ++ 0x20 :: d)).
    { apply Forall_app in F. destruct F as [Fa Fb]. apply Forall_app. split; [exact Fa|constructor; [lia|exact Fb]]. }
    split.
    + intros t r rest Es Ew. destruct (read_instruction switch cdata t r (g ++ 0x20 :: d) Es F1) as (t1 & H1 & O1 & S1). exists t1. split; [|split; assumption].
      cbn [lit app]. rewrite <- !app_assoc. cbn [app]. rewrite <- !app_assoc in *. exact H1.
    + replace (lit "<?" ++ g ++ 0x20 :: d ++ lit ">") with (lit "<?" ++ (g ++ 0x20 :: d) ++ lit ">") by (rewrite <- !app_assoc; reflexivity).
      apply nocr_app; [vm_compute; intuition discriminate|]. apply nocr_app; [|vm_compute; intuition discriminate].
      eapply nocr_forall; [|exact F1]. intros x (_ & K & _); exact K.
  - (* doctype *) intros n Nn F P _ _. split; [reflexivity|]. cbn [render]. unfold own, node_text. rewrite app_nil_r. split.
    + intros t r rest Es Ew. destruct (read_doctype switch cdata t r n Es Nn F) as (t1 & H1 & O1 & S1). exists t1. split; [|split; assumption].
      rewrite <- !app_assoc. exact H1.
    + apply nocr_app; [vm_compute; intuition discriminate|]. apply nocr_app; [|vm_compute; intuition discriminate].
      eapply nocr_forall; [|exact F]. unfold doctype_char. intros; lia.
  - intros P _ _. split; [reflexivity|]. split; [|apply nocr_nil]. intros t r rest Es Ew. exists t. cbn. rewrite app_nil_r. split; [constructor|auto].
  - intros n l a b _ IH1 _ IH2 P HP NR. cbn [forallb]. unfold renders in *. cbn [flat_map].
    destruct (IH1 P) as (G1 & R1 & C1); [destruct HP as [HP|HP]; [left; exact HP|right; intros d ->; apply (HP d); left; reflexivity]|exact NR|].
    destruct (IH2 P) as (G2 & R2 & C2); [destruct HP as [HP|HP]; [left; exact HP|right; intros d K; apply (HP d); right; exact K]|exact NR|].
    rewrite G1, G2. split; [reflexivity|]. split; [|apply nocr_app; assumption].
    intros t r rest Es Ew. destruct (R1 t (flat_map (render P) l ++ r) (b ++ rest) Es) as (t1 & H1 & O1 & S1); [rewrite Ew, <- !app_assoc; reflexivity|]. destruct (R2 t1 r rest S1) as (t2 & H2 & O2 & S2); [rewrite O1, Ew, <- !app_assoc; reflexivity|].
    exists t2. split; [rewrite <- app_assoc; eapply ns_trans; eassumption|]. split; [rewrite O2, O1, app_assoc; reflexivity|exact S2].
Qed.

Theorem tree_round_trip_at n toks fuel1 fuel2 : whole = toks -> Row (children n) toks -> is_element n = true \/ (forall d, ~ In (NText d) (children n)) ->
  ~ Raw n -> ~ Void n -> (sizes (children n) < fuel1)%nat ->
  exists out, to_string fuel1 n = Val out /\
    ((24 * List.length out + 13 <= fuel2)%nat -> tokenize switch cdata match_ncr fuel2 tok_init out = Val (toks ++ [TEof])).
Proof.
  intros Ew Hr HP NR NV F1. destruct (proj2 tree_reads _ _ Hr n HP NR) as (G & R & C).
  exists (renders n (children n)). split.
  - apply to_string_renders; [exact G| |exact F1]. destruct (serializes_as_void n) eqn:E; [apply void_spec in E; contradiction|reflexivity].
  - intro F2. destruct (R tok_init [] [] eq_refl) as (t1 & H1 & O1 & S1); [rewrite app_nil_r; exact Ew|]. rewrite app_nil_r in H1.
    assert (Hh : pstep switch cdata match_ncr t1 [] = Some (Halt (emit TEof t1))).
    { rewrite pstep_ordinary by (rewrite S1; reflexivity). unfold M_html.ordinary. cbn [head]. rewrite S1. reflexivity. }
    assert (E := tokenize_nsteps switch switch_text cdata fuel2 tok_init (renders n (children n)) t1 (emit TEof t1)).
    rewrite newlines_none in E by exact C. rewrite E; try assumption.
    + cbn. rewrite O1. reflexivity.
    + exact I.
    + congruence.
    + intro K. apply C. rewrite <- K. destruct (renders n (children n)) as [|x l] eqn:El using rev_ind; [discriminate|]. rewrite last_last. apply in_or_app. right; left; reflexivity.
Qed.
End Tree.

Theorem tree_round_trip cdata n toks fuel1 fuel2 : Row (children n) toks -> is_element n = true \/ (forall d, ~ In (NText d) (children n)) ->
  ~ Raw n -> ~ Void n -> (sizes (children n) < fuel1)%nat ->
  exists out, to_string fuel1 n = Val out /\
    ((24 * List.length out + 13 <= fuel2)%nat -> tokenize by_name cdata match_ncr fuel2 tok_init out = Val (toks ++ [TEof])).
Proof. intros. apply (tree_round_trip_at by_name by_name_text cdata toks); auto. Qed.
