(** Start tags in foreign content held against the HTML standard, 13.2.6.5. *)
From Coq Require Import ZArith List Bool String Lia.
From Verif Require Import M_infra M_encoding M_labels M_html M_html_serialize M_dom_names M_dom M_dom2 L_dom L_dom2 L_dom36 L_dom37 L_dom38.
Import ListNotations.
Open Scope Z_scope.
Open Scope dom_scope.
Open Scope list_scope.

(** *** The tables of the standard *)

(** the start tags that end foreign content *)
Definition leaving : list string :=
  ["b"; "big"; "blockquote"; "body"; "br"; "center"; "code"; "dd"; "div"; "dl"; "dt"; "em"; "embed"; "h1"; "h2"; "h3"; "h4"; "h5"; "h6";
   "head"; "hr"; "i"; "img"; "li"; "listing"; "menu"; "meta"; "nobr"; "ol"; "p"; "pre"; "ruby"; "s"; "small"; "span"; "strong"; "strike";
   "sub"; "sup"; "table"; "tt"; "u"; "ul"; "var"]%string.
(** "adjust SVG attributes" *)
Definition svg_cases : list (string * string) :=
  [("attributename", "attributeName"); ("attributetype", "attributeType"); ("basefrequency", "baseFrequency");
   ("baseprofile", "baseProfile"); ("calcmode", "calcMode"); ("clippathunits", "clipPathUnits");
   ("diffuseconstant", "diffuseConstant"); ("edgemode", "edgeMode"); ("filterunits", "filterUnits"); ("glyphref", "glyphRef");
   ("gradienttransform", "gradientTransform"); ("gradientunits", "gradientUnits"); ("kernelmatrix", "kernelMatrix");
   ("kernelunitlength", "kernelUnitLength"); ("keypoints", "keyPoints"); ("keysplines", "keySplines"); ("keytimes", "keyTimes");
   ("lengthadjust", "lengthAdjust"); ("limitingconeangle", "limitingConeAngle"); ("markerheight", "markerHeight");
   ("markerunits", "markerUnits"); ("markerwidth", "markerWidth"); ("maskcontentunits", "maskContentUnits");
   ("maskunits", "maskUnits"); ("numoctaves", "numOctaves"); ("pathlength", "pathLength");
   ("patterncontentunits", "patternContentUnits"); ("patterntransform", "patternTransform"); ("patternunits", "patternUnits");
   ("pointsatx", "pointsAtX"); ("pointsaty", "pointsAtY"); ("pointsatz", "pointsAtZ"); ("preservealpha", "preserveAlpha");
   ("preserveaspectratio", "preserveAspectRatio"); ("primitiveunits", "primitiveUnits"); ("refx", "refX"); ("refy", "refY");
   ("repeatcount", "repeatCount"); ("repeatdur", "repeatDur"); ("requiredextensions", "requiredExtensions");
   ("requiredfeatures", "requiredFeatures"); ("specularconstant", "specularConstant"); ("specularexponent", "specularExponent");
   ("spreadmethod", "spreadMethod"); ("startoffset", "startOffset"); ("stddeviation", "stdDeviation");
   ("stitchtiles", "stitchTiles"); ("surfacescale", "surfaceScale"); ("systemlanguage", "systemLanguage");
   ("tablevalues", "tableValues"); ("targetx", "targetX"); ("targety", "targetY"); ("textlength", "textLength");
   ("viewbox", "viewBox"); ("viewtarget", "viewTarget"); ("xchannelselector", "xChannelSelector");
   ("ychannelselector", "yChannelSelector"); ("zoomandpan", "zoomAndPan")]%string.
(** "adjust foreign attributes": namespace, prefix, local name *)
Definition foreign_cases : list (string * (Z * string * string)) :=
  [("xlink:actuate", (ns_XLink, "xlink", "actuate")); ("xlink:arcrole", (ns_XLink, "xlink", "arcrole")); ("xlink:href", (ns_XLink, "xlink", "href"));
   ("xlink:role", (ns_XLink, "xlink", "role")); ("xlink:show", (ns_XLink, "xlink", "show")); ("xlink:title", (ns_XLink, "xlink", "title"));
   ("xlink:type", (ns_XLink, "xlink", "type")); ("xml:lang", (ns_XML, "xml", "lang")); ("xml:space", (ns_XML, "xml", "space"));
   ("xmlns", (ns_XMLNS, "", "xmlns")); ("xmlns:xlink", (ns_XMLNS, "xmlns", "xlink"))]%string.
(** the names of SVG elements that have capitals *)
Definition svg_capitals : list string :=
  ["altglyph"; "altglyphdef"; "altglyphitem"; "animatecolor"; "animatemotion"; "animatetransform"; "clippath"; "feblend";
   "fecolormatrix"; "fecomponenttransfer"; "fecomposite"; "feconvolvematrix"; "fediffuselighting"; "fedisplacementmap";
   "fedistantlight"; "fedropshadow"; "feflood"; "fefunca"; "fefuncb"; "fefuncg"; "fefuncr"; "fegaussianblur"; "feimage";
   "femerge"; "femergenode"; "femorphology"; "feoffset"; "fepointlight"; "fespecularlighting"; "fespotlight"; "fetile";
   "feturbulence"; "foreignobject"; "glyphref"; "lineargradient"; "radialgradient"; "textpath"]%string.
Definition entry_of {A} (n : list Z) (l : list (string * A)) : option A :=
  match find (fun p => same_str n (lit (fst p))) l with Some p => Some (snd p) | None => None end.
(** an attribute of an element in this namespace *)
Definition foreign_attribute (ns : Z) (n v : list Z) : attr :=
  let m := if ns =? ns_MathML then (if same_str n (lit "definitionurl") then lit "definitionURL" else n)
           else if ns =? ns_SVG then match entry_of n svg_cases with Some x => lit x | None => n end
           else n in
  match entry_of m foreign_cases with Some (k, p, x) => Attr k (lit p) (lit x) v | None => Attr 0 [] m v end.
Definition stops (d : list cell) (e : entry) : bool := at_mathml_text d e || at_html d e || (ns_of d (en_node e) =? ns_HTML).
(** a start tag token of this name; its attributes have no namespaces and prefixes yet *)
Definition Plain_tag (n : list Z) (g : stag) : Prop :=
  n <> [] /\ g_id g = tname_of n /\ g_atom g = has_atom n /\ g_text g = n /\ Forall (fun a => ta_ns a = 0 /\ ta_prefix a = []) (g_attrs g).
Definition has_attribute (x : string) (g : stag) : Prop := exists a, In a (g_attrs g) /\ ta_omitted a = false /\ ta_name a = lit x.
(** the element of the token is in the tree, and open unless the tag closes itself *)
Definition Foreign_put (ns : Z) (n : list Z) (g : stag) (s s' : st) : Prop :=
  exists e r p d1 i g', s_stack s = e :: r /\ place_for (en_node e) s = Val p /\
    Put_at (s_dom s) p (IElement ns (tname_of n) (map (fun a => foreign_attribute ns (ta_name a) (ta_value a)) (filter (fun a => negb (ta_omitted a)) (g_attrs g)))) d1 i /\
    s_dom s' = d1 /\ s_stack s' = if g_self g then s_stack s else Entry g' i :: s_stack s.

(** *** Leaving *)

Definition leaves (t : tname) : bool :=
  match t with
  | T_b | T_big | T_blockquote | T_body | T_br | T_center | T_code | T_dd | T_div | T_dl | T_dt | T_em | T_embed
  | T_h1 | T_h2 | T_h3 | T_h4 | T_h5 | T_h6 | T_head | T_hr | T_i | T_img | T_li | T_listing | T_menu | T_meta
  | T_nobr | T_ol | T_p | T_pre | T_ruby | T_s | T_small | T_span | T_strong | T_strike | T_sub | T_sup | T_table
  | T_tt | T_u | T_ul | T_var => true
  | _ => false
  end.
Definition leaving_names : list tname := Eval vm_compute in map (fun x => tname_of (lit x)) leaving.
Lemma leaving_string : map tstring leaving_names = map lit leaving.
Proof. vm_compute. reflexivity. Qed.
Lemma leaving_all : forallb leaves leaving_names = true.
Proof. vm_compute. reflexivity. Qed.
Lemma leaves_in : forall t, leaves t = true -> In t leaving_names.
Proof. intros t H. destruct t; try discriminate H; cbn [leaving_names In]; tauto. Qed.
Lemma leaves_iff : forall n, leaves (tname_of n) = true <-> In n (map lit leaving).
Proof.
  intro n. split.
  - intro H. apply leaves_in in H. rewrite <- leaving_string. apply in_map_iff. exists (tname_of n). split; [apply tstring_of|exact H].
  - intro H. assert (Q : In (tname_of n) leaving_names).
    { apply in_map_iff in H. destruct H as (x & <- & H). assert (Z : leaving_names = map (fun y => tname_of (lit y)) leaving) by (vm_compute; reflexivity).
      rewrite Z. apply in_map_iff. now exists x. }
    pose proof leaving_all as A. rewrite forallb_forall in A. now apply A.
Qed.
Lemma breakout_std : forall d l r, breakout d l = Val r -> exists e a, l = e :: a ++ r /\ Forall (fun x => stops d x = false) a /\
  exists e1 r1, r = e1 :: r1 /\ stops d e1 = true.
Proof.
  intros d l. induction l as [|e l IH]; intros r H; [discriminate|]. cbn [breakout] in H. destruct l as [|f l]; [discriminate|].
  assert (Z : mathml_text_point d (en_node f) || html_point d f || (ns_of d (en_node f) =? ns_HTML) = stops d f) by (unfold stops; now rewrite html_point_eq).
  rewrite Z in H. destruct (stops d f) eqn:S.
  - injection H as <-. exists e, []. split; [reflexivity|]. split; [constructor|]. eauto.
  - destruct (IH r H) as (e1 & a & A1 & A2 & A3). injection A1 as -> A1. exists e, (e1 :: a). split; [cbn; now rewrite A1|]. split; [now constructor|exact A3].
Qed.
Lemma on_foreign_start : forall listed emit s g, s_fragment s = false -> on_foreign listed emit s (KStart g) =
  if leaves (g_id g) || (teqb (g_id g) T_font && existsb (fun n => match find_attr (lit n) g with Some _ => true | None => false end) ["Color"; "Face"; "Size"]%string)
  then run s1 <- pop s; run l <- breakout (s_dom s1) (s_stack s1); emit (set_stack l s1) (KStart g)
  else foreign_start s g.
Proof.
  intros listed emit s g F. cbn [on_foreign]. rewrite F. cbn [negb]. rewrite andb_true_r.
  destruct (g_id g); cbn [leaves orb andb teqb existsb]; try reflexivity; rewrite ?orb_false_r, ?orb_assoc; reflexivity.
Qed.
Lemma leave_std : forall listed emit s g n e e2 r s', s_fragment s = false -> g_id g = tname_of n -> In n (map lit leaving) ->
  s_stack s = e :: e2 :: r -> stops (s_dom s) e2 = false -> on_foreign listed emit s (KStart g) = Val s' ->
  exists a b, s_stack s = e :: a ++ b /\ Forall (fun x => stops (s_dom s) x = false) a /\
    (exists e1 b1, b = e1 :: b1 /\ stops (s_dom s) e1 = true) /\ emit (set_stack b s) (KStart g) = Val s'.
Proof.
  intros listed emit s g n e e2 r s' F G N S St H. rewrite on_foreign_start in H by exact F. rewrite G in H. rewrite (proj2 (leaves_iff n) N) in H. cbn [orb] in H.
  unfold pop in H. rewrite S in H. cbn [s_dom s_stack set_stack] in H. destruct (breakout (s_dom s) (e2 :: r)) as [l| |] eqn:B; try discriminate.
  destruct (breakout_std _ _ _ B) as (e1 & a & A1 & A2 & A3). injection A1 as <- A1. exists (e2 :: a), l. rewrite A1 in *. split; [exact S|]. split; [now constructor|]. split; [exact A3|exact H].
Qed.

(** *** Elements *)

Lemma cased_svg : forall n, cased svg_attributes n = match entry_of n svg_cases with Some x => lit x | None => n end.
Proof.
  intro n. assert (Z : map (fun p => (lit (fst p), lit (snd p))) svg_cases = map (fun x => (map cp_lower (lit x), lit x)) svg_attributes) by (vm_compute; reflexivity).
  unfold cased, entry_of. revert Z. generalize svg_cases svg_attributes. induction l as [|p l IH]; intros [|x m] Z; try discriminate Z; [reflexivity|].
  cbn [map] in Z. injection Z as Z1 Z2 Z3. cbn [find]. rewrite Z1. destruct (same_str n (map cp_lower (lit x))); [now rewrite Z2|now apply IH].
Qed.
Lemma cased_not : forall n, ~ In n (map lit svg_capitals) -> cased svg_elements n = n.
Proof.
  intros n N. unfold cased. destruct (find _ svg_elements) as [x|] eqn:F; [|reflexivity]. exfalso. apply find_some in F. destruct F as [F1 F2]. apply same_str_eq in F2.
  apply N. assert (Z : map lit svg_capitals = map (fun x => map cp_lower (lit x)) svg_elements) by (vm_compute; reflexivity). rewrite Z, F2. now apply in_map_iff; exists x.
Qed.
Definition made_attribute (a : tattr) : attr := Attr (ta_ns a) (ta_prefix a) (ta_name a) (ta_value a).
Definition foreign_one (a : tattr) : tattr :=
    match find (fun p => same_str (ta_name a) (lit (fst p))) foreign_attributes with
    | Some (_, (ns, p, n)) => TAttr ns (lit p) (lit n) (ta_value a) (ta_omitted a)
    | None => a
    end.
Lemma foreign_one_std : forall a, ta_ns a = 0 -> ta_prefix a = [] -> made_attribute (foreign_one a) =
  match entry_of (ta_name a) foreign_cases with Some (k, p, x) => Attr k (lit p) (lit x) (ta_value a) | None => Attr 0 [] (ta_name a) (ta_value a) end.
Proof.
  intros a N P. unfold foreign_one, entry_of, made_attribute. assert (Z : foreign_cases = foreign_attributes) by reflexivity. rewrite Z.
  destruct (find _ foreign_attributes) as [[m [[k p] x]]|]; cbn; [reflexivity|]. now rewrite N, P.
Qed.
Lemma foreign_one_omitted : forall a, ta_omitted (foreign_one a) = ta_omitted a.
Proof. intro a. unfold foreign_one. destruct (find _ _) as [[m [[k p] x]]|]; reflexivity. Qed.
Lemma filter_map_omitted : forall (f : tattr -> tattr) l, (forall a, ta_omitted (f a) = ta_omitted a) ->
  filter (fun a => negb (ta_omitted a)) (map f l) = map f (filter (fun a => negb (ta_omitted a)) l).
Proof. intros f l H. induction l as [|a l IH]; [reflexivity|]. cbn. rewrite H, IH. now destruct (negb _). Qed.
Definition mathml_one (a : tattr) : tattr := if same_str (ta_name a) (lit "definitionurl") then renamed (lit "definitionURL") a else a.
Definition svg_one (a : tattr) : tattr := renamed (cased svg_attributes (ta_name a)) a.
Lemma attributes_std : forall ns f l, (forall a, ta_omitted (f a) = ta_omitted a) -> (forall a, ta_ns (f a) = ta_ns a /\ ta_prefix (f a) = ta_prefix a /\ ta_value (f a) = ta_value a) ->
  (forall a, ta_name (f a) = if ns =? ns_MathML then (if same_str (ta_name a) (lit "definitionurl") then lit "definitionURL" else ta_name a)
           else if ns =? ns_SVG then match entry_of (ta_name a) svg_cases with Some x => lit x | None => ta_name a end else ta_name a) ->
  Forall (fun a => ta_ns a = 0 /\ ta_prefix a = []) l ->
  map made_attribute (filter (fun a => negb (ta_omitted a)) (map foreign_one (map f l))) =
  map (fun a => foreign_attribute ns (ta_name a) (ta_value a)) (filter (fun a => negb (ta_omitted a)) l).
Proof.
  intros ns f l O K N P. rewrite !filter_map_omitted by first [exact O|exact foreign_one_omitted]. rewrite !map_map. apply map_ext_in. intros a A. apply filter_In in A. destruct A as [A _].
  rewrite Forall_forall in P. destruct (P a A) as [P1 P2]. destruct (K a) as (K1 & K2 & K3). rewrite foreign_one_std by congruence. unfold foreign_attribute. rewrite K3, <- N. reflexivity.
Qed.
Lemma name_of_tag : forall n g ns x, n <> [] -> g_id g = tname_of n -> g_atom g = has_atom n -> g_text g = n -> Element_of g ns x ->
  x = IElement ns (tname_of n) (map made_attribute (filter (fun a => negb (ta_omitted a)) (g_attrs g))).
Proof.
  intros n g ns x N I A T (t & Q & ->). destruct (g_atom g); [subst t; now rewrite I|]. destruct Q as [_ ->]. now rewrite T.
Qed.
Lemma foreign_put_of : forall n g g2 ns f s s', In_tree s -> Plain_tag n g -> (forall a, ta_omitted (f a) = ta_omitted a) ->
  (forall a, ta_ns (f a) = ta_ns a /\ ta_prefix (f a) = ta_prefix a /\ ta_value (f a) = ta_value a) ->
  (forall a, In a (g_attrs g) -> ta_name (f a) = if ns =? ns_MathML then (if same_str (ta_name a) (lit "definitionurl") then lit "definitionURL" else ta_name a)
           else if ns =? ns_SVG then match entry_of (ta_name a) svg_cases with Some x => lit x | None => ta_name a end else ta_name a) ->
  g_id g2 = g_id g -> g_atom g2 = g_atom g -> g_text g2 = n -> g_attrs g2 = map f (g_attrs g) ->
  (run (s1, _) <- insert_foreign (adjust_foreign g2) ns (keep_slots (adjust_foreign g2) s); if g_self g then pop s1 else Val s1) = Val s' -> Foreign_put ns n g s s'.
Proof.
  intros n g g2 ns f s s' W (P1 & P2 & P3 & P4 & P5) O K N I A T L H.
  set (h := adjust_foreign g2) in *. destruct (insert_foreign h ns (keep_slots h s)) as [[s1 i]| |] eqn:X; try discriminate.
  destruct (element_put h ns (keep_slots h s) s1 i W X) as (e & r & p & x & d1 & S & PL & E & PU & ->).
  assert (Z : x = IElement ns (tname_of n) (map (fun a => foreign_attribute ns (ta_name a) (ta_value a)) (filter (fun a => negb (ta_omitted a)) (g_attrs g)))).
  { assert (Y : x = IElement ns (tname_of n) (map made_attribute (filter (fun a => negb (ta_omitted a)) (g_attrs h)))).
    { apply name_of_tag; [exact P1|unfold h, adjust_foreign; cbn [rename g_id]; congruence|unfold h, adjust_foreign; cbn [rename g_atom]; congruence|unfold h, adjust_foreign; cbn [rename g_text]; exact T|exact E]. }
    rewrite Y. f_equal. unfold h, adjust_foreign. cbn [rename g_attrs]. fold foreign_one. rewrite L. clear - O K N P5.
    change (fun a : tattr => match find (fun p0 => same_str (ta_name a) (lit (fst p0))) foreign_attributes with
       | Some (_, (ns0, p0, n0)) => TAttr ns0 (lit p0) (lit n0) (ta_value a) (ta_omitted a) | None => a end) with foreign_one.
    set (f' := fun a => TAttr (ta_ns (f a)) (ta_prefix (f a)) (if ns =? ns_MathML then (if same_str (ta_name a) (lit "definitionurl") then lit "definitionURL" else ta_name a)
           else if ns =? ns_SVG then match entry_of (ta_name a) svg_cases with Some x => lit x | None => ta_name a end else ta_name a) (ta_value (f a)) (ta_omitted (f a))).
    assert (Q : map f (g_attrs g) = map f' (g_attrs g)).
    { apply map_ext_in. intros a A. unfold f'. rewrite <- (N a A). now destruct (f a). }
    rewrite Q. apply attributes_std; try exact P5; intro a; unfold f'; cbn; [apply O|apply K|reflexivity]. }
  subst x. exists e, r, p, d1, i, h. split; [exact S|]. split; [exact PL|]. split; [exact PU|].
  destruct (g_self g); [|injection H as <-; split; reflexivity]. cbn [pop s_stack set_stack] in H. injection H as <-. split; reflexivity.
Qed.
Lemma find_attr_has : forall x g, match find_attr (lit x) g with Some _ => true | None => false end = true -> has_attribute x g.
Proof.
  intros x g H. unfold find_attr in H. destruct (find _ (g_attrs g)) as [a|] eqn:F; [|discriminate]. apply find_some in F. destruct F as [F1 F2].
  apply andb_true_iff in F2. destruct F2 as [F2 F3]. apply negb_true_iff in F2. apply same_str_eq in F3. exists a. auto.
Qed.
Lemma stay_std : forall listed emit s g n e r s', s_fragment s = false -> In_tree s -> Plain_tag n g -> s_stack s = e :: r ->
  ~ In n (map lit leaving) -> (n = lit "font" -> forall x, In x ["Color"; "Face"; "Size"]%string -> ~ has_attribute x g) ->
  (ns_of (s_dom s) (en_node e) = ns_SVG -> ~ In n (map lit svg_capitals)) -> on_foreign listed emit s (KStart g) = Val s' ->
  Foreign_put (ns_of (s_dom s) (en_node e)) n g s s'.
Proof.
  intros listed emit s g n e r s' F W P S N FO C H. rewrite on_foreign_start in H by exact F. pose proof P as (P1 & P2 & P3 & P4 & P5).
  assert (L : leaves (g_id g) = false). { rewrite P2. destruct (leaves (tname_of n)) eqn:E; [|reflexivity]. now apply leaves_iff in E. }
  assert (X : teqb (g_id g) T_font && existsb (fun n => match find_attr (lit n) g with Some _ => true | None => false end) ["Color"; "Face"; "Size"]%string = false).
  { apply not_true_iff_false. intro E. apply andb_true_iff in E. destruct E as [E1 E2]. apply teqb_eq in E1. rewrite P2 in E1.
    assert (Q : n = lit "font") by (rewrite <- (tstring_of n), E1; reflexivity). apply existsb_exists in E2. destruct E2 as (x & X1 & X2). apply (FO Q x X1). now apply find_attr_has. }
  rewrite L, X in H. cbn [orb] in H. unfold foreign_start, adjusted in H. rewrite S, F in H. cbn [andb] in H. set (ns := ns_of (s_dom s) (en_node e)) in *. cbv zeta in H.
  destruct (ns =? ns_MathML) eqn:M; [|destruct (ns =? ns_SVG) eqn:V].
  - apply (foreign_put_of n g (adjust_mathml g) ns mathml_one s s' W P); try reflexivity; try exact P4; try exact H.
    + intro a. unfold mathml_one. now destruct (same_str _ _).
    + intro a. unfold mathml_one. now destruct (same_str _ _).
    + intros a _. rewrite M. unfold mathml_one. now destruct (same_str _ _).
  - refine (foreign_put_of n g _ ns svg_one s s' W P _ _ _ _ _ _ _ H); try reflexivity.
    + intro a. unfold svg_one, renamed. cbn. auto.
    + intros a _. rewrite M, V. unfold svg_one, renamed. cbn [ta_name]. apply cased_svg.
    + cbn [g_text]. unfold adjust_svg. cbn [rename g_text]. rewrite P4. apply cased_not. apply C. now apply Z.eqb_eq.
  - refine (foreign_put_of n g g ns (fun a => a) s s' W P _ _ _ _ _ _ _ H); try reflexivity; try exact P4.
    + auto.
    + intros a _. now rewrite M, V.
    + now rewrite map_id.
Qed.

(** *** The elements svg and math *)
Lemma root_std : forall emit s g n s', n = lit "svg" \/ n = lit "math" -> Plain_tag n g -> (forall s1, reconstruct s = Val s1 -> In_tree s1) ->
  (n = lit "svg" -> Forall (fun a => entry_of (ta_name a) svg_cases = None /\ ta_name a <> lit "definitionurl") (g_attrs g)) ->
  on_in_body emit s (KStart g) = Val s' ->
  exists s1, reconstruct s = Val s1 /\ Foreign_put (if same_str n (lit "svg") then ns_SVG else ns_MathML) n g s1 s'.
Proof.
  intros emit s g n s' D P W A H. pose proof P as (P1 & P2 & P3 & P4 & P5). cbn [on_in_body] in H. unfold body_start in H. rewrite P2 in H. destruct D as [-> | ->].
  - change (tname_of (lit "svg")) with T_svg in H. cbv iota in H. destruct (reconstruct s) as [s1| |] eqn:R; try discriminate. exists s1. split; [reflexivity|].
    change (same_str (lit "svg") (lit "svg")) with true. cbv iota.
    refine (foreign_put_of (lit "svg") g (adjust_mathml g) ns_SVG mathml_one s1 s' (W s1 eq_refl) P _ _ _ _ _ _ _ H); try reflexivity; try exact P4.
    + intro a. unfold mathml_one. now destruct (same_str _ _).
    + intro a. unfold mathml_one. now destruct (same_str _ _).
    + intros a I. specialize (A eq_refl). rewrite Forall_forall in A. destruct (A a I) as [A1 A2]. change (ns_SVG =? ns_MathML) with false. change (ns_SVG =? ns_SVG) with true. cbv iota. rewrite A1.
      unfold mathml_one. destruct (same_str (ta_name a) (lit "definitionurl")) eqn:E; [apply same_str_eq in E; contradiction|reflexivity].
  - change (tname_of (lit "math")) with T_math in H. cbv iota in H. destruct (reconstruct s) as [s1| |] eqn:R; try discriminate. exists s1. split; [reflexivity|].
    change (same_str (lit "math") (lit "svg")) with false. cbv iota.
    refine (foreign_put_of (lit "math") g (adjust_mathml g) ns_MathML mathml_one s1 s' (W s1 eq_refl) P _ _ _ _ _ _ _ H); try reflexivity; try exact P4.
    + intro a. unfold mathml_one. now destruct (same_str _ _).
    + intro a. unfold mathml_one. now destruct (same_str _ _).
    + intros a _. change (ns_MathML =? ns_MathML) with true. cbv iota. unfold mathml_one. now destruct (same_str _ _).
Qed.
