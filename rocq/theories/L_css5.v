(** The encoding named by an at-charset rule (model: M_css). *)
From Coq Require Import ZArith List Bool Lia.
From Verif Require Import M_unicode M_infra M_percent M_encoding M_labels M_css L_unicode L_infra L_enc_queue L_css.
Import ListNotations.
Open Scope Z_scope.

(** Bytes allowed in the label. *)
Definition label_byte (b : Z) : Prop := 0 <= b <= 0x21 \/ 0x23 <= b <= 0x7F.
(** The bytes 40 63 68 61 72 73 65 74 20 22. *)
Definition at_charset : list Z := [0x40; 0x63; 0x68; 0x61; 0x72; 0x73; 0x65; 0x74; 0x20; 0x22].
(** The encoding a label names: the label without surrounding whitespace, in lower case, is in the table. *)
Definition Names (label : list Z) (e : encoding_name) : Prop :=
  exists m, Trimmed label m /\ In (map (fun c => if (0x41 <=? c) && (c <=? 0x5A) then c + 32 else c) m, e) encoding_label_map.

Lemma ascii_cast s : Forall (fun b => 0 <= b <= 0x7F) s -> encoding_cast utf8 utf32 s = Some s.
Proof.
  intros F. assert (Sc : Forall scalar s) by (eapply Forall_impl; [|exact F]; cbn; unfold scalar; intros; lia).
  assert (E : enc utf8 s = Some s).
  { clear Sc. induction F as [|c s C F IH]; [reflexivity|]. cbn [enc]. rewrite IH.
    change (c_enc utf8) with utf8_to_string. unfold utf8_to_string.
    assert (L : Z.land c 0xFFFFFF80 = 0).
    { apply Z.bits_inj_0. intros n. rewrite Z.land_spec. destruct (Z.ltb_spec n 0); [now rewrite Z.testbit_neg_r|].
      destruct (Z.ltb_spec n 7).
      - assert (K : n = 0 \/ n = 1 \/ n = 2 \/ n = 3 \/ n = 4 \/ n = 5 \/ n = 6) by lia.
        destruct K as [->|[->|[->|[->|[->|[->| ->]]]]]]; apply andb_false_r.
      - rewrite (Z.bits_above_log2 c n); [reflexivity|lia|]. destruct (Z.eq_dec c 0) as [->|]; [cbn; lia|].
        apply Z.lt_le_trans with 7; [|lia]. apply Z.log2_lt_pow2; lia. }
    rewrite L. cbn. rewrite Z.mod_small by lia. reflexivity. }
  rewrite (encoding_cast_enc utf8 utf32 s s); auto using enc32.
  apply scalar_ok; [left; reflexivity|exact Sc].
Qed.

Lemma label_bytes_ascii s : Forall label_byte s -> Forall (fun b => 0 <= b <= 0x7F) s.
Proof. intros H. eapply Forall_impl; [|exact H]. unfold label_byte. intros; lia. Qed.

Lemma names_ok label : Forall (fun b => 0 <= b <= 0x7F) label -> label = [] \/ ~ Forall ws label ->
  exists r, get_encoding_name_bytes label = Some r /\ forall e, r = Some e <-> Names label e.
Proof.
  intros F H. unfold get_encoding_name_bytes. rewrite (ascii_cast label F).
  destruct (label_lookup label) as (m & T & U & r & G & R); auto.
  { eapply Forall_impl; [|exact F]. cbn; unfold scalar; intros; lia. }
  exists r. split; [exact G|]. intros e. rewrite R. split.
  - intros I. exists m. auto.
  - intros (m' & T' & I). now rewrite (U m' T') in I.
Qed.

Lemma loop_label label rest : Forall label_byte label -> forall n acc, (length label + 2 <= n)%nat ->
  charset_loop n false acc (label ++ 0x22 :: 0x3B :: rest)
  = match get_encoding_name_bytes (acc ++ label) with None => None | Some None => Some UTF_8 | Some (Some e) => Some e end.
Proof.
  induction 1 as [|c label C F IH]; intros n acc L.
  - cbn [length Nat.add] in L. do 2 (destruct n as [|n]; [lia|]). cbn. now rewrite app_nil_r.
  - cbn [length Nat.add] in L. destruct n as [|n]; [lia|]. cbn [app charset_loop].
    assert (B : (c <=? 0x21) || ((0x23 <=? c) && (c <=? 0x7F)) = true).
    { unfold label_byte in C. destruct (Z.leb_spec c 0x21); destruct (Z.leb_spec 0x23 c); destruct (Z.leb_spec c 0x7F); cbn; auto; lia. }
    rewrite B, IH by lia. now rewrite <- app_assoc.
Qed.

Lemma prefix_same s : skip_prefix charset_prefix (at_charset ++ s) = Some s.
Proof. destruct s; reflexivity. Qed.

Lemma charset_label label rest : Forall label_byte label -> (length label + 2 <= 1015)%nat -> label = [] \/ ~ Forall ws label ->
  exists e, determine_fallback_encoding (at_charset ++ label ++ 0x22 :: 0x3B :: rest) None = Some e /\
    (Names label e \/ e = UTF_8 /\ forall n, ~ Names label n).
Proof.
  intros F L W. unfold determine_fallback_encoding. rewrite prefix_same. cbv beta iota.
  rewrite (loop_label label rest F 1015 [] L). cbn [app].
  destruct (names_ok label (label_bytes_ascii _ F) W) as (r & -> & R). destruct r as [e|].
  - exists e. split; [reflexivity|]. left. now apply R.
  - exists UTF_8. split; [reflexivity|]. right. split; [reflexivity|]. intros n X. apply R in X. discriminate.
Qed.

Lemma skip_prefix_inv : forall pre s r, skip_prefix pre s = Some r -> r = [] \/ s = pre ++ r.
Proof.
  induction pre as [|p pre IH]; intros s r H; cbn [skip_prefix] in H.
  - injection H as ->. now right.
  - destruct s as [|b s]; [injection H as <-; now left|]. destruct (Z.eqb_spec p b) as [->|]; [|discriminate].
    destruct (IH s r H) as [->| ->]; auto.
Qed.

Lemma no_quote_label l e : In (l, e) encoding_label_map -> ~ In 0x22 l.
Proof.
  assert (C : forallb (fun x : list Z * encoding_name => negb (existsb (Z.eqb 0x22) (fst x))) encoding_label_map = true) by (vm_compute; reflexivity).
  rewrite forallb_forall in C. intros I J. specialize (C _ I). cbn [fst] in C. apply negb_true_iff in C.
  enough (existsb (Z.eqb 0x22) l = true) by congruence. apply existsb_exists. exists 0x22. split; [exact J|reflexivity].
Qed.

(** A result other than UTF-8 comes from a label, closed properly unless it holds a quote. *)
Lemma loop_inv n : forall st acc s e, charset_loop n st acc s = Some e -> e <> UTF_8 ->
  Forall (fun b => 0 <= b <= 0x7F) acc -> Forall (fun b => 0 <= b <= 0x7F) s ->
  exists label, Forall (fun b => 0 <= b <= 0x7F) label /\ get_encoding_name_bytes label = Some (Some e) /\
    (In 0x22 label \/ exists mid rest, Forall label_byte mid /\ label = acc ++ mid /\
      s = (if st then 0x3B :: rest else mid ++ 0x22 :: 0x3B :: rest) /\ (st = true -> mid = []) /\
    (length mid + (if st then 1 else 2) <= n)%nat).
Proof.
  induction n as [|n IH]; intros st acc s e H Ne Fa Fs; [cbn in H; congruence|].
  destruct s as [|c s]; [cbn in H; congruence|]. cbn [charset_loop] in H. inversion Fs as [|x y C Fs']; subst. destruct st.
  - destruct (Z.eqb_spec c 0x3B) as [->|].
    + destruct (get_encoding_name_bytes acc) as [[e'|]|] eqn:G; try congruence. injection H as ->.
      exists acc. split; [exact Fa|]. split; [exact G|]. right. exists [], s. rewrite app_nil_r. repeat split; auto. cbn; lia.
    + destruct (IH false _ s e H Ne) as (label & Fl & G & K); auto.
      { apply Forall_app. split; [exact Fa|]. repeat apply Forall_cons; try apply Forall_nil; lia. }
      exists label. split; [exact Fl|]. split; [exact G|]. left. destruct K as [K|(mid & rest & _ & -> & _)]; [exact K|].
      apply in_or_app. left. apply in_or_app. right. now left.
  - destruct (_ || _) eqn:B.
    + assert (Cl : label_byte c).
      { unfold label_byte. destruct (Z.leb_spec c 0x21); destruct (Z.leb_spec 0x23 c); destruct (Z.leb_spec c 0x7F); cbn in B; try discriminate; lia. }
      destruct (IH false _ s e H Ne) as (label & Fl & G & K); auto.
      { apply Forall_app. split; [exact Fa|]. repeat apply Forall_cons; try apply Forall_nil; lia. }
      exists label. split; [exact Fl|]. split; [exact G|]. destruct K as [K|(mid & rest & Fm & -> & -> & _ & L)]; [now left|right].
      exists (c :: mid), rest. rewrite <- app_assoc. repeat split; auto; [discriminate|cbn; lia].
    + destruct (Z.eqb_spec c 0x22) as [->|]; [|congruence].
      destruct (IH true _ s e H Ne) as (label & Fl & G & K); auto.
      exists label. split; [exact Fl|]. split; [exact G|]. destruct K as [K|(mid & rest & Fm & -> & -> & Mn & L)]; [now left|right].
      rewrite (Mn eq_refl). exists [], rest. repeat split; auto. cbn; lia.
Qed.

Lemma charset_only s e : Forall (fun b => 0 <= b <= 0x7F) s -> determine_fallback_encoding s None = Some e -> e <> UTF_8 ->
  exists label rest, s = at_charset ++ label ++ 0x22 :: 0x3B :: rest /\ Forall label_byte label /\ (length label <= 1013)%nat /\
    Names label e.
Proof.
  intros F H Ne. unfold determine_fallback_encoding in H. destruct (skip_prefix charset_prefix s) as [r|] eqn:P; [|congruence].
  destruct (skip_prefix_inv _ _ _ P) as [->|E]; [cbn in H; congruence|]. change charset_prefix with at_charset in E. subst s.
  apply Forall_app in F as [_ F]. destruct (loop_inv 1015 false [] r e H Ne (Forall_nil _) F) as (label & Fl & G & K).
  assert (W : label = [] \/ ~ Forall ws label).
  { destruct label as [|c label]; [now left|right]. intros A.
    unfold get_encoding_name_bytes in G. rewrite (ascii_cast _ Fl) in G. unfold get_encoding_name in G.
    destruct (strip_ws utf32 utf32 (c :: label)) eqn:Sw; [|discriminate].
    assert (Sc : Forall scalar (c :: label)) by (eapply Forall_impl; [|exact Fl]; cbn; unfold scalar; intros; lia).
    destruct (strip_utf utf32 utf32 (c :: label) (c :: label)) as (m & T & U & S1 & S2); auto using enc32; [right; right; reflexivity|].
    rewrite S2 in Sw; [discriminate|discriminate|exact A]. }
  destruct (names_ok label Fl W) as (r' & G' & R). rewrite G in G'. injection G' as <-.
  assert (Nm : Names label e) by now apply R.
  destruct K as [K|(mid & rest & Fm & -> & -> & _ & L)].
  - exfalso. destruct Nm as (m & T & I). destruct T as (a & b & -> & Wa & Wb & _).
    apply (no_quote_label _ _ I). apply in_app_or in K as [K|K]; [|apply in_app_or in K as [K|K]].
    + rewrite Forall_forall in Wa. specialize (Wa _ K). unfold ws in Wa. lia.
    + apply (in_map (fun c => if (0x41 <=? c) && (c <=? 0x5A) then c + 32 else c)) in K. exact K.
    + rewrite Forall_forall in Wb. specialize (Wb _ K). unfold ws in Wb. lia.
  - exists mid, rest. repeat split; auto. lia.
Qed.
