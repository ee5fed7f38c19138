(** Whole runs of the tokeniser: termination, the end token, newlines, and single pieces of markup. *)
From Coq Require Import ZArith List Bool Lia String.
From Verif Require Import M_infra M_encoding M_labels M_html M_html_ncr M_html_serialize L_html_names L_html1 L_html2 L_html5 L_html3 L_html4 L_html6 L_html7 L_html8 L_html9 L_html_ncr3 L_html_serialize L_html_unique.
Import ListNotations.
Open Scope Z_scope.
Open Scope html_scope.

Definition text_switch (switch : list token -> option state) : Prop := forall l s, switch l = Some s ->
  s = RCDATA_state \/ s = RAWTEXT_state \/ s = script_data_state \/ s = PLAINTEXT_state.
Definition fuel_for (fuel : nat) (text : list Z) : Prop := (24 * List.length text + 13 <= fuel)%nat.

(** every [&] is followed by a name that ends with a semicolon, by an ASCII character that is no letter or digit, or by nothing *)
Definition whole_references (text : list Z) : Prop := forall p s, text = p ++ 0x26 :: s ->
  (exists n cps r, s = n ++ r /\ In (n, cps) standard_names /\ last n 0 = 0x3B) \/ s = [] \/
  exists c r, s = c :: r /\ 0 <= c < 0x80 /\ ~ (0x30 <= c <= 0x39 \/ 0x41 <= c <= 0x5A \/ 0x61 <= c <= 0x7A).

(** text with references: what is written and what it stands for *)
Inductive Mixed : list Z -> list Z -> Prop :=
| Mx_nil : Mixed [] []
| Mx_char : forall c e s, c <> 0x26 -> c <> 0x3C -> c <> 0xD -> Mixed e s -> Mixed (c :: e) (c :: s)
| Mx_name : forall n cps e s, In (n, cps) standard_names -> last n 0 = 0x3B -> Mixed e s -> Mixed (lit "&" ++ n ++ e) (cps ++ s).

Section Runs.
Variable switch : list token -> option state.
Hypothesis switch_text : text_switch switch.
Variable cdata : list token -> bool.
Notation tokenize := (tokenize switch cdata match_ncr).
Notation phalts := (phalts switch cdata match_ncr).

Lemma init_inv text : (forall p s, text = p ++ 0x26 :: s -> match_ncr s <> None) -> INV text tok_init text.
Proof.
  intro H. split; [exact I|]. exists []. split; [reflexivity|]. apply after_other; try discriminate. reflexivity.
Qed.
Lemma init_halts text : (forall p s, text = p ++ 0x26 :: s -> match_ncr s <> None) -> exists t', phalts tok_init text t'.
Proof.
  intro H. eapply (phalts_total switch switch_text cdata match_ncr (fun b len a K => proj1 (match_length b len a K)) text H).
  apply init_inv. exact H.
Qed.
Lemma in_table_whole text : whole_references text -> forall p s, text = p ++ 0x26 :: s -> match_ncr s <> None.
Proof. 
  intros H p s E. destruct (H p s E) as [(n & cps & r & -> & Hin & L)|[->|(c & r & -> & Hc & Na)]].
  - rewrite (match_semicolon n cps r Hin L). discriminate.
  - exact match_nil.
  - rewrite match_other; [discriminate|]. unfold no_start, is_ascii_alphanumeric, is_ascii_digit, is_ascii_alpha, is_ascii_upper_alpha, is_ascii_lower_alpha. lia.
Qed.

Theorem tokenize_total text fuel : (forall p s, newlines text = p ++ 0x26 :: s -> match_ncr s <> None) -> fuel_for fuel text ->
  exists l, tokenize fuel tok_init text = Val l.
Proof.
  intros H F. destruct (init_halts _ H) as (t' & Ht). destruct (tokenize_reads switch switch_text cdata fuel tok_init text t' I Ht F) as (l & E & _).
  exists l. exact E.
Qed.

Lemma init_numfree text : (forall p s, text = p ++ 0x26 :: s -> match_ncr s <> None) -> (forall p s, text <> p ++ 0x26 :: 0x23 :: s) ->
  numfree switch cdata match_ncr tok_init text.
Proof.
  intros H N t r St. assert (K : INV text t r).
  { assert (G : forall t0 r0, INV text t0 r0 -> psteps switch cdata match_ncr t0 r0 t r -> INV text t r).
    { intros t0 r0 J Hs. induction Hs as [|t1 r1 t2 r2 t3 r3 E _ IH]; [exact J|]. apply IH; [exact St|].
      eapply (proj1 (pstep_INV switch switch_text cdata match_ncr (fun b len a K => proj1 (match_length b len a K)) text H _ _ _ _ E J)). }
    eapply G; [|exact St]. apply init_inv. exact H. }
  pose proof (INV_numeric text t r K N) as Nm. intro E. rewrite E in Nm. discriminate.
Qed.

Theorem tokenize_once text fuel : (forall p s, newlines text = p ++ 0x26 :: s -> match_ncr s <> None) ->
  (forall p s, newlines text <> p ++ 0x26 :: 0x23 :: s) -> last text 0 <> 0xD -> fuel_for fuel text ->
  exists l, tokenize fuel tok_init text = Val (l ++ [TEof]) /\ ~ In TEof l.
Proof.
  intros H N L F. destruct (init_halts _ H) as (t' & Ht). destruct (tokenize_reads switch switch_text cdata fuel tok_init text t' I Ht F) as (l & E & K).
  specialize (K (init_numfree _ H N) L). destruct (phalts_out switch switch_text cdata match_ncr _ _ _ Ht) as (l0 & E0 & Ne). cbn in E0. exists l0.
  rewrite E, K, E0. split; [reflexivity|]. intro Hin. unfold no_eof in Ne. rewrite Forall_forall in Ne. apply Ne in Hin. congruence.
Qed.

Lemma newlines_nocr : forall text, nocr (newlines text).
Proof.
  intro text. remember (List.length text) as n eqn:E. assert (H : (List.length text <= n)%nat) by lia. clear E. revert text H.
  induction n as [|n IH]; intros [|c r] H; try apply nocr_nil; [cbn in H; lia|].
  cbn [List.length] in H. destruct (Z.eq_dec c 0xD) as [->|N].
  - cbn [newlines]. destruct r as [|d r]; [apply nocr_cons; [lia|apply nocr_nil]|]. apply nocr_cons; [lia|].
    destruct (Z.eq_dec d 0xA) as [->|Nd]; [apply IH; cbn in H; lia|].
    assert (K : match d with 10 => newlines r | _ => newlines (d :: r) end = newlines (d :: r)).
    { destruct d as [|p|p]; try reflexivity. do 4 (destruct p as [p|p|]; try reflexivity). exfalso; apply Nd; reflexivity. }
    rewrite K. apply IH. cbn in *; lia.
  - rewrite newlines_other by exact N. apply nocr_cons; [exact N|apply IH; lia].
Qed.

Theorem tokenize_newlines text fuel : (forall p s, newlines text = p ++ 0x26 :: s -> match_ncr s <> None) ->
  (forall p s, newlines text <> p ++ 0x26 :: 0x23 :: s) -> last text 0 <> 0xD -> fuel_for fuel text ->
  tokenize fuel tok_init text = tokenize fuel tok_init (newlines text).
Proof.
  intros H N L F. destruct (init_halts _ H) as (t' & Ht). destruct (tokenize_reads switch switch_text cdata fuel tok_init text t' I Ht F) as (l & E & K).
  specialize (K (init_numfree _ H N) L). pose proof (newlines_none _ (newlines_nocr text)) as En.
  destruct (tokenize_reads switch switch_text cdata fuel tok_init (newlines text) t') as (l1 & E1 & K1).
  - exact I.
  - rewrite En. exact Ht.
  - unfold fuel_for in F. pose proof (newlines_length text). lia.
  - rewrite En in K1. rewrite E, E1, K, K1; [reflexivity|exact (init_numfree _ H N)|].
    intro X. apply (newlines_nocr text). rewrite <- X. destruct (newlines text) as [|x y] eqn:El using rev_ind; [discriminate|]. rewrite last_last. apply in_or_app. right; left; reflexivity.
Qed.

(** ** Text in the PLAINTEXT state: exactly what the input stream delivers *)
Definition shown (c : Z) : Z := if c =? 0 then 0xFFFD else c.

Lemma plain_emit fuel c cur eof cr t : t_state t = PLAINTEXT_state -> (1 <= fuel)%nat ->
  run switch cdata match_ncr fuel On_emit (Machine (Stream ([] ++ [c]) cur eof false cr) t) = Val (Machine (Stream [] c eof false cr) (emit (TChar (shown c)) t)).
Proof.
  intros Es F. destruct fuel as [|f]; [lia|]. cbn [run app]. unfold handler. cbn [m_t m_s]. rewrite Es. unfold consume. cbn [s_c s_eof s_eof_consumed s_cr s_current].
  unfold M_html.ordinary. rewrite Es. unfold on_PLAINTEXT, shown. destruct (c =? 0); reflexivity.
Qed.
Definition pending (cr : bool) (text : list Z) : list Z :=
  if cr then 0xA :: match text with 0xA :: r => newlines r | _ => newlines text end else newlines text.
Lemma pending_cr r : newlines (0xD :: r) = pending true r.
Proof. reflexivity. Qed.
Lemma pending_other c r : c <> 0xA -> pending true (c :: r) = 0xA :: newlines (c :: r).
Proof. intro N. unfold pending. destruct c as [|p|p]; try reflexivity. do 4 (destruct p as [p|p|]; try reflexivity). exfalso; apply N; reflexivity. Qed.
Lemma emit_state k t : t_state (emit k t) = t_state t.
Proof. reflexivity. Qed.
Lemma emit_out k t : t_out (emit k t) = t_out t ++ [k].
Proof. reflexivity. Qed.
Lemma plain_push fuel : (1 <= fuel)%nat -> forall text t cur cr, t_state t = PLAINTEXT_state ->
  exists m, push_all switch cdata match_ncr fuel text (Machine (Stream [] cur false false cr) t) = Val m /\
    t_out (m_t m) = t_out t ++ map (fun c => TChar (shown c)) (pending cr text) ++ [TEof].
Proof.
  intro F. induction text as [|c r IH]; intros t cur cr Es.
  - assert (K : forall t1 cur1 cr1, t_state t1 = PLAINTEXT_state -> exists m, run switch cdata match_ncr fuel On_emit (Machine (Stream [] cur1 true false cr1) t1) = Val m /\ t_out (m_t m) = t_out t1 ++ [TEof]).
    { intros t1 cur1 cr1 E1. destruct fuel as [|f]; [lia|]. cbn [run]. unfold handler. cbn [m_t m_s]. rewrite E1. unfold consume. cbn [s_c s_eof s_eof_consumed s_cr s_current].
      unfold M_html.ordinary. rewrite E1. eexists. split; reflexivity. }
    cbn [push_all]. unfold push_eof. cbn [m_s m_t s_cr s_c s_current s_eof s_eof_consumed]. destruct cr.
    + rewrite (plain_emit fuel 0xA cur true true t Es F). cbn [bind]. destruct (K (emit (TChar (shown 0xA)) t) 0xA true Es) as (m & E & O). exists m. split; [exact E|].
      rewrite O. cbn. rewrite <- app_assoc. reflexivity.
    + cbn [bind]. destruct (K t cur false Es) as (m & E & O). exists m. split; [exact E|]. rewrite O. reflexivity.
  - cbn [push_all]. unfold push_code_point. cbn [m_s s_cr]. unfold emit_code_point. cbn [m_s m_t s_cr s_c s_current s_eof s_eof_consumed]. destruct cr.
    + destruct (Z.eqb_spec c 0xD) as [->|N].
      * rewrite (plain_emit fuel 0xA cur false true t Es F). cbn [bind].
        destruct (IH (emit (TChar (shown 0xA)) t) 0xA true Es) as (m & E & O). exists m. split; [exact E|]. rewrite O, (pending_other 0xD r) by lia.
        rewrite pending_cr. rewrite !emit_out. cbn [map app]. rewrite <- !app_assoc. reflexivity.
      * destruct (Z.eqb_spec c 0xA) as [->|N1].
        -- rewrite (plain_emit fuel 0xA cur false true t Es F). cbn [bind]. unfold set_cr. cbn [m_s m_t s_c s_current s_eof s_eof_consumed].
           destruct (IH (emit (TChar (shown 0xA)) t) 0xA false Es) as (m & E & O). exists m. split; [exact E|]. rewrite O. rewrite !emit_out. cbn [pending map app]. rewrite <- app_assoc. reflexivity.
        -- rewrite (plain_emit fuel 0xA cur false true t Es F). cbn [bind m_s m_t s_c s_current s_eof s_eof_consumed s_cr].
           rewrite (plain_emit fuel c 0xA false true (emit (TChar (shown 0xA)) t) Es F). cbn [bind]. unfold set_cr. cbn [m_s m_t s_c s_current s_eof s_eof_consumed].
           destruct (IH (emit (TChar (shown c)) (emit (TChar (shown 0xA)) t)) c false Es) as (m & E & O). exists m. split; [exact E|].
           rewrite O, (pending_other c r N1), (newlines_other c r N). rewrite !emit_out. cbn [pending map app]. rewrite <- !app_assoc. reflexivity.
    + destruct (Z.eqb_spec c 0xD) as [->|N].
      * cbn [bind]. unfold set_cr. cbn [m_s m_t s_c s_current s_eof s_eof_consumed]. destruct (IH t cur true Es) as (m & E & O). exists m. split; [exact E|]. rewrite O. reflexivity.
      * rewrite (plain_emit fuel c cur false false t Es F). cbn [bind]. destruct (IH (emit (TChar (shown c)) t) c false Es) as (m & E & O). exists m. split; [exact E|].
        rewrite O. unfold pending. rewrite (newlines_other c r N). rewrite !emit_out. cbn [map app]. rewrite <- !app_assoc. reflexivity.
Qed.
Theorem plaintext_delivers fuel text : (1 <= fuel)%nat ->
  tokenize fuel (set_state PLAINTEXT_state tok_init) text = Val (map (fun c => TChar (shown c)) (newlines text) ++ [TEof]).
Proof.
  intro F. destruct (plain_push fuel F text (set_state PLAINTEXT_state tok_init) 0 false eq_refl) as (m & E & O).
  unfold M_html.tokenize. unfold stream_init. rewrite E, O. reflexivity.
Qed.

(** ** Single pieces of markup *)
Definition resting (s : state) : Prop :=
  s = data_state \/ s = RCDATA_state \/ s = RAWTEXT_state \/ s = script_data_state \/ s = PLAINTEXT_state.
Lemma read_all text t1 fuel : nocr text -> nsteps switch cdata tok_init text t1 [] -> resting (t_state t1) -> fuel_for fuel text ->
  tokenize fuel tok_init text = Val (t_out t1 ++ [TEof]).
Proof.
  intros C H R F.
  assert (Hh : pstep switch cdata match_ncr t1 [] = Some (Halt (emit TEof t1))).
  { rewrite pstep_ordinary by (destruct R as [->|[->|[->|[->| ->]]]]; reflexivity). unfold M_html.ordinary. cbn [head].
    destruct R as [->|[->|[->|[->| ->]]]]; reflexivity. }
  assert (E := tokenize_nsteps switch switch_text cdata fuel tok_init text t1 (emit TEof t1)).
  rewrite newlines_none in E by exact C. rewrite E; try assumption; [reflexivity|exact I|intro K; rewrite K in R; destruct R as [R|[R|[R|[R|R]]]]; discriminate R|].
  intro K. apply C. rewrite <- K. destruct text as [|x l] eqn:El using rev_ind; [discriminate|]. rewrite last_last. apply in_or_app. right; left; reflexivity.
Qed.

Theorem text_reads s e fuel : Chars false s e -> Forall (fun c => c <> 0xD) s -> fuel_for fuel e ->
  tokenize fuel tok_init e = Val (map TChar s ++ [TEof]).
Proof.
  intros Hc F Fu. apply chars_fun in Hc. subst e. destruct (read_text switch cdata s tok_init [] F) as (t1 & H & (A & B & _)). rewrite app_nil_r in H.
  rewrite (read_all (escape_string s false) t1 fuel); [rewrite B; reflexivity| |exact H|rewrite A; left; reflexivity|exact Fu].
  apply nocr_escape. eapply nocr_forall; [|exact F]. auto.
Qed.
Theorem tag_reads name attrs ats a fuel : tag_name_ok name -> AttrsRead attrs ats -> Attrs attrs a -> fuel_for fuel (lit "<" ++ name ++ a ++ lit ">") ->
  tokenize fuel tok_init (lit "<" ++ name ++ a ++ lit ">") = Val [TStart (Tag name false ats); TEof].
Proof.
  intros Hn Ha Hs F. apply attrs_fun in Hs. subst a. pose proof (attrs_read _ _ Ha) as (Fa & ND & Et & _).
  destruct (read_start switch cdata tok_init [] name attrs eq_refl Hn Fa ND) as (t1 & H & O & _ & S). rewrite Et in *.
  rewrite (read_all _ t1 fuel); [rewrite O; reflexivity| |exact H| |exact F].
  - apply nocr_app; [vm_compute; intuition discriminate|]. apply nocr_app; [apply name_nocr; exact Hn|]. apply nocr_app; [eapply nocr_attrs; exact Ha|vm_compute; intuition discriminate].
  - rewrite S. destruct (switch _) eqn:E; [apply switch_text in E; right; exact E|left; reflexivity].
Qed.
Theorem end_tag_reads name fuel : tag_name_ok name -> fuel_for fuel (lit "</" ++ name ++ lit ">") ->
  tokenize fuel tok_init (lit "</" ++ name ++ lit ">") = Val [TEnd (Tag name false []); TEof].
Proof.
  intros Hn F. destruct (read_end switch cdata tok_init [] name eq_refl Hn) as (t1 & H & O & S).
  rewrite (read_all _ t1 fuel); [rewrite O; reflexivity| |exact H|left; exact S|exact F].
  apply nocr_app; [vm_compute; intuition discriminate|]. apply nocr_app; [apply name_nocr; exact Hn|vm_compute; intuition discriminate].
Qed.
Theorem comment_reads d fuel : comment_ok d -> fuel_for fuel (lit "<!--" ++ d ++ lit "-->") ->
  tokenize fuel tok_init (lit "<!--" ++ d ++ lit "-->") = Val [TComment d; TEof].
Proof.
  intros Hd F. destruct (read_comment switch cdata tok_init [] d eq_refl Hd) as (t1 & H & O & S). rewrite app_nil_r in H.
  rewrite (read_all _ t1 fuel); [rewrite O; reflexivity| |exact H|left; exact S|exact F].
  destruct Hd as (Fd & _). apply nocr_app; [vm_compute; intuition discriminate|]. apply nocr_app; [|vm_compute; intuition discriminate].
  eapply nocr_forall; [|exact Fd]. intros x [_ K]; exact K.
Qed.
Theorem doctype_reads n fuel : n <> [] -> Forall doctype_char n -> fuel_for fuel (lit "<!DOCTYPE " ++ n ++ lit ">") ->
  tokenize fuel tok_init (lit "<!DOCTYPE " ++ n ++ lit ">") = Val [TDoctype (Doctype n [] [] false); TEof].
Proof.
  intros Nn Fn F. destruct (read_doctype switch cdata tok_init [] n eq_refl Nn Fn) as (t1 & H & O & S).
  rewrite (read_all _ t1 fuel); [rewrite O; reflexivity| |exact H|left; exact S|exact F].
  apply nocr_app; [vm_compute; intuition discriminate|]. apply nocr_app; [|vm_compute; intuition discriminate].
  eapply nocr_forall; [|exact Fn]. unfold doctype_char. intros; lia.
Qed.
(** ** Text with references by name *)
Lemma names_checked : forallb (fun e => match fst e with c :: _ => is_ascii_alphanumeric c | [] => false end &&
  match snd e with [] => false | _ => true end) standard_names = true.
Proof. vm_compute. reflexivity. Qed.
Lemma reads_mixed e s : Mixed e s -> forall t r, t_state t = data_state ->
  exists t1, nsteps switch cdata t (e ++ r) t1 r /\ text_like t t1 s.
Proof.
  induction 1 as [|c e s N1 N2 N3 _ IH|n cps e s Hin L _ IH]; intros t r Es.
  - exists t. split; [constructor|apply text_like_refl].
  - destruct (IH (emit (TChar c) t) r Es) as (t1 & H1 & (A & B & C)). exists t1. split.
    + cbn [app]. eapply ns_trans; [apply (step_c switch cdata t c (e ++ r) (emit (TChar c) t) false)|exact H1].
      * rewrite Es. reflexivity.
      * unfold M_html.ordinary. rewrite Es. unfold on_data. zc. destruct (Z.eqb_spec c 0); [subst c; reflexivity|reflexivity].
    + split; [exact A|]. split; [rewrite B; cbn; rewrite <- app_assoc; reflexivity|exact C].
  - pose proof names_checked as K. rewrite forallb_forall in K. specialize (K _ Hin). cbn [fst snd] in K. apply andb_true_iff in K. destruct K as [K1 K2].
    assert (W : waits (t_state t) = false) by (rewrite Es; reflexivity).
    pose proof (read_reference switch cdata t n cps (e ++ r) Hin L) as R. rewrite Es in R.
    destruct R as (t1 & H1 & (A & B & C)).
    + intros ->. discriminate.
    + destruct n as [|c n]; [discriminate|]. exists c, n. auto.
    + reflexivity.
    + unfold M_html.ordinary. rewrite Es. reflexivity.
    + destruct (IH t1 r) as (t2 & H2 & T2); [rewrite A; exact Es|]. exists t2. split.
      * replace ((lit "&" ++ n ++ e) ++ r) with (0x26 :: n ++ e ++ r) by (cbn [lit app]; rewrite <- app_assoc; reflexivity). eapply ns_trans; eassumption.
      * eapply text_like_trans; [|exact T2]. split; [congruence|]. split; assumption.
Qed.
Lemma names_nocr : forallb (fun e => forallb (fun c => negb (c =? 0xD)) (fst e)) standard_names = true.
Proof. vm_compute. reflexivity. Qed.
Lemma mixed_nocr e s : Mixed e s -> nocr e.
Proof.
  induction 1 as [|c e s N1 N2 N3 _ IH|n cps e s Hin L _ IH]; [apply nocr_nil|apply nocr_cons; assumption|].
  apply nocr_app; [vm_compute; intuition discriminate|]. apply nocr_app; [|exact IH]. pose proof names_nocr as K. rewrite forallb_forall in K.
  specialize (K _ Hin). cbn [fst] in K. rewrite forallb_forall in K. intro X. apply K in X. discriminate.
Qed.
Theorem mixed_reads e s fuel : Mixed e s -> fuel_for fuel e -> tokenize fuel tok_init e = Val (map TChar s ++ [TEof]).
Proof.
  intros M F. destruct (reads_mixed e s M tok_init [] eq_refl) as (t1 & H & (A & B & _)). rewrite app_nil_r in H.
  rewrite (read_all e t1 fuel); [rewrite B; reflexivity|eapply mixed_nocr; exact M|exact H|left; exact A|exact F].
Qed.
End Runs.
