(** The documents that are read back as they are: which element may stand in which (spec), and what holds between two
    nodes while they are read. *)
From Coq Require Import ZArith List Bool String Lia.
From Verif Require Import M_infra M_encoding M_labels M_html M_html_serialize M_dom_names M_dom M_dom2 L_html_serialize L_dom L_dom2.
Import ListNotations.
Open Scope Z_scope.
Open Scope dom_scope.
Open Scope list_scope.

(** *** Which element may stand in which *)

(** The open elements are given by their names from the innermost to the outermost. *)
Fixpoint meets (target stop : list tname) (anc : list tname) : bool :=
  match anc with
  | [] => false
  | t :: r => if among t target then true else if among t stop then false else meets target stop r
  end.
Definition default_names : list tname :=
  [T_applet; T_caption; T_html; T_table; T_td; T_th; T_marquee; T_object; T_template].
Definition marker_names : list tname := [T_applet; T_marquee; T_object; T_td; T_th; T_caption].
Definition formatting_names : list tname :=
  [T_a; T_b; T_big; T_code; T_em; T_font; T_i; T_nobr; T_s; T_small; T_strike; T_strong; T_tt; T_u].
(** is there a p that a block would close *)
Definition open_p (anc : list tname) : bool := meets [T_p] (T_button :: default_names) anc.
Definition open_p_wide (anc : list tname) : bool := meets [T_p] default_names anc.
Definition open_ruby (anc : list tname) : bool := meets [T_ruby] default_names anc.
Definition open_nobr (anc : list tname) : bool := meets [T_nobr] default_names anc.
Definition open_a (anc : list tname) : bool := meets [T_a] marker_names anc.
(** is there a dd or dt that another one would close *)
Fixpoint open_item (anc : list tname) : bool :=
  match anc with
  | [] => true
  | t :: r =>
      if among t [T_dd; T_dt] then true
      else if among t special_html && negb (among t [T_address; T_div; T_p]) then false
      else open_item r
  end.
Definition inner_is (l : list tname) (anc : list tname) : bool := match anc with t :: _ => among t l | [] => false end.

(** elements that hold text only *)
Definition text_names : list tname :=
  [T_title; T_textarea; T_style; T_xmp; T_iframe; T_noembed; T_noframes; T_script].
(** elements that are empty *)
Definition void_tnames : list tname :=
  [T_area; T_base; T_basefont; T_bgsound; T_br; T_col; T_embed; T_frame; T_hr; T_img; T_input; T_keygen; T_link; T_meta; T_param;
   T_source; T_track; T_wbr].

(** the insertion mode in an element *)
Fixpoint mode_of (anc : list tname) : mode :=
  match anc with
  | [] => M_initial
  | t :: r =>
      if among t (text_names ++ void_tnames) then M_text else
      match t with
      | T_html => M_after_head | T_head => M_in_head | T_body => M_in_body
      | T_table => M_in_table | T_caption => M_in_caption | T_colgroup => M_in_column_group
      | T_tbody | T_thead | T_tfoot => M_in_table_body | T_tr => M_in_row | T_td | T_th => M_in_cell
      | T_select => match mode_of r with M_in_cell | M_in_caption => M_in_select_in_table | _ => M_in_select end
      | T_template => M_in_template | T_frameset => M_in_frameset
      | _ => mode_of r
      end
  end.

(** in the body, a cell or a caption *)
Definition flow (anc : list tname) (t : tname) : bool :=
  match t with
  | T_address | T_article | T_aside | T_blockquote | T_center | T_details | T_dialog | T_dir | T_div | T_dl | T_fieldset
  | T_figcaption | T_figure | T_footer | T_header | T_hgroup | T_main | T_menu | T_nav | T_ol | T_p | T_section | T_summary
  | T_ul | T_pre | T_listing | T_hr | T_xmp | T_table => negb (open_p anc)
  | T_h1 | T_h2 | T_h3 | T_h4 | T_h5 | T_h6 => negb (open_p anc) && negb (inner_is headings anc)
  | T_form => negb (open_p anc) && negb (among T_form anc)
  | T_li => negb (open_p anc) && negb (inner_is [T_li] anc)
  | T_dd | T_dt => negb (open_p anc) && negb (open_item anc)
  | T_button => negb (open_p_wide anc)
  | T_a => negb (open_a anc)
  | T_nobr => negb (open_nobr anc)
  | T_optgroup | T_option => negb (inner_is [T_option] anc)
  | T_rb | T_rtc | T_rp | T_rt => negb (open_ruby anc) || negb (inner_is implied anc)
  | T_caption | T_col | T_colgroup | T_frame | T_head | T_tbody | T_td | T_tfoot | T_th | T_thead | T_tr | T_html | T_body
  | T_frameset | T_image | T_plaintext | T_template | T_math | T_svg => false
  | _ => true
  end.
Definition allowed (anc : list tname) (t : tname) : bool :=
  match mode_of anc with
  | M_in_body | M_in_cell | M_in_caption => flow anc t
  | M_in_head => among t [T_base; T_basefont; T_bgsound; T_link; T_meta; T_title; T_noframes; T_style; T_script]
  | M_in_table => among t [T_caption; T_colgroup; T_tbody; T_tfoot; T_thead; T_style; T_script]
  | M_in_table_body => among t [T_tr; T_style; T_script]
  | M_in_row => among t [T_td; T_th; T_style; T_script]
  | M_in_column_group => among t [T_col]
  | M_in_select | M_in_select_in_table =>
      among t [T_script] || (among t [T_option; T_optgroup] && negb (inner_is [T_option] anc)
                             && negb (among t [T_optgroup] && inner_is [T_optgroup] anc))
  | _ => false
  end.
Definition text_allowed (anc : list tname) (d : list Z) : bool :=
  match mode_of anc with
  | M_in_body | M_in_cell | M_in_caption | M_in_select | M_in_select_in_table => forallb (fun c => negb (c =? 0)) d
  | M_in_head | M_in_table | M_in_table_body | M_in_row | M_in_column_group => forallb is_ascii_white_space d
  | _ => false
  end.

Definition is_text (n : node) : bool := match n with NText _ => true | _ => false end.
Definition starts_lf (l : list node) : bool := match l with NText (c :: _) :: _ => c =? 0xA | _ => false end.
(** no two texts beside each other *)
Fixpoint texts_apart (l : list node) : bool :=
  match l with
  | a :: r => negb (is_text a && match r with b :: _ => is_text b | [] => false end) && texts_apart r
  | [] => true
  end.
Definition nonempty (d : list Z) : bool := match d with [] => false | _ => true end.
Definition plain_attr (a : attr) : bool := (at_ns a =? 0) && negb (nonempty (at_prefix a)).

(** A node that may stand below open elements. *)
Fixpoint fits (anc : list tname) (n : node) {struct n} : bool :=
  match n with
  | NElement ns prefix l attrs kids =>
      let t := tname_of l in
      (ns =? ns_HTML) && negb (nonempty prefix) && forallb plain_attr attrs && allowed anc t && texts_apart kids
      && negb (among t [T_pre; T_listing; T_textarea] && starts_lf kids)
      && (if among t text_names then forallb (fun k => match k with NText d => nonempty d | _ => false end) kids
          else if among t void_tnames then match kids with [] => true | _ => false end
          else forallb (fits (t :: anc)) kids)
  | NText d => nonempty d && text_allowed anc d
  | NComment _ => true
  | _ => false
  end.

(** *** What holds between two nodes *)

Inductive Ok : list tname -> Prop :=
| Ok_body : Ok [T_body; T_html]
| Ok_head : Ok [T_head; T_html]
| Ok_in : forall t anc, Ok anc -> allowed anc t = true -> among t (text_names ++ void_tnames) = false -> Ok (t :: anc).

Definition is_named (d : list cell) (e : entry) (t : tname) : Prop :=
  (2 <= en_node e < List.length d)%nat /\ exists attrs, c_info (cell_of d (en_node e)) = IElement ns_HTML t attrs.
Definition Names (d : list cell) : list entry -> list tname -> Prop := Forall2 (is_named d).
(** the list of active formatting elements: some of the open ones, and the markers *)
Inductive Act : list entry -> list tname -> list formatting -> Prop :=
| Act_nil : Act [] [] []
| Act_skip : forall e t st anc ac, among t marker_names = false -> Act st anc ac -> Act (e :: st) (t :: anc) ac
| Act_in : forall e t st anc ac g, among t formatting_names = true -> Act st anc ac ->
    Act (e :: st) (t :: anc) (Some (Entry g (en_node e)) :: ac)
| Act_mark : forall e t st anc ac, among t marker_names = true -> Act st anc ac -> Act (e :: st) (t :: anc) (None :: ac).
Inductive FormAt : list entry -> list tname -> option nat -> Prop :=
| Form_none : forall st anc, ~ In T_form anc -> FormAt st anc None
| Form_here : forall e st anc, ~ In T_form anc -> FormAt (e :: st) (T_form :: anc) (Some (en_node e))
| Form_up : forall e st t anc f, t <> T_form -> FormAt st anc f -> FormAt (e :: st) (t :: anc) f.

Record Good (anc : list tname) (s : st) : Prop := {
  G_ok : Ok anc;
  G_names : Names (s_dom s) (s_stack s) anc;
  G_nodup : NoDup (map en_node (s_stack s));
  G_act : Act (s_stack s) anc (s_active s);
  G_form : FormAt (s_stack s) anc (s_form s);
  G_mode : s_mode s = mode_of anc;
  G_foster : s_foster s = false;
  G_fragment : s_fragment s = false;
  G_templates : s_templates s = [];
  G_slots : s_slots s = [] }.

(** the current node *)
Definition top (s : st) : nat := match s_stack s with e :: _ => en_node e | [] => O end.

(** *** Names and scopes *)

Lemma named_ns : forall d e t, is_named d e t -> ns_of d (en_node e) = ns_HTML.
Proof. intros d e t (_ & a & E). unfold ns_of. now rewrite E. Qed.
Lemma named_name : forall d e t, is_named d e t -> name_of d (en_node e) = t.
Proof. intros d e t (_ & a & E). unfold name_of. now rewrite E. Qed.
Lemma named_is : forall d e t x, is_named d e t -> is_html x d (en_node e) = teqb t x.
Proof. intros d e t x H. unfold is_html, is_el. rewrite (named_ns _ _ _ H), (named_name _ _ _ H). reflexivity. Qed.
Lemma named_in : forall d e t l, is_named d e t -> is_html_in l d (en_node e) = among t l.
Proof. intros d e t l H. unfold is_html_in. rewrite (named_ns _ _ _ H), (named_name _ _ _ H). reflexivity. Qed.
Lemma named_special : forall d e t, is_named d e t -> is_special d (en_node e) = among t special_html.
Proof. intros d e t H. unfold is_special. rewrite (named_ns _ _ _ H), (named_name _ _ _ H). reflexivity. Qed.
Lemma named_default : forall d e t, is_named d e t -> default_scope d (en_node e) = among t default_names.
Proof. intros d e t H. unfold default_scope. rewrite (named_ns _ _ _ H), (named_name _ _ _ H). reflexivity. Qed.
Lemma named_button : forall d e t, is_named d e t -> button_scope d (en_node e) = among t (T_button :: default_names).
Proof.
  intros d e t H. unfold button_scope. rewrite (named_default _ _ _ H), (named_is _ _ _ _ H). cbn [among existsb]. apply orb_comm.
Qed.
Lemma among_one : forall t x, among t [x] = teqb t x.
Proof. intros. unfold among. cbn. apply orb_false_r. Qed.

Lemma scope_names : forall d (target scope : nat -> bool) names stop st anc,
  (forall e t, is_named d e t -> target (en_node e) = among t names) ->
  (forall e t, is_named d e t -> scope (en_node e) = among t stop) ->
  Names d st anc -> among T_html stop = true -> In T_html anc ->
  scope_from d target scope st = Val (meets names stop anc).
Proof.
  intros d target scope names stop st anc HT HS N. induction N as [|e t st anc H N IH]; intros S I; [destruct I|].
  cbn [scope_from meets]. rewrite (HT _ _ H), (HS _ _ H). destruct (among t names); [reflexivity|].
  destruct (among t stop) eqn:E; [reflexivity|]. destruct I as [->|I]; [congruence|]. now apply IH.
Qed.

Lemma ok_html : forall anc, Ok anc -> In T_html anc.
Proof. induction 1; [right; now left|right; now left|now right]. Qed.
Lemma allowed_not : forall anc t, allowed anc t = true -> among t [T_template; T_html; T_body; T_head; T_frameset] = false.
Proof.
  intros anc t H. unfold allowed in H. destruct (mode_of anc); try discriminate; destruct t; try reflexivity; try discriminate H;
    cbn in H; discriminate H.
Qed.
Lemma ok_no_template : forall anc, Ok anc -> among T_template anc = false.
Proof.
  induction 1 as [| |t anc H IH A N]; [reflexivity|reflexivity|]. unfold among in *. cbn [existsb]. rewrite IH, orb_false_r.
  apply allowed_not in A. destruct t; try reflexivity. discriminate A.
Qed.
Lemma contains_names : forall d st anc t, Names d st anc -> existsb (fun e => is_html t d (en_node e)) st = among t anc.
Proof.
  intros d st anc t N. induction N as [|e u st anc H N IH]; [reflexivity|]. unfold among in *. cbn [existsb]. rewrite IH, (named_is _ _ _ _ H).
  f_equal. destruct (teqb u t) eqn:E.
  - apply teqb_eq in E. subst. symmetry. apply teqb_refl.
  - destruct (teqb t u) eqn:F; [|reflexivity]. apply teqb_eq in F. subst. now rewrite teqb_refl in E.
Qed.
Lemma no_template : forall anc s, Good anc s -> contains T_template s = false.
Proof. intros anc s G. unfold contains. rewrite (contains_names _ _ _ _ (G_names _ _ G)). apply ok_no_template. apply G. Qed.

Section Scopes.
Variables (anc : list tname) (s : st).
Hypothesis G : Good anc s.
Lemma p_closed_id : open_p anc = false -> p_closed s = Val s.
Proof.
  intro H. unfold p_closed, in_scope.
  rewrite (scope_names (s_dom s) _ _ [T_p] (T_button :: default_names) (s_stack s) anc).
  - fold (open_p anc). now rewrite H.
  - intros. rewrite among_one. now apply named_is.
  - intros. now apply named_button.
  - apply G.
  - reflexivity.
  - apply ok_html. apply G.
Qed.
Lemma in_default : forall t, in_scope default_scope t s = Val (meets [t] default_names anc).
Proof.
  intro t. unfold in_scope. apply scope_names.
  - intros. rewrite among_one. now apply named_is.
  - intros. now apply named_default.
  - apply G.
  - reflexivity.
  - apply ok_html. apply G.
Qed.

(** *** Nothing to reconstruct *)
Lemma act_open : forall st an ac i, Act st an ac -> existsb (is_entry i) ac = true -> In i (map en_node st).
Proof.
  intros st an ac i A. induction A as [|e t st an ac M A IH|e t st an ac g M A IH|e t st an ac M A IH]; cbn [existsb is_entry map en_node]; intro H.
  - discriminate.
  - right. now apply IH.
  - apply orb_prop in H. destruct H as [H|H]; [left; now apply PeanoNat.Nat.eqb_eq in H|right; now apply IH].
  - right. now apply IH.
Qed.
Lemma reconstruct_id : reconstruct s = Val s.
Proof.
  unfold reconstruct. destruct (s_active s) as [|[e|] l] eqn:E; try reflexivity. cbn [to_open].
  replace (on_stack (en_node e) s) with true; [reflexivity|]. symmetry. unfold on_stack. apply existsb_exists.
  assert (I : In (en_node e) (map en_node (s_stack s))).
  { apply (act_open _ _ _ _ (G_act _ _ G)). rewrite E. cbn. now rewrite PeanoNat.Nat.eqb_refl. }
  apply in_map_iff in I. destruct I as (f & F & I). exists f. split; [exact I|]. now apply PeanoNat.Nat.eqb_eq.
Qed.

(** *** Inserting *)
Lemma stack_cons : exists e st t an, s_stack s = e :: st /\ anc = t :: an /\ is_named (s_dom s) e t /\ Names (s_dom s) st an.
Proof.
  destruct (G_names _ _ G) as [|e t st an H N]; [|now exists e, st, t, an].
  pose proof (G_ok _ _ G) as O. inversion O.
Qed.
Lemma top_bounds : (2 <= top s < List.length (s_dom s))%nat.
Proof. destruct stack_cons as (e & st & t & an & E & _ & (B & _) & _). unfold top. rewrite E. exact B. Qed.
Lemma cur_top : cur s = Val (top s).
Proof. destruct stack_cons as (e & st & t & an & E & _). unfold cur, top. now rewrite E. Qed.
Lemma place_end : forall i, place_for i s = Val (at_end i).
Proof. intro i. unfold place_for. rewrite (G_foster _ _ G). reflexivity. Qed.
Lemma cur_is_name : forall t x an, anc = t :: an -> cur_is x s = Val (teqb t x).
Proof.
  intros t x an E. unfold cur_is. rewrite cur_top. cbn. destruct stack_cons as (e & st & u & an2 & Es & Ea & H & _).
  unfold top. rewrite Es. rewrite (named_is _ _ _ _ H). congruence.
Qed.
End Scopes.

(** the state with a new element at the end of the current node, opened *)
Definition opened (g : stag) (x : info) (s : st) : st :=
  set_stack (Entry g (List.length (s_dom s)) :: s_stack s)
    (set_dom (change (s_dom s) (top s) (add_kids [List.length (s_dom s)]) ++ [Cell x (top s) []]) s).
Lemma insert_el_opened : forall anc s g x, Good anc s -> element_for g ns_HTML = Val x ->
  insert_el g s = Val (opened g x s, List.length (s_dom s)).
Proof.
  intros anc s g x G E. unfold insert_el, insert_foreign. rewrite (cur_top _ _ G). cbv beta iota.
  rewrite (place_end _ _ G). cbv beta iota. rewrite E. cbv beta iota. rewrite insert_end. reflexivity.
Qed.
Lemma insert_el'_opened : forall anc s g x, Good anc s -> element_for g ns_HTML = Val x -> insert_el' g s = Val (opened g x s).
Proof. intros anc s g x G E. unfold insert_el'. now rewrite (insert_el_opened anc s g x G E). Qed.
(** the state with something at the end of the current node *)
Definition appended (l : list node) (s : st) : st := set_dom (grow (s_dom s) (top s) l) s.

Lemma names_grow : forall d c l st anc, Names d st anc -> Names (grow d c l) st anc.
Proof.
  intros d c l st anc N. induction N as [|e t st anc ((B1 & B2) & a & E) N IH]; constructor; [|exact IH]. split.
  - rewrite grow_length. lia.
  - exists a. now rewrite info_grow.
Qed.
Lemma names_open : forall d c x st anc, Names d st anc ->
  Names (change d c (add_kids [List.length d]) ++ [Cell x c []]) st anc.
Proof.
  intros d c x st anc N. induction N as [|e t st anc ((B1 & B2) & a & E) N IH]; constructor; [|exact IH]. split.
  - rewrite app_length, change_length. lia.
  - exists a. rewrite cell_app1 by now rewrite change_length. rewrite cell_change.
    destruct ((c =? en_node e)%nat && (en_node e <? List.length d)%nat); cbn [add_kids set_kids c_info]; exact E.
Qed.
Lemma names_bound : forall d st anc i, Names d st anc -> In i (map en_node st) -> (i < List.length d)%nat.
Proof.
  intros d st anc i N. induction N as [|e t st anc ((B1 & B2) & _) N IH]; cbn; intros I; [destruct I|].
  destruct I as [<-|I]; [exact B2|now apply IH].
Qed.
Lemma good_grow : forall anc s l, Good anc s -> Good anc (appended l s).
Proof. intros anc s l G. destruct G. constructor; cbn; try assumption. now apply names_grow. Qed.

Lemma good_opened : forall anc s t g attrs s1, Good anc s -> allowed anc t = true -> among t (text_names ++ void_tnames) = false ->
  s_dom s1 = s_dom (opened g (IElement ns_HTML t attrs) s) -> s_stack s1 = s_stack (opened g (IElement ns_HTML t attrs) s) ->
  Act (s_stack s1) (t :: anc) (s_active s1) -> FormAt (s_stack s1) (t :: anc) (s_form s1) -> s_mode s1 = mode_of (t :: anc) ->
  s_foster s1 = s_foster s -> s_fragment s1 = s_fragment s -> s_templates s1 = s_templates s -> s_slots s1 = s_slots s ->
  Good (t :: anc) s1.
Proof.
  intros anc s t g attrs s1 G A T Ed Es HA HF HM E1 E2 E3 E4. destruct G. constructor; try congruence; try assumption.
  - now apply Ok_in.
  - rewrite Ed, Es. cbn [opened s_dom s_stack set_stack set_dom]. constructor.
    + split.
      * cbn [en_node]. rewrite app_length, change_length. cbn [List.length].
        split; [|lia]. assert (B : (2 <= top s < List.length (s_dom s))%nat).
        { inversion G_names0 as [E E'|e u st an [B _] N E E']; [subst anc; inversion G_ok0|]. unfold top. rewrite <- E. exact B. }
        lia.
      * exists attrs. cbn [en_node]. rewrite <- (PeanoNat.Nat.add_0_r (List.length (s_dom s))) at 2.
        rewrite <- (change_length (s_dom s) (top s) (add_kids [List.length (s_dom s)])) at 2. rewrite cell_app2. reflexivity.
    + now apply names_open.
  - rewrite Es. cbn [opened s_stack set_stack map en_node]. constructor; [|assumption]. intro I.
    apply (names_bound _ _ _ _ G_names0) in I. lia.
Qed.
