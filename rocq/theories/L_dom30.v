(** The insertion modes of the HTML standard (13.2.6.4), written down as tables: for each mode, kind of token and name the
    steps to be taken. The steps are those the standard speaks of ("close a p element", "generate implied end tags",
    "reprocess the token"); what they mean is said below without the functions of the model, except for the insertion of
    nodes, the reconstruction of the formatting elements, the adoption agency and the reset of the insertion mode, which
    have properties of their own (C98, C103, C116). *)
From Coq Require Import ZArith List Bool String.
From Verif Require Import M_infra M_encoding M_labels M_html M_html_serialize M_dom_names M_dom M_dom2.
Import ListNotations.
Open Scope Z_scope.
Open Scope dom_scope.
Open Scope list_scope.

(** *** Words *)

(** the longest beginning all of whose members satisfy [f] *)
Fixpoint lead {A} (f : A -> bool) (l : list A) : list A :=
  match l with x :: r => if f x then x :: lead f r else [] | [] => [] end.
(** an open element is one of these HTML elements *)
Definition one_of (l : list tname) (s : st) (e : entry) : bool :=
  (ns_of (s_dom s) (en_node e) =? ns_HTML) && existsb (teqb (name_of (s_dom s) (en_node e))) l.
(** "pop elements from the stack until one has been popped that..." *)
Definition popped_through (f : entry -> bool) (s : st) : st :=
  set_stack (skipn (S (List.length (lead (fun e => negb (f e)) (s_stack s)))) (s_stack s)) s.
(** "while the current node is not..., pop" *)
Definition popped_to (f : entry -> bool) (s : st) : st :=
  set_stack (skipn (List.length (lead (fun e => negb (f e)) (s_stack s))) (s_stack s)) s.

(** 13.2.4.2 *)
Inductive scope := In_default | In_list_item | In_button | In_table | In_select.
Definition default_list : list (Z * list tname) :=
  [(ns_HTML, [T_applet; T_caption; T_html; T_table; T_td; T_th; T_marquee; T_object; T_template]);
   (ns_MathML, [T_mi; T_mo; T_mn; T_ms; T_mtext; T_annotation_xml]); (ns_SVG, [T_foreignObject; T_desc; T_title])].
Definition scope_list (c : scope) : list (Z * list tname) :=
  match c with
  | In_default => default_list
  | In_list_item => (ns_HTML, [T_ol; T_ul]) :: default_list
  | In_button => (ns_HTML, [T_button]) :: default_list
  | In_table => [(ns_HTML, [T_html; T_table; T_template])]
  | In_select => [(ns_HTML, [T_optgroup; T_option])]
  end.
Definition listed_el (l : list (Z * list tname)) (s : st) (e : entry) : bool :=
  existsb (fun p => (ns_of (s_dom s) (en_node e) =? fst p) && existsb (teqb (name_of (s_dom s) (en_node e))) (snd p)) l.
Definition ends_scope (c : scope) (s : st) (e : entry) : bool :=
  match c with In_select => negb (listed_el (scope_list c) s e) | _ => listed_el (scope_list c) s e end.
(** the first element of the stack that is looked for or ends the scope is looked for *)
Definition scoped (c : scope) (f : entry -> bool) (s : st) : bool :=
  match find (fun e => f e || ends_scope c s e) (s_stack s) with Some e => f e | None => false end.

(** 13.2.4.2, the special elements *)
Definition special_list : list (Z * list tname) :=
  [(ns_HTML,
    [T_address; T_applet; T_area; T_article; T_aside; T_base; T_basefont; T_bgsound; T_blockquote; T_body; T_br; T_button;
     T_caption; T_center; T_col; T_colgroup; T_dd; T_details; T_dir; T_div; T_dl; T_dt; T_embed; T_fieldset; T_figcaption;
     T_figure; T_footer; T_form; T_frame; T_frameset; T_h1; T_h2; T_h3; T_h4; T_h5; T_h6; T_head; T_header; T_hgroup; T_hr;
     T_html; T_iframe; T_img; T_input; T_keygen; T_li; T_link; T_listing; T_main; T_marquee; T_menu; T_meta; T_nav;
     T_noembed; T_noframes; T_noscript; T_object; T_ol; T_p; T_param; T_plaintext; T_pre; T_script; T_section; T_select;
     T_source; T_style; T_summary; T_table; T_tbody; T_td; T_template; T_textarea; T_tfoot; T_th; T_thead; T_title; T_tr;
     T_track; T_ul; T_wbr; T_xmp]);
   (ns_MathML, [T_mi; T_mo; T_mn; T_ms; T_mtext; T_annotation_xml]); (ns_SVG, [T_foreignObject; T_desc; T_title])].
Definition special (s : st) (e : entry) : bool := listed_el special_list s e.

(** 13.2.6.3 *)
Definition may_imply : list tname := [T_dd; T_dt; T_li; T_optgroup; T_option; T_p; T_rb; T_rp; T_rt; T_rtc].
Definition may_imply_all : list tname := may_imply ++ [T_caption; T_colgroup; T_tbody; T_td; T_tfoot; T_th; T_thead; T_tr].
Definition implying (l : list tname) (except : list tname) (s : st) : st :=
  popped_to (fun e => negb (one_of l s e && negb (one_of except s e))) s.

(** *** Conditions and steps *)

Inductive condition :=
| Current (l : list tname)               (* the current node is one of these *)
| In_scope (c : scope) (l : list tname)  (* one of these is in scope *)
| On_stack (t : tname)
| Form_noted | Quirks_mode | Fragment_case | Template_modes | Option_in_optgroup | Second_body | Frameset_ok.
Definition holds (c : condition) (s : st) : bool :=
  match c with
  | Current l => match s_stack s with e :: _ => one_of l s e | [] => false end
  | In_scope c l => scoped c (one_of l s) s
  | On_stack t => existsb (one_of [t] s) (s_stack s)
  | Form_noted => match s_form s with Some _ => true | None => false end
  | Quirks_mode => s_quirks s
  | Fragment_case => s_fragment s
  | Template_modes => negb (match s_templates s with [] => true | _ => false end)
  | Option_in_optgroup =>
      match s_stack s with e :: f :: _ => one_of [T_option] s e && one_of [T_optgroup] s f | _ => false end
  | Second_body => match rev (s_stack s) with _ :: e :: _ => one_of [T_body] s e | _ => false end
  | Frameset_ok => s_frameset_ok s
  end.

Inductive step :=
| Insert (g : stag)               (* insert an HTML element for the token *)
| Root (x : outcome info) (g : stag)  (* append an html element to the document and put it on the stack *)
| Char (c : Z) | Comment (d : list Z) | Comment_in_root (d : list Z) | Comment_in_document (d : list Z)
| Doctype (d : doctype)
| Merge (g : stag)                (* add the attributes that are not there to the first element of the stack *)
| Pop
| Pop_through (l : list tname)
| Back_to (l : list tname)        (* clear the stack back to a context *)
| Imply | Imply_but (t : tname) | Imply_all
| Close_item (l : list tname) (* the loop of dd and dt *)
| Other_end (t : tname)           (* any other end tag *)
| End_form
| Reconstruct | Note_formatting (g : stag) | Marker | Clear_formatting
| Mode (m : mode) | Original_mode | To_text | To_table_text | Add_pending (c : Z)
| Template_mode (m : mode) | Pop_template_mode | Reset
| Not_ok | Set_quirks | Omit_lf | Note_head | Note_form | Switch (r : reading)
| Foster (b : bool) | Push_node (i : nat) | Remove_node (i : nat) | Stop
| Merge_body (g : stag) | Remove_second
| Adopt_all (t : tname)           (* the adoption agency, and the steps of any other end tag if it says so *)
| Adopt_a                         (* the steps for an a start tag while an a is in the list behind the last marker *)
| Foreign (g : stag) (ns : Z).    (* insert a foreign element for the token *)

(** the first element of the stack that is one of these, or that is special and neither address, div nor p *)
Definition item_found (l : list tname) (s : st) : option entry :=
  find (fun e => one_of l s e || (special s e && negb (one_of [T_address; T_div; T_p] s e))) (s_stack s).
Definition named_entry (s : st) (e : entry) : tname := name_of (s_dom s) (en_node e).

Definition other_end_steps (t : tname) (s : st) : outcome st :=
  match find (fun e => one_of [t] s e || special s e) (s_stack s) with
  | Some e =>
      if one_of [t] s e
      then let s1 := implying may_imply [t] s in Val (popped_through (fun f => (en_node f =? en_node e)%nat) s1)
      else Val s
  | None => Bad
  end.
Definition adopt_all (t : tname) (s : st) : outcome st :=
  run (s1, any) <- agency t s; if any : bool then other_end_steps t s1 else Val s1.
(** the last a in the list behind the last marker *)
Definition listed_a (s : st) : option nat :=
  match find (fun f => match f with Some e => one_of [T_a] s e | None => false end)
             (lead (fun f => match f with Some _ => true | None => false end) (s_active s)) with
  | Some (Some e) => Some (en_node e)
  | _ => None
  end.

Definition perform (a : step) (s : st) : outcome st :=
  match a with
  | Insert g => insert_el' g s
  | Root x g =>
      run x <- x;
      run (d, i) <- insert (s_dom s) (at_end the_document) x;
      Val (set_stack (Entry g i :: s_stack s) (set_dom d s))
  | Char c => insert_char c s
  | Comment d => insert_comment d s
  | Comment_in_root d => match rev (s_stack s) with e :: _ => insert_comment_at d (at_end (en_node e)) s | [] => Bad end
  | Comment_in_document d => insert_comment_at d (at_end the_document) s
  | Doctype d =>
      run (dom, _) <- insert (s_dom s) (at_end the_document) (IDoctype (d_name d) (d_public d) (d_system d)); Val (set_dom dom s)
  | Merge g => match rev (s_stack s) with e :: _ => Val (merge_attrs g (en_node e) s) | [] => Bad end
  | Pop => pop s
  | Pop_through l => Val (popped_through (one_of l s) s)
  | Back_to l => Val (popped_to (one_of l s) s)
  | Imply => Val (implying may_imply [] s)
  | Imply_but t => Val (implying may_imply [t] s)
  | Imply_all => Val (implying may_imply_all [] s)
  | Close_item l =>
      match item_found l s with
      | Some e =>
          if one_of l s e
          then let s1 := implying may_imply [named_entry s e] s in Val (popped_through (one_of [named_entry s e] s1) s1)
          else Val s
      | None => Bad
      end
  | Other_end t => other_end_steps t s
  | End_form =>
      let s1 := set_form None s in
      match s_form s with
      | Some i =>
          if scoped In_default (fun e => (en_node e =? i)%nat) s1 then remove_stack i (implying may_imply [] s1) else Val s1
      | None => Val s1
      end
  | Reconstruct => reconstruct s
  | Note_formatting g => match s_stack s with e :: _ => Val (push_formatting (en_node e) g s) | [] => Bad end
  | Marker => Val (set_active (None :: s_active s) s)
  | Clear_formatting =>
      Val (set_active (skipn (S (List.length (lead (fun f => match f with Some _ => true | None => false end) (s_active s)))) (s_active s)) s)
  | Mode m => Val (set_mode m s)
  | Original_mode => Val (set_mode (s_original s) s)
  | To_text => Val (set_mode M_text (set_original (s_mode s) s))
  | To_table_text => Val (set_mode M_in_table_text (set_original (s_mode s) (set_pending [] s)))
  | Add_pending c => Val (set_pending (s_pending s ++ [c]) s)
  | Template_mode m => Val (set_templates (m :: s_templates s) s)
  | Pop_template_mode => match s_templates s with _ :: r => Val (set_templates r s) | [] => Bad end
  | Reset => reset_mode s
  | Not_ok => Val (set_frameset_ok false s)
  | Set_quirks => Val (set_quirks true s)
  | Omit_lf => Val (set_omit_lf true s)
  | Note_head => match s_stack s with e :: _ => Val (set_head (Some (en_node e)) s) | [] => Bad end
  | Note_form => match s_stack s with e :: _ => Val (set_form (Some (en_node e)) s) | [] => Bad end
  | Switch r => Val (set_wanted (Some r) s)
  | Foster b => Val (set_foster b s)
  | Push_node i => Val (set_stack (Entry empty_tag i :: s_stack s) s)
  | Remove_node i => Val (set_stack (filter (fun e => negb (en_node e =? i)%nat) (s_stack s)) s)
  | Stop => Val (set_stack [] s)
  | Merge_body g => match rev (s_stack s) with _ :: e :: _ => Val (merge_attrs g (en_node e) s) | _ => Bad end
  | Remove_second => match rev (s_stack s) with _ :: e :: _ => Val (set_dom (erase (s_dom s) (en_node e)) s) | _ => Bad end
  | Adopt_all t => adopt_all t s
  | Adopt_a =>
      match listed_a s with
      | Some i =>
          run s1 <- adopt_all T_a s;
          let s2 := remove_list i s1 in if on_stack i s2 then remove_stack i s2 else Val s2
      | None => Val s
      end
  | Foreign g ns =>
      (* the prefixes that stay in the token are C97 *)
      run (s1, _) <- insert_foreign g ns (keep_slots g s); Val s1
  end.
Fixpoint performs (l : list step) (s : st) : outcome st :=
  match l with [] => Val s | a :: r => run s1 <- perform a s; performs r s1 end.

Inductive rule :=
| Done
| Do (a : step) (r : rule)
| When (c : condition) (l : list step) (r : rule)
| Unless (c : condition) (l : list step) (r : rule)
| If (c : condition) (r q : rule)
| Again (k : ktok)                               (* reprocess the token *)
| Use (m : mode) (k : ktok) (l : list step)      (* process the token using the rules for a mode *)
| Adopt (t : tname) (r : rule)               (* the adoption agency; the rule: the steps of any other end tag *)
| Pending (k : ktok).                            (* the pending table characters are over *)

Fixpoint each {A} (f : A -> st -> outcome st) (l : list A) (s : st) : outcome st :=
  match l with [] => Val s | x :: r => run s1 <- f x s; each f r s1 end.
Fixpoint obey (emit : st -> ktok -> outcome st) (use : mode -> st -> ktok -> outcome st) (r : rule) (s : st) : outcome st :=
  match r with
  | Done => Val s
  | Do a q => run s1 <- perform a s; obey emit use q s1
  | When c l q => run s1 <- (if holds c s then performs l s else Val s); obey emit use q s1
  | Unless c l q => run s1 <- (if holds c s then Val s else performs l s); obey emit use q s1
  | If c q p => if holds c s then obey emit use q s else obey emit use p s
  | Again k => emit s k
  | Use m k l => run s1 <- use m s k; performs l s1
  | Adopt t q => run (s1, any) <- agency t s; if any : bool then obey emit use q s1 else Val s1
  | Pending k =>
      run s1 <- (if forallb is_ascii_white_space (s_pending s) then each insert_char (s_pending s) s
                 else each (fun c s => run s1 <- use M_in_body (set_foster true s) (KChar c); Val (set_foster false s1)) (s_pending s) s);
      emit (set_mode (s_original s1) s1) k
  end.

(** "the token's name is one of..." *)
Fixpoint choose (t : tname) (table : list (list tname * rule)) (otherwise : rule) : rule :=
  match table with
  | [] => otherwise
  | (l, r) :: q => if existsb (teqb t) l then r else choose t q otherwise
  end.
Definition white (c : Z) : bool := existsb (Z.eqb c) [0x9; 0xA; 0xC; 0xD; 0x20].

(** *** The tables *)

Notation "a ;; b" := (Do a b) (at level 61, right associativity).
(** close a p element, if one is in button scope *)
Definition Close_p (r : rule) : rule := When (In_scope In_button [T_p]) [Imply_but T_p; Pop_through [T_p]] r.
Definition Raw (g : stag) (r : reading) : rule := Insert g ;; Switch r ;; To_text ;; Done.
Definition heading_names : list tname := [T_h1; T_h2; T_h3; T_h4; T_h5; T_h6].
Definition Html_start (g : stag) : rule := If (On_stack T_template) Done (Merge g ;; Done).
Definition in_head_names : list tname :=
  [T_base; T_basefont; T_bgsound; T_link; T_meta; T_noframes; T_script; T_style; T_template; T_title].
Definition table_parts : list tname := [T_caption; T_col; T_colgroup; T_tbody; T_td; T_tfoot; T_th; T_thead; T_tr].
Definition hidden (g : stag) : bool :=
  match find (fun a => negb (ta_omitted a) && same_str (lit "type") (ta_name a)) (g_attrs g) with
  | Some a => same_str (map cp_lower (ta_value a)) (lit "hidden")
  | None => false
  end.
Definition bare (t : tname) : stag := STag t true [] false [].

Section Rules.
(** the public identifiers that are in the list of 13.2.6.4.1 *)
Variable listed : list Z -> bool.
(** 13.2.6.4.1; an empty system identifier counts as missing *)
Definition begins (a b : list Z) : bool := same_str (firstn (List.length a) b) a.
Definition quirky (d : doctype) : bool :=
  let p := map cp_lower (d_public d) in
  d_quirks d || negb (same_str (d_name d) (lit "html"))
  || existsb (same_str p) [lit "-//w3o//dtd w3 html strict 3.0//en//"; lit "-/w3c/dtd html 4.0 transitional/en"; lit "html"]
  || same_str (map cp_lower (d_system d)) (lit "http://www.ibm.com/data/dtd/v11/ibmxhtml1-transitional.dtd")
  || listed p
  || (same_str (d_system d) [] &&
      existsb (fun x => begins x p) [lit "-//w3c//dtd html 4.01 frameset//"; lit "-//w3c//dtd html 4.01 transitional//"]).

Definition rules_initial (k : ktok) : rule :=
  let otherwise := Set_quirks ;; Mode M_before_html ;; Again k in
  match k with
  | KChar c => if white c then Done else otherwise
  | KComment d => Comment_in_document d ;; Done
  | KDoctype d => Doctype d ;; (if quirky d then Set_quirks ;; Mode M_before_html ;; Done else Mode M_before_html ;; Done)
  | _ => otherwise
  end.
Definition rules_before_html (k : ktok) : rule :=
  let otherwise := Root (Val (IElement ns_HTML T_html [])) empty_tag ;; Mode M_before_head ;; Again k in
  match k with
  | KDoctype _ => Done
  | KComment d => Comment_in_document d ;; Done
  | KChar c => if white c then Done else otherwise
  | KStart g => choose (g_id g) [([T_html], Root (element_for g ns_HTML) g ;; Mode M_before_head ;; Done)] otherwise
  | KEnd t => choose t [([T_head; T_body; T_html; T_br], otherwise)] Done
  | KEof => otherwise
  end.
Definition rules_before_head (k : ktok) : rule :=
  let otherwise := Insert (bare T_head) ;; Note_head ;; Mode M_in_head ;; Again k in
  match k with
  | KChar c => if white c then Done else otherwise
  | KComment d => Comment d ;; Done
  | KDoctype _ => Done
  | KStart g =>
      choose (g_id g) [([T_html], Html_start g); ([T_head], Insert g ;; Note_head ;; Mode M_in_head ;; Done)] otherwise
  | KEnd t => choose t [([T_head; T_body; T_html; T_br], otherwise)] Done
  | KEof => otherwise
  end.
Definition rules_in_head (k : ktok) : rule :=
  let otherwise := Pop ;; Mode M_after_head ;; Again k in
  match k with
  | KChar c => if white c then Char c ;; Done else otherwise
  | KComment d => Comment d ;; Done
  | KDoctype _ => Done
  | KStart g =>
      choose (g_id g)
        [([T_html], Html_start g);
         ([T_base; T_basefont; T_bgsound; T_link; T_meta], Insert g ;; Pop ;; Done);
         ([T_title], Raw g R_rcdata);
         ([T_noframes; T_style], Raw g R_rawtext);
         ([T_noscript], Insert g ;; Mode M_in_head_noscript ;; Done);
         ([T_script], Raw g R_script);
         ([T_template], Insert g ;; Marker ;; Not_ok ;; Mode M_in_template ;; Template_mode M_in_template ;; Done);
         ([T_head], Done)] otherwise
  | KEnd t =>
      choose t
        [([T_head], Pop ;; Mode M_after_head ;; Done);
         ([T_body; T_html; T_br], otherwise);
         ([T_template],
          If (On_stack T_template)
             (Imply_all ;; Pop_through [T_template] ;; Clear_formatting ;; Pop_template_mode ;; Reset ;; Done) Done)] Done
  | KEof => otherwise
  end.
Definition rules_in_head_noscript (k : ktok) : rule :=
  let otherwise := Pop ;; Mode M_in_head ;; Again k in
  match k with
  | KDoctype _ => Done
  | KStart g =>
      choose (g_id g)
        [([T_html], Html_start g);
         ([T_basefont; T_bgsound; T_link; T_meta; T_noframes; T_style], Use M_in_head k []);
         ([T_head; T_noscript], Done)] otherwise
  | KEnd t => choose t [([T_noscript], Pop ;; Mode M_in_head ;; Done); ([T_br], otherwise)] Done
  | KChar c => if white c then Use M_in_head k [] else otherwise
  | KComment _ => Use M_in_head k []
  | KEof => otherwise
  end.
Definition rules_after_head (s : st) (k : ktok) : rule :=
  let otherwise := Insert (bare T_body) ;; Mode M_in_body ;; Again k in
  match k with
  | KChar c => if white c then Char c ;; Done else otherwise
  | KComment d => Comment d ;; Done
  | KDoctype _ => Done
  | KStart g =>
      choose (g_id g)
        [([T_html], Html_start g);
         ([T_body], Insert g ;; Not_ok ;; Mode M_in_body ;; Done);
         ([T_frameset], Insert g ;; Mode M_in_frameset ;; Done);
         (in_head_names, match s_head s with Some h => Push_node h ;; Use M_in_head k [Remove_node h] | None => Done end);
         ([T_head], Done)] otherwise
  | KEnd t => choose t [([T_template], Use M_in_head k []); ([T_body; T_html; T_br], otherwise)] Done
  | KEof => otherwise
  end.

Definition rules_template_eof : rule :=
  If (On_stack T_template) (Pop_through [T_template] ;; Clear_formatting ;; Pop_template_mode ;; Reset ;; Again KEof) (Stop ;; Done).
Definition rules_in_body (s : st) (k : ktok) : rule :=
  match k with
  | KChar c =>
      if c =? 0 then Done
      else if white c then Reconstruct ;; Char c ;; Done
      else Reconstruct ;; Char c ;; Not_ok ;; Done
  | KComment d => Comment d ;; Done
  | KDoctype _ => Done
  | KEof => If Template_modes rules_template_eof (Stop ;; Done)
  | KStart g =>
      choose (g_id g)
        [([T_html], Html_start g);
         (in_head_names, Use M_in_head k []);
         ([T_body], If (On_stack T_template) Done (If Second_body (Not_ok ;; Merge_body g ;; Done) Done));
         ([T_frameset],
          If Second_body (If Frameset_ok (Remove_second ;; Back_to [T_html] ;; Insert g ;; Mode M_in_frameset ;; Done) Done) Done);
         ([T_li], Not_ok ;; Close_item [T_li] ;; Close_p (Insert g ;; Done));
         ([T_button],
          When (In_scope In_default [T_button]) [Imply; Pop_through [T_button]] (Reconstruct ;; Insert g ;; Not_ok ;; Done));
         ([T_a], Adopt_a ;; Reconstruct ;; Insert g ;; Note_formatting g ;; Done);
         ([T_nobr],
          Reconstruct ;; When (In_scope In_default [T_nobr]) [Adopt_all T_nobr; Reconstruct] (Insert g ;; Note_formatting g ;; Done));
         ([T_math],
          Reconstruct ;; Foreign (adjust_foreign (adjust_mathml g)) ns_MathML ;; (if g_self g then Pop ;; Done else Done));
         ([T_svg],
          Reconstruct ;; Foreign (adjust_foreign (adjust_svg g)) ns_SVG ;; (if g_self g then Pop ;; Done else Done));
         ([T_address; T_article; T_aside; T_blockquote; T_center; T_details; T_dialog; T_dir; T_div; T_dl; T_fieldset;
           T_figcaption; T_figure; T_footer; T_header; T_hgroup; T_main; T_menu; T_nav; T_ol; T_p; T_section; T_summary; T_ul],
          Close_p (Insert g ;; Done));
         (heading_names, Close_p (When (Current heading_names) [Pop] (Insert g ;; Done)));
         ([T_pre; T_listing], Close_p (Insert g ;; Omit_lf ;; Not_ok ;; Done));
         ([T_form],
          let insert := Close_p (Insert g ;; Unless (On_stack T_template) [Note_form] Done) in
          If (On_stack T_template) insert (If Form_noted Done insert));
         ([T_dd; T_dt], Not_ok ;; Close_item [T_dd; T_dt] ;; Close_p (Insert g ;; Done));
         ([T_plaintext], Close_p (Insert g ;; Switch R_plaintext ;; Done));
         ([T_b; T_big; T_code; T_em; T_font; T_i; T_s; T_small; T_strike; T_strong; T_tt; T_u],
          Reconstruct ;; Insert g ;; Note_formatting g ;; Done);
         ([T_applet; T_marquee; T_object], Reconstruct ;; Insert g ;; Marker ;; Not_ok ;; Done);
         ([T_table],
          let insert := Insert g ;; Not_ok ;; Mode M_in_table ;; Done in If Quirks_mode insert (Close_p insert));
         ([T_area; T_br; T_embed; T_img; T_keygen; T_wbr], Reconstruct ;; Insert g ;; Pop ;; Not_ok ;; Done);
         ([T_input], Reconstruct ;; Insert g ;; Pop ;; (if hidden g then Done else Not_ok ;; Done));
         ([T_param; T_source; T_track], Insert g ;; Pop ;; Done);
         ([T_hr], Close_p (Insert g ;; Pop ;; Not_ok ;; Done));
         ([T_image], Again (KStart (STag T_img (g_atom g) (g_text g) (g_self g) (g_attrs g))));
         ([T_textarea], Insert g ;; Omit_lf ;; Switch R_rcdata ;; To_text ;; Not_ok ;; Done);
         ([T_xmp], Close_p (Reconstruct ;; Not_ok ;; Raw g R_rawtext));
         ([T_iframe], Not_ok ;; Raw g R_rawtext);
         ([T_noembed], Raw g R_rawtext);
         ([T_select],
          Reconstruct ;; Insert g ;; Not_ok ;;
          Mode (match s_mode s with
                | M_in_table | M_in_caption | M_in_table_body | M_in_row | M_in_cell => M_in_select_in_table
                | _ => M_in_select
                end) ;; Done);
         ([T_optgroup; T_option], When (Current [T_option]) [Pop] (Reconstruct ;; Insert g ;; Done));
         ([T_rb; T_rtc], When (In_scope In_default [T_ruby]) [Imply] (Insert g ;; Done));
         ([T_rp; T_rt], When (In_scope In_default [T_ruby]) [Imply_but T_rtc] (Insert g ;; Done));
         ([T_caption; T_col; T_colgroup; T_frame; T_head; T_tbody; T_td; T_tfoot; T_th; T_thead; T_tr], Done)]
        (Reconstruct ;; Insert g ;; Done)
  | KEnd t =>
      choose t
        [([T_template], Use M_in_head k []);
         ([T_body], If (In_scope In_default [T_body]) (Mode M_after_body ;; Done) Done);
         ([T_html], If (In_scope In_default [T_body]) (Mode M_after_body ;; Again k) Done);
         ([T_address; T_article; T_aside; T_blockquote; T_button; T_center; T_details; T_dialog; T_dir; T_div; T_dl;
           T_fieldset; T_figcaption; T_figure; T_footer; T_header; T_hgroup; T_listing; T_main; T_menu; T_nav; T_ol; T_pre;
           T_section; T_summary; T_ul],
          If (In_scope In_default [t]) (Imply ;; Pop_through [t] ;; Done) Done);
         ([T_form],
          If (On_stack T_template) (If (In_scope In_default [T_form]) (Imply ;; Pop_through [T_form] ;; Done) Done)
             (End_form ;; Done));
         ([T_p], Unless (In_scope In_button [T_p]) [Insert (bare T_p)] (Imply_but T_p ;; Pop_through [T_p] ;; Done));
         ([T_li], If (In_scope In_list_item [T_li]) (Imply_but T_li ;; Pop_through [T_li] ;; Done) Done);
         ([T_dd; T_dt], If (In_scope In_default [t]) (Imply_but t ;; Pop_through [t] ;; Done) Done);
         (heading_names, If (In_scope In_default heading_names) (Imply ;; Pop_through heading_names ;; Done) Done);
         ([T_a; T_b; T_big; T_code; T_em; T_font; T_i; T_nobr; T_s; T_small; T_strike; T_strong; T_tt; T_u],
          Adopt t (Other_end t ;; Done));
         ([T_applet; T_marquee; T_object],
          If (In_scope In_default [t]) (Imply ;; Pop_through [t] ;; Clear_formatting ;; Done) Done);
         ([T_br], Again (KStart (bare T_br)))]
        (Other_end t ;; Done)
  end.

Definition rules_text (k : ktok) : rule :=
  match k with
  | KChar c => Char c ;; Done
  | KEof => Pop ;; Original_mode ;; Again k
  | KEnd _ => Pop ;; Original_mode ;; Done
  | _ => Done
  end.

Definition Fostered (k : ktok) : rule := Foster true ;; Use M_in_body k [Foster false].
Definition to_table_names : list tname := [T_table; T_template; T_html].
Definition rules_in_table (k : ktok) : rule :=
  match k with
  | KChar _ => If (Current [T_table; T_tbody; T_tfoot; T_thead; T_tr]) (To_table_text ;; Again k) (Fostered k)
  | KComment d => Comment d ;; Done
  | KDoctype _ => Done
  | KStart g =>
      choose (g_id g)
        [([T_caption], Back_to to_table_names ;; Marker ;; Insert g ;; Mode M_in_caption ;; Done);
         ([T_colgroup], Back_to to_table_names ;; Insert g ;; Mode M_in_column_group ;; Done);
         ([T_col], Back_to to_table_names ;; Insert (bare T_colgroup) ;; Mode M_in_column_group ;; Again k);
         ([T_tbody; T_tfoot; T_thead], Back_to to_table_names ;; Insert g ;; Mode M_in_table_body ;; Done);
         ([T_td; T_th; T_tr], Back_to to_table_names ;; Insert (bare T_tbody) ;; Mode M_in_table_body ;; Again k);
         ([T_table], If (In_scope In_table [T_table]) (Pop_through [T_table] ;; Reset ;; Again k) Done);
         ([T_style; T_script; T_template], Use M_in_head k []);
         ([T_input], if hidden g then Insert g ;; Pop ;; Done else Fostered k);
         ([T_form], If (On_stack T_template) Done (If Form_noted Done (Insert g ;; Note_form ;; Pop ;; Done)))]
        (Fostered k)
  | KEnd t =>
      choose t
        [([T_table], If (In_scope In_table [T_table]) (Pop_through [T_table] ;; Reset ;; Done) Done);
         ([T_body; T_caption; T_col; T_colgroup; T_html; T_tbody; T_td; T_tfoot; T_th; T_thead; T_tr], Done);
         ([T_template], Use M_in_head k [])]
        (Fostered k)
  | KEof => Use M_in_body k []
  end.
Definition rules_in_table_text (k : ktok) : rule :=
  match k with
  | KChar c => if c =? 0 then Done else Add_pending c ;; Done
  | _ => Pending k
  end.
Definition rules_in_caption (k : ktok) : rule :=
  let close r := If (In_scope In_table [T_caption]) (Imply ;; Pop_through [T_caption] ;; Clear_formatting ;; Mode M_in_table ;; r) Done in
  match k with
  | KStart g => choose (g_id g) [(table_parts, close (Again k))] (Use M_in_body k [])
  | KEnd t =>
      choose t
        [([T_caption], close Done); ([T_table], close (Again k));
         ([T_body; T_col; T_colgroup; T_html; T_tbody; T_td; T_tfoot; T_th; T_thead; T_tr], Done)] (Use M_in_body k [])
  | _ => Use M_in_body k []
  end.
Definition rules_in_column_group (k : ktok) : rule :=
  let otherwise := If (Current [T_colgroup]) (Pop ;; Mode M_in_table ;; Again k) Done in
  match k with
  | KChar c => if white c then Char c ;; Done else otherwise
  | KComment d => Comment d ;; Done
  | KDoctype _ => Done
  | KStart g =>
      choose (g_id g) [([T_html], Html_start g); ([T_col], Insert g ;; Pop ;; Done); ([T_template], Use M_in_head k [])] otherwise
  | KEnd t =>
      choose t
        [([T_colgroup], If (Current [T_colgroup]) (Pop ;; Mode M_in_table ;; Done) Done); ([T_col], Done);
         ([T_template], Use M_in_head k [])] otherwise
  | KEof => Use M_in_body k []
  end.
Definition to_body_names : list tname := [T_tbody; T_tfoot; T_thead; T_template; T_html].
Definition rules_in_table_body (k : ktok) : rule :=
  let leave := If (In_scope In_table [T_tbody; T_thead; T_tfoot]) (Back_to to_body_names ;; Pop ;; Mode M_in_table ;; Again k) Done in
  match k with
  | KStart g =>
      choose (g_id g)
        [([T_tr], Back_to to_body_names ;; Insert g ;; Mode M_in_row ;; Done);
         ([T_th; T_td], Back_to to_body_names ;; Insert (bare T_tr) ;; Mode M_in_row ;; Again k);
         ([T_caption; T_col; T_colgroup; T_tbody; T_tfoot; T_thead], leave)] (Use M_in_table k [])
  | KEnd t =>
      choose t
        [([T_tbody; T_tfoot; T_thead], If (In_scope In_table [t]) (Back_to to_body_names ;; Pop ;; Mode M_in_table ;; Done) Done);
         ([T_table], leave);
         ([T_body; T_caption; T_col; T_colgroup; T_html; T_td; T_th; T_tr], Done)] (Use M_in_table k [])
  | _ => Use M_in_table k []
  end.
Definition to_row_names : list tname := [T_tr; T_template; T_html].
Definition rules_in_row (k : ktok) : rule :=
  let close r := If (In_scope In_table [T_tr]) (Back_to to_row_names ;; Pop ;; Mode M_in_table_body ;; r) Done in
  match k with
  | KStart g =>
      choose (g_id g)
        [([T_th; T_td], Back_to to_row_names ;; Insert g ;; Mode M_in_cell ;; Marker ;; Done);
         ([T_caption; T_col; T_colgroup; T_tbody; T_tfoot; T_thead; T_tr], close (Again k))] (Use M_in_table k [])
  | KEnd t =>
      choose t
        [([T_tr], close Done); ([T_table], close (Again k));
         ([T_tbody; T_tfoot; T_thead], If (In_scope In_table [t]) (close (Again k)) Done);
         ([T_body; T_caption; T_col; T_colgroup; T_html; T_td; T_th], Done)] (Use M_in_table k [])
  | _ => Use M_in_table k []
  end.
Definition rules_in_cell (k : ktok) : rule :=
  let close := Imply ;; Pop_through [T_td; T_th] ;; Clear_formatting ;; Mode M_in_row ;; Again k in
  match k with
  | KStart g => choose (g_id g) [(table_parts, If (In_scope In_table [T_td; T_th]) close Done)] (Use M_in_body k [])
  | KEnd t =>
      choose t
        [([T_td; T_th],
          If (In_scope In_table [t]) (Imply ;; Pop_through [t] ;; Clear_formatting ;; Mode M_in_row ;; Done) Done);
         ([T_body; T_caption; T_col; T_colgroup; T_html], Done);
         ([T_table; T_tbody; T_tfoot; T_thead; T_tr], If (In_scope In_table [t]) close Done)] (Use M_in_body k [])
  | _ => Use M_in_body k []
  end.
Definition rules_in_select (k : ktok) : rule :=
  let close r := If (In_scope In_select [T_select]) (Pop_through [T_select] ;; Reset ;; r) Done in
  match k with
  | KChar c => if c =? 0 then Done else Char c ;; Done
  | KComment d => Comment d ;; Done
  | KDoctype _ => Done
  | KStart g =>
      choose (g_id g)
        [([T_html], Html_start g);
         ([T_option], When (Current [T_option]) [Pop] (Insert g ;; Done));
         ([T_optgroup], When (Current [T_option]) [Pop] (When (Current [T_optgroup]) [Pop] (Insert g ;; Done)));
         ([T_select], close Done);
         ([T_input; T_keygen; T_textarea], close (Again k));
         ([T_script; T_template], Use M_in_head k [])] Done
  | KEnd t =>
      choose t
        [([T_optgroup], When Option_in_optgroup [Pop] (When (Current [T_optgroup]) [Pop] Done));
         ([T_option], When (Current [T_option]) [Pop] Done);
         ([T_select], close Done);
         ([T_template], Use M_in_head k [])] Done
  | KEof => Use M_in_body k []
  end.
Definition around_select : list tname := [T_caption; T_table; T_tbody; T_tfoot; T_thead; T_tr; T_td; T_th].
Definition rules_in_select_in_table (k : ktok) : rule :=
  match k with
  | KStart g => choose (g_id g) [(around_select, Pop_through [T_select] ;; Reset ;; Again k)] (Use M_in_select k [])
  | KEnd t =>
      choose t [(around_select, If (In_scope In_table [t]) (Pop_through [T_select] ;; Reset ;; Again k) Done)] (Use M_in_select k [])
  | _ => Use M_in_select k []
  end.
Definition rules_in_template (k : ktok) : rule :=
  let change m := Pop_template_mode ;; Template_mode m ;; Mode m ;; Again k in
  match k with
  | KStart g =>
      choose (g_id g)
        [(in_head_names, Use M_in_head k []);
         ([T_caption; T_colgroup; T_tbody; T_tfoot; T_thead], change M_in_table);
         ([T_col], change M_in_column_group);
         ([T_tr], change M_in_table_body);
         ([T_td; T_th], change M_in_row)] (change M_in_body)
  | KEnd t => choose t [([T_template], Use M_in_head k [])] Done
  | KEof => rules_template_eof
  | _ => Use M_in_body k []
  end.
Definition rules_after_body (k : ktok) : rule :=
  let otherwise := Mode M_in_body ;; Again k in
  match k with
  | KChar c => if white c then Use M_in_body k [] else otherwise
  | KComment d => Comment_in_root d ;; Done
  | KDoctype _ => Done
  | KStart g => choose (g_id g) [([T_html], Html_start g)] otherwise
  | KEnd t => choose t [([T_html], If Fragment_case Done (Mode M_after_after_body ;; Done))] otherwise
  | KEof => Stop ;; Done
  end.
Definition rules_in_frameset (k : ktok) : rule :=
  match k with
  | KChar c => if white c then Char c ;; Done else Done
  | KComment d => Comment d ;; Done
  | KDoctype _ => Done
  | KStart g =>
      choose (g_id g)
        [([T_html], Html_start g); ([T_frameset], Insert g ;; Done); ([T_frame], Insert g ;; Pop ;; Done);
         ([T_noframes], Use M_in_head k [])] Done
  | KEnd t =>
      choose t
        [([T_frameset],
          If (Current [T_html]) Done
             (Pop ;; If Fragment_case Done (If (Current [T_frameset]) Done (Mode M_after_frameset ;; Done))))] Done
  | KEof => Stop ;; Done
  end.
Definition rules_after_frameset (k : ktok) : rule :=
  match k with
  | KChar c => if white c then Char c ;; Done else Done
  | KComment d => Comment d ;; Done
  | KDoctype _ => Done
  | KStart g => choose (g_id g) [([T_html], Html_start g); ([T_noframes], Use M_in_head k [])] Done
  | KEnd t => choose t [([T_html], Mode M_after_after_frameset ;; Done)] Done
  | KEof => Stop ;; Done
  end.
Definition rules_after_after_body (k : ktok) : rule :=
  let otherwise := Mode M_in_body ;; Again k in
  match k with
  | KComment d => Comment_in_document d ;; Done
  | KDoctype _ => Use M_in_body k []
  | KChar c => if white c then Use M_in_body k [] else otherwise
  | KStart g => choose (g_id g) [([T_html], Html_start g)] otherwise
  | KEnd _ => otherwise
  | KEof => Stop ;; Done
  end.
Definition rules_after_after_frameset (k : ktok) : rule :=
  match k with
  | KComment d => Comment_in_document d ;; Done
  | KDoctype _ => Use M_in_body k []
  | KChar c => if white c then Use M_in_body k [] else Done
  | KStart g => choose (g_id g) [([T_html], Html_start g); ([T_noframes], Use M_in_head k [])] Done
  | KEnd _ => Done
  | KEof => Stop ;; Done
  end.

Definition rules (m : mode) (s : st) (k : ktok) : rule :=
  match m with
  | M_initial => rules_initial k | M_before_html => rules_before_html k | M_before_head => rules_before_head k
  | M_in_head => rules_in_head k | M_in_head_noscript => rules_in_head_noscript k | M_after_head => rules_after_head s k
  | M_in_body => rules_in_body s k | M_text => rules_text k | M_in_table => rules_in_table k
  | M_in_table_text => rules_in_table_text k | M_in_caption => rules_in_caption k
  | M_in_column_group => rules_in_column_group k | M_in_table_body => rules_in_table_body k | M_in_row => rules_in_row k
  | M_in_cell => rules_in_cell k | M_in_select => rules_in_select k | M_in_select_in_table => rules_in_select_in_table k
  | M_in_template => rules_in_template k | M_after_body => rules_after_body k | M_in_frameset => rules_in_frameset k
  | M_after_frameset => rules_after_frameset k | M_after_after_body => rules_after_after_body k
  | M_after_after_frameset => rules_after_after_frameset k
  end.
(** Rules use the rules of other modes: in row those of in table, these those of in body, these those of in head. [emit]
    is the processing of a token from the beginning. *)
Fixpoint standard (n : nat) (emit : st -> ktok -> outcome st) (m : mode) (s : st) (k : ktok) : outcome st :=
  match n with
  | O => NoFuel
  | S n1 => obey emit (standard n1 emit) (rules m s k) s
  end.
End Rules.

(** *** Where the library departs from the standard *)

(** no p in button scope and no formatting element to be opened *)
Definition quiet (s : st) : bool :=
  negb (holds (In_scope In_button [T_p]) s) &&
  match s_active s with Some e :: _ => existsb (fun f => (en_node f =? en_node e)%nat) (s_stack s) | _ => true end.
(** the start tags in the body for which it does something else:
    - body and frameset: the test of the second element is the wrong way round (C100);
    - li: only the current node is looked at, and the formatting elements are reconstructed instead of a p closed (C99);
    - button: a p is looked for instead of a button (C94);
    - a and nobr: the tag is dropped if the adoption agency goes on as any other end tag;
    - svg: the attributes are adjusted as those of MathML (C96). *)
Definition odd_start (s : st) (g : stag) : bool :=
  match g_id g with
  | T_body => negb (List.length (s_stack s) =? 1)%nat && negb (holds (On_stack T_template) s)
  | T_frameset => negb (List.length (s_stack s) =? 1)%nat && s_frameset_ok s
  | T_li =>
      match item_found [T_li] s with
      | Some e =>
          if holds (Current [T_li]) s
          then negb (quiet (popped_through (one_of [T_li] s) s))
          else one_of [T_li] s e || (holds (Current [T_address; T_div; T_p]) s && negb (quiet s))
      | None => true
      end
  | T_button => xorb (holds (In_scope In_default [T_p]) s) (holds (In_scope In_default [T_button]) s)
  | T_a =>
      match listed_a s with
      | Some _ => match agency T_a s with Val (_, any) => any | _ => false end
      | None => false
      end
  | T_nobr =>
      match reconstruct s with
      | Val s1 =>
          holds (In_scope In_default [T_nobr]) s1 && match agency T_nobr s1 with Val (_, any) => any | _ => false end
      | _ => false
      end
  | T_svg =>
      existsb (fun a => same_str (ta_name a) (lit "definitionurl") || negb (same_str (cased svg_attributes (ta_name a)) (ta_name a)))
              (g_attrs g)
  | _ => false
  end.
(** behind the end tag of a table, a dd or a dt another such element is looked for and closed; there is none if this holds *)
Definition settled (t : tname) (s : st) : bool :=
  match find (fun e => one_of [t] s e || special s e) (s_stack (popped_through (one_of [t] s) s)) with
  | Some e => negb (one_of [t] s e)
  | None => true
  end.
Definition departs (m : mode) (s : st) (k : ktok) : bool :=
  match k with
  | KStart g =>
      match m with
      | M_in_body | M_in_caption | M_in_cell => odd_start s g
      | M_in_table | M_in_table_body => odd_start (set_foster true s) g
      (* a row is looked for beyond a template, and not beyond a table *)
      | M_in_row => odd_start (set_foster true s) g || (existsb (teqb (g_id g)) [T_td; T_th] && negb (holds (In_scope In_table [T_tr]) s))
      | _ => false
      end
  | KEnd t =>
      match m with
      | M_in_body | M_in_cell => existsb (teqb t) [T_dd; T_dt] && negb (settled t s)
      | M_in_caption => (existsb (teqb t) [T_dd; T_dt] && negb (settled t s)) || teqb t T_tr
      | M_in_table | M_in_table_body => (existsb (teqb t) [T_dd; T_dt; T_table] && negb (settled t s)) || s_foster s
      | M_in_row => (existsb (teqb t) [T_dd; T_dt; T_table] && negb (settled t s)) || s_foster s
                    || (existsb (teqb t) [T_tbody; T_tfoot; T_thead] && negb (holds (In_scope In_table [T_tr]) s))
      (* the wrong scope: C105 *)
      | M_in_select_in_table => existsb (teqb t) around_select
      | _ => false
      end
  | _ => false
  end.
(** no element of SVG or MathML is open *)
Definition plain_stack (s : st) : Prop := Forall (fun e => ns_of (s_dom s) (en_node e) = ns_HTML) (s_stack s).
