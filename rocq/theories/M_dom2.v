(** Model of the insertion modes of HTML tree construction, the adoption agency, foreign content and the dispatcher:
    include/wordring/whatwg/html/parsing/tree_construction_dispatcher.hpp:1041-1171 and 1571-5040.  All line numbers are of
    that file. What M_dom.v leaves out is left out here too. The functions are written out by kinds of tokens; a token for
    which a mode does nothing gets [Val s]. Names of tags that have no place in any switch are [Other].
    Definitions only. *)
From Coq Require Import ZArith List Bool String.
From Verif Require Import M_infra M_encoding M_labels M_html M_html_serialize M_dom_names M_dom.
Import ListNotations.
Open Scope Z_scope.
Open Scope dom_scope.
Open Scope list_scope.

(** *** Quirks *)

(** istart_with, 1665-1677 *)
Fixpoint istart_with (s1 s2 : list Z) : bool :=
  match s1, s2 with
  | [], _ => true
  | _ :: _, [] => false
  | a :: r1, b :: r2 => (cp_lower b =? a) && istart_with r1 r2
  end.
(** 1615-1643; [listed] is quirks_mode_tbl.lookup(...).first, the table of atom_tbl.cpp:4783-5139, which is not modelled *)
Definition in_quirks (listed : list Z -> bool) (d : doctype) : bool :=
  let p := map cp_lower (d_public d) in
  let y := map cp_lower (d_system d) in
  d_quirks d
  || negb (same_str (d_name d) (lit "html"))
  || same_str p (lit "-//w3o//dtd w3 html strict 3.0//en//")
  || same_str p (lit "-/w3c/dtd html 4.0 transitional/en")
  || same_str p (lit "html")
  || same_str y (lit "http://www.ibm.com/data/dtd/v11/ibmxhtml1-transitional.dtd")
  || listed p
  || (match d_system d with [] => true | _ => false end &&
      (istart_with (lit "-//w3c//dtd html 4.01 frameset//") p || istart_with (lit "-//w3c//dtd html 4.01 transitional//") p)).

(** *** The adoption agency algorithm, 3128-3300 *)

(** the index of an entry, from the back to the front; the C++ looks from the front to the back *)
Fixpoint index_by {A} (f : A -> bool) (l : list A) : option nat :=
  match l with
  | [] => None
  | x :: r => match index_by f r with Some k => Some (S k) | None => if f x then Some O else None end
  end.
Definition stack_index (i : nat) (s : st) : option nat := index_by (fun e => (en_node e =? i)%nat) (s_stack s).
Definition list_index (i : nat) (s : st) : option nat := index_by (is_entry i) (s_active s).
(** the entry in front of an entry; in front of the first one it is undefined *)
Definition entry_before (i : nat) (s : st) : outcome nat :=
  match stack_index i s with
  | None => Bad
  | Some k => match nth_error (s_stack s) (S k) with Some e => Val (en_node e) | None => Bad end
  end.
Definition put_at {A} (k : nat) (x : A) (l : list A) : list A := firstn k l ++ x :: skipn k l.
(** assignment to m_it of an entry *)
Fixpoint replace_nth {A} (k : nat) (f : A -> A) (l : list A) : list A :=
  match l, k with
  | [], _ => []
  | x :: r, O => f x :: r
  | x :: r, S j => x :: replace_nth j f r
  end.

(** An iterator into m_list: the number of entries at or behind it, or [None] when its entry was erased. *)
Definition bookmark := option nat.
(** remove_from_list with its effect on the iterator *)
Definition remove_marked (i : nat) (b : bookmark) (s : st) : st * bookmark :=
  match list_index i s with
  | None => (s, b)
  | Some j =>
      (remove_list i s,
       match b with
       | None => None
       | Some k => if (S j =? k)%nat then None else if (S j <? k)%nat then Some (pred k) else Some k
       end)
  end.

(** 3167-3185: the formatting element *)
Fixpoint named_back (d : list cell) (t : tname) (l : list formatting) : option nat :=
  match l with
  | Some e :: r => if teqb (name_of d (en_node e)) t then Some (en_node e) else named_back d t r
  | _ => None
  end.
(** 3207-3223: the first special node behind the formatting element, from the front to the back *)
Fixpoint after_node (i : nat) (l : list entry) : list entry :=
  match l with [] => [] | e :: r => if (en_node e =? i)%nat then r else after_node i r end.
Definition furthest (d : list cell) (i : nat) (stack : list entry) : option nat :=
  match find (fun e => is_special d (en_node e)) (after_node i (rev stack)) with Some e => Some (en_node e) | None => None end.

(** 3238-3279, the inner loop *)
Fixpoint inner (fuel : nat) (fe fb : nat) (count node last : nat) (prev : option nat) (b : bookmark) (s : st)
  : outcome (st * nat * bookmark) :=
  match fuel with
  | O => NoFuel
  | S f =>
      let count := S count in
      run node <- (if on_stack node s then entry_before node s else match prev with Some p => Val p | None => Bad end);
      if (node =? fe)%nat then Val (s, last, b) else
      let (s, b) := if (3 <? count)%nat && in_list node s then remove_marked node b s else (s, b) in
      match list_index node s with
      | None =>
          run p <- entry_before node s;
          run s <- remove_stack node s;
          inner f fe fb count node last (Some p) b s
      | Some j =>
          match stack_index node s with
          | None => Bad
          | Some k =>
              match nth_error (s_stack s) k with
              | None => Bad
              | Some e =>
                  run x <- element_for (en_tag e) ns_HTML;
                  let (d, n) := create (s_dom s) x in
                  let s := set_stack (replace_nth k (fun e => Entry (en_tag e) n) (s_stack s)) (set_dom d s) in
                  let s := set_active (replace_nth j (option_map (fun e => Entry (en_tag e) n)) (s_active s)) s in
                  let b := if (last =? fb)%nat then Some j else b in
                  run d <- move (s_dom s) (at_end n) last;
                  inner f fe fb count n n prev b (set_dom d s)
              end
          end
      end
  end.

(** 3292-3299, step 17 *)
Fixpoint move_all (d : list cell) (l : list nat) (to : nat) : outcome (list cell) :=
  match l with
  | [] => Val d
  | x :: r => run d1 <- move d (at_end to) x; move_all d1 r to
  end.

(** 3154-3310, the outer loop; [true]: go on as any other end tag *)
Fixpoint outer (n : nat) (t : tname) (s : st) : outcome (st * bool) :=
  match n with
  | O => Val (s, false)
  | S n1 =>
      match named_back (s_dom s) t (s_active s) with
      | None => Val (s, true)
      | Some fe =>
          if negb (on_stack fe s) then Val (remove_list fe s, false) else
          run sc <- in_scope_node default_scope fe s;
          if negb sc then Val (s, false) else
          match furthest (s_dom s) fe (s_stack s) with
          | None => Val (remove_list fe (pop_until_node fe s), false)
          | Some fb =>
              run ca <- entry_before fe s;
              let b := match list_index fe s with Some j => Some j | None => None end in
              run (s, last, b) <- inner (S (List.length (s_stack s))) fe fb O fb fb None b s;
              run p <- place_for ca s;
              run d <- move (s_dom s) p last;
              let s := set_dom d s in
              match stack_index fe s with
              | None => Bad
              | Some k =>
                  match nth_error (s_stack s) k with
                  | None => Bad
                  | Some e =>
                      run x <- element_for (en_tag e) ns_HTML;
                      let (d, el) := create (s_dom s) x in
                      run d <- move_all d (kids_of d fb) el;
                      run d <- move d (at_end fb) el;
                      let s := set_dom d s in
                      let (s, b) := remove_marked fe b s in
                      match b with
                      | None => Bad
                      | Some k =>
                          let s := set_active (put_at k (Some (Entry (en_tag e) el)) (s_active s)) s in
                          run s <- remove_stack fe s;
                          match stack_index fb s with
                          | None => Bad
                          | Some k => outer n1 t (set_stack (put_at k (Entry (en_tag e) el) (s_stack s)) s)
                          end
                      end
                  end
              end
          end
      end
  end.
(** 3128-3310 *)
Definition agency (t : tname) (s : st) : outcome (st * bool) :=
  run i <- cur s;
  if is_html t (s_dom s) i && negb (in_list i s) then run s1 <- pop s; Val (s1, false)
  else outer 8 t s.

(** *** Pieces *)

(** 2233-2243, 2301-2309: attributes that are not there are added *)
Definition add_attrs (g : stag) (l : list attr) : list attr :=
  fold_left (fun l a =>
    if ta_omitted a then l
    else let x := Attr (ta_ns a) (ta_prefix a) (ta_name a) (ta_value a) in
         if existsb (same_attr x) l then l else l ++ [x]) (g_attrs g) l.
Definition merge_attrs (g : stag) (i : nat) (s : st) : st :=
  set_dom (change (s_dom s) i (fun c =>
    match c_info c with IElement ns t l => set_info (IElement ns t (add_attrs g l)) c | _ => c end)) s.
(** on_in_body_insertion_mode of an html start tag, 2224-2246 *)
Definition body_html (g : stag) (s : st) : outcome st :=
  if contains T_template s then Val s else run i <- front s; Val (merge_attrs g i s).
(** 3114-3119 *)
Definition close_p (s : st) : st := pop_until T_p (implied_except (Some T_p) s).
(** if (in_specific_scope(button_scope, tag_name::P)) close_p_element(); *)
Definition p_closed (s : st) : outcome st :=
  run b <- in_scope button_scope T_p s; Val (if b then close_p s else s).
(** m_template_insertion_mode_stack.pop_back() *)
Definition pop_template (s : st) : outcome st :=
  match s_templates s with _ :: r => Val (set_templates r s) | [] => Bad end.
(** 5033-5038 *)
Definition stop_parsing (s : st) : st := set_stack [] s.
(** is_ascii_case_insensitive_match(type, "hidden") *)
Definition is_hidden (g : stag) : bool :=
  match find_attr (lit "type") g with Some v => same_str (map cp_lower v) (lit "hidden") | None => false end.

(** 3087-3112 *)
Fixpoint other_end_from (t : tname) (l : list entry) (s : st) : outcome st :=
  match l with
  | [] => Bad
  | e :: r =>
      if is_html t (s_dom s) (en_node e) then Val (pop_until_node (en_node e) (implied_except (Some t) s))
      else if is_special (s_dom s) (en_node e) then Val s
      else other_end_from t r s
  end.
Definition other_end (t : tname) (s : st) : outcome st := other_end_from t (s_stack s) s.
(** 3078-3083 *)
Definition other_start (g : stag) (s : st) : outcome st := run s <- reconstruct s; insert_el' g s.

(** 2416-2450: the loop over the stack for dd and dt *)
Fixpoint dd_from (l : list entry) (s : st) : outcome st :=
  match l with
  | [] => Bad
  | e :: r =>
      let i := en_node e in
      if is_html T_dd (s_dom s) i then Val (pop_until T_dd (implied_except (Some T_dd) s))
      else if is_html T_dt (s_dom s) i then Val (pop_until T_dt (implied_except (Some T_dt) s))
      else if is_special (s_dom s) i && negb (is_html_in [T_address; T_div; T_p] (s_dom s) i) then Val s
      else dd_from r s
  end.

(** 2692-2706: the last a behind the last marker *)
Fixpoint last_a (d : list cell) (l : list formatting) : option nat :=
  match l with
  | Some e :: r => if is_html T_a d (en_node e) then Some (en_node e) else last_a d r
  | _ => None
  end.

Fixpoint pop_to (f : nat -> bool) (l : list entry) : outcome (list entry) :=
  match l with [] => Bad | e :: r => if f (en_node e) then Val l else pop_to f r end.
(** 3548-3565; any element that is not HTML ends it too, and so does the end of the stack *)
Fixpoint to_table (d : list cell) (l : list entry) : list entry :=
  match l with
  | [] => []
  | e :: r =>
      if negb (ns_of d (en_node e) =? ns_HTML) then l
      else if among (name_of d (en_node e)) [T_table; T_template; T_html] then l
      else to_table d r
  end.
Definition to_table_context (s : st) : st := set_stack (to_table (s_dom s) (s_stack s)) s.
(** 3892-3909 *)
Definition to_body_context (s : st) : outcome st :=
  run l <- pop_to (is_html_in [T_tbody; T_tfoot; T_thead; T_template; T_html] (s_dom s)) (s_stack s); Val (set_stack l s).
(** 4016-4028 *)
Definition to_row_context (s : st) : outcome st :=
  run l <- pop_to (is_html_in [T_tr; T_table; T_html] (s_dom s)) (s_stack s); Val (set_stack l s).
(** 4108-4117 *)
Definition close_cell (s : st) : st :=
  set_mode M_in_row (clear_formatting (pop_until_any [T_td; T_th] (implied_end_tags s))).
Definition headings : list tname := [T_h1; T_h2; T_h3; T_h4; T_h5; T_h6].

Section Modes.
(** quirks_mode_tbl *)
Variable listed : list Z -> bool.
(** on_emit_token, 1179-1183: process_token in the mode of the moment *)
Variable emit : st -> ktok -> outcome st.

(** 1571-1612 *)
Definition on_initial (s : st) (k : ktok) : outcome st :=
  let rest := emit (set_mode M_before_html (set_quirks true s)) k in
  match k with
  | KChar c => if is_ascii_white_space c then Val s else rest
  | KComment d => insert_comment_at d (at_end the_document) s
  | KDoctype d =>
      run (dom, _) <- insert (s_dom s) (at_end the_document) (IDoctype (d_name d) (d_public d) (d_system d));
      let s := set_dom dom s in
      Val (set_mode M_before_html (if in_quirks listed d then set_quirks true s else s))
  | _ => rest
  end.

(** 1683-1739 *)
Definition on_before_html (s : st) (k : ktok) : outcome st :=
  let rest :=
    run (d, i) <- insert (s_dom s) (at_end the_document) (IElement ns_HTML T_html []);
    emit (set_mode M_before_head (set_stack (Entry empty_tag i :: s_stack s) (set_dom d s))) k in
  match k with
  | KDoctype _ => Val s
  | KComment d => insert_comment_at d (at_end the_document) s
  | KChar c => if is_ascii_white_space c then Val s else rest
  | KStart g =>
      match g_id g with
      | T_html =>
          run x <- element_for g ns_HTML;
          run (d, i) <- insert (s_dom s) (at_end the_document) x;
          Val (set_mode M_before_head (set_stack (Entry g i :: s_stack s) (set_dom d s)))
      | _ => rest
      end
  | KEnd (T_head | T_body | T_html | T_br) => rest
  | KEnd _ => Val s
  | KEof => rest
  end.

(** 1746-1803 *)
Definition on_before_head (s : st) (k : ktok) : outcome st :=
  let rest :=
    run (s1, i) <- insert_el (made_tag T_head) s;
    emit (set_mode M_in_head (set_head (Some i) s1)) k in
  match k with
  | KChar c => if is_ascii_white_space c then Val s else rest
  | KComment d => insert_comment d s
  | KDoctype _ => Val s
  | KStart g =>
      match g_id g with
      | T_html => body_html g s
      | T_head => run (s1, i) <- insert_el g s; Val (set_mode M_in_head (set_head (Some i) s1))
      | _ => rest
      end
  | KEnd (T_head | T_body | T_html | T_br) => rest
  | KEnd _ => Val s
  | KEof => rest
  end.

(** 1810-1989 *)
Definition on_in_head (s : st) (k : ktok) : outcome st :=
  let rest :=
    run b <- cur_is T_head s;
    if b then run s1 <- pop s; emit (set_mode M_after_head s1) k else Bad in
  match k with
  | KChar c => if is_ascii_white_space c then insert_char c s else rest
  | KComment d => insert_comment d s
  | KDoctype _ => Val s
  | KStart g =>
      match g_id g with
      | T_html => body_html g s
      | T_base | T_basefont | T_bgsound | T_link | T_meta => insert_void g s
      | T_title => rcdata g s
      | T_noframes | T_style => raw_text g s
      | T_noscript => run s1 <- insert_el' g s; Val (set_mode M_in_head_noscript s1)
      | T_script => run s1 <- insert_el' g s; Val (to_text (want R_script s1))
      | T_template =>
          run s1 <- insert_el' g s;
          let s2 := set_mode M_in_template (set_frameset_ok false (push_marker s1)) in
          Val (set_templates (M_in_template :: s_templates s2) s2)
      | T_head => Val s
      | _ => rest
      end
  | KEnd T_head => run b <- cur_is T_head s; if b then run s1 <- pop s; Val (set_mode M_after_head s1) else Bad
  | KEnd (T_body | T_html | T_br) => rest
  | KEnd T_template =>
      if negb (contains T_template s) then Val s
      else run s1 <- pop_template (clear_formatting (pop_until T_template (implied_thoroughly s))); reset_mode s1
  | KEnd _ => Val s
  | KEof => rest
  end.

(** 1996-2087 *)
Definition on_in_head_noscript (s : st) (k : ktok) : outcome st :=
  let closed :=
    run b <- cur_is T_noscript s;
    if b then run s1 <- pop s; run h <- cur_is T_head s1; if h then Val (set_mode M_in_head s1) else Bad else Bad in
  let rest := run s1 <- closed; emit s1 k in
  match k with
  | KDoctype _ => Val s
  | KStart g =>
      match g_id g with
      | T_html => body_html g s
      | T_basefont | T_bgsound | T_link | T_meta | T_noframes | T_style => on_in_head s k
      | T_head | T_noscript => Val s
      | _ => rest
      end
  | KEnd T_noscript => closed
  | KEnd T_br => rest
  | KEnd _ => Val s
  | KChar c => if is_ascii_white_space c then on_in_head s k else rest
  | KComment _ => on_in_head s k
  | KEof => rest
  end.

(** 2094-2184 *)
Definition on_after_head (s : st) (k : ktok) : outcome st :=
  let rest := run s1 <- insert_el' (made_tag T_body) s; emit (set_mode M_in_body s1) k in
  match k with
  | KChar c => if is_ascii_white_space c then insert_char c s else rest
  | KComment d => insert_comment d s
  | KDoctype _ => Val s
  | KStart g =>
      match g_id g with
      | T_html => body_html g s
      | T_body => run s1 <- insert_el' g s; Val (set_mode M_in_body (set_frameset_ok false s1))
      | T_frameset => run s1 <- insert_el' g s; Val (set_mode M_in_frameset s1)
      | T_base | T_basefont | T_bgsound | T_link | T_meta | T_noframes | T_script | T_style | T_template | T_title =>
          match s_head s with
          | None => Bad
          | Some h =>
              run s1 <- on_in_head (set_stack (Entry empty_tag h :: s_stack s) s) k;
              Val (set_stack (filter (fun e => negb (en_node e =? h)%nat) (s_stack s1)) s1)
          end
      | T_head => Val s
      | _ => rest
      end
  | KEnd T_template => on_in_head s k
  | KEnd (T_body | T_html | T_br) => rest
  | KEnd _ => Val s
  | KEof => rest
  end.

(** on_in_template_insertion_mode of the end of the file, 4434-4449 *)
Definition template_eof (s : st) : outcome st :=
  if negb (contains T_template s) then Val (stop_parsing s)
  else run s1 <- pop_template (clear_formatting (pop_until T_template s)); run s2 <- reset_mode s1; emit s2 KEof.

(** the start tags of on_in_body_insertion_mode, 2224-3083 *)
Definition body_start (s : st) (g : stag) : outcome st :=
  match g_id g with
  | T_html => body_html g s
  | T_base | T_basefont | T_bgsound | T_link | T_meta | T_noframes | T_script | T_style | T_template | T_title =>
      on_in_head s (KStart g)
  | T_body =>
      if (List.length (s_stack s) =? 1)%nat then Val s
      else run i <- second s;
           if is_html T_body (s_dom s) i || contains T_template s then Val s
           else Val (merge_attrs g i (set_frameset_ok false s))
  | T_frameset =>
      if (List.length (s_stack s) =? 1)%nat then Val s
      else run i <- second s;
           if is_html T_body (s_dom s) i then Val s
           else if negb (s_frameset_ok s) then Val s
           else
             let p := parent_of (s_dom s) i in
             let s1 := if (parent_of (s_dom s) p =? the_document)%nat then s else set_dom (erase (s_dom s) p) s in
             run l <- pop_to (is_html T_html (s_dom s1)) (s_stack s1);
             run s2 <- insert_el' g (set_stack l s1);
             Val (set_mode M_in_frameset s2)
  | T_address | T_article | T_aside | T_blockquote | T_center | T_details | T_dialog | T_dir | T_div | T_dl | T_fieldset
  | T_figcaption | T_figure | T_footer | T_header | T_hgroup | T_main | T_menu | T_nav | T_ol | T_p | T_section | T_summary
  | T_ul => run s1 <- p_closed s; insert_el' g s1
  | T_h1 | T_h2 | T_h3 | T_h4 | T_h5 | T_h6 =>
      run s1 <- p_closed s;
      run i <- cur s1;
      run s2 <- (if is_html_in headings (s_dom s1) i then pop s1 else Val s1);
      insert_el' g s2
  | T_pre | T_listing =>
      run s1 <- p_closed s; run s2 <- insert_el' g s1; Val (set_frameset_ok false (set_omit_lf true s2))
  | T_form =>
      if match s_form s with Some _ => negb (contains T_template s) | None => false end then Val s
      else run s1 <- p_closed s; run (s2, i) <- insert_el g s1;
           Val (if contains T_template s2 then s2 else set_form (Some i) s2)
  | T_li =>
      let s := set_frameset_ok false s in
      match s_stack s with
      | [] => other_start g s
      | e :: _ =>
          if is_html T_li (s_dom s) (en_node e) then other_start g (pop_until T_li (implied_except (Some T_li) s))
          else if is_special (s_dom s) (en_node e) && is_html_in [T_address; T_div; T_p] (s_dom s) (en_node e)
               then other_start g s
          else run s1 <- p_closed s; insert_el' g s1
      end
  | T_dd | T_dt =>
      let s := set_frameset_ok false s in
      run s1 <- dd_from (s_stack s) s; run s2 <- p_closed s1; insert_el' g s2
  | T_plaintext => run s1 <- p_closed s; run s2 <- insert_el' g s1; Val (want R_plaintext s2)
  | T_button =>
      run b <- in_scope default_scope T_p s;
      let s1 := if b then pop_until T_button (implied_end_tags s) else s in
      run s2 <- reconstruct s1; run s3 <- insert_el' g s2; Val (set_frameset_ok false s3)
  | T_a =>
      let go s :=
        run s1 <- reconstruct s; run (s2, i) <- insert_el g s1; Val (push_formatting i g s2) in
      match last_a (s_dom s) (s_active s) with
      | None => go s
      | Some i =>
          run (s1, any) <- agency T_a s;
          if any : bool then Val s1
          else let s2 := remove_list i s1 in
               run s3 <- (if on_stack i s2 then remove_stack i s2 else Val s2); go s3
      end
  | T_b | T_big | T_code | T_em | T_font | T_i | T_s | T_small | T_strike | T_strong | T_tt | T_u =>
      run s1 <- reconstruct s; run (s2, i) <- insert_el g s1; Val (push_formatting i g s2)
  | T_nobr =>
      run s1 <- reconstruct s;
      run b <- in_scope default_scope T_nobr s1;
      let go s := run (s2, i) <- insert_el g s; Val (push_formatting i g s2) in
      if b : bool then
        run (s2, any) <- agency T_nobr s1;
        if any : bool then Val s2 else run s3 <- reconstruct s2; go s3
      else go s1
  | T_applet | T_marquee | T_object =>
      run s1 <- reconstruct s; run s2 <- insert_el' g s1; Val (set_frameset_ok false (push_marker s2))
  | T_table =>
      run s1 <- (if s_quirks s then Val s else p_closed s);
      run s2 <- insert_el' g s1; Val (set_mode M_in_table (set_frameset_ok false s2))
  | T_area | T_br | T_embed | T_img | T_keygen | T_wbr =>
      run s1 <- reconstruct s; run s2 <- insert_void g s1; Val (set_frameset_ok false s2)
  | T_input =>
      run s1 <- reconstruct s; run s2 <- insert_void g s1; Val (if is_hidden g then s2 else set_frameset_ok false s2)
  | T_param | T_source | T_track => insert_void g s
  | T_hr => run s1 <- p_closed s; run s2 <- insert_void g s1; Val (set_frameset_ok false s2)
  | T_image => emit s (KStart (STag T_img (g_atom g) (g_text g) (g_self g) (g_attrs g)))
  | T_textarea =>
      run s1 <- insert_el' g s; Val (set_frameset_ok false (to_text (want R_rcdata (set_omit_lf true s1))))
  | T_xmp => run s1 <- p_closed s; run s2 <- reconstruct s1; raw_text g (set_frameset_ok false s2)
  | T_iframe => raw_text g (set_frameset_ok false s)
  | T_noembed => raw_text g s
  | T_select =>
      run s1 <- reconstruct s; run s2 <- insert_el' g s1;
      let s3 := set_frameset_ok false s2 in
      Val (set_mode (match s_mode s3 with
                     | M_in_table | M_in_caption | M_in_table_body | M_in_row | M_in_cell => M_in_select_in_table
                     | _ => M_in_select
                     end) s3)
  | T_optgroup | T_option =>
      run b <- cur_is T_option s; run s1 <- (if b : bool then pop s else Val s); other_start g s1
  | T_rb | T_rtc =>
      run b <- in_scope default_scope T_ruby s; insert_el' g (if b then implied_end_tags s else s)
  | T_rp | T_rt =>
      run b <- in_scope default_scope T_ruby s; insert_el' g (if b then implied_except (Some T_rtc) s else s)
  | T_math =>
      run s1 <- reconstruct s;
      let g1 := adjust_foreign (adjust_mathml g) in
      run (s2, _) <- insert_foreign g1 ns_MathML (keep_slots g1 s1);
      if g_self g then pop s2 else Val s2
  | T_svg =>
      run s1 <- reconstruct s;
      let g1 := adjust_foreign (adjust_mathml g) in
      run (s2, _) <- insert_foreign g1 ns_SVG (keep_slots g1 s1);
      if g_self g then pop s2 else Val s2
  | T_caption | T_col | T_colgroup | T_frame | T_head | T_tbody | T_td | T_tfoot | T_th | T_thead | T_tr => Val s
  | _ => other_start g s
  end.

(** the end tags of on_in_body_insertion_mode, 2256-3112 *)
Definition body_end (s : st) (t : tname) : outcome st :=
  match t with
  | T_template => on_in_head s (KEnd t)
  | T_body => run b <- in_scope default_scope T_body s; Val (if b then set_mode M_after_body s else s)
  | T_html =>
      run b <- in_scope default_scope T_body s;
      if b : bool then emit (set_mode M_after_body s) (KEnd t) else Val s
  | T_address | T_article | T_aside | T_blockquote | T_button | T_center | T_details | T_dialog | T_dir | T_div | T_dl
  | T_fieldset | T_figcaption | T_figure | T_footer | T_header | T_hgroup | T_listing | T_main | T_menu | T_nav | T_ol
  | T_pre | T_section | T_summary | T_ul =>
      run b <- in_scope default_scope t s; Val (if b then pop_until t (implied_end_tags s) else s)
  | T_form =>
      if negb (contains T_template s) then
        let s1 := set_form None s in
        match s_form s with
        | None => Val s1
        | Some i =>
            run b <- in_scope_node default_scope i s1;
            if b : bool then remove_stack i (implied_end_tags s1) else Val s1
        end
      else run b <- in_scope default_scope T_form s; Val (if b then pop_until T_form (implied_end_tags s) else s)
  | T_p =>
      run b <- in_scope button_scope T_p s;
      run s1 <- (if b : bool then Val s else insert_el' (made_tag T_p) s);
      Val (close_p s1)
  | T_li => run b <- in_scope list_item_scope T_li s; Val (if b then pop_until T_li (implied_except (Some T_li) s) else s)
  | T_dd | T_dt =>
      run b <- in_scope default_scope t s;
      if b : bool then other_end t (pop_until t (implied_except (Some t) s)) else Val s
  | T_h1 | T_h2 | T_h3 | T_h4 | T_h5 | T_h6 =>
      run b <- in_scope_any default_scope headings s;
      Val (if b then pop_until_any headings (implied_end_tags s) else s)
  | T_a | T_b | T_big | T_code | T_em | T_font | T_i | T_nobr | T_s | T_small | T_strike | T_strong | T_tt | T_u =>
      run (s1, any) <- agency t s; if any : bool then other_end t s1 else Val s1
  | T_applet | T_marquee | T_object =>
      run b <- in_scope default_scope t s;
      Val (if b then clear_formatting (pop_until t (implied_end_tags s)) else s)
  | T_br => emit s (KStart (made_tag T_br))
  | _ => other_end t s
  end.

(** 2191-3112 *)
Definition on_in_body (s : st) (k : ktok) : outcome st :=
  match k with
  | KChar c =>
      if c =? 0 then Val s
      else run s1 <- reconstruct s; run s2 <- insert_char c s1;
           Val (if is_ascii_white_space c then s2 else set_frameset_ok false s2)
  | KComment d => insert_comment d s
  | KDoctype _ => Val s
  | KStart g => body_start s g
  | KEnd t => body_end s t
  | KEof => match s_templates s with _ :: _ => template_eof s | [] => Val (stop_parsing s) end
  end.

(** 3306-3343 *)
Definition on_text (s : st) (k : ktok) : outcome st :=
  match k with
  | KChar c => insert_char c s
  | KEof => run s1 <- pop s; emit (set_mode (s_original s1) s1) k
  | KEnd _ => run s1 <- pop s; Val (set_mode (s_original s1) s1)
  | _ => Val s
  end.

(** 3350-3541 *)
Definition on_in_table (s : st) (k : ktok) : outcome st :=
  let foster s := run s1 <- on_in_body (set_foster true s) k; Val (set_foster false s1) in
  match k with
  | KChar c =>
      run i <- cur s;
      if is_html_in [T_table; T_tbody; T_tfoot; T_thead; T_tr] (s_dom s) i
      then emit (set_mode M_in_table_text (set_original (s_mode s) (set_pending [] s))) k
      else foster s
  | KComment d => insert_comment d s
  | KDoctype _ => Val s
  | KStart g =>
      match g_id g with
      | T_caption =>
          run s1 <- insert_el' g (push_marker (to_table_context s)); Val (set_mode M_in_caption s1)
      | T_colgroup => run s1 <- insert_el' g (to_table_context s); Val (set_mode M_in_column_group s1)
      | T_col =>
          run s1 <- insert_el' (made_tag T_colgroup) (to_table_context s); emit (set_mode M_in_column_group s1) k
      | T_tbody | T_tfoot | T_thead => run s1 <- insert_el' g (to_table_context s); Val (set_mode M_in_table_body s1)
      | T_td | T_th | T_tr =>
          run s1 <- insert_el' (made_tag T_tbody) (to_table_context s); emit (set_mode M_in_table_body s1) k
      | T_table =>
          run b <- in_scope table_scope T_table s;
          if b : bool then run s1 <- reset_mode (pop_until T_table s); emit s1 k else Val s
      | T_style | T_script | T_template => on_in_head s k
      | T_input => if is_hidden g then insert_void g s else foster s
      | T_form =>
          if contains T_template s || match s_form s with Some _ => true | None => false end then Val s
          else run (s1, i) <- insert_el g s; pop (set_form (Some i) s1)
      | _ => foster s
      end
  | KEnd T_table =>
      run b <- in_scope table_scope T_table s;
      if b : bool then run s1 <- reset_mode (pop_until T_table s); foster s1 else Val s
  | KEnd (T_body | T_caption | T_col | T_colgroup | T_html | T_tbody | T_td | T_tfoot | T_th | T_thead | T_tr) => Val s
  | KEnd _ => foster s
  | KEof => on_in_body s k
  end.

(** 3571-3616 *)
Fixpoint table_text (foster : bool) (l : list Z) (s : st) : outcome st :=
  match l with
  | [] => Val s
  | c :: r =>
      run s1 <- (if foster then run s1 <- on_in_body (set_foster true s) (KChar c); Val (set_foster false s1)
                 else insert_char c s);
      table_text foster r s1
  end.
Definition on_in_table_text (s : st) (k : ktok) : outcome st :=
  let rest :=
    run s1 <- table_text (negb (forallb is_ascii_white_space (s_pending s))) (s_pending s) s;
    emit (set_mode (s_original s1) s1) k in
  match k with
  | KChar c => if c =? 0 then Val s else Val (set_pending (s_pending s ++ [c]) s)
  | _ => rest
  end.

(** 3623-3693 *)
Definition on_in_caption (s : st) (k : ktok) : outcome st :=
  let closed s := set_mode M_in_table (clear_formatting (pop_until T_caption (implied_end_tags s))) in
  let close_and_again :=
    run b <- in_scope table_scope T_caption s; if b : bool then emit (closed s) k else Val s in
  match k with
  | KStart g =>
      match g_id g with
      | T_caption | T_col | T_colgroup | T_tbody | T_td | T_tfoot | T_th | T_thead | T_tr => close_and_again
      | _ => on_in_body s k
      end
  | KEnd T_caption => run b <- in_scope table_scope T_caption s; Val (if b then closed s else s)
  | KEnd T_table => close_and_again
  | KEnd (T_body | T_col | T_colgroup | T_html | T_tbody | T_td | T_tfoot | T_th | T_thead) => Val s
  | _ => on_in_body s k
  end.

(** 3700-3791 *)
Definition on_in_column_group (s : st) (k : ktok) : outcome st :=
  let rest :=
    run b <- cur_is T_colgroup s;
    if b : bool then run s1 <- pop s; emit (set_mode M_in_table s1) k else Val s in
  match k with
  | KChar c => if is_ascii_white_space c then insert_char c s else rest
  | KComment d => insert_comment d s
  | KDoctype _ => Val s
  | KStart g =>
      match g_id g with
      | T_html => body_html g s
      | T_col => insert_void g s
      | T_template => on_in_head s k
      | _ => rest
      end
  | KEnd T_colgroup =>
      run b <- cur_is T_colgroup s; if b : bool then run s1 <- pop s; Val (set_mode M_in_table s1) else Val s
  | KEnd T_col => Val s
  | KEnd T_template => on_in_head s k
  | KEnd _ => rest
  | KEof => on_in_body s k
  end.

(** 3798-3888 *)
Definition on_in_table_body (s : st) (k : ktok) : outcome st :=
  let leave :=
    run b <- in_scope_any table_scope [T_tbody; T_thead; T_tfoot] s;
    if b : bool then run s1 <- to_body_context s; run s2 <- pop s1; emit (set_mode M_in_table s2) k else Val s in
  match k with
  | KStart g =>
      match g_id g with
      | T_tr => run s1 <- to_body_context s; run s2 <- insert_el' g s1; Val (set_mode M_in_row s2)
      | T_th | T_td =>
          run s1 <- to_body_context s; run s2 <- insert_el' (made_tag T_tr) s1; emit (set_mode M_in_row s2) k
      | T_caption | T_col | T_colgroup | T_tbody | T_tfoot | T_thead => leave
      | _ => on_in_table s k
      end
  | KEnd ((T_tbody | T_tfoot | T_thead) as t) =>
      run b <- in_scope table_scope t s;
      if b : bool then run s1 <- to_body_context s; run s2 <- pop s1; Val (set_mode M_in_table s2) else Val s
  | KEnd T_table => leave
  | KEnd (T_body | T_caption | T_col | T_colgroup | T_html | T_td | T_th | T_tr) => Val s
  | _ => on_in_table s k
  end.

(** 3915-4010 *)
Definition on_in_row (s : st) (k : ktok) : outcome st :=
  let closed :=
    run s1 <- to_row_context s;
    run b <- cur_is T_tr s1;
    if b : bool then run s2 <- pop s1; Val (set_mode M_in_table_body s2) else Bad in
  let leave :=
    run b <- in_scope table_scope T_tr s; if b : bool then run s1 <- closed; emit s1 k else Val s in
  match k with
  | KStart g =>
      match g_id g with
      | T_th | T_td => run s1 <- to_row_context s; run s2 <- insert_el' g s1; Val (push_marker (set_mode M_in_cell s2))
      | T_caption | T_col | T_colgroup | T_tbody | T_tfoot | T_thead | T_tr => leave
      | _ => on_in_table s k
      end
  | KEnd T_tr => run b <- in_scope table_scope T_tr s; if b : bool then closed else Val s
  | KEnd T_table => leave
  | KEnd ((T_tbody | T_tfoot | T_thead) as t) =>
      run b <- in_scope table_scope t s;
      if b : bool then run _ <- in_scope table_scope T_tr s; run s1 <- closed; emit s1 k else Val s
  | KEnd (T_body | T_caption | T_col | T_colgroup | T_html | T_td | T_th) => Val s
  | _ => on_in_table s k
  end.

(** 4036-4103 *)
Definition on_in_cell (s : st) (k : ktok) : outcome st :=
  match k with
  | KEnd ((T_td | T_th) as t) =>
      run b <- in_scope table_scope t s;
      Val (if b then set_mode M_in_row (clear_formatting (pop_until t (implied_end_tags s))) else s)
  | KStart g =>
      match g_id g with
      | T_caption | T_col | T_colgroup | T_tbody | T_td | T_tfoot | T_th | T_thead | T_tr =>
          run b <- in_scope_any table_scope [T_td; T_th] s; if b : bool then emit (close_cell s) k else Val s
      | _ => on_in_body s k
      end
  | KEnd (T_body | T_caption | T_col | T_colgroup | T_html) => Val s
  | KEnd ((T_table | T_tbody | T_tfoot | T_thead | T_tr) as t) =>
      run b <- in_scope table_scope t s; if b : bool then emit (close_cell s) k else Val s
  | _ => on_in_body s k
  end.

(** 4125-4276 *)
Definition on_in_select (s : st) (k : ktok) : outcome st :=
  let pop_if t s := run b <- cur_is t s; if b : bool then pop s else Val s in
  let closed (go : st -> outcome st) :=
    run b <- in_scope select_scope T_select s;
    if b : bool then run s1 <- reset_mode (pop_until T_select s); go s1 else Val s in
  match k with
  | KChar c => if c =? 0 then Val s else insert_char c s
  | KComment d => insert_comment d s
  | KDoctype _ => Val s
  | KStart g =>
      match g_id g with
      | T_html => body_html g s
      | T_option => run s1 <- pop_if T_option s; insert_el' g s1
      | T_optgroup => run s1 <- pop_if T_option s; run s2 <- pop_if T_optgroup s1; insert_el' g s2
      | T_select => closed (fun s1 => Val s1)
      | T_input | T_keygen | T_textarea => closed (fun s1 => emit s1 k)
      | T_script | T_template => on_in_head s k
      | _ => Val s
      end
  | KEnd T_optgroup =>
      run b <- cur_is T_option s;
      run s1 <- (if b : bool then
                   match s_stack s with
                   | _ :: e :: _ => if is_html T_optgroup (s_dom s) (en_node e) then pop s else Val s
                   | _ => Bad
                   end
                 else Val s);
      pop_if T_optgroup s1
  | KEnd T_option => pop_if T_option s
  | KEnd T_select => closed (fun s1 => Val s1)
  | KEnd T_template => on_in_head s k
  | KEnd _ => Val s
  | KEof => on_in_body s k
  end.

(** 4283-4320 *)
Definition on_in_select_in_table (s : st) (k : ktok) : outcome st :=
  match k with
  | KStart g =>
      match g_id g with
      | T_caption | T_table | T_tbody | T_tfoot | T_thead | T_tr | T_td | T_th =>
          run s1 <- reset_mode (pop_until T_select s); emit s1 k
      | _ => on_in_select s k
      end
  | KEnd ((T_caption | T_table | T_tbody | T_tfoot | T_thead | T_tr | T_td | T_th) as t) =>
      run b <- in_scope select_scope t s;
      if b : bool then run s1 <- reset_mode (pop_until T_select s); emit s1 k else Val s
  | _ => on_in_select s k
  end.

(** 4327-4448 *)
Definition on_in_template (s : st) (k : ktok) : outcome st :=
  let switch m :=
    run s1 <- pop_template s; emit (set_mode m (set_templates (m :: s_templates s1) s1)) k in
  match k with
  | KChar _ | KComment _ | KDoctype _ => on_in_body s k
  | KStart g =>
      match g_id g with
      | T_base | T_basefont | T_bgsound | T_link | T_meta | T_noframes | T_script | T_style | T_template | T_title =>
          on_in_head s k
      | T_caption | T_colgroup | T_tbody | T_tfoot | T_thead => switch M_in_table
      | T_col => switch M_in_column_group
      | T_tr => switch M_in_table_body
      | T_td | T_th => switch M_in_row
      | _ => switch M_in_body
      end
  | KEnd T_template => on_in_head s k
  | KEnd _ => Val s
  | KEof => template_eof s
  end.

(** 4455-4515 *)
Definition on_after_body (s : st) (k : ktok) : outcome st :=
  let rest := emit (set_mode M_in_body s) k in
  match k with
  | KChar c => if is_ascii_white_space c then on_in_body s k else rest
  | KComment d => run i <- front s; insert_comment_at d (at_end i) s
  | KDoctype _ => Val s
  | KStart g => match g_id g with T_html => body_html g s | _ => rest end
  | KEnd T_html => if s_fragment s then Val s else Val (set_mode M_after_after_body s)
  | KEnd _ => rest
  | KEof => Val (stop_parsing s)
  end.

(** 4522-4611 *)
Definition on_in_frameset (s : st) (k : ktok) : outcome st :=
  match k with
  | KChar c => if is_ascii_white_space c then insert_char c s else Val s
  | KComment d => insert_comment d s
  | KDoctype _ => Val s
  | KStart g =>
      match g_id g with
      | T_html => body_html g s
      | T_frameset => insert_el' g s
      | T_frame => insert_void g s
      | T_noframes => on_in_head s k
      | _ => Val s
      end
  | KEnd T_frameset =>
      run b <- cur_is T_html s;
      if b : bool then Val s
      else run s1 <- pop s;
           if s_fragment s1 then Val s1
           else run f <- cur_is T_frameset s1; Val (if f then s1 else set_mode M_after_frameset s1)
  | KEnd _ => Val s
  | KEof => run _ <- cur s; Val (stop_parsing s)
  end.

(** 4618-4677 *)
Definition on_after_frameset (s : st) (k : ktok) : outcome st :=
  match k with
  | KChar c => if is_ascii_white_space c then insert_char c s else Val s
  | KComment d => insert_comment d s
  | KDoctype _ => Val s
  | KStart g =>
      match g_id g with
      | T_html => body_html g s
      | T_noframes => on_in_head s k
      | _ => Val s
      end
  | KEnd T_html => Val (set_mode M_after_after_frameset s)
  | KEnd _ => Val s
  | KEof => Val (stop_parsing s)
  end.

(** 4684-4725 *)
Definition on_after_after_body (s : st) (k : ktok) : outcome st :=
  let rest := emit (set_mode M_in_body s) k in
  match k with
  | KComment d => insert_comment_at d (at_end the_document) s
  | KDoctype _ => on_in_body s k
  | KChar c => if is_ascii_white_space c then on_in_body s k else rest
  | KStart g => match g_id g with T_html => body_html g s | _ => rest end
  | KEnd _ => rest
  | KEof => Val (stop_parsing s)
  end.

(** 4732-4780 *)
Definition on_after_after_frameset (s : st) (k : ktok) : outcome st :=
  match k with
  | KComment d => insert_comment_at d (at_end the_document) s
  | KDoctype _ => on_in_body s k
  | KChar c => if is_ascii_white_space c then on_in_body s k else Val s
  | KStart g =>
      match g_id g with
      | T_html => body_html g s
      | T_noframes => on_in_head s k
      | _ => Val s
      end
  | KEnd _ => Val s
  | KEof => Val (stop_parsing s)
  end.

(** the switches of 1089-1159 and 4946-5017 *)
Definition in_mode (s : st) (k : ktok) : outcome st :=
  match s_mode s with
  | M_initial => on_initial s k
  | M_before_html => on_before_html s k
  | M_before_head => on_before_head s k
  | M_in_head => on_in_head s k
  | M_in_head_noscript => on_in_head_noscript s k
  | M_after_head => on_after_head s k
  | M_in_body => on_in_body s k
  | M_text => on_text s k
  | M_in_table => on_in_table s k
  | M_in_table_text => on_in_table_text s k
  | M_in_caption => on_in_caption s k
  | M_in_column_group => on_in_column_group s k
  | M_in_table_body => on_in_table_body s k
  | M_in_row => on_in_row s k
  | M_in_cell => on_in_cell s k
  | M_in_select => on_in_select s k
  | M_in_select_in_table => on_in_select_in_table s k
  | M_in_template => on_in_template s k
  | M_after_body => on_after_body s k
  | M_in_frameset => on_in_frameset s k
  | M_after_frameset => on_after_frameset s k
  | M_after_after_body => on_after_after_body s k
  | M_after_after_frameset => on_after_after_frameset s k
  end.

(** 4857-4867: after one pop_back() *)
Fixpoint breakout (d : list cell) (l : list entry) : outcome (list entry) :=
  match l with
  | [] => Bad
  | _ :: r =>
      match r with
      | [] => Bad
      | e :: _ =>
          if mathml_text_point d (en_node e) || html_point d e || (ns_of d (en_node e) =? ns_HTML) then Val r
          else breakout d r
      end
  end.
(** 4917-4944; [true]: the end tag is for the insertion mode *)
Fixpoint foreign_end (t : tname) (bottom : nat) (l : list entry) (s : st) : outcome (st * bool) :=
  match l with
  | [] => Bad
  | e :: r =>
      if (en_node e =? bottom)%nat then Val (s, false)
      else if same_str (map cp_lower (tstring (name_of (s_dom s) (en_node e)))) (tstring t)
           then Val (pop_until_node (en_node e) s, false)
      else match r with
           | [] => Bad
           | f :: _ => if negb (ns_of (s_dom s) (en_node f) =? ns_HTML) then foreign_end t bottom r s else Val (s, true)
           end
  end.
(** 4874-4909 *)
Definition foreign_start (s : st) (g : stag) : outcome st :=
  run e <- adjusted s;
  let ns := ns_of (s_dom s) (en_node e) in
  let g1 :=
    if ns =? ns_MathML then adjust_mathml g
    else if ns =? ns_SVG
         then let h := adjust_svg g in STag (g_id h) (g_atom h) (cased svg_elements (g_text h)) (g_self h) (g_attrs h)
    else g in
  let g2 := adjust_foreign g1 in
  run (s1, _) <- insert_foreign g2 ns (keep_slots g2 s);
  if g_self g then pop s1 else Val s1.
(** 4787-5022 *)
Definition on_foreign (s : st) (k : ktok) : outcome st :=
  match k with
  | KChar c =>
      if c =? 0 then insert_char 0xFFFD s
      else run s1 <- insert_char c s; Val (if is_ascii_white_space c then s1 else set_frameset_ok false s1)
  | KComment d => insert_comment d s
  | KDoctype _ => Val s
  | KStart g =>
      let out :=
        match g_id g with
        | T_b | T_big | T_blockquote | T_body | T_br | T_center | T_code | T_dd | T_div | T_dl | T_dt | T_em | T_embed
        | T_h1 | T_h2 | T_h3 | T_h4 | T_h5 | T_h6 | T_head | T_hr | T_i | T_img | T_li | T_listing | T_menu | T_meta
        | T_nobr | T_ol | T_p | T_pre | T_ruby | T_s | T_small | T_span | T_strong | T_strike | T_sub | T_sup | T_table
        | T_tt | T_u | T_ul | T_var => true
        | T_font =>
            let has n := match find_attr (lit n) g with Some _ => true | None => false end in
            has "Color"%string || has "Face"%string || has "Size"%string
        | _ => false
        end in
      if out && negb (s_fragment s) then
        run s1 <- pop s;
        run l <- breakout (s_dom s1) (s_stack s1);
        emit (set_stack l s1) k
      else foreign_start s g
  | KEnd t =>
      run i <- cur s;
      if teqb t T_script && is_el ns_SVG T_script (s_dom s) i then pop s
      else run b <- front s;
           run (s1, again) <- foreign_end t b (s_stack s) s;
           if again : bool then in_mode s1 k else Val s1
  | KEof => Bad
  end.

(** 1041-1171 *)
Definition dispatch (s : st) (k : ktok) : outcome st :=
  let omit := s_omit_lf s in
  let s := set_omit_lf false s in
  match k with
  | KChar c => if omit && (c =? 0xA) then Val s else
      match s_stack s with
      | [] => in_mode s k
      | _ =>
          run e <- adjusted s;
          if (ns_of (s_dom s) (en_node e) =? ns_HTML) || mathml_text_point (s_dom s) (en_node e) || html_point (s_dom s) e
          then in_mode s k else on_foreign s k
      end
  | _ =>
      match s_stack s with
      | [] => in_mode s k
      | _ =>
          run e <- adjusted s;
          let i := en_node e in
          let html :=
            (ns_of (s_dom s) i =? ns_HTML)
            || match k with
               | KStart g =>
                   (mathml_text_point (s_dom s) i && negb (among (g_id g) [T_mglyph; T_malignmark]))
                   || (teqb (name_of (s_dom s) i) T_annotation_xml && teqb (g_id g) T_svg)
                   || html_point (s_dom s) e
               | KEof => true
               | _ => false
               end in
          if html then in_mode s k else on_foreign s k
      end
  end.
End Modes.

(** process_token and on_emit_token, 1041-1183; the recursion of reprocess_token *)
Fixpoint process (listed : list Z -> bool) (fuel : nat) (s : st) (k : ktok) : outcome st :=
  match fuel with
  | O => NoFuel
  | S f => dispatch listed (process listed f) s k
  end.

(** *** The parser *)

(** on_emit_token called by the tokenizer (tokenization.hpp:214-258) *)
Definition feed (listed : list Z -> bool) (fuel : nat) (s : st) (t : token) : outcome st :=
  process listed fuel (set_wanted None s) (tok_of (s_slots s) t).
Fixpoint construct (listed : list Z -> bool) (fuel : nat) (s : st) (l : list token) : outcome st :=
  match l with
  | [] => Val s
  | t :: r => run s1 <- feed listed fuel s t; construct listed fuel s1 r
  end.

(** What the tokenizer sees of tree construction: the state that was set by the last token, and whether the adjusted
    current node is an HTML element (tokenization.hpp:194-198). *)
Definition state_of (r : reading) : state :=
  match r with
  | R_rcdata => RCDATA_state | R_rawtext => RAWTEXT_state | R_script => script_data_state | R_plaintext => PLAINTEXT_state
  end.
Definition switch_of (listed : list Z -> bool) (fuel : nat) (fragment : bool) (l : list token) : option state :=
  match construct listed fuel (st_init fragment) l with Val s => option_map state_of (s_wanted s) | _ => None end.
Definition cdata_of (listed : list Z -> bool) (fuel : nat) (fragment : bool) (l : list token) : bool :=
  match construct listed fuel (st_init fragment) l with
  | Val s => match s_stack s with e :: _ => ns_of (s_dom s) (en_node e) =? ns_HTML | [] => false end
  | _ => false
  end.

(** The tree as a value. The prefix of an element is not set by the parser (simple_parser.hpp:109-117). *)
Fixpoint tree_of (fuel : nat) (d : list cell) (i : nat) : node :=
  match fuel with
  | O => NDocument []
  | S f =>
      let kids := map (tree_of f d) (kids_of d i) in
      match c_info (cell_of d i) with
      | IDocument => NDocument kids
      | IElement ns t attrs => NElement ns [] (tstring t) attrs kids
      | IText x => NText x
      | IComment x => NComment x
      | IDoctype n _ _ => NDoctype n
      end
  end.
Definition document (s : st) : node := tree_of (List.length (s_dom s)) (s_dom s) the_document.

(** basic_html_tokenizer fed with a text, and the tree it makes: [steps] bounds the steps of the tokenizer, [fuel] the
    reprocessings of one token. [ncr] is named_character_reference_tbl. *)
Definition parse_text (listed : list Z -> bool) (ncr : list Z -> option (nat * list Z)) (steps fuel : nat) (text : list Z)
  : outcome st :=
  run l <- tokenize (switch_of listed fuel false) (cdata_of listed fuel false) ncr steps tok_init text;
  construct listed fuel (st_init false) l.
Definition parse (listed : list Z -> bool) (ncr : list Z -> option (nat * list Z)) (steps fuel : nat) (text : list Z)
  : outcome node := run s <- parse_text listed ncr steps fuel text; Val (document s).
