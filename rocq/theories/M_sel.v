(** Model of CSS selectors: the parser of lib/wwwc/selectors/grammar.cpp over the component values of M_cssp, the matching of
    include/wordring/wwwc/selectors/grammar.hpp and api.hpp, and the queries of include/wordring/whatwg/dom/infrastructure.hpp and
    include/wordring/css/selector.hpp. Definitions only. *)
From Coq Require Import ZArith List Bool.
From Verif Require Import M_unicode M_infra M_encoding M_css M_cssp.
Import ListNotations.
Open Scope list_scope.
Open Scope Z_scope.

(** * Parsing *)

(** A stream (lib/wwwc/css_syntax/token.cpp:226-295) is what is left of its values: [current] and [consume] look at the first one and give
    [eof_token] when there is none. An object of the grammar whose range is empty (grammar.cpp:18-32) is [None]; otherwise it is its value with the
    values behind its range. The iterators that it keeps are not modelled. [std::u32string] is the list of its code points. *)
Definition parsed (A : Type) := option (A * list prim).
Definition eqb_str (a b : list Z) : bool := if list_eq_dec Z.eq_dec a b then true else false.
(** css_defs.hpp:27: the map of the context, from prefixes to URIs. *)
Definition namespaces := list (list Z * list Z).
Fixpoint find_ns (m : namespaces) (p : list Z) : option (list Z) :=
  match m with [] => None | (q, u) :: r => if eqb_str q p then Some u else find_ns r p end.
(** lib/wwwc/css_syntax/token.cpp:286-295 *)
Fixpoint skip_spaces (s : list prim) : list prim := match s with Tok Whitespace :: r => skip_spaces r | _ => s end.
Definition skipped (s : list prim) : bool := match s with Tok Whitespace :: _ => true | _ => false end.

(** grammar.cpp:48-75 *)
Definition combinator (s : list prim) : parsed Z :=
  match s with
  | Tok (Delim c) :: r =>
      if (c =? 0x3E) || (c =? 0x2B) || (c =? 0x7E) then Some (c, r)
      else if c =? 0x7C then match r with Tok (Delim d) :: r2 => if d =? 0x7C then Some (0x7C, r2) else None | _ => None end
      else None
  | _ => None
  end.
(** grammar.cpp:92-125 *)
Definition ns_prefix (m : namespaces) (s : list prim) : parsed (list Z) :=
  let '(p, r) :=
    match s with
    | Tok (Ident v) :: r => (v, r)
    | Tok (Delim c) :: r => if c =? 0x2A then ([0x2A], r) else ([], s)
    | _ => ([], s)
    end in
  match r with
  | Tok (Delim c) :: r2 =>
      if (c =? 0x7C) && (match find_ns m p with Some _ => true | None => false end || eqb_str p [0x2A] || eqb_str p []) then Some (p, r2) else None
  | _ => None
  end.
(** grammar.cpp:142-168; the name with its prefix. *)
Definition wq_name (m : namespaces) (s : list prim) : parsed (option (list Z) * list Z) :=
  let '(p, r) := match ns_prefix m s with Some (p, r) => (Some p, r) | None => (None, s) end in
  let '(p, r) :=
    match r with
    | Tok (Ident _) :: _ => (p, r)
    | Tok (Delim c) :: _ => if c =? 0x2A then (p, r) else (None, s)
    | _ => (None, s)
    end in
  match r with Tok (Ident n) :: r2 => Some ((p, n), r2) | _ => None end.
(** grammar.cpp:191-202 *)
Definition id_selector (s : list prim) : parsed (list Z) := match s with Tok (Hash v _) :: r => Some (v, r) | _ => None end.
(** grammar.cpp:219-234 *)
Definition class_selector (s : list prim) : parsed (list Z) :=
  match s with Tok (Delim c) :: Tok (Ident n) :: r => if c =? 0x2E then Some (n, r) else None | _ => None end.
(** grammar.cpp:251-279 *)
Definition attr_matcher (s : list prim) : parsed Z :=
  match s with
  | Tok (Delim c) :: r =>
      if c =? 0x3D then Some (0x3D, r)
      else if (c =? 0x7E) || (c =? 0x7C) || (c =? 0x5E) || (c =? 0x24) || (c =? 0x2A)
      then match r with Tok (Delim d) :: r2 => if d =? 0x3D then Some (c, r2) else None | _ => None end
      else None
  | _ => None
  end.
(** grammar.cpp:296-314 *)
Definition attr_modifier (s : list prim) : parsed Z :=
  match s with
  | Tok (Ident v) :: r =>
      if eqb_str v [0x69] || eqb_str v [0x49] then Some (0x69, r) else if eqb_str v [0x73] || eqb_str v [0x53] then Some (0x73, r) else None
  | _ => None
  end.
(** grammar.hpp:854-866: name with prefix, matcher (0 for none), value and modifier (0 for none). *)
Record attribute_sel := AttrSel { at_prefix : option (list Z); at_name : list Z; at_matcher : Z; at_value : list Z; at_modifier : Z }.
(** grammar.cpp:489-544. [in2] is over the values of the block; what is left of it behind the modifier is dropped (line 539). *)
Definition attribute_selector (m : namespaces) (s : list prim) : parsed attribute_sel :=
  match s with
  | Blk o v :: r =>
      if negb (o =? 0x5B) then None
      else
        match wq_name m (skip_spaces v) with
        | None => None
        | Some ((p, n), v) =>
            let v := skip_spaces v in
            match attr_matcher v with
            | Some (c, v) =>
                let found (value : list Z) (v : list prim) :=
                  Some (AttrSel p n c value (match attr_modifier (skip_spaces v) with Some (k, _) => k | None => 0 end), r) in
                match skip_spaces v with
                | Tok (Str x) :: v => found x v
                | Tok (Ident x) :: v => found x v
                | _ => None
                end
            | None => match v with [] => Some (AttrSel p n 0 [] 0, r) | _ => None end
            end
        end
  | _ => None
  end.

(** grammar.hpp:474-541: a name with its enumerator, or a function. Its enumerator is always 0 (pseudo_class_defs.hpp:25-28). *)
Inductive pseudo := PName (n : list Z) (id : Z) | PFunction (n : list Z) (v : list prim).
(** pseudo_class_defs.hpp:8-18 *)
Definition to_pseudo_class_id_name (n : list Z) : Z := if eqb_str n [0x72; 0x6F; 0x6F; 0x74] then 1 else 0.
(** grammar.cpp:342-348, 444-450 *)
Definition old_elements : list (list Z) :=
  [[0x62; 0x65; 0x66; 0x6F; 0x72; 0x65]; [0x61; 0x66; 0x74; 0x65; 0x72]; [0x66; 0x69; 0x72; 0x73; 0x74; 0x2D; 0x6C; 0x69; 0x6E; 0x65];
   [0x66; 0x69; 0x72; 0x73; 0x74; 0x2D; 0x6C; 0x65; 0x74; 0x74; 0x65; 0x72]].
(** grammar.cpp:331-372 *)
Definition pseudo_class_selector (s : list prim) : outcome (parsed pseudo) :=
  match s with
  | Tok Colon :: Tok (Ident n) :: r =>
      pbind (popt (to_ascii_lowercase utf32 utf32 n)) (fun l =>
      if existsb (eqb_str l) old_elements then Val None else Val (Some (PName n (to_pseudo_class_id_name l), r)))
  | Tok Colon :: Fun n v :: r => Val (Some (PFunction n v, r))
  | _ => Val None
  end.
(** grammar.cpp:423-463; the enumerator is always 0 (pseudo_class_defs.hpp:57-75). *)
Definition pseudo_element_selector (s : list prim) : outcome (parsed pseudo) :=
  match s with
  | Tok Colon :: r =>
      pbind (pseudo_class_selector r) (fun e =>
      match e with
      | Some (p, r2) => Val (Some (p, r2))
      | None =>
          match (match r with Tok Colon :: r2 => r2 | _ => r end) with
          | Tok (Ident n) :: r3 =>
              pbind (popt (to_ascii_lowercase utf32 utf32 n)) (fun l => if existsb (eqb_str l) old_elements then Val (Some (PName n 0, r3)) else Val None)
          | _ => Val None
          end
      end)
  | _ => Val None
  end.

(** grammar.hpp:868-913 *)
Inductive subclass := SId (v : list Z) | SClass (n : list Z) | SAttr (a : attribute_sel) | SPseudo (p : pseudo).
(** grammar.cpp:584-601 *)
Definition subclass_selector (m : namespaces) (s : list prim) : outcome (parsed subclass) :=
  match id_selector s with Some (v, r) => Val (Some (SId v, r)) | None =>
  match class_selector s with Some (n, r) => Val (Some (SClass n, r)) | None =>
  match attribute_selector m s with Some (a, r) => Val (Some (SAttr a, r)) | None =>
  pbind (pseudo_class_selector s) (fun p => match p with Some (p, r) => Val (Some (SPseudo p, r)) | None => Val None end)
  end end end.
(** grammar.hpp:915-1006: a name, or the universal selector. *)
Inductive type_sel := TName (p : option (list Z)) (n : list Z) | TAny (p : option (list Z)).
(** grammar.cpp:618-640 *)
Definition type_selector (m : namespaces) (s : list prim) : parsed type_sel :=
  match wq_name m s with
  | Some ((p, n), r) => Some (TName p n, r)
  | None =>
      let '(p, r) := match ns_prefix m s with Some (p, r) => (Some p, r) | None => (None, s) end in
      match r with Tok (Delim c) :: r2 => if c =? 0x2A then Some (TAny p, r2) else None | _ => None end
  end.
(** grammar.hpp:1008-1054 *)
Inductive simple_sel := SimpleType (t : type_sel) | SimpleSub (u : subclass).
(** grammar.cpp:657-668 *)
Definition simple_selector (m : namespaces) (s : list prim) : outcome (parsed simple_sel) :=
  match type_selector m s with
  | Some (t, r) => Val (Some (SimpleType t, r))
  | None => pbind (subclass_selector m s) (fun u => match u with Some (u, r) => Val (Some (SimpleSub u, r)) | None => Val None end)
  end.

(** grammar.hpp:1056-1113 *)
Inductive part := PType (t : type_sel) | PSub (u : subclass) | PElement (p : pseudo) | PClass (p : pseudo).
Definition compound := list part.
(** grammar.cpp:699-708 *)
Fixpoint subclasses (fuel : nat) (m : namespaces) (v : list part) (s : list prim) : outcome (list part * list prim) :=
  match fuel with
  | O => NoFuel
  | S f => pbind (subclass_selector m s) (fun u => match u with Some (u, r) => subclasses f m (v ++ [PSub u]) r | None => Val (v, s) end)
  end.
(** grammar.cpp:720-729 *)
Fixpoint classes (fuel : nat) (v : list part) (s : list prim) : outcome (list part * list prim) :=
  match fuel with
  | O => NoFuel
  | S f => pbind (pseudo_class_selector s) (fun u => match u with Some (u, r) => classes f (v ++ [PClass u]) r | None => Val (v, s) end)
  end.
(** grammar.cpp:710-730 *)
Fixpoint elements (fuel : nat) (v : list part) (s : list prim) : outcome (list part * list prim) :=
  match fuel with
  | O => NoFuel
  | S f =>
      pbind (pseudo_element_selector s) (fun e =>
      match e with
      | Some (e, r) => pbind (classes f (v ++ [PElement e]) r) (fun '(v, r) => elements f v r)
      | None => Val (v, s)
      end)
  end.
(** grammar.cpp:686-738. The end of the last part (lines 734-735) is where the stream stands. *)
Definition compound_selector (m : namespaces) (s : list prim) : outcome (parsed compound) :=
  let fuel := S (List.length s) in
  let '(v, r) := match type_selector m s with Some (t, r) => ([PType t], r) | None => ([], s) end in
  pbind (subclasses fuel m v r) (fun '(v, r) =>
  pbind (elements fuel v r) (fun '(v, r) => match v with [] => Val None | _ => Val (Some (v, r)) end)).

(** grammar.hpp:1115-1241: compound selectors and combinators, with 0x20 for the descendant combinator. *)
Inductive item := Comp (c : compound) | Comb (k : Z).
Definition complex := list item.
(** grammar.cpp:771-788, with the end of the last compound selector (lines 790-791). *)
Fixpoint complex_loop (fuel : nat) (m : namespaces) (v : list item) (s : list prim) : outcome (list item * list prim) :=
  match s with
  | [] => Val (v, s)
  | _ =>
      match fuel with
      | O => NoFuel
      | S f =>
          let ws := skipped s in
          let s1 := skip_spaces s in
          let c := combinator s1 in
          if negb ws && match c with Some _ => false | None => true end then Val (v, s)
          else
            let s2 := match c with Some (_, r) => r | None => s1 end in
            pbind (compound_selector m (skip_spaces s2)) (fun cs =>
            match cs with
            | Some (cs, r) => complex_loop f m (v ++ [Comb (match c with Some (k, _) => k | None => 0x20 end); Comp cs]) r
            | None => Val (v, s)
            end)
      end
  end.
(** grammar.cpp:755-794 *)
Definition complex_selector (m : namespaces) (s : list prim) : outcome (parsed complex) :=
  pbind (compound_selector m s) (fun cs =>
  match cs with
  | Some (cs, r) => pbind (complex_loop (S (List.length r)) m [Comp cs] r) (fun '(v, r) => Val (Some (v, r)))
  | None => Val None
  end).
(** grammar.cpp:811-834 *)
Definition relative_selector (m : namespaces) (s : list prim) : outcome (parsed (list item)) :=
  let '(v, r) := match combinator s with Some (k, r) => ([Comb k], r) | None => ([], s) end in
  pbind (complex_selector m r) (fun cs => match cs with Some (cs, r) => Val (Some (v ++ cs, r)) | None => Val None end).

(** grammar.cpp:862-874, 905-917, 948-960 and 991-1003: the same loop for each kind of selector. *)
Fixpoint list_loop {A : Type} (fuel : nat) (f : list prim -> outcome (parsed A)) (v : list A) (s : list prim) : outcome (parsed (list A)) :=
  match fuel with
  | O => NoFuel
  | S n =>
      let s := skip_spaces s in
      match s with
      | Tok Comma :: r =>
          pbind (f (skip_spaces r)) (fun x => match x with Some (x, r) => list_loop n f (v ++ [x]) r | None => Val None end)
      | _ => Val (Some (v, s))
      end
  end.
(** grammar.cpp:851-877, 894-920, 937-963 and 980-1006 *)
Definition list_of {A : Type} (f : list prim -> outcome (parsed A)) (s : list prim) : outcome (parsed (list A)) :=
  pbind (f s) (fun x => match x with Some (x, r) => list_loop (S (List.length r)) f [x] r | None => Val None end).
Definition relative_selector_list (m : namespaces) := list_of (relative_selector m).
Definition simple_selector_list (m : namespaces) := list_of (simple_selector m).
Definition compound_selector_list (m : namespaces) := list_of (compound_selector m).
Definition complex_selector_list (m : namespaces) := list_of (complex_selector m).
(** grammar.cpp:1023-1031; the empty list of selectors when there is none. *)
Definition selector_list (m : namespaces) (s : list prim) : outcome (list complex * list prim) :=
  pbind (complex_selector_list m s) (fun x => match x with Some x => Val x | None => Val ([], s) end).

(** api.hpp:38-42 and 55-59 with parsing.hpp:190-209. [fuel] is that of the tokeniser and of the parser of component values. *)
Definition parse_selector (fuel : nat) (m : namespaces) (src : list Z) : outcome (list complex) :=
  pbind (normalize_into_token_stream fuel src) (fun t => pbind (parse_list_of_component_values fuel t) (fun v => pbind (selector_list m v) (fun '(l, _) => Val l))).
Definition parse_relative_selector (fuel : nat) (m : namespaces) (src : list Z) : outcome (list (list item)) :=
  pbind (normalize_into_token_stream fuel src) (fun t => pbind (parse_list_of_component_values fuel t) (fun v =>
  pbind (relative_selector_list m v) (fun x => match x with Some (l, _) => Val l | None => Val [] end))).

(** * Documents *)

(** include/wordring/html/simple_node.hpp:40-158 and 400-560. The strings are what [encoding_cast] to [std::u32string] makes of them, and the name of
    a namespace is its URI. *)
Record attr := Attr { a_ns : list Z; a_prefix : list Z; a_name : list Z; a_value : list Z }.
Record element := Element { e_ns : list Z; e_name : list Z; e_attrs : list attr }.
(** The other kinds of node are not told apart. html_defs.hpp:22-33 for the numbers of a document. *)
Inductive kind := KElement (e : element) | KDocument (type mode : Z) | KOther.
Inductive tree := Node (k : kind) (l : list tree).
Definition t_kind (t : tree) : kind := match t with Node k _ => k end.
Definition t_children (t : tree) : list tree := match t with Node _ l => l end.
Definition forest := list tree.

(** A pointer (simple_traits.hpp:47-70) is the position of a node: its place among its siblings, that of its parent, and so on. The empty
    position is the null pointer [traits::pointer()], which is also what the parent of a root is. C20-C25 are about the container. *)
Definition pointer := list nat.
Fixpoint at_ (F : forest) (p : pointer) : option tree :=
  match p with
  | [] => None
  | [i] => nth_error F i
  | i :: p => match at_ F p with Some t => nth_error (t_children t) i | None => None end
  end.
Definition parent (p : pointer) : pointer := tl p.
Definition kind_at (F : forest) (p : pointer) : option kind := option_map t_kind (at_ F p).

(** simple_node.hpp:139-146 *)
Definition qualified_name (a : attr) : list Z := match a_prefix a with [] => a_name a | p => p ++ 0x3A :: a_name a end.

(** * Matching *)

(** css_defs.hpp:34-77, the fields that are read while matching. [Xml] is 1, [Html] 2; [NoQuirks] 1, [Quirks] 2, [LimitedQuirks] 3. *)
Record context := Context { c_type : Z; c_mode : Z; c_ns : namespaces }.
(** The assert at the head of every [match]; [None] is an assert that fails or undefined behaviour. *)
Definition asserted {A : Type} (c : context) (x : option A) : option A := if (c_type c =? 1) && ((c_mode c =? 3) || (c_mode c =? 2)) then None else x.
Definition obind {A B : Type} (x : option A) (f : A -> option B) : option B := match x with Some a => f a | None => None end.
Definition lower (s : list Z) : option (list Z) := to_ascii_lowercase utf32 utf32 s.
Definition same_ci (a b : list Z) : option bool := is_ascii_case_insensitive_match utf32 utf32 a b.

(** grammar.hpp:261-293 *)
Definition attr_name_is (c : context) (a : attr) (n : list Z) : option bool :=
  obind (if c_type c =? 2 then lower (qualified_name a) else Some (qualified_name a)) (fun s => Some (eqb_str s n)).
Fixpoint id_loop (c : context) (v : list Z) (l : list attr) : option bool :=
  match l with
  | [] => Some false
  | a :: r =>
      obind (attr_name_is c a [0x69; 0x64]) (fun b =>
      if b then obind (if c_mode c =? 2 then lower (a_value a) else Some (a_value a)) (fun x => if eqb_str x v then Some true else id_loop c v r)
      else id_loop c v r)
  end.
Definition match_id (v : list Z) (k : kind) (c : context) : option bool :=
  asserted c (match k with KElement e => id_loop c v (e_attrs e) | _ => Some false end).
(** grammar.hpp:351-397. Line 390 compares with the whole value of the attribute. *)
Fixpoint any {A : Type} (f : A -> option bool) (l : list A) : option bool :=
  match l with [] => Some false | x :: r => obind (f x) (fun b => if b then Some true else any f r) end.
Fixpoint class_loop (c : context) (n : list Z) (l : list attr) : option bool :=
  match l with
  | [] => Some false
  | a :: r =>
      obind (attr_name_is c a [0x63; 0x6C; 0x61; 0x73; 0x73]) (fun b =>
      if negb b then class_loop c n r
      else
        obind (if c_mode c =? 2 then lower (a_value a) else Some (a_value a)) (fun val =>
        obind (split_on_ws utf32 val) (fun v =>
        obind (any (fun s => if c_mode c =? 2 then same_ci s n else Some (eqb_str s val)) v) (fun b => if b then Some true else class_loop c n r))))
  end.
Definition match_class (n : list Z) (k : kind) (c : context) : option bool :=
  asserted c (match k with KElement e => class_loop c n (e_attrs e) | _ => Some false end).

(** grammar.hpp:709-758: whether the name of an attribute is the one looked for. *)
Definition attr_matches_name (c : context) (p : option (list Z)) (n : list Z) (a : attr) : option bool :=
  let ns :=
    match p with
    | Some q =>
        if eqb_str q [0x2A] then true
        else if eqb_str q [] then match a_ns a with [] => true | _ => false end
        else match find_ns (c_ns c) q with Some u => eqb_str u (a_ns a) | None => false end
    | None => match a_ns a with [] => true | _ => false end
    end in
  if ns then (if c_type c =? 1 then Some (eqb_str n (a_name a)) else same_ci n (a_name a)) else Some false.
(** grammar.hpp:706-760: the first such attribute. *)
Fixpoint find_attr (c : context) (p : option (list Z)) (n : list Z) (l : list attr) : option (option attr) :=
  match l with
  | [] => Some None
  | a :: r => obind (attr_matches_name c p n a) (fun b => if b then Some (Some a) else find_attr c p n r)
  end.
(** [std::u32string::find] (grammar.hpp:845): whether the second string is part of the first one. *)
Fixpoint begins (p s : list Z) : bool := match p, s with [], _ => true | x :: p, y :: s => (x =? y) && begins p s | _ :: _, [] => false end.
Fixpoint contains (p s : list Z) : bool := begins p s || match s with [] => false | _ :: s => contains p s end.
(** grammar.hpp:762-851. [std::equal] with four iterators on ranges of the same length is equality. *)
Definition attr_value_matches (m : Z) (v : list Z) (i : Z) (s : list Z) : option bool :=
  let ci := i =? 0x69 in
  let n := List.length v in
  let compare (a b : list Z) := if ci then same_ci a b else Some (eqb_str a b) in
  if m =? 0 then match v with [] => Some true | _ => None end
  else if m =? 0x3D then compare v s
  else if m =? 0x7E then
    obind (split_on_ws utf32 s) (any (fun w => obind (if ci then same_ci v w else Some false) (fun b => if b then Some true else Some (eqb_str v w))))
  else if m =? 0x7C then
    if Nat.ltb n (List.length s) then obind (compare v (firstn n s)) (fun b => Some (b && (nth n s 0 =? 0x2D))) else Some false
  else if m =? 0x5E then if Nat.leb n (List.length s) then compare v (firstn n s) else Some false
  else if m =? 0x24 then if Nat.ltb (List.length s) n then Some false else compare (rev v) (firstn n (rev s))
  else if m =? 0x2A then
    if ci then obind (lower s) (fun s => obind (lower v) (fun v => Some (contains v s))) else Some (contains v s)
  else Some false.
(** grammar.hpp:691-852 *)
Definition match_attr (a : attribute_sel) (k : kind) (c : context) : option bool :=
  asserted c
    (match k with
     | KElement e =>
         obind (find_attr c (at_prefix a) (at_name a) (e_attrs e)) (fun x =>
         match x with Some x => attr_value_matches (at_matcher a) (at_value a) (at_modifier a) (a_value x) | None => Some false end)
     | _ => Some false
     end).

(** "http://www.w3.org/1999/xhtml" and "html" *)
Definition html_ns : list Z :=
  [0x68; 0x74; 0x74; 0x70; 0x3A; 0x2F; 0x2F; 0x77; 0x77; 0x77; 0x2E; 0x77; 0x33; 0x2E; 0x6F; 0x72; 0x67; 0x2F; 0x31; 0x39; 0x39; 0x39; 0x2F; 0x78; 0x68; 0x74;
   0x6D; 0x6C].
Definition html_name : list Z := [0x68; 0x74; 0x6D; 0x6C].
(** simple_traits.hpp:119-122 and 298-301; the atoms that it compares stand for the strings (C31). *)
Definition is_root (k : kind) : bool := match k with KElement e => eqb_str (e_ns e) html_ns && eqb_str (e_name e) html_name | _ => false end.
(** grammar.hpp:512-535, tree_structural_pseudo_classes.hpp:30-35 *)
Definition match_pseudo_class (p : pseudo) (k : kind) (c : context) : option bool :=
  asserted c (Some (match p with PName _ id => if id =? 1 then is_root k else false | PFunction _ _ => false end)).
(** grammar.hpp:583-590 *)
Definition match_pseudo_element (p : pseudo) (k : kind) (c : context) : option bool := asserted c (Some false).
(** grammar.hpp:897-904 *)
Definition match_subclass (u : subclass) (k : kind) (c : context) : option bool :=
  asserted c (match u with SId v => match_id v k c | SClass n => match_class n k c | SAttr a => match_attr a k c | SPseudo p => match_pseudo_class p k c end).
(** grammar.hpp:966-1009. Lines 980-982 read the prefix of the universal selector through its [std::optional]; there need not be one. *)
Definition match_type (t : type_sel) (k : kind) (c : context) : option bool :=
  asserted c
    (match k with
     | KElement e =>
         obind (match t with TName p _ => Some p | TAny (Some p) => Some (Some p) | TAny None => None end) (fun opt =>
         let ns :=
           match opt with
           | Some q =>
               if eqb_str q [0x2A] then true
               else if eqb_str q [] then match e_ns e with [] => true | _ => false end
               else match find_ns (c_ns c) q with Some u => eqb_str u (e_ns e) | None => false end
           | None => match find_ns (c_ns c) [] with Some u => eqb_str u (e_ns e) | None => true end
           end in
         if negb ns then Some false
         else
           match t with
           | TAny _ => Some true
           | TName _ n => if c_type c =? 2 then same_ci n (e_name e) else Some (eqb_str n (e_name e))
           end)
     | _ => Some false
     end).
(** grammar.hpp:1040-1048 *)
Definition match_simple (s : simple_sel) (k : kind) (c : context) : option bool :=
  asserted c (match s with SimpleType t => match_type t k c | SimpleSub u => match_subclass u k c end).
Definition match_part (p : part) (k : kind) (c : context) : option bool :=
  match p with PType t => match_type t k c | PSub u => match_subclass u k c | PElement p => match_pseudo_element p k c | PClass p => match_pseudo_class p k c end.
(** grammar.hpp:1094-1107 *)
Fixpoint all_parts (l : compound) (k : kind) (c : context) : option bool :=
  match l with [] => Some true | p :: r => obind (match_part p k c) (fun b => if b then all_parts r k c else Some false) end.
Definition match_compound (l : compound) (k : kind) (c : context) : option bool := asserted c (all_parts l k c).

(** grammar.hpp:1179-1182: [f] on the ancestors, from [p] up. *)
Fixpoint up (f : pointer -> option bool) (p : pointer) : option bool :=
  match p with [] => Some false | _ :: q => obind (f p) (fun b => if b then Some true else up f q) end.
(** grammar.hpp:1196-1200 and 1209-1213: the siblings before the [i]th child of [q], backwards; [once] is for the combinator that only takes the
    nearest element. *)
Fixpoint back (F : forest) (once : bool) (f : pointer -> option bool) (q : pointer) (i : nat) : option bool :=
  match i with
  | O => Some false
  | S i =>
      let p := i :: q in
      obind (kind_at F p) (fun k =>
      match k with
      | KElement _ => if once then f p else obind (f p) (fun b => if b then Some true else back F once f q i)
      | _ => back F once f q i
      end)
  end.
(** grammar.hpp:1157-1220, from the last compound selector to the first one: the list is in reverse. *)
Fixpoint match_reverse (F : forest) (c : context) (l : list item) (p : pointer) : option bool :=
  match l with
  | Comp cs :: l' =>
      obind (obind (kind_at F p) (fun k => match_compound cs k c)) (fun b =>
      if negb b then Some false
      else
        let step (k : Z) (next : pointer -> option bool) :=
          if k =? 0x20 then up next (parent p)
          else if k =? 0x3E then match parent p with [] => Some false | q => next q end
          else if k =? 0x2B then match p with i :: q => match q with [] => Some false | _ => back F true next q i end | [] => Some false end
          else if k =? 0x7E then match p with i :: q => match q with [] => Some false | _ => back F false next q i end | [] => Some false end
          else Some false in
        match l' with
        | [] => Some true
        | Comb k :: l'' => step k (match_reverse F c l'')
        | _ => step 0x20 (match_reverse F c l')
        end)
  | _ => None
  end.
(** grammar.hpp:1233-1239 *)
Definition match_complex (F : forest) (c : context) (s : complex) (p : pointer) : option bool := asserted c (match_reverse F c (rev s) p).
(** grammar.hpp:1465-1476 and 1540-1547 *)
Definition match_list (F : forest) (c : context) (l : list complex) (p : pointer) : option bool := asserted c (any (fun s => match_complex F c s p) l).

(** * Queries *)

(** api.hpp:142-150 *)
Fixpoint document_of (F : forest) (p : pointer) : option (Z * Z) :=
  match p with
  | [] => Some (0, 0)
  | _ :: q => obind (kind_at F p) (fun k => match k with KDocument t m => Some (t, m) | _ => document_of F q end)
  end.
(** api.hpp:165-177 *)
Fixpoint below (root p : pointer) : bool :=
  match p with [] => false | _ :: q => if list_eq_dec Nat.eq_dec p root then true else below root q end.
(** tree_iterator.hpp:32-42 and 208-214: what is left of the traversal, and its next state. *)
Definition children (F : forest) (p : pointer) : list pointer :=
  match at_ F p with Some t => map (fun i => i :: p) (seq 0 (List.length (t_children t))) | None => [] end.
(** api.hpp:159-191 for the one tree that is traversed. *)
Fixpoint match_loop (fuel : nat) (F : forest) (c : context) (l : list complex) (root : pointer) (stack : list pointer) (out : list pointer) : outcome (list pointer) :=
  match stack with
  | [] => Val out
  | p :: r =>
      match fuel with
      | O => NoFuel
      | S n =>
          pbind (popt (match root with [] => match_list F c l p | _ => if below root (parent p) then match_list F c l p else Some false end)) (fun b =>
          match_loop n F c l root (children F p ++ r) (if b then out ++ [p] else out))
      end
  end.
(** api.hpp:109-192 with the arguments that infrastructure.hpp:105 gives it: one tree, from [first], and the scoping root. *)
Definition match_selector (fuel : nat) (F : forest) (m : namespaces) (l : list complex) (first root : pointer) : outcome (list pointer) :=
  pbind (popt (document_of F first)) (fun '(t, d) => match_loop fuel F (Context t d m) l root [first] []).
(** infrastructure.hpp:83-98 *)
Fixpoint root_of (F : forest) (p : pointer) : option pointer :=
  match p with
  | [] => Some []
  | _ :: q => obind (kind_at F p) (fun k => if is_root k then Some p else root_of F q)
  end.
Definition tree_root (F : forest) (p : pointer) : option pointer :=
  obind (kind_at F p) (fun k => match k with KDocument _ _ => Some p | _ => root_of F p end).
(** infrastructure.hpp:75-106 and selector.hpp:50-55; [traits::next] of the null pointer asserts (tree.hpp:131-133). *)
Definition query_selector_all (fuel n : nat) (F : forest) (p : pointer) (src : list Z) : outcome (list pointer) :=
  pbind (popt (tree_root F p)) (fun r =>
  pbind (parse_selector fuel [] src) (fun l => match r with [] => Bad | _ => match_selector n F [] l r p end)).
(** selector.hpp:86-92; [front] of an empty vector is undefined. *)
Definition query_selector (fuel n : nat) (F : forest) (p : pointer) (src : list Z) : outcome pointer :=
  pbind (query_selector_all fuel n F p src) (fun v => match v with [] => Bad | p :: _ => Val p end).
