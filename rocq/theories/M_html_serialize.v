(** Model of the HTML serialiser, include/wordring/whatwg/html/parsing/serializing.hpp and syntax/syntax.hpp.
    Strings are lists of code points: the conversions encoding_cast and to_string(cp, out) between UTF forms, and
    to_code_point in escape_string, are left out (they are modelled in M_unicode.v). Names with an entry in the atom
    tables are compared as strings. *)
From Coq Require Import ZArith List Bool String.
From Verif Require Import M_infra M_encoding M_labels.
Import ListNotations.
Open Scope Z_scope.

(** atom_defs.hpp:8-16, enum class ns_name; 0 is an unknown name *)
Definition ns_HTML : Z := 1.
Definition ns_MathML : Z := 2.
Definition ns_SVG : Z := 3.
Definition ns_XLink : Z := 4.
Definition ns_XML : Z := 5.
Definition ns_XMLNS : Z := 6.

(** simple_node.hpp:21-155, simple_attr *)
Record attr := Attr { at_ns : Z; at_prefix : list Z; at_local : list Z; at_value : list Z }.

(** simple_node.hpp:835-880: the alternatives of simple_node's variant, with their children in the tree. Document and
    DocumentFragment are one constructor: the serialiser treats them alike. *)
Inductive node :=
| NElement (ns : Z) (prefix local : list Z) (attrs : list attr) (children : list node)
| NText (data : list Z)
| NInstruction (target data : list Z)
| NComment (data : list Z)
| NDoctype (name : list Z)
| NDocument (children : list node).

(** tree.hpp begin() and end() of a node *)
Definition children (n : node) : list node :=
  match n with NElement _ _ _ _ l => l | NDocument l => l | _ => [] end.

Fixpoint same_str (a b : list Z) : bool :=
  match a, b with
  | [], [] => true
  | x :: a, y :: b => (x =? y) && same_str a b
  | _, _ => false
  end.
Definition one_of (s : list Z) (l : list string) : bool := existsb (fun x => same_str s (lit x)) l.

(** syntax.hpp:7-28 *)
Definition is_void_element (n : node) : bool :=
  match n with
  | NElement ns _ local _ _ =>
      (ns =? ns_HTML) && one_of local
        ["area"; "base"; "br"; "col"; "embed"; "hr"; "img"; "input"; "link"; "meta"; "param"; "source"; "track"; "wbr"]%string
  | _ => false
  end.

(** serializing.hpp:19-38 *)
Definition serializes_as_void (n : node) : bool :=
  is_void_element n ||
  match n with
  | NElement ns _ local _ _ => (ns =? ns_HTML) && one_of local ["basefont"; "bgsound"; "frame"; "keygen"]%string
  | _ => false
  end.

(** simple_node.hpp:139-146 (attributes) and 497-504 (elements) *)
Definition qualified_name (prefix local : list Z) : list Z :=
  match prefix with [] => local | _ => prefix ++ 0x3A :: local end.

(** serializing.hpp:43-58; the name of a node that is no element is an assert (simple_node.hpp:891-928) *)
Definition get_tag_name (n : node) : option (list Z) :=
  match n with
  | NElement ns prefix local _ _ =>
      Some (if (ns =? ns_HTML) || (ns =? ns_MathML) || (ns =? ns_SVG) then local else qualified_name prefix local)
  | _ => None
  end.

(** serializing.hpp:60-95 *)
Definition get_attributes_serialized_name (a : attr) : list Z :=
  if at_ns a =? 0 then at_local a
  else if at_ns a =? ns_XML then lit "xml:" ++ at_local a
  else if at_ns a =? ns_XMLNS then
    (if same_str (at_local a) (lit "xmlns") then lit "xmlns" else lit "xmlns:" ++ at_local a)
  else if at_ns a =? ns_XLink then lit "xlink:" ++ at_local a
  else qualified_name (at_prefix a) (at_local a).

(** serializing.hpp:97-147 *)
Definition escape_code_point (attr_mode : bool) (cp : Z) : list Z :=
  if attr_mode then
    if cp =? 0x26 then lit "&amp;"
    else if cp =? 0xA0 then lit "&nbsp;"
    else if cp =? 0x22 then lit "&quot;"
    else [cp]
  else
    if cp =? 0x26 then lit "&amp;"
    else if cp =? 0xA0 then lit "&nbsp;"
    else if cp =? 0x3C then lit "&lt;"
    else if cp =? 0x3E then lit "&gt;"
    else [cp].
Definition escape_string (s : list Z) (attr_mode : bool) : list Z := flat_map (escape_code_point attr_mode) s.

(** A node pointer: the place in the tree (child numbers, the last one first), the parent and the node itself. *)
Record pointer := Pointer { p_path : list nat; p_parent : node; p_node : node }.

(** An entry of the parent stack x (serializing.hpp:161): place and node *)
Definition open_node := (list nat * node)%type.

Fixpoint same_path (a b : list nat) : bool :=
  match a, b with
  | [], [] => true
  | x :: a, y :: b => (x =? y)%nat && same_path a b
  | _, _ => false
  end.

(** the children of a node, from begin() to end() *)
Fixpoint pointers_from (i : nat) (path : list nat) (parent : node) (l : list node) : list pointer :=
  match l with
  | [] => []
  | n :: r => Pointer (i :: path) parent n :: pointers_from (S i) path parent r
  end.

(** deque::insert(pos, v): the result points to the new value, so pos keeps its index *)
Definition insert_at {A} (pos : nat) (v : A) (y : list A) : list A := firstn pos y ++ v :: skipn pos y.
(** serializing.hpp:165-168 and 192-195; [y] from front to back *)
Definition push_children (path : list nat) (n : node) (y : list pointer) : list pointer :=
  let pos := List.length y in
  fold_left (fun y c => insert_at pos c y) (pointers_from 0 path n (children n)) y.

(** serializing.hpp:181-183, 269-271 *)
Definition end_tag (n : node) : option (list Z) :=
  if serializes_as_void n then Some []
  else match get_tag_name n with Some s => Some (lit "</" ++ s ++ lit ">") | None => None end.

(** serializing.hpp:177-186: the parent stack, back first; [None] is back() of an empty deque, or an assert *)
Fixpoint close_to (p : list nat) (x : list open_node) : option (list Z * list open_node) :=
  match x with
  | [] => None
  | (q, n) :: r =>
      if same_path q p then Some ([], x)
      else match end_tag n, close_to p r with
           | Some e, Some (o, x1) => Some (e ++ o, x1)
           | _, _ => None
           end
  end.

(** serializing.hpp:203-213 *)
Definition attributes_text (l : list attr) : list Z :=
  flat_map (fun a => 0x20 :: get_attributes_serialized_name a ++ 0x3D :: 0x22 :: escape_string (at_value a) true ++ [0x22]) l.

(** serializing.hpp:198-260: what is written for the node itself; [None] is the assert in namespace_uri_name() when the
    parent of a text is no element *)
Definition node_text (parent n : node) : option (list Z) :=
  match n with
  | NElement _ _ _ attrs _ =>
      match get_tag_name n with
      | Some s => Some (0x3C :: s ++ attributes_text attrs ++ [0x3E])
      | None => None
      end
  | NText data =>
      match parent with
      | NElement ns _ local _ _ =>
          if (ns =? ns_HTML) &&
             one_of local ["style"; "script"; "xmp"; "iframe"; "noembed"; "noframes"; "plaintext"]%string
          then Some data else Some (escape_string data false)
      | _ => None
      end
  | NComment data => Some (lit "<!--" ++ data ++ lit "-->")
  | NInstruction target data => Some (lit "<?" ++ target ++ 0x20 :: data ++ lit ">")
  | NDoctype name => Some (lit "<!DOCTYPE " ++ name ++ lit ">")
  | NDocument _ => Some []
  end.

Definition is_element (n : node) : bool := match n with NElement _ _ _ _ _ => true | _ => false end.

(** serializing.hpp:263-275 *)
Fixpoint close_all (x : list open_node) : option (list Z) :=
  match x with
  | [] => Some []
  | (_, n) :: r =>
      match r with
      | [] => Some []
      | _ :: _ =>
          match end_tag n, close_all r with
          | Some e, Some o => Some (e ++ o)
          | _, _ => None
          end
      end
  end.

(** serializing.hpp:170-275: the loop and what follows it *)
Fixpoint serialize_loop (fuel : nat) (x : list open_node) (y : list pointer) (out : list Z) : outcome (list Z) :=
  match fuel with
  | O => NoFuel
  | S f =>
      match y with
      | [] => match close_all x with Some o => Val (out ++ o) | None => Bad end
      | p0 :: _ =>
          let cur := last y p0 in
          let y1 := removelast y in
          match close_to (tl (p_path cur)) x with
          | None => Bad
          | Some (o, x1) =>
              let n := p_node cur in
              match node_text (p_parent cur) n with
              | None => Bad
              | Some s =>
                  if is_element n then
                    serialize_loop f ((p_path cur, n) :: x1) (push_children (p_path cur) n y1) (out ++ o ++ s)
                  else serialize_loop f x1 y1 (out ++ o ++ s)
              end
          end
      end
  end.

(** serializing.hpp:150-168 *)
Definition to_string (fuel : nat) (n : node) : outcome (list Z) :=
  if serializes_as_void n then Val []
  else serialize_loop fuel [([], n)] (push_children [] n []) [].
