(** Atoms of HTML, attributes and elements of the simple tree (include/wordring/whatwg/html/html_atom.hpp,
    include/wordring/html/simple_node.hpp).  Definitions only.
    Simplified: strings are of type std::u32string, for which encoding_cast is a copy; a number that is no enumerator and
    lies behind the table is [Bad]. *)
From Coq Require Import ZArith List Bool String.
From Verif Require Import M_infra M_encoding M_labels M_html_serialize M_dom M_atom_tbl.
Import ListNotations.
Open Scope Z_scope.
Open Scope dom_scope.

(** html_atom.hpp:75-90 and 114-116: which tables belong to the type of names *)
Record tables := Tables { t_numbers : list (string * Z); t_strings : list string }.
Definition tags : tables := Tables tag_atom_tbl tag_name_tbl.
Definition attributes : tables := Tables attribute_atom_tbl attribute_name_tbl.
Definition namespaces : tables := Tables ns_uri_atom_tbl ns_uri_tbl.

(** html_atom.hpp:124-125, the members *)
Record atom := Atom { m_string : list Z; m_i : Z }.
(** 65-69 *)
Definition atom_empty : atom := Atom [] 0.
(** 71-92; the tables are of type std::unordered_map: at most one entry for a name, which find yields *)
Definition atom_of_string (T : tables) (s : list Z) : atom :=
  Atom s (match find (fun p => same_str (lit (fst p)) s) (t_numbers T) with Some p => snd p | None => 0 end).
(** 94-98 *)
Definition atom_of_number (i : Z) : atom := Atom [] i.
(** 105-119 *)
Definition atom_string (T : tables) (a : atom) : outcome (list Z) :=
  match m_string a with
  | [] => if m_i a <? 0 then Bad else match nth_error (t_strings T) (Z.to_nat (m_i a)) with Some s => Val (lit s) | None => Bad end
  | s => Val s
  end.
(** 121 *)
Definition atom_number (a : atom) : Z := m_i a.
(** 128-133 *)
Definition atom_eq (T : tables) (a b : atom) : outcome bool :=
  if negb (m_i a =? 0) && negb (m_i b =? 0) then Val (m_i a =? m_i b)
  else run s <- atom_string T a; run t <- atom_string T b; Val (same_str s t).
(** 135-157 *)
Definition atom_eq_number (T : tables) (a : atom) (i : Z) : outcome bool := atom_eq T a (atom_of_number i).
Definition atom_eq_string (T : tables) (a : atom) (s : list Z) : outcome bool := atom_eq T a (atom_of_string T s).

(** simple_node.hpp:153-157, the members of simple_attr *)
Record sattr := SAttr { sa_ns : atom; sa_prefix : list Z; sa_name : atom; sa_value : list Z }.
(** 80-114: the constructors with a namespace, the name being a number or a string, and those without *)
Definition attr_ns_number (ns : Z) (prefix : list Z) (name : Z) (v : list Z) : sattr := SAttr (atom_of_number ns) prefix (atom_of_number name) v.
Definition attr_ns_string (ns : Z) (prefix name v : list Z) : sattr := SAttr (atom_of_number ns) prefix (atom_of_string attributes name) v.
Definition attr_number (name : Z) (v : list Z) : sattr := attr_ns_number 0 [] name v.
Definition attr_string (name v : list Z) : sattr := attr_ns_string 0 [] name v.
(** 168-173 *)
Definition attr_eq (a b : sattr) : outcome bool :=
  run n <- atom_eq namespaces (sa_ns a) (sa_ns b);
  if negb n then Val false else
  if negb (same_str (sa_prefix a) (sa_prefix b)) then Val false else
  atom_eq attributes (sa_name a) (sa_name b).

(** std::find: the position of the first one *)
Fixpoint find_attr (l : list sattr) (a : sattr) : outcome (option nat) :=
  match l with
  | [] => Val None
  | x :: r => run b <- attr_eq x a;
              if b : bool then Val (Some O) else run k <- find_attr r a; Val (match k with Some i => Some (S i) | None => None end)
  end.
(** 554-558, the members of simple_element; 425-470 *)
Record selement := SElement { se_ns : atom; se_prefix : list Z; se_name : atom; se_attrs : list sattr }.
(** 507 *)
Definition push_attr (a : sattr) (e : selement) : selement := SElement (se_ns e) (se_prefix e) (se_name e) (se_attrs e ++ [a]).
(** 519-552 *)
Definition element_find (e : selement) (a : sattr) : outcome (option nat) := find_attr (se_attrs e) a.
Definition element_find_ns (e : selement) (ns : Z) (prefix name : list Z) : outcome (option nat) := find_attr (se_attrs e) (attr_ns_string ns prefix name []).
Definition element_find_ns_number (e : selement) (ns : Z) (prefix : list Z) (name : Z) : outcome (option nat) := find_attr (se_attrs e) (attr_ns_number ns prefix name []).
Definition element_find_string (e : selement) (name : list Z) : outcome (option nat) := element_find_ns e 0 [] name.
Definition element_find_number (e : selement) (name : Z) : outcome (option nat) := element_find_ns_number e 0 [] name.
(** 566-578 *)
Fixpoint all_found (l : list sattr) (r : list sattr) : outcome bool :=
  match l with
  | [] => Val true
  | a :: l' => run k <- find_attr r a; match k with None => Val false | Some _ => all_found l' r end
  end.
Definition element_eq (a b : selement) : outcome bool :=
  if negb (List.length (se_attrs a) =? List.length (se_attrs b))%nat then Val false else all_found (se_attrs a) (se_attrs b).
