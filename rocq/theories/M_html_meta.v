(** Model of extract_character_encoding_from_meta_element, include/wordring/whatwg/html/url.hpp:39-76.
    A u32string is a list of code points; a position is the list from it to the end. *)
From Coq Require Import ZArith List Bool String.
From Verif Require Import M_unicode M_infra M_encoding M_labels.
Import ListNotations.
Open Scope Z_scope.

(** std::search (url.hpp:49) for sv, and position += sv.size() (50): the rest after the first match, [None] is end() *)
Fixpoint match_front (sv s : list Z) : option (list Z) :=
  match sv, s with
  | [], _ => Some s
  | x :: sv, y :: s => if x =? y then match_front sv s else None
  | _ :: _, [] => None
  end.
Fixpoint search_after (sv s : list Z) : option (list Z) :=
  match match_front sv s with
  | Some r => Some r
  | None => match s with [] => None | _ :: s => search_after sv s end
  end.

(** std::find (url.hpp:63) and std::find_if (69): the part before the first hit, and the rest from it *)
Fixpoint split_at (p : Z -> bool) (s : list Z) : list Z * list Z :=
  match s with
  | [] => ([], [])
  | c :: r => if p c then ([], s) else let (a, b) := split_at p r in (c :: a, b)
  end.

(** get_encoding_name of a u32string (M_labels); [None] is undefined behaviour, [Some None] is encoding_name 0 *)
Definition lookup (label : list Z) : outcome (option encoding_name) :=
  match get_encoding_name label with None => Bad | Some r => Val r end.

(** url.hpp:47-75, from the label Loop *)
Fixpoint meta_loop (fuel : nat) (position : list Z) : outcome (option encoding_name) :=
  match fuel with
  | O => NoFuel
  | S f =>
      match search_after (lit "charset") position with
      | None => Val None
      | Some p1 =>
          match skip_ws utf32 p1 with
          | None => Bad
          | Some [] => meta_loop f []
          | Some (c :: p2) =>
              if negb (c =? 0x3D) then meta_loop f (c :: p2)
              else match skip_ws utf32 p2 with
                   | None => Bad
                   | Some [] => Val None
                   | Some (q :: p3) =>
                       if (q =? 0x22) || (q =? 0x27) then
                         match split_at (fun c => c =? q) p3 with
                         | (_, []) => Val None
                         | (label, _ :: _) => lookup label
                         end
                       else lookup (fst (split_at (fun c => (c =? 0x3B) || is_ascii_white_space c) (q :: p3)))
                   end
          end
      end
  end.

(** url.hpp:39-46 *)
Definition extract_from_meta (fuel : nat) (s : list Z) : outcome (option encoding_name) :=
  match to_ascii_lowercase utf32 utf32 s with
  | None => Bad
  | Some s1 => meta_loop fuel s1
  end.
