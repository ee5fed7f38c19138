(** The table of the repository against the list of the standard: the computations. *)
From Coq Require Import ZArith List Bool Lia FMapPositive.
From Verif Require Import M_trie M_html_table M_html_ncr L_html_names L_html_ncr.
Import ListNotations.
Open Scope Z_scope.

Definition hm : PositiveMap.t (Z * Z) := fastt ncr_heap.
Definition mm : PositiveMap.t (Z * Z) := fastt ncr_map.
Definition nm : PositiveMap.t (list Z * list Z) := fastt standard_names.
Definition lim : Z := 33148.

Fixpoint wwalk (nd : Z -> option (Z * Z)) (p : Z) (cs : list Z) : option Z :=
  match cs with
  | [] => Some p
  | c :: r => match wide_step nd 4 c p with
              | None => None
              | Some i => if i =? 0 then Some 0 else wwalk nd i r
              end
  end.
Definition codes (m : PositiveMap.t (Z * Z)) (v : Z) : option (list Z) :=
  match gett m v with Some (x, y) => Some (x :: if y =? 0 then [] else [y]) | None => None end.

Fixpoint eqz (a b : list Z) : bool :=
  match a, b with [], [] => true | x :: r, y :: s => (x =? y) && eqz r s | _, _ => false end.
Lemma eqz_eq a : forall b, eqz a b = true -> a = b.
Proof.
  induction a as [|x a IH]; intros [|y b] H; try reflexivity; try discriminate. cbn in H. apply andb_true_iff in H as [A B].
  f_equal; [lia|auto].
Qed.

(** each name of the standard is in the table, with its code points *)
Definition name_ok (h m : PositiveMap.t (Z * Z)) (e : list Z * list Z) : bool :=
  let (name, cps) := e in
  match wwalk (gett h) 1 name with
  | None => false
  | Some i =>
      negb (i =? 0) && match at_end (gett h) lim i with Some b => b | None => false end &&
      match leaf_value (gett h) i with
      | None => false
      | Some v => match codes m v with Some l => eqz l cps | None => false end
      end &&
      negb (eqz name []) && (length name <=? 32)%nat && forallb (fun c => (0 <=? c) && (c <? 0x80)) name &&
      (if last name 0 =? 0x3B then match gett h i with Some (b, _) => b <=? 0 | None => false end else true)
  end.

(** the nodes on the way to a name, with their depth in bytes *)
Fixpoint trace (h : PositiveMap.t (Z * Z)) (bs : list Z) (p d : Z) (R : PositiveMap.t Z) : PositiveMap.t Z * Z :=
  match bs with
  | [] => (R, p)
  | b :: r => match byte_step (gett h) p b with
              | Some i => trace h r i (d + 1) (PositiveMap.add (Z.to_pos (i + 1)) (d + 1) R)
              | None => (R, p)
              end
  end.
Fixpoint marks (h : PositiveMap.t (Z * Z)) (l : list (list Z * list Z)) (k : Z) (R : PositiveMap.t Z) (T : PositiveMap.t Z)
  : PositiveMap.t Z * PositiveMap.t Z :=
  match l with
  | [] => (R, T)
  | (name, _) :: r =>
      let '(R1, i) := trace h (flat_map bytes_of name) 1 0 R in
      marks h r (k + 1) R1 (PositiveMap.add (Z.to_pos (i + 1)) k T)
  end.
Definition node_ok (h m : PositiveMap.t (Z * Z)) (n : PositiveMap.t (list Z * list Z)) (R T : PositiveMap.t Z) (i : Z) (e : Z * Z) : bool :=
  let (_, p) := e in
  (if 1 <=? p then
     match gett R p, gett h p with
     | Some d, Some (b, _) =>
         if (0 <? b) && (b <=? i) && (i <? b + 256) then match gett R i with Some d1 => d1 =? d + 1 | None => false end else true
     | _, _ => true
     end
   else true) &&
  match gett R i with
  | None => true
  | Some d =>
      (d <=? 128) &&
      match at_end (gett h) lim i with
      | None => false
      | Some false => true
      | Some true =>
          if (d mod 4 =? 0) then
            match gett T i with
            | None => false
            | Some k =>
                match gett n k with
                | None => false
                | Some (name, cps) =>
                    match wwalk (gett h) 1 name with Some j => j =? i | None => false end &&
                    match leaf_value (gett h) i with
                    | None => false
                    | Some v => match codes m v with Some l => eqz l cps | None => false end
                    end
                end
            end
          else true
      end
  end.
Fixpoint nodes_ok (h m : PositiveMap.t (Z * Z)) n (R T : PositiveMap.t Z) (i : Z) (l : list (Z * Z)) : bool :=
  match l with [] => true | e :: r => node_ok h m n R T i e && nodes_ok h m n R T (i + 1) r end.

Definition all_names : bool := let h := hm in let m := mm in forallb (name_ok h m) standard_names.
Definition RT : PositiveMap.t Z * PositiveMap.t Z := marks hm standard_names 0 (PositiveMap.add 2%positive 0 (PositiveMap.empty Z)) (PositiveMap.empty Z).
Definition all_nodes : bool :=
  let h := hm in let m := mm in let n := nm in let '(R, T) := RT in
  match gett R 1 with Some 0 => nodes_ok h m n R T 0 ncr_heap | _ => false end.

Lemma all_names_ok : all_names = true.
Proof. vm_compute. reflexivity. Qed.
Lemma all_nodes_ok : all_nodes = true.
Proof. vm_compute. reflexivity. Qed.
Lemma lim_ok : limit ncr_heap = lim.
Proof. vm_compute. reflexivity. Qed.
