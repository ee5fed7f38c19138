(** The record of every text, by cutting the text at its delimiters; and that the parser of M_url computes it. *)
From Coq Require Import String.
From Coq Require Import ZArith List Bool Lia.
From Verif Require Import M_unicode M_infra M_percent M_ip M_encoding M_labels M_url.
From Verif Require Import L_unicode L_url L_url2 L_url3 L_url4 L_url5 L_url6 L_url7 L_url8 L_url13.
Import ListNotations.
Open Scope string_scope.
Open Scope list_scope.
Open Scope Z_scope.

(** * Cutting *)

(** Before, and from, the first code point of which [f] holds. *)
Fixpoint cut (f : Z -> bool) (t : list Z) : list Z * list Z :=
  match t with
  | [] => ([], [])
  | c :: r => if f c then ([], t) else (c :: fst (cut f r), snd (cut f r))
  end.
Definition after_mark (t : list Z) : option (list Z) := match t with [] => None | _ :: r => Some r end.
(** Path, query and fragment. *)
Definition tail_parts (t : list Z) : list Z * option (list Z) * option (list Z) :=
  let (y, f) := cut (fun c => c =? 0x23) t in
  let (b, q) := cut (fun c => c =? 0x3F) y in
  (b, after_mark q, after_mark f).
(** Before and after the last at sign. *)
Fixpoint last_at (t : list Z) : option (list Z * list Z) :=
  match t with
  | [] => None
  | c :: r => match last_at r with
              | Some (x, y) => Some (c :: x, y)
              | None => if c =? 0x40 then Some ([], r) else None
              end
  end.
(** Before and after the first colon that is not between brackets. *)
Fixpoint port_cut (br : bool) (t : list Z) : list Z * option (list Z) :=
  match t with
  | [] => ([], None)
  | c :: r => if (c =? 0x3A) && negb br then ([], Some r)
              else let (h, d) := port_cut (if c =? 0x5D then false else if c =? 0x5B then true else br) r in (c :: h, d)
  end.
(** A scheme and what follows its colon. *)
Definition scheme_cut (w : list Z) : option (list Z * list Z) :=
  match w with
  | c :: r => if is_ascii_alpha c then
                let (x, y) := cut (fun c => negb (scheme_char c)) r in
                match y with d :: t => if d =? 0x3A then Some (c :: x, t) else None | [] => None end
              else None
  | [] => None
  end.
Fixpoint drop_slashes (t : list Z) : list Z := match t with c :: r => if is_slash c then drop_slashes r else t | [] => [] end.

Lemma cut_app f t : t = fst (cut f t) ++ snd (cut f t).
Proof. induction t as [|c t IH]; [reflexivity|]. cbn [cut]. destruct (f c); [reflexivity|]. cbn [fst snd app]. now rewrite <- IH. Qed.
Lemma cut_before f t : Forall (fun c => f c = false) (fst (cut f t)).
Proof. induction t as [|c t IH]; [constructor|]. cbn [cut]. destruct (f c) eqn:E; [constructor|]. cbn [fst]. now constructor. Qed.
Lemma cut_after f t : snd (cut f t) = [] \/ exists c r, snd (cut f t) = c :: r /\ f c = true.
Proof. induction t as [|c t IH]; [now left|]. cbn [cut]. destruct (f c) eqn:E; [right; exists c, t; auto|]. exact IH. Qed.
Lemma not_in_cut x t : ~ In x (fst (cut (fun c => c =? x) t)).
Proof. intros H. pose proof (cut_before (fun c => c =? x) t) as F. rewrite Forall_forall in F. specialize (F x H). cbv beta in F. lia. Qed.
Lemma not_in_app {A} (x : A) a b : ~ In x (a ++ b) -> ~ In x a /\ ~ In x b.
Proof. intros H. split; intros I; apply H, in_or_app; auto. Qed.
Lemma tail_parts_ok t b oq of : tail_parts t = (b, oq, of) -> t = b ++ qtext oq ++ ftext of /\ ~ In 0x3F b /\ ~ In 0x23 b /\ match oq with Some q => ~ In 0x23 q | None => True end.
Proof.
  unfold tail_parts. pose proof (cut_app (fun c => c =? 0x23) t) as E1. pose proof (not_in_cut 0x23 t) as N1. pose proof (cut_after (fun c => c =? 0x23) t) as A1.
  destruct (cut (fun c => c =? 0x23) t) as [y f]. cbn [fst snd] in *.
  pose proof (cut_app (fun c => c =? 0x3F) y) as E2. pose proof (not_in_cut 0x3F y) as N2. pose proof (cut_after (fun c => c =? 0x3F) y) as A2.
  destruct (cut (fun c => c =? 0x3F) y) as [b0 q]. cbn [fst snd] in *. intros H. injection H as <- <- <-.
  assert (F : ftext (after_mark f) = f) by (destruct A1 as [->|(c & r & -> & C)]; [reflexivity|]; cbn [after_mark ftext]; f_equal; lia).
  assert (Q : qtext (after_mark q) = q) by (destruct A2 as [->|(c & r & -> & C)]; [reflexivity|]; cbn [after_mark qtext]; f_equal; lia).
  rewrite E2 in N1. apply not_in_app in N1 as [N3 N4]. rewrite F, Q. split; [rewrite E1, E2, <- app_assoc; reflexivity|]. split; [exact N2|]. split; [exact N3|].
  destruct q as [|c q]; cbn [after_mark]; [exact I|]. intros X. apply N4. now right.
Qed.
Lemma last_at_none t : last_at t = None -> ~ In 0x40 t.
Proof.
  induction t as [|c t IH]; [intros _ []|]. cbn [last_at]. destruct (last_at t) as [[x y]|]; [discriminate|]. destruct (c =? 0x40) eqn:E; [discriminate|].
  intros _ [H|H]; [lia|]. now apply IH.
Qed.
Lemma last_at_some t x y : last_at t = Some (x, y) -> t = x ++ 0x40 :: y /\ ~ In 0x40 y.
Proof.
  revert x y. induction t as [|c t IH]; intros x y; [discriminate|]. cbn [last_at]. destruct (last_at t) as [[x' y']|] eqn:E.
  - intros H. injection H as <- <-. destruct (IH x' y' eq_refl) as [-> N]. auto.
  - destruct (c =? 0x40) eqn:C; [|discriminate]. intros H. injection H as <- <-. split; [cbn [app]; f_equal; lia|]. now apply last_at_none.
Qed.
Lemma port_cut_ok t : forall br h od, port_cut br t = (h, od) -> t = h ++ ptext od /\ colon_free br h /\ (od <> None -> in_brackets br h = false).
Proof.
  induction t as [|c t IH]; intros br h od; cbn [port_cut].
  - intros H. injection H as <- <-. repeat split. congruence.
  - destruct ((c =? 0x3A) && negb br) eqn:E.
    + intros H. injection H as <- <-. apply andb_prop in E as [E1 E2]. apply negb_true_iff in E2. cbn [app ptext colon_free in_brackets]. split; [f_equal; lia|]. auto.
    + destruct (port_cut _ t) as [h' d'] eqn:P. intros H. injection H as <- <-. destruct (IH _ _ _ P) as (-> & C & B). split; [reflexivity|]. cbn [colon_free in_brackets]. split; [split; [|exact C]|exact B].
      intros ->. change (0x3A =? 0x3A) with true in E. destruct br; [reflexivity|discriminate E].
Qed.
Lemma scheme_cut_some w sc t : scheme_cut w = Some (sc, t) -> w = sc ++ 0x3A :: t /\ scheme_text sc.
Proof.
  unfold scheme_cut. destruct w as [|c r]; [discriminate|]. destruct (is_ascii_alpha c) eqn:A; [|discriminate].
  pose proof (cut_app (fun c => negb (scheme_char c)) r) as E. pose proof (cut_before (fun c => negb (scheme_char c)) r) as F.
  destruct (cut (fun c => negb (scheme_char c)) r) as [x y]. cbn [fst snd] in *. destruct y as [|d y]; [discriminate|]. destruct (d =? 0x3A) eqn:D; [|discriminate].
  intros H. injection H as <- <-. split; [rewrite E; cbn [app]; do 2 f_equal; f_equal; lia|]. split; [exact A|]. revert F. apply Forall_impl. intros z Z0. now apply negb_false_iff.
Qed.
Lemma scheme_cut_none w : scheme_cut w = None -> no_scheme w.
Proof.
  intros H sc t E S. destruct sc as [|c sc]; [destruct S|]. destruct S as [A F]. subst w. cbn [app scheme_cut] in H. rewrite A in H.
  assert (C : cut (fun c => negb (scheme_char c)) (sc ++ 0x3A :: t) = (sc, 0x3A :: t)).
  { clear H. induction F as [|x sc Fx F IH]; [reflexivity|]. cbn [app cut]. rewrite Fx. cbn [negb]. now rewrite IH. }
  rewrite C in H. discriminate H.
Qed.
Lemma drop_slashes_ok t : exists sl, t = sl ++ drop_slashes t /\ Forall (fun c => is_slash c = true) sl /\ match drop_slashes t with c :: _ => is_slash c = false | [] => True end.
Proof.
  induction t as [|c t (sl & E & F & N)]; [exists []; repeat split; constructor|]. cbn [drop_slashes]. destruct (is_slash c) eqn:S.
  - exists (c :: sl). rewrite E at 1. repeat split; auto.
  - exists []. repeat split; auto.
Qed.

(** * The record *)

Definition special_of (sc : list Z) : bool := existsb (eqs sc) [lit "ftp"; lit "file"; lit "http"; lit "https"; lit "ws"; lit "wss"].
Definition usual_port (sc : list Z) : option Z :=
  if eqs sc (lit "ftp") then Some 21
  else if eqs sc (lit "http") || eqs sc (lit "ws") then Some 80
  else if eqs sc (lit "https") || eqs sc (lit "wss") then Some 443
  else None.
Definition query_chars (sc : list Z) : Z -> bool := if special_of sc then is_special_query_percent_encode_set else is_query_percent_encode_set.
Definition segment_end (sc : list Z) (c : Z) : bool := (c =? 0x2F) || (special_of sc && (c =? 0x5C)).
Definition segments_of (sc x : list Z) : list (list Z) := map (pe is_path_percent_encode_set) (split_at (segment_end sc) x).
Definition path_of (sc b : list Z) : list (list Z) :=
  match b with
  | [] => if special_of sc then [[]] else []
  | c :: r => resolve (eqs sc (lit "file")) [] (segments_of sc (if segment_end sc c then r else b))
  end.
Definition query_of (sc : list Z) (oq : option (list Z)) : option (list Z) := option_map (pe (query_chars sc)) oq.
Definition fragment_of (of : option (list Z)) : option (list Z) := option_map (pe is_fragment_percent_encode_set) of.
Definition user_of (ou : option (list Z)) : list Z := match ou with Some us => pe is_userinfo_percent_encode_set (fst (cut (fun c => c =? 0x3A) us)) | None => [] end.
Definition pass_of (ou : option (list Z)) : list Z :=
  match ou with
  | Some us => match after_mark (snd (cut (fun c => c =? 0x3A) us)) with Some p => pe is_userinfo_percent_encode_set p | None => [] end
  | None => []
  end.
Definition port_ok (od : option (list Z)) : bool :=
  match od with Some d => forallb (fun c => (0x30 <=? c) && (c <=? 0x39)) d && (match d with [] => true | _ => (Z.of_nat (List.length d) <=? 5) && (decimal d <? 65535) end) | None => true end.
Definition port_of (sc : list Z) (od : option (list Z)) : option Z :=
  match od with
  | None | Some [] => None
  | Some d => if match usual_port sc with Some n => decimal d =? n | None => false end then None else Some (decimal d)
  end.

Section Record.
Variable host_of : list Z -> bool -> outcome host.

(** After the slashes: the authority, to the first delimiter, and the rest. *)
Definition authority_at (sc t : list Z) : outcome (option url) :=
  let (a, rest) := cut (fun c => (c =? 0x2F) || (c =? 0x3F) || (c =? 0x23) || (special_of sc && (c =? 0x5C))) t in
  let '(b, oq, of) := tail_parts rest in
  let (ou, hp) := match last_at a with Some (x, y) => (Some x, y) | None => (None, a) end in
  if match ou, hp with Some _, [] => true | _, _ => false end then Val None
  else
    let (h, od) := port_cut false hp in
    if match h with [] => special_of sc || match od with Some _ => true | None => false end | _ => false end then Val None
    else
      obind (host_of h (negb (special_of sc))) (fun hh =>
      match hh with
      | HNone => Val None
      | _ => if port_ok od then Val (Some (Url sc (user_of ou) (pass_of ou) (Some hh) (port_of sc od) (path_of sc b) (query_of sc oq) (fragment_of of) false))
             else Val None
      end).
Definition relative_at (v : url) (t : list Z) : outcome (option url) :=
  let sc := scheme v in
  let plain := let '(x, oq, of) := tail_parts t in
    Val (Some (Url sc (username v) (password v) (uhost v) (port v)
      (match x with [] => path v | _ => resolve false (removelast (path v)) (segments_of sc x) end)
      (match x, oq with [], None => query v | _, _ => query_of sc oq end) (fragment_of of) false)) in
  match t with
  | c :: r =>
      if segment_end sc c then
        match r with
        | d :: r' => if segment_end sc d then authority_at sc (if special_of sc then drop_slashes r' else r')
                     else let '(x, oq, of) := tail_parts r in
                       Val (Some (Url sc (username v) (password v) (uhost v) (port v) (resolve false [] (segments_of sc x)) (query_of sc oq) (fragment_of of) false))
        | [] => Val (Some (Url sc (username v) (password v) (uhost v) (port v) [[]] None None false))
        end
      else plain
  | [] => plain
  end.
Definition file_host_at (t : list Z) : outcome (option url) :=
  let f := lit "file" in
  let (h, rest) := cut (fun c => (c =? 0x2F) || (c =? 0x5C) || (c =? 0x3F) || (c =? 0x23)) t in
  let '(b, oq, of) := tail_parts rest in
  let record hh b := Val (Some (Url f [] [] (Some hh) None (path_of f b) (query_of f oq) (fragment_of of) false)) in
  if is_windows_drive_letter h then record HEmpty (0x2F :: h ++ b)
  else match h with
  | [] => record HEmpty b
  | _ => obind (host_of h false) (fun hh =>
         match hh with
         | HNone => Val None
         | HDomain d => record (if eqs d (lit "localhost") then HEmpty else hh) b
         | _ => Bad
         end)
  end.
Definition drive_segment (x : list Z) : bool := match x with [a; c] => is_ascii_alpha a && (c =? 0x3A) | _ => false end.
Definition drive_first (x : list Z) : bool :=
  match x with
  | a :: c :: r => is_ascii_alpha a && ((c =? 0x3A) || (c =? 0x7C)) && match r with [] => true | d :: _ => (d =? 0x2F) || (d =? 0x5C) end
  | _ => false
  end.
Definition without_last (p : list (list Z)) : list (list Z) := match p with [x] => if drive_segment x then [x] else [] | _ => removelast p end.
(** [v]: the base when its scheme is file. *)
Definition file_at (v : option url) (t : list Z) : outcome (option url) :=
  let f := lit "file" in
  let h := match v with Some b => uhost b | None => Some HEmpty end in
  let rooted r := let '(x, oq, of) := tail_parts r in
    let root := match v with Some b => match path b with d :: _ => if drive_segment d && negb (drive_first x) then [d] else [] | [] => [] end | None => [] end in
    Val (Some (Url f [] [] h None (resolve true root (segments_of f x)) (query_of f oq) (fragment_of of) false)) in
  let plain := let '(x, oq, of) := tail_parts t in
    match v, x with
    | Some b, [] => Val (Some (Url f [] [] h None (path b) (match oq with Some _ => query_of f oq | None => query b end) (fragment_of of) false))
    | Some b, _ => Val (Some (Url f [] [] h None (resolve true (if drive_first x then [] else without_last (path b)) (segments_of f x)) (query_of f oq) (fragment_of of) false))
    | None, _ => Val (Some (Url f [] [] h None (resolve true [] (segments_of f x)) (query_of f oq) (fragment_of of) false))
    end in
  match t with
  | c :: r => if is_slash c then match r with d :: r' => if is_slash d then file_host_at r' else rooted r | [] => rooted r end else plain
  | [] => plain
  end.
Definition opaque_at (sc t : list Z) : outcome (option url) :=
  let '(b, oq, of) := tail_parts t in
  Val (Some (Url sc [] [] None None [pe is_c0_control_percent_encode_set b] (query_of sc oq) (fragment_of of) true)).
Definition file_only (base : option url) : option url := match base with Some b => if eqs (scheme b) (lit "file") then Some b else None | None => None end.

Definition same_only (base : option url) (sc : list Z) : option url := match base with Some b => if eqs (scheme b) sc then Some b else None | None => None end.
Definition two_slashes (t : list Z) : option (list Z) := match t with c :: d :: r => if (c =? 0x2F) && (d =? 0x2F) then Some r else None | _ => None end.

Definition url_of (w : list Z) (base : option url) : outcome (option url) :=
  match scheme_cut w with
  | Some (s, t) =>
      let sc := map cp_lower s in
      if eqs sc (lit "file") then file_at (file_only base) t
      else if special_of sc then
        match same_only base sc with
        | Some b => match two_slashes t with Some r => authority_at sc (drop_slashes r) | None => relative_at b t end
        | None => authority_at sc (drop_slashes t)
        end
      else
        match t with
        | c :: d :: r =>
            if c =? 0x2F then
              if d =? 0x2F then authority_at sc r
              else let '(b, oq, of) := tail_parts (d :: r) in
                Val (Some (Url sc [] [] None None (path_of sc (0x2F :: b)) (query_of sc oq) (fragment_of of) false))
            else opaque_at sc t
        | _ => opaque_at sc t (* a slash alone is opaque *)
        end
  | None =>
      match base with
      | None => Val None
      | Some b =>
          if cannot_be_base b then
            match w with
            | c :: f => Val (if c =? 0x23 then Some (Url (scheme b) [] [] None None (path b) (query b) (Some (pe is_fragment_percent_encode_set f)) true) else None)
            | [] => Val None
            end
          else if eqs (scheme b) (lit "file") then file_at (Some b) w
          else relative_at b w
      end
  end.
End Record.

(** * The parser computes it *)

Lemma special_of_eq sc : special_of sc = is_special_scheme sc.
Proof. unfold special_of, is_special_scheme. cbn [existsb]. now rewrite orb_false_r, !orb_assoc. Qed.
Lemma eqs_eq a b : eqs a b = true -> a = b.
Proof. unfold eqs. destruct (list_eq_dec Z.eq_dec a b); [auto|discriminate]. Qed.
Lemma usual_port_eq sc : usual_port sc = default_port sc.
Proof.
  unfold usual_port, default_port. destruct (eqs sc (lit "ftp")); [reflexivity|]. destruct (eqs sc (lit "file")) eqn:F; [apply eqs_eq in F; subst sc; reflexivity|].
  destruct (eqs sc (lit "http")); [reflexivity|]. destruct (eqs sc (lit "https")) eqn:F2; [apply eqs_eq in F2; subst sc; reflexivity|]. cbn [orb]. reflexivity.
Qed.
Lemma segment_end_eq u c : segment_end (scheme u) c = path_sep u c.
Proof. unfold segment_end, path_sep, is_special. now rewrite special_of_eq. Qed.
Lemma segments_of_eq u x : segments_of (scheme u) x = segments u x.
Proof.
  unfold segments_of, segments. f_equal. induction x as [|c x IH]; [reflexivity|]. cbn [split_at]. rewrite segment_end_eq, IH. reflexivity.
Qed.
Lemma path_of_eq u b : path_of (scheme u) b = set_path_value u b.
Proof. destruct b as [|c b]; cbn [path_of set_path_value]; [now rewrite special_of_eq|]. rewrite segment_end_eq, segments_of_eq. reflexivity. Qed.
Lemma query_of_eq u q : pe (query_chars (scheme u)) q = pe (query_set u) q.
Proof. unfold query_chars, query_set, is_special. now rewrite special_of_eq. Qed.
Lemma colon_cut us : colon us = (fst (cut (fun c => c =? 0x3A) us), after_mark (snd (cut (fun c => c =? 0x3A) us))).
Proof. induction us as [|c us IH]; [reflexivity|]. cbn [colon cut]. destruct (c =? 0x3A); [reflexivity|]. rewrite IH. reflexivity. Qed.

Lemma Val_inj {A} (a b : A) : Val a = Val b -> a = b.
Proof. congruence. Qed.

Ltac hp p := unfold p, here, move, push, s_pointer, s_state, s_buffer; pj; rewrite ?zlen_app, ?zlen_cons, ?zlen_nil; f_equal; lia.

Section Computes.
Variable idna : list Z -> option (list Z).
Variable input : list Z.
Variable base : option url.
Variable fuel : nat.
Hypothesis Fu : (List.length input + 1 < fuel)%nat.
Hypothesis Vi : Forall visible input.

Local Notation R := (runs idna input base None fuel).
Local Notation H_ := (handle idna input base None fuel).
Local Notation G_ := (gives idna input base fuel).
Local Notation ph := (parse_host idna fuel).
Definition only (sc : list Z) : url := set_scheme sc empty_url.

Lemma visible_tail a t : input = a ++ t -> Forall visible t.
Proof. intros E. rewrite E in Vi. now apply Forall_app in Vi as [_ V]. Qed.
Lemma tail_parts_tail a t b oq of : input = a ++ t -> tail_parts t = (b, oq, of) -> t = b ++ qtext oq ++ ftext of /\ tail_ok b oq of.
Proof.
  intros Ei E. apply tail_parts_ok in E as (E & N). split; [exact E|]. split; [|exact N]. rewrite <- E. now apply (visible_tail a).
Qed.

(** ** The authority *)

(** An at sign, and nothing after it. *)
Lemma run_authority_fail t : forall p a h, stands input p a (t ++ h) -> p_state p = Authority -> Forall (inner (p_url p)) t -> closes (p_url p) h ->
  Forall scalar (p_buffer p) ->
  let '(buf, at_, tok, u) := scan t (p_buffer p) (p_at p) (p_token p) (p_url p) in
  at_ = true -> buf = [] -> exists w, R p (false, w).
Proof.
  induction t as [|c t IH]; intros p a h St E It Ch Sb.
  - cbn [scan]. intros A B. cbn [app] in St. pose proof (closes_current input fuel Fu _ _ _ _ St Ch) as Ce.
    assert (N40 : current input p <> 0x40) by (intros G; rewrite G in Ce; unfold ends_authority in Ce; cbn in Ce; rewrite andb_false_r in Ce; discriminate Ce).
    exists (p_url p). apply (failed idna input base fuel).
    unfold handle. rewrite E. unfold on_authority. replace (current input p =? 0x40) with false by lia. rewrite Ce, A, B. reflexivity.
  - cbn [app] in St. inversion It as [|x y [Vc Nc] It']; subst x y. destruct (cur input fuel Fu _ _ _ _ St) as (C & L0 & L). cbn [scan].
    destruct (c =? 0x40) eqn:C40.
    + destruct (creds (if p_at p then lit "%40" ++ p_buffer p else p_buffer p) (p_token p) (p_url p)) as [tok v] eqn:Cr.
      set (p2 := s_buffer [] (s_token tok (s_at true (s_url v p)))).
      assert (H : H_ p = Val (Go p2)).
      { unfold handle. rewrite E. unfold on_authority. rewrite C, C40. rewrite (credentials_spec input fuel Fu).
        - rewrite Cr. reflexivity.
        - destruct (p_at p); [|exact Sb]. apply Forall_app. split; [|exact Sb]. change (lit "%40") with [0x25; 0x34; 0x30]. repeat constructor; unfold scalar; lia. }
      assert (Sv : scheme v = scheme (p_url p)). { change v with (snd (tok, v)). rewrite <- Cr. apply creds_scheme. }
      pose proof (IH (move 1 p2) (a ++ [c]) h) as G. subst p2. pj. destruct (scan t [] true tok v) as [[[buf at_] tk] w]. intros A B.
      destruct G as [w' W]; auto.
      * apply (nextp input p _ _ _ _ St). reflexivity.
      * revert It'. apply Forall_impl. intros x [X1 X2]. split; [exact X1|]. rewrite (ends_same _ _ _ Sv). exact X2.
      * destruct Ch as [->|(x & y & -> & X)]; [now left|right]. exists x, y. split; [reflexivity|]. rewrite (ends_same _ _ _ Sv). exact X.
      * exists w'. apply (step idna input base fuel Fu _ _ _ H); [pj; lia|]. exact W.
    + set (p2 := push [c] p).
      assert (H : H_ p = Val (Go p2)).
      { unfold handle. rewrite E. unfold on_authority. rewrite C, C40, Nc. reflexivity. }
      pose proof (IH (move 1 p2) (a ++ [c]) h) as G. subst p2. pj.
      destruct (scan t (p_buffer p ++ [c]) (p_at p) (p_token p) (p_url p)) as [[[buf at_] tk] w]. intros A B.
      destruct G as [w' W]; auto.
      * apply (nextp input p _ _ _ _ St). reflexivity.
      * apply Forall_app. split; [exact Sb|]. constructor; [apply Vc|constructor].
      * exists w'. apply (step idna input base fuel Fu _ _ _ H); [pj; lia|]. exact W.
Qed.

Lemma run_to_host a u ou hp rest r : input = a ++ (utext ou ++ hp) ++ rest -> Forall (inner u) (utext ou ++ hp) -> ~ In 0x40 hp -> (ou <> None -> hp <> []) -> closes u rest ->
  (forall q, p_state q = Host -> p_buffer q = [] -> p_brackets q = false -> p_enc q = UTF_8 -> p_url q = userinfo ou u -> stands input q (a ++ utext ou) (hp ++ rest) -> R q r) ->
  R (here Authority [] a u) r.
Proof.
  intros Ei It N40 Ne Ch K. set (p := here Authority [] a u).
  assert (Sc : exists tok, scan (utext ou ++ hp) [] false false u = (hp, match ou with Some _ => true | None => false end, tok, userinfo ou u)).
  { destruct ou as [us|]; cbn [utext userinfo app].
    - rewrite <- app_assoc. cbn [app]. rewrite scan_at by exact N40. cbn [app]. destruct (creds us false u) as [t v] eqn:C. exists t.
      replace v with (with_userinfo us u); [reflexivity|]. rewrite <- creds_user, C. reflexivity.
    - exists false. rewrite scan_none by exact N40. reflexivity. }
  destruct Sc as [tok Sc]. pose proof (here_stands input Authority [] a u _ Ei) as St. fold p in St.
  pose proof (run_authority idna input base fuel Fu _ p a rest r St eq_refl It Ch) as G. change (p_buffer p) with (@nil Z) in G. change (p_at p) with false in G. change (p_token p) with false in G. change (p_url p) with u in G. rewrite Sc in G.
  apply G; [constructor|rewrite zlen_nil; apply zlen_pos| |].
  - destruct ou; [|discriminate]. intros _. apply Ne. discriminate.
  - intros q Q1 Q2 Q3 Q4 Q5 Q6. apply K; [exact Q1|exact Q2|rewrite Q3; reflexivity|rewrite Q4; reflexivity|exact Q5|]. split.
    + rewrite Ei, <- !app_assoc. reflexivity.
    + rewrite Q6, !zlen_app. lia.
Qed.

Lemma userinfo_closes ou u h : closes u h -> closes (userinfo ou u) h.
Proof. intros [->|(x & y & X & Y)]; [now left|right]. exists x, y. split; [exact X|]. rewrite (ends_same u _ x (userinfo_scheme ou u)). exact Y. Qed.
Lemma userinfo_inner ou u c : inner u c -> inner (userinfo ou u) c.
Proof. intros [X Y]. split; [exact X|]. rewrite (ends_same u _ c (userinfo_scheme ou u)). exact Y. Qed.

(** No host before the end, for a special scheme. *)
Lemma no_host_fail q a h : p_state q = Host -> p_buffer q = [] -> p_brackets q = false -> stands input q a h -> closes (p_url q) h -> is_special (p_url q) = true -> exists w, R q (false, w).
Proof.
  intros E B Br St Ch Sp. pose proof (closes_current input fuel Fu _ _ _ _ St Ch) as Ce.
  assert (N3A : current input q <> 0x3A) by (intros X; rewrite X in Ce; unfold ends_authority in Ce; cbn in Ce; rewrite andb_false_r in Ce; discriminate Ce).
  eexists. apply (failed idna input base fuel). unfold handle. rewrite E. unfold on_hostname. cbn [overridden andb]. replace (current input q =? 0x3A) with false by lia. cbn [andb]. rewrite Ce, Sp.
  change (p_buffer (move (-1) q)) with (p_buffer q). rewrite B. reflexivity.
Qed.
(** No host before the colon. *)
Lemma no_host_colon_fail q a h : p_state q = Host -> p_buffer q = [] -> p_brackets q = false -> stands input q a (0x3A :: h) -> exists w, R q (false, w).
Proof.
  intros E B Br St. destruct (cur input fuel Fu _ _ _ _ St) as (C & _ & _).
  eexists. apply (failed idna input base fuel). unfold handle. rewrite E. unfold on_hostname. cbn [overridden andb]. rewrite C, Br, B. reflexivity.
Qed.
(** Something in the port that is no digit. *)
Lemma port_text_fail q a d h : p_state q = Port -> stands input q a (d ++ h) -> Forall (inner (p_url q)) d -> ~ digits d -> R q (false, p_url q).
Proof.
  intros E St It Nd.
  assert (D : exists d0 c d1, d = d0 ++ c :: d1 /\ digits d0 /\ is_ascii_digit c = false).
  { clear - Nd. induction d as [|c d IH]; [destruct Nd; constructor|]. destruct (is_ascii_digit c) eqn:C.
    - destruct IH as (d0 & x & d1 & -> & D0 & X); [intros D; apply Nd; constructor; [unfold is_ascii_digit in C; lia|exact D]|]. exists (c :: d0), x, d1. split; [reflexivity|]. split; [|exact X]. constructor; [unfold is_ascii_digit in C; lia|exact D0].
    - exists [], c, d. repeat split; [constructor|exact C]. }
  destruct D as (d0 & c & d1 & -> & D0 & C). rewrite <- app_assoc in St. cbn [app] in St.
  destruct (run_port_digits idna input base None fuel Fu d0 q a _ St D0 E) as (p' & St' & E' & En' & U' & B' & G).
  destruct (cur input fuel Fu _ _ _ _ St') as (Cc & _ & _). apply Forall_app in It as [_ It]. inversion It as [|x y [_ Nc] _]; subst x y.
  apply G. apply (failed idna input base fuel). unfold handle. rewrite E'. unfold on_port. unfold fail. rewrite Cc, C, U', Nc. reflexivity.
Qed.

Lemma authority_record sc ou hh od b oq of : authority_url (only sc) ou hh od b oq of =
  Url sc (user_of ou) (pass_of ou) (Some hh) (port_of sc od) (path_of sc b) (query_of sc oq) (fragment_of of) false.
Proof.
  assert (U : userinfo ou (only sc) = Url sc (user_of ou) (pass_of ou) None None [] None None false).
  { destruct ou as [us|]; [|reflexivity]. cbn [userinfo user_of pass_of]. unfold with_userinfo. rewrite colon_cut. destruct (after_mark _); reflexivity. }
  unfold authority_url. rewrite U.
  assert (Pt : the_port od (set_host (Some hh) (Url sc (user_of ou) (pass_of ou) None None [] None None false)) = Url sc (user_of ou) (pass_of ou) (Some hh) (port_of sc od) [] None None false).
  { destruct od as [[|c d]|]; [reflexivity| |reflexivity]. cbn [the_port with_port port_of]. unfold kept_port. rewrite usual_port_eq. change (scheme (set_host _ ?u)) with (scheme u). cbn [scheme].
    destruct (default_port sc) as [n|]; [|reflexivity]. destruct (_ =? n); reflexivity. }
  rewrite Pt. unfold finish. set (w := Url sc (user_of ou) (pass_of ou) (Some hh) (port_of sc od) [] None None false). rewrite <- (path_of_eq w).
  destruct oq as [q|]; cbn [with_query query_of option_map].
  - pose proof (query_of_eq (set_path (path_of (scheme w) b) w) q) as Q. change (scheme (set_path _ w)) with sc in Q. rewrite Q. destruct of; reflexivity.
  - destruct of; reflexivity.
Qed.

Lemma port_ok_bad od : match od with Some d => digits d | None => True end -> port_ok od = negb (port_bad od).
Proof.
  destruct od as [[|c d]|]; cbn [port_ok port_bad]; try reflexivity. intros D. rewrite negb_involutive.
  replace (forallb (fun c => (0x30 <=? c) && (c <=? 0x39)) (c :: d)) with true.
  - unfold port_fits, zlen. cbn [andb]. destruct (Z.of_nat (List.length (c :: d)) <=? 5) eqn:A; destruct (decimal (c :: d) <? 65535) eqn:B; lia.
  - symmetry. apply forallb_forall. intros x I. unfold digits in D. rewrite Forall_forall in D. specialize (D x I). lia.
Qed.
Lemma not_digits d : ~ digits d -> port_ok (Some d) = false.
Proof.
  intros N. cbn [port_ok]. destruct (forallb _ d) eqn:F; [|reflexivity]. destruct N. rewrite forallb_forall in F. apply Forall_forall. intros x I. specialize (F x I). lia.
Qed.
Lemma digits_dec d : digits d \/ ~ digits d.
Proof.
  induction d as [|c d IH]; [left; constructor|]. destruct (is_ascii_digit c) eqn:C.
  - destruct IH as [H|H]; [left; constructor; [unfold is_ascii_digit in C; lia|exact H]|right; intros X; apply H; now inversion X].
  - right. intros X. inversion X as [|? ? X1 X2]. unfold is_ascii_digit in C. lia.
Qed.

Lemma authority_here a sc t o : input = a ++ t -> authority_at ph sc t = Val o -> G_ (here Authority [] a (only sc)) o.
Proof.
  intros Ei. unfold authority_at. set (f := fun c => _ || (special_of sc && _)). pose proof (cut_app f t) as Ec. pose proof (cut_before f t) as Fb. pose proof (cut_after f t) as Fa.
  destruct (cut f t) as [au rest]. cbn [fst snd] in *. pose proof (visible_tail _ _ Ei) as V. rewrite Ec in V. apply Forall_app in V as [Va Vr]. rewrite Ec in Ei. clear Ec t.
  set (u := only sc) in *.
  assert (In_ : Forall (inner u) au).
  { rewrite Forall_forall in *. intros c I. specialize (Va c I). specialize (Fb c I). split; [exact Va|]. destruct Va as [_ Va]. unfold ends_authority, EOF, is_special. change (scheme u) with sc. unfold f in Fb. rewrite special_of_eq in Fb.
    replace (c =? 0xA) with false by lia. exact Fb. }
  assert (Ch : closes u rest).
  { destruct Fa as [->|(c & r & -> & Fc)]; [now left|right]. exists c, r. split; [reflexivity|]. unfold ends_authority, is_special. change (scheme u) with sc. unfold f in Fc. rewrite special_of_eq in Fc. rewrite <- !orb_assoc in *. rewrite Fc. apply orb_true_r. }
  assert (Ei' : input = (a ++ au) ++ rest) by (rewrite Ei; apply app_assoc).
  destruct (tail_parts rest) as [[b oq] of] eqn:Tp. destruct (tail_parts_tail _ _ _ _ _ Ei' Tp) as [Er Ok].
  assert (Sb : starts_path u b).
  { destruct b as [|c b]; [now left|right]. exists c, b. split; [reflexivity|]. destruct Fa as [Fa|(c' & r & Fa & Fc)]; [rewrite Fa in Er; discriminate Er|]. rewrite Fa in Er. injection Er as -> _.
    destruct Ok as (_ & N1 & N2 & _). rewrite <- segment_end_eq. change (scheme u) with sc. unfold f in Fc. unfold segment_end.
    replace (c =? 0x3F) with false in Fc by (symmetry; apply Z.eqb_neq; intros ->; apply N1; now left). replace (c =? 0x23) with false in Fc by (symmetry; apply Z.eqb_neq; intros ->; apply N2; now left).
    now rewrite !orb_false_r in Fc. }
  (* userinfo *)
  assert (exists ou hp, match last_at au with Some (x, y) => (Some x, y) | None => (None, au) end = (ou, hp) /\ au = utext ou ++ hp /\ ~ In 0x40 hp) as (ou & hp & Lo & Ea & N40).
  { destruct (last_at au) as [[x y]|] eqn:L.
    - apply last_at_some in L as [E N]. exists (Some x), y. split; [reflexivity|]. split; [rewrite E; cbn [utext]; now rewrite <- app_assoc|exact N].
    - exists None, au. split; [reflexivity|]. split; [reflexivity|]. now apply last_at_none. }
  rewrite Lo. subst au.
  destruct (match ou, hp with Some _, [] => true | _, _ => false end) eqn:Em.
  { intros H. injection H as <-. destruct ou as [us|]; [|discriminate Em]. destruct hp as [|]; [|discriminate Em]. cbn [utext] in *. rewrite app_nil_r in *.
    pose proof (run_authority_fail (us ++ [0x40]) (here Authority [] a u) a rest (here_stands input _ _ _ _ _ Ei) eq_refl In_ Ch (Forall_nil _)) as K.
    change (p_buffer (here Authority [] a u)) with (@nil Z) in K. change (p_at (here Authority [] a u)) with false in K. change (p_token (here Authority [] a u)) with false in K. change (p_url (here Authority [] a u)) with u in K.
    rewrite scan_at in K by auto. destruct (creds _ false u) as [tk w]. exact (K eq_refl eq_refl). }
  assert (Ne : ou <> None -> hp <> []) by (intros N ->; destruct ou; [discriminate Em|congruence]).
  destruct (port_cut false hp) as [h od] eqn:Pc. destruct (port_cut_ok _ _ _ _ Pc) as (Eh & Cf & Ib).
  assert (Hinner : Forall (inner (userinfo ou u)) hp) by (apply Forall_app in In_ as [_ X]; revert X; apply Forall_impl; intros c; apply userinfo_inner).
  pose proof (userinfo_closes ou u rest Ch) as Ch'.
  assert (Spu : is_special (userinfo ou u) = special_of sc) by (unfold is_special; rewrite userinfo_scheme, special_of_eq; reflexivity).
  destruct (match h with [] => special_of sc || match od with Some _ => true | None => false end | _ => false end) eqn:E0.
  { intros H. injection H as <-. destruct h as [|]; [|discriminate E0]. cbn [app] in Eh. destruct od as [d|]; cbn [ptext] in Eh; subst hp.
    - assert (exists w, forall q, p_state q = Host -> p_buffer q = [] -> p_brackets q = false -> p_enc q = UTF_8 -> p_url q = userinfo ou u -> stands input q (a ++ utext ou) ((0x3A :: d) ++ rest) -> R q (false, w)) as [w W].
      { exists (userinfo ou u). intros q Q1 Q2 Q3 _ Q5 Q6. destruct (cur input fuel Fu _ _ _ _ Q6) as (C & _ & _). rewrite <- Q5. apply (failed idna input base fuel). unfold handle. rewrite Q1. unfold on_hostname. cbn [overridden andb]. rewrite C, Q2, Q3. reflexivity. }
      exists w. apply (run_to_host a u ou (0x3A :: d) rest); auto.
    - rewrite orb_false_r in E0. exists (userinfo ou u). apply (run_to_host a u ou [] rest); auto. intros q Q1 Q2 Q3 _ Q5 Q6. cbn [app] in Q6.
      assert (Cq : closes (p_url q) rest) by now rewrite Q5. pose proof (closes_current input fuel Fu _ _ _ _ Q6 Cq) as Ce.
      assert (N3A : current input q <> 0x3A) by (intros X; rewrite X in Ce; unfold ends_authority in Ce; cbn in Ce; rewrite andb_false_r in Ce; discriminate Ce).
      rewrite <- Q5. apply (failed idna input base fuel). unfold handle. rewrite Q1. unfold on_hostname. cbn [overridden andb]. replace (current input q =? 0x3A) with false by lia. cbn [andb]. rewrite Ce.
      change (p_buffer (move (-1) q)) with (p_buffer q). rewrite Q2. replace (is_special (p_url q)) with true by (rewrite Q5, Spu; now rewrite E0). reflexivity. }
  intros H. destruct (ph h (negb (special_of sc))) as [hh| |] eqn:Ph; try discriminate H. cbn [obind] in H.
  assert (Nh : h <> [] \/ (special_of sc = false /\ ou = None /\ od = None)).
  { destruct h as [|c h]; [right|left; discriminate]. apply orb_false_iff in E0 as [E1 E2]. destruct od; [discriminate E2|]. split; [exact E1|]. split; [|reflexivity]. destruct ou; [|reflexivity]. exfalso. cbn [app ptext] in Eh. apply Ne; [discriminate|exact Eh]. }
  assert (Dg : match od with Some d => digits d | None => True end \/ exists d, od = Some d /\ ~ digits d).
  { destruct od as [d|]; [|now left]. destruct (digits_dec d); [now left|right; eauto]. }
  destruct Dg as [Dg|(d & -> & Nd)].
  - assert (Au : authority_ok u ou h od).
    { split; [rewrite <- Eh; exact In_|]. split; [rewrite <- Eh; exact N40|]. split; [exact Cf|]. split; [exact Ib|]. split; [exact Dg|]. intros X. destruct Nh as [Nh|(S0 & -> & ->)]; [exact Nh|].
      destruct X as [X|[X|X]]; try congruence. unfold is_special in X. change (scheme u) with sc in X. rewrite <- special_of_eq in X. congruence. }
    rewrite Er, Eh in Ei.
    assert (Ph' : ph h (negb (is_special u)) = Val hh) by (unfold is_special; change (scheme u) with sc; rewrite <- special_of_eq; exact Ph).
    pose proof (run_all_here idna input base fuel Fu a u ou h od b oq of hh Ei Au Sb Ok eq_refl Ph') as K. rewrite (port_ok_bad od Dg) in H.
    rewrite <- authority_record in H. fold u in H. destruct hh; cbn [host_none orb] in K; try (injection H as <-; exact K); destruct (port_bad od); cbn [negb] in H; injection H as <-; exact K.
  - assert (o = None) as -> by (rewrite (not_digits d Nd) in H; destruct hh; congruence).
    cbn [ptext] in Eh. assert (Nh' : h <> []) by (destruct Nh as [|(_ & _ & X)]; [assumption|discriminate X]). subst hp.
    apply Forall_app in Hinner as [Hh Hd]. inversion Hd as [|c0 l0 _ Hd']; subst c0 l0.
    assert (Ph' : ph h (negb (is_special (userinfo ou u))) = Val hh) by (rewrite Spu; exact Ph).
    cbn [gives].
    assert (D : hh = HNone \/ hh <> HNone) by (destruct hh; auto; right; discriminate).
    (* the record at the failure *)
    exists (if host_none hh then userinfo ou u else set_host (Some hh) (userinfo ou u)).
    apply (run_to_host a u ou (h ++ 0x3A :: d) rest); auto. intros q Q1 Q2 Q3 Q4 Q5 Q6. rewrite <- app_assoc in Q6. cbn [app] in Q6.
    apply (run_host_colon idna input base fuel Fu q (a ++ utext ou) h (d ++ rest) hh); auto.
    + now rewrite Q5.
    + apply Ib. discriminate.
    + now rewrite Q5.
    + intros ->. now rewrite Q5.
    + intros Dn q' X1 X2 X3 X4 X5. replace (host_none hh) with false by (destruct hh; reflexivity || congruence). rewrite <- Q5, <- X5.
      assert (Hq : Forall (inner (p_url q')) d).
      { rewrite X5, Q5. revert Hd'. apply Forall_impl. intros c [Y1 Y2]. split; [exact Y1|exact Y2]. }
      exact (port_text_fail q' _ d rest X2 X1 Hq Nd).
Qed.

(** ** References *)

Lemma tail_none x oq of : x ++ qtext oq ++ ftext of = [] -> x = [] /\ oq = None /\ of = None.
Proof. intros E. apply app_eq_nil in E as [-> E]. apply app_eq_nil in E as [E F]. destruct oq; [discriminate E|]. destruct of; [discriminate F|]. auto. Qed.
Lemma tail_hd x oq of c t : c :: t = x ++ qtext oq ++ ftext of -> x <> [] -> hd 0 x = c.
Proof. destruct x as [|y x]; [congruence|]. intros E _. now injection E as <- _. Qed.
Lemma under_record b p oq of : with_fragment of (with_query oq (under b p)) =
  Url (scheme b) (username b) (password b) (uhost b) (port b) p (query_of (scheme b) oq) (fragment_of of) false.
Proof.
  destruct oq as [q|]; [|destruct of; reflexivity]. cbn [with_query query_of option_map]. pose proof (query_of_eq (under b p) q) as Q. change (scheme (under b p)) with (scheme b) in Q. rewrite Q. destruct of; reflexivity.
Qed.
Lemma path_sep_segment b c : path_sep b c = segment_end (scheme b) c.
Proof. symmetry. apply segment_end_eq. Qed.

Lemma relative_here b a u t o : base = Some b -> set_scheme (scheme b) u = bare b -> is_file b = false -> input = a ++ t -> relative_at ph b t = Val o ->
  G_ (here Relative [] a u) o.
Proof.
  intros B Ub Nf Ei. unfold relative_at. cbv zeta. set (sc := scheme b).
  assert (Plain : match t with c :: _ => segment_end sc c = false | [] => True end -> forall o,
    (let '(x, oq, of) := tail_parts t in
     Val (Some (Url sc (username b) (password b) (uhost b) (port b) (match x with [] => path b | _ => resolve false (removelast (path b)) (segments_of sc x) end)
       (match x, oq with [], None => query b | _, _ => query_of sc oq end) (fragment_of of) false))) = Val o -> G_ (here Relative [] a u) o).
  { intros Nt o'. destruct (tail_parts t) as [[x oq] of] eqn:Tp. destruct (tail_parts_tail _ _ _ _ _ Ei Tp) as [Et Ok]. intros H. injection H as <-. rewrite Et in Ei.
    destruct x as [|y x].
    - pose proof (relative_same idna input base fuel Fu b a u B Ub oq of Ei Ok) as K.
      destruct oq as [q|]; [|destruct of; exact K]. cbn [with_query query_of option_map] in K |- *. pose proof (query_of_eq (copied b) q) as Q. change (scheme (copied b)) with sc in Q. rewrite Q. destruct of; exact K.
    - assert (Sx : path_sep b (hd 0 (y :: x)) = false) by (rewrite path_sep_segment; rewrite Et in Nt; exact Nt).
      pose proof (relative_path idna input base fuel Fu b a u B Ub (y :: x) oq of Ei ltac:(discriminate) Sx Ok) as K. rewrite Nf, under_record, <- segments_of_eq in K. exact K. }
  destruct t as [|c r]; [apply Plain; exact I|]. destruct (segment_end sc c) eqn:Sc; [|apply Plain; reflexivity]. clear Plain.
  assert (Root : match r with d :: _ => segment_end sc d = false | [] => True end -> forall o,
    (let '(x, oq, of) := tail_parts r in
     Val (Some (Url sc (username b) (password b) (uhost b) (port b) (resolve false [] (segments_of sc x)) (query_of sc oq) (fragment_of of) false))) = Val o -> G_ (here Relative [] a u) o).
  { intros Nt o'. assert (Ei2 : input = (a ++ [c]) ++ r) by (rewrite Ei, <- app_assoc; reflexivity).
    destruct (tail_parts r) as [[x oq] of] eqn:Tp. destruct (tail_parts_tail _ _ _ _ _ Ei2 Tp) as [Et Ok]. intros H. injection H as <-. rewrite Et in Ei.
    assert (Sx : path_sep b (hd 0 x) = false) by (rewrite path_sep_segment; destruct x as [|y x]; [unfold segment_end; cbn; now rewrite andb_false_r|rewrite Et in Nt; exact Nt]).
    pose proof (relative_root idna input base fuel Fu b a u c x oq of B Ub Ei ltac:(rewrite path_sep_segment; exact Sc) Sx Ok) as K. rewrite Nf, under_record, <- segments_of_eq in K. exact K. }
  destruct r as [|d r']; [intros H; apply (Root I); exact H|]. destruct (segment_end sc d) eqn:Sd; [|apply Root; reflexivity]. clear Root.
  intros H. pose proof (at_relative idna input base fuel Fu b a u B Ub _ Ei) as H1. cbn [hd] in H1. rewrite path_sep_segment in H1. fold sc in H1. rewrite Sc in H1.
  assert (Ei2 : input = (a ++ [c]) ++ d :: r') by (rewrite Ei, <- app_assoc; reflexivity).
  assert (Ei3 : input = ((a ++ [c]) ++ [d]) ++ r') by (rewrite Ei, <- !app_assoc; reflexivity).
  pose proof (at_relative_slash idna input base fuel Fu b (a ++ [c]) _ B Ei2) as H2. cbn [hd] in H2.
  apply (gives_from idna input base fuel _ (here RelativeSlash [] (a ++ [c]) (bare b))); [intros r; exact (hstep idna input base fuel Fu _ _ _ _ _ _ _ _ _ r Ei H1)|].
  assert (Es : is_special b = special_of sc) by (unfold is_special; now rewrite special_of_eq). rewrite Es in H2. unfold segment_end in Sd.
  destruct (special_of sc) eqn:Sp; cbn [andb] in *.
  - unfold is_slash in H2. rewrite Sd in H2. destruct (drop_slashes_ok r') as (sl & Er & Fs & Ns).
    apply (gives_from idna input base fuel _ (here Authority [] (((a ++ [c]) ++ [d]) ++ sl) (bare b))).
    + intros r K. apply (hstep idna input base fuel Fu _ _ _ _ _ _ _ _ _ _ Ei2 H2). apply (run_ignore idna input base fuel Fu sl (bare b) _ (drop_slashes r')); [|exact Fs|exact Ns|exact K].
      rewrite Ei3, Er at 1. reflexivity.
    + apply (authority_here _ sc (drop_slashes r')); [|exact H]. rewrite <- app_assoc, <- Er. exact Ei3.
  - rewrite orb_false_r in Sd. rewrite Sd in H2.
    apply (gives_from idna input base fuel _ (here Authority [] ((a ++ [c]) ++ [d]) (bare b))); [intros r; exact (hstep idna input base fuel Fu _ _ _ _ _ _ _ _ _ r Ei2 H2)|].
    apply (authority_here _ sc r'); [exact Ei3|exact H].
Qed.

(** ** Files *)

Lemma drive_segment_eq x : drive_segment x = is_normalized_windows_drive_letter x.
Proof. reflexivity. Qed.
Lemma without_last_shorten p : without_last p = shorten true p.
Proof. destruct p as [|x [|y p]]; reflexivity. Qed.
Lemma drive_first_text x oq of : ~ In 0x3F x -> ~ In 0x23 x -> starts_with_windows_drive_letter (x ++ qtext oq ++ ftext of) = drive_first x.
Proof.
  intros N1 N2. destruct x as [|a [|c [|d r]]]; cbn [app drive_first].
  - destruct oq as [[|y q]|]; cbn [qtext app]; [destruct of as [[|z f]|]; reflexivity|reflexivity|]. destruct of as [[|z f]|]; reflexivity.
  - destruct oq as [[|y q]|]; cbn [qtext app starts_with_windows_drive_letter is_windows_drive_letter].
    + destruct (ftext of); rewrite andb_false_r; reflexivity.
    + rewrite andb_false_r. reflexivity.
    + destruct of as [[|z f]|]; cbn [ftext starts_with_windows_drive_letter is_windows_drive_letter]; rewrite ?andb_false_r; reflexivity.
  - cbn [starts_with_windows_drive_letter is_windows_drive_letter]. destruct oq as [q|]; cbn [qtext app]; [change (0x3F =? 0x3F) with true; now rewrite !orb_true_r|].
    destruct of as [f|]; cbn [ftext]; [|reflexivity]. change (0x23 =? 0x23) with true. now rewrite !orb_true_r.
  - cbn [starts_with_windows_drive_letter is_windows_drive_letter]. replace (d =? 0x3F) with false by (symmetry; apply Z.eqb_neq; intros ->; apply N1; right; right; now left).
    replace (d =? 0x23) with false by (symmetry; apply Z.eqb_neq; intros ->; apply N2; right; right; now left). now rewrite !orb_false_r.
Qed.

Lemma file_here a u t o : set_host (Some HEmpty) (set_scheme (lit "file") u) = file_url -> input = a ++ t -> file_at ph (file_only base) t = Val o ->
  G_ (here File [] a u) o.
Proof.
  intros Uf Ei. unfold file_at. cbv zeta. set (f := lit "file").
  assert (Fb : file_only base = file_base base) by reflexivity.
  assert (Fr : forall h p oq of, with_fragment of (with_query oq (file_under h p)) = Url f [] [] h None p (query_of f oq) (fragment_of of) false) by (intros h p oq of; destruct oq, of; reflexivity).
  assert (Fs : forall x, segments file_url x = segments_of f x) by (intros x; symmetry; apply (segments_of_eq file_url)).
  assert (Sl : forall c, is_slash c = segment_end f c) by reflexivity.
  assert (Plain : match t with c :: _ => is_slash c = false | [] => True end -> forall o,
    (let '(x, oq, of) := tail_parts t in
     match file_only base, x with
     | Some b, [] => Val (Some (Url f [] [] (uhost b) None (path b) (match oq with Some _ => query_of f oq | None => query b end) (fragment_of of) false))
     | Some b, _ => Val (Some (Url f [] [] (uhost b) None (resolve true (if drive_first x then [] else without_last (path b)) (segments_of f x)) (query_of f oq) (fragment_of of) false))
     | None, _ => Val (Some (Url f [] [] (Some HEmpty) None (resolve true [] (segments_of f x)) (query_of f oq) (fragment_of of) false))
     end) = Val o -> G_ (here File [] a u) o).
  { intros Nt o'. destruct (tail_parts t) as [[x oq] of] eqn:Tp. destruct (tail_parts_tail _ _ _ _ _ Ei Tp) as [Et Ok]. rewrite Et in Ei. destruct Ok as (V & N1 & N2 & N3). pose proof (conj V (conj N1 (conj N2 N3))) as Ok.
    destruct (file_only base) as [b|] eqn:E.
    - destruct x as [|y x]; intros H; injection H as <-.
      + pose proof (file_same idna input base fuel Fu a u Uf b oq of (eq_sym Fb) Ei Ok) as K. destruct oq, of; exact K.
      + assert (Sx : is_slash (hd 0 (y :: x)) = false) by (rewrite Et in Nt; exact Nt).
        pose proof (file_path idna input base fuel Fu a u Uf b (y :: x) oq of (eq_sym Fb) Ei ltac:(discriminate) Sx Ok) as K. rewrite Fr, Fs in K. unfold drive_dir in K. rewrite drive_first_text, <- without_last_shorten in K by assumption. exact K.
    - intros H; injection H as <-.
      assert (Sx : is_slash (hd 0 x) = false) by (destruct x; [reflexivity|rewrite Et in Nt; exact Nt]).
      pose proof (file_path_alone idna input base fuel Fu a u Uf x oq of (eq_sym Fb) Ei Sx Ok) as K. rewrite Fr, Fs in K. exact K. }
  destruct t as [|c r].
  { intros H. apply (Plain I). rewrite <- H. destruct (tail_parts []) as [[x oq] of]. destruct (file_only base); reflexivity. }
  destruct (is_slash c) eqn:Sc.
  2:{ intros H. apply (Plain eq_refl). rewrite <- H. destruct (tail_parts _) as [[x oq] of]. destruct (file_only base); reflexivity. }
  clear Plain.
  assert (Root : match r with d :: _ => is_slash d = false | [] => True end -> forall o,
    (let '(x, oq, of) := tail_parts r in
     let root := match file_only base with Some b => match path b with d :: _ => if drive_segment d && negb (drive_first x) then [d] else [] | [] => [] end | None => [] end in
     Val (Some (Url f [] [] (match file_only base with Some b => uhost b | None => Some HEmpty end) None (resolve true root (segments_of f x)) (query_of f oq) (fragment_of of) false))) = Val o ->
    G_ (here File [] a u) o).
  { intros Nt o'. assert (Ei2 : input = (a ++ [c]) ++ r) by (rewrite Ei, <- app_assoc; reflexivity).
    destruct (tail_parts r) as [[x oq] of] eqn:Tp. destruct (tail_parts_tail _ _ _ _ _ Ei2 Tp) as [Et Ok]. intros H. injection H as <-. rewrite Et in Ei.
    assert (Sx : is_slash (hd 0 x) = false) by (destruct x; [reflexivity|rewrite Et in Nt; exact Nt]). destruct Ok as (V & N1 & N2 & N3). pose proof (conj V (conj N1 (conj N2 N3))) as Ok.
    pose proof (file_root idna input base fuel Fu a u c x oq of Uf Ei Sc Sx Ok) as K. rewrite <- Fb in K. destruct (file_only base) as [b|]; rewrite Fr, Fs in K; [|exact K].
    unfold drive_root in K. rewrite drive_first_text in K by assumption. destruct (path b) as [|d ps]; [exact K|]. rewrite andb_comm. exact K. }
  destruct r as [|d r']; [apply Root; exact I|]. destruct (is_slash d) eqn:Sd; [|apply Root; reflexivity]. clear Root.
  unfold file_host_at. cbv zeta. fold f. set (g := fun c => _ || _). pose proof (cut_app g r') as Ec. pose proof (cut_before g r') as Fbf. pose proof (cut_after g r') as Fa.
  destruct (cut g r') as [h rest]. cbn [fst snd] in *. assert (Ei3 : input = ((a ++ [c; d]) ++ h) ++ rest) by (rewrite Ei, Ec, <- !app_assoc; reflexivity).
  destruct (tail_parts rest) as [[b oq] of] eqn:Tp. destruct (tail_parts_tail _ _ _ _ _ Ei3 Tp) as [Er Ok]. rewrite Ec, Er in Ei.
  assert (Is : Forall inner_file h).
  { pose proof (visible_tail (a ++ [c; d]) (h ++ rest)) as V. rewrite <- app_assoc in Ei3. specialize (V Ei3). apply Forall_app in V as [V _]. rewrite Forall_forall in *. intros x I. specialize (V x I). specialize (Fbf x I). unfold g in Fbf. split; [exact V|]. unfold is_slash. lia. }
  assert (Sb : starts_path file_url b).
  { destruct b as [|y b]; [now left|right]. exists y, b. split; [reflexivity|]. destruct Fa as [Fa|(c' & r & Fa & Fc)]; [rewrite Fa in Er; discriminate Er|]. rewrite Fa in Er. injection Er as -> _.
    destruct Ok as (_ & N1 & N2 & _). unfold path_sep. change (is_special file_url) with true. cbn [andb]. unfold g in Fc. assert (y <> 0x3F) by (intros ->; apply N1; now left). assert (y <> 0x23) by (intros ->; apply N2; now left). lia. }
  assert (Fin : forall hh y, finish (set_host (Some hh) file_url) y oq of = Url f [] [] (Some hh) None (path_of f y) (query_of f oq) (fragment_of of) false).
  { intros hh y. unfold finish. rewrite <- (path_of_eq (set_host (Some hh) file_url)). destruct oq, of; reflexivity. }
  pose proof (fun hh Ph => run_file_all idna input base fuel Fu a u c d h b oq of hh Ei Uf Sc Sd Is Sb Ok Ph) as K. unfold file_authority in K.
  destruct (is_windows_drive_letter h) eqn:Dl.
  { intros H. apply Val_inj in H. subst o. rewrite <- Fin. apply (K HNone). intros _ X. discriminate X. }
  destruct h as [|h0 h]; [intros H; apply Val_inj in H; subst o; rewrite <- Fin; apply (K HNone); intros X; congruence|].
  intros H. destruct (ph (h0 :: h) false) as [hh| |] eqn:Ph; try discriminate H. cbn [obind] in H.
  destruct hh ; try discriminate H; apply Val_inj in H; subst o; rewrite <- ?Fin.
  all: match goal with Ph : _ = Val ?h |- _ => exact (K h (fun _ _ => conj eq_refl I)) end.
Qed.

(** ** All of it *)

Lemma parser_here o : url_of ph input base = Val o -> G_ (start None UTF_8 empty_url) o.
Proof.
  unfold url_of. destruct (scheme_cut input) as [[s t]|] eqn:Cu.
  - apply scheme_cut_some in Cu as [Ei Sc]. cbv zeta. set (sc := map cp_lower s). set (v := scheme_url s).
    assert (Ei2 : input = (s ++ [0x3A]) ++ t) by (rewrite Ei, <- app_assoc; reflexivity).
    assert (Fi : is_file v = eqs sc (lit "file")) by reflexivity. assert (Sp : is_special v = special_of sc) by (unfold is_special; now rewrite special_of_eq).
    pose proof (colon_url idna input base fuel Fu s _ Ei) as H. cbv zeta in H. fold v in H. rewrite Fi, Sp in H.
    assert (Gs : forall st r, H_ (here Scheme (map cp_lower s) s empty_url) = go st (here Scheme [] s v) -> R (here st [] (s ++ [0x3A]) v) r -> R (start None UTF_8 empty_url) r).
    { intros st r E K. apply (run_scheme idna input base fuel Fu s _ r Ei Sc); [discriminate|]. exact (hstep idna input base fuel Fu _ _ _ _ _ _ _ _ _ r Ei E K). }
    destruct (eqs sc (lit "file")) eqn:Fe.
    { intros K. apply (gives_from idna input base fuel _ (here File [] (s ++ [0x3A]) v)); [intros r; exact (Gs _ r H)|]. apply (file_here _ _ t); [|exact Ei2|exact K]. apply eqs_eq in Fe. unfold v, scheme_url. fold sc. now rewrite Fe. }
    destruct (special_of sc) eqn:Sps; cbn [andb] in H.
    + change (scheme v) with sc in H.
      assert (Au : forall r', same_scheme base sc = false -> t = r' -> authority_at ph sc (drop_slashes r') = Val o -> G_ (start None UTF_8 empty_url) o).
      { intros r' Ss <- K. rewrite Ss in H. destruct (drop_slashes_ok t) as (sl & Et & Fs & Ns).
        apply (gives_from idna input base fuel _ (here Authority [] ((s ++ [0x3A]) ++ sl) v)).
        - intros r X. apply (Gs _ r H). apply (run_slashes idna input base fuel Fu sl v _ (drop_slashes t)); auto. rewrite Ei2, Et at 1. reflexivity.
        - apply (authority_here _ sc (drop_slashes t)); [|exact K]. rewrite <- app_assoc, <- Et. exact Ei2. }
      assert (So : match same_only base sc with Some b => base = Some b /\ eqs (scheme b) sc = true | None => same_scheme base sc = false end).
      { unfold same_only, same_scheme. destruct base as [b|]; [|reflexivity]. destruct (eqs (scheme b) sc) eqn:E; auto. }
      destruct (same_only base sc) as [b|]; [|now apply Au]. destruct So as [Eb Es]. unfold same_scheme in H. rewrite Eb, Es in H. rewrite <- ?Eb in H. apply eqs_eq in Es. clear Au. unfold two_slashes.
      assert (Rel : (forall t', t <> 0x2F :: 0x2F :: t') -> relative_at ph b t = Val o -> G_ (start None UTF_8 empty_url) o).
      { intros Nt K. apply (gives_from idna input base fuel _ (here Relative [] (s ++ [0x3A]) (bare b))).
        - intros r. apply (run_same_scheme idna input base fuel Fu b s t r); auto; unfold is_special, is_file; rewrite Es; [now rewrite <- special_of_eq|exact Fe].
        - apply (relative_here b _ _ t); auto. unfold is_file. rewrite Es. exact Fe. }
      destruct t as [|c [|d r]]; [apply Rel; discriminate|apply Rel; discriminate|]. destruct ((c =? 0x2F) && (d =? 0x2F)) eqn:Cd.
      * apply andb_true_iff in Cd as [C D]. apply Z.eqb_eq in C, D. subst c d. intros K. destruct (drop_slashes_ok r) as (sl & Et & Fs & Ns).
        apply (gives_from idna input base fuel _ (here Authority [] ((s ++ [0x3A]) ++ 0x2F :: 0x2F :: sl) v)).
        -- intros r0 X. apply (Gs _ r0 H). apply (run_slashes_base idna input base fuel Fu sl v _ (drop_slashes r)); auto. rewrite Ei2, Et at 1. reflexivity.
        -- apply (authority_here _ sc (drop_slashes r)); [|exact K]. rewrite <- app_assoc. cbn [app]. rewrite <- Et. exact Ei2.
      * apply Rel. intros t' E. injection E as -> -> _. discriminate Cd.
    + assert (Op : (forall d r, t <> 0x2F :: d :: r) -> opaque_at sc t = Val o -> G_ (start None UTF_8 empty_url) o).
      { unfold opaque_at. intros Nt. destruct (tail_parts t) as [[b oq] of] eqn:Tp. destruct (tail_parts_tail _ _ _ _ _ Ei2 Tp) as [Et Ok]. intros K. injection K as <-. rewrite Et in Ei.
        assert (D : hd 0 b <> 0x2F \/ b ++ qtext oq ++ ftext of = [0x2F]).
        { destruct b as [|c b]; [left; discriminate|]. destruct (Z.eq_dec c 0x2F) as [->|N]; [|now left]. right. rewrite <- Et. destruct t as [|x [|y z]]; [discriminate Et|injection Et as -> _; reflexivity|]. injection Et as -> _. destruct (Nt y z eq_refl). }
        pose proof (parse_opaque idna input base fuel Fu s b oq of Ei Sc Sp D Ok) as K.
        replace (Url sc [] [] None None [pe is_c0_control_percent_encode_set b] (query_of sc oq) (fragment_of of) true) with (opaque_url s b oq of); [exact K|].
        unfold opaque_url. destruct oq as [q|]; [|destruct of; reflexivity]. cbn [with_query query_of option_map]. rewrite <- query_of_eq. destruct of; reflexivity. }
      destruct t as [|c [|d r]]; [apply Op; discriminate|apply Op; discriminate|]. destruct (c =? 0x2F) eqn:C; [apply Z.eqb_eq in C; subst c|apply Op; intros x y E; injection E as -> _ _; discriminate C].
      clear Op. destruct (d =? 0x2F) eqn:D; [apply Z.eqb_eq in D; subst d|].
      * intros K. apply (gives_from idna input base fuel _ (here Authority [] (s ++ [0x3A; 0x2F; 0x2F]) v)); [|apply (authority_here _ sc r); [rewrite Ei, <- app_assoc; reflexivity|exact K]].
        assert (Sz : size input = zlen s + 3 + zlen r) by (change (size input) with (zlen input); rewrite Ei, zlen_app, !zlen_cons; lia). pose proof (zlen_pos r) as Zr.
        change (0x2F =? 0x2F) with true in H. cbv iota in H. set (p2 := here PathOrAuthority [] (s ++ [0x3A; 0x2F]) v).
        assert (Ei3 : input = (s ++ [0x3A; 0x2F]) ++ 0x2F :: r) by (rewrite Ei, <- app_assoc; reflexivity).
        intros q X. apply (run_scheme idna input base fuel Fu s _ q Ei Sc); [discriminate|]. apply (step idna input base fuel Fu _ _ _ H); [unfold here, move; pj; lia|].
        match goal with |- R ?x q => replace x with p2 by (hp p2) end.
        apply (hstep idna input base fuel Fu PathOrAuthority [] _ _ _ v Authority [] v q Ei3); [|rewrite <- app_assoc; exact X].
        change (H_ (here PathOrAuthority [] (s ++ [0x3A; 0x2F]) v)) with (on_path_or_authority p2 (current input p2)). unfold on_path_or_authority. unfold p2. rewrite (hcur input fuel Fu _ _ _ _ _ _ Ei3). reflexivity.
      * intros K. assert (Ei3 : input = (s ++ [0x3A; 0x2F]) ++ d :: r) by (rewrite Ei, <- app_assoc; reflexivity).
        destruct (tail_parts (d :: r)) as [[b oq] of] eqn:Tp. destruct (tail_parts_tail _ _ _ _ _ Ei3 Tp) as [Et Ok]. rewrite Et in Ei. injection K as <-.
        replace (Some _) with (Some (finish v (0x2F :: b) oq of)).
        -- apply (parse_other_path idna input base fuel Fu s b oq of Ei Sc Sp); [rewrite <- Et; discriminate| |exact Ok]. destruct b as [|y b]; [discriminate|]. injection Et as <- _. cbn [hd]. lia.
        -- unfold finish. rewrite <- path_of_eq. change (scheme v) with sc. f_equal. destruct oq as [q|]; [|destruct of; reflexivity]. cbn [with_query query_of option_map]. rewrite <- query_of_eq. destruct of; reflexivity.
  - apply scheme_cut_none in Cu. destruct base as [b|] eqn:Eb.
    2:{ intros H. injection H as <-. apply no_base; auto. }
    rewrite <- Eb. destruct (cannot_be_base b) eqn:Cb.
    { destruct input as [|c f] eqn:Ei; rewrite <- ?Ei in *.
      - intros H. injection H as <-. apply (opaque_base idna input base fuel Fu b); auto. rewrite Ei. discriminate.
      - intros H. injection H as <-. destruct (c =? 0x23) eqn:C; [apply Z.eqb_eq in C; subst c|].
        + apply (opaque_base_fragment idna input base fuel Fu b f Ei); auto. rewrite Ei in Vi. now inversion Vi.
        + apply (opaque_base idna input base fuel Fu b); auto. rewrite Ei. cbn [hd]. lia. }
    destruct (eqs (scheme b) (lit "file")) eqn:Fe; intros H.
    + apply (gives_from idna input base fuel _ (here File [] [] empty_url)); [intros r; apply (run_to_file idna input base fuel Fu b); auto|].
      apply (file_here [] empty_url input); auto. unfold file_only. rewrite Eb, Fe. now rewrite <- Eb.
    + apply (gives_from idna input base fuel _ (here Relative [] [] empty_url)); [intros r; apply (run_to_relative idna input base fuel Fu b); auto|].
      apply (relative_here b [] empty_url input); auto.
Qed.
End Computes.
