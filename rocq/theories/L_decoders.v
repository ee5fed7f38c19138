(** What the legacy decoders do with every byte string: the division of the bytes into characters and errors (specification), and the runs that follow it. *)
From Coq Require Import ZArith List Bool Lia.
From Verif Require Import M_unicode M_infra M_percent M_encoding L_encoding L_encoding2 L_enc_utf8.
From Verif Require Import M_index_single M_index_big5 M_index_euc_kr M_index_gb18030 M_index_jis.
Import ListNotations.
Open Scope Z_scope.

(** * Specification *)

(** The code points of a character, an error, or a failed assertion, after which there is nothing. *)
Inductive piece := Text (l : list Z) | Wrong | Broken.

Definition within (lo a hi : Z) : bool := (lo <=? a) && (a <=? hi).
(** The code point at a place of an index; 4294967295 marks the places that have none. *)
Definition entry (t : list Z) (p : Z) : option Z :=
  match nth_error t (Z.to_nat p) with
  | Some cp => if cp =? 4294967295 then None else Some cp
  | None => None
  end.

(** Bytes 00 to 7F stand for themselves; a lead byte 81 to FE and a trail byte 41 to FE are one character. When the two bytes are no character, an ASCII trail byte is read again. *)
Fixpoint euc_kr_pieces (l : list Z) : list piece :=
  match l with
  | [] => []
  | a :: r =>
      if a <=? 0x7F then Text [a] :: euc_kr_pieces r
      else if within 0x81 a 0xFE then
        match r with
        | [] => [Wrong]
        | b :: r' =>
            match (if within 0x41 b 0xFE then entry index_code_point_euc_kr ((a - 0x81) * 190 + (b - 0x41)) else None) with
            | Some cp => Text [cp] :: euc_kr_pieces r'
            | None => Wrong :: (if b <=? 0x7F then euc_kr_pieces r else euc_kr_pieces r')
            end
        end
      else Wrong :: euc_kr_pieces r
  end.

(** Shift_JIS: 80 stands for itself, A1 to DF are half-width katakana, F040 to F9FC private use. *)
Definition sjis_pair (a b : Z) : option Z :=
  if within 0x40 b 0x7E || within 0x80 b 0xFC then
    let p := (a - (if a <=? 0x9F then 0x81 else 0xC1)) * 188 + (b - (if b <=? 0x7E then 0x40 else 0x41)) in
    if within 0xF0 a 0xF9 then Some (0xE000 + (a - 0xF0) * 188 + (b - (if b <=? 0x7E then 0x40 else 0x41)))
    else entry index_code_point_jis0208 p
  else None.
Fixpoint sjis_pieces (l : list Z) : list piece :=
  match l with
  | [] => []
  | a :: r =>
      if a <=? 0x80 then Text [a] :: sjis_pieces r
      else if within 0xA1 a 0xDF then Text [0xFF61 + (a - 0xA1)] :: sjis_pieces r
      else if within 0x81 a 0x9F || within 0xE0 a 0xFC then
        match r with
        | [] => [Wrong]
        | b :: r' =>
            match sjis_pair a b with
            | Some cp => Text [cp] :: sjis_pieces r'
            | None => Wrong :: (if b <=? 0x7F then sjis_pieces r else sjis_pieces r')
            end
        end
      else Wrong :: sjis_pieces r
  end.

(** EUC-JP: 8E is followed by half-width katakana, 8F by two bytes of JIS X 0212; A1 to FE is the lead byte of JIS X 0208. *)
Definition kuten (t : list Z) (a b : Z) : option Z :=
  if within 0xA1 b 0xFE then entry t ((a - 0xA1) * 94 + (b - 0xA1)) else None.
Fixpoint euc_jp_pieces (l : list Z) : list piece :=
  match l with
  | [] => []
  | a :: r =>
      if a <=? 0x7F then Text [a] :: euc_jp_pieces r
      else if (a =? 0x8E) || (a =? 0x8F) || within 0xA1 a 0xFE then
        match r with
        | [] => [Wrong]
        | b :: r' =>
            if (a =? 0x8F) && within 0xA1 b 0xFE then
              match r' with
              | [] => [Wrong]
              | c :: r'' =>
                  match kuten index_code_point_jis0212 b c with
                  | Some cp => Text [cp] :: euc_jp_pieces r''
                  | None => Wrong :: (if c <=? 0x7F then euc_jp_pieces r' else euc_jp_pieces r'')
                  end
              end
            else
              match (if a =? 0x8E then (if within 0xA1 b 0xDF then Some (0xFF61 + (b - 0xA1)) else None)
                     else if a =? 0x8F then None else kuten index_code_point_jis0208 a b) with
              | Some cp => Text [cp] :: euc_jp_pieces r'
              | None => Wrong :: (if b <=? 0x7F then euc_jp_pieces r else euc_jp_pieces r')
              end
        end
      else Wrong :: euc_jp_pieces r
  end.

(** Big5: a lead byte 81 to FE and a trail byte 40 to 7E are one character; 8862, 8864, 88A3 and 88A5 of the standard are two code points, of which only 8862 and 8864 have such a trail byte. [high] tells whether the trail bytes A1 to FE are accepted, as they are in the standard. *)
Definition big5_pair (high : bool) (a b : Z) : option (list Z) :=
  if within 0x40 b 0x7E || (high && within 0xA1 b 0xFE) then
    if (a =? 0x88) && (b =? 0x62) then Some [0xCA; 0x304]
    else if (a =? 0x88) && (b =? 0x64) then Some [0xCA; 0x30C]
    else if (a =? 0x88) && (b =? 0xA3) then Some [0xEA; 0x304]
    else if (a =? 0x88) && (b =? 0xA5) then Some [0xEA; 0x30C]
    else option_map (fun cp => [cp]) (entry index_code_point_big5 ((a - 0x81) * 157 + (b - (if b <=? 0x7E then 0x40 else 0x62))))
  else None.
Fixpoint big5_pieces (high : bool) (l : list Z) : list piece :=
  match l with
  | [] => []
  | a :: r =>
      if a <=? 0x7F then Text [a] :: big5_pieces high r
      else if within 0x81 a 0xFE then
        match r with
        | [] => [Wrong]
        | b :: r' =>
            match big5_pair high a b with
            | Some t => Text t :: big5_pieces high r'
            | None => Wrong :: (if b <=? 0x7F then big5_pieces high r else big5_pieces high r')
            end
        end
      else Wrong :: big5_pieces high r
  end.

(** gb18030: one byte, two bytes, or four bytes of which the second and fourth are digits. The four bytes are a number; the code point is found in the last range that begins at or before it. *)
Definition range_cp (p : Z) : option Z :=
  if p =? 7457 then Some 0xE7C7
  else if (p <=? 39419) || within 189000 p 1237575
  then fold_left (fun acc e => if fst e <=? p then Some (snd e + (p - fst e)) else acc) index_code_point_gb18030_ranges None
  else None.
Definition gb_two (a b : Z) : option Z :=
  if within 0x40 b 0x7E || within 0x80 b 0xFE then entry index_code_point_gb18030 ((a - 0x81) * 190 + (b - (if b <=? 0x7E then 0x40 else 0x41))) else None.
Definition gb_number (a b c d : Z) : Z := ((a - 0x81) * 10 + (b - 0x30)) * 1260 + (c - 0x81) * 10 + (d - 0x30).
(** [full] tells whether the code points above U+10000 are decoded, as they are in the standard. *)
Fixpoint gb_pieces (full : bool) (l : list Z) : list piece :=
  match l with
  | [] => []
  | a :: r =>
      if a <=? 0x7F then Text [a] :: gb_pieces full r
      else if a =? 0x80 then Text [0x20AC] :: gb_pieces full r
      else if within 0x81 a 0xFE then
        match r with
        | [] => [Wrong]
        | b :: r2 =>
            if within 0x30 b 0x39 then
              match r2 with
              | [] => [Wrong]
              | c :: r3 =>
                  if within 0x81 c 0xFE then
                    match r3 with
                    | [] => [Wrong]
                    | d :: r4 =>
                        if within 0x30 d 0x39 then
                          if negb full && within 189001 (gb_number a b c d) 1237575 then [Broken]
                          else match range_cp (gb_number a b c d) with
                               | Some cp => Text [cp] :: gb_pieces full r4
                               | None => Wrong :: gb_pieces full r4
                               end
                        else Wrong :: gb_pieces full r
                    end
                  else Wrong :: gb_pieces full r
              end
            else
              match gb_two a b with
              | Some cp => Text [cp] :: gb_pieces full r2
              | None => Wrong :: (if b <=? 0x7F then gb_pieces full r else gb_pieces full r2)
              end
        end
      else Wrong :: gb_pieces full r
  end.

(** ISO-2022-JP: the character set in use, and whether it was chosen by the bytes just read. An escape sequence directly after another is an error, but is obeyed. [full] tells whether a sequence cut off after its second byte is an error, as in the standard. *)
Inductive charset := Ascii | Roman | Katakana | Jis.
Definition escape_set (a b : Z) : option charset :=
  if a =? 0x28 then (if b =? 0x42 then Some Ascii else if b =? 0x4A then Some Roman else if b =? 0x49 then Some Katakana else None)
  else if a =? 0x24 then (if (b =? 0x40) || (b =? 0x42) then Some Jis else None)
  else None.
Definition jp_single (s : charset) (a : Z) : option Z :=
  match s with
  | Katakana => if within 0x21 a 0x5F then Some (0xFF61 + (a - 0x21)) else None
  | Jis => None
  | _ => if (0x7F <? a) || (a =? 0xE) || (a =? 0xF) then None
         else match s with
              | Roman => if a =? 0x5C then Some 0xA5 else if a =? 0x7E then Some 0x203E else Some a
              | _ => Some a
              end
  end.
Fixpoint jp_pieces (full : bool) (s : charset) (fresh : bool) (l : list Z) : list piece :=
  match l with
  | [] => []
  | a :: r =>
      if a =? 0x1B then
        match r with
        | [] => [Wrong]
        | b :: r2 =>
            if (b =? 0x24) || (b =? 0x28) then
              match r2 with
              | [] => if full then Wrong :: jp_pieces full s false r else [Broken]
              | c :: r3 =>
                  match escape_set b c with
                  | Some t => if fresh then Wrong :: jp_pieces full t true r3 else jp_pieces full t true r3
                  | None => Wrong :: jp_pieces full s false r
                  end
              end
            else Wrong :: jp_pieces full s false r
        end
      else
        match s with
        | Jis =>
            if within 0x21 a 0x7E then
              match r with
              | [] => [Wrong]
              | b :: r2 =>
                  if b =? 0x1B then Wrong :: jp_pieces full s false r
                  else match (if within 0x21 b 0x7E then entry index_code_point_jis0208 ((a - 0x21) * 94 + (b - 0x21)) else None) with
                       | Some cp => Text [cp] :: jp_pieces full s false r2
                       | None => Wrong :: jp_pieces full s false r2
                       end
              end
            else Wrong :: jp_pieces full s false r
        | _ => match jp_single s a with
               | Some cp => Text [cp] :: jp_pieces full s false r
               | None => Wrong :: jp_pieces full s false r
               end
        end
  end.

(** UTF-16: two bytes are a unit; a high surrogate and a low surrogate are a code point. A unit after an unpaired high surrogate is read again; [exact] tells whether it is read unchanged, as in the standard, or with its high byte replaced by 0 or 1. *)
Definition unit_of (be : bool) (a b : Z) : Z := if be then a * 256 + b else b * 256 + a.
Definition is_low (u : Z) : bool := within 0xDC00 u 0xDFFF.
Definition is_high (u : Z) : bool := within 0xD800 u 0xDBFF.
Fixpoint utf16_pieces (exact be : bool) (l : list Z) : list piece :=
  match l with
  | [] => []
  | [_] => [Wrong]
  | a :: b :: r =>
      let u := unit_of be a b in
      if is_low u then Wrong :: utf16_pieces exact be r
      else if is_high u then
        match r with
        | [] => [Wrong]
        | [_] => [Wrong]
        | c :: d :: r2 =>
            let v := unit_of be c d in
            if is_low v then Text [0x10000 + (u - 0xD800) * 1024 + (v - 0xDC00)] :: utf16_pieces exact be r2
            else if exact then Wrong :: utf16_pieces exact be r
            else Wrong :: Text [(if 8 <? v then 256 else 0) + v mod 256] :: utf16_pieces exact be r2
        end
      else Text [u] :: utf16_pieces exact be r
  end.

(** The code points of a division, and those before the first error with what stands there. *)
Fixpoint texts (ps : list piece) : list Z :=
  match ps with [] => [] | Text l :: r => l ++ texts r | _ :: r => texts r end.
Fixpoint before_fault (ps : list piece) : list Z * option piece :=
  match ps with
  | [] => ([], None)
  | Text l :: r => let '(t, w) := before_fault r in (l ++ t, w)
  | p :: _ => ([], Some p)
  end.

(** * Traces *)

Inductive trace : coder -> list Z -> list piece -> Prop :=
| tr_end c : (forall q, run c q end_of_queue = Some (Finished, c, q)) -> trace c [] []
| tr_cut c c' e : (forall q, exists q', run c q end_of_queue = Some (Error e, c', q') /\ (q' = q \/ q' = end_of_queue :: q)) ->
    e = no_cp -> (forall q, run c' q end_of_queue = Some (Finished, c', q)) -> trace c [] [Wrong]
| tr_broken_end c : (forall q, run c q end_of_queue = None) -> trace c [] [Broken]
| tr_text c v l t c' p ps : run c [] (Item v false) = Some (Out t, c', plain p) -> trace c' (p ++ l) ps -> trace c (v :: l) (Text t :: ps)
| tr_more c v l c' p ps : run c [] (Item v false) = Some (Continue, c', plain p) -> trace c' (p ++ l) ps -> trace c (v :: l) ps
| tr_wrong c v l c' p ps : run c [] (Item v false) = Some (Error no_cp, c', plain p) -> trace c' (p ++ l) ps -> trace c (v :: l) (Wrong :: ps)
| tr_broken c v l : run c [] (Item v false) = None -> trace c (v :: l) [Broken].

Definition quiet (m : mode) : Prop := m = Replacement \/ m = M_none.

Lemma step_queue m c v l r c' p : run c [] (Item v false) = Some (r, c', plain p) -> goes m r = true ->
  forall fuel out q, process_queue (S fuel) c (plain (v :: l) ++ q) out m = process_queue fuel c' (plain (p ++ l) ++ q) (q_push_values out (emit m r)) m.
Proof.
  intros E G fuel out q. cbn [process_queue]. rewrite q_read_plain.
  assert (E' : run c (plain l ++ q) (Item v false) = Some (r, c', plain (p ++ l) ++ q)) by (rewrite run_plain, E, plain_app, <- app_assoc; reflexivity).
  rewrite (process_item_goes _ _ _ _ _ _ _ _ E' G). reflexivity.
Qed.

Lemma trace_quiet m c l ps : quiet m -> trace c l ps -> exists N, forall fuel out, (N <= fuel)%nat ->
  if existsb (fun p => match p with Broken => true | _ => false end) ps
  then process_queue fuel c (plain l ++ [end_of_queue]) out m = Bad
  else exists c' q', process_queue fuel c (plain l ++ [end_of_queue]) out m = Val (Finished, c', q', q_push (q_push_values out (texts ps)) end_of_queue).
Proof.
  intros M. assert (Ge : goes m (Error no_cp) = true) by (destruct M as [-> | ->]; reflexivity).
  assert (Ee : emit m (Error no_cp) = []) by (destruct M as [-> | ->]; reflexivity).
  assert (Qf : forall c fuel out q, (forall q, run c q end_of_queue = Some (Finished, c, q)) -> exists c' q', process_queue (S fuel) c (end_of_queue :: q) out m = Val (Finished, c', q', q_push out end_of_queue)).
  { intros c0 fuel out q H. cbn [process_queue]. change (q_read (end_of_queue :: q)) with (Some (end_of_queue, end_of_queue :: q)). cbv iota. unfold process_item. rewrite H. eauto. }
  induction 1 as [c H|c c' e H1 H2 H3|c H|c v l t c' p ps H _ [N IH]|c v l c' p ps H _ [N IH]|c v l c' p ps H _ [N IH]|c v l H].
  - exists 1%nat. intros [|fuel] out L; [lia|]. cbn [existsb plain map app texts]. apply Qf. exact H.
  - exists 2%nat. intros [|[|fuel]] out L; [lia|lia|]. cbn [existsb plain map app texts]. destruct (H1 [end_of_queue]) as (q' & E & Q'). subst e.
    remember (S fuel) as f. cbn [process_queue]. change (q_read [end_of_queue]) with (Some (end_of_queue, [end_of_queue])). cbv iota. rewrite (process_item_goes _ _ _ _ _ _ _ _ E Ge), Ee. subst f.
    destruct Q' as [-> | ->]; apply Qf; exact H3.
  - exists 1%nat. intros [|fuel] out L; [lia|]. cbn [existsb plain map app]. cbn [orb]. cbn [process_queue]. change (q_read [end_of_queue]) with (Some (end_of_queue, [end_of_queue])). cbv iota. unfold process_item. rewrite H. reflexivity.
  - exists (S N). intros [|fuel] out L; [lia|]. specialize (IH fuel (q_push_values out t) ltac:(lia)). cbn [existsb orb texts]. rewrite (step_queue m _ _ _ _ _ _ H eq_refl), q_push_values_app. exact IH.
  - exists (S N). intros [|fuel] out L; [lia|]. specialize (IH fuel out ltac:(lia)). rewrite (step_queue m _ _ _ _ _ _ H eq_refl). exact IH.
  - exists (S N). intros [|fuel] out L; [lia|]. specialize (IH fuel out ltac:(lia)). rewrite (step_queue m _ _ _ _ _ _ H Ge), Ee. exact IH.
  - exists 1%nat. intros [|fuel] out L; [lia|]. cbn [existsb orb process_queue]. rewrite q_read_plain. unfold process_item. rewrite run_plain, H. reflexivity.
Qed.

Lemma trace_fatal c l ps : trace c l ps -> exists N, forall fuel out, (N <= fuel)%nat ->
  match before_fault ps with
  | (t, None) => exists c' q', process_queue fuel c (plain l ++ [end_of_queue]) out Fatal = Val (Finished, c', q', q_push (q_push_values out t) end_of_queue)
  | (t, Some Broken) => process_queue fuel c (plain l ++ [end_of_queue]) out Fatal = Bad
  | (t, Some _) => exists c' q', process_queue fuel c (plain l ++ [end_of_queue]) out Fatal = Val (Error no_cp, c', q', q_push_values out t)
  end.
Proof.
  induction 1 as [c H|c c' e H1 H2 H3|c H|c v l t c' p ps H _ [N IH]|c v l c' p ps H _ [N IH]|c v l c' p ps H _ [N IH]|c v l H].
  - exists 1%nat. intros [|fuel] out L; [lia|]. cbn [before_fault plain map app]. cbn [process_queue]. change (q_read [end_of_queue]) with (Some (end_of_queue, [end_of_queue])). cbv iota. unfold process_item. rewrite H. eauto.
  - exists 1%nat. intros [|fuel] out L; [lia|]. cbn [before_fault plain map app]. destruct (H1 [end_of_queue]) as (q' & E & Q'). subst e.
    cbn [process_queue]. change (q_read [end_of_queue]) with (Some (end_of_queue, [end_of_queue])). cbv iota. unfold process_item. rewrite E. eauto.
  - exists 1%nat. intros [|fuel] out L; [lia|]. cbn [before_fault plain map app]. cbn [process_queue]. change (q_read [end_of_queue]) with (Some (end_of_queue, [end_of_queue])). cbv iota. unfold process_item. rewrite H. reflexivity.
  - exists (S N). intros [|fuel] out L; [lia|]. specialize (IH fuel (q_push_values out t) ltac:(lia)). cbn [before_fault]. rewrite (step_queue Fatal _ _ _ _ _ _ H eq_refl). cbn [emit]. destruct (before_fault ps) as [t' [w|]].
    + destruct w; rewrite ?q_push_values_app; exact IH.
    + rewrite q_push_values_app. exact IH.
  - exists (S N). intros [|fuel] out L; [lia|]. specialize (IH fuel out ltac:(lia)). rewrite (step_queue Fatal _ _ _ _ _ _ H eq_refl). exact IH.
  - exists 1%nat. intros [|fuel] out L; [lia|]. cbn [before_fault process_queue]. rewrite q_read_plain. unfold process_item. rewrite run_plain, H. eauto.
  - exists 1%nat. intros [|fuel] out L; [lia|]. cbn [before_fault process_queue]. rewrite q_read_plain. unfold process_item. rewrite run_plain, H. reflexivity.
Qed.
