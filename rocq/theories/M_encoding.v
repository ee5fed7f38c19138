(** Model of the encoding library: I/O queue, decoders, encoders, processing, hooks and TextDecoder.
    Source: include/wordring/whatwg/encoding/{terminology,coder,encoding_defs,encoding,api}.hpp and
    lib/whatwg/encoding/encoding.cpp. Bytes are 0..255, code points are integers. Definitions only. *)
From Coq Require Import ZArith List Bool.
From Verif Require Import M_unicode M_infra M_percent.
From Verif Require Import M_index_single M_index_big5 M_index_euc_kr M_index_gb18030 M_index_jis.
Import ListNotations.
Open Scope Z_scope.

(** Result of a loop: a value, a failed [assert] (or undefined behaviour), or not finished within the
    number of iterations allowed. *)
Inductive outcome (A : Type) : Type :=
| Val (a : A)
| Bad
| NoFuel.
Arguments Val {A} a.
Arguments Bad {A}.
Arguments NoFuel {A}.

(** * I/O queue *)

(** terminology.hpp:25-32 *)
Record item := Item { value : Z; eoq : bool }.
Definition end_of_queue : item := Item 0 true.
(** terminology.hpp:54-55, 210 (std::deque) *)
Definition queue := list item.

(** terminology.hpp:79-87; [None] is m_wait == true. *)
Definition q_read (q : queue) : option (item * queue) :=
  match q with
  | [] => None
  | c :: r => if eoq c then Some (c, q) else Some (c, r)
  end.

(** terminology.hpp:113: [n] single reads; the queue is not empty. *)
Fixpoint q_reads (n : nat) (q : queue) : list item * queue :=
  match n with
  | O => ([], q)
  | S n =>
      match q_read q with
      | Some (c, q1) => let '(l, q2) := q_reads n q1 in (c :: l, q2)
      | None => ([], q)
      end
  end.

(** terminology.hpp:106-118: [Bad] is back() of an empty vector (n = 0); inner [None] is waiting. *)
Definition q_read_n (n : nat) (q : queue) : outcome (option (list item) * queue) :=
  if (length q <? n)%nat then Val (None, q)
  else
    let '(l, q1) := q_reads n q in
    match rev l with
    | [] => Bad
    | b :: r => Val (Some (if eoq b then rev r else l), q1)
    end.

(** terminology.hpp:134-138 *)
Fixpoint q_prefix (q : queue) : list item :=
  match q with
  | [] => []
  | p :: r => if eoq p then [] else p :: q_prefix r
  end.

(** m_q.back().m_eoq on a queue that may be empty (terminology.hpp:130, 155). *)
Definition q_closed (q : queue) : bool :=
  match rev q with
  | [] => false
  | b :: _ => eoq b
  end.

(** terminology.hpp:125-141; [Bad] is the assert, inner [None] is waiting. *)
Definition q_peek (n : nat) (q : queue) : outcome (option (list item)) :=
  if (n =? 0)%nat then Bad
  else if (length q <? n)%nat && negb (q_closed q) then Val None
  else Val (Some (q_prefix q)).

(** terminology.hpp:152-162 *)
Definition q_push (q : queue) (i : item) : queue :=
  match rev q with
  | b :: r => if eoq b then (if eoq i then q else rev r ++ [i; b]) else q ++ [i]
  | [] => q ++ [i]
  end.
(** terminology.hpp:164-167 *)
Definition q_push_value (q : queue) (v : Z) : queue := q_push q (Item v false).
(** terminology.hpp:169-177 *)
Definition q_push_values (q : queue) (l : list Z) : queue := fold_left q_push_value l q.
(** terminology.hpp:183-187 *)
Definition q_prepend (q : queue) (i : item) : queue := i :: q.
(** terminology.hpp:193-196 *)
Definition q_prepend_value (q : queue) (v : Z) : queue := q_prepend q (Item v false).
(** terminology.hpp:202-207: inserted in order at the front. *)
Definition q_prepend_values (q : queue) (l : list Z) : queue := map (fun v => Item v false) l ++ q.

(** terminology.hpp:222-231 *)
Definition from_queue (q : queue) : list Z := map value (q_prefix q).
(** terminology.hpp:237-245 *)
Definition to_queue (l : list Z) : queue := q_push (q_push_values [] l) end_of_queue.

(** * Results *)

(** encoding_defs.hpp:17-45. The variants holding code points or bytes (indexes 2 to 7) are one
    constructor with the list of them. *)
Inductive result :=
| Finished
| Continue
| Out (l : list Z)
| Error (cp : Z).
(** encoding_defs.hpp:30 *)
Definition no_cp : Z := 0xFFFFFFFF.

(** encoding_defs.hpp:47-53 *)
Inductive mode := M_none | Replacement | Fatal | Html.

(** * Indexes (section 5) *)

(** coder.hpp:20-27; the pointer parameter is uint16_t. *)
Definition get_index_code_point (index : list Z) (pointer : Z) : option Z :=
  match nth_error index (Z.to_nat (pointer mod 65536)) with
  | None => None
  | Some cp => if cp =? 4294967295 then None else Some cp
  end.

(** std::lower_bound / multimap::lower_bound on a sorted range: position of the first element not less
    than [x]. *)
Fixpoint lower_bound (l : list Z) (x : Z) : nat :=
  match l with
  | [] => O
  | y :: l' => if y <? x then S (lower_bound l' x) else O
  end.

(** coder.hpp:29-36 *)
Definition get_index_pointer (index_0 index_1 : list Z) (cp : Z) : option Z :=
  let i := lower_bound index_0 cp in
  match nth_error index_0 i with
  | None => None
  | Some y => if y =? cp then nth_error index_1 i else None
  end.

(** The element found by lines 45-53 and 71-79 of coder.hpp: outer [None] is the assert or a decrement
    of begin(). *)
Definition range_find (ranges : list (Z * Z)) (x : Z) : option (Z * Z) :=
  let i := lower_bound (map fst ranges) x in
  match nth_error ranges i with
  | None => None
  | Some e =>
      if negb (fst e =? x)
      then (match i with O => None | S j => nth_error ranges j end)
      else Some e
  end.

(** coder.hpp:38-58; outer [None] is the assert. *)
Definition get_index_gb18030_ranges_code_point (pointer : Z) : option (option Z) :=
  if ((39419 <? pointer) && (pointer <? 189000)) || (1237575 <? pointer) then Some None
  else if pointer =? 7457 then Some (Some 0xE7C7)
  else match range_find index_code_point_gb18030_ranges pointer with
       | None => None
       | Some e => Some (Some (snd e + (pointer - fst e)))
       end.

(** coder.hpp:65-85; [None] is the assert (also checked by the caller, lines 570-574). *)
Definition get_index_gb18030_ranges_pointer (cp : Z) : option Z :=
  if cp =? 0xE7C7 then Some 7457
  else match range_find index_pointer_gb18030_ranges cp with
       | None => None
       | Some e => Some (snd e + (cp - fst e))
       end.

(** infra.hpp is_ascii_byte / is_ascii_code_point *)
Definition is_ascii (b : Z) : bool := (0 <=? b) && (b <=? 0x7F).
Definition in_range (lo b hi : Z) : bool := (lo <=? b) && (b <=? hi).

(** * Decoder and encoder states (coder.hpp:1521-1597, the variant) *)

(** coder.hpp:194-199 *)
Record utf8_state := U8 { u8_cp : Z; u8_seen : Z; u8_needed : Z; u8_lower : Z; u8_upper : Z }.
(** coder.hpp:839-842 *)
Inductive jp_state := J_ascii | J_roman | J_katakana | J_lead | J_trail | J_escape_start | J_escape.
(** coder.hpp:1041-1044 *)
Inductive jpe_state := JE_ascii | JE_roman | JE_jis0208.

(** coder.hpp:1521-1597. The single-byte coders carry their tables; GBK shares the gb18030 decoder. *)
Inductive coder :=
| Error_encoder
| Error_decoder
| UTF8_decoder (s : utf8_state)
| UTF8_encoder
| Single_decoder (index : list Z)
| Single_encoder (index_0 index_1 : list Z)
| GB_decoder (first second third : Z)
| GB_encoder (gbk : bool)
| Big5_decoder (lead : Z)
| Big5_encoder
| EUC_JP_decoder (jis0212 : bool) (lead : Z)
| EUC_JP_encoder
| JP_decoder (state output_state : jp_state) (lead : Z) (output_flag : bool)
| JP_encoder (state : jpe_state)
| SJIS_decoder (lead : Z)
| SJIS_encoder
| EUC_KR_decoder (lead : Z)
| EUC_KR_encoder
| Replacement_decoder (returned : bool)
| UTF16_decoder (be : bool) (lead_byte lead_surrogate : option Z)
| User_decoder
| User_encoder.

(** What one call of run() returns: the result, the coder afterwards, the input queue afterwards.
    [None] is a failed assert. *)
Definition ran := option (result * coder * queue).

(** * UTF-8 *)

(** coder.hpp:111-118 *)
Definition utf8_init : utf8_state := U8 0 0 0 0x80 0xBF.

(** coder.hpp:122-192 *)
Definition utf8_run (s : utf8_state) (q : queue) (i : item) : ran :=
  let ret r s q := Some (r, UTF8_decoder s, q) in
  if eoq i && negb (u8_needed s =? 0)
  then ret (Error no_cp) (U8 (u8_cp s) (u8_seen s) 0 (u8_lower s) (u8_upper s)) q
  else if eoq i then ret Finished s q
  else
    let byte := value i mod 256 in
    if u8_needed s =? 0 then
      if in_range 0 byte 0x7F then ret (Out [byte]) s q
      else if in_range 0xC2 byte 0xDF
      then ret Continue (U8 (Z.land byte 0x1F) (u8_seen s) 1 (u8_lower s) (u8_upper s)) q
      else if in_range 0xE0 byte 0xEF
      then ret Continue (U8 (Z.land byte 0xF) (u8_seen s) 2
                            (if byte =? 0xE0 then 0xA0 else u8_lower s)
                            (if byte =? 0xED then 0x9F else u8_upper s)) q
      else if in_range 0xF0 byte 0xF4
      then ret Continue (U8 (Z.land byte 0x7) (u8_seen s) 3
                            (if byte =? 0xF0 then 0x90 else u8_lower s)
                            (if byte =? 0xF4 then 0x8F else u8_upper s)) q
      else ret (Error no_cp) s q
    else if negb (in_range (u8_lower s) byte (u8_upper s))
    then ret (Error no_cp) utf8_init (q_prepend_value q byte)
    else
      let cp := Z.lor (Z.shiftl (u8_cp s) 6 mod 2 ^ 32) (Z.land byte 0x3F) in
      let seen := u8_seen s + 1 in
      if negb (seen =? u8_needed s)
      then ret Continue (U8 cp seen (u8_needed s) 0x80 0xBF) q
      else ret (Out [cp]) (U8 0 0 0 0x80 0xBF) q.

(** coder.hpp:209-232: [count] continuation bytes. *)
Fixpoint utf8_tail (count : nat) (cp : Z) : list Z :=
  match count with
  | O => []
  | S n => Z.lor 0x80 (Z.land (Z.shiftr cp (6 * Z.of_nat n)) 0x3F) :: utf8_tail n cp
  end.
Definition utf8_bytes (count : nat) (offset cp : Z) : list Z :=
  ((Z.shiftr cp (6 * Z.of_nat count) + offset) mod 256) :: utf8_tail count cp.

(** coder.hpp:235-251 *)
Definition utf8_encoder_run (q : queue) (i : item) : ran :=
  let ret r := Some (r, UTF8_encoder, q) in
  if eoq i then ret Finished
  else
    let cp := value i in
    if is_ascii cp then ret (Out [cp mod 256])
    else if in_range 0x80 cp 0x7FF then ret (Out (utf8_bytes 1 0xC0 cp))
    else if in_range 0x800 cp 0xFFFF then ret (Out (utf8_bytes 2 0xE0 cp))
    else if in_range 0x10000 cp 0x10FFFF then ret (Out (utf8_bytes 3 0xF0 cp))
    else None.

(** * Single-byte encodings *)

(** coder.hpp:268-283 *)
Definition single_decoder_run (index : list Z) (q : queue) (i : item) : ran :=
  let ret r := Some (r, Single_decoder index, q) in
  if eoq i then ret Finished
  else
    let byte := value i mod 256 in
    if is_ascii byte then ret (Out [byte])
    else match get_index_code_point index (byte - 0x80) with
         | None => ret (Error no_cp)
         | Some cp => ret (Out [cp])
         end.

(** coder.hpp:294-309 *)
Definition single_encoder_run (index_0 index_1 : list Z) (q : queue) (i : item) : ran :=
  let ret r := Some (r, Single_encoder index_0 index_1, q) in
  if eoq i then ret Finished
  else
    let cp := value i in
    if is_ascii cp then ret (Out [cp mod 256])
    else match get_index_pointer index_0 index_1 cp with
         | None => ret (Error cp)
         | Some byte => ret (Out [(byte + 0x80) mod 256])
         end.

(** * gb18030 and GBK *)

(** coder.hpp:444-518 *)
Definition gb_decoder_run (first second third : Z) (q : queue) (i : item) : ran :=
  let ret r f s t q := Some (r, GB_decoder f s t, q) in
  if eoq i then
    if (first =? 0) && (second =? 0) && (third =? 0) then ret Finished first second third q
    else ret (Error no_cp) 0 0 0 q
  else
    let byte := value i mod 256 in
    if negb (third =? 0) then
      if negb (in_range 0x30 byte 0x39)
      then ret (Error no_cp) 0 0 0 (q_prepend_values q [second; third; byte])
      else
        match get_index_gb18030_ranges_code_point
                ((first - 0x81) * 12600 + (second - 0x30) * 1260 + (third - 0x81) * 10 + byte - 0x30) with
        | None => None
        | Some None => ret (Error no_cp) 0 0 0 q
        | Some (Some cp) => ret (Out [cp]) 0 0 0 q
        end
    else if negb (second =? 0) then
      if in_range 0x81 byte 0xFE then ret Continue first second byte q
      else ret (Error no_cp) 0 0 third (q_prepend_values q [second; byte])
    else if negb (first =? 0) then
      if in_range 0x30 byte 0x39 then ret Continue first byte third q
      else
        let offset := if byte <? 0x7F then 0x40 else 0x41 in
        let pointer := if in_range 0x40 byte 0x7E || in_range 0x80 byte 0xFE
                       then Some ((first - 0x81) * 190 + (byte - offset)) else None in
        let cp := match pointer with
                  | Some p => get_index_code_point index_code_point_gb18030 p
                  | None => None
                  end in
        match cp with
        | Some c => ret (Out [c]) 0 second third q
        | None => ret (Error no_cp) 0 second third (if is_ascii byte then q_prepend_value q byte else q)
        end
    else if is_ascii byte then ret (Out [byte]) first second third q
    else if byte =? 0x80 then ret (Out [0x20AC]) first second third q
    else if in_range 0x81 byte 0xFE then ret Continue byte second third q
    else ret (Error no_cp) first second third q.

(** coder.hpp:542-593 *)
Definition gb_encoder_run (gbk : bool) (q : queue) (i : item) : ran :=
  let ret r := Some (r, GB_encoder gbk, q) in
  if eoq i then ret Finished
  else
    let cp := value i in
    if is_ascii cp then ret (Out [cp mod 256])
    else if cp =? 0xE5E5 then ret (Error cp)
    else if gbk && (cp =? 0x20AC) then ret (Out [0x80])
    else match get_index_pointer index_pointer_gb18030_0 index_pointer_gb18030_1 cp with
         | Some pointer =>
             let lead := pointer / 190 + 0x81 in
             let trail := pointer mod 190 in
             let offset := if trail <? 0x3F then 0x40 else 0x41 in
             ret (Out [lead mod 256; (trail + offset) mod 256])
         | None =>
             if gbk then ret (Error cp)
             else match get_index_gb18030_ranges_pointer cp with
                  | None => None
                  | Some pointer =>
                      let byte1 := (pointer / 12600) mod 256 in
                      let pointer := pointer mod 12600 in
                      let byte2 := (pointer / 1260) mod 256 in
                      let pointer := pointer mod 1260 in
                      let byte3 := (pointer / 10) mod 256 in
                      let byte4 := (pointer mod 10) mod 256 in
                      ret (Out [(byte1 + 0x81) mod 256; (byte2 + 0x30) mod 256;
                                (byte3 + 0x81) mod 256; (byte4 + 0x30) mod 256])
                  end
         end.

(** * Big5 *)

(** coder.hpp:617-671 *)
Definition big5_decoder_run (lead : Z) (q : queue) (i : item) : ran :=
  let ret r l q := Some (r, Big5_decoder l, q) in
  if eoq i && negb (lead =? 0) then ret (Error no_cp) 0 q
  else if eoq i then ret Finished lead q
  else
    let byte := value i mod 256 in
    if negb (lead =? 0) then
      let offset := if byte <? 0x7F then 0x40 else 0x62 in
      let pointer := if in_range 0x40 byte 0x7E
                     then Some (((lead - 0x81) * 157 + (byte - offset)) mod 65536) else None in
      match pointer with
      | Some p =>
          if p =? 1133 then ret (Out [0xCA; 0x304]) 0 q
          else if p =? 1135 then ret (Out [0xCA; 0x30C]) 0 q
          else if p =? 1164 then ret (Out [0xEA; 0x304]) 0 q
          else if p =? 1166 then ret (Out [0xEA; 0x30C]) 0 q
          else match get_index_code_point index_code_point_big5 p with
               | Some cp => ret (Out [cp]) 0 q
               | None => ret (Error no_cp) 0 (if is_ascii byte then q_prepend_value q byte else q)
               end
      | None => ret (Error no_cp) 0 (if is_ascii byte then q_prepend_value q byte else q)
      end
    else if is_ascii byte then ret (Out [byte]) lead q
    else if in_range 0x81 byte 0xFE then ret Continue byte q
    else ret (Error no_cp) lead q.

(** coder.hpp:684-705 *)
Definition big5_encoder_run (q : queue) (i : item) : ran :=
  let ret r := Some (r, Big5_encoder, q) in
  if eoq i then ret Finished
  else
    let cp := value i in
    if is_ascii cp then ret (Out [cp mod 256])
    else match get_index_pointer index_pointer_big5_0 index_pointer_big5_1 cp with
         | None => ret (Error cp)
         | Some pointer =>
             let lead := (pointer / 157 + 0x81) mod 256 in
             let trail := (pointer mod 157) mod 256 in
             let offset := if trail <? 0x3F then 0x40 else 0x62 in
             ret (Out [lead; (trail + offset) mod 256])
         end.

(** * EUC-JP *)

(** coder.hpp:723-782 *)
Definition euc_jp_decoder_run (jis0212 : bool) (lead : Z) (q : queue) (i : item) : ran :=
  let ret r j l q := Some (r, EUC_JP_decoder j l, q) in
  if eoq i && negb (lead =? 0) then ret (Error no_cp) jis0212 0 q
  else if eoq i && (lead =? 0) then ret Finished jis0212 lead q
  else
    let byte := value i mod 256 in
    if (lead =? 0x8E) && in_range 0xA1 byte 0xDF
    then ret (Out [0xFF61 - 0xA1 + byte]) jis0212 0 q
    else if (lead =? 0x8F) && in_range 0xA1 byte 0xFE
    then ret Continue true byte q
    else if negb (lead =? 0) then
      let cp :=
        if in_range 0xA1 lead 0xFE && in_range 0xA1 byte 0xFE
        then let pointer := ((lead - 0xA1) * 94 + byte - 0xA1) mod 65536 in
             if jis0212 then get_index_code_point index_code_point_jis0212 pointer
             else get_index_code_point index_code_point_jis0208 pointer
        else None in
      match cp with
      | Some c => ret (Out [c]) false 0 q
      | None => ret (Error no_cp) false 0 (if is_ascii byte then q_prepend_value q byte else q)
      end
    else if is_ascii byte then ret (Out [byte]) jis0212 lead q
    else if (byte =? 0x8E) || (byte =? 0x8F) || in_range 0xA1 byte 0xFE
    then ret Continue jis0212 byte q
    else ret (Error no_cp) jis0212 lead q.

(** coder.hpp:796-823 *)
Definition euc_jp_encoder_run (q : queue) (i : item) : ran :=
  let ret r := Some (r, EUC_JP_encoder, q) in
  if eoq i then ret Finished
  else
    let cp := value i in
    if is_ascii cp then ret (Out [cp mod 256])
    else if cp =? 0xA5 then ret (Out [0x5C])
    else if cp =? 0x203E then ret (Out [0x7E])
    else if in_range 0xFF61 cp 0xFF9F then ret (Out [0x8E; (cp - 0xFF61 + 0xA1) mod 256])
    else
      let cp := if cp =? 0x2212 then 0xFF0D else cp in
      match get_index_pointer index_pointer_jis0208_0 index_pointer_jis0208_1 cp with
      | None => ret (Error cp)
      | Some pointer => ret (Out [(pointer / 94 + 0xA1) mod 256; (pointer mod 94 + 0xA1) mod 256])
      end.

(** * ISO-2022-JP *)

(** coder.hpp:853-1025 *)
Definition jp_decoder_run (st out : jp_state) (lead : Z) (flag : bool) (q : queue) (i : item) : ran :=
  let ret r st out lead flag q := Some (r, JP_decoder st out lead flag, q) in
  let byte := value i mod 256 in
  match st with
  | J_ascii =>
      if eoq i then ret Finished st out lead flag q
      else if byte =? 0x1B then ret Continue J_escape_start out lead flag q
      else if (byte <=? 0x7F) && negb (byte =? 0xE) && negb (byte =? 0xF) && negb (byte =? 0x1B)
      then ret (Out [byte]) st out lead false q
      else ret (Error no_cp) st out lead false q
  | J_roman =>
      if eoq i then ret Finished st out lead flag q
      else if byte =? 0x1B then ret Continue J_escape_start out lead flag q
      else if byte =? 0x5C then ret (Out [0xA5]) st out lead false q
      else if byte =? 0x7E then ret (Out [0x203E]) st out lead false q
      else if (byte <=? 0x7F) && negb (byte =? 0xE) && negb (byte =? 0xF) && negb (byte =? 0x1B)
              && negb (byte =? 0x5C) && negb (byte =? 0x7E)
      then ret (Out [byte]) st out lead false q
      else ret (Error no_cp) st out lead false q
  | J_katakana =>
      if eoq i then ret Finished st out lead flag q
      else if byte =? 0x1B then ret Continue J_escape_start out lead flag q
      else if in_range 0x21 byte 0x5F then ret (Out [0xFF61 - 0x21 + byte]) st out lead false q
      else ret (Error no_cp) st out lead false q
  | J_lead =>
      if eoq i then ret Finished st out lead flag q
      else if byte =? 0x1B then ret Continue J_escape_start out lead flag q
      else if in_range 0x21 byte 0x7E then ret Continue J_trail out byte false q
      else ret (Error no_cp) st out lead false q
  | J_trail =>
      if eoq i then ret (Error no_cp) J_lead out lead flag (q_prepend q end_of_queue)
      else if byte =? 0x1B then ret (Error no_cp) J_escape_start out lead flag q
      else if in_range 0x21 byte 0x7E then
        match get_index_code_point index_code_point_jis0208 (((lead - 0x21) * 94 + byte - 0x21) mod 65536) with
        | None => ret (Error no_cp) J_lead out lead flag q
        | Some cp => ret (Out [cp]) J_lead out lead flag q
        end
      else ret (Error no_cp) J_lead out lead flag q
  | J_escape_start =>
      if eoq i then ret (Error no_cp) out out lead false q
      else if (byte =? 0x24) || (byte =? 0x28) then ret Continue J_escape out byte flag q
      else ret (Error no_cp) out out lead false (q_prepend_value q byte)
  | J_escape =>
      if eoq i then None
      else
        let st := if (lead =? 0x28) && (byte =? 0x42) then Some J_ascii
                  else if (lead =? 0x28) && (byte =? 0x4A) then Some J_roman
                  else if (lead =? 0x28) && (byte =? 0x49) then Some J_katakana
                  else if (lead =? 0x24) && ((byte =? 0x40) || (byte =? 0x42)) then Some J_lead
                  else None in
        match st with
        | Some s => ret (if flag then Error no_cp else Continue) s s 0 true q
        | None => ret (Error no_cp) out out 0 false (q_prepend_values q [lead; byte])
        end
  end.

Definition is_je_ascii (s : jpe_state) : bool := match s with JE_ascii => true | _ => false end.
Definition is_je_roman (s : jpe_state) : bool := match s with JE_roman => true | _ => false end.
Definition is_je_jis0208 (s : jpe_state) : bool := match s with JE_jis0208 => true | _ => false end.

(** coder.hpp:1052-1125 *)
Definition jp_encoder_run (st : jpe_state) (q : queue) (i : item) : ran :=
  let ret r st q := Some (r, JP_encoder st, q) in
  if eoq i && negb (is_je_ascii st) then ret (Out [0x1B; 0x28; 0x42]) JE_ascii (q_prepend q end_of_queue)
  else if eoq i && is_je_ascii st then ret Finished st q
  else
    let cp := value i in
    if (is_je_ascii st || is_je_roman st) && ((cp =? 0xE) || (cp =? 0xF) || (cp =? 0x1B))
    then ret (Error 0xFFFD) st q
    else if is_je_ascii st && is_ascii cp then ret (Out [cp mod 256]) st q
    else if is_je_roman st && ((is_ascii cp && negb (cp =? 0x5C) && negb (cp =? 0x7E))
                               || ((cp =? 0xA5) || (cp =? 0x203E)))
    then if is_ascii cp then ret (Out [cp mod 256]) st q
         else if cp =? 0xA5 then ret (Out [0x5C]) st q
         else ret (Out [0x7E]) st q
    else if is_ascii cp && negb (is_je_ascii st)
    then ret (Out [0x1B; 0x28; 0x42]) JE_ascii (q_prepend_value q cp)
    else if ((cp =? 0xA5) || (cp =? 0x203E)) && negb (is_je_roman st)
    then ret (Out [0x1B; 0x28; 0x4A]) JE_roman (q_prepend_value q cp)
    else
      let cp := if cp =? 0x2212 then 0xFF0D else cp in
      match (if in_range 0xFF61 cp 0xFF9F
             then get_index_code_point index_code_point_iso_2022_jp_katakana (cp - 0xFF61) else Some cp) with
      | None => None
      | Some cp =>
          match get_index_pointer index_pointer_jis0208_0 index_pointer_jis0208_1 cp with
          | None =>
              if negb (is_je_jis0208 st)
              then ret (Out [0x1B; 0x28; 0x42]) JE_ascii (q_prepend_value q cp)
              else ret (Error cp) st q
          | Some pointer =>
              if negb (is_je_jis0208 st)
              then ret (Out [0x1B; 0x24; 0x42]) JE_jis0208 (q_prepend_value q cp)
              else ret (Out [(pointer / 94 + 0x21) mod 256; (pointer mod 94 + 0x21) mod 256]) st q
          end
      end.

(** * Shift_JIS *)

(** coder.hpp:1150-1201 *)
Definition sjis_decoder_run (lead : Z) (q : queue) (i : item) : ran :=
  let ret r l q := Some (r, SJIS_decoder l, q) in
  if eoq i && negb (lead =? 0) then ret (Error no_cp) 0 q
  else if eoq i && (lead =? 0) then ret Finished lead q
  else
    let byte := value i mod 256 in
    if negb (lead =? 0) then
      let offset := if byte <? 0x7F then 0x40 else 0x41 in
      let lead_offset := if lead <? 0xA0 then 0x81 else 0xC1 in
      let pointer := if in_range 0x40 byte 0x7E || in_range 0x80 byte 0xFC
                     then Some (((lead - lead_offset) * 188 + byte - offset) mod 65536) else None in
      match pointer with
      | Some p =>
          if in_range 8836 p 10715 then ret (Out [0xE000 - 8836 + p]) 0 q
          else match get_index_code_point index_code_point_jis0208 p with
               | Some cp => ret (Out [cp]) 0 q
               | None => ret (Error no_cp) 0 (if is_ascii byte then q_prepend_value q byte else q)
               end
      | None => ret (Error no_cp) 0 (if is_ascii byte then q_prepend_value q byte else q)
      end
    else if is_ascii byte || (byte =? 0x80) then ret (Out [byte]) lead q
    else if in_range 0xA1 byte 0xDF then ret (Out [0xFF61 - 0xA1 + byte]) lead q
    else if in_range 0x81 byte 0x9F || in_range 0xE0 byte 0xFC then ret Continue byte q
    else ret (Error no_cp) lead q.

(** coder.hpp:1214-1245 *)
Definition sjis_encoder_run (q : queue) (i : item) : ran :=
  let ret r := Some (r, SJIS_encoder, q) in
  if eoq i then ret Finished
  else
    let cp := value i in
    if is_ascii cp || (cp =? 0x80) then ret (Out [cp mod 256])
    else if cp =? 0xA5 then ret (Out [0x5C])
    else if cp =? 0x203E then ret (Out [0x7E])
    else if in_range 0xFF61 cp 0xFF9F then ret (Out [(cp - 0xFF61 + 0xA1) mod 256])
    else
      let cp := if cp =? 0x2212 then 0xFF0D else cp in
      match get_index_pointer index_pointer_Shift_JIS_0 index_pointer_Shift_JIS_1 cp with
      | None => ret (Error cp)
      | Some pointer =>
          let lead := (pointer / 188) mod 256 in
          let lead_offset := if lead <? 0x1F then 0x81 else 0xC1 in
          let trail := (pointer mod 188) mod 256 in
          let offset := if trail <? 0x3F then 0x40 else 0x41 in
          ret (Out [(lead + lead_offset) mod 256; (trail + offset) mod 256])
      end.

(** * EUC-KR *)

(** coder.hpp:1266-1307 *)
Definition euc_kr_decoder_run (lead : Z) (q : queue) (i : item) : ran :=
  let ret r l q := Some (r, EUC_KR_decoder l, q) in
  if eoq i && negb (lead =? 0) then ret (Error no_cp) 0 q
  else if eoq i && (lead =? 0) then ret Finished lead q
  else
    let byte := value i mod 256 in
    if negb (lead =? 0) then
      let pointer := if in_range 0x41 byte 0xFE
                     then Some (((lead - 0x81) * 190 + (byte - 0x41)) mod 65536) else None in
      match (match pointer with
             | Some p => get_index_code_point index_code_point_euc_kr p
             | None => None
             end) with
      | Some cp => ret (Out [cp]) 0 q
      | None => ret (Error no_cp) 0 (if is_ascii byte then q_prepend_value q byte else q)
      end
    else if is_ascii byte then ret (Out [byte]) lead q
    else if in_range 0x81 byte 0xFE then ret Continue byte q
    else ret (Error no_cp) lead q.

(** coder.hpp:1320-1339 *)
Definition euc_kr_encoder_run (q : queue) (i : item) : ran :=
  let ret r := Some (r, EUC_KR_encoder, q) in
  if eoq i then ret Finished
  else
    let cp := value i in
    if is_ascii cp then ret (Out [cp mod 256])
    else match get_index_pointer index_pointer_euc_kr_0 index_pointer_euc_kr_1 cp with
         | None => ret (Error cp)
         | Some pointer => ret (Out [(pointer / 190 + 0x81) mod 256; (pointer mod 190 + 0x41) mod 256])
         end.

(** * Miscellaneous encodings *)

(** coder.hpp:1360-1373 *)
Definition replacement_run (returned : bool) (q : queue) (i : item) : ran :=
  if eoq i then Some (Finished, Replacement_decoder returned, q)
  else if negb returned then Some (Error no_cp, Replacement_decoder true, q)
  else Some (Finished, Replacement_decoder returned, q).

(** coder.hpp:1387-1453. Line 1424 has the comparison [code_unit > 8], not a shift. *)
Definition utf16_run (be : bool) (lb ls : option Z) (q : queue) (i : item) : ran :=
  let ret r lb ls q := Some (r, UTF16_decoder be lb ls, q) in
  let has (o : option Z) := match o with Some _ => true | None => false end in
  if eoq i && (has lb || has ls) then ret (Error no_cp) None None q
  else if eoq i && negb (has lb) && negb (has ls) then ret Finished lb ls q
  else
    let byte := value i mod 256 in
    match lb with
    | None => ret Continue (Some byte) ls q
    | Some l =>
        let unit := if be then l * 256 + byte else byte * 256 + l in
        match ls with
        | Some lead =>
            if in_range 0xDC00 unit 0xDFFF
            then ret (Out [0x10000 + (lead - 0xD800) * 1024 + (unit - 0xDC00)]) None None q
            else
              let byte1 := if 8 <? unit then 1 else 0 in
              let byte2 := unit mod 256 in
              ret (Error no_cp) None None
                  (q_prepend_values q (if be then [byte1; byte2] else [byte2; byte1]))
        | None =>
            if in_range 0xD800 unit 0xDBFF then ret Continue None (Some unit) q
            else if in_range 0xDC00 unit 0xDFFF then ret (Error no_cp) None None q
            else ret (Out [unit]) None None q
        end
    end.

(** coder.hpp:1470-1481 *)
Definition user_decoder_run (q : queue) (i : item) : ran :=
  if eoq i then Some (Finished, User_decoder, q)
  else
    let byte := value i mod 256 in
    if is_ascii byte then Some (Out [byte], User_decoder, q)
    else Some (Out [0xF780 + byte - 0x80], User_decoder, q).

(** coder.hpp:1491-1504 *)
Definition user_encoder_run (q : queue) (i : item) : ran :=
  if eoq i then Some (Finished, User_encoder, q)
  else
    let cp := value i in
    if is_ascii cp then Some (Out [cp mod 256], User_encoder, q)
    else if in_range 0xF780 cp 0xF7FF then Some (Out [(cp - 0xF780 + 0x80) mod 256], User_encoder, q)
    else Some (Error cp, User_encoder, q).

(** std::visit over the variant (encoding.hpp:72); error_encoder and error_decoder: coder.hpp:1507-1519. *)
Definition run (c : coder) (q : queue) (i : item) : ran :=
  match c with
  | Error_encoder | Error_decoder => Some (Error no_cp, c, q)
  | UTF8_decoder s => utf8_run s q i
  | UTF8_encoder => utf8_encoder_run q i
  | Single_decoder t => single_decoder_run t q i
  | Single_encoder t0 t1 => single_encoder_run t0 t1 q i
  | GB_decoder f s t => gb_decoder_run f s t q i
  | GB_encoder gbk => gb_encoder_run gbk q i
  | Big5_decoder l => big5_decoder_run l q i
  | Big5_encoder => big5_encoder_run q i
  | EUC_JP_decoder j l => euc_jp_decoder_run j l q i
  | EUC_JP_encoder => euc_jp_encoder_run q i
  | JP_decoder s o l f => jp_decoder_run s o l f q i
  | JP_encoder s => jp_encoder_run s q i
  | SJIS_decoder l => sjis_decoder_run l q i
  | SJIS_encoder => sjis_encoder_run q i
  | EUC_KR_decoder l => euc_kr_decoder_run l q i
  | EUC_KR_encoder => euc_kr_encoder_run q i
  | Replacement_decoder r => replacement_run r q i
  | UTF16_decoder be lb ls => utf16_run be lb ls q i
  | User_decoder => user_decoder_run q i
  | User_encoder => user_encoder_run q i
  end.

(** * Processing *)

(** encoding.hpp:61-149. [Coder] is always the variant type, which derives from neither [encoder] nor
    [decoder]: the [if constexpr] branches of lines 66, 68, 70 and 130 are discarded. *)
Definition process_item (i : item) (c : coder) (inq out : queue) (m : mode)
  : option (result * coder * queue * queue) :=
  match run c inq i with
  | None => None
  | Some (r, c, inq) =>
      match r with
      | Finished => Some (r, c, inq, q_push out end_of_queue)
      | Continue => Some (Continue, c, inq, out)
      | Out l => Some (Continue, c, inq, q_push_values out l)
      | Error cp =>
          match m with
          | Replacement | M_none => Some (Continue, c, inq, out)
          | Html =>
              Some (Continue, c, inq,
                    q_push_value (q_push_values (q_push_values out [0x26; 0x23]) (to_chars 10 cp)) 0x3B)
          | Fatal => Some (r, c, inq, out)
          end
      end
  end.

(** encoding.hpp:44-57 *)
Fixpoint process_queue (fuel : nat) (c : coder) (inq out : queue) (m : mode)
  : outcome (result * coder * queue * queue) :=
  match fuel with
  | O => NoFuel
  | S fuel =>
      match q_read inq with
      | None => Val (Continue, c, inq, out)
      | Some (i, inq) =>
          match process_item i c inq out m with
          | None => Bad
          | Some (Continue, c, inq, out) => process_queue fuel c inq out m
          | Some (r, c, inq, out) => Val (r, c, inq, out)
          end
      end
  end.

(** * Names *)

(** encoding_defs.hpp:57-111 *)
Inductive encoding_name :=
| UTF_8 | IBM866 | ISO_8859_2 | ISO_8859_3 | ISO_8859_4 | ISO_8859_5 | ISO_8859_6 | ISO_8859_7
| ISO_8859_8 | ISO_8859_8_I | ISO_8859_10 | ISO_8859_13 | ISO_8859_14 | ISO_8859_15 | ISO_8859_16
| KOI8_R | KOI8_U | macintosh | windows_874 | windows_1250 | windows_1251 | windows_1252
| windows_1253 | windows_1254 | windows_1255 | windows_1256 | windows_1257 | windows_1258
| x_mac_cyrillic | GBK | gb18030 | Big5 | EUC_JP | ISO_2022_JP | Shift_JIS | EUC_KR
| replacement | UTF_16BE | UTF_16LE | x_user_defined.

(** encoding.hpp:224-279, coder.hpp:312-422 (the tables of the single-byte decoders), 437-442, 599, 615, 721,
    845-851, 1145-1148, 1261-1264, 1355-1358, 1460-1461 (initial states) *)
Definition get_encoding_decoder (n : encoding_name) : coder :=
  match n with
  | UTF_8 => UTF8_decoder utf8_init
  | IBM866 => Single_decoder index_code_point_ibm866
  | ISO_8859_2 => Single_decoder index_code_point_iso_8859_2
  | ISO_8859_3 => Single_decoder index_code_point_iso_8859_3
  | ISO_8859_4 => Single_decoder index_code_point_iso_8859_4
  | ISO_8859_5 => Single_decoder index_code_point_iso_8859_5
  | ISO_8859_6 => Single_decoder index_code_point_iso_8859_6
  | ISO_8859_7 => Single_decoder index_code_point_iso_8859_7
  | ISO_8859_8 => Single_decoder index_code_point_iso_8859_8
  | ISO_8859_8_I => Single_decoder index_code_point_iso_8859_8
  | ISO_8859_10 => Single_decoder index_code_point_iso_8859_10
  | ISO_8859_13 => Single_decoder index_code_point_iso_8859_13
  | ISO_8859_14 => Single_decoder index_code_point_iso_8859_14
  | ISO_8859_15 => Single_decoder index_code_point_iso_8859_15
  | ISO_8859_16 => Single_decoder index_code_point_iso_8859_16
  | KOI8_R => Single_decoder index_code_point_koi8_r
  | KOI8_U => Single_decoder index_code_point_koi8_u
  | macintosh => Single_decoder index_code_point_macintosh
  | windows_874 => Single_decoder index_code_point_windows_874
  | windows_1250 => Single_decoder index_code_point_windows_1250
  | windows_1251 => Single_decoder index_code_point_windows_1251
  | windows_1252 => Single_decoder index_code_point_windows_1252
  | windows_1253 => Single_decoder index_code_point_windows_1253
  | windows_1254 => Single_decoder index_code_point_windows_1254
  | windows_1255 => Single_decoder index_code_point_windows_1255
  | windows_1256 => Single_decoder index_code_point_windows_1256
  | windows_1257 => Single_decoder index_code_point_windows_1257
  | windows_1258 => Single_decoder index_code_point_windows_1258
  | x_mac_cyrillic => Single_decoder index_code_point_x_mac_cyrillic
  | GBK | gb18030 => GB_decoder 0 0 0
  | Big5 => Big5_decoder 0
  | EUC_JP => EUC_JP_decoder false 0
  | ISO_2022_JP => JP_decoder J_ascii J_ascii 0 false
  | Shift_JIS => SJIS_decoder 0
  | EUC_KR => EUC_KR_decoder 0
  | replacement => Replacement_decoder false
  | UTF_16BE => UTF16_decoder true None None
  | UTF_16LE => UTF16_decoder false None None
  | x_user_defined => User_decoder
  end.

(** encoding.hpp:283-335; [None] is the assert of line 333. *)
Definition get_encoding_encoder (n : encoding_name) : option coder :=
  match n with
  | UTF_8 => Some UTF8_encoder
  | IBM866 => Some (Single_encoder index_pointer_ibm866_0 index_pointer_ibm866_1)
  | ISO_8859_2 => Some (Single_encoder index_pointer_iso_8859_2_0 index_pointer_iso_8859_2_1)
  | ISO_8859_3 => Some (Single_encoder index_pointer_iso_8859_3_0 index_pointer_iso_8859_3_1)
  | ISO_8859_4 => Some (Single_encoder index_pointer_iso_8859_4_0 index_pointer_iso_8859_4_1)
  | ISO_8859_5 => Some (Single_encoder index_pointer_iso_8859_5_0 index_pointer_iso_8859_5_1)
  | ISO_8859_6 => Some (Single_encoder index_pointer_iso_8859_6_0 index_pointer_iso_8859_6_1)
  | ISO_8859_7 => Some (Single_encoder index_pointer_iso_8859_7_0 index_pointer_iso_8859_7_1)
  | ISO_8859_8 => Some (Single_encoder index_pointer_iso_8859_8_0 index_pointer_iso_8859_8_1)
  | ISO_8859_8_I => Some (Single_encoder index_pointer_iso_8859_8_0 index_pointer_iso_8859_8_1)
  | ISO_8859_10 => Some (Single_encoder index_pointer_iso_8859_10_0 index_pointer_iso_8859_10_1)
  | ISO_8859_13 => Some (Single_encoder index_pointer_iso_8859_13_0 index_pointer_iso_8859_13_1)
  | ISO_8859_14 => Some (Single_encoder index_pointer_iso_8859_14_0 index_pointer_iso_8859_14_1)
  | ISO_8859_15 => Some (Single_encoder index_pointer_iso_8859_15_0 index_pointer_iso_8859_15_1)
  | ISO_8859_16 => Some (Single_encoder index_pointer_iso_8859_16_0 index_pointer_iso_8859_16_1)
  | KOI8_R => Some (Single_encoder index_pointer_koi8_r_0 index_pointer_koi8_r_1)
  | KOI8_U => Some (Single_encoder index_pointer_koi8_u_0 index_pointer_koi8_u_1)
  | macintosh => Some (Single_encoder index_pointer_macintosh_0 index_pointer_macintosh_1)
  | windows_874 => Some (Single_encoder index_pointer_windows_874_0 index_pointer_windows_874_1)
  | windows_1250 => Some (Single_encoder index_pointer_windows_1250_0 index_pointer_windows_1250_1)
  | windows_1251 => Some (Single_encoder index_pointer_windows_1251_0 index_pointer_windows_1251_1)
  | windows_1252 => Some (Single_encoder index_pointer_windows_1252_0 index_pointer_windows_1252_1)
  | windows_1253 => Some (Single_encoder index_pointer_windows_1253_0 index_pointer_windows_1253_1)
  | windows_1254 => Some (Single_encoder index_pointer_windows_1254_0 index_pointer_windows_1254_1)
  | windows_1255 => Some (Single_encoder index_pointer_windows_1255_0 index_pointer_windows_1255_1)
  | windows_1256 => Some (Single_encoder index_pointer_windows_1256_0 index_pointer_windows_1256_1)
  | windows_1257 => Some (Single_encoder index_pointer_windows_1257_0 index_pointer_windows_1257_1)
  | windows_1258 => Some (Single_encoder index_pointer_windows_1258_0 index_pointer_windows_1258_1)
  | x_mac_cyrillic => Some (Single_encoder index_pointer_x_mac_cyrillic_0 index_pointer_x_mac_cyrillic_1)
  | GBK => Some (GB_encoder true)
  | gb18030 => Some (GB_encoder false)
  | Big5 => Some Big5_encoder
  | EUC_JP => Some EUC_JP_encoder
  | ISO_2022_JP => Some (JP_encoder JE_ascii)
  | Shift_JIS => Some SJIS_encoder
  | EUC_KR => Some EUC_KR_encoder
  | x_user_defined => Some User_encoder
  | replacement | UTF_16BE | UTF_16LE => None
  end.

(** encoding.hpp:354-366 *)
Definition get_output_encoding_name (n : encoding_name) : encoding_name :=
  match n with
  | replacement | UTF_16BE | UTF_16LE => UTF_8
  | _ => n
  end.

(** * Hooks *)

(** encoding.hpp:522-540; outer [None] is m_wait, inner [None] is encoding 0. *)
Definition bom_sniff (inq : queue) : option (option encoding_name) :=
  match q_peek 3 inq with
  | Val (Some bom) =>
      let at_ (n : nat) := match nth_error bom n with Some i => value i mod 256 | None => 0 end in
      if (at_ 0%nat =? 0xEF) && (at_ 1%nat =? 0xBB) && (at_ 2%nat =? 0xBF) then Some (Some UTF_8)
      else if (at_ 0%nat =? 0xFE) && (at_ 1%nat =? 0xFF) then Some (Some UTF_16BE)
      else if (at_ 0%nat =? 0xFF) && (at_ 1%nat =? 0xFE) then Some (Some UTF_16LE)
      else Some None
  | _ => None
  end.

(** encoding.hpp:499-516; in.read(n) is never waiting here (line 508-509). *)
Definition decode (fuel : nat) (inq : queue) (name : encoding_name) (out : queue)
  : outcome (result * coder * queue * queue) :=
  match bom_sniff inq with
  | None => Val (Continue, get_encoding_decoder name, inq, out)
  | Some None => process_queue fuel (get_encoding_decoder name) inq out Replacement
  | Some (Some n) =>
      match q_read_n (match n with UTF_8 => 3 | _ => 2 end) inq with
      | Val (_, inq) => process_queue fuel (get_encoding_decoder n) inq out Replacement
      | Bad => Bad
      | NoFuel => NoFuel
      end
  end.

(** encoding.hpp:399-417 *)
Definition utf8_decode (fuel : nat) (inq out : queue) : outcome (result * coder * queue * queue) :=
  match q_peek 3 inq with
  | Val (Some (a :: b :: c :: _)) =>
      if (value a mod 256 =? 0xEF) && (value b mod 256 =? 0xBB) && (value c mod 256 =? 0xBF)
      then match q_read_n 3 inq with
           | Val (_, inq) => process_queue fuel (UTF8_decoder utf8_init) inq out Replacement
           | Bad => Bad
           | NoFuel => NoFuel
           end
      else process_queue fuel (UTF8_decoder utf8_init) inq out Replacement
  | Val (Some _) => process_queue fuel (UTF8_decoder utf8_init) inq out Replacement
  | Val None => Val (Continue, UTF8_decoder utf8_init, inq, out)
  | Bad => Bad
  | NoFuel => NoFuel
  end.

(** encoding.hpp:440-447 *)
Definition utf8_decode_without_bom (fuel : nat) (inq out : queue) :=
  process_queue fuel (get_encoding_decoder UTF_8) inq out Replacement.
(** encoding.hpp:454-462 *)
Definition utf8_decode_without_bom_or_fail (fuel : nat) (inq out : queue) :=
  process_queue fuel (get_encoding_decoder UTF_8) inq out Fatal.

(** encoding.hpp:547-563 *)
Definition encode (fuel : nat) (inq : queue) (name : encoding_name) (out : queue)
  : outcome (result * coder * queue * queue) :=
  match get_encoding_encoder name with
  | None => Bad
  | Some c => process_queue fuel c inq out Html
  end.

(** encoding.hpp:472-478 *)
Definition utf8_encode (fuel : nat) (inq out : queue) := encode fuel inq UTF_8 out.

(** encoding.hpp:570-583. The coder is passed by value; the result and the two queues are returned. *)
Definition encode_or_fail (fuel : nat) (inq : queue) (c : coder) (out : queue)
  : outcome (result * queue * queue) :=
  match process_queue fuel c inq out Fatal with
  | Val (r, _, inq, out) =>
      let out := q_push out end_of_queue in
      match r with
      | Error _ => Val (r, inq, out)
      | _ => Val (Finished, inq, out)
      end
  | Bad => Bad
  | NoFuel => NoFuel
  end.

(** * TextDecoder *)

(** api.hpp:59-64, 181 *)
Record text_decoder := TD {
  td_encoding : encoding_name;
  td_decoder : coder;
  td_queue : queue;
  td_ignore_bom : bool;
  td_bom_seen : bool;
  td_mode : mode;
  td_do_not_flush : bool }.

(** api.hpp:101-113 and 119-131 (after the label lookup); [None] is the exception. *)
Definition new_text_decoder (name : encoding_name) (fatal ignore_bom : bool) : option text_decoder :=
  match name with
  | replacement => None
  | _ => Some (TD name Error_encoder [] ignore_bom false (if fatal then Fatal else Replacement) false)
  end.

(** api.hpp:81: the three encodings that have a byte order mark *)
Definition has_bom (n : encoding_name) : bool :=
  match n with UTF_8 | UTF_16BE | UTF_16LE => true | _ => false end.

(** api.hpp:71-92 on the items before the end-of-queue: the string and m_bom_seen. *)
Fixpoint serialize_io_queue (n : encoding_name) (ignore_bom seen : bool) (l : list Z) : list Z * bool :=
  match l with
  | [] => ([], seen)
  | v :: r =>
      if has_bom n && negb ignore_bom && negb seen
      then let '(s, b) := serialize_io_queue n ignore_bom true r in
           (if v =? 0xFEFF then s else v :: s, b)
      else let '(s, b) := serialize_io_queue n ignore_bom seen r in (v :: s, b)
  end.

(** api.hpp:163-176: the decoder and queue afterwards and the output; inner [None] is the exception. *)
Fixpoint td_loop (fuel : nat) (do_not_flush : bool) (m : mode) (c : coder) (inq out : queue)
  : outcome (option (coder * queue * queue)) :=
  match fuel with
  | O => NoFuel
  | S fuel =>
      match q_read inq with
      | None => Bad
      | Some (i, inq) =>
          if eoq i && do_not_flush then Val (Some (c, inq, out))
          else
            match process_item i c inq out m with
            | None => Bad
            | Some (Finished, c, inq, out) => Val (Some (c, inq, out))
            | Some (Error _, _, _, _) => Val None
            | Some (_, c, inq, out) => td_loop fuel do_not_flush m c inq out
            end
      end
  end.

(** api.hpp:139-178; inner [None] is std::range_error. *)
Definition td_decode (fuel : nat) (d : text_decoder) (bytes : list Z) (stream : bool)
  : outcome (option (list Z * text_decoder)) :=
  let d := if td_do_not_flush d then d
           else TD (td_encoding d) (get_encoding_decoder (td_encoding d)) (q_push [] end_of_queue)
                   (td_ignore_bom d) false (td_mode d) (td_do_not_flush d) in
  let inq := q_push_values (td_queue d) bytes in
  match td_loop fuel stream (td_mode d) (td_decoder d) inq (q_push [] end_of_queue) with
  | Val (Some (c, inq, out)) =>
      let '(s, seen) := serialize_io_queue (td_encoding d) (td_ignore_bom d) (td_bom_seen d)
                                           (map value (q_prefix out)) in
      Val (Some (s, TD (td_encoding d) c inq (td_ignore_bom d) seen (td_mode d) stream))
  | Val None => Val None
  | Bad => Bad
  | NoFuel => NoFuel
  end.
