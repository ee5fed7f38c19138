(** Lemmas for M_url: percent-encoding of scalar values, hosts that are total, and the measure of the parser. *)
From Coq Require Import String.
From Coq Require Import ZArith List Bool Lia.
From Verif Require Import M_unicode M_infra M_percent M_ip M_encoding M_labels M_url.
From Verif Require Import L_unicode L_infra L_percent L_encoding L_encoding2 L_enc_codec L_enc_misc L_enc_utf8.
Import ListNotations.
Open Scope list_scope.
Open Scope Z_scope.

(** * Percent-encoding *)

(** What percent-encoding a string in UTF-8 gives: byte by byte, [%XX] for a byte of the set. *)
Definition pe (set : Z -> bool) (s : list Z) : list Z :=
  flat_map (fun cp => flat_map (fun b => if set b then [0x25; hex_char (b / 16); hex_char (b mod 16)] else [b]) (utf8_spec cp)) s.

Lemma pe_app set a b : pe set (a ++ b) = pe set a ++ pe set b.
Proof. apply flat_map_app. Qed.
Lemma pe_cons set c s : pe set (c :: s) = pe set [c] ++ pe set s.
Proof. unfold pe. cbn [flat_map]. rewrite app_nil_r. reflexivity. Qed.

Lemma utf8_spec_bytes c : scalar c -> Forall (fun b => 0 <= b < 256) (utf8_spec c).
Proof.
  intros S. unfold scalar in S. unfold utf8_spec.
  destruct (c <? 0x80) eqn:E1; [repeat constructor; lia|].
  destruct (c <? 0x800) eqn:E2; [|destruct (c <? 0x10000) eqn:E3].
  all: repeat constructor; Z.to_euclidean_division_equations; lia.
Qed.

Lemma pe_bytes set l : Forall (fun b => 0 <= b < 256) l ->
  percent_encode_bytes set false (map (fun b => b mod 256) l) =
  flat_map (fun b => if set b then [0x25; hex_char (b / 16); hex_char (b mod 16)] else [b]) l.
Proof.
  induction 1 as [|b l H _ IH]; [reflexivity|]. cbn [map flat_map percent_encode_bytes] in *.
  fold (percent_encode_bytes set false (map (fun b => b mod 256) l)). rewrite IH. f_equal.
  rewrite Z.mod_small by exact H. unfold percent_encode_byte. cbn [andb]. rewrite percent_encode_spec by exact H. reflexivity.
Qed.

Lemma eats_utf8 m s : Forall scalar s -> eats m UTF8_encoder s (flat_map utf8_spec s) UTF8_encoder (List.length s).
Proof.
  induction 1 as [|v s S _ IH]; [constructor|].
  exact (eats_cons m _ v s (Out (utf8_spec v)) _ [] _ _ _ (utf8_encoder_spec v S) eq_refl IH).
Qed.

Lemma flat_bytes s : Forall scalar s -> Forall (fun b => 0 <= b < 256) (flat_map utf8_spec s).
Proof. induction 1 as [|c s S _ IH]; [constructor|]. cbn. apply Forall_app. split; [apply utf8_spec_bytes, S|exact IH]. Qed.

Lemma pe_spec fuel s set : Forall scalar s -> (List.length s < fuel)%nat -> utf8_percent_encode fuel s set = Val (pe set s).
Proof.
  intros S L. unfold utf8_percent_encode, pe_after_encoding. cbn [get_encoding_encoder].
  destruct fuel as [|f]; [lia|]. cbn [pe_loop]. unfold encode_or_fail.
  destruct (proc_finish _ _ _ _ _ _ _ _ (eats_utf8 Fatal s S) (enc_ends Fatal UTF8_encoder I) (Datatypes.S f) ltac:(lia)) as (c & q & R).
  rewrite app_nil_r in R. rewrite R. cbn [app].
  assert (E : from_queue (q_push (to_queue (flat_map utf8_spec s)) end_of_queue) = flat_map utf8_spec s).
  { rewrite to_queue_spec. unfold q_push. rewrite rev_app_distr. cbn [rev app end_of_queue eoq]. apply from_queue_plain. }
  rewrite E, pe_bytes by (apply flat_bytes, S). f_equal. unfold pe. clear. induction s as [|a s IH]; [reflexivity|].
  cbn [flat_map]. rewrite flat_map_app, IH. reflexivity.
Qed.

(** * Percent-decoding and UTF-8 decoding are total *)

Lemma percent_decode_total f : forall s, (List.length s <= f)%nat -> Forall (fun b => 0 <= b < 256) s ->
  exists o, percent_decode f s = Some o /\ (List.length o <= List.length s)%nat.
Proof.
  induction f as [|f IH]; intros s L B; destruct s as [|a s]; cbn [List.length] in L; try lia.
  { exists []. split; [reflexivity|cbn; lia]. }
  { exists []. split; [reflexivity|cbn; lia]. }
  cbn [percent_decode]. inversion B as [|x y Ha Bs]; subst.
  destruct (starts_with_percent_encoded_byte (a :: s)) eqn:P.
  - destruct s as [|b [|c s]]; try discriminate P. cbn [starts_with_percent_encoded_byte] in P.
    inversion Bs as [|x y Hb Bs1]; subst. inversion Bs1 as [|x y Hc Bs2]; subst. cbn [List.length] in L.
    destruct (IH s ltac:(lia) Bs2) as (o & -> & Lo).
    assert (exists v, from_chars 16 255 [b; c] = Some v) as [v ->].
    { destruct (a =? 37); [|discriminate P]. cbn [andb] in P. apply andb_prop in P as [P1 P2]. clear - P1 P2 Hb Hc.
      assert (G : forallb (fun x => forallb (fun y => implb (is_ascii_hex_digit x && is_ascii_hex_digit y)
         (match from_chars 16 255 [x; y] with Some _ => true | None => false end)) (map Z.of_nat (seq 48 60))) (map Z.of_nat (seq 48 60)) = true)
         by (vm_compute; reflexivity).
      assert (In b (map Z.of_nat (seq 48 60)) /\ In c (map Z.of_nat (seq 48 60))) as [Ib Ic].
      { unfold is_ascii_hex_digit, is_ascii_upper_hex_digit, is_ascii_lower_hex_digit, is_ascii_digit in P1, P2.
        split; apply in_map_iff; [exists (Z.to_nat b)|exists (Z.to_nat c)]; rewrite in_seq; lia. }
      rewrite forallb_forall in G. specialize (G b Ib). rewrite forallb_forall in G. specialize (G c Ic).
      rewrite P1, P2 in G. cbn [implb andb] in G. destruct (from_chars _ _ _) as [v|]; [now exists v|discriminate G]. }
    exists (v :: o). split; [reflexivity|]. cbn. lia.
  - destruct (IH s ltac:(lia) Bs) as (o & -> & Lo). exists (a :: o). split; [reflexivity|]. cbn. lia.
Qed.

Lemma utf8_spec_length c : (List.length (utf8_spec c) <= 4)%nat.
Proof. unfold utf8_spec. destruct (c <? 0x80), (c <? 0x800), (c <? 0x10000); cbn; lia. Qed.

Lemma spd_total fuel s : Forall scalar s -> (List.length s < fuel)%nat ->
  exists o, string_percent_decode fuel s = Val o /\ (List.length o <= 4 * List.length s)%nat.
Proof.
  intros S L. unfold string_percent_decode, utf8_encode, encode. cbn [get_encoding_encoder].
  destruct (proc_finish _ _ _ _ _ _ _ _ (eats_utf8 Html s S) (enc_ends Html UTF8_encoder I) fuel ltac:(lia)) as (c & q & R).
  rewrite app_nil_r in R. rewrite R. cbn [obind]. rewrite to_queue_spec, from_queue_plain. unfold percent_decode_bytes.
  destruct (percent_decode_total _ _ (le_n _) (flat_bytes s S)) as (o & -> & Lo). exists o. split; [reflexivity|].
  assert (List.length (flat_map utf8_spec s) <= 4 * List.length s)%nat; [|lia].
  clear. induction s as [|a s IH]; [cbn; lia|]. cbn [flat_map]. rewrite app_length. pose proof (utf8_spec_length a). cbn [List.length]. lia.
Qed.

Definition busy (s : utf8_state) : nat := if u8_needed s =? 0 then 0 else 1.

Lemma u8_total n : forall s l out f, (2 * List.length l + busy s <= n)%nat -> (n < f)%nat ->
  exists r, process_queue f (UTF8_decoder s) (plain l ++ [end_of_queue]) out Replacement = Val r.
Proof.
  induction n as [n IH] using lt_wf_ind. intros s l out f L F. destruct f as [|f]; [lia|]. destruct l as [|v l].
  - change (plain [] ++ [end_of_queue]) with [end_of_queue]. cbn [process_queue q_read end_of_queue eoq].
    unfold process_item. cbn [run]. unfold utf8_run. change (eoq end_of_queue) with true. cbn [andb]. unfold busy in L. destruct (u8_needed s =? 0) eqn:N; cbn [negb].
    + eexists. reflexivity.
    + change [end_of_queue] with (plain [] ++ [end_of_queue]). cbn [List.length] in L.
      apply (IH 0%nat); [lia|unfold busy; cbn; lia|lia].
  - cbn [process_queue]. rewrite q_read_plain. unfold process_item. cbn [run]. unfold utf8_run. cbn [eoq andb].
    cbn [List.length] in L. unfold busy in L. 
    destruct (u8_needed s =? 0) eqn:N; cbn [negb].
    + repeat match goal with |- context [if ?b then _ else _] => destruct b eqn:? end.
      all: cbv beta iota; apply (IH (2 * List.length l + 1)%nat); [lia|unfold busy; cbn [u8_needed]; try rewrite N; cbn [Z.eqb]; lia|lia].
    + destruct (negb (in_range _ _ _)).
      { change (q_prepend_value (plain l ++ [end_of_queue]) (M_encoding.value (Item v false) mod 256)) with (plain ((v mod 256) :: l) ++ [end_of_queue]).
        apply (IH (2 * List.length l + 2)%nat); [lia|unfold busy; cbn; lia|lia]. }
      destruct (negb (_ =? _)); (apply (IH (2 * List.length l + 1)%nat); [lia|unfold busy; cbn [u8_needed]; try rewrite N; cbn [Z.eqb]; lia|lia]).
Qed.

Lemma decode_total fuel l : (2 * List.length l < fuel)%nat -> exists r, utf8_decode_without_bom fuel (to_queue l) [] = Val r.
Proof. intros L. unfold utf8_decode_without_bom. rewrite to_queue_spec. apply (u8_total (2 * List.length l)); [cbn; lia|exact L]. Qed.
