(** The single-byte tables are inverse to each other. *)
From Coq Require Import ZArith List Bool Lia.
From Verif Require Import M_unicode L_unicode M_infra M_percent M_encoding L_encoding L_encoding2 L_enc_utf8 L_enc_codec L_enc_tables L_enc_multi.
From Verif Require Import M_index_single.
Import ListNotations.
Open Scope Z_scope.

(** The 28 single-byte encodings. *)
Definition single_names : list encoding_name :=
  [IBM866; ISO_8859_2; ISO_8859_3; ISO_8859_4; ISO_8859_5; ISO_8859_6; ISO_8859_7; ISO_8859_8; ISO_8859_8_I; ISO_8859_10;
   ISO_8859_13; ISO_8859_14; ISO_8859_15; ISO_8859_16; KOI8_R; KOI8_U; macintosh; windows_874; windows_1250; windows_1251;
   windows_1252; windows_1253; windows_1254; windows_1255; windows_1256; windows_1257; windows_1258; x_mac_cyrillic].

Definition inverse (t t0 t1 : list Z) : bool :=
  (length t =? 128)%nat &&
  forallb (fun i => match nth_error t i with
                    | None => false
                    | Some cp => (cp =? 4294967295) ||
                        match get_index_pointer t0 t1 cp with Some p => (p =? Z.of_nat i) && (0x80 <=? cp) | None => false end
                    end) (seq 0 128).

Definition single_ok (n : encoding_name) : bool :=
  match get_encoding_decoder n, get_encoding_encoder n with
  | Single_decoder t, Some (Single_encoder t0 t1) => consistent t t0 t1 128 && inverse t t0 t1
  | _, _ => false
  end.

Lemma singles_ok : forallb single_ok single_names = true.
Proof. vm_compute. reflexivity. Qed.

Lemma single_back t t0 t1 : consistent t t0 t1 128 = true ->
  decodes_back (Single_encoder t0 t1) (Single_decoder t) (fun _ => True) (fun v => v).
Proof.
  intros C v l _ H. cbn [run] in H. unfold single_encoder_run in H. cbn [eoq value] in H.
  destruct (is_ascii v) eqn:A.
  - assert (l = [v mod 256]) as -> by congruence. rewrite ascii_small by exact A. apply ascii_range in A.
    apply eat_one. dec. reflexivity.
  - destruct (get_index_pointer t0 t1 v) as [p|] eqn:P; [|discriminate].
    destruct (consistent_ok _ _ _ _ _ _ C ltac:(lia) P) as (P1 & _ & G).
    assert (l = [(p + 0x80) mod 256]) as -> by congruence. rewrite Z.mod_small by lia.
    apply eat_one. dec. replace (p + 128 - 128) with p by lia. rewrite G. reflexivity.
Qed.

(** One byte decoded and encoded again. *)
Lemma single_forth t t0 t1 b cp : inverse t t0 t1 = true -> 0 <= b < 256 ->
  run (Single_decoder t) [] (Item b false) = Some (Out [cp], Single_decoder t, []) ->
  run (Single_encoder t0 t1) [] (Item cp false) = Some (Out [b], Single_encoder t0 t1, []).
Proof.
  intros I B H. cbn [run] in H |- *. unfold single_decoder_run in H. unfold single_encoder_run. cbn [eoq value] in H |- *.
  rewrite Z.mod_small in H by lia. cbv zeta in H.
  destruct (is_ascii b) eqn:A.
  - assert (cp = b) as -> by congruence. rewrite A, ascii_small by exact A. reflexivity.
  - apply andb_true_iff in I as [L I]. rewrite forallb_forall in I.
    assert (R : 0x80 <= b) by (unfold is_ascii in A; lia).
    specialize (I (Z.to_nat (b - 0x80)) ltac:(apply in_seq; lia)).
    unfold get_index_code_point in H. rewrite Z.mod_small in H by lia.
    destruct (nth_error t (Z.to_nat (b - 0x80))) as [x|]; [|discriminate].
    destruct (x =? 4294967295); [discriminate|]. assert (x = cp) as -> by congruence. cbn [orb] in I.
    destruct (get_index_pointer t0 t1 cp) as [p|] eqn:P; [|discriminate].
    apply andb_true_iff in I as [I1 I2]. apply Z.eqb_eq in I1. apply Z.leb_le in I2.
    replace (is_ascii cp) with false by (unfold is_ascii; lia). rewrite I1.
    replace ((Z.of_nat (Z.to_nat (b - 128)) + 128) mod 256) with b; [reflexivity|]. rewrite Z2Nat.id by lia.
    rewrite Z.mod_small by lia. lia.
Qed.

Lemma single_run t b : match run (Single_decoder t) [] (Item b false) with
  | Some (r, c, p) => c = Single_decoder t /\ p = [] /\ ((exists cp, r = Out [cp]) \/ exists e, r = Error e)
  | None => False end.
Proof.
  cbn [run]. unfold single_decoder_run. cbn [eoq value]. cbv zeta.
  brk; (split; [reflexivity|]; split; [reflexivity|]; first [left; eexists; reflexivity|right; eexists; reflexivity]).
Qed.

(** A string of bytes decoded without error. *)
Lemma single_decode_inv t l : forall fuel o c' q' out,
  process_queue fuel (Single_decoder t) (plain l ++ [end_of_queue]) (plain o) Fatal = Val (Finished, c', q', out) ->
  exists s, out = to_queue (o ++ s) /\
    Forall2 (fun b cp => run (Single_decoder t) [] (Item b false) = Some (Out [cp], Single_decoder t, [])) l s.
Proof.
  induction l as [|v l IH]; intros fuel o c' q' out E; (destruct fuel as [|fuel]; [discriminate|]).
  - cbn in E. exists []. split; [|constructor]. rewrite app_nil_r.
    assert (out = q_push (plain o) end_of_queue) as -> by congruence.
    rewrite q_push_open by apply plain_open. symmetry. apply to_queue_spec.
  - cbn [process_queue] in E. rewrite q_read_plain in E. unfold process_item in E. rewrite run_plain in E.
    pose proof (single_run t v) as S.
    destruct (run (Single_decoder t) [] (Item v false)) as [[[r c1] p]|] eqn:R; [|contradiction].
    destruct S as (-> & -> & [[cp ->]|[e ->]]); [|discriminate]. cbn [app] in E.
    rewrite q_push_values_open in E. destruct (IH _ _ _ _ _ E) as (s & -> & F).
    exists (cp :: s). split; [now rewrite <- app_assoc|]. constructor; assumption.
Qed.

Lemma single_forth_string t t0 t1 l s : inverse t t0 t1 = true -> Forall (fun b => 0 <= b < 256) l ->
  Forall2 (fun b cp => run (Single_decoder t) [] (Item b false) = Some (Out [cp], Single_decoder t, [])) l s ->
  forall m, eats m (Single_encoder t0 t1) s l (Single_encoder t0 t1) (length s).
Proof.
  intros I F H m. induction H as [|b cp l s R _ IH]; [constructor|]. inversion F as [|x y B F1]; subst.
  exact (eats_cons m _ cp s (Out [b]) _ [] _ _ _ (single_forth _ _ _ _ _ I B R) eq_refl (IH F1)).
Qed.
