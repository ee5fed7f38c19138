(** What the ISO-2022-JP encoder writes for every text. *)
From Coq Require Import ZArith List Bool Lia.
From Verif Require Import M_unicode L_unicode M_infra M_percent M_encoding L_encoding L_encoding2 L_enc_utf8 L_enc_misc L_enc_codec L_enc_tables L_enc_multi L_enc_jp L_decoders L_decoders2 L_encoders.
From Verif Require Import M_index_jis M_index_single.
Import ListNotations.
Open Scope Z_scope.

(** * The specification *)

(** Halfwidth katakana is written as fullwidth katakana, and the minus sign as its wide form. *)
Definition fullwidth (v : Z) : Z :=
  if v =? 0x2212 then 0xFF0D
  else if within 0xFF61 v 0xFF9F then match entry index_code_point_iso_2022_jp_katakana (v - 0xFF61) with Some w => w | None => v end
  else v.
(** The escape sequence that chooses a set. *)
Definition escape (s : charset) : list Z :=
  match s with Ascii => [0x1B; 0x28; 0x42] | Roman => [0x1B; 0x28; 0x4A] | Katakana => [0x1B; 0x28; 0x49] | Jis => [0x1B; 0x24; 0x42] end.
Definition shift (s s' : charset) : list Z :=
  match s, s' with Ascii, Ascii | Roman, Roman | Katakana, Katakana | Jis, Jis => [] | _, _ => escape s' end.
Definition jis_bytes (p : Z) : list Z := [p / 94 + 0x21; p mod 94 + 0x21].
Definition shift_code (v : Z) : bool := (v =? 0xE) || (v =? 0xF) || (v =? 0x1B).

(** One code point, written while a set is chosen; the last argument is the set that is chosen after it. *)
Inductive jp_writes : charset -> Z -> list Z -> charset -> Prop :=
| w_shift_code s v b : shift_code v = true -> reference 0xFFFD b ->
    jp_writes s v (match s with Jis => escape Ascii ++ b | _ => b end) (match s with Jis => Ascii | _ => s end)
| w_ascii s v : 0 <= v <= 0x7F -> shift_code v = false ->
    let s' := match s with Roman => if (v =? 0x5C) || (v =? 0x7E) then Ascii else Roman | _ => Ascii end in
    jp_writes s v (shift s s' ++ [v]) s'
| w_yen s : jp_writes s 0xA5 (shift s Roman ++ [0x5C]) Roman
| w_overline s : jp_writes s 0x203E (shift s Roman ++ [0x7E]) Roman
| w_jis s v p : 0x7F < v -> v <> 0xA5 -> v <> 0x203E -> least index_code_point_jis0208 0 (fullwidth v) p ->
    jp_writes s v (shift s Jis ++ jis_bytes p) Jis
| w_absent v b : 0x7F < v -> v <> 0xA5 -> v <> 0x203E -> absent index_code_point_jis0208 0 (fullwidth v) -> reference v b ->
    jp_writes Jis v b Jis.
(** A code point that the encoder never gets past. *)
Definition stuck_at (s : charset) (v : Z) : Prop :=
  s <> Jis /\ 0x7F < v /\ v <> 0xA5 /\ v <> 0x203E /\ absent index_code_point_jis0208 0 (fullwidth v).

Inductive jp_text : charset -> list Z -> list Z -> Prop :=
| t_end s : jp_text s [] (shift s Ascii)
| t_next s v b s' r b' : jp_writes s v b s' -> jp_text s' r b' -> jp_text s (v :: r) (b ++ b').
Inductive jp_stuck : charset -> list Z -> Prop :=
| k_here s v r : stuck_at s v -> jp_stuck s (v :: r)
| k_later s v b s' r : jp_writes s v b s' -> jp_stuck s' r -> jp_stuck s (v :: r).

(** * The encoder follows it *)

Definition set_of (e : jpe_state) : charset := match e with JE_ascii => Ascii | JE_roman => Roman | JE_jis0208 => Jis end.
Lemma escape_set_of e : escape_to e = escape (set_of e).
Proof. destruct e; reflexivity. Qed.
Lemma fullwidth_norm v : fullwidth v = kana_norm v.
Proof.
  unfold fullwidth. destruct (v =? 0x2212) eqn:E; [unfold kana_norm; now rewrite E|]. change (within 0xFF61 v 0xFF9F) with (in_range 0xFF61 v 0xFF9F).
  destruct (in_range 0xFF61 v 0xFF9F) eqn:W; [|unfold kana_norm; now rewrite E, W]. destruct (kana_value v W) as [_ G]. unfold in_range in W. rewrite entry_model in G by lia. rewrite G. reflexivity.
Qed.
Lemma jis_exact v : match jis_pointer v with Some p => 0 <= p < 8836 /\ least index_code_point_jis0208 0 v p | None => absent index_code_point_jis0208 0 v end.
Proof. exact (exact_pointer _ _ _ _ _ jis0208_ok ltac:(lia) jis0208_exact ltac:(lia) v). Qed.
(** All fullwidth katakana is in the index. *)
Lemma kana_indexed : forallb (fun w => match jis_pointer w with Some _ => true | None => false end) index_code_point_iso_2022_jp_katakana = true.
Proof. vm_compute. reflexivity. Qed.
Lemma absent_norm v : jis_pointer (kana_norm v) = None -> kana_norm v = v.
Proof.
  intros N. unfold kana_norm in *. destruct (v =? 0x2212); [vm_compute in N; discriminate|]. destruct (in_range 0xFF61 v 0xFF9F) eqn:W; [exfalso|reflexivity].
  destruct kana_table as [_ L]. unfold in_range in W. assert (X : (Z.to_nat (v - 0xFF61) < length index_code_point_iso_2022_jp_katakana)%nat) by (rewrite L; lia).
  pose proof (proj1 (forallb_forall _ _) kana_indexed _ (nth_In _ 0 X)) as K. cbn beta in K. rewrite N in K. discriminate.
Qed.

Lemma shift_run e v : shift_code v = true ->
  run (JP_encoder e) [] (Item v false) = match e with JE_jis0208 => Some (Out (escape Ascii), JP_encoder JE_ascii, plain [v]) | _ => Some (Error 0xFFFD, JP_encoder e, plain []) end.
Proof.
  intros H. assert (v = 0xE \/ v = 0xF \/ v = 0x1B) as D by (unfold shift_code in H; lia). destruct D as [->|[->| ->]]; destruct e; reflexivity.
Qed.
Lemma not_plain v : 0 <= v <= 0x7F -> shift_code v = false -> jp_plain v.
Proof. unfold shift_code, jp_plain. lia. Qed.
Lemma ascii_run_jis v : 0 <= v <= 0x7F -> run (JP_encoder JE_jis0208) [] (Item v false) = Some (Out (escape Ascii), JP_encoder JE_ascii, plain [v]).
Proof.
  intros B. cbn [run]. unfold jp_encoder_run, is_ascii. cbn [eoq value andb orb negb is_je_ascii is_je_roman]. cbv zeta.
  replace ((0 <=? v) && (v <=? 127)) with true by lia. reflexivity.
Qed.

Lemma one_writes e v : 0 <= v -> stuck_at (set_of e) v \/
  exists b e' k, jp_writes (set_of e) v b (set_of e') /\ eats Html (JP_encoder e) [v] b (JP_encoder e') k.
Proof.
  intros V. destruct (shift_code v) eqn:Sh.
  { right. pose proof (shift_run e v Sh) as R. destruct e.
    - exists (emit Html (Error 0xFFFD)), JE_ascii, 1%nat. split; [apply (w_shift_code Ascii v _ Sh), reference_html; lia|]. rewrite <- (app_nil_r (emit _ _)). eapply eats_cons; [exact R|reflexivity|constructor].
    - exists (emit Html (Error 0xFFFD)), JE_roman, 1%nat. split; [apply (w_shift_code Roman v _ Sh), reference_html; lia|]. rewrite <- (app_nil_r (emit _ _)). eapply eats_cons; [exact R|reflexivity|constructor].
    - exists (escape Ascii ++ emit Html (Error 0xFFFD)), JE_ascii, 2%nat. split; [apply (w_shift_code Jis v _ Sh), reference_html; lia|].
      apply (eats_cons Html _ v [] (Out (escape Ascii)) (JP_encoder JE_ascii) [v] _ _ 1 R eq_refl). cbn [app].
      rewrite <- (app_nil_r (emit _ _)). eapply eats_cons; [exact (shift_run JE_ascii v Sh)|reflexivity|constructor]. }
  destruct (Z_le_gt_dec v 0x7F) as [A|A].
  { right. pose proof (not_plain v ltac:(lia) Sh) as P. destruct e.
    - exists [v], JE_ascii, 1%nat. split; [exact (w_ascii Ascii v ltac:(lia) Sh)|apply eat_out, (enc_direct _ _ _ _ (holds_ascii v P))].
    - destruct ((v =? 0x5C) || (v =? 0x7E)) eqn:Y.
      + exists (escape Ascii ++ [v]), JE_ascii, 2%nat. split.
        * pose proof (w_ascii Roman v ltac:(lia) Sh) as W. cbv zeta iota in W. rewrite Y in W. exact W.
        * assert (R : run (JP_encoder JE_roman) [] (Item v false) = Some (Out (escape Ascii), JP_encoder JE_ascii, plain [v])) by (assert (v = 0x5C \/ v = 0x7E) as D by lia; destruct D as [->| ->]; reflexivity).
          apply (eats_cons Html _ v [] (Out (escape Ascii)) (JP_encoder JE_ascii) [v] _ _ 1 R eq_refl). apply eat_out, (enc_direct _ _ _ _ (holds_ascii v P)).
      + exists [v], JE_roman, 1%nat. split.
        * pose proof (w_ascii Roman v ltac:(lia) Sh) as W. cbv zeta iota in W. rewrite Y in W. exact W.
        * apply eat_out, (enc_direct _ _ _ _ (holds_roman v P ltac:(lia) ltac:(lia))).
    - exists (escape Ascii ++ [v]), JE_ascii, 2%nat. split; [exact (w_ascii Jis v ltac:(lia) Sh)|].
      apply (eats_cons Html _ v [] (Out (escape Ascii)) (JP_encoder JE_ascii) [v] _ _ 1 (ascii_run_jis v ltac:(lia)) eq_refl). apply eat_out, (enc_direct _ _ _ _ (holds_ascii v P)). }
  destruct (Z.eq_dec v 0xA5) as [->|Y1].
  { right. destruct e; [exists (escape Roman ++ [0x5C]), JE_roman, 2%nat|exists [0x5C], JE_roman, 1%nat|exists (escape Roman ++ [0x5C]), JE_roman, 2%nat].
    - split; [exact (w_yen Ascii)|]. apply (eats_cons Html (JP_encoder JE_ascii) 0xA5 [] (Out (escape Roman)) (JP_encoder JE_roman) [0xA5] _ _ 1 eq_refl eq_refl). apply eat_out. reflexivity.
    - split; [exact (w_yen Roman)|]. apply eat_out. reflexivity.
    - split; [exact (w_yen Jis)|]. apply (eats_cons Html (JP_encoder JE_jis0208) 0xA5 [] (Out (escape Roman)) (JP_encoder JE_roman) [0xA5] _ _ 1 eq_refl eq_refl). apply eat_out. reflexivity. }
  destruct (Z.eq_dec v 0x203E) as [->|Y2].
  { right. destruct e; [exists (escape Roman ++ [0x7E]), JE_roman, 2%nat|exists [0x7E], JE_roman, 1%nat|exists (escape Roman ++ [0x7E]), JE_roman, 2%nat].
    - split; [exact (w_overline Ascii)|]. apply (eats_cons Html (JP_encoder JE_ascii) 0x203E [] (Out (escape Roman)) (JP_encoder JE_roman) [0x203E] _ _ 1 eq_refl eq_refl). apply eat_out. reflexivity.
    - split; [exact (w_overline Roman)|]. apply eat_out. reflexivity.
    - split; [exact (w_overline Jis)|]. apply (eats_cons Html (JP_encoder JE_jis0208) 0x203E [] (Out (escape Roman)) (JP_encoder JE_roman) [0x203E] _ _ 1 eq_refl eq_refl). apply eat_out. reflexivity. }
  assert (Y : ~ jp_yen v) by (intros [H|H]; auto).
  pose proof (jis_exact (kana_norm v)) as X. pose proof (enc_tail e v ltac:(lia) Y) as R. destruct (jis_pointer (kana_norm v)) as [p|] eqn:P.
  - destruct X as [B L]. assert (D : run (JP_encoder JE_jis0208) [] (Item (kana_norm v) false) = Some (Out (jis_bytes p), JP_encoder JE_jis0208, plain [])).
    { destruct (consistent_ok _ _ _ _ _ _ jis0208_ok ltac:(lia) P) as (_ & Hi & _). rewrite enc_tail; [|lia|apply kana_high, Y]. rewrite kana_idem, P. cbn [is_je_jis0208 negb]. unfold jis_bytes. rewrite !(Z.mod_small _ 256) by zdiv. reflexivity. }
    right. assert (W : forall s, jp_writes s v (shift s Jis ++ jis_bytes p) Jis) by (intros s; apply w_jis; auto; [lia|now rewrite fullwidth_norm]).
    destruct e; cbn [is_je_jis0208 negb] in R; cbn [set_of].
    + exists (escape Jis ++ jis_bytes p), JE_jis0208, 2%nat. split; [exact (W Ascii)|]. apply (eats_cons Html _ v [] (Out (escape Jis)) (JP_encoder JE_jis0208) [kana_norm v] _ _ 1 R eq_refl). apply eat_out, D.
    + exists (escape Jis ++ jis_bytes p), JE_jis0208, 2%nat. split; [exact (W Roman)|]. apply (eats_cons Html _ v [] (Out (escape Jis)) (JP_encoder JE_jis0208) [kana_norm v] _ _ 1 R eq_refl). apply eat_out, D.
    + exists (jis_bytes p), JE_jis0208, 1%nat. split; [exact (W Jis)|]. apply eat_out. rewrite R. unfold jis_bytes. rewrite !(Z.mod_small _ 256) by zdiv. reflexivity.
  - pose proof (absent_norm v P) as N. destruct e; cbn [is_je_jis0208 negb set_of] in *; [left|left|right]; try (split; [discriminate|]; rewrite fullwidth_norm; repeat split; auto; lia).
    exists (emit Html (Error v)), JE_jis0208, 1%nat. split; [apply w_absent; [lia|auto|auto|now rewrite fullwidth_norm|apply reference_html, V]|]. rewrite N in R. rewrite <- (app_nil_r (emit _ _)). apply (eats_cons Html _ v [] (Error v) (JP_encoder JE_jis0208) [] [] _ 0 R eq_refl). constructor.
Qed.

Lemma stuck_loop e v : stuck_at (set_of e) v -> forall fuel q out m, process_queue fuel (JP_encoder e) (Item v false :: q) out m = NoFuel.
Proof.
  intros (J & A & Y1 & Y2 & Ab). rewrite fullwidth_norm in Ab. pose proof (jis_exact (kana_norm v)) as X. assert (Y : ~ jp_yen v) by (intros [H|H]; auto).
  destruct (jis_pointer (kana_norm v)) as [p|] eqn:P; [exfalso; destruct X as [_ (H1 & H2 & _)]; exact (Ab p H1 H2)|].
  pose proof (absent_norm v P) as N. rewrite N in P. intros [|f] q out m; [reflexivity|]. destruct e; [apply jp_loop; auto; lia| |now elim J].
  cbn [process_queue q_read eoq]. unfold process_item. rewrite run_plain. rewrite (enc_tail JE_roman v ltac:(lia) Y), N, P. cbn [is_je_jis0208 negb]. cbn [plain map app]. apply jp_loop; auto; lia.
Qed.

Lemma eats_short m c l o c' k : eats m c l o c' k -> forall f q out, (f < k)%nat -> process_queue f c (plain l ++ q) out m = NoFuel.
Proof.
  induction 1 as [|c v l r c1 p o c2 k E G H IH]; intros f q out L; [lia|]. destruct f as [|f]; [reflexivity|].
  cbn [process_queue]. rewrite q_read_plain.
  assert (E' : run c (plain l ++ q) (Item v false) = Some (r, c1, plain (p ++ l) ++ q)).
  { rewrite run_plain, E, plain_app, <- app_assoc. reflexivity. }
  rewrite (process_item_goes _ _ _ _ _ _ _ _ E' G). apply IH. lia.
Qed.
Theorem jp_encodes s : Forall (fun v => 0 <= v) s -> forall e,
  (jp_stuck (set_of e) s /\ forall fuel out, process_queue fuel (JP_encoder e) (plain s ++ [end_of_queue]) out Html = NoFuel) \/
  exists b N, jp_text (set_of e) s b /\ forall fuel out, (N <= fuel)%nat -> exists c q, process_queue fuel (JP_encoder e) (plain s ++ [end_of_queue]) out Html = Val (Finished, c, q, q_push (q_push_values out b) end_of_queue).
Proof.
  induction 1 as [|v s V F IH]; intros e.
  - right. exists (shift (set_of e) Ascii), 2%nat. split; [constructor|]. intros fuel out L. destruct fuel as [|[|f]]; [lia|lia|].
    destruct (jp_enc_end e f [] out Html) as (q & R). exists (JP_encoder JE_ascii), q. cbn [plain map app]. rewrite R. destruct e; reflexivity.
  - destruct (one_writes e v V) as [St|(b & e' & k & W & E)].
    + left. split; [constructor; exact St|]. intros fuel out. apply stuck_loop, St.
    + assert (Eq : forall f out, process_queue (k + f) (JP_encoder e) (plain (v :: s) ++ [end_of_queue]) out Html = process_queue f (JP_encoder e') (plain s ++ [end_of_queue]) (q_push_values out b) Html).
      { intros f out. exact (eats_process Html _ _ _ _ _ E f (plain s ++ [end_of_queue]) out). }
      destruct (IH e') as [[K H]|(b' & N & T & H)].
      * left. split; [econstructor 2; eassumption|]. intros fuel out. destruct (le_lt_dec k fuel) as [L|L].
        -- replace fuel with (k + (fuel - k))%nat by lia. rewrite Eq. apply H.
        -- exact (eats_short Html _ _ _ _ _ E fuel (plain s ++ [end_of_queue]) out L).
      * right. exists (b ++ b'), (k + N)%nat. split; [econstructor; eassumption|]. intros fuel out L. destruct (H (fuel - k)%nat (q_push_values out b) ltac:(lia)) as (c & q & R).
        exists c, q. replace fuel with (k + (fuel - k))%nat by lia. rewrite Eq, R, q_push_values_app. reflexivity.
Qed.
