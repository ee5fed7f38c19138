(** Lemmas for M_url: a record that is written and read again. *)
From Coq Require Import String.
From Coq Require Import ZArith List Bool Lia.
From Verif Require Import M_unicode M_infra M_percent M_ip M_encoding M_labels M_url.
From Verif Require Import L_unicode L_encoding L_encoding2 L_enc_queue L_enc_utf8 L_enc_misc L_enc_codec L_url L_url2 L_url3 L_url4 L_url5 L_url6 L_url7 L_url8.
From Verif Require L_percent L_ip L_infra.
Import ListNotations.
Open Scope string_scope.
Open Scope list_scope.
Open Scope Z_scope.

(** * Text that needs no encoding *)

Definition outside (set : Z -> bool) (s : list Z) : Prop := Forall (fun c => set c = false) s.
Definition covers (set : Z -> bool) : Prop := forall c, set c = false -> 0x20 <= c <= 0x7E.

Lemma covers_c0 : covers is_c0_control_percent_encode_set.
Proof. intros c. unfold is_c0_control_percent_encode_set, is_c0_control. lia. Qed.
Lemma covers_or s t : covers s -> covers (fun c => s c || t c).
Proof. intros H c E. apply orb_false_elim in E as [E _]. exact (H c E). Qed.
Lemma covers_fragment : covers is_fragment_percent_encode_set.
Proof. exact (covers_or _ _ covers_c0). Qed.
Lemma covers_query : covers is_query_percent_encode_set.
Proof. exact (covers_or _ _ covers_c0). Qed.
Lemma covers_special : covers is_special_query_percent_encode_set.
Proof. exact (covers_or _ _ covers_query). Qed.
Lemma covers_path : covers is_path_percent_encode_set.
Proof. exact (covers_or _ _ covers_fragment). Qed.
Lemma covers_userinfo : covers is_userinfo_percent_encode_set.
Proof. exact (covers_or _ _ covers_path). Qed.
Lemma covers_query_set u : covers (query_set u).
Proof. unfold query_set. destruct (is_special u); [apply covers_special|apply covers_query]. Qed.

Lemma pe_outside set s : covers set -> outside set s -> pe set s = s.
Proof.
  intros C. induction 1 as [|c s E _ IH]; [reflexivity|]. rewrite pe_cons, IH. pose proof (C c E).
  unfold pe. cbn [flat_map]. unfold utf8_spec. replace (c <? 0x80) with true by lia. cbn [flat_map]. rewrite E. reflexivity.
Qed.

(** What [one_of] leaves out. *)
Lemma one_of_out l c x : one_of l c = false -> In x l -> c <> x.
Proof. intros H I ->. unfold one_of in H. rewrite <- not_true_iff_false in H. apply H. apply existsb_exists. exists x. split; [exact I|apply Z.eqb_refl]. Qed.
Lemma out_fragment c : is_fragment_percent_encode_set c = false -> 0x20 < c <= 0x7E.
Proof.
  intros H. pose proof (covers_fragment c H). apply orb_false_elim in H as [_ H]. pose proof (one_of_out _ _ 0x20 H ltac:(cbn; tauto)). lia.
Qed.
Lemma out_query u c : query_set u c = false -> 0x20 < c <= 0x7E /\ c <> 0x23.
Proof.
  intros H. pose proof (covers_query_set u c H). assert (Q : is_query_percent_encode_set c = false).
  { unfold query_set in H. destruct (is_special u); [apply orb_false_elim in H as [H _]; exact H|exact H]. }
  apply orb_false_elim in Q as [_ Q]. pose proof (one_of_out _ _ 0x20 Q ltac:(cbn; tauto)). pose proof (one_of_out _ _ 0x23 Q ltac:(cbn; tauto)). lia.
Qed.
Lemma out_path c : is_path_percent_encode_set c = false -> 0x20 < c <= 0x7E /\ c <> 0x3F /\ c <> 0x23.
Proof.
  intros H. apply orb_false_elim in H as [F Q]. pose proof (out_fragment c F). pose proof (one_of_out _ _ 0x3F Q ltac:(cbn; tauto)). pose proof (one_of_out _ _ 0x23 Q ltac:(cbn; tauto)). lia.
Qed.
Lemma out_userinfo c : is_userinfo_percent_encode_set c = false -> 0x20 < c <= 0x7E /\ c <> 0x3F /\ c <> 0x23 /\ c <> 0x2F /\ c <> 0x3A /\ c <> 0x40 /\ c <> 0x5C /\ c <> 0x5B /\ c <> 0x5D.
Proof.
  intros H. apply orb_false_elim in H as [F Q]. pose proof (out_path c F).
  pose proof (one_of_out _ _ 0x2F Q ltac:(cbn; tauto)). pose proof (one_of_out _ _ 0x3A Q ltac:(cbn; tauto)). pose proof (one_of_out _ _ 0x40 Q ltac:(cbn; tauto)).
  pose proof (one_of_out _ _ 0x5C Q ltac:(cbn; tauto)). pose proof (one_of_out _ _ 0x5B Q ltac:(cbn; tauto)). pose proof (one_of_out _ _ 0x5D Q ltac:(cbn; tauto)). lia.
Qed.

(** * Records that are written readably *)

Definition segment_ok (u : url) (s : list Z) : Prop :=
  outside is_path_percent_encode_set s /\ Forall (fun c => path_sep u c = false) s /\ is_single_dot_path_segment s = false /\ is_double_dot_path_segment s = false.

Definition good_host (idna : list Z -> option (list Z)) (special : bool) (h : host) : Prop :=
  match h with
  | HIpv6 a => List.length a = 8%nat /\ Forall (fun p => 0 <= p < 65536) a /\ L_ip.index_ok (map (Z.eqb 0) a) = true
  | HIpv4 n => special = true /\ 0 <= n < 2 ^ 32 /\ idna (serialize_ipv4 n) = Some (serialize_ipv4 n)
  | HDomain d =>
      special = true /\ d <> [] /\ Forall (fun c => 0 <= c < 0x80 /\ is_forbidden_host_code_point c = false) d /\ idna d = Some d /\
      exists v e, parse_ipv4 d EcNone = Some (HOpaque v, e)
  | HOpaque s => special = false /\ Forall (fun c => 0x20 <= c <= 0x7E /\ (is_forbidden_host_code_point c = false \/ c = 0x25)) s
  | HEmpty | HNone => False
  end.

Definition proper (idna : list Z -> option (list Z)) (u : url) : Prop :=
  scheme_text (scheme u) /\ map cp_lower (scheme u) = scheme u /\
  match query u with Some q => outside (query_set u) q | None => True end /\
  match fragment u with Some f => outside is_fragment_percent_encode_set f | None => True end /\
  if cannot_be_base u then
    is_special u = false /\ username u = [] /\ password u = [] /\ uhost u = None /\ port u = None /\
    exists s, path u = [s] /\ Forall (fun c => 0x20 <= c <= 0x7E /\ c <> 0x3F /\ c <> 0x23) s /\
      (hd 0 s <> 0x2F \/ (s = [0x2F] /\ query u = None /\ fragment u = None)) /\
      (query u = None -> fragment u = None -> last s 0 <> 0x20)
  else
    Forall (segment_ok u) (path u) /\ (is_special u = true -> path u <> []) /\
    match uhost u with
    | None =>
        is_special u = false /\ username u = [] /\ password u = [] /\ port u = None /\
        path u <> [] /\ (path u = [[]] -> query u <> None \/ fragment u <> None)
    | Some h =>
        if is_file u then
          username u = [] /\ password u = [] /\ port u = None /\
          (h = HEmpty \/ good_host idna true h /\ exists d, h = HDomain d /\ d <> lit "localhost" /\ is_windows_drive_letter d = false) /\
          drive true [] (hd [] (path u)) = hd [] (path u)
        else
          good_host idna (is_special u) h /\
          outside is_userinfo_percent_encode_set (username u) /\ outside is_userinfo_percent_encode_set (password u) /\
          (includes_credentials u = true \/ port u <> None -> h <> HOpaque []) /\
          match port u with Some n => 0 <= n < 65535 /\ default_port (scheme u) <> Some n | None => True end
    end.

(** * Cleaning does nothing *)

Lemma drop_while_id f s : f (hd 0 s) = false \/ s = [] -> drop_while f s = s.
Proof. intros [H| ->]; [|reflexivity]. destruct s as [|c s]; [reflexivity|]. cbn [hd] in H. cbn [drop_while]. now rewrite H. Qed.
Lemma hd_rev_last (s : list Z) d : hd d (rev s) = last s d.
Proof. destruct s as [|c s] using rev_ind; [reflexivity|]. rewrite rev_unit, last_last. reflexivity. Qed.
Lemma filter_id (f : Z -> bool) t : Forall (fun c => f c = true) t -> filter f t = t.
Proof. induction 1 as [|c t E _ IH]; [reflexivity|]. cbn [filter]. rewrite E, IH. reflexivity. Qed.
Lemma clean_id t : is_c0_control_or_space (hd 0 t) = false -> is_c0_control_or_space (last t 0) = false ->
  Forall (fun c => is_ascii_tab_or_newline c = false) t -> without_newlines (trim t) = t.
Proof.
  intros H L N. unfold trim. rewrite (drop_while_id is_c0_control_or_space t) by (now left). rewrite (drop_while_id is_c0_control_or_space (rev t)) by (left; now rewrite hd_rev_last). rewrite rev_involutive.
  apply filter_id. revert N. apply Forall_impl. intros c E. now rewrite E.
Qed.

Definition kept (c : Z) : Prop := scalar c /\ is_ascii_tab_or_newline c = false.
Definition solid (c : Z) : Prop := 0x20 < c <= 0x7E.
Lemma solid_kept c : solid c -> kept c.
Proof. unfold solid, kept, scalar, is_ascii_tab_or_newline. intros H. split; [lia|]. lia. Qed.
Lemma kept_visible c : kept c -> visible c.
Proof. intros [H N]. split; [exact H|]. intros ->. discriminate N. Qed.
Lemma last_forall (P : Z -> Prop) l d : Forall P l -> l <> [] -> P (last l d).
Proof. intros F N. rewrite Forall_forall in F. apply F. destruct l as [|x l] using rev_ind; [congruence|]. rewrite last_last. apply in_or_app. right. now left. Qed.
Lemma last_app_ne (a b : list Z) d : b <> [] -> last (a ++ b) d = last b d.
Proof. intros N. destruct b as [|x b] using rev_ind; [congruence|]. rewrite app_assoc, !last_last. reflexivity. Qed.

Lemma clean_parts sc a b : scheme_text sc -> Forall kept (sc ++ a ++ b) -> Forall solid b -> b <> [] \/ (a <> [] /\ is_c0_control_or_space (last a 0) = false) ->
  without_newlines (trim (sc ++ a ++ b)) = sc ++ a ++ b.
Proof.
  intros Sc K Sb N. apply clean_id.
  - destruct sc as [|c sc]; [destruct Sc|]. destruct Sc as [A _]. cbn [app hd]. unfold is_ascii_alpha, is_ascii_upper_alpha, is_ascii_lower_alpha in A. unfold is_c0_control_or_space, is_c0_control. lia.
  - assert (D : b = [] \/ b <> []) by (destruct b; [now left|right; discriminate]). destruct D as [->|D].
    + destruct N as [N|[Na N]]; [congruence|]. rewrite app_nil_r. rewrite last_app_ne by exact Na. exact N.
    + rewrite app_assoc, last_app_ne by exact D. pose proof (last_forall solid b 0 Sb D) as H. unfold solid in H. unfold is_c0_control_or_space, is_c0_control. lia.
  - revert K. apply Forall_impl. intros c [_ H]. exact H.
Qed.

(** * The parts *)

Lemma scheme_solid sc : scheme_text sc -> Forall solid sc.
Proof.
  destruct sc as [|c sc]; [intros []|]. intros [A F]. constructor.
  - unfold is_ascii_alpha, is_ascii_upper_alpha, is_ascii_lower_alpha in A. unfold solid. lia.
  - revert F. apply Forall_impl. intros x H. unfold scheme_char, is_ascii_alphanumeric, is_ascii_alpha, is_ascii_upper_alpha, is_ascii_lower_alpha, is_ascii_digit in H. unfold solid. lia.
Qed.

Lemma qtext_solid u q : match q with Some q => outside (query_set u) q | None => True end -> Forall solid (qtext q).
Proof.
  destruct q as [q|]; [|constructor]. intros H. constructor; [unfold solid; lia|]. revert H. apply Forall_impl. intros c E. destruct (out_query u c E) as [R _]. exact R.
Qed.
Lemma ftext_solid f : match f with Some f => outside is_fragment_percent_encode_set f | None => True end -> Forall solid (ftext f).
Proof. destruct f as [f|]; [|constructor]. intros H. constructor; [unfold solid; lia|]. revert H. apply Forall_impl. intros c E. exact (out_fragment c E). Qed.

Definition slashed (l : list (list Z)) : list Z := flat_map (fun s => 0x2F :: s) l.
Lemma slashed_solid u l : Forall (segment_ok u) l -> Forall solid (slashed l).
Proof.
  induction 1 as [|s l (H & _) _ IH]; [constructor|]. unfold slashed in *. cbn [flat_map]. constructor; [unfold solid; lia|]. apply Forall_app. split; [|exact IH].
  revert H. apply Forall_impl. intros c E. destruct (out_path c E) as [R _]. exact R.
Qed.
Lemma slashed_out u l : Forall (segment_ok u) l -> ~ In 0x3F (slashed l) /\ ~ In 0x23 (slashed l).
Proof.
  induction 1 as [|s l (H & _) _ [IH1 IH2]]; [split; intros []|]. unfold slashed in *. cbn [flat_map]. unfold outside in H. rewrite Forall_forall in H.
  split; intros [X|X]; try discriminate X; apply in_app_or in X as [X|X]; auto; destruct (out_path _ (H _ X)) as (_ & A & B); congruence.
Qed.

(** The path is read as it was. *)
Lemma split_segment sep s b : Forall (fun c => sep c = false) s -> split_at sep (s ++ b) = prepend s (split_at sep b).
Proof.
  induction 1 as [|c s E _ IH]; [cbn [app]; rewrite prepend_nil by apply split_nonempty; reflexivity|]. cbn [app split_at]. rewrite E, IH. destruct (split_at sep b); reflexivity.
Qed.
Lemma split_slashed u s l : Forall (segment_ok u) (s :: l) -> split_at (path_sep u) (s ++ slashed l) = s :: l.
Proof.
  revert s. induction l as [|t l IH]; intros s F; inversion F as [|x y (_ & Hs & _) Fl]; subst.
  - cbn [slashed flat_map]. rewrite split_segment by exact Hs. cbn [split_at prepend]. now rewrite app_nil_r.
  - rewrite split_segment by exact Hs. change (slashed (t :: l)) with (0x2F :: t ++ slashed l). cbn [split_at]. change (path_sep u 0x2F) with true. cbv iota. rewrite (IH t Fl).
    cbn [prepend]. now rewrite app_nil_r.
Qed.
Lemma segments_slashed u s l : Forall (segment_ok u) (s :: l) -> segments u (s ++ slashed l) = s :: l.
Proof.
  intros F. unfold segments. rewrite split_slashed by exact F. rewrite <- (map_id (s :: l)) at 2. apply map_ext_in. intros x I. rewrite Forall_forall in F. apply pe_outside; [exact covers_path|]. apply (F x I).
Qed.
Lemma resolve_plain file l : forall p, Forall (fun s => is_single_dot_path_segment s = false /\ is_double_dot_path_segment s = false) l ->
  (p <> [] \/ drive file [] (hd [] l) = hd [] l) -> resolve file p l = p ++ l.
Proof.
  assert (Dr : forall p s l, p <> [] \/ drive file [] (hd [] (s :: l)) = hd [] (s :: l) -> drive file p s = s).
  { intros p s l0 [N|H]; [destruct p; [congruence|reflexivity]|]. destruct p; [exact H|reflexivity]. }
  induction l as [|s l IH]; intros p F D; [now rewrite app_nil_r|]. inversion F as [|x y [H1 H2] Fl]; subst. destruct l as [|t l].
  - cbn [resolve]. rewrite H1, H2, (Dr _ _ _ D). reflexivity.
  - change (resolve file p (s :: t :: l)) with (resolve file (if is_double_dot_path_segment s then shorten file p else if is_single_dot_path_segment s then p else p ++ [drive file p s]) (t :: l)).
    rewrite H1, H2, (Dr _ _ _ D), IH; [now rewrite <- app_assoc|exact Fl|left; destruct p; discriminate].
Qed.
Lemma segments_dots u l : Forall (segment_ok u) l -> Forall (fun s => is_single_dot_path_segment s = false /\ is_double_dot_path_segment s = false) l.
Proof. apply Forall_impl. intros s (_ & _ & H). exact H. Qed.
Lemma drive_other l : drive false [] l = l.
Proof. unfold drive. destruct l as [|a [|b [|c l]]]; reflexivity. Qed.

Lemma path_read u l : Forall (segment_ok u) l -> (is_special u = true -> l <> []) -> drive (is_file u) [] (hd [] l) = hd [] l ->
  set_path_value u (slashed l) = l.
Proof.
  intros F N D. destruct l as [|s l]; [cbn [slashed flat_map set_path_value]; destruct (is_special u); [now destruct (N eq_refl)|reflexivity]|].
  change (slashed (s :: l)) with (0x2F :: s ++ slashed l). unfold set_path_value. change (path_sep u 0x2F) with true. cbv iota.
  rewrite segments_slashed by exact F. rewrite resolve_plain; [reflexivity|apply (segments_dots u), F|right; exact D].
Qed.

(** The port. *)
Lemma port_text n : 0 <= n < 65535 -> digits (serialize_integer n) /\ decimal (serialize_integer n) = n /\ port_fits (serialize_integer n) = true /\ serialize_integer n <> [].
Proof.
  intros H. unfold serialize_integer. destruct (L_percent.to_chars_spec 10 n ltac:(lia) ltac:(lia)) as (ds & E & D & V & N & Z0). rewrite E.
  assert (G : digits (map digit_char ds)).
  { clear - D. unfold digits. induction D as [|d ds Hd _ IH]; [constructor|]. constructor; [|exact IH]. unfold digit_char. destruct (d <? 10) eqn:?; lia. }
  assert (W : forall ds v, Forall (fun d => 0 <= d < 10) ds -> fold_left (fun n c => n * 10 + (c - 0x30)) (map digit_char ds) v = L_percent.value 10 ds v).
  { clear. induction ds as [|d ds IH]; intros v F; [reflexivity|]. inversion F; subst. cbn [map fold_left L_percent.value]. rewrite IH by assumption. f_equal. unfold digit_char. destruct (d <? 10) eqn:?; lia. }
  split; [exact G|]. assert (Dn : decimal (map digit_char ds) = n) by (unfold decimal; rewrite W by exact D; exact V). split; [exact Dn|]. split; [|destruct ds; [congruence|discriminate]].
  unfold port_fits. rewrite Dn. replace (0xFFFF <=? n) with false by lia. rewrite orb_false_r.
  assert (L : zlen (map digit_char ds) <= 5); [|lia]. unfold zlen. rewrite map_length.
  (* six digits without a leading zero are 100000 or more *)
  assert (Lb : forall ds v, Forall (fun d => 0 <= d < 10) ds -> 0 <= v -> v * 10 ^ Z.of_nat (List.length ds) <= L_percent.value 10 ds v).
  { clear. induction ds as [|d ds IH]; intros v F Hv; [cbn; lia|]. inversion F; subst. cbn [L_percent.value List.length]. specialize (IH (v * 10 + d) H2 ltac:(lia)).
    rewrite Nat2Z.inj_succ, Z.pow_succ_r by lia. assert (0 < 10 ^ Z.of_nat (List.length ds)) by (apply Z.pow_pos_nonneg; lia). nia. }
  destruct ds as [|d ds]; [congruence|]. inversion D as [|x y Hd Dd]; subst x y. cbn [List.length]. destruct (Z.eq_dec d 0) as [->|Nd].
  - destruct (Z0 _ eq_refl) as [_ ->]. cbn. lia.
  - specialize (Lb ds d Dd ltac:(lia)). change (L_percent.value 10 (d :: ds) 0) with (L_percent.value 10 ds (0 * 10 + d)) in V. replace (0 * 10 + d) with d in V by lia. rewrite V in Lb.
    destruct (Z_le_gt_dec 5 (Z.of_nat (List.length ds))) as [G5|G5]; [|lia]. exfalso.
    assert (10 ^ 5 <= 10 ^ Z.of_nat (List.length ds)) by (apply Z.pow_le_mono_r; lia). change (10 ^ 5) with 100000 in H0. nia.
Qed.

(** * Hosts *)

(** Text of ASCII without a percent sign is passed to the ToASCII operation as it is. *)
Lemma percent_decode_plain f : forall s, (List.length s <= f)%nat -> ~ In 0x25 s -> percent_decode f s = Some s.
Proof.
  induction f as [|f IH]; intros s L N; destruct s as [|a s]; cbn [List.length] in L; try lia; [reflexivity|reflexivity|].
  cbn [percent_decode]. replace (starts_with_percent_encoded_byte (a :: s)) with false.
  - rewrite IH; [reflexivity|lia|]. intros X. apply N. now right.
  - symmetry. unfold starts_with_percent_encoded_byte. destruct s as [|b [|c s]]; try reflexivity.
    replace (a =? 0x25) with false; [reflexivity|]. symmetry. apply Z.eqb_neq. intros ->. apply N. now left.
Qed.
Lemma utf8_ascii s : Forall (fun c => 0 <= c < 0x80) s -> flat_map utf8_spec s = s.
Proof. induction 1 as [|c s H _ IH]; [reflexivity|]. cbn [flat_map]. rewrite IH. unfold utf8_spec. replace (c <? 0x80) with true by lia. reflexivity. Qed.
Lemma eats_ascii m s : Forall (fun c => 0 <= c < 0x80) s -> eats m D0 s s D0 (List.length s).
Proof.
  induction 1 as [|c s H _ IH]; [constructor|]. change (c :: s) with ([c] ++ s) at 1 2. change (List.length (c :: s)) with (1 + List.length s)%nat.
  apply (eats_app m D0 [c] [c] D0 1); [|exact IH]. apply eat_out. apply run_ascii. lia.
Qed.

Lemma domain_input fuel s : Forall (fun c => 0 <= c < 0x80) s -> ~ In 0x25 s -> (List.length s + 1 < fuel)%nat ->
  string_percent_decode fuel s = Val s /\ exists r c q, utf8_decode_without_bom fuel (to_queue s) [] = Val (r, c, q, to_queue s).
Proof.
  intros A N L. split.
  - assert (S : Forall scalar s) by (revert A; apply Forall_impl; unfold scalar; lia).
    unfold string_percent_decode, utf8_encode, encode. cbn [get_encoding_encoder].
    destruct (proc_finish _ _ _ _ _ _ _ _ (eats_utf8 Html s S) (enc_ends Html UTF8_encoder I) fuel ltac:(lia)) as (c & q & R).
    rewrite app_nil_r in R. rewrite R. cbn [obind]. rewrite to_queue_spec, from_queue_plain. rewrite utf8_ascii by exact A. unfold percent_decode_bytes. rewrite percent_decode_plain by (exact N || lia). reflexivity.
  - unfold utf8_decode_without_bom.
    pose proof (ends_D0 Replacement) as E.
    destruct (proc_finish _ _ _ _ _ _ _ _ (eats_ascii Replacement s A) E fuel ltac:(lia)) as (c & q & R). rewrite app_nil_r in R. repeat eexists. exact R.
Qed.
Lemma parse_domain_plain idna fuel s : Forall (fun c => 0 <= c < 0x80 /\ is_forbidden_host_code_point c = false) s -> (List.length s + 1 < fuel)%nat -> idna s = Some s ->
  parse_domain idna fuel s = obind (of_option (parse_ipv4 s EcNone)) (fun '(ipv4, _) => match ipv4 with HNone | HIpv4 _ => Val ipv4 | _ => Val (HDomain s) end).
Proof.
  intros F L I. assert (A : Forall (fun c => 0 <= c < 0x80) s) by (revert F; apply Forall_impl; tauto).
  assert (N : ~ In 0x25 s). { intros X. rewrite Forall_forall in F. destruct (F _ X) as [_ Y]. discriminate Y. }
  destruct (domain_input fuel s A N L) as (E1 & r & c & q & E2). unfold parse_domain. rewrite E1. cbn [obind]. rewrite E2. cbn [obind]. rewrite to_queue_spec, from_queue_plain, I.
  replace (existsb is_forbidden_host_code_point s) with false; [reflexivity|]. symmetry. apply not_true_iff_false. intros X. apply existsb_exists in X as (x & X1 & X2).
  rewrite Forall_forall in F. destruct (F _ X1) as [_ Y]. congruence.
Qed.

(** The characters of an address. *)
Lemma ipv4_chars n : Forall (fun c => 0x30 <= c <= 0x39 \/ c = 0x2E) (serialize_ipv4 n) /\ serialize_ipv4 n <> [].
Proof.
  rewrite L_ip.serialize_ipv4_join.
  assert (B : forall x, Forall (fun c => 0x30 <= c <= 0x39 \/ c = 0x2E) (to_chars 10 (x mod 256)) /\ to_chars 10 (x mod 256) <> []).
  { intros x. destruct (L_ip.byte_text (x mod 256) ltac:(apply Z.mod_pos_bound; lia)) as (T & _ & N). split; [|exact N]. revert T. apply Forall_impl. intros; now left. }
  destruct (B (n / 256 / 256 / 256)) as [B1 N1]. destruct (B (n / 256 / 256)) as [B2 _]. destruct (B (n / 256)) as [B3 _]. destruct (B n) as [B4 _].
  cbn [L_infra.join]. split.
  - repeat (apply Forall_app; split; [assumption|constructor; [now right|]]). assumption.
  - intros X. apply app_eq_nil in X as [X _]. congruence.
Qed.
Lemma ipv6_chars a : Forall (fun p => 0 <= p < 65536) a -> Forall (fun c => is_ascii_hex_digit c = true \/ c = 0x3A) (serialize_ipv6 a).
Proof.
  unfold serialize_ipv6. generalize (ipv6_compress (map (Z.eqb 0) a)) 0%nat false. intros c i ig F. revert c i ig.
  assert (P : forall p, 0 <= p < 65536 -> Forall (fun c => is_ascii_hex_digit c = true \/ c = 0x3A) (to_chars 16 p)).
  { intros p Hp. pose proof (L_ip.piece_check p Hp) as C. unfold L_ip.piece_ok in C. cbv zeta in C. apply andb_prop in C as [C _]. apply andb_prop in C as [C _]. apply andb_prop in C as [C _].
    apply Forall_forall. intros x X. rewrite forallb_forall in C. left. exact (C x X). }
  induction F as [|p a Hp _ IH]; intros c i ig; cbn [ipv6_emit]; [constructor|]. destruct (ig && (p =? 0)); [apply IH|].
  destruct c as [c|].
  - destruct (Nat.eqb c i).
    + apply Forall_app. split; [|apply IH]. destruct (Nat.eqb i 0); repeat constructor; now right.
    + apply Forall_app. split; [apply P, Hp|]. apply Forall_app. split; [|apply IH]. destruct (Nat.eqb i 7); repeat constructor; now right.
  - apply Forall_app. split; [apply P, Hp|]. apply Forall_app. split; [|apply IH]. destruct (Nat.eqb i 7); repeat constructor; now right.
Qed.
Lemma hex_digit_range c : is_ascii_hex_digit c = true -> 0x30 <= c <= 0x39 \/ 0x41 <= c <= 0x46 \/ 0x61 <= c <= 0x66.
Proof. unfold is_ascii_hex_digit, is_ascii_upper_hex_digit, is_ascii_lower_hex_digit, is_ascii_digit. lia. Qed.

Lemma plain_colon_free s : Forall (fun c => c <> 0x3A /\ c <> 0x5B /\ c <> 0x5D) s -> forall br, colon_free br s /\ in_brackets br s = br.
Proof.
  induction 1 as [|c s (H1 & H2 & H3) _ IH]; intros br; cbn [colon_free in_brackets]; [auto|]. replace (c =? 0x5D) with false by lia. replace (c =? 0x5B) with false by lia.
  destruct (IH br). split; [split; [congruence|assumption]|assumption].
Qed.
Lemma bracket_colon_free s : Forall (fun c => c <> 0x5B /\ c <> 0x5D) s -> colon_free false ([0x5B] ++ s ++ [0x5D]) /\ in_brackets false ([0x5B] ++ s ++ [0x5D]) = false.
Proof.
  intros F. assert (G : forall s, Forall (fun c => c <> 0x5B /\ c <> 0x5D) s -> colon_free true (s ++ [0x5D]) /\ in_brackets true (s ++ [0x5D]) = false).
  { clear. induction 1 as [|c s (H2 & H3) _ IH]; cbn [app colon_free in_brackets]; [split; [split; [discriminate|exact I]|reflexivity]|].
    replace (c =? 0x5D) with false by lia. replace (c =? 0x5B) with false by lia. destruct IH. auto. }
  cbn [app colon_free in_brackets]. change (0x5B =? 0x5D) with false. change (0x5B =? 0x5B) with true. cbv iota. destruct (G s F). split; [split; [discriminate|assumption]|assumption].
Qed.

Lemma forbidden_out c : is_forbidden_host_code_point c = false ->
  c <> 0x9 /\ c <> 0xA /\ c <> 0xD /\ c <> 0x20 /\ c <> 0x23 /\ c <> 0x25 /\ c <> 0x2F /\ c <> 0x3A /\ c <> 0x3F /\ c <> 0x40 /\ c <> 0x5B /\ c <> 0x5C /\ c <> 0x5D.
Proof. intros H. repeat split; apply (one_of_out _ _ _ H); cbn; tauto. Qed.

(** What the serialised host looks like, and that it is read again. *)
Definition host_char (c : Z) : Prop := kept c /\ c <> 0x23 /\ c <> 0x2F /\ c <> 0x3F /\ c <> 0x40 /\ c <> 0x5C.
Lemma host_written idna special h fuel : good_host idna special h -> exists s, serialize_host h = Some s /\
  Forall host_char s /\ colon_free false s /\ in_brackets false s = false /\ (special = true -> s <> []) /\ (h <> HOpaque [] -> s <> []) /\
  (special = false -> Forall solid s) /\
  ((List.length s + 1 < fuel)%nat -> parse_host idna fuel s (negb special) = Val h).
Proof.
  intros G. destruct h as [|d|n|a|s|]; cbn [good_host] in G; try (destruct G; fail).
  - destruct G as (-> & Nd & F & I & v & e & P4). exists d. cbn [serialize_host negb]. split; [reflexivity|].
    assert (Fc : Forall host_char d).
    { revert F. apply Forall_impl. intros c [R X]. apply forbidden_out in X. unfold host_char, kept, scalar, is_ascii_tab_or_newline. split; [split; [lia|]|]; lia. }
    assert (Fp : Forall (fun c => c <> 0x3A /\ c <> 0x5B /\ c <> 0x5D) d) by (revert F; apply Forall_impl; intros c [R X]; apply forbidden_out in X; lia).
    destruct (plain_colon_free d Fp false) as [C1 C2]. repeat split; auto; [discriminate|]. intros L. destruct d as [|c d]; [congruence|]. unfold parse_host.
    replace (c =? 0x5B) with false by (inversion Fp; lia). rewrite parse_domain_plain by assumption. rewrite P4. reflexivity.
  - destruct G as (-> & Hn & I). exists (serialize_ipv4 n). cbn [serialize_host negb]. split; [reflexivity|]. destruct (ipv4_chars n) as [F N].
    assert (Fc : Forall host_char (serialize_ipv4 n)) by (revert F; apply Forall_impl; intros c X; unfold host_char, kept, scalar, is_ascii_tab_or_newline; split; [split; [lia|]|]; lia).
    assert (Fp : Forall (fun c => c <> 0x3A /\ c <> 0x5B /\ c <> 0x5D) (serialize_ipv4 n)) by (revert F; apply Forall_impl; intros c X; lia).
    destruct (plain_colon_free _ Fp false) as [C1 C2]. repeat split; auto; [discriminate|]. intros L. 
    assert (Fd : Forall (fun c => 0 <= c < 0x80 /\ is_forbidden_host_code_point c = false) (serialize_ipv4 n)).
    { revert F. apply Forall_impl. intros c X. split; [lia|]. unfold is_forbidden_host_code_point, one_of. cbn [existsb]. lia. }
    pose proof (parse_domain_plain idna fuel _ Fd L I) as E. rewrite L_ip.ipv4_roundtrip in E by exact Hn. cbn [of_option obind] in E. unfold parse_host.
    destruct (serialize_ipv4 n) as [|c s]; [congruence|]. replace (c =? 0x5B) with false by (inversion Fp; lia). exact E.
  - destruct G as (La & Ra & Io). exists ([0x5B] ++ serialize_ipv6 a ++ [0x5D]). cbn [serialize_host]. split; [reflexivity|]. pose proof (ipv6_chars a Ra) as F.
    assert (Fs : Forall (fun c => 0x30 <= c <= 0x3A \/ 0x41 <= c <= 0x46 \/ 0x61 <= c <= 0x66) (serialize_ipv6 a)).
    { revert F. apply Forall_impl. intros c [X| ->]; [apply hex_digit_range in X|]; lia. }
    assert (Fc : Forall (fun c => solid c /\ host_char c) ([0x5B] ++ serialize_ipv6 a ++ [0x5D])).
    { assert (H : forall c, 0x30 <= c <= 0x3A \/ 0x41 <= c <= 0x46 \/ 0x61 <= c <= 0x66 \/ c = 0x5B \/ c = 0x5D -> solid c /\ host_char c).
      { intros c X. assert (S : solid c) by (unfold solid; lia). split; [exact S|]. split; [apply solid_kept, S|]. lia. }
      constructor; [apply H; lia|]. apply Forall_app. split; [|constructor; [apply H; lia|constructor]]. revert Fs. apply Forall_impl. intros c X. apply H. lia. }
    destruct (bracket_colon_free (serialize_ipv6 a)) as [C1 C2]; [revert Fs; apply Forall_impl; intros c X; lia|].
    split; [revert Fc; apply Forall_impl; tauto|]. split; [exact C1|]. split; [exact C2|]. split; [discriminate|]. split; [discriminate|]. split; [intros _; revert Fc; apply Forall_impl; tauto|].
    intros _. change ([0x5B] ++ serialize_ipv6 a ++ [0x5D]) with (0x5B :: (serialize_ipv6 a ++ [0x5D])). unfold parse_host. change (0x5B =? 0x5B) with true. cbv iota.
    change (0x5B :: serialize_ipv6 a ++ [0x5D]) with ((0x5B :: serialize_ipv6 a) ++ [0x5D]). rewrite last_last. change (0x5D =? 0x5D) with true. cbv iota.
    rewrite removelast_last. destruct (L_ip.ipv6_roundtrip a EcNone La Ra) as [_ K]. rewrite (K Io). reflexivity.
  - destruct G as (-> & F). exists s. cbn [serialize_host negb]. split; [reflexivity|].
    assert (Fs : Forall (fun c => solid c /\ c <> 0x23 /\ c <> 0x2F /\ c <> 0x3A /\ c <> 0x3F /\ c <> 0x40 /\ c <> 0x5B /\ c <> 0x5C /\ c <> 0x5D) s).
    { revert F. apply Forall_impl. intros c [R [X| ->]]; [apply forbidden_out in X|]; unfold solid; lia. }
    assert (Fp : Forall (fun c => c <> 0x3A /\ c <> 0x5B /\ c <> 0x5D) s) by (revert Fs; apply Forall_impl; intros c; lia).
    destruct (plain_colon_free s Fp false) as [C1 C2].
    split; [revert Fs; apply Forall_impl; intros c (X & Y); split; [apply solid_kept, X|]; lia|]. split; [exact C1|]. split; [exact C2|]. split; [discriminate|].
    split; [intros N X; apply N; now rewrite X|]. split; [intros _; revert Fs; apply Forall_impl; tauto|]. intros L.
    assert (E : parse_opaque_host fuel s = Val (HOpaque s)).
    { unfold parse_opaque_host. replace (existsb _ s) with false.
      - rewrite pe_spec by (lia || (revert Fs; apply Forall_impl; intros c (X & _); unfold solid in X; unfold scalar; lia)). cbn [obind]. rewrite pe_outside; [reflexivity|exact covers_c0|].
        revert Fs. apply Forall_impl. intros c (X & _). unfold solid in X. unfold is_c0_control_percent_encode_set, is_c0_control. lia.
      - symmetry. apply not_true_iff_false. intros X. apply existsb_exists in X as (x & X1 & X2). rewrite Forall_forall in F. destruct (F _ X1) as [_ [Y| ->]]; [rewrite Y in X2|]; discriminate X2. }
    destruct s as [|c s]; [exact E|]. unfold parse_host. replace (c =? 0x5B) with false by (inversion Fp; lia). exact E.
Qed.

(** * The record is read again *)

Lemma finish_plain w b q f : query w = None -> fragment w = None ->
  match q with Some q => outside (query_set w) q | None => True end -> match f with Some f => outside is_fragment_percent_encode_set f | None => True end ->
  finish w b q f = set_fragment f (set_query q (set_path (set_path_value w b) w)).
Proof.
  intros Q F Hq Hf. unfold finish.
  assert (E : with_query q (set_path (set_path_value w b) w) = set_query q (set_path (set_path_value w b) w)).
  { destruct q as [q|]; cbn [with_query].
    - change (query_set (set_path (set_path_value w b) w)) with (query_set w). rewrite pe_outside; [reflexivity|apply covers_query_set|exact Hq].
    - destruct w; cbn in Q; subst; reflexivity. }
  rewrite E. destruct f as [f|]; cbn [with_fragment].
  - rewrite pe_outside; [reflexivity|exact covers_fragment|exact Hf].
  - destruct w; cbn in F; subst; reflexivity.
Qed.

Lemma colon_none x : ~ In 0x3A x -> colon x = (x, None).
Proof.
  induction x as [|c x IH]; intros N; [reflexivity|]. cbn [colon]. replace (c =? 0x3A) with false by (symmetry; apply Z.eqb_neq; intros ->; apply N; now left).
  rewrite IH by (intros H; apply N; now right). reflexivity.
Qed.
Lemma colon_some x p : ~ In 0x3A x -> colon (x ++ 0x3A :: p) = (x, Some p).
Proof.
  induction x as [|c x IH]; intros N; [reflexivity|]. cbn [app colon]. replace (c =? 0x3A) with false by (symmetry; apply Z.eqb_neq; intros ->; apply N; now left).
  rewrite IH by (intros H; apply N; now right). reflexivity.
Qed.

(** The userinfo text of a record. *)
Definition user_of (u : url) : option (list Z) :=
  if includes_credentials u then Some (username u ++ (if nonempty (password u) then 0x3A :: password u else [])) else None.
Definition port_of (u : url) : option (list Z) := match port u with Some n => Some (serialize_integer n) | None => None end.

Lemma user_read u w : outside is_userinfo_percent_encode_set (username u) -> outside is_userinfo_percent_encode_set (password u) ->
  username w = [] -> password w = [] -> userinfo (user_of u) w = set_user (username u) (set_pass (password u) w).
Proof.
  intros U P Uw Pw. assert (N : ~ In 0x3A (username u)). { unfold outside in U. intros X. rewrite Forall_forall in U. pose proof (out_userinfo _ (U _ X)). lia. }
  pose proof (pe_outside _ _ covers_userinfo U) as EU. pose proof (pe_outside _ _ covers_userinfo P) as EP.
  unfold user_of, includes_credentials. destruct (password u) as [|c p] eqn:Ep; cbn [nonempty].
  - destruct (username u) as [|d x] eqn:Eu; cbn [nonempty orb userinfo]; [destruct w; cbn in *; subst; reflexivity|].
    rewrite app_nil_r. unfold with_userinfo. rewrite colon_none by exact N. rewrite EU, Uw. destruct w; cbn in *; subst; reflexivity.
  - rewrite orb_true_r. cbn [userinfo]. unfold with_userinfo. rewrite colon_some by exact N. pj. rewrite EU, EP, Uw, Pw. destruct w; cbn in *; subst; reflexivity.
Qed.
Lemma user_solid u : outside is_userinfo_percent_encode_set (username u) -> outside is_userinfo_percent_encode_set (password u) ->
  Forall (fun c => solid c /\ c <> 0x23 /\ c <> 0x2F /\ c <> 0x3F /\ c <> 0x5C) (utext (user_of u)).
Proof.
  intros U P. assert (G : forall s, outside is_userinfo_percent_encode_set s -> Forall (fun c => solid c /\ c <> 0x23 /\ c <> 0x2F /\ c <> 0x3F /\ c <> 0x5C) s).
  { intros s. apply Forall_impl. intros c E. apply out_userinfo in E. unfold solid. lia. }
  unfold user_of. destruct (includes_credentials u); [|constructor]. cbn [utext]. apply Forall_app. split; [|constructor; [unfold solid; lia|constructor]].
  apply Forall_app. split; [apply G, U|]. destruct (nonempty (password u)); [|constructor]. constructor; [unfold solid; lia|apply G, P].
Qed.

Lemma includes_user u : includes_credentials u = true <-> user_of u <> None.
Proof. unfold user_of. destruct (includes_credentials u); split; congruence. Qed.

Lemma port_read u w : match port u with Some n => 0 <= n < 65535 /\ default_port (scheme u) <> Some n | None => True end -> port w = None -> scheme w = scheme u ->
  the_port (port_of u) w = set_port (port u) w /\ match port_of u with Some d => digits d | None => True end /\ port_bad (port_of u) = false /\
  Forall solid (ptext (port_of u)) /\ Forall (fun c => c <> 0x23 /\ c <> 0x2F /\ c <> 0x3F /\ c <> 0x40 /\ c <> 0x5C) (ptext (port_of u)).
Proof.
  intros H Pw S. unfold port_of. destruct (port u) as [n|]; cbn [the_port port_bad ptext].
  - destruct H as [R D]. destruct (port_text n R) as (G & V & F & N). split.
    + unfold with_port. destruct (serialize_integer n) as [|c s]; [congruence|]. rewrite V. unfold kept_port. rewrite S. destruct (default_port (scheme u)) as [d|]; [|reflexivity].
      replace (n =? d) with false; [reflexivity|]. symmetry. apply Z.eqb_neq. intros ->. now apply D.
    + split; [exact G|]. split; [destruct (serialize_integer n); [reflexivity|]; now rewrite F|].
      split; (constructor; [unfold solid; lia|]); revert G; apply Forall_impl; unfold solid; intros c X; lia.
  - split; [destruct w; cbn in *; subst; reflexivity|]. repeat split; auto.
Qed.

Lemma serialize_parts u s b : cannot_be_base u = false -> (forall h, uhost u = Some h -> serialize_host h = Some s) ->
  b = (match uhost u, path u with None, [] :: _ :: _ => lit "/." | _, _ => [] end) ++ slashed (path u) ->
  serialize_url u false = Some (scheme u ++ 0x3A :: (match uhost u with Some _ => 0x2F :: 0x2F :: utext (user_of u) ++ s ++ ptext (port_of u) | None => [] end) ++ b ++ qtext (query u) ++ ftext (fragment u)).
Proof.
  intros C H ->. unfold serialize_url. rewrite C.
  assert (Q : match query u with Some q => [0x3F] ++ q | None => [] end = qtext (query u)) by (destruct (query u); reflexivity).
  assert (F : match fragment u with Some f => [0x23] ++ f | None => [] end = ftext (fragment u)) by (destruct (fragment u); reflexivity).
  rewrite Q. change (match fragment u with Some f => if false then [] else [0x23] ++ f | None => [] end) with (match fragment u with Some f => [0x23] ++ f | None => [] end). rewrite F.
  destruct (uhost u) as [h|].
  - rewrite (H h eq_refl). unfold slashed. f_equal. cbn [app]. f_equal. f_equal. unfold user_of, port_of. change (lit "//") with [0x2F; 0x2F]. cbn [app]. f_equal. f_equal. rewrite !app_assoc. f_equal. f_equal. f_equal. f_equal.
    + f_equal. destruct (includes_credentials u); [|reflexivity]. cbn [utext]. destruct (nonempty (password u)); now rewrite <- ?app_assoc.
    + destruct (port u); reflexivity.
  - reflexivity.
Qed.

Lemma inner_char w c : kept c -> c <> 0x23 /\ c <> 0x2F /\ c <> 0x3F /\ c <> 0x5C -> inner w c.
Proof.
  intros X Y. pose proof (kept_visible c X) as V. split; [exact V|]. destruct V as [X1 X2]. unfold scalar in X1. unfold ends_authority, EOF. destruct (is_special w); lia.
Qed.

Ltac sl := split; [reflexivity|discriminate].
Lemma written_authority idna base u t fuel h : proper idna u -> cannot_be_base u = false -> is_file u = false -> uhost u = Some h ->
  serialize_url u false = Some t -> (List.length t + 1 < fuel)%nat ->
  without_newlines (trim t) = t /\ Forall scalar t /\ gives idna t base fuel (start None UTF_8 empty_url) (Some u).
Proof.
  intros (Sc & Lo & Hq & Hf & Pr) Cb Fi Eh Et Fu. rewrite Cb, Eh, Fi in Pr. destruct Pr as (Sg & Np & G & Us & Pw & Ne & Po).
  destruct (host_written idna (is_special u) h fuel G) as (s & Es & Hc & Cf & Ib & Ns & Nh & So & Ph).
  pose proof (serialize_parts u s (slashed (path u)) Cb ltac:(intros h' X; rewrite Eh in X; injection X as <-; exact Es) ltac:(rewrite Eh; reflexivity)) as E. rewrite Eh in E.
  rewrite E in Et. injection Et as Et. clear E.
  set (w := scheme_url (scheme u)).
  assert (Sw : scheme w = scheme u) by (exact Lo).
  assert (Spw : is_special w = is_special u) by (unfold is_special; now rewrite Sw).
  assert (Fw : is_file w = is_file u) by (unfold is_file; now rewrite Sw).
  assert (Qw : query_set w = query_set u) by (unfold query_set; now rewrite Spw).
  destruct (port_read u (set_host (Some h) (userinfo (user_of u) w)) Po) as (Pr & Pd & Pb & Ps & Px); [rewrite user_read by (assumption || reflexivity); reflexivity|cbn; rewrite userinfo_scheme; exact Sw|].
  pose proof (user_solid u Us Pw) as Usd. pose proof (slashed_solid u _ Sg) as Ss. pose proof (qtext_solid u _ Hq) as Sq. pose proof (ftext_solid _ Hf) as Sf.
  pose proof (scheme_solid _ Sc) as Ssc.
  set (rest := slashed (path u) ++ qtext (query u) ++ ftext (fragment u)) in *.
  assert (Sr : Forall solid rest) by (unfold rest; repeat (apply Forall_app; split; [assumption|]); assumption).
  set (A := utext (user_of u) ++ s ++ ptext (port_of u)) in *.
  assert (KA : Forall kept A).
  { unfold A. apply Forall_app. split; [revert Usd; apply Forall_impl; intros c (X & _); apply solid_kept, X|]. apply Forall_app. split; [revert Hc; apply Forall_impl; intros c (X & _); exact X|].
    revert Ps. apply Forall_impl. intros c. apply solid_kept. }
  assert (Kk : Forall kept t).
  { rewrite <- Et. apply Forall_app. split; [revert Ssc; apply Forall_impl; intros c; apply solid_kept|]. do 3 (apply Forall_cons; [apply solid_kept; sl|]). apply Forall_app. split; [exact KA|].
    revert Sr. apply Forall_impl. intros c. apply solid_kept. }
  split; [|split; [revert Kk; apply Forall_impl; intros c [X _]; exact X|]].
  { rewrite <- Et. replace (scheme u ++ 0x3A :: (0x2F :: 0x2F :: A) ++ rest) with (scheme u ++ (0x3A :: 0x2F :: 0x2F :: A) ++ rest) by reflexivity.
    apply (clean_parts (scheme u) (0x3A :: 0x2F :: 0x2F :: A) rest); [exact Sc|pose proof Kk as Kk'; rewrite <- Et in Kk'; exact Kk'|exact Sr|]. destruct (is_special u) eqn:Sp.
    - left. intros X. apply app_eq_nil in X as [X _]. destruct (path u); [now apply Np|discriminate X].
    - right. split; [discriminate|]. assert (SA : Forall solid (0x3A :: 0x2F :: 0x2F :: A)).
      { do 3 (apply Forall_cons; [sl|]). unfold A. apply Forall_app. split; [revert Usd; apply Forall_impl; tauto|]. apply Forall_app. split; [apply So; reflexivity|exact Ps]. }
      pose proof (last_forall solid _ 0 SA ltac:(discriminate)) as X. clear - X. unfold solid in X. unfold is_c0_control_or_space, is_c0_control. lia. }
  assert (Lt : (List.length s + 1 < fuel)%nat) by (rewrite <- Et in Fu; unfold A in Fu; repeat (rewrite ?app_length in Fu; cbn [List.length] in Fu); clear - Fu; lia).
  specialize (Ph Lt).
  assert (Aok : authority_ok w (user_of u) s (port_of u)).
  { split; [|split; [|split; [exact Cf|split; [intros _; exact Ib|split; [exact Pd|]]]]].
    - assert (X : Forall (fun c => kept c /\ c <> 0x23 /\ c <> 0x2F /\ c <> 0x3F /\ c <> 0x5C) A).
      { unfold A. apply Forall_app. split; [revert Usd; apply Forall_impl; intros c (X & Y); split; [apply solid_kept, X|exact Y]|]. apply Forall_app. split; [revert Hc; apply Forall_impl; intros c (X & Y); split; [exact X|clear - Y; lia]|].
        clear - Ps Px. induction Ps as [|c l Hc _ IH]; [constructor|]. inversion Px; subst. constructor; [split; [apply solid_kept, Hc|lia]|]. apply IH. assumption. }
      revert X. apply Forall_impl. intros c (X & Y). exact (inner_char w c X Y).
    - intros X. apply in_app_or in X as [X|X]; [rewrite Forall_forall in Hc; destruct (Hc _ X) as (_ & Y); clear - Y; lia|rewrite Forall_forall in Px; pose proof (Px _ X) as Y; clear - Y; lia].
    - rewrite Spw. intros [X|[X|X]]; [auto| |]; apply Nh, Ne; [left; apply includes_user, X|right; intros Y; apply X; unfold port_of; now rewrite Y]. }
  assert (Sb : starts_path w (slashed (path u))).
  { destruct (path u) as [|x l]; [now left|]. right. exists 0x2F, (x ++ slashed l). split; reflexivity. }
  destruct (slashed_out u _ Sg) as [O1 O2].
  assert (Tk : tail_ok (slashed (path u)) (query u) (fragment u)).
  { split; [revert Sr; apply Forall_impl; intros c X; apply kept_visible, solid_kept, X|]. split; [exact O1|]. split; [exact O2|].
    destruct (query u) as [q|]; [|exact I]. intros X. unfold outside in Hq. rewrite Forall_forall in Hq. pose proof (out_query u _ (Hq _ X)) as Y. clear - Y. lia. }
  assert (Hn : host_none h = false) by (destruct h; reflexivity || destruct G).
  assert (Res : authority_url w (user_of u) h (port_of u) (slashed (path u)) (query u) (fragment u) = u).
  { unfold authority_url. rewrite Pr. rewrite user_read by (assumption || reflexivity).
    rewrite finish_plain; [|reflexivity|reflexivity| |exact Hf].
    2:{ change (query_set (set_port (port u) (set_host (Some h) (set_user (username u) (set_pass (password u) w))))) with (query_set w). rewrite Qw. exact Hq. }
    change (set_path_value (set_port (port u) (set_host (Some h) (set_user (username u) (set_pass (password u) w)))) (slashed (path u))) with (set_path_value w (slashed (path u))).
    assert (PV : set_path_value w (slashed (path u)) = path u).
    { apply path_read.
      - revert Sg. apply Forall_impl. intros x (X1 & X2 & X3). split; [exact X1|]. split; [|exact X3]. revert X2. apply Forall_impl. intros c. unfold path_sep. now rewrite Spw.
      - rewrite Spw. exact Np.
      - rewrite Fw, Fi. apply drive_other. }
    rewrite PV. clear - Cb Eh Lo. unfold w, scheme_url. rewrite Lo. destruct u; cbn in *. subst. reflexivity. }
  destruct (is_special u) eqn:Sp.
  - pose proof (parse_special idna t base fuel Fu (scheme u) [0x2F; 0x2F] (user_of u) s (port_of u) (slashed (path u)) (query u) (fragment u) h) as K. cbv zeta in K. fold w in K.
    rewrite Hn, Pb, Res in K. cbn [orb] in K. apply K; auto.
    + now rewrite Fw.
    + intros _. exists []. reflexivity.
  - pose proof (parse_other_authority idna t base fuel Fu (scheme u) (user_of u) s (port_of u) (slashed (path u)) (query u) (fragment u) h) as K. cbv zeta in K. fold w in K.
    rewrite Hn, Pb, Res in K. cbn [orb] in K. apply K; auto.
Qed.

Lemma tail_read u : Forall (segment_ok u) (path u) -> match query u with Some q => outside (query_set u) q | None => True end -> match fragment u with Some f => outside is_fragment_percent_encode_set f | None => True end ->
  Forall solid (slashed (path u) ++ qtext (query u) ++ ftext (fragment u)) /\ tail_ok (slashed (path u)) (query u) (fragment u).
Proof.
  intros Sg Hq Hf. pose proof (slashed_solid u _ Sg) as Ss. pose proof (qtext_solid u _ Hq) as Sq. pose proof (ftext_solid _ Hf) as Sf. destruct (slashed_out u _ Sg) as [O1 O2].
  assert (Sr : Forall solid (slashed (path u) ++ qtext (query u) ++ ftext (fragment u))) by (repeat (apply Forall_app; split; [assumption|]); assumption).
  split; [exact Sr|]. split; [revert Sr; apply Forall_impl; intros c X; apply kept_visible, solid_kept, X|]. split; [exact O1|]. split; [exact O2|].
  destruct (query u) as [q|]; [|exact I]. intros X. unfold outside in Hq. rewrite Forall_forall in Hq. pose proof (out_query u _ (Hq _ X)) as Y. clear - Y. lia.
Qed.
Lemma file_is u : is_file u = true -> scheme u = lit "file".
Proof. unfold is_file, eqs. destruct (list_eq_dec Z.eq_dec _ _); congruence. Qed.

Lemma written_file idna base u t fuel h : proper idna u -> cannot_be_base u = false -> is_file u = true -> uhost u = Some h ->
  serialize_url u false = Some t -> (List.length t + 1 < fuel)%nat ->
  without_newlines (trim t) = t /\ Forall scalar t /\ gives idna t base fuel (start None UTF_8 empty_url) (Some u).
Proof.
  intros (Sc & Lo & Hq & Hf & Pr) Cb Fi Eh Et Fu. rewrite Cb, Eh, Fi in Pr. destruct Pr as (Sg & Np & Us & Pw & Po & G & Dr).
  pose proof (file_is u Fi) as Ef.
  assert (Sp : is_special u = true) by (unfold is_special; rewrite Ef; reflexivity). specialize (Np Sp).
  assert (Hs : exists s, serialize_host h = Some s /\ Forall host_char s /\ Forall inner_file s /\
    ((List.length s + 1 < fuel)%nat -> s <> [] -> is_windows_drive_letter s = false -> parse_host idna fuel s false = Val h /\ match h with HNone | HDomain _ | HOpaque _ => True | _ => False end) /\
    forall b q f, file_authority h s b q f = Some (finish (set_host (Some h) file_url) b q f)).
  { destruct G as [->|(G & d & -> & Nl & Nw)].
    - exists []. split; [reflexivity|]. split; [constructor|]. split; [constructor|]. split; [congruence|]. reflexivity.
    - destruct (host_written idna true (HDomain d) fuel G) as (s & Es & Hc & _ & _ & Ns & _ & _ & Ph). cbn [serialize_host] in Es. injection Es as <-. exists d.
      split; [reflexivity|]. split; [exact Hc|]. split; [revert Hc; apply Forall_impl; intros c (K & Y); split; [apply kept_visible, K|]; unfold is_slash; clear - Y; lia|].
      split; [intros L _ _; split; [exact (Ph L)|exact I]|]. intros b q f. unfold file_authority. rewrite Nw. destruct d as [|c d]; [now destruct (Ns eq_refl)|].
      replace (eqs (c :: d) (lit "localhost")) with false; [reflexivity|]. symmetry. unfold eqs. destruct (list_eq_dec _ _ _); congruence. }
  destruct Hs as (s & Es & Hc & Hi & Ph & Fa).
  pose proof (serialize_parts u s (slashed (path u)) Cb ltac:(intros h' X; rewrite Eh in X; injection X as <-; exact Es) ltac:(rewrite Eh; reflexivity)) as E. rewrite Eh in E.
  rewrite E in Et. injection Et as Et. clear E.
  assert (Nu : user_of u = None) by (unfold user_of, includes_credentials; rewrite Us, Pw; reflexivity).
  assert (Npt : port_of u = None) by (unfold port_of; rewrite Po; reflexivity). rewrite Nu, Npt in Et. cbn [utext ptext] in Et. rewrite app_nil_r in Et. cbn [app] in Et.
  destruct (tail_read u Sg Hq Hf) as [Sr Tk]. pose proof (scheme_solid _ Sc) as Ssc.
  set (rest := slashed (path u) ++ qtext (query u) ++ ftext (fragment u)) in *.
  assert (Kk : Forall kept t).
  { rewrite <- Et. apply Forall_app. split; [revert Ssc; apply Forall_impl; intros c; apply solid_kept|]. do 3 (apply Forall_cons; [apply solid_kept; sl|]). apply Forall_app.
    split; [revert Hc; apply Forall_impl; intros c (X & _); exact X|]. revert Sr. apply Forall_impl. intros c. apply solid_kept. }
  split; [|split; [revert Kk; apply Forall_impl; intros c [X _]; exact X|]].
  { rewrite <- Et. apply (clean_parts (scheme u) (0x3A :: 0x2F :: 0x2F :: s) rest); [exact Sc|rewrite <- Et in Kk; exact Kk|exact Sr|].
    left. intros X. apply app_eq_nil in X as [X _]. destruct (path u); [now apply Np|discriminate X]. }
  assert (Lt : (List.length s + 1 < fuel)%nat) by (rewrite <- Et in Fu; repeat (rewrite ?app_length in Fu; cbn [List.length] in Fu); clear - Fu; lia).
  assert (Wf : is_file (scheme_url (scheme u)) = true) by (unfold is_file, scheme_url; cbn [scheme set_scheme]; rewrite Lo; exact Fi).
  pose proof (parse_file idna t base fuel Fu (scheme u) 0x2F 0x2F s (slashed (path u)) (query u) (fragment u) h) as K. rewrite Fa in K.
  assert (Res : finish (set_host (Some h) file_url) (slashed (path u)) (query u) (fragment u) = u).
  { assert (Ws : is_special file_url = is_special u) by (rewrite Sp; reflexivity).
    rewrite finish_plain; [|reflexivity|reflexivity| |exact Hf].
    2:{ change (query_set (set_host (Some h) file_url)) with (query_set file_url). unfold query_set. rewrite Ws. exact Hq. }
    change (set_path_value (set_host (Some h) file_url) (slashed (path u))) with (set_path_value file_url (slashed (path u))).
    rewrite path_read; [|revert Sg; apply Forall_impl; intros x (X1 & X2 & X3); split; [exact X1|]; split; [|exact X3]; revert X2; apply Forall_impl; intros c; unfold path_sep; now rewrite Ws|intros _; exact Np|exact Dr].
    clear - Cb Eh Ef Us Pw Po. destruct u; cbn in *. subst. reflexivity. }
  rewrite Res in K. apply K; auto.
  destruct (path u) as [|x l]; [congruence|]. right. exists 0x2F, (x ++ slashed l). split; reflexivity.
Qed.

Lemma written_path idna base u t fuel : proper idna u -> cannot_be_base u = false -> uhost u = None ->
  serialize_url u false = Some t -> (List.length t + 1 < fuel)%nat ->
  without_newlines (trim t) = t /\ Forall scalar t /\ gives idna t base fuel (start None UTF_8 empty_url) (Some u).
Proof.
  intros (Sc & Lo & Hq & Hf & Pr) Cb Eh Et Fu. rewrite Cb, Eh in Pr. destruct Pr as (Sg & _ & Sp & Us & Pw & Po & Np & Lone).
  set (w := scheme_url (scheme u)).
  assert (Spw : is_special w = is_special u) by (unfold is_special, w, scheme_url; cbn [scheme set_scheme]; now rewrite Lo).
  assert (Sgw : Forall (segment_ok w) (path u)) by (revert Sg; apply Forall_impl; intros x (X1 & X2 & X3); split; [exact X1|]; split; [|exact X3]; revert X2; apply Forall_impl; intros c; unfold path_sep; now rewrite Spw).
  destruct (tail_read u Sg Hq Hf) as [Sr Tk]. pose proof (scheme_solid _ Sc) as Ssc.
  assert (Fiw : is_file w = false) by (apply not_special_not_file; congruence).
  (* the text after the first slash *)
  assert (B : exists b, (match uhost u, path u with None, [] :: _ :: _ => lit "/." | _, _ => [] end) ++ slashed (path u) = 0x2F :: b /\ hd 0 b <> 0x2F /\
     Forall solid b /\ ~ In 0x3F b /\ ~ In 0x23 b /\ set_path_value w (0x2F :: b) = path u /\ (b = [] -> path u = [[]])).
  { rewrite Eh. pose proof (slashed_solid u _ Sg) as Ss. destruct (slashed_out u _ Sg) as [O1 O2]. pose proof (path_read w (path u) Sgw ltac:(intros; exact Np) ltac:(rewrite Fiw; apply drive_other)) as R.
    destruct (path u) as [|x l] eqn:Ep; [congruence|]. destruct x as [|c x]; [destruct l as [|y l]|].
    - exists []. split; [reflexivity|]. repeat split; auto. discriminate.
    - exists (0x2E :: slashed ([] :: y :: l)). split; [reflexivity|]. split; [discriminate|]. split; [constructor; [sl|exact Ss]|].
      split; [intros [X|X]; [discriminate X|auto]|]. split; [intros [X|X]; [discriminate X|auto]|]. split; [|discriminate].
      unfold set_path_value. change (path_sep w 0x2F) with true. cbv iota.
      assert (Seg : segments w (0x2E :: slashed ([] :: y :: l)) = [0x2E] :: [] :: y :: l).
      { change (0x2E :: slashed ([] :: y :: l)) with ([0x2E] ++ slashed ([] :: y :: l)). unfold segments.
        rewrite split_segment by (constructor; [unfold path_sep; destruct (is_special w); reflexivity|constructor]).
        change (slashed ([] :: y :: l)) with (0x2F :: [] ++ slashed (y :: l)). cbn [split_at]. change (path_sep w 0x2F) with true. cbv iota. rewrite split_slashed by exact Sgw.
        cbn [prepend app map]. rewrite Forall_forall in Sgw.
        assert (Ey : pe is_path_percent_encode_set y = y) by (apply pe_outside; [exact covers_path|]; apply (Sgw y); cbn; tauto).
        assert (El : map (pe is_path_percent_encode_set) l = l).
        { rewrite <- (map_id l) at 2. apply map_ext_in. intros z I. apply pe_outside; [exact covers_path|]. apply (Sgw z). cbn. tauto. }
        rewrite Ey, El. reflexivity. }
      rewrite Seg. rewrite Fiw. change (resolve false [] ([0x2E] :: [] :: y :: l)) with (resolve false [] ([] :: y :: l)).
      apply (resolve_plain false ([] :: y :: l) []); [apply (segments_dots w), Sgw|right; apply drive_other].
    - exists (c :: x ++ slashed l). split; [destruct l; reflexivity|]. change (slashed ((c :: x) :: l)) with (0x2F :: c :: x ++ slashed l) in *.
      split; [inversion Sg as [|a1 a2 (_ & X & _) _]; subst a1 a2; inversion X as [|a1 a2 Y _]; subst a1 a2; cbn [hd]; intros ->; discriminate Y|].
      split; [inversion Ss; assumption|]. split; [intros X; apply O1; now right|]. split; [intros X; apply O2; now right|]. split; [exact R|discriminate]. }
  destruct B as (b & Eb & Nb & Sb & O1 & O2 & Pv & Lb).
  pose proof (serialize_parts u [] (0x2F :: b) Cb ltac:(intros h' X; rewrite Eh in X; discriminate X) ltac:(now rewrite Eb)) as E. rewrite Eh in E.
  rewrite E in Et. injection Et as Et. clear E. cbn [app] in Et.
  pose proof (qtext_solid u _ Hq) as Sq. pose proof (ftext_solid _ Hf) as Sf.
  set (rest := b ++ qtext (query u) ++ ftext (fragment u)) in *.
  assert (Srr : Forall solid rest) by (unfold rest; repeat (apply Forall_app; split; [assumption|]); assumption).
  assert (Kk : Forall kept t).
  { rewrite <- Et. apply Forall_app. split; [revert Ssc; apply Forall_impl; intros c; apply solid_kept|]. do 2 (apply Forall_cons; [apply solid_kept; sl|]). revert Srr. apply Forall_impl. intros c. apply solid_kept. }
  split; [|split; [revert Kk; apply Forall_impl; intros c [X _]; exact X|]].
  { rewrite <- Et. apply (clean_parts (scheme u) [0x3A] (0x2F :: rest)); [exact Sc|rewrite <- Et in Kk; exact Kk|constructor; [sl|exact Srr]|]. left. discriminate. }
  assert (Tw : tail_ok b (query u) (fragment u)).
  { destruct Tk as (_ & _ & _ & Tq). split; [revert Srr; apply Forall_impl; intros c X; apply kept_visible, solid_kept, X|]. auto. }
  pose proof (parse_other_path idna t base fuel Fu (scheme u) b (query u) (fragment u)) as K. cbv zeta in K. fold w in K.
  assert (Res : finish w (0x2F :: b) (query u) (fragment u) = u).
  { rewrite finish_plain; [|reflexivity|reflexivity| |exact Hf].
    2:{ unfold query_set. rewrite Spw. exact Hq. }
    rewrite Pv. clear - Cb Eh Us Pw Po Lo. unfold w, scheme_url. rewrite Lo. destruct u; cbn in *. subst. reflexivity. }
  rewrite Res in K. apply K; auto; [congruence|].
  intros X. apply app_eq_nil in X as [X Y]. apply app_eq_nil in Y as [Y Z0]. destruct (Lone (Lb X)) as [N|N]; apply N; [destruct (query u); [discriminate Y|reflexivity]|destruct (fragment u); [discriminate Z0|reflexivity]].
Qed.

Lemma written_opaque idna base u t fuel : proper idna u -> cannot_be_base u = true ->
  serialize_url u false = Some t -> (List.length t + 1 < fuel)%nat ->
  without_newlines (trim t) = t /\ Forall scalar t /\ gives idna t base fuel (start None UTF_8 empty_url) (Some u).
Proof.
  intros (Sc & Lo & Hq & Hf & Pr) Cb Et Fu. rewrite Cb in Pr. destruct Pr as (Sp & Us & Pw & Eh & Po & s & Ep & Cs & Hd & La).
  assert (E : serialize_url u false = Some (scheme u ++ 0x3A :: s ++ qtext (query u) ++ ftext (fragment u))).
  { unfold serialize_url. rewrite Cb, Eh, Ep. destruct (query u), (fragment u); reflexivity. }
  rewrite E in Et. injection Et as Et. clear E.
  pose proof (qtext_solid u _ Hq) as Sq. pose proof (ftext_solid _ Hf) as Sf. pose proof (scheme_solid _ Sc) as Ssc.
  assert (Ks : Forall kept s) by (revert Cs; apply Forall_impl; intros c (X & _); clear - X; unfold kept, scalar, is_ascii_tab_or_newline; split; lia).
  set (rest := qtext (query u) ++ ftext (fragment u)) in *.
  assert (Sr : Forall solid rest) by (unfold rest; apply Forall_app; split; assumption).
  assert (Kr : Forall kept (s ++ rest)) by (apply Forall_app; split; [exact Ks|revert Sr; apply Forall_impl; intros c; apply solid_kept]).
  assert (Kk : Forall kept t).
  { rewrite <- Et. apply Forall_app. split; [revert Ssc; apply Forall_impl; intros c; apply solid_kept|]. apply Forall_cons; [apply solid_kept; sl|exact Kr]. }
  split; [|split; [revert Kk; apply Forall_impl; intros c [X _]; exact X|]].
  { rewrite <- Et. apply (clean_parts (scheme u) (0x3A :: s) rest); [exact Sc|rewrite <- Et in Kk; exact Kk|exact Sr|].
    assert (D : rest <> [] \/ (query u = None /\ fragment u = None)).
    { unfold rest. destruct (query u); [left; discriminate|]. destruct (fragment u); [left; discriminate|]. now right. }
    destruct D as [D|[D1 D2]]; [now left|]. right. split; [discriminate|]. destruct s as [|c s1]; [reflexivity|].
    change (last (0x3A :: c :: s1) 0) with (last (c :: s1) 0). specialize (La D1 D2). pose proof (last_forall _ _ 0 Cs ltac:(discriminate)) as (X & _). clear - La X. unfold is_c0_control_or_space, is_c0_control. lia. }
  assert (Sp' : is_special (scheme_url (scheme u)) = is_special u) by (unfold is_special, scheme_url; cbn [scheme set_scheme]; now rewrite Lo).
  pose proof (parse_opaque idna t base fuel Fu (scheme u) s (query u) (fragment u)) as K. cbv zeta in K.
  assert (Res : opaque_url (scheme u) s (query u) (fragment u) = u).
  { assert (Pe : pe is_c0_control_percent_encode_set s = s).
    { apply pe_outside; [exact covers_c0|]. revert Cs. apply Forall_impl. intros c (X & _). clear - X. unfold is_c0_control_percent_encode_set, is_c0_control. lia. }
    unfold opaque_url. rewrite Pe.
    assert (Wq : forall v, scheme v = map cp_lower (scheme u) -> with_query (query u) v = match query u with Some q => set_query (Some q) v | None => v end).
    { intros v Ev. destruct (query u) as [q|]; [|reflexivity]. cbn [with_query]. rewrite pe_outside; [reflexivity|apply covers_query_set|]. replace (query_set v) with (query_set u); [exact Hq|].
      unfold query_set, is_special. now rewrite Ev, Lo. }
    rewrite Wq by reflexivity.
    assert (Wf : forall v, with_fragment (fragment u) v = match fragment u with Some f => set_fragment (Some f) v | None => v end).
    { intros v. destruct (fragment u) as [f|]; [|reflexivity]. cbn [with_fragment]. rewrite pe_outside; [reflexivity|exact covers_fragment|exact Hf]. }
    rewrite Wf. clear - Cb Eh Us Pw Po Lo Ep. unfold scheme_url. rewrite Lo. destruct u as [a b c d e f q g h]; cbn in *. subst. destruct q, g; reflexivity. }
  rewrite Res in K. apply K; auto.
  - congruence.
  - destruct Hd as [Hd|(-> & Q1 & Q2)]; [now left|]. right. rewrite Q1, Q2. reflexivity.
  - split; [revert Kr; apply Forall_impl; intros c; apply kept_visible|]. split; [intros X; rewrite Forall_forall in Cs; destruct (Cs _ X) as (_ & Y & _); now apply Y|].
    split; [intros X; rewrite Forall_forall in Cs; destruct (Cs _ X) as (_ & _ & Y); now apply Y|].
    destruct (query u) as [q|]; [|exact I]. intros X. unfold outside in Hq. rewrite Forall_forall in Hq. pose proof (out_query u _ (Hq _ X)) as Y. clear - Y. lia.
Qed.

Theorem written_read idna u t base fuel steps : proper idna u -> serialize_url u false = Some t -> enough t fuel steps ->
  basic_parse idna fuel steps t base UTF_8 = Val (Some u).
Proof.
  intros P E En. assert (Fu : (List.length t + 1 < fuel)%nat) by (destruct En; lia).
  assert (W : without_newlines (trim t) = t /\ Forall scalar t /\ gives idna t base fuel (start None UTF_8 empty_url) (Some u)).
  { destruct (cannot_be_base u) eqn:Cb; [now apply written_opaque|]. destruct (uhost u) as [h|] eqn:Eh; [|now apply written_path].
    destruct (is_file u) eqn:Fi; [eapply written_file; eauto|eapply written_authority; eauto]. }
  destruct W as (C & S & G). apply parse_gives; [exact S|exact En|]. rewrite C. exact G.
Qed.
Theorem proper_written idna u : proper idna u -> exists t, serialize_url u false = Some t.
Proof.
  intros (_ & _ & _ & _ & P). unfold serialize_url. destruct (cannot_be_base u).
  - destruct P as (_ & _ & _ & -> & _ & s & -> & _). eexists. reflexivity.
  - destruct P as (_ & _ & P). destruct (uhost u) as [h|]; [|eexists; reflexivity].
    assert (exists s, serialize_host h = Some s) as [s ->]; [|eexists; reflexivity]. destruct (is_file u).
    + destruct P as (_ & _ & _ & [->|(_ & d & -> & _)] & _); eexists; reflexivity.
    + destruct P as (G & _). destruct h; cbn [good_host] in G; try (destruct G; fail); eexists; reflexivity.
Qed.
