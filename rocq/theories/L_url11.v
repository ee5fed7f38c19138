(** Lemmas for M_url: what holds of every record that the parser gives. *)
From Coq Require Import String.
From Coq Require Import ZArith List Bool Lia.
From Verif Require Import M_unicode M_infra M_percent M_ip M_encoding M_labels M_url.
From Verif Require Import L_unicode L_encoding L_url L_url2 L_url3 L_url4 L_url5 L_url6 L_url7 L_url8 L_url9 L_url10.
From Verif Require L_percent L_ip.
Import ListNotations.
Open Scope string_scope.
Open Scope list_scope.
Open Scope Z_scope.

(** * Sound records *)

Definition sc_ok (s : list Z) : Prop := scheme_text s /\ map cp_lower s = s.

Definition credentials_ok (u : url) : Prop :=
  outside is_userinfo_percent_encode_set (username u) /\ outside is_userinfo_percent_encode_set (password u).

Definition front (idna : list Z -> option (list Z)) (u : url) : Prop :=
  match uhost u with
  | None => is_special u = false /\ username u = [] /\ password u = [] /\ port u = None
  | Some h =>
      if is_file u then
        username u = [] /\ password u = [] /\ port u = None /\
        (h = HEmpty \/ weak_host idna true h /\ exists d, h = HDomain d /\ d <> lit "localhost")
      else
        weak_host idna (is_special u) h /\ credentials_ok u /\
        (includes_credentials u = true \/ port u <> None -> h <> HOpaque []) /\
        match port u with Some n => 0 <= n < 65535 /\ default_port (scheme u) <> Some n | None => True end
  end.
Definition path_good (u : url) : Prop :=
  Forall (segment_ok u) (path u) /\ (is_file u = true -> drive true [] (hd [] (path u)) = hd [] (path u)).
Definition path_done (u : url) : Prop := is_special u = true \/ uhost u = None -> path u <> [].
Definition opaque_text (s : list Z) : Prop := Forall (fun c => 0x20 <= c <= 0x7E /\ c <> 0x3F /\ c <> 0x23) s.
Definition bare (u : url) : Prop :=
  is_special u = false /\ username u = [] /\ password u = [] /\ uhost u = None /\ port u = None.

Definition core (idna : list Z -> option (list Z)) (u : url) : Prop :=
  sc_ok (scheme u) /\
  if cannot_be_base u then bare u /\ exists s, path u = [s] /\ opaque_text s /\ (hd 0 s <> 0x2F \/ s = [0x2F])
  else front idna u /\ path_good u /\ path_done u.
Definition query_ok (u : url) : Prop := match query u with Some q => outside (query_set u) q | None => True end.
Definition fragment_ok (u : url) : Prop := match fragment u with Some f => outside is_fragment_percent_encode_set f | None => True end.
Definition sound (idna : list Z -> option (list Z)) (u : url) : Prop :=
  core idna u /\ query_ok u /\ fragment_ok u /\
  (cannot_be_base u = true -> query u = None -> fragment u = None -> last (hd [] (path u)) 0 <> 0x20).

(** * Paths *)

Lemma segment_nil u : segment_ok u [].
Proof. unfold segment_ok, outside. repeat split; try constructor. Qed.
Lemma removelast_forall {A} (P : A -> Prop) l : Forall P l -> Forall P (removelast l).
Proof. induction 1 as [|x l Hx F IH]; [constructor|]. cbn [removelast]. destruct l; [constructor|]. constructor; assumption. Qed.
Lemma removelast_hd {A} (d : A) l : removelast l <> [] -> hd d (removelast l) = hd d l.
Proof. destruct l as [|x [|y l]]; cbn; congruence. Qed.
Lemma shorten_forall P f p : Forall P p -> Forall P (shorten f p).
Proof. intros F. unfold shorten. destruct p as [|d [|e p]]; [constructor| |apply removelast_forall, F]. destruct (_ && _); [exact F|constructor]. Qed.
Lemma shorten_hd f p : shorten f p = [] \/ hd [] (shorten f p) = hd [] p.
Proof.
  unfold shorten. destruct p as [|d [|e p]]; [now left| |right; reflexivity]. destruct (_ && _); [now right|now left].
Qed.
Lemma drive_head f s : drive f [] (drive f [] s) = drive f [] s.
Proof.
  destruct s as [|a [|b [|c s]]]; try reflexivity. unfold drive at 2 3. destruct (f && is_ascii_alpha a && _) eqn:E; [|unfold drive; now rewrite E].
  unfold drive. destruct f; [|discriminate E]. cbn [andb] in *. apply andb_prop in E as [E _]. now rewrite E.
Qed.
Lemma eqs_length a b : List.length a <> List.length b -> eqs a b = false.
Proof. intros H. apply not_true_iff_false. intros X. apply eqs_true in X. congruence. Qed.
Lemma drive_ok u f p s : segment_ok u s -> segment_ok u (drive f p s).
Proof.
  intros H. unfold drive. destruct p; [|exact H]. destruct s as [|a [|b [|c s]]]; try exact H. destruct (f && is_ascii_alpha a && _) eqn:E; [|exact H].
  destruct H as (O & N & S & D). inversion O as [|x y Oa _]. inversion N as [|x' y' Na _]. subst. repeat split.
  - constructor; [exact Oa|]. constructor; [reflexivity|constructor].
  - constructor; [exact Na|]. constructor; [|constructor]. unfold path_sep. now destruct (is_special u).
  - unfold is_single_dot_path_segment. rewrite !eqs_length by (cbn; lia). reflexivity.
  - unfold is_double_dot_path_segment, ci. rewrite (eqs_length _ (map cp_lower (lit ".%2e"))), (eqs_length _ (map cp_lower (lit "%2e."))), (eqs_length _ (map cp_lower (lit "%2e%2e"))) by (cbn; lia).
    rewrite !orb_false_r. apply not_true_iff_false. intros X. apply eqs_true in X. discriminate X.
Qed.
Lemma drive_false p s : drive false p s = s.
Proof. unfold drive. destruct p; [|reflexivity]. destruct s as [|a [|b [|c s]]]; reflexivity. Qed.

(** The text of a segment while it is being read. *)
Definition raw_ok (u : url) (s : list Z) : Prop := outside is_path_percent_encode_set s /\ Forall (fun c => path_sep u c = false) s.

Lemma add_good u p s : Forall (segment_ok u) p -> (is_file u = true -> drive true [] (hd [] p) = hd [] p) -> segment_ok u s ->
  (p = [] -> is_file u = true -> drive true [] s = s) ->
  Forall (segment_ok u) (p ++ [s]) /\ (is_file u = true -> drive true [] (hd [] (p ++ [s])) = hd [] (p ++ [s])).
Proof.
  intros F H S D. split; [apply Forall_app; split; [exact F|constructor; [exact S|constructor]]|]. intros Fi. destruct p as [|x p]; cbn [app hd]; auto.
Qed.
Lemma shorten_good u f p : Forall (segment_ok u) p -> (is_file u = true -> drive true [] (hd [] p) = hd [] p) ->
  Forall (segment_ok u) (shorten f p) /\ (is_file u = true -> drive true [] (hd [] (shorten f p)) = hd [] (shorten f p)).
Proof.
  intros F H. split; [apply shorten_forall, F|]. intros Fi. destruct (shorten_hd f p) as [E|E]; rewrite E; [reflexivity|auto].
Qed.
Lemma drive_fits u p s : p = [] -> is_file u = true -> drive true [] (drive (is_file u) p s) = drive (is_file u) p s.
Proof. intros -> ->. apply drive_head. Qed.
Lemma step_good u p s : Forall (segment_ok u) p -> (is_file u = true -> drive true [] (hd [] p) = hd [] p) -> raw_ok u s ->
  Forall (segment_ok u) (seg_step (is_file u) p s) /\ (is_file u = true -> drive true [] (hd [] (seg_step (is_file u) p s)) = hd [] (seg_step (is_file u) p s)).
Proof.
  intros F H [O N]. unfold seg_step. destruct (is_double_dot_path_segment s) eqn:D; [now apply shorten_good|]. destruct (is_single_dot_path_segment s) eqn:S; [now split|].
  apply add_good; [exact F|exact H|apply drive_ok; repeat split; assumption|apply drive_fits].
Qed.
Lemma last_good u p s : Forall (segment_ok u) p -> (is_file u = true -> drive true [] (hd [] p) = hd [] p) -> raw_ok u s ->
  Forall (segment_ok u) (seg_last (is_file u) p s) /\ (is_file u = true -> drive true [] (hd [] (seg_last (is_file u) p s)) = hd [] (seg_last (is_file u) p s)).
Proof.
  intros F H [O N]. unfold seg_last. destruct (is_double_dot_path_segment s) eqn:D.
  - destruct (shorten_good u (is_file u) p F H) as [F1 H1]. apply add_good; [exact F1|exact H1|apply segment_nil|reflexivity].
  - destruct (is_single_dot_path_segment s) eqn:S; [apply add_good; [exact F|exact H|apply segment_nil|reflexivity]|].
    apply add_good; [exact F|exact H|apply drive_ok; repeat split; assumption|apply drive_fits].
Qed.
Lemma last_nonempty f p s : seg_last f p s <> [].
Proof. unfold seg_last. destruct (is_double_dot_path_segment s); [|destruct (is_single_dot_path_segment s)]; intros E; now apply app_eq_nil in E as [_ E]. Qed.

Lemma pe_raw u c : scalar c -> path_sep u c = false -> raw_ok u (pe is_path_percent_encode_set [c]).
Proof.
  intros S N. assert (F : Forall scalar [c]) by (constructor; [exact S|constructor]). split; [apply pe_out; [exact keeps_path|exact F]|].
  destruct (Z_lt_ge_dec c 0x80) as [L|L].
  - assert (E : utf8_spec c = [c]) by (unfold utf8_spec; replace (c <? 0x80) with true by lia; reflexivity).
    unfold pe. cbn [flat_map]. rewrite app_nil_r, E. cbn [flat_map]. rewrite app_nil_r. destruct (is_path_percent_encode_set c); [|constructor; [exact N|constructor]].
    unfold scalar in S. apply Forall_forall. intros x X. unfold path_sep.
    assert (Hh : forall d, 0 <= d < 16 -> L_percent.hex_char d <> 0x2F /\ L_percent.hex_char d <> 0x5C) by (intros d Hd; unfold L_percent.hex_char; destruct (Z.ltb_spec d 10); lia).
    pose proof (Hh (c / 16) ltac:(split; [apply Z.div_pos; lia|apply Z.div_lt_upper_bound; lia])). pose proof (Hh (c mod 16) ltac:(apply Z.mod_pos_bound; lia)).
    destruct X as [<-|[<-|[<-|[]]]]; destruct (is_special u); lia.
  - unfold pe. cbn [flat_map]. rewrite app_nil_r. pose proof (utf8_high c S ltac:(lia)) as B. induction B as [|b l Hb _ IH]; [constructor|]. cbn [flat_map]. apply Forall_app. split; [|exact IH].
    replace (is_path_percent_encode_set b) with true
      by (unfold is_path_percent_encode_set, is_fragment_percent_encode_set, is_c0_control_percent_encode_set; replace (0x7E <? b) with true by lia; rewrite orb_true_r; reflexivity).
    assert (Hh : forall d, 0 <= d < 16 -> L_percent.hex_char d <> 0x2F /\ L_percent.hex_char d <> 0x5C) by (intros d Hd; unfold L_percent.hex_char; destruct (Z.ltb_spec d 10); lia).
    pose proof (Hh (b / 16) ltac:(split; [apply Z.div_pos; lia|apply Z.div_lt_upper_bound; lia])). pose proof (Hh (b mod 16) ltac:(apply Z.mod_pos_bound; lia)).
    apply Forall_forall. intros x X. unfold path_sep. destruct X as [<-|[<-|[<-|[]]]]; destruct (is_special u); lia.
Qed.
Lemma raw_app u a b : raw_ok u a -> raw_ok u b -> raw_ok u (a ++ b).
Proof. intros [O1 N1] [O2 N2]. split; apply Forall_app; split; assumption. Qed.
Lemma drive_raw u s : is_windows_drive_letter s = true -> raw_ok u s.
Proof.
  intros H. destruct s as [|a [|b [|c s]]]; try discriminate H. cbn in H. apply andb_prop in H as [A B].
  assert (Ea : 0x41 <= a <= 0x5A \/ 0x61 <= a <= 0x7A) by (unfold is_ascii_alpha, is_ascii_upper_alpha, is_ascii_lower_alpha in A; lia).
  assert (Eb : b = 0x3A \/ b = 0x7C) by lia. split.
  - constructor; [|constructor; [|constructor]].
    + unfold is_path_percent_encode_set, is_fragment_percent_encode_set, is_c0_control_percent_encode_set, is_c0_control. rewrite !one_of_no by (cbn [In]; intros x X; lia). lia.
    + destruct Eb as [-> | ->]; reflexivity.
  - unfold path_sep. constructor; [|constructor; [|constructor]]; destruct (is_special u); lia.
Qed.

(** The code points of an opaque path. *)
Lemma pe_opaque c : scalar c -> c <> 0x3F -> c <> 0x23 -> opaque_text (pe is_c0_control_percent_encode_set [c]) /\
  (last (pe is_c0_control_percent_encode_set [c]) 0 = 0x20 -> c = 0x20) /\ (hd 0 (pe is_c0_control_percent_encode_set [c]) = 0x2F -> c = 0x2F) /\
  (c = 0x2F -> pe is_c0_control_percent_encode_set [c] = [0x2F]).
Proof.
  intros S Q H. assert (Hh : forall d, 0 <= d < 16 -> 0x30 <= L_percent.hex_char d <= 0x39 \/ 0x41 <= L_percent.hex_char d <= 0x46) by (intros d Hd; unfold L_percent.hex_char; destruct (Z.ltb_spec d 10); lia).
  unfold opaque_text. destruct (Z_lt_ge_dec c 0x80) as [L|L].
  - assert (E : utf8_spec c = [c]) by (unfold utf8_spec; replace (c <? 0x80) with true by lia; reflexivity).
    unfold pe. cbn [flat_map]. rewrite app_nil_r, E. cbn [flat_map]. rewrite app_nil_r. unfold scalar in S. destruct (is_c0_control_percent_encode_set c) eqn:C.
    + pose proof (Hh (c / 16) ltac:(split; [apply Z.div_pos; lia|apply Z.div_lt_upper_bound; lia])). pose proof (Hh (c mod 16) ltac:(apply Z.mod_pos_bound; lia)).
      split; [apply Forall_forall; intros x X; destruct X as [<-|[<-|[<-|[]]]]; lia|]. cbn [last hd]. split; [lia|]. split; [lia|]. intros ->. discriminate C.
    + pose proof (covers_c0 c C). split; [constructor; [lia|constructor]|]. cbn [last hd]. split; [auto|]. split; [auto|]. intros ->. reflexivity.
  - unfold pe. cbn [flat_map]. rewrite app_nil_r. pose proof (utf8_high c S ltac:(lia)) as B.
    assert (N : utf8_spec c <> []) by (unfold utf8_spec; destruct (c <? 0x80); [|destruct (c <? 0x800); [|destruct (c <? 0x10000)]]; discriminate).
    assert (F : Forall (fun x => x = 0x25 \/ 0x30 <= x <= 0x39 \/ 0x41 <= x <= 0x46)
      (flat_map (fun b => if is_c0_control_percent_encode_set b then [0x25; L_percent.hex_char (b / 16); L_percent.hex_char (b mod 16)] else [b]) (utf8_spec c))).
    { clear N. induction B as [|b l Hb _ IH]; [constructor|]. cbn [flat_map]. apply Forall_app. split; [|exact IH].
      replace (is_c0_control_percent_encode_set b) with true by (unfold is_c0_control_percent_encode_set, is_c0_control; lia).
      pose proof (Hh (b / 16) ltac:(split; [apply Z.div_pos; lia|apply Z.div_lt_upper_bound; lia])). pose proof (Hh (b mod 16) ltac:(apply Z.mod_pos_bound; lia)).
      apply Forall_forall. intros x X. destruct X as [<-|[<-|[<-|[]]]]; lia. }
    set (w := flat_map _ _) in *. assert (Nw : w <> []). { unfold w. destruct (utf8_spec c) as [|b l]; [congruence|]. cbn [flat_map]. destruct (is_c0_control_percent_encode_set b); discriminate. }
    split; [revert F; apply Forall_impl; intros x X; lia|]. split; [|split].
    + pose proof (last_forall _ w 0 F Nw). cbv beta in *. lia.
    + destruct w as [|x w]; [congruence|]. inversion F; subst. cbn [hd]. lia.
    + lia.
Qed.
