(** Lemmas for M_url: the parser keeps the records sound. *)
From Coq Require Import String.
From Coq Require Import ZArith List Bool Lia.
From Verif Require Import M_unicode M_infra M_percent M_ip M_encoding M_labels M_url.
From Verif Require Import L_unicode L_encoding L_url L_url2 L_url3 L_url4 L_url5 L_url6 L_url7 L_url8 L_url9 L_url10 L_url11.
From Verif Require L_percent L_ip.
Import ListNotations.
Open Scope string_scope.
Open Scope list_scope.
Open Scope Z_scope.

Definition plain (s : list Z) (u : url) : Prop := sc_ok s /\ u = set_scheme s empty_url.
(** A record before its host is known, and with it. *)
Definition hostless (u : url) : Prop :=
  sc_ok (scheme u) /\ is_file u = false /\ uhost u = None /\ port u = None /\ path u = [] /\ query u = None /\ fragment u = None /\ cannot_be_base u = false /\ credentials_ok u.
Definition open_ (u : url) : Prop := query u = None /\ fragment u = None /\ cannot_be_base u = false /\ sc_ok (scheme u).

Section Sound.
Variable idna : list Z -> option (list Z).
Variable input : list Z.
Variable base : option url.
Variable fuel : nat.
Hypothesis Id : idna_fine idna.
Hypothesis Vi : Forall visible input.
Hypothesis La : last input 0 <> 0x20.
Hypothesis Fu : (List.length input + 1 < fuel)%nat.
Hypothesis Ba : match base with Some b => sound idna b | None => True end.

Definition relative_base (u : url) : Prop :=
  exists b, base = Some b /\ cannot_be_base b = false /\ is_file b = false /\ u = set_scheme (scheme b) empty_url.

Definition about (p : parser) : Prop :=
  let u := p_url p in
  match p_state p with
  | SchemeStart | NoScheme => u = empty_url /\ p_buffer p = []
  | Scheme => u = empty_url /\ sc_ok (p_buffer p)
  | SpecialRelativeOrAuthority => p_buffer p = [] /\ relative_base u
  | Relative => p_buffer p = [] /\ exists b, base = Some b /\ cannot_be_base b = false /\ is_file b = false /\ (u = set_scheme (scheme b) empty_url \/ u = empty_url)
  | RelativeSlash => p_buffer p = [] /\ relative_base u
  | PathOrAuthority => p_buffer p = [] /\ (exists s, plain s u) /\ is_special u = false
  | SpecialAuthoritySlashes | SpecialAuthorityIgnoreSlashes => p_buffer p = [] /\ (exists s, plain s u) /\ is_file u = false
  | Authority =>
      hostless u /\ (includes_credentials u = true -> p_at p = true) /\ tail_piece input p /\ Forall (fun c => ends_authority u c = false) (p_buffer p)
  | Host =>
      hostless u /\ tail_piece input p /\ (includes_credentials u = true -> p_buffer p <> [] \/ ends_authority u (current input p) = false)
  | Hostname => False
  | Port =>
      open_ u /\ is_file u = false /\ port u = None /\ path u = [] /\ credentials_ok u /\ digits (p_buffer p) /\
      exists h, uhost u = Some h /\ weak_host idna (is_special u) h /\ h <> HOpaque []
  | File => p_buffer p = [] /\ (u = empty_url \/ u = set_scheme (lit "file") empty_url)
  | FileSlash => p_buffer p = [] /\ u = file_url
  | FileHost => tail_piece input p /\ u = file_url
  | PathStart => p_buffer p = [] /\ open_ u /\ path u = [] /\ front idna u /\ uhost u <> None
  | Path => open_ u /\ front idna u /\ path_good u /\ raw_ok u (p_buffer p)
  | CannotBeABaseUrlPath =>
      p_buffer p = [] /\ sc_ok (scheme u) /\ bare u /\ cannot_be_base u = true /\ query u = None /\ fragment u = None /\
      exists s, path u = [s] /\ opaque_text s /\
        (s = [] /\ (current input p <> 0x2F \/ size input <= p_pointer p + 1) \/ s <> [] /\ hd 0 s <> 0x2F \/ s = [0x2F] /\ size input <= p_pointer p) /\
        (last s 0 = 0x20 -> last (firstn (Z.to_nat (p_pointer p)) input) 0 = 0x20)
  | Query => core idna u /\ fragment u = None /\ query u <> None /\ query_ok u /\ tail_piece input p
  | Fragment => core idna u /\ query_ok u /\ fragment u <> None /\ fragment_ok u
  end.

Definition Ok (p : parser) : Prop := 0 <= p_pointer p <= size input /\ p_enc p = UTF_8 /\ about p.
Definition fine (r : outcome verdict) : Prop :=
  match r with
  | Val (Go q) => (p_pointer q < size input -> Ok (move 1 q)) /\ (size input <= p_pointer q -> sound idna (p_url q))
  | _ => True
  end.
Definition O := @None pstate.

Lemma fine_go q : p_pointer q < size input -> (p_pointer q < size input -> Ok (move 1 q)) -> fine (Val (Go q)).
Proof. intros L H. split; [exact H|lia]. Qed.
Lemma fine_end q : size input <= p_pointer q -> sound idna (p_url q) -> fine (Val (Go q)).
Proof. intros L H. split; [lia|auto]. Qed.

Lemma Sc : Forall scalar input.
Proof. revert Vi. apply Forall_impl. intros c [H _]. exact H. Qed.
Lemma cur_cases p : 0 <= p_pointer p <= size input ->
  (0 <= p_pointer p < size input /\ visible (current input p)) \/ (p_pointer p = size input /\ current input p = EOF).
Proof.
  intros H. destruct (Z_lt_ge_dec (p_pointer p) (size input)) as [L|L].
  - left. split; [lia|]. pose proof (current_in input fuel Fu p ltac:(lia)) as E. apply nth_error_In in E. rewrite Forall_forall in Vi. exact (Vi _ E).
  - right. split; [lia|]. apply (current_out input fuel Fu). lia.
Qed.
Lemma tail_ok_ p : tail_piece input p -> p_pointer p <= size input -> Forall scalar (p_buffer p) /\ (List.length (p_buffer p) < fuel)%nat.
Proof.
  intros T L. split; [apply (piece_scalar input O Sc), (piece_tail input O), T|]. pose proof (tail_length input fuel Fu p T). unfold size in L. lia.
Qed.

Lemma front_plain u : is_special u = false -> username u = [] -> password u = [] -> uhost u = None -> port u = None -> front idna u.
Proof. intros A B C D E. unfold front. rewrite D. auto. Qed.
Lemma path_good_nil u : path u = [] -> path_good u.
Proof. intros E. unfold path_good. rewrite E. split; [constructor|reflexivity]. Qed.
Lemma raw_nil u : raw_ok u [].
Proof. split; constructor. Qed.
Lemma file_lit_ok : sc_ok (lit "file").
Proof. split; [|reflexivity]. split; [reflexivity|]. repeat constructor. Qed.
Lemma plain_hostless s u : plain s u -> is_file u = false -> hostless u.
Proof. intros [H ->] F. repeat split; try apply H; try exact F; constructor. Qed.
Lemma is_file_scheme u : is_file u = true -> scheme u = lit "file".
Proof. intros H. now apply eqs_true in H. Qed.

Ltac pj := cbn [p_state p_buffer p_at p_brackets p_token p_pointer p_enc p_url s_state s_buffer s_at s_brackets s_token s_pointer s_enc s_url
  on_url move push scheme username password uhost port path query fragment cannot_be_base
  set_scheme set_user set_pass set_host set_port set_path set_query set_fragment set_cannot empty_url] in *.
Ltac next := apply fine_go; [pj; lia|intros Lt; split; [pj; lia|split; [pj; assumption|unfold about; pj]]].

Lemma scheme_start_fine p : p_state p = SchemeStart -> Ok p -> fine (on_scheme_start O p (current input p)).
Proof.
  intros E (L & En & A). unfold about in A. rewrite E in A. destruct A as [U B]. unfold on_scheme_start. destruct (is_ascii_alpha (current input p)) eqn:C.
  - destruct (cur_cases p L) as [[L1 V]|[_ X]]; [|rewrite X in C; discriminate C]. next. split; [exact U|]. rewrite B. cbn [app].
    assert (C' : 0x41 <= current input p <= 0x5A \/ 0x61 <= current input p <= 0x7A) by (unfold is_ascii_alpha, is_ascii_upper_alpha, is_ascii_lower_alpha in C; lia).
    split.
    + cbn [scheme_text]. split; [|constructor]. unfold cp_lower, is_ascii_alpha, is_ascii_upper_alpha, is_ascii_lower_alpha. destruct ((65 <=? current input p) && (current input p <=? 90)) eqn:X; lia.
    + cbn [map]. f_equal. unfold cp_lower, is_ascii_upper_alpha. destruct ((65 <=? current input p) && (current input p <=? 90)) eqn:X; [|now rewrite X].
      destruct ((65 <=? current input p + 32) && (current input p + 32 <=? 90)) eqn:X2; lia.
  - cbn [overridden O negb]. next. split; assumption.
Qed.

Lemma scheme_push b c : sc_ok b -> scheme_char c = true -> sc_ok (b ++ [cp_lower c]).
Proof.
  intros [T M] C.
  assert (D : scheme_char (cp_lower c) = true /\ cp_lower (cp_lower c) = cp_lower c).
  { unfold scheme_char, is_ascii_alphanumeric, is_ascii_digit, is_ascii_alpha in *. unfold cp_lower, is_ascii_upper_alpha, is_ascii_lower_alpha in *. destruct ((65 <=? c) && (c <=? 90)) eqn:X.
    - split; [lia|]. destruct ((65 <=? c + 32) && (c + 32 <=? 90)) eqn:X2; lia.
    - rewrite X. split; [lia|reflexivity]. }
  split.
  - destruct b as [|x b]; [destruct T|]. destruct T as [T1 T2]. split; [exact T1|]. apply Forall_app. split; [exact T2|]. constructor; [apply D|constructor].
  - rewrite map_app, M. cbn [map]. now rewrite (proj2 D).
Qed.

Lemma at_current p k : 0 <= p_pointer p + k < size input -> at_ input p k = Val (current input (move k p)).
Proof.
  intros H. unfold at_. replace (p_pointer p + k <? 0) with false by lia. pose proof (current_in input fuel Fu (move k p)) as E. pj. rewrite E by lia. reflexivity.
Qed.

Lemma scheme_fine p : p_state p = Scheme -> Ok p -> fine (on_scheme input base O p (current input p)).
Proof.
  intros E (L & En & A). unfold about in A. rewrite E in A. destruct A as [U B]. unfold on_scheme. fold (scheme_char (current input p)). destruct (scheme_char (current input p)) eqn:C.
  - destruct (cur_cases p L) as [[L1 V]|[_ X]]; [|rewrite X in C; discriminate C]. unfold stay. next. rewrite E. split; [exact U|]. apply scheme_push; assumption.
  - destruct (current input p =? 0x3A) eqn:D.
    2:{ cbn [overridden O negb]. apply fine_go; [pj; unfold size; lia|]. intros _. split; [pj; unfold size; lia|]. split; [pj; assumption|]. unfold about. pj. now split. }
    destruct (cur_cases p L) as [[L1 V]|[_ X]]; [|rewrite X in D; discriminate D].
    cbn [overridden O andb obind]. rewrite U. set (v := set_scheme (p_buffer p) empty_url).
    assert (Pl : plain (p_buffer p) v) by (split; [exact B|reflexivity]).
    cbv zeta. change (eqs (scheme v) (lit "file")) with (is_file v). destruct (is_file v) eqn:F.
    { assert (Fb : p_buffer p = lit "file") by exact (is_file_scheme v F).
      assert (G : fine (go File (s_buffer [] (s_url v p)))). { unfold go. next. split; [reflexivity|]. right. unfold v. now rewrite Fb. }
      destruct (left_ input (s_buffer [] (s_url v p)) <? 3) eqn:L3; [exact G|]. unfold left_ in L3. pj. rewrite at_current by (pj; lia). cbn [obind].
      destruct (_ =? 0x2F); [|exact G]. rewrite at_current by (pj; lia). exact G. }
    destruct (is_special v && match base with Some v0 => eqs (scheme v0) (scheme v) | None => false end) eqn:Sb.
    { apply andb_prop in Sb as [S1 S2]. destruct base as [b|] eqn:Eb; [|discriminate S2]. apply eqs_true in S2. unfold go. next. split; [reflexivity|]. exists b. split; [exact Eb|].
      assert (Sp : is_special b = true) by (unfold is_special; rewrite S2; exact S1). split; [|split].
      - destruct Ba as [[_ Hc] _]. destruct (cannot_be_base b); [|reflexivity]. destruct Hc as [[X _] _]. congruence.
      - unfold is_file in *. rewrite S2. exact F.
      - unfold v. rewrite S2. reflexivity. }
    destruct (is_special v) eqn:S1.
    { unfold go. next. split; [reflexivity|]. split; [now exists (p_buffer p)|exact F]. }
    unfold left_. pj. destruct (2 <? size input - p_pointer p) eqn:L2.
    + rewrite at_current by (pj; lia). cbn [obind]. destruct (_ =? 0x2F) eqn:Sl.
      * unfold go. next. split; [reflexivity|]. split; [now exists (p_buffer p)|exact S1].
      * unfold go. next. split; [reflexivity|]. split; [exact (proj1 Pl)|]. split; [repeat split; exact S1|]. split; [reflexivity|]. split; [reflexivity|]. split; [reflexivity|].
        exists []. split; [reflexivity|]. split; [constructor|]. split; [left; split; [reflexivity|]; left|cbn; lia].
        intros X. apply Z.eqb_neq in Sl. apply Sl. rewrite <- X. unfold current. pj. reflexivity.
    + cbn [obind Z.eqb]. unfold go. next. split; [reflexivity|]. split; [exact (proj1 Pl)|]. split; [repeat split; exact S1|]. split; [reflexivity|]. split; [reflexivity|]. split; [reflexivity|].
      exists []. split; [reflexivity|]. split; [constructor|]. split; [left; split; [reflexivity|]; right; lia|cbn; lia].
Qed.

Lemma no_scheme_fine p : p_state p = NoScheme -> Ok p -> fine (on_no_scheme base p (current input p)).
Proof.
  intros E (L & En & A). unfold about in A. rewrite E in A. destruct A as [U B]. unfold on_no_scheme. destruct base as [b|] eqn:Eb; [|exact I].
  destruct (cannot_be_base b && negb (current input p =? 0x23)) eqn:C; [exact I|]. destruct (cannot_be_base b) eqn:Cb; cbn [andb] in C.
  - destruct (cur_cases p L) as [[L1 V]|[_ X]]; [|rewrite X in C; discriminate C]. unfold go. next. rewrite U. pj. destruct Ba as ([Hs Hc] & Hq & _). rewrite Cb in Hc. destruct Hc as ((H1 & H2 & H3 & H4 & H5) & Hp).
    split; [|split; [exact Hq|split; [discriminate|constructor]]]. split; [exact Hs|]. pj. split; [|exact Hp]. repeat split. exact H1.
  - destruct (negb (eqs (scheme b) (lit "file"))) eqn:F.
    + unfold go. next. split; [exact B|]. exists b. split; [exact Eb|]. split; [exact Cb|]. split; [unfold is_file; now apply negb_true_iff|now right].
    + unfold go. next. split; [exact B|now left].
Qed.

Lemma special_relative_fine p : p_state p = SpecialRelativeOrAuthority -> Ok p -> fine (on_special_relative_or_authority input p (current input p)).
Proof.
  intros E (L & En & A). unfold about in A. rewrite E in A. destruct A as [B R]. unfold on_special_relative_or_authority.
  assert (N : fine (go Relative (move (-1) p))). { unfold go. next. split; [exact B|]. destruct R as (b & R1 & R2 & R3 & R4). exists b. repeat split; auto. }
  destruct ((current input p =? 0x2F) && (2 <=? left_ input p)) eqn:C; [|exact N]. unfold left_ in C. rewrite at_current by lia. cbn [obind]. destruct (current input (move 1 p) =? 0x2F); [|exact N].
  unfold go. next. split; [exact B|]. destruct R as (b & R1 & R2 & R3 & R4). split; [exists (scheme b); split; [|exact R4]|].
  - rewrite R1 in Ba. apply Ba.
  - rewrite R4. exact R3.
Qed.

Lemma path_or_authority_fine p : p_state p = PathOrAuthority -> Ok p -> fine (on_path_or_authority p (current input p)).
Proof.
  intros E (L & En & A). unfold about in A. rewrite E in A. destruct A as (B & [s Pl] & S). pose proof (not_special_not_file _ S) as F. unfold on_path_or_authority. destruct (current input p =? 0x2F) eqn:C.
  - destruct (cur_cases p L) as [[L1 V]|[_ X]]; [|rewrite X in C; discriminate C]. unfold go. next. split; [eapply plain_hostless; eassumption|]. split; [destruct Pl as [_ ->]; discriminate|].
    split; [apply tail_nil, B|]. rewrite B. constructor.
  - unfold go. next. destruct Pl as [Hs Eu]. rewrite Eu in *. split; [repeat split; apply Hs|]. split; [apply front_plain; try reflexivity; exact S|]. split; [apply path_good_nil; reflexivity|]. rewrite B. apply raw_nil.
Qed.

Lemma relative_fine p : p_state p = Relative -> Ok p -> fine (on_relative base p (current input p)).
Proof.
  intros E (L & En & A). unfold about in A. rewrite E in A. destruct A as (B & b & Eb & Cb & Fb & U). unfold on_relative, with_base. rewrite Eb. rewrite Eb in Ba.
  assert (Eu : set_scheme (scheme b) (p_url p) = set_scheme (scheme b) empty_url) by (destruct U as [-> | ->]; reflexivity). assert (Eo : on_url (set_scheme (scheme b)) p = s_url (set_scheme (scheme b) empty_url) p) by (unfold on_url; now rewrite Eu). cbv zeta. rewrite Eo. clear U Eu Eo.
  destruct Ba as ([Hs Hc] & Hq & Hf & _). rewrite Cb in Hc. destruct Hc as (Hfr & Hp & Hd). set (q := s_url (set_scheme (scheme b) empty_url) p) in *.
  assert (Sl : 0 <= p_pointer p < size input -> fine (go RelativeSlash q)). { intros L1. unfold go, q. next. split; [exact B|]. exists b. repeat split; assumption. }
  destruct (current input p =? 0x2F) eqn:C1; [destruct (cur_cases p L) as [[L1 V]|[_ X]]; [exact (Sl L1)|rewrite X in C1; discriminate C1]|].
  destruct (is_special (p_url q) && (current input p =? 0x5C)) eqn:C2; [apply andb_prop in C2 as [_ C2]; destruct (cur_cases p L) as [[L1 V]|[_ X]]; [exact (Sl L1)|rewrite X in C2; discriminate C2]|].
  clear Sl. cbv zeta. unfold on_url, q. pj.
  assert (Ec : core idna (set_fragment None b)). { split; [exact Hs|]. pj. rewrite Cb. split; [exact Hfr|]. split; [exact Hp|exact Hd]. }
  assert (Eb' : Url (scheme b) (username b) (password b) (uhost b) (port b) (path b) (query b) None false = set_fragment None b) by (destruct b; cbn in Cb |- *; now rewrite Cb).
  destruct (current input p =? 0x3F) eqn:C3.
  { destruct (cur_cases p L) as [[L1 V]|[_ X]]; [|rewrite X in C3; discriminate C3]. unfold go. next. split; [split; [exact Hs|]; pj; split; [exact Hfr|split; [exact Hp|exact Hd]]|].
    split; [reflexivity|]. split; [discriminate|]. split; [constructor|]. apply tail_nil. exact B. }
  destruct (current input p =? 0x23) eqn:C4.
  { destruct (cur_cases p L) as [[L1 V]|[_ X]]; [|rewrite X in C4; discriminate C4]. unfold go. next. split; [split; [exact Hs|]; pj; split; [exact Hfr|split; [exact Hp|exact Hd]]|].
    split; [exact Hq|]. split; [discriminate|]. constructor. }
  destruct (negb (current input p =? EOF)) eqn:C5.
  - unfold go. next. split; [repeat split; apply Hs|]. split; [exact Hfr|]. split; [|rewrite B; apply raw_nil]. destruct Hp as [Hp1 Hp2]. split; [apply removelast_forall; exact Hp1|].
    intros X. change (is_file b = true) in X. congruence.
  - destruct (cur_cases p L) as [[L1 [_ V]]|[P X]]; [unfold EOF in C5; lia|]. unfold stay. apply fine_end; [pj; lia|]. assert (Es : sound idna (set_fragment None b)) by (split; [exact Ec|]; split; [exact Hq|]; split; [exact I|]; pj; congruence).
    rewrite <- Eb' in Es. exact Es.
Qed.

Lemma relative_slash_fine p : p_state p = RelativeSlash -> Ok p -> fine (on_relative_slash base p (current input p)).
Proof.
  intros E (L & En & A). unfold about in A. rewrite E in A. destruct A as (B & b & Eb & Cb & Fb & U). unfold on_relative_slash, with_base. rewrite Eb. rewrite Eb in Ba.
  destruct Ba as ([Hs Hc] & Hq & Hf & _). rewrite Cb in Hc. destruct Hc as (Hfr & Hp & Hd).
  destruct (is_special (p_url p) && _) eqn:C1.
  { apply andb_prop in C1 as [_ C1]. destruct (cur_cases p L) as [[L1 V]|[_ X]]; [|rewrite X in C1; discriminate C1]. unfold go. next. split; [exact B|]. split; [exists (scheme b); split; [exact Hs|exact U]|]. rewrite U. exact Fb. }
  destruct (current input p =? 0x2F) eqn:C2.
  { destruct (cur_cases p L) as [[L1 V]|[_ X]]; [|rewrite X in C2; discriminate C2]. unfold go. next. split; [apply (plain_hostless (scheme b)); [split; [exact Hs|exact U]|rewrite U; exact Fb]|].
    split; [rewrite U; discriminate|]. split; [apply tail_nil, B|]. rewrite B. constructor. }
  unfold go. next. rewrite U. pj. split; [repeat split; apply Hs|]. split; [exact Hfr|]. split; [apply path_good_nil; reflexivity|]. rewrite B. apply raw_nil.
Qed.

Lemma special_slashes_fine p : p_state p = SpecialAuthoritySlashes -> Ok p -> fine (on_special_authority_slashes input p (current input p)).
Proof.
  intros E (L & En & A). unfold about in A. rewrite E in A. unfold on_special_authority_slashes.
  assert (N : fine (go SpecialAuthorityIgnoreSlashes (move (-1) p))). { unfold go. next. exact A. }
  destruct ((current input p =? 0x2F) && (2 <=? left_ input p)) eqn:C; [|exact N]. unfold left_ in C. rewrite at_current by lia. cbn [obind]. destruct (current input (move 1 p) =? 0x2F); [|exact N]. unfold go. next. exact A.
Qed.

Lemma ignore_slashes_fine p : p_state p = SpecialAuthorityIgnoreSlashes -> Ok p -> fine (on_special_authority_ignore_slashes p (current input p)).
Proof.
  intros E (L & En & A). unfold about in A. rewrite E in A. unfold on_special_authority_ignore_slashes. destruct (negb _) eqn:C.
  - destruct A as (B & [s Pl] & F). unfold go. next. split; [eapply plain_hostless; eassumption|]. split; [destruct Pl as [_ ->]; discriminate|]. split; [apply tail_nil, B|]. rewrite B. constructor.
  - destruct (cur_cases p L) as [[L1 V]|[_ X]]; [|rewrite X in C; discriminate C]. unfold stay. next. rewrite E. exact A.
Qed.

Lemma creds_kept l : forall token u, Forall scalar l -> hostless u -> hostless (snd (creds l token u)).
Proof.
  induction l as [|c l IH]; intros token u S H; [exact H|]. inversion S as [|x y Sc_ Sl]; subst. cbn [creds]. destruct (_ && _); [now apply IH|]. apply IH; [exact Sl|].
  assert (P : outside is_userinfo_percent_encode_set (pe is_userinfo_percent_encode_set [c])) by (apply pe_out; [exact keeps_userinfo|constructor; [exact Sc_|constructor]]).
  destruct H as (H1 & H2 & H3 & H4 & H5 & H6 & H7 & H8 & H9 & H10). destruct token; (repeat split; pj; try assumption; try apply H1); apply Forall_app; split; assumption.
Qed.

Lemma authority_fine p : p_state p = Authority -> Ok p -> fine (on_authority fuel p (current input p)).
Proof.
  intros E (L & En & A). unfold about in A. rewrite E in A. destruct A as (H & At & T & N). destruct (tail_ok_ p T ltac:(lia)) as [Sb Lb]. unfold on_authority. destruct (current input p =? 0x40) eqn:C.
  - destruct (cur_cases p L) as [[L1 V]|[_ X]]; [|rewrite X in C; discriminate C].
    set (b := if p_at p then lit "%40" ++ p_buffer p else p_buffer p). assert (Sbb : Forall scalar b).
    { unfold b. destruct (p_at p); [|exact Sb]. apply Forall_app. split; [|exact Sb]. repeat constructor; unfold scalar; lia. }
    rewrite (credentials_spec input fuel Fu b _ _ Sbb). cbn [obind]. pose proof (creds_kept b (p_token p) (p_url p) Sbb H) as K. destruct (creds b (p_token p) (p_url p)) as [tk v]. cbn [snd] in K.
    unfold stay. next. rewrite E. split; [exact K|]. split; [reflexivity|]. split; [apply tail_nil; reflexivity|constructor].
  - destruct (ends_authority (p_url p) (current input p)) eqn:D.
    + destruct (p_at p && negb (nonempty (p_buffer p))) eqn:F; [exact I|]. unfold go. pose proof (tail_length input fuel Fu p T) as TL. next. split; [exact H|]. split; [apply tail_nil; reflexivity|].
      intros Ic. right. specialize (At Ic). rewrite At in F. destruct (p_buffer p) as [|x r] eqn:Bu; [discriminate F|]. inversion N as [|y z Nx _]. subst y z.
      destruct T as [a T]. unfold current. pj. cbn [List.length] in *. set (k := p_pointer p + - (Z.of_nat (S (List.length r)) + 1) + 1).
      assert (Len : List.length (a ++ x :: r) = Z.to_nat (p_pointer p)). { rewrite <- Bu, <- T, firstn_length. unfold size in L. lia. }
      rewrite app_length in Len. cbn [List.length] in Len. assert (Ek : k = Z.of_nat (List.length a)) by (unfold k; lia).
      replace (0 <=? k) with true by lia. replace (k <? size input) with true by lia. cbn [andb]. rewrite Ek, Nat2Z.id. rewrite <- (firstn_skipn (Z.to_nat (p_pointer p)) input), T, Bu, <- app_assoc.
      rewrite app_nth2 by lia. rewrite Nat.sub_diag. exact Nx.
    + destruct (cur_cases p L) as [[L1 V]|[_ X]]; [|rewrite X in D; discriminate D]. unfold stay. next. rewrite E. split; [exact H|]. split; [exact At|].
      split; [eapply (tail_push input fuel Fu p); [exact T|exact L1|reflexivity|reflexivity]|]. apply Forall_app. split; [exact N|]. constructor; [exact D|constructor].
Qed.

Lemma host_front u h : hostless u -> weak_host idna (is_special u) h -> (includes_credentials u = true -> h <> HOpaque []) -> front idna (set_host (Some h) u).
Proof.
  intros (H1 & H2 & H3 & H4 & H5 & H6 & H7 & H8 & H9) W N. unfold front. pj. change (is_file (set_host (Some h) u)) with (is_file u). rewrite H2, H4. split; [exact W|]. split; [exact H9|].
  split; [|exact I]. intros [X|X]; [apply N, X|congruence].
Qed.
Lemma host_open u h : hostless u -> open_ (set_host (Some h) u).
Proof. intros (H1 & H2 & H3 & H4 & H5 & H6 & H7 & H8 & H9). repeat split; pj; try assumption; apply H1. Qed.

Lemma host_fine p : p_state p = Host -> Ok p -> fine (on_hostname idna O fuel p (current input p)).
Proof.
  intros E (L & En & A). unfold about in A. rewrite E in A. destruct A as (H & T & At). destruct (tail_ok_ p T ltac:(lia)) as [Sb Lb]. unfold on_hostname. cbn [overridden O andb].
  pose proof (host_sound idna fuel (p_buffer p) (is_special (p_url p))) as Hs.
  destruct ((current input p =? 0x3A) && negb (p_brackets p)) eqn:C.
  - apply andb_prop in C as [C _]. destruct (cur_cases p L) as [[L1 V]|[_ X]]; [|rewrite X in C; discriminate C].
    destruct (negb (nonempty (p_buffer p))) eqn:Nb; [exact I|]. assert (Nb' : p_buffer p <> []) by (intros X; rewrite X in Nb; discriminate Nb).
    destruct (parse_host idna fuel (p_buffer p) (negb (is_special (p_url p)))) as [h| |] eqn:Eh; try exact I. cbn [obind].
    assert (G : h <> HNone -> fine (go Port (s_buffer [] (on_url (set_host (Some h)) p)))).
    { intros Nh. destruct (Hs h Id Sb Lb eq_refl Nh) as [W Ne]. unfold go. next. split; [now apply host_open|]. destruct H as (H1 & H2 & H3 & H4 & H5 & H6 & H7 & H8 & H9).
      split; [exact H2|]. split; [exact H4|]. split; [exact H5|]. split; [exact H9|]. split; [constructor|]. exists h. split; [reflexivity|]. split; [exact W|auto]. }
    destruct h; try exact I; apply G; discriminate.
  - destruct (ends_authority (p_url p) (current input p)) eqn:D.
    + cbv zeta. change (p_buffer (move (-1) p)) with (p_buffer p). destruct (is_special (p_url p) && negb (nonempty (p_buffer p))) eqn:F; [exact I|]. destruct (parse_host idna fuel (p_buffer p) (negb (is_special (p_url p)))) as [h| |] eqn:Eh; try exact I. cbn [obind].
      assert (G : h <> HNone -> fine (go PathStart (s_buffer [] (on_url (set_host (Some h)) (move (-1) p))))).
      { intros Nh. destruct (Hs h Id Sb Lb eq_refl Nh) as [W Ne]. unfold go. next. split; [reflexivity|]. split; [now apply host_open|]. split; [apply H|].
        split; [|discriminate]. apply host_front; [exact H|exact W|]. intros Ic. destruct (At Ic) as [X|X]; [auto|congruence]. }
      destruct h; try exact I; apply G; discriminate.
    + destruct (cur_cases p L) as [[L1 V]|[_ X]]; [|rewrite X in D; discriminate D].
      assert (G : forall q, p_url q = p_url p -> p_enc q = p_enc p -> p_pointer q = p_pointer p -> p_buffer q = p_buffer p -> p_state q = Host -> fine (stay (push [current input p] q))).
      { intros q Q1 Q2 Q3 Q4 Q5. unfold stay. apply fine_go; [pj; lia|]. intros _. split; [pj; lia|]. split; [pj; congruence|]. unfold about. pj. rewrite Q5, Q1. split; [exact H|].
        split; [apply (tail_push input fuel Fu p); [exact T|exact L1|pj; lia|pj; congruence]|]. intros _. left. intros X. now apply app_eq_nil in X as [_ X]. }
      destruct (current input p =? 0x5B), (current input p =? 0x5D); apply G; try reflexivity; exact E.
Qed.

Lemma port_fine p : p_state p = Port -> Ok p -> fine (on_port O p (current input p)).
Proof.
  intros E (L & En & A). unfold about in A. rewrite E in A. destruct A as (Op & F & Pn & Pa & Cr & Dg & h & Hh & W & N). unfold on_port. destruct (is_ascii_digit (current input p)) eqn:C.
  - destruct (cur_cases p L) as [[L1 V]|[_ X]]; [|rewrite X in C; discriminate C]. unfold stay. next. rewrite E. split; [exact Op|]. split; [exact F|]. split; [exact Pn|]. split; [exact Pa|]. split; [exact Cr|].
    split; [|exists h; auto]. apply Forall_app. split; [exact Dg|]. constructor; [unfold is_ascii_digit in C; lia|constructor].
  - destruct (ends_authority (p_url p) (current input p) || overridden O); [|exact I]. destruct (nonempty (p_buffer p)) eqn:B.
    + destruct (5 <? Z.of_nat (List.length (p_buffer p))) eqn:L5; [exact I|]. destruct (0xFFFF <=? port_value (p_buffer p)) eqn:Lv; [exact I|]. cbn [orb overridden O]. unfold go. next.
      split; [reflexivity|]. split; [exact Op|]. split; [exact Pa|]. split; [|rewrite Hh; discriminate].
      unfold front. pj. rewrite Hh. match goal with |- context [is_file ?v] => change (is_file v) with (is_file (p_url p)) end. rewrite F. split; [exact W|]. split; [exact Cr|]. split; [intros _; exact N|].
      assert (Pv : port_value (p_buffer p) = decimal (p_buffer p)) by (apply (port_value_decimal input fuel Fu); [exact Dg|unfold zlen; lia]). rewrite Pv in Lv |- *. pose proof (decimal_bound input fuel Fu _ Dg) as Db. destruct (default_port (scheme (p_url p))) as [d|]; [|split; [lia|congruence]].
      destruct (decimal (p_buffer p) =? d) eqn:X; [exact I|]. split; [lia|]. intros Y. injection Y as Y. lia.
    + cbn [overridden O]. unfold go. next. split; [destruct (p_buffer p); [reflexivity|discriminate B]|]. split; [exact Op|]. split; [exact Pa|]. split; [|rewrite Hh; discriminate].
      unfold front. rewrite Hh, F, Pn. split; [exact W|]. split; [exact Cr|]. split; [intros _; exact N|exact I].
Qed.

Lemma file_front b : sound idna b -> is_file b = true -> cannot_be_base b = false /\ exists h, uhost b = Some h /\ username b = [] /\ password b = [] /\ port b = None /\
  (h = HEmpty \/ weak_host idna true h /\ exists d, h = HDomain d /\ d <> lit "localhost").
Proof.
  intros ([_ Hc] & _) F. assert (S : is_special b = true) by (unfold is_special; rewrite (is_file_scheme b F); reflexivity). destruct (cannot_be_base b); [destruct Hc as [[X _] _]; congruence|].
  split; [reflexivity|]. destruct Hc as (H & _). unfold front in H. destruct (uhost b) as [h|]; [|destruct H; congruence]. rewrite F in H. exists h. intuition.
Qed.
Lemma file_front_of u h : is_file u = true -> uhost u = Some h -> username u = [] -> password u = [] -> port u = None ->
  (h = HEmpty \/ weak_host idna true h /\ exists d, h = HDomain d /\ d <> lit "localhost") -> front idna u.
Proof. intros F Hh A B C D. unfold front. rewrite Hh, F. auto. Qed.
Lemma segment_scheme u v s : scheme u = scheme v -> segment_ok u s -> segment_ok v s.
Proof. intros E H. unfold segment_ok, path_sep, is_special in *. rewrite <- E. exact H. Qed.
Lemma path_good_of u v : scheme u = scheme v -> path u = path v -> path_good u -> path_good v.
Proof.
  intros E P [F D]. unfold path_good, is_file. rewrite <- P, <- E. split; [|exact D]. revert F. apply Forall_impl. intros s. now apply segment_scheme.
Qed.
Lemma shorten_path_good u : path_good u -> path_good (shorten_urls_path u).
Proof.
  intros [F D]. rewrite shorten_path. fold (is_file u). destruct (shorten_good u (is_file u) (path u) F D) as [F1 D1]. split; pj; [|exact D1].
  revert F1. apply Forall_impl. intros s. now apply segment_scheme.
Qed.

Lemma file_fine p : p_state p = File -> Ok p -> fine (on_file input base p (current input p)).
Proof.
  intros E (L & En & A). unfold about in A. rewrite E in A. destruct A as (B & U). unfold on_file.
  assert (Eo : on_url (fun u => set_host (Some HEmpty) (set_scheme (lit "file") u)) p = s_url file_url p) by (unfold on_url, file_url; destruct U as [-> | ->]; reflexivity).
  cbv zeta. rewrite Eo. clear Eo U. destruct ((current input p =? 0x2F) || (current input p =? 0x5C)) eqn:C.
  - destruct (cur_cases p L) as [[L1 V]|[_ X]]; [|rewrite X in C; discriminate C]. unfold go. next. split; [exact B|reflexivity].
  - assert (Oth : fine (go Path (move (-1) (s_url file_url p)))).
    { unfold go. next. split; [repeat split; apply file_lit_ok|]. split; [eapply file_front_of; try reflexivity; now left|]. split; [apply path_good_nil; reflexivity|]. rewrite B. apply raw_nil. }
    destruct base as [b|] eqn:Eb; [|exact Oth]. destruct (eqs (scheme b) (lit "file")) eqn:F; [|exact Oth]. clear Oth.
    destruct (file_front b Ba F) as (Cb & h & Hh & U1 & U2 & U3 & W). pose proof (is_file_scheme b F) as Sb. destruct Ba as ([Hs Hc] & Hq & Hf & _). rewrite Cb in Hc. destruct Hc as (Hfr & Hp & Hd).
    set (v := set_query (query b) (set_path (path b) (set_host (uhost b) file_url))).
    assert (Eo : on_url (fun u => set_query (query b) (set_path (path b) (set_host (uhost b) u))) (s_url file_url p) = s_url v p) by reflexivity. rewrite Eo. clear Eo.
    assert (Fv : front idna v) by (eapply file_front_of; [reflexivity|exact Hh|reflexivity|reflexivity|reflexivity|exact W]).
    assert (Pv : path_good v) by (apply (path_good_of b); [exact Sb|reflexivity|exact Hp]).
    assert (Dv : path_done v). { intros _. apply Hd. left. unfold is_special. rewrite Sb. reflexivity. }
    assert (Qv : query_ok v). { unfold query_ok, v, query_set, is_special in *. pj. rewrite Sb in Hq. exact Hq. }
    destruct (current input p =? 0x3F) eqn:C3.
    { destruct (cur_cases p L) as [[L1 V]|[_ X]]; [|rewrite X in C3; discriminate C3]. unfold go. next.
      split; [split; [apply file_lit_ok|]; split; [exact Fv|split; [exact Pv|exact Dv]]|]. split; [reflexivity|]. split; [discriminate|]. split; [constructor|]. apply tail_nil. exact B. }
    destruct (current input p =? 0x23) eqn:C4.
    { destruct (cur_cases p L) as [[L1 V]|[_ X]]; [|rewrite X in C4; discriminate C4]. unfold go. next.
      split; [split; [apply file_lit_ok|]; split; [exact Fv|split; [exact Pv|exact Dv]]|]. split; [exact Qv|]. split; [discriminate|]. constructor. }
    destruct (negb (current input p =? EOF)) eqn:C5.
    + unfold go. apply fine_go; [pj; lia|]. intros _. split; [pj; lia|]. split; [pj; assumption|]. unfold about. cbn [p_state s_state s_pointer move p_url p_buffer on_url s_url].
      destruct (starts_with_windows_drive_letter _).
      * split; [repeat split; apply file_lit_ok|]. split; [exact Fv|]. split; [apply path_good_nil; reflexivity|]. rewrite B. apply raw_nil.
      * assert (Pw : path_good (set_query None v)) by exact Pv. pose proof (shorten_path_good _ Pw) as Ps. rewrite shorten_path in *. split; [repeat split; apply file_lit_ok|]. split; [exact Fv|]. split; [exact Ps|]. rewrite B. apply raw_nil.
    + destruct (cur_cases p L) as [[L1 [_ V]]|[P X]]; [unfold EOF in C5; lia|]. unfold stay. apply fine_end; [pj; lia|]. split; [split; [apply file_lit_ok|]; split; [exact Fv|split; [exact Pv|exact Dv]]|].
      split; [exact Qv|]. split; [exact I|discriminate].
Qed.

Lemma file_slash_fine p : p_state p = FileSlash -> Ok p -> fine (on_file_slash input base p (current input p)).
Proof.
  intros E (L & En & A). unfold about in A. rewrite E in A. destruct A as (B & U). unfold on_file_slash. destruct ((current input p =? 0x2F) || (current input p =? 0x5C)) eqn:C.
  - destruct (cur_cases p L) as [[L1 V]|[_ X]]; [|rewrite X in C; discriminate C]. unfold go. next. split; [apply tail_nil; exact B|exact U].
  - assert (Oth : fine (go Path (move (-1) p))).
    { unfold go. next. rewrite U. split; [repeat split; apply file_lit_ok|]. split; [eapply file_front_of; try reflexivity; now left|]. split; [apply path_good_nil; reflexivity|]. rewrite B. apply raw_nil. }
    destruct base as [b|] eqn:Eb; [|exact Oth]. destruct (eqs (scheme b) (lit "file")) eqn:F; [|exact Oth]. clear Oth.
    destruct (file_front b Ba F) as (Cb & h & Hh & U1 & U2 & U3 & W). pose proof (is_file_scheme b F) as Sb. destruct Ba as ([Hs Hc] & Hq & Hf & _). rewrite Cb in Hc. destruct Hc as (Hfr & Hp & Hd).
    unfold go. apply fine_go; [pj; lia|]. intros _. split; [pj; lia|]. split; [pj; assumption|]. unfold about. cbn [p_state s_state s_pointer move p_url p_buffer on_url s_url]. rewrite U.
    set (v := set_host (uhost b) file_url).
    assert (Fv : front idna v) by (eapply file_front_of; [reflexivity|exact Hh|reflexivity|reflexivity|reflexivity|exact W]).
    destruct (path b) as [|d r] eqn:Pb.
    + split; [repeat split; apply file_lit_ok|]. split; [exact Fv|]. split; [apply path_good_nil; reflexivity|]. rewrite B. apply raw_nil.
    + destruct (negb _ && is_normalized_windows_drive_letter d) eqn:X.
      * split; [repeat split; apply file_lit_ok|]. split; [exact Fv|]. split; [|rewrite B; apply raw_nil]. destruct Hp as [H1 H2]. rewrite Pb in H1, H2. inversion H1 as [|x y Hx _]. subst x y.
        split; pj; cbn [file_url set_host set_scheme path empty_url app hd] in *; [|intros _; apply (H2 F)]. constructor; [|constructor]. revert Hx. apply segment_scheme. exact Sb.
      * split; [repeat split; apply file_lit_ok|]. split; [exact Fv|]. split; [apply path_good_nil; reflexivity|]. rewrite B. apply raw_nil.
Qed.

Lemma file_host_fine p : p_state p = FileHost -> Ok p -> fine (on_file_host idna O fuel p (current input p)).
Proof.
  intros E (L & En & A). unfold about in A. rewrite E in A. destruct A as (T & U). destruct (tail_ok_ p T ltac:(lia)) as [Sb Lb]. unfold on_file_host.
  destruct ((current input p =? EOF) || _ || _ || _ || _) eqn:C.
  - cbn [overridden O negb andb]. change (p_buffer (move (-1) p)) with (p_buffer p). destruct (is_windows_drive_letter (p_buffer p)) eqn:Dr.
    { unfold go. next. rewrite U. split; [repeat split; apply file_lit_ok|]. split; [eapply file_front_of; try reflexivity; now left|]. split; [apply path_good_nil; reflexivity|]. apply drive_raw, Dr. }
    destruct (negb (nonempty (p_buffer p))) eqn:Nb.
    { unfold go. next. split; [destruct (p_buffer p); [reflexivity|discriminate Nb]|]. rewrite U. split; [repeat split; apply file_lit_ok|]. split; [reflexivity|]. split; [|discriminate].
      eapply file_front_of; try reflexivity. now left. }
    change (p_url (move (-1) p)) with (p_url p). rewrite U. change (negb (is_special file_url)) with (negb true).
    destruct (parse_host idna fuel (p_buffer p) (negb true)) as [h| |] eqn:Eh; try exact I. cbn [obind]. pose proof (host_sound idna fuel (p_buffer p) true h Id Sb Lb Eh) as Hs.
    destruct h as [|d0|d0|d0|d0|]; try exact I; cbn [of_option host_equals obind]; try exact I.
    + destruct (Hs ltac:(discriminate)) as [W _]. unfold go. next. split; [reflexivity|]. rewrite U. split; [repeat split; apply file_lit_ok|]. split; [reflexivity|]. split; [|discriminate].
      destruct (eqs d0 (lit "localhost")) eqn:X; [eapply file_front_of; try reflexivity; now left|]. eapply file_front_of; try reflexivity. right. split; [exact W|]. eexists. split; [reflexivity|].
      intros Y. apply eqs_true in Y. congruence.
    + destruct (Hs ltac:(discriminate)) as [[X _] _]. discriminate X.
  - destruct (cur_cases p L) as [[L1 V]|[_ X]]; [|rewrite X in C; discriminate C]. unfold stay. next. rewrite E. split; [|exact U]. eapply (tail_push input fuel Fu p); [exact T|exact L1|reflexivity|reflexivity].
Qed.

Lemma path_start_fine p : p_state p = PathStart -> Ok p -> fine (on_path_start O p (current input p)).
Proof.
  intros E (L & En & A). unfold about in A. rewrite E in A. destruct A as (B & Op & Pa & Fr & Hn). unfold on_path_start. cbn [overridden O negb andb].
  assert (Gp : path_good (p_url p)) by now apply path_good_nil.
  assert (G1 : fine (go Path (move (-1) p))). { unfold go. next. split; [exact Op|]. split; [exact Fr|]. split; [exact Gp|]. rewrite B. apply raw_nil. }
  assert (G2 : 0 <= p_pointer p < size input -> fine (go Path p)). { intros L1. unfold go. next. split; [exact Op|]. split; [exact Fr|]. split; [exact Gp|]. rewrite B. apply raw_nil. }
  destruct (is_special (p_url p)) eqn:S.
  { destruct ((current input p =? 0x2F) || (current input p =? 0x5C)) eqn:C; [|exact G1]. destruct (cur_cases p L) as [[L1 V]|[_ X]]; [exact (G2 L1)|rewrite X in C; discriminate C]. }
  assert (Co : core idna (p_url p)). { destruct Op as (_ & _ & O3 & O4). split; [exact O4|]. rewrite O3. split; [exact Fr|]. split; [exact Gp|]. intros [X|X]; congruence. }
  destruct Op as (Q & Ff & O3 & O4).
  destruct (current input p =? 0x3F) eqn:C3.
  { destruct (cur_cases p L) as [[L1 V]|[_ X]]; [|rewrite X in C3; discriminate C3]. unfold go. next. split; [exact Co|]. split; [exact Ff|]. split; [discriminate|]. split; [constructor|]. apply tail_nil. exact B. }
  destruct (current input p =? 0x23) eqn:C4.
  { destruct (cur_cases p L) as [[L1 V]|[_ X]]; [|rewrite X in C4; discriminate C4]. unfold go. next. split; [exact Co|]. split; [unfold query_ok; pj; now rewrite Q|]. split; [discriminate|]. constructor. }
  destruct (negb (current input p =? EOF)) eqn:C5.
  - destruct (current input p =? 0x2F) eqn:C; [|exact G1]. destruct (cur_cases p L) as [[L1 V]|[_ X]]; [exact (G2 L1)|rewrite X in C; discriminate C].
  - destruct (cur_cases p L) as [[L1 [_ V]]|[P X]]; [unfold EOF in C5; lia|]. unfold stay. apply fine_end; [pj; lia|]. split; [exact Co|]. split; [unfold query_ok; now rewrite Q|]. split; [unfold fragment_ok; now rewrite Ff|congruence].
Qed.

Lemma path_fine p : p_state p = Path -> Ok p -> fine (handle idna input base O fuel p).
Proof.
  intros E (L & En & A). pose proof A as A'. unfold about in A. rewrite E in A. destruct A as ((Q & Ff & O3 & O4) & Fr & [Gp Gd] & R).
  destruct (path_sep (p_url p) (current input p)) eqn:S.
  - rewrite (path_handle_sep idna input base O fuel Fu p _ E eq_refl S). destruct (cur_cases p L) as [[L1 V]|[_ X]]; [|rewrite X in S; unfold path_sep in S; cbn in S; rewrite andb_false_r in S; discriminate S].
    next. rewrite E. split; [repeat split; try assumption; apply O4|]. split; [exact Fr|]. split; [exact (step_good (p_url p) _ _ Gp Gd R)|apply raw_nil].
  - assert (Co : core idna (set_path (seg_last (is_file (p_url p)) (path (p_url p)) (p_buffer p)) (p_url p))).
    { split; [exact O4|]. pj. rewrite O3. split; [exact Fr|]. split; [exact (last_good (p_url p) _ _ Gp Gd R)|]. intros _. apply last_nonempty. }
    destruct (cur_cases p L) as [[L1 V]|[P X]].
    + destruct (current input p =? 0x3F) eqn:C3.
      { rewrite (path_handle_end idna input base O fuel p _ E eq_refl) by (right; split; [reflexivity|lia]). cbv zeta. rewrite C3. next. split; [exact Co|]. split; [exact Ff|]. split; [discriminate|]. split; [constructor|]. apply tail_nil. reflexivity. }
      destruct (current input p =? 0x23) eqn:C4.
      { rewrite (path_handle_end idna input base O fuel p _ E eq_refl) by (right; split; [reflexivity|lia]). cbv zeta. rewrite C3, C4. next. split; [exact Co|]. split; [unfold query_ok; pj; now rewrite Q|]. split; [discriminate|]. constructor. }
      rewrite (path_handle_other idna input base O fuel Fu p _ E eq_refl L1 V S) by (intros _; lia). next. rewrite E. split; [repeat split; try assumption; apply O4|]. split; [exact Fr|]. split; [split; assumption|].
      apply raw_app; [exact R|]. apply pe_raw; [apply V|exact S].
    + rewrite (path_handle_end idna input base O fuel p _ E eq_refl) by (left; exact X). cbv zeta. rewrite X. cbn [EOF Z.eqb Pos.eqb]. apply fine_end; [pj; lia|]. split; [exact Co|].
      split; [unfold query_ok; pj; now rewrite Q|]. split; [unfold fragment_ok; pj; now rewrite Ff|pj; congruence].
Qed.

Lemma cannot_fine p : p_state p = CannotBeABaseUrlPath -> Ok p -> fine (on_cannot_be_a_base_url_path input fuel p (current input p)).
Proof.
  intros E (L & En & A). unfold about in A. rewrite E in A. destruct A as (B & Sc_ & Br & Cb & Q & Ff & s & Pa & Tx & Hd & Sp). unfold on_cannot_be_a_base_url_path.
  assert (Co : core idna (p_url p)). { split; [exact Sc_|]. rewrite Cb. split; [exact Br|]. exists s. split; [exact Pa|]. split; [exact Tx|]. destruct Hd as [[-> _]|[[_ X]|[X _]]]; [left; cbn; lia|now left|now right]. }
  destruct (current input p =? 0x3F) eqn:C3.
  { destruct (cur_cases p L) as [[L1 V]|[_ X]]; [|rewrite X in C3; discriminate C3]. unfold go. next. split; [exact Co|]. split; [exact Ff|]. split; [discriminate|]. split; [constructor|]. apply tail_nil. exact B. }
  destruct (current input p =? 0x23) eqn:C4.
  { destruct (cur_cases p L) as [[L1 V]|[_ X]]; [|rewrite X in C4; discriminate C4]. unfold go. next. split; [exact Co|]. split; [unfold query_ok; pj; now rewrite Q|]. split; [discriminate|]. constructor. }
  rewrite (check_ok input fuel Fu) by lia. cbn [obind]. destruct (negb (current input p =? EOF)) eqn:C5.
  - destruct (cur_cases p L) as [[L1 V]|[_ X]]; [|rewrite X in C5; discriminate C5]. rewrite Pa, (enc_one input fuel Fu) by apply V. cbn [obind]. destruct (pe_opaque (current input p) (proj1 V) ltac:(lia) ltac:(lia)) as (P1 & P2 & P3 & P4).
    pose proof (pe_nonempty is_c0_control_percent_encode_set [current input p] ltac:(discriminate)) as Ne. set (w := pe is_c0_control_percent_encode_set [current input p]) in *.
    unfold stay. next. rewrite E. split; [exact B|]. split; [exact Sc_|]. split; [exact Br|]. split; [exact Cb|]. split; [exact Q|]. split; [exact Ff|]. exists (s ++ w). split; [reflexivity|].
    split; [apply Forall_app; split; [exact Tx|exact P1]|]. split.
    + destruct Hd as [[-> X]|[[Ns X]|[_ X]]]; [|right; left; split; [intros Y; now apply app_eq_nil in Y as [Y _]|destruct s; [congruence|exact X]]|lia]. cbn [app]. right.
      destruct (Z.eq_dec (current input p) 0x2F) as [Y|Y]; [right; split; [exact (P4 Y)|destruct X; [congruence|lia]]|left; split; [exact Ne|auto]].
    + rewrite last_app_ne by exact Ne. intros X. rewrite (next_firstn input fuel Fu) by exact L1. rewrite last_last. auto.
  - destruct (cur_cases p L) as [[L1 [_ V]]|[P X]]; [unfold EOF in C5; lia|]. unfold stay. apply fine_end; [pj; lia|]. split; [exact Co|]. split; [unfold query_ok; now rewrite Q|]. split; [unfold fragment_ok; now rewrite Ff|].
    intros _ _ _. rewrite Pa. cbn [hd]. intros Y. apply La. specialize (Sp Y). rewrite P in Sp. unfold size in Sp. rewrite Nat2Z.id, firstn_all in Sp. exact Sp.
Qed.

Lemma query_fine p : p_state p = Query -> Ok p -> fine (on_query input O fuel p (current input p)).
Proof.
  intros E (L & En & A). unfold about in A. rewrite E in A. destruct A as (Co & Ff & Qn & Qo & T). destruct (tail_ok_ p T ltac:(lia)) as [Sb Lb]. unfold on_query. rewrite En. cbn [overridden O negb andb].
  destruct ((current input p =? 0x23) || (current input p =? EOF)) eqn:C.
  - unfold query_ok in Qo. destruct (query (p_url p)) as [q|] eqn:Eq; [|congruence]. fold (query_set (p_url p)). rewrite En.
    assert (R : pe_after_encoding fuel UTF_8 (p_buffer p) (query_set (p_url p)) = Val (pe (query_set (p_url p)) (p_buffer p))) by (apply pe_spec; assumption). rewrite R. cbn [obind].
    assert (Qk : outside (query_set (p_url p)) (q ++ pe (query_set (p_url p)) (p_buffer p))) by (apply Forall_app; split; [exact Qo|apply pe_out; [apply keeps_query_set|exact Sb]]).
    destruct (current input p =? 0x23) eqn:C4.
    + destruct (cur_cases p L) as [[L1 V]|[_ X]]; [|rewrite X in C4; discriminate C4]. unfold go. next. split; [exact Co|]. split; [exact Qk|]. split; [discriminate|]. constructor.
    + destruct (cur_cases p L) as [[L1 [_ V]]|[P X]]; [unfold EOF in C; lia|]. unfold stay. apply fine_end; [pj; lia|]. split; [exact Co|]. split; [exact Qk|]. split; [unfold fragment_ok; pj; now rewrite Ff|discriminate].
  - destruct (cur_cases p L) as [[L1 V]|[_ X]]; [|rewrite X in C; discriminate C]. rewrite (check_ok input fuel Fu) by lia. cbn [obind]. unfold stay. next. rewrite E. split; [exact Co|]. split; [exact Ff|]. split; [exact Qn|].
    split; [exact Qo|]. eapply (tail_push input fuel Fu p); [exact T|exact L1|reflexivity|reflexivity].
Qed.

Lemma fragment_fine p : p_state p = Fragment -> Ok p -> fine (on_fragment input fuel p (current input p)).
Proof.
  intros E (L & En & A). unfold about in A. rewrite E in A. destruct A as (Co & Qo & Fn & Fo). unfold on_fragment. destruct (negb (current input p =? EOF)) eqn:C5.
  - destruct (cur_cases p L) as [[L1 V]|[_ X]]; [|rewrite X in C5; discriminate C5]. rewrite (check_ok input fuel Fu) by lia. cbn [obind]. unfold fragment_ok in Fo. destruct (fragment (p_url p)) as [f|] eqn:Ef; [|congruence].
    rewrite (enc_one input fuel Fu) by apply V. cbn [obind]. unfold stay. next. rewrite E. split; [exact Co|]. split; [exact Qo|]. split; [discriminate|]. apply Forall_app. split; [exact Fo|].
    apply pe_out; [apply keeps_fragment|constructor; [apply V|constructor]].
  - destruct (cur_cases p L) as [[L1 [_ V]]|[P X]]; [unfold EOF in C5; lia|]. unfold stay. apply fine_end; [pj; lia|]. split; [exact Co|]. split; [exact Qo|]. split; [exact Fo|]. intros _ _ Y. congruence.
Qed.

Lemma handle_fine p : Ok p -> fine (handle idna input base O fuel p).
Proof.
  intros K. pose proof K as (L & En & A). unfold about in A. destruct (p_state p) eqn:E; [..|]; try (unfold handle; rewrite E).
  - now apply scheme_start_fine.
  - now apply scheme_fine.
  - now apply no_scheme_fine.
  - now apply special_relative_fine.
  - now apply path_or_authority_fine.
  - now apply relative_fine.
  - now apply relative_slash_fine.
  - now apply special_slashes_fine.
  - now apply ignore_slashes_fine.
  - now apply authority_fine.
  - now apply host_fine.
  - destruct A.
  - now apply port_fine.
  - now apply file_fine.
  - now apply file_slash_fine.
  - now apply file_host_fine.
  - now apply path_start_fine.
  - pose proof (path_fine p E K) as H. unfold handle in H. rewrite E in H. exact H.
  - now apply cannot_fine.
  - now apply query_fine.
  - now apply fragment_fine.
Qed.

Lemma loop_sound k : forall p u, Ok p -> run_loop idna input base O fuel k p = Val (true, u) -> sound idna u.
Proof.
  induction k as [|k IH]; intros p u K H; [discriminate H|]. cbn [run_loop] in H. pose proof (handle_fine p K) as F. destruct (handle idna input base O fuel p) as [v| |]; try discriminate H. cbn [obind] in H.
  destruct v as [w|w|q]; try discriminate H. destruct F as [F1 F2]. destruct (p_pointer q <? size input) eqn:L.
  - apply (IH (move 1 q)); [apply F1; lia|exact H].
  - injection H as <-. apply F2. lia.
Qed.
End Sound.

(** * The parser *)

Lemma trimmed_last s : last (without_newlines (trim s)) 0 <> 0x20.
Proof.
  unfold trim. set (r := rev (drop_while is_c0_control_or_space s)).
  assert (H : drop_while is_c0_control_or_space r = [] \/ is_c0_control_or_space (hd 0 (drop_while is_c0_control_or_space r)) = false).
  { induction r as [|c r IH]; [now left|]. cbn [drop_while]. destruct (is_c0_control_or_space c) eqn:E; [exact IH|right; exact E]. }
  destruct H as [->|H]; [cbn; lia|]. destruct (drop_while is_c0_control_or_space r) as [|c t]; [cbn; lia|]. cbn [hd] in H. cbn [rev]. unfold without_newlines. rewrite filter_app. cbn [filter].
  replace (is_ascii_tab_or_newline c) with false by (symmetry; unfold is_ascii_tab_or_newline; unfold is_c0_control_or_space, is_c0_control in H; lia). cbn [negb]. rewrite last_last.
  unfold is_c0_control_or_space in H. lia.
Qed.

Lemma parsed_sound idna fuel steps s base u : idna_fine idna -> Forall scalar s -> enough s fuel steps -> match base with Some b => sound idna b | None => True end ->
  basic_parse idna fuel steps s base UTF_8 = Val (Some u) -> sound idna u.
Proof.
  intros Id S [En _] Ba H. unfold basic_parse in H. set (input := without_newlines (trim s)) in *. destruct (run_loop idna input base None fuel steps (start None UTF_8 empty_url)) as [[ok v]| |] eqn:R; try discriminate H.
  cbn [obind] in H. destruct ok; [|discriminate H]. injection H as <-. pose proof (cleaned_length s) as Le. fold input in Le.
  apply (loop_sound idna input base fuel Id) with (k := steps) (p := start None UTF_8 empty_url); try assumption.
  - unfold input. apply newlines_visible. apply Forall_forall. intros c C. rewrite Forall_forall in S. destruct (trim_middle s) as (a & b & E). apply S. rewrite E. apply in_or_app. right. apply in_or_app. now left.
  - apply trimmed_last.
  - lia.
  - split; [cbn; unfold size; lia|]. split; [reflexivity|]. split; reflexivity.
Qed.
