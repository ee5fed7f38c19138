(** Lemmas for M_url: the end of every run, names that are not numbers, and the query in another encoding. *)
From Coq Require Import String.
From Coq Require Import ZArith List Bool Lia.
From Verif Require Import M_unicode M_infra M_percent M_ip M_encoding M_labels M_url.
From Verif Require Import L_unicode L_infra L_enc_jp L_ip L_url L_url2 L_url3 L_url4 L_url5.
Import ListNotations.
Open Scope string_scope.
Open Scope list_scope.
Open Scope Z_scope.

Lemma drop_while_suffix f s : exists a, s = a ++ drop_while f s.
Proof.
  induction s as [|c s [a IH]]; [now exists []|]. cbn [drop_while]. destruct (f c); [|now exists []].
  exists (c :: a). cbn [app]. now rewrite <- IH.
Qed.
Lemma trim_middle s : exists a b, s = a ++ trim s ++ b.
Proof.
  unfold trim. destruct (drop_while_suffix is_c0_control_or_space s) as [a E]. set (t := drop_while is_c0_control_or_space s) in *.
  destruct (drop_while_suffix is_c0_control_or_space (rev t)) as [b E2]. exists a, (rev b).
  apply (f_equal (@rev Z)) in E2. rewrite rev_app_distr, rev_involutive in E2. now rewrite <- E2.
Qed.
Lemma cleaned_in s c : In c (without_newlines (trim s)) -> In c s.
Proof.
  intros H. apply filter_In in H as [H _]. destruct (trim_middle s) as (a & b & E). rewrite E. apply in_or_app. right. apply in_or_app. now left.
Qed.
Lemma cleaned_scalar s : Forall scalar s -> Forall scalar (without_newlines (trim s)).
Proof. rewrite !Forall_forall. intros F c I. apply F, cleaned_in, I. Qed.
Lemma cleaned_length s : (List.length (without_newlines (trim s)) <= List.length s)%nat.
Proof.
  pose proof (newlines_length (trim s)). destruct (trim_middle s) as (a & b & E). apply (f_equal (@List.length Z)) in E.
  rewrite !app_length in E. lia.
Qed.

Lemma parse_ends idna s base fuel steps : Forall scalar s ->
  (8 * List.length s + 8 < fuel)%nat -> (18 * (List.length s + 2) <= steps)%nat ->
  (exists r, basic_parse idna fuel steps s base UTF_8 = Val r) \/
  (trouble idna (without_newlines (trim s)) base None empty_url /\ basic_parse idna fuel steps s base UTF_8 = Bad).
Proof.
  intros S F St. unfold basic_parse. pose proof (cleaned_length s) as L.
  destruct (run_ends idna (without_newlines (trim s)) base None fuel empty_url (start None UTF_8 empty_url) steps) as [[[b u] T]|[T1 T]].
  - apply cleaned_scalar, S.
  - lia.
  - unfold steps_bound. lia.
  - apply start_parse.
  - left. rewrite T. eexists. reflexivity.
  - right. split; [exact T1|]. rewrite T. reflexivity.
Qed.

Lemma parse_ends_linear idna s base fuel steps : Forall scalar s ->
  (8 * List.length s + 8 < fuel)%nat -> (18 * (List.length s + 2) <= steps)%nat ->
  basic_parse idna fuel steps s base UTF_8 <> NoFuel.
Proof. intros S F St. destruct (parse_ends idna s base fuel steps S F St) as [[r ->]|[_ ->]]; discriminate. Qed.

Lemma modify_ends idna s u o fuel steps : Forall scalar s -> starts_from u o -> enough s fuel steps ->
  (exists v, modify idna fuel steps s u o = Val v) \/
  (trouble idna (without_newlines s) None (Some o) u /\ modify idna fuel steps s u o = Bad).
Proof.
  intros S O [F St]. unfold modify. pose proof (newlines_length s) as L.
  destruct (run_ends idna (without_newlines s) None (Some o) fuel u (start (Some o) UTF_8 u) steps) as [[[b v] T]|[T1 T]].
  - apply newlines_scalar, S.
  - lia.
  - unfold steps_bound. lia.
  - apply start_modify, O.
  - left. rewrite T. eexists. reflexivity.
  - right. split; [exact T1|]. rewrite T. reflexivity.
Qed.

Lemma modify_ends_linear idna s u o fuel steps : Forall scalar s -> In o [SchemeStart; Host; Hostname; Port; PathStart; Query; Fragment] ->
  (o = Query -> query u <> None) -> (o = Fragment -> fragment u <> None) ->
  (8 * List.length s + 8 < fuel)%nat -> (18 * (List.length s + 2) <= steps)%nat ->
  modify idna fuel steps s u o <> NoFuel.
Proof.
  intros S O Q R F St. destruct (modify_ends idna s u o fuel steps S) as [[v ->]|[_ ->]]; try discriminate; [|split; assumption].
  cbn [In] in O. unfold starts_from. intuition subst; auto.
Qed.

(** * Names that the IPv4 parser leaves alone *)

(** The text starts neither with a digit nor with a full stop. *)
Definition name_like (a : list Z) : Prop :=
  Forall (fun c => 0 <= c < 2 ^ 32) a /\ match a with [] => False | c :: _ => c <> 0x2E /\ ~ (0x30 <= c <= 0x39) end.

Lemma Forall_unjoin (P : Z -> Prop) d l : Forall P (join d l) -> Forall (Forall P) l.
Proof.
  induction l as [|w l IH]; [constructor|]. destruct l as [|x l]; [intros H; constructor; [exact H|constructor]|].
  change (join d (w :: x :: l)) with (w ++ d :: join d (x :: l)). intros H. apply Forall_app in H as [H1 H2]. inversion H2; subst.
  constructor; [exact H1|]. apply IH. assumption.
Qed.

Lemma ipv4_name a e : name_like a -> parse_ipv4 a e = Some (HOpaque a, e).
Proof.
  intros [R N]. destruct a as [|c r]; [destruct N|]. destruct N as [Nd Nn].
  destruct (split_exists 0x2E (c :: r)) as (l & L1 & L2 & L3).
  unfold parse_ipv4. rewrite <- L3. rewrite split_u32; [|lia|exact L1| |exact L2].
  2: { apply (Forall_unjoin _ 0x2E). rewrite L3. exact R. }
  destruct l as [|w l]; [congruence|]. destruct w as [|x w].
  { exfalso. destruct l as [|y l]; [discriminate L3|]. change (join 0x2E ([] :: y :: l)) with (0x2E :: join 0x2E (y :: l)) in L3. congruence. }
  assert (x = c) as ->. { destruct l; cbn in L3; congruence. }
  assert (Num : forall r' ve ns, ipv4_numbers ((c :: w) :: r') ve ns = Some None).
  { intros. cbn [ipv4_numbers]. rewrite (number_reject_decimal c w c); auto; [lia|now left]. }
  assert (T : forall ps ve, (exists r', ps = (c :: w) :: r') ->
    (if (4 <? List.length ps)%nat then Some (HOpaque (join 0x2E ((c :: w) :: l)), e) else
      match ipv4_numbers ps ve [] with
      | None => None | Some None => Some (HOpaque (join 0x2E ((c :: w) :: l)), e)
      | Some (Some (numbers, ve)) =>
            let e := if ve then EcValidation else e in
            let e := if existsb (fun n => 255 <? n) numbers then EcValidation else e in
            match rev numbers with
            | [] => None
            | lastn :: revinit =>
                let init := rev revinit in
                if existsb (fun n => 255 <? n) init then Some (HNone, e)
                else if 256 ^ (5 - Z.of_nat (List.length numbers)) <=? lastn then Some (HNone, EcValidation)
                else Some (HIpv4 (ipv4_sum init 0 lastn), e)
            end
      end) = Some (HOpaque (join 0x2E ((c :: w) :: l)), e)).
  { intros ps ve [r' ->]. destruct (_ <? _)%nat; [reflexivity|]. rewrite Num. reflexivity. }
  destruct (rev ((c :: w) :: l)) as [|z zs] eqn:Rv.
  { apply T. now exists l. }
  destruct z as [|z0 z]; [|apply T; now exists l].
  destruct zs as [|z1 zs]; [apply T; now exists l|]. apply T.
  apply (f_equal (@rev (list Z))) in Rv. rewrite rev_involutive in Rv. cbn [rev] in Rv |- *.
  destruct (rev zs) as [|h t]; cbn in Rv |- *; injection Rv as <- _; now eexists.
Qed.

Lemma parse_defined idna s base fuel steps : Forall scalar s ->
  (8 * List.length s + 8 < fuel)%nat -> (18 * (List.length s + 2) <= steps)%nat ->
  ~ In 0x5B s -> (forall x a, idna x = Some a -> name_like a) ->
  exists r, basic_parse idna fuel steps s base UTF_8 = Val r.
Proof.
  intros S F St B I. destruct (parse_ends idna s base fuel steps S F St) as [H|[T _]]; [exact H|exfalso].
  assert (B' : ~ In 0x5B (without_newlines (trim s))) by (intros H; exact (B (cleaned_in _ _ H))).
  destruct T as [(x & a & E & P)|[(t & Pc & P)|[(Fp & [T|(x & a & n & e & E & P)])|(O & _)]]].
  - rewrite (ipv4_name a EcNone (I x a E)) in P. discriminate P.
  - apply B'. destruct Pc as [(y & z & ->)|(O & _)]; [|congruence]. apply in_or_app. right. now left.
  - exact (B' T).
  - rewrite (ipv4_name a EcNone (I x a E)) in P. discriminate P.
  - discriminate O.
Qed.

(** * The query in another encoding *)

(** The ISO-2022-JP encoder puts the code point that it cannot encode back: it never gets past it. *)
Lemma jp_stuck set fuel : pe_after_encoding fuel ISO_2022_JP [0xE9] set = NoFuel.
Proof.
  unfold pe_after_encoding. cbn [get_encoding_encoder]. destruct fuel as [|f]; [reflexivity|]. cbn [pe_loop]. unfold encode_or_fail.
  change (to_queue [0xE9]) with [Item 0xE9 false; end_of_queue].
  rewrite (jp_loop 0xE9); [reflexivity|lia|unfold jp_yen; lia|vm_compute; reflexivity|vm_compute; reflexivity].
Qed.

Definition plain_base : url := Url (lit "http") [] [] (Some (HDomain (lit "a"))) None [[]] None None false.

Lemma jp_parse_stuck idna fuel steps : basic_parse idna fuel steps [0x3F; 0xE9] (Some plain_base) ISO_2022_JP = NoFuel.
Proof.
  unfold basic_parse. change (without_newlines (trim [0x3F; 0xE9])) with [0x3F; 0xE9].
  assert (E : run_loop idna [0x3F; 0xE9] (Some plain_base) None fuel steps (start None ISO_2022_JP empty_url) = NoFuel).
  { set (inp := [0x3F; 0xE9]). set (b := Some plain_base).
    assert (H1 : handle idna inp b None fuel (start None ISO_2022_JP empty_url) = Val (Go (P NoScheme [] false false false (-1) ISO_2022_JP empty_url))) by reflexivity.
    assert (H2 : handle idna inp b None fuel (P NoScheme [] false false false 0 ISO_2022_JP empty_url)
      = Val (Go (P Relative [] false false false (-1) ISO_2022_JP empty_url))) by (vm_compute; reflexivity).
    assert (H3 : handle idna inp b None fuel (P Relative [] false false false 0 ISO_2022_JP empty_url)
      = Val (Go (P Query [] false false false 0 ISO_2022_JP (set_query (Some []) plain_base)))) by (vm_compute; reflexivity).
    assert (H4 : handle idna inp b None fuel (P Query [] false false false 1 ISO_2022_JP (set_query (Some []) plain_base))
      = Val (Go (P Query [0xE9] false false false 1 ISO_2022_JP (set_query (Some []) plain_base)))) by (vm_compute; reflexivity).
    assert (H5 : handle idna inp b None fuel (P Query [0xE9] false false false 2 ISO_2022_JP (set_query (Some []) plain_base)) = NoFuel).
    { unfold handle. cbn [p_state]. replace (current inp _) with EOF by reflexivity. unfold on_query. cbn [p_enc p_url p_buffer].
      change (is_special (set_query (Some []) plain_base)) with true. cbn [negb orb].
      replace (eqs (scheme (set_query (Some []) plain_base)) (lit "ws")) with false by (vm_compute; reflexivity).
      replace (eqs (scheme (set_query (Some []) plain_base)) (lit "wss")) with false by (vm_compute; reflexivity).
      cbn [orb]. cbn [p_enc p_buffer]. rewrite jp_stuck. destruct (_ || _) eqn:T; [reflexivity|discriminate T]. }
    assert (St : forall p q, handle idna inp b None fuel p = Val (Go q) -> p_pointer q < 2 ->
       (forall n, run_loop idna inp b None fuel n (move 1 q) = NoFuel) -> forall n, run_loop idna inp b None fuel n p = NoFuel).
    { intros p q H L K [|n]; [reflexivity|]. cbn [run_loop]. rewrite H. cbn [obind]. change (size inp) with 2.
      replace (p_pointer q <? 2) with true by lia. apply K. }
    revert steps. apply (St _ _ H1); [cbn; lia|]. apply (St _ _ H2); [cbn; lia|]. apply (St _ _ H3); [cbn; lia|]. apply (St _ _ H4); [cbn; lia|].
    intros [|n]; [reflexivity|]. cbn [run_loop]. unfold move, s_pointer. cbn [p_state p_buffer p_at p_brackets p_token p_pointer p_enc p_url].
    change (1 + 1) with 2. rewrite H5. reflexivity. }
  rewrite E. reflexivity.
Qed.

(** * The setters, field by field *)

Definition clean_ (sign : Z) (s : list Z) : list Z :=
  filter (fun c => negb ((c =? 0x9) || (c =? 0xA) || (c =? 0xD))) (match s with c :: r => if c =? sign then r else s | [] => [] end).
Definition shown_ (sign : Z) (s : list Z) : list Z := match s with [] => [] | _ => sign :: s end.
Lemma clean_newlines sign c r : without_newlines (if c =? sign then r else c :: r) = clean_ sign (c :: r).
Proof. unfold clean_, without_newlines. apply filter_ext. intros x. unfold is_ascii_tab_or_newline. reflexivity. Qed.

Lemma hash_set_get idna fuel steps u s : Forall scalar s -> (8 * List.length s + 8 < fuel)%nat -> (18 * (List.length s + 2) <= steps)%nat ->
  exists v, set_hash idna fuel steps u s = Val v /\
    scheme v = scheme u /\ username v = username u /\ password v = password u /\ uhost v = uhost u /\ port v = port u /\
    path v = path u /\ query v = query u /\ cannot_be_base v = cannot_be_base u /\
    fragment v = (match s with [] => None | _ => Some (pe is_fragment_percent_encode_set (clean_ 0x23 s)) end) /\
    get_hash v = shown_ 0x23 (pe is_fragment_percent_encode_set (clean_ 0x23 s)).
Proof.
  intros S F St. eexists. split; [apply set_hash_spec; [exact S|split; assumption]|]. do 8 (split; [reflexivity|]).
  destruct s as [|c r]; [split; reflexivity|]. rewrite clean_newlines. split; [reflexivity|]. unfold get_hash. cbn [fragment set_fragment].
  destruct (pe _ _); reflexivity.
Qed.

Lemma search_set_get idna fuel steps u s : Forall scalar s -> (8 * List.length s + 8 < fuel)%nat -> (18 * (List.length s + 2) <= steps)%nat ->
  let set := if existsb (fun x => if list_eq_dec Z.eq_dec x (scheme u) then true else false) [lit "ftp"; lit "file"; lit "http"; lit "https"; lit "ws"; lit "wss"]
             then is_special_query_percent_encode_set else is_query_percent_encode_set in
  exists v, set_search idna fuel steps u s = Val v /\
    scheme v = scheme u /\ username v = username u /\ password v = password u /\ uhost v = uhost u /\ port v = port u /\
    path v = path u /\ fragment v = fragment u /\ cannot_be_base v = cannot_be_base u /\
    query v = (match s with [] => None | _ => Some (pe set (clean_ 0x3F s)) end) /\
    get_search v = shown_ 0x3F (pe set (clean_ 0x3F s)).
Proof.
  intros S F St set. assert (Q : query_set u = set).
  { unfold query_set, set, is_special. replace (is_special_scheme (scheme u)) with
      (existsb (fun x => if list_eq_dec Z.eq_dec x (scheme u) then true else false) [lit "ftp"; lit "file"; lit "http"; lit "https"; lit "ws"; lit "wss"]); [reflexivity|].
    assert (Sy : forall a b, (if list_eq_dec Z.eq_dec a b then true else false) = eqs b a).
    { intros. unfold eqs. destruct (list_eq_dec Z.eq_dec a b), (list_eq_dec Z.eq_dec b a); congruence. }
    unfold is_special_scheme. cbn [existsb]. rewrite !Sy. now rewrite orb_false_r, !orb_assoc. }
  clearbody set. subst set.
  eexists. split; [apply set_search_spec; [exact S|split; assumption]|]. do 8 (split; [reflexivity|]).
  destruct s as [|c r]; [split; reflexivity|]. rewrite clean_newlines. split; [reflexivity|]. unfold get_search. cbn [query set_query].
  destruct (pe _ _); reflexivity.
Qed.

Definition may_have (u : url) : Prop :=
  cannot_be_base u = false /\ scheme u <> lit "file" /\ exists a, a <> [] /\ (uhost u = Some (HDomain a) \/ uhost u = Some (HOpaque a)).
Lemma may_have_false u : may_have u -> cannot_have_username_or_password_or_port u = Some false.
Proof.
  intros (C & F & a & A & H). unfold cannot_have_username_or_password_or_port, host_equals.
  assert (E : eqs (scheme u) (lit "file") = false) by (unfold eqs; destruct (list_eq_dec _ _ _); [contradiction|reflexivity]).
  assert (E2 : eqs a [] = false) by (unfold eqs; destruct (list_eq_dec _ _ _); [contradiction|reflexivity]).
  destruct H as [-> | ->]; rewrite ?E2, ?C, ?E; reflexivity.
Qed.

Lemma username_set_get fuel u s : Forall scalar s -> (List.length s < fuel)%nat -> may_have u ->
  exists v, set_username fuel u s = Val v /\ username v = pe is_userinfo_percent_encode_set s /\
    scheme v = scheme u /\ password v = password u /\ uhost v = uhost u /\ port v = port u /\
    path v = path u /\ query v = query u /\ fragment v = fragment u /\ cannot_be_base v = cannot_be_base u.
Proof. intros S F M. eexists. rewrite set_username_spec by assumption. rewrite (may_have_false u M). repeat split. Qed.
Lemma password_set_get fuel u s : Forall scalar s -> (List.length s < fuel)%nat -> may_have u ->
  exists v, set_password fuel u s = Val v /\ password v = pe is_userinfo_percent_encode_set s /\
    scheme v = scheme u /\ username v = username u /\ uhost v = uhost u /\ port v = port u /\
    path v = path u /\ query v = query u /\ fragment v = fragment u /\ cannot_be_base v = cannot_be_base u.
Proof. intros S F M. eexists. rewrite set_password_spec by assumption. rewrite (may_have_false u M). repeat split. Qed.

Lemma pathname_set_get idna fuel steps u s : Forall scalar s -> (8 * List.length s + 8 < fuel)%nat -> (18 * (List.length s + 2) <= steps)%nat ->
  exists v, set_pathname idna fuel steps u s = Val v /\
    scheme v = scheme u /\ username v = username u /\ password v = password u /\ uhost v = uhost u /\ port v = port u /\
    query v = query u /\ fragment v = fragment u /\ cannot_be_base v = cannot_be_base u /\
    path v = if cannot_be_base u then path u else set_path_value u (clean_ 0xA s).
Proof.
  intros S F St. assert (E : without_newlines s = clean_ 0xA s).
  { destruct s as [|c r]; [reflexivity|]. rewrite <- clean_newlines. destruct (Z.eqb_spec c 0xA) as [->|N]; reflexivity. }
  eexists. split; [apply set_pathname_spec; [exact S|split; assumption]|]. rewrite E. destruct (cannot_be_base u) eqn:C; repeat split; assumption.
Qed.

Lemma credentials_kept fuel u s : (uhost u = None \/ uhost u = Some (HDomain []) \/ uhost u = Some (HOpaque [])) ->
  set_username fuel u s = Val u /\ set_password fuel u s = Val u.
Proof.
  intros H. assert (E : cannot_have_username_or_password_or_port u = Some true).
  { unfold cannot_have_username_or_password_or_port. destruct H as [->|[->| ->]]; reflexivity. }
  unfold set_username, set_password. rewrite E. split; reflexivity.
Qed.

(** * Ports *)

Definition usual (s : list Z) (n : Z) : Prop :=
  (s = lit "ftp" /\ n = 21) \/ (s = lit "http" /\ n = 80) \/ (s = lit "https" /\ n = 443) \/ (s = lit "ws" /\ n = 80) \/ (s = lit "wss" /\ n = 443).
Lemma kept_port_usual u n : (usual (scheme u) n /\ kept_port u n = None) \/ (~ usual (scheme u) n /\ kept_port u n = Some n).
Proof.
  assert (D : forall x, default_port x = None -> ~ usual x n).
  { intros x H G. unfold usual in G. destruct G as [[-> _]|[[-> _]|[[-> _]|[[-> _]|[-> _]]]]]; vm_compute in H; discriminate H. }
  assert (D2 : forall x d, default_port x = Some d -> usual x d).
  { intros x d. unfold default_port, eqs, usual.
    repeat match goal with |- context[if list_eq_dec Z.eq_dec ?a ?b then _ else _] => destruct (list_eq_dec Z.eq_dec a b) end;
    intros H; try discriminate H; injection H as <-; tauto. }
  assert (D3 : forall x d m, usual x d -> usual x m -> d = m).
  { intros x d m H1 H2. unfold usual in *. destruct H1 as [[-> ->]|[[-> ->]|[[-> ->]|[[-> ->]|[-> ->]]]]];
    destruct H2 as [[E ->]|[[E ->]|[[E ->]|[[E ->]|[E ->]]]]]; try reflexivity; vm_compute in E; discriminate E. }
  unfold kept_port. specialize (D (scheme u)). specialize (D2 (scheme u)). destruct (default_port (scheme u)) as [d|]; [|right; auto].
  specialize (D2 d eq_refl). destruct (Z.eqb_spec n d) as [->|N]; [left; auto|right; split; [|reflexivity]].
  intros G. apply N. exact (D3 _ _ _ G D2).
Qed.

Lemma port_set idna fuel steps u d r : digits d -> d <> [] ->
  Forall scalar r -> Forall (fun c => c <> 0x9 /\ c <> 0xA /\ c <> 0xD) r -> match r with [] => True | c :: _ => ~ (0x30 <= c <= 0x39) end -> may_have u ->
  (8 * List.length (d ++ r) + 8 < fuel)%nat -> (18 * (List.length (d ++ r) + 2) <= steps)%nat ->
  set_port_ idna fuel steps u (d ++ r) = Val (if (5 <? zlen d) || (0xFFFF <=? decimal d) then u else set_port (kept_port u (decimal d)) u).
Proof.
  intros D N S W H M F St. unfold set_port_. rewrite (may_have_false u M). cbn [of_option obind].
  assert (Sd : Forall scalar d). { unfold digits in D. revert D. apply Forall_impl. intros c Hc. unfold scalar. lia. }
  assert (E : without_newlines (d ++ r) = d ++ r).
  { assert (Wd : Forall (fun c => c <> 0x9 /\ c <> 0xA /\ c <> 0xD) (d ++ r)).
    { apply Forall_app. split; [|exact W]. unfold digits in D. revert D. apply Forall_impl. intros c Hc. lia. }
    revert Wd. generalize (d ++ r). clear. induction l as [|c l IH]; intros Wd; [reflexivity|]. inversion Wd as [|x y [W1 [W2 W3]] W4]; subst.
    unfold without_newlines. cbn [filter]. replace (is_ascii_tab_or_newline c) with false by (unfold is_ascii_tab_or_newline; lia). cbn [negb].
    f_equal. apply IH, W4. }
  destruct (d ++ r) as [|c0 r0] eqn:A; [destruct d; [congruence|discriminate A]|]. rewrite <- A in *.
  destruct d as [|d0 d1]; [congruence|].
  apply (modify_runs idna fuel steps ((d0 :: d1) ++ r) u Port false); [apply Forall_app; auto|split; assumption|exact I|]. rewrite E.
  apply run_port_over with (h := r) (d := d0 :: d1); auto. lia.
Qed.

Lemma port_accepted idna fuel steps u d r : digits d -> d <> [] -> (List.length d <= 5)%nat -> decimal d < 65535 ->
  Forall scalar r -> Forall (fun c => c <> 0x9 /\ c <> 0xA /\ c <> 0xD) r -> match r with [] => True | c :: _ => ~ (0x30 <= c <= 0x39) end -> may_have u ->
  (8 * List.length (d ++ r) + 8 < fuel)%nat -> (18 * (List.length (d ++ r) + 2) <= steps)%nat ->
  exists v, set_port_ idna fuel steps u (d ++ r) = Val v /\
    ((usual (scheme u) (decimal d) /\ port v = None) \/ (~ usual (scheme u) (decimal d) /\ port v = Some (decimal d))).
Proof.
  intros D N L V S W H M F St. rewrite (port_set idna fuel steps u d r D N S W H M F St). unfold zlen.
  replace (_ || _) with false by lia. eexists. split; [reflexivity|]. exact (kept_port_usual u (decimal d)).
Qed.
Lemma port_rejected idna fuel steps u d r : digits d -> d <> [] -> (5 < List.length d)%nat \/ 65535 <= decimal d ->
  Forall scalar r -> Forall (fun c => c <> 0x9 /\ c <> 0xA /\ c <> 0xD) r -> match r with [] => True | c :: _ => ~ (0x30 <= c <= 0x39) end -> may_have u ->
  (8 * List.length (d ++ r) + 8 < fuel)%nat -> (18 * (List.length (d ++ r) + 2) <= steps)%nat ->
  set_port_ idna fuel steps u (d ++ r) = Val u.
Proof.
  intros D N V S W H M F St. rewrite (port_set idna fuel steps u d r D N S W H M F St). unfold zlen.
  replace (_ || _) with true by lia. reflexivity.
Qed.
