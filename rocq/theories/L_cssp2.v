(** Nesting by the standard and by the code, and the values written out again. *)
From Coq Require Import String.
From Coq Require Import ZArith List Bool Lia.
From Verif Require Import M_unicode M_infra M_percent M_encoding M_labels M_css M_cssp L_cssp.
Import ListNotations.
Open Scope list_scope.
Open Scope Z_scope.

(** * Closing tokens that match *)

(** No block meets a closing token that is not its own. [st]: what is open. *)
Fixpoint matched (st : list group) (t : list prim) : bool :=
  match t with
  | [] => true
  | p :: r =>
      match opens p with
      | Some g => matched (g :: st) r
      | None => match st with
                | [] => matched [] r
                | g :: st' => if ends_own g p then matched st' r else match g with GBlk _ => negb (closing p) | GFun _ => true end && matched st r
                end
      end
  end.

Lemma ends_closing g p : ends_own g p = true -> closing p = true.
Proof. unfold ends_own, own. destruct g as [o|n]; [destruct (o =? 0x7B); [|destruct (o =? 0x5B)]|]; destruct p as [[]| |]; cbn; congruence. Qed.
Lemma ends_fun n p : ends_any (GFun n) p = ends_own (GFun n) p.
Proof. destruct p as [[]| |]; reflexivity. Qed.
Lemma ends_own_opens g p : ends_own g p = true -> opens p = None.
Proof. intros H. apply ends_closing in H. destruct p as [[]| |]; try discriminate H; reflexivity. Qed.
Lemma ends_own_own g p : ends_own g p = true -> p = own g.
Proof. unfold ends_own. destruct (own g) as [[]| |]; destruct p as [[]| |]; congruence. Qed.
Lemma own_ends g : ends_own g (own g) = true.
Proof. unfold ends_own, own. destruct g as [o|n]; [destruct (o =? 0x7B); [|destruct (o =? 0x5B)]|]; reflexivity. Qed.
Lemma own_opens g : opens (own g) = None.
Proof. unfold own. destruct g as [o|n]; [destruct (o =? 0x7B); [|destruct (o =? 0x5B)]|]; reflexivity. Qed.

Lemma put_groups c x : map fst (snd (put c x)) = map fst (snd x).
Proof. destruct x as [top [|[g w] st]]; reflexivity. Qed.

Lemma matched_same t : forall top st, matched (map fst st) t = true -> nested ends_any (top, st) t = nested ends_own (top, st) t.
Proof.
  induction t as [|p t IH]; intros top st M; [reflexivity|]. rewrite !nested_cons. unfold nstep. cbn [matched] in M. destruct (opens p) as [g|] eqn:O; [now apply IH|].
  destruct st as [|[g w] st]; cbn [map fst] in M.
  - rewrite (surjective_pairing (put p (top, []))). apply IH. now rewrite put_groups.
  - destruct (ends_own g p) eqn:E.
    + replace (ends_any g p) with true by (destruct g; [symmetry; exact (ends_closing _ _ E)|symmetry; now rewrite ends_fun]).
      rewrite (surjective_pairing (put (made g w) (top, st))). apply IH. now rewrite put_groups.
    + apply andb_prop in M as [M1 M2]. replace (ends_any g p) with false by (destruct g; [cbn; now destruct (closing p)|symmetry; now rewrite ends_fun]).
      rewrite (surjective_pairing (put p (top, (g, w) :: st))). apply IH. rewrite put_groups. exact M2.
Qed.

(** ** What was read stays at its place *)

Fixpoint ext (top : list prim) (l : list (group * list prim)) (v : list prim) : Prop :=
  match l with [] => exists r, v = top ++ r | (g, w) :: l => exists w' r, v = top ++ made g w' :: r /\ ext w l w' end.
Lemma ext_drop x : forall l top v, ext top (l ++ [x]) v -> ext top l v.
Proof.
  induction l as [|[g w] l IH]; intros top v H; cbn [app ext] in *.
  - destruct x as [g w]. destruct H as (w' & r & -> & _). now exists (made g w' :: r).
  - destruct H as (w' & r & E & H). exists w', r. split; [exact E|]. now apply IH.
Qed.
Lemma ext_more g w c : forall l top v, ext top (l ++ [(g, w ++ [c])]) v -> ext top (l ++ [(g, w)]) v.
Proof.
  induction l as [|[g1 w1] l IH]; intros top v H; cbn [app ext] in *.
  - destruct H as (w' & r & E & r' & ->). exists ((w ++ [c]) ++ r'), r. split; [exact E|]. exists (c :: r'). now rewrite <- app_assoc.
  - destruct H as (w' & r & E & H). exists w', r. split; [exact E|]. now apply IH.
Qed.
Lemma ext_put c top st v : ext (fst (put c (top, st))) (rev (snd (put c (top, st)))) v -> ext top (rev st) v.
Proof. destruct st as [|[g w] st]; cbn [put fst snd rev]; [intros (r & ->); exists (c :: r); now rewrite <- app_assoc|apply ext_more]. Qed.
Lemma ext_close g w top st v : ext (fst (put (made g w) (top, st))) (rev (snd (put (made g w) (top, st)))) v -> ext top (rev st ++ [(g, w)]) v.
Proof.
  destruct st as [|[g1 w1] st]; cbn [put fst snd rev].
  - intros (r & ->). exists w, r. split; [now rewrite <- app_assoc|]. exists []. now rewrite app_nil_r.
  - rewrite <- app_assoc. cbn [app]. generalize (rev st). intros l. revert top v. induction l as [|[g2 w2] l IH]; intros top v H; cbn [app ext] in *.
    + destruct H as (w' & r & E & r' & ->). exists ((w1 ++ [made g w]) ++ r'), r. split; [exact E|]. exists w, r'. split; [now rewrite <- app_assoc|]. exists []. now rewrite app_nil_r.
    + destruct H as (w' & r & E & H). exists w', r. split; [exact E|]. now apply IH.
Qed.
Lemma ext_wrap st : forall top i l, (forall cur, ext cur l (cur ++ i)) -> ext top (rev st ++ l) (top ++ wrap st i).
Proof.
  induction st as [|[g w] st IH]; intros top i l H; [apply H|]. cbn [rev wrap]. rewrite <- app_assoc. apply IH. intros cur. cbn [app ext]. exists (w ++ i), []. split; [reflexivity|]. apply H.
Qed.
Lemma ext_nested e t : forall top st, ext top (rev st) (finish (nested e (top, st) t)).
Proof.
  induction t as [|p t IH]; intros top st.
  - unfold finish. cbn [nested fold_left fst snd]. rewrite <- (app_nil_r (rev st)). apply ext_wrap. intros cur. exists []. reflexivity.
  - rewrite nested_cons. unfold nstep. destruct (opens p) as [g|].
    + cbn [fst snd]. apply (ext_drop (g, [])). apply (IH top ((g, []) :: st)).
    + assert (P : ext top (rev st) (finish (nested e (put p (top, st)) t))) by (apply (ext_put p); rewrite (surjective_pairing (put p (top, st))) at 3; apply IH).
      destruct st as [|[g w] st]; [exact P|]. destruct (e g p); [|exact P].
      cbn [rev]. apply ext_close. rewrite (surjective_pairing (put (made g w) (top, st))) at 3. apply IH.
Qed.
Lemma made_inj g a b : made g a = made g b -> a = b.
Proof. destruct g; cbn; congruence. Qed.
Lemma app_eq_mid {A} (a : list A) x y r s : a ++ x :: r = a ++ y :: s -> x = y.
Proof. intros H. apply app_inv_head in H. congruence. Qed.
Lemma ext_clash g w p top st v : ext top (rev st ++ [(g, w ++ [p])]) v -> ext (fst (put (made g w) (top, st))) (rev (snd (put (made g w) (top, st)))) v -> False.
Proof.
  assert (Q : forall top w' r, ext (w ++ [p]) [] w' -> top ++ made g w' :: r = v -> forall r', v = (top ++ [made g w]) ++ r' -> False).
  { intros top' w' r (x & ->) E r' E'. rewrite <- app_assoc in E'. cbn [app] in E'. rewrite <- E in E'. apply app_eq_mid, made_inj in E'. apply (f_equal (@List.length prim)) in E'. rewrite !app_length in E'. cbn in E'. lia. }
  destruct st as [|[g1 w1] st]; cbn [put fst snd rev].
  - intros (w' & r & E & X) (r' & E'). exact (Q top w' r X (eq_sym E) r' E').
  - rewrite <- app_assoc. cbn [app]. clear Q. generalize (rev st). intros l. revert top v. induction l as [|[g2 w2] l IH]; intros top v A B; cbn [app ext] in *.
    + destruct A as (w' & r & E & w'' & r1 & E1 & r2 & E2), B as (w3 & r3 & E3 & r4 & E4). rewrite E in E3. apply app_eq_mid, made_inj in E3. subst w3. rewrite E1, <- app_assoc in E4. cbn [app] in E4. apply app_eq_mid, made_inj in E4. subst w''.
      apply (f_equal (@List.length prim)) in E4. rewrite !app_length in E4. cbn in E4. lia.
    + destruct A as (w' & r & E & A), B as (w3 & r3 & E3 & B). rewrite E in E3. apply app_eq_mid, made_inj in E3. subst w3. exact (IH w2 w' A B).
Qed.
Lemma not_matched t : forall top st, matched (map fst st) t = false -> finish (nested ends_any (top, st) t) <> finish (nested ends_own (top, st) t).
Proof.
  induction t as [|p t IH]; intros top st M; [discriminate M|]. rewrite !nested_cons. unfold nstep. cbn [matched] in M. destruct (opens p) as [g|] eqn:O; [now apply IH|].
  destruct st as [|[g w] st]; cbn [map fst] in M.
  - rewrite (surjective_pairing (put p (top, []))). apply IH. now rewrite put_groups.
  - destruct (ends_own g p) eqn:E.
    + replace (ends_any g p) with true by (destruct g; [symmetry; exact (ends_closing _ _ E)|symmetry; now rewrite ends_fun]).
      rewrite (surjective_pairing (put (made g w) (top, st))). apply IH. now rewrite put_groups.
    + destruct (ends_any g p) eqn:Ea.
      * intros H. assert (G : exists o, g = GBlk o) by (destruct g as [o|n]; [eauto|rewrite ends_fun in Ea; congruence]). destruct G as [o ->].
        pose proof (ext_nested ends_own t top ((GBlk o, w ++ [p]) :: st)) as A. pose proof (ext_nested ends_any t (fst (put (made (GBlk o) w) (top, st))) (snd (put (made (GBlk o) w) (top, st)))) as B.
        rewrite <- (surjective_pairing (put (made (GBlk o) w) (top, st))), H in B. cbn [rev] in A. exact (ext_clash _ _ _ _ _ _ A B).
      * rewrite (surjective_pairing (put p (top, (g, w) :: st))). apply IH. rewrite put_groups. cbn [snd map fst]. destruct g as [o|n]; [cbn in Ea; rewrite Ea in M; exact M|exact M].
Qed.
Lemma matched_iff t : nest ends_any t = nest ends_own t <-> matched [] t = true.
Proof.
  split; intros H.
  - destruct (matched [] t) eqn:M; [reflexivity|]. now destruct (not_matched t [] [] M).
  - unfold nest. now rewrite (matched_same t [] [] H).
Qed.

(** * Values written out *)

Definition opener (g : group) : prim :=
  match g with GFun n => Tok (Function n) | GBlk o => if o =? 0x7B then Tok OpenCurly else if o =? 0x5B then Tok OpenSquare else Tok OpenParen end.
Fixpoint flat_prim (p : prim) : list prim :=
  match p with
  | Tok _ => [p]
  | Fun n w => opener (GFun n) :: flat_map flat_prim w ++ [own (GFun n)]
  | Blk o w => opener (GBlk o) :: flat_map flat_prim w ++ [own (GBlk o)]
  end.
Definition flat (v : list prim) : list prim := flat_map flat_prim v.
(** The closing tokens that are missing at the end of the list. *)
Definition missing (t : list prim) : list prim := map (fun '(g, _) => own g) (snd (nested ends_own ([], []) t)).

Lemma flat_app a b : flat (a ++ b) = flat a ++ flat b.
Proof. unfold flat. now rewrite !flat_map_concat_map, map_app, concat_app. Qed.
Lemma flat_made g w : flat_prim (made g w) = opener g :: flat w ++ [own g].
Proof. destruct g; reflexivity. Qed.
Definition written (x : nesting) : list prim := flat (fst x) ++ flat_map (fun '(g, w) => opener g :: flat w) (rev (snd x)).
Lemma written_put c x : written (put c x) = written x ++ flat_prim c.
Proof.
  destruct x as [top [|[g w] st]]; unfold written; cbn [put fst snd rev].
  - rewrite flat_app. cbn [flat flat_map]. now rewrite !app_nil_r.
  - rewrite !flat_map_app. cbn [flat_map]. rewrite flat_app. cbn [flat flat_map]. rewrite !app_nil_r, <- !app_assoc. cbn [app]. reflexivity.
Qed.
Lemma written_step x p : (exists k, p = Tok k) -> written (nstep ends_own x p) = written x ++ [p].
Proof.
  intros [k ->]. unfold nstep. destruct (opens (Tok k)) as [g|] eqn:O.
  - destruct x as [top st]. unfold written. cbn [fst snd rev]. rewrite flat_map_app. cbn [flat_map flat]. rewrite app_assoc. f_equal. destruct k; try discriminate O; injection O as <-; reflexivity.
  - destruct x as [top [|[g w] st]]; [apply written_put|]. destruct (ends_own g (Tok k)) eqn:E; [|apply written_put].
    rewrite written_put, flat_made, (ends_own_own _ _ E). unfold written. cbn [fst snd rev]. rewrite flat_map_app. cbn [flat_map]. rewrite app_nil_r, <- !app_assoc. reflexivity.
Qed.
Lemma written_all t : Forall (fun p => exists k, p = Tok k) t -> forall x, written (nested ends_own x t) = written x ++ t.
Proof. induction 1 as [|p t H _ IH]; intros x; [cbn; now rewrite app_nil_r|]. rewrite nested_cons, IH, written_step by exact H. now rewrite <- app_assoc. Qed.
Lemma flat_finish st : forall top, flat (finish (top, st)) = written (top, st) ++ map (fun '(g, _) => own g) st.
Proof.
  assert (W : forall st i, flat (wrap st i) = flat_map (fun '(g, w) => opener g :: flat w) (rev st) ++ flat i ++ map (fun '(g, _) => own g) st).
  { clear. induction st as [|[g w] st IH]; intros i; cbn [wrap rev map]; [cbn; now rewrite app_nil_r|]. rewrite IH, flat_map_app. cbn [flat flat_map]. rewrite flat_made, flat_app, !app_nil_r, <- !app_assoc. cbn [app]. now rewrite <- !app_assoc. }
  intros top. unfold finish, written. cbn [fst snd]. rewrite flat_app, W. cbn [flat flat_map app]. now rewrite app_assoc.
Qed.
Lemma flat_nest t : Forall (fun p => exists k, p = Tok k) t -> flat (nest ends_own t) = t ++ missing t.
Proof. intros F. unfold nest, missing. destruct (nested ends_own ([], []) t) as [top st] eqn:E. pose proof (written_all t F ([], [])) as W. rewrite E in W. rewrite flat_finish, W. reflexivity. Qed.

Lemma nested_own n : forall st top, List.length st = n -> nested ends_own (top, st) (map (fun '(g, _) => own g) st) = (finish (top, st), []).
Proof.
  induction n as [|n IH]; intros [|[g w] st] top L; try discriminate L; [unfold finish; cbn [nested fold_left map fst snd wrap]; now rewrite app_nil_r|].
  cbn [map]. rewrite nested_cons. unfold nstep. rewrite own_opens, own_ends. injection L as L. destruct st as [|[g1 w1] st].
  - cbn [put map nested fold_left]. unfold finish. cbn [fst snd wrap]. now rewrite app_nil_r.
  - cbn [put]. change (map (fun '(g, _) => own g) ((g1, w1) :: st)) with (map (fun '(g, _) => own g) ((g1, w1 ++ [made g w]) :: st)). rewrite IH by exact L. unfold finish. cbn [fst snd wrap]. now rewrite !app_nil_r.
Qed.
Lemma nest_missing t : nested ends_own ([], []) (t ++ missing t) = (nest ends_own t, []).
Proof. unfold nest, missing. rewrite nested_app. destruct (nested ends_own ([], []) t) as [top st]. exact (nested_own _ st top eq_refl). Qed.

Lemma matched_app a : forall top st b, matched (map fst st) (a ++ b) = matched (map fst st) a && matched (map fst (snd (nested ends_own (top, st) a))) b.
Proof.
  induction a as [|p a IH]; intros top st b; [reflexivity|]. rewrite nested_cons. unfold nstep. cbn [app matched]. destruct (opens p) as [g|]; [exact (IH top ((g, []) :: st) b)|].
  assert (P : forall c st0, matched (map fst st0) (a ++ b) = matched (map fst st0) a && matched (map fst (snd (nested ends_own (put c (top, st0)) a))) b).
  { intros c st0. pose proof (IH (fst (put c (top, st0))) (snd (put c (top, st0))) b) as H. rewrite put_groups, <- surjective_pairing in H. exact H. }
  destruct st as [|[g w] st]; cbn [map fst].
  - exact (P p []).
  - destruct (ends_own g p); [exact (P (made g w) st)|]. rewrite <- andb_assoc. f_equal. exact (P p ((g, w) :: st)).
Qed.
Lemma matched_own (st : list (group * list prim)) : matched (map fst st) (map (fun '(g, _) => own g) st) = true.
Proof. induction st as [|[g w] st IH]; [reflexivity|]. cbn [map fst matched]. rewrite own_opens, own_ends. exact IH. Qed.
Lemma matched_missing t : matched [] t = true -> matched [] (t ++ missing t) = true.
Proof. intros M. change (@nil group) with (map fst (@nil (group * list prim))). rewrite (matched_app t [] []). cbn [map]. rewrite M. cbn [andb]. apply matched_own. Qed.
Lemma missing_closed t : matched [] t = true -> missing t = [] <-> still_open ends_any t = false.
Proof.
  intros M. unfold missing, still_open. rewrite (matched_same t [] [] M). destruct (snd _) as [|[g w] st]; cbn; split; congruence.
Qed.
Lemma no_eof_missing t : no_eof t -> no_eof (t ++ missing t).
Proof.
  intros N. apply Forall_app. split; [exact N|]. unfold missing. induction (snd _) as [|[g w] st IH]; constructor; [|exact IH]. destruct g as [o|n]; cbn; [destruct (o =? 0x7B); [|destruct (o =? 0x5B)]|]; discriminate.
Qed.

(** * Sheets one after another *)

Lemma nest_two a b : still_open ends_any a = false -> nest ends_any (a ++ b) = nest ends_any a ++ nest ends_any b.
Proof.
  unfold still_open, nest. intros O. rewrite nested_app. destruct (nested ends_any ([], []) a) as [top st]. cbn [snd] in O. destruct st; [|discriminate O].
  rewrite <- (app_nil_r top) at 1. rewrite nested_top. unfold finish. cbn [fst snd wrap]. now rewrite app_nil_r, <- app_assoc.
Qed.
Lemma rules_two r w : forall v pd, rules_of pd (v ++ Blk 0x7B w :: r) = rules_of pd (v ++ [Blk 0x7B w]) ++ rules_of None r.
Proof.
  induction v as [|c v IH]; intros pd.
  - destruct pd as [[]|]; reflexivity.
  - cbn [app]. destruct pd as [[n pre|pre]|]; destruct c as [[]|?|o u]; cbn [rules_of]; try apply IH; try (cbn [app]; f_equal; apply IH); destruct (o =? 0x7B); try apply IH; cbn [app]; f_equal; apply IH.
Qed.
(** Every block in braces is that of one rule. *)
Definition braces (c : prim) : list (list prim) := match c with Blk o w => if o =? 0x7B then [w] else [] | _ => [] end.
Definition block_in (n : node) : list (list prim) := match n with AtRule _ _ (Some (_, w)) => [w] | Rule _ (_, w) => [w] | _ => [] end.
Lemma rules_blocks v : forall pd, flat_map block_in (rules_of pd v) = flat_map braces v.
Proof.
  induction v as [|c v IH]; intros pd; [destruct pd as [[]|]; reflexivity|].
  destruct pd as [[n pre|pre]|]; destruct c as [[]|?|o u]; cbn [rules_of flat_map block_in braces]; try apply IH; try (cbn [app]; f_equal; apply IH); destruct (o =? 0x7B); cbn [flat_map block_in app]; try apply IH; f_equal; apply IH.
Qed.

(** * The text *)

Lemma tokenize_no_eof fuel : forall s ts, tokenize fuel s = Val ts -> no_eof (map Tok ts).
Proof.
  induction fuel as [|f IH]; intros s ts H; [discriminate H|]. cbn [tokenize] in H. destruct (consume_token s) as [[k r]|]; [|discriminate H].
  assert (D : k = Eof \/ k <> Eof) by (destruct k; try (now left); right; discriminate). destruct D as [-> | NE]; [injection H as <-; constructor|].
  assert (H' : match tokenize f r with Val ts => Val (k :: ts) | Bad => Bad | NoFuel => NoFuel end = Val ts) by (destruct k; try exact H; congruence). clear H.
  destruct (tokenize f r) as [ts'| |] eqn:E; try discriminate H'. injection H' as <-. cbn [map]. constructor; [congruence|exact (IH _ _ E)].
Qed.
