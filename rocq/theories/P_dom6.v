(** Property C122, and C117 for every state that tree construction reaches. *)
From Coq Require Import ZArith List Bool String Lia.
From Verif Require Import M_infra M_encoding M_labels M_html M_html_ncr M_html_serialize M_dom_names M_dom M_dom2 L_dom L_dom2.
From Verif Require Import L_dom30 L_dom31 L_dom35 L_dom36 L_dom37 L_dom38 L_dom43 L_dom44 P_dom P_dom4.
Import ListNotations.
Open Scope Z_scope.
Open Scope list_scope.

(** C122: whatever the tokens, no element is on the stack of open elements twice, none is in the list of active formatting
    elements twice, and all of them are nodes of the tree. *)
Theorem C122_once : forall listed fuel fragment l s, construct listed fuel (st_init fragment) l = Val s ->
  NoDup (map en_node (s_stack s)) /\
  (forall i, (List.length (filter (node_is i) (s_active s)) <= 1)%nat) /\
  (forall e, In e (s_stack s) -> (en_node e < List.length (s_dom s))%nat) /\
  (forall e, In (Some e) (s_active s) -> (en_node e < List.length (s_dom s))%nat).
Proof.
  intros listed fuel fragment l s H. apply built_apart in H. destruct H as (H1 & H2 & H3 & H4). split; [exact H1|]. split; [exact H2|].
  split; [now apply Forall_forall|]. unfold below in H4. rewrite Forall_forall in H4. intros e E. exact (H4 _ E).
Qed.
Print Assumptions C122_once.

(** C117: the adoption agency algorithm as a whole, steps 2 to 21 of 13.2.6.4.7 as [Agency] and [Round] (L_dom43.v) write them
    out, in every state that tree construction reaches with only elements of HTML open. *)
Theorem C117_reached_partial : forall listed fuel fragment l s t s' b, construct listed fuel (st_init fragment) l = Val s -> plain_stack s ->
  agency t s = Val (s', b) ->
  if holds (Current [t]) s && match s_stack s with e :: _ => negb (existsb (node_is (en_node e)) (s_active s)) | [] => false end
  then s' = set_stack (tl (s_stack s)) s /\ b = false else Agency t 8 s s' b.
Proof.
  intros listed fuel fragment l s t s' b H P A. apply built_apart in H. destruct H as (H1 & H2 & H3 & H4).
  destruct (agency_full true t s s' b (MkFit true _ _ _ (fun _ => P) H1 H2 H3 H4) A) as (_ & _ & K). exact (K eq_refl).
Qed.
Print Assumptions C117_reached_partial.

(** b, i, a paragraph and a character in it, then the end tag of b: the paragraph is the furthest block *)
Definition start (n : string) : token := TStart (Tag (lit n) false []).
Definition in_block : st := match construct none 30 (st_init false) [start "b"; start "i"; start "p"; TChar 0x61] with Val s => s | _ => st_init false end.
Example C122_once_ex : construct none 30 (st_init false) [start "b"; start "i"; start "p"; TChar 0x61] = Val in_block /\
  List.length (s_stack in_block) = 5%nat /\ List.length (s_active in_block) = 2%nat.
Proof. vm_compute. split; [reflexivity|]. split; reflexivity. Qed.
Example C117_reached_ex : construct none 30 (st_init false) [start "b"; start "i"; start "p"; TChar 0x61] = Val in_block /\ plain_stack in_block /\
  (exists e, In e (newer 5 in_block) /\ special in_block e = true) /\ formatting_element T_b in_block = Some 5%nat /\
  exists s', agency T_b in_block = Val (s', false) /\ map (fun e => name_of (s_dom s') (en_node e)) (s_stack s') = [T_p; T_i; T_body; T_html].
Proof.
  split; [vm_compute; reflexivity|]. split; [unfold plain_stack; vm_compute; repeat constructor|]. split; [|split; [vm_compute; reflexivity|]].
  - assert (Z : find (special in_block) (newer 5 in_block) <> None) by (vm_compute; discriminate).
    destruct (find (special in_block) (newer 5 in_block)) as [e|] eqn:F; [|contradiction]. apply find_some in F. now exists e.
  - eexists. split; vm_compute; reflexivity.
Qed.
