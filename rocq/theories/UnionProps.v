(** Property C112: several topologies in one program. *)
From Verif Require Import BaseLemmas EthAddrModel TopoModel TopoSpec TopoNames TopoInv TopoMore TopoProps UnionModel UnionSpec UnionProofs UnionMore.
#[local] Open Scope string_scope.
#[local] Open Scope Z_scope.
#[local] Open Scope list_scope.

(** C112. A topology that takes part in no union behaves as if it were the only one, whatever is done with the others:
    it is what its own operations make of an empty one. *)
Theorem C112_alone : forall before name auto after, let n := List.length (w_tops (w_run world0 before)) in Forall (not_joined n) after ->
  look n (w_run world0 (before ++ WNew name auto :: after)) = Some (topo_run (topo_new name auto) (own n after)).
Proof. exact alone_new. Qed.
Print Assumptions C112_alone.
(** C112. When union succeeds there is a new topology, the union of what the arguments showed; otherwise there is none.
    Without renaming no topology changes, whether it succeeds or not. *)
Theorem C112_call_partial : forall l i j a b ren w r, let w0 := w_run world0 l in look i w0 = Some a -> look j w0 = Some b -> w_union ren i j w0 = (w, r) -> r <> Some EFuel ->
  (r = None -> exists t, union ren a b = Ok t /\ look (List.length (w_tops w0)) w = Some t) /\ (forall e, r = Some e -> union ren a b = Err e) /\
  (ren = false -> forall k, (k < List.length (w_tops w0))%nat -> look k w = look k w0).
Proof. intros l i j a b ren w r w0 LA LB U NF. assert (F : Wf w0) by (apply wf_run; constructor). destruct (look_some _ _ _ LA) as (x & X & SX). destruct (look_some _ _ _ LB) as (y & Y & SY).
  destruct (disjoint (w_ids x) (w_ids y)) eqn:D; [|unfold w_union in U; rewrite X, Y, D in U; injection U as <- <-; congruence].
  destruct (w_union_some ren i j w0 x y F X Y D) as (tops & r' & E & K). rewrite E in U. injection U as <- <-. subst a b. split; [|split].
  - intros R. destruct (un_res _ _ _ _ _ _ _ _ K R) as (t & T1 & T2 & _). exists t. split; [exact T1|exact T2].
  - apply (un_err _ _ _ _ _ _ _ _ K).
  - intros R k L. unfold look. cbn [w_heap w_tops]. destruct (nth_error (w_tops w0) k) as [z|] eqn:Z; [|apply nth_error_Some in L; congruence].
    destruct (un_old _ _ _ _ _ _ _ _ K k z Z) as (z' & Z1 & _ & _ & Z4). rewrite Z1. cbn [option_map]. rewrite (Z4 R). reflexivity. Qed.
Print Assumptions C112_call_partial.
(** C112. The union of two topologies has the nodes, addresses and links of both; it fails exactly when a name is in
    both. *)
Theorem C112_union : forall na aa os nb ab os' , let a := topo_run (topo_new na aa) os in let b := topo_run (topo_new nb ab) os' in
  fair_run false (topo_new na aa) os -> fair_run false (topo_new nb ab) os' ->
  ((exists n, In n (nodes a) /\ In n (nodes b)) <-> union false a b = Err EExc) /\
  ((forall n, In n (nodes a) -> ~ In n (nodes b)) <-> exists t, union false a b = Ok t) /\ (forall t, union false a b = Ok t -> joined a b t).
Proof. intros na aa os nb ab os' a b F G. split; [apply union_err|]. split; [apply union_ok|]. intros t. apply (union_joined false false); apply inv_run; auto; apply inv_new. Qed.
Print Assumptions C112_union.
(** C112. With renaming: it succeeds, with the nodes and links of both under their new names, when the two topologies
    have different names without an underscore (and no prefix makes a name clash inside a topology). *)
Theorem C112_rename_partial : forall na aa os nb ab os', let a := topo_run (topo_new na aa) os in let b := topo_run (topo_new nb ab) os' in
  fair_run false (topo_new na aa) os -> fair_run false (topo_new nb ab) os' -> no_clash (tp_name a) a -> no_clash (tp_name b) b ->
  has_us (tp_name a) = false -> has_us (tp_name b) = false -> tp_name a <> tp_name b ->
  exists a' b' t, union true a b = Ok t /\ renamed (tp_name a) a a' /\ renamed (tp_name b) b b' /\ joined a' b' t.
Proof. intros na aa os nb ab os' a b F G C1 C2 U1 U2 N. apply (union_renamed false false); auto; try (apply inv_run; auto; apply inv_new). intros x y _ _. apply rename_apart; assumption. Qed.
Print Assumptions C112_rename_partial.
(** Prefixing one topology: the same nodes and links under their new names. *)
Theorem C112_prefix_partial : forall name auto os p, let a := topo_run (topo_new name auto) os in fair_run false (topo_new name auto) os -> no_clash p a ->
  exists t, label_prefix (Some p) a = (t, None) /\ renamed p a t.
Proof. intros name auto os p a F C. destruct (relabel_renamed false p a (inv_run false os _ (inv_new false name auto) F) C) as (t & E & _ & R). exists t. split; [|exact R].
  unfold label_prefix. rewrite E. reflexivity. Qed.
Print Assumptions C112_prefix_partial.

(** C112 fails with renaming: an argument is changed. *)
Definition two : list w_act := [WNew "a" true; WOp 0 (TAdd Host (Some "x")); WNew "b" true; WOp 1 (TAdd Host (Some "x"))].
Theorem C112_argument_refuted : exists l w a a', w_union true 0 1 (w_run world0 l) = (w, None) /\ look 0 (w_run world0 l) = Some a /\ look 0 w = Some a' /\ nodes a' <> nodes a.
Proof. exists two. eexists _, _, _. split; [vm_compute; reflexivity|]. split; [vm_compute; reflexivity|]. split; [vm_compute; reflexivity|]. vm_compute. discriminate. Qed.
Print Assumptions C112_argument_refuted.
(** ... even when the union fails. *)
Theorem C112_failed_refuted : exists l w e a a', w_union true 0 1 (w_run world0 l) = (w, Some e) /\ e <> EFuel /\ look 0 (w_run world0 l) = Some a /\ look 0 w = Some a' /\ nodes a' <> nodes a.
Proof. exists [WNew "a" true; WOp 0 (TAdd Host (Some "x")); WNew "a" true; WOp 1 (TAdd Host (Some "x"))]. eexists _, _, _, _. split; [vm_compute; reflexivity|]. split; [discriminate|]. split; [vm_compute; reflexivity|].
  split; [vm_compute; reflexivity|]. vm_compute. discriminate. Qed.
Print Assumptions C112_failed_refuted.
(** C112 fails after a union: an operation on the new topology changes an argument (and the other way round), since the
    node objects are shared. *)
Definition linked : list w_act := [WNew "a" true; WOp 0 (TAdd Host (Some "x")); WOp 0 (TAdd Host (Some "y")); WOp 0 (TLink "x" "y" cap delay);
  WNew "b" true; WOp 1 (TAdd Host (Some "z")); WUnion false 0 1].
Theorem C112_shared_refuted : exists l o a a' n i, look 0 (w_run world0 l) = Some a /\ look 0 (w_run world0 (l ++ [WOp 2 o])) = Some a' /\ get_addresses n i a' <> get_addresses n i a.
Proof. exists linked, (TAddresses "x" "eth0" (Some (AStr (mac_text 77))) None). eexists _, _, "x", "eth0". split; [vm_compute; reflexivity|]. split; [vm_compute; reflexivity|]. vm_compute. discriminate. Qed.
Print Assumptions C112_shared_refuted.
Theorem C112_shared_back_refuted : exists l o t t' n i, look 2 (w_run world0 l) = Some t /\ look 2 (w_run world0 (l ++ [WOp 0 o])) = Some t' /\ get_addresses n i t' <> get_addresses n i t.
Proof. exists linked, (TAddresses "x" "eth0" (Some (AStr (mac_text 77))) None). eexists _, _, "x", "eth0". split; [vm_compute; reflexivity|]. split; [vm_compute; reflexivity|]. vm_compute. discriminate. Qed.
Print Assumptions C112_shared_back_refuted.
(** C112 fails for different topology names of which one has an underscore: renaming makes the names of nodes equal. *)
Theorem C112_rename_refuted : exists os os', let a := built "a" os in let b := built "a_b" os' in fair_run false (topo_new "a" true) os /\ fair_run false (topo_new "a_b" true) os' /\
  tp_name a <> tp_name b /\ union true a b = Err EExc.
Proof. exists [TAdd Host (Some "b_x")], [TAdd Host (Some "x")]. cbn zeta. split; [split; [|exact Logic.I]; unfold fair, reserved; intros H; repeat destruct H as [H|H]; discriminate H|].
  split; [split; [|exact Logic.I]; unfold fair, reserved; intros H; repeat destruct H as [H|H]; discriminate H|]. split; [discriminate|]. vm_compute. reflexivity. Qed.
Print Assumptions C112_rename_refuted.
(** C112 fails for a link from a node to itself: renaming raises. *)
Theorem C112_loop_refuted : exists os, fair_run false (topo_new "a" true) os /\ snd (label_prefix (Some "p") (built "a" os)) = Some EKey.
Proof. exists [TAdd Host None; TLink "h0" "h0" cap delay]. split; [cbn; tauto|]. vm_compute. reflexivity. Qed.
Print Assumptions C112_loop_refuted.

Example C112_alone_case : let after := [WNew "b" true; WOp 1 (TAdd Host (Some "h")); WOp 2 (TAdd Host None); WUnion true 0 2; WOp 3 (TPrefix (Some "p")); WOp 1 (TAdd Switch None);
    WOp 1 (TLink "h" "s0" cap delay); WOp 3 (TAddresses "p_a_h0" "eth0" None None)] in
  Forall (not_joined 1) after /\ List.length (w_tops (w_run world0 [WNew "a" true; WOp 0 (TAdd Host None)])) = 1%nat /\ own 1 after = [TAdd Host (Some "h"); TAdd Switch None; TLink "h" "s0" cap delay].
Proof. cbn zeta. split; [repeat (constructor; [cbn; auto; lia|]); constructor|]. split; vm_compute; reflexivity. Qed.
Example C112_call_case : exists w, w_union true 0 1 (w_run world0 two) = (w, None) /\ option_map nodes (look 2 w) = Some ["a_x"; "b_x"].
Proof. eexists. split; vm_compute; reflexivity. Qed.
Definition left_part : list topo_op := [TAdd Host None; TAdd Switch None; TLink "h0" "s0" cap delay].
Definition right_part : list topo_op := [TAdd Host None; TAdd Router None; TLink "r0" "h0" cap delay; TAssign None].
Example C112_rename_case : let a := built "a" left_part in let b := built "b" right_part in
  fair_run false (topo_new "a" true) left_part /\ fair_run false (topo_new "b" true) right_part /\ no_clash "a" a /\ no_clash "b" b /\
  (exists t, union true a b = Ok t /\ nodes t = ["a_h0"; "a_s0"; "b_h0"; "b_r0"] /\ links t = [("a_h0", "a_s0"); ("b_h0", "b_r0")]) /\ union false a b = Err EExc.
Proof. cbn zeta. split; [cbn; tauto|]. split; [cbn; tauto|].
  assert (HL : forall p t a0 b0 d, tp_edges t = [(a0, b0, d)] -> a0 <> b0 -> b0 <> rename p a0 -> a0 <> rename p b0 -> no_clash p t).
  { intros p t a0 b0 d E N1 N2 N3 u v H. unfold has_link in H. rewrite E in H. cbn [existsb] in H. rewrite orb_false_r in H. apply TopoProofs.joins_iff in H. destruct H as [[-> ->]|[-> ->]]; auto. }
  split; [eapply HL; [vm_compute; reflexivity|discriminate|discriminate|discriminate]|]. split; [eapply HL; [vm_compute; reflexivity|discriminate|discriminate|discriminate]|].
  split; [|vm_compute; reflexivity]. eexists. split; [vm_compute; reflexivity|]. split; vm_compute; reflexivity. Qed.
