(** C113: stopping the simulator, for every number of nodes and every schedule of the threads. *)
From Verif Require Import Base StopModel StopSpec StopProofs.
Open Scope nat_scope.

(** ** Full statement: stop(), called at any time after the threads have been started, returns, and then no thread is left.
    It is false in two ways (below); it holds when the nodes are up and no node's thread overtakes the main thread. *)

(** Whenever stop returns, the threads of all nodes have ended: for any schedule before the call (whatever the nodes have
    got round to, [pre]) and after it. *)
Theorem C113_returned : forall n pre l,
  let ns := s_nodes (run (mkSys (repeat nd_new n) (MErr EAttr)) pre) in
  s_main (run (stop_call ns) l) = MRun n M0 -> stopped (run (stop_call ns) l).
Proof. intros n pre l; exact (returned pre l n). Qed.
Print Assumptions C113_returned.

(** If the nodes are up and no thread overtakes, stop raises nothing. *)
Theorem C113_no_error_partial : forall ns l, Forall up ns -> calm (stop_call ns) l -> forall e, s_main (run (stop_call ns) l) <> MErr e.
Proof. intros ns l U C e M; destruct (stop_safe ns l U C) as (i & p & M'); congruence. Qed.
Print Assumptions C113_no_error_partial.

(** ... and it ends: after 14 rounds per node, in each of which every thread has had a turn, stop has returned and no
    thread is left, whatever the order within the rounds, whatever packets arrive, whichever threads an exception ends. *)
Theorem C113_ends_partial : forall ns ls, Forall up ns -> calm (stop_call ns) (concat ls) ->
  Forall (round (List.length ns)) ls -> 14 * List.length ns <= List.length ls -> stopped (run (stop_call ns) (concat ls)).
Proof. exact stop_ends. Qed.
Print Assumptions C113_ends_partial.

(** False in general: (1) stop is called before the threads have got anywhere.  AttributeError, and, however long one waits,
    no thread of any node ends unless an exception ends it. *)
Theorem C113_early_refuted : exists n, forall l k, Forall quiet l -> k < n ->
  s_main (run (stop_call (repeat nd_new n)) (AMain :: l)) = MErr EAttr /\
  exists x, nth_error (s_nodes (run (stop_call (repeat nd_new n)) (AMain :: l))) k = Some x /\ alive x.
Proof. exists 3; intros l k Q L; exact (early 3 k l L Q). Qed.
Print Assumptions C113_early_refuted.

(** (2) The nodes are up, but the first node's thread ends, deleting __t, between two statements of shutdown: AttributeError,
    and the second node is never stopped. *)
Definition a_node : nd := mkNd RWait ASet ASet false EGet false.
Lemma a_up : Forall up [a_node; a_node].
Proof. assert (U : up a_node) by (repeat split; auto; discriminate); exact (Forall_cons _ U (Forall_cons _ U (Forall_nil _))). Qed.
Definition fast : list act :=
  [AMain; AMain; AEm 0 false; AEm 0 false; ANode 0 Nothing; ANode 0 Nothing; ANode 0 Nothing; AMain].
Theorem C113_overtaken_refuted : exists ns l, Forall up ns /\ forall l2, Forall quiet l2 ->
  s_main (run (stop_call ns) (l ++ l2)) = MErr EAttr /\
  exists x, nth_error (s_nodes (run (stop_call ns) (l ++ l2))) 1 = Some x /\ alive x.
Proof.
  exists [a_node; a_node], fast; split.
  - exact a_up.
  - intros l2 Q; rewrite run_app; destruct (stuck_run l2 (run (stop_call [a_node; a_node]) fast) EAttr 1 eq_refl) as (A & x & B & C); [|exact Q|].
    + exists a_node; split; [reflexivity|]; repeat split; discriminate.
    + split; [exact A|]; exists x; split; [exact B|]; apply on_alive; exact C.
Qed.
Print Assumptions C113_overtaken_refuted.

(** (3) A second stop raises, whatever the schedule, once the first node's thread has run to its end. *)
Theorem C113_again_refuted : forall ns l x, Forall up ns -> nth_error (s_nodes (run (stop_call ns) l)) 0 = Some x -> n_pc x = ROver ->
  forall l2, In AMain l2 -> s_main (run (stop_call (s_nodes (run (stop_call ns) l))) l2) = MErr EAttr.
Proof. exact again. Qed.
Print Assumptions C113_again_refuted.

(** Examples: two nodes, rounds in which the node threads go first or last; packets keep arriving; an emulator dies. *)
Definition r1 : list act := [ANode 0 Packet; ANode 1 Nothing; AMain; AEm 1 false; AEm 0 false].
Definition r2 : list act := [AEm 0 true; AMain; ANode 1 GiveUp; ANode 0 Packet; AEm 1 false].
Definition is_over (s : sys) (a : act) : bool :=
  match a, s_main s with
  | ANode i _, MRun j (M2 | M3) =>
      match nth_error (s_nodes s) i with Some x => andb (Nat.eqb i j) (match n_pc x with RDelT => true | _ => false end) | None => false end
  | _, _ => false
  end.
Lemma is_over_ok s a : is_over s a = false -> ~ overtakes s a.
Proof.
  unfold is_over; intros H (i & w & x & -> & M & N & P).
  destruct M as [M|M]; rewrite M, N, P, Nat.eqb_refl in H; discriminate.
Qed.
Fixpoint calmb (s : sys) (l : list act) : bool := match l with [] => true | a :: r => andb (negb (is_over s a)) (calmb (step s a) r) end.
Lemma calmb_ok l s : calmb s l = true -> calm s l.
Proof.
  revert s; induction l as [|a l IH]; intros s H; cbn [calmb calm] in *; [exact I|]; apply andb_prop in H; destruct H as (A & B).
  split; [apply is_over_ok; now destruct (is_over s a)|auto].
Qed.
Definition sched : list (list act) := repeat r1 10 ++ repeat r2 18.
Example C113_ex : Forall up [a_node; a_node] /\ calm (stop_call [a_node; a_node]) (concat sched) /\ Forall (round 2) sched /\ 14 * 2 <= List.length sched.
Proof.
  split; [|split; [|split]].
  - exact a_up.
  - apply calmb_ok; vm_compute; reflexivity.
  - assert (R : round 2 r1 /\ round 2 r2).
    { split; (split; [cbn; auto 6|]; intros i L; assert (E : i = 0 \/ i = 1) by (destruct i as [|[|i]]; auto; apply Nat.succ_lt_mono, Nat.succ_lt_mono in L; inversion L);
        destruct E as [->| ->]; split; eexists; cbn; eauto 8). }
    apply Forall_app; split; apply Forall_forall; intros y Y; apply repeat_spec in Y; subst; apply R.
  - vm_compute; apply le_n.
Qed.
Example C113_ex_stopped : stopped (run (stop_call [a_node; a_node]) (concat sched)).
Proof. destruct C113_ex as (A & B & C & D); exact (C113_ends_partial _ _ A B C D). Qed.
(** A schedule that brings a fresh node up. *)
Example C113_ex_up : s_nodes (run (mkSys [nd_new] (MErr EAttr)) [ANode 0 Packet; ANode 0 Packet; ANode 0 Packet; ANode 0 Packet; ANode 0 Packet; AEm 0 false]) = [a_node].
Proof. reflexivity. Qed.
(** stop during start-up: the emulator's thread has been made, not started. *)
Example C113_ex_join : s_main (run (stop_call [nd_new]) [ANode 0 Packet; ANode 0 Packet; ANode 0 Packet; AMain; AMain; AMain; AMain]) = MErr ERuntime.
Proof. reflexivity. Qed.
