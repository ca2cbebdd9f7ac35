(** Link emulation and simulated wires: properties C52 and C84. *)
From Coq Require Import QArith String Permutation.
From Verif Require Import Base BaseLemmas PacketModel LinkModel LinkSpec HeapProofs LinkProofs LinkSim.
#[local] Open Scope string_scope.
#[local] Open Scope list_scope.
#[local] Open Scope Q_scope.

(** Switchyard's packets, their length and their comparison. *)
#[local] Notation pitem := (item packet).
Definition pk (b : bytes) : packet := [HRaw b].
#[local] Notation run := (em_run (pk []) pkt_eqb).
#[local] Notation delivered := (outs (pk []) pkt_eqb).
#[local] Notation after := (final (pk []) pkt_eqb).

(** C52. Whatever is put into a link comes out at most once, and nothing else comes out; whatever has not come out is
    still held by the emulator (in its queue or heap). *)
Theorem C52_once : forall l, Permutation (puts l) (delivered l ++ em_heap (after l) ++ em_in (after l)).
Proof. exact (once (pk []) pkt_eqb). Qed.
(** Never before it is due. *)
Theorem C52_not_early : forall l t x, In (t, x) (snd (run em_new l)) -> it_due x <= t.
Proof. exact (not_early (pk []) pkt_eqb). Qed.
(** Of two entries, the one that was put first and is due first comes out first. *)
Theorem C52_order : forall l a x b y u v, NoDup (puts l) -> puts l = a ++ x :: b -> In y b -> it_due x < it_due y ->
  delivered l = u ++ y :: v -> In x u.
Proof. exact (in_order (pk []) pkt_eqb). Qed.
(** Each delivery is the earliest of the entries taken so far and not delivered (with repetitions). *)
Theorem C52_earliest : forall l u y v, delivered l = u ++ y :: v ->
  exists tk rest r, puts l = tk ++ r /\ Permutation tk (u ++ y :: rest) /\ forall z, In z rest -> it_due y <= it_due z.
Proof. exact (earliest (pk []) pkt_eqb). Qed.
(** As long as the thread runs, everything put is out after as many rounds of the loop as there were puts, once its time
    has come. *)
Theorem C52_prompt_partial : forall l n r b x, em_st (after l) = EmGet -> rounds n r b -> em_st (after (l ++ r)) = EmGet ->
  (List.length (puts l) <= n)%nat -> In x (puts l) -> it_due x <= b -> In x (delivered (l ++ r)).
Proof. exact (prompt (pk []) pkt_eqb). Qed.
(** The thread runs on as long as no two entries have the same due time and device, and no due time falls between the two
    readings of the clock in one round. *)
Theorem C52_survives_partial : forall l, no_ties (puts l) -> clock_gap_free l -> forall e, em_st (after l) <> EmDead e.
Proof. intros l N C e E. pose proof (survives (pk []) pkt_eqb l N C) as A. unfold alive in A. rewrite E in A. exact A. Qed.

(** So, as long as nobody shuts the emulator down: whatever was put is delivered, once the loop has been passed as many
    times as there were puts and its time has come ([l] and a pass [t] with perhaps some puts [q] after it, then the rounds
    [r]). *)
Theorem C52_delivered_partial : forall l t q n r b x, quiet q -> let h := (l ++ EPass t :: q)%list in
  no_ties (puts (h ++ r)) -> clock_gap_free (h ++ r) -> ~ In EShut (h ++ r) -> rounds n r b -> (List.length (puts h) <= n)%nat ->
  In x (puts h) -> it_due x <= b -> In x (delivered (h ++ r)).
Proof. exact (all_out (pk []) pkt_eqb). Qed.

Definition e1 : pitem := mkItem (3#1) "eth0" (pk [1]%Z) 1.
Definition e2 : pitem := mkItem (2#1) "eth1" (pk [2]%Z) 0.
Definition e3 : pitem := mkItem (5#2) "eth0" (pk [3]%Z) 1.
(** Three packets put in an order different from that of their due times. *)
Definition xl : list (eact packet) := [EPass 0; EPut e1; EPut e2; EPut e3].
Definition xr : list (eact packet) := [ETake 0; EPass (1#2)] ++ [ETake (1#2); EPass 1] ++ [ETake 1; EPass 4].
Example C52_example : delivered (xl ++ xr) = [e2; e3; e1] /\ em_st (after xl) = EmGet /\ em_st (after (xl ++ xr)) = EmGet /\ puts xl = [e1; e2; e3] /\ it_due e1 <= 4.
Proof. split; [vm_compute; reflexivity|]. split; [vm_compute; reflexivity|]. split; [vm_compute; reflexivity|]. split; [reflexivity|]. vm_compute. discriminate. Qed.
Example C52_example_rounds : rounds 3 xr 4.
Proof.
  assert (K : forall a b, @round packet [ETake a; EPass b] b) by (intros a b; exists [], a, [], []; repeat split; intros x []).
  unfold xr. rewrite app_assoc. apply (RS 2 _ _ 1 4); [|apply K]. apply (RS 1 _ _ (1#2) 1); [|apply K]. apply R1, K.
Qed.
Example C52_example_survives : no_ties (puts (xl ++ xr)) /\ clock_gap_free (xl ++ xr).
Proof.
  split.
  - intros i j x y Ei Ej N E. change (puts (xl ++ xr)) with [e1; e2; e3] in *.
    destruct i as [|[|[|i]]]; try (destruct i; discriminate); destruct j as [|[|[|j]]]; try (destruct j; discriminate); try (exfalso; apply N; reflexivity);
    vm_compute in Ei, Ej; injection Ei as <-; injection Ej as <-; exfalso; revert E; vm_compute; discriminate.
  - intros l1 a l2 b l3 x E _ Hx [_ G2]. change (puts (xl ++ xr)) with [e1; e2; e3] in Hx.
    assert (Hb : In (ETake b) (xl ++ xr)) by (rewrite E; apply in_or_app; right; right; apply in_or_app; right; left; reflexivity).
    assert (Lb : b <= 1) by (vm_compute in Hb; repeat (destruct Hb as [Hb|Hb]; [try discriminate; injection Hb as <-; vm_compute; discriminate|]); contradiction).
    assert (Hd : 1 <= it_due x) by (destruct Hx as [<-|[<-|[<-|[]]]]; vm_compute; discriminate).
    apply (Qlt_not_le _ _ G2). eapply Qle_trans; [exact Lb|exact Hd].
Qed.

(** The clock passes a due time between the two readings: Queue.get is given a negative timeout and raises, the thread
    dies, and the packet never comes out. *)
Theorem C52_clock_refuted : exists l x, ascending (clocks l) /\ In x (puts l) /\ em_st (after l) = EmDead EValue /\ forall l', ~ In x (delivered (l ++ l')).
Proof.
  exists [EPass 0; EPut e1; ETake 0; EPass 1; ETake 4], e1. split; [vm_compute; repeat split; discriminate|]. split; [left; reflexivity|].
  assert (D : em_st (after [EPass 0; EPut e1; ETake 0; EPass 1; ETake 4]) = EmDead EValue) by (vm_compute; reflexivity).
  split; [exact D|]. intros l' H. rewrite outs_app in H. apply in_app_or in H. destruct H as [H|H]; [vm_compute in H; exact H|].
  rewrite (proj1 (dead_stays (pk []) pkt_eqb l' _ ltac:(rewrite D; exact I))) in H. exact H.
Qed.
(** Two different packets due at the same moment for the same device cannot be compared; the thread dies. *)
Theorem C52_tie_refuted : exists l x y, ascending (clocks l) /\ puts l = [x; y] /\ x <> y /\ em_st (after l) = EmDead EType /\ forall l', ~ In x (delivered (l ++ l')) /\ ~ In y (delivered (l ++ l')).
Proof.
  set (y := mkItem (3#1) "eth0" (pk [2]%Z) 1). exists [EPass 0; EPut e1; EPut y; ETake 0; EPass 0; ETake 0], e1, y.
  split; [vm_compute; repeat split; discriminate|]. split; [reflexivity|]. split; [discriminate|].
  assert (D : em_st (after [EPass 0; EPut e1; EPut y; ETake 0; EPass 0; ETake 0]) = EmDead EType) by (vm_compute; reflexivity).
  split; [exact D|]. intros l'. rewrite outs_app, (proj1 (dead_stays (pk []) pkt_eqb l' _ ltac:(rewrite D; exact I))). vm_compute. split; intros [].
Qed.
(** One entry is taken per round, so a packet that waits behind others can come out after one that is due later, although
    it was put in before that one came out. *)
Theorem C52_order_refuted : exists l x y, ascending (clocks l) /\ puts l = [y; x] /\ it_due x < it_due y /\ delivered l = [y; x].
Proof.
  exists [EPass 0; EPut e1; EPut e2; ETake 1; EPass 4; ETake 4; EPass 4], e2, e1. split; [vm_compute; repeat split; discriminate|].
  split; [reflexivity|]. split; [vm_compute; reflexivity|]. vm_compute. reflexivity.
Qed.

(** ** C84 *)
#[local] Notation srun := (sim_run (pk []) pkt_len pkt_eqb).
#[local] Notation sstep := (sim_step (pk []) pkt_len pkt_eqb).
#[local] Notation history := (trace (pk []) pkt_len pkt_eqb).
(** Each packet that comes in at a node was sent into the far end of the link (or handed to the node as host packet), and
    each such call leads to at most one arrival. *)
Theorem C84_conserved : forall n ls l v, NoDup (ends ls) -> nodes_below n ls -> (v < n)%nat ->
  exists rest, Permutation (bound_for pkt_len ls v l) (received v (history (sim_new n ls) l) ++ rest).
Proof. exact (sim_conserved (pk []) pkt_len pkt_eqb). Qed.
(** No packet comes in before its transmission time and delay have passed on the clock of the sender's link emulator. *)
Theorem C84_timing : forall n ls l v dev p, NoDup (ends ls) -> nodes_below n ls ->
  snd (sstep (fst (srun (sim_new n ls) l)) (SRecv v)) = SGot dev p -> justified pkt_len ls v dev p l.
Proof. exact (sim_justified (pk []) pkt_len pkt_eqb). Qed.
(** Links work in both directions, and each end leads to the other end of its own link only. *)
Theorem C84_both_ways : forall ls l, NoDup (ends ls) -> In l ls ->
  far ls (ln_u l, ln_ud l) = Some (ln_v l, ln_vd l, ln_cap l, ln_delay l) /\ far ls (ln_v l, ln_vd l) = Some (ln_u l, ln_ud l, ln_cap l, ln_delay l).
Proof. exact far_of. Qed.
(** Sending into a device without link raises KeyError and nothing happens. *)
Theorem C84_no_link : forall n ls l u dev now p, NoDup (ends ls) -> nodes_below n ls -> (u < n)%nat -> ~ In (u, dev) (ends ls) ->
  let s := fst (srun (sim_new n ls) l) in sstep s (SSend u dev now p) = (s, SErr EKey).
Proof.
  intros n ls l u dev now p Nd Nb Hu Ne s. pose proof (run_sinv (pk []) pkt_len pkt_eqb n ls l Nd Nb) as V. fold s in V. destruct V as [Wl W _ _ _ _]. specialize (W (u, dev)). rewrite (far_none ls (u, dev) Ne) in W. unfold pipes_at in W. cbn [fst snd option_map] in W.
  cbn [sim_step]. destruct (nth_error s u) as [m|] eqn:E; [|apply nth_error_None in E; rewrite Wl in E; lia].
  unfold node_send. rewrite W. reflexivity.
Qed.
Definition xlinks : list link := [mkLink 0 "eth0" 1 "eth0" 100 (1#10); mkLink 1 "eth1" 2 "eth0" 50 (2#10)].
Definition xacts : list (sact packet) :=
  [SSend 1 "eth1" 0 (pk [7; 8]%Z); SSend 0 "eth0" 0 (pk [9]%Z); SHost 1 (pk [5]%Z);
   SEm 1 (EPass 0); SEm 1 (ETake 0); SEm 1 (EPass 1); SEm 0 (EPass 0); SEm 0 (ETake 0); SEm 0 (EPass (1#2)); SRecv 2; SRecv 1; SRecv 1; SRecv 1].
Example C84_example : NoDup (ends xlinks) /\ nodes_below 3 xlinks /\
  received 1 (history (sim_new 3 xlinks) xacts) = [("host", pk [5]%Z); ("eth0", pk [9]%Z)] /\
  received 2 (history (sim_new 3 xlinks) xacts) = [("eth0", pk [7; 8]%Z)] /\ received 0 (history (sim_new 3 xlinks) xacts) = [] /\
  bound_for pkt_len xlinks 1 xacts = [("eth0", pk [9]%Z); ("host", pk [5]%Z)] /\
  ~ In (2%nat, "eth1") (ends xlinks).
Proof.
  split; [vm_compute; repeat (constructor; [intros K; repeat (destruct K as [K|K]; [discriminate|]); exact K|]); constructor|].
  split; [intros e H; vm_compute in H; repeat (destruct H as [<-|H]; [cbn; lia|]); contradiction|].
  split; [vm_compute; reflexivity|]. split; [vm_compute; reflexivity|]. split; [vm_compute; reflexivity|]. split; [vm_compute; reflexivity|].
  intros H; vm_compute in H. repeat (destruct H as [H|H]; [discriminate|]); exact H.
Qed.

(** ** C91: capacities are bits per second *)
(** What each packet is charged: its length in bytes divided by the capacity; an eighth of the time it takes at that many bits
    per second, and no matter how many packets the link is carrying already. *)
Theorem C91_time_fails : forall n ls l u ud v vd c d now p k, NoDup (ends ls) -> nodes_below n ls -> (u < n)%nat -> far ls (u, ud) = Some (v, vd, c, d) -> (0 < c)%Z -> pkt_len p = Ok k -> (0 < k)%Z ->
  exists x, snd (sstep (fst (srun (sim_new n ls) l)) (SSend u ud now p)) = SSent x /\ it_due x == now + inject_Z k / inject_Z c + d /\
    it_due x < now + inject_Z (8 * k) / inject_Z c + d.
Proof.
  intros n ls l u ud v vd c d now p k Nd Nb Hu F Hc Hk Hp. set (s := fst (srun (sim_new n ls) l)). pose proof (run_sinv (pk []) pkt_len pkt_eqb n ls l Nd Nb) as V. fold s in V. destruct V as [Wl W _ _ _ _]. specialize (W (u, ud)).
  unfold pipes_at in W. cbn [fst snd] in W.
  cbn [sim_step]. destruct (nth_error s u) as [m|] eqn:E; [|apply nth_error_None in E; rewrite Wl in E; lia].
  assert (G : node_send pkt_len (nd_pipes m) now ud p = Ok (mkItem (now + inject_Z k / inject_Z c + d) vd p v)).
  { unfold node_send. rewrite W, F. cbn [option_map pipe_of]. rewrite Hk. unfold pipe_of. cbn. destruct (Z.eqb_spec c 0); [lia|]. reflexivity. }
  rewrite G. eexists. split; [reflexivity|]. cbn [it_due]. split; [reflexivity|]. apply Qplus_lt_l, Qplus_lt_r. unfold Qdiv. apply Qmult_lt_compat_r; [apply Qinv_lt_0_compat; change 0 with (inject_Z 0); rewrite <- Zlt_Qlt; lia|]. rewrite <- Zlt_Qlt. lia.
Qed.
(** Two packets of 100 bytes are through a link of 800 bits per second after a quarter of a second. *)
Definition quarter : list (sact packet) :=
  [SSend 0 "eth0" 0 (pk (repeat 1%Z 100)); SSend 0 "eth0" (1#100) (pk (repeat 2%Z 100));
   SEm 0 (EPass 0); SEm 0 (ETake (1#100)); SEm 0 (EPass (1#50)); SEm 0 (ETake (1#50)); SEm 0 (EPass (1#4)); SRecv 1; SRecv 1].
Theorem C91_rate_refuted : exists (ls : list link) acts p q, NoDup (ends ls) /\ nodes_below 2 ls /\ far ls (0%nat, "eth0") = Some (1%nat, "eth0", 800%Z, 0) /\
  pkt_len p = Ok 100%Z /\ pkt_len q = Ok 100%Z /\ (forall u dev t r, In (SSend u dev t r) acts -> 0 <= t) /\ (forall u b, In (SEm u (EPass b)) acts -> b <= 1 # 4) /\
  received 1 (history (sim_new 2 ls) acts) = [("eth0", p); ("eth0", q)].
Proof.
  exists [mkLink 0 "eth0" 1 "eth0" 800 0], quarter, (pk (repeat 1%Z 100)), (pk (repeat 2%Z 100)).
  split; [vm_compute; repeat (constructor; [intros K; repeat (destruct K as [K|K]; [discriminate|]); exact K|]); constructor|].
  split; [intros e H; vm_compute in H; repeat (destruct H as [<-|H]; [cbn; lia|]); contradiction|].
  split; [reflexivity|]. split; [vm_compute; reflexivity|]. split; [vm_compute; reflexivity|].
  split; [intros u dev t r H; unfold quarter in H; cbn [In] in H; repeat (destruct H as [H|H]; [first [discriminate H|injection H as <- <- <- <-; vm_compute; discriminate]|]); contradiction|].
  split; [intros u b H; unfold quarter in H; cbn [In] in H; repeat (destruct H as [H|H]; [first [discriminate H|injection H as <- <-; vm_compute; discriminate]|]); contradiction|].
  vm_compute. reflexivity.
Qed.
Print Assumptions C91_time_fails.
Print Assumptions C91_rate_refuted.

Print Assumptions C52_once.
Print Assumptions C52_order.
Print Assumptions C52_prompt_partial.
Print Assumptions C52_survives_partial.
Print Assumptions C52_delivered_partial.
Print Assumptions C52_clock_refuted.
Print Assumptions C52_tie_refuted.
Print Assumptions C84_conserved.
Print Assumptions C84_timing.
Print Assumptions C84_no_link.
