(** Live capture: properties C40, C41, C74. *)
From Verif Require Import BaseLemmas Enums Dict PacketModel LiveModel LiveSpec LiveProofs PacketProps.
#[local] Open Scope string_scope.
#[local] Open Scope Z_scope.
#[local] Open Scope list_scope.

(** C40. Under every interleaving: the frames captured on a device are those looked at, then those dropped at shutdown, then
    those still waiting; the packets handed to the user as coming from the device are exactly the readable ones among the
    frames looked at, in order; while running nothing is dropped. *)
Theorem C40_capture_order : forall devs l n log nm dlt, NoDup (map fst devs) -> In (nm, dlt) devs -> l_run (l_start devs) l = (n, log) ->
  exists seen dropped, captured nm log = seen ++ dropped ++ waiting nm n /\ handed nm log = flat_map (readable dlt) seen /\ (v_run n = true -> dropped = []).
Proof. exact live_order. Qed.
Theorem C40_drained : forall devs l n log nm dlt, NoDup (map fst devs) -> In (nm, dlt) devs -> l_run (l_start devs) l = (n, log) -> v_run n = true -> waiting nm n = [] ->
  handed nm log = flat_map (readable dlt) (captured nm log).
Proof. intros devs l n log nm dlt N D H R W. destruct (live_order _ _ _ _ _ _ N D H) as (s & d & E1 & E2 & E3). rewrite (E3 R), W, !app_nil_r in E1. rewrite E1. exact E2. Qed.
Theorem C40_known_port : forall devs l n log nm f p, NoDup (map fst devs) -> l_run (l_start devs) l = (n, log) -> In (LPkt nm f p) log -> In nm (map fst devs).
Proof. exact live_named. Qed.
Definition xdevs : list (string * Z) := [("eth0", 1); ("lo", 0); ("ppp0", 9)].
Definition xraw : bytes := match pkt_to_bytes [HEth xe; HIp4 (xip 17); HUdp xudp; HRaw [1; 2; 3]] with Ok (_, b) => b | Err _ => [] end.
Definition xlive : list lact := [LThread 0 None; LThread 1 None; LThread 2 None; LThread 1 (Some (5, [2; 0; 0; 0] ++ skipn 14 xraw)); LThread 0 (Some (6, xraw)); LThread 2 (Some (7, [1])); LThread 2 None; LThread 0 None; LThread 1 None;
  LCall false; LUser; LUser; LUser; LUser; LThread 0 None; LThread 0 (Some (8, [1])); LCall true; LUser; LUser].
Example C40_case : let '(n, log) := l_run (l_start xdevs) xlive in v_run n = true /\ map fst (handed "eth0" log) = [(6, xraw)] /\ map fst (handed "lo" log) = [(5, [2; 0; 0; 0] ++ skipn 14 xraw)] /\ handed "ppp0" log = [] /\ waiting "eth0" n = [(8, [1])] /\ xraw <> [].
Proof. vm_compute. repeat split; discriminate. Qed.

(** C41. Once capture is stopped (shutdown or SIGINT), whatever happens: no receive yields a packet or NoPackets; a receive
    with a timeout raises Shutdown; shutdown again changes nothing. A receive without timeout may block for ever. *)
Theorem C41_no_packet_after_shutdown : forall l n n' log, v_run n = false -> l_run n l = (n', log) ->
  v_run n' = false /\ Forall (fun r => match r with LPkt _ _ _ | LBad _ _ _ | LSkip _ _ | LNoPackets => False | _ => True end) log.
Proof. exact stopped_run. Qed.
Theorem C41_receive_raises_partial : forall n l1 l2 l3, v_run n = false -> v_user n = UIdle -> Forall others l1 -> Forall others l2 -> Forall others l3 ->
  exists log x, snd (l_run n (l1 ++ [LCall true] ++ l2 ++ [LUser] ++ l3 ++ [LUser])) = log ++ [LShutdown x].
Proof. exact receive_after_shutdown. Qed.
Theorem C41_shutdown_idempotent : forall n n' r, v_run n = false -> l_step n LShut = (n', r) -> n' = n.
Proof. exact shutdown_twice. Qed.
Theorem C41_stops : forall n n' r, (v_user n = UIdle /\ l_step n LShut = (n', r)) \/ (v_sig n = SigNo /\ l_step n LSignal = (n', r)) -> v_run n' = false.
Proof. intros n n' r [[U H]|[U H]]; cbn [l_step] in H; rewrite U in H; [|injection H as <- <-; reflexivity]. destruct (v_run n) eqn:R; injection H as <- <-; [reflexivity|exact R]. Qed.
(** A signal ends a receive that is waiting, with or without a timeout: once the handler is done (it runs in the user's
    thread, the capture threads may do anything meanwhile) two more steps raise Shutdown. *)
Definition capture (a : lact) : Prop := match a with LThread _ _ => True | _ => False end.
Lemma capture_run l : forall n, Forall capture l -> v_user (fst (l_run n l)) = v_user n /\ v_run (fst (l_run n l)) = v_run n /\ v_sig (fst (l_run n l)) = v_sig n /\ exists q, v_q (fst (l_run n l)) = v_q n ++ q.
Proof. induction l as [|a l IH]; intros n C; cbn [l_run fst]; [repeat (split; [reflexivity|]); exists []; rewrite app_nil_r; reflexivity|].
  inversion C as [|? ? C1 C2]; subst. destruct a as [d o| | | | |]; cbn [capture] in C1; try contradiction. cbn [l_step].
  assert (A : v_user (fst (thread_step d o n)) = v_user n /\ v_run (fst (thread_step d o n)) = v_run n /\ v_sig (fst (thread_step d o n)) = v_sig n /\ exists q, v_q (fst (thread_step d o n)) = v_q n ++ q).
  { unfold thread_step. destruct (nth_error (v_th n) d) as [t|]; [destruct (t_st t) as [| |f|]; [|destruct o| |]|]; cbn; repeat (split; [reflexivity|]);
      first [exists []; rewrite app_nil_r; reflexivity|eexists; reflexivity]. }
  destruct (thread_step d o n) as [n1 r]. cbn [fst] in A. destruct A as (A1 & A2 & A3 & q1 & A4).
  destruct (IH n1 C2) as (B1 & B2 & B3 & q2 & B4). destruct (l_run n1 l) as [n2 lg]. cbn [fst] in *.
  split; [congruence|]. split; [congruence|]. split; [congruence|]. exists (q1 ++ q2). rewrite B4, A4, app_assoc. reflexivity. Qed.
Theorem C41_signal_wakes : forall n tmo l1 l2 l3 l4, v_user n = UWant tmo -> v_sig n = SigNo -> Forall capture l1 -> Forall capture l2 -> Forall capture l3 -> Forall capture l4 ->
  exists log x, snd (l_run n ([LSignal] ++ l1 ++ [LHandler] ++ l2 ++ [LHandler] ++ l3 ++ [LUser] ++ l4 ++ [LUser])) = log ++ [LShutdown x].
Proof.
  intros n tmo l1 l2 l3 l4 U S C1 C2 C3 C4.
  assert (R : forall m xs ys, fst (l_run m (xs ++ ys)) = fst (l_run (fst (l_run m xs)) ys)) by (intros; rewrite run_app; reflexivity).
  replace ([LSignal] ++ l1 ++ [LHandler] ++ l2 ++ [LHandler] ++ l3 ++ [LUser] ++ l4 ++ [LUser]) with (([LSignal] ++ l1 ++ [LHandler] ++ l2 ++ [LHandler] ++ l3 ++ [LUser] ++ l4) ++ [LUser]) by (rewrite <- !app_assoc; reflexivity).
  rewrite run_app. cbn [snd]. set (pre := [LSignal] ++ l1 ++ [LHandler] ++ l2 ++ [LHandler] ++ l3 ++ [LUser] ++ l4).
  enough (E : exists x, v_run (fst (l_run n pre)) = false /\ v_user (fst (l_run n pre)) = UHold tmo x).
  { destruct E as (x & E1 & E2). exists (snd (l_run n pre)). exists x. f_equal. cbn [l_run l_step]. unfold user_step. rewrite E1, E2. reflexivity. }
  unfold pre. clear pre. rewrite !R.
  set (n1 := fst (l_run n [LSignal])).
  assert (H1 : v_user n1 = UWant tmo /\ v_run n1 = false /\ v_sig n1 = SigCheck) by (unfold n1; cbn; rewrite S; cbn; auto).
  destruct (capture_run l1 n1 C1) as (A1 & A2 & A3 & q1 & A4). set (n2 := fst (l_run n1 l1)) in *.
  set (n3 := fst (l_run n2 [LHandler])).
  assert (H3 : v_user n3 = UWant tmo /\ v_run n3 = false /\ (v_sig n3 = SigPut \/ (v_sig n3 = SigNo /\ v_q n3 <> []))).
  { destruct H1 as (X1 & X2 & X3). unfold n3. cbn. rewrite A3, X3. cbn. rewrite A1, A2, X1, X2. split; [reflexivity|]. split; [reflexivity|].
    destruct (v_q n2); [left; reflexivity|right; split; [reflexivity|discriminate]]. }
  clearbody n3. clear - H3 C2 C3 C4.
  destruct (capture_run l2 n3 C2) as (A1 & A2 & A3 & q2 & A4). set (n4 := fst (l_run n3 l2)) in *.
  set (n5 := fst (l_run n4 [LHandler])).
  assert (H5 : v_user n5 = UWant tmo /\ v_run n5 = false /\ v_q n5 <> []).
  { destruct H3 as (X1 & X2 & [X3|[X3 X4]]); unfold n5; cbn; rewrite A3, X3; cbn; rewrite A1, A2, X1, X2; (split; [reflexivity|]; split; [reflexivity|]).
    - destruct (v_q n4); discriminate.
    - rewrite A4. destruct (v_q n3); [contradiction|discriminate]. }
  clearbody n5. clear - H5 C3 C4. destruct H5 as (X1 & X2 & X3).
  destruct (capture_run l3 n5 C3) as (A1 & A2 & A3 & q3 & A4). set (n6 := fst (l_run n5 l3)) in *.
  set (n7 := fst (l_run n6 [LUser])).
  assert (H7 : v_run n7 = false /\ exists x, v_user n7 = UHold tmo x).
  { unfold n7. cbn [l_run l_step]. unfold user_step. rewrite A1, X1, A4. destruct (v_q n5) as [|x q]; [contradiction|]. cbn. rewrite A2, X2. split; [reflexivity|]. eexists. reflexivity. }
  clearbody n7. destruct H7 as (Y1 & x & Y2).
  destruct (capture_run l4 n7 C4) as (B1 & B2 & B3 & q4 & B4). exists x. rewrite B1, B2. auto.
Qed.
Print Assumptions C41_signal_wakes.
Example C41_signal_wakes_example : exists n, fst (l_run (l_start [("eth0"%string, 1)]) [LCall false; LUser]) = n /\ v_user n = UWant false /\ v_sig n = SigNo /\ Forall capture [LThread 0 None; LThread 0 (Some (7, [1; 2]))].
Proof. eexists. split; [vm_compute; reflexivity|]. split; [reflexivity|]. split; [reflexivity|]. repeat constructor. Qed.
(** The user shuts down, then receives without a timeout: no answer ever comes unless a signal arrives. *)
Definition xdead : list lact := [LThread 0 None; LThread 0 None; LShut; LThread 0 None; LUser; LCall false].
Theorem C41_receive_blocks_refuted : exists devs l0, let '(n, log0) := l_run (l_start devs) l0 in v_run n = false /\ v_user n = UWant false /\
  forall l n' log, ~ In LSignal l -> l_run n l = (n', log) -> v_user n' = UWant false /\ forall x, ~ In (LShutdown x) log.
Proof. exists [("eth0", 1)], xdead. set (n0 := mkLive false [mkThread "eth0" 1 TDone] [] (UWant false) SigNo true).
  replace (l_run (l_start [("eth0", 1)]) xdead) with (n0, snd (l_run (l_start [("eth0", 1)]) xdead)) by (vm_compute; reflexivity). split; [reflexivity|]. split; [reflexivity|]. induction l as [|a l IH]; intros n' log Hs H; cbn [l_run] in H.
  - injection H as <- <-. split; [reflexivity|]. intros x [].
  - assert (A : exists r, l_step n0 a = (n0, r) /\ forall x, r <> LShutdown x).
    { destruct a as [[|d] o|tmo| | | |]; cbn; try (eexists; split; [reflexivity|discriminate]). - destruct d; eexists; (split; [reflexivity|discriminate]). - exfalso. apply Hs. left. reflexivity. }
    destruct A as (r & A & Nr). rewrite A in H. destruct (l_run n0 l) as [n2 lg]. injection H as <- <-. destruct (IH n2 lg ltac:(intros I; apply Hs; right; exact I) eq_refl) as [X Y]. split; [exact X|]. intros x [E|I]; [exact (Nr x E)|exact (Y x I)]. Qed.
Example C41_case : let '(n, log) := l_run (l_start xdevs) (xlive ++ [LSignal; LHandler; LHandler]) in v_run n = false /\ v_user n = UIdle /\ waiting "eth0" n <> [].
Proof. vm_compute. repeat split; discriminate. Qed.

(** C74. shutdown() called while running waits for the capture threads and closes every device: afterwards nothing is
    captured. After a SIGINT it returns at once and leaves devices open and threads capturing. *)
Theorem C74_shutdown_closes_partial : forall devs l0 n l1 n1 log1 n2 l2 n3 log3, l_run (l_start devs) l0 = (n, snd (l_run (l_start devs) l0)) -> v_run n = true -> v_user n = UIdle ->
  Forall others l1 -> l_run (fst (l_step n LShut)) l1 = (n1, log1) -> l_step n1 LUser = (n2, LDone) -> l_run n2 l2 = (n3, log3) -> v_closed n3 = true /\ forall nm, captured nm log3 = [].
Proof. exact shutdown_closes. Qed.
Theorem C74_after_signal_refuted : exists devs l0, let '(n, log0) := l_run (l_start devs) l0 in v_user n = UIdle /\ v_run n = false /\ l_step n LShut = (n, LDone) /\ v_closed n = false /\
  exists f, snd (l_step (fst (l_step n LShut)) (LThread 0 (Some f))) = LCap "eth0" f.
Proof. exists [("eth0", 1)], [LThread 0 None; LSignal; LHandler; LHandler]. vm_compute. repeat (split; [reflexivity|]). exists (1, [1]). reflexivity. Qed.
Example C74_case : let '(n, log) := l_run (l_start xdevs) xlive in v_run n = true /\ v_user n = UIdle /\
  let n1 := fst (l_run (fst (l_step n LShut)) [LThread 0 None; LThread 0 None; LThread 1 None; LThread 2 None]) in snd (l_step n1 LUser) = LDone.
Proof. vm_compute. auto. Qed.
Print Assumptions C40_capture_order.
Print Assumptions C40_known_port.
Print Assumptions C41_no_packet_after_shutdown.
Print Assumptions C41_receive_raises_partial.
Print Assumptions C41_receive_blocks_refuted.
Print Assumptions C74_shutdown_closes_partial.
