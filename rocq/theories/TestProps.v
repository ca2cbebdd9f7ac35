(** C30-C36: packet matching, test scenarios and test runs (testing.py, llnettest.py). *)
From Verif Require Import BaseLemmas CodecLemmas Dict DictLemmas EthAddrModel Enums EthModel Ipv4Model Ipv4Proofs TransportModel Ipv6Model IcmpModel IcmpProofs IcmpCodecProofs PacketModel PacketSpec
  PacketProofs PacketParse PacketProps NetModel TestModel TestSpec TestMatch TestBytes TestRun TestScript TestSave.
From Coq Require Import Sorted.
#[local] Open Scope string_scope.
#[local] Open Scope Z_scope.
#[local] Open Scope list_scope.

(** Packets and a scenario used in the examples. *)
Definition xpkt : packet := [HEth xe; HIp4 (xip 17); HUdp xudp; HRaw [1; 2; 3]].
Definition xpkt2 : packet := [HEth xe; HIp4 (xip 17); HUdp (mkUdp 1000 80 0 0); HRaw [1; 2; 3]].
Definition xns (target : bytes) : packet := [HEth (mkEth [2; 0; 0; 0; 0; 2] [2; 0; 0; 0; 0; 1] 0x86dd); HIp6 (xip6 58); HIcmp6 (mkIcmp 135 0 (DNS target []) 0)].
Definition xopt (o : list ipopt) : packet := [HEth xe; HIp4 (mkIp4 0 0 64 7 0 0 17 [10; 0; 0; 1] [10; 0; 0; 2] o); HUdp xudp; HRaw [1]].
Definition xexact (p : packet) : matcher := mkM p true [] [].
Definition xout : event := EvOut (mkOut [("eth0", xexact xpkt); ("eth1", xexact xpkt2)] []).
Definition xscen : scen := scen_expect xout "out" (scen_expect (EvIn "eth0" xpkt) "in" (scen_add_if "eth1" None [] None (scen_add_if "eth0" None [] None (scen_new "s")))).
Lemma xpkt_storable : storable xpkt.
Proof. split; [vm_compute; repeat split; discriminate|]. split; [|split; repeat constructor].
  - constructor; [split; [exact xe_wf|discriminate]|]. constructor; [|repeat constructor].
    split; [apply xip_wf; [lia|apply zmem_In; reflexivity]|]. exists []. split; [reflexivity|]. change (zlen (@nil Z)) with 0. lia.
  - intros (k & K). destruct k; discriminate. Qed.

(** C30.  What an exact match compares: all attributes of all headers, after both packets have been serialised. *)
Theorem C30_exact_match_compares : forall ref wc preds p p', m_match (mkM ref true wc preds) p = Ok (true, p') <->
  (exists b r' rb, pkt_to_bytes p = Ok (p', b) /\ pkt_to_bytes ref = Ok (r', rb) /\ Forall2 (exact_same wc) r' p') /\ Forall (fun f => f p' = Ok true) preds.
Proof. exact exact_match_iff. Qed.
Print Assumptions C30_exact_match_compares.
(** C30, from match to bytes, for packets that agree in the fields that are sent but not compared. *)
Theorem C30_match_same_bytes_partial : forall ref preds p p' r' rb, m_match (mkM ref true [] preds) p = Ok (true, p') -> pkt_to_bytes ref = Ok (r', rb) ->
  Forall2 hidden_same ref p -> pkt_to_bytes p = Ok (p', rb) /\ Forall (fun f => f p' = Ok true) preds.
Proof. intros ref preds p p' r' rb H Hr Hd. split; [exact (match_same_bytes _ _ _ _ _ _ H Hr Hd)|]. apply exact_match_iff in H. apply H. Qed.
Print Assumptions C30_match_same_bytes_partial.
(** C30, from bytes to match, for packets made of headers that announce each other. *)
Theorem C30_same_bytes_match_partial : forall ref p r' p' b, chained ref -> chained p -> Forall wf_hdr ref -> Forall wf_hdr p -> Forall canonical ref -> Forall canonical p ->
  first_cls ref = first_cls p -> pkt_to_bytes ref = Ok (r', b) -> pkt_to_bytes p = Ok (p', b) -> m_match (mkM ref true [] []) p = Ok (true, p').
Proof. exact same_bytes_match. Qed.
Print Assumptions C30_same_bytes_match_partial.
Example C30_example : Forall2 hidden_same xpkt xpkt /\ (exists p', m_match (xexact xpkt) xpkt = Ok (true, p')) /\ exists q', m_match (xexact xpkt) xpkt2 = Ok (false, q').
Proof. split; [repeat constructor|]. split; eexists; vm_compute; reflexivity. Qed.
(** In general neither direction holds: ICMPv6 neighbour discovery messages are compared by a field they do not use, *)
Theorem C30_match_same_bytes_refuted : exists ref p p' r' b rb, m_match (mkM ref true [] []) p = Ok (true, p') /\
  pkt_to_bytes ref = Ok (r', rb) /\ pkt_to_bytes p = Ok (p', b) /\ b <> rb.
Proof. exists (xns (repeat 1 16)), (xns (repeat 2 16)). do 4 eexists. split; [vm_compute; reflexivity|]. split; [vm_compute; reflexivity|]. split; [vm_compute; reflexivity|]. discriminate. Qed.
Print Assumptions C30_match_same_bytes_refuted.
(** and IPv4 options are compared as lists, whatever padding is sent. *)
Theorem C30_same_bytes_match_refuted : exists ref p r' p' b, pkt_to_bytes ref = Ok (r', b) /\ pkt_to_bytes p = Ok (p', b) /\ m_match (mkM ref true [] []) p = Ok (false, p').
Proof. exists (xopt [ONop]), (xopt [ONop; OEnd]). do 3 eexists. split; [vm_compute; reflexivity|]. split; [vm_compute; reflexivity|]. vm_compute. reflexivity. Qed.
Print Assumptions C30_same_bytes_match_refuted.

(** C31.  Inexact matching compares the header classes, and the addresses and demultiplexing fields not wildcarded. *)
Theorem C31_inexact_match : forall ref wc preds p p' b r' rb, pkt_to_bytes p = Ok (p', b) -> pkt_to_bytes ref = Ok (r', rb) ->
  (m_match (mkM ref false wc preds) p = Ok (true, p') <-> Forall2 (inexact_same wc) ref p /\ Forall (fun f => f p' = Ok true) preds).
Proof. intros. eapply inexact_match_iff; eauto. Qed.
Print Assumptions C31_inexact_match.
(** C31.  More wildcards and fewer predicates accept at least as much. *)
Theorem C31_monotone : forall ref exact wc wc' preds preds' p p', incl wc wc' -> incl preds' preds ->
  m_match (mkM ref exact wc preds) p = Ok (true, p') -> m_match (mkM ref exact wc' preds') p = Ok (true, p').
Proof. exact match_monotone. Qed.
Print Assumptions C31_monotone.
Example C31_example :
  (exists q, m_match (mkM xpkt false [] []) xpkt2 = Ok (false, q)) /\ (exists q, m_match (mkM xpkt false [(CUdp, "dst")] []) xpkt2 = Ok (true, q)) /\
  (exists q, m_match (mkM xpkt false [(CUdp, "dst")] [fun _ => Ok false]) xpkt2 = Ok (false, q)).
Proof. split; [|split]; eexists; vm_compute; reflexivity. Qed.

(** C32.  A packet sent on a device is accepted exactly when one is outstanding for that device and it matches; otherwise
    nothing changes. *)
Theorem C32_accepts : forall o dev p,
  ((exists m, dget dev (oe_wait o) = Some m /\ meets m p) <-> exists o' x, out_match o dev p = (o', Ok x)) /\
  (forall o' e, out_match o dev p = (o', Err e) -> o' = o) /\
  (forall o' x, out_match o dev p = (o', Ok x) -> oe_wait o' = ddel dev (oe_wait o) /\ (x = MSuccess <-> oe_wait o' = []) /\ x <> MFail).
Proof. intros o dev p. split; [apply out_match_accepts|]. split; [intros o' e; apply out_match_err|]. intros o' x H. apply out_match_ok in H as (m & p' & _ & _ & H1 & _ & H2 & H3). auto. Qed.
Print Assumptions C32_accepts.
(** C32.  Over any series of sends, on any devices in any order: each device is accepted at most once, and what is left
    outstanding are exactly the devices not accepted. *)
Theorem C32_each_once : forall l o o' rs, NoDup (dkeys (oe_wait o)) -> attempts o l = (o', rs) ->
  let acc := accepted l rs in
  NoDup (map fst acc) /\
  (forall dev p, In (dev, p) acc -> exists m, dget dev (oe_wait o) = Some m /\ meets m p) /\
  (forall dev m, dget dev (oe_wait o') = Some m <-> dget dev (oe_wait o) = Some m /\ ~ In dev (map fst acc)) /\
  (List.length (oe_wait o) = List.length acc + List.length (oe_wait o'))%nat.
Proof. exact attempts_spec. Qed.
Print Assumptions C32_each_once.
(** C32.  The expected packets in any order complete the event. *)
Theorem C32_any_order : forall ord o ps, NoDup (dkeys (oe_wait o)) -> Permutation (oe_wait o) ord -> Forall2 (fun x p => meets (snd x) p) ord ps ->
  exists o' rs, attempts o (combine (map fst ord) ps) = (o', rs) /\ oe_wait o' = [] /\ Forall (fun r => exists x, r = Ok x) rs.
Proof. induction ord as [|[d m] ord IH]; intros o ps N P F; inversion F as [|? p ? ps' M F']; subst; cbn [map fst combine attempts].
  - symmetry in P. apply Permutation_nil in P. eauto.
  - assert (D : dget d (oe_wait o) = Some m) by (apply In_dget; [exact N|]; eapply Permutation_in; [symmetry; exact P|left; reflexivity]).
    assert (X : exists o1 x, out_match o d p = (o1, Ok x)) by (apply out_match_accepts; eauto). destruct X as (o1 & x & X). rewrite X.
    destruct (out_match_ok _ _ _ _ _ X) as (_ & _ & _ & _ & E & _). destruct (IH o1 ps') as (o2 & rs & A & W & R).
    + rewrite E. apply ddel_NoDup. exact N.
    + rewrite E. apply Permutation_cons_inv with (a := (d, m)). rewrite <- P. symmetry. apply ddel_perm; assumption.
    + exact F'.
    + rewrite A. exists o2, (Ok x :: rs). split; [reflexivity|]. split; [exact W|]. constructor; eauto. Qed.
Print Assumptions C32_any_order.
Example C32_example : exists o', let o := mkOut [("eth0", xexact xpkt); ("eth1", xexact xpkt2)] [] in NoDup (dkeys (oe_wait o)) /\
  attempts o [("eth1", xpkt); ("eth1", xpkt2); ("eth1", xpkt2); ("eth2", xpkt); ("eth0", xpkt)] = (o', [Err ETestFail; Ok MPartial; Err ETestFail; Err ETestFail; Ok MSuccess]).
Proof. eexists. cbv zeta. split; [|vm_compute; reflexivity]. repeat constructor; cbn; intuition discriminate. Qed.

(** C33.  After any history of expectations written and calls made, the completed events followed by the pending ones are
    the events written, in order; only the first pending one can be partly done.  For packets that can be printed. *)
Theorem C33_nothing_lost_partial : forall s os t' log, unused s -> Forall fresh_sev (authored 0 os) -> Forall printable_op os -> t_hist (tnet_new s) os = (t', log) ->
  exists before after, authored 0 os = before ++ after /\
  Forall2 passed before (sc_done (t_scen t')) /\ Forall complete (sc_done (t_scen t')) /\
  match after, sc_pend (t_scen t') with
  | [], [] => True
  | x :: l, y :: l' => later x y /\ (is_input y = false -> ~ complete y) /\ l = l'
  | _, _ => False
  end.
Proof. exact history_spec. Qed.
Print Assumptions C33_nothing_lost_partial.
(** C33.  The numbers of the summary add up, and the scenario is done exactly when all tests have passed. *)
Theorem C33_summary_partial : forall s os t' log, unused s -> Forall fresh_sev (authored 0 os) -> Forall printable_op os -> t_hist (tnet_new s) os = (t', log) ->
  let '(passed, failed, pending) := scen_summary (t_scen t') in
  passed + failed + pending = zlen (authored 0 os) /\ 0 <= failed <= 1 /\ 0 <= pending /\
  (scen_done (t_scen t') = true <-> passed = zlen (authored 0 os)) /\ (failed = 0 <-> scen_done (t_scen t') = true).
Proof. exact history_counts. Qed.
Print Assumptions C33_summary_partial.
(** C33.  A send that fails leaves the test pending. *)
Theorem C33_failed_stays_partial : forall s os t log a p t' e, unused s -> Forall fresh_sev (authored 0 os) -> Forall printable_op os -> t_hist (tnet_new s) os = (t, log) ->
  printable p -> do_call t (CSend a p) = (t', AnsExn e) -> t' = t.
Proof. intros s os t log a p t' e U F Pp H. apply failed_send_keeps. pose proof (unused_sound s U) as S0. destruct U as (U1 & U2 & U3).
  assert (I0 : inv [] (t_scen (tnet_new s))). { exists [], []. cbn [tnet_new t_scen]. rewrite U1, U2, U3. split; [reflexivity|]. split; [constructor|]. split; [exact I|reflexivity]. }
  apply (hist_inv os _ _ _ _ I0 S0 F Pp H). Qed.
Print Assumptions C33_failed_stays_partial.
Definition xhist : list top :=
  [OExpect (EvIn "eth0" xpkt) "in"; OExpect xout "out"; OCall CRecv; OExpect (EvTimeout 5) "quiet"; OCall (CSend (DName "eth1") xpkt2); OCall (CSend (DName "eth0") xpkt2)].
Definition xbare : scen := scen_add_if "eth1" None [] None (scen_add_if "eth0" None [] None (scen_new "s")).
Lemma xhist_fresh : Forall fresh_sev (authored 0 xhist).
Proof. cbn [xhist authored]. constructor; [exact I|]. constructor; [|repeat constructor]. unfold fresh_sev. cbn. split; [discriminate|]. split; [|reflexivity]. repeat constructor; cbn; intuition discriminate. Qed.
(** A printed form of what a packet is read as, by computation. *)
Lemma reads_printable p : match (' (_, b) <- pkt_to_bytes p;; pkt_new b (first_cls p)) with Ok q => pkt_shows q | Err _ => true end = true -> forall q, reads_as p q -> printable q.
Proof. intros H q (p' & b & E1 & E2). rewrite E1 in H. cbn [bindr] in H. rewrite E2 in H. apply pkt_prints. exact H. Qed.
Lemma xpkt_in d : printable_event (EvIn d xpkt).
Proof. split; [repeat constructor|]. apply reads_printable. vm_compute. reflexivity. Qed.
Lemma xhist_printable : Forall printable_op xhist.
Proof. constructor; [apply xpkt_in|]. constructor; [repeat constructor|]. repeat (constructor; [repeat constructor|]). constructor. Qed.
Example C33_example : unused xbare /\ Forall fresh_sev (authored 0 xhist) /\ Forall printable_op xhist /\ exists t log, t_hist (tnet_new xbare) xhist = (t, log) /\ scen_summary (t_scen t) = (1, 1, 1).
Proof. split; [repeat split|]. split; [exact xhist_fresh|]. split; [exact xhist_printable|]. do 2 eexists. split; [vm_compute; reflexivity|]. vm_compute. reflexivity. Qed.

(** A router advertisement cannot be printed: the receive call that should hand it over raises AttributeError and the event
    is gone, neither passed nor pending; *)
Definition xra : packet := [HEth (mkEth [2; 0; 0; 0; 0; 2] [2; 0; 0; 0; 0; 1] 0x86dd); HIp6 (xip6 58); HIcmp6 (mkIcmp 134 0 (DRA 64 false false false false 1800 0 0 []) 0)].
Theorem C33_lost_input_refuted : exists s os t' log, unused s /\ Forall fresh_sev (authored 0 os) /\ Forall (fun e => deliverable (sc_ifs s) (sv_ev e)) (authored 0 os) /\
  t_hist (tnet_new s) os = (t', log) /\ map snd log = [AnsExn EAttr] /\ zlen (authored 0 os) = 1 /\ scen_summary (t_scen t') = (0, 0, 0) /\ scen_done (t_scen t') = true.
Proof. exists xbare, [OExpect (EvIn "eth0" xra) "in"; OCall CRecv]. do 2 eexists. split; [repeat split|]. split; [repeat constructor|]. split.
  - constructor; [|constructor]. split; [left; reflexivity|]. do 3 eexists. split; [vm_compute; reflexivity|]. vm_compute. reflexivity.
  - split; [vm_compute; reflexivity|]. repeat split. Qed.
Print Assumptions C33_lost_input_refuted.
(** and so is an output event when what is sent for it matches but cannot be printed.  (The options of a destination options
    header are not compared.) *)
Definition xdest (o : list v6opt) : packet := [HEth (mkEth [2; 0; 0; 0; 0; 2] [2; 0; 0; 0; 0; 1] 0x86dd); HIp6 (xip6 60); HDest (mkV6hop (Some 17) 0 o); HUdp xudp; HRaw [1; 2; 3]].
Theorem C33_lost_output_refuted : exists s os p t log t', unused s /\ Forall fresh_sev (authored 0 os) /\ Forall printable_op os /\ t_hist (tnet_new s) os = (t, log) /\
  (exists m, (exists d ts, sc_pend (t_scen t) = [mkSev (EvOut (mkOut [("eth0", m)] [])) d ts]) /\ meets m p) /\
  do_call t (CSend (DName "eth0") p) = (t', AnsExn EAttr) /\ scen_summary (t_scen t') = (0, 0, 0) /\ scen_done (t_scen t') = true.
Proof. exists xbare, [OExpect (EvOut (mkOut [("eth0", xexact (xdest [VPadN 4]))] [])) "out"], (xdest [VHome (repeat 1 16)]). do 3 eexists. split; [repeat split|]. split.
  - constructor; [|constructor]. unfold fresh_sev. cbn. split; [discriminate|]. split; [|reflexivity]. repeat constructor; cbn; intuition.
  - split; [|split; [vm_compute; reflexivity|split; [|split; [vm_compute; reflexivity|repeat split]]]].
    + constructor; [|constructor]. constructor; [|constructor]. cbn [m_ref snd xexact xdest]. repeat constructor. intros a [E|[]]; discriminate.
    + eexists. split; [do 2 eexists; reflexivity|]. eexists. vm_compute. reflexivity. Qed.
Print Assumptions C33_lost_output_refuted.

(** C34.  All calls of a sequence go well and nothing is left pending exactly when the sequence follows the script,
    for a scenario not yet started and packets that can be printed. *)
Lemma start_ready s : sc_done s = [] -> Forall fresh_sev (sc_pend s) -> Forall printable_event (map sv_ev (sc_pend s)) -> Forall (deliverable (sc_ifs s)) (map sv_ev (sc_pend s)) -> ready (tnet_new s).
Proof. intros Dn F P D. unfold ready, evs. cbn [tnet_new t_scen]. rewrite Dn. split; [eapply Forall_impl; [|exact F]; intros e; apply fresh_open|]. split; [exact D|]. split; [|constructor].
  rewrite Forall_map in P. rewrite Forall_forall in *. intros e Hin. apply printable_prt; [apply P; exact Hin|apply F; exact Hin]. Qed.
Theorem C34_calls_follow_script_partial : forall s cs t' l, sc_done s = [] -> Forall fresh_sev (sc_pend s) -> Forall printable_event (map sv_ev (sc_pend s)) ->
  Forall (deliverable (sc_ifs s)) (map sv_ev (sc_pend s)) -> Forall printable_call cs -> t_run (tnet_new s) cs = (t', l) ->
  ((Forall2 fine cs l /\ scen_done (t_scen t') = true) <-> follows (sc_ifs s) (map sv_ev (sc_pend s)) cs).
Proof. intros s cs t' l Dn F P D Pc H. rewrite <- (run_follows cs (tnet_new s) t' l); [|apply start_ready; assumption|exact Pc|exact H].
  unfold scen_done. destruct (sc_pend (t_scen t')); split; intros [? ?]; split; auto; discriminate. Qed.
Print Assumptions C34_calls_follow_script_partial.
(** A script followed to the letter does not go well when a packet cannot be printed. *)
Theorem C34_follow_script_refuted : exists s cs t' l, sc_done s = [] /\ Forall fresh_sev (sc_pend s) /\ Forall (deliverable (sc_ifs s)) (map sv_ev (sc_pend s)) /\
  follows (sc_ifs s) (map sv_ev (sc_pend s)) cs /\ t_run (tnet_new s) cs = (t', l) /\ l = [AnsExn EAttr].
Proof. exists (scen_expect (EvIn "eth0" xra) "in" xbare), [CRecv]. do 2 eexists. split; [reflexivity|]. split; [repeat constructor|]. split.
  - constructor; [|constructor]. split; [left; reflexivity|]. do 3 eexists. split; [vm_compute; reflexivity|]. vm_compute. reflexivity.
  - split; [apply f_in; apply f_nil|]. split; vm_compute; reflexivity. Qed.
Print Assumptions C34_follow_script_refuted.
(** C34.  A program that neither hides failures nor pretends to be shut down passes exactly when its calls follow the
    script (receive calls answered by Shutdown after the last event aside), at whatever point the alarm strikes. *)
Theorem C34_honest_program_partial : forall s p t' tr e, runs (tnet_new s) p t' tr e -> sc_done s = [] -> Forall fresh_sev (sc_pend s) -> Forall printable_event (map sv_ev (sc_pend s)) ->
  Forall (deliverable (sc_ifs s)) (map sv_ev (sc_pend s)) -> Forall printable_call (map fst tr) -> honest p -> (forall a q, ~ In (CSend a q, AnsExn EShutdown) tr) ->
  (reports_pass (t_scen t') e = true <-> went_well e /\ follows (sc_ifs s) (map sv_ev (sc_pend s)) (real_calls tr)).
Proof. intros s p t' tr e R Dn F P D Pc Hp NS. apply (honest_report _ _ _ _ _ R); [apply start_ready; assumption|assumption..]. Qed.
Print Assumptions C34_honest_program_partial.
(** C34.  The alarm that fails a test for not sending in time is set only while an output is expected and some event has
    been passed already: it never strikes a program that is waiting for input or has finished the script.  With packets that
    can be printed it is set exactly then. *)
Definition output_next (s : scen) : Prop := exists o d ts rest, sc_pend s = mkSev (EvOut o) d ts :: rest.
Definition alarmed (s : scen) : Prop := sc_done s <> [] /\ output_next s.
Lemma timer_pass e rest s : sc_timer (fst (testpass e rest s)) = true -> alarmed (fst (testpass e rest s)).
Proof. unfold testpass, alarmed, output_next. destruct (ev_shows _); cbn [fst with_queue sc_timer sc_done sc_pend]; [|discriminate].
  intros H. split; [destruct (sc_done s); discriminate|]. destruct rest as [|[[| |o] d ts] rest]; try discriminate H; cbn in H; try discriminate. exists o, d, ts, rest. reflexivity. Qed.
Lemma alarmed_queue s f : alarmed s -> alarmed (with_queue (sc_pend s) (on_last f (sc_done s)) (sc_timer s) s).
Proof. unfold alarmed, output_next. cbn [with_queue sc_done sc_pend]. intros [A B]. split; [|exact B]. destruct (sc_done s) as [|x [|y l]]; [contradiction|discriminate|discriminate]. Qed.
Lemma timer_head o o' d ts rest s : sc_pend s = mkSev (EvOut o) d ts :: rest -> (sc_timer s = true -> alarmed s) ->
  sc_timer (with_head (mkSev (EvOut o') d ts) rest s) = true -> alarmed (with_head (mkSev (EvOut o') d ts) rest s).
Proof. intros E H. unfold with_head, alarmed, output_next in *. cbn [sc_timer sc_done sc_pend]. intros T. destruct (H T) as [A _]. split; [exact A|]. eauto 10. Qed.
Lemma timer_call t c t' a : (sc_timer (t_scen t) = true -> alarmed (t_scen t)) -> do_call t c = (t', a) -> sc_timer (t_scen t') = true -> alarmed (t_scen t').
Proof. intros I H. destruct c as [|dv q]; cbn [do_call] in H.
  - unfold t_recv in H. destruct (sc_pend (t_scen t)) as [|[ev d ts] rest] eqn:E; [injection H as <- _; exact I|]. cbn [sv_ev] in H.
    pose proof (timer_pass (mkSev ev d ts) rest (t_scen t)) as K. destruct (testpass _ rest (t_scen t)) as [s' r]. cbn [fst] in K.
    destruct ev as [dev pk| tm |o]; [| |injection H as <- _; exact I];
      (destruct r; [destruct (generate _ _) as [[dd pp]|x]|]; injection H as <- _; cbn [t_scen]; [intros T; apply alarmed_queue, K; exact T..|exact K]).
  - unfold t_send in H. destruct (sc_pend (t_scen t)) as [|[ev d ts] rest] eqn:E; [injection H as <- _; exact I|].
    destruct (dev_name dv (t_scen t)) as [dn|x]; [|injection H as <- _; exact I]. cbn [sv_ev sv_desc sv_time] in H.
    destruct ev as [dev pk|tm|o]; [injection H as <- _; exact I|injection H as <- _; exact I|].
    destruct (out_match o dn q) as [o' [[| |]|x]].
    2:{ pose proof (timer_pass (mkSev (EvOut o') d ts) rest (t_scen t)) as K. destruct (testpass _ rest (t_scen t)) as [s' [u|u]]; cbn [fst] in K; injection H as <- _; exact K. }
    all: injection H as <- _; cbn [t_scen]; apply (timer_head o); assumption. Qed.
Lemma timer_moves s s' : moves s s' -> (alarmed s -> sc_timer s = true) -> alarmed s' -> sc_timer s' = true.
Proof. unfold alarmed, output_next. destruct 1 as [s|s o o' d t rest P L N W V|s e e' rest P L N C V]; intros I; [exact I| |]; cbn [with_head with_queue sc_done sc_pend sc_timer].
  - intros [A _]. apply I. split; [exact A|]. eauto.
  - intros [_ (o & d & ts & r & ->)]. reflexivity. Qed.
Theorem C34_alarm : forall s cs t' l, sc_timer s = false -> sc_done s = [] -> t_run (tnet_new s) cs = (t', l) ->
  (sc_timer (t_scen t') = true -> sc_done (t_scen t') <> [] /\ output_next (t_scen t')) /\
  (Forall fresh_sev (sc_pend s) -> Forall printable_event (map sv_ev (sc_pend s)) -> Forall printable_call cs ->
   sc_done (t_scen t') <> [] /\ output_next (t_scen t') -> sc_timer (t_scen t') = true).
Proof. intros s cs t' l T D H. split.
  - assert (I : sc_timer (t_scen (tnet_new s)) = true -> alarmed (t_scen (tnet_new s))) by (cbn [tnet_new t_scen]; rewrite T; discriminate).
    revert H I. generalize (tnet_new s). revert l. induction cs as [|c cs IH]; intros l t H I; cbn [t_run] in H; [injection H as <- _; exact I|].
    destruct (do_call t c) as [t1 a] eqn:A. destruct (t_run t1 cs) as [t2 l2] eqn:B. injection H as <- _. apply (IH l2 t1 B). apply (timer_call _ _ _ _ I A).
  - intros F P Pc. change (alarmed (t_scen t') -> sc_timer (t_scen t') = true).
    assert (I : alarmed (t_scen (tnet_new s)) -> sc_timer (t_scen (tnet_new s)) = true) by (cbn [tnet_new t_scen]; intros [C _]; rewrite D in C; contradiction).
    assert (S : sound (t_scen (tnet_new s))).
    { cbn [tnet_new t_scen]. unfold sound. rewrite D. split; [eapply Forall_impl; [|exact F]; intros e; apply fresh_open|]. split; [constructor|]. split; [|constructor].
      rewrite Forall_map in P. rewrite Forall_forall in *. intros e Hin. apply printable_prt; [apply P; exact Hin|apply F; exact Hin]. }
    clear F P T D. revert H I S Pc. generalize (tnet_new s). revert l. induction cs as [|c cs IH]; intros l t H I S Pc; cbn [t_run] in H; [injection H as <- _; exact I|].
    inversion Pc as [|? ? Pc1 Pc2]; subst. destruct (do_call t c) as [t1 a] eqn:A. destruct (t_run t1 cs) as [t2 l2] eqn:B. injection H as <- _.
    destruct (open_distinct _ (proj1 S)) as [D1 D2]. destruct (call_moves _ _ _ _ A D1 D2 (proj1 (proj2 (proj2 S))) Pc1) as (M & _ & _).
    apply (IH l2 t1 B); [apply (timer_moves _ _ M I)|eapply moves_sound; eauto|exact Pc2]. Qed.
Print Assumptions C34_alarm.
Example C34_alarm_example : sc_timer xscen = false /\ sc_done xscen = [] /\ exists t l, t_run (tnet_new xscen) [CRecv] = (t, l) /\ sc_timer (t_scen t) = true.
Proof. split; [reflexivity|]. split; [reflexivity|]. do 2 eexists. split; [vm_compute; reflexivity|]. vm_compute. reflexivity. Qed.
(** C34.  Any program that returns normally passes exactly when those of its calls that went well follow the script. *)
Theorem C34_any_return_partial : forall s p t' tr, runs (tnet_new s) p t' tr EndReturn -> sc_done s = [] -> Forall fresh_sev (sc_pend s) -> Forall printable_event (map sv_ev (sc_pend s)) ->
  Forall (deliverable (sc_ifs s)) (map sv_ev (sc_pend s)) -> Forall printable_call (map fst tr) ->
  (reports_pass (t_scen t') EndReturn = true <-> follows (sc_ifs s) (map sv_ev (sc_pend s)) (map fst (filter wellb tr))).
Proof. intros s p t' tr R Dn F P D Pc. exact (return_follows _ _ _ _ (start_ready _ Dn F P D) Pc R). Qed.
Print Assumptions C34_any_return_partial.
Definition xprog : prog :=
  Call CRecv (fun r => match r with AnsExn e => Raise e | _ => Call (CSend (DNum 1) xpkt2) (fun r => match r with AnsExn e => Raise e | _ => Call (CSend (DName "eth0") xpkt) (fun r => match r with AnsExn e => Raise e | _ => Return end) end) end).
Lemma xscen_fresh : Forall fresh_sev (sc_pend xscen).
Proof. constructor; [exact I|]. constructor; [|constructor]. unfold fresh_sev. cbn. split; [discriminate|]. split; [|reflexivity]. repeat constructor; cbn; intuition discriminate. Qed.
Lemma xscen_deliverable : Forall (deliverable (sc_ifs xscen)) (map sv_ev (sc_pend xscen)).
Proof. constructor; [|constructor; [exact I|constructor]]. split; [left; reflexivity|]. do 3 eexists. split; [vm_compute; reflexivity|]. vm_compute. reflexivity. Qed.
Lemma xscen_printable : Forall printable_event (map sv_ev (sc_pend xscen)).
Proof. constructor; [apply xpkt_in|]. constructor; [repeat constructor|constructor]. Qed.
Ltac answer_case a := match goal with |- honest _ => destruct a as [?| |[]]; cbn in *; try contradiction end.
Lemma xprog_honest : honest xprog.
Proof. assert (R : forall c k, (forall e, k (AnsExn e) = Raise e) -> (forall a, fine c a -> (forall e, a <> AnsExn e) -> honest (k a)) -> honest (Call c k)).
  { intros c k K1 K2. constructor; [|intros; apply K1|intros; left; apply K1]. intros a Fa. destruct a as [r| |e]; [apply K2; [exact Fa|discriminate]..|]. rewrite K1. constructor. intros ->. destruct c; contradiction. }
  unfold xprog. apply R; [reflexivity|]. intros [r| |e] Fa N; [|contradiction|exfalso; eapply N; reflexivity].
  apply R; [reflexivity|]. intros [r1| |e] Fb Nb; [contradiction| |exfalso; eapply Nb; reflexivity].
  apply R; [reflexivity|]. intros [r1| |e] Fc Nc; [contradiction| |exfalso; eapply Nc; reflexivity]. constructor. Qed.
Example C34_example : honest xprog /\ sc_done xscen = [] /\ Forall fresh_sev (sc_pend xscen) /\ Forall printable_event (map sv_ev (sc_pend xscen)) /\ Forall (deliverable (sc_ifs xscen)) (map sv_ev (sc_pend xscen)) /\
  exists t' tr, runs (tnet_new xscen) xprog t' tr EndReturn /\ Forall printable_call (map fst tr) /\ reports_pass (t_scen t') EndReturn = true.
Proof. split; [exact xprog_honest|]. split; [reflexivity|]. split; [exact xscen_fresh|]. split; [exact xscen_printable|]. split; [exact xscen_deliverable|]. do 2 eexists. split; [|split].
  - eapply r_call; [vm_compute; reflexivity|]. cbn iota. eapply r_call; [vm_compute; reflexivity|]. cbn iota. eapply r_call; [vm_compute; reflexivity|]. cbn iota. apply r_return.
  - repeat constructor.
  - vm_compute. reflexivity. Qed.
(** A program that hides a failure is reported as a pass although it made a call too many. *)
Theorem C34_hidden_failure_refuted : exists s p t' tr, Forall fresh_sev (sc_pend s) /\ runs (tnet_new s) p t' tr EndReturn /\
  reports_pass (t_scen t') EndReturn = true /\ ~ follows (sc_ifs s) (map sv_ev (sc_pend s)) (map fst tr).
Proof. exists (scen_expect (EvTimeout 1) "" (scen_new "")), (Call (CSend (DName "eth0") xpkt) (fun _ => Call CRecv (fun _ => Return))). do 2 eexists. split; [repeat constructor|]. split.
  - eapply r_call; [reflexivity|]. eapply r_call; [reflexivity|]. apply r_return.
  - split; [reflexivity|]. intros H. inversion H. Qed.
Print Assumptions C34_hidden_failure_refuted.
(** A program that raises Shutdown itself is reported as a pass with everything pending. *)
Theorem C34_early_shutdown_refuted : exists s p t', Forall fresh_sev (sc_pend s) /\ runs (tnet_new s) p t' [] (EndRaise EShutdown) /\
  reports_pass (t_scen t') (EndRaise EShutdown) = true /\ sc_done (t_scen t') = [] /\ sc_pend (t_scen t') <> [].
Proof. exists xscen, (Raise EShutdown), (tnet_new xscen). split; [exact xscen_fresh|]. split; [constructor|]. split; [reflexivity|]. split; [reflexivity|]. discriminate. Qed.
Print Assumptions C34_early_shutdown_refuted.

(** C35.  A scenario that has not been started comes back with the same interfaces, files and events in the same order,
    and saving it changes nothing. *)
Theorem C35_save_load_partial : forall s d s', sc_done s = [] -> Forall fresh_sev (sc_pend s) -> Forall (fun e => storable_event (sv_ev e)) (sc_pend s) -> scen_save s = Ok (d, s') ->
  s' = s /\ exists s2, scen_load d = Ok s2 /\ sc_name s2 = sc_name s /\ sc_ifs s2 = sc_ifs s /\ sc_files s2 = sc_files s /\ sc_next s2 = sc_next s /\ sc_timeout s2 = sc_timeout s /\
    sc_done s2 = [] /\ Forall2 same_sev (sc_pend s) (sc_pend s2).
Proof. exact save_load. Qed.
Print Assumptions C35_save_load_partial.
(** C35.  No sequence of calls tells the loaded scenario from the one saved. *)
Theorem C35_loaded_behaves_partial : forall s d s' s2 cs, sc_done s = [] -> Forall fresh_sev (sc_pend s) -> Forall (fun e => storable_event (sv_ev e)) (sc_pend s) ->
  scen_save s = Ok (d, s') -> scen_load d = Ok s2 -> snd (t_run (tnet_new s2) cs) = snd (t_run (tnet_new s) cs) /\
  (scen_done (t_scen (fst (t_run (tnet_new s2) cs))) = scen_done (t_scen (fst (t_run (tnet_new s) cs)))).
Proof. exact loaded_behaves. Qed.
Print Assumptions C35_loaded_behaves_partial.
Definition xkept : scen := scen_expect (EvOut (mkOut [("eth0", xexact xpkt)] [])) "out" (scen_expect (EvIn "eth0" xpkt) "in" (scen_add_file "f" "text" xbare)).
Example C35_example : sc_done xkept = [] /\ Forall fresh_sev (sc_pend xkept) /\ Forall (fun e => storable_event (sv_ev e)) (sc_pend xkept) /\ exists d s2, scen_save xkept = Ok (d, xkept) /\ scen_load d = Ok s2 /\ s2 <> xkept.
Proof. split; [reflexivity|]. split; [|split].
  - constructor; [exact I|]. constructor; [|constructor]. unfold fresh_sev. cbn. split; [discriminate|]. split; [|reflexivity]. repeat constructor; cbn; intuition.
  - constructor; [exact xpkt_storable|]. constructor; [|constructor]. cbn. constructor; [exact xpkt_storable|constructor].
  - do 2 eexists. split; [vm_compute; reflexivity|]. split; [vm_compute; reflexivity|]. discriminate. Qed.
(** A partly executed scenario comes back with its events in a different order: what had been done is last. *)
Theorem C35_order_refuted : exists s cs t l d s' s2, t_run (tnet_new s) cs = (t, l) /\ scen_save (t_scen t) = Ok (d, s') /\ scen_load d = Ok s2 /\
  map sv_desc (sc_pend s) = ["first"; "second"] /\ map sv_desc (sc_pend s2) = ["second"; "first"] /\ sc_done s2 = [].
Proof. exists (scen_expect (EvTimeout 2) "second" (scen_expect (EvTimeout 1) "first" (scen_new ""))), [CRecv]. do 5 eexists. split; [vm_compute; reflexivity|].
  split; [vm_compute; reflexivity|]. split; [vm_compute; reflexivity|]. repeat split. Qed.
Print Assumptions C35_order_refuted.
(** Once an expected packet has been seen, a second save raises AttributeError. *)
Theorem C35_save_twice_refuted : exists s cs t l d s', t_run (tnet_new s) cs = (t, l) /\ scen_save (t_scen t) = Ok (d, s') /\ scen_save s' = Err EAttr.
Proof. exists xscen, [CRecv; CSend (DName "eth0") xpkt]. do 4 eexists. split; [vm_compute; reflexivity|]. split; [vm_compute; reflexivity|]. vm_compute. reflexivity. Qed.
Print Assumptions C35_save_twice_refuted.
(** An exact expectation with IPv4 options that need padding no longer accepts its own packet once loaded. *)
Theorem C35_options_refuted : exists p m sm m2, matcher_new p true [] [] = Ok m /\ meets m p /\ save_matcher m = Ok sm /\ load_matcher sm = Ok m2 /\ exists p', m_match m2 p = Ok (false, p').
Proof. exists (xopt [ONop]). do 3 eexists. split; [vm_compute; reflexivity|]. split; [eexists; vm_compute; reflexivity|]. split; [vm_compute; reflexivity|]. split; [vm_compute; reflexivity|]. eexists. vm_compute. reflexivity. Qed.
Print Assumptions C35_options_refuted.

(** C36.  Over any history the receive calls hand over the scripted inputs (and time-outs) that have been passed, in order. *)
Theorem C36_scripted_inputs_partial : forall s os t' log, unused s -> Forall fresh_sev (authored 0 os) -> Forall (fun e => deliverable (sc_ifs s) (sv_ev e)) (authored 0 os) -> Forall printable_op os -> t_hist (tnet_new s) os = (t', log) ->
  Forall2 hands_over (map sv_ev (filter is_input (firstn (List.length (sc_done (t_scen t'))) (authored 0 os)))) (took log).
Proof. exact received_inputs. Qed.
Print Assumptions C36_scripted_inputs_partial.
(** C36.  Timestamps never decrease. *)
Theorem C36_time : forall s os t' log, t_hist (tnet_new s) os = (t', log) -> StronglySorted Z.le (times log).
Proof. exact recv_times. Qed.
Print Assumptions C36_time.
(** C36.  A receive where a send is expected yields no packet and changes nothing. *)
Theorem C36_no_packet_at_output : forall t o d ts rest, sc_pend (t_scen t) = mkSev (EvOut o) d ts :: rest ->
  exists e, do_call t CRecv = (t, AnsExn e) /\ (e = ETestFail \/ e = EAttr).
Proof. exact recv_where_output. Qed.
Print Assumptions C36_no_packet_at_output.
Example C36_example : unused xbare /\ Forall fresh_sev (authored 0 xhist) /\ Forall printable_op xhist /\ Forall (fun e => deliverable (sc_ifs xbare) (sv_ev e)) (authored 0 xhist) /\
  exists t log, t_hist (tnet_new xbare) xhist = (t, log) /\ List.length (took log) = 1%nat /\ times log = [0].
Proof. split; [repeat split|]. split; [exact xhist_fresh|]. split; [exact xhist_printable|]. split.
  - constructor; [|repeat constructor]. split; [left; reflexivity|]. do 3 eexists. split; [vm_compute; reflexivity|]. vm_compute. reflexivity.
  - do 2 eexists. split; [vm_compute; reflexivity|]. split; reflexivity. Qed.

(** C36.  An event that can be printed can still be printed when its scenario has been saved in the middle of it. *)
Theorem C36_saved_prints : forall e s e', save_event e = Ok (s, e') -> ev_shows e = true -> ev_shows e' = true.
Proof.
  intros [d p|n|o] s e' H P; cbn [save_event] in H.
  - destruct (save_pkt p) as [[b c]|]; [|discriminate]. cbn [bindr] in H. injection H as _ <-. exact P.
  - injection H as _ <-. reflexivity.
  - destruct (mapr (on_snd save_matcher) (oe_wait o)) as [w|]; [|discriminate]. cbn [bindr] in H. destruct (mapr (on_snd save_seen) (oe_got o)) as [g|]; [|discriminate]. cbn [bindr] in H. injection H as _ <-.
    cbn [ev_shows oe_wait oe_got] in *. apply andb_true_iff in P as [P _]. rewrite P. cbn [andb]. clear. induction g as [|x g IH]; [reflexivity|exact IH].
Qed.
Print Assumptions C36_saved_prints.
