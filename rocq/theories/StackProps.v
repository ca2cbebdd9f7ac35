(** C121: the UDP stack of the examples (examples/udpstack.py). *)
From Verif Require Import BaseLemmas CodecLemmas Dict DictLemmas EthAddrModel Enums EthModel EthAddrSpec EthProofs ArpModel Ipv4Model Ipv4Proofs TransportModel TransportProofs Ipv6Model IcmpModel PacketModel PacketSpec PacketProofs PacketProps
  FieldModel NetModel SendModel TestModel TestSpec TestRun TestProps SockModel SockProofs StackModel StackSpec StackProofs StackMany.
#[local] Open Scope string_scope.
#[local] Open Scope Z_scope.
#[local] Open Scope list_scope.

(** ** Sending *)
(** What an application sends leaves as one IPv4 datagram: the loopback family, a 20 byte header from the first IPv4 address
    of the interface to the address given, the two ports, the data.  [ic] and [c] are the checksums (C12, C10). *)
Theorem C121_sends : forall i pre post s k sip sport dip dport d, if_ips i = pre ++ (s, k) :: post -> ip4 s -> (forall x, In x pre -> List.length (fst x) <> 4%nat) -> ip4 dip -> wf_ports sport dport -> wfb d -> zlen d <= 65507 ->
  exists p p' b ic c, app_packet i (17, sip, sport, dip, dport) d = Ok p /\ pkt_to_bytes p = Ok (p', b) /\
    b = [2; 0; 0; 0] ++ ([0x45; 0; (28 + zlen d) / 256; (28 + zlen d) mod 256; 0xab; 0xcd; 0x40; 0; 64; 17] ++ be 2 ic ++ s ++ dip) ++ (be 2 sport ++ be 2 dport ++ be 2 (8 + zlen d) ++ be 2 c) ++ d.
Proof.
  intros i pre post s k sip sport dip dport d E Hs N Hd Hp W L. assert (A : app_packet i (17, sip, sport, dip, dport) d = Ok (udp_frame s dip sport dport d)) by (apply app_packet_ok; [eapply src4_first; [exact E|apply Hs|exact N]|apply Hs|apply Hd]).
  destruct (frame_ser s dip sport dport d Hs Hd Hp W L) as (c & p' & b & ic & S & _ & B). exists (udp_frame s dip sport dport d), p', b, ic, c. auto.
Qed.
Print Assumptions C121_sends.
(** Longer data cannot be sent. *)
Theorem C121_too_long : forall i pre post s k sip sport dip dport d, if_ips i = pre ++ (s, k) :: post -> ip4 s -> (forall x, In x pre -> List.length (fst x) <> 4%nat) -> ip4 dip -> wf_ports sport dport -> wfb d -> 65507 < zlen d ->
  exists p, app_packet i (17, sip, sport, dip, dport) d = Ok p /\ pkt_to_bytes p = Err EStruct.
Proof.
  intros i pre post s k sip sport dip dport d E Hs N Hd Hp W L. assert (A : app_packet i (17, sip, sport, dip, dport) d = Ok (udp_frame s dip sport dport d)) by (apply app_packet_ok; [eapply src4_first; [exact E|apply Hs|exact N]|apply Hs|apply Hd]).
  eexists. split; [exact A|]. exact (frame_long s dip sport dport d Hs Hd Hp W L).
Qed.
Print Assumptions C121_too_long.

(** ** Receiving *)
(** A packet is handed to the applications exactly when it is a UDP datagram over IPv4 with data, *)
Theorem C121_receives : forall p d, printable p -> (net_data p = Ok (Some d) <-> datagram p d).
Proof. exact net_datagram. Qed.
Print Assumptions C121_receives.
(** and passed over exactly when it has no IPv4 header or is an ICMP message.  All others raise an exception. *)
Theorem C121_ignores : forall p, printable p -> (net_data p = Ok None <-> ignored p).
Proof. exact net_ignored. Qed.
Print Assumptions C121_ignores.

(** ** From one application to another *)
(** The data, not empty, that a program sends to an address are read at the other end by the program whose socket is bound to that
    address, together with the address of the sender's interface and the sender's port.  (Both queues are empty before.) *)
Theorem C121_end_to_end_partial : forall na s k d addr dip dport i pre post ip plen nb q,
  nth_error (n_socks na) s = Some k -> k_proto k = 17 -> a_ip addr = Some dip -> a_port addr = PInt dport -> n_down na = [] ->
  if_ips i = pre ++ (ip, plen) :: post -> ip4 ip -> (forall x, In x pre -> List.length (fst x) <> 4%nat) -> ip4 dip -> wf_ports (k_port k) dport -> wfb d -> d <> [] -> zlen d <= 65507 ->
  (forall kb t, nth_error (n_socks nb) q = Some kb -> k_timeout kb = Some t -> 0 <= t) -> nth_error (n_queues nb) q = Some [] ->
  (rget (17, dip, dport) (n_reg nb) = Some q \/ rget (17, dip, dport) (n_reg nb) = None /\ rget (17, [0; 0; 0; 0], dport) (n_reg nb) = Some q) ->
  exists na1 f na2 p p' b r x nb1 nb2, do_act na (ASendto s d addr) = (na1, RSent f d) /\ do_act na1 ARecvApp = (na2, RApp f d) /\
    app_packet i f d = Ok p /\ pkt_to_bytes p = Ok (p', b) /\ pkt_new b CNull = Ok r /\ net_data r = Ok (Some x) /\
    do_op nb (deliver_op x) = (nb1, RPut q ((dip, dport), (ip, k_port k), d)) /\ do_act nb1 (ARecv q) = (nb2, RGot ((dip, dport), (ip, k_port k), d)).
Proof.
  intros na s k d addr dip dport i pre post ip plen nb q Hk Kp A1 A2 Dn E Hs N Hd Hp W Ne L Tw Qe R.
  assert (Bw : bad_wait q nb = false).
  { unfold bad_wait. destruct (nth_error (n_socks nb) q) as [kb|] eqn:Ek; [|reflexivity]. destruct (k_timeout kb) as [t|] eqn:Et; [|apply andb_false_r]. specialize (Tw kb t eq_refl Et). destruct (Z.ltb_spec t 0); [lia|apply andb_false_r]. }
  destruct (frame_back ip dip (k_port k) dport d Hs Hd Hp W L Ne) as (p' & b & r & S & P & G).
  assert (D : exists nb1, do_op nb (deliver_op (mkDel 17 (dip, dport) (ip, k_port k) d)) = (nb1, RPut q ((dip, dport), (ip, k_port k), d)) /\ n_socks nb1 = n_socks nb /\ nth_error (n_queues nb1) q = Some [((dip, dport), (ip, k_port k), d)]).
  { assert (U1 : flying (List.length (n_fl nb)) (with_flights (n_fl nb ++ [Some (InPut q ((dip, dport), (ip, k_port k), d))]) nb) = Some (InPut q ((dip, dport), (ip, k_port k), d))) by (unfold flying, with_flights; cbn [n_fl]; rewrite nth_error_app2, Nat.sub_diag by lia; reflexivity).
    assert (Pt : forall n1, flying (List.length (n_fl nb)) n1 = Some (InPut q ((dip, dport), (ip, k_port k), d)) -> n_queues n1 = n_queues nb -> n_socks n1 = n_socks nb ->
      exists nb1, do_act n1 (APut (List.length (n_fl nb))) = (nb1, RPut q ((dip, dport), (ip, k_port k), d)) /\ n_socks nb1 = n_socks nb /\ nth_error (n_queues nb1) q = Some [((dip, dport), (ip, k_port k), d)]).
    { intros n1 F Q1 S1. cbn [do_act]. unfold a_put. rewrite F, Q1, Qe. eexists. split; [reflexivity|]. split; [exact S1|]. unfold with_queue, stop, with_flights. cbn [n_queues]. rewrite Q1.
      clear -Qe. revert Qe. generalize (n_queues nb) as l. generalize q as j. induction j as [|j IH]; intros [|x l] H; try discriminate; cbn [upd nth_error] in *; [reflexivity|auto]. }
    assert (A0 : forall q0, rget (17, dip, dport) (n_reg nb) = q0 -> do_act nb (ADeliver 17 (mkAddr (Some dip) (PInt dport)) (mkAddr (Some ip) (PInt (k_port k))) d) = start match q0 with Some q1 => InPut q1 ((dip, dport), (ip, k_port k), d) | None => InWild 17 ((dip, dport), (ip, k_port k), d) end nb).
    { intros q0 <-. cbn [do_act]. unfold a_deliver, normalize. cbn [a_ip a_port]. replace (enum_of IPProtocols 17) with (@Ok Z 17) by reflexivity. cbn [fst snd]. destruct (rget _ _); reflexivity. }
    unfold deliver_op, do_op. cbn [dl_proto dl_local dl_remote dl_data fst snd]. cbv zeta.
    destruct R as [R|[R1 R2]].
    - rewrite (A0 _ R). unfold start. cbn [fst snd]. rewrite U1. apply Pt; [exact U1|reflexivity|reflexivity].
    - rewrite (A0 _ R1). unfold start. cbn [fst snd].
      assert (U2 : flying (List.length (n_fl nb)) (with_flights (n_fl nb ++ [Some (InWild 17 ((dip, dport), (ip, k_port k), d))]) nb) = Some (InWild 17 ((dip, dport), (ip, k_port k), d))) by (unfold flying, with_flights; cbn [n_fl]; rewrite nth_error_app2, Nat.sub_diag by lia; reflexivity).
      rewrite U2. assert (A1' : do_act (with_flights (n_fl nb ++ [Some (InWild 17 ((dip, dport), (ip, k_port k), d))]) nb) (AWild (List.length (n_fl nb))) = (with_flights (n_fl nb ++ [Some (InPut q ((dip, dport), (ip, k_port k), d))]) nb, RFlight (List.length (n_fl nb)))).
      { cbn [do_act]. unfold a_wild. rewrite U2. cbn [fst snd]. unfold with_flights. cbn [n_reg n_fl]. assert (R3 : rget (17, any_ip, dport) (n_reg nb) = Some q) by exact R2. rewrite R3, upd_snoc. reflexivity. }
      rewrite A1'. unfold then_act. cbn [fst snd]. apply Pt; [exact U1|reflexivity|reflexivity]. }
  destruct D as (nb1 & D1 & D2 & D3). do 3 eexists. exists (udp_frame ip dip (k_port k) dport d), p', b, r. eexists. exists nb1. eexists. split; [|split; [|split; [|split; [exact S|split; [exact P|split; [exact G|split; [exact D1|]]]]]]].
  - cbn [do_act]. unfold a_sendto. rewrite Hk. unfold normalize. rewrite A1, A2. unfold put_down. reflexivity.
  - cbn [do_act]. unfold a_recv_app, with_down. cbn [n_down]. rewrite Dn. reflexivity.
  - unfold flow_of. rewrite Kp. apply app_packet_ok; [eapply src4_first; [exact E|apply Hs|exact N]|apply Hs|apply Hd].
  - cbn [do_act]. unfold a_recv. rewrite D3. assert (B : bad_wait q nb1 = false) by (unfold bad_wait in *; rewrite D2; exact Bw). rewrite B. reflexivity.
Qed.
Print Assumptions C121_end_to_end_partial.

(** The same for any number of messages, and whatever waits in the receiving queue already: the stack takes them in the order they were sent, and the
    other program reads first what was waiting and then all of them, in that order, each once, with the address of the sender. *)
Theorem C121_many_partial : forall na s k addr dip dport i pre post ip plen nb q old ds,
  nth_error (n_socks na) s = Some k -> k_proto k = 17 -> a_ip addr = Some dip -> a_port addr = PInt dport -> n_down na = [] ->
  if_ips i = pre ++ (ip, plen) :: post -> ip4 ip -> (forall x, In x pre -> List.length (fst x) <> 4%nat) -> ip4 dip -> wf_ports (k_port k) dport ->
  Forall (fun d => wfb d /\ d <> [] /\ zlen d <= 65507) ds ->
  (forall kb t, nth_error (n_socks nb) q = Some kb -> k_timeout kb = Some t -> 0 <= t) -> nth_error (n_queues nb) q = Some old ->
  (rget (17, dip, dport) (n_reg nb) = Some q \/ rget (17, dip, dport) (n_reg nb) = None /\ rget (17, [0; 0; 0; 0], dport) (n_reg nb) = Some q) ->
  exists f na1 na2 bs xs nb1 nb2 log1 log2 log3 log4,
    acts_run na (map (fun d => ASendto s d addr) ds) = (na1, log1) /\ map snd log1 = map (RSent f) ds /\
    acts_run na1 (repeat ARecvApp (List.length ds)) = (na2, log2) /\ map snd log2 = map (RApp f) ds /\
    Forall2 (fun d b => exists p p', app_packet i f d = Ok p /\ pkt_to_bytes p = Ok (p', b)) ds bs /\
    Forall2 (fun b x => exists r, pkt_new b CNull = Ok r /\ net_data r = Ok (Some x)) bs xs /\
    ops_run nb (map deliver_op xs) = (nb1, log3) /\ map snd log3 = map (fun d => RPut q ((dip, dport), (ip, k_port k), d)) ds /\
    acts_run nb1 (repeat (ARecv q) (List.length old + List.length ds)) = (nb2, log4) /\ map snd log4 = map RGot (old ++ map (fun d => ((dip, dport), (ip, k_port k), d)) ds).
Proof.
  intros na s k addr dip dport i pre post ip plen nb q old ds Hk Kp A1 A2 Dn E Hs N Hd Hp F Tw Qe R.
  assert (Bw : forall n, n_socks n = n_socks nb -> bad_wait q n = false).
  { intros n En. unfold bad_wait. rewrite En. destruct (nth_error (n_socks nb) q) as [kb|] eqn:Ek; [|reflexivity]. destruct (k_timeout kb) as [t|] eqn:Et; [|apply andb_false_r]. specialize (Tw kb t eq_refl Et). destruct (Z.ltb_spec t 0); [lia|apply andb_false_r]. }
  assert (Nz : normalize addr = Ok (dip, dport)) by (unfold normalize; rewrite A1, A2; reflexivity).
  destruct (sends_down s addr k (dip, dport) ds na Hk Nz) as (log1 & E1 & L1). rewrite Dn in E1. cbn [app] in E1.
  destruct (takes_down (flow_of k (dip, dport)) ds (with_down (map (pair (flow_of k (dip, dport))) ds) na) eq_refl) as (log2 & E2 & L2).
  destruct (delivers_append dip dport ip (k_port k) q ds nb old Qe R) as (nb1 & log3 & E3 & L3 & S3 & Q3).
  destruct (recvs q _ nb1 Q3 (Bw nb1 S3)) as (nb2 & log4 & E4 & L4 & _). rewrite app_length, map_length in E4.
  assert (B : exists bs, Forall2 (fun d b => exists p p', app_packet i (flow_of k (dip, dport)) d = Ok p /\ pkt_to_bytes p = Ok (p', b)) ds bs /\
    Forall2 (fun b x => exists r, pkt_new b CNull = Ok r /\ net_data r = Ok (Some x)) bs (map (fun d => mkDel 17 (dip, dport) (ip, k_port k) d) ds)).
  { clear - F Hs Hd Hp Kp E N. induction F as [|d ds (W & Ne & L) _ (bs & B1 & B2)]; [exists []; split; constructor|].
    destruct (frame_back ip dip (k_port k) dport d Hs Hd Hp W L Ne) as (p' & b & r & S & P & G). exists (b :: bs). split; (constructor; [|assumption]).
    - exists (udp_frame ip dip (k_port k) dport d), p'. split; [|exact S]. unfold flow_of. rewrite Kp. apply app_packet_ok; [eapply src4_first; [exact E|apply Hs|exact N]|apply Hs|apply Hd].
    - exists r. auto. }
  destruct B as (bs & B1 & B2). exists (flow_of k (dip, dport)). do 2 eexists. exists bs. eexists. exists nb1, nb2, log1, log2, log3, log4.
  split; [exact E1|]. split; [exact L1|]. split; [exact E2|]. split; [exact L2|]. split; [exact B1|]. split; [exact B2|]. split; [rewrite map_map; exact E3|]. auto.
Qed.
Print Assumptions C121_many_partial.

(** ** The loop *)
(** The interface used is the first loopback interface; without one the stack does not start. *)
Theorem C121_loopback : forall ports i, loop_if ports = Ok i <-> exists p, fst p = i /\ first_with (fun x => snd x = TLoopback) ports p.
Proof.
  intros ports i. induction ports as [|[j t] r IH]; cbn [loop_if].
  - split; [discriminate|]. intros (p & _ & a & b & E & _). destruct a; discriminate.
  - destruct (is_loop t) eqn:L.
    + split; [intros H; injection H as <-; exists (j, t); split; [reflexivity|]; exists [], r; split; [reflexivity|]; split; [destruct t; try discriminate; reflexivity|intros ? []]|].
      intros (p & <- & a & b & E & Hp & N). destruct a as [|y a]; cbn [app] in E; injection E as <- E; [reflexivity|]. exfalso. apply (N (j, t)); [left; reflexivity|]. destruct t; try discriminate; reflexivity.
    + rewrite IH. split; intros (p & F & a & b & E & Hp & N).
      * exists p. split; [exact F|]. exists ((j, t) :: a), b. split; [rewrite E; reflexivity|]. split; [exact Hp|]. intros y [<-|Y]; [cbn [snd]; intros ->; discriminate|exact (N y Y)].
      * exists p. split; [exact F|]. destruct a as [|y a]; cbn [app] in E; injection E as E1 E; [subst p; cbn [snd] in Hp; subst t; discriminate|]. exists a, b. split; [exact E|]. split; [exact Hp|]. intros z Z. apply N. right. exact Z.
Qed.
Print Assumptions C121_loopback.
Theorem C121_no_loopback : forall ports l, (forall p, In p ports -> snd p <> TLoopback) -> stack ports l = ([], Some (Err EExc)).
Proof.
  intros ports l H. unfold stack. assert (E : loop_if ports = Err EExc); [|rewrite E; reflexivity]. induction ports as [|[j t] r IH]; [reflexivity|]. cbn [loop_if].
  pose proof (H (j, t) ltac:(left; reflexivity)) as N. cbn [snd] in N. destruct t; try congruence; cbn [is_loop]; apply IH; intros p P; apply H; right; exact P.
Qed.
Print Assumptions C121_no_loopback.
(** In a history in which nothing raises an exception, everything the applications send goes out of the loopback interface in
    order, each once; the datagrams that arrive are handed over in order, each once; and the stack ends, closing the network,
    exactly when the network is shut down. *)
Theorem C121_loop_partial : forall ports i l ms ps b sent ds, loop_if ports = Ok i -> quiet l ms ps b -> Forall2 (fun m p => app_packet i (fst m) (snd m) = Ok p) ms sent -> Forall printable ps -> datagrams ps ds ->
  exists o, stack ports l = (o ++ (if b then [OClose] else []), if b then Some (Ok tt) else None) /\ sends o = map (pair i) sent /\ handed o = ds /\ ~ In OClose o.
Proof. intros ports i l ms ps b sent ds L Q F P D. unfold stack. rewrite L. exact (loop_quiet i l ms ps b Q sent ds F P D). Qed.
Print Assumptions C121_loop_partial.

(** ** What stops the stack *)
(** A packet that arrives and is neither a datagram with data nor to be passed over ends the program with an exception. *)
Theorem C121_stopped : forall i f r l e, net_data (rv_pkt r) = Err e -> stack_loop i (mkRound None f (NGot r) :: l) = ([], Some (Err e)).
Proof. intros i f r l e H. cbn [stack_loop r_app r_net]. rewrite H. reflexivity. Qed.
(** A receive or a send that fails ends the program with the exception, after whatever history without trouble: what had been taken
    from the applications has been sent, what had arrived has been delivered, and nothing more happens. *)
Lemma loop_app i a : forall o, stack_loop i a = (o, None) -> forall b, stack_loop i (a ++ b) = (let '(o2, e2) := stack_loop i b in (o ++ o2, e2)).
Proof.
  induction a as [|r a IH]; intros o H b; cbn [stack_loop app] in *.
  - injection H as <-. destruct (stack_loop i b). reflexivity.
  - assert (K : forall o, match r_net r with NGot x => match net_data (rv_pkt x) with Err e => ([], Some (Err e)) | Ok None => stack_loop i a | Ok (Some d) => let '(o, e) := stack_loop i a in (ODeliver d :: o, e) end
        | NNothing => stack_loop i a | NShutdown => ([OClose], Some (Ok tt)) | NFail e => ([], Some (Err e)) end = (o, None) ->
      match r_net r with NGot x => match net_data (rv_pkt x) with Err e => ([], Some (Err e)) | Ok None => stack_loop i (a ++ b) | Ok (Some d) => let '(o, e) := stack_loop i (a ++ b) in (ODeliver d :: o, e) end
        | NNothing => stack_loop i (a ++ b) | NShutdown => ([OClose], Some (Ok tt)) | NFail e => ([], Some (Err e)) end = (let '(o2, e2) := stack_loop i b in (o ++ o2, e2))).
    { clear H o. intros o H. destruct (r_net r) as [x| | |e]; try discriminate; [|apply IH; exact H]. destruct (net_data (rv_pkt x)) as [[d|]|]; try discriminate; [|apply IH; exact H].
      destruct (stack_loop i a) as [o1 e1] eqn:E. injection H as <- ->. rewrite (IH o1 eq_refl b). destruct (stack_loop i b). reflexivity. }
    destruct (r_app r) as [[f d]|]; [|apply K; exact H]. destruct (app_packet i f d) as [p|]; [|discriminate]. destruct (r_fail r); [discriminate|].
    match type of H with (let '(o, e) := ?x in _) = _ => destruct x as [o1 e1] eqn:E end. injection H as <- ->. rewrite (K o1 eq_refl). destruct (stack_loop i b). reflexivity.
Qed.
Theorem C121_failures : forall ports i l ms ps sent ds e more, loop_if ports = Ok i -> quiet l ms ps false -> Forall2 (fun m p => app_packet i (fst m) (snd m) = Ok p) ms sent -> Forall printable ps -> datagrams ps ds ->
  exists o, sends o = map (pair i) sent /\ handed o = ds /\ ~ In OClose o /\
    (forall fl, stack ports (l ++ mkRound None fl (NFail e) :: more) = (o, Some (Err e))) /\
    (forall f d p, app_packet i f d = Ok p -> stack ports (l ++ mkRound (Some (f, d)) None (NFail e) :: more) = (o ++ [OSend i p], Some (Err e))) /\
    (forall f d p a, app_packet i f d = Ok p -> stack ports (l ++ mkRound (Some (f, d)) (Some e) a :: more) = (o ++ [OSend i p], Some (Err e))).
Proof.
  intros ports i l ms ps sent ds e more L Q F P D. destruct (loop_quiet i l ms ps false Q sent ds F P D) as (o & E & E1 & E2 & E3). rewrite app_nil_r in E. exists o. split; [exact E1|]. split; [exact E2|]. split; [exact E3|]. unfold stack. rewrite L.
  split; [intros fl|split; [intros f d p A|intros f d p a A]]; rewrite (loop_app i l o E); cbn [stack_loop r_app r_net r_fail]; rewrite ?A, ?app_nil_r; reflexivity.
Qed.
Print Assumptions C121_failures.
(** IPv4 packets of any other protocol do so, *)
Theorem C121_other_protocol_refuted : forall a ip b, printable (a ++ HIp4 ip :: b) -> (forall x, ~ In (HIp4 x) a) -> ip_proto ip <> 17 -> ip_proto ip <> 1 -> net_data (a ++ HIp4 ip :: b) = Err EIndex.
Proof.
  intros a ip b P N N1 N2. rewrite net_ip; [|apply pkt_prints; exact P|exact N]. destruct (Z.eqb_spec (ip_proto ip) 17); [contradiction|]. destruct (Z.eqb_spec (ip_proto ip) 1); [contradiction|]. reflexivity.
Qed.
Print Assumptions C121_other_protocol_refuted.
(** and so does an empty message, sent by a program with the same stack: at the other end it stops the stack. *)
Theorem C121_empty_refuted : forall i pre post s k sip sport dip dport, if_ips i = pre ++ (s, k) :: post -> ip4 s -> (forall x, In x pre -> List.length (fst x) <> 4%nat) -> ip4 dip -> wf_ports sport dport ->
  exists p p' b r, app_packet i (17, sip, sport, dip, dport) [] = Ok p /\ pkt_to_bytes p = Ok (p', b) /\ pkt_new b CNull = Ok r /\
    forall j t dev l, stack_loop j (mkRound None None (NGot (mkRecv t dev r)) :: l) = ([], Some (Err EAttr)).
Proof.
  intros i pre post s k sip sport dip dport E Hs N Hd Hp. destruct (frame_back_empty s dip sport dport Hs Hd Hp) as (p' & b & q & S & P & G). exists (udp_frame s dip sport dport []), p', b, q.
  split; [apply app_packet_ok; [eapply src4_first; [exact E|apply Hs|exact N]|apply Hs|apply Hd]|]. split; [exact S|]. split; [exact P|]. intros j t dev l. apply C121_stopped. exact G.
Qed.
Print Assumptions C121_empty_refuted.

(** ** Cases *)
Definition x_lo : iface := mkIf "lo0" [0; 0; 0; 0; 0; 0] [(repeat 0 16, 128); ([127; 0; 0; 1], 8)] 0.
Definition x_ports : list port := [(mkIf "en0" [0; 0; 0; 0; 0; 1] [([10; 0; 0; 1], 24)] 1, TWired); (x_lo, TLoopback)].
Definition x_dgram : packet := [HNull 2; HIp4 (mkIp4 0 31 64 0xabcd 2 0 17 [127; 0; 0; 1] [127; 0; 0; 1] []); HUdp (mkUdp 5000 40000 11 0); HRaw [104; 105; 33]].
Definition x_arp_like : packet := [HNull 2; HRaw [1; 2; 3]].
Definition x_flow : flow := (17, [0; 0; 0; 0], 40000, [127; 0; 0; 1], 5000).
Definition x_rounds : list round :=
  [mkRound (Some (x_flow, [104; 105])) None NNothing; mkRound None None (NGot (mkRecv 0 "lo0" x_arp_like)); mkRound (Some (x_flow, [33])) None (NGot (mkRecv 1 "lo0" x_dgram)); mkRound None None NShutdown].
(** The addresses of the interface: an IPv6 address first, which is passed over. *)
Example C121_sends_example : exists pre post s k, if_ips x_lo = pre ++ (s, k) :: post /\ ip4 s /\ (forall x, In x pre -> List.length (fst x) <> 4%nat) /\ wf_ports 40000 5000.
Proof.
  exists [(repeat 0 16, 128)], [], [127; 0; 0; 1], 8. split; [reflexivity|]. split; [split; [unfold wfb; repeat constructor; lia|reflexivity]|]. split; [intros x [<-|[]]; vm_compute; discriminate|]. unfold wf_ports. lia.
Qed.
Example C121_loop_example : loop_if x_ports = Ok x_lo /\ quiet x_rounds [(x_flow, [104; 105]); (x_flow, [33])] [x_arp_like; x_dgram] true /\
  datagrams [x_arp_like; x_dgram] [mkDel 17 ([127; 0; 0; 1], 40000) ([127; 0; 0; 1], 5000) [104; 105; 33]] /\ Forall printable [x_arp_like; x_dgram].
Proof.
  split; [reflexivity|]. split; [|split].
  - unfold x_rounds. apply (q_none (Some (x_flow, [104; 105])) _ [(x_flow, [33])]). apply (q_got None (mkRecv 0 "lo0" x_arp_like) _ [(x_flow, [33])]). apply (q_got (Some (x_flow, [33])) (mkRecv 1 "lo0" x_dgram) _ []). apply (q_stop None).
  - apply dg_skip; [left; intros x [H|[H|[]]]; discriminate|]. apply dg_one; [|apply dg_nil]. eexists _, _, [_; _; _], _. unfold x_dgram. split; [exists [HNull 2]; eexists; split; [reflexivity|]; split; [eexists; reflexivity|intros y [<-|[]] [z Z]; discriminate]|]. split; [reflexivity|].
    split; [exists [HNull 2; HIp4 (mkIp4 0 31 64 0xabcd 2 0 17 [127; 0; 0; 1] [127; 0; 0; 1] [])]; eexists; split; [reflexivity|]; split; [eexists; reflexivity|intros y [<-|[<-|[]]] [z Z]; discriminate]|]. split; reflexivity.
  - repeat constructor; apply pkt_prints; reflexivity.
Qed.
Example C121_loop_case : stack x_ports x_rounds = ([OSend x_lo (udp_frame [127; 0; 0; 1] [127; 0; 0; 1] 40000 5000 [104; 105]); OSend x_lo (udp_frame [127; 0; 0; 1] [127; 0; 0; 1] 40000 5000 [33]); ODeliver (mkDel 17 ([127; 0; 0; 1], 40000) ([127; 0; 0; 1], 5000) [104; 105; 33]); OClose], Some (Ok tt)).
Proof. vm_compute. reflexivity. Qed.
(** The two ends of C121_end_to_end_partial: a socket with port 40000, and one bound to 127.0.0.1 port 5000. *)
Definition x_na : snet := fst (ops_run snet_new [SNew 2 2 0 40000 [] true]).
Definition x_nb : snet := fst (ops_run snet_new [SNew 2 2 0 40001 [] true; SBind 0 (mkAddr (Some [127; 0; 0; 1]) (PInt 5000)) [] true]).
Example C121_end_to_end_example : nth_error (n_socks x_na) 0 = Some (mkSock 17 [0; 0; 0; 0] 40000 None None true) /\ n_down x_na = [] /\ nth_error (n_queues x_nb) 0 = Some [] /\ rget (17, [127; 0; 0; 1], 5000) (n_reg x_nb) = Some 0%nat /\
  (forall kb t, nth_error (n_socks x_nb) 0 = Some kb -> k_timeout kb = Some t -> 0 <= t).
Proof. vm_compute. repeat split. intros kb t H. injection H as <-. intros K. discriminate. Qed.
Example C121_many_example : Forall (fun d => wfb d /\ d <> [] /\ zlen d <= 65507) [[104; 105]; [0]; [255; 1; 2]] /\
  map snd (snd (acts_run x_na (map (fun d => ASendto 0 d (mkAddr (Some [127; 0; 0; 1]) (PInt 5000))) [[104; 105]; [0]]))) = [RSent (17, [0; 0; 0; 0], 40000, [127; 0; 0; 1], 5000) [104; 105]; RSent (17, [0; 0; 0; 0], 40000, [127; 0; 0; 1], 5000) [0]].
Proof. split; [repeat constructor; try discriminate; lia|vm_compute; reflexivity]. Qed.
Example C121_other_protocol_example : net_data [HNull 2; HIp4 (mkIp4 0 0 64 0 0 0 6 [10; 0; 0; 1] [10; 0; 0; 2] []); HTcp (mkTcp 80 80 0 0 2 0 0 0 0)] = Err EIndex /\
  net_data [HNull 2; HIp4 (mkIp4 0 0 64 0 0 0 1 [10; 0; 0; 1] [10; 0; 0; 2] [])] = Err EIndex /\
  net_data [HNull 2; HIp4 (mkIp4 0 0 64 0 0 0 17 [10; 0; 0; 1] [10; 0; 0; 2] [])] = Err EAttr.
Proof. vm_compute. auto. Qed.
