(** Many messages through the UDP stack: lemmas about the sockets on both sides. *)
From Verif Require Import BaseLemmas CodecLemmas Dict DictLemmas EthAddrModel Enums EthModel Ipv4Model TransportModel PacketModel NetModel SendModel TestModel SockModel SockProofs StackModel StackSpec StackProofs.
#[local] Open Scope Z_scope.
#[local] Open Scope list_scope.

Lemma upd_same {A} (l : list A) : forall j x y, nth_error l j = Some y -> nth_error (upd j x l) j = Some x.
Proof. induction l as [|z l IH]; intros [|j] x y H; try discriminate; cbn [upd nth_error] in *; [reflexivity|eauto]. Qed.

(** One datagram for a bound address goes to the end of the queue of the socket. *)
Lemma deliver_appends nb q l dip dport rip rport d : nth_error (n_queues nb) q = Some l ->
  (rget (17, dip, dport) (n_reg nb) = Some q \/ rget (17, dip, dport) (n_reg nb) = None /\ rget (17, [0; 0; 0; 0], dport) (n_reg nb) = Some q) ->
  exists nb1, do_op nb (deliver_op (mkDel 17 (dip, dport) (rip, rport) d)) = (nb1, RPut q ((dip, dport), (rip, rport), d)) /\ n_socks nb1 = n_socks nb /\ n_reg nb1 = n_reg nb /\
    nth_error (n_queues nb1) q = Some (l ++ [((dip, dport), (rip, rport), d)]).
Proof.
  intros Qe R. set (m := ((dip, dport), (rip, rport), d) : msg).
  assert (U1 : flying (List.length (n_fl nb)) (with_flights (n_fl nb ++ [Some (InPut q m)]) nb) = Some (InPut q m)) by (unfold flying, with_flights; cbn [n_fl]; rewrite nth_error_app2, Nat.sub_diag by lia; reflexivity).
  assert (Pt : forall n1, flying (List.length (n_fl nb)) n1 = Some (InPut q m) -> n_queues n1 = n_queues nb -> n_socks n1 = n_socks nb -> n_reg n1 = n_reg nb ->
    exists nb1, do_act n1 (APut (List.length (n_fl nb))) = (nb1, RPut q m) /\ n_socks nb1 = n_socks nb /\ n_reg nb1 = n_reg nb /\ nth_error (n_queues nb1) q = Some (l ++ [m])).
  { intros n1 F Q1 S1 G1. cbn [do_act]. unfold a_put. rewrite F, Q1, Qe. eexists. split; [reflexivity|]. split; [exact S1|]. split; [exact G1|]. unfold with_queue, stop, with_flights. cbn [n_queues]. rewrite Q1. eapply upd_same. exact Qe. }
  assert (A0 : forall q0, rget (17, dip, dport) (n_reg nb) = q0 -> do_act nb (ADeliver 17 (mkAddr (Some dip) (PInt dport)) (mkAddr (Some rip) (PInt rport)) d) = start match q0 with Some q1 => InPut q1 m | None => InWild 17 m end nb).
  { intros q0 <-. cbn [do_act]. unfold a_deliver, normalize. cbn [a_ip a_port]. replace (enum_of IPProtocols 17) with (@Ok Z 17) by reflexivity. cbn [fst snd]. destruct (rget _ _); reflexivity. }
  unfold deliver_op, do_op. cbn [dl_proto dl_local dl_remote dl_data fst snd]. cbv zeta.
  destruct R as [R|[R1 R2]].
  - rewrite (A0 _ R). unfold start. cbn [fst snd]. rewrite U1. apply Pt; [exact U1|reflexivity|reflexivity|reflexivity].
  - rewrite (A0 _ R1). unfold start. cbn [fst snd].
    assert (U2 : flying (List.length (n_fl nb)) (with_flights (n_fl nb ++ [Some (InWild 17 m)]) nb) = Some (InWild 17 m)) by (unfold flying, with_flights; cbn [n_fl]; rewrite nth_error_app2, Nat.sub_diag by lia; reflexivity).
    rewrite U2. assert (A1' : do_act (with_flights (n_fl nb ++ [Some (InWild 17 m)]) nb) (AWild (List.length (n_fl nb))) = (with_flights (n_fl nb ++ [Some (InPut q m)]) nb, RFlight (List.length (n_fl nb)))).
    { cbn [do_act]. unfold a_wild. rewrite U2. subst m. cbn [fst snd]. unfold with_flights. cbn [n_reg n_fl]. assert (R3 : rget (17, any_ip, dport) (n_reg nb) = Some q) by exact R2. rewrite R3, upd_snoc. reflexivity. }
    rewrite A1'. unfold then_act. cbn [fst snd]. apply Pt; [exact U1|reflexivity|reflexivity|reflexivity].
Qed.
Lemma delivers_append dip dport rip rport q ds : forall nb l, nth_error (n_queues nb) q = Some l ->
  (rget (17, dip, dport) (n_reg nb) = Some q \/ rget (17, dip, dport) (n_reg nb) = None /\ rget (17, [0; 0; 0; 0], dport) (n_reg nb) = Some q) ->
  exists nb1 log, ops_run nb (map (fun d => deliver_op (mkDel 17 (dip, dport) (rip, rport) d)) ds) = (nb1, log) /\ map snd log = map (fun d => RPut q ((dip, dport), (rip, rport), d)) ds /\
    n_socks nb1 = n_socks nb /\ nth_error (n_queues nb1) q = Some (l ++ map (fun d => ((dip, dport), (rip, rport), d)) ds).
Proof.
  induction ds as [|d ds IH]; intros nb l Q R; cbn [map ops_run].
  - exists nb, []. rewrite app_nil_r. auto.
  - destruct (deliver_appends nb q l dip dport rip rport d Q R) as (nb1 & E & S & G & Q1). rewrite E. rewrite <- G in R. destruct (IH nb1 _ Q1 R) as (nb2 & log & E2 & L & S2 & Q2). rewrite E2.
    exists nb2. eexists. split; [reflexivity|]. cbn [map snd]. rewrite L. split; [reflexivity|]. split; [congruence|]. rewrite Q2, <- app_assoc. reflexivity. Qed.

(** Reading a queue to its end gives its messages in order. *)
Lemma recvs q l : forall nb, nth_error (n_queues nb) q = Some l -> bad_wait q nb = false ->
  exists nb1 log, acts_run nb (repeat (ARecv q) (List.length l)) = (nb1, log) /\ map snd log = map RGot l /\ nth_error (n_queues nb1) q = Some [].
Proof.
  induction l as [|m l IH]; intros nb Q B; cbn [List.length repeat acts_run map].
  - exists nb, []. auto.
  - assert (E : do_act nb (ARecv q) = (with_queue q l nb, RGot m)) by (cbn [do_act]; unfold a_recv; rewrite Q, B; reflexivity). rewrite E.
    assert (Q1 : nth_error (n_queues (with_queue q l nb)) q = Some l) by (unfold with_queue; cbn [n_queues]; eapply upd_same; exact Q).
    destruct (IH _ Q1 B) as (nb1 & log & E2 & L & Q2). rewrite E2. exists nb1. eexists. split; [reflexivity|]. cbn [map snd]. rewrite L. auto. Qed.

(** Sending puts the messages in line for the stack, which takes them in order. *)
Lemma sends_down s addr k r ds : forall na, nth_error (n_socks na) s = Some k -> normalize addr = Ok r ->
  exists log, acts_run na (map (fun d => ASendto s d addr) ds) = (with_down (n_down na ++ map (pair (flow_of k r)) ds) na, log) /\ map snd log = map (RSent (flow_of k r)) ds.
Proof.
  induction ds as [|d ds IH]; intros na K A; cbn [map acts_run].
  - exists []. rewrite app_nil_r. split; [|reflexivity]. destruct na; reflexivity.
  - assert (E : do_act na (ASendto s d addr) = (with_down (n_down na ++ [(flow_of k r, d)]) na, RSent (flow_of k r) d)) by (cbn [do_act]; unfold a_sendto; rewrite K, A; reflexivity). rewrite E.
    destruct (IH (with_down (n_down na ++ [(flow_of k r, d)]) na) K A) as (log & E2 & L). rewrite E2. eexists. split.
    + unfold with_down. cbn [n_down n_socks n_queues n_reg n_fl n_default]. rewrite <- app_assoc. reflexivity.
    + cbn [map snd]. rewrite L. reflexivity. Qed.
Lemma takes_down f ds : forall na, n_down na = map (pair f) ds ->
  exists log, acts_run na (repeat ARecvApp (List.length ds)) = (with_down [] na, log) /\ map snd log = map (RApp f) ds.
Proof.
  induction ds as [|d ds IH]; intros na D; cbn [List.length repeat acts_run map] in *.
  - exists []. split; [|reflexivity]. destruct na as [a1 a2 a3 dn a5 a6]; cbn [n_down] in D; rewrite D; reflexivity.
  - assert (E : do_act na ARecvApp = (with_down (map (pair f) ds) na, RApp f d)) by (cbn [do_act]; unfold a_recv_app; rewrite D; reflexivity). rewrite E.
    destruct (IH (with_down (map (pair f) ds) na) eq_refl) as (log & E2 & L). rewrite E2. eexists. split; [reflexivity|]. cbn [map snd]. rewrite L. reflexivity. Qed.
