(** C109: what a failed output is reported to be. *)
From Verif Require Import BaseLemmas CodecLemmas Dict DictLemmas EthAddrModel Enums EthModel Ipv4Model Ipv4Proofs TransportModel Ipv6Model IcmpModel PacketModel PacketSpec
  PacketProofs PacketParse PacketProps NetModel TestModel TestSpec TestMatch TestRun TestProps DiagModel DiagSpec DiagProofs.
From Coq Require Ascii.
#[local] Open Scope string_scope.
#[local] Open Scope Z_scope.
#[local] Open Scope list_scope.

(** C109.  There is a report exactly when the packet is not the expected one: a report is never given for a match, and a
    failed match is reported, or (without verbose output) raises as C33 describes. *)
Theorem C109_reported : forall m p,
  (forall v, report v m p = Ok None <-> exists p', m_match m p = Ok (true, p')) /\
  (forall p', m_match m p = Ok (false, p') ->
     (exists x, report false m p = Ok (Some x) /\ fail_exn m p' = ETestFail) \/ (exists e, report false m p = Err e /\ fail_exn m p' = e)).
Proof. intros m p. split; [intros v; apply report_none|intros p'; apply report_some]. Qed.
Print Assumptions C109_reported.

(** C109.  What a report says is so: the first header of another class, the headers too many or missing, or each compared
    attribute that is wrong (and no other) with the value sent and the value expected; and the result of each predicate. *)
Theorem C109_honest : forall v m p x, report v m p = Ok (Some x) ->
  exists p' b r' rb, pkt_to_bytes p = Ok (p', b) /\ pkt_to_bytes (m_ref m) = Ok (r', rb) /\ honest m r' p' x.
Proof. exact report_honest. Qed.
Print Assumptions C109_honest.
(** The two values given for an attribute do differ; and numbers, addresses, byte strings and truth values that differ are
    given. *)
Theorem C109_differences : forall x y, (aval_ne x y = Ok true -> x <> y) /\ (plain x -> plain y -> x <> y -> aval_ne x y = Ok true).
Proof. intros x y. split; [apply ne_differs|intros P Q; apply ne_plain; assumption]. Qed.
Print Assumptions C109_differences.
Definition xsent : packet := [HEth xe; HIp4 (mkIp4 0 0 63 7 0 0 17 [10; 0; 0; 1] [10; 0; 0; 9] []); HUdp xudp; HRaw [1; 2; 4]].
Example C109_honest_ex : 
  report false (mkM xpkt true [(CIp4, "ttl")] [fun _ => Ok true; fun _ => Ok false]) xsent =
    Ok (Some (mkReason true true false [true; false]
      (BDiag (DAttrs [(CIp4, [mkWrong "dst" (AB [10; 0; 0; 9]) (AB [10; 0; 0; 2])]); (CRaw, [mkWrong "data" (AB [1; 2; 4]) (AB [1; 2; 3])])]) None))) /\
  report false (xexact xpkt) [HEth xe; HArp (ArpModel.mkArp 1 0x0800 6 4 1 (repeat 1 6) (repeat 2 4) (repeat 3 6) (repeat 4 4))] =
    Ok (Some (mkReason true false false [] (BDiag (DType 1 CIp4 CArp) None))) /\
  report false (xexact xpkt) [HEth xe; HIp4 (xip 17)] = Ok (Some (mkReason true false false [] (BDiag (DMissing [CUdp; CRaw]) None))) /\
  exists s, report false (mkM xpkt false [] [fun _ => Ok false]) xpkt = Ok (Some (mkReason false false true [false] (BMatched s))).
Proof. split; [vm_compute; reflexivity|]. split; [vm_compute; reflexivity|]. split; [vm_compute; reflexivity|]. eexists. vm_compute. reflexivity. Qed.

(** C109.  With verbose output the report also shows "what I expected to match".  What it shows is the packet that was sent. *)
Theorem C109_expected_fails : forall m p x d q s, report true m p = Ok (Some x) -> e_body x = BDiag d (Some (q, s)) -> map fst s = q.
Proof. exact verbose_shows. Qed.
Print Assumptions C109_expected_fails.
Theorem C109_expected_refuted : exists m p p' b r' rb x d s, pkt_to_bytes p = Ok (p', b) /\ pkt_to_bytes (m_ref m) = Ok (r', rb) /\
  report true m p = Ok (Some x) /\ e_body x = BDiag d (Some (p', s)) /\ map fst s <> r'.
Proof. exists (xexact xpkt), xpkt2.
  destruct (pkt_to_bytes xpkt2) as [[p' b]|] eqn:P; [|vm_compute in P; discriminate P]. destruct (pkt_to_bytes xpkt) as [[r' rb]|] eqn:R; [|vm_compute in R; discriminate R].
  destruct (report true (xexact xpkt) xpkt2) as [[x|]|] eqn:Q; [|vm_compute in Q; discriminate Q|vm_compute in Q; discriminate Q].
  vm_compute in P, R, Q. apply ok_pair_inj in P as [<- <-]. apply ok_pair_inj in R as [<- <-]. apply ok_inj in Q. injection Q as <-.
  do 7 eexists. split; [reflexivity|]. split; [vm_compute; reflexivity|]. split; [reflexivity|]. split; [reflexivity|]. cbn [map fst]. discriminate. Qed.
Print Assumptions C109_expected_refuted.

(** C109.  When a run ends before all packets of an output have been sent, the report names the ports on which the packet
    was accepted, in that order, and the ports still waiting: after any series of sends, for port names without capitals. *)
Theorem C109_ports_partial : forall wait l o' rs, NoDup (dkeys wait) -> Forall no_capitals (dkeys wait) -> attempts (mkOut wait []) l = (o', rs) ->
  let sent := map fst (accepted l rs) in
  event_reason o' = sentence sent (filter (fun d => negb (smem d sent)) (dkeys wait)).
Proof. exact reason_after. Qed.
Print Assumptions C109_ports_partial.
Example C109_ports_ex : let wait := [("eth0", xexact xpkt); ("eth1", xexact xpkt2); ("eth2", xexact xpkt)] in
  exists o' rs, NoDup (dkeys wait) /\ Forall no_capitals (dkeys wait) /\ attempts (mkOut wait []) [("eth1", xpkt); ("eth1", xpkt2)] = (o', rs) /\
  event_reason o' = "Your code has sent a packet on port eth1, but not on ports eth0,eth2".
Proof. do 2 eexists. split; [repeat constructor; cbn; intuition discriminate|]. split; [|split; [vm_compute; reflexivity|vm_compute; reflexivity]].
  repeat (apply Forall_cons; [repeat (split; [vm_compute; lia|]); exact I|]). constructor. Qed.
(** Port names with capitals are changed: the report for one port may name another one. *)
Theorem C109_ports_refuted : exists m, let o := mkOut [("Eth0", m)] [("eth0", SeenPkt [])] in 
  event_reason o = "Your code has sent a packet on port eth0, but not on port eth0".
Proof. exists (xexact xpkt). vm_compute. reflexivity. Qed.
Print Assumptions C109_ports_refuted.
