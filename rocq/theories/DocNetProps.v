(** C127: the programs of the documentation that talk to the network object: the echo programs and the hubs. *)
From Verif Require Import BaseLemmas CodecLemmas Dict DictLemmas EthAddrModel Enums EthModel Ipv4Model Ipv4Proofs TransportModel Ipv6Model IcmpModel IcmpProofs IcmpCodecProofs PacketModel PacketSpec
  PacketProofs PacketParse PacketProps NetModel NetProofs TestModel TestSpec TestMatch TestBytes TestRun TestScript TestSave TestProps HubModel HubSpec HubProofs HubProps ExModel ExSpec ExProofs ExProps DocNetModel DocNetSpec DocNetProofs.
#[local] Open Scope string_scope.
#[local] Open Scope Z_scope.
#[local] Open Scope list_scope.

(** ** Echo *)
(** Whatever the network answers: what comes in on a port goes back out of it, unchanged, once, in order, before the next packet
    is asked for.  (Packets received can be printed.) *)
Theorem C127_echo_partial : forall n tr e a, talk (echo n) tr e -> (forall r, In r (received_in tr) -> printable (rv_pkt r)) -> carried a a tr.
Proof. intros n tr e a T P. exact (echo_carries n tr e T P a). Qed.
Print Assumptions C127_echo_partial.
Theorem C127_echo_stops : forall n tr e, talk (echo n) tr e -> stops_right tr e.
Proof. exact echo_stops. Qed.
Print Assumptions C127_echo_stops.
(** A frame that cannot be printed is not sent back and ends the program. *)
Theorem C127_echo_unprintable_refuted : exists r raw, pkt_parse raw = Ok (rv_pkt r) /\ forall n tr e, talk (echo (S n)) ((CRecv, AnsRecv r) :: tr) e -> tr = [] /\ e = EndRaise EAttr.
Proof.
  exists (mkRecv 0 "eth0" (rd xra)), (match pkt_to_bytes xra with Ok (_, b) => b | Err _ => [] end). split; [vm_compute; reflexivity|].
  intros n tr e T. cbn [echo] in T. inversion T as [| |? ? ? ? ? T0]; subst. cbn [rv_pkt] in T0. replace (pkt_shows (rd xra)) with false in T0 by (vm_compute; reflexivity). inversion T0; subst. auto.
Qed.
Print Assumptions C127_echo_unprintable_refuted.
(** The program without the loop asks once, sends that packet back and ends normally; there is nothing else it can do but raise. *)
Theorem C127_once : forall tr e, talk echo_once tr e ->
  (exists r s, tr = [(CRecv, AnsRecv r); (CSend (DName (rv_dev r)) (rv_pkt r), s)] /\ printable (rv_pkt r) /\ e = match s with AnsExn x => EndRaise x | _ => EndReturn end) \/
  (exists r, tr = [(CRecv, AnsRecv r)] /\ ~ printable (rv_pkt r) /\ e = EndRaise EAttr) \/
  (exists x, tr = [(CRecv, AnsExn x)] /\ e = EndRaise x) \/ (tr = [(CRecv, AnsSent)] /\ e = EndRaise EType).
Proof.
  intros tr e T. unfold echo_once in T. inversion T as [| |c k a tr0 e0 T0]; subst. destruct a as [r| |x]; [|inversion T0; subst; auto 10|inversion T0; subst; eauto 10].
  destruct (pkt_shows (rv_pkt r)) eqn:Sh.
  - apply pkt_prints in Sh. inversion T0 as [| |c k s tr1 e1 T1]; subst. left. exists r, s. destruct s; inversion T1; subst; auto.
  - inversion T0; subst. right. left. exists r. split; [reflexivity|]. split; [|reflexivity]. intros H. apply pkt_prints in H. congruence.
Qed.
Print Assumptions C127_once.
(** The looping program passes every test that describes an echo, when the packets can be printed and the alarm does not strike. *)
Theorem C127_echo_passes_partial : forall s n, sc_done s = [] -> table_ok (sc_ifs s) -> echo_script (dkeys (sc_ifs s)) (map sv_ev (sc_pend s)) -> Forall printable_event (map sv_ev (sc_pend s)) ->
  (List.length (sc_pend s) < n)%nat ->
  exists t' tr, runs (tnet_new s) (echo n) t' tr EndReturn /\ reports_pass (t_scen t') EndReturn = true /\ sc_pend (t_scen t') = [].
Proof.
  intros s n Dn [TN TK] H P L. assert (F : Forall fresh_event (map sv_ev (sc_pend s))).
  { clear -H. induction H; repeat (constructor; auto); try exact I; cbn; try discriminate; intros []. }
  assert (Pr : Forall (fun x => prt (sv_ev x)) (sc_pend s)).
  { apply Forall_forall. intros x Hx. apply printable_prt; [exact (proj1 (Forall_forall _ _) P _ (in_map sv_ev _ _ Hx))|exact (proj1 (Forall_forall _ _) F _ (in_map sv_ev _ _ Hx))]. }
  destruct (play_echo (sc_ifs s) _ H TK (sc_pend s) n (tnet_new s) eq_refl Pr) as (t' & tr & Pl & St).
  - intros d p q Hi R. apply (proj1 (Forall_forall _ _) P _ Hi). exact R.
  - rewrite map_length. exact L.
  - split; [reflexivity|]. split; [reflexivity|]. unfold shown. cbn [tnet_new t_scen]. rewrite Dn. constructor.
  - exists t', tr. split; [apply play_runs; exact Pl|]. destruct St as (S1 & S2 & S3). split; [|exact S1]. unfold reports_pass, summary_prints, failed_test. rewrite S1, app_nil_r. rewrite andb_true_r. apply forallb_forall. apply Forall_forall. exact S3.
Qed.
Print Assumptions C127_echo_passes_partial.
(** The scenario of the documentation (inouttest.py: its frame is the first of the hub's tests), and a longer one; the program
    without the loop passes the first and fails the second. *)
Definition inouttest : scen := fold_left (fun s e => scen_expect e "" s) [EvIn "eth1" hf1; one "eth1" hf1] (with_ifs (sc_ifs hubtests) (scen_new "in/out basic tests")).
Definition inoutlong : scen := fold_left (fun s e => scen_expect e "" s) [EvIn "eth1" hf1; one "eth1" hf1; EvTimeout 1; EvIn "eth0" hf3; one "eth0" hf3] (with_ifs (sc_ifs hubtests) (scen_new "in/out")).
Example C127_echo_example : sc_done inoutlong = [] /\ echo_script (dkeys (sc_ifs inoutlong)) (map sv_ev (sc_pend inoutlong)) /\ Forall printable_event (map sv_ev (sc_pend inoutlong)) /\
  (exists t' tr, play (tnet_new inouttest) echo_once = (t', tr, EndReturn) /\ reports_pass (t_scen t') EndReturn = true) /\
  (exists t' tr, play (tnet_new inoutlong) echo_once = (t', tr, EndReturn) /\ reports_pass (t_scen t') EndReturn = false) /\
  exists t' tr, play (tnet_new inoutlong) (echo 6) = (t', tr, EndReturn) /\ zlen (sent_to "eth1" tr) = 1 /\ zlen (sent_to "eth0" tr) = 1.
Proof.
  split; [reflexivity|]. split.
  - change (echo_script ["eth0"; "eth1"; "eth2"] [EvIn "eth1" hf1; one "eth1" hf1; EvTimeout 1; EvIn "eth0" hf3; one "eth0" hf3]). unfold one.
    apply (es_back _ _ _ (rd hf1)); [cbn [In]; auto|apply rd_reads; vm_compute; reflexivity|apply meets_bool; vm_compute; reflexivity|]. constructor.
    apply (es_back _ _ _ (rd hf3)); [cbn [In]; auto|apply rd_reads; vm_compute; reflexivity|apply meets_bool; vm_compute; reflexivity|]. constructor.
  - split; [repeat (constructor; [first [exact I|apply in_shows; vm_compute; reflexivity|repeat constructor]|]); constructor|].
    split; [do 2 eexists; split; [vm_compute; reflexivity|]; vm_compute; reflexivity|]. split; [do 2 eexists; split; [vm_compute; reflexivity|]; vm_compute; reflexivity|].
    do 2 eexists. split; [vm_compute; reflexivity|]. vm_compute. auto.
Qed.

(** ** The simple hub *)
(** Whatever the network answers and whatever the packets are: when the next packet is asked for, everything that came in
    elsewhere has gone out of every port, unchanged, once, in order; at the end at most one is missing, and only when a send
    failed. *)
Theorem C127_hub_spreads : forall ifs n tr e name, NoDup (map if_name ifs) -> talk (simple_hub n ifs) tr e -> In name (map if_name ifs) ->
  spread name tr /\ exists missing, from_elsewhere name (received_in tr) = sent_to name tr ++ missing /\ (List.length missing <= 1)%nat /\ ((forall d q x, ~ In (CSend d q, AnsExn x) tr) -> missing = []).
Proof. intros ifs n tr e name N T. exact (proj2 (proj2 (simple_hub_talk ifs N n tr e T)) name). Qed.
Print Assumptions C127_hub_spreads.
Theorem C127_hub_stops : forall ifs n tr e, NoDup (map if_name ifs) -> talk (simple_hub n ifs) tr e -> stops_right tr e /\ forall d q x, In (CSend d q, x) tr -> exists name, d = DName name /\ In name (map if_name ifs).
Proof. intros ifs n tr e N T. destruct (simple_hub_talk ifs N n tr e T) as (A & B & _). auto. Qed.
Print Assumptions C127_hub_stops.
(** It passes every test that describes a hub passing on everything. *)
Theorem C127_hub_passes_partial : forall s n, sc_done s = [] -> table_ok (sc_ifs s) -> spread_script (dkeys (sc_ifs s)) (map sv_ev (sc_pend s)) -> Forall printable_event (map sv_ev (sc_pend s)) ->
  (List.length (sc_pend s) < n)%nat ->
  exists t' tr, runs (tnet_new s) (simple_hub n (map snd (sc_ifs s))) t' tr EndReturn /\ reports_pass (t_scen t') EndReturn = true /\ sc_pend (t_scen t') = [].
Proof.
  intros s n Dn Tk H P L. assert (F : Forall fresh_event (map sv_ev (sc_pend s))) by (clear -H; induction H; repeat constructor; auto).
  assert (Pr : Forall (fun x => prt (sv_ev x)) (sc_pend s)).
  { apply Forall_forall. intros x Hx. apply printable_prt; [exact (proj1 (Forall_forall _ _) P _ (in_map sv_ev _ _ Hx))|exact (proj1 (Forall_forall _ _) F _ (in_map sv_ev _ _ Hx))]. }
  destruct (play_simple (sc_ifs s) _ H Tk (sc_pend s) n (tnet_new s) eq_refl Pr) as (t' & tr & Pl & St).
  - intros d p q Hi R. apply (proj1 (Forall_forall _ _) P _ Hi). exact R.
  - rewrite map_length. exact L.
  - split; [reflexivity|]. split; [reflexivity|]. unfold shown. cbn [tnet_new t_scen]. rewrite Dn. constructor.
  - exists t', tr. split; [apply play_runs; exact Pl|]. destruct St as (S1 & S2 & S3). split; [|exact S1]. unfold reports_pass, summary_prints, failed_test. rewrite S1, app_nil_r. rewrite andb_true_r. apply forallb_forall. apply Forall_forall. exact S3.
Qed.
Print Assumptions C127_hub_passes_partial.
Definition spreadtest : scen := fold_left (fun s e => scen_expect e "" s) [EvIn "eth1" hf1; both "eth0" "eth2" hf1; EvTimeout 1; EvIn "eth2" hf4; both "eth0" "eth1" hf4] (with_ifs (sc_ifs hubtests) (scen_new "spread")).
Example C127_hub_example : sc_done spreadtest = [] /\ spread_script (dkeys (sc_ifs spreadtest)) (map sv_ev (sc_pend spreadtest)) /\ Forall printable_event (map sv_ev (sc_pend spreadtest)) /\
  exists t' tr, play (tnet_new spreadtest) (simple_hub 6 (map snd (sc_ifs spreadtest))) = (t', tr, EndReturn) /\ zlen (sent_to "eth0" tr) = 2.
Proof.
  split; [reflexivity|]. split.
  - change (spread_script ["eth0"; "eth1"; "eth2"] [EvIn "eth1" hf1; both "eth0" "eth2" hf1; EvTimeout 1; EvIn "eth2" hf4; both "eth0" "eth1" hf4]). unfold both.
    apply (ss_pass _ _ _ (rd hf1)); [cbn [In]; auto|apply rd_reads; vm_compute; reflexivity|discriminate|repeat constructor; cbn [In]; intuition discriminate| | |reflexivity|].
    { intros d. cbn [oe_wait dkeys map fst In]. split; [intros [<-|[<-|[]]]; (split; [discriminate|auto])|]. intros [A [<-|[<-|[<-|[]]]]]; auto; contradiction. }
    { intros d m [E|[E|[]]]; injection E as <- <-; apply meets_bool; vm_compute; reflexivity. }
    constructor.
    apply (ss_pass _ _ _ (rd hf4)); [cbn [In]; auto|apply rd_reads; vm_compute; reflexivity|discriminate|repeat constructor; cbn [In]; intuition discriminate| | |reflexivity|constructor].
    { intros d. cbn [oe_wait dkeys map fst In]. split; [intros [<-|[<-|[]]]; (split; [discriminate|auto])|]. intros [A [<-|[<-|[<-|[]]]]]; auto; contradiction. }
    { intros d m [E|[E|[]]]; injection E as <- <-; apply meets_bool; vm_compute; reflexivity. }
  - split; [repeat (constructor; [first [exact I|apply in_shows; vm_compute; reflexivity|repeat constructor]|]); constructor|].
    do 2 eexists. split; [vm_compute; reflexivity|]. vm_compute. auto.
Qed.
(** The tests of the hub that come with the documentation are not passed: it passes on what is addressed to itself. *)
Theorem C127_hub_tests_refuted : exists s, hub_script (map snd (sc_ifs s)) (map sv_ev (sc_pend s)) /\
  forall n t' tr e, (9 <= n)%nat -> play (tnet_new s) (simple_hub n (map snd (sc_ifs s))) = (t', tr, e) -> e <> EndReturn /\ reports_pass (t_scen t') e = false.
Proof.
  exists hubtests. split; [exact hubtests_script|]. intros n t' tr e L H. do 9 (destruct n as [|n]; [lia|]). vm_compute in H. injection H as <- _ <-. split; [discriminate|vm_compute; reflexivity].
Qed.
Print Assumptions C127_hub_tests_refuted.

(** ** The wrong hub *)
(** Everything it sends is a packet it received, with the source address changed and nothing else. *)
Lemma flood_packets l dev p k : forall tr e, talk (flood l dev p k) tr e -> forall d q x, In (CSend d q, x) tr -> q = p \/ exists tr2, talk k tr2 e /\ In (CSend d q, x) tr2 /\ incl (received_in tr2) (received_in tr).
Proof.
  induction l as [|i l IH]; intros tr e T d q x H; cbn [flood] in T; [right; exists tr; split; [exact T|]; split; [exact H|apply incl_refl]|]. destruct (str_eqb dev (if_name i)); [eapply IH; eauto|].
  inversion T as [| |c k0 a tr0 e0 T0]; subst. destruct H as [H|H]; [injection H as _ <- _; auto|]. destruct a as [r| |y]; [exact (IH _ _ T0 _ _ _ H)|exact (IH _ _ T0 _ _ _ H)|inversion T0; subst; contradiction].
Qed.
Theorem C127_sheep : forall n ifs tr e d q x, talk (bad_hub n ifs) tr e -> In (CSend d q, x) tr -> exists r, In r (received_in tr) /\ source_changed sheep (rv_pkt r) q.
Proof.
  induction n as [|n IH]; intros ifs tr e d q x T H; [inversion T; subst; contradiction|]. cbn [bad_hub] in T. inversion T as [| |c k a tr0 e0 T0]; subst. destruct H as [H|H]; [discriminate|].
  assert (Go : forall y, talk (bad_hub n ifs) tr0 e -> exists r, In r (received_in ((CRecv, y) :: tr0)) /\ source_changed sheep (rv_pkt r) q).
  { intros y T1. destruct (IH _ _ _ _ _ _ T1 H) as (r & A & B). exists r. split; [|exact B]. destruct y; [right; exact A|exact A|exact A]. }
  destruct a as [r| |y]; [|inversion T0; subst; contradiction|].
  - destruct (pkt_shows (rv_pkt r)); [|inversion T0; subst; contradiction]. destruct (pkt_get_header (rv_pkt r) CEth) as [h|] eqn:G; [|apply Go; auto]. pose proof G as G2. apply get_eth in G2 as (e1 & pre & post & -> & Ep & _).
    destruct (existsb _ _); [apply Go; auto|]. destruct (flood_packets _ _ _ _ _ _ T0 _ _ _ H) as [->|(tr2 & T2 & H2 & I2)].
    + exists r. split; [left; reflexivity|]. apply sheep_changes. exists e1. rewrite Ep. apply in_or_app. right. left. reflexivity.
    + destruct (IH _ _ _ _ _ _ T2 H2) as (r2 & A & B). exists r2. split; [right; apply I2; exact A|exact B].
  - destruct y; try (inversion T0; subst; contradiction). apply Go; auto.
Qed.
Print Assumptions C127_sheep.
Lemma one_sent ifs nm r q : to_send ifs nm [r] [q] -> q = rv_pkt r.
Proof. intros H. inversion H as [|? ? ? ? ? H1|? ? ? ? H1]; subst; [reflexivity|inversion H1]. Qed.
(** So it is not a hub, and its tests notice. *)
Theorem C127_sheep_refuted : exists ifs tr, NoDup (map if_name ifs) /\ talk (bad_hub 2 ifs) tr EndReturn /\ (forall r, In r (received_in tr) -> printable (rv_pkt r)) /\ ~ to_send ifs "eth1" (received_in tr) (sent_to "eth1" tr).
Proof.
  set (ifs := [mkIf "eth0" (hm 1) [] 1; mkIf "eth1" (hm 2) [] 2]). exists ifs, [(CRecv, AnsRecv (mkRecv 0 "eth0" hf1)); (CSend (DIface (mkIf "eth1" (hm 2) [] 2)) (with_sheep hf1), AnsSent); (CRecv, AnsExn EShutdown)].
  split; [repeat constructor; cbn [map if_name In]; intuition discriminate|]. split.
  - cbn [bad_hub]. constructor. cbn [rv_pkt rv_dev]. replace (pkt_shows hf1) with true by (vm_compute; reflexivity). vm_compute. repeat constructor.
  - split; [intros r [<-|[]]; apply pkt_prints; vm_compute; reflexivity|]. intros H. apply one_sent in H. vm_compute in H. discriminate.
Qed.
Print Assumptions C127_sheep_refuted.
Example C127_sheep_example : exists t' tr e, play (tnet_new hubtests) (bad_hub 9 (map snd (sc_ifs hubtests))) = (t', tr, e) /\ reports_pass (t_scen t') e = false /\ e <> EndReturn.
Proof. do 3 eexists. split; [vm_compute; reflexivity|]. split; [vm_compute; reflexivity|discriminate]. Qed.
