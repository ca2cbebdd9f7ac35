(** C123: the other example programs that talk to the network object: the two-port forwarder, the sniffer, the switch that does
    not learn and the packet emitter. *)
From Verif Require Import BaseLemmas CodecLemmas Dict DictLemmas EthAddrModel Enums EthModel Ipv4Model Ipv4Proofs TransportModel Ipv6Model IcmpModel IcmpProofs IcmpCodecProofs PacketModel PacketSpec
  PacketProofs PacketParse PacketProps NetModel NetProofs TestModel TestSpec TestMatch TestBytes TestRun TestScript TestSave TestProps HubModel HubSpec HubProofs HubProps ExModel ExSpec ExProofs.
#[local] Open Scope string_scope.
#[local] Open Scope Z_scope.
#[local] Open Scope list_scope.

(** ** The forwarder *)
(** With two ports, whatever the network answers: everything that comes in on one port goes out on the other, unchanged, once,
    in order, before the next packet is asked for; nothing else is sent. *)
Theorem C123_two_ports : forall a b n tr e, a <> b -> talk (forwarder n [a; b]) tr e -> (forall r, In r (received_in tr) -> rv_dev r = a \/ rv_dev r = b) -> carried a b tr /\ carried b a tr.
Proof.
  intros a b n tr e Ab T D. assert (N : NoDup [a; b]) by (constructor; [intros [X|[]]; congruence|constructor; [intros []|constructor]]).
  assert (D2 : forall r, In r (received_in tr) -> In (rv_dev r) [a; b]) by (intros r Hr; destruct (D r Hr) as [-> | ->]; cbn [In]; auto).
  split; eapply (forwarder_carries [a; b] N n tr e T D2); apply portpair_get; try exact N; [exists O|exists (S O)]; auto.
Qed.
Print Assumptions C123_two_ports.
Theorem C123_nowhere_else : forall names n tr e d p x, talk (forwarder n names) tr e -> In (CSend d p, x) tr -> exists name, d = DName name /\ In name names.
Proof.
  intros names. assert (V : forall k v, dget k (portpair names) = Some v -> In v names).
  { intros k v. unfold portpair. assert (I : forall kv, In kv (combine names (rev names)) -> In (snd kv) names) by (intros [a b] H; apply in_combine_r in H; apply in_rev in H; exact H).
    assert (J : forall k v, dget k (@nil (str * str)) = Some v -> In v names) by discriminate. revert I J k v. generalize (@nil (str * str)). induction (combine names (rev names)) as [|[a b] l IH]; intros d I J k v; cbn [fold_left fst snd]; [apply J|].
    apply IH; [intros kv H; apply I; right; exact H|]. intros k2 v2. destruct (String.string_dec k2 a) as [X|X]; [subst; rewrite dget_dset_same; intros H; injection H as <-; apply (I (a, b)); left; reflexivity|]. rewrite dget_dset_other by exact X. apply J. }
  induction n as [|n IH]; intros tr e d p x T H; [inversion T; subst; contradiction|]. cbn [forwarder] in T. inversion T as [| |c k a tr0 e0 T0]; subst. destruct H as [H|H]; [discriminate|]. destruct a as [r| |y].
  - destruct (dget (rv_dev r) (portpair names)) as [o|] eqn:G; [|inversion T0; subst; contradiction]. inversion T0 as [| |c k s tr1 e1 T1]; subst. destruct H as [H|H]; [injection H as <- _ _; exists o; split; [reflexivity|]; eapply V; exact G|].
    destruct s; [eapply IH; eauto|eapply IH; eauto|inversion T1; subst; contradiction].
  - inversion T0; subst. contradiction.
  - destruct y; try (inversion T0; subst; contradiction). eapply IH; eauto.
Qed.
Print Assumptions C123_nowhere_else.
(** With any number of ports the first is paired with the last, the second with the last but one, and so on. *)
Theorem C123_many_ports : forall names i a b n tr e, NoDup names -> nth_error names i = Some a -> nth_error names (List.length names - S i) = Some b ->
  talk (forwarder n names) tr e -> (forall r, In r (received_in tr) -> In (rv_dev r) names) -> carried a b tr.
Proof.
  intros names i a b n tr e N A B T D. apply (forwarder_carries names N n tr e T D). apply portpair_get; [exact N|]. exists i. split; [exact A|].
  assert (L : (i < List.length names)%nat) by (apply nth_error_Some; congruence). rewrite (nth_error_nth' _ EmptyString) by (rewrite rev_length; exact L). rewrite rev_nth by exact L. f_equal. apply nth_error_nth. exact B.
Qed.
Print Assumptions C123_many_ports.
(** So with an odd number of ports what comes in on the middle one goes back out of it. *)
Theorem C123_other_port_refuted : exists names a p tr, NoDup names /\ In a names /\ talk (forwarder 2 names) tr EndReturn /\ received_in tr = [mkRecv 0 a p] /\ sent_to a tr = [p] /\ forall b, b <> a -> sent_to b tr = [].
Proof.
  exists ["eth0"; "eth1"; "eth2"], "eth1", hf1, [(CRecv, AnsRecv (mkRecv 0 "eth1" hf1)); (CSend (DName "eth1") hf1, AnsSent); (CRecv, AnsExn EShutdown)].
  split; [repeat constructor; cbn [In]; intuition discriminate|]. split; [cbn [In]; auto|]. split; [repeat constructor|]. split; [reflexivity|]. split; [reflexivity|].
  intros b Hb. unfold sent_to. cbn [flat_map]. destruct (String.string_dec "eth1" b) as [X|X]; [congruence|reflexivity].
Qed.
Print Assumptions C123_other_port_refuted.
(** It ends when the network is shut down and not before, except by an exception, and no exception is swallowed. *)
Theorem C123_forwarder_stops : forall n names tr e, talk (forwarder n names) tr e -> stops_right tr e.
Proof. intros n names tr e T. exact (forwarder_stops names n tr e T). Qed.
Print Assumptions C123_forwarder_stops.
(** A packet from a port that is not one of the network's raises KeyError and is not sent. *)
Theorem C123_unknown_port : forall n names r tr e, ~ In (rv_dev r) names -> talk (forwarder (S n) names) ((CRecv, AnsRecv r) :: tr) e -> tr = [] /\ e = EndRaise EKey.
Proof.
  intros n names r tr e U T. cbn [forwarder] in T. inversion T as [| |c k a tr0 e0 T0]; subst. assert (G : dget (rv_dev r) (portpair names) = None).
  { assert (K : forall (l : list (str * str)) d, ~ In (rv_dev r) (map fst l) -> dget (rv_dev r) d = None -> dget (rv_dev r) (fold_left (fun d kv => dset (fst kv) (snd kv) d) l d) = None).
    { induction l as [|[a b] l IH]; intros d X Y; cbn [fold_left fst snd map] in *; [exact Y|]. apply IH; [intros Z1; apply X; right; exact Z1|]. rewrite dget_dset_other; [exact Y|]. intros Z1. apply X. left. congruence. }
    apply K; [|reflexivity]. rewrite fst_combine by (rewrite rev_length; reflexivity). exact U. }
  rewrite G in T0. inversion T0; subst. auto.
Qed.
Print Assumptions C123_unknown_port.
(** It passes every test that describes a wire between its two ports, when the packets can be printed and the alarm does not
    strike. *)
Theorem C123_wire_passes_partial : forall s a b n, sc_done s = [] -> table_ok (sc_ifs s) -> dkeys (sc_ifs s) = [a; b] -> wire_script a b (map sv_ev (sc_pend s)) -> Forall printable_event (map sv_ev (sc_pend s)) ->
  (List.length (sc_pend s) < n)%nat ->
  exists t' tr, runs (tnet_new s) (forwarder n (map if_name (map snd (sc_ifs s)))) t' tr EndReturn /\ reports_pass (t_scen t') EndReturn = true /\ sc_pend (t_scen t') = [].
Proof.
  intros s a b n Dn [TN TK] Dk H P L. assert (F : Forall fresh_event (map sv_ev (sc_pend s))).
  { clear -H. induction H; repeat (constructor; auto); try exact I; cbn; try discriminate; intros []. }
  assert (Pr : Forall (fun x => prt (sv_ev x)) (sc_pend s)).
  { apply Forall_forall. intros x Hx. apply printable_prt; [exact (proj1 (Forall_forall _ _) P _ (in_map sv_ev _ _ Hx))|exact (proj1 (Forall_forall _ _) F _ (in_map sv_ev _ _ Hx))]. }
  assert (NN : map if_name (map snd (sc_ifs s)) = [a; b]).
  { rewrite <- Dk. unfold dkeys. rewrite map_map. apply map_ext_in. intros [k i] Hi. cbn [snd fst]. exact (TK k i Hi). }
  assert (Ab : a <> b) by (rewrite Dk in TN; inversion TN as [|? ? X _]; intros ->; apply X; left; reflexivity).
  destruct (play_forwarder (sc_ifs s) a b _ H Ab Dk TK (sc_pend s) n (tnet_new s) eq_refl Pr) as (t' & tr & Pl & St).
  - intros d p q Hi R. apply (proj1 (Forall_forall _ _) P _ Hi). exact R.
  - rewrite map_length. exact L.
  - split; [reflexivity|]. split; [reflexivity|]. unfold shown. cbn [tnet_new t_scen]. rewrite Dn. constructor.
  - rewrite NN. exists t', tr. split; [apply play_runs; exact Pl|]. destruct St as (S1 & S2 & S3). split; [|exact S1]. unfold reports_pass, summary_prints, failed_test. rewrite S1, app_nil_r. rewrite andb_true_r. apply forallb_forall. apply Forall_forall. exact S3.
Qed.
Print Assumptions C123_wire_passes_partial.
(** Such a test, with traffic both ways. *)
Definition one (d : str) (p : packet) : event := EvOut (mkOut [(d, xexact p)] []).
Definition wireif : devinfo := sc_ifs (scen_add_if "eth1" (Some (hm 2)) [] None (scen_add_if "eth0" (Some (hm 1)) [] None (scen_new "wire"))).
Definition wiretest : scen :=
  fold_left (fun s e => scen_expect e "" s) [EvIn "eth0" hf1; one "eth1" hf1; EvTimeout 1; EvIn "eth1" hf3; one "eth0" hf3; EvIn "eth0" hf2; one "eth1" hf2] (with_ifs wireif (scen_new "wire")).
Example C123_wire_example : sc_done wiretest = [] /\ table_ok (sc_ifs wiretest) /\ dkeys (sc_ifs wiretest) = ["eth0"; "eth1"] /\ wire_script "eth0" "eth1" (map sv_ev (sc_pend wiretest)) /\ Forall printable_event (map sv_ev (sc_pend wiretest)) /\
  exists t' tr, play (tnet_new wiretest) (forwarder 8 ["eth0"; "eth1"]) = (t', tr, EndReturn) /\ zlen (sent_to "eth1" tr) = 2 /\ zlen (sent_to "eth0" tr) = 1.
Proof.
  split; [reflexivity|]. split; [split; [repeat constructor; vm_compute; intuition discriminate|]; intros k i Hi; repeat (destruct Hi as [E|Hi]; [injection E as <- <-; reflexivity|]); destruct Hi|].
  split; [reflexivity|]. split.
  - change (wire_script "eth0" "eth1" [EvIn "eth0" hf1; one "eth1" hf1; EvTimeout 1; EvIn "eth1" hf3; one "eth0" hf3; EvIn "eth0" hf2; one "eth1" hf2]). unfold one.
    apply (ws_pass _ _ _ _ hf1 (rd hf1)); [auto|apply rd_reads; vm_compute; reflexivity|apply meets_bool; vm_compute; reflexivity|]. constructor.
    apply (ws_pass _ _ _ _ hf3 (rd hf3)); [auto|apply rd_reads; vm_compute; reflexivity|apply meets_bool; vm_compute; reflexivity|].
    apply (ws_pass _ _ _ _ hf2 (rd hf2)); [auto|apply rd_reads; vm_compute; reflexivity|apply meets_bool; vm_compute; reflexivity|]. constructor.
  - split; [repeat (constructor; [first [exact I|apply in_shows; vm_compute; reflexivity|repeat constructor]|]); constructor|].
    do 2 eexists. split; [vm_compute; reflexivity|]. vm_compute. auto.
Qed.

(** ** The sniffer *)
(** It never sends, ends when the network is shut down and not before except by an exception. *)
Theorem C123_sniffer_silent : forall n tr e, talk (sniffer n) tr e -> stops_right tr e /\ forall d p x, ~ In (CSend d p, x) tr.
Proof. exact sniffer_talk. Qed.
Print Assumptions C123_sniffer_silent.
(** It passes every test in which nothing is expected to be sent. *)
Theorem C123_sniffer_passes_partial : forall s n, sc_done s = [] -> quiet_script (dkeys (sc_ifs s)) (map sv_ev (sc_pend s)) -> Forall printable_event (map sv_ev (sc_pend s)) -> (List.length (sc_pend s) < n)%nat ->
  exists t' tr, runs (tnet_new s) (sniffer n) t' tr EndReturn /\ reports_pass (t_scen t') EndReturn = true /\ sc_pend (t_scen t') = [].
Proof.
  intros s n Dn H P L. assert (F : Forall fresh_event (map sv_ev (sc_pend s))) by (clear -H; induction H; repeat (constructor; auto)).
  assert (Pr : Forall (fun x => prt (sv_ev x)) (sc_pend s)).
  { apply Forall_forall. intros x Hx. apply printable_prt; [exact (proj1 (Forall_forall _ _) P _ (in_map sv_ev _ _ Hx))|exact (proj1 (Forall_forall _ _) F _ (in_map sv_ev _ _ Hx))]. }
  destruct (play_sniffer (sc_ifs s) _ H (sc_pend s) n (tnet_new s) eq_refl Pr) as (t' & tr & Pl & St).
  - intros d p q Hi R. apply (proj1 (Forall_forall _ _) P _ Hi). exact R.
  - rewrite map_length. exact L.
  - split; [reflexivity|]. split; [reflexivity|]. unfold shown. cbn [tnet_new t_scen]. rewrite Dn. constructor.
  - exists t', tr. split; [apply play_runs; exact Pl|]. destruct St as (S1 & S2 & S3). split; [|exact S1]. unfold reports_pass, summary_prints, failed_test. rewrite S1, app_nil_r. rewrite andb_true_r. apply forallb_forall. apply Forall_forall. exact S3.
Qed.
Print Assumptions C123_sniffer_passes_partial.
Example C123_sniffer_example : let s := fold_left (fun s e => scen_expect e "" s) [EvIn "eth0" hf1; EvTimeout 1; EvIn "eth1" hf3] (with_ifs wireif (scen_new "sniff")) in
  quiet_script (dkeys (sc_ifs s)) (map sv_ev (sc_pend s)) /\ Forall printable_event (map sv_ev (sc_pend s)) /\ exists t' tr, play (tnet_new s) (sniffer 4) = (t', tr, EndReturn) /\ zlen (received_in tr) = 2.
Proof.
  intros s. split; [|split].
  - change (quiet_script ["eth0"; "eth1"] [EvIn "eth0" hf1; EvTimeout 1; EvIn "eth1" hf3]). apply (qs_in _ _ _ (rd hf1)); [cbn [In]; auto|apply rd_reads; vm_compute; reflexivity|]. constructor.
    apply (qs_in _ _ _ (rd hf3)); [cbn [In]; auto|apply rd_reads; vm_compute; reflexivity|]. constructor.
  - change (Forall printable_event [EvIn "eth0" hf1; EvTimeout 1; EvIn "eth1" hf3]). repeat (constructor; [first [exact I|apply in_shows; vm_compute; reflexivity]|]). constructor.
  - do 2 eexists. split; [vm_compute; reflexivity|]. vm_compute. auto.
Qed.
(** A frame whose headers cannot be printed stops it. *)
Theorem C123_sniffer_unprintable_refuted : exists r raw, pkt_parse raw = Ok (rv_pkt r) /\ forall n tr e, talk (sniffer (S n)) ((CRecv, AnsRecv r) :: tr) e -> tr = [] /\ e = EndRaise EAttr.
Proof.
  exists (mkRecv 0 "eth0" (rd xra)), (match pkt_to_bytes xra with Ok (_, b) => b | Err _ => [] end). split; [vm_compute; reflexivity|].
  intros n tr e T. cbn [sniffer] in T. inversion T as [| |? ? ? ? ? T0]; subst. cbn [rv_pkt] in T0. replace (pkt_shows (rd xra)) with false in T0 by (vm_compute; reflexivity). inversion T0; subst. auto.
Qed.
Print Assumptions C123_sniffer_unprintable_refuted.

(** ** The switch that does not learn *)
(** On frames that start with an Ethernet header it is a hub. *)
Theorem C123_switch_floods_partial : forall ifs name n tr e, NoDup (map if_name ifs) -> In name (map if_name ifs) -> talk (switch n ifs) tr e ->
  (forall r, In r (received_in tr) -> printable (rv_pkt r) /\ starts_eth (rv_pkt r)) ->
  exists missing, to_send ifs name (received_in tr) (sent_to name tr ++ missing) /\ (List.length missing <= 1)%nat /\ (e = EndReturn \/ (forall d q x, ~ In (CSend d q, AnsExn x) tr) -> missing = []).
Proof.
  intros ifs name n tr e N Hn T P. destruct (switch_talk ifs n tr e T) as (tr2 & -> & T2); [intros r Hr; apply P; exact Hr|]. rewrite as_name_recv, as_name_sent in *.
  destruct (hub_floods ifs name N Hn n tr2 e T2) as (mi & M1 & M2 & M3); [intros r Hr; apply P; exact Hr|]. exists mi. split; [exact M1|]. split; [exact M2|]. intros [X|X]; apply M3; [auto|]. right. intros d q x H.
  destruct d as [nm|k|i]; [apply (X (DName nm) q x)|apply (X (DNum k) q x)|apply (X (DName (if_name i)) q x)]; apply (in_map as_name) in H; exact H.
Qed.
Print Assumptions C123_switch_floods_partial.
Theorem C123_switch_passes_partial : forall s n, sc_done s = [] -> table_ok (sc_ifs s) -> hub_script (map snd (sc_ifs s)) (map sv_ev (sc_pend s)) -> Forall printable_event (map sv_ev (sc_pend s)) ->
  (forall d p q, In (EvIn d p) (map sv_ev (sc_pend s)) -> reads_as p q -> starts_eth q) -> (List.length (sc_pend s) < n)%nat ->
  exists t' tr, runs (tnet_new s) (switch n (map snd (sc_ifs s))) t' tr EndReturn /\ reports_pass (t_scen t') EndReturn = true /\ sc_pend (t_scen t') = [].
Proof.
  intros s n Dn Tk H P Q L. destruct (C120_passes_partial s n Dn Tk H P L) as (t' & tr & _ & Pl & R & E). exists t', (map as_name tr). split; [|auto]. apply play_runs. apply switch_play; [|exact Pl].
  intros q (d & p & Hi & Hr). eapply Q; eauto.
Qed.
Print Assumptions C123_switch_passes_partial.
(** The tests of the hub (examples/hubtests.py) are such tests. *)
Example C123_switch_example : (forall d p q, In (EvIn d p) (map sv_ev (sc_pend hubtests)) -> reads_as p q -> starts_eth q) /\
  exists t' tr, play (tnet_new hubtests) (switch 9 (map snd (sc_ifs hubtests))) = (t', tr, EndReturn) /\ reports_pass (t_scen t') EndReturn = true /\ zlen (received_in tr) = 4 /\ zlen (sent_to "eth2" tr) = 3.
Proof.
  split.
  - intros d p q H (p' & b & B1 & B2). change (map sv_ev (sc_pend hubtests)) with [EvIn "eth1" hf1; both "eth0" "eth2" hf1; EvIn "eth0" hf2; both "eth1" "eth2" hf2; EvIn "eth1" hf3; both "eth0" "eth2" hf3; EvIn "eth2" hf4; EvTimeout 1] in H.
    repeat (destruct H as [E|H]; [try discriminate E; injection E as <- <-; vm_compute in B1; apply (f_equal (fun r => match r with Ok (_, x) => x | Err _ => [] end)) in B1; cbv beta iota in B1; subst b; vm_compute in B2; apply ok_inj in B2; subst q; do 2 eexists; reflexivity|]). destruct H.
  - do 2 eexists. split; [vm_compute; reflexivity|]. vm_compute. auto.
Qed.

(** ** The packet emitter *)
(** "Emits a packet on every interface" is false: on every network with an interface, whatever addresses its interfaces have, no
    packet is sent and the program ends with an exception. *)
Theorem C123_emitter_sends_nothing : forall ifs tr e, ifs <> [] -> talk (emitter ifs) tr e -> tr = [] /\ (e = EndRaise EAttr \/ e = EndRaise EIndex).
Proof.
  intros [|i ifs] tr e Ne T; [contradiction|]. cbn [emitter] in T. match type of T with talk (match ?x with _ => _ end) _ _ => destruct x end; inversion T; subst; auto.
Qed.
Print Assumptions C123_emitter_sends_nothing.
Theorem C123_emitter_refuted : exists ifs, ifs <> [] /\ (forall i, In i ifs -> exists a, In a (if_ips i) /\ zlen (fst a) = 4) /\ exists i, In i ifs /\ forall tr e, talk (emitter ifs) tr e -> sent_to (if_name i) tr = [] /\ e = EndRaise EAttr.
Proof.
  set (i := mkIf "eth0" (hm 1) [([192; 168; 1; 1], 24)] 1). exists [i]. split; [discriminate|]. split; [intros j [<-|[]]; eexists; split; [left; reflexivity|reflexivity]|]. exists i. split; [left; reflexivity|].
  intros tr e T. cbn in T. inversion T; subst. auto.
Qed.
Print Assumptions C123_emitter_refuted.
