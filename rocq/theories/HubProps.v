(** C120: the hub of the examples (examples/myhub.py), on any network and on test networks. *)
From Verif Require Import BaseLemmas CodecLemmas Dict DictLemmas EthAddrModel Enums EthModel Ipv4Model Ipv4Proofs TransportModel Ipv6Model IcmpModel IcmpProofs IcmpCodecProofs PacketModel PacketSpec
  PacketProofs PacketParse PacketProps NetModel NetProofs TestModel TestSpec TestMatch TestBytes TestRun TestScript TestSave TestProps HubModel HubSpec HubProofs.
#[local] Open Scope string_scope.
#[local] Open Scope Z_scope.
#[local] Open Scope list_scope.

(** What goes out of an interface, whatever the network answers: the frames that came in elsewhere and are not addressed to
    the hub, unchanged, in order, each once; when the program ended early because sending raised an exception, the last one
    may be missing.  (Packets received can be printed.) *)
Theorem C120_floods_partial : forall ifs name n tr e, NoDup (map if_name ifs) -> In name (map if_name ifs) -> talk (hub n ifs) tr e -> (forall r, In r (received_in tr) -> printable (rv_pkt r)) ->
  exists missing, to_send ifs name (received_in tr) (sent_to name tr ++ missing) /\ (List.length missing <= 1)%nat /\
    (e = EndReturn \/ (forall d q x, ~ In (CSend d q, AnsExn x) tr) -> missing = []).
Proof. intros ifs name n tr e N Hn T P. exact (hub_floods ifs name N Hn n tr e T P). Qed.
Print Assumptions C120_floods_partial.
(** Nothing is sent anywhere else. *)
Lemma talk_flood ifs dev p k l : incl l ifs -> forall tr e, talk (flood l dev p k) tr e -> (forall tr2 e2, talk k tr2 e2 -> forall d q a, In (CSend d q, a) tr2 -> exists i, d = DIface i /\ In i ifs) ->
  forall d q a, In (CSend d q, a) tr -> exists i, d = DIface i /\ In i ifs.
Proof.
  induction l as [|i l IH]; intros Il tr e T K d q a H; cbn [flood] in T; [eapply K; eauto|]. assert (Il2 : incl l ifs) by (intros x X; apply Il; right; exact X). destruct (str_eqb dev (if_name i)); [eapply IH; eauto|].
  inversion T; subst. destruct H as [H|H]; [injection H as <- <- _; exists i; split; [reflexivity|apply Il; left; reflexivity]|].
  match goal with Hk : talk (match ?x with _ => _ end) _ _ |- _ => destruct x; [eapply IH; eauto|eapply IH; eauto|inversion Hk; subst; contradiction] end.
Qed.
Theorem C120_nowhere_else : forall n ifs tr e d p a, talk (hub n ifs) tr e -> In (CSend d p, a) tr -> exists i, d = DIface i /\ In i ifs.
Proof.
  induction n as [|n IH]; intros ifs tr e d p a T H; [inversion T; subst; contradiction|]. cbn [hub] in T. inversion T as [| |c k a0 tr0 e0 T0]; subst. destruct H as [H|H]; [discriminate|].
  destruct a0 as [r| |x]; [|inversion T0; subst; contradiction|].
  - destruct (pkt_shows (rv_pkt r)); [|inversion T0; subst; contradiction]. destruct (pkt_get_header (rv_pkt r) CEth) as [h|]; [|eapply IH; eauto].
    destruct h; try (eapply IH; eauto; fail). destruct (existsb _ _); [eapply IH; eauto|]. eapply talk_flood; [apply incl_refl|exact T0| |exact H]. intros tr2 e2 T2 d2 q2 a2. eapply IH. exact T2.
  - destruct x; try (inversion T0; subst; contradiction); eapply IH; eauto.
Qed.
Print Assumptions C120_nowhere_else.

(** A hub passes every test that describes a hub, when the packets can be printed and the alarm does not strike. *)
Theorem C120_passes_partial : forall s n, sc_done s = [] -> table_ok (sc_ifs s) -> hub_script (map snd (sc_ifs s)) (map sv_ev (sc_pend s)) -> Forall printable_event (map sv_ev (sc_pend s)) ->
  (List.length (sc_pend s) < n)%nat ->
  exists t' tr, runs (tnet_new s) (hub n (map snd (sc_ifs s))) t' tr EndReturn /\ play (tnet_new s) (hub n (map snd (sc_ifs s))) = (t', tr, EndReturn) /\
    reports_pass (t_scen t') EndReturn = true /\ sc_pend (t_scen t') = [].
Proof.
  intros s n Dn Tk H P L. assert (F : Forall fresh_event (map sv_ev (sc_pend s))) by (clear -H; induction H; repeat constructor; auto).
  assert (Pr : Forall (fun x => prt (sv_ev x)) (sc_pend s)).
  { apply Forall_forall. intros x Hx. apply printable_prt; [exact (proj1 (Forall_forall _ _) P _ (in_map sv_ev _ _ Hx))|exact (proj1 (Forall_forall _ _) F _ (in_map sv_ev _ _ Hx))]. }
  destruct (play_hub (sc_ifs s) _ H Tk (sc_pend s) n (tnet_new s) eq_refl Pr) as (t' & tr & Pl & St).
  - intros d p q Hi R. apply (proj1 (Forall_forall _ _) P _ Hi). exact R.
  - rewrite map_length. exact L.
  - split; [reflexivity|]. split; [reflexivity|]. unfold shown. cbn [tnet_new t_scen]. rewrite Dn. constructor.
  - exists t', tr. split; [apply play_runs; exact Pl|]. split; [exact Pl|]. destruct St as (S1 & S2 & S3). split; [|exact S1]. unfold reports_pass, summary_prints, failed_test. rewrite S1, app_nil_r. rewrite andb_true_r. apply forallb_forall. apply Forall_forall. exact S3.
Qed.
Print Assumptions C120_passes_partial.
(** In such a test the frame expected may be the frame that arrives (its headers announcing each other, without IP options). *)
Theorem C120_same_frame : forall p q, storable p -> reads_as p q -> meets (mkM p true [] []) q.
Proof.
  intros p q S (p' & b & B1 & B2). assert (K : pkt_to_bytes q = pkt_to_bytes p).
  { destruct (storable_back p b (first_cls p) S) as (q2 & Q & _ & R & _); [unfold save_pkt; rewrite B1; reflexivity|]. rewrite B2 in Q. injection Q as <-. exact R. }
  exists p'. apply exact_match_iff. split; [|constructor]. exists b, p', b. rewrite K. split; [exact B1|]. split; [exact B1|].
  apply ser_canonical in B1 as [_ B1]. clear -B1. induction B1; constructor; auto. apply exact_refl. assumption.
Qed.
Print Assumptions C120_same_frame.

(** The scenario shipped with the example (examples/hubtests.py). *)
Definition hubframe (src dst sip dip : bytes) (reply : bool) : packet :=
  [HEth (mkEth dst src 0x800); HIp4 (mkIp4 0 20 32 0 0 0 1 sip dip []); HIcmp (mkIcmp (if reply then 0 else 8) 0 (DEcho false reply 0 0 []) 0)].
Definition hm (n : Z) : bytes := [16; 0; 0; 0; 0; n].
Definition both (d1 d2 : str) (p : packet) : event := EvOut (mkOut [(d1, xexact p); (d2, xexact p)] []).
Definition hf1 := hubframe [48; 0; 0; 0; 0; 2] (repeat 255 6) [172; 16; 42; 2] (repeat 255 4) false.
Definition hf2 := hubframe [32; 0; 0; 0; 0; 1] [48; 0; 0; 0; 0; 2] [192; 168; 1; 100] [172; 16; 42; 2] false.
Definition hf3 := hubframe [48; 0; 0; 0; 0; 2] [32; 0; 0; 0; 0; 1] [172; 16; 42; 2] [192; 168; 1; 100] true.
Definition hf4 := hubframe [32; 0; 0; 0; 0; 1] (hm 3) [192; 168; 1; 100] [172; 16; 42; 2] false.
Definition hubif : devinfo := sc_ifs (scen_add_if "eth2" (Some (hm 3)) [] None (scen_add_if "eth1" (Some (hm 2)) [] None (scen_add_if "eth0" (Some (hm 1)) [] None (scen_new "hub tests")))).
Definition hubtests : scen :=
  fold_left (fun s e => scen_expect e "" s)
    [EvIn "eth1" hf1; both "eth0" "eth2" hf1; EvIn "eth0" hf2; both "eth1" "eth2" hf2; EvIn "eth1" hf3; both "eth0" "eth2" hf3; EvIn "eth2" hf4; EvTimeout 1]
    (with_ifs hubif (scen_new "hub tests")).
Lemma hub_both d d1 d2 p q es : reads_as p q -> passes_on (map snd hubif) q -> meets (xexact p) q -> NoDup [d1; d2] -> In d ["eth0"; "eth1"; "eth2"] -> (forall x, In x [d1; d2] <-> x <> d /\ In x ["eth0"; "eth1"; "eth2"]) ->
  hub_script (map snd hubif) es -> hub_script (map snd hubif) (EvIn d p :: both d1 d2 p :: es).
Proof.
  intros R Po S N Hd D H. unfold both. eapply hs_pass; [exact Hd|exact R|exact Po|discriminate|exact N|exact D| |reflexivity|exact H].
  intros x m [E|[E|[]]]; injection E as <- <-; exact S.
Qed.
Definition rd (p : packet) : packet := match pkt_to_bytes p with Ok (_, b) => match pkt_new b (first_cls p) with Ok q => q | Err _ => [] end | Err _ => [] end.
Lemma rd_reads p : match pkt_to_bytes p with Ok (_, b) => match pkt_new b (first_cls p) with Ok q => true | Err _ => false end | Err _ => false end = true -> reads_as p (rd p).
Proof. unfold rd, reads_as. destruct (pkt_to_bytes p) as [[p' b]|]; [|discriminate]. destruct (pkt_new b (first_cls p)) as [q|] eqn:E; [|discriminate]. eauto. Qed.
Lemma meets_bool m q : match m_match m q with Ok (true, _) => true | _ => false end = true -> meets m q.
Proof. unfold meets. destruct (m_match m q) as [[[|] p']|]; try discriminate. eauto. Qed.
Ltac hub_case p :=
  apply (hub_both _ _ _ p (rd p)); [apply rd_reads; vm_compute; reflexivity|apply keep_out_iff; vm_compute; reflexivity|apply meets_bool; vm_compute; reflexivity
    |repeat constructor; cbn [In]; intuition discriminate|cbn [In]; tauto|intros x; cbn [In]; intuition congruence|].
Lemma hubtests_script : hub_script (map snd (sc_ifs hubtests)) (map sv_ev (sc_pend hubtests)).
Proof.
  change (hub_script (map snd hubif) [EvIn "eth1" hf1; both "eth0" "eth2" hf1; EvIn "eth0" hf2; both "eth1" "eth2" hf2; EvIn "eth1" hf3; both "eth0" "eth2" hf3; EvIn "eth2" hf4; EvTimeout 1]).
  hub_case hf1. hub_case hf2. hub_case hf3. apply (hs_keep _ _ hf4 (rd hf4)); [vm_compute; tauto|apply rd_reads; vm_compute; reflexivity| |repeat constructor].
  left. rewrite <- keep_out_iff. vm_compute. discriminate.
Qed.
Lemma in_shows d p : pkt_shows p && match pkt_to_bytes p with Ok (_, b) => match pkt_new b (first_cls p) with Ok q => pkt_shows q | Err _ => true end | Err _ => true end = true -> printable_event (EvIn d p).
Proof.
  intros H. apply andb_prop in H as [H K]. split; [apply pkt_prints; exact H|]. intros q (p' & b & B1 & B2). rewrite B1, B2 in K. apply pkt_prints. exact K.
Qed.
Example C120_example : sc_done hubtests = [] /\ table_ok (sc_ifs hubtests) /\ hub_script (map snd (sc_ifs hubtests)) (map sv_ev (sc_pend hubtests)) /\ Forall printable_event (map sv_ev (sc_pend hubtests)) /\
  exists t' tr, play (tnet_new hubtests) (hub 9 (map snd (sc_ifs hubtests))) = (t', tr, EndReturn) /\ reports_pass (t_scen t') EndReturn = true /\ zlen (received_in tr) = 4 /\ zlen (sent_to "eth2" tr) = 3.
Proof.
  split; [reflexivity|]. split; [split; [repeat constructor; vm_compute; intuition discriminate|]; intros k i Hi; repeat (destruct Hi as [E|Hi]; [injection E as <- <-; reflexivity|]); destruct Hi|].
  split; [exact hubtests_script|]. split.
  - repeat (constructor; [first [exact I|apply in_shows; vm_compute; reflexivity|repeat constructor]|]). constructor.
  - do 2 eexists. split; [vm_compute; reflexivity|]. vm_compute. auto.
Qed.
(** A frame whose headers cannot be printed (an ICMPv6 router advertisement) is not passed on: the program ends with
    AttributeError. *)
Theorem C120_unprintable_refuted : exists ifs r raw, NoDup (map if_name ifs) /\ pkt_parse raw = Ok (rv_pkt r) /\ passes_on ifs (rv_pkt r) /\ (exists i, In i ifs /\ if_name i <> rv_dev r) /\
  forall n tr e, talk (hub (S n) ifs) ((CRecv, AnsRecv r) :: tr) e -> tr = [] /\ e = EndRaise EAttr.
Proof.
  exists (map snd hubif), (mkRecv 0 "eth0" (rd xra)), (match pkt_to_bytes xra with Ok (_, b) => b | Err _ => [] end). split; [repeat constructor; cbn; intuition discriminate|]. split; [vm_compute; reflexivity|].
  split; [apply keep_out_iff; vm_compute; reflexivity|]. split; [eexists; split; [right; left; reflexivity|discriminate]|].
  intros n tr e T. cbn [hub] in T. inversion T as [| |? ? ? ? ? T0]; subst. cbn [rv_pkt] in T0. replace (pkt_shows (rd xra)) with false in T0 by (vm_compute; reflexivity). inversion T0; subst. auto.
Qed.
Print Assumptions C120_unprintable_refuted.
(** A frame with padded IP options goes out longer than it came in (C05), and a test that expects the frame unchanged fails. *)
Definition hubpad : scen := fold_left (fun s e => scen_expect e "" s) [EvIn "eth0" (xopt [ONop]); both "eth1" "eth2" (xopt [ONop])] (with_ifs hubif (scen_new "padding")).
Theorem C120_options_refuted : exists s p t' tr q p' q' b b2, sc_done s = [] /\ table_ok (sc_ifs s) /\ map sv_ev (sc_pend s) = [EvIn "eth0" p; both "eth1" "eth2" p] /\ map if_name (map snd (sc_ifs s)) = ["eth0"; "eth1"; "eth2"] /\
  passes_on (map snd (sc_ifs s)) p /\ play (tnet_new s) (hub 9 (map snd (sc_ifs s))) = (t', tr, EndRaise ETestFail) /\ sent_to "eth1" tr = [q] /\ pkt_to_bytes p = Ok (p', b) /\ pkt_to_bytes q = Ok (q', b2) /\ zlen b2 = zlen b + 4.
Proof.
  exists hubpad, (xopt [ONop]). do 7 eexists. split; [reflexivity|]. split; [split; [repeat constructor; vm_compute; intuition discriminate|]; intros k i Hi; repeat (destruct Hi as [E|Hi]; [injection E as <- <-; reflexivity|]); destruct Hi|].
  split; [reflexivity|]. split; [reflexivity|]. split; [apply keep_out_iff; vm_compute; reflexivity|]. split; [vm_compute; reflexivity|]. split; [vm_compute; reflexivity|]. split; [vm_compute; reflexivity|]. split; vm_compute; reflexivity.
Qed.
Print Assumptions C120_options_refuted.
