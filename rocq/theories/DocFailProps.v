(** C128: tests tell the failing programs of the documentation from ones that do what is expected. *)
From Verif Require Import BaseLemmas CodecLemmas Dict DictLemmas EthAddrModel Enums EthModel Ipv4Model TransportModel PacketModel PacketSpec PacketProofs PacketProps NetModel TestModel TestSpec TestMatch TestRun TestProps
  HubModel HubSpec HubProofs HubProps ExModel ExSpec ExProofs ExProps DocFailModel DocFailSpec DocFailProofs.
#[local] Open Scope string_scope.
#[local] Open Scope Z_scope.
#[local] Open Scope list_scope.

(** ** Programs that do not send *)
(** A program that sends nothing leaves every expected output pending, in every scenario and every run, and is not reported as
    passed when it returns. *)
Theorem C128_silent : forall p s t' tr e, never_sends p -> expects_output s -> runs (tnet_new s) p t' tr e ->
  expects_output (t_scen t') /\ (e = EndReturn -> reports_pass (t_scen t') e = false).
Proof. intros p s t' tr e N X R. pose proof (silent_runs _ _ _ _ _ R N X) as Y. split; [exact Y|]. intros ->. exact (expects_no_pass _ Y). Qed.
Print Assumptions C128_silent.
(** The three programs of the documentation that do not send are of this kind, and are not reported as passed however they end. *)
Theorem C128_silent_programs : forall p s t' tr e, In p [fail2; fail3; fail4] -> expects_output s -> Forall (deliverable (sc_ifs s)) (map sv_ev (sc_pend s)) -> runs (tnet_new s) p t' tr e ->
  never_sends p /\ reports_pass (t_scen t') e = false.
Proof.
  intros p s t' tr e Hp X D R. destruct Hp as [<-|[<-|[<-|[]]]].
  - split; [exact fail2_silent|]. destruct (one_packet_runs _ _ _ _ _ R X D) as [H|(t1 & r & tr2 & R2 & X2 & _)]; [exact H|]. ended R2. apply expects_no_pass. exact X2.
  - split; [exact fail3_silent|]. destruct (one_packet_runs _ _ _ _ _ R X D) as [H|(t1 & r & tr2 & R2 & X2 & D2)]; [exact H|]. inversion R2 as [| | |? ? ? t3 a ? tr0 ? C R0|? ? ? ? ? ? T R0]; subst; [|ended R0].
    destruct (recv_keeps _ _ _ C X2 D2) as (X3 & N & _). destruct a as [r3| |x]; [ended R0; apply expects_no_pass; exact X3..|]. inversion R0; subst. apply raise_no_pass. congruence.
  - split; [exact fail4_silent|]. destruct (one_packet_runs _ _ _ _ _ R X D) as [H|(t1 & r & tr2 & R2 & X2 & _)]; [exact H|]. ended R2.
Qed.
Print Assumptions C128_silent_programs.
(** The program that calls a method that does not exist fails every scenario of which a packet can be received. *)
Theorem C128_no_method : forall s dev p q dev' m t' tr e, two_steps s dev p q dev' m -> runs (tnet_new s) fail4 t' tr e -> e <> EndReturn /\ reports_pass (t_scen t') e = false.
Proof.
  intros s dev p q dev' m t' tr e (Ep & Dn & Hd & p' & b & B1 & B2) R.
  assert (A : reports_pass (t_scen t') e = false).
  { eapply C128_silent_programs; [right; right; left; reflexivity| | |exact R]; rewrite ?Ep; [exists (mkOut [(dev', m)] []); rewrite Ep; right; left; reflexivity|]. constructor; [split; [exact Hd|]; exists p', b, q; auto|]. constructor; [exact I|constructor]. }
  split; [|exact A]. intros ->. clear A. unfold fail4, one_packet in R. inversion R as [| | |? ? ? t1 a ? tr0 ? C R0|? ? ? ? ? ? T R0]; subst; [|inversion R0].
  destruct a as [r| |x]; [destruct (pkt_shows (rv_pkt r))|..]; inversion R0.
Qed.
Print Assumptions C128_no_method.

(** ** Programs that send the wrong thing *)
(** The program that always answers on eth0 passes a test of one packet in and one packet out exactly when the packet is expected on
    eth0 and what came in is what is expected: not on any other port. *)
Theorem C128_fixed_port : forall s dev p q dev' m, two_steps s dev p q dev' m ->
  (all_print p q m -> dev' = "eth0" /\ meets m q -> can_pass s fail1) /\ (~ (dev' = "eth0" /\ meets m q) -> cannot_pass s fail1).
Proof.
  intros s dev p q dev' m H. split.
  - intros Pa [-> M]. pose proof (proj1 (proj2 Pa)) as P. exact (send_passes s (fun p => Ok p) dev p q m q H Pa eq_refl P M).
  - intros N t' tr e R NS. destruct (reports_pass (t_scen t') e) eqn:Ps; [|reflexivity]. exfalso. apply N. exact (send_runs_ok s (fun p => Ok p) dev p q dev' m t' tr e q H eq_refl R NS Ps).
Qed.
Print Assumptions C128_fixed_port.
(** The program that replaces the source address passes exactly when it is to send on eth0 a packet with that address. *)
Theorem C128_source : forall s dev p q dev' m pre e post, two_steps s dev p q dev' m -> q = pre ++ HEth e :: post -> (forall x, ~ In (HEth x) pre) ->
  let q' := pre ++ HEth (mkEth (eth_dst e) [186; 170; 170; 186; 170; 170] (eth_type e)) :: post in
  (all_print p q m -> dev' = "eth0" /\ meets m q' -> can_pass s fail6) /\ (~ (dev' = "eth0" /\ meets m q') -> cannot_pass s fail6).
Proof.
  intros s dev p q dev' m pre e post H Eq Np q'.
  assert (F : set_source q = Ok q').
  { destruct (set_source_spec q) as [[A _]|(pre2 & e2 & post2 & A & B & C)]; [exfalso; apply (A e); rewrite Eq; apply in_or_app; right; left; reflexivity|]. rewrite C. unfold q'. rewrite Eq in A.
    assert (K : pre = pre2 /\ HEth e :: post = HEth e2 :: post2).
    { clear -A Np B. revert pre2 A B. induction pre as [|x pre IH]; intros [|y pre2] A B; cbn [app] in A.
      - auto.
      - injection A as A _. exfalso. apply (B e). left. congruence.
      - injection A as A _. exfalso. apply (Np e2). left. congruence.
      - injection A as -> A. destruct (IH (fun x Hx => Np x (or_intror Hx)) pre2 A (fun x Hx => B x (or_intror Hx))) as [-> ->]. auto. }
    destruct K as [-> K]. injection K as -> ->. reflexivity. }
  split.
  - intros Pa [-> M]. pose proof (proj1 (proj2 Pa)) as P. refine (send_passes s set_source dev p q m q' H Pa F _ M). unfold printable in *. rewrite Eq in P. unfold q'. apply Forall_app in P as [Pc Pb]. inversion Pb; subst. apply Forall_app. split; [exact Pc|]. constructor; [exact I|assumption].
  - intros N t' tr e0 R NS. destruct (reports_pass (t_scen t') e0) eqn:Ps; [|reflexivity]. exfalso. apply N. exact (send_runs_ok s set_source dev p q dev' m t' tr e0 q' H F R NS Ps).
Qed.
Print Assumptions C128_source.
(** So it fails every test that expects the packet that came in, exactly or not, with another source address that is not a
    wildcard. *)
Theorem C128_source_fails : forall s dev p q dev' m pre e post, two_steps s dev p q dev' m -> q = pre ++ HEth e :: post -> (forall x, ~ In (HEth x) pre) ->
  m_ref m = q -> eth_src e <> [186; 170; 170; 186; 170; 170] -> ~ In (CEth, "src") (m_wc m) -> cannot_pass s fail6.
Proof.
  intros s dev p q dev' m pre e post H Eq Np Er Ns Nw. apply (proj2 (C128_source s dev p q dev' m pre e post H Eq Np)). intros [_ M]. apply meets_agree in M. rewrite Er, Eq in M. apply F2_at in M; [|reflexivity].
  destruct M as [_ M]. destruct (M _ _ eq_refl eq_refl) as [K|K]; [contradiction|]. exact (Ns K).
Qed.
Print Assumptions C128_source_fails.
(** The program that replaces the last header by a TCP header fails every test that expects the packet that came in, exactly or
    not, when its last header is no TCP header; *)
Theorem C128_last_replaced : forall s dev p q dev' m, two_steps s dev p q dev' m -> m_ref m = q -> (forall pre x, q <> pre ++ [HTcp x]) -> cannot_pass s fail7.
Proof.
  intros s dev p q dev' m H Er Nt t' tr e R NS. destruct (reports_pass (t_scen t') e) eqn:Ps; [|reflexivity]. exfalso.
  destruct (last_or_nil q) as [Eq|(pre & h & Eq)].
  - assert (F : (fun p0 => pkt_set p0 (-1) (HTcp tcp_new)) q = Err EIndex) by (rewrite Eq; reflexivity). exact (send_runs_bad s (fun p => pkt_set p (-1) (HTcp tcp_new)) dev p q dev' m t' tr e H F R NS Ps).
  - assert (F : pkt_set q (-1) (HTcp tcp_new) = Ok (pre ++ [HTcp tcp_new])) by (rewrite Eq; apply set_last).
    destruct (send_runs_ok s (fun p => pkt_set p (-1) (HTcp tcp_new)) dev p q dev' m t' tr e _ H F R NS Ps) as (A & B).
    apply meets_agree in B. rewrite Er, Eq in B. apply F2_at in B; [|reflexivity]. destruct B as [B _]. cbn [class_of] in B. destruct h; try discriminate B. exact (Nt _ _ Eq).
Qed.
Print Assumptions C128_last_replaced.
(** and the program that removes the last header fails every test that expects the packet that came in, exactly or not. *)
Theorem C128_last_removed : forall s dev p q dev' m, two_steps s dev p q dev' m -> m_ref m = q -> cannot_pass s fail8.
Proof.
  intros s dev p q dev' m H Er t' tr e R NS. destruct (reports_pass (t_scen t') e) eqn:Ps; [|reflexivity]. exfalso.
  destruct (last_or_nil q) as [Eq|(pre & h & Eq)].
  - assert (F : (fun p => pkt_del p (-1)) q = Err EIndex) by (rewrite Eq; reflexivity). exact (send_runs_bad s (fun p => pkt_del p (-1)) dev p q dev' m t' tr e H F R NS Ps).
  - assert (F : pkt_del q (-1) = Ok pre) by (rewrite Eq; apply del_last).
    destruct (send_runs_ok s (fun p => pkt_del p (-1)) dev p q dev' m t' tr e _ H F R NS Ps) as (A & B).
    apply meets_agree in B. rewrite Er, Eq in B. apply F2_size in B. rewrite app_length in B. cbn [List.length] in B. lia.
Qed.
Print Assumptions C128_last_removed.
(** What they send: the last header replaced, or removed, and nothing else. *)
Theorem C128_last_sent : forall s dev p q dev' m pre h, two_steps s dev p q dev' m -> all_print p q m -> q = pre ++ [h] ->
  (dev' = "eth0" /\ meets m (pre ++ [HTcp tcp_new]) -> can_pass s fail7) /\ (dev' = "eth0" /\ meets m pre -> can_pass s fail8).
Proof.
  intros s dev p q dev' m pre h H Pa Eq. pose proof (proj1 (proj2 Pa)) as P. unfold printable in P. rewrite Eq in P. apply Forall_app in P as [P _]. split; intros [-> M].
  - refine (send_passes s (fun p => pkt_set p (-1) (HTcp tcp_new)) dev p q m _ H Pa _ _ M); [rewrite Eq; apply set_last|]. apply Forall_app. split; [exact P|repeat constructor].
  - refine (send_passes s (fun p => pkt_del p (-1)) dev p q m _ H Pa _ P M). rewrite Eq. apply del_last.
Qed.
Print Assumptions C128_last_sent.
(** A test of the documentation (testscenario1.py, with the frame of the hub's tests): the packet comes in on eth0 and is expected
    back there; the first program passes it, the others do not; expected on eth1, the first fails too. *)
Definition backtest (d : str) : scen := fold_left (fun s e => scen_expect e "" s) [EvIn "eth0" hf1; EvOut (mkOut [(d, xexact (rd hf1))] [])] (with_ifs (sc_ifs hubtests) (scen_new "in/out test scenario example")).
Lemma backtest_two d : two_steps (backtest d) "eth0" hf1 (rd hf1) d (xexact (rd hf1)).
Proof. split; [reflexivity|]. split; [reflexivity|]. split; [left; reflexivity|]. apply rd_reads. vm_compute. reflexivity. Qed.
Lemma backtest_prints : all_print hf1 (rd hf1) (xexact (rd hf1)).
Proof. split; [apply pkt_prints; vm_compute; reflexivity|]. split; apply pkt_prints; vm_compute; reflexivity. Qed.
Example C128_example : can_pass (backtest "eth0") fail1 /\ cannot_pass (backtest "eth1") fail1 /\ cannot_pass (backtest "eth0") fail6 /\ cannot_pass (backtest "eth0") fail7 /\ cannot_pass (backtest "eth0") fail8 /\
  (forall p t' tr e, In p [fail2; fail3; fail4] -> runs (tnet_new (backtest "eth0")) p t' tr e -> reports_pass (t_scen t') e = false).
Proof.
  assert (H : forall d, two_steps (backtest d) "eth0" hf1 (rd hf1) d (xexact (rd hf1))) by exact backtest_two.
  split; [|split; [|split; [|split; [|split]]]].
  - apply (proj1 (C128_fixed_port _ _ _ _ _ _ (H "eth0")) backtest_prints). split; [reflexivity|]. apply meets_bool. vm_compute. reflexivity.
  - apply (proj2 (C128_fixed_port _ _ _ _ _ _ (H "eth1"))). intros [A _]. discriminate.
  - assert (K : exists e post, rd hf1 = HEth e :: post /\ eth_src e <> [186; 170; 170; 186; 170; 170]) by (do 2 eexists; split; [vm_compute; reflexivity|]; vm_compute; discriminate). destruct K as (e & post & K1 & K2).
    refine (C128_source_fails (backtest "eth0") "eth0" hf1 (rd hf1) "eth0" (xexact (rd hf1)) [] e post _ _ _ _ K2 _); [apply H|exact K1|intros x []|unfold xexact; cbn [m_ref]; reflexivity|unfold xexact; cbn [m_wc]; intros []].
  - refine (C128_last_replaced (backtest "eth0") "eth0" hf1 (rd hf1) "eth0" (xexact (rd hf1)) _ _ _); [apply H|unfold xexact; cbn [m_ref]; reflexivity|]. intros pre x E. assert (K : forall l : packet, l = pre ++ [HTcp x] -> cls_eqb (class_of (last l (HRaw []))) CTcp = true) by (intros l ->; rewrite last_last; reflexivity). specialize (K _ E). clear E. vm_compute in K. discriminate.
  - refine (C128_last_removed (backtest "eth0") "eth0" hf1 (rd hf1) "eth0" (xexact (rd hf1)) _ _); [apply H|unfold xexact; cbn [m_ref]; reflexivity].
  - intros p t' tr e Hp R. refine (proj2 (C128_silent_programs p _ t' tr e Hp _ _ R)); [exists (mkOut [("eth0", xexact (rd hf1))] []); right; left; reflexivity|].
    constructor; [|constructor; [exact I|constructor]]. split; [left; reflexivity|]. destruct (rd_reads hf1 ltac:(vm_compute; reflexivity)) as (p' & b & B1 & B2). exists p', b, (rd hf1). auto.
Qed.

(** ** The program that only listens *)
(** It fails every test that expects an output, and passes every test that expects none, when the packets can be delivered and
    printed. *)
Theorem C128_listener : forall s n,
  (expects_output s -> forall t' tr e, runs (tnet_new s) (watch n) t' tr e -> reports_pass (t_scen t') e = false) /\
  (sc_done s = [] -> ~ expects_output s -> Forall printable_event (map sv_ev (sc_pend s)) -> Forall (deliverable (sc_ifs s)) (map sv_ev (sc_pend s)) -> (List.length (sc_pend s) < n)%nat -> can_pass s (watch n)).
Proof.
  intros s n. split.
  - intros X t' tr e R. pose proof (silent_runs _ _ _ _ _ R (watch_silent n) X) as Y. destruct e as [|x]; [exact (expects_no_pass _ Y)|]. apply raise_no_pass. intros ->. exact (watch_raises n _ _ _ _ R eq_refl).
  - intros Dn X P D L. assert (No : forall x, In x (sc_pend s) -> is_out (sv_ev x) = false).
    { intros x Hx. destruct (sv_ev x) as [| |o] eqn:Ex; [reflexivity..|]. exfalso. apply X. exists o. rewrite <- Ex. apply in_map. exact Hx. }
    assert (Pr : Forall (fun x => prt (sv_ev x)) (sc_pend s)).
    { apply Forall_forall. intros x Hx. apply printable_prt; [exact (proj1 (Forall_forall _ _) P _ (in_map sv_ev _ _ Hx))|]. pose proof (No x Hx) as N. destruct (sv_ev x); [exact I..|discriminate]. }
    destruct (play_watch (sc_ifs s) (sc_pend s) n (tnet_new s) Pr No D L) as (t' & tr & Pl & St); [split; [reflexivity|]; split; [reflexivity|]; unfold shown; cbn [tnet_new t_scen]; rewrite Dn; constructor|].
    exists t', tr. split; [apply play_runs; exact Pl|]. destruct St as (S1 & _ & S3). unfold reports_pass, summary_prints, failed_test. rewrite S1, app_nil_r, andb_true_r. apply forallb_forall. apply Forall_forall. exact S3.
Qed.
Print Assumptions C128_listener.
Definition heartest : scen := fold_left (fun s e => scen_expect e "" s) [EvIn "eth0" hf1; EvTimeout 1; EvIn "eth1" hf3] (with_ifs (sc_ifs hubtests) (scen_new "listening")).
Example C128_listener_example : expects_output (backtest "eth0") /\ sc_done heartest = [] /\ ~ expects_output heartest /\ Forall printable_event (map sv_ev (sc_pend heartest)) /\ Forall (deliverable (sc_ifs heartest)) (map sv_ev (sc_pend heartest)).
Proof.
  split; [exists (mkOut [("eth0", xexact (rd hf1))] []); right; left; reflexivity|]. split; [reflexivity|].
  change (map sv_ev (sc_pend heartest)) with [EvIn "eth0" hf1; EvTimeout 1; EvIn "eth1" hf3]. split; [intros [o [H|[H|[H|[]]]]]; discriminate|].
  split; [repeat (constructor; [first [exact I|apply in_shows; vm_compute; reflexivity]|]); constructor|].
  assert (D : forall d p, In d (dkeys (sc_ifs heartest)) -> reads_as p (rd p) -> deliverable (sc_ifs heartest) (EvIn d p)) by (intros d p Hd (p' & b & B1 & B2); split; [exact Hd|]; exists p', b, (rd p); auto).
  constructor; [apply D; [left; reflexivity|apply rd_reads; vm_compute; reflexivity]|]. constructor; [exact I|]. constructor; [apply D; [right; left; reflexivity|apply rd_reads; vm_compute; reflexivity]|constructor].
Qed.
