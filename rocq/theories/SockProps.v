(** Emulated sockets: properties C37, C38, C39, C73. *)
From Verif Require Import BaseLemmas Enums SockModel SockSpec SockProofs.
From Coq Require Import Permutation.

(** C37. After any tidy history (only open sockets are bound or closed, integer ports, working firewall), data goes to the
    open socket bound to exactly the protocol, address and port, else to the one bound to the wildcard address, else nowhere;
    at most one open socket is bound to a given place. *)
Theorem C37_delivery_partial : forall l n log p la ra lip lp rip rp d n' r, ops_run snet_new l = (n, log) -> tidy [] log ->
  In p IPProtocols -> la = mkAddr (Some lip) (PInt lp) -> ra = mkAddr (Some rip) (PInt rp) -> do_op n (SDeliver p la ra d) = (n', r) ->
  let m := ((lip, lp), (rip, rp), d) in let lv := open_socks [] log in
  (exists s, In s lv /\ bound_to n s = Some (p, lip, lp) /\ r = RPut s m /\ goes_only_to s m n n') \/
  ((forall s, In s lv -> bound_to n s <> Some (p, lip, lp)) /\
    ((exists s, In s lv /\ bound_to n s = Some (p, [0; 0; 0; 0], lp) /\ r = RPut s m /\ goes_only_to s m n n') \/
     ((forall s, In s lv -> bound_to n s <> Some (p, [0; 0; 0; 0], lp)) /\ r = RBool false /\ nothing_moves n n'))).
Proof. intros l n log p la ra lip lp rip rp d n' r H T Hp -> -> D. pose proof (deliver_split _ _ _ _ _ _ _ _ (history_good _ _ _ H T) D) as [_ X].
  assert (E : enum_of IPProtocols p = Ok p) by (apply enum_of_ok; auto). rewrite E in X. exact X. Qed.
Theorem C37_one_owner : forall l n log s s' k, ops_run snet_new l = (n, log) -> tidy [] log -> In s (open_socks [] log) -> In s' (open_socks [] log) ->
  bound_to n s = Some k -> bound_to n s' = Some k -> s = s'.
Proof. intros l n log s s' k H T I I' B B'. exact (g_ports _ _ (history_good _ _ _ H T) s s' k k I I' B B' eq_refl). Qed.
(** A socket closed twice can cut off another socket that has since taken its place; a closed socket that is bound again
    can take another socket's data. *)
Definition twice_closed : list sop := [SNew 2 2 0 40000 [] true; SNew 2 2 0 40001 [] true; SOther (AClose 0); SBind 1 (mkAddr (Some [0; 0; 0; 0]) (PInt 40000)) [] true; SOther (AClose 0)].
Theorem C37_double_close_refuted : exists l, let '(n, log) := ops_run snet_new l in open_socks [] log = [1%nat] /\
  bound_to n 1 = Some (17, [0; 0; 0; 0], 40000) /\ forall ra d, a_ip ra <> None -> (exists p, a_port ra = PInt p) -> snd (do_op n (SDeliver 17 (mkAddr (Some [0; 0; 0; 0]) (PInt 40000)) ra d)) = RBool false.
Proof. exists twice_closed. vm_compute. split; [reflexivity|]. split; [reflexivity|]. intros [[ip|] po] d H [p E]; vm_compute in H, E; subst po; [reflexivity|exfalso; apply H; reflexivity]. Qed.
Definition bound_after_close : list sop := [SNew 2 2 0 40000 [] true; SNew 2 2 0 40001 [] true; SOther (AClose 0); SBind 1 (mkAddr (Some [0; 0; 0; 0]) (PInt 40000)) [] true; SBind 0 (mkAddr (Some [0; 0; 0; 0]) (PInt 40002)) [] true].
Theorem C37_bind_after_close_refuted : exists l, let '(n, log) := ops_run snet_new l in open_socks [] log = [1%nat] /\ bound_to n 0 = Some (17, [0; 0; 0; 0], 40002) /\ bound_to n 1 = Some (17, [0; 0; 0; 0], 40000) /\
  forall ra d, a_ip ra <> None -> (exists p, a_port ra = PInt p) -> exists m, snd (do_op n (SDeliver 17 (mkAddr (Some [0; 0; 0; 0]) (PInt 40002)) ra d)) = RPut 1 m.
Proof. exists bound_after_close. vm_compute. split; [reflexivity|]. split; [reflexivity|]. split; [reflexivity|]. intros [[ip|] po] d H [p E]; vm_compute in H, E; subst po; [eexists; reflexivity|exfalso; apply H; reflexivity]. Qed.
Definition xhist : list sop := [SNew 2 2 0 40000 [53] true; SNew 2 2 0 40001 [53] true; SBind 0 (mkAddr (Some [10; 0; 0; 1]) (PInt 9000)) [53] true;
  SBind 1 (mkAddr (Some [0; 0; 0; 0]) (PInt 9000)) [53] true; SBind 1 (mkAddr (Some [0; 0; 0; 0]) (PInt 9001)) [53] true; SDeliver 17 (mkAddr (Some [10; 0; 0; 1]) (PInt 9000)) (mkAddr (Some [10; 0; 0; 9]) (PInt 7)) [1];
  SDeliver 17 (mkAddr (Some [10; 0; 0; 1]) (PInt 9001)) (mkAddr (Some [10; 0; 0; 9]) (PInt 7)) [2]; SDeliver 17 (mkAddr (Some [10; 0; 0; 2]) (PInt 9000)) (mkAddr (Some [10; 0; 0; 9]) (PInt 7)) [3]; SOther (ARecv 0)].
Example C37_case : let '(n, log) := ops_run snet_new xhist in tidy [] log /\ open_socks [] log = [1%nat; 0%nat] /\
  map snd log = [RSock 0; RSock 1; RNum 0; RNum (-1); RNum 0; RPut 0 (([10; 0; 0; 1], 9000), ([10; 0; 0; 9], 7), [1]); RPut 1 (([10; 0; 0; 1], 9001), ([10; 0; 0; 9], 7), [2]); RBool false; RGot (([10; 0; 0; 1], 9000), ([10; 0; 0; 9], 7), [1])].
Proof. vm_compute. repeat split; eauto. Qed.

(** C38. Under every interleaving of the actions of any number of calls: what was put on a socket's queue is what has been
    received from it, in order, followed by what is pending; what applications sent is what the stack has taken, in order,
    followed by what is waiting; the messages offered are exactly those put somewhere, refused or still on their way. *)
Theorem C38_upward_order : forall l n log s, acts_run snet_new l = (n, log) -> puts s log = gots s log ++ pending n s.
Proof. exact upward_order. Qed.
Theorem C38_downward_order : forall l n log, acts_run snet_new l = (n, log) -> sent log = to_stack log ++ n_down n.
Proof. exact downward_order. Qed.
Theorem C38_nothing_invented : forall l n log, acts_run snet_new l = (n, log) -> exists dropped, length dropped = refusals log /\
  Permutation (offered log) (map snd (all_puts log) ++ dropped ++ in_flight n).
Proof. exact nothing_invented. Qed.
Theorem C38_sends_as_addressed : forall n a n' f d, do_act n a = (n', RSent f d) -> exists s k, nth_error (n_socks n) s = Some k /\
  ((exists r, a = ASend s d /\ k_remote k = Some r /\ f = (k_proto k, k_ip k, k_port k, fst r, snd r)) \/
   (exists ad ip p, a = ASendto s d ad /\ a_ip ad = Some ip /\ (a_port ad = PInt p \/ a_port ad = PStr (Some p)) /\ f = (k_proto k, k_ip k, k_port k, ip, p))).
Proof. exact sends_as_addressed. Qed.
Theorem C38_bind_keeps_data : forall n s a sys i fw s', pending (fst (do_act n (ABind s a sys))) s' = pending n s' /\ pending (fst (do_act n (ARebind i fw))) s' = pending n s'.
Proof. intros. split.
  - pose proof (act_pending n (ABind s a sys) _ _ s' (surjective_pairing _)) as P. cbn [gots app] in P. rewrite P. cbn [do_act]. unfold a_bind, start. destruct (nth_error _ _); [|cbn [snd puts]; rewrite app_nil_r; reflexivity].
    destruct (in_use _ _ _); [apply app_nil_r|]. destruct (sockid _); [|apply app_nil_r]. destruct (normalize _) as [[? ?]|]; apply app_nil_r.
  - pose proof (act_pending n (ARebind i fw) _ _ s' (surjective_pairing _)) as P. cbn [gots app] in P. rewrite P. cbn [do_act]. unfold a_rebind. destruct (flying i n) as [[]|]; try apply app_nil_r. destruct fw; [|apply app_nil_r].
    destruct (rget old (n_reg n)), (nth_error (n_socks n) s0); try apply app_nil_r. destruct (sockid _); apply app_nil_r. Qed.
(** Two deliveries and a bind interleaved: the second lookup of the first delivery happens after the bind has moved the socket. *)
Definition xweave : list act := [ANew 2 2 0 40000 [] true; AReg 0; ADeliver 17 (mkAddr (Some [10; 0; 0; 1]) (PInt 40000)) (mkAddr (Some [10; 0; 0; 9]) (PInt 7)) [1];
  ADeliver 17 (mkAddr (Some [0; 0; 0; 0]) (PInt 40000)) (mkAddr (Some [10; 0; 0; 9]) (PInt 7)) [2]; ABind 0 (mkAddr (Some [10; 0; 0; 1]) (PInt 9)) []; ARebind 3 true; AWild 1; APut 2; ARecv 0; ASendto 0 [5] (mkAddr (Some [10; 0; 0; 9]) (PInt 7)); ARecvApp].
Example C38_case : let '(n, log) := acts_run snet_new xweave in puts 0 log = [(([0; 0; 0; 0], 40000), ([10; 0; 0; 9], 7), [2])] /\ refusals log = 1%nat /\ gots 0 log = puts 0 log /\ to_stack log = [((17, [10; 0; 0; 1], 9, [10; 0; 0; 9], 7), [5])].
Proof. vm_compute. auto. Qed.

(** C39. After any tidy history no two open sockets have the same local port (whatever the protocol); bind to a port in
    use returns -1 and changes nothing; a new socket gets an unused port from 30000 to 60000. *)
Theorem C39_distinct_ports_partial : forall l n log s s' k k', ops_run snet_new l = (n, log) -> tidy [] log -> In s (open_socks [] log) -> In s' (open_socks [] log) ->
  bound_to n s = Some k -> bound_to n s' = Some k' -> snd k = snd k' -> s = s'.
Proof. intros l n log s s' k k' H T. exact (g_ports _ _ (history_good _ _ _ H T) s s' k k'). Qed.
Theorem C39_bind : forall l n log s a p sys fw n' r, ops_run snet_new l = (n, log) -> tidy [] log -> In s (open_socks [] log) -> a_port a = PInt p -> do_op n (SBind s a sys fw) = (n', r) ->
  let used := In p sys \/ exists s', In s' (open_socks [] log) /\ exists q, bound_to n s' = Some q /\ snd q = p in
  (used <-> r = RNum (-1)) /\ (r = RNum (-1) -> n' = n) /\ (a_ip a = None -> n' = n /\ (used \/ r = RExn EValue)) /\
  (r = RNum 0 -> exists q ip, bound_to n s = Some q /\ a_ip a = Some ip /\ bound_to n' s = Some (fst (fst q), ip, p) /\
     (forall s', s' <> s -> bound_to n' s' = bound_to n s') /\ forall s', pending n' s' = pending n s') /\
  (fw = true -> a_ip a <> None -> ~ used -> r = RNum 0).
Proof. intros l n log s a p sys fw n' r H T. exact (bind_checked _ _ _ _ _ _ _ _ _ (history_good _ _ _ H T)). Qed.
Theorem C39_new_port : forall l n log fam typ proto port sys fw n' s, ops_run snet_new l = (n, log) -> tidy [] log -> do_op n (SNew fam typ proto port sys fw) = (n', RSock s) ->
  30000 <= port <= 60000 /\ ~ In port sys /\ (forall s' q, In s' (open_socks [] log) -> bound_to n s' = Some q -> snd q <> port) /\ ~ In s (open_socks [] log) /\
  bound_to n' s = Some (if proto =? 0 then 17 else proto, [0; 0; 0; 0], port) /\ pending n' s = [] /\ (forall s', s' <> s -> bound_to n' s' = bound_to n s' /\ pending n' s' = pending n s').
Proof. intros l n log fam typ proto port sys fw n' s H T. exact (new_port _ _ _ _ _ _ _ _ _ _ (history_good _ _ _ H T)). Qed.
(** Two threads binding at once, or creating sockets at once, can both get the port; so can a port given as text. *)
Theorem C39_interleaved_bind_refuted : exists l, let '(n, log) := acts_run snet_new l in In (ARebind 2 true, RNum 0) log /\ In (ARebind 3 true, RNum 0) log /\
  bound_to n 0 = Some (17, [0; 0; 0; 0], 9000) /\ bound_to n 1 = Some (17, [0; 0; 0; 0], 9000).
Proof. exists [ANew 2 2 0 40000 [] true; AReg 0; ANew 2 2 0 40001 [] true; AReg 1; ABind 0 (mkAddr (Some [0; 0; 0; 0]) (PInt 9000)) []; ABind 1 (mkAddr (Some [0; 0; 0; 0]) (PInt 9000)) []; ARebind 2 true; ARebind 3 true]. vm_compute. tauto. Qed.
Theorem C39_interleaved_new_refuted : exists l, let '(n, log) := acts_run snet_new l in In (AReg 0, RSock 0) log /\ In (AReg 1, RSock 1) log /\
  bound_to n 0 = Some (17, [0; 0; 0; 0], 40000) /\ bound_to n 1 = Some (17, [0; 0; 0; 0], 40000).
Proof. exists [ANew 2 2 0 40000 [] true; ANew 2 2 0 40000 [] true; AReg 0; AReg 1]. vm_compute. tauto. Qed.
(** A bind to a free port can raise RuntimeError because another thread makes a socket at the same time; nothing changes then. *)
Theorem C39_bind_disturbed_refuted : exists l, let '(n, log) := acts_run snet_new l in
  (exists i, In (AScan 0, RFlight i) log /\ In (AScanned i, RExn ERuntime) log) /\ (forall s, bound_to n s = bound_to (fst (acts_run snet_new (filter (fun a => match a with AScan _ | AScanned _ => false | _ => true end) l))) s) /\
  snd (do_op n (SBind 0 (mkAddr (Some [10; 0; 0; 1]) (PInt 9000)) [] true)) = RNum 0.
Proof. exists [ANew 2 2 0 40000 [] true; AReg 0; ANew 2 2 0 40001 [] true; AScan 0; AReg 1; AScanned 2]. vm_compute. split; [exists 2%nat; tauto|]. split; reflexivity. Qed.
Print Assumptions C39_bind_disturbed_refuted.
Theorem C39_text_port_refuted : exists l, let '(n, log) := ops_run snet_new l in open_socks [] log = [1%nat; 0%nat] /\
  bound_to n 0 = Some (17, [0; 0; 0; 0], 40000) /\ bound_to n 1 = Some (17, [0; 0; 0; 0], 40000).
Proof. exists [SNew 2 2 0 40000 [] true; SNew 2 2 0 40001 [] true; SBind 1 (mkAddr (Some [0; 0; 0; 0]) (PStr (Some 40000))) [] true]. vm_compute. auto. Qed.
(** A bind that fails in the firewall still moves the socket's address, while its data keeps arriving under the old one. *)
Theorem C39_failed_firewall_refuted : exists l, let '(n, log) := ops_run snet_new l in In (SBind 0 (mkAddr (Some [10; 0; 0; 1]) (PInt 9000)) [] false, RExn EExc) log /\
  bound_to n 0 = Some (17, [10; 0; 0; 1], 9000) /\ exists m, snd (do_op n (SDeliver 17 (mkAddr (Some [0; 0; 0; 0]) (PInt 40000)) (mkAddr (Some [10; 0; 0; 9]) (PInt 7)) [1])) = RPut 0 m.
Proof. exists [SNew 2 2 0 40000 [] true; SBind 0 (mkAddr (Some [10; 0; 0; 1]) (PInt 9000)) [] false]. vm_compute. split; [auto|]. split; [reflexivity|]. eexists. reflexivity. Qed.
Example C39_case : let '(n, log) := ops_run snet_new xhist in tidy [] log /\ do_op n (SBind 1 (mkAddr (Some [10; 0; 0; 7]) (PInt 9000)) [53] true) = (n, RNum (-1)) /\ snd (do_op n (SNew 2 2 0 40000 [53] true)) = RSock 2.
Proof. vm_compute. repeat split; eauto. Qed.

(** C73. After settimeout(t), t positive, a receive with nothing pending waits t, and gettimeout gives t; settimeout(0)
    makes receives not wait at all; settimeout(None) should make them wait for ever but keeps the old time. *)
Theorem C73_positive_timeout_partial : forall n s t n' r k, 0 < t -> nth_error (n_socks n) s = Some k -> do_act n (ASettimeout s (Some t)) = (n', r) ->
  exists k', nth_error (n_socks n') s = Some k' /\ recv_wait k' = Some t /\ k_timeout k' = Some t.
Proof. exact wait_positive. Qed.
Theorem C73_zero_timeout : forall n s n' r k, nth_error (n_socks n) s = Some k -> do_act n (ASettimeout s (Some 0)) = (n', r) ->
  exists k', nth_error (n_socks n') s = Some k' /\ recv_wait k' = Some 0.
Proof. exact wait_zero. Qed.
(** Nothing but settimeout and setblocking on the socket itself changes how long its receives wait. *)
Theorem C73_kept : forall n s k a n' r, nth_error (n_socks n) s = Some k -> do_act n a = (n', r) ->
  match a with ASettimeout s' _ | ASetblocking s' _ => s' <> s | _ => True end ->
  exists k', nth_error (n_socks n') s = Some k' /\ k_timeout k' = k_timeout k /\ recv_wait k' = recv_wait k.
Proof.
  intros n s k a n' r Hk H Ha.
  assert (Same : forall m, n_socks m = n_socks n -> exists k', nth_error (n_socks m) s = Some k' /\ k_timeout k' = k_timeout k /\ recv_wait k' = recv_wait k).
  { intros m ->. exists k. auto. }
  assert (Upd : forall s' k0 kn, nth_error (n_socks n) s' = Some k0 -> (s' = s -> k_timeout kn = k_timeout k0 /\ k_block kn = k_block k0) ->
     forall m, n_socks m = upd s' kn (n_socks n) -> exists k', nth_error (n_socks m) s = Some k' /\ k_timeout k' = k_timeout k /\ recv_wait k' = recv_wait k).
  { intros s' k0 kn H0 Hs m ->. destruct (Nat.eq_dec s' s) as [->|Hne].
    - exists kn. destruct (Hs eq_refl) as [T B]. assert (k0 = k) by congruence. subst k0.
      split; [apply upd_same; apply nth_error_Some; congruence|]. unfold recv_wait. rewrite T, B. auto.
    - exists k. split; [rewrite upd_other by exact Hne; exact Hk|auto]. }
  destruct a as [fam typ proto port sys fw|i|s0 ad sys|i fw|s0|s0 ad|s0 d|s0 d ad|s0|s0 t|s0 b|t|pr lo re d|i|i| |s0|i]; cbn [do_act] in H.
  - unfold a_new in H. destruct (negb _); [injection H as <- _; auto|]. destruct (negb (typ =? 2)); [injection H as <- _; auto|].
    destruct (_ || _ || _); [injection H as <- _; auto|]. destruct fw; [|injection H as <- _; auto]. unfold start in H. injection H as <- _.
    exists k. split; [|auto]. cbn. rewrite nth_error_app1; [exact Hk|apply nth_error_Some; congruence].
  - unfold a_reg in H. destruct (flying i n) as [[s0|? ?|? ?|? ?|? ?]|]; try (injection H as <- _; auto; fail).
    destruct (nth_error (n_socks n) s0); [|injection H as <- _; auto]. destruct (sockid s1); injection H as <- _; apply Same; reflexivity.
  - unfold a_bind in H. destruct (nth_error (n_socks n) s0) as [k0|] eqn:E0; [|injection H as <- _; auto].
    destruct (in_use _ _ _); [injection H as <- _; auto|]. destruct (sockid k0); [|injection H as <- _; auto].
    destruct (normalize ad) as [[ip p]|]; [|injection H as <- _; auto]. unfold start in H. injection H as <- _.
    eapply (Upd s0 k0); [exact E0| |reflexivity]. auto.
  - unfold a_rebind in H. destruct (flying i n) as [[s0|s0 old|? ?|? ?|? ?]|]; try (injection H as <- _; auto; fail).
    destruct fw; [|injection H as <- _; apply Same; reflexivity]. destruct (rget old (n_reg n)); [|injection H as <- _; apply Same; reflexivity].
    destruct (nth_error (n_socks n) s0); [|injection H as <- _; apply Same; reflexivity]. destruct (sockid _); injection H as <- _; apply Same; reflexivity.
  - unfold a_close in H. destruct (nth_error (n_socks n) s0) as [k0|]; [|injection H as <- _; auto]. destruct (sockid k0); injection H as <- _; apply Same; reflexivity.
  - unfold a_connect in H. destruct (nth_error (n_socks n) s0) as [k0|] eqn:E0; [|injection H as <- _; auto].
    destruct (normalize ad) as [rm|]; [|injection H as <- _; auto]. injection H as <- _. eapply (Upd s0 k0); [exact E0| |reflexivity]. auto.
  - unfold a_send in H. destruct (nth_error (n_socks n) s0) as [k0|]; [|injection H as <- _; auto]. destruct (k_remote k0); injection H as <- _; apply Same; reflexivity.
  - unfold a_sendto in H. destruct (nth_error (n_socks n) s0) as [k0|]; [|injection H as <- _; auto]. destruct (normalize ad); injection H as <- _; apply Same; reflexivity.
  - unfold a_recv in H. destruct (nth_error (n_queues n) s0) as [q|]; [destruct (bad_wait s0 n); [|destruct q]|]; injection H as <- _; apply Same; reflexivity.
  - unfold a_settimeout in H. destruct (nth_error (n_socks n) s0) as [k0|] eqn:E0; [|injection H as <- _; auto]. injection H as <- _.
    eapply (Upd s0 k0); [exact E0| |reflexivity]. intros C. contradiction.
  - unfold a_setblocking in H. destruct (nth_error (n_socks n) s0) as [k0|] eqn:E0; [|injection H as <- _; auto]. injection H as <- _.
    eapply (Upd s0 k0); [exact E0| |reflexivity]. intros C. contradiction.
  - injection H as <- _. apply Same. reflexivity.
  - unfold a_deliver in H. destruct (enum_of IPProtocols pr); [|injection H as <- _; auto].
    destruct (normalize lo) as [l0|]; [|injection H as <- _; auto]. destruct (normalize re); [|injection H as <- _; auto].
    destruct (rget _ _); unfold start in H; injection H as <- _; apply Same; reflexivity.
  - unfold a_wild in H. destruct (flying i n) as [[s0|? ?|? ?|? ?|? ?]|]; try (injection H as <- _; auto; fail). destruct (rget _ _); injection H as <- _; apply Same; reflexivity.
  - unfold a_put in H. destruct (flying i n) as [[s0|? ?|? ?|? ?|? ?]|]; try (injection H as <- _; auto; fail). destruct (nth_error (n_queues n) _); injection H as <- _; apply Same; reflexivity.
  - unfold a_recv_app in H. destruct (n_down n) as [|[f d] l]; injection H as <- _; apply Same; reflexivity.
  - unfold a_scan, start in H. destruct (nth_error (n_socks n) s0); injection H as <- _; apply Same; reflexivity.
  - unfold a_scanned in H. destruct (flying i n) as [[s0|? ?|? ?|? ?|? ?]|]; try (injection H as <- _; auto; fail). destruct (Nat.eqb _ _); injection H as <- _; apply Same; reflexivity.
Qed.
Print Assumptions C73_kept.
Example C73_kept_example : let '(n, log) := acts_run snet_new [ANew 2 2 0 40000 [] true; AReg 0; ASettimeout 0 (Some 500)] in
  exists k n' r, nth_error (n_socks n) 0 = Some k /\ do_act n (AConnect 0 (mkAddr (Some [10; 0; 0; 1]) (PInt 53))) = (n', r) /\ k_timeout k = Some 500.
Proof. vm_compute. do 3 eexists. split; [reflexivity|]. split; reflexivity. Qed.
(** A receive on a socket whose time is not negative gives the oldest data there is, and times out only when there is none; a
    negative time is accepted, and from then on every receive raises ValueError, whether there is data or not. *)
Theorem C73_receive : forall n s k, nth_error (n_socks n) s = Some k -> (nth_error (n_queues n) s <> None) -> (forall t, k_timeout k = Some t -> 0 <= t) ->
  snd (do_act n (ARecv s)) = match pending n s with m :: _ => RGot m | [] => RExn ETimeout end.
Proof.
  intros n s k Hk Hq Ht. cbn [do_act]. unfold a_recv, bad_wait. rewrite Hk. destruct (nth_error (n_queues n) s) as [q|] eqn:Q; [|congruence]. rewrite (pending_nth _ _ _ Q).
  assert (B : (match k_timeout k with Some t => t <? 0 | None => false end) = false) by (destruct (k_timeout k) as [t|]; [specialize (Ht t eq_refl); lia|reflexivity]).
  rewrite B, andb_false_r. destruct q; reflexivity.
Qed.
Theorem C73_negative_fails : forall n s t k n' r, t < 0 -> nth_error (n_socks n) s = Some k -> nth_error (n_queues n) s <> None -> do_act n (ASettimeout s (Some t)) = (n', r) ->
  r = RNum 0 /\ do_act n' (ARecv s) = (n', RExn EValue).
Proof.
  intros n s t k n' r Ht Hk Hq H. cbn [do_act] in H. unfold a_settimeout in H. rewrite Hk in H. injection H as <- <-. split; [reflexivity|].
  cbn [do_act]. unfold a_recv, bad_wait. cbn [with_sock n_queues n_socks]. destruct (nth_error (n_queues n) s); [|congruence].
  rewrite upd_same by (eapply nth_error_lt; exact Hk). unfold settimeout. destruct t as [|p|p]; [lia|lia|]. reflexivity.
Qed.
Theorem C73_no_timeout_refuted : exists l k, let '(n, log) := acts_run snet_new l in nth_error (n_socks n) 0 = Some k /\ In (ASettimeout 0 None, RNum 0) log /\ recv_wait k = Some 500 /\ k_timeout k = Some 500.
Proof. exists [ANew 2 2 0 40000 [] true; AReg 0; ASettimeout 0 (Some 500); ASettimeout 0 None], (mkSock 17 [0; 0; 0; 0] 40000 None (Some 500) true). vm_compute. tauto. Qed.
Theorem C73_zero_gettimeout_refuted : exists l k, let '(n, log) := acts_run snet_new l in nth_error (n_socks n) 0 = Some k /\ In (ASettimeout 0 (Some 0), RNum 0) log /\ k_timeout k = Some 500.
Proof. exists [ANew 2 2 0 40000 [] true; AReg 0; ASettimeout 0 (Some 500); ASettimeout 0 (Some 0)], (mkSock 17 [0; 0; 0; 0] 40000 None (Some 500) false). vm_compute. tauto. Qed.
Print Assumptions C73_receive.
Print Assumptions C73_negative_fails.
Print Assumptions C37_delivery_partial.
Print Assumptions C37_one_owner.
Print Assumptions C38_upward_order.
Print Assumptions C38_downward_order.
Print Assumptions C38_nothing_invented.
Print Assumptions C39_bind.
Print Assumptions C39_new_port.
Print Assumptions C73_positive_timeout_partial.

(** C73.  The calls that set waiting times answer 0 for a socket there is. *)
Theorem C73_answers : forall n s k t b d, nth_error (n_socks n) s = Some k -> snd (do_act n (ASettimeout s t)) = RNum 0 /\ snd (do_act n (ASetblocking s b)) = RNum 0 /\ snd (do_act n (ASetdefault d)) = RNum 0.
Proof. intros n s k t b d H. cbn [do_act]. unfold a_settimeout, a_setblocking. rewrite H. repeat split. Qed.
Print Assumptions C73_answers.
