(** Theorems about live devices (C93, C94). *)
From Verif Require Import BaseLemmas CodecLemmas EthAddrModel EthModel Ipv4Model TransportModel Ipv6Model PacketModel PacketSpec PacketProofs PacketMore PacketProps SendModel SendSpec NetProofs SendProofs.
#[local] Open Scope list_scope.
#[local] Open Scope string_scope.
#[local] Open Scope Z_scope.

(** * C93: sending on a live device *)

(** On a device that is not a loopback device exactly the bytes of the packet go out, there and nowhere else; the headers of
    the caller's packet stay, only lengths and checksums are filled in; and a receiver reads the packet that was sent. *)
Theorem C93_wired : forall e d a s t h r p' b, table d -> leads d a s t -> t <> TLoopback -> pkt_to_bytes (h :: r) = Ok (p', b) ->
  live_send e (make_pcaps d) a (PPkt (h :: r)) = (p', [Wire s b], if e_rv e =? 0 then Ok tt else Err EExc) /\
  Forall2 only_fixups (h :: r) p' /\
  (chained (h :: r) -> Forall wf_hdr (h :: r) -> exists q, pkt_new b (class_of h) = Ok q /\ pkt_eqb (h :: r) q = Ok true).
Proof.
  intros e d a s t h r p' b T L N P. destruct (leads_send e d a s t (h :: r) T L) as [E [i G]]. split; [|split].
  - rewrite E, (wired_send e d s i t _ G), P; [reflexivity|destruct t; try reflexivity; contradiction].
  - exact (ser_fixups _ _ _ _ P).
  - intros C W. destruct (C24_packet_round_trip h r p' b C W P) as (q & Q1 & _ & Q2). eauto.
Qed.
Print Assumptions C93_wired.
(** What is not a packet, and a name that is not known, is refused with ValueError; nothing goes out and the packet stays. *)
Theorem C93_refused : forall e d a p, table d ->
  (p = PNone \/ p = POther \/ exists s q, a = DName s /\ unknown d a /\ p = PPkt q) ->
  snd (live_send e (make_pcaps d) a p) = Err EValue /\ snd (fst (live_send e (make_pcaps d) a p)) = [] /\ (forall q, p = PPkt q -> fst (fst (live_send e (make_pcaps d) a p)) = q).
Proof.
  intros e d a p T [->|[->|(s & q & -> & U & ->)]]; [split; [reflexivity|split; [reflexivity|discriminate]]..|].
  unfold live_send. change (ln_dev (make_pcaps d)) with d. cbn [unknown] in U. rewrite U. split; [reflexivity|]. split; [reflexivity|]. intros q' E. injection E as ->. reflexivity.
Qed.
Print Assumptions C93_refused.
(** Numbers and interfaces that are not known never raise ValueError: a number raises KeyError, an interface AttributeError
    (or what the packet raises when it is serialised). *)
Theorem C93_unknown_fails : forall e d a p p' b, table d -> unknown d a -> (forall s, a <> DName s) -> pkt_to_bytes p = Ok (p', b) ->
  exists x q, live_send e (make_pcaps d) a (PPkt p) = (q, [], Err x) /\ (x = EKey \/ x = EAttr).
Proof.
  intros e d a p p' b T U N P. unfold live_send. change (ln_dev (make_pcaps d)) with d. destruct a as [s|k|[i t]]; [exfalso; exact (N s eq_refl)| |].
  - fold (ifaces d). destruct (num_none d k) as [E|[s E]]; [rewrite E; eauto|]. exfalso. destruct (num_found d k s T E) as (i & t & G & K). exact (U s i t G K).
  - cbn [unknown] in U. destruct (not_made d (if_name i) U) as [K1 K2]. unfold send_on. rewrite P, K1, K2. destruct (is_loop t); eauto.
Qed.
Print Assumptions C93_unknown_fails.
Definition d2 : dict port := [("eth0", (mkIf "eth0" [2; 0; 0; 0; 0; 1] [] 1, TWired)); ("lo", (mkIf "lo" [0; 0; 0; 0; 0; 0] [] 2, TLoopback))].
Definition good_env : env := mkEnv 0 (Some 31) false.
Lemma d2_table : table d2.
Proof.
  split; [repeat constructor; cbn; intuition discriminate|]. intros s i t H. apply dget_In in H. cbn in H. destruct H as [H|[H|[]]]; injection H as <- <- <-; reflexivity.
Qed.
(** A network with a wired and a loopback device meets the hypotheses. *)
Example C93_case : table d2 /\ leads d2 (DNum 1) "eth0" TWired /\ leads d2 (DName "eth0") "eth0" TWired /\
  exists p' b, pkt_to_bytes [HEth xe; HIp4 (xip 17); HUdp xudp; HRaw [1; 2; 3]] = Ok (p', b) /\ live_send good_env (make_pcaps d2) (DNum 1) (PPkt [HEth xe; HIp4 (xip 17); HUdp xudp; HRaw [1; 2; 3]]) = (p', [Wire "eth0" b], Ok tt).
Proof.
  split; [exact d2_table|]. split; [apply (l_num _ _ _ (mkIf "eth0" [2; 0; 0; 0; 0; 1] [] 1)); [reflexivity|reflexivity|]|].
  - intros s i t H K. apply dget_In in H. cbn in H. destruct H as [H|[H|[]]]; injection H as <- <- <-; [reflexivity|discriminate].
  - split; [eapply l_name; reflexivity|]. do 2 eexists. split; [vm_compute; reflexivity|]. vm_compute. reflexivity.
Qed.
(** An interface put in service by intf_up is in the table, but cannot be sent on. *)
Theorem C93_up_refuted : exists p n, live_up p (make_pcaps d2) = Ok n /\ dget (if_name (fst p)) (ln_dev n) = Some p /\
  snd (live_send good_env n (DName (if_name (fst p))) (PPkt [HEth xe; HIp4 (xip 17); HUdp xudp])) = Err EAttr.
Proof. exists (mkIf "eth1" [2; 0; 0; 0; 0; 3] [] 3, TWired). eexists. split; [vm_compute; reflexivity|]. split; [reflexivity|]. vm_compute. reflexivity. Qed.
Print Assumptions C93_up_refuted.
(** On a loopback device the bytes of an IPv4 packet above the link header are given to the kernel (with length and offset in
    host order on macOS), for its destination address and the port of its UDP header.  The kernel has to take all of them. *)
Theorem C93_loop_partial : forall e d a s p x r ob q b n, table d -> leads d a s TLoopback -> above_link p = HIp4 x :: r ->
  opts_to_bytes (ip_opts x) = Ok ob -> zlen ob <= 40 -> pkt_to_bytes (HIp4 x :: r) = Ok (q, b) -> e_sent e = Some n ->
  exists out port, live_send e (make_pcaps d) a (PPkt p) = (q, [Raw s out (ip_dst x) port], if zlen b =? n then Ok tt else Err EExc) /\
    (if e_mac e then host_order b out else out = b) /\ first_udp_port q port.
Proof.
  intros e d a s p x r ob q b n T L A O Lo P S. destruct (leads_send e d a s TLoopback p T L) as [E [i G]]. rewrite E, (loop_send e d s i TLoopback p G eq_refl).
  destruct (loop_ip4 e s p x r ob q b A O Lo P) as [LB ->]. rewrite S. eexists _, _. split; [reflexivity|]. split; [|apply udp_port_spec]. destruct (e_mac e); [apply swap_host; lia|reflexivity].
Qed.
Print Assumptions C93_loop_partial.
Example C93_loop_case : exists q out, leads d2 (DName "lo") "lo" TLoopback /\
  live_send good_env (make_pcaps d2) (DName "lo") (PPkt [HEth xe; HIp4 (xip 17); HUdp xudp; HRaw [1; 2; 3]]) = (q, [Raw "lo" out [10; 0; 0; 2] 53], Ok tt) /\ List.length q = 3%nat /\ zlen out = 31.
Proof. do 2 eexists. split; [eapply l_name; reflexivity|]. split; [vm_compute; reflexivity|]. split; reflexivity. Qed.
Lemma Forall2_len {A B} (R : A -> B -> Prop) a b : Forall2 R a b -> List.length a = List.length b.
Proof. induction 1; cbn [List.length]; congruence. Qed.
(** The link header is taken from the caller's packet for good: whatever comes of it, the packet has one header less. *)
Theorem C93_loop_fails : forall e d a s h r, table d -> leads d a s TLoopback -> (exists x, h = HEth x) \/ (exists x, h = HNull x) ->
  List.length (fst (fst (live_send e (make_pcaps d) a (PPkt (h :: r))))) = List.length r.
Proof.
  intros e d a s h r T L H. destruct (leads_send e d a s TLoopback (h :: r) T L) as [E [i G]]. rewrite E, (loop_send e d s i TLoopback _ G eq_refl).
  assert (A : above_link (h :: r) = r) by (destruct H as [[x ->]|[x ->]]; reflexivity).
  assert (D : match r with (HIp4 _ | HIp6 _) :: _ => True | _ => False end \/ match above_link (h :: r) with (HIp4 _ | HIp6 _) :: _ => False | _ => True end).
  { rewrite A. destruct r as [|f t]; [right; exact I|]. destruct f; auto. }
  destruct D as [D|D]; [|rewrite (raw_not e s _ D), A; reflexivity]. destruct r as [|f t]; [contradiction|].
  assert (F : isinst f CIp4 || isinst f CIp6 = true) by (destruct f; try contradiction; reflexivity). rewrite (raw_ip e s (h :: f :: t) f t A F).
  destruct (pkt_to_bytes (f :: t)) as [[p' b]|x] eqn:P; [|reflexivity]. apply ser_fixups, Forall2_len in P.
  destruct b as [|v b]; [symmetry; exact P|]. destruct (Z.shiftr v 4 =? 4); [destruct (e_sent e)|]; symmetry; exact P.
Qed.
Print Assumptions C93_loop_fails.
(** So the same packet, sent on the loopback device and then on a wired one, leaves the second without its Ethernet header. *)
Definition tw_p : packet := Eval vm_compute in match pkt_to_bytes [HEth xe; HIp4 (xip 17); HUdp xudp; HRaw [1; 2; 3]] with Ok (p, _) => p | Err _ => [] end.
Definition tw_1 : outcome := Eval vm_compute in live_send good_env (make_pcaps d2) (DName "lo") (PPkt tw_p).
Definition tw_2 : outcome := Eval vm_compute in live_send good_env (make_pcaps d2) (DName "eth0") (PPkt (fst (fst tw_1))).
Definition sent_of (o : outcome) : bytes := match snd (fst o) with [Wire _ b] => b | _ => [] end.
Definition tw_b : bytes := Eval vm_compute in sent_of tw_2.
Definition tw_b0 : bytes := Eval vm_compute in sent_of (live_send good_env (make_pcaps d2) (DName "eth0") (PPkt tw_p)).
Theorem C93_twice_refuted : exists p p1 ev1 p2 b b0, live_send good_env (make_pcaps d2) (DName "lo") (PPkt p) = (p1, ev1, Ok tt) /\
  live_send good_env (make_pcaps d2) (DName "eth0") (PPkt p1) = (p2, [Wire "eth0" b], Ok tt) /\
  live_send good_env (make_pcaps d2) (DName "eth0") (PPkt p) = (p, [Wire "eth0" b0], Ok tt) /\ b <> b0 /\ pkt_parse b0 = Ok p /\ pkt_parse b <> Ok p.
Proof.
  exists tw_p, (fst (fst tw_1)), (snd (fst tw_1)), (fst (fst tw_2)), tw_b, tw_b0.
  split; [vm_compute; reflexivity|]. split; [vm_compute; reflexivity|]. split; [vm_compute; reflexivity|]. split; [discriminate|]. split; [vm_compute; reflexivity|]. vm_compute. discriminate.
Qed.
Print Assumptions C93_twice_refuted.
(** IPv6 packets cannot be sent on a loopback device at all. *)
Theorem C93_loop6_fails : forall e d a s p x r q b, table d -> leads d a s TLoopback -> above_link p = HIp6 x :: r -> pkt_to_bytes (HIp6 x :: r) = Ok (q, b) ->
  live_send e (make_pcaps d) a (PPkt p) = (q, [], Err ENotImpl).
Proof.
  intros e d a s p x r q b T L A P. destruct (leads_send e d a s TLoopback p T L) as [E [i G]]. rewrite E, (loop_send e d s i TLoopback p G eq_refl). exact (loop_ip6 e s p x r q b A P).
Qed.
Print Assumptions C93_loop6_fails.

(** * C94: the interfaces of a live network *)

(** There is one interface for each chosen device the system has addresses for, with its name and number, the addresses of
    the system, each once, and its last link-layer address; loopback devices, and no others, are marked as such. *)
Theorem C94_devices_partial : forall linux w pcap index info devs d, assemble linux w pcap index info devs = Ok d ->
  table d /\ (forall s, dget s d <> None <-> In s devs /\ dget s info <> None) /\
  forall s i t, dget s d = Some (i, t) -> exists l, dget s info = Some l /\ index s = Some (if_num i) /\ last_mac l (if_mac i) /\ NoDup (if_ips i) /\
    (forall a, In a (map fst (if_ips i)) <-> (exists m, In (AInet a (Some m)) l) \/ (exists sc m, In (AInet6 a sc (Some m)) l)) /\
    (NoDup (map fst pcap) -> (t = TLoopback <-> In (s, true) pcap)).
Proof.
  intros linux w pcap index info devs d H. destruct (dev_loop_spec _ _ _ _ _ _ H) as (N & S & C & _); [constructor|].
  assert (S' : forall s p, dget s d = Some p -> In s devs /\ exists l, dget s info = Some l /\ shown (dev_types linux w pcap) index s l p).
  { intros s p G. destruct (S s p G) as [[K _]|K]; [discriminate|exact K]. }
  split; [split; [exact N|intros s i t G; destruct (S' _ _ G) as (_ & l & _ & K & _); exact K]|]. split.
  - intros s. split; [|intros [A B]; apply C; assumption]. intros G. destruct (dget s d) as [p|] eqn:E; [|congruence]. destruct (S' _ _ E) as (A & l & B & _). split; [exact A|congruence].
  - intros s i t G. destruct (S' _ _ G) as (_ & l & B & K1 & K2 & K3 & K4 & K5 & K6). cbn [fst snd] in *. exists l. repeat (split; [assumption|]). split.
    + intros a. rewrite in_map_iff. split.
      * intros ([y n] & <- & I). apply K6 in I as [(m & I & _)|(sc & m & I & _)]; [left; exists m|right; exists sc, m]; exact I.
      * intros [(m & I)|(sc & m & I)]; [exists (a, 32)|exists (a, 128)]; (split; [reflexivity|]); apply K6; [left; exists m|right; exists sc, m]; auto.
    + intros Np. destruct (dev_types_spec linux w pcap [] s t K4) as [(lp & I & ->)|K]; [|discriminate]. split.
      * unfold dev_type. destruct lp; [auto|]. destruct linux, (no_wireless w); discriminate.
      * intros I2. assert (lp = true) as ->; [|reflexivity]. clear - Np I I2. induction pcap as [|[y q] pcap IH]; [destruct I|]. cbn [map fst] in Np. inversion Np as [|? ? Ny Nd]; subst.
        destruct I as [I|I]; [injection I as -> ->|]; (destruct I2 as [I2|I2]; [injection I2 as ->; try (injection I2 as ->)|]); auto; exfalso; apply Ny; [apply (in_map fst) in I2; exact I2|apply (in_map fst) in I; exact I].
Qed.
Print Assumptions C94_devices_partial.
(** Every prefix length is that of a single host: an address with a netmask of n < 32 ones never comes with n. *)
Theorem C94_prefix_fails : forall linux w pcap index info devs d s i t l a m n, assemble linux w pcap index info devs = Ok d -> dget s d = Some (i, t) -> dget s info = Some l ->
  In (AInet a (Some m)) l -> netmask 4 m n -> n < 32 -> In (a, 32) (if_ips i) /\ ~ In (a, n) (if_ips i).
Proof.
  intros linux w pcap index info devs d s i t l a m n H G L I (Hn & _) N. destruct (dev_loop_spec _ _ _ _ _ _ H) as (_ & S & _); [constructor|].
  destruct (S _ _ G) as [[K _]|(_ & l' & L' & _ & _ & _ & _ & _ & K)]; [discriminate|]. rewrite L in L'. injection L' as <-. cbn [fst] in K. split; [apply K; left; exists m; auto|].
  intros J. apply K in J as [(m' & _ & E)|(sc & m' & _ & E)]; cbn [snd] in E; lia.
Qed.
Print Assumptions C94_prefix_fails.
(** With the devices that make_device_list chooses there is no exception, as long as the system gives a mask with each address. *)
Lemma made_known pcap index inc exc x : In x (make_device_list pcap index inc exc) -> In x (map fst pcap) /\ index x = true.
Proof.
  unfold make_device_list. intros H.
  assert (K : In x (filter (fun x => negb (smem x exc)) (filter index (dedup (map fst (filter (fun d => negb (snd d) || smem (fst d) inc) pcap)))))) by (destruct (filter _ inc); [exact H|apply filter_In in H as [H _]; exact H]).
  apply filter_In in K as [K _]. apply filter_In in K as [K1 K2]. split; [|exact K2]. apply dedup_In, in_map_iff in K1 as (y & <- & K1). apply filter_In in K1 as [K1 _]. apply in_map. exact K1.
Qed.
Theorem C94_succeeds : forall linux w pcap index inc exc info, (forall s l, dget s info = Some l -> Forall has_mask l) ->
  exists d, assemble linux w pcap index info (make_device_list pcap (fun s => match index s with Some _ => true | None => false end) inc exc) = Ok d.
Proof.
  intros linux w pcap index inc exc info M. apply dev_loop_total. intros x l I L. apply made_known in I as [I1 I2]. split; [exact (M x l L)|]. split; [apply dev_types_total; left; exact I1|destruct (index x); [discriminate|discriminate I2]].
Qed.
Print Assumptions C94_succeeds.
(** On Linux all devices but loopback devices get the same type, whatever they are. *)
Theorem C94_type_fails : forall w pcap index info devs d s1 s2 i1 i2 t1 t2, assemble true w pcap index info devs = Ok d ->
  dget s1 d = Some (i1, t1) -> dget s2 d = Some (i2, t2) -> t1 <> TLoopback -> t2 <> TLoopback -> t1 = t2.
Proof.
  intros w pcap index info devs d s1 s2 i1 i2 t1 t2 H G1 G2 N1 N2. destruct (dev_loop_spec _ _ _ _ _ _ H) as (_ & S & _); [constructor|].
  assert (K : forall s i t, dget s d = Some (i, t) -> t <> TLoopback -> t = dev_type true w false).
  { intros s i t G N. destruct (S _ _ G) as [[K _]|(_ & l' & _ & _ & _ & _ & K & _)]; [discriminate|]. cbn [snd] in K. destruct (dev_types_spec true w pcap [] s t K) as [([] & _ & ->)|K2]; [contradiction|reflexivity|discriminate]. }
  rewrite (K _ _ _ G1 N1), (K _ _ _ G2 N2). reflexivity.
Qed.
Print Assumptions C94_type_fails.
Definition machine_pcap : list (str * bool) := [("eth0", false); ("lo", true); ("wlan0", false)].
Definition machine_index (s : str) : option Z := if str_eqb s "lo" then Some 1 else if str_eqb s "eth0" then Some 2 else if str_eqb s "wlan0" then Some 3 else None.
Definition machine_info : dict (list psaddr) :=
  [("lo", [AInet [127; 0; 0; 1] (Some [255; 0; 0; 0]); ALink (repeat 0 6)]); ("eth0", [AInet [192; 168; 1; 1] (Some [255; 255; 255; 0]); AInet6 (repeat 1 16) (Some "eth0") (Some (repeat 255 8 ++ repeat 0 8)%list); ALink [2; 0; 0; 0; 0; 1]]);
   ("wlan0", [ALink [2; 0; 0; 0; 0; 2]; AInet [10; 0; 0; 1] (Some [255; 255; 0; 0]); AInet [10; 0; 0; 1] (Some [255; 255; 0; 0])])].
Definition machine_iw : iwconfig := Some [("lo", false); ("eth0", false); ("wlan0", true)].
Example C94_case : exists d, assemble true machine_iw machine_pcap machine_index machine_info ["eth0"; "lo"; "wlan0"; "gone"] = Ok d /\ dkeys d = ["eth0"; "lo"; "wlan0"] /\
  (forall i t, dget "wlan0" d = Some (i, t) -> if_ips i = [([10; 0; 0; 1], 32)] /\ if_mac i = [2; 0; 0; 0; 0; 2] /\ if_num i = 3) /\ netmask 4 [255; 255; 255; 0] 24.
Proof.
  eexists. split; [vm_compute; reflexivity|]. split; [reflexivity|]. split; [intros i t H; injection H as <- <-; auto|]. split; [lia|]. split; [reflexivity|]. split; [repeat (apply wfb_cons; split; [lia|]); apply wfb_nil|reflexivity].
Qed.
(** A wireless device of a machine with a wired one is taken to be wired; without iwconfig a wired one is taken to be wireless. *)
Theorem C94_type_refuted : exists d1 d2 i1 i2, assemble true machine_iw machine_pcap machine_index machine_info ["eth0"; "wlan0"] = Ok d1 /\ dget "wlan0" d1 = Some (i1, TWired) /\
  assemble true None machine_pcap machine_index machine_info ["eth0"; "wlan0"] = Ok d2 /\ dget "eth0" d2 = Some (i2, TWireless).
Proof. eexists _, _, _, _. split; [vm_compute; reflexivity|]. split; [reflexivity|]. split; [vm_compute; reflexivity|]. reflexivity. Qed.
Print Assumptions C94_type_refuted.
