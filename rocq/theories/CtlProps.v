(** C118: settings of a live capture device. *)
From Verif Require Import BaseLemmas CodecLemmas CtlModel CtlSpec CtlProofs.
#[local] Open Scope list_scope.

Definition eth_dev (types : list Z) : device :=
  mkDev (fun o => match o with Snaplen => 262144 | _ => 0 end) types (fun v => v =? 0) (fun v => zmem v [0; 1; 2]) (fun s => if s Buffer =? 13 then -1 else if s Promisc =? 0 then 0 else 2) 1 (Some (5, 1, 0)).
Definition xdev : device := eth_dev [0; 1; 3].
Definition xcalls : list op := [Set_ Snaplen 100; Set_ Snaplen 200; Set_ Promisc 1; Set_ Tstamp 4; Set_ Tstamp 3; Set_ Precision 1; Set_ Direction 1; Activate; Set_ Snaplen 300; Set_ Direction 2].

(** After any calls on a created device, each setting has the value that was last accepted, and the value libpcap starts
    with when none was. *)
Theorem C118_in_force : forall d l h oks o, run d (h_new d) l = (h, oks) -> h_set h o = last_set (d_default d o) o (combine l oks).
Proof. intros d l h oks o H. exact (run_set d l (h_new d) h oks o H). Qed.
Print Assumptions C118_in_force.
Lemma run_prec d l : forall h h' oks z, run d h l = (h', oks) -> In z [0; 1] -> In (last_set z Precision (combine l oks)) [0; 1].
Proof.
  induction l as [|x l IH]; intros h0 h oks z H P; cbn [run] in H; [injection H as <- <-; exact P|].
  destruct (step d h0 x) as [h1 b] eqn:S. destruct (run d h1 l) as [h2 r] eqn:R. injection H as <- <-. cbn [combine]. rewrite last_set_cons. apply (IH h1 h2 r _ R).
  destruct x as [o v|]; [|exact P]. destruct (opt_eqb o Precision) eqn:Q; [|exact P]. apply opt_eq in Q. subst o. cbn [step] in S. destruct b; [|exact P]. cbn [andb].
  destruct (set_opt d Precision v h0) as [h3 q] eqn:E. injection S as <- S. destruct q as [[]|e]; [|discriminate].
  assert (K : snd (set_opt d Precision v h0) = Ok tt) by (rewrite E; reflexivity). apply set_accept in K as [(_ & K & _) _]. cbn [In]. lia.
Qed.
(** Once it is activated, the length and the precision read are those last accepted. *)
Theorem C118_read : forall d l h oks, run d (h_new d) l = (h, oks) -> h_on h = true -> In (d_default d Precision) [0; 1] ->
  get_snaplen h = Ok (last_set (d_default d Snaplen) Snaplen (combine l oks)) /\
  get_precision h = Ok (last_set (d_default d Precision) Precision (combine l oks)).
Proof.
  intros d l h oks H A P. rewrite <- !(C118_in_force d l h oks _ H). unfold get_snaplen, get_precision. rewrite A. split; [reflexivity|].
  apply enum_iff. split; [reflexivity|]. rewrite (C118_in_force d l h oks _ H). exact (run_prec d l _ _ _ _ H P).
Qed.
Print Assumptions C118_read.
(** Which settings are accepted: a number that fits, of a kind the device supports; direction only once it is activated,
    blocking at any time, all others only before. *)
Theorem C118_accepted : forall d o v h, snd (set_opt d o v h) = Ok tt <-> acceptable d o v /\ (early o -> h_on h = false) /\ (o = Direction -> h_on h = true).
Proof. exact set_accept. Qed.
Print Assumptions C118_accepted.
(** What is not accepted changes nothing; the exception is PcapException, unless the number does not fit or is no member of
    the enumeration. *)
Theorem C118_refused : forall d o v h e, snd (set_opt d o v h) = Err e -> fst (set_opt d o v h) = h /\
  (- 2 ^ 31 <= v < 2 ^ 31 -> (o = Tstamp -> Forall (fun t => 0 <= t <= 4) (d_types d) /\ 0 <= v <= 4) -> (o = Precision -> v = 0 \/ v = 1) -> e = pcap_exn).
Proof. intros d o v h e H. split; [|apply (set_exn d o v h e H)]. destruct (set_effect d o v h) as [E|[x E]]; rewrite E in *; [discriminate|reflexivity]. Qed.
Print Assumptions C118_refused.
Lemma links x : In x Dlts <-> known_link x.
Proof. unfold Dlts, known_link. cbn [In]. lia. Qed.
(** Activating works once, when libpcap answers with success or a warning, the link type is known, and the device blocks;
    it returns the warning and keeps the settings.  When libpcap refuses, PcapException is raised and nothing has changed. *)
Theorem C118_activate : forall d h w, (snd (activate d h) = Ok w <-> h_on h = false /\ d_act d (h_set h) = w /\ 0 <= w <= 3 /\ known_link (d_dlt d) /\ h_set h Nonblock = 0) /\
  (h_on (fst (activate d h)) = true <-> h_on h = true \/ 0 <= d_act d (h_set h)) /\ h_set (fst (activate d h)) = h_set h /\
  (h_on h = true \/ d_act d (h_set h) < 0 -> activate d h = (h, Err pcap_exn)).
Proof.
  intros d h w. split; [rewrite activate_ok, links; reflexivity|]. split; [apply activate_on|]. split; [apply activate_set|]. intros H. unfold activate.
  destruct (h_on h) eqn:A; [reflexivity|]. destruct H as [H|H]; [discriminate|]. destruct (Z.ltb_spec (d_act d (h_set h)) 0); [reflexivity|lia].
Qed.
Print Assumptions C118_activate.
Example C118_case : exists h, run xdev (h_new xdev) xcalls = (h, [true; true; true; false; true; false; false; true; false; true]) /\
  h_on h = true /\ get_snaplen h = Ok 200 /\ get_precision h = Ok 0 /\ map (h_set h) [Promisc; Tstamp; Direction; Timeout] = [1; 3; 2; 0] /\
  snd (activate xdev (mkH false (h_set h))) = Ok 2 /\ acceptable xdev Tstamp 3 /\ early Tstamp.
Proof. eexists. split; [vm_compute; reflexivity|]. repeat split; try discriminate; vm_compute; try reflexivity; auto 10. repeat constructor; vm_compute; discriminate. Qed.

(** The length set is not read back before the device is activated: the number read is libpcap's error code. *)
Theorem C118_early_read_refuted : exists d l h oks, run d (h_new d) l = (h, oks) /\ oks = [true] /\ last_set (d_default d Snaplen) Snaplen (combine l oks) = 100 /\ get_snaplen h = Ok (-3).
Proof. exists xdev, [Set_ Snaplen 100]. do 2 eexists. split; [reflexivity|]. repeat split. Qed.
Print Assumptions C118_early_read_refuted.
(** A device told to be nonblocking (which is what assigning True to blocking does) is activated by libpcap, but the call
    raises an exception; reading the blocking state never answers True. *)
Theorem C118_nonblock_fails : forall d h, h_on h = false -> h_set h Nonblock <> 0 -> 0 <= d_act d (h_set h) -> h_on (fst (activate d h)) = true /\ exists e, snd (activate d h) = Err e.
Proof.
  intros d h A N P. split; [apply activate_on; auto|]. destruct (snd (activate d h)) as [w|e] eqn:E; [|eauto]. apply activate_ok in E. tauto.
Qed.
Print Assumptions C118_nonblock_fails.
Theorem C118_blocking_fails : forall h b, get_blocking h = Ok b -> b = false /\ h_on h = true /\ h_set h Nonblock = 0.
Proof. intros h b. unfold get_blocking. destruct (h_on h); [|discriminate]. destruct (Z.eqb_spec (h_set h Nonblock) 0); [|discriminate]. intros [= <-]. auto. Qed.
Print Assumptions C118_blocking_fails.
(** On a device that has a time stamp type newer than the enumeration, no type can be set. *)
Theorem C118_types_refuted : exists d h, d_types d = [0; 3; 5] /\ h_on h = false /\ forall v, exists e, set_opt d Tstamp v h = (h, Err e).
Proof.
  exists (eth_dev [0; 3; 5]), (h_new (eth_dev [0; 3; 5])). split; [reflexivity|]. split; [reflexivity|]. intros v. destruct (set_effect (eth_dev [0; 3; 5]) Tstamp v (h_new (eth_dev [0; 3; 5]))) as [E|E]; [|exact E].
  assert (K : snd (set_opt (eth_dev [0; 3; 5]) Tstamp v (h_new (eth_dev [0; 3; 5]))) = Ok tt) by (rewrite E; reflexivity). apply set_accept in K as [(_ & _ & K) _].
  inversion K as [|? ? _ K2]. inversion K2 as [|? ? _ K3]. inversion K3 as [|? ? K4 _]. lia.
Qed.
Print Assumptions C118_types_refuted.
(** A failure of pcap_stats, and of reading a packet, is not reported as PcapException but as NameError. *)
Theorem C118_reported_refuted : (exists d h, h_on h = false /\ stats d h = Err EName) /\ (exists d h, h_on h = true /\ d_stats d = None /\ stats d h = Err EName) /\ exists rv, @recv_answer bytes rv [] = Err EName.
Proof.
  split; [exists xdev, (h_new xdev); split; reflexivity|]. split; [|exists (-1); reflexivity].
  exists (mkDev (d_default xdev) [] (d_prec xdev) (d_dir xdev) (d_act xdev) 1 None), (mkH true (d_default xdev)). repeat split.
Qed.
Print Assumptions C118_reported_refuted.
