(** Packets given to a test scenario (C106) and values copied from the last output (C107). *)
From Verif Require Import BaseLemmas Dict DictLemmas EthModel Ipv4Model TransportModel PacketModel TestModel FieldModel FieldSpec FieldProps PacketProps AliasModel AliasSpec AliasProofs KeepModel KeepSpec KeepProofs.
#[local] Open Scope string_scope.
#[local] Open Scope nat_scope.
#[local] Open Scope list_scope.

Definition start (s : store) : script := mkScript s [] [] None.
(** A packet with one UDP header, and another. *)
Definition udps : store := mkStore [HUdp (mkUdp 1000 53 0 0); HUdp (mkUdp 53 7 0 0); HUdp (mkUdp 1000 53 0 0)] [[0]; [1]; [2]].
Lemma udps_sound : sound udps.
Proof. intros [|[|[|[|p]]]] a; cbn; intros H; repeat destruct H as [<-|H]; try lia; try contradiction. Qed.

(** C106.  What a PacketOutputEvent expects is the packet as it was when the event was made, whatever its author does
    with packets and headers afterwards (the copy inside the event is out of their reach).  [dev] stands for the packet
    named last for it. *)
Theorem C106_expected : forall k args ex wc ps post dev m,
  sound (k_store k) -> (forall dp, In dp args -> snd dp < List.length (st_pkts (k_store k))) ->
  let k1 := author k (AOut args ex wc ps) in
  (exists d, k_pend k1 = k_pend k ++ [KOut d []] /\ dget dev d = Some m) ->
  Forall (author_leaves (k_store k1) (w_ref m)) post ->
  exists pre p suf, args = pre ++ (dev, p) :: suf /\ ~ In dev (map fst suf) /\ content (k_store (authors k1 post)) (w_ref m) = content (k_store k) p.
Proof. exact expected_kept. Qed.
Print Assumptions C106_expected.
Example C106_expected_ex : let k1 := author (start udps) (AOut [("lo", 0); ("eth", 1)] true [] []) in
  (exists d, k_pend k1 = [] ++ [KOut d []] /\ dget "eth" d = Some (mkWant 4 true [] [])) /\
  author_leaves (k_store k1) 4 (ADo (OAssign 1 HNullHdr)) /\ content (k_store (authors k1 [ADo (OAssign 1 HNullHdr)])) 4 = [HUdp (mkUdp 53 7 0 0)].
Proof. split; [eexists; split; reflexivity|]. split; [split; [intros []|cbn; intros a [<-|[]] [H|[]]; discriminate]|reflexivity]. Qed.

(** A packet that recv_packet hands to the program is its own: what the program does with it shows in no other packet of
    the scenario or of the program, and nothing done with those shows in it. *)
Theorem C106_delivered : forall k k' dev q, sound (k_store k) -> k_recv k = (k', Ok (dev, q)) ->
  q = List.length (st_pkts (k_store k)) /\ forall y, y < q -> unaffected (k_store k') q y /\ unaffected (k_store k') y q.
Proof. exact delivered. Qed.
Print Assumptions C106_delivered.
Example C106_delivered_ex : exists k', k_recv (author (start udps) (AIn "lo" 0 [])) = (k', Ok ("lo", 3)) /\ content (k_store k') 3 = [HUdp (mkUdp 1000 53 8 0)].
Proof. eexists. split; vm_compute; reflexivity. Qed.

(** An input packet that is left alone, and shares its headers with no other packet, is the one given. *)
Theorem C106_input_partial : forall k dev p rules post,
  sound (k_store k) -> p < List.length (st_pkts (k_store k)) -> (forall q, q <> p -> share_no_header (k_store k) q p) ->
  Forall (author_leaves (k_store k) p) post ->
  content (k_store (authors (author k (AIn dev p rules)) post)) p = content (k_store k) p.
Proof. intros k dev p rules post Sd L U F. rewrite authors_run. cbn [author k_store]. apply (kept _ p Sd L U). now apply leaves_aops. Qed.
Print Assumptions C106_input_partial.
(** A PacketInputEvent keeps the packet object itself: changing it for the next event changes the event made before.  Here
    a packet with TTL 64 is given for the first event, then its TTL is set to 63 for the second; 63 is received twice. *)
Definition ips : store := mkStore [HIp4 (xip 89)] [[0]].
Definition twice : list astep := [AIn "a" 0 []; ADo (OAssign 0 (HIp4 (mkIp4 0 999 63 7 0 0 89 [10; 0; 0; 1]%Z [10; 0; 0; 2]%Z []))); AIn "b" 0 []].
Definition ttl_of (s : store) (p : nat) : option gval := match content s p with h :: _ => get h FTtl | [] => None end.
Theorem C106_input_refuted : exists s l1 l2 k1 k2 q, sound s /\ (forall p q, p <> q -> share_no_header s p q) /\
  ttl_of (k_store (authors (start s) l1)) 0 = Some (GInt 64) /\ k_pend (authors (start s) l1) = [KIn "a" 0 (Some CIp4) []] /\
  k_recv (authors (start s) l1) = (k1, Ok ("a", q)) /\ ttl_of (k_store k1) q = Some (GInt 64) /\
  k_recv (authors (start s) (l1 ++ l2)) = (k2, Ok ("a", q)) /\ ttl_of (k_store k2) q = Some (GInt 63).
Proof.
  exists ips, [AIn "a" 0 []], (tl twice). eexists. eexists. exists 1.
  split; [intros [|[|p]] a; cbn; intros H; repeat destruct H as [<-|H]; try lia; try contradiction|].
  split; [intros [|[|p]] [|[|q]] N a; cbn; tauto|]. do 2 (split; [reflexivity|]). split; [vm_compute; reflexivity|]. split; [vm_compute; reflexivity|]. split; vm_compute; reflexivity.
Qed.
Print Assumptions C106_input_refuted.

(** C107.  With copyfromlastout, the packet received is the packet given, with each named attribute set to the value it
    has in what went out on the named device in the last output event.
    Missing: packets changed by the program after they were sent, and devices that the last output event does not name
    (both refuted below). *)
Theorem C107_copied_partial : forall k k' dev p first rules rest q last sent, sound (k_store k) ->
  k_pend k = KIn dev p first rules :: rest -> k_last k = Some last ->
  (forall d pl, dget d last = Some pl -> pl < List.length (st_pkts (k_store k)) /\ share_no_header (k_store k) p pl /\ dget d sent = Some (content (k_store k) pl)) ->
  k_recv k = (k', Ok (dev, q)) ->
  exists b hs, snd (step (k_store k) (OSer p)) = Sent b /\ pkt_new b (match first with Some c => c | None => CEth end) = Ok hs /\
    all_assigned sent rules hs (content (k_store k') q).
Proof. exact received_copied. Qed.
Print Assumptions C107_copied_partial.
(** The last output is the packet object accepted, by device. *)
Theorem C107_last_output : forall k k' dev p, k_send k dev p = (k', Ok tt) -> k_done k' <> k_done k ->
  exists w seen rest, k_pend k = KOut w seen :: rest /\ k_pend k' = rest /\ k_last k' = Some (dset dev p seen).
Proof.
  intros k k' dev p. unfold k_send. destruct (k_pend k) as [|[|w seen] rest] eqn:P; try discriminate. destruct (dget dev w) as [m|]; [|discriminate].
  destruct (step (k_store k) (OSer p)) as [s1 [| | |b|e]]; try discriminate. destruct (step s1 (OSer (w_ref m))) as [s2 [| | |b2|e]]; try discriminate.
  cbn zeta. destruct (bindr _ _) as [[|]|e]; try discriminate. destruct (ddel dev w) as [|x w'].
  - intros [= <-] _. exists w, seen, rest. auto.
  - intros [= <-] N. cbn in N. congruence.
Qed.
Print Assumptions C107_last_output.
(** An assigned attribute reads the value copied, as far as the header can hold it (C78). *)
Theorem C107_read_back : forall r v hs hs', assigned r v hs hs' ->
  exists h h', pkt_get_header hs (r_to r) = Some h /\ pkt_get_header hs' (r_to r) = Some h' /\
  forall g, ideal (class_of h) (r_set r) (aval_of v) = Some g -> faithful (class_of h) (r_set r) (aval_of v) -> get h' (r_set r) = Some g.
Proof.
  intros r v hs hs' [pre h h' post -> -> N I S]. 
  assert (G : forall x, isinst x (r_to r) = true -> pkt_get_header (pre ++ x :: post) (r_to r) = Some x).
  { intros x Ix. induction pre as [|y pre IH]; cbn [app pkt_get_header]; [now rewrite Ix|]. rewrite (N y) by (now left). apply IH. intros z Z. apply N. now right. }
  exists h. assert (C : class_of h' = class_of h) by (destruct h, (r_set r), (aval_of v); cbn [set] in S; unfold bindr in S; try discriminate; try (injection S as <-; reflexivity);
    repeat match type of S with (match ?x with Ok _ => _ | Err _ => _ end) = _ => destruct x; [|discriminate] end; try (injection S as <-; reflexivity)).
  exists h'. split; [now apply G|]. split; [apply G; unfold isinst in *; now rewrite C|].
  intros g Id Fa. destruct (C78_assign_partial h (r_set r) (aval_of v) g Id Fa) as (h2 & S2 & _ & E & _). rewrite S in S2. injection S2 as ->. exact E.
Qed.
Print Assumptions C107_read_back.

(** The UDP example of the documentation: the reply arrives at the port the request was sent from. *)
Definition udp_rule : rule := mkRule "lo" CUdp FSrc CUdp FDst.
Definition udp_script : script := authors (start udps) [AOut [("lo", 0)] true [] []; AIn "lo" 1 [udp_rule]].
Definition port_of (s : store) (p : nat) : option gval := match content s p with h :: _ => get h FDst | [] => None end.
Example C107_example : exists k1 k2 q, k_send udp_script "lo" 2 = (k1, Ok tt) /\ k_last k1 = Some [("lo", 2)] /\ k_recv k1 = (k2, Ok ("lo", q)) /\ port_of (k_store k2) q = Some (GInt 1000).
Proof. eexists. eexists. exists 4. split; [vm_compute; reflexivity|]. split; [reflexivity|]. split; vm_compute; reflexivity. Qed.
(** A program that goes on to change the packet it sent: the value copied is not the value sent (1000) but the new one. *)
Theorem C107_changed_refuted : exists k dev p k1 o k2 q, sound (k_store k) /\ k_send k dev p = (k1, Ok tt) /\
  (match content (k_store k1) p with h :: _ => get h FSrc | [] => None end) = Some (GInt 1000) /\
  k_recv (with_store k1 (fst (step (k_store k1) o))) = (k2, Ok (dev, q)) /\ port_of (k_store k2) q = Some (GInt 2000).
Proof.
  exists udp_script, "lo", 2. eexists. exists (OAssign 2 (HUdp (mkUdp 2000 53 8 0))). eexists. exists 4.
  split; [intros [|[|[|[|[|p]]]]] a; cbn; intros H; repeat destruct H as [<-|H]; try lia; try contradiction|].
  split; [vm_compute; reflexivity|]. split; [reflexivity|]. split; vm_compute; reflexivity.
Qed.
Print Assumptions C107_changed_refuted.
(** A later output event on another device hides what was last sent on the named one: there is nothing to copy (None). *)
Theorem C107_other_device_refuted : exists k k1 k2, sound (k_store k) /\
  k_pend k = [KOut [("lo", mkWant 3 true [] [])] []; KOut [("eth", mkWant 4 true [] [])] []; KIn "lo" 1 (Some CUdp) [udp_rule]] /\
  k_send k "lo" 2 = (k1, Ok tt) /\ k_send k1 "eth" 0 = (k2, Ok tt) /\
  (exists d, k_last k1 = Some d /\ dget "lo" d = Some 2) /\ lastout (k_store k2) (k_last k2) udp_rule = Ok None.
Proof.
  exists (authors (start udps) [AOut [("lo", 0)] true [] []; AOut [("eth", 0)] true [] []; AIn "lo" 1 [udp_rule]]). eexists. eexists.
  split; [intros [|[|[|[|[|[|p]]]]]] a; cbn; intros H; repeat destruct H as [<-|H]; try lia; try contradiction|].
  split; [reflexivity|]. split; [vm_compute; reflexivity|]. split; [vm_compute; reflexivity|]. split; [eexists; split; reflexivity|reflexivity].
Qed.
Print Assumptions C107_other_device_refuted.
