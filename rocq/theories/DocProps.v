(** Theorems about the header classes of the documentation (C126). *)
From Verif Require Import BaseLemmas CodecLemmas Dict EthAddrModel EthAddrSpec Enums EthModel ArpModel EthProofs Ipv4Model TransportModel Ipv6Model IcmpModel RipModel PacketModel PacketSpec PacketProofs PacketParse PacketProps
  FieldModel RegModel RegSpec RegProofs RegMany RegProps DocModel.
#[local] Open Scope string_scope.
#[local] Open Scope Z_scope.
#[local] Open Scope list_scope.

(** * C126: the header classes of the documentation *)

(** The two-byte number in network order, in the wording of the RFCs: the byte sent first counts 256. *)
Lemma be2 s : 0 <= s < 65536 -> be 2 s = [s / 256; s mod 256].
Proof. intros H. cbn [be]. change (256 ^ Z.of_nat 1) with 256. change (256 ^ Z.of_nat 0) with 1. rewrite Z.div_1_r. rewrite (Z.mod_small (s / 256)); [reflexivity|]. split; [apply Z.div_pos; lia|]. apply Z.div_lt_upper_bound; lia. Qed.
Lemma unbe2 a b : unbe [a; b] = 256 * a + b.
Proof. cbn [unbe List.length]. change (256 ^ Z.of_nat 1) with 256. change (256 ^ Z.of_nat 0) with 1. lia. Qed.
Lemma ping_read a b rest : ping_from (a :: b :: rest) = Ok ([256 * a + b], rest).
Proof. unfold ping_from. cbn [List.length Nat.ltb Nat.leb firstn skipn unpack bindr]. rewrite unbe2. reflexivity. Qed.

(** C126.  A UDPPing with sequence number [s] is sent as two bytes, the higher first, when it fits in 16 bits; otherwise sending it, and asking for its size, raises struct.error. *)
Theorem C126_ping_sent : forall s, (0 <= s < 65536 -> ping_to [s] = Ok [s / 256; s mod 256] /\ u_size UDPPing [s] = Ok 2) /\
  (~ 0 <= s < 65536 -> ping_to [s] = Err EStruct /\ u_size UDPPing [s] = Err EStruct).
Proof. intros s. unfold u_size. cbn [u_to UDPPing]. unfold ping_to. split; intros H.
  - rewrite pack_int by (cbn; lia). rewrite be2 by lia. auto.
  - assert (E : pack [fH] [VI s] = Err EStruct). { cbn [pack]. change (256 ^ Z.of_nat 2) with 65536. destruct (Z.leb_spec 0 s); destruct (Z.ltb_spec s 65536); cbn [andb]; try reflexivity. lia. } rewrite E. auto. Qed.
Print Assumptions C126_ping_sent.
(** C126.  Any bytes are read: fewer than two raise ValueError; otherwise the first two are the number and the rest is left. *)
Theorem C126_ping_read : (forall raw, (List.length raw < 2)%nat -> ping_from raw = Err EValue) /\ forall a b rest, ping_from (a :: b :: rest) = Ok ([256 * a + b], rest).
Proof. split; [|exact ping_read]. intros [|a [|b raw]] H; cbn [List.length] in H; try reflexivity; lia. Qed.
Print Assumptions C126_ping_read.
(** C126.  The number is the one given last: by the constructor (the keyword over the first argument, 0 without either) or by assignment. *)
Theorem C126_ping_made : (forall q s, ping_new q (Some s) = [s]) /\ (forall s, ping_new (Some s) None = [s]) /\ ping_new None None = [0] /\
  forall w l v, fold_left ping_set (l ++ [v]) w = [v] /\ ping_attr [v] "sequence" = Some v.
Proof. split; [reflexivity|]. split; [reflexivity|]. split; [reflexivity|]. intros w l v. rewrite fold_left_app. auto. Qed.
Print Assumptions C126_ping_made.

Lemma ping_round s : 0 <= s < 65536 -> exists body, ping_to [s] = Ok body /\ ping_from body = Ok ([s], []).
Proof. intros H. destruct (proj1 (C126_ping_sent s) H) as [E _]. eexists. split; [exact E|]. rewrite ping_read. do 3 f_equal. pose proof (Z.div_mod s 256). lia. Qed.
Lemma port_unused v : unused CUdp v. Proof. intros [] H; cbn in H; try discriminate; reflexivity. Qed.
Lemma slow_unused : unused CEth 0x8809.
Proof. intros [] H; unfold RegSpec.tells in H; cbn [number] in H; try discriminate; injection H as H; cbn [says_next]; rewrite H; reflexivity. Qed.
Lemma raw_tail pre h body h0 t p' bs : pre ++ [h; HRaw body] = h0 :: t -> chained (h0 :: t) -> Forall wf_hdr (h0 :: t) -> pkt_to_bytes (pre ++ [h; HRaw body]) = Ok (p', bs) ->
  exists sent q, p' = sent ++ [HRaw body] /\ Forall2 read_as sent q /\ pkt_new bs (class_of h0) = Ok (q ++ [HRaw body]).
Proof. intros Hx Hc Hw P. pose proof (ser_number CUdp _ _ _ _ P) as N1. rewrite Hx in P.
  destruct (packet_round_trip h0 t p' bs Hc Hw P) as (q & Q1 & Q2). destruct (f2_tail _ _ _ _ _ N1) as (s1 & h1 & r1 & -> & _ & _ & [_ Er]). specialize (Er body eq_refl). subst r1.
  destruct (f2_tail _ _ _ _ _ Q2) as (q1 & h2 & r2 & -> & A & B & C). assert (r2 = HRaw body) by (exact (proj2 (read_number CUdp _ _ C) body eq_refl)). subst r2.
  exists (s1 ++ [h1]), (q1 ++ [h2]). rewrite <- !app_assoc. split; [reflexivity|]. split; [apply Forall2_app; [exact A|constructor; [exact B|constructor]]|exact Q1]. Qed.

(** C126.  Once registered for a UDP port, a packet of any headers ending in a UDP header to that port and a UDPPing, sent and read back, has the same headers and the same number. *)
Theorem C126_ping_round : forall us n port pre u s bs h0 t, us n = UDPPing -> udp_dst u = port -> 0 <= s < 65536 ->
  pre ++ [HUdp u; HRaw [s / 256; s mod 256]] = h0 :: t -> chained (h0 :: t) -> Forall wf_hdr (h0 :: t) ->
  reg_bytes (register us CUdp port n) (map LH (pre ++ [HUdp u]) ++ [UH n [s]]) = Ok bs ->
  exists sent q, pkt_to_bytes (pre ++ [HUdp u; HRaw [s / 256; s mod 256]]) = Ok (sent ++ [HRaw [s / 256; s mod 256]], bs) /\ Forall2 read_as sent q /\
    reg_parse (register us CUdp port n) bs (L (class_of h0)) = Ok (map LH q ++ [UH n [s]]).
Proof. intros us n port pre u s bs h0 t Hu Hp Hs Hx Hc Hw Hb. destruct (proj1 (C126_ping_sent s) Hs) as [E _]. destruct (ping_round s Hs) as (b & E1 & E2). rewrite E in E1. apply ok_inj in E1. subst b.
  eapply C108_round_trip; try eassumption; [unfold registrable; tauto|apply port_unused|unfold RegSpec.tells; cbn [number]; congruence|rewrite Hu; exact E|rewrite Hu; exact E2]. Qed.
Print Assumptions C126_ping_round.
(** C126.  Without registration the same packet comes back with the two bytes as its payload. *)
Theorem C126_ping_unregistered : forall us n pre u s bs h0 t, us n = UDPPing -> 0 <= s < 65536 ->
  pre ++ [HUdp u; HRaw [s / 256; s mod 256]] = h0 :: t -> chained (h0 :: t) -> Forall wf_hdr (h0 :: t) ->
  reg_bytes (shipped us) (map LH (pre ++ [HUdp u]) ++ [UH n [s]]) = Ok bs ->
  exists sent q, pkt_to_bytes (pre ++ [HUdp u; HRaw [s / 256; s mod 256]]) = Ok (sent ++ [HRaw [s / 256; s mod 256]], bs) /\ Forall2 read_as sent q /\
    reg_parse (shipped us) bs (L (class_of h0)) = Ok (map LH q ++ [LH (HRaw [s / 256; s mod 256])]).
Proof. intros us n pre u s bs h0 t Hu Hs Hx Hc Hw Hb. unfold reg_bytes in Hb. rewrite plain_app, plain_lib in Hb. cbn [bindr plain g_user shipped] in Hb. rewrite Hu in Hb. cbn [UDPPing u_to] in Hb.
  rewrite (proj1 (proj1 (C126_ping_sent s) Hs)) in Hb. cbn [bindr] in Hb. rewrite <- app_assoc in Hb. cbn [app] in Hb.
  destruct (pkt_to_bytes (pre ++ [HUdp u; HRaw [s / 256; s mod 256]])) as [[p' b]|] eqn:P; [|discriminate]. cbn [bindr] in Hb. apply ok_inj in Hb. subst b.
  destruct (raw_tail _ _ _ _ _ _ _ Hx Hc Hw P) as (sent & q & -> & F & Q). exists sent, q. split; [reflexivity|]. split; [exact F|]. rewrite C108_shipped, Q. cbn [bindr]. rewrite map_app. reflexivity. Qed.
Print Assumptions C126_ping_unregistered.
Example C126_ping_case : let x := [HEth xe; HIp4 (xip 17); HUdp uu; HRaw [4242 / 256; 4242 mod 256]] in
  (fun _ : nat => UDPPing) 3%nat = UDPPing /\ udp_dst uu = 12345 /\ chained x /\ Forall wf_hdr x /\
  exists bs e i u, reg_bytes (register (fun _ => UDPPing) CUdp 12345 3) [LH (HEth xe); LH (HIp4 (xip 17)); LH (HUdp uu); UH 3 [4242]] = Ok bs /\
    reg_parse (register (fun _ => UDPPing) CUdp 12345 3) bs (L CEth) = Ok [LH (HEth e); LH (HIp4 i); LH (HUdp u); UH 3 [4242]] /\
    reg_parse (shipped (fun _ => UDPPing)) bs (L CEth) = Ok [LH (HEth e); LH (HIp4 i); LH (HUdp u); LH (HRaw [16; 146])].
Proof. cbv zeta. split; [reflexivity|]. split; [reflexivity|]. split; [vm_compute; repeat split; discriminate|]. split.
  { constructor; [split; [exact xe_wf|discriminate]|]. constructor; [|repeat constructor]. split; [apply xip_wf; [lia|apply zmem_In; reflexivity]|]. exists []. split; [reflexivity|]. change (zlen (@nil Z)) with 0. lia. }
  eexists _, _, _, _. split; [vm_compute; reflexivity|]. split; vm_compute; reflexivity. Qed.
(** C126.  A packet with a number that does not fit cannot be sent at all. *)
Theorem C126_ping_refused : forall g n pre post s, g_user g n = UDPPing -> ~ 0 <= s < 65536 -> reg_bytes g (map LH pre ++ UH n [s] :: post) = Err EStruct.
Proof. intros g n pre post s Hu Hs. unfold reg_bytes. rewrite plain_app, plain_lib. cbn [bindr plain]. rewrite Hu. cbn [UDPPing u_to]. rewrite (proj1 (proj2 (C126_ping_sent s) Hs)). reflexivity. Qed.
Print Assumptions C126_ping_refused.

(** ** SpanningTreeMessage *)
Lemma firstn6_len (r : bytes) : List.length r = 6%nat -> firstn 6 r = r. Proof. intros H. apply firstn_all2. lia. Qed.
Lemma fits6 (r : bytes) : List.length r = 6%nat -> fits 6 r = r.
Proof. intros H. unfold fits. rewrite H, firstn6_len by exact H. cbn [Nat.sub repeat]. apply app_nil_r. Qed.
Lemma stm_parts r h : stm_root (r ++ [h]) = r /\ stm_hops (r ++ [h]) = h.
Proof. unfold stm_root, stm_hops. rewrite removelast_last, last_last. auto. Qed.
Lemma unbe1 a : unbe [a] = a. Proof. cbn [unbe List.length]. change (256 ^ Z.of_nat 0) with 1. lia. Qed.
Lemma be1 h : 0 <= h < 256 -> be 1 h = [h]. Proof. intros H. cbn [be]. change (256 ^ Z.of_nat 0) with 1. rewrite Z.div_1_r, Z.mod_small by lia. reflexivity. Qed.

(** C126.  A SpanningTreeMessage is sent as the six bytes of its root, a zero byte and the number of hops, when that is below 256; otherwise struct.error. *)
Theorem C126_stm_sent : forall r h, List.length r = 6%nat -> (0 <= h < 256 -> stm_to (r ++ [h]) = Ok (r ++ [0; h]) /\ u_size SpanningTreeMessage (r ++ [h]) = Ok 8) /\
  (~ 0 <= h < 256 -> stm_to (r ++ [h]) = Err EStruct).
Proof. intros r h L. unfold u_size. cbn [u_to SpanningTreeMessage]. unfold stm_to. destruct (stm_parts r h) as [-> ->]. cbn [pack stm_fmt]. change (256 ^ Z.of_nat 1) with 256. split; intros H.
  - destruct (Z.leb_spec 0 h); [|lia]. destruct (Z.ltb_spec h 256); [|lia]. cbn [andb bindr repeat]. rewrite be1, fits6 by (exact L || lia). cbn [app]. split; [reflexivity|]. unfold zlen. rewrite app_length, L. reflexivity.
  - destruct (Z.leb_spec 0 h); destruct (Z.ltb_spec h 256); cbn [andb]; try reflexivity. lia. Qed.
Print Assumptions C126_stm_sent.
(** C126.  Reading: fewer than eight bytes raise ValueError; otherwise six bytes are the root, the seventh is passed over, the eighth is the number of hops, the rest is left. *)
Theorem C126_stm_read : (forall raw, (List.length raw < 8)%nat -> stm_from raw = Err EValue) /\
  forall r x h rest, List.length r = 6%nat -> stm_from (r ++ x :: h :: rest) = Ok (r ++ [h], rest).
Proof. split.
  - intros raw H. unfold stm_from. destruct (Nat.ltb_spec (List.length raw) 8); [reflexivity|lia].
  - intros r x h rest L. destruct r as [|a [|b [|c [|d [|e [|f [|g r]]]]]]]; try discriminate L. unfold stm_from. cbn [app List.length Nat.ltb Nat.leb firstn skipn stm_fmt unpack bindr]. rewrite unbe1. reflexivity. Qed.
Print Assumptions C126_stm_read.
(** C126.  What the object holds is what was given last. *)
Theorem C126_stm_made : (forall r h, List.length r = 6%nat -> stm_new (Some r) h = Ok (r ++ [match h with Some v => v | None => 0 end])) /\ stm_new None None = Ok [0; 0; 0; 0; 0; 0; 0] /\
  forall r h l v, fold_left stm_set_hops (l ++ [v]) (r ++ [h]) = r ++ [v].
Proof. split; [|split].
  - intros r h L. unfold stm_new, eth_init. cbn [bindr]. rewrite (firstn6_len r L). destruct r; [discriminate|]. reflexivity.
  - vm_compute. reflexivity.
  - intros r h l v. rewrite fold_left_app. cbn [fold_left]. assert (G : exists h', fold_left stm_set_hops l (r ++ [h]) = r ++ [h']).
    { revert h. induction l as [|y l IH]; intros h; [exists h; reflexivity|]. cbn [fold_left]. unfold stm_set_hops at 2. rewrite (proj1 (stm_parts r h)). apply IH. }
    destruct G as (h' & ->). unfold stm_set_hops. rewrite (proj1 (stm_parts r h')). reflexivity. Qed.
Print Assumptions C126_stm_made.
(** C126.  Registered for EtherType.SLOW (0x8809), a packet ending in an Ethernet header of that type and the message, sent and read back, has the same headers, root and hops. *)
Theorem C126_stm_round : forall us n pre e r h bs h0 t, us n = SpanningTreeMessage -> eth_type e = 0x8809 -> List.length r = 6%nat -> 0 <= h < 256 ->
  pre ++ [HEth e; HRaw (r ++ [0; h])] = h0 :: t -> chained (h0 :: t) -> Forall wf_hdr (h0 :: t) ->
  reg_bytes (register us CEth 0x8809 n) (map LH (pre ++ [HEth e]) ++ [UH n (r ++ [h])]) = Ok bs ->
  exists sent q, pkt_to_bytes (pre ++ [HEth e; HRaw (r ++ [0; h])]) = Ok (sent ++ [HRaw (r ++ [0; h])], bs) /\ Forall2 read_as sent q /\
    reg_parse (register us CEth 0x8809 n) bs (L (class_of h0)) = Ok (map LH q ++ [UH n (r ++ [h])]).
Proof. intros us n pre e r h bs h0 t Hu He Hl Hh Hx Hc Hw Hb. destruct (proj1 (C126_stm_sent r h Hl) Hh) as [E _].
  assert (Hf : stm_from (r ++ [0; h]) = Ok (r ++ [h], [])) by (apply (proj2 C126_stm_read); exact Hl).
  eapply C108_round_trip; try eassumption; [unfold registrable; tauto|apply slow_unused|unfold RegSpec.tells; cbn [number]; congruence|rewrite Hu; exact E|rewrite Hu; exact Hf]. Qed.
Print Assumptions C126_stm_round.
Example C126_stm_case : let r := [2; 0; 0; 0; 0; 7] in let x := [HEth (ee 0x8809); HRaw (r ++ [0; 13])] in
  chained x /\ Forall wf_hdr x /\ exists bs e, reg_bytes (register (fun _ => SpanningTreeMessage) CEth 0x8809 0) [LH (HEth (ee 0x8809)); UH 0 (r ++ [13])] = Ok bs /\
    reg_parse (register (fun _ => SpanningTreeMessage) CEth 0x8809 0) bs (L CEth) = Ok [LH (HEth e); UH 0 (r ++ [13])].
Proof. cbv zeta. split; [vm_compute; repeat split; discriminate|]. split.
  - constructor; [|constructor; [exact I|constructor]]. split; [|discriminate]. unfold wf_eth, ee. cbn. repeat split; try reflexivity; try (repeat constructor; lia); auto 40.
  - eexists _, _. split; [vm_compute; reflexivity|]. vm_compute. reflexivity. Qed.

(** C126, full statement that is false: whatever message is received and sent on leaves with the bytes it came with.  The seventh byte is lost. *)
Theorem C126_stm_forward_refuted : exists raw w rest b, List.length raw = 8%nat /\ stm_from raw = Ok (w, rest) /\ stm_to w = Ok b /\ b ++ rest <> raw.
Proof. exists [1; 2; 3; 4; 5; 6; 7; 8], [1; 2; 3; 4; 5; 6; 8], [], [1; 2; 3; 4; 5; 6; 0; 8]. split; [reflexivity|]. split; [vm_compute; reflexivity|]. split; [vm_compute; reflexivity|]. discriminate. Qed.
Print Assumptions C126_stm_forward_refuted.
(** C126.  What holds: every byte but the seventh is kept, and all of them when the seventh is zero; a UDPPing keeps all. *)
Theorem C126_forward_partial : (forall a b rest, 0 <= a < 256 -> 0 <= b < 256 -> exists w, ping_from (a :: b :: rest) = Ok (w, rest) /\ ping_to w = Ok [a; b]) /\
  forall r x h rest, List.length r = 6%nat -> 0 <= h < 256 -> exists w, stm_from (r ++ x :: h :: rest) = Ok (w, rest) /\ stm_to w = Ok (r ++ [0; h]).
Proof. split.
  - intros a b rest Ha Hb. exists [256 * a + b]. split; [apply ping_read|]. rewrite (proj1 (proj1 (C126_ping_sent (256 * a + b)) ltac:(lia))). do 2 f_equal; [|f_equal].
    + rewrite Z.mul_comm, Z.div_add_l, Z.div_small by lia. lia.
    + rewrite Z.add_comm, Z.mul_comm, Z.mod_add, Z.mod_small by lia. reflexivity.
  - intros r x h rest L H. exists (r ++ [h]). split; [apply (proj2 C126_stm_read); exact L|]. exact (proj1 (proj1 (C126_stm_sent r h L) H)). Qed.
Print Assumptions C126_forward_partial.

(** ** Comparison *)
(** C126, full statement that is false: any two objects can be compared.  Numbers that do not fit raise struct.error. *)
Theorem C126_compare_refuted : exists a b, u_eq UDPPing [a] [b] = Err EStruct.
Proof. exists 1, 70000. vm_compute. reflexivity. Qed.
Print Assumptions C126_compare_refuted.
Lemma bytes_eqb_iff a b : bytes_eqb a b = true <-> a = b. Proof. apply bytes_eqb_eq. Qed.
(** C126.  When the numbers fit, two objects are equal exactly when their fields are. *)
Theorem C126_compare_partial : (forall a b, 0 <= a < 65536 -> 0 <= b < 65536 -> exists t, u_eq UDPPing [a] [b] = Ok t /\ (t = true <-> a = b)) /\
  forall r h r' h', List.length r = 6%nat -> List.length r' = 6%nat -> 0 <= h < 256 -> 0 <= h' < 256 ->
    exists t, u_eq SpanningTreeMessage (r ++ [h]) (r' ++ [h']) = Ok t /\ (t = true <-> r = r' /\ h = h').
Proof. split.
  - intros a b Ha Hb. unfold u_eq. cbn [u_to UDPPing]. rewrite (proj1 (proj1 (C126_ping_sent a) Ha)), (proj1 (proj1 (C126_ping_sent b) Hb)). cbn [bindr]. eexists. split; [reflexivity|]. rewrite bytes_eqb_iff. split; [|intros ->; reflexivity].
    intros H. injection H as H1 H2. pose proof (Z.div_mod a 256). pose proof (Z.div_mod b 256). lia.
  - intros r h r' h' L L' H H'. unfold u_eq. cbn [u_to SpanningTreeMessage]. rewrite (proj1 (proj1 (C126_stm_sent r h L) H)), (proj1 (proj1 (C126_stm_sent r' h' L') H')). cbn [bindr]. eexists. split; [reflexivity|]. rewrite bytes_eqb_iff. split; [|intros [-> ->]; reflexivity].
    intros E. assert (E1 : firstn 6 (r ++ [0; h]) = firstn 6 (r' ++ [0; h'])) by (rewrite E; reflexivity). rewrite <- L in E1 at 1. rewrite <- L' in E1 at 1.
    rewrite !firstn_app, !firstn_all, !Nat.sub_diag in E1. cbn [firstn] in E1. rewrite !app_nil_r in E1. subst r'. apply app_inv_head in E. injection E as E. auto. Qed.
Print Assumptions C126_compare_partial.
Example C126_compare_case : u_eq UDPPing [13] [13] = Ok true /\ u_eq UDPPing [13] [14] = Ok false /\ u_eq SpanningTreeMessage [2; 0; 0; 0; 0; 7; 1] [2; 0; 0; 0; 0; 7; 2] = Ok false.
Proof. vm_compute. auto. Qed.

(** C126, full statement that is false: a message whose constructor accepted its arguments is read back with the same root.  A root given as one to five bytes is filled with zeros. *)
Theorem C126_short_root_refuted : exists b h w raw w', stm_new (Some b) (Some h) = Ok w /\ 0 <= h < 256 /\ stm_to w = Ok raw /\ stm_from raw = Ok (w', []) /\ stm_root w' <> stm_root w.
Proof. exists [2], 3, [2; 3], [2; 0; 0; 0; 0; 0; 0; 3], [2; 0; 0; 0; 0; 0; 3]. split; [vm_compute; reflexivity|]. split; [lia|]. split; [vm_compute; reflexivity|]. split; [vm_compute; reflexivity|]. discriminate. Qed.
Print Assumptions C126_short_root_refuted.

(** ** Both classes registered at once *)
(** C126.  With UDPPing registered for any UDP ports and SpanningTreeMessage for EtherType.SLOW, in any order, packets of either kind come back as they were. *)
Theorem C126_both : forall us es n pre h w body bs h0 t, Forall allowed es -> latest es h n ->
  (us n = UDPPing /\ (exists s, 0 <= s < 65536 /\ w = [s] /\ body = [s / 256; s mod 256]) \/
   us n = SpanningTreeMessage /\ exists r k, List.length r = 6%nat /\ 0 <= k < 256 /\ w = r ++ [k] /\ body = r ++ [0; k]) ->
  pre ++ [h; HRaw body] = h0 :: t -> chained (h0 :: t) -> Forall wf_hdr (h0 :: t) ->
  reg_bytes (register_all us es) (map LH (pre ++ [h]) ++ [UH n w]) = Ok bs ->
  exists sent q, pkt_to_bytes (pre ++ [h; HRaw body]) = Ok (sent ++ [HRaw body], bs) /\ Forall2 read_as sent q /\
    reg_parse (register_all us es) bs (L (class_of h0)) = Ok (map LH q ++ [UH n w]).
Proof. intros us es n pre h w body bs h0 t A La K Hx Hc Hw Hb. eapply C108_several_round_trip; try eassumption.
  - destruct K as [(-> & s & Hs & -> & ->)|(-> & r & k & Hr & Hk & -> & ->)]; [exact (proj1 (proj1 (C126_ping_sent s) Hs))|exact (proj1 (proj1 (C126_stm_sent r k Hr) Hk))].
  - destruct K as [(-> & s & Hs & -> & ->)|(-> & r & k & Hr & Hk & -> & ->)].
    + destruct (ping_round s Hs) as (b & E1 & E2). cbn [UDPPing u_from]. rewrite (proj1 (proj1 (C126_ping_sent s) Hs)) in E1. apply ok_inj in E1. subst b. exact E2.
    + apply (proj2 C126_stm_read). exact Hr. Qed.
Print Assumptions C126_both.
Definition doc_classes (n : nat) : uclass := match n with O => UDPPing | _ => SpanningTreeMessage end.
Definition doc_entries : list entry := [(CUdp, 12345, 0%nat); (CEth, 0x8809, 1%nat); (CUdp, 12346, 0%nat)].
Example C126_both_case : Forall allowed doc_entries /\ latest doc_entries (HUdp uu) 0 /\ latest doc_entries (HEth (ee 0x8809)) 1 /\
  exists bs e i u bs2 e2, reg_bytes (register_all doc_classes doc_entries) [LH (HEth xe); LH (HIp4 (xip 17)); LH (HUdp uu); UH 0 [42]] = Ok bs /\
    reg_parse (register_all doc_classes doc_entries) bs (L CEth) = Ok [LH (HEth e); LH (HIp4 i); LH (HUdp u); UH 0 [42]] /\
    reg_bytes (register_all doc_classes doc_entries) [LH (HEth (ee 0x8809)); UH 1 [2; 0; 0; 0; 0; 7; 13]] = Ok bs2 /\
    reg_parse (register_all doc_classes doc_entries) bs2 (L CEth) = Ok [LH (HEth e2); UH 1 [2; 0; 0; 0; 0; 7; 13]].
Proof. split; [repeat (constructor; [split; [unfold registrable; tauto|first [apply port_unused|apply slow_unused]]|]); constructor|].
  split; [exists [], CUdp, 12345, [(CEth, 0x8809, 1%nat); (CUdp, 12346, 0%nat)]; split; [reflexivity|]; split; [reflexivity|intros e [<-|[<-|[]]]; discriminate]|].
  split; [exists [(CUdp, 12345, 0%nat)], CEth, 0x8809, [(CUdp, 12346, 0%nat)]; split; [reflexivity|]; split; [reflexivity|intros e [<-|[]]; discriminate]|].
  do 6 eexists. split; [vm_compute; reflexivity|]. split; [vm_compute; reflexivity|]. split; [vm_compute; reflexivity|]. vm_compute. reflexivity. Qed.
