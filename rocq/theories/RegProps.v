(** C108: header classes registered by a program. *)
From Verif Require Import BaseLemmas CodecLemmas Dict EthAddrModel EthAddrSpec Enums EthModel ArpModel EthProofs Ipv4Model TransportModel Ipv6Model IcmpModel RipModel PacketModel PacketSpec PacketProofs
  FieldModel RegModel RegSpec RegProofs RegMany.
#[local] Open Scope string_scope.
#[local] Open Scope Z_scope.
#[local] Open Scope list_scope.

(** documentation/code/udpappheader.py: a two-byte sequence number. *)
Definition ping : uclass :=
  mkU (fun b => match b with x :: y :: r => Ok ([x; y], r) | _ => Err EValue end) (fun w => Ok w)
      (fun w s => match w with [x; y] => if str_eqb s "sequence" then Some (256 * x + y) else None | _ => None end).
Definition pings (n : nat) : uclass := ping.
Definition ee (t : Z) : ethernet := mkEth [2; 0; 0; 0; 0; 2] [2; 0; 0; 0; 0; 1] t.
Definition ii (p : Z) : ipv4 := mkIp4 0 0 64 7 0 0 p [10; 0; 0; 1] [10; 0; 0; 2] [].
Definition uu : udp := mkUdp 55555 12345 0 0.
Definition ping_frame : bytes :=
  match pkt_to_bytes [HEth (ee 0x800); HIp4 (ii 17); HUdp uu; HRaw [0; 42; 9]] with Ok (_, b) => b | Err _ => [] end.
Definition empty_frame : bytes := match pkt_to_bytes [HEth (ee 0x800); HIp4 (ii 17); HUdp uu] with Ok (_, b) => b | Err _ => [] end.

(** Without registrations, packets are read as C23 to C25 and C69 have it, whatever classes the program defines. *)
Theorem C108_shipped : forall us raw c, reg_parse (shipped us) raw (L c) = (p <- pkt_new raw c;; Ok (map LH p)).
Proof. exact shipped_parse. Qed.
Print Assumptions C108_shipped.
Example C108_shipped_ex : exists e i u, reg_parse (shipped pings) ping_frame (L CEth) = Ok [LH (HEth e); LH (HIp4 i); LH (HUdp u); LH (HRaw [0; 42; 9])].
Proof. eexists. eexists. eexists. vm_compute. reflexivity. Qed.

(** A class registered for a number that the library does not know: packets whose last header read so far carries that
    number go on with the registered class, given the bytes that were the payload, and the bytes it leaves are the payload;
    all other packets are read, or refused, as before. *)
Theorem C108_registered : forall us c v n raw c0, registrable c -> unused c v -> pkt_new raw c0 <> Err EFuel ->
  match pkt_new raw c0 with
  | Ok p => continues us c v n p (reg_parse (register us c v n) raw (L c0))
  | Err e => reg_parse (register us c v n) raw (L c0) = Err e
  end.
Proof. exact register_parse. Qed.
Print Assumptions C108_registered.
Example C108_registered_ex : registrable CUdp /\ unused CUdp 12345 /\ unused CEth 0x8809 /\ ~ unused CEth 0x800 /\
  exists e i u, reg_parse (register pings CUdp 12345 7) ping_frame (L CEth) = Ok [LH (HEth e); LH (HIp4 i); LH (HUdp u); UH 7 [0; 42]; LH (HRaw [9])].
Proof. split; [unfold registrable; tauto|]. split; [intros [] H; cbn in H; try discriminate; reflexivity|].
  split; [intros [] H; unfold tells in H; cbn [number] in H; try discriminate; injection H as H; cbn [says_next]; rewrite H; reflexivity|].
  split; [intros H; specialize (H (HEth (ee 0x800)) eq_refl); discriminate|]. eexists. eexists. eexists. vm_compute. reflexivity. Qed.

(** Any number of registrations, in any order, behind the same class or different ones: a packet whose last header carries
    a registered number goes on with the class registered last for it; all other packets are read, or refused, as before. *)
Theorem C108_several : forall us es raw c0, Forall allowed es -> pkt_new raw c0 <> Err EFuel ->
  match pkt_new raw c0 with
  | Ok p => continues_all us es p (reg_parse (register_all us es) raw (L c0))
  | Err e => reg_parse (register_all us es) raw (L c0) = Err e
  end.
Proof. exact many_parse. Qed.
Print Assumptions C108_several.
Definition three : list entry := [(CUdp, 12345, 4%nat); (CEth, 0x8809, 5%nat); (CUdp, 12345, 6%nat)].
Example C108_several_ex : Forall allowed three /\ latest three (HUdp uu) 6 /\
  exists e i u e2, reg_parse (register_all pings three) ping_frame (L CEth) = Ok [LH (HEth e); LH (HIp4 i); LH (HUdp u); UH 6 [0; 42]; LH (HRaw [9])] /\
    reg_parse (register_all pings three) ([2; 0; 0; 0; 0; 1; 2; 0; 0; 0; 0; 2; 0x88; 0x09] ++ [0; 7; 5])%list (L CEth) = Ok [LH (HEth e2); UH 5 [0; 7]; LH (HRaw [5])].
Proof. assert (A : allowed (CUdp, 12345, 4%nat)) by (split; [unfold registrable; tauto|intros [] H; cbn in H; try discriminate; reflexivity]).
  assert (B : allowed (CEth, 0x8809, 5%nat)).
  { split; [unfold registrable; tauto|]. intros [] H; unfold tells in H; cbn [number] in H; try discriminate; injection H as H; cbn [says_next]; rewrite H; reflexivity. }
  split; [exact (Forall_cons _ A (Forall_cons _ B (Forall_cons (CUdp, 12345, 6%nat) A (Forall_nil _))))|].
  split; [exists [(CUdp, 12345, 4%nat); (CEth, 0x8809, 5%nat)], CUdp, 12345, []; split; [reflexivity|]; split; [reflexivity|intros x []]|].
  eexists. eexists. eexists. eexists. split; vm_compute; reflexivity. Qed.

(** A stack of headers followed by a registered header, sent and read back, is what was sent. *)
Theorem C108_round_trip : forall us c v n pre h w body w' bs h0 t, registrable c -> unused c v -> tells c v h ->
  u_to (us n) w = Ok body -> u_from (us n) body = Ok (w', []) ->
  pre ++ [h; HRaw body] = h0 :: t -> chained (h0 :: t) -> Forall wf_hdr (h0 :: t) ->
  reg_bytes (register us c v n) (map LH (pre ++ [h]) ++ [UH n w]) = Ok bs ->
  exists sent q, pkt_to_bytes (pre ++ [h; HRaw body]) = Ok (sent ++ [HRaw body], bs) /\ Forall2 read_as sent q /\
    reg_parse (register us c v n) bs (L (class_of h0)) = Ok (map LH q ++ [UH n w']).
Proof. exact register_round_trip. Qed.
Print Assumptions C108_round_trip.
Example C108_round_trip_ex : let x := [HEth (ee 0x8809); HRaw [0; 13]] in
  chained x /\ Forall wf_hdr x /\ u_from ping [0; 13] = Ok ([0; 13], []) /\ exists bs, reg_bytes (register pings CEth 0x8809 0) [LH (HEth (ee 0x8809)); UH 0 [0; 13]] = Ok bs.
Proof. cbv zeta. split; [vm_compute; repeat split; discriminate|]. split.
  - constructor; [|constructor; [exact I|constructor]]. split; [|discriminate]. unfold wf_eth, ee. cbn. repeat split; try reflexivity; try (repeat constructor; lia); auto 40.
  - split; [reflexivity|]. eexists. vm_compute. reflexivity. Qed.

(** The same with any number of registrations: the header comes back as that of the class registered last for its number. *)
Theorem C108_several_round_trip : forall us es n pre h w body w' bs h0 t, Forall allowed es -> latest es h n ->
  u_to (us n) w = Ok body -> u_from (us n) body = Ok (w', []) ->
  pre ++ [h; HRaw body] = h0 :: t -> chained (h0 :: t) -> Forall wf_hdr (h0 :: t) ->
  reg_bytes (register_all us es) (map LH (pre ++ [h]) ++ [UH n w]) = Ok bs ->
  exists sent q, pkt_to_bytes (pre ++ [h; HRaw body]) = Ok (sent ++ [HRaw body], bs) /\ Forall2 read_as sent q /\
    reg_parse (register_all us es) bs (L (class_of h0)) = Ok (map LH q ++ [UH n w']).
Proof. exact many_round_trip. Qed.
Print Assumptions C108_several_round_trip.
Example C108_several_round_trip_ex : let x := [HEth (ee 0x8809); HRaw [0; 13]] in
  latest three (HEth (ee 0x8809)) 5 /\ chained x /\ u_from ping [0; 13] = Ok ([0; 13], []) /\
  exists bs e, reg_bytes (register_all pings three) [LH (HEth (ee 0x8809)); UH 5 [0; 13]] = Ok bs /\ reg_parse (register_all pings three) bs (L CEth) = Ok [LH (HEth e); UH 5 [0; 13]].
Proof. cbv zeta. split; [exists [(CUdp, 12345, 4%nat)], CEth, 0x8809, [(CUdp, 12345, 6%nat)]; split; [reflexivity|]; split; [reflexivity|intros e [<-|[]]; discriminate]|].
  split; [vm_compute; repeat split; discriminate|]. split; [reflexivity|]. do 2 eexists. split; [vm_compute; reflexivity|]. vm_compute. reflexivity. Qed.

(** Registering behind ARP, ICMP, RIP, the IPv6 extension headers or Null changes nothing: their next header is fixed. *)
Theorem C108_ignored : forall us c k v d raw c0, fixed_next c ->
  reg_parse (add_class (set_key (shipped us) (L c) k) (L c) v d) raw c0 = reg_parse (shipped us) raw c0.
Proof. exact ignored. Qed.
Print Assumptions C108_ignored.
Example C108_ignored_ex : fixed_next CIcmp /\ exists p, reg_parse (shipped pings) ping_frame (L CEth) = Ok p /\ List.length p = 4%nat.
Proof. split; [unfold fixed_next; tauto|]. eexists. split; vm_compute; reflexivity. Qed.

(** A program's own class without a map shares the one of all such classes: a class registered behind one (here number 0)
    is found behind another (number 1). *)
Theorem C108_shared_map_refuted : exists us g raw e rest, g = set_key (register us CEth 0x8809 1) (U 1) "sequence" /\
  reg_parse g raw (L CEth) = Ok [LH (HEth e); UH 1 [0; 7]; LH (HRaw rest)] /\
  reg_parse (add_class g (U 0) 7 (U 2)) raw (L CEth) = Ok [LH (HEth e); UH 1 [0; 7]; UH 2 rest].
Proof. exists pings. eexists. exists ([2; 0; 0; 0; 0; 1; 2; 0; 0; 0; 0; 2; 0x88; 0x09] ++ [0; 7; 5; 6])%list. eexists. eexists. split; [reflexivity|]. split; vm_compute; reflexivity. Qed.
Print Assumptions C108_shared_map_refuted.

(** A map set for IPv6 is not used behind its extension headers, although classes added to the shipped map are. *)
Definition v6h (nh : Z) : hdr := HIp6 (mkIp6 0 0 64 nh 0 (repeat 1 16) (repeat 2 16)).
Definition v6_frame (hs : list hdr) : bytes := match pkt_to_bytes (HEth (ee 0x86dd) :: hs) with Ok (_, b) => b | Err _ => [] end.
Definition plain_v6 : bytes := v6_frame [v6h 89; HRaw [0; 1]].
Definition ext_v6 : bytes := v6_frame [v6h 44; HFrag (mkV6frag (Some 89) 0 0 0 false); HRaw [0; 1]].
Theorem C108_ipv6_map_refuted : exists us m e i e2 i2 f, hget m 89 = Some (Some (U 0)) /\ hget m 44 = Some (Some (L CFrag)) /\
  let g := set_map (shipped us) (L CIp6) m in
  reg_parse g plain_v6 (L CEth) = Ok [LH (HEth e); LH (HIp6 i); UH 0 [0; 1]] /\
  reg_parse g ext_v6 (L CEth) = Ok [LH (HEth e2); LH (HIp6 i2); LH (HFrag f); LH (HRaw [0; 1])] /\ fr_nh f = Some 89 /\
  reg_parse (register us CIp6 89 0) ext_v6 (L CEth) = Ok [LH (HEth e2); LH (HIp6 i2); LH (HFrag f); UH 0 [0; 1]].
Proof. exists pings, [(44, Some (L CFrag)); (89, Some (U 0))]. eexists. eexists. eexists. eexists. eexists. split; [reflexivity|]. split; [reflexivity|]. cbv zeta.
  split; [vm_compute; reflexivity|]. split; [vm_compute; reflexivity|]. split; [reflexivity|]. vm_compute. reflexivity. Qed.
Print Assumptions C108_ipv6_map_refuted.

(** A payload that the registered class refuses, or no payload, makes a packet unreadable that was read before. *)
Theorem C108_short_payload_refuted : exists us raw p, pkt_new raw CEth = Ok p /\ reg_parse (register us CUdp 12345 0) raw (L CEth) = Err EValue.
Proof. exists pings, empty_frame. eexists. split; vm_compute; reflexivity. Qed.
Print Assumptions C108_short_payload_refuted.
