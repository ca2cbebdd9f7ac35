From Verif Require Import BaseLemmas CodecLemmas EthAddrModel EthAddrSpec Enums EthModel ArpModel EthProofs ChecksumModel ChecksumSpec
  ChecksumProofs Ipv4Model Ipv4Proofs Ipv4Proofs2 TransportModel TransportProofs Ipv6Model Ipv6Proofs Ipv6ExtProofs
  IcmpModel IcmpProofs IcmpCodecProofs RipModel RipProofs PacketModel.

Ltac ok_step H :=
  match type of H with
  | bindr ?e _ = Ok _ => let a := fresh "a" in let E := fresh "E" in destruct e as [a|] eqn:E; cbn [bindr] in H; [|discriminate H]
  end.

(** ** Serialising: dependence on the rest of the packet *)
Definition sig (h : hdr) : option (bytes * bytes * Z) :=
  match h with
  | HIp4 a => Some (ip_src a, ip_dst a, ip_proto a)
  | HIp6 a => Some (v6_src a, v6_dst a, -1)
  | _ => None
  end.
Definition kindof (h : hdr) : bool * bool :=
  match h with HIp4 _ => (true, false) | HIp6 _ => (false, true) | _ => (false, false) end.
Definition ctx (h : hdr) := (kindof h, sig h).

Lemma first_ip4_ctx p : forall q, map ctx p = map ctx q ->
  (first_ip4 p = None /\ first_ip4 q = None) \/
  (exists a b, first_ip4 p = Some a /\ first_ip4 q = Some b /\ ip_src a = ip_src b /\ ip_dst a = ip_dst b /\ ip_proto a = ip_proto b).
Proof. induction p as [|h p IH]; intros [|h' q] H; try discriminate; [left; split; reflexivity|].
  cbn [map] in H. apply cons_inj in H as [H Hr]. specialize (IH q Hr).
  destruct h; destruct h'; try discriminate H; try exact IH.
  unfold ctx, kindof, sig in H. inversion H. right. do 2 eexists. cbn [first_ip4]. repeat split; auto. Qed.
Lemma first_ip6_ctx p : forall q, map ctx p = map ctx q ->
  (first_ip6 p = None /\ first_ip6 q = None) \/
  (exists a b, first_ip6 p = Some a /\ first_ip6 q = Some b /\ v6_src a = v6_src b /\ v6_dst a = v6_dst b).
Proof. induction p as [|h p IH]; intros [|h' q] H; try discriminate; [left; split; reflexivity|].
  cbn [map] in H. apply cons_inj in H as [H Hr]. specialize (IH q Hr).
  destruct h; destruct h'; try discriminate H; try exact IH.
  unfold ctx, kindof, sig in H. inversion H. right. do 2 eexists. cbn [first_ip6]. repeat split; auto. Qed.

Lemma pre_ser_ctx raw p q h : map ctx p = map ctx q -> pre_ser raw p h = pre_ser raw q h.
Proof. intros H. destruct h; try reflexivity; cbn [pre_ser].
  - unfold udp_pre_serialize, udp_checksum. destruct (first_ip4_ctx p q H) as [(-> & ->)|(a & b & -> & -> & E1 & E2 & E3)]; [reflexivity|].
    rewrite E1, E2, E3. reflexivity.
  - unfold tcp_pre_serialize, tcp_checksum. destruct (first_ip4_ctx p q H) as [(-> & ->)|(a & b & -> & -> & E1 & E2 & E3)]; [reflexivity|].
    rewrite E1, E2, E3. reflexivity.
  - unfold icmp6_pre_serialize. destruct (first_ip6_ctx p q H) as [(-> & ->)|(a & b & -> & -> & E1 & E2)]; [reflexivity|].
    rewrite E1, E2. reflexivity. Qed.

Lemma pre_ser_keeps raw p h h1 : pre_ser raw p h = Ok h1 -> ctx (hdr_after h1) = ctx h /\ class_of (hdr_after h1) = class_of h.
Proof. intros H. destruct h; cbn [pre_ser] in H; try (ok_step H); try discriminate; apply ok_inj in H; subst h1; try (split; reflexivity).
  - unfold ip_pre_serialize in E. ok_step E. apply ok_inj in E. subst. split; reflexivity.
  - unfold ip6_pre_serialize in E. apply ok_inj in E. subst. split; reflexivity. Qed.

Lemma ser_ctx hs : forall pre hs' b, ser pre hs = Ok (hs', b) -> map ctx hs' = map ctx hs /\ map class_of hs' = map class_of hs.
Proof. induction hs as [|h hs IH]; intros pre hs' b H; cbn [ser] in H.
  - apply ok_pair_inj in H as [<- _]. split; reflexivity.
  - ok_step H. destruct a as [t' raw]. ok_step H. ok_step H. apply ok_pair_inj in H as [<- _].
    destruct (IH _ _ _ E) as [E2 E3]. destruct (pre_ser_keeps _ _ _ _ E0) as [E4 E5]. cbn [map]. rewrite E2, E3, E4, E5. split; reflexivity. Qed.

Lemma ser_pre hs : forall p q, map ctx p = map ctx q -> ser p hs = ser q hs.
Proof. induction hs as [|h hs IH]; intros p q H; [reflexivity|]. cbn [ser].
  rewrite (IH (p ++ [h]) (q ++ [h])) by (rewrite !map_app, H; reflexivity).
  destruct (ser (q ++ [h]) hs) as [[t' raw]|]; [|reflexivity]. cbn [bindr].
  rewrite (pre_ser_ctx raw (p ++ h :: t') (q ++ h :: t')) by (rewrite !map_app, H; reflexivity). reflexivity. Qed.

(** ** Serialising is idempotent *)
Lemma hdr_idem raw p h h1 b : pre_ser raw p h = Ok h1 -> hdr_bytes h1 = Ok b ->
  exists h2, pre_ser raw p (hdr_after h1) = Ok h2 /\ hdr_bytes h2 = Ok b /\ hdr_after h2 = hdr_after h1.
Proof. intros H Hb. destruct h; cbn [pre_ser] in H; try (ok_step H); try discriminate; apply ok_inj in H; subst h1;
    cbn [hdr_after hdr_bytes] in *; try (eexists; split; [reflexivity|split; [exact Hb|reflexivity]]).
  - (* ip4 *) unfold ip_pre_serialize, ip_size in E. ok_step E. ok_step E0. apply ok_inj in E, E0. subst.
    eexists. split; [cbn [pre_ser]; unfold ip_pre_serialize, ip_size; cbn [ip_with_totlen ip_opts]; rewrite E1; reflexivity|].
    split; [exact Hb|reflexivity].
  - unfold ip6_pre_serialize in E. apply ok_inj in E. subst. eexists. split; [reflexivity|split; [exact Hb|reflexivity]].
  - (* hop *) unfold hop_serialised, hop_to_bytes in *. ok_step Hb. cbn [pre_ser]. eexists. split; [reflexivity|].
    cbn [hdr_bytes hdr_after]. unfold hop_to_bytes, hop_serialised. cbn [ho_opts ho_nh]. rewrite E. split; [exact Hb|reflexivity].
  - unfold hop_serialised, hop_to_bytes in *. ok_step Hb. cbn [pre_ser]. eexists. split; [reflexivity|].
    cbn [hdr_bytes hdr_after]. unfold hop_to_bytes, hop_serialised. cbn [ho_opts ho_nh]. rewrite E. split; [exact Hb|reflexivity].
  - (* udp *) unfold udp_pre_serialize in E. ok_step E. apply ok_inj in E. subst. eexists.
    split; [cbn [pre_ser]; unfold udp_pre_serialize, udp_checksum in *; cbn [udp_src udp_dst udp_size] in *; unfold udp_size in *; rewrite E0; reflexivity|].
    split; [exact Hb|reflexivity].
  - unfold tcp_pre_serialize in E. ok_step E. apply ok_inj in E. subst. eexists.
    split; [cbn [pre_ser]; unfold tcp_pre_serialize, tcp_checksum, tcp_make_header, tcp_size, tcp_offset in *;
    cbn [tcp_src tcp_dst tcp_seq tcp_ack tcp_flags tcp_window tcp_urg] in *; rewrite E0; reflexivity|].
    split; [exact Hb|reflexivity].
  - (* icmp *) unfold icmp_to_bytes, icmp_serialised in *. ok_step Hb. cbn [pre_ser]. eexists. split; [reflexivity|].
    cbn [hdr_bytes hdr_after]. unfold icmp_to_bytes, icmp_serialised, icmp_pack in *. cbn [ic_type ic_code ic_data] in *. rewrite E. cbn [bindr].
    split; [exact Hb|reflexivity].
  - unfold icmp6_pre_serialize in E. destruct (first_ip6 p) as [ip|] eqn:Ep; [|discriminate]. ok_step E. apply ok_inj in E. subst.
    eexists. split; [cbn [pre_ser]; rewrite Ep; unfold icmp6_pre_serialize, icmp6_checksum in *;
    cbn [ic_type ic_code ic_data] in *; rewrite E0; reflexivity|]. split; [exact Hb|reflexivity]. Qed.

Lemma ser_idem hs : forall pre hs' b, ser pre hs = Ok (hs', b) -> ser pre hs' = Ok (hs', b).
Proof. induction hs as [|h hs IH]; intros pre hs' b H; cbn [ser] in H.
  - apply ok_pair_inj in H as [<- <-]. reflexivity.
  - ok_step H. destruct a as [t' raw]. ok_step H. ok_step H. apply ok_pair_inj in H as [<- <-].
    pose proof (IH _ _ _ E) as I. destruct (pre_ser_keeps _ _ _ _ E0) as [K _].
    destruct (hdr_idem _ _ _ _ _ E0 E1) as (h2 & P1 & P2 & P3).
    cbn [ser]. rewrite (ser_pre t' (pre ++ [hdr_after a]) (pre ++ [h])) by (rewrite !map_app; cbn [map]; rewrite K; reflexivity).
    rewrite I. cbn [bindr].
    rewrite (pre_ser_ctx raw (pre ++ hdr_after a :: t') (pre ++ h :: t')) by (rewrite !map_app; cbn [map]; rewrite K; reflexivity).
    rewrite P1. cbn [bindr]. rewrite P2. cbn [bindr]. rewrite P3. reflexivity. Qed.

Fixpoint serialise_times (n : nat) (p : packet) : res (list bytes) :=
  match n with
  | O => Ok []
  | S n' => ' (p', b) <- pkt_to_bytes p;; bs <- serialise_times n' p';; Ok (b :: bs)
  end.
Lemma serialise_times_same n : forall p p' b, pkt_to_bytes p = Ok (p', b) -> serialise_times n p = Ok (repeat b n).
Proof. induction n as [|n IH]; intros p p' b H; [reflexivity|]. cbn [serialise_times]. rewrite H. cbn [bindr].
  rewrite (IH p' p' b (ser_idem _ _ _ _ H)). reflexivity. Qed.

(** Only lengths and checksums are updated. *)
Definition only_fixups (h h' : hdr) : Prop :=
  match h, h' with
  | HIp4 x, HIp4 y => exists n, y = ip_with_totlen n x
  | HIp6 x, HIp6 y => exists n, y = mkIp6 (v6_tc x) (v6_flow x) (v6_ttl x) (v6_nh x) n (v6_src x) (v6_dst x)
  | HUdp x, HUdp y => exists n c, y = mkUdp (udp_src x) (udp_dst x) n c
  | HTcp x, HTcp y =>
      exists n c, y = mkTcp (tcp_src x) (tcp_dst x) (tcp_seq x) (tcp_ack x) (tcp_flags x) (tcp_window x) (tcp_urg x) n c
  | HIcmp x, HIcmp y | HIcmp6 x, HIcmp6 y => exists c, y = mkIcmp (ic_type x) (ic_code x) (ic_data x) c
  | HHop x, HHop y | HDest x, HDest y => exists n, y = mkV6hop (ho_nh x) n (ho_opts x)
  | _, _ => h' = h
  end.
Lemma pre_ser_fixups raw p h h1 : pre_ser raw p h = Ok h1 -> only_fixups h (hdr_after h1).
Proof. intros H. destruct h; cbn [pre_ser] in H; try (ok_step H); try discriminate; apply ok_inj in H; subst h1;
    cbn [hdr_after only_fixups]; try reflexivity.
  - unfold ip_pre_serialize in E. ok_step E. apply ok_inj in E. subst. eexists. reflexivity.
  - unfold ip6_pre_serialize in E. apply ok_inj in E. subst. eexists. reflexivity.
  - unfold hop_serialised. destruct (v6opts_to_bytes _); [eexists; reflexivity|]. destruct h as [xa xb xc]; exists xb; reflexivity.
  - unfold hop_serialised. destruct (v6opts_to_bytes _); [eexists; reflexivity|]. destruct h as [xa xb xc]; exists xb; reflexivity.
  - unfold udp_pre_serialize in E. ok_step E. apply ok_inj in E. subst. do 2 eexists. reflexivity.
  - unfold tcp_pre_serialize in E. ok_step E. apply ok_inj in E. subst. do 2 eexists. reflexivity.
  - unfold icmp_serialised. destruct (icmp_pack _ _); [eexists; reflexivity|]. destruct h as [xa xb xc xd]; exists xd; reflexivity.
  - unfold icmp6_pre_serialize in E. destruct (first_ip6 p); [|discriminate]. ok_step E. apply ok_inj in E. subst. eexists. reflexivity. Qed.
Lemma ser_fixups hs : forall pre hs' b, ser pre hs = Ok (hs', b) -> Forall2 only_fixups hs hs'.
Proof. induction hs as [|h hs IH]; intros pre hs' b H; cbn [ser] in H.
  - apply ok_pair_inj in H as [<- _]. constructor.
  - ok_step H. destruct a as [t' raw]. ok_step H. ok_step H. apply ok_pair_inj in H as [<- _].
    constructor; [eapply pre_ser_fixups; eauto|eapply IH; eauto]. Qed.

(** ** Length *)
Definition sized (h : hdr) : Prop :=
  match h with HRoute _ | HFrag _ | HHop _ | HDest _ | HRip _ => False | _ => True end.
Lemma zlen_pack f vs b : pack f vs = Ok b -> zlen b = Z.of_nat (calcsize f).
Proof. intros H. unfold zlen. rewrite (pack_length _ _ _ H). reflexivity. Qed.
Lemma ip_to_bytes_len h b : ip_to_bytes h = Ok b -> ip_size h = Ok (zlen b).
Proof. unfold ip_to_bytes, ip_checksum, ip_size. intros H. destruct (opts_to_bytes (ip_opts h)) as [ob|]; cbn [bindr] in *; [|discriminate].
  ok_step H. ok_step H. apply ok_inj in H. subst. f_equal. rewrite zlen_app. apply zlen_pack in E0. rewrite E0. reflexivity. Qed.
Lemma icmp_pack_len m c b : icmp_pack m c = Ok b -> icmp_size m = Ok (zlen b).
Proof. unfold icmp_pack, icmp_size. intros H. ok_step H. destruct (data_to_bytes _) as [d|]; [|discriminate]. cbn [bindr] in *.
  apply ok_inj in H. subst. rewrite zlen_app. apply zlen_pack in E. rewrite E. reflexivity. Qed.
Lemma hdr_len_ok raw p h h1 b : sized h -> pre_ser raw p h = Ok h1 -> hdr_bytes h1 = Ok b ->
  hdr_len h = Ok (zlen b) /\ hdr_len (hdr_after h1) = Ok (zlen b).
Proof. intros Hs H Hb. destruct h; cbn [sized] in Hs; try contradiction; cbn [pre_ser] in H; try (ok_step H); try discriminate; apply ok_inj in H; subst h1;
    cbn [hdr_after hdr_bytes hdr_len] in *;
    try (apply zlen_pack in Hb; rewrite Hb; split; reflexivity).
  - apply ip_to_bytes_len in Hb. unfold ip_pre_serialize in E. ok_step E. apply ok_inj in E. subst a.
    unfold ip_size in *. cbn [ip_with_totlen ip_opts] in Hb. rewrite <- E0, Hb. split; [reflexivity|]. cbn [ip_with_totlen ip_opts]. exact Hb.
  - unfold icmp_to_bytes in Hb. ok_step Hb. apply icmp_pack_len in Hb. rewrite Hb. split; [reflexivity|].
    unfold icmp_serialised. rewrite E. exact Hb.
  - apply icmp_pack_len in Hb. unfold icmp6_pre_serialize in E. destruct (first_ip6 p); [|discriminate]. ok_step E. apply ok_inj in E. subst a.
    split; [exact Hb|exact Hb].
  - unfold null_to_bytes in Hb. ok_step Hb. apply ok_inj in Hb. subst b. apply zlen_pack in E. unfold zlen in *. rewrite rev_length, E. split; reflexivity.
  - apply ok_inj in Hb. subst. split; reflexivity.
  - apply ok_inj in Hb. subst. split; reflexivity. Qed.
Lemma pkt_len_ok hs : Forall sized hs -> forall pre hs' b, ser pre hs = Ok (hs', b) ->
  pkt_len hs = Ok (zlen b) /\ pkt_len hs' = Ok (zlen b).
Proof. induction 1 as [|h hs Hh _ IH]; intros pre hs' b H; cbn [ser] in H.
  - apply ok_pair_inj in H as [<- <-]. split; reflexivity.
  - ok_step H. destruct a as [t' raw]. ok_step H. ok_step H. apply ok_pair_inj in H as [<- <-].
    destruct (IH _ _ _ E) as [I1 I2]. destruct (hdr_len_ok _ _ _ _ _ Hh E0 E1) as [L1 L2].
    cbn [pkt_len]. rewrite I1, I2, L1, L2, zlen_app. split; reflexivity. Qed.
