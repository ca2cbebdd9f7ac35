(** Exact matching and the bytes that are sent. *)
From Verif Require Import BaseLemmas CodecLemmas Dict DictLemmas EthAddrModel Enums EthModel ArpModel Ipv4Model Ipv4Proofs TransportModel Ipv6Model IcmpModel
  IcmpProofs IcmpCodecProofs RipModel PacketModel PacketSpec PacketProofs PacketParse NetModel TestModel TestSpec TestMatch.
#[local] Open Scope string_scope.
#[local] Open Scope Z_scope.
#[local] Open Scope list_scope.

Lemma on_nil c n P : on [] c n P <-> P.
Proof. unfold on. cbn [In]. tauto. Qed.
Lemma exact_ctx r h : exact_same [] r h -> ctx r = ctx h.
Proof. destruct r, h; cbn [exact_same class_of]; intros H; try contradiction; try reflexivity; repeat rewrite on_nil in H; unfold ctx, sig, kindof.
  - destruct H as (-> & -> & -> & _). reflexivity.
  - destruct H as (-> & -> & _). reflexivity. Qed.
Lemma same_option_eq a b : Forall no_timestamp a -> Forall2 same_option a b -> a = b.
Proof. intros F H. revert F. induction H as [|x y a b Hx Ht IH]; intros F; [reflexivity|]. inversion F as [|? ? Fx Ft]; subst.
  destruct Hx; [f_equal; auto|contradiction Fx]. Qed.
Lemma echo_same a b : echo_body a -> echo_body b -> same_body a b -> data_to_bytes a = data_to_bytes b.
Proof. destruct a, b; cbn [echo_body]; try contradiction. intros _ _ (-> & -> & ->). reflexivity. Qed.
Lemma icmp_data_same (a b : icmpdata) : (echo_body a /\ echo_body b) \/ a = b -> same_body a b -> data_to_bytes a = data_to_bytes b.
Proof. intros [[E1 E2]| ->] S; [apply echo_same; assumption|reflexivity]. Qed.
Lemma header_bytes raw pk a b a1 b1 : pre_ser raw pk a = Ok a1 -> pre_ser raw pk b = Ok b1 -> exact_same [] (hdr_after a1) (hdr_after b1) -> hidden_same a b ->
  hdr_bytes a1 = hdr_bytes b1.
Proof. intros Pa Pb X Hd. destruct (pre_ser_keeps _ _ _ _ Pa) as [_ Ka]. destruct (pre_ser_keeps _ _ _ _ Pb) as [_ Kb].
  assert (Cl : class_of (hdr_after a1) = class_of (hdr_after b1)) by (destruct (hdr_after a1), (hdr_after b1); cbn [exact_same class_of] in X; try contradiction; reflexivity).
  rewrite Ka, Kb in Cl. clear Ka Kb.
  destruct a as [a|a|a|a|a|a|a|a|a|a|a|a|a|a|a| |a|a], b as [b|b|b|b|b|b|b|b|b|b|b|b|b|b|b| |b|b]; cbn [class_of] in Cl; try discriminate Cl; clear Cl; cbn [pre_ser hidden_same] in *;
    try (apply ok_inj in Pa; apply ok_inj in Pb; subst a1 b1; cbn [hdr_after exact_same class_of hdr_bytes] in *).
  - repeat rewrite on_nil in X. destruct X as (X1 & X2 & X3). destruct a, b. cbn in X1, X2, X3. subst. reflexivity.
  - repeat rewrite on_nil in X. destruct X as (X1 & X2 & X3). destruct a, b. cbn in X1, X2, X3. subst. reflexivity.
  - repeat rewrite on_nil in X. destruct X as (X1 & X2 & X3 & X4 & X5 & X6 & X7), Hd as [D1 D2]. destruct a, b. cbn in X1, X2, X3, X4, X5, X6, X7, D1, D2. subst. reflexivity.
  - ok_step Pa. ok_step Pb. apply ok_inj in Pa; apply ok_inj in Pb; subst. unfold ip_pre_serialize in E, E0. ok_step E. ok_step E0. apply ok_inj in E; apply ok_inj in E0; subst.
    cbn [hdr_after exact_same class_of] in X. repeat rewrite on_nil in X.
    destruct X as (X1 & X2 & X3 & X4 & X5 & X6 & X7 & X8 & X9 & X10 & X11 & X12 & X13).
    destruct a as [f1 f2 f3 f4 f5 f6 f7 f8 f9 f10], b as [g1 g2 g3 g4 g5 g6 g7 g8 g9 g10].
    cbn [ip_with_totlen ip_src ip_dst ip_proto ip_ttl ip_id ip_flags ip_frag ip_tos ip_totlen ip_opts] in *. clear X9 X10 X13.
    assert (f10 = g10) by (destruct Hd as [Hd| ->]; [apply same_option_eq; assumption|reflexivity]). subst. rewrite X11. reflexivity.
  - repeat rewrite on_nil in X. destruct X as (X1 & X2 & X3 & X4 & X5 & X6 & X7).
    destruct a as [f1 f2 f3 f4 f5 f6 f7], b as [g1 g2 g3 g4 g5 g6 g7]. cbn in X1, X2, X3, X4, X5, X6, X7. cbn. subst. reflexivity.
  - repeat rewrite on_nil in X. destruct X as (X1 & X2 & X3), Hd as (D1 & D2 & D3). destruct a, b. cbn in X1, X2, X3, D1, D2, D3. subst. reflexivity.
  - repeat rewrite on_nil in X. destruct X as (X1 & X2 & X3 & X4 & X5). destruct a, b. cbn in X1, X2, X3, X4, X5, Hd. subst. reflexivity.
  - repeat rewrite on_nil in X. destruct X as (X1 & X2). assert (ho_nh a = ho_nh b).
    { unfold hop_serialised in X1. destruct (v6opts_to_bytes (ho_opts a)), (v6opts_to_bytes (ho_opts b)); exact X1. }
    destruct a as [n d o], b as [n' d' o']. cbn in H, Hd. subst. apply hop_bytes_same.
  - repeat rewrite on_nil in X. destruct X as (X1 & X2). assert (ho_nh a = ho_nh b).
    { unfold hop_serialised in X1. destruct (v6opts_to_bytes (ho_opts a)), (v6opts_to_bytes (ho_opts b)); exact X1. }
    destruct a as [n d o], b as [n' d' o']. cbn in H, Hd. subst. apply hop_bytes_same.
  - ok_step Pa. ok_step Pb. apply ok_inj in Pa; apply ok_inj in Pb; subst. cbn [hdr_after exact_same class_of hdr_bytes] in *. repeat rewrite on_nil in X. destruct X as (X1 & X2 & X3).
    apply (f_equal (A := _)). unfold udp_pre_serialize in E, E0. ok_step E. ok_step E0. apply ok_inj in E; apply ok_inj in E0; subst. cbn [udp_src udp_dst udp_len] in X1, X2, X3.
    f_equal; auto. clear X3. unfold udp_checksum in *. rewrite X1, X2 in E1. unfold udp_size in *. rewrite E1 in E2. apply ok_inj in E2. exact E2.
  - ok_step Pa. ok_step Pb. apply ok_inj in Pa; apply ok_inj in Pb; subst. cbn [hdr_after exact_same class_of hdr_bytes] in *. repeat rewrite on_nil in X.
    destruct X as (X1 & X2 & X3 & X4 & X5 & X6 & X7 & _).
    apply (f_equal (A := _)). unfold tcp_pre_serialize in E, E0. ok_step E. ok_step E0. apply ok_inj in E; apply ok_inj in E0; subst.
    cbn [tcp_src tcp_dst tcp_seq tcp_ack tcp_flags tcp_window tcp_urg] in *.
    f_equal; auto. unfold tcp_checksum, tcp_make_header in *. rewrite X1, X2, X3, X4, X5, X6, X7 in E1. unfold tcp_size, tcp_offset in *. congruence.
  - repeat rewrite on_nil in X. assert (Y : ic_type a = ic_type b /\ ic_code a = ic_code b /\ same_body (ic_data a) (ic_data b)).
    { unfold icmp_serialised in X. destruct (icmp_pack a 0), (icmp_pack b 0); exact X. }
    destruct Y as (Y1 & Y2 & Y3). apply (icmp_data_same _ _ Hd) in Y3. unfold icmp_to_bytes, icmp_pack. rewrite Y1, Y2, Y3. reflexivity.
  - ok_step Pa. ok_step Pb. apply ok_inj in Pa; apply ok_inj in Pb; subst. cbn [hdr_after exact_same class_of hdr_bytes] in *. repeat rewrite on_nil in X.
    unfold icmp6_pre_serialize in E, E0. destruct (first_ip6 pk); [|discriminate]. ok_step E. ok_step E0. apply ok_inj in E; apply ok_inj in E0; subst.
    cbn [ic_type ic_code ic_data] in X. destruct X as (Y1 & _ & Y2 & _ & Y3). apply (icmp_data_same _ _ Hd) in Y3.
    unfold icmp6_checksum in *. unfold icmp6_to_bytes, icmp_pack. cbn [ic_type ic_code ic_data ic_csum]. rewrite Y1, Y2, Y3 in *. congruence.
  - rewrite on_nil in X. destruct a, b. cbn in X, Hd. subst. reflexivity.
  - rewrite on_nil in X. subst. reflexivity.
  - reflexivity.
  - rewrite on_nil in X. subst. reflexivity.
  - discriminate Pa. Qed.
Lemma ser_bytes r : forall p pre pre2 r' p' rb pb, map ctx pre = map ctx pre2 -> ser pre r = Ok (r', rb) -> ser pre2 p = Ok (p', pb) ->
  Forall2 (exact_same []) r' p' -> Forall2 hidden_same r p -> rb = pb.
Proof. induction r as [|x r IH]; intros [|y p] pre pre2 r' p' rb pb Hc Hr Hp X Hd; try (inversion Hd; fail).
  - apply ok_pair_inj in Hr as [_ <-]. apply ok_pair_inj in Hp as [_ <-]. reflexivity.
  - cbn [ser] in Hr, Hp. ok_step Hr. destruct a as [rt rraw]. ok_step Hr. ok_step Hr. apply ok_pair_inj in Hr as [<- <-].
    ok_step Hp. destruct a1 as [pt praw]. ok_step Hp. ok_step Hp. apply ok_pair_inj in Hp as [<- <-].
    inversion X as [|? ? ? ? X1 X2]; subst. inversion Hd as [|? ? ? ? D1 D2]; subst.
    assert (Cxy : ctx x = ctx y).
    { destruct (pre_ser_keeps _ _ _ _ E0) as [<- _]. destruct (pre_ser_keeps _ _ _ _ E3) as [<- _]. apply exact_ctx. exact X1. }
    assert (Ct : map ctx rt = map ctx pt) by (clear -X2; induction X2; cbn [map]; [reflexivity|f_equal; [apply exact_ctx|]; auto]).
    assert (Er : rraw = praw). { refine (IH p (pre ++ [x]) (pre2 ++ [y]) rt pt rraw praw _ E E2 X2 D2). rewrite !map_app. cbn [map]. congruence. }
    subst praw. rewrite (pre_ser_ctx rraw (pre2 ++ y :: pt) (pre ++ x :: rt)) in E3 by (rewrite !map_app; cbn [map]; congruence).
    pose proof (header_bytes _ _ _ _ _ _ E0 E3 X1 D1) as B. rewrite E1, E4 in B. apply ok_inj in B. congruence. Qed.
(** A packet accepted by an exact match without wildcards sends the bytes of the reference packet. *)
Theorem match_same_bytes ref preds p p' r' rb : m_match (mkM ref true [] preds) p = Ok (true, p') -> pkt_to_bytes ref = Ok (r', rb) -> Forall2 hidden_same ref p ->
  pkt_to_bytes p = Ok (p', rb).
Proof. intros H Hr Hd. apply exact_match_iff in H as [(b & r2 & rb2 & H1 & H2 & H3) _]. assert (r2 = r' /\ rb2 = rb) as [-> ->] by (split; congruence).
  rewrite H1. do 2 f_equal. symmetry. exact (ser_bytes ref p [] [] r' p' rb b eq_refl Hr H1 H3 Hd). Qed.

(** ** Packets with the same bytes *)
Lemma no_end_eq a : forall b j k, ~ ends_in_end a -> ~ ends_in_end b -> a ++ repeat OEnd j = b ++ repeat OEnd k -> a = b.
Proof. assert (K : forall a b j d, ~ ends_in_end a -> a ++ repeat OEnd j = b ++ repeat OEnd (j + d) -> d = 0%nat \/ ends_in_end a).
  { clear. intros a b j d Ha E. destruct d as [|d]; [left; reflexivity|right]. exists (b ++ repeat OEnd d).
    replace (j + S d)%nat with ((d + 1) + j)%nat in E by lia. rewrite !repeat_app, app_assoc in E. apply app_inv_tail in E. cbn [repeat] in E. rewrite app_assoc in E. exact E. }
  intros b j k Ha Hb E. destruct (Nat.le_ge_cases j k) as [L|L].
  - assert (exists d, k = (j + d)%nat) as [d ->] by (exists (k - j)%nat; lia). destruct (K a b j d Ha E) as [-> |C]; [|contradiction]. rewrite Nat.add_0_r in E. apply app_inv_tail in E. exact E.
  - assert (exists d, j = (k + d)%nat) as [d ->] by (exists (j - k)%nat; lia). destruct (K b a k d Hb (eq_sym E)) as [-> |C]; [|contradiction]. rewrite Nat.add_0_r in E. apply app_inv_tail in E. exact E. Qed.
Lemma same_option_refl l : Forall2 same_option l l.
Proof. induction l; constructor; auto. constructor. Qed.
Lemma same_body_refl d : same_body d d.
Proof. destruct d as [c x| | | | | | | | | | |]; [destruct c|..]; cbn [same_body]; auto. Qed.
Definition sizes_ok (h : hdr) : Prop := match h with HIp4 x => exists n, ip_size x = Ok n | _ => True end.
Lemma exact_refl h : sizes_ok h -> exact_same [] h h.
Proof. intros S. destruct h; cbn [exact_same class_of]; repeat rewrite on_nil; try (repeat split; auto using same_body_refl; fail).
  destruct S as [n S]. repeat split; [apply same_option_refl|]. exists n, n. auto. Qed.
Lemma read_same a b q : sizes_ok a -> sizes_ok b -> canonical a -> canonical b -> read_as a q -> read_as b q -> exact_same [] a b.
Proof. intros Sa Sb Ca Cb Ra Rb. assert (D : q = a -> q = b -> exact_same [] a b) by (intros -> ->; apply exact_refl; assumption).
  destruct a as [a|a|a|a|a|a|a|a|a|a|a|a|a|a|a| |a|a], q as [q|q|q|q|q|q|q|q|q|q|q|q|q|q|q| |q|q]; cbn [read_as] in Ra; try discriminate Ra;
  destruct b as [b|b|b|b|b|b|b|b|b|b|b|b|b|b|b| |b|b]; cbn [read_as] in Rb; try discriminate Rb; try (apply D; assumption); clear D.
  - destruct Ra as (j & _ & _ & Ra), Rb as (k & _ & _ & Rb). rewrite Ra in Rb. injection Rb as E1 E2 E3 E4 E5 E6 E7 E8 E9 E10. apply no_end_eq in E10; [|exact Ca|exact Cb].
    destruct a as [f1 f2 f3 f4 f5 f6 f7 f8 f9 f10], b as [g1 g2 g3 g4 g5 g6 g7 g8 g9 g10].
    cbn [ip_src ip_dst ip_proto ip_ttl ip_id ip_flags ip_frag ip_tos ip_totlen ip_opts] in *. subst. apply exact_refl. exact Sa.
  - rewrite Ra in Rb. injection Rb as E1 E2 E3 E4 E5 E6 E7. cbn [exact_same class_of]. repeat rewrite on_nil. rewrite E1, E2, E3, E4, E5, E6, E7. repeat split.
  - rewrite Ra in Rb. injection Rb as E1 E2 E3. cbn [canonical] in Ca, Cb. rewrite Ca, Cb in E3. cbn [exact_same class_of]. repeat rewrite on_nil. rewrite E3. auto using same_body_refl.
  - rewrite Ra in Rb. injection Rb as E1 E2 E3. cbn [canonical] in Ca, Cb. rewrite Ca, Cb in E3. cbn [exact_same class_of]. repeat rewrite on_nil. rewrite E3. auto using same_body_refl. Qed.
Lemma pre_ser_canonical raw pk h h1 : pre_ser raw pk h = Ok h1 -> (canonical h -> canonical (hdr_after h1)) /\ sizes_ok (hdr_after h1).
Proof. intros H. destruct h; cbn [pre_ser] in H; try discriminate H; try (apply ok_inj in H; subst h1; cbn [hdr_after]; split; [solve [auto]|exact I]).
  - ok_step H. apply ok_inj in H. subst. unfold ip_pre_serialize in E. ok_step E. apply ok_inj in E. subst. split; [auto|]. exists a0. exact E0.
  - ok_step H. apply ok_inj in H. subst. split; [auto|exact I].
  - ok_step H. apply ok_inj in H. subst. split; [auto|exact I].
  - apply ok_inj in H. subst h1. cbn [hdr_after]. unfold icmp_serialised. destruct (icmp_pack h 0); split; auto; exact I.
  - ok_step H. apply ok_inj in H. subst. unfold icmp6_pre_serialize in E. destruct (first_ip6 pk); [|discriminate]. ok_step E. apply ok_inj in E. subst. split; [auto|exact I]. Qed.
Lemma ser_canonical hs : forall pre hs' b, ser pre hs = Ok (hs', b) -> (Forall canonical hs -> Forall canonical hs') /\ Forall sizes_ok hs'.
Proof. induction hs as [|h hs IH]; intros pre hs' b H; [apply ok_pair_inj in H as [<- <-]; auto|].
  cbn [ser] in H. ok_step H. destruct a as [t' raw]. ok_step H. ok_step H. apply ok_pair_inj in H as [<- <-].
  destruct (IH _ _ _ E) as [I1 I2]. destruct (pre_ser_canonical _ _ _ _ E0) as [J1 J2]. split; [intros F; inversion F; subst|]; constructor; auto. Qed.
(** A packet that sends the bytes of the reference packet is accepted. *)
Theorem same_bytes_match ref p r' p' b : chained ref -> chained p -> Forall wf_hdr ref -> Forall wf_hdr p -> Forall canonical ref -> Forall canonical p ->
  first_cls ref = first_cls p -> pkt_to_bytes ref = Ok (r', b) -> pkt_to_bytes p = Ok (p', b) ->
  m_match (mkM ref true [] []) p = Ok (true, p').
Proof. intros C1 C2 W1 W2 K1 K2 F Hr Hp. apply exact_match_iff. split; [|constructor]. exists b, r', b. split; [exact Hp|]. split; [exact Hr|].
  destruct ref as [|x r]; [contradiction|]. destruct p as [|y p]; [contradiction|].
  destruct (packet_round_trip _ _ _ _ C1 W1 Hr) as (q1 & Q1 & R1). destruct (packet_round_trip _ _ _ _ C2 W2 Hp) as (q2 & Q2 & R2).
  cbn [first_cls] in F. rewrite F, Q2 in Q1. apply ok_inj in Q1. subst q2.
  destruct (ser_canonical _ _ _ _ Hr) as [N1 S1]. destruct (ser_canonical _ _ _ _ Hp) as [N2 S2]. specialize (N1 K1). specialize (N2 K2).
  clear -R1 R2 N1 N2 S1 S2. revert p' R2 N2 S2. induction R1 as [|a q r' qs H Ht IH]; intros p' R2 N2 S2; inversion R2; subst; [constructor|].
  inversion N1; inversion N2; inversion S1; inversion S2; subst. constructor; [eapply read_same; eauto|apply IH; auto]. Qed.
