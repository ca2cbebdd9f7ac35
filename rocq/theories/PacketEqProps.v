(** C66: comparing packets is symmetric and transitive. *)
From Verif Require Import BaseLemmas CodecLemmas Enums EthModel ArpModel EthProofs ChecksumModel Ipv4Model TransportModel Ipv6Model
  IcmpModel IcmpProofs RipModel PacketModel PacketProofs PacketMore PacketProps.

(** ICMP and ICMPv6 headers hold data of the kind their type calls for (C18 shows that assignments keep it so). *)
Definition icmp_sane (h : hdr) : Prop :=
  match h with HIcmp m => kind false (ic_type m) (ic_data m) | HIcmp6 m => kind true (ic_type m) (ic_data m) | _ => True end.

Ltac kinds H := cbn [kind kind4 kind6] in H; try contradiction H.
Lemma data_sym v6 t a b : kind v6 t a -> kind v6 t b -> data_eqb a b = data_eqb b a.
Proof.
  intros Ka Kb.
  destruct v6, a as [[c|c| |] x|x|g x|[|] odl mtu x|[|] [|] i s x|odl x|[|] i s m x|os|hl m o h p lt re rt os|tg os|r s o tg os|tg de os]; kinds Ka;
  destruct b as [[c'|c'| |] x'|x'|g' x'|[|] odl' mtu' x'|[|] [|] i' s' x'|odl' x'|[|] i' s' m' x'|os'|hl' m' o' h' p' lt' re' rt' os'|tg' os'|r' s' o' tg' os'|tg' de' os'];
  kinds Kb; cbn [data_eqb data_payload];
  try (f_equal; apply bytes_eqb_sym);
  try (f_equal; rewrite (bytes_eqb_sym x'), (Z.eqb_sym i'), (Z.eqb_sym s'); reflexivity);
  exfalso; cbn [In] in Ka, Kb; intuition lia.
Qed.
Lemma data_trans v6 t a b c : kind v6 t a -> kind v6 t b -> kind v6 t c -> data_eqb a b = Ok true -> data_eqb b c = Ok true -> data_eqb a c = Ok true.
Proof.
  intros Ka Kb Kc.
  destruct v6, a as [[k|k| |] x|x|g x|[|] odl mtu x|[|] [|] i s x|odl x|[|] i s m x|os|hl m o h p lt re rt os|tg os|r s o tg os|tg de os]; kinds Ka;
  destruct b as [[k'|k'| |] x'|x'|g' x'|[|] odl' mtu' x'|[|] [|] i' s' x'|odl' x'|[|] i' s' m' x'|os'|hl' m' o' h' p' lt' re' rt' os'|tg' os'|r' s' o' tg' os'|tg' de' os'];
  kinds Kb; try (exfalso; cbn [In] in Ka, Kb; intuition lia; fail);
  destruct c as [[k''|k''| |] x''|x''|g'' x''|[|] odl'' mtu'' x''|[|] [|] i'' s'' x''|odl'' x''|[|] i'' s'' m'' x''|os''|hl'' m'' o'' h'' p'' lt'' re'' rt'' os''|tg'' os''|r'' s'' o'' tg'' os''|tg'' de'' os''];
  kinds Kc; try (exfalso; cbn [In] in Ka, Kb, Kc; intuition lia; fail); cbn [data_eqb data_payload]; intros H K;
  apply ok_inj in H; apply ok_inj in K; f_equal;
  try (apply bytes_eqb_eq in H; apply bytes_eqb_eq in K; subst; apply bytes_eqb_refl);
  apply andb_prop in H as [H H3]; apply andb_prop in H as [H1 H2]; apply andb_prop in K as [K K3]; apply andb_prop in K as [K1 K2];
  apply bytes_eqb_eq in H3; apply bytes_eqb_eq in K3; apply Z.eqb_eq in H1, H2, K1, K2; subst; rewrite !Z.eqb_refl, bytes_eqb_refl; reflexivity.
Qed.
Lemma icmp_sym v6 a b : kind v6 (ic_type a) (ic_data a) -> kind v6 (ic_type b) (ic_data b) -> icmp_eqb a b = icmp_eqb b a.
Proof.
  intros Ka Kb. unfold icmp_eqb. rewrite (Z.eqb_sym (ic_type b)), (Z.eqb_sym (ic_code b)).
  destruct (Z.eqb_spec (ic_type a) (ic_type b)) as [E|]; [|reflexivity]. cbn [negb].
  destruct (ic_code a =? ic_code b); [|reflexivity]. cbn [negb]. apply (data_sym v6 (ic_type a)); [exact Ka|]. rewrite E. exact Kb.
Qed.
Lemma icmp_trans v6 a b c : kind v6 (ic_type a) (ic_data a) -> kind v6 (ic_type b) (ic_data b) -> kind v6 (ic_type c) (ic_data c) ->
  icmp_eqb a b = Ok true -> icmp_eqb b c = Ok true -> icmp_eqb a c = Ok true.
Proof.
  intros Ka Kb Kc. unfold icmp_eqb.
  destruct (Z.eqb_spec (ic_type a) (ic_type b)) as [E1|]; [|discriminate]. destruct (Z.eqb_spec (ic_code a) (ic_code b)) as [E2|]; [|discriminate].
  destruct (Z.eqb_spec (ic_type b) (ic_type c)) as [F1|]; [|discriminate]. destruct (Z.eqb_spec (ic_code b) (ic_code c)) as [F2|]; [|discriminate].
  rewrite E1, E2, F1, F2, !Z.eqb_refl. cbn [negb]. apply (data_trans v6 (ic_type c)); congruence.
Qed.
Lemma hdr_sym a b : icmp_sane a -> icmp_sane b -> class_of a = class_of b -> hdr_eqb a b = Ok true -> hdr_eqb b a = Ok true.
Proof.
  intros Sa Sb C H. destruct a; try (apply hdr_eqb_sym; [exact I|exact C|exact H]); destruct b; try discriminate C; cbn [icmp_sane hdr_eqb] in *.
  - rewrite <- H. symmetry. now apply (icmp_sym false).
  - rewrite <- H. symmetry. now apply (icmp_sym true).
Qed.
Lemma beq_trans a b c : bytes_eqb a b = true -> bytes_eqb b c = true -> bytes_eqb a c = true.
Proof. intros H K. apply bytes_eqb_eq in H, K. subst. apply bytes_eqb_refl. Qed.
Lemma zeq_trans a b c : (a =? b) = true -> (b =? c) = true -> (a =? c) = true.
Proof. lia. Qed.
Lemma hdr_trans a b c : icmp_sane a -> icmp_sane b -> icmp_sane c -> class_of a = class_of b -> class_of b = class_of c ->
  hdr_eqb a b = Ok true -> hdr_eqb b c = Ok true -> hdr_eqb a c = Ok true.
Proof.
  intros Sa Sb Sc C1 C2 H K. destruct a, b; try discriminate C1; destruct c; try discriminate C2; cbn [icmp_sane hdr_eqb] in *;
    try reflexivity;
    try (apply bytes_cmp_true in H as (x & H1 & H2); apply bytes_cmp_true in K as (y & K1 & K2); apply (bytes_cmp_intro _ _ x); [assumption|congruence]);
    try exact (icmp_trans false _ _ _ Sa Sb Sc H K); try exact (icmp_trans true _ _ _ Sa Sb Sc H K);
    apply ok_inj in H; apply ok_inj in K; f_equal;
    try (eapply beq_trans; eassumption); try (eapply zeq_trans; eassumption);
    unfold eth_eqb, vlan_eqb, arp_eqb, ip_eqb, ip6_eqb, udp_eqb, tcp_eqb in *;
    split_eqb H; split_eqb K; repeat (apply andb_true_intro; split);
    try (eapply beq_trans; eassumption); try (eapply zeq_trans; eassumption).
Qed.

(** C66.  Packets with the same header classes, their ICMP data being of the kind of the ICMP type: symmetric. *)
Theorem C66_equality_symmetric_partial :
  forall p q, Forall icmp_sane p -> Forall icmp_sane q -> map class_of p = map class_of q ->
  pkt_eqb p q = Ok true -> pkt_eqb q p = Ok true.
Proof.
  intros p q F G C. unfold pkt_eqb. rewrite (Nat.eqb_sym (length q)). destruct (Nat.eqb (length p) (length q)); [|discriminate].
  revert q G C. induction F as [|x p Hx Hp IH]; intros [|y q] G C H; try discriminate C; [reflexivity|].
  apply Forall_cons_iff in G as [Hy G].
  cbn [map] in C. apply cons_inj in C as [C1 C2]. cbn [pkt_eqb_same] in *. rewrite isinst_same in * by auto.
  ok_step H. destruct a; [|discriminate]. rewrite (hdr_sym _ _ Hx Hy C1 E). cbn [bindr]. apply IH; auto.
Qed.
Print Assumptions C66_equality_symmetric_partial.
(** And transitive. *)
Theorem C66_equality_transitive_partial :
  forall p q r, Forall icmp_sane p -> Forall icmp_sane q -> Forall icmp_sane r -> map class_of p = map class_of q -> map class_of q = map class_of r ->
  pkt_eqb p q = Ok true -> pkt_eqb q r = Ok true -> pkt_eqb p r = Ok true.
Proof.
  intros p q r Fp Fq Fr C D. unfold pkt_eqb.
  destruct (Nat.eqb_spec (length p) (length q)) as [L1|]; [|discriminate]. destruct (Nat.eqb_spec (length q) (length r)) as [L2|]; [|discriminate].
  rewrite L1, L2, Nat.eqb_refl. clear L1 L2.
  revert q r Fq Fr C D. induction Fp as [|x p Hx Hp IH]; intros [|y q] [|z r] Fq Fr C D H K; try discriminate C; try discriminate D; [reflexivity|].
  apply Forall_cons_iff in Fq as [Hy Fq]. apply Forall_cons_iff in Fr as [Hz Fr].
  cbn [map] in C, D. apply cons_inj in C as [C1 C2]. apply cons_inj in D as [D1 D2]. cbn [pkt_eqb_same] in *.
  rewrite isinst_same in H by auto. rewrite isinst_same in K by auto. rewrite isinst_same by congruence.
  ok_step H. destruct a; [|discriminate]. ok_step K. destruct a; [|discriminate]. rewrite (hdr_trans _ _ _ Hx Hy Hz C1 D1 E E0). cbn [bindr]. apply (IH q r); auto.
Qed.
Print Assumptions C66_equality_transitive_partial.
Example C66_icmp_ex : Forall icmp_sane [HEth xe; HIp4 (xip 1); HIcmp xicmp] /\ pkt_eqb [HEth xe; HIp4 (xip 1); HIcmp xicmp] [HEth xe; HIp4 (xip 1); HIcmp xicmp] = Ok true /\
  pkt_eqb [HIcmp xicmp] [HIcmp (mkIcmp 8 0 (DEcho false false 1 2 [9; 9]) 77)] = Ok true.
Proof. split; [repeat constructor|]. split; reflexivity. Qed.
(** ICMP data of another kind, which a header keeps after refusing it (C18): the comparison succeeds one way and raises
    the other way. *)
Theorem C66_icmp_refuted :
  exists d m, icmp_step false (OpData (DObj d)) (icmp_new false) = (m, Some EValue) /\
  pkt_eqb [HIcmp m] [HIcmp (icmp_new false)] = Ok true /\ pkt_eqb [HIcmp (icmp_new false)] [HIcmp m] = Err EAttr.
Proof. exists (DPlain (K6 130) []), (with_data (DPlain (K6 130) []) (icmp_new false)). repeat split. Qed.
Print Assumptions C66_icmp_refuted.
