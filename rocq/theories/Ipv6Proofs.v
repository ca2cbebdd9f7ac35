(** Proofs about the IPv6 fixed header. *)
From Verif Require Import BaseLemmas CodecLemmas Enums Ipv6Model.

Definition wf_ip6 (h : ipv6) : Prop :=
  0 <= v6_tc h < 256 /\ 0 <= v6_flow h < 2 ^ 20 /\ 0 <= v6_ttl h < 256 /\ In (v6_nh h) IPProtocols /\
  length (v6_src h) = 16%nat /\ length (v6_dst h) = 16%nat /\ wfb (v6_src h) /\ wfb (v6_dst h).

(** RFC 2460 section 3: version 6, traffic class, flow label in the first 32 bits, then payload length,
    next header, hop limit, addresses. *)
Definition ip6_layout (tc flow plen nh ttl : Z) (src dst : bytes) : bytes :=
  be 4 (6 * 2 ^ 28 + tc * 2 ^ 20 + flow) ++ be 2 plen ++ [nh; ttl] ++ src ++ dst.

Lemma byte0 tc : 0 <= tc < 256 -> Z.lor (Z.shiftl 6 4) (Z.shiftr tc 4) = 96 + tc / 16.
Proof. intros H. rewrite Z.shiftr_div_pow2 by lia. change (2 ^ 4) with 16.
  rewrite lor_add_disjoint by (change (2 ^ 4) with 16; lia). reflexivity. Qed.
Lemma byte1 tc fl : 0 <= fl < 2 ^ 20 ->
  Z.lor (Z.shiftl (Z.land tc 15) 4) (Z.shiftr (Z.land fl 0xf0000) 16) = tc mod 16 * 16 + fl / 65536.
Proof. intros H. change (2 ^ 20) with 1048576 in H. rewrite Z.shiftr_land. change (Z.shiftr 0xf0000 16) with (2 ^ 4 - 1).
  change 15 with (2 ^ 4 - 1). rewrite !land_ones_mod by lia. rewrite Z.shiftr_div_pow2 by lia.
  change (2 ^ 16) with 65536. change (2 ^ 4) with 16.
  rewrite lor_add_disjoint by (change (2 ^ 4) with 16; lia). change (2 ^ 4) with 16. lia. Qed.
Lemma word1 fl : Z.land fl 0xffff = fl mod 65536.
Proof. change 0xffff with (2 ^ 16 - 1). rewrite land_ones_mod by lia. reflexivity. Qed.

Lemma first_word tc fl : 0 <= tc < 256 -> 0 <= fl < 2 ^ 20 ->
  be 1 (96 + tc / 16) ++ be 1 (tc mod 16 * 16 + fl / 65536) ++ be 2 (fl mod 65536) = be 4 (6 * 2 ^ 28 + tc * 2 ^ 20 + fl).
Proof. intros H1 H2. change (2 ^ 20) with 1048576 in *. change (2 ^ 28) with 268435456.
  rewrite !be1 by lia. rewrite be2 by lia. unfold be. cbn [app].
  change (256 ^ Z.of_nat 3) with 16777216. change (256 ^ Z.of_nat 2) with 65536. change (256 ^ Z.of_nat 1) with 256.
  change (256 ^ Z.of_nat 0) with 1. f_equal; [|f_equal; [|f_equal; [|f_equal]]]; lia. Qed.

Lemma ip6_bytes h : wf_ip6 h -> 0 <= v6_plen h < 65536 ->
  ip6_to_bytes h = Ok (ip6_layout (v6_tc h) (v6_flow h) (v6_plen h) (v6_nh h) (v6_ttl h) (v6_src h) (v6_dst h)).
Proof. intros (Ht & Hf & Hl & Hn & Hs & Hd & _) Hp. apply proto_range in Hn. unfold ip6_to_bytes, ip6_fmt, ip6_layout.
  rewrite byte0, byte1, word1 by auto. rewrite <- first_word by auto. change (2 ^ 20) with 1048576 in *.
  rewrite !pack_cons_int by (pow256; lia). rewrite !pack_cons_s by auto. rewrite pack_nil. cbn [bindr].
  rewrite (be1 (v6_nh h)), (be1 (v6_ttl h)) by auto. rewrite app_nil_r. rewrite <- ?app_assoc. reflexivity. Qed.

Lemma ip6_layout_length tc fl p n t s d : length s = 16%nat -> length d = 16%nat ->
  length (ip6_layout tc fl p n t s d) = 40%nat.
Proof. intros Hs Hd. unfold ip6_layout. rewrite !app_length, !be_length, Hs, Hd. reflexivity. Qed.

Lemma v6addr_ok b : length b = 16%nat -> v6addr_of b = Ok b.
Proof. intros H. unfold v6addr_of. rewrite H. reflexivity. Qed.

Lemma ip6_parse h t : wf_ip6 h -> 0 <= v6_plen h < 65536 -> forall b, ip6_to_bytes h = Ok b ->
  ip6_from_bytes (b ++ t) = Ok (h, t).
Proof. intros Hw Hp b Hb. destruct Hw as (Ht & Hf & Hl & Hn & Hs & Hd & _). unfold ip6_to_bytes in Hb.
  rewrite byte0, byte1, word1 in Hb by auto. change (2 ^ 20) with 1048576 in *.
  destruct (take_pack ip6_fmt _ b t 40 eq_refl Hb) as (E1 & E2 & E3).
  unfold ip6_from_bytes, ip6_minlen. rewrite E1, E2. cbn [bindr norm ip6_fmt].
  rewrite !fits_exact by auto.
  rewrite !Z.shiftr_div_pow2 by lia. change (2 ^ 4) with 16.
  replace ((96 + v6_tc h / 16) / 16 =? 6) with true by lia. cbn [negb].
  rewrite enum_in by auto. cbn [bindr]. rewrite !v6addr_ok by auto. cbn [bindr]. rewrite E3. f_equal. f_equal.
  change 15 with (2 ^ 4 - 1). rewrite !land_ones_mod by lia. change (2 ^ 4) with 16.
  rewrite !lor_add_disjoint by (change (2 ^ 4) with 16; change (2 ^ 16) with 65536; lia).
  change (2 ^ 4) with 16; change (2 ^ 16) with 65536. destruct h as [xa xb xc xd xe xf xg]; cbn [v6_tc v6_flow v6_ttl v6_nh v6_plen v6_src v6_dst] in *. f_equal; lia. Qed.

Lemma ip6_short raw : (length raw < 40)%nat -> ip6_from_bytes raw = Err ENotEnough.
Proof. intros H. unfold ip6_from_bytes, ip6_minlen. replace (Nat.ltb _ _) with true; auto.
  symmetry. apply Nat.ltb_lt. auto. Qed.

Lemma ip6_serialise h (payload : bytes) : wf_ip6 h -> zlen payload <= 65535 ->
  exists h' b, ip6_pre_serialize (zlen payload) h = Ok h' /\
  h' = mkIp6 (v6_tc h) (v6_flow h) (v6_ttl h) (v6_nh h) (zlen payload) (v6_src h) (v6_dst h) /\
  ip6_to_bytes h' = Ok b /\
  b = be 4 (6 * 2 ^ 28 + v6_tc h * 2 ^ 20 + v6_flow h) ++ be 2 (zlen payload) ++ [v6_nh h; v6_ttl h] ++ v6_src h ++ v6_dst h /\
  length b = 40%nat /\ forall t, ip6_from_bytes (b ++ t) = Ok (h', t).
Proof. intros Hw Hp. pose proof (zlen_nonneg payload). unfold ip6_pre_serialize.
  set (h' := mkIp6 _ _ _ _ _ _ _). assert (Hw' : wf_ip6 h') by exact Hw.
  assert (Hp' : 0 <= v6_plen h' < 65536) by (cbn [v6_plen h']; lia).
  pose proof (ip6_bytes h' Hw' Hp') as Hb.
  eexists. eexists. split; [reflexivity|]. split; [reflexivity|]. split; [exact Hb|]. split; [reflexivity|].
  split; [apply ip6_layout_length; apply Hw|]. intros t. apply ip6_parse; auto. Qed.

Lemma pack_range_err f1 f2 n v1 z v2 : length v1 = arity f1 -> ~ (0 <= z < 256 ^ Z.of_nat n) ->
  exists e, pack (f1 ++ FInt n :: f2) (v1 ++ VI z :: v2) = Err e.
Proof. intros H1 H2. destruct (pack _ _) eqn:E; [|eauto]. exfalso. rewrite pack_app in E by auto.
  apply bindr_ok in E as (b1 & _ & E). apply bindr_ok in E as (b2 & E & _). cbn [pack] in E.
  destruct (0 <=? z) eqn:A; destruct (z <? 256 ^ Z.of_nat n) eqn:B; try discriminate. lia. Qed.

Lemma ip6_too_long h (payload : bytes) : 65535 < zlen payload ->
  (h' <- ip6_pre_serialize (zlen payload) h;; ip6_to_bytes h') = Err EStruct.
Proof. intros Hp. cbn [bindr ip6_pre_serialize]. unfold ip6_to_bytes, ip6_fmt. cbn [v6_tc v6_flow v6_plen v6_nh v6_ttl v6_src v6_dst].
  match goal with |- pack _ [?a; ?b; ?c; ?d; ?e; ?g; ?i; ?j] = _ =>
    destruct (pack_range_err [fB; fB; fH] [fB; fB; FS 16; FS 16] 2 [a; b; c] (zlen payload) [e; g; i; j]) as [x Hx];
    [reflexivity| pow256; lia|] end.
  cbn [app] in Hx. rewrite Hx. f_equal. eapply pack_err; exact Hx. Qed.

(** Exactly which buffers parse, and they re-serialise to themselves. *)
Lemma ip6_reserialise raw h rest : wfb raw -> ip6_from_bytes raw = Ok (h, rest) ->
  (40 <= length raw)%nat /\ hd 0 raw / 16 = 6 /\ wf_ip6 h /\ 0 <= v6_plen h < 65536 /\
  rest = skipn 40 raw /\ ip6_to_bytes h = Ok (firstn 40 raw).
Proof. intros Hw H. unfold ip6_from_bytes, ip6_minlen in H.
  destruct (Nat.ltb (length raw) 40) eqn:Hl; [discriminate|]. apply Nat.ltb_ge in Hl.
  destruct (unpack ip6_fmt (firstn 40 raw)) as [vs|] eqn:Hu; [|discriminate].
  pose proof (unpack_shaped _ _ _ (wfb_firstn _ _ Hw) Hu) as Hs.
  pose proof (pack_take ip6_fmt vs raw 40 Hw eq_refl eq_refl Hu) as Hp.
  unfold ip6_fmt in Hs. shape Hs. cbn [bindr] in H. pow256.
  destruct (negb (Z.shiftr z 4 =? 6)) eqn:E; [discriminate|].
  destruct (enum_of IPProtocols z3) as [nh|] eqn:En; [|discriminate]. apply enum_of_ok in En as [-> Hn]. cbn [bindr] in H.
  rewrite !v6addr_ok in H by auto. cbn [bindr] in H. apply ok_pair_inj in H as [Hh Hr].
  rewrite Z.shiftr_div_pow2 in E by lia. change (2 ^ 4) with 16 in E.
  assert (Z0 : z / 16 = 6) by lia. clear E.
  change 15 with (2 ^ 4 - 1) in *. rewrite !land_ones_mod in * by lia. rewrite Z.shiftr_div_pow2 in * by lia. change (2 ^ 4) with 16 in *.
  rewrite !lor_add_disjoint in * by (change (2 ^ 4) with 16; change (2 ^ 16) with 65536; lia).
  change (2 ^ 4) with 16 in *; change (2 ^ 16) with 65536 in *.
  assert (W : wf_ip6 h).
  { rewrite <- Hh. unfold wf_ip6. cbn [v6_tc v6_flow v6_plen v6_nh v6_ttl v6_src v6_dst]. change (2 ^ 20) with 1048576.
    repeat split; first [lia|assumption]. }
  assert (HD : hd 0 raw = z).
  { unfold ip6_fmt in Hp. rewrite !pack_cons_int in Hp by (pow256; lia).
    destruct (bindr _ _) eqn:E in Hp; [|discriminate]. apply ok_inj in Hp.
    apply bindr_ok in E as (? & _ & E). apply ok_inj in E.
    destruct raw; [cbn in Hl; lia|]. cbn [firstn] in Hp. subst. rewrite be1 in Hp by lia. cbn [app] in Hp. cbn [hd]. congruence. }
  split; [auto|]. split; [rewrite HD; auto|]. split; [auto|].
  split; [rewrite <- Hh; cbn [v6_plen]; lia|]. split; [auto|].
  rewrite <- Hp. rewrite <- Hh. unfold ip6_to_bytes. cbn [v6_tc v6_flow v6_plen v6_nh v6_ttl v6_src v6_dst].
  rewrite byte0, byte1, word1 by (change (2 ^ 20) with 1048576; lia). f_equal.
  f_equal; [f_equal; lia|]. f_equal; [f_equal; lia|]. f_equal. f_equal. lia. Qed.

Lemma ip6_accepts raw : wfb raw -> (40 <= length raw)%nat -> hd 0 raw / 16 = 6 -> In (nth 6 raw 0) IPProtocols ->
  exists h, ip6_from_bytes raw = Ok (h, skipn 40 raw).
Proof. intros Hw Hl Hv Hn. unfold ip6_from_bytes, ip6_minlen.
  destruct (Nat.ltb (length raw) 40) eqn:El; [apply Nat.ltb_lt in El; lia|].
  destruct (unpack_firstn_ok ip6_fmt raw 40 eq_refl El) as [vs Hu]. rewrite Hu.
  pose proof (unpack_shaped _ _ _ (wfb_firstn _ _ Hw) Hu) as Hs.
  pose proof (pack_take ip6_fmt vs raw 40 Hw eq_refl eq_refl Hu) as Hp.
  unfold ip6_fmt in Hs. shape Hs. cbn [bindr]. pow256.
  unfold ip6_fmt in Hp. rewrite !pack_cons_int in Hp by (pow256; lia). rewrite !pack_cons_s in Hp by auto.
  rewrite pack_nil in Hp. cbn [bindr] in Hp. apply ok_inj in Hp.
  assert (A : hd 0 raw = z). { destruct raw; [cbn in Hl; lia|]. cbn [firstn] in Hp. rewrite be1 in Hp by lia. cbn [app] in Hp. cbn. congruence. }
  assert (B : nth 6 raw 0 = z3).
  { rewrite <- (firstn_skipn 40 raw). rewrite <- Hp. rewrite !be1, !be2 by lia. reflexivity. }
  rewrite A in Hv. rewrite B in Hn. rewrite Z.shiftr_div_pow2 by lia. change (2 ^ 4) with 16.
  replace (z / 16 =? 6) with true by lia. cbn [negb]. rewrite enum_in by auto. cbn [bindr].
  rewrite !v6addr_ok by auto. cbn [bindr]. eauto. Qed.

Lemma ip6_accept_iff raw : wfb raw ->
  ((exists h rest, ip6_from_bytes raw = Ok (h, rest)) <->
   (40 <= length raw)%nat /\ hd 0 raw / 16 = 6 /\ In (nth 6 raw 0) IPProtocols).
Proof. intros Hw. split.
  - intros (h & rest & H). destruct (ip6_reserialise raw h rest Hw H) as (H1 & H2 & H3 & H4 & H5 & H6).
    split; auto. split; auto. rewrite (ip6_bytes h H3 H4) in H6. apply ok_inj in H6.
    rewrite <- (firstn_skipn 40 raw), <- H6. unfold ip6_layout. apply H3.
  - intros (H1 & H2 & H3). destruct (ip6_accepts raw Hw H1 H2 H3) as [h Hh]. eauto. Qed.

Lemma ip6_field_corrupted :
  exists h b, v6_tc h = 256 /\ ip6_to_bytes h = Ok b /\ hd 0 b / 16 = 7 /\ ip6_from_bytes b = Err EValue.
Proof. exists (mkIp6 256 0 64 ipUDP 0 v6undefined v6undefined). eexists. split; [reflexivity|].
  split; [vm_compute; reflexivity|]. split; vm_compute; reflexivity. Qed.
Lemma ip6_flow_truncated :
  exists h h' b, v6_flow h = 2 ^ 20 + 5 /\ ip6_to_bytes h = Ok b /\ ip6_from_bytes b = Ok (h', []) /\ v6_flow h' = 5.
Proof. exists (mkIp6 0 (2 ^ 20 + 5) 64 ipUDP 0 v6undefined v6undefined). eexists. eexists. split; [reflexivity|].
  split; [vm_compute; reflexivity|]. split; vm_compute; reflexivity. Qed.
