(** Proofs about the ICMP and ICMPv6 codecs. *)
From Verif Require Import BaseLemmas CodecLemmas EthAddrModel EthAddrSpec EthAddrProofs Enums ArpModel EthProofs
  ChecksumModel ChecksumSpec ChecksumProofs Ipv4Model Ipv4Proofs Ipv4Proofs2 Ipv6Model Ipv6Proofs IcmpModel IcmpProofs.

Definition addr16 (a : bytes) : Prop := wfb a /\ length a = 16%nat.

(** ** Neighbour-discovery options: layouts of RFC 4861, section 4.6. *)
Definition nd_layout (o : ndopt) : bytes :=
  match o with
  | NSource a => [1; 1] ++ a
  | NTarget a => [2; 1] ++ a
  | NPrefix l a valid pref plen addr => [3; 4; plen; 128 * l + 64 * a] ++ be 4 valid ++ be 4 pref ++ [0; 0; 0; 0] ++ addr
  | NMtu mtu => [5; 1; 0; 0] ++ be 4 mtu
  | NRedirected h => [4; (zlen h + 2) / 8] ++ h
  end.
(** A network: no bits of the address after the prefix. *)
Definition netaddr (plen : Z) (addr : bytes) : Prop := 0 <= plen <= 128 /\ (2 ^ (128 - plen) | unbe addr).
Definition wf_nd (o : ndopt) : Prop :=
  match o with
  | NSource a | NTarget a => addr6 a
  | NPrefix l a valid pref plen addr =>
      0 <= l <= 1 /\ 0 <= a <= 1 /\ 0 <= valid < 2 ^ 32 /\ 0 <= pref < 2 ^ 32 /\ addr16 addr /\ netaddr plen addr
  | NMtu mtu => 0 <= mtu < 2 ^ 32
  | NRedirected h => wfb h /\ (zlen h + 2) mod 8 = 0 /\ zlen h + 2 <= 2040
  end.
Definition nd_num (o : ndopt) : Z :=
  match o with NSource _ => 1 | NTarget _ => 2 | NPrefix _ _ _ _ _ _ => 3 | NMtu _ => 5 | NRedirected _ => 4 end.
Fixpoint nds_layout (os : list ndopt) : bytes := match os with [] => [] | o :: r => nd_layout o ++ nds_layout r end.

Lemma netaddr_ok plen addr : netaddr plen addr <-> v6net_ok plen addr = true.
Proof. unfold netaddr, v6net_ok. split.
  - intros ((H1 & H2) & H3). apply Z.mod_divide in H3; [|lia]. lia.
  - intros H. apply andb_prop in H as [H H3]. apply andb_prop in H as [H1 H2]. split; [lia|].
    apply Z.mod_divide; lia. Qed.

Lemma zlen_nat {A} (l : list A) : zlen l = Z.of_nat (length l). Proof. reflexivity. Qed.

Lemma pad_header_id h : (zlen h + 2) mod 8 = 0 -> pad_header h = h.
Proof. intros H. unfold pad_header. pose proof (zlen_nonneg h). change (2 mod 8) with 2.
  replace (Z.to_nat (8 - (zlen h + 2))) with 0%nat by lia. apply app_nil_r. Qed.

Lemma nd_len o : wf_nd o -> exists n x r, nd_layout o = nd_num o :: n :: r /\ length (nd_layout o) = Z.to_nat (n * 8) /\
  1 <= n < 256 /\ x = 0.
Proof. intros H. destruct o as [a|a|l a v p pl ad|mtu|h]; cbn [wf_nd nd_layout nd_num app] in *.
  - destruct H as [_ H]. exists 1, 0. eexists. split; [reflexivity|]. cbn [length]. rewrite H. lia.
  - destruct H as [_ H]. exists 1, 0. eexists. split; [reflexivity|]. cbn [length]. rewrite H. lia.
  - destruct H as (_ & _ & _ & _ & (_ & H) & _). exists 4, 0. eexists. split; [reflexivity|].
    cbn [length]. rewrite !app_length, !be_length. cbn [length]. rewrite H. lia.
  - exists 1, 0. eexists. split; [reflexivity|]. cbn [length]. rewrite !be_length. lia.
  - destruct H as (_ & H1 & H2). pose proof (zlen_nonneg h). exists ((zlen h + 2) / 8), 0. eexists. split; [reflexivity|].
    cbn [length]. unfold zlen in *. lia. Qed.

Lemma flag2 l a : 0 <= l <= 1 -> 0 <= a <= 1 -> Z.land (Z.lor (Z.shiftl l 7) (Z.shiftl a 6)) 255 = 128 * l + 64 * a /\
  Z.land (Z.shiftr (128 * l + 64 * a) 7) 1 = l /\ Z.land (Z.shiftr (128 * l + 64 * a) 6) 1 = a.
Proof. intros H1 H2. assert (l = 0 \/ l = 1) as [-> | ->] by lia; assert (a = 0 \/ a = 1) as [-> | ->] by lia; repeat split; reflexivity. Qed.

Lemma nd_codec o : wf_nd o -> nd_to_bytes o = Ok (nd_layout o) /\ nd_from_bytes (nd_num o) (nd_layout o) = Ok o /\ wfb (nd_layout o).
Proof. intros H. destruct o as [a|a|l a v p pl ad|mtu|h]; cbn [wf_nd nd_layout nd_num nd_to_bytes] in *; change (2 ^ 32) with 4294967296 in *.
  - destruct H as [W L]. split; [reflexivity|]. split; [|rewrite wfb_app; split; auto; repeat constructor; lia].
    unfold nd_from_bytes. change ((1 =? 1) || (1 =? 2)) with true. cbn iota.
    assert (E : length ([1; 1] ++ a) = 8%nat) by (cbn [app length]; lia). rewrite E. change (Nat.ltb 8 8) with false. cbn iota.
    assert (P : pack [fB; fB; FS 6] [VI 1; VI 1; VB a] = Ok ([1; 1] ++ a)).
    { rewrite !pack_cons_int by (pow256; lia). rewrite pack_cons_s by auto. cbn [pack bindr]. rewrite app_nil_r. reflexivity. }
    rewrite (unpack_pack _ _ _ P). cbn [norm bindr]. rewrite fits_exact by auto. cbn [Z.eqb Pos.eqb negb].
    rewrite eth_init_bytes6 by auto. reflexivity.
  - destruct H as [W L]. split; [reflexivity|]. split; [|rewrite wfb_app; split; auto; repeat constructor; lia].
    unfold nd_from_bytes. change ((2 =? 1) || (2 =? 2)) with true. cbn iota.
    assert (E : length ([2; 1] ++ a) = 8%nat) by (cbn [app length]; lia). rewrite E. change (Nat.ltb 8 8) with false. cbn iota.
    assert (P : pack [fB; fB; FS 6] [VI 2; VI 1; VB a] = Ok ([2; 1] ++ a)).
    { rewrite !pack_cons_int by (pow256; lia). rewrite pack_cons_s by auto. cbn [pack bindr]. rewrite app_nil_r. reflexivity. }
    rewrite (unpack_pack _ _ _ P). cbn [norm bindr]. rewrite fits_exact by auto. cbn [Z.eqb Pos.eqb negb].
    rewrite eth_init_bytes6 by auto. reflexivity.
  - destruct H as (H1 & H2 & H3 & H4 & (W & L) & Hn). pose proof Hn as (Hpl & _).
    destruct (flag2 l a H1 H2) as (F1 & F2 & F3). change 0xff with 255. rewrite F1.
    assert (P : pack [fB; fB; fB; fB; fI; fI; FX 4; FS 16] [VI 3; VI 4; VI pl; VI (128 * l + 64 * a); VI v; VI p; VB ad] =
      Ok ([3; 4; pl; 128 * l + 64 * a] ++ be 4 v ++ be 4 p ++ [0; 0; 0; 0] ++ ad)).
    { rewrite !pack_cons_int by (pow256; lia). rewrite pack_cons_pad, pack_cons_s by auto. cbn [pack bindr]. rewrite app_nil_r.
      rewrite (be1 pl), (be1 (128 * l + 64 * a)) by lia. reflexivity. }
    split; [exact P|]. split; [|rewrite !wfb_app; repeat split; auto using be_wfb; repeat constructor; lia].
    unfold nd_from_bytes. cbn [Z.eqb Pos.eqb orb].
    rewrite (pack_length _ _ _ P). change (Nat.ltb _ 32) with false. cbn iota.
    rewrite (unpack_pack _ _ _ P). cbn [norm bindr]. rewrite fits_exact by auto. cbn [Z.eqb Pos.eqb negb].
    rewrite v6addr_ok by auto. cbn [bindr]. apply netaddr_ok in Hn. rewrite Hn, F2, F3. reflexivity.
  - assert (P : pack [fB; fB; FX 2; fI] [VI 5; VI 1; VI mtu] = Ok ([5; 1; 0; 0] ++ be 4 mtu)).
    { rewrite !pack_cons_int by (pow256; lia). rewrite pack_cons_pad, pack_cons_int by (pow256; lia). cbn [pack bindr]. rewrite app_nil_r. reflexivity. }
    split; [exact P|]. split; [|rewrite !wfb_app; repeat split; auto using be_wfb; repeat constructor; lia].
    unfold nd_from_bytes. cbn [Z.eqb Pos.eqb orb].
    rewrite (pack_length _ _ _ P). change (Nat.ltb _ 8) with false. cbn iota.
    rewrite (unpack_pack _ _ _ P). cbn [norm bindr Z.eqb Pos.eqb negb]. reflexivity.
  - destruct H as (W & H1 & H2). pose proof (zlen_nonneg h) as Hz. 
    assert (E : (zlen h + 2 + 7) / 8 = (zlen h + 2) / 8) by lia. rewrite E.
    assert (P : pack [fB; fB] [VI 4; VI ((zlen h + 2) / 8)] = Ok [4; (zlen h + 2) / 8]).
    { rewrite !pack_cons_int by (pow256; lia). cbn [pack bindr]. rewrite app_nil_r. rewrite (be1 ((zlen h + 2) / 8)) by lia. reflexivity. }
    rewrite P. cbn [bindr]. split; [reflexivity|]. split; [|rewrite wfb_app; split; auto; repeat constructor; lia].
    unfold nd_from_bytes. cbn [Z.eqb Pos.eqb orb].
    destruct (take_pack [fB; fB] _ _ h 2 eq_refl P) as (E1 & E2 & E3). rewrite E1, E2. cbn [norm bindr Z.eqb Pos.eqb negb].
    assert (EL : zlen ([4; (zlen h + 2) / 8] ++ h) = (zlen h + 2) / 8 * 8). { rewrite zlen_app. change (zlen [4; (zlen h + 2) / 8]) with 2. lia. }
    rewrite EL. rewrite Z.ltb_irrefl. rewrite firstn_all2. 2:{ unfold zlen in EL at 1. lia. }
    rewrite E3, pad_header_id by auto. reflexivity. Qed.

Lemma nd_number_ok o : zmem (nd_num o) ICMPv6OptionNumbers = true.
Proof. destruct o; reflexivity. Qed.

Lemma nds_codec os : Forall wf_nd os -> ndopts_to_bytes os = Ok (nds_layout os) /\ wfb (nds_layout os) /\
  (length os <= length (nds_layout os))%nat /\
  forall fuel, (length os < fuel)%nat -> ndopts_from_bytes fuel (nds_layout os) = Ok os.
Proof. induction 1 as [|o os Ho _ IH].
  - split; [reflexivity|]. split; [apply wfb_nil|]. split; [reflexivity|]. intros [|f] Hf; [cbn in Hf; lia|reflexivity].
  - destruct IH as (I1 & I2 & I3 & I4). destruct (nd_codec o Ho) as (C1 & C2 & C3).
    destruct (nd_len o Ho) as (n & _ & r & L1 & L2 & L3 & _).
    split; [cbn [ndopts_to_bytes nds_layout]; rewrite C1, I1; reflexivity|].
    split; [cbn [nds_layout]; rewrite wfb_app; auto|].
    split; [cbn [nds_layout length]; rewrite app_length; lia|].
    intros [|fuel] Hf; [cbn in Hf; lia|]. cbn [length] in Hf.
    cbn [nds_layout]. 
    assert (E : forall (l : bytes) (t n : Z) (r : bytes), l = t :: n :: r -> ndopts_from_bytes (S fuel) l =
      (if Nat.ltb (length l) 8 then Ok [] else
       if negb (zmem t ICMPv6OptionNumbers) then ndopts_from_bytes fuel (skipn (Z.to_nat (n * 8)) l)
       else o <- nd_from_bytes t (firstn (Z.to_nat (n * 8)) l);; os <- ndopts_from_bytes fuel (skipn (Z.to_nat (n * 8)) l);; Ok (o :: os))).
    { intros ? ? ? ? ->. reflexivity. }
    rewrite (E _ (nd_num o) n (r ++ nds_layout os)). 2:{ rewrite L1. reflexivity. }
    replace (Nat.ltb _ 8) with false. 2:{ symmetry. apply Nat.ltb_ge. rewrite app_length, L2. lia. }
    rewrite nd_number_ok. cbn [negb]. rewrite firstn_app_exact, skipn_app_exact by lia.
    rewrite C2. cbn [bindr]. rewrite I4 by lia. reflexivity. Qed.

Lemma nds_parse os : Forall wf_nd os -> ndopts_parse (nds_layout os) = Ok os.
Proof. intros H. destruct (nds_codec os H) as (_ & _ & H1 & H2). apply H2. lia. Qed.

(** ** Message bodies: layouts of RFC 792, 950, 4443, 4861. *)
Definition data_layout (d : icmpdata) : bytes :=
  match d with
  | DPlain _ x => x
  | DQuench x => [0; 0; 0; 0] ++ x
  | DRedirect addr x => addr ++ x
  | DUnreach _ odl mtu x => [0; odl] ++ be 2 mtu ++ x
  | DEcho _ _ ident seq x => be 2 ident ++ be 2 seq ++ x
  | DTimeEx odl x => [0; odl; 0; 0] ++ x
  | DMask _ ident seq mask _ => be 2 ident ++ be 2 seq ++ mask
  | DRS os => [0; 0; 0; 0] ++ nds_layout os
  | DRA hl m o h p lt re rt os => [hl; 128 * b2z m + 64 * b2z o + 32 * b2z h + 16 * b2z p] ++ be 2 lt ++ be 4 re ++ be 4 rt ++ nds_layout os
  | DNS target os => [0; 0; 0; 0] ++ target ++ nds_layout os
  | DNA r s o target os => [128 * b2z r + 64 * b2z s + 32 * b2z o; 0; 0; 0] ++ target ++ nds_layout os
  | DRedir6 target dest os => [0; 0; 0; 0] ++ target ++ dest ++ nds_layout os
  end.
Definition u16 (z : Z) := 0 <= z < 65536.
Definition wf_data (d : icmpdata) : Prop :=
  match d with
  | DPlain _ x | DQuench x => wfb x
  | DRedirect addr x => ip4 addr /\ wfb x
  | DUnreach _ odl mtu x => 0 <= odl < 256 /\ u16 mtu /\ wfb x
  | DEcho _ _ ident seq x => u16 ident /\ u16 seq /\ wfb x
  | DTimeEx odl x => 0 <= odl < 256 /\ wfb x
  | DMask _ ident seq mask x => u16 ident /\ u16 seq /\ ip4 mask /\ x = []
  | DRS os => Forall wf_nd os
  | DRA hl _ _ _ _ lt re rt os => 0 <= hl < 256 /\ u16 lt /\ 0 <= re < 2 ^ 32 /\ 0 <= rt < 2 ^ 32 /\ Forall wf_nd os
  | DNS target os => addr16 target /\ Forall wf_nd os
  | DNA _ _ _ target os => addr16 target /\ Forall wf_nd os
  | DRedir6 target dest os => addr16 target /\ addr16 dest /\ Forall wf_nd os
  end.
(** What a receiver reconstructs: for types that are both request and reply kind, the kind follows the type;
    router-advertisement flags are lost. *)
Definition received (t : Z) (d : icmpdata) : icmpdata :=
  match d with
  | DEcho false _ i s x => DEcho false (t =? 0) i s x
  | DMask _ i s m x => DMask (t =? 18) i s m x
  | DRA hl _ _ _ _ lt re rt os => DRA hl false false false false lt re rt os
  | _ => d
  end.

Lemma ra_flags_sum m o h p : ra_flags m o h p = 128 * b2z m + 64 * b2z o + 32 * b2z h + 16 * b2z p /\
  (let fl := 128 * b2z m + 64 * b2z o + 32 * b2z h + 16 * b2z p in
   0 <= fl < 256 /\ Z.land (Z.shiftr (Z.land fl 8) 7) 1 = 0 /\ Z.land (Z.shiftr (Z.land fl 4) 6) 1 = 0 /\
   Z.land (Z.shiftr (Z.land fl 2) 5) 1 = 0 /\ Z.land (Z.shiftr (Z.land fl 1) 4) 1 = 0).
Proof. destruct m, o, h, p; cbv; repeat split; congruence. Qed.
Lemma rso_sum r s o : rso_byte r s o = 128 * b2z r + 64 * b2z s + 32 * b2z o /\
  let fl := 128 * b2z r + 64 * b2z s + 32 * b2z o in
  0 <= fl < 256 /\ negb (Z.shiftr (Z.land fl 0x80) 7 =? 0) = r /\ negb (Z.shiftr (Z.land fl 0x40) 6 =? 0) = s /\
  negb (Z.shiftr (Z.land fl 0x20) 5 =? 0) = o.
Proof. destruct r, s, o; cbv; repeat split; congruence. Qed.

Lemma data_encode d : wf_data d -> data_to_bytes d = Ok (data_layout d) /\ wfb (data_layout d).
Proof. intros H. destruct d as [c x|x|a x|v odl mtu x|v r i s x|odl x|r i s m x|os|hl m o h p lt re rt os|tg os|r s o tg os|tg de os];
  cbn [wf_data data_layout data_to_bytes] in *; unfold u16 in *; change (2 ^ 32) with 4294967296 in *;
  try match goal with H : context [Forall wf_nd os] |- _ => assert (Hos : Forall wf_nd os) by tauto; destruct (nds_codec os Hos) as (N1 & N2 & _); rewrite N1 end.
  - auto.
  - split; [reflexivity|]. rewrite wfb_app. split; auto. repeat constructor; lia.
  - destruct H as ((W & _) & H). split; [reflexivity|]. rewrite wfb_app; auto.
  - rewrite pack_cons_pad, !pack_cons_int by (pow256; lia). cbn [pack bindr]. rewrite app_nil_r, (be1 odl), <- !app_assoc by lia.
    split; [reflexivity|]. rewrite !wfb_app. repeat split; auto using be_wfb; try tauto. repeat constructor; lia.
  - rewrite !pack_cons_int by (pow256; lia). cbn [pack bindr]. rewrite app_nil_r, <- !app_assoc.
    split; [reflexivity|]. rewrite !wfb_app. repeat split; auto using be_wfb; tauto.
  - rewrite pack_cons_pad, !pack_cons_int by (pow256; lia). cbn [pack bindr]. rewrite app_nil_r, (be1 odl) by lia.
    split; [reflexivity|]. rewrite !wfb_app. repeat split; auto using be_wfb; try tauto. repeat constructor; lia.
  - rewrite !pack_cons_int by (pow256; lia). cbn [pack bindr]. rewrite app_nil_r, <- !app_assoc.
    split; [reflexivity|]. rewrite !wfb_app. unfold ip4 in *. repeat split; auto using be_wfb; tauto.
  - cbn [bindr]. split; [reflexivity|]. rewrite wfb_app; split; auto. repeat constructor; lia.
  - destruct (ra_flags_sum m o h p) as (F1 & F2 & _). rewrite F1.
    rewrite !pack_cons_int by (pow256; lia). cbn [pack bindr]. rewrite app_nil_r, (be1 hl), (be1 (_ + _)), <- !app_assoc by lia.
    split; [reflexivity|]. rewrite !wfb_app. repeat split; auto using be_wfb. repeat constructor; lia.
  - destruct H as ((W & L) & H). rewrite pack_cons_pad, pack_cons_s by auto. cbn [pack bindr]. rewrite app_nil_r, <- !app_assoc.
    split; [reflexivity|]. rewrite !wfb_app. repeat split; auto. apply wfb_repeat0 with (n := 4%nat).
  - destruct H as ((W & L) & H). destruct (rso_sum r s o) as (F1 & F2 & _). rewrite F1.
    rewrite pack_cons_int, pack_cons_pad, pack_cons_s by (auto; pow256; lia). cbn [pack bindr]. rewrite app_nil_r, (be1 (_ + _)), <- !app_assoc by lia.
    split; [reflexivity|]. rewrite !wfb_app. repeat split; auto. repeat constructor; lia.
  - destruct H as ((W & L) & (W' & L') & H). rewrite pack_cons_pad, !pack_cons_s by auto. cbn [pack bindr]. rewrite app_nil_r, <- !app_assoc.
    split; [reflexivity|]. rewrite !wfb_app. repeat split; auto. apply wfb_repeat0 with (n := 4%nat). Qed.

Lemma skip_fixed f vs b n t : pack f vs = Ok b -> n = calcsize f ->
  Nat.ltb (length (b ++ t)) n = false /\ unpack f (firstn n (b ++ t)) = Ok (norm f vs) /\ skipn n (b ++ t) = t.
Proof. intros H1 H2. apply take_pack with (vs := vs); auto. Qed.

Definition kcls (v6 : bool) (t : Z) : icls := if v6 then K6 t else K4 t.

(** Decoding the layout gives the object back. *)
Lemma data_decode v6 t d : wf_data d -> kind v6 t d -> data_from_bytes (kcls v6 t) (data_layout d) = Ok (received t d).
Proof. intros H Hk.
  destruct d as [c x|x|a x|v odl mtu x|v r i s x|odl x|r i s m x|os|hl m o h p lt re rt os|tg os|r s o tg os|tg de os];
  cbn [wf_data data_layout data_to_bytes] in *; unfold u16 in *; change (2 ^ 32) with 4294967296 in *.
  - (* plain *) destruct v6; cbn [kind kind4 kind6] in Hk; destruct c as [c|c| |]; try contradiction; destruct Hk as [-> Hk]; in_cases Hk; reflexivity.
  - destruct v6; [contradiction|]. cbn [kind kind4] in Hk. subst t. reflexivity.
  - destruct v6; [contradiction|]. cbn [kind kind4] in Hk. subst t. destruct H as ((W & L) & _).
    unfold data_from_bytes. cbn [data_new kcls Z.eqb Pos.eqb]. rewrite ltb_app_false, firstn_app_exact, skipn_app_exact by auto. reflexivity.
  - assert (E : data_from_bytes (kcls v6 t) ([0; odl] ++ be 2 mtu ++ x) = Ok (DUnreach v odl mtu x)).
    { assert (P : pack [FX 1; fB; fH] [VI odl; VI mtu] = Ok ([0; odl] ++ be 2 mtu)).
      { rewrite pack_cons_pad, !pack_cons_int by (pow256; lia). cbn [pack bindr]. rewrite app_nil_r, (be1 odl) by lia. reflexivity. }
      destruct (skip_fixed _ _ _ 4%nat x P eq_refl) as (E1 & E2 & E3).
      rewrite app_assoc. destruct v, v6; cbn [kind kind4 kind6] in Hk; try contradiction; subst t;
      unfold data_from_bytes; cbn [data_new kcls Z.eqb Pos.eqb]; rewrite E1, E2, E3; reflexivity. }
    rewrite E. reflexivity.
  - assert (E : data_from_bytes (kcls v6 t) (be 2 i ++ be 2 s ++ x) = Ok (received t (DEcho v r i s x))).
    { assert (P : pack [fH; fH] [VI i; VI s] = Ok (be 2 i ++ be 2 s)).
      { rewrite !pack_cons_int by (pow256; lia). cbn [pack bindr]. rewrite app_nil_r. reflexivity. }
      destruct (skip_fixed _ _ _ 4%nat x P eq_refl) as (E1 & E2 & E3).
      rewrite app_assoc. destruct v, r, v6; cbn [kind kind4 kind6] in Hk; try contradiction; try (destruct Hk as [Hk|Hk]); subst t;
      unfold data_from_bytes; cbn [data_new kcls Z.eqb Pos.eqb]; rewrite E1, E2, E3; reflexivity. }
    exact E.
  - destruct v6; [contradiction|]. cbn [kind kind4] in Hk. subst t.
    assert (P : pack [FX 1; fB; fH] [VI odl; VI 0] = Ok [0; odl; 0; 0]).
    { rewrite pack_cons_pad, !pack_cons_int by (pow256; lia). cbn [pack bindr]. rewrite app_nil_r, (be1 odl) by lia. reflexivity. }
    destruct (skip_fixed _ _ _ 4%nat x P eq_refl) as (E1 & E2 & E3).
    unfold data_from_bytes; cbn [data_new kcls Z.eqb Pos.eqb]; rewrite E1, E2, E3; reflexivity.
  - destruct v6; [contradiction|]. cbn [kind kind4] in Hk. destruct H as (H1 & H2 & (W & L) & ->).
    assert (P : pack [fH; fH] [VI i; VI s] = Ok (be 2 i ++ be 2 s)).
    { rewrite !pack_cons_int by (pow256; lia). cbn [pack bindr]. rewrite app_nil_r. reflexivity. }
    destruct (skip_fixed _ _ _ 4%nat m P eq_refl) as (E1 & E2 & E3).
    rewrite app_assoc. 
    destruct r; try (destruct Hk as [Hk|Hk]); subst t;
    unfold data_from_bytes; cbn [data_new kcls Z.eqb Pos.eqb]; rewrite E1, E2, E3; cbn [norm bindr];
    rewrite firstn_all2 by lia; rewrite L; reflexivity.
  - destruct v6; [|contradiction]. cbn [kind kind6] in Hk. subst t.
    unfold data_from_bytes; cbn [data_new kcls Z.eqb Pos.eqb].
    rewrite ltb_app_false, skipn_app_exact by reflexivity. rewrite nds_parse by auto. reflexivity.
  - destruct v6; [|contradiction]. cbn [kind kind6] in Hk. subst t. destruct (ra_flags_sum m o h p) as (_ & F1 & F2 & F3 & F4 & F5).
    set (fl := 128 * b2z m + 64 * b2z o + 32 * b2z h + 16 * b2z p) in *.
    assert (P : pack [fB; fB; fH; fI; fI] [VI hl; VI fl; VI lt; VI re; VI rt] = Ok ([hl; fl] ++ be 2 lt ++ be 4 re ++ be 4 rt)).
    { rewrite !pack_cons_int by (pow256; lia). cbn [pack bindr]. rewrite app_nil_r, (be1 hl), (be1 fl) by lia. reflexivity. }
    destruct (skip_fixed _ _ _ 12%nat (nds_layout os) P eq_refl) as (E1 & E2 & E3).
    unfold data_from_bytes; cbn [data_new kcls Z.eqb Pos.eqb].
    replace ([hl; fl] ++ be 2 lt ++ be 4 re ++ be 4 rt ++ nds_layout os) with (([hl; fl] ++ be 2 lt ++ be 4 re ++ be 4 rt) ++ nds_layout os) by (rewrite <- !app_assoc; reflexivity).
    rewrite E1, E2, E3. cbn [norm bindr]. rewrite nds_parse by tauto. cbn [bindr]. rewrite F2, F3, F4, F5. reflexivity.
  - destruct v6; [|contradiction]. cbn [kind kind6] in Hk. subst t. destruct H as ((W & L) & H).
    assert (P : pack [FX 4; FS 16] [VB tg] = Ok ([0; 0; 0; 0] ++ tg)).
    { rewrite pack_cons_pad, pack_cons_s by auto. cbn [pack bindr]. rewrite app_nil_r. reflexivity. }
    destruct (skip_fixed _ _ _ 20%nat (nds_layout os) P eq_refl) as (E1 & E2 & E3).
    unfold data_from_bytes; cbn [data_new kcls Z.eqb Pos.eqb]. rewrite app_assoc.
    rewrite E1, E2, E3. cbn [norm bindr]. rewrite fits_exact, v6addr_ok by auto. cbn [bindr]. rewrite nds_parse by tauto. reflexivity.
  - destruct v6; [|contradiction]. cbn [kind kind6] in Hk. subst t. destruct H as ((W & L) & H). destruct (rso_sum r s o) as (_ & F1 & F2 & F3 & F4).
    set (fl := 128 * b2z r + 64 * b2z s + 32 * b2z o) in *.
    assert (P : pack [fB; FX 3; FS 16] [VI fl; VB tg] = Ok ([fl; 0; 0; 0] ++ tg)).
    { rewrite pack_cons_int, pack_cons_pad, pack_cons_s by (auto; pow256; lia). cbn [pack bindr]. rewrite app_nil_r, (be1 fl) by lia. reflexivity. }
    destruct (skip_fixed _ _ _ 20%nat (nds_layout os) P eq_refl) as (E1 & E2 & E3).
    unfold data_from_bytes; cbn [data_new kcls Z.eqb Pos.eqb]. rewrite app_assoc.
    rewrite E1, E2, E3. cbn [norm bindr]. rewrite fits_exact, v6addr_ok by auto. cbn [bindr]. rewrite nds_parse by tauto. cbn [bindr].
    rewrite F2, F3, F4. reflexivity.
  - destruct v6; [|contradiction]. cbn [kind kind6] in Hk. subst t. destruct H as ((W & L) & (W' & L') & H).
    assert (P : pack [FX 4; FS 16; FS 16] [VB tg; VB de] = Ok ([0; 0; 0; 0] ++ tg ++ de)).
    { rewrite pack_cons_pad, !pack_cons_s by auto. cbn [pack bindr]. rewrite app_nil_r. reflexivity. }
    destruct (skip_fixed _ _ _ 36%nat (nds_layout os) P eq_refl) as (E1 & E2 & E3).
    unfold data_from_bytes; cbn [data_new kcls Z.eqb Pos.eqb].
    replace ([0; 0; 0; 0] ++ tg ++ de ++ nds_layout os) with (([0; 0; 0; 0] ++ tg ++ de) ++ nds_layout os) by (rewrite <- !app_assoc; reflexivity).
    rewrite E1, E2, E3. cbn [norm bindr]. rewrite !fits_exact, !v6addr_ok by auto. cbn [bindr]. rewrite nds_parse by tauto. reflexivity.
Qed.

(** ** Whole messages *)
Lemma type_code_range v6 t c : code_ok v6 t c -> 0 <= t < 256 /\ 0 <= c < 16 /\ In t (valid_types v6).
Proof. intros H. destruct v6; cbn [code_ok valid_types] in *; unfold ICMPTypes, ICMPv6Types.
  - destruct H as [[-> H]|[H ->]]; [cbn [In]; lia|]. in_cases H; cbn [In]; lia.
  - destruct H as [[-> H]|[[-> H]|[[-> H]|[[-> H]|[H ->]]]]]; try (cbn [In]; lia). in_cases H; cbn [In]; lia. Qed.

Lemma received_wf t d : wf_data d -> wf_data (received t d) /\ length (data_layout (received t d)) = length (data_layout d).
Proof. intros H. destruct d as [c x|x|a x|v odl mtu x|v r i s x|odl x|r i s m x|os|hl m o h p lt re rt os|tg os|r s o tg os|tg de os];
  cbn [received]; auto.
  destruct v; auto. Qed.

Lemma icmp_pack_ok v6 m c : consistent v6 m -> wf_data (ic_data m) -> 0 <= c < 65536 ->
  icmp_pack m c = Ok ([ic_type m; ic_code m] ++ be 2 c ++ data_layout (ic_data m)).
Proof. intros [Hc Hk] Hd Hr. destruct (type_code_range _ _ _ Hc) as (Ht & Hc' & _). destruct (data_encode _ Hd) as (E & _).
  unfold icmp_pack. rewrite !pack_cons_int by (pow256; lia). cbn [pack bindr]. rewrite app_nil_r, E. cbn [bindr].
  rewrite (be1 (ic_type m)), (be1 (ic_code m)), <- !app_assoc by lia. reflexivity. Qed.

Lemma kcls_type v6 t d : kind v6 t d -> class_of_type v6 t = Some (kcls v6 t).
Proof. intros H. apply kind_classed in H. destruct v6; [|reflexivity]. cbn [classed class_of_type kcls] in *.
  rewrite (proj2 (zmem_In _ _) H). reflexivity. Qed.

Lemma icmp_parse v6 m c b : consistent v6 m -> wf_data (ic_data m) -> 0 <= c < 65536 -> icmp_pack m c = Ok b ->
  icmp_from_bytes v6 b = Ok (mkIcmp (ic_type m) (ic_code m) (received (ic_type m) (ic_data m)) c, []).
Proof. intros [Hc Hk] Hd Hr Hp. destruct (type_code_range _ _ _ Hc) as (Ht & Hc' & Hv).
  rewrite (icmp_pack_ok v6) in Hp by (auto; split; auto). apply ok_inj in Hp. subst b.
  assert (P : pack [fB; fB; fH] [VI (ic_type m); VI (ic_code m); VI c] = Ok ([ic_type m; ic_code m] ++ be 2 c)).
  { rewrite !pack_cons_int by (pow256; lia). cbn [pack bindr]. rewrite app_nil_r, (be1 (ic_type m)), (be1 (ic_code m)) by lia. reflexivity. }
  destruct (skip_fixed _ _ _ 4%nat (data_layout (ic_data m)) P eq_refl) as (E1 & E2 & E3).
  rewrite app_assoc. unfold icmp_from_bytes. rewrite E1, E2, E3. cbn [norm bindr]. rewrite enum_in by auto. cbn [bindr].
  apply code_ok_codes in Hc as (l & Hl & Hin). rewrite Hl, enum_in by auto. cbn [bindr].
  rewrite (kcls_type v6 _ _ Hk), data_decode by auto. cbn [bindr].
  destruct (received_wf (ic_type m) _ Hd) as (W & L). destruct (data_encode _ W) as (E & _).
  unfold icmp_size. cbn [ic_data]. rewrite E. cbn [bindr]. f_equal. f_equal.
  apply skipn_all2. rewrite app_length, <- L. unfold zlen. cbn [app length]. rewrite be_length. lia. Qed.

Theorem icmp4_serialise m : consistent false m -> wf_data (ic_data m) -> 4 + zlen (data_layout (ic_data m)) <= 65535 ->
  exists c b, 0 <= c < 65536 /\ icmp_to_bytes m = Ok b /\ b = [ic_type m; ic_code m] ++ be 2 c ++ data_layout (ic_data m) /\
  verifies b /\
  icmp_from_bytes false b = Ok (mkIcmp (ic_type m) (ic_code m) (received (ic_type m) (ic_data m)) c, []).
Proof. intros Hm Hd Hl. destruct (data_encode _ Hd) as (_ & W). destruct Hm as [Hc Hk]. destruct (type_code_range _ _ _ Hc) as (Ht & Hc' & Hv).
  assert (WA : wfb [ic_type m; ic_code m]) by (repeat constructor; lia).
  assert (LZ : zlen ([ic_type m; ic_code m] ++ [0; 0] ++ data_layout (ic_data m)) <= 131072).
  { rewrite !zlen_app. change (zlen [ic_type m; ic_code m]) with 2. change (zlen [0; 0]) with 2. lia. }
  destruct (stored_checksum_ok true [ic_type m; ic_code m] _ WA W eq_refl LZ) as (Rc & Hver & _).
  set (c := checksum true ([ic_type m; ic_code m] ++ [0; 0] ++ data_layout (ic_data m)) 0 None) in *.
  assert (Hcr : 0 <= c < 65536) by lia.
  assert (Hm : consistent false m) by (split; auto).
  exists c, ([ic_type m; ic_code m] ++ be 2 c ++ data_layout (ic_data m)). split; [lia|].
  assert (E : icmp_to_bytes m = Ok ([ic_type m; ic_code m] ++ be 2 c ++ data_layout (ic_data m))).
  { unfold icmp_to_bytes. rewrite (icmp_pack_ok false m 0) by (auto; lia). cbn [bindr].
    change (be 2 0) with [0; 0]. unfold cksum. fold c. apply (icmp_pack_ok false); auto. }
  split; [exact E|]. split; [reflexivity|]. split; [exact Hver|].
  apply icmp_parse; auto. apply (icmp_pack_ok false); auto. Qed.

Lemma oc_sum_zero ws ws' : wf_words ws -> oc_sum (ws ++ 0 :: ws') = oc_sum (ws ++ ws').
Proof. intros H. unfold oc_sum. rewrite !fold_left_app. cbn [fold_left]. f_equal.
  destruct (oc_sum_repr ws H) as (H1 & _ & _). unfold oc_sum in H1. unfold oc_add at 1. destruct (Z.ltb_spec (fold_left oc_add ws 0 + 0) 65536); lia. Qed.

(** RFC 2460 section 8.1 pseudo header. *)
Definition pseudo6 (src dst : bytes) (len nh : Z) : bytes := src ++ dst ++ be 4 len ++ [0; 0; 0; nh].

Theorem icmp6_serialise ip m : consistent true m -> wf_data (ic_data m) -> 4 + zlen (data_layout (ic_data m)) <= 65535 ->
  addr16 (v6_src ip) -> addr16 (v6_dst ip) ->
  exists c m' b, 0 <= c < 65536 /\ icmp6_pre_serialize (Some ip) m = Ok m' /\
  icmp6_to_bytes m' = Ok b /\ b = [ic_type m; ic_code m] ++ be 2 c ++ data_layout (ic_data m) /\
  verifies (pseudo6 (v6_src ip) (v6_dst ip) (zlen b) 58 ++ b) /\
  icmp_from_bytes true b = Ok (mkIcmp (ic_type m) (ic_code m) (received (ic_type m) (ic_data m)) c, []).
Proof. intros Hm Hd Hl (Ws & Ls) (Wd & Ld). destruct (data_encode _ Hd) as (Ed & W). pose proof Hm as [Hc Hk]. destruct (type_code_range _ _ _ Hc) as (Ht & Hc' & Hv).
  pose proof (zlen_nonneg (data_layout (ic_data m))) as Hz.
  set (len := 4 + zlen (data_layout (ic_data m))) in *.
  (* the code sums the words without the two checksum bytes *)
  set (A := pseudo6 (v6_src ip) (v6_dst ip) len 58 ++ [ic_type m; ic_code m]).
  assert (WA : wfb A). { unfold A, pseudo6. rewrite !wfb_app. repeat split; auto using be_wfb; repeat constructor; lia. }
  assert (LA : length A = 42%nat). { unfold A, pseudo6. rewrite !app_length, Ls, Ld, be_length. reflexivity. }
  assert (LZ : zlen (A ++ [0; 0] ++ data_layout (ic_data m)) <= 131072).
  { rewrite !zlen_app. unfold zlen at 1. rewrite LA. change (zlen [0; 0]) with 2. lia. }
  destruct (stored_checksum_ok true A _ WA W ltac:(rewrite LA; reflexivity) LZ) as (Rc & Hver & _).
  set (c := checksum true (A ++ [0; 0] ++ data_layout (ic_data m)) 0 None) in *.
  assert (Hcr : 0 <= c < 65536) by lia.
  assert (Ec : icmp6_checksum (v6_src ip) (v6_dst ip) m = Ok c).
  { unfold icmp6_checksum. rewrite Ed. cbn [bindr]. fold len.
    rewrite pack_cons_int by (pow256; lia). rewrite pack_cons_pad. rewrite !pack_cons_int by (pow256; lia). cbn [pack bindr].
    rewrite app_nil_r, (be1 (ic_type m)), (be1 (ic_code m)), (be1 58) by lia. f_equal.
    assert (E : v6_src ip ++ v6_dst ip ++ (be 4 len ++ repeat 0 3 ++ [58] ++ [ic_type m] ++ [ic_code m]) ++ data_layout (ic_data m) = A ++ data_layout (ic_data m)).
    { unfold A, pseudo6. cbn [repeat]. rewrite <- !app_assoc. reflexivity. }
    rewrite E. unfold c, cksum.
    assert (LA2 : Nat.even (length A) = true) by (rewrite LA; reflexivity).
    assert (W2 : wfb (A ++ data_layout (ic_data m))) by (rewrite wfb_app; auto).
    assert (W3 : wfb (A ++ [0; 0] ++ data_layout (ic_data m))) by (rewrite !wfb_app; repeat split; auto; repeat constructor; lia).
    rewrite !checksum_rfc1071; auto.
    2:{ rewrite !zlen_app in *. change (zlen [0;0]) with 2 in LZ. lia. }
    unfold rfc1071. rewrite !(be_words_app A) by auto. rewrite (be_words_app [0; 0]) by reflexivity.
    change (be_words [0; 0]) with [0]. cbn [app]. rewrite oc_sum_zero; [reflexivity|]. apply be_words_wf; auto. }
  exists c, (mkIcmp (ic_type m) (ic_code m) (ic_data m) c), ([ic_type m; ic_code m] ++ be 2 c ++ data_layout (ic_data m)).
  split; [lia|]. split; [unfold icmp6_pre_serialize; rewrite Ec; reflexivity|].
  assert (P : icmp_pack m c = Ok ([ic_type m; ic_code m] ++ be 2 c ++ data_layout (ic_data m))) by (apply (icmp_pack_ok true); auto).
  split; [exact P|]. split; [reflexivity|]. split.
  - replace (zlen _) with len. 2:{ rewrite !zlen_app. change (zlen [ic_type m; ic_code m]) with 2. unfold zlen at 1. rewrite be_length. unfold len. lia. }
    replace (_ ++ _) with (A ++ be 2 c ++ data_layout (ic_data m)); [exact Hver|]. unfold A. rewrite <- !app_assoc. reflexivity.
  - apply icmp_parse; auto. Qed.
