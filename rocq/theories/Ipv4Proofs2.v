From Verif Require Import BaseLemmas CodecLemmas EthAddrModel EthAddrSpec EthAddrProofs Enums EthModel ArpModel EthProofs
  ChecksumModel ChecksumSpec ChecksumProofs Ipv4Model Ipv4Proofs.

(** ** Setters (C15) *)
Lemma dscp_bits tos v : 0 <= tos < 256 -> 0 <= v < 64 ->
  Z.lor (Z.land tos 3) (Z.shiftl v 2) = 4 * v + tos mod 4.
Proof. intros Ht Hv. rewrite Z.lor_comm. change 3 with (2 ^ 2 - 1). rewrite land_ones_mod by lia.
  rewrite lor_add_disjoint; change (2 ^ 2) with 4; lia. Qed.

Definition same_but_tos (a b : ipv4) : Prop :=
  ip_totlen a = ip_totlen b /\ ip_ttl a = ip_ttl b /\ ip_id a = ip_id b /\ ip_flags a = ip_flags b /\
  ip_frag a = ip_frag b /\ ip_proto a = ip_proto b /\ ip_src a = ip_src b /\ ip_dst a = ip_dst b /\ ip_opts a = ip_opts b.

Lemma ip_dscp_div h : ip_dscp h = ip_tos h / 4.
Proof. unfold ip_dscp. rewrite Z.shiftr_div_pow2 by lia. reflexivity. Qed.
Lemma ip_ecn_mod h : ip_ecn h = ip_tos h mod 4.
Proof. unfold ip_ecn. change 3 with (2 ^ 2 - 1). rewrite land_ones_mod by lia. reflexivity. Qed.

Lemma set_dscp_ok h v : 0 <= ip_tos h < 256 ->
  (0 <= v < 64 -> exists h', ip_set_dscp v h = Ok h' /\ ip_dscp h' = v /\ ip_ecn h' = ip_ecn h /\
     0 <= ip_tos h' < 256 /\ same_but_tos h' h) /\
  (~ 0 <= v < 64 -> ip_set_dscp v h = Err EValue).
Proof. intros Ht. split; intros Hv; unfold ip_set_dscp.
  - replace ((0 <=? v) && (v <? 64)) with true by lia. eexists. split; [reflexivity|].
    rewrite ip_dscp_div, !ip_ecn_mod. unfold ip_with_tos. cbn [ip_tos].
    rewrite dscp_bits by lia. split; [lia|]. split; [lia|]. split; [lia|]. repeat split.
  - replace ((0 <=? v) && (v <? 64)) with false by lia. reflexivity. Qed.

Lemma ecn_table : forallb (fun tos => forallb (fun v =>
    Bool.eqb ((Z.lor (Z.land tos 0xfa) v / 4 =? tos / 4) && (Z.lor (Z.land tos 0xfa) v mod 4 =? v))
             (((tos / 4) mod 2 =? 0) && ((tos mod 4 <? 2) || (2 <=? v))))
   [0; 1; 2; 3]) (map Z.of_nat (seq 0 256)) = true.
Proof. vm_compute. reflexivity. Qed.

(** Exactly when assigning ecn works: the DSCP must be even and bit 1 of the old ecn must not be set unless the new has it. *)
Lemma set_ecn_exact h v : 0 <= ip_tos h < 256 -> 0 <= v < 4 ->
  exists h', ip_set_ecn v h = Ok h' /\ same_but_tos h' h /\
  ((ip_ecn h' = v /\ ip_dscp h' = ip_dscp h) <-> (ip_dscp h mod 2 = 0 /\ (2 <= ip_ecn h -> 2 <= v))).
Proof. intros Ht Hv. unfold ip_set_ecn. replace ((0 <=? v) && (v <? 4)) with true by lia. eexists. split; [reflexivity|].
  split; [repeat split|]. rewrite !ip_dscp_div, !ip_ecn_mod. unfold ip_with_tos. cbn [ip_tos].
  pose proof ecn_table as T. rewrite forallb_forall in T.
  assert (Hin : In (ip_tos h) (map Z.of_nat (seq 0 256))).
  { apply in_map_iff. exists (Z.to_nat (ip_tos h)). split; [lia|]. apply in_seq. lia. }
  specialize (T _ Hin). rewrite forallb_forall in T.
  assert (Hv' : In v [0; 1; 2; 3]) by (cbn; lia). specialize (T _ Hv'). apply Bool.eqb_prop in T.
  split; intros [A B].
  - rewrite A, B in T. lia.
  - destruct ((_ =? ip_tos h / 4) && _) eqn:Ex; lia. Qed.

(** ** Re-serialising what was parsed (option-free) *)
Lemma checksum_unique a b c c' : wfb a -> wfb b -> wfb c -> wfb c' -> length c = 2%nat -> length c' = 2%nat ->
  Nat.even (length a) = true -> verifies (a ++ c ++ b) -> verifies (a ++ c' ++ b) ->
  unbe c mod 65535 = unbe c' mod 65535.
Proof. intros Wa Wb Wc Wc' Lc Lc' He Hv Hv'.
  destruct c as [|x [|y [|]]]; try discriminate. destruct c' as [|x' [|y' [|]]]; try discriminate.
  assert (U : forall p q, unbe [p; q] = 256 * p + q) by (intros; cbn [unbe length]; change (256 ^ Z.of_nat 1) with 256; change (256 ^ Z.of_nat 0) with 1; lia).
  rewrite !U. destruct (Z.eq_dec ((256 * x + y) mod 65535) ((256 * x' + y') mod 65535)) as [|Hn]; auto.
  exfalso. apply (corrupted_word_detected a b x y x' y'); auto. rewrite !wfb_app; auto. Qed.

Ltac ipcbn H := cbn [bindr ip_with_tos ip_with_totlen ip_new ip_tos ip_totlen ip_ttl ip_id ip_flags ip_frag ip_proto ip_src ip_dst ip_opts] in H.

Lemma ip_parse_inv raw h rest : wfb raw -> ip_from_bytes raw = Ok (h, rest) ->
  exists hl c, 0 <= hl < 16 /\ 0 <= c < 65536 /\ hl * 4 <= zlen raw /\ (20 <= length raw)%nat /\
  rest = skipn (Z.to_nat (hl * 4)) raw /\
  opts_from_bytes (S (length (skipn 20 (firstn (Z.to_nat (hl * 4)) raw)))) (skipn 20 (firstn (Z.to_nat (hl * 4)) raw)) = Ok (ip_opts h) /\
  (Forall wf_opt (ip_opts h) -> wf_ip h) /\ (In (ip_flags h) IPFragmentFlags /\ 0 <= ip_frag h < 8192) /\
  firstn 20 raw = ip_front h hl ++ be 2 c ++ ip_src h ++ ip_dst h.
Proof. intros Hw H. unfold ip_from_bytes in H.
  destruct (Nat.ltb (length raw) 20) eqn:Hl; [discriminate|]. apply Nat.ltb_ge in Hl.
  destruct (unpack ip_fmt (firstn 20 raw)) as [vs|] eqn:Hu; [|discriminate].
  pose proof (unpack_shaped _ _ _ (wfb_firstn _ _ Hw) Hu) as Hs.
  pose proof (pack_take ip_fmt vs raw 20 Hw eq_refl eq_refl Hu) as Hp.
  unfold ip_fmt in Hs. shape Hs. cbn [bindr] in H. pow256.
  destruct (negb (Z.shiftr z 4 =? 4)) eqn:Hv; [discriminate|].
  destruct (zlen raw <? Z.land z 15 * 4) eqn:Hhl; [discriminate|].
  unfold ip_set_tos in H. destruct ((0 <=? z0) && (z0 <? 256)) eqn:E1; [|discriminate]. ipcbn H.
  unfold ip_set_id in H. destruct ((0 <=? z2) && (z2 <? 65536)) eqn:E2; [|discriminate]. ipcbn H.
  unfold ip_set_flags in H. destruct (enum_of IPFragmentFlags (Z.shiftr z3 13)) as [fl|] eqn:E3; [|discriminate]. ipcbn H.
  apply enum_of_ok in E3 as [-> E3].
  unfold ip_set_frag in H. destruct (_ && (Z.land z3 8191 <? 2 ^ 13)) eqn:E4; [|discriminate]. ipcbn H.
  unfold ip_set_ttl in H. destruct (_ && (z4 <=? 255)) eqn:E5; [|discriminate]. ipcbn H.
  unfold ip_set_proto in H. destruct (enum_of IPProtocols z5) as [pr|] eqn:E6; [|discriminate]. ipcbn H.
  apply enum_of_ok in E6 as [-> E6].
  rewrite !ip_of_bytes4 in H by auto. ipcbn H.
  destruct (opts_from_bytes _ _) as [os|] eqn:Eo; [|discriminate]. ipcbn H.
  apply ok_inj in H. inversion H as [[Hh Hr]]. clear H.
  change 15 with (2 ^ 4 - 1) in *. rewrite land_ones_mod in * by lia. change (2 ^ 4) with 16 in *.
  rewrite Z.shiftr_div_pow2 in Hv by lia. change (2 ^ 4) with 16 in Hv.
  exists (z mod 16), z6.
  split; [lia|]. split; [lia|]. split; [lia|]. split; [exact Hl|]. split; [reflexivity|].
  cbn [ip_opts]. split; [exact Eo|].
  assert (Hwf0 : Forall wf_opt os -> wf_ip h).
  { intros Hos. rewrite <- Hh. unfold wf_ip. cbn. change (2 ^ 13) with 8192 in E4. repeat split; auto; lia. }
  rewrite Hh. split; [exact Hwf0|].
  split. { rewrite <- Hh. cbn. change (2 ^ 13) with 8192 in E4. split; [exact E3|lia]. }
  set (h0 := mkIp4 z0 z1 z4 z2 (Z.shiftr z3 13) (Z.land z3 8191) z5 b b0 []).
  assert (Hwf : wf_ip h0).
  { unfold wf_ip, h0. cbn [ip_tos ip_totlen ip_ttl ip_id ip_flags ip_frag ip_proto ip_src ip_dst ip_opts].
    change (2 ^ 13) with 8192 in E4. repeat split; auto; lia. }
  pose proof (ip_pack h0 (z mod 16) z6 Hwf ltac:(lia) ltac:(lia)) as Hpk.
  replace (64 + z mod 16) with z in Hpk by lia. unfold h0 in Hpk at 1 2 3 4 5 6 7 8 9.
  cbn [ip_tos ip_totlen ip_ttl ip_id ip_flags ip_frag ip_proto ip_src ip_dst ip_opts] in Hpk.
  change 8191 with (2 ^ 13 - 1) in Hpk at 1. rewrite (split_bits z3 13) in Hpk by lia.
  fold ip_fmt in Hp. rewrite Hp in Hpk. apply ok_inj in Hpk. rewrite Hpk.
  rewrite <- Hh. reflexivity. Qed.

Theorem ip_reserialise raw h rest : wfb raw -> ip_from_bytes raw = Ok (h, rest) ->
  hd 0 raw = 0x45 -> verifies (firstn 20 raw) -> firstn 2 (skipn 10 raw) <> [255; 255] ->
  ip_to_bytes h = Ok (firstn 20 raw) /\ rest = skipn 20 raw.
Proof. intros Hw H H45 Hv Hff.
  destruct (ip_parse_inv raw h rest Hw H) as (hl & c & Rhl & Rc & Hz & Hl & Hr & Ho & Hwf & _ & Hraw).
  assert (Hd : hd 0 raw = 64 + hl).
  { destruct raw as [|x raw]; [cbn in Hl; lia|]. cbn [hd]. cbn [firstn] in Hraw. unfold ip_front in Hraw. cbn [app] in Hraw.
    apply cons_inj in Hraw as [-> _]. reflexivity. }
  assert (hl = 5) by lia. subst hl. change (Z.to_nat (5 * 4)) with 20%nat in *.
  assert (Hempty : skipn 20 (firstn 20 raw) = []) by (apply skipn_all2; rewrite firstn_length; lia).
  rewrite Hempty in Ho. cbn in Ho. apply ok_inj in Ho.
  assert (Hwfh : wf_ip h) by (apply Hwf; rewrite <- Ho; constructor).
  destruct (ip_serialise h [] Hwfh) as (c' & Rc' & _ & Hb & Hv' & Hw' & _); [rewrite <- Ho; reflexivity|cbn; lia|].
  change (5 + zlen [] / 4) with 5 in *. split; [|exact Hr].
  rewrite !app_nil_r in *. rewrite Hb. f_equal. rewrite Hraw in *.
  pose proof (ip_front_wfb h 5 Hwfh ltac:(lia)) as Wf.
  pose proof Hwfh as (_ & _ & _ & _ & _ & _ & _ & (W8 & L8) & (W9 & L9) & _).
  assert (Wt : wfb (ip_src h ++ ip_dst h)) by (apply wfb_app; auto).
  pose proof (checksum_unique _ _ _ _ Wf Wt (be_wfb 2 c) (be_wfb 2 c') (be_length 2 c) (be_length 2 c') eq_refl Hv Hv') as Hu.
  rewrite !unbe_be_small in Hu by (pow256; lia).
  assert (Hc : c <> 65535).
  { intros ->. apply Hff. rewrite <- (slice_firstn 2 10 20 raw) by lia. rewrite Hraw.
    rewrite skipn_app_exact by reflexivity. rewrite firstn_app_exact by (rewrite be_length; reflexivity). reflexivity. }
  assert (c = c') by lia. subst c'. reflexivity. Qed.

(** ** Property-level statements *)
Lemma ip_fixed_round_trip h payload : wf_ip h -> ip_opts h = [] -> 20 + zlen payload <= 65535 ->
  exists h' b c, ip_pre_serialize (zlen payload) h = Ok h' /\ h' = ip_with_totlen (20 + zlen payload) h /\
  ip_to_bytes h' = Ok b /\
  b = [0x45; ip_tos h; (20 + zlen payload) / 256; (20 + zlen payload) mod 256; ip_id h / 256; ip_id h mod 256;
       32 * ip_flags h + ip_frag h / 256; ip_frag h mod 256; ip_ttl h; ip_proto h] ++ be 2 c ++ ip_src h ++ ip_dst h /\
  0 <= c < 65536 /\ verifies b /\ wfb b /\ ip_from_bytes (b ++ payload) = Ok (h', payload).
Proof. intros Hwf Ho Hl. pose proof (zlen_nonneg payload) as Hz.
  set (h' := ip_with_totlen (20 + zlen payload) h).
  assert (Hwf' : wf_ip h').
  { destruct Hwf as (H1 & H2 & H3 & H4 & H5 & H6 & H7 & H8 & H9 & H10). unfold wf_ip, h', ip_with_totlen.
    cbn [ip_tos ip_totlen ip_ttl ip_id ip_flags ip_frag ip_proto ip_src ip_dst ip_opts]. repeat split; auto; try lia; try (apply H8); try (apply H9). }
  assert (Ho' : opts_to_bytes (ip_opts h') = Ok []) by (unfold h', ip_with_totlen; cbn [ip_opts]; rewrite Ho; reflexivity).
  destruct (ip_serialise h' [] Hwf' Ho' ltac:(cbn; lia)) as (c & Rc & _ & Hb & Hv & Hw & _).
  change (5 + zlen [] / 4) with 5 in *. rewrite app_nil_r in *.
  exists h'. eexists. exists c. split; [unfold ip_pre_serialize, ip_size; rewrite Ho; reflexivity|]. split; [reflexivity|].
  split; [exact Hb|]. split; [reflexivity|]. split; [lia|]. split; [exact Hv|]. split; [exact Hw|].
  destruct (ip_parse h' [] _ payload Hwf' Ho' ltac:(cbn; lia) Hb) as (os' & (k & _ & Hk & Eos) & Hp).
  unfold h', ip_with_totlen in Hk, Eos. cbn [ip_opts] in Hk, Eos. rewrite (Hk Ho), Ho in Eos. cbn in Eos.
  rewrite Hp, Eos. unfold h', ip_with_totlen. cbn [ip_tos ip_totlen ip_ttl ip_id ip_flags ip_frag ip_proto ip_src ip_dst ip_opts].
  rewrite Ho. reflexivity. Qed.

Lemma ip_too_long h n : 0 <= n -> 65535 < 20 + n -> forall h', ip_pre_serialize n h = Ok h' -> ip_to_bytes h' = Err EStruct.
Proof. intros Hn Hl h' H. unfold ip_pre_serialize, ip_size in H.
  destruct (opts_to_bytes (ip_opts h)) as [ob|] eqn:Eo; [|discriminate]. cbn [bindr] in H. apply ok_inj in H. subst h'.
  pose proof (zlen_nonneg ob). unfold ip_to_bytes, ip_checksum, ip_size, ip_with_totlen. cbn [ip_opts]. rewrite Eo. cbn [bindr].
  unfold ip_fmt. cbn [pack ip_totlen]. pow256.
  replace ((0 <=? 20 + zlen ob + n) && (20 + zlen ob + n <? 65536)) with false by lia.
  destruct ((0 <=? Z.shiftl 4 4 + (20 + zlen ob) / 4) && (Z.shiftl 4 4 + (20 + zlen ob) / 4 <? 256)); [|reflexivity]. cbn [bindr].
  destruct ((0 <=? ip_tos _) && _); reflexivity. Qed.

Lemma ip_options_round_trip h ob payload : wf_ip h -> opts_to_bytes (ip_opts h) = Ok ob -> zlen ob <= 40 ->
  20 + zlen ob + zlen payload <= 65535 ->
  exists h' b k, ip_pre_serialize (zlen payload) h = Ok h' /\ ip_to_bytes h' = Ok b /\
  zlen b = 20 + zlen ob /\ verifies b /\ (k <= 4)%nat /\ (ip_opts h = [] -> k = O) /\
  hd 0 b = 64 + zlen b / 4 /\
  ip_from_bytes (b ++ payload) =
    Ok (mkIp4 (ip_tos h) (20 + zlen ob + zlen payload) (ip_ttl h) (ip_id h) (ip_flags h) (ip_frag h) (ip_proto h)
              (ip_src h) (ip_dst h) (ip_opts h ++ repeat OEnd k), payload).
Proof. intros Hwf Ho H40 Hl. pose proof (zlen_nonneg payload) as Hz. pose proof (zlen_nonneg ob) as Hz'.
  set (h' := ip_with_totlen (20 + zlen ob + zlen payload) h).
  assert (Hwf' : wf_ip h').
  { destruct Hwf as (H1 & H2 & H3 & H4 & H5 & H6 & H7 & H8 & H9 & H10). unfold wf_ip, h', ip_with_totlen.
    cbn [ip_tos ip_totlen ip_ttl ip_id ip_flags ip_frag ip_proto ip_src ip_dst ip_opts]. repeat split; auto; try lia; try (apply H8); try (apply H9). }
  assert (Ho' : opts_to_bytes (ip_opts h') = Ok ob) by exact Ho.
  destruct (ip_serialise h' ob Hwf' Ho' H40) as (c & Rc & _ & Hb & Hv & Hw & Hm).
  destruct (ip_parse h' ob _ payload Hwf' Ho' H40 Hb) as (os' & (k & Hk4 & Hk & Eos) & Hp).
  exists h'. eexists. exists k. split; [unfold ip_pre_serialize, ip_size; rewrite Ho; reflexivity|].
  split; [exact Hb|]. pose proof Hwf as (_ & _ & _ & _ & _ & _ & _ & (W8 & L8) & (W9 & L9) & _).
  assert (Hlen : zlen (ip_front h' (5 + zlen ob / 4) ++ be 2 c ++ ip_src h' ++ ip_dst h' ++ ob) = 20 + zlen ob).
  { assert (E1 : zlen (ip_front h' (5 + zlen ob / 4)) = 10) by reflexivity.
    assert (E2 : zlen (be 2 c) = 2) by (unfold zlen; rewrite be_length; reflexivity).
    assert (E3 : zlen (ip_src h') = 4) by (unfold zlen; change (ip_src h') with (ip_src h); rewrite L8; reflexivity).
    assert (E4 : zlen (ip_dst h') = 4) by (unfold zlen; change (ip_dst h') with (ip_dst h); rewrite L9; reflexivity).
    rewrite !zlen_app, E1, E2, E3, E4. lia. }
  split; [exact Hlen|]. split; [exact Hv|]. split; [exact Hk4|]. split; [exact Hk|]. split.
  { rewrite Hlen. cbn [ip_front app hd]. lia. }
  rewrite Hp, Eos. reflexivity. Qed.

Lemma opt_new_wf num : In num IPOptionNumbers -> exists o, opt_new num = Ok o /\ wf_opt o.
Proof. intros H.
  assert (Z4 : ip4 (repeat 0 4)) by (split; [auto with wfb|reflexivity]).
  assert (HR : forall n, n = 3 \/ n = 7 \/ n = 9 -> wf_opt (ORoute n 4 (repeat (repeat 0 4) 9))).
  { intros n Hn. cbn [wf_opt]. split; [exact Hn|]. split; [|change (zlen (repeat (repeat 0 4) 9)) with 9; split; [lia|split; [lia|]]; lia].
    apply Forall_forall. intros x Hx. apply repeat_spec in Hx. subst x. exact Z4. }
  unfold IPOptionNumbers in H.
  destruct H as [<-|[<-|[<-|[<-|[<-|[<-|[<-|[<-|[<-|[]]]]]]]]]]; eexists; (split; [reflexivity|]); auto; cbn [wf_opt]; auto; try lia.
  change (zlen (repeat (Some (repeat 0 4), 0) 4)) with 4. change (1 =? 0) with false. cbn iota.
  split; [lia|]. split; [lia|]. split; [|lia].
  apply Forall_forall. intros x Hx. apply repeat_spec in Hx. subst x. split; cbn [fst snd]; [change (2 ^ 32) with 4294967296; lia|].
  exists (repeat 0 4). split; [reflexivity|exact Z4]. Qed.

Lemma ts_flag0_lost :
  exists os b, os = [OTs 5 0 (repeat (Some (repeat 0 4), 0) 4)] /\ opts_to_bytes os = Ok b /\
  forall fuel os' , opts_from_bytes fuel b = Ok os' -> forall k, os' <> os ++ repeat OEnd k.
Proof. eexists. eexists. split; [reflexivity|]. split; [vm_compute; reflexivity|].
  intros fuel os' H k E. destruct fuel as [|fuel]; [discriminate|].
  assert (Hf : opts_from_bytes (S (S (S (S (S (S (S (S (S (S (S (S (S (S (S (S (S (S (S (S (S (S (S (S (S fuel)))))))))))))))))))))))))
     [68; 20; 5; 0; 0; 0; 0; 0; 0; 0; 0; 0; 0; 0; 0; 0; 0; 0; 0; 0; 0; 0; 0; 0] = Ok os').
  { eapply opts_fuel_mono; [exact H|discriminate|lia]. }
  vm_compute in Hf. apply ok_inj in Hf. rewrite <- Hf in E. cbn in E. discriminate. Qed.

Lemma route_empty_unparseable : exists b, opts_to_bytes [ORoute 7 4 []] = Ok b /\
  forall fuel os, opts_from_bytes fuel b <> Ok os.
Proof. eexists. split; [vm_compute; reflexivity|]. intros [|fuel] os; [discriminate|]. vm_compute. discriminate. Qed.

Lemma opts_terminates raw : wfb raw ->
  (forall p ty r, raw = p ++ ty :: 0 :: r -> ty mod 32 <> 4) ->
  exists r, r <> Err EFuel /\ forall fuel, (length raw < fuel)%nat -> opts_from_bytes fuel raw = r.
Proof. intros Hw Hn. destruct (opts_dichotomy raw Hw) as [H|(_ & p & ty & r & E & Ht)]; auto.
  exfalso. apply (Hn p ty r E). change 0x1f with (2 ^ 5 - 1) in Ht. rewrite land_ones_mod in Ht by lia. exact Ht. Qed.

Lemma opts_all_or_nothing raw : wfb raw ->
  (exists r, r <> Err EFuel /\ forall fuel, (length raw < fuel)%nat -> opts_from_bytes fuel raw = r) \/
  (forall fuel, opts_from_bytes fuel raw = Err EFuel).
Proof. intros Hw. destruct (opts_dichotomy raw Hw) as [H|(H & _)]; auto. Qed.

Lemma ts_length0_loops :
  exists raw, wfb raw /\ length raw = 24%nat /\ verifies raw /\ ip_from_bytes raw = Err EFuel /\
  forall fuel, opts_from_bytes fuel (skipn 20 raw) = Err EFuel.
Proof. exists [0x46;0;0;24;0;0;0;0;64;17; 0x1c;0xd3; 10;0;0;1; 10;0;0;2; 0x44;0;5;0].
  split; [repeat constructor; lia|]. split; [reflexivity|]. split; [vm_compute; reflexivity|].
  split; [vm_compute; reflexivity|]. cbn [skipn]. induction fuel as [|fuel IH]; [reflexivity|].
  rewrite (opts_from_step fuel 0x44 [0; 5; 0] 4 (OTs 5 0 []) 0) by reflexivity.
  change (skipn (Z.to_nat 0) [0x44; 0; 5; 0]) with [0x44; 0; 5; 0]. rewrite IH. reflexivity. Qed.

Lemma too_many_options :
  exists h b, wf_ip h /\ ip_to_bytes h = Ok b /\ (60 < length b)%nat /\ hd 0 b mod 16 * 4 < zlen b.
Proof. exists (mkIp4 0 20 64 0 0 0 ipUDP [10;0;0;1] [10;0;0;2] (repeat (O4 20 0 0x80) 10)). eexists.
  split.
  - unfold wf_ip. cbn [ip_tos ip_totlen ip_ttl ip_id ip_flags ip_frag ip_proto ip_src ip_dst ip_opts].
    split; [lia|]. split; [lia|]. split; [lia|]. split; [lia|]. split; [cbn; auto|]. split; [lia|]. split; [cbn; auto 10|].
    split; [split; [repeat constructor; lia|reflexivity]|]. split; [split; [repeat constructor; lia|reflexivity]|].
    apply Forall_forall. intros x Hx. apply repeat_spec in Hx. subst x. cbn [wf_opt]. lia.
  - split; [vm_compute; reflexivity|]. split; [cbn; lia|vm_compute; reflexivity]. Qed.

Lemma ip_setters h v :
  (0 <= v <= 255 -> exists h', ip_set_ttl v h = Ok h' /\ h' =
     mkIp4 (ip_tos h) (ip_totlen h) v (ip_id h) (ip_flags h) (ip_frag h) (ip_proto h) (ip_src h) (ip_dst h) (ip_opts h)) /\
  (~ 0 <= v <= 255 -> ip_set_ttl v h = Err EValue) /\
  (0 <= v < 8192 -> exists h', ip_set_frag v h = Ok h' /\ h' =
     mkIp4 (ip_tos h) (ip_totlen h) (ip_ttl h) (ip_id h) (ip_flags h) v (ip_proto h) (ip_src h) (ip_dst h) (ip_opts h)) /\
  (~ 0 <= v < 8192 -> ip_set_frag v h = Err EValue) /\
  (v = 0 \/ v = 2 \/ v = 4 -> exists h', ip_set_flags v h = Ok h' /\ h' =
     mkIp4 (ip_tos h) (ip_totlen h) (ip_ttl h) (ip_id h) v (ip_frag h) (ip_proto h) (ip_src h) (ip_dst h) (ip_opts h)) /\
  (~ (v = 0 \/ v = 2 \/ v = 4) -> ip_set_flags v h = Err EValue).
Proof. unfold ip_set_ttl, ip_set_frag, ip_set_flags. change (2 ^ 13) with 8192.
  split; [intros H; replace ((0 <=? v) && (v <=? 255)) with true by lia; eauto|].
  split; [intros H; replace ((0 <=? v) && (v <=? 255)) with false by lia; eauto|].
  split; [intros H; replace ((0 <=? v) && (v <? 8192)) with true by lia; eauto|].
  split; [intros H; replace ((0 <=? v) && (v <? 8192)) with false by lia; eauto|].
  unfold enum_of, IPFragmentFlags. split; intros H.
  - replace (zmem v [0; 2; 4]) with true. { cbn [bindr]. eauto. }
    symmetry. apply zmem_In. cbn. lia.
  - destruct (zmem v [0; 2; 4]) eqn:E; [|reflexivity]. apply zmem_In in E. cbn in E. exfalso. lia. Qed.

Lemma ecn_wrong :
  (exists h v h', 0 <= ip_tos h < 256 /\ 0 <= v < 4 /\ ip_set_ecn v h = Ok h' /\ ip_dscp h' <> ip_dscp h) /\
  (exists h v h', 0 <= ip_tos h < 256 /\ 0 <= v < 4 /\ ip_set_ecn v h = Ok h' /\ ip_ecn h' <> v).
Proof. split.
  - exists (ip_with_tos 4 ip_new), 0. eexists. split; [cbn; lia|]. split; [lia|]. split; [reflexivity|]. vm_compute. discriminate.
  - exists (ip_with_tos 2 ip_new), 1. eexists. split; [cbn; lia|]. split; [lia|]. split; [reflexivity|]. vm_compute. discriminate. Qed.

Lemma more_fragments_wrong :
  (exists raw, wfb raw /\ length raw = 20%nat /\ verifies raw /\ nth 6 raw 0 / 32 = 1 /\ ip_from_bytes raw = Err EValue) /\
  (exists h b, ip_set_flags 4 ip_new = Ok h /\ ip_to_bytes h = Ok b /\ nth 6 b 0 / 32 = 4).
Proof. split.
  - exists [0x45;0;0;20;0;0;0x20;0;64;17; 0x46;0xd7; 10;0;0;1; 10;0;0;2].
    split; [repeat constructor; lia|]. split; [reflexivity|]. split; [vm_compute; reflexivity|]. split; vm_compute; reflexivity.
  - eexists. eexists. split; [reflexivity|]. split; vm_compute; reflexivity. Qed.

Lemma nth_firstn {A} n : forall i (l : list A) d, (i < n)%nat -> nth i (firstn n l) d = nth i l d.
Proof. induction n as [|n IH]; intros i l d H; [lia|]. destruct l as [|x l]; [destruct i; reflexivity|].
  destruct i as [|i]; [reflexivity|]. cbn. apply IH. lia. Qed.

Lemma ip_flags_parsed raw h rest : wfb raw -> ip_from_bytes raw = Ok (h, rest) ->
  ip_flags h = nth 6 raw 0 / 32 /\ In (nth 6 raw 0 / 32) [0; 2; 4] /\
  ip_frag h = 256 * (nth 6 raw 0 mod 32) + nth 7 raw 0.
Proof. intros Hw H. 
  destruct (ip_parse_inv raw h rest Hw H) as (hl & c & Rhl & Rc & Hz & Hl & _ & _ & _ & (Hf & Hr) & Hraw).
  assert (N6 : nth 6 raw 0 = 32 * ip_flags h + ip_frag h / 256).
  { rewrite <- (nth_firstn 20) by lia. rewrite Hraw. reflexivity. }
  assert (N7 : nth 7 raw 0 = ip_frag h mod 256).
  { rewrite <- (nth_firstn 20) by lia. rewrite Hraw. reflexivity. }
  assert (E : nth 6 raw 0 / 32 = ip_flags h) by lia.
  rewrite E. split; [reflexivity|]. split; [exact Hf|]. lia. Qed.

Lemma ip_short_ihl :
  exists raw h rest, wfb raw /\ hd 0 raw mod 16 = 0 /\ ip_from_bytes raw = Ok (h, rest) /\ rest = raw.
Proof. exists [0x40;0;0;20;0;0;0;0;64;17; 0;0; 10;0;0;1; 10;0;0;2]. eexists. eexists.
  split; [repeat constructor; lia|]. split; [reflexivity|]. split; [vm_compute; reflexivity|]. reflexivity. Qed.

Lemma ip_ihl_parsed raw h rest : wfb raw -> ip_from_bytes raw = Ok (h, rest) ->
  rest = skipn (Z.to_nat (4 * (hd 0 raw mod 16))) raw /\ 4 * (hd 0 raw mod 16) <= zlen raw /\
  (20 <= length raw)%nat /\ hd 0 raw / 16 = 4.
Proof. intros Hw H.
  destruct (ip_parse_inv raw h rest Hw H) as (hl & c & Rhl & Rc & Hz & Hl & Hr & _ & _ & _ & Hraw).
  assert (Hd : hd 0 raw = 64 + hl).
  { destruct raw as [|x raw]; [cbn in Hl; lia|]. cbn [hd]. cbn [firstn] in Hraw. unfold ip_front in Hraw. cbn [app] in Hraw.
    apply cons_inj in Hraw as [-> _]. reflexivity. }
  rewrite Hd. replace (4 * ((64 + hl) mod 16)) with (hl * 4) by lia. repeat split; auto; lia. Qed.

Lemma options_change :
  (exists raw h rest b, wfb raw /\ length raw = 24%nat /\ verifies raw /\
     ip_from_bytes raw = Ok (h, rest) /\ ip_to_bytes h = Ok b /\ length b = 28%nat) /\
  (exists raw h rest b, wfb raw /\ length raw = 28%nat /\ verifies raw /\ nth 20 raw 0 = 131 /\
     ip_from_bytes raw = Ok (h, rest) /\ ip_to_bytes h = Ok b /\ nth 20 b 0 = 3).
Proof. split.
  - exists [0x46;0;0;24;0;0;0;0;64;17; 0x64;0xd3; 10;0;0;1; 10;0;0;2; 1;0;0;0]. eexists. eexists. eexists.
    split; [repeat constructor; lia|]. split; [reflexivity|]. split; [vm_compute; reflexivity|]. split; [vm_compute; reflexivity|].
    split; vm_compute; reflexivity.
  - exists [0x47;0;0;28;0;0;0;0;64;17; 0xda;0xbd; 10;0;0;1; 10;0;0;2; 131;7;4;10;0;0;3;0]. eexists. eexists. eexists.
    split; [repeat constructor; lia|]. split; [reflexivity|]. split; [vm_compute; reflexivity|]. split; [reflexivity|].
    split; [vm_compute; reflexivity|].
    split; vm_compute; reflexivity. Qed.

Lemma opts_concat_app a b : opts_concat (a ++ b) = (x <- opts_concat a;; y <- opts_concat b;; Ok (x ++ y)).
Proof. induction a as [|o a IH]; cbn [app opts_concat].
  - cbn. destruct (opts_concat b); reflexivity.
  - destruct (opt_to_bytes o); cbn [bindr]; [|reflexivity]. rewrite IH.
    destruct (opts_concat a); cbn [bindr]; [|reflexivity]. destruct (opts_concat b); cbn [bindr]; [rewrite app_assoc|]; reflexivity. Qed.
Lemma opts_concat_end k : opts_concat (repeat OEnd k) = Ok (repeat 0 k).
Proof. induction k as [|k IH]; cbn [repeat opts_concat]; auto. rewrite IH. reflexivity. Qed.

Lemma options_grow_one_word os b fuel os' b' : os <> [] -> Forall wf_opt os -> opts_to_bytes os = Ok b -> (length b < fuel)%nat ->
  opts_from_bytes fuel b = Ok os' -> opts_to_bytes os' = Ok b' -> b' = b ++ [0; 0; 0; 0].
Proof. intros Hne Hf Hb Hfu Hp Hb'.
  destruct (opts_round_trip os Hne Hf) as (body & H1 & H2 & H3 & H4 & H5 & H6).
  rewrite H4 in Hb. apply ok_inj in Hb. subst b. rewrite H6 in Hp by auto. apply ok_inj in Hp. subst os'.
  set (pad := padlen (length body)) in *.
  assert (Hc : opts_concat (os ++ repeat OEnd pad) = Ok (body ++ repeat 0 pad)).
  { rewrite opts_concat_app, H1, opts_concat_end. reflexivity. }
  unfold opts_to_bytes in Hb'. destruct (os ++ repeat OEnd pad) eqn:E.
  { apply app_eq_nil in E as [E _]. contradiction. }
  rewrite Hc in Hb'. cbn [bindr] in Hb'. rewrite H5 in Hb'. apply ok_inj in Hb'. subst b'. reflexivity. Qed.
