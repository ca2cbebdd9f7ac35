(** Properties C18, C19, C20, C21, C64: ICMP and ICMPv6. *)
From Verif Require Import BaseLemmas CodecLemmas EthAddrModel EthAddrSpec Enums ArpModel EthProofs ChecksumModel ChecksumSpec Ipv4Model
  Ipv6Model IcmpModel IcmpProofs IcmpCodecProofs IcmpFwdProofs.

(** C18, for both families ([v6]).  After any sequence of assignments, accepted or refused, code and data belong to the
    type; and each refused assignment leaves the message as it was.  Missing for the full claim: data objects that
    belong to no type of the family (see the refutation). *)
Theorem C18_consistent_partial :
  forall v6 ops, Forall (op_ok v6) ops -> consistent v6 (icmp_run v6 ops (icmp_new v6)).
Proof. exact (fun v6 ops H => icmp_run_consistent v6 ops _ H (icmp_new_consistent v6)). Qed.
Print Assumptions C18_consistent_partial.
Theorem C18_refused_unchanged_partial :
  forall v6 ops o e, Forall (op_ok v6) ops -> op_ok v6 o ->
  snd (icmp_step v6 o (icmp_run v6 ops (icmp_new v6))) = Some e ->
  fst (icmp_step v6 o (icmp_run v6 ops (icmp_new v6))) = icmp_run v6 ops (icmp_new v6).
Proof. exact (fun v6 ops o e H Ho He => proj2 (icmp_step_ok v6 o _ Ho (icmp_run_consistent v6 ops _ H (icmp_new_consistent v6))) e He). Qed.
Print Assumptions C18_refused_unchanged_partial.
(** An accepted type or data assignment takes effect: the message has that type with code 0, resp. that data object. *)
Theorem C18_type_assigned :
  forall v6 z (m : icmp), In z (if v6 : bool then [1; 128; 129; 130; 131; 132; 133; 134; 135; 136; 137; 143]
                       else [0; 3; 4; 5; 8; 9; 10; 11; 12; 13; 14; 15; 16; 17; 18]) ->
  exists d, icmp_step v6 (OpType (TInt z)) m = (mkIcmp z 0 d (ic_csum m), None).
Proof. intros v6 z m H. destruct (set_type_spec v6 z m) as (c & _ & E); [destruct v6; exact H|]. eexists. exact E. Qed.
Print Assumptions C18_type_assigned.
Theorem C18_data_assigned :
  forall v6 d m, own_data v6 d -> exists t, kind v6 t d /\ icmp_step v6 (OpData (DObj d)) m = (mkIcmp t 0 d (ic_csum m), None).
Proof. exact set_data_spec. Qed.
Print Assumptions C18_data_assigned.
Definition icmp_ops_ex : list icmp_op :=
  [OpType (TInt 11); OpCode (CInt 1); OpCode (CInt 7); OpData (DObj (DEcho false true 3 4 [7])); OpType (TInt 8); OpType (TInt 77)].
Example C18_example :
  Forall (op_ok false) icmp_ops_ex /\ icmp_run false icmp_ops_ex (icmp_new false) = mkIcmp 8 0 (DEcho false true 3 4 [7]) 0 /\
  icmp_run false (firstn 3 icmp_ops_ex) (icmp_new false) = mkIcmp 11 1 (DTimeEx 0 []) 0.
Proof. split; [|split; vm_compute; reflexivity]. repeat (constructor; [cbn; auto|]); [|constructor]. exists 0. cbn. auto. Qed.

(** C18 fails as stated: assigning a plain ICMPData object (or an ICMPv6 one to an ICMP message) raises ValueError
    and has replaced the data all the same, so the message then carries data of no type. *)
Theorem C18_foreign_data_refuted :
  exists m d e m', consistent false m /\ icmp_step false (OpData (DObj d)) m = (m', Some e) /\ m' <> m /\ ~ consistent false m'.
Proof. exists (icmp_new false), (DPlain KBase [1]), EValue, (with_data (DPlain KBase [1]) (icmp_new false)).
  split; [apply icmp_new_consistent|]. split; [apply icmp_foreign_data; reflexivity|]. split; [discriminate|]. intros [_ H]. exact H. Qed.
Print Assumptions C18_foreign_data_refuted.
Theorem C18_foreign_data6_refuted :
  exists m d e m', consistent false m /\ own_data true d /\ icmp_step false (OpData (DObj d)) m = (m', Some e) /\ m' <> m /\ ~ consistent false m'.
Proof. exists (icmp_new false), (DEcho true false 1 2 []), EValue, (with_data (DEcho true false 1 2 []) (icmp_new false)).
  split; [apply icmp_new_consistent|]. split; [exists 128; reflexivity|]. split; [apply icmp_foreign_data; reflexivity|]. split; [discriminate|]. intros [_ H]. exact H. Qed.
Print Assumptions C18_foreign_data6_refuted.

(** C19.  [received] only makes the request/reply class of the object follow the message type. *)
Theorem C19_round_trip :
  forall m, consistent false m -> wf_data (ic_data m) -> 4 + zlen (data_layout (ic_data m)) <= 65535 ->
  exists c b, 0 <= c < 65536 /\ icmp_to_bytes m = Ok b /\
  b = [ic_type m; ic_code m] ++ be 2 c ++ data_layout (ic_data m) /\ verifies b /\
  icmp_from_bytes false b = Ok (mkIcmp (ic_type m) (ic_code m) (received (ic_type m) (ic_data m)) c, []).
Proof. exact icmp4_serialise. Qed.
Print Assumptions C19_round_trip.
(** The data object read back is the one sent, whenever its class is the class of the type. *)
Theorem C19_same_data :
  forall t d, kind4 t d -> (forall r i s x, d = DEcho false r i s x -> (r = true <-> t = 0)) ->
  (forall r i s m x, d = DMask r i s m x -> (r = true <-> t = 18)) -> received t d = d.
Proof. intros t d Hk H1 H2. destruct d as [c x|x|a x|v odl mtu x|v r i s x|odl x|r i s m x|os|hl m o h p lt re rt os|tg os|r s o tg os|tg de os]; try reflexivity; try contradiction.
  - destruct v; [destruct r; contradiction|]. cbn [received]. f_equal. specialize (H1 _ _ _ _ eq_refl). destruct r; lia.
  - cbn [received]. f_equal. specialize (H2 _ _ _ _ _ eq_refl). destruct r; lia. Qed.
Print Assumptions C19_same_data.
Example C19_example :
  let m := mkIcmp 3 4 (DUnreach false 5 1400 [0x45; 0; 0; 1]) 0 in
  consistent false m /\ wf_data (ic_data m) /\ icmp_to_bytes m = Ok [3; 4; 0xb2; 0x7d; 0; 5; 5; 0x78; 0x45; 0; 0; 1].
Proof. cbv zeta. split; [split; cbn; auto; left; lia|]. split; [cbn; unfold u16; repeat split; try lia; repeat constructor; lia|]. vm_compute. reflexivity. Qed.
(** Bytes given to an address-mask message as data are not sent; hence [wf_data] asks for none. *)
Theorem C19_mask_data_refuted :
  exists m b m', consistent false m /\ data_payload (ic_data m) = [9] /\ icmp_to_bytes m = Ok b /\
  icmp_from_bytes false b = Ok (m', []) /\ data_payload (ic_data m') = [].
Proof. exists (mkIcmp 17 0 (DMask false 1 2 [255; 255; 0; 0] [9]) 0). do 2 eexists. split; [split; cbn; auto 20|].
  split; [reflexivity|]. split; [vm_compute; reflexivity|]. split; [vm_compute; reflexivity|]. vm_compute. reflexivity. Qed.
Print Assumptions C19_mask_data_refuted.

(** C20.  All messages, option lists and addresses; [received] shows what is missing: the router advertisement flags
    are lost, and [wf_nd] asks a redirected header to fill a multiple of eight bytes with its 2-byte option header. *)
Theorem C20_round_trip_partial :
  forall ip m, consistent true m -> wf_data (ic_data m) -> 4 + zlen (data_layout (ic_data m)) <= 65535 ->
  addr16 (v6_src ip) -> addr16 (v6_dst ip) ->
  exists c m' b, 0 <= c < 65536 /\ icmp6_pre_serialize (Some ip) m = Ok m' /\
  icmp6_to_bytes m' = Ok b /\ b = [ic_type m; ic_code m] ++ be 2 c ++ data_layout (ic_data m) /\
  verifies (pseudo6 (v6_src ip) (v6_dst ip) (zlen b) 58 ++ b) /\
  icmp_from_bytes true b = Ok (mkIcmp (ic_type m) (ic_code m) (received (ic_type m) (ic_data m)) c, []).
Proof. exact icmp6_serialise. Qed.
Print Assumptions C20_round_trip_partial.
Theorem C20_same_data :
  forall t d, kind6 t d -> (forall hl m o h p lt re rt os, d = DRA hl m o h p lt re rt os -> m = false /\ o = false /\ h = false /\ p = false) ->
  received t d = d.
Proof. intros t d Hk H. destruct d as [c x|x|a x|v odl mtu x|v r i s x|odl x|r i s m x|os|hl m o h p lt re rt os|tg os|r s o tg os|tg de os]; try reflexivity; try contradiction.
  - destruct v; [reflexivity|contradiction].
  - destruct (H _ _ _ _ _ _ _ _ _ eq_refl) as (-> & -> & -> & ->). reflexivity. Qed.
Print Assumptions C20_same_data.
Definition v6ex (k : Z) : bytes := [0x20; 1; 0xd; 0xb8] ++ repeat 0 11 ++ [k].
Definition na_ex : icmp := mkIcmp 136 0 (DNA true false true (v6ex 9) [NTarget [2; 0; 0; 0; 0; 7]; NMtu 1280]) 0.
Example C20_example :
  consistent true na_ex /\ wf_data (ic_data na_ex) /\
  data_layout (ic_data na_ex) = [0xa0; 0; 0; 0] ++ v6ex 9 ++ [2; 1; 2; 0; 0; 0; 0; 7] ++ [5; 1; 0; 0; 0; 0; 5; 0].
Proof. split; [split; cbn; auto 20|]. split; [|vm_compute; reflexivity].
  cbn [na_ex ic_data wf_data]. unfold addr16. split; [split; [|reflexivity]; repeat (apply wfb_cons; split; [lia|]); apply wfb_nil|].
  constructor; [|constructor; [cbn; lia|constructor]]. cbn. split; [repeat constructor; lia|reflexivity]. Qed.

(** C20 fails for router-advertisement flags: they are sent but read back as unset. *)
Theorem C20_ra_flags_refuted :
  exists m b m' c os, consistent true m /\ wf_data (ic_data m) /\ icmp6_to_bytes m = Ok b /\
  ic_data m = DRA 64 true true false false 1800 0 0 os /\ nth 5 b 0 = 0xc0 /\
  icmp_from_bytes true b = Ok (m', []) /\ m' = mkIcmp 134 0 (DRA 64 false false false false 1800 0 0 os) c.
Proof. exists (mkIcmp 134 0 (DRA 64 true true false false 1800 0 0 []) 0). do 4 eexists.
  split; [split; cbn; auto 20|]. split; [cbn; unfold u16; repeat split; try lia; constructor|].
  split; [vm_compute; reflexivity|]. split; [reflexivity|]. split; [vm_compute; reflexivity|].
  split; [vm_compute; reflexivity|]. reflexivity. Qed.
Print Assumptions C20_ra_flags_refuted.
(** C20 fails for a redirected header of 8 bytes: the message is written but cannot be read. *)
Theorem C20_redirected_refuted :
  exists m b, consistent true m /\
  ic_data m = DRedir6 (v6ex 1) (v6ex 2) [nredirected_new (repeat 7 8)] /\ icmp6_to_bytes m = Ok b /\
  icmp_from_bytes true b = Err ENotEnough.
Proof. exists (mkIcmp 137 0 (DRedir6 (v6ex 1) (v6ex 2) [nredirected_new (repeat 7 8)]) 0). eexists.
  split; [split; cbn; auto 20|]. split; [reflexivity|]. split; [vm_compute; reflexivity|]. vm_compute. reflexivity. Qed.
Print Assumptions C20_redirected_refuted.
(** C20 fails for the target link-layer option: the address given is dropped (all zero is sent). *)
Theorem C20_target_option_refuted :
  (forall arg, ntarget_new arg = Ok (NTarget [0; 0; 0; 0; 0; 0])) /\
  nsource_new (ABytes [2; 0; 0; 0; 0; 7]) = Ok (NSource [2; 0; 0; 0; 0; 7]).
Proof. split; reflexivity. Qed.
Print Assumptions C20_target_option_refuted.
(** Types the library names but does not support cannot be assigned or received (KeyError, TypeError). *)
Theorem C20_unsupported_types :
  forall t m b, In t [2; 3; 4; 100; 101; 138; 139; 144; 151; 200; 201] ->
  snd (icmp_set_type true (TInt t) m) = Some EType /\ fst (icmp_set_type true (TInt t) m) = m /\
  icmp_from_bytes true ([t; 0; 0; 0] ++ b) = Err EKey.
Proof. intros t m b H. in_cases H; repeat split; reflexivity. Qed.
Print Assumptions C20_unsupported_types.

(** C21.  Parsing finishes, within one step per byte, unless there is an option of unknown type with length 0. *)
Theorem C21_terminates_partial :
  forall raw, wfb raw -> ~ nd_stuck raw ->
  exists r, r <> Err EFuel /\ forall fuel, (length raw < fuel)%nat -> ndopts_from_bytes fuel raw = r.
Proof. exact nds_terminates. Qed.
Print Assumptions C21_terminates_partial.
(** ... and with such an option the loop never ends, however many steps are allowed. *)
Theorem C21_loop_refuted : exists raw, wfb raw /\ forall fuel, ndopts_from_bytes fuel raw = Err EFuel.
Proof. exists [14; 0; 0; 0; 0; 0; 0; 0]. split; [repeat (apply wfb_cons; split; [lia|]); apply wfb_nil|]. exact nds_loops. Qed.
Print Assumptions C21_loop_refuted.
Example C21_example :
  ~ nd_stuck [14; 1; 0; 0; 0; 0; 0; 0; 5; 1; 0; 0; 0; 0; 5; 0] /\
  ndopts_parse [14; 1; 0; 0; 0; 0; 0; 0; 5; 1; 0; 0; 0; 0; 5; 0] = Ok [NMtu 1280].
Proof. split; [|vm_compute; reflexivity]. intros H. inversion H as [|t n r Hl Hn H1]; subst. 
  change (nd_stuck [5; 1; 0; 0; 0; 0; 5; 0]) in H1. inversion H1 as [|t n r Hl' Hn' H2]; subst.
  change (nd_stuck []) in H2. inversion H2. Qed.

(** C64.  An ICMP message that is received with a verifying checksum (not written as the other zero), with the
    unused bytes of RFC 792 zero, and read to its end, is written back byte for byte. *)
Theorem C64_icmp_forward_partial :
  forall raw m, wfb raw -> zlen raw <= 65535 -> icmp_from_bytes false raw = Ok (m, []) ->
  verifies raw -> ic_csum m <> 65535 -> reserved_zero (nth 0 raw 0) (skipn 4 raw) ->
  icmp_to_bytes m = Ok raw.
Proof. exact icmp4_forward. Qed.
Print Assumptions C64_icmp_forward_partial.
Example C64_example :
  let raw := [3; 4; 0xb2; 0x7d; 0; 5; 5; 0x78; 0x45; 0; 0; 1] in
  (exists m, icmp_from_bytes false raw = Ok (m, []) /\ ic_csum m = 0xb27d) /\ verifies raw /\ reserved_zero (nth 0 raw 0) (skipn 4 raw).
Proof. cbv zeta. split; [eexists; split; [vm_compute; reflexivity|reflexivity]|]. split; [vm_compute; reflexivity|].
  split; [discriminate|]. split; [reflexivity|]. discriminate. Qed.
(** C64 fails in general: the gateway data of a source quench is cleared, and the trailing bytes of a
    time-exceeded header (RFC 4884 / interface data) too; both times the checksum of the received message verifies. *)
Theorem C64_unused_bytes_refuted :
  exists raw m b, wfb raw /\ verifies raw /\ icmp_from_bytes false raw = Ok (m, []) /\ ic_csum m <> 65535 /\
  icmp_to_bytes m = Ok b /\ b <> raw.
Proof. exists [4; 0; 0xfb; 0xfb; 0; 0; 0; 4]. do 2 eexists. split; [repeat (apply wfb_cons; split; [lia|]); apply wfb_nil|].
  split; [vm_compute; reflexivity|]. split; [vm_compute; reflexivity|]. split; [discriminate|].
  split; [vm_compute; reflexivity|]. discriminate. Qed.
Print Assumptions C64_unused_bytes_refuted.
(** C64 fails for a corrupted message: a forwarder replaces the wrong checksum by a right one. *)
Theorem C64_corruption_hidden_refuted :
  exists raw m b, wfb raw /\ ~ verifies raw /\ icmp_from_bytes false raw = Ok (m, []) /\ icmp_to_bytes m = Ok b /\
  skipn 4 b = skipn 4 raw /\ verifies b /\ b <> raw.
Proof. exists [8; 0; 0; 0; 0; 1; 0; 2]. do 2 eexists. split; [repeat (apply wfb_cons; split; [lia|]); apply wfb_nil|].
  split; [vm_compute; discriminate|]. split; [vm_compute; reflexivity|]. split; [vm_compute; reflexivity|].
  split; [vm_compute; reflexivity|]. split; [vm_compute; reflexivity|]. vm_compute. discriminate. Qed.
Print Assumptions C64_corruption_hidden_refuted.

(** C19, C20.  A new message is an echo request with code, identifier and sequence number 0 and no data; the ICMPv6 message
    has checksum 0 until it is part of a packet. *)
Theorem C19_default : icmp_to_bytes (icmp_new false) = Ok [8; 0; 0xf7; 0xff; 0; 0; 0; 0] /\ icmp6_to_bytes (icmp_new true) = Ok [128; 0; 0; 0; 0; 0; 0; 0].
Proof. split; reflexivity. Qed.
Print Assumptions C19_default.
