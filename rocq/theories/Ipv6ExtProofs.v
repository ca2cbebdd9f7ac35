(** Proofs about the IPv6 extension headers. *)
From Verif Require Import BaseLemmas CodecLemmas Enums Ipv6Model Ipv6Proofs.

(** ** Specification: RFC 2460 / 2473 / 2675 / 2711 / 6275 layouts of the options *)
Definition wf_v6opt (o : v6opt) : Prop :=
  match o with
  | VPad1 => True
  | VPadN n => 0 <= n < 256
  | VJumbo l => 0 <= l < 2 ^ 32
  | VTunnel l => 0 <= l < 256
  | VAlert v => 0 <= v < 65536
  | VHome a => length a = 16%nat /\ wfb a
  end.
Definition v6opt_layout (o : v6opt) : bytes :=
  match o with
  | VPad1 => [0]
  | VPadN n => [1; n] ++ repeat 0 (Z.to_nat n)
  | VJumbo l => [0xc2; 4] ++ be 4 l
  | VTunnel l => [4; 1; l]
  | VAlert v => [5; 2] ++ be 2 v
  | VHome a => [201; 16] ++ a
  end.
Definition v6opts_layout (os : list v6opt) : bytes := flat_map v6opt_layout os.

Lemma v6opt_bytes o : wf_v6opt o -> v6opt_to_bytes o = Ok (v6opt_layout o).
Proof. destruct o as [|n|l|l|v|a]; cbn [wf_v6opt v6opt_to_bytes v6opt_layout]; intros H; [reflexivity|..];
  change (2 ^ 32) with 4294967296 in *;
  rewrite !pack_cons_int by (pow256; lia); rewrite pack_nil; cbn [bindr]; rewrite ?be1 by lia; rewrite ?app_nil_r; reflexivity. Qed.
Lemma v6opts_bytes os : Forall wf_v6opt os -> v6opts_to_bytes os = Ok (v6opts_layout os).
Proof. induction 1 as [|o os Ho _ IH]; [reflexivity|]. cbn [v6opts_to_bytes]. rewrite v6opt_bytes by auto. rewrite IH. reflexivity. Qed.
Lemma v6opt_wfb o : wf_v6opt o -> wfb (v6opt_layout o).
Proof. destruct o as [|n|l|l|v|a]; cbn [wf_v6opt v6opt_layout]; intros H; rewrite ?wfb_app; repeat split;
  auto using wfb_repeat0, be_wfb; try (repeat (apply wfb_cons; split; [lia|]); apply wfb_nil). apply H. Qed.
Lemma v6opts_wfb os : Forall wf_v6opt os -> wfb (v6opts_layout os).
Proof. induction 1 as [|o os Ho _ IH]; [apply wfb_nil|]. cbn. apply wfb_app; split; auto. apply v6opt_wfb; auto. Qed.

(** ** The TLV loop *)
Lemma parse_tlv_step fuel xtype xlen data t : xtype <> 0 -> zlen data = xlen ->
  parse_tlv (S fuel) (xtype :: xlen :: data ++ t) =
  (o <- v6opt_from_bytes xtype data;; os <- parse_tlv fuel t;; Ok (o :: os)).
Proof. intros Ht Hl. cbn [parse_tlv]. replace (xtype =? 0) with false by lia.
  replace (_ <? xlen + 2) with false.
  2: { symmetry. apply Z.ltb_ge. unfold zlen in *. cbn [length]. rewrite app_length. lia. }
  assert (E : Z.to_nat xlen = length data) by (unfold zlen in Hl; lia).
  rewrite firstn_app_exact, skipn_app_exact by auto. reflexivity. Qed.

Lemma parse_tlv_opt fuel o t : wf_v6opt o ->
  parse_tlv (S fuel) (v6opt_layout o ++ t) = (os <- parse_tlv fuel t;; Ok (o :: os)).
Proof. intros H. destruct o as [|n|l|l|v|a]; cbn [wf_v6opt v6opt_layout] in *.
  - reflexivity.
  - cbn [app]. rewrite parse_tlv_step; [|lia|unfold zlen; rewrite repeat_length; lia].
    unfold v6opt_from_bytes. change (1 =? 1) with true. cbn [bindr]. unfold zlen. rewrite repeat_length.
    rewrite Z2Nat.id by lia. reflexivity.
  - change ((194 :: [4]) ++ be 4 l) with (194 :: 4 :: be 4 l). change ((194 :: 4 :: be 4 l) ++ t) with (194 :: 4 :: (be 4 l ++ t)).
    rewrite parse_tlv_step; [|lia|unfold zlen; rewrite be_length; lia].
    unfold v6opt_from_bytes. change (194 =? 1) with false. change (194 =? 194) with true. cbn iota. rewrite be_length.
    change (Nat.eqb 4 4) with true. cbn iota.
    assert (P : pack [fI] [VI l] = Ok (be 4 l)) by (apply pack_int; pow256; exact H).
    rewrite (unpack_pack _ _ _ P). reflexivity.
  - change ([4; 1; l] ++ t) with (4 :: 1 :: ([l] ++ t)). rewrite parse_tlv_step; [reflexivity|lia|reflexivity].
  - change (([5; 2] ++ be 2 v) ++ t) with (5 :: 2 :: (be 2 v ++ t)). rewrite parse_tlv_step; [|lia|unfold zlen; rewrite be_length; lia].
    unfold v6opt_from_bytes. change (5 =? 1) with false. change (5 =? 194) with false. change (5 =? 4) with false.
    change (5 =? 5) with true. cbn iota. rewrite be_length. change (Nat.eqb 2 2) with true. cbn iota.
    assert (P : pack [fH] [VI v] = Ok (be 2 v)) by (apply pack_int; pow256; exact H).
    rewrite (unpack_pack _ _ _ P). reflexivity.
  - destruct H as [Hl _]. change (([201; 16] ++ a) ++ t) with (201 :: 16 :: (a ++ t)).
    rewrite parse_tlv_step; [|lia|unfold zlen; lia].
    unfold v6opt_from_bytes. change (201 =? 1) with false. change (201 =? 194) with false. change (201 =? 4) with false.
    change (201 =? 5) with false. change (201 =? 201) with true. cbn iota. rewrite Hl. change (Nat.eqb 16 16) with true. cbn iota.
    rewrite v6addr_ok by auto. reflexivity. Qed.

Lemma v6opt_layout_pos o : (1 <= length (v6opt_layout o))%nat.
Proof. destruct o; cbn; lia. Qed.
Lemma parse_tlv_opts os : Forall wf_v6opt os -> forall fuel, (length (v6opts_layout os) < fuel)%nat ->
  parse_tlv fuel (v6opts_layout os) = Ok os.
Proof. induction 1 as [|o os Ho _ IH]; intros fuel Hf; destruct fuel as [|fuel]; try lia; [reflexivity|].
  unfold v6opts_layout in *. cbn [flat_map] in *. rewrite app_length in Hf. pose proof (v6opt_layout_pos o).
  rewrite parse_tlv_opt by auto. rewrite IH by lia. reflexivity. Qed.

Lemma v6opt_from_no_fuel t d : v6opt_from_bytes t d <> Err EFuel.
Proof. unfold v6opt_from_bytes, v6addr_of. intros H.
  repeat match type of H with
  | (if ?c then _ else _) = _ => destruct c; try discriminate
  | bindr ?r _ = _ => destruct r eqn:E; cbn [bindr] in H; [|apply unpack_err in E || (destruct (Nat.eqb _ _) in E; discriminate); congruence]
  | match ?l with _ => _ end = _ => destruct l; try discriminate
  end. Qed.

(** The loop always finishes: one step per byte is enough, and then the fuel does not matter. *)
Lemma parse_tlv_finishes raw : forall n, (length raw <= n)%nat -> exists r, r <> Err EFuel /\
  forall fuel, (n < fuel)%nat -> parse_tlv fuel raw = r.
Proof.
  intros n. revert raw. induction n as [|n IH]; intros raw Hn.
  { destruct raw; [|cbn in Hn; lia]. exists (Ok []). split; [discriminate|]. intros [|f] Hf; [lia|]. reflexivity. }
  destruct raw as [|x raw]; [exists (Ok []); split; [discriminate|]; intros [|f] Hf; [lia|]; reflexivity|].
  cbn [length] in Hn. destruct (x =? 0) eqn:Hx.
  { destruct (IH raw ltac:(lia)) as (r & Hr & HF). exists (os <- r;; Ok (VPad1 :: os)). split.
    - destruct r; cbn; congruence.
    - intros [|f] Hf; [lia|]. cbn [parse_tlv]. rewrite Hx. rewrite HF by lia. reflexivity. }
  destruct raw as [|xlen raw].
  { exists (Err EIndex). split; [discriminate|]. intros [|f] Hf; [lia|]. cbn [parse_tlv]. rewrite Hx. reflexivity. }
  destruct (zlen (x :: xlen :: raw) <? xlen + 2) eqn:Hl.
  { exists (Err ENotEnough). split; [discriminate|]. intros [|f] Hf; [lia|]. cbn [parse_tlv]. rewrite Hx, Hl. reflexivity. }
  cbn [length] in Hn.
  destruct (IH (skipn (Z.to_nat xlen) raw) ltac:(rewrite skipn_length; lia)) as (r & Hr & HF).
  exists (o <- v6opt_from_bytes x (firstn (Z.to_nat xlen) raw);; os <- r;; Ok (o :: os)). split.
  - pose proof (v6opt_from_no_fuel x (firstn (Z.to_nat xlen) raw)).
    destruct (v6opt_from_bytes x _); cbn; [|congruence]. destruct r; cbn; congruence.
  - intros [|f] Hf; [lia|]. cbn [parse_tlv]. rewrite Hx, Hl. destruct (v6opt_from_bytes x _); cbn [bindr]; [|reflexivity].
    rewrite HF by lia. reflexivity. Qed.

Lemma tlv_terminates raw : exists r, r <> Err EFuel /\ forall fuel, (length raw < fuel)%nat -> parse_tlv fuel raw = r.
Proof. apply parse_tlv_finishes. lia. Qed.
Lemma hop_no_fuel raw : hop_from_bytes raw <> Err EFuel.
Proof. unfold hop_from_bytes. unfold ext_from_bytes. destruct raw as [|b0 [|b1 rest]]; try discriminate.
  destruct (enum_of IPProtocols b0) eqn:E; cbn [bindr]; [|unfold enum_of in E; destruct (zmem _ _); congruence].
  destruct (_ <? _); cbn [bindr]; [discriminate|].
  destruct (tlv_terminates (firstn (Z.to_nat ((b1 + 1) * 8 - 2)) rest)) as (r & Hr & HF).
  rewrite HF by lia. destruct r; cbn; congruence. Qed.

(** ** Hop-by-hop and destination options *)
Lemma ext_ok nh dlen : In nh IPProtocols -> 0 <= dlen < 256 -> ext_to_bytes (Some nh) dlen = Ok [nh; dlen].
Proof. intros Hn Hd. apply proto_range in Hn. unfold ext_to_bytes.
  rewrite !pack_cons_int by (pow256; lia). rewrite pack_nil. cbn [bindr]. rewrite !be1 by lia. reflexivity. Qed.
Lemma ext_parse m nh dlen t : In nh IPProtocols -> dlen * m <= 2 + zlen t -> ext_from_bytes m (nh :: dlen :: t) = Ok (nh, dlen, t).
Proof. intros Hn Hd. unfold ext_from_bytes. rewrite enum_in by auto. cbn [bindr].
  replace (_ <? _) with false; auto. symmetry. apply Z.ltb_ge. unfold zlen in *. cbn [length]. lia. Qed.

Lemma hop_round_trip nh d os : In nh IPProtocols -> Forall wf_v6opt os ->
  (zlen (v6opts_layout os) + 2) mod 8 = 0 -> zlen (v6opts_layout os) + 2 <= 2048 ->
  exists n b, hop_to_bytes (mkV6hop (Some nh) d os) = Ok b /\ 0 <= n < 256 /\
  b = [nh; n] ++ v6opts_layout os /\ zlen b = 8 * (n + 1) /\ wfb b /\
  forall t, hop_from_bytes (b ++ t) = Ok (mkV6hop (Some nh) n os, t).
Proof. intros Hn Ho Hm Hl. pose proof (zlen_nonneg (v6opts_layout os)).
  set (L := v6opts_layout os) in *. set (n := (zlen L + 2) / 8 - 1).
  assert (Hr : 0 <= n < 256) by (unfold n; lia). assert (H8 : zlen L + 2 = 8 * (n + 1)) by (unfold n; lia).
  exists n, (nh :: n :: L). split.
  { unfold hop_to_bytes. cbn [ho_opts ho_nh]. rewrite v6opts_bytes by auto. cbn [bindr]. fold L. fold n.
    rewrite ext_ok by auto. reflexivity. }
  split; [auto|]. split; [reflexivity|]. split; [unfold zlen in *; cbn [length]; lia|]. split.
  { pose proof (proto_range _ Hn). apply wfb_cons; split; [lia|]. apply wfb_cons; split; [lia|]. apply v6opts_wfb; auto. }
  intros t. unfold hop_from_bytes. cbn [app]. rewrite ext_parse; auto; [|rewrite zlen_app; pose proof (zlen_nonneg t); lia].
  cbn [bindr]. assert (E : Z.to_nat ((n + 1) * 8 - 2) = length L) by (unfold zlen in *; lia).
  rewrite firstn_app_exact, skipn_app_exact by auto. unfold L. rewrite parse_tlv_opts by (auto; lia). reflexivity. Qed.

Lemma hop_unaligned :
  exists os b, Forall wf_v6opt os /\ hop_to_bytes (mkV6hop (Some ipUDP) 0 os) = Ok b /\
    length b = 12%nat /\ nth 1 b 99 = 0 /\ hop_from_bytes b = Err ENotEnough.
Proof. exists [VAlert 0; VJumbo 70000]. eexists. split; [repeat constructor; cbn; lia|].
  split; [vm_compute; reflexivity|]. split; [reflexivity|]. split; [reflexivity|]. vm_compute. reflexivity. Qed.
Lemma hop_truncated :
  exists raw h, wfb raw /\ nth 1 raw 0 = 1 /\ length raw = 8%nat /\ hop_from_bytes raw = Ok (h, []).
Proof. exists [ipUDP; 1; 0; 0; 0; 0; 0; 0]. eexists. split; [repeat (apply wfb_cons; split; [cbv; split; congruence|]); apply wfb_nil|].
  split; [reflexivity|]. split; [reflexivity|]. vm_compute. reflexivity. Qed.

(** Whatever parses leaves exactly what follows the 8 * (length + 1) bytes the header claims (or nothing). *)
Lemma hop_rest raw h rest : wfb raw -> hop_from_bytes raw = Ok (h, rest) ->
  rest = skipn (Z.to_nat (8 * (nth 1 raw 0 + 1))) raw /\ ho_nh h = Some (nth 0 raw 0) /\ In (nth 0 raw 0) IPProtocols /\
  8 * nth 1 raw 0 <= zlen raw.
Proof. intros Hw H. unfold hop_from_bytes in H. destruct raw as [|b0 [|b1 r]]; try discriminate. cbn [ext_from_bytes nth] in *.
  destruct (enum_of IPProtocols b0) as [nh|] eqn:E; cbn [bindr] in H; [|discriminate]. apply enum_of_ok in E as [-> Hn].
  destruct (zlen (b0 :: b1 :: r) <? b1 * 8) eqn:El; cbn [bindr] in H; [discriminate|]. apply Z.ltb_ge in El.
  destruct (parse_tlv _ _) as [os|]; cbn [bindr] in H; [|discriminate]. apply ok_pair_inj in H as [Hh Hr]. subst h rest.
  apply wfb_cons in Hw as [_ Hw]. apply wfb_cons in Hw as [Hb _].
  split; [|split; [reflexivity|split; [auto|lia]]].
  replace (Z.to_nat (8 * (b1 + 1))) with (S (S (Z.to_nat ((b1 + 1) * 8 - 2)))) by lia. reflexivity. Qed.

(** ** Fragment header *)
Definition wf_frag (h : v6frag) : Prop :=
  0 <= fr_off h < 8192 /\ 0 <= fr_id h < 2 ^ 32.
Lemma frag_round_trip nh h : In nh IPProtocols -> fr_nh h = Some nh -> fr_dlen h = 0 -> wf_frag h ->
  exists b, frag_to_bytes h = Ok b /\
  b = [nh; 0] ++ be 2 (8 * fr_off h + (if fr_mf h then 1 else 0)) ++ be 4 (fr_id h) /\ length b = 8%nat /\
  forall t, frag_from_bytes (b ++ t) = Ok (h, t).
Proof. destruct h as [nh' dl id off mf]. cbn [fr_nh fr_dlen fr_off fr_mf fr_id]. intros Hn -> -> (Ho & Hi). cbn [fr_off fr_id] in *.
  change (2 ^ 32) with 4294967296 in *.
  assert (Hm : 0 <= (if mf then 1 else 0) < 8) by (destruct mf; lia).
  set (m := if mf then 1 else 0) in *.
  assert (L : Z.lor (Z.shiftl off 3) m = 8 * off + m) by (rewrite lor_add_disjoint by lia; change (2 ^ 3) with 8; lia).
  assert (P : pack [fH; fI] [VI (8 * off + m); VI id] = Ok (be 2 (8 * off + m) ++ be 4 id)).
  { rewrite !pack_cons_int by (pow256; lia). rewrite pack_nil. cbn [bindr]. rewrite app_nil_r. reflexivity. }
  eexists. split.
  { unfold frag_to_bytes. cbn [fr_nh fr_dlen fr_off fr_mf fr_id]. rewrite ext_ok by (auto; lia). cbn [bindr]. fold m. rewrite L, P. reflexivity. }
  split; [reflexivity|]. split; [rewrite !app_length, !be_length; reflexivity|].
  intros t. unfold frag_from_bytes. rewrite <- app_assoc. cbn [app]. rewrite ext_parse; auto; [|pose proof (zlen_nonneg ((be 2 (8 * off + m) ++ be 4 id) ++ t)); lia].
  cbn [bindr]. destruct (take_pack [fH; fI] _ _ t 6 eq_refl P) as (E1 & E2 & E3). rewrite E1, E2. cbn [bindr norm]. rewrite E3.
  f_equal. f_equal. rewrite Z.shiftr_div_pow2 by lia. change (2 ^ 3) with 8. change 1 with (2 ^ 1 - 1). rewrite land_ones_mod by lia.
  change (2 ^ 1) with 2. f_equal; [lia|]. subst m. destruct mf; [replace (_ =? _) with false by lia|replace (_ =? _) with true by lia]; reflexivity. Qed.
Lemma frag_parsed raw h rest : wfb raw -> frag_from_bytes raw = Ok (h, rest) ->
  (8 <= length raw)%nat /\ rest = skipn 8 raw /\ fr_nh h = Some (nth 0 raw 0) /\ fr_dlen h = nth 1 raw 0 /\
  fr_off h = unbe (firstn 2 (skipn 2 raw)) / 8 /\ fr_mf h = Z.odd (unbe (firstn 2 (skipn 2 raw))) /\
  fr_id h = unbe (firstn 4 (skipn 4 raw)).
Proof. intros Hw H. unfold frag_from_bytes in H. destruct raw as [|b0 [|b1 r]]; try discriminate. cbn [ext_from_bytes nth] in *.
  destruct (enum_of IPProtocols b0) as [nh|] eqn:E; cbn [bindr] in H; [|discriminate]. apply enum_of_ok in E as [-> Hn].
  destruct (_ <? _); cbn [bindr] in H; [discriminate|]. destruct (Nat.ltb (length r) 6) eqn:Hl; [discriminate|].
  apply Nat.ltb_ge in Hl. do 6 (destruct r as [|?x r]; [cbn in Hl; lia|]).
  cbn [firstn] in H. cbn [unpack length Nat.ltb Nat.leb skipn firstn bindr] in H. apply ok_pair_inj in H as [<- <-].
  cbn [fr_nh fr_dlen fr_off fr_mf fr_id skipn firstn]. rewrite Z.shiftr_div_pow2 by lia. change (2 ^ 3) with 8.
  split; [cbn; lia|]. repeat split. change 1 with (2 ^ 1 - 1). rewrite land_ones_mod by lia. change (2 ^ 1) with 2.
  rewrite Zmod_odd. destruct (Z.odd _); reflexivity. Qed.

(** ** Routing header *)
Lemma route_round_trip nh dlen left addr t : In nh IPProtocols -> 0 <= dlen < 256 -> 0 <= left < 256 -> length addr = 16%nat ->
  dlen * 8 <= 24 + zlen t ->
  exists b, route_to_bytes (mkV6route (Some nh) dlen 2 left addr) = Ok b /\
  b = [nh; dlen; 2; left; 0; 0; 0; 0] ++ addr /\ length b = 24%nat /\
  route_from_bytes (b ++ t) = Ok (mkV6route (Some nh) dlen 2 left addr, t).
Proof. intros Hn Hd Hl Ha Ht. eexists. split.
  { unfold route_to_bytes. cbn [ro_nh ro_dlen ro_type ro_left ro_addr]. rewrite ext_ok by auto. cbn [bindr].
    rewrite !pack_cons_int by (pow256; lia). rewrite pack_nil. cbn [bindr]. reflexivity. }
  rewrite !be1 by lia. change (be 4 0) with [0; 0; 0; 0].
  split; [reflexivity|]. split; [rewrite !app_length, Ha; reflexivity|].
  unfold route_from_bytes. cbn [app]. rewrite ext_parse; auto.
  2: { unfold zlen in *. cbn [length]. rewrite app_length. lia. }
  cbn [bindr]. change (2 =? 2) with true. cbn iota.
  change (skipn 6 (2 :: left :: 0 :: 0 :: 0 :: 0 :: addr ++ t)) with (addr ++ t).
  change (skipn 22 (2 :: left :: 0 :: 0 :: 0 :: 0 :: addr ++ t)) with (skipn 16 (addr ++ t)).
  rewrite firstn_app_exact by auto. rewrite v6addr_ok by auto. cbn [bindr].
  rewrite skipn_app_exact by auto. reflexivity. Qed.
Lemma route_new_length :
  exists b, route_to_bytes (mkV6route (Some ipUDP) (ro_dlen route_new) (ro_type route_new) (ro_left route_new) (ro_addr route_new)) = Ok b /\
    zlen b = 24 /\ nth 1 b 99 = 0.
Proof. eexists. split; [vm_compute; reflexivity|]. split; reflexivity. Qed.
