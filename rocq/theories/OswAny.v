(** Proofs about the OpenflowSwitch model: packet-in and packet-out in histories of any kind, with earlier releases. *)
From Verif Require Import Base BaseLemmas CodecLemmas EthAddrModel PacketModel OfModel OfSpec OfProofs OfMsg SwModel OswModel OswSpec OswProofs OswMore OswHist OswData.

Lemma get_put {P} (b : buf P) k v k' : bget (bput b k v) k' = if k =? k' then Some v else bget b k'.
Proof.
  induction b as [|[j w] b IH]; cbn [bput bget].
  - destruct (Z.eqb_spec k k'); reflexivity.
  - destruct (Z.eqb_spec j k) as [->|N]; cbn [bget].
    + destruct (Z.eqb_spec k k'); reflexivity.
    + rewrite IH. destruct (Z.eqb_spec j k'), (Z.eqb_spec k k'); try reflexivity; lia.
Qed.
Lemma get_del_other {P} (b : buf P) k k' : k <> k' -> bget (bdel b k) k' = bget b k'.
Proof.
  intros N. induction b as [|[j w] b IH]; [reflexivity|]. cbn [bdel bget]. destruct (Z.eqb_spec j k) as [->|N'].
  - replace (k =? k') with false by lia. reflexivity.
  - cbn [bget]. rewrite IH. reflexivity.
Qed.

(** *** Reading a packet-out *)
Lemma parse_out_id m h bu ip acts d r : is_msg m -> ty_of m = 13 -> of_parse m = Ok (PHdr h :: PBody (BPacketOut bu ip acts d) :: r) -> bu = buffer_id m.
Proof.
  intros M T P. pose proof (parse_head m _ M P) as (h' & b' & E & Ht & _). injection E as <- <-. rewrite T in Ht.
  unfold of_parse in P. apply bindr_ok in P. destruct P as ((h1, rest) & P1 & P2). cbn [fst snd] in P2.
  assert (R : rest = body_of m).
  { unfold hdr_from in P1. destruct (Nat.ltb (length m) 8); [discriminate|]. apply bindr_ok in P1. destruct P1 as (fs & _ & P1).
    destruct fs as [|[v|?] [|[t|?] [|[l|?] [|[x|?] [|? ?]]]]]; try discriminate.
    destruct (zmem t [16; 17] && Nat.leb 2 (length (skipn 8 m))).
    - apply bindr_ok in P1. destruct P1 as (ss & _ & P1). destruct ss as [|[s|?] [|? ?]]; try discriminate. apply bindr_ok in P1.
      destruct P1 as (? & _ & P1). apply ok_inj in P1. injection P1; intros; subst; reflexivity.
    - apply ok_inj in P1. injection P1; intros; subst; reflexivity. }
  subst rest. apply bindr_ok in P2. destruct P2 as (nc & P2 & P3).
  assert (H1 : h1 = h).
  { destruct nc; [apply bindr_ok in P3; destruct P3 as (br & _ & P3)|]; apply ok_inj in P3; congruence. }
  subst h1. unfold hdr_next in P2. rewrite Ht in P2. cbn [Z.eqb Pos.eqb] in P2. apply ok_inj in P2. subst nc.
  apply bindr_ok in P3. destruct P3 as ((bd, rr) & P3 & P4). cbn [fst snd] in P4. apply ok_inj in P4. injection P4 as E2 _. subst bd.
  cbn [body_from] in P3. unfold noret in P3. apply bindr_ok in P3. destruct P3 as (bb & P3 & P5). apply ok_inj in P5. injection P5 as -> _.
  destruct (Nat.ltb_spec (length (body_of m)) 8) as [|L]; [discriminate|]. apply bindr_ok in P3. destruct P3 as (fs & P3 & P4).
  unfold buffer_id. destruct (body_of m) as [|b0 [|b1 [|b2 [|b3 [|b4 [|b5 [|b6 [|b7 q]]]]]]]]; try (cbn [length] in L; lia).
  cbn [firstn] in P3 |- *. unfold packetout_fmt in P3. cbn [unpack length Nat.ltb Nat.leb firstn skipn bindr] in P3. apply ok_inj in P3. subst fs.
  apply bindr_ok in P4. destruct P4 as (ip' & _ & P4). apply bindr_ok in P4. destruct P4 as (ac & _ & P4). apply ok_inj in P4. injection P4; intros; subst. reflexivity.
Qed.

Section Any.
Variables (link : bool) (sid : bytes) (ifs : list oif) (net_send : send -> payload -> option exn).
#[local] Notation serve := (serve sid ifs net_send).
#[local] Notation osw_step := (osw_step link sid ifs net_send).
#[local] Notation osw_run := (osw_run link sid ifs net_send).

(** A message removes at most the entry it names. *)
Lemma serve_get i mp now m s s' o e k : o_tab s = [] -> is_msg m -> (ty_of m = 13 -> buffer_id m <> k) -> serve i mp now m s = (s', o, e) ->
  bget (o_buf s') k = bget (o_buf s) k.
Proof.
  intros T M N H. destruct (Z.eq_dec (ty_of m) 13) as [E13|N13]; [|rewrite (serve_buf _ _ _ _ _ _ _ _ _ _ _ T M N13 H); reflexivity].
  specialize (N E13). unfold OswModel.serve in H. destruct (of_parse m) as [r|x] eqn:P; [|injection H; intros; subst; auto].
  rewrite expire_nil in H by auto. destruct (parse_head m r M P) as (h & b & -> & Ht & Hv & Hx). cbn [parsed] in H. rewrite Ht, E13 in H.
  assert (K : handler mp 13 = HPacketOut) by (destruct mp; reflexivity). rewrite K in H. cbn [handle] in H.
  destruct b as [|[?|bd|?] r]; cbn [nth_error] in H; try (injection H; intros; subst; auto; fail).
  destruct bd as [| | | | | | | | | |bu ip acts [d|]| | | | | |]; try (injection H; intros; subst; auto; fail).
  pose proof (parse_out_id m h bu ip acts (Some d) r M E13 P) as ->.
  destruct (negb _).
  - unfold buf_pop in H. destruct (bget (o_buf s) (buffer_id m)) as [v|] eqn:G; [|injection H; intros; subst; auto].
    destruct (do_actions ifs net_send acts ip (WPkt (snd v)) s) as [oo ee]. injection H; intros; subst. cbn [set_buf o_buf].
    apply get_del_other; auto.
  - destruct (do_actions ifs net_send acts ip (WRaw d) s) as [oo ee]. injection H; intros; subst. reflexivity.
Qed.

(** A packet the loop survives. *)
Lemma pkt_survived s dev now p : o_tab s = [] -> o_dp (fst (osw_step s (EPkt dev now p))) = None ->
  exists y p' raw ip o, port_named dev ifs = Some y /\ pkt_to_bytes p = Ok (p', raw) /\ zlen (o_buf s) < 100 /\ o_lib10 s = true /\ get_port (oi_num y) = Ok ip /\
    let id := zlen (o_buf s) + 1 in
    let s2 := set_buf (bput (o_buf s) id (oi_num y, p')) (next_xid s) in
    tell_all (o_ctls s) 0 [PHdr (hdr_new 10 (o_xid s + 1) 1); PBody (BPacketIn id ip 0 (firstn (Z.to_nat (o_miss s)) raw))] s2 = (o, None) /\
    osw_step s (EPkt dev now p) = (s2, o).
Proof.
  intros T D. cbn [OswModel.osw_step] in *. destruct (o_dp s) as [x|] eqn:D0; [cbn [fst] in D; congruence|].
  rewrite datapath_nil in D |- * by auto. destruct (port_named dev ifs) as [y|]; [|discriminate]. unfold packet_in in *.
  destruct (pkt_to_bytes p) as [[p' raw]|?]; [|discriminate]. unfold buf_add in *.
  destruct (Z.ltb_spec 100 (zlen (o_buf s) + 1)) as [|Le]; [discriminate|]. destruct (o_lib10 s) eqn:Lb; [|discriminate].
  destruct (get_port (oi_num y)) as [ip|] eqn:G; [|discriminate].
  destruct (tell_all _ _ _ _) as [oo [ee|]] eqn:TA; [discriminate|].
  exists y, p', raw, ip, oo. repeat split; auto; try lia.
Qed.

(** Telling all succeeds only if the message can be written, once there is a connection. *)
Lemma tell_all_ser m s : forall l k c, (k <= c < k + length l)%nat -> (exists d, nth_error (o_ctls s) c = Some d /\ c_up d = true) ->
  snd (tell_all l k m s) = None -> exists r, of_ser m = Ok r.
Proof.
  induction l as [|x l IH]; intros k c R U H; cbn [length] in R; [lia|]. cbn [tell_all] in H.
  destruct (tell k m s) as [[s1 o1] [e1|]] eqn:E; [discriminate|]. destruct (Nat.eq_dec c k) as [->|NE].
  - destruct U as (d & U1 & U2). unfold tell in E. rewrite U1, U2 in E. destruct (of_ser m) as [r|]; [eauto|discriminate].
  - destruct (tell_all l (S k) m s) as [o2 e2] eqn:E2. apply (IH (S k) c); [lia|exact U|rewrite E2; exact H].
Qed.

(** What is written: the type and the buffer id can be read off. *)
Lemma ser_packet_in x id ip data r : of_ser [PHdr (hdr_new 10 x 1); PBody (BPacketIn id ip 0 data)] = Ok r ->
  ty_of (snd r) = 10 /\ buffer_id (snd r) = id.
Proof.
  intros H. destruct (body_to (BPacketIn id ip 0 data)) as [bb|e] eqn:Hb; [|cbn [of_ser bindr] in H; rewrite Hb in H; discriminate].
  assert (Rx : 0 <= x < 4294967296 /\ 8 + zlen bb < 65536).
  { cbn [of_ser bindr fst snd hdr_new oh_ver oh_type oh_xid oh_sub] in H. rewrite Hb in H. cbn [bindr fst snd] in H. rewrite app_nil_r in H.
    unfold hdr_to in H. cbn [oh_ver oh_type oh_len oh_xid] in H. unfold hdr_fmt in H. cbn [pack] in H.
    change (256 ^ Z.of_nat 1) with 256 in H. change (256 ^ Z.of_nat 2) with 65536 in H. change (256 ^ Z.of_nat 4) with 4294967296 in H.
    change ((0 <=? 1) && (1 <? 256)) with true in H. change ((0 <=? 10) && (10 <? 256)) with true in H.
    destruct ((0 <=? zlen bb + 8) && (zlen bb + 8 <? 65536)) eqn:E1; [|discriminate].
    destruct ((0 <=? x) && (x <? 4294967296)) eqn:E2; [|discriminate]. lia. }
  destruct Rx as [Rx Rl]. destruct (ser_body 10 x (BPacketIn id ip 0 data) bb ltac:(lia) Rx Hb Rl) as (lr & Ser). rewrite Ser in H. apply ok_inj in H. subst r. cbn [snd].
  assert (Rid : 0 <= id < 4294967296 /\ exists q, bb = be 4 id ++ q).
  { cbn [body_to] in Hb. unfold packetin_fmt in Hb. cbn [pack] in Hb. change (256 ^ Z.of_nat 4) with 4294967296 in Hb.
    destruct ((0 <=? id) && (id <? 4294967296)) eqn:E1; [|discriminate]. split; [lia|].
    destruct ((0 <=? zlen data + 10) && (zlen data + 10 <? 256 ^ Z.of_nat 2)); [|discriminate].
    destruct ((0 <=? ip) && (ip <? 256 ^ Z.of_nat 2)); [|discriminate].
    destruct ((0 <=? 0) && (0 <? 256 ^ Z.of_nat 1)); [|discriminate]. cbn [bindr] in Hb. apply ok_inj in Hb. subst bb. rewrite <- !app_assoc. eauto. }
  destruct Rid as (Rid & q & ->). unfold wire, ty_of, buffer_id, body_of.
  assert (H4 : exists a b c d, be 4 x = [a; b; c; d]) by (cbn [be]; eauto 6). destruct H4 as (a & b & c & d & ->).
  assert (H2 : exists e f, be 2 (8 + zlen (be 4 id ++ q)) = [e; f]) by (cbn [be]; eauto). destruct H2 as (e & f & ->).
  cbn [app nth skipn]. split; [reflexivity|]. rewrite firstn_app_exact by (symmetry; apply be_length). apply unbe_be_small. change (256 ^ Z.of_nat 4) with 4294967296. lia.
Qed.
End Any.

Section Ten.
Variables (sid : bytes) (ifs : list oif) (net_send : send -> payload -> option exn) (s0 : osw).
#[local] Notation serve := (serve sid ifs net_send).
#[local] Notation osw_step := (osw_step true sid ifs net_send).
#[local] Notation osw_run := (osw_run true sid ifs net_send).
Hypothesis New : osw_new 1 = Ok s0.

(** A packet the loop survives is announced to everybody, under the id it is then held by. *)
Lemma announced l dev now p c : o_dp (fst (osw_run s0 (l ++ [EPkt dev now p]))) = None -> added c l ->
  exists m p' raw n, told c (snd (osw_step (fst (osw_run s0 l)) (EPkt dev now p))) = [m] /\ ty_of m = 10 /\ 1 <= buffer_id m <= 100 /\
    buffer_id m = zlen (o_buf (fst (osw_run s0 l))) + 1 /\ pkt_to_bytes p = Ok (p', raw) /\
    o_buf (fst (osw_run s0 (l ++ [EPkt dev now p]))) = bput (o_buf (fst (osw_run s0 l))) (buffer_id m) (n, p').
Proof.
  intros D A. destruct (K_run true sid ifs net_send 1 s0 l New) as (T & Len & KA & _ & KB). rewrite run_snoc in D |- *.
  set (s := fst (osw_run s0 l)) in *.
  destruct (pkt_survived true sid ifs net_send s dev now p T D) as (y & p' & raw & ip & o & Hy & Hp & Hl & Lb & Hg & Ht & Hs). cbv zeta in Ht, Hs.
  destruct (KA c A) as (d & Hd & Hu). rewrite Hs. cbn [fst snd].
  set (s2 := set_buf (bput (o_buf s) (zlen (o_buf s) + 1) (oi_num y, p')) (next_xid s)) in *.
  assert (Lc : (c < length (o_ctls s))%nat) by (apply nth_error_Some; congruence).
  destruct (tell_all_ser _ s2 (o_ctls s) 0 c ltac:(lia) (ex_intro _ d (conj Hd Hu)) ltac:(rewrite Ht; reflexivity)) as ([lr m] & Hr).
  destruct (ser_packet_in _ _ _ _ _ Hr) as (M1 & M2). cbn [snd] in M1, M2.
  rewrite (tell_all_ok _ s2 lr m Hr) in Ht. injection Ht as <-.
  exists m, p', raw, (oi_num y). rewrite told_seq. change (o_ctls s2) with (o_ctls s). rewrite Hd, Hu, Nat.add_0_l. change (Nat.leb 0 c) with true.
  replace (Nat.ltb c (length (o_ctls s))) with true by (symmetry; apply Nat.ltb_lt; exact Lc). cbn [andb].
  rewrite M2. pose proof (zlen_nonneg (o_buf s)). repeat split; auto; lia.
Qed.

Lemma get_step s e k : o_tab s = [] -> o_dp (fst (osw_step s e)) = None ->
  (forall i now m, e = EMsg i now m -> is_msg m /\ (ty_of m = 13 -> buffer_id m <> k)) ->
  (forall dev now p, e = EPkt dev now p -> zlen (o_buf s) + 1 <> k) ->
  bget (o_buf (fst (osw_step s e))) k = bget (o_buf s) k.
Proof.
  intros T D HM HP. destruct e as [r|i|i now m|i now|dev now p].
  - reflexivity.
  - cbn [OswModel.osw_step fst]. unfold start. destruct (nth_error (o_ctls s) i) as [[u [mp|] [en|]]|]; reflexivity.
  - destruct (HM i now m eq_refl) as [M N]. cbn [OswModel.osw_step].
    destruct (nth_error (o_ctls s) i) as [[[] [mp|] [en|]]|] eqn:Ec; auto.
    destruct (serve i mp now m s) as [[s1 o] y] eqn:S. pose proof (serve_get sid ifs net_send _ _ _ _ _ _ _ _ k T M N S) as Q.
    destruct (serve_kept _ _ _ _ _ _ _ _ _ _ _ T S) as (K1 & K2 & K3 & K4).
    destruct y as [y|]; cbn [end_if fst]; auto.
    assert (E1 : nth_error (o_ctls s1) i = Some (mkCtl true (Some mp) None)) by congruence.
    destruct (end_ctl_spec i y s1 _ E1) as (_ & _ & _ & _ & _ & _ & _ & -> & _). exact Q.
  - cbn [OswModel.osw_step]. destruct (nth_error (o_ctls s) i) as [[u [mp|] [en|]]|]; auto. rewrite expire_nil by auto. reflexivity.
  - destruct (pkt_survived true sid ifs net_send s dev now p T D) as (y & p' & raw & ip & o & _ & _ & _ & _ & _ & _ & Hs). cbv zeta in Hs.
    rewrite Hs. cbn [fst set_buf o_buf]. rewrite get_put. specialize (HP dev now p eq_refl). replace (zlen (o_buf s) + 1 =? k) with false by lia. reflexivity.
Qed.
Lemma added_more c a b : added c a -> added c (a ++ b).
Proof. intros (x & y & -> & H). exists x, (y ++ b). rewrite <- app_assoc. auto. Qed.
Lemma dp_prefix l b : o_dp (fst (osw_run s0 (l ++ b))) = None -> o_dp (fst (osw_run s0 l)) = None.
Proof.
  revert l. induction b as [|e b IH]; intros l H; [now rewrite app_nil_r in H|].
  change (e :: b) with ([e] ++ b) in H. rewrite app_assoc in H. apply IH in H. rewrite run_snoc in H.
  apply (dp_back true sid ifs net_send _ e); [apply (K_run true sid ifs net_send 1 s0 l New)|exact H].
Qed.

(** The packet is held until its id is announced again or named by a packet-out. *)
Lemma held_until a dev t p c m b : proper (a ++ EPkt dev t p :: b) -> o_dp (fst (osw_run s0 (a ++ EPkt dev t p :: b))) = None -> added c a ->
  told c (snd (osw_step (fst (osw_run s0 a)) (EPkt dev t p))) = [m] ->
  (forall b1 d t' q b2 m', b = b1 ++ EPkt d t' q :: b2 ->
     told c (snd (osw_step (fst (osw_run s0 (a ++ EPkt dev t p :: b1))) (EPkt d t' q))) = [m'] -> buffer_id m' <> buffer_id m) ->
  (forall j t' m', In (EMsg j t' m') b -> ty_of m' = 13 -> buffer_id m' <> buffer_id m) ->
  1 <= buffer_id m <= 100 /\
  exists n p' raw, pkt_to_bytes p = Ok (p', raw) /\ bget (o_buf (fst (osw_run s0 (a ++ EPkt dev t p :: b)))) (buffer_id m) = Some (n, p').
Proof.
  induction b as [|e b IH] using rev_ind; intros P D A Tm Na No.
  - destruct (announced a dev t p c D A) as (m0 & p' & raw & n & H1 & H2 & H3 & _ & H4 & H5).
    rewrite Tm in H1. injection H1 as <-. split; [exact H3|]. exists n, p', raw. split; [exact H4|].
    change (EPkt dev t p :: []) with [EPkt dev t p]. rewrite H5, get_put, Z.eqb_refl. reflexivity.
  - set (l := a ++ EPkt dev t p :: b) in *.
    assert (EL : a ++ EPkt dev t p :: (b ++ [e]) = l ++ [e]) by (unfold l; rewrite <- app_assoc; reflexivity). rewrite EL in *.
    pose proof (dp_prefix l [e] D) as D'. destruct (K_run true sid ifs net_send 1 s0 l New) as (T & _).
    destruct IH as (R & n & p' & raw & H1 & H2); auto.
    + eapply proper_snoc; eauto.
    + intros b1 d t' q b2 m' E. apply (Na b1 d t' q (b2 ++ [e])). rewrite E, <- app_assoc. reflexivity.
    + intros j t' m' I. apply (No j t'). apply in_app_iff. auto.
    + split; [exact R|]. exists n, p', raw. split; [exact H1|]. rewrite <- H2, run_snoc. apply get_step; auto.
      * rewrite <- run_snoc. exact D.
      * intros i now m' ->. split; [apply (proper_last _ _ _ _ P)|]. apply (No i now). apply in_app_iff. right. left. auto.
      * intros d t' q ->. destruct (announced l d t' q c D) as (m' & p2 & raw2 & n2 & G1 & _ & _ & G2 & _); [apply added_more; exact A|].
        rewrite <- G2. apply (Na b d t' q []); auto.
Qed.

Lemma release_latest a dev t p b c m i now v xid inport ml ports data : proper (a ++ EPkt dev t p :: b) ->
  all_alive (fst (osw_run s0 (a ++ EPkt dev t p :: b))) -> o_dp (fst (osw_run s0 (a ++ EPkt dev t p :: b))) = None -> added c a ->
  told c (snd (osw_step (fst (osw_run s0 a)) (EPkt dev t p))) = [m] ->
  (forall b1 d t' q b2 m', b = b1 ++ EPkt d t' q :: b2 ->
     told c (snd (osw_step (fst (osw_run s0 (a ++ EPkt dev t p :: b1))) (EPkt d t' q))) = [m'] -> buffer_id m' <> buffer_id m) ->
  (forall j t' m', In (EMsg j t' m') b -> ty_of m' = 13 -> buffer_id m' <> buffer_id m) ->
  running i (a ++ EPkt dev t p :: b) ->
  wfb xid -> length xid = 4%nat -> 0 <= v < 256 -> plain inport -> 0 <= ml < 65536 -> Forall plain ports -> 8 * zlen ports < 65536 ->
  exists p' raw, pkt_to_bytes p = Ok (p', raw) /\
    ((forall port, In port ports -> net_send (SPort port) (WPkt p') = None) ->
     snd (osw_step (fst (osw_run s0 (a ++ EPkt dev t p :: b))) (EMsg i now (wire_packet_out v xid (buffer_id m) inport ml ports data))) =
       map (fun port => Emit (SPort port) (WPkt p')) ports /\
     all_alive (fst (osw_run s0 ((a ++ EPkt dev t p :: b) ++ [EMsg i now (wire_packet_out v xid (buffer_id m) inport ml ports data)])))).
Proof.
  intros P A D Ad Tm Na No R W L Hv Hin Hml Hp Hl.
  destruct (held_until a dev t p c m b P D Ad Tm Na No) as (Rm & n & p' & raw & Hr & Hg).
  set (l := a ++ EPkt dev t p :: b) in *. pose proof (ctl_run sid ifs net_send s0 New l i P A R) as E.
  destruct (K_run true sid ifs net_send 1 s0 l New) as (T & Len & _). rewrite run_snoc.
  set (s := fst (osw_run s0 l)) in *. exists p', raw. split; auto. intros Hs.
  destruct (packet_out_parse v xid (buffer_id m) inport ml ports data W L Hv ltac:(lia) Hin Hml Hp Hl) as (h & Ph & Ht).
  assert (St : exists s1, osw_step s (EMsg i now (wire_packet_out v xid (buffer_id m) inport ml ports data)) =
    (s1, map (fun port => Emit (SPort port) (WPkt p')) ports) /\ o_ctls s1 = o_ctls s).
  { eexists (set_buf _ s). cbn [OswModel.osw_step]. rewrite E. unfold OswModel.serve. rewrite Ph, expire_nil by auto. cbn [parsed nth_error]. rewrite Ht.
    change (handler true 13) with HPacketOut. cbn [handle]. replace (buffer_id m =? 4294967295) with false by lia. cbn [negb].
    unfold buf_pop. rewrite Hg. cbn [snd].
    unfold do_actions. rewrite outputs_sends by auto. rewrite (emit_all_ok net_send).
    - rewrite map_map. cbn [end_if]. split; reflexivity.
    - intros d I. apply in_map_iff in I. destruct I as (q & <- & I). auto. }
  destruct St as (s1 & St & Ec). rewrite St. cbn [fst snd]. split; [reflexivity|]. unfold all_alive. rewrite Ec. exact A.
Qed.

(** What controllers learn of a packet, in any history. *)
Lemma announced_any l dev now p : o_dp (fst (osw_run s0 (l ++ [EPkt dev now p]))) = None ->
  exists id, 1 <= id <= 100 /\
    (forall i, added i l -> exists m, told i (snd (osw_step (fst (osw_run s0 l)) (EPkt dev now p))) = [m] /\ ty_of m = 10 /\ buffer_id m = id) /\
    (forall i, ~ added i l -> told i (snd (osw_step (fst (osw_run s0 l)) (EPkt dev now p))) = []).
Proof.
  intros D. destruct (K_run true sid ifs net_send 1 s0 l New) as (T & Len & KA & _ & KB).
  exists (zlen (o_buf (fst (osw_run s0 l))) + 1). split; [|split].
  - pose proof D as D'. rewrite run_snoc in D'. destruct (pkt_survived true sid ifs net_send _ dev now p T D') as (_ & _ & _ & _ & _ & _ & _ & H & _).
    pose proof (zlen_nonneg (o_buf (fst (osw_run s0 l)))). lia.
  - intros i A. destruct (announced l dev now p i D A) as (m & p' & raw & n & H1 & H2 & _ & H3 & _). exists m. auto.
  - intros i A. rewrite run_snoc in D. set (s := fst (osw_run s0 l)) in *.
    destruct (pkt_survived true sid ifs net_send s dev now p T D) as (y & p' & raw & ip & o & _ & _ & _ & _ & _ & Ht & Hs). cbv zeta in Ht, Hs.
    rewrite Hs. cbn [snd]. set (s2 := set_buf (bput (o_buf s) (zlen (o_buf s) + 1) (oi_num y, p')) (next_xid s)) in *.
    assert (G : forall ll k mm oo ee, tell_all ll k mm s2 = (oo, ee) -> told i oo = []); [|eapply G; exact Ht].
    clear Ht Hs. induction ll as [|x ll IH]; intros k mm oo ee H; cbn [tell_all] in H; [injection H as <- _; reflexivity|].
    assert (Q : forall s' o' e', tell k mm s2 = (s', o', e') -> told i o' = []).
    { intros s' o' e' E. unfold tell in E. change (o_ctls s2) with (o_ctls s) in E. destruct (nth_error (o_ctls s) k) as [d|] eqn:Ek; [|injection E as _ <- _; reflexivity].
      destruct (c_up d) eqn:Eu; [|injection E as _ <- _; reflexivity]. destruct (of_ser mm); [|injection E as _ <- _; reflexivity].
      injection E as _ <- _. unfold told. cbn [flat_map]. destruct (Nat.eqb_spec i k) as [->|]; [|reflexivity]. exfalso. apply A. eapply KB; eauto. }
    destruct (tell k mm s2) as [[s' o'] [e'|]] eqn:E; [injection H as <- _; eapply Q; reflexivity|].
    destruct (tell_all ll (S k) mm s2) as [o2 e2] eqn:E2. injection H as <- _. rewrite told_app, (Q _ _ _ eq_refl), (IH _ _ _ _ E2). reflexivity.
Qed.
End Ten.
