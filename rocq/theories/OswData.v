(** Proofs about the OpenflowSwitch model: packets on the datapath, packet-in, the buffer and packet-out. *)
From Verif Require Import Base BaseLemmas CodecLemmas EthAddrModel PacketModel OfModel OfSpec OfProofs OfMsg SwModel OswModel OswSpec OswProofs OswMore OswHist.

Lemma F2_len {A C} (R : A -> C -> Prop) a b : Forall2 R a b -> length a = length b.
Proof. induction 1; cbn [length]; lia. Qed.

(** *** The buffer while nothing is released *)
Fixpoint numbered {P} (k : Z) (vs : list P) : buf P := match vs with [] => [] | v :: r => (k, v) :: numbered (k + 1) r end.
Lemma numbered_len {P} (vs : list P) : forall k, zlen (numbered k vs) = zlen vs.
Proof. induction vs as [|v r IH]; intros k; [reflexivity|]. cbn [numbered]. unfold zlen in *. cbn [length]. specialize (IH (k + 1)). lia. Qed.
Lemma numbered_put {P} (vs : list P) v : forall k, bput (numbered k vs) (k + zlen vs) v = numbered k (vs ++ [v]).
Proof.
  induction vs as [|x r IH]; intros k; cbn [numbered bput app].
  - change (zlen (@nil P)) with 0. rewrite Z.add_0_r. reflexivity.
  - unfold zlen. cbn [length]. replace (k =? k + Z.of_nat (S (length r))) with false by lia. f_equal. rewrite <- IH. f_equal. unfold zlen. lia.
Qed.
Lemma numbered_get {P} (vs : list P) : forall k j, bget (numbered k vs) (k + Z.of_nat j) = nth_error vs j.
Proof.
  induction vs as [|x r IH]; intros k j; cbn [numbered bget].
  - destruct j; reflexivity.
  - destruct j as [|j]; cbn [nth_error].
    + replace (k =? k + Z.of_nat 0) with true by lia. reflexivity.
    + replace (k =? k + Z.of_nat (S j)) with false by lia. rewrite <- (IH (k + 1)). f_equal. lia.
Qed.
Lemma add_numbered {P} size (vs : list P) v : zlen vs < size -> buf_add size (numbered 1 vs) v = (numbered 1 (vs ++ [v]), Some (zlen vs + 1)).
Proof.
  intros H. unfold buf_add. rewrite numbered_len. replace (size <? zlen vs + 1) with false by lia.
  rewrite <- numbered_put. rewrite (Z.add_comm (zlen vs) 1). reflexivity.
Qed.
Lemma add_full {P} size (vs : list P) v : size <= zlen vs -> buf_add size (numbered 1 vs) v = (numbered 1 vs, None).
Proof. intros H. unfold buf_add. rewrite numbered_len. replace (size <? zlen vs + 1) with true by lia. reflexivity. Qed.

(** *** Telling every controller *)
Definition tells (s : osw) (raw : bytes) (j : nat) : list obs :=
  match nth_error (o_ctls s) j with Some c => if c_up c then [Tell j raw] else [] | None => [] end.
Lemma tell_all_ok m s lr raw : of_ser m = Ok (lr, raw) -> forall l k, tell_all l k m s = (flat_map (tells s raw) (seq k (length l)), None).
Proof.
  intros H. induction l as [|c l IH]; intros k; [reflexivity|]. cbn [tell_all length seq flat_map].
  assert (E : tell k m s = (s, tells s raw k, None)).
  { unfold tell, tells. destruct (nth_error (o_ctls s) k) as [d|]; auto. destruct (c_up d); auto. rewrite H. reflexivity. }
  rewrite E, IH. reflexivity.
Qed.
Lemma told_app i a b : told i (a ++ b) = told i a ++ told i b.
Proof. unfold told. apply flat_map_app. Qed.
Lemma told_tells s raw i j : told i (tells s raw j) = if Nat.eqb i j then match nth_error (o_ctls s) j with Some c => if c_up c then [raw] else [] | None => [] end else [].
Proof.
  unfold tells. destruct (nth_error (o_ctls s) j) as [c|]; [destruct (c_up c)|]; cbn; destruct (Nat.eqb i j); reflexivity.
Qed.
Lemma told_seq s raw i : forall n k, told i (flat_map (tells s raw) (seq k n)) =
  if (Nat.leb k i && Nat.ltb i (k + n))%bool then match nth_error (o_ctls s) i with Some c => if c_up c then [raw] else [] | None => [] end else [].
Proof.
  induction n as [|n IH]; intros k; cbn [seq flat_map].
  - replace (Nat.leb k i && Nat.ltb i (k + 0))%bool with false; [reflexivity|]. symmetry. apply andb_false_iff.
    destruct (Nat.leb_spec k i); [right; apply Nat.ltb_ge; lia|left; reflexivity].
  - rewrite told_app, told_tells, IH. destruct (Nat.eqb_spec i k) as [->|NE].
    + rewrite Nat.leb_refl. replace (Nat.ltb k (k + S n)) with true by (symmetry; apply Nat.ltb_lt; lia).
      replace (Nat.leb (S k) k) with false by (symmetry; apply Nat.leb_gt; lia). cbn [andb]. rewrite app_nil_r. reflexivity.
    + cbn [app]. replace (Nat.leb (S k) i) with (Nat.leb k i).
      * replace (k + S n)%nat with (S k + n)%nat by lia. reflexivity.
      * destruct (Nat.leb_spec k i); symmetry; [apply Nat.leb_le|apply Nat.leb_gt]; lia.
Qed.
Lemma no_emit_tells s raw l : forall d x, ~ In (Emit d x) (flat_map (tells s raw) l).
Proof.
  intros d x I. apply in_flat_map in I. destruct I as (j & _ & I). unfold tells in I.
  destruct (nth_error (o_ctls s) j) as [c|]; [destruct (c_up c)|]; cbn in I; intuition discriminate.
Qed.

Lemma body_packet_in id n data : 0 <= id < 4294967296 -> 0 <= n < 65536 -> 10 + zlen data < 65536 ->
  body_to (BPacketIn id n 0 data) = Ok (be 4 id ++ be 2 (10 + zlen data) ++ be 2 n ++ [0; 0] ++ data).
Proof.
  intros H1 H2 H3. pose proof (zlen_nonneg data). cbn [body_to]. unfold packetin_fmt. cbn [pack].
  change (256 ^ Z.of_nat 1) with 256. change (256 ^ Z.of_nat 2) with 65536. change (256 ^ Z.of_nat 4) with 4294967296.
  replace ((0 <=? id) && (id <? 4294967296)) with true by lia. replace ((0 <=? zlen data + 10) && (zlen data + 10 <? 65536)) with true by lia.
  replace ((0 <=? n) && (n <? 65536)) with true by lia. change ((0 <=? 0) && (0 <? 256)) with true. cbn [bindr].
  rewrite (Z.add_comm (zlen data) 10). f_equal.
Qed.
Lemma get_port_plain n : plain n -> get_port n = Ok n.
Proof.
  intros [H1 H2]. unfold get_port. destruct (zmem n OfPorts); auto. replace ((0 <=? n) && (n <? 0xff00)) with true by lia. reflexivity.
Qed.
Lemma port_named_number ifs dev n : number_of ifs dev n -> exists x, port_named dev ifs = Some x /\ oi_num x = n.
Proof.
  intros (a & x & b & -> & H1 & H2 & H3). exists x. split; auto. induction a as [|y a IH]; cbn [app port_named].
  - rewrite H1, bytes_eqb_refl. reflexivity.
  - destruct (bytes_eqb dev (oi_name y)) eqn:E.
    + apply bytes_eqb_eq in E. exfalso. apply (H3 y); [left; auto|auto].
    + apply IH. intros z I. apply H3. right. auto.
Qed.

(** *** Packet-out messages *)
Definition outputs (ml : Z) (ports : list Z) : list ofaction := map (fun p => mkAct 0 8 (AOutput p ml)) ports.
Lemma outputs_to ml ports : 0 <= ml < 65536 -> Forall plain ports -> actions_to (outputs ml ports) = Ok (concat (map (wire_output ml) ports)).
Proof.
  intros Hm F. unfold actions_to, outputs. assert (E : mapr action_to (map (fun p => mkAct 0 8 (AOutput p ml)) ports) = Ok (map (wire_output ml) ports)).
  { induction F as [|p ports [P1 P2] F IH]; [reflexivity|]. cbn [map mapr]. rewrite IH.
    assert (A : action_to (mkAct 0 8 (AOutput p ml)) = Ok (wire_output ml p)).
    { unfold action_to. cbn [a_type a_len a_body abody_to]. change (pack [fH; fH] [VI 0; VI 8]) with (Ok [0; 0; 0; 8]). cbn [bindr pack].
      change (256 ^ Z.of_nat 2) with 65536. replace ((0 <=? p) && (p <? 65536)) with true by lia.
      replace ((0 <=? ml) && (ml <? 65536)) with true by lia. cbn [bindr]. rewrite app_nil_r. reflexivity. }
    rewrite A. reflexivity. }
  rewrite E. reflexivity.
Qed.
Lemma outputs_ok ml ports : Forall action_ok (outputs ml ports).
Proof. unfold outputs. apply Forall_forall. intros a I. apply in_map_iff in I. destruct I as (p & <- & _). cbn. auto. Qed.
Lemma outputs_canon ml ports : map action_canon (outputs ml ports) = outputs ml ports.
Proof. unfold outputs. rewrite map_map. reflexivity. Qed.
Lemma wire_outputs_len ml ports : zlen (concat (map (wire_output ml) ports)) = 8 * zlen ports.
Proof.
  induction ports as [|p l IH]; [reflexivity|]. cbn [map concat]. rewrite zlen_app, IH. unfold wire_output, zlen. cbn [app length]. rewrite app_length, !be_length. lia.
Qed.
Lemma packet_out_parse v xid id inport ml ports data : wfb xid -> length xid = 4%nat -> 0 <= v < 256 -> 0 <= id < 4294967296 -> plain inport ->
  0 <= ml < 65536 -> Forall plain ports -> 8 * zlen ports < 65536 ->
  exists h, of_parse (wire_packet_out v xid id inport ml ports data) = Ok [PHdr h; PBody (BPacketOut id inport (outputs ml ports) (Some data))] /\ oh_type h = 13.
Proof.
  intros Wx Lx Hv Hid Hin Hm Hp Hl. unfold wire_packet_out.
  set (acts := concat (map (wire_output ml) ports)). set (body := be 4 id ++ be 2 inport ++ be 2 (8 * zlen ports) ++ acts ++ data).
  pose proof (zlen_nonneg ports) as N0.
  destruct xid as [|x1 [|x2 [|x3 [|x4 [|? ?]]]]]; try discriminate.
  assert (H2 : exists a b, be 2 (8 + zlen body) = [a; b]) by (cbn [be]; eauto). destruct H2 as (a & b & ->). cbn [app].
  assert (E1 : unbe [v] = v) by (cbn [unbe length]; change (256 ^ Z.of_nat 0) with 1; lia).
  assert (E : unpack hdr_fmt [v; 13; a; b; x1; x2; x3; x4] = Ok [VI v; VI 13; VI (unbe [a; b]); VI (unbe [x1; x2; x3; x4])]).
  { unfold hdr_fmt. cbn [unpack length Nat.ltb Nat.leb firstn skipn bindr]. rewrite E1. change (unbe [13]) with 13. reflexivity. }
  assert (P : pack packetout_fmt [VI id; VI inport; VI (8 * zlen ports)] = Ok (be 4 id ++ be 2 inport ++ be 2 (8 * zlen ports))).
  { unfold packetout_fmt. cbn [pack]. change (256 ^ Z.of_nat 4) with 4294967296. change (256 ^ Z.of_nat 2) with 65536. destruct Hin.
    replace ((0 <=? id) && (id <? 4294967296)) with true by lia. replace ((0 <=? inport) && (inport <? 65536)) with true by lia.
    replace ((0 <=? 8 * zlen ports) && (8 * zlen ports <? 65536)) with true by lia. cbn [bindr]. rewrite app_nil_r. reflexivity. }
  assert (B : body = (be 4 id ++ be 2 inport ++ be 2 (8 * zlen ports)) ++ acts ++ data) by (unfold body; rewrite <- !app_assoc; reflexivity).
  assert (HF : hdr_from (v :: 13 :: a :: b :: x1 :: x2 :: x3 :: x4 :: body) = Ok (mkOh v 13 (unbe [a; b]) (unbe [x1; x2; x3; x4]) None, body)).
  { unfold hdr_from. change (Nat.ltb (length (v :: 13 :: a :: b :: x1 :: x2 :: x3 :: x4 :: body)) 8) with false.
    change (firstn 8 (v :: 13 :: a :: b :: x1 :: x2 :: x3 :: x4 :: body)) with [v; 13; a; b; x1; x2; x3; x4]. rewrite E. reflexivity. }
  eexists. split; [|shelve]. unfold of_parse. rewrite HF. cbn [bindr fst snd]. unfold hdr_next. cbn [oh_type Z.eqb Pos.eqb bindr body_from].
  rewrite B. rewrite (ltb0 _ _ _ _ 8 P eq_refl), (unp _ _ _ _ 8 P eq_refl), (skp _ _ _ _ 8 P eq_refl). cbn [norm packetout_fmt bindr].
  rewrite get_port_plain by auto. cbn [bindr].
  assert (La : Z.to_nat (8 * zlen ports) = length acts).
  { pose proof (wire_outputs_len ml ports) as W. fold acts in W. unfold zlen in W at 1. lia. }
  rewrite (firstn_app_exact acts data) by auto. rewrite (skipn_app_exact acts data) by auto.
  pose proof (actions_round _ _ (outputs_ok ml ports) (outputs_to ml ports Hm Hp)) as AR. fold acts in AR. rewrite AR, outputs_canon. cbn [bindr noret fst snd]. reflexivity.
  Unshelve. reflexivity.
Qed.
Lemma outputs_sends ifs nc ip ml ports : Forall plain ports -> process_actions ifs nc ip (outputs ml ports) = (map SPort ports, None).
Proof.
  intros F. induction F as [|p ports [P1 P2] F IH]; [reflexivity|]. unfold outputs in *. cbn [map process_actions].
  unfold act_call. cbn [a_body].
  repeat match goal with |- context[p =? ?n] => replace (p =? n) with false by lia end.
  rewrite IH. reflexivity.
Qed.

Section Data.
Variables (link : bool) (sid : bytes) (ifs : list oif) (net_send : send -> payload -> option exn).
#[local] Notation serve := (serve sid ifs net_send).
#[local] Notation handle_datapath := (handle_datapath ifs net_send).
#[local] Notation osw_step := (osw_step link sid ifs net_send).
#[local] Notation osw_run := (osw_run link sid ifs net_send).

(** *** The datapath loop, once ended, handles nothing *)
Lemma dp_ended_step s e x : o_tab s = [] -> o_dp s = Some x -> o_dp (fst (osw_step s e)) = Some x.
Proof.
  intros T D. destruct e as [r|i|i now m|i now|dev now p]; cbn [OswModel.osw_step]; auto.
  - cbn [fst]. unfold start. destruct (nth_error (o_ctls s) i) as [[u [mp|] [en|]]|]; auto.
  - destruct (nth_error (o_ctls s) i) as [[[] [mp|] [en|]]|] eqn:E; auto.
    destruct (serve i mp now m s) as [[s1 o] y] eqn:S. destruct (serve_kept _ _ _ _ _ _ _ _ _ _ _ T S) as (K1 & K2 & K3 & _).
    destruct y as [y|]; cbn [end_if fst]; [|congruence].
    assert (E1 : nth_error (o_ctls s1) i = Some (mkCtl true (Some mp) None)) by congruence.
    destruct (end_ctl_spec i y s1 _ E1) as (_ & _ & _ & _ & _ & _ & _ & _ & ->). congruence.
  - destruct (nth_error (o_ctls s) i) as [[u [mp|] [en|]]|] eqn:E; auto. rewrite expire_nil by auto. exact D.
  - rewrite D. exact D.
Qed.
Lemma dp_ended_run s l x : o_tab s = [] -> o_dp s = Some x -> o_dp (fst (osw_run s l)) = Some x.
Proof.
  intros T D. induction l as [|e l IH] using rev_ind; auto. rewrite run_snoc. apply dp_ended_step; auto using tab_run.
Qed.
Lemma dp_back s e : o_tab s = [] -> o_dp (fst (osw_step s e)) = None -> o_dp s = None.
Proof. intros T D. destruct (o_dp s) eqn:E; auto. rewrite (dp_ended_step s e e0) in D by auto. discriminate. Qed.
Lemma dp_silent s x dev now p : o_dp s = Some x -> osw_step s (EPkt dev now p) = (s, []).
Proof. intros H. cbn [OswModel.osw_step]. rewrite H. reflexivity. Qed.

(** *** The transaction counter *)
Lemma xid_step s e : o_tab s = [] -> o_xid s <= o_xid (fst (osw_step s e)) <= o_xid s + 1.
Proof.
  intros T. destruct e as [r|i|i now m|i now|dev now p]; cbn [OswModel.osw_step].
  - cbn. lia.
  - cbn [fst]. unfold start. destruct (nth_error (o_ctls s) i) as [[u [mp|] [en|]]|]; cbn; lia.
  - destruct (nth_error (o_ctls s) i) as [[[] [mp|] [en|]]|] eqn:E; try (cbn; lia).
    destruct (serve i mp now m s) as [[s1 o] y] eqn:S. destruct (serve_kept _ _ _ _ _ _ _ _ _ _ _ T S) as (K1 & K2 & K3 & K4).
    destruct y as [y|]; cbn [end_if fst]; [|lia].
    assert (E1 : nth_error (o_ctls s1) i = Some (mkCtl true (Some mp) None)) by congruence.
    destruct (end_ctl_spec i y s1 _ E1) as (_ & _ & _ & _ & _ & _ & -> & _). lia.
  - destruct (nth_error (o_ctls s) i) as [[u [mp|] [en|]]|] eqn:E; try (cbn; lia). rewrite expire_nil by auto. cbn. lia.
  - destruct (o_dp s) eqn:D; [cbn; lia|]. rewrite datapath_nil by auto. destruct (port_named dev ifs) as [x|]; [|cbn; lia].
    unfold packet_in. destruct (pkt_to_bytes p) as [[p' raw]|y]; [|cbn; lia].
    destruct (buf_add 100 (o_buf s) (oi_num x, p')) as [b [id|]]; [|cbn; lia].
    destruct (o_lib10 s); [|cbn; lia]. destruct (get_port (oi_num x)); [|cbn; lia].
    destruct (tell_all _ _ _ _) as [oo [ee|]]; cbn; lia.
Qed.
Lemma xid_run v s0 l : osw_new v = Ok s0 -> 0 <= o_xid (fst (osw_run s0 l)) <= zlen l.
Proof.
  intros H. induction l as [|e l IH] using rev_ind.
  - cbn [OswModel.osw_run fst]. unfold osw_new in H. destruct (v =? 1); [|destruct (v =? 4); [|discriminate]]; apply ok_inj in H; subst; cbn; lia.
  - rewrite run_snoc. pose proof (xid_step (fst (osw_run s0 l)) e (proj1 (K_run link sid ifs net_send v s0 l H))) as X.
    rewrite zlen_app. change (zlen [e]) with 1. lia.
Qed.

(** *** What the buffer holds *)
Definition held (p : packet) (v : Z * packet) : Prop := exists raw, pkt_to_bytes p = Ok (snd v, raw).
Definition B (l : list oev) (s : osw) : Prop :=
  o_dp s = None -> exists vs, o_buf s = numbered 1 vs /\ (length vs <= 100)%nat /\ Forall2 held (arrivals l) vs.
Lemma serve_buf i mp now m s s' o e : o_tab s = [] -> is_msg m -> ty_of m <> 13 -> serve i mp now m s = (s', o, e) -> o_buf s' = o_buf s.
Proof.
  intros T M N H. unfold OswModel.serve in H. destruct (of_parse m) as [r|x] eqn:P; [|injection H; intros; subst; auto].
  rewrite expire_nil in H by auto. destruct (parse_head m r M P) as (h & b & -> & Ht & Hv & Hx). cbn [parsed] in H. rewrite Ht in H.
  assert (Ans : forall h' ty b' s1, o_buf s1 = o_buf s -> answer i h' ty b' s1 = (s', o, e) -> o_buf s' = o_buf s).
  { intros h' ty b' s1 E G. apply answer_state in G. congruence. }
  assert (K : handler mp (ty_of m) <> HPacketOut).
  { unfold handler. destruct (ty_of m =? 0); [discriminate|]. destruct (ty_of m =? 5); [discriminate|]. destruct (ty_of m =? 9); [discriminate|].
    destruct (ty_of m =? 7); [discriminate|]. destruct (ty_of m =? 14); [discriminate|]. destruct (Z.eqb_spec (ty_of m) 13); [lia|].
    destruct (ty_of m =? 2); [discriminate|]. destruct mp, (ty_of m =? 18), (ty_of m =? 16), (ty_of m =? 20); discriminate. }
  destruct (handler mp (ty_of m)); cbn [OswModel.handle] in H; try congruence; try (eapply Ans; [|exact H]; reflexivity);
    try (injection H; intros; subst; reflexivity).
  - destruct (oh_ver h =? 1); [eapply Ans; [|exact H]; reflexivity|]. destruct (oh_ver h =? 4); [eapply Ans; [|exact H]; reflexivity|].
    injection H; intros; subst; auto.
  - destruct (o_lib10 s); [|injection H; intros; subst; auto]. destruct (dpid_of sid); [eapply Ans; [|exact H]; reflexivity|injection H; intros; subst; auto].
  - destruct (nth_error b 0) as [[?|[]|?]|]; injection H; intros; subst; auto.
  - destruct (nth_error b 0); injection H; intros; subst; auto.
Qed.
Lemma arrivals_snoc l e : arrivals (l ++ [e]) = arrivals l ++ arrivals [e].
Proof. unfold arrivals. apply flat_map_app. Qed.
Lemma B_step l s e : o_tab s = [] -> B l s -> (forall i now m, e = EMsg i now m -> is_msg m /\ ty_of m <> 13) -> B (l ++ [e]) (fst (osw_step s e)).
Proof.
  intros T HB HM D. pose proof (dp_back s e T D) as D0. destruct (HB D0) as (vs & E & Le & F).
  rewrite arrivals_snoc.
  assert (Same : arrivals [e] = [] -> o_buf (fst (osw_step s e)) = o_buf s -> exists vs, o_buf (fst (osw_step s e)) = numbered 1 vs /\ (length vs <= 100)%nat /\ Forall2 held (arrivals l ++ arrivals [e]) vs).
  { intros -> ->. exists vs. rewrite app_nil_r. auto. }
  destruct e as [r|i|i now m|i now|dev now p].
  - apply Same; reflexivity.
  - apply Same; [reflexivity|]. cbn [OswModel.osw_step fst]. unfold start. destruct (nth_error (o_ctls s) i) as [[u [mp|] [en|]]|]; reflexivity.
  - destruct (HM i now m eq_refl) as [M N]. apply Same; [reflexivity|]. cbn [OswModel.osw_step].
    destruct (nth_error (o_ctls s) i) as [[[] [mp|] [en|]]|] eqn:Ec; auto.
    destruct (serve i mp now m s) as [[s1 o] y] eqn:S. pose proof (serve_buf _ _ _ _ _ _ _ _ T M N S) as Q.
    destruct (serve_kept _ _ _ _ _ _ _ _ _ _ _ T S) as (K1 & K2 & K3 & K4).
    destruct y as [y|]; cbn [end_if fst]; auto.
    assert (E1 : nth_error (o_ctls s1) i = Some (mkCtl true (Some mp) None)) by congruence.
    destruct (end_ctl_spec i y s1 _ E1) as (_ & _ & _ & _ & _ & _ & _ & -> & _). exact Q.
  - apply Same; [reflexivity|]. cbn [OswModel.osw_step]. destruct (nth_error (o_ctls s) i) as [[u [mp|] [en|]]|]; auto. rewrite expire_nil by auto. reflexivity.
  - clear Same. cbn [OswModel.osw_step] in D |- *. rewrite D0 in D |- *. rewrite datapath_nil in D |- * by auto.
    destruct (port_named dev ifs) as [x|]; [|discriminate]. unfold packet_in in *.
    destruct (pkt_to_bytes p) as [[p' raw]|y] eqn:Pk; [|discriminate]. rewrite E in *.
    destruct (Z.lt_ge_cases (zlen vs) 100) as [L|L]; [rewrite add_numbered in D |- * by auto|rewrite add_full in D by auto; discriminate].
    destruct (o_lib10 s); [|discriminate]. destruct (get_port (oi_num x)); [|discriminate].
    destruct (tell_all _ _ _ _) as [oo [ee|]]; [discriminate|]. cbn [fst set_buf o_buf].
    eexists. split; [reflexivity|]. split; [rewrite app_length; cbn [length]; unfold zlen in L; lia|]. apply Forall2_app; auto. constructor; [|constructor]. exists raw. exact Pk.
Qed.
Lemma B_run v s0 l : osw_new v = Ok s0 -> proper l -> no_packet_out l -> B l (fst (osw_run s0 l)).
Proof.
  intros H. induction l as [|e l IH] using rev_ind; intros P N.
  - intros _. exists []. split; [|split; [cbn; lia|constructor]]. cbn [OswModel.osw_run fst]. unfold osw_new in H.
    destruct (v =? 1); [|destruct (v =? 4); [|discriminate]]; apply ok_inj in H; subst; reflexivity.
  - rewrite run_snoc. apply B_step.
    + apply (K_run link sid ifs net_send v s0 l H).
    + apply IH; [eapply proper_snoc; eauto|]. intros i now m I. apply (N i now). apply in_app_iff. auto.
    + intros i now m ->. split; [apply (proper_last _ _ _ _ P)|]. apply (N i now). apply in_app_iff. right. left. auto.
Qed.

(** *** Packets never go straight out *)
Lemma tell_no_emit i m s s1 o e : tell i m s = (s1, o, e) -> forall d x, ~ In (Emit d x) o.
Proof.
  unfold tell. intros H d x I. destruct (nth_error (o_ctls s) i) as [c|]; [destruct (c_up c); [destruct (of_ser m)|]|]; injection H; intros; subst; cbn in I; intuition discriminate.
Qed.
Lemma tell_all_no_emit m s : forall l k o e, tell_all l k m s = (o, e) -> forall d x, ~ In (Emit d x) o.
Proof.
  induction l as [|c l IH]; intros k o e H d x; cbn [tell_all] in H.
  - injection H as <- _. intros [].
  - destruct (tell k m s) as [[s1 o1] [e1|]] eqn:E.
    + injection H as <- _. eapply tell_no_emit; eauto.
    + destruct (tell_all l (S k) m s) as [o2 e2] eqn:E2. injection H as <- _. intros I. apply in_app_iff in I.
      destruct I as [I|I]; [eapply tell_no_emit; eauto|eapply IH; eauto].
Qed.
Lemma never_forwards v s0 l dev now p : osw_new v = Ok s0 -> forall d x, ~ In (Emit d x) (snd (osw_step (fst (osw_run s0 l)) (EPkt dev now p))).
Proof.
  intros H d x. destruct (K_run link sid ifs net_send v s0 l H) as (T & _). set (s := fst (osw_run s0 l)) in *.
  cbn [OswModel.osw_step]. destruct (o_dp s); [intros []|]. rewrite datapath_nil by auto. destruct (port_named dev ifs) as [y|]; [|intros []].
  unfold packet_in. destruct (pkt_to_bytes p) as [[p' raw]|z]; [|intros []].
  destruct (buf_add 100 (o_buf s) (oi_num y, p')) as [b [id|]]; [|intros []]. destruct (o_lib10 s); [|intros []].
  destruct (get_port (oi_num y)); [|intros []]. destruct (tell_all _ _ _ _) as [oo [ee|]] eqn:E; cbn [snd]; eapply tell_all_no_emit; eauto.
Qed.
End Data.

Section Ten.
Variables (sid : bytes) (ifs : list oif) (net_send : send -> payload -> option exn) (s0 : osw).
#[local] Notation serve := (serve sid ifs net_send).
#[local] Notation osw_step := (osw_step true sid ifs net_send).
#[local] Notation osw_run := (osw_run true sid ifs net_send).
Hypothesis New : osw_new 1 = Ok s0.

Lemma packet_in_told l dev now n p p' raw data : proper l -> no_packet_out l -> all_alive (fst (osw_run s0 l)) -> o_dp (fst (osw_run s0 l)) = None ->
  zlen l + 1 < 4294967296 -> number_of ifs dev n -> plain n -> pkt_to_bytes p = Ok (p', raw) -> (length (arrivals l) < 100)%nat ->
  data = firstn (Z.to_nat (snd (config l))) raw -> 18 + zlen data < 65536 ->
  exists x, length x = 4%nat /\
    (forall i, added i l -> told i (snd (osw_step (fst (osw_run s0 l)) (EPkt dev now p))) = [wire_packet_in x (zlen (arrivals l) + 1) n data]) /\
    (forall i, ~ added i l -> told i (snd (osw_step (fst (osw_run s0 l)) (EPkt dev now p))) = []) /\
    (forall d y, ~ In (Emit d y) (snd (osw_step (fst (osw_run s0 l)) (EPkt dev now p)))) /\
    o_dp (fst (osw_run s0 (l ++ [EPkt dev now p]))) = None /\ all_alive (fst (osw_run s0 (l ++ [EPkt dev now p]))).
Proof.
  intros P N A D Hx Hn Hp Hs HL Hdata Hd. pose proof (J_run sid ifs net_send s0 New l P A) as (V & Lb & C & F1 & F2 & _).
  destruct (K_run true sid ifs net_send 1 s0 l New) as (T & Len & KA & _ & KB).
  destruct (B_run true sid ifs net_send 1 s0 l New P N D) as (vs & Eb & Le & Fb).
  pose proof (xid_run true sid ifs net_send 1 s0 l New) as X. rewrite run_snoc.
  set (s := fst (osw_run s0 l)) in *. pose proof (F2_len _ _ _ Fb) as Lvs.
  destruct (port_named_number ifs dev n Hn) as (y & Hy & Hyn).
  set (x := o_xid s + 1). set (id := zlen (arrivals l) + 1).
  assert (Hid : 0 <= id < 4294967296) by (unfold id, zlen; lia). destruct Hp as [Hp1 Hp2].
  pose proof (body_packet_in id n data Hid ltac:(lia) ltac:(lia)) as Hb.
  destruct (ser_body 10 x (BPacketIn id n 0 data) _ ltac:(lia) ltac:(unfold x; lia) Hb) as (lr & Ser).
  { rewrite !zlen_app. change (zlen [0; 0]) with 2. unfold zlen in *. rewrite !be_length. lia. }
  set (s2 := set_buf (numbered 1 (vs ++ [(n, p')])) (next_xid s)).
  assert (St : osw_step s (EPkt dev now p) = (s2, flat_map (tells s2 (wire_packet_in (be 4 x) id n data)) (seq 0 (length (o_ctls s))))).
  { cbn [OswModel.osw_step]. rewrite D, datapath_nil, Hy by auto. unfold packet_in. rewrite Hs, Hyn, Eb.
    assert (L100 : zlen vs < 100) by (unfold zlen; lia). rewrite add_numbered by auto. rewrite Lb, get_port_plain by (split; lia).
    assert (Ei : zlen vs + 1 = id) by (unfold id, zlen; lia). rewrite Ei.
    assert (Ed : firstn (Z.to_nat (o_miss s)) raw = data) by (rewrite Hdata, <- C; reflexivity). rewrite Ed.
    change (o_xid (next_xid s)) with x. rewrite (tell_all_ok _ _ lr _ Ser). reflexivity. }
  rewrite St. cbn [fst snd]. exists (be 4 x). split; [apply be_length|].
  assert (Tl : forall i, told i (flat_map (tells s2 (wire_packet_in (be 4 x) id n data)) (seq 0 (length (o_ctls s)))) =
     match nth_error (o_ctls s) i with Some c => if c_up c then [wire_packet_in (be 4 x) id n data] else [] | None => [] end).
  { intros i. rewrite told_seq. change (o_ctls s2) with (o_ctls s). rewrite Nat.add_0_l. change (Nat.leb 0 i) with true. cbn [andb].
    destruct (Nat.ltb_spec i (length (o_ctls s))) as [G|G]; [reflexivity|]. apply nth_error_None in G. rewrite G. reflexivity. }
  split; [|split; [|split; [|split]]].
  - intros i Ad. rewrite Tl. destruct (KA i Ad) as (c & -> & ->). reflexivity.
  - intros i Ad. rewrite Tl. destruct (nth_error (o_ctls s) i) as [c|] eqn:Ec; auto. destruct (c_up c) eqn:Eu; auto. exfalso. apply Ad. eapply KB; eauto.
  - apply no_emit_tells.
  - exact D.
  - exact A.
Qed.

(** A full buffer ends the datapath. *)
Lemma full l dev now p : proper l -> no_packet_out l -> o_dp (fst (osw_run s0 l)) = None -> length (arrivals l) = 100%nat ->
  snd (osw_step (fst (osw_run s0 l)) (EPkt dev now p)) = [] /\
  forall l' dev' now' p', osw_step (fst (osw_run s0 (l ++ EPkt dev now p :: l'))) (EPkt dev' now' p') = (fst (osw_run s0 (l ++ EPkt dev now p :: l')), []).
Proof.
  intros P N D HL. destruct (K_run true sid ifs net_send 1 s0 l New) as (T & _).
  destruct (B_run true sid ifs net_send 1 s0 l New P N D) as (vs & Eb & Le & Fb). pose proof (F2_len _ _ _ Fb) as Lvs.
  set (s := fst (osw_run s0 l)) in *.
  assert (St : exists s1 e, osw_step s (EPkt dev now p) = (set_dp (Some e) s1, []) /\ o_tab s1 = []).
  { cbn [OswModel.osw_step]. rewrite D, datapath_nil by auto. destruct (port_named dev ifs) as [x|]; [|exists s, EKey; auto].
    unfold packet_in. destruct (pkt_to_bytes p) as [[p' raw]|e]; [|exists (next_xid s), e; auto].
    rewrite Eb, add_full by (unfold zlen; lia). exists (next_xid s), EExc. auto. }
  destruct St as (s1 & e & St & T1). rewrite St. split; [reflexivity|]. intros l' dev' now' p'.
  apply (dp_silent true sid ifs net_send _ e). change (EPkt dev now p :: l') with ([EPkt dev now p] ++ l').
  rewrite app_assoc, run_fst_app, run_snoc. fold s. rewrite St. cbn [fst]. apply dp_ended_run; auto.
Qed.

(** Releasing a buffered packet. *)
Lemma emit_all_ok x l : (forall d, In d l -> net_send d x = None) -> emit_all net_send l x = (map (fun d => Emit d x) l, None).
Proof.
  induction l as [|d l IH]; intros H; [reflexivity|]. cbn [emit_all map]. rewrite (H d) by (left; auto). rewrite IH by (intros; apply H; right; auto). reflexivity.
Qed.
Lemma release l i now v xid inport ml ports data k p : proper l -> no_packet_out l -> all_alive (fst (osw_run s0 l)) ->
  o_dp (fst (osw_run s0 l)) = None -> running i l ->
  nth_error (arrivals l) k = Some p ->
  wfb xid -> length xid = 4%nat -> 0 <= v < 256 -> plain inport -> 0 <= ml < 65536 -> Forall plain ports -> 8 * zlen ports < 65536 ->
  exists p' raw, pkt_to_bytes p = Ok (p', raw) /\
    ((forall port, In port ports -> net_send (SPort port) (WPkt p') = None) ->
     snd (osw_step (fst (osw_run s0 l)) (EMsg i now (wire_packet_out v xid (Z.of_nat k + 1) inport ml ports data))) =
       map (fun port => Emit (SPort port) (WPkt p')) ports /\
     all_alive (fst (osw_run s0 (l ++ [EMsg i now (wire_packet_out v xid (Z.of_nat k + 1) inport ml ports data)])))).
Proof.
  intros P N A D R Hk W L Hv Hin Hml Hp Hl. pose proof (ctl_run sid ifs net_send s0 New l i P A R) as E.
  destruct (K_run true sid ifs net_send 1 s0 l New) as (T & Len & _).
  destruct (B_run true sid ifs net_send 1 s0 l New P N D) as (vs & Eb & Le & Fb). rewrite run_snoc.
  set (s := fst (osw_run s0 l)) in *.
  assert (Hvs : exists w, nth_error vs k = Some w /\ held p w).
  { clear - Fb Hk. revert k Hk. induction Fb as [|a b la lb H F IH]; intros [|k] Hk; try discriminate; cbn [nth_error] in *.
    - injection Hk as ->. exists b. auto.
    - apply IH; auto. }
  destruct Hvs as (w & Hw & raw & Hr). exists (snd w), raw. split; auto. intros Hs.
  assert (Hk' : (k < length vs)%nat) by (apply nth_error_Some; congruence).
  destruct (packet_out_parse v xid (Z.of_nat k + 1) inport ml ports data W L Hv ltac:(lia) Hin Hml Hp Hl) as (h & Ph & Ht).
  assert (St : exists s1, osw_step s (EMsg i now (wire_packet_out v xid (Z.of_nat k + 1) inport ml ports data)) =
    (s1, map (fun port => Emit (SPort port) (WPkt (snd w))) ports) /\ o_ctls s1 = o_ctls s).
  { eexists (set_buf _ s). cbn [OswModel.osw_step]. rewrite E. unfold OswModel.serve. rewrite Ph, expire_nil by auto. cbn [parsed nth_error]. rewrite Ht.
    change (handler true 13) with HPacketOut. cbn [handle]. replace (Z.of_nat k + 1 =? 4294967295) with false by lia. cbn [negb].
    unfold buf_pop. rewrite Eb. rewrite (Z.add_comm (Z.of_nat k) 1), numbered_get, Hw.
    unfold do_actions. rewrite outputs_sends by auto. rewrite emit_all_ok.
    - rewrite map_map. cbn [end_if]. split; reflexivity.
    - intros d I. apply in_map_iff in I. destruct I as (q & <- & I). auto. }
  destruct St as (s1 & St & Ec). rewrite St. cbn [fst snd]. split; [reflexivity|]. unfold all_alive. rewrite Ec. exact A.
Qed.

(** Plain bytes where net.send_packet wants a Packet. *)
Lemma raw_refused l i now v xid inport ml port ports data : proper l -> all_alive (fst (osw_run s0 l)) -> running i l ->
  (forall d b, net_send d (WRaw b) <> None) ->
  wfb xid -> length xid = 4%nat -> 0 <= v < 256 -> plain inport -> 0 <= ml < 65536 -> Forall plain (port :: ports) -> 8 * zlen (port :: ports) < 65536 ->
  snd (osw_step (fst (osw_run s0 l)) (EMsg i now (wire_packet_out v xid 0xffffffff inport ml (port :: ports) data))) = [] /\
  forall l', ended i (fst (osw_run s0 (l ++ EMsg i now (wire_packet_out v xid 0xffffffff inport ml (port :: ports) data) :: l'))).
Proof.
  intros P A R Hn W L Hv Hin Hml Hp Hl. pose proof (ctl_run sid ifs net_send s0 New l i P A R) as E.
  destruct (K_run true sid ifs net_send 1 s0 l New) as (T & Len & _).
  destruct (packet_out_parse v xid 0xffffffff inport ml (port :: ports) data W L Hv ltac:(lia) Hin Hml Hp Hl) as (h & Ph & Ht).
  set (m := wire_packet_out v xid 0xffffffff inport ml (port :: ports) data) in *. set (s := fst (osw_run s0 l)) in *.
  assert (S : exists e, serve i true now m s = (s, [], Some e)).
  { unfold OswModel.serve. rewrite Ph, expire_nil by auto. cbn [parsed nth_error]. rewrite Ht.
    change (handler true 13) with HPacketOut. cbn [handle]. change (4294967295 =? 4294967295) with true. cbn [negb].
    unfold do_actions. rewrite outputs_sends by auto. cbn [map emit_all].
    destruct (net_send (SPort port) (WRaw data)) as [e|] eqn:En; [|exfalso; eapply Hn; eauto]. exists e. reflexivity. }
  destruct S as (e & S). destruct (ends true sid ifs net_send s i true true now m s [] e T E eq_refl S) as [O Q]. split; [exact O|].
  intros l'. change (EMsg i now m :: l') with ([EMsg i now m] ++ l'). rewrite app_assoc, run_fst_app, run_snoc. apply Q.
Qed.
End Ten.
