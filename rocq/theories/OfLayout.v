(** Specification: the wire layout of OpenFlow 1.0 messages, written out from the published
    structures (OpenFlow Switch Specification 1.0.0, section 5).  Numbers are big-endian. *)
From Verif Require Import Base EthAddrModel ArpModel OfModel.

Definition u8 (v : Z) : bytes := be 1 v.
Definition u16 (v : Z) : bytes := be 2 v.
Definition u32 (v : Z) : bytes := be 4 v.
Definition u64 (v : Z) : bytes := be 8 v.
Definition pad (n : nat) : bytes := repeat 0 n.
(** A NUL-padded string field. *)
Definition txt (n : nat) (t : bytes) : bytes := t ++ pad (n - length t).
(** Bitwise or of the members of a set of flags. *)
Fixpoint bor (s : list Z) : Z := match s with [] => 0 | v :: s' => Z.lor v (bor s') end.

Definition lay_hdr (ver ty len xid : Z) : bytes := u8 ver ++ u8 ty ++ u16 len ++ u32 xid.   (* ofp_header *)
Definition lay_port (p : pport) : bytes :=                                            (* ofp_phy_port *)
  u16 (pp_num p) ++ pp_hw p ++ txt 16 (pp_name p) ++ u32 (bor (pp_config p)) ++ u32 (bor (pp_state p)) ++
  u32 (bor (pp_curr p)) ++ u32 (bor (pp_adv p)) ++ u32 (bor (pp_supp p)) ++ u32 (bor (pp_peer p)).
(** ofp_flow_wildcards: one bit per field, and two six-bit counts of ignored address bits. *)
Definition lay_wild (m : ofmatch) : Z :=
  Z.lor (bor (m_wild m)) (Z.lor (Z.shiftl (m_srcw m) 8) (Z.shiftl (m_dstw m) 14)).
Definition lay_match (m : ofmatch) : bytes :=                                            (* ofp_match *)
  u32 (lay_wild m) ++ u16 (m_inport m) ++ m_dlsrc m ++ m_dldst m ++ u16 (m_vlan m) ++ u8 (m_pcp m) ++ pad 1 ++
  u16 (m_dltype m) ++ u8 (m_tos m) ++ u8 (m_proto m) ++ pad 2 ++ m_nwsrc m ++ m_nwdst m ++
  u16 (m_tpsrc m) ++ u16 (m_tpdst m).
Definition lay_action (a : ofaction) : bytes :=                                 (* ofp_action_header *)
  u16 (a_type a) ++ u16 (a_len a) ++
  match a_body a with
  | AOutput p m => u16 p ++ u16 m
  | AEnqueue p q => u16 p ++ pad 6 ++ u32 q
  | AVlanVid v => u16 v ++ pad 2
  | AVlanPcp v => u8 v ++ pad 3
  | AStripVlan => []
  | ADlAddr x => x ++ pad 6
  | ANwAddr x => x
  | ANwTos t => u8 t ++ pad 3
  | ATpPort p => u16 p ++ pad 2
  | AVendor v d => u32 v ++ d ++ pad (Z.to_nat ((- zlen d) mod 8))
  end.
Definition lay_actions (l : list ofaction) : bytes := concat (map lay_action l).
Definition lay_queue (q : ofqueue) : bytes :=                                  (* ofp_packet_queue *)
  u32 (q_id q) ++ u16 (8 + 16 * zlen (q_props q)) ++ pad 2 ++
  concat (map (fun r => u16 1 ++ u16 16 ++ pad 4 ++ u16 r ++ pad 6) (q_props q)).
Definition lay_req (r : statsreq) : bytes :=
  match r with
  | SQDesc | SQTable => []
  | SQFlow m t o | SQAggr m t o => lay_match m ++ u8 t ++ pad 1 ++ u16 o          (* ofp_flow_stats_request *)
  | SQPort p => u16 p ++ pad 6
  | SQQueue p q => u16 p ++ pad 2 ++ u32 q
  | SQVendor i d => u32 i ++ d
  end.
(** [elen]: the length field of a flow statistics entry, which the structure defines as the
    length of the entry itself; [agg]: the aggregate counters. *)
Definition lay_rep (elen : flowstat -> Z) (agg : Z -> Z -> Z -> bytes) (r : statsrep) : bytes :=
  match r with
  | SPDesc a b c d e => txt 256 a ++ txt 256 b ++ txt 256 c ++ txt 32 d ++ txt 256 e     (* ofp_desc_stats *)
  | SPFlow f =>                                                                (* ofp_flow_stats *)
      u16 (elen f) ++ u8 (fs_table f) ++ pad 1 ++ lay_match (fs_match f) ++ u32 (fs_sec f) ++ u32 (fs_nsec f) ++
      u16 (fs_prio f) ++ u16 (fs_idle f) ++ u16 (fs_hard f) ++ pad 6 ++ u64 (fs_cookie f) ++ u64 (fs_pkts f) ++
      u64 (fs_bytes f) ++ lay_actions (fs_actions f)
  | SPAggr b p f => agg b p f
  | SPTable t =>                                                               (* ofp_table_stats *)
      u8 (ts_table t) ++ pad 3 ++ txt 32 (ts_name t) ++ u32 (bor (ts_wild t)) ++ u32 (ts_max t) ++ u32 (ts_active t) ++
      u64 (ts_lookup t) ++ u64 (ts_matched t)
  | SPPort p =>                                                                (* ofp_port_stats *)
      u16 (ps_port p) ++ pad 6 ++ u64 (ps_rxp p) ++ u64 (ps_txp p) ++ u64 (ps_rxb p) ++ u64 (ps_txb p) ++
      u64 (ps_rxd p) ++ u64 (ps_txd p) ++ u64 (ps_rxe p) ++ u64 (ps_txe p) ++ u64 (ps_frame p) ++ u64 (ps_over p) ++
      u64 (ps_crc p) ++ u64 (ps_coll p)
  | SPQueue p q tb tp te => u16 p ++ pad 2 ++ u32 q ++ u64 tb ++ u64 tp ++ u64 te        (* ofp_queue_stats *)
  | SPVendor i d => u32 i ++ d
  end.
(** [tot]: the total_len field of a packet-in, defined as the length of the frame. *)
Definition lay_gen (tot : bytes -> Z) (elen : flowstat -> Z) (agg : Z -> Z -> Z -> bytes) (b : ofbody) : bytes :=
  match b with
  | BError ty code d => u16 (match ty with Some t => t | None => 0 end) ++ u16 (match code with Some c => c | None => 0 end) ++ d
  | BEchoReq d | BEchoRep d => d
  | BVendor v d => u32 v ++ d
  | BFeatures dp nb nt cs acts ports =>
      dp ++ u32 nb ++ u8 nt ++ pad 3 ++ u32 (bor cs) ++ u32 (bor acts) ++ concat (map lay_port ports)
  | BGetConfig f l | BSetConfig f l => u16 f ++ u16 l
  | BPacketIn bu ip re d => u32 bu ++ u16 (tot d) ++ u16 ip ++ u8 re ++ pad 1 ++ d
  | BFlowRemoved r =>
      lay_match (fr_match r) ++ u64 (fr_cookie r) ++ u16 (fr_prio r) ++ u8 (fr_reason r) ++ pad 1 ++ u32 (fr_sec r) ++
      u32 (fr_nsec r) ++ u16 (fr_idle r) ++ pad 2 ++ u64 (fr_pkts r) ++ u64 (fr_bytes r)
  | BPortStatus re p => u8 re ++ pad 7 ++ lay_port p
  | BPacketOut bu ip acts d =>
      u32 bu ++ u16 ip ++ u16 (zlen (lay_actions acts)) ++ lay_actions acts ++ match d with Some x => x | None => [] end
  | BFlowMod f =>
      lay_match (fm_match f) ++ u64 (fm_cookie f) ++ u16 (fm_command f) ++ u16 (fm_idle f) ++ u16 (fm_hard f) ++
      u16 (fm_prio f) ++ u32 (fm_buffer f) ++ u16 (fm_outport f) ++ u16 (bor (fm_flags f)) ++ lay_actions (fm_actions f)
  | BPortMod p hw c m ad => u16 p ++ hw ++ u32 (bor c) ++ u32 (bor m) ++ u32 (bor ad) ++ pad 4
  | BStatsReq ty r => u16 ty ++ u16 0 ++ lay_req r
  | BStatsRep ty r => u16 ty ++ u16 0 ++ lay_rep elen agg r
  | BQueueReq p => u16 p ++ pad 2
  | BQueueRep p qs => u16 p ++ pad 6 ++ concat (map lay_queue qs)
  end.
(** The published layout. *)
Definition lay_body : ofbody -> bytes :=
  lay_gen zlen (fun f => 88 + zlen (lay_actions (fs_actions f)))
    (fun nb np nf => u64 np ++ u64 nb ++ u32 nf ++ pad 4).
(** Messages on which the code follows it. *)
Definition laid_out (b : ofbody) : Prop :=
  match b with
  | BPacketIn _ _ _ _ => False
  | BStatsRep _ (SPFlow _) | BStatsRep _ (SPAggr _ _ _) => False
  | BFeatures _ _ _ _ acts _ => acts = []
  | _ => True
  end.
