(** Specification vocabulary for OpenFlow 1.0 messages: which values a program can store through
    the documented constructors and setters, and what it means to read the same message back. *)
From Verif Require Import Base EthAddrModel EthAddrSpec ArpModel Enums OfModel.

(** Two sets of flags show the same bits when some member of one has the bit iff some member of
    the other has it.  The integer properties config, state, flags, ... are exactly these bits. *)
Definition has_bit (s : list Z) (n : Z) : Prop := exists v, In v s /\ Z.testbit v n = true.
Definition same_bits (s t : list Z) : Prop := forall n, has_bit s n <-> has_bit t n.

(** [b] is [a] followed by NUL bytes, [n] bytes in all. *)
Definition nul_padded (n : nat) (a b : bytes) : Prop := length b = n /\ exists k, b = a ++ repeat 0 k.
(** [b] is [a] followed by at most seven NUL bytes up to a multiple of eight. *)
Definition pad8 (a b : bytes) : Prop := exists k, (k < 8)%nat /\ b = a ++ repeat 0 k /\ zlen b mod 8 = 0.

Definition of_enum (members s : list Z) : Prop := Forall (fun v => In v members) s.
Definition ip4b (a : bytes) : Prop := length a = 4%nat.
Definition hw6 (a : bytes) : Prop := length a = 6%nat.
(** Ports: 0 ... 0xff00 - 1, and the reserved ones. *)
Definition port_ok (p : Z) : Prop := 0 <= p < 0xff00 \/ In p [0xff00; 0xfff8; 0xfff9; 0xfffa; 0xfffb; 0xfffc; 0xfffd; 0xfffe; 0xffff].
Definition text_ok (n : nat) (t : bytes) : Prop := utf8_ok t = true /\ (length t <= n)%nat.

(** A physical port description. *)
Definition pport_ok (p : pport) : Prop :=
  hw6 (pp_hw p) /\ text_ok 16 (pp_name p) /\ of_enum PortConfigs (pp_config p) /\
  of_enum [0; 1; 256; 512; 768] (pp_state p) /\ of_enum PortFeatures (pp_curr p) /\ of_enum PortFeatures (pp_adv p) /\
  of_enum PortFeatures (pp_supp p) /\ of_enum PortFeatures (pp_peer p).
Definition pport_same (p q : pport) : Prop :=
  pp_num q = pp_num p /\ pp_hw q = pp_hw p /\ nul_padded 16 (pp_name p) (pp_name q) /\
  same_bits (pp_config p) (pp_config q) /\ same_bits (pp_state p) (pp_state q) /\
  same_bits (pp_curr p) (pp_curr q) /\ same_bits (pp_adv p) (pp_adv q) /\
  same_bits (pp_supp p) (pp_supp q) /\ same_bits (pp_peer p) (pp_peer q).

(** The wildcard bits of single fields. *)
Definition plain_wild : list Z := [0x1; 0x2; 0x4; 0x8; 0x10; 0x20; 0x40; 0x80; 0x100000; 0x200000].
(** A match: wildcards are single fields and no address prefix, or everything (wildcard_all()). *)
Definition wild_ok (m : ofmatch) : Prop :=
  (of_enum plain_wild (m_wild m) /\ m_srcw m = 0 /\ m_dstw m = 0) \/
  (m_wild m = [0x3fffff] /\ m_srcw m = 32 /\ m_dstw m = 32).
Definition match_fields_ok (m : ofmatch) : Prop :=
  hw6 (m_dlsrc m) /\ hw6 (m_dldst m) /\ In (m_dltype m) EtherTypes /\
  In (m_proto m) IPProtocols /\ ip4b (m_nwsrc m) /\ ip4b (m_nwdst m).
Definition match_ok (m : ofmatch) : Prop := match_fields_ok m /\ wild_ok m.
(** Every field but the wildcards. *)
Definition match_fields (m : ofmatch) :=
  (m_inport m, m_dlsrc m, m_dldst m, m_vlan m, m_pcp m, m_dltype m, m_tos m, m_proto m, m_nwsrc m, m_nwdst m,
   m_tpsrc m, m_tpdst m).
Definition match_same (m n : ofmatch) : Prop :=
  match_fields n = match_fields m /\ m_srcw n = m_srcw m /\ m_dstw n = m_dstw m /\
  same_bits (m_wild m) (m_wild n).

(** An action as its constructor builds it, with any values of its own fields. *)
Definition action_ok (a : ofaction) : Prop :=
  match a_body a with
  | AOutput _ _ => a_type a = 0 /\ a_len a = 8
  | AVlanVid _ => a_type a = 1 /\ a_len a = 8
  | AVlanPcp _ => a_type a = 2 /\ a_len a = 8
  | AStripVlan => a_type a = 3 /\ a_len a = 4
  | ADlAddr x => (a_type a = 4 \/ a_type a = 5) /\ a_len a = 16 /\ hw6 x
  | ANwAddr x => (a_type a = 6 \/ a_type a = 7) /\ a_len a = 8 /\ ip4b x
  | ANwTos _ => a_type a = 8 /\ a_len a = 8
  | ATpPort _ => (a_type a = 9 \/ a_type a = 10) /\ a_len a = 8
  | AEnqueue _ _ => a_type a = 11 /\ a_len a = 16
  | AVendor _ d => a_type a = 0xffff /\ a_len a = 8 + (zlen d + 7) / 8 * 8
  end.
(** Read back: the same action; vendor data may have gained padding. *)
Definition action_same (a b : ofaction) : Prop :=
  a_type b = a_type a /\ a_len b = a_len a /\
  match a_body a, a_body b with
  | AVendor v d, AVendor w e => w = v /\ pad8 d e
  | x, y => y = x
  end.

(** Message bodies. *)
Definition req_type (r : statsreq) : Z :=
  match r with SQDesc => 0 | SQFlow _ _ _ => 1 | SQAggr _ _ _ => 2 | SQTable => 3 | SQPort _ => 4
             | SQQueue _ _ => 5 | SQVendor _ _ => 0xffff end.
Definition rep_type (r : statsrep) : Z :=
  match r with SPDesc _ _ _ _ _ => 0 | SPFlow _ => 1 | SPAggr _ _ _ => 2 | SPTable _ => 3 | SPPort _ => 4
             | SPQueue _ _ _ _ _ => 5 | SPVendor _ _ => 0xffff end.
Definition req_ok (r : statsreq) : Prop :=
  match r with
  | SQFlow m _ o | SQAggr m _ o => match_ok m /\ port_ok o
  | SQPort p | SQQueue p _ => port_ok p
  | _ => True
  end.
Definition rep_ok (r : statsrep) : Prop :=
  match r with
  | SPDesc a b c d e => text_ok 256 a /\ text_ok 256 b /\ text_ok 256 c /\ text_ok 32 d /\ text_ok 256 e
  | SPFlow f => match_ok (fs_match f) /\ Forall action_ok (fs_actions f)
  | SPTable t => text_ok 32 (ts_name t) /\ of_enum plain_wild (ts_wild t)
  | SPPort p => ps_over p = 0 /\ ps_crc p = 0
  | _ => True
  end.
Definition body_ok (b : ofbody) : Prop :=
  match b with
  | BError ty code _ => exists t c, ty = Some t /\ code = Some c /\ In t [0; 1; 2; 3; 4; 5] /\ 0 <= c < (if (t =? 0) || (t =? 4) then 2 else if (t =? 1) || (t =? 2) then 9 else if t =? 3 then 6 else 3)
  | BFeatures dp nb nt cs acts ports =>
      length dp = 8%nat /\ 1 <= nt /\ of_enum Capabilities cs /\ of_enum [0; 1; 2; 3; 4; 5; 6; 7; 8; 9; 10; 11; 0xffff] acts /\ Forall pport_ok ports
  | BGetConfig f _ | BSetConfig f _ => In f [0; 1; 2; 3]
  | BPacketIn _ ip re _ => port_ok ip /\ In re [0; 1; 0xff]
  | BFlowRemoved r => match_ok (fr_match r) /\ In (fr_reason r) [0; 1; 2; 0xff]
  | BPortStatus re p => In re [0; 1; 2] /\ pport_ok p
  | BPacketOut _ ip acts d => port_ok ip /\ Forall action_ok acts /\ d <> None
  | BFlowMod f => match_ok (fm_match f) /\ In (fm_command f) [0; 1; 2; 3; 4] /\
                  of_enum FlowModFlagss (fm_flags f) /\ Forall action_ok (fm_actions f)
  | BPortMod _ hw c m ad => hw6 hw /\ of_enum PortConfigs c /\ of_enum PortConfigs m /\ of_enum PortFeatures ad
  | BStatsReq ty r => ty = req_type r /\ req_ok r
  | BStatsRep ty r => ty = rep_type r /\ rep_ok r
  | BQueueReq p => port_ok p
  | BQueueRep p _ => port_ok p
  | BEchoReq _ | BEchoRep _ | BVendor _ _ => True
  end.
(** The message type number of a body, OpenFlow 1.0 section 5.1. *)
Definition msg_type (b : ofbody) : Z :=
  match b with
  | BError _ _ _ => 1 | BEchoReq _ => 2 | BEchoRep _ => 3 | BVendor _ _ => 4 | BFeatures _ _ _ _ _ _ => 6
  | BGetConfig _ _ => 8 | BSetConfig _ _ => 9 | BPacketIn _ _ _ _ => 10 | BFlowRemoved _ => 11
  | BPortStatus _ _ => 12 | BPacketOut _ _ _ _ => 13 | BFlowMod _ => 14 | BPortMod _ _ _ _ _ => 15
  | BStatsReq _ _ => 16 | BStatsRep _ _ => 17 | BQueueReq _ => 20 | BQueueRep _ _ => 21
  end.
(** Types whose messages consist of the header alone. *)
Definition bare_type (t : Z) : Prop := In t [0; 5; 7; 18; 19] \/ 21 < t.

Definition req_same (r s : statsreq) : Prop :=
  match r, s with
  | SQFlow m t o, SQFlow m' t' o' | SQAggr m t o, SQAggr m' t' o' => match_same m m' /\ t' = t /\ o' = o
  | x, y => y = x
  end.
Definition flowstat_rest (f : flowstat) :=
  (fs_table f, fs_sec f, fs_nsec f, fs_prio f, fs_idle f, fs_hard f, fs_cookie f, fs_pkts f, fs_bytes f).
Definition rep_same (r s : statsrep) : Prop :=
  match r, s with
  | SPDesc a b c d e, SPDesc a' b' c' d' e' =>
      nul_padded 256 a a' /\ nul_padded 256 b b' /\ nul_padded 256 c c' /\ nul_padded 32 d d' /\ nul_padded 256 e e'
  | SPFlow f, SPFlow g =>
      flowstat_rest g = flowstat_rest f /\ match_same (fs_match f) (fs_match g) /\
      Forall2 action_same (fs_actions f) (fs_actions g)
  | SPTable t, SPTable u =>
      (ts_table u, ts_max u, ts_active u, ts_lookup u, ts_matched u)
        = (ts_table t, ts_max t, ts_active t, ts_lookup t, ts_matched t) /\
      nul_padded 32 (ts_name t) (ts_name u) /\ same_bits (ts_wild t) (ts_wild u)
  | x, y => y = x
  end.
Definition flowmod_rest (f : flowmod) :=
  (fm_cookie f, fm_command f, fm_idle f, fm_hard f, fm_prio f, fm_buffer f, fm_outport f).
Definition flowrem_rest (r : flowrem) :=
  (fr_cookie r, fr_prio r, fr_reason r, fr_sec r, fr_nsec r, fr_idle r, fr_pkts r, fr_bytes r).
Definition body_same (b c : ofbody) : Prop :=
  match b, c with
  | BFeatures dp nb nt cs acts ports, BFeatures dp' nb' nt' cs' acts' ports' =>
      dp' = dp /\ nb' = nb /\ nt' = nt /\ same_bits cs cs' /\ same_bits acts acts' /\ Forall2 pport_same ports ports'
  | BFlowRemoved r, BFlowRemoved s => flowrem_rest s = flowrem_rest r /\ match_same (fr_match r) (fr_match s)
  | BPortStatus re p, BPortStatus re' p' => re' = re /\ pport_same p p'
  | BPacketOut bu ip acts d, BPacketOut bu' ip' acts' d' =>
      bu' = bu /\ ip' = ip /\ d' = d /\ Forall2 action_same acts acts'
  | BFlowMod f, BFlowMod g =>
      flowmod_rest g = flowmod_rest f /\ match_same (fm_match f) (fm_match g) /\
      same_bits (fm_flags f) (fm_flags g) /\ Forall2 action_same (fm_actions f) (fm_actions g)
  | BPortMod p hw a m ad, BPortMod p' hw' a' m' ad' =>
      p' = p /\ hw' = hw /\ same_bits a a' /\ same_bits m m' /\ same_bits ad ad'
  | BStatsReq ty r, BStatsReq ty' s => ty' = ty /\ req_same r s
  | BStatsRep ty r, BStatsRep ty' s => ty' = ty /\ rep_same r s
  | x, y => y = x
  end.

(** The flags of OpenFlow 1.0, as bit numbers: port configuration 0..6, port features 0..11, capabilities 0..7, flow-mod
    flags 0..2 (OpenFlow 1.0, 5.2.1, 5.3.1, 5.3.3). *)
Definition single_bits (members : list Z) (n : Z) : Prop := forall v, In v members <-> v = 0 \/ exists k, 0 <= k < n /\ v = 2 ^ k.
