(** Model of switchyard/lib/openflow/ofswitch.py (packet buffer, flow table, controller connection, action processing)
    and of the matching methods of OpenflowMatch (openflow10.py:402-414, 492-580). *)
From Verif Require Import Base EthAddrModel Enums EthModel ArpModel Ipv4Model TransportModel Ipv6Model IcmpModel PacketModel
  FieldModel OfModel.

(** ** PacketBufferManager (ofswitch.py:96-123).  [P] is what is stored: the input port and a copy of the packet. *)
Section Buffer.
Context {P : Type}.
(** A Python dict with integer keys: insertion ordered, a rebound key keeps its place. *)
Definition buf := list (Z * P).
Fixpoint bget (b : buf) (k : Z) : option P :=
  match b with [] => None | (k', v) :: b' => if k' =? k then Some v else bget b' k end.
Fixpoint bput (b : buf) (k : Z) (v : P) : buf :=
  match b with [] => [(k, v)] | (k', v') :: b' => if k' =? k then (k, v) :: b' else (k', v') :: bput b' k v end.
Fixpoint bdel (b : buf) (k : Z) : buf :=
  match b with [] => [] | (k', v') :: b' => if k' =? k then b' else (k', v') :: bdel b' k end.
(** add (101-110); None is FullBuffer. *)
Definition buf_add (size : Z) (b : buf) (v : P) : buf * option Z :=
  let id := zlen b + 1 in
  if size <? id then (b, None) else (bput b id v, Some id).
(** pop (112-116): KeyError if there is no such id. *)
Definition buf_pop (b : buf) (id : Z) : buf * res P :=
  match bget b id with Some v => (bdel b id, Ok v) | None => (b, Err EKey) end.
(** lookup (118-123). *)
Definition buf_lookup (b : buf) (id : Z) : option P := bget b id.

Inductive bop := BAdd (v : P) | BPop (id : Z) | BLook (id : Z).
Inductive bres := RId (o : option Z) | RPop (r : res P) | RLook (o : option P).
Definition buf_step (size : Z) (b : buf) (o : bop) : buf * bres :=
  match o with
  | BAdd v => let '(b', r) := buf_add size b v in (b', RId r)
  | BPop id => let '(b', r) := buf_pop b id in (b', RPop r)
  | BLook id => (b, RLook (buf_lookup b id))
  end.
Fixpoint buf_run (size : Z) (b : buf) (os : list bop) : buf * list bres :=
  match os with
  | [] => (b, [])
  | o :: os' => let '(b1, r) := buf_step size b o in let '(b2, rs) := buf_run size b1 os' in (b2, r :: rs)
  end.
End Buffer.
Arguments buf P : clear implicits.
Arguments bop P : clear implicits.
Arguments bres P : clear implicits.

(** ** Matching (openflow10.py) *)
Inductive mfld := MDlSrc | MDlDst | MDlVlan | MDlVlanPcp | MDlType | MNwProto | MNwTos | MNwSrc | MNwDst | MTpSrc | MTpDst.
(** The attribute names used in _match_field_to_packet: those of FieldModel, ICMP's two, and 'vlan', which no header
    class has. *)
Inductive pattr := PA (a : fld) | PIcmpType | PIcmpCode | PVlanName.
Definition pget (h : hdr) (a : pattr) : res gval :=
  match a with
  | PA f => match get h f with Some v => Ok v | None => Err EAttr end
  | PIcmpType => match h with HIcmp x | HIcmp6 x => Ok (GInt (ic_type x)) | _ => Err EAttr end
  | PIcmpCode => match h with HIcmp x | HIcmp6 x => Ok (GInt (ic_code x)) | _ => Err EAttr end
  | PVlanName => Err EAttr
  end.
(** _match_field_to_packet (402-414). *)
Definition field_map : list (mfld * list (hcls * pattr)) :=
  [ (MDlSrc, [(CEth, PA FSrc)]);
    (MDlDst, [(CEth, PA FDst)]);
    (MDlVlan, [(CVlan, PVlanName)]);
    (MDlVlanPcp, [(CVlan, PA FPcp)]);
    (MDlType, [(CVlan, PA FEthertype); (CEth, PA FEthertype)]);
    (MNwProto, [(CIp4, PA FProtocol); (CIp6, PA FProtocol); (CArp, PA FProtoType)]);
    (MNwTos, [(CIp4, PA FTos); (CIp6, PA FTrafficClass)]);
    (MNwSrc, [(CIp4, PA FSrc); (CIp6, PA FSrc); (CArp, PA FSenderProto)]);
    (MNwDst, [(CIp4, PA FDst); (CIp6, PA FDst); (CArp, PA FTargetProto)]);
    (MTpSrc, [(CTcp, PA FSrc); (CUdp, PA FSrc); (CIcmp, PIcmpType); (CIcmp6, PIcmpType)]);
    (MTpDst, [(CTcp, PA FDst); (CTcp, PA FDst); (CIcmp, PIcmpCode); (CIcmp6, PIcmpCode)]) ].
(** getattr(self, "_" + field). *)
Definition mval (m : ofmatch) (f : mfld) : gval :=
  match f with
  | MDlSrc => GHw (m_dlsrc m) | MDlDst => GHw (m_dldst m) | MDlVlan => GInt (m_vlan m) | MDlVlanPcp => GInt (m_pcp m)
  | MDlType => GInt (m_dltype m) | MNwProto => GInt (m_proto m) | MNwTos => GInt (m_tos m)
  | MNwSrc => GIp (m_nwsrc m) | MNwDst => GIp (m_nwdst m) | MTpSrc => GInt (m_tpsrc m) | MTpDst => GInt (m_tpdst m)
  end.
(** _wildcard_attr_map (761-780): the wildcard bit of an attribute; 0 where there is none. *)
Definition wild_bit (f : mfld) : Z :=
  match f with
  | MDlSrc => wcDlSrc | MDlDst => wcDlDst | MDlVlan => wcDlVlan | MDlVlanPcp => wcDlVlanPcp | MDlType => wcDlType
  | MNwProto => wcNwProto | MNwTos => wcNwTos | MTpSrc => wcTpSrc | MTpDst => wcTpDst
  | MNwSrc | MNwDst => 0
  end.
(** == on attribute values: numbers (and IntEnum members), Ethernet addresses, IP addresses. *)
Definition gval_eqb (a b : gval) : bool :=
  match a, b with
  | GInt x, GInt y => x =? y
  | GHw x, GHw y => bytes_eqb x y
  | GIp x, GIp y => bytes_eqb x y
  | GBool x, GBool y => Bool.eqb x y
  | _, _ => false
  end.
(** addr in ip_network("net/bits", strict=False), with bits = 32 - [w]; addresses of the other version are not in. *)
Definition in_net (net : ipaddr) (w : Z) (a : gval) : bool :=
  match a with
  | GIp x => Nat.eqb (length x) (length net) &&
             (Z.shiftr (unbe x) (8 * zlen net - (32 - w)) =? Z.shiftr (unbe net) (8 * zlen net - (32 - w)))
  | _ => false
  end.
(** One round of the loop of matches_packet (543-565): the comparisons appended to the list. *)
Fixpoint cmp_each (test : gval -> bool) (p : packet) (cs : list (hcls * pattr)) : res (list bool) :=
  match cs with
  | [] => Ok []
  | (c, a) :: cs' =>
      match pkt_get_header p c with
      | Some h => v <- pget h a;; l <- cmp_each test p cs';; Ok (test v :: l)
      | None => cmp_each test p cs'
      end
  end.
Definition cmp_field (m : ofmatch) (p : packet) (f : mfld) (cs : list (hcls * pattr)) : res (list bool) :=
  match f with
  | MNwSrc => if 32 - m_srcw m <? 32 then cmp_each (in_net (m_nwsrc m) (m_srcw m)) p cs
              else cmp_each (fun v => gval_eqb v (mval m f)) p cs
  | MNwDst => if 32 - m_dstw m <? 32 then cmp_each (in_net (m_nwdst m) (m_dstw m)) p cs
              else cmp_each (fun v => gval_eqb v (mval m f)) p cs
  | _ => if negb (Z.land (wild_bit f) (make_bitmap (m_wild m)) =? 0) then Ok []
         else cmp_each (fun v => gval_eqb v (mval m f)) p cs
  end.
Fixpoint cmp_fields (m : ofmatch) (p : packet) (l : list (mfld * list (hcls * pattr))) : res (list bool) :=
  match l with
  | [] => Ok []
  | (f, cs) :: l' => a <- cmp_field m p f cs;; b <- cmp_fields m p l';; Ok (a ++ b)
  end.
(** matches_packet (537-566). *)
Definition matches_packet (m : ofmatch) (p : packet) : res bool :=
  l <- cmp_fields m p field_map;; Ok (forallb (fun x => x) l).

(** setattr(m, field, v) through the property setters (629-734).  IPv4Address(v) refuses IPv6 addresses. *)
Definition mset (m : ofmatch) (f : mfld) (v : gval) : res ofmatch :=
  match m with mkMatch ws sw dw ip ds dd vl pc dt ts pr ns nd sp dp =>
  match f, v with
  | MDlSrc, GHw a => a' <- eth_init (AEth a);; Ok (mkMatch ws sw dw ip a' dd vl pc dt ts pr ns nd sp dp)
  | MDlDst, GHw a => a' <- eth_init (AEth a);; Ok (mkMatch ws sw dw ip ds a' vl pc dt ts pr ns nd sp dp)
  | MDlVlan, GInt z => Ok (mkMatch ws sw dw ip ds dd z pc dt ts pr ns nd sp dp)
  | MDlVlanPcp, GInt z => Ok (mkMatch ws sw dw ip ds dd vl z dt ts pr ns nd sp dp)
  | MDlType, GInt z => z' <- dltype_of z;; Ok (mkMatch ws sw dw ip ds dd vl pc z' ts pr ns nd sp dp)
  | MNwTos, GInt z => z' <- tos_of z;; Ok (mkMatch ws sw dw ip ds dd vl pc dt z' pr ns nd sp dp)
  | MNwProto, GInt z => z' <- enum_of IPProtocols z;; Ok (mkMatch ws sw dw ip ds dd vl pc dt ts z' ns nd sp dp)
  | MNwSrc, GIp a => a' <- ipv4_of_bytes a;; Ok (mkMatch ws sw dw ip ds dd vl pc dt ts pr a' nd sp dp)
  | MNwDst, GIp a => a' <- ip_of_bytes a;; Ok (mkMatch ws sw dw ip ds dd vl pc dt ts pr ns a' sp dp)
  | MTpSrc, GInt z => z' <- tp_of z;; Ok (mkMatch ws sw dw ip ds dd vl pc dt ts pr ns nd z' dp)
  | MTpDst, GInt z => z' <- tp_of z;; Ok (mkMatch ws sw dw ip ds dd vl pc dt ts pr ns nd sp z')
  | _, _ => Err EType
  end end.
(** build_from_packet (569-580); the [continue] ends nothing, so later classes overwrite earlier ones. *)
Fixpoint build_each (m : ofmatch) (p : packet) (f : mfld) (cs : list (hcls * pattr)) : res ofmatch :=
  match cs with
  | [] => Ok m
  | (c, a) :: cs' =>
      match pkt_get_header p c with
      | Some h => v <- pget h a;; m' <- mset m f v;; build_each m' p f cs'
      | None => build_each m p f cs'
      end
  end.
Fixpoint build_fields (m : ofmatch) (p : packet) (l : list (mfld * list (hcls * pattr))) : res ofmatch :=
  match l with
  | [] => Ok m
  | (f, cs) :: l' => m' <- build_each m p f cs;; build_fields m' p l'
  end.
Definition build_from_packet (p : packet) : res ofmatch := build_fields match_new p field_map.

(** matches_entry (502-535), not strict: the attributes in any order, none of the tests raises.  A wildcard counts
    only if the member of that very name is in the other's set (532). *)
Definition entry_tests (m o : ofmatch) : list bool :=
  [ zmem wcInPort (m_wild o) || (m_inport m =? m_inport o);
    zmem wcDlSrc (m_wild o) || bytes_eqb (m_dlsrc m) (m_dlsrc o);
    zmem wcDlDst (m_wild o) || bytes_eqb (m_dldst m) (m_dldst o);
    zmem wcDlVlan (m_wild o) || (m_vlan m =? m_vlan o);
    zmem wcDlVlanPcp (m_wild o) || (m_pcp m =? m_pcp o);
    zmem wcDlType (m_wild o) || (m_dltype m =? m_dltype o);
    zmem wcNwTos (m_wild o) || (m_tos m =? m_tos o);
    zmem wcNwProto (m_wild o) || (m_proto m =? m_proto o);
    in_net (m_nwsrc o) (m_srcw o) (GIp (m_nwsrc m)) || bytes_eqb (m_nwsrc m) (m_nwsrc o);
    in_net (m_nwdst o) (m_dstw o) (GIp (m_nwdst m)) || bytes_eqb (m_nwdst m) (m_nwdst o);
    zmem wcTpSrc (m_wild o) || (m_tpsrc m =? m_tpsrc o);
    zmem wcTpDst (m_wild o) || (m_tpdst m =? m_tpdst o) ].
Definition matches_entry (m o : ofmatch) (strict : bool) : res bool :=
  if strict then a <- match_to m;; b <- match_to o;; Ok (bytes_eqb a b)
  else Ok (forallb (fun x => x) (entry_tests m o)).
(** overlaps_with (492-500). *)
Definition overlaps_with (m o : ofmatch) (strict : bool) : res bool :=
  one <- matches_entry m o strict;;
  if strict then Ok one else if one then matches_entry o m strict else Ok false.

(** ** TableEntry (ofswitch.py:126-178).  Times are numbers of clock ticks. *)
Record tentry := mkTe {
  te_match : ofmatch; te_cookie : Z; te_idle : Z; te_hard : Z; te_acts : list ofaction; te_prio : Z; te_flags : Z;
  te_pkts : Z; te_bytes : Z; te_last : option Z; te_created : Z }.
(** __init__ from an OpenflowFlowMod (127-138); [now] is the clock. *)
Definition te_new (now : Z) (f : flowmod) : tentry :=
  mkTe (fm_match f) (fm_cookie f) (fm_idle f) (fm_hard f) (fm_actions f) (fm_prio f) (make_bitmap (fm_flags f)) 0 0 None now.
(** update_counters (161-164). *)
Definition te_update (now len : Z) (e : tentry) : tentry :=
  mkTe (te_match e) (te_cookie e) (te_idle e) (te_hard e) (te_acts e) (te_prio e) (te_flags e)
       (te_pkts e + 1) (te_bytes e + len) (Some now) (te_created e).
(** has_expired (166-175): [if self._last_match] is also false for the time 0. *)
Definition te_expired (now : Z) (e : tentry) : bool :=
  let idletime := match te_last e with Some l => if l =? 0 then now else now - l | None => now end in
  let createtime := now - te_created e in
  if (0 <? te_idle e) && (te_idle e <? idletime) then true
  else if (0 <? te_hard e) && (te_hard e <? createtime) then true else false.

(** ** FlowTable (180-260).  [g]: do FlowModFlags, OpenflowFlowModFailedCode and OpenflowPort resolve?  The module
    imports openflow10 only as of10, so in the code as it stands they do not ([g = false], NameError); [g = true] is
    the same code with the names imported. *)
Definition table := list tentry.
(** list.sort is stable: insertion after equal priorities. *)
Fixpoint insert_by_prio (e : tentry) (t : table) : table :=
  match t with
  | [] => [e]
  | x :: t' => if te_prio e <? te_prio x then e :: x :: t' else x :: insert_by_prio e t'
  end.
Definition sort_table (t : table) : table := fold_left (fun acc e => insert_by_prio e acc) t [].
(** add (207-219): Some true is the Overlap error code. *)
Definition ft_add (g : bool) (now : Z) (t : table) (f : flowmod) : table * res bool :=
  let ne := te_new now f in
  if negb g then (t, Err EName)
  else
    let fix clash (l : table) : res bool :=
      match l with
      | [] => Ok false
      | e :: l' =>
          o <- overlaps_with (te_match ne) (te_match e) true;;
          if o && (te_prio e =? te_prio ne) then Ok true else clash l'
      end in
    match (if zmem 2 (fm_flags f) then clash t else Ok false) with
    | Err e => (t, Err e)
    | Ok true => (t, Ok true)
    | Ok false => (sort_table (t ++ [ne]), Ok false)
    end.
(** modify (221-235): overlaps_with is given the TableEntry itself, which has none of the attributes it asks for. *)
Definition ft_modify (now : Z) (t : table) (f : flowmod) : table * res unit :=
  match t with
  | [] => ([te_new now f], Ok tt)
  | _ => (t, Err EAttr)
  end.
(** delete (188-205): evaluating FlowModFlags.SendFlowRemove in entry.get_flags raises before anything is removed,
    NameError as it stands and AttributeError (TableEntry has no get_flags) with the names resolved. *)
Fixpoint ft_tbd (t : table) (m : ofmatch) (strict : bool) : res table :=
  match t with
  | [] => Ok []
  | e :: t' => o <- overlaps_with (te_match e) m strict;; r <- ft_tbd t' m strict;; Ok (if o then e :: r else r)
  end.
Definition ft_delete (g : bool) (t : table) (m : ofmatch) (strict : bool) : table * res table :=
  match ft_tbd t m strict with
  | Err e => (t, Err e)
  | Ok [] => (t, Ok [])
  | Ok _ => (t, Err (if g then EAttr else EName))
  end.
(** match_packet (237-247). *)
Fixpoint ft_match (g : bool) (now : Z) (t : table) (inport : option Z) (p : packet) : table * res (option (list ofaction)) :=
  match t with
  | [] => ([], Ok None)
  | e :: t' =>
      let next := let '(t2, r) := ft_match g now t' inport p in (e :: t2, r) in
      let hit := match pkt_len p with
                 | Ok n => (te_update now n e :: t', Ok (Some (te_acts e)))
                 | Err x => (te_update now 0 e :: t', Err x)
                 end in
      match matches_packet (te_match e) p with
      | Err x => (t, Err x)
      | Ok false => next
      | Ok true =>
          match inport with
          | None => hit
          | Some i =>
              if negb g then (t, Err EName)
              else if (m_inport (te_match e) =? ofpNone) || (m_inport (te_match e) =? i) then hit else next
          end
      end
  end.
(** expire_entries (249-260): send_expire_notice needs FlowModFlags. *)
Fixpoint ft_expire (g : bool) (now : Z) (t : table) : table * res table :=
  match t with
  | [] => ([], Ok [])
  | e :: t' =>
      if te_expired now e
      then if negb g then (t, Err EName)
           else if negb (Z.land (te_flags e) 1 =? 0)
                then let '(t2, r) := ft_expire g now t' in (t2, l <- r;; Ok (e :: l))
                else let '(t2, r) := ft_expire g now t' in (e :: t2, r)
      else let '(t2, r) := ft_expire g now t' in (e :: t2, r)
  end.

(** Histories of a table. *)
Inductive fop :=
| FAdd (now : Z) (f : flowmod) | FModify (now : Z) (f : flowmod) | FDelete (m : ofmatch) (strict : bool)
| FMatch (now : Z) (inport : option Z) (p : packet) | FExpire (now : Z).
Definition ft_step (g : bool) (t : table) (o : fop) : table :=
  match o with
  | FAdd now f => fst (ft_add g now t f)
  | FModify now f => fst (ft_modify now t f)
  | FDelete m s => fst (ft_delete g t m s)
  | FMatch now i p => fst (ft_match g now t i p)
  | FExpire now => fst (ft_expire g now t)
  end.
Definition ft_run (g : bool) (t : table) (os : list fop) : table := fold_left (ft_step g) os t.

(** ** Actions applied to a packet (openflow10.py:838-845, 884-909, 949-1192; ofswitch.py:_process_actions).
    An interface is its number and name.  A send is to an interface object or to a port number. *)
Inductive send := SIntf (i : Z * text) | SPort (z : Z).
Definition act_call (ifs : list (Z * text)) (ncontrollers : nat) (inport : Z) (a : ofaction) : list send * option exn :=
  match a_body a with
  | AOutput port _ =>
      if port =? 0xfffa then ([], Some EExc)
      else if port =? 0xfffb then (map SIntf (filter (fun i => negb (fst i =? inport)) ifs), None)
      else if port =? 0xfffc then ([], Some EExc)
      else if port =? 0xfffd then ([], match ncontrollers with O => None | _ => Some EAttr end)
      else if port =? 0xfffe then ([], Some EExc)
      else if port =? 0xfff8 then ([SPort inport], None)
      else if port =? 0xfff9 then ([], Some EExc)
      else if port =? 0xffff then ([], Some EExc)
      else ([SPort port], None)
  | AStripVlan => ([], None)
  | _ => ([], Some EExc)
  end.
Fixpoint process_actions (ifs : list (Z * text)) (nc : nat) (inport : Z) (l : list ofaction) : list send * option exn :=
  match l with
  | [] => ([], None)
  | a :: l' =>
      let '(s, e) := act_call ifs nc inport a in
      match e with
      | Some x => (s, Some x)
      | None => let '(s', e') := process_actions ifs nc inport l' in (s ++ s', e')
      end
  end.

(** ** ControllerConnection (ofswitch.py:16-90).  [g] as above: do [host] and [port] resolve in connect?  (They should
    be self._host and self._port; the bare except hides the NameError.)  [reach]: does the connection attempt work? *)
Definition cc_connect (g reach connected : bool) : bool := connected || (g && reach).
(** A connected stream as the receiver sees it: segments in arrival order, then end of file.  recv(n) returns at most
    [n] bytes of the first segment; b'' at the end. *)
Definition stream := list bytes.
Fixpoint recv (n : nat) (s : stream) : bytes * stream :=
  match s with
  | [] => ([], [])
  | [] :: s' => recv n s'
  | c :: s' => (firstn n c, match skipn n c with [] => s' | r => r :: s' end)
  end.
(** The loop reading the rest of a message (83-87). *)
Fixpoint recv_rest (fuel : nat) (remain : Z) (acc : bytes) (s : stream) : res (bytes * stream) :=
  if remain <=? 0 then Ok (acc, s)
  else match fuel with
       | O => Err EFuel
       | S fuel' => let '(more, s') := recv (Z.to_nat remain) s in recv_rest fuel' (remain - zlen more) (acc ++ more) s'
       end.
(** The bytes receive_openflow_message collects for one message (63-87); None: nothing to receive. *)
Definition cc_collect (fuel : nat) (connected : bool) (s : stream) : res (option bytes * stream) :=
  if negb connected then Ok (None, s)
  else
    let '(data, s1) := recv 8 s in
    match data with
    | [] => Ok (None, s1)
    | _ => hr <- hdr_from data;;
           ms <- recv_rest fuel (oh_len (fst hr) - 8) data s1;; Ok (Some (fst ms), snd ms)
    end.
(** receive_openflow_message (63-90); the socket's timeouts inside the loop are left out. *)
Definition cc_receive (fuel : nat) (connected : bool) (s : stream) : res (option (list ofph) * stream) :=
  ms <- cc_collect fuel connected s;;
  match fst ms with
  | None => Ok (None, snd ms)
  | Some m => p <- of_parse m;; Ok (Some p, snd ms)
  end.
(** send_openflow_message (44-61): [rvs] are the amounts the socket accepts, one per call. *)
Fixpoint cc_send_loop (raw : bytes) (remain : nat) (rvs : list nat) : list bytes * nat :=
  match remain with
  | O => ([], O)
  | _ => match rvs with
         | [] => ([], remain)
         | rv :: rvs' =>
             let chunk := skipn (length raw - remain) raw in
             let n := Nat.min rv (length chunk) in
             let '(l, r) := cc_send_loop raw (remain - n) rvs' in (firstn n chunk :: l, r)
         end
  end.
Definition cc_send (connected : bool) (raw : bytes) (rvs : list nat) : list bytes :=
  if negb connected then [] else fst (cc_send_loop raw (length raw) rvs).
