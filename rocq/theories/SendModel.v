(** Model of sending on live devices: LLNetReal.send_packet (llnetreal.py:242-274), _make_pcaps (165-177), _RawSocket.send_packet
    (355-392) and PcapLiveDevice.send_packet (pcapffi.py:602-610), and of LLNetReal._assemble_devinfo (llnetreal.py:101-163).
    What the kernel and libpcap answer is given from outside; what is handed to them is recorded.
    Left out: logging, opening of the raw socket and of the pcap devices (taken to succeed), partial updates of a packet whose
    serialisation fails. *)
From Verif Require Export NetModel.
From Verif Require Import Base EthAddrModel Ipv4Model TransportModel PacketModel.
#[local] Open Scope list_scope.

(** InterfaceType (interface.py:8-12). *)
Inductive iftype := TUnknown | TLoopback | TWired | TWireless.
Definition is_loop (t : iftype) : bool := match t with TLoopback => true | _ => false end.
Definition port := (iface * iftype)%type.
(** The part of an LLNetReal object that sending uses: _devinfo, and the names in _pcaps and _localsend. *)
Record lnet := mkLnet { ln_dev : dict port; ln_pcaps : list str; ln_local : list str }.
(** _make_pcaps (165-177). *)
Definition make_pcaps (d : dict port) : lnet :=
  mkLnet d (map fst d) (map fst (filter (fun x => is_loop (snd (snd x))) d)).
(** intf_up (llnetbase.py:78-89): the table only. *)
Definition live_up (p : port) (n : lnet) : res lnet :=
  if din (if_name (fst p)) (ln_dev n) then Err EValue else Ok (mkLnet (dset (if_name (fst p)) p (ln_dev n)) (ln_pcaps n) (ln_local n)).

(** What reaches the outside: pcap_sendpacket on a device, or sendto on the raw socket of a device. *)
Inductive event := Wire (dev : str) (b : bytes) | Raw (dev : str) (b : bytes) (dst : bytes) (udpport : Z).
(** The arguments of send_packet. *)
Inductive devarg := DName (s : str) | DNum (n : Z) | DIntf (p : port).
Inductive pktarg := PNone | POther | PPkt (p : packet).
(** [e_rv] what pcap_sendpacket returns, [e_sent] what sendto returns, None if it raises; [e_mac] sys.platform == 'darwin'. *)
Record env := mkEnv { e_rv : Z; e_sent : option Z; e_mac : bool }.
(** The packet object afterwards, what went out, and how the call ended. *)
Definition outcome := (packet * list event * res unit)%type.

(** The bytes of length and offset exchanged (382-385). *)
Definition swap_bytes (raw : bytes) : bytes :=
  firstn 2 raw ++ rev (firstn 2 (skipn 2 raw)) ++ firstn 2 (skipn 4 raw) ++ rev (firstn 2 (skipn 6 raw)) ++ skipn 8 raw.
(** packet[UDP].dst if there is a UDP header (370-372). *)
Definition udp_port (p : packet) : Z := if pkt_has p CUdp then match pkt_get_cls p CUdp with Ok (HUdp u) => udp_dst u | _ => 0 end else 0.
Definition dst_of (h : hdr) : bytes := match h with HIp4 x => ip_dst x | HIp6 x => Ipv6Model.v6_dst x | _ => [] end.
(** _RawSocket.send_packet (355-392).  Deleting the first header (361) changes the caller's packet. *)
Definition raw_send (e : env) (dev : str) (p : packet) : outcome :=
  match p with
  | [] => (p, [], Err EExc)
  | f :: r =>
      let p := if isinst f CNull || isinst f CEth then r else p in
      match p with
      | [] => (p, [], Err EExc)
      | f :: _ =>
          if negb (isinst f CIp4 || isinst f CIp6) then (p, [], Err EExc)
          else
            match pkt_to_bytes p with
            | Err x => (p, [], Err x)
            | Ok (p', raw) =>
                match raw with
                | [] => (p', [], Err EIndex)
                | v :: _ =>
                    if Z.shiftr v 4 =? 4 then
                      let out := if e_mac e then swap_bytes raw else raw in
                      match e_sent e with
                      | None => (p', [], Err EExc)
                      | Some n => (p', [Raw dev out (dst_of f) (udp_port p')], if zlen out =? n then Ok tt else Err EExc)
                      end
                    else (p', [], Err ENotImpl)
                end
            end
      end
  end.
(** The rest of send_packet (267-274) once the interface is known; a missing entry is None, which has no method. *)
Definition send_on (e : env) (n : lnet) (dev : str) (t : iftype) (p : packet) : outcome :=
  if is_loop t then
    if existsb (str_eqb dev) (ln_local n) then raw_send e dev p else (p, [], Err EAttr)
  else
    match pkt_to_bytes p with
    | Err x => (p, [], Err x)
    | Ok (p', raw) =>
        if existsb (str_eqb dev) (ln_pcaps n) then (p', [Wire dev raw], if e_rv e =? 0 then Ok tt else Err EExc)
        else (p', [], Err EAttr)
    end.
(** send_packet (242-274); interfaces are compared through isinstance only.  When no packet is given, [] stands for it. *)
Definition live_send (e : env) (n : lnet) (dev : devarg) (a : pktarg) : outcome :=
  match a with
  | PNone | POther => ([], [], Err EValue)
  | PPkt p =>
      match dev with
      | DIntf (i, t) => send_on e n (if_name i) t p
      | DName s => match dget s (ln_dev n) with Some (_, t) => send_on e n s t p | None => (p, [], Err EValue) end
      | DNum k =>
          match by_num k (map (fun x => (fst x, fst (snd x))) (ln_dev n)) with
          | Err x => (p, [], Err x)
          | Ok s => match dget s (ln_dev n) with Some (_, t) => send_on e n s t p | None => (p, [], Err EValue) end
          end
      end
  end.

(** ** Collecting the devices (101-163) *)
(** psutil's entries: IPv4 and IPv6 addresses with their masks, packed; a scope id ("%eth0") may follow an IPv6 address;
    link-layer addresses, already through EthAddr; other families. *)
Inductive psaddr := AInet (addr : bytes) (mask : option bytes) | AInet6 (addr : bytes) (scope : option str) (mask : option bytes) | ALink (mac : ethaddr) | AOther.
(** The output of iwconfig without arguments: for each device of the machine whether it is wireless; None if there is no such
    command.  It is run without the device name, because a list given to getstatusoutput passes the rest to the shell (113). *)
Definition iwconfig := option (list (str * bool)).
Definition no_wireless (w : iwconfig) : bool := match w with None => false | Some l => existsb (fun x => negb (snd x)) l end.
(** devtype (107-121). *)
Definition dev_type (linux : bool) (w : iwconfig) (isloop : bool) : iftype :=
  if isloop then TLoopback else if linux then (if no_wireless w then TWired else TWireless) else TUnknown.
Definition dev_types (linux : bool) (w : iwconfig) (pcap : list (str * bool)) : dict iftype :=
  fold_left (fun d x => dset (fst x) (dev_type linux w (snd x)) d) pcap [].
(** The loop over the addresses (143-157): the set of addresses and the MAC address; max_prefixlen is 32 or 128 for every
    mask, and a mask of None is refused by IPv4Address and IPv6Address. *)
Definition add_once (a : ipif) (l : list ipif) : list ipif := if existsb (ipif_eqb a) l then l else l ++ [a].
Fixpoint addr_loop (l : list psaddr) (ips : list ipif) (mac : ethaddr) : res (list ipif * ethaddr) :=
  match l with
  | [] => Ok (ips, mac)
  | AInet a (Some _) :: l => addr_loop l (add_once (a, 32) ips) mac
  | AInet6 a _ (Some _) :: l => addr_loop l (add_once (a, 128) ips) mac
  | AInet _ None :: _ | AInet6 _ _ None :: _ => Err EValue
  | ALink m :: l => addr_loop l ips m
  | AOther :: l => addr_loop l ips mac
  end.
(** One device (125-161); [index] is if_nametoindex, which raises for a name the system does not know. *)
Definition one_dev (types : dict iftype) (index : str -> option Z) (name : str) (l : list psaddr) : res port :=
  match index name with
  | None => Err EExc
  | Some num =>
      ' (ips, mac) <- addr_loop l [] (repeat 0 6);;
      match dget name types with
      | None => Err EKey
      | Some t => Ok (fold_left (fun i a => if_assign a i) ips (fst (if_new name (Some mac) (Some num) 0)), t)
      end
  end.
Fixpoint dev_loop (types : dict iftype) (index : str -> option Z) (info : dict (list psaddr)) (devs : list str) (d : dict port) : res (dict port) :=
  match devs with
  | [] => Ok d
  | name :: devs =>
      match dget name info with
      | None => dev_loop types index info devs d
      | Some l => p <- one_dev types index name l;; dev_loop types index info devs (dset name p d)
      end
  end.
Definition assemble (linux : bool) (w : iwconfig) (pcap : list (str * bool)) (index : str -> option Z) (info : dict (list psaddr)) (devs : list str) : res (dict port) :=
  dev_loop (dev_types linux w pcap) index info devs [].
