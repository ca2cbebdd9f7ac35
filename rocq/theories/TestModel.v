(** Model of switchyard/lib/testing.py (packet matcher, events, scenario) and switchyard/llnettest.py (LLNetTest, the
    verdict of run_tests).  Texts of messages are left out, but not the exceptions raised while they are put together (without
    verbose output).  Also left out: copyfromlastout, display, the debugger, file names of compiled scenarios.  Packets are
    values here: in the code the packet handed to the program, and the packet sent by it, are the objects the event keeps. *)
From Verif Require Export Dict.
From Verif Require Import EthAddrModel Enums EthModel ArpModel Ipv4Model TransportModel Ipv6Model IcmpModel RipModel PacketModel NetModel.
#[local] Open Scope string_scope.
#[local] Open Scope Z_scope.
#[local] Open Scope list_scope.

(** ** Header attributes *)
(** Values of public header attributes.  Addresses are byte strings, enum members numbers. *)
Inductive aval := AZ (n : Z) | AB (b : bytes) | ABool (b : bool) | ANone | AOpts (os : list ipopt) | AData (d : icmpdata).
Definition aopt (o : option Z) : aval := match o with Some n => AZ n | None => ANone end.
(** The public attributes that are not callable, in the order of dir(), without checksum (testing.py:126-135):
    ethernet.py:48-70, 118-140; arp.py:76-122; ipv4.py:455-558; ipv6.py:43-57, 99-105, 136-158, 550-604; udp.py:53-75;
    tcp.py:148-308; icmp.py:86-147; icmpv6.py:75-89; ripv2.py:173-183; null.py:29-35; packet.py:381-383. *)
Definition attr_names (c : hcls) : list str :=
  match c with
  | CEth => ["dst"; "ethertype"; "src"]
  | CVlan => ["ethertype"; "pcp"; "vlanid"]
  | CArp => ["hardwaretype"; "operation"; "protocoltype"; "senderhwaddr"; "senderprotoaddr"; "targethwaddr"; "targetprotoaddr"]
  | CIp4 => ["dscp"; "dst"; "ecn"; "flags"; "fragment_offset"; "hl"; "ipid"; "options"; "protocol"; "src"; "tos"; "total_length"; "ttl"]
  | CIp6 => ["dst"; "flowlabel"; "hoplimit"; "nextheader"; "src"; "trafficclass"; "ttl"]
  | CRoute => ["address"; "nextheader"; "protocol"]
  | CFrag => ["id"; "mf"; "nextheader"; "offset"; "protocol"]
  | CHop | CDest => ["nextheader"; "protocol"]
  | CUdp => ["dst"; "length"; "src"]
  | CTcp => ["ACK"; "CWR"; "ECE"; "FIN"; "NS"; "PSH"; "RST"; "SYN"; "URG"; "ack"; "dst"; "flags"; "flagstr"; "offset"; "options"; "seq"; "src";
             "urgent_pointer"; "window"]
  | CIcmp => ["icmpcode"; "icmpdata"; "icmptype"]
  | CIcmp6 => ["icmp6code"; "icmp6type"; "icmpcode"; "icmpdata"; "icmptype"]
  | CRip => ["command"; "version"]
  | CNull => ["af"]
  | CRaw => ["data"]
  | CNullHdr | CBytes => []
  end.
(** flagstr (tcp.py:204-210): the letters F S R P A U E C N of the flags set. *)
Definition tcp_flagstr (f : Z) : bytes :=
  List.concat (map (fun p => if tcp_isset f (fst p) then [snd p] else []) [(0, 70); (1, 83); (2, 82); (3, 80); (4, 65); (5, 85); (6, 69); (7, 67); (8, 78)]).
(** All attributes of a header object; IPv4.hl raises if the options cannot be serialised.  TCP.options is an always empty
    TCPOptions object, represented by its bytes (tcp.py:29-54). *)
Definition attrs (h : hdr) : list (str * res aval) :=
  match h with
  | HEth x => [("dst", Ok (AB (eth_dst x))); ("ethertype", Ok (AZ (eth_type x))); ("src", Ok (AB (eth_src x)))]
  | HVlan x => [("ethertype", Ok (AZ (vl_type x))); ("pcp", Ok (AZ (vl_pcp x))); ("vlanid", Ok (AZ (vl_id x)))]
  | HArp x => [("hardwaretype", Ok (AZ (arp_hwtype x))); ("operation", Ok (AZ (arp_op x))); ("protocoltype", Ok (AZ (arp_prototype x)));
      ("senderhwaddr", Ok (AB (arp_shw x))); ("senderprotoaddr", Ok (AB (arp_sproto x))); ("targethwaddr", Ok (AB (arp_thw x))); ("targetprotoaddr", Ok (AB (arp_tproto x)))]
  | HIp4 x => [("dscp", Ok (AZ (Z.shiftr (ip_tos x) 2))); ("dst", Ok (AB (ip_dst x))); ("ecn", Ok (AZ (Z.land (ip_tos x) 3))); ("flags", Ok (AZ (ip_flags x)));
      ("fragment_offset", Ok (AZ (ip_frag x))); ("hl", (s <- ip_size x;; Ok (AZ (s / 4)))); ("ipid", Ok (AZ (ip_id x))); ("options", Ok (AOpts (ip_opts x))); ("protocol", Ok (AZ (ip_proto x)));
      ("src", Ok (AB (ip_src x))); ("tos", Ok (AZ (ip_tos x))); ("total_length", Ok (AZ (ip_totlen x))); ("ttl", Ok (AZ (ip_ttl x)))]
  | HIp6 x => [("dst", Ok (AB (v6_dst x))); ("flowlabel", Ok (AZ (v6_flow x))); ("hoplimit", Ok (AZ (v6_ttl x))); ("nextheader", Ok (AZ (v6_nh x))); ("src", Ok (AB (v6_src x)));
      ("trafficclass", Ok (AZ (v6_tc x))); ("ttl", Ok (AZ (v6_ttl x)))]
  | HRoute x => [("address", Ok (AB (ro_addr x))); ("nextheader", Ok (aopt (ro_nh x))); ("protocol", Ok (aopt (ro_nh x)))]
  | HFrag x => [("id", Ok (AZ (fr_id x))); ("mf", Ok (ABool (fr_mf x))); ("nextheader", Ok (aopt (fr_nh x))); ("offset", Ok (AZ (fr_off x))); ("protocol", Ok (aopt (fr_nh x)))]
  | HHop x | HDest x => [("nextheader", Ok (aopt (ho_nh x))); ("protocol", Ok (aopt (ho_nh x)))]
  | HUdp x => [("dst", Ok (AZ (udp_dst x))); ("length", Ok (AZ (udp_len x))); ("src", Ok (AZ (udp_src x)))]
  | HTcp x => let f := tcp_flags x in let b k := ABool (tcp_isset f k) in
      [("ACK", Ok (b 4)); ("CWR", Ok (b 7)); ("ECE", Ok (b 6)); ("FIN", Ok (b 0)); ("NS", Ok (b 8)); ("PSH", Ok (b 3)); ("RST", Ok (b 2)); ("SYN", Ok (b 1)); ("URG", Ok (b 5));
      ("ack", Ok (AZ (tcp_ack x))); ("dst", Ok (AZ (tcp_dst x))); ("flags", Ok (AZ f)); ("flagstr", Ok (AB (tcp_flagstr f))); ("offset", Ok (AZ (tcp_offset x))); ("options", Ok (AB []));
      ("seq", Ok (AZ (tcp_seq x))); ("src", Ok (AZ (tcp_src x))); ("urgent_pointer", Ok (AZ (tcp_urg x))); ("window", Ok (AZ (tcp_window x)))]
  | HIcmp x => [("icmpcode", Ok (AZ (ic_code x))); ("icmpdata", Ok (AData (ic_data x))); ("icmptype", Ok (AZ (ic_type x)))]
  | HIcmp6 x => [("icmp6code", Ok (AZ (ic_code x))); ("icmp6type", Ok (AZ (ic_type x))); ("icmpcode", Ok (AZ (ic_code x))); ("icmpdata", Ok (AData (ic_data x)));
      ("icmptype", Ok (AZ (ic_type x)))]
  | HRip x => [("command", Ok (AZ (rip_cmd x))); ("version", Ok (AZ 2))]
  | HNull af => [("af", Ok (AZ af))]
  | HRaw b => [("data", Ok (AB b))]
  | HNullHdr | HBytes _ => []
  end.
Definition getattr (h : hdr) (a : str) : res aval :=
  match dget a (attrs h) with Some v => v | None => Err EAttr end.

(** ** Comparing attribute values (refattr != curattr, testing.py:209) *)
(** IPOption.__eq__ (ipv4.py:44-45, 131-134, 218-221, 251-254). *)
Fixpoint list_eqb {A} (f : A -> A -> bool) (a b : list A) : bool :=
  match a, b with [], [] => true | x :: a', y :: b' => f x y && list_eqb f a' b' | _, _ => false end.
Definition optbytes_eqb (a b : option bytes) : bool :=
  match a, b with Some x, Some y => bytes_eqb x y | None, None => true | _, _ => false end.
Definition ipopt_eqb (a b : ipopt) : bool :=
  match a, b with
  | OEnd, OEnd | ONop, ONop => true
  | ORoute n p l, ORoute n' p' l' => (n =? n') && (p =? p') && list_eqb bytes_eqb l l'
  | OTs _ f l, OTs _ f' l' => list_eqb (fun x y => optbytes_eqb (fst x) (fst y) && (snd x =? snd y)) l l' && (f =? f')
  | O4 n v c, O4 n' v' c' => (n =? n') && (v =? v') && (c =? c')
  | _, _ => false
  end.
Definition aval_ne (a b : aval) : res bool :=
  match a, b with
  | AZ x, AZ y => Ok (negb (x =? y))
  | AB x, AB y => Ok (negb (bytes_eqb x y))
  | ABool x, ABool y => Ok (negb (Bool.eqb x y))
  | ANone, ANone => Ok false
  | AOpts x, AOpts y => Ok (negb (list_eqb ipopt_eqb x y))
  | AData x, AData y => e <- data_eqb x y;; Ok (negb e)
  | _, _ => Ok true
  end.

(** ** Printing *)
(** Whether str() of a header works: ICMPv6RouterAdvertisement.__str__ reads _retrans_time (icmpv6.py:629; the attribute is
    called _retrans_timer) and HomeAddress.__str__ reads _value (ipv6.py:304; called _addr), so both raise AttributeError.
    The other __str__ methods read what is there: ethernet.py:93-94, 170-172; arp.py:130-133; ipv4.py:572-573;
    ipv6.py:96-97, 160-161, 187-283, 321-322, 606-607; udp.py:77-78; tcp.py:168-170; icmp.py:125-129, 185-186, 222-419;
    icmpv6.py:108-143, 246-323, 433-511, 668-820; ripv2.py:37-41, 143-145; null.py:64-65; packet.py:356-357, 400-405. *)
Definition data_shows (d : icmpdata) : bool := match d with DRA _ _ _ _ _ _ _ _ _ => false | _ => true end.
Definition v6opt_shows (o : v6opt) : bool := match o with VHome _ => false | _ => true end.
Definition hdr_shows (h : hdr) : bool :=
  match h with
  | HIcmp x | HIcmp6 x => data_shows (ic_data x)
  | HHop x | HDest x => forallb v6opt_shows (ho_opts x)
  | _ => true
  end.
(** Packet.__str__ (packet.py:240-241). *)
Definition pkt_shows (p : packet) : bool := forallb hdr_shows p.
(** Formatting of an attribute value (testing.py:210). *)
Definition aval_shows (a : aval) : bool := match a with AData d => data_shows d | _ => true end.

(** ** The matcher *)
Definition wildcard := (hcls * str)%type.
Definition predicate := packet -> res bool.
(** The table of _compute_inexact (testing.py:144-163); other classes are not compared. *)
Definition inexact_names (c : hcls) : list str :=
  match c with
  | CEth => ["src"; "dst"; "ethertype"]
  | CArp => ["targetprotoaddr"; "senderprotoaddr"; "targethwaddr"; "senderhwaddr"]
  | CIp4 => ["src"; "dst"; "protocol"]
  | CIp6 => ["src"; "dst"; "nextheader"]
  | CTcp | CUdp => ["src"; "dst"]
  | CIcmp | CIcmp6 => ["icmptype"; "icmpcode"]
  | CVlan => ["vlanid"; "ethertype"]
  | _ => []
  end.
(** list.remove, guarded by [in] (165-169). *)
Fixpoint remove1 (a : str) (l : list str) : list str :=
  match l with [] => [] | x :: r => if str_eqb a x then r else x :: remove1 a r end.
Definition filter_wildcards (wc : list wildcard) (c : hcls) (l : list str) : list str :=
  fold_left (fun l w => if cls_eqb (fst w) c then remove1 (snd w) l else l) wc l.
(** The matcher object; the attribute lists, a dict keyed by class in the code, as a function of the class.
    Wildcards are taken as accepted by _check_wildcards (111-123); predicates are functions of the packet. *)
Record matcher := mkM { m_ref : packet; m_exact : bool; m_wc : list wildcard; m_preds : list predicate }.
Definition comparison_attrs (m : matcher) (c : hcls) : list str :=
  filter_wildcards (m_wc m) c (if m_exact m then attr_names c else inexact_names c).
(** __init__ (46-88): in exact mode every attribute of the reference packet is read once. *)
Fixpoint all_ok {A} (l : list (res A)) : res unit := match l with [] => Ok tt | x :: t => _ <- x;; all_ok t end.
Fixpoint readable (p : packet) : res unit :=
  match p with [] => Ok tt | h :: t => _ <- all_ok (map snd (attrs h));; readable t end.
Definition matcher_new (ref : packet) (exact : bool) (wc : list wildcard) (preds : list predicate) : res matcher :=
  _ <- (if exact then readable ref else Ok tt);; Ok (mkM ref exact wc preds).
(** _compare_header_types (178-199). *)
Fixpoint same_types (r p : packet) : bool :=
  match r, p with
  | [], [] => true
  | x :: r', y :: p' => cls_eqb (class_of x) (class_of y) && same_types r' p'
  | _, _ => false
  end.
(** The loop over one attribute list (205-211): whether any attribute differs; there is no early exit.  Attributes that
    differ are formatted for the diagnosis. *)
Fixpoint differs (names : list str) (r c : hdr) : res bool :=
  match names with
  | [] => Ok false
  | a :: t => x <- getattr r a;; y <- getattr c a;; d <- aval_ne x y;;
      if d && negb (aval_shows x && aval_shows y) then Err EAttr else e <- differs t r c;; Ok (d || e)
  end.
(** _compare_header_attrs (201-217). *)
Fixpoint attrs_differ (m : matcher) (r p : packet) : res bool :=
  match r, p with
  | x :: r', y :: p' => d <- differs (comparison_attrs m (class_of x)) x y;; e <- attrs_differ m r' p';; Ok (d || e)
  | _, _ => Ok false
  end.
Definition compare (m : matcher) (r p : packet) : res bool :=
  if same_types r p then d <- attrs_differ m r p;; Ok (negb d) else Ok false.
Fixpoint eval_preds (l : list predicate) (p : packet) : res bool :=
  match l with [] => Ok true | f :: t => a <- f p;; b <- eval_preds t p;; Ok (a && b) end.
(** match (288-307): both packets are serialised first, which fills in their length and checksum fields; the result holds
    the observed packet after that.  The reference is not kept updated here, serialising it again gives the same (C25). *)
Definition m_match (m : matcher) (p : packet) : res (bool * packet) :=
  ' (p', _) <- pkt_to_bytes p;;
  ' (r', _) <- pkt_to_bytes (m_ref m);;
  b <- compare m r' p';;
  c <- eval_preds (m_preds m) p';;
  Ok (b && c, p').

(** _showpkt (221-241): the packet is copied and printed with the wildcarded attributes starred out.  For attribute [a] the
    private attribute "_a" is set to a string, which needs a slot of that name; attributes of which the class has such a slot: *)
Definition starrable (c : hcls) : list str :=
  match c with
  | CEth => ["dst"; "ethertype"; "src"]                                                                 (* ethernet.py:98 *)
  | CVlan => ["ethertype"; "pcp"; "vlanid"]                                                             (* ethernet.py:27 *)
  | CArp => ["operation"; "senderhwaddr"; "senderprotoaddr"; "targethwaddr"; "targetprotoaddr"]         (* arp.py:17-19 *)
  | CIp4 => ["dst"; "flags"; "ipid"; "options"; "protocol"; "src"; "tos"; "ttl"]                        (* ipv4.py:382-385 *)
  | CIp6 => ["dst"; "flowlabel"; "nextheader"; "src"; "trafficclass"; "ttl"]                            (* ipv6.py:490-492 *)
  | CRoute => ["address"; "nextheader"]                                                                 (* ipv6.py:25, 88 *)
  | CFrag => ["id"; "nextheader"; "offset"]                                                             (* ipv6.py:25, 125 *)
  | CHop | CDest => ["nextheader"]                                                                      (* ipv6.py:25, 307 *)
  | CUdp => ["checksum"; "dst"; "src"]                                                                  (* udp.py:15 *)
  | CTcp => ["ack"; "checksum"; "dst"; "flags"; "options"; "seq"; "src"; "window"]                      (* tcp.py:68-69 *)
  | CIcmp | CIcmp6 => ["checksum"; "icmpdata"]                                                          (* icmp.py:25-27, icmpv6.py:25-27 *)
  | CRip => ["command"]                                                                                 (* ripv2.py:99 *)
  | CNull => ["af"]                                                                                     (* null.py:20 *)
  | CRaw | CNullHdr | CBytes => []                                                                      (* packet.py:367 *)
  end.
Definition smem (a : str) (l : list str) : bool := existsb (str_eqb a) l.
(** Starring out in the first header of the class (get_header).  NullPacketHeader (packet.py:340) takes any attribute. *)
Fixpoint star_first (c : hcls) (a : str) (p : list (hdr * list str)) : res (list (hdr * list str)) :=
  match p with
  | [] => Ok []
  | (h, l) :: t =>
      if isinst h c then
        if smem a (starrable (class_of h)) || cls_eqb (class_of h) CNullHdr then Ok ((h, a :: l) :: t) else Err EAttr
      else t' <- star_first c a t;; Ok ((h, l) :: t')
  end.
Fixpoint star_all (wc : list wildcard) (p : list (hdr * list str)) : res (list (hdr * list str)) :=
  match wc with [] => Ok p | (c, a) :: r => p' <- star_first c a p;; star_all r p' end.
(** Printing a header some attributes of which are strings now: those printed by their name member have none, flagstr
    (tcp.py:204-210) computes with the flags. *)
Definition show_starred (x : hdr * list str) : res unit :=
  let '(h, l) := x in
  match h with
  | HEth _ | HVlan _ => if smem "ethertype" l then Err EAttr else Ok tt
  | HIp4 _ => if smem "protocol" l then Err EAttr else Ok tt
  | HIp6 _ => if smem "nextheader" l then Err EAttr else Ok tt
  | HTcp _ => if smem "flags" l then Err EType else Ok tt
  | HRip _ => if smem "command" l then Err EAttr else Ok tt
  | HIcmp _ | HIcmp6 _ => if smem "icmpdata" l || hdr_shows h then Ok tt else Err EAttr
  | _ => if hdr_shows h then Ok tt else Err EAttr
  end.
Definition showpkt (wc : list wildcard) (p : packet) : res unit :=
  q <- star_all wc (map (fun h => (h, [])) p);; all_ok (map show_starred q).
(** The exception of a failed match of a packet, serialised as [p'] (PacketOutputEvent.match, 539): fail_reason (243-286)
    prints the packet when the contents were right and a predicate failed. *)
Definition fail_exn (m : matcher) (p' : packet) : exn :=
  match (' (r', _) <- pkt_to_bytes (m_ref m);; compare m r' p') with
  | Ok true => match showpkt (m_wc m) p' with Ok _ => ETestFail | Err e => e end
  | _ => ETestFail
  end.

(** ** Events *)
(** PacketOutputEvent (481-590): outstanding expectations and the packets already seen, by device.  Saving replaces the
    packets seen by their bytes (574-579, the dictionary is shared with the live object). *)
Inductive seen := SeenPkt (p : packet) | SeenRaw (b : bytes).
Record oev := mkOut { oe_wait : dict matcher; oe_got : dict seen }.
Inductive event :=
| EvIn (dev : str) (p : packet)        (* PacketInputEvent, 412-478 *)
| EvTimeout (secs : Z)                 (* PacketInputTimeoutEvent, 372-409 *)
| EvOut (o : oev).
(** __init__ (486-515): arguments device, packet, device, packet, ... (an odd number raises, not modelled). *)
Fixpoint out_args (args : list (str * packet)) (exact : bool) (wc : list wildcard) (preds : list predicate) (d : dict matcher) : res (dict matcher) :=
  match args with
  | [] => Ok d
  | (dev, p) :: t => m <- matcher_new p exact wc preds;; out_args t exact wc preds (dset dev m d)
  end.
Definition out_new (args : list (str * packet)) (exact : bool) (wc : list wildcard) (preds : list predicate) : res oev :=
  match args with [] => Err EValue | _ => d <- out_args args exact wc preds [];; Ok (mkOut d []) end.
(** Whether str() of an event works (testing.py:394-395, 449-450, 565-572); bytes print. *)
Definition seen_shows (g : seen) : bool := match g with SeenPkt p => pkt_shows p | SeenRaw _ => true end.
Definition ev_shows (e : event) : bool :=
  match e with
  | EvIn _ p => pkt_shows p
  | EvTimeout _ => true
  | EvOut o => forallb (fun x => pkt_shows (m_ref (snd x))) (oe_wait o) && forallb (fun x => seen_shows (snd x)) (oe_got o)
  end.
(** TestScenarioFailure with the event in its text. *)
Definition fail_naming (e : event) : exn := if ev_shows e then ETestFail else EAttr.
Inductive mres := MFail | MSuccess | MPartial.
(** PacketOutputEvent.match for a sent packet (517-541). *)
Definition out_match (o : oev) (dev : str) (p : packet) : oev * res mres :=
  match dget dev (oe_wait o) with
  | None => (o, Err (fail_naming (EvOut o)))
  | Some m =>
      match m_match m p with
      | Err e => (o, Err e)
      | Ok (false, p') => (o, Err (fail_exn m p'))
      | Ok (true, p') =>
          let w := ddel dev (oe_wait o) in
          (mkOut w (dset dev (SeenPkt p') (oe_got o)), Ok (match w with [] => MSuccess | _ => MPartial end))
      end
  end.

(** ** Scenarios *)
(** TestScenarioEvent (593) and TestScenario (595-924).  Time stamps count expectations. *)
Record sev := mkSev { sv_ev : event; sv_desc : str; sv_time : Z }.
Record scen := mkScen { sc_name : str; sc_ifs : devinfo; sc_files : dict str; sc_pend : list sev; sc_done : list sev; sc_timer : bool; sc_next : Z; sc_timeout : Z }.
Definition scen_new (name : str) : scen := mkScen name [] [] [] [] false 0 60.
(** add_interface (671-682), add_file (639-640), expect (693-701). *)
Definition with_ifs (d : devinfo) (s : scen) := mkScen (sc_name s) d (sc_files s) (sc_pend s) (sc_done s) (sc_timer s) (sc_next s) (sc_timeout s).
Definition scen_add_if (name : str) (mac : option ethaddr) (ips : list ipif) (num : option Z) (s : scen) : scen :=
  with_ifs (add_interface name mac ips num (sc_ifs s)) s.
Definition scen_add_file (f text : str) (s : scen) : scen :=
  mkScen (sc_name s) (sc_ifs s) (dset f text (sc_files s)) (sc_pend s) (sc_done s) (sc_timer s) (sc_next s) (sc_timeout s).
Definition scen_expect (e : event) (desc : str) (s : scen) : scen :=
  mkScen (sc_name s) (sc_ifs s) (sc_files s) (sc_pend s ++ [mkSev e desc (sc_next s)]) (sc_done s) (sc_timer s) (sc_next s + 1) (sc_timeout s).
(** done (837-842), get_failed_test (703-710). *)
Definition scen_done (s : scen) : bool := match sc_pend s with [] => true | _ => false end.
Definition failed_test (s : scen) : option sev := match sc_pend s with [] => None | e :: _ => Some e end.
(** The numbers printed by print_summary (814-815). *)
Definition scen_summary (s : scen) : Z * Z * Z :=
  (zlen (sc_done s), Z.min 1 (zlen (sc_pend s)), Z.max 0 (zlen (sc_pend s) - 1)).
Definition is_out (e : event) : bool := match e with EvOut _ => true | _ => false end.
Definition with_queue (pend done : list sev) (timer : bool) (s : scen) : scen :=
  mkScen (sc_name s) (sc_ifs s) (sc_files s) pend done timer (sc_next s) (sc_timeout s).
(** testpass (755-790) for a head event whose state is now [e].  The event is printed (765, the text of a debug message)
    after it has been taken from the pending list and before it is added to the completed one; the timer is armed when an
    output is expected next, and then the next event is printed (790). *)
Definition testpass (e : sev) (rest : list sev) (s : scen) : scen * res unit :=
  if ev_shows (sv_ev e) then
    (with_queue rest (sc_done s ++ [e]) (match rest with n :: _ => is_out (sv_ev n) | [] => false end) s,
     match rest with n :: _ => if ev_shows (sv_ev n) then Ok tt else Err EAttr | [] => Ok tt end)
  else (with_queue rest (sc_done s) false s, Err EAttr).
Definition with_head (e : sev) (rest : list sev) (s : scen) : scen :=
  mkScen (sc_name s) (sc_ifs s) (sc_files s) (e :: rest) (sc_done s) (sc_timer s) (sc_next s) (sc_timeout s).
(** PacketInputEvent.generate_packet (462-475); PacketInputTimeoutEvent.generate_packet (404-406).  The packet of the event is
    replaced by what its bytes are read as. *)
Definition first_cls (p : packet) : hcls := match p with [] => CEth | h :: _ => class_of h end.
Definition generate (e : event) (s : scen) : res (str * packet) :=
  match e with
  | EvIn dev p =>
      ' (_, raw) <- pkt_to_bytes p;;
      q <- pkt_new raw (first_cls p);;
      if din dev (sc_ifs s) then Ok (dev, q) else Err ETestFail
  | _ => Err ENoPackets
  end.
Definition reread (e : event) : event :=
  match e with
  | EvIn dev p => match (' (_, raw) <- pkt_to_bytes p;; pkt_new raw (first_cls p)) with Ok q => EvIn dev q | Err _ => e end
  | _ => e
  end.
Fixpoint on_last {A} (f : A -> A) (l : list A) : list A :=
  match l with [] => [] | [x] => [f x] | x :: t => x :: on_last f t end.
Definition sev_reread (e : sev) : sev := mkSev (reread (sv_ev e)) (sv_desc e) (sv_time e).

(** ** LLNetTest *)
Record tnet := mkT { t_scen : scen; t_time : Z }.
Definition tnet_new (s : scen) : tnet := mkT s 0.
(** First argument of send_packet: a device name, a number, or an Interface object (its name). *)
Inductive devarg := DName (n : str) | DNum (k : Z) | DIface (i : iface).
Definition dev_name (a : devarg) (s : scen) : res str :=
  match a with DName n => Ok n | DNum k => by_num k (sc_ifs s) | DIface i => Ok (if_name i) end.
Record recvd := mkRecv { rv_time : Z; rv_dev : str; rv_pkt : packet }.
(** recv_packet (llnettest.py:60-79). *)
Definition t_recv (t : tnet) : tnet * res recvd :=
  let s := t_scen t in
  match sc_pend s with
  | [] => (t, Err EShutdown)
  | e :: rest =>
      match sv_ev e with
      | EvOut _ => (t, Err (fail_naming (sv_ev e)))
      | ev =>
          let '(s', r) := testpass e rest s in
          match r with
          | Err x => (mkT s' (t_time t), Err x)
          | Ok _ =>
              let t' := mkT (with_queue (sc_pend s') (on_last sev_reread (sc_done s')) (sc_timer s') s') (t_time t) in
              match generate ev s' with
              | Ok (dev, p) => (t', Ok (mkRecv (t_time t) dev p))
              | Err x => (t', Err x)
              end
          end
      end
  end.
(** send_packet (81-105). *)
Definition t_send (t : tnet) (a : devarg) (p : packet) : tnet * res unit :=
  let s := t_scen t in
  match sc_pend s with
  | [] => (t, Err ETestFail)
  | e :: rest =>
      match dev_name a s with
      | Err x => (t, Err x)
      | Ok dev =>
          match sv_ev e with
          | EvOut o =>
              let '(o', r) := out_match o dev p in
              let e' := mkSev (EvOut o') (sv_desc e) (sv_time e) in
              match r with
              | Err x => (mkT (with_head e' rest s) (t_time t), Err x)
              | Ok MFail => (mkT (with_head e' rest s) (t_time t), Err ETestFail)
              | Ok MSuccess => let '(s', r') := testpass e' rest s in
                  match r' with Err x => (mkT s' (t_time t), Err x) | Ok _ => (mkT s' (t_time t + 1), Ok tt) end
              | Ok MPartial => (mkT (with_head e' rest s) (t_time t + 1), Ok tt)
              end
          | ev => (t, Err (fail_naming ev))
          end
      end
  end.

(** A user program as it appears to the network object: a tree of calls, the continuation getting the result or the
    exception, that ends by returning or by raising. *)
Inductive call := CRecv | CSend (a : devarg) (p : packet).
Inductive answer := AnsRecv (r : recvd) | AnsSent | AnsExn (e : exn).
Inductive prog := Call (c : call) (k : answer -> prog) | Return | Raise (e : exn).
Definition do_call (t : tnet) (c : call) : tnet * answer :=
  match c with
  | CRecv => let '(t', r) := t_recv t in (t', match r with Ok x => AnsRecv x | Err e => AnsExn e end)
  | CSend a p => let '(t', r) := t_send t a p in (t', match r with Ok _ => AnsSent | Err e => AnsExn e end)
  end.
(** How the program can end, with the calls made.  The alarm (_timer_expiry, testing.py:726-741) can strike whenever the
    timer is armed; it shows up as TestScenarioFailure in place of the next call.  (Outside a debugger.) *)
Inductive ending := EndReturn | EndRaise (e : exn).
Inductive runs : tnet -> prog -> tnet -> list (call * answer) -> ending -> Prop :=
| r_return t : runs t Return t [] EndReturn
| r_raise t e : runs t (Raise e) t [] (EndRaise e)
| r_alarm_end t : sc_timer (t_scen t) = true -> runs t Return t [] (EndRaise ETestFail)
| r_call t c k t1 a t2 tr e : do_call t c = (t1, a) -> runs t1 (k a) t2 tr e -> runs t (Call c k) t2 ((c, a) :: tr) e
| r_alarm t c k t2 tr e : sc_timer (t_scen t) = true -> runs t (k (AnsExn ETestFail)) t2 tr e -> runs t (Call c k) t2 tr e.
(** Whether run_tests reports "All tests passed!" (llnettest.py:156-182, 194, 251-253): print_summary (testing.py:807-835)
    prints all events before that. *)
Definition summary_prints (s : scen) : bool := forallb (fun e => ev_shows (sv_ev e)) (sc_done s ++ sc_pend s).
Definition reports_pass (s : scen) (e : ending) : bool :=
  summary_prints s &&
  match e with
  | EndRaise EShutdown => true
  | EndRaise _ => false
  | EndReturn => match failed_test s with None => true | Some _ => false end
  end.

(** A plain sequence of calls, whatever their results. *)
Fixpoint t_run (t : tnet) (cs : list call) : tnet * list answer :=
  match cs with
  | [] => (t, [])
  | c :: r => let '(t1, a) := do_call t c in let '(t2, l) := t_run t1 r in (t2, a :: l)
  end.

(** ** Saving and loading (testing.py:309-316, 435-442, 574-586, 847-864; compile_scenario/uncompile_scenario 931-973 add a
    checked digest around the pickled bytes).  Packets are stored as bytes together with the class of their first header;
    packets already seen by an output event are read back as Ethernet frames. *)
Definition save_pkt (p : packet) : res (bytes * hcls) := ' (_, b) <- pkt_to_bytes p;; Ok (b, first_cls p).
Record smatcher := mkSM { s_raw : bytes; s_first : hcls; s_exact : bool; s_wc : list wildcard; s_preds : list predicate }.
Inductive sevent := SIn (dev : str) (raw : bytes) (first : hcls) | STimeout (secs : Z) | SOut (wait : dict smatcher) (got : dict bytes).
Fixpoint mapr {A B} (f : A -> res B) (l : list A) : res (list B) :=
  match l with [] => Ok [] | x :: t => y <- f x;; ys <- mapr f t;; Ok (y :: ys) end.
Definition save_matcher (m : matcher) : res smatcher :=
  ' (b, c) <- save_pkt (m_ref m);; Ok (mkSM b c (m_exact m) (m_wc m) (m_preds m)).
Definition load_matcher (m : smatcher) : res matcher :=
  p <- pkt_new (s_raw m) (s_first m);; Ok (mkM p (s_exact m) (s_wc m) (s_preds m)).
Definition on_snd {A B} (f : A -> res B) (x : str * A) : res (str * B) := y <- f (snd x);; Ok (fst x, y).
(** The event written and the live event afterwards; bytes have no to_bytes method of this kind: AttributeError. *)
Definition save_seen (g : seen) : res bytes := match g with SeenPkt p => ' (_, b) <- pkt_to_bytes p;; Ok b | SeenRaw _ => Err EAttr end.
Definition save_event (e : event) : res (sevent * event) :=
  match e with
  | EvIn d p => ' (b, c) <- save_pkt p;; Ok (SIn d b c, e)
  | EvTimeout n => Ok (STimeout n, e)
  | EvOut o =>
      w <- mapr (on_snd save_matcher) (oe_wait o);;
      g <- mapr (on_snd save_seen) (oe_got o);;
      Ok (SOut w g, EvOut (mkOut (oe_wait o) (map (fun x => (fst x, SeenRaw (snd x))) g)))
  end.
Definition load_event (e : sevent) : res event :=
  match e with
  | SIn d b c => p <- pkt_new b c;; Ok (EvIn d p)
  | STimeout n => Ok (EvTimeout n)
  | SOut w g =>
      w' <- mapr (on_snd load_matcher) w;;
      g' <- mapr (on_snd (fun b => p <- pkt_parse b;; Ok (SeenPkt p))) g;;
      Ok (EvOut (mkOut w' g'))
  end.
Record saved := mkSaved { sd_name : str; sd_ifs : devinfo; sd_files : dict str; sd_events : list (sevent * str * Z); sd_next : Z; sd_timeout : Z }.
Definition save_sev (e : sev) : res (sevent * str * Z * sev) :=
  ' (x, e') <- save_event (sv_ev e);; Ok (x, sv_desc e, sv_time e, mkSev e' (sv_desc e) (sv_time e)).
(** The saved form, pending events first (847-855), and the scenario afterwards. *)
Definition scen_save (s : scen) : res (saved * scen) :=
  evs <- mapr save_sev (sc_pend s ++ sc_done s);;
  let live := map snd evs in let n := List.length (sc_pend s) in
  Ok (mkSaved (sc_name s) (sc_ifs s) (sc_files s) (map fst evs) (sc_next s) (sc_timeout s),
      mkScen (sc_name s) (sc_ifs s) (sc_files s) (firstn n live) (skipn n live) (sc_timer s) (sc_next s) (sc_timeout s)).
Definition load_sev (e : sevent * str * Z) : res sev :=
  let '(x, d, t) := e in y <- load_event x;; Ok (mkSev y d t).
(** 857-864: everything is pending again. *)
Definition scen_load (d : saved) : res scen :=
  evs <- mapr load_sev (sd_events d);;
  Ok (mkScen (sd_name d) (sd_ifs d) (sd_files d) evs [] false (sd_next d) (sd_timeout d)).

(** ** Histories: expectations added and calls made, in any order. *)
Inductive top := OExpect (e : event) (desc : str) | OCall (c : call).
Definition t_step (t : tnet) (o : top) : tnet * list (call * answer) :=
  match o with
  | OExpect e d => (mkT (scen_expect e d (t_scen t)) (t_time t), [])
  | OCall c => let '(t', a) := do_call t c in (t', [(c, a)])
  end.
Fixpoint t_hist (t : tnet) (os : list top) : tnet * list (call * answer) :=
  match os with
  | [] => (t, [])
  | o :: r => let '(t1, a) := t_step t o in let '(t2, l) := t_hist t1 r in (t2, a ++ l)
  end.
(** A series of packets sent at one output event, whatever becomes of each. *)
Fixpoint attempts (o : oev) (l : list (str * packet)) : oev * list (res mres) :=
  match l with
  | [] => (o, [])
  | (d, p) :: r => let '(o1, x) := out_match o d p in let '(o2, xs) := attempts o1 r in (o2, x :: xs)
  end.
