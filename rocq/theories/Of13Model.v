(** Model of switchyard/lib/openflow/openflow13.py: the OpenFlow 1.3 message classes.  Line numbers
    are those of openflow13.py unless said otherwise.  The classes OpenflowMatch,
    OpenflowFlowRemoved, OpenflowFlowMod, OpenflowPortMod, OpenflowSetConfig, OpenflowError,
    OpenflowEchoRequest, the queue classes and the packet-in and packet-out classes have the text
    of their openflow10.py counterparts (but for one default value), so their records and the
    functions that call nothing private are those of [OfModel].

    Simplified: attribute values have the documented types (int, bytes); __slots__ do not restrict
    anything, OpenflowStruct having none; the statistics classes (1945-2886) have no message type
    in 1.3 and are left out; the actions of a packet-out are represented by what their to_bytes
    returns. *)
From Verif Require Import Base EthAddrModel ArpModel OfModel.

(** [from .openflow10 import *] (12) does not import names beginning with an underscore, so
    calling _make_bitmap, _unpack_bitmap or _get_port raises NameError. *)
Definition make_bitmap13 (s : list Z) : res Z := Err EName.
Definition unpack_bitmap13 (b : Z) (members : list Z) : res (list Z) := Err EName.
Definition get_port13 (v : Z) : res Z := Err EName.
(** OpenflowType (14-44), OpenflowPort.Any (56). *)
Definition Types13 : list Z :=
  [0; 1; 2; 3; 4; 5; 6; 7; 8; 9; 10; 11; 12; 13; 14; 15; 16; 17; 18; 19; 20; 21; 22; 23; 24; 25; 26; 27; 28; 29].
Definition portAny : Z := 0xffffffff.

(** OpenflowPhysicalPort (97-132). *)
Record port13 := mkP13 { p13 : pport; p13_curr : Z; p13_max : Z }.
Definition port13_fmt := [fI; FX 4; FS 6; FX 2; FS 16; fI; fI; fI; fI; fI; fI; fI; fI].
Definition port13_to (q : port13) : res bytes :=
  let p := p13 q in
  c <- make_bitmap13 (pp_config p);; s <- make_bitmap13 (pp_state p);;
  cu <- make_bitmap13 (pp_curr p);; ad <- make_bitmap13 (pp_adv p);;
  su <- make_bitmap13 (pp_supp p);; pe <- make_bitmap13 (pp_peer p);;
  pack port13_fmt [VI (pp_num p); VB (pp_hw p); VB (pp_name p); VI c; VI s; VI cu; VI ad; VI su; VI pe;
                   VI (p13_curr q); VI (p13_max q)].
(** from_bytes (134-153); _MINLEN is 64. *)
Definition port13_from (raw : bytes) : res (port13 * bytes) :=
  if Nat.ltb (length raw) 64 then Err EExc
  else
    fs <- unpack port13_fmt (firstn 64 raw);;
    match fs with
    | [VI n; VB hw; VB nm; VI c; VI s; VI cu; VI ad; VI su; VI pe; VI cs; VI ms] =>
        hw' <- eth_init (ABytes hw);;
        nm' <- decode nm;;
        c' <- unpack_bitmap13 c PortConfigs;; s' <- unpack_bitmap13 s [1; 2; 4];;
        cu' <- unpack_bitmap13 cu [];; ad' <- unpack_bitmap13 ad [];;
        su' <- unpack_bitmap13 su [];; pe' <- unpack_bitmap13 pe [];;
        Ok (mkP13 (mkPport n hw' nm' c' s' cu' ad' su' pe') cs ms, skipn 64 raw)
    | _ => Err EStruct
    end.

(** OpenflowMatch.to_bytes (416-422). *)
Definition match13_to (m : ofmatch) : res bytes :=
  w <- make_bitmap13 (m_wild m);;
  pack match_fmt [VI w; VI (m_inport m); VB (m_dlsrc m); VB (m_dldst m); VI (m_vlan m); VI (m_pcp m);
                  VI (m_dltype m); VI (m_tos m); VI (m_proto m); VB (m_nwsrc m); VB (m_nwdst m);
                  VI (m_tpsrc m); VI (m_tpdst m)].

(** Message bodies. *)
Inductive body13 :=
| XError (ty code : option Z) (data : bytes)  (* OpenflowError 1707-1757; None: still the int 0 *)
| XEcho (data : bytes)                        (* OpenflowEchoRequest, OpenflowEchoReply 1207-1237 *)
| XExp (vendor : Z) (data : bytes)            (* OpenflowExperimenter 1760-1796 *)
| XFeatures (dpid : bytes) (nbuf ntab aux : Z) (caps acts : list Z) (ports : list port13) (* 1456-1632 *)
| XConfig (flags misslen : Z)                 (* OpenflowSetConfig, OpenflowGetConfigReply 1248-1294 *)
| XPacketIn (buffer inport reason : Z) (data : bytes)                  (* OpenflowPacketIn 2972-3036 *)
| XFlowRemoved (r : flowrem)                  (* OpenflowFlowRemoved 3110-3236, holding a 1.3 match *)
| XPortStatus (reason : Z) (p : port13)       (* OpenflowPortStatus 1907-1942 *)
| XPacketOut (buffer inport : Z) (acts : list (res bytes)) (data : option bytes)
      (* OpenflowPacketOut 3039-3100; None: _packet_data was never assigned *)
| XFlowMod (f : flowmod)                      (* OpenflowFlowMod 1324-1453, holding a 1.3 match *)
| XPortMod (port : Z) (hw : ethaddr) (config mask adv : list Z)        (* OpenflowPortMod 1799-1898 *)
| XQueueReq (port : Z)                        (* OpenflowQueueGetConfigRequest 2888-2916 *)
| XQueueRep (port : Z) (queues : list ofqueue) (* OpenflowQueueGetConfigReply 2919-2963 *).

Definition join_acts (l : list (res bytes)) : res bytes := bs <- mapr (fun x => x) l;; Ok (joinb bs).
(** The to_bytes methods. *)
Definition body13_to (b : body13) : res bytes :=
  match b with
  | XError ty code d =>                                                (* 1721-1723 *)
      match ty, code with
      | Some t, Some c => h <- pack [fH; fH] [VI t; VI c];; Ok (h ++ d)
      | _, _ => Err EAttr                                              (* int has no attribute value *)
      end
  | XEcho d => Ok d                                                    (* 1227-1228 *)
  | XExp v d => h <- pack [fI] [VI v];; Ok (h ++ d)                    (* 1773-1774 *)
  | XFeatures dp nb nt aux cs acts ports =>                            (* 1476-1482, 1582-1584, 1606-1608 *)
      c <- make_bitmap13 cs;; a <- make_bitmap13 acts;;
      h <- pack [FS 8; fI; fB; fB; FX 2; fI; fI] [VB dp; VI nb; VI nt; VI aux; VI c; VI a];;
      ps <- mapr port13_to ports;;
      Ok (h ++ joinb ps)
  | XConfig f l => pack [fH; fH] [VI f; VI l]                          (* 1258-1259 *)
  | XPacketIn bu ip re d =>                                            (* 2987-2991 *)
      h <- pack packetin_fmt [VI bu; VI (zlen d + 10); VI ip; VI re];; Ok (h ++ d)
  | XFlowRemoved r =>                                                  (* 3133-3137 *)
      m <- match13_to (fr_match r);;
      h <- pack flowrem_fmt [VI (fr_cookie r); VI (fr_prio r); VI (fr_reason r); VI (fr_sec r); VI (fr_nsec r);
                             VI (fr_idle r); VI (fr_pkts r); VI (fr_bytes r)];;
      Ok (m ++ h)
  | XPortStatus re p =>                                                (* 1920-1922 *)
      h <- pack [fB; FX 7] [VI re];; x <- port13_to p;; Ok (h ++ x)
  | XPacketOut bu ip acts d =>                                         (* 3085-3088 *)
      a <- join_acts acts;;
      h <- pack packetout_fmt [VI bu; VI ip; VI (zlen a)];;
      match d with Some d' => Ok (h ++ a ++ d') | None => Err EAttr end
  | XFlowMod f =>                                                      (* 1351-1356 *)
      m <- match13_to (fm_match f);;
      fl <- make_bitmap13 (fm_flags f);;
      h <- pack flowmod_fmt [VI (fm_cookie f); VI (fm_command f); VI (fm_idle f); VI (fm_hard f); VI (fm_prio f);
                             VI (fm_buffer f); VI (fm_outport f); VI fl];;
      a <- actions_to (fm_actions f);;
      Ok (m ++ h ++ a)
  | XPortMod p hw c m ad =>                                            (* 1815-1817 *)
      c' <- make_bitmap13 c;; m' <- make_bitmap13 m;; ad' <- make_bitmap13 ad;;
      pack portmod_fmt [VI p; VB hw; VI c'; VI m'; VI ad']
  | XQueueReq p => pack [fH; FX 2] [VI p]                              (* 2908-2910 *)
  | XQueueRep p qs =>                                                  (* 2945-2948 *)
      h <- pack [fH; FX 6] [VI p];; l <- mapr queue_to qs;; Ok (h ++ joinb l)
  end.

(** OpenflowHeader (3239-3370): the type is whatever the constructor was given (3274-3282), an
    OpenflowType member or a plain int. *)
Inductive type13 := TEnum (t : Z) | TInt (t : Z).
Record hdr13 := mkH13 { h_ver : Z; h_type : type13; h_len : Z; h_xid : Z }.
Definition hdr13_new (ty : type13) (xid ver : Z) : hdr13 := mkH13 ver ty 8 xid.
(** to_bytes (3340-3342): an int has no attribute [value]. *)
Definition hdr13_to (h : hdr13) : res bytes :=
  match h_type h with
  | TEnum t => pack hdr_fmt [VI (h_ver h); VI t; VI (h_len h); VI (h_xid h)]
  | TInt _ => Err EAttr
  end.
Definition type_val (t : type13) : Z := match t with TEnum v | TInt v => v end.

(** Fresh bodies, the map from types to classes (3249-3272) and build (3284-3292) without extra
    arguments.  An int finds the class of the equal enum member. *)
Definition p13_new : port13 := mkP13 (pport_new 0 (repeat 0 6) []) 0 0.
Definition body13_new (t : Z) : option body13 :=
  if t =? 1 then Some (XError None None [])
  else if t =? 2 then Some (XEcho [])
  else if t =? 3 then Some (XEcho [])
  else if t =? 4 then Some (XExp 0 [])
  else if t =? 6 then Some (XFeatures (repeat 0 8) 0 1 0 [] [] [])
  else if t =? 8 then Some (XConfig 0 1500)
  else if t =? 9 then Some (XConfig 0 1500)
  else if t =? 10 then Some (XPacketIn 0xffffffff portAny 0xff [])
  else if t =? 11 then Some (XFlowRemoved (mkFr match_new 0 0 0xff 0 0 0 0 0))
  else if t =? 12 then Some (XPortStatus 2 p13_new)
  else if t =? 13 then Some (XPacketOut 0xffffffff portAny [] None)
  else if t =? 14 then Some (XFlowMod (flowmod_new match_new))
  else if t =? 16 then Some (XPortMod 0 (repeat 0 6) [] [] [])
  else if t =? 22 then Some (XQueueReq 0)
  else if t =? 23 then Some (XQueueRep 0 [])
  else None.
Definition build13 (ty : type13) (xid ver : Z) : hdr13 * option body13 :=
  (hdr13_new ty xid ver, body13_new (type_val ty)).

(** Packet.to_bytes (packet.py:29-40): the body first, then pre_serialize (3359-3363), then the
    header. *)
Definition ser13 (m : hdr13 * option body13) : res bytes :=
  raw <- match snd m with Some b => body13_to b | None => Ok [] end;;
  let h := fst m in
  x <- hdr13_to (mkH13 (h_ver h) (h_type h) (zlen raw + 8) (h_xid h));;
  Ok (x ++ raw).

(** Attribute assignments; those of a name the class does not use create an unrelated attribute.
    For the five classes whose to_bytes never succeeds all attributes are replaced at once. *)
Inductive attr13 :=
| AErrType (v : Z) | AErrCode (v : Z) | AData (d : bytes) | AVend (v : Z) | AFlags (v : Z) | AMiss (v : Z)
| ABuffer (v : Z) | AInPort (v : Z) | AReason (v : Z) | APacket (d : bytes) | AAction (a : res bytes)
| APort (v : Z) | AQueue (q : ofqueue)
| AFlowMod (f : flowmod) | AFlowRem (r : flowrem) | APortMod (p : Z) (hw : ethaddr) (c m a : list Z)
| APortStat (re : Z) (p : port13) | AFeat (dp : bytes) (nb nt aux : Z) (cs acts : list Z) (ports : list port13).
Definition setr {A} (r : res A) (k : A -> body13) (b : body13) : body13 * option exn :=
  match r with Ok a => (k a, None) | Err e => (b, Some e) end.
Definition set13 (b : body13) (a : attr13) : body13 * option exn :=
  match b, a with
  | XError ty code d, AErrType v => setr (enum_of ErrorTypes v) (fun t => XError (Some t) code d) b   (* 1736-1739 *)
  | XError ty code d, AErrCode v =>                                    (* 1745-1749; the int 0 finds HelloFailed *)
      setr (enum_of (error_codes (match ty with Some t => t | None => 0 end)) v) (fun c => XError ty (Some c) d) b
  | XError ty code _, AData d => (XError ty code d, None)              (* 1755-1757 *)
  | XEcho _, AData d => (XEcho d, None)                                (* 1221-1225 *)
  | XExp v _, AData d => (XExp v d, None)                              (* 1794-1796 *)
  | XExp _ d, AVend v => (XExp v d, None)                              (* 1786-1788 *)
  | XConfig _ m, AFlags v => setr (enum_of ConfigFlags v) (fun f => XConfig f m) b   (* 1275-1277 *)
  | XConfig f _, AMiss v => (XConfig f v, None)                        (* 1283-1285 *)
  | XPacketIn _ ip re d, ABuffer v => (XPacketIn v ip re d, None)      (* 3008-3010 *)
  | XPacketIn bu ip re d, AInPort v => setr (get_port13 v) (fun p => XPacketIn bu p re d) b   (* 3016-3018 *)
  | XPacketIn bu ip _ d, AReason v => setr (enum_of PacketInReasons v) (fun r => XPacketIn bu ip r d) b  (* 3024-3026 *)
  | XPacketIn bu ip re _, APacket d => (XPacketIn bu ip re d, None)    (* 3032-3036 *)
  | XPacketOut _ ip acts d, ABuffer v => (XPacketOut v ip acts d, None)       (* 3055-3057 *)
  | XPacketOut bu ip acts d, AInPort v => setr (get_port13 v) (fun p => XPacketOut bu p acts d) b   (* 3063-3065 *)
  | XPacketOut bu ip acts d, AAction x => (XPacketOut bu ip (acts ++ [x]) d, None)   (* 3067-3069 *)
  | XPacketOut bu ip acts _, APacket d => (XPacketOut bu ip acts (Some d), None)     (* 3075-3079 *)
  | XQueueReq _, APort v => setr (get_port13 v) XQueueReq b            (* 2901-2903 *)
  | XQueueRep _ qs, APort v => setr (get_port13 v) (fun p => XQueueRep p qs) b   (* 2937-2939 *)
  | XQueueRep p qs, AQueue q => (XQueueRep p (qs ++ [q]), None)        (* 2929-2931 *)
  | XFlowMod _, AFlowMod f => (XFlowMod f, None)
  | XFlowRemoved _, AFlowRem r => (XFlowRemoved r, None)
  | XPortMod _ _ _ _ _, APortMod p hw c m ad => (XPortMod p hw c m ad, None)
  | XPortStatus _ _, APortStat re p => (XPortStatus re p, None)
  | XFeatures _ _ _ _ _ _ _, AFeat dp nb nt aux cs acts ports => (XFeatures dp nb nt aux cs acts ports, None)
  | _, _ => (b, None)
  end.
(** A program that catches what the assignments raise. *)
Fixpoint edit13 (b : body13) (l : list attr13) : body13 :=
  match l with [] => b | a :: r => edit13 (fst (set13 b a)) r end.

(** from_bytes of the header (3322-3338): OpenflowType.StatsRequest is no member, so evaluating the
    condition in line 3334 raises AttributeError; the type setter is 3310-3312. *)
Definition hdr13_from (raw : bytes) : res (hdr13 * bytes) :=
  if Nat.ltb (length raw) 8 then Err EExc
  else
    fs <- unpack hdr_fmt (firstn 8 raw);;
    match fs with
    | [VI v; VI t; VI l; VI x] => _ <- enum_of Types13 t;; Err EAttr
    | _ => Err EStruct
    end.
(** Packet._parse with this header first (packet.py:42-60). *)
Definition parse13 (raw : bytes) : res (hdr13 * option body13) :=
  hr <- hdr13_from raw;; Err EAttr.  (* next_header_class (3347-3357) evaluates the same names *)

(** from_bytes of the bodies; [b] is the object it is called on. *)
Definition body13_from (b : body13) (raw : bytes) : res body13 :=
  match b with
  | XError _ _ _ =>                                                    (* 1725-1730 *)
      fs <- unpack [fH; fH] (firstn 4 raw);;
      match fs with
      | [VI t; VI c] =>
          t' <- enum_of ErrorTypes t;;
          c' <- enum_of (error_codes t') c;;
          Ok (XError (Some t') (Some c') (skipn 4 raw))
      | _ => Err EStruct
      end
  | XEcho _ => Ok (XEcho raw)                                          (* 1230-1231 *)
  | XExp _ _ =>                                                        (* 1776-1780 *)
      fs <- unpack [fI] (firstn 4 raw);;
      match fs with [VI v] => Ok (XExp v (skipn 4 raw)) | _ => Err EStruct end
  | XConfig _ _ =>                                                     (* 1261-1269 *)
      if Nat.ltb (length raw) 4 then Err EExc
      else
        fs <- unpack [fH; fH] (firstn 4 raw);;
        match fs with
        | [VI f; VI l] => f' <- enum_of ConfigFlags f;; Ok (XConfig f' l)
        | _ => Err EStruct
        end
  | XFeatures _ _ _ _ _ _ ps =>                                        (* 1484-1502 *)
      if Nat.ltb (length raw) 24 then Err EExc
      else
        fs <- unpack [FS 8; fI; fB; fB; FX 2; fI; fI] (firstn 24 raw);;
        match fs with
        | [VB dp; VI nb; VI nt; VI aux; VI cs; VI ac] =>
            dp' <- dpid_of dp;; nb' <- nbuf_of nb;; nt' <- ntab_of nt;;
            cs' <- unpack_bitmap13 cs [];; ac' <- unpack_bitmap13 ac ActionTypes;;
            Ok (XFeatures dp' nb' nt' aux cs' ac' ps)      (* the loop over the ports is never reached *)
        | _ => Err EStruct
        end
  | XPacketIn _ _ _ _ =>                                               (* 2993-3002 *)
      if Nat.ltb (length raw) 10 then Err EExc
      else
        fs <- unpack packetin_fmt (firstn 10 raw);;
        match fs with
        | [VI bu; VI _; VI ip; VI re] =>
            ip' <- get_port13 ip;; re' <- enum_of PacketInReasons re;;
            Ok (XPacketIn bu ip' re' (skipn 10 raw))
        | _ => Err EStruct
        end
  | XFlowRemoved _ => r <- flowrem_from raw;; Ok (XFlowRemoved r)      (* 3139-3153 *)
  | XPortStatus _ _ =>                                                 (* 1924-1930 *)
      if Nat.ltb (length raw) 72 then Err EExc
      else
        fs <- unpack [fB; FX 7] (firstn 8 raw);;
        match fs with
        | [VI re] => re' <- enum_of PortReasons re;; p <- port13_from (skipn 8 raw);; Ok (XPortStatus re' (fst p))
        | _ => Err EStruct
        end
  | XPacketOut _ _ _ _ =>                                              (* 3090-3100 *)
      if Nat.ltb (length raw) 8 then Err EExc
      else
        fs <- unpack packetout_fmt (firstn 8 raw);;
        match fs with
        | [VI bu; VI ip; VI al] => ip' <- get_port13 ip;; Ok (XPacketOut bu ip' [] None)  (* the rest is never reached *)
        | _ => Err EStruct
        end
  | XFlowMod _ =>                                                      (* 1358-1373 *)
      if Nat.ltb (length raw) 64 then Err EExc
      else
        m <- match_from (firstn 40 raw);;
        fs <- unpack flowmod_fmt (firstn 24 (skipn 40 raw));;
        match fs with
        | [VI ck; VI cmd; VI idl; VI hrd; VI pr; VI bu; VI op; VI fl] =>
            cmd' <- enum_of FlowModCommands cmd;;
            fl' <- unpack_bitmap13 fl FlowModFlagss;;
            Ok (XFlowMod (mkFm m ck cmd' idl hrd pr bu op fl' []))     (* the actions are never reached *)
        | _ => Err EStruct
        end
  | XPortMod _ _ _ _ _ =>                                              (* 1819-1827 *)
      if Nat.ltb (length raw) 24 then Err EExc
      else
        fs <- unpack portmod_fmt raw;;
        match fs with
        | [VI p; VB hw; VI c; VI m; VI ad] =>
            hw' <- eth_init (ABytes hw);;
            c' <- unpack_bitmap13 c PortConfigs;; m' <- unpack_bitmap13 m PortConfigs;; ad' <- unpack_bitmap13 ad [];;
            Ok (XPortMod p hw' c' m' ad')
        | _ => Err EStruct
        end
  | XQueueReq _ =>                                                     (* 2912-2916 *)
      if Nat.ltb (length raw) 4 then Err EExc
      else
        fs <- unpack [fH; FX 2] raw;;
        match fs with [VI p] => p' <- get_port13 p;; Ok (XQueueReq p') | _ => Err EStruct end
  | XQueueRep _ _ =>                                                   (* 2950-2963 *)
      if Nat.ltb (length raw) 8 then Err EExc
      else
        fs <- unpack [fH; FX 6] (firstn 8 raw);;
        match fs with
        | [VI p] =>
            p' <- get_port13 p;; qs <- queues_from (S (length raw)) (skipn 8 raw);; Ok (XQueueRep p' qs)
        | _ => Err EStruct
        end
  end.
