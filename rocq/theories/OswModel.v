(** Model of OpenflowSwitch (ofswitch.py:262-578): the controller threads with their message handlers, and the datapath
    loop.  The packet buffer, the flow table, the actions and the connection are those of SwModel, the messages those of
    OfModel.

    What is left out: the texts written to the log, the callbacks (SwitchActionCallbacks does nothing, 580-631), socket
    errors while sending, and shutdown.  A handler runs without being interrupted by another thread. *)
From Verif Require Import Base EthAddrModel PacketModel OfModel SwModel.

(** An interface of the network: number (Interface.ifnum), Ethernet address, name. *)
Record oif := mkOif { oi_num : Z; oi_hw : ethaddr; oi_name : text }.

(** What is handed to net.send_packet: a Packet, or the plain bytes OpenflowPacketOut.packet returns. *)
Inductive payload := WPkt (p : packet) | WRaw (b : bytes).
(** What the switch does to the outside: a message written to controller connection [i]; a call of net.send_packet that
    succeeded. *)
Inductive obs := Tell (i : nat) (m : bytes) | Emit (d : send) (x : payload).

(** One controller: is the connection up (once it is tried)?  Which handler map has its thread taken (None: the thread
    has not got that far; Some true: _handler_map_10, Some false: _handler_map_13)?  Which exception ended the thread? *)
Record ctl := mkCtl { c_up : bool; c_map : option bool; c_end : option exn }.
(** The switch: _version, is _oflib openflow10, _flags, _miss_len, _xid, _buffer_manager, _tables[0],
    _controller_connections; the exception that ended datapath_loop. *)
Record osw := mkOs {
  o_ver : Z; o_lib10 : bool; o_flags : Z; o_miss : Z; o_xid : Z; o_buf : buf (Z * packet); o_tab : table;
  o_ctls : list ctl; o_dp : option exn }.

(** __init__ (266-287).  For a version other than 1 and 4 the assert has a non-empty text as its condition and passes;
    self._oflib is then missing. *)
Definition osw_new (version : Z) : res osw :=
  if version =? 1 then Ok (mkOs 1 true 0 1500 0 [] [] [] None)
  else if version =? 4 then Ok (mkOs 4 false 0 1500 0 [] [] [] None)
  else Err EAttr.

Definition set_lib (v : Z) (l : bool) (s : osw) : osw :=
  mkOs v l (o_flags s) (o_miss s) (o_xid s) (o_buf s) (o_tab s) (o_ctls s) (o_dp s).
Definition set_conf (f m : Z) (s : osw) : osw :=
  mkOs (o_ver s) (o_lib10 s) f m (o_xid s) (o_buf s) (o_tab s) (o_ctls s) (o_dp s).
(** The property xid (307-310) counts every reading. *)
Definition next_xid (s : osw) : osw :=
  mkOs (o_ver s) (o_lib10 s) (o_flags s) (o_miss s) (o_xid s + 1) (o_buf s) (o_tab s) (o_ctls s) (o_dp s).
Definition set_buf (b : buf (Z * packet)) (s : osw) : osw :=
  mkOs (o_ver s) (o_lib10 s) (o_flags s) (o_miss s) (o_xid s) b (o_tab s) (o_ctls s) (o_dp s).
Definition set_tab (t : table) (s : osw) : osw :=
  mkOs (o_ver s) (o_lib10 s) (o_flags s) (o_miss s) (o_xid s) (o_buf s) t (o_ctls s) (o_dp s).
Definition set_ctls (l : list ctl) (s : osw) : osw :=
  mkOs (o_ver s) (o_lib10 s) (o_flags s) (o_miss s) (o_xid s) (o_buf s) (o_tab s) l (o_dp s).
Definition set_dp (e : option exn) (s : osw) : osw :=
  mkOs (o_ver s) (o_lib10 s) (o_flags s) (o_miss s) (o_xid s) (o_buf s) (o_tab s) (o_ctls s) e.
Fixpoint set_nth_ctl (i : nat) (c : ctl) (l : list ctl) : list ctl :=
  match l, i with
  | [], _ => []
  | _ :: l', O => c :: l'
  | x :: l', S i' => x :: set_nth_ctl i' c l'
  end.
(** The exception a thread ends with. *)
Definition end_ctl (i : nat) (e : exn) (s : osw) : osw :=
  match nth_error (o_ctls s) i with
  | Some c => set_ctls (set_nth_ctl i (mkCtl (c_up c) (c_map c) (Some e)) (o_ctls s)) s
  | None => s
  end.

Inductive hkind :=
| HHello | HFeatures | HSetConfig | HGetConfig | HFlowMod | HBarrier | HPacketOut | HStats | HEcho | HUnknown.
(** _handler_map_10 (456-466) and _handler_map_13 (468-477), looked up by the type number (enumeration members are
    found by their number); _unknown_type_handler otherwise (504). *)
Definition handler (map10 : bool) (ty : Z) : hkind :=
  if ty =? 0 then HHello else if ty =? 5 then HFeatures else if ty =? 9 then HSetConfig
  else if ty =? 7 then HGetConfig else if ty =? 14 then HFlowMod else if ty =? 13 then HPacketOut
  else if ty =? 2 then HEcho
  else if map10
       then if ty =? 18 then HBarrier else if ty =? 16 then HStats else HUnknown
       else if ty =? 20 then HBarrier else HUnknown.

Section Switch.
Variable link : bool.                                (* can ControllerConnection.connect succeed? (SwModel.cc_connect) *)
Variable sid : bytes.                                (* switchid *)
Variable ifs : list oif.                             (* switchyard_net.ports() *)
Variable net_send : send -> payload -> option exn.   (* switchyard_net.send_packet: the exception it raises *)

Definition out : Type := osw * list obs * option exn.
(** _send_openflow_message_internal (296-299) and send_openflow_message (44-61): nothing is even serialised when there
    is no connection. *)
Definition tell (i : nat) (m : list ofph) (s : osw) : out :=
  match nth_error (o_ctls s) i with
  | Some c =>
      if c_up c then
        match of_ser m with
        | Ok r => (s, [Tell i (snd r)], None)
        | Err e => (s, [], Some e)
        end
      else (s, [], None)
  | None => (s, [], None)
  end.
(** Answering with header type [ty] and the request's xid: pkt[self._oflib.OpenflowHeader] is a KeyError when _oflib is
    openflow13, since the message was parsed with openflow10's classes (71, 89). *)
Definition answer (i : nat) (h : ofhdr) (ty : Z) (body : list ofph) (s : osw) : out :=
  if o_lib10 s then tell i (PHdr (hdr_new ty (oh_xid h) 1) :: body) s else (s, [], Some EKey).

Fixpoint number_ports (k : Z) (l : list oif) : list pport :=
  match l with
  | [] => []
  | x :: l' => pport_new k (oi_hw x) (oi_name x) :: number_ports (k + 1) l'
  end.
(** Calls of net.send_packet, up to the first that raises. *)
Fixpoint emit_all (l : list send) (x : payload) : list obs * option exn :=
  match l with
  | [] => ([], None)
  | d :: l' =>
      match net_send d x with
      | Some e => ([], Some e)
      | None => let '(o, e) := emit_all l' x in (Emit d x :: o, e)
      end
  end.
(** _process_actions (510-522). *)
Definition do_actions (acts : list ofaction) (inport : Z) (x : payload) (s : osw) : list obs * option exn :=
  let '(l, e) := process_actions (map (fun i => (oi_num i, oi_name i)) ifs) (length (o_ctls s)) inport acts in
  let '(o, e') := emit_all l x in
  (o, match e' with Some _ => e' | None => e end).

(** The handlers inside _controller_thread (322-453, 485-487), for the thread of controller [i] and the parsed message
    with header [h] and second header [b]. *)
Definition handle (i : nat) (k : hkind) (h : ofhdr) (b : option ofph) (s : osw) : out :=
  match k with
  | HHello =>                                        (* 322-339; the assignments to _handler_map are to a local *)
      if oh_ver h =? 1 then answer i h 0 [] (set_lib 1 true s)
      else if oh_ver h =? 4 then answer i h 0 [] (set_lib 4 false s)
      else (s, [], None)
  | HFeatures =>                                     (* 356-364 *)
      if o_lib10 s then
        match dpid_of sid with
        | Ok dp => answer i h 6 [PBody (BFeatures dp 0 1 [] [] (number_ports 0 ifs))] s
        | Err e => (s, [], Some e)
        end
      else (s, [], Some EKey)
  | HSetConfig =>                                    (* 366-371 *)
      match b with
      | Some (PBody (BSetConfig f l)) => (set_conf f l s, [], None)
      | _ => (s, [], Some EIndex)
      end
  | HGetConfig => answer i h 8 [PBody (BGetConfig (o_flags s) (o_miss s))] s      (* 373-379 *)
  | HFlowMod =>                                      (* 381-409: every command asks for self._table *)
      match b with Some _ => (s, [], Some EAttr) | None => (s, [], Some EIndex) end
  | HBarrier => answer i h 19 [] s                   (* 411-414 *)
  | HPacketOut =>                                    (* 416-424 *)
      match b with
      | Some (PBody (BPacketOut bu ip acts (Some d))) =>
          if negb (bu =? 0xffffffff) then
            match buf_pop (o_buf s) bu with
            | (b', Ok v) => let '(o, e) := do_actions acts ip (WPkt (snd v)) s in (set_buf b' s, o, e)
            | (_, Err e) => (s, [], Some e)
            end
          else let '(o, e) := do_actions acts ip (WRaw d) s in (s, o, e)
      | _ => (s, [], Some EIndex)
      end
  | HStats => (s, [], Some EName)                    (* 426-428: OpenflowType *)
  | HEcho => (s, [], Some (if o_lib10 s then EName else EKey))                    (* 449-453: OpenflowEchoRequest *)
  | HUnknown => answer i h 1 [PBody (BError (Some 1) (Some 1) [])] s              (* 485-487, 348-354 *)
  end.

(** _expire_table_entries (489-494).  With the names of SwModel unresolved expire_entries returns no entry: it raises
    or returns []. *)
Definition expire (now : Z) (s : osw) : osw * option exn :=
  match ft_expire false now (o_tab s) with
  | (t, Ok []) => (set_tab t s, None)
  | (t, Ok _) => (set_tab t s, Some EName)
  | (t, Err e) => (set_tab t s, Some e)
  end.

(** _send_packet_in (312-319).  With openflow13 the in_port setter (openflow13.py:3016-3018) is a NameError: _get_port is
    not among the names [from openflow10 import *] brings in. *)
Fixpoint tell_all (l : list ctl) (i : nat) (m : list ofph) (s : osw) : list obs * option exn :=
  match l with
  | [] => ([], None)
  | _ :: l' =>
      match tell i m s with
      | (_, o, Some e) => (o, Some e)
      | (_, o, None) => let '(o', e) := tell_all l' (S i) m s in (o ++ o', e)
      end
  end.
Definition packet_in (port : Z) (p : packet) (s : osw) : out :=
  let s1 := next_xid s in
  match pkt_to_bytes p with
  | Err e => (s1, [], Some e)
  | Ok (p', raw) =>
      let data := firstn (Z.to_nat (o_miss s)) raw in
      match buf_add 100 (o_buf s) (port, p') with
      | (_, None) => (s1, [], Some EExc)             (* FullBuffer *)
      | (b, Some id) =>
          let s2 := set_buf b s1 in
          if o_lib10 s then
            match get_port port with
            | Err e => (s2, [], Some e)
            | Ok ip =>
                let '(o, e) := tell_all (o_ctls s) 0 [PHdr (hdr_new 10 (o_xid s1) 1); PBody (BPacketIn id ip 0 data)] s2 in
                (s2, o, e)
            end
          else (s2, [], Some EName)
      end
  end.
(** _handle_datapath (ofswitch.py:538-562) and _datapath_action (524-536). *)
Fixpoint port_named (n : text) (l : list oif) : option oif :=
  match l with [] => None | x :: l' => if bytes_eqb n (oi_name x) then Some x else port_named n l' end.
Definition handle_datapath (dev : text) (now : Z) (p : packet) (s : osw) : out :=
  match port_named dev ifs with
  | None => (s, [], Some EKey)
  | Some i =>
      match ft_match false now (o_tab s) (Some (oi_num i)) p with
      | (t, Err e) => (set_tab t s, [], Some e)
      | (t, Ok None) => packet_in (oi_num i) p (set_tab t s)
      | (t, Ok (Some acts)) =>
          let '(o, e) := do_actions acts (oi_num i) (WPkt p) s in (set_tab t s, o, e)
      end
  end.

(** Events: add_controller (289-294; would a connection attempt reach the controller?); the thread of controller [i]
    gets as far as its loop (341-498: the default value of _send_error's xid reads the property); that thread receives a
    message, or nothing (500-504); the datapath loop receives a packet (564-573). *)
Inductive oev :=
| EAdd (reach : bool) | EStart (i : nat) | EMsg (i : nat) (now : Z) (raw : bytes) | EIdle (i : nat) (now : Z)
| EPkt (dev : text) (now : Z) (p : packet).

Definition start (i : nat) (s : osw) : osw :=
  match nth_error (o_ctls s) i with
  | Some (mkCtl up None None) =>
      let c := if o_ver s =? 1 then mkCtl up (Some true) None
               else if o_ver s =? 4 then mkCtl up (Some false) None else mkCtl up None (Some EKey) in
      set_ctls (set_nth_ctl i c (o_ctls s)) (next_xid s)
  | _ => s
  end.
(** The message as receive_openflow_message returns it (63-90), then the handler. *)
Definition parsed (m : list ofph) : option (ofhdr * option ofph) :=
  match m with PHdr h :: r => Some (h, nth_error r 0) | _ => None end.
Definition serve (i : nat) (map10 : bool) (now : Z) (raw : bytes) (s : osw) : out :=
  match of_parse raw with
  | Err e => (s, [], Some e)
  | Ok m =>
      match expire now s with
      | (s1, Some e) => (s1, [], Some e)
      | (s1, None) =>
          match parsed m with
          | Some (h, b) => handle i (handler map10 (oh_type h)) h b s1
          | None => (s1, [], None)
          end
      end
  end.
Definition end_if (i : nat) (o : out) : osw * list obs :=
  match o with
  | (s, l, None) => (s, l)
  | (s, l, Some e) => (end_ctl i e s, l)
  end.
Definition osw_step (s : osw) (ev : oev) : osw * list obs :=
  match ev with
  | EAdd reach => (set_ctls (o_ctls s ++ [mkCtl (cc_connect link reach false) None None]) s, [])
  | EStart i => (start i s, [])
  | EMsg i now raw =>
      match nth_error (o_ctls s) i with
      | Some (mkCtl true (Some m) None) => end_if i (serve i m now raw s)
      | _ => (s, [])
      end
  | EIdle i now =>
      match nth_error (o_ctls s) i with
      | Some (mkCtl _ (Some m) None) => end_if i (let '(s1, e) := expire now s in (s1, [], e))
      | _ => (s, [])
      end
  | EPkt dev now p =>
      match o_dp s with
      | None => match handle_datapath dev now p s with
                | (s1, l, None) => (s1, l)
                | (s1, l, Some e) => (set_dp (Some e) s1, l)
                end
      | Some _ => (s, [])
      end
  end.
Fixpoint osw_run (s : osw) (l : list oev) : osw * list obs :=
  match l with
  | [] => (s, [])
  | e :: l' => let '(s1, o) := osw_step s e in let '(s2, o') := osw_run s1 l' in (s2, o ++ o')
  end.
End Switch.
