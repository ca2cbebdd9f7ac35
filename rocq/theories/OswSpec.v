(** Specification of what an OpenflowSwitch does, in terms of the bytes that travel between switch and controller
    (OpenFlow 1.0) and of the calls of net.send_packet.  Nothing here refers to the switch's state. *)
From Verif Require Import Base EthAddrModel PacketModel OfModel SwModel OswModel.

(** *** Messages as bytes *)
(** Header of OpenFlow 1.0 (version 1, type, total length, transaction id) and body. *)
Definition wire (ty : Z) (xid body : bytes) : bytes := [1; ty] ++ be 2 (8 + zlen body) ++ xid ++ body.
Definition ver_of (m : bytes) : Z := nth 0 m 0.
Definition ty_of (m : bytes) : Z := nth 1 m 0.
Definition xid_of (m : bytes) : bytes := firstn 4 (skipn 4 m).
Definition body_of (m : bytes) : bytes := skipn 8 m.
(** Any message at all: at least a header. *)
Definition is_msg (m : bytes) : Prop := wfb m /\ (8 <= length m)%nat.

(** ofp_phy_port with nothing but number, address and name. *)
Definition wire_port (k : Z) (x : oif) : bytes :=
  be 2 k ++ oi_hw x ++ oi_name x ++ repeat 0 (16 - length (oi_name x)) ++ repeat 0 24.
Fixpoint wire_ports (k : Z) (l : list oif) : bytes :=
  match l with [] => [] | x :: l' => wire_port k x ++ wire_ports (k + 1) l' end.
(** ofp_switch_features: datapath id (left padded to eight bytes), no buffers, one table, no capabilities, no actions. *)
Definition wire_features (sid : bytes) (l : list oif) : bytes :=
  repeat 0 (8 - length sid) ++ sid ++ [0; 0; 0; 0] ++ [1; 0; 0; 0] ++ repeat 0 8 ++ wire_ports 0 l.
(** The network as the switch can describe it: an id of at most eight bytes, addresses of six bytes, names of at most
    sixteen bytes, few enough ports for one message. *)
Definition describable (sid : bytes) (l : list oif) : Prop :=
  (length sid <= 8)%nat /\
  (forall x, In x l -> length (oi_hw x) = 6%nat /\ (length (oi_name x) <= 16)%nat) /\
  32 + 48 * zlen l < 65536.

(** *** What a controller is told in answer to a message.  [c]: switch flags and miss_send_len in force. *)
Inductive answered (sid : bytes) (l : list oif) (c : Z * Z) (m : bytes) : list bytes -> Prop :=
| AnHello : ty_of m = 0 -> ver_of m = 1 -> answered sid l c m [wire 0 (xid_of m) []]
| AnHelloOther : ty_of m = 0 -> ver_of m <> 1 -> ver_of m <> 4 -> answered sid l c m []
| AnFeatures : ty_of m = 5 -> answered sid l c m [wire 6 (xid_of m) (wire_features sid l)]
| AnGetConfig : ty_of m = 7 -> answered sid l c m [wire 8 (xid_of m) (be 2 (fst c) ++ be 2 (snd c))]
| AnSetConfig f k rest :
    ty_of m = 9 -> body_of m = be 2 f ++ be 2 k ++ rest -> 0 <= f <= 3 -> 0 <= k < 65536 -> answered sid l c m []
| AnBarrier : ty_of m = 18 -> answered sid l c m [wire 19 (xid_of m) []]
| AnOther : ty_of m = 3 \/ ty_of m = 19 \/ 21 < ty_of m -> answered sid l c m [wire 1 (xid_of m) [0; 1; 0; 1]].

(** *** Histories *)
Fixpoint adds (l : list oev) : nat :=
  match l with [] => O | EAdd _ :: l' => S (adds l') | _ :: l' => adds l' end.
(** Controller [i] (counted from 0 in the order they were added) can be reached and its thread is running. *)
Definition running (i : nat) (l : list oev) : Prop :=
  exists a b d, l = a ++ EAdd true :: b ++ EStart i :: d /\ adds a = i.
(** Controller [i] was added, and can be reached. *)
Definition added (i : nat) (l : list oev) : Prop := exists a b, l = a ++ EAdd true :: b /\ adds a = i.
(** Messages come only from controllers that are running. *)
Definition proper (l : list oev) : Prop :=
  forall a i now m b, l = a ++ EMsg i now m :: b -> running i a /\ is_msg m.
(** The configuration in force: the last one set; fragments normal and 1500 bytes at the beginning. *)
Definition conf_after (c : Z * Z) (e : oev) : Z * Z :=
  match e with
  | EMsg _ _ m => if ty_of m =? 9 then (unbe (firstn 2 (body_of m)), unbe (firstn 2 (skipn 2 (body_of m)))) else c
  | _ => c
  end.
Definition config (l : list oev) : Z * Z := fold_left conf_after l (0, 1500).
(** No controller thread has ended with an exception. *)
Definition all_alive (s : osw) : Prop := forall c, In c (o_ctls s) -> c_end c = None.
Definition ended (i : nat) (s : osw) : Prop := exists c, nth_error (o_ctls s) i = Some c /\ c_end c <> None.
(** What controller [i] is told. *)
Definition told (i : nat) (o : list obs) : list bytes :=
  flat_map (fun x => match x with Tell j m => if Nat.eqb i j then [m] else [] | Emit _ _ => [] end) o.

(** Echo request, flow-mod, stats request, hello of OpenFlow 1.3. *)
Definition fatal (m : bytes) : Prop := ty_of m = 2 \/ ty_of m = 14 \/ ty_of m = 16 \/ (ty_of m = 0 /\ ver_of m = 4).
Definition hello10 (m : bytes) : Prop := ty_of m = 0 /\ ver_of m = 1.
(** No message so far is a hello of OpenFlow 1.0. *)
Definition no_hello10 (l : list oev) : Prop := forall i now m, In (EMsg i now m) l -> is_msg m /\ ~ hello10 m.

(** *** The datapath *)
(** The packets that came in, each with the number of its port. *)
Definition number_of (l : list oif) (dev : text) (n : Z) : Prop :=
  exists a x b, l = a ++ x :: b /\ oi_name x = dev /\ oi_num x = n /\ forall y, In y a -> oi_name y <> dev.
Definition arrivals (l : list oev) : list packet :=
  flat_map (fun e => match e with EPkt _ _ p => [p] | _ => [] end) l.
(** No message of the history is a packet-out (type 13). *)
Definition no_packet_out (l : list oev) : Prop := forall i now m, In (EMsg i now m) l -> ty_of m <> 13.
(** A packet-in message: no match, with the first bytes of the packet.  (The total_len field is the length of this
    body, not that of the packet.) *)
Definition wire_packet_in (xid : bytes) (id port : Z) (data : bytes) : bytes :=
  wire 10 xid (be 4 id ++ be 2 (10 + zlen data) ++ be 2 port ++ [0; 0] ++ data).
(** A packet-out message: buffer id, input port, output to each of the ports (max_len [ml]), data. *)
Definition wire_output (ml port : Z) : bytes := [0; 0; 0; 8] ++ be 2 port ++ be 2 ml.
Definition wire_packet_out (v : Z) (xid : bytes) (id inport ml : Z) (ports : list Z) (data : bytes) : bytes :=
  let body := be 4 id ++ be 2 inport ++ be 2 (8 * zlen ports) ++ concat (map (wire_output ml) ports) ++ data in
  [v; 13] ++ be 2 (8 + zlen body) ++ xid ++ body.
(** A physical port number. *)
Definition plain (port : Z) : Prop := 0 <= port < 0xff00.
(** The buffer id a packet-in or packet-out message names: the first four bytes of its body. *)
Definition buffer_id (m : bytes) : Z := unbe (firstn 4 (body_of m)).
