(** What firewall rules mean. *)
From Verif Require Import Base Dict EthAddrModel FwModel.
(** A packet arriving on an interface. *)
Record pkt := mkPkt { pk_intf : str; pk_proto : text; pk_sport : Z; pk_dport : Z }.
Inductive sel := SAll | SNone | SProto (p : text) | SPort (p : text) (n : Z).
Definition known_proto (p : text) : Prop := p = [116; 99; 112] \/ p = [117; 100; 112] \/ p = [105; 99; 109; 112].
Definition with_ports (p : text) : Prop := p = [116; 99; 112] \/ p = [117; 100; 112].
(** A number in decimal. *)
Definition decimal (s : text) (n : Z) : Prop :=
  s <> [] /\ (forall c, In c s -> 48 <= c <= 57) /\ (hd 0 s = 48 -> List.length s = 1%nat) /\ n = fold_left (fun acc c => 10 * acc + (c - 48)) s 0.
(** The documented rule syntax: all, none, proto, proto:*, proto:port. *)
Inductive rule_means : text -> sel -> Prop :=
| MAll : rule_means [97; 108; 108] SAll
| MNone : rule_means [110; 111; 110; 101] SNone
| MProto p : known_proto p -> rule_means p (SProto p)
| MStar p : known_proto p -> rule_means (p ++ [58; 42]) (SProto p)
| MPort p s n : with_ports p -> decimal s n -> n <= 65535 -> rule_means (p ++ 58 :: s) (SPort p n).
Definition covers (s : sel) (k : pkt) : Prop :=
  match s with SAll => True | SNone => False | SProto p => pk_proto k = p | SPort p n => pk_proto k = p /\ pk_dport k = n end.
(** Linux: a packet is dropped if some rule of the raw table says so. *)
Definition raw_drops (r : rawrule) (k : pkt) : Prop :=
  match r with
  | RDrop i p d => pk_intf k = i /\ match p with Some p => pk_proto k = p | None => True end /\ match d with Some n => pk_dport k = n | None => True end
  | ROther _ => False
  end.
Definition dropped (h : host) (k : pkt) : Prop := exists r, In r (tb_raw (h_tb h)) /\ raw_drops r k.
(** macOS: "from any port N to any port N" needs both ports. *)
Definition pf_drops (r : pfrule) (k : pkt) : Prop :=
  match r with
  | PfAll i => pk_intf k = i
  | PfProto i p None => pk_intf k = i /\ pk_proto k = p
  | PfProto i p (Some s) => pk_intf k = i /\ pk_proto k = p /\ pk_sport k = value10 s /\ pk_dport k = value10 s
  end.
Definition same_host (a b : host) : Prop := h_tb a = h_tb b /\ forall i, h_arp a i = h_arp b i.
