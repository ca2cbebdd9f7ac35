(** Models of switchyard/lib/packet/udp.py and tcp.py. *)
From Verif Require Import Base EthAddrModel Enums ArpModel ChecksumModel Ipv4Model.

(** ** UDP (udp.py:14-92) *)
Record udp := mkUdp { udp_src : Z; udp_dst : Z; udp_len : Z; udp_csum : Z }.
(** __init__ (21-25). *)
Definition udp_new : udp := mkUdp 0 0 8 0.
Definition udp_fmt := [fH; fH; fH; fH].
(** size (27-28). *)
Definition udp_size (h : udp) : Z := 8.
(** to_bytes (30-35). *)
Definition udp_to_bytes (h : udp) : res bytes :=
  pack udp_fmt [VI (udp_src h); VI (udp_dst h); VI (udp_len h); VI (udp_csum h)].
(** from_bytes (37-47). *)
Definition udp_from_bytes (raw : bytes) : res (udp * bytes) :=
  if Nat.ltb (length raw) 8 then Err ENotEnough
  else
    fields <- unpack udp_fmt (firstn 8 raw);;
    match fields with
    | [VI a; VI b; VI c; VI d] => Ok (mkUdp a b c d, skipn 8 raw)
    | _ => Err EStruct
    end.
(** __eq__ (49-51): only the ports. *)
Definition udp_eqb (a b : udp) : bool := (udp_src a =? udp_src b) && (udp_dst a =? udp_dst b).

(** _compute_checksum_ipv4 (80-86); [len] is self._len; int(addr) is the big-endian value of the packed form. *)
Definition udp_checksum (h : udp) (len : Z) (ip4 : option ipv4) (xdata : bytes) : res Z :=
  match ip4 with
  | None => Ok 0
  | Some ip =>
      xhdr <- pack [fI; fI; FX 1; fB; fH; fH; fH; fH; fH]
                   [VI (unbe (ip_src ip)); VI (unbe (ip_dst ip)); VI (ip_proto ip); VI len;
                    VI (udp_src h); VI (udp_dst h); VI len; VI 0];;
      Ok (cksum (xhdr ++ xdata))
  end.
(** pre_serialize (88-92): [ip4] is pkt.get_header_by_name('IPv4'). *)
Definition udp_pre_serialize (raw : bytes) (ip4 : option ipv4) (h : udp) : res udp :=
  let len := udp_size h + zlen raw in
  c <- udp_checksum h len ip4 raw;;
  Ok (mkUdp (udp_src h) (udp_dst h) len c).

(** ** TCP (tcp.py:67-307).  The option list of a TCP header is always empty: TCPOptions (29-54) has no
    concrete option classes and its from_bytes ignores its argument. *)
Record tcp := mkTcp {
  tcp_src : Z; tcp_dst : Z; tcp_seq : Z; tcp_ack : Z; tcp_flags : Z; tcp_window : Z; tcp_urg : Z;
  tcp_len : Z; tcp_csum : Z }.
(** __init__ (75-84). *)
Definition tcp_new : tcp := mkTcp 0 0 0 0 0 0 0 0 0.
Definition tcp_fmt := [fH; fH; fI; fI; fH; fH; fH; fH].
(** size (86-87). *)
Definition tcp_size (h : tcp) : Z := 20.
(** offset (148-150) with no options. *)
Definition tcp_offset (h : tcp) : Z := 20 / 4 + 0 / 4.
(** _make_header (103-108). *)
Definition tcp_make_header (h : tcp) (csum : Z) : res bytes :=
  pack tcp_fmt [VI (tcp_src h); VI (tcp_dst h); VI (tcp_seq h); VI (tcp_ack h);
                VI (Z.lor (Z.shiftl (tcp_offset h) 12) (tcp_flags h)); VI (tcp_window h); VI csum; VI (tcp_urg h)].
(** to_bytes (110-115). *)
Definition tcp_to_bytes (h : tcp) : res bytes := tcp_make_header h (tcp_csum h).
(** from_bytes (117-135) on a fresh header: checksum and length stay at their initial values. *)
Definition tcp_from_bytes (raw : bytes) : res (tcp * bytes) :=
  if Nat.ltb (length raw) 20 then Err ENotEnough
  else
    fields <- unpack tcp_fmt (firstn 20 raw);;
    match fields with
    | [VI f0; VI f1; VI f2; VI f3; VI f4; VI f5; VI f6; VI f7] =>
        let offset := Z.shiftr f4 12 in
        let headerlen := offset * 4 in
        Ok (mkTcp f0 f1 f2 f3 (Z.land f4 0x01ff) f5 f7 (tcp_len tcp_new) (tcp_csum tcp_new),
            skipn (Z.to_nat headerlen) raw)
    | _ => Err EStruct
    end.
(** __eq__ (137-146). *)
Definition tcp_eqb (a b : tcp) : bool :=
  (tcp_src a =? tcp_src b) && (tcp_dst a =? tcp_dst b) && (tcp_seq a =? tcp_seq b) && (tcp_ack a =? tcp_ack b) &&
  (tcp_offset a =? tcp_offset b) && (tcp_flags a =? tcp_flags b) && (tcp_window a =? tcp_window b) &&
  (tcp_urg a =? tcp_urg b).
(** _compute_checksum_ipv4 (89-95). *)
Definition tcp_checksum (h : tcp) (len : Z) (ip4 : option ipv4) (xdata : bytes) : res Z :=
  match ip4 with
  | None => Ok 0
  | Some ip =>
      phdr <- pack [fI; fI; FX 1; fB; fH]
                   [VI (unbe (ip_src ip)); VI (unbe (ip_dst ip)); VI (ip_proto ip); VI len];;
      tcphdr <- tcp_make_header h 0;;
      Ok (cksum (phdr ++ tcphdr ++ xdata))
  end.
(** pre_serialize (97-101). *)
Definition tcp_pre_serialize (raw : bytes) (ip4 : option ipv4) (h : tcp) : res tcp :=
  let len := tcp_size h + zlen raw in
  c <- tcp_checksum h len ip4 raw;;
  Ok (mkTcp (tcp_src h) (tcp_dst h) (tcp_seq h) (tcp_ack h) (tcp_flags h) (tcp_window h) (tcp_urg h) len c).
(** _isset and _setflag (224-235); [f] is a TCPFlags value 0..8. *)
Definition tcp_isset (flags f : Z) : bool := Z.land flags (Z.shiftl 1 f) =? Z.shiftl 1 f.
Definition tcp_setflag (flags f : Z) (value : bool) : Z :=
  if value then Z.lor flags (Z.shiftl 1 f) else Z.land flags (Z.lnot (Z.shiftl 1 f)).
