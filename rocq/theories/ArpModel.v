(** Model of switchyard/lib/packet/arp.py: Arp (16-133). *)
From Verif Require Import Base EthAddrModel Enums.

(** An IP address is its packed form: 4 bytes (IPv4Address) or 16 bytes (IPv6Address). *)
Definition ipaddr := bytes.
(** ip_address(b) for a byte string b (Python's ipaddress module): 4 or 16 bytes, else ValueError. *)
Definition ip_of_bytes (b : bytes) : res ipaddr :=
  if Nat.eqb (length b) 4 || Nat.eqb (length b) 16 then Ok b else Err EValue.

Record arp := mkArp {
  arp_hwtype : Z; arp_prototype : Z; arp_hwlen : Z; arp_protolen : Z; arp_op : Z;
  arp_shw : ethaddr; arp_sproto : ipaddr; arp_thw : ethaddr; arp_tproto : ipaddr }.

(** Arp.__init__ without arguments (arp.py:23-33). *)
Definition arp_new : arp :=
  mkArp 1 etIP 6 4 arpRequest (repeat 0 6) (repeat 0 4) (repeat 255 6) (repeat 0 4).

(** _PACKFMT = '!HHBBH6s4s6s4s' (arp.py:20). *)
Definition arp_fmt := [fH; fH; fB; fB; fH; FS 6; FS 4; FS 6; FS 4].
Definition arp_minlen : nat := 28.
(** size (arp.py:35-36). *)
Definition arp_size (h : arp) : Z := 28.

(** to_bytes (arp.py:41-45). *)
Definition arp_to_bytes (h : arp) : res bytes :=
  pack arp_fmt [VI (arp_hwtype h); VI (arp_prototype h); VI (arp_hwlen h); VI (arp_protolen h);
                VI (arp_op h); VB (arp_shw h); VB (arp_sproto h); VB (arp_thw h); VB (arp_tproto h)].

(** from_bytes (arp.py:47-65): any exception inside the try block becomes a plain Exception. *)
Definition arp_from_bytes (raw : bytes) : res (arp * bytes) :=
  if Nat.ltb (length raw) arp_minlen then Err ENotEnough
  else
    fields <- unpack arp_fmt (firstn arp_minlen raw);;
    match fields with
    | [VI f0; VI f1; VI f2; VI f3; VI f4; VB f5; VB f6; VB f7; VB f8] =>
        let body :=
          hwt <- enum_of ArpHwTypes f0;;
          pt <- enum_of EtherTypes f1;;
          op <- enum_of ArpOperations f4;;
          shw <- eth_init (ABytes f5);;
          sp <- ip_of_bytes f6;;
          thw <- eth_init (ABytes f7);;
          tp <- ip_of_bytes f8;;
          Ok (mkArp hwt pt f2 f3 op shw sp thw tp) in
        match body with
        | Ok h => Ok (h, skipn arp_minlen raw)
        | Err _ => Err EExc
        end
    | _ => Err EStruct
    end.

(** __eq__ (arp.py:67-74): the two address length fields are not compared. *)
Definition arp_eqb (a b : arp) : bool :=
  (arp_hwtype a =? arp_hwtype b) && (arp_prototype a =? arp_prototype b) && (arp_op a =? arp_op b) &&
  bytes_eqb (arp_shw a) (arp_shw b) && bytes_eqb (arp_sproto a) (arp_sproto b) &&
  bytes_eqb (arp_thw a) (arp_thw b) && bytes_eqb (arp_tproto a) (arp_tproto b).
