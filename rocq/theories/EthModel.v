(** Model of switchyard/lib/packet/ethernet.py: Vlan (11-94) and Ethernet (97-172). *)
From Verif Require Import Base EthAddrModel Enums.

(** ** Ethernet *)
Record ethernet := mkEth { eth_dst : ethaddr; eth_src : ethaddr; eth_type : Z }.

(** Ethernet.__init__ without arguments (ethernet.py:110-113). *)
Definition eth_new : ethernet := mkEth (repeat 0 6) (repeat 0 6) etIP.
(** Setters (ethernet.py:122-140). *)
Definition eth_set_src (v : etharg) (h : ethernet) : res ethernet :=
  a <- eth_init v;; Ok (mkEth (eth_dst h) a (eth_type h)).
Definition eth_set_dst (v : etharg) (h : ethernet) : res ethernet :=
  a <- eth_init v;; Ok (mkEth a (eth_src h) (eth_type h)).
Definition eth_set_type (v : Z) (h : ethernet) : res ethernet :=
  t <- enum_of EtherTypes v;; Ok (mkEth (eth_dst h) (eth_src h) t).

(** _PACKFMT = '!6s6sH' (ethernet.py:99). *)
Definition eth_fmt := [FS 6; FS 6; fH].
Definition eth_minlen : nat := 14.
(** size (ethernet.py:115-116). *)
Definition eth_size (h : ethernet) : Z := 14.

(** to_bytes (ethernet.py:142-147). *)
Definition eth_to_bytes (h : ethernet) : res bytes :=
  pack eth_fmt [VB (eth_dst h); VB (eth_src h); VI (eth_type h)].

(** from_bytes (ethernet.py:149-163); the result is the header and the unused bytes. *)
Definition eth_from_bytes (raw : bytes) : res (ethernet * bytes) :=
  if Nat.ltb (length raw) eth_minlen then Err ENotEnough
  else
    fields <- unpack eth_fmt (firstn eth_minlen raw);;
    match fields with
    | [VB dst; VB src; VI ethertype] =>
        s <- eth_init (ABytes src);;
        d <- eth_init (ABytes dst);;
        t <- (if ethertype <=? 1500 then Ok etNoType else enum_of EtherTypes ethertype);;
        Ok (mkEth d s t, skipn eth_minlen raw)
    | _ => Err EStruct
    end.

(** __eq__ on two Ethernet headers (ethernet.py:165-168). *)
Definition eth_eqb (a b : ethernet) : bool :=
  bytes_eqb (eth_src a) (eth_src b) && bytes_eqb (eth_dst a) (eth_dst b) && (eth_type a =? eth_type b).

(** ** Vlan *)
Record vlan := mkVlan { vl_id : Z; vl_pcp : Z; vl_type : Z }.

(** Vlan.__init__ without arguments (ethernet.py:38-46). *)
Definition vlan_new : vlan := mkVlan 0 0 etIP.
(** Setters (ethernet.py:52-70). *)
Definition vlan_set_id (v : Z) (h : vlan) : vlan := mkVlan (Z.land v 0x0fff) (vl_pcp h) (vl_type h).
Definition vlan_set_pcp (v : Z) (h : vlan) : vlan := mkVlan (vl_id h) (Z.max (Z.min v 3) 0) (vl_type h).
Definition vlan_set_type (v : Z) (h : vlan) : res vlan :=
  t <- enum_of EtherTypes v;; Ok (mkVlan (vl_id h) (vl_pcp h) t).

Definition vlan_fmt := [fH; fH].
Definition vlan_minlen : nat := 4.
(** size (ethernet.py:90-91). *)
Definition vlan_size (h : vlan) : Z := 4.

(** to_bytes (ethernet.py:82-84). *)
Definition vlan_to_bytes (h : vlan) : res bytes :=
  pack vlan_fmt [VI (Z.lor (Z.shiftl (vl_pcp h) 12) (vl_id h)); VI (vl_type h)].

(** from_bytes (ethernet.py:72-80). *)
Definition vlan_from_bytes (raw : bytes) : res (vlan * bytes) :=
  if Nat.ltb (length raw) vlan_minlen then Err ENotEnough
  else
    fields <- unpack vlan_fmt (firstn vlan_minlen raw);;
    match fields with
    | [VI tci; VI et] =>
        let h := vlan_set_id tci vlan_new in
        let h := vlan_set_pcp (Z.shiftr (Z.land tci 0xf000) 12) h in
        h <- vlan_set_type et h;;
        Ok (h, skipn vlan_minlen raw)
    | _ => Err EStruct
    end.

(** __eq__ on two Vlan headers (ethernet.py:86-88): the priority is not compared. *)
Definition vlan_eqb (a b : vlan) : bool := (vl_id a =? vl_id b) && (vl_type a =? vl_type b).
