(** Model of switchyard/lib/packet/ipv6.py: IPv6 (489-607), IPv6ExtensionHeader and its subclasses (24-377).
    An IPv6Address is its 16 packed bytes. *)
From Verif Require Import Base Enums.

(** IPv6Address(b) for a byte string: 16 bytes, else AddressValueError, a ValueError (Python's ipaddress). *)
Definition v6addr_of (b : bytes) : res bytes :=
  if Nat.eqb (length b) 16 then Ok b else Err EValue.
(** SpecialIPv6Addr.UNDEFINED, address/__init__.py. *)
Definition v6undefined : bytes := repeat 0 16.

(** ** The fixed header.  [_extheaders] (506) is always the empty list. *)
Record ipv6 := mkIp6 {
  v6_tc : Z; v6_flow : Z; v6_ttl : Z; v6_nh : Z; v6_plen : Z; v6_src : bytes; v6_dst : bytes }.
(** __init__ (498-507). *)
Definition ip6_new : ipv6 := mkIp6 0 0 128 ipICMPv6 0 v6undefined v6undefined.
(** _PACKFMT = '!BBHHBB16s16s' (493). *)
Definition ip6_fmt := [fB; fB; fH; fH; fB; fB; FS 16; FS 16].
Definition ip6_minlen : nat := 40.
(** size (509-510). *)
Definition ip6_size (h : ipv6) : Z := 40.
(** pre_serialize (512-513). *)
Definition ip6_pre_serialize (rawlen : Z) (h : ipv6) : res ipv6 :=
  Ok (mkIp6 (v6_tc h) (v6_flow h) (v6_ttl h) (v6_nh h) rawlen (v6_src h) (v6_dst h)).
(** to_bytes (515-521). *)
Definition ip6_to_bytes (h : ipv6) : res bytes :=
  pack ip6_fmt
    [VI (Z.lor (Z.shiftl 6 4) (Z.shiftr (v6_tc h) 4));
     VI (Z.lor (Z.shiftl (Z.land (v6_tc h) 0x0f) 4) (Z.shiftr (Z.land (v6_flow h) 0xf0000) 16));
     VI (Z.land (v6_flow h) 0x0ffff);
     VI (v6_plen h); VI (v6_nh h); VI (v6_ttl h); VB (v6_src h); VB (v6_dst h)].
(** from_bytes (523-538) with the setters (566-604) it uses. *)
Definition ip6_from_bytes (raw : bytes) : res (ipv6 * bytes) :=
  if Nat.ltb (length raw) ip6_minlen then Err ENotEnough
  else
    fields <- unpack ip6_fmt (firstn ip6_minlen raw);;
    match fields with
    | [VI f0; VI f1; VI f2; VI f3; VI f4; VI f5; VB f6; VB f7] =>
        if negb (Z.shiftr f0 4 =? 6) then Err EValue
        else
          nh <- enum_of IPProtocols f4;;
          src <- v6addr_of f6;;
          dst <- v6addr_of f7;;
          Ok (mkIp6 (Z.lor (Z.shiftl (Z.land f0 0x0f) 4) (Z.shiftr f1 4))
                    (Z.lor (Z.shiftl (Z.land f1 0x0f) 16) f2) f5 nh f3 src dst,
              skipn ip6_minlen raw)
    | _ => Err EStruct
    end.
(** __eq__ (540-547): the payload length is not compared. *)
Definition ip6_eqb (a b : ipv6) : bool :=
  (v6_tc a =? v6_tc b) && (v6_flow a =? v6_flow b) && (v6_ttl a =? v6_ttl b) && (v6_nh a =? v6_nh b) &&
  bytes_eqb (v6_src a) (v6_src b) && bytes_eqb (v6_dst a) (v6_dst b).

(** ** Extension headers: common part (24-81).  [None] is a nextheader never assigned (30). *)
Definition ext_to_bytes (nh : option Z) (optdatalen : Z) : res bytes :=   (* 65-67 *)
  match nh with
  | None => Err EAttr
  | Some z => pack [fB; fB] [VI z; VI optdatalen]
  end.
(** from_bytes (69-78): next header, length field, remaining bytes. *)
Definition ext_from_bytes (mult : Z) (raw : bytes) : res (Z * Z * bytes) :=
  match raw with
  | b0 :: b1 :: rest =>
      nh <- enum_of IPProtocols b0;;
      if zlen raw <? b1 * mult then Err EExc else Ok (nh, b1, rest)
  | _ => Err ENotEnough
  end.

(** IPv6RouteOption (84-122). *)
Record v6route := mkV6route {
  ro_nh : option Z; ro_dlen : Z; ro_type : Z; ro_left : Z; ro_addr : bytes }.
(** __init__ (89-94): the superclass constructor sets _optdatalen back to 0 after line 93 sets it to 2. *)
Definition route_new : v6route := mkV6route None 0 2 1 v6undefined.
(** to_bytes (107-110). *)
Definition route_to_bytes (h : v6route) : res bytes :=
  common <- ext_to_bytes (ro_nh h) (ro_dlen h);;
  payload <- pack [fB; fB; fI] [VI (ro_type h); VI (ro_left h); VI 0];;
  Ok (common ++ payload ++ ro_addr h).
(** from_bytes (112-122). *)
Definition route_from_bytes (raw : bytes) : res (v6route * bytes) :=
  ' (nh, dlen, remain) <- ext_from_bytes 8 raw;;
  match remain with
  | t :: l :: _ =>
      if t =? 2 then
        addr <- v6addr_of (firstn 16 (skipn 6 remain));;
        Ok (mkV6route (Some nh) dlen t l addr, skipn 22 remain)
      else Err EValue
  | _ => Err EIndex
  end.

(** IPv6Fragment (124-177). *)
Record v6frag := mkV6frag {
  fr_nh : option Z; fr_dlen : Z; fr_id : Z; fr_off : Z; fr_mf : bool }.
Definition frag_new : v6frag := mkV6frag None 0 0 0 false.   (* 129-134 *)
(** to_bytes (163-166). *)
Definition frag_to_bytes (h : v6frag) : res bytes :=
  common <- ext_to_bytes (fr_nh h) (fr_dlen h);;
  payload <- pack [fH; fI] [VI (Z.lor (Z.shiftl (fr_off h) 3) (if fr_mf h then 1 else 0)); VI (fr_id h)];;
  Ok (common ++ payload).
(** from_bytes (168-177). *)
Definition frag_from_bytes (raw : bytes) : res (v6frag * bytes) :=
  ' (nh, dlen, remain) <- ext_from_bytes 1 raw;;
  if Nat.ltb (length remain) 6 then Err ENotEnough
  else
    fields <- unpack [fH; fI] (firstn 6 remain);;
    match fields with
    | [VI offsetfield; VI xid] =>
        Ok (mkV6frag (Some nh) dlen xid (Z.shiftr offsetfield 3) (negb (Z.land offsetfield 1 =? 0)), skipn 6 remain)
    | _ => Err EStruct
    end.

(** IPv6Option classes (179-304).  [VPadN n] holds the attribute _n (PadN(n) stores n - 2, line 205). *)
Inductive v6opt :=
| VPad1 | VPadN (n : Z) | VJumbo (len : Z) | VTunnel (limit : Z) | VAlert (value : Z) | VHome (addr : bytes).
Definition v6opt_to_bytes (o : v6opt) : res bytes :=
  match o with
  | VPad1 => Ok [0]                                                              (* 194-195 *)
  | VPadN n => b <- pack [fB; fB] [VI 1; VI n];; Ok (b ++ repeat 0 (Z.to_nat n)) (* 207-208 *)
  | VJumbo len => pack [fB; fB; fI] [VI 0xc2; VI 4; VI len]                      (* 228-229 *)
  | VTunnel lim => pack [fB; fB; fB] [VI 4; VI 1; VI lim]                        (* 249-250 *)
  | VAlert v => pack [fB; fB; fH] [VI 5; VI 2; VI v]                             (* 270-271 *)
  | VHome a => b <- pack [fB; fB] [VI 201; VI 16];; Ok (b ++ a)                  (* 291-292 *)
  end.
(** cls.from_bytes(raw=data) for the class of the type (308-315, 372-375). *)
Definition v6opt_from_bytes (xtype : Z) (data : bytes) : res v6opt :=
  if xtype =? 1 then Ok (VPadN (zlen data))                                      (* 214-218 *)
  else if xtype =? 194 then                                                      (* 235-239 *)
    if Nat.eqb (length data) 4 then
      f <- unpack [fI] data;; match f with [VI v] => Ok (VJumbo v) | _ => Err EStruct end
    else Err EAssert
  else if xtype =? 4 then                                                        (* 256-259 *)
    match data with [x] => Ok (VTunnel x) | _ => Err EAssert end
  else if xtype =? 5 then                                                        (* 277-281 *)
    if Nat.eqb (length data) 2 then
      f <- unpack [fH] data;; match f with [VI v] => Ok (VAlert v) | _ => Err EStruct end
    else Err EAssert
  else if xtype =? 201 then                                                      (* 298-301 *)
    if Nat.eqb (length data) 16 then a <- v6addr_of data;; Ok (VHome a) else Err EAssert
  else Err EValue.

(** IPv6HopOption and IPv6DestinationOption (306-378). *)
Record v6hop := mkV6hop { ho_nh : option Z; ho_dlen : Z; ho_opts : list v6opt }.
Definition hop_new : v6hop := mkV6hop None 0 [].
(** add_option (344-347). *)
Definition hop_add (o : v6opt) (h : v6hop) : v6hop := mkV6hop (ho_nh h) (ho_dlen h) (ho_opts h ++ [o]).
(** __len__ (356-357). *)
Definition hop_len (h : v6hop) : Z := zlen (ho_opts h).
Fixpoint v6opts_to_bytes (os : list v6opt) : res bytes :=
  match os with
  | [] => Ok []
  | o :: os' => b <- v6opt_to_bytes o;; bs <- v6opts_to_bytes os';; Ok (b ++ bs)
  end.
(** to_bytes (324-332).  The assignment to _optdatalen (330) is only observable through to_bytes, which
    computes it anew. *)
Definition hop_to_bytes (h : v6hop) : res bytes :=
  xopt <- v6opts_to_bytes (ho_opts h);;
  let hdrlen := zlen xopt + 2 in
  common <- ext_to_bytes (ho_nh h) (hdrlen / 8 - 1);;
  Ok (common ++ xopt).
(** _parseTLVOptions (359-375); the loop runs on fuel. *)
Fixpoint parse_tlv (fuel : nat) (raw : bytes) : res (list v6opt) :=
  match fuel with
  | O => Err EFuel
  | S fuel' =>
      match raw with
      | [] => Ok []
      | xtype :: raw1 =>
          if xtype =? 0 then os <- parse_tlv fuel' raw1;; Ok (VPad1 :: os)
          else
            match raw1 with
            | [] => Err EIndex
            | xlen :: raw2 =>
                if zlen raw <? xlen + 2 then Err ENotEnough
                else
                  let data := firstn (Z.to_nat xlen) raw2 in
                  o <- v6opt_from_bytes xtype data;;
                  os <- parse_tlv fuel' (skipn (Z.to_nat xlen) raw2);;
                  Ok (o :: os)
            end
      end
  end.
(** from_bytes (334-342). *)
Definition hop_from_bytes (raw : bytes) : res (v6hop * bytes) :=
  ' (nh, dlen, remain) <- ext_from_bytes 8 raw;;
  let optbytes := (dlen + 1) * 8 - 2 in
  let rawopt := firstn (Z.to_nat optbytes) remain in
  os <- parse_tlv (S (length rawopt)) rawopt;;
  Ok (mkV6hop (Some nh) dlen os, skipn (Z.to_nat optbytes) remain).
