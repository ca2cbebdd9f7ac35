(** Models of switchyard/lib/packet/icmp.py and icmpv6.py. *)
From Verif Require Import Base EthAddrModel Enums ArpModel ChecksumModel Ipv4Model Ipv6Model.

(** ** ICMPv6 neighbour-discovery options (icmpv6.py:92-335) *)
Inductive ndopt :=
| NSource (a : ethaddr)                                                   (* 151-153 *)
| NTarget (a : ethaddr)                                                   (* 146-148 *)
| NPrefix (l a : Z) (valid preferred : Z) (plen : Z) (addr : bytes)       (* 156-247; IPv6Network = length and address *)
| NMtu (mtu : Z)                                                          (* 250-280 *)
| NRedirected (header : bytes).                                           (* 283-324, the stored (padded) header *)
(** Constructors with an address: the argument of the target option is not passed on (148). *)
Definition nsource_new (arg : etharg) : res ndopt := a <- eth_init arg;; Ok (NSource a).
Definition ntarget_new (arg : etharg) : res ndopt := a <- eth_init ANone;; Ok (NTarget a).
(** header.setter (315-320): [2 % 8] binds tighter than [+]. *)
Definition pad_header (value : bytes) : bytes :=
  value ++ repeat 0 (Z.to_nat (8 - (zlen value + 2 mod 8))).
Definition nredirected_new (header : bytes) : ndopt := NRedirected (pad_header header).   (* 288-293 *)
(** A network address has no bits set after the prefix (Python's ipaddress.IPv6Network). *)
Definition v6net_ok (plen : Z) (addr : bytes) : bool :=
  (0 <=? plen) && (plen <=? 128) && (unbe addr mod 2 ^ (128 - plen) =? 0).
Definition nd_to_bytes (o : ndopt) : res bytes :=
  match o with
  | NSource a => tl <- pack [fB; fB] [VI 1; VI 1];; Ok (tl ++ a)         (* 121-123 *)
  | NTarget a => tl <- pack [fB; fB] [VI 2; VI 1];; Ok (tl ++ a)
  | NPrefix l a valid pref plen addr =>                                   (* 171-175 *)
      let flags := Z.land (Z.lor (Z.shiftl l 7) (Z.shiftl a 6)) 0xff in
      pack [fB; fB; fB; fB; fI; fI; FX 4; FS 16] [VI 3; VI 4; VI plen; VI flags; VI valid; VI pref; VB addr]
  | NMtu mtu => pack [fB; fB; FX 2; fI] [VI 5; VI 1; VI mtu]              (* 259-260 *)
  | NRedirected h =>                                                      (* 295-298; ceil(x/8) = (x+7)//8 *)
      rv <- pack [fB; fB] [VI 4; VI ((zlen h + 2 + 7) / 8)];; Ok (rv ++ h)
  end.
(** obj = ICMPv6OptionClasses[optnum](); obj.from_bytes(optdata) (364-365). *)
Definition nd_from_bytes (optnum : Z) (raw : bytes) : res ndopt :=
  if (optnum =? 1) || (optnum =? 2) then                                  (* 125-132; line 127 itself raises NameError *)
    if Nat.ltb (length raw) 8 then Err EName
    else
      fields <- unpack [fB; fB; FS 6] raw;;
      match fields with
      | [VI f0; VI f1; VB f2] =>
          if negb (f0 =? optnum) then Err EAssert
          else if negb (f1 =? 1) then Err EAssert
          else a <- eth_init (ABytes f2);; Ok (if optnum =? 1 then NSource a else NTarget a)
      | _ => Err EStruct
      end
  else if optnum =? 3 then                                                (* 178-191 *)
    if Nat.ltb (length raw) 32 then Err ENotEnough
    else
      fields <- unpack [fB; fB; fB; fB; fI; fI; FX 4; FS 16] raw;;
      match fields with
      | [VI f0; VI f1; VI pfxlen; VI flags; VI f4; VI f5; VB f6] =>
          if negb (f0 =? 3) then Err EAssert
          else if negb (f1 =? 4) then Err EAssert
          else
            addr <- v6addr_of f6;;
            if v6net_ok pfxlen addr
            then Ok (NPrefix (Z.land (Z.shiftr flags 7) 1) (Z.land (Z.shiftr flags 6) 1) f4 f5 pfxlen addr)
            else Err EValue
      | _ => Err EStruct
      end
  else if optnum =? 4 then                                                (* 300-309; line 302 itself raises AttributeError *)
    if Nat.ltb (length raw) 2 then Err EAttr
    else
      tl <- unpack [fB; fB] (firstn 2 raw);;
      match tl with
      | [VI f0; VI f1] =>
          if negb (f0 =? 4) then Err EAssert
          else
            let bytelen := f1 * 8 in
            if zlen raw <? bytelen then Err ENotEnough
            else Ok (NRedirected (pad_header (skipn 2 (firstn (Z.to_nat bytelen) raw))))
      | _ => Err EStruct
      end
  else                                                                    (* 262-269 *)
    if Nat.ltb (length raw) 8 then Err ENotEnough
    else
      fields <- unpack [fB; fB; FX 2; fI] raw;;
      match fields with
      | [VI f0; VI f1; VI f2] =>
          if negb (f0 =? 5) then Err EAssert
          else if negb (f1 =? 1) then Err EAssert
          else Ok (NMtu f2)
      | _ => Err EStruct
      end.
(** ICMPv6OptionList.from_bytes (346-367), on fuel. *)
Fixpoint ndopts_from_bytes (fuel : nat) (raw : bytes) : res (list ndopt) :=
  match fuel with
  | O => Err EFuel
  | S fuel' =>
      if Nat.ltb (length raw) 8 then Ok []
      else
        match raw with
        | opttype :: optlen :: _ =>
            let olen := Z.to_nat (optlen * 8) in
            let optdata := firstn olen raw in
            let raw' := skipn olen raw in
            if negb (zmem opttype ICMPv6OptionNumbers) then ndopts_from_bytes fuel' raw'
            else
              o <- nd_from_bytes opttype optdata;;
              os <- ndopts_from_bytes fuel' raw';;
              Ok (o :: os)
        | _ => Err EIndex
        end
  end.
Definition ndopts_parse (raw : bytes) : res (list ndopt) := ndopts_from_bytes (S (length raw)) raw.
(** ICMPv6OptionList.to_bytes (369-374). *)
Fixpoint ndopts_to_bytes (os : list ndopt) : res bytes :=
  match os with
  | [] => Ok []
  | o :: os' => b <- nd_to_bytes o;; bs <- ndopts_to_bytes os';; Ok (b ++ bs)
  end.

(** ** Message data objects.  [K4 t] is class ICMP<name of type t>, [K6 t] is ICMPv6<name of t>, [KBase] is ICMPData,
    [KBase6] is ICMPv6Data. *)
Inductive icls := K4 (t : Z) | K6 (t : Z) | KBase | KBase6.
(** [DPlain c data]: classes without fields of their own (icmp.py:149-186, 425-444; icmpv6.py:439-456, 471-484).
    The base-class attribute _rawpayload of the address-mask and neighbour-discovery classes is only kept for
    the former (it is not serialised by either). *)
Inductive icmpdata :=
| DPlain (c : icls) (data : bytes)
| DQuench (data : bytes)                                    (* icmp.py:189-204 *)
| DRedirect (addr : bytes) (data : bytes)                   (* icmp.py:206-231 *)
| DUnreach (v6 : bool) (odl mtu : Z) (data : bytes)         (* icmp.py:234-269; icmpv6.py:467 *)
| DEcho (v6 reply : bool) (ident seq : Z) (data : bytes)    (* icmp.py:272-330; icmpv6.py:459-464 *)
| DTimeEx (odl : Z) (data : bytes)                          (* icmp.py:332-359; _nexthopmtu is never read *)
| DMask (reply : bool) (ident seq : Z) (mask data : bytes)  (* icmp.py:361-423 *)
| DRS (opts : list ndopt)                                   (* icmpv6.py:487-511 *)
| DRA (hoplimit : Z) (m o h p : bool) (lifetime reachable retrans : Z) (opts : list ndopt)  (* 514-632 *)
| DNS (target : bytes) (opts : list ndopt)                  (* 635-672 *)
| DNA (r s o : bool) (target : bytes) (opts : list ndopt)   (* 675-767 *)
| DRedir6 (target dest : bytes) (opts : list ndopt).        (* 770-820 *)

Definition data_class (d : icmpdata) : icls :=
  match d with
  | DPlain c _ => c
  | DQuench _ => K4 4
  | DRedirect _ _ => K4 5
  | DUnreach v6 _ _ _ => if v6 then K6 1 else K4 3
  | DEcho v6 reply _ _ _ => if v6 then K6 (if reply then 129 else 128) else K4 (if reply then 0 else 8)
  | DTimeEx _ _ => K4 11
  | DMask reply _ _ _ _ => K4 (if reply then 18 else 17)
  | DRS _ => K6 133
  | DRA _ _ _ _ _ _ _ _ _ => K6 134
  | DNS _ _ => K6 135
  | DNA _ _ _ _ _ => K6 136
  | DRedir6 _ _ _ => K6 137
  end.

Definition b2z (b : bool) : Z := if b then 1 else 0.
Definition ra_flags (m o h p : bool) : Z :=   (* icmpv6.py:529 *)
  Z.land (Z.lor (Z.lor (Z.lor (Z.shiftl (b2z m) 7) (Z.shiftl (b2z o) 6)) (Z.shiftl (b2z h) 5)) (Z.shiftl (b2z p) 4)) 0xff.
Definition rso_byte (r s o : bool) : Z :=     (* icmpv6.py:708-712 *)
  Z.lor (Z.lor (Z.shiftl (b2z r) 7) (Z.shiftl (b2z s) 6)) (Z.shiftl (b2z o) 5).

(** The to_bytes methods of the data classes. *)
Definition data_to_bytes (d : icmpdata) : res bytes :=
  match d with
  | DPlain _ data => Ok data                                                              (* icmp.py:165-166 *)
  | DQuench data => Ok (repeat 0 4 ++ data)                                               (* 198-199 *)
  | DRedirect addr data => Ok (addr ++ data)                                              (* 212-213 *)
  | DUnreach _ odl mtu data => b <- pack [FX 1; fB; fH] [VI odl; VI mtu];; Ok (b ++ data) (* 241-242 *)
  | DEcho _ _ ident seq data => b <- pack [fH; fH] [VI ident; VI seq];; Ok (b ++ data)    (* 301-303 *)
  | DTimeEx odl data => b <- pack [FX 1; fB; fH] [VI odl; VI 0];; Ok (b ++ data)          (* 338-339 *)
  | DMask _ ident seq mask _ => b <- pack [fH; fH] [VI ident; VI seq];; Ok (b ++ mask)    (* 381-383 *)
  | DRS opts => os <- ndopts_to_bytes opts;; Ok (repeat 0 4 ++ os)                        (* icmpv6.py:494-496 *)
  | DRA hl m o h p lt re rt opts =>                                                       (* 528-536 *)
      b <- pack [fB; fB; fH; fI; fI] [VI hl; VI (ra_flags m o h p); VI lt; VI re; VI rt];;
      os <- ndopts_to_bytes opts;; Ok (b ++ os)
  | DNS target opts =>                                                                    (* 644-648 *)
      b <- pack [FX 4; FS 16] [VB target];; os <- ndopts_to_bytes opts;; Ok (b ++ os)
  | DNA r s o target opts =>                                                              (* 686-691 *)
      b <- pack [fB; FX 3; FS 16] [VI (rso_byte r s o); VB target];; os <- ndopts_to_bytes opts;; Ok (b ++ os)
  | DRedir6 target dest opts =>                                                           (* 779-783 *)
      b <- pack [FX 4; FS 16; FS 16] [VB target; VB dest];; os <- ndopts_to_bytes opts;; Ok (b ++ os)
  end.

(** cls() for the class of a type. *)
Definition data_new (c : icls) : icmpdata :=
  match c with
  | K4 t =>
      if t =? 4 then DQuench []
      else if t =? 5 then DRedirect (repeat 0 4) []
      else if t =? 3 then DUnreach false 0 0 []
      else if t =? 8 then DEcho false false 0 0 []
      else if t =? 0 then DEcho false true 0 0 []
      else if t =? 11 then DTimeEx 0 []
      else if t =? 17 then DMask false 0 0 (repeat 0 4) []
      else if t =? 18 then DMask true 0 0 (repeat 0 4) []
      else DPlain c []
  | K6 t =>
      if t =? 1 then DUnreach true 0 0 []
      else if t =? 128 then DEcho true false 0 0 []
      else if t =? 129 then DEcho true true 0 0 []
      else if t =? 133 then DRS []
      else if t =? 134 then DRA 64 false false false false 1800 0 0 []
      else if t =? 135 then DNS v6undefined []
      else if t =? 136 then DNA false false false v6undefined []
      else if t =? 137 then DRedir6 v6undefined v6undefined []
      else DPlain c []
  | _ => DPlain c []
  end.

(** obj = cls(); obj.from_bytes(raw). *)
Definition data_from_bytes (c : icls) (raw : bytes) : res icmpdata :=
  match data_new c with
  | DPlain c _ => Ok (DPlain c raw)                                       (* icmp.py:168-169 *)
  | DQuench _ => if Nat.ltb (length raw) 4 then Err ENotEnough else Ok (DQuench (skipn 4 raw))   (* 201-204 *)
  | DRedirect _ _ =>                                                      (* 215-220 *)
      if Nat.ltb (length raw) 4 then Err ENotEnough
      else Ok (DRedirect (firstn 4 raw) (skipn 4 raw))
  | DUnreach v6 _ _ _ =>                                                  (* 244-250 *)
      if Nat.ltb (length raw) 4 then Err ENotEnough
      else
        fields <- unpack [FX 1; fB; fH] (firstn 4 raw);;
        match fields with [VI a; VI b] => Ok (DUnreach v6 a b (skipn 4 raw)) | _ => Err EStruct end
  | DEcho v6 reply _ _ _ =>                                               (* 291-299: line 293 raises IndexError *)
      if Nat.ltb (length raw) 4 then Err EIndex
      else
        fields <- unpack [fH; fH] (firstn 4 raw);;
        match fields with [VI a; VI b] => Ok (DEcho v6 reply a b (skipn 4 raw)) | _ => Err EStruct end
  | DTimeEx _ _ =>                                                        (* 342-348 *)
      if Nat.ltb (length raw) 4 then Err ENotEnough
      else
        fields <- unpack [FX 1; fB; fH] (firstn 4 raw);;
        match fields with [VI a; VI _] => Ok (DTimeEx a (skipn 4 raw)) | _ => Err EStruct end
  | DMask reply _ _ _ _ =>                                                (* 385-392 *)
      if Nat.ltb (length raw) 4 then Err ENotEnough
      else
        fields <- unpack [fH; fH] (firstn 4 raw);;
        match fields with
        | [VI a; VI b] =>
            let m := firstn 4 (skipn 4 raw) in
            if Nat.eqb (length m) 4 then Ok (DMask reply a b m []) else Err EValue
        | _ => Err EStruct
        end
  | DRS _ =>                                                              (* icmpv6.py:498-505 *)
      if Nat.ltb (length raw) 4 then Err ENotEnough
      else opts <- ndopts_parse (skipn 4 raw);; Ok (DRS opts)
  | DRA _ _ _ _ _ _ _ _ _ =>                                              (* 538-554 *)
      if Nat.ltb (length raw) 12 then Err ENotEnough
      else
        fields <- unpack [fB; fB; fH; fI; fI] (firstn 12 raw);;
        match fields with
        | [VI hl; VI flags; VI lt; VI re; VI rt] =>
            let bit mask sh := negb (Z.land (Z.shiftr (Z.land flags mask) sh) 1 =? 0) in
            opts <- ndopts_parse (skipn 12 raw);;
            Ok (DRA hl (bit 8 7) (bit 4 6) (bit 2 5) (bit 1 4) lt re rt opts)
        | _ => Err EStruct
        end
  | DNS _ _ =>                                                            (* 650-658 *)
      if Nat.ltb (length raw) 20 then Err ENotEnough
      else
        fields <- unpack [FX 4; FS 16] (firstn 20 raw);;
        match fields with
        | [VB t] => target <- v6addr_of t;; opts <- ndopts_parse (skipn 20 raw);; Ok (DNS target opts)
        | _ => Err EStruct
        end
  | DNA _ _ _ _ _ =>                                                      (* 693-706 *)
      if Nat.ltb (length raw) 20 then Err ENotEnough
      else
        fields <- unpack [fB; FX 3; FS 16] (firstn 20 raw);;
        match fields with
        | [VI rso; VB t] =>
            target <- v6addr_of t;; opts <- ndopts_parse (skipn 20 raw);;
            Ok (DNA (negb (Z.shiftr (Z.land rso 0x80) 7 =? 0)) (negb (Z.shiftr (Z.land rso 0x40) 6 =? 0))
                    (negb (Z.shiftr (Z.land rso 0x20) 5 =? 0)) target opts)
        | _ => Err EStruct
        end
  | DRedir6 _ _ _ =>                                                      (* 785-795 *)
      if Nat.ltb (length raw) 36 then Err ENotEnough
      else
        fields <- unpack [FX 4; FS 16; FS 16] (firstn 36 raw);;
        match fields with
        | [VB t; VB d] =>
            target <- v6addr_of t;; dest <- v6addr_of d;; opts <- ndopts_parse (skipn 36 raw);;
            Ok (DRedir6 target dest opts)
        | _ => Err EStruct
        end
  end.

(** issubclass(type(d), class of [c]) for the class of a message type: the class itself, or (icmp.py:329, 422;
    icmpv6.py:459-468) one of the derived classes. *)
Definition icls_eqb (a b : icls) : bool :=
  match a, b with
  | K4 x, K4 y | K6 x, K6 y => x =? y
  | KBase, KBase | KBase6, KBase6 => true
  | _, _ => false
  end.
Definition subclass (a b : icls) : bool :=
  icls_eqb a b ||
  match a, b with
  | K4 0, K4 8 => true      (* ICMPEchoReply(ICMPEchoRequest) *)
  | K4 18, K4 17 => true    (* ICMPAddressMaskReply(ICMPAddressMaskRequest) *)
  | K6 128, K4 8 => true    (* ICMPv6EchoRequest(ICMPEchoRequest) *)
  | K6 129, K4 0 | K6 129, K4 8 => true  (* ICMPv6EchoReply(ICMPEchoReply) *)
  | K6 1, K4 3 => true      (* ICMPv6DestinationUnreachable(ICMPDestinationUnreachable) *)
  | _, _ => false
  end.

(** ** The message object.  One record for ICMP and ICMPv6; [v6] selects the four tables (icmp.py:32-35,
    icmpv6.py:32-35). *)
Record icmp := mkIcmp { ic_type : Z; ic_code : Z; ic_data : icmpdata; ic_csum : Z }.
Definition valid_types (v6 : bool) : list Z := if v6 then ICMPv6Types else ICMPTypes.
Definition valid_codes (v6 : bool) (t : Z) : option (list Z) := if v6 then icmp6_codes t else icmp_codes t.
(** ICMPClassFromType, ICMPv6ClassFromType: None where there is no such class (icmpv6.py:823-836). *)
Definition icmp6_classes : list Z := [1; 128; 129; 130; 131; 132; 133; 134; 135; 136; 137; 143].
Definition class_of_type (v6 : bool) (t : Z) : option icls :=
  if v6 then if zmem t icmp6_classes then Some (K6 t) else None else Some (K4 t).
(** ICMPTypeFromClass, ICMPv6TypeFromClass. *)
Definition type_of_class (v6 : bool) (c : icls) : option Z :=
  match v6, c with
  | false, K4 t => Some t
  | true, K6 t => Some t
  | _, _ => None
  end.
(** __init__ without arguments (icmp.py:31-39, icmpv6.py:31-39). *)
Definition icmp_new (v6 : bool) : icmp :=
  if v6 then mkIcmp 128 0 (data_new (K6 128)) 0 else mkIcmp 8 0 (data_new (K4 8)) 0.

(** *** Setters.  The result is the state afterwards and the exception, if any: a refused assignment may
    have changed the object. *)
Definition with_type (t : Z) (m : icmp) := mkIcmp t (ic_code m) (ic_data m) (ic_csum m).
Definition with_code (c : Z) (m : icmp) := mkIcmp (ic_type m) c (ic_data m) (ic_csum m).
Definition with_data (d : icmpdata) (m : icmp) := mkIcmp (ic_type m) (ic_code m) d (ic_csum m).
(** A value assigned to icmptype: an integer (or enumeration member), or something else. *)
Inductive tval := TInt (z : Z) | TBad.
(** icmptype.setter (icmp.py:94-109) and icmpdata.setter (141-146) call each other. *)
Fixpoint set_type (fuel : nat) (v6 : bool) (v : tval) (m : icmp) : icmp * option exn :=
  match fuel with
  | O => (m, Some EFuel)
  | S fuel' =>
      match v with
      | TBad => (m, Some EValue)
      | TInt z =>
          if negb (zmem z (valid_types v6)) then (m, Some EValue)
          else
            match class_of_type v6 z with
            | None => (m, Some EType)
            | Some cls =>
                let '(m1, e) :=
                  if subclass (data_class (ic_data m)) cls then (m, None)
                  else set_data_aux fuel' v6 (data_new cls) m in
                match e with
                | Some e => (m1, Some e)
                | None =>
                    let m2 := with_type z m1 in
                    match valid_codes v6 z with
                    | None => (m2, Some EKey)
                    | Some codes => (if zmem 0 codes then with_code 0 m2 else m2, None)
                    end
                end
            end
      end
  end
with set_data_aux (fuel : nat) (v6 : bool) (d : icmpdata) (m : icmp) : icmp * option exn :=
  match fuel with
  | O => (m, Some EFuel)
  | S fuel' =>
      let m1 := with_data d m in
      match type_of_class v6 (data_class d) with
      | Some t => set_type fuel' v6 (TInt t) m1
      | None => set_type fuel' v6 TBad m1
      end
  end.
Definition icmp_set_type (v6 : bool) (v : tval) (m : icmp) := set_type 4 v6 v m.
(** A value assigned to icmpdata: an ICMPData object or something else (143-144). *)
Inductive dval := DObj (d : icmpdata) | DBad.
Definition icmp_set_data (v6 : bool) (v : dval) (m : icmp) : icmp * option exn :=
  match v with
  | DBad => (m, Some EExc)
  | DObj d => set_data_aux 5 v6 d m
  end.
(** A value assigned to icmpcode: a member with value [c] of the code enumeration of type [t] (any other enumeration
    is [CForeign]), an integer, or something else, which is ignored (111-118). *)
Inductive cval := CEnum (t c : Z) | CForeign | CInt (z : Z) | CBad.
Definition icmp_set_code (v6 : bool) (v : cval) (m : icmp) : icmp * option exn :=
  match v with
  | CEnum t c => if t =? ic_type m then (with_code c m, None) else (m, Some EValue)
  | CForeign => (m, Some EValue)
  | CInt z =>
      match valid_codes v6 (ic_type m) with
      | None => (m, Some EKey)
      | Some codes => if zmem z codes then (with_code z m, None) else (m, Some EValue)
      end
  | CBad => (m, None)
  end.

(** *** Serialising and parsing *)
Definition icmp_pack (m : icmp) (csum : Z) : res bytes :=
  hdr <- pack [fB; fB; fH] [VI (ic_type m); VI (ic_code m); VI csum];;
  d <- data_to_bytes (ic_data m);;
  Ok (hdr ++ d).
(** ICMP.checksum and to_bytes (57-68). *)
Definition icmp_to_bytes (m : icmp) : res bytes :=
  b <- icmp_pack m 0;;
  icmp_pack m (cksum b).
(** The object after to_bytes: checksum attribute updated (58). *)
Definition icmp_serialised (m : icmp) : icmp :=
  match icmp_pack m 0 with Ok b => mkIcmp (ic_type m) (ic_code m) (ic_data m) (cksum b) | Err _ => m end.
(** ICMPv6: pre_serialize and _compute_checksum (icmpv6.py:58-73), then ICMP.to_bytes with the stored checksum (55-56). *)
Definition icmp6_checksum (src dst : bytes) (m : icmp) : res Z :=
  d <- data_to_bytes (ic_data m);;
  h <- pack [fI; FX 3; fB; fB; fB] [VI (4 + zlen d); VI 58; VI (ic_type m); VI (ic_code m)];;
  Ok (cksum (src ++ dst ++ h ++ d)).
Definition icmp6_pre_serialize (ip6 : option ipv6) (m : icmp) : res icmp :=
  match ip6 with
  | None => Err EAssert
  | Some ip =>
      c <- icmp6_checksum (v6_src ip) (v6_dst ip) m;;
      Ok (mkIcmp (ic_type m) (ic_code m) (ic_data m) c)
  end.
Definition icmp6_to_bytes (m : icmp) : res bytes := icmp_pack m (ic_csum m).
(** size (icmp.py:54-55). *)
Definition icmp_size (m : icmp) : res Z := d <- data_to_bytes (ic_data m);; Ok (4 + zlen d).
(** from_bytes (icmp.py:70-79), inherited by ICMPv6. *)
Definition icmp_from_bytes (v6 : bool) (raw : bytes) : res (icmp * bytes) :=
  if Nat.ltb (length raw) 4 then Err ENotEnough
  else
    fields <- unpack [fB; fB; fH] (firstn 4 raw);;
    match fields with
    | [VI f0; VI f1; VI f2] =>
        t <- enum_of (valid_types v6) f0;;
        match valid_codes v6 t with
        | None => Err EKey
        | Some codes =>
            c <- enum_of codes f1;;
            match class_of_type v6 t with
            | None => Err EType
            | Some cls =>
                d <- data_from_bytes cls (skipn 4 raw);;
                let m := mkIcmp t c d f2 in
                size <- icmp_size m;;
                Ok (m, skipn (Z.to_nat size) raw)
            end
        end
    | _ => Err EStruct
    end.

(** __eq__ of the data objects: ICMPData compares the raw payload only (icmp.py:182-183), echo objects also identifier
    and sequence (308-311), with an attribute error on a foreign object.  Python asks the right operand first when its
    class derives from the class of the left one; this matters for a plain ICMPData object compared with an echo object. *)
Definition data_payload (d : icmpdata) : bytes :=
  match d with
  | DPlain _ x | DQuench x | DRedirect _ x | DUnreach _ _ _ x | DEcho _ _ _ _ x | DTimeEx _ x | DMask _ _ _ _ x => x
  | DRS _ | DRA _ _ _ _ _ _ _ _ _ | DNS _ _ | DNA _ _ _ _ _ | DRedir6 _ _ _ => []
  end.
Definition data_eqb (a b : icmpdata) : res bool :=
  match a with
  | DEcho _ _ i s x =>
      match b with
      | DEcho _ _ i' s' x' | DMask _ i' s' _ x' => Ok ((i =? i') && (s =? s') && bytes_eqb x x')
      | _ => Err EAttr
      end
  | DPlain KBase x =>
      match b with
      | DEcho _ _ _ _ _ => Err EAttr
      | _ => Ok (bytes_eqb x (data_payload b))
      end
  | _ => Ok (bytes_eqb (data_payload a) (data_payload b))
  end.
(** ICMP.__eq__ (81-84). *)
Definition icmp_eqb (a b : icmp) : res bool :=
  if negb (ic_type a =? ic_type b) then Ok false
  else if negb (ic_code a =? ic_code b) then Ok false
  else data_eqb (ic_data a) (ic_data b).
