(** Model of switchyard/lib/packet/ipv4.py. *)
From Verif Require Import Base EthAddrModel Enums ArpModel ChecksumModel.

(** The checksum on a little-endian host; C01 shows the byte order does not matter up to 131072 bytes. *)
Definition cksum (data : bytes) : Z := checksum true data 0 None.

(** ** Options *)
(** Objects of the IPOption classes: End/NoOp (ipv4.py:51-58), the routing options (61-153, number 3,
    7 or 9), Timestamp (158-225), and the four-byte options (228-269, number 11, 12 or 20). *)
Inductive ipopt :=
| OEnd
| ONop
| ORoute (num ptr : Z) (addrs : list bytes)
| OTs (ptr flag : Z) (entries : list (option bytes * Z))
| O4 (num value copy : Z).

(** Objects made by the constructors in IPOptionClasses without arguments (ipv4.py:272-282). *)
Definition opt_new (num : Z) : res ipopt :=
  if num =? 0 then Ok OEnd
  else if num =? 1 then Ok ONop
  else if (num =? 3) || (num =? 7) || (num =? 9) then Ok (ORoute num 4 (repeat (repeat 0 4) 9))
  else if num =? 4 then Ok (OTs 5 1 (repeat (Some (repeat 0 4), 0) 4))
  else if num =? 20 then Ok (O4 20 0 0x80)
  else if (num =? 11) || (num =? 12) then Ok (O4 num 1500 0)
  else Err EKey.

(** length() methods (35-36, 71-72, 169-172, 239-240). *)
Definition opt_length (o : ipopt) : Z :=
  match o with
  | OEnd | ONop => 1
  | ORoute _ _ addrs => 3 + zlen addrs * 4
  | OTs _ flag entries => 4 + zlen entries * (if flag =? 0 then 4 else 8)
  | O4 _ _ _ => 4
  end.

(** The loop of IPOptionTimestamp.to_bytes (185-188). *)
Fixpoint ts_entries_bytes (flag : Z) (es : list (option bytes * Z)) : res bytes :=
  match es with
  | [] => Ok []
  | (a, t) :: es' =>
      ab <- (if 0 <? flag then match a with Some x => Ok x | None => Err EAttr end else Ok []);;
      tb <- pack [fI] [VI t];;
      rest <- ts_entries_bytes flag es';;
      Ok (ab ++ tb ++ rest)
  end.

(** to_bytes methods (38-39, 77-81, 182-189, 247-249). *)
Definition opt_to_bytes (o : ipopt) : res bytes :=
  match o with
  | OEnd => Ok [0]
  | ONop => Ok [1]
  | ORoute num ptr addrs =>
      raw <- pack [fB; fB; fB] [VI num; VI (opt_length o); VI ptr];;
      Ok (raw ++ concat addrs)
  | OTs ptr flag entries =>
      raw <- pack [fB; fB; fB; fB] [VI (Z.lor 0x40 4); VI (opt_length o); VI ptr; VI flag];;
      es <- ts_entries_bytes flag entries;;
      Ok (raw ++ es)
  | O4 num value copy =>
      pack [fB; fB; fH] [VI (Z.lor copy num); VI (opt_length o); VI value]
  end.

(** IPv4Address(b) for bytes: exactly four bytes, else AddressValueError (a ValueError). *)
Definition ip4_of_bytes (b : bytes) : res bytes :=
  if Nat.eqb (length b) 4 then Ok b else Err EValue.

(** The address loop of IPOptionXRouting.from_bytes (89-90): [n] iterations, slices raw[3+4i:7+4i]. *)
Fixpoint route_addrs (n : nat) (i : nat) (raw : bytes) : res (list bytes) :=
  match n with
  | O => Ok []
  | S n' =>
      a <- ip4_of_bytes (firstn 4 (skipn (3 + i * 4) raw));;
      rest <- route_addrs n' (S i) raw;;
      Ok (a :: rest)
  end.

(** pointer setter (98-103). *)
Definition route_ptr_ok (value : Z) (naddrs : Z) : bool :=
  let xval := value / 4 - 1 in (0 <=? xval) && (xval <? naddrs).

(** struct.iter_unpack('!II' / '!I', raw) loop of IPOptionTimestamp.from_bytes (204-209). *)
Fixpoint ts_parse (haveip : bool) (raw : bytes) : res (list (option bytes * Z)) :=
  match raw with
  | [] => Ok []
  | a :: b :: c :: d :: r =>
      if haveip then
        match r with
        | e :: f :: g :: h :: r' =>
            rest <- ts_parse haveip r';; Ok ((Some [a; b; c; d], unbe [e; f; g; h]) :: rest)
        | _ => Err EStruct
        end
      else rest <- ts_parse haveip r;; Ok ((None, unbe [a; b; c; d]) :: rest)
  | _ => Err EStruct
  end.
(** iter_unpack checks the total length before yielding anything, so the length error comes first;
    as no other error can occur in the loop the order is not observable. *)

(** from_bytes methods on a fresh object (41-42, 83-92, 191-210, 242-245); result: object and the
    number of bytes eaten. *)
Definition opt_from_bytes (num : Z) (raw : bytes) : res (ipopt * Z) :=
  if (num =? 0) then Ok (OEnd, 1)
  else if (num =? 1) then Ok (ONop, 1)
  else if (num =? 3) || (num =? 7) || (num =? 9) then
    _ <- getb raw 0;;
    len <- getb raw 1;;
    ptr <- getb raw 2;;
    addrs <- route_addrs (Z.to_nat ((len - 3) / 4)) 0 raw;;
    if route_ptr_ok ptr (zlen addrs) then Ok (ORoute num ptr addrs, len) else Err EValue
  else if num =? 4 then
    fields <- unpack [fB; fB; fB; fB] (firstn 4 raw);;
    match fields with
    | [VI _; VI xlen; VI ptr; VI fl] =>
        let flag := Z.land fl 0x0f in
        if zlen raw <? xlen then Err ENotEnough
        else
          es <- ts_parse (negb (flag =? 0)) (skipn 4 (firstn (Z.to_nat xlen) raw));;
          Ok (OTs ptr flag es, xlen)
    | _ => Err EStruct
    end
  else if (num =? 11) || (num =? 12) || (num =? 20) then
    fields <- unpack [fB; fB; fH] (firstn 4 raw);;
    match fields with
    | [VI _; VI _; VI v] => Ok (O4 num v (if num =? 20 then 0x80 else 0), 4)
    | _ => Err EStruct
    end
  else Err EKey.

(** IPOptionList.from_bytes (288-307), one unit of fuel per loop iteration. *)
Fixpoint opts_from_bytes (fuel : nat) (raw : bytes) : res (list ipopt) :=
  match fuel with
  | O => Err EFuel
  | S fuel' =>
      match raw with
      | [] => Ok []
      | opttype :: _ =>
          num <- enum_of IPOptionNumbers (Z.land opttype 0x1f);;
          '(o, eaten) <- opt_from_bytes num raw;;
          rest <- opts_from_bytes fuel' (skipn (Z.to_nat eaten) raw);;
          Ok (o :: rest)
      end
  end.

(** Concatenation of the options' bytes (314-318). *)
Fixpoint opts_concat (os : list ipopt) : res bytes :=
  match os with
  | [] => Ok []
  | o :: os' => b <- opt_to_bytes o;; rest <- opts_concat os';; Ok (b ++ rest)
  end.
(** IPOptionList.to_bytes (309-321). *)
Definition opts_to_bytes (os : list ipopt) : res bytes :=
  match os with
  | [] => Ok []
  | _ => raw <- opts_concat os;; Ok (raw ++ repeat 0 (4 - length raw mod 4))
  end.

(** ** The IPv4 header *)
(** The field [_csum] is written but never read back (the [checksum] property recomputes it), so it is left out. *)
Record ipv4 := mkIp4 {
  ip_tos : Z; ip_totlen : Z; ip_ttl : Z; ip_id : Z; ip_flags : Z; ip_frag : Z; ip_proto : Z;
  ip_src : ipaddr; ip_dst : ipaddr; ip_opts : list ipopt }.

(** IPv4.__init__ without arguments (391-404). *)
Definition ip_new : ipv4 := mkIp4 0 20 0 0 0 0 ipICMP (repeat 0 4) (repeat 0 4) [].

(** Setters (467-554). *)
Definition ip_set_ttl (v : Z) (h : ipv4) : res ipv4 :=
  if (0 <=? v) && (v <=? 255)
  then Ok (mkIp4 (ip_tos h) (ip_totlen h) v (ip_id h) (ip_flags h) (ip_frag h) (ip_proto h) (ip_src h) (ip_dst h) (ip_opts h))
  else Err EValue.
Definition ip_with_tos (v : Z) (h : ipv4) : ipv4 :=
  mkIp4 v (ip_totlen h) (ip_ttl h) (ip_id h) (ip_flags h) (ip_frag h) (ip_proto h) (ip_src h) (ip_dst h) (ip_opts h).
Definition ip_set_tos (v : Z) (h : ipv4) : res ipv4 :=
  if (0 <=? v) && (v <? 256) then Ok (ip_with_tos v h) else Err EValue.
Definition ip_dscp (h : ipv4) : Z := Z.shiftr (ip_tos h) 2.
Definition ip_ecn (h : ipv4) : Z := Z.land (ip_tos h) 0x03.
Definition ip_set_dscp (v : Z) (h : ipv4) : res ipv4 :=
  if (0 <=? v) && (v <? 64) then Ok (ip_with_tos (Z.lor (Z.land (ip_tos h) 0x03) (Z.shiftl v 2)) h) else Err EValue.
Definition ip_set_ecn (v : Z) (h : ipv4) : res ipv4 :=
  if (0 <=? v) && (v <? 4) then Ok (ip_with_tos (Z.lor (Z.land (ip_tos h) 0xfa) v) h) else Err EValue.
Definition ip_set_id (v : Z) (h : ipv4) : res ipv4 :=
  if (0 <=? v) && (v <? 65536)
  then Ok (mkIp4 (ip_tos h) (ip_totlen h) (ip_ttl h) v (ip_flags h) (ip_frag h) (ip_proto h) (ip_src h) (ip_dst h) (ip_opts h))
  else Err EValue.
Definition ip_set_proto (v : Z) (h : ipv4) : res ipv4 :=
  p <- enum_of IPProtocols v;;
  Ok (mkIp4 (ip_tos h) (ip_totlen h) (ip_ttl h) (ip_id h) (ip_flags h) (ip_frag h) p (ip_src h) (ip_dst h) (ip_opts h)).
Definition ip_set_flags (v : Z) (h : ipv4) : res ipv4 :=
  f <- enum_of IPFragmentFlags v;;
  Ok (mkIp4 (ip_tos h) (ip_totlen h) (ip_ttl h) (ip_id h) f (ip_frag h) (ip_proto h) (ip_src h) (ip_dst h) (ip_opts h)).
Definition ip_set_frag (v : Z) (h : ipv4) : res ipv4 :=
  if (0 <=? v) && (v <? 2 ^ 13)
  then Ok (mkIp4 (ip_tos h) (ip_totlen h) (ip_ttl h) (ip_id h) (ip_flags h) v (ip_proto h) (ip_src h) (ip_dst h) (ip_opts h))
  else Err EValue.
(** src/dst setters (526-536); the argument is an address already accepted by ip_address. *)
Definition ip_set_src (a : ipaddr) (h : ipv4) : ipv4 :=
  mkIp4 (ip_tos h) (ip_totlen h) (ip_ttl h) (ip_id h) (ip_flags h) (ip_frag h) (ip_proto h) a (ip_dst h) (ip_opts h).
Definition ip_set_dst (a : ipaddr) (h : ipv4) : ipv4 :=
  mkIp4 (ip_tos h) (ip_totlen h) (ip_ttl h) (ip_id h) (ip_flags h) (ip_frag h) (ip_proto h) (ip_src h) a (ip_opts h).
Definition ip_with_totlen (v : Z) (h : ipv4) : ipv4 :=
  mkIp4 (ip_tos h) v (ip_ttl h) (ip_id h) (ip_flags h) (ip_frag h) (ip_proto h) (ip_src h) (ip_dst h) (ip_opts h).

(** _PACKFMT = '!BBHHHBBH4s4s' (386). *)
Definition ip_fmt := [fB; fB; fH; fH; fH; fB; fB; fH; FS 4; FS 4].

(** size (406-407). *)
Definition ip_size (h : ipv4) : res Z := ob <- opts_to_bytes (ip_opts h);; Ok (20 + zlen ob).
(** pre_serialize (409-410): [taillen] is len(raw). *)
Definition ip_pre_serialize (taillen : Z) (h : ipv4) : res ipv4 :=
  s <- ip_size h;; Ok (ip_with_totlen (s + taillen) h).

(** checksum property (560-570). *)
Definition ip_checksum (h : ipv4) : res Z :=
  s <- ip_size h;;
  data <- pack ip_fmt [VI (Z.shiftl 4 4 + s / 4); VI (ip_tos h); VI (ip_totlen h); VI (ip_id h);
                       VI (Z.lor (Z.shiftl (ip_flags h) 13) (ip_frag h)); VI (ip_ttl h);
                       VI (ip_proto h); VI 0; VB (ip_src h); VB (ip_dst h)];;
  ob <- opts_to_bytes (ip_opts h);;
  Ok (cksum (data ++ ob)).

(** to_bytes (412-418). *)
Definition ip_to_bytes (h : ipv4) : res bytes :=
  s <- ip_size h;;
  c <- ip_checksum h;;
  iphdr <- pack ip_fmt [VI (Z.lor (Z.shiftl 4 4) (s / 4)); VI (ip_tos h); VI (ip_totlen h); VI (ip_id h);
                        VI (Z.lor (Z.shiftl (ip_flags h) 13) (ip_frag h)); VI (ip_ttl h);
                        VI (ip_proto h); VI c; VB (ip_src h); VB (ip_dst h)];;
  ob <- opts_to_bytes (ip_opts h);;
  Ok (iphdr ++ ob).

(** from_bytes on a fresh header (420-442).  The fuel given to the option loop exceeds the number of
    option bytes: EFuel means that the loop does not terminate (C14). *)
Definition ip_from_bytes (raw : bytes) : res (ipv4 * bytes) :=
  if Nat.ltb (length raw) 20 then Err ENotEnough
  else
    fields <- unpack ip_fmt (firstn 20 raw);;
    match fields with
    | [VI f0; VI f1; VI f2; VI f3; VI f4; VI f5; VI f6; VI f7; VB f8; VB f9] =>
        if negb (Z.shiftr f0 4 =? 4) then Err EValue
        else
          let hl := Z.land f0 0x0f * 4 in
          if zlen raw <? hl then Err ENotEnough
          else
            let optionbytes := skipn 20 (firstn (Z.to_nat hl) raw) in
            h <- ip_set_tos f1 ip_new;;
            let h := ip_with_totlen f2 h in
            h <- ip_set_id f3 h;;
            h <- ip_set_flags (Z.shiftr f4 13) h;;
            h <- ip_set_frag (Z.land f4 0x1fff) h;;
            h <- ip_set_ttl f5 h;;
            h <- ip_set_proto f6 h;;
            s <- ip_of_bytes f8;;
            d <- ip_of_bytes f9;;
            os <- opts_from_bytes (S (length optionbytes)) optionbytes;;
            Ok (mkIp4 (ip_tos h) (ip_totlen h) (ip_ttl h) (ip_id h) (ip_flags h) (ip_frag h) (ip_proto h) s d os,
                skipn (Z.to_nat hl) raw)
    | _ => Err EStruct
    end.

(** __eq__ (444-452). *)
Definition ip_eqb (a b : ipv4) : bool :=
  (ip_tos a =? ip_tos b) && (ip_id a =? ip_id b) && (ip_flags a =? ip_flags b) && (ip_frag a =? ip_frag b) &&
  (ip_ttl a =? ip_ttl b) && (ip_proto a =? ip_proto b) &&
  bytes_eqb (ip_src a) (ip_src b) && bytes_eqb (ip_dst a) (ip_dst b).
