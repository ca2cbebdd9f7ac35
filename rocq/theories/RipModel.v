(** Model of switchyard/lib/packet/ripv2.py.  IPv4 addresses are 32-bit integers (int(addr)). *)
From Verif Require Import Base.

(** ** Python's ipaddress.IPv4Network("addr/mask", strict=False), mask written as a dotted quad *)
Definition bit_length (z : Z) : Z := if z =? 0 then 0 else Z.log2 z + 1.
(** _count_righthand_zero_bits(number, 32). *)
Definition righthand_zeros (m : Z) : Z :=
  if m =? 0 then 32 else Z.min 32 (bit_length (Z.land (Z.lnot m) (m - 1))).
(** _prefix_from_ip_int: None is ValueError. *)
Definition prefix_from_int (m : Z) : option Z :=
  let tz := righthand_zeros m in
  let plen := 32 - tz in
  if Z.shiftr m tz =? Z.shiftl 1 plen - 1 then Some plen else None.
(** _prefix_from_ip_string: first as a netmask, then inverted, as a host mask. *)
Definition prefix_from_mask (m : Z) : option Z :=
  match prefix_from_int m with
  | Some p => Some p
  | None => prefix_from_int (Z.lxor m 0xffffffff)
  end.
(** _ip_int_from_prefix *)
Definition netmask_of (plen : Z) : Z := Z.lxor 0xffffffff (Z.shiftr 0xffffffff plen).

(** ** Route entries (ripv2.py:21-95) *)
Record rip_entry := mkRipE { re_family : Z; re_tag : Z; re_plen : Z; re_net : Z; re_nexthop : Z; re_metric : Z }.
(** __init__ (26-31); a bad mask is a ValueError. *)
Definition rip_entry_new (addr mask nexthop family metric tag : Z) : res rip_entry :=
  match prefix_from_mask mask with
  | None => Err EValue
  | Some p => Ok (mkRipE family tag p (Z.land addr (netmask_of p)) nexthop metric)
  end.
Definition rip_efmt := [fH; fH; fI; fI; fI; fI].
(** to_bytes (43-47). *)
Definition rip_entry_to_bytes (e : rip_entry) : res bytes :=
  pack rip_efmt [VI (re_family e); VI (re_tag e); VI (re_net e); VI (netmask_of (re_plen e)); VI (re_nexthop e); VI (re_metric e)].
(** from_bytes (49-63). *)
Definition rip_entry_from_bytes (raw : bytes) : res rip_entry :=
  if negb (Nat.eqb (length raw) 20) then Err ENotEnough
  else
    fields <- unpack rip_efmt raw;;
    match fields with
    | [VI f0; VI f1; VI f2; VI f3; VI f4; VI f5] => rip_entry_new f2 f3 f4 f0 f5 f1
    | _ => Err EStruct
    end.
(** __eq__ (93-95). *)
Definition rip_entry_eqb (a b : rip_entry) : res bool :=
  x <- rip_entry_to_bytes a;; y <- rip_entry_to_bytes b;; Ok (bytes_eqb x y).

(** ** Messages (98-189) *)
Record rip := mkRip { rip_cmd : Z; rip_routes : list rip_entry }.
Definition RIPCommands : list Z := [1; 2].              (* 17-19 *)
Definition rip_new : rip := mkRip 1 [].                 (* 103-105 *)
Fixpoint rip_routes_to_bytes (es : list rip_entry) : res bytes :=
  match es with
  | [] => Ok []
  | e :: es' => b <- rip_entry_to_bytes e;; bs <- rip_routes_to_bytes es';; Ok (b ++ bs)
  end.
(** to_bytes (113-119). *)
Definition rip_to_bytes (h : rip) : res bytes :=
  hdr <- pack [fB; fB; FX 2] [VI (rip_cmd h); VI 2];;
  rs <- rip_routes_to_bytes (rip_routes h);;
  Ok (hdr ++ rs).
(** The loop over numroutes (137-138). *)
Fixpoint rip_entries (n : nat) (i : nat) (remain : bytes) : res (list rip_entry) :=
  match n with
  | O => Ok []
  | S n' =>
      e <- rip_entry_from_bytes (firstn 20 (skipn (i * 20) remain));;
      es <- rip_entries n' (S i) remain;;
      Ok (e :: es)
  end.
(** from_bytes (121-138) on the object [h]: routes are appended to those present. *)
Definition rip_from_bytes (h : rip) (raw : bytes) : res rip :=
  if Nat.ltb (length raw) 4 then Err ENotEnough
  else
    fields <- unpack [fB; fB; FX 2] (firstn 4 raw);;
    match fields with
    | [VI f0; VI f1] =>
        cmd <- enum_of RIPCommands f0;;
        if negb (f1 =? 2) then Err EValue
        else
          let remain := skipn 4 raw in
          es <- rip_entries (length remain / 20) 0 remain;;
          Ok (mkRip cmd (rip_routes h ++ es))
    | _ => Err EStruct
    end.
(** RIPv2(raw=...) (103-107): an empty byte string is not parsed. *)
Definition rip_parse (raw : bytes) : res rip := match raw with [] => Ok rip_new | _ => rip_from_bytes rip_new raw end.
(** __getitem__, __setitem__, append, __len__ (147-171). *)
Definition rip_index (h : rip) (i : Z) : res nat :=
  let i := if i <? 0 then zlen (rip_routes h) + i else i in
  if (0 <=? i) && (i <? zlen (rip_routes h)) then Ok (Z.to_nat i) else Err EIndex.
Definition rip_get (h : rip) (i : Z) : res rip_entry :=
  n <- rip_index h i;;
  match nth_error (rip_routes h) n with Some e => Ok e | None => Err EIndex end.
Fixpoint set_nth {A} (n : nat) (x : A) (l : list A) : list A :=
  match l, n with
  | [], _ => []
  | _ :: l', O => x :: l'
  | y :: l', S n' => y :: set_nth n' x l'
  end.
Definition rip_set (h : rip) (i : Z) (e : rip_entry) : res rip :=
  n <- rip_index h i;; Ok (mkRip (rip_cmd h) (set_nth n e (rip_routes h))).
Definition rip_append (h : rip) (e : rip_entry) : rip := mkRip (rip_cmd h) (rip_routes h ++ [e]).
