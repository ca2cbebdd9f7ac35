(** The header classes of the documentation: UDPPing (documentation/code/udpappheader.py 4-33) and SpanningTreeMessage
    (documentation/code/newheader.py 4-40), as user classes of RegModel.v, with PacketHeaderBase.__init__ (packet.py 252-254),
    size (262-264) and __eq__ (332-334).

    The state of an object is a list of numbers: for UDPPing the sequence number alone, for SpanningTreeMessage the bytes of the
    root address followed by the number of hops.  Simplified: values assigned are integers, so int() keeps them; the root is
    given as the bytes of an address (EthAddrModel.v has the constructor of addresses). *)
From Verif Require Import Base Dict EthAddrModel RegModel.
#[local] Open Scope string_scope.
#[local] Open Scope list_scope.
#[local] Open Scope Z_scope.

(** UDPPing: __init__ (7-9; the keyword sequence goes through the setter), to_bytes (11-13), from_bytes (15-21). *)
Definition ping_new (seq sequence : option Z) : bytes := [match sequence with Some s => s | None => match seq with Some s => s | None => 0 end end].
Definition ping_set (w : bytes) (v : Z) : bytes := [v].
Definition ping_to (w : bytes) : res bytes := match w with [s] => pack [fH] [VI s] | _ => Err EAttr end.
Definition ping_from (raw : bytes) : res (bytes * bytes) :=
  if Nat.ltb (List.length raw) 2 then Err EValue
  else fs <- unpack [fH] (firstn 2 raw);; match fs with [VI s] => Ok ([s], skipn 2 raw) | _ => Err EStruct end.
Definition ping_attr (w : bytes) (s : str) : option Z := match w with [v] => if smem s ["sequence"; "_sequence"] then Some v else None | _ => None end.
Definition UDPPing : uclass := mkU ping_from ping_to ping_attr.

(** SpanningTreeMessage: __init__ (7-10), to_bytes (12-14), from_bytes (16-23).  The format "6sxB" has no byte order: native, in
    which these three need no alignment. *)
Definition stm_fmt := [FS 6; FX 1; fB].
Definition stm_new (root : option bytes) (hops : option Z) : res bytes :=
  a <- eth_init (match root with Some b => ABytes b | None => AStr [48; 48; 58; 48; 48; 58; 48; 48; 58; 48; 48; 58; 48; 48; 58; 48; 48] end);;
  Ok (a ++ [match hops with Some h => h | None => 0 end]).
Definition stm_root (w : bytes) : bytes := removelast w.
Definition stm_hops (w : bytes) : Z := last w 0.
Definition stm_set_hops (w : bytes) (v : Z) : bytes := stm_root w ++ [v].
Definition stm_to (w : bytes) : res bytes := pack stm_fmt [VB (stm_root w); VI (stm_hops w)].
Definition stm_from (raw : bytes) : res (bytes * bytes) :=
  if Nat.ltb (List.length raw) 8 then Err EValue
  else fs <- unpack stm_fmt (firstn 8 raw);;
       match fs with [VB r; VI h] => a <- eth_init (ABytes r);; Ok (a ++ [h], skipn 8 raw) | _ => Err EStruct end.
Definition stm_attr (w : bytes) (s : str) : option Z := if smem s ["hops_to_root"; "_hops_to_root"] then Some (stm_hops w) else None.
Definition SpanningTreeMessage : uclass := mkU stm_from stm_to stm_attr.

(** size() and == of two objects of the same class. *)
Definition u_size (u : uclass) (w : bytes) : res Z := b <- u_to u w;; Ok (zlen b).
Definition u_eq (u : uclass) (a b : bytes) : res bool := x <- u_to u a;; y <- u_to u b;; Ok (bytes_eqb x y).
