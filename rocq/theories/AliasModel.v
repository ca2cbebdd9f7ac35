(** Packets as Python objects: header objects live in a heap and a packet holds references to them
    (packet.py:7-242, 323-330).  PacketModel.v treats a packet as a list of header values; here two packets may hold the
    same header object. *)
From Verif Require Import Base RipModel PacketModel.
#[local] Open Scope nat_scope.

(** Objects are numbered in the order of their creation.  A bare [bytes] object is an object too (it is never assigned
    to).  Objects inside a header (option lists, ICMP data) belong to that header: they are part of its value. *)
Record store := mkStore { st_objs : list hdr; st_pkts : list (list nat) }.
Definition obj (objs : list hdr) (a : nat) : hdr := nth a objs HNullHdr.
Definition refs (s : store) (p : nat) : list nat := nth p (st_pkts s) [].
(** The headers of a packet as they are now. *)
Definition content (s : store) (p : nat) : packet := map (obj (st_objs s)) (refs s p).

(** copy.deepcopy of the list of headers (packet.py:79, 84): every object is copied once, an object that occurs twice is
    the same copy twice (the memo of deepcopy).  bytes objects are not copied but never change either. *)
Fixpoint memo_get (memo : list (nat * nat)) (a : nat) : option nat :=
  match memo with [] => None | (k, c) :: t => if a =? k then Some c else memo_get t a end.
Fixpoint copy_refs (objs : list hdr) (memo : list (nat * nat)) (l : list nat) : list hdr * list nat :=
  match l with
  | [] => (objs, [])
  | a :: t =>
      match memo_get memo a with
      | Some c => let '(o, r) := copy_refs objs memo t in (o, c :: r)
      | None => let c := length objs in let '(o, r) := copy_refs (objs ++ [obj objs a]) ((a, c) :: memo) t in (o, c :: r)
      end
  end.
(** add_header (packet.py:109-121): bytes are wrapped in a new RawPacketContents, a header object is appended itself. *)
Definition add_ref (objs : list hdr) (a : nat) : list hdr * nat :=
  match obj objs a with HBytes b => (objs ++ [HRaw b], length objs) | _ => (objs, a) end.
(** for header in pobj: p.add_header(header) (packet.py:80-81). *)
Fixpoint add_refs (objs : list hdr) (l : list nat) : list hdr * list nat :=
  match l with
  | [] => (objs, [])
  | a :: t => let '(o1, c) := add_ref objs a in let '(o2, r) := add_refs o1 t in (o2, c :: r)
  end.
(** Packet.to_bytes (packet.py:29-40): from the last header to the first, each header object is prepared (and changed),
    then serialised (and changed).  An exception leaves the objects visited so far changed; the raising method is taken to
    leave its own header as it was. *)
Fixpoint ser_refs (objs : list hdr) (all todo : list nat) (raw : bytes) : list hdr * res bytes :=
  match todo with
  | [] => (objs, Ok raw)
  | a :: t =>
      match pre_ser raw (map (obj objs) all) (obj objs a) with
      | Err e => (objs, Err e)
      | Ok h1 =>
          match hdr_bytes h1 with
          | Err e => (set_nth a h1 objs, Err e)
          | Ok b => ser_refs (set_nth a (hdr_after h1) objs) all t (b ++ raw)
          end
      end
  end.

(** What a program can do with packets and header objects. *)
Inductive op :=
| ONew (h : hdr)                     (* a header object is constructed, or a bytes object *)
| OAssign (a : nat) (h : hdr)        (* attributes of a header object are assigned: any new value *)
| OEmpty                             (* Packet() *)
| OParse (raw : bytes) (c : hcls)    (* Packet(raw, first_header=c) *)
| OAdd (p a : nat)                   (* p += a, p.add_header(a), p.add_payload(a) *)
| OPrepend (p a : nat)               (* p.prepend_header(a) *)
| OInsert (p : nat) (i : Z) (a : nat)
| OSet (p : nat) (i : Z) (a : nat)   (* p[i] = a *)
| ODel (p : nat) (i : Z)             (* del p[i] *)
| OCopy (p : nat)                    (* copy.deepcopy(p) *)
| OPlus (p q : nat)                  (* p + q, two packets *)
| OPlusHdr (p a : nat)               (* p + a, a packet and a header or bytes *)
| OHdrPlus (a b : nat)               (* a + b, a header and a header or bytes *)
| OSer (p : nat).                    (* p.to_bytes() *)
Inductive answer := Done | NewObj (a : nat) | NewPkt (p : nat) | Sent (b : bytes) | Raised (e : exn).
Definition with_refs (s : store) (p : nat) (l : list nat) : store := mkStore (st_objs s) (set_nth p l (st_pkts s)).
Definition new_pkt (objs : list hdr) (pkts : list (list nat)) (l : list nat) : store * answer :=
  (mkStore objs (pkts ++ [l]), NewPkt (length pkts)).
Definition step (s : store) (o : op) : store * answer :=
  match o with
  | ONew h => (mkStore (st_objs s ++ [h]) (st_pkts s), NewObj (length (st_objs s)))
  | OAssign a h => (mkStore (set_nth a h (st_objs s)) (st_pkts s), Done)
  | OEmpty => new_pkt (st_objs s) (st_pkts s) []
  (* packet.py:13-18, 42-60: every header is a new object *)
  | OParse raw c =>
      match pkt_new raw c with
      | Ok hs => new_pkt (st_objs s ++ hs) (st_pkts s) (seq (length (st_objs s)) (length hs))
      | Err e => (s, Raised e)
      end
  (* packet.py:68-75, 109-121, 131-133 *)
  | OAdd p a =>
      let '(o', c) := add_ref (st_objs s) a in (with_refs (mkStore o' (st_pkts s)) p (refs s p ++ [c]), Done)
  (* packet.py:102-107, 123-129: stored as it is *)
  | OPrepend p a => (with_refs s p (a :: refs s p), Done)
  | OInsert p i a =>
      let k := clampidx (content s p) i in (with_refs s p (firstn k (refs s p) ++ a :: skipn k (refs s p)), Done)
  (* packet.py:202-208, 217-220 *)
  | OSet p i a => match checkidx (content s p) i with Ok n => (with_refs s p (set_nth n a (refs s p)), Done) | Err e => (s, Raised e) end
  | ODel p i => match checkidx (content s p) i with Ok n => (with_refs s p (del_nth n (refs s p)), Done) | Err e => (s, Raised e) end
  | OCopy p => let '(o', l) := copy_refs (st_objs s) [] (refs s p) in new_pkt o' (st_pkts s) l
  (* packet.py:77-82 *)
  | OPlus p q =>
      let '(o1, l) := copy_refs (st_objs s) [] (refs s p) in
      let '(o2, r) := add_refs o1 (refs s q) in new_pkt o2 (st_pkts s) (l ++ r)
  (* packet.py:83-86 *)
  | OPlusHdr p a =>
      let '(o1, l) := copy_refs (st_objs s) [] (refs s p) in
      let '(o2, c) := add_ref o1 a in new_pkt o2 (st_pkts s) (l ++ [c])
  (* packet.py:323-330: the operands are not checked (an exception object is always true, l. 325), and not copied *)
  | OHdrPlus a b =>
      let '(o1, c) := add_ref (st_objs s) a in
      let '(o2, d) := add_ref o1 b in new_pkt o2 (st_pkts s) [c; d]
  | OSer p =>
      let '(o', r) := ser_refs (st_objs s) (refs s p) (rev (refs s p)) [] in
      (mkStore o' (st_pkts s), match r with Ok b => Sent b | Err e => Raised e end)
  end.
Fixpoint run (s : store) (os : list op) : store := match os with [] => s | o :: t => run (fst (step s o)) t end.
