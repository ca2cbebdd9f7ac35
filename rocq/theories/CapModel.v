(** Model of capture files in switchyard/pcapffi.py: PcapDumper (311-341), PcapReader (344-395), _recv_packet (268-288) and
    _pcap_callback (697-707).
    A file is the list of its records.  libpcap is assumed to store each record as given and to hand records out in order,
    leaving out those that do not pass the filter; the filter itself is a parameter.  Not modelled: the file format with its
    32 bits for seconds, snaplen, file system errors, and packets of more than 65535 bytes.
    Times are Python floats as in UnitModel.v. *)
From Coq Require Import QArith.
From Verif Require Import Base EthAddrModel UserModel UnitModel.
#[local] Open Scope list_scope.
#[local] Open Scope Z_scope.

(** struct pcap_pkthdr with the data (114-119). *)
Record record := mkRec { r_sec : Z; r_usec : Z; r_caplen : Z; r_len : Z; r_data : bytes }.
Definition capture := list record.
(** What may be handed to write_packet: bytes or something else. *)
Inductive pyval := VBytes (b : bytes) | VOther.
(** write_packet (325-338); [clock] is what time() returns.  A time of 0 is false. *)
Definition stamp (ts : Q) : Z * Z := (trunc ts, trunc (rnd (inject_Z 1000000 * rnd (ts - inject_Z (trunc ts))))).
Definition write_packet (v : pyval) (ts : option Q) (clock : Q) (f : capture) : res capture :=
  match v with
  | VOther => Err EExc                        (* PcapException *)
  | VBytes b =>
      let ts := match ts with Some t => if Qeq_bool t 0 then clock else t | None => clock end in
      let '(s, u) := stamp ts in
      Ok (f ++ [mkRec s u (zlen b) (zlen b) b])
  end.
(** PcapPacket (13). *)
Record packet := mkPacket { p_time : Q; p_caplen : Z; p_len : Z; p_raw : bytes }.
(** "{:06d}" of a number that is not negative. *)
Definition six (n : Z) : text := let s := dec n in repeat 48 (6 - List.length s) ++ s.
(** float("{:d}.{:06d}".format(sec, usec)); the minus sign of a negative number is read by hand. *)
Definition time_of (s u : Z) : res Q :=
  if s <? 0 then x <- float_of (dec (- s) ++ 46 :: six u);; Ok (- x)%Q else float_of (dec s ++ 46 :: six u).
(** The part of _recv_packet (272-278) for a record, the same as in the callback (701-707). *)
Definition packet_of (r : record) : res packet :=
  t <- time_of (r_sec r) (r_usec r);;
  Ok (mkPacket t (r_caplen r) (r_len r) (firstn (Z.to_nat (r_caplen r)) (r_data r))).
(** recv_packet (374-375): the next record that passes the filter, None at the end (286-288). *)
Fixpoint recv_packet (keep : record -> bool) (f : capture) : res (option packet) * capture :=
  match f with
  | [] => (Ok None, [])
  | r :: f => if keep r then (p <- packet_of r;; Ok (Some p), f) else recv_packet keep f
  end.
(** Reading until None, as in "while True: p = reader.recv_packet(); if p is None: break" (tests/test_pcapffi.py, and
    sim/cli.py:167-173). *)
Fixpoint read_all (fuel : nat) (keep : record -> bool) (f : capture) : res (list packet) :=
  match fuel with
  | O => Err EFuel
  | S n => match recv_packet keep f with
           | (Err e, _) => Err e
           | (Ok None, _) => Ok []
           | (Ok (Some p), f) => l <- read_all n keep f;; Ok (p :: l)
           end
  end.
(** dispatch and loop (380-389): pcap_dispatch calls back for up to [count] packets that pass, for all if it is not
    positive; what follows is left for the next call. *)
Fixpoint dispatch (keep : record -> bool) (count : option nat) (f : capture) : res (list packet) * capture :=
  match f with
  | [] => (Ok [], [])
  | r :: f' =>
      if keep r then
        match count with
        | Some O => (Ok [], f)
        | _ =>
            match packet_of r with
            | Err e => (Err e, f')
            | Ok p => let '(l, g) := dispatch keep (match count with Some (S n) => Some n | c => c end) f' in
                      (l <- l;; Ok (p :: l), g)
            end
        end
      else dispatch keep count f'
  end.
Definition dispatch_count (count : Z) : option nat := if 0 <? count then Some (Z.to_nat count) else None.
