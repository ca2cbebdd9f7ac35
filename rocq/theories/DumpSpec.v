(** What the programs that save and show packets are supposed to do (C125). *)
From Coq Require Import QArith.
From Verif Require Import Base EthAddrModel Dict PacketModel TestModel TestSpec CapModel DumpModel.
#[local] Open Scope list_scope.
#[local] Open Scope Z_scope.

(** Bytes that can be read as a packet that has a text form. *)
Definition readable (raw : bytes) (p : PacketModel.packet) : Prop := pkt_parse raw = Ok p /\ printable p.
(** Reading the bytes ends, with a packet or an exception (C69). *)
Definition finishes (raw : bytes) : Prop := pkt_parse raw <> Err EFuel.
(** A device that delivers the frames one after the other; with each goes the time of the clock. *)
Definition delivers (fs : list (bytes * Q)) : list devans := map (fun x => DFrame (fst x) (snd x)) fs.
(** What a line says about a frame: the packet, or that it could not be read or shown. *)
Definition tells (x : bytes * Q) (l : line) : Prop := match l with LPacket p => readable (fst x) p | LFailed _ => forall p, ~ readable (fst x) p end.
(** What the device answers next, and what the program does: wait, end with its count, end with the exception of the device. *)
Definition then_ends (count : Z) (rest : list devans) (e : dend) : Prop :=
  match rest with [] => e = DWaits | DQuiet :: _ => e = DEnds count | DRaises x :: _ => e = DDies x | DFrame _ _ :: _ => False end.
(** Records as they are in files: a time that is one, all bytes there. *)
Definition whole (r : record) : Prop := 0 <= r_sec r /\ 0 <= r_usec r < 1000000 /\ r_caplen r = zlen (r_data r).
(** A file of which every frame can be shown. *)
Definition holds (f : capture) (ps : list PacketModel.packet) : Prop := Forall whole f /\ Forall2 (fun r p => readable (r_data r) p) f ps.
(** What is printed for files with these packets. *)
Definition listing (l : list (str * list PacketModel.packet)) : list rline :=
  flat_map (fun x => ROpening (fst x) :: map RPacket (snd x) ++ [RGot (zlen (snd x)) (fst x)]) l.
