(** The two example programs that work with capture files: examples/sydump.py (saving what a device receives) and
    examples/readpkt.py (showing what is in files).

    Simplified: what the device answers is an input (PdevModel.v says what a live device answers); the lines printed are data
    rather than text; a file is the list of its records as in CapModel.v, and records are in the file once they have been
    handed to libpcap. *)
From Coq Require Import QArith.
From Verif Require Import Base EthAddrModel PacketModel TestModel CapModel.
#[local] Open Scope list_scope.
#[local] Open Scope Z_scope.

(** What becomes of Packet(raw=raw) followed by print(p) (sydump.py 24-25, readpkt.py 23-24). *)
Inductive showing := Shown (p : PacketModel.packet) | Failed (e : exn) | Hangs.
Definition show_raw (raw : bytes) : showing :=
  match pkt_parse raw with
  | Ok p => if pkt_shows p then Shown p else Failed EAttr
  | Err EFuel => Hangs
  | Err e => Failed e
  end.

(** ** sydump.py *)
(** The answers of reader.recv_packet(10.0) (20): a frame, nothing for ten seconds, an exception.  With a frame goes the clock
    at the time it is written (29). *)
Inductive devans := DFrame (raw : bytes) (clock : Q) | DQuiet | DRaises (e : exn).
(** A line printed for a frame (25, 27). *)
Inductive line := LPacket (p : PacketModel.packet) | LFailed (e : exn).
(** How the program stands after the answers: waiting for the next one, ended with the count printed (32), ended by an
    exception, or inside the reading of a frame that never finishes. *)
Inductive dend := DWaits | DEnds (count : Z) | DDies (e : exn) | DHangs.
(** The loop (19-30). *)
Fixpoint dump_loop (l : list devans) (f : capture) (out : list line) (count : Z) : capture * list line * dend :=
  match l with
  | [] => (f, out, DWaits)
  | DQuiet :: _ => (f, out, DEnds count)
  | DRaises e :: _ => (f, out, DDies e)
  | DFrame raw clock :: l =>
      match show_raw raw with
      | Hangs => (f, out, DHangs)
      | s =>
          let out1 := out ++ [match s with Shown p => LPacket p | Failed e => LFailed e | Hangs => LFailed EFuel end] in
          match write_packet (VBytes raw) None clock f with
          | Err e => (f, out1, DDies e)
          | Ok f1 => dump_loop l f1 out1 (count + 1)
          end
      end
  end.
(** The whole program: PcapDumper("sydump.pcap") (16) starts an empty file. *)
Definition sydump (l : list devans) : capture * list line * dend := dump_loop l [] [] 0.

(** ** readpkt.py *)
(** Lines printed (16, 24, 26). *)
Inductive rline := ROpening (name : str) | RPacket (p : PacketModel.packet) | RGot (count : Z) (name : str).
Inductive rend := REnds | RDies (e : exn) | RHangs.
(** The loop over one file (19-26). *)
Fixpoint show_file (name : str) (f : capture) (count : Z) : list rline * rend :=
  match f with
  | [] => ([RGot count name], REnds)
  | r :: f =>
      match packet_of r with
      | Err e => ([], RDies e)
      | Ok p =>
          match show_raw (p_raw p) with
          | Shown q => let '(out, e) := show_file name f (count + 1) in (RPacket q :: out, e)
          | Failed e => ([], RDies e)
          | Hangs => ([], RHangs)
          end
      end
  end.
(** The loop over the files (15-27); None: the file cannot be opened (PcapReader raises PcapException, pcapffi.py 352-354). *)
Fixpoint readpkt (files : list (str * option capture)) : list rline * rend :=
  match files with
  | [] => ([], REnds)
  | (name, None) :: _ => ([ROpening name], RDies EExc)
  | (name, Some f) :: r =>
      match show_file name f 0 with
      | (out, REnds) => let '(out2, e) := readpkt r in (ROpening name :: out ++ out2, e)
      | (out, e) => (ROpening name :: out, e)
      end
  end.
