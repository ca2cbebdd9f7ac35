(** The hub of the examples, examples/myhub.py (8-33), as a program that talks to the network object (TestModel.v).

    Simplified: log messages are written or not, which makes no difference, but their text is always put together; the
    packet object is not changed by being sent (sending it again gives the same bytes, C25).  The loop has fuel: a program
    that has received [n] times raises the exception [EFuel], which Python does not have. *)
From Verif Require Import Base Dict EthAddrModel EthModel PacketModel NetModel TestModel.
#[local] Open Scope list_scope.

(** The inner loop (28-32): a failing send ends the program. *)
Fixpoint flood (ifs : list iface) (dev : str) (p : packet) (k : prog) : prog :=
  match ifs with
  | [] => k
  | i :: r =>
      if str_eqb dev (if_name i) then flood r dev p k
      else Call (CSend (DIface i) p) (fun a => match a with AnsExn e => Raise e | _ => flood r dev p k end)
  end.
(** main (8-33); [ifs] is what net.interfaces() returns (9), the list of Ethernet addresses is made of it (10).  The text of
    the message in line 20 contains the packet. *)
Fixpoint hub (n : nat) (ifs : list iface) : prog :=
  match n with
  | O => Raise EFuel
  | S n =>
      Call CRecv (fun a =>
        match a with
        | AnsExn ENoPackets => hub n ifs
        | AnsExn EShutdown => Return
        | AnsExn e => Raise e
        | AnsSent => Raise EType                 (* not an answer to a receive *)
        | AnsRecv r =>
            let p := rv_pkt r in
            if pkt_shows p then
              match pkt_get_header p CEth with
              | Some (HEth e) =>
                  if existsb (fun m => bytes_eqb (eth_dst e) m) (map if_mac ifs) then hub n ifs
                  else flood ifs (rv_dev r) p (hub n ifs)
              | _ => hub n ifs
              end
            else Raise EAttr
        end)
  end.

(** A program run on a test network, the alarm never striking. *)
Fixpoint play (t : tnet) (p : prog) : tnet * list (call * answer) * ending :=
  match p with
  | Return => (t, [], EndReturn)
  | Raise e => (t, [], EndRaise e)
  | Call c k => let '(t1, a) := do_call t c in let '(t2, tr, e) := play t1 (k a) in (t2, (c, a) :: tr, e)
  end.
