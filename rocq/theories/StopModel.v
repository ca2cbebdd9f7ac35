(** Model of how the simulator stops its nodes: SyssGlue.stop in switchyard/sim/cli.py (775-785), run by the main thread,
    against the two threads of every node in switchyard/sim/nodeexec.py (NodeExecutor.run, 114-135, and
    LinkEmulator.run in linkem.py, 15-34).  One step is one statement of one thread; any thread may be next.  Left out: what packets do (LinkModel.v); a packet that
    arrives only decides how a wait ends, a monitor or a full heap that raises ends the thread. *)
From Verif Require Import Base.

(** The attributes __linkem and __t: None (31, 34), set (116-117), deleted (131-132). *)
Inductive attrv := ANone | ASet | AGone.
(** Where the node's thread is: run (115-119), the loop of __idleloop (106-112) with recv_packet (70-91), the rest of
    startcode (130-135).  [RDead]: an exception ended the thread inside the loop. *)
Inductive npc := RQueue | REm | RThread | RStart | RTop | RWait | RJoin | RDelT | RDelEm | RDelRest | ROver | RDead.
(** The link emulator's thread: not started, before its test (16), waiting (31), ended. *)
Inductive epc := EOff | ETop | EGet | EOver.
Record nd := mkNd { n_pc : npc; n_linkem : attrv; n_t : attrv; n_done : bool; e_pc : epc; e_stop : bool }.
(** A node whose thread has just been started (__start, 770-773). *)
Definition nd_new : nd := mkNd RQueue ANone ANone false EOff false.
Definition set_pc (p : npc) (x : nd) : nd := mkNd p (n_linkem x) (n_t x) (n_done x) (e_pc x) (e_stop x).
(** How a wait of recv_packet ends: a packet; nothing within 0.05 seconds (Empty); the time given is over;
    an exception from a monitor. *)
Inductive wait_end := Packet | Nothing | GiveUp | Raises.
Definition node_step (w : wait_end) (x : nd) : nd :=
  match n_pc x with
  | RQueue => set_pc REm x
  | REm => mkNd RThread ASet (n_t x) (n_done x) (e_pc x) false
  | RThread => mkNd RStart (n_linkem x) ASet (n_done x) (e_pc x) (e_stop x)
  | RStart => mkNd RTop (n_linkem x) (n_t x) (n_done x) ETop (e_stop x)
  | RTop => if n_done x then set_pc RJoin x else set_pc RWait x
  | RWait =>
      match w with
      | Packet => set_pc RTop x
      | Nothing => if n_done x then set_pc RJoin x else x       (* Shutdown (88-89), or another turn *)
      | GiveUp => set_pc RTop x                                 (* NoPackets (91), without a look at done *)
      | Raises => set_pc RDead x
      end
  | RJoin => match e_pc x with EOver => set_pc RDelT x | _ => x end
  | RDelT => mkNd RDelEm (n_linkem x) AGone (n_done x) (e_pc x) (e_stop x)
  | RDelEm => mkNd RDelRest AGone (n_t x) (n_done x) (e_pc x) (e_stop x)
  | RDelRest => set_pc ROver x
  | ROver | RDead => x
  end.
(** [fails]: the step ends the thread by an exception. *)
Definition em_step (fails : bool) (x : nd) : nd :=
  let put e := mkNd (n_pc x) (n_linkem x) (n_t x) (n_done x) e (e_stop x) in
  match e_pc x with
  | EOff | EOver => x
  | ETop => if e_stop x then put EOver else if fails then put EOver else put EGet
  | EGet => if fails then put EOver else put ETop
  end.
(** The main thread, for one node: shutdown (99-103) in four steps and the wait in join, then np.thread.join (780). *)
Inductive mpc := M0 | M1 | M2 | M3 | M4 | M5.
Inductive mst := MRun (i : nat) (p : mpc) | MErr (e : exn).
Definition main_step (i : nat) (p : mpc) (x : nd) : nd * mst :=
  match p with
  | M0 => match n_linkem x with
          | ASet => (mkNd (n_pc x) (n_linkem x) (n_t x) (n_done x) (e_pc x) true, MRun i M1)
          | _ => (x, MErr EAttr)
          end
  | M1 => (mkNd (n_pc x) (n_linkem x) (n_t x) true (e_pc x) (e_stop x), MRun i M2)
  | M2 => match n_t x with ASet => (x, MRun i M3) | _ => (x, MErr EAttr) end
  | M3 => match n_t x, e_pc x with
          | ASet, EOff => (x, MErr ERuntime)      (* join of a thread that has not been started *)
          | ASet, _ => (x, MRun i M4)
          | _, _ => (x, MErr EAttr)
          end
  | M4 => match e_pc x with EOver => (x, MRun i M5) | _ => (x, MRun i M4) end
  | M5 => match n_pc x with ROver | RDead => (x, MRun (S i) M0) | _ => (x, MRun i M5) end
  end.
Record sys := mkSys { s_nodes : list nd; s_main : mst }.
Inductive act := AMain | ANode (i : nat) (w : wait_end) | AEm (i : nat) (fails : bool).
Fixpoint upd {A} (i : nat) (f : A -> A) (l : list A) : list A :=
  match l, i with [], _ => [] | x :: r, O => f x :: r | x :: r, S j => x :: upd j f r end.
Definition step (s : sys) (a : act) : sys :=
  match a with
  | AMain =>
      match s_main s with
      | MErr _ => s
      | MRun i p =>
          match nth_error (s_nodes s) i with
          | None => s                               (* the loop (777) is over *)
          | Some x => mkSys (upd i (fun _ => fst (main_step i p x)) (s_nodes s)) (snd (main_step i p x))
          end
      end
  | ANode i w => mkSys (upd i (node_step w) (s_nodes s)) (s_main s)
  | AEm i b => mkSys (upd i (em_step b) (s_nodes s)) (s_main s)
  end.
Definition run (s : sys) (l : list act) : sys := fold_left step l s.
(** stop() is called. *)
Definition stop_call (ns : list nd) : sys := mkSys ns (MRun 0 M0).
