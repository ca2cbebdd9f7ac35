(** Model of packet monitors in the simulator: switchyard/sim/monitor.py, the monitor commands of sim/cli.py
    (__checkmonitor 48-58, __exec_monitor 368-445, and SyssGlue.addMonitor, removeMonitor, rebuildGlue, stop 710-798), and
    the call of a monitor by the node that receives a packet (sim/nodeexec.py 64-90).

    Each node is a thread; it takes one packet at a time from its queue, which is the event [Arrive].  Command lines are
    run by the main thread; packets may arrive before, between and after the three parts of a line (precmd, command,
    postcmd), but a command itself is taken to be one step.  What a packet's to_bytes gives is part of the packet.  Of the
    topology only the nodes with their interface names count.  Calls of libpcap are recorded, not carried out
    (CapModel.v says what they do to a file); [writable] says for which names pcap_dump_open succeeds.
    Left out: the text that is shown, the commands that do not concern monitors except as [Other], a rebuild that fails
    before its last line (see CliModel.v), KeyboardInterrupt, and the DebugInspector, since no CodeMonitor is ever
    finished (see [construct]). *)
From Coq Require Import QArith.
From Verif Require Import Dict CapModel.
#[local] Open Scope string_scope.
#[local] Open Scope Z_scope.
#[local] Open Scope list_scope.

(** The three kinds that SyssGlue knows (cli.py:699-701). *)
Inductive kind := KPcap | KDebug | KCode.
(** Monitor objects: NullMonitor, PcapMonitor with a handle of libpcap or with the null pointer, InteractiveMonitor, and one
    whose constructor has raised after it was put on MonitorManager's list. *)
Inductive mon := Null | Pcap (h : nat) | PcapNull | Debug | Broken.
(** What can be seen, oldest first. *)
Inductive obs :=
| Opened (h : nat) (n i : str) (file : str)     (* pcap_dump_open *)
| Written (h : nat) (r : record)                (* pcap_dump *)
| Closed (h : nat)                              (* pcap_dump_close *)
| Got (n i : str) (now : Q) (p : res bytes)     (* recv_packet returns the packet to the node's program *)
| Failed (n i : str) (e : exn).                 (* "Error starting/stopping monitor on ..." is printed *)
(** A node's thread: runs, waits at the barrier of the debug queue, or has ended. *)
Inductive life := Running | Waiting | Ended.
(** How the command line has ended: left by exit, by an exception that nothing catches, never to return from a join, or
    with the whole process by a null pointer. *)
Inductive fin := Left | Died (e : exn) | Hung | Segv.

Record state := mkS {
  topo : dict (list str);                       (* node -> interface names *)
  shown : str -> str -> option kind;            (* SyssGlue.__monitors *)
  att : str -> str -> mon;                      (* NodeExecutor.__recv_monitors *)
  mgr : list mon;                               (* MonitorManager._monitors *)
  queue : list str;                             (* MonitorManager._queue: the node that waits *)
  nodes : str -> life;
  nexth : nat;
  seen : list obs;
  over : option fin }.

Definition upd2 {A} (f : str -> str -> A) (n i : str) (x : A) : str -> str -> A :=
  fun a b => if str_eqb a n && str_eqb b i then x else f a b.
Definition upd1 {A} (f : str -> A) (n : str) (x : A) : str -> A := fun a => if str_eqb a n then x else f a.
Definition say (o : obs) (s : state) : state :=
  mkS (topo s) (shown s) (att s) (mgr s) (queue s) (nodes s) (nexth s) (seen s ++ [o]) (over s).
Definition finish (f : fin) (s : state) : state :=
  mkS (topo s) (shown s) (att s) (mgr s) (queue s) (nodes s) (nexth s) (seen s) (Some f).
Definition add_mgr (m : mon) (s : state) : state :=
  mkS (topo s) (shown s) (att s) (mgr s ++ [m]) (queue s) (nodes s) (nexth s) (seen s) (over s).
Definition set_shown (n i : str) (k : option kind) (s : state) : state :=
  mkS (topo s) (upd2 (shown s) n i k) (att s) (mgr s) (queue s) (nodes s) (nexth s) (seen s) (over s).
Definition set_att (n i : str) (m : mon) (s : state) : state :=
  mkS (topo s) (shown s) (upd2 (att s) n i m) (mgr s) (queue s) (nodes s) (nexth s) (seen s) (over s).
Definition set_life (n : str) (l : life) (s : state) : state :=
  mkS (topo s) (shown s) (att s) (mgr s) (queue s) (upd1 (nodes s) n l) (nexth s) (seen s) (over s).

(** ** A packet arrives at a node (nodeexec.py:78-90) *)
Definition dump_record (now : Q) (b : bytes) : record := let '(sec, usec) := stamp now in mkRec sec usec (zlen b) (zlen b) b.
(** The idle loop (106-113) catches no other exceptions than Shutdown and NoPackets. *)
Definition arrive (n i : str) (now : Q) (p : res bytes) (s : state) : state :=
  match over s, nodes s n with
  | Some Segv, _ => s
  | _, Running =>
      match att s n i with
      | Null | Broken => say (Got n i now p) s
      | Pcap h =>                                            (* PcapMonitor.__call__ (121-122) *)
          match p with
          | Ok b => say (Got n i now p) (say (Written h (dump_record now b)) s)
          | Err _ => set_life n Ended s
          end
      | PcapNull => match p with Ok _ => finish Segv s | Err _ => set_life n Ended s end
      | Debug =>                                             (* add_to_debug_queue (35-39) *)
          set_life n Waiting (mkS (topo s) (shown s) (att s) (mgr s) (queue s ++ [n]) (nodes s) (nexth s) (seen s) (over s))
      end
  | _, _ => s
  end.

(** ** Monitors are made *)
(** str.endswith *)
Definition ends_with (suf w : str) : bool :=
  (String.length suf <=? String.length w)%nat &&
  str_eqb (String.substring (String.length w - String.length suf) (String.length suf) w) suf.
(** The file name (108-118). *)
Definition file_name (n i base : str) : str :=
  if ends_with ".pcap" base then base
  else if negb (str_eqb base "") then append n (append "_" (append i (append "_" (append base ".pcap"))))
  else append n (append "_" (append i ".pcap")).
(** bytes(outfile, 'ascii') (pcapffi.py:319). *)
Fixpoint is_ascii (w : str) : bool :=
  match w with EmptyString => true | String c r => (Ascii.nat_of_ascii c <? 128)%nat && is_ascii r end.
(** What a command says about how to monitor: the kind with its argument, or no kind that is known (412-415, 420-423). *)
Inductive how := HPcap (base : str) | HDebug | HCode (file : str) | HNone.

Section Files.
Context (writable : str -> bool).

(** The constructors: each puts the object on the list first (82-83).  PcapDumper (pcapffi.py:314-323) does not look at
    what pcap_dump_open returns; import_or_die is called without its second argument (monitor.py:155, importcode.py:7). *)
Definition construct (h : how) (n i : str) (s : state) : state * res mon :=
  match h with
  | HPcap base =>
      let file := file_name n i base in
      if negb (is_ascii file) then (add_mgr Broken s, Err EValue)
      else if writable file then
        let s := add_mgr (Pcap (nexth s)) s in
        (mkS (topo s) (shown s) (att s) (mgr s) (queue s) (nodes s) (S (nexth s)) (seen s ++ [Opened (nexth s) n i file]) (over s),
         Ok (Pcap (nexth s)))
      else (add_mgr PcapNull s, Ok PcapNull)
  | HDebug => (add_mgr Debug s, Ok Debug)
  | HCode _ => (add_mgr Broken s, Err EType)
  | HNone => (s, Err EKey)
  end.
Definition kind_of (h : how) : option kind :=
  match h with HPcap _ => Some KPcap | HDebug => Some KDebug | HCode _ => Some KCode | HNone => None end.
(** addMonitor (cli.py:790-793): self.monitors[how] raises KeyError before anything is recorded. *)
Definition add_monitor (h : how) (n i : str) (s : state) : state * option exn :=
  match kind_of h with
  | None => (s, Some EKey)
  | Some k =>
      match construct h n i (set_shown n i (Some k) s) with
      | (s, Ok m) => (set_att n i m s, None)
      | (s, Err e) => (s, Some e)
      end
  end.
(** removeMonitor (795-798). *)
Definition remove_monitor (n i : str) (s : state) : state :=
  set_att n i Null (add_mgr Null (set_shown n i None s)).

(** ** The commands (368-445) *)
Definition starts (word a : str) : bool := String.prefix a word.
Definition everywhere (t : dict (list str)) : list (str * str) :=
  List.concat (map (fun '(n, is) => map (pair n) is) t).
(** Where (372-398): the interfaces meant and the words that are left; None when the command is given up. *)
Definition located (t : dict (list str)) (ws : list str) : option (list (str * str) * list str) :=
  match ws with
  | [] => None
  | w :: r =>
      if starts "any" w || starts "all" w then Some (everywhere t, r)
      else if starts "node" w || din w t then
        match (if din w t then Some (w, r) else match r with x :: r => Some (x, r) | [] => None end) with
        | None => None
        | Some (n, r) =>
            match dget n t with
            | None => Some ([], r)
            | Some is =>
                match r with
                | x :: r' =>
                    if String.prefix "eth" x then (if smem x is then Some ([(n, x)], r') else None)
                    else Some (map (pair n) is, r)
                | [] => Some (map (pair n) is, [])
                end
            end
        end
      else None
  end.
(** How (400-421). *)
Definition how_of (ws : list str) : option how :=
  match ws with
  | [] => None
  | w :: r =>
      if starts "dump" w || starts "pcap" w || starts "file" w then Some (HPcap (hd "" r))
      else if starts "debug" w || starts "inspect" w || starts "trace" w then Some HDebug
      else if starts "code" w || starts "install" w then match r with f :: _ => Some (HCode f) | [] => None end
      else Some HNone
  end.
Definition add_at (h : how) (s : state) (p : str * str) : state :=
  let '(n, i) := p in
  match add_monitor h n i s with (s, None) => s | (s, Some e) => say (Failed n i e) s end.
Definition do_monitor (ws : list str) (s : state) : state :=
  match located (topo s) ws with
  | None => s
  | Some (l, r) => match how_of r with None => s | Some h => fold_left (add_at h) l s end
  end.
Definition do_unmonitor (ws : list str) (s : state) : state :=
  match located (topo s) ws with
  | None => s
  | Some (l, _) => fold_left (fun s '(n, i) => remove_monitor n i s) l s
  end.

(** ** Rebuilding and leaving *)
(** stop (775-785) joins the threads of the nodes one after the other. *)
Fixpoint stop_nodes (ns : list str) (s : state) : state * bool :=
  match ns with
  | [] => (s, true)
  | n :: r => match nodes s n with Waiting => (s, false) | _ => stop_nodes r (set_life n Ended s) end
  end.
(** MonitorManager.reset (27-33): the list is thrown away only if no stop raises. *)
Fixpoint reset (l : list mon) (s : state) : state :=
  match l with
  | [] => mkS (topo s) (shown s) (att s) [] [] (nodes s) (nexth s) (seen s) (over s)
  | Null :: r | Debug :: r => reset r s
  | Pcap h :: r => reset r (say (Closed h) s)
  | PcapNull :: _ => finish Segv s
  | Broken :: _ => finish (Died EAttr) s
  end.
(** rebuildGlue (710-745) for the new topology.  The NullMonitors of the new nodes, which are put on the list before the
    reset and stopped by it without effect, are left out. *)
Definition rebuild (t : dict (list str)) (s : state) : state :=
  match stop_nodes (dkeys (topo s)) s with
  | (s, false) => finish Hung s
  | (s, true) =>
      reset (mgr s) (mkS t (fun _ _ => None) (fun _ _ => Null) (mgr s) (queue s) (fun n => if din n t then Running else Ended)
                         (nexth s) (seen s) (over s))
  end.
Definition leave (s : state) : state :=
  match stop_nodes (dkeys (topo s)) s with (s, true) => finish Left s | (s, false) => finish Hung s end.

(** ** Command lines *)
Inductive cmd :=
| Monitor (ws : list str)                       (* do_monitor (443-445), with the words after the command *)
| Unmonitor (ws : list str)                     (* do_unmonitor (439-441) *)
| Rebuild (t : dict (list str))                 (* any command that ends in rebuildGlue *)
| Exit                                          (* do_exit (519-529), when it does exit *)
| Other.                                        (* anything else, such as show or an empty line *)
Definition run_cmd (c : cmd) (s : state) : state :=
  match c with
  | Monitor ws => do_monitor ws s
  | Unmonitor ws => do_unmonitor ws s
  | Rebuild t => rebuild t s
  | Exit => leave s
  | Other => s
  end.
(** __checkmonitor (48-51): InteractiveMonitor.exec raises NameError (monitor.py:139: IPAddr) before it gets anywhere. *)
Definition check (s : state) : state :=
  match queue s with
  | [] => s
  | _ :: q => finish (Died EName) (mkS (topo s) (shown s) (att s) (mgr s) q (nodes s) (nexth s) (seen s) (over s))
  end.
Definition packet := (str * str * Q * res bytes)%type.
Definition arrive1 (s : state) (p : packet) : state := let '(n, i, now, b) := p in arrive n i now b s.
Definition arrivals (l : list packet) (s : state) : state := fold_left arrive1 l s.
Definition alive (f : state -> state) (s : state) : state := match over s with None => f s | Some _ => s end.
(** precmd, the command, postcmd, with the packets that arrive in between. *)
Definition run_line (mid1 : list packet) (c : cmd) (mid2 : list packet) (s : state) : state :=
  alive check (arrivals mid2 (alive (run_cmd c) (arrivals mid1 (check s)))).
Inductive event := Arrive (p : packet) | Line (mid1 : list packet) (c : cmd) (mid2 : list packet).
Definition step (s : state) (e : event) : state :=
  match e with
  | Arrive p => arrive1 s p
  | Line m1 c m2 => match over s with None => run_line m1 c m2 s | Some _ => s end
  end.
Definition run (l : list event) (s : state) : state := fold_left step l s.
End Files.
(** SyssGlue.__init__ (696-702) and run_simulation: the first build, with nothing to stop or reset. *)
Definition start (t : dict (list str)) : state :=
  mkS t (fun _ _ => None) (fun _ _ => Null) [] [] (fun n => if din n t then Running else Ended) O [] None.
