(** Model of the simulator's command line, switchyard/sim/cli.py: the commands that change, save, load or show the
    topology (Cli, 26-560), and the simulated network that is rebuilt from it (SyssGlue, 695-785).
    A line is a list of words (line.split()); the first word is taken to consist of letters, digits and underscores
    (Cmd.parseline).  The answer to a yes/no question is part of the input (__get_yn, 508-514, without its loop).
    What a capacity or delay text means is a parameter (topo/util.py, modelled in UnitModel.v).
    Left out: monitors (see MonModel.v), drawing ("show topology"), completion and help, printed text, the code run by nodes, failures of
    the file system other than a missing file, and a node thread that has not started yet when it is stopped. *)
From Verif Require Import TopoModel.
#[local] Open Scope string_scope.
#[local] Open Scope Z_scope.
#[local] Open Scope list_scope.

(** word.startswith(a) *)
Definition starts (word a : str) : bool := String.prefix a word.

(** ** The simulated network (SyssGlue) *)
(** EgressPipe of nodeexec.py:20, with the node behind the queue by name. *)
Record wire := mkWire { w_to : str; w_dev : str; w_cap : option Z; w_delay : option Z }.
Definition wires := dict (dict wire).
(** xnode, and whether its threads are running. *)
Record net := mkNet { nt_up : bool; nt_nodes : wires }.
(** stop (775-785).  A node that has been stopped has deleted its attributes (nodeexec.py:130-135), so that stopping it
    again raises AttributeError (100). *)
Definition net_stop (n : net) : res net :=
  if nt_up n then Ok (mkNet false (nt_nodes n))
  else match nt_nodes n with [] => Ok n | _ => Err EAttr end.
Definition item_name (k : str) (d : dict attr) : res str := match dget k d with Some (AName s) => Ok s | _ => Err EKey end.
Definition item_cap (d : dict attr) : res (option Z) := match dget "capacity" d with Some (ACap c) => Ok c | _ => Err EKey end.
Definition item_delay (d : dict attr) : res (option Z) := match dget "delay" d with Some (ADelay c) => Ok c | _ => Err EKey end.
Definition item_dict {V} (k : str) (d : dict V) : res V := match dget k d with Some x => Ok x | None => Err EKey end.
(** addEgressInterface (nodeexec.py:39-43). *)
Definition plug (n dev : str) (w : wire) (x : wires) : res wires := d <- item_dict n x;; Ok (dset n (dset dev w d) x).
(** One turn of the loop over the links (737-741) with __addLink (755-768). *)
Definition wire_up (t : topo) (x : wires) (l : str * str) : res wires :=
  let '(u, v) := l in
  d <- get_link u v t;;
  un <- item_dict u (tp_nodes t);;
  vn <- item_dict v (tp_nodes t);;
  udev <- item_name u d;;
  vdev <- item_name v d;;
  cap <- item_cap d;;
  delay <- item_delay d;;
  _ <- item_dict udev (tn_ifs un);;
  x <- plug u udev (mkWire v vdev cap delay) x;;
  _ <- item_dict vdev (tn_ifs vn);;
  plug v vdev (mkWire u udev cap delay) x.
Fixpoint wire_all (t : topo) (ls : list (str * str)) (x : wires) : res wires :=
  match ls with [] => Ok x | l :: r => x <- wire_up t x l;; wire_all t r x end.
Definition net_of (t : topo) : res wires := wire_all t (links t) (map (fun n => (n, [])) (nodes t)).
(** rebuildGlue (710-745). *)
Definition rebuild (t : topo) (n : net) : res net := _ <- net_stop n;; x <- net_of t;; Ok (mkNet true x).

(** ** The command line *)
Inductive file := FTopo (s : saved) | FPcap (packets : nat) | FOther.
Record cli := mkCli { c_topo : topo; c_unsaved : bool; c_net : net; c_disk : dict file }.
(** After a line: waiting for the next one, left by exit, or ended by an exception that nothing catches. *)
Inductive outcome := Stay | Leave | Died (e : exn).
(** The new state, how it goes on, and whether a question was asked. *)
Definition result := (cli * outcome * bool)%type.
Definition with_topo (t : topo) (c : cli) : cli := mkCli t (c_unsaved c) (c_net c) (c_disk c).
Definition with_unsaved (b : bool) (c : cli) : cli := mkCli (c_topo c) b (c_net c) (c_disk c).
Definition with_net (n : net) (c : cli) : cli := mkCli (c_topo c) (c_unsaved c) n (c_disk c).
Definition stay (c : cli) : result := (c, Stay, false).
(** self.unsaved_changes = True; self.syss_glue.rebuildGlue(self.topology), the end of do_add and do_remove. *)
Definition changed (c : cli) : result :=
  let c := with_unsaved true c in
  match rebuild (c_topo c) (c_net c) with
  | Ok n => (with_net n c, Stay, false)
  | Err e => (c, Died e, false)
  end.

Section Texts.
Context (capp dlyp : str -> res (option Z)).   (* unhumanize_capacity, unhumanize_delay *)
(** ** Link settings *)
Definition spaced (l : list str) : str := String.concat " " l.
Definition is_cap (w : str) : bool := str_eqb w "bw" || starts "bandwidth" w || starts "capacity" w.
(** The loop of __gather_link_characteristics (236-260): settings so far, the setting that is being read ([false] for
    capacity, [true] for delay), its words. *)
Definition put_setting (cur : option bool) (vals : list str) (s : option str * option str) : option str * option str :=
  match cur with
  | None => s
  | Some false => (Some (spaced vals), snd s)
  | Some true => (fst s, Some (spaced vals))
  end.
Fixpoint gather_loop (ws : list str) (cur : option bool) (vals : list str) (s : option str * option str) : option str * option str :=
  match ws with
  | [] => put_setting cur vals s
  | w :: r =>
      if is_cap w then gather_loop r (Some false) [] (put_setting cur vals s)
      else if starts "delay" w then gather_loop r (Some true) [] (put_setting cur vals s)
      else gather_loop r cur (vals ++ [w]) s
  end.
Definition gather (ws : list str) : res (str * str) :=
  match gather_loop ws None [] (None, None) with
  | (Some a, Some b) => Ok (a, b)
  | _ => Err EExc
  end.
(** setLinkCharacteristics (topobuild.py:254-265) given texts; an empty text is false. *)
Definition arg (parse : str -> res (option Z)) (s : str) : res (option (option Z)) :=
  if str_eqb s "" then Ok None else v <- parse s;; Ok (Some v).
Definition set_text (u v cs ds : str) (t : topo) : topo * option exn :=
  if negb (has_link u v t) then (t, Some EExc)
  else
    match arg capp cs with
    | Err e => (t, Some e)
    | Ok c =>
        match arg dlyp ds with
        | Err e => (match c with Some c => with_edges (set_attr u v "capacity" (ACap c) (tp_edges t)) t | None => t end, Some e)
        | Ok d => set_link u v c d t
        end
    end.
Definition add_text (u v cs ds : str) (t : topo) : topo * option exn :=
  match link_up u v t with
  | (t, None) => set_text u v cs ds t
  | r => r
  end.

(** ** Commands *)
(** do_set (186-234).  For an Ethernet address nothing is called at all; for an IP address setInterfaceAddresses is given
    an argument that it does not have, and the TypeError is printed. *)
Definition do_set (ws : list str) (c : cli) : result :=
  match ws with
  | what :: a :: b :: r =>
      if (List.length ws <? 5)%nat then stay c
      else if starts "node" what then stay c
      else if starts "link" what then
        match gather r with
        | Err _ => stay c
        | Ok (cs, ds) => stay (with_topo (fst (set_text a b cs ds (c_topo c))) c)
        end
      else stay c
  | _ => stay c
  end.
(** do_save (262-269). *)
Definition do_save (ws : list str) (c : cli) : result :=
  match ws with
  | [f] => stay (mkCli (c_topo c) false (c_net c) (dset f (FTopo (serialize (c_topo c))) (c_disk c)))
  | _ => stay c
  end.
(** self.syss_glue.stop(); self.syss_glue.rebuildGlue(self.topology). *)
Definition restart (c : cli) : cli * outcome :=
  match net_stop (c_net c) with
  | Err e => (c, Died e)
  | Ok n => match rebuild (c_topo c) n with Ok n => (with_net n c, Stay) | Err e => (with_net n c, Died e) end
  end.
(** do_load (271-290) with load_from_file (topobuild.py:449-457; its mode 'rU' is refused from Python 3.11 on). *)
Definition do_load (ws : list str) (ans : bool) (c : cli) : result :=
  match ws with
  | [f] =>
      if c_unsaved c && negb ans then (c, Stay, true)
      else
        match dget f (c_disk c) with
        | None => (c, Stay, c_unsaved c)
        | Some (FTopo s) =>
            match unserialize s with
            | Err e => (c, Died e, c_unsaved c)
            | Ok t => (restart (mkCli t false (c_net c) (c_disk c)), c_unsaved c)
            end
        | Some _ => (c, Died EValue, c_unsaved c)      (* JSONDecodeError or UnicodeDecodeError *)
        end
  | _ => stay c
  end.
(** do_exec (178-184). *)
Definition do_exec (ws : list str) (c : cli) : result :=
  match ws with [_] => (restart c, false) | _ => stay c end.
(** do_remove (295-325). *)
Definition do_remove (ws : list str) (c : cli) : result :=
  match ws with
  | what :: a :: r =>
      if starts "node" what || starts "switch" what || starts "router" what || starts "host" what then
        match r with [] => changed (with_topo (fst (remove_node a (c_topo c))) c) | _ => stay c end
      else if starts "edge" what || starts "link" what then
        match r with [b] => changed (with_topo (fst (remove_link a b (c_topo c))) c) | _ => stay c end
      else stay c
  | _ => stay c
  end.
(** The node commands of do_add (334-348): an existing name is an exception that nothing catches. *)
Definition add_kind (k : kind) (r : list str) (c : cli) : result :=
  let '(t, x) := add k (hd_error r) (c_topo c) in
  match x with
  | Err e => (with_topo t c, Died e, false)
  | Ok _ => changed (with_topo t c)
  end.
(** do_add (327-366). *)
Definition do_add (ws : list str) (c : cli) : result :=
  match ws with
  | [] => stay c
  | what :: r =>
      if starts "switch" what then add_kind Switch r c
      else if starts "router" what then add_kind Router r c
      else if starts "host" what then add_kind Host r c
      else if starts "link" what then
        match r with
        | u :: v :: s =>
            if (List.length r <? 6)%nat then stay c
            else changed (match gather s with
                          | Err _ => c
                          | Ok (cs, ds) => with_topo (fst (add_text u v cs ds (c_topo c))) c
                          end)
        | _ => stay c
        end
      else stay c
  end.
(** do_show (73-90) with __show_links (465-480): a link without label raises KeyError. *)
Definition labelled (d : dict attr) : bool := din "label" d.
Definition all_labelled (es : list edge) : bool := forallb (fun e => labelled (snd e)) es.
Definition do_show (ws : list str) (c : cli) : result :=
  match ws with
  | what :: r =>
      if starts "links" what then
        let es := match r with
                  | [] => edge_list (c_topo c)
                  | n :: _ => if din n (tp_nodes (c_topo c)) then filter (fun e => let '(a, b, _) := e in str_eqb n a || str_eqb n b) (tp_edges (c_topo c)) else []
                  end in
        if all_labelled es then stay c else (c, Died EKey, false)
      else stay c
  | [] => stay c
  end.
(** do_sendeth (491-502): the name is the rest of the line. *)
Definition do_sendeth (ws : list str) (c : cli) : result :=
  match ws with
  | [n] => if din n (tp_nodes (c_topo c)) then (if din n (nt_nodes (c_net c)) then stay c else (c, Died EKey, false)) else stay c
  | _ => stay c
  end.
(** do_replay (145-176), send_packet (nodeexec.py:93-97); [EOverflow] stands for ZeroDivisionError. *)
Definition emit (n dev : str) (c : cli) : option exn :=
  match dget n (nt_nodes (c_net c)) with
  | None => Some EKey
  | Some d =>
      match dget dev d with
      | None => Some EKey
      | Some w =>
          match w_cap w, w_delay w with
          | Some x, Some _ => if x =? 0 then Some EOverflow else None
          | Some x, None => if x =? 0 then Some EOverflow else Some EType
          | None, _ => Some EType
          end
      end
  end.
Definition do_replay (ws : list str) (c : cli) : result :=
  match ws with
  | [f; n; i] =>
      match dget f (c_disk c), dget n (tp_nodes (c_topo c)) with
      | None, _ => stay c
      | _, None => stay c
      | Some x, Some nd =>
          if din i (tn_ifs nd) then
            match x with
            | FPcap O => stay c
            | FPcap _ => match emit n i c with None => stay c | Some e => (c, Died e, false) end
            | _ => (c, Died EExc, false)       (* not a capture file *)
            end
          else stay c
      end
  | _ => stay c
  end.
(** do_exit (519-529): stop and leave. *)
Definition do_exit (ans : bool) (c : cli) : result :=
  if c_unsaved c && negb ans then (c, Stay, true)
  else match net_stop (c_net c) with
       | Ok n => (with_net n c, Leave, c_unsaved c)
       | Err e => (c, Died e, c_unsaved c)
       end.
(** The commands by name (methods do_...). *)
Definition command (name : str) (ans : bool) (ws : list str) (c : cli) : option result :=
  if str_eqb name "show" then Some (do_show ws c)
  else if str_eqb name "set" then Some (do_set ws c)
  else if str_eqb name "sendeth" then Some (do_sendeth ws c)
  else if str_eqb name "load" then Some (do_load ws ans c)
  else if str_eqb name "save" then Some (do_save ws c)
  else if str_eqb name "monitor" then Some (stay c)
  else if str_eqb name "unmonitor" then Some (stay c)
  else if str_eqb name "exec" then Some (do_exec ws c)
  else if str_eqb name "add" then Some (do_add ws c)
  else if str_eqb name "remove" then Some (do_remove ws c)
  else if str_eqb name "replay" then Some (do_replay ws c)
  else if str_eqb name "exit" then Some (do_exit ans c)
  else if str_eqb name "EOF" then Some (do_exit ans c)
  else if str_eqb name "help" then Some (stay c)
  else None.
(** default (531-560): the order in which abbreviations are tried. *)
Definition abbreviated : list str := ["show"; "set"; "sendeth"; "load"; "save"; "monitor"; "unmonitor"; "exec"; "add"; "remove"; "replay"].
Definition find_command (w : str) : option str := find (fun x => starts x w) abbreviated.
(** Cmd.onecmd. *)
Definition line (ans : bool) (ws : list str) (c : cli) : result :=
  match ws with
  | [] => stay c                    (* emptyline (292) *)
  | w :: r =>
      match command w ans r c with
      | Some x => x
      | None => match find_command w with
                | Some full => match command full ans r c with Some x => x | None => stay c end
                | None => stay c    (* "Unrecognized command" *)
                end
      end
  end.
(** Cmd.cmdloop: lines one after the other, with the answers, until exit or an exception. *)
Fixpoint session (h : list (list str * bool)) (c : cli) : cli * outcome :=
  match h with
  | [] => (c, Stay)
  | (ws, ans) :: r =>
      match line ans ws c with
      | (c, Stay, _) => session r c
      | (c, o, _) => (c, o)
      end
  end.
End Texts.
(** run_simulation (800-822): SyssGlue.__init__ builds the network from nothing. *)
Definition start (t : topo) (disk : dict file) : res cli := n <- rebuild t (mkNet false []);; Ok (mkCli t false n disk).
