(** What users of the simulator's command line expect (C87-C90). *)
From Verif Require Import TopoModel TopoSpec CliModel.
#[local] Open Scope string_scope.
#[local] Open Scope list_scope.
#[local] Open Scope Z_scope.

(** The current topology is in some file: it was written there, or it was read from there. *)
Definition stored (c : cli) : Prop :=
  exists f s, dget f (c_disk c) = Some (FTopo s) /\ (s = serialize (c_topo c) \/ unserialize s = Ok (c_topo c)).
(** Lines "set link ...", also abbreviated, and lines "load ...". *)
Definition set_link_line (ws : list str) : Prop :=
  exists w k r, ws = w :: k :: r /\ In w ["set"; "se"] /\ In k ["link"; "lin"; "li"; "l"].
Definition load_line (ws : list str) : Prop := exists w r, ws = w :: r /\ In w ["load"; "loa"; "lo"; "l"].
(** Lines that add a node by one of the names in [l]. *)
Definition adds_node (ws : list str) (name : str) : Prop :=
  exists w k r, ws = w :: k :: name :: r /\ In w ["add"; "ad"; "a"] /\
    In k ["host"; "hos"; "ho"; "h"; "switch"; "switc"; "swit"; "swi"; "sw"; "s"; "router"; "route"; "rout"; "rou"; "ro"; "r"; ""].

(** Each node of the topology is simulated, and a device of a node leads exactly where the link with this interface
    leads, with the capacity and delay of the link. *)
Definition wire_at (x : wires) (u dev : str) : option wire := match dget u x with Some d => dget dev d | None => None end.
Definition link_at (t : topo) (u dev : str) (w : wire) : Prop :=
  exists d, get_link u (w_to w) t = Ok d /\ dget u d = Some (AName dev) /\ dget (w_to w) d = Some (AName (w_dev w)) /\
    dget "capacity" d = Some (ACap (w_cap w)) /\ dget "delay" d = Some (ADelay (w_delay w)).
Record follows (t : topo) (x : wires) : Prop := {
  f_nodes : forall n, din n x = true <-> In n (nodes t);
  f_wires : forall u dev w, wire_at x u dev = Some w <-> link_at t u dev w }.

(** Words of a setting that are not taken for the name of a setting. *)
Definition value_word (w : str) : Prop :=
  ~ In w ["bw"; ""; "b"; "ba"; "ban"; "band"; "bandw"; "bandwi"; "bandwid"; "bandwidt"; "bandwidth";
          "c"; "ca"; "cap"; "capa"; "capac"; "capaci"; "capacit"; "capacity"; "d"; "de"; "del"; "dela"; "delay"].
(** The names of commands; what can be abbreviated according to the help text. *)
Definition commands : list str :=
  ["show"; "set"; "sendeth"; "load"; "save"; "monitor"; "unmonitor"; "exec"; "add"; "remove"; "replay"; "exit"].
Definition only_prefix_of (w full : str) : Prop :=
  w <> "" /\ In full commands /\ String.prefix w full = true /\ forall x, In x commands -> String.prefix w x = true -> x = full.

(** ** Lines that are expected to be harmless *)
Definition link_word (k : str) : Prop := In k ["link"; "lin"; "li"; "l"].
Definition exec_line (ws : list str) : Prop := exists w r, ws = w :: r /\ In w ["exec"; "exe"; "ex"; "e"].
Definition replay_line (ws : list str) : Prop := exists w r, ws = w :: r /\ In w ["replay"; "repla"; "repl"; "rep"].
(** Every link has a capacity, a delay and a label. *)
Definition complete (t : topo) : Prop := forall u v d, get_link u v t = Ok d ->
  (exists c, dget "capacity" d = Some (ACap c)) /\ (exists l, dget "delay" d = Some (ADelay l)) /\ din "label" d = true.
Section Texts.
Context (capp dlyp : str -> res (option Z)).
Definition readable (cs ds : str) : Prop := cs <> "" /\ ds <> "" /\ (exists c, capp cs = Ok (Some c) /\ c < 1000000000000000) /\ exists d, dlyp ds = Ok (Some d).
(** No load, exec or replay; no new node with a name that exists or is a key of link records; the settings of new links can
    be read. *)
Definition harmless (c : cli) (ws : list str) : Prop :=
  ~ load_line ws /\ ~ exec_line ws /\ ~ replay_line ws /\ (forall n, adds_node ws n -> ~ In n (nodes (c_topo c)) /\ ~ reserved n) /\
  (forall w k u v s cs ds, ws = w :: k :: u :: v :: s -> In w ["add"; "ad"; "a"] -> link_word k -> gather s = Ok (cs, ds) -> readable cs ds).
Fixpoint harmless_session (c : cli) (h : list (list str * bool)) : Prop :=
  match h with
  | [] => True
  | (ws, ans) :: r => harmless c ws /\ harmless_session (fst (fst (line capp dlyp ans ws c))) r
  end.
End Texts.

(** Names of the two settings, as the commands "add link" and "set link" take them. *)
Definition capacity_word (w : str) : Prop :=
  In w ["bw"; "b"; "ba"; "ban"; "band"; "bandw"; "bandwi"; "bandwid"; "bandwidt"; "bandwidth"; "c"; "ca"; "cap"; "capa"; "capac"; "capaci"; "capacit"; "capacity"].
Definition delay_word (w : str) : Prop := In w ["d"; "de"; "del"; "dela"; "delay"].
