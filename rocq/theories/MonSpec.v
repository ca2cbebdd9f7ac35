(** What users of the simulator's monitors rely on, in terms of what can be seen. *)
From Coq Require Import List ZArith QArith Bool Ascii.
From Verif Require Import Dict CapModel MonModel.
Import ListNotations.
#[local] Open Scope list_scope.

(** The records written to a file, and the packets that a node's program is given from an interface. *)
Definition written (h : nat) (l : list obs) : list record :=
  flat_map (fun o => match o with Written h' r => if Nat.eqb h' h then [r] else [] | _ => [] end) l.
Definition got (n i : str) (l : list obs) : list (Q * res bytes) :=
  flat_map (fun o => match o with Got a b now p => if str_eqb a n && str_eqb b i then [(now, p)] else [] | _ => [] end) l.
(** A record holds a packet: its bytes, all of them, and when it was received (C92 says how exact the time is). *)
Definition holds (r : record) (x : Q * res bytes) : Prop :=
  exists b, snd x = Ok b /\ r_data r = b /\ r_caplen r = zlen b /\ r_len r = zlen b /\ (r_sec r, r_usec r) = stamp (fst x).
(** What is done with a file: opened, written to, closed. *)
Inductive op := OOpen | OWrite | OClose.
Definition ops (h : nat) (l : list obs) : list op :=
  flat_map (fun o => match o with
                     | Opened h' _ _ _ => if Nat.eqb h' h then [OOpen] else []
                     | Written h' _ => if Nat.eqb h' h then [OWrite] else []
                     | Closed h' => if Nat.eqb h' h then [OClose] else []
                     | _ => []
                     end) l.
Definition still_open (l : list op) : Prop := exists k, l = OOpen :: repeat OWrite k.
Definition closed_once (l : list op) : Prop := exists k, l = OOpen :: repeat OWrite k ++ [OClose].

(** A state that a simulation gets into. *)
Definition reach (w : str -> bool) (s : state) : Prop := exists t l, s = run w l (start t).
(** The interfaces that a command names. *)
Definition names (t : dict (list str)) (ws : list str) (n i : str) : Prop :=
  exists l r, located t ws = Some (l, r) /\ In (n, i) l.
(** Events that have nothing to do with the monitor on an interface. *)
Definition leaves_alone (t : dict (list str)) (n i : str) (e : event) : Prop :=
  match e with
  | Arrive _ => True
  | Line _ (Monitor ws) _ | Line _ (Unmonitor ws) _ => ~ names t ws n i
  | Line _ (Rebuild _) _ => False
  | Line _ _ _ => True
  end.
(** A command line while no packets arrive. *)
Definition enter (w : str -> bool) (c : cmd) (s : state) : state := step w s (Line [] c []).
(** No rebuild among the events. *)
Definition no_rebuild (e : event) : Prop := match e with Line _ (Rebuild _) _ => False | _ => True end.
(** Lines that install no monitors other than capture and debug monitors, the former with ASCII names. *)
Definition simple_base (t : dict (list str)) (base : str) : Prop :=
  forall n is i, In (n, is) t -> In i is -> is_ascii (file_name n i base) = true.
Definition simple_line (t : dict (list str)) (e : event) : Prop :=
  match e with
  | Line _ (Monitor ws) _ =>
      match located t ws with
      | Some (_, r) => match how_of r with Some (HPcap base) => simple_base t base | Some (HCode _) => False | _ => True end
      | None => True
      end
  | _ => True
  end.
(** ... where the topology changes with every rebuild. *)
Fixpoint simple (t : dict (list str)) (l : list event) : Prop :=
  match l with
  | [] => True
  | e :: r => simple_line t e /\ simple (match e with Line _ (Rebuild t') _ => t' | _ => t end) r
  end.
Definition kind_of_mon (m : mon) : option kind :=
  match m with Pcap _ | PcapNull => Some KPcap | Debug => Some KDebug | Null | Broken => None end.
(** No underscore. *)
Fixpoint plain (w : str) : bool :=
  match w with EmptyString => true | String c r => negb (Ascii.eqb c "_"%char) && plain r end.
(** Lines that install no monitors other than capture monitors, with ASCII names of files that can be written, and do not leave. *)
Definition good_line (w : str -> bool) (t : dict (list str)) (e : event) : Prop :=
  match e with
  | Line _ (Monitor ws) _ =>
      match located t ws with
      | Some (l, r) => match how_of r with
                       | Some (HPcap base) => forall n i, In (n, i) l -> is_ascii (file_name n i base) = true /\ w (file_name n i base) = true
                       | Some HDebug | Some (HCode _) => False
                       | _ => True
                       end
      | None => True
      end
  | Line _ Exit _ => False
  | _ => True
  end.
Fixpoint good (w : str -> bool) (t : dict (list str)) (l : list event) : Prop :=
  match l with
  | [] => True
  | e :: r => good_line w t e /\ good w (match e with Line _ (Rebuild t') _ => t' | _ => t end) r
  end.
(** Packets that can be turned into bytes. *)
Definition sound (p : packet) : Prop := exists b, snd p = Ok b.
Definition all_sound (e : event) : Prop :=
  match e with Arrive p => sound p | Line m1 _ m2 => Forall sound m1 /\ Forall sound m2 end.
