(** What looking over a scenario and comparing scenarios should do (C116, C117). *)
From Verif Require Import Base Dict PacketModel NetModel TestModel TestSpec.
#[local] Open Scope list_scope.

(** Every event names only interfaces of the scenario, and every output event names some. *)
Definition in_order (ifs : devinfo) (e : event) : Prop :=
  match e with
  | EvIn dev _ => In dev (dkeys ifs)
  | EvOut o => oe_wait o <> [] /\ forall dev, In dev (dkeys (oe_wait o)) -> In dev (dkeys ifs)
  | EvTimeout _ => True
  end.
Definition well_formed (s : scen) : Prop := forall e, In e (sc_pend s) -> in_order (sc_ifs s) (sv_ev e).
(** Packets that can be sent and read. *)
Definition usable (e : event) : Prop := match e with EvIn _ p => exists q, reads_as p q | _ => True end.
(** Every expectation can be met by a packet that can be printed. *)
Definition possible (e : event) : Prop :=
  match e with EvOut o => forall dev m, In (dev, m) (oe_wait o) -> exists p, printable p /\ meets m p | _ => True end.
