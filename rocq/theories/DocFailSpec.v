(** Tests and what it takes to pass them (C128). *)
From Verif Require Import Base Dict EthAddrModel EthModel PacketModel NetModel TestModel TestSpec HubSpec.
#[local] Open Scope list_scope.

(** Some packet is still expected to be sent. *)
Definition expects_output (s : scen) : Prop := exists o, In (EvOut o) (map sv_ev (sc_pend s)).
(** A program that sends nothing, whatever it is answered. *)
Definition never_sends (p : prog) : Prop := forall tr e, talk p tr e -> forall d q a, ~ In (CSend d q, a) tr.
(** A new scenario of two steps: the packet [p] comes in on [dev], read as [q], and one packet is expected on [dev']. *)
Definition two_steps (s : scen) (dev : str) (p q : packet) (dev' : str) (m : matcher) : Prop :=
  map sv_ev (sc_pend s) = [EvIn dev p; EvOut (mkOut [(dev', m)] [])] /\ sc_done s = [] /\ In dev (dkeys (sc_ifs s)) /\ reads_as p q.
(** What comes in, what is read and what is expected can be printed. *)
Definition all_print (p q : packet) (m : matcher) : Prop := printable p /\ printable q /\ printable (m_ref m).
(** The program can be run so that the test is reported as passed. *)
Definition can_pass (s : scen) (p : prog) : Prop := exists t' tr, runs (tnet_new s) p t' tr EndReturn /\ reports_pass (t_scen t') EndReturn = true.
(** No run is reported as passed.  (Unless the expectation itself raises Shutdown, in a predicate of the test.) *)
Definition cannot_pass (s : scen) (p : prog) : Prop :=
  forall t' tr e, runs (tnet_new s) p t' tr e -> (forall d x, ~ In (CSend d x, AnsExn EShutdown) tr) -> reports_pass (t_scen t') e = false.
