(** What users expect of topologies. *)
From Verif Require Import TopoModel.
#[local] Open Scope string_scope.
(** Names that are also keys of the per-link dictionaries. *)
Definition reserved (n : str) : Prop := n = "capacity" \/ n = "delay" \/ n = "label" \/ n = "source" \/ n = "target".
(** The names that a prefix must not produce. *)
Definition no_clash (p : str) (t : topo) : Prop := forall u v, has_link u v t = true -> u <> v /\ v <> rename p u.
(** Names given explicitly are not reserved, a prefix does not make names clash; with [b] there is no reload. *)
Definition fair (b : bool) (t : topo) (o : topo_op) : Prop :=
  match o with
  | TAdd _ (Some s) => ~ reserved s
  | TPrefix (Some p) => no_clash p t
  | TReload => b = false
  | _ => True
  end.
Fixpoint fair_run (b : bool) (t : topo) (os : list topo_op) : Prop :=
  match os with [] => True | o :: r => fair b t o /\ fair_run b (topo_step t o) r end.
(** All addresses other than zero are IPv4 addresses. *)
(** Not all zeros. *)
Definition some_ip (a : ipif) : Prop := exists b, In b (fst a) /\ b <> 0.
Definition v4_only (x : iface) : Prop := forall a, In a (if_ips x) -> some_ip a -> List.length (fst a) = 4%nat.
Definition topo_v4 (t : topo) : Prop := forall k n i, dget k (tp_nodes t) = Some n -> In i (map snd (tn_ifs n)) -> v4_only i.
(** Operations that do not set an Ethernet address by hand and do not reload. *)
Definition plain (o : topo_op) : Prop := match o with TReload => False | TAddresses _ _ (Some _) _ => False | _ => True end.
(** What is numbered: the interfaces of links at hosts and routers. *)
Definition numbered (t : topo) (x : str * str) : Prop :=
  (In (fst x) (nodes_of Host t) \/ In (fst x) (nodes_of Router t)) /\ exists v d, get_link (fst x) v t = Ok d /\ dget (fst x) d = Some (AName (snd x)).
(** The prefix that assignIPAddresses uses. *)
Definition prefix_used (p : option (Z * Z)) : Z * Z := match p with Some p => p | None => (10 * 2 ^ 24, 8) end.
