(** What users expect of several topologies in one program. *)
From Verif Require Import UnionModel.
#[local] Open Scope list_scope.
(** The operations on topology i, and that it takes part in no union. *)
Definition own (i : nat) (l : list w_act) : list topo_op :=
  flat_map (fun a => match a with WOp j o => if Nat.eqb i j then [o] else [] | _ => [] end) l.
Definition not_joined (i : nat) (a : w_act) : Prop := match a with WUnion _ j k => i <> j /\ i <> k | _ => True end.
(** The topology made by joining a and b has the nodes and links of both, as they were, and nothing else. *)
Definition joined (a b t : topo) : Prop :=
  nodes t = nodes a ++ nodes b /\
  (forall k, nodes_of k t = nodes_of k a ++ nodes_of k b) /\
  (forall n i, get_addresses n i t = if smem n (nodes a) then get_addresses n i a else get_addresses n i b) /\
  (forall u v d, get_link u v t = Ok d <-> get_link u v a = Ok d \/ get_link u v b = Ok d).
(** t is a with every name x replaced by p_x. *)
Definition renamed (p : str) (a t : topo) : Prop :=
  nodes t = map (rename p) (nodes a) /\
  (forall k, nodes_of k t = map (rename p) (nodes_of k a)) /\
  (forall n i, get_addresses (rename p n) i t = get_addresses n i a) /\
  (forall u v d, get_link u v a = Ok d -> exists d', get_link (rename p u) (rename p v) t = Ok d' /\
    dget (rename p u) d' = dget u d /\ dget (rename p v) d' = dget v d /\
    (forall k, k = "capacity" \/ k = "delay" \/ k = "label" -> dget k d' = dget k d)%str) /\
  (forall u v, has_link u v t = true -> exists x y, u = rename p x /\ v = rename p y /\ has_link x y a = true).
