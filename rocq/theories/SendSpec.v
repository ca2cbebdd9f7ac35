(** What users expect of live devices (C93, C94). *)
From Verif Require Import Base EthAddrModel PacketModel SendModel.
#[local] Open Scope list_scope.
#[local] Open Scope Z_scope.

(** ** C93 *)
(** The device an argument stands for: a name in the table, the number of exactly one interface, or an interface of the table. *)
Inductive leads (d : dict port) : devarg -> str -> iftype -> Prop :=
| l_name : forall s i t, dget s d = Some (i, t) -> leads d (DName s) s t
| l_num : forall k s i t, dget s d = Some (i, t) -> if_num i = k -> (forall s' i' t', dget s' d = Some (i', t') -> if_num i' = k -> s' = s) -> leads d (DNum k) s t
| l_intf : forall i t, dget (if_name i) d = Some (i, t) -> leads d (DIntf (i, t)) (if_name i) t.
(** An argument that stands for nothing. *)
Definition unknown (d : dict port) (a : devarg) : Prop :=
  match a with
  | DName s => dget s d = None
  | DNum k => forall s i t, dget s d = Some (i, t) -> if_num i <> k
  | DIntf (i, t) => dget (if_name i) d = None
  end.
(** The table of a network: no name twice, each interface under its name. *)
Definition table (d : dict port) : Prop := NoDup (dkeys d) /\ forall s i t, dget s d = Some (i, t) -> if_name i = s.
(** A packet without the header of the link. *)
Definition above_link (p : packet) : packet := match p with HEth _ :: r | HNull _ :: r => r | _ => p end.
(** The same bytes, but those at 2 and 3 and those at 6 and 7 exchanged. *)
Definition exchanged (i : nat) : nat := match i with 2 => 3 | 3 => 2 | 6 => 7 | 7 => 6 | _ => i end%nat.
Definition host_order (b b' : bytes) : Prop := List.length b' = List.length b /\ forall i, nth_error b' i = nth_error b (exchanged i).
(** ** C94 *)
(** The address of a netmask with n ones, for addresses of [len] bytes. *)
Definition netmask (len : Z) (m : bytes) (n : Z) : Prop := 0 <= n <= 8 * len /\ zlen m = len /\ wfb m /\ unbe m = 2 ^ (8 * len) - 2 ^ (8 * len - n).
Definition has_mask (a : psaddr) : Prop := match a with AInet _ None | AInet6 _ _ None => False | _ => True end.
(** The last link-layer address, zeros if there is none. *)
Definition last_mac (l : list psaddr) (m : ethaddr) : Prop :=
  (exists l1 l2, l = l1 ++ ALink m :: l2 /\ forall m', ~ In (ALink m') l2) \/ (forall m', ~ In (ALink m') l) /\ m = repeat 0 6.
(** The destination port of the first UDP header, 0 if there is none. *)
Definition first_udp_port (p : packet) (n : Z) : Prop :=
  (exists l u r, p = l ++ HUdp u :: r /\ (forall u', ~ In (HUdp u') l) /\ n = TransportModel.udp_dst u) \/ (forall u, ~ In (HUdp u) p) /\ n = 0.
