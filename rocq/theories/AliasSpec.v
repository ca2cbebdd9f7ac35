(** Independent packets (C105), in words a user of the library would use. *)
From Verif Require Import Base PacketModel AliasModel.
#[local] Open Scope nat_scope.

(** References point to existing objects. *)
Definition sound (s : store) : Prop := forall p a, In a (refs s p) -> a < length (st_objs s).
(** The packets and header objects an operation names. *)
Definition names_pkts (o : op) : list nat :=
  match o with
  | ONew _ | OAssign _ _ | OEmpty | OParse _ _ | OHdrPlus _ _ => []
  | OAdd p _ | OPrepend p _ | OInsert p _ _ | OSet p _ _ | ODel p _ | OCopy p | OPlusHdr p _ | OSer p => [p]
  | OPlus p q => [p; q]
  end.
Definition names_objs (o : op) : list nat :=
  match o with
  | OAssign a _ | OAdd _ a | OPrepend _ a | OInsert _ _ a | OSet _ _ a | OPlusHdr _ a => [a]
  | OHdrPlus a b => [a; b]
  | _ => []
  end.
(** A program that, of all that exists in [s], has been given the packet [x] only: it may use [x], the headers found in
    [x], and whatever it makes itself. *)
Definition given (s : store) (x : nat) (o : op) : Prop :=
  (forall p, In p (names_pkts o) -> p = x \/ length (st_pkts s) <= p) /\
  (forall a, In a (names_objs o) -> In a (refs s x) \/ length (st_objs s) <= a).
(** Nothing such a program does with [x] shows in [y]. *)
Definition unaffected (s : store) (x y : nat) : Prop := forall os, Forall (given s x) os -> content (run s os) y = content s y.
Definition share_no_header (s : store) (x y : nat) : Prop := forall a, In a (refs s x) -> ~ In a (refs s y).
