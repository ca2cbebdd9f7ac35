(** What the author of a scenario relies on (C106, C107). *)
From Verif Require Import Base Dict PacketModel FieldModel AliasModel KeepModel.

(** An operation that uses neither packet [y] nor one of its headers. *)
Definition leaves (s : store) (y : nat) (o : op) : Prop :=
  ~ In y (match o with
          | OAdd p _ | OPrepend p _ | OInsert p _ _ | OSet p _ _ | ODel p _ | OCopy p | OPlusHdr p _ | OSer p => [p]
          | OPlus p q => [p; q] | _ => [] end) /\
  forall a, In a (refs s y) ->
    ~ In a (match o with OAssign a _ | OAdd _ a | OPrepend _ a | OInsert _ _ a | OSet _ _ a | OPlusHdr _ a => [a] | OHdrPlus a b => [a; b] | _ => [] end).
(** The same for the steps of an author. *)
Definition author_leaves (s : store) (y : nat) (a : astep) : Prop :=
  match a with
  | ADo o => leaves s y o
  | AIn _ _ _ => True
  | AOut args _ _ _ => ~ In y (map snd args)
  end.
(** The value a rule copies, [sent] being what went out on each device in the last output event. *)
Definition sent_value (sent : dict packet) (r : rule) : option gval :=
  match dget (r_dev r) sent with
  | Some p => match pkt_get_header p (r_from r) with Some h => get h (r_attr r) | None => None end
  | None => None
  end.
(** [hs] with attribute [r_set r] of its first [r_to r] header assigned. *)
Inductive assigned (r : rule) (v : gval) (hs hs' : packet) : Prop :=
  Assigned pre h h' post : hs = pre ++ h :: post -> hs' = pre ++ h' :: post -> (forall x, In x pre -> isinst x (r_to r) = false) ->
    isinst h (r_to r) = true -> set h (r_set r) (aval_of v) = Ok h' -> assigned r v hs hs'.
Inductive all_assigned (sent : dict packet) : list rule -> packet -> packet -> Prop :=
| NoRule hs : all_assigned sent [] hs hs
| OneRule r rs v hs hs1 hs2 : sent_value sent r = Some v -> assigned r v hs hs1 -> all_assigned sent rs hs1 hs2 -> all_assigned sent (r :: rs) hs hs2.
