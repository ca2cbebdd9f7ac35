(** What handing packets to a callback should do (C119). *)
From Verif Require Import Base LoopModel.
#[local] Open Scope list_scope.

(** The packets that have come and have not been handed over, in order. *)
Definition waiting {P} (c : cap P) : list P := concat (c_bufs c).
(** What the callback remembers after these packets. *)
Definition handled {P U} (cb : U -> P -> U * act) (u : U) (l : list P) : U := fold_left (fun u p => fst (cb u p)) l u.
(** No packet after one for which the callback called breakloop. *)
Definition stops_at_break {P U} (cb : U -> P -> U * act) (u : U) (l : list P) : Prop :=
  forall pre p post, l = pre ++ p :: post -> a_break (snd (cb (handled cb u pre) p)) = true -> post = [].
(** The callback called breakloop for one of these packets. *)
Definition breaks {P U} (cb : U -> P -> U * act) (u : U) (l : list P) : Prop :=
  exists pre p post, l = pre ++ p :: post /\ a_break (snd (cb (handled cb u pre) p)) = true.
