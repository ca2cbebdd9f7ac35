(** What users of live capture devices rely on, said of the events only. *)
From Coq Require Import List ZArith Bool.
From Verif Require Import Dict PdevModel.
Import ListNotations.

(** libpcap is given only handles it gave out before and that have not been closed, and gives out each one once. *)
Definition well_used (l : list ev) : Prop :=
  forall pre e post, l = pre ++ e :: post ->
    match e with
    | EOpen h => ~ In (EOpen h) pre
    | EClose h => In (EOpen h) pre /\ ~ In (EClose h) pre
    | EFilt _ r _ => exists h, r = Some h /\ In (EOpen h) pre /\ ~ In (EClose h) pre
    | _ => True
    end.

(** A device whose constructor has returned, that has not been closed, and whose object still exists. *)
Definition ready_dev (l : list ev) (id h : nat) : Prop :=
  exists pre post, l = pre ++ EReady id h :: post /\
    forall e, In e post -> e <> EDrop id /\ forall h', e <> EGone id h'.

(** No beginning or end of a call by this thread. *)
Definition quiet (t : nat) (l : list ev) : Prop :=
  forall f, ~ In (EAll t f) l /\ forall ok, ~ In (EDone t f ok) l.

(** The handles this thread set a filter on. *)
Definition set_by (t : nat) (l : list ev) : list (option nat) :=
  flat_map (fun e => match e with EFilt u r _ => if Nat.eqb u t then [r] else [] | _ => [] end) l.

(** Nobody but this thread sets a filter on the handle. *)
Definition only_by (t h : nat) (l : list ev) : Prop :=
  (forall u f, In (EFilt u (Some h) f) l -> u = t) /\ forall f, ~ In (EUser h f) l.

(** libpcap never refuses to create a device. *)
Definition no_null (l : list act) : Prop := forall t id, ~ In (ACreate t id CNull) l.

(** The filter on a handle. *)
Definition filter_on (s : st) (h : nat) : option str :=
  match nget (opn s) h with Some k => h_flt k | None => None end.

(** A handle that is open although no object and no thread has it. *)
Definition lost (s : st) (h : nat) : Prop :=
  nget (opn s) h <> None /\ (forall id, nget (objs s) id <> Some h) /\ forall t, pcs s t = PIdle.
