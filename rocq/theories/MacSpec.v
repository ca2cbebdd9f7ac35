(** What a user of the macOS firewall expects. *)
From Verif Require Import Base Dict EthAddrModel FwModel FwSpec MacModel.
(** A packet is dropped while pf is enabled and some rule of the anchor says so. *)
Definition pf_dropped (p : pf) (k : pkt) : Prop := pf_refs p <> [] /\ exists r, In r (pf_anchor p) /\ pf_drops r k.
(** What a rule with a port means to pf: both ports are that port. *)
Definition covers_both (s : sel) (k : pkt) : Prop :=
  match s with SPort p n => pk_proto k = p /\ pk_sport k = n /\ pk_dport k = n | _ => covers s k end.
(** A state of pf that can be reached: the next number is new. *)
Definition pf_ok (p : pf) : Prop := Forall (fun t => t < pf_next p) (pf_refs p).
