(** What users expect of capture files (C92). *)
From Coq Require Import QArith.
From Verif Require Import Base UnitSpec CapModel.
#[local] Open Scope list_scope.
#[local] Open Scope Z_scope.

(** Packets written one after the other, each with its own time, and the file that results. *)
Inductive written : list (bytes * Q) -> capture -> Prop :=
| w_nil : written [] []
| w_add : forall l f b t clock f', written l f -> write_packet (VBytes b) (Some t) clock f = Ok f' -> written (l ++ [(b, t)]) f'.
(** Times a float can hold, after 1970 and before 2038. *)
Definition usual_time (t : Q) : Prop := double t /\ (0 < t)%Q /\ (t < inject_Z (2 ^ 31))%Q.
(** At most [a] before and at most [b] after. *)
Definition within (a b t x : Q) : Prop := (t - a <= x)%Q /\ (x <= t + b)%Q.
(** The time of a record in microseconds. *)
Definition micros (r : record) : Z := r_sec r * 1000000 + r_usec r.
Definition usual_record (r : record) : Prop := 0 <= r_sec r < 2 ^ 31 /\ 0 <= r_usec r < 1000000 /\ r_caplen r = zlen (r_data r) /\ r_len r = zlen (r_data r).
(** Copying: reading a file and writing each packet with its time to a new file. *)
Inductive copied : capture -> capture -> Prop :=
| c_nil : copied [] []
| c_add : forall f g r p clock g', copied f g -> packet_of r = Ok p -> write_packet (VBytes (p_raw p)) (Some (p_time p)) clock g = Ok g' -> copied (f ++ [r]) g'.
(** A filter that looks at the bytes only, as libpcap's do. *)
Definition on_data (k : bytes -> bool) (r : record) : bool := k (r_data r).
(** Calling dispatch several times, once with each count: everything that came out and what is left of the file. *)
Inductive pieces (keep : record -> bool) : list Z -> capture -> list packet -> capture -> Prop :=
| pc_nil : forall f, pieces keep [] f [] f
| pc_next : forall n ns f out f1 more f2, dispatch keep (dispatch_count n) f = (Ok out, f1) -> pieces keep ns f1 more f2 -> pieces keep (n :: ns) f (out ++ more) f2.
