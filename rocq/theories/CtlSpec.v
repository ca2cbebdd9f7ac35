(** What the settings of a capture device should do (C118), in terms of the calls made and their outcomes. *)
From Verif Require Import Base CtlModel.
#[local] Open Scope list_scope.

(** The value last set by a call that returned normally; [l] pairs calls with whether they did. *)
Definition last_set (dflt : Z) (o : opt) (l : list (op * bool)) : Z :=
  fold_left (fun x '(c, ok) => match c with Set_ o' v => if opt_eqb o' o && ok then v else x | Activate => x end) l dflt.
(** Settings that can be made only before activation, or at any time, or only afterwards. *)
Definition early (o : opt) : Prop := o <> Nonblock /\ o <> Direction.
(** A value that means something for the setting, and that the device supports. *)
Definition acceptable (d : device) (o : opt) (v : Z) : Prop :=
  - 2 ^ 31 <= v < 2 ^ 31 /\
  match o with
  | Tstamp => In v (d_types d) /\ Forall (fun t => 0 <= t <= 4) (d_types d)
  | Precision => (v = 0 \/ v = 1) /\ d_prec d v = true
  | Direction => d_dir d v = true
  | _ => True
  end.
(** The link types of pcap_datalink(3) that the class names, DLT_NULL to DLT_FDDI, DLT_RAW and DLT_LINUX_SLL. *)
Definition known_link (x : Z) : Prop := 0 <= x <= 10 \/ x = 12 \/ x = 113.
