(** What is expected of emulated sockets: which sockets are open after a history, who is bound where, what was put and got. *)
From Verif Require Import Base Enums SockModel.

Definition bound_to (n : snet) (s : nat) : option key := option_map (fun k => (k_proto k, k_ip k, k_port k)) (nth_error (n_socks n) s).
Definition pending (n : snet) (s : nat) : list msg := nth s (n_queues n) [].
(** The sockets open after a call, given those open before. *)
Definition open_after (lv : list nat) (o : sop) (r : result) : list nat :=
  match o, r with
  | SNew _ _ _ _ _ _, RSock s => s :: lv
  | SOther (AClose s), _ => remove Nat.eq_dec s lv
  | _, _ => lv
  end.
Fixpoint open_socks (lv : list nat) (log : list (sop * result)) : list nat :=
  match log with [] => lv | (o, r) :: t => open_socks (open_after lv o r) t end.
(** Calls that consist of one action. *)
Definition single (a : act) : Prop :=
  match a with ANew _ _ _ _ _ _ | AReg _ | ABind _ _ _ | ARebind _ _ | ADeliver _ _ _ _ | AWild _ | APut _ | AScan _ | AScanned _ => False | _ => True end.
(** Histories in which only open sockets are bound or closed, ports are given as integers, and the firewall works on bind. *)
Definition tidy_op (lv : list nat) (o : sop) : Prop :=
  match o with
  | SBind s a _ fw => In s lv /\ (exists p, a_port a = PInt p) /\ fw = true
  | SOther (AClose s) => In s lv
  | SOther a => single a
  | _ => True
  end.
Fixpoint tidy (lv : list nat) (log : list (sop * result)) : Prop :=
  match log with [] => True | (o, r) :: t => tidy_op lv o /\ tidy (open_after lv o r) t end.

(** Traces *)
Fixpoint puts (s : nat) (log : list (act * result)) : list msg :=
  match log with [] => [] | (_, RPut q m) :: t => if Nat.eqb q s then m :: puts s t else puts s t | _ :: t => puts s t end.
Fixpoint gots (s : nat) (log : list (act * result)) : list msg :=
  match log with [] => [] | (ARecv q, RGot m) :: t => if Nat.eqb q s then m :: gots s t else gots s t | _ :: t => gots s t end.
Fixpoint sent (log : list (act * result)) : list (flow * bytes) :=
  match log with [] => [] | (_, RSent f d) :: t => (f, d) :: sent t | _ :: t => sent t end.
Fixpoint to_stack (log : list (act * result)) : list (flow * bytes) :=
  match log with [] => [] | (_, RApp f d) :: t => (f, d) :: to_stack t | _ :: t => to_stack t end.
(** Messages offered to the application layer by accepted send_to_app calls, put on any queue, still on their way, and the
    number refused. *)
Definition message_of (local remote : address) (d : bytes) : list msg :=
  match a_ip local, a_port local, a_ip remote, a_port remote with
  | Some li, (PInt lp | PStr (Some lp)), Some ri, (PInt rp | PStr (Some rp)) => [((li, lp), (ri, rp), d)]
  | _, _, _, _ => []
  end.
Fixpoint offered (log : list (act * result)) : list msg :=
  match log with [] => [] | (ADeliver p l r d, RFlight _) :: t => message_of l r d ++ offered t | _ :: t => offered t end.
Fixpoint all_puts (log : list (act * result)) : list (nat * msg) :=
  match log with [] => [] | (_, RPut q m) :: t => (q, m) :: all_puts t | _ :: t => all_puts t end.
Fixpoint refusals (log : list (act * result)) : nat :=
  match log with [] => 0 | (_, RBool false) :: t => S (refusals t) | _ :: t => refusals t end.
Definition in_flight (n : snet) : list msg :=
  flat_map (fun f => match f with Some (InWild _ m) | Some (InPut _ m) => [m] | _ => [] end) (n_fl n).
(** A message goes to the queue of [s] and nowhere else, and no socket is changed. *)
Definition goes_only_to (s : nat) (m : msg) (n n' : snet) : Prop :=
  pending n' s = pending n s ++ [m] /\ (forall s', s' <> s -> pending n' s' = pending n s') /\ n_socks n' = n_socks n /\ n_down n' = n_down n.
Definition nothing_moves (n n' : snet) : Prop := n_queues n' = n_queues n /\ n_socks n' = n_socks n /\ n_down n' = n_down n.
