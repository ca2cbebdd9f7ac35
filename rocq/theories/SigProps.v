(** C110: SIGINT during a receive on live devices. *)
From Coq Require Import List Bool Arith.
From Verif Require Import SigModel SigProofs.
Import ListNotations.

(** C110.  After any history, with the program inside recv_packet but not inside the lock of the queue: a signal makes that
    call raise Shutdown and return nothing else, with or without a timeout, whatever packets come in meanwhile; two steps of
    the handler and five of the program are enough. *)
Theorem C110_interrupted_partial : forall devs l0 l1 l2, let s := run (start devs) l0 in
  s_user s <> UOut -> held (s_user s) = false -> s_h s = [] -> Forall no_sig l1 -> Forall no_sig l2 -> 2 <= count is_handler l1 -> 5 <= count is_user l2 ->
  exists rest, s_log (run s (ASig :: l1 ++ l2)) = s_log s ++ RShutdown :: rest.
Proof. exact interrupted. Qed.
Print Assumptions C110_interrupted_partial.
(** Waiting without a timeout on an empty queue; and with a packet on its way. *)
Example C110_interrupted_ex :
  (let s := run (start 1) [ACall false; AUser false; AUser false; AUser false] in
   s_user s = UWait false /\ held (s_user s) = false /\ s_h s = [] /\
   s_log (run s (ASig :: [AHandler; AThread 0 7 true; AHandler] ++ repeat (AUser false) 5)) = [RShutdown]) /\
  (let s := run (start 1) [ACall true; AUser false; AUser false; AThread 0 7 true; AThread 0 7 true; AThread 0 7 true] in
   s_user s = UWait true /\ s_q s = [Some 7] /\ s_log (run s (ASig :: [AHandler; AHandler] ++ repeat (AUser false) 5)) = [RShutdown]).
Proof. vm_compute. repeat split. Qed.

(** C110 is false when the signal arrives while the program holds the lock of the queue, inside Queue.get: the handler asks
    for the lock (qsize) and never gets it.  Whatever happens afterwards, further signals included, the call does not
    return, no handler ends, and no capture thread delivers a packet it holds. *)
Theorem C110_locked_fails : forall devs l0 l, let s := run (start devs) l0 in held (s_user s) = true ->
  let s' := run s (ASig :: l) in
  s_user s' = s_user s /\ s_log s' = s_log s /\ s_h s' <> [] /\ s_q s' = s_q s /\
  (forall k m, nth_error (s_th s) k = Some (THas m) -> nth_error (s_th s') k = Some (THas m)).
Proof. intros devs l0 l s H. cbv zeta. change (run s (ASig :: l)) with (run (step s ASig) l).
  destruct (stuck_run (step s ASig) l H) as (U & Q & L & (h & Hh) & T); [discriminate|]. split; [exact U|]. split; [exact L|].
  split; [rewrite Hh; destruct h; discriminate|]. split; [exact Q|]. exact T. Qed.
Print Assumptions C110_locked_fails.
(** It happens: on an empty queue, and with a packet just taken, which is lost. *)
Theorem C110_interrupted_refuted : exists devs l0, let s := run (start devs) l0 in s_run s = true /\ s_user s = UHas /\ s_h s = [] /\
  forall l, s_log (run s (ASig :: l)) = [] /\ s_user (run s (ASig :: l)) = UHas.
Proof. exists 1, [ACall false; AUser false]. split; [reflexivity|]. split; [reflexivity|]. split; [reflexivity|]. intros l.
  destruct (C110_locked_fails 1 [ACall false; AUser false] l eq_refl) as (U & L & _). split; [exact L|exact U]. Qed.
Print Assumptions C110_interrupted_refuted.
Example C110_locked_ex : let s := run (start 1) [AThread 0 7 true; AThread 0 7 true; AThread 0 7 true; ACall true; AUser false; AUser false] in
  s_user s = UGot (Some 7) /\ held (s_user s) = true.
Proof. vm_compute. auto. Qed.
