(** C95: the register of live capture devices. *)
From Coq Require Import List ZArith Bool String.
From Verif Require Import Dict PdevModel PdevSpec PdevProofs.
Import ListNotations.
Open Scope string_scope.
Open Scope list_scope.

(** Whatever threads open, close and filter devices in whatever order: closing, the filter of a constructor and
    set_bpf_filter_on_all_devices hand libpcap only handles that are open, and no handle is closed twice. *)
Theorem C95_handles : forall fok l, no_null l -> well_used (log (run fok l)).
Proof. exact pdev_used. Qed.

(** A call of set_bpf_filter_on_all_devices that returns has set its filter, and no other, once on every device that was
    ready when it returned. *)
Theorem C95_all : forall fok l t f l1 l2 l3, no_null l ->
  log (run fok l) = l1 ++ EAll t f :: l2 ++ EDone t f true :: l3 -> quiet t l2 ->
  NoDup (set_by t l2) /\ (forall r g, In (EFilt t r g) l2 -> g = f) /\
  forall id h, ready_dev (l1 ++ EAll t f :: l2) id h -> In (Some h) (set_by t l2).
Proof. exact pdev_all. Qed.

(** When it returns, every ready device that nobody else set a filter on during the call has the filter. *)
Theorem C95_filter : forall fok l t f l1 l2, no_null l ->
  log (run fok l) = l1 ++ EAll t f :: l2 -> quiet t l2 -> forall s', step fok (run fok l) (AEach t) = Some s' ->
  log s' = log (run fok l) ++ [EDone t f true] ->
  forall id h, ready_dev (log s') id h -> only_by t h l2 -> filter_on s' h = Some f.
Proof. exact pdev_filter. Qed.

(** It raises only at an open device that is not activated or refuses the filter, and gives the lock back. *)
Theorem C95_raises : forall fok l t f s', no_null l -> step fok (run fok l) (AEach t) = Some s' -> In (EDone t f false) (log s') ->
  ~ In (EDone t f false) (log (run fok l)) ->
  exists h k, nget (opn (run fok l)) h = Some k /\ (h_act k = false \/ fok f (h_dlt k) = false) /\
    log s' = log (run fok l) ++ [EFilt t (Some h) f; EDone t f false] /\ lock s' = None.
Proof. exact pdev_fails. Qed.

(** Whoever holds the lock can go on until it is free. *)
Theorem C95_lock : forall fok l t, no_null l -> lock (run fok l) = Some t ->
  exists n, lock (run fok (l ++ repeat (AEach t) n)) = None.
Proof. exact pdev_lock. Qed.

(** close on an object that was closed before raises KeyError and does nothing. *)
Theorem C95_close_again : forall fok l t id h s', no_null l -> In (EGone id h) (log (run fok l)) ->
  nget (objs (run fok l)) id = Some h -> step fok (run fok l) (AClose t id) = Some s' ->
  log s' = log (run fok l) ++ [EKeyErr t id] /\ reg s' = reg (run fok l) /\ opn s' = opn (run fok l).
Proof. exact pdev_twice. Qed.

(** An open handle that no object and no thread has stays open for good. *)
Theorem C95_leak_stands : forall fok l l2 h, no_null l -> lost (run fok l) h -> nget (opn (run fok (l ++ l2))) h <> None.
Proof. exact pdev_lost_open. Qed.

(** ** A run: two devices, one with its own filter; a filter on all of them while the other thread closes one *)
Definition any (_ : str) (_ : Z) : bool := true.
Definition demo : list act :=
  [AOpen 0 7 None (OOk 1); ARegister 0; AOpen 1 8 (Some "udp") (OOk 1); ARegister 1; AAll 0 "tcp"; AEach 0; AOwn 1;
   AClose 1 7; AEach 0; AEach 0; AClose 1 7; APclose 1; AClose 0 7].
Example demo_log : log (run any demo) =
  [EOpen 0; EReady 7 0; EOpen 1; EAll 0 "tcp"; EFilt 0 (Some 0%nat) "tcp"; EFilt 1 (Some 1%nat) "udp"; EReady 8 1;
   EFilt 0 (Some 1%nat) "tcp"; EDone 0 "tcp" true; EGone 7 0; EClose 0; EKeyErr 0 7] /\ no_null demo.
Proof.
  split; [reflexivity|]. intros t id H. cbn in H. intuition discriminate.
Qed.

(** ** Where it goes wrong *)
(** A device that libpcap refuses to create stays registered with a null pointer, which the next call passes on. *)
Theorem C95_null_refuted : exists l, ~ well_used (log (run any l)).
Proof.
  exists [ACreate 0 7 CNull; ARegister 0; AAll 1 "tcp"; AEach 1]. intros H.
  destruct (H [EFail 0; EAll 1 "tcp"] (EFilt 1 None "tcp") [EDone 1 "tcp" false] eq_refl) as (h & E & _). discriminate.
Qed.

(** One device that is created but not activated: the call raises and the devices after it keep what they had. *)
Theorem C95_created_refuted : exists l id h, no_null l /\ In (EDone 0 "tcp" false) (log (run any l)) /\
  ready_dev (log (run any l)) id h /\ filter_on (run any l) h = None.
Proof.
  exists [ACreate 0 7 (COk 1); ARegister 0; AOpen 0 8 None (OOk 1); ARegister 0; AAll 0 "tcp"; AEach 0], 8%nat, 1%nat.
  repeat split.
  - intros t id H. cbn in H. intuition discriminate.
  - cbn. tauto.
  - exists [EOpen 0; EReady 7 0; EOpen 1], [EAll 0 "tcp"; EFilt 0 (Some 0%nat) "tcp"; EDone 0 "tcp" false]. split; [reflexivity|].
    intros e He. cbn in He. intuition subst; discriminate.
Qed.

(** A constructor that fails, at its own filter or at the link type, leaves an open handle that nobody can close. *)
Theorem C95_leak_refuted : exists fok l h, no_null l /\ In (EFail 0) (log (run fok l)) /\ lost (run fok l) h /\
  exists id, nget (reg (run fok l)) id = Some (Some h).
Proof.
  exists (fun f _ => negb (String.eqb f "bad")), [AOpen 0 7 (Some "bad") (OOk 1); ARegister 0; AOwn 0], 0%nat. repeat split.
  - intros t id H. cbn in H. intuition discriminate.
  - cbn. tauto.
  - cbn. discriminate.
  - intros id. cbn. discriminate.
  - intros [|t]; reflexivity.
  - exists 7%nat. reflexivity.
Qed.

(** A method of a closed device still hands its handle to libpcap. *)
Theorem C95_use_refuted : exists l pre post h, no_null l /\ log (run any l) = (pre ++ EUse h :: post)%list /\ In (EClose h) pre.
Proof.
  exists [AOpen 0 7 None (OOk 1); ARegister 0; AClose 0 7; APclose 0; AUse 0 7], [EOpen 0; EReady 7 0; EGone 7 0; EClose 0], [], 0%nat.
  repeat split; [|cbn; tauto]. intros t id H. cbn in H. intuition discriminate.
Qed.

Print Assumptions C95_handles.
Print Assumptions C95_all.
Print Assumptions C95_filter.
Print Assumptions C95_raises.
Print Assumptions C95_lock.
Print Assumptions C95_close_again.
Print Assumptions C95_leak_stands.
Print Assumptions C95_null_refuted.
Print Assumptions C95_created_refuted.
Print Assumptions C95_leak_refuted.
Print Assumptions C95_use_refuted.
