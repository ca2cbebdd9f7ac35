(** Proofs about receiving on a live capture device. *)
From Coq Require Import List ZArith QArith Qminmax Bool Lia Lqa.
From Verif Require Import RdevModel RdevSpec.
Open Scope Q_scope.

Lemma qle_true : forall a b, Qle_bool a b = true <-> a <= b.
Proof. exact Qle_bool_iff. Qed.
Lemma qle_false : forall a b, Qle_bool a b = false <-> b < a.
Proof.
  intros a b. split; intros H.
  - apply Qnot_le_lt. intros L. apply qle_true in L. congruence.
  - destruct (Qle_bool a b) eqn:E; [|reflexivity]. apply qle_true in E. exfalso. apply (Qlt_not_le _ _ H E).
Qed.
Lemma arrived_there : forall w m, arrived w m = true <-> there w m.
Proof.
  intros w m. unfold arrived, there. destruct (w_at w) as [a|].
  - rewrite qle_true. split; [intros H; now exists a|intros (b & [= <-] & H); exact H].
  - split; [discriminate|intros (b & ? & _); discriminate].
Qed.
Lemma qmax_from : forall now a, from_now now a (qmax now a).
Proof.
  intros now a. unfold qmax, from_now. destruct (Qle_bool now a) eqn:E.
  - right. apply qle_true in E. split; [reflexivity|exact E].
  - left. apply qle_false in E. split; [reflexivity|now apply Qlt_le_weak].
Qed.
Lemma qmax_ge : forall now a, a <= qmax now a /\ now <= qmax now a.
Proof. intros now a. destruct (qmax_from now a) as [(E & H)|(E & H)]; lra. Qed.

(** Reading at a moment when the packet is there, whatever state the device is in. *)
Lemma next_there : forall w nb now, sane w -> there w now -> exists m, next_ex w nb now = RPkt m /\ m == now.
Proof.
  intros w nb now (_ & S) T. unfold next_ex. destruct nb.
  - rewrite (proj2 (arrived_there w now) T). exists now. split; reflexivity.
  - destruct T as (a & E & L). rewrite E. destruct (w_to w) as [d|].
    + assert (H : arrived w (now + d) = true).
      { apply arrived_there. exists a. split; [exact E|]. pose proof (S d eq_refl). lra. }
      rewrite H. eexists. split; [reflexivity|]. destruct (qmax_from now a) as [(X & Y)|(X & Y)]; lra.
    + eexists. split; [reflexivity|]. destruct (qmax_from now a) as [(X & Y)|(X & Y)]; lra.
Qed.

Lemma rdev_select : forall d w t now fd, sane w -> d_fd d = Some fd -> (0 <= fd)%Z -> 0 <= t ->
  (forall a, w_at w = Some a -> a <= now + t -> exists m, recv d w (Some t) now = RPkt m /\ from_now now a m) /\
  (~ there w (now + t) -> recv d w (Some t) now = RNone (now + t)).
Proof.
  intros d w t now fd S Ef Hf Ht. unfold recv. rewrite Ef, (proj2 (Z.leb_le 0 fd) Hf), (proj2 (qle_true 0 t) Ht). cbn [negb]. split.
  - intros a Ea La. rewrite Ea. assert (H : arrived w (now + t) = true) by (apply arrived_there; now exists a). rewrite H.
    destruct (next_there w (d_nb d) (qmax now a) S) as (m & -> & Em).
    { exists a. split; [exact Ea|apply qmax_ge]. }
    exists m. split; [reflexivity|]. destruct (qmax_from now a) as [(X & Y)|(X & Y)]; [left|right]; split; lra.
  - intros N. destruct (arrived w (now + t)) eqn:E; [|reflexivity]. apply arrived_there in E. contradiction.
Qed.

Lemma rdev_forever : forall d w timeout now fd, sane w -> d_fd d = Some fd -> (0 <= fd)%Z ->
  match timeout with Some t => t < 0 | None => True end ->
  match w_at w with
  | Some a => exists m, recv d w timeout now = RPkt m /\ from_now now a m
  | None => recv d w timeout now = RWait
  end.
Proof.
  intros d w timeout now fd S Ef Hf Ht.
  assert (E : match timeout with Some t => if negb (Qle_bool 0 t) then None else Some t | None => None end = None).
  { destruct timeout as [t|]; [|reflexivity]. apply qle_false in Ht. now rewrite Ht. }
  unfold recv. rewrite E, Ef, (proj2 (Z.leb_le 0 fd) Hf). destruct (w_at w) as [a|] eqn:Ea; [|reflexivity].
  destruct (next_there w (d_nb d) (qmax now a) S) as (m & -> & Em).
  { exists a. split; [exact Ea|apply qmax_ge]. }
  exists m. split; [reflexivity|]. destruct (qmax_from now a) as [(X & Y)|(X & Y)]; [left|right]; split; lra.
Qed.

(** The polling loop, in nonblocking state. *)
Definition poll_ok (w : world) (t m expiry now : Q) (r : rres) : Prop :=
  match r with
  | RPkt x => there w x /\ now <= x /\ x < expiry + t / 10 + m /\
              forall a, w_at w = Some a -> now < a -> x <= a + t / 10 + m
  | RNone x => expiry <= x /\ ~ there w x /\ (x == now /\ expiry <= now \/ x < expiry + t / 10 + m)
  | _ => False
  end.

Lemma poll_S : forall k w nb t expiry now n, poll (S k) w nb t expiry now n =
  if negb (Qle_bool expiry now) then
    match next_ex w nb (now + t / 10 + w_late w n) with RNone now' => poll k w nb t expiry now' (S n) | r => r end
  else RNone now.
Proof. reflexivity. Qed.

Lemma poll_spec : forall k w t m expiry now n, sane w -> late_by w m -> 0 < t ->
  expiry - now <= inject_Z (Z.of_nat k) * (t / 10) -> ~ there w now ->
  poll_ok w t m expiry now (poll (S k) w true t expiry now n).
Proof.
  induction k as [|k IH]; intros w t m expiry now n S Lm Ht Hk Nt.
  - cbn [poll]. assert (E : Qle_bool expiry now = true) by (apply qle_true; change (inject_Z (Z.of_nat 0)) with 0 in Hk; lra).
    rewrite E. unfold poll_ok. apply qle_true in E. split; [exact E|]. split; [exact Nt|]. left. split; [reflexivity|exact E].
  - rewrite poll_S. destruct (Qle_bool expiry now) eqn:E; cbn [negb].
    + unfold poll_ok. apply qle_true in E. split; [exact E|]. split; [exact Nt|]. left. split; [reflexivity|exact E].
    + apply qle_false in E. pose proof (proj1 S n) as Hl. pose proof (Lm n) as Hm. unfold next_ex.
      assert (T10 : 0 < t / 10) by (apply Qlt_shift_div_l; lra).
      set (q := t / 10) in *. set (x := now + q + w_late w n) in *.
      assert (Hx : now + q <= x /\ x <= now + q + m) by (unfold x; lra).
      clearbody x.
      destruct (arrived w x) eqn:A.
      * apply arrived_there in A. unfold poll_ok. fold q. split; [exact A|]. split; [lra|]. split; [lra|]. intros a Ea La. lra.
      * assert (Nx : ~ there w x) by (intros B; apply arrived_there in B; congruence).
        assert (Hk' : expiry - x <= inject_Z (Z.of_nat k) * q).
        { rewrite Nat2Z.inj_succ in Hk. unfold Z.succ in Hk. rewrite inject_Z_plus, Qmult_plus_distr_l in Hk. change (inject_Z 1) with 1 in Hk. lra. }
        specialize (IH w t m expiry x (Datatypes.S n) S Lm Ht Hk' Nx).
        destruct (poll (Datatypes.S k) w true t expiry x (Datatypes.S n)) as [y|y| | |]; unfold poll_ok in *; try contradiction; fold q in IH |- *.
        -- destruct IH as (I1 & I2 & I3 & I4). split; [exact I1|]. split; [lra|]. split; [exact I3|].
           intros a Ea La. destruct (Qlt_le_dec x a) as [L|L]; [now apply I4|].
           exfalso. apply Nx. now exists a.
        -- destruct IH as (I1 & I2 & I3). split; [exact I1|]. split; [exact I2|]. destruct I3 as [(I3 & _)|I3]; right; lra.
Qed.

Lemma rdev_poll : forall d w t m now fd, sane w -> late_by w m -> d_fd d = Some fd -> (fd < 0)%Z -> d_rec d = true -> d_nb d = true ->
  0 < t -> ~ there w now ->
  match recv d w (Some t) now with
  | RPkt x => there w x /\ now <= x /\ x < now + t + t / 10 + m /\ forall a, w_at w = Some a -> x <= a + t / 10 + m
  | RNone x => ~ there w x /\ now + t <= x /\ x < now + t + t / 10 + m
  | _ => False
  end.
Proof.
  intros d w t m now fd S Lm Ef Hf Er En Ht Nt. unfold recv. rewrite Ef, Er, En.
  assert (F : (0 <=? fd)%Z = false) by (apply Z.leb_gt; lia). rewrite F.
  assert (P : Qle_bool 0 t = true) by (apply qle_true; lra). rewrite P. cbn [negb].
  assert (Z : Qeq_bool t 0 = false).
  { destruct (Qeq_bool t 0) eqn:E; [|reflexivity]. apply Qeq_bool_iff in E. lra. }
  rewrite Z. cbn [negb].
  assert (T10 : t == 10 * (t / 10)) by (field).
  pose proof (poll_spec 10 w t m (now + t) now 0 S Lm Ht) as H. cbn [Z.of_nat] in H.
  assert (Hk : now + t - now <= inject_Z (Z.of_nat 10) * (t / 10)).
  { change (inject_Z (Z.of_nat 10)) with 10. lra. }
  specialize (H Hk Nt). revert H. generalize (poll 11 w true t (now + t) now 0). intros r H.
  destruct r as [x|x| | |]; unfold poll_ok in H; try contradiction.
  - destruct H as (H1 & H2 & H3 & H4). repeat split; auto. intros a Ea. apply H4; [exact Ea|].
    apply Qnot_le_lt. intros L. apply Nt. now exists a.
  - destruct H as (H1 & H2 & H3). repeat split; auto. destruct H3 as [(_ & H3)|H3]; lra.
Qed.

(** Nothing to wait for: no time given. *)
Lemma rdev_zero : forall d w now fd, d_fd d = Some fd -> (fd < 0)%Z -> d_nb d = true ->
  recv d w (Some 0) now = if arrived w now then RPkt now else RNone now.
Proof.
  intros d w now fd Ef Hf En. unfold recv. rewrite Ef. assert (F : (0 <=? fd)%Z = false) by (apply Z.leb_gt; lia). rewrite F.
  cbn. rewrite En. destruct (d_rec d); reflexivity.
Qed.

Lemma rdev_at_once : forall d w timeout now fd, d_fd d = Some fd -> (fd < 0)%Z -> d_nb d = true ->
  match timeout with Some t => t < 0 | None => True end -> ~ there w now -> recv d w timeout now = RNone now.
Proof.
  intros d w timeout now fd Ef Hf En Ht N. unfold recv.
  assert (E : match timeout with Some t => if negb (Qle_bool 0 t) then None else Some t | None => None end = None).
  { destruct timeout as [t|]; [|reflexivity]. apply qle_false in Ht. now rewrite Ht. }
  rewrite E, Ef. assert (F : (0 <=? fd)%Z = false) by (apply Z.leb_gt; lia). rewrite F, En. unfold next_ex.
  destruct (arrived w now) eqn:A; [apply arrived_there in A; contradiction|]. destruct (d_rec d); reflexivity.
Qed.

Lemma rdev_ignored : forall d w t u now fd, d_fd d = Some fd -> (fd < 0)%Z -> d_rec d = false -> recv d w t now = recv d w u now.
Proof.
  intros d w t u now fd Ef Hf Er. unfold recv. rewrite Ef, Er.
  assert (F : (0 <=? fd)%Z = false) by (apply Z.leb_gt; lia). rewrite F. reflexivity.
Qed.

Lemma rdev_stale : forall fd w timeout now, (fd < 0)%Z -> ~ there w now ->
  recv (set_blocking (d_open false fd) true) w timeout now = RNone now.
Proof.
  intros fd w timeout now Hf N. unfold recv, set_blocking, d_open. cbn [d_fd d_rec d_nb].
  assert (F : (0 <=? fd)%Z = false) by (apply Z.leb_gt; lia). rewrite F. unfold next_ex.
  destruct (arrived w now) eqn:E; [|reflexivity]. apply arrived_there in E. now destruct N.
Qed.
