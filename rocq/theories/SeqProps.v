(** Several scenarios in one run (C102). *)
From Verif Require Import BaseLemmas Dict PacketModel TestModel TestSpec TestProps SeqModel.
#[local] Open Scope string_scope.
#[local] Open Scope Z_scope.
#[local] Open Scope list_scope.

(** What testing this scenario alone can give. *)
Definition alone (nh : bool) (x : scen * prog) (r : result) : Prop := session nh NoAlarm [x] [r].
(** The script was finished, or stopped where an input was due or nothing had been passed. *)
Definition ends_quietly (r : result) : Prop :=
  match r with Tested s _ => sc_pend s = [] \/ sc_done s = [] \/ exists x rest, sc_pend s = x :: rest /\ is_out (sv_ev x) = false | Stopped => True end.

(** While an alarm of the scenario's own is armed, an output is expected and an event has been passed. *)
Definition own_ok (al : alarm) (s : scen) : Prop :=
  al <> OldAlarm /\ (al = OwnAlarm -> sc_done s <> [] /\ exists x rest, sc_pend s = x :: rest /\ is_out (sv_ev x) = true).
Lemma testpass_alarm e rest s s' r : testpass e rest s = (s', r) -> sc_pend s' = rest /\ (sc_timer s' = true -> sc_done s' <> [] /\ exists x l, rest = x :: l /\ is_out (sv_ev x) = true).
Proof. unfold testpass. destruct (ev_shows (sv_ev e)); intros [= <- <-]; cbn [with_queue sc_pend sc_timer sc_done]; (split; [reflexivity|]); [|discriminate].
  intros T. split; [destruct (sc_done s); discriminate|]. destruct rest as [|x l]; [discriminate|]. exists x, l. auto. Qed.
(** A call either passes an event, or leaves the passed events alone, the pending list as long, and the kind of its head. *)
Lemma call_shape t c t1 a : do_call t c = (t1, a) ->
  (passes t t1 = true /\ (sc_timer (t_scen t1) = true -> sc_done (t_scen t1) <> [] /\ exists x l, sc_pend (t_scen t1) = x :: l /\ is_out (sv_ev x) = true)) \/
  (passes t t1 = false /\ sc_done (t_scen t1) = sc_done (t_scen t) /\ forall x l, sc_pend (t_scen t) = x :: l -> exists x' l', sc_pend (t_scen t1) = x' :: l' /\ is_out (sv_ev x') = is_out (sv_ev x)).
Proof.
  assert (Stay : forall t, passes t t = false /\ sc_done (t_scen t) = sc_done (t_scen t) /\ forall x l, sc_pend (t_scen t) = x :: l -> exists x' l', sc_pend (t_scen t) = x' :: l' /\ is_out (sv_ev x') = is_out (sv_ev x)).
  { intros u. unfold passes. rewrite Nat.eqb_refl. repeat split. intros x l E. exists x, l. auto. }
  assert (Ln : forall (x : sev) l, Nat.eqb (List.length l) (List.length (x :: l)) = false). { intros x l. apply Nat.eqb_neq. cbn. lia. }
  destruct c as [|dv p]; cbn [do_call].
  - destruct (t_recv t) as [t' r] eqn:R. intros [= <- <-]. unfold t_recv in R. destruct (sc_pend (t_scen t)) as [|x rest] eqn:P; [injection R as <- <-; right; rewrite <- P; exact (Stay t)|].
    assert (Go : forall ev, (let '(s', r0) := testpass x rest (t_scen t) in
      match r0 with
      | Err x0 => (mkT s' (t_time t), Err x0)
      | Ok _ => let t'0 := mkT (with_queue (sc_pend s') (on_last sev_reread (sc_done s')) (sc_timer s') s') (t_time t) in
          match generate ev s' with Ok (dev, p) => (t'0, Ok (mkRecv (t_time t) dev p)) | Err x0 => (t'0, Err x0) end
      end) = (t', r) ->
      passes t t' = true /\ (sc_timer (t_scen t') = true -> sc_done (t_scen t') <> [] /\ exists x l, sc_pend (t_scen t') = x :: l /\ is_out (sv_ev x) = true)).
    { intros ev G. destruct (testpass x rest (t_scen t)) as [s' r0] eqn:TP. apply testpass_alarm in TP as [Ps Ts]. assert (Nl : forall (l : list sev), l <> [] -> on_last sev_reread l <> []) by (intros [|y [|z l]]; cbn; congruence).
      destruct r0 as [u|x0].
      - assert (E : t' = mkT (with_queue (sc_pend s') (on_last sev_reread (sc_done s')) (sc_timer s') s') (t_time t)) by (cbn zeta in G; destruct (generate ev s') as [[dev p]|x0]; injection G as <- _; reflexivity). subst t'.
        unfold passes. cbn [t_scen with_queue sc_pend sc_timer sc_done]. rewrite Ps, P, Ln. split; [reflexivity|]. intros T. destruct (Ts T) as [A B]. auto.
      - injection G as <- _. unfold passes. cbn [t_scen]. rewrite Ps, P, Ln. split; [reflexivity|]. exact Ts. }
    destruct (sv_ev x) as [dv pk|secs|o] eqn:E; [left; exact (Go (EvIn dv pk) R)|left; exact (Go (EvTimeout secs) R)|]. injection R as <- <-. right. rewrite <- P. exact (Stay t).
  - destruct (t_send t dv p) as [t' r] eqn:R. intros [= <- <-]. unfold t_send in R. destruct (sc_pend (t_scen t)) as [|x rest] eqn:P; [injection R as <- <-; right; rewrite <- P; exact (Stay t)|].
    destruct (dev_name dv (t_scen t)) as [dev|e0]; [|injection R as <- <-; right; rewrite <- P; exact (Stay t)].
    destruct (sv_ev x) as [| |o] eqn:E; [injection R as <- <-; right; rewrite <- P; exact (Stay t)..|].
    destruct (out_match o dev p) as [o' r0].
    assert (Head : forall n, passes t (mkT (with_head (mkSev (EvOut o') (sv_desc x) (sv_time x)) rest (t_scen t)) n) = false /\ sc_done (t_scen (mkT (with_head (mkSev (EvOut o') (sv_desc x) (sv_time x)) rest (t_scen t)) n)) = sc_done (t_scen t) /\
       forall y l, x :: rest = y :: l -> exists x' l', sc_pend (t_scen (mkT (with_head (mkSev (EvOut o') (sv_desc x) (sv_time x)) rest (t_scen t)) n)) = x' :: l' /\ is_out (sv_ev x') = is_out (sv_ev y)).
    { intros n. unfold passes. cbn [t_scen with_head sc_pend sc_done]. rewrite P. cbn [List.length]. rewrite Nat.eqb_refl. repeat split. intros y l [= <- <-]. do 2 eexists. split; [reflexivity|]. rewrite E. reflexivity. }
    destruct r0 as [[| |]|e0]; [injection R as <- <-; right; apply Head| |injection R as <- <-; right; apply Head|injection R as <- <-; right; apply Head].
    destruct (testpass _ rest (t_scen t)) as [s' r1] eqn:TP. apply testpass_alarm in TP as [Ps Ts]. left. assert (X : t_scen t' = s') by (destruct r1; injection R as <- _; reflexivity). unfold passes. rewrite X, Ps, P, Ln. split; [reflexivity|exact Ts]. Qed.
Lemma runs_own al t p al' t' tr e : runs_with al t p al' t' tr e -> own_ok al (t_scen t) -> own_ok al' (t_scen t').
Proof. induction 1 as [al t|al t e|al t A|al t e A|al t c k t1 a al2 t2 tr e D R IH|al t c k al2 t2 tr e A R IH]; intros O; try exact O; try (split; [discriminate|discriminate]).
  - apply IH. clear IH R. unfold alarm_after. destruct (call_shape _ _ _ _ D) as [[-> T]|(-> & Dn & Hd)].
    + destruct (sc_timer (t_scen t1)) eqn:Ti; cbn [andb]; [|split; discriminate]. destruct (negb _); [|split; discriminate]. split; [discriminate|]. intros _. exact (T eq_refl).
    + destruct O as [O1 O2]. split; [exact O1|]. intros E. destruct (O2 E) as (N & x & l & P & I). split; [congruence|]. destruct (Hd x l P) as (x' & l' & P' & I'). exists x', l'. split; [exact P'|congruence].
  - apply IH. split; discriminate. Qed.
Lemma quiet_left s p al' t' tr e : runs_with NoAlarm (tnet_new s) p al' t' tr e -> ends_quietly (Tested (t_scen t') e) -> al' = NoAlarm.
Proof. intros R Q. apply runs_own in R; [|split; discriminate]. destruct R as [N H]. destruct al'; [reflexivity| |contradiction]. destruct (H eq_refl) as (D & x & l & P & I). cbn in Q. destruct Q as [Q|[Q|(y & r & Q & J)]]; [congruence|contradiction|]. rewrite P in Q. injection Q as <- <-. congruence. Qed.

(** C102.  As long as every scenario ends where its script is finished, or an input is due, or before anything was passed,
    each result is one that testing the scenario alone can give, and if nothing else stops the run all scenarios are tested.
    Missing: scenarios that end where an output is due, for which it is false. *)
Theorem C102_independent_partial : forall nh items out, session nh NoAlarm items out -> Forall ends_quietly out ->
  exists done rest, items = done ++ rest /\ Forall2 (alone nh) done out /\
    (rest <> [] -> exists r out', out = out' ++ [r] /\ (nh = true \/ r = Stopped)).
Proof.
  intros nh items out H. remember NoAlarm as al eqn:E. induction H as [al|al s p al' t' tr e rest out R S N H IH|al s p al' t' tr e rest R S N F|al s p al' t' tr e rest R S|al s p al' t' tr e rest R A|al s p rest A]; intros Q; subst.
  - exists [], []. repeat split; [constructor|congruence].
  - apply Forall_cons_iff in Q as [Q Q']. pose proof (quiet_left _ _ _ _ _ _ R Q) as ->. destruct (IH eq_refl Q') as (d & r & -> & Al & L). exists ((s, p) :: d), r. split; [reflexivity|]. split.
    + constructor; [|exact Al]. eapply ss_next; eauto. constructor.
    + intros Nr. destruct (L Nr) as (x & o & -> & C). exists x, (Tested (t_scen t') e :: o). split; [reflexivity|exact C].
  - exists [(s, p)], rest. split; [reflexivity|]. split; [constructor; [eapply ss_raised; eauto|constructor]|]. intros _. eexists _, []. split; [reflexivity|]. left. reflexivity.
  - exists [(s, p)], rest. split; [reflexivity|]. split; [constructor; [eapply ss_noprint; eauto|constructor]|]. intros _. eexists _, []. split; [reflexivity|]. right. reflexivity.
  - exists [(s, p)], rest. split; [reflexivity|]. split; [constructor; [eapply ss_struck_after; eauto|constructor]|]. intros _. eexists _, []. split; [reflexivity|]. right. reflexivity.
  - discriminate. Qed.
Print Assumptions C102_independent_partial.
(** C102.  A scenario whose program followed its script to the end leaves no alarm: the next one starts as if it were first. *)
Theorem C102_finished_leaves_nothing : forall s p al' t' tr e, runs_with NoAlarm (tnet_new s) p al' t' tr e -> sc_pend (t_scen t') = [] -> al' = NoAlarm.
Proof. intros s p al' t' tr e R P. apply (quiet_left _ _ _ _ _ _ R). left. exact P. Qed.
Print Assumptions C102_finished_leaves_nothing.
(** An alarm left over is harmless once the next scenario has passed an event. *)
Theorem C102_pass_cancels : forall al t c t1 a, do_call t c = (t1, a) -> List.length (sc_pend (t_scen t1)) <> List.length (sc_pend (t_scen t)) -> alarm_after al t t1 <> OldAlarm.
Proof. intros al t c t1 a D L. unfold alarm_after, passes. apply Nat.eqb_neq in L. rewrite L. cbn [negb]. destruct (_ && _); discriminate. Qed.
Print Assumptions C102_pass_cancels.
(** The first scenario: an input, then an output; the program crashes in between.  The second: a time-out, which the program
    gets. *)
Definition sq1 : scen := scen_expect (EvOut (mkOut [("eth0", xexact xpkt)] [])) "out" (scen_expect (EvIn "eth0" xpkt) "in" xbare).
Definition pq1 : prog := Call CRecv (fun _ => Raise EValue).
Definition sq2 : scen := scen_expect (EvTimeout 1) "wait" (scen_new "two").
Definition pq2 : prog := Call CRecv (fun a => match a with AnsExn ENoPackets => Return | AnsExn e => Raise e | _ => Return end).
Example C102_independent_ex : exists out, session false NoAlarm [(sq2, pq2); (sq2, pq2)] out /\ Forall ends_quietly out /\ map passed out = [true; true].
Proof. eexists. split.
  - eapply ss_next; [eapply rw_call; [vm_compute; reflexivity|]; vm_compute alarm_after; apply rw_return|reflexivity|discriminate|]. cbn [kept].
    eapply ss_next; [eapply rw_call; [vm_compute; reflexivity|]; vm_compute alarm_after; apply rw_return|reflexivity|discriminate|constructor].
  - split; [repeat constructor|reflexivity]. Qed.
(** C102 is false after a scenario that ended where an output was due: a second scenario that always passes alone fails. *)
Theorem C102_independent_refuted : exists s p out, (forall r, alone false (s, p) r -> passed r = true) /\
  session false NoAlarm [(sq1, pq1); (s, p)] out /\ map passed out = [false; false] /\ exists r1 s2, out = [r1; Tested s2 (EndRaise ETestFail)].
Proof.
  exists sq2, pq2. eexists. split; [|split; [|split]].
  - intros r A. unfold alone in A. assert (G : forall al' t' tr e, runs_with NoAlarm (tnet_new sq2) pq2 al' t' tr e -> al' = NoAlarm /\ summary_prints (t_scen t') = true /\ reports_pass (t_scen t') e = true).
    { intros al' t' tr e R. unfold pq2 in R. inversion R; subst; [|discriminate]. match goal with D : do_call _ _ = _ |- _ => vm_compute in D; injection D as <- <- end.
      match goal with R2 : runs_with _ _ _ _ _ _ _ |- _ => vm_compute alarm_after in R2; inversion R2; subst; [|discriminate] end. repeat split; vm_compute; reflexivity. }
    inversion A; subst; try discriminate; match goal with R : runs_with _ _ _ _ _ _ _ |- _ => destruct (G _ _ _ _ R) as (-> & S & P) end; try congruence; try discriminate. exact P.
  - eapply ss_next; [eapply rw_call; [vm_compute; reflexivity|]; vm_compute alarm_after; apply rw_raise|vm_compute; reflexivity|discriminate|]. cbn [kept].
    eapply ss_next; [eapply rw_strike; [reflexivity|]; apply rw_raise|vm_compute; reflexivity|discriminate|constructor].
  - vm_compute. reflexivity.
  - do 2 eexists. reflexivity. Qed.
Print Assumptions C102_independent_refuted.
(** And it can end the whole run before the second scenario has started. *)
Theorem C102_stops_refuted : exists s p s1, (forall r, alone false (s, p) r -> r <> Stopped) /\ session false NoAlarm [(sq1, pq1); (s, p)] [Tested s1 (EndRaise EValue); Stopped].
Proof. exists sq2, pq2. eexists. split.
  - intros r A ->. unfold alone in A. inversion A; subst; try discriminate; match goal with R : runs_with _ _ _ _ _ _ _ |- _ => unfold pq2 in R; inversion R; subst; [|discriminate] end;
      match goal with D : do_call _ _ = _ |- _ => vm_compute in D; injection D as <- <- end; match goal with R2 : runs_with _ _ _ _ _ _ _ |- _ => vm_compute alarm_after in R2; inversion R2; subst; [|discriminate] end; discriminate.
  - eapply ss_next.
    + eapply rw_call; [vm_compute; reflexivity|]. vm_compute alarm_after. apply rw_raise.
    + vm_compute. reflexivity.
    + discriminate.
    + cbn [kept]. apply ss_struck_before. reflexivity. Qed.
Print Assumptions C102_stops_refuted.

(** C102.  A scenario counts as passed only if it was run to its end: the summary was printed, and the code under test returned
    with nothing left to do or left with the exception that says the network is gone. *)
Theorem C102_counted : forall r, passed r = true -> exists s e, r = Tested s e /\ summary_prints s = true /\ (e = EndReturn /\ failed_test s = None \/ e = EndRaise EShutdown).
Proof.
  intros [s e|] H; [|discriminate]. unfold passed, reports_pass in H. apply andb_true_iff in H as [H1 H2]. exists s, e. split; [reflexivity|]. split; [exact H1|].
  destruct e as [|x]; [left; split; [reflexivity|destruct (failed_test s); [discriminate|reflexivity]]|]. right. destruct x; try discriminate. reflexivity.
Qed.
Print Assumptions C102_counted.
