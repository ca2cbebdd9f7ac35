(** C116, C117: looking over scenarios, comparing scenarios. *)
From Verif Require Import BaseLemmas CodecLemmas Dict DictLemmas EthModel Ipv4Model TransportModel PacketModel PacketSpec NetModel TestModel TestSpec TestMatch TestBytes TestRun TestScript TestSave TestProps CheckModel CheckSpec CheckProofs.
#[local] Open Scope string_scope.
#[local] Open Scope Z_scope.
#[local] Open Scope list_scope.

(** C116. The check finds nothing exactly when every event names only interfaces of the scenario and every output event
    names some. *)
Theorem C116_check : forall s, sanity s = Ok true <-> well_formed s.
Proof. exact sanity_true. Qed.
Print Assumptions C116_check.
(** It comes to an answer when all events can be printed, *)
Theorem C116_answers_partial : forall s, Forall printable_event (map sv_ev (sc_pend s)) -> Forall fresh_sev (sc_pend s) -> exists b, sanity s = Ok b.
Proof.
  intros s H F. apply check_ok. rewrite Forall_map in H. rewrite Forall_forall in *. intros e I. exact (proj1 (printable_prt _ (H e I) (F e I))).
Qed.
Print Assumptions C116_answers_partial.
(** but when there is something to report about an event that cannot be printed, it raises an exception instead. *)
Theorem C116_answers_refuted : exists s, sanity s = Err EAttr /\ ~ well_formed s.
Proof. exists (scen_expect (EvIn "eth9" xra) "in" xbare). split; [vm_compute; reflexivity|]. rewrite <- sanity_true. vm_compute. discriminate. Qed.
Print Assumptions C116_answers_refuted.
(** C116. A scenario in which the check finds nothing, with packets that can be sent, read and printed and expectations that
    some packet meets, can be passed: there are calls that all go well and leave nothing pending. *)
Theorem C116_passable : forall s, sanity s = Ok true -> sc_done s = [] -> Forall fresh_sev (sc_pend s) -> Forall printable_event (map sv_ev (sc_pend s)) ->
  Forall usable (map sv_ev (sc_pend s)) -> Forall possible (map sv_ev (sc_pend s)) ->
  exists cs t l, t_run (tnet_new s) cs = (t, l) /\ Forall2 fine cs l /\ scen_done (t_scen t) = true.
Proof.
  intros s C D F P U Q. destruct (can_follow (sc_ifs s) _ Q) as (cs & Fo & Pc). destruct (t_run (tnet_new s) cs) as [t l] eqn:R. exists cs, t, l. split; [exact R|].
  apply (C34_calls_follow_script_partial s cs t l D F P); auto. apply sanity_true in C. rewrite Forall_map in *. rewrite Forall_forall in *. intros e I. apply deliver; [apply C, I|apply U, I].
Qed.
Print Assumptions C116_passable.
(** The check is said to see to it that there are input and output events; it does not. *)
Theorem C116_kinds_refuted : exists s, sanity s = Ok true /\ sc_pend s = [].
Proof. exists (scen_new "empty"). split; reflexivity. Qed.
Print Assumptions C116_kinds_refuted.
Example C116_case : sanity xscen = Ok true /\ well_formed xscen /\ sc_pend xscen <> [] /\ sanity (scen_expect (EvIn "eth9" xpkt) "in" xbare) = Ok false.
Proof. split; [vm_compute; reflexivity|]. split; [apply sanity_true; vm_compute; reflexivity|]. split; [discriminate|vm_compute; reflexivity]. Qed.

(** C117. Comparing scenarios is an equivalence, whatever the texts of packets are. *)
Theorem C117_equivalence : forall show show_raw s t u, let same := scen_same show show_raw in
  same s s = true /\ same s t = same t s /\ (same s t = true -> same t u = true -> same s u = true).
Proof. exact same_equivalence. Qed.
Print Assumptions C117_equivalence.
(** C117. A scenario that was saved and loaded is equal to the original, if packets that compare equal and send the same
    bytes have the same text. *)
Theorem C117_loaded_partial : forall show show_raw s d s' s2, (forall p q, same_pkt p q -> show p = show q) ->
  sc_done s = [] -> Forall fresh_sev (sc_pend s) -> Forall (fun e => storable_event (sv_ev e)) (sc_pend s) -> scen_save s = Ok (d, s') -> scen_load d = Ok s2 ->
  scen_same show show_raw s s2 = true.
Proof.
  intros show show_raw s d s' s2 K D F S A L. destruct (C35_save_load_partial s d s' D F S A) as (_ & s3 & L3 & _ & _ & _ & Nx & _ & D3 & E). rewrite L in L3. apply ok_inj in L3. subst s3.
  unfold scen_same. rewrite Nx, Z.eqb_refl, D, D3, !app_nil_r. cbn [andb]. now apply same_text.
Qed.
Print Assumptions C117_loaded_partial.
(** C117. Scenarios that are equal have as many events, of the same kinds, with the same descriptions, devices of input
    events and times to wait. *)
Theorem C117_alike : forall show show_raw s t, scen_same show show_raw s t = true ->
  Forall2 (fun a b => sv_desc a = sv_desc b /\ match sv_ev a, sv_ev b with
    | EvIn d p, EvIn d' p' => d = d' /\ show p = show p' | EvTimeout n, EvTimeout m => n = m | EvOut _, EvOut _ => True | _, _ => False end)
    (sc_pend s ++ sc_done s) (sc_pend t ++ sc_done t).
Proof.
  intros show show_raw s t H. unfold scen_same in H. apply Bool.andb_true_iff in H as [_ H]. revert H. generalize (sc_pend s ++ sc_done s) (sc_pend t ++ sc_done t).
  induction l as [|a l IH]; intros [|b m]; cbn [sevs_same]; try discriminate; intros H; constructor.
  - apply Bool.andb_true_iff in H as [H _]. unfold sev_same in H. rewrite !Bool.andb_true_iff, str_eqb_eq in H. destruct H as [[H D] _]. split; [exact D|].
    destruct (sv_ev a), (sv_ev b); cbn [ev_same] in H; try discriminate; [|now apply Z.eqb_eq|exact I]. rewrite Bool.andb_true_iff, !str_eqb_eq in H. exact H.
  - apply IH. now apply Bool.andb_true_iff in H as [_ H].
Qed.
Print Assumptions C117_alike.
(** Whatever the texts of packets are, equal scenarios need not test the same: how exact an expectation is, its wildcards
    and its predicates are not compared, nor the interfaces. *)
Definition other_data : packet := match xpkt with a :: b :: c :: _ => [a; b; c; HRaw [9; 9; 9]] | _ => [] end.
Definition expects (m : matcher) : scen := scen_expect (EvOut (mkOut [("eth0", m)] [])) "out" xbare.
Theorem C117_exactness_refuted : exists s t cs, Forall fresh_sev (sc_pend s) /\ Forall fresh_sev (sc_pend t) /\
  (forall show show_raw, scen_same show show_raw s t = true) /\ snd (t_run (tnet_new s) cs) = [AnsExn ETestFail] /\ snd (t_run (tnet_new t) cs) = [AnsSent].
Proof.
  exists (expects (mkM xpkt true [] [])), (expects (mkM xpkt false [] [])), [CSend (DName "eth0") other_data].
  assert (F : forall m, Forall fresh_sev (sc_pend (expects m))).
  { intros m. constructor; [|constructor]. unfold fresh_sev. cbn. split; [discriminate|]. split; [|reflexivity]. repeat constructor; cbn; intuition. }
  split; [apply F|]. split; [apply F|]. split; [|split; vm_compute; reflexivity].
  intros show show_raw. unfold scen_same, expects. cbn [scen_expect sc_pend sc_done sc_next]. change (sc_pend xbare) with (@nil sev). change (sc_done xbare) with (@nil sev). cbn [app sevs_same]. rewrite Z.eqb_refl. unfold sev_same.
  cbn [sv_ev sv_desc sv_time ev_same]. unfold out_text. cbn [oe_wait oe_got map app fst snd m_ref]. rewrite !str_eqb_refl, Z.eqb_refl. reflexivity.
Qed.
Print Assumptions C117_exactness_refuted.
Theorem C117_interfaces_refuted : exists s t cs, (forall show show_raw, scen_same show show_raw s t = true) /\
  snd (t_run (tnet_new s) cs) <> snd (t_run (tnet_new t) cs) /\ sanity s = Ok true /\ sanity t = Ok false.
Proof.
  exists (scen_expect (EvIn "eth0" xpkt) "in" xbare), (scen_expect (EvIn "eth0" xpkt) "in" (scen_new "other")), [CRecv].
  split; [|split; [vm_compute; discriminate|split; vm_compute; reflexivity]].
  intros show show_raw. unfold scen_same. cbn [scen_expect scen_new sc_pend sc_done sc_next]. change (sc_pend xbare) with (@nil sev). change (sc_done xbare) with (@nil sev). change (sc_next xbare) with 0. cbn [app sevs_same]. rewrite Z.eqb_refl. unfold sev_same.
  cbn [sv_ev sv_desc sv_time ev_same]. rewrite !str_eqb_refl, Z.eqb_refl. reflexivity.
Qed.
Print Assumptions C117_interfaces_refuted.
Example C117_case : forall show show_raw, scen_same show show_raw xkept xkept = true /\ scen_same show show_raw xkept xbare = false.
Proof. intros show show_raw. split; [apply same_equivalence; exact xkept|]. reflexivity. Qed.
