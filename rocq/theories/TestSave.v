(** Saved and loaded scenarios; what receive calls hand over (proofs). *)
From Verif Require Import BaseLemmas CodecLemmas Dict DictLemmas EthAddrModel EthModel ArpModel Ipv4Model TransportModel Ipv6Model IcmpModel IcmpCodecProofs PacketModel PacketSpec PacketProofs PacketParse
  NetModel NetProofs TestModel TestSpec TestMatch TestBytes TestRun TestScript.
From Coq Require Import Sorted.
#[local] Open Scope string_scope.
#[local] Open Scope Z_scope.
#[local] Open Scope list_scope.

(** ** Packets *)
Definition strip (h : hdr) : hdr :=
  match h with
  | HTcp x => HTcp (mkTcp (tcp_src x) (tcp_dst x) (tcp_seq x) (tcp_ack x) (tcp_flags x) (tcp_window x) (tcp_urg x) 0 0)
  | _ => h
  end.
Lemma strip_ctx h : ctx (strip h) = ctx h.
Proof. destruct h; reflexivity. Qed.
Lemma strip_pre raw p h : pre_ser raw p (strip h) = pre_ser raw p h.
Proof. destruct h; reflexivity. Qed.
Lemma strip_ser hs : forall pre pre2, map ctx pre = map ctx pre2 -> ser pre2 (map strip hs) = ser pre hs.
Proof. induction hs as [|h hs IH]; intros pre pre2 H; [reflexivity|]. cbn [map ser].
  rewrite (IH (pre ++ [h]) (pre2 ++ [strip h])) by (rewrite !map_app, H; cbn [map]; rewrite strip_ctx; reflexivity).
  destruct (ser (pre ++ [h]) hs) as [[t' raw]|]; [|reflexivity]. cbn [bindr].
  rewrite (pre_ser_ctx raw (pre2 ++ strip h :: t') (pre ++ h :: t')) by (rewrite !map_app, H; cbn [map]; rewrite strip_ctx; reflexivity).
  rewrite strip_pre. reflexivity. Qed.
Lemma read_strip h q : canonical h -> no_ip_options h -> read_as h q -> q = strip h.
Proof. intros C N R. destruct h, q; cbn [read_as canonical no_ip_options strip] in *; try exact R; try discriminate R; try (subst; reflexivity).
  - destruct R as (k & _ & K & ->). rewrite (K N), N. destruct h; cbn in *. rewrite N. reflexivity.
  - rewrite R, C. destruct h; reflexivity.
  - rewrite R, C. destruct h; reflexivity. Qed.
Lemma pre_ser_options raw pk h h1 : pre_ser raw pk h = Ok h1 -> no_ip_options h -> no_ip_options (hdr_after h1).
Proof. intros H. destruct h; cbn [pre_ser] in H; try discriminate H; try (apply ok_inj in H; subst h1; cbn [hdr_after no_ip_options]; auto; fail); ok_step H; apply ok_inj in H; subst h1; auto.
  unfold ip_pre_serialize in E. ok_step E. apply ok_inj in E. subst. auto. Qed.
Lemma ser_options hs : forall pre hs' b, ser pre hs = Ok (hs', b) -> Forall no_ip_options hs -> Forall no_ip_options hs'.
Proof. induction hs as [|h hs IH]; intros pre hs' b H; [apply ok_pair_inj in H as [<- <-]; auto|].
  cbn [ser] in H. ok_step H. destruct a as [t' raw]. ok_step H. ok_step H. apply ok_pair_inj in H as [<- <-].
  intros F. inversion F; subst. constructor; [eapply pre_ser_options; eauto|eapply IH; eauto]. Qed.
Lemma storable_back p b c : storable p -> save_pkt p = Ok (b, c) -> exists q, pkt_new b c = Ok q /\ same_pkt p q.
Proof. intros (Hc & Hw & Hk & Hn) H. unfold save_pkt in H. ok_step H. destruct a as [p' raw]. apply ok_pair_inj in H as [<- <-].
  destruct p as [|h t]; [contradiction|]. destruct (packet_round_trip _ _ _ _ Hc Hw E) as (q & Q & R). exists q. split; [exact Q|].
  pose proof (packet_read_equal _ _ _ _ E R) as Eq. assert (S : q = map strip p').
  { destruct (ser_canonical _ _ _ _ E) as [K _]. specialize (K Hk). pose proof (ser_options _ _ _ _ E Hn) as N. clear -R K N.
    induction R as [|x y l l' X _ IH]; [reflexivity|]. inversion K; inversion N; subst. cbn [map]. f_equal; [eapply read_strip; eauto|auto]. }
  pose proof E as E'. unfold pkt_to_bytes in E'. destruct (ser_ctx _ _ _ _ E') as [_ L].
  split; [exact Eq|]. split.
  - rewrite E. subst q. unfold pkt_to_bytes. rewrite (strip_ser p' [] [] eq_refl). exact (ser_idem _ _ _ _ E').
  - split; [|rewrite <- (ser_prints _ _ _ _ E'); subst q; unfold printable; rewrite Forall_map; split; apply Forall_impl; intros [] K; exact K].
    subst q. destruct p' as [|h' t']; [discriminate|]. cbn [map first_cls] in *. injection L as L _. rewrite <- L. destruct h'; reflexivity. Qed.

Lemma mapr_Forall2 {A B} (f : A -> res B) l : forall l', mapr f l = Ok l' <-> Forall2 (fun x y => f x = Ok y) l l'.
Proof. induction l as [|x l IH]; intros l'; cbn [mapr].
  - split; [intros H; apply ok_inj in H; subst; constructor|intros H; inversion H; reflexivity].
  - split.
    + intros H. ok_step H. ok_step H. apply ok_inj in H. subst. constructor; [assumption|]. apply IH. reflexivity.
    + intros H. inversion H as [|? ? ? ? H1 H2]; subst. rewrite H1. cbn [bindr]. apply IH in H2. rewrite H2. reflexivity. Qed.
Lemma event_back e x e' : storable_event e -> fresh_event e -> save_event e = Ok (x, e') -> e' = e /\ exists e2, load_event x = Ok e2 /\ same_event e e2.
Proof. intros S F H. destruct e as [d p|n|o]; cbn [save_event storable_event fresh_event] in *.
  - ok_step H. destruct a as [b c]. apply ok_pair_inj in H as [<- <-]. split; [reflexivity|]. destruct (storable_back _ _ _ S E) as (q & Q & R). cbn [load_event]. rewrite Q. cbn [bindr]. eexists. split; [reflexivity|]. cbn [same_event]. auto.
  - apply ok_pair_inj in H as [<- <-]. split; [reflexivity|]. eexists. split; reflexivity.
  - destruct o as [w g]. cbn [oe_wait oe_got] in *. destruct F as (_ & _ & ->). cbn [mapr bindr] in H. ok_step H. apply ok_pair_inj in H as [<- <-]. split; [reflexivity|]. cbn [load_event mapr bindr].
    apply mapr_Forall2 in E. assert (K : exists w', Forall2 (fun x y => on_snd load_matcher x = Ok y) a w' /\ Forall2 (fun x y => fst y = fst x /\ same_matcher (snd x) (snd y)) w w').
    { induction E as [|[k m] [k' sm] w a X _ IH]; [exists []; split; constructor|]. inversion S as [|? ? S1 S2]; subst. destruct (IH S2) as (w' & W1 & W2).
      unfold on_snd in X. cbn [fst snd] in X, S1. ok_step X. apply ok_inj in X. injection X as <- <-. unfold save_matcher in E. ok_step E. destruct a1 as [b c]. apply ok_inj in E. subst a0.
      destruct (storable_back _ _ _ S1 E0) as (q & Q & R). exists ((k, mkM q (m_exact m) (m_wc m) (m_preds m)) :: w'). split.
      - constructor; [|exact W1]. unfold on_snd, load_matcher. cbn [fst snd s_raw s_first s_exact s_wc s_preds]. rewrite Q. reflexivity.
      - constructor; [|exact W2]. cbn [fst snd]. split; [reflexivity|]. unfold same_matcher. cbn [m_exact m_wc m_preds m_ref]. auto. }
    destruct K as (w' & W1 & W2). apply mapr_Forall2 in W1. rewrite W1. cbn [bindr]. eexists. split; [reflexivity|]. cbn [same_event oe_wait oe_got]. split; [exact W2|reflexivity]. Qed.
(** A scenario that has not been started comes back the same, and saving leaves it as it is. *)
Theorem save_load s d s' : sc_done s = [] -> Forall fresh_sev (sc_pend s) -> Forall (fun e => storable_event (sv_ev e)) (sc_pend s) -> scen_save s = Ok (d, s') ->
  s' = s /\ exists s2, scen_load d = Ok s2 /\ sc_name s2 = sc_name s /\ sc_ifs s2 = sc_ifs s /\ sc_files s2 = sc_files s /\ sc_next s2 = sc_next s /\ sc_timeout s2 = sc_timeout s /\
    sc_done s2 = [] /\ Forall2 same_sev (sc_pend s) (sc_pend s2).
Proof. intros Dn Fr St H. unfold scen_save in H. rewrite Dn, app_nil_r in H. ok_step H. apply ok_pair_inj in H as [<- <-]. apply mapr_Forall2 in E.
  assert (K : map snd a = sc_pend s /\ exists l, Forall2 (fun x y => load_sev x = Ok y) (map fst a) l /\ Forall2 same_sev (sc_pend s) l).
  { clear Dn. induction E as [|e y p a X _ IH]; [split; [reflexivity|exists []; split; constructor]|]. inversion Fr as [|? ? F1 F2]; inversion St as [|? ? S1 S2]; subst. destruct (IH F2 S2) as (I1 & l & I2 & I3).
    unfold save_sev in X. ok_step X. destruct a0 as [x e']. apply ok_inj in X. subst y. destruct (event_back _ _ _ S1 F1 E) as (-> & e2 & L & Q). cbn [map fst snd]. split; [f_equal; [destruct e; reflexivity|exact I1]|].
    exists (mkSev e2 (sv_desc e) (sv_time e) :: l). split; constructor; auto; [unfold load_sev; rewrite L; reflexivity|]. repeat split. exact Q. }
  destruct K as (K1 & l & K2 & K3). rewrite K1. split.
  - rewrite firstn_all, skipn_all. destruct s. cbn in *. subst. reflexivity.
  - unfold scen_load. cbn [sd_name sd_ifs sd_files sd_events sd_next sd_timeout]. apply mapr_Forall2 in K2. rewrite K2. cbn [bindr]. eexists. split; [reflexivity|]. cbn [sc_name sc_ifs sc_files sc_next sc_timeout sc_done sc_pend]. repeat (split; [reflexivity|]). exact K3. Qed.

(** ** Scenarios with the same events are told apart by no sequence of calls *)
Lemma same_match a b p : same_matcher a b -> m_match b p = m_match a p.
Proof. intros (E1 & E2 & E3 & _ & E4 & _). unfold m_match. rewrite E4, E3. destruct (pkt_to_bytes p) as [[p' ?]|]; [|reflexivity]. cbn [bindr]. destruct (pkt_to_bytes (m_ref a)) as [[r' ?]|]; [|reflexivity]. cbn [bindr].
  assert (C : forall c, comparison_attrs b c = comparison_attrs a c) by (intros c; unfold comparison_attrs; rewrite E1, E2; reflexivity).
  assert (D : forall r q, attrs_differ b r q = attrs_differ a r q) by (induction r as [|x r IH]; intros [|y q]; cbn [attrs_differ]; try reflexivity; rewrite C, IH; reflexivity).
  unfold compare. rewrite D. reflexivity. Qed.
Lemma same_compare a b : same_matcher a b -> forall r q, compare b r q = compare a r q.
Proof. intros (E1 & E2 & _) r q. assert (C : forall c, comparison_attrs b c = comparison_attrs a c) by (intros c; unfold comparison_attrs; rewrite E1, E2; reflexivity).
  assert (D : forall r q, attrs_differ b r q = attrs_differ a r q) by (clear r q; induction r as [|x r IH]; intros [|y q]; cbn [attrs_differ]; try reflexivity; rewrite C, IH; reflexivity).
  unfold compare. rewrite D. reflexivity. Qed.
Lemma same_fail a b p : same_matcher a b -> fail_exn b p = fail_exn a p.
Proof. intros S. pose proof (same_compare a b S) as C. destruct S as (E1 & E2 & E3 & _ & E4 & _). unfold fail_exn. rewrite E4, E2. destruct (pkt_to_bytes (m_ref a)) as [[r' ?]|]; [|reflexivity]. cbn [bindr]. rewrite C. reflexivity. Qed.
Definition same_waits (w w' : dict matcher) : Prop := Forall2 (fun x y => fst y = fst x /\ same_matcher (snd x) (snd y)) w w'.
Lemma same_dget w w' k : same_waits w w' -> match dget k w, dget k w' with Some a, Some b => same_matcher a b | None, None => True | _, _ => False end.
Proof. induction 1 as [|[a m] [a' m'] w w' [X Y] _ IH]; cbn [dget]; [exact I|]. cbn [fst snd] in *. subst a'. destruct (str_eqb k a); [exact Y|exact IH]. Qed.
Lemma same_ddel w w' k : same_waits w w' -> same_waits (ddel k w) (ddel k w').
Proof. induction 1 as [|[a m] [a' m'] w w' [X Y] Z IH]; cbn [ddel]; [constructor|]. cbn [fst snd] in *. subst a'. destruct (str_eqb k a); [exact Z|]. constructor; auto. Qed.
Lemma iff_bool a b : (a = true <-> b = true) -> a = b.
Proof. destruct a, b; intros [H K]; auto. symmetry. auto. Qed.
Lemma same_shows e f : same_event e f -> ev_shows f = ev_shows e.
Proof. destruct e, f; cbn [same_event]; try contradiction.
  - intros (_ & _ & _ & _ & H). apply iff_bool. cbn [ev_shows]. rewrite !pkt_prints. exact H.
  - reflexivity.
  - intros [H G]. cbn [ev_shows]. rewrite G. f_equal. clear G. induction H as [|x y l l' (_ & _ & _ & _ & _ & _ & _ & X) _ IH]; [reflexivity|]. cbn [forallb]. rewrite IH. f_equal. apply iff_bool. rewrite !pkt_prints. exact X. Qed.
Lemma same_pass e f r r' s s' : same_event (sv_ev e) (sv_ev f) -> Forall2 same_sev r r' ->
  snd (testpass f r' s') = snd (testpass e r s) /\ sc_pend (fst (testpass e r s)) = r /\ sc_pend (fst (testpass f r' s')) = r' /\
  sc_ifs (fst (testpass e r s)) = sc_ifs s /\ sc_ifs (fst (testpass f r' s')) = sc_ifs s'.
Proof. intros H R. unfold testpass. rewrite (same_shows _ _ H). destruct (ev_shows (sv_ev e)); [|repeat split]. cbn [fst snd with_queue sc_pend sc_ifs]. split; [|repeat split].
  destruct R as [|x y l l' (_ & _ & X) _]; [reflexivity|]. rewrite (same_shows _ _ X). reflexivity. Qed.
Definition alike (t u : tnet) : Prop := sc_ifs (t_scen u) = sc_ifs (t_scen t) /\ t_time u = t_time t /\ Forall2 same_sev (sc_pend (t_scen t)) (sc_pend (t_scen u)).
Lemma alike_call t u c t1 a u1 b : alike t u -> do_call t c = (t1, a) -> do_call u c = (u1, b) -> alike t1 u1 /\ a = b.
Proof. intros (A1 & A2 & A3) Ht Hu. destruct c as [|da p]; cbn [do_call] in *.
  - unfold t_recv in *. inversion A3 as [P1 P2|e f r r' (Y1 & Y2 & Y) R P1 P2].
    { rewrite <- P1 in Ht. rewrite <- P2 in Hu. injection Ht as <- <-. injection Hu as <- <-. split; [repeat split; assumption|reflexivity]. }
    rewrite <- P1 in Ht. rewrite <- P2 in Hu. pose proof (same_pass e f r r' (t_scen t) (t_scen u) Y R) as (T1 & T2 & T3 & T4 & T5).
    destruct (testpass e r (t_scen t)) as [st rt], (testpass f r' (t_scen u)) as [su ru]. cbn [fst snd] in T1, T2, T3, T4, T5. subst ru. pose proof (same_shows _ _ Y) as Sh.
    assert (Q : forall a b, alike (mkT (with_queue (sc_pend st) a (sc_timer st) st) (t_time t)) (mkT (with_queue (sc_pend su) b (sc_timer su) su) (t_time u)))
      by (intros a0 b0; unfold alike; cbn [t_scen t_time with_queue sc_ifs sc_pend]; rewrite T2, T3, T4, T5; auto).
    assert (Q' : alike (mkT st (t_time t)) (mkT su (t_time u))) by (unfold alike; cbn [t_scen t_time]; rewrite T2, T3, T4, T5; auto).
    destruct (sv_ev e) as [dev q|n|o], (sv_ev f) as [dev' q'|n'|o']; cbn [same_event] in Y; try contradiction.
    + destruct rt as [u0|x]; [|injection Ht as <- <-; injection Hu as <- <-; auto].
      destruct Y as [-> (Q1 & Q2 & Q3 & _)]. unfold generate in *. rewrite Q2, Q3 in Hu. rewrite T4 in Ht. rewrite T5, A1, A2 in Hu. rewrite A2 in Q.
      destruct (pkt_to_bytes q) as [[q1 b1]|]; [|injection Ht as <- <-; injection Hu as <- <-; auto]. cbn [bindr] in *.
      destruct (pkt_new b1 (first_cls q)) as [x|]; [|injection Ht as <- <-; injection Hu as <- <-; auto]. cbn [bindr] in *.
      destruct (din dev (sc_ifs (t_scen t))); injection Ht as <- <-; injection Hu as <- <-; auto.
    + destruct rt as [u0|x]; cbn [generate] in *; injection Ht as <- <-; injection Hu as <- <-; auto.
    + injection Ht as <- <-; injection Hu as <- <-. unfold fail_naming. rewrite Sh. repeat split; assumption.
  - unfold t_send in *. inversion A3 as [P1 P2|e f r r' (Y1 & Y2 & Y) R P1 P2].
    { rewrite <- P1 in Ht. rewrite <- P2 in Hu. injection Ht as <- <-. injection Hu as <- <-. split; [repeat split; assumption|reflexivity]. }
    rewrite <- P1 in Ht. rewrite <- P2 in Hu. assert (Dn : dev_name da (t_scen u) = dev_name da (t_scen t)) by (destruct da; cbn [dev_name]; rewrite ?A1; reflexivity). rewrite Dn in Hu.
    destruct (dev_name da (t_scen t)) as [dev|x]; [|injection Ht as <- <-; injection Hu as <- <-; repeat split; assumption].
    pose proof (same_shows _ _ Y) as Sh. destruct (sv_ev e) as [? ?|?|o], (sv_ev f) as [? ?|?|o']; cbn [same_event] in Y; try contradiction; [injection Ht as <- <-; injection Hu as <- <-; unfold fail_naming; rewrite ?Sh; repeat split; assumption..|].
    destruct Y as [Y Yg]. change (same_waits (oe_wait o) (oe_wait o')) in Y. pose proof (same_dget _ _ dev Y) as G. pose proof (same_ddel _ _ dev Y) as L. unfold out_match in *.
    assert (Z : forall oo oo', same_waits (oe_wait oo) (oe_wait oo') -> oe_got oo' = oe_got oo -> Forall2 same_sev (mkSev (EvOut oo) (sv_desc e) (sv_time e) :: r) (mkSev (EvOut oo') (sv_desc f) (sv_time f) :: r'))
      by (intros oo oo' W V; constructor; [repeat split; assumption|exact R]).
    destruct (dget dev (oe_wait o)) as [m|], (dget dev (oe_wait o')) as [m'|]; try contradiction;
      [|injection Ht as <- <-; injection Hu as <- <-; unfold alike, fail_naming; rewrite Sh; cbn [t_scen t_time with_head sc_ifs sc_pend]; repeat split; auto].
    rewrite (same_match _ _ p G) in Hu. destruct (m_match m p) as [[[] p']|].
    + destruct L as [|x y l l' L1 L2].
      * pose proof (same_pass (mkSev (EvOut (mkOut [] (dset dev (SeenPkt p') (oe_got o)))) (sv_desc e) (sv_time e)) (mkSev (EvOut (mkOut [] (dset dev (SeenPkt p') (oe_got o')))) (sv_desc f) (sv_time f)) r r' (t_scen t) (t_scen u)) as T.
        destruct T as (T1 & T2 & T3 & T4 & T5); [cbn [sv_ev same_event oe_wait oe_got]; rewrite Yg; split; [constructor|reflexivity]|exact R|].
        destruct (testpass _ r (t_scen t)) as [st rt] in Ht, T1, T2, T3, T4, T5. destruct (testpass _ r' (t_scen u)) as [su ru] in Hu, T1, T2, T3, T4, T5. cbn [fst snd] in T1, T2, T3, T4, T5. subst ru.
        destruct rt; injection Ht as <- <-; injection Hu as <- <-; unfold alike; cbn [t_scen t_time]; rewrite T2, T3, T4, T5; repeat split; auto; lia.
      * injection Ht as <- <-; injection Hu as <- <-; unfold alike; cbn [t_scen t_time with_head sc_ifs sc_pend]; (split; [|reflexivity]); (split; [exact A1|]); (split; [lia|]).
        apply Z; [constructor; assumption|]. cbn [oe_got]. rewrite Yg. reflexivity.
    + injection Ht as <- <-; injection Hu as <- <-; rewrite (same_fail _ _ p' G); unfold alike; cbn [t_scen t_time with_head sc_ifs sc_pend]; repeat split; auto.
    + injection Ht as <- <-; injection Hu as <- <-; unfold alike; cbn [t_scen t_time with_head sc_ifs sc_pend]; repeat split; auto. Qed.
Theorem alike_run cs : forall t u, alike t u -> snd (t_run u cs) = snd (t_run t cs) /\ alike (fst (t_run t cs)) (fst (t_run u cs)).
Proof. induction cs as [|c cs IH]; intros t u A; [auto|]. cbn [t_run]. destruct (do_call t c) as [t1 a] eqn:Ct. destruct (do_call u c) as [u1 b] eqn:Cu. destruct (alike_call _ _ _ _ _ _ _ A Ct Cu) as [A1 <-].
  destruct (IH _ _ A1) as [I1 I2]. destruct (t_run t1 cs) as [t2 l], (t_run u1 cs) as [u2 l']. cbn [fst snd] in *. subst. auto. Qed.
Theorem loaded_behaves s d s' s2 cs : sc_done s = [] -> Forall fresh_sev (sc_pend s) -> Forall (fun e => storable_event (sv_ev e)) (sc_pend s) ->
  scen_save s = Ok (d, s') -> scen_load d = Ok s2 -> snd (t_run (tnet_new s2) cs) = snd (t_run (tnet_new s) cs) /\
  (scen_done (t_scen (fst (t_run (tnet_new s2) cs))) = scen_done (t_scen (fst (t_run (tnet_new s) cs)))).
Proof. intros Dn Fr St H L. destruct (save_load _ _ _ Dn Fr St H) as (_ & s3 & L3 & E1 & E2 & E3 & E4 & E5 & E6 & E7). assert (s3 = s2) by congruence. subst s3.
  assert (A : alike (tnet_new s) (tnet_new s2)) by (split; [exact E2|]; split; [reflexivity|exact E7]). destruct (alike_run cs _ _ A) as [I1 (_ & _ & I2)]. split; [exact I1|].
  unfold scen_done. destruct I2; reflexivity. Qed.

(** ** What receive calls hand over *)
Lemma hist_recv os : forall t t' log, sound (t_scen t) -> Forall (deliverable (sc_ifs (t_scen t))) (evs t) ->
  Forall fresh_sev (authored (sc_next (t_scen t)) os) -> Forall (fun e => deliverable (sc_ifs (t_scen t)) (sv_ev e)) (authored (sc_next (t_scen t)) os) -> Forall printable_op os -> t_hist t os = (t', log) ->
  exists k, List.length (sc_done (t_scen t')) = (List.length (sc_done (t_scen t)) + k)%nat /\
    Forall2 hands_over (map sv_ev (filter is_input (firstn k (sc_pend (t_scen t) ++ authored (sc_next (t_scen t)) os)))) (took log).
Proof. induction os as [|[e d|c] os IH]; intros t t' log Hs Hd Hf Hg Hp H; cbn [t_hist] in H; [|inversion Hp as [|? ? Hp1 Hp2]; subst; cbn [printable_op] in Hp1..].
  - injection H as <- <-. exists 0%nat. split; [lia|]. constructor.
  - cbn [t_step] in H. destruct (t_hist _ os) as [t2 l] eqn:E. injection H as <- <-. cbn [authored] in *. inversion Hf as [|? ? F1 F2]; subst. inversion Hg as [|? ? G1 G2]; subst.
    destruct (IH (mkT (scen_expect e d (t_scen t)) (t_time t)) t2 l) as (k & K1 & K2); auto.
    { cbn [t_scen]. apply expect_sound; assumption. } { unfold evs. cbn [t_scen scen_expect sc_pend sc_ifs]. rewrite map_app. apply Forall_app. split; [exact Hd|]. constructor; [exact G1|constructor]. }
    exists k. cbn [t_scen scen_expect sc_pend sc_done sc_next app] in *. rewrite <- app_assoc in K2. auto.
  - cbn [t_step authored] in *. destruct (do_call t c) as [t1 a] eqn:C. destruct (t_hist t1 os) as [t2 l] eqn:E. injection H as <- <-. cbn [app].
    destruct (open_distinct _ (proj1 Hs)) as [D1 D2]. destruct (call_moves _ _ _ _ C D1 D2 (proj1 (proj2 (proj2 Hs))) Hp1) as (M & _ & _).
    assert (R : ready t) by (destruct Hs as (S1 & S2 & S3 & S4); repeat apply conj; assumption). destruct (step_follows _ _ _ _ [] R Hp1 C) as ((_ & R1 & _) & Q & _ & F2 & _).
    assert (Nx : sc_next (t_scen t1) = sc_next (t_scen t)) by (destruct M; reflexivity).
    pose proof (IH t1 t2 l (moves_sound _ _ M Hs) R1) as IH1. rewrite Q, Nx in IH1. destruct (IH1 Hf Hg Hp2 E) as (k & K1 & K2). clear IH IH1.
    assert (K : fine c a \/ ~ fine c a). { destruct c, a as [r| |[]]; cbn [fine]; tauto. } destruct K as [K|K].
    2:{ destruct (F2 K) as (-> & _ & x & ->). exists k. split; [exact K1|]. destruct c; cbn [fine] in K; [|cbn [took]; exact K2]. destruct x; try (cbn [took]; exact K2). exfalso. apply K. exact I. }
    clear F2 M. destruct Hs as (S1 & S2 & S3 & S4). destruct c as [|da p].
    + cbn [do_call] in C. unfold t_recv in C. unfold evs in Hd. destruct (sc_pend (t_scen t)) as [|e rest] eqn:P; [injection C as <- <-; contradiction|].
      cbn [map] in Hd. inversion Hd as [|? ? De Dr]; subst. inversion S3 as [|? ? [Pe _] Pr]; subst. rewrite (testpass_ok e rest (t_scen t) Pe Pr) in C. destruct (sv_ev e) as [dev q|n|o] eqn:Ev; [| |unfold fail_naming in C; rewrite Pe in C; injection C as <- <-; contradiction].
      * destruct De as (De1 & p' & b & q' & De2 & De3). unfold generate in C. rewrite De2 in C. cbn [bindr] in C. rewrite De3 in C. cbn [bindr with_queue sc_pend sc_done sc_timer sc_ifs] in C. rewrite on_last_app in C.
        apply din_iff in De1. rewrite De1 in C. injection C as <- <-. cbn [t_scen with_queue sc_done sc_pend] in *. exists (S k). split; [rewrite app_length in K1; cbn [List.length] in K1; lia|].
        cbn [app firstn filter]. unfold is_input at 1. rewrite Ev. cbn [map took]. constructor; [|exact K2]. rewrite Ev. exists p', b, q', (t_time t). auto.
      * cbn [generate with_queue sc_pend sc_done sc_timer] in C. rewrite on_last_app in C. injection C as <- <-. cbn [t_scen with_queue sc_done sc_pend] in *. exists (S k). split; [rewrite app_length in K1; cbn [List.length] in K1; lia|].
        cbn [app firstn filter]. unfold is_input at 1. rewrite Ev. cbn [map took]. constructor; [|exact K2]. rewrite Ev. reflexivity.
    + cbn [do_call] in C. destruct (t_send t da p) as [t3 r] eqn:T. injection C as <- <-. destruct r as [u|]; [|contradiction]. cbn [took]. unfold t_send in T.
      destruct (sc_pend (t_scen t)) as [|e rest] eqn:P; [discriminate|]. destruct (dev_name da (t_scen t)) as [dv|]; [|discriminate]. destruct (sv_ev e) as [? ?|?|o] eqn:Ev; try discriminate.
      inversion S3 as [|? ? [Pe _] Pr]; subst. rewrite Ev in Pe. destruct (out_match o dv p) as [o' [x|]] eqn:Mo; [|discriminate]. pose proof (out_match_prints _ _ _ _ _ Mo Hp1 Pe) as Sh.
      destruct x; try discriminate; [rewrite (testpass_ok (mkSev (EvOut o') (sv_desc e) (sv_time e)) rest (t_scen t) Sh Pr) in T|]; injection T as <- <-; cbn [t_scen with_queue with_head sc_done sc_pend] in *.
      * exists (S k). split; [rewrite app_length in K1; cbn [List.length] in K1; lia|]. cbn [app firstn filter]. unfold is_input at 1. rewrite Ev. exact K2.
      * exists k. split; [exact K1|]. destruct k as [|k]; [exact K2|]. cbn [app firstn filter] in *. unfold is_input at 1. rewrite Ev. exact K2. Qed.
Theorem received_inputs s os t' log : unused s -> Forall fresh_sev (authored 0 os) -> Forall (fun e => deliverable (sc_ifs s) (sv_ev e)) (authored 0 os) -> Forall printable_op os -> t_hist (tnet_new s) os = (t', log) ->
  Forall2 hands_over (map sv_ev (filter is_input (firstn (List.length (sc_done (t_scen t'))) (authored 0 os)))) (took log).
Proof. intros U F G Pp H. pose proof (unused_sound s U) as S0. destruct U as (U1 & U2 & U3). destruct (hist_recv os (tnet_new s) t' log) as (k & K1 & K2); cbn [tnet_new t_scen] in *; rewrite ?U3, ?U1, ?U2 in *; auto.
  - unfold evs. cbn [tnet_new t_scen]. rewrite U1. constructor.
  - cbn [List.length app] in *. rewrite K1. exact K2. Qed.
Lemma call_time t c t' a : do_call t c = (t', a) -> t_time t <= t_time t' /\ forall r, a = AnsRecv r -> rv_time r = t_time t /\ t_time t' = t_time t.
Proof. intros C. destruct c as [|dv q]; cbn [do_call] in C.
  - unfold t_recv in C. destruct (sc_pend (t_scen t)) as [|e rest]; [injection C as <- <-; split; [lia|discriminate]|]. destruct (testpass e rest (t_scen t)) as [s' [u|u]];
      (destruct (sv_ev e); [try destruct (generate _ _) as [[? ?]|] in C..|]); injection C as <- <-; cbn [t_time]; split; try lia; try discriminate; intros r [= <-]; split; reflexivity.
  - assert (T : forall x t1 r, t_send t dv q = (t1, r) -> x = match r with Ok _ => AnsSent | Err e => AnsExn e end -> t_time t <= t_time t1 /\ forall r, x <> AnsRecv r).
    { intros x t1 r H ->. split; [|destruct r; discriminate]. unfold t_send in H. destruct (sc_pend (t_scen t)) as [|e rest]; [injection H as <- _; lia|]. destruct (dev_name dv (t_scen t)); [|injection H as <- _; lia].
      destruct (sv_ev e); try (injection H as <- _; lia). destruct (out_match _ _ q) as [o' [[| |]|]]; [|destruct (testpass _ rest (t_scen t)) as [s' []] in H| |]; injection H as <- _; cbn [t_time]; lia. }
    destruct (t_send t dv q) as [t1 r]. injection C as <- <-. destruct (T _ _ _ eq_refl eq_refl) as [T1 T2]. split; [exact T1|]. intros r0 E. exfalso. exact (T2 _ E). Qed.
Lemma hist_times os : forall t t' log, t_hist t os = (t', log) -> Forall (Z.le (t_time t)) (times log) /\ StronglySorted Z.le (times log).
Proof. induction os as [|[e d|c] os IH]; intros t t' log H; cbn [t_hist] in H.
  - injection H as <- <-. split; constructor.
  - cbn [t_step] in H. destruct (t_hist _ os) as [t2 l] eqn:E. injection H as <- <-. cbn [app]. exact (IH (mkT (scen_expect e d (t_scen t)) (t_time t)) t2 l E).
  - cbn [t_step] in *. destruct (do_call t c) as [t1 a] eqn:C. destruct (t_hist t1 os) as [t2 l] eqn:E. injection H as <- <-. cbn [app].
    destruct (call_time _ _ _ _ C) as [T R]. destruct (IH _ _ _ E) as [I1 I2].
    assert (I3 : Forall (Z.le (t_time t)) (times l)) by (eapply Forall_impl; [|exact I1]; cbv beta; intros; lia).
    destruct a as [r| |x]; cbn [times]; auto. destruct (R _ eq_refl) as [R1 R2]. rewrite R1. split; constructor; auto; lia. Qed.
Theorem recv_times s os t' log : t_hist (tnet_new s) os = (t', log) -> StronglySorted Z.le (times log).
Proof. intros H. apply (hist_times os (tnet_new s) t' log H). Qed.
Theorem recv_where_output t o d ts rest : sc_pend (t_scen t) = mkSev (EvOut o) d ts :: rest ->
  exists e, do_call t CRecv = (t, AnsExn e) /\ (e = ETestFail \/ e = EAttr).
Proof. intros P. cbn [do_call]. unfold t_recv. rewrite P. cbn [sv_ev]. unfold fail_naming. eexists. split; [reflexivity|]. destruct (ev_shows (EvOut o)); auto. Qed.

(** ** A normal return, whatever the program did in between *)
Definition wellb (x : call * answer) : bool := match x with (CRecv, AnsRecv _) | (CRecv, AnsExn ENoPackets) | (CSend _ _, AnsSent) => true | _ => false end.
Lemma run_well cs : forall t t' l, ready t -> Forall printable_call cs -> t_run t cs = (t', l) ->
  summary_prints (t_scen t') = true /\ (sc_pend (t_scen t') = [] <-> follows (sc_ifs (t_scen t)) (evs t) (map fst (filter wellb (combine cs l)))).
Proof. induction cs as [|c cs IH]; intros t t' l R Pc H; cbn [t_run] in H; [|inversion Pc as [|? ? Pc1 Pc2]; subst].
  - injection H as <- <-. split; [apply ready_prints; exact R|]. symmetry. apply follows_nil. exact R.
  - destruct (do_call t c) as [t1 a] eqn:C. destruct (t_run t1 cs) as [t2 l2] eqn:T. injection H as <- <-. cbn [combine filter].
    destruct (step_follows _ _ _ _ (map fst (filter wellb (combine cs l2))) R Pc1 C) as (R1 & Q & F1 & F2 & _). destruct (IH _ _ _ R1 Pc2 T) as [Sp IH']. clear IH. rename IH' into IH. rewrite Q in IH. split; [exact Sp|].
    assert (K : fine c a \/ ~ fine c a). { destruct c, a as [r| |[]]; cbn [fine]; tauto. }
    destruct K as [K|K]; (assert (W : wellb (c, a) = true <-> fine c a) by (destruct c, a as [r| |[]]; cbn [fine wellb]; split; congruence || tauto)).
    + rewrite (proj2 W K). cbn [map fst]. rewrite (F1 K). exact IH.
    + destruct (wellb (c, a)) eqn:Wb; [exfalso; apply K; apply W; reflexivity|]. destruct (F2 K) as (-> & _ & _). exact IH. Qed.
Lemma combine_fst_snd {A B} (l : list (A * B)) : combine (map fst l) (map snd l) = l.
Proof. induction l as [|[a b] l IH]; cbn [map combine fst snd]; congruence. Qed.
Theorem return_follows t p t' tr : ready t -> Forall printable_call (map fst tr) -> runs t p t' tr EndReturn ->
  (reports_pass (t_scen t') EndReturn = true <-> follows (sc_ifs (t_scen t)) (evs t) (map fst (filter wellb tr))).
Proof. intros R Pc H. destruct (run_well _ _ _ _ R Pc (runs_calls _ _ _ _ _ H)) as [Sp K]. rewrite combine_fst_snd in K. rewrite <- K. unfold reports_pass. rewrite Sp. cbn [andb]. unfold failed_test. destruct (sc_pend (t_scen t')); split; congruence. Qed.
