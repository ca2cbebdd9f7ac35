(** Proofs about the programs that fail their tests. *)
From Verif Require Import BaseLemmas CodecLemmas Dict DictLemmas EthAddrModel EthModel TransportModel PacketModel PacketSpec PacketProofs PacketOps NetModel NetProofs TestModel TestSpec TestMatch TestRun HubModel HubSpec HubProofs DocFailModel DocFailSpec.
#[local] Open Scope string_scope.
#[local] Open Scope Z_scope.
#[local] Open Scope list_scope.

(** ** Programs that do not send *)
Lemma talk_some p : exists tr e, talk p tr e.
Proof. induction p as [c k IH| |e]; [destruct (IH AnsSent) as (tr & e & T); exists ((c, AnsSent) :: tr), e; constructor; exact T|exists [], EndReturn; constructor|exists [], (EndRaise e); constructor]. Qed.
Lemma never_sends_on c k a : never_sends (Call c k) -> never_sends (k a).
Proof. intros H tr e T d q x I. apply (H ((c, a) :: tr) e) with (d := d) (q := q) (a := x); [constructor; exact T|right; exact I]. Qed.
Lemma never_sends_recv c k : never_sends (Call c k) -> c = CRecv.
Proof. intros H. destruct c as [|d q]; [reflexivity|]. exfalso. destruct (talk_some (k AnsSent)) as (tr & e & T). apply (H ((CSend d q, AnsSent) :: tr) e) with (d := d) (q := q) (a := AnsSent); [constructor; exact T|left; reflexivity]. Qed.
Lemma tl_out e rest o : In (EvOut o) (map sv_ev (e :: rest)) -> is_out (sv_ev e) = false -> In (EvOut o) (map sv_ev rest).
Proof. intros [H|H] N; [rewrite H in N; discriminate|exact H]. Qed.
Lemma recv_keeps t t1 a : do_call t CRecv = (t1, a) -> expects_output (t_scen t) -> Forall (deliverable (sc_ifs (t_scen t))) (map sv_ev (sc_pend (t_scen t))) ->
  expects_output (t_scen t1) /\ a <> AnsExn EShutdown /\ Forall (deliverable (sc_ifs (t_scen t1))) (map sv_ev (sc_pend (t_scen t1))).
Proof.
  intros H [o O] D. cbn [do_call] in H. unfold t_recv in H. destruct (sc_pend (t_scen t)) as [|e rest] eqn:Ep; [contradiction|]. cbn [map] in D. inversion D as [|? ? D1 D2]; subst.
  destruct (is_out (sv_ev e)) eqn:Io.
  - destruct (sv_ev e) as [| |oo] eqn:Ee; try discriminate. injection H as <- <-. split; [exists o; rewrite Ep; exact O|]. split; [unfold fail_naming; destruct (ev_shows _); discriminate|]. rewrite Ep. cbn [map]. rewrite Ee. constructor; auto.
  - pose proof (tl_out _ _ _ O Io) as O2. unfold testpass in H. destruct (sv_ev e) as [dev p|n|oo] eqn:Ee; [| |discriminate].
    + destruct (ev_shows (EvIn dev p)) eqn:Es; [|injection H as <- <-; split; [exists o; exact O2|]; split; [discriminate|exact D2]].
      destruct rest as [|n rest]; [contradiction|]. destruct (ev_shows (sv_ev n)); [|injection H as <- <-; split; [exists o; exact O2|]; split; [discriminate|exact D2]].
      destruct D1 as (Hd & p' & b & q & B1 & B2). cbn [generate with_queue sc_ifs] in H. rewrite B1 in H. cbn [bindr] in H. rewrite B2 in H. cbn [bindr] in H. apply din_iff in Hd. rewrite Hd in H. injection H as <- <-.
      split; [exists o; exact O2|]. split; [discriminate|exact D2].
    + cbn [ev_shows] in H. destruct rest as [|n2 rest]; [contradiction|]. destruct (ev_shows (sv_ev n2)); cbn [generate] in H; injection H as <- <-; (split; [exists o; exact O2|]; split; [discriminate|exact D2]).
Qed.
Lemma recv_expects t t1 a : do_call t CRecv = (t1, a) -> expects_output (t_scen t) -> expects_output (t_scen t1).
Proof.
  intros H [o O]. cbn [do_call] in H. unfold t_recv in H. destruct (sc_pend (t_scen t)) as [|e rest] eqn:Ep; [contradiction|].
  destruct (is_out (sv_ev e)) eqn:Io.
  - destruct (sv_ev e) as [| |oo] eqn:Ee; try discriminate. injection H as <- <-. exists o. rewrite Ep. exact O.
  - pose proof (tl_out _ _ _ O Io) as O2. destruct (testpass e rest (t_scen t)) as [s' r] eqn:Tp.
    assert (Es : sc_pend s' = rest) by (unfold testpass in Tp; destruct (ev_shows (sv_ev e)); injection Tp as <- _; reflexivity).
    destruct (sv_ev e) as [dev p|n|oo]; [| |discriminate]; (destruct r as [u|x]; [destruct (generate _ s') as [[d1 p1]|x]|]; injection H as <- <-; exists o; cbn [t_scen with_queue sc_pend]; rewrite Es; exact O2).
Qed.
Lemma silent_runs t p t' tr e : runs t p t' tr e -> never_sends p -> expects_output (t_scen t) -> expects_output (t_scen t').
Proof.
  induction 1 as [t|t e|t T|t c k t1 a t2 tr e C R IH|t c k t2 tr e T R IH]; intros N X; auto.
  - pose proof (never_sends_recv _ _ N) as ->. apply IH; [exact (never_sends_on _ _ a N)|]. exact (recv_expects _ _ _ C X).
  - apply IH; [exact (never_sends_on _ _ _ N)|exact X].
Qed.
Lemma expects_no_pass s : expects_output s -> reports_pass s EndReturn = false.
Proof. intros [o O]. unfold reports_pass, failed_test. destruct (sc_pend s); [contradiction|]. apply andb_false_r. Qed.
Lemma raise_no_pass s x : x <> EShutdown -> reports_pass s (EndRaise x) = false.
Proof. intros H. unfold reports_pass. destruct x; try apply andb_false_r. contradiction. Qed.
Lemma fail2_silent : never_sends fail2.
Proof. intros tr e T d q a. unfold fail2, one_packet in T. inversion T as [| |c k x tr0 e0 T0]; subst. intros [I|I]; [discriminate|]. destruct x as [r| |x]; [destruct (pkt_shows (rv_pkt r))|..]; inversion T0; subst; contradiction. Qed.
Lemma fail4_silent : never_sends fail4.
Proof. intros tr e T d q a. unfold fail4, one_packet in T. inversion T as [| |c k x tr0 e0 T0]; subst. intros [I|I]; [discriminate|]. destruct x as [r| |x]; [destruct (pkt_shows (rv_pkt r))|..]; inversion T0; subst; contradiction. Qed.
Lemma fail3_silent : never_sends fail3.
Proof.
  intros tr e T d q a. unfold fail3, one_packet in T. inversion T as [| |c k x tr0 e0 T0]; subst. intros [I|I]; [discriminate|]. destruct x as [r| |x]; [destruct (pkt_shows (rv_pkt r))|..]; try (inversion T0; subst; contradiction).
  inversion T0 as [| |c k y tr1 e1 T1]; subst. destruct I as [I|I]; [discriminate|]. destruct y; inversion T1; subst; contradiction.
Qed.
Ltac ended R := inversion R; subst; try (apply raise_no_pass; discriminate).
Lemma one_packet_runs act s t' tr e : runs (tnet_new s) (one_packet act) t' tr e -> expects_output s -> Forall (deliverable (sc_ifs s)) (map sv_ev (sc_pend s)) ->
  reports_pass (t_scen t') e = false \/ exists t1 r tr2, runs t1 (act (rv_pkt r)) t' tr2 e /\ expects_output (t_scen t1) /\ Forall (deliverable (sc_ifs (t_scen t1))) (map sv_ev (sc_pend (t_scen t1))).
Proof.
  intros R X D. unfold one_packet in R. inversion R as [| | |? ? ? t1 a ? tr0 ? C R0|? ? ? ? ? ? T R0]; subst; [|left; ended R0].
  destruct (recv_keeps _ _ _ C X D) as (X1 & N & D1). destruct a as [r| |x].
  - destruct (pkt_shows (rv_pkt r)); [right; exists t1, r, tr0; auto|left; ended R0].
  - left. ended R0.
  - left. inversion R0; subst. apply raise_no_pass. congruence.
Qed.

(** ** Programs that send *)
Lemma recv_first s dev p q dev' m t1 a : two_steps s dev p q dev' m -> do_call (tnet_new s) CRecv = (t1, a) ->
  a = AnsExn EAttr \/ a = AnsRecv (mkRecv 0 dev q) /\ map sv_ev (sc_pend (t_scen t1)) = [EvOut (mkOut [(dev', m)] [])].
Proof.
  intros (Ep & Dn & Hd & p' & b & B1 & B2) C. destruct (sc_pend s) as [|e1 [|e2 [|]]] eqn:Epend; try discriminate. cbn [map] in Ep. injection Ep as E1 E2.
  cbn [do_call] in C. unfold t_recv in C. cbn [tnet_new t_scen t_time] in C. rewrite Epend, E1 in C. unfold testpass in C. rewrite E1, E2 in C.
  destruct (ev_shows (EvIn dev p)); [|injection C as _ <-; auto]. destruct (ev_shows (EvOut _)); [|injection C as _ <-; auto].
  cbn [generate with_queue sc_ifs] in C. rewrite B1 in C. cbn [bindr] in C. rewrite B2 in C. cbn [bindr] in C. apply din_iff in Hd. rewrite Hd in C. injection C as <- <-. right. split; [reflexivity|]. cbn [t_scen with_queue sc_pend map]. rewrite E2. reflexivity.
Qed.
Lemma send_runs s f dev p q dev' m t' tr e : two_steps s dev p q dev' m -> (forall x, f q <> Err x \/ x <> EShutdown) -> runs (tnet_new s) (change_and_send f) t' tr e -> (forall d x, ~ In (CSend d x, AnsExn EShutdown) tr) ->
  reports_pass (t_scen t') e = true -> exists q', f q = Ok q' /\ dev' = "eth0" /\ meets m q'.
Proof.
  intros H Fs Rn NS Ps. unfold change_and_send, one_packet in Rn. inversion Rn as [| | |? ? ? t1 a ? tr0 ? C R0|? ? ? ? ? ? T R0]; subst; [|inversion R0; subst; rewrite raise_no_pass in Ps by discriminate; discriminate].
  destruct (recv_first _ _ _ _ _ _ _ _ H C) as [->|[-> S1]]; [inversion R0; subst; rewrite raise_no_pass in Ps by discriminate; discriminate|].
  destruct (sc_pend (t_scen t1)) as [|e2 [|]] eqn:Epend; try discriminate. cbn [map] in S1. injection S1 as E2.
  cbn [rv_pkt] in R0. destruct (pkt_shows q); [|inversion R0; subst; rewrite raise_no_pass in Ps by discriminate; discriminate].
  destruct (f q) as [q'|x] eqn:Fq.
  2: { inversion R0; subst. destruct (Fs x) as [A|A]; [congruence|]. rewrite raise_no_pass in Ps by exact A. discriminate. }
  inversion R0 as [| | |? ? ? t2 b ? tr1 ? C2 R2|? ? ? ? ? ? T2 R2]; subst; [|inversion R2; subst; rewrite raise_no_pass in Ps by discriminate; discriminate].
  destruct b as [r| |x].
  - cbn [do_call] in C2. destruct (t_send t1 (DName "eth0") q') as [? []]; discriminate.
  - exists q'. split; [reflexivity|]. cbn [do_call] in C2. unfold t_send in C2. rewrite Epend in C2. cbn [dev_name] in C2. rewrite E2 in C2.
    destruct (out_match (mkOut [(dev', m)] []) "eth0" q') as [o' [x|x]] eqn:Om; [|discriminate]. destruct (out_match_ok _ _ _ _ _ Om) as (m' & p' & A & B & _). cbn [oe_wait dget] in A.
    destruct (str_spec "eth0" dev') as [K|K]; [|discriminate]. injection A as <-. split; [congruence|]. exists p'. exact B.
  - exfalso. inversion R2; subst. destruct (match x with EShutdown => true | _ => false end) eqn:Ex.
    + assert (x = EShutdown) by (destruct x; congruence). subst x. apply (NS (DName "eth0") q'). right. left. reflexivity.
    + rewrite raise_no_pass in Ps by (intros ->; discriminate). discriminate.
Qed.
Lemma send_runs_ok s f dev p q dev' m t' tr e q' : two_steps s dev p q dev' m -> f q = Ok q' -> runs (tnet_new s) (change_and_send f) t' tr e -> (forall d x, ~ In (CSend d x, AnsExn EShutdown) tr) ->
  reports_pass (t_scen t') e = true -> dev' = "eth0" /\ meets m q'.
Proof. intros H F R NS Ps. assert (Fs : forall x, f q <> Err x \/ x <> EShutdown) by (intros x; left; rewrite F; discriminate). destruct (send_runs s f dev p q dev' m t' tr e H Fs R NS Ps) as (q2 & F2 & A & B). rewrite F in F2. injection F2 as <-. auto. Qed.
Lemma send_runs_bad s f dev p q dev' m t' tr e : two_steps s dev p q dev' m -> f q = Err EIndex -> runs (tnet_new s) (change_and_send f) t' tr e -> (forall d x, ~ In (CSend d x, AnsExn EShutdown) tr) ->
  reports_pass (t_scen t') e = true -> False.
Proof. intros H F R NS Ps. assert (Fs : forall x, f q <> Err x \/ x <> EShutdown) by (intros x; destruct (match x with EShutdown => true | _ => false end) eqn:Ex; [left; rewrite F; intros [= <-]; discriminate|right; intros ->; discriminate]). destruct (send_runs s f dev p q dev' m t' tr e H Fs R NS Ps) as (q2 & F2 & _). rewrite F in F2. discriminate. Qed.
Lemma send_passes s f dev p q m q' : two_steps s dev p q "eth0" m -> all_print p q m -> f q = Ok q' -> printable q' -> meets m q' -> can_pass s (change_and_send f).
Proof.
  intros (Ep & Dn & Hd & R) (P1 & P2 & P3) Fq Pq M. destruct (sc_pend s) as [|e1 [|e2 [|]]] eqn:Epend; try discriminate. cbn [map] in Ep. injection Ep as E1 E2.
  assert (St : state (tnet_new s) (sc_ifs s) [e1; e2]) by (split; [exact Epend|]; split; [reflexivity|]; unfold shown; cbn [tnet_new t_scen]; rewrite Dn; constructor).
  assert (Pr1 : prt (sv_ev e1)) by (rewrite E1; apply printable_prt; [split; [exact P1|]; intros x (p' & b & B1 & B2); destruct R as (p2 & b2 & B3 & B4); replace x with q by congruence; exact P2|exact I]).
  assert (Pr2 : prt (sv_ev e2)) by (rewrite E2; apply printable_prt; [repeat constructor; exact P3|split; [discriminate|]; split; [repeat constructor; intros []|reflexivity]]).
  destruct (recv_input _ _ e1 [e2] dev p q St E1 Pr1 (Forall_cons (P := fun x => prt (sv_ev x)) e2 Pr2 (Forall_nil _)) R Hd) as (t1 & C & S1).
  rewrite E2 in Pr2. destruct (send_one t1 (sc_ifs s) e2 [] (mkOut [("eth0", m)] []) (mkIf "eth0" [] [] 0) q' m S1 E2 (proj1 Pr2) (Forall_nil _) Pq eq_refl M) as (t2 & o' & C2 & W & V & S2).
  cbn [oe_wait ddel if_name] in W. rewrite str_eqb_refl in W. rewrite W in S2. change (do_call t1 (CSend (DName "eth0") q') = (t2, AnsSent)) in C2.
  exists t2, [(CRecv, AnsRecv (mkRecv (t_time (tnet_new s)) dev q)); (CSend (DName "eth0") q', AnsSent)]. split.
  - unfold change_and_send, one_packet. eapply r_call; [exact C|]. cbn [rv_pkt]. assert (Q : pkt_shows q = true) by (apply pkt_prints; exact P2). rewrite Q, Fq. eapply r_call; [exact C2|]. constructor.
  - destruct S2 as (A & _ & B). unfold reports_pass, summary_prints, failed_test. rewrite A, app_nil_r, andb_true_r. apply forallb_forall. apply Forall_forall. exact B.
Qed.

(** ** What a match needs *)
Lemma ser_eth hs : forall pre hs' b, ser pre hs = Ok (hs', b) -> Forall2 (fun h h' => class_of h' = class_of h /\ forall e, h = HEth e <-> h' = HEth e) hs hs'.
Proof.
  induction hs as [|h hs IH]; intros pre hs' b H; cbn [ser] in H; [apply ok_pair_inj in H as [<- _]; constructor|]. ok_step H. destruct a as [t' raw]. ok_step H. ok_step H. apply ok_pair_inj in H as [<- _].
  constructor; [|exact (IH _ _ _ E)]. destruct (pre_ser_keeps _ _ _ _ E0) as [_ K]. split; [exact K|]. intros e0. destruct h; cbn [pre_ser] in E0; try (ok_step E0); try discriminate; apply ok_inj in E0; subst; cbn [hdr_after]; split; congruence.
Qed.
Definition agree_eth (wc : list wildcard) (r h : hdr) : Prop := class_of r = class_of h /\ forall a b, r = HEth a -> h = HEth b -> In (CEth, "src") wc \/ eth_src a = eth_src b.
Lemma exact_agree wc r h : exact_same wc r h -> agree_eth wc r h.
Proof. intros H. split; [destruct r, h; cbn in H; try contradiction; reflexivity|]. intros a b -> ->. apply H. Qed.
Lemma inexact_agree wc r h : inexact_same wc r h -> agree_eth wc r h.
Proof. intros H. split; [destruct r, h; cbn in H; try contradiction; try discriminate; reflexivity|]. intros a b -> ->. apply H. Qed.
Lemma Forall2_weaken {A B} (P Q : A -> B -> Prop) l k : (forall x y, P x y -> Q x y) -> Forall2 P l k -> Forall2 Q l k.
Proof. induction 2; constructor; auto. Qed.
Lemma agree_ser wc r r' p p' pre rb b : ser pre r = Ok (r', rb) -> ser pre p = Ok (p', b) -> Forall2 (agree_eth wc) r' p' -> Forall2 (agree_eth wc) r p.
Proof.
  intros A B H. apply ser_eth in A. apply ser_eth in B. clear pre rb b. revert r p A B. induction H as [|x y r' p' H1 H2 IH]; intros r p A B; inversion A as [|u ? r0 ? A1 A2]; inversion B as [|v ? p0 ? B1 B2]; subst; constructor; [|apply IH; auto].
  destruct A1 as [A1 A3]. destruct B1 as [B1 B3]. destruct H1 as [H1 H3]. split; [congruence|]. intros a b -> ->. apply H3; [apply A3; reflexivity|apply B3; reflexivity].
Qed.
Lemma meets_agree m p : meets m p -> Forall2 (agree_eth (m_wc m)) (m_ref m) p.
Proof.
  intros [p' M]. destruct m as [ref ex wc preds]. cbn [m_ref m_wc]. destruct ex.
  - apply exact_match_iff in M as [(b & r' & rb & B1 & B2 & H) _]. eapply agree_ser; [exact B2|exact B1|]. eapply Forall2_weaken; [|exact H]. apply exact_agree.
  - pose proof M as M2. apply match_spec in M2 as [(b & r' & rb & B1 & B2 & _) _]. cbn [m_ref] in B2. apply (inexact_match_iff _ _ _ _ _ _ B1 _ _ B2) in M as [H _]. eapply Forall2_weaken; [|exact H]. apply inexact_agree.
Qed.
Lemma F2_at {A B} (P : A -> B -> Prop) l x r k y s : List.length l = List.length k -> Forall2 P (l ++ x :: r) (k ++ y :: s) -> P x y.
Proof. revert k. induction l as [|u l IH]; intros [|v k] L H; cbn [app List.length] in *; try discriminate; inversion H; subst; [assumption|]. eapply IH; eauto. Qed.

(** ** The changes *)
Lemma set_source_spec p : (forall e, ~ In (HEth e) p) /\ set_source p = Err EKey \/
  exists pre e post, p = pre ++ HEth e :: post /\ (forall x, ~ In (HEth x) pre) /\ set_source p = Ok (pre ++ HEth (mkEth (eth_dst e) new_source (eth_type e)) :: post).
Proof.
  induction p as [|h p IH]; [left; split; [intros e []|reflexivity]|]. destruct (match h with HEth x => Some x | _ => None end) as [x|] eqn:Eh.
  - assert (h = HEth x) by (destruct h; congruence). subst h. right. exists [], x, p. split; [reflexivity|]. split; [intros y []|reflexivity].
  - assert (Nh : forall y, h <> HEth y) by (intros y ->; discriminate). assert (W : set_source (h :: p) = (r' <- set_source p;; Ok (h :: r'))) by (destruct h; try reflexivity; discriminate). rewrite W. destruct IH as [[A B]|(pre & e & post & A & B & C)].
    + left. rewrite B. split; [|reflexivity]. intros e [E|E]; [exact (Nh _ E)|exact (A _ E)].
    + right. exists (h :: pre), e, post. rewrite C, A. split; [reflexivity|]. split; [|reflexivity]. intros y [Y|Y]; [exact (Nh _ Y)|exact (B _ Y)].
Qed.
Lemma last_or_nil (p : packet) : p = [] \/ exists pre h, p = pre ++ [h].
Proof. destruct p as [|h p]; [auto|]. right. destruct (exists_last (l := h :: p)) as (pre & x & E); [discriminate|]. eauto. Qed.
Lemma check_last (pre : packet) h : checkidx (pre ++ [h]) (-1) = Ok (List.length pre).
Proof. unfold checkidx. rewrite zlen_app. change (zlen [h]) with 1. pose proof (zlen_nonneg pre) as Z0. change (-1 <? 0) with true. cbn match. replace (zlen pre + 1 + -1) with (zlen pre) by lia. destruct (Z.leb_spec 0 (zlen pre)); [|lia]. destruct (Z.ltb_spec (zlen pre) (zlen pre + 1)); [|lia]. cbn [andb]. unfold zlen. rewrite Nat2Z.id. reflexivity. Qed.
Lemma set_last (pre : packet) h x : pkt_set (pre ++ [h]) (-1) x = Ok (pre ++ [x]).
Proof. unfold pkt_set. rewrite check_last. cbn [bindr]. rewrite set_nth_split. reflexivity. Qed.
Lemma del_last (pre : packet) h : pkt_del (pre ++ [h]) (-1) = Ok pre.
Proof. unfold pkt_del. rewrite check_last. cbn [bindr]. unfold del_nth. rewrite firstn_app, firstn_all, Nat.sub_diag. rewrite skipn_all2 by (rewrite app_length; cbn [List.length]; lia). cbn [firstn]. rewrite !app_nil_r. reflexivity. Qed.
Lemma F2_size {A B} (P : A -> B -> Prop) l k : Forall2 P l k -> List.length l = List.length k.
Proof. induction 1; cbn [List.length]; congruence. Qed.

(** ** The program that only listens *)
Lemma watch_silent n : never_sends (watch n).
Proof.
  induction n as [|n IH]; intros tr e T d q a; [inversion T; subst; intros []|]. cbn [watch] in T. inversion T as [| |c k x tr0 e0 T0]; subst. intros [I|I]; [discriminate|]. revert I.
  destruct x as [r| |x]; [exact (IH _ _ T0 d q a)|inversion T0; subst; intros []|]. destruct x; first [exact (IH _ _ T0 d q a)|inversion T0; subst; intros []].
Qed.
Lemma watch_raises n : forall t t' tr e, runs t (watch n) t' tr e -> e <> EndRaise EShutdown.
Proof.
  induction n as [|n IH]; intros t t' tr e R; [inversion R; subst; discriminate|]. cbn [watch] in R. inversion R as [| | |? ? ? t1 a ? tr0 ? C R0|? ? ? ? ? ? T R0]; subst; [|inversion R0; subst; discriminate].
  destruct a as [r| |x]; [exact (IH _ _ _ _ R0)|inversion R0; subst; discriminate|]. destruct x; first [exact (IH _ _ _ _ R0)|inversion R0; subst; discriminate].
Qed.
Lemma play_watch ifs : forall pend n t, Forall (fun x => prt (sv_ev x)) pend -> (forall x, In x pend -> is_out (sv_ev x) = false) -> Forall (deliverable ifs) (map sv_ev pend) -> (List.length pend < n)%nat -> state t ifs pend ->
  exists t' tr, play t (watch n) = (t', tr, EndReturn) /\ state t' ifs [].
Proof.
  induction pend as [|e pend IH]; intros n t Pr No D L S; (destruct n as [|n]; [cbn in L; lia|]); cbn [watch play].
  - destruct S as (Ep & Ei & Sh). assert (C : do_call t CRecv = (t, AnsExn EShutdown)) by (cbn [do_call]; unfold t_recv; rewrite Ep; reflexivity). rewrite C. cbn [play]. do 2 eexists. split; [reflexivity|]. repeat split; auto.
  - inversion Pr as [|? ? Pe Pr2]; subst. cbn [map] in D. inversion D as [|? ? D1 D2]; subst. pose proof (No e (or_introl eq_refl)) as Ne. cbn [List.length] in L.
    destruct (sv_ev e) as [dev p|w|o] eqn:Ee; [| |discriminate].
    + destruct D1 as (Hd & p' & b & q & B1 & B2). assert (R : reads_as p q) by (exists p', b; auto). rewrite <- Ee in Pe. destruct (recv_input t ifs e pend dev p q S Ee Pe Pr2 R Hd) as (t1 & C & S1). rewrite C.
      destruct (IH n t1 Pr2 (fun x Hx => No x (or_intror Hx)) D2 ltac:(lia) S1) as (t2 & tr & P2 & S2). rewrite P2. eauto.
    + destruct (recv_wait t ifs e pend w S Ee Pr2) as (t1 & C & S1). rewrite C. destruct (IH n t1 Pr2 (fun x Hx => No x (or_intror Hx)) D2 ltac:(lia) S1) as (t2 & tr & P2 & S2). rewrite P2. eauto.
Qed.
