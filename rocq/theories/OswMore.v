(** Proofs about the OpenflowSwitch model: histories. *)
From Verif Require Import Base BaseLemmas CodecLemmas EthAddrModel PacketModel OfModel OfSpec OfProofs OfMsg SwModel OswModel OswSpec OswProofs.

(** *** Lists *)
Lemma adds_app a b : adds (a ++ b) = (adds a + adds b)%nat.
Proof. induction a as [|[] a IH]; cbn [app adds]; try lia. Qed.
Lemma tail_split {A} (l : list A) e a x b : l ++ [e] = a ++ x :: b ->
  (b = [] /\ a = l /\ x = e) \/ (exists b', b = b' ++ [e] /\ l = a ++ x :: b').
Proof.
  intros H. destruct b as [|y b0] using rev_ind.
  - left. apply app_inj_tail in H. destruct H; auto.
  - right. change (a ++ x :: b0 ++ [y]) with (a ++ (x :: b0) ++ [y]) in H. rewrite app_assoc in H.
    apply app_inj_tail in H. destruct H as [-> ->]. exists b0. split; [reflexivity|]. reflexivity.
Qed.
Lemma added_snoc i l e : added i (l ++ [e]) -> added i l \/ (e = EAdd true /\ i = adds l).
Proof.
  intros (a & b & E & Ha). apply tail_split in E. destruct E as [(-> & -> & <-)|(b' & -> & ->)].
  - right. split; auto.
  - left. exists a, b'. auto.
Qed.
Lemma running_added i l : running i l -> added i l.
Proof. intros (a & b & d & -> & H). exists a, (b ++ EStart i :: d). auto. Qed.
Lemma running_snoc i l e : running i (l ++ [e]) -> running i l \/ (e = EStart i /\ added i l).
Proof.
  intros (a & b & d & E & Ha). rewrite app_comm_cons, app_assoc in E. apply tail_split in E.
  destruct E as [(-> & E & <-)|(d' & -> & ->)].
  - right. split; auto. exists a, b. split; auto.
  - left. exists a, b, d'. rewrite app_comm_cons, app_assoc. split; auto.
Qed.
Lemma proper_snoc l e : proper (l ++ [e]) -> proper l.
Proof. intros H a i now m b E. apply (H a i now m (b ++ [e])). rewrite E, <- app_assoc. reflexivity. Qed.
Lemma proper_last l i now m : proper (l ++ [EMsg i now m]) -> running i l /\ is_msg m.
Proof. intros H. apply (H l i now m []). reflexivity. Qed.
Lemma nth_set_same i c l : (i < length l)%nat -> nth_error (set_nth_ctl i c l) i = Some c.
Proof. revert i; induction l as [|x l IH]; intros [|i] H; cbn [length set_nth_ctl nth_error] in *; try lia; auto. apply IH. lia. Qed.
Lemma nth_set_other i j c l : i <> j -> nth_error (set_nth_ctl i c l) j = nth_error l j.
Proof. revert i j; induction l as [|x l IH]; intros [|i] [|j] H; cbn [set_nth_ctl nth_error]; try reflexivity; try lia. apply IH. lia. Qed.
Lemma len_set i c l : length (set_nth_ctl i c l) = length l.
Proof. revert i; induction l as [|x l IH]; intros [|i]; cbn [set_nth_ctl length]; auto. Qed.

(** *** Parsing keeps the header *)
Lemma parse_head m r : is_msg m -> of_parse m = Ok r ->
  exists h b, r = PHdr h :: b /\ oh_type h = ty_of m /\ oh_ver h = ver_of m /\ oh_xid h = unbe (xid_of m).
Proof.
  intros H P. destruct (is_msg_split m H) as (v & t & a & b & x1 & x2 & x3 & x4 & q & -> & Hv & Ht & _ & _).
  change (ty_of _) with t. change (ver_of _) with v. change (xid_of _) with [x1; x2; x3; x4].
  assert (E1 : unbe [v] = v) by (cbn [unbe length]; change (256 ^ Z.of_nat 0) with 1; lia).
  assert (E2 : unbe [t] = t) by (cbn [unbe length]; change (256 ^ Z.of_nat 0) with 1; lia).
  assert (E : unpack hdr_fmt [v; t; a; b; x1; x2; x3; x4] = Ok [VI v; VI t; VI (unbe [a; b]); VI (unbe [x1; x2; x3; x4])]).
  { unfold hdr_fmt. cbn [unpack length Nat.ltb Nat.leb firstn skipn bindr]. rewrite E1, E2. reflexivity. }
  unfold of_parse in P. apply bindr_ok in P. destruct P as ((h, rest) & P1 & P2). cbn [fst snd] in P2.
  assert (Hh : oh_type h = t /\ oh_ver h = v /\ oh_xid h = unbe [x1; x2; x3; x4]).
  { clear P2. unfold hdr_from in P1. change (Nat.ltb (length (v :: t :: a :: b :: x1 :: x2 :: x3 :: x4 :: q)) 8) with false in P1.
    change (firstn 8 (v :: t :: a :: b :: x1 :: x2 :: x3 :: x4 :: q)) with [v; t; a; b; x1; x2; x3; x4] in P1. rewrite E in P1.
    change (skipn 8 (v :: t :: a :: b :: x1 :: x2 :: x3 :: x4 :: q)) with q in P1. cbn [bindr] in P1.
    destruct (zmem t [16; 17] && Nat.leb 2 (length q)).
    - apply bindr_ok in P1. destruct P1 as (ss & _ & P1). destruct ss as [|[s|?] [|? ?]]; try discriminate.
      apply bindr_ok in P1. destruct P1 as (s' & _ & P1). apply ok_pair_inj in P1. destruct P1 as [<- _]. auto.
    - apply ok_pair_inj in P1. destruct P1 as [<- _]. auto. }
  apply bindr_ok in P2. destruct P2 as (nc & _ & P2). destruct nc as [c|].
  - apply bindr_ok in P2. destruct P2 as (br & _ & P2). apply ok_inj in P2. rewrite <- P2. eexists _, _. split; [reflexivity|]. exact Hh.
  - apply ok_inj in P2. rewrite <- P2. eexists _, _. split; [reflexivity|]. exact Hh.
Qed.

Section Hist.
Variables (link : bool) (sid : bytes) (ifs : list oif) (net_send : send -> payload -> option exn).
#[local] Notation handle := (handle sid ifs net_send).
#[local] Notation serve := (serve sid ifs net_send).
#[local] Notation handle_datapath := (handle_datapath ifs net_send).
#[local] Notation osw_step := (osw_step link sid ifs net_send).
#[local] Notation osw_run := (osw_run link sid ifs net_send).

Lemma run_app s a b : osw_run s (a ++ b) = (let '(s1, o1) := osw_run s a in let '(s2, o2) := osw_run s1 b in (s2, o1 ++ o2)).
Proof.
  revert s; induction a as [|e a IH]; intros s; cbn [app OswModel.osw_run].
  - destruct (osw_run s b); reflexivity.
  - destruct (osw_step s e) as [s1 o1]. rewrite IH. destruct (osw_run s1 a) as [s2 o2]. destruct (osw_run s2 b). rewrite app_assoc. reflexivity.
Qed.
Lemma run_snoc s l e : fst (osw_run s (l ++ [e])) = fst (osw_step (fst (osw_run s l)) e).
Proof.
  rewrite run_app. destruct (osw_run s l) as [s1 o1]. cbn [OswModel.osw_run fst]. destruct (osw_step s1 e). reflexivity.
Qed.
Lemma run_fst_app s a b : fst (osw_run s (a ++ b)) = fst (osw_run (fst (osw_run s a)) b).
Proof. rewrite run_app. destruct (osw_run s a) as [s1 o1]. cbn [fst]. destruct (osw_run s1 b). reflexivity. Qed.

(** *** What a handler can change *)
Lemma tell_state i m s s' o e : tell i m s = (s', o, e) -> s' = s.
Proof. unfold tell. destruct (nth_error _ _) as [c|]; [destruct (c_up c); [destruct (of_ser m) as [?|?]|]|]; intros [= <- _ _]; reflexivity. Qed.
Lemma answer_state i h ty b s s' o e : answer i h ty b s = (s', o, e) -> s' = s.
Proof. unfold answer. destruct (o_lib10 s); [apply tell_state|intros [= <- _ _]; reflexivity]. Qed.
(** Everything but _version, _oflib, the configuration and the buffer stays. *)
Definition kept (s s' : osw) : Prop := o_tab s' = o_tab s /\ o_ctls s' = o_ctls s /\ o_dp s' = o_dp s /\ o_xid s' = o_xid s.
Lemma kept_refl s : kept s s.
Proof. unfold kept; auto. Qed.
Lemma handle_kept i k h b s s' o e : handle i k h b s = (s', o, e) -> kept s s'.
Proof.
  assert (A : forall i h ty b s0, kept s s0 -> forall s' o e, answer i h ty b s0 = (s', o, e) -> kept s s').
  { intros ? ? ? ? s0 K s1 ? ? H. apply answer_state in H. subst. exact K. }
  assert (R := kept_refl s).
  intros H. destruct k; cbn [OswModel.handle] in H.
  - destruct (oh_ver h =? 1); [|destruct (oh_ver h =? 4)]; [| |injection H; intros; subst; auto];
      eapply A; [|exact H| |exact H]; unfold kept, set_lib; cbn; auto.
  - destruct (o_lib10 s); [|injection H; intros; subst; auto]. destruct (dpid_of sid); [eapply A; eauto|injection H; intros; subst; auto].
  - destruct b as [[?|[]|?]|]; injection H; intros; subst; auto.
  - eapply A; eauto.
  - destruct b; injection H; intros; subst; auto.
  - eapply A; eauto.
  - destruct b as [[?|[]|?]|]; try (injection H; intros; subst; auto; fail). destruct data; [|injection H; intros; subst; auto].
    destruct (negb _).
    + destruct (buf_pop (o_buf s) buffer) as [b' [v|x]]; [|injection H; intros; subst; auto].
      destruct (do_actions ifs net_send acts inport (WPkt (snd v)) s). injection H; intros; subst. unfold kept, set_buf; cbn; auto.
    + destruct (do_actions ifs net_send acts inport (WRaw b) s). injection H; intros; subst; auto.
  - injection H; intros; subst; auto.
  - injection H; intros; subst; auto.
  - eapply A; eauto.
Qed.
Lemma serve_kept i mp now m s s' o e : o_tab s = [] -> serve i mp now m s = (s', o, e) -> kept s s'.
Proof.
  intros T H. unfold OswModel.serve in H. destruct (of_parse m) as [r|x]; [|injection H; intros; subst; apply kept_refl].
  rewrite expire_nil in H by auto. destruct (parsed r) as [[h b]|]; [|injection H; intros; subst; apply kept_refl].
  eapply handle_kept; eauto.
Qed.
(** A packet on the datapath: no flow entry, so only the transaction counter and the buffer change. *)
Definition same_conf (s s' : osw) : Prop :=
  o_tab s' = o_tab s /\ o_ctls s' = o_ctls s /\ o_dp s' = o_dp s /\ o_ver s' = o_ver s /\ o_lib10 s' = o_lib10 s /\
  o_flags s' = o_flags s /\ o_miss s' = o_miss s.
Lemma packet_in_conf n p s s' o e : packet_in n p s = (s', o, e) -> same_conf s s'.
Proof.
  unfold packet_in. destruct (pkt_to_bytes p) as [[p' raw]|x]; [|intros [= <- _ _]; repeat split].
  destruct (buf_add 100 (o_buf s) (n, p')) as [b [id|]]; [|intros [= <- _ _]; repeat split].
  destruct (o_lib10 s) eqn:L; [|intros [= <- _ _]; repeat split].
  destruct (get_port n); [|intros [= <- _ _]; repeat split]. destruct (tell_all _ _ _ _). intros [= <- _ _]; repeat split.
Qed.
Lemma set_tab_same s : o_tab s = [] -> set_tab [] s = s.
Proof. intros T. unfold set_tab. rewrite <- T. destruct s; reflexivity. Qed.
Lemma datapath_nil dev now p s : o_tab s = [] -> handle_datapath dev now p s =
  match port_named dev ifs with None => (s, [], Some EKey) | Some i => packet_in (oi_num i) p s end.
Proof. intros T. unfold OswModel.handle_datapath. rewrite T. cbn [ft_match]. rewrite set_tab_same by auto. reflexivity. Qed.
Lemma datapath_conf dev now p s s' o e : o_tab s = [] -> handle_datapath dev now p s = (s', o, e) -> same_conf s s'.
Proof.
  intros T H. rewrite datapath_nil in H by auto. destruct (port_named dev ifs); [eapply packet_in_conf; eauto|].
  injection H; intros; subst; repeat split.
Qed.

(** *** Invariants of every history *)
Lemma end_ctl_spec i e s c : nth_error (o_ctls s) i = Some c ->
  o_ctls (end_ctl i e s) = set_nth_ctl i (mkCtl (c_up c) (c_map c) (Some e)) (o_ctls s) /\
  o_tab (end_ctl i e s) = o_tab s /\ o_ver (end_ctl i e s) = o_ver s /\ o_lib10 (end_ctl i e s) = o_lib10 s /\
  o_flags (end_ctl i e s) = o_flags s /\ o_miss (end_ctl i e s) = o_miss s /\ o_xid (end_ctl i e s) = o_xid s /\
  o_buf (end_ctl i e s) = o_buf s /\ o_dp (end_ctl i e s) = o_dp s.
Proof. intros H. unfold end_ctl. rewrite H. cbn. repeat split. Qed.

(** How one step changes the list of controllers. *)
Inductive ctls_step (l : list ctl) (ver : Z) : oev -> list ctl -> Prop :=
| CsSame e : (forall r, e <> EAdd r) -> (forall i, e = EStart i -> forall c, nth_error l i = Some c -> c_map c <> None \/ c_end c <> None) ->
             ctls_step l ver e l
| CsAdd r : ctls_step l ver (EAdd r) (l ++ [mkCtl (cc_connect link r false) None None])
| CsStart i u : nth_error l i = Some (mkCtl u None None) ->
    ctls_step l ver (EStart i) (set_nth_ctl i (if ver =? 1 then mkCtl u (Some true) None else if ver =? 4 then mkCtl u (Some false) None
                                               else mkCtl u None (Some EKey)) l)
| CsEnd e i c x : (forall r, e <> EAdd r) -> (forall j, e <> EStart j) -> nth_error l i = Some c -> c_end c = None -> c_map c <> None ->
    ctls_step l ver e (set_nth_ctl i (mkCtl (c_up c) (c_map c) (Some x)) l).
Lemma step_ctls s e : o_tab s = [] -> o_tab (fst (osw_step s e)) = [] /\ ctls_step (o_ctls s) (o_ver s) e (o_ctls (fst (osw_step s e))).
Proof.
  intros T. destruct e as [r|i|i now m|i now|dev now p]; cbn [OswModel.osw_step].
  - cbn [fst set_ctls o_tab o_ctls]. split; auto. apply CsAdd.
  - cbn [fst]. unfold start. destruct (nth_error (o_ctls s) i) as [[u [mp|] [en|]]|] eqn:E.
    5: { split; auto. apply CsSame; [discriminate|]. intros j [= <-] c Hc. congruence. }
    1-3: split; auto; apply CsSame; [discriminate|]; intros j [= <-] c Hc; rewrite E in Hc; injection Hc as <-; cbn; first [left; discriminate|right; discriminate].
    cbn [set_ctls o_tab o_ctls next_xid]. split; auto. apply CsStart. auto.
  - destruct (nth_error (o_ctls s) i) as [[[] [mp|] [en|]]|] eqn:E; try (cbn [fst]; split; auto; apply CsSame; intros; discriminate).
    destruct (serve i mp now m s) as [[s1 o] x] eqn:S. destruct (serve_kept _ _ _ _ _ _ _ _ T S) as (K1 & K2 & K3 & K4).
    destruct x as [x|]; cbn [end_if fst].
    + assert (E1 : nth_error (o_ctls s1) i = Some (mkCtl true (Some mp) None)) by congruence.
      destruct (end_ctl_spec i x s1 _ E1) as (F1 & F2 & _). rewrite F1, F2, K2. split; [congruence|].
      eapply CsEnd; eauto; discriminate.
    + rewrite K2. split; [congruence|]. apply CsSame; intros; discriminate.
  - destruct (nth_error (o_ctls s) i) as [[u [mp|] [en|]]|] eqn:E; try (cbn [fst]; split; auto; apply CsSame; intros; discriminate).
    rewrite expire_nil by auto. cbn [end_if fst]. split; auto; apply CsSame; intros; discriminate.
  - destruct (o_dp s) eqn:D; [cbn [fst]; split; auto; apply CsSame; intros; discriminate|].
    destruct (handle_datapath dev now p s) as [[s1 o] x] eqn:S. destruct (datapath_conf _ _ _ _ _ _ _ T S) as (K1 & K2 & _).
    destruct x; cbn [fst set_dp o_tab o_ctls]; rewrite K2; (split; [congruence|]); apply CsSame; intros; discriminate.
Qed.
Lemma ctls_len l v e l' : ctls_step l v e l' -> length l' = (length l + adds [e])%nat.
Proof.
  intros [e0 N _|r|i u H|e0 i c x N _ H _ _]; cbn [adds].
  - destruct e0; try lia. exfalso. eapply N; reflexivity.
  - rewrite app_length. cbn [length]. lia.
  - rewrite len_set. lia.
  - rewrite len_set. destruct e0; try lia. exfalso. eapply N; reflexivity.
Qed.
(** A thread that ended stays as it is. *)
Lemma ctls_ended l v e l' i c : ctls_step l v e l' -> nth_error l i = Some c -> c_end c <> None -> nth_error l' i = Some c.
Proof.
  intros [e0 N _|r|j u H|e0 j d x N _ H1 H2 H3] Hi Hc; auto.
  - rewrite nth_error_app1; auto. apply nth_error_Some. congruence.
  - destruct (Nat.eq_dec j i) as [->|NE]; [|rewrite nth_set_other by auto; auto]. rewrite Hi in H. injection H as ->. cbn in Hc. congruence.
  - destruct (Nat.eq_dec j i) as [->|NE]; [|rewrite nth_set_other by auto; auto]. congruence.
Qed.
Lemma ended_step s e i : o_tab s = [] -> ended i s -> ended i (fst (osw_step s e)).
Proof.
  intros T (c & H1 & H2). destruct (step_ctls s e T) as [_ C]. exists c. split; auto. eapply ctls_ended; eauto.
Qed.
Lemma tab_run s l : o_tab s = [] -> o_tab (fst (osw_run s l)) = [].
Proof.
  intros T. induction l as [|e l IH] using rev_ind; auto. rewrite run_snoc. apply step_ctls. auto.
Qed.
Lemma ended_run s l i : o_tab s = [] -> ended i s -> ended i (fst (osw_run s l)).
Proof.
  intros T H. induction l as [|e l IH] using rev_ind; auto. rewrite run_snoc. apply ended_step; auto using tab_run.
Qed.
Lemma ended_silent s i now m : ended i s -> osw_step s (EMsg i now m) = (s, []).
Proof. intros (c & H & N). cbn [OswModel.osw_step]. rewrite H. destruct c as [u mp [x|]]; [|cbn in N; congruence]. destruct u, mp; reflexivity. Qed.
Lemma not_alive_ended s : ~ all_alive s -> exists i, ended i s.
Proof.
  intros H. assert (G : exists c, In c (o_ctls s) /\ c_end c <> None).
  { unfold all_alive in H. generalize dependent (o_ctls s). induction l as [|c l IH]; intros H; [exfalso; apply H; intros ? []|].
    destruct (c_end c) eqn:E.
    - exists c. split; [left; auto|congruence].
    - destruct IH as (d & I & N); [|exists d; split; [right; auto|auto]]. intros G. apply H. intros d [<-|I]; auto. }
  destruct G as (c & I & N). apply In_nth_error in I. destruct I as (i & I). exists i, c. auto.
Qed.
Lemma alive_back s e : o_tab s = [] -> all_alive (fst (osw_step s e)) -> all_alive s.
Proof.
  intros T A c I. destruct (c_end c) eqn:E; auto. exfalso. apply In_nth_error in I. destruct I as (i & I).
  assert (N : ended i s) by (exists c; split; auto; congruence). apply (ended_step s e) in N; auto.
  destruct N as (d & D1 & D2). apply D2. apply A. eapply nth_error_In; eauto.
Qed.

(** The controllers that were added and the threads that run. *)
Definition K (l : list oev) (s : osw) : Prop :=
  o_tab s = [] /\ length (o_ctls s) = adds l /\
  (forall i, added i l -> exists c, nth_error (o_ctls s) i = Some c /\ c_up c = link) /\
  (forall i, running i l -> exists c, nth_error (o_ctls s) i = Some c /\ (c_map c <> None \/ c_end c <> None)) /\
  (forall i c, nth_error (o_ctls s) i = Some c -> c_up c = true -> added i l).
Lemma cc_true : cc_connect link true false = link.
Proof. unfold cc_connect. destruct link; reflexivity. Qed.
Lemma K_step l s e : K l s -> K (l ++ [e]) (fst (osw_step s e)).
Proof.
  intros (T & L & U & R & N). destruct (step_ctls s e T) as [T' C]. split; [exact T'|]. clear T'.
  generalize dependent (o_ctls (fst (osw_step s e))). intros l' C. split; [|split; [|split]].
  - rewrite (ctls_len _ _ _ _ C), adds_app, L. reflexivity.
  - intros i A. apply added_snoc in A. destruct A as [A|[-> ->]].
    + destruct (U i A) as (c & H1 & H2). destruct C as [e0 _ _|r|j u Hu|e0 j d x _ _ G1 G2 G3].
      * exists c. auto.
      * exists c. split; auto. rewrite nth_error_app1; auto. apply nth_error_Some. congruence.
      * destruct (Nat.eq_dec j i) as [->|NE]; [|exists c; rewrite nth_set_other by auto; auto].
        eexists. split; [apply nth_set_same; apply nth_error_Some; congruence|]. rewrite H1 in Hu. injection Hu as ->.
        cbn [c_up] in H2. destruct (o_ver s =? 1); [auto|]. destruct (o_ver s =? 4); auto.
      * destruct (Nat.eq_dec j i) as [->|NE]; [|exists c; rewrite nth_set_other by auto; auto].
        eexists. split; [apply nth_set_same; apply nth_error_Some; congruence|]. cbn [c_up]. congruence.
    + inversion C as [e0 X _|r| |e0 j d x X _ _ _ _]; subst; try (exfalso; eapply X; reflexivity).
      eexists. rewrite nth_error_app2 by lia. rewrite L, Nat.sub_diag. cbn [nth_error]. split; [reflexivity|]. cbn [c_up]. apply cc_true.
  - intros i A. apply running_snoc in A. destruct A as [A|[-> A]].
    + destruct (R i A) as (c & H1 & H2). destruct C as [e0 _ _|r|j u Hu|e0 j d x _ _ G1 G2 G3].
      * exists c. auto.
      * exists c. split; auto. rewrite nth_error_app1; auto. apply nth_error_Some. congruence.
      * destruct (Nat.eq_dec j i) as [->|NE]; [|exists c; rewrite nth_set_other by auto; auto].
        eexists. split; [apply nth_set_same; apply nth_error_Some; congruence|].
        destruct (o_ver s =? 1); [left; discriminate|]. destruct (o_ver s =? 4); [left|right]; discriminate.
      * destruct (Nat.eq_dec j i) as [->|NE]; [|exists c; rewrite nth_set_other by auto; auto].
        eexists. split; [apply nth_set_same; apply nth_error_Some; congruence|]. right. discriminate.
    + destruct (U i A) as (c & H1 & H2). inversion C as [e0 X Y| |j u Hu|e0 j d x X Y _ _ _]; subst.
      * exists c. split; auto. eapply Y; eauto.
      * eexists. split; [apply nth_set_same; apply nth_error_Some; congruence|].
        destruct (o_ver s =? 1); [left; discriminate|]. destruct (o_ver s =? 4); [left|right]; discriminate.
      * exfalso. eapply Y; reflexivity.
  - assert (W : forall i, added i l -> added i (l ++ [e])).
    { intros i (a & b & -> & Ha). exists a, (b ++ [e]). rewrite <- app_assoc. split; auto. }
    intros i c Hi Hc. destruct C as [e0 X Y|r|j u Hu|e0 j d x X Y G1 G2 G3].
    + apply W. eapply N; eauto.
    + destruct (Nat.lt_ge_cases i (length (o_ctls s))).
      * rewrite nth_error_app1 in Hi by auto. apply W. eapply N; eauto.
      * rewrite nth_error_app2 in Hi by auto. destruct (i - length (o_ctls s))%nat eqn:D; [|destruct n; discriminate].
        cbn [nth_error] in Hi. injection Hi as <-. cbn [c_up] in Hc. unfold cc_connect in Hc. cbn [orb] in Hc.
        apply andb_true_iff in Hc. destruct Hc as [_ ->]. exists l, []. split; auto. lia.
    + apply W. destruct (Nat.eq_dec j i) as [->|NE].
      * rewrite nth_set_same in Hi by (apply nth_error_Some; congruence). injection Hi as <-.
        eapply N; [exact Hu|]. cbn [c_up]. destruct (o_ver s =? 1); [exact Hc|]. destruct (o_ver s =? 4); exact Hc.
      * rewrite nth_set_other in Hi by auto. eapply N; eauto.
    + apply W. destruct (Nat.eq_dec j i) as [->|NE].
      * rewrite nth_set_same in Hi by (apply nth_error_Some; congruence). injection Hi as <-. eapply N; [exact G1|exact Hc].
      * rewrite nth_set_other in Hi by auto. eapply N; eauto.
Qed.
Lemma K_new v s0 : osw_new v = Ok s0 -> K [] s0.
Proof.
  unfold osw_new. intros H. assert (E : o_tab s0 = [] /\ o_ctls s0 = []).
  { destruct (v =? 1); [|destruct (v =? 4); [|discriminate]]; apply ok_inj in H; subst; auto. }
  destruct E as [E1 E2]. unfold K. rewrite E2. split; auto. split; auto. split; [|split].
  - intros i (a & b & Hl & _). destruct a; discriminate.
  - intros i (a & b & d & Hl & _). destruct a; discriminate.
  - intros i c Hi. destruct i; discriminate.
Qed.
Lemma K_run v s0 l : osw_new v = Ok s0 -> K l (fst (osw_run s0 l)).
Proof.
  intros H. induction l as [|e l IH] using rev_ind; [apply (K_new v); auto|]. rewrite run_snoc. apply K_step. exact IH.
Qed.

(** *** A 1.0 switch none of whose threads has ended *)
Definition J (l : list oev) (s : osw) : Prop :=
  o_ver s = 1 /\ o_lib10 s = true /\ (o_flags s, o_miss s) = config l /\ 0 <= o_flags s <= 3 /\ 0 <= o_miss s < 65536 /\
  (forall c, In c (o_ctls s) -> c_map c <> Some false).
Lemma serve_conf i now m s s' o : o_tab s = [] -> is_msg m -> o_ver s = 1 -> o_lib10 s = true ->
  0 <= o_flags s <= 3 -> 0 <= o_miss s < 65536 -> serve i true now m s = (s', o, None) ->
  o_ver s' = 1 /\ o_lib10 s' = true /\ (o_flags s', o_miss s') = conf_after (o_flags s, o_miss s) (EMsg i now m) /\
  0 <= o_flags s' <= 3 /\ 0 <= o_miss s' < 65536.
Proof.
  intros T M V L F1 F2 H. unfold OswModel.serve in H. destruct (of_parse m) as [r|x] eqn:P; [|discriminate].
  rewrite expire_nil in H by auto. destruct (parse_head m r M P) as (h & b & -> & Ht & Hv & Hx). cbn [parsed] in H. rewrite Ht in H.
  assert (NS : ty_of m <> 9 -> (o_flags s, o_miss s) = conf_after (o_flags s, o_miss s) (EMsg i now m)).
  { intros N. cbn [conf_after]. replace (ty_of m =? 9) with false by lia. reflexivity. }
  assert (Same : forall s1 o1 e1, s1 = s -> ty_of m <> 9 -> (s1, o1, e1) = (s', o, @None exn) ->
    o_ver s' = 1 /\ o_lib10 s' = true /\ (o_flags s', o_miss s') = conf_after (o_flags s, o_miss s) (EMsg i now m) /\
    0 <= o_flags s' <= 3 /\ 0 <= o_miss s' < 65536).
  { intros s1 o1 e1 -> N [= <- _ _]. rewrite <- NS by auto. auto. }
  assert (Ans : forall ty b' h', answer i h' ty b' s = (s', o, None) -> ty_of m <> 9 ->
    o_ver s' = 1 /\ o_lib10 s' = true /\ (o_flags s', o_miss s') = conf_after (o_flags s, o_miss s) (EMsg i now m) /\
    0 <= o_flags s' <= 3 /\ 0 <= o_miss s' < 65536).
  { intros ty b' h' G N. pose proof (answer_state _ _ _ _ _ _ _ _ G) as ->. rewrite <- NS by auto. auto. }
  unfold handler in H.
  destruct (Z.eqb_spec (ty_of m) 0) as [E|E]; cbn [OswModel.handle] in H.
  { rewrite Hv in H. destruct (ver_of m =? 1); [rewrite set_lib_same in H by auto; eapply Ans; eauto; lia|].
    destruct (ver_of m =? 4); [cbn in H; discriminate|]. eapply Same; eauto; lia. }
  destruct (Z.eqb_spec (ty_of m) 5) as [E5|E5]; cbn [OswModel.handle] in H.
  { rewrite L in H. destruct (dpid_of sid); [|discriminate]. eapply Ans; eauto; lia. }
  destruct (Z.eqb_spec (ty_of m) 9) as [E9|E9]; cbn [OswModel.handle] in H.
  { destruct (set_config_conv m _ M E9 P) as (len & b' & Hr & R1 & R2). injection Hr as _ ->. cbn [nth_error] in H.
    injection H as <- _. cbn [set_conf o_ver o_lib10 o_flags o_miss conf_after]. rewrite E9. cbn [Z.eqb Pos.eqb]. auto. }
  destruct (Z.eqb_spec (ty_of m) 7) as [E7|E7]; cbn [OswModel.handle] in H; [eapply Ans; eauto; lia|].
  destruct (Z.eqb_spec (ty_of m) 14) as [E14|E14]; cbn [OswModel.handle] in H; [destruct (nth_error b 0); discriminate|].
  destruct (Z.eqb_spec (ty_of m) 13) as [E13|E13]; cbn [OswModel.handle] in H.
  { destruct (nth_error b 0) as [[?|[]|?]|]; try discriminate. destruct data; [|discriminate].
    destruct (negb _).
    - destruct (buf_pop (o_buf s) buffer) as [b' [v|x]]; [|discriminate].
      destruct (do_actions ifs net_send acts inport (WPkt (snd v)) s). injection H as <- _ _.
      cbn [set_buf o_ver o_lib10 o_flags o_miss]. rewrite <- NS by lia. auto.
    - destruct (do_actions ifs net_send acts inport (WRaw b0) s). eapply Same; eauto; lia. }
  destruct (Z.eqb_spec (ty_of m) 2) as [E2|E2]; cbn [OswModel.handle] in H; [discriminate|].
  destruct (Z.eqb_spec (ty_of m) 18) as [E18|E18]; cbn [OswModel.handle] in H; [eapply Ans; eauto; lia|].
  destruct (Z.eqb_spec (ty_of m) 16) as [E16|E16]; cbn [OswModel.handle] in H; [discriminate|].
  eapply Ans; eauto; lia.
Qed.
End Hist.
