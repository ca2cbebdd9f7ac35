(** Proofs about the OpenflowSwitch model: what controllers are told in every history. *)
From Verif Require Import Base BaseLemmas CodecLemmas EthAddrModel PacketModel OfModel OfSpec OfProofs OfMsg SwModel OswModel OswSpec OswProofs OswMore.

Lemma In_set i c l d : In d (set_nth_ctl i c l) -> d = c \/ In d l.
Proof.
  revert i; induction l as [|x l IH]; intros [|i]; cbn [set_nth_ctl In]; try tauto.
  - intros [H|H]; [left|right; right]; auto.
  - intros [H|H]; [right; left; auto|]. destruct (IH _ H); auto.
Qed.

Section Hist.
Variables (link : bool) (sid : bytes) (ifs : list oif) (net_send : send -> payload -> option exn).
#[local] Notation serve := (serve sid ifs net_send).
#[local] Notation handle_datapath := (handle_datapath ifs net_send).
#[local] Notation osw_step := (osw_step link sid ifs net_send).
#[local] Notation osw_run := (osw_run link sid ifs net_send).
#[local] Notation J := (J).

Lemma running_ctl v s0 l i : osw_new v = Ok s0 -> running i l ->
  exists c, nth_error (o_ctls (fst (osw_run s0 l))) i = Some c /\ c_up c = link /\ (c_map c <> None \/ c_end c <> None).
Proof.
  intros H R. destruct (K_run link sid ifs net_send v s0 l H) as (_ & _ & U & M & _).
  destruct (U i (running_added _ _ R)) as (c & H1 & H2). destruct (M i R) as (d & H3 & H4). exists c. rewrite H1 in H3. injection H3 as <-. auto.
Qed.
Lemma config_snoc l e : config (l ++ [e]) = conf_after (config l) e.
Proof. unfold config. rewrite fold_left_app. reflexivity. Qed.
Lemma alive_ctl s i c : all_alive s -> nth_error (o_ctls s) i = Some c -> c_end c = None.
Proof. intros A H. apply A. eapply nth_error_In; eauto. Qed.

Lemma J_step l s e : o_tab s = [] -> all_alive (fst (osw_step s e)) -> J l s ->
  (forall i now m, e = EMsg i now m -> is_msg m /\ exists mp, nth_error (o_ctls s) i = Some (mkCtl true (Some mp) None)) ->
  J (l ++ [e]) (fst (osw_step s e)).
Proof.
  intros T A (V & L & C & F1 & F2 & M) HM. unfold OswMore.J. rewrite config_snoc, <- C.
  destruct e as [r|i|i now m|i now|dev now p].
  - cbn [OswModel.osw_step fst set_ctls o_ver o_lib10 o_flags o_miss o_ctls conf_after]. repeat (apply conj; auto).
    intros c I. apply in_app_iff in I. destruct I as [I|[<-|[]]]; auto. discriminate.
  - cbn [OswModel.osw_step fst conf_after]. unfold start. destruct (nth_error (o_ctls s) i) as [[u [mp|] [en|]]|] eqn:E; try (repeat (apply conj; auto); fail).
    cbn [set_ctls next_xid o_ver o_lib10 o_flags o_miss o_ctls]. repeat (apply conj; auto).
    intros c I. apply In_set in I. destruct I as [->|I]; auto. rewrite V. discriminate.
  - destruct (HM i now m eq_refl) as (IM & mp & E). cbn [OswModel.osw_step] in A |- *. rewrite E in A |- *.
    assert (mp = true). { destruct mp; auto. exfalso. apply (M _ (nth_error_In _ _ E)). reflexivity. } subst mp.
    destruct (serve i true now m s) as [[s1 o] x] eqn:S. destruct (serve_kept _ _ _ _ _ _ _ _ _ _ _ T S) as (K1 & K2 & K3 & K4).
    destruct x as [x|]; cbn [end_if fst] in A |- *.
    + exfalso. assert (E1 : nth_error (o_ctls s1) i = Some (mkCtl true (Some true) None)) by congruence.
      destruct (end_ctl_spec i x s1 _ E1) as (G1 & _).
      assert (X : nth_error (o_ctls (end_ctl i x s1)) i = Some (mkCtl true (Some true) (Some x))).
      { rewrite G1. apply nth_set_same. apply nth_error_Some. congruence. }
      apply (alive_ctl _ _ _ A) in X. discriminate.
    + destruct (serve_conf _ _ _ i now m s s1 o T IM V L F1 F2 S) as (R1 & R2 & R3 & R4 & R5).
      rewrite K2. repeat (apply conj; auto).
  - cbn [OswModel.osw_step conf_after]. destruct (nth_error (o_ctls s) i) as [[u [mp|] [en|]]|] eqn:E; try (repeat (apply conj; auto); fail).
    rewrite expire_nil by auto. cbn [end_if fst]. repeat (apply conj; auto).
  - cbn [OswModel.osw_step conf_after]. destruct (o_dp s) eqn:D; [repeat (apply conj; auto)|].
    destruct (handle_datapath dev now p s) as [[s1 o] x] eqn:S. destruct (datapath_conf _ _ _ _ _ _ _ _ _ T S) as (K1 & K2 & K3 & K4 & K5 & K6 & K7).
    destruct x; cbn [fst set_dp o_ver o_lib10 o_flags o_miss o_ctls]; rewrite K2, K4, K5, K6, K7; repeat (apply conj; auto).
Qed.
End Hist.

Section Ten.
Variables (sid : bytes) (ifs : list oif) (net_send : send -> payload -> option exn) (s0 : osw).
#[local] Notation serve := (serve sid ifs net_send).
#[local] Notation osw_step := (osw_step true sid ifs net_send).
#[local] Notation osw_run := (osw_run true sid ifs net_send).
Hypothesis New : osw_new 1 = Ok s0.

Lemma J_run l : proper l -> all_alive (fst (osw_run s0 l)) -> J l (fst (osw_run s0 l)).
Proof.
  induction l as [|e l IH] using rev_ind; intros P A.
  - cbn [OswModel.osw_run fst]. unfold osw_new in New. cbn [Z.eqb Pos.eqb] in New. apply ok_inj in New. subst s0.
    unfold J. cbn. repeat (apply conj; auto; try lia).
  - rewrite run_snoc in A |- *. assert (T : o_tab (fst (osw_run s0 l)) = []) by apply (K_run true sid ifs net_send 1 s0 l New).
    pose proof (alive_back true sid ifs net_send _ e T A) as A'. apply J_step; auto.
    + apply IH; auto. eapply proper_snoc; eauto.
    + intros i now m ->. destruct (proper_last _ _ _ _ P) as [R M]. split; auto.
      destruct (running_ctl true sid ifs net_send 1 s0 l i New R) as (c & H1 & H2 & H3).
      pose proof (alive_ctl _ _ _ A' H1) as H4. destruct c as [u [mp|] [en|]]; cbn in H2, H3, H4; try discriminate.
      * exists mp. congruence.
      * exfalso. destruct H3; congruence.
Qed.
Lemma ctl_run l i : proper l -> all_alive (fst (osw_run s0 l)) -> running i l ->
  nth_error (o_ctls (fst (osw_run s0 l))) i = Some (mkCtl true (Some true) None).
Proof.
  intros P A R. destruct (running_ctl true sid ifs net_send 1 s0 l i New R) as (c & H1 & H2 & H3).
  pose proof (alive_ctl _ _ _ A H1) as H4. pose proof (J_run l P A) as (_ & _ & _ & _ & _ & M).
  pose proof (M _ (nth_error_In _ _ H1)) as H5.
  destruct c as [u [[|]|] [en|]]; cbn in H2, H3, H4, H5; try discriminate; try congruence; destruct H3; congruence.
Qed.
Lemma set_conf_ctls f m s : o_ctls (set_conf f m s) = o_ctls s.
Proof. reflexivity. Qed.

Lemma answers l i now m outs : describable sid ifs -> proper l -> running i l -> all_alive (fst (osw_run s0 l)) -> is_msg m ->
  answered sid ifs (config l) m outs ->
  snd (osw_step (fst (osw_run s0 l)) (EMsg i now m)) = map (Tell i) outs /\
  all_alive (fst (osw_run s0 (l ++ [EMsg i now m]))).
Proof.
  intros D P R A M An. pose proof (ctl_run l i P A R) as E. pose proof (J_run l P A) as (V & L & C & F1 & F2 & _).
  assert (T : o_tab (fst (osw_run s0 l)) = []) by apply (K_run true sid ifs net_send 1 s0 l New).
  rewrite run_snoc. set (s := fst (osw_run s0 l)) in *. rewrite <- C in An.
  assert (U : up i s) by (eexists; split; [exact E|reflexivity]).
  pose proof (serve_answered sid ifs net_send i now m s outs D M T V L U ltac:(lia) F2 An) as S.
  cbn [OswModel.osw_step]. rewrite E, S. cbn [end_if fst snd]. split; [reflexivity|exact A].
Qed.

(** Messages that end the thread. *)
Lemma serve_fatal i now m s : o_tab s = [] -> is_msg m -> fatal m ->
  exists s1 e, serve i true now m s = (s1, [], Some e) /\ o_ctls s1 = o_ctls s.
Proof.
  intros T M F. unfold OswModel.serve. destruct (of_parse m) as [r|x] eqn:P; [|do 2 eexists; split; reflexivity].
  rewrite expire_nil by auto. destruct (parse_head m r M P) as (h & b & -> & Ht & Hv & Hx). cbn [parsed]. rewrite Ht.
  destruct F as [F|[F|[F|[F1 F2]]]].
  - rewrite F. change (handler true 2) with HEcho. cbn [OswModel.handle]. do 2 eexists; split; reflexivity.
  - rewrite F. change (handler true 14) with HFlowMod. cbn [OswModel.handle]. destruct (nth_error b 0); do 2 eexists; split; reflexivity.
  - rewrite F. change (handler true 16) with HStats. cbn [OswModel.handle]. do 2 eexists; split; reflexivity.
  - rewrite F1. change (handler true 0) with HHello. cbn [OswModel.handle]. rewrite Hv, F2. cbn [Z.eqb Pos.eqb]. cbn [answer set_lib o_lib10].
    do 2 eexists; split; reflexivity.
Qed.
End Ten.

Section Ends.
Variables (link : bool) (sid : bytes) (ifs : list oif) (net_send : send -> payload -> option exn).
#[local] Notation serve := (serve sid ifs net_send).
#[local] Notation osw_step := (osw_step link sid ifs net_send).
#[local] Notation osw_run := (osw_run link sid ifs net_send).
(** A thread whose handler raised answers nothing, now and later. *)
Lemma ends s i u mp now m s1 o e : o_tab s = [] -> nth_error (o_ctls s) i = Some (mkCtl u (Some mp) None) -> u = true ->
  serve i mp now m s = (s1, o, Some e) ->
  snd (osw_step s (EMsg i now m)) = o /\
  forall l, ended i (fst (osw_run (fst (osw_step s (EMsg i now m))) l)) /\
    forall now' m', osw_step (fst (osw_run (fst (osw_step s (EMsg i now m))) l)) (EMsg i now' m') =
                    (fst (osw_run (fst (osw_step s (EMsg i now m))) l), []).
Proof.
  intros T E -> S. destruct (serve_kept _ _ _ _ _ _ _ _ _ _ _ T S) as (K1 & K2 & _).
  assert (X : osw_step s (EMsg i now m) = (end_ctl i e s1, o)).
  { cbn [OswModel.osw_step]. rewrite E, S. reflexivity. }
  rewrite X. cbn [fst snd]. split; auto. intros l.
  assert (E1 : nth_error (o_ctls s1) i = Some (mkCtl true (Some mp) None)) by congruence.
  destruct (end_ctl_spec i e s1 _ E1) as (G1 & G2 & _).
  assert (En : ended i (end_ctl i e s1)).
  { eexists. split; [rewrite G1; apply nth_set_same; apply nth_error_Some; congruence|]. discriminate. }
  assert (En' : ended i (fst (osw_run (end_ctl i e s1) l))) by (apply ended_run; auto; congruence).
  split; auto. intros. apply ended_silent. exact En'.
Qed.
End Ends.

Section Four.
(** A switch whose library is openflow13. *)
Variables (link : bool) (sid : bytes) (ifs : list oif) (net_send : send -> payload -> option exn).
#[local] Notation serve := (serve sid ifs net_send).
#[local] Notation handle_datapath := (handle_datapath ifs net_send).
#[local] Notation osw_step := (osw_step link sid ifs net_send).
#[local] Notation osw_run := (osw_run link sid ifs net_send).
Lemma answer13 i h ty b s : o_lib10 s = false -> answer i h ty b s = (s, [], Some EKey).
Proof. intros H. unfold answer. rewrite H. reflexivity. Qed.
Lemma serve_lib13 i mp now m s s' o e : o_tab s = [] -> o_lib10 s = false -> is_msg m -> ~ hello10 m ->
  serve i mp now m s = (s', o, e) -> o_lib10 s' = false.
Proof.
  intros T L M N H. unfold OswModel.serve in H. destruct (of_parse m) as [r|x] eqn:P; [|injection H; intros; subst; auto].
  rewrite expire_nil in H by auto. destruct (parse_head m r M P) as (h & b & -> & Ht & Hv & Hx). cbn [parsed] in H. rewrite Ht in H.
  destruct (handler mp (ty_of m)) eqn:K; cbn [OswModel.handle] in H; rewrite ?answer13 in H by auto; try (injection H; intros; subst; auto; fail).
  - rewrite Hv in H. assert (ty_of m = 0).
    { unfold handler in K. destruct (Z.eqb_spec (ty_of m) 0); auto. exfalso.
      repeat match type of K with (if ?c then _ else _) = _ => destruct c; try discriminate K end. }
    destruct (Z.eqb_spec (ver_of m) 1) as [V|V]; [exfalso; apply N; split; auto|].
    destruct (ver_of m =? 4); [|injection H; intros; subst; auto]. cbn in H. injection H; intros; subst. reflexivity.
  - rewrite L in H. injection H; intros; subst; auto.
  - destruct (nth_error b 0) as [[?|[]|?]|]; injection H; intros; subst; auto.
  - destruct (nth_error b 0); injection H; intros; subst; auto.
  - destruct (nth_error b 0) as [[?|[]|?]|]; try (injection H; intros; subst; auto; fail). destruct data; [|injection H; intros; subst; auto].
    destruct (negb _).
    + destruct (buf_pop (o_buf s) buffer) as [b' [v|x]]; [|injection H; intros; subst; auto].
      destruct (do_actions ifs net_send acts inport (WPkt (snd v)) s). injection H; intros; subst; auto.
    + destruct (do_actions ifs net_send acts inport (WRaw b0) s). injection H; intros; subst; auto.
Qed.
Lemma step_lib13 s e : o_tab s = [] -> o_lib10 s = false -> (forall i now m, e = EMsg i now m -> is_msg m /\ ~ hello10 m) ->
  o_lib10 (fst (osw_step s e)) = false.
Proof.
  intros T L H. destruct e as [r|i|i now m|i now|dev now p]; cbn [OswModel.osw_step].
  - exact L.
  - cbn [fst]. unfold start. destruct (nth_error (o_ctls s) i) as [[u [mp|] [en|]]|]; auto.
  - destruct (H i now m eq_refl) as [M N]. destruct (nth_error (o_ctls s) i) as [[[] [mp|] [en|]]|] eqn:E; auto.
    destruct (serve i mp now m s) as [[s1 o] x] eqn:S. pose proof (serve_lib13 _ _ _ _ _ _ _ _ T L M N S) as L1.
    destruct (serve_kept _ _ _ _ _ _ _ _ _ _ _ T S) as (K1 & K2 & _).
    destruct x as [x|]; cbn [end_if fst]; auto.
    assert (E1 : nth_error (o_ctls s1) i = Some (mkCtl true (Some mp) None)) by congruence.
    destruct (end_ctl_spec i x s1 _ E1) as (_ & _ & _ & -> & _). exact L1.
  - destruct (nth_error (o_ctls s) i) as [[u [mp|] [en|]]|] eqn:E; auto. rewrite expire_nil by auto. exact L.
  - destruct (o_dp s) eqn:D; auto. destruct (handle_datapath dev now p s) as [[s1 o] x] eqn:S.
    destruct (datapath_conf _ _ _ _ _ _ _ _ _ T S) as (K1 & K2 & K3 & K4 & K5 & _). destruct x; cbn [fst set_dp o_lib10]; congruence.
Qed.
Lemma run_lib13 s0 l : osw_new 4 = Ok s0 -> no_hello10 l -> o_lib10 (fst (osw_run s0 l)) = false.
Proof.
  intros H. induction l as [|e l IH] using rev_ind; intros N.
  - unfold osw_new in H. cbn [Z.eqb Pos.eqb] in H. apply ok_inj in H. subst. reflexivity.
  - rewrite run_snoc. apply step_lib13.
    + apply (K_run link sid ifs net_send 4 s0 l H).
    + apply IH. intros i now m I. apply (N i now). apply in_app_iff. auto.
    + intros i now m ->. apply (N i now). apply in_app_iff. right. left. auto.
Qed.
(** Only a hello of another version, set-config and packet-out do not end the thread. *)
Lemma serve_dead13 i mp now m s : o_tab s = [] -> o_lib10 s = false -> is_msg m ->
  ~ (ty_of m = 0 /\ ver_of m <> 4) -> ty_of m <> 9 -> ty_of m <> 13 ->
  exists s1 e, serve i mp now m s = (s1, [], Some e).
Proof.
  intros T L M N1 N2 N3. unfold OswModel.serve. destruct (of_parse m) as [r|x] eqn:P; [|do 2 eexists; reflexivity].
  rewrite expire_nil by auto. destruct (parse_head m r M P) as (h & b & -> & Ht & Hv & Hx). cbn [parsed]. rewrite Ht.
  assert (K : handler mp (ty_of m) <> HSetConfig /\ handler mp (ty_of m) <> HPacketOut /\
              (handler mp (ty_of m) = HHello -> ty_of m = 0)).
  { unfold handler. destruct (Z.eqb_spec (ty_of m) 0); [repeat split; auto; discriminate|].
    destruct (ty_of m =? 5); [repeat split; discriminate|]. destruct (Z.eqb_spec (ty_of m) 9); [lia|].
    destruct (ty_of m =? 7); [repeat split; discriminate|]. destruct (ty_of m =? 14); [repeat split; discriminate|].
    destruct (Z.eqb_spec (ty_of m) 13); [lia|]. destruct (ty_of m =? 2); [repeat split; discriminate|].
    destruct mp, (ty_of m =? 18), (ty_of m =? 16), (ty_of m =? 20); repeat split; discriminate. }
  destruct K as (K1 & K2 & K3).
  destruct (handler mp (ty_of m)) eqn:K; cbn [OswModel.handle]; rewrite ?answer13 by auto; try (do 2 eexists; reflexivity); try congruence.
  - rewrite Hv. specialize (K3 eq_refl). destruct (Z.eqb_spec (ver_of m) 1); [exfalso; apply N1; lia|].
    destruct (Z.eqb_spec (ver_of m) 4); [|exfalso; apply N1; auto]. cbn. do 2 eexists; reflexivity.
  - rewrite L. do 2 eexists; reflexivity.
  - destruct (nth_error b 0); do 2 eexists; reflexivity.
Qed.
(** The first packet ends the datapath loop. *)
Lemma packet_in_dead13 n p s : o_lib10 s = false -> exists s1 e, packet_in n p s = (s1, [], Some e).
Proof.
  intros L. unfold packet_in. destruct (pkt_to_bytes p) as [[p' raw]|x]; [|do 2 eexists; reflexivity].
  destruct (buf_add 100 (o_buf s) (n, p')) as [b [id|]]; [|do 2 eexists; reflexivity]. rewrite L. do 2 eexists; reflexivity.
Qed.
Lemma datapath_dead13 dev now p s : o_tab s = [] -> o_lib10 s = false -> exists s1 e, handle_datapath dev now p s = (s1, [], Some e).
Proof.
  intros T L. rewrite datapath_nil by auto. destruct (port_named dev ifs); [apply packet_in_dead13; auto|do 2 eexists; reflexivity].
Qed.
End Four.

(** *** Without a connection nothing happens *)
Lemma unconnected sid ifs net_send v s0 l : osw_new v = Ok s0 -> snd (osw_run false sid ifs net_send s0 l) = [].
Proof.
  intros H. assert (G : snd (osw_run false sid ifs net_send s0 l) = [] /\
    forall c, In c (o_ctls (fst (osw_run false sid ifs net_send s0 l))) -> c_up c = false); [|apply G].
  induction l as [|e l [IH1 IH2]] using rev_ind.
  - split; [reflexivity|]. cbn [osw_run fst]. unfold osw_new in H.
    destruct (v =? 1); [|destruct (v =? 4); [|discriminate]]; apply ok_inj in H; subst; intros c [].
  - pose proof (K_run false sid ifs net_send v s0 l H) as KK. destruct KK as (T & _).
    assert (St : snd (osw_step false sid ifs net_send (fst (osw_run false sid ifs net_send s0 l)) e) = [] /\
      forall c, In c (o_ctls (fst (osw_step false sid ifs net_send (fst (osw_run false sid ifs net_send s0 l)) e))) -> c_up c = false).
    { set (s := fst (osw_run false sid ifs net_send s0 l)) in *. split.
      - assert (TA : forall l' i m s', o_ctls s' = o_ctls s -> tell_all l' i m s' = ([], None)).
        { intros l'. induction l' as [|d l' IHl]; intros i m s' E; [reflexivity|]. cbn [tell_all].
          assert (TE : tell i m s' = (s', [], None)).
          { unfold tell. rewrite E. destruct (nth_error (o_ctls s) i) as [c|] eqn:Ec; auto. rewrite (IH2 c) by (eapply nth_error_In; eauto). reflexivity. }
          rewrite TE, IHl by auto. reflexivity. }
        destruct e as [r|i|i now m|i now|dev now p]; cbn [osw_step]; auto.
        + destruct (nth_error (o_ctls s) i) as [[[] [mp|] [en|]]|] eqn:E; auto.
          apply nth_error_In in E. apply IH2 in E. discriminate.
        + destruct (nth_error (o_ctls s) i) as [[u [mp|] [en|]]|] eqn:E; auto. rewrite expire_nil by auto. reflexivity.
        + destruct (o_dp s); auto. rewrite datapath_nil by auto. destruct (port_named dev ifs); [|reflexivity].
          unfold packet_in. destruct (pkt_to_bytes p) as [[p' raw]|x]; [|reflexivity].
          destruct (buf_add 100 (o_buf s) (oi_num o, p')) as [b [id|]]; [|reflexivity]. destruct (o_lib10 s); [|reflexivity].
          destruct (get_port (oi_num o)); [|reflexivity]. rewrite TA by reflexivity. reflexivity.
      - destruct (step_ctls false sid ifs net_send s e T) as [_ C]. generalize dependent (o_ctls (fst (osw_step false sid ifs net_send s e))).
        intros l' C c I. destruct C as [e0 _ _|r|j u Hu|e0 j d x _ _ G1 G2 G3]; auto.
        + apply in_app_iff in I. destruct I as [I|[<-|[]]]; auto.
        + apply In_set in I. destruct I as [->|I]; auto. apply nth_error_In in Hu. apply IH2 in Hu. cbn in Hu. subst u.
          destruct (o_ver s =? 1); [auto|]. destruct (o_ver s =? 4); auto.
        + apply In_set in I. destruct I as [->|I]; auto. cbn [c_up]. apply IH2. eapply nth_error_In; eauto. }
    rewrite run_app. destruct (osw_run false sid ifs net_send s0 l) as [s1 o1]. cbn [fst snd] in *. cbn [osw_run].
    destruct (osw_step false sid ifs net_send s1 e) as [s2 o2]. cbn [fst snd] in *. destruct St as [-> St]. subst o1. split; auto.
Qed.
