(** Properties C98 and C99: the OpenFlow switch as controllers and hosts see it. *)
From Verif Require Import Base BaseLemmas CodecLemmas EthAddrModel EthModel PacketModel OfModel OfSpec OfProofs OfMsg SwModel
  OswModel OswSpec OswProofs OswMore OswHist OswData OswAny.

Section Props.
Variables (sid : bytes) (ifs : list oif) (net_send : send -> payload -> option exn) (s0 : osw).
#[local] Notation step := (osw_step true sid ifs net_send).
#[local] Notation after l := (fst (osw_run true sid ifs net_send s0 l)).

Lemma msg_ends l i mp now m s1 o e v : osw_new v = Ok s0 -> nth_error (o_ctls (after l)) i = Some (mkCtl true (Some mp) None) ->
  serve sid ifs net_send i mp now m (after l) = (s1, o, Some e) ->
  snd (step (after l) (EMsg i now m)) = o /\
  forall l' now' m', snd (step (after (l ++ EMsg i now m :: l')) (EMsg i now' m')) = [].
Proof.
  intros N E S. destruct (K_run true sid ifs net_send v s0 l N) as (T & _).
  destruct (ends true sid ifs net_send _ _ _ _ _ _ _ _ _ T E eq_refl S) as [O Q]. split; [exact O|]. intros l' now' m'.
  change (EMsg i now m :: l') with ([EMsg i now m] ++ l'). rewrite app_assoc, run_fst_app, run_snoc. rewrite (proj2 (Q l')). reflexivity.
Qed.
Lemma fatal_ends l i now m : osw_new 1 = Ok s0 -> proper l -> running i l -> all_alive (after l) -> is_msg m -> fatal m \/ (exists e, of_parse m = Err e) ->
  snd (step (after l) (EMsg i now m)) = [] /\
  forall l' now' m', snd (step (after (l ++ EMsg i now m :: l')) (EMsg i now' m')) = [].
Proof.
  intros N P R A M F. pose proof (ctl_run sid ifs net_send s0 N l i P A R) as E.
  destruct (K_run true sid ifs net_send 1 s0 l N) as (T & _).
  assert (S : exists s1 e, serve sid ifs net_send i true now m (after l) = (s1, [], Some e)).
  { destruct F as [F|[e F]].
    - destruct (serve_fatal sid ifs net_send i now m (after l) T M F) as (s1 & e & S & _). eauto.
    - unfold serve. rewrite F. eauto. }
  destruct S as (s1 & e & S). eapply msg_ends; eauto.
Qed.
Lemma unknown_told l i now m r : osw_new 1 = Ok s0 -> proper l -> running i l -> all_alive (after l) -> is_msg m -> of_parse m = Ok r ->
  ~ In (ty_of m) [0; 2; 5; 7; 9; 13; 14; 16; 18] ->
  snd (step (after l) (EMsg i now m)) = [Tell i (wire 1 (xid_of m) [0; 1; 0; 1])] /\ all_alive (after (l ++ [EMsg i now m])).
Proof.
  intros N P R A M Pa NI. pose proof (ctl_run sid ifs net_send s0 N l i P A R) as E. pose proof (J_run sid ifs net_send s0 N l P A) as (V & L & _).
  destruct (K_run true sid ifs net_send 1 s0 l N) as (T & _). rewrite run_snoc. set (s := after l) in *.
  destruct (parse_head m r M Pa) as (h & b & -> & Ht & Hv & Hx). destruct (xid_range m M) as [X1 X2].
  assert (S : serve sid ifs net_send i true now m s = (s, [Tell i (wire 1 (xid_of m) [0; 1; 0; 1])], None)).
  { unfold serve. rewrite Pa, expire_nil by auto. cbn [parsed]. rewrite Ht.
    assert (K : handler true (ty_of m) = HUnknown).
    { unfold handler. cbn [In] in NI. repeat match goal with |- context[ty_of m =? ?k] => destruct (Z.eqb_spec (ty_of m) k); [exfalso; apply NI; lia|] end. reflexivity. }
    rewrite K. cbn [handle]. rewrite (answer_body i s h 1 (BError (Some 1) (Some 1) []) [0; 1; 0; 1] L).
    - rewrite Hx, X2. reflexivity.
    - eexists. split; [exact E|reflexivity].
    - lia.
    - rewrite Hx. lia.
    - apply body_error.
    - cbn. lia. }
  cbn [osw_step]. rewrite E, S. split; [reflexivity|exact A].
Qed.
Lemma default_ends l i now m : osw_new 4 = Ok s0 -> no_hello10 l -> running i l -> is_msg m ->
  ~ (ty_of m = 0 /\ ver_of m <> 4) -> ty_of m <> 9 -> ty_of m <> 13 ->
  snd (step (after l) (EMsg i now m)) = [] /\
  forall l' now' m', snd (step (after (l ++ EMsg i now m :: l')) (EMsg i now' m')) = [].
Proof.
  intros N NH R M N1 N2 N3. destruct (K_run true sid ifs net_send 4 s0 l N) as (T & _).
  pose proof (run_lib13 true sid ifs net_send s0 l N NH) as Lb.
  destruct (running_ctl true sid ifs net_send 4 s0 l i N R) as (c & H1 & H2 & H3). destruct c as [u mo en]. cbn in H2, H3. subst u.
  destruct en as [x|].
  - assert (En : ended i (after l)) by (eexists; split; [exact H1|discriminate]).
    rewrite (ended_silent true sid ifs net_send (after l)) by auto. split; [reflexivity|]. intros.
    change (EMsg i now m :: l') with ([EMsg i now m] ++ l'). rewrite app_assoc, run_fst_app, run_snoc.
    rewrite ended_silent; [reflexivity|]. apply ended_run; [|apply ended_step; auto]. apply step_ctls. exact T.
  - destruct mo as [mp|]; [|exfalso; destruct H3 as [H3|H3]; apply H3; reflexivity].
    destruct (serve_dead13 sid ifs net_send i mp now m (after l) T Lb M N1 N2 N3) as (s1 & e & S). eapply msg_ends; eauto.
Qed.
Lemma default_packet l dev now p : osw_new 4 = Ok s0 -> no_hello10 l ->
  snd (step (after l) (EPkt dev now p)) = [] /\
  forall l' dev' now' p', snd (step (after (l ++ EPkt dev now p :: l')) (EPkt dev' now' p')) = [].
Proof.
  intros N NH. destruct (K_run true sid ifs net_send 4 s0 l N) as (T & _).
  pose proof (run_lib13 true sid ifs net_send s0 l N NH) as Lb.
  assert (St : exists s1 e, step (after l) (EPkt dev now p) = (s1, []) /\ o_dp s1 = Some e /\ o_tab s1 = []).
  { destruct (step_ctls true sid ifs net_send (after l) (EPkt dev now p) T) as [T' _]. cbn [osw_step] in *.
    destruct (o_dp (after l)) as [e|] eqn:D; [exists (after l), e; auto|].
    destruct (datapath_dead13 ifs net_send dev now p (after l) T Lb) as (s1 & e & H). rewrite H in *. do 2 eexists. split; [reflexivity|]. split; [reflexivity|exact T']. }
  destruct St as (s1 & e & St & D & T1). rewrite St. split; [reflexivity|]. intros.
  change (EPkt dev now p :: l') with ([EPkt dev now p] ++ l'). rewrite app_assoc, run_fst_app, run_snoc, St. cbn [fst].
  rewrite (dp_silent true sid ifs net_send _ e); [reflexivity|]. apply dp_ended_run; auto.
Qed.
End Props.

(** ** C98. The controller's side *)
(** A switch made for OpenFlow 1.0, whose controllers' connections come up, in any history of controllers being added,
    their threads starting, messages arriving, packets arriving and time passing, none of whose threads has ended: a
    running controller that sends hello (version 1), features request, get-config request, barrier request or a message
    of a type that is never asked for is told exactly the one answer, with the request's transaction id; set-config and
    a hello of an unsupported version are told nothing.  Get-config answers with the configuration last set by any
    controller.  No thread ends.  Missing for the full statement (every request gets its answer): the messages of
    C98_fatal_fails, version 1.3, and connections that come up at all (C98_unconnected_fails). *)
Theorem C98_answers_partial : forall sid ifs net_send s0 l i now m outs, osw_new 1 = Ok s0 -> describable sid ifs -> proper l ->
  running i l -> all_alive (fst (osw_run true sid ifs net_send s0 l)) -> is_msg m -> answered sid ifs (config l) m outs ->
  snd (osw_step true sid ifs net_send (fst (osw_run true sid ifs net_send s0 l)) (EMsg i now m)) = map (Tell i) outs /\
  all_alive (fst (osw_run true sid ifs net_send s0 (l ++ [EMsg i now m]))).
Proof. intros sid ifs ns s0 l i now m outs N D P R A M H. exact (answers sid ifs ns s0 N l i now m outs D P R A M H). Qed.
Print Assumptions C98_answers_partial.
(** Any other message that can be read and has a type the switch does not handle is answered with an error (bad
    request, bad type) carrying its transaction id. *)
Theorem C98_unknown_partial : forall sid ifs net_send s0 l i now m r, osw_new 1 = Ok s0 -> proper l -> running i l ->
  all_alive (fst (osw_run true sid ifs net_send s0 l)) -> is_msg m -> of_parse m = Ok r ->
  ~ In (ty_of m) [0; 2; 5; 7; 9; 13; 14; 16; 18] ->
  snd (osw_step true sid ifs net_send (fst (osw_run true sid ifs net_send s0 l)) (EMsg i now m)) =
    [Tell i (wire 1 (xid_of m) [0; 1; 0; 1])] /\
  all_alive (fst (osw_run true sid ifs net_send s0 (l ++ [EMsg i now m]))).
Proof. exact unknown_told. Qed.
Print Assumptions C98_unknown_partial.
(** An echo request, a flow-mod, a stats request, a hello of version 4 and a message that cannot be read are not
    answered, and this controller is never answered again, whatever happens later. *)
Theorem C98_fatal_fails : forall sid ifs net_send s0 l i now m, osw_new 1 = Ok s0 -> proper l -> running i l ->
  all_alive (fst (osw_run true sid ifs net_send s0 l)) -> is_msg m -> fatal m \/ (exists e, of_parse m = Err e) ->
  snd (osw_step true sid ifs net_send (fst (osw_run true sid ifs net_send s0 l)) (EMsg i now m)) = [] /\
  forall l' now' m', snd (osw_step true sid ifs net_send (fst (osw_run true sid ifs net_send s0 (l ++ EMsg i now m :: l'))) (EMsg i now' m')) = [].
Proof. exact fatal_ends. Qed.
Print Assumptions C98_fatal_fails.
(** A switch made for OpenFlow 1.3 (the default), until a controller says hello in version 1: every message except
    set-config, packet-out and a hello of another version is left unanswered and is the last this controller's thread
    reads. *)
Theorem C98_default_fails : forall sid ifs net_send s0 l i now m, osw_new 4 = Ok s0 -> no_hello10 l -> running i l -> is_msg m ->
  ~ (ty_of m = 0 /\ ver_of m <> 4) -> ty_of m <> 9 -> ty_of m <> 13 ->
  snd (osw_step true sid ifs net_send (fst (osw_run true sid ifs net_send s0 l)) (EMsg i now m)) = [] /\
  forall l' now' m', snd (osw_step true sid ifs net_send (fst (osw_run true sid ifs net_send s0 (l ++ EMsg i now m :: l'))) (EMsg i now' m')) = [].
Proof. exact default_ends. Qed.
Print Assumptions C98_default_fails.
(** As the code stands no connection ever comes up (connect uses names that do not exist): in no history is anything
    written to a controller or sent on the network. *)
Theorem C98_unconnected_fails : forall sid ifs net_send v s0 l, osw_new v = Ok s0 -> snd (osw_run false sid ifs net_send s0 l) = [].
Proof. exact unconnected. Qed.
Print Assumptions C98_unconnected_fails.
(** A version other than 1 and 4 is refused, though not with the message intended. *)
Theorem C98_versions : forall v, (exists s, osw_new v = Ok s) <-> v = 1 \/ v = 4.
Proof.
  intros v. unfold osw_new. destruct (Z.eqb_spec v 1); [split; [auto|eauto]|]. destruct (Z.eqb_spec v 4); [split; [auto|eauto]|].
  split; [intros [s H]; discriminate|lia].
Qed.
Print Assumptions C98_versions.

(** A concrete network and history. *)
Definition ex_ifs : list oif := [mkOif 0 [2; 0; 0; 0; 0; 1] [101; 116; 104; 48]; mkOif 1 [2; 0; 0; 0; 0; 2] [101; 116; 104; 49]].
Definition ex_sid : bytes := [192; 222; 0; 0; 0; 0; 0; 7].
Definition ex_send (d : send) (x : payload) : option exn := match x with WRaw _ => Some EValue | WPkt _ => None end.
Definition ex_s0 : osw := mkOs 1 true 0 1500 0 [] [] [] None.
Definition ex_hello : bytes := [1; 0; 0; 8; 0; 0; 0; 5].
Definition ex_config : bytes := [1; 9; 0; 12; 0; 0; 0; 6; 0; 1; 0; 64].
Definition ex_l : list oev := [EAdd true; EStart 0; EAdd false; EMsg 0 10 ex_hello; EMsg 0 11 ex_config].
Lemma ex_running : running 0 ex_l.
Proof. exists [], [], [EAdd false; EMsg 0 10 ex_hello; EMsg 0 11 ex_config]. split; reflexivity. Qed.
Lemma ex_msg (m : bytes) : forallb (fun b => (0 <=? b) && (b <? 256)) m = true -> (8 <= length m)%nat -> is_msg m.
Proof. intros H L. split; [|exact L]. apply Forall_forall. intros b I. rewrite forallb_forall in H. specialize (H b I). lia. Qed.
Lemma ex_proper : proper ex_l.
Proof.
  intros a i now m b H. unfold ex_l in H. destruct a as [|a0 [|a1 [|a2 [|a3 [|a4 [|a5 a6]]]]]]; cbn [app] in H; try discriminate H.
  - injection H as <- <- <- <- <- <- <-. split; [|apply ex_msg; [reflexivity|cbn; lia]]. exists [], [], [EAdd false]. split; reflexivity.
  - injection H as <- <- <- <- <- <- <- <-. split; [|apply ex_msg; [reflexivity|cbn; lia]]. exists [], [], [EAdd false; EMsg 0 10 ex_hello]. split; reflexivity.
Qed.
Lemma ex_alive : all_alive (fst (osw_run true ex_sid ex_ifs ex_send ex_s0 ex_l)).
Proof. intros c I. vm_compute in I. destruct I as [<-|[<-|[]]]; reflexivity. Qed.
Lemma ex_describable : describable ex_sid ex_ifs.
Proof. split; [vm_compute; lia|]. split; [|vm_compute; reflexivity]. intros x [<-|[<-|[]]]; split; cbn; lia. Qed.
Example C98_get_config :
  snd (osw_step true ex_sid ex_ifs ex_send (fst (osw_run true ex_sid ex_ifs ex_send ex_s0 ex_l)) (EMsg 0 12 [1; 7; 0; 8; 0; 0; 0; 9])) =
    [Tell 0 [1; 8; 0; 12; 0; 0; 0; 9; 0; 1; 0; 64]].
Proof.
  apply (C98_answers_partial ex_sid ex_ifs ex_send ex_s0 ex_l 0 12 [1; 7; 0; 8; 0; 0; 0; 9] [[1; 8; 0; 12; 0; 0; 0; 9; 0; 1; 0; 64]]
    eq_refl ex_describable ex_proper ex_running ex_alive); [apply ex_msg; [reflexivity|cbn; lia]|].
  change [[1; 8; 0; 12; 0; 0; 0; 9; 0; 1; 0; 64]] with [wire 8 (xid_of [1; 7; 0; 8; 0; 0; 0; 9]) (be 2 (fst (config ex_l)) ++ be 2 (snd (config ex_l)))].
  apply AnGetConfig. reflexivity.
Qed.
Example C98_features : snd (osw_step true ex_sid ex_ifs ex_send (fst (osw_run true ex_sid ex_ifs ex_send ex_s0 ex_l)) (EMsg 0 12 [1; 5; 0; 8; 0; 0; 0; 9])) =
  [Tell 0 ([1; 6; 0; 128; 0; 0; 0; 9; 192; 222; 0; 0; 0; 0; 0; 7; 0; 0; 0; 0; 1; 0; 0; 0; 0; 0; 0; 0; 0; 0; 0; 0] ++
           [0; 0; 2; 0; 0; 0; 0; 1; 101; 116; 104; 48] ++ repeat 0 36 ++ [0; 1; 2; 0; 0; 0; 0; 2; 101; 116; 104; 49] ++ repeat 0 36)].
Proof. reflexivity. Qed.
Example C98_echo_fails : forall l' now' m',
  snd (osw_step true ex_sid ex_ifs ex_send (fst (osw_run true ex_sid ex_ifs ex_send ex_s0 (ex_l ++ EMsg 0 12 [1; 2; 0; 8; 0; 0; 0; 9] :: l'))) (EMsg 0 now' m')) = [].
Proof.
  apply (C98_fatal_fails ex_sid ex_ifs ex_send ex_s0 ex_l 0 12 [1; 2; 0; 8; 0; 0; 0; 9] eq_refl ex_proper ex_running ex_alive).
  - apply ex_msg; [reflexivity|cbn; lia].
  - left. left. reflexivity.
Qed.
Example C98_vendor : snd (osw_step true ex_sid ex_ifs ex_send (fst (osw_run true ex_sid ex_ifs ex_send ex_s0 ex_l)) (EMsg 0 12 [1; 4; 0; 12; 0; 0; 0; 9; 0; 0; 0; 1])) =
  [Tell 0 [1; 1; 0; 12; 0; 0; 0; 9; 0; 1; 0; 1]].
Proof. reflexivity. Qed.
Definition ex_s4 : osw := mkOs 4 false 0 1500 0 [] [] [] None.
Example C98_default_hello : forall l' now' m',
  snd (osw_step true ex_sid ex_ifs ex_send (fst (osw_run true ex_sid ex_ifs ex_send ex_s4 ([EAdd true; EStart 0] ++ EMsg 0 12 [4; 0; 0; 8; 0; 0; 0; 9] :: l'))) (EMsg 0 now' m')) = [].
Proof.
  apply (C98_default_fails ex_sid ex_ifs ex_send ex_s4 [EAdd true; EStart 0] 0 12 [4; 0; 0; 8; 0; 0; 0; 9] eq_refl).
  - intros i now m [H|[H|[]]]; discriminate.
  - exists [], [], []. split; reflexivity.
  - apply ex_msg; [reflexivity|cbn; lia].
  - intros [_ H]. apply H. reflexivity.
  - discriminate.
  - discriminate.
Qed.
(** A switch made for 1.3 keeps, for a thread that started before the hello, the handler map of 1.3: the 1.0 barrier
    request (18) is refused as unknown and the 1.0 queue request (20) is answered with a barrier reply. *)
Theorem C98_barrier_refuted : exists sid ifs net_send s0 l, osw_new 4 = Ok s0 /\ running 0 l /\
  snd (osw_step true sid ifs net_send (fst (osw_run true sid ifs net_send s0 l)) (EMsg 0 12 [1; 18; 0; 8; 0; 0; 0; 9])) =
    [Tell 0 (wire 1 [0; 0; 0; 9] [0; 1; 0; 1])] /\
  snd (osw_step true sid ifs net_send (fst (osw_run true sid ifs net_send s0 l)) (EMsg 0 12 [1; 20; 0; 12; 0; 0; 0; 9; 0; 1; 0; 0])) =
    [Tell 0 (wire 19 [0; 0; 0; 9] [])].
Proof.
  exists ex_sid, ex_ifs, ex_send, ex_s4, [EAdd true; EStart 0; EMsg 0 10 ex_hello]. split; [reflexivity|]. split.
  - exists [], [], [EMsg 0 10 ex_hello]. split; reflexivity.
  - split; vm_compute; reflexivity.
Qed.
Print Assumptions C98_barrier_refuted.

(** ** C99. The datapath *)
(** A switch made for OpenFlow 1.0 whose connections come up, in any history without packet-out messages: each of the
    first hundred packets, whatever port it came in on, is announced to every controller that can be reached by one
    packet-in message, the same for all, with buffer ids counting 1, 2, 3 ..., the number of the port, and the first
    bytes of the packet (as many as the last set-config asked for).  Nothing is sent out, and the switch goes on.
    Missing: histories with packet-outs (C99_announced_any), more packets (C99_full_fails). *)
Theorem C99_packet_in_partial : forall sid ifs net_send s0 l dev now n p p' raw data, osw_new 1 = Ok s0 ->
  proper l -> no_packet_out l -> all_alive (fst (osw_run true sid ifs net_send s0 l)) -> o_dp (fst (osw_run true sid ifs net_send s0 l)) = None ->
  zlen l + 1 < 4294967296 -> number_of ifs dev n -> plain n -> pkt_to_bytes p = Ok (p', raw) -> (length (arrivals l) < 100)%nat ->
  data = firstn (Z.to_nat (snd (config l))) raw -> 18 + zlen data < 65536 ->
  exists x, length x = 4%nat /\
    (forall i, added i l -> told i (snd (osw_step true sid ifs net_send (fst (osw_run true sid ifs net_send s0 l)) (EPkt dev now p))) =
                            [wire_packet_in x (zlen (arrivals l) + 1) n data]) /\
    (forall i, ~ added i l -> told i (snd (osw_step true sid ifs net_send (fst (osw_run true sid ifs net_send s0 l)) (EPkt dev now p))) = []) /\
    (forall d y, ~ In (Emit d y) (snd (osw_step true sid ifs net_send (fst (osw_run true sid ifs net_send s0 l)) (EPkt dev now p)))) /\
    o_dp (fst (osw_run true sid ifs net_send s0 (l ++ [EPkt dev now p]))) = None /\
    all_alive (fst (osw_run true sid ifs net_send s0 (l ++ [EPkt dev now p]))).
Proof.
  intros sid ifs ns s0 l dev now n p p' raw data N. exact (packet_in_told sid ifs ns s0 N l dev now n p p' raw data).
Qed.
Print Assumptions C99_packet_in_partial.
(** A packet-out for the id the k-th packet was announced with sends that packet (not its first bytes only) to each of
    the ports the message names, in order, and nothing else; the switch goes on.  Missing: earlier packet-outs (C99_release_latest_partial). *)
Theorem C99_release_partial : forall sid ifs net_send s0 l i now v xid inport ml ports data k p, osw_new 1 = Ok s0 ->
  proper l -> no_packet_out l -> all_alive (fst (osw_run true sid ifs net_send s0 l)) -> o_dp (fst (osw_run true sid ifs net_send s0 l)) = None ->
  running i l -> nth_error (arrivals l) k = Some p ->
  wfb xid -> length xid = 4%nat -> 0 <= v < 256 -> plain inport -> 0 <= ml < 65536 -> Forall plain ports -> 8 * zlen ports < 65536 ->
  exists p' raw, pkt_to_bytes p = Ok (p', raw) /\
    ((forall port, In port ports -> net_send (SPort port) (WPkt p') = None) ->
     snd (osw_step true sid ifs net_send (fst (osw_run true sid ifs net_send s0 l)) (EMsg i now (wire_packet_out v xid (Z.of_nat k + 1) inport ml ports data))) =
       map (fun port => Emit (SPort port) (WPkt p')) ports /\
     all_alive (fst (osw_run true sid ifs net_send s0 (l ++ [EMsg i now (wire_packet_out v xid (Z.of_nat k + 1) inport ml ports data)])))).
Proof.
  intros sid ifs ns s0 l i now v xid inport ml ports data k p N. exact (release sid ifs ns s0 N l i now v xid inport ml ports data k p).
Qed.
Print Assumptions C99_release_partial.
(** With packet-outs of any kind in the history, before and between: a packet that does not end the datapath loop is
    announced to every controller that can be reached, and to nobody else, by one packet-in, under one id from 1 to 100. *)
Theorem C99_announced_any : forall sid ifs net_send s0 l dev now p, osw_new 1 = Ok s0 ->
  o_dp (fst (osw_run true sid ifs net_send s0 (l ++ [EPkt dev now p]))) = None ->
  exists id, 1 <= id <= 100 /\
    (forall i, added i l -> exists m, told i (snd (osw_step true sid ifs net_send (fst (osw_run true sid ifs net_send s0 l)) (EPkt dev now p))) = [m] /\
                                      ty_of m = 10 /\ buffer_id m = id) /\
    (forall i, ~ added i l -> told i (snd (osw_step true sid ifs net_send (fst (osw_run true sid ifs net_send s0 l)) (EPkt dev now p))) = []).
Proof. intros sid ifs ns s0 l dev now p N. exact (announced_any sid ifs ns s0 N l dev now p). Qed.
Print Assumptions C99_announced_any.
(** ... and a packet-out that names the id sends that packet, provided that since then no other packet was announced (to
    controller [c]) under the same id and no packet-out named it.  Without the proviso on later announcements this is
    false (C99_release_refuted). *)
Theorem C99_release_latest_partial : forall sid ifs net_send s0 a dev t p b c m i now v xid inport ml ports data, osw_new 1 = Ok s0 ->
  proper (a ++ EPkt dev t p :: b) -> all_alive (fst (osw_run true sid ifs net_send s0 (a ++ EPkt dev t p :: b))) ->
  o_dp (fst (osw_run true sid ifs net_send s0 (a ++ EPkt dev t p :: b))) = None -> added c a ->
  told c (snd (osw_step true sid ifs net_send (fst (osw_run true sid ifs net_send s0 a)) (EPkt dev t p))) = [m] ->
  (forall b1 d t' q b2 m', b = b1 ++ EPkt d t' q :: b2 ->
     told c (snd (osw_step true sid ifs net_send (fst (osw_run true sid ifs net_send s0 (a ++ EPkt dev t p :: b1))) (EPkt d t' q))) = [m'] ->
     buffer_id m' <> buffer_id m) ->
  (forall j t' m', In (EMsg j t' m') b -> ty_of m' = 13 -> buffer_id m' <> buffer_id m) ->
  running i (a ++ EPkt dev t p :: b) ->
  wfb xid -> length xid = 4%nat -> 0 <= v < 256 -> plain inport -> 0 <= ml < 65536 -> Forall plain ports -> 8 * zlen ports < 65536 ->
  exists p' raw, pkt_to_bytes p = Ok (p', raw) /\
    ((forall port, In port ports -> net_send (SPort port) (WPkt p') = None) ->
     snd (osw_step true sid ifs net_send (fst (osw_run true sid ifs net_send s0 (a ++ EPkt dev t p :: b))) (EMsg i now (wire_packet_out v xid (buffer_id m) inport ml ports data))) =
       map (fun port => Emit (SPort port) (WPkt p')) ports /\
     all_alive (fst (osw_run true sid ifs net_send s0 ((a ++ EPkt dev t p :: b) ++ [EMsg i now (wire_packet_out v xid (buffer_id m) inport ml ports data)])))).
Proof.
  intros sid ifs ns s0 a dev t p b c m i now v xid inport ml ports data N.
  exact (release_latest sid ifs ns s0 N a dev t p b c m i now v xid inport ml ports data).
Qed.
Print Assumptions C99_release_latest_partial.
(** A hundred packets none of which was released: the next one, of whatever kind, is announced to nobody, and neither is
    any packet after it, even when the buffer has room again. *)
Theorem C99_full_fails : forall sid ifs net_send s0 l dev now p, osw_new 1 = Ok s0 ->
  proper l -> no_packet_out l -> o_dp (fst (osw_run true sid ifs net_send s0 l)) = None -> length (arrivals l) = 100%nat ->
  snd (osw_step true sid ifs net_send (fst (osw_run true sid ifs net_send s0 l)) (EPkt dev now p)) = [] /\
  forall l' dev' now' p', osw_step true sid ifs net_send (fst (osw_run true sid ifs net_send s0 (l ++ EPkt dev now p :: l'))) (EPkt dev' now' p') =
    (fst (osw_run true sid ifs net_send s0 (l ++ EPkt dev now p :: l')), []).
Proof. intros sid ifs ns s0 l dev now p N. exact (full sid ifs ns s0 N l dev now p). Qed.
Print Assumptions C99_full_fails.
(** A packet-out that carries its packet (buffer id 0xffffffff) hands plain bytes to send_packet.  With a network that
    takes only Packets (LLNetReal, llnetreal.py:252-253) nothing is sent and the controller's thread ends for good. *)
Theorem C99_raw_fails : forall sid ifs net_send s0 l i now v xid inport ml port ports data, osw_new 1 = Ok s0 ->
  proper l -> all_alive (fst (osw_run true sid ifs net_send s0 l)) -> running i l -> (forall d b, net_send d (WRaw b) <> None) ->
  wfb xid -> length xid = 4%nat -> 0 <= v < 256 -> plain inport -> 0 <= ml < 65536 -> Forall plain (port :: ports) -> 8 * zlen (port :: ports) < 65536 ->
  snd (osw_step true sid ifs net_send (fst (osw_run true sid ifs net_send s0 l)) (EMsg i now (wire_packet_out v xid 0xffffffff inport ml (port :: ports) data))) = [] /\
  forall l', ended i (fst (osw_run true sid ifs net_send s0 (l ++ EMsg i now (wire_packet_out v xid 0xffffffff inport ml (port :: ports) data) :: l'))).
Proof. intros sid ifs ns s0 l i now v xid inport ml port ports data N. exact (raw_refused sid ifs ns s0 N l i now v xid inport ml port ports data). Qed.
Print Assumptions C99_raw_fails.
(** Made for OpenFlow 1.3, until a hello of version 1: the first packet that arrives is announced to nobody, and is the
    last one the switch looks at. *)
Theorem C99_default_fails : forall sid ifs net_send s0 l dev now p, osw_new 4 = Ok s0 -> no_hello10 l ->
  snd (osw_step true sid ifs net_send (fst (osw_run true sid ifs net_send s0 l)) (EPkt dev now p)) = [] /\
  forall l' dev' now' p', snd (osw_step true sid ifs net_send (fst (osw_run true sid ifs net_send s0 (l ++ EPkt dev now p :: l'))) (EPkt dev' now' p')) = [].
Proof. exact default_packet. Qed.
Print Assumptions C99_default_fails.
(** Whatever controllers sent, no packet that arrives is ever forwarded by the switch itself. *)
Theorem C99_forwarding_fails : forall link sid ifs net_send v s0 l dev now p, osw_new v = Ok s0 ->
  forall d x, ~ In (Emit d x) (snd (osw_step link sid ifs net_send (fst (osw_run link sid ifs net_send s0 l)) (EPkt dev now p))).
Proof. exact never_forwards. Qed.
Print Assumptions C99_forwarding_fails.

(** Concrete cases. *)
Definition ex_pkt (b : Z) : packet := [HEth eth_new; HRaw [b; b; b]].
Definition ex_l2 : list oev := ex_l ++ [EPkt [101; 116; 104; 48] 20 (ex_pkt 1)].
Example C99_announced : told 0 (snd (osw_step true ex_sid ex_ifs ex_send (fst (osw_run true ex_sid ex_ifs ex_send ex_s0 ex_l2)) (EPkt [101; 116; 104; 49] 21 (ex_pkt 2)))) =
  [wire_packet_in [0; 0; 0; 3] 2 1 (repeat 0 12 ++ [8; 0; 2; 2; 2])].
Proof. vm_compute. reflexivity. Qed.
Lemma ex_proper2 : proper ex_l2.
Proof.
  intros a i now m b H. unfold ex_l2 in H. destruct b as [|e0 b] using rev_ind.
  - apply app_inj_tail in H. destruct H as [_ H]. discriminate.
  - clear IHb. rewrite app_comm_cons, app_assoc in H. apply app_inj_tail in H. destruct H as [H _]. eapply ex_proper; eauto.
Qed.
Lemma ex_no_out : no_packet_out ex_l2.
Proof.
  intros i now m I. unfold ex_l2, ex_l in I. cbn [app In] in I.
  destruct I as [H|[H|[H|[H|[H|[H|[]]]]]]]; try discriminate H; injection H as <- <- <-; cbn; lia.
Qed.
Example C99_announced_meets : exists x, length x = 4%nat /\
  forall i, added i ex_l2 -> told i (snd (osw_step true ex_sid ex_ifs ex_send (fst (osw_run true ex_sid ex_ifs ex_send ex_s0 ex_l2)) (EPkt [101; 116; 104; 49] 21 (ex_pkt 2)))) =
    [wire_packet_in x 2 1 (repeat 0 12 ++ [8; 0; 2; 2; 2])].
Proof.
  destruct (C99_packet_in_partial ex_sid ex_ifs ex_send ex_s0 ex_l2 [101; 116; 104; 49] 21 1 (ex_pkt 2) (ex_pkt 2) (repeat 0 12 ++ [8; 0; 2; 2; 2])
    (repeat 0 12 ++ [8; 0; 2; 2; 2]) eq_refl ex_proper2 ex_no_out) as (x & H1 & H2 & _).
  - intros c I. vm_compute in I. destruct I as [<-|[<-|[]]]; reflexivity.
  - vm_compute. reflexivity.
  - vm_compute. reflexivity.
  - exists [mkOif 0 [2; 0; 0; 0; 0; 1] [101; 116; 104; 48]]. eexists; exists []. split; [reflexivity|]. split; [reflexivity|]. split; [reflexivity|].
    intros y [<-|[]]. discriminate.
  - unfold plain. lia.
  - reflexivity.
  - vm_compute. lia.
  - reflexivity.
  - vm_compute. reflexivity.
  - exists x. split; [exact H1|exact H2].
Qed.
Example C99_released : snd (osw_step true ex_sid ex_ifs ex_send (fst (osw_run true ex_sid ex_ifs ex_send ex_s0 ex_l2))
    (EMsg 0 30 (wire_packet_out 1 [0; 0; 0; 8] 1 0 0 [1; 5] []))) = [Emit (SPort 1) (WPkt (ex_pkt 1)); Emit (SPort 5) (WPkt (ex_pkt 1))].
Proof. vm_compute. reflexivity. Qed.
(** Ids are used again: after a release the second packet is announced, and can be released, under the first id. *)
Definition ex_l3 : list oev := ex_l2 ++ [EMsg 0 30 (wire_packet_out 1 [0; 0; 0; 8] 1 0 0 [1] [])].
Definition ex_pin : bytes := wire_packet_in [0; 0; 0; 3] 1 1 (repeat 0 12 ++ [8; 0; 2; 2; 2]).
Example C99_latest_meets :
  o_dp (fst (osw_run true ex_sid ex_ifs ex_send ex_s0 (ex_l3 ++ [EPkt [101; 116; 104; 49] 31 (ex_pkt 2)]))) = None /\
  told 0 (snd (osw_step true ex_sid ex_ifs ex_send (fst (osw_run true ex_sid ex_ifs ex_send ex_s0 ex_l3)) (EPkt [101; 116; 104; 49] 31 (ex_pkt 2)))) = [ex_pin] /\
  buffer_id ex_pin = 1 /\
  snd (osw_step true ex_sid ex_ifs ex_send (fst (osw_run true ex_sid ex_ifs ex_send ex_s0 (ex_l3 ++ EPkt [101; 116; 104; 49] 31 (ex_pkt 2) :: [EMsg 0 32 ex_hello])))
    (EMsg 0 33 (wire_packet_out 1 [0; 0; 0; 8] 1 0 0 [1; 5] []))) = [Emit (SPort 1) (WPkt (ex_pkt 2)); Emit (SPort 5) (WPkt (ex_pkt 2))].
Proof. vm_compute. repeat split; reflexivity. Qed.
(** Full statement: a packet-out for the id a packet was announced with, if no packet-out for that id came in between,
    sends that packet.  False: of two packets the first is released; the next packet is announced with id 2 as well, and
    releasing 2 sends it, not the packet announced first. *)
Theorem C99_release_refuted : exists sid ifs net_send s0 l p q l' i m, osw_new 1 = Ok s0 /\
  told 0 (snd (osw_step true sid ifs net_send (fst (osw_run true sid ifs net_send s0 l)) (EPkt (oi_name (hd (mkOif 0 [] []) ifs)) 0 p))) =
    [wire_packet_in [0; 0; 0; 3] 2 0 (repeat 0 12 ++ [8; 0; 2; 2; 2])] /\
  (forall j now m', In (EMsg j now m') l' -> ty_of m' = 13 -> unbe (firstn 4 (body_of m')) <> 2) /\
  m = wire_packet_out 1 [0; 0; 0; 8] 2 0 0 [1] [] /\
  snd (osw_step true sid ifs net_send (fst (osw_run true sid ifs net_send s0 (l ++ EPkt (oi_name (hd (mkOif 0 [] []) ifs)) 0 p :: l'))) (EMsg i 0 m)) =
    [Emit (SPort 1) (WPkt q)] /\ q <> p.
Proof.
  exists ex_sid, ex_ifs, ex_send, ex_s0, ex_l2, (ex_pkt 2), (ex_pkt 3),
    [EMsg 0 30 (wire_packet_out 1 [0; 0; 0; 8] 1 0 0 [1] []); EPkt [101; 116; 104; 48] 31 (ex_pkt 3)], 0%nat, (wire_packet_out 1 [0; 0; 0; 8] 2 0 0 [1] []).
  split; [reflexivity|]. split; [vm_compute; reflexivity|]. split.
  - intros j now m' [H|[H|[]]]; [|discriminate]. injection H as _ _ <-. vm_compute. discriminate.
  - split; [reflexivity|]. split; [vm_compute; reflexivity|]. discriminate.
Qed.
Print Assumptions C99_release_refuted.
