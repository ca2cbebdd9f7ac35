(** The simulator's command line: properties C87 to C90. *)
From Coq Require Import Ascii QArith.
From Verif Require Import BaseLemmas DictLemmas EthAddrModel UnitModel PacketModel LinkModel LinkSpec LinkProps TopoModel TopoNames TopoSpec TopoProofs TopoInv TopoMore TopoAddr CliModel CliSpec CliProofs CliNet CliSafe CliSim.
#[local] Open Scope string_scope.
#[local] Open Scope list_scope.
#[local] Open Scope Z_scope.

(** ** Concrete sessions *)
Fixpoint codes (s : str) : text := match s with EmptyString => [] | String a r => Z.of_nat (nat_of_ascii a) :: codes r end.
(** The readers of topo/util.py; delays in nanoseconds. *)
Definition capacity_of (s : str) : res (option Z) := unhumanize_bw (BText (codes s)).
Definition delay_of (s : str) : res (option Z) :=
  x <- unhumanize_delay (DText (codes s));; Ok (match x with Some q => Some (trunc (q * inject_Z (10 ^ 9))%Q) | None => None end).
#[local] Notation sess := (session capacity_of delay_of).
#[local] Notation typed := (line capacity_of delay_of).
(** Two hosts and a link of 10 Mb/s with 20 ms. *)
Definition topo2 : topo := topo_run (topo_new "lab" true) [TAdd Host None; TAdd Host None; TLink "h0" "h1" (Some (Some 10000000)) (Some (Some 20000000))].
Definition cli2 (disk : dict file) : cli := match start topo2 disk with Ok c => c | Err _ => mkCli topo2 false (mkNet false []) [] end.
Example cli2_start : forall disk, start topo2 disk = Ok (cli2 disk).
Proof. intros disk. vm_compute. reflexivity. Qed.

(** ** C87: changes are not lost without a question *)
(** As long as "set link" has not been used: when the topology differs from the one at the start and is in no file, exit
    and load ask first. *)
Theorem C87_asks_partial : forall capp dlyp t0 disk c0 h c, start t0 disk = Ok c0 -> (forall ws a, In (ws, a) h -> ~ set_link_line ws) ->
  session capp dlyp h c0 = (c, Stay) -> c_topo c <> t0 -> ~ stored c ->
  (forall ans c' o q, line capp dlyp ans ["exit"] c = (c', o, q) -> q = true) /\
  (forall ans f c' o q, line capp dlyp ans ["load"; f] c = (c', o, q) -> q = true).
Proof.
  intros capp dlyp t0 disk c0 h c S N H T D. pose proof (asks capp dlyp t0 disk c0 h c S N H T D) as U. split.
  - intros ans c' o q. change (line capp dlyp ans ["exit"] c) with (do_exit ans c). unfold do_exit. rewrite U. destruct ans; cbn [negb andb]; [destruct (net_stop _)|]; congruence.
  - intros ans f c' o q. change (line capp dlyp ans ["load"; f] c) with (do_load [f] ans c). unfold do_load. rewrite U. destruct ans; cbn [negb andb]; [|congruence].
    destruct (dget f (c_disk c)) as [[s| |]|]; try congruence. destruct (unserialize s); congruence.
Qed.
Print Assumptions C87_asks_partial.
(** Answering no changes nothing. *)
Theorem C87_no : forall capp dlyp ws c c' o, line capp dlyp false ws c = (c', o, true) -> c' = c /\ o = Stay.
Proof. exact answer_no. Qed.
Print Assumptions C87_no.
(** Saving writes the topology to the file, and no other file changes. *)
Theorem C87_saved : forall capp dlyp f c ans c' o q, line capp dlyp ans ["save"; f] c = (c', o, q) ->
  o = Stay /\ q = false /\ c_topo c' = c_topo c /\ dget f (c_disk c') = Some (FTopo (serialize (c_topo c))) /\
  forall g, g <> f -> dget g (c_disk c') = dget g (c_disk c).
Proof.
  intros capp dlyp f c ans c' o q H. change (line capp dlyp ans ["save"; f] c) with (do_save [f] c) in H. unfold do_save in H. injection H as <- <- <-. cbn.
  rewrite dget_dset_same. repeat split; auto. intros g N. apply dget_dset_other. exact N.
Qed.
Print Assumptions C87_saved.
(** After saving, and after loading with a yes, leaving asks nothing. *)
Theorem C87_clean : forall capp dlyp f c ans c' o q,
  line capp dlyp ans ["save"; f] c = (c', o, q) \/
  ans = true /\ (exists s t, dget f (c_disk c) = Some (FTopo s) /\ unserialize s = Ok t) /\ line capp dlyp ans ["load"; f] c = (c', o, q) ->
  forall again, snd (line capp dlyp again ["exit"] c') = false.
Proof.
  intros capp dlyp f c ans c' o q H again. assert (K : c_unsaved c' = false).
  { destruct H as [H|(-> & (s & t & G & E) & H)].
    - change (line capp dlyp ans ["save"; f] c) with (do_save [f] c) in H. unfold do_save in H. injection H as <- <- <-. reflexivity.
    - change (line capp dlyp true ["load"; f] c) with (do_load [f] true c) in H. unfold do_load in H. rewrite andb_false_r, G, E in H. unfold restart in H. cbn [c_net c_topo] in H.
      destruct (net_stop (c_net c)) as [n|e]; [destruct (rebuild t n)|]; injection H as <- <- <-; reflexivity. }
  change (line capp dlyp again ["exit"] c') with (do_exit again c'). unfold do_exit. rewrite K. cbn [andb]. destruct (net_stop (c_net c')); reflexivity.
Qed.
Print Assumptions C87_clean.
Definition grown : list (list str * bool) :=
  [(["add"; "host"; "x"], true); (["add"; "link"; "x"; "h0"; "capacity"; "10"; "Mb/s"; "delay"; "5ms"], true); (["save"; "f"], true); (["remove"; "link"; "h0"; "h1"], true); (["exit"], false)].
Example C87_case : exists c, sess grown (cli2 []) = (c, Stay) /\ nodes (c_topo c) = ["h0"; "h1"; "x"] /\ links (c_topo c) = [("h0", "x")] /\
  c_topo c <> topo2 /\ ~ stored c /\ (exists s, dget "f" (c_disk c) = Some (FTopo s)) /\ (forall ws a, In (ws, a) grown -> ~ set_link_line ws).
Proof.
  eexists. split; [vm_compute; reflexivity|]. split; [vm_compute; reflexivity|]. split; [vm_compute; reflexivity|]. split; [intros H; discriminate H|]. split; [|split].
  - intros (f & s & G & K). cbn [c_disk dget] in G. destruct (str_eqb f "f"); [|discriminate G]. injection G as <-. destruct K as [K|K]; [vm_compute in K; discriminate K|].
    vm_compute in K. discriminate K.
  - eexists. vm_compute. reflexivity.
  - intros ws a H (w & k & r & E & W & _). unfold grown in H. cbn [In] in H. repeat (destruct H as [H|H]; [injection H as <- <-; injection E as <- _; cbn in W; intuition discriminate|]). exact H.
Qed.
(** "set link" changes the topology, and exit does not ask. *)
Theorem C87_set_refuted : exists h c c', sess h (cli2 []) = (c, Stay) /\ c_topo c <> topo2 /\ ~ stored c /\ typed false ["exit"] c = (c', Leave, false).
Proof.
  exists [(["set"; "link"; "h0"; "h1"; "capacity"; "1"; "Gb/s"; "delay"; "1ms"], true)]. eexists _, _. split; [vm_compute; reflexivity|]. split; [intros H; discriminate H|]. split; [|vm_compute; reflexivity].
  intros (f & s & G & _). discriminate G.
Qed.
Print Assumptions C87_set_refuted.
(** An exception ends the command line, and with it what has not been saved. *)
Theorem C87_died_refuted : exists h c e, sess h (cli2 []) = (c, Died e) /\ c_topo c <> topo2 /\ ~ stored c.
Proof.
  exists [(["add"; "host"; "x"], true); (["add"; "host"; "x"], true)]. eexists _, _. split; [vm_compute; reflexivity|]. split; [intros H; discriminate H|]. intros (f & s & G & _). discriminate G.
Qed.
Print Assumptions C87_died_refuted.
(** A question is asked although nothing has changed. *)
Theorem C87_needless_refuted : exists h c c', sess h (cli2 []) = (c, Stay) /\ c_topo c = topo2 /\ typed false ["exit"] c = (c', Stay, true).
Proof. exists [(["remove"; "node"; "nosuch"], true)]. eexists _, _. split; [vm_compute; reflexivity|]. split; [vm_compute; reflexivity|]. vm_compute. reflexivity. Qed.
Print Assumptions C87_needless_refuted.

(** ** C88: the simulated network follows the topology *)
Lemma network capp dlyp name auto os disk c0 h c : fair_run true (topo_new name auto) os -> start (topo_run (topo_new name auto) os) disk = Ok c0 ->
  (forall ws a, In (ws, a) h -> ~ set_link_line ws /\ ~ load_line ws /\ forall n, adds_node ws n -> ~ reserved n) ->
  session capp dlyp h c0 = (c, Stay) -> Inv true (c_topo c) /\ net_of (c_topo c) = Ok (nt_nodes (c_net c)).
Proof.
  intros F S N H. pose proof (inv_run true os _ (inv_new true name auto) F) as I. apply start_new in S as (S1 & S2 & _ & x & S3 & S4).
  apply (step_session capp dlyp h c0 c); [exact N|rewrite S1; exact I|rewrite S1, S4; exact S3|exact H].
Qed.
Theorem C88_follows_partial : forall capp dlyp name auto os disk c0 h c, fair_run true (topo_new name auto) os -> start (topo_run (topo_new name auto) os) disk = Ok c0 ->
  (forall ws a, In (ws, a) h -> ~ set_link_line ws /\ ~ load_line ws /\ forall n, adds_node ws n -> ~ reserved n) ->
  session capp dlyp h c0 = (c, Stay) -> follows (c_topo c) (nt_nodes (c_net c)).
Proof.
  intros capp dlyp name auto os disk c0 h c F S N H. destruct (network capp dlyp name auto os disk c0 h c F S N H) as [I E]. apply net_follows; assumption.
Qed.
Print Assumptions C88_follows_partial.
(** Packets in the network of a session without links from a node to itself: whatever comes in at a node was given to it as
    host packet, or was sent by the neighbour into the other end of the link, and came in no earlier than the size divided
    by the capacity, and the delay, allow.  [cap] and [delay] give the meaning of the numbers of a link. *)
Theorem C88_travel_partial : forall capp dlyp name auto os disk c0 h c (cap : option Z -> Z) (delay : option Z -> Q) (acts : list (sact packet)) v dev p,
  fair_run true (topo_new name auto) os -> start (topo_run (topo_new name auto) os) disk = Ok c0 ->
  (forall ws a, In (ws, a) h -> ~ set_link_line ws /\ ~ load_line ws /\ forall n, adds_node ws n -> ~ reserved n) ->
  session capp dlyp h c0 = (c, Stay) -> (forall n, has_link n n (c_topo c) = false) ->
  let names := nodes (c_topo c) in
  snd (sim_step (pk []) pkt_len pkt_eqb (fst (sim_run (pk []) pkt_len pkt_eqb (sim_new (List.length names) (sim_links cap delay (c_topo c))) acts)) (SRecv v)) = SGot dev p ->
  (dev = "host" /\ In (SHost v p) acts) \/
  exists u w ud c0 l0 sent size arrived, number w names = v /\ wire_at (nt_nodes (c_net c)) u ud = Some (mkWire w dev c0 l0) /\
    In (SSend (number u names) ud sent p) acts /\ pkt_len p = Ok size /\ In (SEm (number u names) (EPass arrived)) acts /\
    (sent + inject_Z size / inject_Z (cap c0) + delay l0 <= arrived)%Q.
Proof.
  intros capp dlyp name auto os disk c0 h c cap delay acts v dev p F S N H NS names G. destruct (network capp dlyp name auto os disk c0 h c F S N H) as [I E].
  destruct (C84_timing _ _ acts v dev p (sim_NoDup cap delay _ I NS) (sim_below cap delay true _ I) G) as [K|(u & ud & s & cc & dd & k & b & K1 & K2 & K3 & K4 & K5)]; [left; exact K|right].
  apply (far_wire cap delay _ _ _ _ _ _ _ _ I NS E) in K2 as (un & w & c1 & l1 & -> & -> & _ & _ & W & -> & ->). exists un, w, ud, c1, l1, s, k, b. repeat (split; [reflexivity || assumption|]). assumption.
Qed.
Print Assumptions C88_travel_partial.
(** "set" never reaches the simulated network, nor the question at the end. *)
Theorem C88_set_fails : forall capp dlyp ans w r c, In w ["set"; "se"] ->
  let '(c', o, q) := line capp dlyp ans (w :: r) c in c_net c' = c_net c /\ c_unsaved c' = c_unsaved c /\ c_disk c' = c_disk c /\ o = Stay /\ q = false.
Proof.
  intros capp dlyp ans w r c Hw. assert (E : line capp dlyp ans (w :: r) c = do_set capp dlyp r c) by (destruct Hw as [<-|[<-|[]]]; reflexivity). rewrite E. unfold do_set.
  assert (X : forall t, let '(c', o, q) := stay (with_topo t c) in c_net c' = c_net c /\ c_unsaved c' = c_unsaved c /\ c_disk c' = c_disk c /\ o = Stay /\ q = false) by (intros t; cbn; repeat split; reflexivity).
  assert (Y : let '(c', o, q) := stay c in c_net c' = c_net c /\ c_unsaved c' = c_unsaved c /\ c_disk c' = c_disk c /\ o = Stay /\ q = false) by (cbn; repeat split; reflexivity).
  destruct r as [|what [|a [|b r]]]; try exact Y. match goal with |- context [if ?b then _ else _] => destruct b; [exact Y|] end.
  destruct (starts "node" what); [exact Y|]. destruct (starts "link" what); [|exact Y]. destruct (gather r) as [[cs ds]|]; [apply X|exact Y].
Qed.
Print Assumptions C88_set_fails.
Theorem C88_set_refuted : exists h c d, sess h (cli2 []) = (c, Stay) /\ get_link "h0" "h1" (c_topo c) = Ok d /\ dget "capacity" d = Some (ACap (Some 1000000000)) /\
  wire_at (nt_nodes (c_net c)) "h0" "eth0" = Some (mkWire "h1" "eth0" (Some 10000000) (Some 20000000)).
Proof.
  exists [(["set"; "link"; "h0"; "h1"; "capacity"; "1"; "Gb/s"; "delay"; "1ms"], true)]. eexists _, _. split; [vm_compute; reflexivity|]. split; [vm_compute; reflexivity|]. split; vm_compute; reflexivity.
Qed.
Print Assumptions C88_set_refuted.
(** "set node" never does anything, whatever follows. *)
Theorem C88_set_node_fails : forall capp dlyp ans w k r c, In w ["set"; "se"] -> In k ["node"; "nod"; "no"; "n"] -> line capp dlyp ans (w :: k :: r) c = (c, Stay, false).
Proof.
  intros capp dlyp ans w k r c Hw Hk. assert (E : line capp dlyp ans (w :: k :: r) c = do_set capp dlyp (k :: r) c) by (destruct Hw as [<-|[<-|[]]]; reflexivity). rewrite E. unfold do_set.
  destruct r as [|a [|b r]]; try reflexivity. match goal with |- context [if ?b then _ else _] => destruct b; [reflexivity|] end. cbn [In] in Hk. repeat (destruct Hk as [<-|Hk]; [reflexivity|]). contradiction.
Qed.
Print Assumptions C88_set_node_fails.
(** After loading, two links can share an interface, and the network has one of them only; this takes a topology without
    nodes at the start (see C89). *)
Theorem C88_load_refuted : exists h c u v d, sess h (match start (topo_new "e" true) [("f", FTopo (serialize topo2))] with Ok c => c | Err _ => cli2 [] end) = (c, Stay) /\
  get_link u v (c_topo c) = Ok d /\ dget u d = Some (AName "eth0") /\
  forall dev w, wire_at (nt_nodes (c_net c)) u dev = Some w -> w_to w <> v.
Proof.
  exists [(["load"; "f"], true); (["add"; "host"; "x"], true); (["add"; "link"; "h0"; "x"; "capacity"; "10Mb/s"; "delay"; "5ms"], true)]. eexists _, "h0", "h1", _.
  split; [vm_compute; reflexivity|]. split; [vm_compute; reflexivity|]. 
  split; [vm_compute; reflexivity|]. intros dev w W.
  assert (E : forall k, wire_at [("h0", [("eth0", mkWire "x" "eth0" (Some 10000000) (Some 5000000))])] "h0" k = Some w -> w_to w <> "h1").
  { intros k H. assert (H2 : (if str_eqb k "eth0" then Some (mkWire "x" "eth0" (Some 10000000) (Some 5000000)) else None) = Some w) by exact H. destruct (str_eqb k "eth0"); cbv iota in H2; [injection H2 as <-; discriminate|discriminate H2]. }
  exact (E dev W).
Qed.
Print Assumptions C88_load_refuted.
(** The settings of a link as typed: the words after each name, in either order. *)
Theorem C88_settings : forall k1 a k2 b, capacity_word k1 -> delay_word k2 -> Forall value_word a -> Forall value_word b ->
  gather (k1 :: a ++ k2 :: b) = Ok (spaced a, spaced b) /\ gather (k2 :: b ++ k1 :: a) = Ok (spaced a, spaced b).
Proof. exact gather_both. Qed.
Print Assumptions C88_settings.
(** A unit that is written apart can be taken for the name of a setting. *)
Theorem C88_settings_refuted : exists ds, gather ["capacity"; "10"; "b"; "delay"; "1s"] = Ok ("", ds).
Proof. eexists. vm_compute. reflexivity. Qed.
Print Assumptions C88_settings_refuted.
Definition changes : list (list str * bool) :=
  [(["add"; "s"], true); (["a"; "link"; "s0"; "h0"; "delay"; "5"; "msec"; "bw"; "1"; "Gb/s"], true); (["rem"; "li"; "h0"; "h1"], true); (["show"; "links"], true)].
Example C88_case : exists c, fair_run true (topo_new "lab" true) [TAdd Host None; TAdd Host None; TLink "h0" "h1" (Some (Some 10000000)) (Some (Some 20000000))] /\
  sess changes (cli2 []) = (c, Stay) /\ nt_nodes (c_net c) = [("h0", [("eth1", mkWire "s0" "eth0" (Some 1000000000) (Some 5000000))]); ("h1", []); ("s0", [("eth0", mkWire "h0" "eth1" (Some 1000000000) (Some 5000000))])] /\
  (forall ws a, In (ws, a) changes -> ~ set_link_line ws /\ ~ load_line ws /\ forall n, adds_node ws n -> ~ reserved n).
Proof.
  eexists. split; [cbn; tauto|]. split; [vm_compute; reflexivity|]. split; [vm_compute; reflexivity|].
  intros ws a H. unfold changes in H. cbn [In] in H. repeat (destruct H as [H|H]; [injection H as <- <-;
    split; [intros (w & k & r & E & W & _); injection E as <- _; cbn in W; intuition discriminate|split; [intros (w & r & E & W); injection E as <- _; cbn in W; intuition discriminate|]];
    intros n (w & k & r & E & W & K); try discriminate E; injection E; intros; subst; cbn in K, W; unfold reserved; intuition discriminate|]). contradiction.
Qed.

Example C88_travel_case : exists c, sess changes (cli2 []) = (c, Stay) /\ (forall n, has_link n n (c_topo c) = false) /\
  snd (sim_step (pk []) pkt_len pkt_eqb (fst (sim_run (pk []) pkt_len pkt_eqb (sim_new (List.length (nodes (c_topo c))) (sim_links (fun c => match c with Some c => c | None => 1 end) (fun d => match d with Some d => (d # 1000000000)%Q | None => 0%Q end) (c_topo c)))
    [SSend 0 "eth1" 0%Q (pk [7]); SEm 0 (EPass 0%Q); SEm 0 (ETake 0%Q); SEm 0 (EPass 1%Q)])) (SRecv 2)) = SGot "eth0" (pk [7]).
Proof.
  eexists. split; [vm_compute; reflexivity|]. split; [|vm_compute; reflexivity].
  intros n. unfold has_link, joins. cbn [c_topo tp_edges existsb]. rewrite orb_false_r. destruct (str_spec n "h0") as [->|N]; [reflexivity|]. destruct (str_spec n "s0") as [->|M]; reflexivity.
Qed.

(** ** C89: nothing but exit ends the command line *)
Theorem C89_stays_partial : forall capp dlyp name auto os disk, fair_run false (topo_new name auto) os -> complete (topo_run (topo_new name auto) os) ->
  exists c0, start (topo_run (topo_new name auto) os) disk = Ok c0 /\
  forall h, harmless_session capp dlyp c0 h -> forall c e, session capp dlyp h c0 <> (c, Died e).
Proof.
  intros capp dlyp name auto os disk F C. pose proof (inv_run false os _ (inv_new false name auto) F) as I. destruct (start_alive _ disk I C) as (c0 & S & w0).
  exists c0. split; [exact S|]. intros h H. apply alive_session; assumption.
Qed.
Print Assumptions C89_stays_partial.
(** Loading a topology, or restarting the nodes with exec, always ends it when there is a node. *)
Theorem C89_load_fails : forall capp dlyp ans f c s t, nt_nodes (c_net c) <> [] -> dget f (c_disk c) = Some (FTopo s) -> unserialize s = Ok t -> (c_unsaved c = true -> ans = true) ->
  exists c' q, line capp dlyp ans ["load"; f] c = (c', Died EAttr, q).
Proof.
  intros capp dlyp ans f c s t N G U A. change (line capp dlyp ans ["load"; f] c) with (do_load [f] ans c). unfold do_load.
  assert (E : c_unsaved c && negb ans = false) by (destruct (c_unsaved c); [rewrite (A eq_refl)|]; reflexivity). rewrite E, G, U. unfold restart, net_stop. cbn [c_net].
  destruct (nt_up (c_net c)).
  - unfold rebuild, net_stop. cbn [nt_up nt_nodes]. destruct (nt_nodes (c_net c)); [contradiction|]. cbn. eauto.
  - destruct (nt_nodes (c_net c)); [contradiction|]. eauto.
Qed.
Print Assumptions C89_load_fails.
Theorem C89_exec_fails : forall capp dlyp ans f c, nt_nodes (c_net c) <> [] -> exists c', line capp dlyp ans ["exec"; f] c = (c', Died EAttr, false).
Proof.
  intros capp dlyp ans f c N. change (line capp dlyp ans ["exec"; f] c) with (do_exec [f] c). unfold do_exec, restart, net_stop. destruct (nt_up (c_net c)).
  - unfold rebuild, net_stop. cbn [nt_up nt_nodes]. destruct (nt_nodes (c_net c)); [contradiction|]. cbn. eauto.
  - destruct (nt_nodes (c_net c)); [contradiction|]. cbn. eauto.
Qed.
Print Assumptions C89_exec_fails.
Theorem C89_load_refuted : exists h c, sess h (cli2 []) = (c, Died EAttr) /\ h = [(["save"; "f"], true); (["load"; "f"], true)].
Proof. eexists _, _. split; [|reflexivity]. vm_compute. reflexivity. Qed.
Print Assumptions C89_load_refuted.
(** A name that exists. *)
Theorem C89_name_fails : forall capp dlyp ans k name r c, In k ["host"; "switch"; "router"] -> In name (nodes (c_topo c)) -> line capp dlyp ans ("add" :: k :: name :: r) c = (c, Died EExc, false).
Proof.
  intros capp dlyp ans k name r c Hk Hn. change (line capp dlyp ans ("add" :: k :: name :: r) c) with (do_add capp dlyp (k :: name :: r) c).
  assert (D : din name (tp_nodes (c_topo c)) = true) by (apply din_iff; exact Hn). unfold do_add. cbn [In] in Hk.
  destruct Hk as [<-|[<-|[<-|[]]]]; cbn [starts String.prefix ascii_dec]; vm_compute (starts _ _); cbv beta iota; unfold add_kind, add; cbn [hd_error]; unfold add_node; rewrite D; destruct c; reflexivity.
Qed.
Print Assumptions C89_name_fails.
(** A link whose capacity is given in words that hold no number is reported as an error, stays in the topology, and the next
    "show links" ends the command line; with an empty capacity the same command ends it. *)
Theorem C89_link_refuted : exists h c, sess h (cli2 []) = (c, Died EKey) /\ h = [(["add"; "host"; "x"], true); (["add"; "link"; "x"; "h0"; "capacity"; "fast"; "delay"; "1ms"], true); (["show"; "links"], true)].
Proof. eexists _, _. split; [|reflexivity]. vm_compute. reflexivity. Qed.
Print Assumptions C89_link_refuted.
Theorem C89_capacity_refuted : exists h c, sess h (cli2 []) = (c, Died EKey) /\ h = [(["add"; "host"; "x"], true); (["add"; "link"; "x"; "h0"; "capacity"; "10"; "b"; "delay"; "1ms"], true)].
Proof. eexists _, _. split; [|reflexivity]. vm_compute. reflexivity. Qed.
Print Assumptions C89_capacity_refuted.
(** Replaying into an interface whose link has been removed. *)
Theorem C89_replay_refuted : exists h c, sess h (cli2 [("p", FPcap 3)]) = (c, Died EKey) /\ h = [(["remove"; "link"; "h0"; "h1"], true); (["replay"; "p"; "h0"; "eth0"], true)].
Proof. eexists _, _. split; [|reflexivity]. vm_compute. reflexivity. Qed.
Print Assumptions C89_replay_refuted.
Lemma harmless_other capp dlyp c w r : ~ In w ["load"; "loa"; "lo"; "l"; "exec"; "exe"; "ex"; "e"; "replay"; "repla"; "repl"; "rep"; "add"; "ad"; "a"] -> harmless capp dlyp c (w :: r).
Proof.
  intros N. split; [|split; [|split; [|split]]].
  - intros (x & y & E & W). injection E as <- _. apply N. cbn in *. tauto.
  - intros (x & y & E & W). injection E as <- _. apply N. cbn in *. tauto.
  - intros (x & y & E & W). injection E as <- _. apply N. cbn in *. tauto.
  - intros n (x & k & y & E & W & _). injection E as <- _. exfalso. apply N. cbn in *. tauto.
  - intros x k u v s cs ds E W. injection E as <- _. exfalso. apply N. cbn in *. tauto.
Qed.
Lemma harmless_host capp dlyp c n : ~ In n (nodes (c_topo c)) -> ~ reserved n -> harmless capp dlyp c ["add"; "host"; n].
Proof.
  intros N R. split; [|split; [|split; [|split]]].
  - intros (x & y & E & W). injection E as <- _. cbn in W. intuition discriminate.
  - intros (x & y & E & W). injection E as <- _. cbn in W. intuition discriminate.
  - intros (x & y & E & W). injection E as <- _. cbn in W. intuition discriminate.
  - intros m (x & k & y & E & _). injection E as _ _ <- _. auto.
  - intros x k u v s cs ds E. discriminate E.
Qed.
Lemma harmless_link capp dlyp c u v s cs ds : gather s = Ok (cs, ds) -> readable capp dlyp cs ds -> harmless capp dlyp c ("add" :: "link" :: u :: v :: s).
Proof.
  intros G R. split; [|split; [|split; [|split]]].
  - intros (x & y & E & W). injection E as <- _. cbn in W. intuition discriminate.
  - intros (x & y & E & W). injection E as <- _. cbn in W. intuition discriminate.
  - intros (x & y & E & W). injection E as <- _. cbn in W. intuition discriminate.
  - intros m (x & k & y & E & _ & K). injection E as _ <- _ _. cbn in K. intuition discriminate.
  - intros x k u' v' s' cs' ds' E _ _ G'. injection E as _ _ _ _ <-. rewrite G in G'. injection G' as <- <-. exact R.
Qed.
Example C89_case : complete topo2 /\ harmless_session capacity_of delay_of (cli2 []) grown /\ snd (sess (grown ++ [(["exit"], true)]) (cli2 [])) = Leave.
Proof.
  split; [|split].
  - intros u v d G. apply get_link_in in G as (e & H & _ & <-). vm_compute in H. destruct H as [<-|[]]. vm_compute. eauto.
  - unfold grown. cbn [harmless_session].
    split; [apply harmless_host; [vm_compute; intuition discriminate|unfold reserved; cbn; intuition discriminate]|].
    split; [|split; [|split; [|split; [|exact Logic.I]]]]; try (apply harmless_other; cbn; intuition discriminate).
    eapply harmless_link; [vm_compute; reflexivity|]. split; [discriminate|split; [discriminate|split]].
    + exists 10000000. split; [vm_compute; reflexivity|reflexivity].
    + eexists. vm_compute. reflexivity.
  - vm_compute. reflexivity.
Qed.

(** ** C90: commands can be abbreviated *)
Theorem C90_prefix_partial : forall capp dlyp ans w full r c, only_prefix_of w full -> full <> "exit" -> line capp dlyp ans (w :: r) c = line capp dlyp ans (full :: r) c.
Proof. exact abbreviated_line. Qed.
Print Assumptions C90_prefix_partial.
(** Missing: exit. *)
Theorem C90_exit_refuted : exists w, only_prefix_of w "exit" /\ forall capp dlyp ans c, line capp dlyp ans [w] c = (c, Stay, false).
Proof.
  exists "exi". split; [|reflexivity]. split; [discriminate|]. split; [cbn; tauto|]. split; [reflexivity|].
  intros x H P. cbn [commands In] in H. repeat (destruct H as [<-|H]; [discriminate P || reflexivity|]). contradiction.
Qed.
Print Assumptions C90_exit_refuted.
Example C90_case : only_prefix_of "rem" "remove" /\ only_prefix_of "a" "add" /\ ~ only_prefix_of "re" "remove".
Proof.
  split; [|split].
  - split; [discriminate|]. split; [cbn; tauto|]. split; [reflexivity|]. intros x H P. cbn [commands In] in H. repeat (destruct H as [<-|H]; [discriminate P || reflexivity|]). contradiction.
  - split; [discriminate|]. split; [cbn; tauto|]. split; [reflexivity|]. intros x H P. cbn [commands In] in H. repeat (destruct H as [<-|H]; [discriminate P || reflexivity|]). contradiction.
  - intros (_ & _ & _ & U). specialize (U "replay" ltac:(cbn; tauto) eq_refl). discriminate U.
Qed.
