(** Properties C46, C47, C75 and C76: topologies. *)
From Verif Require Import BaseLemmas EthAddrModel TopoModel TopoSpec TopoNames TopoProofs TopoInv TopoMore TopoAddr.
#[local] Open Scope string_scope.
#[local] Open Scope Z_scope.
#[local] Open Scope list_scope.
Definition built (name : str) (os : list topo_op) : topo := topo_run (topo_new name true) os.

(** C46. After any history no two nodes share a name. *)
Theorem C46_names : forall name auto os, NoDup (nodes (topo_run (topo_new name auto) os)).
Proof. intros name auto os. apply run_NoDup. constructor. Qed.
Print Assumptions C46_names.
(** C46. Adding a node without a name always ends, with a name that was not in use; a name that is in use is refused and
    nothing changes. *)
Theorem C46_added : forall name auto os k, let t := topo_run (topo_new name auto) os in
  (exists s, snd (add k None t) = Ok s /\ ~ In s (nodes t) /\ nodes (fst (add k None t)) = nodes t ++ [s]) /\
  (forall s, In s (nodes t) -> add k (Some s) t = (t, Err EExc)) /\
  (forall s, ~ In s (nodes t) -> snd (add k (Some s) t) = Ok s /\ nodes (fst (add k (Some s) t)) = nodes t ++ [s]).
Proof. intros name auto os k t. split; [apply add_fresh|]. split; intros s; apply add_named. Qed.
Print Assumptions C46_added.
(** C46. A node added without a name is called h, s or r and a number, and is listed with its kind only. *)
Theorem C46_automatic : forall name auto os k s, let t := topo_run (topo_new name auto) os in snd (add k None t) = Ok s ->
  (exists n, s = append (match k with Host => "h" | Switch => "s" | Router => "r" end) (dec n)) /\
  (forall k2, nodes_of k2 (fst (add k None t)) = nodes_of k2 t ++ (if kind_eqb k k2 then [s] else [])).
Proof. intros name auto os k s t. exact (add_form k t s). Qed.
Print Assumptions C46_automatic.
Example C46_automatic_case : snd (add Router None (topo_run (topo_new "x" true) [TAdd Router None; TAdd Host (Some "r1")])) = Ok "r2".
Proof. reflexivity. Qed.
(** C46. Two interfaces with the same Ethernet address are the same interface, for every history that does not set an
    Ethernet address by hand and does not reload.  (If more than 2^47 links are made, the later ones are refused.) *)
Theorem C46_macs_partial : forall name os n1 i1 n2 i2 m ips1 ips2, Forall plain os ->
  get_addresses n1 i1 (built name os) = Ok (m, ips1) -> get_addresses n2 i2 (built name os) = Ok (m, ips2) -> n1 = n2 /\ i1 = i2.
Proof. intros name os n1 i1 n2 i2 m ips1 ips2 P H1 H2. destruct (macs_unique os (topo_new name true) (mi_new name) P) as (_ & _ & _ & M). exact (mac_inj _ _ M _ _ _ _ _ _ _ H1 H2). Qed.
Print Assumptions C46_macs_partial.
(** C46 fails after loading a saved topology (and after a union), because numbering starts again. *)
Definition cap : option (option Z) := Some (Some 1000000).
Definition delay : option (option Z) := Some (Some 5).
Definition one_link : list topo_op := [TAdd Host None; TAdd Switch None; TLink "h0" "s0" cap delay].
Theorem C46_macs_reload_refuted : exists os n1 i1 n2 i2 m ips1 ips2, (forall o, In o os -> o = TReload \/ plain o) /\
  get_addresses n1 i1 (built "x" os) = Ok (m, ips1) /\ get_addresses n2 i2 (built "x" os) = Ok (m, ips2) /\ n1 <> n2.
Proof. exists (one_link ++ [TReload; TAdd Host (Some "a"); TAdd Host (Some "b"); TLink "a" "b" cap delay]), "h0", "eth0", "a", "eth0", [0; 0; 0; 0; 0; 1], [], [].
  split; [intros o H; cbn [one_link app In] in H; repeat (destruct H as [<-|H]; [cbn; auto|]); contradiction|]. split; [vm_compute; reflexivity|]. split; [vm_compute; reflexivity|]. discriminate. Qed.
Print Assumptions C46_macs_reload_refuted.
Theorem C46_macs_union_refuted : exists os1 os2 t n1 i1 n2 i2 m ips1 ips2, union false (built "a" os1) (built "b" os2) = Ok t /\ Forall plain os1 /\ Forall plain os2 /\
  get_addresses n1 i1 t = Ok (m, ips1) /\ get_addresses n2 i2 t = Ok (m, ips2) /\ n1 <> n2.
Proof. eexists one_link, [TAdd Host (Some "p"); TAdd Host (Some "q"); TLink "p" "q" cap delay], _, "h0", "eth0", "p", "eth0", [0; 0; 0; 0; 0; 1], [], [].
  split; [vm_compute; reflexivity|]. split; [repeat constructor|]. split; [repeat constructor|]. split; [vm_compute; reflexivity|]. split; [vm_compute; reflexivity|]. discriminate. Qed.
Print Assumptions C46_macs_union_refuted.
Example C46_case : Forall plain (one_link ++ [TRemoveNode "h0"; TAdd Host None; TLink "s0" "h1" cap delay]) /\
  let t := built "x" (one_link ++ [TRemoveNode "h0"; TAdd Host None; TLink "s0" "h1" cap delay]) in
  nodes t = ["s0"; "h1"] /\ get_addresses "s0" "eth0" t = Ok ([0; 0; 0; 0; 0; 2], []) /\
  get_addresses "s0" "eth1" t = Ok ([0; 0; 0; 0; 0; 3], []) /\ get_addresses "h1" "eth0" t = Ok ([0; 0; 0; 0; 0; 4], []).
Proof. split; [repeat constructor|]. vm_compute. auto. Qed.

(** C47. After any fair history every link joins two nodes of the topology, and its record names, for each end, an interface
    that exists there.  (Fair: explicit names are not keys of the link record, prefixes do not make names clash; reloading is
    allowed.) *)
Theorem C47_links_partial : forall name auto os u v d, fair_run false (topo_new name auto) os ->
  let t := topo_run (topo_new name auto) os in get_link u v t = Ok d ->
  In u (nodes t) /\ In v (nodes t) /\
  exists i j a b, dget u d = Some (AName i) /\ get_addresses u i t = Ok a /\ dget v d = Some (AName j) /\ get_addresses v j t = Ok b.
Proof. intros name auto os u v d F t G. pose proof (inv_run false os _ (inv_new false name auto) F) as I. fold t in I.
  pose proof (link_end false t u v d u I G (or_introl eq_refl)) as E1. pose proof (link_end false t u v d v I G (or_intror eq_refl)) as E2.
  split; [destruct E1 as (nd & j & G1 & _); apply dget_nodes in G1; exact G1|]. split; [destruct E2 as (nd & j & G1 & _); apply dget_nodes in G1; exact G1|].
  apply good_end_addresses in E1 as (i & m & ips & A1 & A2). apply good_end_addresses in E2 as (j & m2 & ips2 & B1 & B2). eauto 10. Qed.
Print Assumptions C47_links_partial.
(** C47. The list of links shows each link once, and a link and its reverse are the same. *)
Theorem C47_listed : forall name auto os u v, fair_run false (topo_new name auto) os -> let t := topo_run (topo_new name auto) os in
  (has_link u v t = true <-> In (u, v) (links t) \/ In (v, u) (links t)) /\ NoDup (links t) /\ get_link u v t = get_link v u t.
Proof. intros name auto os u v F t. pose proof (inv_run false os _ (inv_new false name auto) F) as I. fold t in I.
  split; [apply (links_iff false); exact I|]. split; [apply (links_NoDup false); exact I|].
  destruct (get_link u v t) as [d|e] eqn:G1; [symmetry; apply (sym_link _ _ _ _ _ I G1)|]. destruct (get_link v u t) as [d|e2] eqn:G2; [apply (sym_link _ _ _ _ _ I) in G2; congruence|].
  unfold get_link in G1, G2. destruct (find _ _); [discriminate|]. destruct (find (joins v u) _); [discriminate|]. congruence. Qed.
Print Assumptions C47_listed.
(** C47. Removing a link works exactly when there is one, and takes away that link only. *)
Lemma find_kept {A} (f g : A -> bool) l : (forall x, f x = true -> g x = true) -> find f (filter g l) = find f l.
Proof. intros H. induction l as [|x l IH]; [reflexivity|]. cbn [filter find]. destruct (f x) eqn:F; [rewrite (H x F); cbn [find]; rewrite F; reflexivity|]. destruct (g x); [cbn [find]; rewrite F|]; exact IH. Qed.
Lemma find_gone {A} (f g : A -> bool) l : (forall x, f x = true -> g x = false) -> find f (filter g l) = None.
Proof. intros H. induction l as [|x l IH]; [reflexivity|]. cbn [filter]. destruct (g x) eqn:G; [|exact IH]. cbn [find]. destruct (f x) eqn:F; [rewrite (H x F) in G; discriminate|exact IH]. Qed.
Theorem C47_remove_link : forall u v t t' r, remove_link u v t = (t', r) ->
  (r = None <-> exists d, get_link u v t = Ok d) /\ (r <> None -> r = Some EExc /\ t' = t) /\
  (forall a b, (a = u /\ b = v) \/ (a = v /\ b = u) -> get_link a b t' = Err EKey) /\
  (forall a b, ~ ((a = u /\ b = v) \/ (a = v /\ b = u)) -> get_link a b t' = get_link a b t) /\
  nodes t' = nodes t /\ forall n i, get_addresses n i t' = get_addresses n i t.
Proof.
  intros u v t t' r. unfold remove_link, has_link, get_link.
  assert (J : forall a b e, joins a b e = true -> joins u v e = true <-> (a = u /\ b = v) \/ (a = v /\ b = u)).
  { intros a b [[x y] d]. rewrite !joins_iff. intuition congruence. }
  destruct (existsb (joins u v) (tp_edges t)) eqn:X; intros [= <- <-].
  - split; [split; [|reflexivity]|split; [intros N; destruct N; reflexivity|]].
    + intros _. apply existsb_exists in X as (e & I & F). destruct (find (joins u v) (tp_edges t)) as [y|] eqn:G; [eauto|]. rewrite (find_none _ _ G e I) in F. discriminate.
    + cbn [with_edges tp_edges tp_nodes]. split; [|split; [|split; [reflexivity|intros; reflexivity]]]; intros a b C.
      * rewrite find_gone; [reflexivity|]. intros e K. apply (J a b e) in K. destruct (joins u v e); [reflexivity|]. apply K in C. discriminate.
      * rewrite find_kept; [reflexivity|]. intros e K. apply (J a b e) in K. destruct (joins u v e); [exfalso; apply C, K; reflexivity|reflexivity].
  - assert (G : forall e, In e (tp_edges t) -> joins u v e = false).
    { intros e I. destruct (joins u v e) eqn:K; [|reflexivity]. assert (Y : existsb (joins u v) (tp_edges t) = true) by (apply existsb_exists; eauto). congruence. }
    split; [split; [discriminate|]|split; [auto|split; [|split; [reflexivity|split; [reflexivity|reflexivity]]]]].
    + intros [d K]. destruct (find (joins u v) (tp_edges t)) eqn:Y; [|discriminate]. apply find_some in Y as [I Y]. rewrite (G _ I) in Y. discriminate.
    + intros a b C. destruct (find (joins a b) (tp_edges t)) eqn:Y; [|reflexivity]. apply find_some in Y as [I Y]. specialize (G _ I). apply (J _ _ _ Y) in C. congruence.
Qed.
Print Assumptions C47_remove_link.
(** C47. Removing a node works exactly when it is there, and takes away it and its links only. *)
Theorem C47_remove_node : forall name auto os n t' r, let t := topo_run (topo_new name auto) os in remove_node n t = (t', r) ->
  (r = None <-> In n (nodes t)) /\ (r <> None -> r = Some EExc /\ t' = t) /\
  (forall m, In m (nodes t') <-> In m (nodes t) /\ m <> n) /\
  (r = None -> forall a b, a = n \/ b = n -> get_link a b t' = Err EKey) /\
  (forall a b, a <> n -> b <> n -> get_link a b t' = get_link a b t) /\ forall m i, m <> n -> get_addresses m i t' = get_addresses m i t.
Proof.
  intros name auto os n t' r t. pose proof (C46_names name auto os) as ND. fold t in ND. unfold remove_node, get_link, get_addresses, nodes in *.
  destruct (din n (tp_nodes t)) eqn:D; intros [= <- <-].
  - apply din_iff in D. split; [tauto|]. split; [intros N; destruct N; reflexivity|]. cbn [with_edges with_nodes tp_edges tp_nodes]. split; [|split; [|split]].
    + intros m. unfold dkeys. rewrite !in_map_iff. split.
      * intros ([k x] & <- & I). apply ddel_spec in I as [I N]; [|exact ND]. split; [exists (k, x); auto|exact N].
      * intros [([k x] & <- & I) N]. exists (k, x). split; [reflexivity|]. apply ddel_spec; auto.
    + intros _ a b C. rewrite find_gone; [reflexivity|]. intros [[x y] d] K. apply joins_iff in K. apply Bool.negb_false_iff, Bool.orb_true_iff. rewrite !str_eqb_eq. intuition congruence.
    + intros a b N1 N2. rewrite find_kept; [reflexivity|]. intros [[x y] d] K. apply joins_iff in K. apply Bool.negb_true_iff, Bool.orb_false_iff.
      destruct (str_eqb n x) eqn:E1, (str_eqb n y) eqn:E2; try apply str_eqb_eq in E1; try apply str_eqb_eq in E2; intuition congruence.
    + intros m i N. rewrite dget_ddel_other by auto. reflexivity.
  - assert (NI : ~ In n (dkeys (tp_nodes t))) by (rewrite <- din_iff; congruence).
    split; [split; [discriminate|tauto]|]. split; [auto|]. split; [|split; [discriminate|split; reflexivity]].
    intros m. split; [|tauto]. intros I. split; [exact I|]. intros ->. exact (NI I).
Qed.
Print Assumptions C47_remove_node.
Example C47_remove_case : let t := built "x" (one_link ++ [TAdd Host None; TLink "s0" "h1" cap delay]) in
  snd (remove_link "s0" "h0" t) = None /\ links (fst (remove_link "s0" "h0" t)) = [("s0", "h1")] /\ snd (remove_link "h0" "h1" t) = Some EExc /\
  snd (remove_node "h1" t) = None /\ nodes (fst (remove_node "h1" t)) = ["h0"; "s0"] /\ snd (remove_node "h7" t) = Some EExc.
Proof. vm_compute. repeat split. Qed.
(** C47. Two different links never use the same interface, as long as the topology is not reloaded. *)
Theorem C47_own_interface : forall name auto os n a b da db, fair_run true (topo_new name auto) os -> let t := topo_run (topo_new name auto) os in
  get_link n a t = Ok da -> get_link n b t = Ok db -> a <> b -> dget n da <> dget n db.
Proof. intros name auto os n a b da db F t G1 G2 N E. apply N. eapply link_distinct; eauto. apply inv_run; [apply inv_new|exact F]. Qed.
Print Assumptions C47_own_interface.
(** C47. The query for the interfaces of a link gives the right one for the first node ... *)
Theorem C47_query_partial : forall u v t d, get_link u v t = Ok d -> (exists i, dget u d = Some (AName i)) ->
  exists i x, link_interfaces u v t = Ok (AName i, x) /\ dget u d = Some (AName i).
Proof. intros u v t d G [i E]. exists i, (AName i). unfold link_interfaces. rewrite G. cbn [bindr]. rewrite E. auto. Qed.
Print Assumptions C47_query_partial.
(** ... and the wrong one for the second: it repeats the first. *)
Theorem C47_query_refuted : exists os u v d x y, fair_run true (topo_new "x" true) os /\ get_link u v (built "x" os) = Ok d /\
  link_interfaces u v (built "x" os) = Ok (x, y) /\ dget v d <> Some y.
Proof. exists [TAdd Host None; TAdd Switch None; TAdd Switch None; TLink "s0" "s1" cap delay; TLink "h0" "s0" cap delay], "h0", "s0". eexists _, _, _.
  split; [cbn; tauto|]. split; [vm_compute; reflexivity|]. split; [vm_compute; reflexivity|]. vm_compute. discriminate. Qed.
Print Assumptions C47_query_refuted.
(** C47 fails for a node with the name of a key of the link record: its interface is overwritten by the capacity. *)
Theorem C47_reserved_refuted : exists os u v d, Forall plain os /\ get_link u v (built "x" os) = Ok d /\ forall i, dget u d <> Some (AName i).
Proof. exists [TAdd Host (Some "capacity"); TAdd Switch None; TLink "capacity" "s0" cap delay], "capacity", "s0". eexists. split; [repeat constructor|]. split; [vm_compute; reflexivity|].
  intros i. vm_compute. discriminate. Qed.
Print Assumptions C47_reserved_refuted.
(** C47 fails for a prefix that makes a new name equal to the old name of a neighbour: the link loses an end. *)
Theorem C47_prefix_refuted : exists os u v d, Forall plain os /\ get_link u v (built "x" os) = Ok d /\ dget u d = None.
Proof. exists [TAdd Host (Some "a"); TAdd Host (Some "p_a"); TLink "a" "p_a" cap delay; TPrefix (Some "p")], "p_a", "p_p_a". eexists. split; [repeat constructor|].
  split; vm_compute; reflexivity. Qed.
Print Assumptions C47_prefix_refuted.
(** C47 fails after loading: a new link takes the interface of an old one. *)
Theorem C47_reload_refuted : exists os n a b da db, fair_run false (topo_new "x" true) os /\ get_link n a (built "x" os) = Ok da /\ get_link n b (built "x" os) = Ok db /\
  a <> b /\ dget n da = dget n db.
Proof. exists (one_link ++ [TReload; TAdd Host (Some "a"); TLink "s0" "a" cap delay]), "s0", "h0", "a". eexists _, _. split.
  - cbn [one_link app fair_run fair]. repeat split; auto. unfold reserved. intros H. repeat destruct H as [H|H]; discriminate H.
  - split; [vm_compute; reflexivity|]. split; [vm_compute; reflexivity|]. split; [discriminate|]. vm_compute. reflexivity. Qed.
Print Assumptions C47_reload_refuted.
Example C47_case : let os := one_link ++ [TAdd Router (Some "r"); TLink "r" "s0" cap delay; TPrefix (Some "p"); TRemoveLink "p_h0" "p_s0"; TLink "p_s0" "p_h0" cap delay] in
  fair_run true (topo_new "x" true) os /\ links (built "x" os) = [("p_h0", "p_s0"); ("p_s0", "p_r")] /\
  exists d, get_link "p_h0" "p_s0" (built "x" os) = Ok d /\ dget "p_h0" d = Some (AName "eth1") /\ dget "p_s0" d = Some (AName "eth2").
Proof. cbn zeta. split; [|split; [vm_compute; reflexivity|eexists; split; [vm_compute; reflexivity|split; vm_compute; reflexivity]]].
  cbn [one_link app fair_run fair]. repeat split; auto.
  - unfold reserved. intros H. repeat destruct H as [H|H]; discriminate H.
  - apply has_link_in in H as (e & He & J). vm_compute in He. destruct He as [<-|[<-|[]]]; apply joins_iff in J; intuition congruence.
  - apply has_link_in in H as (e & He & J). vm_compute in He. destruct He as [<-|[<-|[]]]; apply joins_iff in J; destruct J as [[-> ->]|[-> ->]]; discriminate. Qed.

(** C75. Saving a topology and loading the text gives a topology with the same nodes, classes, interfaces, Ethernet and
    (non-zero) IP addresses, links and link records, if all IP addresses are IPv4. *)
Theorem C75_save_load_partial : forall name auto os, fair_run false (topo_new name auto) os -> let t := topo_run (topo_new name auto) os in topo_v4 t ->
  exists t', unserialize (serialize t) = Ok t' /\ nodes t' = nodes t /\ (forall k, nodes_of k t' = nodes_of k t) /\
  (forall n i m ips, get_addresses n i t = Ok (m, ips) -> exists ips', get_addresses n i t' = Ok (m, ips') /\ forall a, In a ips' <-> In a ips /\ some_ip a) /\
  (forall u v, has_link u v t' = has_link u v t) /\
  (forall u v d, get_link u v t = Ok d -> exists d', get_link u v t' = Ok d' /\ forall k, k <> "source" -> k <> "target" -> dget k d' = dget k d).
Proof. intros name auto os F t V. pose proof (inv_run false os _ (inv_new false name auto) F) as I. fold t in I.
  destruct (unserialize_total t (inv_names false t I) V) as [t' U]. exists t'. split; [exact U|]. apply reload_same; assumption. Qed.
Print Assumptions C75_save_load_partial.
(** The name is kept when there is a node, and lost otherwise. *)
Theorem C75_name : forall t t', unserialize (serialize t) = Ok t' -> nodes t <> [] -> tp_name t' = tp_name t.
Proof. intros t t' U N. unfold unserialize in U. destruct (mapr load_node _) as [ns|] eqn:E; [|discriminate]. cbn [bindr] in U. destruct (mapr load_edge _) as [es|]; [|discriminate].
  cbn [bindr] in U. injection U as <-. cbn [tp_name]. destruct ns; [|reflexivity]. exfalso. apply N. unfold nodes. unfold serialize in E. cbn [sv_nodes] in E.
  destruct (tp_nodes t) as [|x r]; [reflexivity|]. cbn [map mapr] in E. destruct (load_node _); [|discriminate]. cbn [bindr] in E. destruct (mapr _ _); discriminate. Qed.
Print Assumptions C75_name.
Theorem C75_name_refuted : exists t t', unserialize (serialize t) = Ok t' /\ tp_name t' <> tp_name t.
Proof. exists (topo_new "lab" true). eexists. split; [vm_compute; reflexivity|discriminate]. Qed.
Print Assumptions C75_name_refuted.
(** C75 fails with IPv6 addresses: the saved text cannot be loaded. *)
Theorem C75_ipv6_refuted : exists os, fair_run false (topo_new "x" true) os /\ unserialize (serialize (built "x" os)) = Err EValue.
Proof. exists (one_link ++ [TAddresses "h0" "eth0" None (Some (be 16 (2 ^ 120 + 1), 64))]). split; [cbn; tauto|]. vm_compute. reflexivity. Qed.
Print Assumptions C75_ipv6_refuted.
(** C75 fails for what comes after: a link made after loading replaces an interface that exists. *)
Theorem C75_later_refuted : exists os n i m ips m' ips', fair_run false (topo_new "x" true) os /\ get_addresses n i (built "x" os) = Ok (m, ips) /\
  get_addresses n i (topo_run (built "x" os) [TReload; TLink "h0" "s0" cap delay]) = Ok (m', ips') /\
  get_addresses n i (topo_run (built "x" os) [TLink "h0" "s0" cap delay]) = Ok (m, ips) /\ ips' = [] /\ ips <> [].
Proof. exists (one_link ++ [TAssign None]), "h0", "eth0". eexists _, _, _, _. split; [cbn; tauto|]. split; [vm_compute; reflexivity|]. split; [vm_compute; reflexivity|].
  split; [vm_compute; reflexivity|]. split; [reflexivity|discriminate]. Qed.
Print Assumptions C75_later_refuted.
Example C75_case : let os := one_link ++ [TAssign None] in fair_run false (topo_new "x" true) os /\ topo_v4 (built "x" os) /\
  get_addresses "h0" "eth0" (built "x" os) = Ok ([0; 0; 0; 0; 0; 1], [([10; 0; 0; 1], 8)]).
Proof. cbn zeta. split; [cbn; tauto|]. split; [|vm_compute; reflexivity]. intros k n i G H a Ha _. apply dget_In in G. vm_compute in G. destruct G as [G|[G|[]]]; injection G as <- <-; cbn in H; destruct H as [<-|[]];
  cbn in Ha; [destruct Ha as [<-|[]]; reflexivity|destruct Ha]. Qed.

(** C76. When automatic numbering succeeds, every interface of a link at a host or router gets one address of the prefix,
    different interfaces get different addresses, and nothing else changes. *)
Theorem C76_assigned : forall name auto os p t', fair_run true (topo_new name auto) os -> let t := topo_run (topo_new name auto) os in
  (forall n, has_link n n t = false) -> let addr := fst (prefix_used p) in let plen := snd (prefix_used p) in
  0 <= addr < 2 ^ 32 -> 0 <= plen <= 31 -> assign_ips p t = (t', None) ->
  exists f : str * str -> Z,
    (forall x, numbered t x -> 0 <= f x < 2 ^ 32 /\ f x / 2 ^ (32 - plen) = addr / 2 ^ (32 - plen) /\
      exists m ips ips', get_addresses (fst x) (snd x) t = Ok (m, ips) /\ get_addresses (fst x) (snd x) t' = Ok (m, ips') /\ forall a, In a ips' <-> a = (be 4 (f x), plen) \/ In a ips) /\
    (forall x y, numbered t x -> numbered t y -> f x = f y -> x = y) /\
    (forall x, ~ numbered t x -> get_addresses (fst x) (snd x) t' = get_addresses (fst x) (snd x) t).
Proof. intros name auto os p t' F t NS addr plen HA HP E. pose proof (inv_run true os _ (inv_new true name auto) F) as I. fold t in I.
  rewrite (assign_ips_all p t I) in E by lia. set (l := flat t (sorted (links t))) in E. pose proof (flat_NoDup t I NS) as N. fold l in N.
  fold addr plen in E. set (z := hosts_first addr plen) in E. set (last := hosts_last addr plen) in E.
  destruct (assign_all_spec plen last l t z N) as [S1 S2]. destruct (assign_all plen last l (t, z)) as [[t2 z2] e]. cbn [fst snd] in *. injection E as -> ->.
  pose proof (proj1 S1 eq_refl) as LEN. specialize (S2 eq_refl). exists (fun x => match pos x l with Some k => z + k | None => 0 end).
  assert (Q : forall x, numbered t x -> exists k, pos x l = Some k /\ z <= z + k <= last).
  { intros x Hx. apply (flat_iff true t x I) in Hx. fold l in Hx. destruct (pos x l) as [k|] eqn:K; [|apply pos_None in K; contradiction]. exists k. split; [reflexivity|]. apply pos_range in K.
    destruct LEN as [LEN|LEN]; [lia|]. rewrite LEN in Hx. destruct Hx. }
  split; [|split].
  - intros x Hx. destruct (Q x Hx) as (k & K & R). rewrite K. destruct (host_range addr plen (z + k) HA HP) as [B1 B2]; [fold z last; lia|]. split; [exact B1|]. split; [exact B2|].
    destruct Hx as [_ (v & d & G & D)]. destruct x as [n i]. cbn [fst snd] in *. rewrite S2, K.
    destruct (good_end_addresses true t d n (link_end true t n v d n I G (or_introl eq_refl))) as (i' & m & ips & A1 & A2). rewrite D in A1. injection A1 as <-.
    exists m, ips. eexists. split; [exact A2|]. cbn [option_map]. rewrite A2. cbn [added_ip]. split; [reflexivity|].
    intros a. destruct (existsb (ipif_eqb (be 4 (z + k), plen)) ips) eqn:X.
    + apply existsb_exists in X as (y & Y1 & Y2). apply ipif_eqb_eq in Y2. subst y. intuition congruence.
    + rewrite in_app_iff. cbn [In]. intuition congruence.
  - intros x y Hx Hy. destruct (Q x Hx) as (k & K & _). destruct (Q y Hy) as (k2 & K2 & _). rewrite K, K2. intros H. apply (pos_inj x y l k); [exact K|]. rewrite K2. f_equal. lia.
  - intros x Hx. destruct x as [n i]. cbn [fst snd]. rewrite S2. assert (K : pos (n, i) l = None) by (apply pos_None; intros H; apply Hx; apply (flat_iff true t _ I); exact H).
    rewrite K. reflexivity. Qed.
Print Assumptions C76_assigned.
(** C76. It succeeds exactly when there are enough addresses. *)
Theorem C76_enough : forall name auto os p l, fair_run true (topo_new name auto) os -> let t := topo_run (topo_new name auto) os in
  (forall n, has_link n n t = false) -> NoDup l -> (forall x, In x l <-> numbered t x) -> l <> [] ->
  let addr := fst (prefix_used p) in let plen := snd (prefix_used p) in 0 <= plen <= 31 ->
  (snd (assign_ips p t) = None <-> zlen l <= if plen =? 31 then 2 else 2 ^ (32 - plen) - 2).
Proof. intros name auto os p l F t NS N HL NE addr plen HP. pose proof (inv_run true os _ (inv_new true name auto) F) as I. fold t in I.
  rewrite (assign_ips_all p t I) by lia. cbn [snd]. fold addr plen. set (z := hosts_first addr plen). set (last := hosts_last addr plen). pose proof (flat_NoDup t I NS) as N2.
  set (l2 := flat t (sorted (links t))) in *. rewrite (proj1 (assign_all_spec plen last l2 t z N2)).
  assert (E : zlen l2 = zlen l).
  { unfold zlen. f_equal. apply Permutation.Permutation_length. apply Permutation.NoDup_Permutation; [exact N2|exact N|]. intros x. rewrite HL. apply (flat_iff true). exact I. }
  assert (NE2 : l2 <> []) by (intros H; rewrite H in E; destruct l; [congruence|unfold zlen in E; cbn [List.length] in E; lia]).
  rewrite E. unfold z, last, hosts_first, hosts_last. destruct (Z.eqb_spec plen 31); (split; [intros [H|H]; [lia|contradiction]|intros H; left; lia]). Qed.
Print Assumptions C76_enough.
(** C76 fails for a second call: it hands out the same addresses again, to other interfaces when the links have changed. *)
Theorem C76_twice_refuted : exists os n1 i1 n2 i2 a m1 ips1 m2 ips2, fair_run true (topo_new "x" true) os /\
  get_addresses n1 i1 (built "x" os) = Ok (m1, ips1) /\ get_addresses n2 i2 (built "x" os) = Ok (m2, ips2) /\ n1 <> n2 /\ In a ips1 /\ In a ips2.
Proof. exists (TAdd Host (Some "a") :: one_link ++ [TAssign None; TLink "a" "s0" cap delay; TAssign None]), "h0", "eth0", "a", "eth0", ([10; 0; 0; 1], 8). eexists _, _, _, _.
  split. { cbn [one_link app fair_run fair]. repeat split; auto. unfold reserved. intros H. repeat destruct H as [H|H]; discriminate H. }
  split; [vm_compute; reflexivity|]. split; [vm_compute; reflexivity|]. split; [discriminate|]. split; cbn; auto. Qed.
Print Assumptions C76_twice_refuted.
Example C76_case : let os := one_link ++ [TAdd Router None; TLink "s0" "r0" cap delay; TLink "r0" "h0" cap delay] in let t := built "x" os in
  fair_run true (topo_new "x" true) os /\ (forall n, has_link n n t = false) /\ numbered t ("r0", "eth1") /\
  let t' := fst (assign_ips (Some (192 * 2 ^ 24 + 5, 30)) t) in snd (assign_ips (Some (192 * 2 ^ 24 + 5, 30)) t) = Some EStopIter /\
  let t' := fst (assign_ips (Some (192 * 2 ^ 24 + 5, 29)) t) in snd (assign_ips (Some (192 * 2 ^ 24 + 5, 29)) t) = None /\
  get_addresses "h0" "eth1" t' = Ok ([0; 0; 0; 0; 0; 6], [([192; 0; 0; 1], 29)]) /\ get_addresses "r0" "eth0" t' = Ok ([0; 0; 0; 0; 0; 4], [([192; 0; 0; 4], 29)]).
Proof. cbn zeta. split; [cbn; tauto|]. split; [|split].
  - intros n. destruct (has_link n n _) eqn:E; [|reflexivity]. apply has_link_in in E as (e & He & J). vm_compute in He. destruct He as [<-|[<-|[<-|[]]]]; apply joins_iff in J; intuition congruence.
  - split; [vm_compute; auto|]. eexists "h0", _. split; vm_compute; reflexivity.
  - vm_compute. auto. Qed.

(** C47.  setInterfaceAddresses: an unknown node or interface, or a wrong Ethernet address, raises an exception and changes nothing;
    otherwise the interface has the addresses from then on, and every other interface the ones it had. *)
Theorem C47_set_addresses : forall n i mac ip t,
  match get_addresses n i t with
  | Err _ => set_addresses n i mac ip t = (t, Some EExc)
  | Ok (m, ips) =>
      match match mac with Some a => eth_init a | None => Ok m end with
      | Err e => set_addresses n i mac ip t = (t, Some e)
      | Ok a => exists t' ips', set_addresses n i mac ip t = (t', None) /\ get_addresses n i t' = Ok (a, ips') /\ (forall x, In x ips' <-> In x ips \/ ip = Some x) /\
          (forall n2 i2, (n2, i2) <> (n, i) -> get_addresses n2 i2 t' = get_addresses n2 i2 t) /\ nodes t' = nodes t /\ forall u v, get_link u v t' = get_link u v t
      end
  end.
Proof.
  intros n i mac ip t. unfold get_addresses, set_addresses. destruct (dget n (tp_nodes t)) as [nd|] eqn:G; [|reflexivity]. destruct (dget i (tn_ifs nd)) as [x|] eqn:G2; [|reflexivity].
  destruct (match mac with Some m => eth_init m | None => Ok (if_mac x) end) as [a|e]; [|reflexivity]. cbv zeta.
  set (y := match ip with Some p => if_assign p (if_set_mac (Some a) x) | None => if_set_mac (Some a) x end). assert (Ym : if_mac y = a) by (unfold y; destruct ip; [unfold if_assign; destruct (existsb _ _)|]; reflexivity).
  do 2 eexists. split; [reflexivity|]. split; [|split; [|split; [|split]]].
  - unfold node_update, with_nodes. cbn [tp_nodes]. rewrite dget_dset_same. cbn [tn_ifs]. rewrite dget_dset_same, Ym. reflexivity.
  - intros z. unfold y. destruct ip as [p|]; [rewrite in_if_assign; cbn [if_set_mac if_ips]; intuition congruence|cbn [if_set_mac if_ips]; intuition congruence].
  - intros n2 i2 D. unfold node_update, with_nodes. cbn [tp_nodes]. destruct (str_spec n2 n) as [->|Ne]; [|rewrite dget_dset_other by exact Ne; reflexivity]. rewrite dget_dset_same, G. cbn [tn_ifs]. destruct (str_spec i2 i) as [->|Ne]; [contradiction|]. rewrite dget_dset_other by exact Ne. reflexivity.
  - apply nodes_update. apply dget_In in G. apply in_map_iff. eexists. split; [|exact G]. reflexivity.
  - reflexivity.
Qed.
Print Assumptions C47_set_addresses.
Example C47_set_addresses_case : let t := built "x" one_link in get_addresses "h0" "eth0" (fst (set_addresses "h0" "eth0" (Some (AStr [48; 50; 58; 48; 48; 58; 48; 48; 58; 48; 48; 58; 48; 48; 58; 48; 57])) (Some ([10; 0; 0; 9], 8)) t)) = Ok ([2; 0; 0; 0; 0; 9], [([10; 0; 0; 9], 8)]) /\
  set_addresses "h0" "eth7" None None t = (t, Some EExc) /\ snd (set_addresses "h0" "eth0" (Some (AStr [48])) None t) <> None.
Proof. split; [vm_compute; reflexivity|]. split; [reflexivity|]. vm_compute. discriminate. Qed.
