(** C42, C43, C71, C72: interface tables and device selection. *)
From Verif Require Import BaseLemmas EthAddrModel NetModel NetProofs.
#[local] Open Scope string_scope.
#[local] Open Scope Z_scope.
#[local] Open Scope list_scope.

(** The interfaces of the net object after a history of operations that starts with an empty table. *)
Definition after (os : list net_op) : list iface := map snd (nt_dev (net_run net_new os)).

(** C42.  By name. *)
Theorem C42_by_name : forall os n,
  (exists i, by_name n (nt_dev (net_run net_new os)) = Ok i /\ In i (after os) /\ if_name i = n) \/
  (by_name n (nt_dev (net_run net_new os)) = Err EKey /\ forall i, In i (after os) -> if_name i <> n).
Proof. intros os n. apply lookup_name, net_run_ok, table_new. Qed.
Print Assumptions C42_by_name.
(** C42.  By IP address. *)
Theorem C42_by_ipaddr : forall os ip,
  (exists i, by_ip ip (nt_dev (net_run net_new os)) = Ok i /\ In i (after os) /\ exists plen, In (ip, plen) (if_ips i)) \/
  (by_ip ip (nt_dev (net_run net_new os)) = Err EKey /\ forall i plen, In i (after os) -> ~ In (ip, plen) (if_ips i)).
Proof. intros os ip. apply lookup_ip. Qed.
Print Assumptions C42_by_ipaddr.
(** C42.  By Ethernet address, given as anything EthAddr accepts. *)
Theorem C42_by_macaddr : forall os m a, eth_init m = Ok a ->
  (exists i, by_mac m (nt_dev (net_run net_new os)) = Ok i /\ In i (after os) /\ if_mac i = a) \/
  (by_mac m (nt_dev (net_run net_new os)) = Err EKey /\ forall i, In i (after os) -> if_mac i <> a).
Proof. intros os m a H. apply lookup_mac. exact H. Qed.
Print Assumptions C42_by_macaddr.
(** C42.  By number (the name of the interface is returned). *)
Theorem C42_by_number : forall os n,
  (exists i, by_num n (nt_dev (net_run net_new os)) = Ok (if_name i) /\ In i (after os) /\ if_num i = n) \/
  (by_num n (nt_dev (net_run net_new os)) = Err EKey /\ forall i, In i (after os) -> if_num i <> n).
Proof. intros os n. apply lookup_num, net_run_ok, table_new. Qed.
Print Assumptions C42_by_number.
(** C42.  Bringing an interface up: a new one is added at the end and reported to the callback, one whose name is known is
    refused and nothing changes. *)
Theorem C42_up_once : forall os i, let n := net_run net_new os in
  (forall j, In j (after os) -> if_name j <> if_name i) /\
    map snd (nt_dev (fst (intf_up i n))) = after os ++ [i] /\ snd (intf_up i n) = None /\
    nt_log (fst (intf_up i n)) = nt_log n ++ (if nt_cb n then [(if_name i, true)] else []) \/
  (exists j, In j (after os) /\ if_name j = if_name i) /\ intf_up i n = (n, Some EValue).
Proof. intros os i n. assert (T : table_ok (nt_dev n)) by (apply net_run_ok, table_new).
  destruct (in_dec String.string_dec (if_name i) (map if_name (after os))) as [H|H].
  - right. apply in_map_iff in H as (j & E & Hj). split; [eauto|]. exact (up_again i j n T Hj E).
  - left. assert (H2 : forall j, In j (after os) -> if_name j <> if_name i) by (intros j Hj E; apply H; rewrite <- E; apply in_map; exact Hj).
    split; [exact H2|]. rewrite (up_new i n H2 T). cbn [fst snd nt_dev nt_log]. rewrite map_app. auto. Qed.
Print Assumptions C42_up_once.
(** C42.  Over a whole history the callback hears exactly of the successful ups and of the downs of known interfaces. *)
Theorem C42_callback : forall os, nt_log (net_run net_new os) = heard false [] os.
Proof. intros os. rewrite callback_log by apply table_new. apply reports_heard; [apply table_new|]. intros k. split; intros []. Qed.
Print Assumptions C42_callback.
Definition xif (n : str) (k : Z) : iface := mkIf n [2; 0; 0; 0; 0; k] [([10; 0; 0; k], 24)] k.
Definition xhist : list net_op := [NCallback true; NUp (xif "eth0" 1); NUp (xif "eth1" 2); NUp (xif "eth0" 3); NDown "eth1"; NDown "lo"; NAssign "eth0" ([192; 168; 0; 1], 16)].
Example C42_example : let d := nt_dev (net_run net_new xhist) in
  map if_name (after xhist) = ["eth0"; "eth1"] /\ nt_log (net_run net_new xhist) = [("eth0", true); ("eth1", true); ("eth1", false)] /\
  (exists i, by_ip [192; 168; 0; 1] d = Ok i /\ if_name i = "eth0") /\ by_num 2 d = Ok "eth1" /\ by_num 7 d = Err EKey /\
  (exists i, by_mac (ABytes [2; 0; 0; 0; 0; 2]) d = Ok i /\ if_name i = "eth1").
Proof. cbv zeta. split; [reflexivity|]. split; [reflexivity|]. split; [eexists; split; reflexivity|]. split; [reflexivity|]. split; [reflexivity|].
  eexists; split; reflexivity. Qed.

(** C43.  The chosen devices.  Missing from the full claim: with an include list of which no element exists, all devices are chosen. *)
Theorem C43_device_selection_partial : forall pcap index inc exc,
  NoDup (make_device_list pcap index inc exc) /\
  ((inc = [] \/ exists y, In y inc /\ In y (map fst pcap)) ->
   forall x, In x (make_device_list pcap index inc exc) <->
     index x = true /\ (In (x, false) pcap \/ (In (x, true) pcap /\ In x inc)) /\ ~ In x exc /\ (inc = [] \/ In x inc)).
Proof. intros pcap index inc exc. split; [apply make_NoDup|]. intros H x. rewrite make_spec by exact H. unfold usable. tauto. Qed.
Print Assumptions C43_device_selection_partial.
Example C43_example : let pcap := [("lo", true); ("eth0", false); ("any", false); ("eth1", false); ("eth0", false)] in
  let index x := negb (str_eqb x "any") in
  make_device_list pcap index [] ["eth1"] = ["eth0"] /\ make_device_list pcap index ["lo"; "eth1"; "no"] ["eth0"] = ["lo"; "eth1"].
Proof. split; reflexivity. Qed.
(** C43.  When the include list names only devices that do not exist, devices outside it are chosen. *)
Theorem C43_refuted : exists pcap index inc x, inc <> [] /\ ~ In x inc /\ In x (make_device_list pcap index inc []).
Proof. exists [("eth0", false)], (fun _ => true), ["eth9"], "eth0". split; [discriminate|]. split; [intros [H|[]]; discriminate|]. left. reflexivity. Qed.
Print Assumptions C43_refuted.

(** C71.  The address set of an interface: assigning adds exactly that address once, removing takes exactly one entry of the
    address away and fails when there is none. *)
Theorem C71_assign : forall a i x, In x (if_ips (if_assign a i)) <-> x = a \/ In x (if_ips i).
Proof. exact assign_spec. Qed.
Print Assumptions C71_assign.
Theorem C71_assign_once : forall i l, NoDup (if_ips i) -> NoDup (if_ips (fold_left (fun i a => if_assign a i) l i)).
Proof. intros i l. revert i. induction l as [|a l IH]; intros i N; [exact N|]. cbn [fold_left]. apply IH, assign_NoDup, N. Qed.
Print Assumptions C71_assign_once.
Theorem C71_remove : forall ip i,
  (exists a p b, if_ips i = a ++ (ip, p) :: b /\ if_remove ip i = Ok (mkIf (if_name i) (if_mac i) (a ++ b) (if_num i))) \/
  (if_remove ip i = Err EExc /\ forall p, ~ In (ip, p) (if_ips i)).
Proof. intros ip i. unfold if_remove. destruct (rem_ip_spec ip (if_ips i)) as [(a & p & b & E & ->)|[-> H]]; [left|right; auto]. exists a, p, b. auto. Qed.
Print Assumptions C71_remove.
(** C71.  An assigned address is found by the lookup, whatever else happens to other interfaces. *)
Theorem C71_assigned_is_found : forall os n a, In n (map if_name (after os)) ->
  exists i, by_ip (fst a) (nt_dev (net_run net_new (os ++ [NAssign n a]))) = Ok i.
Proof. intros os n [ip p] H. destruct (lookup_ip (nt_dev (net_run net_new (os ++ [NAssign n (ip, p)]))) ip) as [(i & H1 & _)|[_ H2]]; [eauto|]. exfalso.
  unfold net_run in H2. rewrite fold_left_app in H2. fold (net_run net_new os) in H2. cbn [fold_left net_step] in H2. unfold on_iface in H2.
  destruct (lookup_name (nt_dev (net_run net_new os)) n) as [(i & L & _)|[_ L]]; [apply net_run_ok, table_new| |].
  - unfold by_name in L. destruct (dget n _) as [j|] eqn:E; [|discriminate]. cbn [fst nt_dev] in H2. apply (H2 (if_assign (ip, p) j) p).
    + apply in_map_iff. exists (n, if_assign (ip, p) j). split; [reflexivity|]. apply dget_In, dget_dset_same.
    + apply assign_spec. auto.
  - apply in_map_iff in H as (i & E & Hi). apply (L i Hi E). Qed.
Print Assumptions C71_assigned_is_found.
Example C71_example : if_remove [10; 0; 0; 1] (if_assign ([10; 0; 0; 9], 8) (xif "eth0" 1)) = Ok (mkIf "eth0" [2; 0; 0; 0; 0; 1] [([10; 0; 0; 9], 8)] 1).
Proof. reflexivity. Qed.

(** C72.  Interfaces added to a scenario under different names are numbered 0, 1, 2, ... in the order they are added. *)
Theorem C72_scenario_numbers_partial : forall l, NoDup (map (fun x => fst (fst x)) l) ->
  dkeys (added l) = map (fun x => fst (fst x)) l /\ map (fun x => if_num (snd x)) (added l) = map Z.of_nat (seq 0 (List.length l)).
Proof. exact added_numbers. Qed.
Print Assumptions C72_scenario_numbers_partial.
Example C72_example : NoDup (map (fun x : str * option ethaddr * list ipif => fst (fst x)) [("r0", None, []); ("r1", None, [([10; 0; 0; 1], 8)])]) /\
  map (fun x => if_num (snd x)) (added [("r0", None, []); ("r1", None, [([10; 0; 0; 1], 8)])]) = [0; 1].
Proof. split; [|reflexivity]. constructor; [intros [H|[]]; discriminate|]. constructor; [intros []|constructor]. Qed.
(** C72.  Adding a name again can give two interfaces of the scenario the same number. *)
Theorem C72_refuted : exists l, ~ NoDup (map (fun x => if_num (snd x)) (added l)).
Proof. exists [("a", None, []); ("a", None, []); ("b", None, [])]. vm_compute. intros H. inversion H; subst. apply H2. left. reflexivity. Qed.
Print Assumptions C72_refuted.

(** C71.  Removing an address that the interface does not have raises an exception and changes nothing; so does any operation on
    an interface that is not there. *)
Theorem C71_remove_refused : forall n name ip i, dget name (nt_dev n) = Some i -> (forall p, ~ In (ip, p) (if_ips i)) -> net_step n (NRemove name ip) = (n, Some EExc).
Proof.
  intros n name ip i G N. cbn [net_step]. unfold on_iface, if_remove. rewrite G. assert (E : rem_ip ip (if_ips i) = None); [|rewrite E; reflexivity].
  induction (if_ips i) as [|[a p] r IH]; [reflexivity|]. cbn [rem_ip fst]. destruct (bytes_eqb a ip) eqn:B; [apply bytes_eqb_eq in B; subst a; exfalso; apply (N p); left; reflexivity|].
  rewrite IH; [reflexivity|]. intros q Q. apply (N q). right. exact Q.
Qed.
Print Assumptions C71_remove_refused.
Theorem C71_unknown_refused : forall n name o, dget name (nt_dev n) = None -> (exists a, o = NAssign name a) \/ (exists ip, o = NRemove name ip) \/ (exists m, o = NMac name m) \/ (exists k, o = NNum name k) -> net_step n o = (n, Some EKey).
Proof. intros n name o G [[a ->]|[[a ->]|[[a ->]|[a ->]]]]; cbn [net_step]; unfold on_iface; rewrite G; reflexivity. Qed.
Print Assumptions C71_unknown_refused.
(** C71.  An interface without Ethernet address has the address of six zero bytes. *)
Theorem C71_no_address : forall name num next i, if_mac (fst (if_new name None num next)) = [0; 0; 0; 0; 0; 0] /\ if_mac (if_set_mac None i) = [0; 0; 0; 0; 0; 0].
Proof. intros name num next i. unfold if_new. destruct (take_num num next). split; reflexivity. Qed.
Print Assumptions C71_no_address.
(** C72.  Interfaces made one after the other, some with a number given and some without: those without get the numbers from
    the counter in order, with no gap. *)
Fixpoint made_ifs (l : list (str * option Z)) (next : Z) : list iface * Z :=
  match l with [] => ([], next) | (name, num) :: r => let '(i, n1) := if_new name None num next in let '(is, n2) := made_ifs r n1 in (i :: is, n2) end.
Theorem C72_numbers : forall l next is n, made_ifs l next = (is, n) ->
  let unnumbered := filter (fun x => match snd (fst x) with None => true | Some _ => false end) (combine l (map if_num is)) in
  map snd unnumbered = map (fun k => next + Z.of_nat k) (seq 0 (List.length unnumbered)) /\ n = next + Z.of_nat (List.length unnumbered) /\
  (forall name v k, In ((name, Some v), k) (combine l (map if_num is)) -> k = v).
Proof.
  induction l as [|[name num] l IH]; intros next is n H; cbn [made_ifs] in H.
  - injection H as <- <-. cbn. split; [reflexivity|]. split; [lia|]. intros ? ? ? [].
  - unfold if_new in H. destruct num as [v|]; cbn [take_num] in H.
    + destruct (made_ifs l next) as [is2 n2] eqn:E. injection H as <- <-. destruct (IH _ _ _ E) as (A & B & C). cbn [map if_num combine filter fst snd].
      split; [exact A|]. split; [exact B|]. intros nm w k [K|K]; [congruence|eauto].
    + destruct (made_ifs l (next + 1)) as [is2 n2] eqn:E. injection H as <- <-. destruct (IH _ _ _ E) as (A & B & C). cbn [map if_num combine filter fst snd List.length seq].
      split; [|split].
      * f_equal; [lia|]. rewrite A, <- seq_shift, map_map. apply map_ext. intros k. lia.
      * rewrite B. lia.
      * intros nm w k [K|K]; [discriminate|eauto].
Qed.
Print Assumptions C72_numbers.
Example C72_numbers_case : map if_num (fst (made_ifs [("a", None); ("b", Some 7); ("c", None)] 3)) = [3; 7; 4].
Proof. reflexivity. Qed.
