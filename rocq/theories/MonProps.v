(** C97: packet monitors of the simulator. *)
From Coq Require Import List ZArith QArith Bool Lia String Ascii.
From Verif Require Import Dict DictLemmas CapModel MonModel MonSpec MonProofs MonMore MonFail.
Import ListNotations.
#[local] Open Scope string_scope.
#[local] Open Scope list_scope.

(** ** Capturing *)
(** The command "monitor <where> pcap <name>" opens a file for every interface that it names; from then on, until the
    interface is named again or the topology rebuilt, the file is given exactly the packets that the node's program
    receives from that interface, in order, whole, with their times. *)
Theorem C97_capture : forall w s ws l r base n i, reach w s -> over s = None -> queue s = [] ->
  located (topo s) ws = Some (l, r) -> how_of r = Some (HPcap base) -> In (n, i) l ->
  is_ascii (file_name n i base) = true -> w (file_name n i base) = true ->
  let s' := enter w (Monitor ws) s in
  exists h d, seen s' = seen s ++ d /\ In (Opened h n i (file_name n i base)) d /\ shown s' n i = Some KPcap /\
  forall evs, Forall (leaves_alone (topo s) n i) evs ->
  exists d', seen (run w evs s') = seen s' ++ d' /\ Forall2 holds (written h d') (got n i d').
Proof. exact mon_capture. Qed.

(** Capturing keeps no packet from a program: after any commands that only capture, to files that can be written, or
    rebuild, the next packet for a node of the topology is given to its program. *)
Theorem C97_pass : forall w t l n i now b, good w t l -> Forall all_sound l -> din n (topo (run w l (start t))) = true ->
  exists d, seen (step w (run w l (start t)) (Arrive (n, i, now, Ok b))) = seen (run w l (start t)) ++ d /\ got n i d = [(now, Ok b)].
Proof. exact mon_pass. Qed.

(** ... and no such commands, and no packets at all, end the command line. *)
Theorem C97_safe : forall w t l, good w t l -> over (run w l (start t)) = None.
Proof. exact mon_safe. Qed.

(** After "unmonitor <where>" no file that was opened for an interface named there gets another packet. *)
Theorem C97_stop : forall w s ws n i, reach w s -> over s = None -> queue s = [] -> names (topo s) ws n i ->
  let s' := enter w (Unmonitor ws) s in
  shown s' n i = None /\ seen s' = seen s /\
  forall h f, In (Opened h n i f) (seen s) -> forall evs d, seen (run w evs s') = seen s' ++ d -> written h d = [].
Proof. exact mon_stop. Qed.

(** Whatever happens, a file is opened once, then written, then closed at most once, and not written again. *)
Theorem C97_once : forall w s h, reach w s ->
  ops h (seen s) = [] \/ still_open (ops h (seen s)) \/ closed_once (ops h (seen s)).
Proof. exact mon_once. Qed.

(** A rebuild that succeeds closes every file that is open and removes every monitor. *)
Theorem C97_rebuild : forall w s t, reach w s -> over (enter w (Rebuild t) s) = None ->
  let s' := enter w (Rebuild t) s in
  (forall n i, shown s' n i = None) /\
  forall h n i f, In (Opened h n i f) (seen s) -> closed_once (ops h (seen s')) /\
  forall evs d, seen (run w evs s') = seen s' ++ d -> ops h d = [].
Proof. exact mon_rebuild. Qed.

(** What is listed as monitored is what is monitored, as long as no code monitor was tried and all names are ASCII. *)
Theorem C97_listed : forall w t l n i, simple t l ->
  shown (run w l (start t)) n i = kind_of_mon (att (run w l (start t)) n i).
Proof. exact mon_listed. Qed.

Definition two : dict (list str) := [("a1", ["eth0"; "eth1"]); ("b1", ["eth0"])].
Definition all_w : str -> bool := fun _ => true.
Definition pk (n i : str) (b : Z) : packet := (n, i, 5 # 2, Ok [b]).
Definition ev1 : list event :=
  [Arrive (pk "a1" "eth0" 1); Line [] (Monitor ["node"; "a1"; "pcap"; "x"]) []; Arrive (pk "a1" "eth0" 2); Arrive (pk "b1" "eth0" 3);
   Line [pk "a1" "eth1" 4] (Unmonitor ["a1"; "eth0"]) [pk "a1" "eth0" 5]; Line [] (Rebuild two) []].
Example ex_run : seen (run all_w ev1 (start two)) =
  [Got "a1" "eth0" (5 # 2) (Ok [1%Z]); Opened 0 "a1" "eth0" "a1_eth0_x.pcap"; Opened 1 "a1" "eth1" "a1_eth1_x.pcap";
   Written 0 (mkRec 2 500000 1 1 [2%Z]); Got "a1" "eth0" (5 # 2) (Ok [2%Z]); Got "b1" "eth0" (5 # 2) (Ok [3%Z]);
   Written 1 (mkRec 2 500000 1 1 [4%Z]); Got "a1" "eth1" (5 # 2) (Ok [4%Z]); Got "a1" "eth0" (5 # 2) (Ok [5%Z]); Closed 0; Closed 1].
Proof. vm_compute. reflexivity. Qed.
Example ex_good : good all_w two ev1 /\ Forall all_sound ev1 /\ simple two ev1 /\ over (run all_w ev1 (start two)) = None.
Proof.
  split; [|split; [|split; [|reflexivity]]].
  - cbn [good ev1]. repeat apply conj; try exact I. cbn. intros n i K. destruct K as [K|[K|[]]]; injection K as <- <-; now split.
  - repeat constructor; cbn; eexists; reflexivity.
  - cbn [simple ev1]. repeat apply conj; try exact I. cbn. intros n is i K J. destruct K as [K|[K|[]]]; injection K as <- <-; cbn in J; intuition (subst; reflexivity).
Qed.
Example ex_capture : let s := run all_w [Arrive (pk "a1" "eth0" 1)] (start two) in
  reach all_w s /\ over s = None /\ queue s = [] /\ located (topo s) ["node"; "a1"; "pcap"; "x"] = Some ([("a1", "eth0"); ("a1", "eth1")], ["pcap"; "x"]) /\
  how_of ["pcap"; "x"] = Some (HPcap "x") /\
  Forall (leaves_alone (topo s) "a1" "eth1") [Arrive (pk "a1" "eth0" 2); Line [pk "a1" "eth1" 4] (Unmonitor ["a1"; "eth0"]) [pk "a1" "eth0" 5]].
Proof.
  cbv zeta. split; [eexists; eexists; reflexivity|]. repeat split. constructor; [exact I|constructor; [|constructor]].
  intros (l & r & E & H). vm_compute in E. injection E as <- <-. destruct H as [H|[]]. discriminate.
Qed.
Example ex_stop : let s := run all_w (firstn 4 ev1) (start two) in names (topo s) ["a1"; "eth0"] "a1" "eth0" /\ In (Opened 0 "a1" "eth0" "a1_eth0_x.pcap") (seen s).
Proof. cbv zeta. split; [exists [("a1", "eth0")], []; split; [reflexivity|now left]|]. vm_compute. auto. Qed.

(** ** Which interfaces are meant *)
(** Only interfaces that exist are ever named; "any" and "all" name every one, "node n" those of n, "node n ethX" that one. *)
Theorem C97_where_exist : forall t ws n i, names t ws n i -> exists is, In (n, is) t /\ In i is.
Proof. exact located_exist. Qed.
Theorem C97_where_all : forall t x ws n i, x = "any" \/ x = "all" -> (names t (x :: ws) n i <-> exists is, In (n, is) t /\ In i is).
Proof. exact located_all. Qed.
Theorem C97_where_node : forall t m is ws n i, dget m t = Some is -> din "node" t = false ->
  match ws with x :: _ => String.prefix "eth" x = false | [] => True end ->
  (names t ("node" :: m :: ws) n i <-> n = m /\ In i is).
Proof. exact located_node. Qed.
Theorem C97_where_interface : forall t m is x ws n i, dget m t = Some is -> din "node" t = false -> String.prefix "eth" x = true ->
  (names t ("node" :: m :: x :: ws) n i <-> n = m /\ i = x /\ In x is).
Proof. exact located_intf. Qed.
Example ex_where : names two ["all"] "b1" "eth0" /\ names two ["node"; "a1"; "pcap"] "a1" "eth1" /\ names two ["node"; "a1"; "eth1"; "pcap"] "a1" "eth1".
Proof. split; [|split]; eexists; eexists; (split; [reflexivity|]); cbn; auto. Qed.

(** A name of a file that ends in ".pcap" is used as it is; with any other, different interfaces of different nodes get
    different files, if no interface has an underscore in its name. *)
Theorem C97_names : forall n i n' i' base, plain i = true -> plain i' = true -> ends_with ".pcap" base = false ->
  file_name n i base = file_name n' i' base -> n = n' /\ i = i'.
Proof. exact mon_names. Qed.
Example ex_names : file_name "a1" "eth0" "x" = "a1_eth0_x.pcap" /\ file_name "a1" "eth0" "" = "a1_eth0.pcap" /\ file_name "a_1" "eth0" "x" = "a_1_eth0_x.pcap".
Proof. repeat split. Qed.

(** ** Where it does not hold *)
(** A node whose name begins a keyword cannot be named by itself: "a" means all. *)
Theorem C97_where_refuted : exists t ws n i, din "a" t = true /\ ws = ["a"; "pcap"] /\ names t ws n i /\ n <> "a".
Proof.
  exists [("a", ["eth0"]); ("b", ["eth0"])], ["a"; "pcap"], "b", "eth0". repeat split; [|discriminate].
  eexists; eexists. split; [reflexivity|]. cbn. auto.
Qed.

(** A name that ends in ".pcap" gives several interfaces the same file, each of which writes it from the beginning. *)
Theorem C97_names_refuted : exists t ws f, let s := enter all_w (Monitor ws) (start t) in
  In (Opened 0 "a1" "eth0" f) (seen s) /\ In (Opened 1 "b1" "eth0" f) (seen s) /\
  still_open (ops 0 (seen s)) /\ still_open (ops 1 (seen s)).
Proof.
  exists [("a1", ["eth0"]); ("b1", ["eth0"])], ["all"; "pcap"; "x.pcap"], "x.pcap". vm_compute. repeat split; auto; exists O; reflexivity.
Qed.

(** Without a rebuild no file is ever closed, neither by unmonitor nor on leaving ... *)
Theorem C97_never_closed_fails : forall w l s, Forall no_rebuild l -> exists d, seen (run w l s) = seen s ++ d /\ forall h, ~ In (Closed h) d.
Proof. exact mon_open. Qed.
(** ... so that monitoring an interface again has the file open twice. *)
Theorem C97_twice_refuted : exists t l f, let s := run all_w l (start t) in
  over s = None /\ In (Opened 0 "a1" "eth0" f) (seen s) /\ In (Opened 1 "a1" "eth0" f) (seen s) /\
  still_open (ops 0 (seen s)) /\ still_open (ops 1 (seen s)).
Proof.
  exists two, [Line [] (Monitor ["a1"; "eth0"; "pcap"]) []; Line [] (Unmonitor ["a1"; "eth0"]) []; Line [] (Monitor ["a1"; "eth0"; "pcap"]) []], "a1_eth0.pcap".
  vm_compute. repeat split; auto; exists O; reflexivity.
Qed.

(** Code monitors never work: each is reported as an error, stays listed without being there, and the first rebuild after it
    ends the command line, whatever happens in between. *)
Theorem C97_code_fails : forall w s ws l r f n i, over s = None -> queue s = [] ->
  located (topo s) ws = Some (l, r) -> how_of r = Some (HCode f) -> In (n, i) l ->
  let s' := enter w (Monitor ws) s in
  (exists d, seen s' = seen s ++ d /\ In (Failed n i EType) d) /\ shown s' n i = Some KCode /\ (forall a b, att s' a b = att s a b) /\
  forall evs m1 t m2, over (step w (run w evs s') (Line m1 (Rebuild t) m2)) <> None.
Proof. exact mon_code. Qed.
Example ex_code : located two ["a1"; "eth1"; "code"; "m.py"] = Some ([("a1", "eth1")], ["code"; "m.py"]) /\ how_of ["code"; "m.py"] = Some (HCode "m.py") /\
  over (enter all_w (Rebuild two) (enter all_w (Monitor ["a1"; "eth1"; "code"; "m.py"]) (start two))) = Some (Died EAttr).
Proof. repeat split. Qed.
Theorem C97_listed_refuted : exists w t l n i, let s := run w l (start t) in over s = None /\ shown s n i = Some KCode /\ att s n i = Null.
Proof. exists all_w, two, [Line [] (Monitor ["a1"; "eth1"; "code"; "m.py"]) []], "a1", "eth1". repeat split. Qed.

(** Debug monitors stop the node for good with the first packet: its program gets no packet again, whatever happens, and
    the next command line is the last. *)
Theorem C97_debug_fails : forall w s n i now p, reach w s -> over s = None -> nodes s n = Running -> att s n i = Debug ->
  let s' := step w s (Arrive (n, i, now, p)) in
  forall evs, (exists d, seen (run w evs s') = seen s' ++ d /\ forall a t q, ~ In (Got n a t q) d) /\
  ((exists m1 c m2, In (Line m1 c m2) evs) -> over (run w evs s') <> None).
Proof. exact mon_debug. Qed.
(** If it comes during a line that rebuilds or leaves, that line never returns. *)
Theorem C97_debug_hangs_fails : forall w s n i now p c m, reach w s -> over s = None -> queue s = [] -> nodes s n = Running -> att s n i = Debug ->
  match c with Rebuild _ | Exit => True | _ => False end ->
  over (step w s (Line [(n, i, now, p)] c m)) = Some Hung \/ over (step w s (Line [(n, i, now, p)] c m)) = Some Segv.
Proof. exact mon_debug_hang. Qed.
Example ex_debug : let s := enter all_w (Monitor ["a1"; "debug"]) (start two) in
  reach all_w s /\ over s = None /\ queue s = [] /\ nodes s "a1" = Running /\ att s "a1" "eth1" = Debug /\
  over (run all_w [Arrive (pk "a1" "eth1" 1); Line [] Other []] s) = Some (Died EName) /\
  over (run all_w [Line [pk "a1" "eth1" 1] Exit []] s) = Some Hung.
Proof. cbv zeta. split; [exists two, [Line [] (Monitor ["a1"; "debug"]) []]; reflexivity|]. repeat split. Qed.

(** A file that cannot be written is not reported: the first packet ends the process, and a rebuild ends the command line. *)
Theorem C97_unwritable_fails : forall w s ws l r base n i, over s = None -> queue s = [] ->
  located (topo s) ws = Some (l, r) -> how_of r = Some (HPcap base) -> In (n, i) l ->
  is_ascii (file_name n i base) = true -> w (file_name n i base) = false ->
  let s' := enter w (Monitor ws) s in
  (exists d, seen s' = seen s ++ d /\ forall e, ~ In (Failed n i e) d) /\
  (forall now b, nodes s n = Running -> over (step w s' (Arrive (n, i, now, Ok b))) = Some Segv) /\
  forall evs m1 t m2, over (step w (run w evs s') (Line m1 (Rebuild t) m2)) <> None.
Proof. exact mon_null. Qed.
Example ex_null : over (step (fun _ => false) (enter (fun _ => false) (Monitor ["b1"; "eth0"; "dump"]) (start two)) (Arrive (pk "b1" "eth0" 1))) = Some Segv.
Proof. reflexivity. Qed.

Print Assumptions C97_capture.
Print Assumptions C97_pass.
Print Assumptions C97_safe.
Print Assumptions C97_stop.
Print Assumptions C97_once.
Print Assumptions C97_rebuild.
Print Assumptions C97_listed.
Print Assumptions C97_where_exist.
Print Assumptions C97_where_all.
Print Assumptions C97_where_node.
Print Assumptions C97_where_interface.
Print Assumptions C97_names.
Print Assumptions C97_where_refuted.
Print Assumptions C97_names_refuted.
Print Assumptions C97_never_closed_fails.
Print Assumptions C97_twice_refuted.
Print Assumptions C97_code_fails.
Print Assumptions C97_listed_refuted.
Print Assumptions C97_debug_fails.
Print Assumptions C97_debug_hangs_fails.
Print Assumptions C97_unwritable_fails.

(** C97.  A capture file cannot be opened when its name has a character that is not ASCII. *)
Theorem C97_ascii : forall w, is_ascii w = true <-> forall k c, String.get k w = Some c -> (Ascii.nat_of_ascii c < 128)%nat.
Proof.
  induction w as [|a w IH]; cbn [is_ascii]; [split; [intros _ k c H; destruct k; discriminate|reflexivity]|]. rewrite andb_true_iff, IH, Nat.ltb_lt. split.
  - intros [H1 H2] [|k] c G; cbn [String.get] in G; [injection G as <-; exact H1|eauto].
  - intros H. split; [exact (H O a eq_refl)|]. intros k c G. exact (H (S k) c G).
Qed.
Print Assumptions C97_ascii.
