(** The command line (C101) and the file that gets loaded (C104). *)
From Verif Require Import BaseLemmas CodecLemmas Dict DictLemmas EthAddrModel FwModel FwSpec FwProofs UserModel UserSpec UserProofs UserProps StartModel.

(** ** What the arguments mean *)
(** Arguments for the user's code can be read when every word has at most one '='. *)
Definition codearg_fine (s : text) : Prop := forall ws, spaced s ws -> Forall wellformed ws.
(** A firewall rule can be read when it is all or none, or begins with a protocol. *)
Definition rule_fine (r : text) : Prop :=
  strip r = [97; 108; 108] \/ strip r = [110; 111; 110; 101] \/ exists p s, known_proto p /\ r = p ++ s.
(** A program for the application layer is named. *)
Definition with_app (a : args) : Prop := exists c r, g_app a = Some (c :: r).
Definition with_topology (a : args) : Prop := exists c r, g_topology a = Some (c :: r).
(** The user's code is started. *)
Definition user_code_starts (o : outcome) : Prop := In MUser (steps o).
(** The firewall rules for a run. *)
Inductive rules_meant (a : args) : list text -> Prop :=
| rm_given : g_fwconfig a <> [] -> rules_meant a (g_fwconfig a)
| rm_default : g_fwconfig a = [] -> rules_meant a [[97; 108; 108]].

Lemma wellformed_dec w : {wellformed w} + {~ wellformed w}.
Proof. destruct (in_dec Z.eq_dec 61 w) as [I|N]; [|left; left; exact N].
  assert (X : exists k v, w = k ++ 61 :: v /\ ~ In 61 k).
  { clear -I. induction w as [|c w IH]; [destruct I|]. destruct (Z.eq_dec c 61) as [->|Nc]; [exists [], w; split; [reflexivity|intros []]|].
    destruct I as [I|I]; [congruence|]. destruct (IH I) as (k & v & -> & Nk). exists (c :: k), v. split; [reflexivity|]. intros [E|E]; [congruence|contradiction]. }
  assert (Y : {forall k v, w = k ++ 61 :: v -> ~ In 61 k -> ~ In 61 v} + {exists k v, w = k ++ 61 :: v /\ ~ In 61 k /\ In 61 v}).
  { clear X. induction w as [|c w IH]; [left; intros [|? ?] v E; discriminate|]. destruct (Z.eq_dec c 61) as [->|Nc].
    - destruct (in_dec Z.eq_dec 61 w) as [J|J]; [right; exists [], w; repeat split; [intros []|exact J]|left]. intros k v E Nk. destruct k as [|d k]; [injection E as <-; exact J|]. injection E as <- _. exfalso. apply Nk. left. reflexivity.
    - destruct IH as [J|J]; [destruct I as [I|I]; [congruence|exact I]| |].
      + left. intros k v E Nk. destruct k as [|d k]; [injection E as E _; congruence|]. injection E as <- E. apply (J k v E). intros K. apply Nk. right. exact K.
      + right. destruct J as (k & v & -> & Nk & V). exists (c :: k), v. repeat split; [intros [E|E]; [congruence|contradiction]|exact V]. }
  destruct Y as [Y|Y].
  - left. right. destruct X as (k & v & E & Nk). exists k, v. repeat split; [exact E|exact Nk|exact (Y k v E Nk)].
  - right. intros [P|(k' & v' & E' & Nk' & Nv')]; [contradiction|]. destruct Y as (k & v & E & Nk & V). assert (U : k' = k /\ v' = v).
    { clear -E E' Nk Nk'. subst w. revert k Nk E'. induction k' as [|c k' IH]; intros [|d k] Nk E.
      - injection E as <-. auto. - injection E as E _. exfalso. apply Nk. left. congruence.
      - injection E as E _. exfalso. apply Nk'. left. congruence.
      - injection E as <- E. destruct (IH (fun I => Nk' (or_intror I)) k (fun I => Nk (or_intror I)) E) as [-> ->]. auto. }
    destruct U as [-> ->]. contradiction. Qed.
Lemma parse_fine s : codearg_fine s <-> exists ca, parse_codeargs (Some s) = Ok ca.
Proof. split.
  - intros F. destruct (every_text s) as [ws W]. destruct (parse_ok s ws W (F ws W)) as (kw & E & _). eexists. exact E.
  - intros [ca E] ws' W'. destruct (Forall_dec wellformed wellformed_dec ws') as [Y|N]; [exact Y|]. rewrite (parse_err s ws' W' N) in E. discriminate. Qed.
Lemma parse_bad s : ~ codearg_fine s -> parse_codeargs (Some s) = Err EValue.
Proof. intros N. destruct (every_text s) as [ws W]. destruct (Forall_dec wellformed wellformed_dec ws) as [Y|Nw]; [|exact (parse_err s ws W Nw)].
  destruct (parse_ok s ws W Y) as (kw & E & _). exfalso. apply N, parse_fine. eexists. exact E. Qed.
Lemma rule_fine_iff r : is_ok (test_rule r) = true <-> rule_fine r.
Proof. split.
  - intros H. unfold test_rule in H. unfold rule_fine. destruct (text_eqb (strip r) t_all) eqn:E; [apply text_eqb_spec in E; auto|]. destruct (text_eqb (strip r) t_none) eqn:E2; [apply text_eqb_spec in E2; auto|]. right. right.
    unfold interp_rule in H. destruct (after t_tcp r) eqn:A; [apply after_spec in A; do 2 eexists; split; [|exact A]; left; reflexivity|]. destruct (after t_udp r) eqn:B; [apply after_spec in B; do 2 eexists; split; [|exact B]; right; left; reflexivity|].
    destruct (after t_icmp r) eqn:C; [apply after_spec in C; do 2 eexists; split; [|exact C]; right; right; reflexivity|]. discriminate.
  - unfold test_rule. intros [H|[H|(p & s & K & ->)]].
    + rewrite (proj2 (text_eqb_spec (strip r) t_all) H). reflexivity.
    + destruct (text_eqb (strip r) t_all); [reflexivity|]. rewrite (proj2 (text_eqb_spec (strip r) t_none) H). reflexivity.
    + destruct (strip_proto p s K) as [-> ->]. rewrite (interp_at p s K). reflexivity. Qed.
Lemma truthy_iff o : truthy o = true <-> exists c r, o = Some (c :: r).
Proof. destruct o as [[|c r]|]; cbn; split; try discriminate; try (intros (? & ? & ?); discriminate); eauto. Qed.
Lemma given_iff {A} (l : list A) : given l = true <-> l <> [].
Proof. destruct l; cbn; split; congruence. Qed.
Lemma user_in c : In MUser (main_prog c) <-> f_compile c = false /\ f_dryrun c = false /\ f_fwok c = true /\ (if f_tests c then f_usercode c = true else f_devs c = true).
Proof. unfold main_prog, main_test, main_real. destruct c as [ap co te us de fw ra nh dr]; cbn [f_app f_compile f_tests f_usercode f_devs f_fwok f_raises f_nohandle f_dryrun].
  destruct ap, co, te, us, de, fw, ra, dr; cbn; intuition (try discriminate; try congruence). Qed.

(** C101.  When the user's code is started: it is named, nothing else was asked for (a list of interfaces, the simulator,
    compiling, a dry run), its arguments and the rules for the firewall can be read, and there are scenarios to test with or
    interfaces to use.  (A name given as the empty text counts only when there are no scenarios.) *)
Theorem C101_user_code : forall a e, user_code_starts (swyard a e) <->
  (exists u, g_usercode a = Some u /\ (g_tests a <> [] -> u <> [])) /\ g_listif a = false /\ g_cli a = false /\ g_compile a = [] /\ g_dryrun a = false /\
  codearg_fine (g_codearg a) /\ (with_app a \/ Forall rule_fine (g_fwconfig a)) /\ (g_tests a <> [] \/ e_devs e = true).
Proof.
  intros a e. unfold user_code_starts, swyard, start_framework.
  assert (FW : forallb (fun r => is_ok (test_rule r)) (fw_rules a) = true <-> (with_app a \/ Forall rule_fine (g_fwconfig a))).
  { unfold fw_rules, with_app. destruct (truthy (g_app a)) eqn:A; [apply truthy_iff in A; cbn; tauto|]. assert (NA : ~ exists c r, g_app a = Some (c :: r)) by (rewrite <- truthy_iff; congruence).
    assert (G : forall l, forallb (fun r => is_ok (test_rule r)) l = true <-> Forall rule_fine l). { intros l. rewrite forallb_forall, Forall_forall. split; intros H x I; apply rule_fine_iff, H, I. }
    destruct (given (g_fwconfig a)) eqn:F; [rewrite G; tauto|]. destruct (g_fwconfig a); [|discriminate]. split; [auto|reflexivity]. }
  destruct (g_listif a) eqn:Li; [rewrite andb_false_r; split; [intros []|intros (_ & X & _); discriminate]|]. cbn [negb]. rewrite andb_true_r.
  destruct (g_usercode a) as [u|] eqn:U; cbn [andb].
  2:{ destruct (g_compile a) as [|x l] eqn:Co; cbn [given negb]; [split; [intros []|intros ((? & X & _) & _); discriminate]|].
      split; [|intros ((? & X & _) & _); discriminate]. destruct (parse_codeargs _); [|intros []]. destruct (g_cli a); [destruct (truthy (g_topology a)); intros []|]. cbn [steps]. rewrite user_in.
      unfold cfg_of. rewrite Co. cbn. intros (X & _). discriminate. }
  destruct (parse_codeargs (Some (g_codearg a))) as [ca|x] eqn:P.
  2:{ split; [intros []|]. intros (_ & _ & _ & _ & _ & X & _). apply parse_fine in X. destruct X as [ca X]. congruence. }
  assert (CF : codearg_fine (g_codearg a)) by (apply parse_fine; eauto).
  destruct (g_cli a) eqn:Cl; [split; [destruct (truthy (g_topology a)); intros []|intros (_ & _ & X & _); discriminate]|].
  cbn [steps]. rewrite user_in. unfold cfg_of. cbn [f_compile f_dryrun f_fwok f_tests f_usercode f_devs]. rewrite FW. rewrite U.
  destruct (g_compile a) as [|x l]; cbn [given]; [|split; [intros (X & _); discriminate|intros (_ & _ & _ & X & _); discriminate]].
  split.
  - intros (_ & D & F & T). repeat split; try assumption.
    + exists u. split; [reflexivity|]. destruct (g_tests a); cbn [given] in T; [congruence|]. intros _. destruct u; [discriminate|discriminate].
    + destruct (g_tests a); cbn [given] in T; [right; exact T|left; discriminate].
  - intros ((u' & E & Hu) & _ & _ & _ & D & _ & F & T). injection E as <-. repeat split; try assumption. destruct (g_tests a) eqn:Te; cbn [given]; [destruct T; congruence|]. destruct u; [exfalso; apply Hu; [discriminate|reflexivity]|reflexivity]. Qed.
Print Assumptions C101_user_code.
Definition xargs : args := mkArgs (Some [114]) [97; 61; 49] [] [] false [[116; 99; 112]] None false false None false.
Example C101_user_code_ex : user_code_starts (swyard xargs (mkEnv true false)) /\ ~ user_code_starts (swyard xargs (mkEnv false false)).
Proof. split; vm_compute; [tauto|intuition discriminate]. Qed.

(** C101.  Without an application, the firewall gets the rules given, or the rule to block everything when none are given. *)
Theorem C101_rules_partial : forall a e c rules ca cs, swyard a e = OStart c rules ca cs -> ~ with_app a -> rules_meant a rules.
Proof. intros a e c rules ca cs H N. assert (E : rules = fw_rules a).
  { unfold swyard, start_framework in H. destruct (_ && _); [discriminate|]. destruct (g_listif a); [discriminate|]. destruct (parse_codeargs _); [|discriminate]. destruct (g_cli a); [destruct (truthy _); discriminate|]. injection H as _ <- _ _. reflexivity. }
  subst rules. unfold fw_rules. destruct (truthy (g_app a)) eqn:A; [apply truthy_iff in A; contradiction|]. destruct (given (g_fwconfig a)) eqn:F.
  - apply rm_given. apply given_iff. exact F.
  - apply rm_default. destruct (g_fwconfig a); [reflexivity|discriminate]. Qed.
Print Assumptions C101_rules_partial.
Example C101_rules_ex : exists c ca, swyard xargs (mkEnv true false) = OStart c [[116; 99; 112]] ca [] /\ ~ with_app xargs.
Proof. do 2 eexists. split; [vm_compute; reflexivity|]. intros (c & r & E). discriminate. Qed.
(** Rules given together with an application are dropped. *)
Theorem C101_rules_refuted : exists a e c rules ca cs, swyard a e = OStart c rules ca cs /\ user_code_starts (swyard a e) /\ g_fwconfig a = [[116; 99; 112]] /\ rules = [].
Proof. exists (mkArgs (Some [114]) [] [] [] false [[116; 99; 112]] (Some [115]) false false None false), (mkEnv true false). do 4 eexists. split; [vm_compute; reflexivity|]. split; [vm_compute; tauto|]. split; reflexivity. Qed.
Print Assumptions C101_rules_refuted.
(** C101.  Without rules and without an application, the host sees nothing that arrives on the interfaces used (Linux). *)
Theorem C101_default_blocks_all : forall a e c rules ca cs intfs h f h1 k, swyard a e = OStart c rules ca cs -> ~ with_app a -> g_fwconfig a = [] ->
  linux_init intfs rules h = Ok (f, h1) -> (dropped (linux_block f h1) k <-> In (pk_intf k) intfs).
Proof. intros a e c rules ca cs intfs h f h1 k H N F L. destruct (C101_rules_partial _ _ _ _ _ _ H N) as [G|_]; [contradiction|].
  rewrite (linux_blocks intfs [[97; 108; 108]] [SAll] [] [] h f h1 f (linux_block f h1) k); [|repeat constructor|constructor|exact L|reflexivity].
  split; [tauto|]. intros I. split; [exact I|]. exists SAll. split; [left; reflexivity|exact Logic.I]. Qed.
Print Assumptions C101_default_blocks_all.
(** C101.  Compiling does what it says and runs nothing else, whatever else is given. *)
Theorem C101_compile : forall a e, g_compile a <> [] -> g_listif a = false -> g_cli a = false -> codearg_fine (g_codearg a) ->
  exists c rules ca, swyard a e = OStart c rules ca (g_compile a) /\ ~ user_code_starts (swyard a e) /\ ~ In MFwUp (steps (swyard a e)).
Proof. intros a e C L Cl F. apply parse_fine in F as [ca P]. exists (cfg_of a e), (fw_rules a), ca. assert (E : swyard a e = OStart (cfg_of a e) (fw_rules a) ca (g_compile a)).
  { unfold swyard, start_framework. rewrite (proj2 (given_iff _) C), L, Cl, P. cbn [negb]. rewrite andb_false_r. reflexivity. }
  split; [exact E|]. unfold user_code_starts. rewrite E. cbn [steps]. unfold main_prog, cfg_of. cbn [f_compile f_app]. rewrite (proj2 (given_iff _) C). cbn [orb]. destruct (truthy (g_app a)); cbn; split; intuition discriminate. Qed.
Print Assumptions C101_compile.
Example C101_compile_ex : let a := mkArgs (Some [114]) [] [[116]; [117]] [[118]] false [] None false false None false in
  g_compile a <> [] /\ g_listif a = false /\ g_cli a = false /\ codearg_fine (g_codearg a).
Proof. repeat split; [discriminate|]. apply parse_fine. eexists. reflexivity. Qed.
(** C101.  Arguments for the user's code that cannot be read stop every mode but the list of interfaces, before anything is set up. *)
Theorem C101_bad_codearg : forall a e, ~ codearg_fine (g_codearg a) -> g_listif a = false -> swyard a e = OUsage \/ swyard a e = ORaise EValue.
Proof. intros a e N L. unfold swyard, start_framework. rewrite L, (parse_bad _ N). destruct (_ && _); auto. Qed.
Print Assumptions C101_bad_codearg.
Example C101_bad_codearg_ex : ~ codearg_fine [117; 61; 97; 61; 98].
Proof. rewrite parse_fine. intros [ca E]. discriminate. Qed.
(** C101.  When the simulator starts: it was asked for, without a topology, and together with a name for user code or
    scenarios to compile, neither of which it uses. *)
Theorem C101_simulator : forall a e, swyard a e = OSim <->
  g_cli a = true /\ ~ with_topology a /\ g_listif a = false /\ codearg_fine (g_codearg a) /\ ((exists u, g_usercode a = Some u) \/ g_compile a <> []).
Proof. intros a e. unfold swyard, start_framework. rewrite <- (given_iff (g_compile a)). unfold with_topology. rewrite <- truthy_iff. rewrite parse_fine.
  destruct (g_listif a); [rewrite andb_false_r; intuition congruence|]. cbn [negb]. rewrite andb_true_r.
  destruct (g_usercode a) as [u|]; cbn [andb].
  - destruct (parse_codeargs _) as [ca|x]; [|split; [discriminate|intros (_ & _ & _ & (? & X) & _); discriminate]]. destruct (g_cli a); [|intuition discriminate]. destruct (truthy (g_topology a)); [intuition congruence|].
    split; [intros _|reflexivity]. repeat split; [congruence|eauto|left; eauto].
  - destruct (given (g_compile a)); cbn [negb]; [|split; [discriminate|intros (_ & _ & _ & _ & [(? & X)|X]); discriminate]].
    destruct (parse_codeargs _) as [ca|x]; [|split; [discriminate|intros (_ & _ & _ & (? & X) & _); discriminate]]. destruct (g_cli a); [|intuition discriminate]. destruct (truthy (g_topology a)); [intuition congruence|].
    split; [intros _|reflexivity]. repeat split; [congruence|eauto|right; reflexivity]. Qed.
Print Assumptions C101_simulator.
Example C101_simulator_ex : swyard (mkArgs (Some [114]) [] [] [] false [] None false true None false) (mkEnv true false) = OSim.
Proof. reflexivity. Qed.
(** Asked for alone, the simulator does not start. *)
Theorem C101_simulator_refuted : exists a e, a = mkArgs None [] [] [] false [] None false true None false /\ swyard a e = OUsage.
Proof. do 2 eexists. split; [reflexivity|]. instantiate (1 := mkEnv true false). reflexivity. Qed.
Print Assumptions C101_simulator_refuted.
(** C101.  A topology for the simulator is never loaded: the command ends with a NameError. *)
Theorem C101_topology_fails : forall a e, g_cli a = true -> with_topology a -> g_listif a = false -> codearg_fine (g_codearg a) ->
  swyard a e = OUsage \/ swyard a e = ORaise EName.
Proof. intros a e C T L F. apply parse_fine in F as [ca P]. apply truthy_iff in T. unfold swyard, start_framework. rewrite L, C, P, T. destruct (_ && _); auto. Qed.
Print Assumptions C101_topology_fails.
Example C101_topology_ex : swyard (mkArgs (Some [114]) [] [] [] false [] None false true (Some [116]) false) (mkEnv true false) = ORaise EName.
Proof. reflexivity. Qed.

(** ** C104 *)
(** A file name: a directory, a slash, a name without slash or dot, and .py. *)
Definition in_dir (dir name : text) : text := dir ++ [47] ++ name ++ [46; 112; 121].
Definition plain_name (n : text) : Prop := n <> [] /\ ~ In 47 n /\ ~ In 46 n.
(** No directory that comes before [dir] on the search path, with [dir] added, has a module called [name]. *)
Definition unshadowed (f : fs) (path : list text) (dir name : text) : Prop :=
  exists a b, path ++ [dir] = a ++ dir :: b /\ forall d, In d a -> f d name = None.

Lemma last_slash_app s dir base d b : ~ In 47 s -> last_slash s dir base = (d, b) -> d = dir /\ b = base ++ s.
Proof. revert base. induction s as [|c s IH]; intros base N H; cbn [last_slash] in H; [injection H as <- <-; rewrite app_nil_r; auto|].
  destruct (c =? 47) eqn:E; [apply Z.eqb_eq in E; subst; exfalso; apply N; left; reflexivity|]. apply IH in H; [|intros I; apply N; right; exact I]. destruct H as [-> ->]. rewrite <- app_assoc. auto. Qed.
Lemma last_slash_split s t dir base : ~ In 47 t -> last_slash (s ++ 47 :: t) dir base = (dir ++ base ++ s ++ [47], t).
Proof. revert dir base. induction s as [|c s IH]; intros dir base N; cbn [app last_slash].
  - change (47 =? 47) with true. cbv iota. destruct (last_slash t (dir ++ base ++ [47]) []) as [d b] eqn:E. apply last_slash_app in E; [|exact N]. destruct E as [-> ->]. reflexivity.
  - destruct (c =? 47) eqn:E; rewrite IH by exact N; [apply Z.eqb_eq in E; subst c|]; f_equal; rewrite <- !app_assoc; reflexivity. Qed.
Lemma ends_app suf s : ends_with suf (s ++ suf) = true.
Proof. induction s as [|c s IH]; cbn [app]; [destruct suf; cbn [ends_with]; rewrite bytes_eqb_refl; reflexivity|]. cbn [ends_with]. rewrite IH, orb_true_r. reflexivity. Qed.
Lemma cut_app s : cut_py (s ++ dot_py) = s.
Proof. unfold cut_py. rewrite ends_app, app_length. change (List.length dot_py) with 3%nat. replace (List.length s + 3 - 3)%nat with (List.length s + 0)%nat by lia. rewrite firstn_app_2. cbn. apply app_nil_r. Qed.
Lemma look_skip f a dir b name l : (forall d, In d a -> f d name = None) -> f dir name = Some l -> look f (a ++ dir :: b) name = Some l.
Proof. intros N E. induction a as [|d a IH]; cbn [app look fold_right]; [rewrite E; reflexivity|]. rewrite (N d (or_introl eq_refl)). apply IH. intros x I. apply N. right. exact I. Qed.
Definition new_path (path : list text) (dir : text) : list text := if existsb (bytes_eqb dir) path then path else path ++ [dir].
Lemma text_mem dir l : existsb (bytes_eqb dir) l = true <-> In dir l.
Proof. rewrite existsb_exists. split; [intros (x & I & E); apply bytes_eqb_eq in E; subst; exact I|intros I; exists dir; split; [exact I|apply bytes_eqb_refl]]. Qed.
Lemma unshadowed_look f path dir name l : unshadowed f path dir name -> f dir name = Some l -> look f (new_path path dir) name = Some l.
Proof. intros (a & b & E & N) F. unfold new_path. destruct (existsb (bytes_eqb dir) path) eqn:X.
  - apply text_mem in X. destruct b as [|y b] using rev_ind.
    + apply app_inj_tail in E as [-> _]. exfalso. specialize (N dir X). congruence.
    + clear IHb. rewrite app_comm_cons, app_assoc in E. apply app_inj_tail in E as [-> _]. apply look_skip; assumption.
  - rewrite E. apply look_skip; assumption. Qed.
Lemma import_eq f p dir name names : dir <> [] -> plain_name name ->
  import_or_die f p (in_dir dir name) names =
  (let p1 := mkPy (new_path (py_path p) dir) (py_mods p) in
   match load f p1 name with Err e => (p1, Err e) | Ok l => (mkPy (new_path (py_path p) dir) ((name, l) :: py_mods p), entry names l) end).
Proof. intros Nd (Nn & Ns & Nt). unfold import_or_die, in_dir. change [46; 112; 121] with dot_py. rewrite (app_assoc dir), (app_assoc (dir ++ [47])), cut_app, <- app_assoc. change ([47] ++ name) with (47 :: name). rewrite last_slash_split by exact Ns. cbn [app].
  assert (T : trim_dir (dir ++ [47]) = dir).
  { assert (G : firstn (List.length (dir ++ [47]) - 1) (dir ++ [47]) = dir). { rewrite app_length. cbn [List.length]. replace (List.length dir + 1 - 1)%nat with (List.length dir + 0)%nat by lia. rewrite firstn_app_2. cbn. apply app_nil_r. }
    unfold trim_dir. destruct (bytes_eqb (dir ++ [47]) [47]) eqn:E; [|exact G]. apply bytes_eqb_eq in E. destruct dir as [|x dir]; [contradiction|]. destruct dir; discriminate E. }
  rewrite T. assert (G : given dir = true) by (destruct dir; [contradiction|reflexivity]). rewrite G. cbn [andb]. unfold new_path. destruct (existsb (bytes_eqb dir) (py_path p)); reflexivity. Qed.
Lemma load_fresh f p name l : plain_name name -> mget (py_mods p) name = None -> look f (py_path p) name = Some l -> load f p name = Ok l.
Proof. intros (_ & _ & Nt) M L. unfold load. destruct (zmem 46 name) eqn:Z; [apply zmem_In in Z; contradiction|]. rewrite L, M, app_nil_r. reflexivity. Qed.

(** C104.  A file is loaded by name only.  If no module of that name is loaded yet, and no directory that Python searches
    before has one, the names looked for are looked up in that file. *)
Theorem C104_named_file_partial : forall f p dir name names l, dir <> [] -> plain_name name -> f dir name = Some l ->
  mget (py_mods p) name = None -> unshadowed f (py_path p) dir name -> snd (import_or_die f p (in_dir dir name) names) = entry names l.
Proof. intros f p dir name names l Nd Pn F M U. rewrite import_eq by assumption. cbn zeta. rewrite (load_fresh f _ name l Pn); [reflexivity|exact M|]. cbn [py_path]. apply unshadowed_look; assumption. Qed.
Print Assumptions C104_named_file_partial.
(** C104 is false for every file with a dot in its name (before .py), whatever the directories hold. *)
Theorem C104_dot_fails : forall f p dir name names, dir <> [] -> ~ In 47 name -> In 46 name ->
  snd (import_or_die f p (in_dir dir name) names) = Err EImport.
Proof. intros f p dir name names Nd Ns Dt. unfold import_or_die, in_dir. change [46; 112; 121] with dot_py.
  rewrite (app_assoc dir), (app_assoc (dir ++ [47])), cut_app, <- app_assoc. change ([47] ++ name) with (47 :: name). rewrite last_slash_split by exact Ns.
  cbv zeta beta. unfold load. apply zmem_In in Dt. rewrite Dt. reflexivity. Qed.
Print Assumptions C104_dot_fails.
Example C104_dot_ex : In 46 [114; 46; 50] /\ ~ In 47 [114; 46; 50] /\
  snd (import_or_die (fun _ _ => Some [[109; 97; 105; 110]]) (mkPy [] []) (in_dir [47; 104] [114; 46; 50]) [[109; 97; 105; 110]]) = Err EImport.
Proof. split; [right; left; reflexivity|]. split; [intros [H|[H|[H|[]]]]; discriminate H|reflexivity]. Qed.
(** A whole run: files loaded one after the other. *)
Fixpoint imports (f : fs) (p : py) (files : list (text * text)) (names : list text) : py * list (res (option text)) :=
  match files with
  | [] => (p, [])
  | (d, n) :: r => let '(p1, x) := import_or_die f p (in_dir d n) names in let '(p2, xs) := imports f p1 r names in (p2, x :: xs)
  end.
(** C104.  Files with different names, none of which occurs in another directory that is searched, each give what they define. *)
Theorem C104_several_files_partial : forall files f p names, NoDup (map snd files) ->
  (forall d n, In (d, n) files -> d <> [] /\ plain_name n /\ (exists l, f d n = Some l) /\ mget (py_mods p) n = None /\
     forall d', d' <> d -> (In d' (py_path p) \/ In d' (map fst files)) -> f d' n = None) ->
  Forall2 (fun x r => forall l, f (fst x) (snd x) = Some l -> r = entry names l) files (snd (imports f p files names)).
Proof.
  induction files as [|[d n] files IH]; intros f p names ND H; cbn [imports]; [constructor|].
  destruct (import_or_die f p (in_dir d n) names) as [p1 x] eqn:E. destruct (imports f p1 files names) as [p2 xs] eqn:E2. cbn [snd].
  destruct (H d n (or_introl eq_refl)) as (Nd & Pn & (l & F) & M & S). cbn [map snd] in ND. apply NoDup_cons_iff in ND as [NI ND].
  assert (U : unshadowed f (py_path p) d n).
  { assert (G : forall path, (forall d', d' <> d -> In d' path -> f d' n = None) -> unshadowed f path d n).
    { induction path as [|y path IHp]; intros Hp; [exists [], []; split; [reflexivity|intros ? []]|]. destruct (list_eq_dec Z.eq_dec y d) as [->|Ny]; [exists [], (path ++ [d]); split; [reflexivity|intros ? []]|].
      destruct IHp as (a & b & Ea & Na); [intros d' N I; apply Hp; [exact N|right; exact I]|]. exists (y :: a), b. split; [cbn [app]; rewrite Ea; reflexivity|]. intros d' [<-|I]; [apply Hp; [exact Ny|left; reflexivity]|apply Na, I]. }
    apply G. intros d' N I. apply S; auto. }
  pose proof (C104_named_file_partial f p d n names l Nd Pn F M U) as X. rewrite E in X. cbn [snd] in X. subst x.
  constructor; [cbn [fst snd]; intros l' F'; rewrite F in F'; injection F' as <-; reflexivity|].
  rewrite import_eq in E by assumption. cbn zeta in E. rewrite (load_fresh f _ n l Pn) in E; [|exact M|cbn [py_path]; apply unshadowed_look; assumption]. injection E as <-.
  specialize (IH f (mkPy (new_path (py_path p) d) ((n, l) :: py_mods p)) names ND). rewrite E2 in IH. cbn [snd] in IH. apply IH. intros d2 n2 I2.
  destruct (H d2 n2 (or_intror I2)) as (A & B & C & D & Sx). repeat (split; [assumption|]). split.
  - cbn [py_mods mget]. destruct (bytes_eqb n n2) eqn:Eq; [apply bytes_eqb_eq in Eq; subst n2; exfalso; apply NI; apply (in_map snd _ (d2, n)); exact I2|exact D].
  - intros d' N [I|I]; apply Sx; try exact N; [|right; right; exact I]. cbn [py_path] in I. unfold new_path in I. destruct (existsb (bytes_eqb d) (py_path p)); [auto|]. apply in_app_iff in I as [I|[<-|[]]]; [auto|right; left; reflexivity]. Qed.
Print Assumptions C104_several_files_partial.
Definition dA : text := [47; 97].
Definition dB : text := [47; 98].
Definition lib : text := [47; 108].
Definition nm_test : text := [116; 101; 115; 116].
Definition nm_sc : text := [115; 99].
Definition xfs : fs := fun d n =>
  if bytes_eqb n nm_test then (if bytes_eqb d dA then Some [nm 65] else if bytes_eqb d dB then Some [nm 66] else if bytes_eqb d lib then Some [nm 76] else None)
  else if bytes_eqb n nm_sc then (if bytes_eqb d dA then Some [nm 67] else if bytes_eqb d dB then Some [nm 68] else None) else None.
Definition xfs1 : fs := fun d n => if bytes_eqb d dA && bytes_eqb n nm_test then Some [nm 65] else if bytes_eqb d dB && bytes_eqb n nm_sc then Some [nm 68] else None.
Example C104_several_files_ex : NoDup (map snd [(dA, nm_test); (dB, nm_sc)]) /\ snd (imports xfs1 (mkPy [lib] []) [(dA, nm_test); (dB, nm_sc)] [nm 65; nm 68]) = [Ok (Some (nm 65)); Ok (Some (nm 68))].
Proof. split; [|vm_compute; reflexivity]. repeat constructor; cbn; intuition discriminate. Qed.
(** Two files of the same name in different directories: the first is loaded twice. *)
Theorem C104_same_name_refuted : exists f p n d d' l l', d <> d' /\ f d n = Some l /\ f d' n = Some l' /\ mget (py_mods p) n = None /\ (forall x, In x (py_path p) -> f x n = None) /\
  snd (imports f p [(d, n); (d', n)] [nm 65; nm 66]) = [Ok (Some (nm 65)); Ok (Some (nm 65))] /\ entry [nm 65; nm 66] l' = Ok (Some (nm 66)).
Proof. exists xfs, (mkPy [] []), nm_test, dA, dB, [nm 65], [nm 66]. repeat apply conj; try discriminate; try reflexivity. intros x []. Qed.
Print Assumptions C104_same_name_refuted.
(** A scenario is taken from the directory of the user's code if that has a file of the same name. *)
Theorem C104_other_directory_refuted : exists f p n m d d', d <> d' /\ n <> m /\ py_mods p = [] /\ (forall x y, In x (py_path p) -> f x y = None) /\
  f d' n = Some [nm 68] /\ f d n = Some [nm 67] /\ (exists l, f d m = Some l) /\
  snd (imports f p [(d, m); (d', n)] [nm 65; nm 68; nm 67]) = [Ok (Some (nm 65)); Ok (Some (nm 67))].
Proof. exists xfs, (mkPy [] []), nm_sc, nm_test, dA, dB. repeat apply conj; try discriminate; try reflexivity; [intros x y []|]. eexists. reflexivity. Qed.
Print Assumptions C104_other_directory_refuted.
(** A file whose name Python's own library uses (test.py) is not loaded at all. *)
Theorem C104_library_refuted : exists f p d n l, f d n = Some l /\ py_mods p = [] /\ In (nm 65) l /\ snd (import_or_die f p (in_dir d n) [nm 65]) = Err EImport.
Proof. exists xfs, (mkPy [lib] []), dA, nm_test, [nm 65]. repeat apply conj; try reflexivity. left. reflexivity. Qed.
Print Assumptions C104_library_refuted.
(** Loading a file a second time does not forget what it defined before. *)
Theorem C104_reload_refuted : exists f f' p d n, f' d n = Some [] /\ py_mods p = [] /\ unshadowed f' (py_path p) d n /\
  snd (import_or_die f' (fst (import_or_die f p (in_dir d n) [nm 65])) (in_dir d n) [nm 65]) = Ok (Some (nm 65)).
Proof. exists xfs, (fun d n => if bytes_eqb d dA && bytes_eqb n nm_test then Some [] else None), (mkPy [] []), dA, nm_test. repeat apply conj; try reflexivity. exists [], []. split; [reflexivity|]. intros d []. Qed.
Print Assumptions C104_reload_refuted.
