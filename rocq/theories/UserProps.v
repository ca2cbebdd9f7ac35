(** C53: user code gets the arguments it accepts.  C85: the application runs when the network is ready, and ends it. *)
From Verif Require Import Base BaseLemmas EthAddrModel UserModel UserSpec UserProofs UserStart.

(** ** C53 *)
(** Every text is words and white space; words without '=' become positional arguments in order, words with one '=' set a
    key, the last one wins; nothing else is in the result. *)
Theorem C53_every_text : forall s, exists ws, spaced s ws.
Proof. exact every_text. Qed.
Theorem C53_parse : forall s ws, spaced s ws -> Forall wellformed ws -> exists kw, parse_codeargs (Some s) = Ok (positional ws, kw) /\ NoDup (map fst kw) /\
  forall k v, In (k, v) kw <-> last_set ws k v.
Proof. exact parse_ok. Qed.
Theorem C53_parse_error : forall s ws, spaced s ws -> ~ Forall wellformed ws -> parse_codeargs (Some s) = Err EValue.
Proof. exact parse_err. Qed.
Definition ex_line : text := [32; 97; 32; 107; 61; 49; 9; 98; 32; 107; 61; 50; 32].   (* " a k=1<tab>b k=2 " *)
Example C53_parse_ex : spaced ex_line [[97]; [107; 61; 49]; [98]; [107; 61; 50]] /\ Forall wellformed [[97]; [107; 61; 49]; [98]; [107; 61; 50]] /\
  parse_codeargs (Some ex_line) = Ok ([[97]; [98]], [([107], [50])]).
Proof.
  split; [|split; [|reflexivity]].
  - refine (sp_cons [32] [97] (_ :: _) _ _ _ _ _ (sp_cons [32] [107; 61; 49] (_ :: _) _ _ _ _ _ (sp_cons [9] [98] (_ :: _) _ _ _ _ _ (sp_cons [32] [107; 61; 50] [32] _ _ _ _ _ (sp_nil [32] _)))));
      try discriminate; try (repeat constructor; fail); intros c r E; injection E as <- _; reflexivity.
  - apply Forall_cons; [|apply Forall_cons; [|apply Forall_cons; [|apply Forall_cons; [|apply Forall_nil]]]].
    + left. intros [H|[]]; discriminate.
    + right. exists [107], [49]. split; [reflexivity|]. split; intros [H|[]]; discriminate.
    + left. intros [H|[]]; discriminate.
    + right. exists [107], [50]. split; [reflexivity|]. split; intros [H|[]]; discriminate.
Qed.
(** A value that itself has '=' in it cannot be given ("u=a=b"). *)
Theorem C53_equals_refuted : exists s k v, s = k ++ 61 :: v /\ ~ In 61 k /\ Forall (fun c => space c = false) s /\ parse_codeargs (Some s) = Err EValue.
Proof. exists [117; 61; 97; 61; 98], [117], [97; 61; 98]. split; [reflexivity|]. split; [intros [H|[]]; discriminate|]. split; [repeat constructor|reflexivity]. Qed.

(** If the user's function is entered: its first parameter is the network; with a starred parameter the following
    positional parameters and then the starred one hold exactly the positional arguments in order, and without one no
    parameter holds any of them; with a double-starred parameter every key is there with its value and nothing else. *)
Theorem C53_called : forall sg args kw b, start_usercode sg args kw = Ok b ->
  exists n d ps rest, sg_pos sg = (n, d) :: ps /\ b_named b = (n, VNet) :: rest /\
  (if sg_star sg then firstn (length args) (firstn (length ps) (map snd rest)) ++ b_star b = map VText args
   else b_star b = [] /\ forall k v, In (k, v) rest -> v = VDefault \/ v = VNet \/ (sg_kw sg = true /\ In (k, v) (map (fun x => (fst x, VText (snd x))) kw))) /\
  (if sg_kw sg then (forall k v, In (k, v) kw -> In (k, VText v) (b_named b) \/ In (k, VText v) (b_kw b)) /\
                    (forall k v, In (k, v) (b_kw b) -> In (k, v) (map (fun x => (fst x, VText (snd x))) kw))
   else b_kw b = []).
Proof. exact start_bound. Qed.
(** A function with one positional parameter is always entered when no key is the name of a parameter. *)
Theorem C53_entered : forall n d star ko kwf args kw, Forall (fun p => snd p = true) ko ->
  (kwf = true -> forall k v, In (k, v) kw -> k <> n /\ ~ In k (map fst ko)) ->
  start_usercode (mkSig [(n, d)] star ko kwf) args kw =
    Ok (mkBound ((n, VNet) :: map (fun p => (fst p, VDefault)) ko) (if star then map VText args else []) (if kwf then map (fun x => (fst x, VText (snd x))) kw else [])).
Proof. exact start_ok. Qed.
(** def main(net, x=..., *args, **kw) called with "a b k=1". *)
Definition nm (c : Z) : text := [c].
Example C53_called_ex : start_usercode (mkSig [(nm 110, false); (nm 120, true)] true [] true) [nm 97; nm 98] [(nm 107, nm 49)] =
  Ok (mkBound [(nm 110, VNet); (nm 120, VText (nm 97))] [VText (nm 98)] [(nm 107, VText (nm 49))]).
Proof. reflexivity. Qed.
(** def main(net, x): a positional argument is not given to x, the call fails. *)
Theorem C53_named_refuted : exists sg args, length (sg_pos sg) = S (length args) /\ start_usercode sg args [] = Err EType.
Proof. exists (mkSig [(nm 110, false); (nm 120, false)] false [] false), [nm 97]. split; reflexivity. Qed.
(** def main(net, x=...) does not get "x=1" either: the default stays. *)
Theorem C53_keyword_refuted : exists sg kw b, In (nm 120, nm 49) kw /\ In (nm 120) (map fst (sg_pos sg)) /\ start_usercode sg [] kw = Ok b /\ In (nm 120, VDefault) (b_named b).
Proof. exists (mkSig [(nm 110, false); (nm 120, true)] false [] false), [(nm 120, nm 49)]. eexists. split; [left; reflexivity|]. split; [right; left; reflexivity|]. split; [reflexivity|right; left; reflexivity]. Qed.
(** def main( *args): the network could be taken, but the function is not entered. *)
Theorem C53_star_refuted : exists sg, (exists b, call sg [VNet] [] = Ok b) /\ start_usercode sg [] [] = Err ERuntime.
Proof. exists (mkSig [] true [] false). split; [eexists; reflexivity|reflexivity]. Qed.
(** "net=..." with def main(net, **kw) is a TypeError. *)
Theorem C53_clash_refuted : exists sg kw, sg_kw sg = true /\ start_usercode sg [] kw = Err EType.
Proof. exists (mkSig [(nm 110, false)] false [] true), [(nm 110, nm 49)]. split; reflexivity. Qed.
(** The entry point is the first of the wanted names the module has; ImportError when it has none of them. *)
Theorem C53_entry : forall names ex n, entry names ex = Ok (Some n) <-> exists a b, names = a ++ n :: b /\ In n ex /\ (forall m, In m a -> ~ In m ex).
Proof.
  assert (X : forall n ex, existsb (bytes_eqb n) ex = true <-> In n ex).
  { intros n ex. rewrite existsb_exists. split; [intros (x & H & E); apply bytes_eqb_eq in E; subst; exact H|intros H; exists n; split; [exact H|apply bytes_eqb_eq; reflexivity]]. }
  assert (F : forall names ex n, first_in names ex = Some n <-> exists a b, names = a ++ n :: b /\ In n ex /\ (forall m, In m a -> ~ In m ex)).
  { induction names as [|m names IH]; intros ex n; cbn [first_in]; [split; [discriminate|intros ([|] & b & E & _); discriminate]|].
    destruct (existsb (bytes_eqb m) ex) eqn:E.
    - split; [intros H; injection H as ->; exists [], names; split; [reflexivity|]; split; [apply X; exact E|intros ? []]|].
      intros ([|y a] & b & E1 & E2 & E3); injection E1 as E4 E5; [congruence|]. subst. exfalso. apply (E3 y (or_introl eq_refl)). apply X. exact E.
    - rewrite IH. split; intros (a & b & E1 & E2 & E3).
      + exists (m :: a), b. rewrite E1. split; [reflexivity|]. split; [exact E2|]. intros y [<-|Hy]; [|apply E3; exact Hy]. intros Hy. apply X in Hy. congruence.
      + destruct a as [|y a]; injection E1 as E4 E5; [subst; exfalso; apply X in E2; congruence|]. subst. exists a, b. split; [reflexivity|]. split; [exact E2|]. intros z Hz. apply E3. right. exact Hz. }
  intros names ex n. rewrite <- F. unfold entry. destruct names as [|m names]; [split; discriminate|]. destruct (first_in (m :: names) ex); split; intros H; try discriminate H; injection H as ->; reflexivity.
Qed.
Theorem C53_entry_error : forall names ex, names <> [] -> (entry names ex = Err EImport <-> forall n, In n names -> ~ In n ex).
Proof.
  intros names ex Nn. split.
  - intros E n Hn Hx. unfold entry in E. destruct names as [|m names]; [contradiction|]. destruct (first_in (m :: names) ex) as [x|] eqn:F; [discriminate|].
    clear E Nn. revert F Hn. generalize (m :: names). clear m names. intros l. induction l as [|y l IH]; [intros _ []|]. cbn [first_in]. destruct (existsb (bytes_eqb y) ex) eqn:E; [discriminate|]. intros F [->|Hi]; [|auto].
    assert (existsb (bytes_eqb n) ex = true) by (apply existsb_exists; exists n; split; [exact Hx|apply bytes_eqb_eq; reflexivity]). congruence.
  - intros H. destruct (entry names ex) as [[n|]|e] eqn:E.
    + apply C53_entry in E. destruct E as (a & b & -> & E2 & _). exfalso. apply (H n); [apply in_elt|exact E2].
    + exfalso. unfold entry in E. destruct names; [congruence|]. destruct (first_in _ _); discriminate.
    + unfold entry in E. destruct names; [congruence|]. destruct (first_in _ _); congruence.
Qed.
Example C53_entry_ex : entry [nm 109; nm 115] [nm 97; nm 115] = Ok (Some (nm 115)).
Proof. reflexivity. Qed.

(** ** C85 *)
(** The application's code never starts before the firewall is set up, in any interleaving of the two threads. *)
Theorem C85_after_firewall : forall c l pre post, snd (f_run c (f_new c) l) = pre ++ EvAppRuns :: post -> In EvFwUp pre.
Proof. exact after_firewall. Qed.
(** When the main thread gets to the barrier, no interleaving blocks: once no thread can move both are done, and the
    application has run if everything could be set up; and only so many steps can be taken. *)
Theorem C85_finishes : forall c l s es, f_run c (f_new c) l = (s, es) -> idle c s -> reaches c = true ->
  fm s = [] /\ fa s = (if f_app c then ADone else ANone) /\ (f_app c = true -> prepared c = true -> In EvAppRuns es).
Proof. exact idle_done. Qed.
Theorem C85_bounded : forall c l, (length (snd (f_run c (f_new c) l)) <= 2 * length (main_prog c) + 5)%nat.
Proof. intros c l. pose proof (steps_bound c l). lia. Qed.
Definition ex_cfg (ra : bool) : cfg := mkCfg true false false true true true ra false false.   (* live, with an application *)
Definition ex_sched : list bool := [true; false; true; true; true; false; true; true; false; true; true; true; true].
Example C85_finishes_ex : let r := f_run (ex_cfg false) (f_new (ex_cfg false)) ex_sched in
  idle (ex_cfg false) (fst r) /\ reaches (ex_cfg false) = true /\ prepared (ex_cfg false) = true /\ f_net (fst r) = Some true /\ f_fw (fst r) = false /\
  snd r = [EvNone; EvNone; EvFwUp; EvNone; EvNone; EvAppRuns; EvNone; EvNet; EvShutdown; EvUser; EvShutdown; EvFwDown].
Proof. vm_compute. repeat split. Qed.
(** An application that runs after the network object exists ends it. *)
Theorem C85_shutdown_partial : forall c l pre post, snd (f_run c (f_new c) l) = pre ++ EvAppRuns :: post -> In EvNet pre -> fa (fst (f_run c (f_new c) l)) = ADone -> In EvShutdown post.
Proof. exact shutdown_after. Qed.
Example C85_shutdown_ex : let r := f_run (ex_cfg false) (f_new (ex_cfg false)) [true; false; true; true; true; true; true; false; false] in
  snd r = [EvNone; EvNone; EvFwUp; EvNone; EvNone; EvNone; EvNet] ++ EvAppRuns :: [EvShutdown] /\ fa (fst r) = ADone.
Proof. vm_compute. repeat split. Qed.
(** But an application that ends early is missed: it is done, nobody was told, and the user's code is only about to start. *)
Theorem C85_shutdown_refuted : exists c l s es r, f_run c (f_new c) l = (s, es) /\ fa s = ADone /\ In EvAppRuns es /\ ~ In EvShutdown es /\ fm s = MUser :: r /\ f_net s = Some false.
Proof.
  exists (ex_cfg false), [true; false; true; true; true; false; false; true; true]. eexists. eexists. eexists. split; [vm_compute; reflexivity|].
  split; [reflexivity|]. split; [cbn; tauto|]. split; [|split; reflexivity]. cbn. intuition discriminate.
Qed.
(** With --app, whenever the main thread does not get to the barrier the application thread waits for ever. *)
Theorem C85_waits_forever : forall c l s es, f_run c (f_new c) l = (s, es) -> f_app c = true -> reaches c = false -> fa s <> ADone /\ ~ In EvAppRuns es.
Proof. exact waits_forever. Qed.
(** For example when compiling scenarios, and when the firewall cannot be set up. *)
Theorem C85_hang_refuted : exists c c', f_compile c = true /\ f_fwok c' = false /\ f_compile c' = false /\ f_devs c' = true /\
  (forall l, fa (fst (f_run c (f_new c) l)) <> ADone) /\ (forall l, fa (fst (f_run c' (f_new c') l)) <> ADone).
Proof.
  exists (mkCfg true true false true true true false false false), (mkCfg true false false true true false false false false). split; [reflexivity|]. split; [reflexivity|]. split; [reflexivity|]. split; [reflexivity|].
  split; intros l; match goal with |- fa (fst (f_run ?c _ _)) <> _ => destruct (f_run c (f_new c) l) as [s es] eqn:R; exact (proj1 (waits_forever c l s es R eq_refl eq_refl)) end.
Qed.
(** The firewall is down when the main thread has ended, also when the user's code raised. *)
Theorem C85_firewall_down : forall c l s es, f_run c (f_new c) l = (s, es) -> fm s = [] -> f_fw s = false.
Proof. exact firewall_down. Qed.
(** Live: the network is shut down when the user's code has returned; not when it raised. *)
Theorem C85_closed : forall c l s es, f_run c (f_new c) l = (s, es) -> fm s = [] -> f_compile c = false -> f_tests c = false -> f_devs c = true -> f_fwok c = true ->
  f_raises c = false \/ f_dryrun c = true -> f_net s = Some true.
Proof. exact shut_at_end. Qed.
Theorem C85_raise_refuted : exists c l s es, f_run c (f_new c) l = (s, es) /\ idle c s /\ fm s = [] /\ f_app c = false /\ f_raises c = true /\ f_net s = Some false.
Proof.
  exists (mkCfg false false false true true true true false false), (repeat true 6). eexists. eexists. split; [vm_compute; reflexivity|]. split; [split; reflexivity|]. repeat split; reflexivity.
Qed.

Print Assumptions C53_parse.
Print Assumptions C53_called.
Print Assumptions C53_entry.
Print Assumptions C85_after_firewall.
Print Assumptions C85_finishes.
Print Assumptions C85_waits_forever.

(** C53. Words are separated by ASCII white space as Python has it: tab to carriage return, the four separators, space. *)
Theorem C53_spaces : forall c, space c = true <-> In c [9; 10; 11; 12; 13; 28; 29; 30; 31; 32].
Proof.
  intros c. unfold space. rewrite orb_true_iff, !andb_true_iff, !Z.leb_le. cbn [In]. lia.
Qed.
Print Assumptions C53_spaces.
