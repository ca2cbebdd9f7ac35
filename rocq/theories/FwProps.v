(** Host firewall: properties C44, C45. *)
From Verif Require Import BaseLemmas CodecLemmas Dict DictLemmas EthAddrModel FwModel FwSpec FwProofs.
#[local] Open Scope string_scope.
#[local] Open Scope Z_scope.
#[local] Open Scope list_scope.

(** C44. Rules in the documented syntax are accepted; with the Linux firewall up and further rules added, a packet is dropped
    exactly if it arrives on a given interface and some rule covers it.  Missing: refusal of every other text, which is
    false (refuted theorems below). *)
Theorem C44_linux_blocks_partial : forall intfs rules ss adds as_ h f h1 f' h2 k, Forall2 rule_means rules ss -> Forall2 rule_means adds as_ ->
  linux_init intfs rules h = Ok (f, h1) -> linux_adds f adds (linux_block f h1) = (f', h2) ->
  (dropped h2 k <-> In (pk_intf k) intfs /\ exists s, In s (ss ++ as_) /\ covers s k).
Proof. exact linux_blocks. Qed.
Theorem C44_linux_accepts : forall intfs rules ss h, Forall2 rule_means rules ss -> exists f h', linux_init intfs rules h = Ok (f, h').
Proof. exact linux_accepts. Qed.
(** Rules that are not all or none and do not begin with a protocol name are refused, and then nothing is changed. *)
Theorem C44_refused : forall intfs r f h, strip r <> [97; 108; 108] -> strip r <> [110; 111; 110; 101] -> (forall p s, known_proto p -> r <> p ++ s) ->
  linux_rule intfs r = Err EValue /\ linux_add f r h = ((f, h), Some EValue) /\ test_rule r = Err EValue /\ forall rules1 rules2 h, exists e, linux_init intfs (rules1 ++ r :: rules2) h = Err e.
Proof. exact linux_refuses. Qed.
(** "tcp:http" is accepted and drops all TCP. *)
Definition r_http : text := [116; 99; 112; 58; 104; 116; 116; 112].
Theorem C44_bad_port_refuted : exists r, (forall s, ~ rule_means r s) /\ forall intfs h f h1, linux_init intfs [r] h = Ok (f, h1) -> forall k, dropped (linux_block f h1) k <-> In (pk_intf k) intfs /\ pk_proto k = [116; 99; 112].
Proof. exists r_http. split.
  - intros s M. inversion M as [| |p K E|p K E|p x n W (D1 & D2 & _) L E]; subst; [destruct K as [K|[K|K]]; discriminate|destruct K as [K|[K|K]]; subst p; discriminate|]. destruct W as [->| ->]; [|discriminate]. injection E as E. subst x. specialize (D2 104 (or_introl eq_refl)). lia.
  - intros intfs h f h1 H k. assert (E : forall l, linux_rules l [r_http] = linux_rules l [[116; 99; 112]]) by reflexivity. assert (H2 : linux_init intfs [[116; 99; 112]] h = Ok (f, h1)) by exact H.
    assert (M : Forall2 rule_means [[116; 99; 112]] [SProto [116; 99; 112]]) by (repeat constructor; left; reflexivity). rewrite (linux_blocks intfs _ _ [] [] h f h1 f (linux_block f h1) k M (Forall2_nil _) H2 eq_refl). cbn [app In].
    split; [intros (I & s & [<-|[]] & C); auto|]. intros [I C]. split; [exact I|]. exists (SProto [116; 99; 112]). auto. Qed.
(** "tcp:99999" is accepted and drops nothing. *)
Definition r_big : text := [116; 99; 112; 58; 57; 57; 57; 57; 57].
Theorem C44_big_port_refuted : exists r, (forall s, ~ rule_means r s) /\ forall intfs h, exists f h1, linux_init intfs [r] h = Ok (f, h1) /\ forall k, ~ dropped (linux_block f h1) k.
Proof. exists r_big. split.
  - intros s M. inversion M as [| |p K E|p K E|p x n W (D1 & D2 & D3 & D4) L E]; subst; [destruct K as [K|[K|K]]; discriminate|destruct K as [K|[K|K]]; subst p; discriminate|]. destruct W as [->| ->]; [|discriminate]. injection E as E. subst x. vm_compute in L. congruence.
  - intros intfs h. eexists _, _. split; [reflexivity|]. intros k (r & I & _). revert I. unfold linux_block, l_cmds.
    assert (X : forall l h0, exec_all h0 (map (fun i => CDropP i t_tcp (Some [57; 57; 57; 57; 57])) l) = h0) by (induction l as [|i l IH]; intros h0; [reflexivity|]; cbn [map]; unfold exec_all; cbn [fold_left]; exact (IH h0)).
    rewrite exec_app. change (map _ intfs ++ []) with (map (fun i => CDropP i t_tcp (Some [57; 57; 57; 57; 57])) intfs ++ []). rewrite app_nil_r, X. cbn. tauto. Qed.
(** macOS: a rule without a port drops exactly what it covers; with a port only packets whose source port is the same too;
    none is an error. *)
Theorem C44_mac_partial : forall intfs r s k, rule_means r s -> (s = SAll \/ exists p, s = SProto p) -> exists rs, mac_rule intfs r = Ok rs /\ ((exists x, In x rs /\ pf_drops x k) <-> In (pk_intf k) intfs /\ covers s k).
Proof. intros intfs r s k M C. destruct M as [| |p K|p K|p x n W D L].
  - exists (map PfAll intfs). split; [reflexivity|]. split; [intros (y & I & E); apply in_map_iff in I as (i & <- & I); cbn [pf_drops] in E; subst; cbn; auto|intros [I _]; exists (PfAll (pk_intf k)); split; [apply in_map; exact I|reflexivity]].
  - destruct C as [C|[p C]]; discriminate.
  - exists (map (fun i => PfProto i p None) intfs). split; [unfold mac_rule; destruct (strip_proto p [] K) as [S1 S2]; pose proof (interp_at p [] K) as Ip; rewrite app_nil_r in S1, S2, Ip; rewrite S1, S2, Ip; reflexivity|].
    split; [intros (y & I & E); apply in_map_iff in I as (i & <- & I); cbn [pf_drops] in E; destruct E as [<- <-]; cbn; auto|intros [I E]; exists (PfProto (pk_intf k) p None); split; [apply in_map_iff; eauto|split; [reflexivity|exact E]]].
  - exists (map (fun i => PfProto i p None) intfs). split; [unfold mac_rule; destruct (strip_proto p [58; 42] K) as [-> ->]; rewrite (interp_at p [58; 42] K); reflexivity|].
    split; [intros (y & I & E); apply in_map_iff in I as (i & <- & I); cbn [pf_drops] in E; destruct E as [<- <-]; cbn; auto|intros [I E]; exists (PfProto (pk_intf k) p None); split; [apply in_map_iff; eauto|split; [reflexivity|exact E]]].
  - destruct C as [C|[q C]]; discriminate. Qed.
Definition r_tcp80 : text := [116; 99; 112; 58; 56; 48].
Lemma r_tcp80_means : rule_means r_tcp80 (SPort [116; 99; 112] 80).
Proof. apply (MPort [116; 99; 112] [56; 48] 80); [left; reflexivity| |lia]. repeat split; try discriminate; cbn in *; lia. Qed.
Theorem C44_mac_port_refuted : exists intfs r s k, rule_means r s /\ In (pk_intf k) intfs /\ covers s k /\ exists rs, mac_rule intfs r = Ok rs /\ forall x, In x rs -> ~ pf_drops x k.
Proof. exists ["en0"], r_tcp80, (SPort [116; 99; 112] 80), (mkPkt "en0" [116; 99; 112] 5000 80). split; [exact r_tcp80_means|]. split; [left; reflexivity|]. split; [split; reflexivity|]. eexists. split; [reflexivity|]. intros x [<-|[]] (_ & _ & E & _). vm_compute in E. discriminate. Qed.
Theorem C44_mac_none_refuted : exists intfs r, rule_means r SNone /\ mac_rule intfs r = Err EUnbound.
Proof. exists ["en0"], [110; 111; 110; 101]. split; [constructor|reflexivity]. Qed.
Definition xhost : host := mkHost (mkTables [1; 2] [ROther 9] [4]) (fun i => if str_eqb i "eth0" then Some 0 else if str_eqb i "eth1" then Some 2 else None).
Example C44_case : Forall2 rule_means [r_tcp80; [105; 99; 109; 112; 58; 42]] [SPort [116; 99; 112] 80; SProto [105; 99; 109; 112]] /\
  exists f h1, linux_init ["eth0"; "eth1"] [r_tcp80; [105; 99; 109; 112; 58; 42]] xhost = Ok (f, h1) /\ List.length (tb_raw (h_tb (linux_block f h1))) = 4%nat.
Proof. split; [constructor; [exact r_tcp80_means|]; constructor; [|constructor]; apply (MStar [105; 99; 109; 112]); right; right; reflexivity|]. eexists _, _. split; vm_compute; reflexivity. Qed.

(** C45. Whatever rules are given at the start or added later (well-formed or not), leaving the context puts back the tables
    and the arp_ignore setting of every interface; interfaces are listed once (they come from a set of names). *)
Theorem C45_restored : forall intfs rules adds h f h1 f' h2, NoDup intfs -> linux_init intfs rules h = Ok (f, h1) -> linux_adds f adds (linux_block f h1) = (f', h2) -> same_host (linux_unblock f' h2) h.
Proof. exact linux_restores. Qed.
Theorem C45_duplicate_refuted : exists intfs rules h f h1, linux_init intfs rules h = Ok (f, h1) /\ ~ same_host (linux_unblock f (linux_block f h1)) h.
Proof. exists ["eth0"; "eth0"], [t_all], xhost. eexists _, _. split; [reflexivity|]. intros [_ X]. specialize (X "eth0"). vm_compute in X. discriminate. Qed.
Example C45_case : exists f h1, linux_init ["eth0"; "eth1"; "eth9"] [t_all; r_http] xhost = Ok (f, h1) /\ h_arp h1 "eth1" = Some 8 /\ tb_filter (h_tb (linux_block f h1)) = [] /\ h_arp (linux_unblock f (linux_block f h1)) "eth1" = Some 2 /\ l_intf f = ["eth0"; "eth1"].
Proof. eexists _, _. split; [reflexivity|]. vm_compute. auto. Qed.
Print Assumptions C44_linux_blocks_partial.
Print Assumptions C44_refused.
Print Assumptions C44_bad_port_refuted.
Print Assumptions C44_mac_partial.
Print Assumptions C45_restored.

(** C44.  White space around "all" and "none" makes no difference. *)
Lemma dropsp_white a s : Forall (fun c => In c [9; 10; 11; 12; 13; 28; 29; 30; 31; 32]) a -> dropsp (a ++ s) = dropsp s.
Proof. induction 1 as [|c a H _ IH]; [reflexivity|]. cbn [app dropsp]. assert (E : pyspace c = true) by (unfold pyspace; cbn [In] in H; lia). rewrite E. exact IH. Qed.
Theorem C44_spaces : forall intfs a b r, Forall (fun c => In c [9; 10; 11; 12; 13; 28; 29; 30; 31; 32]) a -> Forall (fun c => In c [9; 10; 11; 12; 13; 28; 29; 30; 31; 32]) b ->
  r = [97; 108; 108] \/ r = [110; 111; 110; 101] -> linux_rule intfs (a ++ r ++ b) = linux_rule intfs r /\ test_rule (a ++ r ++ b) = test_rule r.
Proof.
  intros intfs a b r A B R. assert (S : strip (a ++ r ++ b) = r).
  { unfold strip. rewrite dropsp_white by exact A. assert (E : dropsp (r ++ b) = r ++ b) by (destruct R as [->| ->]; reflexivity). rewrite E, rev_app_distr. rewrite dropsp_white; [destruct R as [->| ->]; reflexivity|]. apply Forall_rev. exact B. }
  assert (S2 : strip r = r) by (destruct R as [->| ->]; reflexivity). unfold linux_rule, test_rule. rewrite S, S2. destruct R as [->| ->]; split; reflexivity.
Qed.
Print Assumptions C44_spaces.
