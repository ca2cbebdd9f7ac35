(** Proofs about the firewall. *)
From Verif Require Import BaseLemmas CodecLemmas Dict DictLemmas EthAddrModel FwModel FwSpec.

Lemma after_spec p : forall s r, after p s = Some r <-> s = p ++ r.
Proof. induction p as [|c p IH]; intros s r; cbn [after app]; [split; congruence|]. destruct s as [|d s]; [split; discriminate|]. destruct (Z.eqb_spec c d) as [->|Hn]; [rewrite IH; split; congruence|split; congruence]. Qed.
Lemma text_eqb_spec a b : text_eqb a b = true <-> a = b.
Proof. apply bytes_eqb_eq. Qed.
Lemma interp_at p s : known_proto p -> interp_rule (p ++ s) = Ok (p, rule_port s).
Proof. intros [->|[->| ->]]; reflexivity. Qed.
Lemma strip_proto p s : known_proto p -> text_eqb (strip (p ++ s)) t_none = false /\ text_eqb (strip (p ++ s)) t_all = false.
Proof. intros K. assert (X : exists c l, p = c :: l /\ (c = 116 \/ c = 117 \/ c = 105)) by (destruct K as [->|[->| ->]]; eexists _, _; (split; [reflexivity|]); auto). destruct X as (c & l & -> & C).
  assert (Y : exists t, strip ((c :: l) ++ s) = c :: t).
  { unfold strip. cbn [app dropsp]. assert (Sp : pyspace c = false) by (destruct C as [->|[->| ->]]; reflexivity). rewrite Sp. cbn [rev].
    assert (G : forall u, exists v, dropsp (u ++ [c]) = v ++ [c]). { induction u as [|x u [v IH]]; cbn [app dropsp]; [rewrite Sp; exists []; reflexivity|]. destruct (pyspace x); [exists v; exact IH|exists (x :: u); reflexivity]. }
    destruct (G (rev (l ++ s))) as [v V]. rewrite V, rev_app_distr. exists (rev v). reflexivity. }
  destruct Y as (t & ->). unfold text_eqb. split; apply not_true_is_false; rewrite bytes_eqb_eq; unfold t_none, t_all; intros [= E _]; destruct C as [C|[C|C]]; lia. Qed.
Lemma digits_all s : (forall c, In c s -> 48 <= c <= 57) -> digits s = s /\ forallb isdigit s = true.
Proof. induction s as [|c s IH]; intros H; cbn [digits forallb]; [auto|]. assert (D : isdigit c = true) by (unfold isdigit; specialize (H c (or_introl eq_refl)); lia). rewrite D. destruct (IH (fun x I => H x (or_intror I))) as [-> ->]. auto. Qed.
(** Commands of one rule, on any host. *)
Definition effect (intfs : list str) (s : sel) : list rawrule :=
  match s with
  | SAll => map (fun i => RDrop i None None) intfs
  | SNone => []
  | SProto p => map (fun i => RDrop i (Some p) None) intfs
  | SPort p n => map (fun i => RDrop i (Some p) (Some n)) intfs
  end.
Lemma exec_app h a b : exec_all h (a ++ b) = exec_all (exec_all h a) b.
Proof. apply fold_left_app. Qed.
Definition plus_raw (h : host) (l : list rawrule) : host := mkHost (mkTables (tb_filter (h_tb h)) (tb_raw (h_tb h) ++ l) (tb_other (h_tb h))) (h_arp h).
Lemma plus_nil h : plus_raw h [] = h.
Proof. unfold plus_raw. rewrite app_nil_r. destruct h as [[] ?]; reflexivity. Qed.
Lemma plus_plus h a b : plus_raw (plus_raw h a) b = plus_raw h (a ++ b).
Proof. unfold plus_raw. cbn [h_tb h_arp tb_filter tb_raw tb_other]. rewrite app_assoc. reflexivity. Qed.
Lemma exec_map (f : str -> cmd) (g : str -> rawrule) l : (forall h i, exec h (f i) = plus_raw h [g i]) -> forall h, exec_all h (map f l) = plus_raw h (map g l).
Proof. intros E. induction l as [|i l IH]; intros h; cbn [map]; [symmetry; apply plus_nil|]. change (exec_all h (f i :: map f l)) with (exec_all (exec h (f i)) (map f l)). rewrite E, IH, plus_plus. reflexivity. Qed.
Lemma rule_effect r s intfs : rule_means r s -> exists cs, linux_rule intfs r = Ok cs /\ forall h, exec_all h cs = plus_raw h (effect intfs s).
Proof. intros M. destruct M as [| |p K|p K|p ds n W D L].
  - exists (map CDrop intfs). split; [reflexivity|]. apply exec_map. intros h i. reflexivity.
  - exists []. split; [reflexivity|]. intros h. symmetry. apply plus_nil.
  - exists (map (fun i => CDropP i p None) intfs). split; [|apply exec_map; intros h i; reflexivity]. unfold linux_rule. destruct (strip_proto p [] K) as [S1 S2]. pose proof (interp_at p [] K) as Ip. rewrite app_nil_r in S1, S2, Ip. rewrite S1, S2, Ip. reflexivity.
  - exists (map (fun i => CDropP i p None) intfs). split; [|apply exec_map; intros h i; reflexivity]. unfold linux_rule. destruct (strip_proto p [58; 42] K) as [-> ->]. rewrite (interp_at p [58; 42] K). reflexivity.
  - destruct D as (D1 & D2 & D3 & D4). destruct (digits_all ds D2) as [E1 E2]. assert (K : known_proto p) by (destruct W; unfold known_proto; auto).
    exists (map (fun i => CDropP i p (Some ds)) intfs). split.
    + unfold linux_rule. destruct (strip_proto p (58 :: ds) K) as [-> ->]. rewrite (interp_at p (58 :: ds) K). cbn [bindr rule_port]. change (58 =? 58) with true. cbn iota. rewrite E1. destruct ds; [congruence|reflexivity].
    + apply exec_map. intros h i. cbn [exec]. assert (Dp : dport p ds = Some n).
      { unfold dport. assert (T : (text_eqb p t_tcp || text_eqb p t_udp)%bool = true) by (destruct W as [->| ->]; reflexivity). assert (P : plain10 ds = true). { unfold plain10. rewrite E2. destruct ds as [|c [|c2 ds]]; [congruence|reflexivity|]. cbn [hd List.length] in D3. cbn [andb]. destruct (Z.eqb_spec c 48) as [->|]; [specialize (D3 eq_refl); discriminate|reflexivity]. }
        rewrite T, P. cbn [andb]. unfold value10. rewrite <- D4. destruct (Z.leb_spec n 65535); [reflexivity|lia]. }
      rewrite Dp. reflexivity. Qed.
Lemma rules_effect rs ss intfs : Forall2 rule_means rs ss -> exists cs, linux_rules intfs rs = Ok cs /\ forall h, exec_all h cs = plus_raw h (flat_map (effect intfs) ss).
Proof. induction 1 as [|r s rs ss M _ (cs & E & X)]; cbn [linux_rules flat_map]; [exists []; split; [reflexivity|intros h; symmetry; apply plus_nil]|].
  destruct (rule_effect r s intfs M) as (c1 & E1 & X1). rewrite E1, E. cbn [bindr]. exists (c1 ++ cs). split; [reflexivity|]. intros h. rewrite exec_app, X1, X, plus_plus. reflexivity. Qed.
Lemma effect_drops intfs s k : (exists r, In r (effect intfs s) /\ raw_drops r k) <-> In (pk_intf k) intfs /\ covers s k.
Proof. destruct s; cbn [effect covers].
  - split; [intros (r & I & D); apply in_map_iff in I as (i & <- & I); cbn [raw_drops] in D; destruct D as [-> _]; auto|intros [I _]; exists (RDrop (pk_intf k) None None); split; [apply in_map_iff; eauto|cbn [raw_drops]; auto]].
  - split; [intros (r & [] & _)|tauto].
  - split; [intros (r & I & D); apply in_map_iff in I as (i & <- & I); cbn [raw_drops] in D; destruct D as (-> & -> & _); auto|intros [I E]; exists (RDrop (pk_intf k) (Some p) None); split; [apply in_map_iff; eauto|cbn [raw_drops]; auto]].
  - split; [intros (r & I & D); apply in_map_iff in I as (i & <- & I); cbn [raw_drops] in D; destruct D as (-> & -> & ->); auto|intros [I [E1 E2]]; exists (RDrop (pk_intf k) (Some p) (Some n)); split; [apply in_map_iff; eauto|cbn [raw_drops]; auto]]. Qed.
Lemma effects_drop intfs ss k : (exists r, In r (flat_map (effect intfs) ss) /\ raw_drops r k) <-> In (pk_intf k) intfs /\ exists s, In s ss /\ covers s k.
Proof. split.
  - intros (r & I & D). apply in_flat_map in I as (s & Is & Ir). destruct (proj1 (effect_drops intfs s k)) as [A B]; eauto.
  - intros (I & s & Is & C). destruct (proj2 (effect_drops intfs s k) (conj I C)) as (r & Ir & D). exists r. split; [apply in_flat_map; eauto|exact D]. Qed.
Lemma add_effect f rs : forall ss h, Forall2 rule_means rs ss -> exists f', linux_adds f rs h = (f', plus_raw h (flat_map (effect (l_intf f)) ss)) /\ l_intf f' = l_intf f /\ l_saved f' = l_saved f /\ l_arp f' = l_arp f.
Proof. revert f. induction rs as [|r rs IH]; intros f ss h F; inversion F as [|? s ? ss' M F']; subst; cbn [linux_adds flat_map]; [exists f; rewrite plus_nil; auto|].
  unfold linux_add. destruct (rule_effect r s (l_intf f) M) as (cs & E & X). rewrite E, X. destruct (IH (mkLinux (l_intf f) (l_saved f) (l_arp f) (l_cmds f ++ cs)) ss' (plus_raw h (effect (l_intf f) s)) F') as (f' & A & B & C & D). cbn [l_intf l_saved l_arp] in *.
  exists f'. rewrite A, plus_plus. auto. Qed.
Lemma sremove_In x l i : In i (sremove x l) -> In i l.
Proof. induction l as [|y l IH]; cbn [sremove]; [tauto|]. destruct (str_eqb x y); cbn [In]; tauto. Qed.
Lemma arp_setup_tb l : forall s b h, h_tb (snd (arp_setup l s b h)) = h_tb h.
Proof. induction l as [|i l IH]; intros s b h; cbn [arp_setup snd]; [reflexivity|]. destruct (h_arp h i); rewrite IH; reflexivity. Qed.
Lemma fold_sremove_In bad : forall l i, In i (fold_left (fun l b => sremove b l) bad l) -> In i l.
Proof. induction bad as [|b bad IH]; intros l i H; cbn [fold_left] in H; [exact H|]. apply IH in H. eapply sremove_In. exact H. Qed.
Lemma init_tables intfs rules h f h' : linux_init intfs rules h = Ok (f, h') -> h_tb h' = h_tb h /\ l_saved f = h_tb h /\ (forall i, In i (l_intf f) -> In i intfs) /\ (l_intf f = intfs \/ In [97; 108; 108] rules) /\ exists cs, linux_rules intfs rules = Ok cs /\ l_cmds f = [CFlush; CFlushRaw] ++ cs.
Proof. unfold linux_init. intros H. destruct (linux_rules intfs rules) as [cs|] eqn:E; [|discriminate]. cbn [bindr] in H. destruct (existsb _ rules) eqn:A.
  - destruct (arp_setup intfs [] [] h) as [[s b] h2] eqn:P. apply ok_inj in H. injection H as <- <-. cbn [l_saved l_intf l_cmds]. split; [change h2 with (snd (s, b, h2)); rewrite <- P; apply arp_setup_tb|]. split; [reflexivity|]. split; [apply fold_sremove_In|]. split; [right|eauto].
    apply existsb_exists in A as (r & I & E2). apply text_eqb_spec in E2. subst r. exact I.
  - apply ok_inj in H. injection H as <- <-. cbn [l_saved l_intf l_cmds]. eauto 10. Qed.
Theorem linux_blocks intfs rules ss adds as_ h f h1 f' h2 k : Forall2 rule_means rules ss -> Forall2 rule_means adds as_ -> linux_init intfs rules h = Ok (f, h1) -> linux_adds f adds (linux_block f h1) = (f', h2) ->
  (dropped h2 k <-> In (pk_intf k) intfs /\ exists s, In s (ss ++ as_) /\ covers s k).
Proof. intros F Fa H A. destruct (init_tables _ _ _ _ _ H) as (T & _ & Sub & Or & cs & C1 & C2). destruct (rules_effect rules ss intfs F) as (cs' & E & X). rewrite C1 in E. apply ok_inj in E. subst cs'.
  assert (B : tb_raw (h_tb (linux_block f h1)) = flat_map (effect intfs) ss). { unfold linux_block. rewrite C2, exec_app, X. reflexivity. }
  destruct (add_effect f adds as_ (linux_block f h1) Fa) as (f2 & A2 & _). rewrite A in A2. injection A2 as -> ->. unfold dropped, plus_raw. cbn [h_tb tb_raw]. rewrite B. split.
  - intros (r & I & D). apply in_app_iff in I as [I|I].
    + destruct (proj1 (effects_drop intfs ss k)) as (P & s & Q & R); [eauto|]. split; [exact P|]. exists s. split; [apply in_app_iff; auto|exact R].
    + destruct (proj1 (effects_drop (l_intf f) as_ k)) as (P & s & Q & R); [eauto|]. split; [auto|]. exists s. split; [apply in_app_iff; auto|exact R].
  - intros (I & s & Is & C). assert (G : In s ss \/ (In s as_ /\ l_intf f = intfs) \/ In SAll ss).
    { apply in_app_iff in Is as [Is|Is]; [auto|]. destruct Or as [->|Or]; [auto|]. right. right. clear -F Or. induction F as [|r s rs ss M F IH]; [contradiction|]. destruct Or as [->|Or]; [|right; auto]. left.
      inversion M as [E|E|p K E|p K E|p x n W D L E]; subst; try reflexivity; exfalso; [destruct K as [K|[K|K]]; discriminate|destruct K as [K|[K|K]]; subst p; discriminate|destruct W as [K|K]; subst p; discriminate]. }
    destruct G as [G|[[G E]|G]].
    + destruct (proj2 (effects_drop intfs ss k)) as (r & R & D); [eauto|]. exists r. split; [apply in_app_iff; auto|exact D].
    + destruct (proj2 (effects_drop intfs as_ k)) as (r & R & D); [eauto|]. exists r. rewrite E. split; [apply in_app_iff; auto|exact D].
    + destruct (proj2 (effects_drop intfs ss k)) as (r & R & D); [split; [exact I|exists SAll; split; [exact G|exact Logic.I]]|]. exists r. split; [apply in_app_iff; auto|exact D]. Qed.
Theorem linux_accepts intfs rules ss h : Forall2 rule_means rules ss -> exists f h', linux_init intfs rules h = Ok (f, h').
Proof. intros F. destruct (rules_effect rules ss intfs F) as (cs & E & _). unfold linux_init. rewrite E. cbn [bindr]. destruct (existsb _ rules); [destruct (arp_setup intfs [] [] h) as [[s b] h2]|]; eauto. Qed.
Lemma interp_refuses r : (forall p s, known_proto p -> r <> p ++ s) -> interp_rule r = Err EValue.
Proof. intros N. unfold interp_rule. assert (K1 : known_proto t_tcp) by (left; reflexivity). assert (K2 : known_proto t_udp) by (right; left; reflexivity). assert (K3 : known_proto t_icmp) by (right; right; reflexivity).
  destruct (after t_tcp r) eqn:E; [apply after_spec in E; exfalso; exact (N _ _ K1 E)|]. clear E. destruct (after t_udp r) eqn:E; [apply after_spec in E; exfalso; exact (N _ _ K2 E)|]. clear E. destruct (after t_icmp r) eqn:E; [apply after_spec in E; exfalso; exact (N _ _ K3 E)|]. reflexivity. Qed.
Theorem linux_refuses intfs r f h : strip r <> [97; 108; 108] -> strip r <> [110; 111; 110; 101] -> (forall p s, known_proto p -> r <> p ++ s) ->
  linux_rule intfs r = Err EValue /\ linux_add f r h = ((f, h), Some EValue) /\ test_rule r = Err EValue /\ forall rules1 rules2 h, exists e, linux_init intfs (rules1 ++ r :: rules2) h = Err e.
Proof. intros N1 N2 N. assert (A : forall i, linux_rule i r = Err EValue).
  { intros i. unfold linux_rule. destruct (text_eqb (strip r) t_none) eqn:E; [apply text_eqb_spec in E; contradiction|]. destruct (text_eqb (strip r) t_all) eqn:E2; [apply text_eqb_spec in E2; contradiction|]. rewrite (interp_refuses r N). reflexivity. }
  split; [apply A|]. split; [unfold linux_add; rewrite A; reflexivity|]. split.
  - unfold test_rule. destruct (text_eqb (strip r) t_all) eqn:E2; [apply text_eqb_spec in E2; contradiction|]. destruct (text_eqb (strip r) t_none) eqn:E; [apply text_eqb_spec in E; contradiction|]. apply interp_refuses. exact N.
  - intros rules1 rules2 h0. assert (G : exists e, linux_rules intfs (rules1 ++ r :: rules2) = Err e). { induction rules1 as [|x rules1 [e IH]]; cbn [app linux_rules]; [rewrite A; eexists; reflexivity|]. destruct (linux_rule intfs x); [rewrite IH|]; eexists; reflexivity. }
    destruct G as [e G]. exists e. unfold linux_init. rewrite G. reflexivity. Qed.

(** ** Restoring *)
Lemma arp_setup_spec l : NoDup l -> forall s b h s' b' h', arp_setup l s b h = (s', b', h') ->
  (forall i, dget i s' = if in_dec string_dec i l then (match h_arp h i with Some v => Some v | None => dget i s end) else dget i s) /\
  (forall i, h_arp h' i = if in_dec string_dec i l then (match h_arp h i with Some _ => Some 8 | None => None end) else h_arp h i) /\
  (forall i, In i b' <-> In i b \/ (In i l /\ h_arp h i = None)).
Proof. induction 1 as [|x l Hx N IH]; intros s b h s' b' h' H; cbn [arp_setup] in H.
  - injection H as <- <- <-. split; [reflexivity|]. split; [reflexivity|]. intros i. cbn [In]. tauto.
  - destruct (h_arp h x) as [v|] eqn:E.
    + destruct (IH _ _ _ _ _ _ H) as (A & B & C). cbn [set_arp h_arp] in *. split; [|split].
      * intros i. rewrite A. destruct (in_dec string_dec i (x :: l)) as [I|I]; destruct (in_dec string_dec i l) as [J|J]; cbn [In] in I; try tauto.
        -- destruct (str_spec x i) as [->|]; [contradiction|]. destruct (h_arp h i) eqn:E2; [reflexivity|]. apply dget_dset_other; auto.
        -- destruct I as [->|I]; [|contradiction]. rewrite E. apply dget_dset_same.
        -- apply dget_dset_other. intros ->. tauto.
      * intros i. rewrite B. destruct (in_dec string_dec i (x :: l)) as [I|I]; destruct (in_dec string_dec i l) as [J|J]; cbn [In] in I; try tauto; destruct (str_spec x i) as [->|D]; try tauto; try reflexivity.
        rewrite E. reflexivity.
      * intros i. rewrite C. cbn [In]. destruct (str_spec x i) as [->|D]; [rewrite E; split; [intros [?|[? ?]]; [auto|discriminate]|intros [?|[_ ?]]; [auto|discriminate]]|]. split; [tauto|intros [?|[[?|?] ?]]; [auto|contradiction|auto]].
    + destruct (IH _ _ _ _ _ _ H) as (A & B & C). split; [|split].
      * intros i. rewrite A. destruct (in_dec string_dec i (x :: l)) as [I|I]; destruct (in_dec string_dec i l) as [J|J]; cbn [In] in I; try tauto. destruct I as [->|I]; [rewrite E; reflexivity|contradiction].
      * intros i. rewrite B. destruct (in_dec string_dec i (x :: l)) as [I|I]; destruct (in_dec string_dec i l) as [J|J]; cbn [In] in I; try tauto. destruct I as [->|I]; [rewrite E; reflexivity|contradiction].
      * intros i. rewrite C, in_app_iff. cbn [In]. split; [intros [[?|[->|[]]]|[? ?]]; auto|intros [?|[[->|?] ?]]; auto]. Qed.
Lemma sremove_keeps x l i : In i l -> i <> x -> In i (sremove x l).
Proof. induction l as [|y l IH]; cbn [sremove In]; [tauto|]. intros [->|I] N. - destruct (str_spec x i) as [->|]; [congruence|left; reflexivity]. - destruct (str_eqb x y); [exact I|right; auto]. Qed.
Lemma fold_sremove_keeps bad : forall l i, In i l -> ~ In i bad -> In i (fold_left (fun l b => sremove b l) bad l).
Proof. induction bad as [|b bad IH]; intros l i H N; cbn [fold_left]; [exact H|]. cbn [In] in N. apply IH; [apply sremove_keeps; auto|tauto]. Qed.
Lemma exec_arp h c : h_arp (exec h c) = h_arp h.
Proof. destruct c as [| | |i p [pt|]]; try reflexivity. cbn [exec]. destruct (dport p pt); reflexivity. Qed.
Lemma exec_all_arp cs : forall h, h_arp (exec_all h cs) = h_arp h.
Proof. induction cs as [|c cs IH]; intros h; [reflexivity|]. change (exec_all h (c :: cs)) with (exec_all (exec h c) cs). rewrite IH. apply exec_arp. Qed.
Lemma adds_keep rules : forall f h f' h', linux_adds f rules h = (f', h') -> l_intf f' = l_intf f /\ l_saved f' = l_saved f /\ l_arp f' = l_arp f /\ h_arp h' = h_arp h.
Proof. induction rules as [|r rules IH]; intros f h f' h' H; cbn [linux_adds] in H; [injection H as <- <-; auto|]. unfold linux_add in H. destruct (linux_rule (l_intf f) r) as [cs|]; [|apply IH; exact H]. apply IH in H. cbn [l_intf l_saved l_arp] in H. rewrite exec_all_arp in H. exact H. Qed.
Lemma restore_arp (a : dict Z) l : forall h i, h_arp (fold_left (fun h i => match dget i a with Some v => set_arp i v h | None => h end) l h) i =
  match (if in_dec string_dec i l then dget i a else None) with Some v => Some v | None => h_arp h i end.
Proof. induction l as [|x l IH]; intros h i; cbn [fold_left]; [reflexivity|]. rewrite IH. destruct (in_dec string_dec i l) as [J|J], (in_dec string_dec i (x :: l)) as [I|I]; cbn [In] in I; try tauto.
  - destruct (dget i a) eqn:E; [reflexivity|]. destruct (dget x a) eqn:E2; [|reflexivity]. cbn [set_arp h_arp]. destruct (str_spec x i) as [->|]; [congruence|reflexivity].
  - destruct I as [->|I]; [|contradiction]. destruct (dget i a) eqn:E; [|reflexivity]. cbn [set_arp h_arp]. destruct (str_spec i i); [reflexivity|congruence].
  - destruct (dget x a) eqn:E2; [|reflexivity]. cbn [set_arp h_arp]. destruct (str_spec x i) as [->|]; [tauto|reflexivity]. Qed.
Lemma restore_tb (a : dict Z) l : forall h, h_tb (fold_left (fun h i => match dget i a with Some v => set_arp i v h | None => h end) l h) = h_tb h.
Proof. induction l as [|x l IH]; intros h; cbn [fold_left]; [reflexivity|]. rewrite IH. destruct (dget x a); reflexivity. Qed.
Theorem linux_restores intfs rules adds h f h1 f' h2 : NoDup intfs -> linux_init intfs rules h = Ok (f, h1) -> linux_adds f adds (linux_block f h1) = (f', h2) -> same_host (linux_unblock f' h2) h.
Proof. intros N H A. destruct (adds_keep _ _ _ _ _ A) as (A1 & A2 & A3 & A4). destruct (init_tables _ _ _ _ _ H) as (_ & S & _). unfold linux_unblock. split.
  - rewrite restore_tb. cbn [h_tb]. congruence.
  - intros i. rewrite restore_arp. cbn [h_arp]. rewrite exec_all_arp, A4. unfold linux_block. rewrite exec_all_arp, A1, A3. unfold linux_init in H. destruct (linux_rules intfs rules) as [cs|]; [|discriminate]. cbn [bindr] in H. destruct (existsb _ rules).
    + destruct (arp_setup intfs [] [] h) as [[s b] h3] eqn:P. apply ok_inj in H. injection H as <- <-. cbn [l_intf l_arp]. destruct (arp_setup_spec intfs N _ _ _ _ _ _ P) as (B1 & B2 & B3). rewrite B1, B2. cbn [dget].
      destruct (in_dec string_dec i intfs) as [I|I].
      * destruct (h_arp h i) as [v|] eqn:E; [|destruct (in_dec string_dec i _); reflexivity]. destruct (in_dec string_dec i _) as [J|J]; [reflexivity|]. exfalso. apply J. apply fold_sremove_keeps; [exact I|]. rewrite B3. intros [[]|[_ X]]. congruence.
      * destruct (in_dec string_dec i _); reflexivity.
    + apply ok_inj in H. injection H as <- <-. cbn [l_intf l_arp dget]. destruct (in_dec string_dec i intfs); reflexivity. Qed.
