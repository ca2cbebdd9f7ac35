(** Lines that do not end the command line. *)
From Coq Require Import Ascii.
From Verif Require Import BaseLemmas DictLemmas TopoModel TopoNames TopoSpec TopoProofs TopoInv TopoMore TopoAddr CliModel CliSpec CliProofs CliNet.
#[local] Open Scope string_scope.
#[local] Open Scope list_scope.
#[local] Open Scope Z_scope.

Definition full (d : dict attr) : Prop := (exists c, dget "capacity" d = Some (ACap c)) /\ (exists l, dget "delay" d = Some (ADelay l)) /\ din "label" d = true.
Definition sound (es : list edge) : Prop := forall e, In e es -> full (snd e).
Lemma complete_sound b t : Inv b t -> complete t -> sound (tp_edges t).
Proof.
  intros I C e He. destruct e as [[u v] d] eqn:E. subst e. apply (C u v d). unfold get_link.
  rewrite (find_sep (tp_edges t) u v (u, v, d) (inv_sep b t I) He); [reflexivity|]. apply joins_iff. auto.
Qed.
Lemma has_get u v t : has_link u v t = true -> exists d, get_link u v t = Ok d.
Proof. intros H. unfold get_link. unfold has_link in H. destruct (find (joins u v) (tp_edges t)) as [e|] eqn:F; [eauto|]. exfalso. apply existsb_exists in H as (e & He & J). rewrite (find_none _ _ F e He) in J. discriminate. Qed.

(** ** The network can be built *)
Lemma plug_ok n dev w x : In n (dkeys x) -> exists x', plug n dev w x = Ok x' /\ dkeys x' = dkeys x.
Proof.
  intros H. apply din_iff in H. unfold din in H. unfold plug, item_dict. destruct (dget n x) as [d|] eqn:G; [|discriminate]. cbn [bindr]. eexists. split; [reflexivity|].
  apply dkeys_dset_in. apply dget_In in G. apply (in_map fst) in G. exact G.
Qed.
Lemma item_of {V} k (d : dict V) : din k d = true -> exists v, item_dict k d = Ok v.
Proof. unfold din, item_dict. destruct (dget k d); [eauto|discriminate]. Qed.
Lemma wire_up_total b t x u v : Inv b t -> sound (tp_edges t) -> dkeys x = nodes t -> has_link u v t = true -> exists x', wire_up t x (u, v) = Ok x' /\ dkeys x' = nodes t.
Proof.
  intros I S K H. destruct (has_get u v t H) as [d G]. destruct (link_end b t u v d u I G (or_introl eq_refl)) as (un & i & U1 & U2 & U3 & _).
  destruct (link_end b t u v d v I G (or_intror eq_refl)) as (vn & j & V1 & V2 & V3 & _). pose proof G as G0. apply get_link_in in G0 as (e & He & _ & Ed).
  destruct (S e He) as ((c & C) & (l & D) & _). rewrite Ed in C, D.
  unfold wire_up. rewrite G. cbn [bindr]. unfold item_dict at 1. rewrite U1. cbn [bindr]. unfold item_dict at 1. rewrite V1. cbn [bindr].
  unfold item_name. rewrite U2, V2. cbn [bindr]. unfold item_cap, item_delay. rewrite C, D. cbn [bindr]. destruct (item_of _ _ U3) as [? ->]. cbn [bindr].
  destruct (plug_ok u (eth_name i) (mkWire v (eth_name j) c l) x) as (x1 & -> & K1). { rewrite K. apply dget_nodes in U1. exact U1. } cbn [bindr].
  destruct (item_of _ _ V3) as [? ->]. cbn [bindr]. destruct (plug_ok v (eth_name j) (mkWire u (eth_name i) c l) x1) as (y & -> & K2). { rewrite K1, K. apply dget_nodes in V1. exact V1. }
  exists y. split; [reflexivity|congruence].
Qed.
Lemma wire_all_total b t ls : Inv b t -> sound (tp_edges t) -> (forall u v, In (u, v) ls -> has_link u v t = true) -> forall x, dkeys x = nodes t ->
  exists x', wire_all t ls x = Ok x' /\ dkeys x' = nodes t.
Proof.
  intros I S. induction ls as [|[u v] r IH]; intros H x K; cbn [wire_all]; [eauto|].
  destruct (wire_up_total b t x u v I S K (H u v (or_introl eq_refl))) as (x1 & -> & K1). cbn [bindr]. apply IH; [|exact K1]. intros a c Hac. apply H. right. exact Hac.
Qed.
Lemma net_total b t : Inv b t -> sound (tp_edges t) -> exists x, net_of t = Ok x /\ dkeys x = nodes t.
Proof.
  intros I S. unfold net_of. apply (wire_all_total b t (links t) I S).
  - intros u v H. apply (links_iff b t u v I). auto.
  - unfold dkeys. rewrite map_map. cbn [fst]. apply map_id.
Qed.

(** ** What the commands do to link records *)
Lemma full_set k x d : (k = "capacity" -> exists c, x = ACap c) -> (k = "delay" -> exists c, x = ADelay c) -> full d -> full (dset k x d).
Proof.
  intros HC HD ((c & C) & (l & D) & L). split; [|split].
  - destruct (str_spec "capacity" k) as [<-|N]; [rewrite dget_dset_same; destruct (HC eq_refl) as [c' ->]; eauto|rewrite dget_dset_other by exact N; eauto].
  - destruct (str_spec "delay" k) as [<-|N]; [rewrite dget_dset_same; destruct (HD eq_refl) as [c' ->]; eauto|rewrite dget_dset_other by exact N; eauto].
  - unfold din in *. destruct (str_spec "label" k) as [<-|N]; [rewrite dget_dset_same; reflexivity|rewrite dget_dset_other by exact N; exact L].
Qed.
Lemma sound_attr u v k x es : (k = "capacity" -> exists c, x = ACap c) -> (k = "delay" -> exists c, x = ADelay c) -> sound es -> sound (set_attr u v k x es).
Proof. intros HC HD S e He. unfold set_attr in He. apply in_map_iff in He as (e0 & <- & H0). destruct (joins u v e0); [|apply S, H0]. cbn [snd]. apply full_set; auto. Qed.
Lemma sound_set_link u v c d t : sound (tp_edges t) -> sound (tp_edges (fst (set_link u v c d t))).
Proof.
  intros S. unfold set_link. destruct (has_link u v t); [|exact S].
  set (es1 := match c with Some c => set_attr u v "capacity" (ACap c) (tp_edges t) | None => tp_edges t end).
  set (es2 := match d with Some d => set_attr u v "delay" (ADelay d) es1 | None => es1 end).
  assert (S1 : sound es1) by (unfold es1; destruct c; [apply sound_attr; [eauto|discriminate|exact S]|exact S]).
  assert (S2 : sound es2) by (unfold es2; destruct d; [apply sound_attr; [discriminate|eauto|exact S1]|exact S1]).
  destruct (get_link u v (with_edges es2 t)) as [a|e]; [|exact S2].
  destruct (dget "capacity" a) as [[]|]; try exact S2. destruct c0; [|exact S2]. destruct (_ <=? _); [exact S2|].
  destruct (dget "delay" a) as [[]|]; try exact S2. destruct d0; [|exact S2]. apply sound_attr; [discriminate|discriminate|exact S2].
Qed.
Lemma sound_filter f es : sound es -> sound (filter f es).
Proof. intros S e He. apply filter_In in He as [He _]. apply S, He. Qed.
Lemma sound_remove_node n t : sound (tp_edges t) -> sound (tp_edges (fst (remove_node n t))).
Proof. intros S. unfold remove_node. destruct (din n (tp_nodes t)); [|exact S]. apply sound_filter, S. Qed.
Lemma sound_remove_link u v t : sound (tp_edges t) -> sound (tp_edges (fst (remove_link u v t))).
Proof. intros S. unfold remove_link. destruct (has_link u v t); [|exact S]. apply sound_filter, S. Qed.
Lemma add_edges k name t : tp_edges (fst (add k name t)) = tp_edges t.
Proof.
  assert (A : forall s x, tp_edges (fst (add_node s k x)) = tp_edges x) by (intros s x; unfold add_node; destruct (din _ _); reflexivity).
  unfold add. destruct name as [s|]; [apply A|]. destruct (fresh _ _ _ _) as [[s n]|]; [|reflexivity]. rewrite A. apply counter_edges.
Qed.
Lemma add_ok k name t : (forall s, name = Some s -> ~ In s (nodes t)) -> exists s, snd (add k name t) = Ok s.
Proof.
  intros H. unfold add. destruct name as [s|].
  - unfold add_node. destruct (din s (tp_nodes t)) eqn:D; [|cbn; eauto]. exfalso. apply (H s eq_refl). apply din_iff. exact D.
  - destruct (fresh_total (prefix_of k) (counter k t) (tp_nodes t)) as (s & m & E & D). rewrite E. unfold add_node. rewrite counter_nodes, D. cbn. eauto.
Qed.
Lemma set_link_names u v c d t : nodes (fst (set_link u v c d t)) = nodes t.
Proof. unfold nodes. rewrite (proj1 (set_link_nodes u v c d t)). reflexivity. Qed.
(** The first part of addLink: the link is there, and other links are not touched. *)
Lemma link_up_edges u v t : match link_up u v t with
  | (t', Some _) => tp_edges t' = tp_edges t
  | (t', None) => exists i j, tp_edges t' = set_attr u v v (AName j) (set_attr u v u (AName i) (add_edge u v (tp_edges t)))
  end.
Proof.
  unfold link_up. destruct (din u (tp_nodes t)); [|reflexivity]. destruct (din v (tp_nodes t)); [|reflexivity]. cbn [negb].
  set (mt := if tp_auto t then _ else _). assert (E : tp_edges (snd mt) = tp_edges t) by (unfold mt; destruct (tp_auto t); reflexivity).
  clearbody mt. destruct mt as [[m1 m2] t1]. cbn [snd] in E. destruct (dget u (tp_nodes t1)) as [n1|]; [|exact E].
  destruct (node_add_if m1 n1) as [n1' [i1|e]]; [|exact E]. destruct (dget v _) as [n2|]; [|exact E]. destruct (node_add_if m2 n2) as [n2' [i2|e]]; [|exact E].
  cbn [with_edges tp_edges node_update with_nodes]. rewrite E. eauto.
Qed.
Lemma existsb_attr u v a b k x es : existsb (joins u v) (set_attr a b k x es) = existsb (joins u v) es.
Proof. unfold set_attr. induction es as [|e r IH]; [reflexivity|]. cbn [map existsb]. rewrite IH. destruct (joins a b e); [rewrite joins_fst|]; reflexivity. Qed.
Lemma existsb_add u v es : existsb (joins u v) (add_edge u v es) = true.
Proof. unfold add_edge. destruct (existsb (joins u v) es) eqn:E; [exact E|]. rewrite existsb_app, E. cbn [existsb orb]. apply orb_true_iff. left. apply joins_iff. auto. Qed.
Definition others (u v : str) (es : list edge) : Prop := forall e, In e es -> joins u v e = false -> full (snd e).
Lemma others_attr u v k x es : others u v es -> others u v (set_attr u v k x es).
Proof. intros S e He J. unfold set_attr in He. apply in_map_iff in He as (e0 & <- & H0). destruct (joins u v e0) eqn:J0; [rewrite joins_fst in J; congruence|]. apply S; assumption. Qed.
Lemma others_add u v es : sound es -> others u v (add_edge u v es).
Proof. intros S e He J. apply in_add_edge in He as [He| ->]; [apply S, He|]. exfalso. assert (X : joins u v (u, v, []) = true) by (apply joins_iff; auto). congruence. Qed.
Lemma find_attr u v k x es e : find (joins u v) es = Some e -> find (joins u v) (set_attr u v k x es) = Some (fst e, dset k x (snd e)).
Proof.
  unfold set_attr. induction es as [|a r IH]; [discriminate|]. cbn [find map]. destruct (joins u v a) eqn:J.
  - intros H; injection H as <-. rewrite joins_fst, J. reflexivity.
  - intros H. rewrite J. apply IH, H.
Qed.
Lemma sound_others u v es : others u v es -> (forall e, In e es -> joins u v e = true -> full (snd e)) -> sound es.
Proof. intros O F e He. destruct (joins u v e) eqn:J; [apply F; assumption|apply O; assumption]. Qed.
Lemma set_attr_has u v k x es e : In e (set_attr u v k x es) -> joins u v e = true -> exists e0, In e0 es /\ joins u v e0 = true /\ snd e = dset k x (snd e0).
Proof. intros H J. unfold set_attr in H. apply in_map_iff in H as (e0 & <- & H0). destruct (joins u v e0) eqn:J0; [|congruence]. exists e0. auto. Qed.
Lemma sound_new u v t c d : others u v (tp_edges t) -> has_link u v t = true -> c < 1000000000000000 -> sound (tp_edges (fst (set_link u v (Some (Some c)) (Some (Some d)) t))).
Proof.
  intros O H Hc. unfold set_link. rewrite H. set (es2 := set_attr u v "delay" _ _).
  unfold get_link. cbn [with_edges tp_edges]. unfold has_link in H. destruct (find (joins u v) (tp_edges t)) as [e|] eqn:F.
  2:{ exfalso. apply existsb_exists in H as (e & He & J). rewrite (find_none _ _ F e He) in J. discriminate. }
  unfold es2. erewrite find_attr; [|apply find_attr; exact F]. cbn [snd fst]. rewrite dget_dset_other, dget_dset_same by discriminate.
  destruct (1000000000000000 <=? c) eqn:L; [lia|]. rewrite dget_dset_same. cbn [fst with_edges tp_edges].
  apply (sound_others u v).
  - repeat apply others_attr. exact O.
  - intros e' He J. apply set_attr_has in He as (e1 & H1 & J1 & E1); [|exact J]. apply set_attr_has in H1 as (e2 & H2 & J2 & E2); [|exact J1]. apply set_attr_has in H2 as (e3 & H3 & J3 & E3); [|exact J2].
    rewrite E1, E2, E3. split; [|split].
    + exists (Some c). rewrite !dget_dset_other, dget_dset_same by discriminate. reflexivity.
    + exists (Some d). rewrite !dget_dset_other, dget_dset_same by discriminate. reflexivity.
    + unfold din. rewrite dget_dset_same. reflexivity.
Qed.

(** ** Lines *)
Section Texts.
Context (capp dlyp : str -> res (option Z)).
#[local] Notation line := (line capp dlyp).
#[local] Notation session := (session capp dlyp).
Record W (c : cli) : Prop := {
  W_inv : Inv false (c_topo c);
  W_sound : sound (tp_edges (c_topo c));
  W_up : nt_up (c_net c) = true;
  W_keys : dkeys (nt_nodes (c_net c)) = nodes (c_topo c) }.
Definition alive (x : result) : Prop := match x with (c, Stay, _) => W c | (_, Leave, _) => True | (_, Died _, _) => False end.
Lemma alive_changed c : Inv false (c_topo c) -> sound (tp_edges (c_topo c)) -> nt_up (c_net c) = true -> alive (changed c).
Proof.
  intros I S U. unfold changed, rebuild. cbn [with_unsaved c_topo c_net]. unfold net_stop. rewrite U. cbn [bindr]. destruct (net_total false _ I S) as (x & -> & K). cbn [bindr].
  cbn. split; cbn; auto.
Qed.
Lemma set_text_nodes u v cs ds t : nodes (fst (set_text capp dlyp u v cs ds t)) = nodes t.
Proof. unfold set_text. destruct (has_link u v t); [|reflexivity]. cbn [negb]. destruct (arg capp cs) as [c|]; [|reflexivity]. destruct (arg dlyp ds) as [d|]; [apply set_link_names|]. destruct c; reflexivity. Qed.
Lemma sound_set_text u v cs ds t : sound (tp_edges t) -> sound (tp_edges (fst (set_text capp dlyp u v cs ds t))).
Proof.
  intros S. unfold set_text. destruct (has_link u v t); [|exact S]. cbn [negb]. destruct (arg capp cs) as [c|]; [|exact S]. destruct (arg dlyp ds) as [d|]; [apply sound_set_link, S|].
  destruct c; [|exact S]. apply sound_attr; [eauto|discriminate|exact S].
Qed.
Lemma sound_add_text u v cs ds t : readable capp dlyp cs ds -> Inv false t -> sound (tp_edges t) -> sound (tp_edges (fst (add_text capp dlyp u v cs ds t))).
Proof.
  intros (N1 & N2 & (c & C & Lc) & (d & D)) I S. unfold add_text. pose proof (link_up_edges u v t) as E. destruct (link_up u v t) as [t' [e|]]; [cbn [fst]; rewrite E; exact S|].
  destruct E as (i & j & E). assert (H : has_link u v t' = true) by (unfold has_link; rewrite E, !existsb_attr; apply existsb_add).
  unfold set_text. rewrite H. cbn [negb]. unfold arg. rewrite !str_eqb_neq by assumption. rewrite C, D. cbn [bindr]. apply sound_new; [|exact H|exact Lc].
  rewrite E. repeat apply others_attr. apply others_add, S.
Qed.
Lemma resolve_exec w : resolve w = Some "exec" -> In w ["exec"; "exe"; "ex"; "e"].
Proof.
  intros H. destruct (resolve_in _ _ H) as [K|(_ & K & _)]; cbn [commands app In prefixes map] in K;
  repeat (destruct K as [<-|K]; [try discriminate H; cbn; tauto|]); contradiction.
Qed.
Lemma resolve_replay w : resolve w = Some "replay" -> In w ["replay"; "repla"; "repl"; "rep"].
Proof.
  intros H. destruct (resolve_in _ _ H) as [K|(_ & K & _)]; cbn [commands app In prefixes map] in K;
  repeat (destruct K as [<-|K]; [try discriminate H; cbn; tauto|]); contradiction.
Qed.
Lemma word_link what : starts "switch" what = false -> starts "link" what = true -> link_word what.
Proof.
  intros N S. apply starts_in in S. cbn [prefixes map In] in S. destruct S as [<-|S]; [discriminate N|]. unfold link_word. repeat (destruct S as [<-|S]; [cbn; tauto|]). contradiction.
Qed.
Lemma alive_line ans ws c : harmless capp dlyp c ws -> W c -> alive (line ans ws c).
Proof.
  intros (ND & NE & NP & NA & NL) w0. pose proof w0 as [I S U K]. assert (A0 : alive (stay c)) by exact w0.
  destruct ws as [|w r]; [exact A0|]. rewrite line_resolve. destruct (resolve w) as [x|] eqn:R; [|exact A0]. unfold CliModel.command.
  destruct (str_spec x "show") as [->|_].
  { unfold do_show. destruct r as [|what r]; [exact A0|]. destruct (starts _ _); [|exact A0].
    match goal with |- context [all_labelled ?l] => assert (L : all_labelled l = true); [|rewrite L; exact A0] end. unfold all_labelled. apply forallb_forall. intros e He. unfold labelled.
    destruct r as [|n r].
    - apply edge_list_in in He as (e0 & H0 & _ & ->). apply (S e0 H0).
    - destruct (din n _); [|contradiction]. apply filter_In in He as [He _]. apply (S e He). }
  destruct (str_spec x "set") as [->|_].
  { unfold do_set. destruct r as [|what [|a [|b r]]]; try exact A0. destruct (_ <? _)%nat; [exact A0|]. destruct (starts "node" what); [exact A0|]. destruct (starts "link" what); [|exact A0].
    destruct (gather r) as [[cs ds]|]; [|exact A0]. split; cbn; [apply inv_set_text, I|apply sound_set_text, S|exact U|rewrite set_text_nodes; exact K]. }
  destruct (str_spec x "sendeth") as [->|_].
  { unfold do_sendeth. destruct r as [|n [|? ?]]; try exact A0. destruct (din n (tp_nodes _)) eqn:D; [|exact A0]. assert (D' : din n (nt_nodes (c_net c)) = true) by (apply din_iff; rewrite K; apply din_iff; exact D). rewrite D'. exact A0. }
  destruct (str_spec x "load") as [->|_]. { exfalso. apply ND. exists w, r. split; [reflexivity|apply resolve_load, R]. }
  destruct (str_spec x "save") as [->|_]. { unfold do_save. destruct r as [|f [|? ?]]; exact A0 || (split; cbn; assumption). }
  destruct (str_spec x "monitor") as [->|_]; [exact A0|]. destruct (str_spec x "unmonitor") as [->|_]; [exact A0|].
  destruct (str_spec x "exec") as [->|_]. { exfalso. apply NE. exists w, r. split; [reflexivity|apply resolve_exec, R]. }
  destruct (str_spec x "add") as [->|_].
  { pose proof (resolve_add _ R) as Hw. unfold do_add. destruct r as [|what r]; [exact A0|].
    assert (A : forall k, starts "switch" what = true \/ starts "router" what = true \/ starts "host" what = true -> alive (add_kind k r c)).
    { intros k Hs. unfold add_kind. assert (N : forall s, hd_error r = Some s -> ~ In s (nodes (c_topo c)) /\ ~ reserved s).
      { intros s Es. destruct r as [|s' r']; [discriminate Es|]. injection Es as ->. apply NA. apply add_case; assumption. }
      destruct (add_ok k (hd_error r) (c_topo c)) as [s E]; [intros s Es; apply N, Es|].
      pose proof (inv_add false (c_topo c) k (hd_error r) I ltac:(intros s' Es; apply N, Es)) as J. pose proof (add_edges k (hd_error r) (c_topo c)) as Q.
      destruct (add _ _ _) as [t y]. cbn [fst snd] in *. subst y. apply alive_changed; cbn; [exact J|rewrite Q; exact S|exact U]. }
    destruct (starts "switch" what) eqn:S1; [apply A; auto|]. destruct (starts "router" what) eqn:S2; [apply A; auto|]. destruct (starts "host" what) eqn:S3; [apply A; auto|].
    destruct (starts "link" what) eqn:S4; [|exact A0]. destruct r as [|u [|v s]]; try exact A0. destruct (_ <? _)%nat; [exact A0|].
    destruct (gather s) as [[cs ds]|] eqn:G; [|apply alive_changed; assumption].
    pose proof (NL w what u v s cs ds eq_refl Hw (word_link _ S1 S4) G) as RD. apply alive_changed; cbn; [apply inv_add_text, I|apply sound_add_text; assumption|exact U]. }
  destruct (str_spec x "remove") as [->|_].
  { unfold do_remove. destruct r as [|what [|a r]]; try exact A0. destruct (_ || _ || _ || _).
    - destruct r; [|exact A0]. apply alive_changed; cbn; [apply inv_remove_node, I|apply sound_remove_node, S|exact U].
    - destruct (_ || _); [|exact A0]. destruct r as [|b [|? ?]]; try exact A0. apply alive_changed; cbn; [apply inv_remove_link, I|apply sound_remove_link, S|exact U]. }
  destruct (str_spec x "replay") as [->|_]. { exfalso. apply NP. exists w, r. split; [reflexivity|apply resolve_replay, R]. }
  assert (X : alive (do_exit ans c)). { unfold do_exit. destruct (_ && _); [exact w0|]. unfold net_stop. rewrite U. exact Logic.I. }
  destruct (str_spec x "exit") as [->|_]; [exact X|]. destruct (str_spec x "EOF") as [->|_]; [exact X|]. destruct (str_spec x "help") as [->|_]; exact A0.
Qed.
Lemma alive_session h : forall c, harmless_session capp dlyp c h -> W c -> forall c' e, session h c <> (c', Died e).
Proof.
  induction h as [|[ws a] r IH]; intros c H w0 c' e; cbn [CliModel.session]; [discriminate|]. destruct H as [H1 H2]. pose proof (alive_line a ws c H1 w0) as L.
  destruct (line a ws c) as [[c1 o] b]. cbn [fst] in H2. destruct o; cbn in L; [|discriminate|contradiction]. apply IH; assumption.
Qed.
Lemma start_alive t disk : Inv false t -> complete t -> exists c, start t disk = Ok c /\ W c.
Proof.
  intros I C. pose proof (complete_sound false t I C) as S. unfold start, rebuild. cbn [net_stop nt_up nt_nodes bindr]. destruct (net_total false t I S) as (x & -> & K). cbn [bindr].
  eexists. split; [reflexivity|]. split; cbn; auto.
Qed.
End Texts.

(** ** Abbreviations *)
Lemma abbreviation w x : only_prefix_of w x -> x <> "exit" -> resolve w = Some x.
Proof.
  intros (N & Hx & P & U) NE. unfold resolve. destruct (existsb _ _) eqn:E.
  - apply existsb_exists in E as (y & Hy & K). destruct (str_spec w y) as [->|]; [|discriminate]. apply in_app_or in Hy as [Hy|Hy].
    + f_equal. apply U; [exact Hy|]. clear. induction y as [|c y IH]; [reflexivity|]. cbn [String.prefix]. destruct (ascii_dec c c); [exact IH|congruence].
    + exfalso. cbn [commands In] in Hx. destruct Hy as [<-|[<-|[]]]; repeat (destruct Hx as [<-|Hx]; [discriminate P|]); contradiction.
  - unfold find_command. assert (Ha : In x abbreviated). { cbn [commands In] in Hx. repeat (destruct Hx as [<-|Hx]; [cbn; tauto || (exfalso; apply NE; reflexivity)|]). contradiction. }
    destruct (find (fun x => starts x w) abbreviated) as [y|] eqn:F.
    + apply find_some in F as [F1 F2]. f_equal. apply U; [|exact F2]. cbn [abbreviated In] in F1. repeat (destruct F1 as [<-|F1]; [cbn; tauto|]). contradiction.
    + exfalso. pose proof (find_none _ _ F x Ha) as K. cbn beta in K. unfold starts in K. congruence.
Qed.
Lemma resolve_self x : In x commands -> resolve x = Some x.
Proof. intros H. cbn [commands In] in H. repeat (destruct H as [<-|H]; [reflexivity|]). contradiction. Qed.
Lemma abbreviated_line capp dlyp ans w x r c : only_prefix_of w x -> x <> "exit" -> line capp dlyp ans (w :: r) c = line capp dlyp ans (x :: r) c.
Proof. intros P N. rewrite !line_resolve, (abbreviation w x P N), resolve_self; [reflexivity|apply P]. Qed.

(** ** Settings of links *)
Lemma value_plain w : value_word w -> is_cap w = false /\ starts "delay" w = false.
Proof.
  intros V. unfold value_word in V. split.
  - unfold is_cap. apply orb_false_iff. split; [apply orb_false_iff; split|].
    + destruct (str_spec w "bw") as [->|]; [|reflexivity]. exfalso. apply V. cbn. tauto.
    + destruct (starts "bandwidth" w) eqn:S; [|reflexivity]. exfalso. apply V. apply starts_in in S. cbn [prefixes map In] in S. repeat (destruct S as [<-|S]; [cbn; tauto|]). contradiction.
    + destruct (starts "capacity" w) eqn:S; [|reflexivity]. exfalso. apply V. apply starts_in in S. cbn [prefixes map In] in S. repeat (destruct S as [<-|S]; [cbn; tauto|]). contradiction.
  - destruct (starts "delay" w) eqn:S; [|reflexivity]. exfalso. apply V. apply starts_in in S. cbn [prefixes map In] in S. repeat (destruct S as [<-|S]; [cbn; tauto|]). contradiction.
Qed.
Lemma cap_is w : capacity_word w -> is_cap w = true.
Proof. intros H. unfold capacity_word in H. cbn [In] in H. repeat (destruct H as [<-|H]; [reflexivity|]). contradiction. Qed.
Lemma delay_is w : delay_word w -> is_cap w = false /\ starts "delay" w = true.
Proof. intros H. unfold delay_word in H. cbn [In] in H. repeat (destruct H as [<-|H]; [split; reflexivity|]). contradiction. Qed.
Lemma gather_values l : Forall value_word l -> forall r cur vals s, gather_loop (l ++ r) cur vals s = gather_loop r cur (vals ++ l) s.
Proof.
  induction 1 as [|w l V _ IH]; intros r cur vals s; [rewrite app_nil_r; reflexivity|]. cbn [app gather_loop]. destruct (value_plain w V) as [-> ->]. rewrite IH, <- app_assoc. reflexivity.
Qed.
Lemma gather_both k1 a k2 b : capacity_word k1 -> delay_word k2 -> Forall value_word a -> Forall value_word b ->
  gather (k1 :: a ++ k2 :: b) = Ok (spaced a, spaced b) /\ gather (k2 :: b ++ k1 :: a) = Ok (spaced a, spaced b).
Proof.
  intros H1 H2 A B. pose proof (cap_is _ H1) as C1. destruct (delay_is _ H2) as [D1 D2]. unfold gather. split.
  - cbn [gather_loop]. rewrite C1, (gather_values a A). cbn [app gather_loop put_setting]. rewrite D1, D2. cbn [put_setting].
    pose proof (gather_values b B [] (Some true) [] (Some (spaced a), None)) as G. rewrite app_nil_r in G. cbn [snd]. rewrite G. reflexivity.
  - cbn [gather_loop]. rewrite D1, D2, (gather_values b B). cbn [app gather_loop put_setting]. rewrite C1. cbn [put_setting].
    pose proof (gather_values a A [] (Some false) [] (None, Some (spaced b))) as G. rewrite app_nil_r in G. cbn [fst]. rewrite G. reflexivity.
Qed.
