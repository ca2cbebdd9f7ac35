(** The simulated network and the topology; which commands the command line survives. *)
From Coq Require Import Ascii.
From Verif Require Import BaseLemmas DictLemmas TopoModel TopoNames TopoSpec TopoProofs TopoInv TopoMore TopoAddr CliModel CliSpec CliProofs.
#[local] Open Scope string_scope.
#[local] Open Scope list_scope.
#[local] Open Scope Z_scope.

(** ** Building the network *)
Lemma link_at_unique t u dev w w' : Inv true t -> link_at t u dev w -> link_at t u dev w' -> w = w'.
Proof.
  intros I (d & G & A & B & C & D) (d' & G' & A' & B' & C' & D'). pose proof (link_distinct t u (w_to w) (w_to w') d d' I G G' ltac:(congruence)) as E.
  rewrite E in G. rewrite G in G'. injection G' as <-. rewrite E in B. destruct w, w'; cbn in *. congruence.
Qed.
Lemma plug_at n dev w x x' : plug n dev w x = Ok x' -> dkeys x' = dkeys x /\ forall u i, wire_at x' u i = if str_eqb u n && str_eqb i dev then Some w else wire_at x u i.
Proof.
  unfold plug, item_dict. destruct (dget n x) as [d|] eqn:G; [|discriminate]. cbn [bindr]. intros H; injection H as <-. split.
  - apply dkeys_dset_in. apply dget_In in G. apply (in_map fst) in G. exact G.
  - intros u i. unfold wire_at. destruct (str_spec u n) as [->|N]; cbn [andb].
    + rewrite dget_dset_same, G. destruct (str_spec i dev) as [->|M]; [apply dget_dset_same|]. apply dget_dset_other. exact M.
    + rewrite dget_dset_other by exact N. reflexivity.
Qed.
Lemma get_link_sym u v t : get_link u v t = get_link v u t.
Proof. unfold get_link. induction (tp_edges t) as [|e r IH]; [reflexivity|]. cbn [find]. rewrite (joins_sym u v e). destruct (joins v u e); [reflexivity|exact IH]. Qed.
Definition sub (t : topo) (x : wires) : Prop := forall u i w, wire_at x u i = Some w -> link_at t u i w.
Definition has (x : wires) (u i : str) (w : wire) : Prop := wire_at x u i = Some w.
Lemma plug_keeps t n dev w x x' u i w' : Inv true t -> sub t x -> link_at t n dev w -> plug n dev w x = Ok x' -> has x u i w' -> has x' u i w'.
Proof.
  intros I S L P H. apply plug_at in P as [_ P]. unfold has in *. rewrite P. destruct (str_spec u n) as [->|]; cbn [andb]; [|exact H]. destruct (str_spec i dev) as [->|]; [|exact H].
  f_equal. apply (link_at_unique t n dev); [exact I|exact L|apply S, H].
Qed.
Lemma plug_sub t n dev w x x' : sub t x -> link_at t n dev w -> plug n dev w x = Ok x' -> sub t x' /\ has x' n dev w.
Proof.
  intros S L P. apply plug_at in P as [_ P]. split.
  - intros u i w'. rewrite P. destruct (str_spec u n) as [->|]; cbn [andb]; [|apply S]. destruct (str_spec i dev) as [->|]; [|apply S]. intros H; injection H as <-. exact L.
  - unfold has. rewrite P, !str_eqb_refl. reflexivity.
Qed.
Definition both (t : topo) (x : wires) (u v : str) : Prop :=
  exists d ui vi c l, get_link u v t = Ok d /\ dget u d = Some (AName ui) /\ dget v d = Some (AName vi) /\ dget "capacity" d = Some (ACap c) /\ dget "delay" d = Some (ADelay l) /\
    has x u ui (mkWire v vi c l) /\ has x v vi (mkWire u ui c l).
Lemma both_keeps t n dev w x x' u v : Inv true t -> sub t x -> link_at t n dev w -> plug n dev w x = Ok x' -> both t x u v -> both t x' u v.
Proof. intros I S L P (d & ui & vi & c & l & A1 & A2 & A3 & A4 & A5 & A6 & A7). exists d, ui, vi, c, l. repeat (split; [assumption|]). split; eapply plug_keeps; eauto. Qed.
Lemma wire_up_ok t x x' u v : wire_up t x (u, v) = Ok x' -> exists d ui vi c l x1, get_link u v t = Ok d /\ dget u d = Some (AName ui) /\ dget v d = Some (AName vi) /\
  dget "capacity" d = Some (ACap c) /\ dget "delay" d = Some (ADelay l) /\ plug u ui (mkWire v vi c l) x = Ok x1 /\ plug v vi (mkWire u ui c l) x1 = Ok x'.
Proof.
  unfold wire_up. destruct (get_link u v t) as [d|] eqn:G; [|discriminate]. cbn [bindr]. destruct (item_dict u (tp_nodes t)) as [un|]; [|discriminate]. cbn [bindr].
  destruct (item_dict v (tp_nodes t)) as [vn|]; [|discriminate]. cbn [bindr]. unfold item_name. destruct (dget u d) as [[ui| | |]|] eqn:U; try discriminate. cbn [bindr].
  destruct (dget v d) as [[vi| | |]|] eqn:V; try discriminate. cbn [bindr]. unfold item_cap, item_delay. destruct (dget "capacity" d) as [[|c| |]|] eqn:C; try discriminate. cbn [bindr].
  destruct (dget "delay" d) as [[| |l|]|] eqn:D; try discriminate. cbn [bindr]. destruct (item_dict ui (tn_ifs un)); [|discriminate]. cbn [bindr].
  destruct (plug u ui _ x) as [x1|] eqn:P1; [|discriminate]. cbn [bindr]. destruct (item_dict vi (tn_ifs vn)); [|discriminate]. cbn [bindr]. intros P2. eauto 15.
Qed.
Lemma wire_all_ok t ls : Inv true t -> forall x x' done, sub t x -> (forall u v, In (u, v) done -> both t x u v) -> wire_all t ls x = Ok x' ->
  dkeys x' = dkeys x /\ sub t x' /\ forall u v, In (u, v) (done ++ ls) -> both t x' u v.
Proof.
  intros I. induction ls as [|[u v] r IH]; intros x x' done S B H; cbn [wire_all] in H.
  - injection H as <-. rewrite app_nil_r. auto.
  - destruct (wire_up t x (u, v)) as [x2|] eqn:W; [|discriminate]. cbn [bindr] in H. apply wire_up_ok in W as (d & ui & vi & c & l & x1 & G & U & V & C & D & P1 & P2).
    assert (L1 : link_at t u ui (mkWire v vi c l)) by (exists d; auto).
    assert (L2 : link_at t v vi (mkWire u ui c l)) by (exists d; rewrite get_link_sym; auto).
    destruct (plug_sub _ _ _ _ _ _ S L1 P1) as [S1 H1]. destruct (plug_sub _ _ _ _ _ _ S1 L2 P2) as [S2 H2].
    destruct (IH x2 x' (done ++ [(u, v)])) as (K & S3 & B3).
    + exact S2.
    + intros a b Hab. apply in_app_or in Hab as [Hab|[Hab|[]]].
      * eapply both_keeps; [exact I|exact S1|exact L2|exact P2|]. eapply both_keeps; [exact I|exact S|exact L1|exact P1|]. apply B, Hab.
      * injection Hab as <- <-. exists d, ui, vi, c, l. repeat (split; [assumption|]). split; [|exact H2]. eapply plug_keeps; [exact I|exact S1|exact L2|exact P2|exact H1].
    + exact H.
    + apply plug_at in P1 as [K1 _]. apply plug_at in P2 as [K2 _]. split; [congruence|]. split; [exact S3|]. intros a b Hab. apply B3. rewrite <- app_assoc. exact Hab.
Qed.
Lemma empty_at (l : list str) u i : wire_at (map (fun n => (n, [])) l) u i = None.
Proof. unfold wire_at. induction l as [|n r IH]; [reflexivity|]. cbn [map dget]. destruct (str_eqb u n); [reflexivity|exact IH]. Qed.
Lemma net_follows t x : Inv true t -> net_of t = Ok x -> follows t x.
Proof.
  intros I H. unfold net_of in H. destruct (wire_all_ok t (links t) I (map (fun n => (n, [])) (nodes t)) x [] ltac:(intros u i w K; rewrite empty_at in K; discriminate K) ltac:(intros ? ? []) H) as (K & S & B).
  split.
  - intros n. rewrite din_iff, K. unfold dkeys. rewrite map_map. cbn [fst]. rewrite map_id. reflexivity.
  - intros u dev w. split; [apply S|]. intros L. pose proof L as (d & G & A1 & A2 & A3 & A4).
    assert (HL : has_link u (w_to w) t = true). { unfold get_link in G. unfold has_link. destruct (find _ _) as [e|] eqn:F; [|discriminate]. apply existsb_exists. exists e. apply find_some in F. exact F. }
    apply (links_iff true) in HL; [|exact I]. destruct HL as [HL|HL]; apply B in HL; destruct HL as (d' & ui & vi & c & l & G' & U & V & C & D & H1 & H2).
    + rewrite G in G'. injection G' as <-. rewrite A1 in U. injection U as <-. unfold has in H1. rewrite H1. f_equal. apply (link_at_unique t u dev); [exact I| |exact L]. apply S, H1.
    + rewrite get_link_sym, G in G'. injection G' as <-. rewrite A1 in V. injection V as <-. unfold has in H2. rewrite H2. f_equal. apply (link_at_unique t u dev); [exact I| |exact L]. apply S, H2.
Qed.

(** ** Histories *)
Section Texts.
Context (capp dlyp : str -> res (option Z)).
#[local] Notation line := (line capp dlyp).
#[local] Notation session := (session capp dlyp).
Lemma inv_set_text b u v cs ds t : Inv b t -> Inv b (fst (set_text capp dlyp u v cs ds t)).
Proof.
  intros I. unfold set_text. destruct (has_link u v t); [|exact I]. cbn [negb]. destruct (arg capp cs) as [c|]; [|exact I]. destruct (arg dlyp ds) as [d|]; [apply inv_set_link, I|].
  destruct c as [c|]; [|exact I]. apply inv_set_attr; [exact I|unfold reserved; auto].
Qed.
Lemma inv_add_text b u v cs ds t : Inv b t -> Inv b (fst (add_text capp dlyp u v cs ds t)).
Proof. intros I. pose proof (inv_link_up b t u v I) as K. unfold add_text. destruct (link_up u v t) as [t' [e|]]; [exact K|]. apply inv_set_text. exact K. Qed.
Definition in_step (x : result) : Prop := snd (fst x) = Stay -> Inv true (c_topo (fst (fst x))) /\ net_of (c_topo (fst (fst x))) = Ok (nt_nodes (c_net (fst (fst x)))).
Lemma step_changed c : Inv true (c_topo c) -> in_step (changed c).
Proof.
  intros I. unfold changed. destruct (rebuild _ _) as [n|] eqn:R; [|intros H; discriminate H]. intros _. cbn. split; [exact I|].
  unfold rebuild in R. destruct (net_stop _); [|discriminate]. cbn [bindr] in R. destruct (net_of _) as [x|] eqn:E; [|discriminate]. injection R as <-. cbn. reflexivity || exact E.
Qed.
Lemma add_case w k name r : In w ["add"; "ad"; "a"] -> starts "switch" k = true \/ starts "router" k = true \/ starts "host" k = true -> adds_node (w :: k :: name :: r) name.
Proof.
  intros Hw S. exists w, k, r. split; [reflexivity|]. split; [exact Hw|]. destruct S as [S|[S|S]]; apply starts_in in S; cbn [prefixes map In] in S;
  repeat (destruct S as [<-|S]; [cbn; tauto|]); contradiction.
Qed.
Lemma step_line ans ws c : ~ set_link_line ws -> ~ load_line ws -> (forall n, adds_node ws n -> ~ reserved n) ->
  Inv true (c_topo c) -> net_of (c_topo c) = Ok (nt_nodes (c_net c)) -> in_step (line ans ws c).
Proof.
  intros NL ND NR I F. assert (K : in_step (stay c)) by (intros _; auto). apply line_elim.
  - exact K.
  - intros [|what r]; [exact K|]. unfold do_show. destruct (starts _ _); [|exact K]. destruct (all_labelled _); [exact K|]. intros H; discriminate H.
  - intros w r -> Hw. unfold do_set. destruct r as [|what [|a [|b r]]]; try exact K. destruct (_ <? _)%nat; [exact K|].
    destruct (starts "node" what) eqn:N; [exact K|]. destruct (starts "link" what) eqn:S; [|exact K]. exfalso. apply NL, set_case; assumption.
  - intros r. unfold do_sendeth. destruct r as [|n [|? ?]]; try exact K. destruct (din _ _); [|exact K]. destruct (din _ _); [exact K|intros H; discriminate H].
  - intros w r -> Hw. exfalso. apply ND. exists w, r. auto.
  - intros r. unfold do_save. destruct r as [|f [|? ?]]; try exact K.
  - intros r. unfold do_exec. destruct r as [|f [|? ?]]; try exact K. unfold in_step. cbn [fst snd]. unfold restart. destruct (net_stop _) as [n|]; [|intros H; discriminate H].
    destruct (rebuild _ n) as [n'|] eqn:R; [|intros H; discriminate H]. cbn. intros _. split; [exact I|].
    unfold rebuild in R. destruct (net_stop _); [|discriminate]. cbn [bindr] in R. destruct (net_of _) as [x|] eqn:E; [|discriminate]. injection R as <-. cbn. reflexivity || exact E.
  - intros w r -> Hw. unfold do_add. destruct r as [|what r]; [exact K|].
    assert (A : forall k, starts "switch" what = true \/ starts "router" what = true \/ starts "host" what = true -> in_step (add_kind k r c)).
    { intros k S. unfold add_kind. pose proof (inv_add true (c_topo c) k (hd_error r) I) as J. destruct (add _ _ _) as [t [x|e]]; [|intros H; discriminate H]. apply step_changed. cbn. apply J.
      intros s Hs. destruct r as [|s' r]; [discriminate Hs|]. injection Hs as ->. apply NR. apply add_case; assumption. }
    destruct (starts "switch" what) eqn:S1; [apply A; auto|]. destruct (starts "router" what) eqn:S2; [apply A; auto|]. destruct (starts "host" what) eqn:S3; [apply A; auto|]. destruct (starts "link" what); [|exact K].
    destruct r as [|u [|v s]]; try exact K. destruct (_ <? _)%nat; [exact K|]. apply step_changed. destruct (gather s) as [[cs ds]|]; [|exact I]. apply inv_add_text. exact I.
  - intros r. unfold do_remove. destruct r as [|what [|a r]]; try exact K. destruct (_ || _ || _ || _).
    + destruct r; [apply step_changed, inv_remove_node, I|exact K].
    + destruct (_ || _); [|exact K]. destruct r as [|b [|? ?]]; try exact K. apply step_changed, inv_remove_link, I.
  - intros r. unfold do_replay. destruct r as [|f [|n [|i [|? ?]]]]; try exact K. destruct (dget f _) as [x|]; [|exact K].
    destruct (dget n _) as [nd|]; [|exact K]. destruct (din _ _); [|exact K]. destruct x as [s|[|k]|]; try (intros H; discriminate H); [exact K|].
    destruct (emit n i c); [intros H; discriminate H|exact K].
  - unfold do_exit. destruct (_ && _); [intros _; auto|]. destruct (net_stop _); intros H; discriminate H.
Qed.
Lemma step_session h : forall c c', (forall ws a, In (ws, a) h -> ~ set_link_line ws /\ ~ load_line ws /\ forall n, adds_node ws n -> ~ reserved n) ->
  Inv true (c_topo c) -> net_of (c_topo c) = Ok (nt_nodes (c_net c)) -> session h c = (c', Stay) -> Inv true (c_topo c') /\ net_of (c_topo c') = Ok (nt_nodes (c_net c')).
Proof.
  induction h as [|[ws a] r IH]; intros c c' N I F H; cbn [CliModel.session] in H.
  - injection H as <-. auto.
  - destruct (N ws a (or_introl eq_refl)) as (N1 & N2 & N3). pose proof (step_line a ws c N1 N2 N3 I F) as L. destruct (line a ws c) as [[c1 o] b].
    destruct o; [|discriminate H..]. destruct (L eq_refl) as [I1 F1]. apply (IH c1); [intros ? ? ?; eapply N; right; eassumption|exact I1|exact F1|exact H].
Qed.
End Texts.
