(** Links and interfaces of topologies agree; Ethernet addresses are unique. *)
From Coq Require Import Ascii.
From Verif Require Import BaseLemmas CodecLemmas EthAddrModel EthAddrSpec EthAddrProofs TopoModel TopoNames TopoProofs TopoSpec.
#[local] Open Scope string_scope.
#[local] Open Scope Z_scope.
#[local] Open Scope list_scope.

(** ** What the names are *)
Fixpoint has_us (s : str) : bool :=
  match s with EmptyString => false | String c r => Ascii.eqb c "_"%char || has_us r end.
Lemma has_us_append a b : has_us (append a b) = has_us a || has_us b.
Proof. induction a as [|c a IH]; cbn [append has_us]; [reflexivity|]. rewrite IH, orb_assoc. reflexivity. Qed.
Lemma rename_not_reserved p n : ~ reserved (rename p n).
Proof. intros H. assert (has_us (rename p n) = true) by (unfold rename; rewrite !has_us_append; cbn; rewrite orb_true_r; reflexivity).
  unfold reserved in H. destruct H as [H|[H|[H|[H|H]]]]; rewrite H in *; discriminate. Qed.
Lemma auto_not_reserved k n : ~ reserved (append (prefix_of k) (dec n)).
Proof. unfold reserved.
  assert (D : forall s, dec n = s -> match s with EmptyString => True | String c _ => In c ["0";"1";"2";"3";"4";"5";"6";"7";"8";"9"]%char end).
  { intros s <-. unfold dec. pose proof (to_uint_nonnil n) as Hn. destruct (N.to_uint n); [congruence|..]; cbn; tauto. }
  destruct k; cbn [prefix_of append]; intros [H|[H|[H|[H|H]]]]; try discriminate H; injection H as H; apply D in H; cbn in H;
  repeat destruct H as [H|H]; try discriminate H; exact H. Qed.

(** ** The invariant.  With [b], interface names come from a counter that has never been reset, so that no two links
    share an interface. *)
Definition good_end (b : bool) (ns : dict tnode) (d : dict attr) (n : str) : Prop :=
  exists nd j, dget n ns = Some nd /\ dget n d = Some (AName (eth_name j)) /\ din (eth_name j) (tn_ifs nd) = true /\ (b = true -> (j < tn_ifnum nd)%N).
Record Inv (b : bool) (t : topo) : Prop := {
  inv_names : NoDup (nodes t);
  inv_res : forall n, In n (nodes t) -> ~ reserved n;
  inv_ends : forall e n, In e (tp_edges t) -> touches n e -> good_end b (tp_nodes t) (snd e) n;
  inv_sep : sep (tp_edges t);
  inv_use : b = true -> forall e1 e2 n, In e1 (tp_edges t) -> In e2 (tp_edges t) -> touches n e1 -> touches n e2 ->
    dget n (snd e1) = dget n (snd e2) -> same e1 e2 = true }.

Lemma inv_new b name auto : Inv b (topo_new name auto).
Proof. split; cbn; try constructor; tauto. Qed.
(** Only nodes and edges matter. *)
Lemma inv_ext b t t' : tp_nodes t' = tp_nodes t -> tp_edges t' = tp_edges t -> Inv b t -> Inv b t'.
Proof. intros E1 E2 [A B C D E]. split; unfold nodes in *; rewrite ?E1, ?E2; auto. Qed.

(** *** Nodes that grow *)
Definition extends (n n' : tnode) : Prop := (tn_ifnum n <= tn_ifnum n')%N /\ forall i, din i (tn_ifs n) = true -> din i (tn_ifs n') = true.
Lemma good_end_update b ns d m k n n' : dget k ns = Some n -> extends n n' -> good_end b ns d m -> good_end b (dset k n' ns) d m.
Proof. intros G [E1 E2] (nd & j & A & B & C & D). destruct (str_spec m k).
  - subst m. rewrite G in A. injection A as <-. exists n', j. rewrite dget_dset_same. split; [reflexivity|]. split; [exact B|]. split; [apply E2; exact C|].
    intros Hb. specialize (D Hb). lia.
  - exists nd, j. rewrite dget_dset_other by auto. auto. Qed.
Lemma nodes_update k n' t : In k (nodes t) -> nodes (node_update k n' t) = nodes t.
Proof. intros H. unfold nodes, node_update, with_nodes. cbn [tp_nodes]. apply dkeys_dset_in. exact H. Qed.
Lemma dget_nodes k n t : dget k (tp_nodes t) = Some n -> In k (nodes t).
Proof. intros H. apply dget_In in H. apply (in_map fst) in H. exact H. Qed.
Lemma inv_update b t k n n' : Inv b t -> dget k (tp_nodes t) = Some n -> extends n n' -> Inv b (node_update k n' t).
Proof. intros I G X. pose proof (dget_nodes _ _ _ G) as K. destruct I as [A B C D E]. split; rewrite ?nodes_update by exact K; auto.
  intros e m He Hm. cbn [node_update with_nodes tp_nodes tp_edges] in *. eapply good_end_update; eauto. Qed.
Lemma add_if_extends m n : extends n (fst (node_add_if m n)).
Proof. unfold node_add_if. destruct (eth_init m); cbn [fst]; split; cbn [tn_ifnum tn_ifs]; try lia; auto.
  intros i H. apply din_iff. apply din_iff in H. destruct (in_dec String.string_dec (eth_name (tn_ifnum n)) (dkeys (tn_ifs n))) as [K|K].
  - rewrite dkeys_dset_in by auto. exact H.
  - rewrite dkeys_dset_new by auto. apply in_or_app. auto. Qed.
Lemma add_if_name m n n' i : node_add_if m n = (n', Ok i) -> i = eth_name (tn_ifnum n) /\ tn_ifnum n' = (tn_ifnum n + 1)%N /\ din i (tn_ifs n') = true.
Proof. unfold node_add_if. destruct (eth_init m); intros H; [|discriminate]. injection H as <- <-. cbn [tn_ifnum tn_ifs]. split; [reflexivity|]. split; [reflexivity|].
  unfold din. rewrite dget_dset_same. reflexivity. Qed.

(** *** Adding nodes *)
Lemma inv_add_node b t s k : Inv b t -> ~ reserved s -> Inv b (fst (add_node s k t)).
Proof. intros I R. unfold add_node. destruct (din s (tp_nodes t)) eqn:E; [exact I|]. cbn [fst]. destruct I as [A B C D F].
  assert (K : ~ In s (nodes t)) by (intros H; apply din_iff in H; congruence).
  split; cbn [with_nodes tp_nodes tp_edges]; auto.
  - unfold nodes. cbn [with_nodes tp_nodes]. apply dset_NoDup. exact A.
  - unfold nodes. cbn [with_nodes tp_nodes]. rewrite dkeys_dset_new by exact K. intros n Hn. apply in_app_or in Hn as [Hn|[<-|[]]]; auto.
  - intros e n He Hn. destruct (C e n He Hn) as (nd & j & G & H). exists nd, j. rewrite dget_dset_other; [auto|]. intros ->. apply K. apply dget_nodes in G. exact G. Qed.
Lemma fresh_form fuel pre ns : forall n s m, fresh fuel pre n ns = Some (s, m) -> exists j, s = append pre (dec j).
Proof. induction fuel as [|f IH]; cbn [fresh]; intros n s m H; [discriminate|]. destruct (din _ ns); [eauto|]. injection H as <- _. eauto. Qed.
Lemma counter_nodes k n t : tp_nodes (set_counter k n t) = tp_nodes t.
Proof. destruct k; reflexivity. Qed.
Lemma counter_edges k n t : tp_edges (set_counter k n t) = tp_edges t.
Proof. destruct k; reflexivity. Qed.
Lemma inv_add b t k name : Inv b t -> (forall s, name = Some s -> ~ reserved s) -> Inv b (fst (add k name t)).
Proof. intros I R. unfold add. destruct name as [s|]; [apply inv_add_node; auto|].
  destruct (fresh _ _ _ _) as [[s n]|] eqn:E; [|exact I]. apply fresh_form in E as [j ->]. apply inv_add_node; [|apply auto_not_reserved].
  apply (inv_ext b t); [apply counter_nodes|apply counter_edges|exact I]. Qed.

(** *** Removing *)
Lemma touches_ends n a b d : touches n (a, b, d) <-> n = a \/ n = b.
Proof. reflexivity. Qed.
Lemma inv_remove_node b t s : Inv b t -> Inv b (fst (remove_node s t)).
Proof. intros [A B C D E]. unfold remove_node. destruct (din s (tp_nodes t)) eqn:K; [|cbn [fst]; split; assumption]. cbn [fst].
  split; unfold nodes; cbn [with_nodes with_edges tp_nodes tp_edges].
  - apply ddel_NoDup. exact A.
  - intros n Hn. apply B. apply (dkeys_ddel s). exact Hn.
  - intros e n He Hn. apply filter_In in He as [He F]. destruct (C e n He Hn) as (nd & j & G). exists nd, j. rewrite dget_ddel_other; [exact G|].
    intros ->. destruct e as [[a c] d]. apply touches_ends in Hn. rewrite negb_true_iff, orb_false_iff in F. destruct F as [F1 F2].
    destruct Hn as [->| ->]; rewrite str_eqb_refl in *; discriminate.
  - apply sep_filter. exact D.
  - intros Hb e1 e2 n H1 H2. apply filter_In in H1, H2. destruct H1, H2. apply E; auto. Qed.
Lemma inv_remove_link b t u v : Inv b t -> Inv b (fst (remove_link u v t)).
Proof. intros [A B C D E]. unfold remove_link. destruct (has_link u v t) eqn:K; [|cbn [fst]; split; assumption]. cbn [fst].
  split; unfold nodes; cbn [with_edges tp_nodes tp_edges]; auto.
  - intros e n He Hn. apply filter_In in He as [He F]. auto.
  - apply sep_filter. exact D.
  - intros Hb e1 e2 n H1 H2. apply filter_In in H1, H2. destruct H1, H2. apply E; auto. Qed.

(** *** Link characteristics *)
Lemma in_attr_old es u v k x e : In e (set_attr u v k x es) -> exists e0, In e0 es /\ fst e0 = fst e /\
  forall m, m <> k -> dget m (snd e) = dget m (snd e0).
Proof. intros H. apply in_set_attr in H as (d & H1 & H2). exists (fst e, d). split; [exact H1|]. split; [reflexivity|]. cbn [snd].
  intros m Hm. rewrite H2. destruct (joins u v e); [apply dget_dset_other; auto|reflexivity]. Qed.
Lemma touches_fst n e e0 : fst e0 = fst e -> touches n e -> touches n e0.
Proof. unfold touches. intros ->. auto. Qed.
Lemma same_fst e1 e2 f1 f2 : fst f1 = fst e1 -> fst f2 = fst e2 -> same f1 f2 = same e1 e2.
Proof. destruct e1 as [[]], e2 as [[]], f1 as [[]], f2 as [[]]. cbn [fst]. intros H1 H2. injection H1 as -> ->. injection H2 as -> ->. reflexivity. Qed.
Lemma inv_set_attr b t u v k x : Inv b t -> reserved k -> Inv b (with_edges (set_attr u v k x (tp_edges t)) t).
Proof. intros [A B C D E] R. assert (NR : forall e n, In e (tp_edges t) -> touches n e -> n <> k).
  { intros e n He Hn ->. destruct (C e k He Hn) as (nd & j & G & _). apply dget_nodes in G. exact (B _ G R). }
  split; unfold nodes; cbn [with_edges tp_nodes tp_edges]; auto.
  - intros e n He Hn. apply in_attr_old in He as (e0 & H0 & F & G). pose proof (touches_fst _ _ _ F Hn) as Hn0.
    destruct (C e0 n H0 Hn0) as (nd & j & G1 & G2). exists nd, j. rewrite G by eauto. auto.
  - apply sep_set_attr. exact D.
  - intros Hb e1 e2 n H1 H2 T1 T2. apply in_attr_old in H1 as (f1 & H1 & F1 & G1). apply in_attr_old in H2 as (f2 & H2 & F2 & G2).
    pose proof (touches_fst _ _ _ F1 T1) as S1. pose proof (touches_fst _ _ _ F2 T2) as S2. rewrite G1, G2 by eauto. intros Q.
    rewrite <- (same_fst e1 e2 f1 f2) by auto. eapply E; eauto. Qed.
Lemma with_edges_twice a c t : with_edges a (with_edges c t) = with_edges a t.
Proof. reflexivity. Qed.
Lemma inv_set_link b t u v c d : Inv b t -> Inv b (fst (set_link u v c d t)).
Proof. intros I. unfold set_link. destruct (has_link u v t); [|exact I].
  set (es1 := match c with Some c => set_attr u v "capacity" (ACap c) (tp_edges t) | None => tp_edges t end).
  set (es2 := match d with Some d => set_attr u v "delay" (ADelay d) es1 | None => es1 end).
  assert (I1 : Inv b (with_edges es1 t)).
  { unfold es1. destruct c; [apply inv_set_attr; [exact I|unfold reserved; auto]|]. apply (inv_ext b t); auto. }
  assert (I2 : Inv b (with_edges es2 t)).
  { unfold es2. destruct d; [|exact I1]. rewrite <- (with_edges_twice _ es1). apply (inv_set_attr b (with_edges es1 t)); [exact I1|unfold reserved; auto]. }
  assert (I3 : Inv b (with_edges (set_attr u v "label" ALabel es2) (with_edges es2 t))).
  { apply (inv_set_attr b (with_edges es2 t)); [exact I2|unfold reserved; auto]. }
  destruct (get_link u v (with_edges es2 t)) as [a|e]; [|exact I2].
  destruct (dget "capacity" a) as [[]|]; try exact I2. destruct c0; [|exact I2]. destruct (_ <=? _); [exact I2|].
  destruct (dget "delay" a) as [[]|]; try exact I2. destruct d0; [exact I3|exact I2]. Qed.

(** *** A new link *)
Lemma in_add_edge u v es e : In e (add_edge u v es) -> In e es \/ e = (u, v, []).
Proof. unfold add_edge. destruct (existsb _ _); [auto|]. intros H. apply in_app_or in H as [H|[H|[]]]; auto. Qed.
Lemma inv_new_link b t u v i1 i2 n1 n2 j1 j2 :
  Inv b t -> dget u (tp_nodes t) = Some n1 -> dget v (tp_nodes t) = Some n2 -> i1 = eth_name j1 -> i2 = eth_name j2 ->
  din i1 (tn_ifs n1) = true -> din i2 (tn_ifs n2) = true -> (b = true -> (j1 < tn_ifnum n1 /\ j2 < tn_ifnum n2)%N) ->
  (b = true -> forall e n, In e (tp_edges t) -> touches n e -> (n = u -> dget n (snd e) <> Some (AName i1)) /\ (n = v -> dget n (snd e) <> Some (AName i2))) ->
  Inv b (with_edges (set_attr u v v (AName i2) (set_attr u v u (AName i1) (add_edge u v (tp_edges t)))) t).
Proof. intros [A B C D E] G1 G2 -> -> X1 X2 J F. set (es := add_edge u v (tp_edges t)).
  assert (Q : forall e, In e (set_attr u v v (AName (eth_name j2)) (set_attr u v u (AName (eth_name j1)) es)) ->
    (joins u v e = true /\ dget v (snd e) = Some (AName (eth_name j2)) /\ (u <> v -> dget u (snd e) = Some (AName (eth_name j1)))) \/
    (joins u v e = false /\ In e (tp_edges t))).
  { intros e He. apply in_set_attr in He as (d1 & H1 & H2). apply in_set_attr in H1 as (d & H0 & H1).
    rewrite joins_fst in H1. cbn [fst snd] in H0, H1. destruct (joins u v e) eqn:K.
    - left. split; [reflexivity|]. rewrite H2. split; [apply dget_dset_same|]. intros N. rewrite dget_dset_other by exact N. rewrite H1. apply dget_dset_same.
    - right. split; [reflexivity|]. apply in_add_edge in H0 as [H0|H0].
      + destruct e as [ab d2]. cbn [fst snd] in *. subst. exact H0.
      + exfalso. rewrite <- (joins_fst u v e d), H0 in K. cbn in K. rewrite !str_eqb_refl in K. discriminate. }
  split; unfold nodes; cbn [with_edges tp_nodes tp_edges]; auto.
  - intros e n He Hn. apply Q in He as [(K & V & U)|(K & He)]; [|auto]. destruct (joins_touch _ _ _ _ K Hn) as [->| ->].
    + destruct (str_spec u v) as [->|N].
      * exists n2, j2. split; [exact G2|]. split; [exact V|]. split; [exact X2|]. intros Hb. apply (J Hb).
      * exists n1, j1. split; [exact G1|]. split; [exact (U N)|]. split; [exact X1|]. intros Hb. apply (J Hb).
    + exists n2, j2. split; [exact G2|]. split; [exact V|]. split; [exact X2|]. intros Hb. apply (J Hb).
  - apply sep_set_attr, sep_set_attr, sep_add_edge. exact D.
  - intros Hb e1 e2 n H1 H2 T1 T2 W. apply Q in H1 as [(K1 & V1 & U1)|(K1 & H1)]; apply Q in H2 as [(K2 & V2 & U2)|(K2 & H2)].
    + apply (same_joins u v); auto.
    + exfalso. destruct (F Hb e2 n H2 T2) as [F1 F2]. destruct (joins_touch _ _ _ _ K1 T1) as [->| ->].
      * destruct (str_spec u v) as [->|N]; [apply (F2 eq_refl); congruence|]. apply (F1 eq_refl). rewrite <- W. apply U1. exact N.
      * apply (F2 eq_refl). congruence.
    + exfalso. destruct (F Hb e1 n H1 T1) as [F1 F2]. destruct (joins_touch _ _ _ _ K2 T2) as [->| ->].
      * destruct (str_spec u v) as [->|N]; [apply (F2 eq_refl); congruence|]. apply (F1 eq_refl). rewrite W. apply U2. exact N.
      * apply (F2 eq_refl). congruence.
    + eapply E; eauto. Qed.
Lemma inv_ifnum b z t : Inv b t -> Inv b (with_ifnum z t).
Proof. apply inv_ext; reflexivity. Qed.
Lemma inv_link_up b t u v : Inv b t -> Inv b (fst (link_up u v t)).
Proof. intros I. unfold link_up. destruct (din u (tp_nodes t)); [|exact I]. destruct (din v (tp_nodes t)); [|exact I]. cbn [negb].
  set (mt := if tp_auto t then _ else _). assert (I1 : Inv b (snd mt)) by (unfold mt; destruct (tp_auto t); [apply inv_ifnum|]; exact I).
  clearbody mt. destruct mt as [[m1 m2] t1]. cbn [snd] in I1. clear I t. rename t1 into t.
  destruct (dget u (tp_nodes t)) as [n1|] eqn:G1; [|exact I1].
  destruct (node_add_if m1 n1) as [n1' r1] eqn:A1. pose proof (add_if_extends m1 n1) as X1. rewrite A1 in X1. cbn [fst] in X1.
  pose proof (inv_update b t u n1 n1' I1 G1 X1) as I2. destruct r1 as [i1|e]; [|exact I2]. apply add_if_name in A1 as (N1 & C1 & D1).
  set (t2 := node_update u n1' t) in *. destruct (dget v (tp_nodes t2)) as [n2|] eqn:G2; [|exact I2].
  destruct (node_add_if m2 n2) as [n2' r2] eqn:A2. pose proof (add_if_extends m2 n2) as X2. rewrite A2 in X2. cbn [fst] in X2.
  pose proof (inv_update b t2 v n2 n2' I2 G2 X2) as I3. destruct r2 as [i2|e]; [|exact I3]. apply add_if_name in A2 as (N2 & C2 & D2).
  cbn [fst]. set (t3 := node_update v n2' t2) in *.
  assert (V3 : dget v (tp_nodes t3) = Some n2') by (unfold t3; cbn [node_update with_nodes tp_nodes]; apply dget_dset_same).
  assert (U3 : exists n, dget u (tp_nodes t3) = Some n /\ extends n1' n).
  { destruct (str_spec u v) as [->|N].
    - exists n2'. split; [exact V3|]. unfold t2 in G2. cbn [node_update with_nodes tp_nodes] in G2. rewrite dget_dset_same in G2. injection G2 as <-. exact X2.
    - exists n1'. unfold t3, t2. cbn [node_update with_nodes tp_nodes]. rewrite dget_dset_other, dget_dset_same by auto.
      split; [reflexivity|]. split; [lia|auto]. }
  destruct U3 as (n1'' & U3 & X3). eapply inv_new_link; [exact I3|exact U3|exact V3|exact N1|exact N2| | | |].
  - apply X3. exact D1.
  - exact D2.
  - intros _. destruct X3 as [X3 _]. lia.
  - intros Hb e n He Hn. change (tp_edges t3) with (tp_edges t) in He.
    destruct (inv_ends b t I1 e n He Hn) as (nd & j & P1 & P2 & P3 & P4). specialize (P4 Hb). split; intros ->; rewrite P2; intros H; injection H as H.
    + subst i1. apply eth_name_inj in H. rewrite P1 in G1. injection G1 as ->. lia.
    + subst i2. apply eth_name_inj in H. unfold t2 in G2. cbn [node_update with_nodes tp_nodes] in G2. destruct (str_spec v u) as [->|N].
      * rewrite dget_dset_same in G2. injection G2 as <-. rewrite P1 in G1. injection G1 as ->. lia.
      * rewrite dget_dset_other in G2 by auto. rewrite P1 in G2. injection G2 as ->. lia. Qed.
Lemma inv_add_link b t u v c d : Inv b t -> Inv b (fst (add_link u v c d t)).
Proof. intros I. pose proof (inv_link_up b t u v I) as K. unfold add_link. destruct (link_up u v t) as [t' [e|]]; [exact K|]. apply inv_set_link. exact K. Qed.

(** *** Addresses *)
Lemma keep_extends k nd i x : extends nd (mkNode k (tn_ifnum nd) (dset i x (tn_ifs nd))).
Proof. split; cbn [tn_ifnum tn_ifs]; [lia|]. intros m H. unfold din in *. destruct (str_spec m i); [subst; rewrite dget_dset_same; reflexivity|].
  rewrite dget_dset_other by auto. exact H. Qed.
Lemma inv_set_addresses b t n i m p : Inv b t -> Inv b (fst (set_addresses n i m p t)).
Proof. intros I. unfold set_addresses. destruct (dget n (tp_nodes t)) as [nd|] eqn:G; [|exact I]. destruct (dget i (tn_ifs nd)) as [x|]; [|exact I].
  destruct (match m with Some _ => _ | None => _ end); [|exact I]. cbn [fst]. eapply inv_update; [exact I|exact G|apply keep_extends]. Qed.
Lemma inv_assign_one b plen last d n s : Inv b (fst s) -> Inv b (fst (fst (assign_one plen last d n s))).
Proof. intros I. destruct s as [t z]. cbn [fst] in I. unfold assign_one. destruct (dget n (tp_nodes t)) as [nd|] eqn:G; [|exact I].
  destruct (kind_eqb _ _); [exact I|]. destruct (dget n d) as [[s|? |? |]|]; try exact I. destruct (dget s (tn_ifs nd)); [|exact I].
  destruct (plen =? 32); [exact I|]. destruct (last <? z); [exact I|]. cbn [fst]. eapply inv_update; [exact I|exact G|apply keep_extends]. Qed.
Lemma inv_assign_loop b plen last l : forall s, Inv b (fst s) -> Inv b (fst (fst (assign_loop plen last l s))).
Proof. induction l as [|[u v] r IH]; intros s I; cbn [assign_loop]; [exact I|]. destruct (get_link u v (fst s)) as [d|]; [|exact I].
  pose proof (inv_assign_one b plen last d u s I) as I1. destruct (assign_one plen last d u s) as [s1 [e|]]; [exact I1|].
  pose proof (inv_assign_one b plen last d v s1 I1) as I2. destruct (assign_one plen last d v s1) as [s2 [e|]]; [exact I2|]. apply IH. exact I2. Qed.
Lemma inv_assign b t p : Inv b t -> Inv b (fst (assign_ips p t)).
Proof. intros I. unfold assign_ips. destruct (match p with Some _ => _ | None => _ end) as [a plen].
  pose proof (inv_assign_loop b plen (hosts_last a plen) (sorted (links t)) (t, hosts_first a plen) I) as H. destruct (assign_loop _ _ _ _) as [s e]. exact H. Qed.
