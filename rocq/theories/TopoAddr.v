(** Unique names and Ethernet addresses; automatic IP addresses. *)
From Coq Require Import Permutation.
From Verif Require Import BaseLemmas CodecLemmas EthAddrModel EthAddrSpec EthAddrProofs TopoModel TopoNames TopoProofs TopoSpec TopoInv TopoMore.
#[local] Open Scope string_scope.
#[local] Open Scope Z_scope.
#[local] Open Scope list_scope.

(** ** Names *)
Lemma set_link_nodes u v c d t : tp_nodes (fst (set_link u v c d t)) = tp_nodes t /\ tp_ifnum (fst (set_link u v c d t)) = tp_ifnum t /\ tp_auto (fst (set_link u v c d t)) = tp_auto t.
Proof. unfold set_link. destruct (has_link u v t); [|auto]. destruct (get_link _ _ _) as [a|]; [|auto].
  destruct (dget "capacity" a) as [[| [] | |]|]; auto. destruct (_ <=? _); auto. destruct (dget "delay" a) as [[| | [] |]|]; auto. Qed.
Lemma update_NoDup k n t : NoDup (nodes t) -> NoDup (nodes (node_update k n t)).
Proof. apply dset_NoDup. Qed.
Lemma link_up_NoDup u v t : NoDup (nodes t) -> NoDup (nodes (fst (link_up u v t))).
Proof. intros N. unfold link_up. destruct (din u (tp_nodes t)); [|exact N]. destruct (din v (tp_nodes t)); [|exact N]. cbn [negb].
  set (mt := if tp_auto t then _ else _). assert (N1 : NoDup (nodes (snd mt))) by (unfold mt; destruct (tp_auto t); exact N).
  destruct mt as [[m1 m2] t1]. cbn [snd] in N1. destruct (dget u (tp_nodes t1)) as [n1|]; [|exact N1]. destruct (node_add_if m1 n1) as [n1' [i1|e]]; [|apply update_NoDup; exact N1].
  destruct (dget v _) as [n2|]; [|apply update_NoDup; exact N1]. destruct (node_add_if m2 n2) as [n2' [i2|e]]; [|apply update_NoDup, update_NoDup; exact N1].
  apply update_NoDup, update_NoDup; exact N1. Qed.
Lemma add_link_NoDup u v c d t : NoDup (nodes t) -> NoDup (nodes (fst (add_link u v c d t))).
Proof. intros N. pose proof (link_up_NoDup u v t N) as K. unfold add_link. destruct (link_up u v t) as [t' [e|]]; [exact K|].
  unfold nodes. rewrite (proj1 (set_link_nodes _ _ _ _ _)). exact K. Qed.
Lemma set_addresses_NoDup n i m p t : NoDup (nodes t) -> NoDup (nodes (fst (set_addresses n i m p t))).
Proof. intros N. unfold set_addresses. destruct (dget n (tp_nodes t)) as [nd|]; [|exact N]. destruct (dget i (tn_ifs nd)); [|exact N].
  destruct (match m with Some _ => _ | None => _ end); [|exact N]. apply update_NoDup. exact N. Qed.
Lemma assign_one_NoDup plen last d n s : NoDup (nodes (fst s)) -> NoDup (nodes (fst (fst (assign_one plen last d n s)))).
Proof. intros N. destruct s as [t z]. cbn [fst] in N. unfold assign_one. destruct (dget n (tp_nodes t)) as [nd|]; [|exact N].
  destruct (kind_eqb _ _); [exact N|]. destruct (dget n d) as [[s|? |? |]|]; try exact N. destruct (dget s (tn_ifs nd)); [|exact N].
  destruct (plen =? 32); [exact N|]. destruct (last <? z); [exact N|]. apply update_NoDup. exact N. Qed.
Lemma assign_loop_NoDup plen last l : forall s, NoDup (nodes (fst s)) -> NoDup (nodes (fst (fst (assign_loop plen last l s)))).
Proof. induction l as [|[u v] r IH]; intros s I; cbn [assign_loop]; [exact I|]. destruct (get_link u v (fst s)) as [d|]; [|exact I].
  pose proof (assign_one_NoDup plen last d u s I) as I1. destruct (assign_one plen last d u s) as [s1 [e|]]; [exact I1|].
  pose proof (assign_one_NoDup plen last d v s1 I1) as I2. destruct (assign_one plen last d v s1) as [s2 [e|]]; [exact I2|]. apply IH. exact I2. Qed.
Lemma rename_NoDup p t : NoDup (nodes t) -> NoDup (dkeys (map (fun x => (rename p (fst x), snd x)) (tp_nodes t))).
Proof. intros N. rewrite dkeys_rename. apply FinFun.Injective_map_NoDup; [intros x y; apply rename_inj|exact N]. Qed.
Lemma step_NoDup t o : NoDup (nodes t) -> NoDup (nodes (topo_step t o)).
Proof. intros N. destruct o; cbn [topo_step].
  - assert (A : forall s x, NoDup (nodes x) -> NoDup (nodes (fst (add_node s k x)))).
    { intros s x Nx. unfold add_node. destruct (din _ _); [exact Nx|]. apply dset_NoDup. exact Nx. }
    unfold add. destruct name as [s|]; [auto|]. destruct (fresh _ _ _ _) as [[s n]|]; [|exact N]. apply A. unfold nodes. rewrite counter_nodes. exact N.
  - apply add_link_NoDup. exact N.
  - unfold nodes. rewrite (proj1 (set_link_nodes _ _ _ _ _)). exact N.
  - unfold remove_node. destruct (din _ _); [|exact N]. apply ddel_NoDup. exact N.
  - unfold remove_link. destruct (has_link _ _ _); exact N.
  - apply set_addresses_NoDup. exact N.
  - unfold assign_ips. destruct (match prefix with Some _ => _ | None => _ end) as [a plen].
    pose proof (assign_loop_NoDup plen (hosts_last a plen) (sorted (links t)) (t, hosts_first a plen) N) as H. destruct (assign_loop _ _ _ _). exact H.
  - unfold label_prefix. destruct prefix as [p|].
    + unfold relabel. destruct (mapr _ _); [|exact N]. cbn [bindr fst]. apply rename_NoDup. exact N.
    + destruct (edge_list t); [|exact N]. apply rename_NoDup. exact N.
  - destruct (unserialize (serialize t)) as [t'|] eqn:U; [|exact N]. apply unserialize_shape in U as [R _]. unfold nodes. rewrite (rel_keys _ _ _ R). exact N. Qed.
Theorem run_NoDup os : forall t, NoDup (nodes t) -> NoDup (nodes (topo_run t os)).
Proof. unfold topo_run. induction os as [|o os IH]; intros t N; [exact N|]. cbn [fold_left]. apply IH, step_NoDup, N. Qed.

(** Adding a node. *)
Lemma add_fresh k t : exists s, snd (add k None t) = Ok s /\ ~ In s (nodes t) /\ nodes (fst (add k None t)) = nodes t ++ [s].
Proof. unfold add. destruct (fresh_total (prefix_of k) (counter k t) (tp_nodes t)) as (s & m & -> & D). exists s. unfold add_node. rewrite counter_nodes, D.
  cbn [fst snd]. assert (K : ~ In s (nodes t)) by (intros H; apply din_iff in H; congruence). split; [reflexivity|]. split; [exact K|].
  unfold nodes. cbn [with_nodes tp_nodes]. rewrite ?counter_nodes. apply dkeys_dset_new. exact K. Qed.
Lemma fresh_form pre ns : forall fuel n s m, fresh fuel pre n ns = Some (s, m) -> exists j, s = append pre (dec j).
Proof. induction fuel as [|f IH]; intros n s m; cbn [fresh]; [discriminate|]. destruct (din _ _); [apply IH|]. intros E. injection E as <- _. eauto. Qed.
Lemma add_form k t s : snd (add k None t) = Ok s ->
  (exists j, s = append (match k with Host => "h" | Switch => "s" | Router => "r" end) (dec j)) /\
  (forall k2, nodes_of k2 (fst (add k None t)) = nodes_of k2 t ++ (if kind_eqb k k2 then [s] else [])).
Proof.
  unfold add. destruct (fresh _ _ _ _) as [[s' m]|] eqn:F; [|discriminate]. unfold add_node. rewrite counter_nodes. destruct (din s' (tp_nodes t)) eqn:D; [discriminate|].
  cbn [fst snd]. intros E. injection E as ->. split; [destruct (fresh_form _ _ _ _ _ _ F) as (j & ->); exists j; destruct k; reflexivity|].
  intros k2. unfold nodes_of. cbn [with_nodes tp_nodes]. rewrite ?counter_nodes.
  assert (X : forall d : dict tnode, din s d = false -> dset s (node_new k) d = d ++ [(s, node_new k)]).
  { induction d as [|[a b] d IH]; [reflexivity|]. unfold din. cbn [dget dset app]. destruct (str_eqb s a); [discriminate|]. intros G. f_equal. apply IH. exact G. }
  cbn [with_nodes tp_nodes]. rewrite X by exact D. rewrite filter_app, map_app. f_equal. cbn [filter snd node_new tn_kind]. destruct (kind_eqb k k2); reflexivity.
Qed.
Lemma add_named k s t : (In s (nodes t) -> add k (Some s) t = (t, Err EExc)) /\
  (~ In s (nodes t) -> snd (add k (Some s) t) = Ok s /\ nodes (fst (add k (Some s) t)) = nodes t ++ [s]).
Proof. unfold add, add_node. split; intros H.
  - apply din_iff in H. rewrite H. reflexivity.
  - destruct (din s (tp_nodes t)) eqn:D; [apply din_iff in D; contradiction|]. cbn [fst snd]. split; [reflexivity|]. apply dkeys_dset_new. exact H. Qed.

(** ** Ethernet addresses *)
Record Macs (L : Z) (t : topo) : Prop := {
  mac_form : forall n i m ips, get_addresses n i t = Ok (m, ips) -> exists z, 0 < z < L /\ z < 2 ^ 48 /\ m = be 6 z;
  mac_inj : forall n i n2 i2 m ips ips2, get_addresses n i t = Ok (m, ips) -> get_addresses n2 i2 t = Ok (m, ips2) -> n = n2 /\ i = i2 }.
Lemma macs_sub L t t' : (forall n i m ips, get_addresses n i t' = Ok (m, ips) -> exists ips0, get_addresses n i t = Ok (m, ips0)) -> Macs L t -> Macs L t'.
Proof. intros S [F J]. split.
  - intros n i m ips H. apply S in H as [ips0 H]. eauto.
  - intros n i n2 i2 m ips ips2 H1 H2. apply S in H1 as [a H1]. apply S in H2 as [c H2]. eauto. Qed.
Lemma addr_ext n i t t' : tp_nodes t' = tp_nodes t -> get_addresses n i t' = get_addresses n i t.
Proof. unfold get_addresses. intros ->. reflexivity. Qed.
Lemma macs_ext L t t' : tp_nodes t' = tp_nodes t -> Macs L t -> Macs L t'.
Proof. intros E. apply macs_sub. intros n i m ips H. rewrite (addr_ext n i t t' E) in H. eauto. Qed.
Lemma addr_update k nd' t n i : get_addresses n i (node_update k nd' t) =
  if str_eqb n k then match dget i (tn_ifs nd') with Some x => Ok (if_mac x, if_ips x) | None => Err EKey end else get_addresses n i t.
Proof. unfold get_addresses, node_update, with_nodes. cbn [tp_nodes]. destruct (str_spec n k).
  - subst. rewrite dget_dset_same. reflexivity.
  - rewrite dget_dset_other by auto. reflexivity. Qed.
Lemma be6_inj a b : 0 <= a < 2 ^ 48 -> 0 <= b < 2 ^ 48 -> be 6 a = be 6 b -> a = b.
Proof. intros Ha Hb H. apply (f_equal unbe) in H. rewrite !unbe_be_small in H by (change (256 ^ Z.of_nat 6) with (2 ^ 48); lia). exact H. Qed.
Lemma macs_add_if L t k n z : Macs L t -> 0 < L -> dget k (tp_nodes t) = Some n -> z = L -> Macs (L + 1) (node_update k (fst (node_add_if (AStr (mac_text z)) n)) t).
Proof. intros [F J] P G ->. unfold node_add_if. destruct (eth_init (AStr (mac_text L))) as [a|e] eqn:E; cbn [fst].
  - apply mac_auto in E as [B ->]; [|lia]. set (nm := eth_name (tn_ifnum n)).
    set (nd' := mkNode _ _ _). assert (Q : forall n0 i m ips, get_addresses n0 i (node_update k nd' t) = Ok (m, ips) ->
      (n0 = k /\ i = nm /\ m = be 6 L) \/ (~ (n0 = k /\ i = nm) /\ get_addresses n0 i t = Ok (m, ips))).
    { intros n0 i m ips H. rewrite addr_update in H. destruct (str_spec n0 k).
      - subst n0. cbn [nd' tn_ifs] in H. destruct (str_spec i nm).
        + subst i. rewrite dget_dset_same in H. apply ok_pair_inj in H as [<- _]. left. auto.
        + rewrite dget_dset_other in H by auto. right. split; [tauto|]. unfold get_addresses. rewrite G. exact H.
      - right. split; [tauto|exact H]. }
    split.
    + intros n0 i m ips H. apply Q in H as [(_ & _ & ->)|[_ H]]; [exists L; split; [lia|auto]|]. destruct (F _ _ _ _ H) as (z & H1 & H2). exists z. split; [lia|exact H2].
    + intros n0 i n2 i2 m ips ips2 H1 H2. apply Q in H1 as [(A1 & A2 & A3)|[A1 H1]]; apply Q in H2 as [(B1 & B2 & B3)|[B1 H2]].
      * subst. auto.
      * exfalso. destruct (F _ _ _ _ H2) as (z & Z1 & Z2 & Z3). rewrite A3 in Z3. apply be6_inj in Z3; lia.
      * exfalso. destruct (F _ _ _ _ H1) as (z & Z1 & Z2 & Z3). rewrite B3 in Z3. apply be6_inj in Z3; lia.
      * eauto.
  - assert (M : Macs L (node_update k (mkNode (tn_kind n) (tn_ifnum n + 1) (tn_ifs n)) t)).
    { apply (macs_sub L t); [|split; assumption]. intros n0 i m ips H. rewrite addr_update in H. destruct (str_spec n0 k); [|eauto]. subst. unfold get_addresses. rewrite G. eauto. }
    destruct M as [F2 J2]. split; [|exact J2]. intros n0 i m ips H. destruct (F2 _ _ _ _ H) as (z & Z1 & Z2). exists z. split; [lia|exact Z2]. Qed.
Lemma macs_mono L L' t : L <= L' -> Macs L t -> Macs L' t.
Proof. intros H [F J]. split; [|exact J]. intros n i m ips G. destruct (F _ _ _ _ G) as (z & Z1 & Z2). exists z. split; [lia|exact Z2]. Qed.
Definition MI (t : topo) : Prop := tp_auto t = true /\ 0 < tp_ifnum t /\ NoDup (nodes t) /\ Macs (tp_ifnum t) t.
Lemma mi_link_up u v t : MI t -> MI (fst (link_up u v t)).
Proof. intros M0. pose proof M0 as (A & P & N & M). assert (N' : NoDup (nodes (fst (link_up u v t)))) by (apply link_up_NoDup; exact N). revert N'.
  unfold link_up. destruct (din u (tp_nodes t)); [|intros _; exact M0]. destruct (din v (tp_nodes t)); [|intros _; exact M0]. cbn [negb]. rewrite A.
  set (z := tp_ifnum t) in *. set (t1 := with_ifnum (z + 2) t).
  assert (M1 : Macs z t1) by (apply (macs_ext z t); [reflexivity|exact M]).
  destruct (dget u (tp_nodes t1)) as [n1|] eqn:G1; [|intros N'; split; [exact A|]; split; [cbn; lia|]; split; [exact N'|apply (macs_mono z); [cbn; lia|exact M1]]].
  pose proof (macs_add_if z t1 u n1 z M1 P G1 eq_refl) as M2. destruct (node_add_if (AStr (mac_text z)) n1) as [n1' r1]. cbn [fst] in M2.
  set (t2 := node_update u n1' t1) in *.
  destruct r1 as [i1|e]; [|intros N'; split; [exact A|]; split; [cbn; lia|]; split; [exact N'|apply (macs_mono (z + 1)); [cbn; lia|exact M2]]].
  destruct (dget v (tp_nodes t2)) as [n2|] eqn:G2; [|intros N'; split; [exact A|]; split; [cbn; lia|]; split; [exact N'|apply (macs_mono (z + 1)); [cbn; lia|exact M2]]].
  pose proof (macs_add_if (z + 1) t2 v n2 (z + 1) M2 ltac:(lia) G2 eq_refl) as M3. destruct (node_add_if (AStr (mac_text (z + 1))) n2) as [n2' r2]. cbn [fst] in M3.
  set (t3 := node_update v n2' t2) in *.
  destruct r2 as [i2|e]; [|intros N'; split; [exact A|]; split; [cbn; lia|]; split; [exact N'|apply (macs_mono (z + 1 + 1)); [cbn; lia|exact M3]]].
  set (es := set_attr _ _ _ _ _). intros N'.
  split; [exact A|]. split; [cbn; lia|]. split; [exact N'|]. apply (macs_mono (z + 1 + 1)); [cbn; lia|]. apply (macs_ext _ t3); [reflexivity|exact M3]. Qed.
Lemma mi_add_link u v c d t : MI t -> MI (fst (add_link u v c d t)).
Proof. intros M0. pose proof (mi_link_up u v t M0) as (A & P & N & M). assert (N' : NoDup (nodes (fst (add_link u v c d t)))) by (apply add_link_NoDup, M0). revert N'.
  unfold add_link. destruct (link_up u v t) as [t' [e|]]; cbn [fst] in *; intros N'; [exact (conj A (conj P (conj N M)))|].
  destruct (set_link_nodes u v c d t') as (Q1 & Q2 & Q3). split; [rewrite Q3; exact A|]. rewrite Q2. split; [exact P|]. split; [exact N'|].
  apply (macs_ext _ t'); [exact Q1|exact M]. Qed.
Lemma keep_addr nd k i x y t : dget k (tp_nodes t) = Some nd -> dget i (tn_ifs nd) = Some x -> if_mac y = if_mac x ->
  forall n j m ips, get_addresses n j (node_update k (mkNode (tn_kind nd) (tn_ifnum nd) (dset i y (tn_ifs nd))) t) = Ok (m, ips) -> exists ips0, get_addresses n j t = Ok (m, ips0).
Proof. intros G1 G2 E n j m ips H. rewrite addr_update in H. destruct (str_spec n k); [|eauto]. subst n. cbn [tn_ifs] in H. unfold get_addresses. rewrite G1.
  destruct (str_spec j i).
  - subst j. rewrite dget_dset_same in H. apply ok_pair_inj in H as [<- _]. rewrite G2, E. eauto.
  - rewrite dget_dset_other in H by auto. eauto. Qed.
Lemma if_assign_mac a x : if_mac (if_assign a x) = if_mac x.
Proof. unfold if_assign. destruct (existsb _ _); reflexivity. Qed.
Lemma mi_keep t t' : tp_auto t' = tp_auto t -> tp_ifnum t' = tp_ifnum t -> NoDup (nodes t') ->
  (forall n i m ips, get_addresses n i t' = Ok (m, ips) -> exists ips0, get_addresses n i t = Ok (m, ips0)) -> MI t -> MI t'.
Proof. intros E1 E2 N S (A & P & _ & M). split; [congruence|]. split; [lia|]. split; [exact N|]. rewrite E2. apply (macs_sub _ t); assumption. Qed.
Lemma assign_one_keeps plen last d n s : let s' := fst (assign_one plen last d n s) in
  tp_auto (fst s') = tp_auto (fst s) /\ tp_ifnum (fst s') = tp_ifnum (fst s) /\
  forall k i m ips, get_addresses k i (fst s') = Ok (m, ips) -> exists ips0, get_addresses k i (fst s) = Ok (m, ips0).
Proof. destruct s as [t z]. unfold assign_one. cbn [fst].
  assert (R : tp_auto t = tp_auto t /\ tp_ifnum t = tp_ifnum t /\ forall k i m ips, get_addresses k i t = Ok (m, ips) -> exists ips0, get_addresses k i t = Ok (m, ips0)) by (split; [reflexivity|split; [reflexivity|eauto]]).
  destruct (dget n (tp_nodes t)) as [nd|] eqn:G; [|exact R].
  destruct (kind_eqb _ _); [exact R|]. destruct (dget n d) as [[s|? |? |]|]; try exact R. destruct (dget s (tn_ifs nd)) eqn:G2; [|exact R].
  destruct (plen =? 32); [exact R|]. destruct (last <? z); [exact R|]. cbn [fst]. split; [reflexivity|]. split; [reflexivity|].
  apply (keep_addr nd n s i _ t G G2). apply if_assign_mac. Qed.
Lemma assign_loop_keeps plen last l : forall s, let s' := fst (assign_loop plen last l s) in
  tp_auto (fst s') = tp_auto (fst s) /\ tp_ifnum (fst s') = tp_ifnum (fst s) /\
  forall k i m ips, get_addresses k i (fst s') = Ok (m, ips) -> exists ips0, get_addresses k i (fst s) = Ok (m, ips0).
Proof. induction l as [|[u v] r IH]; intros s; cbn [assign_loop fst].
  - split; [reflexivity|]. split; [reflexivity|]. eauto.
  - destruct (get_link u v (fst s)) as [d|]; cbn [fst]; [|split; [reflexivity|]; split; [reflexivity|]; eauto].
    pose proof (assign_one_keeps plen last d u s) as (A1 & B1 & C1). destruct (assign_one plen last d u s) as [s1 [e|]]; cbn [fst] in *; [auto|].
    pose proof (assign_one_keeps plen last d v s1) as (A2 & B2 & C2). destruct (assign_one plen last d v s1) as [s2 [e|]]; cbn [fst] in *.
    + split; [congruence|]. split; [congruence|]. intros k i m ips H. apply C2 in H as [ips0 H]. eauto.
    + destruct (IH s2) as (A3 & B3 & C3). split; [congruence|]. split; [congruence|]. intros k i m ips H. apply C3 in H as [ips0 H]. apply C2 in H as [ips1 H]. eauto. Qed.
Lemma mi_rename p t es : MI t -> MI (with_edges es (with_nodes (map (fun x => (rename p (fst x), snd x)) (tp_nodes t)) t)).
Proof. intros (A & P & N & [F J]). set (t' := with_edges es _).
  assert (Q : forall n i r, get_addresses n i t' = Ok r -> exists m, n = rename p m /\ get_addresses m i t = Ok r).
  { intros n i r H. assert (K : In n (nodes t')).
    { unfold get_addresses in H. destruct (dget n (tp_nodes t')) eqn:G; [|discriminate]. eapply dget_nodes. exact G. }
    unfold nodes in K. cbn [t' with_edges with_nodes tp_nodes] in K. rewrite dkeys_rename in K. apply in_map_iff in K as (m & <- & _).
    exists m. split; [reflexivity|]. unfold get_addresses in *. cbn [t' with_edges with_nodes tp_nodes] in H. rewrite dget_rename in H. exact H. }
  split; [exact A|]. split; [exact P|]. split; [apply rename_NoDup; exact N|]. split.
  - intros n i m ips H. apply Q in H as (k & _ & H). eauto.
  - intros n i n2 i2 m ips ips2 H1 H2. apply Q in H1 as (k & -> & H1). apply Q in H2 as (k2 & -> & H2). destruct (J _ _ _ _ _ _ _ H1 H2) as [-> ->]. auto. Qed.
Lemma mi_step t o : MI t -> plain o -> MI (topo_step t o).
Proof. intros M PL. pose proof (step_NoDup t o (proj1 (proj2 (proj2 M)))) as N'. destruct o; cbn [topo_step plain] in *; try contradiction.
  - apply (mi_keep t); [| |exact N'| |exact M].
    + unfold add, add_node. destruct name as [s|]; [destruct (din _ _); reflexivity|]. destruct (fresh _ _ _ _) as [[s n]|]; [|reflexivity]. destruct (din _ _); destruct k; reflexivity.
    + unfold add, add_node. destruct name as [s|]; [destruct (din _ _); reflexivity|]. destruct (fresh _ _ _ _) as [[s n]|]; [|reflexivity]. destruct (din _ _); destruct k; reflexivity.
    + assert (A : forall s x n i m ips, tp_nodes x = tp_nodes t -> get_addresses n i (fst (add_node s k x)) = Ok (m, ips) -> exists ips0, get_addresses n i t = Ok (m, ips0)).
      { intros s x n i m ips E H. unfold add_node in H. destruct (din s (tp_nodes x)); cbn [fst] in H; [rewrite (addr_ext n i t x E) in H; eauto|].
        unfold get_addresses in *. cbn [with_nodes tp_nodes] in H. destruct (str_spec n s).
        - subst. rewrite dget_dset_same in H. discriminate.
        - rewrite dget_dset_other, E in H by auto. eauto. }
      intros n i m ips. unfold add. destruct name as [s|]; [apply A; reflexivity|]. destruct (fresh _ _ _ _) as [[s c]|]; [|eauto]. apply A. apply counter_nodes.
  - apply mi_add_link. exact M.
  - destruct (set_link_nodes u v cap delay t) as (Q1 & Q2 & Q3). apply (mi_keep t); auto. intros n i m ips H. rewrite (addr_ext n i t _ Q1) in H. eauto.
  - unfold remove_node in *. destruct (din name (tp_nodes t)); [|exact M]. cbn [fst] in *. apply (mi_keep t); auto. intros n i m ips H.
    unfold get_addresses in *. cbn [with_edges with_nodes tp_nodes] in H. destruct (str_spec n name).
    + subst. rewrite dget_ddel_same in H by apply M. discriminate.
    + rewrite dget_ddel_other in H by auto. eauto.
  - unfold remove_link in *. destruct (has_link u v t); [|exact M]. apply (mi_keep t); auto. intros n i m ips H. eauto.
  - destruct mac; [contradiction|]. unfold set_addresses in *. destruct (dget node (tp_nodes t)) as [nd|] eqn:G; [|exact M]. destruct (dget intf (tn_ifs nd)) as [x|] eqn:G2; [|exact M].
    cbn [fst] in *. apply (mi_keep t); auto. apply (keep_addr nd node intf x _ t G G2). destruct ip; [rewrite if_assign_mac|]; reflexivity.
  - unfold assign_ips in *. destruct (match prefix with Some _ => _ | None => _ end) as [a plen].
    pose proof (assign_loop_keeps plen (hosts_last a plen) (sorted (links t)) (t, hosts_first a plen)) as (A & B & C). destruct (assign_loop _ _ _ _) as [s e]. cbn [fst] in *.
    apply (mi_keep t); auto.
  - unfold label_prefix. destruct prefix as [p|].
    + unfold relabel. destruct (mapr _ _) as [es|]; [|exact M]. cbn [bindr fst]. apply mi_rename. exact M.
    + destruct (edge_list t); [|exact M]. cbn [fst]. apply (mi_rename "None" t (tp_edges t)). exact M. Qed.
Lemma mi_new name : MI (topo_new name true).
Proof. split; [reflexivity|]. split; [cbn; lia|]. split; [constructor|]. split; [intros n i m ips H; discriminate H|intros n i n2 i2 m ips ips2 H; discriminate H]. Qed.
Theorem macs_unique os : forall t, MI t -> Forall plain os -> MI (topo_run t os).
Proof. unfold topo_run. induction os as [|o os IH]; intros t M F; [exact M|]. inversion F; subst. cbn [fold_left]. apply IH; [|assumption]. apply mi_step; assumption. Qed.

(** ** Automatic IP addresses *)
Lemma insert_perm x l : Permutation (insert x l) (x :: l).
Proof. induction l as [|y r IH]; cbn [insert]; [reflexivity|]. destruct (pair_leb x y); [reflexivity|]. rewrite IH. apply perm_swap. Qed.
Lemma sorted_perm l : Permutation (sorted l) l.
Proof. unfold sorted. induction l as [|x l IH]; cbn [fold_right]; [reflexivity|]. rewrite insert_perm, IH. reflexivity. Qed.
Definition tag (t : topo) (d : dict attr) (n : str) : list (str * str) :=
  match dget n (tp_nodes t) with
  | Some nd => if kind_eqb (tn_kind nd) Switch then [] else match dget n d with Some (AName i) => [(n, i)] | _ => [] end
  | None => []
  end.
Definition flat1 (t : topo) (w : str * str) : list (str * str) :=
  match get_link (fst w) (snd w) t with Ok d => tag t d (fst w) ++ tag t d (snd w) | Err _ => [] end.
Definition flat (t : topo) (work : list (str * str)) : list (str * str) := List.concat (map (flat1 t) work).
Definition put (plen z : Z) (x : str * str) (t : topo) : topo :=
  match dget (fst x) (tp_nodes t) with
  | Some nd => match dget (snd x) (tn_ifs nd) with
               | Some i => node_update (fst x) (mkNode (tn_kind nd) (tn_ifnum nd) (dset (snd x) (if_assign (be 4 z, plen) i) (tn_ifs nd))) t
               | None => t
               end
  | None => t
  end.
Fixpoint assign_all (plen last : Z) (l : list (str * str)) (s : topo * Z) : (topo * Z) * option exn :=
  match l with
  | [] => (s, None)
  | x :: r => if last <? snd s then (s, Some EStopIter) else assign_all plen last r (put plen (snd s) x (fst s), snd s + 1)
  end.
(** States that differ in addresses only. *)
Definition similar (t t' : topo) : Prop := tp_edges t' = tp_edges t /\ forall n,
  match dget n (tp_nodes t), dget n (tp_nodes t') with
  | Some a, Some b => tn_kind b = tn_kind a /\ forall i, din i (tn_ifs b) = din i (tn_ifs a)
  | None, None => True
  | _, _ => False
  end.
Lemma similar_refl t : similar t t.
Proof. split; [reflexivity|]. intros n. destruct (dget n (tp_nodes t)); auto. Qed.
Lemma similar_trans a b c : similar a b -> similar b c -> similar a c.
Proof. intros [E1 H1] [E2 H2]. split; [congruence|]. intros n. specialize (H1 n). specialize (H2 n).
  destruct (dget n (tp_nodes a)), (dget n (tp_nodes b)), (dget n (tp_nodes c)); try tauto. destruct H1 as [K1 I1], H2 as [K2 I2]. split; [congruence|]. intros i. rewrite I2. auto. Qed.
Lemma similar_put plen z x t : similar t (put plen z x t).
Proof. unfold put. destruct (dget (fst x) (tp_nodes t)) as [nd|] eqn:G; [|apply similar_refl]. destruct (dget (snd x) (tn_ifs nd)) as [i|] eqn:G2; [|apply similar_refl].
  split; [reflexivity|]. intros n. cbn [node_update with_nodes tp_nodes]. destruct (str_spec n (fst x)).
  - subst n. rewrite G, dget_dset_same. cbn [tn_kind tn_ifs]. split; [reflexivity|]. intros j. unfold din. destruct (str_spec j (snd x)).
    + subst. rewrite dget_dset_same, G2. reflexivity.
    + rewrite dget_dset_other by auto. reflexivity.
  - rewrite dget_dset_other by auto. destruct (dget n (tp_nodes t)); auto. Qed.
Lemma similar_tag t t' d n : similar t t' -> tag t' d n = tag t d n.
Proof. intros [_ H]. specialize (H n). unfold tag. destruct (dget n (tp_nodes t)), (dget n (tp_nodes t')); try tauto. destruct H as [-> _]. reflexivity. Qed.
Lemma similar_flat1 t t' w : similar t t' -> flat1 t' w = flat1 t w.
Proof. intros S. unfold flat1, get_link. rewrite (proj1 S). destruct (find _ _) as [e|]; [|reflexivity]. rewrite !(similar_tag t t' _ _ S). reflexivity. Qed.
Lemma similar_flat t t' l : similar t t' -> flat t' l = flat t l.
Proof. intros S. unfold flat. f_equal. apply map_ext. intros w. apply similar_flat1. exact S. Qed.
Definition has_if (t : topo) (d : dict attr) (n : str) : Prop :=
  exists nd i, dget n (tp_nodes t) = Some nd /\ dget n d = Some (AName i) /\ din i (tn_ifs nd) = true.
Lemma similar_has t t' d n : similar t t' -> has_if t d n -> has_if t' d n.
Proof. intros [_ H] (nd & i & A & B & C). specialize (H n). rewrite A in H. destruct (dget n (tp_nodes t')) as [nd'|] eqn:G; [|contradiction]. destruct H as [_ H].
  exists nd', i. rewrite H. auto. Qed.
Lemma assign_one_tag plen last d n t z : plen <> 32 -> has_if t d n -> assign_one plen last d n (t, z) = assign_all plen last (tag t d n) (t, z).
Proof. intros P (nd & i & A & B & C). unfold assign_one, tag. rewrite A, B. destruct (kind_eqb (tn_kind nd) Switch); [reflexivity|]. unfold din in C.
  destruct (dget i (tn_ifs nd)) as [x|] eqn:G; [|discriminate]. destruct (Z.eqb_spec plen 32); [contradiction|]. cbn [assign_all fst snd].
  destruct (last <? z); [reflexivity|]. unfold put. cbn [fst snd]. rewrite A, G. reflexivity. Qed.
Lemma assign_all_app plen last a : forall b s, assign_all plen last (a ++ b) s =
  match assign_all plen last a s with (s1, None) => assign_all plen last b s1 | r => r end.
Proof. induction a as [|x a IH]; intros b s; cbn [app assign_all]; [reflexivity|]. destruct (last <? snd s); [reflexivity|]. apply IH. Qed.
Lemma assign_all_similar plen last l : forall t z, similar t (fst (fst (assign_all plen last l (t, z)))).
Proof. induction l as [|x l IH]; intros t z; cbn [assign_all fst snd]; [apply similar_refl|]. destruct (last <? z); [apply similar_refl|].
  eapply similar_trans; [apply (similar_put plen z x)|apply IH]. Qed.
Lemma assign_loop_all plen last work : plen <> 32 -> forall t z,
  (forall u v, In (u, v) work -> exists d, get_link u v t = Ok d /\ has_if t d u /\ has_if t d v) ->
  assign_loop plen last work (t, z) = assign_all plen last (flat t work) (t, z).
Proof. intros P. induction work as [|[u v] r IH]; intros t z H; [reflexivity|]. destruct (H u v (or_introl eq_refl)) as (d & G & U & V).
  change (flat t ((u, v) :: r)) with (flat1 t (u, v) ++ flat t r). unfold flat1. cbn [fst snd]. rewrite G. rewrite !assign_all_app.
  cbn [assign_loop fst]. rewrite G. rewrite (assign_one_tag plen last d u t z P U).
  pose proof (assign_all_similar plen last (tag t d u) t z) as S1. destruct (assign_all plen last (tag t d u) (t, z)) as [[t1 z1] [e|]]; [reflexivity|]. cbn [fst] in S1.
  rewrite (assign_one_tag plen last d v t1 z1 P (similar_has _ _ _ _ S1 V)). rewrite (similar_tag t t1 d v S1).
  pose proof (assign_all_similar plen last (tag t d v) t1 z1) as S2. destruct (assign_all plen last (tag t d v) (t1, z1)) as [[t2 z2] [e|]]; [reflexivity|]. cbn [fst] in S2.
  pose proof (similar_trans _ _ _ S1 S2) as S. rewrite IH.
  - rewrite (similar_flat t t2 r S). reflexivity.
  - intros u' v' H'. destruct (H u' v' (or_intror H')) as (d' & G' & U' & V'). exists d'. split; [unfold get_link in *; rewrite (proj1 S); exact G'|].
    split; eapply similar_has; eauto. Qed.
(** Positions in the list of work. *)
Definition pair_eqb (a b : str * str) : bool := str_eqb (fst a) (fst b) && str_eqb (snd a) (snd b).
Lemma pair_spec a b : reflect (a = b) (pair_eqb a b).
Proof. apply iff_reflect. destruct a, b. unfold pair_eqb. cbn [fst snd]. rewrite andb_true_iff, !str_eqb_eq. split; [intros H; injection H; auto|intros [-> ->]; reflexivity]. Qed.
Fixpoint pos (x : str * str) (l : list (str * str)) : option Z :=
  match l with [] => None | y :: r => if pair_eqb x y then Some 0 else option_map (Z.add 1) (pos x r) end.
Lemma pos_None x l : pos x l = None <-> ~ In x l.
Proof. induction l as [|y r IH]; cbn [pos In]; [tauto|]. destruct (pair_spec x y); [split; [discriminate|intros H; exfalso; apply H; left; auto]|].
  destruct (pos x r); cbn [option_map]; [split; [discriminate|intros H; exfalso; assert (~ In x r) by tauto; apply IH in H0; discriminate]|]. intuition congruence. Qed.
Lemma some_inj {A} (a b : A) : Some a = Some b -> a = b.
Proof. congruence. Qed.
Lemma pos_range x l k : pos x l = Some k -> 0 <= k < zlen l.
Proof. revert k. induction l as [|y r IH]; intros k; cbn [pos]; [discriminate|]. unfold zlen in *. cbn [List.length]. destruct (pair_eqb x y); [intros H; apply some_inj in H; lia|].
  destruct (pos x r) as [k'|]; [|discriminate]. cbn [option_map]. intros H. apply some_inj in H. specialize (IH k' eq_refl). lia. Qed.
Lemma pos_inj x y l k : pos x l = Some k -> pos y l = Some k -> x = y.
Proof. revert k. induction l as [|w r IH]; intros k; cbn [pos]; [discriminate|]. destruct (pair_spec x w), (pair_spec y w); try congruence.
  - intros H. apply some_inj in H. destruct (pos y r) as [k'|] eqn:E; [|discriminate]. cbn [option_map]. intros H2. apply some_inj in H2. apply pos_range in E. lia.
  - intros H0 H. apply some_inj in H. destruct (pos x r) as [k'|] eqn:E; [|discriminate]. cbn [option_map] in H0. apply some_inj in H0. apply pos_range in E. lia.
  - destruct (pos x r) as [k1|] eqn:E1; [|discriminate]. destruct (pos y r) as [k2|] eqn:E2; [|discriminate]. cbn [option_map]. intros H1 H2. apply some_inj in H1, H2.
    apply (IH k1); [reflexivity|]. f_equal. lia. Qed.
Definition added_ip (plen : Z) (z : option Z) (r : res (ethaddr * list ipif)) : res (ethaddr * list ipif) :=
  match z, r with
  | Some z, Ok (m, ips) => Ok (m, if existsb (ipif_eqb (be 4 z, plen)) ips then ips else ips ++ [(be 4 z, plen)])
  | _, _ => r
  end.
Lemma put_addr plen z x t n i : get_addresses n i (put plen z x t) = added_ip plen (if pair_eqb (n, i) x then Some z else None) (get_addresses n i t).
Proof. unfold put. destruct x as [k j]. cbn [fst snd]. destruct (dget k (tp_nodes t)) as [nd|] eqn:G.
  - destruct (dget j (tn_ifs nd)) as [x|] eqn:G2.
    + rewrite addr_update. unfold pair_eqb. cbn [fst snd tn_ifs]. destruct (str_spec n k); [|reflexivity]. subst n. destruct (str_spec i j).
      * subst i. rewrite dget_dset_same. unfold get_addresses. rewrite G, G2. cbn [andb added_ip]. rewrite if_assign_mac. unfold if_assign. destruct (existsb _ _); reflexivity.
      * rewrite dget_dset_other by auto. unfold get_addresses. rewrite G. reflexivity.
    + destruct (pair_spec (n, i) (k, j)) as [E|E]; [|reflexivity]. injection E as -> ->. unfold get_addresses. rewrite G, G2. reflexivity.
  - destruct (pair_spec (n, i) (k, j)) as [E|E]; [|reflexivity]. injection E as -> ->. unfold get_addresses. rewrite G. reflexivity. Qed.
Lemma assign_all_spec plen last l : forall t z, NoDup l ->
  (snd (assign_all plen last l (t, z)) = None <-> zlen l <= last - z + 1 \/ l = []) /\
  (snd (assign_all plen last l (t, z)) = None -> forall n i,
     get_addresses n i (fst (fst (assign_all plen last l (t, z)))) = added_ip plen (option_map (Z.add z) (pos (n, i) l)) (get_addresses n i t)).
Proof. induction l as [|x l IH]; intros t z N.
  - cbn. split; [tauto|]. reflexivity.
  - inversion N as [|? ? N1 N2]; subst. cbn [assign_all fst snd pos]. unfold zlen in *. cbn [List.length]. destruct (last <? z) eqn:E.
    + cbn [fst snd]. split; [split; [discriminate|intros [H|H]; [lia|discriminate H]]|discriminate].
    + destruct (IH (put plen z x t) (z + 1) N2) as [H1 H2]. split.
      * rewrite H1. split; (intros [H|H]; [left; lia|]); [subst l; left; cbn [List.length]; lia|discriminate H].
      * intros H n i. rewrite H2 by exact H. rewrite put_addr. destruct (pair_spec (n, i) x) as [Q|Q].
        -- subst x. apply pos_None in N1. rewrite N1. cbn [option_map added_ip]. replace (z + 0) with z by lia. reflexivity.
        -- destruct (pos (n, i) l) as [k|]; cbn [option_map added_ip]; [|reflexivity]. replace (z + 1 + k) with (z + (1 + k)) by lia. reflexivity. Qed.
(** The list of work has every interface at most once. *)
Lemma NoDup_app {A} (a b : list A) : NoDup a -> NoDup b -> (forall x, In x a -> ~ In x b) -> NoDup (a ++ b).
Proof. induction 1 as [|x a H N IH]; intros B D; [exact B|]. cbn [app]. constructor.
  - rewrite in_app_iff. intros [H1|H1]; [contradiction|]. apply (D x); [left; reflexivity|exact H1].
  - apply IH; [exact B|]. intros y Hy. apply D. right. exact Hy. Qed.
Lemma NoDup_flat t work : NoDup work -> (forall w, In w work -> NoDup (flat1 t w)) ->
  (forall w1 w2 x, In w1 work -> In w2 work -> In x (flat1 t w1) -> In x (flat1 t w2) -> w1 = w2) -> NoDup (flat t work).
Proof. unfold flat. induction 1 as [|w r H N IH]; intros F D; [constructor|]. cbn [map List.concat]. apply NoDup_app.
  - apply F. left. reflexivity.
  - apply IH; [intros v Hv; apply F; right; exact Hv|]. intros w1 w2 x H1 H2. apply D; right; assumption.
  - intros x X1 X2. apply in_concat in X2 as (l & L1 & L2). apply in_map_iff in L1 as (v & <- & V). apply H. rewrite (D w v x); auto; [left; reflexivity|right; exact V]. Qed.
Lemma in_tag t d n x : In x (tag t d n) <-> exists nd i, x = (n, i) /\ dget n (tp_nodes t) = Some nd /\ tn_kind nd <> Switch /\ dget n d = Some (AName i).
Proof. unfold tag. destruct (dget n (tp_nodes t)) as [nd|] eqn:G; [|split; [intros []|intros (? & ? & _ & H & _); discriminate]].
  destruct (kind_eqb (tn_kind nd) Switch) eqn:K.
  - split; [intros []|]. intros (nd' & i & _ & H & Q & _). injection H as <-. destruct (tn_kind nd); try discriminate; congruence.
  - destruct (dget n d) as [[i|? |? |]|] eqn:D; try (split; [intros []|intros (nd' & j & E1 & E2 & E3 & E4); discriminate E4]). split.
    + intros [<-|[]]. exists nd, i. split; [reflexivity|]. split; [reflexivity|]. split; [|reflexivity]. intros Q. rewrite Q in K. discriminate.
    + intros (nd' & j & E1 & E2 & E3 & E4). apply some_inj in E4. left. congruence. Qed.
Lemma nodes_of_iff t n k : NoDup (nodes t) -> In n (nodes_of k t) <-> exists nd, dget n (tp_nodes t) = Some nd /\ tn_kind nd = k.
Proof. intros N. unfold nodes_of. rewrite in_map_iff. split.
  - intros ([m nd] & E & H). cbn in E. subst m. apply filter_In in H as [H K]. exists nd. split; [apply In_dget; assumption|]. cbn in K. destruct (tn_kind nd), k; try discriminate; reflexivity.
  - intros (nd & G & K). exists (n, nd). split; [reflexivity|]. apply filter_In. split; [apply dget_In; exact G|]. cbn. rewrite K. destruct k; reflexivity. Qed.
Lemma sym_link u v t b d : Inv b t -> get_link u v t = Ok d -> get_link v u t = Ok d.
Proof. intros I G. apply get_link_in in G as (e & H & J & <-). unfold get_link. rewrite (find_sep _ v u e (inv_sep b t I) H); [reflexivity|]. rewrite joins_sym. exact J. Qed.
Lemma flat_iff b t x : Inv b t -> In x (flat t (sorted (links t))) <-> numbered t x.
Proof. intros I. unfold flat. rewrite in_concat. split.
  - intros (l & L & X). apply in_map_iff in L as (w & <- & W). unfold flat1 in X. destruct (get_link (fst w) (snd w) t) as [d|] eqn:G; [|destruct X].
    assert (Q : forall n v, get_link n v t = Ok d -> In x (tag t d n) -> numbered t x).
    { intros n v Gn Hx. apply in_tag in Hx as (nd & i & -> & E1 & E2 & E3). split; cbn [fst snd]; [|eauto].
      rewrite !nodes_of_iff by apply I. destruct (tn_kind nd) eqn:K; [left|congruence|right]; eauto. }
    apply in_app_or in X as [X|X]; [apply (Q _ _ G X)|apply (Q _ _ (sym_link _ _ _ _ _ I G) X)].
  - intros [K (v & d & G & D)]. destruct x as [n i]. cbn [fst snd] in *.
    assert (T : In (n, i) (tag t d n)).
    { apply in_tag. rewrite !nodes_of_iff in K by apply I. destruct K as [(nd & A & B)|(nd & A & B)]; exists nd, i; split; [reflexivity| |reflexivity|]; (split; [exact A|]); (split; [congruence|exact D]). }
    assert (L : has_link n v t = true) by (apply get_link_in in G as (e & H & J & _); apply has_link_in; eauto).
    apply (links_iff b t n v I) in L. destruct L as [L|L].
    + exists (flat1 t (n, v)). split; [apply in_map; apply (Permutation_in _ (Permutation_sym (sorted_perm _))); exact L|]. unfold flat1. cbn [fst snd]. rewrite G. apply in_or_app. left. exact T.
    + exists (flat1 t (v, n)). split; [apply in_map; apply (Permutation_in _ (Permutation_sym (sorted_perm _))); exact L|]. unfold flat1. cbn [fst snd].
      rewrite (sym_link _ _ _ _ _ I G). apply in_or_app. right. exact T. Qed.
Lemma links_NoDup b t : Inv b t -> NoDup (links t).
Proof. intros I. pose proof (edge_list_sep t (inv_names b t I) (inv_sep b t I)) as S. unfold links. induction S as [|x l F S IH]; cbn [map]; [constructor|]. constructor; [|exact IH].
  intros H. apply in_map_iff in H as (y & E & Y). rewrite Forall_forall in F. specialize (F y Y). rewrite (same_fst x x x y), same_refl in F by auto. discriminate. Qed.
Lemma link_pairs b t u v u2 v2 : Inv b t -> In (u, v) (links t) -> In (u2, v2) (links t) -> (u = u2 /\ v = v2) \/ (u = v2 /\ v = u2) -> (u, v) = (u2, v2).
Proof. intros I H1 H2 E. unfold links in *. apply in_map_iff in H1 as (x & X1 & X2). apply in_map_iff in H2 as (y & Y1 & Y2).
  pose proof (edge_list_sep t (inv_names b t I) (inv_sep b t I)) as S. rewrite <- X1, <- Y1. f_equal. apply (sep_unique _ S x y X2 Y2).
  unfold same. rewrite X1. destruct y as [[a c] d]. cbn [fst] in *. injection Y1 as -> ->. cbn [snd]. apply joins_iff. exact E. Qed.
Lemma flat_NoDup t : Inv true t -> (forall n, has_link n n t = false) -> NoDup (flat t (sorted (links t))).
Proof. intros I NS. pose proof (sorted_perm (links t)) as P. apply NoDup_flat.
  - eapply Permutation_NoDup; [symmetry; exact P|]. apply (links_NoDup true). exact I.
  - intros [u v] W. unfold flat1. cbn [fst snd]. destruct (get_link u v t) as [d|] eqn:G; [|constructor].
    assert (N : u <> v).
    { intros ->. apply get_link_in in G as (e & H & J & _). assert (has_link v v t = true) by (apply has_link_in; eauto). rewrite NS in *. discriminate. }
    apply NoDup_app.
    + unfold tag. destruct (dget u (tp_nodes t)); [|constructor]. destruct (kind_eqb _ _); [constructor|]. destruct (dget u d) as [[]|]; repeat constructor. intros [].
    + unfold tag. destruct (dget v (tp_nodes t)); [|constructor]. destruct (kind_eqb _ _); [constructor|]. destruct (dget v d) as [[]|]; repeat constructor. intros [].
    + intros x X1 X2. apply in_tag in X1 as (? & i & -> & _). apply in_tag in X2 as (? & j & E & _). injection E as E _. contradiction.
  - intros [u v] [u2 v2] x W1 W2 X1 X2. apply (Permutation_in _ P) in W1, W2. unfold flat1 in X1, X2. cbn [fst snd] in *.
    destruct (get_link u v t) as [d1|] eqn:G1; [|destruct X1]. destruct (get_link u2 v2 t) as [d2|] eqn:G2; [|destruct X2].
    pose proof (sym_link _ _ _ _ _ I G1) as G1'. pose proof (sym_link _ _ _ _ _ I G2) as G2'.
    apply (link_pairs true t u v u2 v2 I W1 W2).
    apply in_app_or in X1 as [X1|X1]; apply in_app_or in X2 as [X2|X2]; apply in_tag in X1 as (? & i & -> & _ & _ & D1); apply in_tag in X2 as (? & j & E & _ & _ & D2); injection E as -> <-.
    + left. split; [reflexivity|]. apply (link_distinct t u2 v v2 d1 d2 I G1 G2). congruence.
    + right. split; [reflexivity|]. apply (link_distinct t v2 v u2 d1 d2 I G1 G2'). congruence.
    + right. split; [|reflexivity]. apply (link_distinct t u2 u v2 d1 d2 I G1' G2). congruence.
    + left. split; [|reflexivity]. apply (link_distinct t v2 u u2 d1 d2 I G1' G2'). congruence. Qed.
(** Addresses of a prefix. *)
Lemma host_range addr plen z : 0 <= addr < 2 ^ 32 -> 0 <= plen <= 31 -> hosts_first addr plen <= z <= hosts_last addr plen ->
  0 <= z < 2 ^ 32 /\ z / 2 ^ (32 - plen) = addr / 2 ^ (32 - plen).
Proof. intros A P R. unfold hosts_first, hosts_last in R. set (q := 2 ^ (32 - plen)) in *.
  assert (Q : 0 < q) by (apply Z.pow_pos_nonneg; lia). assert (Q2 : plen = 31 -> q = 2) by (unfold q; intros ->; reflexivity).
  assert (E : 2 ^ 32 = q * 2 ^ plen) by (unfold q; rewrite <- Z.pow_add_r by lia; f_equal; lia).
  assert (B : addr - addr mod q = q * (addr / q)) by (pose proof (Z.div_mod addr q ltac:(lia)); lia).
  rewrite B in R. assert (RR : q * (addr / q) <= z < q * (addr / q) + q) by (destruct (Z.eqb_spec plen 31); lia).
  assert (D : z / q = addr / q) by (symmetry; apply (Z.div_unique z q (addr / q) (z - q * (addr / q))); lia).
  split; [|exact D]. assert (L : addr / q < 2 ^ plen) by (apply Z.div_lt_upper_bound; lia). assert (0 <= addr / q) by (apply Z.div_pos; lia). nia. Qed.
Lemma assign_ips_all p t : Inv true t -> snd (prefix_used p) <> 32 ->
  assign_ips p t = (fst (fst (assign_all (snd (prefix_used p)) (hosts_last (fst (prefix_used p)) (snd (prefix_used p))) (flat t (sorted (links t))) (t, hosts_first (fst (prefix_used p)) (snd (prefix_used p))))),
                   snd (assign_all (snd (prefix_used p)) (hosts_last (fst (prefix_used p)) (snd (prefix_used p))) (flat t (sorted (links t))) (t, hosts_first (fst (prefix_used p)) (snd (prefix_used p))))).
Proof. intros I P. unfold assign_ips. fold (prefix_used p). destruct (prefix_used p) as [addr plen]. cbn [fst snd] in *. rewrite assign_loop_all.
  - destruct (assign_all _ _ _ _). reflexivity.
  - exact P.
  - intros u v H. apply (Permutation_in _ (sorted_perm _)) in H. assert (L : has_link u v t = true) by (apply (links_iff true t u v I); auto).
    unfold has_link in L. apply existsb_exists in L as (e & E & J). exists (snd e). assert (G : get_link u v t = Ok (snd e)) by (unfold get_link; rewrite (find_sep _ u v e (inv_sep true t I) E J); reflexivity).
    split; [exact G|]. split; [destruct (link_end true t u v _ u I G (or_introl eq_refl)) as (nd & j & A & B & C & _)|destruct (link_end true t u v _ v I G (or_intror eq_refl)) as (nd & j & A & B & C & _)]; exists nd, (eth_name j); auto. Qed.
